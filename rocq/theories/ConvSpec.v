(** Specification vocabulary for conversions of pixel buffers: which component is stored where, what
    a component of the new pixel should hold, the numbers stored in elements. *)
From Coq Require Import ZArith List QArith.
From Verif Require Import Base Enums ChannelsSpec.
Import ListNotations.
Open Scope Z_scope.

(** Components of a pixel and their position in each format *)
Inductive comp := R | G | B | A | L.

Inductive comp_at : Z -> comp -> Z -> Prop :=
| at_rgb_r : comp_at IL_RGB R 0 | at_rgb_g : comp_at IL_RGB G 1 | at_rgb_b : comp_at IL_RGB B 2
| at_bgr_b : comp_at IL_BGR B 0 | at_bgr_g : comp_at IL_BGR G 1 | at_bgr_r : comp_at IL_BGR R 2
| at_rgba_r : comp_at IL_RGBA R 0 | at_rgba_g : comp_at IL_RGBA G 1 | at_rgba_b : comp_at IL_RGBA B 2 | at_rgba_a : comp_at IL_RGBA A 3
| at_bgra_b : comp_at IL_BGRA B 0 | at_bgra_g : comp_at IL_BGRA G 1 | at_bgra_r : comp_at IL_BGRA R 2 | at_bgra_a : comp_at IL_BGRA A 3
| at_l : comp_at IL_LUMINANCE L 0
| at_la_l : comp_at IL_LUMINANCE_ALPHA L 0 | at_la_a : comp_at IL_LUMINANCE_ALPHA A 1
| at_a : comp_at IL_ALPHA A 0.

Inductive colour_format : Z -> Prop :=
| cf_rgb : colour_format IL_RGB | cf_bgr : colour_format IL_BGR | cf_rgba : colour_format IL_RGBA | cf_bgra : colour_format IL_BGRA.

(** Element [c] of pixel [p] in a buffer of pixels with [nch] elements of [n] bytes *)
Definition sample (buf : list Z) (nch n p c : Z) : list Z := slice buf (p * (nch * n) + c * n) n.

(** What component [k] of a new pixel should be when the old pixel has format [Src]: the same
    component; for a colour made from a luminance, that luminance; an alpha that was not there is
    opaque; the colour of a pixel that had alpha only is zero. *)
Inductive what := Copied (i : Z) | Opaque | Zero.
Inductive should_be (Src : Z) : comp -> what -> Prop :=
| sb_same : forall k i, comp_at Src k i -> should_be Src k (Copied i)
| sb_grey : forall k i, k = R \/ k = G \/ k = B -> comp_at Src L i -> should_be Src k (Copied i)
| sb_opaque : (forall i, ~ comp_at Src A i) -> should_be Src A Opaque
| sb_black : forall k, k <> A -> Src = IL_ALPHA -> should_be Src k Zero.

Definition is_what (mid new : list Z) (sc dc m Ty p j : Z) (w : what) : Prop :=
  match w with
  | Copied i => sample new dc m p j = sample mid sc m p i
  | Opaque => full_alpha Ty (sample new dc m p j)
  | Zero => sample new dc m p j = repeat 0 (Z.to_nat m)
  end.

(** Pairs of formats for which conversion copies components (the others compute a luminance, or are
    listed among the findings) *)
Inductive copying : Z -> Z -> Prop :=
| cp_colour : forall s d n, channels s n -> s <> IL_COLOUR_INDEX -> colour_format d -> copying s d
| cp_same : forall s n, channels s n -> copying s s
| cp_l_la : copying IL_LUMINANCE IL_LUMINANCE_ALPHA
| cp_la_l : copying IL_LUMINANCE_ALPHA IL_LUMINANCE
| cp_a_la : copying IL_ALPHA IL_LUMINANCE_ALPHA
| cp_rgba_a : copying IL_RGBA IL_ALPHA
| cp_bgra_a : copying IL_BGRA IL_ALPHA.

(** Integer types with their size in bytes *)
Inductive int_type : Z -> Z -> Prop :=
| it_b : int_type IL_BYTE 1 | it_ub : int_type IL_UNSIGNED_BYTE 1
| it_s : int_type IL_SHORT 2 | it_us : int_type IL_UNSIGNED_SHORT 2
| it_i : int_type IL_INT 4 | it_ui : int_type IL_UNSIGNED_INT 4.
Inductive signed_type : Z -> Prop := st_b : signed_type IL_BYTE | st_s : signed_type IL_SHORT | st_i : signed_type IL_INT.

(** The number stored in little-endian bytes, and as two's complement *)
Fixpoint number (b : list Z) : Z := match b with [] => 0 | x :: b => x + 256 * number b end.
Definition signed_number (n v : Z) : Z := if v <? 2 ^ (8 * n - 1) then v else v - 2 ^ (8 * n).

(** Unsigned integer types of [n] bytes and floating types of [m] bytes with more significant bits:
    [p] significant bits, smallest exponent [emin] *)
Inductive fits_float : Z -> Z -> Z -> Z -> Z -> Z -> Prop :=
| ff_bf : fits_float IL_UNSIGNED_BYTE 1 IL_FLOAT 4 24 (-149)
| ff_sf : fits_float IL_UNSIGNED_SHORT 2 IL_FLOAT 4 24 (-149)
| ff_bd : fits_float IL_UNSIGNED_BYTE 1 IL_DOUBLE 8 53 (-1074)
| ff_sd : fits_float IL_UNSIGNED_SHORT 2 IL_DOUBLE 8 53 (-1074)
| ff_id : fits_float IL_UNSIGNED_INT 4 IL_DOUBLE 8 53 (-1074).

(** The number a nonnegative finite pattern stands for: fraction and exponent fields of IEEE 754 *)
Definition real (p emin bits : Z) : Q :=
  let E := bits / 2 ^ (p - 1) in
  let M := bits mod 2 ^ (p - 1) in
  if E =? 0 then (inject_Z M * (2 # 1) ^ emin)%Q else (inject_Z (M + 2 ^ (p - 1)) * (2 # 1) ^ (E - 1 + emin))%Q.

(** Patterns of [m] bytes: the sign bit; numbers and infinities have at most the pattern of infinity
    after it (an exponent field of ones and a fraction of zeros) *)
Definition negative (m bits : Z) : Prop := 2 ^ (8 * m - 1) <= bits.
Definition infinity (p m : Z) : Z := (2 ^ (8 * m - p) - 1) * 2 ^ (p - 1).
Definition not_nan (p m bits : Z) : Prop := bits mod 2 ^ (8 * m - 1) <= infinity p m.
