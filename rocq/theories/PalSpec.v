(** What palettes and palette files mean, independently of how the library treats them. *)
From Coq Require Import ZArith List Bool.
From Verif Require Import Base Enums.
Import ListNotations.
Open Scope Z_scope.

(** ** Palettes *)
Definition pal_type (t : Z) : Prop :=
  In t [IL_PAL_RGB24; IL_PAL_RGB32; IL_PAL_RGBA32; IL_PAL_BGR24; IL_PAL_BGR32; IL_PAL_BGRA32].
(** bytes per colour, blue first, with alpha *)
Definition colour_size (t : Z) : Z := if (t =? IL_PAL_RGB24) || (t =? IL_PAL_BGR24) then 3 else 4.
Definition blue_first (t : Z) : bool := (t =? IL_PAL_BGR24) || (t =? IL_PAL_BGR32) || (t =? IL_PAL_BGRA32).
Definition with_alpha (t : Z) : bool := (t =? IL_PAL_RGBA32) || (t =? IL_PAL_BGRA32).

(** red, green, blue and alpha of colour [i] of a palette of type [t] with the bytes [d]; the types without
    alpha are opaque *)
Record rgba := RGBA { red : Z; green : Z; blue : Z; alpha : Z }.
Definition colour (t : Z) (d : list Z) (i : Z) : rgba :=
  let e := i * colour_size t in
  let x := geti d e in let y := geti d (e + 1) in let z := geti d (e + 2) in
  if blue_first t then RGBA z y x (if with_alpha t then geti d (e + 3) else 255)
  else RGBA x y z (if with_alpha t then geti d (e + 3) else 255).
(** the colour as far as the type [t] can hold it *)
Definition held (t : Z) (c : rgba) : rgba := if with_alpha t then c else RGBA (red c) (green c) (blue c) 255.

(** ** Paint Shop Pro palette files: three lines of header, then a line for each colour *)

(** [w] is the number [v] in decimal, without needless zeros *)
Definition value (w : list Z) : Z := fold_left (fun a c => 10 * a + (c - 48)) w 0.
Definition decimal (v : Z) (w : list Z) : Prop :=
  w <> [] /\ Forall (fun c => 48 <= c <= 57) w /\ value w = v /\ (1 < zlen w -> 48 < geti w 0).

(** three numbers in a line ending in a newline *)
Inductive psp_line : Z -> Z -> Z -> list Z -> Prop :=
| PspLine : forall r g b x y z, decimal r x -> decimal g y -> decimal b z -> psp_line r g b (x ++ [32] ++ y ++ [32] ++ z ++ [10]).
Inductive psp_lines : list rgba -> list Z -> Prop :=
| PspNil : psp_lines [] []
| PspCons : forall c cs l ls, psp_line (red c) (green c) (blue c) l -> psp_lines cs ls -> psp_lines (c :: cs) (l ++ ls).
(** "JASC-PAL", "0100" and the number of colours, then the colours *)
Inductive psp_file : list rgba -> list Z -> Prop :=
| PspFile : forall cs n ls, decimal (zlen cs) n -> psp_lines cs ls ->
    psp_file cs ([74; 65; 83; 67; 45; 80; 65; 76; 10] ++ [48; 49; 48; 48; 10] ++ n ++ [10] ++ ls).
