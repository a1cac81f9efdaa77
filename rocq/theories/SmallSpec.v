(** The layout of the small formats, independently of the loaders. *)
From Coq Require Import ZArith List Lia Bool.
From Verif Require Import Base Enums Image ImageSpec RleSpec BmpSpec SgiSpec.
Import ListNotations.
Open Scope Z_scope.

(** [im] is a well-formed image of [W] by [H] pixels with [N] one-byte channels, and [px x t c] is channel [c]
    of the pixel in column [x], [t] lines below the top *)
Definition shows (im : img) (W H N fmt : Z) (px : Z -> Z -> Z -> Z) : Prop :=
  exists buf, img_ok im buf /\ Width im = W /\ Height im = H /\ Depth im = 1 /\ Bpp im = N /\ Bpc im = 1 /\ Format im = fmt /\ Type_ im = IL_UNSIGNED_BYTE /\
    forall x t c, 0 <= x < W -> 0 <= t < H -> 0 <= c < N -> picture im buf x t 0 c = px x t c.

(** pixels stored from [o] on, line after line from the top, [N] bytes per pixel *)
Definition stored (F : list Z) (o W N x t c : Z) : Z := geti F (o + (t * W + x) * N + c).

(** ** Run-length codes *)
(** a line of a CUT file: a byte 1 .. 127 before that many literal bytes, or 128 more before one byte that
    is repeated *)
Inductive cut_row : list Z -> list Z -> Prop :=
| cut_nil : cut_row [] []
| cut_lit : forall px code data, 1 <= zlen px < 128 -> cut_row code data -> cut_row (zlen px :: px ++ code) (px ++ data)
| cut_run : forall n v code data, 1 <= n < 128 -> cut_row code data -> cut_row (128 + n :: v :: code) (rep (Z.to_nat n) [v] ++ data).
(** the lines: two bytes (the length of the code), the code, a zero *)
Inductive cut_lines : list (list Z) -> list Z -> Prop :=
| cut_done : cut_lines [] []
| cut_line : forall a b px code rows l, cut_row code px -> cut_lines rows l -> cut_lines (px :: rows) (a :: b :: code ++ 0 :: l).

(** a PIX picture: a count and the three bytes of a colour *)
Inductive pix_code : list Z -> list Z -> Prop :=
| pix_nil : pix_code [] []
| pix_run : forall n a b c code data, 0 <= n < 256 -> pix_code code data -> pix_code (n :: a :: b :: c :: code) (rep (Z.to_nat n) [a; b; c] ++ data).

(** a line of a run-length encoded SUN raster: a byte other than 128 for itself, 128 0 for 128, and 128 n v for
    n + 1 times v *)
Inductive sun_code : list Z -> list Z -> Prop :=
| sun_nil : sun_code [] []
| sun_lit : forall v code data, v <> 128 -> sun_code code data -> sun_code (v :: code) (v :: data)
| sun_128 : forall code data, sun_code code data -> sun_code (128 :: 0 :: code) (128 :: data)
| sun_run : forall n v code data, 1 <= n < 256 -> sun_code code data -> sun_code (128 :: n :: v :: code) (rep (Z.to_nat (n + 1)) [v] ++ data).
(** lines of [n] bytes, each followed by a byte of padding if [n] is odd *)
Inductive sun_lines (n : Z) : list (list Z) -> list Z -> Prop :=
| sun_done : sun_lines n [] []
| sun_line : forall px code pad rows l, sun_code code px -> zlen px = n -> zlen pad = n mod 2 -> sun_lines n rows l -> sun_lines n (px :: rows) (code ++ pad ++ l).

(** ** DOOM pictures *)
(** the posts of a column from [p] on: first row, number of rows, a byte of padding, the pixels, a byte of
    padding; 255 ends the column *)
Inductive doom_posts (F : list Z) : Z -> list (Z * list Z) -> Prop :=
| doom_end : forall p, 0 <= p < zlen F -> geti F p = 255 -> doom_posts F p []
| doom_more : forall p posts, 0 <= p -> p + 4 + geti F (p + 1) < zlen F -> geti F p <> 255 -> doom_posts F (p + 4 + geti F (p + 1)) posts ->
    doom_posts F p ((geti F p, slice F (p + 3) (geti F (p + 1))) :: posts).
(** row [y] of a column: the last post that covers it, [bg] if none does *)
Fixpoint doom_row (posts : list (Z * list Z)) (y bg : Z) : Z :=
  match posts with
  | [] => bg
  | (top, px) :: posts => doom_row posts y (if (top <=? y) && (y <? top + zlen px) then geti px (y - top) else bg)
  end.

(** the bytes [l] are in [F] at [p] *)
Definition here (F : list Z) (p : Z) (l : list Z) : Prop := 0 <= p /\ p + zlen l <= zlen F /\ slice F p (zlen l) = l.
(** the sizes and positions of the four levels of a WAL file *)
Definition wal_w (F : list Z) (k : Z) : Z := if k =? 0 then word4 F 32 else Z.max 1 (word4 F 32 / 2 ^ k).
Definition wal_h (F : list Z) (k : Z) : Z := if k =? 0 then word4 F 36 else Z.max 1 (word4 F 36 / 2 ^ k).
Definition wal_at (F : list Z) (k : Z) : Z := word4 F (40 + 4 * k).
(** the header of a PIX file: sizes, offsets, bits per pixel *)
Definition pix_head (F : list Z) (W H : Z) : Prop := 10 <= zlen F /\ be2 F 0 = W /\ be2 F 2 = H /\ be2 F 8 = 24.
(** [F] starts with the header of a raster: depth, type (2: run-length encoded, 3: RGB), kind and length of the colour map *)
Definition sun_head (F : list Z) (W H depth typ mt ml : Z) : Prop :=
  32 <= zlen F /\ be4 F 0 = 1504078485 /\ be4 F 4 = W /\ be4 F 8 = H /\ be4 F 12 = depth /\ be4 F 20 = typ /\ be4 F 24 = mt /\ be4 F 28 = ml.
(** the channels, the format and the palette of a raster *)
Definition sun_chans (depth : Z) : Z := if depth =? 8 then 1 else 3.
Definition sun_format (depth typ mt : Z) : Z := if depth =? 8 then (if mt =? 0 then IL_LUMINANCE else IL_COLOUR_INDEX) else if typ =? 3 then IL_RGB else IL_BGR.
Definition sun_pal (F : list Z) (depth mt ml : Z) : pal := if (depth =? 8) && (mt =? 1) then mkPal (Some (slice F 32 ml)) ml IL_PAL_RGB24 else mkPal None 0 IL_PAL_NONE.
