(** Windows icons, independently of the loader: the directory, the icons, their pixels. *)
From Coq Require Import ZArith List Bool.
From Verif Require Import Base Enums Image ImageSpec BmpSpec SmallSpec.
Import ListNotations.
Open Scope Z_scope.

(** ** The directory: a header of 6 bytes, with the number of icons in the last two, and 16 bytes per icon, with the
    offset of the icon in the last four *)
Definition icons_in (F : list Z) : Z := int2 F 4.
Definition icon_off (F : list Z) (i : Z) : Z := word4 F (6 + 16 * i + 12).

(** ** An icon at [o]: a header of 40 bytes, which says twice the height; the palette; the lines of the colours and
    of the mask, from the bottom up *)
Definition icon_w (F : list Z) (o : Z) : Z := int4 F (o + 4).
Definition icon_h (F : list Z) (o : Z) : Z := int4 F (o + 8) / 2.
Definition icon_bits (F : list Z) (o : Z) : Z := int2 F (o + 14).
(** lines fill four bytes *)
Definition line_size (b W : Z) : Z := (W * b + 31) / 32 * 4.
(** the palette: four bytes per colour; 256 colours for 8 bits, for fewer bits as many as the header says or, if it
    does not, as many as there can be *)
Definition icon_pal (F : list Z) (o : Z) : Z :=
  let b := icon_bits F o in let used := int4 F (o + 32) in
  if b <? 8 then 4 * (if used =? 0 then 2 ^ b else used) else if b =? 8 then 1024 else 0.
Definition pal_ok (b n : Z) : Prop := b < 8 -> 4 * 2 ^ b <= n < 2147483648.
Definition colours_at (n o : Z) : Z := o + 40 + n.
Definition mask_at (n b W H o : Z) : Z := colours_at n o + line_size b W * H.
Definition icon_end (n b W H o : Z) : Z := mask_at n b W H o + line_size 1 W * H.
Definition depth (b : Z) : Prop := b = 1 \/ b = 4 \/ b = 8 \/ b = 24 \/ b = 32.
(** a whole icon of 1, 4, 8, 24 or 32 bits per pixel *)
Definition icon_ok (F : list Z) (o : Z) : Prop :=
  let W := icon_w F o in let H := icon_h F o in let b := icon_bits F o in let n := icon_pal F o in
  0 <= o /\ int4 F o = 40 /\ 1 <= W /\ 1 <= H /\ depth b /\ pal_ok b n /\ W * b + 7 < 2147483648 /\ W * 4 * H < 4294967296 /\ icon_end n b W H o <= zlen F.
(** an icon whose header is there, and not all of the rest *)
Definition icon_cut (F : list Z) (o : Z) : Prop :=
  let W := icon_w F o in let H := icon_h F o in let b := icon_bits F o in let n := icon_pal F o in
  0 <= o /\ int4 F o = 40 /\ 1 <= W /\ 1 <= H /\ depth b /\ pal_ok b n /\ W * b + 7 < 2147483648 /\ W * 4 * H < 4294967296 /\ o + 40 < zlen F < icon_end n b W H o.

(** whether the mask hides the pixel at column [x] of line [y] from the bottom *)
Definition hidden (F : list Z) (m W x y : Z) : bool := Z.testbit (geti F (m + y * line_size 1 W + x / 8)) (7 - x mod 8).
(** the number at column [x] of a line from [k] with [b] bits per column, the first ones in the upper bits *)
Definition digit (F : list Z) (k b x : Z) : Z := geti F (k + x * b / 8) / 2 ^ (8 - b - x * b mod 8) mod 2 ^ b.
(** channel [c] (blue, green, red, opacity) of the pixel at column [x] of line [y] from the bottom *)
Definition icon_px (F : list Z) (o n b W H x y c : Z) : Z :=
  let k := colours_at n o + y * line_size b W in
  if b =? 32 then geti F (k + 4 * x + c)
  else if c =? 3 then (if hidden F (mask_at n b W H o) W x y then 0 else 255)
  else if b =? 24 then geti F (k + 3 * x + c)
  else geti F (o + 40 + 4 * digit F k b x + c).
(** the image shows the icon at [o] *)
Definition shows_icon (F : list Z) (im : img) (o : Z) : Prop :=
  SmallSpec.shows im (icon_w F o) (icon_h F o) 4 IL_BGRA (fun x t c => icon_px F o (icon_pal F o) (icon_bits F o) (icon_w F o) (icon_h F o) x (icon_h F o - 1 - t) c).
