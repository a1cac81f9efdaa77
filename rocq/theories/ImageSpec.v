(** Specification vocabulary for images: what a well-formed image is, and its pixels. *)
From Coq Require Import ZArith List.
From Verif Require Import Base Enums Image.
Import ListNotations.
Open Scope Z_scope.

(** The exact product of dimensions, channels and channel size *)
Definition exact_size (w h d bpp bpc : Z) : Z := w * bpp * bpc * h * d.

(** An image whose bookkeeping is exact and whose pixel buffer is [buf] *)
Definition img_ok (im : img) (buf : list Z) : Prop :=
  Data im = Some buf /\
  1 <= Width im /\ 1 <= Height im /\ 1 <= Depth im /\
  1 <= Bpp im < 256 /\ (Bpc im = 1 \/ Bpc im = 2 \/ Bpc im = 4 \/ Bpc im = 8) /\
  Bps im = Width im * (Bpp im * Bpc im) /\
  SizeOfPlane im = Bps im * Height im /\
  SizeOfData im = SizeOfPlane im * Depth im /\
  SizeOfData im < 2 ^ 32 /\
  zlen buf = SizeOfData im.

(** Offset of byte [k] of pixel (x, y, z) (row [y] counted in storage order) *)
Definition pix_off (im : img) (x y z k : Z) : Z :=
  z * (Height im * (Width im * (Bpp im * Bpc im))) + y * (Width im * (Bpp im * Bpc im))
  + x * (Bpp im * Bpc im) + k.

(** Coordinates inside the image; [k] ranges over the bytes of one pixel *)
Definition in_image (im : img) (x y z k : Z) : Prop :=
  0 <= x < Width im /\ 0 <= y < Height im /\ 0 <= z < Depth im /\ 0 <= k < Bpp im * Bpc im.

(** Byte [k] of the pixel in column [x], [t] rows below the TOP of the picture, slice [z]:
    rows are stored top first iff the origin is upper left. *)
Definition picture (im : img) (buf : list Z) (x t z k : Z) : Z :=
  let y := if Origin im =? IL_ORIGIN_UPPER_LEFT then t else Height im - 1 - t in
  geti buf (pix_off im x y z k).
