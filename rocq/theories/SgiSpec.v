(** The layout of SGI image files, independently of the loader and the writer. *)
From Coq Require Import ZArith List Lia Bool.
From Verif Require Import Base Enums Image ImageSpec RleSpec.
Import ListNotations.
Open Scope Z_scope.

(** big-endian numbers in a file *)
Definition be2 (F : list Z) (p : Z) : Z := 256 * geti F p + geti F (p + 1).
Definition be4 (F : list Z) (p : Z) : Z := 16777216 * geti F p + 65536 * geti F (p + 1) + 256 * geti F (p + 2) + geti F (p + 3).

(** [F] starts with the 512-byte header of an image of [W] by [H] pixels and [N] channels: magic number,
    storage (0 verbatim, 1 run-length encoded), bytes per channel, dimension, sizes, least pixel value not
    negative; the rest is not interpreted *)
Definition sgi_head (F : list Z) (st bpc W H N : Z) : Prop :=
  512 <= zlen F /\ be2 F 0 = 474 /\ geti F 2 = st /\ geti F 3 = bpc /\ be2 F 4 <> 0 /\
  be2 F 6 = W /\ be2 F 8 = H /\ be2 F 10 = N /\ geti F 12 < 128.

(** verbatim: the planes follow the header, one byte per pixel, bottom line first *)
Definition sgi_verbatim (F : list Z) (W H k t x : Z) : Z := geti F (512 + k * (W * H) + (H - 1 - t) * W + x).

(** run-length encoded: a table of offsets, a table of lengths (4 bytes for each line of each plane), and
    line [y] of plane [k] (bottom line first) is the code at its offset; [px k y] is what it stands for *)
Definition sgi_coded (F : list Z) (W H N : Z) (px : Z -> Z -> list Z) : Prop :=
  512 + 8 * (N * H) <= zlen F /\
  forall k y, 0 <= k < N -> 0 <= y < H ->
    let off := be4 F (512 + 4 * (k * H + y)) in
    let len := be4 F (512 + 4 * (N * H) + 4 * (k * H + y)) in
    exists code, sgi_code code (px k y) /\ zlen (px k y) = W /\ zlen code <= len /\ off + zlen code <= zlen F /\ slice F off (zlen code) = code.

(** formats and their number of channels *)
Definition sgi_format (N : Z) : Z := if N =? 1 then IL_LUMINANCE else if N =? 3 then IL_RGB else IL_RGBA.
