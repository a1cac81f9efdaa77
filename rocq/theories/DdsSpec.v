(** DirectDraw surface files, independently of the loader: the header, fields of pixels, the levels of detail. *)
From Coq Require Import ZArith List Bool.
From Verif Require Import Base Enums Image ImageSpec BmpSpec DxtSpec.
Import ListNotations.
Open Scope Z_scope.

(** ** The header: 128 bytes *)
Definition dds_name : list Z := [68; 68; 83; 32].   (* "DDS " *)
Definition dds_header (F : list Z) (W H : Z) : Prop :=
  128 <= zlen F /\ slice F 0 4 = dds_name /\ word4 F 4 = 124 /\ word4 F 76 = 32 /\ word4 F 16 = W /\ word4 F 12 = H /\ 0 < W /\ 0 < H.
(** flag [k] of the number at [o] *)
Definition flag (F : list Z) (o k : Z) : bool := Z.testbit (word4 F o) k.
(** the slices of a volume texture (flag 21 of the capabilities at 112); other textures have one *)
Definition depth_of (F : list Z) : Z := if flag F 112 21 then Z.max 1 (word4 F 24) else 1.
(** the levels of detail (flag 17 at 8), at least one *)
Definition levels_of (F : list Z) : Z := if flag F 8 17 then Z.max 1 (word4 F 28) else 1.
Definition cube (F : list Z) : Prop := flag F 108 3 = true /\ flag F 112 9 = true.

(** the size of the data of the first level: it need not be stated (no flag, or 0), is computed for volumes, is stated
    exactly (flag 19), or the length of a line is stated (flag 3), which only pixels have that are not compressed *)
Definition size_stated (F : list Z) (size : Z) (lines : bool) : Prop :=
  1 < word4 F 24 \/ word4 F 20 = 0 \/ (flag F 8 19 = false /\ flag F 8 3 = false) \/
  (flag F 8 19 = true /\ word4 F 20 = size) \/ (flag F 8 19 = false /\ lines = true).

(** ** Pixels with fields given by masks *)

(** [m] is the mask of the [n] bits from [s] on, in pixels of [bits] bits; without bits there is no such field *)
Definition mask_of (m n s bits : Z) : Prop := 0 <= n <= 8 /\ 0 <= s /\ s + n <= bits /\ m = (2 ^ n - 1) * 2 ^ s.
Definition bits_at (v n s : Z) : Z := v / 2 ^ s mod 2 ^ n.
(** the eight-bit value of a colour: the bits come first *)
Definition colour8_of (v n s : Z) : Z := bits_at v n s * 2 ^ (8 - n).
(** the eight-bit value of alpha: one bit is all or nothing, two to four bits are repeated once *)
Definition alpha8_of (v n s : Z) : Z :=
  if n =? 1 then 255 * bits_at v n s
  else if (2 <=? n) && (n <=? 4) then bits_at v n s * 2 ^ (8 - n) + bits_at v n s * 2 ^ (4 - n)
  else bits_at v n s * 2 ^ (8 - n).

(** red, green, blue and alpha as (number of bits, position) *)
Record fields := mkFields { rn : Z; rs : Z; gn : Z; gs : Z; bn : Z; bs : Z; an : Z; as_ : Z }.
(** the header has these masks *)
Definition masks (F : list Z) (q : fields) (bits : Z) : Prop :=
  mask_of (word4 F 92) (rn q) (rs q) bits /\ mask_of (word4 F 96) (gn q) (gs q) bits /\ mask_of (word4 F 100) (bn q) (bs q) bits /\ mask_of (word4 F 104) (an q) (as_ q) bits.

(** channel [k] of a pixel [v] with [N] channels: luminance (in the red field), luminance and alpha, RGB, RGBA *)
Definition channel_of (q : fields) (N v k : Z) : Z :=
  if k =? 0 then colour8_of v (rn q) (rs q)
  else if N =? 2 then alpha8_of v (an q) (as_ q)
  else if k =? 1 then colour8_of v (gn q) (gs q)
  else if k =? 2 then colour8_of v (bn q) (bs q)
  else alpha8_of v (an q) (as_ q).

(** the flags (at 80) that say that pixels with [N] channels are not compressed: not FOURCC (2), luminance (17), alpha (0) *)
Definition uncompressed (F : list Z) (N : Z) : Prop :=
  flag F 80 2 = false /\ flag F 80 17 = (N <=? 2) /\ flag F 80 0 = Z.even N.
Definition fmt_of (N : Z) : Z := if N =? 1 then IL_LUMINANCE else if N =? 2 then IL_LUMINANCE_ALPHA else if N =? 3 then IL_RGB else IL_RGBA.

(** the sizes of pixels that are read right, for each number of channels *)
Definition readable (N S : Z) : Prop := N = 1 /\ 1 <= S <= 3 \/ N = 2 /\ 2 <= S <= 3 \/ N = 3 /\ 2 <= S <= 3 \/ N = 4 /\ S = 4.
(** the pixels [S] bytes each, line after line from the top and slice after slice, from [o] on *)
Definition stored_fields (F : list Z) (q : fields) (N S o W H x t z k : Z) : Z :=
  channel_of q N (number (slice F (o + ((z * H + t) * W + x) * S) S)) k.
(** bytes as they are, [S] of each pixel *)
Definition stored_bytes (F : list Z) (S o W H x t z k : Z) : Z := geti F (o + ((z * H + t) * W + x) * S + k).

(** ** Images *)
(** an image of W by H by D pixels with N channels of type [ty], [b] bytes each: [px x t z k] is byte [k] of a pixel *)
Definition shows (im : img) (W H D N b ty : Z) (px : Z -> Z -> Z -> Z -> Z) : Prop :=
  exists buf, img_ok im buf /\ Width im = W /\ Height im = H /\ Depth im = D /\ Bpp im = N /\ Bpc im = b /\ Format im = fmt_of N /\ Type_ im = ty /\
    Origin im = IL_ORIGIN_UPPER_LEFT /\
    forall x t z k, 0 <= x < W -> 0 <= t < H -> 0 <= z < D -> 0 <= k < N * b -> picture im buf x t z k = px x t z k.

(** half the size, but at least one *)
Definition halved (n : Z) : Z := Z.max 1 (n / 2).
(** the levels of detail lie one after the other from [o] on; a level of W by H by D pixels takes [size W H D]
    bytes and its picture is [px o W H] *)
Fixpoint levels (size : Z -> Z -> Z -> Z) (N b ty : Z) (px : Z -> Z -> Z -> Z -> Z -> Z -> Z -> Z) (o W H D : Z) (ims : list img) : Prop :=
  match ims with
  | [] => True
  | im :: ims => shows im W H D N b ty (px o W H) /\ levels size N b ty px (o + size W H D) (halved W) (halved H) (halved D) ims
  end.
(** the bytes [n] levels take *)
Fixpoint all_levels (size : Z -> Z -> Z -> Z) (n : nat) (W H D : Z) : Z :=
  match n with O => 0 | S n => size W H D + all_levels size n (halved W) (halved H) (halved D) end.
(** the sizes the theorems are about: 64 times the blocks of four by four pixels are below 2^31 *)
Definition moderate (W H D : Z) : Prop := 1 <= W /\ 1 <= H /\ 1 <= D /\ 64 * (quads W * quads H * D) < 2147483648.
