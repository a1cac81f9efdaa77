(** The layout of Windows bitmap files, from the description of BITMAPFILEHEADER and BITMAPINFOHEADER. *)
From Coq Require Import ZArith List Bool.
From Verif Require Import Base EndianProps.
Import ListNotations.
Open Scope Z_scope.

(** the numbers stored at an offset of a file, lowest byte first *)
Definition word2 (F : list Z) (o : Z) : Z := geti F o + 256 * geti F (o + 1).
Definition word4 (F : list Z) (o : Z) : Z := word2 F o + 65536 * word2 F (o + 2).
Definition int2 (F : list Z) (o : Z) : Z := if word2 F o <? 32768 then word2 F o else word2 F o - 65536.
Definition int4 (F : list Z) (o : Z) : Z := if word4 F o <? 2147483648 then word4 F o else word4 F o - 4294967296.

(** the two headers, 54 bytes: file size, offset of the pixels, width, height, bits per pixel, compression, number of
    colours in the palette *)
Definition bmp_header (size off w h bits comp colours : Z) : list Z :=
  [66; 77] ++ little4 size ++ little4 0 ++ little4 off ++
  little4 40 ++ little4 w ++ little4 h ++ little2 1 ++ little2 bits ++ little4 comp ++
  little4 0 ++ little4 0 ++ little4 0 ++ little4 colours ++ little4 0.

(** rows are padded to a multiple of four bytes *)
Definition bmp_stride (w bits : Z) : Z := (w * bits + 31) / 32 * 4.

(** the colour of a field of a pixel value: the field is [n] bits wide and begins at bit [s]; it is the upper part of
    the byte *)
Definition field (v s n : Z) : Z := v / 2 ^ s mod 2 ^ n * 2 ^ (8 - n).

(** channel [k] (blue, green, red; or the palette index) of pixel [x] in a row that begins at offset [p] of the file *)
Definition sample (bits : Z) (F : list Z) (p x k : Z) : Z :=
  if bits =? 1 then geti F (p + x / 8) / 2 ^ (7 - x mod 8) mod 2
  else if bits =? 4 then (if Z.even x then geti F (p + x / 2) / 16 else geti F (p + x / 2) mod 16)
  else if bits =? 8 then geti F (p + x)
  else if bits =? 16 then field (word2 F (p + 2 * x)) (5 * k) 5
  else if bits =? 24 then geti F (p + 3 * x + k)
  else geti F (p + 4 * x + k).

(** the same for a bitmap with colour masks: the mask of channel [k] has [n] bits and begins at bit [s] *)
Definition mask_bits (m s n : Z) : Prop := 0 <= s /\ 1 <= n /\ s + n <= 32 /\ m = (2 ^ n - 1) * 2 ^ s.
Definition pixel_value (bits : Z) (F : list Z) (p x : Z) : Z := if bits =? 16 then word2 F (p + 2 * x) else word4 F (p + 4 * x).

(** run-length encoding: the cursor is at column [x] of row [y]; [ps] are the pixels that are painted, as column, row and
    value.  [four]: two pixels in a byte, the upper half first. *)
Definition pick (four : bool) (c i : Z) : Z := if four then (if Z.even i then c / 16 else c mod 16) else c.
Definition painted (x y n : Z) (value : Z -> Z) : list (Z * Z * Z) :=
  map (fun i => (x + Z.of_nat i, y, value (Z.of_nat i))) (seq 0 (Z.to_nat n)).
Definition literal (four : bool) (data : list Z) (i : Z) : Z := if four then pick true (geti data (i / 2)) i else geti data i.
Definition literal_bytes (four : bool) (n : Z) : Z := if four then (n + 1) / 2 else n.

Inductive rle_stream (four : bool) (w h : Z) : Z -> Z -> list Z -> list (Z * Z * Z) -> Prop :=
| RleEnd : forall x y rest, rle_stream four w h x y ([0; 1] ++ rest) []
| RleFull : forall x y rest, h <= y \/ (y = h - 1 /\ w <= x) -> rle_stream four w h x y rest []
| RleLine : forall x y rest ps, rle_stream four w h 0 (y + 1) rest ps -> rle_stream four w h x y ([0; 0] ++ rest) ps
| RleDelta : forall x y dx dy rest ps, 0 <= dx < 256 -> 0 <= dy < 256 -> x + dx <= w ->
    rle_stream four w h (x + dx) (y + dy) rest ps -> rle_stream four w h x y ([0; 2; dx; dy] ++ rest) ps
| RleRun : forall x y n c rest ps, 1 <= n < 256 -> 0 <= c < 256 -> x + n <= w -> y < h ->
    rle_stream four w h (x + n) y rest ps -> rle_stream four w h x y ([n; c] ++ rest) (painted x y n (pick four c) ++ ps)
| RleLiteral : forall x y n data pad rest ps, 3 <= n < 256 -> bytes data -> zlen data = literal_bytes four n -> zlen pad = zlen data mod 2 -> x + n <= w -> y < h ->
    rle_stream four w h (x + n) y rest ps ->
    rle_stream four w h x y ([0; n] ++ data ++ pad ++ rest) (painted x y n (literal four data) ++ ps).

(** the value of a pixel after painting: that of the last time it was painted *)
Definition colour_of (ps : list (Z * Z * Z)) (x y unpainted : Z) : Z :=
  fold_left (fun v '(a, b, c) => if (a =? x) && (b =? y) then c else v) ps unpainted.

(** a bitmap file (the version with a 40-byte header): width, height (negative: the top row first), bits per pixel,
    compression, offset of the pixels, number of colours *)
Definition bmp_file (F : list Z) (w h bits comp off colours : Z) : Prop :=
  54 <= zlen F < 2147483648 /\ bytes F /\
  geti F 0 = 66 /\ geti F 1 = 77 /\ int4 F 10 = off /\ int4 F 14 = 40 /\ int4 F 18 = w /\ int4 F 22 = h /\
  int2 F 26 = 1 /\ int2 F 28 = bits /\ int4 F 30 = comp /\ int4 F 46 = colours.
(** the size of the palette: four bytes for each colour *)
Definition bmp_palette (bits colours : Z) : Z :=
  if bits =? 1 then 8 else if bits =? 4 then 64 else if bits =? 8 then (if colours =? 0 then 1024 else 4 * colours) else 0.
(** the row of the file that is the t-th from the top of the picture *)
Definition bmp_row (h t : Z) : Z := if h <? 0 then t else h - 1 - t.
