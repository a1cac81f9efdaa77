(** The Windows and OS/2 bitmap format (src-IL/src/il_bmp.cpp, include/il_bmp.h).

    Input comes from a memory lump, without the read-ahead cache (iPreCache is only called for the
    hint IL_FASTEST; Cache.v has the cache).  The machine is little-endian: the UShort, UInt, ...
    macros do nothing. *)
From Coq Require Import ZArith List Lia Bool.
From Verif Require Import Base Enums Utility Image Elem Flip Lump Channels Endian Pal Pcx.
Import ListNotations.
Open Scope Z_scope.

(** ** Headers *)

(** include/il_bmp.h:22-38 *)
Record bmphead := mkBmp {
  bfType : Z; bfSize : Z; bfReserved : Z; bfDataOff : Z; biSize : Z; biWidth : Z; biHeight : Z; biPlanes : Z;
  biBitCount : Z; biCompression : Z; biSizeImage : Z; biXPels : Z; biYPels : Z; biClrUsed : Z; biClrImportant : Z }.

(** il_bmp.cpp:68-86; [us i], [ui i] are the uninitialised locals of the i-th GetLittle... *)
Definition iGetBmpHead (us ui : Z -> list Z) (r : reader) : res (bmphead * reader) :=
  let! (ty, r) := GetLittleUShort (us 0) r in
  let! (sz, r) := GetLittleInt (ui 0) r in
  let! (rs, r) := GetLittleUInt (ui 1) r in
  let! (off, r) := GetLittleInt (ui 2) r in
  let! (hs, r) := GetLittleInt (ui 3) r in
  let! (w, r) := GetLittleInt (ui 4) r in
  let! (h, r) := GetLittleInt (ui 5) r in
  let! (pl, r) := GetLittleShort (us 1) r in
  let! (bc, r) := GetLittleShort (us 2) r in
  let! (co, r) := GetLittleInt (ui 6) r in
  let! (si, r) := GetLittleInt (ui 7) r in
  let! (xp, r) := GetLittleInt (ui 8) r in
  let! (yp, r) := GetLittleInt (ui 9) r in
  let! (cu, r) := GetLittleInt (ui 10) r in
  let! (ci, r) := GetLittleInt (ui 11) r in
  Ok (mkBmp ty sz rs off hs w h pl bc co si xp yp cu ci, r).

(** include/il_bmp.h:40-56 *)
Record os2head := mkOs2 { oType : Z; oDataOff : Z; cbFix : Z; cx : Z; cy : Z; cPlanes : Z; cBitCount : Z }.

(** int subtraction; overflow is undefined *)
Definition int_sub (a b : Z) : res Z := if a - b <? -2147483648 then UB else Ok (a - b).

(** il_bmp.cpp:89-110; [hb] is the uninitialised structure.  The size and the hot spot are not used. *)
Definition iGetOS2Head (hb : list Z) (r : reader) : res (os2head * reader) :=
  let! (n, b, r) := iReadLump hb 26 1 r in
  let h := mkOs2 (unle (slice b 0 2)) (unle (slice b 10 4)) (unle (slice b 14 4)) (unle (slice b 18 2)) (unle (slice b 20 2))
                 (unle (slice b 22 2)) (unle (slice b 24 2)) in
  if negb (n =? 1) then Ok (h, r)
  else
    let! off := int_sub (i32 (cbFix h)) 12 in
    let! (_, r) := iSeekRLump off IL_SEEK_CUR r in
    Ok (h, r).

(** il_bmp.cpp:132-150; 'B'|('M'<<8) is 19778 *)
Definition iCheckBmp (h : bmphead) : bool :=
  negb (negb (bfType h =? 19778) || negb (biSize h =? 0x28)) &&
  negb ((biHeight h =? 0) || (biWidth h <? 1)) &&
  negb (1 <? biPlanes h) &&
  case (biCompression h) [0; 1; 2; 3] &&
  negb ((biCompression h =? 3) && negb (biBitCount h =? 16) && negb (biBitCount h =? 32)) &&
  case (biBitCount h) [1; 4; 8; 16; 24; 32].

(** il_bmp.cpp:153-166 *)
Definition iCheckOS2 (h : os2head) : bool :=
  negb (negb (oType h =? 19778) || (oDataOff h <? 26) || (cbFix h <? 12)) &&
  (cPlanes h =? 1) && negb ((cx h =? 0) || (cy h =? 0)) && case (cBitCount h) [1; 4; 8; 24].

(** il_bmp.cpp:114-128 *)
Definition iIsValidBmp (us ui : Z -> list Z) (hb : list Z) (r : reader) : res (bool * reader) :=
  let! (h, r) := iGetBmpHead us ui r in
  let! (_, r) := iSeekRLump (-54) IL_SEEK_CUR r in
  if iCheckBmp h then Ok (true, r)
  else
    let! (o, r) := iGetOS2Head hb r in
    let! (_, r) := iSeekRLump (-54) IL_SEEK_CUR r in
    Ok (iCheckOS2 o, r).

(** ** Bit masks *)

(** include/il_bmp.h:90-93: the number of zero bits at the end of [t], at most [n] *)
Fixpoint zeros (n : nat) (t : Z) : Z := match n with O => 0 | S n => if Z.odd t then 0 else 1 + zeros n (t / 2) end.
(** include/il_bmp.h:97-100: the number of one bits at the end of [t], at most [n] *)
Fixpoint ones (n : nat) (t : Z) : Z := match n with O => 0 | S n => if Z.odd t then 1 + ones n (t / 2) else 0 end.
(** include/il_bmp.h:81-104 GetShiftFromMask: left and right shift.  If the first loop does not break, Mask is 0. *)
Definition GetShiftFromMask (Mask : Z) : Z * Z :=
  if Mask =? 0 then (0, 0)
  else let r := zeros 32 Mask in (8 - ones 8 (Z.shiftr Mask r), r).

(** a mask with its left and right shift *)
Definition mask := (Z * (Z * Z))%type.
(** ((Read & Mask) >> ShiftR) << ShiftL, stored in a byte; the value is an ILuint *)
Definition extract (v : Z) (m : mask) : Z :=
  let '(k, (l, rr)) := m in u8 (u32 (Z.shiftl (Z.shiftr (Z.land v k) rr) l)).
Definition masks16 : mask * mask * mask := ((31, (3, 0)), (992, (3, 5)), (31744, (3, 10))).
Definition masks32 : mask * mask * mask := ((255, (0, 0)), (65280, (0, 8)), (16711680, (0, 16))).
(** il_bmp.cpp:433-446, 508-521: blue, green and red mask; those of the file for biCompression 3 *)
Definition bmp_masks (h : bmphead) (def : mask * mask * mask) (r : reader) : res (mask * mask * mask * reader) :=
  if biCompression h =? 3 then
    let '(b, g, rd_) := def in
    let! off := int_sub (bfDataOff h) 12 in
    let! (_, r) := iSeekRLump off IL_SEEK_SET r in
    let! (rm, r) := get 4 (le 4 (fst rd_)) r in
    let! (gm, r) := get 4 (le 4 (fst g)) r in
    let! (bm, r) := get 4 (le 4 (fst b)) r in
    Ok ((bm, GetShiftFromMask bm), (gm, GetShiftFromMask gm), (rm, GetShiftFromMask rm), r)
  else Ok (def, r).

(** ** Reading pixels *)

(** iread(&v, n, 1) of a local variable that is used only if the read succeeds *)
Definition read_item (n : nat) (r : reader) : res (bool * Z * reader) :=
  let! (c, b, r) := iReadLump (repeat 0 n) (Z.of_nat n) 1 r in Ok (c =? 1, unle b, r).
(** iread(Padding, 1, PadSize) *)
Definition read_pad (PadSize : Z) (r : reader) : res reader :=
  let! (_, _, r) := iReadLump [0; 0; 0; 0] 1 PadSize r in Ok r.
(** iseek(PadSize, IL_SEEK_CUR) *)
Definition seek_pad (PadSize : Z) (r : reader) : res reader :=
  let! (_, r) := iSeekRLump PadSize IL_SEEK_CUR r in Ok r.

(** [n] iterations, until the body gives false *)
Fixpoint until {S : Type} (n : nat) (i : Z) (body : Z -> S -> res (bool * S)) (s : S) : res (bool * S) :=
  match n with
  | O => Ok (true, s)
  | S n => let! (ok, s) := body i s in if ok then until n (i + 1) body s else Ok (false, s)
  end.
Definition pix := (list Z * reader)%type.

(** il_bmp.cpp:374-381, 733-740: the bits of a byte, [base] is j * Width *)
Fixpoint put_bits (c : nat) (k ByteData W base i : Z) (d : list Z) : res (Z * list Z) :=
  match c with
  | O => Ok (i, d)
  | S c =>
      let! d := wr d (u32 (base + i)) (if Z.land ByteData k =? 0 then 0 else 1) in
      if W <=? i + 1 then Ok (i + 1, d) else put_bits c (Z.shiftr k 1) ByteData W base (i + 1) d
  end.
(** il_bmp.cpp:367-382, 727-741; each iteration reads a byte: [fuel] iterations are enough if there are fewer *)
Fixpoint row1 (fuel : nat) (W base i : Z) (d : list Z) (r : reader) : res (bool * pix) :=
  if i <? W then
    match fuel with
    | O => Fuel
    | S fuel =>
        let! (ok, ByteData, r) := read_item 1 r in
        if negb ok then Ok (false, (d, r))
        else
          let! (i, d) := put_bits 8 128 ByteData W base i d in
          row1 fuel W base i d r
    end
  else Ok (true, (d, r)).
(** il_bmp.cpp:397-406, 769-777 *)
Fixpoint row4 (fuel : nat) (W base i : Z) (d : list Z) (r : reader) : res (bool * pix) :=
  if i <? W then
    match fuel with
    | O => Fuel
    | S fuel =>
        let! (ok, ByteData, r) := read_item 1 r in
        if negb ok then Ok (false, (d, r))
        else
          let! d := wr d (u32 (base + i)) (Z.shiftr ByteData 4) in
          if i + 1 =? W then Ok (true, (d, r))
          else
            let! d := wr d (u32 (base + (i + 1))) (Z.land ByteData 0x0F) in
            row4 fuel W base (i + 2) d r
    end
  else Ok (true, (d, r)).

Definition pad1 (W : Z) : Z := ((32 - W mod 32) / 8) mod 4.
Definition pad4 (W : Z) : Z := ((8 - W mod 8) / 2) mod 4.
Definition padb (Bps : Z) : Z := (4 - Bps mod 4) mod 4.

(** the rows of 1 and 4 bits; [skip] skips the padding *)
Definition rows1 (skip : Z -> reader -> res reader) (W H : Z) (d : list Z) (r : reader) : res (bool * pix) :=
  until (Z.to_nat H) 0 (fun j '(d, r) =>
    let! (ok, (d, r)) := row1 (Z.to_nat W) W (u32 (j * W)) 0 d r in
    if ok then let! r := skip (pad1 W) r in Ok (true, (d, r)) else Ok (false, (d, r))) (d, r).
Definition rows4 (skip : Z -> reader -> res reader) (W H : Z) (d : list Z) (r : reader) : res (bool * pix) :=
  until (Z.to_nat H) 0 (fun j '(d, r) =>
    let! (ok, (d, r)) := row4 (Z.to_nat W) W (u32 (j * W)) 0 d r in
    if ok then let! r := skip (pad4 W) r in Ok (true, (d, r)) else Ok (false, (d, r))) (d, r).

(** il_bmp.cpp:455-466; k is 3 * (j * Width + i) *)
Definition rows16 (m : mask * mask * mask) (W H : Z) (d : list Z) (r : reader) : res (bool * pix) :=
  let '(mb, mg, mr) := m in
  until (Z.to_nat H) 0 (fun j '(d, r) =>
    let! (ok, (d, r)) := until (Z.to_nat W) 0 (fun i '(d, r) =>
      let! (ok, v, r) := read_item 2 r in
      if negb ok then Ok (false, (d, r))
      else
        let k := 3 * (j * W + i) in
        let! d := wr d (u32 k) (extract v mb) in
        let! d := wr d (u32 (k + 1)) (extract v mg) in
        let! d := wr d (u32 (k + 2)) (extract v mr) in
        Ok (true, (d, r))) (d, r) in
    if ok then let! r := read_pad (padb (u32 (W * 2))) r in Ok (true, (d, r)) else Ok (false, (d, r))) (d, r).

(** iread(Data + off, 1, n) != n *)
Definition read_row (off n : Z) (d : list Z) (r : reader) : res (bool * pix) :=
  let! (c, b, r) := iReadLump (slice d off (zlen d - off)) 1 n r in Ok (c =? n, (splice d off b, r)).
(** il_bmp.cpp:485-492; i is an ILuint *)
Fixpoint rows8 (fuel : nat) (Bps SizeOfPlane i : Z) (d : list Z) (r : reader) : res (bool * pix) :=
  if i <? SizeOfPlane then
    match fuel with
    | O => Fuel
    | S fuel =>
        let! (ok, (d, r)) := read_row i Bps d r in
        if negb ok then Ok (false, (d, r))
        else
          let! r := read_pad (4 - Bps mod 4) r in
          rows8 fuel Bps SizeOfPlane (u32 (i + Bps)) d r
    end
  else Ok (true, (d, r)).
(** il_bmp.cpp:530-539 *)
Fixpoint rows32 (fuel : nat) (m : mask * mask * mask) (SizeOfData i : Z) (d : list Z) (r : reader) : res (bool * pix) :=
  if i <? SizeOfData then
    match fuel with
    | O => Fuel
    | S fuel =>
        let! (ok, v, r) := read_item 4 r in
        if negb ok then Ok (false, (d, r))
        else
          let '(mb, mg, mr) := m in
          let! d := wr d i (extract v mb) in
          let! d := wr d (u32 (i + 1)) (extract v mg) in
          let! d := wr d (u32 (i + 2)) (extract v mr) in
          rows32 fuel m SizeOfData (u32 (i + 3)) d r
    end
  else Ok (true, (d, r)).

(** enough iterations: each one reads at least a byte *)
Definition lump_fuel (r : reader) : nat := S (length (rlump r)).

(** il_bmp.cpp:354-545: the pixels, by bit count *)
Definition bmp_pixels (h : bmphead) (im : img) (d : list Z) (r : reader) : res (bool * pix) :=
  let W := Width im in let H := Height im in let b := biBitCount h in
  if b =? 1 then rows1 read_pad W H d r
  else if b =? 4 then rows4 read_pad W H d r
  else if b =? 16 then
    let! (m, r) := bmp_masks h masks16 r in rows16 m W H d r
  else if (b =? 8) || (b =? 24) then
    if padb (Bps im) =? 0 then read_row 0 (SizeOfPlane im) d r
    else rows8 (lump_fuel r) (Bps im) (SizeOfPlane im) 0 d r
  else if b =? 32 then
    let! (m, r) := bmp_masks h masks32 r in rows32 (lump_fuel r) m (SizeOfData im) 0 d r
  else Ok (false, (d, r)).

(** biClrUsed * 4, an int product *)
Definition clr_bytes (n : Z) : res Z :=
  if (4 * n <? -2147483648) || (2147483647 <? 4 * n) then UB else Ok (u32 (4 * n)).

(** il_bmp.cpp:263-548 ilReadUncompBmp *)
Definition ilReadUncompBmp (alloc : allocator) (old : img) (h : bmphead) (r : reader) : res (bool * img * reader) :=
  let b := biBitCount h in
  let Bpp0 := if b <? 8 then 1 else u8 (Z.shiftr b 3) in
  let Bpp := if (Bpp0 =? 2) || (Bpp0 =? 4) then 3 else Bpp0 in
  let! height := abs_int (biHeight h) in
  let! (ok, im, _) := ilInitImage alloc old (u32 (biWidth h)) height 1 Bpp 0 IL_UNSIGNED_BYTE None in
  if negb ok then Ok (false, im, r)
  else
    let! (size, ty) :=
      (if b =? 1 then Ok (8, IL_PAL_BGR32)
       else if (b =? 4) || (b =? 8) then
         let! s := (if biClrUsed h =? 0 then Ok 1024 else clr_bytes (biClrUsed h)) in
         Ok (if b =? 4 then 64 else s, IL_PAL_BGR32)
       else Ok (0, IL_PAL_NONE)) in
    let im := with_Format im (if ty =? IL_PAL_NONE then IL_BGR else IL_COLOUR_INDEX) in
    let im := with_Origin im (if biHeight h <? 0 then IL_ORIGIN_UPPER_LEFT else IL_ORIGIN_LOWER_LEFT) in
    match (if ty =? IL_PAL_NONE then Some [] else alloc size), Data im with
    | None, _ => Ok (false, with_Pal (with_Origin im IL_ORIGIN_LOWER_LEFT) (mkPal None size ty), r)
    | _, None => UB
    | Some p, Some d =>
        let! (_, r) := iSeekRLump 54 IL_SEEK_SET r in
        let! (n, p, r) := iReadLump p 1 size r in
        let im := if ty =? IL_PAL_NONE then im else with_Pal im (mkPal (Some p) size ty) in
        if negb (n =? size) then Ok (false, im, r)
        else
          let! (_, r) := iSeekRLump (bfDataOff h) IL_SEEK_SET r in
          let! (ok, (d, r)) := bmp_pixels h im d r in
          Ok (ok, with_Data im (Some d), r)
    end.

(** ** Run-length encoded bitmaps *)

(** iread(Data + off, n, 1) != 1 *)
Definition read_block (off n : Z) (d : list Z) (r : reader) : res (bool * pix) :=
  let! (c, b, r) := iReadLump (slice d off (zlen d - off)) n 1 r in Ok (c =? 1, (splice d off b, r)).

(** il_bmp.cpp:587-621: offset and endOfLine are 64-bit numbers, which do not overflow *)
Fixpoint rle8 (fuel : nat) (W Size offset endOfLine : Z) (d : list Z) (r : reader) : res (bool * pix) :=
  if offset <? Size then
    match fuel with
    | O => Fuel
    | S fuel =>
        let! (ok, v, r) := read_item 2 r in
        if negb ok then Ok (false, (d, r))
        else
          let b0 := v mod 256 in let b1 := v / 256 in
          if b0 =? 0 then
            if b1 =? 0 then rle8 fuel W Size endOfLine (endOfLine + W) d r
            else if b1 =? 1 then rle8 fuel W Size Size endOfLine d r
            else if b1 =? 2 then
              let! (ok, v, r) := read_item 2 r in
              if negb ok then Ok (false, (d, r))
              else
                let c0 := v mod 256 in let c1 := v / 256 in
                rle8 fuel W Size (offset + u32 (c0 + c1 * W)) (endOfLine + u32 (c1 * W)) d r
            else
              let count := Z.min b1 (Size - offset) in
              let! (ok, (d, r)) := read_block offset count d r in
              if negb ok then Ok (false, (d, r))
              else if Z.odd count then
                let! (ok, _, r) := read_item 1 r in
                if negb ok then Ok (false, (d, r)) else rle8 fuel W Size (offset + count) endOfLine d r
              else rle8 fuel W Size (offset + count) endOfLine d r
          else
            let count := Z.min b0 (Size - offset) in
            let! d := memset d offset b1 count in
            rle8 fuel W Size (offset + count) endOfLine d r
    end
  else Ok (true, (d, r)).

(** il_bmp.cpp:690-701: [n] pixels left, [b0] is Bytes[0] *)
Fixpoint lit4 (n : nat) (i b0 offset : Z) (d : list Z) (r : reader) : res (bool * pix) :=
  match n with
  | O => Ok (true, (d, r))
  | S n =>
      let! (ok, b0, r) := (if Z.odd i then Ok (true, b0, r) else read_item 1 r) in
      if negb ok then Ok (false, (d, r))
      else
        let! d := wr d offset (if Z.odd i then Z.land b0 0x0F else Z.shiftr b0 4) in
        lit4 n (i + 1) b0 (offset + 1) d r
  end.

(** il_bmp.cpp:666-717 *)
Fixpoint rle4 (fuel : nat) (W Size offset endOfLine : Z) (d : list Z) (r : reader) : res (bool * pix) :=
  if offset <? Size then
    match fuel with
    | O => Fuel
    | S fuel =>
        let! (ok, v, r) := read_item 2 r in
        if negb ok then Ok (false, (d, r))
        else
          let b0 := v mod 256 in let b1 := v / 256 in
          if b0 =? 0 then
            if b1 =? 0 then rle4 fuel W Size endOfLine (endOfLine + W) d r
            else if b1 =? 1 then rle4 fuel W Size Size endOfLine d r
            else if b1 =? 2 then
              let! (ok, v, r) := read_item 2 r in
              if negb ok then Ok (false, (d, r))
              else
                let c0 := v mod 256 in let c1 := v / 256 in
                rle4 fuel W Size (offset + u32 (c0 + c1 * W)) (endOfLine + u32 (c1 * W)) d r
            else
              let count := Z.min b1 (Size - offset) in
              let! (ok, (d, r)) := lit4 (Z.to_nat count) 0 b0 offset d r in
              if negb ok then Ok (false, (d, r))
              else
                let align := b1 mod 4 in
                if (align =? 1) || (align =? 2) then
                  let! (ok, _, r) := read_item 1 r in
                  if negb ok then Ok (false, (d, r)) else rle4 fuel W Size (offset + count) endOfLine d r
                else rle4 fuel W Size (offset + count) endOfLine d r
          else
            let count := Z.min b0 (Size - offset) in
            let! d := loop 0 count (fun i d => wr d (offset + i) (if Z.odd i then Z.land b1 0x0F else Z.shiftr b1 4)) d in
            rle4 fuel W Size (offset + count) endOfLine d r
    end
  else Ok (true, (d, r)).

(** il_bmp.cpp:551-623 ilReadRLE8Bmp ([four] = false) and 629-720 ilReadRLE4Bmp ([four] = true) *)
Definition ilReadRLEBmp (four : bool) (alloc : allocator) (old : img) (h : bmphead) (r : reader) : res (bool * img * reader) :=
  let! height := abs_int (biHeight h) in
  let! (ok, im, _) := ilInitImage alloc old (u32 (biWidth h)) height 1 1 0 IL_UNSIGNED_BYTE None in
  if negb ok then Ok (false, im, r)
  else
    let im := with_Format im IL_COLOUR_INDEX in
    let! size := (if four then Ok 64 else let! s := clr_bytes (biClrUsed h) in Ok (if s =? 0 then 1024 else s)) in
    match alloc size, Data im with
    | None, _ => Ok (false, with_Pal im (mkPal None size IL_PAL_BGR32), r)
    | _, None => UB
    | Some p, Some d =>
        let im := with_Origin im (if biHeight h <? 0 then IL_ORIGIN_UPPER_LEFT else IL_ORIGIN_LOWER_LEFT) in
        let! (_, r) := iSeekRLump 54 IL_SEEK_SET r in
        let! (n, p, r) := iReadLump p size 1 r in
        let im := with_Pal im (mkPal (Some p) size IL_PAL_BGR32) in
        if negb (n =? 1) then Ok (false, im, r)
        else
          let! (_, r) := iSeekRLump (bfDataOff h) IL_SEEK_SET r in
          let! (ok, (d, r)) := (if four then rle4 else rle8) (lump_fuel r) (Width im) (SizeOfData im) 0 (biWidth h) d r in
          Ok (ok, with_Data im (Some d), r)
    end.

(** ** OS/2 bitmaps *)

(** il_bmp.cpp:846-852 *)
Definition os2_rows (Bps H : Z) (d : list Z) (r : reader) : res (bool * pix) :=
  until (Z.to_nat H) 0 (fun i '(d, r) =>
    let! (ok, (d, r)) := read_row (u32 (i * Bps)) Bps d r in
    if ok then let! r := seek_pad (padb Bps) r in Ok (true, (d, r)) else Ok (false, (d, r))) (d, r).

(** il_bmp.cpp:726-856 iGetOS2Bmp *)
Definition iGetOS2Bmp (alloc : allocator) (old : img) (h : os2head) (r : reader) : res (bool * img * reader) :=
  let b := cBitCount h in
  let! (ok, im, _) := ilInitImage alloc old (cx h) (cy h) 1 (if b =? 24 then 3 else 1) (if b =? 24 then IL_BGR else IL_COLOUR_INDEX) IL_UNSIGNED_BYTE None in
  if negb ok then Ok (false, im, r)
  else
    let size := if b =? 1 then 6 else if b =? 4 then 48 else if b =? 8 then 768 else 0 in
    match (if b =? 24 then Some [] else alloc size), Data im with
    | None, _ => Ok (false, im, r)
    | _, None => UB
    | Some p, Some d =>
        let! (n, p, r) := (if b =? 24 then Ok (0, p, r) else iReadLump p 1 size r) in
        let im := if b =? 24 then im else with_Pal im (mkPal (Some p) size IL_PAL_BGR24) in
        if negb (n =? size) then Ok (false, im, r)
        else
          let! (_, r) := iSeekRLump (i32 (oDataOff h)) IL_SEEK_SET r in
          let! (ok, (d, r)) :=
            (if b =? 1 then rows1 seek_pad (Width im) (Height im) d r
             else if b =? 4 then rows4 seek_pad (Width im) (Height im) d r
             else if padb (Bps im) =? 0 then read_row 0 (SizeOfData im) d r
             else os2_rows (Bps im) (Height im) d r) in
          Ok (ok, with_Data im (Some d), r)
    end.

(** il_bmp.cpp:212-259 iLoadBitmapInternal.  ilFixImage is the identity when IL_ORIGIN_SET, IL_TYPE_SET,
    IL_FORMAT_SET and IL_CONV_PAL are disabled. *)
Definition iLoadBitmapInternal (alloc : allocator) (old : img) (us ui : Z -> list Z) (hb : list Z) (r : reader) : res (bool * img * reader) :=
  let! (h, r) := iGetBmpHead us ui r in
  if negb (iCheckBmp h) then
    let! (_, r) := iSeekRLump (-54) IL_SEEK_CUR r in
    let! (o, r) := iGetOS2Head hb r in
    if negb (iCheckOS2 o) then Ok (false, old, r) else iGetOS2Bmp alloc old o r
  else if negb (biPlanes h =? 1) then Ok (false, old, r)
  else if (biCompression h =? 0) || (biCompression h =? 3) then ilReadUncompBmp alloc old h r
  else ilReadRLEBmp (biCompression h =? 2) alloc old h r.

(** il_bmp.cpp:203-207 ilLoadBmpL *)
Definition ilLoadBmpL (alloc : allocator) (old : img) (us ui : Z -> list Z) (hb Lump : list Z) : res (bool * img * reader) :=
  iLoadBitmapInternal alloc old us ui hb (iSetInputLump Lump (zlen Lump)).

(** ** Saving *)

(** il_bmp.cpp:1021-1026: [n] rows from row [y] *)
Definition bmp_rows (im : img) (td : list Z) (k : saver) : saver :=
  let pad := padb (Bps im) in
  if pad =? 0 then Write td 1 (SizeOfPlane im) k
  else for_s (Z.to_nat (SizeOfPlane im / Bps im)) 0 (fun y k =>
         Write (slice td (y * Bps im) (zlen td - y * Bps im)) 1 (Bps im) (Write [0; 0; 0; 0] 1 pad k)) k.

(** il_bmp.cpp:891-1047 iSaveBitmapInternal.  [None]: outside the modelled part, where the image must be
    converted first (formats other than BGR, BGRA and COLOUR_INDEX, channels of more than one byte).  The
    rows are counted by SizeOfPlane / Bps, which is exact for consistent images. *)
Definition iSaveBitmapInternal (alloc : allocator) (im : img) : res (option (bool * saver)) :=
  let start k := Putc 66 (fun _ => Putc 77 (fun _ => SaveLittleUInt 0 (SaveLittleUInt 0 k))) in
  let! tp :=
    (if match Palette (Pal im) with Some _ => negb (PalSize (Pal im) =? 0) && negb (PalType (Pal im) =? IL_PAL_NONE) | None => false end
     then if PalType (Pal im) =? IL_PAL_BGR32 then Ok (Some (Pal im))
          else let! (p, _) := iConvertPal alloc (Pal im) IL_PAL_BGR32 in Ok p
     else Ok (Some (Pal im))) in
  match tp with
  | None => Ok (Some (false, start Done))
  | Some tp =>
      if negb (case (Format im) [IL_BGR; IL_BGRA; IL_COLOUR_INDEX]) || (1 <? Bpc im) then Ok None
      else
        let! td := (if negb (Origin im =? IL_ORIGIN_LOWER_LEFT) then iGetFlipped alloc im else Ok (Data im)) in
        let! cols := (if PalType (Pal im) =? IL_PAL_NONE then Ok 0 else pal_num_cols (Pal im)) in
        match td with
        | None => Ok (Some (false, start (SaveLittleUInt (54 + PalSize tp) Done)))
        | Some td =>
            let pd := match Palette tp with Some p => p | None => [] end in
            Ok (Some (true, start
              (SaveLittleUInt (54 + PalSize tp)
              (SaveLittleUInt 0x28 (SaveLittleUInt (Width im) (SaveLittleInt (Height im)
              (SaveLittleUShort 1 (SaveLittleUShort (u16 (Bpp im * 8)) (SaveLittleInt 0
              (SaveLittleInt 0 (SaveLittleInt 0 (SaveLittleInt 0
              (SaveLittleInt cols (SaveLittleInt 0
              (Write pd 1 (PalSize tp)
              (bmp_rows im td
              (Tell (fun FileSize => Seek 2 IL_SEEK_SET (fun _ => SaveLittleUInt FileSize (Seek FileSize IL_SEEK_SET (fun _ => Done)))))))))))))))))))))
        end
  end.
