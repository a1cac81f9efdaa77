(** Windows icons (src-IL/src/il_icon.cpp).  Entries in the PNG format are a parameter.  ilFixImage is the identity,
    as no conversion state is set.  What the functions of il_endian find on the stack in a file that is too short
    is the same at every call.  Indices into the data of an icon are not reduced to 32 bits (an access past the
    data is [UB] before that).  The errors reported are those of this file. *)
From Coq Require Import ZArith List Lia Bool.
From Verif Require Import Base Enums Utility Image Elem Lump Endian.
Import ListNotations.
Open Scope Z_scope.

(** ICOIMAGE and the fields of INFOHEAD that are used, include/il_icon.h:41-62 *)
Record icon := mkIcon { CSize : Z; CWidth : Z; CHeight : Z; CBits : Z; CPal : option (list Z); CData : option (list Z); CAnd : option (list Z) }.

(** an int; overflow is undefined *)
Definition int (n : Z) : res Z := if (-2147483648 <=? n) && (n <? 2147483648) then Ok n else UB.
(** il_icon.cpp:179-182, 191: the bytes of a line of [b] bits per pixel, with and without padding; int arithmetic *)
Definition row (W b : Z) : res Z := let! m := int (W * b) in let! m := int (m + 7) in Ok (Z.quot m 8).
Definition padding (n : Z) : Z := u32 (Z.rem (4 - Z.rem n 4) 4).
Definition lines (n H : Z) : Z := u32 (u32 (n + padding n) * u32 (Z.quot H 2)).

(** il_icon.cpp:169-173, 185-189, 192-196: iread(..., 1, n) == n into a new block; [None]: out of memory or too short *)
Definition ReadBlock (alloc : allocator) (n : Z) (r : reader) : res (option (list Z) * reader) :=
  match alloc n with
  | None => Ok (None, r)
  | Some b =>
      let! (c, b, r) := iReadLump b 1 n r in
      Ok (if c =? n then Some b else None, r)
  end.
(** il_icon.cpp:162-166: iread(..., n, 1) == 1 into a new block of n bytes, where n is an int *)
Definition ReadItem (alloc : allocator) (n : Z) (r : reader) : res (option (list Z) * reader) :=
  match alloc n with
  | None => Ok (None, r)
  | Some b =>
      let! (c, b, r) := iReadLump b (u32 n) 1 r in
      Ok (if c =? 1 then Some b else None, r)
  end.
(** il_icon.cpp:119: strnicmp(PNGTest, "PNG", 3) == 0 *)
Definition lower (c : Z) : Z := if (65 <=? c) && (c <=? 90) then c + 32 else c.
Definition is_png (t : list Z) : bool := (lower (geti t 0) =? 112) && (lower (geti t 1) =? 110) && (lower (geti t 2) =? 103).

(** il_icon.cpp:150-177: the palette; the outer [None]: an error *)
Definition ReadPal (alloc : allocator) (bits used : Z) (r : reader) : res (option (option (list Z)) * reader) :=
  if bits <? 8 then
    let used := if used =? 0 then (if bits =? 1 then 2 else if bits =? 4 then 16 else 0) else used in
    let! n := int (used * 4) in
    let! (p, r) := ReadItem alloc n r in
    Ok (match p with None => None | Some p => Some (Some p) end, r)
  else if bits =? 8 then
    let! (p, r) := ReadBlock alloc 1024 r in
    Ok (match p with None => None | Some p => Some (Some p) end, r)
  else Ok (Some None, r).

(** il_icon.cpp:114-197: the icon at offset [off]; [None]: file_read_error.  [t3] is PNGTest before it is read. *)
Definition ReadIcon (alloc : allocator) (png : reader -> res (option icon * reader)) (u4 u2 t3 : list Z) (off : Z) (r : reader) : res (option icon * reader) :=
  let! (_, r) := iSeekRLump (i32 off) IL_SEEK_SET r in
  let! (_, r) := iGetcLump r in
  let! (_, t, r) := iReadLump t3 3 1 r in
  let! (_, r) := iSeekRLump (i32 off) IL_SEEK_SET r in
  if is_png t then png r
  else
    let! (sz, r) := GetLittleInt u4 r in
    let! (W, r) := GetLittleInt u4 r in
    let! (H, r) := GetLittleInt u4 r in
    let! (_, r) := GetLittleShort u2 r in
    let! (bits, r) := GetLittleShort u2 r in
    let! (_, r) := GetLittleInt u4 r in
    let! (_, r) := GetLittleInt u4 r in
    let! (_, r) := GetLittleInt u4 r in
    let! (_, r) := GetLittleInt u4 r in
    let! (used, r) := GetLittleInt u4 r in
    let! (_, r) := GetLittleInt u4 r in
    if iEofLump r then Ok (None, r)
    else
      let! (p, r) := ReadPal alloc bits used r in
      match p with
      | None => Ok (None, r)
      | Some p =>
          let! n := row W bits in
          let! (d, r) := ReadBlock alloc (lines n H) r in
          match d with
          | None => Ok (None, r)
          | Some d =>
              let! n := row W 1 in
              let! (a, r) := ReadBlock alloc (lines n H) r in
              match a with
              | None => Ok (None, r)
              | Some a => Ok (Some (mkIcon sz W H bits p (Some d) (Some a)), r)
              end
          end
      end.
(** il_icon.cpp:113-198 *)
Fixpoint ReadIcons (alloc : allocator) (png : reader -> res (option icon * reader)) (u4 u2 t3 : list Z) (offs : list Z) (r : reader) : res (option (list icon)) :=
  match offs with
  | [] => Ok (Some [])
  | off :: offs =>
      let! (i, r) := ReadIcon alloc png u4 u2 t3 off r in
      match i with
      | None => Ok None
      | Some i =>
          let! l := ReadIcons alloc png u4 u2 t3 offs r in
          Ok (match l with None => None | Some l => Some (i :: l) end)
      end
  end.

(** il_icon.cpp:99-111: the entries of the directory, of which only the offset is used *)
Fixpoint ReadEntries (n : nat) (u4 u2 : list Z) (r : reader) : res (option (list Z) * reader) :=
  match n with
  | O => Ok (Some [], r)
  | S n =>
      let! (_, r) := iGetcLump r in
      let! (_, r) := iGetcLump r in
      let! (_, r) := iGetcLump r in
      let! (_, r) := iGetcLump r in
      let! (_, r) := GetLittleShort u2 r in
      let! (_, r) := GetLittleShort u2 r in
      let! (_, r) := GetLittleUInt u4 r in
      let! (off, r) := GetLittleUInt u4 r in
      if iEofLump r then Ok (None, r)
      else
        let! (l, r) := ReadEntries n u4 u2 r in
        Ok (match l with None => None | Some l => Some (off :: l) end, r)
  end.

(** ** The pixels *)
(** a pointer that may be NULL *)
Definition rdp (p : option (list Z)) (i : Z) : res Z := match p with None => UB | Some l => rd l i end.
(** the state of the loops: the pixels, the indices k and CurAndByte, the mask l, the column x *)
Record paint := mkPaint { PD : list Z; PK : Z; PL : Z; PA : Z; PX : Z }.
(** il_icon.cpp:310-322 and 331-343: the next pixel; [st]: what the loop adds to k *)
Definition next (w pad apad st : Z) (s : paint) : paint :=
  let l := Z.shiftr (PL s) 1 in
  let x := PX s + 1 in
  if (l =? 0) || (x =? w) then
    if x =? w then mkPaint (PD s) (PK s + pad + st) 128 (PA s + 1 + apad) 0
    else mkPaint (PD s) (PK s + st) 128 (PA s + 1) x
  else mkPaint (PD s) (PK s + st) l (PA s) x.
(** il_icon.cpp:241, 264, 273, 308, 330 *)
Definition Opacity (c : icon) (s : paint) : res Z :=
  let! a := rdp (CAnd c) (PA s) in Ok (if negb (Z.land a (PL s) =? 0) then 0 else 255).
(** the four bytes of a pixel, il_icon.cpp:238-241 and the like *)
Definition put4 (d : list Z) (j b g r a : Z) : res (list Z) :=
  let! d := wr d j b in let! d := wr d (j + 1) g in let! d := wr d (j + 2) r in wr d (j + 3) a.
(** il_icon.cpp:297-324 *)
Definition Paint8 (c : icon) (w pad apad j : Z) (s : paint) : res paint :=
  let! i := rdp (CData c) (PK s) in
  let! b := rdp (CPal c) (i * 4) in
  let! g := rdp (CPal c) (i * 4 + 1) in
  let! r := rdp (CPal c) (i * 4 + 2) in
  let! a := (match CAnd c with None => rdp (CPal c) (i * 4 + 3) | Some _ => Opacity c s end) in
  let! d := put4 (PD s) j b g r a in
  Ok (next w pad apad 1 (mkPaint d (PK s) (PL s) (PA s) (PX s))).
(** il_icon.cpp:325-345 *)
Definition Paint24 (c : icon) (w pad apad j : Z) (s : paint) : res paint :=
  let! b := rdp (CData c) (PK s) in
  let! g := rdp (CData c) (PK s + 1) in
  let! r := rdp (CData c) (PK s + 2) in
  let! a := Opacity c s in
  let! d := put4 (PD s) j b g r a in
  Ok (next w pad apad 3 (mkPaint d (PK s) (PL s) (PA s) (PX s))).
(** il_icon.cpp:347-357 *)
Definition Paint32 (c : icon) (j : Z) (s : paint) : res paint :=
  let! b := rdp (CData c) (PK s) in
  let! g := rdp (CData c) (PK s + 1) in
  let! r := rdp (CData c) (PK s + 2) in
  let! a := rdp (CData c) (PK s + 3) in
  let! d := put4 (PD s) j b g r a in
  Ok (mkPaint d (PK s + 4) (PL s) (PA s) (PX s)).
(** il_icon.cpp:238-245, 261-276: the colour at index [i] of the palette with the transparency of the current pixel, stored at [j] *)
Definition Indexed (c : icon) (i j : Z) (s : paint) : res paint :=
  let! b := rdp (CPal c) (i * 4) in
  let! g := rdp (CPal c) (i * 4 + 1) in
  let! r := rdp (CPal c) (i * 4 + 2) in
  let! a := Opacity c s in
  let! d := put4 (PD s) j b g r a in
  Ok (mkPaint d (PK s) (Z.shiftr (PL s) 1) (PA s) (PX s + 1)).
(** il_icon.cpp:247-256 and 285-294 *)
Definition line_end (w pad apad : Z) (s : paint) : paint :=
  if (PL s =? 0) || (PX s =? w) then
    if PX s =? w then mkPaint (PD s) (PK s + pad + 1) 128 (PA s + 1 + apad) 0
    else mkPaint (PD s) (PK s + 1) 128 (PA s + 1) (PX s)
  else mkPaint (PD s) (PK s + 1) (PL s) (PA s) (PX s).
(** il_icon.cpp:237-246: the pixels of a byte [v], from bit [m] down *)
Fixpoint Bits (n : nat) (c : icon) (w v m j : Z) (s : paint) : res (Z * paint) :=
  match n with
  | O => Ok (j, s)
  | S n =>
      if PX s <? w then
        let! s := Indexed c (if Z.land v m =? 0 then 0 else 1) j s in
        Bits n c w v (Z.shiftr m 1) (j + 4) s
      else Ok (j, s)
  end.
(** il_icon.cpp:235-258 *)
Fixpoint Paint1 (fuel : nat) (c : icon) (w pad apad size j : Z) (s : paint) : res paint :=
  if j <? size then
    match fuel with
    | O => Fuel
    | S fuel =>
        (* the byte is read for each pixel; x < w holds here unless w is 0 *)
        let! v := rdp (CData c) (PK s) in
        let! (j, s) := Bits 8 c w v 128 j s in
        Paint1 fuel c w pad apad size j (line_end w pad apad s)
    end
  else Ok s.
(** il_icon.cpp:259-296 *)
Fixpoint Paint4 (fuel : nat) (c : icon) (w pad apad size j : Z) (s : paint) : res paint :=
  if j <? size then
    match fuel with
    | O => Fuel
    | S fuel =>
        let! v := rdp (CData c) (PK s) in
        let! s := Indexed c (v / 16) j s in
        if PX s <? w then
          let! s := Indexed c (v mod 16) (j + 4) s in
          Paint4 fuel c w pad apad size (j + 8) (line_end w pad apad s)
        else Paint4 fuel c w pad apad size (j + 4) (line_end w pad apad s)
    end
  else Ok s.

(** il_icon.cpp:227-357: the pixels of an icon into an image with data [d] *)
Definition Paint (c : icon) (size : Z) (d : list Z) : res (list Z) :=
  let w := u32 (CWidth c) in
  let pad := u32 (4 - u32 (u32 (w * CBits c) + 7) / 8 mod 4) mod 4 in
  let apad := u32 (4 - u32 (w + 7) / 8 mod 4) mod 4 in
  let s := mkPaint d 0 128 0 0 in
  let! s := (if CBits c =? 1 then Paint1 (Z.to_nat size) c w pad apad size 0 s
             else if CBits c =? 4 then Paint4 (Z.to_nat size) c w pad apad size 0 s
             else if CBits c =? 8 then stride 0 size 4 (Paint8 c w pad apad) s
             else if CBits c =? 24 then stride 0 size 4 (Paint24 c w pad apad) s
             else stride 0 size 4 (Paint32 c) s) in
  Ok (PD s).
(** il_icon.cpp:202-205 *)
Definition known (b : Z) : bool := (b =? 1) || (b =? 4) || (b =? 8) || (b =? 24) || (b =? 32).
(** il_icon.cpp:201-358: the images; [old] is the image that becomes the first one.  The result of ilTexImage is not
    looked at, that of ilNewImage is dereferenced. *)
Definition fresh_icon : img := mkImg 0 0 0 0 0 0 None 0 0 0 0 0 (mkPal None 0 0) 0 0 0 0.
Fixpoint Images (alloc : allocator) (base : bool) (old : img) (l : list icon) : res (list img) :=
  match l with
  | [] => Ok (if base then [] else [old])
  | c :: l =>
      if negb (known (CBits c)) then Images alloc base old l
      else
        let H := if CSize c =? 0 then u32 (CHeight c) else u32 (Z.quot (CHeight c) 2) in
        let! (ok, im, _) := ilInitImage alloc (if base then fresh_icon else old) (u32 (CWidth c)) H 1 4 (if base then ilGetFormatBpp 4 else IL_BGRA) IL_UNSIGNED_BYTE None in
        if base && negb ok then UB
        else
          let im := if base then with_Format im IL_BGRA else with_Origin im IL_ORIGIN_LOWER_LEFT in
          match Data im with
          | None => if SizeOfData im =? 0 then let! l := Images alloc true old l in Ok (im :: l) else UB
          | Some d =>
              let! d := Paint c (SizeOfData im) d in
              let! l := Images alloc true old l in
              Ok (with_Data im (Some d) :: l)
          end
  end.

(** iLoadIconInternal, il_icon.cpp:63-386, on a current image: the result and the image with those that follow it.
    Two blocks are allocated for the directory: 16 and 64 bytes (as laid out on 64-bit systems) per entry. *)
Definition iLoadIconInternal (alloc : allocator) (png : reader -> res (option icon * reader)) (u4 u2 t3 : list Z) (old : img) (r : reader) : res (bool * list img) :=
  let! (_, r) := GetLittleShort u2 r in
  let! (_, r) := GetLittleShort u2 r in
  let! (n, r) := GetLittleShort u2 r in
  if iEofLump r then Ok (false, [old])
  else
    match alloc (16 * n), alloc (64 * n) with
    | Some _, Some _ =>
        let! (offs, r) := ReadEntries (Z.to_nat n) u4 u2 r in
        match offs with
        | None => Ok (false, [old])
        | Some offs =>
            let! l := ReadIcons alloc png u4 u2 t3 offs r in
            match l with
            | None => Ok (false, [old])
            | Some l => let! ims := Images alloc false old l in Ok (true, ims)
            end
        end
    | _, _ => Ok (false, [old])
    end.
