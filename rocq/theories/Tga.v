(** The Targa format (src-IL/src/il_targa.cpp).

    Input comes from a memory lump, without the read-ahead cache (iPreCache is only called for the
    hint IL_FASTEST; Cache.v has the cache).  Strings are given without their terminating zero. *)
From Coq Require Import ZArith List Lia Bool.
From Verif Require Import Base Enums Utility Image Elem Flip Lump Channels Endian Rle Pcx.
Import ListNotations.
Open Scope Z_scope.

(** ** Saving *)

(** "Developer's Image Library (DevIL)", il_targa.cpp:608 *)
Definition idString : list Z :=
  [68; 101; 118; 101; 108; 111; 112; 101; 114; 39; 115; 32; 73; 109; 97; 103; 101; 32; 76; 105; 98; 114; 97; 114; 121;
   32; 40; 68; 101; 118; 73; 76; 41].
(** "TRUEVISION-XFILE." and the zero that ends it, il_targa.cpp:607, 820 *)
Definition Footer : list Z := [84; 82; 85; 69; 86; 73; 83; 73; 79; 78; 45; 88; 70; 73; 76; 69; 46; 0].

(** il_targa.cpp:773-820: the extension area and the footer.  [date] are the six numbers of
    iGetDateTime: month, day, year, hour, minute, second. *)
Definition tga_tail (ExtOffset : Z) : saver :=
  for_s 6 0 (fun _ k => SaveLittleUShort 0 k)
  (putn 41 0
  (for_s 3 0 (fun _ k => SaveLittleUShort 0 k)
  (Write idString 1 (zlen idString) (putn (Z.to_nat (u32 (41 - zlen idString))) 0
  (SaveLittleUShort 180 (Putc 32 (fun _ =>
  SaveLittleUInt 0 (SaveLittleUInt 0 (SaveLittleUInt 0 (SaveLittleUInt 0 (SaveLittleUInt 0 (SaveLittleUInt 0
  (Putc 3 (fun _ =>
  SaveLittleUInt ExtOffset (SaveLittleUInt 0 (Write Footer 1 (zlen Footer) Done)))))))))))))))).
Definition tga_ext (AuthName AuthComment date : list Z) : saver :=
  Tell (fun ExtOffset =>
  SaveLittleUShort 495
  (Write AuthName 1 (zlen AuthName) (putn (Z.to_nat (u32 (41 - zlen AuthName))) 0
  (Write AuthComment 1 (zlen AuthComment) (putn (Z.to_nat (u32 (324 - zlen AuthComment))) 0
  (fold_right (fun d k => SaveLittleUShort (u16 d) k) (tga_tail ExtOffset) date)))))).

(** il_targa.cpp:741-746: image descriptor.  The [|=] adds the bit, which is not set before. *)
Definition tga_desc (im : img) : Z :=
  Z.lor (if 3 <? Bpp im then 8 else 0) (if Origin im =? IL_ORIGIN_UPPER_LEFT then 0x20 else 0).

(** il_targa.cpp:671-820 after the two first bytes: [ci] is the current image (after 651 for RGB and RGBA),
    which is also TempImage as its channels have one byte; [tdata] is TempData; [body] writes the pixels
    (757-771).  A palette size above 32767 colours is truncated by the two bytes of SaveLittleShort. *)
Definition tga_rest (ci : img) (typ psize pent : Z) (ID : list Z) (pal : option (list Z)) (body : saver -> saver) (ext : saver) : saver :=
  Write [typ] 1 1 (SaveLittleShort 0 (SaveLittleShort psize (Write [pent] 1 1
  (Write [0; 0] 2 1 (Write [0; 0] 2 1
  (SaveLittleUShort (u16 (Width ci)) (SaveLittleUShort (u16 (Height ci)) (Write [u8 (Bpp ci * 8)] 1 1
  (Write [tga_desc ci] 1 1
  (Write ID 1 (u8 (zlen ID))
  (match pal with Some p => Write p 1 (PalSize (Pal ci)) (body ext) | None => body ext end))))))))))).

(** il_targa.cpp:634-669.  [None]: the format is refused. *)
Definition tga_type (Format : Z) (Compress : bool) : option Z :=
  if Format =? IL_COLOUR_INDEX then Some (if Compress then 9 else 1)
  else if (Format =? IL_BGR) || (Format =? IL_BGRA) || (Format =? IL_RGB) || (Format =? IL_RGBA) then Some (if Compress then 10 else 2)
  else if Format =? IL_LUMINANCE then Some (if Compress then 11 else 3)
  else None.
Definition is_rgb (f : Z) : bool := (f =? IL_RGB) || (f =? IL_RGBA).
(** ilSwapColours for RGB and RGBA images, il_targa.cpp:651, 825-827 *)
Definition swap_if (b : bool) (im : img) : res img := if b then let! (_, im, _) := ilSwapColours im in Ok im else Ok im.

(** iSaveTargaInternal, il_targa.cpp:592-838: the returned value, what is written, the image afterwards.
    [None]: outside the modelled part (channels of more than one byte, palettes that are converted).
    [Compress] is the state IL_TGA_RLE, [da] the address of the RLE buffer.  A failed iGetFlipped
    (TempData is NULL) is a crash in iwrite or in ilRleCompress. *)
Definition iSaveTargaInternal (alloc : allocator) (da : Z) (Compress : bool) (ID AuthName AuthComment date : list Z) (im : img)
  : res (option (bool * saver * img)) :=
  let palNone := PalType (Pal im) =? IL_PAL_NONE in
  let usePal := match Palette (Pal im) with Some _ => negb (PalSize (Pal im) =? 0) && negb palNone | None => false end in
  let start k := Write [u8 (zlen ID)] 1 1 (Write [if usePal then 1 else 0] 1 1 k) in
  match tga_type (Format im) Compress with
  | None => Ok (Some (false, start Done, im))
  | Some typ =>
      let! ci := swap_if (is_rgb (Format im)) im in
      if negb (palNone || (PalType (Pal im) =? IL_PAL_BGR24)) then Ok None
      else if 1 <? Bpc im then Ok None
      else
        let! td := (if negb (Origin ci =? IL_ORIGIN_LOWER_LEFT) then iGetFlipped alloc ci else Ok (Data ci)) in
        match td with
        | None => Ok (Some (true, Crash, ci))
        | Some tdata =>
            let rest := tga_rest ci typ (if palNone then 0 else PalSize (Pal ci) / 3) (if palNone then 0 else 24) ID
                          (if usePal then Palette (Pal ci) else None) in
            let ext := tga_ext AuthName AuthComment date in
            if negb Compress then
              let! fin := swap_if (is_rgb (Format im)) ci in
              Ok (Some (true, start (rest (fun k => Write tdata 1 (SizeOfData ci) k) ext), fin))
            else
              match alloc (u32 (SizeOfData ci + SizeOfData ci / 2 + 1)) with
              | None => Ok (Some (false, start (rest (fun k => k) Done), ci))
              | Some rle =>
                  let! (len, _, rle) := rle_image Tga (Bpp ci) da tdata (Width ci) (Height ci) (Depth ci) rle in
                  let! fin := swap_if (is_rgb (Format im)) ci in
                  Ok (Some (true, start (rest (fun k => Write rle 1 len k) ext), fin))
              end
        end
  end.

(** iTargaSize, il_targa.cpp:843-887; the fake write of 852-855 has no influence on the result *)
Definition iTargaSize (ID : list Z) (im : img) : Z :=
  let bpp := if (Format im =? IL_BGR) || (Format im =? IL_RGB) then Some 3
             else if (Format im =? IL_BGRA) || (Format im =? IL_RGBA) then Some 4
             else if Format im =? IL_LUMINANCE then Some 1 else None in
  match bpp with None => 0 | Some b => u32 (18 + u8 (zlen ID) + Width im * Height im * b + 532) end.

(** ** Loading *)

(** include/il_targa.h:25-40 *)
Record tgahead := mkTga {
  IDLen : Z; ColMapPresent : Z; ImageType : Z; FirstEntry : Z; ColMapLen : Z; ColMapEntSize : Z;
  OriginX : Z; OriginY : Z; HWidth : Z; HHeight : Z; TBpp : Z; ImageDesc : Z }.

(** il_targa.cpp:77-95; [u i] is the uninitialised local of the i-th GetLittle... *)
Definition iGetTgaHead (u : Z -> list Z) (r : reader) : res (tgahead * reader) :=
  let! (idl, r) := iGetcLump r in
  let! (cmp, r) := iGetcLump r in
  let! (typ, r) := iGetcLump r in
  let! (fe, r) := GetLittleShort (u 0) r in
  let! (cml, r) := GetLittleShort (u 1) r in
  let! (ces, r) := iGetcLump r in
  let! (ox, r) := GetLittleShort (u 2) r in
  let! (oy, r) := GetLittleShort (u 3) r in
  let! (w, r) := GetLittleUShort (u 4) r in
  let! (h, r) := GetLittleUShort (u 5) r in
  let! (bpp, r) := iGetcLump r in
  let! (desc, r) := iGetcLump r in
  Ok (mkTga (u8 idl) (u8 cmp) (u8 typ) fe cml (u8 ces) ox oy w h (u8 bpp) (u8 desc), r).

(** il_targa.cpp:111-136.  [None]: refused; otherwise the header, with 15 bits changed to 16 (132-133) *)
Definition iCheckTarga (h : tgahead) : option tgahead :=
  if (HWidth h =? 0) || (HHeight h =? 0) then None
  else if negb (case (TBpp h) [8; 15; 16; 24; 32]) then None
  else if negb (Z.land (ImageDesc h) 16 =? 0) then None
  else if negb (case (ImageType h) [0; 1; 2; 3; 9; 10; 11]) then None
  else Some (if TBpp h =? 15 then
               mkTga (IDLen h) (ColMapPresent h) (ImageType h) (FirstEntry h) (ColMapLen h) (ColMapEntSize h)
                     (OriginX h) (OriginY h) (HWidth h) (HHeight h) 16 (ImageDesc h)
             else h).

(** iIsValidTarga, il_targa.cpp:98-107 *)
Definition iIsValidTarga (u : Z -> list Z) (r : reader) : res (bool * reader) :=
  let! (h, r) := iGetTgaHead u r in
  let! (_, r) := iSeekRLump (-18) IL_SEEK_CUR r in
  Ok (match iCheckTarga h with Some _ => true | None => false end, r).

(** iread(Buffer + off, 1, n) *)
Definition iread_at (buf : list Z) (off n : Z) (r : reader) : res (Z * list Z * reader) :=
  let! (c, b, r) := iReadLump (slice buf off (zlen buf - off)) 1 n r in
  Ok (c, splice buf off b, r).

(** il_targa.cpp:463-465: one pixel of a run, up to the end of the image; [p] is BytesRead + i *)
Fixpoint put_pixel (n : nat) (c p Size : Z) (Color d : list Z) : res (list Z) :=
  match n with
  | O => Ok d
  | S n =>
      if u32 (p + c) <? Size then
        let! v := rd Color c in
        let! d := wr d (u32 (p + c)) v in
        put_pixel n (c + 1) p Size Color d
      else Ok d
  end.

(** iUncompressTgaData, il_targa.cpp:440-489: the loop.  [Bpp] is Image->Bpp, [d] the image data *)
Fixpoint tga_loop (fuel : nat) (Bpp Size BytesRead : Z) (Color d : list Z) (r : reader) : res (bool * list Z * reader) :=
  if BytesRead <? Size then
    match fuel with
    | O => Fuel
    | S fuel =>
        let! (h, r) := iGetcLump r in
        let Header := u8 h in
        if negb (Z.land Header 128 =? 0) then
          let Header := Z.land Header 127 in
          let! (n, Color, r) := iReadLump Color 1 Bpp r in
          if negb (n =? Bpp) then Ok (false, d, r)
          else
            let RunLen := (Header + 1) * Bpp in
            let! d := stride 0 RunLen Bpp (fun i d => put_pixel (Z.to_nat Bpp) 0 (BytesRead + i) Size Color d) d in
            tga_loop fuel Bpp Size (u32 (BytesRead + RunLen)) Color d r
        else
          let RunLen := (Header + 1) * Bpp in
          let ToRead := if Size <? u32 (BytesRead + RunLen) then u32 (Size - BytesRead) else RunLen in
          let! (n, d, r) := iread_at d BytesRead ToRead r in
          if negb (n =? ToRead) then Ok (false, d, r)
          else
            let BytesRead := u32 (BytesRead + RunLen) in
            let! (_, r) := (if Size <? u32 (BytesRead + RunLen) then iSeekRLump (i32 (RunLen - ToRead)) IL_SEEK_CUR r else Ok (0, r)) in
            tga_loop fuel Bpp Size BytesRead Color d r
    end
  else Ok (true, d, r).

(** the pixels: il_targa.cpp:313-326, 389-397, 424-433; [comp]: the file is compressed; [col] is the
    uninitialised local Color *)
Definition tga_pixels (comp : bool) (col : list Z) (im : img) (r : reader) : res (bool * img * reader) :=
  match Data im with
  | None => UB
  | Some d =>
      if comp then
        let Size := u32 (Width im * Height im * Depth im * Bpp im) in
        let! (ok, d, r) := tga_loop (S (Z.to_nat Size)) (Bpp im) Size 0 col d r in
        Ok (ok, with_Data im (Some d), r)
      else
        let! (n, d, r) := iReadLump d 1 (SizeOfData im) r in
        Ok (n =? SizeOfData im, with_Data im (Some d), r)
  end.

(** il_targa.cpp:301-312: the entries of a 16-bit palette; all are stored in the first one *)
Fixpoint pal16 (fuel : nat) (u : list Z) (i size : Z) (p : list Z) (r : reader) : res (bool * list Z * reader) :=
  if i <? size then
    match fuel with
    | O => Fuel
    | S fuel =>
        let! (px, r) := GetBigUShort u r in
        if iEofLump r then Ok (false, p, r)
        else
          let! p := wr p 3 (u8 (Z.shiftr (Z.land px 0x8000) 12)) in
          let! p := wr p 0 (u8 (Z.shiftr (Z.land px 0xFC00) 7)) in
          let! p := wr p 1 (u8 (Z.shiftr (Z.land px 0x03E0) 2)) in
          let! p := wr p 2 (u8 (Z.shiftl (Z.land px 0x001F) 3)) in
          pal16 fuel u (u32 (i + 4)) size p r
    end
  else Ok (true, p, r).

(** iReadColMapTga, il_targa.cpp:251-329.  [idb] is the local ID, [up] the local of GetBigUShort.
    ilTexImage has cleared the palette, so that 263-264 do nothing. *)
Definition iReadColMapTga (alloc : allocator) (old : img) (h : tgahead) (idb up col : list Z) (r : reader) : res (bool * img * reader) :=
  let! (n, _, r) := iReadLump idb 1 (IDLen h) r in
  if negb (n =? IDLen h) then Ok (false, old, r)
  else
    let! (ok, im, _) := ilInitImage alloc old (HWidth h) (HHeight h) 1 (Z.shiftr (TBpp h) 3) 0 IL_UNSIGNED_BYTE None in
    if negb ok then Ok (false, im, r)
    else
      let im := with_Format im IL_COLOUR_INDEX in
      let e := ColMapEntSize h in
      let size := u32 (ColMapLen h * (if e =? 16 then 4 else Z.shiftr e 3)) in
      if negb (case e [16; 24; 32]) then Ok (false, with_Pal im (mkPal None size IL_PAL_NONE), r)
      else
        let ptype := if e =? 24 then IL_PAL_BGR24 else IL_PAL_BGRA32 in
        match alloc size with
        | None => Ok (false, with_Pal im (mkPal None size ptype), r)
        | Some p =>
            let! (ok, p, r) := (if negb (e =? 16) then let! (n, p, r) := iReadLump p 1 size r in Ok (n =? size, p, r)
                                else pal16 (S (length (rlump r))) up 0 size p r) in
            let im := with_Pal im (mkPal (Some p) size ptype) in
            if negb ok then Ok (false, im, r) else tga_pixels (ImageType h =? 9) col im r
        end.

(** i16BitTarga, il_targa.cpp:493-537, on a little-endian machine *)
Definition i16BitTarga (alloc : allocator) (im : img) : res (bool * img) :=
  match alloc (u32 (Width im * Height im * 3)), Data im with
  | None, _ => Ok (false, im)
  | _, None => UB
  | Some new, Some d =>
      let! new := loop 0 (u32 (Width im * Height im)) (fun x new =>
        let! lo := rd d (2 * x) in
        let! hi := rd d (2 * x + 1) in
        let p := lo + 256 * hi in
        let! new := wr new (3 * x) (u8 (Z.shiftl (Z.land p 0x001F) 3)) in
        let! new := wr new (3 * x + 1) (u8 (Z.shiftr (Z.land p 0x03E0) 2)) in
        wr new (3 * x + 2) (u8 (Z.shiftr (Z.land p 0x7C00) 7))) new in
      let! (ok, im, _) := ilInitImage alloc im (Width im) (Height im) 1 3 IL_BGR IL_UNSIGNED_BYTE (Some new) in
      Ok (ok, im)
  end.

(** iReadUnmapTga, il_targa.cpp:332-408 *)
Definition iReadUnmapTga (alloc : allocator) (old : img) (h : tgahead) (idb col : list Z) (r : reader) : res (bool * img * reader) :=
  let! (n, _, r) := iReadLump idb 1 (IDLen h) r in
  if negb (n =? IDLen h) then Ok (false, old, r)
  else
    let! (ok, im, _) := ilInitImage alloc old (HWidth h) (HHeight h) 1 (Z.shiftr (TBpp h) 3) 0 IL_UNSIGNED_BYTE None in
    if negb ok then Ok (false, im, r)
    else if negb (case (Bpp im) [1; 2; 3; 4]) then Ok (false, im, r)
    else
      let im := with_Format im (if Bpp im =? 1 then IL_COLOUR_INDEX else if Bpp im =? 4 then IL_BGRA else IL_BGR) in
      let! (ok, im, r) := tga_pixels (ImageType h =? 10) col im r in
      if negb ok then Ok (false, im, r)
      else if TBpp h =? 16 then let! (ok, im) := i16BitTarga alloc im in Ok (ok, im, r)
      else Ok (true, im, r).

(** iReadBwTga, il_targa.cpp:411-437 *)
Definition iReadBwTga (alloc : allocator) (old : img) (h : tgahead) (idb col : list Z) (r : reader) : res (bool * img * reader) :=
  let! (n, _, r) := iReadLump idb 1 (IDLen h) r in
  if negb (n =? IDLen h) then Ok (false, old, r)
  else
    let! (ok, im, _) := ilInitImage alloc old (HWidth h) (HHeight h) 1 (Z.shiftr (TBpp h) 3) IL_LUMINANCE IL_UNSIGNED_BYTE None in
    if negb ok then Ok (false, im, r) else tga_pixels (ImageType h =? 11) col im r.

(** il_targa.cpp:224-246; the result of iMirror is not looked at *)
Definition tga_origin (alloc : allocator) (h : tgahead) (im : img) : res img :=
  let o := Z.land (ImageDesc h) 0x30 in
  let mirror im := let! m := iMirror alloc im in Ok (match m with Some im => im | None => im end) in
  if o =? 0x20 then Ok (with_Origin im IL_ORIGIN_UPPER_LEFT)
  else if o =? 0x30 then mirror (with_Origin im IL_ORIGIN_UPPER_LEFT)
  else if o =? 0 then Ok (with_Origin im IL_ORIGIN_LOWER_LEFT)
  else mirror (with_Origin im IL_ORIGIN_LOWER_LEFT).

(** iLoadTargaInternal, il_targa.cpp:182-248.  bTarga is set but not looked at.  ilFixImage is the identity
    when IL_ORIGIN_SET, IL_TYPE_SET, IL_FORMAT_SET and IL_CONV_PAL are disabled. *)
Definition iLoadTargaInternal (alloc : allocator) (old : img) (u : Z -> list Z) (idb up col : list Z) (r : reader) : res (bool * img * reader) :=
  let! (h, r) := iGetTgaHead u r in
  match iCheckTarga h with
  | None => Ok (false, old, r)
  | Some h =>
      let t := ImageType h in
      if t =? 0 then Ok (false, old, r)
      else
        let! (_, im, r) :=
          (if (t =? 1) || (t =? 9) then iReadColMapTga alloc old h idb up col r
           else if (t =? 2) || (t =? 10) then iReadUnmapTga alloc old h idb col r
           else iReadBwTga alloc old h idb col r) in
        let! im := tga_origin alloc h im in
        Ok (true, im, r)
  end.

(** ilLoadTargaL, il_targa.cpp:174-178 *)
Definition ilLoadTargaL (alloc : allocator) (old : img) (u : Z -> list Z) (idb up col Lump : list Z) : res (bool * img * reader) :=
  iLoadTargaInternal alloc old u idb up col (iSetInputLump Lump (zlen Lump)).
