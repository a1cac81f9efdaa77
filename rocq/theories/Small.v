(** Loaders of small formats: il_ftx.cpp, il_pxr.cpp, il_lif.cpp, il_wal.cpp, il_cut.cpp, il_pix.cpp,
    il_sun.cpp, il_doom.cpp (all in src-IL/src).

    Input comes from a memory lump.  [u2 i], [u4 i]: the uninitialised local of the i-th GetLittle... /
    GetBig... of a loader.  ilFixImage at the end is the identity in the default state and is left out.
    The errors reported are those the loaders and ilTexImage set, not those of igetc and iread. *)
From Coq Require Import ZArith List Lia Bool.
From Verif Require Import Base Enums Utility Image Lump Channels Endian Elem.
Import ListNotations.
Open Scope Z_scope.

Definition outcome := res (bool * img * list Z).

(** iread into the pixels at [off]; the rest of the block is the room there is *)
Definition read_at (d : list Z) (off Size Number : Z) (r : reader) : res (Z * list Z * reader) :=
  if zlen d <? off then UB else
  let! (n, b, r) := iReadLump (slice d off (zlen d - off)) Size Number r in
  Ok (n, splice d off b, r).

(** ** FTX: iLoadFtxInternal, il_ftx.cpp:62-98 *)
Definition iLoadFtxInternal (alloc : allocator) (old : img) (u4 : Z -> list Z) (r : reader) : outcome :=
  let! (W, r) := GetLittleUInt (u4 0) r in
  let! (H, r) := GetLittleUInt (u4 1) r in
  let! (_, r) := GetLittleUInt (u4 2) r in
  let! (ok, im, e) := ilInitImage alloc old W H 1 4 IL_RGBA IL_UNSIGNED_BYTE None in
  if negb ok then Ok (false, im, e) else
  let im := with_Origin im IL_ORIGIN_UPPER_LEFT in
  match Data im with
  | None => UB
  | Some d =>
      let! (n, d, r) := iReadLump d 1 (SizeOfData im) r in
      Ok (n =? SizeOfData im, with_Data im (Some d), [])
  end.

(** ** PXR: iLoadPxrInternal, il_pxr.cpp:82-116.  The result of ilTexImage is not looked at; reading
    to a NULL pointer is reading to a block without room. *)
Definition iLoadPxrInternal (alloc : allocator) (old : img) (u2 : Z -> list Z) (r : reader) : outcome :=
  let! (_, r) := iSeekRLump 416 IL_SEEK_SET r in
  let! (H, r) := GetLittleUShort (u2 0) r in
  let! (W, r) := GetLittleUShort (u2 1) r in
  let! (_, r) := iSeekRLump 424 IL_SEEK_SET r in
  let! (c, r) := iGetcLump r in
  let f := if u8 c =? 8 then Some (1, IL_LUMINANCE) else if u8 c =? 14 then Some (3, IL_RGB) else if u8 c =? 15 then Some (4, IL_RGBA) else None in
  match f with
  | None => Ok (false, old, [IL_INVALID_FILE_HEADER])
  | Some (bpp, f) =>
      let! (_, im, e) := ilInitImage alloc old W H 1 bpp f IL_UNSIGNED_BYTE None in
      let! (_, r) := iSeekRLump 1024 IL_SEEK_SET r in
      let! (_, d, r) := iReadLump (match Data im with Some d => d | None => [] end) 1 (SizeOfData im) r in
      Ok (true, with_Origin (match Data im with Some _ => with_Data im (Some d) | None => im end) IL_ORIGIN_UPPER_LEFT, e)
  end.

(** ** LIF *)
(** il_lif.cpp:67-92 iGetLifHead, the fields used; [id]: the field before the call *)
Record lifhead := mkLif { LId : list Z; LVersion : Z; LFlags : Z; LWidth : Z; LHeight : Z }.
Definition iGetLifHead (id : list Z) (u4 : Z -> list Z) (r : reader) : res (lifhead * reader) :=
  let! (_, id, r) := iReadLump id 1 8 r in
  let! (v, r) := GetLittleUInt (u4 0) r in
  let! (f, r) := GetLittleUInt (u4 1) r in
  let! (W, r) := GetLittleUInt (u4 2) r in
  let! (H, r) := GetLittleUInt (u4 3) r in
  let! (_, r) := GetLittleUInt (u4 4) r in
  let! (_, r) := GetLittleUInt (u4 5) r in
  let! (_, r) := GetLittleUInt (u4 6) r in
  let! (_, r) := GetLittleUInt (u4 7) r in
  let! (_, r) := GetLittleUInt (u4 8) r in
  Ok (mkLif id v f W H, r).

(** iLoadLifInternal, il_lif.cpp:161-196.  The header is not checked. *)
Definition iLoadLifInternal (alloc : allocator) (old : img) (id : list Z) (u4 : Z -> list Z) (r : reader) : outcome :=
  let! (h, r) := iGetLifHead id u4 r in
  let! (ok, im, e) := ilInitImage alloc old (LWidth h) (LHeight h) 1 1 IL_COLOUR_INDEX IL_UNSIGNED_BYTE None in
  if negb ok then Ok (false, im, e) else
  let im := with_Origin im IL_ORIGIN_UPPER_LEFT in
  match alloc 1024 with
  | None => Ok (false, im, [IL_OUT_OF_MEMORY])
  | Some pal =>
      let im := with_Pal im (mkPal (Some pal) 1024 IL_PAL_RGBA32) in
      match Data im with
      | None => UB
      | Some d =>
          let! (n, d, r) := iReadLump d (u32 (LWidth h * LHeight h)) 1 r in
          let im := with_Data im (Some d) in
          if negb (n =? 1) then Ok (false, im, []) else
          let! (n, pal, r) := iReadLump pal 1 1024 r in
          let im := with_Pal im (mkPal (Some pal) 1024 IL_PAL_RGBA32) in
          if negb (n =? 1024) then Ok (false, im, []) else
          let! d := loop 0 (SizeOfData im) (fun i d => let! v := rd d i in wr d i (u8 (v + 1))) d in
          Ok (true, with_Data im (Some d), [])
      end
  end.

(** ** WAL: iLoadWalInternal, il_wal.cpp:76-165.  The result: whether it succeeded, the current image,
    its mipmaps.  [q2pal] is ilDefaultQ2Pal; [name]: the 32 bytes of a name field before reading.
    Freeing memory twice is [UB]: after line 133 the mipmaps form a chain that the clean-up code
    (161-163) closes once from each of its elements.  Before that, a failure leaves iCurImage
    pointing to a closed image, or closes a pointer that was never set: [UB] as well.  That icalloc
    (106) fails is not represented. *)
(** 116-127; ilTexImage has cleared the whole image, so the palette of 109-113 is lost before line 125 *)
Fixpoint wal_levels (alloc : allocator) (q2pal : list Z) (n : nat) (W H : Z) : res (option (list img)) :=
  match n with
  | O => Ok (Some [])
  | S n =>
      let W := W / 2 in
      let H := H / 2 in
      let! (ok, im, _) := ilInitImage alloc (mkImg 0 0 0 0 0 0 None 0 0 0 0 0 (mkPal (Some q2pal) 0 IL_PAL_RGB24) 0 0 0 0) W H 1 1 IL_COLOUR_INDEX IL_UNSIGNED_BYTE None in
      if negb ok then Ok None else
      let! l := wal_levels alloc q2pal n W H in
      match l with
      | None => Ok None
      | Some l => Ok (Some (with_Origin (with_Pal im (mkPal (Palette (Pal im)) 768 (PalType (Pal im)))) IL_ORIGIN_UPPER_LEFT :: l))
      end
  end.
(** 151-155 *)
Fixpoint wal_read (l : list img) (offs : list Z) (r : reader) : res (list img * reader) :=
  match l, offs with
  | im :: l, o :: offs =>
      let! (_, r) := iSeekRLump (i32 o) IL_SEEK_SET r in
      match Data im with
      | None => UB
      | Some d =>
          let! (n, d, r) := iReadLump d (u32 (Width im * Height im)) 1 r in
          if negb (n =? 1) then UB else
          let! (l, r) := wal_read l offs r in
          Ok (with_Data im (Some d) :: l, r)
      end
  | _, _ => Ok ([], r)
  end.
Definition iLoadWalInternal (alloc : allocator) (q2pal : list Z) (old : img) (name : list Z) (u4 : Z -> list Z) (r : reader) : res (bool * img * list img) :=
  let! (_, _, r) := iReadLump name 1 32 r in
  let! (W, r) := GetLittleUInt (u4 0) r in
  let! (H, r) := GetLittleUInt (u4 1) r in
  let! (o0, r) := GetLittleUInt (u4 2) r in
  let! (o1, r) := GetLittleUInt (u4 3) r in
  let! (o2, r) := GetLittleUInt (u4 4) r in
  let! (o3, r) := GetLittleUInt (u4 5) r in
  let! (_, _, r) := iReadLump name 1 32 r in
  let! (_, r) := GetLittleUInt (u4 6) r in
  let! (_, r) := GetLittleUInt (u4 7) r in
  let! (_, r) := GetLittleUInt (u4 8) r in
  let! (ok, im, _) := ilInitImage alloc old W H 1 1 IL_COLOUR_INDEX IL_UNSIGNED_BYTE None in
  if negb ok then Ok (false, im, []) else
  match alloc 768 with None => UB | Some _ =>
  let! l := wal_levels alloc q2pal 3 W H in
  match l with
  | None => UB
  | Some l =>
      let im := with_Origin im IL_ORIGIN_UPPER_LEFT in
      let im := with_Pal im (mkPal (Some q2pal) 768 IL_PAL_RGB24) in
      match Data im with
      | None => UB
      | Some d =>
          let! (_, r) := iSeekRLump (i32 o0) IL_SEEK_SET r in
          let! (n, d, r) := iReadLump d (u32 (W * H)) 1 r in
          if negb (n =? 1) then UB else
          let! (l, r) := wal_read l [o1; o2; o3] r in
          Ok (true, with_Data im (Some d), l)
      end
  end
  end.

(** ** CUT: iLoadCutInternal, il_cut.cpp:81-136.  Header.Width * Header.Height is a product of ints.
    [Fuel]: so many turns were not enough, see C95_cut_hang_refuted. *)
Fixpoint cut_loop (fuel : nat) (Size i : Z) (d : list Z) (r : reader) : res (list Z) :=
  if i <? Size then
    match fuel with
    | O => Fuel
    | S fuel =>
        let! (c, r) := iGetcLump r in
        let Count := u8 c in
        if Count =? 0 then
          let! (_, r) := iGetcLump r in
          let! (_, r) := iGetcLump r in
          cut_loop fuel Size i d r
        else if negb (Z.land Count 128 =? 0) then
          let Count := Z.land Count 127 in
          let! (v, r) := iGetcLump r in
          let! d := loop 0 Count (fun j d => wr d (i + j) (u8 v)) d in
          cut_loop fuel Size (i + Count) d r
        else
          let! (d, r) := loop 0 Count (fun j st => let '(d, r) := st in
            let! (v, r) := iGetcLump r in
            let! d := wr d (i + j) (u8 v) in
            Ok (d, r)) (d, r) in
          cut_loop fuel Size (i + Count) d r
    end
  else Ok d.
Definition iLoadCutInternal (alloc : allocator) (old : img) (u2 u4 : Z -> list Z) (r : reader) : outcome :=
  let! (W, r) := GetLittleShort (u2 0) r in
  let W := u16 W in
  let! (H, r) := GetLittleShort (u2 1) r in
  let H := u16 H in
  let! (_, r) := GetLittleInt (u4 0) r in
  if (W =? 0) || (H =? 0) then Ok (false, old, [IL_INVALID_FILE_HEADER]) else
  let! (ok, im, e) := ilInitImage alloc old W H 1 1 IL_COLOUR_INDEX IL_UNSIGNED_BYTE None in
  if negb ok then Ok (false, im, e) else
  if 2147483647 <? W * H then UB else
  match Data im with
  | None => UB
  | Some d =>
      let! d := cut_loop (2 * (Z.to_nat (W * H) + Z.to_nat (rsize r) + 1)) (W * H) 0 d r in
      Ok (true, with_Origin (with_Data im (Some d)) IL_ORIGIN_UPPER_LEFT, [])
  end.

(** ** PIX: iGetPixHead, iCheckPix and iLoadPixInternal, il_pix.cpp:39-48, 65-75 and 121-156.
    Every turn of the loop reads at least three bytes. *)
Fixpoint pix_loop (fuel : nat) (Size i : Z) (col : list Z) (d : list Z) (r : reader) : res (bool * list Z) :=
  if i <? Size then
    match fuel with
    | O => Fuel
    | S fuel =>
        let! (c, r) := iGetcLump r in
        let! (n, col, r) := iReadLump col 1 3 r in
        if negb (n =? 3) then Ok (false, d) else
        let! d := loop 0 (u8 c) (fun j d =>
          let! d := wr d (i + 3 * j) (geti col 0) in
          let! d := wr d (i + 3 * j + 1) (geti col 1) in
          wr d (i + 3 * j + 2) (geti col 2)) d in
        pix_loop fuel Size (i + 3 * u8 c) col d r
    end
  else Ok (true, d).
Definition iLoadPixInternal (alloc : allocator) (old : img) (u2 : Z -> list Z) (col : list Z) (r : reader) : outcome :=
  let! (W, r) := GetBigUShort (u2 0) r in
  let! (H, r) := GetBigUShort (u2 1) r in
  let! (_, r) := GetBigUShort (u2 2) r in
  let! (_, r) := GetBigUShort (u2 3) r in
  let! (bpp, r) := GetBigUShort (u2 4) r in
  if (W =? 0) || (H =? 0) || negb (bpp =? 24) then Ok (false, old, [IL_INVALID_FILE_HEADER]) else
  let! (ok, im, e) := ilInitImage alloc old W H 1 3 IL_BGR IL_UNSIGNED_BYTE None in
  if negb ok then Ok (false, im, e) else
  match Data im with
  | None => UB
  | Some d =>
      let! (ok, d) := pix_loop (S (Z.to_nat (rsize r))) (SizeOfData im) 0 col d r in
      if negb ok then Ok (false, with_Data im (Some d), [])
      else Ok (true, with_Origin (with_Data im (Some d)) IL_ORIGIN_UPPER_LEFT, [])
  end.

(** ** SUN *)
(** il_sun.cpp, SUNHEAD; iGetSunHead, 101-113 *)
Record sunhead := mkSun { NMagic : Z; NWidth : Z; NHeight : Z; NDepth : Z; NLength : Z; NType : Z; NMapType : Z; NMapLength : Z }.
Definition iGetSunHead (u4 : Z -> list Z) (r : reader) : res (sunhead * reader) :=
  let! (a, r) := GetBigUInt (u4 0) r in
  let! (b, r) := GetBigUInt (u4 1) r in
  let! (c, r) := GetBigUInt (u4 2) r in
  let! (d, r) := GetBigUInt (u4 3) r in
  let! (e, r) := GetBigUInt (u4 4) r in
  let! (f, r) := GetBigUInt (u4 5) r in
  let! (g, r) := GetBigUInt (u4 6) r in
  let! (h, r) := GetBigUInt (u4 7) r in
  Ok (mkSun a b c d e f g h, r).
(** iCheckSun, 117-138 *)
Definition iCheckSun (h : sunhead) : bool :=
  if negb (NMagic h =? 1504078485) then false
  else if (NWidth h =? 0) || (NHeight h =? 0) then false
  else if negb (NDepth h =? 1) && negb (NDepth h =? 8) && negb (NDepth h =? 24) && negb (NDepth h =? 32) then false
  else if 3 <? NType h then false
  else if 1 <? NMapType h then false
  else if (0 <? NMapType h) && (NMapLength h =? 0) then false
  else if ((NDepth h =? 1) || (NDepth h =? 32)) && (NType h =? 2) then false
  else true.
(** iSunGetRle, 362-394, into the pixels from [p]; Count is ILuint.  Every two turns advance [i]. *)
Fixpoint sun_rle (fuel : nat) (Length i p : Z) (d : list Z) (r : reader) : res (Z * list Z * reader) :=
  if i <? Length then
    match fuel with
    | O => Fuel
    | S fuel =>
        let! (c, r) := iGetcLump r in
        if u8 c =? 128 then
          let! (n, r) := iGetcLump r in
          if u32 n =? 0 then
            let! d := wr d p 128 in
            sun_rle fuel Length (i + 1) (p + 1) d r
          else
            let! (v, r) := iGetcLump r in
            let Count := u32 (u32 n + 1) in
            let k := Z.min Count (Length - i) in
            let! d := loop 0 k (fun j d => wr d (p + j) (u8 v)) d in
            sun_rle fuel Length (u32 (i + Count)) (p + k) d r
        else
          let! d := wr d p (u8 c) in
          sun_rle fuel Length (i + 1) (p + 1) d r
    end
  else Ok (i, d, r).
(** uncompressed lines, 280-285 and 310-315; [step]: bytes between the lines *)
Definition sun_rows (H step Bps : Z) (d : list Z) (r : reader) : res (list Z * reader) :=
  loop 0 H (fun i st => let '(d, r) := st in
    let! (_, d, r) := read_at d (u32 (i * step)) 1 Bps r in
    if negb ((2 - Bps mod 2) mod 2 =? 0) then let! (_, r) := iGetcLump r in Ok (d, r) else Ok (d, r)) (d, r).
(** compressed lines, 288-292 and 318-322 *)
Definition sun_rle_rows (H Bps : Z) (d : list Z) (r : reader) : res (list Z * reader) :=
  loop 0 H (fun i st => let '(d, r) := st in
    let! (n, d, r) := sun_rle (S (2 * Z.to_nat Bps)) Bps 0 (u32 (Bps * i)) d r in
    if negb (n mod 2 =? 0) then let! (_, r) := iGetcLump r in Ok (d, r) else Ok (d, r)) (d, r).
(** 341-349: Offset stays 0 *)
Definition sun_quads (W H : Z) (d : list Z) (r : reader) : res (list Z * reader) :=
  loop 0 H (fun i st => loop 0 W (fun j st => let '(d, r) := st in
    let! (_, r) := iGetcLump r in
    let! (a, r) := iGetcLump r in
    let! d := wr d 0 (u8 a) in
    let! (b, r) := iGetcLump r in
    let! d := wr d 1 (u8 b) in
    let! (c, r) := iGetcLump r in
    let! d := wr d 2 (u8 c) in
    Ok (d, r)) st) (d, r).
(** iLoadSunInternal, 199-359.  Not modelled: one bit per pixel (219-256; the result is [Fuel]) *)
Definition iLoadSunInternal (alloc : allocator) (old : img) (u4 : Z -> list Z) (r : reader) : outcome :=
  let! (h, r) := iGetSunHead u4 r in
  if negb (iCheckSun h) then Ok (false, old, [IL_INVALID_FILE_HEADER]) else
  let finish im m := let! (d, r) := m in Ok (true, with_Origin (with_Data im (Some d)) IL_ORIGIN_UPPER_LEFT, []) in
  if NDepth h =? 1 then Fuel
  else if NDepth h =? 8 then
    let! (ok, im, e) := ilInitImage alloc old (NWidth h) (NHeight h) 1 1 (if NMapType h =? 0 then IL_LUMINANCE else IL_COLOUR_INDEX) IL_UNSIGNED_BYTE None in
    if negb ok then Ok (false, im, e) else
    let! (ok, im, e, r) :=
      (if NMapType h =? 0 then Ok (true, im, [], r) else
       match alloc (NMapLength h) with
       | None => Ok (false, im, [IL_OUT_OF_MEMORY], r)
       | Some p =>
           let! (n, p, r) := iReadLump p 1 (NMapLength h) r in
           if negb (n =? NMapLength h) then Ok (false, with_PalData im p, [IL_FILE_READ_ERROR], r)
           else Ok (true, with_Pal im (mkPal (Some p) (NMapLength h) IL_PAL_RGB24), [], r)
       end) in
    if negb ok then Ok (false, im, e) else
    match Data im with
    | None => UB
    | Some d =>
        if negb (NType h =? 2) then finish im (sun_rows (NHeight h) (NWidth h) (Bps im) d r)
        else finish im (sun_rle_rows (Height im) (Bps im) d r)
    end
  else
    let! (_, r) := (if 0 <? NMapLength h then iSeekRLump (i32 (NMapLength h)) IL_SEEK_CUR r else Ok (0, r)) in
    let! (ok, im, e) := ilInitImage alloc old (NWidth h) (NHeight h) 1 3 (if NType h =? 3 then IL_RGB else IL_BGR) IL_UNSIGNED_BYTE None in
    if negb ok then Ok (false, im, e) else
    match Data im with
    | None => UB
    | Some d =>
        if NDepth h =? 24 then
          if negb (NType h =? 2) then finish im (sun_rows (NHeight h) (u32 (NWidth h * 3)) (Bps im) d r)
          else finish im (sun_rle_rows (Height im) (Bps im) d r)
        else finish im (sun_quads (NWidth h) (NHeight h) d r)
    end.

(** ** DOOM *)
(** il_doom.cpp:127-132: one post; the input byte replaces [post] *)
Definition doom_post (width height col topdelta length : Z) (d : list Z) (r : reader) : res (bool * list Z * reader) :=
  loop 0 length (fun row st => let '(ok, d, r) := st in
    if negb ok then Ok st else
    let! (n, b, r) := iReadLump [0] 1 1 r in
    if negb (n =? 1) then Ok (false, d, r)
    else if row + topdelta <? height then
      let! d := wr d ((row + topdelta) * width + col) (geti b 0) in Ok (true, d, r)
    else Ok (true, d, r)) (true, d, r).
(** 117-134: a column; [false]: the input ended *)
Fixpoint doom_column (fuel : nat) (width height col : Z) (d : list Z) (r : reader) : res (bool * list Z * reader) :=
  match fuel with
  | O => Fuel
  | S fuel =>
      let! (n, b, r) := iReadLump [0] 1 1 r in
      if negb (n =? 1) then Ok (false, d, r)
      else if geti b 0 =? 255 then Ok (true, d, r)
      else
        let topdelta := geti b 0 in
        let! (n, b, r) := iReadLump [0] 1 1 r in
        if negb (n =? 1) then Ok (false, d, r) else
        let length := geti b 0 in
        let! (n, b, r) := iReadLump [0] 1 1 r in
        if negb (n =? 1) then Ok (false, d, r) else
        let! (ok, d, r) := doom_post width height col topdelta length d r in
        if negb ok then Ok (false, d, r) else
        let! (_, _, r) := iReadLump [0] 1 1 r in
        doom_column fuel width height col d r
  end.
(** 112-137: all columns; itell of a lump is its position; [first] is first_pos, added to an int *)
Definition doom_columns (width height first : Z) (u4 : Z -> list Z) (d : list Z) (r : reader) : res (bool * list Z * reader) :=
  loop 0 width (fun col st => let '(ok, d, r) := st in
    if negb ok then Ok st else
    let! (off, r) := GetLittleInt (u4 col) r in
    let pos := i32 (rpos r) in
    if negb (i32 (first + off) =? first + off) then UB else
    let! (_, r) := iSeekRLump (first + off) IL_SEEK_SET r in
    let! (ok, d, r) := doom_column (S (Z.to_nat (rsize r))) width height col d r in
    if negb ok then Ok (false, d, r) else
    let! (_, r) := iSeekRLump pos IL_SEEK_SET r in
    Ok (true, d, r)) (true, d, r).
(** 140-160 and 245-265: with IL_CONV_PAL; [nd] is the fresh block *)
Definition doom_conv (pal d : list Z) (Size : Z) (nd : list Z) : res (list Z) :=
  loop 0 Size (fun i nd =>
    let! v := rd d i in
    let! c := rd pal v in
    let! nd := wr nd (i * 4) c in
    wr nd (i * 4 + 3) (if v =? 247 then 0 else 255)) nd.
Definition doom_finish (alloc : allocator) (conv : bool) (pal : list Z) (im : img) (d : list Z) : outcome :=
  if conv then
    match alloc (u32 (SizeOfData im * 4)) with
    | None => Ok (false, with_Data im (Some d), [IL_OUT_OF_MEMORY])
    | Some nd =>
        let! nd := doom_conv pal d (SizeOfData im) nd in
        let! (ok, im, e) := ilInitImage alloc im (Width im) (Height im) (Depth im) 4 IL_RGBA (Type_ im) (Some nd) in
        if negb ok then Ok (false, im, e) else Ok (true, with_Origin im IL_ORIGIN_UPPER_LEFT, [])
    end
  else Ok (true, with_Data im (Some d), []).
(** iLoadDoomInternal, 77-163; [dpal] is ilDefaultDoomPal, [conv] the state IL_CONV_PAL *)
Definition iLoadDoomInternal (alloc : allocator) (conv : bool) (dpal : list Z) (old : img) (u2 u4 : Z -> list Z) (r : reader) : outcome :=
  let first := i32 (rpos r) in
  let! (width, r) := GetLittleShort (u2 0) r in
  let! (height, r) := GetLittleShort (u2 1) r in
  let! (_, r) := GetLittleShort (u2 2) r in
  let! (_, r) := GetLittleShort (u2 3) r in
  let! (ok, im, e) := ilInitImage alloc old (u32 width) (u32 height) 1 1 IL_COLOUR_INDEX IL_UNSIGNED_BYTE None in
  if negb ok then Ok (false, im, e) else
  let im := with_Origin im IL_ORIGIN_UPPER_LEFT in
  match alloc 768 with
  | None => Ok (false, im, [IL_OUT_OF_MEMORY])
  | Some _ =>
      let im := with_Pal im (mkPal (Some dpal) 768 IL_PAL_RGB24) in
      match Data im with
      | None => UB
      | Some d =>
          let! d := memset d 0 247 (SizeOfData im) in
          let! (ok, d, r) := doom_columns width height first u4 d r in
          if negb ok then Ok (false, with_Data im (Some d), [])
          else doom_finish alloc conv dpal im d
      end
  end.
(** iLoadDoomFlatInternal, 219-268 *)
Definition iLoadDoomFlatInternal (alloc : allocator) (conv : bool) (dpal : list Z) (old : img) (r : reader) : outcome :=
  let! (ok, im, e) := ilInitImage alloc old 64 64 1 1 IL_COLOUR_INDEX IL_UNSIGNED_BYTE None in
  if negb ok then Ok (false, im, e) else
  let im := with_Origin im IL_ORIGIN_UPPER_LEFT in
  match alloc 768 with
  | None => Ok (false, im, [IL_OUT_OF_MEMORY])
  | Some _ =>
      let im := with_Pal im (mkPal (Some dpal) 768 IL_PAL_RGB24) in
      match Data im with
      | None => UB
      | Some d =>
          let! (n, d, r) := iReadLump d 1 4096 r in
          if negb (n =? 4096) then Ok (false, with_Data im (Some d), [])
          else doom_finish alloc conv dpal im d
      end
  end.
