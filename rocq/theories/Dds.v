(** DirectDraw surfaces (src-IL/src/il_dds.cpp): the header, pixel formats given by masks, DXT1, DXT3 and
    DXT5 data, volume textures and mipmaps.  Not modelled, and given to the loader as the parameter [other]:
    cube maps, the DirectX 10 extension, channels of ten bits, and the remaining FOURCC formats.  IL_KEEP_DXTC_DATA is
    off (its default), and ilFixImage is the identity, as no conversion state is set.  The file's global
    variables Head, Width, Height, Depth, CompData are arguments and results.  Products of ILint are taken to
    wrap. *)
From Coq Require Import ZArith List Lia Bool.
From Verif Require Import Base Enums Utility Image Elem Lump Endian Tga Dxt.
Import ListNotations.
Open Scope Z_scope.

(** il_dds.h:125-152 *)
Definition DDS_LUMINANCE : Z := 131072.
Definition DDS_ALPHAPIXELS : Z := 1.
Definition DDS_FOURCC : Z := 4.
Definition DDS_PITCH : Z := 8.
Definition DDS_COMPLEX : Z := 8.
Definition DDS_MIPMAPCOUNT : Z := 131072.
Definition DDS_LINEARSIZE : Z := 524288.
Definition DDS_VOLUME : Z := 2097152.
Definition DDS_CUBEMAP : Z := 512.
(** il_dds.h:159-182 *)
Definition PF_ARGB : Z := 0.
Definition PF_RGB : Z := 1.
Definition PF_DXT1 : Z := 2.
Definition PF_DXT2 : Z := 3.
Definition PF_DXT3 : Z := 4.
Definition PF_DXT4 : Z := 5.
Definition PF_DXT5 : Z := 6.
Definition PF_3DC : Z := 7.
Definition PF_ATI1N : Z := 8.
Definition PF_LUMINANCE : Z := 9.
Definition PF_LUMINANCE_ALPHA : Z := 10.
Definition PF_RXGB : Z := 11.
Definition PF_A16B16G16R16 : Z := 12.
Definition PF_DX10 : Z := 19.
Definition PF_UNKNOWN : Z := 255.

(** a test of a flag *)
Definition has (f m : Z) : bool := negb (Z.land f m =? 0).

(** DDSHEAD, il_dds.h; the fields that are used *)
Record dds := mkDds { Sig : list Z; Size1 : Z; Flags1 : Z; DHeight : Z; DWidth : Z; Linear : Z; DDepth : Z; MipCount : Z; Size2 : Z; Flags2 : Z;
  FourCC : Z; BitCount : Z; RMask : Z; GMask : Z; BMask : Z; AMask : Z; Caps1 : Z; Caps2 : Z }.
(** assignments to Flags1, LinearSize and Depth *)
Definition with_linear (h : dds) (f l : Z) : dds :=
  mkDds (Sig h) (Size1 h) f (DHeight h) (DWidth h) l (DDepth h) (MipCount h) (Size2 h) (Flags2 h) (FourCC h) (BitCount h) (RMask h) (GMask h) (BMask h) (AMask h) (Caps1 h) (Caps2 h).
Definition with_depth (h : dds) (d : Z) : dds :=
  mkDds (Sig h) (Size1 h) (Flags1 h) (DHeight h) (DWidth h) (Linear h) d (MipCount h) (Size2 h) (Flags2 h) (FourCC h) (BitCount h) (RMask h) (GMask h) (BMask h) (AMask h) (Caps1 h) (Caps2 h).

(** [n] calls of GetLittleUInt; [u4 k] is what is on the stack in the [k]-th one *)
Fixpoint words (n : nat) (u4 : Z -> list Z) (k : Z) (r : reader) : res (list Z * reader) :=
  match n with
  | O => Ok ([], r)
  | S n => let! (w, r) := GetLittleUInt (u4 k) r in let! (ws, r) := words n u4 (k + 1) r in Ok (w :: ws, r)
  end.

(** iGetDdsHead, il_dds.cpp:101-136: the signature and 31 numbers; [sg] is the old content of the signature.
    (134-135 correct the depth in the global header: see the caller.) *)
Definition iGetDdsHead (sg : list Z) (u4 : Z -> list Z) (r : reader) : res (dds * reader) :=
  let! (_, sg, r) := iReadLump sg 1 4 r in
  let! (w, r) := words 31 u4 0 r in
  let g := geti w in
  Ok (mkDds sg (g 0) (g 1) (g 2) (g 3) (g 4) (g 5) (g 6) (g 18) (g 19) (g 20) (g 21) (g 22) (g 23) (g 24) (g 25) (g 26) (g 27), r).

(** iCheckDds, il_dds.cpp:168-182; the signature is "DDS " *)
Definition iCheckDds (h : dds) : bool :=
  if negb ((geti (Sig h) 0 =? 68) && (geti (Sig h) 1 =? 68) && (geti (Sig h) 2 =? 83) && (geti (Sig h) 3 =? 32)) then false
  else if negb (Size1 h =? 124) && negb (Size1 h =? 542327876) then false
  else if negb (Size2 h =? 32) then false
  else if (DWidth h =? 0) || (DHeight h =? 0) then false
  else true.

(** iIsValidDds, il_dds.cpp:153-164 *)
Definition iIsValidDds (sg : list Z) (u4 : Z -> list Z) (r : reader) : res (bool * reader) :=
  let! (h, r) := iGetDdsHead sg u4 r in
  let! (_, r) := iSeekRLump (-128) IL_SEEK_CUR r in
  Ok (iCheckDds h, r).

(** Check16BitComponents, il_dds.cpp:240-255 *)
Definition Check16BitComponents (h : dds) : bool :=
  if (RMask h =? 1072693248) && (GMask h =? 1047552) && (BMask h =? 1023) && (AMask h =? 3221225472) then true
  else if (RMask h =? 1023) && (GMask h =? 1047552) && (BMask h =? 1072693248) && (AMask h =? 3221225472) then true
  else false.

(** IL_MAKEFOURCC, il_dds.h:155-157 *)
Definition fourcc (a b c d : Z) : Z := a + 256 * b + 65536 * c + 16777216 * d.
(** DecodePixelFormat, il_dds.cpp:515-628: the format and the size of the data *)
Definition DecodePixelFormat (h : dds) : Z * Z :=
  if has (Flags2 h) DDS_FOURCC then
    let n := u32 (u32 (u32 (DWidth h + 3) / 4 * (u32 (DHeight h + 3) / 4)) * DDepth h) in
    let px := u32 (DWidth h * DHeight h * DDepth h) in
    let f := FourCC h in
    if f =? fourcc 68 88 84 49 then (PF_DXT1, u32 (n * 8))
    else if f =? fourcc 68 88 84 50 then (PF_DXT2, u32 (n * 16))
    else if f =? fourcc 68 88 84 51 then (PF_DXT3, u32 (n * 16))
    else if f =? fourcc 68 88 84 52 then (PF_DXT4, u32 (n * 16))
    else if f =? fourcc 68 88 84 53 then (PF_DXT5, u32 (n * 16))
    else if f =? fourcc 68 88 49 48 then (PF_DX10, n)
    else if f =? fourcc 65 84 73 49 then (PF_ATI1N, u32 (n * 8))
    else if f =? fourcc 65 84 73 50 then (PF_3DC, u32 (n * 16))
    else if f =? fourcc 82 88 71 66 then (PF_RXGB, u32 (n * 16))
    else if f =? 36 then (PF_A16B16G16R16, u32 (px * 8))
    else if f =? 111 then (13, u32 (px * 2))
    else if f =? 112 then (14, u32 (px * 4))
    else if f =? 113 then (15, u32 (px * 8))
    else if f =? 114 then (16, u32 (px * 4))
    else if f =? 115 then (17, u32 (px * 8))
    else if f =? 116 then (18, u32 (px * 16))
    else (PF_UNKNOWN, u32 (n * 16))
  else
    ((if has (Flags2 h) DDS_LUMINANCE then if has (Flags2 h) DDS_ALPHAPIXELS then PF_LUMINANCE_ALPHA else PF_LUMINANCE
      else if has (Flags2 h) DDS_ALPHAPIXELS then PF_ARGB else PF_RGB),
     u32 (DWidth h * DHeight h * DDepth h * (BitCount h / 8))).

(** the formats of this model: masks, and compressed *)
Definition masked (f : Z) : bool := (f =? PF_ARGB) || (f =? PF_RGB) || (f =? PF_LUMINANCE) || (f =? PF_LUMINANCE_ALPHA).
Definition dxt135 (f : Z) : bool := (f =? PF_DXT1) || (f =? PF_DXT3) || (f =? PF_DXT5).

(** AdjustVolumeTexture, il_dds.cpp:765-822, for these formats; Depth follows Head->Depth *)
Definition AdjustVolumeTexture (h : dds) (f : Z) : dds :=
  if DDepth h <=? 1 then h
  else
    let h := if negb (has (Caps2 h) DDS_VOLUME) then with_depth h 1 else h in
    let l := if masked f then u32 (Z.max 1 (DWidth h) * Z.max 1 (DHeight h) * (BitCount h / 8))
             else u32 (u32 (DWidth h + 3) / 4 * (u32 (DHeight h + 3) / 4) * (if f =? PF_DXT1 then 8 else 16)) in
    with_linear h (Z.lor (Flags1 h) DDS_LINEARSIZE) (u32 (l * DDepth h)).

(** ReadData, il_dds.cpp:827-882: whether it succeeds, the data, the errors set *)
Definition ReadData (alloc : allocator) (h : dds) (W H D : Z) (r : reader) : res (option (list Z) * list Z * reader) :=
  if has (Flags1 h) DDS_LINEARSIZE then
    match alloc (Linear h) with
    | None => Ok (None, [IL_OUT_OF_MEMORY], r)
    | Some c =>
        let! (n, c, r) := iReadLump c 1 (Linear h) r in
        if negb (n =? Linear h) then Ok (None, [], r) else Ok (Some c, [], r)
    end
  else
    let Bps := u32 (W * BitCount h) / 8 in
    let CompSize := u32 (Bps * H * D) in
    if CompSize =? 0 then Ok (None, [IL_INVALID_FILE_HEADER], r)
    else
      match alloc CompSize with
      | None => Ok (None, [IL_OUT_OF_MEMORY], r)
      | Some c =>
          let! (ok, _, c, r) := loop 0 D (fun z => loop 0 H (fun y '(ok, T, c, r) =>
            if negb ok then Ok (ok, T, c, r)
            else
              let! (n, c, r) := iread_at c T Bps r in
              Ok (n =? Bps, T + Bps, c, r))) (true, 0, c, r) in
          Ok ((if (ok : bool) then Some c else None), [], r)
      end.

(** GetBitsFromMask, il_dds.cpp:2116-2140: the shifts to the left and to the right.  [skip n v v i] for
    2126-2130: the first bit [v] (from [i] on, at most [n] further ones) *)
Fixpoint skip (n : nat) (v : bool) (Temp i : Z) : Z * Z :=
  match n with
  | O => (Temp, i)
  | S n => if Bool.eqb (Z.odd Temp) v then (Temp, i) else skip n v (Z.shiftr Temp 1) (i + 1)
  end.
Definition GetBitsFromMask (Mask : Z) : Z * Z :=
  if Mask =? 0 then (0, 0)
  else
    let '(Temp, R) := skip 32 true Mask 0 in
    let '(_, i) := skip 8 false Temp 0 in
    (8 - i, R).

(** one channel, e.g. il_dds.cpp:1975 (stored in a byte) *)
Definition channel (v Mask : Z) : Z := let '(L, R) := GetBitsFromMask Mask in u8 (Z.shiftl (Z.shiftr (Z.land v Mask) R) L).
(** the number read for a pixel at [T], il_dds.cpp:1956-1972; [left] bytes of the image are left *)
Definition read_pixel (c : list Z) (T left TempBpp ReadI : Z) : res Z :=
  if left <? 4 then
    if TempBpp =? 3 then rdn c T 3 else if TempBpp =? 1 then rdn c T 1 else if TempBpp =? 2 then rdn c T 2 else Ok ReadI
  else rdn c T 4.
(** DecompressARGB, il_dds.cpp:1930-2007, for channels of at most eight bits *)
Definition DecompressARGB (h : dds) (f : Z) (im : img) (c d : list Z) : res (list Z) :=
  if (f =? PF_LUMINANCE) && (BitCount h =? 16) && (RMask h =? 65535) then memcpy d 0 c 0 (SizeOfData im)
  else
    let AlphaL := fst (GetBitsFromMask (AMask h)) in
    let TempBpp := BitCount h / 8 in
    let! (_, _, d) := stride 0 (SizeOfData im) (Bpp im) (fun i '(T, ReadI, d) =>
      let! v := read_pixel c T (SizeOfData im - i) TempBpp ReadI in
      let! d := wr d i (channel v (RMask h)) in
      let a := channel v (AMask h) in
      let! d := (if 3 <=? Bpp im then
        let! d := wr d (i + 1) (channel v (GMask h)) in
        let! d := wr d (i + 2) (channel v (BMask h)) in
        if Bpp im =? 4 then
          if 7 <=? AlphaL then wr d (i + 3) (if a =? 0 then 0 else 255)
          else if 4 <=? AlphaL then wr d (i + 3) (Z.lor a (Z.shiftr a 4))
          else wr d (i + 3) a
        else Ok d
      else if Bpp im =? 2 then
        if 7 <=? AlphaL then wr d (i + 1) (if a =? 0 then 0 else 255)
        else if 4 <=? AlphaL then
          let! d := wr d (i + 1) a in
          let! x := rd d (i + 3) in
          wr d (i + 1) (Z.lor a (Z.shiftr x 4))
        else wr d (i + 1) a
      else Ok d) in
      Ok (T + TempBpp, v, d)) (0, 0, d) in
    Ok d.

(** DdsDecompress, il_dds.cpp:1011-1067, for these formats: the new contents of the image's data *)
Definition DdsDecompress (h : dds) (f : Z) (im : img) (c : list Z) : res (list Z) :=
  match Data im with
  | None => UB
  | Some d =>
      if masked f then DecompressARGB h f im c d
      else if f =? PF_DXT1 then DecompressDXT1 im c d
      else if f =? PF_DXT3 then DecompressDXT3 im c d
      else DecompressDXT5 im c d
  end.

(** the channels of a format, their order and their type: il_dds.cpp:892-961 and 297-309, 281-294 with 1085-1087 *)
Definition channels (f : Z) : Z :=
  if f =? PF_RGB then 3 else if f =? PF_LUMINANCE then 1 else if f =? PF_LUMINANCE_ALPHA then 2 else 4.
Definition pixel_type (h : dds) (f : Z) : Z :=
  if (f =? PF_LUMINANCE) && (BitCount h =? 16) && (RMask h =? 65535) then IL_UNSIGNED_SHORT else IL_UNSIGNED_BYTE.

(** ReadMipmaps, il_dds.cpp:1070-1218, one after the other: [n] levels below W by H by D.  (Sizes of 2^31 and more
    are negative ILint; their halves are rounded down here and towards zero in C.  No theorem is about them.) *)
Definition half (n : Z) : Z := if n / 2 =? 0 then 1 else n / 2.
Definition mip_linear (h : dds) (f W H D : Z) : Z :=
  if has (Flags1 h) DDS_LINEARSIZE then
    if masked f then u32 (W * H * D * (BitCount h / 8))
    else u32 ((W + 3) / 4 * 4 * ((H + 3) / 4 * 4) * D * 4) / (if f =? PF_DXT1 then 8 else 4)
  else Linear h / 2.
Definition no_img : img := mkImg 0 0 0 0 0 0 None 0 0 0 0 0 (mkPal None 0 0) 0 0 0 0.
Fixpoint ReadMipmaps (n : nat) (alloc : allocator) (h : dds) (f W H D : Z) (r : reader) : res (option (list img) * list Z) :=
  match n with
  | O => Ok (Some [], [])
  | S n =>
      let D := half D in
      let W := half W in
      let H := half H in
      let! (ok, im, e) := ilInitImage alloc no_img (u32 W) (u32 H) (u32 D) (channels f) (ilGetFormatBpp (channels f)) (pixel_type h f) None in
      if negb ok then Ok (None, e)
      else
        let im := with_Origin im IL_ORIGIN_UPPER_LEFT in
        let h := with_linear h (Flags1 h) (mip_linear h f W H D) in
        let! (c, e, r) := ReadData alloc h W H D r in
        match c with
        | None => Ok (None, e)
        | Some c =>
            let! d := DdsDecompress h f im c in
            let! (ims, e) := ReadMipmaps n alloc h f W H D r in
            Ok (match ims with Some ims => Some (with_Data im (Some d) :: ims) | None => None end, e)
        end
  end.

(** iLoadDdsInternal, il_dds.cpp:403-512, on a current image: the result, the image with its mipmaps, the errors
    set (apart from those of iread itself) *)
Definition iLoadDdsInternal (alloc : allocator) (other : dds -> Z -> reader -> res (bool * list img * list Z)) (sg : list Z) (u4 : Z -> list Z) (old : img) (r : reader) : res (bool * list img * list Z) :=
  let! (h, r) := iGetDdsHead sg u4 r in
  let h := if DDepth h =? 0 then with_depth h 1 else h in
  if negb (iCheckDds h) then Ok (false, [old], [IL_INVALID_FILE_HEADER])
  else
    let '(f, BlockSize) := DecodePixelFormat h in
    if f =? PF_UNKNOWN then Ok (false, [old], [IL_INVALID_FILE_HEADER])
    else if negb (masked f || dxt135 f) || (masked f && Check16BitComponents h) then other h f r
    else
      let h := if negb (has (Flags1 h) (Z.lor DDS_LINEARSIZE DDS_PITCH)) || (Linear h =? 0) then with_linear h (Z.lor (Flags1 h) DDS_LINEARSIZE) BlockSize else h in
      if has (Caps1 h) DDS_COMPLEX && has (Caps2 h) DDS_CUBEMAP then other h f r
      else
        let h := AdjustVolumeTexture h f in
        let W := i32 (DWidth h) in
        let H := i32 (DHeight h) in
        let D := i32 (DDepth h) in
        let! (c, e, r) := ReadData alloc h W H D r in
        match c with
        | None => Ok (false, [old], e)
        | Some c =>
            let! (ok, im, e) := ilInitImage alloc old (u32 W) (u32 H) (u32 D) (channels f) (ilGetFormatBpp (channels f)) (pixel_type h f) None in
            if negb ok then Ok (false, [im], e)
            else
              let im := with_Origin im IL_ORIGIN_UPPER_LEFT in
              let! d := DdsDecompress h f im c in
              let im := with_Data im (Some d) in
              let n := if negb (has (Flags1 h) DDS_MIPMAPCOUNT) || (MipCount h =? 0) then 1 else MipCount h in
              let! (ims, e) := ReadMipmaps (Z.to_nat (n - 1)) alloc h f W H D r in
              match ims with
              | Some ims => Ok (true, im :: ims, e)
              | None => Ok (false, [im], e)
              end
        end.
