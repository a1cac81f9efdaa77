(** The PCX format (src-IL/src/il_pcx.cpp).

    Input comes from a memory lump, without the read-ahead cache (iPreCache is only called for the
    hint IL_FASTEST; Cache.v has the cache).  Popping the read error when a palette is missing
    (il_pcx.cpp:317) is not represented.  In a saver, an out-of-bounds read of pixel data is
    represented by [Crash], a write from a buffer that is too short. *)
From Coq Require Import ZArith List Lia Bool.
From Verif Require Import Base Enums Utility Image Flip Lump Channels Endian.
Import ListNotations.
Open Scope Z_scope.

(** ** Saving *)

Definition Crash : saver := Write [] 1 1 Done.
(** reading a byte of a buffer while saving *)
Definition at_ (buf : list Z) (i : Z) (k : Z -> saver) : saver :=
  match rd buf i with Ok v => k v | _ => Crash end.
(** for (i = 0; i < n; i++) iputc(c) *)
Fixpoint putn (n : nat) (c : Z) (k : saver) : saver :=
  match n with O => k | S n => Putc c (fun _ => putn n c k) end.
(** for (i = lo; i < lo + n; i++) body *)
Fixpoint for_s (n : nat) (i : Z) (body : Z -> saver -> saver) (k : saver) : saver :=
  match n with O => k | S n => body i (for_s n (i + 1) body k) end.

(** il_pcx.cpp:665-683 *)
Definition encput (byt cnt : Z) (k : Z -> saver) : saver :=
  if negb (cnt =? 0) then
    if (cnt =? 1) && negb (192 =? Z.land 192 byt) then
      Putc byt (fun r => if IL_EOF =? r then k 0 else k 1)
    else
      Putc (u8 (Z.lor 192 cnt)) (fun r => if IL_EOF =? r then k 0 else
        Putc byt (fun r => if IL_EOF =? r then k 0 else k 2))
  else k 0.

(** the loop of encLine, il_pcx.cpp:702-736, with [n] iterations left; [off] is the position of inBuff,
    [step] = Stride + 1, [odd] = (inLen % 2 <> 0) *)
Fixpoint enc_loop (n : nat) (buf : list Z) (off step last run total : Z) (odd : bool) (k : Z -> saver) : saver :=
  match n with
  | O =>
      if negb (run =? 0) then
        encput last run (fun i => if i =? 0 then k 0 else if odd then Putc 0 (fun _ => k (total + i)) else k (total + i))
      else if odd then Putc 0 (fun _ => k total) else k total
  | S n =>
      at_ buf (off + step) (fun this =>
        if this =? last then
          let run := u8 (run + 1) in
          if run =? 63 then
            encput last run (fun i => if i =? 0 then k 0 else enc_loop n buf (off + step) step last 0 (total + i) odd k)
          else enc_loop n buf (off + step) step last run total odd k
        else if negb (run =? 0) then
          encput last run (fun i => if i =? 0 then k 0 else enc_loop n buf (off + step) step this 1 (total + i) odd k)
        else enc_loop n buf (off + step) step this 1 total odd k)
  end.
(** il_pcx.cpp:687-737 *)
Definition encLine (buf : list Z) (off inLen Stride : Z) (k : Z -> saver) : saver :=
  at_ buf off (fun last =>
    enc_loop (Z.to_nat (inLen - 1)) buf off (Stride + 1) last 1 0 (negb (Z.rem inLen 2 =? 0)) k).

(** the header, il_pcx.cpp:589-614; [im] is iCurImage *)
Definition pcx_header (im : img) (k : saver) : saver :=
  Putc 10 (fun _ => Putc 5 (fun _ => Putc 1 (fun _ => Putc 8 (fun _ =>
  SaveLittleUShort 0 (SaveLittleUShort 0
  (SaveLittleUShort (u16 (Width im - 1)) (SaveLittleUShort (u16 (Height im - 1))
  (SaveLittleUShort 0 (SaveLittleUShort 0
  (putn 48 0 (Putc 0 (fun _ => Putc (u8 (Bpp im)) (fun _ =>
  SaveLittleUShort (u16 (if Z.odd (Width im) then Width im + 1 else Width im))
  (SaveLittleUShort 1 (putn 58 0 k))))))))))))))).

(** the pixels, il_pcx.cpp:616-621; [tm] is TempImage and [tdata] TempData *)
Definition pcx_pixels (tm : img) (tdata : list Z) (k : saver) : saver :=
  for_s (Z.to_nat (Height tm)) 0 (fun i k =>
    for_s (Z.to_nat (Bpp tm)) 0 (fun c k =>
      encLine tdata (u32 (Bps tm * i) + c) (i32 (Width tm)) (u8 (Bpp tm - 1)) (fun _ => k)) k) k.

(** the palette, il_pcx.cpp:623-653; [tpal] are the bytes written for a colour-indexed image *)
Definition pcx_pal (im : img) (tpal : option (list Z)) : saver :=
  let pad := putn (Z.to_nat (u32 (768 - PalSize (Pal im)))) 0 Done in
  Putc 12 (fun _ => match tpal with Some p => Write p 1 (zlen p) pad | None => pad end).

(** il_pcx.cpp:589-653 *)
Definition pcx_write (im tm : img) (tdata : list Z) (tpal : option (list Z)) : saver :=
  pcx_header im (pcx_pixels tm tdata (pcx_pal im tpal)).

(** il_pcx.cpp:535-661 for the images that are saved without conversion: one byte per channel, not
    luminance, BGR or BGRA, and a palette of type IL_PAL_RGB24 if colour-indexed.  [None]: outside
    this part, or the flipped copy could not be allocated. *)
Definition iSavePcxInternal (alloc : allocator) (im : img) : res (option saver) :=
  if (Format im =? IL_LUMINANCE) || (Format im =? IL_BGR) || (Format im =? IL_BGRA) || (1 <? Bpc im) then Ok None
  else if (Format im =? IL_COLOUR_INDEX) && negb (PalType (Pal im) =? IL_PAL_RGB24) then Ok None
  else
    let! td := (if negb (Origin im =? IL_ORIGIN_UPPER_LEFT) then iGetFlipped alloc im else Ok (Data im)) in
    match td with
    | None => Ok None
    | Some tdata =>
        if Format im =? IL_COLOUR_INDEX then
          match Palette (Pal im) with
          | None => UB
          | Some p => if zlen p <? PalSize (Pal im) then UB else Ok (Some (pcx_write im im tdata (Some (slice p 0 (PalSize (Pal im))))))
          end
        else Ok (Some (pcx_write im im tdata None))
    end.

(** ** Loading *)

(** include/il_pcx.h:24-41, without the fields that are read but not used *)
Record pcxhead := mkHead {
  Manufacturer : Z; Version : Z; Encoding : Z; HBpp : Z;
  Xmin : Z; Ymin : Z; Xmax : Z; Ymax : Z; VDpi : Z;
  ColMap : list Z; NumPlanes : Z; HBps : Z }.

(** il_pcx.cpp:67-89.  [u i] is the uninitialised local of the i-th GetLittleUShort, [cm] and [fl] the
    uninitialised arrays of the header *)
Definition iGetPcxHead (u : Z -> list Z) (cm fl : list Z) (r : reader) : res (pcxhead * reader) :=
  let! (m, r) := iGetcLump r in
  let! (v, r) := iGetcLump r in
  let! (e, r) := iGetcLump r in
  let! (b, r) := iGetcLump r in
  let! (xmin, r) := GetLittleUShort (u 0) r in
  let! (ymin, r) := GetLittleUShort (u 1) r in
  let! (xmax, r) := GetLittleUShort (u 2) r in
  let! (ymax, r) := GetLittleUShort (u 3) r in
  let! (_, r) := GetLittleUShort (u 4) r in
  let! (vdpi, r) := GetLittleUShort (u 5) r in
  let! (_, cm, r) := iReadLump cm 1 48 r in
  let! (_, r) := iGetcLump r in
  let! (np, r) := iGetcLump r in
  let! (bps, r) := GetLittleUShort (u 6) r in
  let! (_, r) := GetLittleUShort (u 7) r in
  let! (_, r) := GetLittleUShort (u 8) r in
  let! (_, r) := GetLittleUShort (u 9) r in
  let! (_, _, r) := iReadLump fl 1 54 r in
  Ok (mkHead (u8 m) (u8 v) (u8 e) (u8 b) xmin ymin xmax ymax vdpi cm (u8 np) bps, r).

(** il_pcx.cpp:107-140 *)
Definition iCheckPcx (h : pcxhead) : bool :=
  if negb (Manufacturer h =? 10) || negb (Encoding h =? 1) then false
  else if negb (Version h =? 5) && negb (Version h =? 0) && negb (Version h =? 2) && negb (VDpi h =? 3) && negb (VDpi h =? 4) then false
  else
    let Test := u32 (Xmax h - Xmin h + 1) in
    if 8 <=? HBpp h then
      if Z.odd Test then HBps h =? u32 (Test + 1) else HBps h =? Test
    else true.

(** il_pcx.cpp:290-292: for (i = 0; i < ByteHead; i++) ScanLine[x++] = Colour *)
Definition put_run (x cnt col : Z) (s : list Z) : res (list Z) := loop 0 cnt (fun i s => wr s (x + i) col) s.

(** il_pcx.cpp:273-297: reading one scan line.  [false]: file_read_error. *)
Fixpoint pcx_line (fuel : nat) (size x : Z) (scan : list Z) (r : reader) : res (bool * list Z * reader) :=
  if x <? size then
    match fuel with
    | O => Fuel
    | S fuel =>
        let! (n, b, r) := iReadLump [0] 1 1 r in
        if negb (n =? 1) then Ok (false, scan, r)
        else
          let h := geti b 0 in
          if Z.land h 192 =? 192 then
            let cnt := Z.land h 63 in
            let! (n, b, r) := iReadLump [0] 1 1 r in
            if negb (n =? 1) then Ok (false, scan, r)
            else if size <? x + cnt then Ok (false, scan, r)
            else
              let! scan := put_run x cnt (geti b 0) scan in
              pcx_line fuel size (x + cnt) scan r
          else
            let! scan := wr scan x h in
            pcx_line fuel size (x + 1) scan r
    end
  else Ok (true, scan, r).

(** il_pcx.cpp:301-306 *)
Definition pcx_deinterleave (W bpp bps hbps y : Z) (scan d : list Z) : res (list Z) :=
  loop 0 W (fun x d => loop 0 bpp (fun c d =>
    let! v := rd scan (u32 (x + c * hbps)) in wr d (u32 (y * bps + x * bpp + c)) v) d) d.

(** one round of the loop over the lines, il_pcx.cpp:270-307; nothing more is done after an error *)
Definition pcx_row (W bpp bps hbps size y : Z) (st : bool * list Z * list Z * reader) : res (bool * list Z * list Z * reader) :=
  let '(ok, d, scan, r) := st in
  if negb ok then Ok st
  else
    let! (ok, scan, r) := pcx_line (S (length (rlump r))) size 0 scan r in
    if negb ok then Ok (false, d, scan, r)
    else let! d := pcx_deinterleave W bpp bps hbps y scan d in Ok (true, d, scan, r).

(** ** Images with less than 8 bits per channel, il_pcx.cpp:351-479 *)

(** il_pcx.cpp:387-391, 396-400, 447-450, 455-458: at most 8 bits of [v], most significant first, are
    stored as 0 or [one] at [base + i], while i < lim *)
Fixpoint put_bits (n : nat) (k v i lim base one : Z) (d : list Z) : res (Z * list Z) :=
  match n with
  | O => Ok (i, d)
  | S n =>
      if i <? lim then
        let! d := wr d (u32 (base + i)) (if Z.land v k =? 0 then 0 else one) in
        put_bits n (Z.shiftr k 1) v (i + 1) lim base one d
      else Ok (i, d)
  end.
Fixpoint put_bytes (cnt : nat) (v i lim base one : Z) (d : list Z) : res (Z * list Z) :=
  match cnt with
  | O => Ok (i, d)
  | S cnt => let! (i, d) := put_bits 8 128 v i lim base one d in put_bytes cnt v i lim base one d
  end.
(** il_pcx.cpp:378-403 and 429-461.  The two copies test for a run by [HeadByte >= 192] and by
    [(HeadByte & 0xC0) == 0xC0] ([isrun]) and remove the mark by [- 192] and by [& 0x3F] ([len]). *)
Fixpoint small_line (isrun : Z -> bool) (len : Z -> Z) (fuel : nat) (i lim base one : Z) (d : list Z) (r : reader)
  : res (bool * list Z * reader) :=
  if i <? lim then
    match fuel with
    | O => Fuel
    | S fuel =>
        let! (n, b, r) := iReadLump [0] 1 1 r in
        if negb (n =? 1) then Ok (false, d, r)
        else
          let h := geti b 0 in
          if isrun h then
            let! (n, b, r) := iReadLump [0] 1 1 r in
            if negb (n =? 1) then Ok (false, d, r)
            else
              let! (i, d) := put_bytes (Z.to_nat (len h)) (geti b 0) i lim base one d in
              small_line isrun len fuel i lim base one d r
          else
            let! (i, d) := put_bits 8 128 h i lim base one d in
            small_line isrun len fuel i lim base one d r
    end
  else Ok (true, d, r).

(** one line of a 1-bit image, il_pcx.cpp:376-415 *)
Definition row1 (W j : Z) (st : bool * list Z * reader) : res (bool * list Z * reader) :=
  let '(ok, d, r) := st in
  if negb ok then Ok st
  else
    let! (ok, d, r) := small_line (fun h => 192 <=? h) (fun h => h - 192) (S (length (rlump r))) 0 W (u32 (j * W)) 255 d r in
    if negb ok then Ok (false, d, r)
    else if Z.land (Z.shiftr W 3) 1 =? 0 then let! (_, r) := iGetcLump r in Ok (true, d, r)
    else Ok (true, d, r).

(** il_pcx.cpp:464-467 *)
Definition merge4 (W np hbps y : Z) (scan d : list Z) : res (list Z) :=
  loop 0 W (fun x d => loop 0 np (fun c d =>
    let! o := rd d (u32 (y * W + x)) in
    let! v := rd scan (u32 (x + c * hbps * 8)) in
    wr d (u32 (y * W + x)) (u8 (Z.lor o (Z.shiftl v c)))) d) d.
(** one line of a 4-plane image, il_pcx.cpp:434-468 *)
Definition row4 (W np hbps Bps y : Z) (st : bool * list Z * list Z * reader) : res (bool * list Z * list Z * reader) :=
  let '(ok, d, scan, r) := st in
  if negb ok then Ok st
  else
    let! (ok, scan, r) := small_line (fun h => Z.land h 192 =? 192) (fun h => Z.land h 63) (S (length (rlump r))) 0 Bps 0 1 scan r in
    if negb ok then Ok (false, d, scan, r)
    else let! d := merge4 W np hbps y scan d in Ok (true, d, scan, r).

(** il_pcx.cpp:351-479 *)
Definition iUncompressSmall (alloc : allocator) (old : img) (h : pcxhead) (r : reader) : res (bool * img * reader) :=
  let! (ok, im, _) := ilInitImage alloc old (u32 (Xmax h - Xmin h + 1)) (u32 (Ymax h - Ymin h + 1)) 1 1 0 IL_UNSIGNED_BYTE None in
  if negb ok then Ok (false, im, r)
  else
    let im := with_Origin im IL_ORIGIN_UPPER_LEFT in
    if negb ((NumPlanes h =? 1) || (NumPlanes h =? 4)) then Ok (false, im, r)
    else
      let im := with_Format im (if NumPlanes h =? 1 then IL_LUMINANCE else IL_COLOUR_INDEX) in
      match Data im with
      | None => UB
      | Some d =>
          if (NumPlanes h =? 1) && (HBpp h =? 1) then
            let! (ok, d, r) := loop 0 (Height im) (row1 (Width im)) (true, d, r) in
            Ok (ok, with_Data im (Some d), r)
          else if (NumPlanes h =? 4) && (HBpp h =? 1) then
            let Bps := HBps h * NumPlanes h * 8 in
            match alloc 48, alloc Bps with
            | Some p, Some scan =>
                let! p := memcpy p 0 (ColMap h) 0 48 in
                let im := with_Pal im (mkPal (Some p) 48 IL_PAL_RGB24) in
                let! d := memset d 0 0 (SizeOfData im) in
                let! (ok, d, _, r) := loop 0 (Height im) (row4 (Width im) (NumPlanes h) (HBps h) Bps) (true, d, scan, r) in
                Ok (ok, with_Data im (Some d), r)
            | _, _ => Ok (false, im, r)
            end
          else Ok (false, im, r)
      end.

(** the palette, il_pcx.cpp:311-330.  [Palette := None] stands for the freed palette, to which the
    image still points (il_pcx.cpp:319-322). *)
Definition pcx_palette (v : Z) (im : img) (r : reader) : res (bool * img * reader) :=
  if (v =? 5) && (Bpp im =? 1) then
    let! (n, b, r) := iReadLump [0] 1 1 r in
    if n =? 0 then Ok (true, with_Pal (with_Format im IL_LUMINANCE) (mkPal None 0 IL_PAL_NONE), r)
    else
      let! (_, r) := (if negb (geti b 0 =? 12) then iSeekRLump (-1) IL_SEEK_CUR r else Ok (0, r)) in
      match Palette (Pal im) with
      | None => UB
      | Some p =>
          let! (n, p, r) := iReadLump p 1 (PalSize (Pal im)) r in
          let im := with_PalData im p in
          if negb (n =? PalSize (Pal im)) then Ok (false, im, r) else Ok (true, im, r)
      end
  else Ok (true, im, r).

(** il_pcx.cpp:212-348 *)
Definition iUncompressPcx (alloc : allocator) (old : img) (h : pcxhead) (r : reader) : res (bool * img * reader) :=
  if HBpp h <? 8 then iUncompressSmall alloc old h r
  else
    let! (ok, im, _) := ilInitImage alloc old (u32 (Xmax h - Xmin h + 1)) (u32 (Ymax h - Ymin h + 1)) 1 (NumPlanes h) 0 IL_UNSIGNED_BYTE None in
    if negb ok then Ok (false, im, r)
    else
      let im := with_Origin im IL_ORIGIN_UPPER_LEFT in
      let go im :=
        let ScanLineSize := Bpp im * HBps h in
        match alloc ScanLineSize, Data im with
        | None, _ => Ok (false, im, r)
        | _, None => UB
        | Some scan, Some d =>
            let! (ok, d, _, r) := loop 0 (Height im) (pcx_row (Width im) (Bpp im) (Bps im) (HBps h) ScanLineSize) (true, d, scan, r) in
            let im := with_Data im (Some d) in
            if negb ok then Ok (false, im, r) else pcx_palette (Version h) im r
        end in
      if Bpp im =? 1 then
        let im := with_Format im IL_COLOUR_INDEX in
        match alloc 768 with
        | None => Ok (false, with_Pal im (mkPal None 768 IL_PAL_RGB24), r)
        | Some p => go (with_Pal im (mkPal (Some p) 768 IL_PAL_RGB24))
        end
      else if Bpp im =? 3 then go (with_Pal (with_Format im IL_RGB) (mkPal None 0 IL_PAL_NONE))
      else if Bpp im =? 4 then go (with_Pal (with_Format im IL_RGBA) (mkPal None 0 IL_PAL_NONE))
      else Ok (false, im, r).

(** il_pcx.cpp:178-208; ilFixImage is the identity when IL_ORIGIN_SET, IL_TYPE_SET, IL_FORMAT_SET and
    IL_CONV_PAL are disabled *)
Definition ilLoadPcxL (alloc : allocator) (old : img) (u : Z -> list Z) (cm fl : list Z) (Lump : list Z) : res (bool * img * reader) :=
  let! (h, r) := iGetPcxHead u cm fl (iSetInputLump Lump (zlen Lump)) in
  if negb (iCheckPcx h) then Ok (false, old, r) else iUncompressPcx alloc old h r.
