(** Silicon Graphics images (src-IL/src/il_sgi.cpp).

    Input comes from a memory lump, without the read-ahead cache (iPreCache is only called for the
    hint IL_FASTEST; Cache.v has the cache).  ilFixImage at the end of the loader is the identity
    in the default state and is left out.  Memory that is released is not represented. *)
From Coq Require Import ZArith List Lia Bool.
From Verif Require Import Base Enums Utility Image Flip Lump Channels Endian Elem Rle Pcx.
Import ListNotations.
Open Scope Z_scope.

(** ** Loading *)

(** il_sgi.h: iSgiHeader, the fields that are used *)
Record sgihead := mkSgi { SMagic : Z; SStorage : Z; SBpc : Z; SDim : Z; SX : Z; SY : Z; SZ_ : Z; SMin : Z }.

(** il_sgi.cpp:76-94; [u2 i], [u4 i]: the uninitialised local of the i-th GetBig...  The name and
    the padding (lines 88, 90) go to fields that are not used. *)
Definition iGetSgiHead (u2 u4 : Z -> list Z) (r : reader) : res (sgihead * reader) :=
  let! (magic, r) := GetBigUShort (u2 0) r in
  let! (st, r) := iGetcLump r in
  let! (bpc, r) := iGetcLump r in
  let! (dim, r) := GetBigUShort (u2 1) r in
  let! (x, r) := GetBigUShort (u2 2) r in
  let! (y, r) := GetBigUShort (u2 3) r in
  let! (z, r) := GetBigUShort (u2 4) r in
  let! (mn, r) := GetBigInt (u4 0) r in
  let! (_, r) := GetBigInt (u4 1) r in
  let! (_, r) := GetBigInt (u4 2) r in
  let! (_, _, r) := iReadLump (repeat 0 80) 1 80 r in
  let! (_, r) := GetBigInt (u4 3) r in
  let! (_, _, r) := iReadLump (repeat 0 404) 1 404 r in
  Ok (mkSgi magic (signed 1 (u8 st)) (signed 1 (u8 bpc)) dim x y z mn, r).

(** il_sgi.cpp:113-125 *)
Definition iCheckSgi (h : sgihead) : bool :=
  if negb (SMagic h =? 474) then false
  else if negb (SStorage h =? 1) && negb (SStorage h =? 0) then false
  else if (SBpc h =? 0) || (SDim h =? 0) then false
  else if (SX h =? 0) || (SY h =? 0) || (SZ_ h =? 0) then false
  else true.

(** iIsValidSgi, il_sgi.cpp:99-108 *)
Definition iIsValidSgi (u2 u4 : Z -> list Z) (r : reader) : res (bool * reader) :=
  let! (h, r) := iGetSgiHead u2 u4 r in
  let! (_, r) := iSeekRLump (-512) IL_SEEK_CUR r in
  Ok (iCheckSgi h, r).

(** assignment to the Type field *)
Definition with_Type (im : img) (t : Z) : img :=
  mkImg (Width im) (Height im) (Depth im) (Bpp im) (Bpc im) (Bps im) (Data im)
    (SizeOfData im) (SizeOfPlane im) (Format im) t (Origin im) (Pal im)
    (Duration im) (CubeFlags im) (OffX im) (OffY im).

(** il_sgi.cpp:442-489: whether it succeeded, the current image, the errors set.  The depth passed
    to ilTexImage is the number of bytes per channel; it is a signed byte converted to ILuint. *)
Definition iNewSgi (alloc : allocator) (old : img) (h : sgihead) : res (bool * img * list Z) :=
  let! (ok, im, e) := ilInitImage alloc old (SX h) (SY h) (u32 (SBpc h)) (u8 (SZ_ h)) 0 IL_UNSIGNED_BYTE None in
  if negb ok then Ok (false, im, e) else
  let im := with_Origin im IL_ORIGIN_LOWER_LEFT in
  let f := if SZ_ h =? 1 then Some IL_LUMINANCE else if SZ_ h =? 3 then Some IL_RGB else if SZ_ h =? 4 then Some IL_RGBA else None in
  match f with
  | None => Ok (false, im, [IL_ILLEGAL_FILE_VALUE])
  | Some f =>
      let im := with_Format im f in
      let t := if SBpc h =? 1 then Some (if SMin h <? 0 then IL_BYTE else IL_UNSIGNED_BYTE)
               else if SBpc h =? 2 then Some (if SMin h <? 0 then IL_SHORT else IL_UNSIGNED_SHORT) else None in
      match t with
      | None => Ok (false, im, [IL_ILLEGAL_FILE_VALUE])
      | Some t => Ok (true, with_Type im t, [])
      end
  end.

(** il_sgi.cpp:393-402: the planes, one byte at a time; [false]: the input ended *)
Definition sgi_plain (Bpp Size : Z) (d : list Z) (r : reader) : res (bool * list Z * reader) :=
  loop 0 Bpp (fun c st =>
    stride c Size Bpp (fun i st =>
      let '(ok, d, r) := st in
      if negb ok then Ok st else
      let! (n, b, r) := iReadLump (slice d i (zlen d - i)) 1 1 r in
      Ok (n =? 1, splice d i b, r)) st) (true, d, r).

(** iReadNonRleSgi, il_sgi.cpp:374-408 *)
Definition iReadNonRleSgi (alloc : allocator) (old : img) (h : sgihead) (r : reader) : res (bool * img * list Z) :=
  let! (ok, im, e) := iNewSgi alloc old h in
  if negb ok then Ok (false, im, e) else
  match Data im with
  | None => UB
  | Some d =>
      let! (ok, d, r) := sgi_plain (Bpp im) (SizeOfData im) d r in
      Ok (ok, with_Data im (Some d), [])
  end.

(** il_sgi.cpp:342-360: [n] copies of the pixel from position [p] of the plane *)
Definition sgi_run (Bpc Count Pixel : Z) (d : list Z) (p : Z) : res (list Z) :=
  loop 0 Count (fun i d =>
    let! d := wr d (p + i * Bpc) (u8 Pixel) in
    if Bpc =? 1 then Ok d else wr d (p + i * Bpc + 1) (u8 (Pixel / 256))) d.

(** iGetScanLine, il_sgi.cpp:319-368: the result (or -1), the plane, the input.  ScanLine points at
    [base + CurPos] in the plane [d] throughout; every turn advances CurPos, so [Bps] turns suffice. *)
Fixpoint scan_loop (fuel : nat) (Bpc Bps Length base BppRead CurPos : Z) (d : list Z) (r : reader) : res (Z * list Z * reader) :=
  if (BppRead <? Length) && (CurPos <? Bps) then
    match fuel with
    | O => Fuel
    | S fuel =>
        let! (n, pb, r) := iReadLump [0; 0] Bpc 1 r in
        if negb (n =? 1) then Ok (-1, d, r) else
        let Count := Z.land (unle pb) 127 in
        if Count =? 0 then Ok (CurPos, d, r)
        else if negb (Z.land (unle pb) 128 =? 0) then
          let off := base + CurPos in
          if zlen d <? off then UB else
          let! (n, b, r) := iReadLump (slice d off (zlen d - off)) Bpc Count r in
          let d := splice d off b in
          if negb (n =? Count) then Ok (-1, d, r) else
          scan_loop fuel Bpc Bps Length base (u32 (BppRead + (Bpc * Count + Bpc))) (u32 (CurPos + Bpc * Count)) d r
        else
          let! (n, pb, r) := iReadLump pb Bpc 1 r in
          if negb (n =? 1) then Ok (-1, d, r) else
          let! d := sgi_run Bpc Count (unle pb) d (base + CurPos) in
          scan_loop fuel Bpc Bps Length base (u32 (BppRead + (Bpc + Bpc))) (u32 (CurPos + Bpc * Count)) d r
    end
  else Ok (CurPos, d, r).
Definition iGetScanLine (h : sgihead) (Length base : Z) (d : list Z) (r : reader) : res (Z * list Z * reader) :=
  scan_loop (Z.to_nat (SX h * SBpc h)) (SBpc h) (SX h * SBpc h) Length base 0 0 d r.

(** entry [i] of a table as it stands in the file, byte-swapped (il_sgi.cpp:234-240) *)
Definition entry (tbl : list Z) (i : Z) : res Z := let! b := rde tbl 4 i in Ok (iSwapUInt (unle b)).

(** il_sgi.cpp:256-270: the lines of one plane; [None]: a line was not as long as the image is wide *)
Definition sgi_plane (h : sgihead) (off len : list Z) (ixPlane : Z) (d : list Z) (r : reader) : res (bool * list Z * reader) :=
  loop 0 (SY h) (fun ixHeight st =>
    let '(ok, d, r) := st in
    if negb ok then Ok st else
    let! RleOff := entry off (ixHeight + ixPlane * SY h) in
    let! RleLen := entry len (ixHeight + ixPlane * SY h) in
    let! (_, r) := iSeekRLump (i32 RleOff) IL_SEEK_SET r in
    let! (n, d, r) := iGetScanLine h RleLen (u32 (ixHeight * SX h * SBpc h)) d r in
    Ok (n =? SX h * SBpc h, d, r)) (true, d, r).

(** il_sgi.cpp:248-252: a fresh block for each plane *)
Fixpoint fresh_planes (alloc : allocator) (n : nat) (size : Z) : option (list (list Z)) :=
  match n with
  | O => Some []
  | S n => match alloc size, fresh_planes alloc n size with Some b, Some l => Some (b :: l) | _, _ => None end
  end.

(** il_sgi.cpp:255-271: all planes, in order *)
Fixpoint sgi_planes (h : sgihead) (off len : list Z) (ixPlane : Z) (ps : list (list Z)) (r : reader) : res (bool * list (list Z) * reader) :=
  match ps with
  | [] => Ok (true, [], r)
  | d :: ps =>
      let! (ok, d, r) := sgi_plane h off len ixPlane d r in
      if negb ok then Ok (false, d :: ps, r) else
      let! (ok, ps, r) := sgi_planes h off len (ixPlane + 1) ps r in
      Ok (ok, d :: ps, r)
  end.

(** TempData[p][i] *)
Definition tempdata (ps : list (list Z)) (p i : Z) : res Z :=
  match nth_error ps (Z.to_nat p) with Some b => rd b i | None => UB end.

(** il_sgi.cpp:282-290; ChanInt is ixPixel / (ZSize * Bpc) * Bpc *)
Definition sgi_assemble (h : sgihead) (Size : Z) (ps : list (list Z)) (d : list Z) : res (list Z) :=
  stride 0 Size (SZ_ h * SBpc h) (fun ixPixel d =>
    let ChanInt := ixPixel / (SZ_ h * SBpc h) * SBpc h in
    loop 0 (SZ_ h) (fun k d =>
      let ixPlane := k * SBpc h in
      let! v := tempdata ps ixPlane ChanInt in
      let! d := wr d (ixPixel + ixPlane) v in
      if SBpc h =? 2 then
        let! v := tempdata ps ixPlane (ChanInt + 1) in wr d (ixPixel + ixPlane + 1) v
      else Ok d) d) d.

(** il_sgi.cpp:412-437 *)
Definition sgiSwitchData (Size : Z) (d : list Z) : res (list Z) :=
  stride 0 Size 2 (fun i d =>
    let! t := rd d i in
    let! v := rd d (i + 1) in
    let! d := wr d i v in
    wr d (i + 1) t) d.

(** iReadRleSgi, il_sgi.cpp:212-315.  XSize * YSize * Bpc (line 249) is computed in int. *)
Definition iReadRleSgi (alloc : allocator) (old : img) (h : sgihead) (r : reader) : res (bool * img * list Z) :=
  let! (ok, im, e) := iNewSgi alloc old h in
  if negb ok then Ok (false, im, e) else
  let TableSize := SY h * SZ_ h in
  match alloc (TableSize * 4), alloc (TableSize * 4) with
  | Some off, Some len =>
      let! (n, off, r) := iReadLump off (TableSize * 4) 1 r in
      if negb (n =? 1) then Ok (false, im, []) else
      let! (n, len, r) := iReadLump len (TableSize * 4) 1 r in
      if negb (n =? 1) then Ok (false, im, []) else
      if 2147483647 <? SX h * SY h * SBpc h then UB else
      match alloc (SZ_ h * 8), fresh_planes alloc (Z.to_nat (SZ_ h)) (SX h * SY h * SBpc h) with
      | Some _, Some ps =>
          let! (ok, ps, r) := sgi_planes h off len 0 ps r in
          if negb ok then Ok (false, im, [IL_ILLEGAL_FILE_VALUE]) else
          match Data im with
          | None => UB
          | Some d =>
              let! d := sgi_assemble h (SizeOfData im) ps d in
              let! d := (if SBpc h =? 2 then sgiSwitchData (SizeOfData im) d else Ok d) in
              Ok (true, with_Data im (Some d), [])
          end
      | _, _ => Ok (false, im, [IL_OUT_OF_MEMORY])
      end
  | _, _ => Ok (false, im, [IL_OUT_OF_MEMORY])
  end.

(** iLoadSgiInternal, il_sgi.cpp:174-208, on a current image: the result, the image, the errors set
    (apart from those of iread itself) *)
Definition iLoadSgiInternal (alloc : allocator) (old : img) (u2 u4 : Z -> list Z) (r : reader) : res (bool * img * list Z) :=
  let! (h, r) := iGetSgiHead u2 u4 r in
  if negb (iCheckSgi h) then Ok (false, old, [IL_INVALID_FILE_HEADER]) else
  let h := if SZ_ h =? 2 then mkSgi (SMagic h) (SStorage h) (SBpc h) (SDim h) (SX h) (SY h) 1 (SMin h) else h in
  if SStorage h =? 1 then iReadRleSgi alloc old h r else iReadNonRleSgi alloc old h r.

(** ilLoadSgiL, il_sgi.cpp:165-169 *)
Definition ilLoadSgiL (alloc : allocator) (old : img) (u2 u4 : Z -> list Z) (Lump : list Z) : res (bool * img * list Z) :=
  iLoadSgiInternal alloc old u2 u4 (iSetInputLump Lump (zlen Lump)).

(** ** Saving *)

(** DetermineSgiType, il_sgi.cpp:547-555 *)
Definition DetermineSgiType (cur : img) (Ty : Z) : Z :=
  if IL_UNSIGNED_SHORT <? Ty then (if Type_ cur =? IL_INT then IL_SHORT else IL_UNSIGNED_SHORT) else Ty.

(** il_sgi.cpp:575-591: the format and type to convert to, if any *)
Definition sgi_target (im : img) : option (Z * Z) :=
  if negb (Format im =? IL_LUMINANCE) && negb (Format im =? IL_RGB) && negb (Format im =? IL_RGBA) then
    if (Format im =? IL_BGRA) || (Format im =? IL_LUMINANCE_ALPHA) then Some (IL_RGBA, DetermineSgiType im (Type_ im))
    else Some (IL_RGB, DetermineSgiType im (Type_ im))
  else if IL_UNSIGNED_SHORT <? Type_ im then Some (Format im, DetermineSgiType im (Type_ im))
  else None.

(** strlen of the text that starts a block of memory; [None]: no zero byte in it *)
Fixpoint strlen (m : list Z) : option Z :=
  match m with
  | [] => None
  | b :: m => if b =? 0 then Some 0 else match strlen m with Some n => Some (n + 1) | None => None end
  end.

(** il_sgi.cpp:637-651: the name.  [FName] is the memory behind the pointer, [None] for NULL *)
Definition sgi_name (FName : option (list Z)) (k : saver) : saver :=
  match FName with
  | None => putn 80 0 k
  | Some m =>
      match strlen m with
      | None => Crash
      | Some c =>
          let c := if c <? 79 then 79 else c in
          Write m 1 c (putn (Z.to_nat (u32 (80 - c))) 0 k)
      end
  end.

(** il_sgi.cpp:597-658: the header *)
Definition sgi_header (tm : img) (Compress : bool) (FName : option (list Z)) (k : saver) : saver :=
  SaveBigUShort 474 (Putc (if Compress then 1 else 0) (fun _ =>
    let dims :=
      SaveBigUShort (if (Format tm =? IL_LUMINANCE) || (Format tm =? IL_COLOUR_INDEX) then 2 else 3)
        (SaveBigUShort (Width tm) (SaveBigUShort (Height tm) (SaveBigUShort (Bpp tm)
          (let rest := SaveBigInt 0 (sgi_name FName (SaveBigUInt 0 (for_s 101 0 (fun _ k => SaveLittleInt 0 k) k))) in
           if Type_ tm =? IL_BYTE then SaveBigInt (-128) (SaveBigInt 127 rest)
           else if Type_ tm =? IL_UNSIGNED_BYTE then SaveBigInt 0 (SaveBigInt 255 rest)
           else if Type_ tm =? IL_SHORT then SaveBigInt (-32768) (SaveBigInt 32767 rest)
           else if Type_ tm =? IL_UNSIGNED_SHORT then SaveBigInt 0 (SaveBigInt 65535 rest)
           else rest)))) in
    if Type_ tm =? IL_UNSIGNED_BYTE then Putc 1 (fun _ => dims)
    else if Type_ tm =? IL_UNSIGNED_SHORT then Putc 2 (fun _ => dims)
    else dims)).

(** il_sgi.cpp:673-679: the planes; [n] bytes of plane [c] remain, the next is at [i].  (The loop ends
    with i >= SizeOfData; the count is that of the source as long as the counter does not wrap.) *)
Fixpoint put_plane (n : nat) (td : list Z) (i Bpp : Z) (k : saver) : saver :=
  match n with
  | O => k
  | S n => at_ td i (fun v => Putc v (fun _ => put_plane n td (i + Bpp) Bpp k))
  end.
Definition put_planes (tm : img) (td : list Z) (k : saver) : saver :=
  for_s (Z.to_nat (Bpp tm)) 0 (fun c k => put_plane (Z.to_nat ((SizeOfData tm - c + Bpp tm - 1) / Bpp tm)) td c (Bpp tm) k) k.

(** il_sgi.cpp:722-725: one channel of one line *)
Definition gather (Data : list Z) (w i numChannels : Z) (line : list Z) : res (list Z) :=
  loop 0 w (fun j line => let! v := rd Data (i + j * numChannels) in wr line j v) line.

(** il_sgi.cpp:719-730: the lines in the order they are written: the buffer CompLine, and the number of
    bytes of it that are written (LenTable) *)
Definition sgi_lines (Data : list Z) (w h numChannels bps : Z) (line comp : list Z) : res (list (list Z * Z) * list Z * list Z) :=
  loop 0 numChannels (fun c st =>
    loop 0 h (fun y st =>
      let '(l, line, comp) := st in
      let! line := gather Data w (y * bps + c) numChannels line in
      let! (size, code) := rle_line Sgi 1 0 0 line 0 w in
      if zlen comp <? zlen code then UB else
      let comp := splice comp 0 code in
      Ok (l ++ [(comp, size)], line, comp)) st) ([], line, comp).

(** il_sgi.cpp:736-747: the two tables *)
Fixpoint start_table (off : Z) (l : list (list Z * Z)) : list Z :=
  match l with [] => [] | (_, n) :: l => le 4 (iSwapUInt off) ++ start_table (u32 (off + n)) l end.
Definition len_table (l : list (list Z * Z)) : list Z := concat (map (fun x => le 4 (iSwapUInt (u32 (snd x)))) l).

(** iSaveRleSgi, il_sgi.cpp:689-755; its result is ignored by the caller.  [k]: what comes next *)
Definition iSaveRleSgi (alloc : allocator) (Data : list Z) (w h numChannels bps : Z) (k : saver) : res saver :=
  let n := u32 (h * numChannels) in
  match alloc w, alloc (u32 (w * 2 + 1)), alloc (n * 4), alloc (n * 4) with
  | Some line, Some comp, Some start, Some len =>
      let! (l, _, _) := sgi_lines Data w h numChannels bps line comp in
      Ok (Tell (fun TableOff =>
        Write start 4 n (Write (repeat 0 (Z.to_nat (n * 4))) 4 n (Tell (fun DataOff =>
          fold_right (fun x k => Write (fst x) 1 (snd x) k)
            (Seek (i32 TableOff) IL_SEEK_SET (fun _ =>
              Write (start_table DataOff l) 4 n (Write (len_table l) 4 n k))) l)))))
  | _, _, _, _ => Ok k
  end.

(** iSaveSgiInternal, il_sgi.cpp:561-685, on a current image: the result and what is written.  [rle] is
    the state IL_SGI_RLE, [conv fmt type] is iConvertImage on the current image (ConvImg.v), [FName] the
    memory behind the static variable of that name.  [k] is what the caller does with the output next:
    ilSaveSgiF and ilSaveSgiL (523-544) ask for the position and report it as the number of bytes
    written. *)
Definition iSaveSgiInternal (alloc : allocator) (rle : bool) (conv : Z -> Z -> res (option img)) (FName : option (list Z)) (im : img) (k : saver) : res (bool * saver) :=
  let! tm := match sgi_target im with None => Ok (Some im) | Some (f, t) => conv f t end in
  match tm with
  | None => if rle then UB else Ok (false, k)       (* Temp->Bpc is read before Temp is tested *)
  | Some tm =>
      let Compress := rle && (Bpc tm =? 1) in
      let! td := (if Origin im =? IL_ORIGIN_UPPER_LEFT then iGetFlipped alloc tm else Ok (Data tm)) in
      match td with
      | None => if Origin im =? IL_ORIGIN_UPPER_LEFT then Ok (false, sgi_header tm Compress FName k) else UB
      | Some td =>
          if negb Compress then Ok (true, sgi_header tm Compress FName (put_planes tm td k))
          else
            let! p := iSaveRleSgi alloc td (Width tm) (Height tm) (Bpp tm) (Bps tm) k in
            Ok (true, sgi_header tm Compress FName p)
      end
  end.
