(** GIF images (src-IL/src/il_gif.cpp).

    Input comes from a memory lump.  The images of an animation are a list: iCurImage first, then its Next, and
    so on.  [us p] is what the local variable of GetLittleUShort holds when it is called at position [p].
    [fuel] bounds the number of iterations of every loop that reads input or follows the string table; running
    out of it is [Fuel].  ilFixImage at the end is the identity in the default state and is left out; so are
    the variables GifType and success, which are written but never read, and the freeing of memory.  The errors reported
    are those this file and ilTexImage set, not those of igetc and iread (nor does ilGetError at 266 remove
    any).  iCurImage is not NULL. *)
From Coq Require Import ZArith List Lia Bool.
From Verif Require Import Base Enums Utility Image Lump Endian Elem Strings.
Import ListNotations.
Open Scope Z_scope.

Definition u2 (us : Z -> list Z) (r : reader) : res (Z * reader) := GetLittleUShort (us (rpos r)) r.

(** ** The header *)

(** strnicmp(Sig, name, 6) == 0 for a name of six characters other than NUL, il_internal.cpp:29-32 *)
Definition same_sig (sig name : list Z) : bool := if list_eq_dec Z.eq_dec (map tolower sig) (map tolower name) then true else false.
Definition GIF87A : list Z := [71; 73; 70; 56; 55; 65].
Definition GIF89A : list Z := [71; 73; 70; 56; 57; 65].
Definition gif_sig (sig : list Z) : bool := same_sig sig GIF87A || same_sig sig GIF89A.

(** il_gif.cpp:73-88 iIsValidGif; [hd] is the memory of Header *)
Definition iIsValidGif (hd : list Z) (r : reader) : res (bool * reader) :=
  let! (n, sig, r) := iReadLump hd 1 6 r in
  if negb (n =? 6) then Ok (false, r) else
  let! (_, r) := iSeekRLump (-6) IL_SEEK_CUR r in
  Ok (gif_sig sig, r).

(** ** Extensions *)

(** include/il_gif.h GFXCONTROL; Size and Terminator are never used *)
Record gfx := mkGfx { Used : bool; Packed : Z; Delay : Z; Transparent : Z }.

(** il_gif.cpp:424-428: the blocks of an unknown extension; false: return IL_FALSE *)
Fixpoint skip_blocks (fuel : nat) (r : reader) : res (bool * reader) :=
  match fuel with
  | O => Fuel
  | S fuel =>
      let! (Size, r) := iGetcLump r in
      if Size =? IL_EOF then Ok (false, r) else
      let! (_, r) := iSeekRLump Size IL_SEEK_CUR r in
      if negb (iEofLump r) && negb (Size =? 0) then skip_blocks fuel r else Ok (true, r)
  end.
(** il_gif.cpp:384-439 SkipExtensions *)
Fixpoint SkipExtensions (fuel : nat) (us : Z -> list Z) (g : gfx) (r : reader) : res (bool * gfx * reader * list Z) :=
  match fuel with
  | O => Fuel
  | S f =>
      let! (Code, r) := iGetcLump r in
      if Code =? IL_EOF then Ok (false, g, r, []) else
      if negb (Code =? 33) then let! (_, r) := iSeekRLump (-1) IL_SEEK_CUR r in Ok (true, g, r, []) else
      let! (Label, r) := iGetcLump r in
      if Label =? IL_EOF then Ok (false, g, r, []) else
      let! (ok, g, r) :=
        if Label =? 249 then
          let! (_, r) := iGetcLump r in
          let! (p, r) := iGetcLump r in
          let! (d, r) := u2 us r in
          let! (t, r) := iGetcLump r in
          let! (_, r) := iGetcLump r in
          if iEofLump r then Ok (false, mkGfx (Used g) (u8 p) d (u8 t), r) else Ok (true, mkGfx false (u8 p) d (u8 t), r)
        else let! (ok, r) := skip_blocks f r in Ok (ok, g, r) in
      if negb ok then Ok (false, g, r, []) else
      if iEofLump r then Ok (false, g, r, [IL_FILE_READ_ERROR]) else
      SkipExtensions f us g r
  end.

(** ** Bits: get_next_code, il_gif.cpp:466-529 *)

(** the static variables byte_buff, pbytes (as an index of byte_buff), navail_bytes, nbits_left and b1 *)
Record bitst := mkBits { byte_buff : list Z; pbytes : Z; navail : Z; nbits : Z; b1 : Z; input : reader }.

(** 485-493, 511-519: bytes of a block into byte_buff from [i] on; false: the input ended *)
Fixpoint fill (n : nat) (i : Z) (bb : list Z) (r : reader) : res (bool * list Z * reader) :=
  match n with
  | O => Ok (true, bb, r)
  | S n =>
      let! (t, r) := iGetcLump r in
      if t =? IL_EOF then Ok (false, bb, r) else
      let! bb := wr bb i (u8 t) in fill n (i + 1) bb r
  end.
(** 476-497, 502-524: the next byte into b1 (nbits_left is left to the caller); false: return ending *)
Definition next_byte (s : bitst) : res (bool * bitst) :=
  let! (ok, bb, p, n, r) :=
    if navail s <=? 0 then
      let! (n, r) := iGetcLump (input s) in
      if n =? IL_EOF then Ok (false, byte_buff s, 0, n, r)
      else let! (ok, bb, r) := fill (Z.to_nat n) 0 (byte_buff s) r in Ok (ok, bb, 0, n, r)
    else Ok (true, byte_buff s, pbytes s, navail s, input s) in
  if negb ok then Ok (false, mkBits bb p n (nbits s) (b1 s) r) else
  let! b := rd bb p in
  Ok (true, mkBits bb (p + 1) (n - 1) (nbits s) b r).
Definition set_nbits (s : bitst) (n : Z) : bitst := mkBits (byte_buff s) (pbytes s) (navail s) n (b1 s) (input s).

(** 501-526; curr_size is at most 12, so that three iterations are enough *)
Fixpoint more_bits (fuel : nat) (curr_size ret : Z) (s : bitst) : res (option Z * bitst) :=
  if nbits s <? curr_size then
    match fuel with
    | O => Fuel
    | S fuel =>
        let! (ok, s) := next_byte s in
        if negb ok then Ok (None, s) else
        more_bits fuel curr_size (Z.lor ret (Z.shiftl (b1 s) (nbits s))) (set_nbits s (nbits s + 8))
    end
  else Ok (Some ret, set_nbits s (nbits s - curr_size)).
(** 466-529; code_mask[n] (454-463) is 2^n - 1 for n = 0 .. 12 *)
Definition get_next_code (ending curr_size : Z) (s : bitst) : res (Z * bitst) :=
  let! (ok, s) := if nbits s =? 0 then let! (ok, s) := next_byte s in Ok (ok, if ok then set_nbits s 8 else s) else Ok (true, s) in
  if negb ok then Ok (ending, s) else
  let! (ret, s) := more_bits 3 curr_size (Z.shiftr (b1 s) (8 - nbits s)) s in
  match ret with
  | None => Ok (ending, s)
  | Some ret => if (0 <=? curr_size) && (curr_size <=? 12) then Ok (Z.land ret (2 ^ curr_size - 1), s) else UB
  end.

(** ** GifGetData, il_gif.cpp:539-671 *)

Definition MAX_CODES : Z := 4096.

(** the string table: curr_size, top_slot, slot, oc, fc and the blocks suffix and prefix *)
Record table := mkTable { curr_size : Z; top_slot : Z; slot : Z; oc : Z; fc : Z; suffix : list Z; prefix : list Z }.
(** the output: Image->Data, DataPtr (as an index of it), i, Read and j *)
Record output := mkOut { pixels : list Z; ptr : Z; col : Z; Read : Z; row : Z }.

(** the constants of one call: size; clear, ending and newcodes come from it (566-570); Width, Height and Stride; PalOffset;
    [base] is Data - Image->Data; [skip c] is the test at 588 and 653: colour [c] is transparent and the previous picture shows *)
Record consts := mkC { cSize : Z; cWidth : Z; cHeight : Z; cStride : Z; cPal : Z; base : Z; skip : Z -> bool }.
Definition clear (k : consts) : Z := 2 ^ cSize k.
Definition ending (k : consts) : Z := clear k + 1.
Definition newcodes (k : consts) : Z := ending k + 1.

(** 588-591, 653-656 *)
Definition put (k : consts) (c : Z) (o : output) : res output :=
  if skip k c then Ok (mkOut (pixels o) (ptr o) (u32 (col o + 1)) (Read o) (row o))
  else if col o <? cWidth k then
    let! d := wr (pixels o) (ptr o + col o) (u8 (c + cPal k)) in Ok (mkOut d (ptr o) (u32 (col o + 1)) (Read o) (row o))
  else Ok o.
(** 588-603: the pixel after a clear code; false: return IL_FALSE *)
Definition put_first (k : consts) (c : Z) (o : output) : res (bool * output) :=
  let! o := put k c o in
  if col o =? cWidth k then
    let j := u32 (row o + 1) in
    Ok (negb (cHeight k <=? j), mkOut (pixels o) (ptr o + cStride k) 0 (u32 (Read o + 1)) j)
  else Ok (true, o).
(** 653-665 *)
Definition put_next (k : consts) (c : Z) (o : output) : res output :=
  let! o := put k c o in
  if col o =? cWidth k then
    if cHeight k =? 0 then UB else
    let j := u32 (row o + 1) mod cHeight k in
    Ok (mkOut (pixels o) (base k + u32 (j * cStride k)) 0 (u32 (Read o + 1)) j)
  else Ok o.
(** 650-666; [st] is the contents of the stack, the last byte pushed first *)
Fixpoint put_all (k : consts) (st : list Z) (o : output) : res output :=
  match st with
  | [] => Ok o
  | c :: st => let! o := put_next k c o in put_all k st o
  end.

(** 612-616, 623-628, 632-637: *sp++ = v, unless the stack is full *)
Definition push (v : Z) (st : list Z) : option (list Z) := if MAX_CODES <=? zlen st then None else Some (u8 v :: st).
(** 621-630: [None]: return IL_FALSE *)
Fixpoint chain (fuel : nat) (newcodes : Z) (suffix prefix : list Z) (code : Z) (st : list Z) : res (option (Z * list Z)) :=
  if newcodes <=? code then
    match fuel with
    | O => Fuel
    | S fuel =>
        if MAX_CODES <=? zlen st then Ok None else
        let! v := rd suffix code in
        let! code' := rd prefix code in
        match push v st with
        | None => Ok None
        | Some st => chain fuel newcodes suffix prefix code' st
        end
    end
  else Ok (Some (code, st)).

(** 638-649 *)
Definition learn (c code : Z) (t : table) : res table :=
  let! t :=
    if slot t <? top_slot t then
      let! sf := wr (suffix t) (slot t) (u8 code) in
      let! px := wr (prefix t) (slot t) (oc t) in
      Ok (mkTable (curr_size t) (top_slot t) (slot t + 1) c code sf px)
    else Ok t in
  Ok (if (top_slot t <=? slot t) && (curr_size t <? 12)
      then mkTable (curr_size t + 1) (top_slot t * 2) (slot t) (oc t) (fc t) (suffix t) (prefix t) else t).

(** 607-637: the string of code [c], with the number that follows its chain; [None]: return IL_FALSE *)
Definition string_of (fuel : nat) (k : consts) (c : Z) (t : table) : res (option (Z * list Z)) :=
  match (if slot t <=? c then match push (fc t) [] with None => None | Some st => Some (oc t, st) end else Some (c, [])) with
  | None => Ok None
  | Some (code, st) =>
      if MAX_CODES <=? code then Ok None else
      let! x := chain fuel (newcodes k) (suffix t) (prefix t) code st in
      match x with
      | None => Ok None
      | Some (code, st) => match push code st with None => Ok None | Some st => Ok (Some (code, st)) end
      end
  end.

(** 581: while ((c = get_next_code()) == clear); *)
Fixpoint after_clear (fuel : nat) (k : consts) (s : bitst) : res (Z * bitst) :=
  match fuel with
  | O => Fuel
  | S fuel =>
      let! (c, s) := get_next_code (ending k) (cSize k + 1) s in
      if c =? clear k then after_clear fuel k s else Ok (c, s)
  end.

(** 575-670: the flag is what GifGetData returns *)
Fixpoint codes (fuel : nat) (k : consts) (t : table) (o : output) (s : bitst) : res (bool * output * bitst) :=
  match fuel with
  | O => Fuel
  | S f =>
      let! (c, s) := get_next_code (ending k) (curr_size t) s in
      if (c =? ending k) || negb (Read o <? cHeight k) then Ok (true, o, s) else
      if c =? clear k then
        let! (c, s) := after_clear f k s in
        if c =? ending k then Ok (true, o, s) else
        let c := if newcodes k <=? c then 0 else c in
        let! (ok, o) := put_first k c o in
        if negb ok then Ok (false, o, s) else
        codes f k (mkTable (cSize k + 1) (2 ^ (cSize k + 1)) (newcodes k) c c (suffix t) (prefix t)) o s
      else
        let! x := string_of f k c t in
        match x with
        | None => Ok (false, o, s)
        | Some (code, st) =>
            let! t := learn c code t in
            let! o := put_all k st o in
            codes f k t o s
        end
  end.

(** the bytes of a block as ILshort *)
Fixpoint shorts (l : list Z) : list Z :=
  match l with
  | a :: b :: l => signed 2 (a + 256 * b) :: shorts l
  | _ => []
  end.

(** 539-671; the three blocks are the results of the calls of ialloc.  [bb] is byte_buff. *)
Definition GifGetData (fuel : nat) (alloc : allocator) (g : gfx) (d bb : list Z) (base Width Height Stride PalOffset : Z) (r : reader) : res (bool * list Z * list Z * reader) :=
  let DisposalMethod := if negb (Used g) then Z.shiftr (Z.land (Packed g) 28) 2 else 0 in
  let! (size, r) := iGetcLump r in
  if size =? IL_EOF then Ok (false, d, bb, r) else
  if (size <? 2) || (9 <? size) then Ok (false, d, bb, r) else
  match alloc (MAX_CODES + 1), alloc (MAX_CODES + 1), alloc (2 * (MAX_CODES + 1)) with
  | Some _, Some sf, Some px =>
      let k := mkC size Width Height Stride PalOffset base
                 (fun c => (DisposalMethod =? 1) && negb (Used g) && (Transparent g =? c) && Z.odd (Packed g)) in
      let! (ok, o, s) := codes fuel k (mkTable (size + 1) (2 ^ (size + 1)) (newcodes k) 0 0 sf (shorts px)) (mkOut d base 0 0 0) (mkBits bb 0 0 0 0 r) in
      Ok (ok, pixels o, byte_buff s, input s)
  | _, _, _ => Ok (false, d, bb, r)
  end.

(** ** Palettes *)

(** il_gif.cpp:189-228 iGetPalette; [old] is *Pal, [prev] the palette of PrevImage if UsePrevPal *)
Definition iGetPalette (alloc : allocator) (Info : Z) (old : pal) (prev : option pal) (r : reader) : res (bool * pal * reader * list Z) :=
  let own := 2 ^ (Z.land Info 7 + 1) * 3 in
  let off := match prev with None => 0 | Some p => PalSize p end in
  let size := own + off in
  if 768 <? size then Ok (false, old, r, [IL_ILLEGAL_FILE_VALUE]) else
  match alloc 768 with
  | None => Ok (false, mkPal None size IL_PAL_RGB24, r, [])
  | Some blk =>
      let! blk := match prev with
                  | None => Ok blk
                  | Some p => match Palette p with None => UB | Some q => memcpy blk 0 q 0 (PalSize p) end
                  end in
      let! (n, b, r) := iReadLump (skipn (Z.to_nat off) blk) 1 size r in
      if negb (n =? size) then Ok (false, mkPal None size IL_PAL_RGB24, r, [])
      else Ok (true, mkPal (Some (firstn (Z.to_nat off) blk ++ b)) size IL_PAL_RGB24, r, [])
  end.
(** il_pal.cpp:545-560 iCopyPalette *)
Definition iCopyPalette (alloc : allocator) (dest src : pal) : res (bool * pal) :=
  match Palette src with
  | None => Ok (false, dest)
  | Some q =>
      if PalSize src =? 0 then Ok (false, dest) else
      match alloc (PalSize src) with
      | None => Ok (false, mkPal None (PalSize dest) (PalType dest))
      | Some blk => let! p := memcpy blk 0 q 0 (PalSize src) in Ok (true, mkPal (Some p) (PalSize src) (PalType src))
      end
  end.
(** il_gif.cpp:723-753 ConvertTransparent *)
Definition ConvertTransparent (alloc : allocator) (p : pal) (TransColour : Z) : res (bool * pal * list Z) :=
  match Palette p with
  | None => Ok (false, p, [IL_INTERNAL_ERROR])
  | Some q =>
      if PalSize p =? 0 then Ok (false, p, [IL_INTERNAL_ERROR]) else
      let size := u32 (PalSize p / 3 * 4) in
      match alloc size with
      | None => Ok (false, p, [])
      | Some blk =>
          let! (blk, _) := stride 0 (PalSize p) 3 (fun i s =>
            let '(d, j) := s in
            let! v := rd q i in let! d := wr d j v in
            let! v := rd q (i + 1) in let! d := wr d (j + 1) v in
            let! v := rd q (i + 2) in let! d := wr d (j + 2) v in
            let! d := wr d (j + 3) (if j / 4 =? TransColour then 0 else 255) in
            Ok (d, u32 (j + 4))) (blk, 0) in
          Ok (true, mkPal (Some blk) size IL_PAL_RGBA32, [])
      end
  end.

(** ** RemoveInterlace, il_gif.cpp:684-719 *)
Definition copy_line (bps : Z) (d : list Z) (i : Z) (s : list Z * Z) : res (list Z * Z) :=
  let '(nd, j) := s in
  let! nd := memcpy nd (u32 (i * bps)) d (u32 (j * bps)) bps in Ok (nd, u32 (j + 1)).
Definition RemoveInterlace (alloc : allocator) (im : img) : res (bool * img) :=
  match alloc (SizeOfData im) with
  | None => Ok (false, im)
  | Some nd =>
      match Data im with
      | None => UB
      | Some d =>
          let body := copy_line (Bps im) d in
          let! s := loop 0 (OffY im) body (nd, 0) in
          let! s := stride (OffY im) (Height im) 8 body s in
          let! s := stride (u32 (4 + OffY im)) (Height im) 8 body s in
          let! s := stride (u32 (2 + OffY im)) (Height im) 4 body s in
          let! s := stride (u32 (1 + OffY im)) (Height im) 2 body s in
          Ok (true, with_Data im (Some (fst s)))
      end
  end.

(** ** GetImages, il_gif.cpp:231-381 *)

(** assignments to OffX and OffY, Duration *)
Definition set_offset (im : img) (x y : Z) : img :=
  mkImg (Width im) (Height im) (Depth im) (Bpp im) (Bpc im) (Bps im) (Data im) (SizeOfData im) (SizeOfPlane im)
    (Format im) (Type_ im) (Origin im) (Pal im) (Duration im) (CubeFlags im) x y.
Definition set_duration (im : img) (d : Z) : img :=
  mkImg (Width im) (Height im) (Depth im) (Bpp im) (Bpc im) (Bps im) (Data im) (SizeOfData im) (SizeOfPlane im)
    (Format im) (Type_ im) (Origin im) (Pal im) d (CubeFlags im) (OffX im) (OffY im).

(** il_gif.h IMAGEDESC *)
Record desc := mkDesc { dX : Z; dY : Z; dW : Z; dH : Z; dInfo : Z }.

(** the result of GetImages: the return value, the images in order, the errors *)
Definition gifres : Type := bool * list img * list Z.

(** memset(Image->Data, v, n) *)
Definition fill_data (im : img) (v n : Z) : res img :=
  match Data im with
  | None => UB
  | Some d => let! d := memset d 0 v n in Ok (with_Data im (Some d))
  end.

(** 271-309: where the frame goes: the images before it (those before [im] are [prev]), the image itself and
    whether all went well *)
Definition next_image (alloc : allocator) (bg : Z) (base_image : bool) (old_info : Z) (g : gfx) (prev : list img) (im : img) : res (bool * list img * img) :=
  let bgcol := if negb (Used g) && Z.odd (Packed g) then Transparent g else bg in
  let method := if negb (Used g) then Z.shiftr (Z.land (Packed g) 28) 2 else 1 in
  if base_image then let! im := fill_data im bgcol (SizeOfData im) in Ok (true, prev, im)
  else
    let first := hd im prev in
    let! (ok, nx, _) := ilInitImage alloc im (Width first) (Height first) 1 1 (ilGetFormatBpp 1) (ilGetTypeBpc 1) None in
    if negb ok then Ok (false, prev, im) else
    let! nx :=
      if (method =? 2) || (method =? 3) then fill_data nx bgcol (SizeOfData im)
      else if (method =? 1) || (method =? 0) then
        match Data nx, Data im with
        | Some d, Some s => let! d := memcpy d 0 s 0 (SizeOfData im) in Ok (with_Data nx (Some d))
        | _, _ => UB
        end
      else Ok nx in
    let! (ok, im) := if Z.testbit old_info 6 then RemoveInterlace alloc im else Ok (true, im) in
    if negb ok then Ok (false, prev ++ [im], nx) else
    Ok (true, prev ++ [im], with_Origin (with_Format nx IL_COLOUR_INDEX) IL_ORIGIN_UPPER_LEFT).

(** 311-329; [num] is NumImages *)
Definition frame_palette (alloc : allocator) (gp : pal) (num : Z) (g : gfx) (info : Z) (prev : list img) (im : img) (r : reader) : res (bool * img * Z * reader * list Z) :=
  let method := if negb (Used g) then Z.shiftr (Z.land (Packed g) 28) 2 else 1 in
  if Z.testbit info 7 then
    let pp := if (method =? 1) && negb (num =? 0) then Some (Pal (last prev im)) else None in
    let! (ok, p, r, e) := iGetPalette alloc info (Pal im) pp r in
    Ok (ok, with_Pal im p, match pp with None => 0 | Some q => PalSize q end, r, e)
  else
    let! (ok, p) := iCopyPalette alloc (Pal im) gp in Ok (ok, with_Pal im p, 0, r, []).

(** 331-357: the data of a frame and what follows them; false: goto error_clean *)
Definition frame_data (fuel : nat) (alloc : allocator) (g : gfx) (ds : desc) (off : Z) (bb : list Z) (im : img) (r : reader) : res (bool * img * gfx * list Z * reader * list Z) :=
  match Data im with
  | None => UB
  | Some d =>
      let! (ok, d, bb, r) := GifGetData fuel alloc g d bb (dX ds + u32 (dY ds * Width im)) (dW ds) (dH ds) (Width im) off r in
      let im := with_Data im (Some d) in
      if negb ok then let! im := fill_data im 0 (SizeOfData im) in Ok (false, im, g, bb, r, [IL_ILLEGAL_FILE_VALUE]) else
      let! (ok, im, g, e) :=
        if negb (Used g) then
          let g' := mkGfx true (Packed g) (Delay g) (Transparent g) in
          let im := set_duration im (Delay g * 10) in
          if Z.odd (Packed g) then
            let! (ok, p, e) := ConvertTransparent alloc (Pal im) (Transparent g) in Ok (ok, with_Pal im p, g', e)
          else Ok (true, im, g', [])
        else Ok (true, im, g, []) in
      if negb ok then Ok (false, im, g, bb, r, e) else
      let! (c, r) := iGetcLump r in
      if c =? IL_EOF then Ok (false, im, g, bb, r, []) else
      let! r := if negb (c =? 0) then let! (_, r) := iSeekRLump (-1) IL_SEEK_CUR r in Ok r else Ok r in
      Ok (true, im, g, bb, r, [])
  end.

(** 244-381; [prev] are the images before [im] *)
Fixpoint GetImages (fuel : nat) (alloc : allocator) (us : Z -> list Z) (gp : pal) (bg : Z) (base_image : bool) (num old_info : Z) (g : gfx) (bb : list Z) (prev : list img) (im : img) (r : reader) : res gifres :=
  let finish im :=
    let! (ok, im) := if Z.testbit old_info 6 then RemoveInterlace alloc im else Ok (true, im) in
    if negb ok then Ok (false, prev ++ [im], []) else Ok (negb base_image, prev ++ [im], []) in
  if iEofLump r then finish im else
  match fuel with
  | O => Fuel
  | S f =>
      let! (ok, g, r, e) := SkipExtensions f us g r in
      if negb ok then Ok (false, prev ++ [im], e) else
      let! (sep, r) := iGetcLump r in
      if negb (u8 sep =? 44) then finish im else
      let! (x, r) := u2 us r in let! (y, r) := u2 us r in
      let! (w, r) := u2 us r in let! (h, r) := u2 us r in
      let! (info, r) := iGetcLump r in
      let info := u8 info in
      if iEofLump r then finish im else
      let num := if base_image then num else u32 (num + 1) in
      let! (ok, prev, im) := next_image alloc bg base_image old_info g prev im in
      if negb ok then Ok (false, prev ++ [im], []) else
      let im := set_offset im x y in
      let! (ok, im, off, r, e) := frame_palette alloc gp num g info prev im r in
      if negb ok then Ok (false, prev ++ [im], e) else
      let! (ok, im, g, bb, r, e) := frame_data f alloc g (mkDesc x y w h info) off bb im r in
      if negb ok then Ok (false, prev ++ [im], e) else
      GetImages f alloc us gp bg false num info g bb prev im r
  end.

(** il_gif.cpp:134-186 iLoadGifInternal; [sig] is the memory of Header.Sig, [bb] that of byte_buff, [g] the
    uninitialised control block of GetImages *)
Definition iLoadGifInternal (fuel : nat) (alloc : allocator) (us : Z -> list Z) (sig bb : list Z) (g : gfx) (old : img) (r : reader) : res gifres :=
  let! (_, sig, r) := iReadLump sig 1 6 r in
  let! (W, r) := u2 us r in let! (H, r) := u2 us r in
  let! (info, r) := iGetcLump r in let! (bg, r) := iGetcLump r in let! (_, r) := iGetcLump r in
  if negb (gif_sig sig) then Ok (false, [old], [IL_INVALID_FILE_HEADER]) else
  let! (ok, im, e) := ilInitImage alloc old W H 1 1 IL_COLOUR_INDEX IL_UNSIGNED_BYTE None in
  if negb ok then Ok (false, [im], e) else
  let im := with_Origin im IL_ORIGIN_UPPER_LEFT in
  let! (ok, gp, r, e) := if Z.testbit (u8 info) 7 then iGetPalette alloc (u8 info) (mkPal None 0 0) None r else Ok (true, mkPal None 0 0, r, []) in
  if negb ok then Ok (false, [im], e) else
  GetImages fuel alloc us gp (u8 bg) true 0 0 (mkGfx true (Packed g) (Delay g) (Transparent g)) bb [] im r.
