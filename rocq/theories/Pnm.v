(** Portable anymaps (src-IL/src/il_pnm.cpp).

    Input comes from a memory lump.  [sb] and [lb] are the memory of the static buffers SmallBuff and
    LineBuffer (MAX_BUFFER = 180 bytes each, il_pnm.cpp:26-32) as the call finds it; a char is represented by
    the value it has as an unsigned char.  [fuel] bounds the number of iterations of every loop that reads
    input; running out of it is [Fuel].  ilFixImage at the end is the identity in the default state and is
    left out.  The errors reported are those this file and ilTexImage set, not those of igetc and iread.
    iCurImage is not NULL. *)
From Coq Require Import ZArith List Lia Bool.
From Verif Require Import Base Enums Utility Image Flip Lump Pcx Pal.
Import ListNotations.
Open Scope Z_scope.

Definition MAX_BUFFER : Z := 180.

(** isalnum in the C locale.  (In LineBuffer chars from 128 on are negative; glibc answers 0 for them.) *)
Definition isalnum (c : Z) : bool := ((48 <=? c) && (c <=? 57)) || ((65 <=? c) && (c <=? 90)) || ((97 <=? c) && (c <=? 122)).

(** the characters of the C string at the beginning of a buffer *)
Fixpoint cword (l : list Z) : res (list Z) :=
  match l with
  | [] => UB
  | c :: l => if c =? 0 then Ok [] else let! w := cword l in Ok (c :: w)
  end.

(** ** iGetWord, il_pnm.cpp:583-640 *)

(** 594-610: characters into SmallBuff from [wp] on.  The result: the character that ended the loop, [None] if
    the function returned (597); Started is never set, so other characters are dropped. *)
Fixpoint word_chars (fuel : nat) (wp : Z) (sb : list Z) (r : reader) : res (option Z * Z * list Z * reader) :=
  match fuel with
  | O => Fuel
  | S fuel =>
      let! (c, r) := iGetcLump r in
      if (c =? IL_EOF) || (c =? 10) || (c =? 35) || (c =? 32) then Ok (Some c, wp, sb, r)
      else if MAX_BUFFER <=? wp then Ok (None, wp, sb, r)
      else if negb (isalnum c) && negb (c =? 95) then word_chars fuel wp sb r
      else let! sb := wr sb wp c in word_chars fuel (wp + 1) sb r
  end.

(** 621, 625-628: igetc() as long as it returns neither IL_EOF nor a character that ends the loop; the last result *)
Fixpoint skip_chars (fuel : nat) (go : Z -> bool) (r : reader) : res (Z * reader) :=
  match fuel with
  | O => Fuel
  | S fuel =>
      let! (c, r) := iGetcLump r in
      if negb (c =? IL_EOF) && go c then skip_chars fuel go r else Ok (c, r)
  end.

(** 592-634 and the test 635-638.  Looping is never cleared (see above). *)
Fixpoint get_word (fuel : nat) (final : bool) (wp : Z) (sb : list Z) (r : reader) : res (bool * list Z * reader * list Z) :=
  match fuel with
  | O => Fuel
  | S f =>
      let! (c, wp, sb, r) := word_chars fuel wp sb r in
      match c with
      | None => Ok (false, sb, r, [])
      | Some c =>
          if c =? IL_EOF then Ok (false, sb, r, []) else
          let! sb := wr sb wp 0 in
          if final then
            if wp =? 0 then Ok (false, sb, r, [IL_INVALID_FILE_HEADER]) else Ok (true, sb, r, [])
          else
            let! r := if c =? 35 then let! (_, r) := skip_chars fuel (fun c => negb (c =? 10)) r in Ok r else Ok r in
            let! (c, r) := skip_chars fuel (fun c => c =? 32) r in
            let! (_, r) := iSeekRLump (-1) IL_SEEK_CUR r in
            if 0 <? wp then
              if c =? -1 then Ok (false, sb, r, [IL_INVALID_FILE_HEADER]) else Ok (true, sb, r, [])
            else get_word f final wp sb r
      end
  end.
Definition iGetWord (fuel : nat) (final : bool) (sb : list Z) (r : reader) : res (bool * list Z * reader * list Z) :=
  if iEofLump r then Ok (false, sb, r, []) else get_word fuel final 0 sb r.

(** atoi on SmallBuff, converted to ILuint *)
Definition word_num (sb : list Z) : res Z := let! w := cword sb in let! v := atoi w in Ok (u32 v).

(** ** The pixels *)

(** assignments to Type and Format *)
Definition set_Type (im : img) (t : Z) : img :=
  mkImg (Width im) (Height im) (Depth im) (Bpp im) (Bpc im) (Bps im) (Data im) (SizeOfData im) (SizeOfPlane im)
    (Format im) t (Origin im) (Pal im) (Duration im) (CubeFlags im) (OffX im) (OffY im).
Definition set_Format (im : img) (f : Z) : img :=
  mkImg (Width im) (Height im) (Depth im) (Bpp im) (Bpc im) (Bps im) (Data im) (SizeOfData im) (SizeOfPlane im)
    f (Type_ im) (Origin im) (Pal im) (Duration im) (CubeFlags im) (OffX im) (OffY im).

(** il_internal.cpp:182-197 iFgets on LineBuffer: [None] for the returned NULL *)
Fixpoint fgets_chars (fuel : nat) (lb : list Z) (counter : Z) (r : reader) : res (Z * Z * list Z * reader) :=
  match fuel with
  | O => Fuel
  | S fuel =>
      let! (c, r) := iGetcLump r in
      if negb (c =? 0) && negb (c =? 10) && negb (c =? IL_EOF) && (counter <? MAX_BUFFER) then
        let! lb := wr lb counter c in fgets_chars fuel lb (counter + 1) r
      else Ok (c, counter, lb, r)
  end.
Definition get_line (fuel : nat) (lb : list Z) (r : reader) : res (bool * list Z * reader) :=
  let! (c, counter, lb, r) := fgets_chars fuel lb 0 r in
  let! lb := wr lb counter 0 in
  Ok (negb ((c =? IL_EOF) && (counter =? 0)), lb, r).

(** il_pnm.cpp:341-343, 354-356: LineInc++ while the test holds.  LineInc cannot pass the end of the buffer, so
    zlen lb + 1 iterations are enough for this and the next two loops. *)
Fixpoint skip_line (fuel : nat) (go : Z -> bool) (lb : list Z) (li : Z) : res Z :=
  match fuel with
  | O => Fuel
  | S fuel => let! c := rd lb li in if go c then skip_line fuel go lb (li + 1) else Ok li
  end.
(** 344-348 *)
Fixpoint take_line (fuel : nat) (lb sb : list Z) (li si : Z) : res (list Z * Z * Z) :=
  match fuel with
  | O => Fuel
  | S fuel =>
      let! c := rd lb li in
      if isalnum c then let! sb := wr sb si c in take_line fuel lb sb (li + 1) (si + 1) else Ok (sb, li, si)
  end.
(** 338-363: the numbers of one line; [wide] is MaxColour > 255, [di] is DataInc *)
Fixpoint line_nums (fuel : nat) (wide : bool) (lb sb d : list Z) (li di : Z) : res (list Z * list Z * Z) :=
  match fuel with
  | O => Fuel
  | S f =>
      let! c := rd lb li in
      if (c =? 0) || (c =? 10) then Ok (sb, d, di) else
      let! li := skip_line (S (length lb)) (fun c => negb (isalnum c)) lb li in
      let! (sb, li, si) := take_line (S (length lb)) lb sb li 0 in
      let! sb := wr sb si 0 in
      let! w := cword sb in
      let! v := atoi w in
      let! d := wr d di (u8 v) in
      let! li := skip_line (S (length lb)) (fun c => negb (isalnum c) && negb (c =? 0)) lb li in
      line_nums f wide lb sb d li (if wide then di + 2 else di + 1)
  end.
(** 325-364 *)
Fixpoint ascii_lines (fuel : nat) (wide : bool) (Size : Z) (lb sb d : list Z) (di : Z) (r : reader) : res (list Z * Z * reader) :=
  if di <? Size then
    match fuel with
    | O => Fuel
    | S f =>
        let! (got, lb, r) := get_line fuel lb r in
        if negb got then Ok (d, di, r) else
        let! c := rd lb 0 in
        if c =? 35 then ascii_lines f wide Size lb sb d di r else
        let! (sb, d, di) := line_nums (S (length lb)) wide lb sb d 0 di in
        ascii_lines f wide Size lb sb d di r
    end
  else Ok (d, di, r).

(** il_pnm.cpp:307-375 ilReadAsciiPpm: whether it returned an image, the current image, the errors *)
Definition ilReadAsciiPpm (fuel : nat) (alloc : allocator) (old : img) (W H MaxColour bpp : Z) (sb lb : list Z) (r : reader) : res (bool * img * list Z) :=
  let wide := 255 <? MaxColour in
  let bpp := if wide then u8 (bpp * 2) else bpp in
  let Size := i32 (u32 (W * H * bpp)) in
  let! (ok, im, e) := ilInitImage alloc old W H 1 bpp 0 IL_UNSIGNED_BYTE None in
  if negb ok then Ok (false, im, e) else
  let im := with_Origin im IL_ORIGIN_UPPER_LEFT in
  let im := if wide then set_Type im IL_UNSIGNED_SHORT else im in
  match Data im with
  | None => UB
  | Some d =>
      let! (d, di, _) := ascii_lines fuel wide Size lb sb d 0 r in
      let im := with_Data im (Some d) in
      if di <? Size then Ok (false, im, [IL_ILLEGAL_FILE_VALUE]) else Ok (true, im, [])
  end.

(** il_pnm.cpp:378-405 ilReadBinaryPpm.  When the input is too short the image is freed (401) and the caller
    then writes to it (270): [UB]. *)
Definition ilReadBinaryPpm (alloc : allocator) (old : img) (W H bpp : Z) (r : reader) : res (bool * img * list Z) :=
  let Size := u32 (W * H * bpp) in
  let! (ok, im, e) := ilInitImage alloc old W H 1 bpp 0 IL_UNSIGNED_BYTE None in
  if negb ok then Ok (false, im, e) else
  match Data im with
  | None => UB
  | Some d =>
      let! (n, d, _) := iReadLump d 1 Size r in
      if negb (n =? Size) then UB else Ok (true, with_Data (with_Origin im IL_ORIGIN_UPPER_LEFT) (Some d), [])
  end.

(** il_pnm.cpp:420-422: m = 128 >> k; [n] masks are left *)
Fixpoint bit_masks (n : nat) (m W CurrByte x j : Z) (d : list Z) : res (Z * Z * list Z) :=
  match n with
  | O => Ok (x, j, d)
  | S n =>
      if x <? W then
        let! d := wr d j (if Z.land CurrByte m =? 0 then 0 else 255) in
        bit_masks n (m / 2) W CurrByte (x + 1) (j + 1) d
      else Ok (x, j, d)
  end.
(** 418-425 *)
Fixpoint bit_bytes (fuel : nat) (W size x j : Z) (d : list Z) (r : reader) : res (list Z * reader) :=
  if j <? size then
    match fuel with
    | O => Fuel
    | S fuel =>
        let! (c, r) := iGetcLump r in
        let! (x, j, d) := bit_masks 8 128 W (u32 c) x j d in
        bit_bytes fuel W size (if x =? W then 0 else x) j d r
    end
  else Ok (d, r).
(** il_pnm.cpp:408-428 ilReadBitPbm *)
Definition ilReadBitPbm (fuel : nat) (alloc : allocator) (old : img) (W H : Z) (r : reader) : res (bool * img * list Z) :=
  let! (ok, im, e) := ilInitImage alloc old W H 1 1 0 IL_UNSIGNED_BYTE None in
  if negb ok then Ok (false, im, e) else
  match Data im with
  | None => UB
  | Some d =>
      let! (d, _) := bit_bytes fuel W (SizeOfData im) 0 0 d r in
      Ok (true, with_Data (with_Origin im IL_ORIGIN_UPPER_LEFT) (Some d), [])
  end.

(** il_pnm.cpp:831-838 PbmMaximize *)
Definition PbmMaximize (im : img) : res img :=
  match Data im with
  | None => UB
  | Some d =>
      let! d := loop 0 (SizeOfPlane im) (fun i d => let! v := rd d i in if v =? 1 then wr d i 255 else Ok d) d in
      Ok (with_Data im (Some d))
  end.

(** ** PAM: il_pnm.cpp:431-560 *)

Definition same (a b : list Z) : bool := if list_eq_dec Z.eq_dec a b then true else false.
(** !strncmp(w, lit, n), n the length of lit *)
Definition begins (lit w : list Z) : bool := same lit (firstn (length lit) w).

Definition s_ENDHDR : list Z := [69; 78; 68; 72; 68; 82].
Definition s_WIDTH : list Z := [87; 73; 68; 84; 72].
Definition s_HEIGHT : list Z := [72; 69; 73; 71; 72; 84].
Definition s_DEPTH : list Z := [68; 69; 80; 84; 72].
Definition s_MAXVAL : list Z := [77; 65; 88; 86; 65; 76].
Definition s_TUPLTYPE : list Z := [84; 85; 80; 76; 84; 89; 80; 69].
Definition s_GRAYSCALE : list Z := [71; 82; 65; 89; 83; 67; 65; 76; 69].
Definition s_RGB : list Z := [82; 71; 66].
Definition s_ALPHA : list Z := [95; 65; 76; 80; 72; 65].
Definition s_BW : list Z := [66; 76; 65; 67; 75; 65; 78; 68; 87; 72; 73; 84; 69].

(** il_pnm.cpp:563-580 DecodeTupleType, with the numbers of enum PamTuples (il_pnm.h) *)
Definition DecodeTupleType (w : list Z) : Z :=
  if same w s_BW then 1
  else if same w s_GRAYSCALE then 2
  else if same w s_RGB then 3
  else if same w (s_BW ++ s_ALPHA) then 4
  else if same w (s_GRAYSCALE ++ s_ALPHA) then 5
  else if same w (s_RGB ++ s_ALPHA) then 6
  else 0.

Record pam := mkPam { AWidth : Z; AHeight : Z; ADepth : Z; AMax : Z; ATuple : Z }.

(** 439-473: the fields; [None]: the function returned IL_FALSE *)
Fixpoint pam_fields (fuel : nat) (h : pam) (sb : list Z) (r : reader) : res (option pam * reader * list Z) :=
  if iEofLump r then Ok (Some h, r, []) else
  match fuel with
  | O => Fuel
  | S f =>
      let! (ok, sb, r, e) := iGetWord fuel false sb r in
      if negb ok then Ok (None, r, e) else
      let! key := cword sb in
      if begins s_ENDHDR key then Ok (Some h, r, []) else
      let! (ok, sb, r, e) := iGetWord fuel false sb r in
      if negb ok then Ok (None, r, e) else
      if begins s_WIDTH key then let! v := word_num sb in pam_fields f (mkPam v (AHeight h) (ADepth h) (AMax h) (ATuple h)) sb r
      else if begins s_HEIGHT key then let! v := word_num sb in pam_fields f (mkPam (AWidth h) v (ADepth h) (AMax h) (ATuple h)) sb r
      else if begins s_DEPTH key then let! v := word_num sb in pam_fields f (mkPam (AWidth h) (AHeight h) v (AMax h) (ATuple h)) sb r
      else if begins s_MAXVAL key then let! v := word_num sb in pam_fields f (mkPam (AWidth h) (AHeight h) (ADepth h) v (ATuple h)) sb r
      else if begins s_TUPLTYPE key then let! w := cword sb in pam_fields f (mkPam (AWidth h) (AHeight h) (ADepth h) (AMax h) (DecodeTupleType w)) sb r
      else pam_fields f h sb r
  end.

(** the number of channels and the format that go with a tuple type, 496-546; none for black and white *)
Definition pam_kind (t : Z) : option (Z * Z) :=
  if t =? 2 then Some (1, IL_LUMINANCE) else if t =? 5 then Some (2, IL_LUMINANCE_ALPHA)
  else if t =? 3 then Some (3, IL_RGB) else if t =? 6 then Some (4, IL_RGBA) else None.

(** 431-560.  When the input is too short the current image is freed but stays current (554-557): [UB], its next
    use is. *)
Definition ilReadPam (fuel : nat) (alloc : allocator) (old : img) (sb : list Z) (r : reader) : res (bool * img * list Z) :=
  let! (h, r, e) := pam_fields fuel (mkPam 0 0 0 0 0) sb r in
  match h with
  | None => Ok (false, old, e)
  | Some h =>
      if (AWidth h =? 0) || (AHeight h =? 0) || (ADepth h =? 0) || (4 <? ADepth h) || (ATuple h =? 0) then Ok (false, old, [IL_INVALID_FILE_HEADER]) else
      match (if AMax h =? 255 then Some (IL_UNSIGNED_BYTE, 1) else if AMax h =? 65535 then Some (IL_UNSIGNED_SHORT, 2) else None), pam_kind (ATuple h) with
      | Some (ty, sz), Some (n, fmt) =>
          if negb (ADepth h =? n) then Ok (false, old, [IL_INVALID_FILE_HEADER]) else
          let! (ok, im, e) := ilInitImage alloc old (AWidth h) (AHeight h) 1 (ADepth h) 0 ty None in
          if negb ok then Ok (false, im, e) else
          let Size := u32 (sz * u32 (AWidth h * AHeight h * ADepth h)) in
          let im := with_Origin (set_Format im fmt) IL_ORIGIN_UPPER_LEFT in
          match Data im with
          | None => UB
          | Some d =>
              let! (c, d, _) := iReadLump d 1 Size r in
              if negb (c =? Size) then UB else Ok (true, with_Data im (Some d), [])
          end
      | _, _ => Ok (false, old, [IL_INVALID_FILE_HEADER])
      end
  end.

(** ** iLoadPnmInternal, il_pnm.cpp:163-303 *)

(** 216-250: the sizes and the largest value; [t] is the digit of the magic number, 49 to 54.  IsLump (203) is
    never set. *)
Definition pnm_sizes (fuel : nat) (t : Z) (sb : list Z) (r : reader) : res (option (Z * Z * Z * list Z) * reader * list Z) :=
  let! (ok, sb, r, e) := iGetWord fuel false sb r in
  if negb ok then Ok (None, r, e) else
  let! W := word_num sb in
  if W =? 0 then Ok (None, r, [IL_INVALID_FILE_HEADER]) else
  let! (ok, sb, r, e) := iGetWord fuel false sb r in
  if negb ok then Ok (None, r, e) else
  let! H := word_num sb in
  if H =? 0 then Ok (None, r, [IL_INVALID_FILE_HEADER]) else
  if (t =? 49) || (t =? 52) then Ok (Some (W, H, 1, sb), r, []) else
  let! (ok, sb, r, e) := iGetWord fuel true sb r in
  if negb ok then Ok (None, r, e) else
  let! M := word_num sb in
  if M =? 0 then Ok (None, r, [IL_INVALID_FILE_HEADER]) else Ok (Some (W, H, M, sb), r, []).

(** 252-303 *)
Definition pnm_pixels (fuel : nat) (alloc : allocator) (old : img) (t W H M : Z) (sb lb : list Z) (r : reader) : res (bool * img * list Z) :=
  let grey := (t =? 49) || (t =? 52) || (t =? 50) || (t =? 53) in
  let bpp := if grey then (if t =? 50 then (if M <? 256 then 1 else 2) else 1) else 3 in
  let! (ok, im, e) :=
    (if (t =? 49) || (t =? 50) || (t =? 51) then ilReadAsciiPpm fuel alloc old W H M bpp sb lb r
     else if t =? 52 then ilReadBitPbm fuel alloc old W H r
     else ilReadBinaryPpm alloc old W H bpp r) in
  if negb ok then Ok (false, set_Format im (ilGetFormatBpp (Bpp im)), e ++ [IL_FILE_READ_ERROR]) else
  let! im := if t =? 49 then PbmMaximize im else Ok im in
  let im := if 255 <? M then set_Type im IL_UNSIGNED_SHORT else im in
  Ok (true, set_Format (with_Origin im IL_ORIGIN_UPPER_LEFT) (if grey then IL_LUMINANCE else IL_RGB), []).

Definition iLoadPnmInternal (fuel : nat) (alloc : allocator) (old : img) (sb lb : list Z) (r : reader) : res (bool * img * list Z) :=
  let! (ok, sb, r, e) := iGetWord fuel false sb r in
  if negb ok then Ok (false, old, e) else
  let! c := rd sb 0 in
  if negb (c =? 80) then Ok (false, old, [IL_INVALID_FILE_HEADER]) else
  let! t := rd sb 1 in
  if t =? 55 then ilReadPam fuel alloc old sb r
  else if (49 <=? t) && (t <=? 54) then
    let! (h, r, e) := pnm_sizes fuel t sb r in
    match h with
    | None => Ok (false, old, e)
    | Some (W, H, M, sb) => pnm_pixels fuel alloc old t W H M sb lb r
    end
  else Ok (false, old, [IL_INVALID_FILE_HEADER]).

(** il_pnm.cpp:91-120 iIsValidPnm, iCheckPnm; [hd0] is the memory of Head *)
Definition iIsValidPnm (hd0 : list Z) (r : reader) : res (bool * reader) :=
  let! (n, h, r) := iReadLump hd0 1 2 r in
  let! (_, r) := iSeekRLump (- n) IL_SEEK_CUR r in
  if negb (n =? 2) then Ok (false, r) else
  let! a := rd h 0 in
  let! b := rd h 1 in
  Ok ((a =? 80) && (49 <=? b) && (b <=? 55), r).

(** ** Saving, il_pnm.cpp:698-828 *)

(** ilprintf, il_files.cpp:385-399 *)
Definition put_text (l : list Z) (k : saver) : saver := Write l 1 (zlen l) k.

(** 783-818 for an image of type IL_UNSIGNED_BYTE: [n] pixels are left, the next is at [i].  (The loop ends with
    i >= SizeOfPlane, so the number of pixels is SizeOfPlane / 3 rounded up.) *)
Fixpoint put_ascii (n : nat) (td : list Z) (i LinePos : Z) (k : saver) : saver :=
  match n with
  | O => k
  | S n =>
      at_ td i (fun a => put_text (print_d a ++ [32])
        (at_ td (i + 1) (fun b => put_text (print_d b ++ [32])
          (at_ td (i + 2) (fun c => put_text (print_d c ++ [32])
            (let LinePos := LinePos + zlen (print_d a) + 1 + zlen (print_d b) + 1 + zlen (print_d c) + 1 in
             if 65 <? LinePos then put_text [10] (put_ascii n td (i + 3) 0 k) else put_ascii n td (i + 3) LinePos k))))))
  end.
Fixpoint put_binary (n : nat) (td : list Z) (i : Z) (k : saver) : saver :=
  match n with
  | O => k
  | S n =>
      at_ td i (fun a => Putc a (fun _ =>
        at_ td (i + 1) (fun b => Putc b (fun _ =>
          at_ td (i + 2) (fun c => Putc c (fun _ => put_binary n td (i + 3) k))))))
  end.

(** iSavePnmInternal on a current image: the result and what is written; [k] is what the caller does next.
    FName is NULL whatever the name of the file is (643, 689 are the only assignments), so Type is always
    IL_PPM_ASCII.  [Binary]: the hint IL_USE_COMPRESSION.  [conv] is iConvertImage(iCurImage, IL_RGB,
    IL_UNSIGNED_BYTE) (ConvImg.v); the images it returns have that type. *)
Definition iSavePnmInternal (alloc : allocator) (Binary : bool) (conv : res (option img)) (im : img) (k : saver) : res (bool * saver) :=
  let MaxVal := if Type_ im =? IL_UNSIGNED_BYTE then Some 255 else if Type_ im =? IL_UNSIGNED_SHORT then Some 65535 else None in
  match MaxVal with
  | None => Ok (false, k)
  | Some MaxVal =>
      if (255 <? MaxVal) && Binary then Ok (false, k) else
      let! tm := conv in
      let magic k := put_text [80; if Binary then 54 else 51; 10] k in
      match tm with
      | None => Ok (false, magic k)
      | Some tm =>
          if negb (Bpp tm =? 3) then Ok (false, magic k) else
          let! td := (if negb (Origin tm =? IL_ORIGIN_UPPER_LEFT) then iGetFlipped alloc tm else Ok (Data tm)) in
          match td with
          | None => if negb (Origin tm =? IL_ORIGIN_UPPER_LEFT) then Ok (false, magic k) else UB
          | Some td =>
              let n := Z.to_nat ((SizeOfPlane tm + 2) / 3) in
              Ok (true, magic (put_text (print_d (Width tm) ++ [32] ++ print_d (Height tm) ++ [10])
                (put_text (print_d MaxVal ++ [10])
                  (if Binary then put_binary n td 0 k else put_ascii n td 0 0 k))))
          end
      end
  end.
