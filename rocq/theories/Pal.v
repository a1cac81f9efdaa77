(** Palettes: conversion between palette types, Paint Shop Pro palette files (src-IL/src/il_pal.cpp).

    Text files are lists of characters; a FILE* opened for reading is the list and a position. *)
From Coq Require Import ZArith QArith Qround List Lia Bool.
From Verif Require Import Base Enums Utility Image Elem Lump Channels Float Endian.
Import ListNotations.
Open Scope Z_scope.

(** ** Conversion *)

(** what is stored in one byte of an entry: byte [k] of the old entry, or 255 *)
Inductive pcell := Cp (k : Z) | C255.
Definition keep : list pcell := [Cp 0; Cp 1; Cp 2].
Definition swap : list pcell := [Cp 2; Cp 1; Cp 0].

(** (ILuint)((ILfloat)PalSize * 3.0f / 4.0f), il_pal.cpp:653, 677; the cast of a number out of range is
    undefined, which cannot happen here (the result is at most 3 * 2^30) *)
Definition fl32 (q : Q) : Q := val (rnd 24 (-149) q).
Definition size34 (PalSize : Z) : Z := Qfloor (fl32 (fl32 (fl32 (inject_Z PalSize) * (3 # 1)) / (4 # 1))).

(** il_pal.cpp:607-830: new size, bytes per old and per new entry, what is stored ([None]: memcpy).
    The results of the 24-bit cases have [NewPal->PalSize = Pal->PalSize] from line 604. *)
Definition pal_plan (Src Dst PalSize : Z) : option (Z * Z * Z * option (list pcell)) :=
  let rgb32 t := (t =? IL_PAL_RGB32) || (t =? IL_PAL_RGBA32) in
  let bgr32 t := (t =? IL_PAL_BGR32) || (t =? IL_PAL_BGRA32) in
  if (Dst =? IL_PAL_RGB24) || (Dst =? IL_PAL_BGR24) then
    if Src =? IL_PAL_RGB24 then Some (PalSize, 3, 3, if Dst =? IL_PAL_BGR24 then Some swap else None)         (* 613-629 *)
    else if Src =? IL_PAL_BGR24 then Some (PalSize, 3, 3, if Dst =? IL_PAL_RGB24 then Some swap else None)    (* 631-649 *)
    else if bgr32 Src then Some (size34 PalSize, 4, 3, Some (if Dst =? IL_PAL_RGB24 then swap else keep))     (* 651-673 *)
    else if rgb32 Src then Some (size34 PalSize, 4, 3, Some (if Dst =? IL_PAL_RGB24 then keep else swap))     (* 675-697 *)
    else None
  else if rgb32 Dst || bgr32 Dst then
    if (Src =? IL_PAL_RGB24) || (Src =? IL_PAL_BGR24) then                                                    (* 711-736 *)
      Some (u32 (PalSize * 4) / 3, 3, 4,
            Some ((if ((Src =? IL_PAL_BGR24) && rgb32 Dst) || ((Src =? IL_PAL_RGB24) && bgr32 Dst) then swap else keep) ++ [C255]))
    else if Src =? IL_PAL_RGB32 then Some (PalSize, 4, 4, Some ((if bgr32 Dst then swap else keep) ++ [C255]))        (* 738-760 *)
    else if Src =? IL_PAL_RGBA32 then Some (PalSize, 4, 4, if bgr32 Dst then Some (swap ++ [Cp 3]) else None)         (* 762-778 *)
    else if Src =? IL_PAL_BGR32 then Some (PalSize, 4, 4, Some ((if rgb32 Dst then swap else keep) ++ [C255]))        (* 780-802 *)
    else if Src =? IL_PAL_BGRA32 then Some (PalSize, 4, 4, if rgb32 Dst then Some (swap ++ [Cp 3]) else None)         (* 804-820 *)
    else None
  else None.

(** the assignments of one iteration *)
Fixpoint put_entry (old : list Z) (i j : Z) (cs : list pcell) (d : list Z) : res (list Z) :=
  match cs with
  | [] => Ok d
  | c :: cs =>
      let! v := (match c with Cp k => rd old (u32 (i + k)) | C255 => Ok 255 end) in
      let! d := wr d j v in
      put_entry old i (u32 (j + 1)) cs d
  end.

(** il_pal.cpp:587-838 iConvertPal on a non-NULL [Pal].  sizeof(ILpal) is 16. *)
Definition iConvertPal (alloc : allocator) (p : pal) (Dst : Z) : res (option pal * list Z) :=
  match Palette p with
  | None => Ok (None, [IL_ILLEGAL_OPERATION])
  | Some old =>
      if (PalSize p =? 0) || (PalType p =? IL_PAL_NONE) then Ok (None, [IL_ILLEGAL_OPERATION])
      else
        match alloc 16 with
        | None => Ok (None, [IL_OUT_OF_MEMORY])
        | Some _ =>
            match pal_plan (PalType p) Dst (PalSize p) with
            | None => Ok (None, [IL_INVALID_PARAM])
            | Some (size, s, t, cells) =>
                match alloc size with
                | None => Ok (None, [IL_OUT_OF_MEMORY])
                | Some new =>
                    let! new := (match cells with
                                 | None => memcpy new 0 old 0 (PalSize p)
                                 | Some cs => stride2 (PalSize p) s t (fun i j => put_entry old i j cs) new
                                 end) in
                    Ok (Some (mkPal (Some new) size Dst), [])
                end
            end
        end
  end.

(** il_pal.cpp:844-872 ilConvertPal with a current image *)
Definition ilConvertPal (alloc : allocator) (im : img) (Dst : Z) : res (bool * img * list Z) :=
  if (match Palette (Pal im) with None => true | _ => false end) || (PalSize (Pal im) =? 0) || (PalType (Pal im) =? IL_PAL_NONE)
  then Ok (false, im, [IL_ILLEGAL_OPERATION])
  else
    let! (p, e) := iConvertPal alloc (Pal im) Dst in
    match p with
    | None => Ok (false, im, e)
    | Some p =>
        match alloc (PalSize p), Palette p with
        | None, _ => Ok (false, with_Pal im (mkPal None (PalSize p) (PalType p)), [IL_OUT_OF_MEMORY])
        | _, None => UB
        | Some new, Some src =>
            let! new := memcpy new 0 src 0 (PalSize p) in
            Ok (true, with_Pal im (mkPal (Some new) (PalSize p) (PalType p)), [])
        end
    end.

(** ilGetInteger(IL_PALETTE_NUM_COLS), il_states.cpp:646-651 *)
Definition pal_num_cols (p : pal) : res Z :=
  if (match Palette p with None => true | _ => false end) || (PalSize p =? 0) || (PalType p =? IL_PAL_NONE) then Ok 0
  else if ilGetBppPal (PalType p) =? 0 then UB else Ok (PalSize p / ilGetBppPal (PalType p)).

(** il_pal.cpp:914-925 ilApplyPal, up to the test whether the image is acceptable.  [None]: the part that
    follows, which is not modelled.  IL_BYTE is 0x1400, IL_UNSIGNED_BYTE 0x1401 (include/IL/il.h:150-151). *)
Definition ilApplyPal_check (cur : option img) : option (bool * list Z) :=
  match cur with
  | None => Some (false, [IL_ILLEGAL_OPERATION])
  | Some im => if negb (Format im =? IL_BYTE) || negb (Format im =? IL_UNSIGNED_BYTE) then Some (false, [IL_ILLEGAL_OPERATION]) else None
  end.

(** ** Paint Shop Pro palettes: saving *)

(** the digits that printf("%d") prints, for a number that is not negative: [n] divisions suffice *)
Fixpoint digits (n : nat) (v : Z) : list Z :=
  match n with
  | O => [48 + v mod 10]
  | S n => if v <? 10 then [48 + v] else digits n (v / 10) ++ [48 + v mod 10]
  end.
Definition print_d (v : Z) : list Z := digits 10 v.

(** "JASC-PAL\n0100\n256\n", il_pal.cpp:264 *)
Definition jasc_head : list Z := [74; 65; 83; 67; 45; 80; 65; 76; 10; 48; 49; 48; 48; 10; 50; 53; 54; 10].
(** "%d %d %d\n" *)
Definition jasc_line (r g b : Z) : list Z := print_d r ++ [32] ++ print_d g ++ [32] ++ print_d b ++ [10].

(** il_pal.cpp:214-287 ilSaveJascPal; [None] as a file: it was not created.  The file name is accepted, there
    is no such file, and it can be opened for writing.  [NumCols] is 256 - NumCols of line 272. *)
Definition ilSaveJascPal (alloc : allocator) (im : img) : res (bool * option (list Z) * img) :=
  let! NumCols := pal_num_cols (Pal im) in
  if (NumCols =? 0) || (256 <? NumCols) then Ok (false, None, im)
  else
    match Palette (Pal im), alloc (PalSize (Pal im)) with
    | None, _ => UB
    | _, None => Ok (false, None, im)
    | Some cur, Some copy =>
        let! copy := memcpy copy 0 cur 0 (PalSize (Pal im)) in
        let restore im' := with_Pal im' (mkPal (Some cur) (PalSize (Pal im')) (PalType (Pal im'))) in
        let! (ok, im', _) := ilConvertPal alloc (with_Pal im (mkPal (Some copy) (PalSize (Pal im)) (PalType (Pal im)))) IL_PAL_RGB24 in
        if negb ok then Ok (false, None, restore im')
        else
          match Palette (Pal im') with
          | None => UB
          | Some p =>
              let! f := stride 0 (PalSize (Pal im')) (ilGetBppPal (PalType (Pal im'))) (fun i f =>
                          let! r := rd p i in let! g := rd p (i + 1) in let! b := rd p (i + 2) in
                          Ok (f ++ jasc_line r g b)) jasc_head in
              Ok (true, Some (f ++ concat (repeat (jasc_line 0 0 0) (Z.to_nat (256 - NumCols)))), restore im')
          end
    end.

(** ** Paint Shop Pro palettes: loading *)

Record stream := St { sdata : list Z; spos : Z }.
(** fgetc; the position does not move at the end of the file *)
Definition fgetc (s : stream) : Z * stream :=
  if spos s <? zlen (sdata s) then (geti (sdata s) (spos s), St (sdata s) (spos s + 1)) else (IL_EOF, s).
(** fseek(File, -1, SEEK_CUR); it fails at the beginning of the file *)
Definition fback (s : stream) : stream := if 0 <? spos s then St (sdata s) (spos s - 1) else s.
(** isprint in the C locale *)
Definition isprint (c : Z) : bool := (32 <=? c) && (c <=? 126).

(** il_pal.cpp:158, 166: while (cond(Temp)) Temp = fgetc(File); *)
Fixpoint skip_while (fuel : nat) (cond : Z -> bool) (Temp : Z) (s : stream) : res (Z * stream) :=
  if cond Temp then match fuel with O => Fuel | S fuel => let '(t, s) := fgetc s in skip_while fuel cond t s end
  else Ok (Temp, s).

(** il_pal.cpp:151-176: [n] iterations left; [w] are the characters stored so far.  feof(File) is only true
    together with Temp == IL_EOF, as each fseek clears it. *)
Fixpoint fgetw_loop (n : nat) (fuel : nat) (w : list Z) (s : stream) : res (list Z * stream) :=
  match n with
  | O => Ok (w, s)
  | S n =>
      let '(t, s) := fgetc s in
      if (t =? 10) || (t =? 0) || (t =? IL_EOF) then Ok (w, s)
      else if t =? 32 then let! (_, s) := skip_while fuel (Z.eqb 32) t s in Ok (w, fback s)
      else if negb (isprint t) then let! (_, s) := skip_while fuel (fun t => negb (isprint t)) t s in Ok (w, fback s)
      else fgetw_loop n fuel (w ++ [t]) s
  end.
(** il_pal.cpp:141-178 iFgetw with BUFFLEN = 256; [fuel] bounds the two skipping loops *)
Definition iFgetw (fuel : nat) (s : stream) : res (list Z * stream) := fgetw_loop 255 fuel [] s.

(** atoi on a string of printable characters without spaces; out of the range of int: undefined *)
Definition isdigit (c : Z) : bool := (48 <=? c) && (c <=? 57).
Fixpoint atoi_digits (w : list Z) (v : Z) : Z :=
  match w with c :: w => if isdigit c then atoi_digits w (10 * v + (c - 48)) else v | [] => v end.
Definition atoi (w : list Z) : res Z :=
  let v := match w with
           | c :: w' => if c =? 45 then - atoi_digits w' 0 else if c =? 43 then atoi_digits w' 0 else atoi_digits w 0
           | [] => 0
           end in
  if (-2147483648 <=? v) && (v <=? 2147483647) then Ok v else UB.
(** stricmp(a, b) == 0 for strings of printable characters *)
Definition lower (c : Z) : Z := if (65 <=? c) && (c <=? 90) then c + 32 else c.
Fixpoint stricmp_eq (a b : list Z) : bool :=
  match a, b with
  | [], [] => true
  | x :: a, y :: b => (lower x =? lower y) && stricmp_eq a b
  | _, _ => false
  end.

(** il_pal.cpp:126-131: the colours; [i] counts the numbers *)
Fixpoint jasc_numbers (n : nat) (fuel : nat) (i : Z) (p : list Z) (s : stream) : res (list Z * stream) :=
  match n with
  | O => Ok (p, s)
  | S n =>
      let! (w, s) := iFgetw fuel s in
      let! v := atoi w in
      let! p := wr p i (u8 v) in
      jasc_numbers n fuel (i + 1) p s
  end.

(** il_pal.cpp:93-96, 471-474, 516-519: the old palette is freed *)
Definition drop_pal (im : img) : img :=
  if match Palette (Pal im) with Some _ => (0 <? PalSize (Pal im)) && negb (PalType (Pal im) =? IL_PAL_NONE) | None => false end
  then with_Pal im (mkPal None (PalSize (Pal im)) (PalType (Pal im))) else im.

(** il_pal.cpp:68-136 ilLoadJascPal, for a file with an accepted name that could be opened *)
Definition ilLoadJascPal (alloc : allocator) (fuel : nat) (im : img) (File : list Z) : res (bool * img) :=
  let s := St File 0 in
  let im := drop_pal im in
  let! (w1, s) := iFgetw fuel s in
  let! (w2, s) := iFgetw fuel s in
  let! (w3, s) := iFgetw fuel s in
  let! v := atoi w3 in
  let NumColours := u32 v in
  if (NumColours =? 0) || negb (stricmp_eq w1 [74; 65; 83; 67; 45; 80; 65; 76]) || negb (stricmp_eq w2 [48; 49; 48; 48]) then Ok (false, im)
  else
    let size := u32 (NumColours * 3) in
    match alloc size with
    | None => Ok (false, with_Pal im (mkPal None size IL_PAL_RGB24))
    | Some p =>
        let! (p, s) := jasc_numbers (Z.to_nat (NumColours * 3)) fuel 0 p s in
        Ok (true, with_Pal im (mkPal (Some p) size IL_PAL_RGB24))
    end.

(** ** Other palette files *)

(** il_pal.cpp:494-540 ilLoadPltPal after the file is open; input from a lump *)
Definition ilLoadPltPal (alloc : allocator) (im : img) (u : list Z) (r : reader) : res (bool * img * reader) :=
  let im := drop_pal im in
  let! (size, r) := GetLittleUInt u r in
  if size =? 0 then Ok (false, with_Pal im (mkPal (Palette (Pal im)) size (PalType (Pal im))), r)
  else
    match alloc size with
    | None => Ok (false, with_Pal im (mkPal None size IL_PAL_RGB24), r)
    | Some p =>
        let! (n, p, r) := iReadLump p size 1 r in
        if negb (n =? 1) then Ok (false, with_Pal im (mkPal None size IL_PAL_RGB24), r)
        else Ok (true, with_Pal im (mkPal (Some p) size IL_PAL_RGB24), r)
    end.

(** il_pal.cpp:449-490 ilLoadActPal after the file is open *)
Definition ilLoadActPal (alloc : allocator) (im : img) (r : reader) : res (bool * img * reader) :=
  match alloc 768 with
  | None => Ok (false, with_Pal im (mkPal None 768 IL_PAL_RGB24), r)
  | Some p =>
      let! (n, p, r) := iReadLump p 1 768 r in
      Ok (n =? 768, with_Pal im (mkPal (Some p) 768 IL_PAL_RGB24), r)
  end.
