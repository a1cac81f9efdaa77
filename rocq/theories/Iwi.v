(** IWI textures (src-IL/src/il_iwi.cpp): the header, pixels of eight and four bits per channel, DXT1, DXT3 and
    DXT5 data, mipmaps stored from the smallest to the largest.  IL_KEEP_DXTC_DATA is off (its default), and
    ilFixImage is the identity, as no conversion state is set.  The errors reported are those this file and
    ilTexImage set, not those of igetc and iread. *)
From Coq Require Import ZArith List Lia Bool.
From Verif Require Import Base Enums Utility Image Elem Lump Endian Dxt.
Import ListNotations.
Open Scope Z_scope.

(** il_iwi.cpp:27-34 *)
Definition IWI_ARGB8 : Z := 1.
Definition IWI_RGB8 : Z := 2.
Definition IWI_ARGB4 : Z := 3.
Definition IWI_A8 : Z := 4.
Definition IWI_DXT1 : Z := 11.
Definition IWI_DXT3 : Z := 12.
Definition IWI_DXT5 : Z := 13.

(** IWIHEAD, il_iwi.cpp:18-25 *)
Record iwi := mkIwi { ISig : Z; IFormat : Z; IFlags : Z; IWidth : Z; IHeight : Z }.

(** igetc() stored in an ILubyte: IL_EOF becomes 255 *)
Definition igetb (r : reader) : res (Z * reader) := let! (c, r) := iGetcLump r in Ok (u8 c, r).
(** iGetIwiHead, il_iwi.cpp:91-103; [u4], [u2 0], [u2 1] are what is on the stack in GetLittleUInt and GetLittleUShort *)
Definition iGetIwiHead (u4 : list Z) (u2 : Z -> list Z) (r : reader) : res (iwi * reader) :=
  let! (s, r) := GetLittleUInt u4 r in
  let! (f, r) := igetb r in
  let! (g, r) := igetb r in
  let! (w, r) := GetLittleUShort (u2 0) r in
  let! (h, r) := GetLittleUShort (u2 1) r in
  let! (_, r) := iSeekRLump 18 IL_SEEK_CUR r in
  Ok (mkIwi s f g w h, r).

Definition is_dxt (f : Z) : bool := (f =? IWI_DXT1) || (f =? IWI_DXT3) || (f =? IWI_DXT5).
(** iCheckIwi, il_iwi.cpp:122-138; the loop of ilNextPower2 ends within 31 steps for every ILushort *)
Definition iCheckIwi (h : iwi) : res bool :=
  if negb (ISig h =? 107566921) && negb (ISig h =? 90789705) then Ok false
  else if (IWidth h =? 0) || (IHeight h =? 0) then Ok false
  else
    let! bad := (if is_dxt (IFormat h) then
      let! w := ilNextPower2 31 (IWidth h) in
      let! y := ilNextPower2 31 (IHeight h) in
      Ok (negb (IWidth h =? w) || negb (IHeight h =? y)) else Ok false) in
    if (bad : bool) then Ok false
    else Ok ((IFormat h =? IWI_ARGB4) || (IFormat h =? IWI_RGB8) || (IFormat h =? IWI_ARGB8) || (IFormat h =? IWI_A8) || is_dxt (IFormat h)).

(** iIsValidIwi, il_iwi.cpp:107-118 *)
Definition iIsValidIwi (u4 : list Z) (u2 : Z -> list Z) (r : reader) : res (bool * reader) :=
  let Pos := iTellRLump r in
  let! (h, r) := iGetIwiHead u4 u2 r in
  let! (_, r) := iSeekRLump (i32 Pos) IL_SEEK_CUR r in
  let! b := iCheckIwi h in
  Ok (b, r).

(** IwiGetFormat, il_iwi.cpp:225-253: the format and the bytes per pixel *)
Definition IwiGetFormat (f : Z) : Z * Z :=
  if f =? IWI_ARGB8 then (IL_BGRA, 4)
  else if f =? IWI_RGB8 then (IL_BGR, 3)
  else if f =? IWI_ARGB4 then (IL_BGRA, 4)
  else if f =? IWI_A8 then (IL_ALPHA, 1)
  else (IL_RGBA, 4).

Definition fresh : img := mkImg 0 0 0 0 0 0 None 0 0 0 0 0 (mkPal None 0 0) 0 0 0 0.
(** IwiInitMipmaps, il_iwi.cpp:257-285: the images below one of W by H; [None]: out of memory.  ilNewImageFull
    (il_manip.cpp) is ilInitImage on a new structure. *)
Definition shrink (n : Z) : Z := if Z.shiftr n 1 =? 0 then 1 else Z.shiftr n 1.
Fixpoint IwiInitMipmaps (fuel : nat) (alloc : allocator) (fmt bpp W H : Z) : res (option (list img) * list Z) :=
  if negb (negb (W =? 1) && negb (H =? 1)) then Ok (Some [], [])
  else
    match fuel with
    | O => Fuel
    | S fuel =>
        let W := shrink W in
        let H := shrink H in
        let! (ok, im, e) := ilInitImage alloc fresh W H 1 bpp fmt IL_UNSIGNED_BYTE None in
        if negb ok then Ok (None, e)
        else
          let! (l, e) := IwiInitMipmaps fuel alloc fmt bpp W H in
          Ok (match l with Some l => Some (with_Origin im IL_ORIGIN_UPPER_LEFT :: l) | None => None end, e)
    end.

(** one turn of the loop of IwiReadImage, il_iwi.cpp:295-394: whether it goes on, the image *)
Definition ReadLevel (alloc : allocator) (f : Z) (im : img) (r : reader) : res (bool * img * reader) :=
  match Data im with
  | None => UB
  | Some d =>
      if (f =? IWI_ARGB8) || (f =? IWI_RGB8) || (f =? IWI_A8) then
        let! (n, d, r) := iReadLump d 1 (SizeOfData im) r in
        Ok (n =? SizeOfData im, with_Data im (Some d), r)
      else
        let size := if f =? IWI_ARGB4 then u32 (Width im * Height im * 2)
                    else if f =? IWI_DXT1 then Z.max (u32 (Width im * Height im) / 2) 8
                    else Z.max (u32 (Width im * Height im)) 16 in
        match alloc size with
        | None => Ok (false, im, r)
        | Some c =>
            let! (n, c, r) := iReadLump c 1 size r in
            if negb (n =? size) then Ok (false, im, r)
            else
              let! d := (if f =? IWI_ARGB4 then
                let! (_, d) := stride 0 (i32 (SizeOfData im)) 4 (fun k '(m, d) =>
                  let! x := rd c m in
                  let! d := wr d (k + 0) (Z.land x 240) in
                  let! d := wr d (k + 1) (Z.shiftl (Z.land x 15) 4) in
                  let! y := rd c (m + 1) in
                  let! d := wr d (k + 2) (Z.land y 240) in
                  let! d := wr d (k + 3) (Z.shiftl (Z.land y 15) 4) in
                  Ok (m + 2, d)) (0, d) in Ok d
              else if f =? IWI_DXT1 then DecompressDXT1 im c d
              else if f =? IWI_DXT3 then DecompressDXT3 im c d
              else DecompressDXT5 im c d) in
              Ok (true, with_Data im (Some d), r)
        end
  end.
(** IwiReadImage, il_iwi.cpp:288-398: [ims] is a level with those below it; the last one is read first *)
Fixpoint IwiReadImage (alloc : allocator) (f : Z) (ims : list img) (r : reader) : res (bool * list img * reader) :=
  match ims with
  | [] => Ok (true, [], r)
  | im :: ims =>
      let! (ok, ims, r) := IwiReadImage alloc f ims r in
      if negb ok then Ok (false, im :: ims, r)
      else
        let! (ok, im, r) := ReadLevel alloc f im r in
        Ok (ok, im :: ims, r)
  end.

(** iLoadIwiInternal, il_iwi.cpp:184-221, on a current image: the result, the image with its mipmaps, the errors
    set.  The sides of the image are halved at most sixteen times. *)
Definition iLoadIwiInternal (alloc : allocator) (u4 : list Z) (u2 : Z -> list Z) (old : img) (r : reader) : res (bool * list img * list Z) :=
  let! (h, r) := iGetIwiHead u4 u2 r in
  let! ok := iCheckIwi h in
  if negb ok then Ok (false, [old], [IL_INVALID_FILE_HEADER])
  else
    let HasMipmaps := negb (Z.land (IFlags h) 3 =? 3) in
    let '(fmt, bpp) := IwiGetFormat (IFormat h) in
    let! (ok, im, e) := ilInitImage alloc old (IWidth h) (IHeight h) 1 bpp fmt IL_UNSIGNED_BYTE None in
    if negb ok then Ok (false, [im], e)
    else
      let im := with_Origin im IL_ORIGIN_UPPER_LEFT in
      let! (l, e) := (if HasMipmaps then IwiInitMipmaps 16 alloc fmt bpp (Width im) (Height im) else Ok (Some [], [])) in
      match l with
      | None => Ok (false, [im], e)
      | Some l =>
          let! (ok, ims, _) := IwiReadImage alloc (IFormat h) (im :: l) r in
          Ok (ok, ims, [])
      end.
