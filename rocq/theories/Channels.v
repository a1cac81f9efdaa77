(** Model of the channel-wise image operations: ilSwapColours, ilAddAlpha, ilRemoveAlpha
    (src-IL/src/il_convert.cpp:444-668, 890-983), iFastConvert (src-IL/src/il_fastconv.cpp:19-292),
    ilGetAlpha, ilSetAlpha, ilModAlpha and ilClampNTSC (src-IL/src/il_manip.cpp:866-1156).

    All act on the current image, given here as a value; a NULL current image (which the
    functions of il_manip.cpp and ilAddAlpha/ilRemoveAlpha refuse) is not represented. *)
From Coq Require Import ZArith List Lia Bool.
From Verif Require Import Base Enums Utility Image Elem.
Import ListNotations.
Open Scope Z_scope.

Definition with_PalType (im : img) (t : Z) : img := with_Pal im (mkPal (Palette (Pal im)) (PalSize (Pal im)) t).
Definition with_PalData (im : img) (d : list Z) : img := with_Pal im (mkPal (Some d) (PalSize (Pal im)) (PalType (Pal im))).

(** exchange of elements [i] and [i+2], il_convert.cpp:529-531 (535-552 for wider channels);
    [i+2] is 32-bit arithmetic *)
Definition exchange (n i : Z) (d : list Z) : res (list Z) :=
  let! t := rde d n i in
  let! v := rde d n (u32 (i + 2)) in
  let! d := wre d n i v in
  wre d n (u32 (i + 2)) t.

(** ilSwapColours, il_convert.cpp:444-559.  [Size] does not contain the depth (446). *)
Definition ilSwapColours (im : img) : res (callres bool) :=
  let Size := u32 (Bpp im * Width im * Height im) in
  let PalBpp := ilGetBppPal (PalType (Pal im)) in
  if negb (case (Bpp im) [1; 3; 4]) then Ok (false, im, [IL_INVALID_VALUE])            (* 452-455 *)
  else if (Format im =? IL_COLOUR_INDEX) && (PalBpp =? 0)
  then Ok (false, im, [IL_ILLEGAL_OPERATION])                                          (* 458-463 *)
  else
    let swap_data im :=                                                                (* 522-555 *)
      if case (Bpc im) [1; 2; 4; 8] then
        if 0 <? Size then
          match Data im with
          | None => UB
          | Some d =>
              let! d := stride 0 Size (Bpp im) (exchange (Bpc im)) d in
              Ok (true, with_Data im (Some d), [])
          end
        else Ok (true, im, [])
      else Ok (true, im, []) in
    let swap_pal im :=                                                                 (* 515-519 *)
      if 0 <? PalSize (Pal im) then
        match Palette (Pal im) with
        | None => UB
        | Some p =>
            let! p := stride 0 (PalSize (Pal im)) PalBpp (exchange 1) p in
            Ok (true, with_PalData im p, [])
        end
      else Ok (true, im, []) in
    if Format im =? IL_RGB then swap_data (with_Format im IL_BGR)
    else if Format im =? IL_RGBA then swap_data (with_Format im IL_BGRA)
    else if Format im =? IL_BGR then swap_data (with_Format im IL_RGB)
    else if Format im =? IL_BGRA then swap_data (with_Format im IL_RGBA)
    else if case (Format im) [IL_ALPHA; IL_LUMINANCE; IL_LUMINANCE_ALPHA] then Ok (true, im, [])
    else if Format im =? IL_COLOUR_INDEX then
      if PalType (Pal im) =? IL_PAL_RGB24 then swap_pal (with_PalType im IL_PAL_BGR24)
      else if PalType (Pal im) =? IL_PAL_RGB32 then swap_pal (with_PalType im IL_PAL_BGR32)
      else if PalType (Pal im) =? IL_PAL_RGBA32 then swap_pal (with_PalType im IL_PAL_BGRA32)
      else if PalType (Pal im) =? IL_PAL_BGR24 then swap_pal (with_PalType im IL_PAL_RGB24)
      else if PalType (Pal im) =? IL_PAL_BGR32 then swap_pal (with_PalType im IL_PAL_RGB32)
      else if PalType (Pal im) =? IL_PAL_BGRA32 then swap_pal (with_PalType im IL_PAL_RGBA32)
      else Ok (false, im, [IL_ILLEGAL_OPERATION])
    else Ok (false, im, [IL_ILLEGAL_OPERATION]).

(** a loop with the two counters [i] (step [st]) and [j] (step [st2]), il_convert.cpp:590 *)
Definition stride2 (hi st st2 : Z) (body : Z -> Z -> list Z -> res (list Z)) (d : list Z) : res (list Z) :=
  let! r := stride 0 hi st (fun i s => let! d := body i (snd s) (fst s) in Ok (d, u32 (snd s + st2))) (d, 0) in
  Ok (fst r).

(** opaque alpha in memory order on a little-endian machine: UCHAR_MAX, USHRT_MAX, UINT_MAX,
    1.0f, 1.0; [None]: the type has no case (il_convert.cpp:587-642) *)
Definition opaque (Type_ : Z) : option (list Z) :=
  if case Type_ [IL_BYTE; IL_UNSIGNED_BYTE] then Some [255]
  else if case Type_ [IL_SHORT; IL_UNSIGNED_SHORT] then Some [255; 255]
  else if case Type_ [IL_INT; IL_UNSIGNED_INT] then Some [255; 255; 255; 255]
  else if case Type_ [IL_FLOAT] then Some [0; 0; 128; 63]
  else if case Type_ [IL_DOUBLE] then Some [0; 0; 0; 0; 0; 0; 240; 63]
  else None.

(** three channels copied from pixel position [i] to [j] *)
Definition copy3 (src : list Z) (n i j : Z) (d : list Z) : res (list Z) :=
  let! v := rde src n i in let! d := wre d n j v in
  let! v := rde src n (u32 (i + 1)) in let! d := wre d n (u32 (j + 1)) v in
  let! v := rde src n (u32 (i + 2)) in wre d n (u32 (j + 2)) v.

(** the common end of ilAddAlpha and ilRemoveAlpha, il_convert.cpp:645-665, 959-980 *)
Definition new_layout (im : img) (bpp fmt : Z) (d : list Z) : img :=
  let bps := u32 (Width im * Bpc im * bpp) in
  let plane := u32 (bps * Height im) in
  mkImg (Width im) (Height im) (Depth im) bpp (Bpc im) bps (Some d) (u32 (plane * Depth im)) plane
    fmt (Type_ im) (Origin im) (Pal im) (Duration im) (CubeFlags im) (OffX im) (OffY im).

(** ilAddAlpha, il_convert.cpp:563-668.  The depth is left out of both sizes (577, 580). *)
Definition ilAddAlpha (alloc : allocator) (im : img) : res (callres bool) :=
  if negb (Bpp im =? 3) then Ok (false, im, [IL_INVALID_VALUE])
  else if Bpc im =? 0 then UB (* division by zero, 577 *)
  else
    let Size := u32 (Bps im * Height im) / Bpc im in
    match alloc (u32 (4 * Bpc im * Width im * Height im)) with
    | None => Ok (false, im, [IL_OUT_OF_MEMORY])
    | Some d =>
        match opaque (Type_ im) with
        | None => Ok (false, im, [IL_INTERNAL_ERROR])
        | Some a =>
            match Data im with
            | None => UB
            | Some src =>
                let n := zlen a in
                let! d := stride2 Size 3 4 (fun i j d =>
                            let! d := copy3 src n i j d in wre d n (u32 (j + 3)) a) d in
                let fmt := if Format im =? IL_RGB then IL_RGBA
                           else if Format im =? IL_BGR then IL_BGRA else Format im in
                Ok (true, new_layout im 4 fmt d, [])
            end
        end
    end.

(** ilRemoveAlpha, il_convert.cpp:890-983.  [Size] is in bytes here (905) but used as an element
    count. *)
Definition ilRemoveAlpha (alloc : allocator) (im : img) : res (callres bool) :=
  if negb (Bpp im =? 4) then Ok (false, im, [IL_INVALID_VALUE])
  else
    let Size := u32 (Bps im * Height im) in
    match alloc (u32 (3 * Bpc im * Width im * Height im)) with
    | None => Ok (false, im, [IL_OUT_OF_MEMORY])
    | Some d =>
        match opaque (Type_ im) with (* same case labels as ilAddAlpha, 914-957 *)
        | None => Ok (false, im, [IL_INTERNAL_ERROR])
        | Some a =>
            match Data im with
            | None => UB
            | Some src =>
                let n := zlen a in
                let! d := stride2 Size 4 3 (fun i j d => copy3 src n i j d) d in
                let fmt := if Format im =? IL_RGBA then IL_RGB
                           else if Format im =? IL_BGRA then IL_BGR else Format im in
                Ok (true, new_layout im 3 fmt d, [])
            end
        end
    end.

(** iFastConvert, il_fastconv.cpp:19-292, portable code path.  [Some (b, d)]: the returned boolean
    and the new pixel data.  The element size follows the type; there is no case for IL_HALF. *)
Definition iFastConvert (im : img) (DestFormat : Z) : res (bool * img) :=
  let n := match opaque (Type_ im) with Some a => zlen a | None => 0 end in
  let go bpp :=
    if n =? 0 then Ok (false, im)
    else
      let N := SizeOfData im / (bpp * n) in
      if 0 <? N then
        match Data im with
        | None => UB
        | Some d => let! d := loop 0 N (fun k d => 
                         let! t := rde d n (k * bpp) in
                         let! v := rde d n (k * bpp + 2) in
                         let! d := wre d n (k * bpp) v in
                         wre d n (k * bpp + 2) t) d in
                    Ok (true, with_Data im (Some d))
        end
      else Ok (true, im) in
  if case DestFormat [IL_RGB; IL_BGR] then
    if case (Format im) [IL_RGB; IL_BGR] then go 3 else Ok (false, im)
  else if case DestFormat [IL_RGBA; IL_BGRA] then
    if case (Format im) [IL_RGBA; IL_BGRA] then go 4 else Ok (false, im)
  else Ok (false, im).

(** the element size of the [switch (Type)] in ilGetAlpha and ilSetAlpha; 0: no case *)
Definition elsize (Type_ : Z) : Z := match opaque Type_ with Some a => zlen a | None => 0 end.

(** ilGetAlpha, il_manip.cpp:866-959.  [conv] stands for iConvertImage(iCurImage, Format, Type),
    called when the type differs; its result is read and closed (or, for IL_ALPHA, leaked,
    917-920). *)
Definition ilGetAlpha (alloc : allocator) (conv : img -> Z -> Z -> res (option img)) (im : img) (Ty : Z)
  : res (option (list Z) * list Z) :=
  let bpc := ilGetBpcType Ty in
  if bpc =? 0 then Ok (None, [IL_INVALID_PARAM])
  else
    let! t := if Type_ im =? Ty then Ok (Some im) else conv im (Format im) Ty in
    match t with
    | None => Ok (None, [])
    | Some t =>
        if Bpp t =? 0 then UB else
        let Size := u32 (Width im * Height im * Depth im * Bpp t) in
        let bytes := u32 (Size / Bpp t * bpc) in
        match alloc bytes with
        | None => Ok (None, [IL_OUT_OF_MEMORY])
        | Some A =>
            if case (Format t) [IL_RGB; IL_BGR; IL_LUMINANCE; IL_COLOUR_INDEX] then
              let! A := memset A 0 255 bytes in Ok (Some A, [])
            else if Format t =? IL_ALPHA then
              match Data t with
              | None => UB
              | Some d => let! A := memcpy A 0 d 0 (SizeOfData t) in Ok (Some A, [])
              end
            else
              let off := if Format t =? IL_LUMINANCE_ALPHA then 2 else 4 in
              let n := elsize (Type_ t) in
              if n =? 0 then Ok (Some A, [])
              else match Data t with
                   | None => UB
                   | Some d =>
                       let! r := stride (off - 1) Size off (fun i s =>
                                   let! v := rde d n i in
                                   let! A := wre (fst s) n (snd s) v in
                                   Ok (A, u32 (snd s + 1))) (A, 0) in
                       Ok (Some (fst r), [])
                   end
        end
    end.

(** little-endian bytes of a number *)
Fixpoint le (n : nat) (v : Z) : list Z :=
  match n with O => [] | S k => (v mod 256) :: le k (v / 256) end.

(** The alpha value written by ilSetAlpha, il_manip.cpp:977, 1010-1041.  The argument is the double
    [a / 2^20] (a value whose products below are exact in double arithmetic); it is clamped to
    [0, 1] first.  [fenc], [denc] give the bytes of the float and double.
    IL_INT: the cast to ILushort (1022) of a value that does not fit is undefined. *)
Definition alpha_bytes (fenc denc : Z -> list Z) (Type_ a : Z) : res (option (list Z)) :=
  let a := if a <? 0 then 0 else if 1048576 <? a then 1048576 else a in
  let rnd m := (a * m * 2 + 1048576) / 2097152 in
  if case Type_ [IL_BYTE; IL_UNSIGNED_BYTE] then Ok (Some (le 1 (rnd 255)))
  else if case Type_ [IL_SHORT; IL_UNSIGNED_SHORT] then Ok (Some (le 2 (rnd 65535)))
  else if case Type_ [IL_INT; IL_UNSIGNED_INT] then
    if rnd 4294967295 <? 65536 then Ok (Some (le 4 (rnd 4294967295))) else UB
  else if case Type_ [IL_FLOAT] then Ok (Some (fenc a))
  else if case Type_ [IL_DOUBLE] then Ok (Some (denc a))
  else Ok None.

(** ilSetAlpha, il_manip.cpp:962-1043.  [conv] stands for ilConvertImage on the current image.
    The case IL_ALPHA falls through into IL_COLOUR_INDEX (1000-1005).  A format without a case
    leaves AlphaOff uninitialised. *)
Definition ilSetAlpha (fenc denc : Z -> list Z) (conv : img -> Z -> Z -> res (option img)) (im : img) (a : Z)
  : res (bool * img) :=
  let go (im : img) (off : Z) :=
    let Size := u32 (Width im * Height im * Depth im * Bpp im) in
    let! v := alpha_bytes fenc denc (Type_ im) a in
    match v with
    | None => Ok (true, im)
    | Some v =>
        if off - 1 <? Size then
          match Data im with
          | None => UB
          | Some d => let! d := stride (off - 1) Size off (fun i d => wre d (zlen v) i v) d in
                      Ok (true, with_Data im (Some d))
          end
        else Ok (true, im)
    end in
  let cgo fmt off :=
    let! r := conv im fmt (Type_ im) in
    match r with None => Ok (false, im) | Some im' => go im' off end in
  if Format im =? IL_RGB then cgo IL_RGBA 4
  else if Format im =? IL_RGBA then go im 4
  else if Format im =? IL_BGR then cgo IL_BGRA 4
  else if Format im =? IL_BGRA then go im 4
  else if Format im =? IL_LUMINANCE then cgo IL_LUMINANCE_ALPHA 2
  else if Format im =? IL_LUMINANCE_ALPHA then go im 2
  else if case (Format im) [IL_ALPHA; IL_COLOUR_INDEX] then cgo IL_RGBA 4
  else UB.

(** ilModAlpha, il_manip.cpp:1046-1124, up to line 1088: the conversion and the early return.
    [None]: the function returned without touching the image.  The loops after it are those of
    ilSetAlpha without the clamp, and are not represented. *)
Definition ilModAlpha_start (conv : img -> Z -> Z -> res (option img)) (im : img) : res (option (img * Z)) :=
  let cgo fmt off :=
    let! r := conv im fmt (Type_ im) in
    match r with None => Ok None | Some im' => Ok (Some (im', off)) end in
  if Format im =? IL_RGB then cgo IL_RGBA 4
  else if Format im =? IL_BGR then cgo IL_BGRA 4
  else if Format im =? IL_LUMINANCE then cgo IL_LUMINANCE_ALPHA 2
  else if Format im =? IL_COLOUR_INDEX then cgo IL_RGBA 4
  else Ok None.

(** IL_LIMIT(x, 16, 235), include/IL/il.h:152 *)
Definition limit (x m M : Z) : Z := if x <? m then m else if M <? x then M else x.

(** ilClampNTSC, il_manip.cpp:1129-1156 *)
Definition ilClampNTSC (im : img) : res (bool * img) :=
  if negb (Type_ im =? IL_UNSIGNED_BYTE) then Ok (false, im)
  else if (0 <? Depth im) && (0 <? Height im) && (0 <? Width im) && (0 <? Bpp im) then
    match Data im with
    | None => UB
    | Some d =>
        let! r := loop 0 (Depth im) (fun z s =>
          loop 0 (Height im) (fun y s =>
            loop 0 (Width im) (fun x s =>
              let '(d, off) := s in
              let! d := loop 0 (Bpp im) (fun c d =>
                  let! v := rd d (u32 (off + c)) in wr d (u32 (off + c)) (limit v 16 235)) d in
              Ok (d, u32 (off + Bpp im))) s) s) (d, 0) in
        Ok (true, with_Data im (Some (fst r)))
    end
  else Ok (true, im).
