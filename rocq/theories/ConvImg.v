(** Conversion of images: iConvertPalette, iConvertImage, ilConvertImage (src-IL/src/il_convert.cpp:18-410).

    An image and the images that follow it (the Next links) are a list; the first is the current image.
    Not modelled: quantisation (a parameter [quant]), key colours (taken as disabled), the colour profile
    and animation list copied by ilCopyImageAttr; the allocation of the ILimage structure does not fail. *)
From Coq Require Import ZArith QArith List Lia Bool.
From Verif Require Import Base Enums Utility Image Elem Lump Endian Channels ConvBuff Pal.
Import ListNotations.
Open Scope Z_scope.

(** a structure from icalloc *)
Definition zero_img : img := mkImg 0 0 0 0 0 0 None 0 0 0 0 0 (mkPal None 0 0) 0 0 0 0.

(** il_devil.cpp:958-1043 ilCopyImageAttr: everything but the data.  If the palette cannot be allocated it
    returns with [dest] without palette and otherwise unchanged. *)
Definition copy_attr (alloc : allocator) (dest im : img) : res (img * list Z) :=
  let set p := mkImg (Width im) (Height im) (Depth im) (Bpp im) (Bpc im) (Bps im) (Data dest) (SizeOfData im) (SizeOfPlane im)
                 (Format im) (Type_ im) (Origin im) p (Duration im) (CubeFlags im) (OffX im) (OffY im) in
  match Palette (Pal im) with
  | None => Ok (set (mkPal None (PalSize (Pal im)) (PalType (Pal im))), [])
  | Some p =>
      match alloc (PalSize (Pal im)) with
      | None => Ok (with_Pal dest (mkPal None (PalSize (Pal dest)) (PalType (Pal dest))), [IL_OUT_OF_MEMORY])
      | Some b => let! b := memcpy b 0 p 0 (PalSize (Pal im)) in Ok (set (mkPal (Some b) (PalSize (Pal im)) (PalType (Pal im))), [])
      end
  end.

(** The result of a conversion: the new image, errors, and whether the library has lost its current
    image (iCurImage set to NULL, il_convert.cpp:255-261 with CurImage still NULL). *)
Definition conv := (option img * list Z * bool)%type.

(** il_convert.cpp:58-64 and 82-88: the sum over the [Size] bytes of entry [i]; LumFactor has three elements *)
Definition pal_lum (p : list Z) (rev : bool) (Size i : Z) : res Z :=
  if Size =? 3 then
    let! v0 := rd p i in let! v1 := rd p (i + 1) in let! v2 := rd p (i + 2) in
    let! r := lum_int rev false 1 v0 v1 v2 in Ok (unle r)
  else UB.

(** il_convert.cpp:57-72, 81-96: the table of luminances (and alphas, [n] = 2) of the palette *)
Definition lum_table (p : list Z) (cur PalSize Size n : Z) (temp : list Z) : res (list Z) :=
  stride2 PalSize Size n (fun i k temp =>
    let! r := pal_lum p (case cur [IL_PAL_BGR24; IL_PAL_BGR32; IL_PAL_BGRA32]) Size i in
    let! temp := wr temp k r in
    if n =? 2 then let! a := (if cur =? IL_PAL_RGBA32 then rd p (i + 3) else Ok 0xff) in wr temp (k + 1) a else Ok temp) temp.

(** il_convert.cpp:104-127, 162-189: the luminance or alpha image whose pixels [put] stores.  Only one plane
    is allocated; the loop runs over all the old data. *)
Definition flat (alloc : allocator) (new : img) (e : list Z) (Dst n size : Z) (put : Z -> list Z -> res (list Z)) : res conv :=
  let bps := u32 (Width new * n) in
  let plane := u32 (bps * Height new) in
  match alloc plane with
  | None => Ok (None, e ++ [IL_OUT_OF_MEMORY], true)
  | Some d =>
      let! d := loop 0 size put d in
      Ok (Some (mkImg (Width new) (Height new) (Depth new) (if Dst =? IL_LUMINANCE_ALPHA then 2 else 1) (Bpc new) bps (Some d) plane plane Dst (Type_ new)
                  (Origin new) (mkPal None 0 IL_PAL_NONE) (Duration new) (CubeFlags new) (OffX new) (OffY new)), e, false)
  end.

(** reading from a pointer that may be NULL *)
Definition rdo (d : option (list Z)) (i : Z) : res Z := match d with Some d => rd d i | None => UB end.
Definition wro (d : option (list Z)) (i v : Z) : res (option (list Z)) := match d with Some d => let! d := wr d i v in Ok (Some d) | None => UB end.

(** il_convert.cpp:18-262 iConvertPalette; [cur] is the current image.  The palette of the new image has
    already been released when [Temp] cannot be allocated: closing that image releases it again (undefined). *)
Definition iConvertPalette (alloc : allocator) (cur im : img) (Dst : Z) : res conv :=
  let! (new, e) := copy_attr alloc zero_img im in
  match Palette (Pal im) with
  | None => Ok (None, e ++ [IL_ILLEGAL_OPERATION], false)
  | Some p =>
      let ps := PalSize (Pal im) in
      let Size := ilGetBppPal (PalType (Pal im)) in
      let ct := PalType (Pal cur) in
      let temp_error : res conv := match Palette (Pal new) with Some _ => UB | None => Ok (None, e ++ [IL_OUT_OF_MEMORY], true) end in
      if (ps =? 0) || (PalType (Pal im) =? IL_PAL_NONE) || negb (Bpp im =? 1) then Ok (None, e ++ [IL_ILLEGAL_OPERATION], false)
      else if (Dst =? IL_LUMINANCE) || (Dst =? IL_LUMINANCE_ALPHA) then                      (* 42-129 *)
        let n := if Dst =? IL_LUMINANCE_ALPHA then 2 else 1 in
        let go temp :=
          flat alloc new e Dst n (SizeOfData im) (fun i d =>
            let! x := rdo (Data im) i in
            let! t := rdo temp (x * n) in
            let! d := wr d (u32 (i * n)) t in
            if n =? 2 then let! t := rdo temp (x * 2 + 1) in wr d (u32 (i * 2 + 1)) t else Ok d) in
        if case ct [IL_PAL_RGB24; IL_PAL_RGB32; IL_PAL_RGBA32; IL_PAL_BGR24; IL_PAL_BGR32; IL_PAL_BGRA32] then
          if Size =? 0 then UB
          else match alloc (u32 (n * ps) / Size) with
               | None => temp_error
               | Some temp => let! temp := lum_table p ct ps Size n temp in go (Some temp)
               end
        else go None
      else if Dst =? IL_ALPHA then                                                           (* 130-191 *)
        if case ct [IL_PAL_RGB24; IL_PAL_RGB32; IL_PAL_BGR24; IL_PAL_BGR32] then
          flat alloc new e Dst 1 (SizeOfData im) (fun i d => wr d i 0xFF)
        else if case ct [IL_PAL_BGRA32; IL_PAL_RGBA32] then
          if Size =? 0 then UB
          else match alloc (ps / Size) with
               | None => temp_error
               | Some temp =>
                   let! temp := stride2 ps Size 1 (fun i k temp => let! a := rd p (i + 3) in wr temp k a) temp in
                   flat alloc new e Dst 1 (SizeOfData im) (fun i d =>
                     let! x := rdo (Data im) i in
                     let! t := rd temp (x * 2) in
                     let! d := wr d (u32 (i * 2)) t in
                     let! t := rd temp (x * 2 + 1) in
                     wr d (u32 (i * 2 + 1)) t)
               end
        else UB                                                      (* HasAlpha has no value *)
      else
        let new := with_Format new Dst in                                                    (* 194 *)
        let bpp := ilGetBppFormat Dst in
        if bpp =? 0 then Ok (None, e ++ [IL_ILLEGAL_OPERATION], false)
        else if Dst =? IL_COLOUR_INDEX then                                                  (* 223-235: the data of the CURRENT image *)
          match alloc (SizeOfData cur), alloc (PalSize (Pal new)) with
          | Some d, Some q =>
              match Data cur with
              | None => UB
              | Some src =>
                  let! d := memcpy d 0 src 0 (SizeOfData cur) in
                  let! q := memcpy q 0 p 0 ps in
                  Ok (Some (with_Pal (with_Data new (Some d)) (mkPal (Some q) ps (PalType (Pal im)))), e, false)
              end
          | _, _ => Ok (None, e ++ [IL_OUT_OF_MEMORY], false)
          end
        else
          let pt := if Dst =? IL_RGB then IL_PAL_RGB24 else if Dst =? IL_BGR then IL_PAL_BGR24
                    else if Dst =? IL_RGBA then IL_PAL_RGB32 else IL_PAL_BGR32 in
          let! (b, new, e1) := ilConvertPal alloc new pt in                                  (* 205-221 *)
          let '(_, new, e2) := ilResizeImage alloc new (Width new) (Height new) (Depth new) bpp 1 in   (* 244 *)
          if negb b then Ok (None, e ++ e1 ++ e2, false)
          else
            let Size := ilGetBppPal (PalType (Pal new)) in
            let! d := loop 0 (SizeOfData im) (fun i => loop 0 (Bpp new) (fun c d =>
                        let! x := rdo (Data im) i in
                        let! v := rdo (Palette (Pal new)) (x * Size + c) in
                        wro d (u32 (i * Bpp new + c)) v)) (Data new) in
            Ok (Some (with_Pal (with_Data new d) (mkPal None 0 IL_PAL_NONE)), e ++ e1 ++ e2, false)
  end.

(** il_convert.cpp:302-308, 329-335: format, type and sizes *)
Definition set_layout (im : img) (Dst DstTy : Z) : img :=
  let bpp := ilGetBppFormat Dst in let bpc := ilGetBpcType DstTy in
  let bps := u32 (bpp * bpc * Width im) in let plane := u32 (bps * Height im) in
  mkImg (Width im) (Height im) (Depth im) bpp bpc bps (Data im) (u32 (plane * Depth im)) plane Dst DstTy (Origin im) (Pal im)
    (Duration im) (CubeFlags im) (OffX im) (OffY im).

(** il_convert.cpp:338-345: the grey palette *)
Definition grey_palette (d : list Z) : res (list Z) :=
  loop 0 256 (fun i d => let! d := wr d (i * 3) i in let! d := wr d (i * 3 + 1) i in wr d (i * 3 + 2) i) d.

Section Convert.
Variables (fcast : Z -> Z -> list Z -> list Z) (flum : bool -> bool -> Z -> list Z -> list Z -> list Z -> list Z)
  (pal : list Z -> res (option (list Z) * list Z)) (quant : img -> res conv) (alloc : allocator).

(** il_convert.cpp:271-364 iConvertImage on a non-NULL image *)
Definition iConvertImage (cur im : img) (Dst DstTy : Z) : res conv :=
  if (Dst =? IL_COLOUR_INDEX) && (IL_SHORT <=? DstTy) then Ok (None, [IL_INVALID_CONVERSION], false)     (* 284-287 *)
  else if Format im =? IL_COLOUR_INDEX then                                                               (* 289-316 *)
    let! (r, e, lost) := iConvertPalette alloc cur im Dst in
    match r with
    | None => Ok (None, e, lost)
    | Some new =>
        if DstTy =? Type_ new then Ok (Some new, e, lost)
        else
          match Data new with
          | None => UB
          | Some nd =>
              let! (d, e1) := ilConvertBuffer fcast flum pal alloc (SizeOfData new) (Format new) Dst (Type_ new) DstTy nd in
              match d with
              | None => Ok (None, e ++ e1, lost)
              | Some d =>
                  let! (new, e2) := copy_attr alloc (with_Data new (Some d)) im in
                  Ok (Some (set_layout new Dst DstTy), e ++ e1 ++ e2, lost)
              end
          end
    end
  else if (Dst =? IL_COLOUR_INDEX) && negb (Format im =? IL_LUMINANCE) then quant im                       (* 317-322 *)
  else if ilGetBppFormat Dst =? 0 then Ok (None, [IL_INVALID_PARAM], false)                                (* 329-333 *)
  else
    let! (new, e) := copy_attr alloc zero_img im in
    let new := set_layout new Dst DstTy in
    match Data im with
    | None => UB
    | Some src =>
        if Dst =? IL_COLOUR_INDEX then                                                                     (* 344-360; Format is IL_LUMINANCE *)
          match alloc 768 with
          | None => UB
          | Some g =>
              let! g := grey_palette g in
              match alloc (SizeOfData im) with
              | None => Ok (None, e ++ [IL_OUT_OF_MEMORY], false)
              | Some d =>
                  let! d := memcpy d 0 src 0 (SizeOfData im) in
                  Ok (Some (with_Pal (with_Data new (Some d)) (mkPal (Some g) 768 IL_PAL_RGB24)), e, false)
              end
          end
        else
          let! (d, e1) := ilConvertBuffer fcast flum pal alloc (SizeOfData im) (Format im) Dst (Type_ im) DstTy src in
          match d with
          | None => Ok (None, e ++ e1, false)
          | Some d => Ok (Some (with_Data new (Some d)), e ++ e1, false)
          end
    end.

(** il_convert.cpp:410-436: the image takes the data and palette of the converted copy *)
Definition take (im new : img) (Dst DstTy : Z) : img :=
  let bpp := ilGetBppFormat Dst in let bpc := ilGetBpcType DstTy in
  let bps := u32 (Width im * bpc * bpp) in let plane := u32 (bps * Height im) in
  mkImg (Width im) (Height im) (Depth im) bpp bpc bps (Data new) (u32 (Depth im * plane)) plane Dst DstTy (Origin im) (Pal new)
    (Duration im) (CubeFlags im) (OffX im) (OffY im).

(** il_convert.cpp:400-440: the images after the current one *)
Fixpoint convert_rest (cur : img) (ims : list img) (Dst DstTy : Z) : res (bool * list img * list Z * bool) :=
  match ims with
  | [] => Ok (true, [], [], false)
  | im :: ims =>
      let! (r, e, lost) := iConvertImage cur im Dst DstTy in
      match r with
      | None => Ok (false, im :: ims, e, lost)
      | Some new =>
          let! (b, ims, e1, lost) := convert_rest cur ims Dst DstTy in
          Ok (b, take im new Dst DstTy :: ims, e ++ e1, lost)
      end
  end.

(** il_convert.cpp:374-443 ilConvertImage: the boolean, the images, errors, and whether iCurImage was lost *)
Definition ilConvertImage (ims : list img) (Dst DstTy : Z) : res (bool * list img * list Z * bool) :=
  match ims with
  | [] => Ok (false, [], [IL_ILLEGAL_OPERATION], false)
  | im :: rest =>
      if (Dst =? Format im) && (DstTy =? Type_ im) then Ok (true, ims, [], false)
      else
        let! (fast, im1) := (if DstTy =? Type_ im then iFastConvert im Dst else Ok (false, im)) in
        if fast then Ok (true, with_Format im1 Dst :: rest, [], false)
        else
          let! (r, e, lost) := iConvertImage im im Dst DstTy in
          match r with
          | None => Ok (false, ims, e, lost)
          | Some new =>
              let im' := take im new Dst DstTy in
              let! (b, rest, e1, lost) := convert_rest im' rest Dst DstTy in
              Ok (b, im' :: rest, e ++ e1, lost)
          end
  end.
End Convert.
