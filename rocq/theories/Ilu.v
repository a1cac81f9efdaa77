(** Model of the image manipulations of the ILU library, src-ILU/src/ilu_manip.cpp:8-425 and 523-622.

    The current image is given by value; the functions return the outcome of the call, the image after
    it and the errors raised.  [mask] is what iScanFill returned: [None] when no region is set. *)
From Coq Require Import ZArith List Bool.
From Verif Require Import Base Enums Utility Image Elem Flip Pixels Clear.
Import ListNotations.
Open Scope Z_scope.

(** include/IL/ilu.h:57-71 *)
Definition ILU_INTERNAL_ERROR := 1284.
Definition ILU_ILLEGAL_OPERATION := 1286.
Definition ILU_INVALID_PARAM := 1289.
Definition ILU_LOWER_LEFT := 1793.
Definition ILU_LOWER_RIGHT := 1794.
Definition ILU_UPPER_LEFT := 1795.
Definition ILU_UPPER_RIGHT := 1796.
Definition ILU_CENTER := 1797.

(** the caller's buffer after [ilCopyPixels]; the returned size is ignored (ilu_manip.cpp:32, 82, 188) *)
Definition copied (alloc : allocator) (conv : converter) (om : option Z) (im : img) (D : Z) (tmp : list Z)
  : res (list Z * list Z) :=
  let! (_, d, errs) := ilCopyPixels alloc conv om im 0 0 0 (Width im) (Height im) D (Format im) (Type_ im) (Some tmp) in
  match d with Some d => Ok (d, errs) | None => UB end.

(** iluCrop2D, ilu_manip.cpp:8-52.  [scr] serves the scratch copy (26), [alloc] every other allocation;
    ilTexImage on the current image is [ilInitImage] (sub-images not represented here). *)
Definition iluCrop2D (scr alloc : allocator) (conv : converter) (om : option Z) (im : img) (XOff YOff W H : Z)
  : res (callres bool) :=
  if (Width im <? W) || (Height im <? H) then Ok (false, im, [ILU_ILLEGAL_OPERATION])
  else match scr (SizeOfData im) with
  | None => Ok (false, im, [IL_OUT_OF_MEMORY])
  | Some tmp =>
      let! (tmp, e1) := copied alloc conv om im 1 tmp in
      let! (ok, im', e2) := ilInitImage alloc im W H (Depth im) (Bpp im) (Format im) (Type_ im) None in
      if negb ok then Ok (false, im', e1 ++ e2)
      else
        let im' := with_Origin im' (Origin im) in
        match Data im' with
        | None => UB
        | Some d =>
            let! d := loop 0 (Height im') (fun y =>
              stride 0 (Bps im') (Bpp im') (fun x =>
                loop 0 (Bpp im') (fun c d =>
                  let! v := rd tmp (u32 (u32 (y + YOff) * Bps im + x + XOff * Bpp im' + c)) in
                  wr d (u32 (y * Bps im' + x + c)) v))) d in
            Ok (true, with_Data im' (Some d), e1 ++ e2)
        end
  end.

(** iluCrop3D, ilu_manip.cpp:55-101.  A failure of ilTexImage frees the scratch copy (90) and goes on with
    it: [UB]. *)
Definition iluCrop3D (scr alloc : allocator) (conv : converter) (om : option Z) (im : img) (XOff YOff ZOff W H D : Z)
  : res (callres bool) :=
  if (Width im <? W) || (Height im <? H) || (Depth im <? D) then Ok (false, im, [ILU_ILLEGAL_OPERATION])
  else match scr (SizeOfData im) with
  | None => Ok (false, im, [IL_OUT_OF_MEMORY])
  | Some tmp =>
      let! (tmp, e1) := copied alloc conv om im (Depth im) tmp in
      let! (ok, im', e2) := ilInitImage alloc im (u32 (W - XOff)) (u32 (H - YOff)) (u32 (D - ZOff))
                              (Bpp im) (Format im) (Type_ im) None in
      let im' := with_Origin im' (Origin im) in
      match Data im' with
      | None => UB
      | Some d =>
          let! d := loop 0 (Depth im') (fun z => loop 0 (Height im') (fun y =>
            stride 0 (Bps im') (Bpp im') (fun x =>
              loop 0 (Bpp im') (fun c d =>
                let! v := rd tmp (u32 (u32 (z + ZOff) * SizeOfPlane im + u32 (y + YOff) * Bps im + u32 (x + XOff) + c)) in
                wr d (u32 (z * SizeOfPlane im' + y * Bps im' + x + c)) v)))) d in
          Ok (true, with_Data im' (Some d), e1 ++ e2)
      end
  end.

(** iluCrop, ilu_manip.cpp:104-109 *)
Definition iluCrop (scr alloc : allocator) (conv : converter) (om : option Z) (im : img) (XOff YOff ZOff W H D : Z)
  : res (callres bool) :=
  if ZOff <=? 1 then iluCrop2D scr alloc conv om im XOff YOff W H
  else iluCrop3D scr alloc conv om im XOff YOff ZOff W H D.

(** ilu_manip.cpp:130-178: the offset of the old picture in the new one, in pixels and storage rows *)
Definition placement (place : Z) (im : img) (W H : Z) : option (Z * Z) :=
  let dx := u32 (W - Width im) in let dy := u32 (H - Height im) in
  if Origin im =? IL_ORIGIN_LOWER_LEFT then
    if place =? ILU_LOWER_LEFT then Some (0, 0)
    else if place =? ILU_LOWER_RIGHT then Some (dx, 0)
    else if place =? ILU_UPPER_LEFT then Some (0, dy)
    else if place =? ILU_UPPER_RIGHT then Some (dx, dy)
    else if place =? ILU_CENTER then Some (dx / 2, dy / 2)
    else None
  else
    if place =? ILU_LOWER_LEFT then Some (0, dy)
    else if place =? ILU_LOWER_RIGHT then Some (dx, dy)
    else if place =? ILU_UPPER_LEFT then Some (0, 0)
    else if place =? ILU_UPPER_RIGHT then Some (dx, 0)
    else if place =? ILU_CENTER then Some (dx / 2, dy / 2)
    else None.

(** iluEnlargeCanvas, ilu_manip.cpp:113-220.  The results of ilTexImage (190) and ilClearImage (193) are
    ignored; [stk] is the uninitialised array of ilClearImage. *)
Definition iluEnlargeCanvas (scr alloc : allocator) (conv : converter) (om : option Z) (fenc denc : Z -> list Z)
    (col : colour) (stk : list Z) (place : Z) (im : img) (W H D : Z) : res (callres bool) :=
  if (W <? Width im) || (H <? Height im) || (D <? Depth im) then Ok (false, im, [ILU_ILLEGAL_OPERATION])
  else match placement place im W H with
  | None => Ok (false, im, [ILU_INVALID_PARAM])
  | Some (AddX, AddY) =>
      let AddX := u32 (AddX * Bpp im) in
      match scr (SizeOfData im) with
      | None => Ok (false, im, [IL_OUT_OF_MEMORY])
      | Some tmp =>
          let! (tmp, e1) := copied alloc conv om im (Depth im) tmp in
          let! (_, im', e2) := ilInitImage alloc im W H D (Bpp im) (Format im) (Type_ im) None in
          let im' := with_Origin im' (Origin im) in
          let! (_, im', e3) := ilClearImage_ fenc denc alloc col stk im' in
          match Data im' with
          | None => UB
          | Some d =>
              let! d := loop 0 (Depth im) (fun z => loop 0 (Height im) (fun y => loop 0 (Bps im) (fun x d =>
                let! v := rd tmp (u32 (z * SizeOfPlane im + y * Bps im + x)) in
                wr d (u32 (z * SizeOfPlane im' + u32 (y + AddY) * Bps im' + x + AddX)) v))) d in
              Ok (true, with_Data im' (Some d), e1 ++ e2 ++ e3)
          end
      end
  end.

(** iluFlipImage, ilu_manip.cpp:223-252 *)
Definition iluFlipImage (scr : scratch) (im : img) : res img :=
  match Data im with
  | None => if (0 <? Depth im) && (0 <? Height im / 2) && (0 <? Bps im) then UB else Ok im
  | Some buf => let! buf := iFlipBuffer scr buf (Depth im) (Bps im) (Height im) in Ok (with_Data im (Some buf))
  end.

(** [~v] of an unsigned integer, byte by byte *)
Definition bnot (v : list Z) : list Z := map (fun b => 255 - b) v.

(** iluInvertAlpha, ilu_manip.cpp:262-331.  [fneg]/[dneg]: [1.0f - v] on the bytes of a float or double.
    The counter starts at [Bpp - 1] and the pointer at element [Bpp - 1], stepping by [Bpp]. *)
Definition iluInvertAlpha (fneg dneg : list Z -> list Z) (im : img) : res (callres bool) :=
  if negb ((Format im =? IL_RGBA) || (Format im =? IL_BGRA) || (Format im =? IL_LUMINANCE_ALPHA))
  then Ok (false, im, [ILU_ILLEGAL_OPERATION])
  else
    let NumPix := u32 (Width im * Height im * Depth im) in
    let run (n : Z) (f : list Z -> list Z) :=
      match Data im with
      | None => if Bpp im - 1 <? NumPix then UB else Ok (true, im, [])
      | Some d =>
          let! d := loop (Bpp im - 1) NumPix (fun i d =>
            let e := (Bpp im - 1) + (i - (Bpp im - 1)) * Bpp im in
            let! v := rde d n e in wre d n e (f v)) d in
          Ok (true, with_Data im (Some d), [])
      end in
    let t := Type_ im in
    if (t =? IL_BYTE) || (t =? IL_UNSIGNED_BYTE) then run 1 bnot
    else if (t =? IL_SHORT) || (t =? IL_UNSIGNED_SHORT) then run 2 bnot
    else if (t =? IL_INT) || (t =? IL_UNSIGNED_INT) then run 4 bnot
    else if t =? IL_FLOAT then run 4 fneg
    else if t =? IL_DOUBLE then run 8 dneg
    else Ok (true, im, []).

(** the loops of iluNegative (ilu_manip.cpp:368-424) on a buffer [d] of [size] bytes, elements of [n] bytes *)
Definition negate (mask : option (list Z)) (n bpp size : Z) (d : list Z) : res (list Z) :=
  let NumPix := size / n in
  if negb ((n =? 1) || (n =? 2) || (n =? 4)) then Ok d
  else match mask with
  | Some m =>
      stride 0 NumPix bpp (fun j d =>
        loop 0 bpp (fun c d =>
          let! sel := rd m (j / bpp) in
          if negb (sel =? 0) then let! v := rde d n (j + c) in wre d n (j + c) (bnot v) else Ok d) d) d
  | None => loop 0 NumPix (fun j d => let! v := rde d n j in wre d n j (bnot v)) d
  end.

(** iluNegative, ilu_manip.cpp:335-428 *)
Definition iluNegative (mask : option (list Z)) (im : img) : res (callres bool) :=
  if Format im =? IL_COLOUR_INDEX then
    match Palette (Pal im) with
    | Some p =>
        if (PalSize (Pal im) =? 0) || (PalType (Pal im) =? IL_PAL_NONE) then Ok (false, im, [ILU_ILLEGAL_OPERATION])
        else
          let! p := negate mask (Bpc im) (Bpp im) (PalSize (Pal im)) p in
          Ok (true, with_Pal im (mkPal (Some p) (PalSize (Pal im)) (PalType (Pal im))), [])
    | None => Ok (false, im, [ILU_ILLEGAL_OPERATION])
    end
  else match Data im with
  | Some d => let! d := negate mask (Bpc im) (Bpp im) (SizeOfData im) d in Ok (true, with_Data im (Some d), [])
  | None => UB
  end.

(** ** iluColoursUsed, ilu_manip.cpp:523-622 *)

(** the list behind a bucket: [while (Temp->Next != NULL)] over all entries but the last, then the last (587-596) *)
Fixpoint search (c : Z) (l : list Z) : bool :=
  match l with
  | [] => false
  | [x] => c =? x
  | x :: l => if c =? x then true else search c l
  end.

(** state of the count: the buckets, HeapPos, HeapPtr, NumCols; [None] after an allocation failure *)
Record used := mkUsed { buckets : Z -> list Z; hpos : Z; hptr : Z; ncols : Z }.

(** lines 569-580 and 597-609: take the next record of the little heap, allocating a block when one is full.
    [more k] says whether the allocation of block [k] succeeds; the array Heap has 9 entries. *)
Definition insert (more : Z -> bool) (hsize : Z) (b c : Z) (u : used) : res (option used) :=
  let hptr' := u32 (hptr u + 1) in
  let put hp ht := Some (mkUsed (fun k => if k =? b then c :: buckets u b else buckets u k) hp ht (u32 (ncols u + 1))) in
  if hsize <=? hptr' then
    if 9 <=? hpos u + 1 then UB
    else if more (hpos u + 1) then Ok (put (hpos u + 1) 0) else Ok None
  else Ok (put (hpos u) hptr').

(** lines 552-611: one pixel; [*(ILuint* )ColTemp] is the little-endian value of the four bytes *)
Definition visit (more : Z -> bool) (hsize bpp : Z) (data : list Z) (i : Z) (u : used) : res (option used) :=
  let! c0 := rd data i in
  let! c12 := if 1 <? bpp then let! a := rd data (u32 (i + 1)) in let! b := rd data (u32 (i + 2)) in Ok (a + 256 * b) else Ok 0 in
  let! c3 := if 3 <? bpp then rd data (u32 (i + 3)) else Ok 0 in
  let c := c0 + 256 * c12 + 16777216 * c3 in
  let b := c mod 8192 in
  match buckets u b with
  | [] => insert more hsize b c u
  | _ => if search c (buckets u b) then Ok (Some u) else insert more hsize b c u
  end.

(** iluColoursUsed: 0 on a failed allocation.  [first] is whether block 0 could be allocated. *)
Definition iluColoursUsed (more : Z -> bool) (im : img) : res Z :=
  if Bpp im =? 0 then UB
  else
    let hsize := Z.max 1 (SizeOfData im / Bpp im / 8) in
    if negb (more 0) then Ok 0
    else
      let! r := stride 0 (SizeOfData im) (Bpp im) (fun i s =>
        match s with
        | None => Ok None
        | Some u => match Data im with Some d => visit more hsize (Bpp im) d i u | None => UB end
        end) (Some (mkUsed (fun _ => []) 0 0 0)) in
      match r with Some u => Ok (ncols u) | None => Ok 0 end.
