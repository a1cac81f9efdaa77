(** Model of the flip and mirror functions, src-IL/src/il_manip.cpp:223-376. *)
From Coq Require Import ZArith List Bool.
From Verif Require Import Base Enums Utility Image.
Import ListNotations.
Open Scope Z_scope.

(** Scratch blocks that the successive [iMemSwap] calls obtain, by plane and row *)
Definition scratch := Z -> Z -> option (list Z).

(** src-IL/src/il_manip.cpp:223-239 [iFlipBuffer]; [StartPtr]/[EndPtr] are offsets. *)
Definition iFlipBuffer (scr : scratch) (buff : list Z) (depth line_size line_num : Z) : res (list Z) :=
  let size := u32 (line_num * line_size) in
  loop 0 depth (fun d b =>
    let! (b, _, _) := loop 0 (line_num / 2) (fun y '(b, sp, ep) =>
        let ep := ep - line_size in
        let! b := iMemSwap (scr d y) b sp ep line_size in
        Ok (b, sp + line_size, ep)) (b, u32 (d * size), u32 (d * size) + size) in
    Ok b) buff.

(** src-IL/src/il_manip.cpp:242-263 [iFlipNewBuffer]; [None] is the NULL result
    (IL_OUT_OF_MEMORY raised by ialloc). *)
Definition iFlipNewBuffer (alloc : allocator) (buff : list Z) (depth line_size line_num : Z)
  : res (option (list Z)) :=
  let size := u32 (line_num * line_size) in
  match alloc (u32 (depth * size)) with
  | None => Ok None
  | Some data =>
      let! data := loop 0 depth (fun d data =>
        let! (data, _, _) := loop 0 line_num (fun y '(data, s1, s2) =>
            let s2 := s2 - line_size in
            let! data := memcpy data s2 buff s1 line_size in
            Ok (data, s1 + line_size, s2)) (data, u32 (d * size), u32 (d * size) + size) in
        Ok data) data in
      Ok (Some data)
  end.

(** src-IL/src/il_manip.cpp:267-280 [ilFlipImage] on a non-NULL current image.
    A NULL pixel pointer is dereferenced as soon as one row has to be swapped. *)
Definition ilFlipImage (scr : scratch) (im : img) : res img :=
  let o := if Origin im =? IL_ORIGIN_LOWER_LEFT then IL_ORIGIN_UPPER_LEFT else IL_ORIGIN_LOWER_LEFT in
  match Data im with
  | None => if (0 <? Depth im) && (0 <? Height im / 2) && (0 <? Bps im) then UB
            else Ok (with_Origin im o)
  | Some buf =>
      let! buf := iFlipBuffer scr buf (Depth im) (Bps im) (Height im) in
      Ok (with_Origin (with_Data im (Some buf)) o)
  end.

(** src-IL/src/il_manip.cpp:283-290 [iGetFlipped] on a non-NULL image with pixel data *)
Definition iGetFlipped (alloc : allocator) (im : img) : res (option (list Z)) :=
  match Data im with
  | None => UB
  | Some buf => iFlipNewBuffer alloc buf (Depth im) (Bps im) (Height im)
  end.

(** src-IL/src/il_manip.cpp:295-376 [iMirror] on a non-NULL image.  The four cases of the
    switch are the same loop at element sizes 1, 2, 4, 8; other values of Bpc leave the fresh
    block untouched.  [DataPtr = Data + d*SizeOfPlane] followed by element indexing is the
    byte offset [d*SizeOfPlane + idx*Bpc].  [x] runs from [Width-1] (as ILint) down to 0:
    iteration [i] handles [x = Width-1-i]; a Width above 2^31 gives a negative start and no
    iteration. *)
Definition iMirror (alloc : allocator) (im : img) : res (option img) :=
  match alloc (SizeOfData im) with
  | None => Ok None
  | Some fresh =>
      match Data im with
      | None => UB
      | Some src =>
          let n := Bpc im in
          if (n =? 1) || (n =? 2) || (n =? 4) || (n =? 8) then
            let pixline := Bps im / n in
            let! (dst, _) :=
              loop 0 (Depth im) (fun d st =>
                loop 0 (Height im) (fun y st =>
                  loop 0 (i32 (Width im - 1) + 1) (fun i st =>
                    let x := i32 (Width im - 1) - i in
                    loop 0 (Bpp im) (fun c '(dst, t) =>
                      let! dst := memcpy dst (u32 (d * SizeOfPlane im) + u32 (y * pixline + x * Bpp im + c) * n)
                                        src (t * n) n in
                      Ok (dst, t + 1)) st) st) st) (fresh, 0) in
            Ok (Some (with_Data im (Some dst)))
          else Ok (Some (with_Data im (Some fresh)))
      end
  end.
