(** The image structure, seen as a value, and its creation.
    Models include/IL/devil_internal_exports.h:50-90 and src-IL/src/il_devil.cpp:19-111. *)
From Coq Require Import ZArith List Bool.
From Verif Require Import Base Enums Utility.
Import ListNotations.
Open Scope Z_scope.

(** include/IL/devil_internal_exports.h:50-55 [ILpal]; [None] is a NULL pointer,
    [Some l] a pointer to a block with contents [l]. *)
Record pal := mkPal { Palette : option (list Z); PalSize : Z; PalType : Z }.

(** include/IL/devil_internal_exports.h:60-90 [ILimage].  Pixel data and palette are given
    by value ([None] = NULL).  Not represented here: the links Mipmaps/Next/Faces/Layers and
    the animation list, colour profile and DXTC blocks (see [Stack.v] for those). *)
Record img := mkImg {
  Width : Z; Height : Z; Depth : Z;
  Bpp : Z; Bpc : Z; Bps : Z;
  Data : option (list Z);
  SizeOfData : Z; SizeOfPlane : Z;
  Format : Z; Type_ : Z; Origin : Z;
  Pal : pal;
  Duration : Z; CubeFlags : Z; OffX : Z; OffY : Z }.

(** An allocator: the outcome of [ialloc(n)]: [None] for failure, else the (arbitrary)
    contents of the fresh block.  src-IL/src/il_alloc.cpp:88-94. *)
Definition allocator := Z -> option (list Z).
Definition allocator_ok (alloc : allocator) : Prop :=
  forall n l, alloc n = Some l -> zlen l = n.

(** Outcome of a library call: return value, new image, errors raised (in order). *)
Definition callres (A : Type) : Type := A * img * list Z.

(** Replace the pixel block *)
Definition with_Data (im : img) (d : option (list Z)) : img :=
  mkImg (Width im) (Height im) (Depth im) (Bpp im) (Bpc im) (Bps im) d
    (SizeOfData im) (SizeOfPlane im) (Format im) (Type_ im) (Origin im) (Pal im)
    (Duration im) (CubeFlags im) (OffX im) (OffY im).
Definition with_Origin (im : img) (o : Z) : img :=
  mkImg (Width im) (Height im) (Depth im) (Bpp im) (Bpc im) (Bps im) (Data im)
    (SizeOfData im) (SizeOfPlane im) (Format im) (Type_ im) o (Pal im)
    (Duration im) (CubeFlags im) (OffX im) (OffY im).
Definition with_Format (im : img) (f : Z) : img :=
  mkImg (Width im) (Height im) (Depth im) (Bpp im) (Bpc im) (Bps im) (Data im)
    (SizeOfData im) (SizeOfPlane im) f (Type_ im) (Origin im) (Pal im)
    (Duration im) (CubeFlags im) (OffX im) (OffY im).
Definition with_Pal (im : img) (p : pal) : img :=
  mkImg (Width im) (Height im) (Depth im) (Bpp im) (Bpc im) (Bps im) (Data im)
    (SizeOfData im) (SizeOfPlane im) (Format im) (Type_ im) (Origin im) p
    (Duration im) (CubeFlags im) (OffX im) (OffY im).

Definition nz1 (x : Z) : Z := if x =? 0 then 1 else x.

(** src-IL/src/il_devil.cpp:19-58 [ilInitImage], as a function of the parameters: the old
    contents of [*Image] are overwritten by the memset (line 27) unless the type is invalid.
    [old] is the structure before the call (returned unchanged on an invalid type).
    [data] is the caller's buffer; reading beyond it is [UB]. *)
Definition ilInitImage (alloc : allocator) (old : img)
    (W H D bpp fmt typ : Z) (data : option (list Z)) : res (callres bool) :=
  let bpc := ilGetBpcType typ in
  if bpc =? 0 then Ok (false, old, [IL_INVALID_PARAM])
  else
    let W := nz1 W in let H := nz1 H in let D := nz1 D in
    let bps := u32 (W * bpp * bpc) in
    let plane := u32 (bps * H) in
    let size := u32 (plane * D) in
    let im d := mkImg W H D bpp bpc bps d size plane fmt typ IL_ORIGIN_LOWER_LEFT
                  (mkPal None 0 IL_PAL_NONE) 0 0 0 0 in
    match alloc size with
    | None => Ok (false, im None, [IL_OUT_OF_MEMORY])
    | Some blk =>
        match data with
        | None => Ok (true, im (Some blk), [])
        | Some src =>
            let! d := memcpy blk 0 src 0 size in
            Ok (true, im (Some d), [])
        end
    end.

(** src-IL/src/il_devil.cpp:262-275 [ilTexSubImage_] (and [ilSetData], 250-258) on a non-NULL
    image; [data = None] is the NULL pointer. *)
Definition ilTexSubImage_ (alloc : allocator) (im : img) (data : option (list Z)) : res (callres bool) :=
  match data with
  | None => Ok (false, im, [IL_INVALID_PARAM])
  | Some src =>
      match (match Data im with Some b => Some b | None => alloc (SizeOfData im) end) with
      | None => Ok (false, im, [IL_OUT_OF_MEMORY])
      | Some blk =>
          let! d := memcpy blk 0 src 0 (SizeOfData im) in
          Ok (true, with_Data im (Some d), [])
      end
  end.

(** src-IL/src/il_devil.cpp:1118-1143 [ilResizeImage] *)
Definition ilResizeImage (alloc : allocator) (im : img) (W H D bpp bpc : Z) : callres bool :=
  let bps := u32 (bpp * bpc * W) in
  let plane := u32 (bps * H) in
  let size := u32 (plane * D) in
  let new d := mkImg W H D bpp bpc bps d size plane (Format im) (Type_ im) (Origin im) (Pal im)
                 (Duration im) (CubeFlags im) (OffX im) (OffY im) in
  match alloc size with
  | None => (false, new None, [IL_OUT_OF_MEMORY])
  | Some blk => (true, new (Some blk), [])
  end.
