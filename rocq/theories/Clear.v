(** Model of the clear colour: ilClearColour, ilGetClear, ilClearImage_
    (src-IL/src/il_devil.cpp:319-713). *)
From Coq Require Import ZArith List Lia Bool.
From Verif Require Import Base Enums Utility Image Elem Channels.
Import ListNotations.
Open Scope Z_scope.

(** The clear colour, il_devil.cpp:319-323: floats, given in units of 2^-16 (floats with at most 16
    binary places; others are not represented). *)
Record colour := mkColour { cR : Z; cG : Z; cB : Z; cA : Z; cL : Z }.

(** the clamp of il_devil.cpp:328-331 *)
Definition clampf (a : Z) : Z := if a <? 0 then 0 else if 65536 <? a then 65536 else a.

(** ilClearColour, il_devil.cpp:325-342.  [lum] stands for the weighted sum of 337, which is clamped
    like the others; it is not used for grey colours. *)
Definition ilClearColour (lum : Z -> Z -> Z -> Z) (R G B A : Z) : colour :=
  mkColour (clampf R) (clampf G) (clampf B) (clampf A)
    (if (R =? G) && (R =? B) && (G =? B) then clampf R else clampf (lum (clampf R) (clampf G) (clampf B))).

(** Rounding of the number [p / 2^16] to single precision (24 significant bits, to nearest, ties to
    even), result in the same unit.  Models the single-precision products of 359 and following. *)
Definition fl (p : Z) : Z :=
  if p <? 16777216 then p
  else
    let s := Z.log2 p - 23 in
    let q := p / 2 ^ s in
    let r := p mod 2 ^ s in
    (if (2 ^ s <? 2 * r) || ((2 * r =? 2 ^ s) && Z.odd q) then q + 1 else q) * 2 ^ s.

(** The element stored for component [a]: il_devil.cpp:359 (ILubyte)(x * UCHAR_MAX), 409
    (ILushort)(x * USHRT_MAX), 458 (ILuint)(x * UINT_MAX), 508 and 557 (float, double; [fenc], [denc]
    give the bytes).  In 458 the int UINT_MAX is converted to float first, which gives 2^32; the
    conversion of a float of 2^32 to ILuint is undefined.  [None]: no case for the type (606-608). *)
Definition comp (fenc denc : Z -> list Z) (Ty a : Z) : option (res (list Z)) :=
  if case Ty [IL_BYTE; IL_UNSIGNED_BYTE] then Some (Ok (le 1 (fl (a * 255) / 65536)))
  else if case Ty [IL_SHORT; IL_UNSIGNED_SHORT] then Some (Ok (le 2 (fl (a * 65535) / 65536)))
  else if case Ty [IL_INT; IL_UNSIGNED_INT] then
    let v := fl (a * 4294967296) / 65536 in Some (if v <? 4294967296 then Ok (le 4 v) else UB)
  else if Ty =? IL_FLOAT then Some (Ok (fenc a))
  else if Ty =? IL_DOUBLE then Some (Ok (denc a))
  else None.

(** The assignments made for a format, in order: element index and component.
    il_devil.cpp:356-403 (bytes), 406-452, 455-501, 504-550 (float), 553-604.  For bytes the case
    IL_LUMINANCE_ALPHA has no break (390-395); for floats it assigns element 0 twice (540-541). *)
Definition writes (Fmt Ty : Z) (c : colour) : option (list (Z * Z)) :=
  if Fmt =? IL_RGB then Some [(0, cR c); (1, cG c); (2, cB c)]
  else if Fmt =? IL_RGBA then Some [(0, cR c); (1, cG c); (2, cB c); (3, cA c)]
  else if Fmt =? IL_BGR then Some [(2, cR c); (1, cG c); (0, cB c); (3, cA c)]
  else if Fmt =? IL_BGRA then Some [(2, cR c); (1, cG c); (0, cB c); (3, cA c)]
  else if Fmt =? IL_LUMINANCE then Some [(0, cA c)]
  else if Fmt =? IL_LUMINANCE_ALPHA then
    if case Ty [IL_BYTE; IL_UNSIGNED_BYTE] then Some [(0, cL c); (1, cA c); (0, cA c)]
    else if Ty =? IL_FLOAT then Some [(0, cL c); (0, cA c)]
    else Some [(0, cL c); (1, cA c)]
  else if Fmt =? IL_COLOUR_INDEX then Some [(0, cA c)]
  else None.

Fixpoint store (fenc denc : Z -> list Z) (Ty : Z) (ws : list (Z * Z)) (b : list Z) : res (list Z) :=
  match ws with
  | [] => Ok b
  | (i, a) :: ws =>
      match comp fenc denc Ty a with
      | None => Ok b
      | Some r => let! v := r in let! b := wre b (zlen v) i v in store fenc denc Ty ws b
      end
  end.

(** ilGetClear, il_devil.cpp:345-613, on the caller's buffer [b]; also the errors raised *)
Definition ilGetClear (fenc denc : Z -> list Z) (c : colour) (b : list Z) (Fmt Ty : Z) : res (list Z * list Z) :=
  if elsize Ty =? 0 then Ok (b, [IL_INTERNAL_ERROR])
  else match writes Fmt Ty c with
       | None => Ok (b, [IL_INTERNAL_ERROR])
       | Some ws => let! b := store fenc denc Ty ws b in Ok (b, [])
       end.

(** the bytes [v] stored at byte offset [off] *)
Definition wrs (l : list Z) (off : Z) (v : list Z) : res (list Z) :=
  if inb (zlen l) off (zlen v) then Ok (splice l off v) else UB.

(** ilClearImage_, il_devil.cpp:628-713.  [stk] is the uninitialised local array Colours (631).
    For byte types the colour is indexed by [c] itself (649), for others by [c / Bpc]; [Bpc] is 1 for
    byte types. *)
Definition ilClearImage_ (fenc denc : Z -> list Z) (alloc : allocator) (c : colour) (stk : list Z) (im : img)
  : res (callres bool) :=
  let NumBytes := u32 (Bpp im * Bpc im) in
  let! (Colours, errs) := ilGetClear fenc denc c stk (Format im) (Type_ im) in
  if negb (Format im =? IL_COLOUR_INDEX) then
    let n := elsize (Type_ im) in
    if n =? 0 then Ok (true, im, errs)
    else
      match Data im with
      | None => if SizeOfData im =? 0 then Ok (true, im, errs) else UB
      | Some d =>
          let! d := stride 0 NumBytes (Bpc im) (fun k d =>
            stride k (SizeOfData im) NumBytes (fun i d =>
              let! v := rde Colours n (if n =? 1 then k else k / Bpc im) in
              wrs d i v) d) d in
          Ok (true, with_Data im (Some d), errs)
      end
  else
    match Data im with
    | None => UB
    | Some d =>
        let! d := memset d 0 0 (SizeOfData im) in
        let im := with_Data im (Some d) in
        match alloc 4 with
        | None => Ok (false, with_Pal im (mkPal None (PalSize (Pal im)) (PalType (Pal im))), errs ++ [IL_OUT_OF_MEMORY])
        | Some _ =>
            let! c0 := rd Colours 0 in let! c1 := rd Colours 1 in
            let! c2 := rd Colours 2 in let! c3 := rd Colours 3 in
            Ok (true, with_Pal im (mkPal (Some [u8 (c0 * 255); u8 (c1 * 255); u8 (c2 * 255); u8 (c3 * 255)]) 4 IL_PAL_RGBA32), errs)
        end
    end.
