(** The raw format (src-IL/src/il_raw.cpp). *)
From Coq Require Import ZArith List Lia Bool.
From Verif Require Import Base Enums Utility Image Lump Channels Endian.
Import ListNotations.
Open Scope Z_scope.

(** iSaveRawInternal, il_raw.cpp:170-186 *)
Definition iSaveRawInternal (im : img) (buf : list Z) : saver :=
  SaveLittleUInt (Width im) (SaveLittleUInt (Height im) (SaveLittleUInt (Depth im)
    (Putc (Bpp im) (fun _ => Putc (Bpc im) (fun _ => Write buf 1 (SizeOfData im) Done))))).

(** the end of iLoadRawInternal, il_raw.cpp:102-115 *)
Definition raw_finish (origin : option Z) (im : img) : img :=
  let im := with_Origin im (match origin with Some o => o | None => IL_ORIGIN_UPPER_LEFT end) in
  with_Format im (if Bpp im =? 1 then IL_LUMINANCE else if Bpp im =? 3 then IL_RGB else IL_RGBA).

(** iLoadRawInternal, il_raw.cpp:71-118, from memory.  [old] is the current image, [s1 s2 s3] the
    locals of the three GetLittleUInt calls.  [origin]: the mode if IL_ORIGIN_SET is enabled (102-107).
    Simplified: freeing the old contents of the image in ilTexImage is the subject of Stack.v; the
    final ilFixImage is the identity, as it is when IL_TYPE_SET and IL_FORMAT_SET are disabled (the
    origin was just set to the mode). *)
Definition iLoadRawInternal (alloc : allocator) (origin : option Z) (old : img) (s1 s2 s3 : list Z) (r : reader)
  : res (bool * img * reader) :=
  let! (W, r) := GetLittleUInt s1 r in
  let! (H, r) := GetLittleUInt s2 r in
  let! (D, r) := GetLittleUInt s3 r in
  let! (c, r) := iGetcLump r in
  let bpp := u8 c in
  let! (n, b, r) := iReadLump [Bpc old] 1 1 r in
  if negb (n =? 1) then Ok (false, old, r)
  else
    let! (ok, im, _) := ilInitImage alloc old W H D bpp 0 (ilGetTypeBpc (geti b 0)) None in
    if negb ok then Ok (false, im, r)
    else match Data im with
         | None => UB
         | Some d =>
             let! (n, d, r) := iReadLump d 1 (SizeOfData im) r in
             let im := with_Data im (Some d) in
             if n <? SizeOfData im then Ok (false, im, r)
             else Ok (true, raw_finish origin im, r)
         end.

(** ilSaveRawL / ilLoadRawL, il_raw.cpp:61-65, 158-166, with a lump that has the right size *)
Definition ilLoadRawL (alloc : allocator) (origin : option Z) (old : img) (s1 s2 s3 : list Z) (Lump : list Z) : res (bool * img * reader) :=
  iLoadRawInternal alloc origin old s1 s2 s3 (iSetInputLump Lump (zlen Lump)).
