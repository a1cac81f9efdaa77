(** Model of src-IL/src/il_utility.cpp. *)
From Coq Require Import ZArith List Bool.
From Verif Require Import Base Enums.
Import ListNotations.
Open Scope Z_scope.

(** [x] is one of the case labels [l] of a C switch *)
Definition case (x : Z) (l : list Z) : bool := existsb (Z.eqb x) l.

(** src-IL/src/il_utility.cpp:18-36 *)
Definition ilGetBppFormat (Format : Z) : Z :=
  if case Format [IL_COLOUR_INDEX; IL_LUMINANCE; IL_ALPHA] then 1
  else if case Format [IL_LUMINANCE_ALPHA] then 2
  else if case Format [IL_RGB; IL_BGR] then 3
  else if case Format [IL_RGBA; IL_BGRA] then 4
  else 0.

(** src-IL/src/il_utility.cpp:40-54 *)
Definition ilGetFormatBpp (Bpp : Z) : Z :=
  if case Bpp [1] then IL_LUMINANCE
  else if case Bpp [2] then IL_LUMINANCE_ALPHA
  else if case Bpp [3] then IL_RGB
  else if case Bpp [4] then IL_RGBA
  else 0.

(** src-IL/src/il_utility.cpp:58-77 *)
Definition ilGetBpcType (Type_ : Z) : Z :=
  if case Type_ [IL_BYTE; IL_UNSIGNED_BYTE] then 1
  else if case Type_ [IL_SHORT; IL_UNSIGNED_SHORT; IL_HALF] then 2
  else if case Type_ [IL_INT; IL_UNSIGNED_INT; IL_FLOAT] then 4
  else if case Type_ [IL_DOUBLE] then 8
  else 0.

(** src-IL/src/il_utility.cpp:81-95 *)
Definition ilGetTypeBpc (Bpc : Z) : Z :=
  if case Bpc [1] then IL_UNSIGNED_BYTE
  else if case Bpc [2] then IL_UNSIGNED_SHORT
  else if case Bpc [4] then IL_UNSIGNED_INT
  else if case Bpc [8] then IL_DOUBLE
  else 0.

(** src-IL/src/il_utility.cpp:99-113 *)
Definition ilGetBppPal (PalType : Z) : Z :=
  if case PalType [IL_PAL_RGB24; IL_PAL_BGR24] then 3
  else if case PalType [IL_PAL_RGB32; IL_PAL_RGBA32; IL_PAL_BGR32; IL_PAL_BGRA32] then 4
  else 0.

(** src-IL/src/il_utility.cpp:116-135 *)
Definition ilGetPalBaseType (PalType : Z) : Z :=
  if case PalType [IL_PAL_RGB24] then IL_RGB
  else if case PalType [IL_PAL_RGB32; IL_PAL_RGBA32] then IL_RGBA
  else if case PalType [IL_PAL_BGR24] then IL_BGR
  else if case PalType [IL_PAL_BGR32; IL_PAL_BGRA32] then IL_BGRA
  else 0.

(** src-IL/src/il_utility.cpp:139-146; [power <<= 1] wraps modulo 2^32. *)
Fixpoint np2_loop (fuel : nat) (power n : Z) : res Z :=
  if power <? n then
    match fuel with
    | O => Fuel
    | S fuel' => np2_loop fuel' (u32 (Z.shiftl power 1)) n
    end
  else Ok power.
Definition ilNextPower2 (fuel : nat) (n : Z) : res Z := np2_loop fuel 1 n.

(** memcpy inside one buffer; overlapping ranges are undefined behaviour *)
Definition memcpy_self (b : list Z) (doff soff n : Z) : res (list Z) :=
  if (n =? 0) || (doff + n <=? soff) || (soff + n <=? doff)
  then memcpy b doff b soff n else UB.

(** One exchange of [n] bytes through the temporary block,
    src-IL/src/il_utility.cpp:157-159 and 165-167.  The temporary block has
    [block_size] bytes with contents [blk]. *)
Definition swap_step (n : Z) (o1 o2 : Z) (st : list Z * list Z) : res (list Z * list Z) :=
  let '(b, blk) := st in
  let! blk := memcpy blk 0 b o1 n in
  let! b := memcpy_self b o1 o2 n in
  let! b := memcpy b o2 blk 0 n in
  Ok (b, blk).

(** src-IL/src/il_utility.cpp:148-171 [iMemSwap].  Both pointers point into the buffer
    [b] (its only use: two scanlines of an image), at offsets [o1], [o2].
    [blk] is the content of the freshly allocated temporary block, [None] when the
    allocation failed, in which case nothing is swapped.  The final [ifree(block)] has no
    effect on [b]. *)
Definition iMemSwap (blk : option (list Z)) (b : list Z) (o1 o2 size : Z) : res (list Z) :=
  let block_size := 4096 in
  let blocks := size / block_size in
  match blk with
  | None => Ok b
  | Some blk =>
      let! (b, blk) := loop 0 blocks
        (fun i st => swap_step block_size (o1 + i * block_size) (o2 + i * block_size) st) (b, blk) in
      let rest := u32 (size - blocks * block_size) in
      if 0 <? rest then
        let! (b, _) := swap_step rest (o1 + blocks * block_size) (o2 + blocks * block_size) (b, blk) in
        Ok b
      else Ok b
  end.
