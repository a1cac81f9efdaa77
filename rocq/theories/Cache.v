(** The read cache of file input (src-IL/src/il_files.cpp:434-606).

    The loader reads through igetc/iread/iseek/itell; between iPreCache and iUnCache the bytes come
    from a heap buffer.  The file itself is a list of bytes with a position (stdio semantics of
    fgetc, fread, fseek and ftell, through the default procs iDefaultGetc, iDefaultRead,
    iDefaultRSeek, iDefaultRTell, il_files.cpp:176-215).

    Simplifications: only the part of the cache buffer that was filled from the file is in the model
    ([cache]); reading the uninitialised rest is [UB].  ialloc does not fail. *)
From Coq Require Import ZArith List Lia Bool.
From Verif Require Import Base Enums Lump.
Import ListNotations.
Open Scope Z_scope.

Record freader := Fr {
  file : list Z; fpos : Z;      (* the FILE behind FileRead *)
  fstart : Z;                   (* il_files.cpp:41 ReadFileStart *)
  usecache : bool;              (* il_files.cpp:58-60 UseCache, Cache, CacheSize, CachePos, ... *)
  cache : list Z; csize : Z; cpos : Z; cstart : Z; cbytes : Z;
  ferr : list Z }.

(* fread: as many bytes as are left, the number of whole items *)
Definition fread (Buffer : list Z) (Size Number : Z) (r : freader) : res (Z * list Z * freader) :=
  let k := Z.max 0 (Z.min (Size * Number) (zlen (file r) - fpos r)) in
  let! b := memcpy Buffer 0 (file r) (fpos r) k in
  Ok (if Size =? 0 then 0 else k / Size, b,
      Fr (file r) (fpos r + k) (fstart r) (usecache r) (cache r) (csize r) (cpos r) (cstart r) (cbytes r) (ferr r)).

Definition raise (c : Z) (r : freader) : freader :=
  Fr (file r) (fpos r) (fstart r) (usecache r) (cache r) (csize r) (cpos r) (cstart r) (cbytes r) (ferr r ++ [c]).

(* il_files.cpp:305-314 iSetInputFile on a file at position [pos]; the cache variables keep their
   values, UseCache being false *)
Definition iSetInputFile (f : list Z) (pos : Z) : freader := Fr f pos pos false [] 0 0 0 0 [].

(* il_files.cpp:541-575 iPreCache for file input *)
Definition iPreCache (Size : Z) (r : freader) : freader :=
  let Size := if Size =? 0 then 1 else Size in
  let k := Z.max 0 (Z.min Size (zlen (file r) - fpos r)) in
  Fr (file r) (fpos r + k) (fstart r) true (slice (file r) (fpos r) k) Size 0 (fpos r) 0 (ferr r).

(* il_files.cpp:646-649 iTellRFile *)
Definition iTellRFile (r : freader) : Z := fpos r.

(* il_files.cpp:604-609 iSeekRFile with fseek: 0 on success, -1 for a negative target *)
Definition iSeekRFile (Offset Mode : Z) (r : freader) : Z * freader :=
  let Offset := if Mode =? IL_SEEK_SET then i32 (Offset + fstart r) else Offset in
  let t := if Mode =? IL_SEEK_SET then Offset
           else if Mode =? IL_SEEK_CUR then fpos r + Offset else zlen (file r) + Offset in
  if (0 <=? t) && ((Mode =? IL_SEEK_SET) || (Mode =? IL_SEEK_CUR) || (Mode =? IL_SEEK_END))
  then (0, Fr (file r) t (fstart r) (usecache r) (cache r) (csize r) (cpos r) (cstart r) (cbytes r) (ferr r))
  else (-1, r).

(* il_files.cpp:579-601 iUnCache *)
Definition iUnCache (r : freader) : freader :=
  if usecache r then
    let r := Fr (file r) (fpos r) (fstart r) false [] 0 0 (cstart r) (cbytes r) (ferr r) in
    snd (iSeekRFile (i32 (u32 (cstart r + cbytes r))) IL_SEEK_SET r)
  else r.

(* il_files.cpp:433-444 iGetcFile, :176-190 iDefaultGetc without cache *)
Definition iGetcFile (r : freader) : res (Z * freader) :=
  if usecache r then
    let r := if csize r <=? cpos r then iPreCache (csize r) r else r in
    let! c := rd (cache r) (cpos r) in
    Ok (c, Fr (file r) (fpos r) (fstart r) true (cache r) (csize r) (u32 (cpos r + 1)) (cstart r) (u32 (cbytes r + 1)) (ferr r))
  else if fpos r <? zlen (file r) then
    let! c := rd (file r) (fpos r) in
    Ok (c, Fr (file r) (fpos r + 1) (fstart r) false (cache r) (csize r) (cpos r) (cstart r) (cbytes r) (ferr r))
  else Ok (IL_EOF, raise IL_FILE_READ_ERROR r).

Definition set_cpos (r : freader) (p b : Z) : freader :=
  Fr (file r) (fpos r) (fstart r) (usecache r) (cache r) (csize r) p (cstart r) b (ferr r).

(* il_files.cpp:483-500: the refilling loop of iReadFile *)
Fixpoint fill_loop (fuel : nat) (Buffer : list Z) (BuffSize TotalBytes : Z) (r : freader) : res (list Z * Z * freader) :=
  if TotalBytes <? BuffSize then
    match fuel with
    | O => Fuel
    | S fuel =>
        let BytesCopied := if BuffSize <? u32 (TotalBytes + csize r - cpos r) then u32 (BuffSize - TotalBytes)
                           else u32 (csize r - cpos r) in
        let! b := memcpy Buffer TotalBytes (cache r) (cpos r) BytesCopied in
        let T := u32 (TotalBytes + BytesCopied) in
        let r := set_cpos r (u32 (cpos r + BytesCopied)) (cbytes r) in
        fill_loop fuel b BuffSize T (if T <? BuffSize then iPreCache (csize r) r else r)
    end
  else Ok (Buffer, TotalBytes, r).

(* il_files.cpp:462-512 iReadFile *)
Definition iReadFile (Buffer : list Z) (Size Number : Z) (r : freader) : res (Z * list Z * freader) :=
  let BuffSize := u32 (Size * Number) in
  if negb (usecache r) then
    let! (n, b, r) := fread Buffer Size Number r in
    Ok (n, b, if n =? Number then r else raise IL_FILE_READ_ERROR r)
  else if BuffSize <? u32 (csize r - cpos r) then
    let! b := memcpy Buffer 0 (cache r) (cpos r) BuffSize in
    Ok (if Size =? 0 then BuffSize else BuffSize / Size, b, set_cpos r (u32 (cpos r + BuffSize)) (u32 (cbytes r + BuffSize)))
  else
    let! (b, T, r) := fill_loop (Z.to_nat BuffSize + 2) Buffer BuffSize 0 r in
    let r := set_cpos r (cpos r) (cpos r) in
    let T := if Size =? 0 then T else T / Size in
    Ok (T, b, if T =? Number then r else raise IL_FILE_READ_ERROR r).

Inductive fop := FGetc | FRead (Buffer : list Z) (Size Number : Z) | FSeek (Offset Mode : Z) | FTell | FPre (Size : Z) | FUn.

Definition fstep (o : fop) (r : freader) : res (rans * freader) :=
  match o with
  | FGetc => let! (c, r) := iGetcFile r in Ok ((c, []), r)
  | FRead b s n => let! (c, b, r) := iReadFile b s n r in Ok ((c, b), r)
  | FSeek off m => let (c, r) := iSeekRFile off m r in Ok ((c, []), r)
  | FTell => Ok ((iTellRFile r, []), r)
  | FPre n => Ok ((1, []), iPreCache n r)
  | FUn => Ok ((0, []), iUnCache r)
  end.
Fixpoint frun (os : list fop) (r : freader) : res (list rans * freader) :=
  match os with
  | [] => Ok ([], r)
  | o :: os =>
      let! (a, r) := fstep o r in
      let! (l, r) := frun os r in
      Ok (a :: l, r)
  end.
