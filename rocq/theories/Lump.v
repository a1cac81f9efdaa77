(** Memory-lump input and output, and the fake writer behind ilDetermineSize
    (src-IL/src/il_files.cpp, src-IL/src/il_size.cpp).

    The global variables ReadLump/ReadLumpPos/ReadLumpSize, WriteLump/... and CurPos/MaxPos are
    record fields; the memory behind the lump pointer is a list of bytes, and any access outside
    it is [UB].  ilSetError is recorded by appending the code to [rerr]/[werr]; the 32-entry error
    stack itself is the subject of ErrorStack.v. *)
From Coq Require Import ZArith List Lia Bool.
From Verif Require Import Base Enums.
Import ListNotations.
Open Scope Z_scope.

Definition IL_SEEK_SET : Z := 0.   (* include/IL/il.h:497 *)
Definition IL_SEEK_CUR : Z := 1.   (* include/IL/il.h:498 *)
Definition IL_SEEK_END : Z := 2.   (* include/IL/il.h:499 *)
Definition IL_EOF : Z := -1.       (* include/IL/il.h:500 *)

(** C's abs on int; abs(INT_MIN) is undefined *)
Definition abs_int (x : Z) : res Z := if x =? -2147483648 then UB else Ok (Z.abs x).

(** ** Reading *)

(* il_files.cpp:39-41 ReadLump, ReadLumpPos, ReadLumpSize *)
Record reader := Rd { rlump : list Z; rpos : Z; rsize : Z; rerr : list Z }.

(* il_files.cpp:318-328 iSetInputLump; the size is the caller's claim about the memory.  Not
   modelled: the function pointers it installs. *)
Definition iSetInputLump (mem : list Z) (Size : Z) : reader := Rd mem 0 Size [].

(* il_files.cpp:425-430 iEofLump *)
Definition iEofLump (r : reader) : bool :=
  if rsize r =? 0 then false else rsize r <=? rpos r.

(* il_files.cpp:447-459 iGetcLump *)
Definition iGetcLump (r : reader) : res (Z * reader) :=
  if (0 <? rsize r) && (rsize r <? u32 (rpos r + 1)) then
    Ok (IL_EOF, Rd (rlump r) (u32 (rpos r - 1)) (rsize r) (rerr r ++ [IL_FILE_READ_ERROR]))
  else
    let! c := rd (rlump r) (rpos r) in
    Ok (c, Rd (rlump r) (u32 (rpos r + 1)) (rsize r) (rerr r)).

(* il_files.cpp:520-530: the copying loop of iReadLump from index [i], [n] iterations left; the
   flag says that the loop returned early *)
Fixpoint read_loop (n : nat) (i : Z) (r : reader) (Buffer : list Z) : res (list Z * Z * bool) :=
  match n with
  | O => Ok (Buffer, i, false)
  | S n' =>
      let! c := rd (rlump r) (rpos r + i) in
      let! Buffer := wr Buffer i c in
      if (0 <? rsize r) && (rsize r <? u32 (rpos r + i)) then Ok (Buffer, i, true)
      else read_loop n' (i + 1) r Buffer
  end.

(* il_files.cpp:516-538 iReadLump *)
Definition iReadLump (Buffer : list Z) (Size Number : Z) (r : reader) : res (Z * list Z * reader) :=
  let ByteSize := Z.min (u32 (Size * Number)) (u32 (rsize r - rpos r)) in
  let! (Buffer, i, early) := read_loop (Z.to_nat ByteSize) 0 r Buffer in
  let pos := u32 (rpos r + i) in
  let i := if early then i else if Size =? 0 then i else i / Size in
  let err := if i =? Number then [] else [IL_FILE_READ_ERROR] in
  Ok (i, Buffer, Rd (rlump r) pos (rsize r) (rerr r ++ err)).

(* il_files.cpp:613-642 iSeekRLump and :731-757 iSeekWLump have the same text; [pos] and [size]
   are the two globals.  Result: the return code and the new position. *)
Definition seek_lump (Offset Mode pos size : Z) : res (Z * Z) :=
  if Mode =? IL_SEEK_SET then
    if i32 size <? Offset then Ok (1, pos) else Ok (0, u32 Offset)
  else if Mode =? IL_SEEK_CUR then
    if size <? u32 (pos + Offset) then Ok (1, pos) else Ok (0, u32 (pos + Offset))
  else if Mode =? IL_SEEK_END then
    if 0 <? Offset then Ok (1, pos)
    else
      let! a := abs_int Offset in
      if i32 size <? a then Ok (1, pos) else Ok (0, u32 (size + Offset))
  else Ok (1, pos).

(* il_files.cpp:613-642 iSeekRLump *)
Definition iSeekRLump (Offset Mode : Z) (r : reader) : res (Z * reader) :=
  let! (c, p) := seek_lump Offset Mode (rpos r) (rsize r) in
  Ok (c, Rd (rlump r) p (rsize r) (rerr r)).

(* il_files.cpp:651-654 iTellRLump *)
Definition iTellRLump (r : reader) : Z := rpos r.

(** What a loader may do with its input; [ReadOp] carries the loader's own buffer. *)
Inductive rop :=
| GetcOp | ReadOp (Buffer : list Z) (Size Number : Z) | SeekOp (Offset Mode : Z) | EofOp | TellOp.
(** what the loader gets back: the returned integer and, for [ReadOp], the buffer afterwards *)
Definition rans := (Z * list Z)%type.

Definition rstep (o : rop) (r : reader) : res (rans * reader) :=
  match o with
  | GetcOp => let! (c, r) := iGetcLump r in Ok ((c, []), r)
  | ReadOp b s n => let! (c, b, r) := iReadLump b s n r in Ok ((c, b), r)
  | SeekOp off m => let! (c, r) := iSeekRLump off m r in Ok ((c, []), r)
  | EofOp => Ok ((if iEofLump r then 1 else 0, []), r)
  | TellOp => Ok ((iTellRLump r, []), r)
  end.

Fixpoint rrun (os : list rop) (r : reader) : res (list rans * reader) :=
  match os with
  | [] => Ok ([], r)
  | o :: os =>
      let! (a, r) := rstep o r in
      let! (l, r) := rrun os r in
      Ok (a :: l, r)
  end.

(** ** Writing *)

(* il_files.cpp:40-42 WriteLump, WriteLumpPos, WriteLumpSize *)
Record writer := Wr { wlump : list Z; wpos : Z; wsize : Z; werr : list Z }.

(* il_files.cpp:360-374 iSetOutputLump with a non-null lump *)
Definition iSetOutputLump (mem : list Z) (Size : Z) : writer := Wr mem 0 Size [].

(* il_files.cpp:678-684 iPutcLump *)
Definition iPutcLump (Char : Z) (w : writer) : res (Z * writer) :=
  if wsize w <=? wpos w then Ok (IL_EOF, w)
  else
    let! l := wr (wlump w) (wpos w) Char in
    Ok (Char, Wr l (u32 (wpos w + 1)) (wsize w) (werr w)).

(* il_files.cpp:699-718 iWriteLump: the loop from index [i], [n] iterations left *)
Fixpoint write_loop (n : nat) (i : Z) (Buffer : list Z) (w : writer) : res (Z * writer) :=
  match n with
  | O => Ok (i, Wr (wlump w) (u32 (wpos w + i)) (wsize w) (werr w))
  | S n' =>
      if (0 <? wsize w) && (wsize w <=? u32 (wpos w + i)) then
        Ok (i, Wr (wlump w) (u32 (wpos w + i)) (wsize w) (werr w ++ [IL_FILE_WRITE_ERROR]))
      else
        let! c := rd Buffer i in
        let! l := wr (wlump w) (wpos w + i) c in
        write_loop n' (i + 1) Buffer (Wr l (wpos w) (wsize w) (werr w))
  end.
(* il_files.cpp:699-718 iWriteLump; the ILint result is given as an unsigned number *)
Definition iWriteLump (Buffer : list Z) (Size Number : Z) (w : writer) : res (Z * writer) :=
  write_loop (Z.to_nat (u32 (Size * Number))) 0 Buffer w.

(* il_files.cpp:731-761 iSeekWLump *)
Definition iSeekWLump (Offset Mode : Z) (w : writer) : res (Z * writer) :=
  let! (c, p) := seek_lump Offset Mode (wpos w) (wsize w) in
  Ok (c, Wr (wlump w) p (wsize w) (werr w)).

(* il_files.cpp:377-382 ilGetLumpPos, 770-773 iTellWLump *)
Definition iTellWLump (w : writer) : Z := wpos w.

Inductive wop := PutcOp (Char : Z) | WriteOp (Buffer : list Z) (Size Number : Z) | SeekWOp (Offset Mode : Z) | TellWOp.

Definition wstep (o : wop) (w : writer) : res (Z * writer) :=
  match o with
  | PutcOp c => iPutcLump c w
  | WriteOp b s n => iWriteLump b s n w
  | SeekWOp off m => iSeekWLump off m w
  | TellWOp => Ok (iTellWLump w, w)
  end.
Fixpoint wrun (os : list wop) (w : writer) : res (list Z * writer) :=
  match os with
  | [] => Ok ([], w)
  | o :: os =>
      let! (a, w) := wstep o w in
      let! (l, w) := wrun os w in
      Ok (a :: l, w)
  end.

(** ** The fake writer *)

(* il_size.cpp:19-20 CurPos, MaxPos *)
Record sizer := Sz { cur : Z; maxp : Z; serr : list Z }.

Definition bump (s : sizer) : sizer := Sz (cur s) (if maxp s <? cur s then cur s else maxp s) (serr s).

(* il_size.cpp:24-50 iSizeSeek *)
Definition iSizeSeek (Offset Mode : Z) (s : sizer) : Z * sizer :=
  if Mode =? IL_SEEK_SET then (0, bump (bump (Sz (u32 Offset) (maxp s) (serr s))))
  else if Mode =? IL_SEEK_CUR then (0, bump (Sz (u32 (cur s + Offset)) (maxp s) (serr s)))
  else if Mode =? IL_SEEK_END then (0, bump (Sz (u32 (maxp s + Offset)) (maxp s) (serr s)))
  else (-1, Sz (cur s) (maxp s) (serr s ++ [IL_INTERNAL_ERROR])).

(* il_size.cpp:52-55 iSizeTell *)
Definition iSizeTell (s : sizer) : Z := cur s.

(* il_size.cpp:57-63 iSizePutc *)
Definition iSizePutc (Char : Z) (s : sizer) : Z * sizer :=
  (Char, bump (Sz (u32 (cur s + 1)) (maxp s) (serr s))).

(* il_size.cpp:65-71 iSizeWrite; the buffer is not looked at *)
Definition iSizeWrite (Size Number : Z) (s : sizer) : Z * sizer :=
  (Number, bump (Sz (u32 (cur s + u32 (Size * Number))) (maxp s) (serr s))).

(** ** Savers

    A saver is any terminating program over the four output functions, whose next action may
    depend on what iseekw, itellw and iputc returned.  It may not depend on the result of iwrite:
    that result differs between the three back ends (il_files.cpp:687-696 returns Number,
    :717 the byte count, il_size.cpp:70 Number). *)
Inductive saver :=
| Done
| Putc (Char : Z) (k : Z -> saver)
| Write (Buffer : list Z) (Size Number : Z) (k : saver)
| Seek (Offset Mode : Z) (k : Z -> saver)
| Tell (k : Z -> saver).

(* il_size.cpp:78-80,181 ilDetermineSize around a saver: MaxPos = CurPos = 0, run, return MaxPos *)
Fixpoint run_size (p : saver) (s : sizer) : sizer :=
  match p with
  | Done => s
  | Putc c k => let '(r, s) := iSizePutc c s in run_size (k r) s
  | Write b sz n k => let '(_, s) := iSizeWrite sz n s in run_size k s
  | Seek off m k => let '(r, s) := iSizeSeek off m s in run_size (k r) s
  | Tell k => run_size (k (iSizeTell s)) s
  end.
Definition determine_size (p : saver) : Z := maxp (run_size p (Sz 0 0 [])).

Fixpoint run_lump (p : saver) (w : writer) : res writer :=
  match p with
  | Done => Ok w
  | Putc c k => let! (r, w) := iPutcLump c w in run_lump (k r) w
  | Write b sz n k => let! (_, w) := iWriteLump b sz n w in run_lump k w
  | Seek off m k => let! (r, w) := iSeekWLump off m w in run_lump (k r) w
  | Tell k => run_lump (k (iTellWLump w)) w
  end.
(* ilSaveL on a lump of [Size] bytes, for the formats written by DevIL itself *)
Definition save_lump (p : saver) (mem : list Z) (Size : Z) : res writer := run_lump p (iSetOutputLump mem Size).
