(** What reading from a byte string, and writing a file, mean.  Independent of Lump.v except for the
    syntax of savers and the seek-mode constants. *)
From Coq Require Import ZArith List Bool.
From Verif Require Import Base Lump.
Import ListNotations.
Open Scope Z_scope.

(** The bytes of [l] from position [p], at most [n] of them *)
Definition rest (l : list Z) (p n : Z) : list Z := firstn (Z.to_nat n) (skipn (Z.to_nat p) l).

(** A file while it is being written: contents and position.  Writing [new] at [pos] inside the file
    or at its end: overwrite, then extend. *)
Definition overwrite (f : list Z) (pos : Z) (new : list Z) : list Z :=
  firstn (Z.to_nat pos) f ++ new ++ skipn (Z.to_nat pos + length new) f.

(** Running a saver against a file.  [None]: the saver moved outside the bytes written so far, used
    an unknown seek mode, passed a buffer shorter than it claimed, or made the file too large for
    the [int] offsets of iseekw. *)
Fixpoint run_file (p : saver) (f : list Z) (pos : Z) : option (list Z) :=
  match p with
  | Done => Some f
  | Putc c k => if zlen f <? 2147483647 then run_file (k c) (overwrite f pos [c]) (pos + 1) else None
  | Write b sz n k =>
      if (0 <=? sz) && (0 <=? n) && (sz * n <=? zlen b) && (pos + sz * n <? 2147483648)
      then run_file k (overwrite f pos (rest b 0 (sz * n))) (pos + sz * n) else None
  | Seek off m k =>
      let target := if m =? 0 then Some off else if m =? 1 then Some (pos + off)
                    else if m =? 2 then Some (zlen f + off) else None in
      match target with
      | Some t => if (0 <=? t) && (t <=? zlen f) && (-2147483648 <? off) && (off <=? 2147483647)
                  then run_file (k 0) f t else None
      | None => None
      end
  | Tell k => run_file (k pos) f pos
  end.
Definition file_of (p : saver) : option (list Z) := run_file p [] 0.

(** The saver never seeks relative to the end *)
Inductive no_end : saver -> Prop :=
| ne_done : no_end Done
| ne_putc : forall c k, (forall r, no_end (k r)) -> no_end (Putc c k)
| ne_write : forall b s n k, no_end k -> no_end (Write b s n k)
| ne_seek : forall off m k, m <> 2 -> (forall r, no_end (k r)) -> no_end (Seek off m k)
| ne_tell : forall k, (forall r, no_end (k r)) -> no_end (Tell k).
