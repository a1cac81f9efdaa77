(** Specification of error delivery, independent of the implementation.
    [pend] is the list of outstanding errors, most recent first. *)
From Coq Require Import ZArith List.
From Verif Require Import ErrorStack.
Import ListNotations.
Open Scope Z_scope.

(** What [ilGetError] must return, given a policy [push] for raising an error:
    the most recent outstanding error, 0 (IL_NO_ERROR) if there is none. *)
Fixpoint spec_run (push : Z -> list Z -> list Z) (h : list eop) (pend : list Z)
  : list Z * list Z :=
  match h with
  | [] => ([], pend)
  | Raise e :: h' => spec_run push h' (push e pend)
  | Get :: h' =>
      let '(vs, p) := spec_run push h' (tl pend) in (hd 0 pend :: vs, p)
  end.

(** Unbounded stack: nothing is ever lost. *)
Definition push_unbounded (e : Z) (pend : list Z) : list Z := e :: pend.

(** Documented policy: at most 32 outstanding errors, the oldest is dropped. *)
Definition push_drop_oldest (e : Z) (pend : list Z) : list Z := firstn 32 (e :: pend).

(** What the code really does when 32 errors are outstanding: besides the oldest it
    loses the most recent outstanding error, and keeps the one before it twice. *)
Definition push_actual (e : Z) (pend : list Z) : list Z :=
  if (length pend <? 32)%nat then e :: pend
  else e :: nth 1 pend 0 :: firstn 30 (tl pend).

(** Outstanding errors never exceed 32 along the history *)
Fixpoint never_over_32 (h : list eop) (outstanding : nat) : Prop :=
  match h with
  | [] => True
  | Raise _ :: h' => (outstanding < 32)%nat /\ never_over_32 h' (S outstanding)
  | Get :: h' => never_over_32 h' (pred outstanding)
  end.
