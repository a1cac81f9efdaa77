(** Property theorems C01, C02 (error delivery). *)
From Coq Require Import ZArith List Lia.
From Verif Require Import Base Enums ErrorStack ErrorStackSpec ErrorStackProofs.
Import ListNotations.
Open Scope Z_scope.

(** C01: with at most 32 errors outstanding at any time, every history delivers errors
    exactly as an unbounded LIFO stack would (0 = IL_NO_ERROR when empty). *)
Theorem C01_errors_lifo : forall h : list eop,
  never_over_32 h 0 ->
  exists s, erun h est_init = Ok (fst (spec_run push_unbounded h []), s).
Proof.
  intros h H. destruct (erun_actual h est_init [] rep_init) as [s [E _]].
  exists s. rewrite E. rewrite never_over_same by exact H. reflexivity.
Qed.
Print Assumptions C01_errors_lifo.

Example C01_hyp_met :
  let h := [Raise 5; Get; Raise 7; Raise 8; Get; Get; Get] ++ repeat (Raise 3) 32 in
  never_over_32 h 0 /\ fst (spec_run push_unbounded h []) = [5; 8; 7; 0].
Proof. cbn. repeat split; lia. Qed.

(** C02a: no history whatsoever accesses memory outside the 32 slots; errors are delivered
    exactly as the policy [push_actual] says. *)
Theorem C02_actual_policy_partial : forall h : list eop,
  exists s, erun h est_init = Ok (fst (spec_run push_actual h []), s).
Proof.
  intros h. destruct (erun_actual h est_init [] rep_init) as [s [E _]]. eauto.
Qed.
Print Assumptions C02_actual_policy_partial.

(** C02b: after any history, the error raised last is the one delivered next. *)
Theorem C02_newest_first : forall (h : list eop) (e : Z),
  exists s vs, erun (h ++ [Raise e; Get]) est_init = Ok (vs ++ [e], s).
Proof.
  intros h e. destruct (erun_actual (h ++ [Raise e; Get]) est_init [] rep_init) as [s [E _]].
  rewrite spec_run_app in E. destruct (spec_run push_actual h []) as [v1 p1].
  cbn [spec_run fst] in E. rewrite push_actual_hd in E. exists s, v1. exact E.
Qed.
Print Assumptions C02_newest_first.

(** C02c: at most 32 errors are ever outstanding: after any history, 32 calls of
    [ilGetError] drain them and the next call returns IL_NO_ERROR. *)
Theorem C02_drained_after_32 : forall h : list eop,
  exists s vs, erun (h ++ repeat Get 32 ++ [Get]) est_init = Ok (vs ++ [IL_NO_ERROR], s).
Proof.
  intros h. destruct (erun_actual (h ++ repeat Get 32 ++ [Get]) est_init [] rep_init) as [s [E _]].
  rewrite spec_run_app in E.
  assert (Hl := spec_run_len h [] ltac:(cbn; lia)).
  destruct (spec_run push_actual h []) as [v1 p1]. cbn [snd] in Hl.
  rewrite spec_run_app in E. assert (Hd := drain 32 p1 Hl).
  destruct (spec_run push_actual (repeat Get 32) p1) as [v2 p2]. cbn [snd] in Hd. subst p2.
  cbn [spec_run fst tl hd] in E. exists s, (v1 ++ v2).
  rewrite E. rewrite app_assoc. reflexivity.
Qed.
Print Assumptions C02_drained_after_32.

(** C02, refuted part: the code does NOT implement "drop only the oldest error": after 33
    raises the second error returned is not the second most recent one. *)
Theorem C02_drop_oldest_refuted : exists h : list eop,
  forall s, erun h est_init <> Ok (fst (spec_run push_drop_oldest h []), s).
Proof.
  exists (map Raise (map Z.of_nat (seq 1 33)) ++ [Get; Get]).
  intros s H. vm_compute in H. inversion H.
Qed.
Print Assumptions C02_drop_oldest_refuted.
