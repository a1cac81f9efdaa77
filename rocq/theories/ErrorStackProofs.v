From Coq Require Import ZArith List Lia Bool.
From Verif Require Import Base Enums ErrorStack ErrorStackSpec.
Import ListNotations.
Open Scope Z_scope.

(** Representation: slot [place - k] holds the k-th most recent outstanding error. *)
Definition rep (s : est) (pend : list Z) : Prop :=
  zlen (e_num s) = 32 /\ zlen pend = e_place s + 1 /\ zlen pend <= 32 /\
  forall k, 0 <= k < zlen pend -> geti pend k = geti (e_num s) (e_place s - k).

Lemma rep_init : rep est_init [].
Proof. unfold rep. cbn. repeat split; try reflexivity; try lia. Qed.

Lemma geti_cons : forall a l k, 0 <= k -> geti (a :: l) k = if k =? 0 then a else geti l (k - 1).
Proof.
  intros a l k H. unfold geti. destruct (k =? 0) eqn:E.
  - replace k with 0 by lia. reflexivity.
  - replace (Z.to_nat k) with (S (Z.to_nat (k - 1))) by lia. reflexivity.
Qed.

Lemma geti_tl : forall l k, 0 <= k -> geti (tl l) k = geti l (k + 1).
Proof.
  intros [|a l] k H; cbn [tl].
  - unfold geti. destruct (Z.to_nat k), (Z.to_nat (k+1)); reflexivity.
  - rewrite geti_cons by lia. destruct (k + 1 =? 0) eqn:E; [lia|]. f_equal; lia.
Qed.

Lemma shift_loop : forall a, zlen a = 32 ->
  exists r, loop 0 (IL_ERROR_STACK_SIZE - 2) (fun i a => let! v := rd a (i + 1) in wr a i v) a = Ok r
   /\ zlen r = 32 /\ forall j, 0 <= j < 32 -> geti r j = if j <? 30 then geti a (j + 1) else geti a j.
Proof.
  intros a Ha. unfold IL_ERROR_STACK_SIZE.
  destruct (loop_rule _ (fun i r => zlen r = 32 /\ forall j, 0 <= j < 32 ->
      geti r j = if j <? i then geti a (j + 1) else geti a j)
      0 (32 - 2) (fun i a => let! v := rd a (i + 1) in wr a i v) a) as [r [E [H1 H2]]].
  - lia.
  - split; auto. intros j Hj. replace (j <? 0) with false by lia. reflexivity.
  - intros k st Hk [Hl Hst]. rewrite rd_ok by lia. cbn [bind]. rewrite wr_ok by lia.
    eexists; split; [reflexivity|]. split.
    + rewrite zlen_upd; lia.
    + intros j Hj. rewrite geti_upd by lia. destruct (j =? k) eqn:Ejk.
      * replace j with k by lia. replace (k <? k + 1) with true by lia.
        rewrite Hst by lia. replace (k + 1 <? k) with false by lia. reflexivity.
      * rewrite Hst by lia. destruct (j <? k) eqn:E1; destruct (j <? k + 1) eqn:E2; try reflexivity; lia.
  - exists r. auto.
Qed.

Lemma zlen_firstn : forall (l : list Z) n, (n <= length l)%nat -> zlen (firstn n l) = Z.of_nat n.
Proof. intros. unfold zlen. rewrite firstn_length. lia. Qed.

Lemma geti_firstn : forall (l : list Z) n k, 0 <= k < Z.of_nat n -> geti (firstn n l) k = geti l k.
Proof. intros. unfold geti. apply nth_firstn_. lia. Qed.

Lemma setError_actual : forall s pend e, rep s pend ->
  exists s', ilSetError e s = Ok s' /\ rep s' (push_actual e pend).
Proof.
  intros s pend e (H1 & H2 & H3 & H4). unfold ilSetError, push_actual.
  assert (Hp := zlen_nonneg _ pend).
  destruct (IL_ERROR_STACK_SIZE <=? e_place s + 1) eqn:E; unfold IL_ERROR_STACK_SIZE in E.
  - destruct (shift_loop (e_num s) H1) as [r [Er [Hr1 Hr2]]]. rewrite Er. cbn [bind e_num e_place].
    unfold IL_ERROR_STACK_SIZE. rewrite wr_ok by lia. cbn [bind].
    eexists; split; [reflexivity|].
    assert (Hlen : length pend = 32%nat) by (unfold zlen in *; lia).
    rewrite Hlen. cbn [Nat.ltb Nat.leb].
    assert (Htl : length (tl pend) = 31%nat) by (destruct pend; cbn in *; lia).
    unfold rep. cbn [e_num e_place].
    rewrite !zlen_cons, zlen_firstn by lia. rewrite zlen_upd by lia.
    repeat split; try lia.
    intros k Hk. rewrite geti_upd by lia. rewrite geti_cons by lia.
    destruct (k =? 0) eqn:Ek.
    + replace (32 - 1 - k =? 32 - 1) with true by lia. reflexivity.
    + replace (32 - 1 - k =? 32 - 1) with false by lia.
      rewrite Hr2 by lia. rewrite geti_cons by lia.
      destruct (k - 1 =? 0) eqn:Ek1.
      * replace (32 - 1 - k <? 30) with false by lia.
        replace (nth 1 pend 0) with (geti pend 1) by reflexivity.
        rewrite H4 by lia. f_equal; lia.
      * replace (32 - 1 - k <? 30) with true by lia.
        rewrite geti_firstn by lia. rewrite geti_tl by lia.
        rewrite H4 by lia. f_equal; lia.
  - cbn [bind e_num e_place]. rewrite wr_ok by lia. cbn [bind].
    eexists; split; [reflexivity|].
    assert (Hlen : (length pend < 32)%nat) by (unfold zlen in *; lia).
    apply Nat.ltb_lt in Hlen. rewrite Hlen.
    unfold rep; cbn [e_num e_place]. rewrite zlen_cons, zlen_upd by lia. repeat split; try lia.
    intros k Hk. rewrite geti_upd by lia. rewrite geti_cons by lia.
    destruct (k =? 0) eqn:Ek.
    + replace (e_place s + 1 - k =? e_place s + 1) with true by lia. reflexivity.
    + replace (e_place s + 1 - k =? e_place s + 1) with false by lia.
      rewrite H4 by lia. f_equal; lia.
Qed.

Lemma getError_spec : forall s pend, rep s pend ->
  exists s', ilGetError s = Ok (hd 0 pend, s') /\ rep s' (tl pend).
Proof.
  intros s pend (H1 & H2 & H3 & H4). unfold ilGetError.
  destruct (0 <=? e_place s) eqn:E.
  - rewrite rd_ok by lia. cbn [bind]. eexists. split.
    + f_equal. f_equal. specialize (H4 0). replace (e_place s - 0) with (e_place s) in H4 by lia.
      rewrite <- H4 by lia. destruct pend; reflexivity.
    + destruct pend as [|p pend]; [rewrite zlen_nil in *; lia|]. rewrite zlen_cons in *.
      unfold rep; cbn [e_num e_place tl]. repeat split; try lia.
      intros k Hk. specialize (H4 (k + 1)). rewrite geti_cons in H4 by lia.
      replace (k + 1 =? 0) with false in H4 by lia.
      replace (k + 1 - 1) with k in H4 by lia. rewrite H4 by lia. f_equal; lia.
  - destruct pend as [|p pend]; [|rewrite zlen_cons in *; assert (Hz := zlen_nonneg _ pend); lia].
    exists s. split; [reflexivity|]. unfold rep; cbn [tl]. repeat split; auto.
Qed.

Lemma erun_actual : forall h s pend, rep s pend ->
  exists s', erun h s = Ok (fst (spec_run push_actual h pend), s') /\
             rep s' (snd (spec_run push_actual h pend)).
Proof.
  induction h as [|[e|] h IH]; intros s pend H; cbn [erun spec_run].
  - exists s. auto.
  - destruct (setError_actual s pend e H) as [s1 [E1 R1]]. rewrite E1. cbn [bind]. apply IH; auto.
  - destruct (getError_spec s pend H) as [s1 [E1 R1]]. rewrite E1. cbn [bind].
    destruct (IH s1 (tl pend) R1) as [s2 [E2 R2]]. rewrite E2. cbn [bind].
    destruct (spec_run push_actual h (tl pend)) as [vs p]. cbn [fst snd] in *.
    exists s2. auto.
Qed.

Lemma never_over_same : forall h pend, never_over_32 h (length pend) ->
  spec_run push_actual h pend = spec_run push_unbounded h pend.
Proof.
  induction h as [|[e|] h IH]; intros pend H; cbn [spec_run never_over_32] in *; auto.
  - destruct H as [H1 H2]. unfold push_actual at 2, push_unbounded at 2.
    apply Nat.ltb_lt in H1. rewrite H1. apply IH. exact H2.
  - rewrite IH; auto. replace (length (tl pend)) with (pred (length pend)); auto. destruct pend; reflexivity.
Qed.

Lemma spec_run_app : forall push h1 h2 pend,
  spec_run push (h1 ++ h2) pend =
  let '(v1, p1) := spec_run push h1 pend in
  let '(v2, p2) := spec_run push h2 p1 in (v1 ++ v2, p2).
Proof.
  intros push h1 h2. induction h1 as [|[e|] h1 IH]; intros pend; cbn [app spec_run].
  - destruct (spec_run push h2 pend); reflexivity.
  - apply IH.
  - rewrite IH. destruct (spec_run push h1 (tl pend)). destruct (spec_run push h2 l0). reflexivity.
Qed.

Lemma push_actual_len : forall e pend, (length pend <= 32)%nat ->
  (1 <= length (push_actual e pend) <= 32)%nat.
Proof.
  intros e pend H. unfold push_actual. destruct (length pend <? 32)%nat eqn:E.
  - apply Nat.ltb_lt in E. cbn [length]. lia.
  - apply Nat.ltb_ge in E. cbn [length]. rewrite firstn_length. destruct pend; cbn [length tl] in *; lia.
Qed.

Lemma push_actual_hd : forall e pend, hd 0 (push_actual e pend) = e.
Proof. intros. unfold push_actual. destruct (length pend <? 32)%nat; reflexivity. Qed.

Lemma spec_run_len : forall h pend, (length pend <= 32)%nat ->
  (length (snd (spec_run push_actual h pend)) <= 32)%nat.
Proof.
  induction h as [|[e|] h IH]; intros pend H; cbn [spec_run]; auto.
  - apply IH. apply push_actual_len; auto.
  - specialize (IH (tl pend)). destruct (spec_run push_actual h (tl pend)). cbn [snd] in *.
    apply IH. destruct pend; cbn [tl length] in *; lia.
Qed.

Lemma drain : forall n pend, (length pend <= n)%nat ->
  snd (spec_run push_actual (repeat Get n) pend) = [].
Proof.
  induction n as [|n IH]; intros pend H; cbn [repeat spec_run].
  - destruct pend; cbn in *; auto; lia.
  - specialize (IH (tl pend)). destruct (spec_run push_actual (repeat Get n) (tl pend)).
    cbn [snd] in *. apply IH. destruct pend; cbn [tl length] in *; lia.
Qed.
