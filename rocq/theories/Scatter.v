(** Composition of buffer writes: [step W d d'] says that [d'] is [d] with byte [j] replaced by
    [v] wherever [W j v], and nothing else changed.  Proof infrastructure, models no code. *)
From Coq Require Import ZArith List Lia Bool.
From Verif Require Import Base.
Import ListNotations.
Open Scope Z_scope.

Definition step (W : Z -> Z -> Prop) (d d' : list Z) : Prop :=
  zlen d' = zlen d /\
  (forall j v, W j v -> geti d' j = v) /\
  (forall j, 0 <= j -> (forall v, ~ W j v) -> geti d' j = geti d j).

Lemma step_wr : forall d i v, 0 <= i < zlen d ->
  exists d', wr d i v = Ok d' /\ step (fun j w => j = i /\ w = v) d d'.
Proof.
  intros d i v Hi. rewrite wr_ok by lia. eexists; split; [reflexivity|].
  split; [apply zlen_upd; lia|]. split.
  - intros j w [-> ->]. rewrite geti_upd by lia. rewrite Z.eqb_refl. reflexivity.
  - intros j Hj Hn. rewrite geti_upd by lia. destruct (j =? i) eqn:E; auto.
    exfalso. apply (Hn v). split; auto. lia.
Qed.

Lemma step_copy : forall src d i s, 0 <= i < zlen d -> 0 <= s < zlen src ->
  exists d', (let! v := rd src s in wr d i v) = Ok d' /\
    step (fun j w => j = i /\ w = geti src s) d d'.
Proof.
  intros src d i s Hi Hs. rewrite rd_ok by lia. cbn [bind]. apply step_wr; auto.
Qed.

Lemma step_memcpy : forall src d i s n, 0 <= i -> 0 <= s -> 0 <= n -> i + n <= zlen d -> s + n <= zlen src ->
  exists d', memcpy d i src s n = Ok d' /\
    step (fun j w => exists k, 0 <= k < n /\ j = i + k /\ w = geti src (s + k)) d d'.
Proof.
  intros src d i s n Hi Hs Hn Hid Hsd.
  destruct (memcpy_spec d i src s n) as [r [E [L A]]]; try lia.
  exists r. split; auto. split; auto. split.
  - intros j v (k & Hk & -> & ->). rewrite A by lia.
    replace ((i <=? i + k) && (i + k <? i + n)) with true by lia. f_equal. lia.
  - intros j Hj Hno. rewrite A by lia.
    destruct ((i <=? j) && (j <? i + n)) eqn:E2; auto.
    exfalso. apply (Hno (geti src (s + (j - i)))). exists (j - i). repeat split; lia.
Qed.

Lemma step_id : forall (W : Z -> Z -> Prop) d, (forall j v, ~ W j v) -> step W d d.
Proof. intros W d H. split; auto. split; auto. intros j v HW. destruct (H j v HW). Qed.

Lemma step_ext : forall (W W' : Z -> Z -> Prop) d d',
  step W d d' -> (forall j v, W j v <-> W' j v) -> step W' d d'.
Proof.
  intros W W' d d' (H1 & H2 & H3) E. split; auto. split.
  - intros j v Hw. apply H2, E, Hw.
  - intros j Hj Hn. apply H3; auto. intros v Hw. apply (Hn v), E, Hw.
Qed.

(** sequential composition of writes to disjoint places *)
Lemma step_seq : forall (W1 W2 : Z -> Z -> Prop) d d1 d2,
  step W1 d d1 -> step W2 d1 d2 ->
  (forall j v v', W1 j v -> W2 j v' -> False) ->
  (forall j v, W1 j v -> 0 <= j) ->
  step (fun j v => W1 j v \/ W2 j v) d d2.
Proof.
  intros W1 W2 d d1 d2 (A1 & A2 & A3) (B1 & B2 & B3) Hd Hpos. split; [lia|]. split.
  - intros j v [H|H]; [|apply B2; auto]. rewrite B3; [apply A2; auto|eapply Hpos; eauto|].
    intros v' H'. eapply Hd; eauto.
  - intros j Hj Hn. rewrite B3; [apply A3; auto; intros v Hv; apply (Hn v); auto|auto|].
    intros v Hv. apply (Hn v). auto.
Qed.

(** a loop whose iterations write to pairwise disjoint places *)
Lemma step_loop : forall (W : Z -> Z -> Z -> Prop) N body lo hi d0,
  zlen d0 = N ->
  (forall k d, lo <= k < hi -> zlen d = N -> exists d', body k d = Ok d' /\ step (W k) d d') ->
  (forall k k' j v v', lo <= k < hi -> lo <= k' < hi -> W k j v -> W k' j v' -> k = k') ->
  (forall k j v, lo <= k < hi -> W k j v -> 0 <= j) ->
  exists d', loop lo hi body d0 = Ok d' /\ step (fun j v => exists k, lo <= k < hi /\ W k j v) d0 d'.
Proof.
  intros W N body lo hi d0 HN Hb Hdis Hpos.
  destruct (Z.lt_ge_cases hi lo) as [Hlt|Hle].
  { unfold loop. replace (Z.to_nat (hi - lo)) with 0%nat by lia. exists d0. split; auto.
    apply step_id. intros j v (k & Hk & _). lia. }
  destruct (loop_rule _ (fun m d => step (fun j v => exists k, lo <= k < m /\ W k j v) d0 d) lo hi body d0)
    as [d' [E H]]; auto.
  - apply step_id. intros j v (k & Hk & _). lia.
  - intros m d Hm H. destruct (Hb m d) as [d' [E' H']]; auto.
    { destruct H as [H _]. lia. }
    exists d'. split; auto.
    eapply step_ext.
    + apply (step_seq (fun j v => exists k, lo <= k < m /\ W k j v) (W m) d0 d d'); auto.
      * intros j v v' (k & Hk & Hw) Hw'. assert (k = m) by (eapply (Hdis k m); eauto; lia). lia.
      * intros j v (k & Hk & Hw). eapply (Hpos k); eauto; lia.
    + intros j v; split.
      * intros [(k & Hk & Hw)|Hw]; [exists k; split; auto; lia|exists m; split; auto; lia].
      * intros (k & Hk & Hw). destruct (Z.eq_dec k m); [subst; auto|left; exists k; split; auto; lia].
  - exists d'. split; auto.
Qed.

(** Uniqueness of mixed-radix decompositions *)
Lemma radix2 : forall B y q y' q', 0 <= q < B -> 0 <= q' < B -> y * B + q = y' * B + q' -> y = y' /\ q = q'.
Proof.
  intros B y q y' q' Hq Hq' E.
  assert (y = y').
  { destruct (Z.lt_trichotomy y y') as [H|[H|H]]; auto.
    - assert ((y + 1) * B <= y' * B) by (apply Z.mul_le_mono_nonneg_r; lia). lia.
    - assert ((y' + 1) * B <= y * B) by (apply Z.mul_le_mono_nonneg_r; lia). lia. }
  subst. split; auto. lia.
Qed.

(** products of nonnegative bounded factors *)
Lemma mul_bound : forall a b n m, 0 <= a <= n -> 0 <= b <= m -> 0 <= a * b <= n * m.
Proof. intros. split; [apply Z.mul_nonneg_nonneg; lia|apply Z.mul_le_mono_nonneg; lia]. Qed.

Lemma lin_bound : forall ls n r k, 0 <= k < ls -> 0 <= r < n -> 0 <= r * ls + k < n * ls.
Proof.
  intros ls n r k Hk Hr. assert ((r + 1) * ls <= n * ls) by (apply Z.mul_le_mono_nonneg_r; lia).
  assert (0 <= r * ls) by (apply Z.mul_nonneg_nonneg; lia). lia.
Qed.
