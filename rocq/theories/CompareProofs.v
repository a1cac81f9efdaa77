(** Proofs for CompareProps.v. *)
From Coq Require Import ZArith List Bool Lia.
From Verif Require Import Base Enums Utility Stack StackHeap StackWf StackOps StackNames StackCopy StackInit StackSpec StackHist StackRun Ilu Compare CompareSpec.
Import ListNotations.
Open Scope Z_scope.

Lemma same_bytes_spec : forall n i x y, 0 <= i -> i + Z.of_nat n <= zlen x -> i + Z.of_nat n <= zlen y ->
  exists b, same_bytes n i x y = Ok b /\ (b = true <-> forall k, i <= k < i + Z.of_nat n -> geti x k = geti y k).
Proof.
  induction n as [|n IH]; intros i x y Hi Hx Hy.
  - exists true. split; [reflexivity|]. split; [intros _ k Hk; lia|reflexivity].
  - assert (Rx : rd x i = Ok (geti x i)) by (unfold rd, inb; replace ((0 <=? i) && (0 <=? 1) && (i + 1 <=? zlen x)) with true by lia; reflexivity).
    assert (Ry : rd y i = Ok (geti y i)) by (unfold rd, inb; replace ((0 <=? i) && (0 <=? 1) && (i + 1 <=? zlen y)) with true by lia; reflexivity).
    cbn [same_bytes]. rewrite Rx, Ry. cbn [bind]. destruct (geti x i =? geti y i) eqn:E; cbn [negb].
    + destruct (IH (i + 1) x y) as (b & Eb & S); [lia|lia|lia|]. exists b. split; [exact Eb|]. rewrite S.
      split; intros H k Hk.
      * destruct (Z.eq_dec k i) as [->|N]; [lia|]. apply H. lia.
      * apply H. lia.
    + exists false. split; [reflexivity|]. split; [discriminate|]. intros H. specialize (H i). lia.
Qed.
Lemma same_list : forall (x y : list Z), zlen x = zlen y -> (forall k, 0 <= k < zlen x -> geti x k = geti y k) -> x = y.
Proof.
  intros x y L H. apply (nth_ext x y 0 0); unfold zlen in *; [lia|]. intros n Hn. specialize (H (Z.of_nat n)). unfold geti in H.
  rewrite Nat2Z.id in H. apply H. lia.
Qed.

Lemma differ_spec : forall x y, differ x y = false <-> same_hdr x y.
Proof. intros x y. unfold differ, same_hdr. lia. Qed.
Lemma same_size : forall x y, geom x -> geom y -> same_hdr x y -> hSize x = hSize y.
Proof.
  intros x y (_&B1&_&_&_&S1&P1&Z1) (_&B2&_&_&_&S2&P2&Z2) (W&H&D&B&F&T&O).
  rewrite Z1, Z2, P1, P2, S1, S2, B1, B2, W, H, D, B, T. reflexivity.
Qed.

Lemma grow_none : forall A fuel n s, n < ssz s -> grow A fuel n s = Ok (true, s).
Proof. intros A fuel n s H. destruct fuel; cbn [grow]; unfold bindM, get; cbn [bind]; replace (ssz s <=? n) with false by lia; reflexivity. Qed.
Lemma bind_used : forall A n b s, G s -> slotv s n = Some b -> ilBindImage A n s = Ok (tt, set_cnm n (set_cur (Some b) s)).
Proof.
  intros A n b s g Hb. destruct (g_f _ g) as [f [F1 F2]]. assert (HS := g_ssz _ g).
  assert (R : 0 <= n < ssz s /\ f n = Some b).
  { unfold slotv in Hb. rewrite F1 in Hb. destruct ((0 <=? n) && (n <? ssz s)) eqn:E; [|discriminate Hb]. split; [lia|exact Hb]. }
  destruct R as [R1 R2].
  assert (SL : slot n s = Ok (Some b, s)) by (unfold slot; rewrite F1; replace ((0 <=? n) && (n <? ssz s)) with true by lia; rewrite R2; reflexivity).
  unfold ilBindImage. unfold bindM, get, ret, mod_. cbn [bind]. rewrite F1. cbn [negb orb].
  replace (ssz s =? 0) with false by lia. cbn [bind negb]. rewrite grow_none by lia. cbn [bind negb]. rewrite SL. cbn [bind non_null].
  rewrite SL. cbn [bind]. reflexivity.
Qed.
Lemma slot_cur : forall s n c m, slotv (set_cnm m (set_cur c s)) n = slotv s n.
Proof. reflexivity. Qed.
Lemma put_back : forall s c n m d, set_cnm n (set_cur c (set_cnm m (set_cur d s))) = set_cnm n (set_cur c s).
Proof. intros [] c n m d. reflexivity. Qed.
Lemma put_same : forall s, set_cnm (cnm s) (set_cur (cur s) s) = s.
Proof. intros []. reflexivity. Qed.
Lemma G_cur : forall s n b, G s -> slotv s n = Some b -> G (set_cnm n (set_cur (Some b) s)).
Proof.
  intros s n b g Hb. assert (NL := fun H => g_slot_out s n g H). destruct (g_f _ g) as [f [F1 F2]]. destruct g.
  assert (R : 0 <= n < lst s) by (destruct (Z_lt_le_dec n 0); [rewrite NL in Hb by lia; discriminate Hb|destruct (Z_lt_le_dec n (lst s)); [lia|rewrite NL in Hb by lia; discriminate Hb]]).
  split; try assumption; try exact R.
  - destruct g_inv. split; auto.
  - intros a i E. destruct (g_siz a i E). split; auto.
  - intros a [= <-]. apply points_slotv in Hb. apply (I_live _ _ _ g_inv (Root n) b (fun x => x)). exact Hb.
Qed.

Lemma see_data : forall s a x d, G s -> see s a = Some x -> sn_data x = Some d ->
  exists i b, ims s a = Some i /\ hd i = sn_hdr x /\ iData i = Some b /\ bks s b = Some d /\ zlen d = hSize (sn_hdr x) /\ geom (sn_hdr x).
Proof.
  intros s a x d g E D. unfold see in E. destruct (ims s a) as [i|] eqn:Ei; [|discriminate E]. injection E as <-. cbn [sn_data sn_hdr] in *.
  unfold bytes_at in D. destruct (iData i) as [b|] eqn:Eb; [|discriminate D]. exists i, b.
  assert (K := g_siz _ g a i Ei). destruct (o_data _ _ _ _ K (fun x => x) b Eb) as (l & L1 & L2).
  replace d with l by congruence. split; [reflexivity|]. split; [reflexivity|]. split; [exact Eb|]. split; [exact L1|]. split; [exact L2|]. apply K.
Qed.

Theorem compare_ok : forall A s n c o b0 x y dx dy, G s -> cur s = Some c -> see s c = Some x -> slotv s n = Some o -> see s o = Some y ->
  slotv s (cnm s) = Some b0 -> 0 < n -> n <> cnm s -> sn_data x = Some dx -> sn_data y = Some dy ->
  exists r, iluCompareImage A n s = Ok (r, set_cur (Some b0) s) /\ (r = true <-> same_hdr (sn_hdr y) (sn_hdr x) /\ dy = dx).
Proof.
  intros A s n c o b0 x y dx dy g Ec Ex Eo Ey Eb Hn Nn Dx Dy.
  destruct (see_data _ _ _ _ g Ex Dx) as (ci & cb & C1 & C2 & C3 & C4 & C5 & C6).
  destruct (see_data _ _ _ _ g Ey Dy) as (oi & ob & O1 & O2 & O3 & O4 & O5 & O6).
  destruct (wp_GetCurName s (fun z s' => z = cnm s /\ s' = s) g) as (z & s' & E1 & -> & ->); [rewrite Ec; auto|].
  destruct (wp_IsImage n s (fun z s' => z = true /\ s' = s) g) as (z & s' & E2 & -> & ->); [lia|rewrite Eo; replace (n =? 0) with false by lia; auto|].
  assert (B1 := bind_used A n o s g Eo).
  assert (B2 : ilBindImage A (cnm s) (set_cnm n (set_cur (Some o) s)) = Ok (tt, set_cur (Some b0) s)).
  { rewrite (bind_used A (cnm s) b0) by (try apply G_cur; assumption). rewrite put_back. destruct s. reflexivity. }
  set (s1 := set_cnm n (set_cur (Some o) s)) in *.
  assert (I1 : ims s1 = ims s) by reflexivity. assert (K1 : bks s1 = bks s) by reflexivity. assert (U1 : cur s1 = Some o) by reflexivity.
  clearbody s1. unfold iluCompareImage, bindM, get. cbn [bind]. rewrite E1. cbn [bind]. replace (cnm s =? n) with false by lia.
  rewrite Ec. cbn [non_null bind]. rewrite E2. cbn [bind negb]. rewrite B1. cbn [bind]. rewrite U1.
  unfold get_im at 1. rewrite I1, O1. cbn [bind]. unfold get_im at 1. rewrite I1, C1. cbn [bind]. rewrite O2, C2.
  destruct (differ (sn_hdr y) (sn_hdr x)) eqn:Ed.
  - rewrite B2. cbn [bind]. exists false. split; [reflexivity|]. split; [discriminate|]. intros [H _]. apply differ_spec in H. congruence.
  - apply differ_spec in Ed. assert (SZ := same_size _ _ O6 C6 Ed).
    destruct (hSize (sn_hdr x) <=? 0) eqn:Ez.
    + unfold ret at 1. cbn [bind]. rewrite B2. cbn [bind]. exists true. split; [reflexivity|]. split; [|reflexivity]. intros _. split; [exact Ed|].
      apply same_list; [lia|]. intros k Hk. lia.
    + unfold data_of. rewrite O3, C3. unfold get_blk. rewrite K1, O4. cbn [bind]. rewrite K1, C4. cbn [bind].
      destruct (same_bytes_spec (Z.to_nat (hSize (sn_hdr x))) 0 dy dx) as (r & Er & Sr); [lia|lia|lia|].
      rewrite Er. cbn [bind]. rewrite B2. cbn [bind]. exists r. split; [reflexivity|]. rewrite Sr. split.
      * intros H. split; [exact Ed|]. apply same_list; [lia|]. intros k Hk. apply H. lia.
      * intros [_ ->] k _. reflexivity.
Qed.
Theorem compare_self : forall A s, G s -> cur s <> None -> iluCompareImage A (cnm s) s = Ok (true, s).
Proof.
  intros A s g Ec. destruct (wp_GetCurName s (fun z s' => z = cnm s /\ s' = s) g) as (z & s' & E1 & -> & ->); [destruct (cur s); [auto|congruence]|].
  unfold iluCompareImage, bindM, get. cbn [bind]. rewrite E1. cbn [bind]. rewrite Z.eqb_refl. reflexivity.
Qed.
Theorem compare_refused : forall A s n, G s -> cur s <> None -> 0 <= n -> n <> cnm s -> (n = 0 \/ slotv s n = None) ->
  iluCompareImage A n s = Ok (false, set_errs (ILU_ILLEGAL_OPERATION :: errs s) s).
Proof.
  intros A s n g Ec Hn Nn Hs. destruct (wp_GetCurName s (fun z s' => z = cnm s /\ s' = s) g) as (z & s' & E1 & -> & ->); [destruct (cur s); [auto|congruence]|].
  destruct (wp_IsImage n s (fun z s' => z = false /\ s' = s) g) as (z & s' & E2 & -> & ->); [lia|split; [|reflexivity]; destruct Hs as [->| ->]; [reflexivity|apply andb_false_r]|].
  unfold iluCompareImage, bindM, get. cbn [bind]. rewrite E1. cbn [bind]. replace (cnm s =? n) with false by lia.
  destruct (cur s) as [c|]; [|congruence]. cbn [non_null]. rewrite E2. cbn [bind negb]. reflexivity.
Qed.
