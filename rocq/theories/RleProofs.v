(** Proofs about the run-length encoder. *)
From Coq Require Import ZArith Zwf List Lia Bool.
From Verif Require Import Base Slices Rle RleSpec.
Import ListNotations.
Open Scope Z_scope.

(** big-endian value *)
Fixpoint be (acc : Z) (l : list Z) : Z := match l with [] => acc | b :: l' => be (acc * 256 + b) l' end.

Lemma be_bound : forall l acc, bytes l -> 0 <= acc -> 0 <= be acc l < (acc + 1) * 256 ^ zlen l.
Proof.
  induction l as [|b l IH]; intros acc B H; cbn [be].
  - rewrite zlen_nil. lia.
  - assert (F := B). apply bytes_Forall in F. inversion F as [|? ? F1 F2]; subst. apply bytes_Forall in F2.
    rewrite zlen_cons. rewrite Z.pow_add_r by (auto; lia). specialize (IH (acc * 256 + b) F2). 
    destruct IH as [I1 I2]; [lia|]. split; [exact I1|].
    assert (0 < 256 ^ zlen l) by (apply Z.pow_pos_nonneg; auto; lia).
    assert ((acc * 256 + b + 1) * 256 ^ zlen l <= (acc + 1) * (256 ^ 1 * 256 ^ zlen l)); [|lia].
    replace ((acc + 1) * (256 ^ 1 * 256 ^ zlen l)) with ((acc * 256 + 256) * 256 ^ zlen l) by ring.
    apply Z.mul_le_mono_nonneg_r; lia.
Qed.

Lemma be_inj_acc : forall l l' a a', zlen l = zlen l' -> bytes l -> bytes l' ->
  be a l = be a' l' -> a = a' /\ l = l'.
Proof.
  induction l as [|b l IH]; intros [|b' l'] a a' L B B' E; try (unfold zlen in L; cbn in L; lia); [auto|].
  rewrite !zlen_cons in L. apply bytes_Forall in B. apply bytes_Forall in B'.
  inversion B as [|? ? B1 B2]; inversion B' as [|? ? B1' B2']; subst. cbn [be] in E.
  apply IH in E; [|lia|apply bytes_Forall; auto|apply bytes_Forall; auto]. destruct E as [E ->].
  assert (a = a' /\ b = b') as [-> ->] by lia. auto.
Qed.

Lemma getpix__ok : forall k src p acc, bytes src -> 0 <= p -> p + Z.of_nat k <= zlen src ->
  0 <= acc -> (acc + 1) * 256 ^ Z.of_nat k <= 4294967296 ->
  getpix_ k src p acc = Ok (be acc (slice src p (Z.of_nat k))).
Proof.
  induction k as [|k IH]; intros src p acc B Hp Hl Ha Hs; [reflexivity|]. cbn [getpix_].
  rewrite rd_ok by lia. cbn [bind].
  assert (Hb : 0 <= geti src p < 256) by (apply B; lia).
  assert (P : 0 < 256 ^ Z.of_nat k) by (apply Z.pow_pos_nonneg; lia).
  assert (Hs' : (acc * 256 + 256) * 256 ^ Z.of_nat k <= 4294967296).
  { rewrite Nat2Z.inj_succ, Z.pow_succ_r in Hs by lia. lia. }
  assert (Hc : acc * 256 + 256 <= 4294967296).
  { assert ((acc * 256 + 256) * 1 <= (acc * 256 + 256) * 256 ^ Z.of_nat k) by (apply Z.mul_le_mono_nonneg_l; lia). lia. }
  assert (E : Z.lor (u32 (Z.shiftl acc 8)) (geti src p) = acc * 256 + geti src p).
  { rewrite u32_small; rewrite Z.shiftl_mul_pow2 by lia; change (2 ^ 8) with 256; [|lia].
    rewrite <- Z.lxor_lor, <- Z.add_nocarry_lxor; auto;
    apply Z.bits_inj'; intros n Hn; rewrite Z.land_spec, Z.bits_0;
    destruct (Z.lt_ge_cases n 8); 
    [ change 256 with (2 ^ 8); rewrite Z.mul_pow2_bits_low by lia; reflexivity
    | rewrite (Z.bits_above_log2 (geti src p)); [apply andb_false_r|lia|]
    | change 256 with (2 ^ 8); rewrite Z.mul_pow2_bits_low by lia; reflexivity
    | rewrite (Z.bits_above_log2 (geti src p)); [apply andb_false_r|lia|] ].
    all: destruct (Z.eq_dec (geti src p) 0) as [->|Hnz]; [cbn; lia|apply Z.log2_lt_pow2; [lia|]];
      apply Z.lt_le_trans with (2 ^ 8); [change (2 ^ 8) with 256; lia|apply Z.pow_le_mono_r; lia]. }
  rewrite E, IH; [|auto|lia|lia|lia|].
  - f_equal. replace (Z.of_nat (S k)) with (1 + Z.of_nat k) by lia. rewrite slice_cons by lia. reflexivity.
  - eapply Z.le_trans; [|exact Hs']. apply Z.mul_le_mono_nonneg_r; lia.
Qed.

Lemma getpix_ok : forall src p bpp, bytes src -> 1 <= bpp <= 4 -> 0 <= p -> p + bpp <= zlen src ->
  getpix src p bpp = Ok (be 0 (slice src p bpp)).
Proof.
  intros src p bpp B Hb Hp Hl. unfold getpix. rewrite rd_ok by lia. cbn [bind].
  assert (Hg : 0 <= geti src p < 256) by (apply B; lia).
  rewrite getpix__ok; [|auto|lia|lia|lia|].
  - f_equal. rewrite Z2Nat.id by lia. replace bpp with (1 + (bpp - 1)) at 2 by lia. rewrite slice_cons by lia. reflexivity.
  - rewrite Z2Nat.id by lia. apply Z.le_trans with (256 * 256 ^ 3); [|reflexivity].
    assert (256 ^ (bpp - 1) <= 256 ^ 3) by (apply Z.pow_le_mono_r; lia). assert (0 <= 256 ^ (bpp - 1)) by (apply Z.pow_nonneg; lia). apply Z.mul_le_mono_nonneg; lia.
Qed.

Lemma be_pixel : forall src bpp i j, bytes src -> 1 <= bpp -> 0 <= i -> 0 <= j ->
  (i + 1) * bpp <= zlen src -> (j + 1) * bpp <= zlen src ->
  (be 0 (pixel bpp src i) =? be 0 (pixel bpp src j)) = true <-> pixel bpp src i = pixel bpp src j.
Proof.
  intros src bpp i j B Hb Hi Hj Li Lj. rewrite Z.eqb_eq. split; [|congruence]. intros E. unfold pixel in *.
  apply be_inj_acc in E; [apply E| |apply bytes_slice; auto|apply bytes_slice; auto].
  assert (0 <= i * bpp /\ 0 <= j * bpp) by nia. rewrite !zlen_slice by lia. reflexivity.
Qed.

(** the counting functions on aligned pixels *)
Section Count.
Variables (src : list Z) (bpp : Z).
Hypothesis B : bytes src.
Hypothesis Hb : 1 <= bpp <= 4.

Lemma getpix_px : forall i, 0 <= i -> (i + 1) * bpp <= zlen src -> getpix src (i * bpp) bpp = Ok (be 0 (pixel bpp src i)).
Proof. intros i Hi L. apply getpix_ok; auto; nia. Qed.

Lemma cd_loop_spec : forall k a next n, 0 <= a -> (a + Z.of_nat k + 1) * bpp <= zlen src ->
  exists d, cd_loop k src (a * bpp) bpp (be 0 (pixel bpp src a)) next n = 
     Ok (be 0 (pixel bpp src (a + d)), (if (d =? Z.of_nat k) && (d =? 0) then next else be 0 (pixel bpp src (a + d))), n + d)
     /\ 0 <= d <= Z.of_nat k /\ no_repeat bpp src a (d + 1) /\
     (d < Z.of_nat k -> pixel bpp src (a + d) = pixel bpp src (a + d + 1)).
Proof.
  induction k as [|k IH]; intros a next n Ha L; cbn [cd_loop].
  - exists 0. cbn [Z.of_nat Z.eqb andb]. rewrite !Z.add_0_r. repeat split; try lia. intros i. lia.
  - replace (a * bpp + bpp) with ((a + 1) * bpp) by ring.
    rewrite getpix_px by (nia). cbn [bind].
    destruct (be 0 (pixel bpp src (a + 1)) =? be 0 (pixel bpp src a)) eqn:E.
    + assert (EP : pixel bpp src (a + 1) = pixel bpp src a) by (apply be_pixel; auto; nia).
      exists 0. rewrite Z.add_0_r. replace (0 =? Z.of_nat (S k)) with false by lia. cbn [andb]. rewrite EP. repeat split; try lia.
      * rewrite Z.add_0_r. reflexivity.
      * intros i. lia.
    + assert (EP : pixel bpp src (a + 1) <> pixel bpp src a).
      { intros X. rewrite X, Z.eqb_refl in E. discriminate. }
      destruct (IH (a + 1) (be 0 (pixel bpp src (a + 1))) (n + 1)) as (d & E1 & E2 & E3 & E4); [lia|nia|].
      exists (d + 1). rewrite E1. replace (a + (d + 1)) with (a + 1 + d) by ring. replace (n + (d + 1)) with (n + 1 + d) by ring.
      replace (d + 1 =? 0) with false by lia. rewrite andb_false_r. split.
      * f_equal. f_equal. f_equal. destruct (d =? 0) eqn:D; [|rewrite andb_false_r; reflexivity].
        replace d with 0 by lia. rewrite Z.add_0_r. destruct (0 =? Z.of_nat k); reflexivity.
      * split; [lia|]. split.
        -- intros i H1 H2. destruct (Z.eq_dec i a) as [->|]; [congruence|]. apply E3; lia.
        -- intros H. apply E4. lia.
Qed.

Lemma count_diff_spec : forall a cnt, 0 <= a -> 1 <= cnt -> (a + cnt) * bpp <= zlen src ->
  exists d, count_diff src (a * bpp) bpp cnt = Ok d /\ 0 <= d <= cnt /\
    (cnt = 1 -> d = 1) /\ (2 <= cnt -> d <= cnt - 1 /\ no_repeat bpp src a (d + 1) /\
      (d < cnt - 1 -> pixel bpp src (a + d) = pixel bpp src (a + d + 1))).
Proof.
  intros a cnt Ha Hc L. unfold count_diff. destruct (cnt =? 1) eqn:E1; [exists 1; repeat split; lia|].
  rewrite getpix_px by nia. cbn [bind].
  destruct (cd_loop_spec (Z.to_nat (cnt - 1)) a 0 0) as (d & E & R & N & P); [lia|rewrite Z2Nat.id by lia; nia|].
  rewrite Z2Nat.id in * by lia. rewrite E. cbn [bind]. replace ((d =? cnt - 1) && (d =? 0)) with false by lia.
  rewrite Z.eqb_refl. exists d. split; [reflexivity|]. repeat split; auto; lia.
Qed.

Lemma cs_loop_spec : forall k a p pixel0 n, 0 <= p -> 
  (match cs_loop k src p bpp pixel0 n with Ok s => n <= s <= n + Z.of_nat k | UB => True | Fuel => False end) /\ 
  (0 <= a -> p = a * bpp -> (a + Z.of_nat k + 1) * bpp <= zlen src -> (1 <= k)%nat -> pixel0 = be 0 (pixel bpp src a) ->
    exists s, cs_loop k src p bpp pixel0 n = Ok s /\ (pixel bpp src a <> pixel bpp src (a + 1) -> s = n) /\
       (pixel bpp src a = pixel bpp src (a + 1) -> n + 1 <= s)).
Proof.
  assert (G : forall p, match getpix src p bpp with Fuel => False | _ => True end).
  { intros p. unfold getpix. unfold rd at 1. destruct (inb (zlen src) p 1); cbn [bind]; auto.
    generalize (geti src p). generalize (p + 1). induction (Z.to_nat (bpp - 1)) as [|k IH]; intros q acc; cbn [getpix_]; auto.
    unfold rd. destruct (inb (zlen src) q 1); cbn [bind]; auto. apply IH. }
  assert (W : forall k p pixel0 n, match cs_loop k src p bpp pixel0 n with Ok s => n <= s <= n + Z.of_nat k | UB => True | Fuel => False end).
  { induction k as [|k IH]; intros p pixel0 n; cbn [cs_loop]; [lia|]. specialize (G (p + bpp)).
    destruct (getpix src (p + bpp) bpp) as [x| |]; cbn [bind]; auto. destruct (x =? pixel0); cbn [negb]; [|lia].
    specialize (IH (p + bpp) pixel0 (n + 1)). destruct (cs_loop k src (p + bpp) bpp pixel0 (n + 1)); auto. lia. }
  assert (F : forall k a n, 0 <= a -> (a + Z.of_nat k + 1) * bpp <= zlen src -> forall v, exists s, cs_loop k src (a * bpp) bpp v n = Ok s /\ n <= s).
  { induction k as [|k IH]; intros a n Ha L v; cbn [cs_loop]; [exists n; split; [reflexivity|lia]|].
    replace (a * bpp + bpp) with ((a + 1) * bpp) by ring. rewrite getpix_px by nia. cbn [bind].
    destruct (negb _); [exists n; split; [reflexivity|lia]|]. destruct (IH (a + 1) (n + 1)) with (v := v) as (s & E & R); [lia|nia|].
    exists s. split; [exact E|lia]. }
  intros k a p pixel0 n Hp. split; [apply W|]. intros Ha -> L Hk ->. destruct k as [|k]; [lia|]. cbn [cs_loop].
  replace (a * bpp + bpp) with ((a + 1) * bpp) by ring. rewrite getpix_px by nia. cbn [bind].
  destruct (be 0 (pixel bpp src (a + 1)) =? be 0 (pixel bpp src a)) eqn:E; cbn [negb].
  - apply be_pixel in E; auto; try nia. destruct (F k (a + 1) (n + 1)) with (v := be 0 (pixel bpp src a)) as (s & Es & R); [lia|nia|].
    exists s. split; [exact Es|]. split; [congruence|lia].
  - exists n. split; [reflexivity|]. split; [auto|]. intros X. rewrite X, Z.eqb_refl in E. discriminate.
Qed.

Lemma count_same_spec : forall a cnt, 0 <= a -> 1 <= cnt -> (a + cnt) * bpp <= zlen src ->
  exists s, count_same src (a * bpp) bpp cnt = Ok s /\ 1 <= s <= cnt /\ 
    (2 <= cnt -> pixel bpp src a <> pixel bpp src (a + 1) -> s = 1) /\
    (2 <= cnt -> pixel bpp src a = pixel bpp src (a + 1) -> 2 <= s).
Proof.
  intros a cnt Ha Hc L. unfold count_same. rewrite getpix_px by nia. cbn [bind].
  destruct (cs_loop_spec (Z.to_nat (cnt - 1)) a (a * bpp) (be 0 (pixel bpp src a)) 1) as [W S]; [nia|].
  destruct (Z.eq_dec cnt 1) as [->|].
  - exists 1. repeat split; lia.
  - destruct S as (s & E & N & Q); auto; [rewrite Z2Nat.id by lia; nia|lia|].
    rewrite E in W. exists s. split; [exact E|]. rewrite Z2Nat.id in W by lia. split; [lia|]. split; [auto|]. intros _ X. specialize (Q X). lia.
Qed.

(** the same functions anywhere: they answer or read outside *)
Lemma getpix_nofuel : forall p, match getpix src p bpp with Fuel => False | _ => True end.
Proof.
  intros p. unfold getpix. unfold rd at 1. destruct (inb (zlen src) p 1); cbn [bind]; auto.
  generalize (geti src p). generalize (p + 1). induction (Z.to_nat (bpp - 1)) as [|k IH]; intros q acc; cbn [getpix_]; auto.
  unfold rd. destruct (inb (zlen src) q 1); cbn [bind]; auto. apply IH.
Qed.

Lemma count_any : forall p cnt, 0 <= p -> 1 <= cnt ->
  match count_diff src p bpp cnt with
  | Ok d => 0 <= d <= cnt /\
     match count_same src p bpp cnt with
     | Ok s => 1 <= s <= cnt /\ (d = 0 -> 2 <= s) /\ (0 < d -> s = 1)
     | UB => True | Fuel => False end
  | UB => True | Fuel => False end.
Proof.
  intros p cnt Hp Hc. unfold count_diff, count_same. assert (G := getpix_nofuel p).
  destruct (cnt =? 1) eqn:E1.
  - split; [lia|]. destruct (getpix src p bpp) as [v| |]; cbn [bind]; auto. replace (Z.to_nat (cnt - 1)) with O by lia. cbn. lia.
  - destruct (getpix src p bpp) as [v| |]; cbn [bind]; auto.
    assert (CD : forall k p v next n, match cd_loop k src p bpp v next n with
       | Ok (v', next', n') => n <= n' <= n + Z.of_nat k /\ (next = v \/ (1 <= k)%nat -> next' = v') | UB => True | Fuel => False end).
    { induction k as [|k IH]; intros p0 v0 next n; cbn [cd_loop]; [lia|]. assert (G' := getpix_nofuel (p0 + bpp)).
      destruct (getpix src (p0 + bpp) bpp) as [x| |]; cbn [bind]; auto. destruct (x =? v0) eqn:E; [split; [lia|intros; lia]|].
      specialize (IH (p0 + bpp) x x (n + 1)). destruct (cd_loop k src (p0 + bpp) bpp x x (n + 1)) as [[[v' n'] m]| |]; auto.
      destruct IH as [I1 I2]. split; [lia|]. intros _. apply I2. auto. }
    assert (C := CD (Z.to_nat (cnt - 1)) p v 0 0). 
    destruct (cs_loop_spec (Z.to_nat (cnt - 1)) 0 p v 1 Hp) as [W _].
    remember (Z.to_nat (cnt - 1)) as k. destruct k as [|k]; [lia|]. cbn [cd_loop cs_loop] in *.
    assert (G' := getpix_nofuel (p + bpp)).
    destruct (getpix src (p + bpp) bpp) as [x| |]; cbn [bind] in *; auto.
    destruct (x =? v) eqn:E; cbn [negb] in *.
    + cbn [bind]. rewrite E. split; [lia|]. specialize (CD k (p + bpp) v v 1).
      destruct (cs_loop_spec k 0 (p + bpp) v (1 + 1)) as [W' _]; [lia|].
      destruct (cs_loop k src (p + bpp) bpp v (1 + 1)); auto. lia.
    + assert (C' := CD k (p + bpp) x x (0 + 1)).
      destruct (cd_loop k src (p + bpp) bpp x x (0 + 1)) as [[[v' n'] m]| |]; cbn [bind]; auto.
      destruct C' as [C1 C2]. rewrite (C2 (or_introl eq_refl)), Z.eqb_refl. repeat split; lia.
Qed.
End Count.

Lemma copy_bytes_ok : forall k src p out, 0 <= p -> p + Z.of_nat k <= zlen src ->
  copy_bytes k src p out = Ok (out ++ slice src p (Z.of_nat k)).
Proof.
  induction k as [|k IH]; intros src p out Hp L; cbn [copy_bytes]; [rewrite slice_0, app_nil_r; reflexivity|].
  rewrite rd_ok by lia. cbn [bind]. rewrite IH by lia. f_equal. rewrite <- app_assoc. f_equal.
  replace (Z.of_nat (S k)) with (1 + Z.of_nat k) by lia. rewrite slice_cons by lia. reflexivity.
Qed.
Lemma copy_bytes_ub : forall k src p out, 0 <= p -> (1 <= k)%nat -> zlen src < p + Z.of_nat k -> copy_bytes k src p out = UB.
Proof.
  induction k as [|k IH]; intros src p out Hp Hk L; [lia|]. cbn [copy_bytes].
  destruct (Z.lt_ge_cases p (zlen src)); [|rewrite rd_ub by lia; reflexivity].
  rewrite rd_ok by lia. cbn [bind]. destruct k as [|k']; [lia|]. apply IH; lia.
Qed.
Lemma copy_bytes_cases : forall k src p out, 0 <= p ->
  copy_bytes k src p out = UB \/ exists o, copy_bytes k src p out = Ok o /\ (k = O \/ p + Z.of_nat k <= zlen src).
Proof.
  intros k src p out Hp. destruct k as [|k]; [right; exists out; cbn; auto|].
  destruct (Z.le_gt_cases (p + Z.of_nat (S k)) (zlen src)).
  - right. rewrite copy_bytes_ok by lia. eauto.
  - left. apply copy_bytes_ub; lia.
Qed.

Definition unrun (m : rmode) := m = Tga \/ m = Sgi.

(** after a run the reader is ahead of the data: it ends outside the buffer *)
Lemma ahead_ub : forall src bpp m qa pad, bytes src -> 1 <= bpp <= 4 -> unrun m ->
  forall n fuel a e size out, (Z.to_nat n < fuel)%nat -> 1 <= n < 2147483648 -> 0 <= a -> 1 <= e -> zlen src < (a + n) * bpp + e ->
  rle_loop fuel m bpp qa pad src {| rp := a * bpp + e; rn := n; rsize := size; rout := out |} = UB.
Proof.
  intros src bpp m qa pad B Hb Hm n. pattern n. apply (well_founded_induction (Zwf_well_founded 0)). clear n.
  intros n IH fuel a e size out Hf Hn Ha He L. destruct fuel as [|fuel]; [lia|]. cbn [rle_loop rn].
  replace (0 <? n) with true by lia. unfold rle_iter. cbn [rn rp rsize rout].
  rewrite (i32_small n) by lia. set (cnt := if max_run m <? n then max_run m else n).
  assert (Hc : 1 <= cnt <= n) by (subst cnt; destruct Hm as [-> | ->]; cbn; destruct (_ <? _) eqn:E; lia).
  assert (Hp : 0 <= a * bpp + e) by nia.
  assert (C := count_any src bpp B Hb (a * bpp + e) cnt Hp (proj1 Hc)).
  destruct (count_diff src (a * bpp + e) bpp cnt) as [d| |]; cbn [bind]; auto; [|contradiction]. destruct C as [C1 C2].
  destruct (count_same src (a * bpp + e) bpp cnt) as [s| |]; cbn [bind]; auto; [|contradiction]. destruct C2 as (C2 & C3 & C4).
  replace (match m with Bmp => true | _ => false end) with false by (destruct Hm as [-> | ->]; reflexivity).
  cbn [andb]. unfold raw_packet, run_packet. cbn [rn rp rsize rout].
  assert (PB : px_bytes bpp = bpp) by (unfold px_bytes; replace ((1 <=? bpp) && (bpp <=? 4)) with true by lia; reflexivity).
  rewrite PB. destruct (0 <? d) eqn:D.
  - rewrite C4 by lia. set (hdr := match m with Tga => _ | Sgi => _ | Bmp => _ end).
    destruct (copy_bytes_cases (Z.to_nat (d * bpp)) src (a * bpp + e) (out ++ hdr) Hp) as [E|(o & E & E')]; rewrite E; cbn [bind]; auto.
    replace (1 <? 1) with false by lia. rewrite u32_small by lia.
    destruct (Z.eq_dec d n) as [->|].
    + assert (zlen src < a * bpp + e + n * bpp) by nia. destruct E' as [E'|E']; nia.
    + replace (a * bpp + e + d * bpp) with ((a + d) * bpp + e) by ring. apply IH; try lia. unfold Zwf. lia.
  - cbn [bind rn rp rsize rout]. replace (1 <? s) with true by lia. set (hdr := match m with Tga => _ | Sgi => _ | Bmp => _ end).
    destruct (copy_bytes_cases (Z.to_nat (1 + bpp)) src (a * bpp + e + (s - 1) * bpp) (out ++ hdr)) as [E|(o & E & E')]; [nia| |]; rewrite E; cbn [bind]; auto.
    rewrite u32_small by lia. destruct (Z.eq_dec s n) as [->|].
    + destruct E' as [E'|E']; nia.
    + replace (a * bpp + e + (s - 1) * bpp + 1 + bpp) with ((a + s) * bpp + (e + 1)) by ring.
      apply IH; try lia; unfold Zwf; nia.
Qed.

(** a line with two equal neighbours is read past its end *)
Lemma repeat_ub : forall src bpp m qa pad, bytes src -> 1 <= bpp <= 4 -> unrun m ->
  forall n fuel a size out, (Z.to_nat n < fuel)%nat -> 1 <= n < 2147483648 -> 0 <= a -> zlen src = (a + n) * bpp ->
  ~ no_repeat bpp src a n ->
  rle_loop fuel m bpp qa pad src {| rp := a * bpp; rn := n; rsize := size; rout := out |} = UB.
Proof.
  intros src bpp m qa pad B Hb Hm n. pattern n. apply (well_founded_induction (Zwf_well_founded 0)). clear n.
  intros n IH fuel a size out Hf Hn Ha L NR. destruct fuel as [|fuel]; [lia|]. cbn [rle_loop rn].
  replace (0 <? n) with true by lia. unfold rle_iter. cbn [rn rp rsize rout].
  assert (N2 : 2 <= n) by (destruct (Z.le_gt_cases 2 n); auto; exfalso; apply NR; intros i; lia).
  rewrite (i32_small n) by lia. set (cnt := if max_run m <? n then max_run m else n).
  assert (Hc : 2 <= cnt <= n) by (subst cnt; destruct Hm as [-> | ->]; cbn; destruct (_ <? _) eqn:E; lia).
  destruct (count_diff_spec src bpp B Hb a cnt) as (d & Ed & D1 & _ & D2); try lia; [nia|].
  destruct (count_same_spec src bpp B Hb a cnt) as (s & Es & S1 & S2 & S3); try lia; [nia|].
  destruct D2 as (D2 & D3 & D4); [lia|].
  rewrite Ed. cbn [bind]. rewrite Es. cbn [bind].
  replace (match m with Bmp => true | _ => false end) with false by (destruct Hm as [-> | ->]; reflexivity).
  cbn [andb]. unfold raw_packet, run_packet. cbn [rn rp rsize rout].
  assert (PB : px_bytes bpp = bpp) by (unfold px_bytes; replace ((1 <=? bpp) && (bpp <=? 4)) with true by lia; reflexivity).
  rewrite PB. destruct (0 <? d) eqn:D.
  - assert (s = 1) as -> by (apply S2; [lia|apply D3; lia]).
    set (hdr := match m with Tga => _ | Sgi => _ | Bmp => _ end). rewrite copy_bytes_ok by nia. cbn [bind].
    replace (1 <? 1) with false by lia. rewrite u32_small by lia.
    replace (a * bpp + d * bpp) with ((a + d) * bpp) by ring. apply IH; [unfold Zwf; lia|lia|lia|lia|rewrite L; ring|].
    intros X. apply NR. intros i I1 I2. destruct (Z.lt_ge_cases i (a + d)); [apply D3; lia|apply X; lia].
  - cbn [bind rn rp rsize rout]. replace (1 <? s) with true. 2: { symmetry. apply Z.ltb_lt. assert (2 <= s); [|lia]. apply S3; [lia|]. replace d with 0 in * by lia. rewrite Z.add_0_r in D4. apply D4. lia. }
    set (hdr := match m with Tga => _ | Sgi => _ | Bmp => _ end).
    destruct (copy_bytes_cases (Z.to_nat (1 + bpp)) src (a * bpp + (s - 1) * bpp) (out ++ hdr)) as [E|(o & E & E')]; [nia| |]; rewrite E; cbn [bind]; auto.
    rewrite u32_small by lia. destruct (Z.eq_dec s n) as [->|].
    + destruct E' as [E'|E']; nia.
    + replace (a * bpp + (s - 1) * bpp + 1 + bpp) with ((a + s) * bpp + 1) by ring.
      apply ahead_ub; auto; try lia.
Qed.

(** a line without equal neighbours is encoded faithfully *)
Definition codes (m : rmode) (bpp : Z) (code data : list Z) : Prop :=
  match m with Tga => tga_code bpp code data | Sgi => sgi_code (code ++ [0]) data | Bmp => False end.

Lemma lor_128 : forall d, 0 <= d < 128 -> Z.lor d 128 = d + 128.
Proof.
  intros d H. assert (forall k, (k < 128)%nat -> Z.lor (Z.of_nat k) 128 = Z.of_nat k + 128) as A.
  { intros k Hk. do 128 (destruct k as [|k]; [reflexivity|]). lia. }
  rewrite <- (Z2Nat.id d) by lia. apply A. lia.
Qed.

Lemma distinct_ok : forall src bpp m qa pad, bytes src -> 1 <= bpp <= 4 -> unrun m -> (m = Sgi -> bpp = 1) ->
  forall n fuel a size out, (Z.to_nat n < fuel)%nat -> 0 <= n < 2147483648 -> 0 <= a -> (a + n) * bpp <= zlen src ->
  no_repeat bpp src a n ->
  exists code, rle_loop fuel m bpp qa pad src {| rp := a * bpp; rn := n; rsize := size; rout := out |} =
    Ok {| rp := (a + n) * bpp; rn := 0; rsize := size + zlen code; rout := out ++ code |} /\
    codes m bpp code (slice src (a * bpp) (n * bpp)) /\ bytes code /\ zlen code <= n * bpp + n.
Proof.
  intros src bpp m qa pad B Hb Hm Hs n. pattern n. apply (well_founded_induction (Zwf_well_founded 0)). clear n.
  intros n IH fuel a size out Hf Hn Ha L NR.
  destruct (Z.eq_dec n 0) as [->|].
  { exists []. rewrite app_nil_r, zlen_nil, !Z.add_0_r. split; [destruct fuel; [lia|reflexivity]|]. cbn [Z.mul]. rewrite slice_0.
    split; [destruct Hm as [-> | ->]; constructor|]. split; [intros i; rewrite zlen_nil; lia|lia]. }
  destruct fuel as [|fuel]; [lia|]. cbn [rle_loop rn].
  replace (0 <? n) with true by lia. unfold rle_iter. cbn [rn rp rsize rout].
  rewrite (i32_small n) by lia. set (cnt := if max_run m <? n then max_run m else n).
  assert (Hc : 1 <= cnt <= n /\ (2 <= n -> 2 <= cnt) /\ cnt <= max_run m) by (subst cnt; destruct Hm as [-> | ->]; cbn; destruct (_ <? _) eqn:E; lia).
  destruct (count_diff_spec src bpp B Hb a cnt) as (d & Ed & D1 & D1' & D2); try lia; [nia|].
  destruct (count_same_spec src bpp B Hb a cnt) as (s & Es & S1 & S2 & _); try lia; [nia|].
  assert (Hd : 1 <= d /\ s = 1 /\ d < 128).
  { destruct (Z.eq_dec cnt 1) as [C|C]; [rewrite (D1' C); lia|]. destruct D2 as (D2 & D3 & D4); [lia|].
    split; [|split].
    - destruct (Z.le_gt_cases 1 d); auto. exfalso. replace d with 0 in * by lia. apply (NR a); try lia. rewrite Z.add_0_r in D4. apply D4. lia.
    - apply S2; [lia|]. apply NR; lia.
    - assert (max_run m <= 128) by (destruct m; cbn; lia). lia. }
  destruct Hd as (Hd & -> & Hd2).
  rewrite Ed. cbn [bind]. rewrite Es. cbn [bind].
  replace (match m with Bmp => true | _ => false end) with false by (destruct Hm as [-> | ->]; reflexivity).
  cbn [andb]. unfold raw_packet, run_packet. cbn [rn rp rsize rout].
  assert (PB : px_bytes bpp = bpp) by (unfold px_bytes; replace ((1 <=? bpp) && (bpp <=? 4)) with true by lia; reflexivity).
  rewrite PB. replace (0 <? d) with true by lia. set (h := match m with Tga => u8 (d - 1) | Sgi => u8 (Z.lor d 128) | Bmp => 0 end).
  rewrite copy_bytes_ok by nia. cbn [bind]. replace (1 <? 1) with false by lia. rewrite u32_small by lia.
  rewrite Z2Nat.id by nia.
  replace (a * bpp + d * bpp) with ((a + d) * bpp) by ring.
  match goal with |- context [{| rp := _; rn := _; rsize := _; rout := ?x |}] => set (o := x) end.
  assert (o = out ++ h :: slice src (a * bpp) (d * bpp)) as ->.
  { subst o h. destruct Hm as [-> | ->]; rewrite <- app_assoc; reflexivity. }
  destruct (IH (n - d)) with (fuel := fuel) (a := a + d) (size := size + d * bpp + 1 + match m with Bmp => 1 | _ => 0 end)
    (out := out ++ h :: slice src (a * bpp) (d * bpp)) as (code & E & C & BC & ZC);
    [unfold Zwf; lia|lia|lia|lia|replace (a + d + (n - d)) with (a + n) by ring; exact L|intros i I1 I2; apply NR; lia|].
  assert (LS : zlen (slice src (a * bpp) (d * bpp)) = d * bpp) by (apply zlen_slice; nia).
  exists ((h :: slice src (a * bpp) (d * bpp)) ++ code). split; [|split; [|split]].
  - etransitivity; [exact E|]. f_equal. f_equal; [f_equal; lia| |rewrite <- app_assoc; reflexivity].
    rewrite zlen_app, zlen_cons, LS. destruct Hm as [-> | ->]; lia.
  - replace (n * bpp) with (d * bpp + (n - d) * bpp) by ring. rewrite slice_split by nia.
    replace (a * bpp + d * bpp) with ((a + d) * bpp) by ring. subst h. destruct Hm as [-> | ->]; cbn [codes] in *.
    + cbn [app]. rewrite u8_small by lia. apply tga_raw; [lia|rewrite LS; ring|exact C].
    + cbn [app]. rewrite <- app_assoc, lor_128, u8_small by lia. apply sgi_raw; [lia|rewrite LS, (Hs eq_refl); lia|exact C].
  - apply bytes_app; auto. change (bytes ([h] ++ slice src (a * bpp) (d * bpp))). apply bytes_app; [|apply bytes_slice; auto].
    intros i. rewrite zlen_cons, zlen_nil. intros Hi. replace i with 0 by lia. cbn. subst h. destruct m; try apply u8_range. lia.
  - rewrite zlen_app, zlen_cons, LS. nia.
Qed.
