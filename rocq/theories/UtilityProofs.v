From Coq Require Import ZArith List Lia Bool.
From Verif Require Import Base Enums Utility.
Import ListNotations.
Open Scope Z_scope.

Lemma np2_loop_spec : forall fuel k n, 0 <= k <= 31 -> 0 <= n <= 2 ^ 31 ->
  (k = 0 \/ 2 ^ (k - 1) < n) -> (Z.to_nat (31 - k) <= fuel)%nat ->
  exists j, 0 <= j <= 31 /\ np2_loop fuel (2 ^ k) n = Ok (2 ^ j) /\ n <= 2 ^ j /\ (j = 0 \/ 2 ^ (j - 1) < n).
Proof.
  induction fuel as [|fuel IH]; intros k n Hk Hn Hlt Hf; cbn [np2_loop].
  - assert (k = 31) by lia. subst k.
    replace (2 ^ 31 <? n) with false by lia. exists 31. repeat split; auto; lia.
  - destruct (2 ^ k <? n) eqn:E.
    + assert (k < 31).
      { destruct (Z.eq_dec k 31); [subst k; lia|lia]. }
      rewrite Z.shiftl_mul_pow2 by lia.
      replace (2 ^ k * 2 ^ 1) with (2 ^ (k + 1)) by (rewrite Z.pow_add_r; lia).
      assert (2 ^ (k + 1) <= 2 ^ 31) by (apply Z.pow_le_mono_r; lia).
      assert (0 < 2 ^ (k + 1)) by (apply Z.pow_pos_nonneg; lia).
      rewrite u32_small by lia.
      apply IH; try lia. right. replace (k + 1 - 1) with k by lia. lia.
    + exists k. repeat split; auto; try lia.
Qed.

Lemma np2_loop_diverges : forall fuel power n, 2 ^ 31 < n ->
  (exists k, 0 <= k <= 31 /\ power = 2 ^ k) \/ power = 0 ->
  np2_loop fuel power n = Fuel.
Proof.
  induction fuel as [|fuel IH]; intros power n Hn Hp; cbn [np2_loop].
  - replace (power <? n) with true; auto. symmetry. apply Z.ltb_lt.
    destruct Hp as [[k [Hk ->]]| ->]; [|lia].
    assert (2 ^ k <= 2 ^ 31) by (apply Z.pow_le_mono_r; lia). lia.
  - assert (E : (power <? n) = true).
    { apply Z.ltb_lt. destruct Hp as [[k [Hk ->]]| ->]; [|lia].
      assert (2 ^ k <= 2 ^ 31) by (apply Z.pow_le_mono_r; lia). lia. }
    rewrite E. apply IH; auto.
    destruct Hp as [[k [Hk ->]]| ->]; [|right; reflexivity].
    rewrite Z.shiftl_mul_pow2 by lia.
    replace (2 ^ k * 2 ^ 1) with (2 ^ (k + 1)) by (rewrite Z.pow_add_r; lia).
    destruct (Z.eq_dec k 31) as [->|].
    + right. reflexivity.
    + left. exists (k + 1). split; [lia|].
      assert (2 ^ (k + 1) <= 2 ^ 31) by (apply Z.pow_le_mono_r; lia).
      assert (0 < 2 ^ (k + 1)) by (apply Z.pow_pos_nonneg; lia).
      apply u32_small. lia.
Qed.

(** memcpy inside one buffer, pointwise *)
Lemma memcpy_self_spec : forall b doff soff n,
  0 <= doff -> 0 <= soff -> 0 <= n -> doff + n <= zlen b -> soff + n <= zlen b ->
  (n = 0 \/ doff + n <= soff \/ soff + n <= doff) ->
  exists r, memcpy_self b doff soff n = Ok r /\ zlen r = zlen b /\
    forall j, 0 <= j -> geti r j =
      if (doff <=? j) && (j <? doff + n) then geti b (soff + (j - doff)) else geti b j.
Proof.
  intros. unfold memcpy_self.
  replace ((n =? 0) || (doff + n <=? soff) || (soff + n <=? doff)) with true by lia.
  apply memcpy_spec; auto.
Qed.

(** what exchanging [n] bytes at [o1] and [o2] means *)
Definition swapped (b r : list Z) (o1 o2 n : Z) : Prop :=
  zlen r = zlen b /\ forall j, 0 <= j -> geti r j =
    if (o1 <=? j) && (j <? o1 + n) then geti b (o2 + (j - o1))
    else if (o2 <=? j) && (j <? o2 + n) then geti b (o1 + (j - o2))
    else geti b j.

Lemma swap_step_spec : forall n o1 o2 b blk,
  0 <= n <= zlen blk -> 0 <= o1 -> 0 <= o2 -> o1 + n <= zlen b -> o2 + n <= zlen b ->
  (o1 + n <= o2 \/ o2 + n <= o1) ->
  exists r blk', swap_step n o1 o2 (b, blk) = Ok (r, blk') /\ zlen blk' = zlen blk /\ swapped b r o1 o2 n.
Proof.
  intros n o1 o2 b blk Hn H1 H2 H3 H4 Hd. unfold swap_step.
  destruct (memcpy_spec blk 0 b o1 n) as [blk1 [E1 [L1 S1]]]; try lia. rewrite E1. cbn [bind].
  destruct (memcpy_self_spec b o1 o2 n) as [b1 [E2 [L2 S2]]]; try lia. rewrite E2. cbn [bind].
  destruct (memcpy_spec b1 o2 blk1 0 n) as [b2 [E3 [L3 S3]]]; try lia. rewrite E3. cbn [bind].
  exists b2, blk1. repeat split; auto; try lia.
  intros j Hj. rewrite S3 by lia.
  destruct ((o2 <=? j) && (j <? o2 + n)) eqn:Ea.
  - destruct ((o1 <=? j) && (j <? o1 + n)) eqn:Eb; [lia|].
    rewrite S1 by lia.
    replace ((0 <=? 0 + (j - o2)) && (0 + (j - o2) <? 0 + n)) with true by lia.
    f_equal; lia.
  - rewrite S2 by lia. destruct ((o1 <=? j) && (j <? o1 + n)) eqn:Eb; auto.
Qed.

Lemma swapped_app : forall b r s o1 o2 n m, 0 <= n -> 0 <= m -> 0 <= o1 -> 0 <= o2 ->
  (o1 + n + m <= o2 \/ o2 + n + m <= o1) ->
  swapped b r o1 o2 n -> swapped r s (o1 + n) (o2 + n) m -> swapped b s o1 o2 (n + m).
Proof.
  intros b r s o1 o2 n m Hn Hm H1 H2 Hd [L1 S1] [L2 S2]. split; [lia|].
  intros j Hj. rewrite S2 by lia.
  destruct ((o1 + n <=? j) && (j <? o1 + n + m)) eqn:Ea.
  - replace ((o1 <=? j) && (j <? o1 + (n + m))) with true by lia.
    rewrite S1 by lia.
    replace ((o1 <=? o2 + n + (j - (o1 + n))) && (o2 + n + (j - (o1 + n)) <? o1 + n)) with false by lia.
    replace ((o2 <=? o2 + n + (j - (o1 + n))) && (o2 + n + (j - (o1 + n)) <? o2 + n)) with false by lia.
    f_equal; lia.
  - destruct ((o2 + n <=? j) && (j <? o2 + n + m)) eqn:Eb.
    + replace ((o1 <=? j) && (j <? o1 + (n + m))) with false by lia.
      replace ((o2 <=? j) && (j <? o2 + (n + m))) with true by lia.
      rewrite S1 by lia.
      replace ((o1 <=? o1 + n + (j - (o2 + n))) && (o1 + n + (j - (o2 + n)) <? o1 + n)) with false by lia.
      replace ((o2 <=? o1 + n + (j - (o2 + n))) && (o1 + n + (j - (o2 + n)) <? o2 + n)) with false by lia.
      f_equal; lia.
    + rewrite S1 by lia.
      destruct ((o1 <=? j) && (j <? o1 + n)) eqn:Ec.
      * replace ((o1 <=? j) && (j <? o1 + (n + m))) with true by lia. reflexivity.
      * replace ((o1 <=? j) && (j <? o1 + (n + m))) with false by lia.
        destruct ((o2 <=? j) && (j <? o2 + n)) eqn:Ed.
        -- replace ((o2 <=? j) && (j <? o2 + (n + m))) with true by lia. reflexivity.
        -- replace ((o2 <=? j) && (j <? o2 + (n + m))) with false by lia. reflexivity.
Qed.

Lemma swapped_0 : forall b o1 o2, swapped b b o1 o2 0.
Proof.
  intros b o1 o2. split; auto. intros j Hj.
  replace ((o1 <=? j) && (j <? o1 + 0)) with false by lia.
  replace ((o2 <=? j) && (j <? o2 + 0)) with false by lia. reflexivity.
Qed.

Lemma iMemSwap_spec : forall blk b o1 o2 size,
  zlen blk = 4096 -> 0 <= size < 4294967296 -> 0 <= o1 -> 0 <= o2 ->
  o1 + size <= zlen b -> o2 + size <= zlen b -> (o1 + size <= o2 \/ o2 + size <= o1) ->
  exists r, iMemSwap (Some blk) b o1 o2 size = Ok r /\ swapped b r o1 o2 size.
Proof.
  intros blk b o1 o2 size Hblk Hs H1 H2 H3 H4 Hd. unfold iMemSwap.
  set (blocks := size / 4096).
  assert (Hb : blocks * 4096 <= size < blocks * 4096 + 4096) by (unfold blocks; lia).
  assert (Hb0 : 0 <= blocks) by (unfold blocks; lia).
  destruct (loop_rule _ (fun i (st : list Z * list Z) =>
      zlen (snd st) = 4096 /\ swapped b (fst st) o1 o2 (i * 4096)) 0 blocks
      (fun i st => swap_step 4096 (o1 + i * 4096) (o2 + i * 4096) st) (b, blk)) as [[b1 blk1] [E [L S]]].
  - lia.
  - cbn [fst snd]. split; auto. apply swapped_0.
  - intros k [c blkc] Hk [Lc Sc]. cbn [fst snd] in *.
    assert (Hlc : zlen c = zlen b) by (apply Sc).
    destruct (swap_step_spec 4096 (o1 + k * 4096) (o2 + k * 4096) c blkc) as [r [blk' [E [Lb Sb]]]]; try lia.
    exists (r, blk'). split; [exact E|]. cbn [fst snd]. split; [lia|].
    replace ((k + 1) * 4096) with (k * 4096 + 4096) by lia.
    apply (swapped_app b c r); try lia; auto.
  - rewrite E. cbn [bind fst snd] in *.
    rewrite u32_small by lia.
    assert (Hl1 : zlen b1 = zlen b) by (apply S).
    destruct (0 <? size - blocks * 4096) eqn:Er.
    + destruct (swap_step_spec (size - blocks * 4096) (o1 + blocks * 4096) (o2 + blocks * 4096) b1 blk1)
        as [r [blk' [E2 [Lb Sb]]]]; try lia.
      rewrite E2. cbn [bind]. exists r. split; auto.
      replace size with (blocks * 4096 + (size - blocks * 4096)) by lia.
      apply (swapped_app b b1 r); try lia; auto.
    + exists b1. split; auto. replace size with (blocks * 4096) by lia. exact S.
Qed.
