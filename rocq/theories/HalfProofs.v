(** Proofs about the half-float conversions. *)
From Coq Require Import ZArith List Lia Bool.
From Verif Require Import Base BitLemmas Half HalfSpec.
Open Scope Z_scope.

Lemma bit12 : forall m, 0 <= m -> (if Z.land m 4096 =? 0 then m else m + 8192) / 8192 = (m + 4096) / 8192.
Proof.
  intros m H. change 4096 with (2 ^ 12) at 1. rewrite land_pow2 by lia. change (2 ^ 12) with 4096.
  destruct (m / 4096 mod 2 * 4096 =? 0) eqn:E; lia.
Qed.

Definition norm_case (i : Z) : Z := (fexp i - 112) * 1024 + (fman i + 4096) / 8192.

Lemma fields : forall i, 0 <= i < 2 ^ 32 -> 0 <= fsign i <= 1 /\ 0 <= fexp i <= 255 /\ 0 <= fman i < 8388608 /\
  i = fsign i * 2147483648 + fexp i * 8388608 + fman i.
Proof. intros i H. unfold fsign, fexp, fman. change (2 ^ 31) with 2147483648. change (2 ^ 23) with 8388608. lia. Qed.

(** the magnitude pattern produced for a float that is not a NaN *)
Definition conv (i : Z) : Z :=
  if fexp i <=? 112 then (fmag i + 2 ^ 124) / 2 ^ 125
  else Z.min 31744 (norm_case i).

Lemma f2h_eq : forall i, 0 <= i < 2 ^ 32 -> ~ fnan i ->
  ilFloatToHalf i = (if fexp i <? 102 then 0 else fsign i * 32768) + conv i /\ 0 <= conv i <= 31744.
Proof.
  intros i Hi NN. destruct (fields i Hi) as (S & E & M & D).
  assert (ES : Z.land (Z.shiftr i 16) 32768 = fsign i * 2 ^ 15).
  { change 32768 with (2 ^ 15). rewrite land_pow2 by lia. rewrite Z.shiftr_div_pow2 by lia. f_equal.
    unfold fsign. change (2 ^ 16) with 65536. change (2 ^ 15) with 32768. change (2 ^ 31) with 2147483648. lia. }
  assert (EE : Z.land (Z.shiftr i 23) 255 = fexp i).
  { change 255 with (2 ^ 8 - 1). rewrite land_mask, Z.shiftr_div_pow2 by lia. reflexivity. }
  assert (EM : Z.land i 8388607 = fman i).
  { change 8388607 with (2 ^ 23 - 1). rewrite land_mask by lia. reflexivity. }
  unfold ilFloatToHalf. rewrite ES, EE, EM. unfold conv. set (s := fsign i) in *. set (m := fman i) in *. set (e := fexp i) in *.
  destruct (e - (127 - 15) <=? 0) eqn:C1.
  - replace (e <=? 112) with true by lia. destruct (e - (127 - 15) <? -10) eqn:C2.
    + replace (e <? 102) with true by lia.
      assert (F : 0 <= fmag i < 2 ^ 124).
      { unfold fmag. fold e m. destruct (e =? 0) eqn:E0; [change (2 ^ 124) with (8388608 * 2 ^ 101); lia|].
        split; [apply Z.mul_nonneg_nonneg; [lia|apply Z.pow_nonneg; lia]|].
        replace (2 ^ 124) with (2 ^ 24 * 2 ^ 100) by reflexivity.
        apply Z.lt_le_trans with (2 ^ 24 * 2 ^ (e - 1)).
        - apply Z.mul_lt_mono_pos_r; [apply Z.pow_pos_nonneg; lia|]. change (2 ^ 23) with 8388608. change (2 ^ 24) with 16777216. lia.
        - apply Z.mul_le_mono_nonneg_l; [lia|]. apply Z.pow_le_mono_r; lia. }
      assert ((fmag i + 2 ^ 124) / 2 ^ 125 = 0) as ->; [|lia]. apply Z.div_small. lia.
    + replace (e <? 102) with false by lia.
      assert (EL : Z.lor m 8388608 = 8388608 + m) by (rewrite Z.lor_comm; change 8388608 with (1 * 2 ^ 23) at 1; rewrite lor_add by (change (2 ^ 23) with 8388608; lia); reflexivity).
      rewrite EL. rewrite (Z.shiftr_div_pow2 _ (1 - _)) by lia.
      set (r := (8388608 + m) / 2 ^ (1 - (e - (127 - 15)))).
      assert (R0 : 0 <= r) by (apply Z.div_pos; [lia|apply Z.pow_pos_nonneg; lia]).
      rewrite (Z.shiftr_div_pow2 _ 13) by lia. change (2 ^ 13) with 8192. rewrite bit12 by lia.
      assert (Q : (r + 4096) / 8192 = (fmag i + 2 ^ 124) / 2 ^ 125 /\ 0 <= (r + 4096) / 8192 <= 1024).
      { unfold r, fmag. fold e m. replace (e =? 0) with false by lia. set (k := 1 - (e - (127 - 15))) in *.
        assert (P0 : 0 < 2 ^ k) by (apply Z.pow_pos_nonneg; lia). assert (P1 : 0 < 2 ^ (112 - k)) by (apply Z.pow_pos_nonneg; lia).
        assert (A : ((8388608 + m) / 2 ^ k + 4096) / 8192 = (8388608 + m + 4096 * 2 ^ k) / (2 ^ k * 8192)).
        { rewrite <- Z.div_add by lia. rewrite Z.div_div by lia. reflexivity. }
        rewrite A. split.
        - replace (e - 1) with (112 - k) by lia. change (2 ^ 23) with 8388608.
          assert (E124 : 2 ^ 124 = 4096 * 2 ^ k * 2 ^ (112 - k)).
          { rewrite <- Z.mul_assoc, <- Z.pow_add_r by lia. replace (k + (112 - k)) with 112 by ring. reflexivity. }
          assert (E125 : 2 ^ 125 = 2 ^ k * 8192 * 2 ^ (112 - k)).
          { replace (2 ^ k * 8192 * 2 ^ (112 - k)) with (8192 * (2 ^ k * 2 ^ (112 - k))) by ring.
            rewrite <- Z.pow_add_r by lia. replace (k + (112 - k)) with 112 by ring. reflexivity. }
          rewrite E124, E125, <- Z.mul_add_distr_r. rewrite Z.div_mul_cancel_r by lia. reflexivity.
        - assert (K2 : 2 <= 2 ^ k) by (change 2 with (2 ^ 1) at 1; apply Z.pow_le_mono_r; lia). split; [apply Z.div_pos; lia|].
          assert ((8388608 + m + 4096 * 2 ^ k) / (2 ^ k * 8192) < 1025); [|lia]. apply Z.div_lt_upper_bound; lia. }
      destruct Q as [Q1 Q2]. rewrite <- Q1. rewrite lor_add by (change (2 ^ 15) with 32768; lia).
      change (2 ^ 15) with 32768. rewrite u16_small by lia. lia.
  - replace (e <=? 112) with false by lia. replace (e <? 102) with false by lia. unfold norm_case. fold e m.
    destruct (e - (127 - 15) =? 255 - (127 - 15)) eqn:C2.
    + assert (m = 0) by (destruct (Z.eq_dec m 0); auto; exfalso; apply NN; split; [lia|auto]).
      replace (m =? 0) with true by lia. rewrite lor_add by (change (2 ^ 15) with 32768; lia). change (2 ^ 15) with 32768.
      rewrite u16_small by lia. lia.
    + change 4096 with (2 ^ 12) at 1. rewrite land_pow2 by lia. change (2 ^ 12) with 4096.
      set (me := if m / 4096 mod 2 * 4096 =? 0 then _ else _).
      assert (ME : 0 <= fst me < 8388608 /\ (snd me) * 1024 + fst me / 8192 = (e - 112) * 1024 + (m + 4096) / 8192 /\ 1 <= snd me).
      { unfold me. assert (LP : Z.land (m + 8192) 8388608 = ((m + 8192) / 8388608 mod 2) * 8388608) by exact (land_pow2 (m + 8192) 23 ltac:(lia)). rewrite LP. clear LP. destruct (m / 4096 mod 2 * 4096 =? 0) eqn:B; [cbn [fst snd]; lia|].
        assert (B3 : (m + 8192) / 8388608 mod 2 = (m + 8192) / 8388608) by (apply Z.mod_small; lia). rewrite B3.
        assert (B4 : (m + 4096) / 8192 = m / 8192 + 1) by lia. rewrite B4.
        destruct ((m + 8192) / 8388608 * 8388608 =? 0) eqn:B2; cbn [fst snd]; clear - M B2 C1; lia. }
      destruct me as [m1 e1]. cbn [fst snd] in ME. destruct ME as (ME1 & ME2 & ME3).
      destruct (30 <? e1) eqn:C3.
      * rewrite lor_add by (change (2 ^ 15) with 32768; lia). change (2 ^ 15) with 32768. rewrite u16_small by lia. lia.
      * rewrite Z.shiftl_mul_pow2, Z.shiftr_div_pow2 by lia. change (2 ^ 13) with 8192.
        rewrite lor_add by (change (2 ^ 15) with 32768; change (2 ^ 10) with 1024; lia).
        replace (s * 2 ^ 15 + e1 * 2 ^ 10) with ((s * 32 + e1) * 2 ^ 10) by (change (2 ^ 15) with 32768; change (2 ^ 10) with 1024; lia).
        rewrite lor_add by (change (2 ^ 10) with 1024; lia). change (2 ^ 10) with 1024. rewrite u16_small by lia. lia.
Qed.

(** magnitudes of half patterns *)
Lemma hmag_low : forall p, 0 <= p <= 2048 -> hmag p = p.
Proof.
  intros p H. unfold hmag, hexp, hman. change (2 ^ 10) with 1024. 
  destruct (Z.eq_dec p 2048) as [->|]; [reflexivity|].
  destruct (Z.lt_ge_cases p 1024).
  - replace (p / 1024 mod 32 =? 0) with true by lia. lia.
  - replace (p / 1024 mod 32) with 1 by lia. cbn [Z.eqb]. change (2 ^ (1 - 1)) with 1. lia.
Qed.
Lemma hmag_bin : forall e q, 1 <= e <= 31 -> 0 <= q <= 1024 -> e * 1024 + q < 32768 -> hmag (e * 1024 + q) = (1024 + q) * 2 ^ (e - 1).
Proof.
  intros e q He Hq Hl. unfold hmag, hexp, hman. change (2 ^ 10) with 1024.
  destruct (Z.eq_dec q 1024) as [->|].
  - replace ((e * 1024 + 1024) / 1024 mod 32) with (e + 1) by lia. replace (e + 1 =? 0) with false by lia.
    replace ((e * 1024 + 1024) mod 1024) with 0 by lia. replace (e + 1 - 1) with (1 + (e - 1)) by lia.
    rewrite Z.pow_add_r by lia. change (2 ^ 1) with 2. ring.
  - replace ((e * 1024 + q) / 1024 mod 32) with e by lia. replace (e =? 0) with false by lia.
    replace ((e * 1024 + q) mod 1024) with q by lia. reflexivity.
Qed.

Lemma hmag_step : forall p, 0 <= p < 32767 -> hmag p < hmag (p + 1).
Proof.
  intros p H. destruct (Z.lt_ge_cases p 2048); [rewrite !hmag_low by lia; lia|].
  assert (D : p = (p / 1024) * 1024 + p mod 1024) by lia. set (e := p / 1024) in *. set (q := p mod 1024) in *.
  assert (1 <= e <= 31 /\ 0 <= q < 1024) by (unfold e, q; lia). clearbody e q. subst p.
  replace (e * 1024 + q + 1) with (e * 1024 + (q + 1)) by ring. rewrite !hmag_bin by lia.
  apply Z.mul_lt_mono_pos_r; [apply Z.pow_pos_nonneg; lia|lia].
Qed.
Lemma hmag_mono : forall p q, 0 <= p -> p <= q -> q < 32768 -> hmag p <= hmag q.
Proof.
  intros p q Hp Hpq Hq. assert (G : forall k, p + Z.of_nat k < 32768 -> hmag p <= hmag (p + Z.of_nat k)).
  { induction k as [|k IH]; intros L; [rewrite Z.add_0_r; lia|]. assert (T := hmag_step (p + Z.of_nat k)).
    rewrite Nat2Z.inj_succ in *. unfold Z.succ in *. rewrite Z.add_assoc. lia. }
  specialize (G (Z.to_nat (q - p))). rewrite Z2Nat.id in G by lia. replace (p + (q - p)) with q in G by ring. auto.
Qed.
Lemma hmag_smono : forall p q, 0 <= p -> p < q -> q < 32768 -> hmag p < hmag q.
Proof. intros p q Hp Hpq Hq. assert (A := hmag_mono (p + 1) q). assert (B := hmag_step p). lia. Qed.

(** the sign bit does not matter for the magnitude *)
Lemma hmag_sign : forall s p, 0 <= p < 32768 -> hmag (s * 32768 + p) = hmag p.
Proof.
  intros s p H. unfold hmag, hexp, hman. change (2 ^ 10) with 1024.
  replace ((s * 32768 + p) / 1024 mod 32) with (p / 1024 mod 32) by lia.
  replace ((s * 32768 + p) mod 1024) with (p mod 1024) by lia. reflexivity.
Qed.

Lemma fmag_nonneg : forall i, 0 <= i < 2 ^ 32 -> 0 <= fmag i.
Proof.
  intros i Hi. destruct (fields i Hi) as (S & E & M & D). unfold fmag.
  destruct (fexp i =? 0) eqn:E0; [lia|]. apply Z.mul_nonneg_nonneg; [|apply Z.pow_nonneg; lia]. change (2 ^ 23) with 8388608. lia.
Qed.

(** the float lies between the midpoints around its half *)
Lemma bracket : forall i, 0 <= i < 2 ^ 32 -> ~ fnan i ->
  (1 <= conv i -> (hmag (conv i - 1) + hmag (conv i)) * unit <= 2 * fmag i) /\
  (conv i < 31744 -> 2 * fmag i < (hmag (conv i) + hmag (conv i + 1)) * unit).
Proof.
  intros i Hi NN. destruct (f2h_eq i Hi NN) as [_ R]. destruct (fields i Hi) as (S & E & M & D). assert (F0 := fmag_nonneg i Hi).
  unfold conv in *. destruct (fexp i <=? 112) eqn:C.
  - assert (FU : fmag i < 2 ^ 135).
    { unfold fmag. destruct (fexp i =? 0) eqn:E0; [change (2 ^ 135) with (8388608 * 2 ^ 112); lia|].
      apply Z.lt_le_trans with (2 ^ 24 * 2 ^ (fexp i - 1)).
      - apply Z.mul_lt_mono_pos_r; [apply Z.pow_pos_nonneg; lia|]. change (2 ^ 23) with 8388608. change (2 ^ 24) with 16777216. lia.
      - change (2 ^ 135) with (2 ^ 24 * 2 ^ 111). apply Z.mul_le_mono_nonneg_l; [lia|]. apply Z.pow_le_mono_r; lia. }
    set (f := fmag i) in *. clearbody f. unfold unit in *.
    assert (P : 0 <= (f + 2 ^ 124) / 2 ^ 125 <= 1024).
    { change (2 ^ 124) with 21267647932558653966460912964485513216 in *. change (2 ^ 125) with 42535295865117307932921825928971026432 in *. change (2 ^ 135) with 43556142965880123323311949751266331066368 in *. lia. }
    set (p := (f + 2 ^ 124) / 2 ^ 125) in *.
    assert (Q : p * 2 ^ 125 <= f + 2 ^ 124 < (p + 1) * 2 ^ 125).
    { unfold p. assert (T := Z.mul_div_le (f + 2 ^ 124) (2 ^ 125)). assert (T2 := Z.mul_succ_div_gt (f + 2 ^ 124) (2 ^ 125)). lia. }
    replace (2 ^ 125) with (2 * 2 ^ 124) in * by reflexivity. generalize dependent (2 ^ 124). intros u Q FU'.
    split; intros H; rewrite !hmag_low by lia; nia.
  - assert (NC : 2 * fmag i = 2 * ((8388608 + fman i) * 2 ^ (fexp i - 1))) by (unfold fmag; replace (fexp i =? 0) with false by lia; reflexivity).
    unfold norm_case in *. set (e := fexp i - 112) in *. set (m := fman i) in *. set (q := (m + 4096) / 8192) in *.
    assert (Hq : 0 <= q <= 1024) by (unfold q; lia).
    assert (PW : 2 ^ (fexp i - 1) = 2 ^ (e - 1) * 2 ^ 112) by (rewrite <- Z.pow_add_r by (unfold e; lia); f_equal; unfold e; lia).
    rewrite PW in NC. assert (U : unit = 8192 * 2 ^ 112) by reflexivity. rewrite U, NC.
    assert (P0 : 0 < 2 ^ 112) by (apply Z.pow_pos_nonneg; lia). assert (P1 : 0 < 2 ^ (e - 1)) by (apply Z.pow_pos_nonneg; unfold e; lia).
    assert (He : 1 <= e) by (unfold e; lia).
    destruct (Z.le_gt_cases (e * 1024 + q) 31744) as [Lo|Hi'].
    + rewrite Z.min_r by lia. assert (He2 : e <= 31) by lia.
      assert (H0 : hmag (e * 1024 + q) = (1024 + q) * 2 ^ (e - 1)) by (apply hmag_bin; lia). rewrite H0. split; intros H.
      * destruct (Z.eq_dec q 0) as [Q0|Q0].
        -- assert (hmag (e * 1024 + q - 1) <= hmag (e * 1024 + q)) by (apply hmag_mono; lia). rewrite H0 in H1.
           rewrite Q0 in *. set (x := hmag (e * 1024 + 0 - 1)) in *. clearbody x.
           assert ((x + (1024 + 0) * 2 ^ (e - 1)) <= 2048 * 2 ^ (e - 1)) by lia.
           assert ((x + (1024 + 0) * 2 ^ (e - 1)) * (8192 * 2 ^ 112) <= 2048 * 2 ^ (e - 1) * (8192 * 2 ^ 112)) by (apply Z.mul_le_mono_nonneg_r; lia).
           nia.
        -- replace (e * 1024 + q - 1) with (e * 1024 + (q - 1)) by ring. rewrite hmag_bin by lia.
           assert ((2047 + 2 * q) * 8192 <= 2 * (8388608 + m)) by (unfold q; lia).
           replace (((1024 + (q - 1)) * 2 ^ (e - 1) + (1024 + q) * 2 ^ (e - 1)) * (8192 * 2 ^ 112)) with ((2047 + 2 * q) * 8192 * (2 ^ (e - 1) * 2 ^ 112)) by ring.
           rewrite (Z.mul_assoc 2 (8388608 + m)). apply Z.mul_le_mono_nonneg_r; [|lia]. apply Z.mul_nonneg_nonneg; lia.
      * replace (e * 1024 + q + 1) with (e * 1024 + (q + 1)) by ring.
        destruct (Z.eq_dec q 1024) as [Q0|Q0].
        -- assert (hmag (e * 1024 + q) <= hmag (e * 1024 + (q + 1))) by (apply hmag_mono; lia). rewrite H0 in H1.
           set (x := hmag (e * 1024 + (q + 1))) in *. clearbody x. rewrite Q0 in *.
           apply Z.lt_le_trans with (4096 * 2 ^ (e - 1) * (8192 * 2 ^ 112)).
           ++ replace (4096 * 2 ^ (e - 1) * (8192 * 2 ^ 112)) with (33554432 * (2 ^ (e - 1) * 2 ^ 112)) by ring.
              rewrite (Z.mul_assoc 2 (8388608 + m)). apply Z.mul_lt_mono_pos_r; [apply Z.mul_pos_pos; lia|lia].
           ++ apply Z.mul_le_mono_nonneg_r; lia.
        -- rewrite hmag_bin by lia.
           assert (2 * (8388608 + m) < (2049 + 2 * q) * 8192) by (unfold q; lia).
           replace (((1024 + q) * 2 ^ (e - 1) + (1024 + (q + 1)) * 2 ^ (e - 1)) * (8192 * 2 ^ 112)) with ((2049 + 2 * q) * 8192 * (2 ^ (e - 1) * 2 ^ 112)) by ring.
           rewrite (Z.mul_assoc 2 (8388608 + m)). apply Z.mul_lt_mono_pos_r; [apply Z.mul_pos_pos; lia|lia].
    + rewrite Z.min_l by lia. split; [intros _|lia].
      assert (H1 : hmag 31744 = 2 ^ 40) by reflexivity. assert (H2 : hmag (31744 - 1) = 2047 * 2 ^ 29) by reflexivity. rewrite H1, H2.
      assert (LB : 4095 * 2 ^ 29 * 8192 <= 2 * (8388608 + m) * 2 ^ (e - 1)).
      { destruct (Z.eq_dec e 30) as [E30|].
        - rewrite E30. change (2 ^ (30 - 1)) with (2 ^ 29). assert (2047 * 8192 + 4096 <= 8388608 + m); [|change (2^29) with 536870912; lia]. lia.
        - assert (2 ^ 30 <= 2 ^ (e - 1)) by (apply Z.pow_le_mono_r; lia). change (2 ^ 30) with 1073741824 in *. change (2 ^ 29) with 536870912. nia. }
      change (2047 * 2 ^ 29 + 2 ^ 40) with (4095 * 2 ^ 29).
      replace (4095 * 2 ^ 29 * (8192 * 2 ^ 112)) with (4095 * 2 ^ 29 * 8192 * 2 ^ 112) by ring.
      replace (2 * ((8388608 + m) * (2 ^ (e - 1) * 2 ^ 112))) with (2 * (8388608 + m) * 2 ^ (e - 1) * 2 ^ 112) by ring.
      apply Z.mul_le_mono_nonneg_r; [lia|exact LB].
Qed.
