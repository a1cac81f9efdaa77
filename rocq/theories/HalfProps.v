(** Property theorems C27: half-float conversions. *)
From Coq Require Import ZArith List Lia Bool.
From Verif Require Import Base BitLemmas Half HalfSpec HalfProofs.
Open Scope Z_scope.

Lemma hfields : forall y, 0 <= y < 65536 -> 0 <= hsign y <= 1 /\ 0 <= hexp y <= 31 /\ 0 <= hman y < 1024 /\
  y = hsign y * 32768 + hexp y * 1024 + hman y.
Proof. intros y H. unfold hsign, hexp, hman. change (2 ^ 15) with 32768. change (2 ^ 10) with 1024. lia. Qed.

(** a float pattern assembled from fields *)
Lemma assemble : forall s e m, 0 <= s <= 1 -> 0 <= e <= 255 -> 0 <= m < 8388608 ->
  let i := s * 2147483648 + e * 8388608 + m in
  0 <= i < 2 ^ 32 /\ fsign i = s /\ fexp i = e /\ fman i = m.
Proof.
  intros s e m Hs He Hm i. unfold fsign, fexp, fman, i. change (2 ^ 31) with 2147483648. change (2 ^ 23) with 8388608.
  change (2 ^ 32) with 4294967296. lia.
Qed.

Lemma lor_fields : forall s e m, 0 <= s <= 1 -> 0 <= e <= 255 -> 0 <= m < 1024 ->
  u32 (Z.lor (Z.lor (Z.shiftl s 31) (Z.shiftl e 23)) (Z.shiftl m 13)) = s * 2147483648 + e * 8388608 + m * 8192.
Proof.
  intros s e m Hs He Hm. rewrite !Z.shiftl_mul_pow2 by lia.
  rewrite lor_add by (change (2 ^ 31) with 2147483648; change (2 ^ 23) with 8388608; lia).
  replace (s * 2 ^ 31 + e * 2 ^ 23) with ((s * 256 + e) * 2 ^ 23) by (change (2 ^ 31) with (256 * 2 ^ 23); ring).
  rewrite lor_add by (change (2 ^ 13) with 8192; change (2 ^ 23) with 8388608; lia).
  change (2 ^ 13) with 8192. change (2 ^ 23) with 8388608. rewrite u32_small by lia. lia.
Qed.

Lemma land_1024 : forall m, 0 <= m < 2048 -> (Z.land m 1024 =? 0) = (m <? 1024).
Proof. intros m H. change 1024 with (2 ^ 10). rewrite land_pow2 by lia. change (2 ^ 10) with 1024. lia. Qed.

Lemma renorm_spec : forall fuel m e, 1 <= m < 2048 -> 1024 <= m * 2 ^ Z.of_nat fuel ->
  exists k, renorm fuel m e = Ok (m * 2 ^ k, e - k) /\ 0 <= k <= Z.of_nat fuel /\ 1024 <= m * 2 ^ k < 2048.
Proof.
  induction fuel as [|f IH]; intros m e Hm L; cbn [renorm]; rewrite land_1024 by lia.
  - cbn in L. replace (m <? 1024) with false by lia. exists 0. cbn [Z.of_nat]. rewrite Z.pow_0_r, Z.mul_1_r, Z.sub_0_r. repeat split; lia.
  - destruct (m <? 1024) eqn:E; [|exists 0; rewrite Z.pow_0_r, Z.mul_1_r, Z.sub_0_r; repeat split; lia].
    rewrite Z.shiftl_mul_pow2 by lia. change (2 ^ 1) with 2.
    rewrite Nat2Z.inj_succ, Z.pow_succ_r in L by lia.
    destruct (IH (m * 2) (e - 1)) as (k & E1 & K1 & K2); [lia|lia|]. exists (k + 1). rewrite E1.
    replace (m * 2 ^ (k + 1)) with (m * 2 * 2 ^ k) by (rewrite Z.pow_add_r by lia; change (2 ^ 1) with 2; ring).
    split; [f_equal; f_equal; lia|]. lia.
Qed.

Lemma h2f_eq : forall y, 0 <= y < 65536 -> 
  exists i, ilHalfToFloat y = Ok i /\ 0 <= i < 2 ^ 32 /\ fsign i = hsign y /\
   (hfinite y -> ffinite i /\ fmag i = hmag y * unit /\ (hmag y <> 0 -> 102 <= fexp i)) /\
   (hexp y = 31 -> fexp i = 255 /\ fman i = hman y * 8192).
Proof.
  intros y Hy. destruct (hfields y Hy) as (S & E & M & D). unfold ilHalfToFloat.
  assert (ES : Z.land (Z.shiftr y 15) 1 = hsign y).
  { change 1 with (2 ^ 1 - 1). rewrite land_mask, Z.shiftr_div_pow2 by lia. unfold hsign. apply Z.mod_small. unfold hsign in S. change (2 ^ 1) with 2. lia. }
  assert (EE : Z.land (Z.shiftr y 10) 31 = hexp y).
  { change 31 with (2 ^ 5 - 1). rewrite land_mask, Z.shiftr_div_pow2 by lia. reflexivity. }
  assert (EM : Z.land y 1023 = hman y).
  { change 1023 with (2 ^ 10 - 1). rewrite land_mask by lia. reflexivity. }
  rewrite ES, EE, EM. unfold hfinite, hmag, ffinite. set (s := hsign y) in *. set (e := hexp y) in *. set (m := hman y) in *.
  clearbody s e m. clear y Hy D ES EE EM. destruct (e =? 0) eqn:C1.
  - assert (e = 0) as -> by lia. destruct (m =? 0) eqn:C2.
    + exists (s * 2147483648). assert (A := assemble s 0 0 S ltac:(lia) ltac:(lia)). cbv zeta in A.
      replace (s * 2147483648 + 0 * 8388608 + 0) with (s * 2147483648) in A by lia. destruct A as (A1 & A2 & A3 & A4).
      split; [f_equal; rewrite Z.shiftl_mul_pow2 by lia; change (2 ^ 31) with 2147483648; apply u32_small; lia|].
      split; [exact A1|]. split; [exact A2|]. split; [|lia]. intros _. rewrite A3. split; [lia|]. split; [|lia].
      unfold fmag. rewrite A3, A4. cbn [Z.eqb]. replace m with 0 by lia. reflexivity.
    + destruct (renorm_spec 10 m 0) as (k & E1 & K1 & K2); [lia|change (2 ^ Z.of_nat 10) with 1024; lia|].
      rewrite E1. cbn [bind].
      assert (LN : Z.land (m * 2 ^ k) (Z.lnot 1024) = m * 2 ^ k - 1024).
      { set (x := m * 2 ^ k) in *. assert (X : x = 1 * 2 ^ 10 + (x - 1024)) by (change (2 ^ 10) with 1024; lia).
        rewrite <- Z.ldiff_land. rewrite X at 1. rewrite <- lor_add by (change (2 ^ 10) with 1024; lia).
        change 1024 with (2 ^ 10) at 2. set (z := x - 1024) in *. assert (0 <= z < 1024) by lia. clearbody z. clear X.
        apply Z.bits_inj'. intros n Hn. rewrite Z.ldiff_spec, Z.lor_spec, Z.mul_1_l.
        destruct (Z.eq_dec n 10) as [->|]; [|rewrite Z.pow2_bits_false by lia; cbn; rewrite andb_true_r; reflexivity].
        rewrite Z.pow2_bits_true by lia. rewrite andb_false_r. symmetry. 
        destruct (Z.eq_dec z 0) as [->|]; [apply Z.bits_0|]. apply Z.bits_above_log2; [lia|]. apply Z.log2_lt_pow2; [lia|]. change (2 ^ 10) with 1024. lia. }
      rewrite LN. rewrite lor_fields by lia. eexists. split; [reflexivity|].
      assert (A := assemble s (0 - k + 1 + (127 - 15)) ((m * 2 ^ k - 1024) * 8192) S ltac:(lia) ltac:(lia)). cbv zeta in A.
      destruct A as (A1 & A2 & A3 & A4). split; [exact A1|]. split; [exact A2|]. split; [|lia]. intros _. rewrite A3.
      split; [lia|]. split; [|lia]. unfold fmag. rewrite A3, A4. replace (0 - k + 1 + (127 - 15) =? 0) with false by lia.
      change (2 ^ 23) with 8388608. replace (8388608 + (m * 2 ^ k - 1024) * 8192) with (m * 2 ^ k * 2 ^ 13) by (change (2 ^ 13) with 8192; ring).
      cbn [Z.eqb]. unfold unit. change (2 ^ 10) with 1024.
      rewrite <- !Z.mul_assoc, <- !Z.pow_add_r by lia. do 2 f_equal. lia.
  - destruct (e =? 31) eqn:C2.
    + assert (e = 31) as -> by lia.
      assert (A := assemble s 255 (m * 8192) S ltac:(lia) ltac:(lia)). cbv zeta in A. destruct A as (A1 & A2 & A3 & A4).
      exists (s * 2147483648 + 255 * 8388608 + m * 8192). destruct (m =? 0) eqn:C3.
      * replace 2139095040 with (Z.shiftl 255 23) by reflexivity.
        assert (L := lor_fields s 255 0 S ltac:(lia) ltac:(lia)). change (Z.shiftl 0 13) with 0 in L. rewrite Z.lor_0_r in L.
        rewrite L. replace m with 0 in * by lia. split; [reflexivity|]. split; [exact A1|]. split; [exact A2|]. split; [lia|auto].
      * replace 2139095040 with (Z.shiftl 255 23) by reflexivity. rewrite lor_fields by lia. split; [reflexivity|].
        split; [exact A1|]. split; [exact A2|]. split; [lia|auto].
    + rewrite lor_fields by lia. eexists. split; [reflexivity|].
      assert (A := assemble s (e + (127 - 15)) (m * 8192) S ltac:(lia) ltac:(lia)). cbv zeta in A. destruct A as (A1 & A2 & A3 & A4).
      split; [exact A1|]. split; [exact A2|]. split; [|lia]. intros _. rewrite A3. split; [lia|]. split; [|lia].
      unfold fmag. rewrite A3, A4. replace (e + (127 - 15) =? 0) with false by lia.
      change (2 ^ 23) with 8388608. replace (8388608 + m * 8192) with ((1024 + m) * 2 ^ 13) by (change (2 ^ 13) with 8192; ring).
      unfold unit. change (2 ^ 10) with 1024. rewrite <- !Z.mul_assoc, <- !Z.pow_add_r by lia. do 2 f_equal. lia.
Qed.

(** C27a: converting a half to a float is exact: same sign, same magnitude for finite values;
    infinities become infinities and NaNs become NaNs; the conversion always ends. *)
Theorem C27_half_to_float_exact : forall y, 0 <= y < 65536 ->
  exists i, ilHalfToFloat y = Ok i /\ 0 <= i < 2 ^ 32 /\ fsign i = hsign y /\
    (hfinite y -> ffinite i /\ fmag i = hmag y * unit) /\ (hinf y -> finf i) /\ (hnan y -> fnan i).
Proof.
  intros y Hy. destruct (h2f_eq y Hy) as (i & E & R & S & F & N). exists i. split; [exact E|]. split; [exact R|]. split; [exact S|].
  split; [|split].
  - intros H. destruct (F H) as (F1 & F2 & _). auto.
  - intros [H1 H2]. destruct (N H1) as [N1 N2]. split; auto. rewrite N2, H2. reflexivity.
  - intros [H1 H2]. destruct (N H1) as [N1 N2]. split; auto. rewrite N2. lia.
Qed.
Print Assumptions C27_half_to_float_exact.
Example C27_h2f_ex : ilHalfToFloat 15360 = Ok 1065353216 /\ ilHalfToFloat 1 = Ok 864026624 /\ ilHalfToFloat 64511 = Ok 3347046400.
Proof. repeat split; reflexivity. Qed.

Lemma f2h_nan : forall i, 0 <= i < 2 ^ 32 -> fnan i ->
  ilFloatToHalf i = fsign i * 32768 + 31744 + (if fman i / 8192 =? 0 then 1 else fman i / 8192).
Proof.
  intros i Hi [N1 N2]. destruct (fields i Hi) as (S & E & M & D). unfold ilFloatToHalf.
  assert (ES : Z.land (Z.shiftr i 16) 32768 = fsign i * 2 ^ 15).
  { change 32768 with (2 ^ 15). rewrite land_pow2 by lia. rewrite Z.shiftr_div_pow2 by lia. f_equal.
    unfold fsign. change (2 ^ 16) with 65536. change (2 ^ 15) with 32768. change (2 ^ 31) with 2147483648. lia. }
  assert (EE : Z.land (Z.shiftr i 23) 255 = fexp i).
  { change 255 with (2 ^ 8 - 1). rewrite land_mask, Z.shiftr_div_pow2 by lia. reflexivity. }
  assert (EM : Z.land i 8388607 = fman i).
  { change 8388607 with (2 ^ 23 - 1). rewrite land_mask by lia. reflexivity. }
  rewrite ES, EE, EM, N1. change (255 - (127 - 15) <=? 0) with false. rewrite Z.eqb_refl. cbn match.
  replace (fman i =? 0) with false by lia. rewrite Z.shiftr_div_pow2 by lia. change (2 ^ 13) with 8192.
  rewrite lor_add by (change (2 ^ 15) with 32768; lia).
  set (q := fman i / 8192). assert (Hq : 0 <= q < 1024) by (unfold q; lia).
  replace (fsign i * 2 ^ 15 + 31744) with ((fsign i * 32 + 31) * 2 ^ 10) by (change (2 ^ 15) with 32768; change (2 ^ 10) with 1024; lia).
  destruct (q =? 0) eqn:Q.
  - replace q with 0 by lia. rewrite Z.lor_0_r. rewrite lor_add by (change (2 ^ 10) with 1024; lia). change (2 ^ 10) with 1024.
    rewrite u16_small by lia. lia.
  - rewrite Z.lor_0_r. rewrite lor_add by (change (2 ^ 10) with 1024; lia). change (2 ^ 10) with 1024. rewrite u16_small by lia. lia.
Qed.

(** C27b: a half converted to float and back is unchanged, bit for bit, for every half except
    the negative zero. *)
Theorem C27_roundtrip : forall y, 0 <= y < 65536 -> y <> 32768 ->
  exists i, ilHalfToFloat y = Ok i /\ ilFloatToHalf i = y.
Proof.
  intros y Hy Hz. destruct (h2f_eq y Hy) as (i & E & R & S & F & N). exists i. split; [exact E|].
  destruct (hfields y Hy) as (HS & HE & HM & D). destruct (Z.eq_dec (hexp y) 31) as [E31|E31].
  - destruct (N E31) as [N1 N2]. destruct (Z.eq_dec (hman y) 0) as [M0|M0].
    + destruct (f2h_eq i R) as [Q _]; [intros [_ Q]; lia|]. rewrite Q. unfold conv, norm_case. rewrite N1, N2, S. cbn [Z.ltb Z.leb Z.compare Pos.compare Pos.compare_cont].
      replace (Z.min 31744 ((255 - 112) * 1024 + (hman y * 8192 + 4096) / 8192)) with 31744 by lia. lia.
    + rewrite (f2h_nan i R) by (split; lia). rewrite S, N2, Z.div_mul by lia. replace (hman y =? 0) with false by lia. lia.
  - assert (HF : hfinite y) by (unfold hfinite; lia). destruct (F HF) as (F1 & F2 & F3).
    assert (NN : ~ fnan i) by (intros [Q _]; unfold ffinite in F1; lia).
    destruct (f2h_eq i R NN) as [Q QR]. destruct (bracket i R NN) as [B1 B2].
    set (p := y mod 32768). assert (Hp : 0 <= p < 31744) by (unfold p; lia).
    assert (Hm : hmag y = hmag p). { rewrite <- (hmag_sign (hsign y) p) by (unfold p; lia). f_equal. unfold p. lia. }
    assert (C : conv i = p).
    { rewrite F2, Hm in *. assert (U : 0 < unit) by reflexivity. destruct (Z.lt_trichotomy (conv i) p) as [L|[L|L]]; auto; exfalso.
      - specialize (B2 ltac:(lia)). assert (H1 := hmag_smono (conv i) p). assert (H2 := hmag_mono (conv i + 1) p). 
        assert (hmag (conv i) + hmag (conv i + 1) <= 2 * hmag p) by lia. 
        assert ((hmag (conv i) + hmag (conv i + 1)) * unit <= 2 * hmag p * unit) by (apply Z.mul_le_mono_nonneg_r; lia). lia.
      - specialize (B1 ltac:(lia)). assert (H1 := hmag_smono p (conv i)). assert (H2 := hmag_mono p (conv i - 1)). 
        assert (2 * hmag p < hmag (conv i - 1) + hmag (conv i)) by lia.
        assert (2 * hmag p * unit < (hmag (conv i - 1) + hmag (conv i)) * unit) by (apply Z.mul_lt_mono_pos_r; lia). lia. }
    rewrite Q, C, S. destruct (Z.eq_dec p 0) as [P0|P0].
    + unfold p in *. destruct (fexp i <? 102); lia.
    + assert (hmag y <> 0) by (rewrite Hm; assert (T := hmag_smono 0 p); rewrite (hmag_low 0) in T by lia; lia).
      specialize (F3 H). replace (fexp i <? 102) with false by lia. unfold p. lia.
Qed.
Print Assumptions C27_roundtrip.
Example C27_roundtrip_ex : ilFloatToHalf 1065353216 = 15360 /\ ilFloatToHalf 864026624 = 1.
Proof. split; reflexivity. Qed.

(** Finding: the negative zero becomes the positive zero, and so does every negative float too
    small for a half. *)
Theorem C27_minus_zero_refuted : exists i, ilHalfToFloat 32768 = Ok i /\ ilFloatToHalf i = 0.
Proof. exists 2147483648. split; reflexivity. Qed.
Print Assumptions C27_minus_zero_refuted.

(** C27c: for every float that is not a NaN the result is the correctly rounded half: no half is
    nearer to the float (for a result that is finite), and the sign is kept unless the result is
    zero. *)
Lemma conv_hmag : forall i, 0 <= i < 2 ^ 32 -> ~ fnan i -> 
  hmag (ilFloatToHalf i) = hmag (conv i) /\ (hsign (ilFloatToHalf i) = fsign i \/ ilFloatToHalf i = 0 /\ conv i = 0) /\
  0 <= ilFloatToHalf i < 65536 /\ hexp (ilFloatToHalf i) = conv i / 1024.
Proof.
  intros i Hi NN. destruct (f2h_eq i Hi NN) as [Q R]. destruct (fields i Hi) as (S & E & M & D). rewrite Q.
  destruct (fexp i <? 102) eqn:L.
  - assert (C : conv i = 0).
    { unfold conv. replace (fexp i <=? 112) with true by lia. destruct (Z.eq_dec (conv i) 0) as [C|C]; [unfold conv in C; replace (fexp i <=? 112) with true in C by lia; exact C|].
      exfalso. assert (F : fmag i < 2 ^ 124).
      { unfold fmag. destruct (fexp i =? 0) eqn:E0; [change (2 ^ 124) with (8388608 * 2 ^ 101); lia|].
        apply Z.lt_le_trans with (2 ^ 24 * 2 ^ (fexp i - 1)).
        - apply Z.mul_lt_mono_pos_r; [apply Z.pow_pos_nonneg; lia|]. change (2 ^ 23) with 8388608. change (2 ^ 24) with 16777216. lia.
        - change (2 ^ 124) with (2 ^ 24 * 2 ^ 100). apply Z.mul_le_mono_nonneg_l; [lia|]. apply Z.pow_le_mono_r; lia. }
      apply C. unfold conv. replace (fexp i <=? 112) with true by lia. apply Z.div_small. assert (0 <= fmag i) by (apply fmag_nonneg; auto). change (2 ^ 125) with (2 ^ 124 + 2 ^ 124). lia. }
    rewrite C. cbn [Z.add]. split; [reflexivity|]. split; [auto|]. split; [lia|]. reflexivity.
  - split; [apply hmag_sign; lia|]. split; [left; unfold hsign; change (2 ^ 15) with 32768; lia|]. split; [lia|].
    unfold hexp. change (2 ^ 10) with 1024. lia.
Qed.

Lemma nearest_mag : forall i, 0 <= i < 2 ^ 32 -> ~ fnan i ->
  let y := ilFloatToHalf i in
  0 <= y < 65536 /\ (hsign y = fsign i \/ y = 0) /\
  (hfinite y -> forall y', 0 <= y' < 65536 -> hfinite y' ->
     Z.abs (hmag y * unit - fmag i) <= Z.abs (hmag y' * unit - fmag i)).
Proof.
  intros i Hi NN y. destruct (conv_hmag i Hi NN) as (H1 & H2 & H3 & H4). destruct (f2h_eq i Hi NN) as [_ R].
  destruct (bracket i Hi NN) as [B1 B2]. unfold y. split; [exact H3|]. split; [tauto|].
  intros HF y' Hy' HF'. rewrite H1. unfold hfinite in HF. rewrite H4 in HF.
  set (c := conv i) in *. set (p := y' mod 32768). assert (Hp : 0 <= p < 31744) by (destruct (hfields y' Hy') as (A & B & C & D); unfold hfinite in HF'; unfold p; lia).
  assert (Hm : hmag y' = hmag p). { rewrite <- (hmag_sign (hsign y') p) by (unfold p; lia). f_equal. unfold p, hsign. change (2 ^ 15) with 32768. lia. }
  rewrite Hm. assert (U : 0 < unit) by reflexivity. specialize (B2 ltac:(lia)).
  destruct (Z.lt_trichotomy p c) as [L|[L|L]]; [|rewrite L; lia|].
  - specialize (B1 ltac:(lia)). assert (T := hmag_mono p (c - 1)). assert (T2 := hmag_mono (c - 1) c). assert (T3 := hmag_mono p c).
    assert (hmag p * unit <= hmag (c - 1) * unit) by (apply Z.mul_le_mono_nonneg_r; lia).
    assert (hmag p * unit <= hmag c * unit) by (apply Z.mul_le_mono_nonneg_r; lia). lia.
  - assert (T := hmag_mono (c + 1) p). assert (T3 := hmag_mono c p).
    assert (hmag (c + 1) * unit <= hmag p * unit) by (apply Z.mul_le_mono_nonneg_r; lia).
    assert (hmag c * unit <= hmag p * unit) by (apply Z.mul_le_mono_nonneg_r; lia). lia.
Qed.

Theorem C27_nearest : forall i, 0 <= i < 2 ^ 32 -> ~ fnan i ->
  let y := ilFloatToHalf i in
  0 <= y < 65536 /\ (hsign y = fsign i \/ y = 0) /\
  (hfinite y -> forall y', 0 <= y' < 65536 -> hfinite y' ->
     Z.abs (hval y * unit - fval i) <= Z.abs (hval y' * unit - fval i)).
Proof.
  intros i Hi NN y. destruct (nearest_mag i Hi NN) as (A & B & C). fold y in A, B, C. split; [exact A|]. split; [exact B|].
  intros HF y' Hy' HF'. specialize (C HF y' Hy' HF').
  assert (U : 0 < unit) by reflexivity. assert (F0 := fmag_nonneg i Hi).
  assert (P : forall z, 0 <= z < 65536 -> 0 <= hmag z * unit).
  { intros z Hz. apply Z.mul_nonneg_nonneg; [|lia]. unfold hmag. destruct (hfields z Hz) as (_ & _ & M & _).
    destruct (hexp z =? 0); [lia|]. apply Z.mul_nonneg_nonneg; [change (2 ^ 10) with 1024; lia|apply Z.pow_nonneg; lia]. }
  assert (Py := P y A). assert (Py' := P y' Hy').
  assert (Ey : Z.abs (hval y * unit - fval i) = Z.abs (hmag y * unit - fmag i)).
  { destruct B as [B|B].
    - unfold hval, fval. rewrite B. destruct (fsign i =? 0); [reflexivity|]. rewrite Z.mul_opp_l. lia.
    - rewrite B. change (hval 0) with 0. change (hmag 0) with 0. unfold fval. destruct (fsign i =? 0); lia. }
  rewrite Ey. etransitivity; [exact C|]. unfold hval, fval. clear - Py' F0. 
  destruct (hsign y' =? 0), (fsign i =? 0); rewrite ?Z.mul_opp_l; set (u := hmag y' * unit) in *; clearbody u; lia.
Qed.
Print Assumptions C27_nearest.
Example C27_nearest_ex : ilFloatToHalf 1065361408 = 15361 /\ ~ fnan 1065361408. (* 1 + 2^-10 *)
Proof. split; [reflexivity|]. intros [H _]. vm_compute in H. discriminate. Qed.

(** C27d: the conversion is monotone on everything but NaNs (infinities included: their [hmag]
    exceeds that of every finite half). *)
Theorem C27_monotone : forall i j, 0 <= i < 2 ^ 32 -> 0 <= j < 2 ^ 32 -> ~ fnan i -> ~ fnan j ->
  fval i <= fval j -> hval (ilFloatToHalf i) <= hval (ilFloatToHalf j).
Proof.
  assert (G : forall i j, 0 <= i < 2 ^ 32 -> 0 <= j < 2 ^ 32 -> ~ fnan i -> ~ fnan j -> fmag i <= fmag j -> hmag (conv i) <= hmag (conv j)).
  { intros i j Hi Hj Ni Nj L. destruct (f2h_eq i Hi Ni) as [_ Ri]. destruct (f2h_eq j Hj Nj) as [_ Rj].
    destruct (bracket i Hi Ni) as [B1 _]. destruct (bracket j Hj Nj) as [_ B2].
    destruct (Z.le_gt_cases (conv i) (conv j)); [apply hmag_mono; lia|]. exfalso.
    specialize (B1 ltac:(lia)). specialize (B2 ltac:(lia)).
    assert (T := hmag_mono (conv j) (conv i - 1)). assert (T2 := hmag_mono (conv j + 1) (conv i)).
    assert (U : 0 < unit) by reflexivity.
    assert ((hmag (conv j) + hmag (conv j + 1)) * unit <= (hmag (conv i - 1) + hmag (conv i)) * unit) by (apply Z.mul_le_mono_nonneg_r; lia). lia. }
  intros i j Hi Hj Ni Nj L. destruct (conv_hmag i Hi Ni) as (I1 & I2 & I3 & _). destruct (conv_hmag j Hj Nj) as (J1 & J2 & J3 & _).
  assert (P : forall k, 0 <= k < 2 ^ 32 -> ~ fnan k -> 0 <= hmag (conv k)).
  { intros k Hk Nk. destruct (f2h_eq k Hk Nk) as [_ Rk]. rewrite <- (hmag_low 0) by lia. apply hmag_mono; lia. }
  assert (Z0 : hmag 0 = 0) by reflexivity.
  assert (Vi : hval (ilFloatToHalf i) = if fsign i =? 0 then hmag (conv i) else - hmag (conv i)).
  { unfold hval. rewrite I1. destruct I2 as [-> |[-> C]]; [reflexivity|]. rewrite C, Z0. destruct (fsign i =? 0); reflexivity. }
  assert (Vj : hval (ilFloatToHalf j) = if fsign j =? 0 then hmag (conv j) else - hmag (conv j)).
  { unfold hval. rewrite J1. destruct J2 as [-> |[-> C]]; [reflexivity|]. rewrite C, Z0. destruct (fsign j =? 0); reflexivity. }
  rewrite Vi, Vj. unfold fval in L. assert (Pi := P i Hi Ni). assert (Pj := P j Hj Nj).
  assert (Fi := fmag_nonneg i Hi). assert (Fj := fmag_nonneg j Hj).
  destruct (fsign i =? 0), (fsign j =? 0).
  - apply G; auto.
  - assert (hmag (conv i) <= hmag (conv j)) by (apply G; auto; lia). assert (hmag (conv j) <= hmag (conv i)) by (apply G; auto; lia).
    assert (FZ : fmag i = 0 /\ fmag j = 0) by lia. 
    assert (C0 : conv i = 0).
    { unfold conv. assert (fexp i <= 112).
      { destruct (Z.le_gt_cases (fexp i) 112); auto. exfalso. destruct FZ as [FZ _]. unfold fmag in FZ. replace (fexp i =? 0) with false in FZ by lia.
        destruct (fields i Hi) as (_ & _ & M & _). assert (0 < (2 ^ 23 + fman i) * 2 ^ (fexp i - 1)); [|lia]. apply Z.mul_pos_pos; [change (2 ^ 23) with 8388608; lia|apply Z.pow_pos_nonneg; lia]. }
      replace (fexp i <=? 112) with true by lia. destruct FZ as [-> _]. reflexivity. }
    rewrite C0 in *. rewrite Z0 in *. lia.
  - lia.
  - assert (hmag (conv j) <= hmag (conv i)) by (apply G; auto; lia). lia.
Qed.
Print Assumptions C27_monotone.

(** C27e: NaNs stay NaNs. *)
Theorem C27_nan : forall i, 0 <= i < 2 ^ 32 -> fnan i -> hnan (ilFloatToHalf i) /\ hsign (ilFloatToHalf i) = fsign i.
Proof.
  intros i Hi N. rewrite (f2h_nan i Hi N). destruct (fields i Hi) as (S & E & M & D). unfold hnan, hexp, hman, hsign.
  change (2 ^ 10) with 1024. change (2 ^ 15) with 32768. destruct (fman i / 8192 =? 0) eqn:Q; lia.
Qed.
Print Assumptions C27_nan.
Example C27_nan_ex : fnan 2139095041 /\ ilFloatToHalf 2139095041 = 31745.
Proof. split; [split; [reflexivity|vm_compute; discriminate]|reflexivity]. Qed.
