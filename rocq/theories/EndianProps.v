(** C51: numbers in files. *)
From Coq Require Import ZArith List Lia Bool.
From Verif Require Import Base Slices BitLemmas Enums Lump LumpSpec LumpProofs LumpProps Channels Endian.
Import ListNotations.
Open Scope Z_scope.

(** the four bytes of a number, most significant first *)
Definition big4 (v : Z) : list Z := [v / 16777216 mod 256; v / 65536 mod 256; v / 256 mod 256; v mod 256].
Definition big2 (v : Z) : list Z := [v / 256 mod 256; v mod 256].
Definition little4 (v : Z) : list Z := [v mod 256; v / 256 mod 256; v / 65536 mod 256; v / 16777216 mod 256].
Definition little2 (v : Z) : list Z := [v mod 256; v / 256 mod 256].

Lemma le2 : forall v, le 2 v = little2 v.
Proof. reflexivity. Qed.
Lemma le4 : forall v, le 4 v = little4 v.
Proof. intros v. unfold le, little4. rewrite !Z.div_div by lia. reflexivity. Qed.
Lemma unle4 : forall v, 0 <= v < 4294967296 -> unle (little4 v) = v.
Proof. intros v H. unfold little4. cbn [unle]. lia. Qed.
Lemma unle2 : forall v, 0 <= v < 65536 -> unle (little2 v) = v.
Proof. intros v H. unfold little2. cbn [unle]. lia. Qed.

Lemma lor_disj : forall k a b, 0 <= k -> 0 <= a < 2 ^ k -> Z.lor a (b * 2 ^ k) = a + b * 2 ^ k.
Proof.
  intros k a b Hk Ha. apply Z.bits_inj'. intros i Hi. rewrite Z.lor_spec.
  assert (D : Z.land a (b * 2 ^ k) = 0).
  { apply Z.bits_inj'. intros j Hj. rewrite Z.land_spec, Z.bits_0. destruct (Z.lt_ge_cases j k) as [L|L].
    - rewrite Z.mul_pow2_bits_low by lia. apply andb_false_r.
    - replace (Z.testbit a j) with false; [reflexivity|]. symmetry.
      destruct (Z.eq_dec a 0) as [->|]; [apply Z.bits_0|]. apply Z.bits_above_log2; [lia|]. apply Z.log2_lt_pow2; [lia|].
      apply Z.lt_le_trans with (2 ^ k); [lia|]. apply Z.pow_le_mono_r; lia. }
  rewrite <- Z.lor_spec. f_equal. symmetry. rewrite Z.add_nocarry_lxor by exact D. 
  apply Z.bits_inj'. intros j Hj. rewrite Z.lxor_spec, Z.lor_spec.
  assert (X : Z.testbit (Z.land a (b * 2 ^ k)) j = false) by (rewrite D; apply Z.bits_0). rewrite Z.land_spec in X.
  destruct (Z.testbit a j), (Z.testbit (b * 2 ^ k) j); auto; discriminate.
Qed.

Lemma swap16 : forall v, 0 <= v < 65536 -> iSwapUShort v = v / 256 + v mod 256 * 256.
Proof.
  intros v H. unfold iSwapUShort. rewrite Z.shiftr_div_pow2, Z.shiftl_mul_pow2 by lia.
  assert (E := lor_disj 8 (v / 2 ^ 8) v). rewrite E by (change (2 ^ 8) with 256; lia). change (2 ^ 8) with 256. unfold u16. change (2 ^ 16) with 65536. lia.
Qed.
Lemma swap32 : forall v, 0 <= v < 4294967296 ->
  iSwapUInt v = v / 16777216 + v / 65536 mod 256 * 256 + v / 256 mod 256 * 65536 + v mod 256 * 16777216.
Proof.
  intros v H. unfold iSwapUInt. rewrite !Z.shiftr_div_pow2, !Z.shiftl_mul_pow2 by lia.
  change 0xff00 with (255 * 2 ^ 8). change 0xff0000 with (255 * 2 ^ 16).
  assert (M : forall x k, 0 <= k -> Z.land x (255 * 2 ^ k) = x / 2 ^ k mod 256 * 2 ^ k).
  { intros x k Hk. apply Z.bits_inj'. intros i Hi. rewrite Z.land_spec. destruct (Z.lt_ge_cases i k) as [L|L].
    - rewrite !Z.mul_pow2_bits_low by lia. apply andb_false_r.
    - rewrite !Z.mul_pow2_bits by lia. change 255 with (Z.ones 8). change 256 with (2 ^ 8). rewrite <- Z.land_ones by lia.
      rewrite Z.land_spec, Z.div_pow2_bits by lia. do 2 f_equal. lia. }
  rewrite !M by lia. change (2 ^ 8) with 256. change (2 ^ 16) with 65536. change (2 ^ 24) with 16777216.
  assert (X1 : v / 256 / 256 = v / 65536) by (rewrite Z.div_div by lia; reflexivity). rewrite X1. clear X1.
  assert (X2 : u32 (v * 256) / 65536 mod 256 = v / 256 mod 256).
  { unfold u32. change 4294967296 with (16777216 * 256). rewrite Z.mul_mod_distr_r by lia. change 65536 with (256 * 256) at 1. rewrite <- Z.div_div by lia. rewrite Z.div_mul by lia.
    clear. lia. }
  rewrite X2. clear X2.
  assert (X3 : u32 (v * 16777216) = v mod 256 * 16777216).
  { unfold u32. change 4294967296 with (256 * 16777216). apply Z.mul_mod_distr_r; lia. }
  rewrite X3. clear X3.
  assert (B3 : 0 <= v / 16777216 < 256) by (clear - H; lia).
  assert (B2 := Z.mod_pos_bound (v / 65536) 256 ltac:(lia)). assert (B1 := Z.mod_pos_bound (v / 256) 256 ltac:(lia)).
  assert (B0 := Z.mod_pos_bound v 256 ltac:(lia)).
  set (b3 := v / 16777216) in *. set (b2 := v / 65536 mod 256) in *. set (b1 := v / 256 mod 256) in *. set (b0 := v mod 256) in *.
  clearbody b0 b1 b2 b3. clear H M.
  assert (E1 := lor_disj 8 b3 b2). change (2 ^ 8) with 256 in E1. rewrite E1 by lia.
  assert (E2 := lor_disj 16 (b3 + b2 * 256) b1). change (2 ^ 16) with 65536 in E2. rewrite E2 by lia.
  assert (E3 := lor_disj 24 (b3 + b2 * 256 + b1 * 65536) b0). change (2 ^ 24) with 16777216 in E3. rewrite E3 by lia.
  apply u32_small. lia.
Qed.

Lemma little4_digits : forall b0 b1 b2 b3, 0 <= b0 < 256 -> 0 <= b1 < 256 -> 0 <= b2 < 256 -> 0 <= b3 < 256 ->
  little4 (b0 + b1 * 256 + b2 * 65536 + b3 * 16777216) = [b0; b1; b2; b3].
Proof.
  intros b0 b1 b2 b3 H0 H1 H2 H3. unfold little4.
  assert (A : (b0 + b1 * 256 + b2 * 65536 + b3 * 16777216) / 256 = b1 + b2 * 256 + b3 * 65536) by (symmetry; apply Z.div_unique with b0; lia).
  assert (B : (b0 + b1 * 256 + b2 * 65536 + b3 * 16777216) / 65536 = b2 + b3 * 256) by (symmetry; apply Z.div_unique with (b0 + b1 * 256); lia).
  assert (C : (b0 + b1 * 256 + b2 * 65536 + b3 * 16777216) / 16777216 = b3) by (symmetry; apply Z.div_unique with (b0 + b1 * 256 + b2 * 65536); lia).
  rewrite A, B, C. f_equal; [|f_equal; [|f_equal; [|f_equal]]]; symmetry.
  - apply Z.mod_unique with (b1 + b2 * 256 + b3 * 65536); lia.
  - apply Z.mod_unique with (b2 + b3 * 256); lia.
  - apply Z.mod_unique with b3; lia.
  - symmetry; apply Z.mod_small; lia.
Qed.
Lemma swap32_bytes : forall v, 0 <= v < 4294967296 -> little4 (iSwapUInt v) = big4 v.
Proof.
  intros v H. rewrite swap32 by lia. assert (B3 : 0 <= v / 16777216 < 256) by (clear - H; lia).
  assert (B2 := Z.mod_pos_bound (v / 65536) 256 ltac:(lia)). assert (B1 := Z.mod_pos_bound (v / 256) 256 ltac:(lia)).
  assert (B0 := Z.mod_pos_bound v 256 ltac:(lia)). unfold big4. rewrite (Z.mod_small (v / 16777216)) by lia. apply little4_digits; lia.
Qed.
Lemma swap32_twice : forall v, 0 <= v < 4294967296 -> iSwapUInt (iSwapUInt v) = v.
Proof.
  intros v H. assert (R : 0 <= iSwapUInt v < 4294967296) by apply u32_range.
  assert (X := swap32_bytes v H). rewrite (swap32 (iSwapUInt v)) by auto. unfold little4, big4 in X. injection X as X0 X1 X2 X3.
  assert (R3 : 0 <= iSwapUInt v / 16777216 < 256) by (clear - R; lia). rewrite Z.mod_small in X3 by auto.
  rewrite X0, X1, X2, X3. clear - H. lia.
Qed.

(** C51a: what is written is the number in the stated byte order, and nothing else. *)
Theorem C51_order : forall v, 0 <= v < 4294967296 ->
  file_of (SaveLittleUInt v Done) = Some (little4 v) /\ file_of (SaveBigUInt v Done) = Some (big4 v) /\
  (v < 65536 -> file_of (SaveLittleUShort v Done) = Some (little2 v) /\ file_of (SaveBigUShort v Done) = Some (big2 v)).
Proof.
  intros v H. unfold SaveLittleUInt, SaveBigUInt, SaveLittleUShort, SaveBigUShort. rewrite !le4, !le2.
  split; [reflexivity|]. split; [|intros Hs; split; [reflexivity|]].
  - rewrite u32_small by lia. change (Some (little4 (iSwapUInt v)) = Some (big4 v)). f_equal. apply swap32_bytes. lia.
  - rewrite u16_small by lia. change (Some (little2 (iSwapUShort v)) = Some (big2 v)). f_equal. rewrite swap16 by lia.
    unfold little2, big2. f_equal; [lia|f_equal; lia].
Qed.

Lemma get_at : forall n pre b post stk e, 0 < n -> n < 4294967296 -> zlen b = n -> zlen stk = n -> zlen (pre ++ b ++ post) < 4294967295 ->
  get n stk (Rd (pre ++ b ++ post) (zlen pre) (zlen (pre ++ b ++ post)) e) =
  Ok (unle b, Rd (pre ++ b ++ post) (zlen pre + n) (zlen (pre ++ b ++ post)) e).
Proof.
  intros n pre b post stk e Hn Hn2 Hb Hs Hm. unfold get.
  assert (0 <= zlen pre) by auto. assert (0 <= zlen post) by auto.
  assert (L : zlen (pre ++ b ++ post) = zlen pre + n + zlen post) by (rewrite !zlen_app; lia).
  rewrite (C21_read (pre ++ b ++ post)) by (try (split; [reflexivity|cbn; lia]); lia). cbn [rpos rerr]. cbv zeta. rewrite Z.mul_1_r.
  assert (R : rest (pre ++ b ++ post) (zlen pre) n = b).
  { unfold rest, zlen. rewrite Nat2Z.id, skipn_app, skipn_all, Nat.sub_diag. cbn [skipn app].
    unfold zlen in Hb. rewrite <- Hb, Nat2Z.id. rewrite firstn_app, firstn_all, Nat.sub_diag. cbn [firstn]. apply app_nil_r. }
  rewrite R, Hb. cbn [bind]. rewrite Z.div_same by lia. rewrite Z.eqb_refl, app_nil_r.
  replace (skipn (length b) stk) with (@nil Z). 2:{ symmetry. apply skipn_all2. unfold zlen in *. lia. }
  rewrite app_nil_r. reflexivity.
Qed.

(** C51b: reading back what was written gives the number, in both byte orders, for the unsigned and
    the signed types, wherever it is in the input. *)
Theorem C51_roundtrip_partial : forall v pre post stk e, zlen stk = 4 -> zlen (pre ++ [0;0;0;0] ++ post) < 4294967295 ->
  let on b := Rd (pre ++ b ++ post) (zlen pre) (zlen (pre ++ b ++ post)) e in
  let after b n := Rd (pre ++ b ++ post) (zlen pre + n) (zlen (pre ++ b ++ post)) e in
  (0 <= v < 4294967296 ->
     (forall b, file_of (SaveLittleUInt v Done) = Some b -> GetLittleUInt stk (on b) = Ok (v, after b 4)) /\
     (forall b, file_of (SaveBigUInt v Done) = Some b -> GetBigUInt stk (on b) = Ok (v, after b 4))) /\
  (-2147483648 <= v < 2147483648 ->
     (forall b, file_of (SaveLittleInt v Done) = Some b -> GetLittleInt stk (on b) = Ok (v, after b 4)) /\
     (forall b, file_of (SaveBigInt v Done) = Some b -> GetBigInt stk (on b) = Ok (v, after b 4))).
Proof.
  intros v pre post stk e Hs Hm on after.
  assert (L : forall b, zlen b = 4 -> zlen (pre ++ b ++ post) < 4294967295) by (intros b Hb; rewrite !zlen_app in *; change (zlen [0;0;0;0]) with 4 in Hm; lia).
  assert (G : forall x, 0 <= x < 4294967296 -> get 4 stk (on (little4 x)) = Ok (x, after (little4 x) 4)).
  { intros x Hx. unfold on. rewrite get_at by (try reflexivity; try lia; auto). rewrite unle4 by lia. reflexivity. }
  assert (B : forall x, 0 <= x < 4294967296 -> 0 <= iSwapUInt x < 4294967296 /\ iSwapUInt (iSwapUInt x) = x).
  { intros x Hx. assert (0 <= iSwapUInt x < 4294967296) by apply u32_range. split; auto. apply swap32_twice. lia. }
  assert (U : forall x, 0 <= u32 x < 4294967296) by (intros; apply u32_range).
  assert (F : forall w, file_of (Write (le 4 w) 4 1 Done) = Some (le 4 w)) by (intros w; reflexivity).
  assert (U32 : forall w, le 4 w = little4 (u32 w)).
  { intros w. rewrite le4. unfold little4, u32. clear. f_equal; [lia|f_equal; [lia|f_equal; [lia|f_equal; lia]]]. }
  split; intros Hv; split; intros b Hb; unfold SaveLittleUInt, SaveBigUInt, SaveLittleInt, SaveBigInt in Hb; rewrite F in Hb; apply (f_equal (fun o => match o with Some x => x | None => [] end)) in Hb; cbv beta iota in Hb; subst b.
  - unfold GetLittleUInt. rewrite U32, u32_small by lia. apply G. lia.
  - unfold GetBigUInt. rewrite (u32_small v) by lia. destruct (B v Hv) as [B1 B2]. rewrite U32, (u32_small (iSwapUInt v)) by lia.
    rewrite G by lia. cbn [bind]. rewrite B2. reflexivity.
  - unfold GetLittleInt. rewrite U32. rewrite G by auto. cbn [bind]. do 2 f_equal. unfold signed, u32. change (2 ^ (8 * 4 - 1)) with 2147483648. change (2 ^ (8 * 4)) with 4294967296. change (2 ^ 32) with 4294967296.
    destruct (_ <? _) eqn:E; lia.
  - unfold GetBigInt. destruct (B (u32 v) (U v)) as [B1 B2]. rewrite U32, (u32_small (iSwapUInt _)) by lia. rewrite G by lia. cbn [bind]. rewrite B2.
    do 2 f_equal. unfold signed, u32. change (2 ^ (8 * 4 - 1)) with 2147483648. change (2 ^ (8 * 4)) with 4294967296. change (2 ^ 32) with 4294967296.
    destruct (_ <? _) eqn:E; lia.
Qed.

Theorem C51_roundtrip_short : forall v pre post stk e, zlen stk = 2 -> zlen (pre ++ [0;0] ++ post) < 4294967295 ->
  let on b := Rd (pre ++ b ++ post) (zlen pre) (zlen (pre ++ b ++ post)) e in
  let after b n := Rd (pre ++ b ++ post) (zlen pre + n) (zlen (pre ++ b ++ post)) e in
  (0 <= v < 65536 ->
     (forall b, file_of (SaveLittleUShort v Done) = Some b -> GetLittleUShort stk (on b) = Ok (v, after b 2)) /\
     (forall b, file_of (SaveBigUShort v Done) = Some b -> GetBigUShort stk (on b) = Ok (v, after b 2))) /\
  (-32768 <= v < 32768 ->
     (forall b, file_of (SaveLittleShort v Done) = Some b -> GetLittleShort stk (on b) = Ok (v, after b 2)) /\
     (forall b, file_of (SaveBigShort v Done) = Some b -> GetBigShort stk (on b) = Ok (v, after b 2))).
Proof.
  intros v pre post stk e Hs Hm on after.
  assert (L : forall b, zlen b = 2 -> zlen (pre ++ b ++ post) < 4294967295) by (intros b Hb; rewrite !zlen_app in *; change (zlen [0;0]) with 2 in Hm; lia).
  assert (G : forall x, 0 <= x < 65536 -> get 2 stk (on (little2 x)) = Ok (x, after (little2 x) 2)).
  { intros x Hx. unfold on. rewrite get_at by (try reflexivity; try lia; auto). rewrite unle2 by lia. reflexivity. }
  assert (B : forall x, 0 <= x < 65536 -> 0 <= iSwapUShort x < 65536 /\ iSwapUShort (iSwapUShort x) = x).
  { intros x Hx. assert (0 <= iSwapUShort x < 65536) by apply u16_range. split; auto. rewrite (swap16 (iSwapUShort x)) by lia. rewrite swap16 by lia. lia. }
  assert (U : forall x, 0 <= u16 x < 65536) by (intros; apply u16_range).
  assert (F : forall w, file_of (Write (le 2 w) 2 1 Done) = Some (le 2 w)) by (intros w; reflexivity).
  assert (U16 : forall w, le 2 w = little2 (u16 w)).
  { intros w. rewrite le2. unfold little2, u16. change (2 ^ 16) with 65536. f_equal; [lia|f_equal; lia]. }
  split; intros Hv; split; intros b Hb; unfold SaveLittleUShort, SaveBigUShort, SaveLittleShort, SaveBigShort in Hb; rewrite F in Hb; apply (f_equal (fun o => match o with Some x => x | None => [] end)) in Hb; cbv beta iota in Hb; subst b.
  - unfold GetLittleUShort. rewrite U16, u16_small by lia. apply G. lia.
  - unfold GetBigUShort. rewrite (u16_small v) by lia. destruct (B v Hv) as [B1 B2]. rewrite U16, (u16_small (iSwapUShort v)) by lia.
    rewrite G by lia. cbn [bind]. rewrite B2. reflexivity.
  - unfold GetLittleShort. rewrite U16. rewrite G by auto. cbn [bind]. do 2 f_equal. unfold signed, u16. change (2 ^ (8 * 2 - 1)) with 32768. change (2 ^ (8 * 2)) with 65536. change (2 ^ 16) with 65536.
    destruct (_ <? _) eqn:E; lia.
  - unfold GetBigShort. destruct (B (u16 v) (U v)) as [B1 B2]. rewrite U16, (u16_small (iSwapUShort _)) by lia. rewrite G by lia. cbn [bind]. rewrite B2.
    do 2 f_equal. unfold signed, u16. change (2 ^ (8 * 2 - 1)) with 32768. change (2 ^ (8 * 2)) with 65536. change (2 ^ 16) with 65536.
    destruct (_ <? _) eqn:E; lia.
Qed.

(** Counterexample for doubles: the swap overwrites the first half before copying it, so the low half
    of every double is lost. *)
Theorem C51_double_refuted : forall a0 a1 a2 a3 a4 a5 a6 a7,
  iSwapDouble [a0;a1;a2;a3;a4;a5;a6;a7] = Ok [a7;a6;a5;a4;a4;a5;a6;a7].
Proof. reflexivity. Qed.
Theorem C51_double_lost_refuted : forall a0 a1 a2 a3 a4 a5 a6 a7 p f,
  SaveBigDouble [a0;a1;a2;a3;a4;a5;a6;a7] Done = Ok p -> file_of p = Some f ->
  f = [a7;a6;a5;a4;a4;a5;a6;a7] /\
  forall stk, zlen stk = 8 -> exists r, GetBigDouble stk (iSetInputLump f (zlen f)) = Ok ([a7;a6;a5;a4;a4;a5;a6;a7], r).
Proof.
  intros a0 a1 a2 a3 a4 a5 a6 a7 p f E F. unfold SaveBigDouble in E. rewrite C51_double_refuted in E. cbn [bind] in E.
  injection E as <-. assert (f = [a7;a6;a5;a4;a4;a5;a6;a7]) as -> by (cbn in F; injection F as <-; reflexivity). split; [reflexivity|]. intros stk Hs.
  unfold GetBigDouble. rewrite (C21_read [a7;a6;a5;a4;a4;a5;a6;a7]) by (try (split; [reflexivity|cbn; lia]); change (zlen [a7;a6;a5;a4;a4;a5;a6;a7]) with 8; lia).
  cbv zeta. cbn [bind rpos iSetInputLump rerr].
  change (rest [a7;a6;a5;a4;a4;a5;a6;a7] 0 (8 * 1)) with [a7;a6;a5;a4;a4;a5;a6;a7].
  replace (skipn (length [a7;a6;a5;a4;a4;a5;a6;a7]) stk) with (@nil Z). 2:{ symmetry. apply skipn_all2. unfold zlen in *. cbn [length]. lia. }
  rewrite app_nil_r, C51_double_refuted. cbn [bind]. eauto.
Qed.

Example C51_ex : GetBigInt [9;9;9;9] (iSetInputLump [255;255;255;254;7] 5) = Ok (-2, Rd [255;255;255;254;7] 4 5 []) /\
  file_of (SaveBigInt (-2) Done) = Some [255;255;255;254].
Proof. vm_compute. auto. Qed.

Print Assumptions C51_order.
Print Assumptions C51_roundtrip_partial.
Print Assumptions C51_roundtrip_short.
Print Assumptions C51_double_refuted.
Print Assumptions C51_double_lost_refuted.
