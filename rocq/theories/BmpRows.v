(** Lemmas about the bitmap model: rows of pixels, colour masks. *)
From Coq Require Import ZArith List Lia Bool.
From Verif Require Import Base Slices BitLemmas Scatter Enums Utility Image ImageSpec ImageProps Elem Flip Lump LumpSpec LumpProofs LumpProps Channels Endian EndianProps Raw RawProps Pcx PcxProofs PcxProps PcxSafe Pal Bmp BmpSpec BmpProofs.
Import ListNotations.
Open Scope Z_scope.

Definition skips (skip : Z -> reader -> res reader) : Prop :=
  forall F p e n, 0 <= n <= 4 -> 0 <= p -> p + n <= zlen F -> 0 < zlen F < 4294967295 -> skip n (Rd F p (zlen F) e) = Ok (Rd F (p + n) (zlen F) e).
Lemma skips_read : skips read_pad.
Proof. exact pad_in. Qed.
Lemma skips_seek : skips seek_pad.
Proof. intros F p e n Hn Hp HF Hm. apply seek_pad_in; lia. Qed.

Lemma row_in : forall H j S p N, 0 <= j < H -> 0 <= S -> p + H * S <= N -> 0 <= p -> 0 <= p + j * S /\ p + j * S + S <= N /\ p + (j + 1) * S = p + j * S + S.
Proof. intros. nia. Qed.

Lemma rows1_ok : forall skip F p e W H d, skips skip -> 0 < W -> 0 <= H -> H * W <= zlen d -> zlen d < 4294967296 -> 0 <= p -> p + H * bmp_stride W 1 <= zlen F -> zlen F < 4294967295 -> 0 < zlen F ->
  exists d', rows1 skip W H d (Rd F p (zlen F) e) = Ok (true, (d', Rd F (p + H * bmp_stride W 1) (zlen F) e)) /\ zlen d' = zlen d /\
    forall y i, 0 <= y < H -> 0 <= i < W -> geti d' (y * W + i) = sample 1 F (p + y * bmp_stride W 1) i 0.
Proof.
  intros skip F p e W H d SK HW HH HS HL Hp HF HFl HFp. unfold rows1. apply rows_rule; try lia.
  intros j d1 Hj L1. assert (S0 : 0 <= bmp_stride W 1) by (unfold bmp_stride; lia). destruct (row_in H j _ p _ Hj S0 HF Hp) as (P0 & P1 & P2).
  assert (J : 0 <= j * W /\ j * W + W <= zlen d) by nia. rewrite u32_small by lia. unfold bmp_stride in *. remember ((W * 1 + 31) / 32 * 4) as S eqn:ES. remember (p + j * S) as q eqn:Eq.
  destruct (row1_ok (Z.to_nat W) F q e W (j * W) 0 d1) as (d2 & E2 & F2); try lia. change (p + j * S) with (p + j * S) in *.
  replace (q + (0 + 7) / 8) with q in E2 by (change ((0 + 7) / 8) with 0; lia). rewrite E2. cbn [bind].
  unfold pad1. rewrite SK by lia. cbn [bind]. exists d2. split.
  - do 4 f_equal. lia.
  - rewrite Z.add_0_r, Z.sub_0_r in F2. subst q. exact F2.
Qed.

Lemma rows4_ok : forall skip F p e W H d, skips skip -> 0 < W -> 0 <= H -> H * W <= zlen d -> zlen d < 4294967296 -> 0 <= p -> p + H * bmp_stride W 4 <= zlen F -> zlen F < 4294967295 -> 0 < zlen F ->
  exists d', rows4 skip W H d (Rd F p (zlen F) e) = Ok (true, (d', Rd F (p + H * bmp_stride W 4) (zlen F) e)) /\ zlen d' = zlen d /\
    forall y i, 0 <= y < H -> 0 <= i < W -> geti d' (y * W + i) = sample 4 F (p + y * bmp_stride W 4) i 0.
Proof.
  intros skip F p e W H d SK HW HH HS HL Hp HF HFl HFp. unfold rows4. apply rows_rule; try lia.
  intros j d1 Hj L1. assert (S0 : 0 <= bmp_stride W 4) by (unfold bmp_stride; lia). destruct (row_in H j _ p _ Hj S0 HF Hp) as (P0 & P1 & P2).
  assert (J : 0 <= j * W /\ j * W + W <= zlen d) by nia. rewrite u32_small by lia. unfold bmp_stride in *. remember ((W * 4 + 31) / 32 * 4) as S eqn:ES. remember (p + j * S) as q eqn:Eq.
  destruct (row4_ok (Z.to_nat W) F q e W (j * W) 0 d1) as (d2 & E2 & F2); try lia.
  replace (q + (0 + 1) / 2) with q in E2 by (change ((0 + 1) / 2) with 0; lia). rewrite E2. cbn [bind].
  unfold pad4. rewrite SK by lia. cbn [bind]. exists d2. split.
  - do 4 f_equal. lia.
  - rewrite Z.add_0_r, Z.sub_0_r, Z.max_r in F2 by lia. subst q. exact F2.
Qed.

(** ** Masks *)
Definition the_mask (m : mask * mask * mask) (k : Z) : mask := let '(b, g, r) := m in if k =? 0 then b else if k =? 1 then g else r.

Lemma write3 : forall d i a b c, 0 <= i -> i + 3 <= zlen d -> 
  wr d i a = Ok (upd d i a) /\ wr (upd d i a) (i + 1) b = Ok (upd (upd d i a) (i + 1) b) /\ wr (upd (upd d i a) (i + 1) b) (i + 2) c = Ok (upd (upd (upd d i a) (i + 1) b) (i + 2) c) /\
  filled d (upd (upd (upd d i a) (i + 1) b) (i + 2) c) i 3 (fun q => if q =? 0 then a else if q =? 1 then b else c).
Proof.
  intros d i a b c Hi HL. assert (L1 : zlen (upd d i a) = zlen d) by (apply zlen_upd; lia). assert (L2 : zlen (upd (upd d i a) (i + 1) b) = zlen d) by (rewrite zlen_upd; lia).
  split; [apply wr_ok; lia|]. split; [apply wr_ok; lia|]. split; [apply wr_ok; lia|]. split; [rewrite zlen_upd; lia|].
  intros q Hq. rewrite !geti_upd by lia. destruct (q =? i + 2) eqn:E2.
  - replace ((i <=? q) && (q <? i + 3)) with true by lia. replace (q - i =? 0) with false by lia. replace (q - i =? 1) with false by lia. reflexivity.
  - destruct (q =? i + 1) eqn:E1.
    + replace ((i <=? q) && (q <? i + 3)) with true by lia. replace (q - i =? 0) with false by lia. replace (q - i =? 1) with true by lia. reflexivity.
    + destruct (q =? i) eqn:E0.
      * replace ((i <=? q) && (q <? i + 3)) with true by lia. replace (q - i =? 0) with true by lia. reflexivity.
      * replace ((i <=? q) && (q <? i + 3)) with false by lia. reflexivity.
Qed.

Lemma rows16_ok : forall m F p e W H d, 0 < W -> 0 <= H -> H * (3 * W) <= zlen d -> zlen d < 4294967296 -> 0 <= p -> p + H * bmp_stride W 16 <= zlen F -> zlen F < 4294967295 -> 0 < zlen F -> 2 * W < 4294967296 ->
  exists d', rows16 m W H d (Rd F p (zlen F) e) = Ok (true, (d', Rd F (p + H * bmp_stride W 16) (zlen F) e)) /\ zlen d' = zlen d /\
    forall y i, 0 <= y < H -> 0 <= i < 3 * W -> geti d' (y * (3 * W) + i) = extract (pixel_value 16 F (p + y * bmp_stride W 16) (i / 3)) (the_mask m (i mod 3)).
Proof.
  intros ((mb, mg), mr) F p e W H d HW HH HS HL Hp HF HFl HFp HW2. unfold rows16. apply rows_rule; try lia.
  intros j d1 Hj L1. assert (S0 : 0 <= bmp_stride W 16) by (unfold bmp_stride; lia). destruct (row_in H j _ p _ Hj S0 HF Hp) as (P0 & P1 & P2).
  assert (J : 0 <= j * W /\ 3 * (j * W) + 3 * W <= zlen d) by nia. remember (bmp_stride W 16) as S eqn:ES. remember (p + j * S) as q eqn:Eq. remember (j * W) as jw eqn:Ejw. replace (j * (3 * W)) with (3 * jw) by lia.
  match goal with |- context [until _ 0 ?b] => destruct (until_rule (fun i s => exists d', s = (d', Rd F (q + 2 * i) (zlen F) e) /\ filled d1 d' (3 * jw) (3 * i) (fun t => extract (pixel_value 16 F q (t / 3)) (the_mask (mb, mg, mr) (t mod 3)))) b (Z.to_nat W) 0 (d1, Rd F q (zlen F) e)) as (s & E & d2 & -> & F2) end.
  - exists d1. rewrite Z.mul_0_r, Z.add_0_r. split; [reflexivity|]. apply filled_0.
  - rewrite Z2Nat.id by lia. intros i s Hi (d2 & -> & F2). unfold bmp_stride in ES. rewrite item2 by lia. cbn [bind negb]. assert (L2 := proj1 F2).
    replace (3 * (jw + i)) with (3 * jw + 3 * i) by lia. rewrite !u32_small by lia. set (v := word2 F (q + 2 * i)).
    destruct (write3 d2 (3 * jw + 3 * i) (extract v mb) (extract v mg) (extract v mr)) as (W1 & W2 & W3 & FW); [lia|lia|]. rewrite W1. cbn [bind]. rewrite W2. cbn [bind]. rewrite W3. cbn [bind].
    eexists. split; [reflexivity|]. eexists. split; [do 2 f_equal; lia|]. eapply filled_ext; [| |eapply filled_app; [| |exact F2|exact FW]]; try lia.
    intros t Ht. cbv beta. destruct (t <? 3 * i) eqn:Et; [reflexivity|]. unfold pixel_value. change (16 =? 16) with true. cbv iota. replace (t / 3) with i by lia. fold v. unfold the_mask. replace (t - 3 * i) with (t mod 3) by lia.
    destruct (t mod 3 =? 0); [reflexivity|]. destruct (t mod 3 =? 1); reflexivity.
  - rewrite E. cbn [bind]. rewrite Z2Nat.id in F2 |- * by lia. rewrite (u32_small (W * 2)) by lia. rewrite Z.add_0_l in *. unfold bmp_stride in ES. unfold padb. rewrite pad_in by lia. cbn [bind]. exists d2. split; [do 4 f_equal; lia|]. exact F2.
Qed.

Lemma zeros_pow : forall n s m, 0 <= s <= Z.of_nat n -> Z.odd m = true -> zeros n (m * 2 ^ s) = s.
Proof.
  induction n as [|n IH]; intros s m Hs Hm; cbn [zeros]; [lia|]. destruct (s =? 0) eqn:E.
  - replace s with 0 by lia. rewrite Z.pow_0_r, Z.mul_1_r, Hm. reflexivity.
  - assert (X : m * 2 ^ s = m * 2 ^ (s - 1) * 2) by (replace s with (s - 1 + 1) at 1 by lia; rewrite Z.pow_add_r by lia; change (2 ^ 1) with 2; lia). rewrite X. rewrite Z.odd_mul. replace (Z.odd 2) with false by reflexivity. rewrite andb_false_r. rewrite Z.div_mul by lia. rewrite IH by (auto; lia). lia.
Qed.
Lemma ones_half : forall m, 0 <= m -> (2 ^ (m + 1) - 1) / 2 = 2 ^ m - 1 /\ Z.odd (2 ^ (m + 1) - 1) = true.
Proof.
  intros m Hm. rewrite Z.pow_add_r by lia. change (2 ^ 1) with 2. split; [lia|]. replace (2 ^ m * 2 - 1) with (1 + 2 * (2 ^ m - 1)) by lia. rewrite Z.odd_add_mul_2. reflexivity.
Qed.
Lemma ones_pow : forall n m, 0 <= m -> ones n (2 ^ m - 1) = Z.min (Z.of_nat n) m.
Proof.
  induction n as [|n IH]; intros m Hm; cbn [ones]; [lia|]. destruct (m =? 0) eqn:E.
  - replace m with 0 by lia. reflexivity.
  - destruct (ones_half (m - 1)) as (A & B); [lia|]. replace (m - 1 + 1) with m in * by lia. rewrite B, A, IH by lia. lia.
Qed.
Lemma shift_mask : forall m s n, mask_bits m s n -> GetShiftFromMask m = (8 - Z.min 8 n, s).
Proof.
  intros m s n (H1 & H2 & H3 & ->). unfold GetShiftFromMask. assert (P : 0 < 2 ^ s) by (apply Z.pow_pos_nonneg; lia). destruct (ones_half (n - 1)) as (A & B); [lia|]. replace (n - 1 + 1) with n in * by lia.
  assert (Q : 0 < 2 ^ n - 1) by (assert (1 < 2 ^ n) by (apply Z.pow_gt_1; lia); lia).
  replace ((2 ^ n - 1) * 2 ^ s =? 0) with false by nia. rewrite zeros_pow by (auto; lia). rewrite Z.shiftr_div_pow2, Z.div_mul by lia. rewrite ones_pow by lia. reflexivity.
Qed.
Lemma land_field : forall v s n, 0 <= s -> 0 <= n -> Z.shiftr (Z.land v ((2 ^ n - 1) * 2 ^ s)) s = v / 2 ^ s mod 2 ^ n.
Proof.
  intros v s n Hs Hn. rewrite Z.shiftr_land. rewrite Z.shiftr_div_pow2 by lia. rewrite (Z.shiftr_div_pow2 (_ * _)) by lia. rewrite Z.div_mul by (apply Z.pow_nonzero; lia).
  replace (2 ^ n - 1) with (Z.ones n) by (rewrite Z.ones_equiv; lia). rewrite Z.land_ones by lia. reflexivity.
Qed.
Lemma extract_field : forall v m s n, mask_bits m s n -> n <= 8 -> extract v (m, GetShiftFromMask m) = field v s n.
Proof.
  intros v m s n HM Hn. unfold extract. rewrite (shift_mask _ _ _ HM). destruct HM as (H1 & H2 & H3 & ->). rewrite land_field by lia. rewrite Z.shiftl_mul_pow2 by lia. rewrite Z.min_r by lia.
  assert (0 <= v / 2 ^ s mod 2 ^ n < 2 ^ n) by (apply Z.mod_pos_bound, Z.pow_pos_nonneg; lia). assert (E : 2 ^ n * 2 ^ (8 - n) = 256) by (rewrite <- Z.pow_add_r by lia; replace (n + (8 - n)) with 8 by lia; reflexivity). assert (0 < 2 ^ (8 - n)) by (apply Z.pow_pos_nonneg; lia).
  rewrite u32_small by nia. rewrite u8_small by nia. reflexivity.
Qed.
Lemma extract_wide : forall v m s n, mask_bits m s n -> 8 <= n -> extract v (m, GetShiftFromMask m) = v / 2 ^ s mod 256.
Proof.
  intros v m s n HM Hn. unfold extract. rewrite (shift_mask _ _ _ HM). destruct HM as (H1 & H2 & H3 & ->). rewrite land_field by lia. rewrite Z.min_l by lia. change (8 - 8) with 0. rewrite Z.shiftl_0_r.
  assert (0 <= v / 2 ^ s mod 2 ^ n < 2 ^ n) by (apply Z.mod_pos_bound, Z.pow_pos_nonneg; lia). assert (2 ^ n <= 2 ^ 32) by (apply Z.pow_le_mono_r; lia). change (2 ^ 32) with 4294967296 in *. rewrite u32_small by lia.
  unfold u8. change 256 with (2 ^ 8). replace n with (8 + (n - 8)) by lia. rewrite Z.pow_add_r by lia. symmetry.
  rewrite Z.rem_mul_r by (try apply Z.pow_nonzero; lia || (apply Z.pow_pos_nonneg; lia)). change (2 ^ 8) with 256. rewrite Z.mul_comm, Z.mod_add, Z.mod_mod by lia. reflexivity.
Qed.
Lemma default16 : forall v k, 0 <= k < 3 -> extract v (the_mask masks16 k) = field v (5 * k) 5.
Proof.
  intros v k Hk. assert (k = 0 \/ k = 1 \/ k = 2) as [ -> | [ -> | -> ]] by lia; cbn [the_mask masks16 Z.eqb Pos.eqb].
  - apply (extract_field v 31 0 5); [unfold mask_bits; cbn; lia|lia].
  - apply (extract_field v 992 5 5); [unfold mask_bits; cbn; lia|lia].
  - apply (extract_field v 31744 10 5); [unfold mask_bits; cbn; lia|lia].
Qed.
Lemma default32 : forall F o k, 0 <= k < 3 -> bytes F -> 0 <= o -> o + 4 <= zlen F -> extract (word4 F o) (the_mask masks32 k) = geti F (o + k).
Proof.
  intros F o k Hk G Ho HF.
  assert (G0 := G o ltac:(lia)). assert (G1 := G (o + 1) ltac:(lia)). assert (G2 := G (o + 2) ltac:(lia)). assert (G3 := G (o + 2 + 1) ltac:(lia)). unfold word4, word2.
  assert (k = 0 \/ k = 1 \/ k = 2) as [ -> | [ -> | -> ]] by lia; cbn [the_mask masks32 Z.eqb Pos.eqb].
  - rewrite (extract_field _ 255 0 8); [|unfold mask_bits; cbn; lia|lia]. unfold field. change (2 ^ 0) with 1. change (2 ^ (8 - 8)) with 1. change (2 ^ 8) with 256. rewrite Z.add_0_r. lia.
  - rewrite (extract_field _ 65280 8 8); [|unfold mask_bits; cbn; lia|lia]. unfold field. change (2 ^ (8 - 8)) with 1. change (2 ^ 8) with 256. lia.
  - rewrite (extract_field _ 16711680 16 8); [|unfold mask_bits; cbn; lia|lia]. unfold field. change (2 ^ (8 - 8)) with 1. change (2 ^ 16) with 65536. change (2 ^ 8) with 256. lia.
Qed.
