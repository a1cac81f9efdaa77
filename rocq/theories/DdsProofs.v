(** Loading DirectDraw surfaces: the header, the data of a level, all levels. *)
From Coq Require Import ZArith List Lia Bool.
From Verif Require Import Base Slices BitLemmas Elem Enums Utility Image ImageSpec Lump LumpSpec LumpProofs LumpProps Endian ConvImgProps PcxProofs Tga TgaProofs BmpSpec BmpDecode DxtSpec Dxt DxtProofs DxtDecode DxtProps Dds DdsSpec DdsPixels.
Import ListNotations.
Open Scope Z_scope.

(** ** Flags *)
Lemma has_bit : forall f k, 0 <= k -> has f (2 ^ k) = Z.testbit f k.
Proof.
  intros f k Hk. unfold has. destruct (Z.testbit f k) eqn:E.
  - destruct (Z.land f (2 ^ k) =? 0) eqn:Q; [|reflexivity]. exfalso. apply Z.eqb_eq in Q. assert (X : Z.testbit (Z.land f (2 ^ k)) k = true) by (rewrite Z.land_spec, E, Z.pow2_bits_true by lia; reflexivity). rewrite Q, Z.bits_0 in X. discriminate.
  - assert (Z.land f (2 ^ k) = 0) as ->; [|reflexivity]. apply Z.bits_inj'. intros i Hi. rewrite Z.land_spec, Z.bits_0. destruct (Z.eq_dec i k) as [-> | ]; [rewrite E; reflexivity|]. rewrite Z.pow2_bits_false by lia. apply andb_false_r.
Qed.
Lemma has_or : forall f a b, has f (Z.lor a b) = has f a || has f b.
Proof.
  intros f a b. unfold has. rewrite Z.land_lor_distr_r. destruct (Z.land f a =? 0) eqn:A; destruct (Z.land f b =? 0) eqn:B; cbn [negb orb].
  - apply Z.eqb_eq in A, B. rewrite A, B. reflexivity.
  - apply Z.eqb_eq in A. rewrite A, Z.lor_0_l, B. reflexivity.
  - apply Z.eqb_eq in B. rewrite B, Z.lor_0_r, A. reflexivity.
  - destruct (Z.lor (Z.land f a) (Z.land f b) =? 0) eqn:C; [|reflexivity]. apply Z.eqb_eq, Z.lor_eq_0_iff in C. lia.
Qed.

Section Input.
Variable (F : list Z).
Hypothesis (BF : bytes F) (HF : zlen F < 4294967295).
Notation R p e := (Rd F p (zlen F) e).

(** ** The header *)
Lemma words_ok : forall n u4 k p e, (forall i, zlen (u4 i) = 4) -> 0 <= p -> p + 4 * Z.of_nat n <= zlen F ->
  words n u4 k (R p e) = Ok (map (fun i => word4 F (p + 4 * Z.of_nat i)) (seq 0 n), R (p + 4 * Z.of_nat n) e).
Proof using HF.
  induction n as [|n IH]; intros u4 k p e HU Hp Hl; cbn [words seq map]; [do 3 f_equal; lia|]. rewrite getu4 by (auto; lia). cbn [bind]. rewrite IH by (auto; lia). cbn [bind].
  replace (p + 4 + 4 * Z.of_nat n) with (p + 4 * Z.of_nat (S n)) by lia. replace (p + 4 * Z.of_nat 0) with p by lia. rewrite <- seq_shift, map_map. do 3 f_equal. apply map_ext. intros i. f_equal. lia.
Qed.
Definition head_of : dds :=
  mkDds (slice F 0 4) (word4 F 4) (word4 F 8) (word4 F 12) (word4 F 16) (word4 F 20) (word4 F 24) (word4 F 28) (word4 F 76) (word4 F 80)
    (word4 F 84) (word4 F 88) (word4 F 92) (word4 F 96) (word4 F 100) (word4 F 104) (word4 F 108) (word4 F 112).
Lemma get_head : forall sg u4 e, zlen sg = 4 -> (forall i, zlen (u4 i) = 4) -> 128 <= zlen F -> iGetDdsHead sg u4 (R 0 e) = Ok (head_of, R 128 e).
Proof using HF.
  intros sg u4 e LS HU HL. unfold iGetDdsHead. rewrite read_in by lia. cbn [bind]. rewrite words_ok by (auto; lia). cbn [bind]. reflexivity.
Qed.
Lemma w4 : forall o, 0 <= o -> o + 4 <= zlen F -> 0 <= word4 F o < 4294967296.
Proof using BF. intros o Ho Hl. exact (proj2 (int4_range F o BF Ho Hl)). Qed.

(** ** The data of one level *)
Lemma read_linear : forall alloc h W H D n p e, allocator_ok alloc -> plenty alloc -> has (Flags1 h) DDS_LINEARSIZE = true -> Linear h = n -> 0 <= n -> 0 <= p -> p + n <= zlen F -> 0 < zlen F ->
  ReadData alloc h W H D (R p e) = Ok (Some (slice F p n), [], R (p + n) e).
Proof using HF.
  intros alloc h W H D n p e HA HP HL EL Hn Hp Hl H0. unfold ReadData. rewrite HL, EL. destruct (alloc n) as [b|] eqn:EA; [|exfalso; apply (HP n); auto]. assert (LB := HA _ _ EA). rewrite read_in by lia. cbn [bind]. rewrite Z.eqb_refl. reflexivity.
Qed.
Lemma splice_end : forall c T b, 0 <= T -> T + zlen b <= zlen c -> forall n, n = T + zlen b -> slice (splice c T b) 0 n = slice c 0 T ++ b.
Proof using.
  clear. intros c T b HT HL n ->. assert (0 <= zlen b) by auto. assert (L : zlen (splice c T b) = zlen c) by (rewrite zlen_splice; lia). apply list_ext.
  - rewrite zlen_app, !zlen_slice by lia. lia.
  - intros i Hi. rewrite zlen_slice in Hi by lia. rewrite geti_slice by lia. rewrite geti_splice by lia. rewrite geti_app by lia. rewrite zlen_slice by lia. destruct (i <? T) eqn:E.
    + rewrite geti_slice by lia. replace ((T <=? 0 + i) && (0 + i <? T + zlen b)) with false by lia. reflexivity.
    + replace ((T <=? 0 + i) && (0 + i <? T + zlen b)) with true by lia. f_equal.
Qed.
Lemma read_row : forall c T n p e, 0 <= T -> 0 <= n -> T + n <= zlen c -> 0 <= p -> p + n <= zlen F -> 0 < zlen F ->
  exists c', iread_at c T n (R p e) = Ok (n, c', R (p + n) e) /\ zlen c' = zlen c /\ slice c' 0 (T + n) = slice c 0 T ++ slice F p n.
Proof using HF.
  intros c T n p e HT Hn HL Hp HLF H0. unfold iread_at. assert (L1 : zlen (slice c T (zlen c - T)) = zlen c - T) by (apply zlen_slice; lia). rewrite read_into by lia. cbn [bind]. eexists. split; [reflexivity|].
  assert (LS : zlen (slice F p n) = n) by (apply zlen_slice; lia). set (t := skipn (Z.to_nat n) (slice c T (zlen c - T))). assert (LT : zlen t = zlen c - T - n) by (unfold t, zlen in *; rewrite skipn_length; lia).
  split; [rewrite zlen_splice; [reflexivity|lia|rewrite zlen_app; lia]|]. assert (E := splice_end c T (slice F p n ++ t) HT ltac:(rewrite zlen_app; lia) (zlen c) ltac:(rewrite zlen_app; lia)).
  assert (Lc : zlen (splice c T (slice F p n ++ t)) = zlen c) by (rewrite zlen_splice; [reflexivity|lia|rewrite zlen_app; lia]). assert (E2 : splice c T (slice F p n ++ t) = slice c 0 T ++ slice F p n ++ t) by (rewrite <- E, <- Lc, slice_all; reflexivity).
  rewrite E2, app_assoc. assert (L0 : zlen (slice c 0 T) = T) by (apply zlen_slice; lia). rewrite slice_app_l by (rewrite ?zlen_app; lia). replace (T + n) with (zlen (slice c 0 T ++ slice F p n)) by (rewrite zlen_app; lia). apply slice_all.
Qed.
Lemma read_lines : forall alloc h W H D S p e, allocator_ok alloc -> plenty alloc -> has (Flags1 h) DDS_LINEARSIZE = false -> BitCount h = 8 * S -> 1 <= S -> 1 <= W -> 1 <= H -> 1 <= D -> W * (8 * S) < 4294967296 -> W * H * D * S < 4294967296 -> 0 <= p -> p + W * H * D * S <= zlen F -> 0 < zlen F ->
  ReadData alloc h W H D (R p e) = Ok (Some (slice F p (W * H * D * S)), [], R (p + W * H * D * S) e).
Proof using HF.
  intros alloc h W H D S p e HA HP HL HB HS HW HH HD HB32 H32 Hp HLF H0. unfold ReadData. rewrite HL, HB. assert (0 <= W * (8 * S)) by nia. rewrite (u32_small (W * (8 * S))) by lia. cbv zeta. replace (W * (8 * S) / 8) with (W * S) by (replace (W * (8 * S)) with (W * S * 8) by ring; rewrite Z.div_mul by lia; reflexivity).
  assert (EC : W * S * H * D = W * H * D * S) by ring. assert (P1 : 0 < W * S) by nia. assert (P2 : 0 < W * S * H) by nia. assert (P3 : 0 < W * S * H * D) by nia. rewrite (u32_small (W * S * H * D)) by lia. replace (W * S * H * D =? 0) with false by lia.
  destruct (alloc (W * S * H * D)) as [c|] eqn:EA; [|exfalso; apply (HP (W * S * H * D)); auto; lia]. assert (LC := HA _ _ EA).
  set (B := W * S) in *.
  match goal with |- context [loop 0 D ?b ?s] => destruct (loop_rule _ (fun z (st : bool * Z * list Z * reader) => let '(ok, T, c', r) := st in ok = true /\ T = z * (H * B) /\ zlen c' = B * H * D /\ slice c' 0 T = slice F p T /\ r = R (p + T) e) 0 D b s) as ((((ok & T) & c') & r) & E & (-> & ET & L & SL & ->)) end.
  - lia.
  - split; [reflexivity|]. split; [reflexivity|]. split; [exact LC|]. rewrite !slice_0. split; [reflexivity|]. do 2 f_equal; lia.
  - intros z (((ok & T) & c') & r) Hz (-> & ET & L & SL & ->).
    match goal with |- context [loop 0 H ?b ?s] => destruct (loop_rule _ (fun y (st : bool * Z * list Z * reader) => let '(ok, T, c', r) := st in ok = true /\ T = (z * H + y) * B /\ zlen c' = B * H * D /\ slice c' 0 T = slice F p T /\ r = R (p + T) e) 0 H b s) as ((((ok2 & T2) & c2) & r2) & E & (-> & ET2 & L2 & SL2 & ->)) end.
    + lia.
    + split; [reflexivity|]. split; [lia|]. auto.
    + intros y (((ok3 & T3) & c3) & r3) Hy (-> & ET3 & L3 & SL3 & ->). cbn [negb]. cbv iota.
      assert (I : 0 <= T3 /\ T3 + B <= B * H * D). { subst T3. assert (0 <= z * H + y) by nia. assert ((z * H + y) + 1 <= H * D) by nia. split; [nia|]. replace (B * H * D) with (H * D * B) by ring. nia. }
      destruct (read_row c3 T3 B (p + T3) e) as (c4 & -> & L4 & S4); try lia. cbn [bind]. rewrite Z.eqb_refl. eexists. split; [reflexivity|]. cbv beta iota. split; [reflexivity|]. split; [lia|]. split; [lia|]. rewrite S4, SL3. split; [|f_equal; lia]. rewrite <- slice_split by lia. reflexivity.
    + rewrite E. eexists. split; [reflexivity|]. cbv beta iota. split; [reflexivity|]. split; [lia|]. auto.
  - rewrite E. cbn [bind]. assert (TE : T = W * H * D * S) by (subst T; unfold B; ring). rewrite TE in *. do 4 f_equal. rewrite <- SL. replace (W * H * D * S) with (zlen c') by (rewrite L; unfold B; ring). symmetry. apply slice_all.
Qed.
End Input.
