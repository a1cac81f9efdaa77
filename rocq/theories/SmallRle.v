(** C95: CUT and PIX pictures. *)
From Coq Require Import ZArith List Lia Bool.
From Verif Require Import Base Slices Elem Enums Utility Image ImageSpec Flip Lump LumpSpec LumpProofs LumpProps Channels Endian EndianProps ConvImgProps RleSpec RawProps Pcx PcxProofs TgaProofs TgaRle BmpSpec BmpSafe BmpDecode SgiSpec SgiProofs SgiLoad Safe Small SmallSpec SmallTex SmallTexProps CacheProps.
Import ListNotations.
Open Scope Z_scope.

(** ** Filling *)
Lemma fill_ok : forall n v d i, 0 <= n -> 0 <= i -> i + n <= zlen d -> 0 <= v < 256 ->
  loop 0 n (fun j d => wr d (i + j) (u8 v)) d = Ok (splice d i (rep (Z.to_nat n) [v])).
Proof.
  intros n v d i Hn Hi Hd Hv.
  assert (LR : forall k, zlen (rep k [v]) = Z.of_nat k). { intros k. induction k as [|k IH]; [reflexivity|]. cbn [rep]. rewrite zlen_app, IH. change (zlen [v]) with 1. lia. }
  assert (GR : forall k j, 0 <= j < Z.of_nat k -> geti (rep k [v]) j = v). { intros k. induction k as [|k IH]; intros j Hj; [lia|]. cbn [rep]. rewrite geti_app by lia. change (zlen [v]) with 1. destruct (j <? 1) eqn:E; [replace j with 0 by lia; reflexivity|]. apply IH. lia. }
  destruct (loop_rule _ (fun k d' => zlen d' = zlen d /\ forall j, 0 <= j < zlen d -> geti d' j = if (i <=? j) && (j <? i + k) then v else geti d j) 0 n (fun j d => wr d (i + j) (u8 v)) d) as (d' & E & L & G).
  - lia.
  - split; auto. intros j Hj. replace ((i <=? j) && (j <? i + 0)) with false by lia. reflexivity.
  - intros k d' Hk (L & G). rewrite wr_ok by lia. eexists. split; [reflexivity|]. split; [rewrite zlen_upd; lia|]. intros j Hj. rewrite geti_upd by lia. rewrite u8_small by lia. destruct (j =? i + k) eqn:EJ.
    + replace ((i <=? j) && (j <? i + (k + 1))) with true by lia. reflexivity.
    + rewrite G by lia. replace ((i <=? j) && (j <? i + (k + 1))) with ((i <=? j) && (j <? i + k)) by lia. reflexivity.
  - rewrite E. f_equal. apply list_ext; [rewrite zlen_splice by (rewrite ?LR; lia); lia|]. intros j Hj. rewrite L in Hj. rewrite G by lia. rewrite geti_splice, LR by (rewrite ?LR; lia). rewrite Z2Nat.id by lia.
    destruct ((i <=? j) && (j <? i + n)) eqn:Q; [|reflexivity]. rewrite GR by lia. reflexivity.
Qed.
Lemma copy_ok : forall F n p e d i, 0 <= n -> 0 <= i -> i + n <= zlen d -> 0 <= p -> p + n <= zlen F -> zlen F < 4294967295 -> bytes F ->
  loop 0 n (fun j st => let '(d, r) := st in let! (v, r) := iGetcLump r in let! d := wr d (i + j) (u8 v) in Ok (d, r)) (d, Rd F p (zlen F) e) = Ok (splice d i (slice F p n), Rd F (p + n) (zlen F) e).
Proof.
  intros F n p e d i Hn Hi Hd Hp HF HM B.
  match goal with |- context [loop 0 n ?b ?s] => destruct (loop_rule _ (fun k st => exists d', st = (d', Rd F (p + k) (zlen F) e) /\ zlen d' = zlen d /\ forall j, 0 <= j < zlen d -> geti d' j = if (i <=? j) && (j <? i + k) then geti F (p + (j - i)) else geti d j) 0 n b s) as (st & E & d' & -> & L & G) end.
  - lia.
  - exists d. rewrite Z.add_0_r. split; [reflexivity|]. split; auto. intros j Hj. replace ((i <=? j) && (j <? i + 0)) with false by lia. reflexivity.
  - intros k st Hk (d' & -> & L & G). rewrite getc_in by lia. cbn [bind]. rewrite wr_ok by lia. cbn [bind]. eexists. split; [reflexivity|]. exists (upd d' (i + k) (u8 (geti F (p + k)))). split; [do 2 f_equal; lia|]. split; [rewrite zlen_upd; lia|].
    intros j Hj. rewrite geti_upd by lia. assert (0 <= geti F (p + k) < 256) by (apply B; lia). rewrite u8_small by lia. destruct (j =? i + k) eqn:EJ.
    + replace ((i <=? j) && (j <? i + (k + 1))) with true by lia. f_equal. lia.
    + rewrite G by lia. replace ((i <=? j) && (j <? i + (k + 1))) with ((i <=? j) && (j <? i + k)) by lia. reflexivity.
  - rewrite E. do 2 f_equal. assert (LS : zlen (slice F p n) = n) by (apply zlen_slice; lia). apply list_ext; [rewrite zlen_splice by lia; lia|]. intros j Hj. rewrite L in Hj. rewrite G by lia. rewrite geti_splice, LS by lia.
    destruct ((i <=? j) && (j <? i + n)) eqn:Q; [|reflexivity]. rewrite geti_slice by lia. reflexivity.
Qed.

(** ** Codes in a file *)
Lemma here_cons : forall F p x l, here F p (x :: l) -> geti F p = x /\ here F (p + 1) l /\ p < zlen F.
Proof.
  intros F p x l (H1 & H2 & H3). rewrite zlen_cons in *. assert (0 <= zlen l) by auto. destruct (code_parts F p x l) as (G & S); auto. split; [exact G|]. split; [|lia]. split; [lia|]. split; [lia|exact S].
Qed.
Lemma here_app : forall F p a b, here F p (a ++ b) -> here F p a /\ here F (p + zlen a) b.
Proof.
  intros F p a b (H1 & H2 & H3). rewrite zlen_app in *. assert (0 <= zlen a) by auto. assert (0 <= zlen b) by auto. split.
  - split; [lia|]. split; [lia|]. rewrite <- (slice_all a) at 2. rewrite <- (slice_app_l a b 0 (zlen a)) by lia. rewrite <- H3. rewrite slice_slice by lia. f_equal. lia.
  - split; [lia|]. split; [lia|]. rewrite <- (slice_all b) at 2. replace (slice b 0 (zlen b)) with (slice (a ++ b) (zlen a) (zlen b)) by (rewrite slice_app_r by lia; f_equal; lia). rewrite <- H3. rewrite slice_slice by lia. reflexivity.
Qed.
Lemma here_file : forall a b c, here (a ++ b ++ c) (zlen a) b.
Proof.
  intros a b c. assert (0 <= zlen a) by auto. assert (0 <= zlen b) by auto. assert (0 <= zlen c) by auto. split; [auto|]. rewrite !zlen_app. split; [lia|]. rewrite slice_app_r by lia. rewrite Z.sub_diag. rewrite slice_app_l by lia. apply slice_all.
Qed.

(** ** CUT *)
Lemma bit7_low : forall n, 0 <= n < 128 -> Z.land n 128 = 0.
Proof.
  intros n Hn. apply Z.bits_inj'. intros k Hk. rewrite Z.land_spec, Z.bits_0. change 128 with (2 ^ 7). rewrite Z.pow2_bits_eqb by lia. destruct (7 =? k) eqn:E; [|apply andb_false_r]. replace k with 7 by lia.
  rewrite Z.testbit_eqb by lia. change (2 ^ 7) with 128. rewrite Z.div_small by lia. reflexivity.
Qed.
Lemma bit7_high : forall n, 0 <= n < 128 -> Z.land (128 + n) 128 = 128 /\ Z.land (128 + n) 127 = n.
Proof.
  intros n Hn. split; [|change 127 with (Z.ones 7); rewrite Z.land_ones by lia; change (2 ^ 7) with 128; lia]. rewrite Z.add_nocarry_lxor by (rewrite Z.land_comm; apply bit7_low; auto). rewrite Z.lxor_lor by (rewrite Z.land_comm; apply bit7_low; auto).
  rewrite Z.land_lor_distr_l. rewrite (bit7_low n Hn). reflexivity.
Qed.
Lemma cut_row_ok : forall code px, cut_row code px -> forall F Size i d p e fuel, bytes F -> zlen F < 4294967295 -> here F p code ->
  0 <= i -> i + zlen px <= Size -> zlen d = Size -> (length code <= fuel)%nat ->
  exists fuel', (fuel - length code <= fuel' <= fuel)%nat /\ cut_loop fuel Size i d (Rd F p (zlen F) e) = cut_loop fuel' Size (i + zlen px) (splice d i px) (Rd F (p + zlen code) (zlen F) e).
Proof.
  intros code px C. induction C as [|px code data HL C IH|n v code data HN C IH]; intros F Size i d p e fuel B HM HE Hi HS LD Hfuel.
  - exists fuel. split; [cbn; lia|]. change (zlen (@nil Z)) with 0 in *. rewrite !Z.add_0_r. rewrite splice_nil by lia. reflexivity.
  - destruct (here_cons _ _ _ _ HE) as (G0 & H1 & HP). destruct (here_app _ _ _ _ H1) as (H2 & H3). assert (Hp : 0 <= p) by apply HE. rewrite zlen_cons, ?zlen_app in *. assert (0 <= zlen code) by auto. assert (0 <= zlen data) by auto.
    destruct fuel as [|fuel]; [cbn in Hfuel; lia|]. cbn [cut_loop]. replace (i <? Size) with true by lia. rewrite getc_in by lia. cbn [bind]. rewrite G0. rewrite u8_small by lia. replace (zlen px =? 0) with false by lia. cbv zeta. rewrite bit7_low by lia.
    change (negb (0 =? 0)) with false. cbv iota. destruct H2 as (_ & HF2 & S2). rewrite copy_ok by (auto; lia). cbn [bind]. rewrite S2. cbn [length] in Hfuel. rewrite app_length in Hfuel.
    destruct (IH F Size (i + zlen px) (splice d i px) (p + 1 + zlen px) e fuel) as (fuel' & Hf & E); auto; try lia. { rewrite zlen_splice; lia. }
    exists fuel'. split; [cbn [length]; rewrite app_length; lia|]. rewrite E. rewrite splice_splice_adj by lia. f_equal; [lia|]. f_equal. lia.
  - destruct (here_cons _ _ _ _ HE) as (G0 & H1 & HP). destruct (here_cons _ _ _ _ H1) as (G1 & H2 & HP1). assert (Hp : 0 <= p) by apply HE. rewrite ?zlen_cons, ?zlen_app in *. assert (0 <= zlen code) by auto. assert (0 <= zlen data) by auto.
    assert (LR : zlen (rep (Z.to_nat n) [v]) = n) by (rewrite zlen_rep; change (zlen [v]) with 1; lia). rewrite LR in *.
    destruct fuel as [|fuel]; [cbn in Hfuel; lia|]. cbn [cut_loop]. replace (i <? Size) with true by lia. rewrite getc_in by lia. cbn [bind]. rewrite G0. rewrite u8_small by lia. replace (128 + n =? 0) with false by lia. cbv zeta.
    destruct (bit7_high n ltac:(lia)) as (-> & ->). change (negb (128 =? 0)) with true. cbv iota. rewrite getc_in by lia. cbn [bind]. rewrite G1. assert (BV : 0 <= v < 256) by (rewrite <- G1; apply B; lia).
    rewrite fill_ok by lia. cbn [bind]. cbn [length] in Hfuel.
    destruct (IH F Size (i + n) (splice d i (rep (Z.to_nat n) [v])) (p + 1 + 1) e fuel) as (fuel' & Hf & E); auto; try lia. { rewrite zlen_splice; lia. }
    exists fuel'. split; [cbn [length]; lia|]. rewrite E. assert (X := splice_splice_adj d i (rep (Z.to_nat n) [v]) data). rewrite LR in X. rewrite X by lia. f_equal; [lia|]. f_equal. lia.
Qed.
(** the rest of the lines; the two bytes before the first one have been read *)
Lemma cut_lines_ok : forall rows l, cut_lines rows l -> forall F W Size i d p e fuel, bytes F -> zlen F < 4294967295 -> here F p l -> 1 <= W -> Forall (fun row => zlen row = W) rows ->
  0 <= i -> i + zlen (concat rows) = Size -> zlen d = Size -> (length l <= fuel)%nat -> rows <> [] ->
  cut_loop fuel Size i d (Rd F (p + 2) (zlen F) e) = Ok (splice d i (concat rows)).
Proof.
  intros rows l C. induction C as [|a b px code rows l R C IH]; intros F W Size i d p e fuel B HM HE HW FA Hi HS LD Hfuel NE; [congruence|]. apply Forall_cons_iff in FA. destruct FA as (LP & FA). cbn [concat] in *. rewrite zlen_app in HS. assert (0 <= zlen (concat rows)) by auto.
  destruct (here_cons _ _ _ _ HE) as (_ & H1 & _). destruct (here_cons _ _ _ _ H1) as (_ & H2 & _). destruct (here_app _ _ _ _ H2) as (H3 & H4). destruct (here_cons _ _ _ _ H4) as (G0 & H5 & HP). cbn [length] in Hfuel. rewrite app_length in Hfuel. cbn [length] in Hfuel. replace (p + 1 + 1) with (p + 2) in * by lia.
  assert (Hp : 0 <= p) by apply HE. assert (0 <= zlen code) by auto.
  destruct (cut_row_ok code px R F Size i d (p + 2) e fuel) as (fuel' & Hf & E); auto; try lia. rewrite E. destruct rows as [|px2 rows].
  - cbn [concat] in *. change (zlen (@nil Z)) with 0 in HS. rewrite app_nil_r. replace (i + zlen px) with Size by lia. destruct fuel'; cbn [cut_loop]; replace (Size <? Size) with false by lia; reflexivity.
  - assert (LP2 : zlen px2 = W) by (apply Forall_cons_iff in FA; apply FA). assert (EX : exists a' b' m, l = a' :: b' :: m) by (clear - C; inversion C; eauto). destruct EX as (a' & b' & m & El). assert (J5 := H5). rewrite El in J5. cbn [concat] in HS. rewrite zlen_app in HS. assert (0 <= zlen (concat rows)) by auto.
    destruct (here_cons _ _ _ _ J5) as (_ & K6 & HP6). destruct (here_cons _ _ _ _ K6) as (_ & K7 & HP7).
    destruct fuel' as [|fuel']; [lia|]. cbn [cut_loop]. replace (i + zlen px <? Size) with true by lia. rewrite getc_in by lia. cbn [bind]. rewrite G0. change (u8 0 =? 0) with true. cbv iota. cbv zeta. rewrite getc_in by lia. cbn [bind]. rewrite getc_in by lia. cbn [bind].
    replace (p + 2 + zlen code + 1 + 1 + 1) with (p + 2 + zlen code + 1 + 2) by lia. rewrite (IH F W) by (auto; try lia; try discriminate; try (rewrite zlen_splice; lia); cbn [concat]; rewrite ?zlen_app; lia).
    rewrite splice_splice_adj; [reflexivity|lia|cbn [concat]; rewrite zlen_app; lia].
Qed.

Lemma geti_concat : forall W (rows : list (list Z)) t x, 1 <= W -> Forall (fun row => zlen row = W) rows -> 0 <= x < W -> 0 <= t < zlen rows -> geti (concat rows) (t * W + x) = geti (nth (Z.to_nat t) rows []) x.
Proof.
  intros W rows. induction rows as [|r rows IH]; intros t x HW FA Hx Ht; [cbn in Ht; lia|]. apply Forall_cons_iff in FA. destruct FA as (L & FA). rewrite zlen_cons in Ht. cbn [concat]. assert (0 <= t * W) by (apply Z.mul_nonneg_nonneg; lia). rewrite geti_app by lia.
  destruct (Z.eq_dec t 0) as [->|Hne]; [replace (0 * W + x <? zlen r) with true by lia; reflexivity|]. assert (1 * W <= t * W) by (apply Z.mul_le_mono_nonneg_r; lia). replace (_ <? _) with false by lia. replace (t * W + x - zlen r) with ((t - 1) * W + x) by lia.
  rewrite IH by (auto; lia). replace (Z.to_nat t) with (S (Z.to_nat (t - 1))) by lia. reflexivity.
Qed.
Lemma zlen_concat : forall W (rows : list (list Z)), Forall (fun row => zlen row = W) rows -> zlen (concat rows) = zlen rows * W.
Proof. intros W rows FA. induction FA as [|r rows L FA IH]; [reflexivity|]. cbn [concat]. rewrite zlen_app, zlen_cons, IH, L. ring. Qed.

(** C95a: a CUT file (width, height, two reserved bytes, then for every line the length of its code, the code and a
    zero) is loaded into the picture its lines stand for, whatever packets the code uses. *)
Theorem C95_cut : forall alloc old u2 u4 F W H rows l, allocator_ok alloc -> bytes F -> zlen F < 4294967295 -> word2 F 0 = W -> word2 F 2 = H -> 1 <= W -> 1 <= H -> W * H <= 2147483647 ->
  here F 6 l -> cut_lines rows l -> zlen rows = H -> Forall (fun row => zlen row = W) rows -> (forall i, zlen (u2 i) = 2) -> (forall i, zlen (u4 i) = 4) -> alloc (W * 1 * H) <> None ->
  exists im, iLoadCutInternal alloc old u2 u4 (Rd F 0 (zlen F) []) = Ok (true, im, []) /\ shows im W H 1 IL_COLOUR_INDEX (fun x t c => geti (nth (Z.to_nat t) rows []) x).
Proof.
  intros alloc old u2 u4 F W H rows l HA B HM EW EH HW HH HS HE C LR FA U2 U4 Hn.
  assert (NE : rows <> []) by (intros ->; change (zlen (@nil (list Z))) with 0 in LR; lia). assert (L2 : 2 <= zlen l). { destruct C; [congruence|]. rewrite !zlen_cons. assert (0 <= zlen (code ++ 0 :: l)) by auto. lia. }
  assert (HF : 6 + zlen l <= zlen F) by apply HE. unfold iLoadCutInternal. assert (SW : forall p, 0 <= p -> p + 2 <= zlen F -> u16 (int2 F p) = word2 F p).
  { intros p Hp Hq. unfold int2, word2, u16. assert (0 <= geti F p < 256) by (apply B; lia). assert (0 <= geti F (p + 1) < 256) by (apply B; lia). destruct (_ <? _) eqn:E; lia. }
  rewrite gets2 by (auto; lia). cbn [bind]. rewrite gets2 by (auto; lia). cbn [bind]. rewrite gets4 by (auto; lia). cbn [bind]. cbv zeta. change (0 + 2) with 2. rewrite !SW by lia. rewrite EW, EH. replace (W =? 0) with false by lia. replace (H =? 0) with false by lia. cbn [orb].
  destruct (alloc (W * 1 * H)) as [blk|] eqn:EA; [|congruence]. assert (LB := HA _ _ EA). rewrite (init_low alloc old W H 1 IL_COLOUR_INDEX blk) by (auto; rewrite ?Z.mul_1_r; lia). cbn [bind negb]. cbv iota. replace (2147483647 <? W * H) with false by lia.
  change (Data (low_img W H 1 IL_COLOUR_INDEX blk)) with (Some blk). cbv iota. change (2 + 2 + 4) with (6 + 2). rewrite Z.mul_1_r in LB. assert (LC := zlen_concat W rows FA). rewrite LR in LC.
  assert (0 < W * H) by (apply Z.mul_pos_pos; lia).
  rewrite (cut_lines_ok rows l C F W (W * H) 0 blk 6) by (auto; try lia; cbn [Lump.rsize]; unfold zlen in *; lia). cbn [bind]. rewrite splice_full by lia. rewrite low_data, low_top. eexists. split; [reflexivity|].
  apply top_shows; rewrite ?Z.mul_1_r; auto; try lia. intros x t c Hx Ht Hc. replace (t * W + x + c) with (t * W + x) by lia. rewrite Z.mul_1_r. replace c with 0 by lia. rewrite Z.add_0_r. apply geti_concat; auto; lia.
Qed.
Print Assumptions C95_cut.
