(** Loading whole DirectDraw surface files. *)
From Coq Require Import ZArith List Lia Bool.
From Verif Require Import Base Slices BitLemmas Elem Enums Utility Image ImageSpec Lump LumpSpec LumpProofs LumpProps Endian ConvImgProps PcxProofs Tga TgaProofs BmpSpec BmpDecode DxtSpec Dxt DxtProofs DxtDecode DxtProps Dds DdsSpec DdsPixels DdsProofs DdsLevels.
Import ListNotations.
Open Scope Z_scope.

Section File.
Variable (F : list Z).
Hypothesis (BF : bytes F) (HF : 128 <= zlen F < 4294967295).
Notation R p e := (Rd F p (zlen F) e).

(** the header as corrected by 134-135, 461-465 and AdjustVolumeTexture *)
Definition h0 : dds := if DDepth (head_of F) =? 0 then with_depth (head_of F) 1 else head_of F.
Definition h1 (BS : Z) : dds := if negb (has (Flags1 h0) (Z.lor DDS_LINEARSIZE DDS_PITCH)) || (Linear h0 =? 0) then with_linear h0 (Z.lor (Flags1 h0) DDS_LINEARSIZE) BS else h0.
Definition h2 (f BS : Z) : dds := AdjustVolumeTexture (h1 BS) f.

Ltac by_cases := unfold h2, h1, h0, AdjustVolumeTexture; repeat match goal with |- context [if ?c then _ else _] => destruct c end; try reflexivity.
Lemma h2_count : forall f BS, BitCount (h2 f BS) = word4 F 88. Proof using. intros. by_cases. Qed.
Lemma h2_red : forall f BS, RMask (h2 f BS) = word4 F 92. Proof using. intros. by_cases. Qed.
Lemma h2_green : forall f BS, GMask (h2 f BS) = word4 F 96. Proof using. intros. by_cases. Qed.
Lemma h2_blue : forall f BS, BMask (h2 f BS) = word4 F 100. Proof using. intros. by_cases. Qed.
Lemma h2_alpha : forall f BS, AMask (h2 f BS) = word4 F 104. Proof using. intros. by_cases. Qed.
Lemma h2_width : forall f BS, DWidth (h2 f BS) = word4 F 16. Proof using. intros. by_cases. Qed.
Lemma h2_height : forall f BS, DHeight (h2 f BS) = word4 F 12. Proof using. intros. by_cases. Qed.
Lemma h2_mips : forall f BS, MipCount (h2 f BS) = word4 F 28. Proof using. intros. by_cases. Qed.
Lemma h1_fields : forall BS, DDepth (h1 BS) = Z.max 1 (word4 F 24) /\ Caps1 (h1 BS) = word4 F 108 /\ Caps2 (h1 BS) = word4 F 112 /\ DWidth (h1 BS) = word4 F 16 /\ DHeight (h1 BS) = word4 F 12 /\ BitCount (h1 BS) = word4 F 88.
Proof using BF HF.
  intros BS. assert (W := w4 F BF 24 ltac:(lia) ltac:(lia)). unfold h1. destruct (_ || _); unfold h0; change (DDepth (head_of F)) with (word4 F 24); destruct (word4 F 24 =? 0) eqn:E; cbn [with_linear with_depth head_of DDepth Caps1 Caps2 DWidth DHeight BitCount]; (split; [lia|auto 10]).
Qed.
Lemma volume_bit : forall x, has x DDS_VOLUME = Z.testbit x 21. Proof using. intros. apply (has_bit x 21). lia. Qed.
Lemma linear_bit : forall x, has x DDS_LINEARSIZE = Z.testbit x 19. Proof using. intros. apply (has_bit x 19). lia. Qed.
Lemma mip_bit : forall x, has x DDS_MIPMAPCOUNT = Z.testbit x 17. Proof using. intros. apply (has_bit x 17). lia. Qed.
Lemma pitch_bit : forall x, has x DDS_PITCH = Z.testbit x 3. Proof using. intros. apply (has_bit x 3). lia. Qed.
Lemma h2_depth : forall f BS, DDepth (h2 f BS) = depth_of F.
Proof using BF HF.
  intros f BS. assert (W := w4 F BF 24 ltac:(lia) ltac:(lia)). destruct (h1_fields BS) as (ED & _ & EC & _). unfold h2, AdjustVolumeTexture. rewrite ED, EC. rewrite volume_bit. unfold depth_of, flag. destruct (Z.max 1 (word4 F 24) <=? 1) eqn:E.
  - rewrite ED. destruct (Z.testbit _ _); lia.
  - destruct (Z.testbit _ _); cbn [negb]; cbv zeta; cbn [with_linear with_depth DDepth]; [exact ED|reflexivity].
Qed.
Lemma h2_mipflag : forall f BS, has (Flags1 (h2 f BS)) DDS_MIPMAPCOUNT = flag F 8 17.
Proof using.
  intros f BS. rewrite mip_bit. assert (L : forall x, Z.testbit (Z.lor x DDS_LINEARSIZE) 17 = Z.testbit x 17) by (intros x; rewrite Z.lor_spec; change (Z.testbit DDS_LINEARSIZE 17) with false; apply orb_false_r).
  unfold h2, AdjustVolumeTexture, h1, h0. repeat match goal with |- context [if ?c then _ else _] => destruct c end; cbn [with_linear with_depth head_of Flags1]; rewrite ?L; reflexivity.
Qed.
(** the size that is read: as stated, or as computed *)
Lemma h2_linear : forall f BS size lines, (word4 F 24 <= 1 -> BS = size) -> (1 < word4 F 24 -> u32 ((if masked f then u32 (Z.max 1 (word4 F 16) * Z.max 1 (word4 F 12) * (word4 F 88 / 8))
             else u32 (u32 (word4 F 16 + 3) / 4 * (u32 (word4 F 12 + 3) / 4) * (if f =? PF_DXT1 then 8 else 16))) * depth_of F) = size) ->
  size_stated F size lines -> if has (Flags1 (h2 f BS)) DDS_LINEARSIZE then Linear (h2 f BS) = size else lines = true.
Proof using BF HF.
  intros f BS size lines HB HV HS. assert (W := w4 F BF 24 ltac:(lia) ltac:(lia)). assert (DD := h2_depth f BS). unfold h2, AdjustVolumeTexture in *. destruct (h1_fields BS) as (ED & _ & EC & EW & EH & EB). rewrite ED in *. destruct (Z.max 1 (word4 F 24) <=? 1) eqn:E.
  - assert (HB' := HB ltac:(lia)). unfold h1. rewrite has_or, !linear_bit, pitch_bit. assert (F0 : Flags1 h0 = word4 F 8) by (unfold h0; destruct (_ =? 0); reflexivity). assert (L0 : Linear h0 = word4 F 20) by (unfold h0; destruct (_ =? 0); reflexivity). rewrite F0, L0. fold (flag F 8 19) (flag F 8 3).
    destruct (negb (flag F 8 19 || flag F 8 3) || (word4 F 20 =? 0)) eqn:Q.
    + cbn [with_linear Flags1 Linear]. rewrite Z.lor_spec. change (Z.testbit DDS_LINEARSIZE 19) with true. rewrite orb_true_r. exact HB'.
    + rewrite F0, L0. fold (flag F 8 19). apply orb_false_elim in Q as (Q1 & Q2). apply negb_false_iff in Q1. destruct HS as [S|[S|[(S & S')|[(S & S')|(S & S')]]]]; try lia; rewrite S in *; auto. rewrite S' in Q1. discriminate.
  - specialize (HV ltac:(lia)). rewrite EC, volume_bit in *. destruct (Z.testbit (word4 F 112) 21) eqn:V; cbn [negb] in *; cbv zeta in *; cbn [with_linear with_depth Flags1 Linear DWidth DHeight BitCount DDepth] in *; rewrite linear_bit, Z.lor_spec; change (Z.testbit DDS_LINEARSIZE 19) with true; rewrite orb_true_r; rewrite EW, EH, EB, ?ED; rewrite <- HV; f_equal; f_equal; unfold depth_of, flag; rewrite V; lia.
Qed.
Lemma eta : forall h, with_linear h (Flags1 h) (Linear h) = h. Proof using. intros []. reflexivity. Qed.

Lemma load_ok : forall alloc other sg u4 old e f BS W H N b ty size px,
  allocator_ok alloc -> plenty alloc -> zlen sg = 4 -> (forall i, zlen (u4 i) = 4) -> dds_header F W H -> ~ cube F -> moderate W H (depth_of F) ->
  DecodePixelFormat h0 = (f, BS) -> masked f || dxt135 f = true -> masked f && Check16BitComponents h0 = false ->
  (has (Flags1 (h2 f BS)) DDS_LINEARSIZE = true -> Linear (h2 f BS) = size W H (depth_of F)) ->
  1 <= N <= 4 -> b = 1 \/ b = 2 /\ N <= 2 -> ilGetBpcType ty = b -> channels f = N -> pixel_type (h2 f BS) f = ty ->
  decodes F (h2 f BS) f N b ty size px -> reads F alloc (h2 f BS) size -> mips (h2 f BS) f size ->
  128 + all_levels size (Z.to_nat (levels_of F)) W H (depth_of F) <= zlen F ->
  exists ims, iLoadDdsInternal alloc other sg u4 old (R 0 e) = Ok (true, ims, []) /\ zlen ims = levels_of F /\ levels size N b ty px 128 W H (depth_of F) ims.
Proof using BF HF.
  intros alloc other sg u4 old e f BS W H N b ty size px HA HP LS HU HD NC M DP MK C16 HLin HN Hb HT CN PT DEC RDS MIP HL. destruct HD as (_ & NM & S1 & S2 & EW & EH & HW & HH).
  unfold iLoadDdsInternal. rewrite get_head by (auto; lia). cbn [bind]. fold h0.
  assert (CK : iCheckDds h0 = true).
  { unfold h0. destruct (DDepth (head_of F) =? 0); unfold iCheckDds; cbn [with_depth head_of Sig Size1 Size2 DWidth DHeight]; rewrite NM, S1, S2, EW, EH; cbn [geti dds_name]; change (negb ((geti dds_name 0 =? 68) && (geti dds_name 1 =? 68) && (geti dds_name 2 =? 83) && (geti dds_name 3 =? 32))) with false; change (negb (124 =? 124) && negb (124 =? 542327876)) with false; change (negb (32 =? 32)) with false; cbv iota; replace (W =? 0) with false by lia; replace (H =? 0) with false by lia; reflexivity. }
  rewrite CK. cbn [negb]. rewrite DP. cbv iota. replace (f =? PF_UNKNOWN) with false. 2:{ destruct (f =? PF_UNKNOWN) eqn:E; [|reflexivity]. apply Z.eqb_eq in E. rewrite E in MK. discriminate. }
  rewrite MK, C16. cbn [negb orb]. cbv zeta. fold (h1 BS). destruct (h1_fields BS) as (_ & EC1 & EC2 & _). rewrite EC1, EC2.
  assert (CB : has (word4 F 108) DDS_COMPLEX && has (word4 F 112) DDS_CUBEMAP = false). { change DDS_COMPLEX with (2 ^ 3). change DDS_CUBEMAP with (2 ^ 9). rewrite !has_bit by lia. fold (flag F 108 3) (flag F 112 9). destruct (flag F 108 3) eqn:A; destruct (flag F 112 9) eqn:B; try reflexivity. exfalso. apply NC. split; auto. }
  rewrite CB. fold (h2 f BS). rewrite h2_width, h2_height, h2_depth, EW, EH. assert (SZ := moderate_sizes _ _ _ M). assert (M' := M). destruct M' as (_ & _ & HD1 & _). set (D := depth_of F) in *.
  assert (I32 : forall x, 0 <= x < 2147483648 -> i32 x = x) by (intros x Hx; unfold i32; rewrite Z.mod_small by lia; lia). rewrite !I32 by lia.
  assert (NL : exists n, Z.to_nat (levels_of F) = S n /\ Z.to_nat ((if negb (has (Flags1 (h2 f BS)) DDS_MIPMAPCOUNT) || (MipCount (h2 f BS) =? 0) then 1 else MipCount (h2 f BS)) - 1) = n /\ levels_of F = Z.of_nat (S n)).
  { rewrite h2_mipflag, h2_mips. unfold levels_of. assert (W28 := w4 F BF 28 ltac:(lia) ltac:(lia)). destruct (flag F 8 17); cbn [negb orb]; [|exists O; auto]. destruct (word4 F 28 =? 0) eqn:E0; [exists O; replace (Z.max 1 (word4 F 28)) with 1 by lia; auto|]. exists (Z.to_nat (word4 F 28 - 1)). lia. }
  destruct NL as (n & N1 & N2 & N3). rewrite N1 in HL. cbn [all_levels] in HL.
  assert (AN : forall n W H D, moderate W H D -> 0 <= all_levels size n W H D). { clear - RDS. induction n as [|n IH]; intros W H D M; cbn [all_levels]; [lia|]. destruct (RDS W H D M) as (Z0 & _). assert (X := IH _ _ _ (moderate_half _ _ _ M)). lia. }
  assert (A2 := AN n _ _ _ (moderate_half _ _ _ M)).
  destruct (one_level F BF ltac:(lia) alloc (h2 f BS) f N b ty size px HA HP HN Hb HT DEC RDS W H D (Linear (h2 f BS)) 128 e old M ltac:(lia) ltac:(lia) HLin) as (im & blk & d & EI & EO & ER & ED & SH).
  rewrite eta in ER. rewrite ER. cbn [bind]. rewrite CN, PT, EI. cbn [bind negb]. cbv iota zeta. rewrite EO, ED. cbn [bind]. rewrite N2.
  destruct (mips_ok F BF ltac:(lia) alloc (h2 f BS) f N b ty size px HA HP HN Hb HT CN PT DEC RDS MIP n W H D (Linear (h2 f BS)) (128 + size W H D) e M) as (ims & EM & LI & LV); [destruct (RDS W H D M) as (Z0 & _); lia|lia|].
  rewrite eta in EM. rewrite EM. cbn [bind]. eexists. split; [reflexivity|]. split; [rewrite zlen_cons; unfold zlen; lia|]. cbn [levels]. split; [exact SH|exact LV].
Qed.
End File.
