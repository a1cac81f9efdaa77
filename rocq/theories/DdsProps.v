(** C103 - C105: DirectDraw surfaces. *)
From Coq Require Import ZArith List Lia Bool.
From Verif Require Import Base Slices BitLemmas Elem Enums Utility Image ImageSpec Lump LumpSpec LumpProofs LumpProps Endian ConvImgProps PcxProofs Tga TgaProofs BmpSpec BmpDecode SmallTex DxtSpec Dxt DxtProofs DxtDecode DxtProps Dds DdsSpec DdsPixels DdsProofs DdsLevels DdsLoad.
Import ListNotations.
Open Scope Z_scope.

(** a use of the loader: an allocator that works, variables of the right sizes, a whole file *)
Definition use (alloc : allocator) (sg : list Z) (u4 : Z -> list Z) (F : list Z) : Prop :=
  allocator_ok alloc /\ plenty alloc /\ zlen sg = 4 /\ (forall i, zlen (u4 i) = 4) /\ bytes F /\ zlen F < 4294967295.

(** every file with pixels that are not compressed, with N channels in S bytes each and the fields q, such that
    [ok N S q], is loaded: all its levels, with the right size and pixels *)
Definition pixels_loaded (ok : Z -> Z -> fields -> Prop) : Prop :=
  forall alloc other sg u4 old F e N S q W H, use alloc sg u4 F -> dds_header F W H -> ~ cube F -> moderate W H (depth_of F) ->
    uncompressed F N -> word4 F 88 = 8 * S -> masks F q (8 * S) -> ok N S q ->
    let size := fun W H D => W * H * D * S in
    size_stated F (size W H (depth_of F)) true -> 128 + all_levels size (Z.to_nat (levels_of F)) W H (depth_of F) <= zlen F ->
    exists ims, iLoadDdsInternal alloc other sg u4 old (Rd F 0 (zlen F) e) = Ok (true, ims, []) /\ zlen ims = levels_of F /\
      levels size N 1 IL_UNSIGNED_BYTE (stored_fields F q N S) 128 W H (depth_of F) ims.

Definition pf_of (N : Z) : Z := if N =? 1 then PF_LUMINANCE else if N =? 2 then PF_LUMINANCE_ALPHA else if N =? 3 then PF_RGB else PF_ARGB.
Lemma fourcc_bit : forall x, has x DDS_FOURCC = Z.testbit x 2. Proof. intros. apply (has_bit x 2). lia. Qed.
Lemma lum_bit : forall x, has x DDS_LUMINANCE = Z.testbit x 17. Proof. intros. apply (has_bit x 17). lia. Qed.
Lemma alpha_bit : forall x, has x DDS_ALPHAPIXELS = Z.testbit x 0. Proof. intros. apply (has_bit x 0). lia. Qed.
Lemma odd_mask : forall m n s bits, mask_of m n s bits -> Z.odd m = true -> m <= 255.
Proof.
  intros m n s bits (Hn & Hs & _ & ->) HO. destruct (Z.eq_dec s 0) as [-> | ].
  - assert (2 ^ n <= 2 ^ 8) by (apply Z.pow_le_mono_r; lia). change (2 ^ 0) with 1. lia.
  - replace s with (Z.succ (s - 1)) in HO by lia. rewrite Z.pow_succ_r in HO by lia. rewrite !Z.odd_mul in HO. cbn [Z.odd andb] in HO. rewrite andb_false_r in HO. discriminate.
Qed.

Section Loading.
Variables (alloc : allocator) (sg : list Z) (u4 : Z -> list Z) (F : list Z).
Hypothesis (US : use alloc sg u4 F) (L128 : 128 <= zlen F).
Let BF : bytes F := proj1 (proj2 (proj2 (proj2 (proj2 US)))).
Let HF : zlen F < 4294967295 := proj2 (proj2 (proj2 (proj2 (proj2 US)))).

Lemma h0_flags2 : Flags2 (h0 F) = word4 F 80. Proof using. unfold h0. destruct (_ =? 0); reflexivity. Qed.
Lemma h0_fourcc : FourCC (h0 F) = word4 F 84. Proof using. unfold h0. destruct (_ =? 0); reflexivity. Qed.
Lemma h0_width : DWidth (h0 F) = word4 F 16. Proof using. unfold h0. destruct (_ =? 0); reflexivity. Qed.
Lemma h0_height : DHeight (h0 F) = word4 F 12. Proof using. unfold h0. destruct (_ =? 0); reflexivity. Qed.
Lemma h0_count : BitCount (h0 F) = word4 F 88. Proof using. unfold h0. destruct (_ =? 0); reflexivity. Qed.
Lemma h0_depth : DDepth (h0 F) = Z.max 1 (word4 F 24).
Proof using BF L128. assert (X := w4 F BF 24 ltac:(lia) ltac:(lia)). unfold h0. change (DDepth (head_of F)) with (word4 F 24). destruct (word4 F 24 =? 0) eqn:E; cbn [with_depth head_of DDepth]; lia. Qed.
Lemma h0_16 : Check16BitComponents (h0 F) = Check16BitComponents (head_of F). Proof using. unfold h0. destruct (_ =? 0); reflexivity. Qed.

Lemma decode_masked : forall N, 1 <= N <= 4 -> uncompressed F N -> DecodePixelFormat (h0 F) = (pf_of N, u32 (word4 F 16 * word4 F 12 * Z.max 1 (word4 F 24) * (word4 F 88 / 8))).
Proof using BF L128.
  intros N HN (U1 & U2 & U3). unfold DecodePixelFormat. rewrite h0_flags2, fourcc_bit, lum_bit, alpha_bit, h0_width, h0_height, h0_count, h0_depth. fold (flag F 80 2) (flag F 80 17) (flag F 80 0). rewrite U1, U2, U3.
  assert (N = 1 \/ N = 2 \/ N = 3 \/ N = 4) as [-> | [-> | [-> | ->]]] by lia; reflexivity.
Qed.

Lemma masked_load : forall other old e N S b ty px W H, dds_header F W H -> ~ cube F -> moderate W H (depth_of F) -> 1 <= N <= 4 -> 1 <= S <= 4 -> uncompressed F N -> word4 F 88 = 8 * S -> Check16BitComponents (head_of F) = false ->
  b = 1 \/ b = 2 /\ N <= 2 -> ilGetBpcType ty = b -> (forall BS, pixel_type (h2 F (pf_of N) BS) (pf_of N) = ty) ->
  (forall BS, decodes F (h2 F (pf_of N) BS) (pf_of N) N b ty (fun W H D => W * H * D * S) px) ->
  size_stated F (W * H * depth_of F * S) true -> 128 + all_levels (fun W H D => W * H * D * S) (Z.to_nat (levels_of F)) W H (depth_of F) <= zlen F ->
  exists ims, iLoadDdsInternal alloc other sg u4 old (Rd F 0 (zlen F) e) = Ok (true, ims, []) /\ zlen ims = levels_of F /\ levels (fun W H D => W * H * D * S) N b ty px 128 W H (depth_of F) ims.
Proof using US L128.
  intros other old e N S b ty px W H HD NC M HN HS U BC C16 Hb HT PT DEC ST HL. pose proof US as US2. destruct US2 as (HA & HP & LS & HU & _). assert (DP := decode_masked N HN U). set (BS := u32 _) in DP.
  assert (MK : masked (pf_of N) = true) by (assert (N = 1 \/ N = 2 \/ N = 3 \/ N = 4) as [-> | [-> | [-> | ->]]] by lia; reflexivity).
  assert (SZ := moderate_sizes _ _ _ M). assert (M' := M). destruct M' as (_ & _ & HD1 & LIM). destruct HD as (A1 & A2 & A3 & A4 & EW & EH & HW & HH).
  assert (X24 := w4 F BF 24 ltac:(lia) ltac:(lia)).
  assert (B8 : word4 F 88 / 8 = S) by (rewrite BC; replace (8 * S) with (S * 8) by ring; apply Z.div_mul; lia).
  assert (NN : forall W H D, moderate W H D -> 0 <= W * H * D * S < 4294967296) by (intros W' H' D' M2; assert (S2 := moderate_sizes _ _ _ M2); clear - S2 HS; nia).
  assert (LIN := h2_linear F BF ltac:(lia) (pf_of N) BS (W * H * depth_of F * S) true). rewrite MK, EW, EH, B8 in LIN.
  assert (LIN' : if has (Flags1 (h2 F (pf_of N) BS)) DDS_LINEARSIZE then Linear (h2 F (pf_of N) BS) = W * H * depth_of F * S else true = true).
  { apply LIN; auto.
    - intros V. unfold BS. rewrite EW, EH, B8. replace (depth_of F) with 1 in * by (unfold depth_of; destruct (flag _ _ _); lia). replace (Z.max 1 (word4 F 24)) with 1 by lia. apply u32_small. apply NN; auto.
    - intros V. replace (Z.max 1 W) with W by lia. replace (Z.max 1 H) with H by lia. assert (NN1 := NN _ _ _ M). assert (W * H * S <= W * H * depth_of F * S) by (clear - HW HH HS HD1; nia). assert (0 <= W * H * S) by (clear - HW HH HS; nia). rewrite (u32_small (W * H * S)) by lia. rewrite u32_small; [ring|]. replace (W * H * S * depth_of F) with (W * H * depth_of F * S) by ring. exact NN1. }
  apply (load_ok F BF ltac:(lia) alloc other sg u4 old e (pf_of N) BS W H N b ty (fun W H D => W * H * D * S) px); auto.
  - unfold dds_header. repeat (split; [assumption|]). assumption.
  - rewrite MK. reflexivity.
  - rewrite h0_16, C16. apply andb_false_r.
  - intros HL1. rewrite HL1 in LIN'. exact LIN'.
  - assert (N = 1 \/ N = 2 \/ N = 3 \/ N = 4) as [-> | [-> | [-> | ->]]] by lia; reflexivity.
  - intros W' H' D' M2. assert (S2 := moderate_sizes _ _ _ M2). assert (N2 := NN _ _ _ M2). split; [lia|]. intros l p e' Hp HLp Hl. set (hh := h2 F (pf_of N) BS) in *. destruct (has (Flags1 hh) DDS_LINEARSIZE) eqn:EL.
    + apply read_linear; auto; lia.
    + destruct M2 as (M2a & M2b & M2c & M2d). assert (QW := quads_le W'). assert (quads W' <= quads W' * quads H') by (clear - S2; nia). assert (quads W' * quads H' <= quads W' * quads H' * D') by (clear - S2 M2c; nia). apply read_lines; auto; try lia; [exact (eq_trans (h2_count F _ _) BC)|clear - M2a HS H0 H1 QW M2d; nia].
  - intros HL1 W' H' D' M2. unfold mip_linear. rewrite HL1, MK, h2_count, B8. apply u32_small. apply NN; auto.
Qed.
End Loading.

(** ** C103: pixels that are not compressed *)
Lemma no_sixteen : forall F q bits, masks F q bits -> Check16BitComponents (head_of F) = false.
Proof.
  intros F q bits (MR & MG & MB & MA). unfold Check16BitComponents. cbn [head_of RMask GMask BMask AMask]. destruct (word4 F 100 =? 1023) eqn:E1; [apply Z.eqb_eq in E1; assert (X := odd_mask _ _ _ _ MB); rewrite E1 in X; specialize (X eq_refl); lia|]. destruct (word4 F 92 =? 1023) eqn:E2; [apply Z.eqb_eq in E2; assert (X := odd_mask _ _ _ _ MR); rewrite E2 in X; specialize (X eq_refl); lia|]. rewrite andb_false_r. reflexivity.
Qed.
(** Missing: RGB in four bytes, RGBA in less than four, luminance and alpha in one byte or with two to four bits of alpha
    (refuted below). *)
Theorem C103_pixels_partial : pixels_loaded (fun N S q => readable N S /\ (N = 2 -> ~ 2 <= an q <= 4)).
Proof.
  intros alloc other sg u4 old F e N S q W H US HD NC M U BC MS (RD & NA) size ST HL. assert (B := US). destruct B as (_ & _ & _ & _ & BF & HF). assert (L128 : 128 <= zlen F) by (destruct HD; assumption).
  assert (NS : 1 <= N <= 4 /\ 1 <= S <= 4) by (unfold readable in RD; lia). assert (MS' := MS). destruct MS' as (MR & MG & MB & MA).
  assert (RM : word4 F 92 =? 65535 = false). { destruct (word4 F 92 =? 65535) eqn:E2; [apply Z.eqb_eq in E2; assert (X := odd_mask _ _ _ _ MR); rewrite E2 in X; specialize (X eq_refl); lia|reflexivity]. }
  apply (masked_load alloc sg u4 F US L128 other old e N S 1 IL_UNSIGNED_BYTE); auto; try lia.
  - eapply no_sixteen; eauto.
  - intros BS. unfold pixel_type. rewrite h2_red, RM, andb_false_r. reflexivity.
  - intros BS. apply masked_decodes; rewrite ?h2_red, ?h2_green, ?h2_blue, ?h2_alpha, ?h2_count, ?RM, ?andb_false_r; auto; try lia.
    assert (N = 1 \/ N = 2 \/ N = 3 \/ N = 4) as [-> | [-> | [-> | ->]]] by lia; reflexivity.
Qed.
Print Assumptions C103_pixels_partial.

(** luminance of 16 bits is loaded as it is *)
Theorem C103_short : forall alloc other sg u4 old F e W H, use alloc sg u4 F -> dds_header F W H -> ~ cube F -> moderate W H (depth_of F) ->
  uncompressed F 1 -> word4 F 88 = 16 -> word4 F 92 = 65535 ->
  let size := fun W H D => W * H * D * 2 in
  size_stated F (size W H (depth_of F)) true -> 128 + all_levels size (Z.to_nat (levels_of F)) W H (depth_of F) <= zlen F ->
  exists ims, iLoadDdsInternal alloc other sg u4 old (Rd F 0 (zlen F) e) = Ok (true, ims, []) /\ zlen ims = levels_of F /\
    levels size 1 2 IL_UNSIGNED_SHORT (stored_bytes F 2) 128 W H (depth_of F) ims.
Proof.
  intros alloc other sg u4 old F e W H US HD NC M U BC RM size ST HL. assert (B := US). destruct B as (_ & _ & _ & _ & BF & HF). assert (L128 : 128 <= zlen F) by (destruct HD; assumption).
  apply (masked_load alloc sg u4 F US L128 other old e 1 2 2 IL_UNSIGNED_SHORT); auto; try lia.
  - unfold Check16BitComponents. cbn [head_of RMask]. rewrite RM. reflexivity.
  - intros BS. unfold pixel_type. rewrite h2_red, h2_count, RM, BC. reflexivity.
  - intros BS. change (pf_of 1) with PF_LUMINANCE. apply short_decodes; rewrite ?h2_red, ?h2_count; auto; lia.
Qed.
Print Assumptions C103_short.

(** ** C104: compressed pixels *)
Definition dxt_name (fmt : Z) : list Z := [68; 88; 84; if fmt =? IL_DXT1 then 49 else if fmt =? IL_DXT3 then 51 else 53].
Definition dxt_size (fmt : Z) : Z := if fmt =? IL_DXT1 then 8 else 16.
(** Missing: data whose stated size is not the real one (refuted below), DXT2 and DXT4. *)
Lemma word_of : forall F o a b c d, slice F o 4 = [a; b; c; d] -> 0 <= o -> o + 4 <= zlen F -> word4 F o = a + 256 * b + 65536 * c + 16777216 * d.
Proof.
  intros F o a b c d E Ho Hl. unfold word4, word2. assert (G : forall k, 0 <= k < 4 -> geti F (o + k) = geti [a; b; c; d] k) by (intros k Hk; rewrite <- E, geti_slice by lia; reflexivity).
  replace (geti F o) with a by (rewrite <- (Z.add_0_r o) at 1; rewrite G by lia; reflexivity). rewrite (G 1) by lia. rewrite (G 2) by lia. replace (o + 2 + 1) with (o + 3) by lia. rewrite (G 3) by lia. change (geti [a; b; c; d] 1) with b. change (geti [a; b; c; d] 2) with c. change (geti [a; b; c; d] 3) with d. ring.
Qed.
Definition pf_dxt (fmt : Z) : Z := if fmt =? IL_DXT1 then PF_DXT1 else if fmt =? IL_DXT3 then PF_DXT3 else PF_DXT5.
Lemma dxt_three : forall fmt, In fmt [IL_DXT1; IL_DXT3; IL_DXT5] -> fmt = IL_DXT1 \/ fmt = IL_DXT3 \/ fmt = IL_DXT5.
Proof. intros fmt [<- | [<- | [<- | []]]]; auto. Qed.
Lemma decode_dxt : forall F fmt, bytes F -> 128 <= zlen F -> In fmt [IL_DXT1; IL_DXT3; IL_DXT5] -> flag F 80 2 = true -> slice F 84 4 = dxt_name fmt ->
  DecodePixelFormat (h0 F) = (pf_dxt fmt, u32 (u32 (u32 (u32 (word4 F 16 + 3) / 4 * (u32 (word4 F 12 + 3) / 4)) * Z.max 1 (word4 F 24)) * dxt_size fmt)).
Proof.
  intros F fmt BF HL HF FL NM. unfold DecodePixelFormat. rewrite h0_flags2, fourcc_bit. fold (flag F 80 2). rewrite FL, h0_fourcc, h0_width, h0_height. assert (X := w4 F BF 24 ltac:(lia) ltac:(lia)).
  replace (DDepth (h0 F)) with (Z.max 1 (word4 F 24)) by (unfold h0; change (DDepth (head_of F)) with (word4 F 24); destruct (word4 F 24 =? 0) eqn:E; cbn [with_depth head_of DDepth]; lia).
  unfold dxt_name in NM. rewrite (word_of _ _ _ _ _ _ NM) by lia. destruct (dxt_three _ HF) as [-> | [-> | ->]]; reflexivity.
Qed.
Theorem C104_dxt_partial : forall alloc other sg u4 old F e fmt W H, use alloc sg u4 F -> dds_header F W H -> ~ cube F -> moderate W H (depth_of F) ->
  In fmt [IL_DXT1; IL_DXT3; IL_DXT5] -> flag F 80 2 = true -> slice F 84 4 = dxt_name fmt ->
  let size := fun W H D => quads W * quads H * D * dxt_size fmt in
  size_stated F (size W H (depth_of F)) false -> 128 + all_levels size (Z.to_nat (levels_of F)) W H (depth_of F) <= zlen F ->
  exists ims, iLoadDdsInternal alloc other sg u4 old (Rd F 0 (zlen F) e) = Ok (true, ims, []) /\ zlen ims = levels_of F /\
    levels size 4 1 IL_UNSIGNED_BYTE (stored_blocks F fmt (dxt_size fmt)) 128 W H (depth_of F) ims.
Proof.
  intros alloc other sg u4 old F e fmt W H US HD NC M HFm FL NM size ST HL. assert (B := US). destruct B as (HA & HP & LS & HU & BF & HF). assert (L128 : 128 <= zlen F) by (destruct HD; assumption).
  assert (DP := decode_dxt F fmt BF L128 HFm FL NM). set (BS := u32 _) in DP. set (f := pf_dxt fmt) in *. set (bs := dxt_size fmt) in *.
  assert (K : dxt_kind f fmt bs) by (unfold dxt_kind, f, bs; destruct (dxt_three _ HFm) as [-> | [-> | ->]]; auto).
  assert (MK : masked f = false /\ dxt135 f = true /\ channels f = 4 /\ (if f =? PF_DXT1 then 8 else 16) = bs /\ (f =? PF_LUMINANCE) = false) by (destruct K as [(-> & _ & ->) | [(-> & _ & ->) | (-> & _ & ->)]]; repeat split; reflexivity). destruct MK as (MK1 & MK2 & MK3 & MK4 & MK5).
  assert (B16 : bs = 8 \/ bs = 16) by (unfold dxt_kind in K; lia).
  assert (M' := M). destruct M' as (_ & _ & HD1 & LIM). destruct HD as (A1 & A2 & A3 & A4 & EW & EH & HW & HH). assert (SZ := moderate_sizes _ _ _ M). assert (X24 := w4 F BF 24 ltac:(lia) ltac:(lia)).
  assert (NN : forall W H D, moderate W H D -> 0 <= quads W * quads H * D * bs < 4294967296) by (intros W' H' D' (a & b & c & d); assert (1 <= quads W') by (unfold quads; lia); assert (1 <= quads H') by (unfold quads; lia); assert (0 <= quads W' * quads H' * D') by (repeat apply Z.mul_nonneg_nonneg; lia); lia).
  assert (QW : u32 (W + 3) / 4 = quads W) by (rewrite u32_small by lia; reflexivity). assert (QH : u32 (H + 3) / 4 = quads H) by (rewrite u32_small by lia; reflexivity).
  assert (LIN := h2_linear F BF ltac:(lia) f BS (size W H (depth_of F)) false). rewrite MK1, EW, EH, QW, QH, MK4 in LIN.
  assert (LIN' : if has (Flags1 (h2 F f BS)) DDS_LINEARSIZE then Linear (h2 F f BS) = size W H (depth_of F) else false = true).
  { assert (P1 : 1 <= quads W * quads H) by (clear - SZ; nia). assert (P2 : quads W * quads H <= quads W * quads H * depth_of F) by (clear - P1 HD1; nia). assert (P0 := NN _ _ _ M). assert (P3 : 0 <= quads W * quads H * bs < 4294967296) by (clear - P0 P1 P2 B16 LIM; lia). apply LIN; auto.
    - intros V. unfold BS, size. rewrite EW, EH, QW, QH. assert (D1 : depth_of F = 1) by (clear - V X24; unfold depth_of; destruct (flag _ _ _); lia). rewrite D1 in P0, P2 |- *. replace (Z.max 1 (word4 F 24)) with 1 by (clear - V; lia). assert (P4 : 0 <= quads W * quads H < 4294967296) by (clear - P1 P2 LIM D1; rewrite D1 in LIM; lia). rewrite (u32_small (quads W * quads H)) by exact P4. rewrite (u32_small (quads W * quads H * 1)) by (clear - P4; lia). apply u32_small. exact P0.
    - intros V. rewrite (u32_small (quads W * quads H * bs)) by exact P3. unfold size. replace (quads W * quads H * bs * depth_of F) with (quads W * quads H * depth_of F * bs) by ring. apply u32_small. exact P0. }
  apply (load_ok F BF ltac:(lia) alloc other sg u4 old e f BS W H 4 1 IL_UNSIGNED_BYTE size); auto; try lia.
  - unfold dds_header. repeat (split; [assumption|]). assumption.
  - rewrite MK1. exact MK2.
  - rewrite MK1. reflexivity.
  - intros HL1. rewrite HL1 in LIN'. exact LIN'.
  - unfold pixel_type. rewrite MK5. reflexivity.
  - apply dxt_decodes; auto; lia.
  - intros W' H' D' M2. assert (N2 := NN _ _ _ M2). split; [apply N2|]. intros l p e' Hp HLp Hl. destruct (has (Flags1 (h2 F f BS)) DDS_LINEARSIZE) eqn:EL; [|discriminate]. apply read_linear; auto; [exact (proj1 N2)|clear - L128; lia].
  - intros HL1 W' H' D' M2. unfold mip_linear. rewrite HL1, MK1. assert (N2 := NN _ _ _ M2). unfold size. destruct M2 as (a & b & c & d). fold (quads W') (quads H').
    assert (0 <= quads W' * quads H' * D') by (repeat apply Z.mul_nonneg_nonneg; unfold quads; lia). replace (quads W' * 4 * (quads H' * 4) * D' * 4) with (quads W' * quads H' * D' * 64) by ring. rewrite u32_small by lia.
    clearbody bs f. clear - K H0. destruct K as [(-> & _ & ->) | [(-> & _ & ->) | (-> & _ & ->)]]; change (PF_DXT1 =? PF_DXT1) with true; change (PF_DXT3 =? PF_DXT1) with false; change (PF_DXT5 =? PF_DXT1) with false; cbv iota.
    + replace (quads W' * quads H' * D' * 64) with (quads W' * quads H' * D' * 8 * 8) by ring. apply Z.div_mul. lia.
    + replace (quads W' * quads H' * D' * 64) with (quads W' * quads H' * D' * 16 * 4) by ring. apply Z.div_mul. lia.
    + replace (quads W' * quads H' * D' * 64) with (quads W' * quads H' * D' * 16 * 4) by ring. apply Z.div_mul. lia.
Qed.
Print Assumptions C104_dxt_partial.
