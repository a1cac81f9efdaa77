(** C28: conversions that go wrong, and concrete cases. *)
From Coq Require Import ZArith List Lia Bool.
From Verif Require Import Base Enums Utility Image Slices Elem Channels ChannelsSpec ChannelsProofs ChannelsProps2 PixelsProofs Endian Half Float
  ConvBuff ConvSpec ConvProofs ConvProps.
Import ListNotations.
Open Scope Z_scope.

(** Dropping the colours of an RGB image writes past the block for every image. *)
Theorem C28_rgb_to_alpha_refuted : forall fcast flum pal alloc Ty n N buf blk,
  allocator_ok alloc -> type_size Ty n -> 0 < N -> zlen buf = N * 3 * n -> N * 3 * n < 4294967296 -> alloc (N * n) = Some blk ->
  ilConvertBuffer fcast flum pal alloc (N * 3 * n) IL_RGB IL_ALPHA Ty Ty buf = UB.
Proof.
  intros fcast flum pal alloc Ty n N buf blk AO HT HN Hbuf H32 HA. assert (Hn := type_pos _ _ HT).
  assert (Bn : ilGetBpcType Ty = n) by (apply type_size_bpc; auto). assert (Nn : 0 < N * n) by (apply Z.mul_pos_pos; lia).
  unfold ilConvertBuffer. replace (N * 3 * n =? 0) with false by lia. rewrite (switch_same _ _ _ _ n) by auto. cbn [bind]. rewrite Bn.
  rewrite Z.div_mul by lia. change (IL_ALPHA =? IL_RGB) with false. change (IL_RGB =? IL_COLOUR_INDEX) with false.
  change (case IL_RGB [IL_RGB; IL_RGBA; IL_BGR; IL_BGRA; IL_LUMINANCE; IL_LUMINANCE_ALPHA; IL_ALPHA]) with true.
  change (plan IL_RGB IL_ALPHA) with (Some ((fun b => b / 3), Fill same)). cbv beta iota.
  replace (u32 (N * 3 * n)) with (N * 3 * n) by (symmetry; apply u32_small; lia). replace (N * 3 * n / 3) with (N * n) by lia. rewrite HA.
  cbn [run]. unfold same. replace (u32 (N * 3 * n)) with (N * 3 * n) by (symmetry; apply u32_small; lia).
  assert (Lb := AO _ _ HA). unfold memset. replace (inb (zlen blk) 0 (N * 3 * n)) with false by (unfold inb; lia). reflexivity.
Qed.

(** The alpha of luminance-alpha images is read from the wrong place, past the end for the last pixel. *)
Theorem C28_la_to_alpha_refuted : forall fcast flum pal alloc Ty n N buf blk,
  allocator_ok alloc -> type_size Ty n -> 0 < N -> zlen buf = N * 2 * n -> N * 2 * n < 4294967296 - 8 -> alloc (N * n) = Some blk ->
  ilConvertBuffer fcast flum pal alloc (N * 2 * n) IL_LUMINANCE_ALPHA IL_ALPHA Ty Ty buf = UB.
Proof.
  intros fcast flum pal alloc Ty n N buf blk AO HT HN Hbuf H32 HA. assert (Hn := type_pos _ _ HT).
  assert (Bn : ilGetBpcType Ty = n) by (apply type_size_bpc; auto). assert (Nn : 0 < N * n) by (apply Z.mul_pos_pos; lia).
  assert (N1 : N * 1 <= N * n) by (apply Z.mul_le_mono_nonneg_l; lia).
  unfold ilConvertBuffer. replace (N * 2 * n =? 0) with false by lia. rewrite (switch_same _ _ _ _ n) by auto. cbn [bind]. rewrite Bn.
  rewrite Z.div_mul by lia. change (IL_ALPHA =? IL_LUMINANCE_ALPHA) with false. change (IL_LUMINANCE_ALPHA =? IL_COLOUR_INDEX) with false.
  change (case IL_LUMINANCE_ALPHA [IL_RGB; IL_RGBA; IL_BGR; IL_BGRA; IL_LUMINANCE; IL_LUMINANCE_ALPHA; IL_ALPHA]) with true.
  change (plan IL_LUMINANCE_ALPHA IL_ALPHA) with (Some ((fun b => b / 2), Whole 2 1 [(0, El 3)])). cbv beta iota.
  replace (u32 (N * 2 * n)) with (N * 2 * n) by (symmetry; apply u32_small; lia). replace (N * 2 * n / 2) with (N * n) by lia. rewrite HA.
  assert (Lb := AO _ _ HA). cbn [run]. rewrite Z.div_mul by lia.
  rewrite (loop_ub _ (fun d => zlen d = N * n)); auto.
  - intros k d Hk Ld. cbn [put_cells cell_val]. rewrite !u32_small by (rewrite ?u32_small; lia).
    assert ((k * 2 + 3 + 1) * n <= N * 2 * n) by (apply Z.mul_le_mono_nonneg_r; lia). assert (0 <= (k * 2 + 3) * n) by (apply Z.mul_nonneg_nonneg; lia).
    assert ((k * 1 + 0 + 1) * n <= N * n) by (apply Z.mul_le_mono_nonneg_r; lia). assert (0 <= (k * 1 + 0) * n) by (apply Z.mul_nonneg_nonneg; lia).
    rewrite rde_ok by lia. cbn [bind]. rewrite wre_ok by (rewrite ?zlen_slice; lia). cbn [bind]. eexists. split; [reflexivity|].
    rewrite zlen_splice by (rewrite ?zlen_slice; lia). exact Ld.
  - intros d Ld. cbn [put_cells cell_val]. rewrite !u32_small by (rewrite ?u32_small; lia). unfold rde, inb.
    assert (0 <= ((N - 1) * 2 + 3) * n) by (apply Z.mul_nonneg_nonneg; lia).
    match goal with |- context [if ?b then _ else _] => replace b with false by lia end. reflexivity.
Qed.

(** The size of the new block wraps around: an RGB buffer of 1073741826 bytes gets an RGBA block of two. *)
Theorem C28_size_refuted : forall fcast flum pal alloc buf blk,
  allocator_ok alloc -> zlen buf = 1073741826 -> alloc 2 = Some blk ->
  ilConvertBuffer fcast flum pal alloc 1073741826 IL_RGB IL_RGBA IL_UNSIGNED_BYTE IL_UNSIGNED_BYTE buf = UB.
Proof.
  intros fcast flum pal alloc buf blk AO Hbuf HA. assert (Lb := AO _ _ HA).
  unfold ilConvertBuffer. change (1073741826 =? 0) with false. cbv iota. rewrite (switch_same _ _ _ _ 1) by constructor. cbn [bind].
  change (1073741826 / ilGetBpcType IL_UNSIGNED_BYTE) with 1073741826. change (ilGetBpcType IL_UNSIGNED_BYTE) with 1.
  change (IL_RGBA =? IL_RGB) with false. change (IL_RGB =? IL_COLOUR_INDEX) with false.
  change (case IL_RGB [IL_RGB; IL_RGBA; IL_BGR; IL_BGRA; IL_LUMINANCE; IL_LUMINANCE_ALPHA; IL_ALPHA]) with true.
  change (plan IL_RGB IL_RGBA) with (Some (x4d3, Each 3 4 (keep3 ++ [(3, Opq)]))). cbv beta iota.
  change (x4d3 (u32 (1073741826 * 1))) with 2. rewrite HA. cbn [run].
  change 1073741826 with (357913942 * 3). rewrite stride2_loop by lia. rewrite loop_first by lia.
  unfold keep3. cbn [app]. cbn [put_cells cell_val]. change (0 * 3) with 0. change (0 * 4) with 0. cbn [Z.add]. rewrite !u32_small by lia.
  rewrite !rde_ok by lia. cbn [bind].
  assert (Z0 : zlen (slice buf (0 * 1) 1) = 1) by (rewrite zlen_slice; lia).
  assert (Z1 : zlen (slice buf (1 * 1) 1) = 1) by (rewrite zlen_slice; lia).
  assert (Z2 : zlen (slice buf (2 * 1) 1) = 1) by (rewrite zlen_slice; lia).
  rewrite wre_ok by lia. cbn [bind]. set (d1 := splice blk _ _). assert (L1 : zlen d1 = 2) by (unfold d1; rewrite zlen_splice; lia).
  rewrite wre_ok by lia. cbn [bind]. set (d2 := splice d1 _ _). assert (L2 : zlen d2 = 2) by (unfold d2; rewrite zlen_splice; lia).
  unfold wre, inb. rewrite L2. reflexivity.
Qed.

(** A new alpha channel of half floats is 0xFFFF, which is not a number; 1.0 is 0x3C00. *)
Theorem C28_half_alpha_refuted : forall fcast flum pal alloc buf blk,
  allocator_ok alloc -> zlen buf = 6 -> alloc 8 = Some blk ->
  ilConvertBuffer fcast flum pal alloc 6 IL_RGB IL_RGBA IL_HALF IL_HALF buf = Ok (Some (buf ++ [255; 255]), []).
Proof.
  intros fcast flum pal alloc buf blk AO Hbuf HA. assert (Lb := AO _ _ HA).
  repeat (destruct buf as [|? buf]; try (unfold zlen in Hbuf; cbn [length] in Hbuf; lia)).
  repeat (destruct blk as [|? blk]; try (unfold zlen in Lb; cbn [length] in Lb; lia)).
  unfold ilConvertBuffer. cbv [iSwitchTypes]. change (ilGetBpcType IL_HALF) with 2. cbn [Z.eqb orb Pos.eqb].
  change (IL_HALF =? IL_HALF) with true. cbn [bind]. change (IL_RGBA =? IL_RGB) with false. change (IL_RGB =? IL_COLOUR_INDEX) with false.
  change (case IL_RGB [IL_RGB; IL_RGBA; IL_BGR; IL_BGRA; IL_LUMINANCE; IL_LUMINANCE_ALPHA; IL_ALPHA]) with true.
  change (plan IL_RGB IL_RGBA) with (Some (x4d3, Each 3 4 (keep3 ++ [(3, Opq)]))). cbv beta iota.
  change (x4d3 (u32 (6 / 2 * 2))) with 8. rewrite HA. reflexivity.
Qed.

(** Going to alpha only from formats without alpha gives zero (transparent), not opaque. *)
Theorem C28_new_alpha_refuted : forall fcast flum pal alloc blk x,
  allocator_ok alloc -> alloc 1 = Some blk ->
  ilConvertBuffer fcast flum pal alloc 1 IL_LUMINANCE IL_ALPHA IL_UNSIGNED_BYTE IL_UNSIGNED_BYTE [x] = Ok (Some [0], []) /\
  ~ converted IL_LUMINANCE IL_ALPHA 1 1 1 IL_UNSIGNED_BYTE 1 [x] [0].
Proof.
  intros fcast flum pal alloc blk x AO HA. assert (Lb := AO _ _ HA).
  split.
  - destruct blk as [|b [|b2 blk]]; try (unfold zlen in Lb; cbn [length] in Lb; lia).
    unfold ilConvertBuffer. change (1 =? 0) with false. cbv iota. rewrite (switch_same _ _ _ _ 1) by constructor. cbn [bind].
    change (ilGetBpcType IL_UNSIGNED_BYTE) with 1. change (IL_ALPHA =? IL_LUMINANCE) with false. change (IL_LUMINANCE =? IL_COLOUR_INDEX) with false.
    change (case IL_LUMINANCE [IL_RGB; IL_RGBA; IL_BGR; IL_BGRA; IL_LUMINANCE; IL_LUMINANCE_ALPHA; IL_ALPHA]) with true.
    change (plan IL_LUMINANCE IL_ALPHA) with (Some (same, Fill same)). cbv beta iota. change (same (u32 (1 / 1 * 1))) with 1. rewrite HA. reflexivity.
  - intros H. assert (K := H 0 A 0 Opaque ltac:(lia) at_a). cbn [is_what] in K.
    assert (should_be IL_LUMINANCE A Opaque) as S by (apply sb_opaque; intros i C; inversion C).
    specialize (K S). change (sample [0] 1 1 0 0) with [0] in K. inversion K.
Qed.

(** ** Concrete cases *)
Definition some_alloc : allocator := fun n => if (0 <=? n) && (n <=? 64) then Some (repeat 170 (Z.to_nat n)) else None.
Lemma some_alloc_ok : allocator_ok some_alloc.
Proof. intros n l H. unfold some_alloc in H. destruct ((0 <=? n) && (n <=? 64)) eqn:E; [|discriminate]. injection H as <-. rewrite zlen_repeat. lia. Qed.
Definition no_cast (a b : Z) (e : list Z) : list Z := e.
Definition no_lum (r d : bool) (t : Z) (a b c : list Z) : list Z := a.
Definition no_pal (b : list Z) : res (option (list Z) * list Z) := Ok (None, []).

Example C28_ex : ilConvertBuffer no_cast no_lum no_pal some_alloc 6 IL_RGB IL_BGRA IL_UNSIGNED_BYTE IL_UNSIGNED_BYTE [1; 2; 3; 4; 5; 6] =
  Ok (Some [3; 2; 1; 255; 6; 5; 4; 255], []).
Proof. reflexivity. Qed.
Example C28_ex_back : ilConvertBuffer no_cast no_lum no_pal some_alloc 8 IL_BGRA IL_RGB IL_UNSIGNED_BYTE IL_UNSIGNED_BYTE [3; 2; 1; 255; 6; 5; 4; 255] =
  Ok (Some [1; 2; 3; 4; 5; 6], []).
Proof. reflexivity. Qed.
Example C28_ex_hyp : exists new, ilConvertBuffer no_cast no_lum no_pal some_alloc (2 * 3 * 1) IL_RGB IL_BGRA IL_UNSIGNED_BYTE IL_UNSIGNED_BYTE [1; 2; 3; 4; 5; 6] = Ok (Some new, []) /\
  zlen new = 2 * 4 * 1 /\ ilConvertBuffer no_cast no_lum no_pal some_alloc (2 * 4 * 1) IL_BGRA IL_RGB IL_UNSIGNED_BYTE IL_UNSIGNED_BYTE new = Ok (Some [1; 2; 3; 4; 5; 6], []).
Proof.
  apply (C28_roundtrip_partial no_cast no_lum no_pal some_alloc IL_RGB IL_BGRA 3 4 IL_UNSIGNED_BYTE 1 2 [1; 2; 3; 4; 5; 6] (repeat 170 6) (repeat 170 8));
    try constructor; try lia; try reflexivity. exact some_alloc_ok.
Qed.
(** bytes to shorts on the way *)
Example C28_ex_types : exists new, ilConvertBuffer no_cast no_lum no_pal some_alloc (2 * 1 * 1) IL_LUMINANCE IL_RGBA IL_UNSIGNED_BYTE IL_UNSIGNED_SHORT [1; 255] = Ok (Some new, []) /\
  zlen new = 2 * 4 * 2 /\ converted IL_LUMINANCE IL_RGBA 1 4 2 IL_UNSIGNED_SHORT 2 [1; 1; 255; 255] new.
Proof.
  apply (C28_convert_partial no_cast no_lum no_pal some_alloc IL_LUMINANCE IL_RGBA 1 4 IL_UNSIGNED_BYTE IL_UNSIGNED_SHORT 1 2 2 [1; 255] [1; 1; 255; 255] (repeat 170 16));
    try lia; try reflexivity; try constructor; try discriminate; try exact some_alloc_ok.
  eapply cp_colour; [constructor|discriminate|constructor].
Qed.
Print Assumptions C28_convert_partial.
Print Assumptions C28_roundtrip_partial.
Print Assumptions C28_rgb_to_alpha_refuted.
Print Assumptions C28_la_to_alpha_refuted.
Print Assumptions C28_size_refuted.
Print Assumptions C28_half_alpha_refuted.
Print Assumptions C28_new_alpha_refuted.
