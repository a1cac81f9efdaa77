(** The levels of detail of DirectDraw surfaces. *)
From Coq Require Import ZArith List Lia Bool.
From Verif Require Import Base Slices BitLemmas Elem Enums Utility Image ImageSpec Lump LumpSpec LumpProofs LumpProps Endian ConvImgProps PcxProofs Tga TgaProofs BmpSpec BmpDecode DxtSpec Dxt DxtProofs DxtDecode DxtProps Dds DdsSpec DdsPixels DdsProofs.
Import ListNotations.
Open Scope Z_scope.

Lemma quads_le : forall W, W <= 4 * quads W. Proof. unfold quads. lia. Qed.
Lemma moderate_sizes : forall W H D, moderate W H D -> W < 2147483648 /\ H < 2147483648 /\ D < 2147483648 /\ 4 * (W * H * D) < 2147483648 /\ W * H * D <= 16 * (quads W * quads H * D) /\ 1 <= quads W /\ 1 <= quads H /\ 1 <= W * H * D.
Proof.
  intros W H D (HW & HH & HD & L). assert (QW := quads_le W). assert (QH := quads_le H). assert (1 <= quads W) by (unfold quads; lia). assert (1 <= quads H) by (unfold quads; lia).
  assert (A : W * H <= 16 * (quads W * quads H)) by nia. assert (B : W * H * D <= 16 * (quads W * quads H * D)) by nia. assert (1 <= W * H) by nia. assert (1 <= W * H * D) by nia. assert (W <= W * H) by nia. assert (H <= W * H) by nia. assert (W * H <= W * H * D) by nia. assert (D <= W * H * D) by nia. lia.
Qed.
Lemma in_volume : forall W H D x t z, 0 <= x < W -> 0 <= t < H -> 0 <= z < D -> 0 <= (z * H + t) * W + x < W * H * D.
Proof.
  intros W H D x t z Hx Ht Hz. assert (A : 0 <= z * H) by (apply Z.mul_nonneg_nonneg; lia). assert (B : (z + 1) * H <= D * H) by (apply Z.mul_le_mono_nonneg_r; lia).
  assert (0 <= (z * H + t) * W) by (apply Z.mul_nonneg_nonneg; lia). assert ((z * H + t + 1) * W <= D * H * W) by (apply Z.mul_le_mono_nonneg_r; lia). lia.
Qed.
Lemma chunk : forall p n S, 0 <= p < n -> 0 <= S -> 0 <= p * S /\ p * S + S <= n * S.
Proof. intros p n S Hp HS. split; [apply Z.mul_nonneg_nonneg; lia|]. assert ((p + 1) * S <= n * S) by (apply Z.mul_le_mono_nonneg_r; lia). lia. Qed.
Lemma halved_half : forall n, 1 <= n -> half n = halved n.
Proof. intros n Hn. unfold half, halved. destruct (n / 2 =? 0) eqn:E; lia. Qed.
Lemma quads_half : forall n, 1 <= n -> 1 <= quads (halved n) <= quads n.
Proof. intros n Hn. unfold quads, halved. lia. Qed.
Lemma moderate_half : forall W H D, moderate W H D -> moderate (halved W) (halved H) (halved D).
Proof.
  intros W H D (HW & HH & HD & L). unfold moderate. assert (A := quads_half W HW). assert (B := quads_half H HH). assert (C : 1 <= halved D <= D) by (unfold halved; lia). split; [unfold halved; lia|]. split; [unfold halved; lia|]. split; [lia|].
  assert (quads (halved W) * quads (halved H) <= quads W * quads H) by (apply Z.mul_le_mono_nonneg; lia). assert (quads (halved W) * quads (halved H) * halved D <= quads W * quads H * D) by (apply Z.mul_le_mono_nonneg; try lia; nia). lia.
Qed.

Definition level_img (W H D N b ty : Z) (blk : list Z) : img :=
  mkImg W H D N b (W * N * b) (Some blk) (W * N * b * H * D) (W * N * b * H) (fmt_of N) ty IL_ORIGIN_UPPER_LEFT (mkPal None 0 IL_PAL_NONE) 0 0 0 0.
Lemma fmt_bpp : forall N, 1 <= N <= 4 -> ilGetFormatBpp N = fmt_of N.
Proof. intros N HN. assert (N = 1 \/ N = 2 \/ N = 3 \/ N = 4) as [-> | [-> | [-> | ->]]] by lia; reflexivity. Qed.
Lemma level_init : forall alloc old W H D N b ty, allocator_ok alloc -> plenty alloc -> 1 <= W -> 1 <= H -> 1 <= D -> 1 <= N <= 4 -> b = 1 \/ b = 2 -> ilGetBpcType ty = b -> W * H * D * (N * b) < 4294967296 ->
  exists blk im, ilInitImage alloc old W H D N (ilGetFormatBpp N) ty None = Ok (true, im, []) /\ with_Origin im IL_ORIGIN_UPPER_LEFT = level_img W H D N b ty blk /\ zlen blk = W * N * b * H * D.
Proof.
  intros alloc old W H D N b ty HA HP HW HH HD HN Hb HT HS. unfold ilInitImage. rewrite HT. replace (b =? 0) with false by lia. unfold nz1. replace (W =? 0) with false by lia. replace (H =? 0) with false by lia. replace (D =? 0) with false by lia. cbv iota zeta.
  assert (1 <= N * b) by nia. assert (A : 1 <= W * (N * b)) by nia. assert (B : W * (N * b) <= W * (N * b) * H) by nia. assert (C : W * (N * b) * H <= W * (N * b) * H * D) by nia. assert (E : W * H * D * (N * b) = W * (N * b) * H * D) by ring.
  replace (W * N * b) with (W * (N * b)) by ring. rewrite (u32_small (W * (N * b))) by lia. rewrite (u32_small (W * (N * b) * H)) by lia. rewrite (u32_small (W * (N * b) * H * D)) by lia.
  destruct (alloc (W * (N * b) * H * D)) as [blk|] eqn:EA; [|exfalso; apply (HP (W * (N * b) * H * D)); auto; lia]. assert (LB := HA _ _ EA). exists blk. eexists. split; [reflexivity|]. split; [|exact LB].
  unfold with_Origin, level_img. cbn [Width Height Depth Bpp Bpc Bps Data SizeOfData SizeOfPlane Format Type_ Pal Duration CubeFlags OffX OffY]. rewrite fmt_bpp by lia. f_equal; ring.
Qed.

Section Levels.
Variable (F : list Z).
Hypothesis (BF : bytes F) (HF : 0 < zlen F < 4294967295).
Notation R p e := (Rd F p (zlen F) e).
Variables (alloc : allocator) (h : dds) (f N b ty : Z) (size : Z -> Z -> Z -> Z) (px : Z -> Z -> Z -> Z -> Z -> Z -> Z -> Z).
Hypothesis (HA : allocator_ok alloc) (HP : plenty alloc) (HN : 1 <= N <= 4) (Hb : b = 1 \/ b = 2 /\ N <= 2) (HT : ilGetBpcType ty = b).
Hypothesis (CN : channels f = N) (PT : pixel_type h f = ty).

(** one level is decoded right *)
Definition decodes : Prop := forall W H D o blk, moderate W H D -> 0 <= o -> o + size W H D <= zlen F -> zlen blk = W * N * b * H * D ->
  exists d, DdsDecompress h f (level_img W H D N b ty blk) (slice F o (size W H D)) = Ok d /\ zlen d = W * N * b * H * D /\
    forall x t z k, 0 <= x < W -> 0 <= t < H -> 0 <= z < D -> 0 <= k < N * b -> geti d (((z * H + t) * W + x) * (N * b) + k) = px o W H x t z k.
(** one level is read right *)
Definition reads : Prop := forall W H D, moderate W H D -> 0 <= size W H D /\
  forall l p e, 0 <= p -> p + size W H D <= zlen F -> (has (Flags1 h) DDS_LINEARSIZE = true -> l = size W H D) ->
    ReadData alloc (with_linear h (Flags1 h) l) W H D (R p e) = Ok (Some (slice F p (size W H D)), [], R (p + size W H D) e).
Definition mips : Prop := has (Flags1 h) DDS_LINEARSIZE = true -> forall W H D, moderate W H D -> mip_linear h f W H D = size W H D.
Hypothesis (DEC : decodes) (RDS : reads) (MIP : mips).

Lemma NB : 1 <= N * b <= 4. Proof using HN Hb. clear - HN Hb. lia. Qed.
Lemma level_shows : forall W H D blk d o, moderate W H D -> zlen d = W * N * b * H * D ->
  (forall x t z k, 0 <= x < W -> 0 <= t < H -> 0 <= z < D -> 0 <= k < N * b -> geti d (((z * H + t) * W + x) * (N * b) + k) = px o W H x t z k) ->
  shows (with_Data (level_img W H D N b ty blk) (Some d)) W H D N b ty (px o W H).
Proof using HN Hb size.
  clear HF BF CN DEC RDS MIP. intros W H D blk d o M L G. assert (S := moderate_sizes W H D M). destruct M as (HW & HH & HD & _). assert (X := NB). assert (P : W * N * b * H * D = W * H * D * (N * b)) by ring.
  exists d. split; [|cbn; repeat (split; [reflexivity|])].
  - unfold img_ok. cbn [with_Data level_img Data Width Height Depth Bpp Bpc Bps SizeOfPlane SizeOfData]. repeat (split; [first [reflexivity | lia | ring]|]). split; [|exact L]. change (2 ^ 32) with 4294967296. rewrite P. nia.
  - intros x t z k Hx Ht Hz Hk. rewrite <- G by auto. unfold picture, pix_off. cbn [with_Data level_img Origin Height Width Bpp Bpc]. rewrite Z.eqb_refl. cbv iota zeta. f_equal. ring.
Qed.
Lemma one_level : forall W H D l p e old, moderate W H D -> 0 <= p -> p + size W H D <= zlen F -> (has (Flags1 h) DDS_LINEARSIZE = true -> l = size W H D) ->
  exists im blk d, ilInitImage alloc old (u32 W) (u32 H) (u32 D) N (ilGetFormatBpp N) ty None = Ok (true, im, []) /\ with_Origin im IL_ORIGIN_UPPER_LEFT = level_img W H D N b ty blk /\
    ReadData alloc (with_linear h (Flags1 h) l) W H D (R p e) = Ok (Some (slice F p (size W H D)), [], R (p + size W H D) e) /\
    DdsDecompress h f (level_img W H D N b ty blk) (slice F p (size W H D)) = Ok d /\
    shows (with_Data (level_img W H D N b ty blk) (Some d)) W H D N b ty (px p W H).
Proof using BF HF HA HP HN Hb HT DEC RDS.
  intros W H D l p e old M Hp HL Hl. assert (S := moderate_sizes W H D M). assert (X := NB). destruct (RDS W H D M) as (Z0 & RD). specialize (RD l p e Hp HL Hl). assert (M' := M). destruct M' as (HW & HH & HD & _). rewrite !u32_small by lia.
  destruct (level_init alloc old W H D N b ty) as (blk & im & E & EO & LB); auto; try tauto; [nia|]. destruct (DEC W H D p blk M Hp HL LB) as (d & ED & LD & G).
  exists im, blk, d. split; [exact E|]. split; [exact EO|]. split; [exact RD|]. split; [exact ED|]. apply level_shows; auto.
Qed.

Lemma mips_ok : forall n W H D l p e, moderate W H D -> 0 <= p -> p + all_levels size n (halved W) (halved H) (halved D) <= zlen F ->
  exists ims, ReadMipmaps n alloc (with_linear h (Flags1 h) l) f W H D (R p e) = Ok (Some ims, []) /\ length ims = n /\
    levels size N b ty px p (halved W) (halved H) (halved D) ims.
Proof using BF HF HA HP HN Hb HT CN PT DEC RDS MIP.
  induction n as [|n IH]; intros W H D l p e M Hp HL; [exists []; cbn; auto|]. cbn [ReadMipmaps all_levels] in *. assert (M' := M). destruct M' as (HW & HH & HD & _). rewrite !halved_half by lia. assert (MH := moderate_half W H D M).
  set (W2 := halved W) in *. set (H2 := halved H) in *. set (D2 := halved D) in *. rewrite CN. change (pixel_type (with_linear h (Flags1 h) l) f) with (pixel_type h f). rewrite PT.
  assert (AN : forall n W H D, moderate W H D -> 0 <= all_levels size n W H D). { clear - RDS. induction n as [|n IH]; intros W H D M; cbn [all_levels]; [lia|]. destruct (RDS W H D M) as (Z0 & _). assert (X := IH _ _ _ (moderate_half _ _ _ M)). lia. }
  assert (A2 := AN n _ _ _ (moderate_half _ _ _ MH)). destruct (RDS W2 H2 D2 MH) as (Z0 & _).
  set (l2 := mip_linear (with_linear h (Flags1 h) l) f W2 H2 D2). destruct (one_level W2 H2 D2 l2 p e no_img MH Hp) as (im & blk & d & -> & EO & ER & ED & SH); [lia| |].
  { intros HL1. rewrite <- (MIP HL1 W2 H2 D2 MH). unfold l2, mip_linear. change (Flags1 (with_linear h (Flags1 h) l)) with (Flags1 h). change (BitCount (with_linear h (Flags1 h) l)) with (BitCount h). rewrite HL1. reflexivity. }
  cbn [bind negb]. cbv iota zeta. rewrite EO. change (with_linear (with_linear h (Flags1 h) l) (Flags1 (with_linear h (Flags1 h) l)) l2) with (with_linear h (Flags1 h) l2). rewrite ER. cbn [bind].
  change (DdsDecompress (with_linear h (Flags1 h) l2) f) with (DdsDecompress h f). rewrite ED. cbn [bind]. destruct (IH W2 H2 D2 l2 (p + size W2 H2 D2) e MH) as (ims & -> & LI & LV); try lia. cbn [bind].
  eexists. split; [reflexivity|]. cbn [length levels]. split; [lia|]. split; [exact SH|exact LV].
Qed.
End Levels.

(** ** The decoders *)
Section Decoders.
Variable (F : list Z).
Hypothesis (BF : bytes F) (HF : 0 < zlen F < 4294967295).
Variable (h : dds).

Lemma masked_decodes : forall q f N S, readable N S -> masked f = true -> BitCount h = 8 * S -> (f =? PF_LUMINANCE) && (BitCount h =? 16) && (RMask h =? 65535) = false ->
  mask_of (RMask h) (rn q) (rs q) (8 * S) -> mask_of (GMask h) (gn q) (gs q) (8 * S) -> mask_of (BMask h) (bn q) (DdsSpec.bs q) (8 * S) -> mask_of (AMask h) (an q) (as_ q) (8 * S) -> (N = 2 -> ~ 2 <= an q <= 4) ->
  decodes F h f N 1 IL_UNSIGNED_BYTE (fun W H D => W * H * D * S) (fun o W H => stored_fields F q N S o W H).
Proof using BF HF.
  intros q f N S HR HM HB HL MR MG MB MA NA W H D o blk M Ho HL2 LB. assert (SZ := moderate_sizes W H D M). assert (N4 : 1 <= N <= 4 /\ 1 <= S <= 4) by (unfold readable in HR; lia). unfold DdsDecompress. cbn [level_img Data]. rewrite HM.
  assert (E1 : W * N * 1 * H * D = W * H * D * N) by ring. rewrite E1 in *.
  destruct (fields_ok h q N S (8 * S) HR (Z.le_refl _) MR MG MB MA NA f (level_img W H D N 1 IL_UNSIGNED_BYTE blk) (slice F o (W * H * D * S)) blk (W * H * D)) as (d & ED & LD & G); auto.
  - rewrite HB. replace (8 * S) with (S * 8) by ring. apply Z.div_mul. lia.
  - lia.
  - clear - SZ N4. nia.
  - assert (0 <= W * H * D * S) by (apply Z.mul_nonneg_nonneg; lia). rewrite zlen_slice by lia. lia.
  - exists d. split; [exact ED|]. split; [exact LD|]. intros x t z k Hx Ht Hz Hk. rewrite !Z.mul_1_r in *. unfold stored_fields.
    assert (P : 0 <= (z * H + t) * W + x < W * H * D). { apply in_volume; auto. }
    destruct (chunk _ _ S P ltac:(lia)) as (C1 & C2). rewrite G by lia. rewrite slice_slice by lia. reflexivity.
Qed.

Lemma short_decodes : BitCount h = 16 -> RMask h = 65535 ->
  decodes F h PF_LUMINANCE 1 2 IL_UNSIGNED_SHORT (fun W H D => W * H * D * 2) (fun o W H => stored_bytes F 2 o W H).
Proof using BF HF.
  intros HB HM W H D o blk M Ho HL LB. assert (SZ := moderate_sizes W H D M). unfold DdsDecompress. cbn [level_img Data]. change (masked PF_LUMINANCE) with true. cbv iota. unfold DecompressARGB. rewrite HB, HM. change ((PF_LUMINANCE =? PF_LUMINANCE) && (16 =? 16) && (65535 =? 65535)) with true. cbv iota. cbn [level_img SizeOfData].
  assert (E1 : W * 1 * 2 * H * D = W * H * D * 2) by ring. rewrite E1 in *. assert (LS : zlen (slice F o (W * H * D * 2)) = W * H * D * 2) by (apply zlen_slice; lia).
  destruct (memcpy_spec blk 0 (slice F o (W * H * D * 2)) 0 (W * H * D * 2)) as (d & -> & LD & G); try lia. exists d. split; [reflexivity|]. split; [lia|]. intros x t z k Hx Ht Hz Hk. change (1 * 2) with 2 in *.
  assert (P : 0 <= (z * H + t) * W + x < W * H * D). { apply in_volume; auto. }
  rewrite G by lia. replace ((0 <=? ((z * H + t) * W + x) * 2 + k) && (((z * H + t) * W + x) * 2 + k <? 0 + W * H * D * 2)) with true by lia. rewrite geti_slice by lia. unfold stored_bytes. f_equal. lia.
Qed.

Definition dxt_kind (f fmt bs : Z) : Prop := f = PF_DXT1 /\ fmt = IL_DXT1 /\ bs = 8 \/ f = PF_DXT3 /\ fmt = IL_DXT3 /\ bs = 16 \/ f = PF_DXT5 /\ fmt = IL_DXT5 /\ bs = 16.
(** compressed pixels: blocks of [bs] bytes from [o] on *)
Definition stored_blocks (fmt bs o W H x t z k : Z) : Z := texel fmt (slice F (o + block_of W H x t z * bs) bs) (in_block x t) k.
Lemma dxt_decodes : forall f fmt bs, dxt_kind f fmt bs -> decodes F h f 4 1 IL_UNSIGNED_BYTE (fun W H D => quads W * quads H * D * bs) (stored_blocks fmt bs).
Proof using BF HF.
  intros f fmt bs K W H D o blk0 M Ho HL LB. assert (SZ := moderate_sizes W H D M). assert (M' := M). destruct M' as (HW & HH & HD & LIM). unfold DdsDecompress. cbn [level_img Data].
  set (im := level_img W H D 4 1 IL_UNSIGNED_BYTE blk0). set (c := slice F o (quads W * quads H * D * bs)). assert (B16 : 8 <= bs <= 16) by (unfold dxt_kind in K; lia). assert (Q0 : 0 <= quads W * quads H * D * bs) by (repeat apply Z.mul_nonneg_nonneg; lia).
  assert (Lc : zlen c = quads W * quads H * D * bs) by (apply zlen_slice; lia). assert (Bc : bytes c) by (apply bytes_slice; auto; lia).
  assert (G : exists d', (if masked f then DecompressARGB h f im c blk0 else if f =? PF_DXT1 then DecompressDXT1 im c blk0 else if f =? PF_DXT3 then DecompressDXT3 im c blk0 else DecompressDXT5 im c blk0) = Ok d' /\ Good W H D (texels fmt bs W H c) (fun _ _ _ _ => True) d').
  { assert (I1 : Bps im = 4 * W) by (change (W * 4 * 1 = 4 * W); ring). assert (I2 : SizeOfPlane im = 4 * W * H) by (change (W * 4 * 1 * H = 4 * W * H); ring). assert (HN : 4 * W * H * D < 4294967296) by lia. assert (LB2 : zlen blk0 = 4 * W * H * D) by lia.
    destruct K as [(-> & -> & ->) | [(-> & -> & ->) | (-> & -> & ->)]]; cbn [masked Z.eqb Pos.eqb PF_DXT1 PF_DXT3 PF_DXT5 PF_ARGB PF_RGB PF_LUMINANCE PF_LUMINANCE_ALPHA orb].
    - apply (blocks_ok im W H D _ ltac:(lia) ltac:(lia) ltac:(lia) HN eq_refl eq_refl eq_refl 8); auto. apply dxt1_ok; auto; lia.
    - apply (blocks_ok im W H D _ ltac:(lia) ltac:(lia) ltac:(lia) HN eq_refl eq_refl eq_refl 16); auto. apply dxt3_ok; auto; lia.
    - apply (blocks_ok im W H D _ ltac:(lia) ltac:(lia) ltac:(lia) HN eq_refl eq_refl eq_refl 16); auto. apply dxt5_ok; auto; lia. }
  destruct G as (d & ED & LD & A). exists d. split; [exact ED|]. split; [lia|]. intros x t z k Hx Ht Hz Hk. change (4 * 1) with 4 in *. assert (I : inside W H D x t z k) by (unfold inside; lia). rewrite <- (Z.mul_comm 4). fold (pos W H x t z k). rewrite (A x t z k I Logic.I). unfold texels, stored_blocks, blk, c.
  assert (QX : 0 <= x / 4 < quads W) by (unfold quads; lia). assert (QT : 0 <= t / 4 < quads H) by (unfold quads; lia). assert (BO : 0 <= block_of W H x t z < quads W * quads H * D). { unfold block_of. apply in_volume; auto. }
  destruct (chunk _ _ bs BO ltac:(lia)) as (C1 & C2). rewrite slice_slice by lia. reflexivity.
Qed.
End Decoders.
