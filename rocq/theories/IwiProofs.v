(** Loading IWI textures: the levels, one format at a time. *)
From Coq Require Import ZArith List Lia Bool.
From Verif Require Import Base Slices BitLemmas Elem Enums Utility UtilityProps Image ImageSpec Lump LumpSpec LumpProofs LumpProps Endian ConvImgProps PcxProofs TgaProofs BmpSpec BmpDecode DxtSpec Dxt DxtProofs DxtDecode DxtProps Small SmallSpec SmallTex Dds DdsSpec DdsProofs DdsLevels Iwi IwiSpec.
Import ListNotations.
Open Scope Z_scope.

(** ** Sides *)
Lemma side_0 : forall n, 1 <= n -> side n 0 = n.
Proof. intros n Hn. unfold side. change (2 ^ 0) with 1. rewrite Z.div_1_r. lia. Qed.
Lemma side_pos : forall n k, 1 <= side n k. Proof. intros. unfold side. lia. Qed.
Lemma side_le : forall n k, 1 <= n -> 0 <= k -> side n k <= n.
Proof. intros n k Hn Hk. unfold side. assert (P : 0 < 2 ^ k) by (apply Z.pow_pos_nonneg; lia). assert (n / 2 ^ k <= n) by (apply Z.div_le_upper_bound; nia). lia. Qed.
Lemma side_next : forall n k, 0 <= k -> shrink (side n k) = side n (k + 1).
Proof.
  intros n k Hk. unfold side. assert (P : 0 < 2 ^ k) by (apply Z.pow_pos_nonneg; lia).
  rewrite Z.pow_add_r by lia. rewrite <- Z.div_div by lia. set (m := n / 2 ^ k). unfold shrink. rewrite Z.shiftr_div_pow2 by lia. change (2 ^ 1) with 2. destruct (Z.max 1 m / 2 =? 0) eqn:E; lia.
Qed.
Lemma side_one : forall n k, 1 <= n -> 0 <= k -> (side n k = 1 <-> Z.log2 n <= k).
Proof.
  intros n k Hn Hk. unfold side. assert (P : 0 < 2 ^ k) by (apply Z.pow_pos_nonneg; lia). assert (Q : 2 ^ (k + 1) = 2 * 2 ^ k) by (rewrite Z.pow_add_r by lia; change (2 ^ 1) with 2; ring).
  assert (L := Z.log2_lt_pow2 n (k + 1) ltac:(lia)). split; intros A.
  - assert (n / 2 ^ k < 2) by lia. assert (n < 2 ^ (k + 1)). { assert (M := Z.mul_succ_div_gt n (2 ^ k) P). nia. } lia.
  - assert (n < 2 ^ (k + 1)) by lia. assert (n / 2 ^ k < 2) by (apply Z.div_lt_upper_bound; lia). lia.
Qed.
(** the number of smaller levels the loader knows of *)
Definition until_one (W H : Z) : Z := Z.log2 (Z.min W H).
Lemma until_end : forall W H k, 1 <= W -> 1 <= H -> 0 <= k -> (side W k = 1 \/ side H k = 1 <-> until_one W H <= k).
Proof.
  intros W H k HW HH Hk. rewrite !side_one by lia. unfold until_one. destruct (Z.min_spec W H) as [(A & ->)|(A & ->)].
  - assert (Z.log2 W <= Z.log2 H) by (apply Z.log2_le_mono; lia). lia.
  - assert (Z.log2 H <= Z.log2 W) by (apply Z.log2_le_mono; lia). lia.
Qed.

Definition plain_top (W H N fmt : Z) (d : list Z) : img := top_img W H N fmt d (mkPal None 0 IL_PAL_NONE).
Lemma plain_data : forall W H N fmt d d', with_Data (plain_top W H N fmt d) (Some d') = plain_top W H N fmt d'. Proof. reflexivity. Qed.

Section Init.
Variables (alloc : allocator) (N fmt W H : Z).
Hypothesis (HA : allocator_ok alloc) (HP : plenty alloc) (HN : 1 <= N <= 4) (HW : 1 <= W) (HH : 1 <= H) (HS : W * N * H < 4294967296).
Fixpoint blank (l : list img) (k : Z) : Prop :=
  match l with [] => True | im :: l => (exists blk, im = plain_top (side W k) (side H k) N fmt blk /\ zlen blk = side W k * N * side H k) /\ blank l (k + 1) end.

Lemma level_size : forall k, 0 <= k -> 1 <= side W k * N * side H k < 4294967296.
Proof using HN HW HH HS. clear - HN HW HH HS. intros k Hk. assert (A := side_le W k HW Hk). assert (B := side_le H k HH Hk). assert (C := side_pos W k). assert (D := side_pos H k). assert (side W k * N <= W * N) by nia. assert (1 <= side W k * N) by nia. nia. Qed.

Lemma init_level : forall old k, 0 <= k -> exists blk, ilInitImage alloc old (side W k) (side H k) 1 N fmt IL_UNSIGNED_BYTE None = Ok (true, low_img (side W k) (side H k) N fmt blk, []) /\ zlen blk = side W k * N * side H k.
Proof using HA HP HN HW HH HS.
  intros old k Hk. assert (L := level_size k Hk). destruct (alloc (side W k * N * side H k)) as [blk|] eqn:E; [|exfalso; apply (HP (side W k * N * side H k)); auto; lia].
  exists blk. split; [|exact (HA _ _ E)]. apply init_low; auto using side_pos; lia.
Qed.
Lemma init_levels : forall m fuel k, (m <= fuel)%nat -> 0 <= k -> until_one W H = k + Z.of_nat m -> exists l, IwiInitMipmaps fuel alloc fmt N (side W k) (side H k) = Ok (Some l, []) /\ length l = m /\ blank l (k + 1).
Proof using HA HP HN HW HH HS.
  induction m as [|m IH]; intros fuel k Hf Hk HU.
  - exists []. assert (U := proj2 (until_end W H k HW HH Hk)). assert (E : negb (negb (side W k =? 1) && negb (side H k =? 1)) = true) by lia.
    destruct fuel; cbn [IwiInitMipmaps]; rewrite E; (split; [reflexivity|split; [reflexivity|exact I]]).
  - destruct fuel as [|fuel]; [lia|]. cbn [IwiInitMipmaps]. assert (U := proj1 (until_end W H k HW HH Hk)). replace (negb (negb (side W k =? 1) && negb (side H k =? 1))) with false by lia.
    cbv zeta. rewrite !side_next by lia. destruct (init_level fresh (k + 1) ltac:(lia)) as (blk & -> & LB). cbn [bind negb]. destruct (IH fuel (k + 1)) as (l & -> & LL & BL); [lia|lia|lia|]. cbn [bind].
    eexists. split; [reflexivity|]. split; [cbn [length]; lia|]. cbn [blank]. split; [|exact BL]. exists blk. split; [apply low_top|exact LB].
Qed.
End Init.

Section Levels.
Variable (F : list Z).
Hypothesis (HF : 0 < zlen F < 4294967295).
Notation R p e := (Rd F p (zlen F) e).
Variables (alloc : allocator) (f N fmt W H : Z) (size : Z -> Z -> Z) (px : Z -> Z -> Z -> Z -> Z -> Z).

(** one level is read right *)
Definition level_read (n : Z) : Prop := forall k p e blk, 0 <= k <= n -> 0 <= p -> p + size (side W k) (side H k) <= zlen F -> zlen blk = side W k * N * side H k ->
  exists d, ReadLevel alloc f (plain_top (side W k) (side H k) N fmt blk) (R p e) = Ok (true, plain_top (side W k) (side H k) N fmt d, R (p + size (side W k) (side H k)) e) /\
    SmallSpec.shows (plain_top (side W k) (side H k) N fmt d) (side W k) (side H k) N fmt (px p (side W k)).
Hypothesis (SZ : forall W H, 1 <= W -> 1 <= H -> 0 <= size W H).

Lemma bytes_from_pos : forall n k, 0 <= bytes_from size W H k n.
Proof using SZ. clear - SZ. induction n as [|n IH]; intros k; cbn [bytes_from]; [lia|]. assert (A := SZ (side W k) (side H k) (side_pos W k) (side_pos H k)). specialize (IH (k + 1)). lia. Qed.

Lemma read_levels : forall n, level_read n -> forall l k p e, blank N fmt W H l k -> 0 <= k -> k + zlen l <= n + 1 -> 0 <= p -> p + bytes_from size W H k (length l) <= zlen F ->
  exists ims, IwiReadImage alloc f l (R p e) = Ok (true, ims, R (p + bytes_from size W H k (length l)) e) /\ length ims = length l /\
    forall j, (j < length l)%nat -> let i := k + Z.of_nat j in
      SmallSpec.shows (nth j ims fresh) (side W i) (side H i) N fmt (px (p + bytes_from size W H (i + 1) (length l - 1 - j)) (side W i)).
Proof using SZ HF.
  intros n LR. induction l as [|im l IH]; intros k p e B Hk Hn Hp HL; cbn [IwiReadImage length bytes_from] in *.
  - exists []. rewrite Z.add_0_r. split; [reflexivity|]. split; [reflexivity|]. intros j Hj. lia.
  - destruct B as ((blk & -> & LB) & B). rewrite zlen_cons in Hn. assert (ZL : 0 <= zlen l) by (unfold zlen; lia). assert (A := SZ (side W k) (side H k) (side_pos W k) (side_pos H k)). assert (C := bytes_from_pos (length l) (k + 1)).
    destruct (IH (k + 1) p e B) as (ims & -> & LI & G); try lia. cbn [bind negb].
    destruct (LR k (p + bytes_from size W H (k + 1) (length l)) e blk) as (d & -> & SH); try lia. cbn [bind]. eexists. split; [do 2 f_equal; f_equal; lia|]. split; [cbn [length]; lia|].
    intros j Hj. pose (i := k + Z.of_nat j). fold i. destruct j as [|j]; cbn [nth].
    + replace i with k by (unfold i; lia). replace (S (length l) - 1 - 0)%nat with (length l) by lia. exact SH.
    + specialize (G j ltac:(lia)). cbv zeta in G. replace (k + 1 + Z.of_nat j) with i in G by (unfold i; lia). replace (S (length l) - 1 - S j)%nat with (length l - 1 - j)%nat by lia. exact G.
Qed.
End Levels.

(** ** One level of each format *)
Section Formats.
Variable (F : list Z).
Hypothesis (BF : bytes F) (HF : 0 < zlen F < 4294967295).
Notation R p e := (Rd F p (zlen F) e).
Variables (alloc : allocator) (W H : Z).
Hypothesis (HA : allocator_ok alloc) (HP : plenty alloc) (HW : 1 <= W) (HH : 1 <= H).

Lemma bytes_read : forall f N fmt n, f = IWI_ARGB8 \/ f = IWI_RGB8 \/ f = IWI_A8 -> 1 <= N <= 4 -> W * N * H < 4294967296 ->
  level_read F alloc f N fmt W H (fun W H => W * N * H) (fun p W => stored F p W N) n.
Proof using BF HF HW HH.
  intros f N fmt n Hf HN HS k p e blk Hk Hp HL LB. cbv beta in *. assert (L := level_size N W H HN HW HH HS k ltac:(lia)). exists (slice F p (side W k * N * side H k)). unfold ReadLevel, plain_top. cbn [top_img Data].
  replace ((f =? IWI_ARGB8) || (f =? IWI_RGB8) || (f =? IWI_A8)) with true by (destruct Hf as [-> | [-> | ->]]; reflexivity). cbn [top_img SizeOfData]. rewrite read_in by first [lia | exact HF | exact LB]. cbn [bind]. rewrite Z.eqb_refl. split; [reflexivity|].
  apply stored_shows; auto using side_pos; lia.
Qed.

Lemma land15 : forall x, 0 <= x < 256 -> Z.shiftl (Z.land x 15) 4 = 16 * (x mod 16).
Proof. intros x Hx. rewrite Z.shiftl_mul_pow2 by lia. change 15 with (Z.ones 4). rewrite Z.land_ones by lia. change (2 ^ 4) with 16. lia. Qed.
Lemma land240 : forall x, 0 <= x < 256 -> Z.land x 240 = 16 * (x / 16).
Proof using. clear.
  intros x Hx. assert (A := Z.land_lor_distr_r x 240 15). assert (B : Z.land x 255 = x) by (change 255 with (Z.ones 8); rewrite Z.land_ones by lia; apply Z.mod_small; lia).
  assert (C : Z.land x 15 = x mod 16) by (change 15 with (Z.ones 4); rewrite Z.land_ones by lia; reflexivity).
  assert (D : Z.land (Z.land x 240) (Z.land x 15) = 0). { rewrite (Z.land_comm x 15), Z.land_assoc, <- (Z.land_assoc x 240 15). change (Z.land 240 15) with 0. rewrite Z.land_0_r. apply Z.land_0_l. }
  assert (E := Z.add_nocarry_lxor _ _ D). assert (G := Z.lxor_lor _ _ D). change (Z.lor 240 15) with 255 in A. rewrite B in A. lia.
Qed.
Lemma nibbles_read : forall n, W * 4 * H < 2147483648 ->
  level_read F alloc IWI_ARGB4 4 IL_BGRA W H (fun W H => W * H * 2) (fun p W x t c => 16 * nibble F p W x t c) n.
Proof using BF HF HA HP HW HH.
  intros n HS k p e blk Hk Hp HL LB. cbv beta in *. assert (L := level_size 4 W H ltac:(lia) HW HH ltac:(lia) k ltac:(lia)).
  assert (L2 : side W k * 4 * side H k < 2147483648). { assert (A := side_le W k HW ltac:(lia)). assert (B := side_le H k HH ltac:(lia)). assert (C := side_pos W k). assert (D := side_pos H k). nia. }
  assert (PW := side_pos W k). assert (PH := side_pos H k). set (w := side W k) in *. set (h := side H k) in *. clearbody w h.
  unfold ReadLevel, plain_top. cbn [top_img Data]. change ((IWI_ARGB4 =? IWI_ARGB8) || (IWI_ARGB4 =? IWI_RGB8) || (IWI_ARGB4 =? IWI_A8)) with false. change (IWI_ARGB4 =? IWI_ARGB4) with true. cbv iota zeta. cbn [top_img Width Height SizeOfData].
  assert (E4 : w * 4 * h = w * h * 4) by ring. assert (E2 : 1 <= w * h) by nia. rewrite u32_small by lia.
  destruct (alloc (w * h * 2)) as [c0|] eqn:EA; [|exfalso; apply (HP (w * h * 2)); auto; lia]. assert (LC := HA _ _ EA). rewrite read_in by lia. cbn [bind]. rewrite Z.eqb_refl. cbn [negb].
  set (c := slice F p (w * h * 2)). assert (Lc : zlen c = w * h * 2) by (apply zlen_slice; lia). assert (GC : forall i, 0 <= i < w * h * 2 -> geti c i = geti F (p + i)) by (intros i Hi; unfold c; rewrite geti_slice by lia; reflexivity).
  replace (i32 (w * 4 * h)) with (w * h * 4) by (unfold i32; rewrite Z.mod_small by lia; lia).
  rewrite stride_loop by lia.
  match goal with |- context [loop 0 (w * h) ?body ?st0] => destruct (loop_rule _ (fun i '(m, d) => m = 2 * i /\ zlen d = w * h * 4 /\ forall j ch, 0 <= j < i -> 0 <= ch < 4 ->
      geti d (j * 4 + ch) = 16 * (let b := geti F (p + j * 2 + ch / 2) in if Z.even ch then b / 16 else b mod 16)) 0 (w * h) body st0) as ((m' & d) & -> & Em & Ld & G) end.
  - lia.
  - split; [lia|]. split; [lia|]. intros j ch Hj. lia.
  - intros i (m & d0) Hi (-> & Ld & G). cbv beta iota. assert (B0 := BF (p + 2 * i)). assert (B1 := BF (p + (2 * i + 1))). rewrite !rd_ok by lia. cbn [bind]. rewrite !GC by lia.
    rewrite land240, land15 by (apply B0; lia). rewrite land240, land15 by (apply B1; lia).
    rewrite wr_ok by lia. cbn [bind]. rewrite wr_ok by (rewrite ?zlen_upd; lia). cbn [bind]. rewrite wr_ok by (rewrite !zlen_upd by (rewrite ?zlen_upd; lia); lia). cbn [bind]. rewrite wr_ok by (rewrite !zlen_upd by (rewrite ?zlen_upd by (rewrite ?zlen_upd; lia); lia); lia). cbn [bind].
    eexists. split; [reflexivity|]. split; [lia|]. split; [rewrite !zlen_upd by (rewrite ?zlen_upd by (rewrite ?zlen_upd by (rewrite ?zlen_upd; lia); lia); lia); lia|].
    intros j ch Hj Hc. rewrite !geti_upd by (rewrite ?zlen_upd by (rewrite ?zlen_upd by (rewrite ?zlen_upd; lia); lia); lia).
    destruct (Z.eq_dec j i) as [-> | ].
    + assert (ch = 0 \/ ch = 1 \/ ch = 2 \/ ch = 3) as [-> | [-> | [-> | ->]]] by lia; cbn [Z.even].
      * replace (i * 4 + 0 =? 0 + i * 4 + 3) with false by lia. replace (i * 4 + 0 =? 0 + i * 4 + 2) with false by lia. replace (i * 4 + 0 =? 0 + i * 4 + 1) with false by lia. replace (i * 4 + 0 =? 0 + i * 4 + 0) with true by lia. change (0 / 2) with 0. replace (p + i * 2 + 0) with (p + 2 * i) by lia. reflexivity.
      * replace (i * 4 + 1 =? 0 + i * 4 + 3) with false by lia. replace (i * 4 + 1 =? 0 + i * 4 + 2) with false by lia. replace (i * 4 + 1 =? 0 + i * 4 + 1) with true by lia. change (1 / 2) with 0. replace (p + i * 2 + 0) with (p + 2 * i) by lia. reflexivity.
      * replace (i * 4 + 2 =? 0 + i * 4 + 3) with false by lia. replace (i * 4 + 2 =? 0 + i * 4 + 2) with true by lia. change (2 / 2) with 1. replace (p + i * 2 + 1) with (p + (2 * i + 1)) by lia. reflexivity.
      * replace (i * 4 + 3 =? 0 + i * 4 + 3) with true by lia. change (3 / 2) with 1. replace (p + i * 2 + 1) with (p + (2 * i + 1)) by lia. reflexivity.
    + replace (j * 4 + ch =? 0 + i * 4 + 3) with false by lia. replace (j * 4 + ch =? 0 + i * 4 + 2) with false by lia. replace (j * 4 + ch =? 0 + i * 4 + 1) with false by lia. replace (j * 4 + ch =? 0 + i * 4 + 0) with false by lia. apply G; lia.
  - cbn [bind]. exists d. split; [reflexivity|]. apply top_shows; auto; try lia. intros x t ch Hx Ht Hc. assert (I := off_in w h 1 x t 0 Hx Ht ltac:(lia)). rewrite G by lia. unfold nibble. reflexivity.
Qed.
End Formats.
