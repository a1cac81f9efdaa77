(** Loading whole IWI files. *)
From Coq Require Import ZArith List Lia Bool.
From Verif Require Import Base Slices BitLemmas Elem Enums Utility UtilityProps Image ImageSpec Lump LumpSpec LumpProofs LumpProps Endian ConvImgProps PcxProofs TgaProofs BmpSpec BmpDecode DxtSpec Dxt DxtProofs DxtDecode DxtProps Small SmallSpec SmallTex Dds DdsSpec DdsProofs DdsLevels Iwi IwiSpec IwiProofs.
Import ListNotations.
Open Scope Z_scope.

(** ** Compressed levels *)
(** the loader's size of the data is the size of the blocks *)
Definition whole (w h : Z) : Prop := quads w * quads h * 16 = Z.max (w * h) 16.
Definition iwi_dxt (f fmt bs : Z) : Prop := f = IWI_DXT1 /\ fmt = IL_DXT1 /\ bs = 8 \/ f = IWI_DXT3 /\ fmt = IL_DXT3 /\ bs = 16 \/ f = IWI_DXT5 /\ fmt = IL_DXT5 /\ bs = 16.
Definition any_dds : dds := mkDds [] 0 0 0 0 0 0 0 0 0 0 0 0 0 0 0 0 0.
Lemma same_img : forall w h blk, level_img w h 1 4 1 IL_UNSIGNED_BYTE blk = plain_top w h 4 IL_RGBA blk.
Proof. intros. unfold level_img, plain_top, top_img. change (fmt_of 4) with IL_RGBA. f_equal; ring. Qed.

Section Dxt.
Variable (F : list Z).
Hypothesis (BF : bytes F) (HF : 0 < zlen F < 4294967295).
Variables (alloc : allocator) (W H : Z).
Hypothesis (HA : allocator_ok alloc) (HP : plenty alloc) (HW : 1 <= W) (HH : 1 <= H).
Lemma dxt_read : forall f fmt bs n, iwi_dxt f fmt bs -> (forall k, 0 <= k <= n -> moderate (side W k) (side H k) 1 /\ whole (side W k) (side H k)) ->
  level_read F alloc f 4 IL_RGBA W H (fun W H => quads W * quads H * bs) (fun p W x t c => stored_blocks F fmt bs p W 1 x t 0 c) n.
Proof using BF HF HA HP HW HH.
  intros f fmt bs n K OKS k p e blk Hk Hp HL LB. cbv beta in *. destruct (OKS k Hk) as (M & WH). unfold whole in WH. assert (SZ := moderate_sizes _ _ _ M). assert (M' := M). destruct M' as (PW & PH & _ & LIM).
  set (w := side W k) in *. set (h := side H k) in *. clearbody w h. clear OKS.
  set (pf := if f =? IWI_DXT1 then PF_DXT1 else if f =? IWI_DXT3 then PF_DXT3 else PF_DXT5).
  assert (KD : dxt_kind pf fmt bs) by (unfold dxt_kind, pf; destruct K as [(-> & -> & ->) | [(-> & -> & ->) | (-> & -> & ->)]]; cbn; tauto).
  assert (QS : quads w * quads h * 1 * bs = quads w * quads h * bs) by ring.
  destruct (dxt_decodes F BF HF any_dds pf fmt bs KD w h 1 p blk M Hp) as (d & ED & LD & G); [lia|lia|]. rewrite QS in ED.
  assert (FS : (if f =? IWI_ARGB4 then u32 (w * h * 2) else if f =? IWI_DXT1 then Z.max (u32 (w * h) / 2) 8 else Z.max (u32 (w * h)) 16) = quads w * quads h * bs).
  { assert (E : 0 <= w * h < 4294967296) by lia. rewrite (u32_small (w * h)) by lia. clear - K WH. destruct K as [(-> & -> & ->) | [(-> & -> & ->) | (-> & -> & ->)]]; cbn [Z.eqb Pos.eqb IWI_ARGB4 IWI_DXT1 IWI_DXT3 IWI_DXT5]; set (q := quads w * quads h) in *; set (z := w * h) in *; clearbody q z; lia. }
  unfold ReadLevel, plain_top. cbn [top_img Data]. replace ((f =? IWI_ARGB8) || (f =? IWI_RGB8) || (f =? IWI_A8)) with false by (destruct K as [(-> & _) | [(-> & _) | (-> & _)]]; reflexivity). cbn [top_img Width Height]. cbv zeta. rewrite FS.
  assert (Q0 : 1 <= quads w * quads h) by nia. assert (B8 : 8 <= bs <= 16) by (unfold iwi_dxt in K; lia). assert (Q1 : 0 <= quads w * quads h * bs) by nia.
  destruct (alloc (quads w * quads h * bs)) as [c0|] eqn:EA; [|exfalso; apply (HP (quads w * quads h * bs)); auto; lia]. assert (LC := HA _ _ EA). rewrite read_in by lia. cbn [bind]. rewrite Z.eqb_refl. cbn [negb].
  set (c := slice F p (quads w * quads h * bs)) in *. fold (plain_top w h 4 IL_RGBA blk). rewrite same_img in ED. exists d.
  replace (f =? IWI_ARGB4) with false by (destruct K as [(-> & _) | [(-> & _) | (-> & _)]]; reflexivity).
  assert (ED2 : (if f =? IWI_DXT1 then DecompressDXT1 (plain_top w h 4 IL_RGBA blk) c blk else if f =? IWI_DXT3 then DecompressDXT3 (plain_top w h 4 IL_RGBA blk) c blk else DecompressDXT5 (plain_top w h 4 IL_RGBA blk) c blk) = Ok d).
  { rewrite <- ED. unfold DdsDecompress, pf. cbn [plain_top top_img Data]. destruct K as [(-> & _) | [(-> & _) | (-> & _)]]; reflexivity. }
  rewrite ED2. cbn [bind]. split; [reflexivity|]. apply top_shows; auto; try lia. intros x t ch Hx Ht Hc. specialize (G x t 0 ch Hx Ht ltac:(lia) ltac:(lia)). replace ((t * w + x) * 4 + ch) with (((0 * h + t) * w + x) * (4 * 1) + ch) by ring. rewrite G. reflexivity.
Qed.
End Dxt.

(** ** The header *)
Section File.
Variable (F : list Z).
Hypothesis (BF : bytes F) (HF : 28 <= zlen F < 4294967295).
Notation R p e := (Rd F p (zlen F) e).
Definition head_of : iwi := mkIwi (word4 F 0) (geti F 4) (geti F 5) (word2 F 6) (word2 F 8).
Lemma get_head : forall u4 u2 e, zlen u4 = 4 -> (forall i, zlen (u2 i) = 2) -> iGetIwiHead u4 u2 (R 0 e) = Ok (head_of, R 28 e).
Proof using BF HF.
  intros u4 u2 e L4 L2. unfold iGetIwiHead, igetb. rewrite getu4 by (auto; lia). cbn [bind]. rewrite getc_in by lia. cbn [bind]. rewrite getc_in by lia. cbn [bind]. rewrite getu2 by (auto; lia). cbn [bind]. rewrite getu2 by (auto; lia). cbn [bind].
  unfold iSeekRLump, seek_lump. cbn [rpos Lump.rsize rlump rerr]. change (IL_SEEK_CUR =? IL_SEEK_SET) with false. change (IL_SEEK_CUR =? IL_SEEK_CUR) with true. cbv iota. change (0 + 4 + 1 + 1 + 2 + 2 + 18) with 28. rewrite (u32_small 28) by lia. replace (zlen F <? 28) with false by lia. cbn [bind].
  assert (B4 := BF (0 + 4)). assert (B5 := BF (0 + 4 + 1)). unfold u8. rewrite !Z.mod_small by (first [apply B4 | apply B5]; lia). reflexivity.
Qed.
Lemma sides_in : 0 <= word2 F 6 < 65536 /\ 0 <= word2 F 8 < 65536.
Proof using BF HF. unfold word2. assert (A := BF 6). assert (B := BF (6 + 1)). assert (C := BF 8). assert (D := BF (8 + 1)). lia. Qed.
Lemma named : forall v, slice F 0 4 = iwi_name v -> word4 F 0 = 6903625 + 16777216 * v.
Proof using BF HF.
  intros v E. assert (G : forall i, 0 <= i < 4 -> geti F i = geti (iwi_name v) i) by (intros i Hi; rewrite <- E; rewrite geti_slice by lia; f_equal; lia).
  unfold word4, word2. rewrite (G 0), (G (0 + 1)), (G (0 + 2)), (G (0 + 2 + 1)) by lia.
  change (geti (iwi_name v) 0) with 73. change (geti (iwi_name v) (0 + 1)) with 87. change (geti (iwi_name v) (0 + 2)) with 105. change (geti (iwi_name v) (0 + 2 + 1)) with v. lia.
Qed.
Lemma name_only : forall v, 0 <= v < 256 -> word4 F 0 = 6903625 + 16777216 * v -> slice F 0 4 = iwi_name v.
Proof using BF HF.
  intros v Hv E. assert (A := BF 0). assert (B := BF (0 + 1)). assert (C := BF (0 + 2)). assert (D := BF (0 + 2 + 1)). unfold word4, word2 in E.
  assert (geti F 0 = 73 /\ geti F (0 + 1) = 87 /\ geti F (0 + 2) = 105 /\ geti F (0 + 2 + 1) = v) as (E0 & E1 & E2 & E3) by lia.
  apply (nth_ext _ _ 0 0). { assert (L := zlen_slice F 0 4 ltac:(lia) ltac:(lia) ltac:(lia)). unfold zlen in L. cbn [iwi_name length]. lia. }
  intros i Hi. assert (L := zlen_slice F 0 4 ltac:(lia) ltac:(lia) ltac:(lia)). unfold zlen in L. assert (G := geti_slice F 0 4 (Z.of_nat i)). unfold geti at 1 in G. rewrite Nat2Z.id in G. rewrite G by lia.
  assert (i = 0 \/ i = 1 \/ i = 2 \/ i = 3)%nat as [-> | [-> | [-> | ->]]] by lia; cbn [iwi_name nth]; assumption.
Qed.
(** powers of two are their own next power *)
Lemma np2_exact : forall n, 1 <= n < 65536 -> exists z, ilNextPower2 31 n = Ok z /\ ((n =? z) = true <-> exists a, 0 <= a /\ n = 2 ^ a).
Proof using.
  clear. intros n Hn. destruct (C30_next_power2_partial n) as (j & Hj & E & L & M); [lia|]. exists (2 ^ j). split; [exact E|]. split.
  - intros Q. exists j. split; [exact Hj|lia].
  - intros (a & Ha & Q). specialize (M a Ha ltac:(lia)). lia.
Qed.
Definition pow2 (n : Z) : Prop := exists a, 0 <= a /\ n = 2 ^ a.
Definition formats (f : Z) : Prop := f = IWI_ARGB8 \/ f = IWI_RGB8 \/ f = IWI_ARGB4 \/ f = IWI_A8.
Lemma check_ok : forall f W H, iwi_header F f W H -> formats f \/ is_dxt f = true /\ pow2 W /\ pow2 H -> iCheckIwi head_of = Ok true.
Proof using BF HF.
  intros f W H (_ & NM & EF & EW & EH & HW & HH) FM. assert (S := sides_in). unfold iCheckIwi, head_of. cbn [ISig IFormat IWidth IHeight]. rewrite EF, EW, EH in *.
  replace (negb (word4 F 0 =? 107566921) && negb (word4 F 0 =? 90789705)) with false by (destruct NM as [E|E]; rewrite (named _ E); reflexivity).
  replace ((W =? 0) || (H =? 0)) with false by lia. destruct FM as [FM|(FD & P1 & P2)].
  - unfold formats in FM. destruct FM as [-> | [-> | [-> | ->]]]; reflexivity.
  - rewrite FD. destruct (np2_exact W) as (z & -> & Z1); [lia|]. destruct (np2_exact H) as (y & -> & Y1); [lia|]. cbn [bind]. rewrite (proj2 Z1 P1), (proj2 Y1 P2). cbn [negb orb bind]. rewrite orb_true_r. reflexivity.
Qed.
Lemma check_no : forall f W H, word2 F 6 = W -> word2 F 8 = H -> geti F 4 = f ->
  ~ (slice F 0 4 = iwi_name 5 \/ slice F 0 4 = iwi_name 6) \/ W = 0 \/ H = 0 \/ (is_dxt f = true /\ ~ (pow2 W /\ pow2 H)) \/ (~ formats f /\ is_dxt f = false) -> iCheckIwi head_of = Ok false.
Proof using BF HF.
  intros f W H EW EH EF C. assert (S := sides_in). unfold iCheckIwi, head_of. cbn [ISig IFormat IWidth IHeight]. rewrite EF, EW, EH in *.
  destruct (negb (word4 F 0 =? 107566921) && negb (word4 F 0 =? 90789705)) eqn:E1; [reflexivity|]. destruct ((W =? 0) || (H =? 0)) eqn:E2; [reflexivity|].
  destruct C as [C|[C|[C|[(C1 & C2)|(C1 & C2)]]]]; try lia.
  - exfalso. apply C. destruct (word4 F 0 =? 107566921) eqn:E3; [right|left]; apply name_only; lia.
  - rewrite C1. destruct (np2_exact W) as (z & -> & Z1); [lia|]. destruct (np2_exact H) as (y & -> & Y1); [lia|]. cbn [bind].
    destruct (negb (W =? z) || negb (H =? y)) eqn:E3; [reflexivity|]. exfalso. apply C2. split; [apply Z1|apply Y1]; lia.
  - rewrite C2. cbn [bind]. f_equal. rewrite orb_false_r. unfold formats in C1. lia.
Qed.

(** the smaller levels the loader reads *)
Definition smaller (W H : Z) : Z := if alone F then 0 else until_one W H.
Lemma smaller_nn : forall W H, 0 <= smaller W H. Proof using. clear. intros. unfold smaller, until_one. destruct (alone F); [lia|]. apply Z.log2_nonneg. Qed.
Lemma load_ok : forall alloc u4 u2 old e f N fmt W H size px, allocator_ok alloc -> plenty alloc -> zlen u4 = 4 -> (forall i, zlen (u2 i) = 2) ->
  iwi_header F f W H -> formats f \/ is_dxt f = true /\ pow2 W /\ pow2 H -> IwiGetFormat f = (fmt, N) -> 1 <= N <= 4 -> W * N * H < 4294967296 -> (forall W H, 1 <= W -> 1 <= H -> 0 <= size W H) ->
  level_read F alloc f N fmt W H size px (smaller W H) -> 28 + bytes_from size W H 0 (Z.to_nat (smaller W H + 1)) <= zlen F ->
  exists ims, iLoadIwiInternal alloc u4 u2 old (R 0 e) = Ok (true, ims, []) /\ zlen ims = smaller W H + 1 /\
    forall k, 0 <= k <= smaller W H -> exists im, nth_error ims (Z.to_nat k) = Some im /\ SmallSpec.shows im (side W k) (side H k) N fmt (px (level_at size W H (smaller W H) k) (side W k)).
Proof using BF HF.
  intros alloc u4 u2 old e f N fmt W H size px HA HP L4 L2 HD FM GF HN HS SZ LR HL. unfold iLoadIwiInternal. rewrite get_head by auto. cbn [bind]. rewrite (check_ok f W H) by auto. cbn [bind negb].
  assert (HD2 := HD). destruct HD2 as (_ & _ & EF & EW & EH & HW & HH). assert (SI := sides_in). cbn [head_of IFlags IFormat IWidth IHeight]. rewrite EF, EW, EH in *. rewrite GF. cbv zeta.
  destruct (init_level alloc N fmt W H HA HP HN ltac:(lia) ltac:(lia) HS old 0 ltac:(lia)) as (blk & EI & LB). rewrite !side_0 in EI by lia. rewrite EI. cbn [bind negb]. rewrite low_top. cbn [top_img Width Height].
  assert (AL : Z.land (geti F 5) 3 = geti F 5 mod 4) by (change 3 with (Z.ones 2); rewrite Z.land_ones by lia; reflexivity). rewrite AL. fold (alone F).
  assert (IL : exists l, (if negb (alone F) then IwiInitMipmaps 16 alloc fmt N W H else Ok (Some [], [])) = Ok (Some l, []) /\ zlen l = smaller W H /\ blank N fmt W H l 1).
  { unfold smaller. destruct (alone F); cbn [negb].
    - exists []. split; [reflexivity|]. split; [reflexivity|exact I].
    - assert (U0 : 0 <= until_one W H) by apply Z.log2_nonneg. assert (U15 : until_one W H <= 15). { unfold until_one. change 15 with (Z.log2 65535). apply Z.log2_le_mono. lia. }
      destruct (init_levels alloc N fmt W H HA HP HN ltac:(lia) ltac:(lia) HS (Z.to_nat (until_one W H)) 16 0) as (l & EL & LL & BL); [lia|lia|lia|]. rewrite !side_0 in EL by lia. exists l. split; [exact EL|]. split; [unfold zlen; lia|exact BL]. }
  destruct IL as (l & -> & LL & BL). cbn [bind]. fold (plain_top W H N fmt blk).
  assert (B2 : blank N fmt W H (plain_top W H N fmt blk :: l) 0). { cbn [blank]. split; [|exact BL]. exists blk. rewrite !side_0 by lia. split; [reflexivity|]. rewrite !side_0 in LB by lia. exact LB. }
  assert (LN : length (plain_top W H N fmt blk :: l) = Z.to_nat (smaller W H + 1)) by (cbn [length]; unfold zlen in LL; lia).
  destruct (read_levels F ltac:(lia) alloc f N fmt W H size px SZ (smaller W H) LR (plain_top W H N fmt blk :: l) 0 28 e B2) as (ims & -> & LI & G); [lia|rewrite zlen_cons; lia|lia|rewrite LN; exact HL|]. cbn [bind].
  eexists. split; [reflexivity|]. assert (NN := smaller_nn W H). split; [unfold zlen; lia|]. intros k Hk. specialize (G (Z.to_nat k) ltac:(lia)). cbv zeta in G.
  destruct (nth_error ims (Z.to_nat k)) as [im|] eqn:EN. 2:{ apply nth_error_None in EN. lia. }
  exists im. split; [reflexivity|]. rewrite (nth_error_nth _ _ _ EN) in G. replace (0 + Z.of_nat (Z.to_nat k)) with k in G by lia. unfold level_at. replace (length (plain_top W H N fmt blk :: l) - 1 - Z.to_nat k)%nat with (Z.to_nat (smaller W H - k)) in G by lia. exact G.
Qed.
End File.
