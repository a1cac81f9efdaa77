(** C98: maps of bits. *)
From Coq Require Import ZArith List Lia Bool.
From Verif Require Import Base Slices Elem BitLemmas Enums Utility Image ImageSpec Flip Lump LumpSpec LumpProofs LumpProps CacheProps Channels Endian EndianProps ConvImgProps RleSpec RawProps Pcx PcxProofs TgaProofs BmpSpec BmpSafe BmpDecode SgiSpec SgiProofs SgiLoad Safe Small SmallSpec SmallTex SmallTexProps SmallSunProps Pal PalSpec PalJasc Pnm PnmSpec PnmProofs PnmLoad.
Import ListNotations.
Open Scope Z_scope.

Lemma mask_val : forall c k, 0 <= c -> 0 <= k -> (if Z.land c (2 ^ k) =? 0 then 0 else 255) = 255 * (c / 2 ^ k mod 2).
Proof.
  intros c k Hc Hk. rewrite land_pow2 by lia. assert (0 < 2 ^ k) by (apply Z.pow_pos_nonneg; lia). assert (0 <= c / 2 ^ k mod 2 < 2) by (apply Z.mod_pos_bound; lia).
  assert (E : c / 2 ^ k mod 2 = 0 \/ c / 2 ^ k mod 2 = 1) by lia. destruct E as [-> | ->]; [reflexivity|]. rewrite Z.mul_1_l. replace (2 ^ k =? 0) with false by lia. reflexivity.
Qed.
Lemma bit_masks_ok : forall n W c x j d, 0 <= c -> 0 <= x <= W -> 0 <= j -> j + Z.min (Z.of_nat n) (W - x) <= zlen d ->
  exists d', bit_masks n (2 ^ (Z.of_nat n - 1)) W c x j d = Ok (x + Z.min (Z.of_nat n) (W - x), j + Z.min (Z.of_nat n) (W - x), d') /\ zlen d' = zlen d /\
    forall i, 0 <= i < zlen d -> geti d' i = if (j <=? i) && (i <? j + Z.min (Z.of_nat n) (W - x)) then 255 * (c / 2 ^ (Z.of_nat n - 1 - (i - j)) mod 2) else geti d i.
Proof.
  induction n as [|n IH]; intros W c x j d Hc Hx Hj Hd; cbn [bit_masks].
  - exists d. replace (Z.min (Z.of_nat 0) (W - x)) with 0 by lia. rewrite !Z.add_0_r. split; [reflexivity|]. split; [auto|]. intros i Hi. replace ((j <=? i) && (i <? j)) with false by lia. reflexivity.
  - destruct (x <? W) eqn:E.
    + rewrite mask_val by lia. rewrite wr_ok by lia. cbn [bind].
      assert (EM : n = O \/ 2 ^ (Z.of_nat (S n) - 1) / 2 = 2 ^ (Z.of_nat n - 1)). { destruct n as [|n]; [auto|]. right. replace (Z.of_nat (S (S n)) - 1) with (Z.of_nat (S n) - 1 + 1) by lia. rewrite Z.pow_add_r by lia. rewrite Z.div_mul by lia. reflexivity. }
      destruct (IH W c (x + 1) (j + 1) (upd d j (255 * (c / 2 ^ (Z.of_nat (S n) - 1) mod 2)))) as (d' & E' & L' & G'); try lia. { rewrite zlen_upd by lia. lia. }
      exists d'. rewrite zlen_upd in * by lia. split.
      { destruct EM as [-> | EM]; [|rewrite EM, E'; do 2 f_equal; f_equal; lia]. cbn [bit_masks] in E' |- *. change (Z.of_nat 0) with 0 in E'. injection E'. intros. subst d'. do 2 f_equal. f_equal; lia. }
      split; [auto|]. intros i Hi. rewrite G' by lia. destruct (Z.eq_dec i j) as [->|NE].
      * replace ((j + 1 <=? j) && (j <? j + 1 + Z.min (Z.of_nat n) (W - (x + 1)))) with false by lia. rewrite geti_upd by lia. rewrite Z.eqb_refl. replace ((j <=? j) && (j <? j + Z.min (Z.of_nat (S n)) (W - x))) with true by lia. do 4 f_equal. lia.
      * rewrite geti_upd by lia. replace (i =? j) with false by lia. replace ((j + 1 <=? i) && (i <? j + 1 + Z.min (Z.of_nat n) (W - (x + 1)))) with ((j <=? i) && (i <? j + Z.min (Z.of_nat (S n)) (W - x))) by lia.
        destruct ((j <=? i) && (i <? j + Z.min (Z.of_nat (S n)) (W - x))); [|reflexivity]. do 4 f_equal. lia.
    + exists d. replace (Z.min (Z.of_nat (S n)) (W - x)) with 0 by lia. rewrite !Z.add_0_r. split; [reflexivity|]. split; [auto|]. intros i Hi. replace ((j <=? i) && (i <? j)) with false by lia. reflexivity.
Qed.

Definition rowb (W : Z) : Z := (W + 7) / 8.
Lemma rowb_pos : forall W, 1 <= W -> 1 <= rowb W /\ 8 * (rowb W - 1) < W <= 8 * rowb W.
Proof. intros W H. unfold rowb. lia. Qed.

Section Input.
Variables (F : list Z) (s W H : Z).
Hypothesis HF : zlen F < 2147483648.
Hypothesis BF : bytes F.
Hypothesis Hs : 0 <= s.
Hypothesis HW : 1 <= W.
Hypothesis HH : 1 <= H.
Hypothesis HL : s + H * rowb W <= zlen F.
Definition cell (i : Z) : Z := 255 * (geti F (s + i / W * rowb W + i mod W / 8) / 2 ^ (7 - i mod W mod 8) mod 2).

Lemma bit_bytes_ok : forall fuel t b d e, 0 <= t -> (t < H /\ 0 <= b < rowb W) \/ (t = H /\ b = 0) -> zlen d = W * H -> H * rowb W - (t * rowb W + b) <= Z.of_nat fuel ->
  exists d' r', bit_bytes fuel W (W * H) (8 * b) (t * W + 8 * b) d (Rd F (s + t * rowb W + b) (zlen F) e) = Ok (d', r') /\ zlen d' = W * H /\
    forall i, 0 <= i < W * H -> geti d' i = if i <? t * W + 8 * b then geti d i else cell i.
Proof.
  destruct (rowb_pos W HW) as (RB1 & RB2).
  induction fuel as [|fuel IH]; intros t b d e Ht HB Ld Hf.
  - assert (t = H /\ b = 0). { destruct HB as [(T & B)|]; [|auto]. exfalso. assert ((t + 1) * rowb W <= H * rowb W) by (apply Z.mul_le_mono_nonneg_r; lia). lia. } destruct H0 as (-> & ->).
    cbn [bit_bytes]. replace (H * W + 8 * 0 <? W * H) with false by lia. exists d. eexists. split; [reflexivity|]. split; [auto|]. intros i Hi. replace (i <? H * W + 8 * 0) with true by lia. reflexivity.
  - destruct HB as [(T & B)|(-> & ->)].
    2:{ cbn [bit_bytes]. replace (H * W + 8 * 0 <? W * H) with false by lia. exists d. eexists. split; [reflexivity|]. split; [auto|]. intros i Hi. replace (i <? H * W + 8 * 0) with true by lia. reflexivity. }
    assert (M1 : (t + 1) * rowb W <= H * rowb W) by (apply Z.mul_le_mono_nonneg_r; lia). assert (M2 : (t + 1) * W <= H * W) by (apply Z.mul_le_mono_nonneg_r; lia). assert (M3 : 0 <= t * W) by (apply Z.mul_nonneg_nonneg; lia). assert (M4 : 0 <= t * rowb W) by (apply Z.mul_nonneg_nonneg; lia).
    cbn [bit_bytes]. replace (t * W + 8 * b <? W * H) with true by lia. rewrite getc_in by lia. cbn [bind]. set (c := geti F (s + t * rowb W + b)). assert (Bc : 0 <= c < 256) by (apply BF; lia). rewrite u32_small by lia.
    destruct (bit_masks_ok 8 W c (8 * b) (t * W + 8 * b) d) as (d1 & E1 & L1 & G1); try lia. change (2 ^ (Z.of_nat 8 - 1)) with 128 in E1. rewrite E1. cbn [bind]. change (Z.of_nat 8) with 8 in *.
    assert (CE : forall i, t * W + 8 * b <= i < t * W + 8 * b + Z.min 8 (W - 8 * b) -> 255 * (c / 2 ^ (8 - 1 - (i - (t * W + 8 * b))) mod 2) = cell i).
    { intros i Hi. unfold cell. assert (Q : i / W = t) by (symmetry; apply Z.div_unique with (i - t * W); lia). assert (Q2 : i mod W = i - t * W) by (rewrite Z.mod_eq, Q by lia; lia). rewrite Q, Q2.
      assert (Q3 : (i - t * W) / 8 = b) by (symmetry; apply Z.div_unique with (i - t * W - 8 * b); lia). assert (Q4 : (i - t * W) mod 8 = i - t * W - 8 * b) by (rewrite Z.mod_eq, Q3 by lia; lia). rewrite Q3, Q4. unfold c. do 4 f_equal. lia. }
    destruct (Z_lt_ge_dec (8 * b + 8) W) as [LT|GE].
    + replace (Z.min 8 (W - 8 * b)) with 8 in * by lia. replace (8 * b + 8 =? W) with false by lia.
      destruct (IH t (b + 1) d1 e) as (d' & r' & E' & L' & G'); try lia. exists d', r'. replace (8 * (b + 1)) with (8 * b + 8) in * by lia. replace (s + t * rowb W + (b + 1)) with (s + t * rowb W + b + 1) in E' by lia. replace (t * W + 8 * b + 8) with (t * W + (8 * b + 8)) by lia. split; [exact E'|]. split; [auto|].
      intros i Hi. rewrite G' by auto. destruct (i <? t * W + (8 * b + 8)) eqn:E8.
      * rewrite G1 by lia. destruct (i <? t * W + 8 * b) eqn:E9; [replace (t * W + 8 * b <=? i) with false by lia; reflexivity|]. replace ((t * W + 8 * b <=? i) && (i <? t * W + 8 * b + 8)) with true by lia. apply CE. lia.
      * replace (i <? t * W + 8 * b) with false by lia. reflexivity.
    + assert (BE : b = rowb W - 1) by lia. replace (Z.min 8 (W - 8 * b)) with (W - 8 * b) in * by lia. replace (8 * b + (W - 8 * b) =? W) with true by lia.
      destruct (IH (t + 1) 0 d1 e) as (d' & r' & E' & L' & G'); try lia. exists d', r'. rewrite Z.mul_0_r, !Z.add_0_r in *. replace (s + t * rowb W + b + 1) with (s + (t + 1) * rowb W) by lia. replace (t * W + 8 * b + (W - 8 * b)) with ((t + 1) * W) by lia. split; [exact E'|]. split; [auto|].
      intros i Hi. rewrite G' by auto. destruct (i <? (t + 1) * W) eqn:E8.
      * rewrite G1 by lia. destruct (i <? t * W + 8 * b) eqn:E9; [replace (t * W + 8 * b <=? i) with false by lia; reflexivity|]. replace ((t * W + 8 * b <=? i) && (i <? t * W + 8 * b + (W - 8 * b))) with true by lia. apply CE. lia.
      * replace (i <? t * W + 8 * b) with false by lia. reflexivity.
Qed.
End Input.

Lemma pixels_bits : forall fuel alloc old W H M sb lb r, pnm_pixels fuel alloc old 52 W H M sb lb r =
  let! (ok, im, e) := ilReadBitPbm fuel alloc old W H r in
  if negb ok then Ok (false, set_Format im (ilGetFormatBpp (Bpp im)), e ++ [IL_FILE_READ_ERROR]) else
  Ok (true, set_Format (with_Origin (if 255 <? M then set_Type im IL_UNSIGNED_SHORT else im) IL_ORIGIN_UPPER_LEFT) IL_LUMINANCE, []).
Proof. intros. unfold pnm_pixels. cbn [Z.eqb Pos.eqb orb]. destruct (ilReadBitPbm fuel alloc old W H r) as [[[ok im] e]| |]; cbn [bind]; auto; destruct ok; reflexivity. Qed.

(** C98d: a binary map of bits is loaded, with 255 for the bits that are set and 0 for the others, if the first
    byte of the pixels is not 32 ([C98_bits_space_refuted]).  (In the format a set bit is black.) *)
Theorem C98_bits_partial : forall fuel alloc old sb lb F W H h data, allocator_ok alloc -> bytes F -> zlen F < 2147483648 -> (length F < fuel)%nat -> zlen sb = 180 ->
  pbm_head 52 W H h -> F = h ++ data -> geti data 0 <> 32 -> 1 <= W < 2147483648 -> 1 <= H < 2147483648 -> H * ((W + 7) / 8) <= zlen data -> W * H < 4294967296 -> alloc (W * H) <> None ->
  exists im, iLoadPnmInternal fuel alloc old sb lb (Rd F 0 (zlen F) []) = Ok (true, im, []) /\ shows im W H 1 IL_LUMINANCE (fun x t _ => 255 * pbm_bit data W x t).
Proof.
  intros fuel alloc old sb lb F W H h data HA BF HF Hf Hsb (h0 & c & EH & HS & HC) EF H32 HW HH HL HS2 Hn. fold (rowb W) in HL. destruct (rowb_pos W) as (RB1 & RB2); [lia|]. assert (0 < H * rowb W) by (apply Z.mul_pos_pos; lia).
  assert (BG : blank [c] /\ gap [c]). { destruct HC as [-> | ->]; (split; [repeat constructor|]); eexists; exists 0%nat; (split; [|cbn [repeat]; rewrite app_nil_r; reflexivity]); auto. } destruct BG as (BG & GG).
  assert (EF' : F = h0 ++ [c] ++ data) by (rewrite EF, EH, <- app_assoc; reflexivity). destruct data as [|d0 data]; [cbn in HL; lia|]. set (dt := d0 :: data) in *.
  destruct (start_ok F HF BF 52 W H h0 [c] dt fuel sb HS) with (alloc := alloc) (old := old) (lb := lb) (e := @nil Z) as (sb' & p' & g' & LB & _ & T & G & E); auto; try lia; try discriminate.
  rewrite (G GG) in T. cbn [app] in T. rewrite E. replace (W =? 0) with false by lia. replace (H =? 0) with false by lia. cbn [Z.eqb Pos.eqb orb]. rewrite pixels_bits. unfold ilReadBitPbm.
  assert (LT := tail_len _ _ _ T). destruct (alloc (W * H)) as [blk|] eqn:EA; [|congruence]. assert (LBk := HA _ _ EA). rewrite (init_low alloc old W H 1 0 blk) by (rewrite ?Z.mul_1_r; auto; lia). cbn [bind negb]. cbv iota. unfold low_img at 1 2. cbn [Data SizeOfData]. rewrite Z.mul_1_r.
  assert (P0 : 0 <= p' <= zlen F) by (destruct T; auto).
  destruct (bit_bytes_ok F p' W H HF BF) with (fuel := fuel) (t := 0) (b := 0) (d := blk) (e := @nil Z) as (d' & r' & E' & L' & G'); try lia. { assert (zlen F = Z.of_nat (length F)) by reflexivity. lia. }
  change (8 * 0) with 0 in *. change (0 * W) with 0 in *. change (0 * rowb W) with 0 in *. rewrite !Z.add_0_r in E'. rewrite E'. cbn [bind negb]. change (255 <? 1) with false. cbv iota. eexists. split; [reflexivity|].
  apply (top_shows W H 1 IL_LUMINANCE d' (mkPal None 0 IL_PAL_NONE)); try lia. try (rewrite ?L', Z.mul_1_r; lia).
  intros x t k Hx Ht Hk. assert (k = 0) by lia. subst k. rewrite Z.mul_1_r, Z.add_0_r. assert (B := off_in W H 1 x t 0 Hx Ht ltac:(lia)). rewrite G' by lia. replace (t * W + x <? 0 + 0) with false by lia. unfold cell, pbm_bit.
  assert (Q : (t * W + x) / W = t) by (symmetry; apply Z.div_unique with x; lia). assert (Q2 : (t * W + x) mod W = x) by (rewrite Z.mod_eq, Q by lia; lia). rewrite Q, Q2. fold (rowb W).
  do 3 f_equal. assert (0 <= t * rowb W) by (apply Z.mul_nonneg_nonneg; lia). assert (0 <= x / 8) by (apply Z.div_pos; lia). destruct T as (_ & <-). unfold geti. rewrite nth_skipn_. f_equal. lia.
Qed.
Print Assumptions C98_bits_partial.
