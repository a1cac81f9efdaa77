(** C94: uncompressed textures. *)
From Coq Require Import ZArith List Lia Bool.
From Verif Require Import Base Slices Elem Enums Utility Image ImageSpec Flip Lump LumpSpec LumpProofs LumpProps Channels Endian EndianProps ConvImgProps RleSpec RawProps Pcx PcxProofs TgaProofs BmpSpec BmpSafe BmpDecode SgiSpec SgiProofs SgiLoad Safe Small SmallSpec.
Import ListNotations.
Open Scope Z_scope.

(** ** A finished image, top line first *)
Definition top_img (W H N fmt : Z) (d : list Z) (p : pal) : img :=
  mkImg W H 1 N 1 (W * N) (Some d) (W * N * H) (W * N * H) fmt IL_UNSIGNED_BYTE IL_ORIGIN_UPPER_LEFT p 0 0 0 0.
Lemma top_shows : forall W H N fmt d p px, 1 <= W -> 1 <= H -> 1 <= N < 256 -> W * N * H < 4294967296 -> zlen d = W * N * H ->
  (forall x t c, 0 <= x < W -> 0 <= t < H -> 0 <= c < N -> geti d ((t * W + x) * N + c) = px x t c) -> shows (top_img W H N fmt d p) W H N fmt px.
Proof.
  intros W H N fmt d p px HW HH HN HS L G. exists d. split.
  - unfold img_ok, top_img. cbn [Data Width Height Depth Bpp Bpc Bps SizeOfPlane SizeOfData]. change (2 ^ 32) with 4294967296. repeat match goal with |- _ /\ _ => split end; auto; try lia; try ring.
  - do 7 (split; [reflexivity|]). intros x t c Hx Ht Hc. rewrite <- (G x t c Hx Ht Hc). unfold picture, pix_off, top_img. cbn [Origin Height Width Bpp Bpc]. change (IL_ORIGIN_UPPER_LEFT =? IL_ORIGIN_UPPER_LEFT) with true. cbv iota. f_equal. ring.
Qed.
Definition low_img (W H N fmt : Z) (d : list Z) : img :=
  mkImg W H 1 N 1 (W * N) (Some d) (W * N * H) (W * N * H) fmt IL_UNSIGNED_BYTE IL_ORIGIN_LOWER_LEFT (mkPal None 0 IL_PAL_NONE) 0 0 0 0.
Lemma init_low : forall alloc old W H bpp fmt blk, allocator_ok alloc -> 1 <= W -> 1 <= H -> 1 <= bpp < 256 -> W * bpp * H < 4294967296 -> alloc (W * bpp * H) = Some blk ->
  ilInitImage alloc old W H 1 bpp fmt IL_UNSIGNED_BYTE None = Ok (true, low_img W H bpp fmt blk, []).
Proof. exact init_ok. Qed.
Lemma low_top : forall W H N f d, with_Origin (low_img W H N f d) IL_ORIGIN_UPPER_LEFT = top_img W H N f d (mkPal None 0 IL_PAL_NONE).
Proof. reflexivity. Qed.
Lemma low_data : forall W H N f d d', with_Data (low_img W H N f d) (Some d') = low_img W H N f d'.
Proof. reflexivity. Qed.
Lemma top_pal : forall W H N f d p p', with_Pal (top_img W H N f d p) p' = top_img W H N f d p'.
Proof. reflexivity. Qed.
Lemma top_data : forall W H N f d p d', with_Data (top_img W H N f d p) (Some d') = top_img W H N f d' p.
Proof. reflexivity. Qed.
(** the offset of a channel *)
Lemma off_in : forall W H N x t c, 0 <= x < W -> 0 <= t < H -> 0 <= c < N -> 0 <= (t * W + x) * N + c < W * N * H.
Proof.
  intros W H N x t c Hx Ht Hc. assert (0 <= t * W) by (apply Z.mul_nonneg_nonneg; lia). assert (M : (t + 1) * W <= H * W) by (apply Z.mul_le_mono_nonneg_r; lia).
  assert (0 <= (t * W + x) * N) by (apply Z.mul_nonneg_nonneg; lia). assert (M2 : (t * W + x + 1) * N <= H * W * N) by (apply Z.mul_le_mono_nonneg_r; lia). replace (W * N * H) with (H * W * N) by ring. lia.
Qed.
Lemma stored_shows : forall F o W H N fmt p, 1 <= W -> 1 <= H -> 1 <= N < 256 -> W * N * H < 4294967296 -> 0 <= o -> o + W * N * H <= zlen F ->
  shows (top_img W H N fmt (slice F o (W * N * H)) p) W H N fmt (stored F o W N).
Proof.
  intros F o W H N fmt p HW HH HN HS Ho HF. assert (0 < W * N * H) by (repeat apply Z.mul_pos_pos; lia). apply top_shows; auto. { apply zlen_slice; lia. }
  intros x t c Hx Ht Hc. assert (B := off_in W H N x t c Hx Ht Hc). rewrite geti_slice by lia. unfold stored. f_equal. lia.
Qed.
(** a read that the rest of the input cannot satisfy *)
Lemma read_short : forall F p e b n, 0 <= p <= zlen F -> 0 < zlen F < 4294967295 -> zlen F - p < n -> n <= zlen b -> n < 4294967296 ->
  exists c b' r, iReadLump b 1 n (Rd F p (zlen F) e) = Ok (c, b', r) /\ c <> n.
Proof.
  intros F p e b n Hp HF Hn Hb Hw. rewrite (C21_read F) by (try (split; [reflexivity|cbn; lia]); lia). cbn [rpos rerr]. cbv zeta. rewrite Z.mul_1_l. do 3 eexists. split; [reflexivity|].
  rewrite Z.div_1_r. rewrite rest_slice. match goal with |- zlen ?l <> n => assert (zlen l <= zlen F - p); [|lia] end.
  unfold slice, zlen. rewrite firstn_length, skipn_length. unfold zlen in *. lia.
Qed.
(** one item of [n] bytes *)
Lemma read_item1 : forall F p e b n, 0 <= p -> 0 < n -> p + n <= zlen F -> 0 < zlen F < 4294967295 -> zlen b = n ->
  iReadLump b n 1 (Rd F p (zlen F) e) = Ok (1, slice F p n, Rd F (p + n) (zlen F) e).
Proof.
  intros F p e b n Hp Hn HF Hm Hb. rewrite (C21_read F) by (try (split; [reflexivity|cbn; lia]); lia). cbn [rpos rerr]. cbv zeta. rewrite Z.mul_1_r. rewrite rest_slice.
  assert (LS : zlen (slice F p n) = n) by (apply zlen_slice; lia). rewrite LS, Z.div_same by lia. rewrite skipn_all2 by (unfold zlen in *; lia). rewrite !app_nil_r. reflexivity.
Qed.

(** C94a: an FTX file (width, height, flag, four bytes per pixel) is loaded into the picture it stores; one that
    is too short is rejected. *)
Theorem C94_ftx : forall alloc old u4 F W H, allocator_ok alloc -> 12 <= zlen F -> word4 F 0 = W -> word4 F 4 = H -> 1 <= W -> 1 <= H ->
  zlen F < 4294967295 -> W * 4 * H < 4294967296 -> (forall i, zlen (u4 i) = 4) -> alloc (W * 4 * H) <> None ->
  exists ok im, iLoadFtxInternal alloc old u4 (Rd F 0 (zlen F) []) = Ok (ok, im, []) /\ ok = (12 + W * 4 * H <=? zlen F) /\
    (ok = true -> shows im W H 4 IL_RGBA (stored F 12 W 4)).
Proof.
  intros alloc old u4 F W H HA HF E1 E2 HW HH HM HS U4 Hn. assert (0 < W * 4 * H) by (repeat apply Z.mul_pos_pos; lia). unfold iLoadFtxInternal.
  rewrite getu4 by (auto; lia). cbn [bind]. rewrite getu4 by (auto; lia). cbn [bind]. rewrite getu4 by (auto; lia). cbn [bind]. change (0 + 4) with 4. rewrite E1, E2.
  destruct (alloc (W * 4 * H)) as [blk|] eqn:EA; [|congruence]. assert (LB := HA _ _ EA). rewrite (init_ok alloc old W H 4 IL_RGBA blk) by (auto; lia). cbn [bind negb]. cbv iota zeta.
  unfold with_Origin at 1. cbn [Data]. unfold with_Origin. cbn [SizeOfData]. change (4 + 4 + 4) with 12.
  destruct (12 + W * 4 * H <=? zlen F) eqn:E.
  - rewrite read_in by (auto; lia). cbn [bind]. rewrite Z.eqb_refl. do 2 eexists. split; [reflexivity|]. split; [auto|]. intros _. apply (stored_shows F 12 W H 4 IL_RGBA); lia.
  - destruct (read_short F 12 [] blk (W * 4 * H)) as (c & b' & r & -> & Hc); try lia. cbn [bind]. do 2 eexists. split; [reflexivity|]. split; [lia|]. replace (c =? W * 4 * H) with false by lia. discriminate.
Qed.
Print Assumptions C94_ftx.

(** C94b: a PXR file (height at 416, width at 418, kind of pixels at 424, pixels from 1024) is loaded into the
    picture it stores. *)
Theorem C94_pxr_partial : forall alloc old u2 F W H k N fmt, allocator_ok alloc -> bytes F -> In (k, N, fmt) [(8, 1, IL_LUMINANCE); (14, 3, IL_RGB); (15, 4, IL_RGBA)] ->
  word2 F 416 = H -> word2 F 418 = W -> geti F 424 = k -> 1 <= W -> 1 <= H -> 1024 + W * N * H <= zlen F -> zlen F < 2147483648 -> (forall i, zlen (u2 i) = 2) -> alloc (W * N * H) <> None ->
  exists im, iLoadPxrInternal alloc old u2 (Rd F 0 (zlen F) []) = Ok (true, im, []) /\ shows im W H N fmt (stored F 1024 W N).
Proof.
  intros alloc old u2 F W H k N fmt HA B HK E1 E2 E3 HW HH HF HM U2 Hn. assert (HN : 1 <= N <= 4) by (cbn in HK; destruct HK as [HK|[HK|[HK|[]]]]; injection HK as <- <- <-; lia).
  assert (0 < W * N * H) by (repeat apply Z.mul_pos_pos; lia). unfold iLoadPxrInternal. change 416 with (i32 416). rewrite seek_set by lia. change (i32 416) with 416. cbn [bind].
  rewrite getu2 by (auto; lia). cbn [bind]. rewrite getu2 by (auto; lia). cbn [bind]. change 424 with (i32 424). rewrite seek_set by lia. cbn [bind]. rewrite getc_in by lia. cbn [bind]. change (416 + 2) with 418. rewrite E1, E2, E3.
  assert (EK : (if u8 k =? 8 then Some (1, IL_LUMINANCE) else if u8 k =? 14 then Some (3, IL_RGB) else if u8 k =? 15 then Some (4, IL_RGBA) else None) = Some (N, fmt)).
  { cbn in HK. destruct HK as [HK|[HK|[HK|[]]]]; injection HK as <- <- <-; reflexivity. }
  rewrite EK. destruct (alloc (W * N * H)) as [blk|] eqn:EA; [|congruence]. assert (LB := HA _ _ EA). rewrite (init_ok alloc old W H N fmt blk) by (auto; lia). cbn [bind].
  change 1024 with (i32 1024) at 1. rewrite seek_set by lia. cbn [bind Data SizeOfData]. rewrite read_in by (auto; lia). cbn [bind]. eexists. split; [reflexivity|].
  apply (stored_shows F 1024 W H N fmt); lia.
Qed.
Print Assumptions C94_pxr_partial.

(** C94c: a LIF file (44 bytes of header, the pixels, 1024 bytes of palette): every pixel is one more than the
    stored byte, modulo 256. *)
Theorem C94_lif : forall alloc old id u4 F W H, allocator_ok alloc -> bytes F -> word4 F 16 = W -> word4 F 20 = H -> 1 <= W -> 1 <= H ->
  44 <= zlen F < 4294967295 -> W * H < 4294967296 -> zlen id = 8 -> (forall i, zlen (u4 i) = 4) -> alloc (W * 1 * H) <> None -> alloc 1024 <> None ->
  exists ok im, iLoadLifInternal alloc old id u4 (Rd F 0 (zlen F) []) = Ok (ok, im, []) /\ ok = (44 + W * H + 1024 <=? zlen F) /\
    (ok = true -> shows im W H 1 IL_COLOUR_INDEX (fun x t c => (stored F 44 W 1 x t c + 1) mod 256) /\ Pal im = mkPal (Some (slice F (44 + W * H) 1024)) 1024 IL_PAL_RGBA32).
Proof.
  intros alloc old id u4 F W H HA B E1 E2 HW HH HM HS LI U4 Hn Hn2. assert (P0 : 0 < W * H) by (apply Z.mul_pos_pos; lia). unfold iLoadLifInternal, iGetLifHead.
  rewrite read_in by (auto; lia). cbn [bind]. do 9 (rewrite getu4 by (auto; lia); cbn [bind]). cbn [LWidth LHeight]. change (0 + 8 + 4 + 4) with 16. change (16 + 4) with 20. rewrite E1, E2. change (20 + 4 + 4 + 4 + 4 + 4 + 4) with 44.
  destruct (alloc (W * 1 * H)) as [blk|] eqn:EA; [|congruence]. assert (LB := HA _ _ EA). rewrite (init_low alloc old W H 1 IL_COLOUR_INDEX blk) by (auto; rewrite ?Z.mul_1_r; lia). cbn [bind negb]. cbv iota zeta.
  destruct (alloc 1024) as [pb|] eqn:EP; [|congruence]. assert (LP := HA _ _ EP). rewrite low_top, top_pal. change (Data (top_img W H 1 IL_COLOUR_INDEX blk (mkPal (Some pb) 1024 IL_PAL_RGBA32))) with (Some blk). cbv iota. rewrite (u32_small (W * H)) by lia.
  rewrite Z.mul_1_r in LB.
  destruct (44 + W * H <=? zlen F) eqn:EH.
  - rewrite read_item1 by (auto; lia). cbn [bind]. change (1 =? 1) with true. cbn [negb]. cbv iota. destruct (44 + W * H + 1024 <=? zlen F) eqn:E.
    + rewrite read_in by (auto; lia). cbn [bind]. change (1024 =? 1024) with true. cbn [negb]. cbv iota. set (PS := slice F (44 + W * H) 1024). clearbody PS. rewrite top_data, top_pal.
      match goal with |- context [SizeOfData (top_img W H 1 ?f ?d ?q)] => change (SizeOfData (top_img W H 1 f d q)) with (W * 1 * H) end. rewrite (Z.mul_1_r W).
      set (S := slice F 44 (W * H)). assert (LS : zlen S = W * H) by (apply zlen_slice; lia).
      destruct (loop_rule _ (fun i d => zlen d = W * H /\ forall j, 0 <= j < W * H -> geti d j = if j <? i then (geti S j + 1) mod 256 else geti S j) 0 (W * H) (fun i d => let! v := rd d i in wr d i (u8 (v + 1))) S) as (d & E' & Ld & G).
      * lia.
      * split; auto. intros j Hj. replace (j <? 0) with false by lia. reflexivity.
      * intros i d Hi (Ld & G). rewrite rd_ok by lia. cbn [bind]. rewrite wr_ok by lia. eexists. split; [reflexivity|]. split; [rewrite zlen_upd; auto; lia|]. intros j Hj. rewrite geti_upd by lia. destruct (j =? i) eqn:EJ.
        -- replace (j <? i + 1) with true by lia. rewrite G by lia. replace (i <? i) with false by lia. replace j with i by lia. reflexivity.
        -- rewrite G by lia. destruct (j <? i) eqn:E3; [replace (j <? i + 1) with true by lia|replace (j <? i + 1) with false by lia]; reflexivity.
      * rewrite E'. cbn [bind]. rewrite top_data. do 2 eexists. split; [reflexivity|]. split; [auto|]. intros _. split; [|reflexivity].
        apply top_shows; auto; try lia.
        intros x t c Hx Ht Hc. assert (OI := off_in W H 1 x t c Hx Ht Hc). rewrite Z.mul_1_r in OI. rewrite G by lia. replace (_ <? _) with true by lia. unfold S, stored. rewrite geti_slice by lia. do 3 f_equal. lia.
    + destruct (read_short F (44 + W * H) [] pb 1024) as (c & b' & r & -> & Hc); try lia. cbn [bind]. replace (c =? 1024) with false by lia. cbn [negb]. cbv iota. do 2 eexists. split; [reflexivity|]. split; [auto|discriminate].
  - rewrite (C21_read F) by (try (split; [reflexivity|cbn; lia]); lia). cbn [bind rpos rerr]. cbv zeta.
    match goal with |- context [negb (?a =? 1)] => assert (Q : a <> 1) end.
    { rewrite rest_slice. match goal with |- zlen ?l / _ <> 1 => assert (zlen l < W * H) end. { unfold slice, zlen. rewrite firstn_length, skipn_length. unfold zlen in *. lia. } rewrite Z.div_small; [lia|]. split; [auto|lia]. }
    replace (_ =? 1) with false by lia. cbn [negb]. cbv iota. do 2 eexists. split; [reflexivity|]. split; [lia|discriminate].
Qed.
Print Assumptions C94_lif.
