(** C58: run-length encoded Targa files. *)
From Coq Require Import ZArith List Lia Bool.
From Verif Require Import Base Slices BitLemmas Scatter Enums Utility Image ImageSpec ImageProps Elem Flip FlipProofs FlipProps Lump LumpSpec LumpProofs LumpProps CacheProps Channels ChannelsSpec ChannelsProofs ChannelsProps Endian EndianProps Raw RawProps Rle RleSpec RleProps Pcx PcxProofs PcxProps Tga TgaSpec TgaProofs TgaProps.
Import ListNotations.
Open Scope Z_scope.

Lemma zlen_rep : forall n px, zlen (rep n px) = Z.of_nat n * zlen px.
Proof. induction n as [|n IH]; intros px; [reflexivity|]. cbn [rep]. rewrite zlen_app, IH. lia. Qed.
Lemma rep_snoc : forall n px, rep n px ++ px = rep (S n) px.
Proof. induction n as [|n IH]; intros px; [cbn [rep]; rewrite app_nil_r; reflexivity|]. cbn [rep]. rewrite <- app_assoc, IH. reflexivity. Qed.

Lemma put_pixel_ok : forall n c p Size Color d, 0 <= c -> 0 <= p -> p + c + Z.of_nat n <= Size -> Size < 4294967296 -> zlen d = Size -> c + Z.of_nat n <= zlen Color ->
  put_pixel n c p Size Color d = Ok (splice d (p + c) (slice Color c (Z.of_nat n))).
Proof.
  induction n as [|n IH]; intros c p Size Color d Hc Hp HS H32 Hd HC.
  - cbn [put_pixel]. f_equal. symmetry. change (Z.of_nat 0) with 0. replace (slice Color c 0) with (@nil Z) by reflexivity. apply splice_nil. lia.
  - cbn [put_pixel]. rewrite u32_small by lia. replace (p + c <? Size) with true by lia. rewrite rd_ok by lia. cbn [bind]. rewrite wr_ok by lia. cbn [bind].
    rewrite IH by (try (unfold upd; rewrite zlen_splice by (change (zlen [_]) with 1; lia)); lia). f_equal.
    replace (p + (c + 1)) with (p + c + 1) by ring. rewrite splice_upd by (rewrite ?zlen_slice; lia). f_equal.
    apply list_ext; [rewrite zlen_cons, !zlen_slice by lia; lia|].
    intros j Hj. rewrite zlen_cons, zlen_slice in Hj by lia.
    rewrite (geti_slice Color c) by lia. rewrite geti_cons by lia. destruct (Z.eqb_spec j 0) as [->|].
    + rewrite Z.add_0_r. reflexivity.
    + rewrite geti_slice by lia. f_equal. lia.
Qed.

(** the run packet writes the pixel [n] times *)
Lemma put_run_ok : forall n bpp b Size Color px d, 1 <= bpp -> 0 <= b -> b + n * bpp <= Size -> Size < 4294967296 -> zlen d = Size -> 0 <= n -> n * bpp < 4294967296 ->
  zlen px = bpp -> slice Color 0 bpp = px -> bpp <= zlen Color ->
  stride 0 (n * bpp) bpp (fun i d => put_pixel (Z.to_nat bpp) 0 (b + i) Size Color d) d = Ok (splice d b (rep (Z.to_nat n) px)).
Proof.
  intros n bpp b Size Color px d Hb Hb0 HS H32 Hd Hn Hn32 Lp EC LC. rewrite stride_loop by lia.
  destruct (loop_rule _ (fun i s => s = splice d b (rep (Z.to_nat i) px)) 0 n (fun k => (fun i d => put_pixel (Z.to_nat bpp) 0 (b + i) Size Color d) (0 + k * bpp)) d) as (s & E & ->); auto.
  - symmetry. change (rep (Z.to_nat 0) px) with (@nil Z). apply splice_nil. assert (0 <= n * bpp) by (apply Z.mul_nonneg_nonneg; lia). lia.
  - intros i s Hi ->. cbv beta. assert (Hi1 : (i + 1) * bpp <= n * bpp) by (apply Z.mul_le_mono_nonneg_r; lia). assert (0 <= i * bpp) by (apply Z.mul_nonneg_nonneg; lia).
    assert (LR : zlen (rep (Z.to_nat i) px) = i * bpp) by (rewrite zlen_rep, Z2Nat.id, Lp by lia; reflexivity).
    eexists. split. { apply put_pixel_ok; try lia. rewrite zlen_splice by lia. exact Hd. }
    rewrite Z2Nat.id by lia. rewrite EC. rewrite Z.add_0_l, Z.add_0_r. rewrite <- LR. rewrite splice_splice_adj by lia.
    rewrite rep_snoc. f_equal. f_equal. lia.
Qed.

Lemma splice_tail : forall d b px, 0 <= b -> b + zlen px <= zlen d ->
  splice d b (px ++ skipn (Z.to_nat (zlen px)) (slice d b (zlen d - b))) = splice d b px.
Proof.
  intros d b px Hb L. assert (0 <= zlen px) by auto.
  assert (LS : zlen (slice d b (zlen d - b)) = zlen d - b) by (apply zlen_slice; lia).
  assert (LK : zlen (skipn (Z.to_nat (zlen px)) (slice d b (zlen d - b))) = zlen d - b - zlen px) by (unfold zlen in *; rewrite skipn_length; lia).
  apply list_ext; [rewrite !zlen_splice by (rewrite ?zlen_app; lia); reflexivity|]. intros j Hj. rewrite zlen_splice in Hj by (rewrite ?zlen_app; lia).
  rewrite !geti_splice by (rewrite ?zlen_app; lia). rewrite zlen_app, LK. destruct ((b <=? j) && (j <? b + zlen px)) eqn:E1.
  - replace ((b <=? j) && (j <? b + (zlen px + (zlen d - b - zlen px)))) with true by lia. rewrite geti_app by lia. replace (j - b <? zlen px) with true by lia. reflexivity.
  - destruct ((b <=? j) && (j <? b + (zlen px + (zlen d - b - zlen px)))) eqn:E2; [|reflexivity]. rewrite geti_app by lia. replace (j - b <? zlen px) with false by lia.
    unfold geti at 1. rewrite nth_skipn_. replace (Z.to_nat (zlen px) + Z.to_nat (j - b - zlen px))%nat with (Z.to_nat (j - b)) by lia. change (geti (slice d b (zlen d - b)) (j - b) = geti d j). rewrite geti_slice by lia. f_equal. lia.
Qed.

(** C58a: the decoder understands every file that follows the packet format of the specification: a stream of
    packets that stands for [data] is decoded into exactly [data], the packets are read completely and nothing
    behind them is touched.  Packets may cross the ends of lines. *)
Lemma decode_gen : forall bpp code data, tga_code bpp code data -> 1 <= bpp <= 4 -> forall F Size, Size < 4294966784 -> zlen F < 4294967295 ->
  forall fuel b p e Color d, 0 <= b -> b + zlen data = Size -> zlen d = Size -> 0 <= p -> p + zlen code <= zlen F -> slice F p (zlen code) = code ->
  zlen Color = 4 -> zlen data < Z.of_nat fuel ->
  tga_loop fuel bpp Size b Color d (Rd F p (zlen F) e) = Ok (true, splice d b data, Rd F (p + zlen code) (zlen F) e).
Proof.
  intros bpp code data C Hb F Size HSz HF. induction C as [|h px code data R L C IH|h px code data R L C IH]; intros fuel b p e Color d B0 BS Ld P0 PF SF LC FU.
  - change (zlen (@nil Z)) with 0 in *. destruct fuel as [|fuel]; [lia|]. cbn [tga_loop]. replace (b <? Size) with false by lia. rewrite splice_nil, Z.add_0_r by lia. reflexivity.
  - rewrite ?zlen_cons, ?zlen_app in *. assert (0 <= zlen code) by auto. assert (0 <= zlen data) by auto.
    assert (0 < zlen px) by (rewrite L; nia). assert (zlen px <= 512) by (rewrite L; nia).
    assert (E0 : geti F p = h). { assert (G := geti_slice F p (1 + (zlen px + zlen code)) 0). rewrite SF in G. rewrite <- (Z.add_0_r p), <- G by lia. reflexivity. }
    assert (E1 : slice F (p + 1) (zlen px) = px).
    { assert (G : slice (slice F p (1 + (zlen px + zlen code))) 1 (zlen px) = slice F (p + 1) (zlen px)) by (apply slice_slice; lia). rewrite <- G, SF.
      change (h :: px ++ code) with ([h] ++ px ++ code). rewrite slice_app_r by (change (zlen [h]) with 1; lia). change (1 - zlen [h]) with 0. rewrite slice_app_l by lia. apply slice_all. }
    assert (E2 : slice F (p + 1 + zlen px) (zlen code) = code).
    { assert (G : slice (slice F p (1 + (zlen px + zlen code))) (1 + zlen px) (zlen code) = slice F (p + (1 + zlen px)) (zlen code)) by (apply slice_slice; lia). rewrite <- Z.add_assoc, <- G, SF.
      change (h :: px ++ code) with ([h] ++ px ++ code). rewrite app_assoc. rewrite slice_app_r by (rewrite ?zlen_app; change (zlen [h]) with 1; lia). rewrite zlen_app. change (zlen [h]) with 1. rewrite Z.sub_diag. apply slice_all. }
    destruct fuel as [|fuel]; [lia|]. cbn [tga_loop]. replace (b <? Size) with true by lia. rewrite getc_in by lia. cbn [bind]. rewrite E0.
    rewrite u8_small by lia. replace (Z.land h 128 =? 0) with true. 2:{ change 128 with (2 ^ 7). rewrite land_pow2 by lia. change (2 ^ 7) with 128. lia. }
    cbn [negb]. cbv iota. rewrite <- L. rewrite (u32_small (b + zlen px)) by lia. replace (Size <? b + zlen px) with false by lia. cbv iota.
    unfold iread_at. rewrite read_into; try lia. 2:{ rewrite zlen_slice; lia. } cbn [bind]. rewrite Z.eqb_refl. cbn [negb]. cbv iota. rewrite E1.
    assert (ES : splice d b (px ++ skipn (Z.to_nat (zlen px)) (slice d b (zlen d - b))) = splice d b px) by (apply splice_tail; lia). rewrite ES. clear ES.
    rewrite Z.sub_diag. change (i32 0) with 0. unfold iSeekRLump, seek_lump. cbn [rpos Lump.rsize rlump rerr]. change (IL_SEEK_CUR =? IL_SEEK_SET) with false. change (IL_SEEK_CUR =? IL_SEEK_CUR) with true. cbv iota.
    rewrite !Z.add_0_r. rewrite (u32_small (p + 1 + zlen px)) by lia. replace (zlen F <? p + 1 + zlen px) with false by lia. cbn [bind].
    match goal with |- context [if ?c then Ok (0, ?r) else Ok (0, ?r)] => replace (if c then Ok (0, r) else Ok (0, r)) with (Ok (0, r)) by (destruct c; reflexivity) end. cbn [bind].
    rewrite IH; try lia; try assumption. 2:{ rewrite zlen_splice; lia. }
    rewrite splice_splice_adj by lia. do 3 f_equal. lia.
  - rewrite ?zlen_cons, ?zlen_app, ?zlen_rep in *. assert (0 <= zlen code) by auto. assert (0 <= zlen data) by auto. rewrite Z2Nat.id in BS, FU by lia. rewrite L in *.
    set (n := h - 127) in *. assert (Hn : 1 <= n <= 128) by lia. assert (1 <= n * bpp <= 512) by nia.
    assert (E0 : geti F p = h). { assert (G := geti_slice F p (1 + (bpp + zlen code)) 0). rewrite SF in G. rewrite <- (Z.add_0_r p), <- G by lia. reflexivity. }
    assert (E1 : slice F (p + 1) bpp = px).
    { assert (G : slice (slice F p (1 + (bpp + zlen code))) 1 bpp = slice F (p + 1) bpp) by (apply slice_slice; lia). rewrite <- G, SF.
      change (h :: px ++ code) with ([h] ++ px ++ code). rewrite slice_app_r by (change (zlen [h]) with 1; lia). change (1 - zlen [h]) with 0. rewrite slice_app_l by lia. rewrite <- L. apply slice_all. }
    assert (E2 : slice F (p + 1 + bpp) (zlen code) = code).
    { assert (G : slice (slice F p (1 + (bpp + zlen code))) (1 + bpp) (zlen code) = slice F (p + (1 + bpp)) (zlen code)) by (apply slice_slice; lia). rewrite <- Z.add_assoc, <- G, SF.
      change (h :: px ++ code) with ([h] ++ px ++ code). rewrite app_assoc. rewrite slice_app_r by (rewrite ?zlen_app; change (zlen [h]) with 1; lia). rewrite zlen_app, L. change (zlen [h]) with 1. rewrite Z.sub_diag. apply slice_all. }
    destruct fuel as [|fuel]; [lia|]. cbn [tga_loop]. replace (b <? Size) with true by lia. rewrite getc_in by lia. cbn [bind]. rewrite E0.
    rewrite u8_small by lia. assert (HL : Z.land h 127 = h - 128). { change 127 with (Z.ones 7). rewrite Z.land_ones by lia. change (2 ^ 7) with 128. lia. }
    replace (Z.land h 128 =? 0) with false.
    2:{ change 128 with (2 ^ 7). rewrite land_pow2 by lia. change (2 ^ 7) with 128. lia. }
    cbn [negb]. cbv iota. rewrite HL. rewrite read_into by lia. cbn [bind]. rewrite Z.eqb_refl. cbn [negb]. cbv iota. rewrite E1.
    replace (h - 128 + 1) with n by lia. rewrite (put_run_ok n bpp b Size (px ++ skipn (Z.to_nat bpp) Color) px) by (try (rewrite zlen_app; assert (0 <= zlen (skipn (Z.to_nat bpp) Color)) by auto); try (rewrite slice_app_l by lia; rewrite <- L; apply slice_all); lia).
    cbn [bind]. rewrite u32_small by lia.
    assert (LR : zlen (rep (Z.to_nat n) px) = n * bpp) by (rewrite zlen_rep, Z2Nat.id, L by lia; reflexivity).
    rewrite IH; try lia; try assumption. 2:{ rewrite zlen_splice; lia. } 2:{ rewrite zlen_app, L. unfold zlen in *. rewrite skipn_length. lia. }
    rewrite <- LR, splice_splice_adj by lia. do 3 f_equal. lia.
Qed.

(** C58a: the loader understands every run-length encoded file: header, ID, palette and any stream of packets
    that, by the specification of the packets, stands for [px], and anything behind it.  Packets may cross the
    ends of rows. *)
Theorem C58_decode : forall alloc old u idb up col id im buf code px tail, img_ok im buf -> tga_savable im -> zlen id <= 255 ->
  allocator_ok alloc -> (forall n, 0 <= n < 2 ^ 32 -> alloc n <> None) -> (forall i, zlen (u i) = 2) -> zlen idb = 255 -> zlen col = 4 ->
  SizeOfData im < 2 ^ 32 - 512 -> tga_code (Bpp im) code px -> zlen px = SizeOfData im -> zlen (tga_front true id im ++ code ++ tail) < 2 ^ 32 - 1 ->
  exists r, ilLoadTargaL alloc old u idb up col (tga_front true id im ++ code ++ tail) = Ok (true, tga_loaded im px, r) /\ rerr r = [].
Proof.
  intros alloc old u idb up col id im buf code px tail Hok HS Hid HA Hn Hu Hidb Hcol HSz HC Lpx LF. change (2 ^ 32) with 4294967296 in HSz, LF.
  destruct (load_gen true alloc old u idb up col id im buf code tail (fun _ px' r => px' = px /\ rerr r = [])) as (ok & px' & r & EL & -> & ER); auto; [|exists r; auto].
  intros F p im0 blk HF Hp HSl HD HL HG. injection HG as G1 G2 G3 G4 G5. unfold tga_pixels. rewrite HD. cbv zeta. rewrite G1, G2, G3, G4.
  assert (HB : Bpp im = 3 \/ Bpp im = 4 \/ Bpp im = 1) by (destruct HS; intuition auto).
  assert (ES : Width im * Height im * 1 * Bpp im = SizeOfData im).
  { destruct HS as (HDp & HBc & _). destruct Hok as (_ & _ & _ & _ & _ & _ & Hbps & Hpl & Hsz & _). rewrite Hsz, Hpl, Hbps, HBc, HDp. ring. }
  rewrite ES. assert (0 <= zlen px) by auto. rewrite u32_small by lia. assert (0 <= zlen (tga_front true id im)) by auto. assert (0 <= zlen tail) by auto.
  assert (LF' : zlen F = zlen (tga_front true id im) + zlen code + zlen tail) by (subst F; rewrite !zlen_app; lia). rewrite <- HF in LF.
  rewrite (decode_gen (Bpp im) code px HC) by (assumption || lia). cbn [bind].
  rewrite splice_full by lia. eexists _, _, _. split; [reflexivity|split; reflexivity].
Qed.
Print Assumptions C58_decode.

(** adjacent pixels of a row are different *)
Definition no_two_equal (im : img) (buf : list Z) : Prop :=
  forall x t, 0 <= x -> x + 1 < Width im -> 0 <= t < Height im -> exists k, 0 <= k < Bpp im /\ picture im buf x t 0 k <> picture im buf (x + 1) t 0 k.

(** C58b: the round trip through a compressed file, for colour images with origin lower left in which no two
    adjacent pixels of a row are equal: the picture comes back.
    Full property: for every image.  Missing: rows with equal adjacent pixels, where the encoder reads the
    pixel behind the row ([C24_overread]), images with one byte per pixel, whose buffer can be too small
    ([C58_overflow_refuted]), and the origin upper left ([C56_upside_down]). *)
Theorem C58_roundtrip_partial : forall alloc da old u idb up col id an ac date im buf,
  img_ok im buf -> bytes buf -> tga_savable im -> tga_texts id an ac date -> 3 <= Bpp im -> no_two_equal im buf ->
  SizeOfData im < 1400000000 -> Origin im = IL_ORIGIN_LOWER_LEFT ->
  allocator_ok alloc -> (forall n, 0 <= n < 2 ^ 32 -> alloc n <> None) -> (forall i, zlen (u i) = 2) -> zlen idb = 255 -> zlen col = 4 ->
  exists s f im2 buf2 r, iSaveTargaInternal alloc da true id an ac date im = Ok (Some (true, s, im)) /\ file_of s = Some f /\
    ilLoadTargaL alloc old u idb up col f = Ok (true, im2, r) /\ rerr r = [] /\ img_ok im2 buf2 /\
    (Width im2, Height im2, Depth im2, Bpp im2, Type_ im2, Pal im2) = (Width im, Height im, Depth im, Bpp im, Type_ im, Pal im) /\
    Format im2 = stored_format (Format im) /\ Origin im2 = IL_ORIGIN_LOWER_LEFT /\
    (forall x t k, in_image im x t 0 k -> picture im2 buf2 x t 0 (stored_chan (Format im) k) = picture im buf x t 0 k).
Proof.
  intros alloc da old u idb up col id an ac date im buf Hok HBy HS HT HB3 HNE Hsize HO HA Hn Hu Hidb Hcol.
  assert (Hok' := Hok). destruct Hok' as (HDt & HW1 & HH1 & HDp & Hbpp & Hbpc & Hbps & Hpl & Hsz & H32 & Hlen).
  assert (HS' := HS). destruct HS' as (HD & HBc & HTy & HW & HH & _ & HF).
  assert (SZ : SizeOfData im = Height im * (Width im * Bpp im)) by (rewrite Hsz, Hpl, Hbps, HBc, HD; ring).
  assert (HB4 : Bpp im = 3 \/ Bpp im = 4) by intuition lia.
  assert (0 <= SizeOfData im) by (rewrite <- Hlen; auto).
  destruct (file_gen true alloc da id an ac date im buf Hok HS HT HA) as (px & Lpx & GP & _ & FILE); [apply Hn; change (2 ^ 32) with 4294967296; lia|lia|].
  assert (SC : forall k, 0 <= k < Bpp im -> 0 <= stored_chan (Format im) k < Bpp im /\ stored_chan (Format im) (stored_chan (Format im) k) = k).
  { intros k Hk. unfold stored_chan. destruct HF as [([(B & [F|F])|[(B & [F|F])|(B & F)]] & _)|(B & F & _)]; try lia; rewrite F, B in *; cbn [Z.eqb Pos.eqb orb IL_RGB IL_BGR IL_RGBA IL_BGRA];
    assert (K : k = 0 \/ k = 1 \/ k = 2 \/ k = 3) by lia; destruct K as [-> | [-> | [-> | ->]]]; cbn; lia. }
  assert (PIX : forall y x k, 0 <= x < Width im -> 0 <= y < Height im -> 0 <= k < Bpp im ->
    geti px ((y * Width im + x) * Bpp im + k) = picture im buf x (Height im - 1 - y) 0 (stored_chan (Format im) k)).
  { intros y x k Hx Hy Hk. destruct (SC k Hk) as (S1 & S2). rewrite <- GP by (unfold in_image; rewrite HBc, HD; lia). rewrite S2. f_equal. ring. }
  assert (BP : bytes px).
  { intros j Hj. rewrite Lpx, SZ in Hj. destruct (decompose 1 (Height im * Width im) (Bpp im) j) as (d & q & k & Hd & Hq & Hk & ->); [lia|apply Z.mul_nonneg_nonneg; lia|lia|].
    destruct (decompose 1 (Height im) (Width im) q) as (d2 & y & x & Hd2 & Hy & Hx & ->); [lia|lia|lia|]. replace d with 0 by lia. replace d2 with 0 by lia.
    replace (0 * (Height im * Width im * Bpp im) + (0 * (Height im * Width im) + y * Width im + x) * Bpp im + k) with ((y * Width im + x) * Bpp im + k) by ring.
    rewrite PIX by lia. unfold picture. rewrite HO. change (IL_ORIGIN_LOWER_LEFT =? IL_ORIGIN_UPPER_LEFT) with false. cbv iota.
    apply HBy. rewrite Hlen, SZ. destruct (SC k Hk) as (S1 & _). unfold pix_off. rewrite HBc.
    assert (Height im - 1 - (Height im - 1 - y) = y) as -> by ring.
    match goal with |- 0 <= ?e < _ => assert (E : e = (y * Width im + x) * Bpp im + stored_chan (Format im) k) by ring end.
    rewrite E. assert (0 <= y * Width im + x) by nia. assert (y * Width im + x + 1 <= Height im * Width im) by nia. nia. }
  set (n := u32 (SizeOfData im + SizeOfData im / 2 + 1)).
  assert (En : n = SizeOfData im + SizeOfData im / 2 + 1) by (apply u32_small; lia).
  destruct (alloc n) as [rle|] eqn:EA; [|exfalso; apply (Hn n); [change (2 ^ 32) with 4294967296; lia|exact EA]]. assert (LR := HA _ _ EA).
  assert (HWB : 0 <= Width im * Bpp im) by (apply Z.mul_nonneg_nonneg; lia).
  destruct (C24_image_partial (Bpp im) da px (Width im) (Height im) 1 rle) as (size & rle' & ER & Hs & LR' & HC & _); try lia; try assumption.
  { intros y Hy i Hi1 Hi2 Eq. set (x := i - y * Width im). assert (Hx : 0 <= x /\ x + 1 < Width im) by (unfold x; lia).
    destruct (HNE x (Height im - 1 - y)) as (k & Hk & Dk); [lia|lia|lia|]. apply Dk. destruct (SC k Hk) as (S1 & S2).
    assert (P1 := PIX y x (stored_chan (Format im) k)). rewrite S2 in P1. assert (P2 := PIX y (x + 1) (stored_chan (Format im) k)). rewrite S2 in P2.
    rewrite <- P1, <- P2 by lia. unfold RleSpec.pixel in Eq.
    assert (HI : 0 <= i) by nia. assert (HIT : (i + 1 + 1) * Bpp im <= SizeOfData im) by (rewrite SZ, Z.mul_assoc; apply Z.mul_le_mono_nonneg_r; [lia|]; assert ((y + 1) * Width im <= Height im * Width im) by (apply Z.mul_le_mono_nonneg_r; lia); lia).
    assert (0 <= i * Bpp im) by (apply Z.mul_nonneg_nonneg; lia).
    assert (G1 := geti_slice px (i * Bpp im) (Bpp im) (stored_chan (Format im) k)). assert (G2 := geti_slice px ((i + 1) * Bpp im) (Bpp im) (stored_chan (Format im) k)).
    rewrite Eq in G1. rewrite G2 in G1 by lia. replace (y * Width im + x) with i by (unfold x; ring). replace (y * Width im + (x + 1)) with (i + 1) by (unfold x; ring). symmetry. apply G1; lia. }
  set (body := slice rle' 0 size). assert (LB : zlen body = size) by (apply zlen_slice; lia).
  destruct (FILE body) as (s & ES & EF); [lia|exists rle, rle'; rewrite LB; repeat split; auto; lia|].
  assert (HT' := HT). destruct HT' as (Hid & Han & Hac & Hda & HdF).
  assert (LF : zlen (tga_front true id im) <= 1000300).
  { unfold tga_front. cbv zeta. rewrite (zlen_app _ (tga_header _ _ _ _ _ _ _ _ _ _ _ _)), zlen_app. change (zlen (tga_header _ _ _ _ _ _ _ _ _ _ _ _)) with 18.
    destruct HF as [(_ & ->)|(_ & _ & p & n0 & -> & Lp & Hnn)]; cbn [Palette]; [change (zlen (@nil Z)) with 0|]; lia. }
  destruct (C58_decode alloc old u idb up col id im buf body px (tga_trailer (zlen (tga_front true id im) + zlen body) an ac date idString 180)) as (r & EL & Er); auto.
  { change (2 ^ 32) with 4294967296. lia. }
  { rewrite !zlen_app. rewrite zlen_trailer by (auto; reflexivity). change (2 ^ 32) with 4294967296. lia. }
  eexists s, _, (tga_loaded im px), px, r. split; [exact ES|]. split; [exact EF|]. split; [exact EL|]. split; [exact Er|].
  split.
  { unfold img_ok, tga_loaded. cbn [Width Height Depth Bpp Bpc Bps SizeOfPlane SizeOfData Data]. rewrite HBc, HD, Z.mul_1_r in *. repeat split; auto; try lia. }
  split; [unfold tga_loaded; cbn [Width Height Depth Bpp Type_ Pal]; rewrite ?HD, HTy; reflexivity|]. split; [reflexivity|]. split; [exact HO|].
  intros x t k Hi. rewrite <- (GP x t k Hi). unfold picture, tga_loaded, pix_off. cbn [Width Height Depth Bpp Bpc Origin]. rewrite HO. change (IL_ORIGIN_LOWER_LEFT =? IL_ORIGIN_UPPER_LEFT) with false. cbv iota.
  f_equal. ring.
Qed.
Print Assumptions C58_roundtrip_partial.

Example ex_no_two : no_two_equal (ex_tga IL_ORIGIN_LOWER_LEFT IL_RGB 3 TgaProps.ex_rgb) TgaProps.ex_rgb.
Proof.
  intros x t H1 H2 H3. cbn in H2, H3. replace x with 0 by lia. exists 0. assert (t = 0 \/ t = 1) as [-> | ->] by lia; (split; [cbn; lia|vm_compute; discriminate]).
Qed.
Definition ex_rle_trip (im : img) : res (option (bool * option (list Z) * Z)) :=
  match iSaveTargaInternal ex_alloc 0 true [65; 66] [67] [] ex_date im with
  | Ok (Some (true, s, _)) =>
      match file_of s with
      | Some f => let! (ok, im, _) := ilLoadTargaL ex_alloc ex_old ex_u (repeat 7 255) [0; 0] [0; 0; 0; 0] f in Ok (Some (ok, Data im, Format im))
      | None => Ok None
      end
  | Ok _ => Ok None
  | UB => UB
  | Fuel => Fuel
  end.
Example C58_hyp : ex_rle_trip (ex_tga IL_ORIGIN_LOWER_LEFT IL_RGB 3 TgaProps.ex_rgb) = Ok (Some (true, Some [3; 2; 1; 6; 5; 4; 9; 8; 7; 12; 11; 10], IL_BGR)).
Proof. vm_compute. reflexivity. Qed.
(** a packet across the ends of rows *)
Example C58_decode_hyp : tga_code 1 [130; 5; 0; 6] [5; 5; 5; 6] /\
  match ilLoadTargaL ex_alloc ex_old ex_u (repeat 7 255) [0; 0] [0; 0; 0; 0] (tga_front true [] (ex_tga IL_ORIGIN_UPPER_LEFT IL_LUMINANCE 1 [0; 0; 0; 0]) ++ [130; 5; 0; 6]) with
  | Ok (true, im, _) => Data im = Some [5; 5; 5; 6] | _ => False end.
Proof.
  split; [|vm_compute; reflexivity]. apply (tga_run 1 130 [5] [0; 6] [6]); [lia|reflexivity|]. apply (tga_raw 1 0 [6] [] []); [lia|reflexivity|]. constructor.
Qed.

(** C58c: saving a grey image of width 1 with compression writes past the end of the buffer (every row takes
    two bytes, the buffer has one and a half bytes per row): not every image can be saved. *)
Theorem C58_overflow_refuted : exists im buf, img_ok im buf /\ bytes buf /\ tga_savable im /\ Origin im = IL_ORIGIN_LOWER_LEFT /\ no_two_equal im buf /\
  iSaveTargaInternal ex_alloc 0 true [] [] [] ex_date im = UB.
Proof.
  exists (mkImg 1 3 1 1 1 1 (Some [1; 2; 3]) 3 3 IL_LUMINANCE IL_UNSIGNED_BYTE IL_ORIGIN_LOWER_LEFT (mkPal None 0 IL_PAL_NONE) 0 0 0 0), [1; 2; 3].
  split; [unfold img_ok; cbn; repeat split; lia|]. split; [apply bytes_Forall; repeat constructor; lia|].
  split; [unfold tga_savable; cbn; repeat split; try lia; auto 6|]. split; [reflexivity|]. split; [intros x t H1 H2; cbn in H2; lia|].
  vm_compute. reflexivity.
Qed.
Print Assumptions C58_overflow_refuted.
