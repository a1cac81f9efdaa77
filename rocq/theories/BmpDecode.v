(** Lemmas about the bitmap model: whole images. *)
From Coq Require Import ZArith List Lia Bool.
From Verif Require Import Base Slices BitLemmas Scatter Enums Utility Image ImageSpec ImageProps Elem Flip Lump LumpSpec LumpProofs LumpProps Channels Endian EndianProps Raw RawProps Pcx PcxProofs PcxProps PcxSafe Pal Bmp BmpSpec BmpProofs BmpRows.
Import ListNotations.
Open Scope Z_scope.

Lemma read_row_ok : forall F p e off n d, 0 < n -> 0 <= p -> p + n <= zlen F -> zlen F < 4294967295 -> 0 <= off -> off + n <= zlen d ->
  exists d', read_row off n d (Rd F p (zlen F) e) = Ok (true, (d', Rd F (p + n) (zlen F) e)) /\ filled d d' off n (fun q => geti F (p + q)).
Proof.
  intros F p e off n d Hn Hp HF Hm Ho HL. unfold read_row. assert (LT : zlen (slice d off (zlen d - off)) = zlen d - off) by (apply zlen_slice; lia).
  assert (R := C21_read F (Rd F p (zlen F) e) (slice d off (zlen d - off)) 1 n). rewrite R by (try (split; [reflexivity|cbn; lia]); lia). clear R. cbn [rpos rerr]. cbv zeta. rewrite Z.mul_1_l, rest_slice.
  assert (LS : zlen (slice F p n) = n) by (apply zlen_slice; lia). rewrite LS, Z.div_1_r. cbn [bind]. rewrite Z.eqb_refl, app_nil_r. eexists. split; [reflexivity|].
  set (b := slice F p n ++ _). assert (LB : zlen b = zlen d - off). { unfold b. rewrite zlen_app, LS. unfold zlen in *. rewrite skipn_length. lia. }
  split; [apply zlen_splice; lia|]. intros q Hq. rewrite geti_splice by lia. rewrite LB. destruct ((off <=? q) && (q <? off + n)) eqn:E.
  - replace ((off <=? q) && (q <? off + (zlen d - off))) with true by lia. unfold b. rewrite geti_app by lia. rewrite LS. replace (q - off <? n) with true by lia. rewrite geti_slice by lia. reflexivity.
  - destruct ((off <=? q) && (q <? off + (zlen d - off))) eqn:E2; [|reflexivity]. unfold b. rewrite geti_app by lia. rewrite LS. replace (q - off <? n) with false by lia.
    unfold geti at 1. rewrite nth_skipn_. unfold zlen in LS. replace (length (slice F p n) + Z.to_nat (q - off - n))%nat with (Z.to_nat (q - off)) by lia. change (nth (Z.to_nat (q - off)) (slice d off (zlen d - off)) 0) with (geti (slice d off (zlen d - off)) (q - off)). rewrite geti_slice by lia. f_equal. lia.
Qed.

Lemma rows8_ok : forall k F p e L H S fuel y d, H - y = Z.of_nat k -> (k <= fuel)%nat -> 0 <= y -> 0 < L -> L mod 4 <> 0 -> S = L + (4 - L mod 4) -> H * L <= zlen d -> zlen d < 4294967296 -> 0 <= p -> p + H * S <= zlen F -> zlen F < 4294967295 ->
  exists d', rows8 fuel L (L * H) (y * L) d (Rd F (p + y * S) (zlen F) e) = Ok (true, (d', Rd F (p + H * S) (zlen F) e)) /\ zlen d' = zlen d /\
    (forall q, 0 <= q < y * L -> geti d' q = geti d q) /\ forall y' i, y <= y' < H -> 0 <= i < L -> geti d' (y' * L + i) = geti F (p + y' * S + i).
Proof.
  induction k as [|k IH]; intros F p e L H S fuel y d Hk Hf Hy HL H4 HS Hd Hdl Hp HF HFl.
  - replace y with H in * by lia. exists d. split; [|split; [reflexivity|split; [reflexivity|intros; lia]]]. destruct fuel; cbn [rows8]; replace (H * L <? L * H) with false by lia; reflexivity.
  - destruct fuel as [|fuel]; [lia|]. cbn [rows8]. assert (YL : y * L + L <= H * L) by nia. replace (y * L <? L * H) with true by lia.
    assert (Y0 : 0 <= y * L) by nia. assert (S0 : 0 <= S) by lia. destruct (row_in H y S p (zlen F)) as (P0 & P1 & P2); try lia.
    destruct (read_row_ok F (p + y * S) e (y * L) L d) as (d1 & E1 & F1); try lia. rewrite E1. cbn [bind negb]. rewrite pad_in by lia. cbn [bind]. rewrite u32_small by lia. assert (L1 := proj1 F1).
    destruct (IH F p e L H S fuel (y + 1) d1) as (d2 & E2 & L2 & K2 & G2); try lia.
    replace (y * L + L) with ((y + 1) * L) by lia. replace (p + y * S + L + (4 - L mod 4)) with (p + (y + 1) * S) by lia. exists d2. split; [exact E2|]. split; [lia|]. destruct F1 as (_ & G1). split.
    + intros q Hq. rewrite K2 by nia. rewrite G1 by lia. replace ((y * L <=? q) && (q <? y * L + L)) with false by lia. reflexivity.
    + intros y' i Hy' Hi. destruct (y' =? y) eqn:E; [|apply G2; lia]. replace y' with y by lia. rewrite K2 by nia. rewrite G1 by lia. replace ((y * L <=? y * L + i) && (y * L + i <? y * L + L)) with true by lia. f_equal. lia.
Qed.

Lemma rows32_ok : forall k m F p e N fuel t d, N - t = Z.of_nat k -> (k <= fuel)%nat -> 0 <= t -> 3 * N <= zlen d -> zlen d < 4294967296 -> 0 <= p -> p + 4 * N <= zlen F -> zlen F < 4294967295 ->
  exists d', rows32 fuel m (3 * N) (3 * t) d (Rd F (p + 4 * t) (zlen F) e) = Ok (true, (d', Rd F (p + 4 * N) (zlen F) e)) /\ zlen d' = zlen d /\
    (forall q, 0 <= q < 3 * t -> geti d' q = geti d q) /\ forall i c, t <= i < N -> 0 <= c < 3 -> geti d' (3 * i + c) = extract (word4 F (p + 4 * i)) (the_mask m c).
Proof.
  induction k as [|k IH]; intros ((mb, mg), mr) F p e N fuel t d Hk Hf Ht Hd Hdl Hp HF HFl.
  - replace t with N in * by lia. exists d. split; [|split; [reflexivity|split; [reflexivity|intros; lia]]]. destruct fuel; cbn [rows32]; replace (3 * N <? 3 * N) with false by lia; reflexivity.
  - destruct fuel as [|fuel]; [lia|]. cbn [rows32]. replace (3 * t <? 3 * N) with true by lia. rewrite item4 by lia. cbn [bind negb]. rewrite !(u32_small (3 * t + _)) by lia. set (v := word4 F (p + 4 * t)).
    destruct (write3 d (3 * t) (extract v mb) (extract v mg) (extract v mr)) as (W1 & W2 & W3 & FW); [lia|lia|]. rewrite W1. cbn [bind]. rewrite W2. cbn [bind]. rewrite W3. cbn [bind].
    assert (L1 := proj1 FW). destruct (IH (mb, mg, mr) F p e N fuel (t + 1) (upd (upd (upd d (3 * t) (extract v mb)) (3 * t + 1) (extract v mg)) (3 * t + 2) (extract v mr))) as (d2 & E2 & L2 & K2 & G2); try lia.
    replace (3 * t + 3) with (3 * (t + 1)) by lia. replace (p + 4 * t + 4) with (p + 4 * (t + 1)) by lia. exists d2. split; [exact E2|]. split; [lia|]. destruct FW as (_ & G1). split.
    + intros q Hq. rewrite K2 by lia. rewrite G1 by lia. replace ((3 * t <=? q) && (q <? 3 * t + 3)) with false by lia. reflexivity.
    + intros i c Hi Hc. destruct (i =? t) eqn:E; [|apply G2; lia]. replace i with t by lia. rewrite K2 by lia. rewrite G1 by lia. replace ((3 * t <=? 3 * t + c) && (3 * t + c <? 3 * t + 3)) with true by lia. replace (3 * t + c - 3 * t) with c by lia.
      unfold the_mask. fold v. destruct (c =? 0); [reflexivity|]. destruct (c =? 1); reflexivity.
Qed.

(** ** The header *)
Lemma get_in : forall n F p e stk, 0 < n -> 0 <= p -> p + n <= zlen F -> zlen F < 4294967295 -> zlen stk = n ->
  get n stk (Rd F p (zlen F) e) = Ok (unle (slice F p n), Rd F (p + n) (zlen F) e).
Proof.
  intros n F p e stk Hn Hp HF Hm Hs. unfold get.
  assert (R := C21_read F (Rd F p (zlen F) e) stk n 1). rewrite R by (try (split; [reflexivity|cbn; lia]); lia). clear R. cbn [rpos rerr]. cbv zeta.
  rewrite Z.mul_1_r. rewrite rest_slice. assert (LS : zlen (slice F p n) = n) by (apply zlen_slice; lia). rewrite LS, Z.div_same by lia. change (1 =? 1) with true.
  rewrite skipn_all2 by (unfold zlen in *; lia). rewrite !app_nil_r. reflexivity.
Qed.
Lemma unle_word2 : forall F p, 0 <= p -> p + 2 <= zlen F -> unle (slice F p 2) = word2 F p.
Proof. intros. rewrite slice_2 by lia. unfold word2. cbn [unle]. lia. Qed.
Lemma unle_word4 : forall F p, 0 <= p -> p + 4 <= zlen F -> unle (slice F p 4) = word4 F p.
Proof. intros. rewrite slice_4 by lia. unfold word4, word2. cbn [unle]. replace (p + 2 + 1) with (p + 3) by lia. lia. Qed.
Lemma getu2 : forall F p e stk, 0 <= p -> p + 2 <= zlen F -> zlen F < 4294967295 -> zlen stk = 2 -> GetLittleUShort stk (Rd F p (zlen F) e) = Ok (word2 F p, Rd F (p + 2) (zlen F) e).
Proof. intros. unfold GetLittleUShort. rewrite get_in by lia. rewrite unle_word2 by lia. reflexivity. Qed.
Lemma gets2 : forall F p e stk, 0 <= p -> p + 2 <= zlen F -> zlen F < 4294967295 -> zlen stk = 2 -> GetLittleShort stk (Rd F p (zlen F) e) = Ok (int2 F p, Rd F (p + 2) (zlen F) e).
Proof. intros. unfold GetLittleShort. rewrite get_in by lia. rewrite unle_word2 by lia. reflexivity. Qed.
Lemma getu4 : forall F p e stk, 0 <= p -> p + 4 <= zlen F -> zlen F < 4294967295 -> zlen stk = 4 -> GetLittleUInt stk (Rd F p (zlen F) e) = Ok (word4 F p, Rd F (p + 4) (zlen F) e).
Proof. intros. unfold GetLittleUInt. rewrite get_in by lia. rewrite unle_word4 by lia. reflexivity. Qed.
Lemma gets4 : forall F p e stk, 0 <= p -> p + 4 <= zlen F -> zlen F < 4294967295 -> zlen stk = 4 -> GetLittleInt stk (Rd F p (zlen F) e) = Ok (int4 F p, Rd F (p + 4) (zlen F) e).
Proof. intros. unfold GetLittleInt. rewrite get_in by lia. rewrite unle_word4 by lia. reflexivity. Qed.

Definition bmp_head_of (F : list Z) : bmphead :=
  mkBmp (word2 F 0) (int4 F 2) (word4 F 6) (int4 F 10) (int4 F 14) (int4 F 18) (int4 F 22) (int2 F 26) (int2 F 28) (int4 F 30) (int4 F 34) (int4 F 38) (int4 F 42) (int4 F 46) (int4 F 50).
Lemma head_in : forall us ui F e, 54 <= zlen F < 4294967295 -> (forall i, zlen (us i) = 2) -> (forall i, zlen (ui i) = 4) ->
  iGetBmpHead us ui (Rd F 0 (zlen F) e) = Ok (bmp_head_of F, Rd F 54 (zlen F) e).
Proof.
  intros us ui F e HF U2 U4. unfold iGetBmpHead. rewrite getu2 by (auto; lia). cbn [bind]. rewrite gets4 by (auto; lia). cbn [bind]. rewrite getu4 by (auto; lia). cbn [bind].
  do 4 (rewrite gets4 by (auto; lia); cbn [bind]). do 2 (rewrite gets2 by (auto; lia); cbn [bind]). do 6 (rewrite gets4 by (auto; lia); cbn [bind]). reflexivity.
Qed.
Lemma int2_range : forall F p, bytes F -> 0 <= p -> p + 2 <= zlen F -> -32768 <= int2 F p < 32768 /\ 0 <= word2 F p < 65536.
Proof. intros F p HB Hp HF. assert (A := HB p ltac:(lia)). assert (B := HB (p + 1) ltac:(lia)). unfold int2, word2. destruct (_ <? _) eqn:E; lia. Qed.
Lemma int4_range : forall F p, bytes F -> 0 <= p -> p + 4 <= zlen F -> -2147483648 <= int4 F p < 2147483648 /\ 0 <= word4 F p < 4294967296.
Proof. intros F p HB Hp HF. assert (A := proj2 (int2_range F p HB Hp ltac:(lia))). assert (B := proj2 (int2_range F (p + 2) HB ltac:(lia) ltac:(lia))). unfold int4, word4. destruct (_ <? _) eqn:E; lia. Qed.

(** ** A new image *)
Lemma init_ok : forall alloc old W H bpp fmt blk, allocator_ok alloc -> 1 <= W -> 1 <= H -> 1 <= bpp < 256 -> W * bpp * H < 4294967296 -> alloc (W * bpp * H) = Some blk ->
  ilInitImage alloc old W H 1 bpp fmt IL_UNSIGNED_BYTE None =
    Ok (true, mkImg W H 1 bpp 1 (W * bpp) (Some blk) (W * bpp * H) (W * bpp * H) fmt IL_UNSIGNED_BYTE IL_ORIGIN_LOWER_LEFT (mkPal None 0 IL_PAL_NONE) 0 0 0 0, []).
Proof.
  intros alloc old W H bpp fmt blk HA HW HH HB HS EA. unfold ilInitImage. change (ilGetBpcType IL_UNSIGNED_BYTE) with 1. change (1 =? 0) with false. cbv iota zeta.
  unfold nz1. replace (W =? 0) with false by lia. replace (H =? 0) with false by lia. change (1 =? 0) with false. cbv iota.
  rewrite !Z.mul_1_r. assert (W * bpp <= W * bpp * H) by nia. assert (0 < W * bpp) by nia. rewrite (u32_small (W * bpp)) by lia. rewrite (u32_small (W * bpp * H)) by lia. rewrite (u32_small (W * bpp * H)) by lia.
  rewrite EA. reflexivity.
Qed.

(** ** Pixels by bit count *)
Definition bmp_bpp (bits : Z) : Z := if 16 <=? bits then 3 else 1.

Lemma pixels_ok : forall h W H bpp pal fmt org d F e p, biCompression h = 0 -> case (biBitCount h) [1; 4; 8; 16; 24; 32] = true -> bpp = bmp_bpp (biBitCount h) ->
  1 <= W -> 1 <= H -> W * bpp * H < 4294967296 -> zlen d = W * bpp * H -> bytes F -> 0 <= p -> p + H * bmp_stride W (biBitCount h) <= zlen F -> 0 < zlen F < 2147483648 ->
  let im := mkImg W H 1 bpp 1 (W * bpp) (Some d) (W * bpp * H) (W * bpp * H) fmt IL_UNSIGNED_BYTE org pal 0 0 0 0 in
  exists d' r, bmp_pixels h im d (Rd F p (zlen F) e) = Ok (true, (d', r)) /\ zlen d' = zlen d /\
    forall x y k, 0 <= x < W -> 0 <= y < H -> 0 <= k < bpp -> geti d' ((y * W + x) * bpp + k) = sample (biBitCount h) F (p + y * bmp_stride W (biBitCount h)) x k.
Proof.
  intros h W H bpp pal fmt org d F e p HC HB Hbpp HW HH HS Hd HBy Hp HF HFl im. unfold bmp_pixels. cbn [Width Height Bps SizeOfPlane SizeOfData im]. unfold bmp_bpp in Hbpp. set (b := biBitCount h) in *.
  assert (BB : b = 1 \/ b = 4 \/ b = 8 \/ b = 16 \/ b = 24 \/ b = 32) by (unfold case in HB; cbn in HB; lia).
  assert (WB : 0 < W * bpp <= W * bpp * H) by (destruct (16 <=? b); nia).
  destruct BB as [Eb|[Eb|[Eb|[Eb|[Eb|Eb]]]]]; rewrite Eb in *; cbn [Z.leb Z.compare Pos.compare Pos.compare_cont] in Hbpp; cbn [Z.eqb Pos.eqb orb].
  - subst bpp. rewrite Z.mul_1_r in *. destruct (rows1_ok read_pad F p e W H d skips_read) as (d' & -> & L' & G'); try lia. do 2 eexists. split; [reflexivity|]. split; [lia|]. intros x y k Hx Hy Hk. replace k with 0 by lia. rewrite Z.mul_1_r, Z.add_0_r. apply G'; lia.
  - subst bpp. rewrite Z.mul_1_r in *. destruct (rows4_ok read_pad F p e W H d skips_read) as (d' & -> & L' & G'); try lia. do 2 eexists. split; [reflexivity|]. split; [lia|]. intros x y k Hx Hy Hk. replace k with 0 by lia. rewrite Z.mul_1_r, Z.add_0_r. apply G'; lia.
  - assert (ST : bmp_stride W 8 = W + padb W) by (unfold bmp_stride, padb; lia). rewrite ST in *. subst bpp. rewrite Z.mul_1_r in *. unfold padb in *. destruct ((4 - W mod 4) mod 4 =? 0) eqn:EP.
    + assert (PZ : (4 - W mod 4) mod 4 = 0) by lia. rewrite PZ, Z.add_0_r in *. clear EP PZ ST. destruct (read_row_ok F p e 0 (W * H) d) as (d' & -> & F'); try lia. do 2 eexists. split; [reflexivity|]. destruct F' as (L' & G'). split; [lia|]. intros x y k Hx Hy Hk. replace k with 0 by lia. rewrite Z.mul_1_r, Z.add_0_r.
      assert (0 <= y * W + x < W * H) by nia. rewrite G' by lia. replace ((0 <=? y * W + x) && (y * W + x <? 0 + W * H)) with true by lia. unfold sample. cbn [Z.eqb Pos.eqb]. f_equal. lia.
    + assert (SE : (4 - W mod 4) mod 4 = 4 - W mod 4) by lia. rewrite SE in *. destruct (rows8_ok (Z.to_nat H) F p e W H (W + (4 - W mod 4)) (lump_fuel (Rd F p (zlen F) e)) 0 d) as (d' & E' & L' & _ & G'); try lia.
      { unfold lump_fuel. cbn [rlump]. unfold zlen in HF. clear - HF Hp HW HH. match type of HF with _ + H * ?s <= _ => assert (HX : H <= H * s) by (assert (1 <= s) by lia; nia) end. lia. } rewrite !Z.mul_0_l, Z.add_0_r in E'. rewrite E'. do 2 eexists. split; [reflexivity|]. split; [lia|]. intros x y k Hx Hy Hk. replace k with 0 by lia. rewrite Z.mul_1_r, Z.add_0_r. rewrite G' by lia. reflexivity.
  - unfold bmp_masks. rewrite HC. change (0 =? 3) with false. cbv iota. cbn [bind]. subst bpp. destruct (rows16_ok masks16 F p e W H d) as (d' & -> & L' & G'); try lia. do 2 eexists. split; [reflexivity|]. split; [lia|]. intros x y k Hx Hy Hk.
    replace ((y * W + x) * 3 + k) with (y * (3 * W) + (3 * x + k)) by lia. rewrite G' by lia. replace ((3 * x + k) / 3) with x by lia. replace ((3 * x + k) mod 3) with k by lia. rewrite default16 by lia. reflexivity.
  - assert (ST : bmp_stride W 24 = W * 3 + padb (W * 3)) by (unfold bmp_stride, padb; lia). rewrite ST in *. subst bpp. unfold padb in *. destruct ((4 - (W * 3) mod 4) mod 4 =? 0) eqn:EP.
    + assert (PZ : (4 - (W * 3) mod 4) mod 4 = 0) by lia. rewrite PZ, Z.add_0_r in *. clear EP PZ ST. destruct (read_row_ok F p e 0 (W * 3 * H) d) as (d' & -> & F'); try lia. do 2 eexists. split; [reflexivity|]. destruct F' as (L' & G'). split; [lia|]. intros x y k Hx Hy Hk.
      assert (0 <= (y * W + x) * 3 + k < W * 3 * H) by nia. rewrite G' by lia. replace ((0 <=? (y * W + x) * 3 + k) && ((y * W + x) * 3 + k <? 0 + W * 3 * H)) with true by lia. unfold sample. cbn [Z.eqb Pos.eqb]. f_equal. lia.
    + assert (SE : (4 - (W * 3) mod 4) mod 4 = 4 - (W * 3) mod 4) by lia. rewrite SE in *. destruct (rows8_ok (Z.to_nat H) F p e (W * 3) H (W * 3 + (4 - (W * 3) mod 4)) (lump_fuel (Rd F p (zlen F) e)) 0 d) as (d' & E' & L' & _ & G'); try lia.
      { unfold lump_fuel. cbn [rlump]. unfold zlen in HF. clear - HF Hp HW HH. match type of HF with _ + H * ?s <= _ => assert (HX : H <= H * s) by (assert (1 <= s) by lia; nia) end. lia. } rewrite !Z.mul_0_l, Z.add_0_r in E'. rewrite E'. do 2 eexists. split; [reflexivity|]. split; [lia|]. intros x y k Hx Hy Hk. replace ((y * W + x) * 3 + k) with (y * (W * 3) + (3 * x + k)) by lia. rewrite G' by lia. unfold sample. cbn [Z.eqb Pos.eqb]. f_equal. lia.
  - unfold bmp_masks. rewrite HC. change (0 =? 3) with false. cbv iota. cbn [bind]. subst bpp. assert (ST : bmp_stride W 32 = 4 * W) by (unfold bmp_stride; lia). rewrite ST in *. assert (HF4 : p + 4 * (W * H) <= zlen F) by lia.
    destruct (rows32_ok (Z.to_nat (W * H)) masks32 F p e (W * H) (lump_fuel (Rd F p (zlen F) e)) 0 d) as (d' & E' & L' & _ & G'); try lia.
    { unfold lump_fuel. cbn [rlump]. unfold zlen in HF4. lia. }
    rewrite !Z.mul_0_r, Z.add_0_r in E'. replace (W * 3 * H) with (3 * (W * H)) by lia. rewrite E'. do 2 eexists. split; [reflexivity|]. split; [lia|]. intros x y k Hx Hy Hk. assert (0 <= y * W + x < W * H) by nia.
    replace ((y * W + x) * 3 + k) with (3 * (y * W + x) + k) by lia. rewrite G' by lia. rewrite default32 by (auto; lia). unfold sample. cbn [Z.eqb Pos.eqb]. f_equal. lia.
Qed.
