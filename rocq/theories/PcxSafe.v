(** C31: loading any PCX file: memory safety and termination. *)
From Coq Require Import ZArith List Lia Bool.
From Verif Require Import Base Slices BitLemmas Scatter Enums Utility Image ImageSpec ImageProps Flip FlipProofs FlipProps Lump LumpSpec LumpProofs LumpProps Channels Endian EndianProps Raw RawProps Pcx PcxSpec PcxProofs PcxProps Elem.
Import ListNotations.
Open Scope Z_scope.


(** ** C31: loading any file *)

Lemma read1 : forall F r, 0 < zlen F < 4294967295 -> bytes F -> on F r ->
  exists n b r', iReadLump [0] 1 1 r = Ok (n, b, r') /\ on F r' /\ 0 <= geti b 0 < 256 /\ (n = 0 \/ (n = 1 /\ rpos r' = rpos r + 1)).
Proof.
  intros F r Hm HB Hr. rewrite (C21_read F) by (auto; cbn; lia). cbv zeta. change (1 * 1) with 1. assert (H := Hr). destruct H as (HL & HS & HP).
  destruct (Z.eq_dec (rpos r) (zlen F)) as [E|E].
  - assert (R : rest F (rpos r) 1 = []). { unfold rest. rewrite skipn_all2 by (unfold zlen in *; lia). apply firstn_nil. }
    rewrite R. do 3 eexists. split; [reflexivity|]. cbn [zlen length]. split; [|split; [cbn; lia|left; reflexivity]].
    split; [reflexivity|]. split; [reflexivity|]. cbn. lia.
  - assert (R : rest F (rpos r) 1 = [geti F (rpos r)]).
    { rewrite rest_slice. change 1 with (1 + 0). rewrite slice_cons by lia. now rewrite slice_0. }
    rewrite R. do 3 eexists. split; [reflexivity|]. split; [|split; [apply HB; lia|right; split; reflexivity]].
    split; [reflexivity|]. split; [reflexivity|]. cbn. lia.
Qed.

Lemma put_run_safe : forall x cnt col s, 0 <= x -> x + cnt <= zlen s -> exists s', put_run x cnt col s = Ok s' /\ zlen s' = zlen s.
Proof.
  intros x cnt col s Hx Hc. unfold put_run. destruct (Z.le_gt_cases cnt 0).
  - unfold loop. replace (Z.to_nat (cnt - 0)) with 0%nat by lia. cbn. eauto.
  - apply (loop_rule _ (fun _ s' => zlen s' = zlen s)); auto; try lia. intros i s' Hi L. rewrite wr_ok by lia. eexists. split; [reflexivity|]. rewrite zlen_upd; lia.
Qed.

Lemma pcx_line_safe : forall F, 0 < zlen F < 4294967295 -> bytes F -> forall fuel size x scan r, on F r -> zlen F - rpos r < Z.of_nat fuel -> 0 <= x <= size -> zlen scan = size ->
  exists ok scan' r', pcx_line fuel size x scan r = Ok (ok, scan', r') /\ on F r' /\ zlen scan' = size.
Proof.
  intros F Hm HB. induction fuel as [|fuel IH]; intros size x scan r Hr Hf Hx Hs.
  - destruct Hr as (_ & _ & Hr). lia.
  - cbn [pcx_line]. destruct (x <? size) eqn:EX; [|eauto 8].
    destruct (read1 F r Hm HB Hr) as (n & b & r1 & -> & R1 & BB & N1). cbn [bind]. destruct N1 as [ -> | (-> & P1) ]; [cbn; eauto 8|].
    change (negb (1 =? 1)) with false. cbv iota zeta. destruct (Z.land (geti b 0) 192 =? 192).
    + destruct (read1 F r1 Hm HB R1) as (n & b2 & r2 & -> & R2 & BB2 & N2). cbn [bind]. destruct N2 as [ -> | (-> & P2) ]; [cbn; eauto 8|].
      change (negb (1 =? 1)) with false. cbv iota. assert (0 <= Z.land (geti b 0) 63) by (apply Z.land_nonneg; lia).
      destruct (size <? x + Z.land (geti b 0) 63) eqn:EC; [eauto 8|].
      destruct (put_run_safe x (Z.land (geti b 0) 63) (geti b2 0) scan) as (s' & -> & L); try lia. cbn [bind]. apply IH; auto; lia.
    + rewrite wr_ok by lia. cbn [bind]. apply IH; auto; try lia. rewrite zlen_upd; lia.
Qed.

Lemma pcx_row_safe : forall F W bpp bps hbps, 0 < zlen F < 4294967295 -> bytes F -> 0 <= W <= hbps -> 1 <= bpp -> bps = W * bpp -> bpp * hbps < 4294967296 ->
  forall y ok d scan r, 0 <= y -> y * bps + bps <= zlen d -> zlen d < 4294967296 -> zlen scan = bpp * hbps -> on F r ->
  exists ok' d' scan' r', pcx_row W bpp bps hbps (bpp * hbps) y (ok, d, scan, r) = Ok (ok', d', scan', r') /\ zlen d' = zlen d /\ zlen scan' = bpp * hbps /\ on F r'.
Proof.
  intros F W bpp bps hbps Hm HB HW Hb Hbps H32 y ok d scan r Hy Hd Hd32 Hs Hr. unfold pcx_row. destruct ok; cbn [negb]; [|eauto 10].
  assert (0 <= bpp * hbps) by (apply Z.mul_nonneg_nonneg; lia).
  destruct (pcx_line_safe F Hm HB (S (length (rlump r))) (bpp * hbps) 0 scan r) as (ok & s1 & r1 & -> & R1 & L1); auto; try lia.
  { destruct Hr as (-> & _ & HP). unfold zlen. lia. }
  cbn [bind]. destruct ok; cbn [negb]; [|eauto 10].
  destruct (deinterleave_ok W bpp bps hbps y s1 d) as (d' & -> & SL & _); auto. cbn [bind]. do 4 eexists. split; [reflexivity|]. auto.
Qed.

(** the invariant of the loops over the lines *)
Lemma pcx_rows_safe : forall F W H bpp bps hbps, 0 < zlen F < 4294967295 -> bytes F -> 0 <= W <= hbps -> 0 <= H -> 1 <= bpp -> bps = W * bpp -> bpp * hbps < 4294967296 ->
  forall d scan r, H * bps <= zlen d -> zlen d < 4294967296 -> zlen scan = bpp * hbps -> on F r ->
  exists ok' d' scan' r', loop 0 H (pcx_row W bpp bps hbps (bpp * hbps)) (true, d, scan, r) = Ok (ok', d', scan', r') /\ zlen d' = zlen d /\ on F r'.
Proof.
  intros F W H bpp bps hbps Hm HB HW HH Hb Hbps H32 d scan r Hd Hd32 Hs Hr.
  assert (B0 : 0 <= bps) by (subst; apply Z.mul_nonneg_nonneg; lia).
  destruct (loop_rule _ (fun _ st => let '(_, d', scan', r') := st in zlen d' = zlen d /\ zlen scan' = bpp * hbps /\ on F r') 0 H (pcx_row W bpp bps hbps (bpp * hbps)) (true, d, scan, r)) as ((((ok' & d') & s') & r') & E & I); auto.
  - intros y (((ok & d1) & s1) & r1) Hy (L1 & L2 & R1).
    destruct (pcx_row_safe F W bpp bps hbps Hm HB HW Hb Hbps H32 y ok d1 s1 r1) as (ok2 & d2 & s2 & r2 & -> & L3 & L4 & R2); auto; try lia.
    + assert (y * bps + bps = (y + 1) * bps) as -> by ring. assert ((y + 1) * bps <= H * bps) by (apply Z.mul_le_mono_nonneg_r; lia). lia.
    + eexists. split; [reflexivity|]. cbn beta iota. split; [lia|auto].
  - cbn beta iota in I. destruct I as (A & B & C). eauto 10.
Qed.

Lemma palette_safe : forall F v im r, 0 < zlen F < 4294967295 -> bytes F -> on F r -> (Bpp im = 1 -> exists p, Palette (Pal im) = Some p /\ zlen p = 768 /\ PalSize (Pal im) = 768) ->
  exists ok im' r', pcx_palette v im r = Ok (ok, im', r').
Proof.
  intros F v im r Hm HB Hr HP. unfold pcx_palette. destruct (v =? 5); cbn [andb]; [|eauto 6]. destruct (Bpp im =? 1) eqn:E1; [|eauto 6].
  destruct (HP ltac:(lia)) as (p & -> & LP & SP). rewrite SP.
  destruct (read1 F r Hm HB Hr) as (n & b & r1 & -> & R1 & BB & N1). cbn [bind]. destruct N1 as [ -> | (-> & P1) ]; [cbn; eauto 8|]. change (1 =? 0) with false. cbv iota.
  assert (H := Hr). destruct H as (_ & _ & PR).
  assert (exists c r2, (if negb (geti b 0 =? 12) then iSeekRLump (-1) IL_SEEK_CUR r1 else Ok (0, r1)) = Ok (c, r2) /\ on F r2) as (c & r2 & -> & R2).
  { destruct (negb (geti b 0 =? 12)); [|eauto]. unfold iSeekRLump, seek_lump. change (IL_SEEK_CUR =? IL_SEEK_SET) with false. change (IL_SEEK_CUR =? IL_SEEK_CUR) with true. cbv iota.
    destruct R1 as (L1 & S1 & Q1). rewrite S1, L1. replace (rpos r1 + -1) with (rpos r) by lia. rewrite u32_small by lia. replace (zlen F <? rpos r) with false by lia. cbn [bind].
    do 2 eexists. split; [reflexivity|]. split; [reflexivity|]. split; [reflexivity|]. cbn. lia. }
  cbn [bind]. destruct (RawProps.read_on F p 1 768 r2) as (n2 & b2 & r3 & -> & _); auto; try lia. cbn [bind]. destruct (negb _); eauto 6.
Qed.

Lemma put_bits_safe : forall n k v i lim base one d, 0 <= i <= lim -> 0 <= base -> base + lim <= zlen d -> zlen d < 4294967296 ->
  exists i' d', put_bits n k v i lim base one d = Ok (i', d') /\ 0 <= i' <= lim /\ zlen d' = zlen d.
Proof.
  induction n; intros k v i lim base one d Hi Hb Hd H32; cbn [put_bits]; [eauto 6|]. destruct (i <? lim) eqn:E; [|eauto 6].
  rewrite u32_small by lia. rewrite wr_ok by lia. cbn [bind].
  destruct (IHn (Z.shiftr k 1) v (i + 1) lim base one (upd d (base + i) (if Z.land v k =? 0 then 0 else one))) as (i' & d' & E' & A & B); try rewrite zlen_upd; try lia.
  rewrite zlen_upd in B by lia. eauto 6.
Qed.
Lemma put_bytes_safe : forall cnt v i lim base one d, 0 <= i <= lim -> 0 <= base -> base + lim <= zlen d -> zlen d < 4294967296 ->
  exists i' d', put_bytes cnt v i lim base one d = Ok (i', d') /\ 0 <= i' <= lim /\ zlen d' = zlen d.
Proof.
  induction cnt; intros v i lim base one d Hi Hb Hd H32; cbn [put_bytes]; [eauto 6|].
  destruct (put_bits_safe 8 128 v i lim base one d) as (i1 & d1 & -> & A & B); auto. cbn [bind].
  destruct (IHcnt v i1 lim base one d1) as (i2 & d2 & -> & A2 & B2); try lia. do 2 eexists. split; [reflexivity|]. lia.
Qed.
Lemma small_line_safe : forall F isrun len, 0 < zlen F < 4294967295 -> bytes F -> forall fuel i lim base one d r, on F r -> zlen F - rpos r < Z.of_nat fuel ->
  0 <= i <= lim -> 0 <= base -> base + lim <= zlen d -> zlen d < 4294967296 ->
  exists ok d' r', small_line isrun len fuel i lim base one d r = Ok (ok, d', r') /\ on F r' /\ zlen d' = zlen d.
Proof.
  intros F isrun len Hm HB. induction fuel as [|fuel IH]; intros i lim base one d r Hr Hf Hi Hb Hd H32.
  - destruct Hr as (_ & _ & Hr). lia.
  - cbn [small_line]. destruct (i <? lim) eqn:EX; [|eauto 8].
    destruct (read1 F r Hm HB Hr) as (n & b & r1 & -> & R1 & BB & N1). cbn [bind]. destruct N1 as [ -> | (-> & P1) ]; [cbn; eauto 8|].
    change (negb (1 =? 1)) with false. cbv iota zeta. destruct (isrun (geti b 0)).
    + destruct (read1 F r1 Hm HB R1) as (n & b2 & r2 & -> & R2 & BB2 & N2). cbn [bind]. destruct N2 as [ -> | (-> & P2) ]; [cbn; eauto 8|].
      change (negb (1 =? 1)) with false. cbv iota.
      destruct (put_bytes_safe (Z.to_nat (len (geti b 0))) (geti b2 0) i lim base one d) as (i1 & d1 & -> & A & B); auto. cbn [bind].
      destruct (IH i1 lim base one d1 r2) as (ok & d2 & r3 & -> & R3 & B3); auto; try lia. do 3 eexists. split; [reflexivity|]. split; [auto|lia].
    + destruct (put_bits_safe 8 128 (geti b 0) i lim base one d) as (i1 & d1 & -> & A & B); auto. cbn [bind].
      destruct (IH i1 lim base one d1 r1) as (ok & d2 & r3 & -> & R3 & B3); auto; try lia. do 3 eexists. split; [reflexivity|]. split; [auto|lia].
Qed.

Lemma row1_safe : forall F W H d r, 0 < zlen F < 4294967295 -> bytes F -> 0 <= W -> 0 <= H -> H * W <= zlen d -> zlen d < 4294967296 -> on F r ->
  exists ok' d' r', loop 0 H (row1 W) (true, d, r) = Ok (ok', d', r').
Proof.
  intros F W H d r Hm HB HW HH Hd H32 Hr.
  destruct (loop_rule _ (fun _ st => let '(_, d', r') := st in zlen d' = zlen d /\ on F r') 0 H (row1 W) (true, d, r)) as (((ok' & d') & r') & E & I); auto; [|eauto].
  intros y ((ok & d1) & r1) Hy (L1 & R1). unfold row1. destruct ok; cbn [negb]; [|eexists; split; [reflexivity|cbn beta iota; auto]].
  assert (0 <= y * W) by (apply Z.mul_nonneg_nonneg; lia). assert (y * W + W <= H * W) by (assert (y * W + W = (y + 1) * W) as -> by ring; apply Z.mul_le_mono_nonneg_r; lia).
  rewrite u32_small by lia.
  destruct (small_line_safe F (fun h => 192 <=? h) (fun h => h - 192) Hm HB (S (length (rlump r1))) 0 W (y * W) 255 d1 r1) as (ok & d2 & r2 & -> & R2 & L2); auto; try lia.
  { destruct R1 as (-> & _ & HP). unfold zlen. lia. }
  cbn [bind]. destruct ok; cbn [negb]; [|eexists; split; [reflexivity|split; [lia|auto]]].
  destruct (Z.land (Z.shiftr W 3) 1 =? 0).
  - destruct (getc_on F r2 Hm R2) as (c & r3 & -> & R3 & _). cbn [bind]. eexists. split; [reflexivity|]. split; [lia|auto].
  - eexists. split; [reflexivity|]. split; [lia|auto].
Qed.

Lemma row4_safe : forall F W H hbps d scan r, 0 < zlen F < 4294967295 -> bytes F -> 0 <= W <= 8 * hbps -> hbps < 65536 -> 0 <= H -> H * W <= zlen d -> zlen d < 4294967296 -> zlen scan = hbps * 4 * 8 -> on F r ->
  exists ok' d' s' r', loop 0 H (row4 W 4 hbps (hbps * 4 * 8)) (true, d, scan, r) = Ok (ok', d', s', r').
Proof.
  intros F W H hbps d scan r Hm HB HW Hh HH Hd H32 Hs Hr.
  destruct (loop_rule _ (fun _ st => let '(_, d', s', r') := st in zlen d' = zlen d /\ zlen s' = zlen scan /\ on F r') 0 H (row4 W 4 hbps (hbps * 4 * 8)) (true, d, scan, r)) as ((((ok' & d') & s') & r') & E & I); auto; [|eauto].
  intros y (((ok & d1) & s1) & r1) Hy (L1 & L1' & R1). unfold row4. destruct ok; cbn [negb]; [|eexists; split; [reflexivity|cbn beta iota; auto]].
  assert (0 <= y * W) by (apply Z.mul_nonneg_nonneg; lia). assert (y * W + W <= H * W) by (assert (y * W + W = (y + 1) * W) as -> by ring; apply Z.mul_le_mono_nonneg_r; lia).
  destruct (small_line_safe F (fun h => Z.land h 192 =? 192) (fun h => Z.land h 63) Hm HB (S (length (rlump r1))) 0 (hbps * 4 * 8) 0 1 s1 r1) as (ok & s2 & r2 & -> & R2 & L2); auto; try lia.
  { destruct R1 as (-> & _ & HP). unfold zlen. lia. }
  cbn [bind]. destruct ok; cbn [negb]; [|eexists; split; [reflexivity|split; [lia|split; [lia|auto]]]].
  unfold merge4. destruct (loop_rule _ (fun _ d' => zlen d' = zlen d) 0 W (fun x d => loop 0 4 (fun c d =>
    let! o := rd d (u32 (y * W + x)) in let! v := rd s2 (u32 (x + c * hbps * 8)) in wr d (u32 (y * W + x)) (u8 (Z.lor o (Z.shiftl v c)))) d) d1) as (d3 & -> & L3); try lia.
  - intros x d2 Hx Ld. apply (loop_rule _ (fun _ d' => zlen d' = zlen d)); auto; try lia. intros c d4 Hc Lc.
    rewrite (u32_small (y * W + x)) by lia. assert (0 <= c * hbps <= 3 * hbps) by (split; [apply Z.mul_nonneg_nonneg; lia|apply Z.mul_le_mono_nonneg_r; lia]).
    rewrite u32_small by lia. rewrite rd_ok by lia. cbn [bind]. rewrite rd_ok by lia. cbn [bind]. rewrite wr_ok by lia. eexists. split; [reflexivity|]. rewrite zlen_upd; lia.
  - cbn [bind]. eexists. split; [reflexivity|]. split; [lia|split; [lia|auto]].
Qed.

(** the numbers in the header of the file *)
Definition le16 (F : list Z) (p : Z) : Z := geti F p + 256 * geti F (p + 1).

(** C31: the loader never leaves its buffers and always terminates, on any file of at least 128 bytes
    whose extents are ordered, whose size in bytes is below 2^32, and whose lines, for 16-colour images,
    are as long as the image is wide.  Without these hypotheses it is false: see below. *)
Theorem C31_safe_partial : forall alloc old u cm fl F, allocator_ok alloc -> bytes F -> 128 <= zlen F < 2 ^ 32 - 1 ->
  (forall i, zlen (u i) = 2) -> zlen cm = 48 -> zlen fl = 54 ->
  le16 F 4 <= le16 F 8 -> le16 F 6 <= le16 F 10 ->
  (8 <= geti F 3 -> (le16 F 8 - le16 F 4 + 1) * (le16 F 10 - le16 F 6 + 1) * geti F 65 < 2 ^ 32) ->
  (geti F 3 < 8 -> (le16 F 8 - le16 F 4 + 1) * (le16 F 10 - le16 F 6 + 1) < 2 ^ 32) ->
  (geti F 3 = 1 -> geti F 65 = 4 -> le16 F 8 - le16 F 4 + 1 <= 8 * le16 F 66) ->
  exists ok im r, ilLoadPcxL alloc old u cm fl F = Ok (ok, im, r).
Proof.
  intros alloc old u cm fl F HA HB HF Hu Hc Hl HX HY HS8 HS1 H4. change (2 ^ 32) with 4294967296 in *.
  unfold ilLoadPcxL. rewrite head_ok by (auto; lia). cbn [bind].
  assert (HBy : forall p, 0 <= p < 128 -> 0 <= geti F p < 256) by (intros; apply HB; lia).
  assert (HW16 : forall p, 0 <= p < 127 -> 0 <= le16 F p < 65536) by (intros p Hp; unfold le16; assert (A := HBy p ltac:(lia)); assert (B := HBy (p + 1) ltac:(lia)); lia).
  assert (R0 : on F (Rd F 128 (zlen F) [])) by (split; [reflexivity|split; [reflexivity|cbn; lia]]).
  set (r0 := Rd F 128 (zlen F) []) in *. clearbody r0.
  assert (E3 : HBpp (head_of F) = geti F 3) by (apply u8_small; apply HBy; lia).
  assert (EX : Xmax (head_of F) - Xmin (head_of F) + 1 = le16 F 8 - le16 F 4 + 1) by reflexivity.
  assert (EY : Ymax (head_of F) - Ymin (head_of F) + 1 = le16 F 10 - le16 F 6 + 1) by reflexivity.
  assert (ENP : NumPlanes (head_of F) = geti F 65) by (apply u8_small; apply HBy; lia).
  assert (EBp : HBps (head_of F) = le16 F 66) by reflexivity.
  assert (ECM : zlen (ColMap (head_of F)) = 48) by (apply zlen_slice; lia).
  remember (le16 F 8 - le16 F 4 + 1) as W eqn:DW. remember (le16 F 10 - le16 F 6 + 1) as H eqn:DH.
  assert (HWr : 1 <= W <= 65536) by (assert (A := HW16 4 ltac:(lia)); assert (B := HW16 8 ltac:(lia)); lia).
  assert (HHr : 1 <= H <= 65536) by (assert (A := HW16 6 ltac:(lia)); assert (B := HW16 10 ltac:(lia)); lia).
  assert (HNP := HBy 65 ltac:(lia)). assert (HBP := HW16 66 ltac:(lia)). assert (HB3 := HBy 3 ltac:(lia)).
  assert (HCK : iCheckPcx (head_of F) = true -> 8 <= geti F 3 -> W <= le16 F 66).
  { unfold iCheckPcx. rewrite EX, E3, EBp. intros CK H8. revert CK. destruct (_ || _); [discriminate|]. destruct (_ && _); [discriminate|].
    replace (8 <=? geti F 3) with true by lia. rewrite (u32_small W) by lia. rewrite u32_small by lia. destruct (Z.odd W); intros; lia. }
  destruct (iCheckPcx (head_of F)); cbn [negb]; [|eauto]. specialize (HCK eq_refl).
  set (h := head_of F) in *. clearbody h. unfold iUncompressPcx. rewrite E3.
  assert (Fm : 0 < zlen F < 4294967295) by lia.
  destruct (geti F 3 <? 8) eqn:E8.
  - (* less than 8 bits per channel *)
    specialize (HS1 ltac:(lia)). unfold iUncompressSmall. rewrite EX, EY, ENP, E3, EBp, !u32_small by lia.
    assert (WH : 1 <= W * H) by (assert (0 < W * H) by (apply Z.mul_pos_pos; lia); lia).
    unfold ilInitImage. change (ilGetBpcType IL_UNSIGNED_BYTE) with 1. change (1 =? 0) with false. cbv iota zeta.
    assert (NZ : nz1 W = W /\ nz1 H = H) by (unfold nz1; split; [destruct (W =? 0) eqn:Q|destruct (H =? 0) eqn:Q]; lia). destruct NZ as (-> & ->). change (nz1 1) with 1.
    rewrite !Z.mul_1_r, (u32_small W), !(u32_small (W * H)) by lia.
    destruct (alloc (W * H)) as [blk|] eqn:EA; [|cbn; eauto]. assert (LB : zlen blk = W * H) by (apply (HA _ _ EA)). cbn [bind negb].
    destruct ((geti F 65 =? 1) || (geti F 65 =? 4)) eqn:EN; cbn [negb]; [|eauto].
    unfold with_Origin, with_Format. cbn [Data Width Height Bpp Bps SizeOfData].
    destruct ((geti F 65 =? 1) && (geti F 3 =? 1)).
    + destruct (row1_safe F W H blk r0) as (ok & d & r1 & ->); auto; try lia. cbn [bind]. eauto.
    + destruct ((geti F 65 =? 4) && (geti F 3 =? 1)) eqn:E41; [|eauto]. apply andb_prop in E41. destruct E41 as (E4 & E1).
      assert (E65 : geti F 65 = 4) by lia. rewrite E65. specialize (H4 ltac:(lia) E65).
      destruct (alloc 48) as [p|] eqn:EP; [|eauto]. destruct (alloc (le16 F 66 * 4 * 8)) as [scan|] eqn:ES; [|eauto].
      assert (LP : zlen p = 48) by (apply (HA _ _ EP)). assert (LS : zlen scan = le16 F 66 * 4 * 8) by (apply (HA _ _ ES)).
      rewrite memcpy_ok by lia. cbn [bind]. unfold with_Pal. cbn [Data Width Height Bpp Bps SizeOfData]. destruct (memset_spec blk 0 0 (W * H)) as (d1 & -> & L1 & _); try lia. cbn [bind].
      destruct (row4_safe F W H (le16 F 66) d1 scan r0) as (ok & d & s' & r1 & ->); auto; try lia. cbn [bind]. eauto.
  - (* 8 bits per channel *)
    specialize (HS8 ltac:(lia)). specialize (HCK ltac:(lia)). rewrite EX, EY, ENP, EBp, !u32_small by lia.
    unfold ilInitImage. change (ilGetBpcType IL_UNSIGNED_BYTE) with 1. change (1 =? 0) with false. cbv iota zeta.
    assert (NZ : nz1 W = W /\ nz1 H = H) by (unfold nz1; split; [destruct (W =? 0) eqn:Q|destruct (H =? 0) eqn:Q]; lia). destruct NZ as (-> & ->). change (nz1 1) with 1.
    assert (WB : 0 <= W * geti F 65 <= 65536 * 255) by (split; [apply Z.mul_nonneg_nonneg; lia|apply Z.mul_le_mono_nonneg; lia]).
    assert (SZ : W * geti F 65 * H = W * H * geti F 65) by ring.
    assert (S0 : 0 <= W * geti F 65 * H) by (apply Z.mul_nonneg_nonneg; lia).
    rewrite !Z.mul_1_r, (u32_small (W * geti F 65)), !(u32_small (W * geti F 65 * H)) by lia.
    destruct (alloc (W * geti F 65 * H)) as [blk|] eqn:EA; [|cbn; eauto]. assert (LB : zlen blk = W * geti F 65 * H) by (apply (HA _ _ EA)). cbn [bind negb].
    remember (geti F 65) as bpp eqn:DB.
    assert (GO : forall im p, Bpp im = bpp -> Height im = H -> Width im = W -> Bps im = W * bpp -> Data im = Some blk -> 1 <= bpp ->
      (bpp = 1 -> Pal im = mkPal (Some p) 768 IL_PAL_RGB24 /\ zlen p = 768) ->
      exists ok im' r, match alloc (Bpp im * le16 F 66), Data im with
        | None, _ => Ok (false, im, r0)
        | _, None => UB
        | Some scan, Some d =>
            let! (ok, d, _, r) := loop 0 (Height im) (pcx_row (Width im) (Bpp im) (Bps im) (le16 F 66) (Bpp im * le16 F 66)) (true, d, scan, r0) in
            let im := with_Data im (Some d) in
            if negb ok then Ok (false, im, r) else pcx_palette (Version h) im r
        end = Ok (ok, im', r)).
    { intros im p Q1 Q2 Q3 Q4 Q5 Hb1 HP. rewrite Q1, Q2, Q3, Q4, Q5. destruct (alloc (bpp * le16 F 66)) as [scan|] eqn:ES; [|eauto]. assert (LS : zlen scan = bpp * le16 F 66) by (apply (HA _ _ ES)).
      destruct (pcx_rows_safe F W H bpp (W * bpp) (le16 F 66)) with (d := blk) (scan := scan) (r := r0) as (ok & d & s' & r1 & -> & L1 & R1); auto; try lia.
      { assert (bpp * le16 F 66 <= 255 * 65535) by (apply Z.mul_le_mono_nonneg; lia). lia. }
      cbn [bind]. destruct ok; cbn [negb]; [|eauto]. apply (palette_safe F); auto. unfold with_Data. cbn [Bpp Pal]. intros E1'.
      destruct (HP ltac:(congruence)) as (-> & LP). exists p. auto. }
    match goal with |- context [Bpp (with_Origin ?i ?o)] => change (Bpp (with_Origin i o)) with bpp end.
    destruct (bpp =? 1) eqn:B1.
    + destruct (alloc 768) as [p|] eqn:EP; [|eauto]. assert (LP : zlen p = 768) by (apply (HA _ _ EP)).
      apply (fun im => GO im p); try reflexivity; auto. lia.
    + destruct (bpp =? 3) eqn:B3; [|destruct (bpp =? 4) eqn:B4; [|eauto]]; apply (fun im => GO im []); try reflexivity; lia.
Qed.

(** ** The hypotheses are needed *)

(** a header: version, bits, extents, planes, bytes per line *)
Definition mk_hdr (v bits x0 y0 x1 y1 planes bps : Z) : list Z :=
  [10; v; 1; bits] ++ little2 x0 ++ little2 y0 ++ little2 x1 ++ little2 y1 ++ repeat 0 4 ++ repeat 0 48 ++ [0; planes] ++ little2 bps ++ repeat 0 60.

(** a well-formed 16-colour file meets the hypotheses of [C31_safe_partial] *)
Definition ex_16 : list Z := mk_hdr 5 1 0 0 8 0 4 2 ++ [200; 85].
Example C31_safe_case : bytes ex_16 /\ 128 <= zlen ex_16 /\ le16 ex_16 4 <= le16 ex_16 8 /\ le16 ex_16 6 <= le16 ex_16 10 /\ geti ex_16 3 = 1 /\ geti ex_16 65 = 4 /\
  le16 ex_16 8 - le16 ex_16 4 + 1 <= 8 * le16 ex_16 66 /\
  match ilLoadPcxL ex_alloc ex_old ex_u ex_cm ex_fl ex_16 with Ok (ok, im, _) => ok = true /\ Data im = Some [0; 15; 0; 15; 0; 15; 0; 15; 0] | _ => False end.
Proof. split; [bytes_tac|]. vm_compute. repeat split; discriminate. Qed.

(** C31b: the right margin one less than the left one: the line buffer is empty and is read. *)
Theorem C31_reversed_refuted : ilLoadPcxL ex_alloc ex_old ex_u ex_cm ex_fl (mk_hdr 5 8 1 0 0 0 3 0) = UB.
Proof. vm_compute. reflexivity. Qed.

(** C31c: 16 colours, lines of one byte per plane but nine pixels: reads past the line buffer. *)
Theorem C31_short_lines_refuted : ilLoadPcxL ex_alloc ex_old ex_u ex_cm ex_fl (mk_hdr 5 1 0 0 8 0 4 1 ++ [196; 255]) = UB.
Proof. vm_compute. reflexivity. Qed.

(** C31d: a truncated header: what is loaded depends on uninitialised memory. *)
Theorem C31_truncated_refuted : exists u1 u2 im1 im2 r1 r2, (forall i, zlen (u1 i) = 2) /\ (forall i, zlen (u2 i) = 2) /\
  ilLoadPcxL ex_alloc ex_old u1 ex_cm ex_fl [10; 5; 1; 8] = Ok (false, im1, r1) /\ ilLoadPcxL ex_alloc ex_old u2 ex_cm ex_fl [10; 5; 1; 8] = Ok (false, im2, r2) /\
  Width im1 = 2 /\ Width im2 = 4.
Proof.
  exists (fun i => if i =? 2 then [1; 0] else if i =? 6 then [2; 0] else [0; 0]), (fun i => if i =? 2 then [3; 0] else if i =? 6 then [4; 0] else [0; 0]).
  do 4 eexists. split; [intros i; destruct (i =? 2), (i =? 6); reflexivity|]. split; [intros i; destruct (i =? 2), (i =? 6); reflexivity|].
  split; [vm_compute; reflexivity|]. split; [vm_compute; reflexivity|]. split; reflexivity.
Qed.

(** C31e: in a file of version 0 the palette is never set: it is whatever the allocator returned. *)
Theorem C31_palette_refuted : forall v, 0 <= v < 256 -> exists alloc im r, allocator_ok alloc /\
  ilLoadPcxL alloc ex_old ex_u ex_cm ex_fl (mk_hdr 0 8 0 0 1 0 1 2 ++ [1; 2]) = Ok (true, im, r) /\ Palette (Pal im) = Some (repeat v 768).
Proof.
  intros v Hv. exists (fun n => if n <? 0 then None else Some (repeat v (Z.to_nat n))). do 2 eexists. split.
  - intros n b H. revert H. destruct (n <? 0) eqn:E; [discriminate|]. intros X. injection X as <-. rewrite zlen_repeat. lia.
  - split; [vm_compute; reflexivity|]. reflexivity.
Qed.

(** C31f: 65534 x 16385 RGBA pixels are 2^32 + 131064 bytes, so 131064 bytes are allocated; the first
    line of 262136 bytes, which is 8322 bytes in the file, is written behind them. *)
Definition big_line : list Z := concat (repeat [255; 0] (Z.to_nat 4160)) ++ [248; 0].
Lemma runs_coded : forall k, pcx_coded (concat (repeat [255; 0] k)) (repeat 0 (63 * k)).
Proof.
  induction k; cbn [repeat concat]; [constructor|]. replace (63 * S k)%nat with (63 + 63 * k)%nat by lia. rewrite repeat_app. cbn [app].
  apply (pc_run 63 0 _ _ ltac:(lia) ltac:(lia) IHk).
Qed.
Lemma big_coded : pcx_coded big_line (repeat 0 (Z.to_nat 262136)).
Proof.
  unfold big_line. replace (Z.to_nat 262136) with (63 * Z.to_nat 4160 + Z.to_nat 56)%nat by lia. rewrite repeat_app. apply pcx_coded_app; [apply runs_coded|].
  replace (repeat 0 (Z.to_nat 56)) with (repeat 0 (Z.to_nat 56) ++ []) by apply app_nil_r. apply (pc_run 56 0 [] []); [lia|lia|constructor].
Qed.
Definition big_file : list Z := mk_hdr 5 8 0 0 65533 16384 4 65534 ++ big_line.
Lemma zlen_concat_rep : forall (l : list Z) k, zlen (concat (repeat l k)) = Z.of_nat k * zlen l.
Proof. induction k; cbn [repeat concat]; [reflexivity|]. rewrite zlen_app, IHk. lia. Qed.
Lemma zlen_big : zlen big_file = 8450.
Proof. unfold big_file, big_line. rewrite !zlen_app, zlen_concat_rep. rewrite Z2Nat.id by lia. reflexivity. Qed.

Lemma big_deinterleave : forall scan blk, zlen scan = 262136 -> zlen blk = 131064 -> pcx_deinterleave 65534 4 262136 65534 0 scan blk = UB.
Proof.
  intros scan blk LS LB. unfold pcx_deinterleave. rewrite (loop_split _ 0 32766 65534) by lia.
  destruct (deinterleave_ok 32766 4 (32766 * 4) 65534 0 scan blk) as (d & E & SL & _); try lia.
  unfold pcx_deinterleave in E. rewrite !Z.mul_0_l in *. rewrite E. cbn [bind].
  rewrite loop_first by lia. rewrite loop_first by lia. rewrite rd_ok by (rewrite u32_small; lia). cbn [bind].
  rewrite wr_ub; [reflexivity|]. rewrite u32_small by lia. lia.
Qed.
Lemma big_row : forall scan blk e, zlen scan = 262136 -> zlen blk = 131064 ->
  pcx_row 65534 4 262136 65534 262136 0 (true, blk, scan, Rd big_file 128 (zlen big_file) e) = UB.
Proof.
  intros scan blk e LS LB. unfold pcx_row. cbn [negb rlump].
  assert (C := big_coded). assert (LF := zlen_big). assert (HF : big_file = mk_hdr 5 8 0 0 65533 16384 4 65534 ++ big_line ++ []) by (rewrite app_nil_r; reflexivity).
  remember (repeat 0 (Z.to_nat 262136)) as d eqn:D. assert (LD : zlen d = 262136) by (rewrite D, zlen_repeat; lia). clear D.
  assert (LEN : (length big_line < S (length big_file))%nat) by (rewrite HF, !app_length; lia).
  generalize dependent big_file. generalize dependent big_line. intros l C F LF HF LEN.
  assert (LE := line_ok l _ C F (S (length F)) (mk_hdr 5 8 0 0 65533 16384 4 65534) [] [] scan e 262136).
  cbn [app] in LE. rewrite zlen_nil in LE. change (zlen (mk_hdr 5 8 0 0 65533 16384 4 65534)) with 128 in LE.
  rewrite LE by (auto; lia). cbn [bind negb]. rewrite big_deinterleave by auto. reflexivity.
Qed.

Theorem C31_overflow_refuted : forall alloc old u cm fl, allocator_ok alloc -> alloc 131064 <> None -> alloc 262136 <> None ->
  (forall i, zlen (u i) = 2) -> zlen cm = 48 -> zlen fl = 54 ->
  zlen big_file = 8450 /\ ilLoadPcxL alloc old u cm fl big_file = UB.
Proof.
  intros alloc old u cm fl HA N1 N2 Hu Hc Hl. split; [exact zlen_big|]. unfold ilLoadPcxL. rewrite head_ok by (auto; rewrite zlen_big; lia). cbn [bind].
  assert (EH : head_of big_file = mkHead 10 5 1 8 0 0 65533 16384 0 (repeat 0 48) 4 65534) by reflexivity. rewrite EH.
  change (iCheckPcx _) with true. cbn [negb]. unfold iUncompressPcx. cbn [HBpp NumPlanes HBps Version Xmax Xmin Ymax Ymin].
  change (8 <? 8) with false. cbv iota. change (u32 (65533 - 0 + 1)) with 65534. change (u32 (16384 - 0 + 1)) with 16385.
  unfold ilInitImage. change (ilGetBpcType IL_UNSIGNED_BYTE) with 1. change (1 =? 0) with false. cbv iota zeta.
  change (nz1 65534) with 65534. change (nz1 16385) with 16385. change (nz1 1) with 1.
  change (u32 (65534 * 4 * 1)) with 262136. change (u32 (262136 * 16385)) with 131064. change (u32 (131064 * 1)) with 131064.
  destruct (alloc 131064) as [blk|] eqn:EA; [|congruence]. assert (LB : zlen blk = 131064) by (apply (HA _ _ EA)). cbn [bind negb].
  unfold with_Origin, with_Format, with_Pal. cbn [Bpp Width Height Depth Bpc Bps Data]. change (4 =? 1) with false. change (4 =? 3) with false. change (4 =? 4) with true. cbv iota.
  change (4 * 65534) with 262136. destruct (alloc 262136) as [scan|] eqn:ES; [|congruence]. assert (LS : zlen scan = 262136) by (apply (HA _ _ ES)).
  rewrite loop_first by lia. rewrite big_row by auto. reflexivity.
Qed.

Print Assumptions C31_safe_partial.
Print Assumptions C31_reversed_refuted.
Print Assumptions C31_short_lines_refuted.
Print Assumptions C31_truncated_refuted.
Print Assumptions C31_palette_refuted.
Print Assumptions C31_overflow_refuted.
