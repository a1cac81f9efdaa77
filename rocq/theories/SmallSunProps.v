(** C96: run-length encoded rasters, safety, what is lost. *)
From Coq Require Import ZArith List Lia Bool.
From Verif Require Import Base Slices Elem Enums Utility Image ImageSpec Flip Lump LumpSpec LumpProofs LumpProps Channels Endian EndianProps ConvImgProps RleSpec RawProps Pcx PcxProofs TgaProofs TgaSafe TgaRle BmpSpec BmpSafe BmpDecode SgiSpec SgiProofs SgiLoad SgiProps Safe Small SmallSpec SmallTex SmallTexProps CacheProps SmallRle SmallSun.
Import ListNotations.
Open Scope Z_scope.

Lemma splice_cons : forall d b v data, 0 <= b -> b + 1 + zlen data <= zlen d -> splice (upd d b v) (b + 1) data = splice d b (v :: data).
Proof.
  intros d b v data Hb HL. assert (0 <= zlen data) by auto. change (v :: data) with ([v] ++ data). rewrite <- splice_splice_adj by (change (zlen [v]) with 1; lia). change (zlen [v]) with 1. f_equal.
Qed.
Lemma sun_code_ok : forall code px, sun_code code px -> forall F L i b d p e fuel, bytes F -> zlen F < 4294967295 -> here F p code -> 0 <= i -> i + zlen px = L -> L < 4294967296 -> 0 <= b -> b + zlen px <= zlen d -> (length px <= fuel)%nat ->
  sun_rle fuel L i b d (Rd F p (zlen F) e) = Ok (L, splice d b px, Rd F (p + zlen code) (zlen F) e).
Proof.
  intros code px C. induction C as [|v code data HV C IH|code data C IH|n v code data HN C IH]; intros F L i b d p e fuel B HM HE Hi HL HS Hb HD Hf.
  - change (zlen (@nil Z)) with 0 in *. rewrite splice_nil by lia. replace i with L by lia. rewrite Z.add_0_r. destruct fuel; cbn [sun_rle]; rewrite Z.ltb_irrefl; reflexivity.
  - rewrite zlen_cons in *. assert (0 <= zlen data) by auto. destruct (here_cons _ _ _ _ HE) as (G & H1 & HP). assert (Hp : 0 <= p) by apply HE. destruct fuel as [|fuel]; [cbn in Hf; lia|]. cbn [sun_rle]. replace (i <? L) with true by lia. rewrite getc_in by lia. cbn [bind]. rewrite G.
    assert (BV : 0 <= v < 256) by (rewrite <- G; apply B; lia). rewrite u8_small by lia. replace (v =? 128) with false by lia. rewrite wr_ok by lia. cbn [bind]. cbn [length] in Hf. rewrite IH by (auto; try lia; rewrite zlen_upd by lia; lia).
    rewrite splice_cons by lia. replace (p + 1 + zlen code) with (p + (1 + zlen code)) by lia. reflexivity.
  - rewrite ?zlen_cons in *. assert (0 <= zlen data) by auto. destruct (here_cons _ _ _ _ HE) as (G & H1 & HP). destruct (here_cons _ _ _ _ H1) as (G1 & H2 & HP1). assert (Hp : 0 <= p) by apply HE. destruct fuel as [|fuel]; [cbn in Hf; lia|]. cbn [sun_rle]. replace (i <? L) with true by lia. rewrite getc_in by lia. cbn [bind]. rewrite G.
    change (u8 128 =? 128) with true. cbv iota. rewrite getc_in by lia. cbn [bind]. rewrite G1. change (u32 0 =? 0) with true. cbv iota. rewrite wr_ok by lia. cbn [bind]. cbn [length] in Hf. rewrite IH by (auto; try lia; rewrite zlen_upd by lia; lia).
    rewrite splice_cons by lia. do 3 f_equal. lia.
  - assert (LR : zlen (rep (Z.to_nat (n + 1)) [v]) = n + 1) by (rewrite zlen_rep; change (zlen [v]) with 1; lia). rewrite zlen_app, LR in *. rewrite ?zlen_cons in *. assert (0 <= zlen data) by auto.
    destruct (here_cons _ _ _ _ HE) as (G & H1 & HP). destruct (here_cons _ _ _ _ H1) as (G1 & H2 & HP1). destruct (here_cons _ _ _ _ H2) as (G2 & H3 & HP2). assert (Hp : 0 <= p) by apply HE.
    assert (LF : (length data + 1 <= fuel)%nat). { rewrite app_length in Hf. unfold zlen in LR. lia. } destruct fuel as [|fuel]; [lia|]. cbn [sun_rle]. replace (i <? L) with true by lia. rewrite getc_in by lia. cbn [bind]. rewrite G. change (u8 128 =? 128) with true. cbv iota.
    rewrite getc_in by lia. cbn [bind]. rewrite G1. rewrite (u32_small n) by lia. replace (n =? 0) with false by lia. rewrite getc_in by lia. cbn [bind]. rewrite G2. rewrite (u32_small (n + 1)) by lia. cbv zeta. rewrite Z.min_l by lia.
    assert (BV : 0 <= v < 256) by (rewrite <- G2; apply B; lia). rewrite fill_ok by lia. cbn [bind]. rewrite (u32_small (i + (n + 1))) by lia. rewrite IH by (auto; try lia; rewrite zlen_splice; lia).
    assert (X := splice_splice_adj d b (rep (Z.to_nat (n + 1)) [v]) data). rewrite LR in X. rewrite X by lia. do 3 f_equal. lia.
Qed.
Lemma rle_rows_ok : forall n rows l, sun_lines n rows l -> forall F i H p e d, 1 <= n -> n * H < 4294967296 -> zlen d = n * H -> 0 <= i -> i + zlen rows = H -> bytes F -> zlen F < 4294967295 -> here F p l ->
  exists r, for_ (length rows) i (fun i st => let '(d, r) := st in let! (k, d, r) := sun_rle (S (2 * Z.to_nat n)) n 0 (u32 (n * i)) d r in
      if negb (k mod 2 =? 0) then let! (_, r) := iGetcLump r in Ok (d, r) else Ok (d, r)) (d, Rd F p (zlen F) e) = Ok (splice d (n * i) (concat rows), r).
Proof.
  intros n rows l C. induction C as [|px code pad rows l CC LP LPd C IH]; intros F i H p e d Hn HS LD Hi HI B HM HE.
  - cbn [length for_ concat]. exists (Rd F p (zlen F) e). change (zlen (@nil (list Z))) with 0 in *. rewrite splice_nil; [reflexivity|]. assert (0 <= n * i) by (apply Z.mul_nonneg_nonneg; lia). replace H with i in LD by lia. lia.
  - rewrite zlen_cons in HI. assert (0 <= zlen rows) by auto. destruct (here_app _ _ _ _ HE) as (H1 & H2). destruct (here_app _ _ _ _ H2) as (H3 & H4). cbn [length for_ concat].
    assert (BI : 0 <= n * i /\ n * i + n <= n * H). { assert (0 <= n * i) by (apply Z.mul_nonneg_nonneg; lia). assert (M : n * (i + 1) <= n * H) by (apply Z.mul_le_mono_nonneg_l; lia). lia. }
    rewrite (u32_small (n * i)) by lia. rewrite (sun_code_ok code px CC F n 0 (n * i) d p e) by (auto; try lia; unfold zlen in *; lia). cbn [bind].
    assert (Hp : 0 <= p + zlen code) by apply H2. assert (P := pad_ok F (p + zlen code) e n ltac:(lia) Hp ltac:(destruct H3 as (_ & X & _); rewrite LPd in X; lia) HM).
    assert (ST : (if negb (n mod 2 =? 0) then let! (_, r) := iGetcLump (Rd F (p + zlen code) (zlen F) e) in Ok (splice d (n * i) px, r) else Ok (splice d (n * i) px, Rd F (p + zlen code) (zlen F) e)) = Ok (splice d (n * i) px, Rd F (p + zlen code + zlen pad) (zlen F) e)).
    { rewrite LPd. destruct (negb (n mod 2 =? 0)); [destruct (iGetcLump _) as [(c, r)| |]; cbn [bind] in *; try discriminate; injection P as ->; reflexivity|]. injection P as P. rewrite <- P. reflexivity. }
    rewrite ST. cbn [bind]. destruct (IH F (i + 1) H (p + zlen code + zlen pad) e (splice d (n * i) px)) as (r & E); auto; try lia. { rewrite zlen_splice; lia. }
    rewrite E. exists r. do 2 f_equal. rewrite <- splice_splice_adj. { f_equal. lia. } { lia. }
    assert (FA : Forall (fun row => zlen row = n) rows). { clear - C. induction C; constructor; auto. } rewrite (zlen_concat n rows FA). assert (n * (i + 1 + zlen rows) <= n * H) by (apply Z.mul_le_mono_nonneg_l; lia). lia.
Qed.

(** C96b: a run-length encoded raster is loaded into the picture its lines stand for; a line of odd length is followed by
    a byte of padding. *)
Theorem C96_rle : forall alloc old u4 F W H depth mt ml rows l, allocator_ok alloc -> bytes F -> zlen F < 2147483648 -> sun_head F W H depth 2 mt ml -> depth = 8 \/ depth = 24 ->
  (mt = 0 /\ ml = 0) \/ (mt = 1 /\ 1 <= ml) -> 1 <= W -> 1 <= H -> let N := sun_chans depth in W * N * H < 4294967296 -> here F (32 + ml) l -> sun_lines (W * N) rows l -> zlen rows = H -> (forall i, zlen (u4 i) = 4) -> alloc ml <> None -> alloc (W * N * H) <> None ->
  exists im, iLoadSunInternal alloc old u4 (Rd F 0 (zlen F) []) = Ok (true, im, []) /\ Pal im = sun_pal F depth mt ml /\
    shows im W H N (sun_format depth 2 mt) (fun x t c => geti (nth (Z.to_nat t) rows []) (x * N + c)).
Proof.
  intros alloc old u4 F W H depth mt ml rows l HA B HM HD Hd Hm HW HH N HS HE C LR U4 Hn Hn2. destruct (alloc (W * N * H)) as [blk|] eqn:EA; [|congruence]. assert (LB := HA _ _ EA). assert (HN : 1 <= N <= 3) by (unfold N, sun_chans; destruct (depth =? 8); lia).
  assert (P0 : 0 < W * N) by (apply Z.mul_pos_pos; lia). assert (HL : 0 <= zlen l) by auto.
  rewrite (sun_start alloc old u4 F W H depth 2 mt ml blk) by (auto; fold N; try lia; destruct HE as (_ & X & _); lia). unfold sun_body. fold N. replace (depth =? 32) with false by lia. change (2 =? 2) with true. cbv iota zeta.
  assert (FA : Forall (fun row => zlen row = W * N) rows). { clear - C. induction C; constructor; auto. } assert (LC := zlen_concat (W * N) rows FA).
  destruct (rle_rows_ok (W * N) rows l C F 0 H (32 + ml) [] blk) as (r & E); auto; try lia. unfold sun_rle_rows, loop. replace (Z.to_nat (H - 0)) with (length rows) by (unfold zlen in LR; lia). rewrite E. cbn [bind]. rewrite Z.mul_0_r. rewrite splice_full by (rewrite LC, LR, LB; ring).
  eexists. split; [reflexivity|]. split; [reflexivity|]. apply top_shows; auto; try lia; try (rewrite LC, LR; ring).
  intros x t c Hx Hy Hc. assert (0 <= x * N) by (apply Z.mul_nonneg_nonneg; lia). assert (M : (x + 1) * N <= W * N) by (apply Z.mul_le_mono_nonneg_r; lia). replace ((t * W + x) * N + c) with (t * (W * N) + (x * N + c)) by ring. apply geti_concat; auto; lia.
Qed.
Print Assumptions C96_rle.

(** A raster with 32 bits per pixel is reported as loaded, but every pixel is written over the first one: all others are
    what the memory contained. *)
Lemma quads_ok : forall F W H d p e, 0 < zlen F < 4294967295 -> 0 <= p <= zlen F -> 3 <= zlen d -> exists d' r, sun_quads W H d (Rd F p (zlen F) e) = Ok (d', r) /\ zlen d' = zlen d /\ forall j, 3 <= j < zlen d -> geti d' j = geti d j.
Proof.
  intros F W H d p e HM Hp LD. unfold sun_quads.
  set (I := fun st : list Z * reader => on F (snd st) /\ zlen (fst st) = zlen d /\ forall j, 3 <= j < zlen d -> geti (fst st) j = geti d j).
  assert (GC : forall r, on F r -> exists c r', iGetcLump r = Ok (c, r') /\ on F r'). { intros r O. rewrite (C21_getc F r HM O). destruct O as (O1 & O2 & O3). destruct (rpos r <? zlen F) eqn:E; do 2 eexists; (split; [reflexivity|]); (split; [reflexivity|split; [reflexivity|cbn [rpos]; lia]]). }
  assert (PX : forall i st, 0 <= i -> I st -> exists st', loop 0 W (fun _ st => let '(d, r) := st in
    let! (_, r) := iGetcLump r in let! (a, r) := iGetcLump r in let! d := wr d 0 (u8 a) in let! (b, r) := iGetcLump r in let! d := wr d 1 (u8 b) in let! (c, r) := iGetcLump r in let! d := wr d 2 (u8 c) in Ok (d, r)) st = Ok st' /\ I st').
  { intros _ st _ HI. destruct (Z.le_gt_cases 0 W) as [HW|HW]; [|unfold loop; replace (Z.to_nat (W - 0)) with O by lia; cbn [for_]; eauto].
    refine (loop_rule _ (fun _ st => I st) 0 W _ st HW HI _). intros k (d1, r1) Hk (O & L & G). cbn [fst snd] in *.
    destruct (GC r1 O) as (c1 & r2 & -> & O2). cbn [bind]. destruct (GC r2 O2) as (c2 & r3 & -> & O3). cbn [bind]. rewrite wr_ok by lia. cbn [bind]. destruct (GC r3 O3) as (c3 & r4 & -> & O4). cbn [bind]. rewrite wr_ok by (rewrite zlen_upd; lia). cbn [bind]. destruct (GC r4 O4) as (c4 & r5 & -> & O5). cbn [bind].
    rewrite wr_ok by (rewrite !zlen_upd by (rewrite ?zlen_upd by lia; lia); lia). cbn [bind]. eexists. split; [reflexivity|]. unfold I. cbn [fst snd]. split; [exact O5|]. rewrite !zlen_upd by (rewrite ?zlen_upd by (rewrite ?zlen_upd by lia; lia); lia). split; [exact L|].
    intros j Hj. rewrite !geti_upd by (rewrite ?zlen_upd by (rewrite ?zlen_upd by lia; lia); lia). replace (j =? 2) with false by lia. replace (j =? 1) with false by lia. replace (j =? 0) with false by lia. apply G; lia. }
  assert (I0 : I (d, Rd F p (zlen F) e)). { split; [split; [reflexivity|split; [reflexivity|exact Hp]]|]. split; auto. }
  destruct (Z.le_gt_cases 0 H) as [HH|HH].
  - match goal with |- context [loop 0 H ?b ?s] => destruct (loop_rule _ (fun _ st => I st) 0 H b s HH I0) as ((d', r) & E & (_ & L & G)) end. { intros k st Hk HI. apply (PX k); auto; lia. } rewrite E. eauto.
  - unfold loop. replace (Z.to_nat (H - 0)) with O by lia. cbn [for_]. eexists _, _. split; [reflexivity|]. auto.
Qed.
Theorem C96_quads_refuted : forall alloc old u4 F W H typ mt ml blk, allocator_ok alloc -> bytes F -> zlen F < 2147483648 -> sun_head F W H 32 typ mt ml -> typ = 0 \/ typ = 1 \/ typ = 3 -> (mt = 0 /\ ml = 0) \/ (mt = 1 /\ 1 <= ml) ->
  32 + ml <= zlen F -> 1 <= W -> 1 <= H -> W * 3 * H < 4294967296 -> (forall i, zlen (u4 i) = 4) -> alloc ml <> None -> alloc (W * 3 * H) = Some blk ->
  exists im buf, iLoadSunInternal alloc old u4 (Rd F 0 (zlen F) []) = Ok (true, im, []) /\ Data im = Some buf /\ zlen buf = W * 3 * H /\ forall j, 3 <= j < W * 3 * H -> geti buf j = geti blk j.
Proof.
  intros alloc old u4 F W H typ mt ml blk HA B HM HD Ht Hm HL HW HH HS U4 Hn EA. assert (LB := HA _ _ EA). rewrite (sun_start alloc old u4 F W H 32 typ mt ml blk) by (auto; try lia). unfold sun_body. change (32 =? 32) with true. cbv iota zeta.
  assert (0 < W * H) by (apply Z.mul_pos_pos; lia). assert (EQ : W * 3 * H = 3 * (W * H)) by ring.
  destruct (quads_ok F W H blk (32 + ml) []) as (d & r & -> & Ld & G); try lia. cbn [bind]. do 2 eexists. split; [reflexivity|]. split; [reflexivity|]. split; [lia|]. intros j Hj. apply G. lia.
Qed.
Print Assumptions C96_quads_refuted.

Lemma rle_ret : forall F L, 0 < zlen F < 2147483648 -> bytes F -> L < 2147483648 -> forall fuel i p d r, on F r -> 0 <= i -> 0 <= p -> (i < L -> p + (L - i) <= zlen d) -> 2 * (L - i) + (if rpos r =? zlen F then 0 else 1) <= Z.of_nat fuel ->
  exists k d' r', sun_rle fuel L i p d r = Ok (k, d', r') /\ on F r' /\ zlen d' = zlen d.
Proof.
  intros F L HM B HL. induction fuel as [|fuel IH]; intros i p d r O Hi Hp HD HF.
  - cbn [sun_rle]. destruct (i <? L) eqn:E; [destruct (rpos r =? zlen F); lia|]. eauto 6.
  - cbn [sun_rle]. destruct (i <? L) eqn:E; [|eauto 6]. specialize (HD ltac:(lia)).
    assert (GC : forall r, on F r -> exists c r', iGetcLump r = Ok (c, r') /\ on F r' /\ ((rpos r < zlen F /\ 0 <= c < 256 /\ rpos r' = rpos r + 1) \/ (rpos r = zlen F /\ c = -1 /\ rpos r' = zlen F - 1))).
    { clear - HM B. intros r O. rewrite (C21_getc F r ltac:(lia) O). destruct O as (O1 & O2 & O3). destruct (rpos r <? zlen F) eqn:E; do 2 eexists; (split; [reflexivity|]); (split; [split; [reflexivity|split; [reflexivity|cbn [rpos]; lia]]|]).
      - left. split; [lia|]. split; [apply B; lia|reflexivity].
      - right. split; [lia|]. split; reflexivity. }
    destruct (GC r O) as (c & r1 & -> & O1 & HC). cbn [bind]. destruct (u8 c =? 128) eqn:E8.
    + destruct (GC r1 O1) as (n & r2 & -> & O2 & HC2). cbn [bind]. destruct (u32 n =? 0) eqn:E0.
      * rewrite wr_ok by lia. cbn [bind]. destruct (IH (i + 1) (p + 1) (upd d p 128) r2 O2) as (k & d' & r' & -> & O' & LD); try lia; try (rewrite zlen_upd by lia; lia). { destruct (rpos r2 =? zlen F), (rpos r =? zlen F); lia. } rewrite zlen_upd in LD by lia. eauto 6.
      * destruct (GC r2 O2) as (v & r3 & -> & O3 & HC3). cbn [bind]. cbv zeta. set (K := Z.min (u32 (u32 n + 1)) (L - i)).
        assert (CT : (n = -1 /\ u32 (u32 n + 1) = 0) \/ (0 <= n < 256 /\ u32 (u32 n + 1) = n + 1)). { destruct HC2 as [(? & ? & ?)|(? & -> & ?)]; [right; rewrite (u32_small n), u32_small by lia; lia|left; split; reflexivity]. }
        assert (HK : 0 <= K <= L - i) by (unfold K; lia).
        destruct (loop_rule _ (fun _ d' => zlen d' = zlen d) 0 K (fun j d => wr d (p + j) (u8 v)) d ltac:(lia) eq_refl) as (d1 & -> & L1). { intros j d1 Hj L1. rewrite wr_ok by lia. eexists. split; [reflexivity|]. rewrite zlen_upd; lia. }
        cbn [bind]. assert (U : u32 (i + u32 (u32 n + 1)) = i + u32 (u32 n + 1)) by (apply u32_small; lia). rewrite U.
        destruct (IH (i + u32 (u32 n + 1)) (p + K) d1 r3 O3) as (k & d' & r' & -> & O' & LD); try lia.
        { unfold on in *. destruct (rpos r3 =? zlen F) eqn:X3, (rpos r =? zlen F) eqn:X; try lia.
          all: destruct CT as [(N1 & ->)|(N1 & ->)]; try lia.
          all: assert (c <> -1) by (intros ->; discriminate E8); lia. }
        eexists _, _, _. split; [reflexivity|]. split; [exact O'|lia].
    + rewrite wr_ok by lia. cbn [bind]. destruct (IH (i + 1) (p + 1) (upd d p (u8 c)) r1 O1) as (k & d' & r' & -> & O' & LD); try lia; try (rewrite zlen_upd by lia; lia). { destruct (rpos r1 =? zlen F), (rpos r =? zlen F); lia. } rewrite zlen_upd in LD by lia. eauto 6.
Qed.
Lemma getc_ret : forall F r, 0 < zlen F < 4294967295 -> on F r -> exists c r', iGetcLump r = Ok (c, r') /\ on F r'.
Proof. intros F r HM O. rewrite (C21_getc F r HM O). destruct O as (O1 & O2 & O3). destruct (rpos r <? zlen F) eqn:E; do 2 eexists; (split; [reflexivity|]); (split; [reflexivity|split; [reflexivity|cbn [rpos]; lia]]). Qed.
Lemma read_at_ret : forall F d off n r, 0 < zlen F < 4294967295 -> on F r -> 0 <= off -> 0 <= n < 4294967296 -> off + n <= zlen d -> exists c d' r', read_at d off 1 n r = Ok (c, d', r') /\ on F r' /\ zlen d' = zlen d.
Proof.
  intros F d off n r HM O Ho Hn HD. unfold read_at. replace (zlen d <? off) with false by lia. assert (LS : zlen (slice d off (zlen d - off)) = zlen d - off) by (apply zlen_slice; lia).
  destruct (RawProps.read_on F (slice d off (zlen d - off)) 1 n r HM O) as (c & b' & r' & -> & O' & L & _); try lia. cbn [bind]. eexists _, _, _. split; [reflexivity|]. split; [exact O'|]. rewrite zlen_splice; lia.
Qed.
Lemma rows_ret : forall F H Bp d r, 0 < zlen F < 2147483648 -> on F r -> 0 <= Bp -> 0 <= H -> zlen d = Bp * H -> Bp * H < 2147483648 -> exists d' r', sun_rows H Bp Bp d r = Ok (d', r').
Proof.
  intros F H Bp d r HM O HB HH LD HS. unfold sun_rows.
  match goal with |- context [loop 0 H ?b ?s] => destruct (loop_rule _ (fun _ (st : list Z * reader) => zlen (fst st) = zlen d /\ on F (snd st)) 0 H b s HH (conj eq_refl O)) as ((d', r') & E & _) end; [|rewrite E; eauto].
  intros i (d1, r1) Hi (L1 & O1). cbn [fst snd] in *. assert (M : (i + 1) * Bp <= H * Bp) by (apply Z.mul_le_mono_nonneg_r; lia). assert (0 <= i * Bp) by (apply Z.mul_nonneg_nonneg; lia). rewrite (u32_small (i * Bp)) by lia.
  destruct (read_at_ret F d1 (i * Bp) Bp r1) as (c & d2 & r2 & -> & O2 & L2); auto; try lia. cbn [bind]. destruct (negb _).
  - destruct (getc_ret F r2 ltac:(lia) O2) as (c3 & r3 & -> & O3). cbn [bind]. eexists. split; [reflexivity|]. cbn [fst snd]. split; [lia|exact O3].
  - eexists. split; [reflexivity|]. cbn [fst snd]. split; [lia|exact O2].
Qed.
Lemma rle_rows_ret : forall F H Bp d r, 0 < zlen F < 2147483648 -> bytes F -> on F r -> 0 <= Bp -> 0 <= H -> zlen d = Bp * H -> Bp * H < 2147483648 -> Bp < 2147483648 -> exists d' r', sun_rle_rows H Bp d r = Ok (d', r').
Proof.
  intros F H Bp d r HM B O HB HH LD HS HB2. unfold sun_rle_rows.
  match goal with |- context [loop 0 H ?b ?s] => destruct (loop_rule _ (fun _ (st : list Z * reader) => zlen (fst st) = zlen d /\ on F (snd st)) 0 H b s HH (conj eq_refl O)) as ((d', r') & E & _) end; [|rewrite E; eauto].
  intros i (d1, r1) Hi (L1 & O1). cbn [fst snd] in *. assert (M : Bp * (i + 1) <= Bp * H) by (apply Z.mul_le_mono_nonneg_l; lia). assert (0 <= Bp * i) by (apply Z.mul_nonneg_nonneg; lia). rewrite (u32_small (Bp * i)) by lia.
  destruct (rle_ret F Bp HM B HB2 (S (2 * Z.to_nat Bp)) 0 (Bp * i) d1 r1 O1) as (k & d2 & r2 & -> & O2 & L2); try lia. { destruct (rpos r1 =? zlen F); lia. } cbn [bind]. destruct (negb _).
  - destruct (getc_ret F r2 ltac:(lia) O2) as (c3 & r3 & -> & O3). cbn [bind]. eexists. split; [reflexivity|]. cbn [fst snd]. split; [lia|exact O3].
  - eexists. split; [reflexivity|]. cbn [fst snd]. split; [lia|exact O2].
Qed.

(** C96c: whatever follows the header - a raster that is too short, runs longer than a line, no colour map - the loader
    comes to an end and touches no memory outside the image, if the sizes in the header are not too large. *)
Theorem C96_safe_partial : forall alloc old u4 F, allocator_ok alloc -> bytes F -> 32 <= zlen F < 2147483648 -> (forall i, zlen (u4 i) = 4) -> be4 F 12 <> 1 -> be4 F 4 * 3 * be4 F 8 < 2147483648 ->
  exists ok im e, iLoadSunInternal alloc old u4 (Rd F 0 (zlen F) []) = Ok (ok, im, e).
Proof.
  intros alloc old u4 F HA B HM U4 Hd HS. unfold iLoadSunInternal. rewrite sun_get by (auto; lia). cbn [bind]. set (W := be4 F 4) in *. set (H := be4 F 8) in *. set (dp := be4 F 12) in *. set (ty := be4 F 20). set (mt := be4 F 24). set (ml := be4 F 28).
  assert (PW : 0 <= W < 4294967296) by (apply be4_pos; auto; lia). assert (PH : 0 <= H < 4294967296) by (apply be4_pos; auto; lia). assert (PM : 0 <= ml < 4294967296) by (apply be4_pos; auto; lia). clearbody W H dp ty mt ml.
  destruct (iCheckSun _) eqn:CK; cbn [negb]; cbv iota; [|eauto]. unfold iCheckSun in CK. cbn [NMagic NWidth NHeight NDepth NType NMapType NMapLength] in *. destruct (negb (be4 F 0 =? 1504078485)); [discriminate|]. destruct ((W =? 0) || (H =? 0)) eqn:EZ; [discriminate|]. clear CK. cbv zeta.
  replace (dp =? 1) with false by lia. assert (O : on F (Rd F 32 (zlen F) [])) by (split; [reflexivity|split; [reflexivity|cbn [rpos]; lia]]).
  assert (WH : 0 < W * H) by (apply Z.mul_pos_pos; lia). assert (WW : W * 1 <= W * H) by (apply Z.mul_le_mono_nonneg_l; lia). assert (E3 : W * 3 * H = 3 * (W * H)) by ring.
  assert (INI : forall N f, 1 <= N <= 3 -> (exists blk, ilInitImage alloc old W H 1 N f IL_UNSIGNED_BYTE None = Ok (true, low_img W H N f blk, []) /\ zlen blk = W * N * H /\ zlen blk < 2147483648) \/ exists im e, ilInitImage alloc old W H 1 N f IL_UNSIGNED_BYTE None = Ok (false, im, e)).
  { intros N f HN. assert (LE : N * (W * H) <= 3 * (W * H)) by (apply Z.mul_le_mono_nonneg_r; lia). assert (EN : W * N * H = N * (W * H)) by ring. assert (LE1 : 1 * (W * H) <= N * (W * H)) by (apply Z.mul_le_mono_nonneg_r; lia).
    destruct (alloc (W * N * H)) as [blk|] eqn:EA.
    - left. exists blk. assert (LB := HA _ _ EA). split; [apply init_low; auto; lia|lia].
    - right. unfold ilInitImage. change (ilGetBpcType IL_UNSIGNED_BYTE) with 1. change (1 =? 0) with false. change (nz1 1) with 1. cbv iota zeta. unfold nz1. replace (W =? 0) with false by lia. replace (H =? 0) with false by lia. assert (WN : W * N <= W * 3) by (apply Z.mul_le_mono_nonneg_l; lia). assert (0 <= W * N) by lia. rewrite !Z.mul_1_r. assert (W * N * 1 <= W * N * H) by (apply Z.mul_le_mono_nonneg_l; lia). rewrite (u32_small (W * N)) by lia. rewrite !(u32_small (W * N * H)) by lia. rewrite EA. eauto. }
  assert (FIN : forall im (m : res (list Z * reader)), (exists d r, m = Ok (d, r)) -> exists ok im' e, (let! (d, r) := m in Ok (true, with_Origin (with_Data im (Some d)) IL_ORIGIN_UPPER_LEFT, [])) = Ok (ok, im', e : list Z)).
  { intros im m (d & r & ->). cbn [bind]. eauto. }
  destruct (dp =? 8).
  - destruct (INI 1 (if mt =? 0 then IL_LUMINANCE else IL_COLOUR_INDEX) ltac:(lia)) as [(blk & -> & LB & LB2)|(im & e & ->)]; cbn [bind negb]; cbv iota; [|eauto].
    set (im0 := low_img W H 1 _ blk).
    assert (PL : exists ok im e r, (if mt =? 0 then Ok (true, im0, [], Rd F 32 (zlen F) []) else match alloc ml with
       | None => Ok (false, im0, [IL_OUT_OF_MEMORY], Rd F 32 (zlen F) [])
       | Some p =>
           let! (n, p, r) := iReadLump p 1 ml (Rd F 32 (zlen F) []) in
           if negb (n =? ml) then Ok (false, with_PalData im0 p, [IL_FILE_READ_ERROR], r)
           else Ok (true, with_Pal im0 (mkPal (Some p) ml IL_PAL_RGB24), [], r)
       end) = Ok (ok, im, e, r) /\ on F r /\ (ok = true -> Data im = Some blk /\ Bps im = W /\ Height im = H)).
    { assert (I0 : Data im0 = Some blk /\ Bps im0 = W /\ Height im0 = H). { unfold im0, low_img. cbn [Data Bps Height]. split; [reflexivity|]. split; [lia|reflexivity]. }
      clearbody im0. destruct (mt =? 0); [eauto 8|]. destruct (alloc ml) as [pb|] eqn:EP; [|eexists _, _, _, _; split; [reflexivity|split; [exact O|discriminate]]]. assert (LP := HA _ _ EP).
      destruct (RawProps.read_on F pb 1 ml (Rd F 32 (zlen F) [])) as (n & b & r & -> & O1 & _); auto; try lia. cbn [bind]. destruct (negb (n =? ml)); eexists _, _, _, _; (split; [reflexivity|split; [exact O1|]]); [discriminate|]. intros _. exact I0. }
    destruct PL as (ok & im & e & r & -> & O1 & HI). cbn [bind]. destruct ok; cbn [negb]; [|eauto]. destruct (HI eq_refl) as (-> & -> & ->). destruct (negb (ty =? 2)); apply FIN; [apply (rows_ret F); auto; lia|apply (rle_rows_ret F); auto; lia].
  - assert (SK : exists c r, (if 0 <? ml then iSeekRLump (i32 ml) IL_SEEK_CUR (Rd F 32 (zlen F) []) else Ok (0, Rd F 32 (zlen F) [])) = Ok (c, r) /\ on F r). { destruct (0 <? ml); [|eauto]. destruct (seek_on F (Rd F 32 (zlen F) []) (i32 ml)) as (c & r & -> & O1); auto; try lia. eauto. }
    destruct SK as (c & r & -> & O1). cbn [bind]. destruct (INI 3 (if ty =? 3 then IL_RGB else IL_BGR) ltac:(lia)) as [(blk & -> & LB & LB2)|(im & e & ->)]; cbn [bind negb]; cbv iota; [|eauto].
    set (im0 := low_img W H 3 _ blk). assert (I0 : Data im0 = Some blk /\ Bps im0 = W * 3 /\ Height im0 = H) by (split; [reflexivity|split; reflexivity]). clearbody im0. destruct I0 as (-> & -> & ->). destruct (dp =? 24).
    + rewrite (u32_small (W * 3)) by lia. destruct (negb (ty =? 2)); apply FIN; [apply (rows_ret F); auto; lia|apply (rle_rows_ret F); auto; lia].
    + apply FIN. destruct r as [l q s er]. destruct O1 as (E1 & E2 & E4). cbn [rlump rpos Lump.rsize] in *. subst l s. destruct (quads_ok F W H blk q er) as (d' & r' & E & _); try lia. eauto.
Qed.
Print Assumptions C96_safe_partial.
