(** C92: loading SGI images. *)
From Coq Require Import ZArith List Lia Bool.
From Verif Require Import Base Slices Elem BitLemmas Enums Utility Image ImageSpec Flip Lump LumpSpec LumpProofs LumpProps Channels Endian EndianProps Rle RleSpec Pcx PcxProofs TgaProofs DxtFlipProps Sgi SgiSpec SgiProofs.
Import ListNotations.
Open Scope Z_scope.

Lemma entry_ok : forall F p tbl n i, bytes F -> 0 <= p -> p + n <= zlen F -> tbl = slice F p n -> 0 <= i -> 4 * i + 4 <= n -> entry tbl i = Ok (be4 F (p + 4 * i)).
Proof.
  intros F p tbl n i B Hp HF -> Hi Hn. unfold entry. rewrite rde_ok by (rewrite ?zlen_slice by lia; lia). cbn [bind]. rewrite slice_slice by lia. rewrite slice4 by lia. cbn [unle].
  rewrite be4_swap by (apply B; lia). unfold be4. replace (p + i * 4) with (p + 4 * i) by lia. reflexivity.
Qed.
Lemma be4_pos : forall F p, bytes F -> 0 <= p -> p + 4 <= zlen F -> 0 <= be4 F p < 4294967296.
Proof. intros F p B H1 H2. unfold be4. assert (0 <= geti F p < 256) by (apply B; lia). assert (0 <= geti F (p + 1) < 256) by (apply B; lia). assert (0 <= geti F (p + 2) < 256) by (apply B; lia). assert (0 <= geti F (p + 3) < 256) by (apply B; lia). lia. Qed.
Lemma seek_set : forall F p q e, 0 <= q <= zlen F -> zlen F < 2147483648 -> iSeekRLump (i32 q) IL_SEEK_SET (Rd F p (zlen F) e) = Ok (0, Rd F q (zlen F) e).
Proof.
  intros F p q e Hq HF. unfold iSeekRLump, seek_lump. cbn [rpos Lump.rsize rlump rerr]. change (IL_SEEK_SET =? IL_SEEK_SET) with true. cbv iota. rewrite !i32_small by lia. replace (zlen F <? q) with false by lia.
  cbn [bind]. rewrite u32_small by lia. reflexivity.
Qed.

(** ** One plane *)
Lemma plane_ok : forall F h W H N off len k px d p e, bytes F -> 0 < zlen F < 2147483648 -> SX h = W -> SY h = H -> SBpc h = 1 -> 1 <= W < 65536 -> 1 <= H -> 0 <= k < N ->
  off = slice F 512 (4 * (N * H)) -> len = slice F (512 + 4 * (N * H)) (4 * (N * H)) -> sgi_coded F W H N px -> zlen d = W * H -> W * H < 4294967296 -> 0 <= p <= zlen F ->
  exists d' p', sgi_plane h off len k d (Rd F p (zlen F) e) = Ok (true, d', Rd F p' (zlen F) e) /\ 0 <= p' <= zlen F /\ zlen d' = W * H /\ forall y, 0 <= y < H -> slice d' (y * W) W = px k y.
Proof.
  intros F h W H N off len k px d p e B HF EX EY EB HW HH Hk EO EL (HS & HC) LD HWH Hp. unfold sgi_plane. rewrite EX, EY, EB.
  set (I := fun y (st : bool * list Z * reader) => exists d' p', st = (true, d', Rd F p' (zlen F) e) /\ 0 <= p' <= zlen F /\ zlen d' = W * H /\ forall t, 0 <= t < y -> slice d' (t * W) W = px k t).
  match goal with |- context [loop 0 H ?b ?s] => destruct (loop_rule _ I 0 H b s) as (st & E & d' & p' & -> & Hp' & Ld & G) end.
  - lia.
  - exists d, p. repeat match goal with |- _ /\ _ => split end; auto; try lia.
  - intros y st Hy (d1 & p1 & -> & Hp1 & L1 & G1). cbn [negb]. cbv iota.
    assert (BK : 0 <= k * H /\ k * H + H <= N * H). { assert (0 <= k * H) by (apply Z.mul_nonneg_nonneg; lia). assert (M : (k + 1) * H <= N * H) by (apply Z.mul_le_mono_nonneg_r; lia). lia. }
    assert (BY : 0 <= y * W /\ y * W + W <= W * H). { assert (0 <= y * W) by (apply Z.mul_nonneg_nonneg; lia). assert (M : (y + 1) * W <= H * W) by (apply Z.mul_le_mono_nonneg_r; lia). lia. }
    rewrite (entry_ok F 512 off (4 * (N * H)) (y + k * H)) by (auto; lia). cbn [bind]. rewrite (entry_ok F (512 + 4 * (N * H)) len (4 * (N * H)) (y + k * H)) by (auto; lia). cbn [bind].
    destruct (HC k y ltac:(lia) Hy) as (code & C & LP & CL & CF & SC). cbv zeta in *. replace (y + k * H) with (k * H + y) by lia.
    assert (QO := be4_pos F (512 + 4 * (k * H + y)) B ltac:(lia) ltac:(lia)). assert (QL := be4_pos F (512 + 4 * (N * H) + 4 * (k * H + y)) B ltac:(lia) ltac:(lia)).
    set (o := be4 F (512 + 4 * (k * H + y))) in *. set (ln := be4 F (512 + 4 * (N * H) + 4 * (k * H + y))) in *. clearbody o ln.
    assert (0 <= zlen code) by auto. rewrite seek_set by lia. cbn [bind]. unfold iGetScanLine. rewrite EX, EB, !Z.mul_1_r. rewrite (u32_small (y * W)) by lia.
    destruct (scan_ok code (px k y) C) with (F := F) (W := W) (Len := ln) (base := y * W) (fuel := Z.to_nat W) (br := 0) (cp := 0) (p := o) (e := e) (d := d1) as (p2 & E2 & Hp2); try lia.
    { rewrite <- SC. apply bytes_slice; auto; lia. } { auto. }
    rewrite E2. cbn [bind]. rewrite Z.eqb_refl. eexists. split; [reflexivity|]. exists (splice d1 (y * W + 0) (px k y)), p2. rewrite Z.add_0_r in *. split; [reflexivity|]. split; [lia|].
    rewrite zlen_splice by lia. split; [lia|]. intros t Ht. destruct (Z.eq_dec t y) as [->|Hne].
    + assert (X := slice_splice_same d1 (y * W) (px k y)). rewrite LP in X. apply X; lia.
    + assert (M : (t + 1) * W <= y * W) by (apply Z.mul_le_mono_nonneg_r; lia). assert (0 <= t * W) by (apply Z.mul_nonneg_nonneg; lia). rewrite slice_splice_other by lia. apply G1. lia.
  - rewrite E. exists d', p'. auto.
Qed.

(** ** All planes *)
Lemma planes_ok : forall F h W H N off len px ps k p e, bytes F -> 0 < zlen F < 2147483648 -> SX h = W -> SY h = H -> SBpc h = 1 -> 1 <= W < 65536 -> 1 <= H -> 0 <= k -> k + zlen ps = N ->
  off = slice F 512 (4 * (N * H)) -> len = slice F (512 + 4 * (N * H)) (4 * (N * H)) -> sgi_coded F W H N px -> Forall (fun d => zlen d = W * H) ps -> W * H < 4294967296 -> 0 <= p <= zlen F ->
  exists ps' r, sgi_planes h off len k ps (Rd F p (zlen F) e) = Ok (true, ps', r) /\
    forall c, k <= c < N -> exists d, nth_error ps' (Z.to_nat (c - k)) = Some d /\ zlen d = W * H /\ forall y, 0 <= y < H -> slice d (y * W) W = px c y.
Proof.
  intros F h W H N off len px ps. induction ps as [|d ps IH]; intros k p e B HF EX EY EB HW HH Hk EN EO EL HC FA HWH Hp; cbn [sgi_planes].
  - change (zlen (@nil (list Z))) with 0 in EN. do 2 eexists. split; [reflexivity|]. intros; lia.
  - apply Forall_cons_iff in FA. destruct FA as (LD & FA). assert (Lc : zlen (d :: ps) = 1 + zlen ps) by (unfold zlen; cbn [length]; lia). assert (0 <= zlen ps) by (unfold zlen; lia). rewrite Lc in *.
    destruct (plane_ok F h W H N off len k px d p e) as (d' & p' & E & Hp' & Ld & G); auto; try lia. rewrite E. cbn [bind negb]. cbv iota.
    destruct (IH (k + 1) p' e) as (ps' & r & E2 & G2); auto; try lia.
    rewrite E2. cbn [bind]. do 2 eexists. split; [reflexivity|].
    intros c Hc. destruct (Z.eq_dec c k) as [->|Hne].
    + rewrite Z.sub_diag. exists d'. split; [reflexivity|]. auto.
    + destruct (G2 c ltac:(lia)) as (d2 & X & Y). exists d2. replace (Z.to_nat (c - k)) with (S (Z.to_nat (c - (k + 1)))) by lia. split; [exact X|exact Y].
Qed.

Lemma fresh_ok : forall alloc n size, allocator_ok alloc -> alloc size <> None -> exists ps, fresh_planes alloc n size = Some ps /\ zlen ps = Z.of_nat n /\ Forall (fun d => zlen d = size) ps.
Proof.
  intros alloc n size HA Hn. induction n as [|n (ps & E & L & FA)]; cbn [fresh_planes].
  - exists []. repeat split; auto.
  - destruct (alloc size) as [b|] eqn:EA; [|congruence]. rewrite E. exists (b :: ps). split; [reflexivity|]. split; [unfold zlen in *; cbn [length]; lia|]. constructor; auto.
Qed.

(** ** Putting the planes together *)
Lemma assemble_ok : forall h n N ps d, SZ_ h = N -> SBpc h = 1 -> 1 <= N -> 0 <= n -> n * N + N <= 4294967296 -> zlen d = n * N ->
  (forall c, 0 <= c < N -> exists q, nth_error ps (Z.to_nat c) = Some q /\ zlen q = n) ->
  exists d', sgi_assemble h (n * N) ps d = Ok d' /\ zlen d' = n * N /\
    forall i c q, 0 <= i < n -> 0 <= c < N -> nth_error ps (Z.to_nat c) = Some q -> geti d' (i * N + c) = geti q i.
Proof.
  intros h n N ps d EZ EB HN Hn Hw L HP. unfold sgi_assemble. rewrite EZ, EB, !Z.mul_1_r.
  set (I := fun q d' => zlen d' = n * N /\ forall i c b, 0 <= i < q -> 0 <= c < N -> nth_error ps (Z.to_nat c) = Some b -> geti d' (i * N + c) = geti b i).
  match goal with |- context [stride 0 (n * N) N ?b d] => destruct (stride_cols _ I n N 0 b d) as (d' & E & Ld & G) end; try lia.
  - split; [auto|]. intros; lia.
  - intros q d1 Hq (L1 & G1). rewrite Z.add_0_l. rewrite Z.mul_1_r. rewrite Z.div_mul by lia.
    assert (BQ : 0 <= q * N /\ q * N + N <= n * N). { assert (0 <= q * N) by (apply Z.mul_nonneg_nonneg; lia). assert (M : (q + 1) * N <= n * N) by (apply Z.mul_le_mono_nonneg_r; lia). lia. }
    set (J := fun k d' => zlen d' = n * N /\ forall i c b, 0 <= i <= q -> 0 <= c < N -> (i < q \/ c < k) -> nth_error ps (Z.to_nat c) = Some b -> geti d' (i * N + c) = geti b i).
    match goal with |- context [loop 0 N ?b d1] => destruct (loop_rule _ J 0 N b d1) as (d2 & E2 & L2 & G2) end.
    + lia.
    + split; [auto|]. intros i c b Hi Hc Hor Hb. apply G1; auto; lia.
    + intros k d2 Hk (L2 & G2). rewrite Z.mul_1_r. destruct (HP k Hk) as (b & Eb & Lb). unfold tempdata at 1. rewrite Eb. rewrite rd_ok by lia. cbn [bind]. rewrite wr_ok by lia. cbn [bind].
      change (1 =? 2) with false. cbv iota. eexists. split; [reflexivity|]. split; [rewrite zlen_upd; auto; lia|]. intros i c b' Hi Hc Hor Hb'.
      assert (Hi2 : 0 <= i * N) by (apply Z.mul_nonneg_nonneg; lia). rewrite geti_upd by lia. destruct (i * N + c =? q * N + k) eqn:Q.
      * assert (HH : i = q /\ c = k). { assert (X : (i * N + c) / N = (q * N + k) / N) by (f_equal; lia). rewrite !Z.div_add_l, !Z.div_small in X by lia. assert (i = q) by lia. subst i. lia. }
        destruct HH as (-> & ->). congruence.
      * apply G2; auto. destruct Hor as [Ho|Ho]; [auto|]. destruct (Z.eq_dec c k) as [->|]; [|lia]. left. assert (i <> q) by (intros ->; lia). lia.
    + rewrite E2. exists d2. split; [reflexivity|]. split; [auto|]. intros i c b Hi Hc Hb. apply G2; auto; lia.
  - rewrite E. exists d'. split; [reflexivity|]. split; [auto|]. intros i c q Hi Hc Hq. apply G; auto.
Qed.

Lemma sgi_check : forall st dim W H N mn, st = 0 \/ st = 1 -> dim <> 0 -> 1 <= W -> 1 <= H -> 1 <= N -> iCheckSgi (mkSgi 474 st 1 dim W H N mn) = true.
Proof.
  intros st dim W H N mn Hst Hd HW HH HN. unfold iCheckSgi. cbn [SMagic SStorage SBpc SDim SX SY SZ_]. change (474 =? 474) with true. cbn [negb]. cbv iota.
  replace (negb (st =? 1) && negb (st =? 0)) with false by (destruct Hst as [-> | ->]; reflexivity). cbv iota. change (1 =? 0) with false. cbn [orb]. replace (dim =? 0) with false by lia. cbv iota.
  replace (W =? 0) with false by lia. replace (H =? 0) with false by lia. replace (N =? 0) with false by lia. reflexivity.
Qed.

Lemma sgi_picture : forall W H N d x t c, picture (sgi_img W H N d) d x t 0 c = geti d (((H - 1 - t) * W + x) * N + c).
Proof. intros W H N d x t c. unfold picture, pix_off, sgi_img. cbn [Origin Height Width Bpp Bpc]. change (IL_ORIGIN_LOWER_LEFT =? IL_ORIGIN_UPPER_LEFT) with false. cbv iota. f_equal. ring. Qed.

(** C92a: a verbatim file with one byte per channel is loaded into the picture it describes. *)
Theorem C92_verbatim : forall alloc old u2 u4 F W H N, allocator_ok alloc -> bytes F -> sgi_head F 0 1 W H N -> N = 1 \/ N = 3 \/ N = 4 -> 1 <= W -> 1 <= H ->
  512 + N * (W * H) <= zlen F -> zlen F < 4294967295 -> (forall i, zlen (u2 i) = 2) -> (forall i, zlen (u4 i) = 4) -> alloc (W * N * H) <> None ->
  exists im buf, ilLoadSgiL alloc old u2 u4 F = Ok (true, im, []) /\ img_ok im buf /\
    Width im = W /\ Height im = H /\ Depth im = 1 /\ Bpp im = N /\ Bpc im = 1 /\ Format im = sgi_format N /\ Type_ im = IL_UNSIGNED_BYTE /\
    forall x t c, 0 <= x < W -> 0 <= t < H -> 0 <= c < N -> picture im buf x t 0 c = sgi_verbatim F W H c t x.
Proof.
  intros alloc old u2 u4 F W H N HA B HD HN HW HH HF HM U2 U4 Hn. assert (P0 : 0 < W * H) by (apply Z.mul_pos_pos; lia). assert (EN : W * N * H = W * H * N) by ring.
  unfold ilLoadSgiL, iLoadSgiInternal. assert (512 <= zlen F) by apply HD. rewrite get_head by (auto; lia). cbn [bind].
  destruct (head_layout F 0 W H N B HD (or_introl eq_refl)) as (mn & -> & Hmn). assert (HDm : be2 F 4 <> 0) by apply HD.
  rewrite sgi_check by (auto; lia). cbn [negb]. cbv iota. cbn [SZ_]. replace (N =? 2) with false by lia. cbv iota. cbn [SStorage]. change (0 =? 1) with false. cbv iota.
  unfold iReadNonRleSgi. destruct (alloc (W * N * H)) as [blk|] eqn:EA; [|congruence]. assert (LB := HA _ _ EA).
  rewrite (new_sgi alloc old _ W H N blk) by (auto; lia). cbn [bind negb]. cbv iota. change (Data (sgi_img W H N blk)) with (Some blk). change (Bpp (sgi_img W H N blk)) with N. change (SizeOfData (sgi_img W H N blk)) with (W * N * H). cbv iota. rewrite EN.
  destruct (plain_ok F 512 [] blk (W * H) N) as (d' & r & E & Ld & G); try lia.
  rewrite E. cbn [bind]. exists (sgi_img W H N d'), d'. split; [reflexivity|]. split; [apply sgi_img_ok; lia|]. do 7 (split; [reflexivity|]).
  intros x t c Hx Ht Hc. rewrite sgi_picture.
  assert (BI : 0 <= (H - 1 - t) * W /\ (H - 1 - t) * W + W <= W * H). { assert (0 <= (H - 1 - t) * W) by (apply Z.mul_nonneg_nonneg; lia). assert (M : (H - 1 - t + 1) * W <= H * W) by (apply Z.mul_le_mono_nonneg_r; lia). lia. }
  rewrite G by lia. unfold sgi_verbatim. f_equal. lia.
Qed.
Print Assumptions C92_verbatim.

(** C92b: so is a run-length encoded one: every stream of packets that the specification allows, wherever the
    offset table places it; lines may share their code. *)
Theorem C92_rle : forall alloc old u2 u4 F W H N px, allocator_ok alloc -> bytes F -> sgi_head F 1 1 W H N -> N = 1 \/ N = 3 \/ N = 4 -> 1 <= W -> 1 <= H ->
  sgi_coded F W H N px -> zlen F < 2147483648 -> W * H * N < 2147483648 -> (forall i, zlen (u2 i) = 2) -> (forall i, zlen (u4 i) = 4) ->
  alloc (W * N * H) <> None -> alloc (H * N * 4) <> None -> alloc (N * 8) <> None -> alloc (W * H) <> None ->
  exists im buf, ilLoadSgiL alloc old u2 u4 F = Ok (true, im, []) /\ img_ok im buf /\
    Width im = W /\ Height im = H /\ Depth im = 1 /\ Bpp im = N /\ Bpc im = 1 /\ Format im = sgi_format N /\ Type_ im = IL_UNSIGNED_BYTE /\
    forall x t c, 0 <= x < W -> 0 <= t < H -> 0 <= c < N -> picture im buf x t 0 c = geti (px c (H - 1 - t)) x.
Proof.
  intros alloc old u2 u4 F W H N px HA B HD HN HW HH HC HM HS U2 U4 Hn Hn1 Hn2 Hn3. assert (P0 : 0 < W * H) by (apply Z.mul_pos_pos; lia). assert (EN : W * N * H = W * H * N) by ring.
  assert (P1 : W * H * 1 <= W * H * N) by (apply Z.mul_le_mono_nonneg_l; lia). assert (P2 : 0 < N * H) by (apply Z.mul_pos_pos; lia). assert (C0 := HC). destruct C0 as (HS0 & _).
  unfold ilLoadSgiL, iLoadSgiInternal. assert (512 <= zlen F) by apply HD. rewrite get_head by (auto; lia). cbn [bind].
  assert (W16 : W < 65536). { destruct HD as (_ & _ & _ & _ & _ & <- & _). unfold be2. assert (0 <= geti F 6 < 256) by (apply B; lia). assert (0 <= geti F (6 + 1) < 256) by (apply B; lia). lia. }
  destruct (head_layout F 1 W H N B HD (or_intror eq_refl)) as (mn & -> & Hmn). assert (HDm : be2 F 4 <> 0) by apply HD.
  rewrite sgi_check by (auto; lia). cbn [negb]. cbv iota. cbn [SZ_]. replace (N =? 2) with false by lia. cbv iota. cbn [SStorage]. change (1 =? 1) with true. cbv iota.
  unfold iReadRleSgi. destruct (alloc (W * N * H)) as [blk|] eqn:EA; [|congruence]. assert (LB := HA _ _ EA).
  set (h := mkSgi 474 1 1 (be2 F 4) W H N mn). rewrite (new_sgi alloc old h W H N blk) by (auto; lia). cbn [bind negb]. cbv iota.
  change (SX h) with W. change (SY h) with H. change (SZ_ h) with N. change (SBpc h) with 1. rewrite !Z.mul_1_r.
  destruct (alloc (H * N * 4)) as [tb|] eqn:ET; [|congruence]. assert (LT := HA _ _ ET).
  assert (RT : forall p e, 0 <= p -> p + 4 * (N * H) <= zlen F -> iReadLump tb (H * N * 4) 1 (Rd F p (zlen F) e) = Ok (1, slice F p (4 * (N * H)), Rd F (p + 4 * (N * H)) (zlen F) e)).
  { intros p e Hp Hpf. rewrite (C21_read F) by (try (split; [reflexivity|cbn; lia]); lia). cbn [rpos rerr]. cbv zeta. rewrite Z.mul_1_r. replace (H * N * 4) with (4 * (N * H)) by ring. rewrite rest_slice.
    assert (LS : zlen (slice F p (4 * (N * H))) = 4 * (N * H)) by (apply zlen_slice; lia). rewrite LS, Z.div_same by lia. rewrite skipn_all2 by (unfold zlen in *; lia). rewrite !app_nil_r. reflexivity. }
  rewrite RT by lia. cbn [bind]. change (1 =? 1) with true. cbn [negb]. cbv iota. rewrite RT by lia. cbn [bind]. change (1 =? 1) with true. cbn [negb]. cbv iota.
  replace (2147483647 <? W * H) with false by lia. destruct (alloc (N * 8)) as [pp|] eqn:EP; [|congruence].
  destruct (fresh_ok alloc (Z.to_nat N) (W * H) HA Hn3) as (ps & -> & LP & FP). rewrite Z2Nat.id in LP by lia.
  destruct (planes_ok F h W H N (slice F 512 (4 * (N * H))) (slice F (512 + 4 * (N * H)) (4 * (N * H))) px ps 0 (512 + 4 * (N * H) + 4 * (N * H)) []) as (ps' & r & E & G); auto; try lia.
  change (1 =? 2) with false. rewrite E. cbn [bind negb]. cbv iota. change (Data (sgi_img W H N blk)) with (Some blk). change (SizeOfData (sgi_img W H N blk)) with (W * N * H). cbv iota. rewrite EN.
  destruct (assemble_ok h (W * H) N ps' blk) as (d' & E2 & Ld & G2); try reflexivity; try lia.
  { intros c Hc. destruct (G c ltac:(lia)) as (q & X & Y & _). rewrite Z.sub_0_r in X. exists q. auto. }
  rewrite E2. cbn [bind]. exists (sgi_img W H N d'), d'. split; [reflexivity|]. split; [apply sgi_img_ok; lia|]. do 7 (split; [reflexivity|]).
  intros x t c Hx Ht Hc. rewrite sgi_picture.
  assert (BI : 0 <= (H - 1 - t) * W /\ (H - 1 - t) * W + W <= W * H). { assert (0 <= (H - 1 - t) * W) by (apply Z.mul_nonneg_nonneg; lia). assert (M : (H - 1 - t + 1) * W <= H * W) by (apply Z.mul_le_mono_nonneg_r; lia). lia. }
  destruct (G c ltac:(lia)) as (q & X & Y & Z0). rewrite Z.sub_0_r in X. rewrite (G2 _ c q) by (auto; lia). rewrite <- (Z0 (H - 1 - t)) by lia. rewrite geti_slice by lia. reflexivity.
Qed.
Print Assumptions C92_rle.
