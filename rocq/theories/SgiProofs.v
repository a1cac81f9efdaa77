(** Proofs about SGI images: the header, verbatim planes, run-length encoded lines. *)
From Coq Require Import ZArith List Lia Bool.
From Verif Require Import Base Slices Elem BitLemmas Enums Utility Image ImageSpec Flip Lump LumpSpec LumpProofs LumpProps CacheProps Channels Endian EndianProps Rle RleSpec Pcx PcxProofs TgaProofs TgaRle BmpDecode Sgi SgiSpec.
Import ListNotations.
Open Scope Z_scope.

Lemma be2_swap : forall a b, 0 <= a < 256 -> 0 <= b < 256 -> iSwapUShort (a + 256 * b) = 256 * a + b.
Proof. intros a b Ha Hb. rewrite swap16 by lia. lia. Qed.
Lemma be4_swap : forall a b c d, 0 <= a < 256 -> 0 <= b < 256 -> 0 <= c < 256 -> 0 <= d < 256 ->
  iSwapUInt (a + 256 * (b + 256 * (c + 256 * (d + 256 * 0)))) = 16777216 * a + 65536 * b + 256 * c + d.
Proof.
  intros a b c d Ha Hb Hc Hd. set (v := 16777216 * a + 65536 * b + 256 * c + d). assert (Hv : 0 <= v < 4294967296) by lia.
  assert (X : a + 256 * (b + 256 * (c + 256 * (d + 256 * 0))) = iSwapUInt v).
  { rewrite swap32 by lia. assert (v / 16777216 = a) by (unfold v; clear - Ha Hb Hc Hd; lia). assert (v / 65536 mod 256 = b) by (unfold v; clear - Ha Hb Hc Hd; lia).
    assert (v / 256 mod 256 = c) by (unfold v; clear - Ha Hb Hc Hd; lia). assert (v mod 256 = d) by (unfold v; clear - Ha Hb Hc Hd; lia). lia. }
  rewrite X. apply swap32_twice. lia.
Qed.

Lemma getb2_in : forall F p e stk, bytes F -> 0 <= p -> p + 2 <= zlen F -> zlen F < 4294967295 -> zlen stk = 2 ->
  GetBigUShort stk (Rd F p (zlen F) e) = Ok (be2 F p, Rd F (p + 2) (zlen F) e).
Proof.
  intros F p e stk B H1 H2 H3 H4. assert (E := get2_in F p e stk H1 H2 H3 H4). unfold GetLittleUShort in E. unfold GetBigUShort. rewrite E. cbn [bind].
  rewrite be2_swap by (apply B; lia). reflexivity.
Qed.
Lemma slice4 : forall F p, 0 <= p -> p + 4 <= zlen F -> slice F p 4 = [geti F p; geti F (p + 1); geti F (p + 2); geti F (p + 3)].
Proof.
  intros F p H1 H2. change 4 with (1 + (1 + (1 + (1 + 0)))). rewrite !slice_cons by lia. rewrite slice_0. replace (p + 1 + 1) with (p + 2) by lia. replace (p + 2 + 1) with (p + 3) by lia. reflexivity.
Qed.
Lemma getb4_in : forall F p e stk, bytes F -> 0 <= p -> p + 4 <= zlen F -> zlen F < 4294967295 -> zlen stk = 4 ->
  GetBigInt stk (Rd F p (zlen F) e) = Ok (signed 4 (be4 F p), Rd F (p + 4) (zlen F) e).
Proof.
  intros F p e stk B H1 H2 H3 H4. unfold GetBigInt, get.
  rewrite (C21_read F (Rd F p (zlen F) e) stk 4 1) by (try (split; [reflexivity|cbn; lia]); lia). cbn [rpos rerr]. cbv zeta. change (4 * 1) with 4. rewrite rest_slice.
  assert (LS : zlen (slice F p 4) = 4) by (apply zlen_slice; lia). rewrite LS. change (4 / 4 =? 1) with true. rewrite skipn_all2 by (unfold zlen in *; lia). rewrite !app_nil_r. cbn [bind].
  rewrite slice4 by lia. cbn [unle]. rewrite be4_swap by (apply B; lia). reflexivity.
Qed.

(** ** The header *)
Definition head_of (F : list Z) : sgihead :=
  mkSgi (be2 F 0) (signed 1 (u8 (geti F 2))) (signed 1 (u8 (geti F 3))) (be2 F 4) (be2 F 6) (be2 F 8) (be2 F 10) (signed 4 (be4 F 12)).
Lemma get_head : forall F u2 u4, bytes F -> 512 <= zlen F < 4294967295 -> (forall i, zlen (u2 i) = 2) -> (forall i, zlen (u4 i) = 4) ->
  iGetSgiHead u2 u4 (iSetInputLump F (zlen F)) = Ok (head_of F, Rd F 512 (zlen F) []).
Proof.
  intros F u2 u4 B HF H2 H4. unfold iGetSgiHead, iSetInputLump.
  rewrite getb2_in by (auto; lia). cbn [bind]. do 2 (rewrite getc_in by lia; cbn [bind]). do 4 (rewrite getb2_in by (auto; lia); cbn [bind]).
  do 3 (rewrite getb4_in by (auto; lia); cbn [bind]). rewrite read_in by (rewrite ?zlen_repeat; lia). cbn [bind]. rewrite getb4_in by (auto; lia). cbn [bind].
  rewrite read_in by (rewrite ?zlen_repeat; lia). cbn [bind]. reflexivity.
Qed.

Lemma head_layout : forall F st W H N, bytes F -> sgi_head F st 1 W H N -> st = 0 \/ st = 1 ->
  exists mn, head_of F = mkSgi 474 st 1 (be2 F 4) W H N mn /\ 0 <= mn.
Proof.
  intros F st W H N B (L & M & S & Bp & D & X & Y & Z0 & P) Hst. unfold head_of. rewrite M, S, Bp, X, Y, Z0.
  replace (signed 1 (u8 st)) with st by (destruct Hst as [-> | ->]; reflexivity). change (signed 1 (u8 1)) with 1. eexists. split; [reflexivity|].
  unfold signed. change (2 ^ (8 * 4 - 1)) with 2147483648. unfold be4.
  assert (0 <= geti F 12 < 256) by (apply B; lia). assert (0 <= geti F (12 + 1) < 256) by (apply B; lia). assert (0 <= geti F (12 + 2) < 256) by (apply B; lia). assert (0 <= geti F (12 + 3) < 256) by (apply B; lia).
  replace (_ <? 2147483648) with true by lia. lia.
Qed.

(** ** A new image *)
Definition sgi_img (W H N : Z) (d : list Z) : img :=
  mkImg W H 1 N 1 (W * N) (Some d) (W * N * H) (W * N * H) (sgi_format N) IL_UNSIGNED_BYTE IL_ORIGIN_LOWER_LEFT (mkPal None 0 IL_PAL_NONE) 0 0 0 0.
Lemma new_sgi : forall alloc old h W H N blk, allocator_ok alloc -> SX h = W -> SY h = H -> SZ_ h = N -> SBpc h = 1 -> 0 <= SMin h -> 1 <= W -> 1 <= H -> N = 1 \/ N = 3 \/ N = 4 ->
  W * N * H < 4294967296 -> alloc (W * N * H) = Some blk -> iNewSgi alloc old h = Ok (true, sgi_img W H N blk, []).
Proof.
  intros alloc old h W H N blk HA EX EY EZ EB EM HW HH HN HS EA. unfold iNewSgi. rewrite EX, EY, EZ, EB. change (u32 1) with 1. rewrite u8_small by lia.
  rewrite (init_ok alloc old W H N 0 blk) by (auto; lia). cbn [bind negb]. unfold sgi_img, sgi_format. replace (SMin h <? 0) with false by lia.
  destruct HN as [-> | [-> | ->]]; reflexivity.
Qed.
Lemma sgi_img_ok : forall W H N d, 1 <= W -> 1 <= H -> 1 <= N < 256 -> W * N * H < 4294967296 -> zlen d = W * N * H -> img_ok (sgi_img W H N d) d.
Proof.
  intros W H N d HW HH HN HS L. unfold img_ok, sgi_img. cbn [Data Width Height Depth Bpp Bpc Bps SizeOfPlane SizeOfData]. change (2 ^ 32) with 4294967296.
  repeat match goal with |- _ /\ _ => split end; auto; try lia; try ring.
Qed.

(** ** Loops over one channel *)
Lemma stride_cols : forall S (I : Z -> S -> Prop) n st lo (body : Z -> S -> res S) s, 0 < st -> 0 <= lo < st -> 0 <= n -> n * st + st <= 4294967296 -> I 0 s ->
  (forall k s, 0 <= k < n -> I k s -> exists s', body (lo + k * st) s = Ok s' /\ I (k + 1) s') ->
  exists s', stride lo (n * st) st body s = Ok s' /\ I n s'.
Proof.
  intros S I n st lo body s Hst Hlo Hn Hw H0 HS. unfold stride.
  assert (G : forall f k s, 0 <= k <= n -> n - k <= Z.of_nat f -> I k s -> exists s', stride_ f (n * st) st body (lo + k * st) s = Ok s' /\ I n s').
  { induction f as [|f IH]; intros k t Hk Hf It; cbn [stride_].
    - assert (k = n) by lia. subst k. replace (lo + n * st <? n * st) with false by lia. exists t. auto.
    - destruct (Z.eq_dec k n) as [->|Hne]; [replace (lo + n * st <? n * st) with false by lia; exists t; auto|].
      assert (0 <= k * st) by (apply Z.mul_nonneg_nonneg; lia). assert (M : (k + 1) * st <= n * st) by (apply Z.mul_le_mono_nonneg_r; lia). rewrite Z.mul_add_distr_r in M.
      replace (lo + k * st <? n * st) with true by lia. destruct (HS k t ltac:(lia) It) as (t' & -> & It'). cbn [bind]. rewrite u32_small by lia.
      replace (lo + k * st + st) with (lo + (k + 1) * st) by ring. apply IH; auto; lia. }
  assert (n * 1 <= n * st) by (apply Z.mul_le_mono_nonneg_l; lia). assert (X := G (Z.to_nat (n * st)) 0 s ltac:(lia) ltac:(lia) H0). rewrite Z.mul_0_l, Z.add_0_r in X. exact X.
Qed.

(** ** Verbatim planes *)
Lemma read_byte : forall F p e d i, 0 <= p < zlen F -> zlen F < 4294967295 -> 0 <= i < zlen d ->
  exists d', iReadLump (slice d i (zlen d - i)) 1 1 (Rd F p (zlen F) e) = Ok (1, d', Rd F (p + 1) (zlen F) e) /\
    zlen (splice d i d') = zlen d /\ forall j, 0 <= j -> geti (splice d i d') j = if j =? i then geti F p else geti d j.
Proof.
  intros F p e d i Hp HF Hi. rewrite read_into; try lia. 2:{ rewrite zlen_slice; lia. } eexists. split; [reflexivity|].
  assert (LS : zlen (slice F p 1) = 1) by (apply zlen_slice; lia).
  assert (ES : splice d i (slice F p 1 ++ skipn (Z.to_nat 1) (slice d i (zlen d - i))) = splice d i (slice F p 1)).
  { rewrite <- LS at 2. apply splice_tail; lia. }
  rewrite ES, zlen_splice by lia. split; [reflexivity|]. intros j Hj. rewrite geti_splice, LS by lia.
  destruct (j =? i) eqn:E.
  - replace ((i <=? j) && (j <? i + 1)) with true by lia. rewrite geti_slice by lia. f_equal. lia.
  - replace ((i <=? j) && (j <? i + 1)) with false by lia. reflexivity.
Qed.

Lemma plain_ok : forall F p0 e d n N, 0 <= p0 -> 1 <= N -> 0 <= n -> n * N + N <= 4294967296 -> p0 + N * n <= zlen F -> 0 < zlen F < 4294967295 -> zlen d = n * N ->
  exists d' r, sgi_plain N (n * N) d (Rd F p0 (zlen F) e) = Ok (true, d', r) /\ zlen d' = n * N /\
    forall i k, 0 <= i < n -> 0 <= k < N -> geti d' (i * N + k) = geti F (p0 + k * n + i).
Proof.
  intros F p0 e d n N H0 HN Hn Hw HF Hm L. unfold sgi_plain.
  set (I := fun c (st : bool * list Z * reader) => exists d' , st = (true, d', Rd F (p0 + c * n) (zlen F) e) /\ zlen d' = n * N /\ forall i k, 0 <= i < n -> 0 <= k < c -> geti d' (i * N + k) = geti F (p0 + k * n + i)).
  match goal with |- context [loop 0 N ?b ?s] => destruct (loop_rule _ I 0 N b s) as (st & E & d' & -> & Ld & G) end.
  - lia.
  - exists d. rewrite Z.mul_0_l, Z.add_0_r. split; [reflexivity|]. split; [auto|]. intros; lia.
  - intros c st Hc (d1 & -> & L1 & G1).
    set (J := fun q (st : bool * list Z * reader) => exists d' , st = (true, d', Rd F (p0 + c * n + q) (zlen F) e) /\ zlen d' = n * N /\
       forall i k, 0 <= i < n -> 0 <= k < N -> geti d' (i * N + k) = if (k <? c) || ((k =? c) && (i <? q)) then geti F (p0 + k * n + i) else geti d1 (i * N + k)).
    match goal with |- context [stride c (n * N) N ?b ?s] => destruct (stride_cols _ J n N c b s) as (st & E & d' & -> & Ld & G) end; try lia.
    + exists d1. rewrite Z.add_0_r. split; [reflexivity|]. split; [auto|]. intros i k Hi Hk. destruct (k <? c) eqn:Q; cbn [orb]; [apply G1; lia|].
      replace ((k =? c) && (i <? 0)) with false by lia. reflexivity.
    + intros q st Hq (d2 & -> & L2 & G2). cbn [negb]. cbv iota.
      assert (B : 0 <= q * N /\ q * N + N <= n * N). { assert (0 <= q * N) by (apply Z.mul_nonneg_nonneg; lia). assert (M : (q + 1) * N <= n * N) by (apply Z.mul_le_mono_nonneg_r; lia). lia. }
      assert (B2 : 0 <= c * n /\ c * n + n <= N * n). { assert (0 <= c * n) by (apply Z.mul_nonneg_nonneg; lia). assert (M : (c + 1) * n <= N * n) by (apply Z.mul_le_mono_nonneg_r; lia). lia. }
      destruct (read_byte F (p0 + c * n + q) e d2 (c + q * N)) as (b & Eb & Lb & Gb); try lia.
      rewrite Eb. cbn [bind]. eexists. split; [reflexivity|]. exists (splice d2 (c + q * N) b). change (1 =? 1) with true. rewrite <- (Z.add_assoc (p0 + c * n)). split; [reflexivity|]. split; [lia|].
      intros i k Hi Hk. assert (0 <= i * N) by (apply Z.mul_nonneg_nonneg; lia). rewrite Gb, G2 by lia.
      destruct (i * N + k =? c + q * N) eqn:Q.
      * assert (HH : i = q /\ k = c). { assert (X : (i * N + k) / N = (q * N + c) / N) by (f_equal; lia). rewrite !Z.div_add_l, !Z.div_small in X by lia. assert (i = q) by lia. subst i. lia. }
        destruct HH as (-> & ->). replace ((c <? c) || ((c =? c) && (q <? q + 1))) with true by lia. reflexivity.
      * destruct ((k =? c) && (i <? q + 1)) eqn:Q2.
        -- assert (i <> q) by (intros ->; lia). replace ((k =? c) && (i <? q)) with true by lia. reflexivity.
        -- replace ((k =? c) && (i <? q)) with false by lia. reflexivity.
    + rewrite E. eexists. split; [reflexivity|]. exists d'. split; [do 2 f_equal; ring|]. split; [auto|]. intros i k Hi Hk. rewrite G by lia.
      replace ((k <? c) || ((k =? c) && (i <? n))) with true by lia. reflexivity.
  - rewrite E. do 2 eexists. split; [reflexivity|]. split; [auto|]. intros i k Hi Hk. apply G; lia.
Qed.

(** ** One run-length encoded line *)
Lemma run_ok : forall Count v d p, 0 <= Count -> 0 <= v < 256 -> 0 <= p -> p + Count <= zlen d ->
  sgi_run 1 Count v d p = Ok (splice d p (rep (Z.to_nat Count) [v])).
Proof.
  intros Count v d p HC Hv Hp HL. unfold sgi_run.
  match goal with |- loop 0 Count ?b d = _ => destruct (loop_rule _ (fun i s => s = splice d p (rep (Z.to_nat i) [v])) 0 Count b d) as (s & E & ->) end.
  - lia.
  - cbn. rewrite splice_nil by lia. reflexivity.
  - intros i s Hi ->. assert (LR : zlen (rep (Z.to_nat i) [v]) = i) by (rewrite zlen_rep, Z2Nat.id by lia; change (zlen [v]) with 1; lia).
    rewrite Z.mul_1_r. rewrite wr_ok by (rewrite zlen_splice by lia; lia). cbn [bind]. change (1 =? 1) with true. cbv iota. rewrite u8_small by lia. eexists. split; [reflexivity|].
    replace (Z.to_nat (i + 1)) with (S (Z.to_nat i)) by lia. rewrite <- rep_snoc.
    rewrite <- splice_splice_adj by (rewrite ?LR; change (zlen [v]) with 1; lia). rewrite LR. unfold upd. reflexivity.
  - rewrite E. reflexivity.
Qed.

Lemma read1 : forall F p e a, 0 <= p < zlen F -> zlen F < 4294967295 -> iReadLump [a; 0] 1 1 (Rd F p (zlen F) e) = Ok (1, [geti F p; 0], Rd F (p + 1) (zlen F) e).
Proof.
  intros F p e a Hp HF. rewrite read_into by (try change (zlen [a; 0]) with 2; lia). assert (E : slice F p 1 = [geti F p]) by (change 1 with (1 + 0); rewrite slice_cons, slice_0 by lia; reflexivity).
  rewrite E. reflexivity.
Qed.
Lemma code_parts : forall F p h rest_, 0 <= p -> p + (1 + zlen rest_) <= zlen F -> slice F p (1 + zlen rest_) = h :: rest_ -> geti F p = h /\ slice F (p + 1) (zlen rest_) = rest_.
Proof.
  intros F p h l H0 HL E. assert (0 <= zlen l) by auto. rewrite slice_cons in E by lia. injection E as E1 E2. auto.
Qed.
Lemma code_split : forall F p a b, 0 <= p -> p + (zlen a + zlen b) <= zlen F -> slice F p (zlen a + zlen b) = a ++ b -> slice F p (zlen a) = a /\ slice F (p + zlen a) (zlen b) = b.
Proof.
  intros F p a b H0 HL E. assert (0 <= zlen a) by auto. assert (0 <= zlen b) by auto. rewrite slice_split in E by lia.
  apply app_split in E; [|apply zlen_slice; lia]. exact E.
Qed.

Lemma scan_ok : forall code data, sgi_code code data -> bytes code -> forall F W Len base, zlen F < 4294967295 -> W < 65536 -> Len < 4294967296 -> 0 <= base ->
  forall fuel br cp p e d, 0 <= cp -> cp + zlen data = W -> 0 <= br -> br + zlen code <= Len -> base + W <= zlen d -> 0 <= p -> p + zlen code <= zlen F -> slice F p (zlen code) = code -> zlen data <= Z.of_nat fuel ->
  exists p', scan_loop fuel 1 W Len base br cp d (Rd F p (zlen F) e) = Ok (W, splice d (base + cp) data, Rd F p' (zlen F) e) /\ 0 <= p' <= zlen F.
Proof.
  intros code data C. induction C as [|h px code data R L C IH|h b code data R C IH]; intros BC F W Len base HF HW HLen Hbase fuel br cp p e d C0 CW B0 BL LD P0 PF SF FU.
  - change (zlen (@nil Z)) with 0 in *. change (zlen [0]) with 1 in *. exists p. destruct fuel; cbn [scan_loop]; (replace (cp <? W) with false by lia); rewrite andb_false_r; rewrite splice_nil by lia; (split; [do 3 f_equal; lia|lia]).
  - rewrite ?zlen_cons, ?zlen_app in *. assert (0 <= zlen code) by auto. assert (0 <= zlen data) by auto.
    rewrite <- zlen_app in SF, PF. destruct (code_parts F p h (px ++ code)) as (E0 & E1); auto. rewrite zlen_app in E1, SF, PF. destruct (code_split F (p + 1) px code) as (E2 & E3); auto; try lia.
    destruct fuel as [|fuel]; [lia|]. cbn [scan_loop]. replace ((br <? Len) && (cp <? W)) with true by lia.
    rewrite read1 by lia. cbn [bind]. change (1 =? 1) with true. cbn [negb]. cbv iota.
    rewrite E0. assert (EU : unle [h; 0] = h) by (cbn [unle]; lia). rewrite EU.
    assert (E127 : Z.land h 127 = h - 128). { change 127 with (Z.ones 7). rewrite Z.land_ones by lia. change (2 ^ 7) with 128. lia. }
    assert (E128 : (Z.land h 128 =? 0) = false). { change 128 with (2 ^ 7). rewrite land_pow2 by lia. change (2 ^ 7) with 128. lia. }
    rewrite E127, E128. replace (h - 128 =? 0) with false by lia. cbn [negb]. cbv iota. replace (zlen d <? base + cp) with false by lia. cbv iota.
    rewrite <- L. rewrite read_into; try lia. 2:{ rewrite zlen_slice; lia. } cbn [bind]. rewrite Z.eqb_refl. cbn [negb]. cbv iota. rewrite E2.
    rewrite splice_tail by lia. rewrite !Z.mul_1_l. rewrite (u32_small (br + (zlen px + 1))), (u32_small (cp + zlen px)) by lia.
    destruct (IH (fun i Hi => ltac:(assert (X := BC (1 + zlen px + i)); rewrite zlen_cons, zlen_app in X; specialize (X ltac:(lia)); rewrite geti_cons in X by lia; replace (1 + zlen px + i =? 0) with false in X by lia; rewrite geti_app in X by lia; replace (1 + zlen px + i - 1 <? zlen px) with false in X by lia; replace (1 + zlen px + i - 1 - zlen px) with i in X by lia; exact X)) F W Len base HF HW HLen Hbase fuel (br + (zlen px + 1)) (cp + zlen px) (p + 1 + zlen px) e (splice d (base + cp) px)) as (p' & E & Hp'); try lia.
    { rewrite zlen_splice; lia. } { exact E3. }
    exists p'. rewrite E. split; [|auto]. rewrite Z.add_assoc, splice_splice_adj by lia. reflexivity.
  - rewrite ?zlen_cons, ?zlen_app, ?zlen_rep in *. assert (0 <= zlen code) by auto. assert (0 <= zlen data) by auto. change (zlen [b]) with 1 in *. rewrite Z2Nat.id in * by lia.
    assert (Hb : 0 <= b < 256). { assert (X := BC 1). rewrite !zlen_cons in X. apply X. lia. }
    assert (LBC : zlen (b :: code) = 1 + zlen code) by apply zlen_cons.
    destruct (code_parts F p h (b :: code)) as (E0 & E1); auto; [lia|rewrite LBC; exact SF|]. rewrite LBC in E1. destruct (code_parts F (p + 1) b code) as (E2 & E3); auto; [lia|lia|].
    destruct fuel as [|fuel]; [lia|]. cbn [scan_loop]. replace ((br <? Len) && (cp <? W)) with true by lia.
    rewrite read1 by lia. cbn [bind]. change (1 =? 1) with true. cbn [negb]. cbv iota.
    rewrite E0. assert (EU : forall v, unle [v; 0] = v) by (intros v; cbn [unle]; lia). rewrite EU.
    assert (E127 : Z.land h 127 = h). { change 127 with (Z.ones 7). rewrite Z.land_ones by lia. change (2 ^ 7) with 128. lia. }
    assert (E128 : (Z.land h 128 =? 0) = true). { change 128 with (2 ^ 7). rewrite land_pow2 by lia. change (2 ^ 7) with 128. lia. }
    rewrite E127, E128. replace (h =? 0) with false by lia. cbn [negb]. cbv iota.
    rewrite read1 by lia. cbn [bind]. change (1 =? 1) with true. cbn [negb]. cbv iota. rewrite E2, EU.
    rewrite run_ok by lia. cbn [bind]. rewrite !Z.mul_1_l. rewrite (u32_small (br + (1 + 1))), (u32_small (cp + h)) by lia.
    assert (LR : zlen (rep (Z.to_nat h) [b]) = h) by (rewrite zlen_rep, Z2Nat.id by lia; change (zlen [b]) with 1; lia).
    destruct (IH (fun i Hi => ltac:(assert (X := BC (2 + i)); rewrite !zlen_cons in X; specialize (X ltac:(lia)); rewrite geti_cons in X by lia; replace (2 + i =? 0) with false in X by lia; rewrite geti_cons in X by lia; replace (2 + i - 1 =? 0) with false in X by lia; replace (2 + i - 1 - 1) with i in X by lia; exact X)) F W Len base HF HW HLen Hbase fuel (br + (1 + 1)) (cp + h) (p + 1 + 1) e (splice d (base + cp) (rep (Z.to_nat h) [b]))) as (p' & E & Hp'); try lia.
    { rewrite zlen_splice; lia. } { exact E3. }
    exists p'. rewrite E. split; [|auto]. replace (base + (cp + h)) with (base + cp + zlen (rep (Z.to_nat h) [b])) by lia. rewrite splice_splice_adj by lia. reflexivity.
Qed.
