(** The parts of a GIF file: extensions, colours, interlacing, the data of a frame. *)
From Coq Require Import ZArith List Lia Bool.
From Verif Require Import Base Slices BitLemmas Elem Enums Utility Image Lump LumpProofs Endian PcxProofs TgaProofs BmpSpec BmpDecode ConvImgProps PnmProofs Gif GifSpec GifBits GifLzw GifFrame.
Import ListNotations.
Open Scope Z_scope.

(** ** Loops *)
Lemma stride_from : forall S (I : Z -> S -> Prop) lo hi st (body : Z -> S -> res S) s, 0 <= lo -> 0 < st -> 0 <= hi -> hi + st <= 4294967296 -> I lo s ->
  (forall i s, lo <= i < hi -> (i - lo) mod st = 0 -> I i s -> exists s', body i s = Ok s' /\ I (i + st) s') ->
  exists i' s', stride lo hi st body s = Ok s' /\ hi <= i' /\ (i' = lo \/ i' < hi + st) /\ lo <= i' /\ (i' - lo) mod st = 0 /\ I i' s'.
Proof.
  intros S I lo hi st body s Hlo Hst Hhi Hw H0 HS. unfold stride.
  assert (G : forall f i t, lo <= i -> (i - lo) mod st = 0 -> hi <= i + Z.of_nat f -> (i = lo \/ i < hi + st) -> I i t -> exists i' s', stride_ f hi st body i t = Ok s' /\ hi <= i' /\ (i' = lo \/ i' < hi + st) /\ lo <= i' /\ (i' - lo) mod st = 0 /\ I i' s').
  { induction f as [|f IH]; intros i t Hi Hm Hf Hb It; cbn [stride_].
    - replace (i <? hi) with false by lia. exists i, t. split; [reflexivity|]. split; [lia|]. auto.
    - destruct (i <? hi) eqn:Q; [|exists i, t; split; [reflexivity|]; split; [lia|]; auto].
      destruct (HS i t ltac:(lia) Hm It) as (t' & -> & It'). cbn [bind]. rewrite u32_small by lia. apply IH; auto; try lia. replace (i + st - lo) with (i - lo + 1 * st) by ring. rewrite Z.mod_add by lia. exact Hm. }
  apply G; auto; try lia. rewrite Z.sub_diag. apply Z.mod_0_l. lia.
Qed.

(** ** Reading *)
Section Input.
Variables (F : list Z) (us : Z -> list Z).
Hypothesis HF : zlen F < 2147483648.
Hypothesis BF : bytes F.
Hypothesis HU : forall p, zlen (us p) = 2.
Notation R p e := (Rd F p (zlen F) e).

Lemma u2_tail : forall p e v s, tail F p (word v ++ s) -> u2 us (R p e) = Ok (v, R (p + 2) e) /\ tail F (p + 2) s.
Proof.
  intros p e v s T. assert (L := tail_len _ _ _ T). rewrite zlen_app in L. change (zlen (word v)) with 2 in L. assert (0 <= zlen s) by auto. assert (P : 0 <= p) by apply T. unfold u2. cbn [rpos]. rewrite getu2 by (auto; lia). assert (T2 := tail_app _ _ _ _ T). change (zlen (word v)) with 2 in T2. split; [|exact T2].
  unfold word in T. cbn [app] in T. destruct (tail_cons _ _ _ _ T) as (_ & G1 & T1). destruct (tail_cons _ _ _ _ T1) as (_ & G2 & _). unfold word2. rewrite G1, G2. do 2 f_equal. assert (D := Z.div_mod v 256). lia.
Qed.
Lemma forward : forall p e n, 0 <= p -> 0 <= n -> p + n <= zlen F -> iSeekRLump n IL_SEEK_CUR (R p e) = Ok (0, R (p + n) e).
Proof.
  intros p e n Hp Hn HL. unfold iSeekRLump, seek_lump. cbn [rpos Lump.rsize rlump rerr]. change (IL_SEEK_CUR =? IL_SEEK_SET) with false. change (IL_SEEK_CUR =? IL_SEEK_CUR) with true. cbv iota.
  rewrite u32_small by lia. replace (zlen F <? p + n) with false by lia. reflexivity.
Qed.

Lemma skip_blocks_ok : forall data l, sub_blocks data l -> forall p e x s fuel, tail F p (l ++ x :: s) -> (length l < fuel)%nat -> skip_blocks fuel (R p e) = Ok (true, R (p + zlen l) e).
Proof.
  intros data l SB. induction SB as [|a data l Ha SB IH]; intros p e x s fuel T Hf; (destruct fuel as [|fuel]; [lia|]); cbn [skip_blocks].
  - cbn [app] in T. destruct (getc_tail F HF _ _ _ e T) as (-> & T' & P). cbn [bind]. change (0 =? IL_EOF) with false. cbv iota. rewrite forward by lia. cbn [bind]. change (0 =? 0) with true. cbn [negb]. rewrite andb_false_r. rewrite Z.add_0_r. reflexivity.
  - cbn [app] in T. destruct (getc_tail F HF _ _ _ e T) as (-> & T' & P). cbn [bind]. change IL_EOF with (-1). replace (zlen a =? -1) with false by lia. rewrite <- app_assoc in T'. assert (T2 := tail_app _ _ _ _ T'). assert (L := tail_len _ _ _ T2). assert (0 <= zlen (l ++ x :: s)) by auto.
    rewrite forward by lia. cbn [bind]. assert (NE : iEofLump (R (p + 1 + zlen a) e) = false). { destruct l; cbn [app] in T2; eapply not_eof; eauto. } rewrite NE. replace (zlen a =? 0) with false by lia. cbn [negb andb].
    rewrite (IH _ _ x s) by (auto; cbn [length] in Hf; rewrite app_length in Hf; lia). rewrite zlen_cons, zlen_app. do 3 f_equal. lia.
Qed.

(** the control block of the loader is [c] *)
Definition holds_control (g : gfx) (c : option control) : Prop :=
  match c with None => Used g = true | Some c => g = mkGfx false (c_flags c) (c_delay c) (c_index c) end.

Lemma extensions_ok : forall c l c', extensions c l c' -> forall g p e x s fuel, holds_control g c -> tail F p (l ++ x :: s) -> x <> 33 -> (length l < fuel)%nat ->
  exists g', SkipExtensions fuel us g (R p e) = Ok (true, g', R (p + zlen l) e, []) /\ holds_control g' c'.
Proof.
  intros c l c' X. induction X as [c|c c1 l c2 B1 B2 B3 X IH|c label data blocks l c2 B1 N1 SB X IH]; intros g p e x s fuel G T NX Hf; (destruct fuel as [|f]; [lia|]); cbn [SkipExtensions].
  - cbn [app] in T. assert (XB : bytes (x :: s)). { rewrite <- (app_nil_r (x :: s)) in T. eapply tail_bytes; eauto. } specialize (XB 0 ltac:(rewrite zlen_cons; assert (0 <= zlen s) by auto; lia)). cbn in XB.
    destruct (getc_tail F HF _ _ _ e T) as (-> & T' & P). cbn [bind]. change IL_EOF with (-1). replace (x =? -1) with false by lia. replace (x =? 33) with false by lia. cbn [negb]. rewrite back1 by lia. cbn [bind]. exists g. rewrite zlen_nil. split; [do 4 f_equal; lia|auto].
  - unfold word in *. cbn [app] in *.
    destruct (getc_tail F HF _ _ _ e T) as (-> & T1 & P). cbn [bind]. change (33 =? IL_EOF) with false. change (33 =? 33) with true. cbn [negb].
    destruct (getc_tail F HF _ _ _ e T1) as (-> & T2 & _). cbn [bind]. change (249 =? IL_EOF) with false. change (249 =? 249) with true. cbv iota.
    destruct (getc_tail F HF _ _ _ e T2) as (-> & T3 & _). cbn [bind]. destruct (getc_tail F HF _ _ _ e T3) as (-> & T4 & _). cbn [bind].
    assert (T4' : tail F (p + 1 + 1 + 1 + 1) (word (c_delay c1) ++ c_index c1 :: 0 :: l ++ x :: s)) by exact T4. destruct (u2_tail _ e _ _ T4') as (-> & T5). cbn [bind].
    destruct (getc_tail F HF _ _ _ e T5) as (-> & T6 & _). cbn [bind]. destruct (getc_tail F HF _ _ _ e T6) as (-> & T7 & _). cbn [bind].
    assert (NE : iEofLump (R (p + 1 + 1 + 1 + 1 + 2 + 1 + 1) e) = false). { destruct l; cbn [app] in T7; eapply not_eof; eauto. } rewrite NE. cbn [bind negb]. unfold byte, short in *. rewrite !u8_small by lia.
    rewrite NE. destruct (IH (mkGfx false (c_flags c1) (c_delay c1) (c_index c1)) _ e x s f eq_refl T7 NX ltac:(cbn in Hf; lia)) as (g' & EG & G'). exists g'. rewrite EG. split; [|auto]. rewrite !zlen_cons. do 4 f_equal. lia.
  - cbn [app] in *. destruct (getc_tail F HF _ _ _ e T) as (-> & T1 & P). cbn [bind]. change (33 =? IL_EOF) with false. change (33 =? 33) with true. cbn [negb].
    destruct (getc_tail F HF _ _ _ e T1) as (-> & T2 & _). cbn [bind]. change IL_EOF with (-1). unfold byte in B1. replace (label =? -1) with false by lia. replace (label =? 249) with false by lia. rewrite <- app_assoc in T2.
    assert (HX : exists y z, l ++ x :: s = y :: z) by (destruct l; cbn; eauto). destruct HX as (y & z & HX). rewrite HX in T2. cbn [length] in Hf. rewrite app_length in Hf.
    rewrite (skip_blocks_ok _ _ SB _ _ y z) by (auto; lia). cbn [bind negb]. assert (T3 := tail_app _ _ _ _ T2). assert (NE := not_eof F _ e _ _ T3). rewrite NE. rewrite <- HX in T3.
    destruct (IH g _ e x s f G T3 NX ltac:(lia)) as (g' & EG & G'). exists g'. rewrite EG. split; [|auto]. rewrite !zlen_cons, zlen_app. do 4 f_equal. lia.
Qed.

(** ** Colours *)
Lemma slice_tail : forall p a s, tail F p (a ++ s) -> slice F p (zlen a) = a.
Proof. intros p a s (P & E). unfold slice. rewrite E. unfold zlen. rewrite Nat2Z.id. rewrite firstn_app, Nat.sub_diag, firstn_all, firstn_O, app_nil_r. reflexivity. Qed.

Lemma palette_ok : forall alloc info old q p e s, allocator_ok alloc -> plenty alloc -> byte info -> zlen q = 3 * colours info -> tail F p (q ++ s) ->
  exists blk, iGetPalette alloc info old None (R p e) = Ok (true, mkPal (Some (q ++ blk)) (zlen q) IL_PAL_RGB24, R (p + zlen q) e, []).
Proof.
  intros alloc info old q p e s HA HP HI HQ T. unfold iGetPalette. assert (E7 : Z.land info 7 = info mod 8) by (change 7 with (2 ^ 3 - 1); rewrite land_mask by lia; reflexivity). rewrite E7.
  assert (EC : 2 ^ (info mod 8 + 1) * 3 + 0 = zlen q) by (rewrite HQ; unfold colours; lia). cbv zeta. rewrite EC. assert (M := Z.mod_pos_bound info 8 ltac:(lia)).
  assert (CB : 2 <= colours info <= 256). { unfold colours. split; [change 2 with (2 ^ 1) at 1|change 256 with (2 ^ 8)]; apply Z.pow_le_mono_r; lia. }
  replace (768 <? zlen q) with false by lia. destruct (alloc 768) as [blk|] eqn:EA; [|exfalso; apply (HP 768); auto; lia]. cbn [bind]. change (Z.to_nat 0) with 0%nat. cbn [skipn firstn]. assert (LB := HA _ _ EA).
  assert (L := tail_len _ _ _ T). rewrite zlen_app in L. assert (0 <= zlen s) by auto. assert (P : 0 <= p) by apply T. rewrite read_into by lia. cbn [bind]. rewrite Z.eqb_refl. cbn [negb app]. rewrite (slice_tail _ _ _ T). exists (skipn (Z.to_nat (zlen q)) blk). reflexivity.
Qed.
End Input.

Lemma copy_ok : forall alloc dest q blk t, allocator_ok alloc -> plenty alloc -> 1 <= zlen q -> iCopyPalette alloc dest (mkPal (Some (q ++ blk)) (zlen q) t) = Ok (true, mkPal (Some q) (zlen q) t).
Proof.
  intros alloc dest q blk t HA HP HQ. unfold iCopyPalette. cbn [Palette PalSize PalType]. replace (zlen q =? 0) with false by lia. destruct (alloc (zlen q)) as [b|] eqn:EA; [|exfalso; apply (HP (zlen q)); auto; lia]. assert (LB := HA _ _ EA).
  rewrite memcpy_ok by (rewrite ?zlen_app; assert (0 <= zlen blk) by auto; lia). cbn [bind]. rewrite slice_app_l by lia. rewrite slice_all. rewrite splice_full by lia. reflexivity.
Qed.

(** *** The transparent colour *)
Lemma zlen_alpha : forall n p t k, length p = (3 * n)%nat -> zlen (with_alpha k t p) = 4 * Z.of_nat n.
Proof.
  induction n as [|n IH]; intros p t k HL; [destruct p; [reflexivity|cbn in HL; lia]|]. destruct p as [|r [|g [|b p]]]; cbn in HL; try lia. cbn [with_alpha]. rewrite !zlen_cons. rewrite IH by lia. lia.
Qed.
Lemma geti_alpha : forall n p t k c j, length p = (3 * n)%nat -> 0 <= c < Z.of_nat n -> 0 <= j < 4 -> geti (with_alpha k t p) (4 * c + j) = if j <? 3 then geti p (3 * c + j) else if k + c =? t then 0 else 255.
Proof.
  induction n as [|n IH]; intros p t k c j HL Hc Hj; [lia|]. destruct p as [|r [|g [|b p]]]; cbn in HL; try lia. cbn [with_alpha]. destruct (Z.eq_dec c 0) as [->|NC].
  - replace (k + 0) with k by lia. assert (j = 0 \/ j = 1 \/ j = 2 \/ j = 3) as [-> | [-> | [-> | ->]]] by lia; reflexivity.
  - rewrite !(geti_cons _ _ (4 * c + j)), !geti_cons by lia. replace (4 * c + j =? 0) with false by lia. replace (4 * c + j - 1 =? 0) with false by lia. replace (4 * c + j - 1 - 1 =? 0) with false by lia. replace (4 * c + j - 1 - 1 - 1 =? 0) with false by lia.
    replace (4 * c + j - 1 - 1 - 1 - 1) with (4 * (c - 1) + j) by lia. rewrite IH by lia. replace (k + 1 + (c - 1)) with (k + c) by lia. destruct (j <? 3); [|reflexivity].
    replace (3 * c + j =? 0) with false by lia. replace (3 * c + j - 1 =? 0) with false by lia. replace (3 * c + j - 1 - 1 =? 0) with false by lia. f_equal. lia.
Qed.
Lemma transparent_ok : forall alloc p blk ty t n, allocator_ok alloc -> plenty alloc -> length p = (3 * n)%nat -> 1 <= Z.of_nat n <= 256 ->
  ConvertTransparent alloc (mkPal (Some (p ++ blk)) (zlen p) ty) t = Ok (true, mkPal (Some (with_alpha 0 t p)) (4 * Z.of_nat n) IL_PAL_RGBA32, []).
Proof.
  intros alloc p blk ty t n HA HP HL HN. unfold ConvertTransparent. cbn [Palette PalSize PalType]. assert (LP : zlen p = 3 * Z.of_nat n) by (unfold zlen; lia). rewrite LP. replace (3 * Z.of_nat n =? 0) with false by lia.
  rewrite (Z.mul_comm 3), Z.div_mul by lia. rewrite (u32_small (Z.of_nat n * 4)) by lia. replace (Z.of_nat n * 4) with (4 * Z.of_nat n) by lia.
  destruct (alloc (4 * Z.of_nat n)) as [b|] eqn:EA; [|exfalso; apply (HP (4 * Z.of_nat n)); auto; lia]. assert (LB := HA _ _ EA).
  match goal with |- context [stride 0 _ 3 ?bd _] => set (body := bd) end.
  set (I := fun i (s : list Z * Z) => zlen (fst s) = 4 * Z.of_nat n /\ i mod 3 = 0 /\ 0 <= i <= 3 * Z.of_nat n /\ snd s = 4 * (i / 3) /\ forall m, 0 <= m < 4 * (i / 3) -> geti (fst s) m = geti (with_alpha 0 t p) m).
  destruct (stride_from _ I 0 (Z.of_nat n * 3) 3 body (b, 0)) as (i' & (d & j) & -> & H1 & H2 & H3 & H4 & (Q1 & Q2 & Q3 & Q4 & Q5)); try lia.
  - unfold I. cbn [fst snd]. split; [auto|]. split; [reflexivity|]. split; [lia|]. split; [reflexivity|]. intros m Hm. change (0 / 3) with 0 in Hm. lia.
  - intros i (d & j) Hi Hm (Q1 & Q2 & Q3 & Q4 & Q5). cbn [fst snd] in *. rewrite Z.sub_0_r in Hm. assert (DI := Z.div_mod i 3 ltac:(lia)). assert (D3 : (i + 3) / 3 = i / 3 + 1) by (replace (i + 3) with (i + 1 * 3) by lia; rewrite Z.div_add by lia; lia).
    assert (0 <= i / 3 < Z.of_nat n) by lia. assert (0 <= zlen blk) by auto. unfold body. cbn beta iota. rewrite !rd_ok by (rewrite zlen_app; lia). cbn [bind].
    rewrite wr_ok by lia. cbn [bind]. assert (U1 := zlen_upd d j (geti (p ++ blk) i) ltac:(lia)). set (d1 := upd d j _) in *. rewrite wr_ok by lia. cbn [bind]. assert (U2 := zlen_upd d1 (j + 1) (geti (p ++ blk) (i + 1)) ltac:(lia)). set (d2 := upd d1 _ _) in *.
    rewrite wr_ok by lia. cbn [bind]. assert (U3 := zlen_upd d2 (j + 2) (geti (p ++ blk) (i + 2)) ltac:(lia)). set (d3 := upd d2 _ _) in *. rewrite wr_ok by lia. cbn [bind].
    eexists. split; [reflexivity|]. unfold I. cbn [fst snd]. rewrite D3. split; [rewrite zlen_upd by lia; lia|]. split; [replace (i + 3) with (i + 1 * 3) by lia; rewrite Z.mod_add by lia; auto|]. split; [lia|]. split; [rewrite u32_small by lia; lia|].
    intros m Hm'. rewrite geti_upd by lia. unfold d3. rewrite geti_upd by lia. unfold d2. rewrite geti_upd by lia. unfold d1. rewrite geti_upd by lia. assert (J4 : j / 4 = i / 3) by (rewrite Q4, Z.mul_comm, Z.div_mul by lia; reflexivity).
    assert (GA : forall q, 0 <= q < 4 -> geti (with_alpha 0 t p) (j + q) = if q <? 3 then geti p (3 * (i / 3) + q) else if 0 + i / 3 =? t then 0 else 255) by (intros q Hq; rewrite Q4; apply (geti_alpha n); auto).
    assert (GP : forall q, 0 <= q < 3 -> geti (p ++ blk) (i + q) = geti p (3 * (i / 3) + q)) by (intros q Hq; rewrite geti_app by lia; replace (i + q <? zlen p) with true by lia; f_equal; lia).
    destruct (m =? j + 3) eqn:E3; [assert (m = j + 3) by lia; subst m; rewrite GA by lia; rewrite J4; reflexivity|].
    destruct (m =? j + 2) eqn:E2; [assert (m = j + 2) by lia; subst m; rewrite GA by lia; rewrite GP by lia; reflexivity|].
    destruct (m =? j + 1) eqn:E1; [assert (m = j + 1) by lia; subst m; rewrite GA by lia; rewrite GP by lia; reflexivity|].
    destruct (m =? j) eqn:E0; [assert (m = j) by lia; subst m; transitivity (geti (with_alpha 0 t p) (j + 0)); [rewrite GA by lia; transitivity (geti (p ++ blk) (i + 0)); [f_equal; lia|rewrite GP by lia; reflexivity]|f_equal; lia]|]. apply Q5. lia.
  - cbn [bind fst snd] in *. rewrite Z.mul_comm in H1. assert (i' = 3 * Z.of_nat n) by lia. subst i'. do 4 f_equal. f_equal. apply list_ext; [rewrite (zlen_alpha n) by auto; auto|]. intros m Hm. apply Q5. lia.
Qed.

(** ** Interlacing *)
Section Interlace.
Variables (d : list Z) (B HT y : Z).
Hypothesis HB : 1 <= B.
Hypothesis Hy : 0 <= y <= HT.
Hypothesis HH : 1 <= HT < 65536.
Hypothesis HD : zlen d = B * HT.
Hypothesis H32 : B * HT < 4294967296.
Notation row_is nd t j := (forall b, 0 <= b < B -> geti nd (t * B + b) = geti d (j * B + b)).

Lemma copy_line_ok : forall nd i j, zlen nd = B * HT -> 0 <= i < HT -> 0 <= j < HT -> exists nd', copy_line B d i (nd, j) = Ok (nd', j + 1) /\ zlen nd' = B * HT /\ row_is nd' i j /\ forall t, 0 <= t < HT -> t <> i -> forall b, 0 <= b < B -> geti nd' (t * B + b) = geti nd (t * B + b).
Proof.
  intros nd i j LN Hi Hj. unfold copy_line. assert (i * B + B <= B * HT) by nia. assert (j * B + B <= B * HT) by nia. assert (0 <= i * B) by nia. assert (0 <= j * B) by nia. rewrite !(u32_small (_ * B)) by lia. rewrite memcpy_ok by lia. cbn [bind]. rewrite u32_small by lia.
  assert (LS : zlen (slice d (j * B) B) = B) by (apply zlen_slice; lia). eexists. split; [reflexivity|]. split; [rewrite zlen_splice by lia; auto|]. split.
  - intros b Hb. rewrite geti_splice by lia. rewrite LS. replace ((i * B <=? i * B + b) && (i * B + b <? i * B + B)) with true by lia. rewrite geti_slice by lia. f_equal. lia.
  - intros t Ht Nt b Hb. assert (t * B + B <= i * B \/ i * B + B <= t * B) by nia. assert (0 <= t * B) by nia. rewrite geti_splice by lia. rewrite LS. replace ((i * B <=? t * B + b) && (t * B + b <? i * B + B)) with false by lia. reflexivity.
Qed.

(** one pass: the lines lo, lo + st, ... come from the lines j0, j0 + 1, ... *)
Lemma pass_ok : forall (done : Z -> Z -> Prop) lo st nd j0, 0 <= lo < 70000 -> 0 < st <= 8 -> 0 <= j0 -> j0 + (if lo <? HT then (HT - lo + st - 1) / st else 0) <= HT -> zlen nd = B * HT ->
  (forall t j, done t j -> ~ (lo <= t /\ (t - lo) mod st = 0)) -> (forall t j, 0 <= t < HT -> done t j -> row_is nd t j) ->
  exists nd' j', stride lo HT st (copy_line B d) (nd, j0) = Ok (nd', j') /\ zlen nd' = B * HT /\ j' = j0 + (if lo <? HT then (HT - lo + st - 1) / st else 0) /\
    (forall t j, 0 <= t < HT -> done t j -> row_is nd' t j) /\ (forall t, lo <= t < HT -> (t - lo) mod st = 0 -> row_is nd' t (j0 + (t - lo) / st)).
Proof.
  intros done lo st nd j0 Hlo Hst Hj HJ LN DN HR.
  set (I := fun i (s : list Z * Z) => zlen (fst s) = B * HT /\ snd s = j0 + (i - lo) / st /\ (forall t j, 0 <= t < HT -> done t j -> row_is (fst s) t j) /\ (forall t, lo <= t < HT -> t < i -> (t - lo) mod st = 0 -> row_is (fst s) t (j0 + (t - lo) / st))).
  destruct (stride_from _ I lo HT st (copy_line B d) (nd, j0)) as (i' & (nd' & j') & -> & H1 & H2 & H3 & H4 & (Q1 & Q2 & Q3 & Q4)); try lia.
  - unfold I. cbn [fst snd]. rewrite Z.sub_diag, Z.div_0_l by lia. split; [auto|]. split; [lia|]. split; [auto|]. intros; lia.
  - intros i (s & j) Hi Hm (Q1 & Q2 & Q3 & Q4). cbn [fst snd] in *. assert (DI := Z.div_mod (i - lo) st ltac:(lia)).
    replace (lo <? HT) with true in HJ by lia. assert (HQ : (i - lo) / st + 1 <= (HT - lo + st - 1) / st). { replace ((i - lo) / st + 1) with ((i - lo + 1 * st) / st) by (rewrite Z.div_add by lia; lia). apply Z.div_le_mono; lia. }
    assert (0 <= (i - lo) / st) by (apply Z.div_pos; lia).
    destruct (copy_line_ok s i j Q1 ltac:(lia) ltac:(lia)) as (s' & -> & L' & RI & RO). eexists. split; [reflexivity|]. unfold I. cbn [fst snd]. split; [auto|].
    split; [replace (i + st - lo) with (i - lo + 1 * st) by ring; rewrite Z.div_add by lia; lia|]. split.
    + intros t jj Ht Dn b Hb. rewrite RO by (auto; intros ->; apply (DN i jj Dn); lia). apply (Q3 t jj); auto.
    + intros t Ht Hti Htm b Hb. destruct (Z.eq_dec t i) as [->|NT]; [rewrite RI by auto; rewrite Q2; reflexivity|]. rewrite RO by (auto; lia). apply Q4; auto.
      assert (DT := Z.div_mod (t - lo) st ltac:(lia)). rewrite Htm in DT. rewrite Hm in DI. set (a := (t - lo) / st) in *. set (c := (i - lo) / st) in *. clear - DT DI Hti NT Hst. assert (a < c + 1) by (apply (Z.mul_lt_mono_pos_l st); lia). assert (st * a <= st * c) by (apply Z.mul_le_mono_nonneg_l; lia). lia.
  - exists nd', j'. split; [reflexivity|]. cbn [fst snd] in *. split; [auto|]. split.
    + rewrite Q2. f_equal. assert (DI := Z.div_mod (i' - lo) st ltac:(lia)). destruct (lo <? HT) eqn:EL.
      * assert (i' <> lo) by lia. apply (Z.div_unique _ _ _ (HT - lo + st - 1 - (i' - lo))); [left|]; lia.
      * apply Z.div_small. lia.
    + split; [auto|]. intros t Ht Hm. apply Q4; auto. lia.
Qed.

Lemma passes : forall h, 0 <= h -> (h + 7) / 8 + (h + 3) / 8 + (h + 1) / 4 + h / 2 = h /\ 0 <= (h + 7) / 8 /\ 0 <= (h + 3) / 8 /\ 0 <= (h + 1) / 4.
Proof.
  clear. intros h Hh. assert (E := Z.div_mod h 8 ltac:(lia)). assert (M := Z.mod_pos_bound h 8 ltac:(lia)). set (q := h / 8) in *. set (r := h mod 8) in *. assert (0 <= q) by lia. clearbody q r. subst h. clear Hh.
  assert (r = 0 \/ r = 1 \/ r = 2 \/ r = 3 \/ r = 4 \/ r = 5 \/ r = 6 \/ r = 7) as HR by lia. clear M.
  repeat (destruct HR as [HR|HR]; [subst r; lia|]). subst r. lia.
Qed.

(** the lines of the picture are in order again *)
Definition line_of (t : Z) : Z := if t <? y then t else y + stored_line (HT - y) (t - y).
Lemma interlace_ok : forall nd, zlen nd = B * HT ->
  exists nd' j', (let! s := loop 0 y (copy_line B d) (nd, 0) in let! s := stride y HT 8 (copy_line B d) s in let! s := stride (u32 (4 + y)) HT 8 (copy_line B d) s in
    let! s := stride (u32 (2 + y)) HT 4 (copy_line B d) s in stride (u32 (1 + y)) HT 2 (copy_line B d) s) = Ok (nd', j') /\ zlen nd' = B * HT /\ forall t, 0 <= t < HT -> row_is nd' t (line_of t).
Proof.
  intros nd LN. rewrite !u32_small by lia.
  destruct (loop_rule _ (fun i (s : list Z * Z) => zlen (fst s) = B * HT /\ snd s = i /\ forall t, 0 <= t < i -> row_is (fst s) t t) 0 y (copy_line B d) (nd, 0)) as ((n1 & j1) & -> & L1 & J1 & R1); [lia|cbn; split; [auto|split; [auto|intros; lia]]| |].
  { intros i (s & j) Hi (Q1 & Q2 & Q3). cbn [fst snd] in *. subst j. destruct (copy_line_ok s i i Q1 ltac:(lia) ltac:(lia)) as (s' & -> & L' & RI & RO). eexists. split; [reflexivity|]. cbn [fst snd]. split; [auto|]. split; [auto|].
    intros t Ht b Hb. destruct (Z.eq_dec t i) as [->|NT]; [auto|]. rewrite RO by (auto; lia). apply Q3; auto. lia. }
  cbn [bind fst snd] in *. subst j1.
  set (c0 := (HT - y + 7) / 8). set (c4 := (HT - y + 3) / 8). set (c2 := (HT - y + 1) / 4).
  assert (C0 : (if y <? HT then (HT - y + 8 - 1) / 8 else 0) = c0). { unfold c0. destruct (y <? HT) eqn:E; [f_equal; lia|]. replace (HT - y) with 0 by lia. reflexivity. }
  assert (C4 : (if 4 + y <? HT then (HT - (4 + y) + 8 - 1) / 8 else 0) = c4). { unfold c4. destruct (4 + y <? HT) eqn:E; [f_equal; lia|]. symmetry. apply Z.div_small. lia. }
  assert (C2 : (if 2 + y <? HT then (HT - (2 + y) + 4 - 1) / 4 else 0) = c2). { unfold c2. destruct (2 + y <? HT) eqn:E; [f_equal; lia|]. symmetry. apply Z.div_small. lia. }
  assert (C1 : (if 1 + y <? HT then (HT - (1 + y) + 2 - 1) / 2 else 0) = (HT - y) / 2). { destruct (1 + y <? HT) eqn:E; [f_equal; lia|]. symmetry. apply Z.div_small. lia. }
  assert (TOT : c0 + c4 + c2 + (HT - y) / 2 = HT - y /\ 0 <= c0 /\ 0 <= c4 /\ 0 <= c2). { unfold c0, c4, c2. apply passes. lia. }
  assert (0 <= (HT - y) / 2) by (apply Z.div_pos; lia).
  destruct (pass_ok (fun t j => t < y /\ j = t) y 8 n1 y) as (n2 & j2 & -> & L2 & J2 & D2 & P2); try lia; try (rewrite ?C0, ?C4, ?C2, ?C1; lia); [intros t j Ht (H1 & ->); apply R1; lia|]. cbn [bind]. rewrite C0 in J2. subst j2.
  destruct (pass_ok (fun t j => (t < y /\ j = t) \/ (y <= t /\ (t - y) mod 8 = 0 /\ j = y + (t - y) / 8)) (4 + y) 8 n2 (y + c0)) as (n3 & j3 & -> & L3 & J3 & D3 & P3); try lia; try (rewrite ?C0, ?C4, ?C2, ?C1; lia).
  { intros t j Ht [H1|(H1 & H2 & ->)]; [apply D2; auto|apply P2; auto; lia]. }
  cbn [bind]. rewrite C4 in J3. subst j3.
  destruct (pass_ok (fun t j => (t < y /\ j = t) \/ (y <= t /\ (t - y) mod 8 = 0 /\ j = y + (t - y) / 8) \/ (4 + y <= t /\ (t - (4 + y)) mod 8 = 0 /\ j = y + c0 + (t - (4 + y)) / 8)) (2 + y) 4 n3 (y + c0 + c4)) as (n4 & j4 & -> & L4 & J4 & D4 & P4); try lia; try (rewrite ?C0, ?C4, ?C2, ?C1; lia).
  { intros t j Ht [H1|[H1|(H1 & H2 & ->)]]; [apply D3; auto|apply D3; auto|apply P3; auto; lia]. }
  cbn [bind]. rewrite C2 in J4. subst j4.
  destruct (pass_ok (fun t j => (t < y /\ j = t) \/ (y <= t /\ (t - y) mod 8 = 0 /\ j = y + (t - y) / 8) \/ (4 + y <= t /\ (t - (4 + y)) mod 8 = 0 /\ j = y + c0 + (t - (4 + y)) / 8) \/ (2 + y <= t /\ (t - (2 + y)) mod 4 = 0 /\ j = y + c0 + c4 + (t - (2 + y)) / 4)) (1 + y) 2 n4 (y + c0 + c4 + c2)) as (n5 & j5 & -> & L5 & J5 & D5 & P5); try lia; try (rewrite ?C0, ?C4, ?C2, ?C1; lia).
  { intros t j Ht [H1|[H1|[H1|(H1 & H2 & ->)]]]; [apply D4; auto|apply D4; auto|apply D4; auto|apply P4; auto; lia]. }
  exists n5, j5. split; [reflexivity|]. split; [auto|]. intros t Ht. unfold line_of. destruct (t <? y) eqn:E; [apply D5; auto; left; split; [lia|auto]|].
  unfold stored_line. fold c0 c4 c2. destruct ((t - y) mod 8 =? 0) eqn:E0; [apply D5; auto; right; left; split; [lia|split; lia]|].
  destruct ((t - y) mod 8 =? 4) eqn:E4; [replace (y + (c0 + (t - y) / 8)) with (y + c0 + (t - (4 + y)) / 8) by (clear - E4; lia); apply D5; auto; right; right; left; clear - E E4; lia|].
  destruct ((t - y) mod 4 =? 2) eqn:E2; [replace (y + (c0 + c4 + (t - y) / 4)) with (y + c0 + c4 + (t - (2 + y)) / 4) by (clear - E2; lia); apply D5; auto; right; right; right; clear - E E2; lia|].
  replace (y + (c0 + c4 + c2 + (t - y) / 2)) with (y + c0 + c4 + c2 + (t - (1 + y)) / 2) by (clear - E0 E4 E2; lia). apply P5; [clear - E E0 Ht; lia|clear - E0 E4 E2; lia].
Qed.
End Interlace.
