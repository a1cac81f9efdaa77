(** SGI images: examples, safety of the loader, and where the claims fail. *)
From Coq Require Import ZArith List Lia Bool.
From Verif Require Import Base Slices Elem Enums Utility Image ImageSpec ImageProps Flip Lump LumpSpec LumpProofs LumpProps Channels Endian EndianProps Raw RawProps Rle RleSpec RleProofs RleProps Pcx PcxProofs PcxProps TgaProofs ConvImgProps BmpSafe Safe Sgi SgiSpec SgiProofs SgiLoad SgiSave SgiRle.
Import ListNotations.
Open Scope Z_scope.

(** ** Loading is safe for files that are not run-length encoded *)
Lemma big_safe : forall F stk r, 0 < zlen F < 4294967295 -> on F r -> zlen stk = 2 -> bytes F -> bytes stk -> safe (fun x => on F (snd x) /\ 0 <= fst x < 65536) (GetBigUShort stk r).
Proof.
  intros F stk r Hm Hr Hs BF BS. unfold GetBigUShort. eapply safe_bind; [apply (get_safe F 2); auto; lia|]. intros (v & r') (O & V). cbn [fst snd safe] in *. split; [auto|].
  rewrite (Z.div_mod v 256) by lia. assert (A := Z.mod_pos_bound v 256 ltac:(lia)). assert (0 <= v / 256) by (apply Z.div_pos; lia). assert (v / 256 < 256) by (apply Z.div_lt_upper_bound; lia). rewrite Z.add_comm. rewrite be2_swap by lia. lia.
Qed.
Lemma bigint_safe : forall F stk r, 0 < zlen F < 4294967295 -> on F r -> zlen stk = 4 -> bytes F -> bytes stk -> safe (fun x => on F (snd x)) (GetBigInt stk r).
Proof.
  intros F stk r Hm Hr Hs BF BS. unfold GetBigInt. eapply safe_bind; [apply (get_safe F 4); auto; lia|]. intros (v & r') (O & V). cbn [fst snd safe] in *. auto.
Qed.

Definition sane (F : list Z) (h : sgihead) : Prop := 0 <= SX h < 65536 /\ 0 <= SY h < 65536 /\ 0 <= SZ_ h < 65536 /\ (SStorage h = 1 -> geti F 2 = 1).
Lemma first2 : forall F stk, 0 < zlen F < 4294967295 -> zlen stk = 2 -> bytes F -> bytes stk ->
  exists v r, GetBigUShort stk (Rd F 0 (zlen F) []) = Ok (v, r) /\ on F r /\ rpos r = Z.min 2 (zlen F).
Proof.
  intros F stk Hm Hs BF BS. assert (O0 : on F (Rd F 0 (zlen F) [])) by (unfold on; cbn [rlump rpos Lump.rsize]; repeat split; lia).
  unfold GetBigUShort, get. rewrite (C21_read F) by (auto; lia). cbv zeta. cbn [bind rpos]. do 2 eexists. split; [reflexivity|]. cbn [rpos].
  assert (L : zlen (rest F 0 (2 * 1)) = Z.min 2 (zlen F)). { unfold rest, zlen. rewrite firstn_length, skipn_length. lia. }
  rewrite L. split; [unfold on; cbn [rlump rpos Lump.rsize]; repeat split; lia|lia].
Qed.
Lemma head_safe : forall F u2 u4, 0 < zlen F < 4294967295 -> bytes F -> (forall i, zlen (u2 i) = 2 /\ bytes (u2 i)) -> (forall i, zlen (u4 i) = 4 /\ bytes (u4 i)) ->
  safe (fun x => on F (snd x) /\ sane F (fst x)) (iGetSgiHead u2 u4 (Rd F 0 (zlen F) [])).
Proof.
  intros F u2 u4 Hm BF U2 U4. unfold iGetSgiHead. destruct (first2 F (u2 0)) as (v & r & -> & O & P); auto; try apply U2. cbn [bind].
  rewrite (C21_getc F r) by auto. destruct (U2 1) as (A1 & B1). destruct (U2 2) as (A2 & B2). destruct (U2 3) as (A3 & B3). destruct (U2 4) as (A4 & B4). destruct (U4 0) as (A5 & B5). destruct (U4 1) as (A6 & B6). destruct (U4 2) as (A7 & B7). destruct (U4 3) as (A8 & B8).
  assert (S2 : exists st r1, (if rpos r <? zlen F then (geti F (rpos r), Rd F (rpos r + 1) (zlen F) (rerr r)) else (IL_EOF, Rd F (zlen F - 1) (zlen F) (rerr r ++ [IL_FILE_READ_ERROR]))) = (st, r1) /\ on F r1 /\ (signed 1 (u8 st) = 1 -> geti F 2 = 1)).
  { destruct (rpos r <? zlen F) eqn:E; do 2 eexists; (split; [reflexivity|]); (split; [unfold on; cbn [rlump rpos Lump.rsize]; repeat split; lia|]).
    - replace (rpos r) with 2 by lia. assert (R := BF 2 ltac:(lia)). unfold signed, u8. change (2 ^ (8 * 1 - 1)) with 128. change (2 ^ (8 * 1)) with 256. rewrite Z.mod_small by lia. destruct (geti F 2 <? 128) eqn:E2; lia.
    - intros X. vm_compute in X. discriminate. }
  destruct S2 as (st & r1 & -> & O1 & ST). cbn [bind]. clear O P.
  eapply safe_bind; [apply (getc_safe F); auto|]. intros (bpc & r2) (O2 & _). cbn [fst snd] in O2.
  eapply safe_bind; [apply (big_safe F); auto|]. intros (dim & r3) (O3 & _). cbn [fst snd] in O3.
  eapply safe_bind; [apply (big_safe F); auto|]. intros (x & r4) (O4 & X4). cbn [fst snd] in O4, X4.
  eapply safe_bind; [apply (big_safe F); auto|]. intros (y & r5) (O5 & X5). cbn [fst snd] in O5, X5.
  eapply safe_bind; [apply (big_safe F); auto|]. intros (z & r6) (O6 & X6). cbn [fst snd] in O6, X6.
  eapply safe_bind; [apply (bigint_safe F); auto|]. intros (mn & r7) O7. cbn [fst snd] in O7.
  eapply safe_bind; [apply (bigint_safe F); auto|]. intros (mx & r8) O8. cbn [fst snd] in O8.
  eapply safe_bind; [apply (bigint_safe F); auto|]. intros (dm & r9) O9. cbn [fst snd] in O9.
  eapply safe_bind; [apply (read_safe F); auto; rewrite ?zlen_repeat; lia|]. intros ((n & b) & r10) (O10 & _). cbn [fst snd] in O10.
  eapply safe_bind; [apply (bigint_safe F); auto|]. intros (cm & r11) O11. cbn [fst snd] in O11.
  eapply safe_bind; [apply (read_safe F); auto; rewrite ?zlen_repeat; lia|]. intros ((n' & b') & r12) (O12 & _). cbn [fst snd] in O12.
  cbn [safe fst snd]. split; [auto|]. unfold sane. cbn [SX SY SZ_ SStorage]. auto.
Qed.
Lemma new_safe : forall alloc old h, allocator_ok alloc -> safe (fun x => let '(ok, im, _) := x in ok = true -> exists d, Data im = Some d /\ zlen d = SizeOfData im /\ 0 <= SizeOfData im < 4294967296) (iNewSgi alloc old h).
Proof.
  intros alloc old h HA. unfold iNewSgi, ilInitImage. change (ilGetBpcType IL_UNSIGNED_BYTE) with 1. change (1 =? 0) with false. cbv iota zeta.
  match goal with |- context [alloc ?n] => destruct (alloc n) as [blk|] eqn:EA; [assert (L := HA _ _ EA); assert (R : 0 <= n < 4294967296) by apply u32_range|] end; cbn [bind negb]; [|cbn [safe]; discriminate]. cbv iota.
  destruct (SZ_ h =? 1); [|destruct (SZ_ h =? 3); [|destruct (SZ_ h =? 4); [|cbn [safe]; discriminate]]];
  (destruct (SBpc h =? 1); [|destruct (SBpc h =? 2); [|cbn [safe]; discriminate]]; cbn [safe]; intros _; exists blk; cbn [with_Type with_Format with_Origin Data SizeOfData]; auto).
Qed.
Lemma plain_safe : forall F Bpp Size d r, 0 < zlen F < 4294967295 -> on F r -> zlen d = Size -> safe (fun x => zlen (snd (fst x)) = Size /\ on F (snd x)) (sgi_plain Bpp Size d r).
Proof.
  intros F Bpp Size d r Hm Hr Hd. unfold sgi_plain. apply (safe_loop _ (fun x : bool * list Z * reader => zlen (snd (fst x)) = Size /\ on F (snd x))); [auto|]. intros c st Hc IH.
  apply (safe_stride _ (fun x : bool * list Z * reader => zlen (snd (fst x)) = Size /\ on F (snd x))); [lia|auto|]. clear st IH. intros i ((ok & d') & r') Hi (L & O). cbn [fst snd] in L, O. destruct ok; cbn [negb]; [|cbn [safe]; auto].
  eapply safe_bind; [apply (read_safe F); auto; try lia; rewrite zlen_slice by lia; lia|]. intros ((n & b) & r2) (O2 & L2). cbn [fst snd] in O2, L2. cbn [safe fst snd]. rewrite zlen_slice in L2 by lia. split; [|auto]. rewrite zlen_splice by lia. lia.
Qed.

(** C92c: whatever the bytes are, loading a file that does not say it is run-length encoded stays inside the
    memory of the lump and of the image. *)
Theorem C92_safe_partial : forall alloc old u2 u4 F, allocator_ok alloc -> bytes F -> 0 < zlen F < 4294967295 -> (forall i, zlen (u2 i) = 2 /\ bytes (u2 i)) -> (forall i, zlen (u4 i) = 4 /\ bytes (u4 i)) ->
  geti F 2 <> 1 -> ilLoadSgiL alloc old u2 u4 F <> UB.
Proof.
  intros alloc old u2 u4 F HA BF Hm U2 U4 HS.
  assert (G : safe (fun _ => True) (ilLoadSgiL alloc old u2 u4 F)); [|destruct (ilLoadSgiL alloc old u2 u4 F); [discriminate|destruct G|discriminate]].
  unfold ilLoadSgiL, iSetInputLump, iLoadSgiInternal. eapply safe_bind; [apply head_safe; auto|]. intros (h & r) (O & (HX & HY & HZ & ST)). cbn [fst snd] in *.
  destruct (iCheckSgi h); cbn [negb]; [|exact I]. cbv zeta.
  assert (S1 : (SStorage (if SZ_ h =? 2 then mkSgi (SMagic h) (SStorage h) (SBpc h) (SDim h) (SX h) (SY h) 1 (SMin h) else h) =? 1) = false). { destruct (SZ_ h =? 2); cbn [SStorage]; destruct (SStorage h =? 1) eqn:E; auto; exfalso; apply HS, ST; lia. }
  rewrite S1. unfold iReadNonRleSgi. eapply safe_bind; [apply new_safe; auto|]. intros ((ok & im) & e) N. destruct ok; cbn [negb]; [|exact I]. destruct (N eq_refl) as (d & -> & L & R).
  eapply safe_bind; [apply (plain_safe F); auto|]. intros ((ok & d') & r') _. exact I.
Qed.
Print Assumptions C92_safe_partial.

(** ** Saving with compression: pictures with equal neighbours *)
Lemma for_ub : forall S (I : Z -> S -> Prop) body n i s, I i s ->
  (forall k s, i <= k < i + Z.of_nat n -> I k s -> body k s = UB \/ exists s', body k s = Ok s' /\ I (k + 1) s') ->
  (exists j, i <= j < i + Z.of_nat n /\ forall s, I j s -> body j s = UB) -> for_ n i body s = UB.
Proof.
  intros S I body. induction n as [|n IH]; intros i s H HB (j & Hj & HU); [lia|]. cbn [for_]. destruct (Z.eq_dec j i) as [->|Hne].
  - rewrite HU by auto. reflexivity.
  - destruct (HB i s ltac:(lia) H) as [->|(s' & -> & H')]; [reflexivity|]. cbn [bind]. apply IH; auto. { intros k t Hk. apply HB. lia. } exists j. split; [lia|auto].
Qed.
Lemma loop_ub : forall S (I : Z -> S -> Prop) lo hi body s, I lo s ->
  (forall k s, lo <= k < hi -> I k s -> body k s = UB \/ exists s', body k s = Ok s' /\ I (k + 1) s') ->
  (exists j, lo <= j < hi /\ forall s, I j s -> body j s = UB) -> loop lo hi body s = UB.
Proof. intros S I lo hi body s H HB (j & Hj & HU). unfold loop. apply (for_ub _ I); auto. { intros k t Hk. apply HB. lia. } exists j. split; [lia|auto]. Qed.
Lemma loop_or : forall S (I : Z -> S -> Prop) lo hi body s, lo <= hi -> I lo s ->
  (forall k s, lo <= k < hi -> I k s -> body k s = UB \/ exists s', body k s = Ok s' /\ I (k + 1) s') ->
  loop lo hi body s = UB \/ exists s', loop lo hi body s = Ok s' /\ I hi s'.
Proof.
  intros S I lo hi body s Hle. unfold loop. remember (Z.to_nat (hi - lo)) as n eqn:En. assert (En' : hi = lo + Z.of_nat n) by lia. clear En Hle. revert lo s En'. induction n as [|n IH]; intros lo s En' H HB; cbn [for_].
  - right. exists s. split; auto. replace hi with lo by lia. auto.
  - destruct (HB lo s ltac:(lia) H) as [->|(s' & -> & H')]; [left; reflexivity|]. cbn [bind]. apply IH; auto; try lia. intros k t Hk. apply HB. lia.
Qed.
Lemma no_repeat_dec : forall l n, no_repeat 1 l 0 (Z.of_nat n) \/ ~ no_repeat 1 l 0 (Z.of_nat n).
Proof.
  intros l. induction n as [|n IH]; [left; intros i H1 H2; lia|]. destruct IH as [IH|IH].
  - destruct n as [|n]; [left; intros i H1 H2; lia|]. destruct (list_eq_dec Z.eq_dec (RleSpec.pixel 1 l (Z.of_nat n)) (RleSpec.pixel 1 l (Z.of_nat n + 1))) as [E|E].
    + right. intros H. apply (H (Z.of_nat n)); auto; lia.
    + left. intros i H1 H2. destruct (Z.eq_dec i (Z.of_nat n)) as [->|]; [auto|]. apply IH; lia.
  - right. intros H. apply IH. intros i H1 H2. apply H; lia.
Qed.

Lemma lines_ub : forall td w h N bps line comp, 1 <= w < 2147483647 -> 1 <= h -> 1 <= N -> bps = w * N -> zlen td = h * bps -> bytes td -> zlen line = w -> zlen comp = w * 2 + 1 ->
  (exists c y, 0 <= c < N /\ 0 <= y < h /\ ~ no_repeat 1 (line_of td w bps N c y) 0 w) -> sgi_lines td w h N bps line comp = UB.
Proof.
  intros td w h N bps line comp Hw Hh HN EB LT BT LL LC (c0 & y0 & Hc0 & Hy0 & NR). unfold sgi_lines.
  set (I := fun (_ : Z) (st : list (list Z * Z) * list Z * list Z) => zlen (snd (fst st)) = w /\ zlen (snd st) = w * 2 + 1).
  assert (STEP : forall c y st, 0 <= c < N -> 0 <= y < h -> I 0 st ->
    let m := (let '(l, line, comp) := st in let! line := gather td w (y * bps + c) N line in let! (size, code) := rle_line Sgi 1 0 0 line 0 w in if zlen comp <? zlen code then UB else let comp := splice comp 0 code in Ok (l ++ [(comp, size)], line, comp)) in
    (~ no_repeat 1 (line_of td w bps N c y) 0 w -> m = UB) /\ (no_repeat 1 (line_of td w bps N c y) 0 w -> exists st', m = Ok st' /\ I 0 st')).
  { intros c y ((l & ln) & cp) Hc Hy (L1 & L2). cbn [fst snd] in L1, L2. cbv zeta.
    assert (BB : 0 <= bps) by (subst bps; apply Z.mul_nonneg_nonneg; lia). assert (0 <= y * bps) by (apply Z.mul_nonneg_nonneg; lia). assert (MM : (y + 1) * bps <= h * bps) by (apply Z.mul_le_mono_nonneg_r; lia).
    assert (RNG : y * bps + c + (w - 1) * N < zlen td) by (rewrite LT; lia).
    rewrite gather_ok by (auto; lia). cbn [bind]. fold (line_of td w bps N c y).
    assert (LN : zlen (line_of td w bps N c y) = w) by (unfold line_of; rewrite zlen_plane; lia).
    assert (BN : bytes (line_of td w bps N c y)) by (apply bytes_plane; auto; try lia; right; rewrite Z2Nat.id by lia; lia).
    split; intros NR'.
    - rewrite C24_overread; auto; lia.
    - destruct (C24_sgi_partial 0 0 (line_of td w bps N c y) 0 w BN) as (code & EC & SC & ZC); auto; try lia. rewrite EC. cbn [bind]. replace (zlen cp <? zlen code) with false by lia. cbv iota. eexists. split; [reflexivity|]. split; cbn [fst snd]; auto. rewrite zlen_splice; lia. }
  apply (loop_ub _ I).
  - split; auto.
  - intros c st Hc HI. refine (loop_or _ I 0 h _ st _ HI _); [lia|]. intros y st' Hy HI'. destruct (STEP c y st' Hc Hy HI') as (S1 & S2). destruct (no_repeat_dec (line_of td w bps N c y) (Z.to_nat w)) as [D|D]; rewrite Z2Nat.id in D by lia; [right; exact (S2 D)|left; exact (S1 D)].
  - exists c0. split; [auto|]. intros st HI. apply (loop_ub _ I); [exact HI| |].
    + intros y st' Hy HI'. destruct (STEP c0 y st' Hc0 Hy HI') as (S1 & S2). destruct (no_repeat_dec (line_of td w bps N c0 y) (Z.to_nat w)) as [D|D]; rewrite Z2Nat.id in D by lia; [right; exact (S2 D)|left; exact (S1 D)].
    + exists y0. split; [auto|]. intros st' HI'. destruct (STEP c0 y0 st' Hc0 Hy0 HI') as (S1 & _). exact (S1 NR).
Qed.

(** Finding: a picture in which two neighbours in a row are equal in some channel cannot be saved with
    compression without reading outside the line buffer. *)
Theorem C93_rle_refuted : forall alloc conv im buf k x t c, allocator_ok alloc -> img_ok im buf -> bytes buf -> sgi_plain_image im ->
  0 <= x -> x + 1 < Width im -> 0 <= t < Height im -> 0 <= c < Bpp im -> picture im buf x t 0 c = picture im buf (x + 1) t 0 c ->
  Origin im = IL_ORIGIN_UPPER_LEFT \/ Origin im = IL_ORIGIN_LOWER_LEFT -> alloc (SizeOfData im) <> None -> alloc (Width im) <> None -> alloc (Width im * 2 + 1) <> None -> alloc (Height im * Bpp im * 4) <> None ->
  iSaveSgiInternal alloc true conv None im k = UB.
Proof.
  intros alloc conv im buf k x t c HA Hok B HP Hx Hx1 Ht Hc EQ HO Hn A1 A2 A3. destruct (sgi_data alloc im buf Hok HO HA Hn) as (td & ET & LT & GT).
  assert (SD : SizeOfData im = Width im * Height im * Bpp im) by (apply (flat_size im buf); [auto|apply HP|apply HP]). unfold iSaveSgiInternal. rewrite sgi_no_target by auto. cbn [bind andb]. rewrite ET.
  assert (Hok' := Hok). destruct Hok' as (_ & W1 & H1 & D1 & _ & _ & E1 & E2 & E3 & _ & LB). assert (HP' := HP). destruct HP' as (PC & PD & PT & PW & PH & PB & PF).
  rewrite PC. change (1 =? 1) with true. cbn [bind negb]. cbv iota.
  assert (EBps : Bps im = Width im * Bpp im) by (rewrite E1, PC; ring).
  assert (LTd : zlen td = Height im * Bps im) by (rewrite LT, SD, EBps; ring).
  assert (BT : bytes td) by (eapply sgi_data_bytes; eauto).
  unfold iSaveRleSgi. assert (Height im * Bpp im <= 65535 * 4) by (apply Z.mul_le_mono_nonneg; lia). assert (0 < Height im * Bpp im) by (apply Z.mul_pos_pos; lia). rewrite (u32_small (Height im * Bpp im)) by lia. rewrite (u32_small (Width im * 2 + 1)) by lia.
  destruct (alloc (Width im)) as [line|] eqn:F1; [|congruence]. destruct (alloc (Width im * 2 + 1)) as [comp|] eqn:F2; [|congruence]. destruct (alloc (Height im * Bpp im * 4)) as [start|] eqn:F3; [|congruence].
  rewrite lines_ub; auto; try lia. exists c, (Height im - 1 - t). split; [auto|]. split; [lia|]. intros NR. apply (NR x); try lia.
  unfold RleSpec.pixel. rewrite !Z.mul_1_r. set (ln := line_of td (Width im) (Bps im) (Bpp im) c (Height im - 1 - t)).
  assert (LN : zlen ln = Width im) by (unfold ln, line_of; rewrite zlen_plane; lia).
  assert (CELL : forall x', 0 <= x' < Width im -> geti ln x' = picture im buf x' t 0 c).
  { intros x' Hx'. unfold ln, line_of. rewrite geti_plane by lia. rewrite <- GT by (unfold in_image; rewrite PC, PD; lia). f_equal. unfold pix_off. rewrite PC, EBps. ring. }
  clearbody ln. apply list_ext; [rewrite !zlen_slice by lia; reflexivity|]. intros j Hj. rewrite zlen_slice in Hj by lia. rewrite !geti_slice by lia. replace j with 0 by lia. rewrite !Z.add_0_r. rewrite !CELL by lia. exact EQ.
Qed.
Print Assumptions C93_rle_refuted.

(** ** Where the claims fail *)

(** Finding: a run longer than the line overruns the plane. *)
Definition ex_u2 (_ : Z) : list Z := [0; 0].
Definition ex_u4 (_ : Z) : list Z := [0; 0; 0; 0].
Definition ex_old : img := mkImg 1 1 1 1 1 1 (Some [0]) 1 1 IL_LUMINANCE IL_UNSIGNED_BYTE IL_ORIGIN_LOWER_LEFT (mkPal None 0 IL_PAL_NONE) 0 0 0 0.
Theorem C92_overflow_refuted : exists F, bytes F /\ sgi_head F 1 1 1 1 1 /\ ilLoadSgiL ConvImgProps.ex_alloc ex_old ex_u2 ex_u4 F = UB.
Proof.
  exists (hd 1 1 1 1 ++ big4 520 ++ big4 3 ++ [2; 5; 0]). split.
  - apply bytes_app; [apply bytes_hd; auto|]. apply bytes_Forall. repeat constructor; lia.
  - split; [apply hd_head; auto; lia|]. vm_compute. reflexivity.
Qed.
Print Assumptions C92_overflow_refuted.

(** Finding: every 16-bit file that loads becomes an image of depth 2 with one byte for each channel, although
    its type says two. *)
Definition post {A} (P : A -> Prop) (m : res A) : Prop := match m with Ok x => P x | _ => True end.
Lemma post_bind : forall A B (P : A -> Prop) (Q : B -> Prop) m k, post P m -> (forall x, P x -> post Q (k x)) -> post Q (bind m k).
Proof. intros A B P Q [x| |] k H HK; cbn in *; auto. Qed.
Lemma post_any : forall A (m : res A), post (fun _ => True) m.
Proof. intros A [x| |]; exact I. Qed.
Definition deep (x : bool * img * list Z) : Prop := let '(ok, im, _) := x in ok = true -> Depth im = 2 /\ Bpc im = 1 /\ (Type_ im = IL_SHORT \/ Type_ im = IL_UNSIGNED_SHORT).
Lemma new_deep : forall alloc old h, SBpc h = 2 -> post deep (iNewSgi alloc old h).
Proof.
  intros alloc old h HB. unfold iNewSgi, ilInitImage. change (ilGetBpcType IL_UNSIGNED_BYTE) with 1. change (1 =? 0) with false. cbv iota zeta. rewrite HB.
  match goal with |- context [alloc ?n] => destruct (alloc n) as [blk|] end; cbn [bind negb]; [|cbn [post deep]; discriminate]. cbv iota. change (2 =? 1) with false. change (2 =? 2) with true. cbv iota.
  destruct (SZ_ h =? 1); [|destruct (SZ_ h =? 3); [|destruct (SZ_ h =? 4); [|cbn [post deep]; discriminate]]]; (cbn [post deep]; intros _; cbn [with_Type with_Format with_Origin Depth Bpc Type_]; split; [reflexivity|]; split; [reflexivity|]; destruct (SMin h <? 0); auto).
Qed.
Theorem C92_16bit_refuted : forall alloc old u2 u4 F im e, bytes F -> 512 <= zlen F < 4294967295 -> (forall i, zlen (u2 i) = 2) -> (forall i, zlen (u4 i) = 4) ->
  geti F 3 = 2 -> ilLoadSgiL alloc old u2 u4 F = Ok (true, im, e) -> Depth im = 2 /\ Bpc im = 1 /\ (Type_ im = IL_SHORT \/ Type_ im = IL_UNSIGNED_SHORT).
Proof.
  intros alloc old u2 u4 F im e B LF U2 U4 H3 E.
  assert (G : post deep (ilLoadSgiL alloc old u2 u4 F)); [|rewrite E in G; exact (G eq_refl)]. clear E.
  unfold ilLoadSgiL, iLoadSgiInternal. rewrite get_head by auto. cbn [bind]. destruct (iCheckSgi (head_of F)); cbn [negb]; [|cbn [post deep]; discriminate]. cbv zeta.
  match goal with |- context [SStorage ?x =? 1] => set (h := x) end. assert (HB : SBpc h = 2) by (unfold h; destruct (SZ_ (head_of F) =? 2); cbn [SBpc head_of]; rewrite H3; reflexivity). clearbody h.
  assert (K : forall im0 d, deep (true, im0, []) -> deep (true, with_Data im0 d, [])) by (intros im0 d X; exact X).
  destruct (SStorage h =? 1).
  - unfold iReadRleSgi. eapply post_bind; [apply new_deep; auto|]. intros ((ok & im0) & e0) D. destruct ok; cbn [negb]; [|exact D]. assert (D' : deep (true, im0, [])) by (intros _; exact (D eq_refl)).
    destruct (alloc (SY h * SZ_ h * 4)); [|cbn [post deep]; discriminate].
    eapply post_bind; [apply post_any|]. intros ((n1 & b1) & r1) _. destruct (n1 =? 1); cbn [negb]; [|cbn [post deep]; discriminate].
    eapply post_bind; [apply post_any|]. intros ((n2 & b2) & r2) _. destruct (n2 =? 1); cbn [negb]; [|cbn [post deep]; discriminate].
    destruct (2147483647 <? SX h * SY h * SBpc h); [exact I|]. destruct (alloc (SZ_ h * 8)); [|cbn [post deep]; discriminate]. destruct (fresh_planes _ _ _); [|cbn [post deep]; discriminate].
    eapply post_bind; [apply post_any|]. intros ((ok3 & b3) & r3) _. destruct ok3; cbn [negb]; [|cbn [post deep]; discriminate]. destruct (Data im0); [|exact I].
    eapply post_bind; [apply post_any|]. intros d1 _. eapply post_bind; [apply post_any|]. intros d2 _. exact (K im0 (Some d2) D').
  - unfold iReadNonRleSgi. eapply post_bind; [apply new_deep; auto|]. intros ((ok & im0) & e0) D. destruct ok; cbn [negb]; [|exact D]. assert (D' : deep (true, im0, [])) by (intros _; exact (D eq_refl)). destruct (Data im0); [|exact I].
    eapply post_bind; [apply post_any|]. intros ((ok1 & d1) & r1) _. destruct ok1; [exact (K im0 (Some d1) D')|cbn [post deep]; discriminate].
Qed.
Print Assumptions C92_16bit_refuted.
(** a file without the magic number 474, with a storage other than verbatim (0) and run-length (1), or with nothing
    for the bytes of a channel, the dimension, the width, the height or the planes, is refused, and the current
    image stays what it was *)
Theorem C92_header_refused : forall alloc old u2 u4 F, bytes F -> 512 <= zlen F < 4294967295 -> (forall i, zlen (u2 i) = 2) -> (forall i, zlen (u4 i) = 4) ->
  be2 F 0 <> 474 \/ ~ 0 <= geti F 2 <= 1 \/ geti F 3 = 0 \/ be2 F 4 = 0 \/ be2 F 6 = 0 \/ be2 F 8 = 0 \/ be2 F 10 = 0 ->
  ilLoadSgiL alloc old u2 u4 F = Ok (false, old, [IL_INVALID_FILE_HEADER]).
Proof.
  intros alloc old u2 u4 F B LF U2 U4 BAD. unfold ilLoadSgiL, iLoadSgiInternal. rewrite get_head by auto. cbn [bind].
  assert (B2 : 0 <= geti F 2 < 256) by (apply B; lia). assert (B3 : 0 <= geti F 3 < 256) by (apply B; lia).
  assert (S : forall x, 0 <= x < 256 -> signed 1 (u8 x) = if x <? 128 then x else x - 256) by (intros x Hx; rewrite u8_small by lia; unfold signed; change (2 ^ (8 * 1)) with 256; change (2 ^ (8 * 1 - 1)) with 128; reflexivity).
  replace (iCheckSgi (head_of F)) with false; [reflexivity|]. unfold iCheckSgi, head_of. cbn [SMagic SStorage SBpc SDim SX SY SZ_]. rewrite !S by auto. clear S.
  destruct (geti F 2 <? 128) eqn:E2; destruct (geti F 3 <? 128) eqn:E3;
    repeat match goal with |- false = (if ?c then _ else _) => destruct c eqn:?; [reflexivity|] end; exfalso; clear B U2 U4; lia.
Qed.
Print Assumptions C92_header_refused.
(** such files exist: a 16-bit file of one pixel *)
Definition ex_16 : list Z := big2 474 ++ [0] ++ [2] ++ big2 2 ++ big2 1 ++ big2 1 ++ big2 1 ++ repeat 0 500 ++ [3; 4].
Example C92_16bit_hyp : zlen ex_16 = 514 /\ match ilLoadSgiL ConvImgProps.ex_alloc ex_old ex_u2 ex_u4 ex_16 with Ok (true, _, _) => True | _ => False end.
Proof. split; [reflexivity|]. vm_compute. exact I. Qed.

(** Finding: signed images are written without the number of bytes per channel; saving reports success, and the
    file does not load. *)
Definition ex_signed : img := mkImg 1 1 1 1 1 1 (Some [5]) 1 1 IL_LUMINANCE IL_BYTE IL_ORIGIN_LOWER_LEFT (mkPal None 0 IL_PAL_NONE) 0 0 0 0.
Lemma signed_case : match iSaveSgiInternal ConvImgProps.ex_alloc false (fun _ _ => Ok None) None ex_signed Done with
  | Ok (true, p) => match file_of p with Some F => match ilLoadSgiL ConvImgProps.ex_alloc ex_old ex_u2 ex_u4 F with Ok (b, _, e) => b = false /\ e = [IL_INVALID_FILE_HEADER] | _ => False end | None => False end | _ => False end.
Proof. vm_compute. split; reflexivity. Qed.
Theorem C93_signed_refuted : exists im buf p F im' , img_ok im buf /\ bytes buf /\ Type_ im = IL_BYTE /\ iSaveSgiInternal ConvImgProps.ex_alloc false (fun _ _ => Ok None) None im Done = Ok (true, p) /\ file_of p = Some F /\
  ilLoadSgiL ConvImgProps.ex_alloc ex_old ex_u2 ex_u4 F = Ok (false, im', [IL_INVALID_FILE_HEADER]).
Proof.
  assert (X := signed_case). destruct (iSaveSgiInternal ConvImgProps.ex_alloc false (fun _ _ => Ok None) None ex_signed Done) as [([|] & p)| |] eqn:E1; try contradiction. destruct (file_of p) as [F|] eqn:E2; [|contradiction].
  destruct (ilLoadSgiL ConvImgProps.ex_alloc ex_old ex_u2 ex_u4 F) as [((b & im') & e)| |] eqn:E3; try contradiction. destruct X as (-> & ->).
  exists ex_signed, [5], p, F, im'. split; [unfold img_ok; cbn; repeat match goal with |- _ /\ _ => split end; auto; lia|]. split; [apply bytes_Forall; repeat constructor; lia|]. auto.
Qed.
Print Assumptions C93_signed_refuted.

(** Finding: a file name shorter than 78 characters is read past its end when it is written to the header. *)
Theorem C93_name_refuted : forall alloc conv im buf m c, allocator_ok alloc -> img_ok im buf -> sgi_plain_image im -> Origin im = IL_ORIGIN_UPPER_LEFT \/ Origin im = IL_ORIGIN_LOWER_LEFT -> alloc (SizeOfData im) <> None ->
  strlen m = Some c -> zlen m < 79 -> exists p, iSaveSgiInternal alloc false conv (Some m) im Done = Ok (true, p) /\ file_of p = None.
Proof.
  intros alloc conv im buf m c HA Hok HP HO Hn Hm HL. destruct (sgi_data alloc im buf Hok HO HA Hn) as (td & ET & _ & _). unfold iSaveSgiInternal. rewrite sgi_no_target by auto. cbn [bind andb]. rewrite ET. cbn [bind negb]. cbv iota. eexists. split; [reflexivity|].
  destruct Hok as (_ & W1 & H1 & _). destruct HP as (_ & _ & ETy & HW & HH & HB & EF). unfold file_of, sgi_header. rewrite ETy, EF. change (IL_UNSIGNED_BYTE =? IL_UNSIGNED_BYTE) with true. change (IL_UNSIGNED_BYTE =? IL_BYTE) with false. cbv iota zeta.
  replace ((sgi_format (Bpp im) =? IL_LUMINANCE) || (sgi_format (Bpp im) =? IL_COLOUR_INDEX)) with (Bpp im =? 1) by (destruct HB as [-> | [-> | ->]]; reflexivity).
  unfold sgi_name. rewrite Hm.
  assert (c < 79). { clear - Hm HL. assert (c < zlen m); [|lia]. revert c Hm HL. induction m as [|b m IH]; intros c Hm HL; cbn [strlen] in Hm; [discriminate|]. rewrite zlen_cons in *. assert (0 <= zlen m) by auto. destruct (b =? 0); [injection Hm as <-; lia|]. destruct (strlen m) as [n|]; [|discriminate]. injection Hm as <-. specialize (IH n eq_refl ltac:(lia)). lia. }
  replace (c <? 79) with true by lia. cbv iota. change 0 with (zlen (@nil Z)) at 1.
  rewrite run_bushort by (try change (zlen (@nil Z)) with 0; lia). rewrite run_putc by reflexivity. rewrite run_putc by reflexivity.
  rewrite run_bushort by (try destruct (Bpp im =? 1); try lia; reflexivity). do 3 (rewrite run_bushort by (try lia; reflexivity)). do 3 (rewrite run_bint by reflexivity).
  match goal with |- run_file (Write m 1 79 ?k) ?f ?p = None => generalize k f p end. intros k f p. cbn [run_file]. replace (1 * 79 <=? zlen m) with false by lia. rewrite andb_false_r. reflexivity.
Qed.
Print Assumptions C93_name_refuted.

(** ** The hypotheses can be met *)
Definition ex_rgb : img := mkImg 2 1 1 3 1 6 (Some [1; 2; 3; 4; 5; 6]) 6 6 IL_RGB IL_UNSIGNED_BYTE IL_ORIGIN_UPPER_LEFT (mkPal None 0 IL_PAL_NONE) 0 0 0 0.
Example C93_hyp : img_ok ex_rgb [1; 2; 3; 4; 5; 6] /\ bytes [1; 2; 3; 4; 5; 6] /\ sgi_plain_image ex_rgb /\ no_equal_neighbours ex_rgb [1; 2; 3; 4; 5; 6].
Proof.
  split; [unfold img_ok; cbn; repeat match goal with |- _ /\ _ => split end; auto; lia|]. split; [apply bytes_Forall; repeat constructor; lia|]. split; [unfold sgi_plain_image; cbn; repeat match goal with |- _ /\ _ => split end; auto; lia|].
  intros x t c Hx Hx1 Ht Hc. cbn [Width Height Bpp ex_rgb] in *. assert (x = 0) by lia. assert (t = 0) by lia. subst x t. assert (C : c = 0 \/ c = 1 \/ c = 2) by lia. destruct C as [-> | [-> | ->]]; vm_compute; discriminate.
Qed.
(** and an image with equal neighbours *)
Definition ex_flat : img := mkImg 2 1 1 1 1 2 (Some [9; 9]) 2 2 IL_LUMINANCE IL_UNSIGNED_BYTE IL_ORIGIN_UPPER_LEFT (mkPal None 0 IL_PAL_NONE) 0 0 0 0.
Example C93_flat_hyp : img_ok ex_flat [9; 9] /\ sgi_plain_image ex_flat /\ picture ex_flat [9; 9] 0 0 0 0 = picture ex_flat [9; 9] (0 + 1) 0 0 0.
Proof. split; [unfold img_ok; cbn; repeat match goal with |- _ /\ _ => split end; auto; lia|]. split; [unfold sgi_plain_image; cbn; repeat match goal with |- _ /\ _ => split end; auto; lia|reflexivity]. Qed.
Example C93_name_hyp : strlen [97; 46; 114; 103; 98; 0] = Some 5.
Proof. reflexivity. Qed.
(** a verbatim file of two RGB pixels, and a coded one of two grey pixels *)
Example C92_verbatim_hyp : sgi_head (hd 0 2 1 3 ++ [1; 2; 3; 4; 5; 6]) 0 1 2 1 3 /\ zlen (hd 0 2 1 3 ++ [1; 2; 3; 4; 5; 6]) = 512 + 3 * (2 * 1).
Proof. split; [apply hd_head; auto; lia|reflexivity]. Qed.
Example C92_rle_hyp : let F := hd 1 2 1 1 ++ big4 520 ++ big4 4 ++ [130; 7; 9; 0] in sgi_head F 1 1 2 1 1 /\ sgi_coded F 2 1 1 (fun _ _ => [7; 9]).
Proof.
  cbv zeta. split; [apply hd_head; auto; lia|]. apply (coded_file (hd 1 2 1 1) [[130; 7; 9; 0]] 2 1 1 (fun _ _ => [7; 9])); try reflexivity; try lia.
  intros i Hi. replace i with 0 by lia. change (nth (Z.to_nat 0) [[130; 7; 9; 0]] []) with [130; 7; 9; 0]. apply (sgi_raw 130 [7; 9] [0] []); [lia|reflexivity|constructor].
Qed.
