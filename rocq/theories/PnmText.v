(** C98: maps written as text. *)
From Coq Require Import ZArith List Lia Bool.
From Verif Require Import Base Slices Elem BitLemmas Enums Utility Image ImageSpec Flip Lump LumpSpec LumpProofs LumpProps CacheProps Channels Endian EndianProps ConvImgProps RleSpec RawProps Pcx PcxProofs TgaProofs BmpSpec BmpSafe BmpDecode SgiSpec SgiProofs SgiLoad Safe Small SmallSpec SmallTex SmallTexProps SmallSunProps Pal PalSpec PalJasc Pnm PnmSpec PnmProofs PnmLoad.
Import ListNotations.
Open Scope Z_scope.

Lemma alnum_false : forall c, ~ letter c -> isalnum c = false.
Proof. intros c H. destruct (isalnum c) eqn:E; [|reflexivity]. apply letter_alnum in E. contradiction. Qed.
Lemma rd_tail : forall l i c s, tail l i (c :: s) -> rd l i = Ok c.
Proof. intros l i c s T. destruct (tail_cons _ _ _ _ T) as (L & G & _). destruct T as (P & _). rewrite rd_ok by lia. rewrite G. reflexivity. Qed.

Lemma skip_line_ok : forall s c rest fuel (go : Z -> bool) lb li, Forall (fun x => go x = true) s -> go c = false -> tail lb li (s ++ c :: rest) -> (length s < fuel)%nat ->
  skip_line fuel go lb li = Ok (li + zlen s).
Proof.
  induction s as [|a s IH]; intros c rest fuel go lb li HS HC T Hf; (destruct fuel as [|fuel]; [cbn in Hf; lia|]); cbn [skip_line]; cbn [app] in T; rewrite (rd_tail _ _ _ _ T); cbn [bind].
  - rewrite HC. change (zlen (@nil Z)) with 0. rewrite Z.add_0_r. reflexivity.
  - inversion HS as [|? ? HA HS']; subst. rewrite HA. cbn [length] in Hf. destruct (tail_cons _ _ _ _ T) as (_ & _ & T'). rewrite (IH c rest) by (auto; lia). rewrite zlen_cons. f_equal. lia.
Qed.
Lemma take_line_ok : forall w c rest fuel lb sb li si, Forall letter w -> ~ letter c -> tail lb li (w ++ c :: rest) -> 0 <= si -> si + zlen w <= zlen sb -> (length w < fuel)%nat ->
  take_line fuel lb sb li si = Ok (splice sb si w, li + zlen w, si + zlen w).
Proof.
  induction w as [|a w IH]; intros c rest fuel lb sb li si HW HC T Hsi HL Hf; (destruct fuel as [|fuel]; [cbn in Hf; lia|]); cbn [take_line]; cbn [app] in T; rewrite (rd_tail _ _ _ _ T); cbn [bind].
  - rewrite alnum_false by auto. change (zlen (@nil Z)) with 0 in *. rewrite splice_nil by lia. rewrite !Z.add_0_r. reflexivity.
  - inversion HW as [|? ? HA HW']; subst. rewrite (proj2 (letter_alnum a) HA). cbn [length] in Hf. rewrite zlen_cons in *. assert (0 <= zlen w) by auto. rewrite wr_ok by lia. cbn [bind]. destruct (tail_cons _ _ _ _ T) as (_ & _ & T').
    rewrite (IH c rest) by (auto; try lia; rewrite zlen_upd by lia; lia). rewrite splice_cons by lia. do 2 f_equal; [f_equal; lia|lia].
Qed.

Lemma number_letters : forall v w, number v w -> Forall letter w /\ w <> [] /\ zlen w < 180.
Proof. intros v w (N & D & _ & L). split; [|auto]. eapply Forall_impl; [|exact D]. intros c Hc. left. exact Hc. Qed.
Lemma sep_letter : forall s, Forall separator s -> Forall (fun x => negb (isalnum x) = true) s /\ Forall (fun x => negb (isalnum x) && negb (x =? 0) = true) s.
Proof. intros s H. split; (eapply Forall_impl; [|exact H]); intros c (R & N & L); rewrite alnum_false by auto; cbn; auto. replace (c =? 0) with false by lia. reflexivity. Qed.
(** a character of the line or its end *)
Lemma numbers_start : forall vs l, numbers vs l -> exists c r, l = c :: r /\ letter c.
Proof.
  intros vs l N. inversion N as [v w s HN|v w s vs' l' HN]; subst; destruct (number_letters _ _ HN) as (A & B & _); (destruct w as [|c w]; [congruence|]); exists c; eexists; (split; [reflexivity|]); inversion A; auto.
Qed.

(** [Z.add 0] ... one number and what follows it up to the next character that counts *)
Lemma line_step : forall s v w s2 c rest fuel lb sb d li di, Forall separator s -> number v w -> 0 <= v < 256 -> Forall separator s2 -> (letter c /\ s2 <> [] \/ c = 0) -> tail lb li (s ++ w ++ s2 ++ c :: rest) -> zlen lb = 180 -> zlen sb = 180 -> 0 <= di < zlen d ->
  exists sb', zlen sb' = 180 /\ tail lb (li + zlen (s ++ w ++ s2)) (c :: rest) /\ line_nums (S fuel) false lb sb d li di = line_nums fuel false lb sb' (upd d di v) (li + zlen (s ++ w ++ s2)) (di + 1).
Proof.
  intros s v w s2 c rest fuel lb sb d li di HS HN Hv HS2 HC T Llb Lsb Hdi. destruct (number_letters _ _ HN) as (LW & NW & ZW). destruct (sep_letter s HS) as (S1 & _). destruct (sep_letter s2 HS2) as (_ & S2).
  assert (TL := tail_len _ _ _ T). rewrite !zlen_app in TL. assert (0 <= li) by (destruct T as (X & _); lia).
  assert (0 <= zlen s) by auto. assert (0 <= zlen w) by auto. assert (0 <= zlen s2) by auto. assert (0 <= zlen (c :: rest)) by auto.
  assert (LEN : forall l : list Z, zlen l <= 180 -> (length l < S (length lb))%nat) by (intros l Hl; unfold zlen in *; lia).
  assert (FST : exists a r, s ++ w ++ s2 ++ c :: rest = a :: r /\ a <> 0 /\ a <> 10).
  { destruct s as [|a s]; [destruct w as [|a w]; [congruence|]|]; exists a; eexists; (split; [reflexivity|]); [inversion LW as [|? ? HA]; subst; unfold letter in HA; lia|inversion HS as [|? ? (HA & HB & _)]; subst; lia]. }
  destruct FST as (a & r & EA & A0 & A10). cbn [line_nums]. assert (T0 := T). rewrite EA in T0. rewrite (rd_tail _ _ _ _ T0). cbn [bind]. replace ((a =? 0) || (a =? 10)) with false by lia.
  assert (WS : exists b w', w = b :: w' /\ letter b) by (destruct w as [|b w]; [congruence|]; exists b, w; split; [reflexivity|]; inversion LW; auto). destruct WS as (b & w' & EW & LB).
  assert (T1 := T). rewrite EW in T1. cbn [app] in T1. assert (GB : negb (isalnum b) = false) by (rewrite (proj2 (letter_alnum b) LB); reflexivity). rewrite (skip_line_ok s b (w' ++ s2 ++ c :: rest)) by (auto; apply LEN; lia). cbn [bind].
  assert (T2 := tail_app _ _ _ _ T).
  assert (NX : exists y q, s2 ++ c :: rest = y :: q /\ ~ letter y). { destruct s2 as [|y s2]; [exists c, rest; split; [reflexivity|]; destruct HC as [(_ & X)| ->]; [congruence|unfold letter; lia]|]. exists y. eexists. split; [reflexivity|]. inversion HS2 as [|? ? (_ & _ & HY)]; auto. }
  destruct NX as (y & q & EY & NY). assert (T3 := T2). rewrite EY in T3. rewrite (take_line_ok w y q) by (auto; try lia; apply LEN; lia). cbn [bind]. rewrite Z.add_0_l.
  destruct (splice_holds sb w Lsb ZW) as (sb' & EB & HB). rewrite EB. cbn [bind]. rewrite (holds_word sb' w) by (auto; apply digits_word, HN). cbn [bind]. destruct (atoi_number v w HN) as (-> & _); [lia|]. cbn [bind]. rewrite u8_small by lia. rewrite wr_ok by lia. cbn [bind].
  assert (T4 := tail_app _ _ _ _ T2). assert (GC : negb (isalnum c) && negb (c =? 0) = false) by (destruct HC as [(HC & _)| ->]; [rewrite (proj2 (letter_alnum c) HC); reflexivity|reflexivity]). rewrite (skip_line_ok s2 c rest) by (auto; apply LEN; lia). cbn [bind].
  exists sb'. split; [apply HB|]. assert (T5 := tail_app _ _ _ _ T4). rewrite !zlen_app. replace (li + (zlen s + (zlen w + zlen s2))) with (li + zlen s + zlen w + zlen s2) by lia. auto.
Qed.
Lemma line_nums_ok : forall vs l, numbers vs l -> forall s fuel lb sb d li di t, Forall separator s -> Forall (fun v => 0 <= v < 256) vs -> tail lb li (s ++ l ++ 0 :: t) -> zlen lb = 180 -> zlen sb = 180 -> 0 <= di -> di + zlen vs <= zlen d -> (length vs < fuel)%nat ->
  exists sb', zlen sb' = 180 /\ line_nums fuel false lb sb d li di = Ok (sb', splice d di vs, di + zlen vs).
Proof.
  intros vs l N. induction N as [v w s2 HN HS2|v w s2 vs l HN HS2 NE N IH]; intros s fuel lb sb d li di t HS HV T Llb Lsb Hdi Hd Hf.
  - change (zlen [v]) with 1 in *. destruct fuel as [|fuel]; [lia|]. inversion HV; subst. rewrite <- app_assoc in T. destruct (line_step s v w s2 0 t fuel lb sb d li di) as (sb' & L' & T' & ->); auto; try lia.
    exists sb'. split; [auto|]. cbn [length] in Hf. destruct fuel as [|fuel]; [lia|]. cbn [line_nums]. rewrite (rd_tail _ _ _ _ T'). reflexivity.
  - inversion HV as [|? ? HV1 HV2]; subst. rewrite zlen_cons in *. assert (0 <= zlen vs) by auto. destruct fuel as [|fuel]; [lia|]. cbn [length] in Hf. destruct (numbers_start _ _ N) as (c & r & EL & LC). rewrite <- !app_assoc in T. rewrite EL in T. cbn [app] in T.
    destruct (line_step s v w s2 c (r ++ 0 :: t) fuel lb sb d li di) as (sb' & L' & T' & ->); auto; try lia. change (c :: r ++ 0 :: t) with ((c :: r) ++ 0 :: t) in T'. rewrite <- EL in T'.
    destruct (IH [] fuel lb sb' (upd d di v) (li + zlen (s ++ w ++ s2)) (di + 1) t) as (sb2 & L2 & ->); auto; try lia; try (rewrite zlen_upd by lia; lia). exists sb2. split; [auto|]. rewrite splice_cons by lia. do 2 f_equal. lia.
Qed.

Lemma numbers_len : forall vs l, numbers vs l -> zlen vs <= zlen l /\ vs <> [].
Proof.
  intros vs l N. induction N as [v w s HN HS|v w s vs l HN HS NE N IH]; (split; [|discriminate]); rewrite !zlen_app; assert (0 <= zlen s) by auto; destruct (number_letters _ _ HN) as (_ & B & _); (destruct w as [|c w]; [congruence|]); rewrite !zlen_cons; assert (0 <= zlen w) by auto; [change (zlen (@nil Z)) with 0|destruct IH]; lia.
Qed.
Definition plain_char (x : Z) : Prop := 1 <= x < 256 /\ x <> 10.
Lemma numbers_plain : forall vs l, numbers vs l -> Forall plain_char l.
Proof.
  assert (A : forall v w, number v w -> Forall plain_char w) by (intros v w (_ & D & _); eapply Forall_impl; [|exact D]; intros c Hc; cbv beta in Hc; unfold plain_char in *; lia).
  assert (B : forall s, Forall separator s -> Forall plain_char s) by (intros s HS; eapply Forall_impl; [|exact HS]; intros c (H1 & H2 & _); split; auto).
  intros vs l N. induction N; repeat (apply Forall_app; split); eauto.
Qed.
Lemma line_plain : forall vs l, text_line vs l -> Forall plain_char l /\ zlen l < 180.
Proof.
  intros vs l N. inversion N as [|c L H|s vs' l' L HS H0 HN]; subst.
  - split; [constructor|reflexivity].
  - split; [constructor; [unfold plain_char; lia|eapply Forall_impl; [|exact H]; intros x Hx; exact Hx]|rewrite zlen_cons; lia].
  - split; [|auto]. apply Forall_app. split; [eapply Forall_impl; [|exact HS]; intros c (H1 & H2 & _); split; auto|eapply numbers_plain; eauto].
Qed.

Section Input.
Variables (F : list Z).
Hypothesis HF : zlen F < 2147483648.
Notation R p e := (Rd F p (zlen F) e).

Lemma fgets_ok : forall l fuel lb k p e c s, Forall plain_char l -> c = 10 -> tail F p (l ++ c :: s) -> 0 <= k -> k + zlen l <= 180 -> zlen lb = 180 -> (length l < fuel)%nat ->
  fgets_chars fuel lb k (R p e) = Ok (10, k + zlen l, splice lb k l, R (p + zlen l + 1) e).
Proof.
  induction l as [|a l IH]; intros fuel lb k p e c s HP HC T Hk HL Llb Hf; (destruct fuel as [|fuel]; [cbn in Hf; lia|]); cbn [fgets_chars]; cbn [app] in T; destruct (getc_tail F HF _ _ _ e T) as (-> & T' & _); cbn [bind].
  - subst c. change (negb (10 =? 10)) with false. rewrite andb_false_r. cbn [andb]. change (zlen (@nil Z)) with 0 in *. rewrite splice_nil by lia. rewrite !Z.add_0_r. reflexivity.
  - inversion HP as [|? ? (HA & HB) HP']; subst. rewrite zlen_cons in *. assert (0 <= zlen l) by auto. change IL_EOF with (-1). unfold MAX_BUFFER. replace (negb (a =? 0) && negb (a =? 10) && negb (a =? -1) && (k <? 180)) with true by lia.
    rewrite wr_ok by lia. cbn [bind]. cbn [length] in Hf. rewrite (IH fuel (upd lb k a) (k + 1) (p + 1) e 10 s) by (auto; try lia; rewrite zlen_upd by lia; auto). rewrite splice_cons by lia. do 2 f_equal; [f_equal; f_equal; lia|f_equal; lia].
Qed.
(** the last line, without a line end *)
Lemma fgets_eof : forall l fuel lb k p e, Forall plain_char l -> 0 < zlen F -> tail F p l -> 0 <= k -> k + zlen l <= 180 -> zlen lb = 180 -> (length l < fuel)%nat ->
  exists r, fgets_chars fuel lb k (R p e) = Ok (-1, k + zlen l, splice lb k l, r).
Proof.
  induction l as [|a l IH]; intros fuel lb k p e HP H0 T Hk HL Llb Hf; (destruct fuel as [|fuel]; [cbn in Hf; lia|]); cbn [fgets_chars].
  - assert (TL := tail_len _ _ _ T). change (zlen (@nil Z)) with 0 in *. rewrite (C21_getc F) by (try (split; [reflexivity|cbn [rpos Lump.rsize]; split; [reflexivity|lia]]); lia). cbn [rpos rerr]. replace (p <? zlen F) with false by lia. cbn [bind]. change IL_EOF with (-1). change (negb (-1 =? -1)) with false. rewrite andb_false_r. cbn [andb].
    rewrite splice_nil by lia. rewrite !Z.add_0_r. eexists. reflexivity.
  - destruct (getc_tail F HF _ _ _ e T) as (-> & T' & _). cbn [bind]. inversion HP as [|? ? (HA & HB) HP']; subst. rewrite zlen_cons in *. assert (0 <= zlen l) by auto. change IL_EOF with (-1). unfold MAX_BUFFER. replace (negb (a =? 0) && negb (a =? 10) && negb (a =? -1) && (k <? 180)) with true by lia.
    rewrite wr_ok by lia. cbn [bind]. cbn [length] in Hf. destruct (IH fuel (upd lb k a) (k + 1) (p + 1) e) as (r & ->); auto; try lia; [rewrite zlen_upd by lia; auto|]. exists r. rewrite splice_cons by lia. do 2 f_equal. f_equal. f_equal. lia.
Qed.
Lemma get_line_ok : forall l fuel lb p e s, Forall plain_char l -> tail F p (l ++ 10 :: s) -> zlen l < 180 -> zlen lb = 180 -> (length l < fuel)%nat ->
  exists lb', get_line fuel lb (R p e) = Ok (true, lb', R (p + zlen l + 1) e) /\ holds lb' l /\ tail F (p + zlen l + 1) s.
Proof.
  intros l fuel lb p e s HP T HL Llb Hf. unfold get_line. rewrite (fgets_ok l fuel lb 0 p e 10 s) by (auto; lia). cbn [bind]. destruct (splice_holds lb l Llb HL) as (lb' & EB & HB). rewrite Z.add_0_l, EB. cbn [bind]. change IL_EOF with (-1). change (10 =? -1) with false. cbn [andb negb]. exists lb'. split; [reflexivity|]. split; [auto|].
  assert (T2 := tail_app _ _ _ _ T). destruct (tail_cons _ _ _ _ T2) as (_ & _ & T3). exact T3.
Qed.
Lemma get_line_eof : forall l fuel lb p e, Forall plain_char l -> 0 < zlen l < 180 -> tail F p l -> zlen lb = 180 -> (length l < fuel)%nat ->
  exists lb' r, get_line fuel lb (R p e) = Ok (true, lb', r) /\ holds lb' l.
Proof.
  intros l fuel lb p e HP HL T Llb Hf. assert (TL := tail_len _ _ _ T). assert (0 <= p) by (destruct T; lia). unfold get_line. destruct (fgets_eof l fuel lb 0 p e) as (r & ->); auto; try lia. cbn [bind]. destruct (splice_holds lb l Llb) as (lb' & EB & HB); [lia|]. rewrite Z.add_0_l, EB. cbn [bind]. replace (zlen l =? 0) with false by lia. rewrite andb_false_r. cbn [negb]. exists lb', r. auto.
Qed.

(** the values of one line *)
Lemma line_values : forall vs l lb sb d di, text_line vs l -> holds lb l -> Forall (fun v => 0 <= v < 256) vs -> zlen sb = 180 -> 0 <= di -> di + zlen vs <= zlen d ->
  exists sb' c, zlen sb' = 180 /\ rd lb 0 = Ok c /\ (if c =? 35 then vs = [] else line_nums (S (length lb)) false lb sb d 0 di = Ok (sb', splice d di vs, di + zlen vs)).
Proof.
  intros vs l lb sb d di TX (L & t & E) HV Lsb Hdi Hd. assert (T0 := tail_start lb). rewrite E in T0 at 2. inversion TX as [|c Lc H|s vs' l' Lc HS H0 HN]; subst.
  - exists sb, 0. split; [auto|]. cbn [app] in T0 |- *. split; [apply (rd_tail _ _ _ _ T0)|]. change (0 =? 35) with false. cbv iota. cbn [line_nums]. rewrite (rd_tail _ _ _ _ T0). cbn [bind]. change ((0 =? 0) || (0 =? 10)) with true. cbv iota. change (zlen (@nil Z)) with 0 in *. rewrite splice_nil by lia. rewrite Z.add_0_r. reflexivity.
  - exists sb, 35. split; [auto|]. cbn [app] in T0 |- *. split; [apply (rd_tail _ _ _ _ T0)|]. reflexivity.
  - rewrite <- app_assoc in *. set (lb := s ++ l' ++ 0 :: t) in *.
    assert (C : exists a r, s ++ l' ++ 0 :: t = a :: r /\ a <> 35). { destruct (numbers_start _ _ HN) as (b & r & -> & LB). destruct s as [|a s]; [exists b; eexists; split; [reflexivity|]; unfold letter in LB; lia|]. exists a. eexists. split; [reflexivity|]. exact H0. }
    destruct C as (a & r & EA & NA). destruct (numbers_len _ _ HN) as (LN & _).
    destruct (line_nums_ok _ _ HN s (S (length lb)) lb sb d 0 di t) as (sb' & L' & EN); auto. { rewrite zlen_app in Lc. assert (0 <= zlen s) by auto. unfold zlen in *. lia. }
    exists sb', a. split; [auto|]. split; [unfold lb in T0; rewrite EA in T0; unfold lb; rewrite EA; apply (rd_tail _ _ _ _ T0)|]. replace (a =? 35) with false by lia. exact EN.
Qed.
Lemma ascii_ok : forall vs s, text vs s -> forall fuel lb sb d di p e, tail F p s -> Forall (fun v => 0 <= v < 256) vs -> zlen lb = 180 -> zlen sb = 180 -> 0 <= di -> di + zlen vs = zlen d -> (length s < fuel)%nat ->
  exists r, ascii_lines fuel false (zlen d) lb sb d di (R p e) = Ok (splice d di vs, zlen d, r).
Proof.
  intros vs s TX. induction TX as [rest|vs l us rest TL TX IH|vs l TL NE]; intros fuel lb sb d di p e T HV Llb Lsb Hdi Hd Hf.
  - change (zlen (@nil Z)) with 0 in Hd. exists (R p e). rewrite splice_nil by lia. assert (E : di = zlen d) by lia. rewrite E. destruct fuel; cbn [ascii_lines]; rewrite Z.ltb_irrefl; reflexivity.
  - apply Forall_app in HV. destruct HV as (HV1 & HV2). rewrite zlen_app in Hd. assert (0 <= zlen vs) by auto. assert (0 <= zlen us) by auto. destruct (line_plain _ _ TL) as (PL & LL). rewrite app_length in Hf. cbn [length] in Hf.
    destruct (Z_lt_ge_dec di (zlen d)) as [LT|GE].
    + destruct fuel as [|fuel]; [lia|]. cbn [ascii_lines]. replace (di <? zlen d) with true by lia. destruct (get_line_ok l (S fuel) lb p e rest) as (lb' & -> & HB & T'); auto; [lia|]. cbn [bind negb].
      destruct (line_values vs l lb' sb d di) as (sb' & c & L' & -> & EC); auto; try lia. cbn [bind]. destruct (c =? 35).
      * subst vs. cbn [app]. apply IH; auto; try (change (zlen (@nil Z)) with 0 in Hd; lia); try apply HB.
      * rewrite EC. cbn [bind]. assert (LS : zlen (splice d di vs) = zlen d) by (apply zlen_splice; lia). rewrite <- LS. destruct (IH fuel lb' sb' (splice d di vs) (di + zlen vs) (p + zlen l + 1) e) as (r & ->); auto; try lia; try apply HB. exists r. rewrite splice_splice_adj by lia. reflexivity.
    + assert (vs = [] /\ us = []). { split; [destruct vs as [|v vs]; [reflexivity|rewrite zlen_cons in *; assert (0 <= zlen vs) by auto; lia]|destruct us as [|v us]; [reflexivity|rewrite zlen_cons in *; assert (0 <= zlen us) by auto; lia]]. } destruct H1 as (-> & ->).
      exists (R p e). cbn [app]. rewrite splice_nil by lia. change (zlen (@nil Z)) with 0 in *. assert (E : di = zlen d) by lia. rewrite E. destruct fuel; cbn [ascii_lines]; rewrite Z.ltb_irrefl; reflexivity.
  - destruct (line_plain _ _ TL) as (PL & LL). assert (P : 0 < zlen vs) by (destruct vs as [|v vs]; [congruence|rewrite zlen_cons; assert (0 <= zlen vs) by auto; lia]). destruct fuel as [|fuel]; [lia|]. cbn [ascii_lines]. replace (di <? zlen d) with true by lia.
    assert (LP : 0 < zlen l). { inversion TL as [|c Lc H|s vs' l' Lc HS H0 HN]; subst; try congruence. destruct (numbers_len _ _ HN). rewrite zlen_app. assert (0 <= zlen s) by auto. lia. }
    destruct (get_line_eof l (S fuel) lb p e) as (lb' & r & -> & HB); auto; try lia. cbn [bind negb]. destruct (line_values vs l lb' sb d di) as (sb' & c & L' & -> & EC); auto; try lia. cbn [bind]. destruct (c =? 35); [congruence|].
    rewrite EC. cbn [bind]. exists r. rewrite Hd. destruct fuel; cbn [ascii_lines]; rewrite Z.ltb_irrefl; reflexivity.
Qed.
End Input.

Definition text_kind (t N fmt : Z) : Prop := (t = 50 /\ N = 1 /\ fmt = IL_LUMINANCE) \/ (t = 51 /\ N = 3 /\ fmt = IL_RGB).
Lemma read_text : forall fuel alloc old F W H M N sb lb vs data p, allocator_ok alloc -> zlen F < 2147483648 -> (length F < fuel)%nat -> zlen sb = 180 -> zlen lb = 180 -> tail F p data ->
  1 <= W -> 1 <= H -> 1 <= N < 256 -> 1 <= M <= 255 -> text vs data -> zlen vs = W * N * H -> W * N * H < 2147483648 -> Forall (fun v => 0 <= v < 256) vs -> alloc (W * N * H) <> None ->
  ilReadAsciiPpm fuel alloc old W H M N sb lb (Rd F p (zlen F) []) = Ok (true, top_img W H N 0 vs (mkPal None 0 IL_PAL_NONE), []).
Proof.
  intros fuel alloc old F W H M N sb lb vs data p HA HF Hf Lsb Llb T HW HH HN HM TX LV HS HV Hn. unfold ilReadAsciiPpm. replace (255 <? M) with false by lia. cbv zeta. destruct (alloc (W * N * H)) as [blk|] eqn:EA; [|congruence]. assert (LB := HA _ _ EA). assert (0 < W * N * H) by (repeat apply Z.mul_pos_pos; lia).
  rewrite (init_low alloc old W H N 0 blk) by (auto; lia). cbn [bind negb]. cbv iota. rewrite low_top. unfold top_img at 1. cbn [Data]. replace (W * H * N) with (W * N * H) by ring. rewrite (u32_small (W * N * H)) by lia. replace (i32 (W * N * H)) with (W * N * H) by (unfold i32; change (2 ^ 31) with 2147483648; change (2 ^ 32) with 4294967296; lia).
  assert (LD : (length data < fuel)%nat). { destruct T as (_ & <-). rewrite skipn_length. lia. }
  destruct (ascii_ok F HF vs data TX fuel lb sb blk 0 p []) as (r & E); auto; try lia. rewrite <- LB at 1. rewrite E. cbn [bind]. rewrite LB, Z.ltb_irrefl. rewrite splice_full by lia. reflexivity.
Qed.

(** C98e: a grey or colour map written as text (lines of at most 179 characters) is loaded into the values it
    lists, if the last value needed ends a line. *)
Theorem C98_text_partial : forall fuel alloc old sb lb F t W H M N fmt h vs data, allocator_ok alloc -> bytes F -> zlen F < 2147483648 -> (length F < fuel)%nat -> zlen sb = 180 -> zlen lb = 180 ->
  text_kind t N fmt -> pnm_head t W H M h -> F = h ++ data -> 1 <= W -> 1 <= H -> 1 <= M <= 255 -> text vs data -> zlen vs = W * N * H -> W * N * H < 2147483648 -> Forall (fun v => 0 <= v < 256) vs -> alloc (W * N * H) <> None ->
  exists im, iLoadPnmInternal fuel alloc old sb lb (Rd F 0 (zlen F) []) = Ok (true, im, []) /\ shows im W H N fmt (stored vs 0 W N).
Proof.
  intros fuel alloc old sb lb F t W H M N fmt h vs data HA BF HF Hf Hsb Hlb HK HD EF HW HH HM TX LV HS HV Hn.
  assert (HN : (N = 1 \/ N = 3) /\ 49 <= t <= 54 /\ t <> 49 /\ t <> 52) by (destruct HK as [(-> & -> & ->)|(-> & -> & ->)]; lia). destruct HN as (HN & Ht & N1 & N4). destruct (pnm_area W H N) as (W2 & H2); try lia. assert (0 < W * N * H) by (repeat apply Z.mul_pos_pos; lia).
  destruct (head_ok F HF BF t W H M h data fuel sb HD Ht N1 N4) with (alloc := alloc) (old := old) (lb := lb) (e := @nil Z) as (sb' & Lsb & T & ->); auto; try lia.
  assert (RT := read_text fuel alloc old F W H M N sb' lb vs data (zlen h) HA HF Hf Lsb Hlb T HW HH ltac:(lia) HM TX LV HS HV Hn).
  assert (SH := top_shows W H N fmt vs (mkPal None 0 IL_PAL_NONE) (stored vs 0 W N) HW HH ltac:(lia) ltac:(lia) LV (fun x t c _ _ _ => eq_refl)).
  exists (top_img W H N fmt vs (mkPal None 0 IL_PAL_NONE)). split; [|exact SH].
  destruct HK as [(-> & -> & ->)|(-> & -> & ->)]; unfold pnm_pixels; cbn [Z.eqb Pos.eqb orb]; [replace (M <? 256) with true by lia|]; rewrite RT; cbn [bind negb]; replace (255 <? M) with false by lia; reflexivity.
Qed.
Print Assumptions C98_text_partial.

Lemma maximize_ok : forall W H f d p, 1 <= W -> 1 <= H -> zlen d = W * 1 * H -> Forall (fun v => v = 0 \/ v = 1) d -> exists d', PbmMaximize (top_img W H 1 f d p) = Ok (top_img W H 1 f d' p) /\ zlen d' = zlen d /\ forall i, 0 <= i < zlen d -> geti d' i = 255 * geti d i.
Proof.
  intros W H f d p HW HH L HD. assert (V : forall i, 0 <= i < zlen d -> geti d i = 0 \/ geti d i = 1). { intros i Hi. rewrite Forall_forall in HD. apply HD. unfold geti. apply nth_In. unfold zlen in Hi. lia. }
  unfold PbmMaximize. unfold top_img at 1 2. cbn [Data SizeOfPlane]. rewrite <- L.
  destruct (loop_rule _ (fun k (x : list Z) => zlen x = zlen d /\ forall i, 0 <= i < zlen d -> geti x i = if i <? k then 255 * geti d i else geti d i) 0 (zlen d) (fun i d => let! v := rd d i in if v =? 1 then wr d i 255 else Ok d) d) as (d' & E & L' & G).
  - auto.
  - split; [auto|]. intros i Hi. replace (i <? 0) with false by lia. reflexivity.
  - intros i x Hi (Lx & G). rewrite rd_ok by lia. cbn [bind]. rewrite G by lia. rewrite Z.ltb_irrefl. destruct (geti d i =? 1) eqn:E1.
    + rewrite wr_ok by lia. eexists. split; [reflexivity|]. split; [rewrite zlen_upd by lia; auto|]. intros j Hj. rewrite geti_upd by lia. destruct (j =? i) eqn:EJ; [replace j with i by lia; replace (i <? i + 1) with true by lia; lia|]. rewrite G by lia. replace (j <? i + 1) with (j <? i) by lia. reflexivity.
    + eexists. split; [reflexivity|]. split; [auto|]. intros j Hj. rewrite G by lia. destruct (Z.eq_dec j i) as [->|]; [|replace (j <? i + 1) with (j <? i) by lia; reflexivity]. rewrite Z.ltb_irrefl. replace (i <? i + 1) with true by lia. destruct (V i Hj); lia.
  - rewrite E. cbn [bind]. exists d'. split; [reflexivity|]. split; [auto|]. intros i Hi. rewrite G by auto. replace (i <? zlen d) with true by lia. reflexivity.
Qed.
(** C98f: a map of bits written as text (each bit a word of its own) is loaded, with 255 for one and 0 for zero. *)
Theorem C98_text_bits_partial : forall fuel alloc old sb lb F W H h vs data, allocator_ok alloc -> bytes F -> zlen F < 2147483648 -> (length F < fuel)%nat -> zlen sb = 180 -> zlen lb = 180 ->
  pbm_head 49 W H h -> F = h ++ data -> hd 32 data <> 32 -> 1 <= W -> 1 <= H -> text vs data -> zlen vs = W * H -> W * H < 2147483648 -> Forall (fun v => v = 0 \/ v = 1) vs -> alloc (W * H) <> None ->
  exists im, iLoadPnmInternal fuel alloc old sb lb (Rd F 0 (zlen F) []) = Ok (true, im, []) /\ shows im W H 1 IL_LUMINANCE (fun x t _ => 255 * geti vs (t * W + x)).
Proof.
  intros fuel alloc old sb lb F W H h vs data HA BF HF Hf Hsb Hlb (h0 & c & EH & HS & HC) EF H32 HW HH TX LV HS2 HV Hn.
  assert (BG : blank [c] /\ gap [c]). { destruct HC as [-> | ->]; (split; [repeat constructor|]); eexists; exists 0%nat; (split; [|cbn [repeat]; rewrite app_nil_r; reflexivity]); auto. } destruct BG as (BG & GG).
  assert (EF' : F = h0 ++ [c] ++ data) by (rewrite EF, EH, <- app_assoc; reflexivity). destruct (pnm_area W H 1) as (W2 & H2); try lia. assert (ND : data <> []) by (intros ->; cbn in H32; lia).
  destruct (start_ok F HF BF 49 W H h0 [c] data fuel sb HS) with (alloc := alloc) (old := old) (lb := lb) (e := @nil Z) as (sb' & p' & g' & LB & _ & T & G & E); auto; try lia; try discriminate. { destruct data; [congruence|exact H32]. }
  rewrite (G GG) in T. cbn [app] in T. rewrite E. replace (W =? 0) with false by lia. replace (H =? 0) with false by lia. cbn [Z.eqb Pos.eqb orb].
  assert (E1 : W * 1 * H = W * H) by ring.
  assert (HV2 : Forall (fun v => 0 <= v < 256) vs) by (eapply Forall_impl; [|exact HV]; intros v Hv; cbn in Hv; lia).
  unfold pnm_pixels. cbn [Z.eqb Pos.eqb orb]. rewrite (read_text fuel alloc old F W H 1 1 sb' lb vs data p') by (rewrite ?E1; auto; lia). cbn [bind negb].
  destruct (maximize_ok W H 0 vs (mkPal None 0 IL_PAL_NONE)) as (d' & -> & L' & G'); auto; try lia. cbn [bind]. change (255 <? 1) with false. cbv iota. eexists. split; [reflexivity|].
  apply (top_shows W H 1 IL_LUMINANCE d' (mkPal None 0 IL_PAL_NONE)); try lia. intros x t k Hx Ht Hk. assert (k = 0) by lia. subst k. rewrite Z.mul_1_r, Z.add_0_r. assert (B := off_in W H 1 x t 0 Hx Ht ltac:(lia)). apply G'. lia.
Qed.
Print Assumptions C98_text_bits_partial.
