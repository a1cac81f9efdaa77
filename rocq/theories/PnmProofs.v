(** Reading the words of a header. *)
From Coq Require Import ZArith List Lia Bool.
From Verif Require Import Base Slices Elem Enums Utility Image ImageSpec Flip Lump LumpSpec LumpProofs LumpProps CacheProps Channels Endian EndianProps ConvImgProps RleSpec RawProps Pcx PcxProofs TgaProofs BmpSpec BmpSafe BmpDecode SgiSpec SgiProofs SgiLoad Safe Small SmallSpec SmallTex SmallTexProps SmallSunProps Pal PalSpec PalJasc Pnm PnmSpec.
Import ListNotations.
Open Scope Z_scope.

Lemma skipn_skipn' : forall (l : list Z) a b, skipn a (skipn b l) = skipn (a + b) l.
Proof. induction l as [|x l IH]; intros a b; [rewrite !skipn_nil; reflexivity|]. destruct b as [|b]; [rewrite Nat.add_0_r; reflexivity|]. replace (a + S b)%nat with (S (a + b)) by lia. cbn [skipn]. apply IH. Qed.

(** the input from position [p] on is [s] *)
Definition tail (F : list Z) (p : Z) (s : list Z) : Prop := 0 <= p <= zlen F /\ skipn (Z.to_nat p) F = s.
Lemma tail_len : forall F p s, tail F p s -> zlen F = p + zlen s.
Proof. intros F p s (Hp & <-). unfold zlen in *. rewrite skipn_length. lia. Qed.
Lemma tail_app : forall F p a s, tail F p (a ++ s) -> tail F (p + zlen a) s.
Proof.
  intros F p a s T. assert (L := tail_len _ _ _ T). destruct T as (Hp & E). rewrite zlen_app in L. assert (0 <= zlen a) by auto. assert (0 <= zlen s) by auto. split; [lia|].
  rewrite Z2Nat.inj_add by lia. rewrite Nat.add_comm, <- skipn_skipn', E. rewrite skipn_app. unfold zlen. rewrite Nat2Z.id. rewrite skipn_all. rewrite Nat.sub_diag. reflexivity.
Qed.
Lemma tail_cons : forall F p c s, tail F p (c :: s) -> p < zlen F /\ geti F p = c /\ tail F (p + 1) s.
Proof.
  intros F p c s T. assert (L := tail_len _ _ _ T). rewrite zlen_cons in L. assert (0 <= zlen s) by auto. split; [lia|]. split; [|apply (tail_app F p [c] s T)].
  destruct T as (Hp & E). unfold geti. assert (G := nth_skipn_ F (Z.to_nat p) 0%nat). rewrite E in G. cbn in G. rewrite Nat.add_0_r in G. auto.
Qed.
Lemma tail_start : forall F, tail F 0 F.
Proof. intros F. split; [assert (0 <= zlen F) by auto; lia|reflexivity]. Qed.

Section Input.
Variables (F : list Z).
Hypothesis HF : zlen F < 2147483648.
Notation R p e := (Rd F p (zlen F) e).

Lemma getc_tail : forall p c s e, tail F p (c :: s) -> iGetcLump (R p e) = Ok (c, R (p + 1) e) /\ tail F (p + 1) s /\ 0 <= p < zlen F.
Proof.
  intros p c s e T. destruct (tail_cons _ _ _ _ T) as (H1 & H2 & H3). destruct T as (Hp & _). rewrite getc_in by lia. rewrite H2. split; [reflexivity|]. split; [auto|lia].
Qed.
Lemma back1 : forall p e, 1 <= p <= zlen F -> iSeekRLump (-1) IL_SEEK_CUR (R p e) = Ok (0, R (p - 1) e).
Proof.
  intros p e Hp. unfold iSeekRLump, seek_lump. cbn [rpos Lump.rsize rlump rerr]. change (IL_SEEK_CUR =? IL_SEEK_SET) with false. change (IL_SEEK_CUR =? IL_SEEK_CUR) with true. cbv iota.
  rewrite u32_small by lia. replace (zlen F <? p + -1) with false by lia. reflexivity.
Qed.

(** ** Words *)
Definition word_char (c : Z) : Prop := letter c \/ c = 95.
Definition stop (c : Z) : Prop := c = 10 \/ c = 35 \/ c = 32.
Lemma letter_alnum : forall c, isalnum c = true <-> letter c.
Proof. intros c. unfold isalnum, letter. lia. Qed.
(** the buffer starts with the string [w] *)
Definition holds (sb w : list Z) : Prop := zlen sb = 180 /\ exists t, sb = w ++ 0 :: t.

Lemma word_chars_ok : forall w c s fuel wp sb p e, Forall word_char w -> stop c -> tail F p (w ++ c :: s) -> 0 <= wp -> wp + zlen w <= 180 -> zlen sb = 180 -> (length w < fuel)%nat ->
  word_chars fuel wp sb (R p e) = Ok (Some c, wp + zlen w, splice sb wp w, R (p + zlen w + 1) e).
Proof.
  induction w as [|a w IH]; intros c s fuel wp sb p e HW HC T Hwp Hl Hs Hf; (destruct fuel as [|fuel]; [cbn in Hf; lia|]); cbn [word_chars].
  - cbn [app] in T. destruct (getc_tail _ _ _ e T) as (-> & _). cbn [bind]. change IL_EOF with (-1). replace ((c =? -1) || (c =? 10) || (c =? 35) || (c =? 32)) with true by (unfold stop in HC; lia).
    change (zlen (@nil Z)) with 0 in *. rewrite splice_nil by lia. rewrite !Z.add_0_r. reflexivity.
  - cbn [app] in T. destruct (getc_tail _ _ _ e T) as (-> & T' & _). cbn [bind]. inversion HW as [|? ? HA HW']; subst. rewrite zlen_cons in *. assert (0 <= zlen w) by auto. change IL_EOF with (-1).
    replace ((a =? -1) || (a =? 10) || (a =? 35) || (a =? 32)) with false by (unfold word_char, letter in HA; lia). unfold MAX_BUFFER. replace (180 <=? wp) with false by lia.
    replace (negb (isalnum a) && negb (a =? 95)) with false. 2:{ destruct HA as [HA | ->]; [apply letter_alnum in HA; rewrite HA; reflexivity|reflexivity]. }
    cbv iota. rewrite wr_ok by lia. cbn [bind]. cbn [length] in Hf. rewrite (IH c s fuel (wp + 1) (upd sb wp a) (p + 1) e) by (auto; try lia; rewrite zlen_upd by lia; auto). rewrite splice_cons by lia.
    replace (p + 1 + zlen w + 1) with (p + (1 + zlen w) + 1) by lia. replace (wp + 1 + zlen w) with (wp + (1 + zlen w)) by lia. reflexivity.
Qed.
Lemma skip_chars_ok : forall w c s fuel (go : Z -> bool) p e, Forall (fun x => go x = true /\ x <> -1) w -> go c = false -> tail F p (w ++ c :: s) -> (length w < fuel)%nat ->
  skip_chars fuel go (R p e) = Ok (c, R (p + zlen w + 1) e).
Proof.
  induction w as [|a w IH]; intros c s fuel go p e HW HC T Hf; (destruct fuel as [|fuel]; [cbn in Hf; lia|]); cbn [skip_chars]; cbn [app] in T; destruct (getc_tail _ _ _ e T) as (-> & T' & _); cbn [bind].
  - rewrite HC, andb_false_r. change (zlen (@nil Z)) with 0. rewrite Z.add_0_r. reflexivity.
  - inversion HW as [|? ? (HA & HA1) HW']; subst. rewrite HA. change IL_EOF with (-1). replace (a =? -1) with false by lia. cbn [andb negb]. cbn [length] in Hf. rewrite (IH c s) by (auto; lia). rewrite zlen_cons. do 3 f_equal. lia.
Qed.

(** a space, a line end or a comment *)
Definition stopper (s : list Z) : Prop := s = [32] \/ s = [10] \/ exists c, Forall (fun x => x <> 10) c /\ s = 35 :: c ++ [10].
Lemma strip_spaces : forall b, blank b -> exists n b', b = repeat 32 n ++ b' /\ blank b' /\ hd 0 b' <> 32.
Proof.
  intros b B. induction B as [|b B (n & b' & -> & B' & H')|b B IH|c b HC B IH].
  - exists 0%nat, []. split; [reflexivity|]. split; [constructor|]. cbn. lia.
  - exists (S n), b'. auto.
  - exists 0%nat, (10 :: b). split; [reflexivity|]. split; [constructor; auto|]. cbn. lia.
  - exists 0%nat, (35 :: c ++ 10 :: b). split; [reflexivity|]. split; [constructor; auto|]. cbn. lia.
Qed.
Lemma blank_split : forall b, blank b -> b <> [] -> exists s n b', stopper s /\ b = s ++ repeat 32 n ++ b' /\ blank b' /\ hd 0 b' <> 32.
Proof.
  intros b B N. inversion B as [E|b0 B0 E|b0 B0 E|c b0 HC B0 E]; subst; [congruence| | |]; destruct (strip_spaces _ B0) as (n & b' & -> & B' & H').
  - exists [32], n, b'. split; [left; reflexivity|auto].
  - exists [10], n, b'. split; [right; left; reflexivity|auto].
  - exists (35 :: c ++ [10]), n, b'. split; [right; right; exists c; auto|]. split; [|auto]. cbn [app]. rewrite <- app_assoc. reflexivity.
Qed.

(** the part of the loop after the characters of a word *)
Definition after (fuel : nat) (c : Z) (r : reader) : res (Z * reader) :=
  let! r := if c =? 35 then let! (_, r) := skip_chars fuel (fun c => negb (c =? 10)) r in Ok r else Ok r in
  let! (c, r) := skip_chars fuel (fun c => c =? 32) r in
  let! (_, r) := iSeekRLump (-1) IL_SEEK_CUR r in
  Ok (c, r).
Lemma get_word_eq : forall f final wp sb r, get_word (S f) final wp sb r =
  (let! (c, wp, sb, r) := word_chars (S f) wp sb r in
   match c with
   | None => Ok (false, sb, r, [])
   | Some c =>
      if c =? IL_EOF then Ok (false, sb, r, []) else
      let! sb := wr sb wp 0 in
      if final then if wp =? 0 then Ok (false, sb, r, [IL_INVALID_FILE_HEADER]) else Ok (true, sb, r, [])
      else let! (c, r) := after (S f) c r in
           if 0 <? wp then (if c =? -1 then Ok (false, sb, r, [IL_INVALID_FILE_HEADER]) else Ok (true, sb, r, [])) else get_word f final wp sb r
   end).
Proof.
  intros. cbn [get_word]. unfold after. destruct (word_chars (S f) wp sb r) as [[[[[c|] wp'] sb'] r']| |]; cbn [bind]; auto. destruct (c =? IL_EOF); auto. destruct (wr sb' wp' 0); cbn [bind]; auto. destruct final; auto.
  set (k := if c =? 35 then _ else _). destruct k as [r0| |]; cbn [bind]; auto. destruct (skip_chars (S f) (fun c0 => c0 =? 32) r0) as [[c1 r1]| |]; cbn [bind]; auto. destruct (iSeekRLump (-1) IL_SEEK_CUR r1) as [[x r2]| |]; cbn [bind]; auto.
Qed.
Lemma after_ok : forall s n c rest fuel p e, bytes F -> stopper s -> c <> 32 -> tail F p (s ++ repeat 32 n ++ c :: rest) -> (length s + n < fuel)%nat ->
  after fuel (hd 0 s) (R (p + 1) e) = Ok (c, R (p + zlen s + Z.of_nat n) e) /\ stop (hd 0 s) /\ tail F (p + zlen s + Z.of_nat n) (c :: rest).
Proof.
  intros s n c rest fuel p e BF HS HC T Hf.
  assert (T2 := tail_app _ _ _ _ T). assert (T3 := tail_app _ _ _ _ T2). rewrite zlen_repeat in T3.
  assert (SK : skip_chars fuel (fun c => c =? 32) (R (p + zlen s) e) = Ok (c, R (p + zlen s + Z.of_nat n + 1) e)).
  { rewrite (skip_chars_ok (repeat 32 n) c rest) by (auto; try (rewrite repeat_length; lia); try lia; try (apply Forall_forall; intros x Hx; apply repeat_spec in Hx; subst x; split; [reflexivity|lia])). rewrite zlen_repeat. reflexivity. }
  assert (BK : iSeekRLump (-1) IL_SEEK_CUR (R (p + zlen s + Z.of_nat n + 1) e) = Ok (0, R (p + zlen s + Z.of_nat n) e)).
  { destruct (tail_cons _ _ _ _ T3) as (L3 & _ & T4). destruct T3 as (L5 & _). rewrite back1 by lia. do 3 f_equal. lia. }
  destruct HS as [-> | [-> | (w & HW & ->)]].
  - split; [|split; [unfold stop; cbn; lia|exact T3]]. unfold after. cbn [hd]. change (32 =? 35) with false. cbv iota. cbn [bind]. change (zlen [32]) with 1 in *. rewrite SK. cbn [bind]. rewrite BK. reflexivity.
  - split; [|split; [unfold stop; cbn; lia|exact T3]]. unfold after. cbn [hd]. change (10 =? 35) with false. cbv iota. cbn [bind]. change (zlen [10]) with 1 in *. rewrite SK. cbn [bind]. rewrite BK. reflexivity.
  - split; [|split; [unfold stop; cbn; lia|exact T3]]. unfold after. cbn [hd]. change (35 =? 35) with true. cbv iota. cbn [app] in T. destruct (tail_cons _ _ _ _ T) as (_ & _ & T1). rewrite <- app_assoc in T1. cbn [app] in T1.
    assert (BW : Forall (fun x => negb (x =? 10) = true /\ x <> -1) w).
    { apply Forall_forall. intros x Hx. rewrite Forall_forall in HW. split; [specialize (HW x Hx); cbn in HW; lia|]. apply In_nth with (d := 0) in Hx. destruct Hx as (i & Hi & Ex).
      assert (T1' := tail_len _ _ _ T1). destruct T1 as ((P0 & P1) & E1). assert (GX : geti F (p + 1 + Z.of_nat i) = x).
      { unfold geti. replace (Z.to_nat (p + 1 + Z.of_nat i)) with (Z.to_nat (p + 1) + i)%nat by lia. rewrite <- nth_skipn_, E1. rewrite app_nth1 by auto. exact Ex. }
      rewrite zlen_app in T1'. assert (0 <= zlen (10 :: repeat 32 n ++ c :: rest)) by auto. unfold zlen in T1' at 2. specialize (BF (p + 1 + Z.of_nat i) ltac:(lia)). lia. }
    cbn [length] in Hf. rewrite app_length in Hf. cbn [length] in Hf.
    rewrite (skip_chars_ok w 10 (repeat 32 n ++ c :: rest)) by (auto; lia). cbn [bind].
    replace (p + 1 + zlen w + 1) with (p + zlen (35 :: w ++ [10])) by (rewrite zlen_cons, zlen_app; change (zlen [10]) with 1; lia). rewrite SK. cbn [bind]. rewrite BK. reflexivity.
Qed.

Lemma splice_holds : forall sb w, zlen sb = 180 -> zlen w < 180 -> exists sb', wr (splice sb 0 w) (zlen w) 0 = Ok sb' /\ holds sb' w.
Proof.
  intros sb w L HW. assert (0 <= zlen w) by auto. assert (LS : zlen (splice sb 0 w) = 180) by (rewrite zlen_splice by lia; auto). rewrite wr_ok by lia. eexists. split; [reflexivity|]. split; [rewrite zlen_upd by lia; auto|].
  exists (skipn (S (length w)) sb). unfold upd. replace (zlen w) with (0 + zlen w) by lia. rewrite splice_splice_adj by (change (zlen [0]) with 1; lia). unfold splice. change (Z.to_nat 0) with 0%nat. cbn [firstn app]. rewrite <- app_assoc. cbn [app]. do 2 f_equal.
  f_equal. unfold zlen. rewrite app_length. cbn [length]. lia.
Qed.

(** one word after blanks; afterwards the input stands at the first character that is no space *)
Lemma get_word_ok : forall m b w s n c rest fuel sb p e, bytes F -> (length b <= m)%nat -> blank b -> Forall word_char w -> w <> [] -> zlen w < 180 -> stopper s -> c <> 32 -> zlen sb = 180 ->
  tail F p (b ++ w ++ s ++ repeat 32 n ++ c :: rest) -> (length b + length w + length s + n < fuel)%nat ->
  exists sb', get_word fuel false 0 sb (R p e) = Ok (true, sb', R (p + zlen b + zlen w + zlen s + Z.of_nat n) e, []) /\ holds sb' w /\ tail F (p + zlen b + zlen w + zlen s + Z.of_nat n) (c :: rest).
Proof.
  induction m as [|m IH]; intros b w s n c rest fuel sb p e BF Hm HB HW NW LW HS HC Hsb T Hf.
  - destruct b as [|x b]; [|cbn in Hm; lia]. cbn [app] in T. change (zlen (@nil Z)) with 0. rewrite Z.add_0_r. destruct fuel as [|fuel]; [lia|]. rewrite get_word_eq.
    assert (T2 := tail_app _ _ _ _ T). assert (TS : exists s', s = hd 0 s :: s'). { destruct HS as [-> | [-> | (q & _ & ->)]]; eexists; reflexivity. } destruct TS as (s' & ES).
    destruct (after_ok s n c rest (S fuel) (p + zlen w) e) as (EA & SP & TA); auto; [cbn [length] in Hf; lia|].
    assert (T' := T). rewrite ES in T'. cbn [app] in T'. rewrite (word_chars_ok w (hd 0 s) (s' ++ repeat 32 n ++ c :: rest)) by (auto; try lia; rewrite ?ES in *; cbn [length] in *; lia). cbn [bind].
    change IL_EOF with (-1). replace (hd 0 s =? -1) with false by (unfold stop in SP; lia). destruct (splice_holds sb w Hsb LW) as (sb' & EW & HH). rewrite Z.add_0_l, EW. cbn [bind].
    rewrite EA. cbn [bind]. assert (0 < zlen w) by (destruct w; [congruence|rewrite zlen_cons; assert (0 <= zlen w) by auto; lia]). replace (0 <? zlen w) with true by lia.
    assert (c <> -1). { destruct (tail_cons _ _ _ _ TA) as (LA & GA & _). destruct TA as (PA & _). specialize (BF (p + zlen w + zlen s + Z.of_nat n) ltac:(lia)). lia. }
    replace (c =? -1) with false by lia. exists sb'. auto.
  - destruct b as [|x b]; [apply (IH [] w s n c rest fuel sb p e); auto; cbn; lia|]. destruct (blank_split _ HB ltac:(discriminate)) as (s1 & n1 & b' & HS1 & EB & HB' & HD').
    assert (NX : exists c1 r1, b' ++ w ++ s ++ repeat 32 n ++ c :: rest = c1 :: r1 /\ c1 <> 32).
    { destruct b' as [|y b']; [|exists y; eexists; split; [reflexivity|exact HD']]. destruct w as [|y w]; [congruence|]. exists y. eexists. split; [reflexivity|]. inversion HW as [|? ? HY]; subst. unfold word_char, letter in HY. lia. }
    destruct NX as (c1 & r1 & EN & NC1). rewrite EB in *. rewrite <- !app_assoc in T. destruct fuel as [|fuel]; [lia|]. rewrite get_word_eq.
    assert (TS : exists s', s1 = hd 0 s1 :: s'). { destruct HS1 as [-> | [-> | (q & _ & ->)]]; eexists; reflexivity. } destruct TS as (s' & ES).
    rewrite !app_length, repeat_length in Hf, Hm. assert (L1 : (1 <= length s1)%nat) by (rewrite ES; cbn; lia).
    assert (T' := T). rewrite EN in T'. destruct (after_ok s1 n1 c1 r1 (S fuel) p e) as (EA & SP & TA); auto; [lia|].
    assert (T'' := T). rewrite ES in T''. cbn [app] in T''. rewrite (word_chars_ok [] (hd 0 s1) (s' ++ repeat 32 n1 ++ b' ++ w ++ s ++ repeat 32 n ++ c :: rest)) by (auto; try (change (zlen (@nil Z)) with 0); try lia; cbn; lia). cbn [bind].
    change IL_EOF with (-1). replace (hd 0 s1 =? -1) with false by (unfold stop in SP; lia). rewrite splice_nil by lia. change (0 + zlen (@nil Z)) with 0. rewrite wr_ok by lia. cbn [bind]. change (p + zlen (@nil Z) + 1) with (p + 0 + 1). rewrite Z.add_0_r. rewrite EA. cbn [bind]. change (0 <? 0) with false. cbv iota.
    rewrite <- EN in TA. destruct (IH b' w s n c rest fuel (upd sb 0 0) (p + zlen s1 + Z.of_nat n1) e) as (sb' & E' & H' & TT); auto; try lia; [rewrite zlen_upd by lia; auto|].
    exists sb'. rewrite !zlen_app, zlen_repeat. replace (p + (zlen s1 + (Z.of_nat n1 + zlen b')) + zlen w + zlen s + Z.of_nat n) with (p + zlen s1 + Z.of_nat n1 + zlen b' + zlen w + zlen s + Z.of_nat n) by lia. auto.
Qed.
Lemma get_word_final : forall w c rest fuel sb p e, bytes F -> Forall word_char w -> w <> [] -> zlen w < 180 -> stop c -> zlen sb = 180 -> tail F p (w ++ c :: rest) -> (length w < fuel)%nat ->
  exists sb', get_word fuel true 0 sb (R p e) = Ok (true, sb', R (p + zlen w + 1) e, []) /\ holds sb' w /\ tail F (p + zlen w + 1) rest.
Proof.
  intros w c rest fuel sb p e BF HW NW LW HC Hsb T Hf. destruct fuel as [|fuel]; [lia|]. rewrite get_word_eq. rewrite (word_chars_ok w c rest) by (auto; lia). cbn [bind].
  change IL_EOF with (-1). replace (c =? -1) with false by (unfold stop in HC; lia). destruct (splice_holds sb w Hsb LW) as (sb' & EW & HH). rewrite Z.add_0_l, EW. cbn [bind].
  assert (0 < zlen w) by (destruct w; [congruence|rewrite zlen_cons; assert (0 <= zlen w) by auto; lia]). replace (zlen w =? 0) with false by lia. exists sb'. split; [reflexivity|]. split; [auto|].
  assert (T2 := tail_app _ _ _ _ T). destruct (tail_cons _ _ _ _ T2) as (_ & _ & T3). exact T3.
Qed.
Lemma not_eof : forall p e c s, tail F p (c :: s) -> iEofLump (R p e) = false.
Proof. intros p e c s T. destruct (tail_cons _ _ _ _ T) as (L & _). destruct T as (P & _). unfold iEofLump. cbn [Lump.rsize rpos]. destruct (zlen F =? 0); [reflexivity|]. lia. Qed.

(** ** Numbers *)
Lemma cword_ok : forall w t, Forall (fun c => c <> 0) w -> cword (w ++ 0 :: t) = Ok w.
Proof. induction w as [|c w IH]; intros t HW; [reflexivity|]. inversion HW; subst. cbn [app cword]. replace (c =? 0) with false by lia. rewrite IH by auto. reflexivity. Qed.
Lemma word_nonzero : forall w, Forall word_char w -> Forall (fun c => c <> 0) w.
Proof. intros w H. eapply Forall_impl; [|exact H]. intros c HC. unfold word_char, letter in HC. lia. Qed.
Lemma holds_word : forall sb w, holds sb w -> Forall word_char w -> cword sb = Ok w.
Proof. intros sb w (_ & t & ->) HW. apply cword_ok, word_nonzero, HW. Qed.
Lemma digits_word : forall w, Forall (fun c => 48 <= c <= 57) w -> Forall word_char w.
Proof. intros w H. eapply Forall_impl; [|exact H]. intros c HC. left. left. exact HC. Qed.
Lemma atoi_number : forall v w, number v w -> v < 2147483648 -> atoi w = Ok v /\ 0 <= v.
Proof.
  intros v w (NW & HD & HV & _) Hv. assert (P : 0 <= v). { rewrite <- HV. unfold value. assert (G : forall l a, Forall (fun c => 48 <= c <= 57) l -> 0 <= a -> 0 <= fold_left (fun a c => 10 * a + (c - 48)) l a). { induction l as [|c l IH]; intros a HL Ha; [exact Ha|]. inversion HL; subst. cbn [fold_left]. apply IH; [auto|lia]. } apply G; [auto|lia]. }
  split; [|auto]. destruct w as [|c w]; [congruence|]. unfold atoi. inversion HD; subst. replace (c =? 45) with false by lia. replace (c =? 43) with false by lia. rewrite atoi_digits_val by auto. change (val_from 0 (c :: w)) with (value (c :: w)).
  rewrite (proj2 (Z.leb_le _ _)) by lia. rewrite (proj2 (Z.leb_le _ _)) by lia. reflexivity.
Qed.
Lemma word_num_ok : forall sb v w, holds sb w -> number v w -> v < 2147483648 -> word_num sb = Ok v.
Proof.
  intros sb v w HH HN Hv. unfold word_num. rewrite (holds_word sb w) by (auto; apply digits_word, HN). cbn [bind]. destruct (atoi_number v w HN Hv) as (-> & P). cbn [bind]. rewrite u32_small by lia. reflexivity.
Qed.
End Input.
