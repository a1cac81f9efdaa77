(** Reading codes from sub-blocks. *)
From Coq Require Import ZArith List Lia Bool.
From Verif Require Import Base Slices BitLemmas Elem Enums Utility Image Lump LumpProofs CacheProps SmallSunProps PnmProofs Gif GifSpec.
Import ListNotations.
Open Scope Z_scope.

Lemma le_number_nonneg : forall d, bytes d -> 0 <= le_number d.
Proof. intros d B. apply bytes_Forall in B. induction B; cbn [le_number]; lia. Qed.

Section Input.
Variables (F : list Z).
Hypothesis HF : zlen F < 2147483648.
Notation R p e := (Rd F p (zlen F) e).

(** [d] are the bytes still to be read, before the end of the blocks; [rest] follows in the file *)
Definition ahead (s : bitst) (d rest : list Z) : Prop :=
  zlen (byte_buff s) = 257 /\ 0 <= navail s /\ 0 <= pbytes s /\ pbytes s + navail s <= 257 /\
  exists d2 l e p, input s = R p e /\ tail F p (l ++ rest) /\ sub_blocks d2 l /\ d = slice (byte_buff s) (pbytes s) (navail s) ++ d2.

Lemma fill_ok : forall a i bb p e s, bytes a -> zlen bb = 257 -> 0 <= i -> i + zlen a <= 257 -> tail F p (a ++ s) ->
  fill (length a) i bb (R p e) = Ok (true, splice bb i a, R (p + zlen a) e).
Proof.
  induction a as [|x a IH]; intros i bb p e s B LB Hi Ha T; cbn [length fill].
  - rewrite splice_nil by (rewrite zlen_nil in Ha; lia). rewrite zlen_nil, Z.add_0_r. reflexivity.
  - cbn [app] in T. destruct (getc_tail F HF _ _ _ e T) as (-> & T' & P). cbn [bind]. apply bytes_Forall in B. inversion B as [|? ? BX BA]; subst. apply bytes_Forall in BA.
    change IL_EOF with (-1). replace (x =? -1) with false by lia. rewrite zlen_cons in *. assert (0 <= zlen a) by auto. rewrite u8_small by lia. rewrite wr_ok by lia. cbn [bind].
    rewrite (IH _ _ _ _ s) by (auto; rewrite ?zlen_upd; lia). rewrite splice_cons by lia. do 3 f_equal. lia.
Qed.

Lemma tail_bytes : forall p a s, bytes F -> tail F p (a ++ s) -> bytes a.
Proof.
  intros p a s B T. assert (L := tail_len _ _ _ T). destruct T as (P & E). apply bytes_Forall. apply bytes_Forall in B. rewrite <- (firstn_skipn (Z.to_nat p) F) in B. rewrite E in B.
  apply Forall_app in B. destruct B as (_ & B). apply Forall_app in B. apply B.
Qed.

Lemma next_byte_ok : forall s b d rest, bytes F -> ahead s (b :: d) rest ->
  exists s', next_byte s = Ok (true, s') /\ ahead s' d rest /\ b1 s' = b /\ nbits s' = nbits s.
Proof.
  intros s b d rest BF (LB & Hn & Hp & HB & d2 & l & e & p & EI & T & SB & ED). unfold next_byte. destruct (navail s <=? 0) eqn:EN.
  - assert (navail s = 0) by lia. rewrite H, slice_0 in ED. cbn [app] in ED. subst d2. inversion SB as [|a data l' Ha SB' E1 E2]; subst. cbn [app] in T.
    destruct (getc_tail F HF _ _ _ e T) as (EC & T' & P). rewrite EI, EC. cbn [bind]. change IL_EOF with (-1). replace (zlen a =? -1) with false by lia.
    rewrite <- app_assoc in T'. replace (Z.to_nat (zlen a)) with (length a) by (unfold zlen; lia). rewrite (fill_ok a 0 _ _ _ (l' ++ rest)) by (auto; try lia; eapply tail_bytes; eauto). cbn [bind negb].
    destruct a as [|x a]; [rewrite zlen_nil in Ha; lia|]. cbn [app] in E1. inversion E1; subst. rewrite zlen_cons in *. assert (0 <= zlen a) by auto.
    assert (LS : zlen (splice (byte_buff s) 0 (b :: a)) = 257) by (rewrite zlen_splice; rewrite ?zlen_cons; lia).
    rewrite rd_ok by lia. cbn [bind]. eexists. split; [reflexivity|]. cbn [byte_buff pbytes navail nbits b1 input].
    split; [|split; [rewrite geti_splice by (rewrite ?zlen_cons; lia); rewrite zlen_cons; replace ((0 <=? 0) && (0 <? 0 + (1 + zlen a))) with true by lia; reflexivity|reflexivity]].
    unfold ahead. cbn [byte_buff pbytes navail nbits b1 input]. split; [exact LS|]. split; [lia|]. split; [lia|]. split; [lia|].
    exists data, l', e, (p + 1 + (1 + zlen a)). split; [reflexivity|]. split; [|split; [auto|]].
    + assert (T2 := tail_app _ _ _ _ T'). rewrite zlen_cons in T2. exact T2.
    + f_equal. apply list_ext; [rewrite zlen_slice by lia; lia|]. intros i Hi. rewrite geti_slice by lia. rewrite geti_splice by (rewrite ?zlen_cons; lia).
      rewrite zlen_cons. replace ((0 <=? 0 + 1 + i) && (0 + 1 + i <? 0 + (1 + zlen a))) with true by lia. rewrite geti_cons by lia. replace (0 + 1 + i - 0 =? 0) with false by lia. f_equal. lia.
  - cbn [bind negb]. 
    assert (ES : slice (byte_buff s) (pbytes s) (navail s) = geti (byte_buff s) (pbytes s) :: slice (byte_buff s) (pbytes s + 1) (navail s - 1)).
    { rewrite <- slice_cons by lia. f_equal. lia. }
    rewrite ES in ED. cbn [app] in ED. inversion ED; subst b d. rewrite rd_ok by lia. cbn [bind]. eexists. split; [reflexivity|]. split; [|split; reflexivity].
    unfold ahead. cbn [byte_buff pbytes navail nbits b1 input]. split; [exact LB|]. split; [lia|]. split; [lia|]. split; [lia|]. exists d2, l, e, p. auto.
Qed.

(** the number whose bits are still to come *)
Definition value_ahead (s : bitst) (d : list Z) : Z := b1 s / 2 ^ (8 - nbits s) + 2 ^ nbits s * le_number d.

Lemma more_bits_ok : forall fuel cs ret s d rest, bytes F -> bytes d -> ahead s d rest -> 0 <= nbits s -> 0 <= ret < 2 ^ nbits s -> 0 < cs -> cs <= nbits s + 8 * zlen d -> cs <= nbits s + 8 * Z.of_nat fuel ->
  0 <= b1 s < 256 -> (cs <= nbits s -> nbits s - cs < 8 /\ ret / 2 ^ cs = b1 s / 2 ^ (8 - (nbits s - cs))) ->
  exists ret' s' d', more_bits fuel cs ret s = Ok (Some ret', s') /\ ahead s' d' rest /\ bytes d' /\ 0 <= nbits s' < 8 /\ 0 <= b1 s' < 256 /\
    ret' mod 2 ^ cs = (ret + 2 ^ nbits s * le_number d) mod 2 ^ cs /\ value_ahead s' d' = (ret + 2 ^ nbits s * le_number d) / 2 ^ cs /\
    nbits s' + 8 * zlen d' = nbits s + 8 * zlen d - cs.
Proof.
  induction fuel as [|fuel IH]; intros cs ret s d rest BF BD A Hn Hr Hc HC Hf Hb HI; cbn [more_bits].
  all: destruct (nbits s <? cs) eqn:E.
  1: { exfalso. clear - E Hf. lia. }
  2: { clear HI. destruct d as [|b d]; [rewrite zlen_nil in HC; clear - E HC; lia|].
    destruct (next_byte_ok s b d rest BF A) as (s1 & -> & A1 & E1 & N1). cbn [bind negb]. apply bytes_Forall in BD. inversion BD as [|? ? BX BA]; subst x l. apply bytes_Forall in BA.
    rewrite zlen_cons in *. assert (P : 0 < 2 ^ nbits s) by (apply Z.pow_pos_nonneg; lia).
    assert (ER : Z.lor ret (Z.shiftl (b1 s1) (nbits s1)) = ret + 2 ^ nbits s * b). { rewrite E1, N1, Z.shiftl_mul_pow2 by lia. rewrite Z.lor_comm, lor_add by lia. ring. }
    rewrite ER. assert (P8 : 2 ^ (nbits s + 8) = 2 ^ nbits s * 256) by (rewrite Z.pow_add_r by lia; reflexivity).
    destruct (IH cs (ret + 2 ^ nbits s * b) (set_nbits s1 (nbits s1 + 8)) d rest) as (ret' & s' & d' & EM & A2 & BD2 & HN2 & HB2 & EV & EA & EL); auto.
    - cbn [set_nbits nbits]. clear - N1 Hn. lia.
    - cbn [set_nbits nbits]. rewrite N1, P8. clear - BX P Hr. nia.
    - cbn [set_nbits nbits]. clear - N1 HC. lia.
    - cbn [set_nbits nbits]. clear - N1 Hf. lia.
    - cbn [set_nbits b1]. clear - E1 BX. lia.
    - cbn [set_nbits nbits b1]. rewrite N1. intros HC'. split; [lia|]. rewrite E1. replace (8 - (nbits s + 8 - cs)) with (cs - nbits s) by lia.
      replace (2 ^ cs) with (2 ^ nbits s * 2 ^ (cs - nbits s)) by (rewrite <- Z.pow_add_r by lia; f_equal; lia). rewrite <- Z.div_div by (try apply Z.pow_nonzero; lia || (apply Z.pow_pos_nonneg; lia)).
      f_equal. rewrite (Z.mul_comm (2 ^ nbits s)), Z.div_add by lia. rewrite (Z.div_small ret) by lia. reflexivity.
    - exists ret', s', d'. cbn [set_nbits nbits] in EV, EA, EL. rewrite N1, P8 in EV, EA. replace (ret + 2 ^ nbits s * b + 2 ^ nbits s * 256 * le_number d) with (ret + 2 ^ nbits s * le_number (b :: d)) in EV, EA by (cbn [le_number]; ring).
      split; [exact EM|]. split; [auto|]. split; [auto|]. split; [auto|]. split; [auto|]. split; [auto|]. split; [auto|]. clear - EL N1. lia. }
  all: destruct (HI ltac:(clear - E; lia)) as (H8 & ED); clear HI; exists ret, (set_nbits s (nbits s - cs)), d; cbn [set_nbits nbits b1];
    assert (P : 2 ^ cs <> 0) by (apply Z.pow_nonzero; clear - Hc; lia);
    assert (EP : 2 ^ nbits s = 2 ^ cs * 2 ^ (nbits s - cs)) by (rewrite <- Z.pow_add_r by (clear - E Hc; lia); f_equal; clear; lia);
    (split; [reflexivity|]); (split; [exact A|]); (split; [auto|]); (split; [clear - H8 E; lia|]); (split; [exact Hb|]); (split; [|split; [|clear; lia]]);
    [ rewrite EP, <- Z.mul_assoc, (Z.mul_comm (2 ^ cs)), Z.mod_add by exact P; reflexivity
    | unfold value_ahead; cbn [set_nbits nbits b1]; rewrite EP, <- Z.mul_assoc, (Z.mul_comm (2 ^ cs)), Z.div_add by exact P; rewrite ED; reflexivity ].
Qed.

Lemma get_code_ok : forall en cs s d rest, bytes F -> bytes d -> ahead s d rest -> 0 <= nbits s < 8 -> 0 <= b1 s < 256 -> 1 <= cs <= 12 -> (0 < nbits s -> nbits s - cs < 8) -> cs <= nbits s + 8 * zlen d ->
  exists s' d', get_next_code en cs s = Ok (value_ahead s d mod 2 ^ cs, s') /\ ahead s' d' rest /\ bytes d' /\ 0 <= nbits s' < 8 /\ 0 <= b1 s' < 256 /\
    value_ahead s' d' = value_ahead s d / 2 ^ cs /\ nbits s' + 8 * zlen d' = nbits s + 8 * zlen d - cs.
Proof.
  intros en cs s d rest BF BD A Hn Hb Hc H8 HL. unfold get_next_code. destruct (nbits s =? 0) eqn:E.
  - destruct d as [|b d]; [rewrite zlen_nil in HL; lia|]. destruct (next_byte_ok s b d rest BF A) as (s1 & -> & A1 & E1 & N1). cbn [bind negb].
    apply bytes_Forall in BD. inversion BD as [|? ? BX BA]; subst x l. apply bytes_Forall in BA. rewrite zlen_cons in *. assert (0 <= zlen d) by auto.
    cbn [set_nbits nbits b1]. change (8 - 8) with 0. rewrite Z.shiftr_0_r, E1.
    destruct (more_bits_ok 3 cs b (set_nbits s1 8) d rest) as (ret' & s' & d' & EM & A2 & BD2 & HN2 & HB2 & EV & EA & EL); auto; cbn [set_nbits nbits b1]; try lia.
    { intros HC. split; [lia|]. rewrite E1. f_equal. f_equal. lia. }
    rewrite EM. cbn [bind]. replace ((0 <=? cs) && (cs <=? 12)) with true by lia. rewrite land_mask by lia. rewrite EV. exists s', d'.
    assert (VA : value_ahead s (b :: d) = b + 2 ^ 8 * le_number d). { unfold value_ahead. replace (nbits s) with 0 by lia. change (8 - 0) with 8. change (2 ^ 8) with 256. rewrite (Z.div_small (b1 s)) by lia. change (2 ^ 0) with 1. cbn [le_number]. lia. }
    cbn [set_nbits nbits] in EV, EA, EL |- *. rewrite VA. split; [reflexivity|]. split; [auto|]. split; [auto|]. split; [auto|]. split; [auto|]. split; [auto|]. lia.
  - cbn [bind negb]. assert (PS : Z.shiftr (b1 s) (8 - nbits s) = b1 s / 2 ^ (8 - nbits s)) by (apply Z.shiftr_div_pow2; lia). rewrite PS.
    assert (PP : 2 ^ 8 = 2 ^ nbits s * 2 ^ (8 - nbits s)) by (rewrite <- Z.pow_add_r by lia; f_equal; lia). change (2 ^ 8) with 256 in PP.
    assert (P : 0 < 2 ^ (8 - nbits s)) by (apply Z.pow_pos_nonneg; lia). assert (P' : 0 < 2 ^ nbits s) by (apply Z.pow_pos_nonneg; lia).
    destruct (more_bits_ok 3 cs (b1 s / 2 ^ (8 - nbits s)) s d rest) as (ret' & s' & d' & EM & A2 & BD2 & HN2 & HB2 & EV & EA & EL); auto; try lia.
    { split; [apply Z.div_pos; lia|]. apply Z.div_lt_upper_bound; [lia|]. nia. }
    { intros HC. split; [lia|]. rewrite Z.div_div by (try lia; apply Z.pow_pos_nonneg; lia). f_equal. rewrite <- Z.pow_add_r by lia. f_equal. lia. }
    rewrite EM. cbn [bind]. replace ((0 <=? cs) && (cs <=? 12)) with true by lia. rewrite land_mask by lia. rewrite EV. exists s', d'.
    split; [reflexivity|]. split; [auto|]. split; [auto|]. split; [auto|]. split; [auto|]. split; [auto|]. lia.
Qed.

End Input.
