(** The codes of a whole frame. *)
From Coq Require Import ZArith List Lia Bool.
From Verif Require Import Base Slices Elem Enums Utility Image Lump PnmProofs Gif GifSpec GifBits GifLzw.
Import ListNotations.
Open Scope Z_scope.

Lemma late_step : forall size f w c cs, late_clear size f ((w, c) :: cs) = false -> late_clear size (c =? 2 ^ size) cs = false.
Proof. intros size f w c [|a [|b cs]] E; [reflexivity|cbn in *; destruct a; auto|exact E]. Qed.

Lemma split_number : forall V w T c P, 0 <= w -> 0 <= T -> 0 <= c < 2 ^ w -> V mod 2 ^ (w + T) = c + 2 ^ w * P -> V mod 2 ^ w = c /\ (V / 2 ^ w) mod 2 ^ T = P.
Proof.
  intros V w T c P Hw HT Hc E. rewrite Z.pow_add_r in E by lia. assert (A : 0 < 2 ^ w) by (apply Z.pow_pos_nonneg; lia). assert (B : 0 < 2 ^ T) by (apply Z.pow_pos_nonneg; lia).
  rewrite Z.rem_mul_r in E by lia. assert (M := Z.mod_pos_bound V (2 ^ w) A). set (x := V mod 2 ^ w) in *. set (y := (V / 2 ^ w) mod 2 ^ T) in *. set (a := 2 ^ w) in *. clearbody x y a. clear - A M E Hc.
  assert (y = P). { assert (y < P \/ y = P \/ P < y) as [C|[C|C]] by lia; [|auto|]; exfalso; nia. } subst y. split; lia.
Qed.

Section Decode.
Variables (F rest : list Z) (k : consts) (L size : Z).
Hypothesis HF : zlen F < 2147483648.
Hypothesis BF : bytes F.
Hypothesis Hsize : 2 <= size <= 8.
Hypothesis EK : cSize k = size.
Notation W := (cWidth k).
Notation HT := (cHeight k).
Hypothesis HW : 1 <= W.
Hypothesis HH : 1 <= HT < 4294967296.
Hypothesis HS : W <= cStride k.
Hypothesis HB : 0 <= base k.
Hypothesis HL : base k + (HT - 1) * cStride k + W <= L.
Hypothesis HL32 : L < 4294967296.
Notation R p e := (Rd F p (zlen F) e).

(** the bits still to come are those of the codes [cs] *)
Definition bits_ahead (s : bitst) (cs : list (Z * Z)) : Prop :=
  exists d, bytes d /\ ahead F s d rest /\ 0 <= nbits s < 8 /\ 0 <= b1 s < 256 /\
    total_bits cs <= nbits s + 8 * zlen d < total_bits cs + 8 /\ value_ahead s d mod 2 ^ total_bits cs = packed_codes cs.

(** all blocks were read *)
Definition at_end (s : bitst) : Prop := zlen (byte_buff s) = 257 /\ exists p e, input s = R p e /\ tail F p (0 :: rest).

Lemma code_step : forall en w c cs s, bits_ahead s ((w, c) :: cs) -> 1 <= w <= 12 -> 0 <= c < 2 ^ w -> 0 <= total_bits cs ->
  exists s', get_next_code en w s = Ok (c, s') /\ bits_ahead s' cs.
Proof.
  intros en w c cs s (d & BD & A & HN & HB1 & HT & EV) Hw Hc H0. cbn [total_bits packed_codes] in *.
  destruct (get_code_ok F HF en w s d rest BF BD A HN HB1 Hw ltac:(lia) ltac:(lia)) as (s' & d' & E & A' & BD' & HN' & HB' & EV' & EL).
  destruct (split_number _ w (total_bits cs) c (packed_codes cs) ltac:(lia) H0 Hc EV) as (E1 & E2). exists s'. rewrite E, E1. split; [reflexivity|]. exists d'. rewrite EV'. split; [auto|]. split; [auto|]. split; [auto|]. split; [auto|]. split; [lia|auto].
Qed.
Lemma end_step : forall s, bits_ahead s [] -> at_end s.
Proof.
  intros s (d & BD & A & HN & HB1 & HT & EV). cbn [total_bits] in HT. assert (D0 : zlen d = 0) by (assert (0 <= zlen d) by auto; lia). destruct A as (LB & H1 & H2 & H3 & d2 & l & e & p & EI & T & SB & ED).
  split; [auto|]. exists p, e. split; [auto|]. assert (d2 = []). { subst d. rewrite zlen_app in D0. assert (0 <= zlen (slice (byte_buff s) (pbytes s) (navail s))) by auto. destruct d2; [auto|rewrite zlen_cons in D0; assert (0 <= zlen d2) by auto; lia]. }
  subst d2. inversion SB as [E1 E2|a data l' Ha SB' E1 E2]; subst; [exact T|]. destruct a; [rewrite zlen_nil in Ha; lia|discriminate].
Qed.

Lemma total_nonneg : forall D prev cs px, lzw size D prev cs px -> 0 <= total_bits cs /\ 1 <= zlen cs.
Proof.
  assert (G : forall D cs w c, 0 <= total_bits cs /\ 1 <= zlen cs -> w = code_width size D -> 0 <= total_bits ((w, c) :: cs) /\ 1 <= zlen ((w, c) :: cs)).
  { intros D cs w c (Q1 & Q2) ->. assert (RW := width_range size Hsize D). cbn [total_bits]. rewrite zlen_cons. lia. }
  induction 1; try (eapply G; eauto; fail). assert (RW := width_range size Hsize D). cbn. lia.
Qed.

(** entries are not empty, so that no pixels means no codes but the end *)
Lemma no_pixels : forall D p cs px, lzw size D (Some p) cs px -> px = [] -> (forall c s, entry size D c = Some s -> 1 <= zlen s) -> exists a, cs = [a].
Proof.
  clear EK. intros D p cs px Z E HE. inversion Z as [|? ? ? ? NE|? ? ? ? ?|? ? c s ? px' EN Z' E1 E2 E3 E4|? ? ? px' HN Z' E1 E2 E3 E4].
  - eexists. reflexivity.
  - congruence.
  - exfalso. specialize (HE _ _ EN). rewrite E in E4. apply app_eq_nil in E4. destruct E4 as (-> & _). rewrite zlen_nil in HE. lia.
  - exfalso. rewrite E in E4. apply app_eq_nil in E4. destruct E4 as (_ & X). discriminate.
Qed.

Lemma clear_fits : forall D, 2 ^ size + 1 < 2 ^ code_width size D.
Proof.
  intros D. assert (P := pow_size size Hsize). assert (RW := width_range size Hsize D). assert (2 ^ (size + 1) <= 2 ^ code_width size D) by (apply Z.pow_le_mono_r; lia). rewrite Z.pow_add_r in H by lia. lia.
Qed.

Lemma codes_ok : forall D prev cs px, lzw size D prev cs px -> forall n o s, bits_ahead s cs -> cursor k L n o -> n + zlen px = W * HT ->
  late_clear size (match prev with None => true | _ => false end) cs = false ->
  match prev with
  | Some p => forall fuel t, table_ok size D p t -> zlen cs + 4100 <= Z.of_nat fuel ->
      exists o' s', codes fuel k t o s = Ok (true, o', s') /\ pixels o' = paint k n px (pixels o) /\ at_end s'
  | None => D = [] -> px <> [] -> forall fuel, zlen cs + 4100 <= Z.of_nat fuel ->
      exists c s1 o1, after_clear fuel k s = Ok (c, s1) /\ 0 <= c < 2 ^ size /\ put_first k c o = Ok (true, o1) /\
        forall fl sf pf, zlen cs + 4100 <= Z.of_nat fl -> zlen sf = 4097 -> zlen pf = 4097 ->
        exists o' s', codes fl k (mkTable (size + 1) (2 ^ (size + 1)) (newcodes k) c c sf pf) o1 s1 = Ok (true, o', s') /\ pixels o' = paint k n px (pixels o) /\ at_end s'
  end.
Proof.
  assert (PS := pow_size size Hsize). assert (NC : newcodes k = 2 ^ size + 2) by (unfold newcodes, ending, clear; rewrite EK; lia). assert (EN : ending k = 2 ^ size + 1) by (unfold ending, clear; rewrite EK; lia). assert (EC : clear k = 2 ^ size) by (unfold clear; rewrite EK; lia).
  induction 1 as [D prev|D prev cs px NE Z IH|D c cs px Hc Z IH|D p c s cs px HE Z IH|D p cs px HN Z IH]; intros n o s0 B C HZ LC; assert (RW := width_range size Hsize D); assert (CF := clear_fits D).
  - (* the end code *)
    destruct (code_step (ending k) _ _ _ _ B ltac:(lia) ltac:(lia) ltac:(cbn; lia)) as (s1 & EG & B1). apply end_step in B1. destruct prev as [p|].
    + intros fuel t (T1 & _) Hf. destruct fuel as [|f]; [unfold zlen in Hf; cbn in Hf; lia|]. cbn [codes]. rewrite T1, EG. cbn [bind]. rewrite EN, Z.eqb_refl. cbn [orb]. exists o, s1. auto.
    + intros _ X. congruence.
  - (* a clear code *)
    destruct (total_nonneg _ _ _ _ Z) as (TN & LN). destruct (code_step (ending k) _ _ _ _ B ltac:(lia) ltac:(lia) TN) as (s1 & EG & B1). apply late_step in LC. rewrite Z.eqb_refl in LC.
    specialize (IH n o s1 B1 C HZ LC eq_refl NE). rewrite zlen_cons. destruct prev as [p|].
    + intros fuel t T Hf. destruct fuel as [|f]; [lia|]. cbn [codes]. assert (T1 : curr_size t = code_width size D) by apply T. rewrite T1, EG. cbn [bind]. rewrite EN, EC. replace (2 ^ size =? 2 ^ size + 1) with false by lia.
      assert (ZP : 1 <= zlen px) by (destruct px; [congruence|rewrite zlen_cons; assert (0 <= zlen px) by auto; lia]).
      assert (RD : Read o < HT). { destruct C as (_ & C1 & C2 & _). destruct (C2 ltac:(lia)) as (_ & _ & -> & _). apply Z.div_lt_upper_bound; lia. }
      replace (Read o <? HT) with true by lia. cbn [orb negb]. rewrite Z.eqb_refl. destruct (IH f ltac:(lia)) as (c & s2 & o1 & EA & RC & EP & KK). rewrite EA. cbn [bind]. replace (c =? 2 ^ size + 1) with false by lia. rewrite NC. replace (2 ^ size + 2 <=? c) with false by lia.
      rewrite EP. cbn [bind negb]. rewrite EK, <- NC. apply KK; [lia|apply T|apply T].
    + intros -> _ fuel Hf. destruct fuel as [|f]; [lia|]. cbn [after_clear]. rewrite EK, <- (width_first size Hsize), EG. cbn [bind]. rewrite EC, Z.eqb_refl. destruct (IH f ltac:(lia)) as (c & s2 & o1 & EA & RC & EP & KK). rewrite <- EC in *.
      exists c, s2, o1. split; [exact EA|]. split; [exact RC|]. split; [exact EP|]. intros fl sf pf Hfl L1 L2. rewrite (width_first size Hsize). apply KK; auto. lia.
  - (* the first pixel after a clear code *)
    destruct (total_nonneg _ _ _ _ Z) as (TN & LN). destruct (code_step (ending k) _ _ _ _ B ltac:(lia) ltac:(lia) TN) as (s1 & EG & B1). intros -> _ fuel Hf. rewrite zlen_cons in *. destruct fuel as [|f]; [lia|]. cbn [after_clear]. rewrite EK, <- (width_first size Hsize), EG. cbn [bind]. rewrite EC. replace (c =? 2 ^ size) with false by lia.
    assert (0 <= zlen px) by auto.
    assert (PX : 1 <= zlen px). { destruct px as [|x px]; [|rewrite zlen_cons; assert (0 <= zlen px) by auto; lia]. exfalso. destruct (no_pixels _ _ _ _ Z eq_refl) as (a & ->); [|cbn in LC; discriminate].
      intros c' s' E'. unfold entry in E'. destruct ((0 <=? c') && (c' <? 2 ^ size)); [inversion E'; cbn; lia|]. destruct (2 ^ size + 2 <=? c'); [|discriminate]. destruct (Z.to_nat (c' - 2 ^ size - 2)); discriminate. }
    apply late_step in LC. replace (c =? 2 ^ size) with false in LC by lia.
    destruct (put_first_ok k L HW HH HS HB HL HL32 n c o C ltac:(lia)) as (o1 & EP & C1 & E1).
    exists c, s1, o1. split; [reflexivity|]. split; [auto|]. split; [exact EP|]. intros fl sf pf Hfl L1 L2. cbn [paint]. rewrite <- E1.
    destruct (IH (n + 1) o1 s1 B1 C1 ltac:(lia) LC fl (mkTable (size + 1) (2 ^ (size + 1)) (newcodes k) c c sf pf)) as (o' & s' & Q); [|lia|].
    + unfold table_ok. cbn [curr_size top_slot slot oc fc suffix prefix]. rewrite (width_first size Hsize), NC. unfold next_code. rewrite zlen_nil. split; [auto|]. split; [auto|]. split; [lia|]. split; [lia|]. split; [auto|]. split; [auto|].
      assert (LIT : forall c, 0 <= c < 2 ^ size -> spells size sf pf (2 ^ size + 2) c [c]) by (intros; constructor; auto). split.
      * intros c' s' E'. unfold entry in E'. destruct ((0 <=? c') && (c' <? 2 ^ size)) eqn:E2; [inversion E'; split; [apply LIT; lia|cbn; lia]|]. destruct (2 ^ size + 2 <=? c'); [|discriminate]. destruct (Z.to_nat (c' - 2 ^ size - 2)); discriminate.
      * intros _. split; [auto|]. cbn. split; [reflexivity|lia].
    + exists o', s'. rewrite (width_first size Hsize). exact Q.
  - (* a known string *)
    destruct (total_nonneg _ _ _ _ Z) as (TN & LN). intros fuel t T Hf. assert (EL := entry_lt size Hsize _ _ _ HE). assert (T4 : slot t <= 4096 /\ slot t = next_code size D) by (split; apply T). assert (NF := next_fits' size Hsize D ltac:(lia)).
    destruct (code_step (ending k) _ _ _ _ B ltac:(lia) ltac:(lia) TN) as (s1 & EG & B1). rewrite zlen_cons, zlen_app in *. destruct fuel as [|f]; [lia|]. cbn [codes]. assert (T1 : curr_size t = code_width size D) by apply T. rewrite T1, EG. cbn [bind]. rewrite EN, EC. replace (c =? 2 ^ size + 1) with false by lia.
    destruct (string_ok size Hsize f k D p c s t EK T ltac:(lia) (or_introl HE)) as (ES & S1 & S2 & S3).
    assert (0 <= zlen px) by auto. assert (RD : Read o < HT). { destruct C as (_ & C1 & C2 & _). destruct (C2 ltac:(lia)) as (_ & _ & -> & _). apply Z.div_lt_upper_bound; lia. }
    replace (Read o <? HT) with true by lia. cbn [orb negb]. replace (c =? 2 ^ size) with false by lia. rewrite ES. cbn [bind].
    destruct (learn_ok size Hsize D p c s t T S1 S2 (or_introl HE)) as (t' & -> & T'). cbn [bind]. destruct (put_all_ok k L HW HH HS HB HL HL32 s n o C ltac:(lia)) as (o1 & -> & C1 & E1). cbn [bind].
    apply late_step in LC. replace (c =? 2 ^ size) with false in LC by lia. destruct (IH (n + zlen s) o1 s1 B1 C1 ltac:(lia) LC f t' T' ltac:(lia)) as (o' & s' & Q1 & Q2 & Q3). exists o', s'. split; [exact Q1|]. split; [|exact Q3]. rewrite Q2, E1. clear. revert n o. 
    intros n o. generalize (pixels o) as d. revert n. induction s as [|x s IH]; intros n d; [cbn [app paint]; rewrite zlen_nil, Z.add_0_r; reflexivity|]. cbn [app paint]. rewrite <- IH. rewrite zlen_cons. f_equal. lia.
  - (* the string that is just being learnt *)
    destruct (total_nonneg _ _ _ _ Z) as (TN & LN). intros fuel t T Hf. assert (NF := next_fits size Hsize D HN). assert (ND : next_code size D = 2 ^ size + 2 + zlen D) by reflexivity. assert (0 <= zlen D) by auto.
    destruct (code_step (ending k) _ _ _ _ B ltac:(lia) ltac:(lia) TN) as (s1 & EG & B1). rewrite zlen_cons in *. destruct fuel as [|f]; [lia|]. cbn [codes]. assert (T1 : curr_size t = code_width size D) by apply T. rewrite T1, EG. cbn [bind]. rewrite EN, EC. replace (next_code size D =? 2 ^ size + 1) with false by lia.
    rewrite app_assoc in *. set (s := p ++ [hd 0 p]) in *. rewrite zlen_app in HZ.
    destruct (string_ok size Hsize f k D p (next_code size D) s t EK T ltac:(lia) (or_intror (conj eq_refl (conj HN eq_refl)))) as (ES & S1 & S2 & S3).
    assert (HD : hd 0 s = hd 0 p). { destruct S3 as [S3|S3]; [|auto]. apply (entry_lt size Hsize) in S3. lia. }
    assert (0 <= zlen px) by auto. assert (RD : Read o < HT). { destruct C as (_ & C1 & C2 & _). destruct (C2 ltac:(lia)) as (_ & _ & -> & _). apply Z.div_lt_upper_bound; lia. }
    replace (Read o <? HT) with true by lia. cbn [orb negb]. replace (next_code size D =? 2 ^ size) with false by lia. rewrite ES. cbn [bind].
    destruct (learn_ok size Hsize D p (next_code size D) s t T S1 S2 (or_intror (conj eq_refl (conj HN (conj eq_refl HD))))) as (t' & -> & T'). cbn [bind]. destruct (put_all_ok k L HW HH HS HB HL HL32 s n o C ltac:(lia)) as (o1 & -> & C1 & E1). cbn [bind].
    unfold learned in T'. replace (next_code size D <? 4096) with true in T' by lia. rewrite HD in T'.
    apply late_step in LC. replace (next_code size D =? 2 ^ size) with false in LC by lia. destruct (IH (n + zlen s) o1 s1 B1 C1 ltac:(lia) LC f t' T' ltac:(lia)) as (o' & s' & Q1 & Q2 & Q3). exists o', s'. split; [exact Q1|]. split; [|exact Q3]. rewrite Q2, E1. generalize s as q. clear. intros q. generalize (pixels o) as d. revert n.
    induction q as [|x s IH]; intros n d; [cbn [app paint]; rewrite zlen_nil, Z.add_0_r; reflexivity|]. cbn [app paint]. rewrite <- IH. rewrite zlen_cons. f_equal. lia.
Qed.
End Decode.
