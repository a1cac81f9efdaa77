(** Decoding the codes of a frame. *)
From Coq Require Import ZArith List Lia Bool.
From Verif Require Import Base Slices Elem Enums Utility Image Lump PnmProofs Gif GifSpec GifBits.
Import ListNotations.
Open Scope Z_scope.

(** ** Where the pixels go *)
Section Frame.
Variables (k : consts) (L : Z).
Notation W := (cWidth k).
Notation HT := (cHeight k).
Hypothesis HW : 1 <= W.
Hypothesis HH : 1 <= HT < 4294967296.
Hypothesis HS : W <= cStride k.
Hypothesis HB : 0 <= base k.
Hypothesis HL : base k + (HT - 1) * cStride k + W <= L.
Hypothesis HL32 : L < 4294967296.
Notation end_ := (W * HT).

Definition place (n : Z) : Z := base k + n / W * cStride k + n mod W.
Definition paint1 (n c : Z) (d : list Z) : list Z := if skip k c then d else upd d (place n) (u8 (c + cPal k)).
Fixpoint paint (n : Z) (px : list Z) (d : list Z) : list Z :=
  match px with [] => d | c :: px => paint (n + 1) px (paint1 n c d) end.

Lemma place_in : forall n, 0 <= n < end_ -> 0 <= place n < L /\ 0 <= n / W < HT /\ 0 <= n mod W < W.
Proof.
  intros n Hn. unfold place. assert (0 <= n / W) by (apply Z.div_pos; lia). assert (n / W < HT) by (apply Z.div_lt_upper_bound; lia). assert (M := Z.mod_pos_bound n W ltac:(lia)).
  split; [|lia]. split; [nia|]. assert (n / W * cStride k <= (HT - 1) * cStride k) by nia. lia.
Qed.
Lemma zlen_paint1 : forall n c d, 0 <= n < end_ -> zlen d = L -> zlen (paint1 n c d) = L.
Proof. intros n c d Hn HD. unfold paint1. destruct (skip k c); [auto|]. destruct (place_in n Hn) as (P & _). rewrite zlen_upd by lia. auto. Qed.
Lemma zlen_paint : forall px n d, 0 <= n -> n + zlen px <= end_ -> zlen d = L -> zlen (paint n px d) = L.
Proof.
  induction px as [|c px IH]; intros n d Hn HE HD; cbn [paint]; [auto|]. rewrite zlen_cons in HE. assert (0 <= zlen px) by auto. apply IH; [lia|lia|]. apply zlen_paint1; [lia|auto].
Qed.

(** the loader has written [n] pixels *)
Definition cursor (n : Z) (o : output) : Prop :=
  zlen (pixels o) = L /\ 0 <= n <= end_ /\ (n < end_ -> col o = n mod W /\ row o = n / W /\ Read o = n / W /\ ptr o = base k + n / W * cStride k) /\ (n = end_ -> Read o = HT).

Lemma next_line : forall n, 0 <= n -> n mod W + 1 = W -> (n + 1) / W = n / W + 1 /\ (n + 1) mod W = 0.
Proof.
  intros n Hn E. assert (D := Z.div_mod n W ltac:(lia)). assert (E2 : n + 1 = W * (n / W + 1) + 0) by lia.
  split; [symmetry; apply (Z.div_unique (n + 1) W (n / W + 1) 0); lia | symmetry; apply (Z.mod_unique (n + 1) W (n / W + 1) 0); lia].
Qed.
Lemma same_line : forall n, 0 <= n -> n mod W + 1 < W -> (n + 1) / W = n / W /\ (n + 1) mod W = n mod W + 1.
Proof.
  intros n Hn E. assert (D := Z.div_mod n W ltac:(lia)). assert (M := Z.mod_pos_bound n W ltac:(lia)).
  split; [symmetry; apply (Z.div_unique (n + 1) W (n / W) (n mod W + 1)); lia | symmetry; apply (Z.mod_unique (n + 1) W (n / W) (n mod W + 1)); lia].
Qed.

Lemma put_ok : forall n c o, cursor n o -> n < end_ ->
  exists o', put k c o = Ok o' /\ pixels o' = paint1 n c (pixels o) /\ col o' = n mod W + 1 /\ row o' = n / W /\ Read o' = n / W /\ ptr o' = base k + n / W * cStride k.
Proof.
  intros n c o (LP & Hn & HC & _) Hlt. destruct (HC Hlt) as (E1 & E2 & E3 & E4). destruct (place_in n ltac:(lia)) as (P & P2 & P3).
  assert (W <= L). { assert (0 <= (HT - 1) * cStride k) by nia. lia. }
  unfold put, paint1. destruct (skip k c).
  - eexists. split; [reflexivity|]. cbn [pixels col row Read ptr]. rewrite E1, u32_small by lia. auto.
  - rewrite E1. replace (n mod W <? W) with true by lia. rewrite E4. rewrite wr_ok by (unfold place in P; lia). cbn [bind]. eexists. split; [reflexivity|]. cbn [pixels col row Read ptr]. rewrite u32_small by lia. auto.
Qed.
Lemma put_next_ok : forall n c o, cursor n o -> n < end_ -> exists o', put_next k c o = Ok o' /\ cursor (n + 1) o' /\ pixels o' = paint1 n c (pixels o).
Proof.
  intros n c o C Hlt. destruct (put_ok n c o C Hlt) as (o1 & EP & E0 & E1 & E2 & E3 & E4). unfold put_next. rewrite EP. cbn [bind]. destruct C as (LP & Hn & _).
  destruct (place_in n ltac:(lia)) as (P & P2 & P3). rewrite E1. assert (LZ : zlen (pixels o1) = L) by (rewrite E0; apply zlen_paint1; [lia|auto]).
  destruct (n mod W + 1 =? W) eqn:E.
  - replace (HT =? 0) with false by lia. destruct (next_line n ltac:(lia) ltac:(lia)) as (D1 & M1). eexists. split; [reflexivity|]. split; [|cbn [pixels]; exact E0].
    split; [exact LZ|]. split; [lia|]. cbn [col row Read ptr]. rewrite E2, E3. rewrite !(u32_small (n / W + 1)) by lia. rewrite D1, M1. split.
    + intros Hlt2. destruct (place_in (n + 1) ltac:(lia)) as (Q & Q2 & Q3). rewrite D1 in Q2. unfold place in Q. rewrite D1, M1 in Q. rewrite Z.mod_small by lia. rewrite u32_small by nia. auto.
    + intros Heq. assert ((n + 1) / W = HT) by (rewrite Heq, Z.mul_comm; apply Z.div_mul; lia). lia.
  - destruct (same_line n ltac:(lia) ltac:(lia)) as (D1 & M1). exists o1. split; [reflexivity|]. split; [|exact E0]. split; [exact LZ|]. split; [lia|]. rewrite D1, M1. split; [auto|].
    intros Heq. exfalso. assert ((n + 1) mod W = 0) by (rewrite Heq, Z.mul_comm; apply Z.mod_mul; lia). lia.
Qed.
Lemma put_first_ok : forall n c o, cursor n o -> n + 1 < end_ -> exists o', put_first k c o = Ok (true, o') /\ cursor (n + 1) o' /\ pixels o' = paint1 n c (pixels o).
Proof.
  intros n c o C Hlt. destruct (put_ok n c o C ltac:(lia)) as (o1 & EP & E0 & E1 & E2 & E3 & E4). unfold put_first. rewrite EP. cbn [bind]. destruct C as (LP & Hn & _).
  destruct (place_in n ltac:(lia)) as (P & P2 & P3). destruct (place_in (n + 1) ltac:(lia)) as (Q & Q2 & Q3). rewrite E1. assert (LZ : zlen (pixels o1) = L) by (rewrite E0; apply zlen_paint1; [lia|auto]).
  destruct (n mod W + 1 =? W) eqn:E.
  - destruct (next_line n ltac:(lia) ltac:(lia)) as (D1 & M1). rewrite D1 in Q2. rewrite E2, E3, E4. rewrite !(u32_small (n / W + 1)) by lia. replace (HT <=? n / W + 1) with false by lia.
    eexists. split; [reflexivity|]. split; [|cbn [pixels]; exact E0]. split; [exact LZ|]. split; [lia|]. cbn [col row Read ptr]. rewrite D1, M1. split; [|lia]. intros _. split; [auto|]. split; [auto|]. split; [auto|]. lia.
  - destruct (same_line n ltac:(lia) ltac:(lia)) as (D1 & M1). exists o1. split; [reflexivity|]. split; [|exact E0]. split; [exact LZ|]. split; [lia|]. rewrite D1, M1. split; [auto|lia].
Qed.
Lemma put_all_ok : forall st n o, cursor n o -> n + zlen st <= end_ -> exists o', put_all k st o = Ok o' /\ cursor (n + zlen st) o' /\ pixels o' = paint n st (pixels o).
Proof.
  induction st as [|c st IH]; intros n o C HE; cbn [put_all paint].
  - exists o. rewrite zlen_nil, Z.add_0_r. auto.
  - rewrite zlen_cons in *. assert (0 <= zlen st) by auto. destruct (put_next_ok n c o C ltac:(lia)) as (o1 & -> & C1 & E1). cbn [bind]. destruct (IH (n + 1) o1 C1 ltac:(lia)) as (o2 & -> & C2 & E2).
    exists o2. split; [reflexivity|]. rewrite E2, E1. replace (n + (1 + zlen st)) with (n + 1 + zlen st) by lia. auto.
Qed.

Lemma place_inj : forall a b, 0 <= a < end_ -> 0 <= b < end_ -> place a = place b -> a = b.
Proof.
  intros a b Ha Hb E. destruct (place_in a Ha) as (_ & A2 & A3). destruct (place_in b Hb) as (_ & B2 & B3). unfold place in E.
  assert (a / W = b / W). { assert (a / W < b / W \/ a / W = b / W \/ b / W < a / W) as [C|[C|C]] by lia; [|auto|]; exfalso; nia. }
  rewrite (Z.div_mod a W), (Z.div_mod b W) by lia. nia.
Qed.
Lemma paint_other : forall px n d q, 0 <= n -> n + zlen px <= end_ -> zlen d = L -> 0 <= q < L -> (forall i, n <= i < n + zlen px -> place i <> q) -> geti (paint n px d) q = geti d q.
Proof.
  induction px as [|c px IH]; intros n d q Hn HE HD Hq HP; cbn [paint]; [auto|]. rewrite zlen_cons in *. assert (0 <= zlen px) by auto. rewrite IH; [|lia|lia|apply zlen_paint1; [lia|auto]|auto|intros; apply HP; lia].
  unfold paint1. destruct (skip k c); [auto|]. destruct (place_in n ltac:(lia)) as (P & _). rewrite geti_upd by lia. specialize (HP n ltac:(lia)). replace (q =? place n) with false by lia. reflexivity.
Qed.
Lemma paint_at : forall px n d i, 0 <= n -> n + zlen px <= end_ -> zlen d = L -> 0 <= i < zlen px ->
  geti (paint n px d) (place (n + i)) = if skip k (geti px i) then geti d (place (n + i)) else u8 (geti px i + cPal k).
Proof.
  induction px as [|c px IH]; intros n d i Hn HE HD Hi; [rewrite zlen_nil in Hi; lia|]. cbn [paint]. rewrite zlen_cons in *. destruct (place_in n ltac:(lia)) as (P & _). rewrite geti_cons by lia. destruct (i =? 0) eqn:E.
  - assert (i = 0) by lia. subst i. rewrite Z.add_0_r. rewrite paint_other; [|lia|lia|apply zlen_paint1; [lia|auto]|auto|intros j Hj Ej; apply place_inj in Ej; lia].
    unfold paint1. destruct (skip k c); [auto|]. rewrite geti_upd by lia. rewrite Z.eqb_refl. reflexivity.
  - replace (n + i) with (n + 1 + (i - 1)) by lia. rewrite IH; [|lia|lia|apply zlen_paint1; [lia|auto]|lia]. destruct (skip k (geti px (i - 1))) eqn:ES; [|auto].
    unfold paint1. destruct (skip k c); [auto|]. destruct (place_in (n + 1 + (i - 1)) ltac:(lia)) as (Q & _). rewrite geti_upd by lia.
    destruct (place (n + 1 + (i - 1)) =? place n) eqn:EP; [|auto]. exfalso. assert (n + 1 + (i - 1) = n) by (apply place_inj; lia). lia.
Qed.
End Frame.

(** ** The string table *)
Section Table.
Variable size : Z.
Hypothesis Hsize : 2 <= size <= 8.
Notation nc := (2 ^ size + 2).

Lemma pow_size : 4 <= 2 ^ size <= 256.
Proof. split; [change 4 with (2 ^ 2)|change 256 with (2 ^ 8)]; apply Z.pow_le_mono_r; lia. Qed.

(** the chain of [c] in the blocks suffix and prefix, among codes below [B], is [s] *)
Inductive spells (sf pf : list Z) (B : Z) : Z -> list Z -> Prop :=
| sp_lit : forall c, 0 <= c < 2 ^ size -> spells sf pf B c [c]
| sp_ext : forall c s, nc <= c < B -> 0 <= geti sf c < 256 -> spells sf pf B (geti pf c) s -> spells sf pf B c (s ++ [geti sf c]).

Lemma spells_ne : forall sf pf B c s, spells sf pf B c s -> 1 <= zlen s /\ 0 <= hd 0 s < 2 ^ size.
Proof.
  intros sf pf B c s S. induction S as [c Hc|c s H1 H2 S IH]; [cbn; lia|]. rewrite zlen_app. change (zlen [geti sf c]) with 1. destruct s as [|x s]; [rewrite zlen_nil in IH; lia|]. cbn [app hd] in *. lia.
Qed.
Lemma spells_below : forall sf pf B c s, spells sf pf B c s -> nc <= B -> c < B.
Proof. intros sf pf B c s S HB. inversion S; subst; lia. Qed.
Lemma spells_grow : forall sf pf B c s v o, spells sf pf B c s -> nc <= B -> B < zlen sf -> B < zlen pf -> spells (upd sf B v) (upd pf B o) (B + 1) c s.
Proof.
  intros sf pf B c s v o S HB H1 H2. induction S as [c Hc|c s HC HV S IH]; [constructor; auto|]. assert (P := pow_size).
  assert (EV : geti (upd sf B v) c = geti sf c) by (rewrite geti_upd by lia; replace (c =? B) with false by lia; reflexivity).
  assert (EO : geti (upd pf B o) c = geti pf c) by (rewrite geti_upd by lia; replace (c =? B) with false by lia; reflexivity).
  rewrite <- EV. apply sp_ext; [lia|rewrite EV; lia|]. rewrite EO. auto.
Qed.

Lemma tl_app : forall (s : list Z) x, 1 <= zlen s -> tl (s ++ [x]) = tl s ++ [x].
Proof. intros [|a s] x Hs; [rewrite zlen_nil in Hs; lia|reflexivity]. Qed.

Lemma chain_ok : forall sf pf B c s, spells sf pf B c s -> B <= 4096 -> zlen sf = 4097 -> zlen pf = 4097 -> forall fuel st, zlen st + zlen s <= 4096 -> (length s <= fuel)%nat ->
  chain fuel nc sf pf c st = Ok (Some (hd 0 s, tl s ++ st)).
Proof.
  intros sf pf B c s S HB L1 L2. assert (P := pow_size). induction S as [c Hc|c s HC HV S IH]; intros fuel st HL Hf.
  - destruct fuel; cbn [chain]; replace (nc <=? c) with false by lia; reflexivity.
  - destruct (spells_ne _ _ _ _ _ S) as (N1 & _). rewrite zlen_app in HL. change (zlen [geti sf c]) with 1 in HL. rewrite app_length in Hf. cbn [length] in Hf. destruct fuel as [|fuel]; [lia|]. cbn [chain].
    replace (nc <=? c) with true by lia. unfold push, MAX_CODES. replace (4096 <=? zlen st) with false by lia. rewrite !rd_ok by lia. cbn [bind]. rewrite u8_small by lia.
    rewrite IH by (rewrite ?zlen_cons; lia). rewrite tl_app by lia. rewrite <- app_assoc. cbn [app]. do 3 f_equal. destruct s; [rewrite zlen_nil in N1; lia|reflexivity].
Qed.

(** the table holds the strings [D]; [prev] was written last *)
Definition table_ok (D : list (list Z)) (prev : list Z) (t : table) : Prop :=
  curr_size t = code_width size D /\ top_slot t = 2 ^ curr_size t /\ slot t = next_code size D /\ slot t <= 4096 /\ zlen (suffix t) = 4097 /\ zlen (prefix t) = 4097 /\
  (forall c s, entry size D c = Some s -> spells (suffix t) (prefix t) (slot t) c s /\ zlen s <= zlen D + 1) /\
  (slot t < 4096 -> spells (suffix t) (prefix t) (slot t) (oc t) prev /\ fc t = hd 0 prev /\ zlen prev <= zlen D + 1).

Lemma entry_lt : forall D c s, entry size D c = Some s -> 0 <= c < next_code size D /\ c <> 2 ^ size /\ c <> 2 ^ size + 1.
Proof.
  intros D c s E. assert (P := pow_size). unfold entry in E. unfold next_code. assert (0 <= zlen D) by auto. destruct ((0 <=? c) && (c <? 2 ^ size)) eqn:E1; [lia|]. destruct (nc <=? c) eqn:E2; [|discriminate].
  assert (LT : (Z.to_nat (c - 2 ^ size - 2) < length D)%nat) by (apply nth_error_Some; rewrite E; discriminate). unfold zlen. lia.
Qed.

Lemma width_range : forall D, 3 <= code_width size D <= 12 /\ size + 1 <= code_width size D.
Proof. intros D. unfold code_width. lia. Qed.
Lemma next_fits : forall D, next_code size D < 4096 -> next_code size D < 2 ^ code_width size D.
Proof.
  intros D Hn. assert (P := pow_size). assert (0 <= zlen D) by auto. assert (HN : 0 < next_code size D) by (unfold next_code; lia). destruct (Z.log2_spec _ HN) as (_ & HU). unfold code_width.
  assert (Z.log2 (next_code size D) < 12). { apply Z.log2_lt_pow2; [lia|]. change (2 ^ 12) with 4096. lia. }
  eapply Z.lt_le_trans; [exact HU|]. apply Z.pow_le_mono_r; lia.
Qed.
Lemma next_fits' : forall D, next_code size D <= 4096 -> next_code size D <= 2 ^ code_width size D.
Proof.
  intros D Hn. destruct (Z.eq_dec (next_code size D) 4096) as [E|E]; [|assert (X := next_fits D); lia]. unfold code_width. rewrite E. change (Z.log2 4096) with 12. replace (Z.min 12 (Z.max (size + 1) (12 + 1))) with 12 by lia. change (2 ^ 12) with 4096. lia.
Qed.
Lemma width_first : code_width size [] = size + 1.
Proof.
  assert (P := pow_size). unfold code_width, next_code. rewrite zlen_nil, Z.add_0_r. assert (Z.log2 nc = size). { apply Z.log2_unique; [lia|]. rewrite Z.pow_succ_r by lia. lia. } lia.
Qed.
Lemma width_step : forall D s, next_code size D < 4096 ->
  code_width size (D ++ [s]) = if 2 ^ code_width size D <=? next_code size D + 1 then if code_width size D <? 12 then code_width size D + 1 else code_width size D else code_width size D.
Proof.
  intros D s Hn. assert (P := pow_size). assert (HN : next_code size (D ++ [s]) = next_code size D + 1) by (unfold next_code; rewrite zlen_app; change (zlen [s]) with 1; lia).
  assert (HF := next_fits D Hn). assert (R := width_range D). assert (N0 : 0 < next_code size D) by (unfold next_code; assert (0 <= zlen D) by auto; lia).
  assert (HM : Z.log2 (next_code size D) <= Z.log2 (next_code size D + 1)) by (apply Z.log2_le_mono; lia).
  assert (EW : code_width size (D ++ [s]) = Z.min 12 (Z.max (size + 1) (Z.log2 (next_code size D + 1) + 1))) by (unfold code_width; rewrite HN; reflexivity).
  assert (EW0 : code_width size D = Z.min 12 (Z.max (size + 1) (Z.log2 (next_code size D) + 1))) by reflexivity.
  destruct (2 ^ code_width size D <=? next_code size D + 1) eqn:E.
  - assert (E2 : next_code size D + 1 = 2 ^ code_width size D) by lia. assert (EL : Z.log2 (next_code size D + 1) = code_width size D) by (rewrite E2; apply Z.log2_pow2; lia). rewrite EW, EL.
    destruct (code_width size D <? 12) eqn:E12; lia.
  - assert (EL : Z.log2 (next_code size D + 1) < code_width size D) by (apply Z.log2_lt_pow2; lia). lia.
Qed.

Lemma entry_snoc : forall D s c x, entry size (D ++ [s]) c = Some x -> entry size D c = Some x \/ (c = next_code size D /\ x = s).
Proof.
  intros D s c x E. assert (P := pow_size). unfold entry in *. unfold next_code. assert (0 <= zlen D) by auto. destruct ((0 <=? c) && (c <? 2 ^ size)); [auto|]. destruct (nc <=? c) eqn:E2; [|discriminate].
  destruct (Nat.lt_ge_cases (Z.to_nat (c - 2 ^ size - 2)) (length D)) as [HL|HL].
  - rewrite nth_error_app1 in E by auto. auto.
  - rewrite nth_error_app2 in E by auto. right. destruct (Z.to_nat (c - 2 ^ size - 2) - length D)%nat as [|m] eqn:EM; [|cbn in E; destruct m; discriminate]. cbn in E. inversion E. split; [unfold zlen; lia|auto].
Qed.

(** what [learn] does when [c] stands for [s] *)
Lemma learn_ok : forall D p c s t, table_ok D p t -> 1 <= zlen s -> 0 <= hd 0 s < 2 ^ size ->
  (entry size D c = Some s \/ (c = next_code size D /\ next_code size D < 4096 /\ s = p ++ [hd 0 p] /\ hd 0 s = hd 0 p)) ->
  exists t', learn c (hd 0 s) t = Ok t' /\ table_ok (learned size D (p ++ [hd 0 s])) s t'.
Proof.
  intros D p c s t (T1 & T2 & T3 & T4 & T5 & T6 & T7 & T8) HS HH HC. assert (PS := pow_size). assert (HF' := next_fits' D ltac:(lia)). assert (RW := width_range D). assert (0 <= zlen D) by auto.
  assert (HN : next_code size D = nc + zlen D) by reflexivity.
  unfold learn, learned. destruct (next_code size D <? 4096) eqn:E.
  - assert (HF := next_fits D ltac:(lia)). destruct (T8 ltac:(lia)) as (P1 & P2 & P3). assert (NP := spells_ne _ _ _ _ _ P1). replace (slot t <? top_slot t) with true by (rewrite T2, T1; lia). rewrite !wr_ok by lia. cbn [bind]. rewrite u8_small by lia.
    assert (OLD : forall c' s', spells (suffix t) (prefix t) (slot t) c' s' -> spells (upd (suffix t) (slot t) (hd 0 s)) (upd (prefix t) (slot t) (oc t)) (slot t + 1) c' s') by (intros; apply spells_grow; auto; lia).
    assert (NEW : spells (upd (suffix t) (slot t) (hd 0 s)) (upd (prefix t) (slot t) (oc t)) (slot t + 1) (slot t) (p ++ [hd 0 s])).
    { assert (G : geti (upd (suffix t) (slot t) (hd 0 s)) (slot t) = hd 0 s) by (rewrite geti_upd, Z.eqb_refl by lia; reflexivity). replace (p ++ [hd 0 s]) with (p ++ [geti (upd (suffix t) (slot t) (hd 0 s)) (slot t)]) by (rewrite G; reflexivity). apply sp_ext; [lia|rewrite G; lia|]. rewrite geti_upd, Z.eqb_refl by lia. apply OLD; auto. }
    assert (SPC : spells (upd (suffix t) (slot t) (hd 0 s)) (upd (prefix t) (slot t) (oc t)) (slot t + 1) c s /\ zlen s <= zlen D + 2).
    { destruct HC as [HC|(HC & _ & HC2 & HC3)]; [destruct (T7 _ _ HC) as (Q1 & Q2); split; [auto|lia]|]. assert (ES : s = p ++ [hd 0 s]) by (rewrite HC3; exact HC2). split; [rewrite HC, <- T3; exact (eq_ind _ (fun z => spells _ _ _ _ z) NEW _ (eq_sym ES))|]. rewrite HC2, zlen_app. change (zlen [hd 0 p]) with 1. lia. }
    eexists. split; [reflexivity|]. assert (WS := width_step D (p ++ [hd 0 s]) ltac:(lia)).
    assert (HN2 : next_code size (D ++ [p ++ [hd 0 s]]) = slot t + 1) by (unfold next_code in *; rewrite zlen_app; change (zlen [p ++ [hd 0 s]]) with 1; lia).
    assert (HZ : zlen (D ++ [p ++ [hd 0 s]]) = zlen D + 1) by (rewrite zlen_app; reflexivity).
    assert (REST : forall cs tp, cs = code_width size (D ++ [p ++ [hd 0 s]]) -> tp = 2 ^ cs -> table_ok (D ++ [p ++ [hd 0 s]]) s (mkTable cs tp (slot t + 1) c (hd 0 s) (upd (suffix t) (slot t) (hd 0 s)) (upd (prefix t) (slot t) (oc t)))).
    { intros cs tp Ecs Etp. unfold table_ok. cbn [curr_size top_slot slot oc fc suffix prefix]. split; [auto|]. split; [auto|]. split; [auto|]. split; [lia|]. split; [rewrite zlen_upd by lia; auto|]. split; [rewrite zlen_upd by lia; auto|]. split.
      - intros c' s' E'. apply entry_snoc in E'. destruct E' as [E'|(-> & ->)]; [destruct (T7 _ _ E') as (Q1 & Q2); split; [auto|lia]|]. split; [rewrite <- T3; exact NEW|]. rewrite zlen_app. change (zlen [hd 0 s]) with 1. lia.
      - intros _. split; [apply SPC|]. split; [reflexivity|]. destruct SPC; lia. }
    cbn [top_slot slot curr_size oc fc suffix prefix]. rewrite T2, T1, T3 in *.
    destruct (2 ^ code_width size D <=? next_code size D + 1) eqn:E1; destruct (code_width size D <? 12) eqn:E2; cbn [andb]; apply REST; try (rewrite WS; reflexivity); auto.
    rewrite Z.pow_add_r by lia. reflexivity.
  - assert (EF : next_code size D = 4096) by lia. assert (CW : code_width size D = 12). { unfold code_width. rewrite EF. change (Z.log2 4096) with 12. lia. }
    replace (slot t <? top_slot t) with false by (rewrite T2, T1, CW, T3, EF; reflexivity). cbn [bind]. replace (curr_size t <? 12) with false by lia. rewrite andb_false_r. exists t. split; [reflexivity|].
    split; [auto|]. split; [auto|]. split; [auto|]. split; [auto|]. split; [auto|]. split; [auto|]. split; [auto|]. intros X. lia.
Qed.

(** the string of a code *)
Lemma string_ok : forall fuel k D p c s t, cSize k = size -> table_ok D p t -> 4096 <= Z.of_nat fuel ->
  (entry size D c = Some s \/ (c = next_code size D /\ next_code size D < 4096 /\ s = p ++ [hd 0 p])) ->
  string_of fuel k c t = Ok (Some (hd 0 s, s)) /\ 1 <= zlen s /\ 0 <= hd 0 s < 2 ^ size /\ (entry size D c = Some s \/ hd 0 s = hd 0 p).
Proof.
  intros fuel k D p c s t EK (T1 & T2 & T3 & T4 & T5 & T6 & T7 & T8) Hf HC. assert (PS := pow_size). unfold string_of, MAX_CODES. unfold newcodes, ending, clear. rewrite EK. replace (2 ^ size + 1 + 1) with nc by lia.
  assert (ND : next_code size D = nc + zlen D) by reflexivity. assert (0 <= zlen D) by auto.
  destruct HC as [HC|(HC & HN & HS)].
  - destruct (T7 _ _ HC) as (Q1 & Q2). destruct (spells_ne _ _ _ _ _ Q1) as (N1 & N2). destruct (entry_lt _ _ _ HC) as (B1 & _). replace (slot t <=? c) with false by lia. replace (4096 <=? c) with false by lia.
    rewrite (chain_ok _ _ _ _ _ Q1) by (auto; try lia; rewrite ?zlen_nil; unfold zlen in *; lia). cbn [bind]. unfold push, MAX_CODES. rewrite app_nil_r.
    destruct s as [|x s]; [rewrite zlen_nil in N1; lia|]. cbn [hd tl] in *. rewrite zlen_cons in *. replace (4096 <=? zlen s) with false by lia. rewrite u8_small by lia. auto.
  - destruct (T8 ltac:(lia)) as (Q1 & Q2 & Q3). destruct (spells_ne _ _ _ _ _ Q1) as (N1 & N2). replace (slot t <=? c) with true by lia. unfold push at 1, MAX_CODES. rewrite zlen_nil. change (4096 <=? 0) with false. cbv iota. rewrite Q2, u8_small by lia.
    assert (BO := spells_below _ _ _ _ _ Q1 ltac:(lia)). replace (4096 <=? oc t) with false by lia. change (zlen [hd 0 p]) with 1.
    rewrite (chain_ok _ _ _ _ _ Q1) by (auto; try lia; change (zlen [hd 0 p]) with 1; unfold zlen in *; lia). cbn [bind]. unfold push, MAX_CODES. subst s.
    destruct p as [|x p]; [rewrite zlen_nil in N1; lia|]. cbn [hd tl app] in *. rewrite zlen_cons in *. rewrite zlen_app. change (zlen [x]) with 1. replace (4096 <=? zlen p + 1) with false by lia. rewrite u8_small by lia.
    split; [reflexivity|]. rewrite ?zlen_cons, ?zlen_app. change (zlen [x]) with 1. split; [lia|]. split; [lia|auto].
Qed.
End Table.
