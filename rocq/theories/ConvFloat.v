(** C53: conversions between integers and floating types. *)
From Coq Require Import ZArith List Lia Bool QArith Qround Lqa.
From Verif Require Import Base Enums Utility Image Slices Elem Channels ChannelsSpec ChannelsProofs ChannelsProps2 Endian EndianProps Half Float
  ConvBuff ConvSpec ConvProofs ConvProps ConvProps2 ConvInt.
Import ListNotations.
Open Scope Z_scope.

(** ** Patterns and numbers *)
Definition one_pat (p emin : Z) : Z := enc p emin (2 ^ (p - 1), 1 - p).

Lemma real_mono : forall p emin a b, 1 < p -> 0 <= a <= b -> (real p emin a <= real p emin b)%Q.
Proof.
  intros p emin a b Hp H. unfold real. assert (HP : 0 < 2 ^ (p - 1)) by (apply Z.pow_pos_nonneg; lia). set (P := 2 ^ (p - 1)) in *. clearbody P.
  assert (Da := Z.div_mod a P ltac:(lia)). assert (Db := Z.div_mod b P ltac:(lia)). assert (Ma := Z.mod_pos_bound a P HP). assert (Mb := Z.mod_pos_bound b P HP).
  assert (Hq : a / P <= b / P) by (apply Z.div_le_mono; lia). assert (0 <= a / P) by (apply Z.div_pos; lia).
  set (Ea := a / P) in *. set (Eb := b / P) in *. set (A := a mod P) in *. set (B := b mod P) in *. clearbody Ea Eb A B.
  change (2 # 1)%Q with (2 # 1)%Q. fold (p2 emin). fold (p2 (Ea - 1 + emin)). fold (p2 (Eb - 1 + emin)).
  assert (MI : forall x y e, x <= y -> (inject_Z x * p2 e <= inject_Z y * p2 e)%Q).
  { intros x y e Hxy. apply Qmult_le_compat_r; [rewrite <- Zle_Qle; lia|assert (K := p2_pos e); lra]. }
  assert (Ea = Eb \/ Ea < Eb) as [E|E] by lia.
  - subst Eb. assert (A <= B) by lia. destruct (Ea =? 0); apply MI; lia.
  - replace (Eb =? 0) with false by lia.
    assert (U : (inject_Z P * p2 Ea * p2 emin <= inject_Z (B + P) * p2 (Eb - 1 + emin))%Q).
    { apply Qle_trans with (inject_Z P * p2 (Eb - 1 + emin))%Q; [|apply MI; lia]. rewrite <- Qmult_assoc, <- p2_plus.
      apply Qmult_le_l; [change 0%Q with (inject_Z 0); rewrite <- Zlt_Qlt; lia|]. apply p2_le. lia. }
    eapply Qle_trans; [|exact U]. rewrite <- Qmult_assoc, <- p2_plus. destruct (Z.eqb_spec Ea 0) as [Z0|Z0].
    + rewrite Z0. apply MI. lia.
    + replace (Ea + emin) with ((Ea - 1 + emin) + 1) by lia. rewrite p2_1. apply Qle_trans with (inject_Z (2 * P) * p2 (Ea - 1 + emin))%Q; [apply MI; lia|].
      rewrite inject_Z_mult. change (inject_Z 2) with (2 # 1)%Q. lra.
Qed.

(** shape of a rounded number at most 1 *)
Lemma rnd_shape : forall p emin x, 1 < p -> emin <= - p -> (0 <= x)%Q -> (x <= 1)%Q ->
  let m := fst (rnd p emin x) in let e := snd (rnd p emin x) in
  0 <= m <= 2 ^ p /\ emin <= e <= 1 - p /\ (emin < e -> 2 ^ (p - 1) <= m) /\ (e = 1 - p -> m <= 2 ^ (p - 1)).
Proof.
  intros p emin x Hp Hm Hx H1 m e. assert (P0 : 0 < 2 ^ (p - 1)) by (apply Z.pow_pos_nonneg; lia).
  destruct (Qlt_le_dec 0 x) as [X|X].
  2:{ unfold m, e. rewrite rnd_0 by auto. cbn [fst snd]. repeat split; try lia. }
  assert (P2 : 2 ^ p = 2 * 2 ^ (p - 1)) by (replace p with (1 + (p - 1)) at 1 by lia; rewrite Z.pow_add_r by lia; reflexivity).
  destruct (rnd_norm p emin x ltac:(lia) X) as (U & V). unfold m, e. rewrite rnd_pos by auto. cbn [fst snd].
  set (k := Z.max emin (expo x - (p - 1))) in *. assert (Pk := p2_pos k).
  assert (E0 : expo x <= 0). { destruct (expo_spec x X) as (A & _). assert (K : (p2 (expo x) < p2 1)%Q) by (change (p2 1) with (2 # 1)%Q; lra). apply p2_lt_inv in K. lia. }
  split; [split|split; [|split]].
  - apply near_ge. assert (K : (inject_Z 0 <= x / p2 k)%Q) by (apply Qdiv_ge; auto; change (inject_Z 0) with 0%Q; lra). lra.
  - apply near_le. assert (K : (x / p2 k <= inject_Z (2 ^ p))%Q) by (rewrite <- p2_Z by lia; apply Qdiv_le; auto; lra). lra.
  - unfold k. lia.
  - intros K. specialize (V K). apply near_ge. assert (K' : (inject_Z (2 ^ (p - 1)) <= x / p2 k)%Q) by (rewrite <- p2_Z by lia; apply Qdiv_ge; auto). lra.
  - intros K. apply near_le. assert (K' : (x / p2 k <= inject_Z (2 ^ (p - 1)))%Q).
    { rewrite <- p2_Z by lia. apply Qdiv_le; auto. rewrite K, <- p2_plus. replace (p - 1 + (1 - p)) with 0 by lia. exact H1. }
    lra.
Qed.

Lemma enc_shape : forall p emin m e, 1 < p -> emin <= - p -> 0 <= m <= 2 ^ p -> emin <= e <= 1 - p -> (emin < e -> 2 ^ (p - 1) <= m) -> (e = 1 - p -> m <= 2 ^ (p - 1)) ->
  0 <= enc p emin (m, e) <= one_pat p emin /\ (real p emin (enc p emin (m, e)) == val (m, e))%Q.
Proof.
  intros p emin m e Hp Hemin Hm He H1 H2. unfold one_pat, enc, val. cbn [fst snd].
  assert (P2 : 2 ^ p = 2 * 2 ^ (p - 1)) by (replace p with (1 + (p - 1)) at 1 by lia; rewrite Z.pow_add_r by lia; reflexivity).
  assert (P0 : 0 < 2 ^ (p - 1)) by (apply Z.pow_pos_nonneg; lia). unfold real. rewrite P2 in Hm. clear P2. set (P := 2 ^ (p - 1)) in *. clearbody P.
  assert (K0 : 0 <= (e - emin) * P) by (apply Z.mul_nonneg_nonneg; lia).
  split; [split; [lia|]|].
  - assert (e = 1 - p \/ e <= - p) as [E|E] by lia; [rewrite E in *; specialize (H2 eq_refl); lia|].
    assert ((e - emin) * P <= (- p - emin) * P) by (apply Z.mul_le_mono_nonneg_r; lia). lia.
  - assert (m < P \/ P <= m < 2 * P \/ m = 2 * P) as [C|[C|C]] by lia.
    + assert (e = emin) as -> by (destruct (Z.eq_dec e emin); auto; lia). replace ((emin - emin) * P + m) with m by lia.
      rewrite Z.div_small, Z.mod_small by lia. cbn [Z.eqb]. unfold p2. reflexivity.
    + replace (((e - emin) * P + m) / P) with (e - emin + 1) by (apply (Z.div_unique_pos _ _ _ (m - P)); lia).
      replace (((e - emin) * P + m) mod P) with (m - P) by (apply (Z.mod_unique_pos _ _ (e - emin + 1)); lia).
      replace (e - emin + 1 =? 0) with false by lia. replace (m - P + P) with m by lia. replace (e - emin + 1 - 1 + emin) with e by lia. reflexivity.
    + replace (((e - emin) * P + m) / P) with (e - emin + 2) by (apply (Z.div_unique_pos _ _ _ 0); lia).
      replace (((e - emin) * P + m) mod P) with 0 by (apply (Z.mod_unique_pos _ _ (e - emin + 2)); lia).
      replace (e - emin + 2 =? 0) with false by lia. replace (e - emin + 2 - 1 + emin) with (e + 1) by lia. fold (p2 (e + 1)). rewrite p2_1, C.
      rewrite inject_Z_mult, inject_Z_plus. change (inject_Z 2) with (2 # 1)%Q. change (inject_Z 0) with 0%Q. lra.
Qed.

Lemma clamped_real : forall p emin nb bits, 1 < p -> 0 <= bits <= one_pat p emin ->
  one_pat p emin <= (2 ^ (8 * nb - 1) / 2 ^ (p - 1) - 1) * 2 ^ (p - 1) < 2 ^ (8 * nb - 1) -> 
  clamped p emin nb bits = Some (real p emin bits).
Proof.
  intros p emin nb bits Hp Hb HI. unfold clamped. set (T := 2 ^ (8 * nb - 1)) in *. set (P := 2 ^ (p - 1)) in *.
  rewrite (Z.mod_small bits T) by lia. replace ((T / P - 1) * P <? bits) with false by lia. replace (T <=? bits) with false by lia.
  fold P. fold (one_pat p emin). change (enc p emin (P, 1 - p)) with (one_pat p emin). replace (one_pat p emin <? bits) with false by lia.
  unfold real, val. cbn [fst snd]. fold P. unfold p2. destruct (bits / P =? 0); reflexivity.
Qed.

Lemma quant_comp : forall p emin x x' d d', 0 < p -> (0 <= x)%Q -> (0 <= d)%Q -> (x == x')%Q -> (d == d')%Q -> quant p emin x d = quant p emin x' d'.
Proof.
  intros p emin x x' d d' Hp Hx Hd E1 E2. unfold quant. apply Qfloor_comp. apply rnd_comp; [auto|apply Qmult_le_0_compat; auto|]. rewrite E1, E2. reflexivity.
Qed.

Lemma rnd_Z : forall p emin v, 0 < p -> emin <= 0 -> 0 <= v < 2 ^ p -> (val (rnd p emin (inject_Z v)) == inject_Z v)%Q.
Proof.
  intros p emin v Hp He Hv. apply rnd_exact; auto; [change 0%Q with (inject_Z 0); rewrite <- Zle_Qle; lia|].
  exists v, 0. split; auto. split; auto. change (p2 0) with 1%Q. lra.
Qed.

(** the formats used *)
Definition fmt (p emin nb w : Z) : Prop :=
  0 < w < p /\ emin <= - (w + p) /\ one_pat p emin <= (2 ^ (8 * nb - 1) / 2 ^ (p - 1) - 1) * 2 ^ (p - 1) < 2 ^ (8 * nb - 1) /\
  (inject_Z (2 ^ (w + p - 1)) / inject_Z (2 ^ w - 1) - (1 # 4) < inject_Z (near (inject_Z (2 ^ (w + p - 1)) / inject_Z (2 ^ w - 1))))%Q.

Lemma fmts : forall S n D m p emin, fits_float S n D m p emin -> fmt p emin m (8 * n) /\ 0 < n /\ 0 < m.
Proof.
  intros S n D m p emin H. unfold fmt, one_pat, enc. inversion H; subst; repeat split; vm_compute; try reflexivity; discriminate.
Qed.

(** integer to float: pattern in range, value the rounding of the quotient *)
Lemma to_float : forall p emin nb w v, 1 < p -> fmt p emin nb w -> 0 <= v < 2 ^ w -> 
  let b := enc p emin (rnd p emin (val (rnd p emin (inject_Z (Z.abs v))) / val (rnd p emin (inject_Z (2 ^ w - 1))))) in
  0 <= b <= one_pat p emin /\ (real p emin b == val (rnd p emin (inject_Z v / inject_Z (2 ^ w - 1))))%Q.
Proof.
  intros p emin nb w v Hp (Hw & He & HI & _) Hv b.
  assert (W2 : 2 <= 2 ^ w) by (change 2 with (2 ^ 1) at 1; apply Z.pow_le_mono_r; lia). assert (Wp : 2 ^ w <= 2 ^ p) by (apply Z.pow_le_mono_r; lia).
  assert (E1 : (val (rnd p emin (inject_Z (Z.abs v))) == inject_Z v)%Q) by (rewrite Z.abs_eq by lia; apply rnd_Z; lia).
  assert (E2 : (val (rnd p emin (inject_Z (2 ^ w - 1))) == inject_Z (2 ^ w - 1))%Q) by (apply rnd_Z; lia).
  set (q := (val (rnd p emin (inject_Z (Z.abs v))) / val (rnd p emin (inject_Z (2 ^ w - 1))))%Q) in *.
  assert (Q : (q == inject_Z v / inject_Z (2 ^ w - 1))%Q) by (unfold q; rewrite E1, E2; reflexivity).
  assert (D0 : (0 < inject_Z (2 ^ w - 1))%Q) by (change 0%Q with (inject_Z 0); rewrite <- Zlt_Qlt; lia).
  assert (Q0 : (0 <= q)%Q) by (rewrite Q; apply Qdiv_ge; auto; change 0%Q with (inject_Z 0); rewrite <- inject_Z_mult, <- Zle_Qle; lia).
  assert (Q1 : (q <= 1)%Q) by (rewrite Q; apply Qdiv_le; auto; rewrite Qmult_1_l, <- Zle_Qle; lia).
  destruct (rnd_shape p emin q Hp ltac:(lia) Q0 Q1) as (A & B & C & D).
  destruct (enc_shape p emin (fst (rnd p emin q)) (snd (rnd p emin q)) Hp ltac:(lia) A B C D) as (F & G).
  assert (S : (fst (rnd p emin q), snd (rnd p emin q)) = rnd p emin q) by (destruct (rnd p emin q); reflexivity). rewrite S in F, G.
  split; [exact F|]. unfold b. rewrite G. apply rnd_comp; auto; lia.
Qed.

(** and back *)
Lemma float_back : forall p emin nb w v dn, 1 < p -> fmt p emin nb w -> w = 8 * Z.of_nat dn -> 0 <= v < 2 ^ w -> 
  float_to_int p emin nb (2 ^ w - 1) dn (enc p emin (rnd p emin (val (rnd p emin (inject_Z (Z.abs v))) / val (rnd p emin (inject_Z (2 ^ w - 1)))))) = Ok (le dn v).
Proof.
  intros p emin nb w v dn Hp HF Ew Hv. destruct (to_float p emin nb w v Hp HF Hv) as (B & RV). destruct HF as (Hw & He & HI & HN).
  set (b := enc p emin _) in *. clearbody b. unfold float_to_int. rewrite (clamped_real p emin nb b) by (auto; lia).
  assert (W2 : 2 <= 2 ^ w) by (change 2 with (2 ^ 1) at 1; apply Z.pow_le_mono_r; lia). assert (Wp : 2 ^ w <= 2 ^ p) by (apply Z.pow_le_mono_r; lia).
  assert (E2 : (val (rnd p emin (inject_Z (2 ^ w - 1))) == inject_Z (2 ^ w - 1))%Q) by (apply rnd_Z; lia).
  assert (D0 : (0 < inject_Z (2 ^ w - 1))%Q) by (change 0%Q with (inject_Z 0); rewrite <- Zlt_Qlt; lia).
  assert (V0 : (0 <= inject_Z v / inject_Z (2 ^ w - 1))%Q) by (apply Qdiv_ge; auto; change 0%Q with (inject_Z 0); rewrite <- inject_Z_mult, <- Zle_Qle; lia).
  assert (R0 := rnd_nonneg p emin _ ltac:(lia) V0).
  rewrite (quant_comp p emin (real p emin b) (val (rnd p emin (inject_Z v / inject_Z (2 ^ w - 1)))) (val (rnd p emin (inject_Z (2 ^ w - 1)))) (inject_Z (2 ^ w - 1))) by (auto; lra || lia).
  rewrite (quant_roundtrip w p emin v) by (auto; lia). rewrite <- Ew. replace (v <? 2 ^ w) with true by lia. reflexivity.
Qed.

(** ** The buffers *)
Lemma elem_to_float : forall fcast S n D m p emin e, fits_float S n D m p emin -> bytes e -> zlen e = n ->
  conv_elem fcast S D e = Ok (le (Z.to_nat m) (enc p emin (rnd p emin (val (rnd p emin (inject_Z (Z.abs (unle e)))) / val (rnd p emin (inject_Z (2 ^ (8 * n) - 1))))))).
Proof.
  intros fcast S n D m p emin e H HB HL. assert (K := unle_range e HB).
  assert (E : conv_elem fcast S D e = Ok (int_to_float p emin (Z.to_nat m) (2 ^ (8 * n) - 1) (unle e))) by (inversion H; subst; reflexivity).
  rewrite E. unfold int_to_float. replace (unle e <? 0) with false by lia. rewrite Z.add_0_r. reflexivity.
Qed.
Lemma elem_to_int : forall fcast S n D m p emin e, fits_float S n D m p emin ->
  conv_elem fcast D S e = float_to_int p emin m (2 ^ (8 * n) - 1) (Z.to_nat n) (unle e).
Proof. intros fcast S n D m p emin e H. inversion H; subst; reflexivity. Qed.

Lemma float_switch : forall S n D m p emin, fits_float S n D m p emin ->
  ilGetBpcType S = n /\ ilGetBpcType D = m /\ S <> D /\ no_case S D = false /\ no_case D S = false /\ 1 < p /\ one_pat p emin < 256 ^ m /\ 2 ^ (8 * n) = 256 ^ n.
Proof. intros S n D m p emin H. inversion H; subst; repeat split; try reflexivity; discriminate. Qed.

(** The nearest numbers: every value [v] becomes [v / max] with an error of at most half a unit in the last place of 1;
    0 becomes 0 and the maximum becomes 1; the order is kept. *)
Theorem C53_to_float_partial : forall fcast alloc S n D m p emin N buf blk, allocator_ok alloc -> fits_float S n D m p emin ->
  bytes buf -> 0 <= N -> zlen buf = N * n -> N * m < 4294967296 -> alloc (N * m) = Some blk ->
  exists new, iSwitchTypes fcast alloc (N * n) S D buf = Ok (Some new, []) /\ zlen new = N * m /\
    forall i, 0 <= i < N ->
      let v := number (slice buf (i * n) n) in let x := real p emin (number (slice new (i * m) m)) in
      (x - (2 # 1) ^ (- p) <= inject_Z v / inject_Z (2 ^ (8 * n) - 1) <= x + (2 # 1) ^ (- p))%Q /\
      (v = 0 -> (x == 0)%Q) /\ (v = 2 ^ (8 * n) - 1 -> (x == 1)%Q) /\
      (forall j, 0 <= j < N -> v <= number (slice buf (j * n) n) -> (x <= real p emin (number (slice new (j * m) m)))%Q).
Proof.
  intros fcast alloc S n D m p emin N buf blk AO H HB HN HL H32 HA. destruct (fmts _ _ _ _ _ _ H) as (HF & Hn & Hm).
  destruct (float_switch _ _ _ _ _ _ H) as (BS & BD & NE & NC & _ & Hp & HO & HW).
  assert (EL : forall i, 0 <= i < N -> bytes (slice buf (i * n) n) /\ zlen (slice buf (i * n) n) = n) by (intros; apply elem_of with (N := N); auto).
  destruct (switch_ok fcast alloc S D n m N buf blk) as (new & E & L & V); auto; try (apply AO; auto).
  { intros i Hi. destruct (EL i Hi) as (B & Z1). rewrite (elem_to_float fcast S n D m p emin _ H B Z1). eexists. split; [reflexivity|]. rewrite le_len. lia. }
  exists new. split; [exact E|]. split; [exact L|].
  assert (G : forall i, 0 <= i < N -> 0 <= unle (slice buf (i * n) n) < 2 ^ (8 * n) /\ 0 <= number (slice new (i * m) m) /\
     (real p emin (number (slice new (i * m) m)) == val (rnd p emin (inject_Z (unle (slice buf (i * n) n)) / inject_Z (2 ^ (8 * n) - 1))))%Q).
  { intros i Hi. destruct (EL i Hi) as (B & Z1). specialize (V i Hi). rewrite (elem_to_float fcast S n D m p emin _ H B Z1) in V. injection V as V.
    assert (K := unle_range _ B). rewrite Z1, <- HW in K. destruct (to_float p emin m (8 * n) (unle (slice buf (i * n) n)) Hp HF K) as (B1 & R1).
    set (b := enc p emin _) in *. clearbody b.
    assert (Nb : number (slice new (i * m) m) = b) by (rewrite <- V, number_unle, unle_le by (rewrite Z2Nat.id by lia; lia); reflexivity).
    rewrite Nb. split; [exact K|]. split; [lia|exact R1]. }
  destruct HF as (Hw & He & _). set (M := 2 ^ (8 * n) - 1) in *.
  assert (M2 : 2 <= 2 ^ (8 * n)) by (change 2 with (2 ^ 1) at 1; apply Z.pow_le_mono_r; lia).
  assert (D0 : (0 < inject_Z M)%Q) by (change 0%Q with (inject_Z 0); rewrite <- Zlt_Qlt; lia).
  intros i Hi v x. destruct (G i Hi) as (Kv & Kb & RV). unfold x, v in *. rewrite (number_unle (slice buf (i * n) n)). set (a := unle (slice buf (i * n) n)) in *.
  assert (A0 : (0 <= inject_Z a / inject_Z M)%Q) by (apply Qdiv_ge; auto; change 0%Q with (inject_Z 0); rewrite <- inject_Z_mult, <- Zle_Qle; lia).
  assert (A1 : (inject_Z a / inject_Z M <= 1)%Q) by (apply Qdiv_le; auto; rewrite Qmult_1_l, <- Zle_Qle; lia).
  rewrite RV. split; [|split; [|split]].
  - fold (p2 (- p)). assert (Pp := p2_pos (- p)). destruct (Qlt_le_dec 0 (inject_Z a / inject_Z M)) as [X|X].
    + assert (R := rnd_err p emin _ X). cbv zeta in R. set (k := Z.max _ _) in *.
      assert (k <= 1 - p). { unfold k. destruct (expo_spec _ X) as (A & _). assert (K : (p2 (expo (inject_Z a / inject_Z M)) < p2 1)%Q) by (change (p2 1) with (2 # 1)%Q; lra). apply p2_lt_inv in K. lia. }
      assert (Pk : (p2 k <= p2 (- p + 1))%Q) by (apply p2_le; lia). rewrite p2_1 in Pk. destruct R as (R1 & R2). split; lra.
    + rewrite rnd_0 by auto. unfold val. cbn [fst snd]. change (inject_Z 0) with 0%Q. lra.
  - intros Ev. assert (Z1 : (inject_Z a / inject_Z M <= 0)%Q) by (apply Qdiv_le; auto; rewrite Ev; change (inject_Z 0) with 0%Q; lra).
    rewrite rnd_0 by auto. unfold val. cbn [fst snd]. change (inject_Z 0) with 0%Q. lra.
  - intros Ev. assert (O1 : (inject_Z a / inject_Z M == 1)%Q) by (rewrite Ev; field; lra). 
    assert (O2 : (val (rnd p emin (inject_Z a / inject_Z M)) == val (rnd p emin (inject_Z 1)))%Q) by (apply rnd_comp; auto; lia).
    rewrite O2. rewrite rnd_Z; [reflexivity|lia|lia|split; [lia|apply Z.pow_gt_1; lia]].
  - intros j Hj Hle. destruct (G j Hj) as (Kv' & _ & RV'). rewrite RV'. try rewrite RV. rewrite (number_unle (slice buf (j * n) n)) in Hle. apply rnd_mono; [lia|auto|].
    apply (proj1 (Qdiv_le _ _ _ D0)). assert (X : (inject_Z (unle (slice buf (j * n) n)) / inject_Z M * inject_Z M == inject_Z (unle (slice buf (j * n) n)))%Q) by (field; lra).
    rewrite Zle_Qle in Hle. eapply Qle_trans; [exact Hle|]. apply Qle_lteq. right. symmetry. exact X.
Qed.

Theorem C53_roundtrip_partial : forall fcast alloc S n D m p emin N buf blk blk', allocator_ok alloc -> fits_float S n D m p emin ->
  bytes buf -> 0 <= N -> zlen buf = N * n -> N * m < 4294967296 -> alloc (N * m) = Some blk -> alloc (N * n) = Some blk' ->
  exists mid, iSwitchTypes fcast alloc (N * n) S D buf = Ok (Some mid, []) /\ zlen mid = N * m /\
    iSwitchTypes fcast alloc (N * m) D S mid = Ok (Some buf, []).
Proof.
  intros fcast alloc S n D m p emin N buf blk blk' AO H HB HN HL H32 HA HA'. destruct (fmts _ _ _ _ _ _ H) as (HF & Hn & Hm).
  destruct (float_switch _ _ _ _ _ _ H) as (BS & BD & NE & NC & NC' & Hp & HO & HW).
  assert (EL : forall i, 0 <= i < N -> bytes (slice buf (i * n) n) /\ zlen (slice buf (i * n) n) = n) by (intros; apply elem_of with (N := N); auto).
  destruct (switch_ok fcast alloc S D n m N buf blk) as (new & E & L & V); auto; try (apply AO; auto).
  { intros i Hi. destruct (EL i Hi) as (B & Z1). rewrite (elem_to_float fcast S n D m p emin _ H B Z1). eexists. split; [reflexivity|]. rewrite le_len. lia. }
  exists new. split; [exact E|]. split; [exact L|].
  assert (nm : n <= m) by (inversion H; lia). assert (N * n <= N * m) by (apply Z.mul_le_mono_nonneg_l; lia).
  assert (CB : forall i, 0 <= i < N -> conv_elem fcast D S (slice new (i * m) m) = Ok (slice buf (i * n) n)).
  { intros i Hi. destruct (EL i Hi) as (B & Z1). specialize (V i Hi). rewrite (elem_to_float fcast S n D m p emin _ H B Z1) in V. injection V as V.
    rewrite (elem_to_int fcast S n D m p emin _ H). assert (K := unle_range _ B). rewrite Z1, <- HW in K.
    destruct (to_float p emin m (8 * n) (unle (slice buf (i * n) n)) Hp HF K) as (B1 & R1).
    remember (enc p emin _) as b eqn:Eb in B1, V at 1. assert (Nb : unle (slice new (i * m) m) = b) by (rewrite <- V; apply unle_le; rewrite Z2Nat.id by lia; lia).
    rewrite Nb, Eb. rewrite (float_back p emin m (8 * n)); auto; [|lia].
    f_equal. apply le_unle; [auto|lia]. }
  destruct (switch_ok fcast alloc D S m n N new blk') as (back & E' & L' & V'); auto; try (apply AO; auto); try lia.
  { intros i Hi. exists (slice buf (i * n) n). split; [apply CB; auto|]. eapply EL; auto. }
  rewrite E'. do 3 f_equal. apply (pixels_ext back buf n N); auto. intros q Hq. specialize (V' q Hq). rewrite (CB q Hq) in V'. unfold pixel. congruence.
Qed.

Lemma inf_eq : forall S n D m p emin, fits_float S n D m p emin -> infinity p m = (2 ^ (8 * m - 1) / 2 ^ (p - 1) - 1) * 2 ^ (p - 1) /\
  one_pat p emin < infinity p m /\ 0 < one_pat p emin /\ 2 ^ (8 * m) = 256 ^ m /\ 2 ^ (8 * m) = 2 * 2 ^ (8 * m - 1) /\ emin <= - p.
Proof. intros S n D m p emin H. inversion H; subst; repeat split; try reflexivity; discriminate. Qed.

Lemma real_one : forall S n D m p emin, fits_float S n D m p emin -> (real p emin (one_pat p emin) == 1)%Q.
Proof. intros S n D m p emin H. inversion H; subst; vm_compute; reflexivity. Qed.
Lemma real_zero : forall p emin, 1 < p -> (real p emin 0 == 0)%Q.
Proof. intros p emin Hp. unfold real. assert (0 < 2 ^ (p - 1)) by (apply Z.pow_pos_nonneg; lia). rewrite Z.div_0_l, Z.mod_0_l by lia. cbn [Z.eqb]. change (inject_Z 0) with 0%Q. lra. Qed.

Lemma clamped_spec : forall S n D m p emin b, fits_float S n D m p emin -> 0 <= b < 256 ^ m -> not_nan p m b ->
  exists x, clamped p emin m b = Some x /\ (negative m b -> x == 0)%Q /\ (~ negative m b -> (x == real p emin (Z.min b (one_pat p emin)))%Q).
Proof.
  intros S n D m p emin b H Hb HN. destruct (inf_eq _ _ _ _ _ _ H) as (I1 & I2 & I3 & I4 & I5 & I6). destruct (fmts _ _ _ _ _ _ H) as ((_ & _ & HF & _) & Hn & Hm).
  destruct (float_switch _ _ _ _ _ _ H) as (_ & _ & _ & _ & _ & Hp & _).
  unfold not_nan in HN. unfold negative. unfold clamped. cbv zeta. rewrite <- I1. replace (infinity p m <? b mod 2 ^ (8 * m - 1)) with false by lia.
  destruct (Z.leb_spec (2 ^ (8 * m - 1)) b) as [L|L].
  - exists 0%Q. split; [reflexivity|]. split; [reflexivity|lia].
  - rewrite Z.mod_small in * by lia. fold (one_pat p emin). destruct (Z.ltb_spec (one_pat p emin) b) as [L2|L2].
    + exists 1%Q. split; [reflexivity|]. split; [lia|]. intros _. rewrite Z.min_r by lia. symmetry. eapply real_one; eauto.
    + eexists. split; [reflexivity|]. split; [lia|]. intros _. rewrite Z.min_l by lia. unfold real, val, p2. cbn [fst snd]. destruct (b / 2 ^ (p - 1) =? 0); reflexivity.
Qed.

(** the value an element is converted to *)
Lemma int_of_float : forall S n D m p emin b, fits_float S n D m p emin -> 0 <= b < 256 ^ m -> not_nan p m b ->
  exists v, float_to_int p emin m (2 ^ (8 * n) - 1) (Z.to_nat n) b = Ok (le (Z.to_nat n) v) /\ 0 <= v <= 2 ^ (8 * n) - 1 /\
    (negative m b -> v = 0) /\ (~ negative m b -> v = quant p emin (real p emin (Z.min b (one_pat p emin))) (inject_Z (2 ^ (8 * n) - 1))).
Proof.
  intros S n D m p emin b H Hb HN. destruct (clamped_spec S n D m p emin b H Hb HN) as (x & E & X0 & X1).
  destruct (inf_eq _ _ _ _ _ _ H) as (I1 & I2 & I3 & I4 & I5 & I6). destruct (fmts _ _ _ _ _ _ H) as ((Hw & He & HF & _) & Hn & Hm).
  destruct (float_switch _ _ _ _ _ _ H) as (_ & _ & _ & _ & _ & Hp & _).
  assert (W2 : 2 <= 2 ^ (8 * n)) by (change 2 with (2 ^ 1) at 1; apply Z.pow_le_mono_r; lia). assert (Wp : 2 ^ (8 * n) <= 2 ^ p) by (apply Z.pow_le_mono_r; lia).
  unfold float_to_int. rewrite E. rewrite Z2Nat.id by lia.
  assert (E2 : (val (rnd p emin (inject_Z (2 ^ (8 * n) - 1))) == inject_Z (2 ^ (8 * n) - 1))%Q) by (apply rnd_Z; lia).
  assert (D0 : (0 < inject_Z (2 ^ (8 * n) - 1))%Q) by (change 0%Q with (inject_Z 0); rewrite <- Zlt_Qlt; lia).
  assert (B : (0 <= x <= 1)%Q).
  { destruct (Z.le_gt_cases (2 ^ (8 * m - 1)) b) as [L|L].
    - specialize (X0 L). lra.
    - assert (L' : ~ negative m b) by (unfold negative; lia). specialize (X1 L').
      assert (R0 := real_mono p emin 0 (Z.min b (one_pat p emin)) Hp ltac:(lia)). assert (R1 := real_mono p emin (Z.min b (one_pat p emin)) (one_pat p emin) Hp ltac:(lia)).
      rewrite (real_zero p emin Hp) in R0. rewrite (real_one _ _ _ _ _ _ H) in R1. lra. }
  rewrite (quant_comp p emin x x (val (rnd p emin (inject_Z (2 ^ (8 * n) - 1)))) (inject_Z (2 ^ (8 * n) - 1))) by (try reflexivity; auto; try lia; lra).
  set (v := quant p emin x (inject_Z (2 ^ (8 * n) - 1))).
  assert (V : 0 <= v <= 2 ^ (8 * n) - 1).
  { unfold v, quant. assert (P0 : (0 <= x * inject_Z (2 ^ (8 * n) - 1))%Q) by (apply Qmult_le_0_compat; lra).
    assert (P1 : (x * inject_Z (2 ^ (8 * n) - 1) <= inject_Z (2 ^ (8 * n) - 1))%Q).
    { rewrite <- (Qmult_1_l (inject_Z (2 ^ (8 * n) - 1))) at 2. apply Qmult_le_compat_r; lra. }
    assert (R := rnd_mono p emin _ _ ltac:(lia) P0 P1). assert (R' := rnd_nonneg p emin _ ltac:(lia) P0). rewrite E2 in R.
    split.
    - change 0 with (Qfloor (inject_Z 0)). apply Qfloor_resp_le. exact R'.
    - apply Qfloor_resp_le in R. rewrite Qfloor_Z in R. exact R. }
  exists v. replace (v <? 2 ^ (8 * n)) with true by lia. split; [reflexivity|]. split; [exact V|]. split.
  - intros L. unfold v. rewrite (quant_comp p emin x 0%Q _ (inject_Z (2 ^ (8 * n) - 1))) by (try reflexivity; auto; try lia; lra).
    unfold quant. rewrite rnd_0 by lra. reflexivity.
  - intros L. unfold v. apply quant_comp; try reflexivity; auto; try lia; lra.
Qed.

(** Back to integers: every number is clamped to [0, 1]; order is kept, negative numbers give 0, 1 and above the maximum. *)
Theorem C53_to_int_partial : forall fcast alloc S n D m p emin N buf blk, allocator_ok alloc -> fits_float S n D m p emin ->
  bytes buf -> 0 <= N -> zlen buf = N * m -> N * m < 4294967296 -> alloc (N * n) = Some blk ->
  (forall i, 0 <= i < N -> not_nan p m (number (slice buf (i * m) m))) ->
  exists new, iSwitchTypes fcast alloc (N * m) D S buf = Ok (Some new, []) /\ zlen new = N * n /\
    forall i, 0 <= i < N -> let b := number (slice buf (i * m) m) in let v := number (slice new (i * n) n) in
      0 <= v <= 2 ^ (8 * n) - 1 /\
      (negative m b -> v = 0) /\ (~ negative m b -> (1 <= real p emin b)%Q -> v = 2 ^ (8 * n) - 1) /\
      (forall j, 0 <= j < N -> ~ negative m b -> b <= number (slice buf (j * m) m) -> ~ negative m (number (slice buf (j * m) m)) -> v <= number (slice new (j * n) n)).
Proof.
  intros fcast alloc S n D m p emin N buf blk AO H HB HN HL H32 HA HNN. destruct (fmts _ _ _ _ _ _ H) as ((Hw & He & _) & Hn & Hm).
  destruct (float_switch _ _ _ _ _ _ H) as (BS & BD & NE & NC & NC' & Hp & HO & HW).
  destruct (inf_eq _ _ _ _ _ _ H) as (I1 & I2 & I3 & I4 & I5 & I6).
  assert (W2 : 2 <= 2 ^ (8 * n)) by (change 2 with (2 ^ 1) at 1; apply Z.pow_le_mono_r; lia). assert (Wp : 2 ^ (8 * n) <= 2 ^ p) by (apply Z.pow_le_mono_r; lia).
  assert (D0 : (0 < inject_Z (2 ^ (8 * n) - 1))%Q) by (change 0%Q with (inject_Z 0); rewrite <- Zlt_Qlt; lia).
  assert (RB : forall i, 0 <= i < N -> 0 <= number (slice buf (i * m) m) < 256 ^ m).
  { intros i Hi. destruct (elem_of buf m N i) as (B & Z1); auto. rewrite number_unle. assert (K := unle_range _ B). rewrite Z1 in K. exact K. }
  assert (nm : n <= m) by (inversion H; lia). assert (N * n <= N * m) by (apply Z.mul_le_mono_nonneg_l; lia).
  destruct (switch_ok fcast alloc D S m n N buf blk) as (new & E & L & V); auto; try (apply AO; auto); try lia.
  { intros i Hi. rewrite (elem_to_int fcast S n D m p emin _ H). rewrite <- number_unle.
    destruct (int_of_float S n D m p emin _ H (RB i Hi) (HNN i Hi)) as (v & Ev & _). eexists. split; [exact Ev|]. rewrite le_len. lia. }
  exists new. split; [exact E|]. split; [exact L|].
  assert (G : forall i, 0 <= i < N -> let b := number (slice buf (i * m) m) in let v := number (slice new (i * n) n) in 0 <= v <= 2 ^ (8 * n) - 1 /\
     (negative m b -> v = 0) /\ (~ negative m b -> v = quant p emin (real p emin (Z.min b (one_pat p emin))) (inject_Z (2 ^ (8 * n) - 1)))).
  { intros i Hi b v. specialize (V i Hi). rewrite (elem_to_int fcast S n D m p emin _ H), <- number_unle in V.
    destruct (int_of_float S n D m p emin _ H (RB i Hi) (HNN i Hi)) as (w & Ev & B1 & B2 & B3). rewrite Ev in V. injection V as V.
    assert (v = w) as -> by (unfold v; rewrite <- V, number_unle; apply unle_le; rewrite Z2Nat.id by lia; lia). auto. }
  intros i Hi b v. destruct (G i Hi) as (G1 & G2 & G3). fold b v in G1, G2, G3. split; [exact G1|]. split; [exact G2|].
  assert (Rpos : forall c, 0 <= c -> (0 <= real p emin c)%Q). { intros c Hc. rewrite <- (real_zero p emin Hp). apply real_mono; lia. }
  split.
  - intros Hneg R1. specialize (G3 Hneg). assert (OB : one_pat p emin <= b).
    { destruct (Z.le_gt_cases (one_pat p emin) b) as [|LT]; auto. exfalso. assert (R2 := real_mono p emin b (one_pat p emin - 1) Hp ltac:(assert (K := RB i Hi); fold b in K; lia)).
      assert (R3 : (real p emin (one_pat p emin - 1) < 1)%Q) by (inversion H; subst; vm_compute; reflexivity). lra. }
    rewrite Z.min_r in G3 by lia. rewrite G3. rewrite (quant_comp p emin _ 1%Q _ (inject_Z (2 ^ (8 * n) - 1))); try lia; try lra; try reflexivity; [|apply Rpos; lia|eapply real_one; eauto].
    unfold quant. assert (C1 : (val (rnd p emin (1 * inject_Z (2 ^ (8 * n) - 1))) == inject_Z (2 ^ (8 * n) - 1))%Q).
    { assert (C2 : (val (rnd p emin (1 * inject_Z (2 ^ (8 * n) - 1))) == val (rnd p emin (inject_Z (2 ^ (8 * n) - 1))))%Q) by (apply rnd_comp; try lia; lra).
      rewrite C2. apply rnd_Z; lia. }
    apply Qfloor_comp in C1. rewrite Qfloor_Z in C1. exact C1.
  - intros j Hj N1 Hle N2. destruct (G j Hj) as (F1 & F2 & F3). rewrite (F3 N2), (G3 N1). assert (K := RB i Hi). fold b in K.
    unfold quant. apply Qfloor_resp_le. apply rnd_mono; [lia|apply Qmult_le_0_compat; [apply Rpos; lia|lra]|]. apply Qmult_le_compat_r; [apply real_mono; lia|lra].
Qed.

(** 1.0f to 32 bits: the maximum is rounded up to 2^32 and the cast is undefined. *)
Theorem C53_white_uint_refuted : forall fcast alloc blk, alloc 4 = Some blk ->
  iSwitchTypes fcast alloc 4 IL_FLOAT IL_UNSIGNED_INT [0; 0; 128; 63] = UB.
Proof. intros fcast alloc blk HA. unfold iSwitchTypes. cbn -[conv_elem rde wre]. change (u32 4) with 4. rewrite HA. reflexivity. Qed.
(** A NaN passes the clamping and its cast is undefined. *)
Theorem C53_nan_refuted : forall fcast alloc blk, alloc 1 = Some blk ->
  iSwitchTypes fcast alloc 4 IL_FLOAT IL_UNSIGNED_BYTE [0; 0; 192; 127] = UB.
Proof. intros fcast alloc blk HA. unfold iSwitchTypes. cbn -[conv_elem rde wre]. change (u32 1) with 1. rewrite HA. reflexivity. Qed.
(** Through half floats bytes change: half of the levels lose one. *)
Theorem C53_half_refuted : iSwitchTypes no_cast some_alloc 4 IL_UNSIGNED_BYTE IL_HALF [1; 128; 200; 255] = Ok (Some [4; 28; 4; 56; 70; 58; 0; 60], []) /\
  iSwitchTypes no_cast some_alloc 8 IL_HALF IL_UNSIGNED_BYTE [4; 28; 4; 56; 70; 58; 0; 60] = Ok (Some [0; 127; 199; 255], []).
Proof. split; vm_compute; reflexivity. Qed.
(** Signed values become negative and are clamped away on the way back. *)
Theorem C53_signed_refuted : iSwitchTypes no_cast some_alloc 1 IL_BYTE IL_FLOAT [255] = Ok (Some [129; 128; 128; 187], []) /\
  iSwitchTypes no_cast some_alloc 4 IL_FLOAT IL_BYTE [129; 128; 128; 187] = Ok (Some [0], []).
Proof. split; vm_compute; reflexivity. Qed.
(** 32-bit integers do not survive single precision. *)
Theorem C53_uint_float_refuted : iSwitchTypes no_cast some_alloc 4 IL_UNSIGNED_INT IL_FLOAT [1; 0; 0; 1] = Ok (Some [0; 0; 128; 59], []) /\
  iSwitchTypes no_cast some_alloc 4 IL_FLOAT IL_UNSIGNED_INT [0; 0; 128; 59] = Ok (Some [0; 0; 0; 1], []).
Proof. split; vm_compute; reflexivity. Qed.

(** ** Concrete cases *)
Example C53_ex : exists mid, iSwitchTypes no_cast some_alloc (3 * 1) IL_UNSIGNED_BYTE IL_FLOAT [0; 128; 255] = Ok (Some mid, []) /\ zlen mid = 3 * 4 /\
    iSwitchTypes no_cast some_alloc (3 * 4) IL_FLOAT IL_UNSIGNED_BYTE mid = Ok (Some [0; 128; 255], []).
Proof.
  apply (C53_roundtrip_partial no_cast some_alloc IL_UNSIGNED_BYTE 1 IL_FLOAT 4 24 (-149) 3 [0; 128; 255] (repeat 170 12) (repeat 170 3)); try lia; try reflexivity.
  - exact some_alloc_ok.
  - constructor.
  - apply (proj2 (bytes_Forall _)); repeat constructor; lia.
Qed.
Example C53_ex_nan : not_nan 24 4 (number [0; 0; 128; 63]) /\ ~ not_nan 24 4 (number [0; 0; 192; 127]) /\ Qeq (real 24 (-149) (number [0; 0; 128; 63])) 1.
Proof. unfold not_nan. repeat split; vm_compute; try discriminate; auto. Qed.
Print Assumptions C53_to_float_partial.
Print Assumptions C53_roundtrip_partial.
Print Assumptions C53_to_int_partial.
Print Assumptions C53_white_uint_refuted.
Print Assumptions C53_nan_refuted.
Print Assumptions C53_half_refuted.
Print Assumptions C53_signed_refuted.
Print Assumptions C53_uint_float_refuted.
