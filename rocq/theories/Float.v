(** Binary floating point for nonnegative numbers: values [m * 2^e], rounding to nearest (ties to
    even), bit patterns.  Models no DevIL function; it is the arithmetic of the C types float
    ([p = 24], [emin = -149]) and double ([p = 53], [emin = -1074]) used by the conversions. *)
From Coq Require Import ZArith QArith Qround Qpower Lqa Lia Bool.
From Verif Require Import Base.
Open Scope Z_scope.

Definition p2 (e : Z) : Q := ((2 # 1) ^ e)%Q.

(** nearest integer, ties to even *)
Definition near (x : Q) : Z :=
  let f := Qfloor x in
  match Qcompare (x - inject_Z f) (1 # 2) with Lt => f | Gt => f + 1 | Eq => if Z.odd f then f + 1 else f end.

(** for positive [x]: the [e] with 2^e <= x < 2^(e+1) *)
Definition expo (x : Q) : Z :=
  let e := Z.log2 (Qnum x) - Z.log2 (Zpos (Qden x)) in if Qle_bool (p2 e) x then e else e - 1.

(** [x >= 0] rounded to [p] significant bits, exponent at least [emin]; the number [m * 2^e] *)
Definition rnd (p emin : Z) (x : Q) : Z * Z :=
  if Qle_bool x 0 then (0, emin)
  else let e := Z.max emin (expo x - (p - 1)) in (near (x / p2 e), e).
Definition val (f : Z * Z) : Q := (inject_Z (fst f) * p2 (snd f))%Q.

(** bit pattern without sign of a rounded number (normal or subnormal, no overflow) *)
Definition enc (p emin : Z) (f : Z * Z) : Z := (snd f - emin) * 2 ^ (p - 1) + fst f.

(** ** Powers of two *)
Lemma p2_pos : forall e, (0 < p2 e)%Q.
Proof. intros. apply Qpower_0_lt. reflexivity. Qed.
Lemma p2_plus : forall a b, (p2 (a + b) == p2 a * p2 b)%Q.
Proof. intros. apply Qpower_plus. discriminate. Qed.
Lemma p2_1 : forall a, (p2 (a + 1) == 2 * p2 a)%Q.
Proof. intros. rewrite p2_plus. change (p2 1) with (2 # 1)%Q. ring. Qed.
Lemma p2_le : forall a b, a <= b -> (p2 a <= p2 b)%Q.
Proof. intros. apply Qpower_le_compat_l; [lia|discriminate]. Qed.
Lemma p2_lt : forall a b, a < b -> (p2 a < p2 b)%Q.
Proof. intros. apply Qpower_lt_compat_l; [lia|reflexivity]. Qed.
Lemma p2_lt_inv : forall a b, (p2 a < p2 b)%Q -> a < b.
Proof. intros a b H. apply Qpower_lt_compat_l_inv in H; [auto|reflexivity]. Qed.
Lemma p2_Z : forall e, 0 <= e -> (p2 e == inject_Z (2 ^ e))%Q.
Proof.
  intros e He. pattern e. apply natlike_ind; [reflexivity| |auto]. intros x Hx IH. unfold Z.succ. rewrite p2_1, IH.
  rewrite Z.pow_add_r by lia. rewrite inject_Z_mult. change (inject_Z (2 ^ 1)) with (2 # 1)%Q. ring.
Qed.

Lemma Qdiv_p2 : forall x e, (x / p2 e == x * p2 (- e))%Q.
Proof.
  intros x e. assert (H := p2_pos e). assert (E := p2_plus e (- e)). replace (e + - e) with 0 in E by lia. change (p2 0) with 1%Q in E.
  assert (p2 (- e) == / p2 e)%Q as ->; [|reflexivity]. field_simplify_eq; [rewrite Qmult_comm; symmetry; exact E|lra].
Qed.

Lemma Qdiv_le : forall a b c, (0 < c)%Q -> (a <= b * c)%Q <-> (a / c <= b)%Q.
Proof.
  intros a b c Hc. split; intros H.
  - apply Qle_shift_div_r; auto.
  - rewrite <- (Qmult_div_r a c) by lra. rewrite Qmult_comm. apply Qmult_le_compat_r; [|lra]. exact H.
Qed.
Lemma Qdiv_ge : forall a b c, (0 < c)%Q -> (b * c <= a)%Q <-> (b <= a / c)%Q.
Proof.
  intros a b c Hc. split; intros H.
  - apply Qle_shift_div_l; auto.
  - rewrite <- (Qmult_div_r a c) by lra. rewrite (Qmult_comm c). apply Qmult_le_compat_r; [|lra]. exact H.
Qed.
Lemma Qdiv_lt : forall a b c, (0 < c)%Q -> (a < b * c)%Q <-> (a / c < b)%Q.
Proof.
  intros a b c Hc. assert (H := Qdiv_ge a b c Hc). split; intros K; apply Qnot_le_lt; intros N; apply H in N; lra.
Qed.
Lemma Qdiv_gt : forall a b c, (0 < c)%Q -> (b * c < a)%Q <-> (b < a / c)%Q.
Proof.
  intros a b c Hc. assert (H := Qdiv_le a b c Hc). split; intros K; apply Qnot_le_lt; intros N; apply H in N; lra.
Qed.

(** ** The nearest integer *)
Lemma near_cases : forall x, (near x = Qfloor x /\ x <= inject_Z (Qfloor x) + (1 # 2))%Q \/
  (near x = (Qfloor x + 1)%Z /\ inject_Z (Qfloor x) + (1 # 2) <= x)%Q.
Proof.
  intros x. unfold near. destruct (Qcompare_spec (x - inject_Z (Qfloor x)) (1 # 2)) as [E|E|E].
  - destruct (Z.odd _); [right|left]; split; auto; lra.
  - left. split; auto; lra.
  - right. split; auto; lra.
Qed.
Lemma near_err : forall x, (inject_Z (near x) - (1 # 2) <= x <= inject_Z (near x) + (1 # 2))%Q.
Proof.
  intros x. assert (A := Qfloor_le x). assert (B := Qlt_floor x). rewrite inject_Z_plus in B. change (inject_Z 1) with 1%Q in B.
  destruct (near_cases x) as [(-> & H)|(-> & H)]; [lra|]. rewrite inject_Z_plus. change (inject_Z 1) with 1%Q. lra.
Qed.
Lemma near_ge : forall x z, (inject_Z z - (1 # 2) < x)%Q -> z <= near x.
Proof.
  intros x z H. assert (E := near_err x). assert (L : (inject_Z z < inject_Z (near x + 1))%Q).
  { rewrite inject_Z_plus. change (inject_Z 1) with 1%Q. lra. }
  rewrite <- Zlt_Qlt in L. lia.
Qed.
Lemma near_le : forall x z, (x < inject_Z z + (1 # 2))%Q -> near x <= z.
Proof.
  intros x z H. assert (E := near_err x). assert (L : (inject_Z (near x) < inject_Z (z + 1))%Q).
  { rewrite inject_Z_plus. change (inject_Z 1) with 1%Q. lra. }
  rewrite <- Zlt_Qlt in L. lia.
Qed.
Lemma near_comp : forall x y, (x == y)%Q -> near x = near y.
Proof.
  intros x y H. unfold near. rewrite (Qfloor_comp _ _ H).
  assert (E : (x - inject_Z (Qfloor y) == y - inject_Z (Qfloor y))%Q) by lra.
  assert (C : ((x - inject_Z (Qfloor y) ?= 1 # 2) = (y - inject_Z (Qfloor y) ?= 1 # 2))%Q) by (rewrite E; reflexivity).
  rewrite C. reflexivity.
Qed.
Lemma near_mono : forall x y, (x <= y)%Q -> near x <= near y.
Proof.
  intros x y H. assert (F := Qfloor_resp_le x y H).
  assert (Qfloor x < Qfloor y \/ Qfloor x = Qfloor y) as [C|C] by lia.
  - destruct (near_cases x) as [(-> & Hx)|(-> & Hx)], (near_cases y) as [(-> & Hy)|(-> & Hy)]; lia.
  - unfold near. rewrite C. destruct (Qcompare_spec (x - inject_Z (Qfloor y)) (1 # 2)) as [E|E|E], (Qcompare_spec (y - inject_Z (Qfloor y)) (1 # 2)) as [E'|E'|E'];
      try (exfalso; lra); destruct (Z.odd (Qfloor y)); lia.
Qed.
Lemma near_Z : forall z, near (inject_Z z) = z.
Proof. intros z. assert (z <= near (inject_Z z)) by (apply near_ge; lra). assert (near (inject_Z z) <= z) by (apply near_le; lra). lia. Qed.

(** ** The exponent *)
Lemma expo_spec : forall x, (0 < x)%Q -> (p2 (expo x) <= x < p2 (expo x + 1))%Q.
Proof.
  intros [n d] H. assert (Hn : 0 < n) by (unfold Qlt in H; cbn in H; lia). 
  destruct (Z.log2_spec n Hn) as (A & B). destruct (Z.log2_spec (Zpos d) ltac:(lia)) as (C & D).
  unfold expo. cbn [Qnum Qden]. set (a := Z.log2 n) in *. set (b := Z.log2 (Zpos d)) in *.
  assert (Ha : 0 <= a) by apply Z.log2_nonneg. assert (Hb : 0 <= b) by apply Z.log2_nonneg.
  assert (X : (n # d == inject_Z n / inject_Z (Zpos d))%Q) by (rewrite Qmake_Qdiv; reflexivity).
  assert (Q1 : (p2 a <= inject_Z n)%Q) by (rewrite p2_Z by lia; rewrite <- Zle_Qle; exact A).
  assert (Q2 : (inject_Z n < p2 (a + 1))%Q) by (rewrite p2_Z by lia; rewrite <- Zlt_Qlt; exact B).
  assert (Q3 : (p2 b <= inject_Z (Zpos d))%Q) by (rewrite p2_Z by lia; rewrite <- Zle_Qle; exact C).
  assert (Q4 : (inject_Z (Zpos d) < p2 (b + 1))%Q) by (rewrite p2_Z by lia; rewrite <- Zlt_Qlt; exact D).
  assert (P0 := p2_pos b).
  assert (U : (n # d < p2 (a - b + 1))%Q).
  { rewrite X. apply Qdiv_lt; [lra|]. apply Qlt_le_trans with (1 := Q2). replace (a + 1) with ((a - b + 1) + b) by lia.
    rewrite p2_plus. rewrite !(Qmult_comm (p2 (a - b + 1))). apply Qmult_le_compat_r; [exact Q3|]. assert (K := p2_pos (a - b + 1)); lra. }
  assert (V : (p2 (a - b - 1) <= n # d)%Q).
  { rewrite X. apply Qdiv_ge; [lra|]. apply Qle_trans with (2 := Q1). replace a with ((a - b - 1) + (b + 1)) at 2 by lia.
    rewrite p2_plus. rewrite !(Qmult_comm (p2 (a - b - 1))). apply Qmult_le_compat_r; [lra|]. assert (K := p2_pos (a - b - 1)); lra. }
  destruct (Qle_bool (p2 (a - b)) (n # d)) eqn:E.
  - apply Qle_bool_iff in E. split; auto.
  - replace (a - b - 1 + 1) with (a - b) by lia. split; auto. apply Qnot_le_lt. intros K. apply Qle_bool_iff in K. congruence.
Qed.
Lemma expo_unique : forall x e, (p2 e <= x < p2 (e + 1))%Q -> expo x = e.
Proof.
  intros x e (A & B). assert (0 < x)%Q by (assert (K := p2_pos e); lra). destruct (expo_spec x H) as (C & D).
  assert (p2 e < p2 (expo x + 1))%Q by lra. assert (p2 (expo x) < p2 (e + 1))%Q by lra.
  apply p2_lt_inv in H0, H1. lia.
Qed.
Lemma expo_mono : forall x y, (0 < x)%Q -> (x <= y)%Q -> expo x <= expo y.
Proof.
  intros x y Hx H. destruct (expo_spec x Hx) as (A & B). destruct (expo_spec y ltac:(lra)) as (C & D).
  assert (K : (p2 (expo x) < p2 (expo y + 1))%Q) by lra. apply p2_lt_inv in K. lia.
Qed.

(** ** Rounding *)
Definition rep (p emin : Z) (x : Q) : Prop := exists m e, 0 <= m < 2 ^ p /\ emin <= e /\ (x == inject_Z m * p2 e)%Q.

(** the integer [m * 2^(e' - e)] *)
Lemma scale_Z : forall m e e', e <= e' -> (inject_Z m * p2 e' == inject_Z (m * 2 ^ (e' - e)) * p2 e)%Q.
Proof.
  intros m e e' H. replace e' with ((e' - e) + e) at 1 by lia. rewrite p2_plus, inject_Z_mult, (p2_Z (e' - e)) by lia. ring.
Qed.

Lemma rnd_pos : forall p emin x, (0 < x)%Q ->
  rnd p emin x = (near (x / p2 (Z.max emin (expo x - (p - 1)))), Z.max emin (expo x - (p - 1))).
Proof.
  intros p emin x H. unfold rnd. destruct (Qle_bool x 0) eqn:E; auto. apply Qle_bool_iff in E. lra.
Qed.
Lemma rnd_0 : forall p emin x, (x <= 0)%Q -> rnd p emin x = (0, emin).
Proof. intros p emin x H. unfold rnd. apply Qle_bool_iff in H. rewrite H. reflexivity. Qed.

(** the rounded significand and where the number lies *)
Lemma rnd_norm : forall p emin x, 0 < p -> (0 < x)%Q -> let k := Z.max emin (expo x - (p - 1)) in
  (x < p2 p * p2 k)%Q /\ ((emin < k)%Z -> p2 (p - 1) * p2 k <= x)%Q.
Proof.
  intros p emin x Hp Hx k. destruct (expo_spec x Hx) as (A & B). split.
  - rewrite <- p2_plus. apply Qlt_le_trans with (1 := B). apply p2_le. lia.
  - intros H. rewrite <- p2_plus. replace (p - 1 + k) with (expo x) by lia. exact A.
Qed.

Lemma rnd_ge_rep : forall p emin x a, 0 < p -> (0 <= x)%Q -> rep p emin a -> (a <= x)%Q -> (a <= val (rnd p emin x))%Q.
Proof.
  intros p emin x a Hp Hx (m & e & Hm & He & Ea) H. destruct (Qlt_le_dec 0 x) as [X|X].
  2:{ rewrite rnd_0 by auto. unfold val. cbn [fst snd]. change (inject_Z 0) with 0%Q. lra. }
  destruct (rnd_norm p emin x Hp X) as (U & V). rewrite rnd_pos by auto. unfold val. cbn [fst snd].
  set (k := Z.max emin (expo x - (p - 1))) in *. assert (Pk := p2_pos k). rewrite Ea in H |- *.
  destruct (Z_le_dec k e) as [L|L].
  - rewrite (scale_Z m k e L) in H |- *. apply Qmult_le_compat_r; [|lra]. rewrite <- Zle_Qle. apply near_ge.
    apply Qdiv_ge in H; [lra|auto].
  - specialize (V ltac:(lia)). assert (G : 2 ^ (p - 1) <= near (x / p2 k)).
    { apply near_ge. rewrite <- p2_Z by lia. apply Qdiv_ge in V; [lra|auto]. }
    apply Qle_trans with (inject_Z (2 ^ (p - 1)) * p2 k)%Q.
    + apply Qle_trans with (inject_Z (2 ^ p) * p2 e)%Q.
      * apply Qmult_le_compat_r; [rewrite <- Zle_Qle; lia|]. assert (K := p2_pos e); lra.
      * rewrite <- !p2_Z by lia. rewrite <- !p2_plus. apply p2_le. lia.
    + apply Qmult_le_compat_r; [|lra]. rewrite <- Zle_Qle. exact G.
Qed.

Lemma rnd_le_rep : forall p emin x a, 0 < p -> (0 <= x)%Q -> rep p emin a -> (x <= a)%Q -> (val (rnd p emin x) <= a)%Q.
Proof.
  intros p emin x a Hp Hx (m & e & Hm & He & Ea) H. destruct (Qlt_le_dec 0 x) as [X|X].
  2:{ rewrite rnd_0 by auto. unfold val. cbn [fst snd]. change (inject_Z 0) with 0%Q. lra. }
  destruct (rnd_norm p emin x Hp X) as (U & V). rewrite rnd_pos by auto. unfold val. cbn [fst snd].
  set (k := Z.max emin (expo x - (p - 1))) in *. assert (Pk := p2_pos k). rewrite Ea in H |- *.
  destruct (Z_le_dec k e) as [L|L].
  - rewrite (scale_Z m k e L) in H |- *. apply Qmult_le_compat_r; [|lra]. rewrite <- Zle_Qle. apply near_le.
    apply Qdiv_le in H; [lra|auto].
  - exfalso. specialize (V ltac:(lia)).
    assert (A : (inject_Z m * p2 e < p2 p * p2 e)%Q).
    { apply Qmult_lt_compat_r; [apply p2_pos|]. rewrite p2_Z by lia. rewrite <- Zlt_Qlt. lia. }
    assert (B : (p2 p * p2 e <= p2 (p - 1) * p2 k)%Q) by (rewrite <- !p2_plus; apply p2_le; lia). lra.
Qed.

Lemma rnd_exact : forall p emin x, 0 < p -> (0 <= x)%Q -> rep p emin x -> (val (rnd p emin x) == x)%Q.
Proof.
  intros p emin x Hp Hx R. assert (A := rnd_ge_rep p emin x x Hp Hx R ltac:(lra)). assert (B := rnd_le_rep p emin x x Hp Hx R ltac:(lra)). lra.
Qed.

Lemma rnd_nonneg : forall p emin x, 0 < p -> (0 <= x)%Q -> (0 <= val (rnd p emin x))%Q.
Proof.
  intros p emin x Hp Hx. apply rnd_ge_rep; auto. exists 0, emin. split; [split; [lia|apply Z.pow_pos_nonneg; lia]|]. split; [lia|].
  change (inject_Z 0) with 0%Q. lra.
Qed.

Lemma rnd_mono : forall p emin x y, 0 < p -> (0 <= x)%Q -> (x <= y)%Q -> (val (rnd p emin x) <= val (rnd p emin y))%Q.
Proof.
  intros p emin x y Hp Hx H. destruct (Qlt_le_dec 0 x) as [X|X].
  2:{ rewrite (rnd_0 _ _ x) by auto. unfold val at 1. cbn [fst snd]. change (inject_Z 0) with 0%Q. assert (K := rnd_nonneg p emin y Hp ltac:(lra)). lra. }
  assert (M := expo_mono x y X H). destruct (rnd_norm p emin x Hp X) as (U & V). destruct (rnd_norm p emin y Hp ltac:(lra)) as (U' & V').
  rewrite !rnd_pos by lra. unfold val. cbn [fst snd].
  set (k := Z.max emin (expo x - (p - 1))) in *. set (k' := Z.max emin (expo y - (p - 1))) in *. assert (k <= k') by lia.
  assert (Pk := p2_pos k). assert (Pk' := p2_pos k').
  assert (k = k' \/ k < k') as [E|E] by lia.
  - rewrite <- E. apply Qmult_le_compat_r; [|lra]. rewrite <- Zle_Qle. apply near_mono. unfold Qdiv. apply Qmult_le_compat_r; [auto|].
    apply Qlt_le_weak, Qinv_lt_0_compat. auto.
  - specialize (V' ltac:(lia)).
    assert (G : near (x / p2 k) <= 2 ^ p).
    { apply near_le. rewrite <- p2_Z by lia. apply Qdiv_lt in U; [lra|auto]. }
    assert (G' : 2 ^ (p - 1) <= near (y / p2 k')).
    { apply near_ge. rewrite <- p2_Z by lia. apply Qdiv_ge in V'; [lra|auto]. }
    apply Qle_trans with (p2 p * p2 k)%Q; [rewrite (p2_Z p) by lia; apply Qmult_le_compat_r; [rewrite <- Zle_Qle; exact G|lra]|].
    apply Qle_trans with (p2 (p - 1) * p2 k')%Q; [rewrite <- !p2_plus; apply p2_le; lia|].
    rewrite (p2_Z (p - 1)) by lia. apply Qmult_le_compat_r; [rewrite <- Zle_Qle; exact G'|lra].
Qed.

Lemma rnd_comp : forall p emin x y, 0 < p -> (0 <= x)%Q -> (x == y)%Q -> (val (rnd p emin x) == val (rnd p emin y))%Q.
Proof.
  intros p emin x y Hp Hx E. assert (A := rnd_mono p emin x y Hp Hx ltac:(lra)). assert (B := rnd_mono p emin y x Hp ltac:(lra) ltac:(lra)). lra.
Qed.

(** the error of rounding is at most half a unit *)
Lemma rnd_err : forall p emin x, (0 < x)%Q -> let k := Z.max emin (expo x - (p - 1)) in
  (val (rnd p emin x) - (1 # 2) * p2 k <= x <= val (rnd p emin x) + (1 # 2) * p2 k)%Q.
Proof.
  intros p emin x X k. rewrite rnd_pos by auto. fold k. unfold val. cbn [fst snd]. assert (Pk := p2_pos k).
  destruct (near_err (x / p2 k)) as (A & B).
  apply Qdiv_ge in A; [|auto]. apply Qdiv_le in B; [|auto]. lra.
Qed.

(** ** Scaling an integer to [0, 1] and back
    [v / (2^w - 1)] rounded, multiplied by [2^w - 1], rounded and truncated gives [v] back. *)
Lemma near_below : forall p emin X e v, 0 < p -> (0 < X)%Q -> expo X = e + (p - 1) -> emin <= e ->
  (inject_Z v * p2 e - (1 # 2) * p2 e < X)%Q -> (inject_Z v * p2 e <= val (rnd p emin X))%Q.
Proof.
  intros p emin X e v Hp HX He Hm H. rewrite rnd_pos by auto. rewrite He. replace (Z.max emin (e + (p - 1) - (p - 1))) with e by lia.
  unfold val. cbn [fst snd]. assert (P := p2_pos e). apply Qmult_le_compat_r; [|lra]. rewrite <- Zle_Qle. apply near_ge.
  apply Qdiv_gt; auto. lra.
Qed.

Lemma floor_between : forall x v, (inject_Z v <= x)%Q -> (x <= inject_Z v + (1 # 2))%Q -> Qfloor x = v.
Proof.
  intros x v A B. assert (C := Qfloor_le x). assert (D := Qlt_floor x). apply Z.le_antisymm.
  - assert (L : (inject_Z (Qfloor x) < inject_Z (v + 1))%Q) by (rewrite inject_Z_plus; change (inject_Z 1) with 1%Q; lra). rewrite <- Zlt_Qlt in L. lia.
  - assert (L : (inject_Z v < inject_Z (Qfloor x + 1))%Q) by lra. rewrite <- Zlt_Qlt in L. lia.
Qed.

Definition quant (p emin : Z) (x d : Q) : Z := Qfloor (val (rnd p emin (x * d))).

Lemma quant_roundtrip : forall w p emin v, 0 < w < p -> emin <= - (w + p) -> 0 <= v <= 2 ^ w - 1 ->
  (inject_Z (2 ^ (w + p - 1)) / inject_Z (2 ^ w - 1) - (1 # 4) < inject_Z (near (inject_Z (2 ^ (w + p - 1)) / inject_Z (2 ^ w - 1))))%Q ->
  quant p emin (val (rnd p emin (inject_Z v / inject_Z (2 ^ w - 1)))) (inject_Z (2 ^ w - 1)) = v.
Proof.
  intros w p emin v Hw Hm Hv Hpow. unfold quant. 
  assert (W2 : 2 <= 2 ^ w) by (change 2 with (2 ^ 1) at 1; apply Z.pow_le_mono_r; lia).
  assert (Wp : 2 * 2 ^ w <= 2 ^ p) by (change 2 with (2 ^ 1) at 1; rewrite <- Z.pow_add_r by lia; apply Z.pow_le_mono_r; lia).
  set (d := inject_Z (2 ^ w - 1)) in *. assert (Hd : (1 <= d)%Q) by (unfold d; change 1%Q with (inject_Z 1); rewrite <- Zle_Qle; lia).
  assert (Dw : (d == p2 w - 1)%Q) by (unfold d; rewrite p2_Z by lia; unfold Z.sub; rewrite inject_Z_plus; change (inject_Z (- (1))) with (-1)%Q; lra).
  assert (repZ : forall a, 0 <= a < 2 ^ p -> rep p emin (inject_Z a)).
  { intros a Ha. exists a, 0. split; auto. split; [lia|]. change (p2 0) with 1%Q. lra. }
  assert (v = 0 \/ v = 2 ^ w - 1 \/ 0 < v < 2 ^ w - 1) as [ -> |[ -> |Hv']] by lia.
  { change (inject_Z 0) with 0%Q. assert (E1 : (0 / d <= 0)%Q) by (apply Qdiv_le; lra). rewrite (rnd_0 _ _ _ E1). unfold val at 2. cbn [fst snd].
    change (inject_Z 0) with 0%Q. rewrite rnd_0 by lra. reflexivity. }
  { fold d. assert (E1 : (d / d == 1)%Q) by (field; lra).
    assert (E2 : (val (rnd p emin (d / d)) == 1)%Q).
    { rewrite (rnd_comp p emin (d / d) 1) by (lia || lra). apply rnd_exact; [lia|lra|]. apply (repZ 1). lia. }
    assert (E3 : (val (rnd p emin (val (rnd p emin (d / d)) * d)) == d)%Q).
    { rewrite (rnd_comp p emin _ d); [apply rnd_exact; [lia|lra|apply repZ; lia]|lia| |]; rewrite E2; lra. }
    rewrite (Qfloor_comp _ _ E3). unfold d. apply Qfloor_Z. }
  clear Hv. destruct (Z.log2_spec v ltac:(lia)) as (A & B). set (k := Z.log2 v) in *. assert (Hk : 0 <= k) by apply Z.log2_nonneg.
  unfold Z.succ in B. assert (Hkw : k < w) by (apply (Z.pow_lt_mono_r_iff 2); lia).
  set (V := inject_Z v) in *. assert (A' : (p2 k <= V)%Q) by (rewrite p2_Z by lia; unfold V; rewrite <- Zle_Qle; exact A).
  assert (B' : (V + 1 <= 2 * p2 k)%Q).
  { rewrite <- p2_1, p2_Z by lia. unfold V. change 1%Q with (inject_Z 1). rewrite <- inject_Z_plus, <- Zle_Qle. lia. }
  assert (C' : (2 * p2 k <= p2 w)%Q) by (rewrite <- p2_1; apply p2_le; lia).
  assert (Kw : (p2 k == p2 (k - w) * p2 w)%Q) by (rewrite <- p2_plus; replace (k - w + w) with k by lia; reflexivity).
  assert (PKW := p2_pos (k - w)). assert (PK := p2_pos k). assert (PW := p2_pos w).
  set (x := (V / d)%Q). assert (Ex : expo x = k - w).
  { apply expo_unique. unfold x. split.
    - apply Qdiv_ge; [lra|]. rewrite Dw. nra.
    - apply Qdiv_lt; [lra|]. rewrite p2_1, Dw. assert (V < 2 * p2 k - 2 * p2 (k - w))%Q; [|nra].
      destruct (Z.eq_dec (k + 1) w) as [E|E].
      + assert (V < inject_Z (2 ^ w - 1))%Q by (unfold V; rewrite <- Zlt_Qlt; lia).
        assert (K1 : (2 * p2 (k - w) == 1)%Q) by (replace (k - w) with (-1) by lia; reflexivity).
        assert (p2 w == 2 * p2 k)%Q by (rewrite <- p2_1, E; reflexivity). fold d in H. lra.
      + assert (2 * p2 (k - w) <= 1 # 2)%Q; [|lra]. assert (T := p2_le (k - w) (-2) ltac:(lia)). change (p2 (-2)) with (1 # 4)%Q in T. lra. }
  assert (Hx : (0 < x)%Q) by (apply Qdiv_gt; lra).
  set (e := k - w - p + 1). assert (Ee : Z.max emin (expo x - (p - 1)) = e) by lia.
  assert (Rr := rnd_err p emin x Hx). cbv zeta in Rr. rewrite Ee in Rr. set (r := val (rnd p emin x)) in *.
  assert (Pe := p2_pos e).
  assert (Xd : (x * d == V)%Q) by (unfold x; field; lra).
  assert (Ew : (p2 e * p2 w == 2 * p2 (k - p))%Q) by (rewrite <- p2_plus, <- p2_1; replace (e + w) with (k - p + 1) by (unfold e; lia); reflexivity).
  assert (PP := p2_pos (k - p)).
  assert (X1 : (V - p2 (k - p) < r * d)%Q) by nra.
  assert (X2 : (r * d < V + p2 (k - p))%Q) by nra.
  assert (KP : (p2 (k - p) <= 1 # 2)%Q) by (assert (T := p2_le (k - p) (-1) ltac:(lia)); exact T).
  set (X := (r * d)%Q) in *.
  apply floor_between; fold V.
  - destruct (Qlt_le_dec X V) as [L|L]; [|apply rnd_ge_rep; [lia|lra|apply repZ; lia|auto]].
    destruct (Z.eq_dec v (2 ^ k)) as [E|E].
    + assert (EV : (V == p2 k)%Q) by (rewrite p2_Z by lia; unfold V; rewrite E; reflexivity).
      assert (K1 : (p2 k == inject_Z (2 ^ p) * p2 (k - p))%Q) by (rewrite <- p2_Z, <- p2_plus by lia; replace (p + (k - p)) with k by lia; reflexivity).
      rewrite EV, K1. apply near_below; [lia|lra| |lia|].
      * apply expo_unique. replace (k - p + (p - 1)) with (k - 1) by lia. replace (k - 1 + 1) with k by lia.
        assert (K2 : (p2 k == 2 * p2 (k - 1))%Q) by (rewrite <- p2_1; replace (k - 1 + 1) with k by lia; reflexivity).
        assert (K3 : (p2 (k - p) <= p2 (k - 1))%Q) by (apply p2_le; lia). lra.
      * rewrite <- K1. 
        assert (Y : (x / p2 e == inject_Z (2 ^ (w + p - 1)) / d)%Q).
        { rewrite <- p2_Z by lia. unfold x. rewrite EV. replace k with ((w + p - 1) + e) by (unfold e; lia). rewrite p2_plus. field. lra. }
        assert (R2 : (r == inject_Z (near (inject_Z (2 ^ (w + p - 1)) / d)) * p2 e)%Q).
        { unfold r. rewrite rnd_pos by auto. rewrite Ee. unfold val. cbn [fst snd]. rewrite (near_comp _ _ Y). reflexivity. }
        rewrite <- (near_comp _ _ Y) in R2.
        assert (Hp' : (x / p2 e - (1 # 4) < inject_Z (near (x / p2 e)))%Q) by (rewrite (near_comp _ _ Y); rewrite Y; exact Hpow). clear Hpow.
        set (n := inject_Z (near (x / p2 e))) in *.
        assert (XX : (x == x / p2 e * p2 e)%Q) by (field; lra). set (y := (x / p2 e)%Q) in *.
        assert (Dif : ((x - r) * d < (1 # 2) * p2 (k - p))%Q).
        { assert (x - r < (1 # 4) * p2 e)%Q by nra. nra. }
        unfold X. lra.
    + assert (Ev : 2 ^ k + 1 <= v) by lia.
      assert (Ev' : (p2 k + 1 <= V)%Q) by (rewrite p2_Z by lia; unfold V; change 1%Q with (inject_Z 1); rewrite <- inject_Z_plus, <- Zle_Qle; lia).
      assert (K1 : (V == inject_Z (v * 2 ^ (p - 1 - k)) * p2 (k - p + 1))%Q).
      { rewrite inject_Z_mult, <- (p2_Z (p - 1 - k)), <- Qmult_assoc, <- p2_plus by lia. replace (p - 1 - k + (k - p + 1)) with 0 by lia. change (p2 0) with 1%Q. fold V. lra. }
      rewrite K1. apply near_below; [lia|lra| |lia|].
      * apply expo_unique. replace (k - p + 1 + (p - 1)) with k by lia. rewrite p2_1. lra.
      * rewrite <- K1, p2_1. lra.
  - apply rnd_le_rep; [lia|lra| |lra]. exists (2 * v + 1), (-1). split; [lia|]. split; [lia|].
    rewrite inject_Z_plus, inject_Z_mult. change (inject_Z 2) with (2 # 1)%Q. change (p2 (-1)) with (1 # 2)%Q. change (inject_Z 1) with 1%Q. fold V. lra.
Qed.
