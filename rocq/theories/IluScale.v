(** Properties of scaling with the nearest filter and of mipmaps. *)
From Coq Require Import ZArith List Lia Bool QArith Qround Lqa.
From Verif Require Import Base Slices Enums Utility Image ImageSpec Elem Channels ChannelsSpec ChannelsProofs ChannelsProps ClearProps Endian Float Flip Pixels Scatter PixelsProofs PixelsProps Ilu IluCrop IluProps Ilu2.
Import ListNotations.
Open Scope Z_scope.

(** relative error of rounding a normal number *)
Lemma rnd_rel : forall p emin x, 0 < p -> (p2 (emin + (p - 1)) <= x)%Q ->
  (x - x * p2 (- p) <= Float.val (rnd p emin x) <= x + x * p2 (- p))%Q.
Proof.
  intros p emin x Hp Hx. assert (X : (0 < x)%Q) by (assert (P := p2_pos (emin + (p - 1))); lra).
  assert (K := rnd_err p emin x X). cbv zeta in K.
  assert (E : emin + (p - 1) <= expo x).
  { destruct (expo_spec x X) as (A & B). assert (L : (p2 (emin + (p - 1)) < p2 (expo x + 1))%Q) by lra. apply p2_lt_inv in L. lia. }
  replace (Z.max emin (expo x - (p - 1))) with (expo x - p + 1) in K by lia.
  destruct (expo_spec x X) as (A & _). rewrite p2_1 in K.
  replace (expo x - p) with (expo x + - p) in K by lia. rewrite p2_plus in K.
  assert (Pp := p2_pos (- p)). assert (M : (p2 (expo x) * p2 (- p) <= x * p2 (- p))%Q) by (apply Qmult_le_compat_r; lra). lra.
Qed.

Lemma rep_int : forall p emin n, 0 <= n < 2 ^ p -> emin <= 0 -> rep p emin (inject_Z n).
Proof. intros p emin n Hn He. exists n, 0. split; [auto|]. split; [auto|]. change (p2 0) with 1%Q. ring. Qed.

Lemma floor_range : forall (v : Q) a b, (inject_Z a <= v)%Q -> (v < inject_Z b)%Q -> a <= Qfloor v < b.
Proof.
  intros v a b Ha Hb. split.
  - rewrite <- (Qfloor_Z a). apply Qfloor_resp_le. exact Ha.
  - assert (F := Qfloor_le v). assert (L : (inject_Z (Qfloor v) < inject_Z b)%Q) by lra. rewrite <- Zlt_Qlt in L. exact L.
Qed.

(** the index computed from a rounded scale factor *)
Lemma picked : forall (s : Q) W W' x, 1 <= W <= 4194304 -> 1 <= W' <= 4194304 -> 0 <= x < W' ->
  (inject_Z W' * (1 - (1 # 16777216)) <= s * inject_Z W <= inject_Z W' * (1 + (1 # 16777216)))%Q ->
  let i := Qfloor (Float.val (rnd 53 (-1074) (inject_Z x / s))) in
  0 <= i < W /\ x * W / W' - 1 <= i <= x * W / W' + 1 /\ ((s * inject_Z W == inject_Z W')%Q -> i = x * W / W').
Proof.
  intros s W W' x HW HW' Hx Hs i.
  assert (QW : (1 <= inject_Z W <= 4194304)%Q) by (change 1%Q with (inject_Z 1); change 4194304%Q with (inject_Z 4194304); rewrite <- !Zle_Qle; lia).
  assert (QW' : (1 <= inject_Z W' <= 4194304)%Q) by (change 1%Q with (inject_Z 1); change 4194304%Q with (inject_Z 4194304); rewrite <- !Zle_Qle; lia).
  assert (Sp : (0 < s)%Q).
  { apply Qnot_le_lt. intros H. assert ((s * inject_Z W <= 0)%Q); [|lra]. setoid_replace 0%Q with (0 * inject_Z W)%Q by ring. apply Qmult_le_compat_r; lra. }
  destruct (Z.eq_dec x 0) as [->|Nx].
  { subst i. change (inject_Z 0) with 0%Q. rewrite rnd_0 by (setoid_replace (0 / s)%Q with 0%Q by (unfold Qdiv; ring); lra).
    unfold Float.val. cbn [fst snd]. replace (Qfloor (inject_Z 0 * p2 (-1074))) with 0 by reflexivity. cbn [Z.mul]. rewrite Z.div_0_l by lia. lia. }
  assert (QX : (1 <= inject_Z x)%Q) by (change 1%Q with (inject_Z 1); rewrite <- Zle_Qle; lia).
  assert (QX' : (inject_Z x <= inject_Z W' - 1)%Q) by (change 1%Q with (inject_Z 1); rewrite <- inject_Z_opp, <- inject_Z_plus || idtac; unfold Qminus; change (- (inject_Z 1))%Q with (inject_Z (-1)); rewrite <- inject_Z_plus, <- Zle_Qle; lia).
  set (r := (inject_Z x / s)%Q) in *.
  assert (R : (r * s == inject_Z x)%Q) by (subst r; field; lra).
  assert (Rp : (0 < r)%Q) by (subst r; apply Qlt_shift_div_l; lra).
  (* r W' against x W *)
  assert (XW : (inject_Z (x * W) == inject_Z x * inject_Z W)%Q) by (rewrite inject_Z_mult; reflexivity).
  assert (E0 : (r * (s * inject_Z W) == inject_Z (x * W))%Q) by (rewrite XW, Qmult_assoc, R; reflexivity).
  assert (L1 : (r * (inject_Z W' * (1 - (1 # 16777216))) <= inject_Z (x * W))%Q).
  { rewrite <- E0, !(Qmult_comm r). apply Qmult_le_compat_r; lra. }
  assert (L2 : (inject_Z (x * W) <= r * (inject_Z W' * (1 + (1 # 16777216))))%Q).
  { rewrite <- E0, !(Qmult_comm r). apply Qmult_le_compat_r; lra. }
  set (t := (r * inject_Z W')%Q) in *.
  assert (T1 : (t * (1 - (1 # 16777216)) <= inject_Z (x * W))%Q) by (subst t; rewrite <- Qmult_assoc; exact L1).
  assert (T2 : (inject_Z (x * W) <= t * (1 + (1 # 16777216)))%Q) by (subst t; rewrite <- Qmult_assoc; exact L2).
  (* rounding of r *)
  assert (Rlow : (p2 (-1074 + (53 - 1)) <= r)%Q).
  { apply Qle_trans with (p2 (-24)).
    - apply p2_le. lia.
    - assert (W1 : (1 <= inject_Z (x * W))%Q) by (change 1%Q with (inject_Z 1); rewrite <- Zle_Qle; nia).
      assert (P24 : (p2 (-24) == (1 # 16777216))%Q) by reflexivity. rewrite P24.
      apply Qnot_lt_le. intros H. assert (HH : (t <= (1 # 16777216) * inject_Z W')%Q) by (subst t; apply Qmult_le_compat_r; [apply Qlt_le_weak; exact H|lra]). clear - HH T2 W1 QW'. lra. }
  destruct (rnd_rel 53 (-1074) r ltac:(lia) Rlow) as (V1 & V2). change (Z.opp 53) with (-53) in V1, V2.
  set (v := Float.val (rnd 53 (-1074) r)) in *.
  assert (P53 : (p2 (-53) <= (1 # 1073741824))%Q) by (vm_compute; discriminate).
  assert (V1' : (r - r * (1 # 1073741824) <= v)%Q).
  { assert (Pp := p2_pos (-53)). assert ((r * p2 (-53) <= r * (1 # 1073741824))%Q) by (rewrite !(Qmult_comm r); apply Qmult_le_compat_r; lra). lra. }
  assert (V2' : (v <= r + r * (1 # 1073741824))%Q).
  { assert ((r * p2 (-53) <= r * (1 # 1073741824))%Q) by (rewrite !(Qmult_comm r); apply Qmult_le_compat_r; lra). lra. }
  (* v W' *)
  set (w := (v * inject_Z W')%Q).
  assert (W1 : (t - t * (1 # 1073741824) <= w)%Q).
  { subst w t. setoid_replace (r * inject_Z W' - r * inject_Z W' * (1 # 1073741824))%Q with ((r - r * (1 # 1073741824)) * inject_Z W')%Q by ring. apply Qmult_le_compat_r; lra. }
  assert (W2 : (w <= t + t * (1 # 1073741824))%Q).
  { subst w t. setoid_replace (r * inject_Z W' + r * inject_Z W' * (1 # 1073741824))%Q with ((r + r * (1 # 1073741824)) * inject_Z W')%Q by ring. apply Qmult_le_compat_r; lra. }
  assert (XWlt : (inject_Z (x * W) <= inject_Z W' * inject_Z W - inject_Z W)%Q).
  { rewrite XW. setoid_replace (inject_Z W' * inject_Z W - inject_Z W)%Q with ((inject_Z W' - 1) * inject_Z W)%Q by ring. apply Qmult_le_compat_r; lra. }
  assert (PWW : (inject_Z W' * inject_Z W <= 4194304 * inject_Z W)%Q) by (apply Qmult_le_compat_r; lra).
  assert (PWW' : (inject_Z W' * inject_Z W <= 4194304 * inject_Z W')%Q) by (rewrite (Qmult_comm (inject_Z W')); apply Qmult_le_compat_r; lra).
  assert (T0 : (0 <= t)%Q) by (subst t; apply Qmult_le_0_compat; lra).
  assert (V0 : (0 <= v)%Q) by (apply rnd_nonneg; lra || lia).
  (* upper bound W *)
  assert (UB1 : (v < inject_Z W)%Q).
  { apply Qnot_le_lt. intros H. assert ((inject_Z W * inject_Z W' <= w)%Q) by (subst w; apply Qmult_le_compat_r; lra). lra. }
  assert (I0 : 0 <= i < W).
  { subst i. apply floor_range; [change (inject_Z 0) with 0%Q; exact V0|exact UB1]. }
  split; [exact I0|].
  (* the exact quotient *)
  set (q := x * W / W'). assert (Dq : W' * q <= x * W < W' * (q + 1)) by (subst q; lia).
  assert (Q1 : (inject_Z q * inject_Z W' <= inject_Z (x * W))%Q) by (rewrite <- inject_Z_mult, <- Zle_Qle; lia).
  assert (Q2 : (inject_Z (x * W) + 1 <= (inject_Z q + 1) * inject_Z W')%Q).
  { change 1%Q with (inject_Z 1). rewrite <- !inject_Z_plus, <- inject_Z_mult, <- Zle_Qle. lia. }
  split.
  - subst i. split.
    + assert (A : q - 1 <= Qfloor v < W); [|lia]. apply floor_range; [|exact UB1].
      apply Qnot_lt_le. intros H. unfold Z.sub in H. rewrite inject_Z_plus in H. change (inject_Z (- (1))) with (-1)%Q in H.
      assert (w <= (inject_Z q + -1) * inject_Z W')%Q by (subst w; apply Qmult_le_compat_r; lra). lra.
    + assert (A : 0 <= Qfloor v < q + 2); [|lia]. apply floor_range; [change (inject_Z 0) with 0%Q; exact V0|].
      apply Qnot_le_lt. intros H. rewrite inject_Z_plus in H. change (inject_Z 2) with 2%Q in H.
      assert ((inject_Z q + 2) * inject_Z W' <= w)%Q by (subst w; apply Qmult_le_compat_r; lra). lra.
  - intros Ex. assert (T : (t == inject_Z (x * W))%Q).
    { subst t. rewrite <- Ex. exact E0. }
    subst i. assert (A : q <= Qfloor v < q + 1); [|lia]. apply floor_range.
    + apply rnd_ge_rep; [lia|lra| |].
      * apply rep_int; [|lia]. split; [subst q; apply Z.div_pos; nia|]. assert (q < W); [|change (2 ^ 53) with 9007199254740992; lia]. subst q. apply Z.div_lt_upper_bound; nia.
      * apply Qnot_lt_le. intros H. assert ((r * inject_Z W' < inject_Z q * inject_Z W')%Q) by (apply Qmult_lt_compat_r; lra). fold t in H0. lra.
    + apply Qnot_le_lt. intros H. rewrite inject_Z_plus in H. change (inject_Z 1) with 1%Q in H.
      assert ((inject_Z q + 1) * inject_Z W' <= w)%Q by (subst w; apply Qmult_le_compat_r; lra).
      assert (V2'' : (v <= r + r * (1 # 9007199254740992))%Q) by (change (p2 (-53)) with (1 # 9007199254740992)%Q in V2; exact V2).
      assert (W2' : (w <= t + t * (1 # 9007199254740992))%Q).
      { subst w t. setoid_replace (r * inject_Z W' + r * inject_Z W' * (1 # 9007199254740992))%Q with ((r + r * (1 # 9007199254740992)) * inject_Z W')%Q by ring. apply Qmult_le_compat_r; lra. }
      assert (t <= 17592186044416)%Q by lra. lra.
Qed.

Lemma int_exact : forall n, 0 <= n <= 4194304 -> (Float.val (rnd 24 (-149) (inject_Z n)) == inject_Z n)%Q.
Proof.
  intros n Hn. apply rnd_exact; [lia| |apply rep_int; [change (2 ^ 24) with 16777216; lia|lia]].
  change 0%Q with (inject_Z 0). rewrite <- Zle_Qle. lia.
Qed.

Lemma quot_err : forall p emin W W', 24 <= p -> emin <= -149 -> emin + (p - 1) <= -22 -> 1 <= W <= 4194304 -> 1 <= W' <= 4194304 ->
  (inject_Z W' * (1 - (1 # 16777216)) <= Float.val (rnd p emin (inject_Z W' / inject_Z W)) * inject_Z W <= inject_Z W' * (1 + (1 # 16777216)))%Q.
Proof.
  intros p emin W W' Hp He Hpe HW HW'.
  assert (QW : (1 <= inject_Z W <= 4194304)%Q) by (change 1%Q with (inject_Z 1); change 4194304%Q with (inject_Z 4194304); rewrite <- !Zle_Qle; lia).
  assert (QW' : (1 <= inject_Z W')%Q) by (change 1%Q with (inject_Z 1); rewrite <- Zle_Qle; lia).
  set (a := (inject_Z W' / inject_Z W)%Q). assert (A : (a * inject_Z W == inject_Z W')%Q) by (subst a; field; lra).
  assert (AL : (p2 (emin + (p - 1)) <= a)%Q).
  { apply Qle_trans with (p2 (-22)); [apply p2_le; lia|]. change (p2 (-22)) with (1 # 4194304)%Q. subst a. apply Qle_shift_div_l; lra. }
  destruct (rnd_rel p emin a ltac:(lia) AL) as (L & U).
  assert (AP : (0 < a)%Q) by (assert (P := p2_pos (emin + (p - 1))); lra).
  assert (E : (p2 (- p) <= (1 # 16777216))%Q) by (change (1 # 16777216)%Q with (p2 (-24)); apply p2_le; lia).
  assert (P0 := p2_pos (- p)).
  assert (M : (a * p2 (- p) <= a * (1 # 16777216))%Q) by (rewrite !(Qmult_comm a); apply Qmult_le_compat_r; lra).
  set (v := Float.val (rnd p emin a)) in *.
  assert (L' : ((a - a * (1 # 16777216)) * inject_Z W <= v * inject_Z W)%Q) by (apply Qmult_le_compat_r; lra).
  assert (U' : (v * inject_Z W <= (a + a * (1 # 16777216)) * inject_Z W)%Q) by (apply Qmult_le_compat_r; lra).
  split; lra.
Qed.

(** the source index of a destination index: inside the source, at most one away from the exact position,
    and exact when the ratio is *)
Definition exact_ratio (W' W : Z) : Prop := (exists f, W' = f * W) \/ (exists k, 0 <= k /\ W = 2 ^ k * W').
Definition nearest (W' W x i : Z) : Prop :=
  0 <= i < W /\ x * W / W' - 1 <= i <= x * W / W' + 1 /\ (exact_ratio W' W -> i = x * W / W').

Lemma pick_ok : forall W W' x, 1 <= W <= 4194304 -> 1 <= W' <= 4194304 -> 0 <= x < W' -> nearest W' W x (pick W' W x).
Proof.
  intros W W' x HW HW' Hx. unfold pick.
  assert (P1 := int_exact W' ltac:(lia)). assert (P2 := int_exact W ltac:(lia)).
  assert (QW : (1 <= inject_Z W)%Q) by (change 1%Q with (inject_Z 1); rewrite <- Zle_Qle; lia).
  assert (QW' : (1 <= inject_Z W')%Q) by (change 1%Q with (inject_Z 1); rewrite <- Zle_Qle; lia).
  assert (S : (scale W' W == Float.val (rnd 24 (-149) (inject_Z W' / inject_Z W)))%Q).
  { unfold scale. apply rnd_comp; [lia| |rewrite P1, P2; reflexivity]. rewrite P1, P2. apply Qle_shift_div_l; lra. }
  destruct (picked (scale W' W) W W' x HW HW' Hx) as (A & B & C).
  - rewrite S. apply quot_err; lia.
  - split; [exact A|]. split; [exact B|]. intros R. apply C. rewrite S.
    set (a := (inject_Z W' / inject_Z W)%Q). assert (Ea : (a * inject_Z W == inject_Z W')%Q) by (subst a; field; lra).
    assert (Rp : rep 24 (-149) a).
    { destruct R as [(f & ->)|(k & Hk & ->)].
      - assert (1 <= f <= 4194304) by nia. exists f, 0. split; [change (2 ^ 24) with 16777216; lia|]. split; [lia|]. change (p2 0) with 1%Q.
        subst a. rewrite inject_Z_mult. field. lra.
      - assert (K : k <= 22).
        { destruct (Z.le_gt_cases k 22) as [|G]; auto. assert (2 ^ 23 <= 2 ^ k) by (apply Z.pow_le_mono_r; lia). change (2 ^ 23) with 8388608 in *. nia. }
        exists 1, (- k). split; [change (2 ^ 24) with 16777216; lia|]. split; [lia|].
        assert (P2k := p2_pos k). assert (E2 : (p2 k * p2 (- k) == 1)%Q) by (rewrite <- p2_plus; replace (k + - k) with 0 by lia; reflexivity).
        assert (I : (p2 (- k) == / p2 k)%Q) by (setoid_replace (p2 (- k)) with ((p2 k * p2 (- k)) / p2 k)%Q by (field; lra); rewrite E2; field; lra).
        subst a. rewrite inject_Z_mult, <- (p2_Z k) by lia. change (inject_Z 1) with 1%Q. rewrite I. field. lra. }
    rewrite (rnd_exact 24 (-149) a); [exact Ea|lia| |exact Rp]. subst a. apply Qle_shift_div_l; lra.
Qed.

Lemma pick1_ok : forall W W' x, 1 <= W <= 4194304 -> 1 <= W' <= 4194304 -> 0 <= x < W' -> 0 <= pick1 W' W x < W.
Proof.
  intros W W' x HW HW' Hx. unfold pick1.
  destruct (picked (Float.val (rnd 53 (-1074) (inject_Z W' / inject_Z W))) W W' x HW HW' Hx) as (A & _); [apply quot_err; lia|exact A].
Qed.

Lemma dm : forall p B c, 0 <= c < B -> (p * B + c) / B = p /\ (p * B + c) mod B = c.
Proof. intros p B c Hc. split; [rewrite Z.div_add_l, Z.div_small by lia; lia|]. rewrite (Z.add_comm (p * B)), Z.mod_add by lia. apply Z.mod_small. lia. Qed.

(** four nested loops as one *)
Lemma box4 : forall S D H W B (body : Z -> Z -> Z -> Z -> S -> res S) s, 0 <= D -> 0 < H -> 0 < W -> 0 < B ->
  loop 0 D (fun z => loop 0 H (fun y => loop 0 W (fun x => loop 0 B (fun c => body z y x c)))) s =
  loop 0 (D * H * W * B) (fun e => body (e / B / W / H) (e / B / W mod H) (e / B mod W) (e mod B)) s.
Proof.
  intros S D H W B body s HD HH HW HB.
  rewrite <- (loop_flatten S B (fun e => body (e / B / W / H) (e / B / W mod H) (e / B mod W) (e mod B)) (D * H * W)) by (solve [lia | repeat apply Z.mul_nonneg_nonneg; lia]).
  rewrite (loop_ext _ 0 (D * H * W) _ (fun p => loop 0 B (fun c => body (p / W / H) (p / W mod H) (p mod W) c))).
  2:{ intros p st Hp. apply loop_ext. intros c st' Hc. destruct (dm p B c Hc) as (-> & ->). reflexivity. }
  rewrite <- (loop_flatten S W (fun p => loop 0 B (fun c => body (p / W / H) (p / W mod H) (p mod W) c)) (D * H)) by (solve [lia | repeat apply Z.mul_nonneg_nonneg; lia]).
  rewrite (loop_ext _ 0 (D * H) _ (fun r => loop 0 W (fun x => loop 0 B (fun c => body (r / H) (r mod H) x c)))).
  2:{ intros r st Hr. apply loop_ext. intros x st' Hx. destruct (dm r W x Hx) as (-> & ->). reflexivity. }
  rewrite <- (loop_flatten S H (fun r => loop 0 W (fun x => loop 0 B (fun c => body (r / H) (r mod H) x c))) D) by lia.
  apply loop_ext. intros z st Hz. apply loop_ext. intros y st' Hy.
  destruct (dm z H y Hy) as (-> & ->). reflexivity.
Qed.

Lemma elem_in : forall D H W B z y x c, 0 <= z < D -> 0 <= y < H -> 0 <= x < W -> 0 <= c < B ->
  0 <= ((z * H + y) * W + x) * B + c < D * H * W * B.
Proof.
  intros D H W B z y x c Hz Hy Hx Hc.
  assert (A := lin_bound H D z y Hy Hz). assert (A2 := lin_bound W (D * H) (z * H + y) x Hx A). apply (lin_bound B (D * H * W) _ c Hc A2).
Qed.
Lemma elem_split : forall D H W B e, 0 < H -> 0 < W -> 0 < B -> 0 <= e < D * H * W * B ->
  0 <= e / B / W / H < D /\ 0 <= e / B / W mod H < H /\ 0 <= e / B mod W < W /\ 0 <= e mod B < B /\
  e = ((e / B / W / H * H + e / B / W mod H) * W + e / B mod W) * B + e mod B.
Proof.
  intros D H W B e HH HW HB He.
  assert (0 <= e / B < D * H * W) by (split; [apply Z.div_pos; lia|apply Z.div_lt_upper_bound; lia]). set (p := e / B) in *.
  assert (0 <= p / W < D * H) by (split; [apply Z.div_pos; lia|apply Z.div_lt_upper_bound; lia]). set (r := p / W) in *.
  assert (0 <= r / H < D) by (split; [apply Z.div_pos; lia|apply Z.div_lt_upper_bound; lia]).
  assert (E1 := Z.div_mod e B ltac:(lia)). assert (E2 := Z.div_mod p W ltac:(lia)). assert (E3 := Z.div_mod r H ltac:(lia)). fold p in E1. fold r in E2.
  assert (M1 := Z.mod_pos_bound e B HB). assert (M2 := Z.mod_pos_bound p W HW). assert (M3 := Z.mod_pos_bound r H HH).
  split; [lia|]. split; [lia|]. split; [lia|]. split; [lia|].
  rewrite E1 at 1. rewrite E2 at 1. rewrite E3 at 1. ring.
Qed.

(** copying one element per place *)
Lemma gather : forall n D H W B src dst (S_ : Z -> Z -> Z -> Z -> Z), 0 < n -> 0 <= D -> 0 < H -> 0 < W -> 0 < B ->
  D * H * W * B * n <= zlen dst -> zlen dst < 4294967296 -> zlen src < 4294967296 ->
  (forall z y x c, 0 <= z < D -> 0 <= y < H -> 0 <= x < W -> 0 <= c < B -> 0 <= S_ z y x c /\ (S_ z y x c + 1) * n <= zlen src) ->
  exists d, loop 0 D (fun z => loop 0 H (fun y => loop 0 W (fun x => loop 0 B (fun c d =>
      let! v := rde src n (u32 (S_ z y x c)) in wre d n (u32 (((z * H + y) * W + x) * B + c)) v)))) dst = Ok d /\
    zlen d = zlen dst /\
    (forall z y x c, 0 <= z < D -> 0 <= y < H -> 0 <= x < W -> 0 <= c < B ->
      slice d ((((z * H + y) * W + x) * B + c) * n) n = slice src (S_ z y x c * n) n).
Proof.
  intros n D H W B src dst S_ Hn HD HH HW HB Hl H1 H2 HS.
  rewrite (box4 _ D H W B (fun z y x c d => let! v := rde src n (u32 (S_ z y x c)) in wre d n (u32 (((z * H + y) * W + x) * B + c)) v)) by auto.
  set (g := fun e => slice src (S_ (e / B / W / H) (e / B / W mod H) (e / B mod W) (e mod B) * n) n).
  destruct (elem_map n (D * H * W * B) (fun e v => if zlen (g e) =? n then g e else v)
    (fun e d => let! v := rde src n (u32 (S_ (e / B / W / H) (e / B / W mod H) (e / B mod W) (e mod B))) in
       wre d n (u32 (((e / B / W / H * H + e / B / W mod H) * W + e / B mod W) * B + e mod B)) v) dst) as (d & E & L & A & _); auto.
  - repeat apply Z.mul_nonneg_nonneg; lia.
  - intros e v Hv. destruct (zlen (g e) =? n) eqn:Q; lia.
  - intros e d He Ld. destruct (elem_split D H W B e) as (R1 & R2 & R3 & R4 & R5); auto. rewrite <- R5.
    destruct (HS _ _ _ _ R1 R2 R3 R4) as (K1 & K2). unfold g.
    set (q := S_ (e / B / W / H) (e / B / W mod H) (e / B mod W) (e mod B)) in *.
    assert (0 <= q * n) by (apply Z.mul_nonneg_nonneg; lia). assert (q <= q * n) by nia. assert (0 <= e * n) by (apply Z.mul_nonneg_nonneg; lia). assert (e <= e * n) by nia.
    assert ((e + 1) * n <= D * H * W * B * n) by (apply Z.mul_le_mono_nonneg_r; lia).
    rewrite !u32_small by lia. rewrite rde_ok by lia. cbn [bind]. rewrite zlen_slice by lia. rewrite Z.eqb_refl. rewrite wre_ok; try lia; [reflexivity|]. apply zlen_slice; lia.
  - exists d. split; [exact E|]. split; [exact L|]. intros z y x c Hz Hy Hx Hc.
    assert (EI := elem_in D H W B z y x c Hz Hy Hx Hc). rewrite A by lia. unfold g.
    set (e := ((z * H + y) * W + x) * B + c) in *.
    destruct (dm ((z * H + y) * W + x) B c Hc) as (F1 & F2). fold e in F1, F2. rewrite F1, F2.
    destruct (dm (z * H + y) W x Hx) as (F3 & F4). rewrite F3, F4. destruct (dm z H y Hy) as (F5 & F6). rewrite F5, F6.
    destruct (HS z y x c Hz Hy Hx Hc) as (K1 & K2). assert (0 <= S_ z y x c * n) by (apply Z.mul_nonneg_nonneg; lia).
    rewrite zlen_slice by lia. rewrite Z.eqb_refl. reflexivity.
Qed.

Lemma scale3_ok : forall n B W' H' D' W H D src dst, 0 < n -> n <> 8 -> 0 < B ->
  1 <= W <= 4194304 -> 1 <= H <= 4194304 -> 1 <= D <= 4194304 -> 1 <= W' <= 4194304 -> 1 <= H' <= 4194304 -> 1 <= D' <= 4194304 ->
  zlen src = D * H * W * B * n -> zlen dst = D' * H' * W' * B * n -> zlen src < 4294967296 -> zlen dst < 4294967296 ->
  exists d, scale3 n B W' H' D' W H D src dst = Ok d /\ zlen d = zlen dst /\
    forall z y x c, 0 <= z < D' -> 0 <= y < H' -> 0 <= x < W' -> 0 <= c < B ->
      slice d ((((z * H' + y) * W' + x) * B + c) * n) n = slice src ((((pick D' D z * H + pick H' H y) * W + pick W' W x) * B + c) * n) n.
Proof.
  intros n B W' H' D' W H D src dst Hn Hn8 HB HW HH HD HW' HH' HD' Ls Ld Hs Hd. unfold scale3. replace (n =? 8) with false by lia.
  destruct (gather n D' H' W' B src dst (fun z y x c => ((pick D' D z * H + pick H' H y) * W + pick W' W x) * B + c)) as (d & E & L & A); try lia.
  - intros z y x c Hz Hy Hx Hc. destruct (pick_ok D D' z) as (P1 & _); auto. destruct (pick_ok H H' y) as (P2 & _); auto. destruct (pick_ok W W' x) as (P3 & _); auto.
    assert (I := elem_in D H W B _ _ _ c P1 P2 P3 Hc). split; [lia|]. rewrite Ls. apply Z.mul_le_mono_nonneg_r; lia.
  - exists d. split; [|auto]. rewrite <- E. apply loop_ext. intros z s1 Hz. apply loop_ext. intros y s2 Hy. apply loop_ext. intros x s3 Hx. apply loop_ext. intros c s4 Hc.
    replace (pick D' D z * (W * B * H) + pick H' H y * (W * B) + pick W' W x * B + c) with (((pick D' D z * H + pick H' H y) * W + pick W' W x) * B + c) by ring.
    replace (z * (W' * B * H') + y * (W' * B) + x * B + c) with (((z * H' + y) * W' + x) * B + c) by ring. reflexivity.
Qed.

Lemma scale1_ok : forall n B W' W src dst, 0 < n -> 0 < B -> 1 <= W <= 4194304 -> 1 <= W' <= 4194304 ->
  W * B * n <= zlen src -> W' * B * n <= zlen dst -> zlen src < 4294967296 -> zlen dst < 4294967296 ->
  exists d, scale1 n B W' W src dst = Ok d /\ zlen d = zlen dst.
Proof.
  intros n B W' W src dst Hn HB HW HW' Ls Ld Hs Hd. unfold scale1. destruct (n =? 8); [exists dst; auto|].
  destruct (loop_rule _ (fun _ d => zlen d = zlen dst) 0 W' (fun x => loop 0 B (fun c d =>
    let! v := rde src n (u32 (pick1 W' W x * B + c)) in wre d n (u32 (x * B + c)) v)) dst) as (d & E & L); [lia|auto| |exists d; auto].
  intros x d Hx Hl. assert (P := pick1_ok W W' x HW HW' Hx).
  destruct (loop_rule _ (fun _ d => zlen d = zlen dst) 0 B (fun c d =>
    let! v := rde src n (u32 (pick1 W' W x * B + c)) in wre d n (u32 (x * B + c)) v) d) as (d' & E' & L'); [lia|auto| |exists d'; auto].
  intros c b Hc Hb. assert (I1 := lin_bound B W _ c Hc P). assert (I2 := lin_bound B W' _ c Hc Hx).
  set (i := pick1 W' W x * B + c) in *. set (j := x * B + c) in *.
  assert ((i + 1) * n <= W * B * n) by (apply Z.mul_le_mono_nonneg_r; lia). assert ((j + 1) * n <= W' * B * n) by (apply Z.mul_le_mono_nonneg_r; lia).
  assert (0 <= i * n) by (apply Z.mul_nonneg_nonneg; lia). assert (0 <= j * n) by (apply Z.mul_nonneg_nonneg; lia). assert (i <= i * n) by nia. assert (j <= j * n) by nia.
  rewrite !u32_small by lia. rewrite rde_ok by lia. cbn [bind]. rewrite wre_ok; try lia; [|apply zlen_slice; lia].
  eexists. split; [reflexivity|]. rewrite zlen_splice; rewrite ?zlen_slice by lia; lia.
Qed.

(** iluScale_: a new image of the given size *)
Lemma scaled_ok : forall scr im buf W' H' D', img_ok im buf -> Bpc im <> 8 -> allocator_ok scr ->
  Width im <= 4194304 -> Height im <= 4194304 -> Depth im <= 4194304 -> 1 <= W' <= 4194304 -> 1 <= H' <= 4194304 -> 1 <= D' <= 4194304 ->
  W' * Bpp im * Bpc im * H' * D' < 2 ^ 32 -> scr (W' * Bpp im * Bpc im * H' * D') <> None ->
  exists im' buf', iluScale_ scr im W' H' D' = Ok (Some im') /\ img_ok im' buf' /\
    Width im' = W' /\ Height im' = H' /\ Depth im' = D' /\ Bpp im' = Bpp im /\ Bpc im' = Bpc im /\
    Format im' = Format im /\ Type_ im' = Type_ im /\ Origin im' = Origin im /\
    forall x y z c, in_pixels im' x y z -> 0 <= c < Bpp im ->
      chan_at im' buf' x y z c = chan_at im buf (pick W' (Width im) x) (pick H' (Height im) y) (pick D' (Depth im) z) c.
Proof.
  intros scr im buf W' H' D' Hok H8 Ha BW BH BD HW' HH' HD' Hs Hn.
  assert (Hok' := Hok). destruct Hok' as (HDt & HW & HH & HD & Hbpp & Hbpc & Hbps & Hpl & Hsz & H32 & Hlen).
  set (B := Bpp im) in *. set (n := Bpc im) in *. set (W := Width im) in *. set (H := Height im) in *. set (D := Depth im) in *. change (2 ^ 32) with 4294967296 in *.
  assert (M1 : 1 <= B * n) by nia. assert (M2 : 1 <= B * n * W') by nia.
  assert (M3 : B * n * W' <= B * n * W' * H') by (apply le_mul_l; lia).
  assert (M4 : B * n * W' * H' <= B * n * W' * H' * D') by (apply le_mul_l; lia).
  assert (MS : B * n * W' * H' * D' = W' * B * n * H' * D') by ring. rewrite <- MS in *.
  unfold iluScale_, ilResizeImage. fold B n.
  rewrite (u32_small (B * n * W')) by lia. rewrite (u32_small (B * n * W' * H')) by lia. rewrite (u32_small (B * n * W' * H' * D')) by lia.
  destruct (scr (B * n * W' * H' * D')) as [blk|] eqn:E; [|congruence]. assert (L := Ha _ _ E). cbn [Data]. rewrite HDt. fold W H D.
  assert (Lb : zlen buf = D * H * W * B * n) by (rewrite Hlen, Hsz, Hpl, Hbps; ring).
  assert (Lk : zlen blk = D' * H' * W' * B * n) by (rewrite L; ring).
  assert (WB : W * B * n <= zlen buf).
  { rewrite Lb. replace (D * H * W * B * n) with (W * B * n * (H * D)) by ring. apply le_mul_l; nia. }
  assert (WB' : W' * B * n <= zlen blk).
  { rewrite Lk. replace (D' * H' * W' * B * n) with (W' * B * n * (H' * D')) by ring. apply le_mul_l; nia. }
  assert (S1 : exists d, (if (H' <=? 1) && (H <=? 1) then scale1 n B W' W buf blk else Ok blk) = Ok d /\ zlen d = zlen blk).
  { destruct ((H' <=? 1) && (H <=? 1)); [|exists blk; auto]. apply scale1_ok; lia. }
  destruct S1 as (d1 & E1 & L1). rewrite E1. cbn [bind].
  assert (S3 : (if (D' <=? 1) && (D <=? 1) then scale3 n B W' H' 1 W H 1 buf d1 else scale3 n B W' H' D' W H D buf d1) = scale3 n B W' H' D' W H D buf d1).
  { destruct ((D' <=? 1) && (D <=? 1)) eqn:Q; [|reflexivity]. replace D' with 1 by lia. replace D with 1 by lia. reflexivity. }
  rewrite S3. destruct (scale3_ok n B W' H' D' W H D buf d1) as (d & E3 & L3 & A); try lia.
  rewrite E3. cbn [bind]. eexists _, d. split; [reflexivity|]. split.
  { unfold img_ok. cbn. fold B n. repeat split; try lia; auto; try ring. }
  do 8 (split; [reflexivity|]). intros x y z c (Hx & Hy & Hz) Hc. cbn in Hx, Hy, Hz.
  destruct (pick_ok W W' x) as (P1 & _); try lia. destruct (pick_ok H H' y) as (P2 & _); try lia. destruct (pick_ok D D' z) as (P3 & _); try lia.
  assert (T := A z y x c Hz Hy Hx Hc).
  assert (C1 : forall i b X Y Z_, Bpp i = B -> Bpc i = n -> chan_at i b X Y Z_ c = slice b ((((Z_ * Height i + Y) * Width i + X) * B + c) * n) n).
  { intros i b X Y Z_ EB EN. unfold chan_at, pix_off. rewrite EB, EN. f_equal. ring. }
  rewrite !C1 by reflexivity. cbn [Width Height with_Data]. fold W H. exact T.
Qed.

(** the new pixels handed to ilTexImage *)
Lemma tex_image : forall alloc old W H D bpp fmt typ b,
  allocator_ok alloc -> 1 <= W -> 1 <= H -> 1 <= D -> 1 <= bpp < 256 ->
  (ilGetBpcType typ = 1 \/ ilGetBpcType typ = 2 \/ ilGetBpcType typ = 4 \/ ilGetBpcType typ = 8) ->
  W * bpp * ilGetBpcType typ * H * D < 2 ^ 32 -> zlen b = W * bpp * ilGetBpcType typ * H * D -> alloc (W * bpp * ilGetBpcType typ * H * D) <> None ->
  exists im, ilInitImage alloc old W H D bpp fmt typ (Some b) = Ok (true, im, []) /\ img_ok im b /\
    Width im = W /\ Height im = H /\ Depth im = D /\ Bpp im = bpp /\ Bpc im = ilGetBpcType typ /\
    Format im = fmt /\ Type_ im = typ /\ Pal im = mkPal None 0 IL_PAL_NONE.
Proof.
  intros alloc old W H D bpp fmt typ b Ha HW HH HD Hb Hc Hs Lb Hn. unfold ilInitImage. set (n := ilGetBpcType typ) in *.
  replace (n =? 0) with false by lia. unfold nz1. replace (W =? 0) with false by lia. replace (H =? 0) with false by lia. replace (D =? 0) with false by lia.
  change (2 ^ 32) with 4294967296 in *.
  assert (M1 : 1 <= bpp * n) by nia. assert (M2 : 1 <= W * bpp * n) by nia.
  assert (M3 : W * bpp * n <= W * bpp * n * H) by (apply le_mul_l; lia).
  assert (M4 : W * bpp * n * H <= W * bpp * n * H * D) by (apply le_mul_l; lia).
  rewrite (u32_small (W * bpp * n)) by lia. rewrite (u32_small (W * bpp * n * H)) by lia. rewrite (u32_small (W * bpp * n * H * D)) by lia.
  destruct (alloc (W * bpp * n * H * D)) as [k|] eqn:E; [|congruence]. assert (L := Ha _ _ E).
  rewrite memcpy_ok by lia. cbn [bind]. replace (slice b 0 (W * bpp * n * H * D)) with b by (symmetry; rewrite <- Lb; apply slice_all). rewrite splice_full by lia.
  eexists. split; [reflexivity|]. split; [|repeat split; reflexivity].
  unfold img_ok. cbn. repeat split; try lia; auto; ring.
Qed.

(** ** C77: scaling with the nearest filter takes for every pixel a pixel of the source at the corresponding place *)
Theorem C77_scale_partial : forall scr alloc im buf W' H' D', img_ok im buf -> layout_ok im -> Bpc im <> 8 ->
  allocator_ok scr -> allocator_ok alloc ->
  Width im <= 2 ^ 22 -> Height im <= 2 ^ 22 -> Depth im <= 2 ^ 22 -> 1 <= W' <= 2 ^ 22 -> 1 <= H' <= 2 ^ 22 -> 1 <= D' <= 2 ^ 22 ->
  W' * Bpp im * Bpc im * H' * D' < 2 ^ 32 -> scr (W' * Bpp im * Bpc im * H' * D') <> None -> alloc (W' * Bpp im * Bpc im * H' * D') <> None ->
  exists im' buf' ix iy iz, iluScale scr alloc im W' H' D' = Ok (true, im', []) /\ img_ok im' buf' /\
    Width im' = W' /\ Height im' = H' /\ Depth im' = D' /\ Bpp im' = Bpp im /\ Bpc im' = Bpc im /\
    Format im' = Format im /\ Type_ im' = Type_ im /\ Origin im' = Origin im /\
    (forall x, 0 <= x < W' -> nearest W' (Width im) x (ix x)) /\
    (forall y, 0 <= y < H' -> nearest H' (Height im) y (iy y)) /\
    (forall z, 0 <= z < D' -> nearest D' (Depth im) z (iz z)) /\
    forall x y z c, in_pixels im' x y z -> 0 <= c < Bpp im -> chan_at im' buf' x y z c = chan_at im buf (ix x) (iy y) (iz z) c.
Proof.
  intros scr alloc im buf W' H' D' Hok Hlay H8 Ha Hb BW BH BD HW' HH' HD' Hs Hn Hm. change (2 ^ 22) with 4194304 in *.
  unfold iluScale. destruct ((Width im =? W') && (Height im =? H') && (Depth im =? D')) eqn:Q.
  - assert (Ew : W' = Width im) by lia. assert (Eh : H' = Height im) by lia. assert (Ed : D' = Depth im) by lia.
    exists im, buf, (fun x => x), (fun x => x), (fun x => x). split; [reflexivity|]. split; [exact Hok|]. do 8 (split; [auto|]).
    assert (N : forall W x, 0 <= x < W -> nearest W W x x).
    { intros W x Hx. unfold nearest. rewrite Z.div_mul by lia. lia. }
    rewrite Ew, Eh, Ed. repeat (split; [intros; apply N; lia|]). reflexivity.
  - destruct (scaled_ok scr im buf W' H' D') as (t & b & E & Ok_ & T1 & T2 & T3 & T4 & T5 & T6 & T7 & T8 & A); auto.
    unfold nz1. replace (W' =? 0) with false by lia. replace (H' =? 0) with false by lia. replace (D' =? 0) with false by lia.
    rewrite E. cbn [bind]. rewrite T1, T2, T3, T4, T6, T7. assert (Ok2 := Ok_). destruct Ok2 as (Td & _ & _ & _ & Tb & Tc & Tbps & Tpl & Tsz & T32 & Tl). rewrite Td.
    assert (BT : ilGetBpcType (Type_ im) = Bpc im) by (destruct Hlay as (_ & K & _); exact K).
    rewrite T1, T2, T3, T4, T5 in *.
    destruct (tex_image alloc im W' H' D' (Bpp im) (Format im) (Type_ im) b) as (im' & E' & Ok' & F1 & F2 & F3 & F4 & F5 & F6 & F7 & F8); rewrite ?BT; try lia; auto.
    rewrite E'. cbn [bind]. exists (with_Origin im' (Origin im)), b, (pick W' (Width im)), (pick H' (Height im)), (pick D' (Depth im)).
    split; [reflexivity|]. split; [unfold img_ok in *; cbn; exact Ok'|]. cbn [with_Origin Width Height Depth Bpp Bpc Format Type_ Origin Data]. rewrite F5, BT. do 8 (split; [auto|]).
    split; [intros; apply pick_ok; destruct Hok as (_ & ? & ? & ? & _); lia|]. split; [intros; apply pick_ok; destruct Hok as (_ & ? & ? & ? & _); lia|].
    split; [intros; apply pick_ok; destruct Hok as (_ & ? & ? & ? & _); lia|].
    intros x y z c (Hx & Hy & Hz) Hc. cbn [with_Origin Width Height Depth] in Hx, Hy, Hz. rewrite <- A; [|unfold in_pixels; lia|lia].
    unfold chan_at, pix_off. cbn [with_Origin Width Height Depth Bpp Bpc]. rewrite F1, F2, F4, F5, BT, T1, T2, T4, T5. reflexivity.
Qed.
Print Assumptions C77_scale_partial.

(** a 2x1 picture enlarged to 4x2 *)
Definition tiny : img := mkImg 2 1 1 1 1 2 (Some [10; 20]) 2 2 IL_LUMINANCE IL_UNSIGNED_BYTE IL_ORIGIN_UPPER_LEFT (mkPal None 0 IL_PAL_NONE) 0 0 0 0.
Definition zeros : allocator := fun n => Some (repeat 0 (Z.to_nat n)).
Example C77_ex : img_ok tiny [10; 20] /\ layout_ok tiny /\
  match iluScale zeros zeros tiny 4 2 1 with Ok (true, im, []) => Data im = Some [10; 10; 20; 20; 10; 10; 20; 20] /\ Origin im = IL_ORIGIN_UPPER_LEFT | _ => False end.
Proof. unfold img_ok, layout_ok. vm_compute. intuition congruence. Qed.

(** Thirty columns reduced to ten: the second of them is the third of the source, not the fourth, because the quotient is
    computed with a rounded ratio. *)
Theorem C77_exact_refuted : exists W' W x, 0 <= x < W' /\ (x * W) mod W' = 0 /\ pick W' W x <> x * W / W'.
Proof. exists 10, 30, 1. vm_compute. repeat split; congruence. Qed.
Print Assumptions C77_exact_refuted.

(** Images of doubles are not scaled: the new pixels are whatever the memory held. *)
Theorem C77_double_refuted : forall n B W' H' D' W H D src dst, n = 8 -> scale3 n B W' H' D' W H D src dst = Ok dst.
Proof. intros. subst. reflexivity. Qed.
Print Assumptions C77_double_refuted.

(** The linear filter reads one column past the row, and on the last row past the end of the image. *)
Theorem C77_linear_refuted : exists B W' H' W H src dst, zlen src = W * H * B /\ zlen dst = W' * H' * B /\ forall mix, linear2 mix B W' H' W H src dst = UB.
Proof. exists 1, 2, 2, 1, 1, [7], [0; 0; 0; 0]. split; [reflexivity|]. split; [reflexivity|]. intros mix. vm_compute. reflexivity. Qed.
Print Assumptions C77_linear_refuted.

(** ** C78: the chain of mipmaps *)
Definition half (w : Z) : Z := Z.max 1 (w / 2).
(** [m] is a copy of [im], with pixels [buf], reduced to half its size *)
Definition halved (im : img) (buf : list Z) (m : img) (mbuf : list Z) : Prop :=
  img_ok m mbuf /\ Width m = half (Width im) /\ Height m = half (Height im) /\ Depth m = half (Depth im) /\
  Bpp m = Bpp im /\ Bpc m = Bpc im /\ Format m = Format im /\ Type_ m = Type_ im /\ Origin m = Origin im /\
  exists ix iy iz, (forall x, 0 <= x < Width m -> nearest (Width m) (Width im) x (ix x)) /\
    (forall y, 0 <= y < Height m -> nearest (Height m) (Height im) y (iy y)) /\
    (forall z, 0 <= z < Depth m -> nearest (Depth m) (Depth im) z (iz z)) /\
    forall x y z c, in_pixels m x y z -> 0 <= c < Bpp im -> chan_at m mbuf x y z c = chan_at im buf (ix x) (iy y) (iz z) c.
Fixpoint chain (im : img) (buf : list Z) (l : list img) : Prop :=
  match l with
  | [] => Width im = 1 /\ Height im = 1 /\ Depth im = 1
  | m :: l => exists mbuf, halved im buf m mbuf /\ chain m mbuf l
  end.

Lemma half_range : forall w, 1 <= w -> 1 <= half w <= w.
Proof. intros w Hw. unfold half. assert (w / 2 <= w) by (apply Z.div_le_upper_bound; lia). lia. Qed.
Lemma nz1_half : forall w, 1 <= w -> nz1 (Z.shiftr w 1) = half w.
Proof. intros w Hw. unfold nz1, half. rewrite Z.shiftr_div_pow2 by lia. change (2 ^ 1) with 2. assert (0 <= w / 2) by (apply Z.div_pos; lia). destruct (w / 2 =? 0) eqn:Q; lia. Qed.
Lemma log2_half : forall w, 2 <= w -> Z.log2 w = 1 + Z.log2 (w / 2).
Proof. intros w Hw. replace (w / 2) with (Z.shiftr w 1) by (rewrite Z.shiftr_div_pow2 by lia; reflexivity). rewrite Z.log2_shiftr by lia. assert (L := Z.log2_le_mono 2 w ltac:(lia)). change (Z.log2 2) with 1 in L. lia. Qed.
Lemma max_half : forall a b, 1 <= a -> 1 <= b -> Z.max (half a) (half b) = half (Z.max a b).
Proof. intros a b Ha Hb. unfold half. destruct (Z.max_spec a b) as [(L & ->) | (L & ->)]; assert (M := Z.div_le_mono); [specialize (M a b 2) | specialize (M b a 2)]; lia. Qed.

Lemma size_mono : forall w h d W H D B n, 1 <= w <= W -> 1 <= h <= H -> 1 <= d <= D -> 1 <= B -> 1 <= n -> w * B * n * h * d <= W * B * n * H * D.
Proof.
  intros w h d W H D B n Hw Hh Hd HB Hn. assert (1 <= B * n) by nia.
  assert (w * (B * n) <= W * (B * n)) by (apply Z.mul_le_mono_nonneg_r; lia). assert (1 <= w * (B * n)) by nia.
  assert (w * (B * n) * h <= W * (B * n) * H) by (apply Z.mul_le_mono_nonneg; lia). assert (1 <= w * (B * n) * h) by nia.
  assert (w * (B * n) * h * d <= W * (B * n) * H * D) by (apply Z.mul_le_mono_nonneg; lia). lia.
Qed.

Theorem C78_mipmaps_partial : forall fuel scr im buf, img_ok im buf -> Bpc im <> 8 -> allocator_ok scr -> (forall n, 0 <= n < 2 ^ 32 -> scr n <> None) ->
  Width im <= 2 ^ 22 -> Height im <= 2 ^ 22 -> Depth im <= 2 ^ 22 ->
  let levels := Z.log2 (Z.max (Width im) (Z.max (Height im) (Depth im))) in
  levels < Z.of_nat fuel ->
  exists l, iluBuildMipmaps fuel scr im = Ok (true, l) /\ zlen l = levels /\ chain im buf l.
Proof.
  change (2 ^ 22) with 4194304. unfold iluBuildMipmaps. cbv zeta.
  induction fuel as [|fuel IH]; intros scr im buf Hok H8 Ha Hn BW BH BD Hf.
  { assert (P := Z.log2_nonneg (Z.max (Width im) (Z.max (Height im) (Depth im)))). lia. }
  assert (Hok' := Hok). destruct Hok' as (HDt & HW & HH & HD & Hbpp & Hbpc & Hbps & Hpl & Hsz & H32 & Hlen).
  cbn [iBuildMipmaps]. destruct ((Width im =? 1) && (Height im =? 1) && (Depth im =? 1)) eqn:Q.
  { exists []. split; [reflexivity|]. assert (E : Width im = 1 /\ Height im = 1 /\ Depth im = 1) by lia. cbn [chain]. split; [|exact E].
    destruct E as (-> & -> & ->). reflexivity. }
  rewrite !nz1_half by lia. assert (R1 := half_range _ HW). assert (R2 := half_range _ HH). assert (R3 := half_range _ HD).
  assert (SM := size_mono _ _ _ _ _ _ (Bpp im) (Bpc im) R1 R2 R3 ltac:(lia) ltac:(lia)).
  assert (SZ : Width im * Bpp im * Bpc im * Height im * Depth im < 2 ^ 32) by (rewrite Hsz, Hpl, Hbps in H32; lia).
  assert (S0 : 0 <= half (Width im) * Bpp im * Bpc im * half (Height im) * half (Depth im)) by (repeat apply Z.mul_nonneg_nonneg; lia).
  destruct (scaled_ok scr im buf (half (Width im)) (half (Height im)) (half (Depth im))) as (m & mb & E & Okm & T1 & T2 & T3 & T4 & T5 & T6 & T7 & T8 & A); try lia; auto.
  { apply Hn. lia. }
  rewrite E. cbn [bind].
  assert (LV : Z.log2 (Z.max (Width im) (Z.max (Height im) (Depth im))) = 1 + Z.log2 (Z.max (Width m) (Z.max (Height m) (Depth m)))).
  { rewrite T1, T2, T3. rewrite (max_half (Height im)), (max_half (Width im)) by lia. set (M := Z.max _ _). assert (2 <= M) by lia. rewrite log2_half by lia. unfold half.
    assert (1 <= M / 2) by (apply Z.div_le_lower_bound; lia). rewrite Z.max_r by lia. reflexivity. }
  destruct (IH scr m mb) as (l & El & Ll & Cl); auto; try lia.
  rewrite El. cbn [bind]. exists (m :: l). split; [reflexivity|]. split; [rewrite zlen_cons; lia|].
  cbn [chain]. exists mb. split; [|exact Cl]. unfold halved. do 9 (split; [assumption|]).
  exists (pick (half (Width im)) (Width im)), (pick (half (Height im)) (Height im)), (pick (half (Depth im)) (Depth im)).
  rewrite T1, T2, T3. repeat (split; [intros; apply pick_ok; lia|]). exact A.
Qed.
Print Assumptions C78_mipmaps_partial.

Example C78_ex : match iluBuildMipmaps 3 zeros (with_Data tiny (Some [10; 20])) with Ok (true, [m]) => Width m = 1 /\ Height m = 1 /\ Data m = Some [10] | _ => False end.
Proof. vm_compute. auto. Qed.

(** When memory runs out after the first mipmap the call still reports success, with an incomplete chain. *)
Definition four : img := mkImg 4 1 1 1 1 4 (Some [10; 20; 30; 40]) 4 4 IL_LUMINANCE IL_UNSIGNED_BYTE IL_ORIGIN_UPPER_LEFT (mkPal None 0 IL_PAL_NONE) 0 0 0 0.
Definition only2 : allocator := fun n => if n =? 2 then Some [0; 0] else None.
Theorem C78_report_refuted : exists im buf scr m, img_ok im buf /\ allocator_ok scr /\ iluBuildMipmaps 5 scr im = Ok (true, [m]) /\ Width m <> 1.
Proof.
  exists four, [10; 20; 30; 40], only2. eexists. split; [unfold img_ok; vm_compute; intuition congruence|].
  split. { intros n b. unfold only2. destruct (n =? 2) eqn:Q; [|congruence]. intros [= <-]. cbn. lia. }
  split; [vm_compute; reflexivity|]. cbn. congruence.
Qed.
Print Assumptions C78_report_refuted.
