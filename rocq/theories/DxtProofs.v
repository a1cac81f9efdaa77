(** Decoding compressed blocks: every pixel gets its value. *)
From Coq Require Import ZArith List Lia Bool.
From Verif Require Import Base Enums Utility Image ImageSpec Slices Elem BitLemmas IluMosaic DxtSpec Dxt.
Import ListNotations.
Open Scope Z_scope.

(** ** Filling a picture *)
Section Fill.
Variables (im : img) (W H D : Z) (val : Z -> Z -> Z -> Z -> Z).
Hypothesis (HW : 0 < W) (HH : 0 < H) (HD : 0 < D) (HN : 4 * W * H * D < 4294967296).
Hypothesis (IW : Width im = W) (IH : Height im = H) (ID : Depth im = D) (IB : Bpp im = 4) (IS : Bps im = 4 * W) (IP : SizeOfPlane im = 4 * W * H).

Definition pos (x y z c : Z) : Z := 4 * ((z * H + y) * W + x) + c.
Definition inside (x y z c : Z) : Prop := 0 <= x < W /\ 0 <= y < H /\ 0 <= z < D /\ 0 <= c < 4.

Lemma sizes : 4 * W < 4294967296 /\ 4 * H < 4294967296 /\ 4 * D < 4294967296 /\ 4 * W * H < 4294967296.
Proof using HW HH HD HN. clear -HW HH HD HN. nia. Qed.

Lemma pos_in : forall x y z c, inside x y z c -> 0 <= pos x y z c < 4 * W * H * D.
Proof using HW HH HD HN.
  clear - HW HH HD HN. unfold inside, pos. intros x y z c (Hx & Hy & Hz & Hc).
  assert (0 <= z * H + y <= D * H - 1). { assert (0 <= z * H) by (apply Z.mul_nonneg_nonneg; lia). assert (z * H <= (D - 1) * H) by (apply Z.mul_le_mono_nonneg_r; lia). lia. }
  assert (0 <= (z * H + y) * W) by (apply Z.mul_nonneg_nonneg; lia).
  assert ((z * H + y) * W <= (D * H - 1) * W) by (apply Z.mul_le_mono_nonneg_r; lia).
  replace (4 * W * H * D) with (4 * (D * H * W)) by ring. lia.
Qed.

Lemma pos_inj : forall x y z c x' y' z' c', inside x y z c -> inside x' y' z' c' -> pos x y z c = pos x' y' z' c' -> x = x' /\ y = y' /\ z = z' /\ c = c'.
Proof using HW HH.
  clear - HW HH. unfold inside, pos. intros x y z c x' y' z' c' (Hx & Hy & Hz & Hc) (Hx' & Hy' & Hz' & Hc') E.
  assert (c = c') by lia. assert (E1 : W * (z * H + y) + x = W * (z' * H + y') + x') by lia.
  assert (z * H + y = z' * H + y' /\ x = x') as (E2 & ->). { apply (Z.div_mod_unique W); auto; left; lia. }
  assert (E3 : H * z + y = H * z' + y') by lia.
  assert (z = z' /\ y = y') as (-> & ->). { apply (Z.div_mod_unique H); auto; left; lia. }
  auto.
Qed.

Definition Good (S : Z -> Z -> Z -> Z -> Prop) (d : list Z) : Prop :=
  zlen d = 4 * W * H * D /\ forall x y z c, inside x y z c -> S x y z c -> geti d (pos x y z c) = val x y z c.

Lemma Good_sub : forall (S S' : Z -> Z -> Z -> Z -> Prop) d, Good S d -> (forall x y z c, inside x y z c -> S' x y z c -> S x y z c) -> Good S' d.
Proof using. clear. intros S S' d (L & A) HS. split; auto. Qed.

Definition plus (S : Z -> Z -> Z -> Z -> Prop) (x y z : Z) (C : Z -> Prop) : Z -> Z -> Z -> Z -> Prop :=
  fun x' y' z' c' => S x' y' z' c' \/ (x' = x /\ y' = y /\ z' = z /\ C c').

Lemma Good_wr : forall S d x y z c v, Good S d -> inside x y z c -> v = val x y z c ->
  exists d', wr d (pos x y z c) v = Ok d' /\ Good (plus S x y z (fun c' => c' = c)) d'.
Proof using HW HH HD HN.
  clear - HW HH HD HN. intros S d x y z c v (L & A) In ->. pose proof (pos_in _ _ _ _ In) as P.
  exists (upd d (pos x y z c) (val x y z c)). split; [apply wr_ok; lia|]. split; [rewrite zlen_upd; lia|].
  intros x' y' z' c' In' [HS | (-> & -> & -> & ->)].
  - pose proof (pos_in _ _ _ _ In') as P'. rewrite geti_upd by lia. destruct (pos x' y' z' c' =? pos x y z c) eqn:Q; [|auto].
    apply Z.eqb_eq in Q. destruct (pos_inj _ _ _ _ _ _ _ _ In' In Q) as (-> & -> & -> & ->). reflexivity.
  - rewrite geti_upd by lia. rewrite Z.eqb_refl. reflexivity.
Qed.

Lemma offs_pos : forall x y z, 0 <= x < W -> 0 <= y < H -> 0 <= z < D -> offs im x y z = pos x y z 0.
Proof using HW HH HD HN IB IS IP.
  clear - HW HH HD HN IB IS IP. intros x y z Hx Hy Hz. unfold offs. rewrite IB, IS, IP.
  replace (z * (4 * W * H) + y * (4 * W) + x * 4) with (pos x y z 0) by (unfold pos; ring).
  apply u32_small. pose proof (pos_in x y z 0 ltac:(unfold inside; lia)). lia.
Qed.
Lemma pos_c : forall x y z c, pos x y z c = pos x y z 0 + c.
Proof using. clear. intros. unfold pos. lia. Qed.

(** rows and blocks *)
Definition row (S : Z -> Z -> Z -> Z -> Prop) (x n y z : Z) (C : Z -> Prop) : Z -> Z -> Z -> Z -> Prop :=
  fun x' y' z' c' => S x' y' z' c' \/ (x <= x' < x + n /\ y' = y /\ z' = z /\ C c').
Definition rows (S : Z -> Z -> Z -> Z -> Prop) (x y lo n z : Z) (C : Z -> Prop) : Z -> Z -> Z -> Z -> Prop :=
  fun x' y' z' c' => S x' y' z' c' \/ (x <= x' < x + 4 /\ y + lo <= y' < y + n /\ z' = z /\ C c').

Lemma row_ok : forall A (aux : Z -> A) (body : Z -> A * list Z -> res (A * list Z)) x y z C,
  (forall i S d, 0 <= i < 4 -> Good S d -> exists d', body i (aux i, d) = Ok (aux (i + 1), d') /\ Good (plus S (x + i) y z C) d') ->
  forall S d, Good S d -> exists d', loop 0 4 body (aux 0, d) = Ok (aux 4, d') /\ Good (row S x 4 y z C) d'.
Proof using.
  intros A aux body x y z C HB S d G.
  destruct (loop_rule _ (fun i (st : A * list Z) => fst st = aux i /\ Good (row S x i y z C) (snd st)) 0 4 body (aux 0, d)) as ((a & d') & E & F & G').
  - lia.
  - split; auto. eapply Good_sub; [exact G|]. intros x' y' z' c' _ [HS | (? & _)]; [auto | lia].
  - intros i (a & d1) Hi (Ea & Gd). cbn [fst snd] in *. subst a. destruct (HB i _ d1 Hi Gd) as (d2 & E2 & G2).
    exists (aux (i + 1), d2). split; [exact E2|]. cbn [fst snd]. split; auto. eapply Good_sub; [exact G2|].
    intros x' y' z' c' _ [HS | (Hx & -> & -> & HC)]; [left; left; auto|].
    destruct (Z.eq_dec x' (x + i)) as [-> |]; [right; auto | left; right; repeat split; auto; lia].
  - cbn [fst snd] in *. subst a. exists d'. auto.
Qed.

Lemma rows_ok : forall A (aux : Z -> A) (body : Z -> A * list Z -> res (A * list Z)) x y z lo hi C, lo <= hi ->
  (forall j S d, lo <= j < hi -> Good S d -> exists d', body j (aux j, d) = Ok (aux (j + 1), d') /\ Good (row S x 4 (y + j) z C) d') ->
  forall S d, Good S d -> exists d', loop lo hi body (aux lo, d) = Ok (aux hi, d') /\ Good (rows S x y lo hi z C) d'.
Proof using.
  intros A aux body x y z lo hi C Hlo HB S d G.
  destruct (loop_rule _ (fun j (st : A * list Z) => fst st = aux j /\ Good (rows S x y lo j z C) (snd st)) lo hi body (aux lo, d)) as ((a & d') & E & F & G').
  - lia.
  - split; auto. eapply Good_sub; [exact G|]. intros x' y' z' c' _ [HS | (? & ? & _)]; [auto | lia].
  - intros j (a & d1) Hj (Ea & Gd). cbn [fst snd] in *. subst a. destruct (HB j _ d1 Hj Gd) as (d2 & E2 & G2).
    exists (aux (j + 1), d2). split; [exact E2|]. cbn [fst snd]. split; auto. eapply Good_sub; [exact G2|].
    intros x' y' z' c' _ [HS | (Hx & Hy & -> & HC)]; [left; left; auto|].
    destruct (Z.eq_dec y' (y + j)) as [-> |]; [right; auto | left; right; repeat split; auto; lia].
  - cbn [fst snd] in *. subst a. exists d'. auto.
Qed.

(** all blocks in order *)
Definition block_ok (bs : Z) (block : Z -> Z -> Z -> Z * list Z -> res (Z * list Z)) : Prop :=
  forall bx by_ z S d, 0 <= bx < quads W -> 0 <= by_ < quads H -> 0 <= z < D -> Good S d ->
  exists d', block (bx * 4) (by_ * 4) z (((z * quads H + by_) * quads W + bx) * bs, d) = Ok (((z * quads H + by_) * quads W + bx) * bs + bs, d') /\
             Good (rows S (bx * 4) (by_ * 4) 0 4 z (fun _ => True)) d'.

Lemma quads_spec : forall n k, 0 <= k -> k * 4 < n <-> k < quads n.
Proof using. clear. unfold quads. intros. lia. Qed.

Lemma blocks_ok : forall bs block, block_ok bs block -> forall d, zlen d = 4 * W * H * D ->
  exists d', blocks im block d = Ok d' /\ Good (fun _ _ _ _ => True) d'.
Proof using HW HH HD HN IW IH ID.
  clear - HW HH HD HN IW IH ID. intros bs block HB d L. pose proof sizes as (SW & SH & SD & _). unfold blocks. rewrite ID, IH, IW.
  set (Iz := fun z (st : Z * list Z) => fst st = z * quads H * quads W * bs /\ Good (fun _ _ z' _ => z' < z) (snd st)).
  destruct (loop_rule _ Iz 0 D (fun z => stride 0 H 4 (fun y => stride 0 W 4 (fun x => block x y z))) (0, d)) as ((T & d') & E & F & G).
  - lia.
  - split; [cbn; lia|]. split; [exact L|]. intros x y z c (_ & _ & Hz & _) ?. lia.
  - intros z (T & d1) Hz (FT & G1). cbn [fst snd] in *. subst T.
    set (Iy := fun ky (st : Z * list Z) => ky <= quads H /\ fst st = (z * quads H + ky) * quads W * bs /\ Good (fun _ y' z' _ => z' < z \/ (z' = z /\ y' < ky * 4)) (snd st)).
    destruct (stride_rule _ Iy H 4 (fun y => stride 0 W 4 (fun x => block x y z)) (z * quads H * quads W * bs, d1)) as (ny & (T & d2) & E2 & Hny & HnyQ & FT & G2); try lia.
    + split; [unfold quads; lia|]. split; [cbn; ring|]. eapply Good_sub; [exact G1|]. intros x y z' c (_ & Hy & _ & _) [?|(_ & ?)]; lia.
    + intros ky (T & d2) Hky Hky4 (HkQ & FT & G2). cbn [fst snd] in *. subst T. rewrite quads_spec in Hky4 by lia.
      set (Ix := fun kx (st : Z * list Z) => kx <= quads W /\ fst st = ((z * quads H + ky) * quads W + kx) * bs /\
              Good (fun x' y' z' _ => (z' < z \/ (z' = z /\ y' < ky * 4)) \/ (z' = z /\ y' < ky * 4 + 4 /\ x' < kx * 4)) (snd st)).
      destruct (stride_rule _ Ix W 4 (fun x => block x (ky * 4) z) ((z * quads H + ky) * quads W * bs, d2)) as (nx & (T & d3) & E3 & Hnx & HnxQ & FT & G3); try lia.
      * split; [unfold quads; lia|]. split; [cbn; ring|]. eapply Good_sub; [exact G2|]. intros x y z' c (Hx & Hy & _ & _) [?|(? & ? & ?)]; [auto|lia].
      * intros kx (T & d3) Hkx Hkx4 (HkxQ & FT & G3). cbn [fst snd] in *. subst T. rewrite quads_spec in Hkx4 by lia.
        destruct (HB kx ky z _ d3 ltac:(lia) ltac:(lia) Hz G3) as (d4 & E4 & G4).
        exists (((z * quads H + ky) * quads W + kx) * bs + bs, d4). split; [exact E4|]. split; [lia|]. split; [cbn; ring|].
        eapply Good_sub; [exact G4|]. intros x y z' c (Hx & Hy & _ & _) [?|(? & ? & ?)]; [left; left; auto|].
        destruct (Z_lt_dec x (kx * 4)); [left; right; auto|]. destruct (Z_lt_dec y (ky * 4)); [left; left; right; auto|]. right. repeat split; lia.
      * cbn [fst snd] in *. assert (nx = quads W) by (unfold quads in *; lia). subst nx. exists (T, d3). split; [exact E3|]. split; [lia|]. split; [cbn [fst]; rewrite FT; ring|].
        cbn [snd]. eapply Good_sub; [exact G3|]. intros x y z' c (Hx & Hy & _ & _) [?|(? & ?)]; [auto|]. right. repeat split; lia.
    + cbn [fst snd] in *. assert (ny = quads H) by (unfold quads in *; lia). subst ny. exists (T, d2). split; [exact E2|]. split; [cbn [fst]; rewrite FT; ring|].
      cbn [snd]. eapply Good_sub; [exact G2|]. intros x y z' c (Hx & Hy & _ & _) ?. lia.
  - rewrite E. cbn [bind]. exists d'. split; [reflexivity|]. cbn [snd] in G. eapply Good_sub; [exact G|]. intros x y z c (_ & _ & Hz & _) _. lia.
Qed.

(** ** Storing the pixels of a block *)
Lemma put_ok : forall (colours : list colour8) bitmask (alpha : bool) bx by_ z S d, 0 <= bx < quads W -> 0 <= by_ < quads H -> 0 <= z < D ->
  (forall i j, 0 <= i < 4 -> 0 <= j < 4 -> let col := nth (Z.to_nat (Select bitmask (4 * j + i))) colours (C8 0 0 0 0) in
     let x := bx * 4 + i in let y := by_ * 4 + j in
     c_r col = val x y z 0 /\ c_g col = val x y z 1 /\ c_b col = val x y z 2 /\ (alpha = true -> c_a col = val x y z 3)) ->
  Good S d -> exists d', put_block im (bx * 4) (by_ * 4) z colours bitmask alpha d = Ok d' /\
    Good (rows S (bx * 4) (by_ * 4) 0 4 z (fun c => c < 3 \/ alpha = true)) d'.
Proof using HW HH HD HN IW IH ID IB IS IP.
  intros colours bitmask alpha bx by_ z S d Hbx Hby Hz HV G. pose proof sizes as (SW & SH & SD & _). unfold put_block.
  match goal with |- context [loop 0 4 ?b (0, d)] => destruct (rows_ok Z (fun j => 4 * j) b (bx * 4) (by_ * 4) z 0 4 (fun c => c < 3 \/ alpha = true)) with (S := S) (d := d) as (d' & E & G') end; [lia| |exact G|].
  - intros j S1 d1 Hj G1.
    match goal with |- context [loop 0 4 ?b (4 * j, d1)] => destruct (row_ok Z (fun i => 4 * j + i) b (bx * 4) (by_ * 4 + j) z (fun c => c < 3 \/ alpha = true)) with (S := S1) (d := d1) as (d' & E & G') end; [|exact G1|].
    + intros i S2 d2 Hi G2. rewrite IW, IH. unfold quads in *. rewrite !u32_small by lia.
      destruct ((bx * 4 + i <? W) && (by_ * 4 + j <? H)) eqn:Q.
      * apply andb_prop in Q as (Q1 & Q2). rewrite offs_pos by lia. destruct (HV i j Hi Hj) as (V0 & V1 & V2 & V3). cbn zeta in V0, V1, V2, V3.
        set (x := bx * 4 + i) in *. set (y := by_ * 4 + j) in *. set (col := nth _ _ _) in *.
        destruct (Good_wr S2 d2 x y z 0 (c_r col) G2 ltac:(unfold inside; lia) V0) as (e0 & W0 & K0). rewrite W0. cbn [bind].
        destruct (Good_wr _ e0 x y z 1 (c_g col) K0 ltac:(unfold inside; lia) V1) as (e1 & W1 & K1). rewrite pos_c in W1. rewrite W1. cbn [bind].
        destruct (Good_wr _ e1 x y z 2 (c_b col) K1 ltac:(unfold inside; lia) V2) as (e2 & W2 & K2). rewrite pos_c in W2. rewrite W2. cbn [bind].
        destruct alpha.
        { destruct (Good_wr _ e2 x y z 3 (c_a col) K2 ltac:(unfold inside; lia) (V3 eq_refl)) as (e3 & W3 & K3). rewrite pos_c in W3. rewrite W3. cbn [bind].
          exists e3. split; [f_equal; f_equal; lia|]. eapply Good_sub; [exact K3|]. unfold plus, inside. intros x' y' z' c (_ & _ & _ & Hc) [?|(-> & -> & -> & _)]; [auto 10|].
          assert (c = 0 \/ c = 1 \/ c = 2 \/ c = 3) as [-> | [-> | [-> | -> ]]] by lia; auto 10. }
        { cbn [bind]. exists e2. split; [f_equal; f_equal; lia|]. eapply Good_sub; [exact K2|]. unfold plus, inside. intros x' y' z' c (_ & _ & _ & Hc) [?|(-> & -> & -> & [HC | HC])]; [auto 10| |discriminate].
          assert (c = 0 \/ c = 1 \/ c = 2) as [-> | [-> | -> ]] by lia; auto 10. }
      * exists d2. split; [f_equal; f_equal; lia|]. eapply Good_sub; [exact G2|]. unfold plus, inside. intros x' y' z' c (Hx & Hy & _) [?|(-> & -> & _)]; [auto|lia].
    + exists d'. split; [|exact G']. replace (4 * (j + 1)) with (4 * j + 4) by ring. replace (4 * j) with (4 * j + 0) at 1 by ring. exact E.
  - replace (4 * 0) with 0 in E by reflexivity. rewrite E. cbn [bind]. exists d'. auto.
Qed.

Lemma set_alpha : forall S d x y z v, Good S d -> 0 <= x < W -> 0 <= y < H -> 0 <= z < D -> v = val x y z 3 ->
  exists d', wr d (u32 (offs im x y z + 3)) v = Ok d' /\ Good (plus S x y z (fun c => c = 3)) d'.
Proof using HW HH HD HN IB IS IP.
  clear - HW HH HD HN IB IS IP. intros S d x y z v G Hx Hy Hz Hv. rewrite offs_pos, <- pos_c by auto.
  assert (In : inside x y z 3) by (unfold inside; lia). rewrite u32_small by (pose proof (pos_in _ _ _ _ In); lia).
  apply Good_wr; auto.
Qed.
End Fill.
