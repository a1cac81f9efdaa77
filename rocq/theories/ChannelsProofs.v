(** Proofs about the channel-wise operations. *)
From Coq Require Import ZArith List Lia Bool.
From Verif Require Import Base Enums Utility Image ImageSpec Slices Elem Channels PixelsProofs.
Import ListNotations.
Open Scope Z_scope.

(** pixel [px'] is pixel [px] with channels 0 and 2 exchanged *)
Definition swapped02 (n bpp : Z) (px px' : list Z) : Prop :=
  chan px' n 0 = chan px n 2 /\ chan px' n 2 = chan px n 0 /\
  forall c, 0 <= c < bpp -> c <> 0 -> c <> 2 -> chan px' n c = chan px n c.

Lemma swap02_step : forall n bpp p b, 0 < n -> 3 <= bpp -> 0 <= p -> (p + 1) * (bpp * n) <= zlen b ->
  exists b', (let! t := rde b n (p * bpp) in
              let! v := rde b n (p * bpp + 2) in
              let! d := wre b n (p * bpp) v in
              wre d n (p * bpp + 2) t) = Ok b' /\ zlen b' = zlen b /\
    swapped02 n bpp (pixel b (bpp * n) p) (pixel b' (bpp * n) p) /\
    forall j, 0 <= j -> (j < p * (bpp * n) \/ p * (bpp * n) + bpp * n <= j) -> geti b' j = geti b j.
Proof.
  intros n bpp p b Hn Hb Hp Hl.
  destruct (chan_read b n bpp p 0) as [E0 L0]; try lia. destruct (chan_read b n bpp p 2) as [E2 L2]; try lia.
  rewrite Z.add_0_r in E0. rewrite E0, E2. cbn [bind].
  destruct (chan_write b n bpp p 0 (chan (pixel b (bpp * n) p) n 2)) as (b1 & W1 & Z1 & C1 & O1 & F1); try lia.
  rewrite Z.add_0_r in W1. rewrite W1. cbn [bind].
  destruct (chan_write b1 n bpp p 2 (chan (pixel b (bpp * n) p) n 0)) as (b2 & W2 & Z2 & C2 & O2 & F2); try lia.
  exists b2. split; [exact W2|]. split; [lia|]. split.
  - split; [rewrite O2 by lia; exact C1|]. split; [exact C2|]. intros c Hc H0 H2. rewrite O2, O1 by lia. reflexivity.
  - intros j Hj Ho. rewrite F2, F1 by lia. reflexivity.
Qed.

Lemma swap02_loop : forall n bpp N buf, 0 < n -> 3 <= bpp -> 0 <= N -> N * (bpp * n) <= zlen buf ->
  exists b', loop 0 N (fun k d => let! t := rde d n (k * bpp) in
                         let! v := rde d n (k * bpp + 2) in
                         let! d := wre d n (k * bpp) v in
                         wre d n (k * bpp + 2) t) buf = Ok b' /\ zlen b' = zlen buf /\
    (forall p, 0 <= p < N -> swapped02 n bpp (pixel buf (bpp * n) p) (pixel b' (bpp * n) p)) /\
    (forall j, N * (bpp * n) <= j -> geti b' j = geti buf j).
Proof.
  intros n bpp N buf Hn Hb HN Hl.
  assert (HP : 0 < bpp * n) by (apply Z.mul_pos_pos; lia).
  apply (pixmap_inplace (swapped02 n bpp) (bpp * n)); auto.
  intros p b Hp L E. assert ((p + 1) * (bpp * n) <= N * (bpp * n)) by (apply Z.mul_le_mono_nonneg_r; lia).
  destruct (swap02_step n bpp p b) as (b' & A & B & C & D); try lia. exists b'. rewrite <- E. split; [exact A|]. split; [lia|]. auto.
Qed.

Lemma exchange_loop : forall n bpp N buf, 0 < n -> 3 <= bpp -> 0 <= N -> N * (bpp * n) <= zlen buf -> N * bpp < 4294967296 ->
  exists b', stride 0 (N * bpp) bpp (exchange n) buf = Ok b' /\ zlen b' = zlen buf /\
    (forall p, 0 <= p < N -> swapped02 n bpp (pixel buf (bpp * n) p) (pixel b' (bpp * n) p)) /\
    (forall j, N * (bpp * n) <= j -> geti b' j = geti buf j).
Proof.
  intros n bpp N buf Hn Hb HN Hl Hw. rewrite stride_loop by lia.
  destruct (swap02_loop n bpp N buf) as (b' & A & B); auto. exists b'. split; [|exact B]. rewrite <- A.
  apply loop_ext. intros k s Hk. unfold exchange. rewrite Z.add_0_l.
  assert ((k + 1) * bpp <= N * bpp) by (apply Z.mul_le_mono_nonneg_r; lia). assert (0 <= k * bpp) by (apply Z.mul_nonneg_nonneg; lia).
  rewrite u32_small by lia. reflexivity.
Qed.

(** exchanging twice restores the pixel *)
Lemma swapped02_twice : forall n bpp px px' px'', 0 < n -> 3 <= bpp -> zlen px = bpp * n -> zlen px'' = bpp * n ->
  swapped02 n bpp px px' -> swapped02 n bpp px' px'' -> px'' = px.
Proof.
  intros n bpp px px' px'' Hn Hb L L' (A & B & C) (A' & B' & C'). apply (chans_ext px'' px n bpp); auto.
  intros c Hc. destruct (Z.eq_dec c 0) as [->|]; [congruence|]. destruct (Z.eq_dec c 2) as [->|]; [congruence|].
  rewrite C', C by lia. reflexivity.
Qed.

Lemma zlen_pixel : forall b P p n, 0 < P -> 0 <= p < n -> n * P <= zlen b -> zlen (pixel b P p) = P.
Proof.
  intros b P p n HP Hp Hl. assert ((p + 1) * P <= n * P) by (apply Z.mul_le_mono_nonneg_r; lia).
  assert (0 <= p * P) by (apply Z.mul_nonneg_nonneg; lia). apply zlen_slice; lia.
Qed.

Lemma swap_twice_buf : forall n bpp N a b c, 0 < n -> 3 <= bpp -> 0 <= N -> N * (bpp * n) <= zlen a ->
  zlen b = zlen a -> zlen c = zlen a ->
  (forall p, 0 <= p < N -> swapped02 n bpp (pixel a (bpp * n) p) (pixel b (bpp * n) p)) ->
  (forall j, N * (bpp * n) <= j -> geti b j = geti a j) ->
  (forall p, 0 <= p < N -> swapped02 n bpp (pixel b (bpp * n) p) (pixel c (bpp * n) p)) ->
  (forall j, N * (bpp * n) <= j -> geti c j = geti b j) -> c = a.
Proof.
  intros n bpp N a b c Hn Hb HN Hl Lb Lc A1 A2 B1 B2.
  assert (HP : 0 < bpp * n) by (apply Z.mul_pos_pos; lia).
  apply list_ext; [lia|]. intros i Hi. destruct (Z.le_gt_cases (N * (bpp * n)) i) as [L|L]; [rewrite B2, A2 by lia; reflexivity|].
  set (P := bpp * n) in *.
  assert (D : i = (i / P) * P + i mod P) by (rewrite Z.mul_comm; apply Z.div_mod; lia).
  assert (M := Z.mod_pos_bound i P HP). assert (Q : 0 <= i / P < N).
  { split; [apply Z.div_pos; lia|]. apply Z.div_lt_upper_bound; [lia|]. rewrite Z.mul_comm. lia. }
  assert (E : pixel c P (i / P) = pixel a P (i / P)).
  { eapply (swapped02_twice n bpp); eauto; unfold P; apply (zlen_pixel _ _ _ N); auto; fold P; lia. }
  assert (0 <= i / P * P) by (apply Z.mul_nonneg_nonneg; lia).
  assert (G : geti (pixel c P (i / P)) (i mod P) = geti (pixel a P (i / P)) (i mod P)) by (rewrite E; reflexivity).
  unfold pixel in G. rewrite !geti_slice in G by lia. rewrite <- D in G. exact G.
Qed.

(** two counters *)
Lemma stride2_loop : forall n st st2 body d, 0 < st -> 0 <= st2 -> 0 <= n -> n * st < 4294967296 -> n * st2 < 4294967296 ->
  stride2 (n * st) st st2 body d = loop 0 n (fun k => body (k * st) (k * st2)) d.
Proof.
  intros n st st2 body d Hs Hs2 Hn Hw Hw2. unfold stride2. rewrite stride_loop by lia. unfold loop.
  assert (G : forall m k d, 0 <= k -> k + Z.of_nat m = n ->
     (let! r := for_ m k (fun k s => let! d := body (0 + k * st) (snd s) (fst s) in Ok (d, u32 (snd s + st2))) (d, k * st2) in Ok (fst r))
     = for_ m k (fun k => body (k * st) (k * st2)) d).
  { induction m as [|m IH]; intros k e Hk Hkm; [reflexivity|]. cbn [for_ fst snd]. rewrite Z.add_0_l.
    destruct (body (k * st) (k * st2) e); cbn [bind]; auto.
    assert ((k + 1) * st2 <= n * st2) by (apply Z.mul_le_mono_nonneg_r; lia). assert (0 <= k * st2) by (apply Z.mul_nonneg_nonneg; lia).
    rewrite u32_small by lia. replace (k * st2 + st2) with ((k + 1) * st2) by ring. apply IH; lia. }
  apply (G (Z.to_nat (n - 0)) 0); lia.
Qed.

(** copying the three colour channels *)
Lemma copy3_step : forall src n bi bj p d, 0 < n -> 3 <= bi -> 3 <= bj -> 0 <= p ->
  (p + 1) * (bi * n) <= zlen src -> (p + 1) * (bj * n) <= zlen d -> p * bi + 2 < 4294967296 -> p * bj + 2 < 4294967296 ->
  exists d', copy3 src n (p * bi) (p * bj) d = Ok d' /\ zlen d' = zlen d /\
    (forall c, 0 <= c < 3 -> chan (pixel d' (bj * n) p) n c = chan (pixel src (bi * n) p) n c) /\
    (forall c, 3 <= c < bj -> chan (pixel d' (bj * n) p) n c = chan (pixel d (bj * n) p) n c) /\
    forall j, 0 <= j -> (j < p * (bj * n) \/ p * (bj * n) + bj * n <= j) -> geti d' j = geti d j.
Proof.
  intros src n bi bj p d Hn Hi Hj Hp Hs Hd W1 W2. unfold copy3.
  assert (0 <= p * bi) by (apply Z.mul_nonneg_nonneg; lia). assert (0 <= p * bj) by (apply Z.mul_nonneg_nonneg; lia).
  rewrite !u32_small by lia.
  destruct (chan_read src n bi p 0) as [E0 L0]; try lia. destruct (chan_read src n bi p 1) as [E1 L1]; try lia.
  destruct (chan_read src n bi p 2) as [E2 L2]; try lia. rewrite Z.add_0_r in E0. rewrite E0, E1, E2. cbn [bind].
  destruct (chan_write d n bj p 0 (chan (pixel src (bi * n) p) n 0)) as (b1 & X1 & Z1 & C1 & O1 & F1); try lia.
  rewrite Z.add_0_r in X1. rewrite X1. cbn [bind].
  destruct (chan_write b1 n bj p 1 (chan (pixel src (bi * n) p) n 1)) as (b2 & X2 & Z2 & C2 & O2 & F2); try lia.
  rewrite X2. cbn [bind].
  destruct (chan_write b2 n bj p 2 (chan (pixel src (bi * n) p) n 2)) as (b3 & X3 & Z3 & C3 & O3 & F3); try lia.
  exists b3. split; [exact X3|]. split; [lia|]. split; [|split].
  - intros c Hc. assert (c = 0 \/ c = 1 \/ c = 2) as [ -> |[ -> | -> ]] by lia.
    + rewrite O3, O2 by lia. exact C1.
    + rewrite O3 by lia. exact C2.
    + exact C3.
  - intros c Hc. rewrite O3, O2, O1 by lia. reflexivity.
  - intros j Hj' Ho. rewrite F3, F2, F1 by lia. reflexivity.
Qed.

(** element sizes *)
Lemma opaque_len : forall t a, opaque t = Some a -> zlen a = ilGetBpcType t.
Proof.
  intros t a H. unfold opaque, ilGetBpcType, case in *. cbn [existsb] in *. rewrite !orb_false_r in *.
  destruct ((t =? IL_BYTE) || (t =? IL_UNSIGNED_BYTE)) eqn:E1; [inversion H; reflexivity|].
  destruct ((t =? IL_SHORT) || (t =? IL_UNSIGNED_SHORT)) eqn:E2.
  { inversion H; subst. replace ((t =? IL_SHORT) || ((t =? IL_UNSIGNED_SHORT) || (t =? IL_HALF))) with true by lia. reflexivity. }
  assert (E3 : t =? IL_HALF = true -> False).
  { intros E. assert (t = IL_HALF) by lia. subst. cbn in H. discriminate. }
  replace ((t =? IL_SHORT) || ((t =? IL_UNSIGNED_SHORT) || (t =? IL_HALF))) with false.
  2:{ destruct (t =? IL_HALF); [exfalso; auto|]. rewrite orb_false_r. congruence. }
  destruct ((t =? IL_INT) || (t =? IL_UNSIGNED_INT)) eqn:E4.
  { inversion H; subst. replace ((t =? IL_INT) || ((t =? IL_UNSIGNED_INT) || (t =? IL_FLOAT))) with true by lia. reflexivity. }
  destruct (t =? IL_FLOAT) eqn:E5.
  { inversion H; subst. replace ((t =? IL_INT) || ((t =? IL_UNSIGNED_INT) || true)) with true by lia. reflexivity. }
  rewrite orb_false_r, E4. destruct (t =? IL_DOUBLE); [inversion H; reflexivity|discriminate].
Qed.

(** facts about a well-formed image *)
Lemma ok_pixels : forall im buf, img_ok im buf ->
  0 < Bpc im /\ 0 < Bpp im * Bpc im /\ zlen buf = Width im * Height im * Depth im * (Bpp im * Bpc im) /\
  0 < Width im * Height im /\ Width im * Height im <= Width im * Height im * Depth im /\
  Width im * Height im * Depth im * Bpp im < 4294967296 /\ 
  Width im * Height im * Depth im * (Bpp im * Bpc im) < 4294967296 /\
  Bps im * Height im = Width im * Height im * (Bpp im * Bpc im) /\ SizeOfPlane im = Width im * Height im * (Bpp im * Bpc im).
Proof.
  intros im buf (HD & HW & HH & HDp & Hbpp & Hbpc & Hbps & Hpl & Hsz & H32 & Hlen).
  assert (0 < Bpc im) by lia. assert (HP : 0 < Bpp im * Bpc im) by (apply Z.mul_pos_pos; lia).
  assert (HWH : 0 < Width im * Height im) by (apply Z.mul_pos_pos; lia).
  assert (E : zlen buf = Width im * Height im * Depth im * (Bpp im * Bpc im)) by (rewrite Hlen, Hsz, Hpl, Hbps; ring).
  assert (Width im * Height im * 1 <= Width im * Height im * Depth im) by (apply Z.mul_le_mono_nonneg_l; lia).
  assert (N : 0 <= Width im * Height im * Depth im * Bpp im) by (apply Z.mul_nonneg_nonneg; [apply Z.mul_nonneg_nonneg; lia|lia]).
  assert (Width im * Height im * Depth im * Bpp im * 1 <= Width im * Height im * Depth im * Bpp im * Bpc im) by (apply Z.mul_le_mono_nonneg_l; lia).
  assert (Width im * Height im * Depth im * (Bpp im * Bpc im) = Width im * Height im * Depth im * Bpp im * Bpc im) by ring.
  change (2 ^ 32) with 4294967296 in H32. rewrite Hbps in *. repeat split; try lia; rewrite ?Hpl; ring.
Qed.
