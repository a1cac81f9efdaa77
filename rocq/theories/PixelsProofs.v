(** Proofs about the region copies. *)
From Coq Require Import ZArith List Lia Bool.
From Verif Require Import Base Enums Utility UtilityProofs Image ImageSpec Flip FlipProofs Pixels Scatter.
Import ListNotations.
Open Scope Z_scope.

Lemma loop_max : forall S lo hi (body : Z -> S -> res S) s,
  loop lo hi body s = loop lo (Z.max lo hi) body s.
Proof. intros. unfold loop. f_equal. lia. Qed.

Lemma loop_ext : forall S lo hi (b b' : Z -> S -> res S) s,
  (forall k st, lo <= k < hi -> b k st = b' k st) -> loop lo hi b s = loop lo hi b' s.
Proof.
  intros S lo hi b b' s H. unfold loop.
  assert (G : forall n i s, lo <= i -> i + Z.of_nat n <= Z.max lo hi -> for_ n i b s = for_ n i b' s).
  { induction n as [|n IH]; intros i st Hi Hn; cbn [for_]; auto.
    rewrite H by lia. destruct (b' i st); cbn [bind]; auto. apply IH; lia. }
  apply G; lia.
Qed.

(** ** Rows, planes and boxes of bytes *)

Lemma row_step : forall src P n body D0 S0 N d,
  0 <= n -> 0 <= P ->
  (forall i c d, 0 <= i < n -> 0 <= c < P ->
     body i c d = (let! v := rd src (S0 + i * P + c) in wr d (D0 + i * P + c) v)) ->
  0 <= D0 -> D0 + n * P <= N -> 0 <= S0 -> S0 + n * P <= zlen src -> zlen d = N ->
  exists d', loop 0 n (fun i => loop 0 P (body i)) d = Ok d' /\
    step (fun j v => exists q, 0 <= q < n * P /\ j = D0 + q /\ v = geti src (S0 + q)) d d'.
Proof.
  intros src P n body D0 S0 N d Hn HP Hb HD HDN HS HSN Hd.
  destruct (step_loop (fun i j v => exists c, 0 <= c < P /\ (j = D0 + i * P + c /\ v = geti src (S0 + i * P + c)))
              N (fun i => loop 0 P (body i)) 0 n d Hd) as [d' [E H]].
  - intros i d1 Hi Hd1.
    apply (step_loop (fun c j v => j = D0 + i * P + c /\ v = geti src (S0 + i * P + c)) N); auto.
    + intros c d2 Hc Hd2. rewrite Hb by lia.
      assert (Hlb := lin_bound P n i c Hc Hi).
      apply step_copy; lia.
    + intros c c' j v v' Hc Hc' [-> _] [E _]. lia.
    + intros c j v Hc [-> _]. assert (Hlb := lin_bound P n i c Hc Hi). lia.
  - intros i i' j v v' Hi Hi' (c & Hc & -> & _) (c' & Hc' & E & _).
    destruct (radix2 P i c i' c'); auto; lia.
  - intros i j v Hi (c & Hc & -> & _). assert (Hlb := lin_bound P n i c Hc Hi). lia.
  - exists d'. split; auto. eapply step_ext; [exact H|]. intros j v. split.
    + intros (i & Hi & c & Hc & -> & ->). exists (i * P + c).
      assert (Hlb := lin_bound P n i c Hc Hi). repeat split; try lia. f_equal; lia.
    + intros (q & Hq & -> & ->).
      destruct (decompose 1 n P q) as (o & i & c & Ho & Hi & Hc & Eq); try lia.
      assert (o = 0) by lia. subst o. exists i. split; auto. exists c. split; auto.
      split; [lia|f_equal; lia].
Qed.

Lemma plane_step : forall src R m body D0 DB S0 SB N d,
  0 <= m -> 0 <= R <= DB ->
  (forall y d, 0 <= y < m -> zlen d = N -> exists d', body y d = Ok d' /\
     step (fun j v => exists q, 0 <= q < R /\ j = D0 + y * DB + q /\ v = geti src (S0 + y * SB + q)) d d') ->
  0 <= D0 -> zlen d = N ->
  exists d', loop 0 m body d = Ok d' /\
    step (fun j v => exists y q, 0 <= y < m /\ 0 <= q < R /\ j = D0 + y * DB + q /\ v = geti src (S0 + y * SB + q)) d d'.
Proof.
  intros src R m body D0 DB S0 SB N d Hm HR Hb HD Hd.
  destruct (step_loop (fun y j v => exists q, 0 <= q < R /\ j = D0 + y * DB + q /\ v = geti src (S0 + y * SB + q))
              N body 0 m d Hd Hb) as [d' [E H]].
  - intros y y' j v v' Hy Hy' (q & Hq & -> & _) (q' & Hq' & E & _).
    destruct (radix2 DB y q y' q'); lia.
  - intros y j v Hy (q & Hq & -> & _). assert (0 <= y * DB) by (apply Z.mul_nonneg_nonneg; lia). lia.
  - exists d'. split; auto. eapply step_ext; [exact H|]. intros j v. split.
    + intros (y & Hy & q & Hq). exists y, q. tauto.
    + intros (y & q & Hy & Hq). exists y. split; [tauto|]. exists q. tauto.
Qed.

Lemma box_step : forall src R m nz body D0 DB DS SB SS S0 N d,
  0 <= D0 -> 0 <= m -> 0 <= R <= DB -> m * DB <= DS ->
  (forall z d, 0 <= z < nz -> zlen d = N -> exists d', body z d = Ok d' /\
     step (fun j v => exists y q, 0 <= y < m /\ 0 <= q < R /\
         j = D0 + z * DS + y * DB + q /\ v = geti src (S0 + z * SS + y * SB + q)) d d') ->
  zlen d = N ->
  exists d', loop 0 nz body d = Ok d' /\
    step (fun j v => exists z y q, 0 <= z < nz /\ 0 <= y < m /\ 0 <= q < R /\
         j = D0 + z * DS + y * DB + q /\ v = geti src (S0 + z * SS + y * SB + q)) d d'.
Proof.
  intros src R m nz body D0 DB DS SB SS S0 N d HD0 Hm HR HS Hb Hd.
  destruct (step_loop (fun z j v => exists y q, 0 <= y < m /\ 0 <= q < R /\
              j = D0 + z * DS + y * DB + q /\ v = geti src (S0 + z * SS + y * SB + q))
              N body 0 nz d Hd Hb) as [d' [E H]].
  - intros z z' j v v' Hz Hz' (y & q & Hy & Hq & -> & _) (y' & q' & Hy' & Hq' & E & _).
    assert (B1 : 0 <= y * DB + q < m * DB) by (apply lin_bound; lia).
    assert (B2 : 0 <= y' * DB + q' < m * DB) by (apply lin_bound; lia).
    destruct (radix2 DS z (y * DB + q) z' (y' * DB + q')); lia.
  - intros z j v Hz (y & q & Hy & Hq & -> & _).
    assert (B1 : 0 <= y * DB + q < m * DB) by (apply lin_bound; lia).
    assert (0 <= z * DS) by (apply Z.mul_nonneg_nonneg; lia). lia.
  - exists d'. split; auto. eapply step_ext; [exact H|]. intros j v. split.
    + intros (z & Hz & y & q & Hq). exists z, y, q. tauto.
    + intros (z & y & q & Hz & Hq). exists z. split; [tauto|]. exists y, q. tauto.
Qed.

(** ** The buffer read or written *)

(** does the origin setting ask for the other orientation? *)
Definition wants_flip (om : option Z) (im : img) : bool :=
  match om with Some m => negb (m =? Origin im) | None => false end.

Definition row_of (fl : bool) (im : img) (y : Z) : Z := if fl then Height im - 1 - y else y.

Lemma img_ok_facts : forall im buf, img_ok im buf ->
  let P := Bpp im * Bpc im in
  0 < P <= 2040 /\ P <= Bps im /\ Bps im <= SizeOfPlane im /\ SizeOfPlane im <= SizeOfData im.
Proof.
  intros im buf (HD & HW & HH & HDp & Hbpp & Hbpc & Hbps & Hpl & Hsz & H32 & Hlen) P.
  assert (HP : 0 < P <= 2040).
  { unfold P. split; [apply Z.mul_pos_pos; lia|].
    assert (Bpp im * Bpc im <= 255 * 8) by (apply Z.mul_le_mono_nonneg; lia). lia. }
  split; auto.
  assert (HB : 1 * P <= Width im * P) by (apply Z.mul_le_mono_nonneg_r; lia). fold P in Hbps.
  split; [lia|].
  assert (HB2 : Bps im * 1 <= Bps im * Height im) by (apply Z.mul_le_mono_nonneg_l; lia).
  split; [lia|].
  assert (HB3 : SizeOfPlane im * 1 <= SizeOfPlane im * Depth im) by (apply Z.mul_le_mono_nonneg_l; lia).
  lia.
Qed.

Lemma origin_data_spec : forall alloc om im buf, img_ok im buf -> allocator_ok alloc ->
  (wants_flip om im = true -> alloc (SizeOfData im) <> None) ->
  exists src, iOriginData alloc om im = Ok (Some (src, wants_flip om im)) /\ zlen src = SizeOfData im /\
    forall z y q, 0 <= z < Depth im -> 0 <= y < Height im -> 0 <= q < Bps im ->
      geti src (z * SizeOfPlane im + y * Bps im + q) =
      geti buf (z * SizeOfPlane im + row_of (wants_flip om im) im y * Bps im + q).
Proof.
  intros alloc om im buf Hok Ha Hal. assert (Hok' := Hok).
  destruct Hok' as (HD & HW & HH & HDp & Hbpp & Hbpc & Hbps & Hpl & Hsz & H32 & Hlen).
  destruct (img_ok_facts im buf Hok) as (HP & HPB & HBS & HSD).
  unfold iOriginData, wants_flip, row_of in *. rewrite HD.
  assert (Hown : exists src, Ok (Some (buf, false)) = Ok (Some (src, false)) /\ zlen src = SizeOfData im /\
    forall z y q, 0 <= z < Depth im -> 0 <= y < Height im -> 0 <= q < Bps im ->
      geti src (z * SizeOfPlane im + y * Bps im + q) = geti buf (z * SizeOfPlane im + y * Bps im + q)).
  { exists buf. auto. }
  destruct om as [m|]; [|exact Hown].
  destruct (m =? Origin im) eqn:Em; cbn [negb]; [exact Hown|].
  specialize (Hal eq_refl). destruct (alloc (SizeOfData im)) as [data|] eqn:Ea; [|congruence].
  assert (Hsz' : SizeOfData im = Depth im * (Height im * Bps im)) by (rewrite Hsz, Hpl; ring).
  unfold iGetFlipped. rewrite HD.
  destruct (flip_new_buffer_spec alloc buf (Depth im) (Height im) (Bps im) data) as [r [Er [Lr Ar]]];
    try lia; try congruence.
  { rewrite <- Hsz'. apply (Ha _ _ Ea). }
  rewrite Er. cbn [bind]. exists r. split; auto. split; [lia|].
  intros z y q Hz Hy Hq. specialize (Ar z y q Hz Hy Hq).
  replace (Height im * Bps im) with (SizeOfPlane im) in Ar by (rewrite Hpl; ring). exact Ar.
Qed.

Lemma xloop_eq : forall S n P (body : Z -> S -> res S) s, 0 <= n -> 0 < P -> n * P < 4294967296 ->
  xloop (n * P) P body s = loop 0 n (fun i => body (i * P)) s.
Proof.
  intros S n P body s Hn HP H. unfold xloop. destruct (n * P =? 0) eqn:E.
  - assert (n = 0) by (destruct (Z.eq_dec n 0); auto; assert (0 < n * P) by (apply Z.mul_pos_pos; lia); lia).
    subst. reflexivity.
  - replace (P =? 0) with false by lia.
    replace ((n * P + P - 1) / P) with n.
    + replace (n * P <? 4294967296) with true by lia. reflexivity.
    + apply (Z.div_unique_pos _ _ _ (P - 1)); lia.
Qed.

(** clipped extents *)
Definition ext (W XOff Width : Z) : Z := Z.min Width (W - XOff).

Lemma clip_ext : forall H YOff Height, 0 <= YOff <= H -> 0 <= Height -> YOff + Height < 4294967296 ->
  clip H YOff Height = ext H YOff Height.
Proof.
  intros H YOff Height H1 H2 H3. unfold clip, ext. rewrite (u32_small (YOff + Height)) by lia.
  destruct (H <? YOff + Height) eqn:E; [rewrite u32_small by lia|]; lia.
Qed.

Lemma clip_bps_ext : forall W XOff Width P, 0 <= XOff <= W -> 0 <= Width -> XOff + Width < 4294967296 ->
  0 < P -> W * P < 4294967296 ->
  clip_bps W XOff Width P = ext W XOff Width * P /\ 0 <= ext W XOff Width * P <= W * P.
Proof.
  intros W XOff Width P H1 H2 H3 HP H4. unfold clip_bps, ext. rewrite (u32_small (XOff + Width)) by lia.
  assert (HB : 0 <= Z.min Width (W - XOff) * P <= W * P) by (apply mul_bound; lia).
  split; [|exact HB].
  destruct (W <? XOff + Width) eqn:E.
  - replace (Z.min Width (W - XOff)) with (W - XOff) in * by lia.
    assert (W <= W * P) by (rewrite <- (Z.mul_1_r W) at 1; apply Z.mul_le_mono_nonneg_l; lia).
    rewrite (u32_small (W - XOff)) by lia. rewrite u32_small by lia. reflexivity.
  - replace (Z.min Width (W - XOff)) with Width in * by lia. rewrite u32_small by lia. reflexivity.
Qed.

Lemma le_mul_l : forall a b, 0 <= a -> 1 <= b -> a <= a * b.
Proof. intros. rewrite <- (Z.mul_1_r a) at 1. apply Z.mul_le_mono_nonneg_l; lia. Qed.

Lemma ext_axis : forall Wi o w x, 0 <= x < ext Wi o w -> x + o < Wi /\ x < w.
Proof. intros. unfold ext in *. lia. Qed.

Section Copy.
  Variables (alloc : allocator) (om : option Z) (im : img) (buf : list Z).
  Hypothesis Hok : img_ok im buf.
  Hypothesis Ha : allocator_ok alloc.
  Hypothesis Hal : wants_flip om im = true -> alloc (SizeOfData im) <> None.
  Variables (XOff YOff ZOff W H D : Z).
  Hypothesis HX : 0 <= XOff <= Width im.
  Hypothesis HY : 0 <= YOff <= Height im.
  Hypothesis HZ : 0 <= ZOff <= Depth im.
  Hypothesis HW : 1 <= W.
  Hypothesis HH : 1 <= H.
  Hypothesis HD : 1 <= D.
  Let P := Bpp im * Bpc im.
  Hypothesis Hsize : W * H * D * P < 4294967296.
  Hypothesis HXW : XOff + W < 4294967296.
  Hypothesis HYH : YOff + H < 4294967296.
  Hypothesis HZD : ZOff + D < 4294967296.
  Let nx := ext (Width im) XOff W.
  Let ny := ext (Height im) YOff H.
  Let nz := ext (Depth im) ZOff D.
  Variable dst : list Z.
  Hypothesis Hdst : W * H * D * P <= zlen dst.

  Lemma copy_sizes : 0 < W * P /\ W * P <= W * P * H /\ W * P * H <= W * P * H * D /\
    W * P * H * D = W * H * D * P.
  Proof.
    destruct (img_ok_facts im buf Hok) as (HP & _). fold P in HP.
    assert (0 < W * P) by (apply Z.mul_pos_pos; lia).
    assert (W * P <= W * P * H) by (apply le_mul_l; lia).
    assert (W * P * H <= W * P * H * D) by (apply le_mul_l; lia).
    repeat split; auto. ring.
  Qed.

  Lemma src_bound : forall x y z q, 0 <= x <= nx * P -> 0 <= q -> q + x <= nx * P ->
    0 <= y < ny -> 0 <= z < nz ->
    0 <= (z + ZOff) * SizeOfPlane im + (y + YOff) * Bps im + x + XOff * P + q <= SizeOfData im.
  Proof.
    intros x y z q Hx Hq Hxq Hy Hz.
    destruct Hok as (_ & _ & _ & _ & _ & _ & Hbps & Hpl & Hsz & H32 & Hlen).
    destruct (img_ok_facts im buf Hok) as (HP & HPB & HBS & HSD). fold P in HP, HPB, Hbps.
    unfold nx, ny, nz, ext in *.
    assert (A1 : 0 <= XOff * P) by (apply Z.mul_nonneg_nonneg; lia).
    assert (A2 : XOff * P + Z.min W (Width im - XOff) * P <= Bps im).
    { rewrite Hbps, <- Z.mul_add_distr_r. apply Z.mul_le_mono_nonneg_r; lia. }
    assert (A3 : 0 <= (y + YOff) * Bps im) by (apply Z.mul_nonneg_nonneg; lia).
    assert (A4 : (y + YOff) * Bps im + Bps im <= SizeOfPlane im).
    { rewrite Hpl. replace ((y + YOff) * Bps im + Bps im) with (Bps im * (y + YOff + 1)) by ring.
      apply Z.mul_le_mono_nonneg_l; lia. }
    assert (A5 : 0 <= (z + ZOff) * SizeOfPlane im) by (apply Z.mul_nonneg_nonneg; lia).
    assert (A6 : (z + ZOff) * SizeOfPlane im + SizeOfPlane im <= SizeOfData im).
    { rewrite Hsz. replace ((z + ZOff) * SizeOfPlane im + SizeOfPlane im) with (SizeOfPlane im * (z + ZOff + 1)) by ring.
      apply Z.mul_le_mono_nonneg_l; lia. }
    lia.
  Qed.

  Lemma copy2D : ZOff = 0 -> exists src dst', 
    zlen src = SizeOfData im /\
    (forall z y q, 0 <= z < Depth im -> 0 <= y < Height im -> 0 <= q < Bps im ->
      geti src (z * SizeOfPlane im + y * Bps im + q) =
      geti buf (z * SizeOfPlane im + row_of (wants_flip om im) im y * Bps im + q)) /\
    ilCopyPixels2D alloc om im XOff YOff W H dst = Ok (Some dst') /\
    step (fun j v => exists y q, 0 <= y < ny /\ 0 <= q < nx * P /\ j = 0 + y * (W * P) + q /\
            v = geti src (YOff * Bps im + XOff * P + y * Bps im + q)) dst dst'.
  Proof.
    intros HZ0. assert (Hok' := Hok).
    destruct Hok' as (_ & HW1 & HH1 & HD1 & _ & _ & Hbps & Hpl & Hsz & H32 & Hlen).
    destruct (img_ok_facts im buf Hok) as (HP & HPB & HBS & HSD). fold P in HP, HPB, Hbps.
    destruct copy_sizes as (S1 & S2 & S3 & S4).
    destruct (origin_data_spec alloc om im buf Hok Ha Hal) as [src [Es [Ls As]]].
    exists src.
    unfold ilCopyPixels2D. rewrite Es. cbn [bind].
    fold P. destruct (clip_bps_ext (Width im) XOff W P) as [Ec Hc]; try lia.
    rewrite Ec, clip_ext by lia. fold nx ny. fold nx in Hc.
    assert (XOff * P <= Width im * P) by (apply Z.mul_le_mono_nonneg_r; lia).
    assert (0 <= XOff * P) by (apply Z.mul_nonneg_nonneg; lia).
    rewrite (u32_small (XOff * P)) by lia. rewrite (u32_small (W * P)) by lia.
    assert (HnxW : nx * P <= W * P) by (apply Z.mul_le_mono_nonneg_r; unfold nx, ext; lia).
    destruct (plane_step src (nx * P) ny
       (fun y => xloop (nx * P) P (fun x => loop 0 P (fun c dst =>
          let! v := rd src (u32 (u32 (y + YOff) * Bps im + x + XOff * P + c)) in
          wr dst (u32 (y * (W * P) + x + c)) v))) 0 (W * P) (YOff * Bps im + XOff * P) (Bps im) (zlen dst) dst)
      as [dst' [E HS]]; auto; try lia.
    - unfold ny, ext; lia.
    - intros y d Hy Hd. rewrite xloop_eq by (unfold nx, ext in *; lia).
      assert (B0 := src_bound). specialize (B0 0 y 0 0).
      assert (HyW : 0 <= y * (W * P) /\ y * (W * P) + W * P <= W * P * H).
      { split; [apply Z.mul_nonneg_nonneg; lia|].
        replace (y * (W * P) + W * P) with ((W * P) * (y + 1)) by ring. apply Z.mul_le_mono_nonneg_l; [lia|].
        unfold ny, ext in Hy; lia. }
      apply (row_step src P nx _ (0 + y * (W * P)) (YOff * Bps im + XOff * P + y * Bps im) (zlen dst)); auto; try lia.
      + intros i c d0 Hi Hc0.
        assert (Hlb := lin_bound P nx i c Hc0 Hi).
        assert (0 <= i * P) by (apply Z.mul_nonneg_nonneg; lia).
        assert (Hz : 0 <= 0 < nz) by (clear - HZ0 HD HD1; unfold nz, ext; lia).
        destruct (ext_axis (Height im) YOff H y Hy) as [Ay1 Ay2].
        assert (B' := fun h1 h2 h3 => src_bound (i * P) y 0 (c + 1) h1 h2 h3 Hy Hz).
        clearbody nx ny nz P.
        specialize (B' ltac:(lia) ltac:(lia) ltac:(lia)).
        rewrite HZ0 in B'.
        assert (HH2 : Height im < 4294967296).
        { clear - HH1 HP HPB Hpl HSD H32. assert (Height im <= Height im * Bps im) by (apply le_mul_l; lia). lia. }
        rewrite (u32_small (y + YOff)) by (clear - Hy HY Ay1 HH2; lia).
        replace (YOff * Bps im + XOff * P + y * Bps im + i * P + c) with ((y + YOff) * Bps im + i * P + XOff * P + c) by ring.
        rewrite (u32_small ((y + YOff) * Bps im + i * P + XOff * P + c)) by lia.
        rewrite (u32_small (y * (W * P) + i * P + c)) by lia. f_equal.
      + assert (B := src_bound (nx * P) y 0 0 ltac:(lia) ltac:(lia) ltac:(lia) Hy ltac:(unfold nz, ext; lia)).
        rewrite HZ0 in B. lia.
    - rewrite E. cbn [bind]. exists dst'. split; [exact Ls|]. split; [exact As|]. split; [reflexivity|]. exact HS.
  Qed.

  Lemma copy1D : YOff = 0 -> ZOff = 0 -> H = 1 -> exists src dst',
    zlen src = SizeOfData im /\
    (forall z y q, 0 <= z < Depth im -> 0 <= y < Height im -> 0 <= q < Bps im ->
      geti src (z * SizeOfPlane im + y * Bps im + q) =
      geti buf (z * SizeOfPlane im + row_of (wants_flip om im) im y * Bps im + q)) /\
    ilCopyPixels1D alloc om im XOff W dst = Ok (Some dst') /\
    step (fun j v => exists q, 0 <= q < nx * P /\ j = 0 + q /\
            v = geti src (XOff * P + q)) dst dst'.
  Proof.
    intros HY0 HZ0 HH11. assert (Hok' := Hok).
    destruct Hok' as (_ & HW1 & HH1 & HD1 & _ & _ & Hbps & Hpl & Hsz & H32 & Hlen).
    destruct (img_ok_facts im buf Hok) as (HP & HPB & HBS & HSD). fold P in HP, HPB, Hbps.
    destruct copy_sizes as (S1 & S2 & S3 & S4).
    destruct (origin_data_spec alloc om im buf Hok Ha Hal) as [src [Es [Ls As]]].
    exists src.
    unfold ilCopyPixels1D. rewrite Es. cbn [bind].
    fold P. destruct (clip_bps_ext (Width im) XOff W P) as [Ec Hc]; try lia.
    rewrite Ec. fold nx. fold nx in Hc.
    assert (XOff * P <= Width im * P) by (apply Z.mul_le_mono_nonneg_r; lia).
    assert (0 <= XOff * P) by (apply Z.mul_nonneg_nonneg; lia).
    rewrite (u32_small (XOff * P)) by lia.
    assert (HnxW : nx * P <= W * P) by (apply Z.mul_le_mono_nonneg_r; unfold nx, ext; lia).
    rewrite xloop_eq by (unfold nx, ext in *; lia).
    destruct (row_step src P nx (fun i c dst =>
          let! v := rd src (u32 (u32 (i * P + XOff * P) + c)) in
          wr dst (u32 (i * P + c)) v) 0 (XOff * P) (zlen dst) dst) as [dst' [E HS]]; auto; try lia.
    - intros i c d0 Hi Hc0.
      assert (Hlb := lin_bound P nx i c Hc0 Hi).
      assert (0 <= i * P) by (apply Z.mul_nonneg_nonneg; lia).
      assert (B := src_bound (i * P) 0 0 (c + 1) ltac:(lia) ltac:(lia) ltac:(lia) ltac:(unfold ny, ext; lia) ltac:(unfold nz, ext; lia)).
      rewrite HZ0, HY0 in B.
      rewrite (u32_small (i * P + XOff * P)) by lia.
      rewrite (u32_small (i * P + XOff * P + c)) by lia.
      rewrite (u32_small (i * P + c)) by lia. rewrite (Z.add_comm (i * P) (XOff * P)). reflexivity.
    - assert (B := src_bound (nx * P) 0 0 0 ltac:(lia) ltac:(lia) ltac:(lia) ltac:(unfold ny, ext; lia) ltac:(unfold nz, ext; lia)).
      rewrite HZ0, HY0 in B. lia.
    - rewrite E. cbn [bind]. exists dst'. split; [exact Ls|]. split; [exact As|]. split; [reflexivity|]. exact HS.
  Qed.

  Lemma copy3D : XOff + W <= Width im -> YOff + H <= Height im -> exists src dst',
    zlen src = SizeOfData im /\
    (forall z y q, 0 <= z < Depth im -> 0 <= y < Height im -> 0 <= q < Bps im ->
      geti src (z * SizeOfPlane im + y * Bps im + q) =
      geti buf (z * SizeOfPlane im + row_of (wants_flip om im) im y * Bps im + q)) /\
    ilCopyPixels3D alloc om im XOff YOff ZOff W H D dst = Ok (Some dst') /\
    step (fun j v => exists z y q, 0 <= z < nz /\ 0 <= y < H /\ 0 <= q < W * P /\
            j = 0 + z * (W * P * H) + y * (W * P) + q /\
            v = geti src (ZOff * SizeOfPlane im + YOff * Bps im + XOff * P + z * SizeOfPlane im + y * Bps im + q)) dst dst'.
  Proof.
    intros HXin HYin. assert (Hok' := Hok).
    destruct Hok' as (_ & HW1 & HH1 & HD1 & _ & _ & Hbps & Hpl & Hsz & H32 & Hlen).
    destruct (img_ok_facts im buf Hok) as (HP & HPB & HBS & HSD). fold P in HP, HPB, Hbps.
    destruct copy_sizes as (S1 & S2 & S3 & S4).
    destruct (origin_data_spec alloc om im buf Hok Ha Hal) as [src [Es [Ls As]]].
    exists src.
    unfold ilCopyPixels3D. rewrite Es. cbn [bind].
    fold P. destruct (clip_bps_ext (Width im) XOff W P) as [Ec Hc]; try lia.
    rewrite Ec, !clip_ext by lia. fold nx ny nz. fold nx in Hc.
    assert (Hnx : nx = W) by (unfold nx, ext; lia).
    assert (Hny : ny = H) by (unfold ny, ext; lia).
    assert (XOff * P <= Width im * P) by (apply Z.mul_le_mono_nonneg_r; lia).
    assert (0 <= XOff * P) by (apply Z.mul_nonneg_nonneg; lia).
    rewrite (u32_small (XOff * P)) by lia. rewrite (u32_small (W * P)) by lia.
    rewrite Hnx, Hny. rewrite (u32_small (W * P * H)) by lia.
    destruct (box_step src (W * P) H nz
       (fun z => loop 0 H (fun y => xloop (W * P) P (fun x => loop 0 P (fun c dst =>
          let! v := rd src (u32 (u32 (z + ZOff) * SizeOfPlane im + u32 (y + YOff) * Bps im + x + XOff * P + c)) in
          wr dst (u32 (z * (W * P * H) + y * (W * P) + x + c)) v))))
       0 (W * P) (W * P * H) (Bps im) (SizeOfPlane im) (ZOff * SizeOfPlane im + YOff * Bps im + XOff * P) (zlen dst) dst)
      as [dst' [E HS]]; auto; try lia.
    - intros z d Hz Hd.
      assert (HzW : 0 <= z * (W * P * H) /\ z * (W * P * H) + W * P * H <= W * P * H * D).
      { split; [apply Z.mul_nonneg_nonneg; lia|].
        replace (z * (W * P * H) + W * P * H) with ((W * P * H) * (z + 1)) by ring.
        apply Z.mul_le_mono_nonneg_l; [lia|]. unfold nz, ext in Hz; lia. }
      replace (ZOff * SizeOfPlane im + YOff * Bps im + XOff * P) with (ZOff * SizeOfPlane im + (YOff * Bps im + XOff * P)) by ring.
      apply (plane_step src (W * P) H _ (0 + z * (W * P * H)) (W * P) (ZOff * SizeOfPlane im + (YOff * Bps im + XOff * P) + z * SizeOfPlane im) (Bps im) (zlen dst)); auto; try lia.
      intros y d1 Hy Hd1. rewrite xloop_eq by lia.
      assert (HyW : 0 <= y * (W * P) /\ y * (W * P) + W * P <= W * P * H).
      { split; [apply Z.mul_nonneg_nonneg; lia|].
        replace (y * (W * P) + W * P) with ((W * P) * (y + 1)) by ring. apply Z.mul_le_mono_nonneg_l; lia. }
      assert (Hy' : 0 <= y < ny) by lia.
      apply (row_step src P W _ (0 + z * (W * P * H) + y * (W * P))
               (ZOff * SizeOfPlane im + (YOff * Bps im + XOff * P) + z * SizeOfPlane im + y * Bps im) (zlen dst)); auto; try lia.
      + intros i c d0 Hi Hc0.
        assert (Hlb := lin_bound P W i c Hc0 Hi).
        assert (0 <= i * P) by (apply Z.mul_nonneg_nonneg; lia).
        assert (Ei : nx * P = W * P) by (rewrite Hnx; reflexivity).
        destruct (ext_axis (Height im) YOff H y Hy') as [Ay1 Ay2].
        destruct (ext_axis (Depth im) ZOff D z Hz) as [Az1 Az2].
        assert (B' := fun h1 h2 h3 => src_bound (i * P) y z (c + 1) h1 h2 h3 Hy' Hz).
        clearbody nx ny nz P.
        specialize (B' ltac:(lia) ltac:(lia) ltac:(lia)).
        assert (HH2 : Height im < 4294967296).
        { clear - HH1 HP HPB Hpl HSD H32. assert (Height im <= Height im * Bps im) by (apply le_mul_l; lia). lia. }
        assert (HD2 : Depth im < 4294967296).
        { clear - HD1 HP HPB HBS Hsz HSD H32. assert (Depth im <= Depth im * SizeOfPlane im) by (apply le_mul_l; lia). lia. }
        rewrite (u32_small (y + YOff)) by (clear - Hy HY Ay1 HH2; lia).
        rewrite (u32_small (z + ZOff)) by (clear - Hz HZ Az1 HD2; lia).
        replace (ZOff * SizeOfPlane im + (YOff * Bps im + XOff * P) + z * SizeOfPlane im + y * Bps im + i * P + c)
          with ((z + ZOff) * SizeOfPlane im + (y + YOff) * Bps im + i * P + XOff * P + c) by ring.
        rewrite (u32_small ((z + ZOff) * SizeOfPlane im + (y + YOff) * Bps im + i * P + XOff * P + c)) by lia.
        rewrite (u32_small (z * (W * P * H) + y * (W * P) + i * P + c)) by lia. reflexivity.
      + assert (Ei : nx * P = W * P) by (rewrite Hnx; reflexivity).
        assert (B := src_bound (nx * P) y z 0 ltac:(lia) ltac:(lia) ltac:(lia) Hy' Hz). lia.
    - rewrite E. cbn [bind]. exists dst'. split; [exact Ls|]. split; [exact As|]. split; [reflexivity|]. exact HS.
  Qed.
End Copy.

(** ** ilSetPixels *)

(** offset after moving a negative one to 0, and the number of source pixels skipped *)
Definition off0 (o : Z) : Z := Z.max 0 o.
Definition skip0 (o : Z) : Z := Z.max 0 (- o).
(** number of pixels the code writes along an axis *)
Definition nset (W o Width : Z) : Z := Z.max 0 (Z.min Width (W - off0 o) - skip0 o).

Lemma skip_of_ok : forall o, -2147483648 < o -> skip_of o = Ok (skip0 o, off0 o).
Proof.
  intros o Ho. unfold skip_of, skip0, off0. replace (o =? -2147483648) with false by lia.
  destruct (o <? 0) eqn:E; do 2 f_equal; lia.
Qed.

Lemma clip_signed_nset : forall W o Width, 1 <= W < 2147483648 -> 0 <= Width < 2147483648 ->
  -2147483648 < o < 2147483648 ->
  Z.max 0 (clip_signed W (off0 o) Width (skip0 o)) = nset W o Width.
Proof.
  intros W o Width HW Hw Ho. unfold clip_signed, nset, off0, skip0.
  rewrite (u32_small (Z.max 0 o + Width)) by lia.
  destruct (W <? Z.max 0 o + Width) eqn:E.
  - rewrite (i32_small (W - Z.max 0 o)) by lia.
    rewrite i32_small by lia. f_equal. f_equal. lia.
  - rewrite (i32_small Width) by lia. rewrite i32_small by lia. f_equal. f_equal. lia.
Qed.

(** one coordinate: destination and source position are inside *)
Lemma axis : forall Wi o w x, 1 <= Wi -> 0 <= x < nset Wi o w ->
  0 <= x + off0 o < Wi /\ 0 <= x + skip0 o < w.
Proof. intros Wi o w x H1 H2. unfold nset, off0, skip0 in *. lia. Qed.

Section SetP.
  Variables (alloc : allocator) (om : option Z) (im : img) (buf : list Z).
  Hypothesis Hok : img_ok im buf.
  Hypothesis Ha : allocator_ok alloc.
  Hypothesis Hal : wants_flip om im = true -> alloc (SizeOfData im) <> None.
  Variables (XOff YOff ZOff W H D : Z).
  Hypothesis HX : -2147483648 < XOff < 2147483648.
  Hypothesis HY : -2147483648 < YOff < 2147483648.
  Hypothesis HZ : -2147483648 < ZOff < 2147483648.
  Hypothesis HWi : Width im < 2147483648.
  Hypothesis HHi : Height im < 2147483648.
  Hypothesis HDi : Depth im < 2147483648.
  Hypothesis HW : 1 <= W < 2147483648.
  Hypothesis HH : 1 <= H < 2147483648.
  Hypothesis HD : 1 <= D < 2147483648.
  Let P := Bpp im * Bpc im.
  Hypothesis Hsize : W * H * D * P < 4294967296.
  Let nx := nset (Width im) XOff W.
  Let ny := nset (Height im) YOff H.
  Let nz := nset (Depth im) ZOff D.
  Variable data : list Z.
  Hypothesis Hdata : W * H * D * P <= zlen data.

  Lemma set_sizes : 0 < W * P /\ W * P <= W * P * H /\ W * P * H <= W * P * H * D /\
    W * P * H * D = W * H * D * P.
  Proof.
    destruct (img_ok_facts im buf Hok) as (HP & _). fold P in HP.
    assert (0 < W * P) by (apply Z.mul_pos_pos; lia).
    assert (W * P <= W * P * H) by (apply le_mul_l; lia).
    assert (W * P * H <= W * P * H * D) by (apply le_mul_l; lia).
    repeat split; auto. ring.
  Qed.

  Lemma set_dst_bound : forall x y z c, 0 <= x < nx -> 0 <= c < P -> 0 <= y < ny -> 0 <= z < nz ->
    0 <= (z + off0 ZOff) * SizeOfPlane im /\
    0 <= (y + off0 YOff) * Bps im /\ 0 <= (x + off0 XOff) * P /\
    (z + off0 ZOff) * SizeOfPlane im + (y + off0 YOff) * Bps im + (x + off0 XOff) * P + c < SizeOfData im.
  Proof.
    intros x y z c Hx Hc Hy Hz.
    destruct Hok as (_ & HW1 & HH1 & HD1 & _ & _ & Hbps & Hpl & Hsz & H32 & Hlen). fold P in Hbps.
    destruct (axis (Width im) XOff W x HW1 Hx) as [Ax _].
    destruct (axis (Height im) YOff H y HH1 Hy) as [Ay _].
    destruct (axis (Depth im) ZOff D z HD1 Hz) as [Az _].
    assert (B1 := lin_bound P (Width im) _ c Hc Ax). rewrite <- Hbps in B1.
    assert (B2 := lin_bound (Bps im) (Height im) _ _ B1 Ay).
    rewrite (Z.mul_comm (Height im)), <- Hpl in B2.
    assert (B3 := lin_bound (SizeOfPlane im) (Depth im) _ _ B2 Az).
    rewrite (Z.mul_comm (Depth im)), <- Hsz in B3.
    repeat split; try (apply Z.mul_nonneg_nonneg; lia). lia.
  Qed.

  Lemma set_src_bound : forall x y z c, 0 <= x < nx -> 0 <= c < P -> 0 <= y < ny -> 0 <= z < nz ->
    0 <= (z + skip0 ZOff) * (W * P * H) /\
    0 <= (y + skip0 YOff) * (W * P) /\ 0 <= (x + skip0 XOff) * P /\
    (z + skip0 ZOff) * (W * P * H) + (y + skip0 YOff) * (W * P) + (x + skip0 XOff) * P + c < W * H * D * P.
  Proof.
    intros x y z c Hx Hc Hy Hz.
    destruct Hok as (_ & HW1 & HH1 & HD1 & _ & _ & Hbps & Hpl & Hsz & H32 & Hlen). fold P in Hbps.
    destruct (axis (Width im) XOff W x HW1 Hx) as [_ Ax].
    destruct (axis (Height im) YOff H y HH1 Hy) as [_ Ay].
    destruct (axis (Depth im) ZOff D z HD1 Hz) as [_ Az].
    assert (B1 := lin_bound P W _ c Hc Ax).
    assert (B2 := lin_bound (W * P) H _ _ B1 Ay). rewrite (Z.mul_comm H) in B2.
    assert (B3 := lin_bound (W * P * H) D _ _ B2 Az).
    destruct set_sizes as (S1 & S2 & S3 & S4).
    repeat split; try (apply Z.mul_nonneg_nonneg; lia). lia.
  Qed.

  Definition own_or_flipped (dst : list Z) : Prop :=
    zlen dst = SizeOfData im /\
    forall z y q, 0 <= z < Depth im -> 0 <= y < Height im -> 0 <= q < Bps im ->
      geti dst (z * SizeOfPlane im + y * Bps im + q) =
      geti buf (z * SizeOfPlane im + row_of (wants_flip om im) im y * Bps im + q).

  Lemma set_result_eq : forall fl d, set_result im fl d = with_Data im (Some d).
  Proof. intros fl d. unfold set_result. destruct Hok as [-> _]. reflexivity. Qed.

  (** innermost row, common to the three functions: [base]/[sbase] are row starts *)
  Lemma set_row : forall y z d (bodyf : Z -> Z -> list Z -> res (list Z)),
    0 <= y < ny -> 0 <= z < nz -> zlen d = SizeOfData im ->
    (forall x c d, 0 <= x < nx -> 0 <= c < P -> bodyf x c d =
       (let! v := rd data ((z + skip0 ZOff) * (W * P * H) + (y + skip0 YOff) * (W * P) + (x + skip0 XOff) * P + c) in
        wr d ((z + off0 ZOff) * SizeOfPlane im + (y + off0 YOff) * Bps im + (x + off0 XOff) * P + c) v)) ->
    exists d', loop 0 nx (fun x => loop 0 P (bodyf x)) d = Ok d' /\
      step (fun j v => exists q, 0 <= q < nx * P /\
        j = (z + off0 ZOff) * SizeOfPlane im + (y + off0 YOff) * Bps im + off0 XOff * P + q /\
        v = geti data ((z + skip0 ZOff) * (W * P * H) + (y + skip0 YOff) * (W * P) + skip0 XOff * P + q)) d d'.
  Proof.
    intros y z d bodyf Hy Hz Hd Hb.
    destruct (img_ok_facts im buf Hok) as (HP & HPB & HBS & HSD). fold P in HP, HPB.
    assert (Hnx : 0 <= nx) by (unfold nx, nset; lia).
    destruct (Z.eq_dec nx 0) as [E0|N0].
    { rewrite E0. exists d. split; [reflexivity|]. apply step_id. intros j v (q & Hq & _). lia. }
    assert (B1 := set_dst_bound 0 y z 0 ltac:(lia) ltac:(lia) Hy Hz).
    assert (B2 := set_dst_bound (nx - 1) y z (P - 1) ltac:(lia) ltac:(lia) Hy Hz).
    assert (B3 := set_src_bound 0 y z 0 ltac:(lia) ltac:(lia) Hy Hz).
    assert (B4 := set_src_bound (nx - 1) y z (P - 1) ltac:(lia) ltac:(lia) Hy Hz).
    apply (row_step data P nx bodyf _ _ (SizeOfData im)); auto; try lia.
    intros i c d0 Hi Hc. rewrite Hb by lia. f_equal; [f_equal; ring|].
    (* same continuation at an equal offset *)
    replace ((z + off0 ZOff) * SizeOfPlane im + (y + off0 YOff) * Bps im + (i + off0 XOff) * P + c)
      with ((z + off0 ZOff) * SizeOfPlane im + (y + off0 YOff) * Bps im + off0 XOff * P + i * P + c) by ring.
    reflexivity.
  Qed.

  Lemma nx_fit : nx <= Width im.
  Proof. destruct Hok as (_ & HW1 & _). unfold nx, nset, off0, skip0. lia. Qed.
  Lemma ny_fit : ny <= Height im.
  Proof. destruct Hok as (_ & _ & HH1 & _). unfold ny, nset, off0, skip0. lia. Qed.

  Lemma u32_mul_add : forall a b, u32 (u32 a * b) = u32 (a * b).
  Proof. intros. unfold u32. rewrite Z.mul_mod_idemp_l; lia. Qed.

  Lemma set1D : off0 YOff = 0 -> skip0 YOff = 0 -> off0 ZOff = 0 -> skip0 ZOff = 0 -> exists dst dst',
    own_or_flipped dst /\
    ilSetPixels1D alloc om im XOff W data = Ok (Some (with_Data im (Some dst'))) /\
    step (fun j v => exists q, 0 <= q < nx * P /\ j = off0 XOff * P + q /\
            v = geti data (skip0 XOff * P + q)) dst dst'.
  Proof.
    intros E1 E2 E3 E4. assert (Hok' := Hok).
    destruct Hok' as (_ & HW1 & HH1 & HD1 & _ & _ & Hbps & Hpl & Hsz & H32 & Hlen). fold P in Hbps.
    destruct (origin_data_spec alloc om im buf Hok Ha Hal) as [dst [Es [Ls As]]].
    exists dst. unfold ilSetPixels1D. rewrite Es. cbn [bind]. rewrite skip_of_ok by lia. cbn [bind].
    rewrite loop_max, clip_signed_nset by lia. fold nx P.
    destruct (set_row 0 0 dst (fun x c dst =>
          let! v := rd data (u32 (u32 (x + skip0 XOff) * P + c)) in
          wr dst (u32 (u32 (x + off0 XOff) * P + c)) v)) as [d' [E HS]]; auto.
    - unfold ny, nset. lia.
    - unfold nz, nset. lia.
    - intros x c d Hx Hc.
      assert (Hy : 0 <= 0 < ny) by (unfold ny, nset; lia).
      assert (Hz : 0 <= 0 < nz) by (unfold nz, nset; lia).
      assert (B1 := set_dst_bound x 0 0 c Hx Hc Hy Hz). assert (B2 := set_src_bound x 0 0 c Hx Hc Hy Hz).
      rewrite E1, E3 in *. rewrite E2, E4 in *.
      destruct (axis (Width im) XOff W x HW1 Hx) as [Ax1 Ax2].
      rewrite (u32_small (x + skip0 XOff)), (u32_small (x + off0 XOff)) by lia.
      rewrite (u32_small ((x + skip0 XOff) * P + c)), (u32_small ((x + off0 XOff) * P + c)) by lia.
      f_equal.
    - cbv zeta in E. rewrite E. cbn [bind]. exists d'. split; [split; auto|]. split; [rewrite set_result_eq; reflexivity|].
      rewrite E1, E2, E3, E4 in HS. exact HS.
  Qed.

  Lemma set2D : off0 ZOff = 0 -> skip0 ZOff = 0 -> exists dst dst',
    own_or_flipped dst /\
    ilSetPixels2D alloc om im XOff YOff W H data = Ok (Some (with_Data im (Some dst'))) /\
    step (fun j v => exists y q, 0 <= y < ny /\ 0 <= q < nx * P /\
            j = off0 YOff * Bps im + off0 XOff * P + y * Bps im + q /\
            v = geti data (skip0 YOff * (W * P) + skip0 XOff * P + y * (W * P) + q)) dst dst'.
  Proof.
    intros E3 E4. assert (Hok' := Hok).
    destruct Hok' as (_ & HW1 & HH1 & HD1 & _ & _ & Hbps & Hpl & Hsz & H32 & Hlen). fold P in Hbps.
    destruct (img_ok_facts im buf Hok) as (HP & HPB & HBS & HSD). fold P in HP, HPB.
    destruct set_sizes as (S1 & S2 & S3 & S4).
    destruct (origin_data_spec alloc om im buf Hok Ha Hal) as [dst [Es [Ls As]]].
    exists dst. unfold ilSetPixels2D. rewrite Es. cbn [bind]. rewrite !skip_of_ok by lia. cbn [bind].
    rewrite loop_max. rewrite (clip_signed_nset (Height im)) by lia. fold ny P.
    rewrite (u32_small (W * P)) by lia.
    assert (Hfit : nx * P <= Bps im) by (rewrite Hbps; apply Z.mul_le_mono_nonneg_r; [lia|apply nx_fit]).
    assert (0 <= off0 XOff * P) by (apply Z.mul_nonneg_nonneg; unfold off0; lia).
    assert (0 <= off0 YOff * Bps im) by (apply Z.mul_nonneg_nonneg; unfold off0; lia).
    assert (Hnx0 : 0 <= nx * P) by (apply Z.mul_nonneg_nonneg; unfold nx, nset; lia).
    match goal with |- context [loop 0 ny ?b dst] => set (body := b) end.
    destruct (plane_step data (nx * P) ny body
       (off0 YOff * Bps im + off0 XOff * P) (Bps im) (skip0 YOff * (W * P) + skip0 XOff * P) (W * P) (SizeOfData im) dst)
      as [d' [E HS]]; auto; try lia.
    - unfold ny, nset. lia.
    - intros y d Hy Hd. unfold body. rewrite loop_max, clip_signed_nset by lia. fold nx.
      assert (Hz : 0 <= 0 < nz) by (unfold nz, nset; lia).
      match goal with |- exists d', loop 0 nx (fun x => loop 0 P (@?f x)) d = _ /\ _ =>
        destruct (set_row y 0 d f) as [d' [E HS]]; auto end.
      + intros x c d0 Hx Hc.
        assert (B1 := set_dst_bound x y 0 c Hx Hc Hy Hz). assert (B2 := set_src_bound x y 0 c Hx Hc Hy Hz).
        rewrite E3 in *. rewrite E4 in *.
        destruct (axis (Width im) XOff W x HW1 Hx) as [Ax1 Ax2].
        destruct (axis (Height im) YOff H y HH1 Hy) as [Ay1 Ay2].
        rewrite (u32_small (x + skip0 XOff)), (u32_small (x + off0 XOff)) by (clear - Ax1 Ax2 HWi HW; lia).
        rewrite (u32_small (y + skip0 YOff)), (u32_small (y + off0 YOff)) by (clear - Ay1 Ay2 HHi HH; lia).
        rewrite !u32_small by (clear - B1 B2 Hc Hsize H32; lia). f_equal.
      + exists d'. split; auto. eapply step_ext; [exact HS|]. intros j v. rewrite E3, E4.
        split; intros (q & Hq & -> & ->); exists q; repeat split; try lia; f_equal; ring.
    - rewrite E. cbn [bind]. exists d'. split; [split; auto|]. split; [rewrite set_result_eq; reflexivity|]. exact HS.
  Qed.

  Lemma set3D : exists dst dst',
    own_or_flipped dst /\
    ilSetPixels3D alloc om im XOff YOff ZOff W H D data = Ok (Some (with_Data im (Some dst'))) /\
    step (fun j v => exists z y q, 0 <= z < nz /\ 0 <= y < ny /\ 0 <= q < nx * P /\
            j = off0 ZOff * SizeOfPlane im + off0 YOff * Bps im + off0 XOff * P + z * SizeOfPlane im + y * Bps im + q /\
            v = geti data (skip0 ZOff * (W * P * H) + skip0 YOff * (W * P) + skip0 XOff * P + z * (W * P * H) + y * (W * P) + q)) dst dst'.
  Proof.
    assert (Hok' := Hok).
    destruct Hok' as (_ & HW1 & HH1 & HD1 & _ & _ & Hbps & Hpl & Hsz & H32 & Hlen). fold P in Hbps.
    destruct (img_ok_facts im buf Hok) as (HP & HPB & HBS & HSD). fold P in HP, HPB.
    destruct set_sizes as (S1 & S2 & S3 & S4).
    destruct (origin_data_spec alloc om im buf Hok Ha Hal) as [dst [Es [Ls As]]].
    exists dst. unfold ilSetPixels3D. rewrite Es. cbn [bind]. rewrite !skip_of_ok by lia. cbn [bind].
    rewrite loop_max. rewrite (clip_signed_nset (Depth im)) by lia. fold nz P.
    rewrite (u32_small (W * P)) by lia. rewrite (u32_small (W * P * H)) by lia.
    assert (Hfit : nx * P <= Bps im) by (rewrite Hbps; apply Z.mul_le_mono_nonneg_r; [lia|apply nx_fit]).
    assert (0 <= off0 XOff * P) by (apply Z.mul_nonneg_nonneg; unfold off0; lia).
    assert (0 <= off0 YOff * Bps im) by (apply Z.mul_nonneg_nonneg; unfold off0; lia).
    assert (0 <= off0 ZOff * SizeOfPlane im) by (apply Z.mul_nonneg_nonneg; unfold off0; lia).
    assert (Hnx0 : 0 <= nx * P) by (apply Z.mul_nonneg_nonneg; unfold nx, nset; lia).
    assert (Hny0 : 0 <= ny) by (unfold ny, nset; lia).
    assert (Hfity : ny * Bps im <= SizeOfPlane im).
    { rewrite Hpl, Z.mul_comm. apply Z.mul_le_mono_nonneg_l; [lia|apply ny_fit]. }
    match goal with |- context [loop 0 nz ?b dst] => set (body := b) end.
    destruct (box_step data (nx * P) ny nz body
       (off0 ZOff * SizeOfPlane im + off0 YOff * Bps im + off0 XOff * P) (Bps im) (SizeOfPlane im) (W * P) (W * P * H)
       (skip0 ZOff * (W * P * H) + skip0 YOff * (W * P) + skip0 XOff * P) (SizeOfData im) dst)
      as [d' [E HS]]; auto; try lia.
    - intros z d Hz Hd. unfold body. rewrite loop_max, (clip_signed_nset (Height im)) by lia. fold ny.
      assert (0 <= z * SizeOfPlane im) by (apply Z.mul_nonneg_nonneg; lia).
      apply (plane_step data (nx * P) ny _ (off0 ZOff * SizeOfPlane im + off0 YOff * Bps im + off0 XOff * P + z * SizeOfPlane im)
        (Bps im) (skip0 ZOff * (W * P * H) + skip0 YOff * (W * P) + skip0 XOff * P + z * (W * P * H)) (W * P) (SizeOfData im)); auto; try lia.
      intros y d1 Hy Hd1. rewrite loop_max, clip_signed_nset by lia. fold nx.
      match goal with |- exists d', loop 0 nx (fun x => loop 0 P (@?f x)) d1 = _ /\ _ =>
        destruct (set_row y z d1 f) as [d' [E HS]]; auto end.
      + intros x c d0 Hx Hc.
        assert (B1 := set_dst_bound x y z c Hx Hc Hy Hz). assert (B2 := set_src_bound x y z c Hx Hc Hy Hz).
        destruct (axis (Width im) XOff W x HW1 Hx) as [Ax1 Ax2].
        destruct (axis (Height im) YOff H y HH1 Hy) as [Ay1 Ay2].
        destruct (axis (Depth im) ZOff D z HD1 Hz) as [Az1 Az2].
        rewrite (u32_small (x + skip0 XOff)), (u32_small (x + off0 XOff)) by (clear - Ax1 Ax2 HWi HW; lia).
        rewrite (u32_small (y + skip0 YOff)), (u32_small (y + off0 YOff)) by (clear - Ay1 Ay2 HHi HH; lia).
        rewrite (u32_small (z + skip0 ZOff)), (u32_small (z + off0 ZOff)) by (clear - Az1 Az2 HDi HD; lia).
        rewrite !u32_small by (clear - B1 B2 Hc Hsize H32; lia). f_equal.
      + exists d'. split; auto. eapply step_ext; [exact HS|]. intros j v.
        split; intros (q & Hq & -> & ->); exists q; repeat split; try lia; f_equal; ring.
    - rewrite E. cbn [bind]. exists d'. split; [split; auto|]. split; [rewrite set_result_eq; reflexivity|]. exact HS.
  Qed.
End SetP.
