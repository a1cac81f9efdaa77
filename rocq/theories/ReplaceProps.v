(** C108: replacing a colour.  Model: Replace.v.  Vocabulary: ReplaceSpec.v. *)
From Coq Require Import ZArith List Lia Bool QArith Qround Qabs.
From Verif Require Import Base Slices Enums Utility Image ImageSpec Elem Channels Clear ClearProps Replace ReplaceSpec.
Import ListNotations.
Open Scope Z_scope.

Lemma get_clear : forall fenc denc c stk, zlen stk = 4 -> in_range c ->
  exists cl, ilGetClear fenc denc c stk IL_RGBA IL_UNSIGNED_BYTE = Ok (cl, []) /\ zlen cl = 4 /\ geti cl 0 = clear8 (cR c) /\ geti cl 1 = clear8 (cG c) /\ geti cl 2 = clear8 (cB c).
Proof.
  intros fenc denc c stk L IR. destruct stk as [|s0 [|s1 [|s2 [|s3 [|s4 stk]]]]]; try (unfold zlen in L; cbn [length] in L; lia). clear L.
  assert (K : forall a, 0 <= a <= 65536 -> fl (a * 255) / 65536 mod 256 = clear8 a).
  { intros a Ha. unfold fl. replace (a * 255 <? 16777216) with true by lia. unfold clear8. rewrite Z.mod_small; [reflexivity|]. lia. }
  destruct IR as (A & B & C & D & E). assert (KR := K (cR c) ltac:(lia)). assert (KG := K (cG c) ltac:(lia)). assert (KB := K (cB c) ltac:(lia)). clear K.
  exists [fl (cR c * 255) / 65536 mod 256; fl (cG c * 255) / 65536 mod 256; fl (cB c * 255) / 65536 mod 256; fl (cA c * 255) / 65536 mod 256].
  split; [reflexivity|]. split; [reflexivity|]. split; [exact KR|]. split; [exact KG|exact KB].
Qed.

(** ** One pixel *)
Section Pixels.
Variables (cl buf : list Z) (T R G B N n : Z).
Hypothesis (LC : zlen cl = 4) (HT : 0 <= T) (Hn : 0 <= n) (HN : 1 <= N) (LB : zlen buf = n * N) (SM : n * N < 4294967296).

(** after [p] pixels *)
Definition part (new : Z -> Z -> Z) (p : Z) (d : list Z) : Prop :=
  zlen d = zlen buf /\ forall q c, 0 <= q < n -> 0 <= c < N -> geti d (q * N + c) = if q <? p then new q c else geti buf (q * N + c).
Lemma all_pixels : forall new body, (forall p d, 0 <= p < n -> part new p d -> exists d', body (p * N) d = Ok d' /\ part new (p + 1) d') ->
  exists d, stride 0 (n * N) N body buf = Ok d /\ zlen d = zlen buf /\ forall q c, 0 <= q < n -> 0 <= c < N -> geti d (q * N + c) = new q c.
Proof using Hn HN LB SM.
  clear LC HT. intros new body ST. rewrite stride_loop by lia. destruct (loop_rule _ (part new) 0 n (fun k => body (0 + k * N)) buf) as (d & E & L & GG).
  - lia.
  - split; [reflexivity|]. intros q c Hq Hc. replace (q <? 0) with false by lia. reflexivity.
  - intros k s Hk I. rewrite Z.add_0_l. apply ST; auto.
  - exists d. split; [exact E|]. split; [exact L|]. intros q c Hq Hc. rewrite GG by auto. replace (q <? n) with true by lia. reflexivity.
Qed.
Lemma nearb : forall x y z c0 c1 c2, let D := distance (x - c0) (y - c1) (z - c2) in ((- T <=? D) && (D <=? T) = true <-> near T x y z c0 c1 c2).
Proof using HT.
  clear - HT. intros x y z c0 c1 c2. cbv zeta. unfold distance, near. set (a := x - c0). set (b := y - c1). set (c := z - c2). assert (P : 0 <= a * a + b * b + c * c) by nia.
  assert (S := Z.sqrt_spec _ P). assert (S0 := Z.sqrt_nonneg (a * a + b * b + c * c)). cbv zeta in S. set (s := Z.sqrt (a * a + b * b + c * c)) in *. replace (a ^ 2 + b ^ 2 + c ^ 2) with (a * a + b * b + c * c) by ring. replace ((T + 1) ^ 2) with ((T + 1) * (T + 1)) by ring. split; intros Q.
  - assert (s <= T) by lia. nia.
  - assert (~ T + 1 <= s) by nia. lia.
Qed.
Definition put (r b q c : Z) : Z := if c =? r then R else if c =? 1 then G else if c =? b then B else geti buf (q * N + c).
Definition new3 (r b q c : Z) : Z :=
  let D := distance (geti buf (q * N) - geti cl 0) (geti buf (q * N + 1) - geti cl 1) (geti buf (q * N + 2) - geti cl 2) in
  if (- T <=? D) && (D <=? T) then put r b q c else geti buf (q * N + c).
Lemma step3 : forall r b p d, (r = 0 /\ b = 2 \/ r = 2 /\ b = 0) -> 3 <= N -> 0 <= p < n -> part (new3 r b) p d -> exists d', replace3 cl T r b R G B (p * N) d = Ok d' /\ part (new3 r b) (p + 1) d'.
Proof using LC LB SM.
  clear HT Hn HN. intros r b p d RB N3 Hp (LD & G0). assert (IN : 0 <= p * N /\ p * N + N <= n * N) by (split; [apply Z.mul_nonneg_nonneg; lia|assert (M : (p + 1) * N <= n * N) by (apply Z.mul_le_mono_nonneg_r; lia); lia]). unfold replace3. rewrite !u32_small by lia.
  assert (G1 : forall c, 0 <= c < N -> geti d (p * N + c) = geti buf (p * N + c)) by (intros c Hc; rewrite G0 by lia; replace (p <? p) with false by lia; reflexivity).
  assert (E0 := G1 0 ltac:(lia)). rewrite Z.add_0_r in E0. rewrite !rd_ok by lia. cbn [bind]. rewrite E0, (G1 1), (G1 2) by lia.
  assert (SK : forall q c, 0 <= q < n -> 0 <= c < N -> (q =? p) = false -> (if q <? p then new3 r b q c else geti buf (q * N + c)) = if q <? p + 1 then new3 r b q c else geti buf (q * N + c)).
  { intros q c Hq Hc NE. replace (q <? p + 1) with (q <? p) by lia. reflexivity. }
  destruct ((- T <=? _) && _) eqn:ED.
  - rewrite wr_ok by lia. cbn [bind]. set (d1 := upd d (p * N + r) R). assert (L1 : zlen d1 = zlen d) by (apply zlen_upd; lia). rewrite wr_ok by lia. cbn [bind]. set (d2 := upd d1 (p * N + 1) G). assert (L2 : zlen d2 = zlen d) by (unfold d2; rewrite zlen_upd; lia). rewrite wr_ok by lia. eexists. split; [reflexivity|]. split; [rewrite zlen_upd; lia|].
    intros q c Hq Hc. assert (IQ : 0 <= q * N + c < n * N) by (assert (M : (q + 1) * N <= n * N) by (apply Z.mul_le_mono_nonneg_r; lia); assert (M2 : 0 <= q * N) by (apply Z.mul_nonneg_nonneg; lia); lia). rewrite geti_upd by lia. unfold d2. rewrite geti_upd by lia. unfold d1. rewrite geti_upd by lia.
    destruct (q =? p) eqn:EQ.
    + apply Z.eqb_eq in EQ. subst q. replace (p <? p + 1) with true by lia. unfold new3. cbv zeta. rewrite ED. unfold put.
      replace (p * N + c =? p * N + b) with (c =? b) by lia. replace (p * N + c =? p * N + 1) with (c =? 1) by lia. replace (p * N + c =? p * N + r) with (c =? r) by lia. rewrite (G1 c) by lia.
      destruct (c =? b) eqn:Q1, (c =? 1) eqn:Q2, (c =? r) eqn:Q3; try reflexivity; lia.
    + assert (FAR : forall k, 0 <= k < N -> (q * N + c =? p * N + k) = false) by (intros k Hk; destruct (Z.lt_trichotomy q p) as [Q|[Q|Q]]; [assert (M : (q + 1) * N <= p * N) by (apply Z.mul_le_mono_nonneg_r; lia); lia|lia|assert (M : (p + 1) * N <= q * N) by (apply Z.mul_le_mono_nonneg_r; lia); lia]).
      rewrite !FAR by lia. rewrite G0 by lia. apply SK; auto.
  - exists d. split; [reflexivity|]. split; [exact LD|]. intros q c Hq Hc. rewrite G0 by lia. destruct (q =? p) eqn:EQ; [|apply SK; auto].
    apply Z.eqb_eq in EQ. subst q. replace (p <? p) with false by lia. replace (p <? p + 1) with true by lia. unfold new3. cbv zeta. rewrite ED. reflexivity.
Qed.
Definition new1 (q c : Z) : Z :=
  let D := geti buf (q * N) - geti cl 0 in if (- T <=? D) && (D <=? T) && (c =? 0) then B else geti buf (q * N + c).
Lemma step1 : forall p d, 0 <= p < n -> part new1 p d -> exists d', replace1 cl T B (p * N) d = Ok d' /\ part new1 (p + 1) d'.
Proof using LC LB SM HN.
  clear HT Hn. intros p d Hp (LD & G0). assert (IN : 0 <= p * N /\ p * N + N <= n * N) by (split; [apply Z.mul_nonneg_nonneg; lia|assert (M : (p + 1) * N <= n * N) by (apply Z.mul_le_mono_nonneg_r; lia); lia]). unfold replace1. rewrite !u32_small by lia.
  assert (G1 : forall c, 0 <= c < N -> geti d (p * N + c) = geti buf (p * N + c)) by (intros c Hc; rewrite G0 by lia; replace (p <? p) with false by lia; reflexivity).
  assert (E0 := G1 0 ltac:(lia)). rewrite !Z.add_0_r in E0. rewrite !rd_ok by lia. cbn [bind]. rewrite E0.
  destruct ((- T <=? _) && _) eqn:ED.
  - rewrite wr_ok by lia. eexists. split; [reflexivity|]. split; [rewrite zlen_upd; lia|].
    intros q c Hq Hc. assert (IQ : 0 <= q * N + c < n * N) by (assert (M : (q + 1) * N <= n * N) by (apply Z.mul_le_mono_nonneg_r; lia); assert (M2 : 0 <= q * N) by (apply Z.mul_nonneg_nonneg; lia); lia). rewrite geti_upd by lia. rewrite G0 by lia. destruct (q =? p) eqn:EQ.
    + apply Z.eqb_eq in EQ. subst q. replace (p <? p + 1) with true by lia. replace (p <? p) with false by lia. unfold new1. cbv zeta. rewrite ED. replace (p * N + c =? p * N) with (c =? 0) by lia. reflexivity.
    + replace (q * N + c =? p * N) with false by (destruct (Z.lt_trichotomy q p) as [Q|[Q|Q]]; [assert (M : (q + 1) * N <= p * N) by (apply Z.mul_le_mono_nonneg_r; lia); lia|lia|assert (M : (p + 1) * N <= q * N) by (apply Z.mul_le_mono_nonneg_r; lia); lia]). replace (q <? p + 1) with (q <? p) by lia. reflexivity.
  - exists d. split; [reflexivity|]. split; [exact LD|]. intros q c Hq Hc. rewrite G0 by lia. destruct (q =? p) eqn:EQ; [|replace (q <? p + 1) with (q <? p) by lia; reflexivity].
    apply Z.eqb_eq in EQ. subst q. replace (p <? p) with false by lia. replace (p <? p + 1) with true by lia. unfold new1. cbv zeta. rewrite ED. reflexivity.
Qed.
End Pixels.

(** ** Whole images *)
Lemma place_pixel : forall im x t z, place im x t z -> let y := if Origin im =? IL_ORIGIN_UPPER_LEFT then t else Height im - 1 - t in
  exists q, 0 <= q < Width im * Height im * Depth im /\ forall c, Bpc im = 1 -> pix_off im x y z c = q * Bpp im + c.
Proof.
  intros im x t z (Hx & Ht & Hz) y. assert (Hy : 0 <= y < Height im) by (unfold y; destruct (_ =? _); lia). clearbody y. exists ((z * Height im + y) * Width im + x). split.
  - assert (A : 0 <= z * Height im) by (apply Z.mul_nonneg_nonneg; lia). assert (A2 : (z + 1) * Height im <= Depth im * Height im) by (apply Z.mul_le_mono_nonneg_r; lia). set (r := z * Height im + y) in *. assert (R : 0 <= r /\ r + 1 <= Depth im * Height im) by lia.
    assert (A3 : (r + 1) * Width im <= Depth im * Height im * Width im) by (apply Z.mul_le_mono_nonneg_r; lia). assert (A4 : 0 <= r * Width im) by (apply Z.mul_nonneg_nonneg; lia). lia.
  - intros c E. unfold pix_off. rewrite E. ring.
Qed.
Lemma sized : forall im buf, img_ok im buf -> Bpc im = 1 -> SizeOfData im = Width im * Height im * Depth im * Bpp im.
Proof. intros im buf (_ & _ & _ & _ & _ & _ & E1 & E2 & E3 & _) E. rewrite E3, E2, E1, E. ring. Qed.

Section Replace.
Variables (fenc denc : Z -> list Z) (tv : Q -> Z) (clear : colour) (stk : list Z) (R G B : Z) (tol : Q).
Hypothesis (LS : zlen stk = 4) (IR : in_range clear) (HT : 0 <= tv (clamped tol)) (NT : tiny (clamped tol) = false).
Let T := tv (clamped tol).

(** RGB and RGBA images: exactly the pixels near the clear colour get the new colour; alpha stays. *)
Theorem C108_rgb : forall im buf, img_ok im buf -> Bpc im = 1 -> (Format im = IL_RGB /\ Bpp im = 3 \/ Format im = IL_RGBA /\ Bpp im = 4) ->
  exists im' d, iluReplaceColour fenc denc tv clear stk R G B tol im = Ok (true, im') /\ repainted im im' d /\
    forall x t z, place im x t z -> let was := picture im buf x t z in let now := picture im d x t z in
      (near T (was 0) (was 1) (was 2) (clear8 (cR clear)) (clear8 (cG clear)) (clear8 (cB clear)) -> now 0 = R /\ now 1 = G /\ now 2 = B) /\
      (~ near T (was 0) (was 1) (was 2) (clear8 (cR clear)) (clear8 (cG clear)) (clear8 (cB clear)) -> now 0 = was 0 /\ now 1 = was 1 /\ now 2 = was 2) /\
      (Bpp im = 4 -> now 3 = was 3).
Proof using LS IR HT NT.
  intros im buf OK BC FM. destruct (get_clear fenc denc clear stk LS IR) as (cl & EC & LC & C0 & C1 & C2). assert (SZ := sized im buf OK BC). assert (OK2 := OK). destruct OK2 as (DI & HW & HH & HD & _ & _ & _ & _ & _ & SM & LB). change (2 ^ 32) with 4294967296 in SM.
  unfold iluReplaceColour. rewrite EC. cbn [bind]. cbv zeta. rewrite NT. replace (case (Format im) [IL_RGB; IL_RGBA]) with true by (destruct FM as [(-> & _)|(-> & _)]; reflexivity). rewrite DI. fold T. fold T in HT. rewrite SZ.
  set (n := Width im * Height im * Depth im) in *. assert (Hn : 0 <= n) by (unfold n; nia). set (N := Bpp im) in *. assert (HN : 3 <= N) by lia.
  destruct (all_pixels buf N n Hn ltac:(lia) ltac:(lia) ltac:(lia) (new3 cl buf T R G B N 0 2) (replace3 cl T 0 2 R G B)) as (d & -> & LD & GG).
  { intros p d Hp I. apply step3 with (n := n); auto; lia. }
  cbn [bind]. exists (with_Data im (Some d)), d. split; [reflexivity|]. split; [split; [reflexivity|rewrite SZ; lia]|].
  intros x t z HP. set (was := picture im buf x t z). set (now := picture im d x t z). destruct (place_pixel im x t z HP) as (q & Hq & EQ). fold n in Hq. fold N in EQ.
  assert (W : forall c, was c = geti buf (q * N + c)) by (intros c; unfold was, picture; rewrite EQ by auto; reflexivity).
  assert (X : forall c, 0 <= c < N -> now c = new3 cl buf T R G B N 0 2 q c) by (intros c Hc; unfold now, picture; rewrite EQ by auto; apply GG; auto).
  assert (W0 := W 0). rewrite Z.add_0_r in W0. assert (NB := nearb T HT (geti buf (q * N)) (geti buf (q * N + 1)) (geti buf (q * N + 2)) (geti cl 0) (geti cl 1) (geti cl 2)). cbv zeta in NB. rewrite <- W0, <- (W 1), <- (W 2), C0, C1, C2 in NB.
  assert (V : forall c, 0 <= c < N -> now c = if (- T <=? distance (was 0 - clear8 (cR clear)) (was 1 - clear8 (cG clear)) (was 2 - clear8 (cB clear))) && (distance (was 0 - clear8 (cR clear)) (was 1 - clear8 (cG clear)) (was 2 - clear8 (cB clear)) <=? T) then put buf R G B N 0 2 q c else was c).
  { intros c Hc. rewrite X by auto. unfold new3. cbv zeta. rewrite <- W0, <- !W, C0, C1, C2. reflexivity. }
  split; [|split].
  - intros NE. apply NB in NE. rewrite !V by lia. rewrite NE. split; [|split]; reflexivity.
  - intros NE. destruct ((- T <=? _) && _); [exfalso; apply NE, NB; reflexivity|]. rewrite !V by lia. split; [|split]; reflexivity.
  - intros N4. rewrite V by lia. destruct ((- T <=? _) && _); [|reflexivity]. unfold put. rewrite W. reflexivity.
Qed.

(** BGR and BGRA images: right if the clear colour has as much red as blue; see C108_bgr_refuted. *)
Theorem C108_bgr_partial : forall im buf, img_ok im buf -> Bpc im = 1 -> (Format im = IL_BGR /\ Bpp im = 3 \/ Format im = IL_BGRA /\ Bpp im = 4) -> cR clear = cB clear ->
  exists im' d, iluReplaceColour fenc denc tv clear stk R G B tol im = Ok (true, im') /\ repainted im im' d /\
    forall x t z, place im x t z -> let was := picture im buf x t z in let now := picture im d x t z in
      (near T (was 2) (was 1) (was 0) (clear8 (cR clear)) (clear8 (cG clear)) (clear8 (cB clear)) -> now 2 = R /\ now 1 = G /\ now 0 = B) /\
      (~ near T (was 2) (was 1) (was 0) (clear8 (cR clear)) (clear8 (cG clear)) (clear8 (cB clear)) -> now 0 = was 0 /\ now 1 = was 1 /\ now 2 = was 2) /\
      (Bpp im = 4 -> now 3 = was 3).
Proof using LS IR HT NT.
  intros im buf OK BC FM RB. destruct (get_clear fenc denc clear stk LS IR) as (cl & EC & LC & C0 & C1 & C2). assert (SZ := sized im buf OK BC). assert (OK2 := OK). destruct OK2 as (DI & HW & HH & HD & _ & _ & _ & _ & _ & SM & LB). change (2 ^ 32) with 4294967296 in SM.
  unfold iluReplaceColour. rewrite EC. cbn [bind]. cbv zeta. rewrite NT. replace (case (Format im) [IL_RGB; IL_RGBA]) with false by (destruct FM as [(-> & _)|(-> & _)]; reflexivity). replace (case (Format im) [IL_BGR; IL_BGRA]) with true by (destruct FM as [(-> & _)|(-> & _)]; reflexivity). rewrite DI. fold T. fold T in HT. rewrite SZ.
  set (n := Width im * Height im * Depth im) in *. assert (Hn : 0 <= n) by (unfold n; nia). set (N := Bpp im) in *. assert (HN : 3 <= N) by lia.
  destruct (all_pixels buf N n Hn ltac:(lia) ltac:(lia) ltac:(lia) (new3 cl buf T R G B N 2 0) (replace3 cl T 2 0 R G B)) as (d & -> & LD & GG).
  { intros p d Hp I. apply step3 with (n := n); auto; lia. }
  cbn [bind]. exists (with_Data im (Some d)), d. split; [reflexivity|]. split; [split; [reflexivity|rewrite SZ; lia]|].
  intros x t z HP. set (was := picture im buf x t z). set (now := picture im d x t z). destruct (place_pixel im x t z HP) as (q & Hq & EQ). fold n in Hq. fold N in EQ.
  assert (W : forall c, was c = geti buf (q * N + c)) by (intros c; unfold was, picture; rewrite EQ by auto; reflexivity).
  assert (X : forall c, 0 <= c < N -> now c = new3 cl buf T R G B N 2 0 q c) by (intros c Hc; unfold now, picture; rewrite EQ by auto; apply GG; auto).
  assert (W0 := W 0). rewrite Z.add_0_r in W0. assert (NB := nearb T HT (geti buf (q * N)) (geti buf (q * N + 1)) (geti buf (q * N + 2)) (geti cl 0) (geti cl 1) (geti cl 2)). cbv zeta in NB. rewrite <- W0, <- (W 1), <- (W 2), C0, C1, C2 in NB.
  assert (SW : near T (was 0) (was 1) (was 2) (clear8 (cR clear)) (clear8 (cG clear)) (clear8 (cB clear)) <-> near T (was 2) (was 1) (was 0) (clear8 (cR clear)) (clear8 (cG clear)) (clear8 (cB clear))) by (unfold near; rewrite RB; lia).
  rewrite SW in NB.
  assert (V : forall c, 0 <= c < N -> now c = if (- T <=? distance (was 0 - clear8 (cR clear)) (was 1 - clear8 (cG clear)) (was 2 - clear8 (cB clear))) && (distance (was 0 - clear8 (cR clear)) (was 1 - clear8 (cG clear)) (was 2 - clear8 (cB clear)) <=? T) then put buf R G B N 2 0 q c else was c).
  { intros c Hc. rewrite X by auto. unfold new3. cbv zeta. rewrite <- W0, <- !W, C0, C1, C2. reflexivity. }
  split; [|split].
  - intros NE. apply NB in NE. rewrite !V by lia. rewrite NE. split; [|split]; reflexivity.
  - intros NE. destruct ((- T <=? _) && _); [exfalso; apply NE, NB; reflexivity|]. rewrite !V by lia. split; [|split]; reflexivity.
  - intros N4. rewrite V by lia. destruct ((- T <=? _) && _); [|reflexivity]. unfold put. rewrite W. reflexivity.
Qed.

(** Grey images: the first component of the clear colour is looked for, and the third of the new colour is stored. *)
Theorem C108_grey : forall im buf, img_ok im buf -> Bpc im = 1 -> (Format im = IL_LUMINANCE /\ Bpp im = 1 \/ Format im = IL_LUMINANCE_ALPHA /\ Bpp im = 2) ->
  exists im' d, iluReplaceColour fenc denc tv clear stk R G B tol im = Ok (true, im') /\ repainted im im' d /\
    forall x t z, place im x t z -> let was := picture im buf x t z in let now := picture im d x t z in
      (Z.abs (was 0 - clear8 (cR clear)) <= T -> now 0 = B) /\ (~ Z.abs (was 0 - clear8 (cR clear)) <= T -> now 0 = was 0) /\ (Bpp im = 2 -> now 1 = was 1).
Proof using LS IR HT NT.
  intros im buf OK BC FM. destruct (get_clear fenc denc clear stk LS IR) as (cl & EC & LC & C0 & _ & _). assert (SZ := sized im buf OK BC). assert (OK2 := OK). destruct OK2 as (DI & HW & HH & HD & _ & _ & _ & _ & _ & SM & LB). change (2 ^ 32) with 4294967296 in SM.
  unfold iluReplaceColour. rewrite EC. cbn [bind]. cbv zeta. rewrite NT. replace (case (Format im) [IL_RGB; IL_RGBA]) with false by (destruct FM as [(-> & _)|(-> & _)]; reflexivity). replace (case (Format im) [IL_BGR; IL_BGRA]) with false by (destruct FM as [(-> & _)|(-> & _)]; reflexivity).
  replace (case (Format im) [IL_LUMINANCE; IL_LUMINANCE_ALPHA]) with true by (destruct FM as [(-> & _)|(-> & _)]; reflexivity). rewrite DI. fold T. fold T in HT. rewrite SZ.
  set (n := Width im * Height im * Depth im) in *. assert (Hn : 0 <= n) by (unfold n; nia). set (N := Bpp im) in *. assert (HN : 1 <= N) by lia.
  destruct (all_pixels buf N n Hn ltac:(lia) ltac:(lia) ltac:(lia) (new1 cl buf T B N) (replace1 cl T B)) as (d & -> & LD & GG).
  { intros p d Hp I. apply step1 with (n := n); auto; lia. }
  cbn [bind]. exists (with_Data im (Some d)), d. split; [reflexivity|]. split; [split; [reflexivity|rewrite SZ; lia]|].
  intros x t z HP. set (was := picture im buf x t z). set (now := picture im d x t z). destruct (place_pixel im x t z HP) as (q & Hq & EQ). fold n in Hq. fold N in EQ.
  assert (W : forall c, was c = geti buf (q * N + c)) by (intros c; unfold was, picture; rewrite EQ by auto; reflexivity).
  assert (X : forall c, 0 <= c < N -> now c = new1 cl buf T B N q c) by (intros c Hc; unfold now, picture; rewrite EQ by auto; apply GG; auto).
  assert (W0 := W 0). rewrite Z.add_0_r in W0.
  assert (V : forall c, 0 <= c < N -> now c = if (- T <=? was 0 - clear8 (cR clear)) && (was 0 - clear8 (cR clear) <=? T) && (c =? 0) then B else was c).
  { intros c Hc. rewrite X by auto. unfold new1. cbv zeta. rewrite <- W0, <- !W, C0. reflexivity. }
  split; [|split].
  - intros A. rewrite V by lia. replace ((- T <=? _) && _ && _) with true by lia. reflexivity.
  - intros A. rewrite V by lia. replace ((- T <=? _) && _ && _) with false by lia. reflexivity.
  - intros N2. rewrite V by lia. change (1 =? 0) with false. rewrite andb_false_r. reflexivity.
Qed.
End Replace.

(** A tolerance of zero (up to 2^-23) changes nothing. *)
Theorem C108_zero : forall fenc denc tv clear stk R G B tol im, zlen stk = 4 -> in_range clear -> (0 <= tol <= 1 # 8388608)%Q ->
  iluReplaceColour fenc denc tv clear stk R G B tol im = Ok (true, im).
Proof.
  intros fenc denc tv clear stk R G B tol im LS IR (T0 & T1). destruct (get_clear fenc denc clear stk LS IR) as (cl & EC & _). unfold iluReplaceColour. rewrite EC. cbn [bind]. cbv zeta.
  assert (T2 : Qle_bool tol 1 = true) by (apply Qle_bool_iff; eapply Qle_trans; [exact T1|discriminate]). assert (T3 : Qle_bool (- (1)) tol = true) by (apply Qle_bool_iff; eapply Qle_trans; [|exact T0]; discriminate).
  unfold clamped. rewrite T2, T3. cbn [andb]. unfold tiny. apply Qle_bool_iff in T0. apply Qle_bool_iff in T1. rewrite T0, T1. reflexivity.
Qed.

(** ** What is wrong *)
(** exact: 255 |tol|, cut *)
Definition tv_exact (q : Q) : Z := Qfloor (Qabs q * 255).
Definition strip (f N : Z) (d : list Z) : img := mkImg (zlen d / N) 1 1 N 1 (zlen d) (Some d) (zlen d) (zlen d) f IL_UNSIGNED_BYTE IL_ORIGIN_UPPER_LEFT (mkPal None 0 IL_PAL_NONE) 0 0 0 0.
Definition red : colour := mkColour 65536 0 0 65536 0.
Ltac ok_img := unfold img_ok; repeat (split; [first [reflexivity | vm_compute; discriminate | vm_compute; split; [discriminate|reflexivity] | left; reflexivity]|]); reflexivity.

(** In BGR images the red of the clear colour is compared with the blue of the pixels. *)
Theorem C108_bgr_refuted : ~ forall fenc denc tv clear stk R G B tol, zlen stk = 4 -> in_range clear -> 0 <= tv (clamped tol) -> tiny (clamped tol) = false ->
  forall im buf, img_ok im buf -> Bpc im = 1 -> Format im = IL_BGR /\ Bpp im = 3 ->
  exists im' d, iluReplaceColour fenc denc tv clear stk R G B tol im = Ok (true, im') /\ repainted im im' d /\
    forall x t z, place im x t z -> let was := picture im buf x t z in let now := picture im d x t z in
      near (tv (clamped tol)) (was 2) (was 1) (was 0) (clear8 (cR clear)) (clear8 (cG clear)) (clear8 (cB clear)) -> now 2 = R /\ now 1 = G /\ now 0 = B.
Proof.
  intros Q. pose (im := strip IL_BGR 3 [0; 0; 255]). assert (OK : img_ok im [0; 0; 255]) by ok_img.
  destruct (Q (fun _ => []) (fun _ => []) tv_exact red [9; 9; 9; 9] 1 2 3 (1 # 10)%Q eq_refl ltac:(vm_compute; repeat split; discriminate) ltac:(vm_compute; discriminate) eq_refl im [0; 0; 255] OK eq_refl (conj eq_refl eq_refl)) as (im' & d & E & (EI & _) & G).
  assert (E1 : iluReplaceColour (fun _ => []) (fun _ => []) tv_exact red [9; 9; 9; 9] 1 2 3 (1 # 10)%Q im = Ok (true, im)) by (vm_compute; reflexivity).
  rewrite E1 in E. injection E as E. rewrite EI in E. apply (f_equal Data) in E. cbn in E. injection E as <-.
  destruct (G 0 0 0 ltac:(vm_compute; repeat split; discriminate)) as (X & _); [vm_compute; reflexivity|]. vm_compute in X. discriminate X.
Qed.
(** A tolerance of zero does not even replace the clear colour itself. *)
Theorem C108_zero_refuted : ~ forall fenc denc tv clear stk R G B, zlen stk = 4 -> in_range clear -> tv 0%Q = 0 ->
  forall im buf, img_ok im buf -> Bpc im = 1 -> Format im = IL_RGB /\ Bpp im = 3 ->
  exists im' d, iluReplaceColour fenc denc tv clear stk R G B 0%Q im = Ok (true, im') /\ repainted im im' d /\
    forall x t z, place im x t z -> let was := picture im buf x t z in let now := picture im d x t z in
      near 0 (was 0) (was 1) (was 2) (clear8 (cR clear)) (clear8 (cG clear)) (clear8 (cB clear)) -> now 0 = R /\ now 1 = G /\ now 2 = B.
Proof.
  intros Q. pose (im := strip IL_RGB 3 [255; 0; 0]). assert (OK : img_ok im [255; 0; 0]) by ok_img. assert (IR : in_range red) by (vm_compute; repeat split; discriminate).
  destruct (Q (fun _ => []) (fun _ => []) tv_exact red [9; 9; 9; 9] 1 2 3 eq_refl IR eq_refl im [255; 0; 0] OK eq_refl (conj eq_refl eq_refl)) as (im' & d & E & (EI & _) & G).
  rewrite C108_zero in E by (try reflexivity; try exact IR; split; discriminate). injection E as E. rewrite EI in E. apply (f_equal Data) in E. cbn in E. injection E as <-.
  destruct (G 0 0 0 ltac:(vm_compute; repeat split; discriminate)) as (X & _); [vm_compute; reflexivity|]. vm_compute in X. discriminate X.
Qed.

(** ** Concrete images: two pixels, one near red *)
Example C108_rgb_ex : exists im', iluReplaceColour (fun _ => []) (fun _ => []) tv_exact red [9; 9; 9; 9] 1 2 3 (1 # 10)%Q (strip IL_RGB 3 [250; 5; 7; 0; 255; 0]) = Ok (true, im') /\ Data im' = Some [1; 2; 3; 0; 255; 0].
Proof.
  assert (OK : img_ok (strip IL_RGB 3 [250; 5; 7; 0; 255; 0]) [250; 5; 7; 0; 255; 0]) by ok_img.
  destruct (C108_rgb (fun _ => []) (fun _ => []) tv_exact red [9; 9; 9; 9] 1 2 3 (1 # 10)%Q eq_refl ltac:(vm_compute; repeat split; discriminate) ltac:(vm_compute; discriminate) eq_refl _ _ OK eq_refl (or_introl (conj eq_refl eq_refl))) as (im' & d & E & (-> & LD) & G).
  exists (with_Data (strip IL_RGB 3 [250; 5; 7; 0; 255; 0]) (Some d)). split; [exact E|]. cbn [with_Data Data]. f_equal.
  destruct (G 0 0 0 ltac:(vm_compute; repeat split; discriminate)) as (A & _ & _). destruct (G 1 0 0 ltac:(vm_compute; repeat split; discriminate)) as (_ & C & _).
  destruct A as (A0 & A1 & A2); [vm_compute; reflexivity|]. destruct C as (C0 & C1 & C2); [vm_compute; discriminate|].
  change (zlen d = 6) in LD. destruct d as [|d0 [|d1 [|d2 [|d3 [|d4 [|d5 [|d6 d]]]]]]]; try (unfold zlen in LD; cbn [length] in LD; lia). vm_compute in A0, A1, A2, C0, C1, C2. subst. reflexivity.
Qed.
Example C108_bgr_ex : exists im', iluReplaceColour (fun _ => []) (fun _ => []) tv_exact (mkColour 0 0 0 0 0) [9; 9; 9; 9] 1 2 3 (1 # 10)%Q (strip IL_BGRA 4 [1; 1; 1; 77]) = Ok (true, im') /\ Data im' = Some [3; 2; 1; 77].
Proof. vm_compute. eexists. split; reflexivity. Qed.
Example C108_bgr_ex_hyps : img_ok (strip IL_BGRA 4 [1; 1; 1; 77]) [1; 1; 1; 77] /\ in_range (mkColour 0 0 0 0 0) /\ tiny (clamped (1 # 10)) = false /\ 0 <= tv_exact (clamped (1 # 10)).
Proof. split; [ok_img|]. split; [vm_compute; repeat split; discriminate|]. split; [reflexivity|vm_compute; discriminate]. Qed.
Example C108_grey_ex : img_ok (strip IL_LUMINANCE_ALPHA 2 [200; 77; 254; 78]) [200; 77; 254; 78] /\
  exists im', iluReplaceColour (fun _ => []) (fun _ => []) tv_exact red [9; 9; 9; 9] 1 2 3 (- (1 # 10))%Q (strip IL_LUMINANCE_ALPHA 2 [200; 77; 254; 78]) = Ok (true, im') /\ Data im' = Some [200; 77; 3; 78].
Proof. split; [ok_img|]. vm_compute. eexists. split; reflexivity. Qed.
Example C108_zero_ex : iluReplaceColour (fun _ => []) (fun _ => []) tv_exact red [9; 9; 9; 9] 1 2 3 (1 # 10000000)%Q (strip IL_RGB 3 [255; 0; 0]) = Ok (true, strip IL_RGB 3 [255; 0; 0]).
Proof. apply C108_zero; [reflexivity|vm_compute; repeat split; discriminate|split; discriminate]. Qed.

Print Assumptions C108_rgb.
Print Assumptions C108_bgr_partial.
Print Assumptions C108_grey.
Print Assumptions C108_zero.
Print Assumptions C108_bgr_refuted.
Print Assumptions C108_zero_refuted.
