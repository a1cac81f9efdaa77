(** Rotation by right angles (C81). *)
From Coq Require Import ZArith List Lia Bool QArith.
From Verif Require Import Base Slices Enums Utility Image ImageSpec Elem Channels ChannelsSpec ChannelsProofs ChannelsProps Endian Float Flip Pixels Scatter PixelsProofs PixelsProps Ilu IluCrop IluProps Ilu2 IluScale.
Import ListNotations.
Open Scope Z_scope.

(** every iteration writes an element of its own *)
Lemma scatter : forall n N (g : Z -> Z) (v : Z -> list Z) body dst, 0 < n -> 0 <= N ->
  (forall e, 0 <= e < N -> 0 <= g e /\ (g e + 1) * n <= zlen dst /\ zlen (v e) = n) ->
  (forall e e', 0 <= e < N -> 0 <= e' < N -> g e = g e' -> e = e') ->
  (forall e d, 0 <= e < N -> zlen d = zlen dst -> body e d = Ok (splice d (g e * n) (v e))) ->
  exists d, loop 0 N body dst = Ok d /\ zlen d = zlen dst /\ forall e, 0 <= e < N -> slice d (g e * n) n = v e.
Proof.
  intros n N g v body dst Hn HN Hg Hi Hb.
  destruct (loop_rule _ (fun k d => zlen d = zlen dst /\ forall e, 0 <= e < k -> slice d (g e * n) n = v e) 0 N body dst) as (d & E & L & A); [lia|split; [auto|lia]| |exists d; auto].
  intros k d Hk (L & A). rewrite Hb by auto. eexists. split; [reflexivity|]. destruct (Hg k Hk) as (G1 & G2 & G3).
  assert (0 <= g k * n) by (apply Z.mul_nonneg_nonneg; lia). split; [rewrite zlen_splice; lia|].
  intros e He. destruct (Z.eq_dec e k) as [->|Hne].
  - assert (SS := slice_splice_same d (g k * n) (v k)). rewrite G3 in SS. apply SS; lia.
  - destruct (Hg e ltac:(lia)) as (E1 & E2 & E3). assert (0 <= g e * n) by (apply Z.mul_nonneg_nonneg; lia).
    rewrite slice_splice_other; try lia; [apply A; lia|].
    assert (g e <> g k) by (intro C; apply Hne; apply Hi; auto; lia).
    destruct (Z.lt_ge_cases (g e) (g k)); [left|right; rewrite G3]; [assert ((g e + 1) * n <= g k * n) by (apply Z.mul_le_mono_nonneg_r; lia)|assert ((g k + 1) * n <= g e * n) by (apply Z.mul_le_mono_nonneg_r; lia)]; lia.
Qed.

Lemma radix : forall B p c p' c', 0 <= c < B -> 0 <= c' < B -> p * B + c = p' * B + c' -> p = p' /\ c = c'.
Proof.
  intros B p c p' c' Hc Hc' E. assert (p = p'); [|subst; lia].
  assert (E1 : (p * B + c) / B = p) by (symmetry; apply Z.div_unique with c; lia). assert (E2 : (p' * B + c') / B = p') by (symmetry; apply Z.div_unique with c'; lia). congruence.
Qed.

Section Turn.
Variables (B n W H : Z) (dest : Z -> Z -> Z).
Hypothesis (HB : 0 < B) (Hn : 0 < n) (HW : 0 < W) (HH : 0 < H).

Lemma turn_loop : forall src dst body,
  (forall x y, 0 <= x < W -> 0 <= y < H -> 0 <= dest x y < W * H) ->
  (forall x y x' y', 0 <= x < W -> 0 <= y < H -> 0 <= x' < W -> 0 <= y' < H -> dest x y = dest x' y' -> x = x' /\ y = y') ->
  zlen src = W * H * B * n -> zlen dst = W * H * B * n ->
  (forall x y c d, 0 <= x < W -> 0 <= y < H -> 0 <= c < B -> body x y c d =
     let! v := rde src n ((y * W + x) * B + c) in wre d n (dest x y * B + c) v) ->
  exists d, loop 0 W (fun x => loop 0 H (fun y => loop 0 B (fun c => body x y c))) dst = Ok d /\ zlen d = zlen dst /\
    forall x y c, 0 <= x < W -> 0 <= y < H -> 0 <= c < B -> slice d ((dest x y * B + c) * n) n = slice src (((y * W + x) * B + c) * n) n.
Proof.
  intros src dst body Hd Hi Ls Ld Hb.
  set (X := fun e => e / B / H). set (Y := fun e => (e / B) mod H). set (C := fun e => e mod B).
  set (K := fun e d => let! v := rde src n ((Y e * W + X e) * B + C e) in wre d n (dest (X e) (Y e) * B + C e) v).
  assert (DE : forall e, 0 <= e < W * H * B -> 0 <= X e < W /\ 0 <= Y e < H /\ 0 <= C e < B /\ e = (X e * H + Y e) * B + C e).
  { intros e He. unfold X, Y, C. assert (Q : 0 <= e / B < W * H) by (split; [apply Z.div_pos; lia|apply Z.div_lt_upper_bound; lia]).
    assert (0 <= e / B / H < W) by (split; [apply Z.div_pos; lia|apply Z.div_lt_upper_bound; lia]).
    assert (M1 := Z.mod_pos_bound (e / B) H HH). assert (M2 := Z.mod_pos_bound e B HB).
    repeat split; lia. }
  assert (DC : forall x y c, 0 <= x < W -> 0 <= y < H -> 0 <= c < B -> X ((x * H + y) * B + c) = x /\ Y ((x * H + y) * B + c) = y /\ C ((x * H + y) * B + c) = c).
  { intros x y c Hx Hy Hc. unfold X, Y, C. assert (E : ((x * H + y) * B + c) / B = x * H + y) by (symmetry; apply Z.div_unique with c; lia). rewrite E.
    repeat split; symmetry; [apply Z.div_unique with y|apply Z.mod_unique with x|apply Z.mod_unique with (x * H + y)]; lia. }
  assert (EL : loop 0 W (fun x => loop 0 H (fun y => loop 0 B (fun c => body x y c))) dst = loop 0 (W * H * B) K dst).
  { rewrite <- (loop_flatten _ B K (W * H)) by nia. rewrite <- (loop_flatten _ H (fun p => loop 0 B (fun c => K (p * B + c))) W) by lia.
    apply loop_ext. intros x s1 Hx. apply loop_ext. intros y s2 Hy. apply loop_ext. intros c s3 Hc. rewrite Hb by auto. unfold K. destruct (DC x y c Hx Hy Hc) as (-> & -> & ->). reflexivity. }
  rewrite EL.
  assert (PB : forall p c, 0 <= p < W * H -> 0 <= c < B -> 0 <= p * B + c /\ (p * B + c + 1) * n <= W * H * B * n).
  { intros p c Hp Hc. assert ((p + 1) * B <= W * H * B) by (apply Z.mul_le_mono_nonneg_r; lia). split; [apply Z.add_nonneg_nonneg; [apply Z.mul_nonneg_nonneg|]; lia|]. apply Z.mul_le_mono_nonneg_r; lia. }
  assert (PS : forall x y, 0 <= x < W -> 0 <= y < H -> 0 <= y * W + x < W * H) by (intros x y Hx Hy; nia).
  destruct (scatter n (W * H * B) (fun e => dest (X e) (Y e) * B + C e) (fun e => slice src (((Y e * W + X e) * B + C e) * n) n) K dst) as (d & E & L & A); try lia.
  - intros e He. destruct (DE e He) as (Hx & Hy & Hc & _). destruct (PB _ _ (Hd _ _ Hx Hy) Hc) as (P1 & P2). destruct (PB _ _ (PS _ _ Hx Hy) Hc) as (P3 & P4).
    split; [lia|]. split; [lia|]. apply zlen_slice; try lia; apply Z.mul_nonneg_nonneg; lia.
  - intros e e' He He' Hee. destruct (DE e He) as (Hx & Hy & Hc & E1). destruct (DE e' He') as (Hx' & Hy' & Hc' & E2).
    assert (D : dest (X e) (Y e) = dest (X e') (Y e') /\ C e = C e') by (apply (radix B); auto).
    destruct D as (D & CE). apply Hi in D as (DX & DY); auto. rewrite E1, E2, DX, DY, CE. reflexivity.
  - intros e d He L. destruct (DE e He) as (Hx & Hy & Hc & _). destruct (PB _ _ (Hd _ _ Hx Hy) Hc) as (P1 & P2). destruct (PB _ _ (PS _ _ Hx Hy) Hc) as (P3 & P4).
    assert (0 <= (dest (X e) (Y e) * B + C e) * n) by (apply Z.mul_nonneg_nonneg; lia). assert (0 <= ((Y e * W + X e) * B + C e) * n) by (apply Z.mul_nonneg_nonneg; lia).
    unfold K. rewrite rde_ok by lia. cbn [bind]. rewrite wre_ok; try lia; auto. apply zlen_slice; lia.
  - exists d. split; [exact E|]. split; [exact L|]. intros x y c Hx Hy Hc. destruct (DC x y c Hx Hy Hc) as (EX & EY & EC).
    assert (R : 0 <= (x * H + y) * B + c < W * H * B) by (assert (x * H + y + 1 <= W * H) by nia; assert ((x * H + y + 1) * B <= W * H * B) by (apply Z.mul_le_mono_nonneg_r; lia); nia).
    specialize (A _ R). cbv beta in A. rewrite EX, EY, EC in A. exact A.
Qed.
End Turn.

(** where the code puts the pixel of column x and row y, as column and row of the result *)
Definition spot (a W H x y : Z) : Z * Z := if a =? 90 then (H - 1 - y, x) else if a =? 180 then (x, H - 1 - y) else (y, W - 1 - x).
Definition right_angle (a : Z) : Prop := a = 90 \/ a = 180 \/ a = 270.

Theorem C81_rotate_partial : forall scr alloc a im buf, img_ok im buf -> layout_ok im -> allocator_ok scr -> allocator_ok alloc ->
  right_angle a -> Depth im = 1 -> (Width im = Height im \/ a = 180) -> scr (SizeOfData im) <> None -> alloc (SizeOfData im) <> None ->
  exists im' buf', iluRotate scr alloc a im = Ok (true, im', []) /\ img_ok im' buf' /\
    Width im' = Width im /\ Height im' = Height im /\ Depth im' = 1 /\ Bpp im' = Bpp im /\ Bpc im' = Bpc im /\
    Format im' = Format im /\ Type_ im' = Type_ im /\ Origin im' = Origin im /\
    forall x y c, 0 <= x < Width im -> 0 <= y < Height im -> 0 <= c < Bpp im ->
      let (x', y') := spot a (Width im) (Height im) x y in chan_at im' buf' x' y' 0 c = chan_at im buf x y 0 c.
Proof.
  intros scr alloc a im buf Hok Hlay Ha Hb Ra Hdep Hsq Hs Hm.
  assert (Hok' := Hok). destruct Hok' as (HDt & HW & HH & HD & Hbpp & Hbpc & Hbps & Hpl & Hsz & H32 & Hlen).
  assert (BT : ilGetBpcType (Type_ im) = Bpc im) by (destruct Hlay as (_ & K & _); exact K).
  unfold iluRotate. rewrite HDt. change (2 ^ 32) with 4294967296 in *.
  set (B := Bpp im) in *. set (n := Bpc im) in *. set (W := Width im) in *. set (H := Height im) in *.
  assert (EW : (if a =? 180 then W else H) = W) by (destruct Hsq as [->| ->]; [destruct (a =? 180)|]; reflexivity). rewrite EW.
  assert (EH : (if a =? 180 then H else W) = H) by (destruct Hsq as [->| ->]; [destruct (a =? 180)|]; reflexivity). rewrite EH.
  assert (SZ : SizeOfData im = W * B * n * H * 1) by (rewrite Hsz, Hdep, Hpl, Hbps; ring).
  assert (M1 : 1 <= B * n) by nia. assert (M2 : 1 <= W * (B * n)) by nia. assert (M3 : W * (B * n) <= W * (B * n) * H) by (apply le_mul_l; lia).
  assert (M4 : W * (B * n) * H = SizeOfData im) by (rewrite SZ; ring).
  rewrite (u32_small (B * n * W)) by lia. replace (B * n * W * H) with (SizeOfData im) by (rewrite SZ; ring). rewrite u32_small by lia.
  destruct (scr (SizeOfData im)) as [new|] eqn:E; [|congruence]. assert (L := Ha _ _ E).
  assert (SB : SizeOfData im = W * H * B * n) by (rewrite SZ; ring).
  set (dest := fun x y => let (x', y') := spot a W H x y in y' * W + x').
  assert (HB0 : 0 < B) by lia. assert (Hn0 : 0 < n) by lia. assert (WHB : W * H * B <= SizeOfData im) by (rewrite SB; apply le_mul_l; nia).
  assert (CN : a = 90 /\ W = H \/ a = 180 \/ a = 270 /\ W = H) by (destruct Hsq, Ra as [ | [ | ]]; lia).
  assert (DR : forall x y, 0 <= x < W -> 0 <= y < H -> 0 <= dest x y < W * H).
  { intros x y Hx Hy. unfold dest, spot. destruct CN as [(-> & EQ)|[ -> |(-> & EQ)]]; cbn [Z.eqb Pos.eqb]; clear - Hx Hy EQ || clear - Hx Hy; nia. }
  destruct (turn_loop B n W H dest HB0 Hn0 ltac:(lia) ltac:(lia) buf new
    (fun x y c d => let! v := rde buf n (u32 (u32 (y * (Bps im / n) + x * B) + c)) in
       wre d n (u32 ((if a =? 90 then u32 (x * (W * B) + u32 (W - 1 - y) * B) else if a =? 180 then u32 (u32 (H - 1 - y) * (W * B) + x * B) else u32 (u32 (H - 1 - x) * (W * B) + y * B)) + c)) v))
    as (d & ED & LD & A); auto; try lia.
  - intros x y x' y' Hx Hy Hx' Hy'. unfold dest, spot. destruct CN as [(-> & EQ)|[ -> |(-> & EQ)]]; cbn [Z.eqb Pos.eqb]; intros Q; [assert (x = x' /\ H - 1 - y = H - 1 - y')|assert (H - 1 - y = H - 1 - y' /\ x = x')|assert (W - 1 - x = W - 1 - x' /\ y = y')]; try lia;
      apply (radix W) in Q; lia.
  - intros x y c d Hx Hy Hc. assert (Bps im / n = W * B) as -> by (rewrite Hbps, Z.mul_assoc; apply Z.div_mul; lia).
    assert (P1 : y * (W * B) + x * B + c = (y * W + x) * B + c) by ring.
    assert (I1 : 0 <= y * W + x < W * H) by (clear - Hx Hy; nia).
    assert (I2 : 0 <= (y * W + x) * B + c < W * H * B) by (clear - I1 Hc HB0; nia).
    assert (I3 := DR x y Hx Hy). assert (I4 : 0 <= dest x y * B + c < W * H * B) by (clear - I3 Hc HB0; nia).
    assert (I5 : 0 <= (y * W + x) * B) by (apply Z.mul_nonneg_nonneg; lia). assert (I6 : 0 <= dest x y * B) by (apply Z.mul_nonneg_nonneg; lia).
    assert (WL : W * H <= W * H * B) by (apply le_mul_l; nia). assert (WW : W <= W * H) by (apply le_mul_l; lia). assert (WW2 : H <= H * W) by (apply le_mul_l; lia).
    rewrite (u32_small (y * (W * B) + x * B)) by lia. rewrite P1, (u32_small ((y * W + x) * B + c)) by lia.
    replace (if a =? 90 then u32 (x * (W * B) + u32 (W - 1 - y) * B) else if a =? 180 then u32 (u32 (H - 1 - y) * (W * B) + x * B) else u32 (u32 (H - 1 - x) * (W * B) + y * B)) with (dest x y * B); [rewrite u32_small by lia; reflexivity|].
    unfold dest, spot in *. destruct CN as [(-> & EQ)|[ -> |(-> & EQ)]]; cbn [Z.eqb Pos.eqb] in *.
    + rewrite (u32_small (W - 1 - y)) by lia. rewrite u32_small; [rewrite EQ; ring|]. rewrite EQ in *. lia.
    + rewrite (u32_small (H - 1 - y)) by lia. rewrite u32_small; [ring|]. lia.
    + rewrite (u32_small (H - 1 - x)) by lia. rewrite u32_small; [rewrite EQ; ring|]. rewrite EQ in *. lia.
  - unfold turn. fold n B W H. rewrite EW. rewrite (u32_small (B * n * W)) by lia.
    replace (B * n * W / n) with (W * B) by (replace (B * n * W) with (W * B * n) by ring; rewrite Z.div_mul by lia; reflexivity).
    rewrite ED. cbn [bind].
    destruct (tex_image alloc im W H 1 B (Format im) (Type_ im) d) as (im' & E' & Ok' & F1 & F2 & F3 & F4 & F5 & F6 & F7 & F8); rewrite ?BT; try (change (2 ^ 32) with 4294967296); fold n; try lia; auto.
    { rewrite <- SZ. exact Hm. }
    rewrite E'. cbn [bind]. exists (with_Origin im' (Origin im)), d. split; [reflexivity|]. split; [unfold img_ok in *; cbn; exact Ok'|].
    cbn [with_Origin Width Height Depth Bpp Bpc Format Type_ Origin Data]. rewrite F5, BT. do 8 (split; [auto|]).
    intros x y c Hx Hy Hc. specialize (A x y c Hx Hy Hc). unfold dest in A. destruct (spot a W H x y) as (x', y').
    unfold chan_at, pix_off. cbn [with_Origin Width Height Depth Bpp Bpc]. rewrite F1, F2, F4, F5, BT. fold n B W H.
    etransitivity; [etransitivity; [|exact A]|]; f_equal; ring.
Qed.
Print Assumptions C81_rotate_partial.

(** a 2x2 picture turned by 90 degrees *)
Definition square : img := mkImg 2 2 1 1 1 2 (Some [1; 2; 3; 4]) 4 4 IL_LUMINANCE IL_UNSIGNED_BYTE IL_ORIGIN_UPPER_LEFT (mkPal None 0 IL_PAL_NONE) 0 0 0 0.
Example C81_ex : img_ok square [1; 2; 3; 4] /\ layout_ok square /\
  match iluRotate zeros zeros 90 square with Ok (true, im, []) => Data im = Some [3; 1; 4; 2] | _ => False end.
Proof. unfold img_ok, layout_ok. vm_compute. intuition congruence. Qed.

(** C81b: a rotation by 180 degrees keeps every column: it is the mirror image, not the turned one. *)
Theorem C81_half_turn_refuted : forall scr alloc im buf, img_ok im buf -> layout_ok im -> allocator_ok scr -> allocator_ok alloc ->
  Depth im = 1 -> scr (SizeOfData im) <> None -> alloc (SizeOfData im) <> None ->
  exists im' buf', iluRotate scr alloc 180 im = Ok (true, im', []) /\ img_ok im' buf' /\
    forall x y c, 0 <= x < Width im -> 0 <= y < Height im -> 0 <= c < Bpp im -> chan_at im' buf' x (Height im - 1 - y) 0 c = chan_at im buf x y 0 c.
Proof.
  intros scr alloc im buf Hok Hl Ha Hb Hd Hs Hm. destruct (C81_rotate_partial scr alloc 180 im buf) as (im' & b & E & Ok' & _ & _ & _ & _ & _ & _ & _ & _ & A); auto; [right; left; reflexivity|].
  exists im', b. split; [exact E|]. split; [exact Ok'|]. exact A.
Qed.
Print Assumptions C81_half_turn_refuted.

Lemma wre_ub : forall l n i v, 0 < n -> zlen l < (i + 1) * n -> wre l n i v = UB.
Proof. intros l n i v Hn Hl. unfold wre. replace (inb (zlen l) (i * n) n) with false; [reflexivity|]. symmetry. apply not_true_iff_false. rewrite inb_true. lia. Qed.

(** an operation that keeps [I] or is undefined *)
Definition good {S} (I : S -> Prop) (r : res S) : Prop := match r with Ok s => I s | UB => True | Fuel => False end.
Lemma for_good : forall S (I : S -> Prop) (f : Z -> S -> res S) n lo s, (forall i s, I s -> good I (f i s)) -> I s -> good I (for_ n lo f s).
Proof. intros S I f n. induction n as [|n IH]; intros lo s Hf Hs; cbn [for_]; [exact Hs|]. assert (G := Hf lo s Hs). destruct (f lo s); cbn [bind]; [apply IH; auto|exact Logic.I|contradiction]. Qed.
Lemma loop_good : forall S (I : S -> Prop) (f : Z -> S -> res S) lo hi s, (forall i s, I s -> good I (f i s)) -> I s -> good I (loop lo hi f s).
Proof. intros. apply for_good; assumption. Qed.
Lemma loop_reach_ub : forall S (I : S -> Prop) (f : Z -> S -> res S) lo m hi s, lo <= m < hi -> I s -> (forall i s, I s -> good I (f i s)) -> (forall s, I s -> f m s = UB) -> loop lo hi f s = UB.
Proof.
  intros S I f lo m hi s Hm Hs HI HU. rewrite (loop_split _ lo m hi) by lia. assert (P := loop_good _ I f lo m s HI Hs). destruct (loop lo m f s) as [t| |]; cbn [bind good] in *; auto; [|contradiction].
  apply loop_first_ub; [lia|auto].
Qed.

Lemma copy_good : forall src n i j L d, zlen d = L -> good (fun d => zlen d = L) (let! v := rde src n i in wre d n j v).
Proof.
  intros src n i j L d Hd. unfold rde. destruct (inb (zlen src) (i * n) n) eqn:Q; cbn [bind good]; auto. unfold wre.
  destruct (inb (zlen d) (j * n) n && (zlen (slice src (i * n) n) =? n)) eqn:R; cbn [good]; auto. apply andb_true_iff in R as (R & Z1). apply inb_true in R. rewrite zlen_splice; lia.
Qed.

Lemma u32_wrap : forall v, 0 < v <= 4294967296 -> u32 (- v) = 4294967296 - v.
Proof. intros v Hv. unfold u32. symmetry. apply Z.mod_unique with (-1); lia. Qed.

(** C81c: turning by 90 or 270 degrees an image that is not square accesses memory outside it *)
Theorem C81_size_refuted : forall scr alloc a im buf, img_ok im buf -> allocator_ok scr -> a = 90 \/ a = 270 -> Depth im = 1 -> Width im <> Height im ->
  (let m := Z.max (Width im) (Height im) in m * (m + 1) * Bpp im * Bpc im < 2 ^ 31) -> scr (SizeOfData im) <> None ->
  iluRotate scr alloc a im = UB.
Proof.
  intros scr alloc a im buf Hok Ha Aa Hdep Hne Hmax Hs. cbv zeta in Hmax.
  assert (Hok' := Hok). destruct Hok' as (HDt & HW & HH & HD & Hbpp & Hbpc & Hbps & Hpl & Hsz & H32 & Hlen).
  unfold iluRotate. rewrite HDt. change (2 ^ 32) with 4294967296 in *. change (2 ^ 31) with 2147483648 in *. replace (a =? 180) with false by lia.
  set (B := Bpp im) in *. set (n := Bpc im) in *. set (W := Width im) in *. set (H := Height im) in *.
  assert (SZ : SizeOfData im = W * H * B * n) by (rewrite Hsz, Hdep, Hpl, Hbps; ring).
  assert (M1 : 1 <= B * n) by nia. assert (M2 : 1 <= B * n * H) by nia. assert (M3 : B * n * H <= B * n * H * W) by (apply le_mul_l; lia).
  assert (M4 : B * n * H * W = SizeOfData im) by (rewrite SZ; ring).
  rewrite (u32_small (B * n * H)) by lia. rewrite M4, u32_small by lia. destruct (scr (SizeOfData im)) as [new|] eqn:E; [|congruence]. assert (L := Ha _ _ E).
  replace (turn a im buf new) with (@UB (list Z)); [reflexivity|]. symmetry.
  unfold turn. fold n B W H. replace (a =? 180) with false by lia. rewrite (u32_small (B * n * H)) by lia.
  replace (B * n * H / n) with (H * B) by (replace (B * n * H) with (H * B * n) by ring; rewrite Z.div_mul by lia; reflexivity).
  set (m := Z.max W H) in *. assert (HM : W <= m /\ H <= m /\ (W < H /\ m = H \/ H < W /\ m = W)) by lia. clearbody m.
  assert (T1 : m * (m + 1) * B <= m * (m + 1) * B * n) by (apply le_mul_l; [|lia]; repeat apply Z.mul_nonneg_nonneg; lia).
  assert (T2 : W * H * B <= m * (m + 1) * B) by (apply Z.mul_le_mono_nonneg_r; [lia|]; apply Z.mul_le_mono_nonneg; lia).
  assert (T3 : W * H * B <= W * H * B * n) by (apply le_mul_l; [|lia]; repeat apply Z.mul_nonneg_nonneg; lia).
  assert (OUT : forall d j v, zlen d = zlen new -> W * H * B <= j -> wre d n j v = UB).
  { intros d j v Ld Hj. apply wre_ub; [lia|]. assert ((W * H * B + 1) * n <= (j + 1) * n) by (apply Z.mul_le_mono_nonneg_r; lia). lia. }
  set (I := fun d : list Z => zlen d = zlen new).
  assert (GO : forall i s f, I s -> (forall j c, exists i' j', f j c = fun d => let! v := rde buf n i' in wre d n j' v) -> good I (loop 0 i (fun j => loop 0 B (fun c => f j c)) s)).
  { intros i s f Is Hf. apply loop_good; auto. intros j t It. apply loop_good; auto. intros c t' It'. destruct (Hf j c) as (i' & j' & ->). apply copy_good. exact It'. }
  assert (K : exists x y, 0 <= x < W /\ 0 <= y < H /\ W * H * B <= (if a =? 90 then u32 (x * (H * B) + u32 (W - 1 - y) * B) else u32 (u32 (H - 1 - x) * (H * B) + y * B)) < 4294967296).
  { destruct Aa as [-> | ->]; cbn [Z.eqb Pos.eqb]; destruct HM as (_ & _ & [(Q1 & Q2)|(Q1 & Q2)]); rewrite Q2 in *.
    - exists 0, (H - 1). assert (HB1 : 0 < (H - W) * B <= H * (H + 1) * B) by (split; [nia|apply Z.mul_le_mono_nonneg_r; nia]).
      split; [lia|]. split; [lia|]. replace (W - 1 - (H - 1)) with (- (H - W)) by lia. rewrite (u32_wrap (H - W)) by nia. unfold u32.
      replace ((0 * (H * B) + (4294967296 - (H - W)) * B) mod 4294967296) with (4294967296 - (H - W) * B); [lia|]. apply Z.mod_unique with (B - 1); lia.
    - exists (W - 1), 0. assert (HB1 : W * H * B <= (W - 1) * (H * B) + (W - 1) * B <= W * (W + 1) * B) by (clear - Q1 HH HW Hbpp; nia).
      split; [lia|]. split; [lia|]. rewrite (u32_small (W - 1 - 0)) by lia. rewrite Z.sub_0_r. rewrite u32_small by lia. lia.
    - exists 0, 0. assert (HB1 : W * H * B <= (H - 1) * (H * B) <= H * (H + 1) * B) by (clear - Q1 HH HW Hbpp; nia).
      split; [lia|]. split; [lia|]. rewrite (u32_small (H - 1 - 0)) by lia. rewrite Z.sub_0_r. rewrite u32_small by lia. lia.
    - exists (W - 1), 0. assert (HB1 : 0 < (W - H) * (H * B) <= W * (W + 1) * B) by (clear - Q1 HH HW Hbpp; nia).
      split; [lia|]. split; [lia|]. replace (H - 1 - (W - 1)) with (- (W - H)) by lia. rewrite (u32_wrap (W - H)) by nia. unfold u32.
      replace (((4294967296 - (W - H)) * (H * B) + 0 * B) mod 4294967296) with (4294967296 - (W - H) * (H * B)); [lia|]. apply Z.mod_unique with (H * B - 1); lia. }
  destruct K as (x & y & Hx & Hy & K).
  apply (loop_reach_ub _ I) with (m := x); [exact Hx|reflexivity| |].
  - intros i s Is. apply (GO H s (fun j c d => let! v := rde buf n (u32 (u32 (j * (Bps im / n) + i * B) + c)) in
       wre d n (u32 ((if a =? 90 then u32 (i * (H * B) + u32 (W - 1 - j) * B) else u32 (u32 (H - 1 - i) * (H * B) + j * B)) + c)) v)); [exact Is|].
    intros j c. do 2 eexists. reflexivity.
  - intros s Is. apply (loop_reach_ub _ I) with (m := y); [exact Hy|exact Is| |].
    + intros i t It. apply loop_good; auto. intros c t' It'. apply copy_good. exact It'.
    + intros t It. apply loop_first_ub; [lia|]. unfold rde. destruct (inb _ _ _); cbn [bind]; [|reflexivity]. rewrite Z.add_0_r. rewrite u32_small by lia. apply OUT; [exact It|lia].
Qed.
Print Assumptions C81_size_refuted.
