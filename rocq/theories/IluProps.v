(** C72 to C75: flipping without changing the origin, negatives, inverted alpha, counting colours. *)
From Coq Require Import ZArith List Bool Lia.
From Verif Require Import Base Slices Enums Utility UtilityProofs Image ImageSpec Elem Flip FlipProofs FlipProps
  PixelsProofs Channels ChannelsSpec ChannelsProofs ChannelsProps Clear ClearProps PalProps Ilu.
Import ListNotations.
Open Scope Z_scope.

(** ** C72 *)

(** C72: iluFlipImage turns the picture upside down: the row [t] rows below the top becomes the row [t] rows
    above the bottom; nothing else of the image changes; done twice, it restores the image. *)
Theorem C72_flip : forall scr im buf, img_ok im buf -> scratch_available scr ->
  (Origin im = IL_ORIGIN_LOWER_LEFT \/ Origin im = IL_ORIGIN_UPPER_LEFT) ->
  exists buf', let im' := with_Data im (Some buf') in
    iluFlipImage scr im = Ok im' /\ img_ok im' buf' /\
    (forall x t z k, in_image im x t z k -> picture im' buf' x t z k = picture im buf x (Height im - 1 - t) z k) /\
    iluFlipImage scr im' = Ok im.
Proof.
  intros scr im buf Hok Hs Ho.
  assert (HU : forall im buf im', img_ok im buf -> ilFlipImage scr im = Ok im' -> forall b', Data im' = Some b' -> iluFlipImage scr im = Ok (with_Data im (Some b'))).
  { intros im0 b0 im1 (HD & _) E b' D1. unfold ilFlipImage in E. unfold iluFlipImage. rewrite HD in *.
    apply bind_ok in E. destruct E as (r & E & X). rewrite E. cbn [bind]. injection X as <-. cbn in D1. injection D1 as <-. reflexivity. }
  destruct (C14_flip_reverses_rows_partial scr im buf Hok Hs) as (im' & buf' & E & Hok' & Him & A).
  assert (D1 : Data im' = Some buf') by apply Hok'.
  assert (Hok2 : img_ok (with_Data im (Some buf')) buf') by (rewrite Him in Hok'; exact Hok').
  exists buf'. split; [exact (HU im buf im' Hok E _ D1)|]. split; [exact Hok2|]. split.
  - intros x t z k (Ix & It & Iz & Ik). unfold picture. cbn [with_Data Origin Height].
    change (pix_off (with_Data im (Some buf'))) with (pix_off im). rewrite A by (unfold in_image; destruct Ho as [ -> | -> ]; cbn; lia).
    do 2 f_equal. destruct (Origin im =? IL_ORIGIN_UPPER_LEFT); lia.
  - destruct (C14_flip_involution_partial scr scr im buf Hok Hs Hs Ho) as (im1 & E1 & E2). assert (im1 = im') by congruence. subst im1.
    destruct Hok as (HDt & _).
    unfold ilFlipImage in E2. rewrite D1 in E2. unfold iluFlipImage. cbn [with_Data Data Depth Bps Height].
    replace (Depth im') with (Depth im) in E2 by (rewrite Him; reflexivity). replace (Bps im') with (Bps im) in E2 by (rewrite Him; reflexivity).
    replace (Height im') with (Height im) in E2 by (rewrite Him; reflexivity).
    apply bind_ok in E2. destruct E2 as (r & E2 & X). rewrite E2. cbn [bind]. injection X as X. f_equal.
    assert (DR : Data im = Some r) by (rewrite <- X; reflexivity). clear - DR. destruct im; cbn in *. subst. reflexivity.
Qed.
Print Assumptions C72_flip.

Example C72_ex :
  match iluFlipImage (fun _ _ => Some (repeat 0 (Z.to_nat 4096))) (mkImg 2 2 1 1 1 2 (Some [1;2;3;4]) 4 4 IL_LUMINANCE IL_UNSIGNED_BYTE IL_ORIGIN_UPPER_LEFT (mkPal None 0 IL_PAL_NONE) 0 0 0 0) with
  | Ok im => Data im = Some [3;4;1;2] /\ Origin im = IL_ORIGIN_UPPER_LEFT | _ => False end.
Proof. vm_compute. split; reflexivity. Qed.

(** ** C73 *)

(** nested loops over pixels and channels, as one loop over elements *)
Lemma loop_flatten : forall S B (g : Z -> S -> res S) P (s : S), 0 <= B -> 0 <= P ->
  loop 0 P (fun p => loop 0 B (fun c => g (p * B + c))) s = loop 0 (P * B) g s.
Proof.
  intros S B g P s HB HP. revert s. pattern P. apply natlike_ind; [|clear P HP|exact HP].
  - intros s. reflexivity.
  - intros P0 H0 IH s. rewrite (loop_split _ 0 P0 (Z.succ P0)) by lia.
    assert (0 <= P0 * B) by (apply Z.mul_nonneg_nonneg; lia).
    rewrite (loop_split _ 0 (P0 * B) (Z.succ P0 * B)) by lia. rewrite IH.
    destruct (loop 0 (P0 * B) g s) as [s1| |]; cbn [bind]; auto.
    assert (L1 : loop P0 (Z.succ P0) (fun p => loop 0 B (fun c => g (p * B + c))) s1 = loop 0 B (fun c => g (P0 * B + c)) s1).
    { unfold loop at 1. replace (Z.to_nat (Z.succ P0 - P0)) with 1%nat by lia. cbn [for_]. destruct (loop 0 B _ s1); reflexivity. }
    rewrite L1. unfold loop. replace (Z.to_nat (Z.succ P0 * B - P0 * B)) with (Z.to_nat (B - 0)) by lia.
    generalize (Z.to_nat (B - 0)) as n. intros n. assert (G : forall n k s, for_ n k (fun c => g (P0 * B + c)) s = for_ n (P0 * B + k) g s).
    { clear. induction n as [|n IH]; intros k s; cbn [for_]; auto. destruct (g (P0 * B + k) s); cbn [bind]; auto. rewrite IH. f_equal. lia. }
    rewrite G. f_equal. lia.
Qed.

(** one element of [n] bytes per iteration *)
Lemma elem_map : forall n N (f : Z -> list Z -> list Z) body buf, 0 < n -> 0 <= N -> N * n <= zlen buf ->
  (forall e v, zlen v = n -> zlen (f e v) = n) ->
  (forall e d, 0 <= e < N -> zlen d = zlen buf -> body e d = Ok (splice d (e * n) (f e (slice d (e * n) n)))) ->
  exists d, loop 0 N body buf = Ok d /\ zlen d = zlen buf /\
    (forall e, 0 <= e < N -> slice d (e * n) n = f e (slice buf (e * n) n)) /\
    (forall j, N * n <= j -> geti d j = geti buf j).
Proof.
  intros n N f body buf Hn HN Hl Hf Hb.
  destruct (loop_rule _ (fun k d => zlen d = zlen buf /\ (forall e, 0 <= e < k -> slice d (e * n) n = f e (slice buf (e * n) n)) /\
     (forall j, k * n <= j -> geti d j = geti buf j)) 0 N body buf) as (d & E & L & A & B); [lia|split; [auto|split; [lia|auto]]| |exists d; auto].
  intros k d Hk (L & A & B). assert (0 <= k * n) by (apply Z.mul_nonneg_nonneg; lia). assert ((k + 1) * n <= N * n) by (apply Z.mul_le_mono_nonneg_r; lia).
  assert (SE : slice d (k * n) n = slice buf (k * n) n).
  { apply list_ext; [rewrite !zlen_slice by lia; reflexivity|]. rewrite zlen_slice by lia. intros i Hi. rewrite !geti_slice by lia. apply B. lia. }
  rewrite Hb, SE by auto. assert (Lv : zlen (f k (slice buf (k * n) n)) = n) by (apply Hf; apply zlen_slice; lia).
  eexists. split; [reflexivity|]. split; [rewrite zlen_splice; lia|]. split.
  - intros e He. destruct (Z.eq_dec e k) as [->|Ne].
    + set (w := f k (slice buf (k * n) n)) in *. assert (T := slice_splice_same d (k * n) w). rewrite Lv in T. apply T; lia.
    + assert ((e + 1) * n <= k * n) by (apply Z.mul_le_mono_nonneg_r; lia). assert (0 <= e * n) by (apply Z.mul_nonneg_nonneg; lia).
      rewrite slice_splice_other by lia. apply A. lia.
  - intros j Hj. rewrite geti_splice by lia. rewrite Lv. replace ((k * n <=? j) && (j <? k * n + n)) with false by lia. apply B. lia.
Qed.

Lemma splice_back : forall d o n, 0 <= o -> 0 <= n -> o + n <= zlen d -> splice d o (slice d o n) = d.
Proof.
  intros d o n Ho Hn Hl. apply list_ext; [rewrite zlen_splice; rewrite ?zlen_slice by lia; lia|].
  intros i Hi. rewrite zlen_splice in Hi by (rewrite ?zlen_slice by lia; lia).
  rewrite geti_splice by (rewrite ?zlen_slice by lia; lia). rewrite zlen_slice by lia.
  destruct ((o <=? i) && (i <? o + n)) eqn:E; [|reflexivity]. rewrite geti_slice by lia. f_equal. lia.
Qed.

Lemma zlen_bnot : forall v, zlen (bnot v) = zlen v.
Proof. intros v. unfold zlen, bnot. rewrite map_length. reflexivity. Qed.

Lemma bnot_twice : forall v, bnot (bnot v) = v.
Proof. intros v. unfold bnot. rewrite map_map. rewrite <- (map_id v) at 2. apply map_ext. intros; lia. Qed.

(** the complement of the bytes is the complement of the number *)
Lemma bnot_val : forall v, val (bnot v) = 256 ^ zlen v - 1 - val v.
Proof.
  induction v as [|b v IH]; [reflexivity|]. assert (0 <= zlen v) by auto.
  assert (E : 256 ^ zlen (b :: v) = 256 * 256 ^ zlen v) by (rewrite zlen_cons, Z.pow_add_r by lia; lia).
  rewrite E. cbn [bnot map val]. fold (bnot v). rewrite IH. lia.
Qed.

Definition flag (mask : option (list Z)) (p : Z) : bool := match mask with Some m => negb (geti m p =? 0) | None => true end.

Lemma negate_ok : forall mask n bpp N d, (n = 1 \/ n = 2 \/ n = 4) -> 1 <= bpp -> 0 <= N ->
  N * bpp * n <= zlen d -> zlen d < 4294967296 -> (forall m, mask = Some m -> N <= zlen m) ->
  exists d', negate mask n bpp (N * bpp * n) d = Ok d' /\ zlen d' = zlen d /\
    (forall e, 0 <= e < N * bpp -> slice d' (e * n) n = if flag mask (e / bpp) then bnot (slice d (e * n) n) else slice d (e * n) n) /\
    (forall j, N * bpp * n <= j -> geti d' j = geti d j).
Proof.
  intros mask n bpp N d Hn Hb HN Hl H32 Hm. unfold negate.
  assert (P0 : 0 <= N * bpp) by (apply Z.mul_nonneg_nonneg; lia). rewrite Z.div_mul by lia.
  assert (P1 : N * bpp <= N * bpp * n) by (rewrite <- (Z.mul_1_r (N * bpp)) at 1; apply Z.mul_le_mono_nonneg_l; lia).
  replace (negb ((n =? 1) || (n =? 2) || (n =? 4))) with false by lia.
  set (f := fun e v => if flag mask (e / bpp) then bnot v else v).
  assert (Hf : forall e v, zlen v = n -> zlen (f e v) = n) by (intros e v L; unfold f; destruct (flag mask (e / bpp)); rewrite ?zlen_bnot; auto).
  assert (EM := fun body => elem_map n (N * bpp) f body d ltac:(lia) P0 Hl Hf).
  assert (B1 : forall e, 0 <= e < N * bpp -> 0 <= e * n /\ e * n + n <= zlen d).
  { intros e He. assert (0 <= e * n) by (apply Z.mul_nonneg_nonneg; lia). assert ((e + 1) * n <= N * bpp * n) by (apply Z.mul_le_mono_nonneg_r; lia). lia. }
  assert (B2 : forall e d0, 0 <= e < N * bpp -> zlen d0 = zlen d -> (let! v := rde d0 n e in wre d0 n e (bnot v)) = Ok (splice d0 (e * n) (bnot (slice d0 (e * n) n)))).
  { intros e d0 He L. destruct (B1 e He). rewrite rde_ok by lia. cbn [bind]. rewrite wre_ok; auto; [lia|]. rewrite zlen_bnot. apply zlen_slice; lia. }
  destruct mask as [m|].
  - specialize (Hm m eq_refl). rewrite stride_loop by lia.
    rewrite (loop_ext _ 0 N _ (fun p => loop 0 bpp (fun c => (fun e d => let! sel := rd m (e / bpp) in
       if negb (sel =? 0) then let! v := rde d n e in wre d n e (bnot v) else Ok d) (p * bpp + c)))).
    2:{ intros p st Hp. apply loop_ext. intros c st' Hc. cbv beta. rewrite Z.add_0_l, Z.div_mul by lia.
        replace ((p * bpp + c) / bpp) with p; [reflexivity|]. apply Z.div_unique with c; lia. }
    rewrite (loop_flatten _ bpp (fun e d => let! sel := rd m (e / bpp) in
       if negb (sel =? 0) then let! v := rde d n e in wre d n e (bnot v) else Ok d)) by lia.
    apply EM. intros e d0 He L. assert (Q : 0 <= e / bpp < N).
    { split; [apply Z.div_pos; lia|]. apply Z.div_lt_upper_bound; lia. }
    rewrite rd_ok by lia. cbn [bind]. unfold f, flag. destruct (negb (geti m (e / bpp) =? 0)); [apply B2; auto|].
    destruct (B1 e He). rewrite splice_back by lia. reflexivity.
  - apply EM. intros e d0 He L. cbn [flag f]. unfold f, flag. apply B2; auto.
Qed.

(** the negative of a component of [n] bytes *)
Definition negative (n : Z) (v w : list Z) : Prop := zlen w = n /\ val w = 256 ^ n - 1 - val v.

(** C73: without a region every component of every pixel becomes its complement, and doing it twice restores the
    image; with a region only the pixels in it change.  [mask] is the list of pixels in the region, if one is set.
    Images of 1, 2 or 4 bytes per component; not colour-indexed. *)
Theorem C73_negative_partial : forall mask im buf, img_ok im buf -> Format im <> IL_COLOUR_INDEX -> Bpc im <> 8 ->
  (forall m, mask = Some m -> zlen m = Width im * Height im * Depth im) ->
  exists buf', let im' := with_Data im (Some buf') in
    iluNegative mask im = Ok (true, im', []) /\ img_ok im' buf' /\
    (forall x y z c, in_pixels im x y z -> 0 <= c < Bpp im ->
       let selected := match mask with None => True | Some m => geti m ((z * Height im + y) * Width im + x) <> 0 end in
       (selected -> negative (Bpc im) (chan_at im buf x y z c) (chan_at im' buf' x y z c)) /\
       (~ selected -> chan_at im' buf' x y z c = chan_at im buf x y z c)) /\
    iluNegative mask im' = Ok (true, im, []).
Proof.
  intros mask im buf Hok Hf H8 Hm.
  assert (G : forall b, zlen b = zlen buf -> exists b', negate mask (Bpc im) (Bpp im) (SizeOfData im) b = Ok b' /\ zlen b' = zlen b /\
    (forall e, 0 <= e < Width im * Height im * Depth im * Bpp im -> slice b' (e * Bpc im) (Bpc im) =
       if flag mask (e / Bpp im) then bnot (slice b (e * Bpc im) (Bpc im)) else slice b (e * Bpc im) (Bpc im))).
  { intros b Lb. destruct (ok_pixels im buf Hok) as (Q1 & Q2 & Q3 & Q4 & Q5 & Q6 & Q7 & _).
    assert (Hok' := Hok). destruct Hok' as (HDt & HW & HH & HD & Hbpp & Hbpc & Hbps & Hpl & Hsz & H32 & Hlen).
    destruct (negate_ok mask (Bpc im) (Bpp im) (Width im * Height im * Depth im) b) as (b' & E & L & A & _); [lia|lia|lia|lia|lia| |].
    { intros m Em. rewrite (Hm m Em). lia. }
    exists b'. rewrite <- Hlen, Q3. rewrite Z.mul_assoc. auto. }
  destruct (ok_pixels im buf Hok) as (Q1 & Q2 & Q3 & Q4 & Q5 & Q6 & Q7 & _).
  assert (Hok' := Hok). destruct Hok' as (HDt & HW & HH & HD & Hbpp & Hbpc & Hbps & Hpl & Hsz & H32 & Hlen).
  unfold iluNegative. replace (Format im =? IL_COLOUR_INDEX) with false by lia. rewrite HDt.
  destruct (G buf eq_refl) as (b' & E & L & A). rewrite E. cbn [bind]. exists b'. cbv zeta. split; [reflexivity|].
  assert (Hok2 : img_ok (with_Data im (Some b')) b') by (unfold img_ok; cbn; rewrite L; tauto). split; [exact Hok2|]. split.
  - intros x y z c Hin Hc.
    set (p := (z * Height im + y) * Width im + x). assert (CP : forall b, chan_at im b x y z c = slice b ((p * Bpp im + c) * Bpc im) (Bpc im)).
    { intros b. unfold chan_at. f_equal. unfold pix_off, p. ring. }
    change (chan_at (with_Data im (Some b')) b' x y z c) with (chan_at im b' x y z c).
    assert (Hp : 0 <= p < Width im * Height im * Depth im).
    { destruct Hin as (Ix & Iy & Iz). assert (R := FlipProofs.row_bound (Width im) (Height im) y x Ix Iy).
      assert (R2 := FlipProofs.row_bound (Height im * Width im) (Depth im) z (y * Width im + x) R Iz). unfold p. lia. }
    assert (He : 0 <= p * Bpp im + c < Width im * Height im * Depth im * Bpp im) by (apply FlipProofs.row_bound; auto).
    rewrite !CP, A by auto. replace ((p * Bpp im + c) / Bpp im) with p by (apply Z.div_unique with c; lia). fold p.
    assert (Ls : zlen (slice buf ((p * Bpp im + c) * Bpc im) (Bpc im)) = Bpc im).
    { assert ((p * Bpp im + c + 1) * Bpc im <= Width im * Height im * Depth im * Bpp im * Bpc im) by (apply Z.mul_le_mono_nonneg_r; lia).
      assert (0 <= (p * Bpp im + c) * Bpc im) by (apply Z.mul_nonneg_nonneg; lia). apply zlen_slice; lia. }
    unfold flag. split.
    + intros S. assert (match mask with Some m => negb (geti m p =? 0) | None => true end = true) as -> by (destruct mask; [lia|reflexivity]).
      split; [rewrite zlen_bnot; exact Ls|]. rewrite bnot_val, Ls. reflexivity.
    + intros S. destruct mask as [m|]; [|exfalso; apply S; exact I]. replace (negb (geti m p =? 0)) with false by lia. reflexivity.
  - cbn [with_Data Format Data Bpc Bpp SizeOfData]. replace (Format im =? IL_COLOUR_INDEX) with false by lia.
    destruct (G b' L) as (b2 & E2 & L2 & A2). rewrite E2. cbn [bind].
    assert (b2 = buf) as ->.
    { apply (pixels_ext b2 buf (Bpc im) (Width im * Height im * Depth im * Bpp im)); try lia.
      intros e He. unfold pixel. rewrite A2, A by auto. destruct (flag mask (e / Bpp im)); [apply bnot_twice|reflexivity]. }
    do 3 f_equal. clear - HDt. destruct im; cbn in *. subst. reflexivity.
Qed.
Print Assumptions C73_negative_partial.

Definition neg_img (f t c : Z) (d : list Z) : img :=
  mkImg 2 1 1 1 c (2 * c) (Some d) (2 * c) (2 * c) f t IL_ORIGIN_LOWER_LEFT (mkPal None 0 IL_PAL_NONE) 0 0 0 0.
Example C73_ex : img_ok (neg_img IL_LUMINANCE IL_UNSIGNED_SHORT 2 [1;2;3;4]) [1;2;3;4] /\
  iluNegative None (neg_img IL_LUMINANCE IL_UNSIGNED_SHORT 2 [1;2;3;4]) = Ok (true, neg_img IL_LUMINANCE IL_UNSIGNED_SHORT 2 [254;253;252;251], []) /\
  iluNegative (Some [0; 1]) (neg_img IL_LUMINANCE IL_UNSIGNED_SHORT 2 [1;2;3;4]) = Ok (true, neg_img IL_LUMINANCE IL_UNSIGNED_SHORT 2 [1;2;252;251], []).
Proof. split; [unfold img_ok; cbn; repeat split; auto; lia|]. split; vm_compute; reflexivity. Qed.

(** C73, finding 1: images of 8 bytes per component are left as they are, with success. *)
Theorem C73_double_refuted : forall mask im buf, img_ok im buf -> Format im <> IL_COLOUR_INDEX -> Bpc im = 8 ->
  iluNegative mask im = Ok (true, im, []).
Proof.
  intros mask im buf (HD & _) Hf H8. unfold iluNegative, negate. replace (Format im =? IL_COLOUR_INDEX) with false by lia. rewrite HD, H8.
  cbn. do 2 f_equal. destruct im; cbn in *. subst. reflexivity.
Qed.

(** C73, finding 2: a colour-indexed image with a region whose palette has more bytes than the image has pixels:
    the mask is read out of bounds. *)
Theorem C73_palette_refuted : forall m im p, Format im = IL_COLOUR_INDEX -> Bpp im = 1 -> Bpc im = 1 ->
  Palette (Pal im) = Some p -> PalSize (Pal im) = zlen p -> PalType (Pal im) <> IL_PAL_NONE -> zlen m < zlen p < 2 ^ 32 ->
  iluNegative (Some m) im = UB.
Proof.
  intros m im p Hf Hb Hc Hp Hs Ht Hl. unfold iluNegative. rewrite Hf, Hp, Hs, Hb, Hc, Z.eqb_refl. assert (0 <= zlen m) by auto.
  replace ((zlen p =? 0) || (PalType (Pal im) =? IL_PAL_NONE)) with false by lia.
  unfold negate. rewrite Z.div_1_r. cbn [Z.eqb Pos.eqb orb negb]. change (2 ^ 32) with 4294967296 in *.
  assert (E : stride 0 (zlen p * 1) 1 (fun j d => loop 0 1 (fun c d0 => let! sel := rd m (j / 1) in
     if negb (sel =? 0) then let! v := rde d0 1 (j + c) in wre d0 1 (j + c) (bnot v) else Ok d0) d) p = UB).
  { rewrite stride_loop by lia. apply (loop_ub (fun d => zlen d = zlen p) _ 0 (zlen m)); auto; [lia| |].
    - intros i s Hi L. change (loop 0 1) with (@for_ (list Z) 1 0). cbn [for_]. rewrite Z.div_1_r. rewrite rd_ok by lia. cbn [bind].
      destruct (negb (geti m (0 + i * 1) =? 0)); cbn [bind]; [|exists s; auto].
      rewrite rde_ok by lia. cbn [bind]. rewrite wre_ok; [|lia|lia|rewrite zlen_bnot; apply zlen_slice; lia]. cbn [bind].
      eexists. split; [reflexivity|]. rewrite zlen_splice; [auto|lia|rewrite zlen_bnot, zlen_slice by lia; lia].
    - intros s L. change (loop 0 1) with (@for_ (list Z) 1 0). cbn [for_]. rewrite Z.div_1_r. rewrite rd_ub by lia. reflexivity. }
  rewrite Z.mul_1_r in E. rewrite E. reflexivity.
Qed.

(** ** C74 *)

Lemma loop_shift : forall S lo hi (g : Z -> S -> res S) s, loop lo hi g s = loop 0 (hi - lo) (fun k => g (lo + k)) s.
Proof.
  intros S lo hi g s. unfold loop. replace (hi - lo - 0) with (hi - lo) by lia. generalize (Z.to_nat (hi - lo)) as n. intros n.
  assert (G : forall n k s, for_ n (lo + k) g s = for_ n k (fun k => g (lo + k)) s).
  { clear. induction n as [|n IH]; intros k s; cbn [for_]; auto. destruct (g (lo + k) s); cbn [bind]; auto. rewrite <- IH. f_equal. lia. }
  rewrite <- G. f_equal. lia.
Qed.

(** what the call should store for a component *)
Definition inverted (fneg dneg : list Z -> list Z) (t n : Z) (v w : list Z) : Prop :=
  if t =? IL_FLOAT then w = fneg v else if t =? IL_DOUBLE then w = dneg v else negative n v w.

Lemma invert_loop : forall f n bpp N d, 0 < n -> 1 <= bpp -> 0 <= N -> N * (bpp * n) <= zlen d -> (forall v, zlen v = n -> zlen (f v) = n) ->
  exists d', loop (bpp - 1) N (fun i d => let e := (bpp - 1) + (i - (bpp - 1)) * bpp in let! v := rde d n e in wre d n e (f v)) d = Ok d' /\
    zlen d' = zlen d /\
    (forall p c, 0 <= p < N -> 0 <= c < bpp ->
       chan (pixel d' (bpp * n) p) n c =
         if (p <? N - (bpp - 1)) && (c =? bpp - 1) then f (chan (pixel d (bpp * n) p) n c) else chan (pixel d (bpp * n) p) n c).
Proof.
  intros f n bpp N d Hn Hb HN Hl Hf. rewrite loop_shift. set (M := Z.max 0 (N - (bpp - 1))).
  assert (LM : forall g : Z -> list Z -> res (list Z), loop 0 (N - (bpp - 1)) g d = loop 0 M g d).
  { intros g. unfold loop, M. replace (Z.to_nat (Z.max 0 (N - (bpp - 1)) - 0)) with (Z.to_nat (N - (bpp - 1) - 0)) by lia. reflexivity. }
  rewrite LM.
  assert (HP : 0 < bpp * n) by (apply Z.mul_pos_pos; lia).
  assert (HM : M * (bpp * n) <= N * (bpp * n)) by (apply Z.mul_le_mono_nonneg_r; lia).
  destruct (pixmap_inplace (fun v w => forall c, 0 <= c < bpp -> chan w n c = if c =? bpp - 1 then f (chan v n c) else chan v n c) (bpp * n) M
     (fun k d => let e := (bpp - 1) + (bpp - 1 + k - (bpp - 1)) * bpp in let! v := rde d n e in wre d n e (f v)) d) as (d' & E & L & A & B); try lia.
  - intros p b Hp Lb PE. assert (Q : (p + 1) * (bpp * n) <= M * (bpp * n)) by (apply Z.mul_le_mono_nonneg_r; lia).
    replace (bpp - 1 + (bpp - 1 + p - (bpp - 1)) * bpp) with (p * bpp + (bpp - 1)) by ring. cbv zeta.
    destruct (chan_read b n bpp p (bpp - 1)) as [E1 L1]; try lia. rewrite E1. cbn [bind].
    destruct (chan_write b n bpp p (bpp - 1) (f (chan (pixel b (bpp * n) p) n (bpp - 1)))) as (b' & E2 & L2 & C1 & C2 & C3); try lia; [apply Hf; auto|].
    rewrite E2. exists b'. split; [reflexivity|]. split; [lia|]. split; [|exact C3]. rewrite <- PE.
    intros c Hc. destruct (c =? bpp - 1) eqn:Ec; [replace c with (bpp - 1) by lia; exact C1|apply C2; lia].
  - exists d'. split; [exact E|]. split; [exact L|]. intros p c Hp Hc.
    destruct (p <? N - (bpp - 1)) eqn:Ep; cbn [andb].
    + apply A; auto. unfold M; lia.
    + f_equal. unfold pixel. assert (0 <= p * (bpp * n)) by (apply Z.mul_nonneg_nonneg; lia).
      assert (M * (bpp * n) <= p * (bpp * n)) by (apply Z.mul_le_mono_nonneg_r; unfold M; lia).
      assert ((p + 1) * (bpp * n) <= N * (bpp * n)) by (apply Z.mul_le_mono_nonneg_r; lia).
      apply list_ext; [rewrite !zlen_slice by lia; reflexivity|]. rewrite zlen_slice by lia. intros i Hi. rewrite !geti_slice by lia. apply B. lia.
Qed.

Definition has_alpha (f : Z) : Prop := f = IL_RGBA \/ f = IL_BGRA \/ f = IL_LUMINANCE_ALPHA.

(** C74: alpha is inverted and nothing else changes, except that the last [Bpp - 1] pixels of the image are left as
    they were (the loop counter starts at [Bpp - 1] but counts pixels). *)
Theorem C74_invert_alpha_partial : forall fneg dneg im buf, img_ok im buf -> has_alpha (Format im) -> channels (Format im) (Bpp im) ->
  type_size (Type_ im) (Bpc im) -> (forall v, zlen v = 4 -> zlen (fneg v) = 4) -> (forall v, zlen v = 8 -> zlen (dneg v) = 8) ->
  exists buf', let im' := with_Data im (Some buf') in
    iluInvertAlpha fneg dneg im = Ok (true, im', []) /\ img_ok im' buf' /\
    forall x y z c, in_pixels im x y z -> 0 <= c < Bpp im ->
      let inside := (z * Height im + y) * Width im + x < Width im * Height im * Depth im - (Bpp im - 1) in
      (inside -> c = Bpp im - 1 -> inverted fneg dneg (Type_ im) (Bpc im) (chan_at im buf x y z c) (chan_at im' buf' x y z c)) /\
      (~ inside \/ c < Bpp im - 1 -> chan_at im' buf' x y z c = chan_at im buf x y z c).
Proof.
  intros fneg dneg im buf Hok Hf CH TS Lf Ld. unfold iluInvertAlpha.
  replace (negb ((Format im =? IL_RGBA) || (Format im =? IL_BGRA) || (Format im =? IL_LUMINANCE_ALPHA))) with false
    by (destruct Hf as [ -> | [ -> | -> ] ]; reflexivity).
  destruct (ok_pixels im buf Hok) as (Q1 & Q2 & Q3 & Q4 & Q5 & Q6 & Q7 & _).
  assert (Hok' := Hok). destruct Hok' as (HDt & HW & HH & HD & Hbpp & Hbpc & Hbps & Hpl & Hsz & H32 & Hlen). rewrite HDt.
  set (N := Width im * Height im * Depth im) in *.
  assert (HN : N <= N * Bpp im) by (rewrite <- (Z.mul_1_r N) at 1; apply Z.mul_le_mono_nonneg_l; lia).
  rewrite (u32_small N) by lia. cbv zeta.
  assert (G : forall f, (forall v, zlen v = Bpc im -> zlen (f v) = Bpc im) ->
     (forall v, zlen v = Bpc im -> inverted fneg dneg (Type_ im) (Bpc im) v (f v)) ->
     exists buf', (let! d := loop (Bpp im - 1) N (fun i d => let! v := rde d (Bpc im) (Bpp im - 1 + (i - (Bpp im - 1)) * Bpp im) in
         wre d (Bpc im) (Bpp im - 1 + (i - (Bpp im - 1)) * Bpp im) (f v)) buf in Ok (true, with_Data im (Some d), @nil Z)) = Ok (true, with_Data im (Some buf'), []) /\
       img_ok (with_Data im (Some buf')) buf' /\
       forall x y z c, in_pixels im x y z -> 0 <= c < Bpp im ->
         ((z * Height im + y) * Width im + x < N - (Bpp im - 1) -> c = Bpp im - 1 ->
            inverted fneg dneg (Type_ im) (Bpc im) (chan_at im buf x y z c) (chan_at (with_Data im (Some buf')) buf' x y z c)) /\
         (~ ((z * Height im + y) * Width im + x < N - (Bpp im - 1)) \/ c < Bpp im - 1 ->
            chan_at (with_Data im (Some buf')) buf' x y z c = chan_at im buf x y z c)).
  { intros f Lf' If. destruct (invert_loop f (Bpc im) (Bpp im) N buf) as (d & E & L & A); try lia; auto.
    cbv zeta in E. rewrite E. cbn [bind]. exists d. split; [reflexivity|].
    split; [unfold img_ok; cbn; rewrite L; tauto|]. intros x y z c Hin Hc.
    destruct (pixel_index im buf x y z Hok Hin) as (P1 & _). set (p := (z * Height im + y) * Width im + x) in *.
    change (chan_at (with_Data im (Some d)) d x y z c) with (chan_at im d x y z c).
    rewrite !(chan_at_pixel im buf) by auto. fold p. rewrite A by auto. split.
    - intros Hi ->. replace (p <? N - (Bpp im - 1)) with true by lia. rewrite Z.eqb_refl. cbn [andb]. apply If.
      assert (R : (p + 1) * (Bpp im * Bpc im) <= N * (Bpp im * Bpc im)) by (apply Z.mul_le_mono_nonneg_r; lia).
      apply (chan_read buf (Bpc im) (Bpp im) p (Bpp im - 1)); lia.
    - intros Hi. replace ((p <? N - (Bpp im - 1)) && (c =? Bpp im - 1)) with false by lia. reflexivity. }
  assert (GN : forall t n, inverted fneg dneg t n = inverted fneg dneg t n) by auto.
  inversion TS as [Ht Hn|Ht Hn|Ht Hn|Ht Hn|Ht Hn|Ht Hn|Ht Hn|Ht Hn]; rewrite <- Ht, <- Hn in *;
    cbn [Z.eqb Pos.eqb orb IL_BYTE IL_UNSIGNED_BYTE IL_SHORT IL_UNSIGNED_SHORT IL_INT IL_UNSIGNED_INT IL_FLOAT IL_DOUBLE];
    cbv beta.
  7: apply (G fneg); auto; reflexivity.
  7: apply (G dneg); auto; reflexivity.
  all: apply (G bnot); [intros v Lv; rewrite zlen_bnot; exact Lv|].
  all: intros v Lv; split; [rewrite zlen_bnot; exact Lv|rewrite bnot_val, Lv; reflexivity].
Qed.
Print Assumptions C74_invert_alpha_partial.

Example C74_ex : 
  let im d := mkImg 4 1 1 2 1 8 (Some d) 8 8 IL_LUMINANCE_ALPHA IL_UNSIGNED_BYTE IL_ORIGIN_LOWER_LEFT (mkPal None 0 IL_PAL_NONE) 0 0 0 0 in
  img_ok (im [1;2;3;4;5;6;7;8]) [1;2;3;4;5;6;7;8] /\
  iluInvertAlpha (fun v => v) (fun v => v) (im [1;2;3;4;5;6;7;8]) = Ok (true, im [1;253;3;251;5;249;7;8], []).
Proof. split; [unfold img_ok; cbn; repeat split; auto; lia|]. vm_compute. reflexivity. Qed.

(** C74, finding: in EVERY byte image with alpha the alpha of the last pixel stays as it was, and so is not inverted. *)
Theorem C74_last_refuted : forall fneg dneg im buf, img_ok im buf -> has_alpha (Format im) -> channels (Format im) (Bpp im) ->
  Type_ im = IL_UNSIGNED_BYTE -> Bpc im = 1 -> (forall v, zlen v = 4 -> zlen (fneg v) = 4) -> (forall v, zlen v = 8 -> zlen (dneg v) = 8) ->
  exists buf', iluInvertAlpha fneg dneg im = Ok (true, with_Data im (Some buf'), []) /\
    let last b := chan_at im b (Width im - 1) (Height im - 1) (Depth im - 1) (Bpp im - 1) in
    last buf' = last buf /\ ~ negative 1 (last buf) (last buf').
Proof.
  intros fneg dneg im buf Hok Hf CH HT HC Lf Ld.
  destruct (C74_invert_alpha_partial fneg dneg im buf Hok Hf CH) as (buf' & E & Ok' & A); auto.
  { rewrite HT, HC. constructor. }
  assert (Hok' := Hok). destruct Hok' as (HDt & HW & HH & HD & Hbpp & Hbpc & Hbps & Hpl & Hsz & H32 & Hlen).
  assert (2 <= Bpp im) by (destruct Hf as [F | [F | F] ]; rewrite F in CH; inversion CH; lia).
  assert (Hin : in_pixels im (Width im - 1) (Height im - 1) (Depth im - 1)) by (unfold in_pixels; lia).
  destruct (A _ _ _ (Bpp im - 1) Hin ltac:(lia)) as (_ & A2).
  exists buf'. split; [exact E|]. cbv beta zeta.
  change (chan_at (with_Data im (Some buf')) buf') with (chan_at im buf') in A2.
  rewrite A2 by (left; nia). split; [reflexivity|]. intros (_ & X). change (256 ^ 1) with 256 in X. lia.
Qed.
Print Assumptions C74_last_refuted.

(** ** C75 *)

(** the colours of the first [n] pixels, the last one first *)
Fixpoint codes (f : Z -> Z) (n : nat) : list Z := match n with O => [] | S n => f (Z.of_nat n) :: codes f n end.

Lemma codes_in : forall f n c, In c (codes f n) <-> exists i, 0 <= i < Z.of_nat n /\ c = f i.
Proof.
  intros f n c. induction n as [|n IH]; cbn [codes In]; [split; [intros []|intros (i & Hi & _); lia]|]. rewrite IH. split.
  - intros [ <- |(i & Hi & ->)]; [exists (Z.of_nat n)|exists i]; (split; [lia|reflexivity]).
  - intros (i & Hi & ->). destruct (Z.eq_dec i (Z.of_nat n)) as [->|]; [left; reflexivity|right; exists i; split; [lia|reflexivity]].
Qed.

Lemma codes_len : forall f n, length (codes f n) = n.
Proof. intros f. induction n; cbn; auto. Qed.

Definition distinct (l : list Z) : list Z := nodup Z.eq_dec l.

Lemma search_in : forall c l, search c l = true <-> In c l.
Proof.
  intros c l. induction l as [|x l IH]; [cbn; split; [discriminate|intros []]|].
  destruct l as [|y l]; [cbn; rewrite Z.eqb_eq; split; [intros ->; auto|intros [->|[]]; auto]|].
  change (search c (x :: y :: l)) with (if c =? x then true else search c (y :: l)).
  cbn [In] in *. destruct (Z.eqb_spec c x) as [->|N]; [tauto|]. rewrite IH. split; [auto|intros [X|X]; [congruence|exact X]].
Qed.

(** the state after the pixels with colours [l] *)
Definition counted (h : Z) (l : list Z) (u : used) : Prop :=
  (forall c, In c (buckets u (c mod 8192)) <-> In c l) /\ hpos u = zlen (distinct l) / h /\ hptr u = zlen (distinct l) mod h /\ ncols u = zlen (distinct l).

Lemma distinct_cons : forall c l, distinct (c :: l) = if in_dec Z.eq_dec c l then distinct l else c :: distinct l.
Proof. reflexivity. Qed.

Lemma distinct_le : forall l, zlen (distinct l) <= zlen l.
Proof. induction l as [|c l IH]; [cbn; lia|]. rewrite distinct_cons. destruct (in_dec Z.eq_dec c l); rewrite ?zlen_cons; lia. Qed.

(** one pixel of colour [c] *)
Definition count (more : Z -> bool) (h c : Z) (u : used) : res (option used) :=
  match buckets u (c mod 8192) with
  | [] => insert more h (c mod 8192) c u
  | _ => if search c (buckets u (c mod 8192)) then Ok (Some u) else insert more h (c mod 8192) c u
  end.

Lemma div_succ : forall D h, 1 <= h -> 0 <= D ->
  (D mod h + 1 < h -> (D + 1) / h = D / h /\ (D + 1) mod h = D mod h + 1) /\
  (h <= D mod h + 1 -> (D + 1) / h = D / h + 1 /\ (D + 1) mod h = 0 /\ D + 1 = (D / h + 1) * h).
Proof.
  intros D h Hh HD. assert (E := Z.div_mod D h ltac:(lia)). assert (B := Z.mod_pos_bound D h ltac:(lia)). split; intros H.
  - split; [symmetry; apply Z.div_unique with (D mod h + 1); lia|symmetry; apply Z.mod_unique with (D / h); lia].
  - assert (X : D + 1 = h * (D / h + 1) + 0) by lia.
    split; [symmetry; apply Z.div_unique with 0; lia|]. split; [symmetry; apply Z.mod_unique with (D / h + 1); lia|lia].
Qed.

Lemma count_ok : forall more h c l u, (forall k, more k = true) -> 1 <= h < 4294967295 -> zlen l + 1 < 4294967296 -> counted h l u -> zlen (distinct l) < 9 * h ->
  (zlen (distinct (c :: l)) < 9 * h -> exists u', count more h c u = Ok (Some u') /\ counted h (c :: l) u') /\
  (9 * h <= zlen (distinct (c :: l)) -> count more h c u = UB).
Proof.
  intros more h c l u Hm Hh Hl (C1 & C2 & C3 & C4) HD. rewrite distinct_cons.
  assert (DL := distinct_le l). assert (D0 : 0 <= zlen (distinct l)) by auto.
  destruct (in_dec Z.eq_dec c l) as [Hin|Hin].
  - assert (EC : count more h c u = Ok (Some u)).
    { unfold count. assert (S := Hin). rewrite <- C1 in S. assert (S' := S). rewrite <- search_in in S. rewrite S. destruct (buckets u (c mod 8192)); [destruct S'|reflexivity]. }
    split; [|lia]. intros _. exists u. split; [exact EC|]. unfold counted. rewrite distinct_cons.
    destruct (in_dec Z.eq_dec c l); [|contradiction]. split; [|auto]. intros d. rewrite C1. cbn [In]. split; [auto|intros [ <- |X]; auto].
  - assert (EC : count more h c u = insert more h (c mod 8192) c u).
    { unfold count. destruct (search c (buckets u (c mod 8192))) eqn:S; [apply search_in in S; rewrite C1 in S; contradiction|]. destruct (buckets u (c mod 8192)); reflexivity. }
    rewrite EC, zlen_cons. unfold insert. rewrite C2, C3, C4, Hm.
    assert (B := Z.mod_pos_bound (zlen (distinct l)) h ltac:(lia)). rewrite (u32_small (zlen (distinct l) mod h + 1)) by lia. rewrite (u32_small (zlen (distinct l) + 1)) by lia.
    destruct (div_succ (zlen (distinct l)) h ltac:(lia) D0) as (S1 & S2).
    assert (BK : forall d, In d (if d mod 8192 =? c mod 8192 then c :: buckets u (c mod 8192) else buckets u (d mod 8192)) <-> In d (c :: l)).
    { intros d. destruct (Z.eqb_spec (d mod 8192) (c mod 8192)) as [E|N]; cbn [In].
      - rewrite <- E, C1. tauto.
      - rewrite C1. split; [auto|intros [ <- |X]; [congruence|exact X]]. }
    destruct (h <=? zlen (distinct l) mod h + 1) eqn:E1.
    + destruct S2 as (S2 & S3 & S4); [lia|]. destruct (9 <=? zlen (distinct l) / h + 1) eqn:E2.
      * split; [|reflexivity]. intros X. exfalso. assert (9 * h <= (zlen (distinct l) / h + 1) * h) by (apply Z.mul_le_mono_nonneg_r; lia). lia.
      * split.
        -- intros _. eexists. split; [reflexivity|]. unfold counted. cbn [buckets hpos hptr ncols]. rewrite distinct_cons.
           destruct (in_dec Z.eq_dec c l); [contradiction|]. rewrite zlen_cons, (Z.add_comm 1), S2, S3. auto.
        -- intros X. exfalso. assert ((zlen (distinct l) / h + 1) * h <= 8 * h) by (apply Z.mul_le_mono_nonneg_r; lia). lia.
    + destruct S1 as (S1 & S1'); [lia|]. split.
      * intros _. eexists. split; [reflexivity|]. unfold counted. cbn [buckets hpos hptr ncols]. rewrite distinct_cons.
        destruct (in_dec Z.eq_dec c l); [contradiction|]. rewrite zlen_cons, (Z.add_comm 1), S1, S1'. auto.
      * intros X. exfalso. assert (D9 : zlen (distinct l) = 9 * h - 1) by lia.
        assert (zlen (distinct l) mod h = h - 1) by (rewrite D9; symmetry; apply Z.mod_unique with 8; lia). lia.
Qed.

(** all pixels *)
Lemma count_all : forall more h (f : Z -> Z) n, (forall k, more k = true) -> 1 <= h < 4294967295 -> Z.of_nat n < 4294967296 ->
  let r := loop 0 (Z.of_nat n) (fun p s => match s with None => Ok None | Some u => count more h (f p) u end) (Some (mkUsed (fun _ => []) 0 0 0)) in
  (zlen (distinct (codes f n)) < 9 * h -> exists u, r = Ok (Some u) /\ counted h (codes f n) u) /\
  (9 * h <= zlen (distinct (codes f n)) -> r = UB).
Proof.
  intros more h f n Hm Hh. induction n as [|n IH]; intros Hn.
  - cbv zeta. change (zlen (distinct (codes f 0))) with 0. split; [|lia]. intros _. eexists. split; [reflexivity|].
    unfold counted. cbn [buckets hpos hptr ncols codes]. change (zlen (distinct [])) with 0. rewrite Z.div_0_l, Z.mod_0_l by lia. split; [tauto|auto].
  - cbv zeta in *. destruct (IH ltac:(lia)) as (I1 & I2). rewrite (loop_split _ 0 (Z.of_nat n)) by lia.
    assert (L1 : forall s, loop (Z.of_nat n) (Z.of_nat (S n)) (fun p s => match s with None => Ok None | Some u => count more h (f p) u end) s =
       match s with None => Ok None | Some u => count more h (f (Z.of_nat n)) u end).
    { intros s. unfold loop. replace (Z.to_nat (Z.of_nat (S n) - Z.of_nat n)) with 1%nat by lia. cbn [for_].
      destruct s as [u|]; [|reflexivity]. destruct (count more h (f (Z.of_nat n)) u); reflexivity. }
    assert (LE : zlen (distinct (codes f n)) <= zlen (distinct (codes f (S n)))).
    { cbn [codes]. rewrite distinct_cons. destruct (in_dec _ _ _); rewrite ?zlen_cons; lia. }
    assert (ZL : zlen (codes f n) = Z.of_nat n) by (unfold zlen; rewrite codes_len; reflexivity).
    destruct (Z.lt_ge_cases (zlen (distinct (codes f n))) (9 * h)) as [LT|GE].
    + destruct (I1 LT) as (u & E & C). rewrite E. cbn [bind]. rewrite L1. cbn [codes] in *.
      destruct (count_ok more h (f (Z.of_nat n)) (codes f n) u Hm Hh ltac:(lia) C LT) as (K1 & K2). auto.
    + rewrite (I2 GE). cbn [bind]. split; [lia|auto].
Qed.

(** the colour of a pixel as a number *)
Definition code (bpp : Z) (buf : list Z) (p : Z) : Z :=
  geti buf (p * bpp) + (if 1 <? bpp then 256 * geti buf (p * bpp + 1) + 65536 * geti buf (p * bpp + 2) else 0) +
  (if 3 <? bpp then 16777216 * geti buf (p * bpp + 3) else 0).

Lemma code_inj : forall bpp buf p q, (bpp = 1 \/ bpp = 3 \/ bpp = 4) -> bytes buf -> 0 <= p -> 0 <= q ->
  (p + 1) * bpp <= zlen buf -> (q + 1) * bpp <= zlen buf -> code bpp buf p = code bpp buf q -> pixel buf bpp p = pixel buf bpp q.
Proof.
  intros bpp buf p q Hb HB Hp Hq Lp Lq E. assert (0 <= p * bpp) by (apply Z.mul_nonneg_nonneg; lia). assert (0 <= q * bpp) by (apply Z.mul_nonneg_nonneg; lia).
  unfold pixel. apply list_ext; [rewrite !zlen_slice by lia; reflexivity|]. rewrite zlen_slice by lia. intros i Hi. rewrite !geti_slice by lia.
  unfold code in E.
  assert (B : forall k, 0 <= k < bpp -> 0 <= geti buf (p * bpp + k) < 256 /\ 0 <= geti buf (q * bpp + k) < 256) by (intros k Hk; split; apply HB; lia).
  assert (B0 := B 0 ltac:(lia)). rewrite !Z.add_0_r in B0.
  destruct Hb as [ -> | [ -> | -> ] ]; cbn [Z.ltb Z.compare Pos.compare Pos.compare_cont] in E.
  - assert (i = 0) by lia. subst i. rewrite !Z.add_0_r. lia.
  - assert (B1 := B 1 ltac:(lia)). assert (B2 := B 2 ltac:(lia)). assert (Ci : i = 0 \/ i = 1 \/ i = 2) by lia.
    destruct Ci as [ -> | [ -> | -> ] ]; rewrite ?Z.add_0_r; lia.
  - assert (B1 := B 1 ltac:(lia)). assert (B2 := B 2 ltac:(lia)). assert (B3 := B 3 ltac:(lia)). assert (Ci : i = 0 \/ i = 1 \/ i = 2 \/ i = 3) by lia.
    destruct Ci as [ -> | [ -> | [ -> | -> ] ] ]; rewrite ?Z.add_0_r; lia.
Qed.

Lemma pixel_code : forall bpp buf p q, (bpp = 1 \/ bpp = 3 \/ bpp = 4) -> 0 <= p -> 0 <= q ->
  (p + 1) * bpp <= zlen buf -> (q + 1) * bpp <= zlen buf -> pixel buf bpp p = pixel buf bpp q -> code bpp buf p = code bpp buf q.
Proof.
  intros bpp buf p q Hb Hp Hq Lp Lq E. assert (0 <= p * bpp) by (apply Z.mul_nonneg_nonneg; lia). assert (0 <= q * bpp) by (apply Z.mul_nonneg_nonneg; lia).
  assert (G : forall k, 0 <= k < bpp -> geti buf (p * bpp + k) = geti buf (q * bpp + k)).
  { intros k Hk. assert (X : geti (pixel buf bpp p) k = geti (pixel buf bpp q) k) by (rewrite E; reflexivity).
    unfold pixel in X. rewrite !geti_slice in X by lia. exact X. }
  assert (G0 := G 0 ltac:(lia)). rewrite !Z.add_0_r in G0.
  unfold code. rewrite G0. destruct Hb as [ -> | [ -> | -> ] ]; cbn [Z.ltb Z.compare Pos.compare Pos.compare_cont]; rewrite ?G by lia; reflexivity.
Qed.

Lemma visit_count : forall more h bpp buf p u, (bpp = 1 \/ bpp = 3 \/ bpp = 4) -> 0 <= p -> (p + 1) * bpp <= zlen buf -> zlen buf < 4294967296 ->
  visit more h bpp buf (p * bpp) u = count more h (code bpp buf p) u.
Proof.
  intros more h bpp buf p u Hb Hp Lp H32. assert (0 <= p * bpp) by (apply Z.mul_nonneg_nonneg; lia). unfold visit.
  rewrite rd_ok by lia. cbn [bind]. unfold count, code.
  destruct Hb as [ -> | [ -> | -> ] ]; cbn [Z.ltb Z.compare Pos.compare Pos.compare_cont bind].
  - rewrite Z.mul_0_r, !Z.add_0_r. reflexivity.
  - rewrite !u32_small by lia. rewrite !rd_ok by lia. cbn [bind].
    replace (geti buf (p * 3) + 256 * (geti buf (p * 3 + 1) + 256 * geti buf (p * 3 + 2)) + 16777216 * 0)
      with (geti buf (p * 3) + (256 * geti buf (p * 3 + 1) + 65536 * geti buf (p * 3 + 2)) + 0) by lia. reflexivity.
  - rewrite !u32_small by lia. rewrite !rd_ok by lia. cbn [bind].
    replace (geti buf (p * 4) + 256 * (geti buf (p * 4 + 1) + 256 * geti buf (p * 4 + 2)) + 16777216 * geti buf (p * 4 + 3))
      with (geti buf (p * 4) + (256 * geti buf (p * 4 + 1) + 65536 * geti buf (p * 4 + 2)) + 16777216 * geti buf (p * 4 + 3)) by lia. reflexivity.
Qed.

(** [cs] lists the colours of the picture, each one once *)
Definition colours (im : img) (buf : list Z) (cs : list (list Z)) : Prop :=
  NoDup cs /\ forall c, In c cs <-> exists x y z, in_pixels im x y z /\ c = slice buf (pix_off im x y z 0) (Bpp im * Bpc im).

Lemma colours_codes : forall im buf cs, img_ok im buf -> bytes buf -> (Bpp im = 1 \/ Bpp im = 3 \/ Bpp im = 4) -> Bpc im = 1 -> colours im buf cs ->
  zlen (distinct (codes (code (Bpp im) buf) (Z.to_nat (Width im * Height im * Depth im)))) = zlen cs.
Proof.
  intros im buf cs Hok HB Hb HC (ND & Hcs).
  destruct (ok_pixels im buf Hok) as (Q1 & Q2 & Q3 & Q4 & Q5 & Q6 & Q7 & _). rewrite HC, Z.mul_1_r in *.
  set (N := Width im * Height im * Depth im) in *. set (bpp := Bpp im) in *. set (ks := codes (code bpp buf) (Z.to_nat N)).
  assert (HL : forall p, 0 <= p < N -> (p + 1) * bpp <= zlen buf).
  { intros p Hp. assert ((p + 1) * bpp <= N * bpp) by (apply Z.mul_le_mono_nonneg_r; lia). lia. }
  assert (Hcs' : forall c, In c cs <-> exists p, 0 <= p < N /\ c = pixel buf bpp p).
  { intros c. rewrite Hcs. assert (PO : forall x y z, pix_off im x y z 0 = ((z * Height im + y) * Width im + x) * bpp) by (intros; unfold pix_off, bpp; rewrite HC; ring).
    split.
    - intros (x & y & z & Hin & ->). destruct (pixel_index im buf x y z Hok Hin) as (P1 & _). exists ((z * Height im + y) * Width im + x). split; [exact P1|]. rewrite PO. reflexivity.
    - intros (p & Hp & ->). destruct (decompose (Depth im) (Height im) (Width im) p) as (z & y & x & Hz & Hy & Hx & ->).
      + destruct Hok as (_ & ? & ? & ? & _). lia.
      + destruct Hok as (_ & ? & ? & ? & _). lia.
      + unfold N in Hp. lia.
      + exists x, y, z. split; [unfold in_pixels; lia|]. rewrite PO. unfold pixel. do 2 f_equal. ring. }
  assert (Hks : forall k, In k (distinct ks) <-> exists p, 0 <= p < N /\ k = code bpp buf p).
  { intros k. unfold distinct. rewrite nodup_In. unfold ks. rewrite codes_in. split; intros (p & Hp & ->); exists p; (split; [lia|reflexivity]). }
  (* a number for each listed colour and a colour for each number *)
  set (num := fun v => geti v 0 + (if 1 <? bpp then 256 * geti v 1 + 65536 * geti v 2 else 0) + (if 3 <? bpp then 16777216 * geti v 3 else 0)).
  assert (Num : forall p, 0 <= p < N -> num (pixel buf bpp p) = code bpp buf p).
  { intros p Hp. specialize (HL p Hp). assert (0 <= p * bpp) by (apply Z.mul_nonneg_nonneg; lia). unfold num, code, pixel.
    destruct Hb as [E | [E | E] ]; rewrite E in *; cbn [Z.ltb Z.compare Pos.compare Pos.compare_cont]; rewrite !geti_slice by lia; rewrite ?Z.add_0_r; reflexivity. }
  assert (ML : incl (map num cs) (distinct ks) /\ incl (distinct ks) (map num cs)).
  { split; intros k Hk.
    - apply in_map_iff in Hk. destruct Hk as (c & <- & Hc). apply Hcs' in Hc. destruct Hc as (p & Hp & ->). apply Hks. exists p. split; auto.
    - apply Hks in Hk. destruct Hk as (p & Hp & ->). rewrite <- Num by auto. apply in_map. apply Hcs'. exists p; auto. }
  assert (NM : NoDup (map num cs)).
  { assert (INJ : forall a b, In a cs -> In b cs -> num a = num b -> a = b).
    { intros a b Ha Hb0 E. apply Hcs' in Ha. apply Hcs' in Hb0. destruct Ha as (p & Hp & ->). destruct Hb0 as (q & Hq & ->).
      rewrite !Num in E by auto. apply code_inj; auto; lia. }
    clear - ND INJ. induction ND as [|c cs Nc ND IH]; cbn [map]; constructor.
    - intros X. apply in_map_iff in X. destruct X as (d & E & Hd). apply Nc. rewrite <- (INJ d c); auto; [right; exact Hd|left; reflexivity].
    - apply IH. intros a b Ha Hb. apply INJ; right; auto. }
  destruct ML as (M1 & M2).
  assert (L1 := NoDup_incl_length NM M1). assert (L2 := NoDup_incl_length (NoDup_nodup Z.eq_dec ks : NoDup (distinct ks)) M2).
  rewrite map_length in *. unfold zlen. lia.
Qed.

Lemma used_run : forall more im buf, img_ok im buf -> bytes buf -> (Bpp im = 1 \/ Bpp im = 3 \/ Bpp im = 4) -> Bpc im = 1 -> (forall k, more k = true) ->
  forall cs, colours im buf cs ->
  iluColoursUsed more im = if zlen cs <? 9 * Z.max 1 (Width im * Height im * Depth im / 8) then Ok (zlen cs) else UB.
Proof.
  intros more im buf Hok HB Hb HC Hm cs Hcs. assert (CC := colours_codes im buf cs Hok HB Hb HC Hcs).
  destruct (ok_pixels im buf Hok) as (Q1 & Q2 & Q3 & Q4 & Q5 & Q6 & Q7 & _).
  assert (Hok' := Hok). destruct Hok' as (HDt & HW & HH & HD & Hbpp & Hbpc & Hbps & Hpl & Hsz & H32 & Hlen). rewrite HC, Z.mul_1_r in *.
  set (N := Width im * Height im * Depth im) in *. unfold iluColoursUsed. replace (Bpp im =? 0) with false by lia. rewrite Hm. cbn [negb]. rewrite HDt.
  rewrite <- Hlen, Q3, Z.div_mul by lia. set (h := Z.max 1 (N / 8)).
  assert (N <= N * Bpp im) by (rewrite <- (Z.mul_1_r N) at 1; apply Z.mul_le_mono_nonneg_l; lia).
  rewrite stride_loop by lia.
  rewrite (loop_ext _ 0 N _ (fun p s => match s with None => Ok None | Some u => count more h (code (Bpp im) buf p) u end)).
  2:{ intros p s Hp. rewrite Z.add_0_l. destruct s as [u|]; [|reflexivity]. assert ((p + 1) * Bpp im <= N * Bpp im) by (apply Z.mul_le_mono_nonneg_r; lia).
      apply visit_count; auto; lia. }
  destruct (count_all more h (code (Bpp im) buf) (Z.to_nat N) Hm) as (K1 & K2); [unfold h; lia|lia|].
  rewrite Z2Nat.id in K1, K2 by lia. rewrite CC in K1, K2. destruct (zlen cs <? 9 * h) eqn:E.
  - destruct K1 as (u & E1 & C); [lia|]. rewrite E1. cbn [bind]. destruct C as (_ & _ & _ & ->). rewrite CC. reflexivity.
  - rewrite K2 by lia. reflexivity.
Qed.

(** C75: iluColoursUsed returns the number of different colours of an 8-bit image of 1, 3 or 4 channels with at
    most 8 or at least 64 pixels, or in general with fewer than 9 * max(1, pixels/8) colours. *)
Theorem C75_colours_partial : forall more im buf cs, img_ok im buf -> bytes buf -> (Bpp im = 1 \/ Bpp im = 3 \/ Bpp im = 4) -> Bpc im = 1 ->
  (forall k, more k = true) -> colours im buf cs ->
  let N := Width im * Height im * Depth im in
  N <= 8 \/ 64 <= N \/ zlen cs < 9 * Z.max 1 (N / 8) -> iluColoursUsed more im = Ok (zlen cs).
Proof.
  intros more im buf cs Hok HB Hb HC Hm Hcs N HN. rewrite (used_run more im buf) with (cs := cs) by auto.
  assert (CC := colours_codes im buf cs Hok HB Hb HC Hcs). fold N. fold N in CC.
  assert (zlen cs <= N).
  { rewrite <- CC. assert (X := distinct_le (codes (code (Bpp im) buf) (Z.to_nat N))). unfold zlen at 2 in X. rewrite codes_len in X.
    destruct (ok_pixels im buf Hok) as (_ & _ & _ & Q4 & Q5 & _). fold N in Q5. lia. }
  replace (zlen cs <? 9 * Z.max 1 (N / 8)) with true by (destruct HN as [?|[?|?]]; lia). reflexivity.
Qed.
Print Assumptions C75_colours_partial.

(** C75, finding 1: with 9 * max(1, pixels/8) or more colours, which is possible for 9 to 63 pixels, the array of
    nine blocks is overrun. *)
Theorem C75_heap_refuted : forall more im buf cs, img_ok im buf -> bytes buf -> (Bpp im = 1 \/ Bpp im = 3 \/ Bpp im = 4) -> Bpc im = 1 ->
  (forall k, more k = true) -> colours im buf cs -> 9 * Z.max 1 (Width im * Height im * Depth im / 8) <= zlen cs -> iluColoursUsed more im = UB.
Proof.
  intros more im buf cs Hok HB Hb HC Hm Hcs HN. rewrite (used_run more im buf) with (cs := cs) by auto.
  replace (zlen cs <? _) with false by lia. reflexivity.
Qed.

Definition nine : img := mkImg 3 3 1 1 1 3 (Some [1;2;3;4;5;6;7;8;9]) 9 9 IL_LUMINANCE IL_UNSIGNED_BYTE IL_ORIGIN_LOWER_LEFT (mkPal None 0 IL_PAL_NONE) 0 0 0 0.
Definition three : img := mkImg 2 2 1 3 1 6 (Some [1;2;3; 4;5;6; 1;2;3; 1;2;4]) 12 12 IL_RGB IL_UNSIGNED_BYTE IL_ORIGIN_LOWER_LEFT (mkPal None 0 IL_PAL_NONE) 0 0 0 0.
Example C75_ex : img_ok three [1;2;3; 4;5;6; 1;2;3; 1;2;4] /\ colours three [1;2;3; 4;5;6; 1;2;3; 1;2;4] [[1;2;3];[4;5;6];[1;2;4]] /\
  iluColoursUsed (fun _ => true) three = Ok 3 /\ iluColoursUsed (fun _ => true) nine = UB.
Proof.
  split; [unfold img_ok; cbn; repeat split; auto; lia|]. split; [split|split; vm_compute; reflexivity].
  - repeat constructor; cbn; intuition discriminate.
  - intros c. split.
    + cbn [In]. intros [ <- | [ <- | [ <- | [] ] ] ]; [exists 0, 0, 0|exists 1, 0, 0|exists 1, 1, 0]; (split; [unfold in_pixels; cbn; lia|reflexivity]).
    + intros (x & y & z & (Hx & Hy & Hz) & ->). cbn [Width Height Depth three] in *.
      assert (X : x = 0 \/ x = 1) by lia. assert (Y : y = 0 \/ y = 1) by lia. assert (z = 0) by lia. subst z.
      destruct X as [ -> | -> ]; destruct Y as [ -> | -> ]; vm_compute; auto.
Qed.

(** C75, finding 2: for EVERY image of two channels the three bytes of a colour are read, past the end of the pixels. *)
Theorem C75_two_channels_refuted : forall more im buf, img_ok im buf -> Bpp im = 2 -> (forall k, more k = true) -> iluColoursUsed more im = UB.
Proof.
  intros more im buf Hok Hb Hm.
  destruct (ok_pixels im buf Hok) as (Q1 & Q2 & Q3 & Q4 & Q5 & Q6 & Q7 & _).
  assert (Hok' := Hok). destruct Hok' as (HDt & HW & HH & HD & Hbpp & Hbpc & Hbps & Hpl & Hsz & H32 & Hlen). rewrite Hb in *.
  set (N := Width im * Height im * Depth im) in *. unfold iluColoursUsed. rewrite Hb, Hm, HDt. cbn [Z.eqb negb].
  assert (SZ : SizeOfData im = N * Bpc im * 2) by lia. rewrite SZ. set (M := N * Bpc im) in *. rewrite Z.div_mul by lia.
  assert (1 <= M) by (unfold M; nia).
  rewrite stride_loop by lia.
  set (body := fun k (s : option used) => match s with Some u => visit more (Z.max 1 (M / 8)) 2 buf (0 + k * 2) u | None => Ok None end).
  assert (INS : forall b c u, exists r, insert more (Z.max 1 (M / 8)) b c u = r /\ (r = UB \/ exists u', r = Ok (Some u'))).
  { intros b c u. eexists. split; [reflexivity|]. unfold insert. rewrite Hm. destruct (_ <=? _); [destruct (_ <=? _)|]; eauto. }
  assert (V : forall k u, 0 <= k < M - 1 -> visit more (Z.max 1 (M / 8)) 2 buf (0 + k * 2) u = UB \/ exists u', visit more (Z.max 1 (M / 8)) 2 buf (0 + k * 2) u = Ok (Some u')).
  { intros k u Hk. unfold visit. rewrite !u32_small by lia. cbn [Z.ltb Z.compare Pos.compare Pos.compare_cont]. rewrite !rd_ok by lia. cbn [bind].
    match goal with |- context [insert more _ ?b ?c u] => destruct (INS b c u) as (r & -> & Hr) end.
    destruct (buckets u _); [exact Hr|]. destruct (search _ _); [eauto|exact Hr]. }
  assert (VL : forall u, visit more (Z.max 1 (M / 8)) 2 buf (0 + (M - 1) * 2) u = UB).
  { intros u. unfold visit. rewrite !u32_small by lia. cbn [Z.ltb Z.compare Pos.compare Pos.compare_cont]. rewrite !rd_ok by lia. cbn [bind].
    rewrite (rd_ub buf (0 + (M - 1) * 2 + 2)) by lia. reflexivity. }
  assert (G : forall n k u, Z.of_nat n = M - k -> 0 <= k < M -> for_ n k body (Some u) = UB).
  { induction n as [|n IH]; intros k u Hn Hk; [lia|]. cbn [for_]. unfold body at 1. cbv beta.
    destruct (Z.eq_dec k (M - 1)) as [->|]; [rewrite VL; reflexivity|].
    destruct (V k u ltac:(lia)) as [ -> |(u' & ->)]; cbn [bind]; [reflexivity|]. apply IH; lia. }
  unfold loop. fold body. rewrite G by lia. reflexivity.
Qed.
Print Assumptions C75_two_channels_refuted.

Print Assumptions C73_double_refuted.
Print Assumptions C73_palette_refuted.
Print Assumptions C75_heap_refuted.
