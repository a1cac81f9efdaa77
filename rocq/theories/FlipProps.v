(** Property theorems C14 (flipping) and C15 (mirroring). *)
From Coq Require Import ZArith List Lia Bool.
From Verif Require Import Base Enums Utility UtilityProofs Image ImageSpec Flip FlipProofs.
Import ListNotations.
Open Scope Z_scope.

(** Every scratch block requested by iMemSwap is obtained (4096 arbitrary bytes). *)
Definition scratch_available (scr : scratch) : Prop :=
  forall d y, exists blk, scr d y = Some blk /\ zlen blk = 4096.

(** C14a: ilFlipImage reverses the scanlines of every plane: the byte at (x,y,z,k) becomes
    the one at (x, H-1-y, z, k); nothing else of the image but the origin changes. *)
Theorem C14_flip_reverses_rows_partial : forall scr im buf,
  img_ok im buf -> scratch_available scr ->
  exists im' buf', ilFlipImage scr im = Ok im' /\ img_ok im' buf' /\
    im' = with_Origin (with_Data im (Some buf')) (Origin im') /\
    forall x y z k, in_image im x y z k ->
      geti buf' (pix_off im x y z k) = geti buf (pix_off im x (Height im - 1 - y) z k).
Proof.
  intros scr im buf Hok Hscr.
  assert (Hok' := Hok).
  destruct Hok' as (HD & HW & HH & HDp & Hbpp & Hbpc & Hbps & Hpl & Hsz & H32 & Hlen).
  unfold ilFlipImage. rewrite HD.
  assert (HP : 0 < Bpp im * Bpc im) by (apply Z.mul_pos_pos; lia).
  assert (HB : 0 < Bps im) by (rewrite Hbps; apply Z.mul_pos_pos; lia).
  assert (HS : 0 < Bps im * Height im) by (apply Z.mul_pos_pos; lia).
  assert (Hle : SizeOfPlane im <= SizeOfPlane im * Depth im).
  { rewrite <- (Z.mul_1_r (SizeOfPlane im)) at 1. apply Z.mul_le_mono_nonneg_l; lia. }
  assert (Hle2 : Bps im <= Bps im * Height im).
  { rewrite <- (Z.mul_1_r (Bps im)) at 1. apply Z.mul_le_mono_nonneg_l; lia. }
  destruct (flip_buffer_spec scr buf (Depth im) (Height im) (Bps im)) as [r [E (L & A & B)]];
    try lia; auto.
  rewrite E. cbn [bind].
  eexists _, r. split; [reflexivity|]. split; [|split].
  - unfold img_ok. cbn [with_Origin with_Data Data Width Height Depth Bpp Bpc Bps SizeOfPlane SizeOfData].
    repeat split; auto; lia.
  - reflexivity.
  - intros x y z k (Hx & Hy & Hz & Hk). unfold pix_off.
    assert (Hxk := row_bound (Bpp im * Bpc im) (Width im) x k Hk Hx).
    specialize (A z y (x * (Bpp im * Bpc im) + k) Hz Hy). rewrite <- !Z.add_assoc in *. rewrite <- Hbps.
    rewrite A by (rewrite Hbps; lia). reflexivity.
Qed.
Print Assumptions C14_flip_reverses_rows_partial.

(** C14b: the picture (rows counted from the top) is unchanged, for an image whose origin is
    one of the two defined ones; the origin is toggled. *)
Theorem C14_flip_keeps_picture_partial : forall scr im buf,
  img_ok im buf -> scratch_available scr ->
  (Origin im = IL_ORIGIN_LOWER_LEFT \/ Origin im = IL_ORIGIN_UPPER_LEFT) ->
  exists im' buf', ilFlipImage scr im = Ok im' /\ img_ok im' buf' /\
    Origin im' <> Origin im /\
    forall x t z k, in_image im x t z k -> picture im' buf' x t z k = picture im buf x t z k.
Proof.
  intros scr im buf Hok Hscr Ho.
  destruct (C14_flip_reverses_rows_partial scr im buf Hok Hscr) as (im' & buf' & E & Hok' & Him & A).
  exists im', buf'. split; auto. split; auto.
  assert (HO : Origin im' = if Origin im =? IL_ORIGIN_LOWER_LEFT then IL_ORIGIN_UPPER_LEFT else IL_ORIGIN_LOWER_LEFT).
  { unfold ilFlipImage in E. destruct Hok as [HD _]. rewrite HD in E. apply bind_ok in E.
    destruct E as [r [_ E]]. inversion E. reflexivity. }
  split.
  - rewrite HO. destruct Ho as [-> | ->]; cbv; discriminate.
  - intros x t z k (Hx & Hy & Hz & Hk). unfold picture.
    assert (Hpo : forall y, pix_off im' x y z k = pix_off im x y z k) by (intros; rewrite Him; reflexivity).
    assert (HH : Height im' = Height im) by (rewrite Him; reflexivity).
    rewrite HO, HH. destruct Ho as [-> | ->]; cbn -[geti Z.sub Z.add].
    + rewrite Hpo. rewrite A by (repeat split; lia). reflexivity.
    + rewrite Hpo. rewrite A by (repeat split; lia). f_equal. f_equal. lia.
Qed.
Print Assumptions C14_flip_keeps_picture_partial.

(** C14c: flipping twice restores the image exactly. *)
Theorem C14_flip_involution_partial : forall scr scr' im buf,
  img_ok im buf -> scratch_available scr -> scratch_available scr' ->
  (Origin im = IL_ORIGIN_LOWER_LEFT \/ Origin im = IL_ORIGIN_UPPER_LEFT) ->
  exists im1, ilFlipImage scr im = Ok im1 /\ ilFlipImage scr' im1 = Ok im.
Proof.
  intros scr scr' im buf Hok Hscr Hscr' Ho.
  destruct (C14_flip_keeps_picture_partial scr im buf Hok Hscr Ho) as (im1 & buf1 & E1 & Hok1 & Hne & _).
  destruct (C14_flip_reverses_rows_partial scr im buf Hok Hscr) as (im1' & buf1' & E1' & Hok1' & Him1 & A1).
  assert (im1' = im1) by congruence. subst im1'.
  assert (buf1' = buf1) by (destruct Hok1 as [H1 _]; destruct Hok1' as [H1' _]; congruence). subst buf1'.
  destruct (C14_flip_reverses_rows_partial scr' im1 buf1 Hok1 Hscr') as (im2 & buf2 & E2 & Hok2 & Him2 & A2).
  exists im1. split; auto. rewrite E2. f_equal.
  assert (HO1 : Origin im1 = if Origin im =? IL_ORIGIN_LOWER_LEFT then IL_ORIGIN_UPPER_LEFT else IL_ORIGIN_LOWER_LEFT).
  { unfold ilFlipImage in E1. destruct Hok as [HD _]. rewrite HD in E1. apply bind_ok in E1.
    destruct E1 as [r [_ E1]]. inversion E1. reflexivity. }
  assert (HO2 : Origin im2 = if Origin im1 =? IL_ORIGIN_LOWER_LEFT then IL_ORIGIN_UPPER_LEFT else IL_ORIGIN_LOWER_LEFT).
  { unfold ilFlipImage in E2. destruct Hok1 as [HD _]. rewrite HD in E2. apply bind_ok in E2.
    destruct E2 as [r [_ E2]]. inversion E2. reflexivity. }
  assert (HO : Origin im2 = Origin im).
  { rewrite HO2, HO1. destruct Ho as [-> | ->]; reflexivity. }
  assert (Hb : buf2 = buf).
  { destruct Hok as (HD & HW & HH & HDp & Hbpp & Hbpc & Hbps & Hpl & Hsz & H32 & Hlen).
    destruct Hok2 as (HD2 & _ & _ & _ & _ & _ & _ & _ & _ & _ & Hlen2).
    assert (HSz : SizeOfData im2 = SizeOfData im) by (rewrite Him2, Him1; reflexivity).
    apply list_ext; [lia|]. intros i Hi.
    assert (HP : 0 < Bpp im * Bpc im) by (apply Z.mul_pos_pos; lia).
    assert (HB : 0 <= Bps im) by (rewrite Hbps; apply Z.mul_nonneg_nonneg; lia).
    assert (Hsz' : zlen buf = Depth im * (Height im * Bps im)) by (rewrite Hlen, Hsz, Hpl; ring).
    destruct (decompose (Depth im) (Height im) (Bps im) i) as (z & y & q & Hz & Hy & Hq & Hiq); try lia.
    destruct (decompose 1 (Width im) (Bpp im * Bpc im) q) as (o & x & k & Hoo & Hx & Hk & Hqx); try lia.
    assert (o = 0) by lia. subst o.
    assert (Hi' : i = pix_off im x y z k) by (unfold pix_off; rewrite Hiq, Hqx, Hbps; lia).
    rewrite Hi'. assert (Hpo : forall y, pix_off im1 x y z k = pix_off im x y z k) by (intros; rewrite Him1; reflexivity).
    assert (HH1 : Height im1 = Height im) by (rewrite Him1; reflexivity).
    rewrite <- Hpo. rewrite A2.
    2:{ rewrite Him1. repeat split; cbn; lia. }
    rewrite HH1, !Hpo. rewrite A1 by (repeat split; lia). f_equal. f_equal. lia. }
  rewrite Him2, HO, Hb, Him1. destruct Hok as [HD _]. destruct im; cbn in *. subst. reflexivity.
Qed.
Print Assumptions C14_flip_involution_partial.

(** C14d: the out-of-place flip (used by savers) produces the same bytes as the in-place
    flip, whatever the contents of the fresh block. *)
Theorem C14_get_flipped_agrees_partial : forall scr alloc im buf,
  img_ok im buf -> scratch_available scr -> allocator_ok alloc ->
  alloc (SizeOfData im) <> None ->
  exists im' buf', ilFlipImage scr im = Ok im' /\ Data im' = Some buf' /\
    iGetFlipped alloc im = Ok (Some buf').
Proof.
  intros scr alloc im buf Hok Hscr Ha Hn.
  destruct (C14_flip_reverses_rows_partial scr im buf Hok Hscr) as (im' & buf' & E & Hok' & Him & A).
  exists im', buf'. split; auto. split; [apply Hok'|].
  assert (Hok1 := Hok).
  destruct Hok1 as (HD & HW & HH & HDp & Hbpp & Hbpc & Hbps & Hpl & Hsz & H32 & Hlen).
  destruct (alloc (SizeOfData im)) as [data|] eqn:Ea; [|congruence].
  assert (Hld := Ha _ _ Ea).
  assert (HP : 0 < Bpp im * Bpc im) by (apply Z.mul_pos_pos; lia).
  assert (HB : 0 < Bps im) by (rewrite Hbps; apply Z.mul_pos_pos; lia).
  assert (HS : 0 < Bps im * Height im) by (apply Z.mul_pos_pos; lia).
  assert (Hle : SizeOfPlane im <= SizeOfPlane im * Depth im).
  { rewrite <- (Z.mul_1_r (SizeOfPlane im)) at 1. apply Z.mul_le_mono_nonneg_l; lia. }
  assert (Hle2 : Bps im <= Bps im * Height im).
  { rewrite <- (Z.mul_1_r (Bps im)) at 1. apply Z.mul_le_mono_nonneg_l; lia. }
  assert (Hsz' : SizeOfData im = Depth im * (Height im * Bps im)) by lia.
  destruct (flip_new_buffer_spec alloc buf (Depth im) (Height im) (Bps im) data) as [r [Er [Lr Ar]]];
    try lia; try congruence.
  unfold iGetFlipped. rewrite HD, Er. f_equal. f_equal.
  assert (Hl' : zlen buf' = SizeOfData im).
  { destruct Hok' as (_ & _ & _ & _ & _ & _ & _ & _ & _ & _ & Hl'). rewrite Hl', Him. reflexivity. }
  apply list_ext; [lia|]. intros i Hi.
  destruct (decompose (Depth im) (Height im) (Bps im) i) as (z & y & q & Hz & Hy & Hq & Hiq); try lia.
  destruct (decompose 1 (Width im) (Bpp im * Bpc im) q) as (o & x & k & Hoo & Hx & Hk & Hqx); try lia.
  assert (o = 0) by lia. subst o.
  assert (Hi' : i = pix_off im x y z k) by (unfold pix_off; rewrite Hiq, Hqx, Hbps; lia).
  rewrite Hi' at 2. rewrite A by (repeat split; lia). rewrite Hiq. rewrite Ar by lia.
  f_equal. unfold pix_off. rewrite Hqx, Hbps. lia.
Qed.
Print Assumptions C14_get_flipped_agrees_partial.

(** C14, finding: when the scratch block cannot be allocated the rows are silently NOT
    swapped but the origin is toggled all the same, so the picture changes although
    ilFlipImage reports success. *)
Theorem C14_flip_out_of_memory_refuted : exists scr im buf im' buf',
  img_ok im buf /\ ilFlipImage scr im = Ok im' /\ img_ok im' buf' /\
  exists x t z k, in_image im x t z k /\ picture im' buf' x t z k <> picture im buf x t z k.
Proof.
  exists (fun _ _ => None),
   (mkImg 1 2 1 1 1 1 (Some [10; 20]) 2 2 IL_LUMINANCE IL_UNSIGNED_BYTE IL_ORIGIN_LOWER_LEFT
               (mkPal None 0 IL_PAL_NONE) 0 0 0 0), [10; 20],
   (mkImg 1 2 1 1 1 1 (Some [10; 20]) 2 2 IL_LUMINANCE IL_UNSIGNED_BYTE IL_ORIGIN_UPPER_LEFT
               (mkPal None 0 IL_PAL_NONE) 0 0 0 0), [10; 20].
  split; [|split; [|split]].
  - repeat split; cbn; auto; try lia.
  - vm_compute. reflexivity.
  - repeat split; cbn; auto; try lia.
  - exists 0, 0, 0, 0. split.
    + repeat split; cbn; lia.
    + vm_compute. discriminate.
Qed.
Print Assumptions C14_flip_out_of_memory_refuted.

(** A concrete image meeting the hypotheses: 2 x 3 x 2, 2 channels of 1 byte. *)
Definition ex_buf : list Z := map Z.of_nat (seq 1 24).
Definition ex_img : img :=
  mkImg 2 3 2 2 1 4 (Some ex_buf) 24 12 IL_LUMINANCE_ALPHA IL_UNSIGNED_BYTE IL_ORIGIN_LOWER_LEFT
        (mkPal None 0 IL_PAL_NONE) 0 0 0 0.
Example C14_hyp_met : img_ok ex_img ex_buf /\
  scratch_available (fun _ _ => Some (repeat 0 (Z.to_nat 4096))) /\
  option_map (fun b => b) (match ilFlipImage (fun _ _ => Some (repeat 0 (Z.to_nat 4096))) ex_img with
    Ok i => Data i | _ => None end) =
  Some [9;10;11;12; 5;6;7;8; 1;2;3;4; 21;22;23;24; 17;18;19;20; 13;14;15;16].
Proof.
  split; [|split].
  - repeat split; cbn; auto; try lia.
  - intros d y. eexists. split; [reflexivity|]. rewrite zlen_repeat. lia.
  - vm_compute. reflexivity.
Qed.

(** C15a: iMirror reverses the pixels of every scanline (widths below 2^31), stays inside
    both buffers, and changes nothing else of the image. *)
Theorem C15_mirror_reverses_columns_partial : forall alloc im buf,
  img_ok im buf -> Width im < 2 ^ 31 -> allocator_ok alloc -> alloc (SizeOfData im) <> None ->
  exists buf', iMirror alloc im = Ok (Some (with_Data im (Some buf'))) /\
    img_ok (with_Data im (Some buf')) buf' /\
    forall x y z k, in_image im x y z k ->
      geti buf' (pix_off im x y z k) = geti buf (pix_off im (Width im - 1 - x) y z k).
Proof.
  intros alloc im buf Hok HW31 Ha Hn.
  destruct (alloc (SizeOfData im)) as [data|] eqn:Ea; [|congruence].
  destruct (mirror_spec alloc im buf data Hok HW31 Ea (Ha _ _ Ea)) as [r [E [L A]]].
  exists r. split; auto. split.
  - unfold img_ok in *. cbn [with_Data Data Width Height Depth Bpp Bpc Bps SizeOfPlane SizeOfData].
    intuition; lia.
  - intros x y z k (Hx & Hy & Hz & Hk). unfold pix_off. apply A; auto.
Qed.
Print Assumptions C15_mirror_reverses_columns_partial.

(** C15b: mirroring twice restores the image. *)
Theorem C15_mirror_involution_partial : forall alloc im buf,
  img_ok im buf -> Width im < 2 ^ 31 -> allocator_ok alloc -> alloc (SizeOfData im) <> None ->
  exists im1, iMirror alloc im = Ok (Some im1) /\ iMirror alloc im1 = Ok (Some im).
Proof.
  intros alloc im buf Hok HW31 Ha Hn.
  destruct (C15_mirror_reverses_columns_partial alloc im buf Hok HW31 Ha Hn) as (b1 & E1 & Hok1 & A1).
  exists (with_Data im (Some b1)). split; auto.
  destruct (C15_mirror_reverses_columns_partial alloc (with_Data im (Some b1)) b1 Hok1 HW31 Ha Hn) as (b2 & E2 & Hok2 & A2).
  rewrite E2. f_equal. f_equal.
  assert (Hb : b2 = buf).
  { destruct Hok as (HD & HW & HH & HDp & Hbpp & Hbpc & Hbps & Hpl & Hsz & H32 & Hlen).
    destruct Hok2 as (HD2 & _ & _ & _ & _ & _ & _ & _ & _ & _ & Hlen2). cbn in Hlen2.
    apply list_ext; [lia|]. intros i Hi.
    assert (HP : 0 < Bpp im * Bpc im) by (apply Z.mul_pos_pos; lia).
    assert (HB : 0 <= Bps im) by (rewrite Hbps; apply Z.mul_nonneg_nonneg; lia).
    assert (Hsz' : zlen buf = Depth im * (Height im * Bps im)) by (rewrite Hlen, Hsz, Hpl; ring).
    destruct (decompose (Depth im) (Height im) (Bps im) i) as (z & y & q & Hz & Hy & Hq & Hiq); try lia.
    destruct (decompose 1 (Width im) (Bpp im * Bpc im) q) as (o & x & k & Hoo & Hx & Hk & Hqx); try lia.
    assert (o = 0) by lia. subst o.
    assert (Hi' : i = pix_off im x y z k) by (unfold pix_off; rewrite Hiq, Hqx, Hbps; lia).
    rewrite Hi'. change (pix_off im x y z k) with (pix_off (with_Data im (Some b1)) x y z k) at 1.
    rewrite A2 by (repeat split; cbn; lia).
    change (geti b1 (pix_off im (Width im - 1 - x) y z k) = geti buf (pix_off im x y z k)).
    rewrite A1 by (repeat split; lia). f_equal. f_equal. lia. }
  rewrite Hb. destruct Hok as [HD _]. destruct im; cbn in *. subst. reflexivity.
Qed.
Print Assumptions C15_mirror_involution_partial.

(** C15, finding: for widths above 2^31 the loop counter starts negative, no pixel is
    copied, and the image ends up with the uninitialised contents of the fresh block. *)
Theorem C15_mirror_wide_refuted : forall alloc im buf fresh,
  img_ok im buf -> 2 ^ 31 < Width im -> alloc (SizeOfData im) = Some fresh ->
  iMirror alloc im = Ok (Some (with_Data im (Some fresh))).
Proof.
  intros alloc im buf fresh (HD & HW & HH & HDp & Hbpp & Hbpc & Hbps & Hpl & Hsz & H32 & Hlen) HW31 Ea.
  unfold iMirror. rewrite Ea, HD.
  replace ((Bpc im =? 1) || (Bpc im =? 2) || (Bpc im =? 4) || (Bpc im =? 8)) with true by lia.
  assert (HP : 0 < Bpp im * Bpc im) by (apply Z.mul_pos_pos; lia).
  assert (HB : Width im <= Bps im).
  { rewrite Hbps. rewrite <- (Z.mul_1_r (Width im)) at 1. apply Z.mul_le_mono_nonneg_l; lia. }
  assert (Hle : SizeOfPlane im <= SizeOfPlane im * Depth im).
  { rewrite <- (Z.mul_1_r (SizeOfPlane im)) at 1. apply Z.mul_le_mono_nonneg_l; [|lia].
    rewrite Hpl. apply Z.mul_nonneg_nonneg; lia. }
  assert (Hle2 : Bps im <= Bps im * Height im).
  { rewrite <- (Z.mul_1_r (Bps im)) at 1. apply Z.mul_le_mono_nonneg_l; lia. }
  assert (Hi : i32 (Width im - 1) + 1 <= 0) by (unfold i32; lia).
  set (body := fun d st => _).
  assert (Hb : loop 0 (Depth im) body (fresh, 0) = Ok (fresh, 0)).
  { destruct (loop_rule _ (fun _ st => st = (fresh, 0)) 0 (Depth im) body (fresh, 0)) as [s [E ->]]; auto; try lia.
    intros d st Hd ->. unfold body.
    destruct (loop_rule _ (fun _ st => st = (fresh, 0)) 0 (Height im)
      (fun y st => loop 0 (i32 (Width im - 1) + 1) (fun i st =>
                    let x := i32 (Width im - 1) - i in
                    loop 0 (Bpp im) (fun c '(dst, t) =>
                      let! dst := memcpy dst (u32 (d * SizeOfPlane im) + u32 (y * (Bps im / Bpc im) + x * Bpp im + c) * Bpc im)
                                        buf (t * Bpc im) (Bpc im) in
                      Ok (dst, t + 1)) st) st) (fresh, 0)) as [s [E ->]]; auto; try lia.
    - intros y st Hy ->. exists (fresh, 0). split; auto. unfold loop at 1.
      replace (Z.to_nat (i32 (Width im - 1) + 1 - 0)) with 0%nat by lia. reflexivity.
    - exists (fresh, 0). split; auto. }
  rewrite Hb. reflexivity.
Qed.
Print Assumptions C15_mirror_wide_refuted.

Example C15_hyp_met :
  match iMirror (fun n => Some (repeat 7 (Z.to_nat n))) ex_img with
  | Ok (Some i) => Data i | _ => None end =
  Some [3;4;1;2; 7;8;5;6; 11;12;9;10; 15;16;13;14; 19;20;17;18; 23;24;21;22].
Proof. vm_compute. reflexivity. Qed.
