(** Property theorems C11 (ilCopyPixels), C12 (ilSetPixels), C13 (set then copy). *)
From Coq Require Import ZArith List Lia Bool.
From Verif Require Import Base Enums Utility UtilityProofs Image ImageSpec Flip FlipProofs Pixels Scatter
  PixelsProofs PixelsBox.
Import ListNotations.
Open Scope Z_scope.

(** ** Specification vocabulary *)

(** The storage row meant by row [y] of a region: with IL_ORIGIN_SET enabled rows are counted
    from the requested origin, otherwise they are storage rows. *)
Definition region_row (om : option Z) (im : img) (y : Z) : Z :=
  match om with
  | Some m => if m =? Origin im then y else Height im - 1 - y
  | None => y
  end.

(** Byte [k] of pixel (x,y,z) in the caller's tightly packed W x H x D box *)
Definition packed (W H P x y z k : Z) : Z := ((z * H + y) * W + x) * P + k.

(** Pixel bytes of an image *)
Definition pixbytes (im : img) : Z := Bpp im * Bpc im.

(** The format and type enums of the image describe its layout *)
Definition layout_ok (im : img) : Prop :=
  ilGetBppFormat (Format im) = Bpp im /\ ilGetBpcType (Type_ im) = Bpc im /\ Format im <> IL_COLOUR_INDEX.

(** The origin setting does not require a flipped copy *)
Definition no_flip (om : option Z) (im : img) : Prop := om = None \/ om = Some (Origin im).

Lemma region_row_eq : forall om im y, region_row om im y = row_of (wants_flip om im) im y.
Proof. intros [m|] im y; unfold region_row, row_of, wants_flip; auto. destruct (m =? Origin im); auto. Qed.

Lemma src_pixel : forall om im buf src, img_ok im buf -> own_or_flipped om im buf src ->
  forall x y z k, in_image im x y z k ->
  geti src (pix_off im x y z k) = geti buf (pix_off im x (region_row om im y) z k).
Proof.
  intros om im buf src Hok [L A] x y z k (Hx & Hy & Hz & Hk).
  destruct Hok as (_ & HW1 & HH1 & HD1 & _ & _ & Hbps & Hpl & Hszd & H32 & Hlen).
  assert (B := lin_bound _ _ x k Hk Hx). rewrite <- Hbps in B.
  specialize (A z y _ Hz Hy B). rewrite region_row_eq. unfold pix_off.
  rewrite Hpl, Hbps in A.
  replace (z * (Height im * (Width im * (Bpp im * Bpc im))) + y * (Width im * (Bpp im * Bpc im)) + x * (Bpp im * Bpc im) + k)
   with (z * (Width im * (Bpp im * Bpc im) * Height im) + y * (Width im * (Bpp im * Bpc im)) + (x * (Bpp im * Bpc im) + k)) by ring.
  rewrite A. f_equal. ring.
Qed.

Lemma copy_same : forall alloc conv om im buf X Y Z_ W H D dst dst',
  img_ok im buf -> layout_ok im ->
  1 <= W -> 1 <= H -> 1 <= D -> W * H * D * pixbytes im < 4294967296 ->
  (if u32 (Y + H) <=? 1 then ilCopyPixels1D alloc om im X W dst
   else if u32 (Z_ + D) <=? 1 then ilCopyPixels2D alloc om im X Y W H dst
   else ilCopyPixels3D alloc om im X Y Z_ W H D dst) = Ok (Some dst') ->
  ilCopyPixels alloc conv om im X Y Z_ W H D (Format im) (Type_ im) (Some dst)
  = Ok (W * H * D * pixbytes im, Some dst', []).
Proof.
  intros alloc conv om im buf X Y Z_ W H D dst dst' Hok (HF & HT & HC) HW HH HD Hsz E.
  destruct (img_ok_facts im buf Hok) as (HP & _).
  unfold ilCopyPixels. rewrite HF, HT.
  unfold pixbytes in *.
  replace (W * H * D * Bpp im * Bpc im) with (W * H * D * (Bpp im * Bpc im)) by ring.
  assert (0 < W * H) by (apply Z.mul_pos_pos; lia).
  assert (0 < W * H * D) by (apply Z.mul_pos_pos; lia).
  assert (0 < W * H * D * (Bpp im * Bpc im)) by (apply Z.mul_pos_pos; lia).
  rewrite u32_small by lia.
  replace (W * H * D * (Bpp im * Bpc im) =? 0) with false by lia.
  replace (Format im =? IL_COLOUR_INDEX) with false by lia.
  rewrite !Z.eqb_refl. cbn [andb]. rewrite E. reflexivity.
Qed.

(** ** C11 *)

(** C11a: a region inside the image is returned exactly, packed tightly; nothing after it in
    the caller's buffer is touched.  (Second to last hypothesis: see
    C11_copy_depth_ignored_refuted for the one-row, several-slices case it excludes.) *)
Theorem C11_copy_pixels_inside_partial : forall alloc conv om im buf X Y Z_ W H D dst,
  img_ok im buf -> layout_ok im -> allocator_ok alloc ->
  (no_flip om im \/ alloc (SizeOfData im) <> None) ->
  0 <= X -> 0 <= Y -> 0 <= Z_ -> 1 <= W -> 1 <= H -> 1 <= D ->
  X + W <= Width im -> Y + H <= Height im -> Z_ + D <= Depth im ->
  (Y + H = 1 -> Z_ + D = 1) ->
  W * H * D * pixbytes im <= zlen dst ->
  exists dst', ilCopyPixels alloc conv om im X Y Z_ W H D (Format im) (Type_ im) (Some dst)
      = Ok (W * H * D * pixbytes im, Some dst', []) /\
    zlen dst' = zlen dst /\
    (forall x y z k, 0 <= x < W -> 0 <= y < H -> 0 <= z < D -> 0 <= k < pixbytes im ->
       geti dst' (packed W H (pixbytes im) x y z k) =
       geti buf (pix_off im (X + x) (region_row om im (Y + y)) (Z_ + z) k)) /\
    (forall j, W * H * D * pixbytes im <= j -> geti dst' j = geti dst j).
Proof.
  intros alloc conv om im buf X Y Z_ W H D dst Hok Hlay Ha Hal HX HY HZ HW HH HD HXW HYH HZD H1d Hdst.
  assert (Hok' := Hok).
  destruct Hok' as (_ & HW1 & HH1 & HD1 & _ & _ & Hbps & Hpl & Hszd & H32 & Hlen).
  destruct (img_ok_facts im buf Hok) as (HP & HPB & HBS & HSD). unfold pixbytes in *.
  set (P := Bpp im * Bpc im) in *.
  assert (Hsz : W * H * D * P <= SizeOfData im).
  { rewrite Hszd, Hpl, Hbps.
    assert (M1 : 0 <= W * P <= Width im * P) by (apply mul_bound; lia).
    assert (M2 : 0 <= W * P * H <= Width im * P * Height im) by (apply mul_bound; lia).
    assert (M3 : 0 <= W * P * H * D <= Width im * P * Height im * Depth im) by (apply mul_bound; lia).
    replace (W * H * D * P) with (W * P * H * D) by ring. lia. }
  assert (LW : Width im <= Bps im) by (rewrite Hbps; apply le_mul_l; lia).
  assert (LH : Height im <= SizeOfPlane im) by (rewrite Hpl, Z.mul_comm; apply le_mul_l; lia).
  assert (LD : Depth im <= SizeOfData im) by (rewrite Hszd, Z.mul_comm; apply le_mul_l; lia).
  destruct (copy_dispatch alloc om im buf X Y Z_ W H D dst) as (src & dst' & Ho & E & (L & A & B)); auto; fold P; try lia.
  { intros Hf. destruct Hal as [[->| ->]|Hal]; auto; cbn in Hf; [discriminate|rewrite Z.eqb_refl in Hf; discriminate]. }
  exists dst'. split; [|split; [exact L|split]].
  - apply (copy_same alloc conv om im buf); auto. unfold pixbytes. fold P. lia.
  - intros x y z k Hx Hy Hz Hk. rewrite (A _ (geti src (pix_off im (x + X) (y + Y) (z + Z_) k))).
    + rewrite (src_pixel om im buf src Hok Ho) by (repeat split; fold P; lia). f_equal.
      rewrite (Z.add_comm x X), (Z.add_comm y Y), (Z.add_comm z Z_). reflexivity.
    + exists x, y, z, k. fold P. unfold ext. repeat split; try lia.
  - intros j Hj. apply B; [|].
    + assert (0 <= W * H * D * P); [|lia]. apply Z.mul_nonneg_nonneg; [|lia].
      apply Z.mul_nonneg_nonneg; [|lia]. apply Z.mul_nonneg_nonneg; lia.
    + intros v (x & y & z & c & Hx & Hy & Hz & Hc & -> & _). unfold ext in *. fold P in Hc, Hj.
      assert (Bb := box_off_bound W H D P x y z c Hc ltac:(lia) ltac:(lia) ltac:(lia)). lia.
Qed.
Print Assumptions C11_copy_pixels_inside_partial.

(** C11b: a region of one slice that starts inside the image and may extend beyond its right
    and top edges: the part inside is returned, the rest of the caller's box is untouched. *)
Theorem C11_copy_pixels_clipped_partial : forall alloc conv om im buf X Y W H dst,
  img_ok im buf -> layout_ok im -> allocator_ok alloc ->
  (no_flip om im \/ alloc (SizeOfData im) <> None) ->
  0 <= X <= Width im -> 0 <= Y <= Height im -> 1 <= W -> 1 <= H ->
  X + W < 2 ^ 32 -> Y + H < 2 ^ 32 -> W * H * 1 * pixbytes im < 2 ^ 32 ->
  W * H * 1 * pixbytes im <= zlen dst ->
  exists dst', ilCopyPixels alloc conv om im X Y 0 W H 1 (Format im) (Type_ im) (Some dst)
      = Ok (W * H * 1 * pixbytes im, Some dst', []) /\
    zlen dst' = zlen dst /\
    (forall x y k, 0 <= x < W -> 0 <= y < H -> 0 <= k < pixbytes im ->
       geti dst' (packed W H (pixbytes im) x y 0 k) =
       if (X + x <? Width im) && (Y + y <? Height im)
       then geti buf (pix_off im (X + x) (region_row om im (Y + y)) 0 k)
       else geti dst (packed W H (pixbytes im) x y 0 k)) /\
    (forall j, W * H * 1 * pixbytes im <= j -> geti dst' j = geti dst j).
Proof.
  intros alloc conv om im buf X Y W H dst Hok Hlay Ha Hal HX HY HW HH HXW HYH Hsz Hdst.
  assert (Hok' := Hok).
  destruct Hok' as (_ & HW1 & HH1 & HD1 & _ & _ & Hbps & Hpl & Hszd & H32 & Hlen).
  destruct (img_ok_facts im buf Hok) as (HP & HPB & HBS & HSD). unfold pixbytes in *.
  set (P := Bpp im * Bpc im) in *.
  destruct (copy_dispatch alloc om im buf X Y 0 W H 1 dst) as (src & dst' & Ho & E & (L & A & B)); auto; fold P; try lia.
  { intros Hf. destruct Hal as [[->| ->]|Hal]; auto; cbn in Hf; [discriminate|rewrite Z.eqb_refl in Hf; discriminate]. }
  exists dst'. split; [|split; [exact L|split]].
  - apply (copy_same alloc conv om im buf); auto; unfold pixbytes; fold P; lia.
  - intros x y k Hx Hy Hk.
    assert (Bb := box_off_bound W H 1 P x y 0 k Hk ltac:(lia) ltac:(lia) ltac:(lia)).
    destruct ((X + x <? Width im) && (Y + y <? Height im)) eqn:Ein.
    + rewrite (A _ (geti src (pix_off im (x + X) (y + Y) (0 + 0) k))).
      * rewrite (src_pixel om im buf src Hok Ho) by (repeat split; fold P; lia). f_equal.
        rewrite (Z.add_comm x X), (Z.add_comm y Y). reflexivity.
      * exists x, y, 0, k. fold P. unfold ext. repeat split; try lia.
    + apply B; [exact (proj1 Bb)|].
      intros v (x' & y' & z' & c' & Hx' & Hy' & Hz' & Hc' & E' & _). unfold ext in *. fold P in Hc', E'.
      apply (box_off_inj W H P x y 0 k x' y' z' c') in E'; lia.
  - intros j Hj. apply B.
    + assert (0 <= W * H * 1 * P); [|lia]. apply Z.mul_nonneg_nonneg; [|lia].
      apply Z.mul_nonneg_nonneg; [|lia]. apply Z.mul_nonneg_nonneg; lia.
    + intros v (x & y & z & c & Hx & Hy & Hz & Hc & -> & _). unfold ext in *. fold P in Hc, Hj.
      assert (Bb := box_off_bound W H 1 P x y z c Hc ltac:(lia) ltac:(lia) ltac:(lia)). lia.
Qed.
Print Assumptions C11_copy_pixels_clipped_partial.

(** Degenerate calls: an empty region returns 0 and touches nothing; NULL or a palette format
    is refused. *)
Theorem C11_copy_empty : forall alloc conv om im X Y Z_ W H D fmt typ data,
  W * H * D = 0 ->
  ilCopyPixels alloc conv om im X Y Z_ W H D fmt typ data = Ok (0, data, []).
Proof.
  intros. unfold ilCopyPixels. rewrite H0. reflexivity.
Qed.
Print Assumptions C11_copy_empty.

(** C11, finding 1: one-row regions ignore the slice: asking for slice 1 of a 1x1x2 image
    returns slice 0. *)
Definition img3d (w h d : Z) (buf : list Z) : img :=
  mkImg w h d 1 1 w (Some buf) (w * h * d) (w * h) IL_LUMINANCE IL_UNSIGNED_BYTE IL_ORIGIN_LOWER_LEFT
        (mkPal None 0 IL_PAL_NONE) 0 0 0 0.
Definition noconv : converter := fun _ _ _ _ _ _ => Ok None.
Definition goodalloc : allocator := fun n => Some (repeat 0 (Z.to_nat n)).

Theorem C11_copy_depth_ignored_refuted : exists im buf,
  img_ok im buf /\ layout_ok im /\ Depth im = 2 /\
  geti buf (pix_off im 0 0 1 0) = 22 /\
  ilCopyPixels goodalloc noconv None im 0 0 1 1 1 1 (Format im) (Type_ im) (Some [99]) = Ok (1, Some [11], []).
Proof.
  exists (img3d 1 1 2 [11; 22]), [11; 22].
  split; [repeat split; cbn; auto; lia|]. split; [repeat split; try reflexivity; discriminate|]. repeat split; reflexivity.
Qed.
Print Assumptions C11_copy_depth_ignored_refuted.

(** C11, finding 2: in three dimensions, when the region is clipped in x or y, the second
    slice is packed at the wrong place: here the region is 2x2x2 on a 1x2x2 image; pixel
    (0,0,1) of the box (offset 4) is never written, and offset 2 holds slice 1 instead of row 1. *)
Theorem C11_copy_clipped_3d_refuted : exists im buf,
  img_ok im buf /\ layout_ok im /\
  exists dst', ilCopyPixels goodalloc noconv None im 0 0 0 2 2 2 (Format im) (Type_ im) (Some (repeat 99 8))
     = Ok (8, Some dst', []) /\
  geti buf (pix_off im 0 0 1 0) = 30 /\ geti dst' (packed 2 2 1 0 0 1 0) <> 30 /\
  geti buf (pix_off im 0 1 0 0) = 20 /\ geti dst' (packed 2 2 1 0 1 0 0) <> 20.
Proof.
  exists (img3d 1 2 2 [10; 20; 30; 40]), [10; 20; 30; 40].
  split; [repeat split; cbn; auto; lia|]. split; [repeat split; try reflexivity; discriminate|].
  eexists. split; [vm_compute; reflexivity|]. repeat split; vm_compute; discriminate.
Qed.
Print Assumptions C11_copy_clipped_3d_refuted.

Lemma loop_first_ub : forall S lo hi (b : Z -> S -> res S) s, lo < hi -> b lo s = UB -> loop lo hi b s = UB.
Proof.
  intros S lo hi b s Hlt Hb. unfold loop.
  destruct (Z.to_nat (hi - lo)) as [|n] eqn:E; [lia|]. cbn [for_]. rewrite Hb. reflexivity.
Qed.

(** C11, finding 3: an X offset beyond the image width is not rejected: for every one-plane,
    one-row image the call reads outside the pixel buffer. *)
Theorem C11_copy_offset_outside_ub : forall alloc conv im buf X W dst,
  img_ok im buf -> layout_ok im -> Height im = 1 -> Depth im = 1 ->
  Width im < X -> X + W < 2 ^ 31 -> X * pixbytes im < 2 ^ 31 -> 1 <= W -> W * 1 * 1 * pixbytes im < 2 ^ 32 ->
  ilCopyPixels alloc conv None im X 0 0 W 1 1 (Format im) (Type_ im) (Some dst) = UB.
Proof.
  intros alloc conv im buf X W dst Hok (HF & HT & HC) HH1 HD1 HX HXW HXP HW Hsz.
  assert (Hok' := Hok).
  destruct Hok' as (HDt & HW1 & _ & _ & _ & _ & Hbps & Hpl & Hszd & H32 & Hlen).
  destruct (img_ok_facts im buf Hok) as (HP & HPB & HBS & HSD). unfold pixbytes in *.
  set (P := Bpp im * Bpc im) in *.
  unfold ilCopyPixels. rewrite HF, HT.
  replace (W * 1 * 1 * Bpp im * Bpc im) with (W * P) by (unfold P; ring).
  assert (0 < W * P) by (apply Z.mul_pos_pos; lia).
  rewrite (u32_small (W * P)) by lia.
  replace (W * P =? 0) with false by lia. replace (Format im =? IL_COLOUR_INDEX) with false by lia.
  rewrite !Z.eqb_refl. cbn [andb]. change (u32 (0 + 1) <=? 1) with true. cbv iota.
  unfold ilCopyPixels1D, iOriginData. rewrite HDt. cbn [bind]. fold P.
  assert (Hc : clip_bps (Width im) X W P = 4294967296 - (X - Width im) * P).
  { unfold clip_bps. rewrite (u32_small (X + W)) by lia. replace (Width im <? X + W) with true by lia.
    assert (Hm1 : 0 < (X - Width im) * P) by (apply Z.mul_pos_pos; lia).
    assert (Hm2 : (X - Width im) * P <= X * P) by (apply Z.mul_le_mono_nonneg_r; lia).
    unfold u32. rewrite Z.mul_mod_idemp_l by lia.
    symmetry. apply (Z.mod_unique_pos _ _ (-1)); lia. }
  rewrite Hc.
  assert (Hm1 : 0 < (X - Width im) * P) by (apply Z.mul_pos_pos; lia).
  assert (Hm2 : (X - Width im) * P <= X * P) by (apply Z.mul_le_mono_nonneg_r; lia).
  assert (Hub : forall d, loop 0 P (fun c d => let! v := rd buf (u32 (u32 (0 + u32 (X * P)) + c)) in wr d (u32 (0 + c)) v) d = UB).
  { intros d. apply loop_first_ub; [lia|]. rewrite (u32_small (X * P)) by lia.
    rewrite (u32_small (0 + X * P)) by lia. rewrite u32_small by lia.
    rewrite rd_ub; [reflexivity|]. rewrite Hlen, Hszd, Hpl, Hbps, HH1, HD1.
    assert (Width im * P <= X * P) by (apply Z.mul_le_mono_nonneg_r; lia). lia. }
  unfold xloop. set (nb := 4294967296 - (X - Width im) * P) in *.
  replace (nb =? 0) with false by lia. replace (P =? 0) with false by lia.
  assert (Hq : (nb + P - 1) / P * P < 4294967296).
  { assert (Hdm := Z.mul_div_le (nb + P - 1) P ltac:(lia)).
    assert (Hge : P <= (X - Width im) * P) by (rewrite <- (Z.mul_1_l P) at 1; apply Z.mul_le_mono_nonneg_r; lia).
    lia. }
  replace ((nb + P - 1) / P * P <? 4294967296) with true by lia.
  rewrite (loop_first_ub _ 0); [reflexivity| |apply Hub].
  apply Z.div_str_pos. lia.
Qed.
Print Assumptions C11_copy_offset_outside_ub.

Example C11_hyp_met :
  let im := img3d 3 2 2 (map Z.of_nat (seq 1 12)) in
  img_ok im (map Z.of_nat (seq 1 12)) /\ layout_ok im /\
  ilCopyPixels goodalloc noconv (Some IL_ORIGIN_UPPER_LEFT) im 1 0 1 2 1 1 IL_LUMINANCE IL_UNSIGNED_BYTE (Some [0;0;0]) =
    Ok (2, Some [5;6;0], []) /\
  ilCopyPixels goodalloc noconv (Some IL_ORIGIN_UPPER_LEFT) im 1 0 0 2 2 2 IL_LUMINANCE IL_UNSIGNED_BYTE (Some (repeat 0 9)) =
    Ok (8, Some [5;6;2;3; 11;12;8;9; 0], []).
Proof.
  split; [repeat split; cbn; auto; lia|]. split; [repeat split; try reflexivity; discriminate|]. split; reflexivity.
Qed.

(** ** C12 *)

(** Image position (i,j,l) belongs to the region *)
Definition in_region (X Y Z_ W H D i j l : Z) : bool :=
  (X <=? i) && (i <? X + W) && (Y <=? j) && (j <? Y + H) && (Z_ <=? l) && (l <? Z_ + D).

(** Arguments and image dimensions that do not overflow the 32-bit signed arithmetic of the
    clipping code, and a caller's buffer that holds the region. *)
Definition args_ok (im : img) (X Y Z_ W H D : Z) (data : list Z) : Prop :=
  -(2 ^ 31) < X < 2 ^ 31 /\ -(2 ^ 31) < Y < 2 ^ 31 /\ -(2 ^ 31) < Z_ < 2 ^ 31 /\
  Width im < 2 ^ 31 /\ Height im < 2 ^ 31 /\ Depth im < 2 ^ 31 /\
  1 <= W < 2 ^ 31 /\ 1 <= H < 2 ^ 31 /\ 1 <= D < 2 ^ 31 /\
  W * H * D * pixbytes im < 2 ^ 32 /\ W * H * D * pixbytes im <= zlen data.

Lemma u32_01 : forall a, -4294967294 < a < 4294967296 -> (u32 a <=? 1) = (0 <=? a) && (a <=? 1).
Proof.
  intros a Ha. unfold u32. destruct (Z.lt_ge_cases a 0).
  - replace (a mod 4294967296) with (a + 4294967296) by (apply (Z.mod_unique_pos _ _ (-1)); lia). lia.
  - rewrite Z.mod_small by lia. lia.
Qed.

Lemma set_same : forall alloc conv om im X Y Z_ W H D data im',
  (if u32 (Y + H) <=? 1 then ilSetPixels1D alloc om im X W data
   else if u32 (Z_ + D) <=? 1 then ilSetPixels2D alloc om im X Y W H data
   else ilSetPixels3D alloc om im X Y Z_ W H D data) = Ok (Some im') ->
  ilSetPixels alloc conv om im X Y Z_ W H D (Format im) (Type_ im) (Some data) = Ok (im', []).
Proof.
  intros. unfold ilSetPixels. rewrite !Z.eqb_refl. cbn [andb bind]. rewrite H0. reflexivity.
Qed.

Lemma img_ok_with : forall im buf b, img_ok im buf -> zlen b = SizeOfData im -> img_ok (with_Data im (Some b)) b.
Proof.
  intros im buf b Hok Hl. unfold img_ok in *.
  cbn [with_Data Data Width Height Depth Bpp Bpc Bps SizeOfPlane SizeOfData]. intuition.
Qed.

(** prefix of the data argument needed by the lower-dimensional variants *)
Lemma args_weaken : forall im X Y Z_ W H D data H' D', 1 <= Bpp im * Bpc im ->
  args_ok im X Y Z_ W H D data -> 1 <= H' <= H -> 1 <= D' <= D ->
  forall Y' Z', -2147483648 < Y' < 2147483648 -> -2147483648 < Z' < 2147483648 ->
  set_args im X Y' Z' W H' D' data.
Proof.
  intros im X Y Z_ W H D data H' D' HP (A1 & A2 & A3 & A4 & A5 & A6 & A7 & A8 & A9 & A10 & A11) HH' HD' Y' Z' HY' HZ'.
  unfold set_args, pixbytes in *.
  assert (M1 : 0 <= W * H' <= W * H) by (apply mul_bound; lia).
  assert (M2 : 0 <= W * H' * D' <= W * H * D) by (apply mul_bound; lia).
  assert (M3 : 0 <= W * H' * D' * (Bpp im * Bpc im) <= W * H * D * (Bpp im * Bpc im)) by (apply mul_bound; lia).
  repeat split; lia.
Qed.

(** C12a: memory safety.  For every offset (also negative) and extent no byte outside the
    image buffer or the caller's buffer is accessed, and the image keeps its geometry. *)
Theorem C12_set_pixels_safe : forall alloc conv om im buf X Y Z_ W H D data,
  img_ok im buf -> allocator_ok alloc -> (no_flip om im \/ alloc (SizeOfData im) <> None) ->
  args_ok im X Y Z_ W H D data ->
  exists buf', ilSetPixels alloc conv om im X Y Z_ W H D (Format im) (Type_ im) (Some data)
      = Ok (with_Data im (Some buf'), []) /\ img_ok (with_Data im (Some buf')) buf'.
Proof.
  intros alloc conv om im buf X Y Z_ W H D data Hok Ha Hal0 Hargs.
  destruct (img_ok_facts im buf Hok) as (HP & _).
  assert (Hal : wants_flip om im = true -> alloc (SizeOfData im) <> None).
  { intros Hf. destruct Hal0 as [[->| ->]|Hal]; auto; cbn in Hf; [discriminate|rewrite Z.eqb_refl in Hf; discriminate]. }
  assert (Hh : 1 <= H /\ 1 <= D /\ -(2^31) < Y < 2^31 /\ -(2^31) < Z_ < 2^31) by (destruct Hargs as (A1 & A2 & A3 & A4 & A5 & A6 & A7 & A8 & A9 & _); lia).
  assert (Ax := args_weaken im X Y Z_ W H D data).
  assert (Hd : exists dst dst' Wr, own_or_flipped om im buf dst /\
   (if u32 (Y + H) <=? 1 then ilSetPixels1D alloc om im X W data
   else if u32 (Z_ + D) <=? 1 then ilSetPixels2D alloc om im X Y W H data
   else ilSetPixels3D alloc om im X Y Z_ W H D data) = Ok (Some (with_Data im (Some dst'))) /\
   step Wr dst dst').
  { destruct (u32 (Y + H) <=? 1).
    - destruct (set_box1 alloc om im buf Hok Ha Hal data X W) as (d & d' & O & E & S); [apply (Ax 1 1); auto; lia|].
      eexists d, d', _. split; [exact O|]. split; [exact E|exact S].
    - destruct (u32 (Z_ + D) <=? 1).
      + destruct (set_box2 alloc om im buf Hok Ha Hal data X Y W H) as (d & d' & O & E & S); [apply (Ax H 1); auto; lia|].
        eexists d, d', _. split; [exact O|]. split; [exact E|exact S].
      + destruct (set_box3 alloc om im buf Hok Ha Hal data X Y Z_ W H D) as (d & d' & O & E & S); [apply (Ax H D); auto; lia|].
        eexists d, d', _. split; [exact O|]. split; [exact E|exact S]. }
  destruct Hd as (dst & dst' & Wr & [O _] & E & [L _]).
  exists dst'. split; [apply set_same; exact E|]. apply (img_ok_with im buf); auto. lia.
Qed.
Print Assumptions C12_set_pixels_safe.

(** C12b: exactness.  Every pixel of the region (clipped to the image) receives the caller's
    value, every other pixel is unchanged.  The origin setting must not ask for a flipped copy
    and, per axis, a negative offset is allowed only if the extent does not exceed the image
    and the region is not mistaken for a lower-dimensional one (see the refutations below). *)
Theorem C12_set_pixels_exact_partial : forall alloc conv om im buf X Y Z_ W H D data,
  img_ok im buf -> allocator_ok alloc -> no_flip om im ->
  args_ok im X Y Z_ W H D data ->
  (X < 0 -> W <= Width im) -> (Y < 0 -> H <= Height im) -> (Z_ < 0 -> D <= Depth im) ->
  (0 <= Y + H <= 1 -> Y = 0 /\ Z_ = 0 /\ D = 1) -> (0 <= Z_ + D <= 1 -> Z_ = 0) ->
  exists buf', ilSetPixels alloc conv om im X Y Z_ W H D (Format im) (Type_ im) (Some data)
      = Ok (with_Data im (Some buf'), []) /\ img_ok (with_Data im (Some buf')) buf' /\
    forall i j l k, in_image im i j l k ->
      geti buf' (pix_off im i j l k) =
      if in_region X Y Z_ W H D i j l
      then geti data (packed W H (pixbytes im) (i - X) (j - Y) (l - Z_) k)
      else geti buf (pix_off im i j l k).
Proof.
  intros alloc conv om im buf X Y Z_ W H D data Hok Ha Hnf Hargs HX HY HZ H1d H2d.
  destruct (img_ok_facts im buf Hok) as (HP & _).
  assert (Hwf : wants_flip om im = false) by (destruct Hnf as [->| ->]; cbn; auto; rewrite Z.eqb_refl; auto).
  assert (Hal : wants_flip om im = true -> alloc (SizeOfData im) <> None) by congruence.
  assert (Hok' := Hok). destruct Hok' as (_ & HW1 & HH1 & HD1 & _ & _ & Hbps & Hpl & Hszd & H32 & Hlen).
  assert (Ax := args_weaken im X Y Z_ W H D data).
  assert (Hargs' := Hargs).
  destruct Hargs' as (A1 & A2 & A3 & A4 & A5 & A6 & A7 & A8 & A9 & _).
  assert (Hd : exists dst dst', own_or_flipped om im buf dst /\
   (if u32 (Y + H) <=? 1 then ilSetPixels1D alloc om im X W data
   else if u32 (Z_ + D) <=? 1 then ilSetPixels2D alloc om im X Y W H data
   else ilSetPixels3D alloc om im X Y Z_ W H D data) = Ok (Some (with_Data im (Some dst'))) /\
   step (set_box im data X Y Z_ W H (nset (Width im) X W) (nset (Height im) Y H) (nset (Depth im) Z_ D)) dst dst').
  { rewrite !u32_01 by lia.
    destruct ((0 <=? Y + H) && (Y + H <=? 1)) eqn:E1.
    - assert (Y = 0) by lia. assert (Z_ = 0) by lia. assert (D = 1) by lia. assert (H = 1) by lia. subst Y Z_ D H.
      destruct (set_box1 alloc om im buf Hok Ha Hal data X W) as (d & d' & O & E & S); [apply (Ax 1 1); auto; lia|].
      exists d, d'. split; [exact O|]. split; [exact E|].
      replace (nset (Height im) 0 1) with 1 by (unfold nset, off0, skip0; lia).
      replace (nset (Depth im) 0 1) with 1 by (unfold nset, off0, skip0; lia). exact S.
    - destruct ((0 <=? Z_ + D) && (Z_ + D <=? 1)) eqn:E2.
      + assert (Z_ = 0) by lia. assert (D = 1) by lia. subst Z_ D.
        destruct (set_box2 alloc om im buf Hok Ha Hal data X Y W H) as (d & d' & O & E & S); [apply (Ax H 1); auto; lia|].
        exists d, d'. split; [exact O|]. split; [exact E|].
        replace (nset (Depth im) 0 1) with 1 by (unfold nset, off0, skip0; lia). exact S.
      + destruct (set_box3 alloc om im buf Hok Ha Hal data X Y Z_ W H D) as (d & d' & O & E & S); [apply (Ax H D); auto; lia|].
        exists d, d'. split; [exact O|]. split; [exact E|exact S]. }
  destruct Hd as (dst & dst' & O & E & (L & S1 & S2)).
  assert (Od := O). destruct Od as [Ol _].
  exists dst'. split; [apply set_same; exact E|]. split; [apply (img_ok_with im buf); auto; lia|].
  intros i j l k Hin. assert (Hin' := Hin). destruct Hin' as (Hi & Hj & Hl & Hk).
  assert (Hsrc := src_pixel om im buf dst Hok O i j l k Hin).
  assert (Hrr : region_row om im j = j) by (destruct Hnf as [->| ->]; cbn; auto; rewrite Z.eqb_refl; auto).
  rewrite Hrr in Hsrc.
  assert (Hax : forall Wi o w t, 1 <= Wi -> 0 <= t < Wi -> (o < 0 -> w <= Wi) ->
     (o <= t < o + w <-> 0 <= t - off0 o < nset Wi o w)).
  { clear. intros. unfold nset, off0, skip0. lia. }
  assert (Hx := Hax (Width im) X W i HW1 Hi HX).
  assert (Hy := Hax (Height im) Y H j HH1 Hj HY).
  assert (Hz := Hax (Depth im) Z_ D l HD1 Hl HZ).
  assert (Hsk : forall o t, t - off0 o + skip0 o = t - o) by (clear; intros; unfold off0, skip0; lia).
  destruct (in_region X Y Z_ W H D i j l) eqn:Er.
  - unfold in_region in Er.
    apply S1. exists (i - off0 X), (j - off0 Y), (l - off0 Z_), k.
    split; [apply Hx; lia|]. split; [apply Hy; lia|]. split; [apply Hz; lia|]. split; [exact Hk|].
    split.
    + f_equal; lia.
    + rewrite !Hsk. reflexivity.
  - rewrite <- Hsrc. apply S2.
    + rewrite pix_off_box. apply (box_off_bound (Width im) (Height im) (Depth im) (Bpp im * Bpc im) i j l k Hk Hi Hj Hl).
    + intros v (x & y & z & c & Hx0 & Hy0 & Hz0 & Hc0 & E0 & _). rewrite !pix_off_box in E0.
      destruct (axis (Width im) X W x HW1 Hx0) as [Bx _].
      destruct (axis (Height im) Y H y HH1 Hy0) as [By _].
      apply box_off_inj in E0; auto.
      destruct E0 as (-> & -> & -> & ->).
      unfold in_region in Er.
      assert (X <= x + off0 X < X + W) by (apply Hx; lia).
      assert (Y <= y + off0 Y < Y + H) by (apply Hy; lia).
      assert (Z_ <= z + off0 Z_ < Z_ + D) by (apply Hz; lia). lia.
Qed.
Print Assumptions C12_set_pixels_exact_partial.

(** C12, finding 1: with a negative X offset and an extent beyond the right edge the skipped
    pixels are subtracted twice: of 5 pixels placed at -2 on a 4 pixel row, image pixel 2 lies
    in the region but keeps its old value. *)
Theorem C12_negative_offset_refuted : exists im buf data im',
  img_ok im buf /\ args_ok im (-2) 0 0 5 1 1 data /\
  ilSetPixels goodalloc noconv None im (-2) 0 0 5 1 1 (Format im) (Type_ im) (Some data) = Ok (im', []) /\
  in_region (-2) 0 0 5 1 1 2 0 0 = true /\
  geti data (packed 5 1 1 4 0 0 0) = 5 /\ Data im' = Some [3; 4; 0; 0].
Proof.
  exists (img3d 4 1 1 [0;0;0;0]), [0;0;0;0], [1;2;3;4;5].
  eexists. split; [repeat split; cbn; auto; lia|].
  split; [unfold args_ok; cbn; repeat split; lia|]. repeat split; reflexivity.
Qed.
Print Assumptions C12_negative_offset_refuted.

(** C12, finding 2: two rows placed at Y = -1 are taken for a single row: image row 0 receives
    row 0 of the data although row 1 of the data lies there. *)
Theorem C12_negative_row_refuted : exists im buf data im',
  img_ok im buf /\ args_ok im 0 (-1) 0 2 2 1 data /\
  ilSetPixels goodalloc noconv None im 0 (-1) 0 2 2 1 (Format im) (Type_ im) (Some data) = Ok (im', []) /\
  in_region 0 (-1) 0 2 2 1 0 0 0 = true /\
  geti data (packed 2 2 1 0 1 0 0) = 3 /\ Data im' = Some [1; 2; 0; 0].
Proof.
  exists (img3d 2 2 1 [0;0;0;0]), [0;0;0;0], [1;2;3;4].
  eexists. split; [repeat split; cbn; auto; lia|].
  split; [unfold args_ok; cbn; repeat split; lia|]. repeat split; reflexivity.
Qed.
Print Assumptions C12_negative_row_refuted.

(** C12, finding 3: with the origin mode set to the other orientation, the image is replaced by
    its flipped copy while its origin field is kept: pixels outside the region change. *)
Theorem C12_origin_refuted : exists im buf data im',
  img_ok im buf /\ args_ok im 0 0 0 1 1 1 data /\
  ilSetPixels goodalloc noconv (Some IL_ORIGIN_UPPER_LEFT) im 0 0 0 1 1 1 (Format im) (Type_ im) (Some data) = Ok (im', []) /\
  Data im = Some [1; 2; 3] /\ Data im' = Some [9; 2; 1] /\ Origin im' = Origin im.
Proof.
  exists (img3d 1 3 1 [1;2;3]), [1;2;3], [9].
  eexists. split; [repeat split; cbn; auto; lia|].
  split; [unfold args_ok; cbn; repeat split; lia|]. repeat split; reflexivity.
Qed.
Print Assumptions C12_origin_refuted.

(** C12, finding 4: an empty region (height 0) still reads a row from the caller's buffer. *)
Theorem C12_empty_region_refuted : exists im buf,
  img_ok im buf /\
  ilSetPixels goodalloc noconv None im 0 0 0 2 0 1 (Format im) (Type_ im) (Some []) = UB.
Proof.
  exists (img3d 2 2 1 [0;0;0;0]), [0;0;0;0].
  split; [repeat split; cbn; auto; lia|]. reflexivity.
Qed.
Print Assumptions C12_empty_region_refuted.

Example C12_hyp_met :
  let im := img3d 3 2 2 (repeat 0 12) in
  img_ok im (repeat 0 12) /\ args_ok im (-1) 1 0 2 3 2 (map Z.of_nat (seq 1 12)) /\
  match ilSetPixels goodalloc noconv None im (-1) 1 0 2 3 2 IL_LUMINANCE IL_UNSIGNED_BYTE (Some (map Z.of_nat (seq 1 12))) with
  | Ok (i, []) => Data i | _ => None end = Some [0;0;0; 2;0;0; 0;0;0; 8;0;0].
Proof.
  split; [repeat split; cbn; auto; lia|].
  split; [unfold args_ok; cbn; repeat split; lia|]. reflexivity.
Qed.

(** ** C13 *)

(** C13: a region inside the image that has just been written is read back exactly. *)
Theorem C13_set_then_copy_partial : forall alloc conv om im buf X Y Z_ W H D data dst,
  img_ok im buf -> layout_ok im -> allocator_ok alloc -> no_flip om im ->
  0 <= X -> 0 <= Y -> 0 <= Z_ -> 1 <= W -> 1 <= H -> 1 <= D ->
  X + W <= Width im -> Y + H <= Height im -> Z_ + D <= Depth im ->
  Width im < 2 ^ 31 -> Height im < 2 ^ 31 -> Depth im < 2 ^ 31 ->
  (Y + H = 1 -> Z_ + D = 1) ->
  W * H * D * pixbytes im <= zlen data -> W * H * D * pixbytes im <= zlen dst ->
  exists im' dst',
    ilSetPixels alloc conv om im X Y Z_ W H D (Format im) (Type_ im) (Some data) = Ok (im', []) /\
    ilCopyPixels alloc conv om im' X Y Z_ W H D (Format im) (Type_ im) (Some dst)
      = Ok (W * H * D * pixbytes im, Some dst', []) /\
    forall j, 0 <= j < W * H * D * pixbytes im -> geti dst' j = geti data j.
Proof.
  intros alloc conv om im buf X Y Z_ W H D data dst Hok Hlay Ha Hnf HX HY HZ HW HH HD HXW HYH HZD L1 L2 L3 H1d Hdata Hdst.
  assert (Hok' := Hok).
  destruct Hok' as (_ & HW1 & HH1 & HD1 & _ & _ & Hbps & Hpl & Hszd & H32 & Hlen).
  destruct (img_ok_facts im buf Hok) as (HP & HPB & HBS & HSD).
  assert (Hsz : W * H * D * pixbytes im <= SizeOfData im).
  { unfold pixbytes. set (P := Bpp im * Bpc im) in *. rewrite Hszd, Hpl, Hbps.
    assert (M1 : 0 <= W * P <= Width im * P) by (apply mul_bound; lia).
    assert (M2 : 0 <= W * P * H <= Width im * P * Height im) by (apply mul_bound; lia).
    assert (M3 : 0 <= W * P * H * D <= Width im * P * Height im * Depth im) by (apply mul_bound; lia).
    replace (W * H * D * P) with (W * P * H * D) by ring. lia. }
  destruct (C12_set_pixels_exact_partial alloc conv om im buf X Y Z_ W H D data) as (buf' & E1 & Hok1 & A1); auto; try lia.
  { unfold args_ok. repeat split; lia. }
  set (im' := with_Data im (Some buf')) in *.
  destruct (C11_copy_pixels_inside_partial alloc conv om im' buf' X Y Z_ W H D dst) as (dst' & E2 & L' & A2 & B2); auto; try lia.
  exists im', dst'. split; auto. split; auto.
  intros j Hj.
  assert (Hpb : 1 <= pixbytes im) by (unfold pixbytes; lia).
  destruct (box_off_surj W H D (pixbytes im) j) as (x & y & z & c & Hc & Hx & Hy & Hz & ->); try lia.
  assert (A2' := A2 x y z c Hx Hy Hz Hc). unfold packed in A2'. unfold box_off.
  change (pixbytes im') with (pixbytes im) in A2'. rewrite A2'.
  assert (Hrr : region_row om im' (Y + y) = Y + y).
  { destruct Hnf as [->| ->]; cbn -[Z.sub]; auto. rewrite Z.eqb_refl. auto. }
  rewrite Hrr. change (pix_off im' (X + x) (Y + y) (Z_ + z) c) with (pix_off im (X + x) (Y + y) (Z_ + z) c).
  rewrite A1 by (repeat split; try lia; unfold pixbytes in Hc; lia).
  replace (in_region X Y Z_ W H D (X + x) (Y + y) (Z_ + z)) with true by (unfold in_region; lia).
  unfold packed. f_equal. replace (X + x - X) with x by lia. replace (Y + y - Y) with y by lia.
  replace (Z_ + z - Z_) with z by lia. reflexivity.
Qed.
Print Assumptions C13_set_then_copy_partial.

(** C13, finding: with the origin mode set to the other orientation the value read back at the
    same place differs from the one just written. *)
Theorem C13_origin_refuted : exists im buf im',
  img_ok im buf /\
  ilSetPixels goodalloc noconv (Some IL_ORIGIN_UPPER_LEFT) im 0 0 0 1 1 1 (Format im) (Type_ im) (Some [9]) = Ok (im', []) /\
  ilCopyPixels goodalloc noconv (Some IL_ORIGIN_UPPER_LEFT) im' 0 0 0 1 1 1 (Format im) (Type_ im) (Some [0]) = Ok (1, Some [1], []).
Proof.
  exists (img3d 1 3 1 [1;2;3]), [1;2;3].
  eexists. split; [repeat split; cbn; auto; lia|]. split; reflexivity.
Qed.
Print Assumptions C13_origin_refuted.

Example C13_hyp_met :
  let im := img3d 3 2 2 (repeat 0 12) in
  exists im', ilSetPixels goodalloc noconv None im 1 0 0 2 2 2 IL_LUMINANCE IL_UNSIGNED_BYTE (Some (map Z.of_nat (seq 1 8))) = Ok (im', []) /\
   ilCopyPixels goodalloc noconv None im' 1 0 0 2 2 2 IL_LUMINANCE IL_UNSIGNED_BYTE (Some (repeat 0 8)) = Ok (8, Some (map Z.of_nat (seq 1 8)), []).
Proof. eexists. split; reflexivity. Qed.
