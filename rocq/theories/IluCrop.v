(** C70, C71: cropping an image and enlarging its canvas. *)
From Coq Require Import ZArith List Bool Lia.
From Verif Require Import Base Slices Enums Utility Image ImageSpec Elem Flip FlipProofs Scatter Pixels PixelsProofs PixelsBox PixelsProps
  Channels Clear ClearProps ChannelsSpec ChannelsProofs Ilu.
Import ListNotations.
Open Scope Z_scope.

(** ** Proofs *)

(** the scratch copy equals the pixel buffer *)
Lemma copied_ok : forall alloc conv om im buf D tmp,
  img_ok im buf -> layout_ok im -> allocator_ok alloc -> no_flip om im -> D = Depth im -> (Height im = 1 -> Depth im = 1) ->
  zlen tmp = SizeOfData im -> copied alloc conv om im D tmp = Ok (buf, []).
Proof.
  intros alloc conv om im buf D tmp Hok Hlay Ha Hom -> H1 Ht. unfold copied.
  assert (Hok' := Hok). destruct Hok' as (HDt & HW & HH & HD & Hbpp & Hbpc & Hbps & Hpl & Hsz & H32 & Hlen).
  assert (SZ : SizeOfData im = Width im * Height im * Depth im * pixbytes im) by (unfold pixbytes; rewrite Hsz, Hpl, Hbps; ring).
  destruct (C11_copy_pixels_inside_partial alloc conv om im buf 0 0 0 (Width im) (Height im) (Depth im) tmp)
    as (d & E & L & A & _); auto; try lia.
  rewrite E. cbn [bind]. do 2 f_equal. apply list_ext; [lia|]. intros j Hj.
  assert (HP : 1 <= pixbytes im) by (unfold pixbytes; nia).
  destruct (box_off_surj (Width im) (Height im) (Depth im) (pixbytes im) j) as (x & y & z & c & Hc & Hx & Hy & Hz & ->); try lia.
  change (box_off (Width im) (Height im) (pixbytes im) x y z c) with (packed (Width im) (Height im) (pixbytes im) x y z c) at 1.
  rewrite A by lia. rewrite pix_off_box. f_equal. fold (pixbytes im). f_equal; try lia.
  unfold region_row. destruct Hom as [-> | ->]; [lia|]. rewrite Z.eqb_refl. lia.
Qed.

(** a fresh image of the same kind *)
Lemma fresh_image : forall alloc old W H D bpp fmt typ,
  allocator_ok alloc -> 1 <= W -> 1 <= H -> 1 <= D -> 1 <= bpp < 256 ->
  (ilGetBpcType typ = 1 \/ ilGetBpcType typ = 2 \/ ilGetBpcType typ = 4 \/ ilGetBpcType typ = 8) ->
  W * bpp * ilGetBpcType typ * H * D < 2 ^ 32 -> alloc (W * bpp * ilGetBpcType typ * H * D) <> None ->
  exists im b, ilInitImage alloc old W H D bpp fmt typ None = Ok (true, im, []) /\ img_ok im b /\
    Width im = W /\ Height im = H /\ Depth im = D /\ Bpp im = bpp /\ Bpc im = ilGetBpcType typ /\
    Format im = fmt /\ Type_ im = typ /\ Pal im = mkPal None 0 IL_PAL_NONE.
Proof.
  intros alloc old W H D bpp fmt typ Ha HW HH HD Hb Hc Hs Hn. unfold ilInitImage. set (n := ilGetBpcType typ) in *.
  replace (n =? 0) with false by lia. unfold nz1. replace (W =? 0) with false by lia. replace (H =? 0) with false by lia. replace (D =? 0) with false by lia.
  change (2 ^ 32) with 4294967296 in *.
  assert (M1 : 1 <= bpp * n) by nia. assert (M2 : 1 <= W * bpp * n) by nia.
  assert (M3 : W * bpp * n <= W * bpp * n * H) by (apply le_mul_l; lia).
  assert (M4 : W * bpp * n * H <= W * bpp * n * H * D) by (apply le_mul_l; lia).
  rewrite (u32_small (W * bpp * n)) by lia. rewrite (u32_small (W * bpp * n * H)) by lia. rewrite (u32_small (W * bpp * n * H * D)) by lia.
  destruct (alloc (W * bpp * n * H * D)) as [b|] eqn:E; [|congruence]. assert (L := Ha _ _ E).
  eexists _, b. split; [reflexivity|]. split; [|repeat split; reflexivity].
  unfold img_ok. cbn. repeat split; try lia; auto; ring.
Qed.

Lemma with_ok : forall im b o b', img_ok im b -> zlen b' = zlen b -> img_ok (with_Data (with_Origin im o) (Some b')) b'.
Proof. intros im b o b' (HDt & HW & HH & HD & Hbpp & Hbpc & Hbps & Hpl & Hsz & H32 & Hlen) L. unfold img_ok. cbn. rewrite L. tauto. Qed.

(** one row of pixels, stepping over bytes *)
Lemma row_stride : forall src W bpp body D0 S0 N d,
  0 <= W -> 1 <= bpp -> W * bpp < 4294967296 ->
  (forall i c d, 0 <= i < W -> 0 <= c < bpp ->
     body (i * bpp) c d = (let! v := rd src (S0 + i * bpp + c) in wr d (D0 + i * bpp + c) v)) ->
  0 <= D0 -> D0 + W * bpp <= N -> 0 <= S0 -> S0 + W * bpp <= zlen src -> zlen d = N ->
  exists d', stride 0 (W * bpp) bpp (fun x => loop 0 bpp (body x)) d = Ok d' /\
    step (fun j v => exists q, 0 <= q < W * bpp /\ j = D0 + q /\ v = geti src (S0 + q)) d d'.
Proof.
  intros src W bpp body D0 S0 N d HW Hb H32 HB HD HDN HS HSN Hd. rewrite stride_loop by lia.
  apply (row_step src bpp W (fun i => body (0 + i * bpp)) D0 S0 N d); auto; try lia.
Qed.

(** ** Statements *)

(** C70: cropping an 8-bit-per-channel 2D image at an offset inside it gives the requested window.  Rows are
    counted in storage order, that is from the image's origin corner. *)
Theorem C70_crop_partial : forall scr alloc conv om im buf X Y Z_ W H D,
  img_ok im buf -> layout_ok im -> no_flip om im -> Depth im = 1 -> Bpc im = 1 ->
  allocator_ok scr -> allocator_ok alloc -> scr (SizeOfData im) <> None -> alloc (W * H * Bpp im) <> None ->
  0 <= X -> 0 <= Y -> Z_ <= 1 -> 1 <= W -> 1 <= H -> X + W <= Width im -> Y + H <= Height im ->
  exists im' buf', iluCrop scr alloc conv om im X Y Z_ W H D = Ok (true, im', []) /\ img_ok im' buf' /\
    Width im' = W /\ Height im' = H /\ Depth im' = 1 /\ Bpp im' = Bpp im /\ Bpc im' = 1 /\
    Format im' = Format im /\ Type_ im' = Type_ im /\ Origin im' = Origin im /\
    forall x y k, 0 <= x < W -> 0 <= y < H -> 0 <= k < Bpp im ->
      geti buf' (pix_off im' x y 0 k) = geti buf (pix_off im (X + x) (Y + y) 0 k).
Proof.
  intros scr alloc conv om im buf X Y Z_ W H D Hok Hlay Hom HD1 HC1 Hs Ha Hsn Han HX HY HZ HW HH HXW HYH.
  assert (Hok' := Hok). destruct Hok' as (HDt & HW1 & HH1 & HD & Hbpp & Hbpc & Hbps & Hpl & Hsz & H32 & Hlen).
  unfold iluCrop. replace (Z_ <=? 1) with true by lia. unfold iluCrop2D.
  replace ((Width im <? W) || (Height im <? H)) with false by lia.
  destruct (scr (SizeOfData im)) as [tmp|] eqn:Es; [|congruence]. assert (Lt := Hs _ _ Es).
  rewrite (copied_ok alloc conv om im buf 1 tmp) by (auto; lia). cbn [bind].
  rewrite HC1 in *. replace (Bpp im * 1) with (Bpp im) in Hbps by lia. rewrite HD1 in Hsz. rewrite HD1.
  assert (HT : ilGetBpcType (Type_ im) = 1) by (destruct Hlay as (_ & HT & _); rewrite HT; exact HC1).
  set (B := Bpp im) in *. change (2 ^ 32) with 4294967296 in *.
  assert (B1 : W * B <= Width im * B) by (apply Z.mul_le_mono_nonneg_r; lia).
  assert (B2 : 0 <= W * B * H <= Width im * B * Height im) by (apply mul_bound; lia).
  assert (Hp2 : SizeOfPlane im = Width im * B * Height im) by (rewrite Hpl, Hbps; reflexivity).
  destruct (fresh_image alloc im W H 1 B (Format im) (Type_ im)) as (i1 & b1 & E1 & Ok1 & F1 & F2 & F3 & F4 & F5 & F6 & F7 & _);
    rewrite ?HT; auto; try lia.
  { replace (W * B * 1 * H * 1) with (W * H * B) by ring. auto. }
  rewrite E1. cbn [bind negb]. rewrite HT in F5.
  assert (Ok1' := Ok1). destruct Ok1' as (GD & _ & _ & _ & _ & _ & Gb & Gp & Gs & _ & Gl).
  change (Data (with_Origin i1 (Origin im))) with (Data i1). rewrite GD.
  change (Height (with_Origin i1 (Origin im))) with (Height i1). change (Bps (with_Origin i1 (Origin im))) with (Bps i1).
  change (Bpp (with_Origin i1 (Origin im))) with (Bpp i1). rewrite F1, F4, F5 in Gb. replace (B * 1) with B in Gb by lia.
  rewrite Gp, Gb, F2, F3 in Gs. rewrite F2, F4, Gb.
  assert (HB : Bps im * Height im = zlen buf) by lia.
  destruct (plane_step buf (W * B) H
    (fun y => stride 0 (W * B) B (fun x => loop 0 B (fun c d =>
       let! v := rd buf (u32 (u32 (y + Y) * Bps im + x + X * B + c)) in wr d (u32 (y * (W * B) + x + c)) v)))
    0 (W * B) (Y * Bps im + X * B) (Bps im) (zlen b1) b1) as (d' & Ed & Sd); try lia.
  { intros y d Hy Hd.
    assert (C1 : (y + 1) * (W * B) <= H * (W * B)) by (apply Z.mul_le_mono_nonneg_r; lia).
    assert (C2 : (y + Y + 1) * Bps im <= Height im * Bps im) by (apply Z.mul_le_mono_nonneg_r; lia).
    assert (C3 : 0 <= y * (W * B)) by (apply Z.mul_nonneg_nonneg; lia).
    assert (C4 : 0 <= (y + Y) * Bps im) by (apply Z.mul_nonneg_nonneg; lia).
    assert (C5 : (X + W) * B <= Width im * B) by (apply Z.mul_le_mono_nonneg_r; lia).
    assert (C6 : 0 <= X * B) by (apply Z.mul_nonneg_nonneg; lia).
    assert (C7 : Height im <= Bps im * Height im) by (rewrite Z.mul_comm; apply le_mul_l; lia).
    destruct (row_stride buf W B (fun x c d => let! v := rd buf (u32 (u32 (y + Y) * Bps im + x + X * B + c)) in wr d (u32 (y * (W * B) + x + c)) v)
       (y * (W * B)) ((y + Y) * Bps im + X * B) (zlen b1) d) as (d' & Ed & Sd); auto; try lia.
    - intros i c d0 Hi Hc. assert (Q := lin_bound B W i c Hc Hi). rewrite (u32_small (y + Y)) by lia.
      rewrite !u32_small by lia. f_equal. f_equal. lia.
    - exists d'. split; [exact Ed|]. eapply step_ext; [exact Sd|]. intros j v. split; intros (q & Hq & -> & ->); exists q; (split; [lia|split; [lia|f_equal; lia]]). }
  rewrite Ed. cbn [bind app]. destruct Sd as (SL & SA & _).
  eexists _, d'. split; [reflexivity|]. split; [apply with_ok with b1; auto|]. cbn [with_Data with_Origin Width Height Depth Bpp Bpc Format Type_ Origin].
  do 8 (split; [auto|]). intros x y k Hx Hy Hk. unfold pix_off. cbn [with_Data with_Origin Width Height Bpp Bpc].
  rewrite F1, F2, F4, F5, HC1. fold B.
  assert (Q := lin_bound B W x k Hk Hx).
  rewrite (SA _ (geti buf (Y * Bps im + X * B + y * Bps im + (x * B + k)))).
  - f_equal. rewrite Hbps. ring.
  - exists y, (x * B + k). split; [lia|]. split; [lia|]. split; [ring|f_equal; ring].
Qed.
Print Assumptions C70_crop_partial.

(** A 3x2 image of three-byte pixels; the window of columns 1..2 and row 1 *)
Definition crop_img : img :=
  mkImg 3 2 1 3 1 9 (Some [1;2;3; 4;5;6; 7;8;9; 11;12;13; 14;15;16; 17;18;19]) 18 18 IL_RGB IL_UNSIGNED_BYTE IL_ORIGIN_LOWER_LEFT
    (mkPal None 0 IL_PAL_NONE) 0 0 0 0.
Example C70_ex : img_ok crop_img [1;2;3; 4;5;6; 7;8;9; 11;12;13; 14;15;16; 17;18;19] /\ layout_ok crop_img /\ no_flip None crop_img /\
  match iluCrop goodalloc goodalloc noconv None crop_img 1 1 0 2 1 1 with
  | Ok (true, im, []) => Data im = Some [14;15;16; 17;18;19] | _ => False end.
Proof.
  split; [unfold img_ok; cbn; repeat split; auto; lia|]. split; [repeat split; try reflexivity; discriminate|].
  split; [left; reflexivity|]. vm_compute. reflexivity.
Qed.

(** C70, finding 1: a window that does not fit because of its offset is not refused; the rows below the
    image are read out of bounds. *)
Theorem C70_offset_refuted : forall conv, exists im buf X Y W H,
  img_ok im buf /\ layout_ok im /\ W <= Width im /\ H <= Height im /\
  iluCrop goodalloc goodalloc conv None im X Y 0 W H 1 = UB.
Proof.
  intros conv. eexists crop_img, _, 0, 1, 3, 2. split; [unfold img_ok; cbn; repeat split; auto; lia|].
  split; [repeat split; try reflexivity; discriminate|]. split; [cbn; lia|]. split; [cbn; lia|]. vm_compute. reflexivity.
Qed.

(** C70, finding 2: with two bytes per channel the column offset is halved. *)
Theorem C70_bpc_refuted : forall conv, exists im buf,
  img_ok im buf /\ layout_ok im /\ Depth im = 1 /\ Bpc im = 2 /\
  exists im' buf', iluCrop goodalloc goodalloc conv None im 1 0 0 1 1 1 = Ok (true, im', []) /\ img_ok im' buf' /\
    geti buf' (pix_off im' 0 0 0 0) <> geti buf (pix_off im 1 0 0 0).
Proof.
  intros conv.
  exists (mkImg 2 1 1 1 2 4 (Some [1;2;3;4]) 4 4 IL_LUMINANCE IL_UNSIGNED_SHORT IL_ORIGIN_LOWER_LEFT (mkPal None 0 IL_PAL_NONE) 0 0 0 0), [1;2;3;4].
  split; [unfold img_ok; cbn; repeat split; auto; lia|]. split; [repeat split; try reflexivity; discriminate|].
  split; [reflexivity|]. split; [reflexivity|]. do 2 eexists. split; [vm_compute; reflexivity|].
  split; [unfold img_ok; cbn; repeat split; auto; lia|]. vm_compute. discriminate.
Qed.

(** C70, finding 3: cropping a colour-indexed image returns success, but the pixels are the uninitialised
    contents of the scratch block and the palette is gone. *)
Theorem C70_index_refuted : forall conv g, exists im buf,
  img_ok im buf /\ Format im = IL_COLOUR_INDEX /\ Palette (Pal im) <> None /\
  exists im', iluCrop (fun n => Some (repeat g (Z.to_nat n))) goodalloc conv None im 0 0 0 2 1 1 = Ok (true, im', [IL_INVALID_PARAM]) /\
    Data im' = Some [g; g] /\ Palette (Pal im') = None.
Proof.
  intros conv g.
  exists (mkImg 2 1 1 1 1 2 (Some [1;2]) 2 2 IL_COLOUR_INDEX IL_UNSIGNED_BYTE IL_ORIGIN_LOWER_LEFT (mkPal (Some [1;2;3;4;5;6;7;8;9]) 9 IL_PAL_RGB24) 0 0 0 0), [1;2].
  split; [unfold img_ok; cbn; repeat split; auto; lia|]. split; [reflexivity|]. split; [discriminate|].
  eexists. split; [vm_compute; reflexivity|]. split; reflexivity.
Qed.

(** C70, finding 4: in the three-dimensional form the size of the result is the requested size minus the offset. *)
Theorem C70_volume_refuted : forall conv, exists im buf,
  img_ok im buf /\ layout_ok im /\ Depth im = 4 /\
  exists im', iluCrop goodalloc goodalloc conv None im 0 0 2 1 2 2 = Ok (true, im', []) /\ Depth im' <> 2.
Proof.
  intros conv. exists (img3d 1 2 4 [1;2;3;4;5;6;7;8]), [1;2;3;4;5;6;7;8].
  split; [unfold img_ok; cbn; repeat split; auto; lia|]. split; [repeat split; try reflexivity; discriminate|]. split; [reflexivity|].
  eexists. split; [vm_compute; reflexivity|]. cbn. lia.
Qed.

(** C70, finding 5: of a volume cropped in two dimensions only the first slice is filled. *)
Theorem C70_slices_refuted : forall conv g, exists im buf,
  img_ok im buf /\ layout_ok im /\ Depth im = 2 /\
  exists im', iluCrop goodalloc (fun n => Some (repeat g (Z.to_nat n))) conv None im 0 0 0 1 2 2 = Ok (true, im', []) /\
    Data im' = Some [1; 2; g; g].
Proof.
  intros conv g. exists (img3d 1 2 2 [1;2;3;4]), [1;2;3;4].
  split; [unfold img_ok; cbn; repeat split; auto; lia|]. split; [repeat split; try reflexivity; discriminate|]. split; [reflexivity|].
  eexists. split; [vm_compute; reflexivity|]. reflexivity.
Qed.

(** ** Canvas *)

(** Where the old picture of [w] x [h] goes in the new one of [w'] x [h']: [dx] columns from the left, [dt] rows
    from the TOP; centred means within one row *)
Inductive placed (w h w' h' : Z) : Z -> Z -> Z -> Prop :=
| pl_ul : placed w h w' h' ILU_UPPER_LEFT 0 0
| pl_ur : placed w h w' h' ILU_UPPER_RIGHT (w' - w) 0
| pl_ll : placed w h w' h' ILU_LOWER_LEFT 0 (h' - h)
| pl_lr : placed w h w' h' ILU_LOWER_RIGHT (w' - w) (h' - h)
| pl_c : forall dt, h' - h - 1 <= 2 * dt <= h' - h + 1 -> placed w h w' h' ILU_CENTER ((w' - w) / 2) dt.

Definition a_placement (p : Z) : Prop :=
  p = ILU_UPPER_LEFT \/ p = ILU_UPPER_RIGHT \/ p = ILU_LOWER_LEFT \/ p = ILU_LOWER_RIGHT \/ p = ILU_CENTER.

Lemma placement_ok : forall p im W H, a_placement p -> (Origin im = IL_ORIGIN_LOWER_LEFT \/ Origin im = IL_ORIGIN_UPPER_LEFT) ->
  1 <= Width im <= W -> 1 <= Height im <= H -> W < 2 ^ 32 -> H < 2 ^ 32 ->
  exists dx dt, placed (Width im) (Height im) W H p dx dt /\ 0 <= dx <= W - Width im /\ 0 <= dt <= H - Height im /\
    placement p im W H = Some (dx, if Origin im =? IL_ORIGIN_UPPER_LEFT then dt else H - Height im - dt).
Proof.
  intros p im W H Hp Ho HW HH LW LH. unfold placement. change (2 ^ 32) with 4294967296 in *. rewrite !u32_small by lia.
  destruct Hp as [ -> | [ -> | [ -> | [ -> | -> ] ] ] ]; cbn [Z.eqb Pos.eqb ILU_UPPER_LEFT ILU_UPPER_RIGHT ILU_LOWER_LEFT ILU_LOWER_RIGHT ILU_CENTER].
  1: exists 0, 0; split; [apply pl_ul|].
  2: exists (W - Width im), 0; split; [apply pl_ur|].
  3: exists 0, (H - Height im); split; [apply pl_ll|].
  4: exists (W - Width im), (H - Height im); split; [apply pl_lr|].
  5: exists ((W - Width im) / 2), (if Origin im =? IL_ORIGIN_UPPER_LEFT then (H - Height im) / 2 else H - Height im - (H - Height im) / 2);
     split; [apply pl_c; destruct (Origin im =? IL_ORIGIN_UPPER_LEFT); lia|].
  all: split; [lia|]; split; [try destruct (Origin im =? IL_ORIGIN_UPPER_LEFT); lia|];
    destruct Ho as [ -> | -> ]; cbn [Z.eqb Pos.eqb IL_ORIGIN_LOWER_LEFT IL_ORIGIN_UPPER_LEFT]; do 2 f_equal; lia.
Qed.

Lemma slice_1 : forall l i, 0 <= i < zlen l -> slice l i 1 = [geti l i].
Proof.
  intros l i H. apply list_ext; [rewrite zlen_slice by lia; reflexivity|]. intros j Hj. rewrite zlen_slice in Hj by lia.
  replace j with 0 by lia. rewrite geti_slice by lia. rewrite Z.add_0_r. reflexivity.
Qed.

(** C71: enlarging the canvas of an 8-bit-per-channel colour image keeps the old picture at the place that
    iluImageParameter(ILU_PLACEMENT) names and fills the rest with the clear colour. *)
Theorem C71_canvas_partial : forall scr alloc conv om fenc denc col stk place im buf W H D,
  img_ok im buf -> layout_ok im -> no_flip om im -> (Height im = 1 -> Depth im = 1) -> Bpc im = 1 ->
  (Origin im = IL_ORIGIN_LOWER_LEFT \/ Origin im = IL_ORIGIN_UPPER_LEFT) ->
  channels (Format im) (Bpp im) -> type_size (Type_ im) 1 -> supported col (Format im) (Type_ im) ->
  in_range col -> zlen stk = 32 -> (forall a, zlen (fenc a) = 4) -> (forall a, zlen (denc a) = 8) ->
  allocator_ok scr -> allocator_ok alloc -> scr (SizeOfData im) <> None -> alloc (W * Bpp im * 1 * H * D) <> None ->
  a_placement place -> Width im <= W -> Height im <= H -> Depth im <= D -> W * Bpp im * H * D + Bpp im < 2 ^ 32 ->
  exists dx dt im' buf', placed (Width im) (Height im) W H place dx dt /\
    iluEnlargeCanvas scr alloc conv om fenc denc col stk place im W H D = Ok (true, im', []) /\ img_ok im' buf' /\
    Width im' = W /\ Height im' = H /\ Depth im' = D /\ Bpp im' = Bpp im /\ Bpc im' = 1 /\
    Format im' = Format im /\ Type_ im' = Type_ im /\ Origin im' = Origin im /\
    (forall x t z k, in_image im x t z k -> picture im' buf' (dx + x) (dt + t) z k = picture im buf x t z k) /\
    (forall x t z k, in_image im' x t z k ->
       ~ (dx <= x < dx + Width im /\ dt <= t < dt + Height im /\ z < Depth im) ->
       exists a, component col (Format im) k a /\ encodes fenc denc (Type_ im) a [picture im' buf' x t z k]).
Proof.
  intros scr alloc conv om fenc denc col stk place im buf W H D Hok Hlay Hom H1 HC1 HO CH TS SUP HR Hstk Hf Hd Hs Ha Hsn Han Hp HW HH HD H32'.
  assert (Hok' := Hok). destruct Hok' as (HDt & HW1 & HH1 & HD1 & Hbpp & Hbpc & Hbps & Hpl & Hsz & H32 & Hlen).
  unfold iluEnlargeCanvas. replace ((W <? Width im) || (H <? Height im) || (D <? Depth im)) with false by lia.
  rewrite HC1 in *. replace (Bpp im * 1) with (Bpp im) in Hbps by lia. set (B := Bpp im) in *. change (2 ^ 32) with 4294967296 in *.
  assert (M0 : W <= W * B) by (apply le_mul_l; lia).
  assert (M1 : W * B <= W * B * H) by (apply le_mul_l; lia).
  assert (M2 : W * B * H <= W * B * H * D) by (apply le_mul_l; lia).
  assert (M3 : H <= H * (W * B)) by (apply le_mul_l; lia).
  destruct (placement_ok place im W H Hp HO) as (dx & dt & Pl & Hdx & Hdt & EP); try lia.
  rewrite EP. set (dy := if Origin im =? IL_ORIGIN_UPPER_LEFT then dt else H - Height im - dt) in *.
  assert (Hdy : 0 <= dy <= H - Height im) by (unfold dy; destruct (Origin im =? IL_ORIGIN_UPPER_LEFT); lia).
  destruct (scr (SizeOfData im)) as [tmp|] eqn:Es; [|congruence]. assert (Lt := Hs _ _ Es).
  rewrite (copied_ok alloc conv om im buf (Depth im) tmp) by (auto; lia). cbn [bind].
  assert (HT : ilGetBpcType (Type_ im) = 1) by (destruct Hlay as (_ & HT & _); rewrite HT; exact HC1).
  destruct (fresh_image alloc im W H D B (Format im) (Type_ im)) as (i1 & b1 & E1 & Ok1 & F1 & F2 & F3 & F4 & F5 & F6 & F7 & _);
    rewrite ?HT; auto; try lia.
  rewrite E1. cbn [bind]. rewrite HT in F5. set (i2 := with_Origin i1 (Origin im)).
  assert (Ok2 : img_ok i2 b1) by exact Ok1.
  assert (G1 : Width i2 = W) by exact F1. assert (G2 : Height i2 = H) by exact F2. assert (G3 : Depth i2 = D) by exact F3.
  assert (G4 : Bpp i2 = B) by exact F4. assert (G5 : Bpc i2 = 1) by exact F5. assert (G6 : Format i2 = Format im) by exact F6.
  assert (G7 : Type_ i2 = Type_ im) by exact F7. assert (G8 : Origin i2 = Origin im) by reflexivity. clearbody i2.
  assert (Ok2' := Ok2). destruct Ok2' as (_ & _ & _ & _ & _ & _ & Gb & Gp & Gs & _ & Gl).
  rewrite G1, G4, G5 in Gb. replace (B * 1) with B in Gb by lia. rewrite Gb, G2 in Gp. rewrite Gp, G3 in Gs.
  destruct (C34_clear_partial fenc denc alloc col stk i2 b1) as (b2 & E2 & L2 & A2); rewrite ?G4, ?G5, ?G6, ?G7; auto.
  { change (2 ^ 32) with 4294967296. lia. }
  rewrite E2. cbn [bind with_Data Data SizeOfPlane Bps]. rewrite Gp, Gb.
  assert (HBP : SizeOfPlane im = Width im * B * Height im) by (rewrite Hpl, Hbps; reflexivity).
  assert (K0 : Width im * B <= W * B) by (apply Z.mul_le_mono_nonneg_r; lia).
  assert (K1 : (dx + Width im) * B <= W * B) by (apply Z.mul_le_mono_nonneg_r; lia).
  assert (K2 : 0 <= dx * B) by (apply Z.mul_nonneg_nonneg; lia).
  rewrite (u32_small (dx * B)) by lia.
  assert (K3 : (Height im + dy) * (W * B) <= H * (W * B)) by (apply Z.mul_le_mono_nonneg_r; lia).
  assert (K4 : 0 <= dy * (W * B)) by (apply Z.mul_nonneg_nonneg; lia).
  assert (K5 : Depth im * (W * B * H) <= D * (W * B * H)) by (apply Z.mul_le_mono_nonneg_r; lia).
  destruct (box_step buf (Width im * B) (Height im) (Depth im)
    (fun z => loop 0 (Height im) (fun y => loop 0 (Bps im) (fun x d =>
       let! v := rd buf (u32 (z * SizeOfPlane im + y * Bps im + x)) in
       wr d (u32 (z * (W * B * H) + u32 (y + dy) * (W * B) + x + dx * B)) v)))
    (dy * (W * B) + dx * B) (W * B) (W * B * H) (Width im * B) (SizeOfPlane im) 0 (zlen b2) b2) as (d' & Ed & Sd); try lia.
  { intros z d Hz Hd0.
    assert (Z1 : (z + 1) * (W * B * H) <= Depth im * (W * B * H)) by (apply Z.mul_le_mono_nonneg_r; lia).
    assert (Z2 : (z + 1) * SizeOfPlane im <= Depth im * SizeOfPlane im) by (apply Z.mul_le_mono_nonneg_r; lia).
    assert (Z3 : 0 <= z * (W * B * H)) by (apply Z.mul_nonneg_nonneg; lia).
    assert (Z4 : 0 <= z * SizeOfPlane im) by (apply Z.mul_nonneg_nonneg; lia).
    destruct (plane_step buf (Width im * B) (Height im)
      (fun y => loop 0 (Bps im) (fun x d =>
         let! v := rd buf (u32 (z * SizeOfPlane im + y * Bps im + x)) in
         wr d (u32 (z * (W * B * H) + u32 (y + dy) * (W * B) + x + dx * B)) v))
      (dy * (W * B) + dx * B + z * (W * B * H)) (W * B) (z * SizeOfPlane im) (Width im * B) (zlen b2) d) as (d' & Ed & Sd); try lia.
    { intros y d1 Hy Hd1.
      assert (Y1 : (y + 1) * (W * B) <= Height im * (W * B)) by (apply Z.mul_le_mono_nonneg_r; lia).
      assert (Y2 : (y + 1) * (Width im * B) <= Height im * (Width im * B)) by (apply Z.mul_le_mono_nonneg_r; lia).
      assert (Y3 : 0 <= y * (W * B)) by (apply Z.mul_nonneg_nonneg; lia).
      assert (Y4 : 0 <= y * (Width im * B)) by (apply Z.mul_nonneg_nonneg; lia).
      rewrite Hbps.
      destruct (step_loop (fun q j v => j = dy * (W * B) + dx * B + z * (W * B * H) + y * (W * B) + q /\ v = geti buf (z * SizeOfPlane im + y * (Width im * B) + q)) (zlen b2)
        (fun x d => let! v := rd buf (u32 (z * SizeOfPlane im + y * (Width im * B) + x)) in
           wr d (u32 (z * (W * B * H) + u32 (y + dy) * (W * B) + x + dx * B)) v) 0 (Width im * B) d1) as (d' & Ed & Sd); auto; try lia.
      - intros x d2 Hx Hd2. rewrite (u32_small (y + dy)) by lia. rewrite !u32_small by lia.
        destruct (step_copy buf d2 (z * (W * B * H) + (y + dy) * (W * B) + x + dx * B) (z * SizeOfPlane im + y * (Width im * B) + x)) as (d3 & E3 & S3); try lia.
        exists d3. split; [exact E3|]. eapply step_ext; [exact S3|]. intros j v. split; intros (-> & ->); (split; [ring|reflexivity]).
      - exists d'. split; [exact Ed|]. eapply step_ext; [exact Sd|]. intros j v. split; intros (q & Hq & -> & ->); exists q; auto. }
    exists d'. split; [exact Ed|]. eapply step_ext; [exact Sd|]. intros j v.
    split; intros (y & q & Hy & Hq & -> & ->); exists y, q; (split; [lia|split; [lia|split; [lia|f_equal; lia]]]). }
  rewrite Ed. cbn [bind app]. destruct Sd as (SL & SA & SB).
  eexists dx, dt, _, d'. split; [exact Pl|]. split; [reflexivity|].
  split. { destruct Ok2 as (_ & O2). unfold img_ok. cbn. rewrite SL, L2. split; [reflexivity|exact O2]. }
  cbn [with_Data Width Height Depth Bpp Bpc Format Type_ Origin]. do 8 (split; [auto|]).
  assert (PO : forall x y z k, pix_off (with_Data (with_Data i2 (Some b2)) (Some d')) x y z k = z * (H * (W * B)) + y * (W * B) + x * B + k).
  { intros. unfold pix_off. cbn [with_Data Width Height Bpp Bpc]. rewrite G1, G2, G4, G5. ring. }
  assert (PI : forall x y z k, pix_off im x y z k = z * SizeOfPlane im + y * (Width im * B) + (x * B + k)).
  { intros. unfold pix_off. fold B. rewrite HC1, HBP. ring. }
  split.
  - intros x t z k (Ix & It & Iz & Ik). rewrite HC1 in Ik. fold B in Ik. replace (B * 1) with B in Ik by lia.
    unfold picture. cbn [with_Data Origin Height]. rewrite G8, PO, PI, G2.
    assert (Q := lin_bound B (Width im) x k Ik Ix).
    set (y := if Origin im =? IL_ORIGIN_UPPER_LEFT then t else Height im - 1 - t).
    assert (Hy : 0 <= y < Height im) by (unfold y; destruct (Origin im =? IL_ORIGIN_UPPER_LEFT); lia).
    replace (if Origin im =? IL_ORIGIN_UPPER_LEFT then dt + t else H - 1 - (dt + t)) with (dy + y)
      by (unfold dy, y; destruct (Origin im =? IL_ORIGIN_UPPER_LEFT); lia).
    apply SA. exists z, y, (x * B + k). split; [lia|]. split; [lia|]. split; [lia|]. split; [ring|f_equal; ring].
  - intros x t z k (Ix & It & Iz & Ik) NI. cbn [with_Data Width Height Depth Bpp Bpc] in Ix, It, Iz, Ik.
    rewrite G1 in Ix. rewrite G2 in It. rewrite G3 in Iz. rewrite G4, G5 in Ik. replace (B * 1) with B in Ik by lia.
    unfold picture. cbn [with_Data Origin Height]. rewrite G8, PO, G2.
    set (y := if Origin im =? IL_ORIGIN_UPPER_LEFT then t else H - 1 - t).
    assert (Hy : 0 <= y < H) by (unfold y; destruct (Origin im =? IL_ORIGIN_UPPER_LEFT); lia).
    assert (NI' : ~ (dx <= x < dx + Width im /\ dy <= y < dy + Height im /\ z < Depth im)).
    { intros N. apply NI. unfold dy, y in N. destruct (Origin im =? IL_ORIGIN_UPPER_LEFT); lia. }
    assert (Q := lin_bound B W x k Ik Ix). assert (QY := lin_bound (W * B) H y _ Q Hy).
    assert (0 <= z * (H * (W * B))) by (apply Z.mul_nonneg_nonneg; lia).
    rewrite SB; [|lia|].
    + destruct (A2 x y z k) as (a & Ca & Ea); [unfold in_pixels; lia|lia|]. exists a. rewrite <- G6, <- G7. split; [exact Ca|].
      unfold chan_at in Ea. rewrite G5 in Ea. rewrite slice_1 in Ea.
      * unfold pix_off in Ea. rewrite G1, G2, G4, G5 in Ea. replace (B * 1) with B in Ea by lia. replace (k * 1) with k in Ea by lia. exact Ea.
      * unfold pix_off. rewrite G1, G2, G4, G5. replace (B * 1) with B by lia. replace (k * 1) with k by lia.
        assert ((z + 1) * (H * (W * B)) <= D * (H * (W * B))) by (apply Z.mul_le_mono_nonneg_r; lia). lia.
    + intros v (z' & y' & q' & Hz' & Hy' & Hq' & E & _). apply NI'.
      assert (X1 : 0 <= dx * B + q' < W * B) by (clear - Hq' K1 K2; lia).
      assert (X2 := lin_bound (W * B) H (dy + y') _ X1 ltac:(clear - Hdy Hy'; lia)).
      assert (X3 : z = z' /\ y * (W * B) + (x * B + k) = (dy + y') * (W * B) + (dx * B + q')) by (apply (radix2 (H * (W * B))); [clear - QY; lia|clear - X2; lia|clear - E; lia]).
      destruct X3 as [-> X3]. apply radix2 in X3; [|exact Q|exact X1]. destruct X3 as [-> X3].
      clear - X3 Hq' Hy' Hz' Ik Hbpp K1 K2 B. fold B in Hbpp. clearbody B. split; [|lia]. split; [apply Z.nlt_ge; intros N|apply Z.nle_gt; intros N].
      * assert ((x + 1) * B <= dx * B) by (apply Z.mul_le_mono_nonneg_r; lia). lia.
      * assert ((dx + Width im) * B <= x * B) by (apply Z.mul_le_mono_nonneg_r; lia). lia.
Qed.
Print Assumptions C71_canvas_partial.

(** A 1x2 picture of two rows placed at the top of a 1x3 canvas; the clear colour is black with full alpha *)
Definition canvas_img (o : Z) : img :=
  mkImg 1 2 1 4 1 4 (Some [1;2;3;4; 5;6;7;8]) 8 8 IL_RGBA IL_UNSIGNED_BYTE o (mkPal None 0 IL_PAL_NONE) 0 0 0 0.
Example C71_ex :
  img_ok (canvas_img IL_ORIGIN_LOWER_LEFT) [1;2;3;4; 5;6;7;8] /\ layout_ok (canvas_img IL_ORIGIN_LOWER_LEFT) /\
  supported (mkColour 0 0 0 65536 0) IL_RGBA IL_UNSIGNED_BYTE /\
  (forall fenc denc, match iluEnlargeCanvas goodalloc goodalloc noconv None fenc denc (mkColour 0 0 0 65536 0) (repeat 7 32) ILU_UPPER_LEFT
     (canvas_img IL_ORIGIN_LOWER_LEFT) 1 3 1 with
   | Ok (true, im, []) => Data im = Some [0;0;0;255; 1;2;3;4; 5;6;7;8] | _ => False end) /\
  (forall fenc denc, match iluEnlargeCanvas goodalloc goodalloc noconv None fenc denc (mkColour 0 0 0 65536 0) (repeat 7 32) ILU_UPPER_LEFT
     (canvas_img IL_ORIGIN_UPPER_LEFT) 1 3 1 with
   | Ok (true, im, []) => Data im = Some [1;2;3;4; 5;6;7;8; 0;0;0;255] | _ => False end).
Proof.
  split; [unfold img_ok; cbn; repeat split; auto; lia|]. split; [repeat split; try reflexivity; discriminate|].
  split; [split; [auto|intros [Q|Q]; discriminate]|]. split; intros; vm_compute; reflexivity.
Qed.

(** C71, finding: with two bytes per channel the horizontal offset is half of what it should be. *)
Theorem C71_bpc_refuted : forall conv fenc denc, exists im buf col,
  img_ok im buf /\ layout_ok im /\ Depth im = 1 /\ Bpc im = 2 /\ supported col (Format im) (Type_ im) /\ in_range col /\
  exists im' buf', iluEnlargeCanvas goodalloc goodalloc conv None fenc denc col (repeat 7 32) ILU_UPPER_RIGHT im 3 1 1 = Ok (true, im', []) /\
    img_ok im' buf' /\ picture im' buf' 2 0 0 0 <> picture im buf 0 0 0 0.
Proof.
  intros conv fenc denc.
  exists (mkImg 1 1 1 3 2 6 (Some [1;2;3;4;5;6]) 6 6 IL_RGB IL_UNSIGNED_SHORT IL_ORIGIN_LOWER_LEFT (mkPal None 0 IL_PAL_NONE) 0 0 0 0), [1;2;3;4;5;6], (mkColour 0 0 0 0 0).
  split; [unfold img_ok; cbn; repeat split; auto; lia|]. split; [repeat split; try reflexivity; discriminate|].
  split; [reflexivity|]. split; [reflexivity|]. split; [split; [auto|intros [Q|Q]; discriminate]|]. split; [unfold in_range; cbn; lia|].
  do 2 eexists. split; [vm_compute; reflexivity|]. split; [unfold img_ok; cbn; repeat split; auto; lia|]. vm_compute. discriminate.
Qed.

(** C71, finding: when the new pixel block cannot be allocated the call goes on without one. *)
Theorem C71_alloc_refuted : forall scr conv fenc denc col stk im buf W,
  img_ok im buf -> layout_ok im -> allocator_ok scr -> scr (SizeOfData im) <> None -> Depth im = 1 -> Bpc im = 1 ->
  (Origin im = IL_ORIGIN_LOWER_LEFT \/ Origin im = IL_ORIGIN_UPPER_LEFT) -> type_size (Type_ im) 1 -> supported col (Format im) (Type_ im) ->
  in_range col -> zlen stk = 32 -> (forall a, zlen (fenc a) = 4) -> (forall a, zlen (denc a) = 8) -> Width im <= W < 2 ^ 32 ->
  iluEnlargeCanvas scr (fun _ => None) conv None fenc denc col stk ILU_UPPER_LEFT im W (Height im) 1 = UB.
Proof.
  intros scr conv fenc denc col stk im buf W Hok Hlay Hs Hsn HD1 HC1 HO TS SUP HR Hstk Hf Hd HW.
  assert (Hok' := Hok). destruct Hok' as (HDt & HW1 & HH1 & HD & Hbpp & Hbpc & Hbps & Hpl & Hsz & H32 & Hlen).
  unfold iluEnlargeCanvas. replace ((W <? Width im) || (Height im <? Height im) || (1 <? Depth im)) with false by lia.
  assert (M0 : 1 <= Bps im) by (rewrite Hbps; nia).
  assert (M1 : Height im <= Height im * Bps im) by (apply le_mul_l; lia).
  change (2 ^ 32) with 4294967296 in *.
  destruct (placement_ok ILU_UPPER_LEFT im W (Height im)) as (dx & dt & _ & _ & _ & EP); try lia; [left; reflexivity|]. rewrite EP.
  destruct (scr (SizeOfData im)) as [tmp|] eqn:Es; [|congruence]. assert (Lt := Hs _ _ Es).
  rewrite (copied_ok (fun _ => None) conv None im buf (Depth im) tmp); auto; try lia; [|intros n b; discriminate|left; reflexivity].
  cbn [bind]. unfold ilInitImage. destruct (ilGetBpcType (Type_ im) =? 0) eqn:E0.
  { destruct Hlay as (_ & HT & _). lia. }
  cbv zeta. cbn [bind]. unfold ilClearImage_. cbn [with_Origin Data SizeOfData Format Type_].
  destruct (getclear_ok fenc denc col stk (Format im) (Type_ im) 1 TS Hf Hd Hstk HR SUP) as (C & EC & _). rewrite EC. cbn [bind].
  destruct Hlay as (_ & _ & NI). replace (Format im =? IL_COLOUR_INDEX) with false by lia. cbn [negb].
  destruct (elsize (Type_ im) =? 0); [reflexivity|]. match goal with |- context [if ?b then Ok _ else UB] => destruct b end; reflexivity.
Qed.

Print Assumptions C70_offset_refuted.
Print Assumptions C70_bpc_refuted.
Print Assumptions C70_index_refuted.
Print Assumptions C70_volume_refuted.
Print Assumptions C70_slices_refuted.
Print Assumptions C71_bpc_refuted.
Print Assumptions C71_alloc_refuted.
