(** Uniform "box of pixels" view of the region copies (proofs only). *)
From Coq Require Import ZArith List Lia Bool.
From Verif Require Import Base Enums Utility UtilityProofs Image ImageSpec Flip FlipProofs Pixels Scatter PixelsProofs.
Import ListNotations.
Open Scope Z_scope.

(** offset of byte [c] of pixel (x,y,z) in a tightly packed W x H box *)
Definition box_off (W H P x y z c : Z) : Z := ((z * H + y) * W + x) * P + c.

Lemma box_off_inj : forall W H P x y z c x' y' z' c',
  0 <= c < P -> 0 <= c' < P -> 0 <= x < W -> 0 <= x' < W -> 0 <= y < H -> 0 <= y' < H ->
  box_off W H P x y z c = box_off W H P x' y' z' c' -> x = x' /\ y = y' /\ z = z' /\ c = c'.
Proof.
  intros W H P x y z c x' y' z' c' Hc Hc' Hx Hx' Hy Hy' E. unfold box_off in E.
  destruct (radix2 _ _ _ _ _ Hc Hc' E) as [E1 ->].
  destruct (radix2 _ _ _ _ _ Hx Hx' E1) as [E2 ->].
  destruct (radix2 _ _ _ _ _ Hy Hy' E2) as [E3 ->]. auto.
Qed.

Lemma box_off_bound : forall W H D P x y z c,
  0 <= c < P -> 0 <= x < W -> 0 <= y < H -> 0 <= z < D -> 0 <= box_off W H P x y z c < W * H * D * P.
Proof.
  intros W H D P x y z c Hc Hx Hy Hz. unfold box_off.
  assert (B1 := lin_bound H D z y Hy Hz).
  assert (B2 := lin_bound W (D * H) (z * H + y) x Hx B1).
  assert (B3 := lin_bound P (D * H * W) _ c Hc B2).
  replace (W * H * D * P) with (D * H * W * P) by ring. exact B3.
Qed.

Lemma box_off_surj : forall W H D P j, 1 <= W -> 1 <= H -> 1 <= P -> 0 <= j < W * H * D * P ->
  exists x y z c, 0 <= c < P /\ 0 <= x < W /\ 0 <= y < H /\ 0 <= z < D /\ j = box_off W H P x y z c.
Proof.
  intros W H D P j HW HH HP Hj. unfold box_off.
  destruct (decompose D H (W * P) j) as (z & y & q & Hz & Hy & Hq & ->); try lia.
  destruct (decompose 1 W P q) as (o & x & c & Ho & Hx & Hc & ->); try lia.
  assert (o = 0) by lia. subst. exists x, y, z, c. repeat split; try lia.
Qed.

Lemma pix_off_box : forall im x y z c,
  pix_off im x y z c = box_off (Width im) (Height im) (Bpp im * Bpc im) x y z c.
Proof. intros. unfold pix_off, box_off. ring. Qed.

(** q in a row = pixel index and byte index *)
Lemma row_pixels : forall n P q, 0 <= n -> 0 <= P ->
  0 <= q < n * P <-> exists x c, 0 <= x < n /\ 0 <= c < P /\ q = x * P + c.
Proof.
  intros n P q Hn HP. split.
  - intros Hq. destruct (decompose 1 n P q) as (o & x & c & Ho & Hx & Hc & ->); try lia.
    exists x, c. repeat split; try lia.
  - intros (x & c & Hx & Hc & ->). apply lin_bound; auto.
Qed.

(** ** Copy *)
Definition copy_box (im : img) (src : list Z) (X Y Z_ W H nx ny nz j v : Z) : Prop :=
  let P := Bpp im * Bpc im in
  exists x y z c, 0 <= x < nx /\ 0 <= y < ny /\ 0 <= z < nz /\ 0 <= c < P /\
    j = box_off W H P x y z c /\ v = geti src (pix_off im (x + X) (y + Y) (z + Z_) c).

Lemma u32_le1 : forall a, 0 <= a < 4294967296 -> (u32 a <=? 1) = (a <=? 1).
Proof. intros. rewrite u32_small by lia. reflexivity. Qed.

Lemma copy_dispatch : forall alloc om im buf X Y Z_ W H D dst,
  img_ok im buf -> allocator_ok alloc -> (wants_flip om im = true -> alloc (SizeOfData im) <> None) ->
  0 <= X <= Width im -> 0 <= Y <= Height im -> 0 <= Z_ <= Depth im ->
  1 <= W -> 1 <= H -> 1 <= D -> W * H * D * (Bpp im * Bpc im) < 4294967296 ->
  X + W < 4294967296 -> Y + H < 4294967296 -> Z_ + D < 4294967296 ->
  W * H * D * (Bpp im * Bpc im) <= zlen dst ->
  (Y + H <= 1 -> Z_ + D <= 1) ->
  (2 <= Z_ + D -> X + W <= Width im /\ Y + H <= Height im) ->
  exists src dst', own_or_flipped om im buf src /\
    (if u32 (Y + H) <=? 1 then ilCopyPixels1D alloc om im X W dst
     else if u32 (Z_ + D) <=? 1 then ilCopyPixels2D alloc om im X Y W H dst
     else ilCopyPixels3D alloc om im X Y Z_ W H D dst) = Ok (Some dst') /\
    step (copy_box im src X Y Z_ W H (ext (Width im) X W) (ext (Height im) Y H) (ext (Depth im) Z_ D)) dst dst'.
Proof.
  intros alloc om im buf X Y Z_ W H D dst Hok Ha Hal HX HY HZ HW HH HD Hsz HXW HYH HZD Hdst H1d H3d.
  assert (Hok' := Hok).
  destruct Hok' as (_ & HW1 & HH1 & HD1 & _ & _ & Hbps & Hpl & Hszd & H32 & Hlen).
  destruct (img_ok_facts im buf Hok) as (HP & _).
  assert (Hpl' : SizeOfPlane im = Height im * (Width im * (Bpp im * Bpc im))) by (rewrite Hpl, Hbps; ring).
  rewrite !u32_le1 by lia.
  set (P := Bpp im * Bpc im) in *.
  assert (Hnx : 0 <= ext (Width im) X W) by (unfold ext; lia).
  destruct (Y + H <=? 1) eqn:E1.
  - destruct (copy1D alloc om im buf Hok Ha Hal X Y Z_ W H D) with (dst := dst) as (src & dst' & L & A & E & S); auto; try lia.
    exists src, dst'. split; [split; auto|]. split; [exact E|].
    eapply step_ext; [exact S|]. intros j v. unfold copy_box. fold P in S |- *.
    replace (ext (Height im) Y H) with 1 by (unfold ext; lia).
    replace (ext (Depth im) Z_ D) with 1 by (unfold ext; lia).
    assert (Y = 0) by lia. assert (Z_ = 0) by lia. subst Y Z_.
    split.
    + intros (q & Hq & -> & ->). apply row_pixels in Hq; [|lia|lia]. destruct Hq as (x & c & Hx & Hc & ->).
      exists x, 0, 0, c. do 4 (split; [lia|]). split; [unfold box_off; ring|f_equal; unfold pix_off; fold P; ring].
    + intros (x & y & z & c & Hx & Hy & Hz & Hc & -> & ->). exists (x * P + c).
      assert (y = 0) by lia. assert (z = 0) by lia. subst y z.
      split; [apply row_pixels; [lia|lia|]; exists x, c; auto|]. split; [unfold box_off; ring|].
      f_equal. unfold pix_off. fold P. ring.
  - destruct (Z_ + D <=? 1) eqn:E2.
    + destruct (copy2D alloc om im buf Hok Ha Hal X Y Z_ W H D) with (dst := dst) as (src & dst' & L & A & E & S); auto; try lia.
      exists src, dst'. split; [split; auto|]. split; [exact E|].
      eapply step_ext; [exact S|]. intros j v. unfold copy_box. fold P in S |- *.
      replace (ext (Depth im) Z_ D) with 1 by (unfold ext; lia).
      assert (Z_ = 0) by lia. subst Z_.
      split.
      * intros (y & q & Hy & Hq & -> & ->). apply row_pixels in Hq; [|lia|lia]. destruct Hq as (x & c & Hx & Hc & ->).
        exists x, y, 0, c. do 4 (split; [lia|]). split; [unfold box_off; ring|f_equal; unfold pix_off; fold P; rewrite Hbps; ring].
      * intros (x & y & z & c & Hx & Hy & Hz & Hc & -> & ->). exists y, (x * P + c).
        assert (z = 0) by lia. subst z. split; [lia|].
        split; [apply row_pixels; [lia|lia|]; exists x, c; auto|]. split; [unfold box_off; ring|].
        f_equal. unfold pix_off. fold P. rewrite Hbps. ring.
    + destruct H3d as [H3x H3y]; [lia|].
      destruct (copy3D alloc om im buf Hok Ha Hal X Y Z_ W H D) with (dst := dst) as (src & dst' & L & A & E & S); auto; try lia.
      exists src, dst'. split; [split; auto|]. split; [exact E|].
      eapply step_ext; [exact S|]. intros j v. unfold copy_box. fold P in S |- *.
      replace (ext (Height im) Y H) with H by (unfold ext; lia).
      replace (ext (Width im) X W) with W by (unfold ext; lia).
      split.
      * intros (z & y & q & Hz & Hy & Hq & -> & ->). apply row_pixels in Hq; [|lia|lia]. destruct Hq as (x & c & Hx & Hc & ->).
        exists x, y, z, c. do 4 (split; [lia|]). split; [unfold box_off; ring|f_equal; unfold pix_off; fold P; rewrite Hbps, Hpl'; ring].
      * intros (x & y & z & c & Hx & Hy & Hz & Hc & -> & ->). exists z, y, (x * P + c).
        split; [lia|]. split; [lia|].
        split; [apply row_pixels; [lia|lia|]; exists x, c; auto|]. split; [unfold box_off; ring|].
        f_equal. unfold pix_off. fold P. rewrite Hbps, Hpl'. ring.
Qed.

(** ** Set *)
Definition set_box (im : img) (data : list Z) (X Y Z_ W H nx ny nz j v : Z) : Prop :=
  let P := Bpp im * Bpc im in
  exists x y z c, 0 <= x < nx /\ 0 <= y < ny /\ 0 <= z < nz /\ 0 <= c < P /\
    j = pix_off im (x + off0 X) (y + off0 Y) (z + off0 Z_) c /\
    v = geti data (box_off W H P (x + skip0 X) (y + skip0 Y) (z + skip0 Z_) c).

(** arguments within the 32-bit signed range in which the clipping arithmetic is exact *)
Definition set_args (im : img) (X Y Z_ W H D : Z) (data : list Z) : Prop :=
  -2147483648 < X < 2147483648 /\ -2147483648 < Y < 2147483648 /\ -2147483648 < Z_ < 2147483648 /\
  Width im < 2147483648 /\ Height im < 2147483648 /\ Depth im < 2147483648 /\
  1 <= W < 2147483648 /\ 1 <= H < 2147483648 /\ 1 <= D < 2147483648 /\
  W * H * D * (Bpp im * Bpc im) < 4294967296 /\ W * H * D * (Bpp im * Bpc im) <= zlen data.

Section Set3.
  Variables (alloc : allocator) (om : option Z) (im : img) (buf : list Z).
  Hypothesis Hok : img_ok im buf.
  Hypothesis Ha : allocator_ok alloc.
  Hypothesis Hal : wants_flip om im = true -> alloc (SizeOfData im) <> None.
  Variable data : list Z.

  Lemma set_box1 : forall X W, set_args im X 0 0 W 1 1 data ->
    exists dst dst', own_or_flipped om im buf dst /\
      ilSetPixels1D alloc om im X W data = Ok (Some (with_Data im (Some dst'))) /\
      step (set_box im data X 0 0 W 1 (nset (Width im) X W) 1 1) dst dst'.
  Proof.
    intros X W (A1 & A2 & A3 & A4 & A5 & A6 & A7 & A8 & A9 & A10 & A11).
    destruct (img_ok_facts im buf Hok) as (HP & _).
    destruct (set1D alloc om im buf Hok Ha Hal X 0 0 W 1 1) with (data := data) as (dst & dst' & O & E & S); auto; try lia.
    exists dst, dst'. split; auto. split; auto. eapply step_ext; [exact S|].
    intros j v. unfold set_box. set (P := Bpp im * Bpc im) in *.
    assert (Hn : 0 <= nset (Width im) X W) by (unfold nset; lia). split.
    - intros (q & Hq & -> & ->). apply row_pixels in Hq; [|lia|lia]. destruct Hq as (x & c & Hx & Hc & ->).
      exists x, 0, 0, c. do 4 (split; [lia|]). split; [unfold pix_off; fold P; change (off0 0) with 0; ring|f_equal; unfold box_off; change (skip0 0) with 0; ring].
    - intros (x & y & z & c & Hx & Hy & Hz & Hc & -> & ->). exists (x * P + c).
      assert (y = 0) by lia. assert (z = 0) by lia. subst y z.
      split; [apply row_pixels; [lia|lia|]; exists x, c; auto|]. split.
      + unfold pix_off. fold P. change (off0 0) with 0. ring.
      + f_equal. unfold box_off. change (skip0 0) with 0. ring.
  Qed.

  Lemma set_box2 : forall X Y W H, set_args im X Y 0 W H 1 data ->
    exists dst dst', own_or_flipped om im buf dst /\
      ilSetPixels2D alloc om im X Y W H data = Ok (Some (with_Data im (Some dst'))) /\
      step (set_box im data X Y 0 W H (nset (Width im) X W) (nset (Height im) Y H) 1) dst dst'.
  Proof.
    intros X Y W H (A1 & A2 & A3 & A4 & A5 & A6 & A7 & A8 & A9 & A10 & A11).
    destruct (img_ok_facts im buf Hok) as (HP & _). assert (Hok' := Hok).
    destruct Hok' as (_ & HW1 & HH1 & HD1 & _ & _ & Hbps & Hpl & Hszd & H32 & Hlen).
    destruct (set2D alloc om im buf Hok Ha Hal X Y 0 W H 1) with (data := data) as (dst & dst' & O & E & S); auto; try lia.
    exists dst, dst'. split; auto. split; auto. eapply step_ext; [exact S|].
    intros j v. unfold set_box. set (P := Bpp im * Bpc im) in *.
    assert (Hn : 0 <= nset (Width im) X W) by (unfold nset; lia). split.
    - intros (y & q & Hy & Hq & -> & ->). apply row_pixels in Hq; [|lia|lia]. destruct Hq as (x & c & Hx & Hc & ->).
      exists x, y, 0, c. do 4 (split; [lia|]). split; [unfold pix_off; fold P; rewrite Hbps; change (off0 0) with 0; ring|f_equal; unfold box_off; change (skip0 0) with 0; ring].
    - intros (x & y & z & c & Hx & Hy & Hz & Hc & -> & ->). exists y, (x * P + c).
      assert (z = 0) by lia. subst z. split; [lia|].
      split; [apply row_pixels; [lia|lia|]; exists x, c; auto|]. split.
      + unfold pix_off. fold P. rewrite Hbps. change (off0 0) with 0. ring.
      + f_equal. unfold box_off. change (skip0 0) with 0. ring.
  Qed.

  Lemma set_box3 : forall X Y Z_ W H D, set_args im X Y Z_ W H D data ->
    exists dst dst', own_or_flipped om im buf dst /\
      ilSetPixels3D alloc om im X Y Z_ W H D data = Ok (Some (with_Data im (Some dst'))) /\
      step (set_box im data X Y Z_ W H (nset (Width im) X W) (nset (Height im) Y H) (nset (Depth im) Z_ D)) dst dst'.
  Proof.
    intros X Y Z_ W H D (A1 & A2 & A3 & A4 & A5 & A6 & A7 & A8 & A9 & A10 & A11).
    destruct (img_ok_facts im buf Hok) as (HP & _). assert (Hok' := Hok).
    destruct Hok' as (_ & HW1 & HH1 & HD1 & _ & _ & Hbps & Hpl & Hszd & H32 & Hlen).
    assert (Hpl' : SizeOfPlane im = Height im * (Width im * (Bpp im * Bpc im))) by (rewrite Hpl, Hbps; ring).
    destruct (set3D alloc om im buf Hok Ha Hal X Y Z_ W H D) with (data := data) as (dst & dst' & O & E & S); auto; try lia.
    exists dst, dst'. split; auto. split; auto. eapply step_ext; [exact S|].
    intros j v. unfold set_box. set (P := Bpp im * Bpc im) in *.
    assert (Hn : 0 <= nset (Width im) X W) by (unfold nset; lia). split.
    - intros (z & y & q & Hz & Hy & Hq & -> & ->). apply row_pixels in Hq; [|lia|lia]. destruct Hq as (x & c & Hx & Hc & ->).
      exists x, y, z, c. do 4 (split; [lia|]). split; [unfold pix_off; fold P; rewrite Hbps, Hpl'; ring|f_equal; unfold box_off; ring].
    - intros (x & y & z & c & Hx & Hy & Hz & Hc & -> & ->). exists z, y, (x * P + c).
      split; [lia|]. split; [lia|].
      split; [apply row_pixels; [lia|lia|]; exists x, c; auto|]. split.
      + unfold pix_off. fold P. rewrite Hbps, Hpl'. ring.
      + f_equal. unfold box_off. ring.
  Qed.
End Set3.
