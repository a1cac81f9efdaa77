(** Convolution (C79) and mosaic (C82): where they leave the image. *)
From Coq Require Import ZArith List Lia Bool QArith.
From Verif Require Import Base Slices Enums Utility Image ImageSpec Elem Channels ChannelsSpec ChannelsProofs ChannelsProps Endian Float Flip Pixels Scatter PixelsProofs PixelsProps Ilu IluCrop IluProps Ilu2 IluScale IluRotate.
Import ListNotations.
Open Scope Z_scope.

Definition any {S} : S -> Prop := fun _ => True.
Lemma good_bind : forall A S (r : res A) (k : A -> res S), good any r -> (forall a, good any (k a)) -> good any (bind r k).
Proof. intros A S r k Hr Hk. destruct r; cbn [bind good] in *; auto. Qed.
Lemma good_rd : forall l i, good any (rd l i).
Proof. intros. unfold rd. destruct (inb _ _ _); exact I. Qed.
Lemma good_wr : forall l i v, good any (wr l i v).
Proof. intros. unfold wr. destruct (inb _ _ _); exact I. Qed.
Lemma good_put9 : forall q m src o t d, good any (put9 q m src o t d).
Proof. intros. unfold put9, conv9. repeat (apply good_bind; [|intros]); try apply good_rd; try apply good_wr. exact I. Qed.
Lemma good_loop : forall S lo hi (f : Z -> S -> res S) s, (forall i s, good any (f i s)) -> good any (loop lo hi f s).
Proof. intros. apply loop_good; [auto|exact I]. Qed.

(** the first thing that is undefined ends a sequence *)
Lemma bind_ub : forall A S (r : res A) (k : A -> res S), good any r -> (forall a, k a = UB) -> bind r k = UB.
Proof. intros A S r k Hr Hk. destruct r; cbn [bind good] in *; auto. contradiction. Qed.

Lemma put9_ub : forall q m src o t d, (exists i, 0 <= i < 9 /\ zlen src <= geti o i) -> put9 q m src o t d = UB.
Proof.
  intros q m src o t d (i & Hi & Ho). assert (E : rd src (geti o i) = UB) by (apply rd_ub; lia). unfold put9, conv9.
  assert (C : i = 0 \/ i = 1 \/ i = 2 \/ i = 3 \/ i = 4 \/ i = 5 \/ i = 6 \/ i = 7 \/ i = 8) by lia.
  decompose [or] C; subst i; rewrite E;
    repeat (match goal with |- bind (bind UB _) _ = _ => reflexivity | |- bind UB _ = _ => reflexivity | |- bind (bind (rd src ?k) _) _ = _ => destruct (rd src k) eqn:?; cbn [bind] end); try reflexivity;
    match goal with H : rd src ?k = Fuel |- _ => unfold rd in H; destruct (inb _ _ _) in H; congruence end.
Qed.

Lemma plane_good : forall q m src W H B b d, good any (filter_plane q m src W H B b d).
Proof.
  intros. unfold filter_plane.
  repeat (apply good_bind; [|intros]); repeat (apply good_loop; intros); try apply good_put9;
    repeat (apply good_bind; [|intros]); try apply good_rd; try apply good_wr.
Qed.

(** ** C79: a convolution of an image of at least three rows reads behind its pixels *)
Theorem C79_convolution_refuted : forall alloc q m im buf, img_ok im buf -> Bpc im = 1 -> 3 <= Height im -> alloc (SizeOfData im) <> None ->
  iluConvolution alloc q m im = UB.
Proof.
  intros alloc q m im buf Hok Hn Hh Ha. assert (Hok' := Hok). destruct Hok' as (HDt & HW & HH & HD & Hbpp & Hbpc & Hbps & Hpl & Hsz & H32 & Hlen).
  unfold iluConvolution. rewrite HDt. destruct (alloc (SizeOfData im)) as [new|]; [|congruence].
  replace (Filter q m im buf new) with (@UB (list Z)); [reflexivity|]. symmetry. unfold Filter.
  apply (loop_reach_ub _ any) with (m := Depth im - 1); [lia|exact I|intros; apply plane_good|]. intros s _.
  unfold filter_plane. repeat (apply bind_ub; [|intros]).
  1-5: repeat (apply good_loop; intros); try apply good_put9; repeat (apply good_bind; [|intros]); try apply good_rd; try apply good_wr.
  apply (loop_reach_ub _ any) with (m := Height im - 2); [lia|exact I| |].
  - intros. apply good_loop. intros. apply good_put9.
  - intros d _. apply loop_first_ub; [lia|]. apply put9_ub. exists 7. split; [lia|].
    match goal with |- _ <= geti ?l 7 => change (geti l 7) with ((Depth im - 1) * SizeOfPlane im + ((Height im - 2 + 1) * (Width im * Bpp im) - Bpp im) + 1 * (Width im * Bpp im) + 1 * Bpp im + 0) end.
    rewrite Hlen, Hsz, Hpl, Hbps, Hn. lia.
Qed.
Print Assumptions C79_convolution_refuted.
Example C79_ex : exists im buf, img_ok im buf /\ Bpc im = 1 /\ 3 <= Height im.
Proof. exists (mkImg 1 3 1 1 1 1 (Some [1; 2; 3]) 3 3 IL_LUMINANCE IL_UNSIGNED_BYTE IL_ORIGIN_UPPER_LEFT (mkPal None 0 IL_PAL_NONE) 0 0 0 0), [1; 2; 3]. unfold img_ok. vm_compute. intuition congruence. Qed.

(** C79b: even when the memory behind the image can be read, the pixel in the middle is not the weighted sum of its
    neighbours: the last weight is applied to the neighbour on the left below instead of the one on the right. *)
(** weights in reading order: above left, above, above right, left, middle, right, below left, below, below right *)
Definition last_weight : list Z := [0; 0; 0; 0; 0; 0; 0; 0; 1].
Definition below_left_7_right_9 : list Z := [1; 2; 3; 4; 5; 6; 7; 8; 9; 0; 0].
Theorem C79_kernel_refuted : exists d, filter_plane (fun s => s) last_weight below_left_7_right_9 3 3 1 0 (repeat 0 9) = Ok d /\ geti d 4 = 7.
Proof. eexists. split; [vm_compute; reflexivity|]. reflexivity. Qed.
Print Assumptions C79_kernel_refuted.

Lemma stride_first_ub : forall S hi st (body : Z -> S -> res S) s, 0 < hi -> body 0 s = UB -> stride 0 hi st body s = UB.
Proof.
  intros S hi st body s Hh Hb. unfold stride. destruct (Z.to_nat hi) as [|f] eqn:E; [lia|]. cbn [stride_]. replace (0 <? hi) with true by lia. rewrite Hb. reflexivity.
Qed.

Lemma good_rde : forall l n i, good any (rde l n i).
Proof. intros. unfold rde. destruct (inb _ _ _); exact I. Qed.

(** ** C82: without a region a mosaic of channels of more than one byte is undefined, for every image *)
Theorem C82_pixelize_refuted : forall im buf P, img_ok im buf -> Bpc im = 2 \/ Bpc im = 4 -> 0 <= P -> iluPixelize None im P = UB.
Proof.
  intros im buf P Hok Hn HP. assert (Hok' := Hok). destruct Hok' as (HDt & HW & HH & HD & Hbpp & Hbpc & Hbps & Hpl & Hsz & H32 & Hlen).
  unfold iluPixelize. rewrite HDt. replace (pixelize None im (nz1 P) buf) with (@UB (list Z)); [reflexivity|]. symmetry.
  assert (N1 : 1 <= nz1 P) by (unfold nz1; destruct (P =? 0) eqn:Q; lia). unfold pixelize.
  rewrite stride_first_ub; [reflexivity|lia|]. apply stride_first_ub; [lia|]. apply stride_first_ub; [lia|].
  rewrite loop_first_ub; [reflexivity|lia|].
  apply bind_ub. { unfold block_sum. repeat (apply good_loop; intros). destruct s1 as (T, U). apply good_bind; [apply good_rde|intros; exact I]. }
  intros (Total, Tested). destruct (Tested =? 0); [reflexivity|]. apply loop_first_ub; [lia|]. apply loop_first_ub; [lia|]. apply loop_first_ub; [lia|].
  replace (Bpc im =? 1) with false by lia. reflexivity.
Qed.
Print Assumptions C82_pixelize_refuted.
Example C82_ex : exists im buf, img_ok im buf /\ Bpc im = 2.
Proof. exists (mkImg 1 1 1 1 2 2 (Some [1; 2]) 2 2 IL_LUMINANCE IL_UNSIGNED_SHORT IL_ORIGIN_UPPER_LEFT (mkPal None 0 IL_PAL_NONE) 0 0 0 0), [1; 2]. unfold img_ok. vm_compute. intuition congruence. Qed.
