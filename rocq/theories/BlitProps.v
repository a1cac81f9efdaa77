(** C35: blitting; C55: blending. *)
From Coq Require Import ZArith List Lia Bool QArith Qround Lqa.
From Verif Require Import Base Enums Utility Image ImageSpec ImageProps Flip FlipProofs FlipProps Scatter PixelsProofs Elem ChannelsSpec ChannelsProps2 Float
  ConvBuff ConvSpec ConvProps ConvProps2 Blit BlitProofs.
Import ListNotations.
Open Scope Z_scope.

(** The arguments are inside both images: the target starts inside the destination, the sum of
    offset and extent does not wrap, and what remains of the source rectangle after clipping at
    the destination lies inside the source. *)
Definition axis_ok (dlim slim doff soff ext : Z) : Prop :=
  0 <= doff <= dlim /\ 0 <= ext /\ ext + doff < 2 ^ 32 /\ 0 <= soff /\ soff + Z.min ext (dlim - doff) <= slim.
Definition in_range1 (off ext x : Z) : bool := (off <=? x) && (x <? off + ext).
Definition in_target (DX DY DZ W H D x y z : Z) : bool := in_range1 DX W x && in_range1 DY H y && in_range1 DZ D z.

(** Byte [k] of pixel (x, y, z) of a buffer of [w] times [h] pixels of [n] bytes per slice *)
Definition byte_off (w h n x y z k : Z) : Z := z * (w * n * h) + y * (w * n) + x * n + k.

Lemma clip_min : forall dlim slim doff soff ext, axis_ok dlim slim doff soff ext -> dlim < 2 ^ 32 -> clip_blit dlim doff ext = Z.min ext (dlim - doff).
Proof.
  intros dlim slim doff soff ext (A & B & C & D & E) H. unfold clip_blit. change (2 ^ 32) with 4294967296 in *. rewrite u32_small by lia.
  destruct (Z.ltb_spec dlim (ext + doff)); [rewrite u32_small by lia|]; lia.
Qed.

Section L.
Variables (fblend : Z -> list Z -> Z -> Z -> res Z) (Dest Src : img) (buf cv : list Z) (DX DY DZ SX SY SZ W H D : Z).
Hypothesis Hok : img_ok Dest buf.
Hypothesis Hty : case (Type_ Dest) bytes_t = true.
Hypothesis Hbpc : Bpc Dest = 1.
Hypothesis HWs : 1 <= Width Src.
Hypothesis HHs : 1 <= Height Src.
Hypothesis HDs : 1 <= Depth Src.
Hypothesis Hcv : zlen cv = Depth Src * (Width Src * Bpp Dest * Height Src).
Hypothesis Hc32 : zlen cv < 2 ^ 32.
Hypothesis AX : axis_ok (Width Dest) (Width Src) DX SX W.
Hypothesis AY : axis_ok (Height Dest) (Height Src) DY SY H.
Hypothesis AZ : axis_ok (Depth Dest) (Depth Src) DZ SZ D.
Let P := Bpp Dest.
Let w := Z.min W (Width Dest - DX).
Let h := Z.min H (Height Dest - DY).
Let d := Z.min D (Depth Dest - DZ).

Lemma geo : 1 <= P < 256 /\ Bps Dest = Width Dest * P /\ SizeOfPlane Dest = Bps Dest * Height Dest /\ zlen buf = SizeOfPlane Dest * Depth Dest /\ zlen buf < 4294967296 /\
  1 <= Width Dest /\ 1 <= Height Dest /\ 1 <= Depth Dest /\ Width Dest <= Bps Dest /\ Bps Dest <= SizeOfPlane Dest /\ SizeOfPlane Dest <= zlen buf /\ Height Dest <= zlen buf /\ Depth Dest <= zlen buf.
Proof.
  destruct Hok as (E1 & E2 & E3 & E4 & E5 & E6 & E7 & E8 & E9 & E10 & E11). rewrite Hbpc in *. unfold P. change (2 ^ 32) with 4294967296 in *.
  assert (B : Bps Dest = Width Dest * Bpp Dest) by (rewrite E7; f_equal; lia).
  assert (Width Dest <= Bps Dest) by (rewrite B; apply le_mul_l; lia). assert (Bps Dest <= SizeOfPlane Dest) by (rewrite E8; apply le_mul_l; lia).
  assert (SizeOfPlane Dest <= SizeOfData Dest) by (rewrite E9; apply le_mul_l; lia).
  assert (Height Dest <= SizeOfPlane Dest) by (rewrite E8, Z.mul_comm; apply le_mul_l; lia).
  assert (Depth Dest <= SizeOfData Dest) by (rewrite E9, Z.mul_comm; apply le_mul_l; lia).
  repeat split; auto; lia.
Qed.
Lemma geo_s : let cb := Width Src * P in let cp := cb * Height Src in
  u32 (Bpp Dest * Width Src) = cb /\ u32 (cb * Height Src) = cp /\ 0 < cb /\ cb <= cp /\ cp <= zlen cv /\ zlen cv = Depth Src * cp /\ Width Src <= cb /\ Height Src <= cp /\ Depth Src <= zlen cv.
Proof.
  destruct geo as (G1 & _). intros cb cp. assert (B0 : 0 < cb) by (apply Z.mul_pos_pos; lia). assert (B1 : cb <= cp) by (apply le_mul_l; lia).
  assert (E : zlen cv = Depth Src * cp) by exact Hcv.
  assert (B2 : cp <= zlen cv) by (rewrite E, Z.mul_comm; apply le_mul_l; lia). change (2 ^ 32) with 4294967296 in *.
  assert (Width Src <= cb) by (apply le_mul_l; lia). assert (Height Src <= cp) by (unfold cp; rewrite Z.mul_comm; apply le_mul_l; lia).
  assert (Depth Src <= zlen cv) by (rewrite E; apply le_mul_l; lia).
  replace (Bpp Dest * Width Src) with cb by (unfold cb, P; lia). rewrite !u32_small by (unfold cp in *; lia). fold cp. repeat split; auto; lia.
Qed.

Lemma src_index : forall z y x c, 0 <= z < d -> 0 <= y < h -> 0 <= x < w -> 0 <= c < P ->
  let s := u32 (u32 (z + SZ) * u32 (u32 (Bpp Dest * Width Src) * Height Src) + u32 (y + SY) * u32 (Bpp Dest * Width Src) + u32 (x + SX) * Bpp Dest) in
  u32 (s + c) = byte_off (Width Src) (Height Src) P (x + SX) (y + SY) (z + SZ) c /\ 0 <= byte_off (Width Src) (Height Src) P (x + SX) (y + SY) (z + SZ) c < zlen cv /\ 0 <= s < zlen cv.
Proof.
  intros z y x c Hz Hy Hx Hc. destruct geo_s as (S1 & S2 & S3 & S4 & S5 & S6 & S7 & S8 & S9). set (cb := Width Src * P) in *. set (cp := cb * Height Src) in *.
  rewrite S1. fold cp. rewrite S2. destruct AX as (X1 & X2 & X3 & X4 & X5). destruct AY as (Y1 & Y2 & Y3 & Y4 & Y5). destruct AZ as (Z1 & Z2 & Z3 & Z4 & Z5). unfold w, h, d in *. change (2 ^ 32) with 4294967296 in *.
  rewrite (u32_small (z + SZ)), (u32_small (y + SY)), (u32_small (x + SX)) by lia. fold P.
  assert (B1 : 0 <= (x + SX) * P /\ (x + SX) * P + P <= cb).
  { assert ((x + SX + 1) * P <= Width Src * P) by (apply Z.mul_le_mono_nonneg_r; lia). split; [apply Z.mul_nonneg_nonneg; lia|unfold cb; lia]. }
  assert (B2 : 0 <= (y + SY) * cb /\ (y + SY) * cb + cb <= cp).
  { assert ((y + SY + 1) * cb <= Height Src * cb) by (apply Z.mul_le_mono_nonneg_r; lia). split; [apply Z.mul_nonneg_nonneg; lia|unfold cp; lia]. }
  assert (B3 : 0 <= (z + SZ) * cp /\ (z + SZ) * cp + cp <= zlen cv).
  { assert ((z + SZ + 1) * cp <= Depth Src * cp) by (apply Z.mul_le_mono_nonneg_r; lia). split; [apply Z.mul_nonneg_nonneg; lia|lia]. }
  rewrite (u32_small (_ + _ + _)) by lia. unfold byte_off. fold cb cp. rewrite u32_small by lia. repeat split; lia.
Qed.
Lemma dst_index : forall z y x c, 0 <= z < d -> 0 <= y < h -> 0 <= x < w -> 0 <= c < P ->
  let t := u32 (u32 (z + DZ) * SizeOfPlane Dest + u32 (y + DY) * Bps Dest + u32 (x + DX) * Bpp Dest) in
  u32 (t + c) = (z + DZ) * SizeOfPlane Dest + (y + DY) * Bps Dest + (x + DX) * P + c /\ 0 <= (z + DZ) * SizeOfPlane Dest + (y + DY) * Bps Dest + (x + DX) * P + c < zlen buf.
Proof.
  intros z y x c Hz Hy Hx Hc. destruct geo as (G1 & G2 & G3 & G4 & G5 & G6 & G7 & G8 & G9 & G10 & G11 & G12 & G13).
  destruct AX as (X1 & X2 & X3 & X4 & X5). destruct AY as (Y1 & Y2 & Y3 & Y4 & Y5). destruct AZ as (Z1 & Z2 & Z3 & Z4 & Z5). unfold w, h, d in *. change (2 ^ 32) with 4294967296 in *.
  rewrite (u32_small (z + DZ)), (u32_small (y + DY)), (u32_small (x + DX)) by lia. fold P.
  assert (B1 : 0 <= (x + DX) * P /\ (x + DX) * P + P <= Bps Dest).
  { assert ((x + DX + 1) * P <= Width Dest * P) by (apply Z.mul_le_mono_nonneg_r; lia). split; [apply Z.mul_nonneg_nonneg; lia|lia]. }
  assert (B2 : 0 <= (y + DY) * Bps Dest /\ (y + DY) * Bps Dest + Bps Dest <= SizeOfPlane Dest).
  { assert ((y + DY + 1) * Bps Dest <= Height Dest * Bps Dest) by (apply Z.mul_le_mono_nonneg_r; lia). split; [apply Z.mul_nonneg_nonneg; lia|lia]. }
  assert (B3 : 0 <= (z + DZ) * SizeOfPlane Dest /\ (z + DZ) * SizeOfPlane Dest + SizeOfPlane Dest <= zlen buf).
  { assert ((z + DZ + 1) * SizeOfPlane Dest <= Depth Dest * SizeOfPlane Dest) by (apply Z.mul_le_mono_nonneg_r; lia). split; [apply Z.mul_nonneg_nonneg; lia|lia]. }
  rewrite (u32_small (_ + _ + _)) by lia. rewrite u32_small by lia. split; lia.
Qed.

(** one pixel copied *)
Lemma alpha_read : forall i, 0 <= i < zlen cv -> exists a, blit_alpha (Type_ Dest) cv i = Ok a /\ geti a 0 = geti cv i.
Proof.
  intros i Hi. unfold blit_alpha. assert (HT : Type_ Dest = IL_UNSIGNED_BYTE \/ Type_ Dest = IL_BYTE) by (unfold case, bytes_t in Hty; cbn in Hty; lia).
  assert (E : rde cv 1 i = Ok (slice cv (i * 1) 1)) by (apply rde_ok; lia).
  exists (slice cv (i * 1) 1). split; [destruct HT as [ -> | -> ]; exact E|]. rewrite geti_slice by lia. f_equal. lia.
Qed.
Lemma pixel_copy : forall blend alpha z y x b, alpha && blend = false -> 0 <= z < d -> 0 <= y < h -> 0 <= x < w -> zlen b = zlen buf ->
  exists b', blit_pixel fblend blend alpha Dest cv
     (u32 (u32 (z + SZ) * u32 (u32 (Bpp Dest * Width Src) * Height Src) + u32 (y + SY) * u32 (Bpp Dest * Width Src) + u32 (x + SX) * Bpp Dest))
     (u32 (u32 (z + DZ) * SizeOfPlane Dest + u32 (y + DY) * Bps Dest + u32 (x + DX) * Bpp Dest)) b = Ok b' /\
    gstep (fun j g => exists c, 0 <= c < P /\ j = (z + DZ) * SizeOfPlane Dest + (y + DY) * Bps Dest + (x + DX) * P + c /\
       forall o, g o = geti cv (byte_off (Width Src) (Height Src) P (x + SX) (y + SY) (z + SZ) c)) b b'.
Proof.
  intros blend alpha z y x b Hab Hz Hy Hx Lb. destruct geo as (G1 & _).
  set (s := u32 (u32 (z + SZ) * _ + _ + _)). set (t := u32 (u32 (z + DZ) * _ + _ + _)).
  assert (C : exists b', loop 0 P (fun c d => let! v := rd cv (u32 (s + c)) in wr d (u32 (t + c)) v) b = Ok b' /\
    gstep (fun j g => exists c, 0 <= c < P /\ j = (z + DZ) * SizeOfPlane Dest + (y + DY) * Bps Dest + (x + DX) * P + c /\
       forall o, g o = geti cv (byte_off (Width Src) (Height Src) P (x + SX) (y + SY) (z + SZ) c)) b b').
  { destruct (gstep_loop (fun c j g => j = (z + DZ) * SizeOfPlane Dest + (y + DY) * Bps Dest + (x + DX) * P + c /\
       forall o, g o = geti cv (byte_off (Width Src) (Height Src) P (x + SX) (y + SY) (z + SZ) c)) (fun _ => True) (zlen buf)
       (fun c d => let! v := rd cv (u32 (s + c)) in wr d (u32 (t + c)) v) P b) as (b' & E & G & _); auto; try lia.
    - intros c b1 Hc Lb1 _. destruct (src_index z y x c Hz Hy Hx Hc) as (S1 & S2 & _). destruct (dst_index z y x c Hz Hy Hx Hc) as (T1 & T2).
      fold s in S1. fold t in T1. rewrite S1, T1. rewrite rd_ok by lia. cbn [bind].
      destruct (gstep_wr b1 ((z + DZ) * SizeOfPlane Dest + (y + DY) * Bps Dest + (x + DX) * P + c) (geti cv (byte_off (Width Src) (Height Src) P (x + SX) (y + SY) (z + SZ) c))) as (b2 & E2 & G2); [lia|].
      exists b2. auto.
    - intros c j g Hc (-> & _). apply (dst_index z y x c Hz Hy Hx Hc).
    - exists b'. split; [exact E|]. exact G. }
  unfold blit_pixel. fold P. destruct alpha; [|exact C].
  destruct (src_index z y x (P - 1) Hz Hy Hx ltac:(lia)) as (S1 & S2 & _). fold s in S1. rewrite S1.
  destruct (alpha_read _ S2) as (a & Ea & _). rewrite Ea. cbn [bind]. destruct blend; [discriminate|]. exact C.
Qed.

(** the whole box, from a description of one pixel *)
Lemma from_pixels : forall (F : Z -> Z -> Z -> Z -> Z -> Z) (I : list Z -> Prop) m blend alpha, 0 <= m <= P -> I buf ->
  (forall z y x b, 0 <= z < d -> 0 <= y < h -> 0 <= x < w -> zlen b = zlen buf -> I b -> exists b', blit_pixel fblend blend alpha Dest cv
     (u32 (u32 (z + SZ) * u32 (u32 (Bpp Dest * Width Src) * Height Src) + u32 (y + SY) * u32 (Bpp Dest * Width Src) + u32 (x + SX) * Bpp Dest))
     (u32 (u32 (z + DZ) * SizeOfPlane Dest + u32 (y + DY) * Bps Dest + u32 (x + DX) * Bpp Dest)) b = Ok b' /\
    gstep (fun j g => exists c, 0 <= c < m /\ j = (z + DZ) * SizeOfPlane Dest + (y + DY) * Bps Dest + (x + DX) * P + c /\ forall o, g o = F z y x c o) b b' /\ I b') ->
  exists b', blit_loops fblend blend alpha Dest Src cv DX DY DZ SX SY SZ W H D buf = Ok b' /\ zlen b' = zlen buf /\ I b' /\
    forall x y z k, in_image Dest x y z k -> geti b' (pix_off Dest x y z k) =
      if in_target DX DY DZ W H D x y z && (k <? m) then F (z - DZ) (y - DY) (x - DX) k (geti buf (pix_off Dest x y z k)) else geti buf (pix_off Dest x y z k).
Proof.
  intros F I m blend alpha Hm HI Hb. destruct geo as (G1 & G2 & G3 & G4 & G5 & G6 & G7 & G8 & G9 & G10 & G11 & G12 & G13).
  assert (Cx : clip_blit (Width Dest) DX W = w) by (apply (clip_min _ _ _ _ _ AX); lia). assert (Cy : clip_blit (Height Dest) DY H = h) by (apply (clip_min _ _ _ _ _ AY); lia).
  assert (Cz : clip_blit (Depth Dest) DZ D = d) by (apply (clip_min _ _ _ _ _ AZ); lia). unfold blit_loops. rewrite Cx, Cy, Cz.
  assert (X := AX). assert (Y := AY). assert (Z' := AZ). unfold axis_ok in X, Y, Z'.
  destruct (box_g F I (zlen buf) P (Bps Dest) (SizeOfPlane Dest) DX DY DZ (Width Dest) (Height Dest) w h d m (fun z y x => blit_pixel fblend blend alpha Dest cv
     (u32 (u32 (z + SZ) * u32 (u32 (Bpp Dest * Width Src) * Height Src) + u32 (y + SY) * u32 (Bpp Dest * Width Src) + u32 (x + SX) * Bpp Dest))
     (u32 (u32 (z + DZ) * SizeOfPlane Dest + u32 (y + DY) * Bps Dest + u32 (x + DX) * Bpp Dest))) buf) as (b' & E & I' & (L & A & N)); auto; unfold w, h, d; try lia.
  exists b'. split; [exact E|]. split; [exact L|]. split; [exact I'|]. intros x y z k (Ix & Iy & Iz & Ik). rewrite Hbpc, Z.mul_1_r in Ik. fold P in Ik.
  assert (PO : pix_off Dest x y z k = z * SizeOfPlane Dest + y * Bps Dest + x * P + k).
  { unfold pix_off. rewrite Hbpc. fold P. rewrite G3, G2. ring. }
  rewrite PO. assert (Nn : 0 <= z * SizeOfPlane Dest /\ 0 <= y * Bps Dest /\ 0 <= x * P) by (repeat split; apply Z.mul_nonneg_nonneg; lia).
  destruct (in_target DX DY DZ W H D x y z && (k <? m)) eqn:Q.
  - unfold in_target, in_range1 in Q. apply (A _ (F (z - DZ) (y - DY) (x - DX) k)). exists (z - DZ), (y - DY), (x - DX), k.
    split; [unfold d; lia|]. split; [unfold h; lia|]. split; [unfold w; lia|]. split; [lia|]. split; auto. rewrite !Z.sub_add. reflexivity.
  - apply N; [lia|]. intros g (z' & y' & x' & c & Hz & Hy & Hx & Hc & Ej & _).
    assert (Bx : forall a q, 0 <= a < Width Dest -> 0 <= q < P -> 0 <= a * P + q < Bps Dest).
    { intros a q Ha Hq. assert ((a + 1) * P <= Width Dest * P) by (apply Z.mul_le_mono_nonneg_r; lia). assert (0 <= a * P) by (apply Z.mul_nonneg_nonneg; lia). lia. }
    assert (By : forall a q, 0 <= a < Height Dest -> 0 <= q < Bps Dest -> 0 <= a * Bps Dest + q < SizeOfPlane Dest).
    { intros a q Ha Hq. assert ((a + 1) * Bps Dest <= Height Dest * Bps Dest) by (apply Z.mul_le_mono_nonneg_r; lia). assert (0 <= a * Bps Dest) by (apply Z.mul_nonneg_nonneg; lia). lia. }
    unfold w, h, d in *. assert (K1 := Bx x k Ix Ik). assert (K2 := Bx (x' + DX) c ltac:(lia) ltac:(lia)). assert (K3 := By y _ Iy K1). assert (K4 := By (y' + DY) _ ltac:(lia) K2).
    destruct (radix2 (SizeOfPlane Dest) z (y * Bps Dest + (x * P + k)) (z' + DZ) ((y' + DY) * Bps Dest + ((x' + DX) * P + c))) as (R1 & R2); [lia|lia|lia|].
    destruct (radix2 (Bps Dest) y (x * P + k) (y' + DY) ((x' + DX) * P + c)) as (R3 & R4); [lia|lia|lia|].
    destruct (radix2 P x k (x' + DX) c) as (R5 & R6); [lia|lia|lia|].
    unfold in_target, in_range1 in Q. lia.
Qed.

Lemma loops_copy : forall blend alpha, alpha && blend = false ->
  exists b', blit_loops fblend blend alpha Dest Src cv DX DY DZ SX SY SZ W H D buf = Ok b' /\ zlen b' = zlen buf /\
    forall x y z k, in_image Dest x y z k -> geti b' (pix_off Dest x y z k) =
      if in_target DX DY DZ W H D x y z then geti cv (byte_off (Width Src) (Height Src) P (x - DX + SX) (y - DY + SY) (z - DZ + SZ) k) else geti buf (pix_off Dest x y z k).
Proof.
  intros blend alpha Hab. destruct geo as (G1 & _).
  destruct (from_pixels (fun z y x c _ => geti cv (byte_off (Width Src) (Height Src) P (x + SX) (y + SY) (z + SZ) c)) (fun _ => True) P blend alpha) as (b' & E & L & _ & A); auto; try lia.
  - intros z y x b Hz Hy Hx Lb _. destruct (pixel_copy blend alpha z y x b Hab Hz Hy Hx Lb) as (b1 & E1 & S1). exists b1. auto.
  - exists b'. split; [exact E|]. split; [exact L|]. intros x y z k HI. rewrite (A x y z k HI). destruct HI as (_ & _ & _ & Ik). rewrite Hbpc, Z.mul_1_r in Ik. fold P in Ik.
    replace (k <? P) with true by lia. rewrite andb_true_r. reflexivity.
Qed.

(** one pixel blended *)
Definition mix (a s d : Z) : Z := match blend_byte a s d with Ok r => r | _ => 0 end.
Lemma mix_ok : forall a s d, 0 <= a <= 255 -> 0 <= s <= 255 -> 0 <= d <= 255 -> blend_byte a s d = Ok (mix a s d) /\ 0 <= mix a s d <= 255.
Proof. intros a s0 d0 Ha Hs Hd. destruct (blend_ok a s0 d0 Ha Hs Hd) as (r & E & R & _). unfold mix. rewrite E. auto. Qed.
Lemma pixel_blend : forall z y x b, bytes cv -> 0 <= z < d -> 0 <= y < h -> 0 <= x < w -> zlen b = zlen buf -> bytes b ->
  exists b', blit_pixel fblend true true Dest cv
     (u32 (u32 (z + SZ) * u32 (u32 (Bpp Dest * Width Src) * Height Src) + u32 (y + SY) * u32 (Bpp Dest * Width Src) + u32 (x + SX) * Bpp Dest))
     (u32 (u32 (z + DZ) * SizeOfPlane Dest + u32 (y + DY) * Bps Dest + u32 (x + DX) * Bpp Dest)) b = Ok b' /\
    gstep (fun j g => exists c, 0 <= c < P - 1 /\ j = (z + DZ) * SizeOfPlane Dest + (y + DY) * Bps Dest + (x + DX) * P + c /\
       forall o, g o = mix (geti cv (byte_off (Width Src) (Height Src) P (x + SX) (y + SY) (z + SZ) (P - 1))) (geti cv (byte_off (Width Src) (Height Src) P (x + SX) (y + SY) (z + SZ) c)) o) b b' /\ bytes b'.
Proof.
  intros z y x b HBc Hz Hy Hx Lb Hb. destruct geo as (G1 & _).
  set (s := u32 (u32 (z + SZ) * _ + _ + _)). set (t := u32 (u32 (z + DZ) * _ + _ + _)).
  destruct (src_index z y x (P - 1) Hz Hy Hx ltac:(lia)) as (A1 & A2 & _). fold s in A1.
  unfold blit_pixel. fold P. rewrite A1. destruct (alpha_read _ A2) as (a & Ea & Va). rewrite Ea. cbn [bind]. rewrite Va. set (al := geti cv (byte_off _ _ _ _ _ _ (P - 1))).
  assert (Hal : 0 <= al <= 255) by (assert (Q := HBc _ A2); unfold al; lia).
  destruct (gstep_loop (fun c j g => j = (z + DZ) * SizeOfPlane Dest + (y + DY) * Bps Dest + (x + DX) * P + c /\
       forall o, g o = mix al (geti cv (byte_off (Width Src) (Height Src) P (x + SX) (y + SY) (z + SZ) c)) o) bytes (zlen buf)
       (fun c d => let! v := rd cv (u32 (s + c)) in let! o := rd d (u32 (t + c)) in
          let! r := (if case (Type_ Dest) bytes_t then blend_byte al v o else fblend (Type_ Dest) a v o) in wr d (u32 (t + c)) r) (P - 1) b) as (b' & E & G & HI); auto; try lia.
  - intros c b1 Hc Lb1 Hb1. destruct (src_index z y x c Hz Hy Hx ltac:(lia)) as (S1 & S2 & _). destruct (dst_index z y x c Hz Hy Hx ltac:(lia)) as (T1 & T2).
    fold s in S1. fold t in T1. rewrite S1, T1. rewrite rd_ok by lia. cbn [bind]. rewrite rd_ok by lia. cbn [bind]. rewrite Hty.
    set (j := (z + DZ) * SizeOfPlane Dest + (y + DY) * Bps Dest + (x + DX) * P + c) in *.
    destruct (mix_ok al (geti cv (byte_off (Width Src) (Height Src) P (x + SX) (y + SY) (z + SZ) c)) (geti b1 j)) as (M1 & M2); auto.
    { assert (Q := HBc _ S2). lia. } { assert (Q := Hb1 j ltac:(lia)). lia. }
    rewrite M1. cbn [bind]. destruct (gstep_wr b1 j (mix al (geti cv (byte_off (Width Src) (Height Src) P (x + SX) (y + SY) (z + SZ) c)) (geti b1 j))) as (b2 & E2 & G2); [lia|].
    exists b2. split; [exact E2|]. split.
    + destruct G2 as (L2 & A & N). split; [exact L2|]. split.
      * intros j' g (-> & V). rewrite V. exact (A j (fun _ => mix al (geti cv (byte_off (Width Src) (Height Src) P (x + SX) (y + SY) (z + SZ) c)) (geti b1 j)) (conj eq_refl (fun _ => eq_refl))).
      * intros j' Hj' Hn. apply N; auto. intros g (-> & _). apply (Hn (mix al (geti cv (byte_off (Width Src) (Height Src) P (x + SX) (y + SY) (z + SZ) c)))). auto.
    + destruct G2 as (L2 & A & N). intros i Hi. destruct (Z.eq_dec i j) as [->|Ne].
      * rewrite (A j (fun _ => mix al (geti cv (byte_off (Width Src) (Height Src) P (x + SX) (y + SY) (z + SZ) c)) (geti b1 j)) (conj eq_refl (fun _ => eq_refl))). lia.
      * rewrite (N i); [apply Hb1; lia|lia|]. intros g (Ej & _). exact (Ne Ej).
  - intros c j g Hc (-> & _). apply (dst_index z y x c Hz Hy Hx ltac:(lia)).
  - exists b'. split; [exact E|]. split; [exact G|exact HI].
Qed.
Lemma loops_blend : bytes cv -> bytes buf ->
  exists b', blit_loops fblend true true Dest Src cv DX DY DZ SX SY SZ W H D buf = Ok b' /\ zlen b' = zlen buf /\
    forall x y z k, in_image Dest x y z k -> geti b' (pix_off Dest x y z k) =
      if in_target DX DY DZ W H D x y z && (k <? P - 1) then mix (geti cv (byte_off (Width Src) (Height Src) P (x - DX + SX) (y - DY + SY) (z - DZ + SZ) (P - 1)))
        (geti cv (byte_off (Width Src) (Height Src) P (x - DX + SX) (y - DY + SY) (z - DZ + SZ) k)) (geti buf (pix_off Dest x y z k)) else geti buf (pix_off Dest x y z k).
Proof.
  intros HBc HBb. destruct geo as (G1 & _).
  destruct (from_pixels (fun z y x c o => mix (geti cv (byte_off (Width Src) (Height Src) P (x + SX) (y + SY) (z + SZ) (P - 1))) (geti cv (byte_off (Width Src) (Height Src) P (x + SX) (y + SY) (z + SZ) c)) o) bytes (P - 1) true true) as (b' & E & L & _ & A); auto; try lia.
  - intros z y x b Hz Hy Hx Lb Hb. exact (pixel_blend z y x b HBc Hz Hy Hx Lb Hb).
  - exists b'. split; [exact E|]. split; [exact L|]. intros x y z k HI. rewrite (A x y z k HI). reflexivity.
Qed.
End L.

(** ** The whole call *)
(** The bytes of an image with the top row first *)
Definition top_first (im : img) (buf top : list Z) : Prop :=
  zlen top = SizeOfData im /\ forall x t z k, in_image im x t z k -> geti top (pix_off im x t z k) = picture im buf x t z k.
Definition valid_origin (im : img) : Prop := Origin im = IL_ORIGIN_LOWER_LEFT \/ Origin im = IL_ORIGIN_UPPER_LEFT.

Lemma pixel_at : forall im buf i, img_ok im buf -> 0 <= i < SizeOfData im -> exists x y z k, in_image im x y z k /\ i = pix_off im x y z k.
Proof.
  intros im buf i (E1 & E2 & E3 & E4 & E5 & E6 & E7 & E8 & E9 & E10 & E11) Hi. set (P := Bpp im * Bpc im) in *.
  assert (HP : 0 < P) by (apply Z.mul_pos_pos; lia).
  destruct (decompose (Depth im) (Height im) (Bps im) i) as (z & y & q & Hz & Hy & Hq & ->); [rewrite E7; apply Z.mul_nonneg_nonneg; lia|lia|rewrite E9, E8 in Hi; lia|].
  exists (q / P), y, z, (q mod P). rewrite E7 in *. split.
  - assert (0 <= q / P) by (apply Z.div_pos; lia). assert (q / P < Width im) by (apply Z.div_lt_upper_bound; lia). assert (0 <= q mod P < P) by (apply Z.mod_pos_bound; lia).
    unfold in_image. fold P. repeat split; lia.
  - unfold pix_off. fold P. assert (D := Z.div_mod q P ltac:(lia)). rewrite (Z.mul_comm (q / P)). lia.
Qed.
Lemma pixel_bound : forall im buf x y z k, img_ok im buf -> in_image im x y z k -> 0 <= pix_off im x y z k < SizeOfData im.
Proof.
  intros im buf x y z k (E1 & E2 & E3 & E4 & E5 & E6 & E7 & E8 & E9 & E10 & E11) (I1 & I2 & I3 & I4). unfold pix_off. set (P := Bpp im * Bpc im) in *.
  rewrite E9, E8, E7. set (B := Width im * P). assert (B1 : 0 <= x * P + k < B).
  { assert ((x + 1) * P <= Width im * P) by (apply Z.mul_le_mono_nonneg_r; lia). assert (0 <= x * P) by (apply Z.mul_nonneg_nonneg; lia). unfold B. lia. }
  assert (B2 : 0 <= y * B + (x * P + k) < Height im * B).
  { assert ((y + 1) * B <= Height im * B) by (apply Z.mul_le_mono_nonneg_r; lia). assert (0 <= y * B) by (apply Z.mul_nonneg_nonneg; lia). lia. }
  set (S := Height im * B) in *. assert ((z + 1) * S <= Depth im * S) by (apply Z.mul_le_mono_nonneg_r; lia). assert (0 <= z * S) by (apply Z.mul_nonneg_nonneg; lia).
  replace (B * Height im * Depth im) with (Depth im * S) by (unfold S; ring). lia.
Qed.
Lemma top_unique : forall im buf a b, img_ok im buf -> top_first im buf a -> top_first im buf b -> a = b.
Proof.
  intros im buf a b Hok (La & A) (Lb & B). apply list_ext; [lia|]. intros i Hi. destruct (pixel_at im buf i Hok ltac:(lia)) as (x & y & z & k & HI & ->).
  rewrite (A _ _ _ _ HI), (B _ _ _ _ HI). reflexivity.
Qed.
Lemma flip_in : forall im x t z k, in_image im x t z k -> in_image im x (Height im - 1 - t) z k.
Proof. intros im x t z k (A & B & C & D). repeat split; lia. Qed.
Lemma top_bytes : forall im buf top, img_ok im buf -> top_first im buf top -> bytes buf -> bytes top.
Proof.
  intros im buf top Hok (L & A) HB i Hi. assert (LB : zlen buf = SizeOfData im) by apply Hok.
  destruct (pixel_at im buf i Hok ltac:(lia)) as (x & y & z & k & HI & ->).
  rewrite (A _ _ _ _ HI). unfold picture. apply HB. rewrite LB. apply (pixel_bound _ buf); auto. destruct (_ =? _); auto. apply flip_in; auto.
Qed.

Section Whole.
Variables (fcast : Z -> Z -> list Z -> list Z) (flum : bool -> bool -> Z -> list Z -> list Z -> list Z -> list Z)
  (pal : list Z -> res (option (list Z) * list Z)) (alloc : allocator) (scr1 scr2 : scratch)
  (fblend : Z -> list Z -> Z -> Z -> res Z).

Lemma src_top : forall Src sbuf, allocator_ok alloc -> img_ok Src sbuf -> valid_origin Src -> alloc (SizeOfData Src) <> None -> scratch_available scr1 ->
  exists top, top_first Src sbuf top /\
    (if Origin Src =? IL_ORIGIN_LOWER_LEFT then iGetFlipped alloc Src else Ok (Some match Data Src with Some b => b | None => [] end)) = Ok (Some top).
Proof.
  intros Src sbuf AO Hs Vs HA SA. destruct Vs as [V|V]; rewrite V.
  - destruct (C14_get_flipped_agrees_partial scr1 alloc Src sbuf Hs SA AO HA) as (im' & b' & F & DD & G).
    destruct (C14_flip_reverses_rows_partial scr1 Src sbuf Hs SA) as (im2 & b2 & F2 & O2 & I2 & R). rewrite F in F2. injection F2 as <-.
    assert (b2 = b') as -> by (destruct O2 as (D2 & _); congruence).
    exists b'. split; [|exact G]. split.
    + destruct O2 as (_ & _ & _ & _ & _ & _ & _ & _ & _ & _ & Z2). rewrite I2 in Z2. exact Z2.
    + intros x t z k HI. rewrite (R _ _ _ _ HI). unfold picture. rewrite V. reflexivity.
  - destruct Hs as (D1 & Hs). rewrite D1. exists sbuf. split; [|reflexivity]. split; [apply Hs|]. intros x t z k _. unfold picture. rewrite V. reflexivity.
Qed.

Lemma frame : forall blend Dest Src dbuf sbuf DX DY DZ SX SY SZ W H D, allocator_ok alloc -> scratch_available scr1 -> scratch_available scr2 ->
  img_ok Dest dbuf -> img_ok Src sbuf -> valid_origin Dest -> valid_origin Src -> alloc (SizeOfData Src) <> None ->
  exists top dtop o, let Dt := with_Origin (with_Data Dest (Some dtop)) o in
    top_first Src sbuf top /\ top_first Dest dbuf dtop /\ img_ok Dt dtop /\
    forall cv e b', ilConvertBuffer fcast flum pal alloc (SizeOfData Src) (Format Src) (Format Dest) (Type_ Src) (Type_ Dest) top = Ok (Some cv, e) ->
      blit_loops fblend blend (case (Format Src) [IL_RGBA; IL_BGRA; IL_LUMINANCE_ALPHA]) Dt Src cv DX DY DZ SX SY SZ W H D dtop = Ok b' -> zlen b' = zlen dtop ->
      exists Dest' fb, ilBlit fcast flum pal alloc scr1 scr2 fblend blend Dest Src DX DY DZ SX SY SZ W H D = Ok (true, Dest', true) /\
        Dest' = with_Data Dest (Some fb) /\ img_ok Dest' fb /\ forall x t z k, in_image Dest x t z k -> picture Dest' fb x t z k = geti b' (pix_off Dest x t z k).
Proof.
  intros blend Dest Src dbuf sbuf DX DY DZ SX SY SZ W H D AO S1 S2 Hd Hs Vd Vs HA.
  destruct (src_top Src sbuf AO Hs Vs HA S1) as (top & T & ET). assert (D1 := Hd). destruct D1 as (D1 & _). destruct Vd as [V|V].
  - destruct (C14_flip_reverses_rows_partial scr1 Dest dbuf Hd S1) as (im1 & dtop & F1 & O1 & I1 & R1).
    exists top, dtop, (Origin im1). cbv zeta. split; [exact T|].
    split. { split; [destruct O1 as (_ & _ & _ & _ & _ & _ & _ & _ & _ & _ & Z2); rewrite I1 in Z2; exact Z2|]. intros x t z k HI. rewrite (R1 _ _ _ _ HI). unfold picture. rewrite V. reflexivity. }
    split; [rewrite <- I1; exact O1|]. intros cv e b' EC EL Lb'.
    assert (O2 : img_ok (with_Data im1 (Some b')) b') by (destruct O1 as (A0 & A); split; [reflexivity|]; cbn [with_Data Width Height Depth Bpp Bpc Bps SizeOfPlane SizeOfData]; rewrite Lb'; exact A).
    destruct (C14_flip_reverses_rows_partial scr2 _ b' O2 S2) as (im3 & fb & F3 & O3 & I3 & R3).
    assert (EO : Origin im1 = IL_ORIGIN_UPPER_LEFT).
    { unfold ilFlipImage in F1. rewrite V, D1 in F1. cbn [Z.eqb IL_ORIGIN_LOWER_LEFT Pos.eqb] in F1. destruct (iFlipBuffer _ _ _ _ _); cbn in F1; try discriminate. injection F1 as <-. reflexivity. }
    assert (EO3 : Origin im3 = IL_ORIGIN_LOWER_LEFT).
    { unfold ilFlipImage in F3. cbn [with_Data Data Origin] in F3. rewrite EO in F3. destruct (iFlipBuffer _ _ _ _ _); cbn in F3; try discriminate. injection F3 as <-. reflexivity. }
    assert (E3 : im3 = with_Data Dest (Some fb)). { rewrite I3, EO3, I1. destruct Dest; cbn in *. rewrite V. reflexivity. }
    exists im3, fb. split; [|split; [exact E3|split; [exact O3|]]].
    + unfold ilBlit. rewrite V, Z.eqb_refl, F1. cbn [bind]. rewrite ET. cbn [bind].
      assert (Format im1 = Format Dest) as -> by (rewrite I1; reflexivity). assert (Type_ im1 = Type_ Dest) as -> by (rewrite I1; reflexivity). rewrite EC. cbn [bind].
      assert (Data im1 = Some dtop) as -> by apply O1. rewrite I1, EL. cbn [bind]. rewrite <- I1, F3. reflexivity.
    + intros x t z k HI. unfold picture. rewrite EO3. change (IL_ORIGIN_LOWER_LEFT =? IL_ORIGIN_UPPER_LEFT) with false. cbv iota.
      assert (G : forall y, pix_off im3 x y z k = pix_off (with_Data im1 (Some b')) x y z k) by (intro y; rewrite E3, I1; reflexivity).
      assert (Height im3 = Height Dest) as -> by (rewrite E3; reflexivity). rewrite G.
      assert (J : in_image (with_Data im1 (Some b')) x (Height Dest - 1 - t) z k) by (rewrite I1; exact (flip_in Dest x t z k HI)).
      rewrite (R3 _ _ _ _ J). assert (Height (with_Data im1 (Some b')) = Height Dest) as -> by (rewrite I1; reflexivity).
      replace (Height Dest - 1 - (Height Dest - 1 - t)) with t by lia. rewrite I1. reflexivity.
  - exists top, dbuf, (Origin Dest). cbv zeta. assert (Edt : with_Origin (with_Data Dest (Some dbuf)) (Origin Dest) = Dest) by (destruct Dest; cbn in *; rewrite D1; reflexivity). rewrite Edt.
    split; [exact T|]. split; [split; [apply Hd|]; intros x t z k _; unfold picture; rewrite V; reflexivity|]. split; [exact Hd|].
    intros cv e b' EC EL Lb'. exists (with_Data Dest (Some b')), b'. split; [|split; [reflexivity|split]].
    + unfold ilBlit. rewrite V. change (IL_ORIGIN_UPPER_LEFT =? IL_ORIGIN_LOWER_LEFT) with false. cbv iota. cbn [bind]. rewrite ET. cbn [bind]. rewrite EC. cbn [bind]. rewrite D1, EL. reflexivity.
    + destruct Hd as (A0 & A). split; [reflexivity|]. cbn [with_Data Width Height Depth Bpp Bpc Bps SizeOfPlane SizeOfData]. rewrite Lb'. exact A.
    + intros x t z k HI. unfold picture. cbn [with_Data Origin]. rewrite V. reflexivity.
Qed.

(** C35 (without blending, or from a format without alpha; destinations with one byte per
    channel): for offsets and extents inside the images, the call succeeds, the destination is
    current again, and afterwards the pixel at column x and row t (from the top) of slice z is the
    converted source pixel at the corresponding place if it lies in the target rectangle, and
    unchanged otherwise; nothing but the pixels changes.  [cv] is the source picture, top row
    first, converted to the format and type of the destination. *)
Theorem C35_blit_partial : forall blend Dest Src dbuf sbuf DX DY DZ SX SY SZ W H D,
  allocator_ok alloc -> scratch_available scr1 -> scratch_available scr2 -> alloc (SizeOfData Src) <> None ->
  img_ok Dest dbuf -> img_ok Src sbuf -> valid_origin Dest -> valid_origin Src -> type_size (Type_ Dest) 1 -> Bpc Dest = 1 ->
  axis_ok (Width Dest) (Width Src) DX SX W -> axis_ok (Height Dest) (Height Src) DY SY H -> axis_ok (Depth Dest) (Depth Src) DZ SZ D ->
  (blend = true -> ~ In (Format Src) [IL_RGBA; IL_BGRA; IL_LUMINANCE_ALPHA]) ->
  exists top, top_first Src sbuf top /\
    forall cv e, ilConvertBuffer fcast flum pal alloc (SizeOfData Src) (Format Src) (Format Dest) (Type_ Src) (Type_ Dest) top = Ok (Some cv, e) ->
      zlen cv = Depth Src * (Width Src * Bpp Dest * Height Src) -> zlen cv < 2 ^ 32 ->
      exists Dest' fb, ilBlit fcast flum pal alloc scr1 scr2 fblend blend Dest Src DX DY DZ SX SY SZ W H D = Ok (true, Dest', true) /\
        Dest' = with_Data Dest (Some fb) /\ img_ok Dest' fb /\ forall x t z k, in_image Dest x t z k -> picture Dest' fb x t z k =
          if in_target DX DY DZ W H D x t z then geti cv (byte_off (Width Src) (Height Src) (Bpp Dest) (x - DX + SX) (t - DY + SY) (z - DZ + SZ) k)
          else picture Dest dbuf x t z k.
Proof.
  intros blend Dest Src dbuf sbuf DX DY DZ SX SY SZ W H D AO S1 S2 HA Hd Hs Vd Vs HT HB AX AY AZ Hbl.
  destruct (frame blend Dest Src dbuf sbuf DX DY DZ SX SY SZ W H D AO S1 S2 Hd Hs Vd Vs HA) as (top & dtop & o & T & DT & OT & K). exists top. split; [exact T|].
  intros cv e EC Lcv L32. set (Dt := with_Origin (with_Data Dest (Some dtop)) o) in *.
  destruct (loops_copy fblend Dt Src dtop cv DX DY DZ SX SY SZ W H D) with (blend := blend) (alpha := case (Format Src) [IL_RGBA; IL_BGRA; IL_LUMINANCE_ALPHA]) as (b' & E & L & A); auto; try apply Hs.
  - unfold case, bytes_t. inversion HT; cbn; unfold Dt; cbn; try reflexivity; lia.
  - destruct blend; [|apply andb_false_r]. rewrite andb_true_r. specialize (Hbl eq_refl). unfold case. apply not_true_is_false. intro Q. apply Hbl. cbn in *. lia.
  - destruct (K cv e b' EC E L) as (Dest' & fb & E1 & E2 & E3 & E4). exists Dest', fb. split; [exact E1|]. split; [exact E2|]. split; [exact E3|].
    intros x t z k HI. rewrite (E4 _ _ _ _ HI). change (pix_off Dest) with (pix_off Dt). rewrite (A x t z k HI).
    destruct (in_target DX DY DZ W H D x t z); [reflexivity|]. apply DT. exact HI.
Qed.

(** C55 (destination with alpha and one byte per channel, source with alpha): every colour byte
    of a pixel in the target rectangle becomes the mixture of the source and the old byte in the
    proportion given by the alpha of the source pixel, truncated (at most 1.001 below and 0.001
    above the exact mixture; exactly the source for alpha 255 and the old byte for alpha 0).  The
    alpha channel of the destination and all other pixels are unchanged. *)
Definition blended (a s o r : Z) : Prop :=
  0 <= r <= 255 /\ (a = 255 -> r = s) /\ (a = 0 -> r = o) /\
  let y := (inject_Z (s * a + o * (255 - a)) / 255)%Q in (y - (1001 # 1000) <= inject_Z r <= y + (1 # 1000))%Q.
Theorem C55_blend_partial : forall Dest Src dbuf sbuf DX DY DZ SX SY SZ W H D,
  allocator_ok alloc -> scratch_available scr1 -> scratch_available scr2 -> alloc (SizeOfData Src) <> None ->
  img_ok Dest dbuf -> img_ok Src sbuf -> valid_origin Dest -> valid_origin Src -> type_size (Type_ Dest) 1 -> Bpc Dest = 1 ->
  axis_ok (Width Dest) (Width Src) DX SX W -> axis_ok (Height Dest) (Height Src) DY SY H -> axis_ok (Depth Dest) (Depth Src) DZ SZ D ->
  bytes dbuf -> In (Format Src) [IL_RGBA; IL_BGRA; IL_LUMINANCE_ALPHA] -> alpha_chan (Format Dest) (Bpp Dest - 1) ->
  exists top, top_first Src sbuf top /\
    forall cv e, ilConvertBuffer fcast flum pal alloc (SizeOfData Src) (Format Src) (Format Dest) (Type_ Src) (Type_ Dest) top = Ok (Some cv, e) -> bytes cv ->
      zlen cv = Depth Src * (Width Src * Bpp Dest * Height Src) -> zlen cv < 2 ^ 32 ->
      exists Dest' fb, ilBlit fcast flum pal alloc scr1 scr2 fblend true Dest Src DX DY DZ SX SY SZ W H D = Ok (true, Dest', true) /\
        Dest' = with_Data Dest (Some fb) /\ img_ok Dest' fb /\ forall x t z k, in_image Dest x t z k ->
          let old := picture Dest dbuf x t z k in let new := picture Dest' fb x t z k in
          let src c := geti cv (byte_off (Width Src) (Height Src) (Bpp Dest) (x - DX + SX) (t - DY + SY) (z - DZ + SZ) c) in
          (in_target DX DY DZ W H D x t z = true -> k <> Bpp Dest - 1 -> blended (src (Bpp Dest - 1)) (src k) old new) /\
          (in_target DX DY DZ W H D x t z = false \/ k = Bpp Dest - 1 -> new = old).
Proof.
  intros Dest Src dbuf sbuf DX DY DZ SX SY SZ W H D AO S1 S2 HA Hd Hs Vd Vs HT HB AX AY AZ Bd HF HAl.
  destruct (frame true Dest Src dbuf sbuf DX DY DZ SX SY SZ W H D AO S1 S2 Hd Hs Vd Vs HA) as (top & dtop & o & T & DT & OT & K). exists top. split; [exact T|].
  intros cv e EC Bcv Lcv L32. set (Dt := with_Origin (with_Data Dest (Some dtop)) o) in *.
  assert (Bt : bytes dtop) by (apply (top_bytes Dest dbuf); auto).
  assert (HT' : case (Type_ Dest) bytes_t = true) by (unfold case, bytes_t; inversion HT; cbn; try reflexivity; lia).
  destruct (loops_blend fblend Dt Src dtop cv DX DY DZ SX SY SZ W H D) as (b' & E & L & A); auto; try apply Hs.
  assert (EA : case (Format Src) [IL_RGBA; IL_BGRA; IL_LUMINANCE_ALPHA] = true) by (destruct HF as [<-|[<-|[<-|[]]]]; reflexivity). rewrite EA in K.
  destruct (K cv e b' EC E L) as (Dest' & fb & E1 & E2 & E3 & E4). exists Dest', fb. split; [exact E1|]. split; [exact E2|]. split; [exact E3|].
  intros x t z k HI old new src. assert (EN : new = geti b' (pix_off Dest x t z k)) by (apply E4; exact HI).
  change (pix_off Dest) with (pix_off Dt) in EN. rewrite (A x t z k HI) in EN. assert (EO : geti dtop (pix_off Dt x t z k) = old) by (apply DT; exact HI).
  rewrite EO in EN. change (Bpp Dt) with (Bpp Dest) in EN. assert (HI' := HI). destruct HI' as (I1 & I2 & I3 & I4). rewrite HB, Z.mul_1_r in I4.
  split; [intros Q Hk|intros [Q|Q]].
  - rewrite Q in EN. replace (k <? Bpp Dest - 1) with true in EN by lia. cbn [andb] in EN.
    fold (src (Bpp Dest - 1)) in EN. fold (src k) in EN.
    assert (R : forall c, 0 <= c < Bpp Dest -> 0 <= src c <= 255).
    { intros c Hc. assert (Q' := Q). unfold in_target, in_range1 in Q'. assert (X := AX). assert (Y := AY). assert (Z' := AZ). unfold axis_ok in X, Y, Z'.
      destruct (src_index fblend Dt Src dtop cv DX DY DZ SX SY SZ W H D) with (z := z - DZ) (y := t - DY) (x := x - DX) (c := c) as (_ & J & _); auto; try apply Hs; try (change (Width Dt) with (Width Dest); lia); try (change (Height Dt) with (Height Dest); lia); try (change (Depth Dt) with (Depth Dest); lia).
      assert (B := Bcv _ J). change (Bpp Dt) with (Bpp Dest) in B. unfold src. lia. }
    assert (Bo : 0 <= old <= 255). { rewrite <- EO. assert (J := pixel_bound Dest dbuf x t z k Hd HI). change (pix_off Dt) with (pix_off Dest). assert (J2 : zlen dtop = SizeOfData Dest) by apply DT. assert (J3 := Bt (pix_off Dest x t z k) ltac:(lia)). lia. }
    destruct (blend_ok (src (Bpp Dest - 1)) (src k) old) as (r & Er & Br); [apply R; lia|apply R; lia|exact Bo|]. unfold mix in EN. rewrite Er in EN. rewrite EN. exact Br.
  - rewrite Q in EN. exact EN.
  - replace (k <? Bpp Dest - 1) with false in EN by lia. rewrite andb_false_r in EN. exact EN.
Qed.

(** C35 between images of the same 8-bit format: the target rectangle shows the source picture. *)
Theorem C35_same_format : forall blend Dest Src dbuf sbuf c blk DX DY DZ SX SY SZ W H D,
  allocator_ok alloc -> scratch_available scr1 -> scratch_available scr2 -> alloc (SizeOfData Src) = Some blk ->
  img_ok Dest dbuf -> img_ok Src sbuf -> valid_origin Dest -> valid_origin Src ->
  Format Src = Format Dest -> channels (Format Dest) c -> Bpp Src = c -> Bpp Dest = c -> Type_ Src = Type_ Dest -> type_size (Type_ Dest) 1 -> Bpc Dest = 1 -> Bpc Src = 1 ->
  12 * (Width Src * Height Src * Depth Src) < 2 ^ 32 ->
  axis_ok (Width Dest) (Width Src) DX SX W -> axis_ok (Height Dest) (Height Src) DY SY H -> axis_ok (Depth Dest) (Depth Src) DZ SZ D ->
  (blend = true -> ~ In (Format Src) [IL_RGBA; IL_BGRA; IL_LUMINANCE_ALPHA]) ->
  exists Dest' fb, ilBlit fcast flum pal alloc scr1 scr2 fblend blend Dest Src DX DY DZ SX SY SZ W H D = Ok (true, Dest', true) /\
    Dest' = with_Data Dest (Some fb) /\ img_ok Dest' fb /\ forall x t z k, in_image Dest x t z k -> picture Dest' fb x t z k =
      if in_target DX DY DZ W H D x t z then picture Src sbuf (x - DX + SX) (t - DY + SY) (z - DZ + SZ) k else picture Dest dbuf x t z k.
Proof.
  intros blend Dest Src dbuf sbuf c blk DX DY DZ SX SY SZ W H D AO S1 S2 HA Hd Hs Vd Vs HF HC Pc Pd HTy HT Bd Bs H12 AX AY AZ Hbl.
  destruct (C35_blit_partial blend Dest Src dbuf sbuf DX DY DZ SX SY SZ W H D) as (top & T & K); auto; [congruence|].
  assert (Hs' := Hs). destruct Hs' as (E1 & E2 & E3 & E4 & E5 & E6 & E7 & E8 & E9 & E10 & E11).
  set (N := Width Src * Height Src * Depth Src) in *.
  assert (SZ' : SizeOfData Src = N * c * 1) by (rewrite E9, E8, E7, Bs, Pc; unfold N; ring). assert (LT : zlen top = N * c * 1) by (rewrite <- SZ'; apply T).
  assert (HN : 0 < N) by (unfold N; repeat apply Z.mul_pos_pos; lia). change (2 ^ 32) with 4294967296 in *.
  destruct (K top []) as (Dest' & fb & B1 & B2 & B3 & B4).
  - rewrite HF, HTy, SZ'. apply (convert_same fcast flum pal alloc AO (Format Dest) (Type_ Dest) (Type_ Dest) 1 1 c N top top blk); auto; try lia; [inversion HC; lia| |rewrite <- SZ'; exact HA].
    apply switch_same with (n := 1). exact HT.
  - rewrite LT, Pd. unfold N. ring.
  - lia.
  - exists Dest', fb. split; [exact B1|]. split; [exact B2|]. split; [exact B3|]. intros x t z k HI. rewrite (B4 x t z k HI).
    destruct (in_target DX DY DZ W H D x t z) eqn:Q; [|reflexivity]. destruct T as (_ & T).
    rewrite <- T.
    + f_equal. unfold byte_off, pix_off. rewrite Pc, Pd, Bs. ring.
    + unfold in_target, in_range1 in Q. unfold axis_ok in *. destruct HI as (I1 & I2 & I3 & I4). unfold in_image. rewrite Pc, Bs. rewrite Pd, Bd in I4. repeat split; lia.
Qed.

(** ilOverlayImage places the whole source, cut at the borders of the destination. *)
Theorem C35_overlay : forall blend Dest Src dbuf sbuf c blk X Y Z_,
  allocator_ok alloc -> scratch_available scr1 -> scratch_available scr2 -> alloc (SizeOfData Src) = Some blk ->
  img_ok Dest dbuf -> img_ok Src sbuf -> valid_origin Dest -> valid_origin Src ->
  Format Src = Format Dest -> channels (Format Dest) c -> Bpp Src = c -> Bpp Dest = c -> Type_ Src = Type_ Dest -> type_size (Type_ Dest) 1 -> Bpc Dest = 1 -> Bpc Src = 1 ->
  12 * (Width Src * Height Src * Depth Src) < 2 ^ 32 ->
  0 <= X <= Width Dest -> 0 <= Y <= Height Dest -> 0 <= Z_ <= Depth Dest -> Width Src + X < 2 ^ 32 -> Height Src + Y < 2 ^ 32 -> Depth Src + Z_ < 2 ^ 32 ->
  (blend = true -> ~ In (Format Src) [IL_RGBA; IL_BGRA; IL_LUMINANCE_ALPHA]) ->
  exists Dest' fb, ilOverlayImage fcast flum pal alloc scr1 scr2 fblend blend Dest Src X Y Z_ = Ok (true, Dest', true) /\
    Dest' = with_Data Dest (Some fb) /\ img_ok Dest' fb /\ forall x t z k, in_image Dest x t z k -> picture Dest' fb x t z k =
      if in_target X Y Z_ (Width Src) (Height Src) (Depth Src) x t z then picture Src sbuf (x - X) (t - Y) (z - Z_) k else picture Dest dbuf x t z k.
Proof.
  intros blend Dest Src dbuf sbuf c blk X Y Z_ AO S1 S2 HA Hd Hs Vd Vs HF HC Pc Pd HTy HT Bd Bs H12 HX HY HZ WX WY WZ Hbl.
  assert (P : 1 <= Width Src /\ 1 <= Height Src /\ 1 <= Depth Src) by (repeat split; apply Hs).
  destruct (C35_same_format blend Dest Src dbuf sbuf c blk X Y Z_ 0 0 0 (Width Src) (Height Src) (Depth Src)) as (Dest' & fb & B1 & B2 & B3 & B4); auto; try (unfold axis_ok; lia).
  exists Dest', fb. split; [exact B1|]. split; [exact B2|]. split; [exact B3|]. intros x t z k HI. rewrite (B4 x t z k HI). rewrite !Z.add_0_r. reflexivity.
Qed.
End Whole.
Print Assumptions C35_blit_partial.
Print Assumptions C35_same_format.
Print Assumptions C35_overlay.
Print Assumptions C55_blend_partial.

(** ** Where the full statements fail *)
Definition pic (w h c f o : Z) (b : list Z) : img := mkImg w h 1 c 1 (w * c) (Some b) (w * c * h) (w * c * h) f IL_UNSIGNED_BYTE o (mkPal None 0 IL_PAL_NONE) 0 0 0 0.
Definition scr : scratch := fun _ _ => Some (repeat 0 (Z.to_nat 4096)).
Lemma scr_ok : scratch_available scr.
Proof. intros d y. eexists. split; [reflexivity|]. rewrite zlen_repeat. lia. Qed.
Definition no_blend (t : Z) (a : list Z) (s d : Z) : res Z := Ok 0.
Definition blit := ilBlit no_cast no_lum no_pal some_alloc scr scr no_blend.

(** A negative destination offset is not clipped: in the first row the write is out of bounds, *)
Theorem C35_negative_refuted :
  blit false (pic 2 1 1 IL_LUMINANCE IL_ORIGIN_UPPER_LEFT [1; 2]) (pic 2 1 1 IL_LUMINANCE IL_ORIGIN_UPPER_LEFT [8; 9]) (-1) 0 0 0 0 0 2 1 1 = UB.
Proof. vm_compute. reflexivity. Qed.
(** in later rows it lands at the end of the row above. *)
Theorem C35_wraps_refuted : exists Dest', blit false (pic 2 2 1 IL_LUMINANCE IL_ORIGIN_UPPER_LEFT [1; 2; 3; 4]) (pic 2 1 1 IL_LUMINANCE IL_ORIGIN_UPPER_LEFT [8; 9]) (-1) 1 0 0 0 0 2 1 1 = Ok (true, Dest', true) /\
  Data Dest' = Some [1; 8; 9; 4].
Proof. eexists. vm_compute. split; reflexivity. Qed.
(** The rectangle is not clipped at the source: pixels of the next row are used, *)
Theorem C35_source_refuted : exists Dest', blit false (pic 2 1 1 IL_LUMINANCE IL_ORIGIN_UPPER_LEFT [1; 2]) (pic 2 2 1 IL_LUMINANCE IL_ORIGIN_UPPER_LEFT [6; 7; 8; 9]) 0 0 0 1 0 0 2 1 1 = Ok (true, Dest', true) /\
  Data Dest' = Some [7; 8].
Proof. eexists. vm_compute. split; reflexivity. Qed.
(** or bytes beyond the end of the source. *)
Theorem C35_source_end_refuted : blit false (pic 2 1 1 IL_LUMINANCE IL_ORIGIN_UPPER_LEFT [1; 2]) (pic 2 1 1 IL_LUMINANCE IL_ORIGIN_UPPER_LEFT [8; 9]) 0 0 0 1 0 0 2 1 1 = UB.
Proof. vm_compute. reflexivity. Qed.
Lemma loop_first : forall (S : Type) hi (body : Z -> S -> res S) s, 0 < hi -> body 0 s = UB -> loop 0 hi body s = UB.
Proof. intros S hi body s H E. unfold loop. replace (Z.to_nat (hi - 0)) with (Datatypes.S (Z.to_nat (hi - 1))) by lia. cbn [for_]. rewrite E. reflexivity. Qed.
(** An offset beyond the right edge makes the clipped width wrap around, and the first write is
    out of bounds. *)
Theorem C35_beyond_refuted : clip_blit 2 3 1 = 4294967295 /\
  blit false (pic 2 1 1 IL_LUMINANCE IL_ORIGIN_UPPER_LEFT [1; 2]) (pic 1 1 1 IL_LUMINANCE IL_ORIGIN_UPPER_LEFT [8]) 3 0 0 0 0 0 1 1 1 = UB.
Proof.
  split; [reflexivity|]. unfold blit, ilBlit. cbn [pic Origin Data]. change (IL_ORIGIN_UPPER_LEFT =? IL_ORIGIN_LOWER_LEFT) with false. cbv iota. cbn [bind].
  match goal with |- context [ilConvertBuffer ?a ?b ?c ?d ?e ?f ?g ?h ?i ?j] => assert (E : ilConvertBuffer a b c d e f g h i j = Ok (Some [8], [])) by (vm_compute; reflexivity); rewrite E end. cbn [bind].
  unfold blit_loops. cbn [pic Width Height Depth Bpp Bps SizeOfPlane]. change (clip_blit 1 0 1) with 1. change (clip_blit 2 3 1) with 4294967295.
  match goal with |- bind ?m _ = UB => assert (U : m = UB) end; [|rewrite U; reflexivity].
  apply loop_first; [lia|]. apply loop_first; [lia|]. apply loop_first; [lia|]. vm_compute. reflexivity.
Qed.
(** Channels wider than a byte: only part of the pixels are copied. *)
Theorem C35_wide_refuted : exists Dest',
  let im b := mkImg 2 1 1 1 2 4 (Some b) 4 4 IL_LUMINANCE IL_UNSIGNED_SHORT IL_ORIGIN_UPPER_LEFT (mkPal None 0 IL_PAL_NONE) 0 0 0 0 in
  blit false (im [1; 0; 2; 0]) (im [8; 0; 9; 0]) 0 0 0 0 0 0 2 1 1 = Ok (true, Dest', true) /\ Data Dest' = Some [8; 0; 2; 0].
Proof. eexists. vm_compute. split; reflexivity. Qed.
(** When the conversion of the source fails, the source stays bound and the destination stays
    flipped. *)
Theorem C35_failure_refuted : exists Dest',
  ilBlit no_cast no_lum no_pal (fun _ => None) scr scr no_blend false (pic 1 2 1 IL_LUMINANCE IL_ORIGIN_LOWER_LEFT [1; 2]) (pic 1 1 3 IL_RGB IL_ORIGIN_UPPER_LEFT [7; 8; 9]) 0 0 0 0 0 0 1 1 1 = Ok (false, Dest', false) /\
  Origin Dest' = IL_ORIGIN_UPPER_LEFT /\ Data Dest' = Some [2; 1].
Proof. eexists. vm_compute. repeat split; reflexivity. Qed.
(** Blending onto a format without alpha takes the last colour for the alpha: an opaque source
    pixel without blue leaves no trace. *)
Theorem C55_rgb_refuted : exists Dest',
  blit true (pic 1 1 3 IL_RGB IL_ORIGIN_UPPER_LEFT [1; 2; 3]) (pic 1 1 4 IL_RGBA IL_ORIGIN_UPPER_LEFT [200; 100; 0; 255]) 0 0 0 0 0 0 1 1 1 = Ok (true, Dest', true) /\
  Data Dest' = Some [1; 2; 3].
Proof. eexists. vm_compute. split; reflexivity. Qed.

(** ** Concrete cases *)
Definition ex_dest := pic 3 2 1 IL_LUMINANCE IL_ORIGIN_LOWER_LEFT [1; 2; 3; 4; 5; 6].
Definition ex_src := pic 2 2 1 IL_LUMINANCE IL_ORIGIN_UPPER_LEFT [10; 20; 30; 40].
Lemma pic_ok : forall w h c f o b, 1 <= w -> 1 <= h -> 1 <= c < 256 -> zlen b = w * c * h -> w * c * h < 2 ^ 32 -> img_ok (pic w h c f o b) b.
Proof. intros w h c f o b Hw Hh Hc Hl H32. repeat split; cbn; auto; lia. Qed.
Example C35_ex_run : exists Dest', blit false ex_dest ex_src 2 0 0 0 0 0 2 2 1 = Ok (true, Dest', true) /\ Data Dest' = Some [1; 2; 30; 4; 5; 10].
Proof. eexists. vm_compute. split; reflexivity. Qed.
Example C35_ex : exists Dest' fb, blit false ex_dest ex_src 2 0 0 0 0 0 2 2 1 = Ok (true, Dest', true) /\
    Dest' = with_Data ex_dest (Some fb) /\ img_ok Dest' fb /\ forall x t z k, in_image ex_dest x t z k -> picture Dest' fb x t z k =
      if in_target 2 0 0 2 2 1 x t z then picture ex_src [10; 20; 30; 40] (x - 2 + 0) (t - 0 + 0) (z - 0 + 0) k else picture ex_dest [1; 2; 3; 4; 5; 6] x t z k.
Proof.
  apply (C35_same_format _ _ _ some_alloc scr scr no_blend) with (c := 1) (blk := repeat 170 4); try reflexivity; try (apply some_alloc_ok); try (apply scr_ok); try (apply pic_ok; cbn; lia);
    try (left; reflexivity); try (right; reflexivity); try constructor; try (unfold axis_ok; cbn; lia); try (cbn; lia); discriminate.
Qed.
Lemma ex_bytes : bytes [1; 2; 3; 4].
Proof. apply bytes_Forall. repeat constructor; lia. Qed.
Example C55_ex : exists top, top_first (pic 1 1 4 IL_RGBA IL_ORIGIN_UPPER_LEFT [200; 100; 0; 255]) [200; 100; 0; 255] top /\
    forall cv e, ilConvertBuffer no_cast no_lum no_pal some_alloc 4 IL_RGBA IL_RGBA IL_UNSIGNED_BYTE IL_UNSIGNED_BYTE top = Ok (Some cv, e) -> bytes cv -> zlen cv = 1 * (1 * 4 * 1) -> zlen cv < 2 ^ 32 ->
      exists Dest' fb, blit true (pic 1 1 4 IL_RGBA IL_ORIGIN_UPPER_LEFT [1; 2; 3; 4]) (pic 1 1 4 IL_RGBA IL_ORIGIN_UPPER_LEFT [200; 100; 0; 255]) 0 0 0 0 0 0 1 1 1 = Ok (true, Dest', true) /\
      picture Dest' fb 0 0 0 3 = 4.
Proof.
  destruct (C55_blend_partial no_cast no_lum no_pal some_alloc scr scr no_blend (pic 1 1 4 IL_RGBA IL_ORIGIN_UPPER_LEFT [1; 2; 3; 4]) (pic 1 1 4 IL_RGBA IL_ORIGIN_UPPER_LEFT [200; 100; 0; 255]) [1; 2; 3; 4] [200; 100; 0; 255] 0 0 0 0 0 0 1 1 1) as (top & T & K);
    try reflexivity; try (apply some_alloc_ok); try (apply scr_ok); try (apply pic_ok; cbn; lia); try (apply ex_bytes); try (right; reflexivity); try constructor; try (unfold axis_ok; cbn; lia); try (cbn; lia); try (cbn; tauto); try discriminate.
  - exists top. split; [exact T|]. intros cv e E Bc L L32. destruct (K cv e E Bc L L32) as (Dest' & fb & E1 & E2 & E3 & E4). exists Dest', fb. split; [exact E1|].
    assert (HI : in_image (pic 1 1 4 IL_RGBA IL_ORIGIN_UPPER_LEFT [1; 2; 3; 4]) 0 0 0 3) by (repeat split; cbn; lia). destruct (E4 0 0 0 3 HI) as (_ & N). rewrite N by (right; reflexivity). reflexivity.
Qed.
Example C55_ex_run : exists Dest', blit true (pic 1 1 4 IL_RGBA IL_ORIGIN_UPPER_LEFT [1; 2; 3; 4]) (pic 1 1 4 IL_RGBA IL_ORIGIN_UPPER_LEFT [200; 100; 0; 128]) 0 0 0 0 0 0 1 1 1 = Ok (true, Dest', true) /\
  Data Dest' = Some [100; 51; 1; 4].
Proof. eexists. vm_compute. split; reflexivity. Qed.
