(** Theorems C89: decoding compressed texture data. *)
From Coq Require Import ZArith List Lia Bool.
From Verif Require Import Base Enums Utility Image ImageSpec Slices Elem BitLemmas IluMosaic ConvImg ConvImgProps DxtSpec Dxt DxtProofs DxtDecode.
Import ListNotations.
Open Scope Z_scope.

(** ** Specification *)

(** the three formats that ilDxtcDataToSurface accepts and the size of their blocks *)
Definition dxt_format (fmt bs : Z) : Prop := fmt = IL_DXT1 /\ bs = 8 \/ fmt = IL_DXT3 /\ bs = 16 \/ fmt = IL_DXT5 /\ bs = 16.

(** a channel of a pixel of a block as DevIL decodes it: as the format says ([dxt1], [dxt3], [dxt5]) but
    for the end colours [e1] and [e35], where the green, and in DXT1 the blue, are not exact *)
Definition texel (fmt : Z) (B : list Z) (k ch : Z) : Z :=
  if fmt =? IL_DXT1 then dxt1 e1 B k ch else if fmt =? IL_DXT3 then dxt3 e35 B k ch else dxt5 e35 B k ch.

(** exact end colours *)
Definition exact : Z -> Z -> Z := end_colour (fun w => wide6 (green6 w)) (fun w => wide5 (blue5 w)).
Definition texel_exact (fmt : Z) (B : list Z) (k ch : Z) : Z :=
  if fmt =? IL_DXT1 then dxt1 exact B k ch else if fmt =? IL_DXT3 then dxt3 exact B k ch else dxt5 exact B k ch.

(** an image that carries compressed data [c] for a picture of w x h x d pixels *)
Definition carries (s : surf) (fmt bs w h d : Z) (c : list Z) : Prop :=
  dxt_format fmt bs /\ 0 < w /\ 0 < h /\ 0 < d /\ 4 * w * h * d < 2 ^ 32 /\
  Width (simg s) = w /\ Height (simg s) = h /\ Depth (simg s) = d /\ DxtcFormat s = fmt /\ DxtcData s = Some c /\
  bytes c /\ zlen c = quads w * quads h * d * bs /\
  (forall buf, Data (simg s) = Some buf -> zlen buf = SizeOfData (simg s)).

(** an RGBA picture with the pixels given by [px], top row first *)
Definition shows (im : img) (w h d : Z) (px : Z -> Z -> Z -> Z -> Z) : Prop :=
  exists buf, img_ok im buf /\ Width im = w /\ Height im = h /\ Depth im = d /\ Format im = IL_RGBA /\ Type_ im = IL_UNSIGNED_BYTE /\
  Origin im = IL_ORIGIN_UPPER_LEFT /\
  forall x t z ch, 0 <= x < w -> 0 <= t < h -> 0 <= z < d -> 0 <= ch < 4 -> picture im buf x t z ch = px x t z ch.

(** the pixels of the compressed data [c] *)
Definition texels (fmt bs w h : Z) (c : list Z) (x t z ch : Z) : Z := texel fmt (blk bs c (block_of w h x t z)) (in_block x t) ch.

(** ** Decoding *)
Lemma p32 : 2 ^ 32 = 4294967296. Proof. reflexivity. Qed.
Lemma quads_pos : forall n, 0 < n -> 0 < quads n.
Proof. unfold quads. intros. lia. Qed.

Theorem C89_decode_partial : forall alloc s fmt bs w h d c, allocator_ok alloc -> plenty alloc -> carries s fmt bs w h d c ->
  exists s', ilDxtcDataToSurface alloc s = Ok (true, s', []) /\ DxtcData s' = Some c /\ DxtcFormat s' = fmt /\ shows (simg s') w h d (texels fmt bs w h c).
Proof.
  intros alloc s fmt bs w h d c Ha Hp (Hf & Hw & Hh & Hd & HN & EW & EH & ED & EF & EC & Hc & Hl & HB). rewrite p32 in HN.
  assert (S4 : 0 < w * 4 < 4294967296 /\ 0 < h * (w * 4) < 4294967296 /\ 0 < h * (w * 4) * d < 4294967296) by (clear - Hw Hh Hd HN; nia).
  unfold ilDxtcDataToSurface. rewrite EC, EF.
  replace (negb ((fmt =? IL_DXT1) || (fmt =? IL_DXT3) || (fmt =? IL_DXT5))) with false.
  2:{ destruct Hf as [(-> & _) | [(-> & _) | (-> & _)]]; reflexivity. }
  cbv zeta. rewrite EW, EH, ED. replace (w * 4 * 1) with (w * 4) by ring. rewrite (u32_small (w * 4)) by lia. rewrite (u32_small (h * (w * 4))) by lia. rewrite (u32_small (h * (w * 4) * d)) by lia.
  assert (B : exists b, match (if SizeOfData (simg s) =? h * (w * 4) * d then Data (simg s) else None) with Some d0 => Some d0 | None => alloc (h * (w * 4) * d) end = Some b /\ zlen b = 4 * w * h * d).
  { assert (A : exists b, alloc (h * (w * 4) * d) = Some b /\ zlen b = 4 * w * h * d).
    { destruct (alloc (h * (w * 4) * d)) as [b|] eqn:E; [|exfalso; apply (Hp (h * (w * 4) * d)); [lia|exact E]]. exists b. split; auto. rewrite (Ha _ _ E). ring. }
    destruct (SizeOfData (simg s) =? h * (w * 4) * d) eqn:Q; [|exact A]. destruct (Data (simg s)) as [b|] eqn:E; [|exact A].
    exists b. split; auto. rewrite (HB b eq_refl). apply Z.eqb_eq in Q. rewrite Q. ring. }
  destruct B as (b & -> & Hb).
  match goal with |- context [DecompressDXT1 ?i c b] => set (im := i) end.
  assert (G : exists d', (if fmt =? IL_DXT1 then DecompressDXT1 im c b else if fmt =? IL_DXT3 then DecompressDXT3 im c b else DecompressDXT5 im c b) = Ok d' /\
                         Good w h d (texels fmt bs w h c) (fun _ _ _ _ => True) d').
  { assert (I1 : Bps im = 4 * w) by (change (w * 4 = 4 * w); ring). assert (I2 : SizeOfPlane im = 4 * w * h) by (change (h * (w * 4) = 4 * w * h); ring).
    destruct Hf as [(-> & ->) | [(-> & ->) | (-> & ->)]]; cbn [Z.eqb Pos.eqb IL_DXT1 IL_DXT3 IL_DXT5].
    - apply (blocks_ok im w h d _ Hw Hh Hd HN eq_refl eq_refl eq_refl 8); auto. apply dxt1_ok; auto; lia.
    - apply (blocks_ok im w h d _ Hw Hh Hd HN eq_refl eq_refl eq_refl 16); auto. apply dxt3_ok; auto; lia.
    - apply (blocks_ok im w h d _ Hw Hh Hd HN eq_refl eq_refl eq_refl 16); auto. apply dxt5_ok; auto; lia. }
  destruct G as (d' & -> & L & A). cbn [bind]. eexists. split; [reflexivity|]. cbn [DxtcData DxtcFormat simg]. split; [reflexivity|]. split; [reflexivity|].
  exists d'. split; [|repeat split]; unfold img_ok; cbn; try lia; auto.
  - repeat split; try lia; auto.
  - intros x t z ch Hx Ht Hz Hch. unfold picture, pix_off. cbn. rewrite <- (A x t z ch ltac:(unfold inside; lia) I). f_equal. unfold pos. ring.
Qed.
Print Assumptions C89_decode_partial.

(** ** Setting compressed data *)
Theorem C89_set : forall alloc fmt bs w h d src, allocator_ok alloc -> plenty alloc -> dxt_format fmt bs -> 0 < w -> 0 < h -> 0 < d ->
  w + 3 < 2 ^ 31 -> h + 3 < 2 ^ 31 -> 4 * w * h * d < 2 ^ 32 -> quads w * quads h * d * bs < 2 ^ 31 -> bytes src -> quads w * quads h * d * bs <= zlen src ->
  exists s, ilTexImageDxtc alloc w h d fmt (Some src) = Ok (true, s) /\ carries s fmt bs w h d (slice src 0 (quads w * quads h * d * bs)) /\ DxtcSize s = quads w * quads h * d * bs.
Proof.
  intros alloc fmt bs w h d src Ha Hp Hf Hw Hh Hd Hw3 Hh3 HN HS Hs Hl. change (2 ^ 31) with 2147483648 in *.
  pose proof (quads_pos w Hw) as Qw. pose proof (quads_pos h Hh) as Qh. unfold ilTexImageDxtc.
  rewrite !Z.quot_div_nonneg by lia. fold (quads w) (quads h). set (n := quads w * quads h * d * bs) in *.
  assert (Hbs : (if fmt =? IL_DXT1 then 8 else 16) = bs) by (destruct Hf as [(-> & ->) | [(-> & ->) | (-> & ->)]]; reflexivity). rewrite Hbs. cbv zeta.
  assert (Hbp : 8 <= bs) by (destruct Hf as [(-> & ->) | [(-> & ->) | (-> & ->)]]; lia).
  assert (En : quads h * (quads w * bs) * d = n) by (unfold n; ring). rewrite En.
  assert (N0 : 0 < n) by (unfold n; repeat apply Z.mul_pos_pos; lia).
  assert (M2 : quads h * (quads w * bs) <= n) by (rewrite <- En; rewrite <- (Z.mul_1_r (quads h * (quads w * bs))) at 1; apply Z.mul_le_mono_nonneg_l; [apply Z.mul_nonneg_nonneg; [|apply Z.mul_nonneg_nonneg]|]; lia).
  assert (M1 : quads w * bs <= quads h * (quads w * bs)) by (rewrite <- (Z.mul_1_l (quads w * bs)) at 1; apply Z.mul_le_mono_nonneg_r; [apply Z.mul_nonneg_nonneg|]; lia).
  replace ((2147483647 <? w + 3) || (2147483647 <? h + 3) || (2147483647 <? quads w * bs) || (2147483647 <? quads h * (quads w * bs)) || (2147483647 <? n) || (n <? 0)) with false by lia.
  destruct (alloc n) as [b|] eqn:E; [|exfalso; apply (Hp n); [lia|exact E]]. pose proof (Ha _ _ E) as Lb.
  rewrite memcpy_ok by lia. cbn [bind]. eexists. split; [reflexivity|]. split; [|reflexivity].
  assert (Sp : splice b 0 (slice src 0 n) = slice src 0 n) by (apply splice_full; rewrite zlen_slice; lia). rewrite Sp.
  unfold carries. cbn [simg Width Height Depth Data SizeOfData DxtcFormat DxtcData]. rewrite !u32_small by lia.
  repeat split; auto; try lia; try discriminate; try (apply bytes_slice; auto); rewrite zlen_slice by lia; reflexivity.
Qed.
Print Assumptions C89_set.

(** ** How far the colours are from the exact ones *)
Definition off_by (fmt ch : Z) : Z := if ch =? 1 then 4 else if (ch =? 2) && (fmt =? IL_DXT1) then 7 else 0.

Lemma green_near : forall g, 0 <= g < 64 -> Z.abs (Z.lor (4 * g) (g / 8) - wide6 g) <= 4.
Proof.
  intros g Hg. pose proof (enum64 (fun g => Z.abs (Z.lor (4 * g) (g / 8) - wide6 g) <=? 4) ltac:(vm_compute; reflexivity) g Hg) as E. cbn beta in E. lia.
Qed.
Lemma ends_near : forall w ch, 0 <= w < 65536 -> 0 <= ch < 3 -> Z.abs (e1 w ch - exact w ch) <= off_by IL_DXT1 ch /\ Z.abs (e35 w ch - exact w ch) <= off_by IL_DXT3 ch.
Proof.
  intros w ch Hw Hch. unfold e1, e35, exact, end_colour, green_lib, blue1_lib, off_by.
  pose proof (green_near (green6 w) ltac:(unfold green6; lia)) as G.
  assert (ch = 0 \/ ch = 1 \/ ch = 2) as [-> | [-> | -> ]] by lia; cbn [Z.eqb Pos.eqb andb IL_DXT1 IL_DXT3]; [lia | lia|]. unfold wide5, red5, blue5. lia.
Qed.
Lemma mix_near : forall (e f : Z -> Z -> Z) w0 w1 code ch m, 0 <= m -> 0 <= code < 4 -> Z.abs (e w0 ch - f w0 ch) <= m -> Z.abs (e w1 ch - f w1 ch) <= m ->
  Z.abs (four_colours e w0 w1 code ch - four_colours f w0 w1 code ch) <= m /\ Z.abs (three_colours e w0 w1 code ch - three_colours f w0 w1 code ch) <= m.
Proof.
  intros e f w0 w1 code ch m Hm Hc H0 H1. unfold four_colours, three_colours.
  set (a := e w0 ch) in *. set (b := e w1 ch) in *. set (a' := f w0 ch) in *. set (b' := f w1 ch) in *. clearbody a b a' b'.
  destruct (code =? 0); [lia|]. destruct (code =? 1); [lia|]. destruct (code =? 2); lia.
Qed.

Theorem C89_near : forall fmt bs B k ch, dxt_format fmt bs -> bytes B -> zlen B = bs -> 0 <= k < 16 -> 0 <= ch < 4 ->
  Z.abs (texel fmt B k ch - texel_exact fmt B k ch) <= off_by fmt ch.
Proof.
  intros fmt bs B k ch Hf HB HL Hk Hch.
  assert (N2 : forall p, 0 <= p -> p + 2 <= bs -> 0 <= number (slice B p 2) < 65536) by (intros p ? ?; apply (number_in B p 2 HB); lia).
  assert (F2 : forall p, 0 <= field (number (slice B p 4)) 2 k < 4) by (intros p; unfold field; change (2 ^ 2) with 4; apply Z.mod_pos_bound; lia).
  destruct (Z.eq_dec ch 3) as [-> | ].
  { destruct Hf as [(-> & ->) | [(-> & ->) | (-> & ->)]]; unfold texel, texel_exact, dxt1, dxt3, dxt5; cbn [Z.eqb Pos.eqb IL_DXT1 IL_DXT3 IL_DXT5]; rewrite Z.sub_diag; cbn; lia. }
  assert (Hc3 : 0 <= ch < 3) by lia. assert (O0 : 0 <= off_by fmt ch) by (unfold off_by; destruct (ch =? 1); [lia|]; destruct ((ch =? 2) && (fmt =? IL_DXT1)); lia).
  destruct Hf as [(-> & ->) | [(-> & ->) | (-> & ->)]]; unfold texel, texel_exact, dxt1, dxt3, dxt5; cbn [Z.eqb Pos.eqb IL_DXT1 IL_DXT3 IL_DXT5]; replace (ch =? 3) with false by lia.
  - pose proof (N2 0 ltac:(lia) ltac:(lia)) as R0. pose proof (N2 2 ltac:(lia) ltac:(lia)) as R1.
    destruct (mix_near e1 exact _ _ _ ch _ O0 (F2 4) (proj1 (ends_near _ ch R0 Hc3)) (proj1 (ends_near _ ch R1 Hc3))) as (X & Y).
    destruct (number (slice B 2 2) <? number (slice B 0 2)); [exact X | exact Y].
  - pose proof (N2 8 ltac:(lia) ltac:(lia)) as R0. pose proof (N2 10 ltac:(lia) ltac:(lia)) as R1.
    exact (proj1 (mix_near e35 exact _ _ _ ch _ O0 (F2 12) (proj2 (ends_near _ ch R0 Hc3)) (proj2 (ends_near _ ch R1 Hc3)))).
  - pose proof (N2 8 ltac:(lia) ltac:(lia)) as R0. pose proof (N2 10 ltac:(lia) ltac:(lia)) as R1.
    exact (proj1 (mix_near e35 exact _ _ _ ch (off_by IL_DXT3 ch) O0 (F2 12) (proj2 (ends_near _ ch R0 Hc3)) (proj2 (ends_near _ ch R1 Hc3)))).
Qed.
Print Assumptions C89_near.

(** ** What does not hold *)

(** the images of one pixel used below *)
Definition one_pixel (fmt : Z) (c : list Z) : surf := mkSurf (mkImg 1 1 1 0 0 0 None 0 0 0 0 IL_ORIGIN_LOWER_LEFT (mkPal None 0 IL_PAL_NONE) 0 0 0 0) (Some c) fmt (zlen c).
Lemma one_pixel_carries : forall fmt bs c, dxt_format fmt bs -> bytes c -> zlen c = bs -> carries (one_pixel fmt c) fmt bs 1 1 1 c.
Proof. intros fmt bs c Hf Hb Hl. unfold carries, one_pixel. cbn [simg Width Height Depth Data DxtcFormat DxtcData]. change (quads 1) with 1. rewrite Hl. repeat match goal with |- _ /\ _ => split end; auto; try lia; discriminate. Qed.
Lemma bytes_of : forall l, forallb (fun b => (0 <=? b) && (b <? 256)) l = true -> bytes l.
Proof. intros l H. rewrite bytes_Forall, Forall_forall. intros x Hx. rewrite forallb_forall in H. specialize (H x Hx). lia. Qed.

(** decoding what the format says would be the full property.  A pure red in DXT1 (0xF800) comes out with
    blue 7. *)
Theorem C89_exact_refuted : ~ (forall alloc s fmt bs w h d c, allocator_ok alloc -> plenty alloc -> carries s fmt bs w h d c ->
  exists s', ilDxtcDataToSurface alloc s = Ok (true, s', []) /\ shows (simg s') w h d (fun x t z ch => texel_exact fmt (blk bs c (block_of w h x t z)) (in_block x t) ch)).
Proof.
  intros H. destruct ex_alloc_ok as (A & P). set (c := [0; 248; 0; 0; 0; 0; 0; 0]).
  assert (K : carries (one_pixel IL_DXT1 c) IL_DXT1 8 1 1 1 c) by (apply one_pixel_carries; [left; auto | apply bytes_of; reflexivity | reflexivity]).
  destruct (H _ _ _ _ _ _ _ _ A P K) as (s' & E & (buf & _ & _ & _ & _ & _ & _ & _ & X)).
  destruct (C89_decode_partial _ _ _ _ _ _ _ _ A P K) as (s2 & E2 & _ & _ & (buf2 & Ok2 & _ & _ & _ & _ & _ & _ & X2)). rewrite E in E2. injection E2 as <-.
  assert (F : exists buf, Data (simg s') = Some buf /\ picture (simg s') buf 0 0 0 2 = texel_exact IL_DXT1 c 0 2 /\ picture (simg s') buf 0 0 0 2 = texel IL_DXT1 c 0 2).
  { destruct (H _ _ _ _ _ _ _ _ A P K) as (s3 & E3 & (b3 & O3 & _ & _ & _ & _ & _ & _ & X3)). rewrite E in E3. injection E3 as <-.
    assert (b3 = buf2) by (destruct O3 as (O3 & _); destruct Ok2 as (O2 & _); congruence). subst b3.
    exists buf2. split; [apply Ok2|]. rewrite (X3 0 0 0 2) at 1 by lia. rewrite (X2 0 0 0 2) by lia. split; reflexivity. }
  destruct F as (b & _ & F1 & F2). rewrite F1 in F2. vm_compute in F2. discriminate F2.
Qed.
Print Assumptions C89_exact_refuted.

(** nor are two different greens kept apart: 32 and 33 of 63 decode to the same colour, in every format *)
Theorem C89_green_refuted : ~ (forall fmt bs B B' k, dxt_format fmt bs -> bytes B -> bytes B' -> zlen B = bs -> zlen B' = bs -> 0 <= k < 16 ->
  texel_exact fmt B k 1 <> texel_exact fmt B' k 1 -> texel fmt B k 1 <> texel fmt B' k 1).
Proof.
  intros H. set (B := [0; 0; 0; 0; 0; 0; 0; 0; 0; 4; 0; 0; 0; 0; 0; 0]). set (B' := [0; 0; 0; 0; 0; 0; 0; 0; 32; 4; 0; 0; 0; 0; 0; 0]).
  apply (H IL_DXT3 16 B B' 0); try reflexivity; try (apply bytes_of; reflexivity); [right; left; auto | lia |]. vm_compute. discriminate.
Qed.
Print Assumptions C89_green_refuted.

(** without memory for the pixels the decoder writes through a null pointer *)
Theorem C89_memory_refuted : ~ (forall alloc s fmt bs w h d c, allocator_ok alloc -> carries s fmt bs w h d c -> ilDxtcDataToSurface alloc s <> UB).
Proof.
  intros H. set (c := [0; 248; 0; 0; 0; 0; 0; 0]).
  apply (H (fun _ => None) (one_pixel IL_DXT1 c) IL_DXT1 8 1 1 1 c); [intros n l E; discriminate | apply one_pixel_carries; [left; auto | apply bytes_of; reflexivity | reflexivity] | reflexivity].
Qed.
Print Assumptions C89_memory_refuted.

(** ** An example: a DXT5 picture of 5 x 2 pixels (two blocks) that meets the hypotheses *)
Definition ex_dxt5 : list Z := [200; 100; 5; 0; 0; 0; 0; 0; 31; 0; 0; 248; 228; 0; 0; 0] ++ [10; 20; 7; 0; 0; 0; 0; 0; 0; 248; 31; 0; 2; 0; 0; 0].
Lemma C89_ex : exists s s', ilTexImageDxtc ex_alloc 5 2 1 IL_DXT5 (Some ex_dxt5) = Ok (true, s) /\ carries s IL_DXT5 16 5 2 1 ex_dxt5 /\
  ilDxtcDataToSurface ex_alloc s = Ok (true, s', []) /\
  shows (simg s') 5 2 1 (texels IL_DXT5 16 5 2 ex_dxt5) /\
  map (texels IL_DXT5 16 5 2 ex_dxt5 0 0 0) [0; 1; 2; 3] = [0; 0; 255; 143] /\
  map (texels IL_DXT5 16 5 2 ex_dxt5 1 0 0) [0; 1; 2; 3] = [255; 0; 0; 200] /\
  map (texels IL_DXT5 16 5 2 ex_dxt5 4 0 0) [0; 1; 2; 3] = [170; 0; 85; 255].
Proof.
  destruct ex_alloc_ok as (A & P).
  destruct (C89_set ex_alloc IL_DXT5 16 5 2 1 ex_dxt5 A P (or_intror (or_intror (conj eq_refl eq_refl))) ltac:(lia) ltac:(lia) ltac:(lia) ltac:(lia) ltac:(lia) ltac:(lia) ltac:(vm_compute; reflexivity) (bytes_of ex_dxt5 eq_refl) ltac:(vm_compute; discriminate)) as (s & E & K & _).
  assert (S : slice ex_dxt5 0 (quads 5 * quads 2 * 1 * 16) = ex_dxt5) by reflexivity. rewrite S in K.
  destruct (C89_decode_partial _ _ _ _ _ _ _ _ A P K) as (s' & E' & _ & _ & X). exists s, s'.
  split; [exact E|]. split; [exact K|]. split; [exact E'|]. split; [exact X|]. split; [vm_compute; reflexivity|]. split; vm_compute; reflexivity.
Qed.
