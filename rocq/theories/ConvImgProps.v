(** C83: palette images become colour images; C84: luminance and alpha of palette images; C85: all images of
    a chain are converted. *)
From Coq Require Import ZArith QArith List Lia Bool.
From Verif Require Import Base Slices Scatter Enums Utility Image ImageSpec ImageProps Elem Lump LumpProps Endian EndianProps Channels ChannelsSpec ChannelsProofs ChannelsProps ChannelsProps2 ChannelsProps3
  ConvBuff ConvSpec ConvProofs ConvProps ConvInt ConvLum Pal PalSpec PalProps IluScale IluRotate ConvImg.
Import ListNotations.
Open Scope Z_scope.

(** there is always memory *)
Definition plenty (alloc : allocator) : Prop := forall k, 0 <= k -> alloc k <> None.

(** component [k] of a colour *)
Definition part (k : comp) (c : rgba) : Z := match k with R => red c | G => green c | B => blue c | A => alpha c | L => 0 end.

(** an image of [n] colours [d] with the pixels [buf] *)
Definition pal_image (im : img) (buf : list Z) (n : Z) (d : list Z) : Prop :=
  img_ok im buf /\ Format im = IL_COLOUR_INDEX /\ Bpp im = 1 /\ Bpc im = 1 /\ palette_of (Pal im) n d /\ 0 < n /\ 3 * n < 2 ^ 24 /\
  (forall i, 0 <= i < zlen buf -> 0 <= geti buf i < n) /\ 4 * zlen buf < 2 ^ 32.
(** [im'] has the size and orientation of [im] *)
Definition same_frame (im im' : img) : Prop :=
  Width im' = Width im /\ Height im' = Height im /\ Depth im' = Depth im /\ Origin im' = Origin im /\ Duration im' = Duration im /\
  OffX im' = OffX im /\ OffY im' = OffY im.

(** ** The palette *)
Definition full (t : Z) : Z := if t =? IL_PAL_RGB32 then IL_PAL_RGBA32 else if t =? IL_PAL_BGR32 then IL_PAL_BGRA32 else t.
Lemma full_size : forall t, colour_size (full t) = colour_size t.
Proof. intros t. unfold full. destruct (t =? IL_PAL_RGB32) eqn:E; [replace t with IL_PAL_RGB32 by lia; reflexivity|]. destruct (t =? IL_PAL_BGR32) eqn:E2; [replace t with IL_PAL_BGR32 by lia; reflexivity|]. reflexivity. Qed.
Lemma plan_full : forall s t z, pal_plan s (full t) z = pal_plan s t z.
Proof. intros s t z. unfold full. destruct (t =? IL_PAL_RGB32) eqn:E; [replace t with IL_PAL_RGB32 by lia; reflexivity|]. destruct (t =? IL_PAL_BGR32) eqn:E2; [replace t with IL_PAL_BGR32 by lia; reflexivity|]. reflexivity. Qed.
Lemma full_type : forall t, pal_type t -> pal_type (full t).
Proof. intros t H. unfold pal_type in *. cbn [In] in *. destruct H as [<-|[<-|[<-|[<-|[<-|[<-|[]]]]]]]; vm_compute; auto 10. Qed.

Lemma convert_full : forall alloc p t, iConvertPal alloc p t = (let! (r, e) := iConvertPal alloc p (full t) in
  Ok (match r with Some q => Some (mkPal (Palette q) (PalSize q) t) | None => None end, e)).
Proof.
  intros alloc p t. unfold iConvertPal. rewrite plan_full. destruct (Palette p) as [old|]; [|reflexivity]. destruct ((PalSize p =? 0) || (PalType p =? IL_PAL_NONE)); [reflexivity|].
  destruct (alloc 16); [|reflexivity]. destruct (pal_plan _ _ _) as [[[[sz s] u] cells]|]; [|reflexivity]. destruct (alloc sz) as [new|]; [|reflexivity].
  match goal with |- bind ?m _ = _ => destruct m; reflexivity end.
Qed.

Lemma cur_pal : forall alloc im t n d, allocator_ok alloc -> plenty alloc -> palette_of (Pal im) n d -> pal_type t -> 0 < n -> 3 * n < 2 ^ 24 ->
  exists dq, ilConvertPal alloc im t = Ok (true, with_Pal im (mkPal (Some dq) (n * colour_size t) t), []) /\ zlen dq = n * colour_size t /\
    forall i, 0 <= i < n -> colour (full t) dq i = held (full t) (colour (PalType (Pal im)) d i).
Proof.
  intros alloc im t n d HA HP Hpal Ht Hn Hb.
  destruct (convert_core alloc (Pal im) (full t) n d HA Hpal (full_type t Ht) Hn Hb) as (r & e & E & HR & HQ).
  assert (C2 := cs_cases t). destruct r as [q|]; [|exfalso; apply HR; auto; apply HP; rewrite ?full_size; lia]. destruct (HQ q eq_refl) as (dq & (HTq & HPq & HSq & HLq) & Tq & HC & _). clear HR HQ.
  assert (e = []) as ->.
  { revert E. unfold iConvertPal. destruct (Palette (Pal im)); [|discriminate]. destruct ((PalSize (Pal im) =? 0) || (PalType (Pal im) =? IL_PAL_NONE)); [discriminate|]. destruct (alloc 16); [|discriminate].
    destruct (pal_plan _ _ _) as [[[[sz s] u] cs]|]; [|discriminate]. destruct (alloc sz); [|discriminate]. match goal with |- bind ?m _ = _ -> _ => destruct m; cbn [bind]; [congruence|discriminate|discriminate] end. }
  assert (Hpal' := Hpal). destruct Hpal' as (HT & HPd & HS & HL). rewrite Tq, full_size in HLq.
  assert (C1 := cs_cases (PalType (Pal im))).
  exists dq. split; [|split; [exact HLq|]].
  - unfold ilConvertPal. rewrite HPd. assert (TN : (PalType (Pal im) =? IL_PAL_NONE) = false).
    { unfold pal_type in HT. cbn [In] in HT. destruct HT as [<-|[<-|[<-|[<-|[<-|[<-|[]]]]]]]; reflexivity. }
    rewrite TN. replace (PalSize (Pal im) =? 0) with false by nia. cbn [orb]. rewrite convert_full, E. cbn [bind PalSize Palette PalType].
    rewrite HPq, HSq, HLq. destruct (alloc (n * colour_size t)) as [new|] eqn:EA; [|exfalso; eapply HP; [|exact EA]; lia]. assert (LN := HA _ _ EA).
    rewrite memcpy_ok by nia. cbn [bind]. replace (splice new 0 (slice dq 0 (n * colour_size t))) with dq; [reflexivity|].
    rewrite <- HLq. rewrite slice_all. symmetry. apply splice_full. lia.
  - intros i Hi. rewrite <- Tq. apply HC. exact Hi.
Qed.

(** ** The pixels *)
Definition put_px (buf q : list Z) (Size bpp i c : Z) (d : option (list Z)) : res (option (list Z)) :=
  let! x := rdo (Some buf) i in let! v := rdo (Some q) (x * Size + c) in wro d (u32 (i * bpp + c)) v.
Lemma spread : forall buf q Size bpp N blk, 0 <= N -> 0 < bpp -> zlen buf = N -> zlen blk = N * bpp -> N * bpp < 4294967296 ->
  (forall i c, 0 <= i < N -> 0 <= c < bpp -> 0 <= geti buf i * Size + c < zlen q) ->
  exists d, loop 0 N (fun i => loop 0 bpp (put_px buf q Size bpp i)) (Some blk) = Ok (Some d) /\ zlen d = N * bpp /\
    forall i c, 0 <= i < N -> 0 <= c < bpp -> geti d (i * bpp + c) = geti q (geti buf i * Size + c).
Proof.
  intros buf q Size bpp N blk HN Hb Lb Lk Hw HI.
  destruct (loop_rule _ (fun p s => exists d, s = Some d /\ zlen d = N * bpp /\ forall i c, 0 <= i < p -> 0 <= c < bpp -> geti d (i * bpp + c) = geti q (geti buf i * Size + c))
     0 N (fun i => loop 0 bpp (put_px buf q Size bpp i)) (Some blk) HN) as (s & -> & d & -> & L & G).
  - exists blk. repeat split; auto. intros; lia.
  - intros p s Hp (d & -> & L & G).
    assert (P1 : (p + 1) * bpp <= N * bpp) by (apply Z.mul_le_mono_nonneg_r; lia). assert (P0 : 0 <= p * bpp) by (apply Z.mul_nonneg_nonneg; lia).
    destruct (loop_rule _ (fun o s => exists d, s = Some d /\ zlen d = N * bpp /\ (forall i c, 0 <= i < p -> 0 <= c < bpp -> geti d (i * bpp + c) = geti q (geti buf i * Size + c)) /\
        forall c, 0 <= c < o -> geti d (p * bpp + c) = geti q (geti buf p * Size + c)) 0 bpp (put_px buf q Size bpp p) (Some d)) as (s & -> & d' & -> & L' & G1 & G2); try lia.
    + exists d. repeat split; auto. intros; lia.
    + intros o s Ho (d1 & -> & L1 & A1 & A2). unfold put_px, rdo, wro. rewrite rd_ok by lia. cbn [bind]. rewrite rd_ok by auto. cbn [bind].
      rewrite u32_small by lia. rewrite wr_ok by lia. cbn [bind]. eexists. split; [reflexivity|]. eexists. split; [reflexivity|]. rewrite zlen_upd by lia. split; [exact L1|]. split.
      * intros i c Hi Hc. assert ((i + 1) * bpp <= p * bpp) by (apply Z.mul_le_mono_nonneg_r; lia). assert (0 <= i * bpp) by (apply Z.mul_nonneg_nonneg; lia). rewrite geti_upd by lia. replace (i * bpp + c =? p * bpp + o) with false by lia. auto.
      * intros c Hc. rewrite geti_upd by lia. destruct (p * bpp + c =? p * bpp + o) eqn:E; [replace c with o by lia; reflexivity|]. apply A2. lia.
    + eexists. split; [reflexivity|]. exists d'. split; [reflexivity|]. split; [exact L'|]. intros i c Hi Hc. destruct (Z.eq_dec i p) as [->|]; [apply G2; lia|apply G1; lia].
  - eauto.
Qed.

Definition pal_for (Dst : Z) : Z := if Dst =? IL_RGB then IL_PAL_RGB24 else if Dst =? IL_BGR then IL_PAL_BGR24 else if Dst =? IL_RGBA then IL_PAL_RGB32 else IL_PAL_BGR32.
Lemma pal_for_ok : forall Dst, colour_format Dst -> pal_type (pal_for Dst) /\ colour_size (pal_for Dst) = ilGetBppFormat Dst /\ ilGetBppPal (pal_for Dst) = ilGetBppFormat Dst /\
  3 <= ilGetBppFormat Dst <= 4 /\
  forall q v T d x k j, 0 <= v -> comp_at Dst k j -> colour (full (pal_for Dst)) q v = held (full (pal_for Dst)) (colour T d x) -> 0 <= j < ilGetBppFormat Dst /\ geti q (v * ilGetBppFormat Dst + j) = part k (colour T d x).
Proof.
  intros Dst H. assert (P3 : forall v, v * 3 + 0 = v * 3) by (intros; lia). assert (P4 : forall v, v * 4 + 0 = v * 4) by (intros; lia).
  inversion H; (split; [vm_compute; auto 10|]); (split; [reflexivity|]); (split; [reflexivity|]); (split; [split; vm_compute; discriminate|]);
  intros q v T d x k j Hv C E; (split; [inversion C; subst; split; vm_compute; congruence|]);
  destruct (colour T d x) as [r g b a]; unfold colour, held, colour_size, with_alpha, blue_first in E; vm_compute full in E;
  cbn [Z.eqb Pos.eqb orb andb IL_PAL_RGB24 IL_PAL_BGR24 IL_PAL_RGB32 IL_PAL_RGBA32 IL_PAL_BGR32 IL_PAL_BGRA32 red green blue alpha] in E; 
  injection E; intros; inversion C; subst; cbn [part red green blue alpha]; first [change (ilGetBppFormat _) with 3|change (ilGetBppFormat _) with 4]; rewrite ?P3, ?P4; congruence.
Qed.

(** the converted copy *)
Definition colour_copy (im : img) (Dst : Z) (nb : list Z) : img :=
  let b := ilGetBppFormat Dst in
  mkImg (Width im) (Height im) (Depth im) b 1 (b * Width im) (Some nb) (b * Width im * Height im * Depth im) (b * Width im * Height im) Dst (Type_ im) (Origin im)
    (mkPal None 0 IL_PAL_NONE) (Duration im) (CubeFlags im) (OffX im) (OffY im).

Lemma copy_pal : forall alloc dest im n d, allocator_ok alloc -> plenty alloc -> palette_of (Pal im) n d ->
  copy_attr alloc dest im = Ok (with_Data im (Data dest), []).
Proof.
  intros alloc dest im n d HA HP (HT & Hd & HS & HL). unfold copy_attr. rewrite Hd, HS. destruct (alloc (zlen d)) as [b|] eqn:E; [|exfalso; eapply HP; [|exact E]; auto].
  rewrite memcpy_ok by (auto; try lia; rewrite ?(HA _ _ E); auto with zarith; lia). cbn [bind]. rewrite slice_all, splice_full by (rewrite (HA _ _ E); reflexivity).
  unfold with_Data. rewrite <- Hd, <- HS. destruct im as [? ? ? ? ? ? ? ? ? ? ? ? [? ? ?] ? ? ? ?]. reflexivity.
Qed.

Lemma px_count : forall im buf, img_ok im buf -> Bpp im = 1 -> Bpc im = 1 -> zlen buf = Width im * Height im * Depth im /\ SizeOfData im = zlen buf /\ 0 < zlen buf.
Proof.
  intros im buf (HD & W & H & D & _ & _ & E1 & E2 & E3 & _ & E4) HB HC. rewrite HB, HC in E1. rewrite E4, E3, E2, E1. replace (Width im * (1 * 1)) with (Width im) by ring.
  assert (0 < Width im * Height im) by (apply Z.mul_pos_pos; lia). assert (0 < Width im * Height im * Depth im) by (apply Z.mul_pos_pos; lia). auto.
Qed.

Lemma palette_colours : forall alloc cur im buf n d Dst, allocator_ok alloc -> plenty alloc -> pal_image im buf n d -> colour_format Dst ->
  exists nb, iConvertPalette alloc cur im Dst = Ok (Some (colour_copy im Dst nb), [], false) /\ zlen nb = zlen buf * ilGetBppFormat Dst /\
    forall i k j, 0 <= i < zlen buf -> comp_at Dst k j -> 0 <= j < ilGetBppFormat Dst /\ geti nb (i * ilGetBppFormat Dst + j) = part k (colour (PalType (Pal im)) d (geti buf i)).
Proof.
  intros alloc cur im buf n d Dst HA HP (Hok & HF & HB & HC & Hpal & Hn & Hb & HI & Hw) HD.
  destruct (px_count im buf Hok HB HC) as (PC & SD & P0).
  destruct (pal_for_ok Dst HD) as (PT & PS & PB & P34 & PG).
  assert (Hpal' := Hpal). destruct Hpal' as (HT & HPd & HS & HL). assert (C1 := cs_cases (PalType (Pal im))).
  destruct Hok as (HDt & W & H & D & _ & _ & E1 & E2 & E3 & _ & E4).
  unfold iConvertPalette. rewrite (copy_pal alloc zero_img im n d) by auto. cbn [bind]. rewrite HPd.
  assert (TN : (PalType (Pal im) =? IL_PAL_NONE) = false). { unfold pal_type in HT. cbn [In] in HT. destruct HT as [<-|[<-|[<-|[<-|[<-|[<-|[]]]]]]]; reflexivity. }
  rewrite TN, HB. replace (PalSize (Pal im) =? 0) with false by nia. cbn [orb negb Z.eqb Pos.eqb].
  replace ((Dst =? IL_LUMINANCE) || (Dst =? IL_LUMINANCE_ALPHA)) with false by (inversion HD; reflexivity). replace (Dst =? IL_ALPHA) with false by (inversion HD; reflexivity).
  replace (ilGetBppFormat Dst =? 0) with false by lia. replace (Dst =? IL_COLOUR_INDEX) with false by (inversion HD; reflexivity). cbv zeta. fold (pal_for Dst).
  set (im1 := with_Format (with_Data im (Data zero_img)) Dst).
  destruct (cur_pal alloc im1 (pal_for Dst) n d HA HP Hpal PT Hn Hb) as (dq & -> & Lq & GC). cbn [bind]. unfold ilResizeImage. cbn [Width Height Depth with_Pal with_Format with_Data im1 Format Type_ Origin Pal Duration CubeFlags OffX OffY].
  set (b := ilGetBppFormat Dst) in *. assert (BW : b * 1 * Width im * Height im * Depth im = zlen buf * b) by (rewrite PC; ring).
  assert (T1 : 0 < b * Width im) by (apply Z.mul_pos_pos; lia). assert (T2 : 0 < b * Width im * Height im) by (apply Z.mul_pos_pos; lia).
  assert (T3 : b * Width im * Height im <= b * Width im * Height im * Depth im) by (rewrite <- (Z.mul_1_r (b * Width im * Height im)) at 1; apply Z.mul_le_mono_nonneg_l; lia).
  assert (T4 : b * Width im <= b * Width im * Height im) by (rewrite <- (Z.mul_1_r (b * Width im)) at 1; apply Z.mul_le_mono_nonneg_l; lia).
  assert (T5 : zlen buf * b <= zlen buf * 4) by (apply Z.mul_le_mono_nonneg_l; lia). rewrite Z.mul_1_r in BW.
  replace (u32 (b * 1 * Width im)) with (b * Width im) by (rewrite Z.mul_1_r, u32_small by lia; reflexivity). 
  replace (u32 (b * Width im * Height im)) with (b * Width im * Height im) by (rewrite u32_small by lia; reflexivity).
  replace (u32 (b * Width im * Height im * Depth im)) with (b * Width im * Height im * Depth im) by (rewrite u32_small by lia; reflexivity).
  destruct (alloc (b * Width im * Height im * Depth im)) as [blk|] eqn:EA; [|exfalso; eapply HP; [|exact EA]; lia]. apply HA in EA. cbn [negb Data Pal Bpp PalType Palette].
  rewrite HDt, PB. fold b. rewrite SD.
  destruct (spread buf dq b b (zlen buf) blk) as (nb & EL & LN & GN); try lia.
  { intros i c Hi Hc. specialize (HI i Hi). rewrite Lq, PS. fold b. split; [nia|]. assert ((geti buf i + 1) * b <= n * b) by (apply Z.mul_le_mono_nonneg_r; lia). lia. }
  unfold put_px in EL. rewrite EL. cbn [bind]. exists nb. split; [reflexivity|]. split; [exact LN|].
  intros i k j Hi Cj. specialize (HI i Hi). destruct (PG dq (geti buf i) (PalType (Pal im)) d (geti buf i) k j ltac:(lia) Cj (GC _ HI)) as (J & V).
  split; [exact J|]. rewrite GN by auto. exact V.
Qed.

(** The result: the size and orientation of the old image, no palette, and in every pixel the colour its index stood for *)
Definition in_colour (Dst DstTy : Z) (im im' : img) (buf d : list Z) : Prop :=
  exists buf', img_ok im' buf' /\ same_frame im im' /\ Format im' = Dst /\ Type_ im' = DstTy /\ Palette (Pal im') = None /\
    forall x y z k j, in_image im x y z 0 -> comp_at Dst k j ->
      geti buf' (pix_off im' x y z j) = part k (colour (PalType (Pal im)) d (geti buf (pix_off im x y z 0))).

Lemma take_colour : forall im buf n d Dst nb, pal_image im buf n d -> colour_format Dst -> ilGetBpcType (Type_ im) = 1 ->
  zlen nb = zlen buf * ilGetBppFormat Dst ->
  (forall i k j, 0 <= i < zlen buf -> comp_at Dst k j -> 0 <= j < ilGetBppFormat Dst /\ geti nb (i * ilGetBppFormat Dst + j) = part k (colour (PalType (Pal im)) d (geti buf i))) ->
  in_colour Dst (Type_ im) im (take im (colour_copy im Dst nb) Dst (Type_ im)) buf d.
Proof.
  intros im buf n d Dst nb (Hok & HF & HB & HC & Hpal & Hn & Hb & HI & Hw) HD HT LN GN.
  destruct (px_count im buf Hok HB HC) as (PC & SD & P0). destruct (pal_for_ok Dst HD) as (_ & _ & _ & P34 & _).
  assert (Hok' := Hok). destruct Hok' as (HDt & W & H & D & _ & _ & E1 & E2 & E3 & _ & E4).
  unfold in_colour, take, colour_copy. rewrite HT. set (b := ilGetBppFormat Dst) in *. cbn [Data Pal].
  assert (BW : b * Width im * Height im * Depth im = zlen buf * b) by (rewrite PC; ring).
  assert (T1 : 0 < b * Width im) by (apply Z.mul_pos_pos; lia). assert (T2 : 0 < b * Width im * Height im) by (apply Z.mul_pos_pos; lia).
  assert (T3 : b * Width im * Height im <= b * Width im * Height im * Depth im) by (rewrite <- (Z.mul_1_r (b * Width im * Height im)) at 1; apply Z.mul_le_mono_nonneg_l; lia).
  assert (T4 : b * Width im <= b * Width im * Height im) by (rewrite <- (Z.mul_1_r (b * Width im)) at 1; apply Z.mul_le_mono_nonneg_l; lia).
  assert (T5 : zlen buf * b <= zlen buf * 4) by (apply Z.mul_le_mono_nonneg_l; lia).
  replace (u32 (Width im * 1 * b)) with (b * Width im) by (replace (Width im * 1 * b) with (b * Width im) by ring; rewrite u32_small by lia; reflexivity). 
  replace (u32 (b * Width im * Height im)) with (b * Width im * Height im) by (rewrite u32_small by lia; reflexivity).
  replace (u32 (Depth im * (b * Width im * Height im))) with (b * Width im * Height im * Depth im) by (replace (Depth im * (b * Width im * Height im)) with (b * Width im * Height im * Depth im) by ring; rewrite u32_small by lia; reflexivity).
  exists nb. split; [|split; [|split; [|split; [|split]]]]; try reflexivity.
  - unfold img_ok. cbn [Data Width Height Depth Bpp Bpc Bps SizeOfPlane SizeOfData]. repeat split; auto; try lia.
  - unfold same_frame. cbn. auto 10.
  - intros x y z k j (Hx & Hy & Hz & _) Cj. unfold pix_off. cbn [Height Width Bpp Bpc]. rewrite HB, HC.
    set (i := z * (Height im * (Width im * (1 * 1))) + y * (Width im * (1 * 1)) + x * (1 * 1) + 0).
    assert (Hi : 0 <= i < zlen buf). { unfold i. rewrite PC. clear - Hx Hy Hz W H D. assert (0 <= y * Width im + x < Height im * Width im) by nia. assert (0 <= z * (Height im * Width im) + (y * Width im + x) < Depth im * (Height im * Width im)) by nia. nia. }
    destruct (GN i k j Hi Cj) as (_ & V). rewrite <- V. f_equal. unfold i. ring.
Qed.

Section Convert.
Variables (fcast : Z -> Z -> list Z -> list Z) (flum : bool -> bool -> Z -> list Z -> list Z -> list Z -> list Z)
  (pal : list Z -> res (option (list Z) * list Z)) (quant : img -> res conv) (alloc : allocator).

Lemma colour_step : forall cur im buf n d Dst, allocator_ok alloc -> plenty alloc -> pal_image im buf n d -> colour_format Dst -> ilGetBpcType (Type_ im) = 1 ->
  exists new, iConvertImage fcast flum pal quant alloc cur im Dst (Type_ im) = Ok (Some new, [], false) /\ in_colour Dst (Type_ im) im (take im new Dst (Type_ im)) buf d.
Proof.
  intros cur im buf n d Dst HA HP HI HD HT. destruct (palette_colours alloc cur im buf n d Dst HA HP HI HD) as (nb & E & LN & GN).
  exists (colour_copy im Dst nb). split; [|eapply take_colour; eauto].
  unfold iConvertImage. replace (Dst =? IL_COLOUR_INDEX) with false by (inversion HD; reflexivity). cbn [andb].
  destruct HI as (_ & HF & _). rewrite HF. cbn [Z.eqb]. rewrite Z.eqb_refl. rewrite E. cbn [bind]. change (Type_ (colour_copy im Dst nb)) with (Type_ im). rewrite Z.eqb_refl. reflexivity.
Qed.

(** C83: every palette image of the chain becomes a colour image in which each pixel has the colour of its index. *)
Theorem C83_palette_partial : forall ims Dst DstTy, allocator_ok alloc -> plenty alloc -> colour_format Dst -> ilGetBpcType DstTy = 1 -> ims <> [] ->
  Forall (fun im => Type_ im = DstTy /\ exists buf n d, pal_image im buf n d) ims ->
  exists ims', ilConvertImage fcast flum pal quant alloc ims Dst DstTy = Ok (true, ims', [], false) /\
    Forall2 (fun im im' => forall buf n d, pal_image im buf n d -> in_colour Dst DstTy im im' buf d) ims ims'.
Proof.
  intros ims Dst DstTy HA HP HD HT Hne HF.
  assert (UNI : forall im buf n d buf' n' d', pal_image im buf n d -> pal_image im buf' n' d' -> buf = buf' /\ d = d').
  { intros im buf n d buf' n' d' ((E1 & _) & _ & _ & _ & (_ & E2 & _) & _) ((E1' & _) & _ & _ & _ & (_ & E2' & _) & _). rewrite E1 in E1'. rewrite E2 in E2'. split; congruence. }
  assert (ST : forall cur im, Type_ im = DstTy /\ (exists buf n d, pal_image im buf n d) -> exists new, iConvertImage fcast flum pal quant alloc cur im Dst DstTy = Ok (Some new, [], false) /\
     forall buf n d, pal_image im buf n d -> in_colour Dst DstTy im (take im new Dst DstTy) buf d).
  { intros cur im (Ty & buf & n & d & HI). subst DstTy. destruct (colour_step cur im buf n d Dst HA HP HI HD HT) as (new & E & C). exists new. split; [exact E|].
    intros buf' n' d' HI'. destruct (UNI _ _ _ _ _ _ _ HI HI') as (<- & <-). exact C. }
  assert (REST : forall cur rest, Forall (fun im => Type_ im = DstTy /\ exists buf n d, pal_image im buf n d) rest ->
     exists rest', convert_rest fcast flum pal quant alloc cur rest Dst DstTy = Ok (true, rest', [], false) /\
       Forall2 (fun im im' => forall buf n d, pal_image im buf n d -> in_colour Dst DstTy im im' buf d) rest rest').
  { intros cur rest. induction rest as [|im rest IH]; intros HR; [exists []; split; [reflexivity|constructor]|]. inversion HR as [|? ? H1 H2]; subst.
    destruct (IH H2) as (rest' & E & F2). destruct (ST cur im H1) as (new & EN & C). cbn [convert_rest]. rewrite EN. cbn [bind]. rewrite E. cbn [bind].
    eexists. split; [reflexivity|]. constructor; auto. }
  destruct ims as [|im rest]; [congruence|]. inversion HF as [|? ? H1 H2]; subst. destruct (ST im im H1) as (new & EN & C).
  destruct (REST (take im new Dst DstTy) rest H2) as (rest' & ER & F2).
  destruct H1 as (Ty & buf & n & d & HI). assert (HFm : Format im = IL_COLOUR_INDEX) by (destruct HI as (_ & X & _); exact X).
  unfold ilConvertImage. rewrite HFm, Ty, Z.eqb_refl. replace (Dst =? IL_COLOUR_INDEX) with false by (inversion HD; reflexivity). cbn [andb].
  assert (FC : iFastConvert im Dst = Ok (false, im)). { unfold iFastConvert. rewrite HFm. inversion HD; reflexivity. }
  rewrite FC. cbn [bind]. rewrite EN. cbn [bind]. rewrite ER. cbn [bind]. eexists. split; [reflexivity|]. constructor; auto.
Qed.
End Convert.
Print Assumptions C83_palette_partial.

(** An index without a colour: the palette is read beyond its end. *)
Lemma put_good : forall buf q Size bpp i c L s, (exists d, s = Some d /\ zlen d = L) -> IluRotate.good (fun s => exists d, s = Some d /\ zlen d = L) (put_px buf q Size bpp i c s).
Proof.
  intros buf q Size bpp i c L s (d & -> & Hd). unfold put_px, rdo, wro. unfold rd, wr. destruct (inb (zlen buf) i 1); cbn [bind]; [|exact I]. destruct (inb (zlen q) _ 1); cbn [bind]; [|exact I].
  destruct (inb (zlen d) (u32 (i * bpp + c)) 1) eqn:E; cbn [bind]; [|exact I]. apply inb_true in E. eexists. split; [reflexivity|]. rewrite zlen_upd by lia. exact Hd.
Qed.
Theorem C83_index_refuted : forall fcast flum pal quant alloc im buf n d i Dst, allocator_ok alloc -> plenty alloc -> img_ok im buf -> Format im = IL_COLOUR_INDEX -> Bpp im = 1 -> Bpc im = 1 ->
  palette_of (Pal im) n d -> 0 < n -> 3 * n < 2 ^ 24 -> 4 * zlen buf < 2 ^ 32 -> colour_format Dst ->
  0 <= i < zlen buf -> n <= geti buf i ->
  ilConvertImage fcast flum pal quant alloc [im] Dst (Type_ im) = UB.
Proof.
  intros fcast flum pal quant alloc im buf n d i Dst HA HP Hok HF HB HC Hpal Hn Hb Hw HD Hi Hx.
  destruct (px_count im buf Hok HB HC) as (PC & SD & P0). destruct (pal_for_ok Dst HD) as (PT & PS & PB & P34 & _).
  assert (Hpal' := Hpal). destruct Hpal' as (HT & HPd & HS & HL). assert (C1 := cs_cases (PalType (Pal im))).
  destruct Hok as (HDt & W & H & D & _ & _ & E1 & E2 & E3 & _ & E4).
  unfold ilConvertImage. rewrite HF, Z.eqb_refl. replace (Dst =? IL_COLOUR_INDEX) with false by (inversion HD; reflexivity). cbn [andb].
  assert (FC : iFastConvert im Dst = Ok (false, im)). { unfold iFastConvert. rewrite HF. inversion HD; reflexivity. } rewrite FC. cbn [bind].
  unfold iConvertImage. replace (Dst =? IL_COLOUR_INDEX) with false by (inversion HD; reflexivity). cbn [andb]. rewrite HF, Z.eqb_refl.
  unfold iConvertPalette. rewrite (copy_pal alloc zero_img im n d) by auto. cbn [bind]. rewrite HPd.
  assert (TN : (PalType (Pal im) =? IL_PAL_NONE) = false). { unfold pal_type in HT. cbn [In] in HT. destruct HT as [<-|[<-|[<-|[<-|[<-|[<-|[]]]]]]]; reflexivity. }
  rewrite TN, HB. replace (PalSize (Pal im) =? 0) with false by nia. cbn [orb negb Z.eqb Pos.eqb].
  replace ((Dst =? IL_LUMINANCE) || (Dst =? IL_LUMINANCE_ALPHA)) with false by (inversion HD; reflexivity). replace (Dst =? IL_ALPHA) with false by (inversion HD; reflexivity).
  replace (ilGetBppFormat Dst =? 0) with false by lia. replace (Dst =? IL_COLOUR_INDEX) with false by (inversion HD; reflexivity). cbv zeta. fold (pal_for Dst).
  set (im1 := with_Format (with_Data im (Data zero_img)) Dst).
  destruct (cur_pal alloc im1 (pal_for Dst) n d HA HP Hpal PT Hn Hb) as (dq & -> & Lq & _). cbn [bind]. unfold ilResizeImage.
  match goal with |- context [alloc ?s] => destruct (alloc s) as [blk|] eqn:EA end.
  2: { exfalso. eapply HP; [|exact EA]. apply Z.mod_pos_bound. lia. }
  cbn [negb Data Pal Bpp PalType Palette with_Pal with_Format with_Data im1]. rewrite HDt, PB, SD. set (b := ilGetBppFormat Dst) in *.
  match goal with |- bind (bind (bind ?l _) _) _ = _ => assert (EL : l = UB) end.
  { apply (IluRotate.loop_reach_ub _ (fun s => exists d, s = Some d /\ zlen d = zlen blk)) with (m := i); [exact Hi|eauto| |].
    - intros i0 s Hs. apply IluRotate.loop_good; auto. intros c s' Hs'. apply (put_good buf dq b b). exact Hs'.
    - intros s Hs. apply PixelsProps.loop_first_ub; [lia|]. unfold rdo. rewrite rd_ok by lia. cbn [bind]. rewrite rd_ub; [reflexivity|]. rewrite Lq, PS. fold b. assert (n * b <= geti buf i * b) by (apply Z.mul_le_mono_nonneg_r; lia). lia. }
  rewrite EL. reflexivity.
Qed.
Print Assumptions C83_index_refuted.

(** Two images of two pixels and two colours become RGBA; and a conversion that also changes the type leaves
    the palette in the result. *)
Definition ex_im (px q : list Z) (t : Z) : img :=
  mkImg 2 1 1 1 1 2 (Some px) 2 2 IL_COLOUR_INDEX IL_UNSIGNED_BYTE IL_ORIGIN_UPPER_LEFT (mkPal (Some q) (zlen q) t) 0 0 0 0.
Definition no_pal (b : list Z) : res (option (list Z) * list Z) := Ok (None, []).
Definition no_quant (im : img) : res conv := Ok (None, [], false).
Definition ex_conv := ilConvertImage (fun _ _ e => e) (fun _ _ _ a _ _ => a) no_pal no_quant zeros.
Lemma C83_ex2 : pal_image (ex_im [1; 1] [1; 2; 3; 4; 5; 6] IL_PAL_RGB24) [1; 1] 2 [1; 2; 3; 4; 5; 6].
Proof. unfold pal_image, img_ok, palette_of, pal_type. cbn. repeat split; auto 10; try lia; assert (i = 0 \/ i = 1) as [-> | ->] by lia; vm_compute; congruence. Qed.
Example C83_ex : pal_image (ex_im [1; 0] [1; 2; 3; 4; 5; 6; 7; 8] IL_PAL_BGRA32) [1; 0] 2 [1; 2; 3; 4; 5; 6; 7; 8] /\ pal_image (ex_im [1; 1] [1; 2; 3; 4; 5; 6] IL_PAL_RGB24) [1; 1] 2 [1; 2; 3; 4; 5; 6] /\
  match ex_conv [ex_im [1; 0] [1; 2; 3; 4; 5; 6; 7; 8] IL_PAL_BGRA32; ex_im [1; 1] [1; 2; 3; 4; 5; 6] IL_PAL_RGB24] IL_RGBA IL_UNSIGNED_BYTE with
  | Ok (true, [a; b], [], false) => Data a = Some [7; 6; 5; 8; 3; 2; 1; 4] /\ Data b = Some [4; 5; 6; 255; 4; 5; 6; 255] | _ => False end.
Proof.
  split; [|split].
  - unfold pal_image, img_ok, palette_of, pal_type. cbn. repeat split; auto 10; try lia; assert (i = 0 \/ i = 1) as [-> | ->] by lia; vm_compute; congruence.
  - unfold pal_image, img_ok, palette_of, pal_type. cbn. repeat split; auto 10; try lia; assert (i = 0 \/ i = 1) as [-> | ->] by lia; vm_compute; congruence.
  - vm_compute. auto.
Qed.
Definition ex_alloc : allocator := fun n => if n <? 0 then None else Some (repeat 0 (Z.to_nat n)).
Lemma ex_alloc_ok : allocator_ok ex_alloc /\ plenty ex_alloc.
Proof.
  split.
  - intros n l H. unfold ex_alloc in H. destruct (n <? 0) eqn:E; [discriminate|]. injection H as <-. rewrite zlen_repeat. lia.
  - intros k Hk. unfold ex_alloc. replace (k <? 0) with false by lia. discriminate.
Qed.
(** a colour image should have no palette left (ilGetInteger(IL_PALETTE_SIZE)), in whatever type *)
Lemma one_result : forall (P : img -> Prop) r, match r : res (bool * list img * list Z * bool) with Ok (true, [im'], [], false) => P im' | _ => False end -> exists im', r = Ok (true, [im'], [], false) /\ P im'.
Proof.
  intros P [[[[b l] e] z]| |]; try contradiction. destruct b; [|contradiction]. destruct l as [|im' [|? ?]]; try contradiction. destruct e; [|contradiction]. destruct z; [contradiction|].
  intros H. exists im'. auto.
Qed.
Lemma leftover : exists im', ilConvertImage (fun _ _ e => e) (fun _ _ _ a _ _ => a) no_pal no_quant ex_alloc [ex_im [1; 1] [1; 2; 3; 4; 5; 6] IL_PAL_RGB24] IL_RGB IL_UNSIGNED_SHORT = Ok (true, [im'], [], false) /\ Palette (Pal im') = Some [1; 2; 3; 4; 5; 6].
Proof. apply (one_result (fun im' => Palette (Pal im') = Some [1; 2; 3; 4; 5; 6])). vm_compute. reflexivity. Qed.
Theorem C83_leftover_refuted : ~ (forall fcast flum pal quant alloc im buf n d Dst DstTy im', allocator_ok alloc -> plenty alloc -> pal_image im buf n d -> colour_format Dst ->
  int_type DstTy 2 -> ilConvertImage fcast flum pal quant alloc [im] Dst DstTy = Ok (true, [im'], [], false) -> Palette (Pal im') = None).
Proof.
  intros H. destruct leftover as (im' & E & X). 
  specialize (H (fun _ _ e => e) (fun _ _ _ a _ _ => a) no_pal no_quant ex_alloc (ex_im [1; 1] [1; 2; 3; 4; 5; 6] IL_PAL_RGB24) [1; 1] 2 [1; 2; 3; 4; 5; 6] IL_RGB IL_UNSIGNED_SHORT im').
  specialize (H (proj1 ex_alloc_ok) (proj2 ex_alloc_ok)). specialize (H C83_ex2). specialize (H cf_rgb it_us). specialize (H E). rewrite H in X. discriminate X.
Qed.
Print Assumptions C83_leftover_refuted.
