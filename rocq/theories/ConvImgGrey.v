(** C86: luminance images become palette images of 256 greys. *)
From Coq Require Import ZArith QArith List Lia Bool.
From Verif Require Import Base Slices Scatter Enums Utility Image ImageSpec ImageProps Elem Lump LumpProps Endian EndianProps Channels ChannelsSpec ChannelsProofs ChannelsProps ChannelsProps2 ChannelsProps3
  ConvBuff ConvSpec ConvProofs ConvProps ConvProps2 ConvInt Pal PalSpec PalProps IluScale IluRotate ConvImg ConvImgProps ConvImgChain.
Import ListNotations.
Open Scope Z_scope.

Lemma grey_ok : forall d, zlen d = 768 -> exists g, grey_palette d = Ok g /\ zlen g = 768 /\ forall i c, 0 <= i < 256 -> 0 <= c < 3 -> geti g (i * 3 + c) = i.
Proof.
  intros d Hd. unfold grey_palette.
  destruct (loop_rule _ (fun k g => zlen g = 768 /\ forall i c, 0 <= i < k -> 0 <= c < 3 -> geti g (i * 3 + c) = i) 0 256
     (fun i d => let! d := wr d (i * 3) i in let! d := wr d (i * 3 + 1) i in wr d (i * 3 + 2) i) d) as (g & E & L & G); try lia.
  - split; [exact Hd|]. intros; lia.
  - intros k g Hk (L & G). rewrite wr_ok by lia. cbn [bind]. rewrite wr_ok by (rewrite zlen_upd by lia; lia). cbn [bind]. rewrite wr_ok by (rewrite !zlen_upd by (rewrite ?zlen_upd by lia; lia); lia).
    eexists. split; [reflexivity|]. rewrite !zlen_upd by (rewrite ?zlen_upd by (rewrite ?zlen_upd by lia; lia); lia). split; [exact L|]. intros i c Hi Hc.
    rewrite !geti_upd by (rewrite ?zlen_upd by (rewrite ?zlen_upd by lia; lia); lia). destruct (Z.eq_dec i k) as [->|N].
    + assert (c = 0 \/ c = 1 \/ c = 2) as [-> | [-> | ->]] by lia; repeat (match goal with |- context [?a =? ?b] => destruct (a =? b) eqn:? end; try reflexivity; try lia).
    + replace (i * 3 + c =? k * 3 + 2) with false by lia. replace (i * 3 + c =? k * 3 + 1) with false by lia. replace (i * 3 + c =? k * 3) with false by lia. apply G; lia.
  - eauto.
Qed.

Section Convert.
Variables (fcast : Z -> Z -> list Z -> list Z) (flum : bool -> bool -> Z -> list Z -> list Z -> list Z -> list Z)
  (pal : list Z -> res (option (list Z) * list Z)) (quant : img -> res conv) (alloc : allocator).

Lemma grey_step : forall im buf DstTy, allocator_ok alloc -> plenty alloc -> img_ok im buf -> Format im = IL_LUMINANCE -> Palette (Pal im) = None -> type_size DstTy 1 ->
  exists g, zlen g = 768 /\ (forall i, 0 <= i < 256 -> colour IL_PAL_RGB24 g i = RGBA i i i 255) /\
    ilConvertImage fcast flum pal quant alloc [im] IL_COLOUR_INDEX DstTy = Ok (true, [take im (with_Pal (with_Data im (Some buf)) (mkPal (Some g) 768 IL_PAL_RGB24)) IL_COLOUR_INDEX DstTy], [], false).
Proof.
  intros im buf DstTy HA HP Hok HF NP TD. assert (Hok' := Hok). destruct Hok' as (HDt & W & H & D & B & C & E1 & E2 & E3 & E4 & E5).
  destruct (alloc 768) as [g0|] eqn:EG; [|exfalso; eapply HP; [|exact EG]; lia]. destruct (grey_ok g0 (HA _ _ EG)) as (g & G1 & G2 & G3).
  exists g. split; [exact G2|]. split.
  { intros i Hi. unfold colour. change (blue_first IL_PAL_RGB24) with false. change (with_alpha IL_PAL_RGB24) with false. change (colour_size IL_PAL_RGB24) with 3. cbv iota.
    rewrite <- (Z.add_0_r (i * 3)) at 1. rewrite !G3 by lia. reflexivity. }
  assert (TS : (IL_SHORT <=? DstTy) = false) by (inversion TD; reflexivity).
  unfold ilConvertImage. rewrite HF. change (IL_COLOUR_INDEX =? IL_LUMINANCE) with false. cbn [andb].
  replace (if DstTy =? Type_ im then iFastConvert im IL_COLOUR_INDEX else Ok (false, im)) with (Ok (false, im)) by (destruct (DstTy =? Type_ im); reflexivity). cbn [bind].
  unfold iConvertImage. rewrite TS, HF. change (IL_COLOUR_INDEX =? IL_COLOUR_INDEX) with true. change (IL_LUMINANCE =? IL_COLOUR_INDEX) with false. change (IL_LUMINANCE =? IL_LUMINANCE) with true. change (ilGetBppFormat IL_COLOUR_INDEX =? 0) with false. cbn [andb negb].
  unfold copy_attr. rewrite NP. cbn [bind]. rewrite HDt, EG, G1. cbn [bind].
  destruct (alloc (SizeOfData im)) as [b|] eqn:EB; [|exfalso; eapply HP; [|exact EB]; rewrite <- E5; auto]. assert (LB := HA _ _ EB).
  rewrite memcpy_ok by (try lia; rewrite <- E5; auto). cbn [bind]. rewrite <- E5, slice_all, splice_full by lia. reflexivity.
Qed.

(** A luminance image of bytes becomes a palette image of the same frame whose pixels have the grey of their luminance. *)
Theorem C86_grey_partial : forall im buf DstTy, allocator_ok alloc -> plenty alloc -> img_ok im buf -> bytes buf -> Format im = IL_LUMINANCE -> Bpp im = 1 -> Bpc im = 1 -> Palette (Pal im) = None -> type_size DstTy 1 ->
  exists im' g, ilConvertImage fcast flum pal quant alloc [im] IL_COLOUR_INDEX DstTy = Ok (true, [im'], [], false) /\ img_ok im' buf /\ same_frame im im' /\
    Format im' = IL_COLOUR_INDEX /\ Type_ im' = DstTy /\ palette_of (Pal im') 256 g /\
    forall x y z, in_image im x y z 0 -> let v := geti buf (pix_off im x y z 0) in colour (PalType (Pal im')) g (geti buf (pix_off im' x y z 0)) = RGBA v v v 255.
Proof.
  intros im buf DstTy HA HP Hok HBb HF HB HC NP TD. destruct (grey_step im buf DstTy HA HP Hok HF NP TD) as (g & LG & CG & ->). eexists; exists g. split; [reflexivity|].
  assert (Hok' := Hok). destruct Hok' as (HDt & W & H & D & _ & _ & E1 & E2 & E3 & E4 & E5). destruct (px_count im buf Hok HB HC) as (PC & SD & P0).
  assert (T : take im (with_Pal (with_Data im (Some buf)) (mkPal (Some g) 768 IL_PAL_RGB24)) IL_COLOUR_INDEX DstTy =
    mkImg (Width im) (Height im) (Depth im) 1 1 (Width im) (Some buf) (Width im * Height im * Depth im) (Width im * Height im) IL_COLOUR_INDEX DstTy (Origin im) (mkPal (Some g) 768 IL_PAL_RGB24) (Duration im) (CubeFlags im) (OffX im) (OffY im)).
  { assert (0 < Width im * Height im) by (apply Z.mul_pos_pos; lia). assert (Width im * Height im * 1 <= Width im * Height im * Depth im) by (apply Z.mul_le_mono_nonneg_l; lia). assert (Width im * 1 <= Width im * Height im) by (apply Z.mul_le_mono_nonneg_l; lia).
    unfold take. cbn [Data Pal with_Pal with_Data]. change (ilGetBppFormat IL_COLOUR_INDEX) with 1. destruct (type_size_bpc _ _ TD) as (-> & _). rewrite !Z.mul_1_r. rewrite (u32_small (Width im)) by lia. rewrite (u32_small (Width im * Height im)) by lia.
    rewrite (Z.mul_comm (Depth im)). rewrite u32_small by lia. reflexivity. }
  rewrite T. split; [|split; [|split; [|split; [|split]]]]; try reflexivity.
  - unfold img_ok. cbn [Data Width Height Depth Bpp Bpc Bps SizeOfPlane SizeOfData]. repeat split; auto; lia.
  - unfold same_frame. cbn. auto 10.
  - unfold palette_of. cbn [Pal PalType Palette PalSize]. repeat split; auto. unfold pal_type. cbn. auto.
  - intros x y z (Hx & Hy & Hz & _). unfold pix_off. cbn [Height Width Bpp Bpc Pal PalType]. rewrite HB, HC.
    set (i := z * (Height im * (Width im * (1 * 1))) + y * (Width im * (1 * 1)) + x * (1 * 1) + 0). cbv zeta. apply CG. apply HBb.
    unfold i. rewrite PC. clear - Hx Hy Hz W H D. assert (0 <= y * Width im + x < Height im * Width im) by nia. assert (0 <= z * (Height im * Width im) + (y * Width im + x) < Depth im * (Height im * Width im)) by nia. nia.
Qed.

(** With wider elements the pixels are copied unconverted: the image claims fewer bytes than it holds. *)
Theorem C86_wide_refuted : forall im buf DstTy, allocator_ok alloc -> plenty alloc -> img_ok im buf -> Format im = IL_LUMINANCE -> Bpp im = 1 -> 1 < Bpc im -> Palette (Pal im) = None -> type_size DstTy 1 ->
  exists im', ilConvertImage fcast flum pal quant alloc [im] IL_COLOUR_INDEX DstTy = Ok (true, [im'], [], false) /\ Data im' = Some buf /\ Bpc im' = 1 /\ SizeOfData im' * Bpc im = zlen buf /\ ~ img_ok im' buf.
Proof.
  intros im buf DstTy HA HP Hok HF HB HC NP TD. destruct (grey_step im buf DstTy HA HP Hok HF NP TD) as (g & LG & CG & ->). eexists. split; [reflexivity|].
  assert (Hok' := Hok). destruct Hok' as (HDt & W & H & D & _ & HC4 & E1 & E2 & E3 & E4 & E5). rewrite HB in E1.
  assert (0 < Width im * Height im) by (apply Z.mul_pos_pos; lia). assert (Width im * Height im * 1 <= Width im * Height im * Depth im) by (apply Z.mul_le_mono_nonneg_l; lia). assert (Width im * 1 <= Width im * Height im) by (apply Z.mul_le_mono_nonneg_l; lia).
  assert (L : zlen buf = Width im * Height im * Depth im * Bpc im) by (rewrite E5, E3, E2, E1; ring). assert (Width im * Height im * Depth im * 2 <= Width im * Height im * Depth im * Bpc im) by (apply Z.mul_le_mono_nonneg_l; lia).
  unfold take. cbn [Data Pal with_Pal with_Data]. change (ilGetBppFormat IL_COLOUR_INDEX) with 1. destruct (type_size_bpc _ _ TD) as (-> & _). rewrite !Z.mul_1_r. rewrite (u32_small (Width im)) by lia. rewrite (u32_small (Width im * Height im)) by lia.
  rewrite (Z.mul_comm (Depth im)). rewrite u32_small by lia. cbn [Data Bpc SizeOfData]. split; [reflexivity|]. split; [reflexivity|]. split; [lia|].
  intros (_ & _ & _ & _ & _ & _ & _ & _ & _ & _ & K). cbn [SizeOfData] in K. lia.
Qed.
End Convert.
Print Assumptions C86_grey_partial.
Print Assumptions C86_wide_refuted.

Example C86_ex : let im := ex_one 1 IL_LUMINANCE [9] in img_ok im [9] /\ bytes [9] /\
  match ilConvertImage (fun _ _ e => e) (fun _ _ _ a _ _ => a) no_pal no_quant ex_alloc [im] IL_COLOUR_INDEX IL_UNSIGNED_BYTE with
  | Ok (true, [a], [], false) => Data a = Some [9] /\ match Palette (Pal a) with Some g => slice g 27 3 = [9; 9; 9] | None => False end | _ => False end.
Proof.
  split; [|split].
  - unfold img_ok. cbn. repeat split; auto; lia.
  - apply bytes_Forall. repeat constructor; lia.
  - vm_compute. auto.
Qed.
