(** C85: conversion of an image and the images that follow it. *)
From Coq Require Import ZArith QArith List Lia Bool.
From Verif Require Import Base Slices Scatter Enums Utility Image ImageSpec ImageProps Elem Lump LumpProps Endian EndianProps Channels ChannelsSpec ChannelsProofs ChannelsProps ChannelsProps2 ChannelsProps3
  ConvBuff ConvSpec ConvProofs ConvProps ConvProps2 ConvInt Pal PalSpec PalProps IluScale IluRotate ConvImg ConvImgProps.
Import ListNotations.
Open Scope Z_scope.

Section Convert.
Variables (fcast : Z -> Z -> list Z -> list Z) (flum : bool -> bool -> Z -> list Z -> list Z -> list Z -> list Z)
  (pal : list Z -> res (option (list Z) * list Z)) (quant : img -> res conv) (alloc : allocator).

Definition pixels (im : img) : Z := Width im * Height im * Depth im.
(** [im] is a well-formed image without palette, with pixels [buf]; its elements converted to the type
    [DstTy] of [m] bytes are [mid] *)
Definition plain (DstTy m : Z) (im : img) (buf mid : list Z) : Prop :=
  img_ok im buf /\ channels (Format im) (Bpp im) /\ Format im <> IL_COLOUR_INDEX /\ type_size (Type_ im) (Bpc im) /\ Palette (Pal im) = None /\ 12 * pixels im * m < 2 ^ 32 /\
  iSwitchTypes fcast alloc (SizeOfData im) (Type_ im) DstTy buf = Ok (Some mid, []) /\ zlen mid = pixels im * Bpp im * m.
(** [im'] is [im] in the format [Dst] and type [DstTy]: the same frame, consistent sizes, and each component of each
    pixel what it should be *)
Definition now_in (Dst DstTy dc m : Z) (im im' : img) (mid : list Z) : Prop :=
  exists buf', img_ok im' buf' /\ same_frame im im' /\ Format im' = Dst /\ Type_ im' = DstTy /\ Palette (Pal im') = None /\
    converted (Format im) Dst (Bpp im) dc m DstTy (pixels im) mid buf'.

Lemma channels_bpp : forall f n, channels f n -> ilGetBppFormat f = n /\ 1 <= n <= 4.
Proof. intros f n H. inversion H; split; try reflexivity; lia. Qed.

Lemma chain_step : forall cur im buf mid Dst DstTy dc m, allocator_ok alloc -> plenty alloc -> channels Dst dc -> Dst <> IL_COLOUR_INDEX -> type_size DstTy m -> plain DstTy m im buf mid -> copying (Format im) Dst ->
  exists new, iConvertImage fcast flum pal quant alloc cur im Dst DstTy = Ok (Some new, [], false) /\ now_in Dst DstTy dc m im (take im new Dst DstTy) mid.
Proof.
  intros cur im buf mid Dst DstTy dc m HA HP CD HD TD (Hok & CS & NF & TS & NP & H12 & SW & LM) CP.
  assert (Hok' := Hok). destruct Hok' as (HDt & W & H & D & B & C & E1 & E2 & E3 & E4 & E5).
  set (N := pixels im) in *. assert (WH : 0 < Width im * Height im) by (apply Z.mul_pos_pos; lia). assert (N0 : 0 < N) by (unfold N, pixels; apply Z.mul_pos_pos; lia).
  assert (SD : SizeOfData im = N * Bpp im * Bpc im) by (rewrite E3, E2, E1; unfold N, pixels; ring).
  destruct (channels_bpp _ _ CD) as (BD & BD4). destruct (type_size_bpc _ _ TD) as (BC & _ & _ & _ & _). assert (Hm : m = 1 \/ m = 2 \/ m = 4 \/ m = 8) by (inversion TD; auto).
  destruct (alloc (N * dc * m)) as [blk|] eqn:EA; [|exfalso; eapply HP; [|exact EA]; repeat apply Z.mul_nonneg_nonneg; lia].
  rewrite SD in SW. destruct (C28_convert_partial fcast flum pal alloc (Format im) Dst (Bpp im) dc (Type_ im) DstTy (Bpc im) m N buf mid blk) as (new & EN & LN & CV); auto; try lia.
  exists (with_Data (set_layout (mkImg (Width im) (Height im) (Depth im) (Bpp im) (Bpc im) (Bps im) None (SizeOfData im) (SizeOfPlane im) (Format im) (Type_ im) (Origin im)
     (mkPal None (PalSize (Pal im)) (PalType (Pal im))) (Duration im) (CubeFlags im) (OffX im) (OffY im)) Dst DstTy) (Some new)). split.
  - unfold iConvertImage. replace (Dst =? IL_COLOUR_INDEX) with false by lia. replace (Format im =? IL_COLOUR_INDEX) with false by lia. cbn [andb]. rewrite BD. replace (dc =? 0) with false by lia.
    unfold copy_attr. rewrite NP. cbn [bind]. rewrite HDt, SD, EN. reflexivity.
  - exists new. unfold take. rewrite BD, BC. 
    assert (T0 : 0 < dc * m) by (apply Z.mul_pos_pos; lia). assert (T1 : 0 < Width im * (dc * m)) by (apply Z.mul_pos_pos; lia). assert (T2 : 0 < Width im * (dc * m) * Height im) by (apply Z.mul_pos_pos; lia).
    assert (T3 : Width im * (dc * m) * Height im * 1 <= Width im * (dc * m) * Height im * Depth im) by (apply Z.mul_le_mono_nonneg_l; lia).
    assert (T4 : Width im * (dc * m) * 1 <= Width im * (dc * m) * Height im) by (apply Z.mul_le_mono_nonneg_l; lia).
    assert (T5 : Width im * (dc * m) * Height im * Depth im = N * m * dc) by (unfold N, pixels; ring). assert (T6 : N * m * dc <= N * m * 4) by (apply Z.mul_le_mono_nonneg_l; [apply Z.mul_nonneg_nonneg; lia|lia]).
    assert (H12' : N * m * 12 < 2 ^ 32) by (replace (N * m * 12) with (12 * N * m) by ring; exact H12).
    replace (u32 (Width im * m * dc)) with (Width im * (dc * m)) by (replace (Width im * m * dc) with (Width im * (dc * m)) by ring; rewrite u32_small by lia; reflexivity).
    replace (u32 (Width im * (dc * m) * Height im)) with (Width im * (dc * m) * Height im) by (rewrite u32_small by lia; reflexivity).
    replace (u32 (Depth im * (Width im * (dc * m) * Height im))) with (Width im * (dc * m) * Height im * Depth im) by (rewrite (Z.mul_comm (Depth im)); rewrite u32_small by lia; reflexivity).
    split; [|split; [|split; [|split; [|split]]]]; try reflexivity.
    + unfold img_ok. cbn [Data Width Height Depth Bpp Bpc Bps SizeOfPlane SizeOfData with_Data]. repeat split; auto; try lia.
    + unfold same_frame. cbn. auto 10.
    + exact CV.
Qed.

(** not converted in place: the formats differ otherwise than by the order of red and blue, or the types differ *)
Definition not_swap (im : img) (Dst DstTy : Z) : Prop := DstTy <> Type_ im \/ Dst <> Format im /\ ~ red_blue (Format im) Dst.

Theorem C85_chain_partial : forall im rest Dst DstTy dc m, allocator_ok alloc -> plenty alloc -> channels Dst dc -> Dst <> IL_COLOUR_INDEX -> type_size DstTy m -> not_swap im Dst DstTy ->
  Forall (fun im => copying (Format im) Dst /\ exists buf mid, plain DstTy m im buf mid) (im :: rest) ->
  exists ims', ilConvertImage fcast flum pal quant alloc (im :: rest) Dst DstTy = Ok (true, ims', [], false) /\
    Forall2 (fun im im' => forall buf mid, plain DstTy m im buf mid -> now_in Dst DstTy dc m im im' mid) (im :: rest) ims'.
Proof.
  intros im rest Dst DstTy dc m HA HP CD HD TD NS HF.
  assert (UNI : forall im buf mid buf' mid', plain DstTy m im buf mid -> plain DstTy m im buf' mid' -> mid = mid').
  { intros i buf mid buf' mid' ((E1 & _) & _ & _ & _ & _ & _ & S1 & _) ((E1' & _) & _ & _ & _ & _ & _ & S1' & _). rewrite E1 in E1'. injection E1' as <-. rewrite S1 in S1'. injection S1' as <-. reflexivity. }
  assert (ST : forall cur im, copying (Format im) Dst /\ (exists buf mid, plain DstTy m im buf mid) -> exists new, iConvertImage fcast flum pal quant alloc cur im Dst DstTy = Ok (Some new, [], false) /\
     forall buf mid, plain DstTy m im buf mid -> now_in Dst DstTy dc m im (take im new Dst DstTy) mid).
  { intros cur i (CP & buf & mid & HI). destruct (chain_step cur i buf mid Dst DstTy dc m HA HP CD HD TD HI CP) as (new & E & C). exists new. split; [exact E|].
    intros buf' mid' HI'. rewrite <- (UNI _ _ _ _ _ HI HI'). exact C. }
  assert (REST : forall cur rest, Forall (fun im => copying (Format im) Dst /\ exists buf mid, plain DstTy m im buf mid) rest ->
     exists rest', convert_rest fcast flum pal quant alloc cur rest Dst DstTy = Ok (true, rest', [], false) /\
       Forall2 (fun im im' => forall buf mid, plain DstTy m im buf mid -> now_in Dst DstTy dc m im im' mid) rest rest').
  { intros cur l. induction l as [|i l IH]; intros HR; [exists []; split; [reflexivity|constructor]|]. inversion HR as [|? ? H1 H2]; subst.
    destruct (IH H2) as (rest' & E & F2). destruct (ST cur i H1) as (new & EN & C). cbn [convert_rest]. rewrite EN. cbn [bind]. rewrite E. cbn [bind].
    eexists. split; [reflexivity|]. constructor; auto. }
  inversion HF as [|? ? H1 H2]; subst. destruct (ST im im H1) as (new & EN & C). destruct (REST (take im new Dst DstTy) rest H2) as (rest' & ER & F2).
  unfold ilConvertImage. replace ((Dst =? Format im) && (DstTy =? Type_ im)) with false by (destruct NS as [N|(N & _)]; [replace (DstTy =? Type_ im) with false by lia; rewrite andb_false_r|replace (Dst =? Format im) with false by lia]; reflexivity).
  assert (FC : (if DstTy =? Type_ im then iFastConvert im Dst else Ok (false, im)) = Ok (false, im)).
  { destruct (DstTy =? Type_ im) eqn:E; [|reflexivity]. destruct NS as [N|(N & NR)]; [lia|]. unfold iFastConvert.
    destruct H1 as (_ & buf & mid & _ & CS & _). inversion CD as [F|F|F|F|F|F|F|F]; inversion CS as [F'|F'|F'|F'|F'|F'|F'|F']; subst Dst; rewrite <- F' in *; first [reflexivity|exfalso; apply N; reflexivity|exfalso; apply NR; constructor]. }
  rewrite FC. cbn [bind]. rewrite EN. cbn [bind]. rewrite ER. cbn [bind]. eexists. split; [reflexivity|]. constructor; auto.
Qed.

(** When only red and blue are exchanged, and when the first image already has the format, the images that
    follow are not converted. *)
Theorem C85_following_refuted : forall im buf rest Dst, img_ok im buf -> channels (Format im) (Bpp im) -> type_size (Type_ im) (Bpc im) -> Dst = Format im \/ red_blue (Format im) Dst ->
  exists im', ilConvertImage fcast flum pal quant alloc (im :: rest) Dst (Type_ im) = Ok (true, im' :: rest, [], false).
Proof.
  intros im buf rest Dst Hok CH TS HD. unfold ilConvertImage. rewrite Z.eqb_refl, andb_true_r. destruct (Dst =? Format im) eqn:E; [eexists; reflexivity|].
  destruct HD as [HD|HD]; [lia|]. destruct (C28_fast im buf Dst Hok HD CH TS) as (buf' & -> & _). cbn [bind]. eexists. reflexivity.
Qed.
End Convert.
Print Assumptions C85_chain_partial.
Print Assumptions C85_following_refuted.

(** A conversion that fails should leave the images as they were. *)
Definition ex_one (bpp fmt : Z) (d : list Z) : img := mkImg 1 1 1 bpp 1 bpp (Some d) bpp bpp fmt IL_UNSIGNED_BYTE IL_ORIGIN_UPPER_LEFT (mkPal None 0 IL_PAL_NONE) 0 0 0 0.
Lemma half_done : match ilConvertImage (fun _ _ e => e) (fun _ _ _ a _ _ => a) no_pal no_quant ex_alloc [ex_one 1 IL_LUMINANCE [4]; ex_one 1 IL_COLOUR_INDEX [1]] IL_RGB IL_UNSIGNED_BYTE with
  | Ok (false, [a; b], _, _) => Format a = IL_RGB /\ Data a = Some [4; 4; 4] /\ b = ex_one 1 IL_COLOUR_INDEX [1] | _ => False end.
Proof. vm_compute. auto. Qed.
Theorem C85_atomic_refuted : ~ (forall fcast flum pal quant alloc ims Dst DstTy ims' e lost, allocator_ok alloc -> plenty alloc -> Forall (fun im => exists buf, img_ok im buf) ims ->
  ilConvertImage fcast flum pal quant alloc ims Dst DstTy = Ok (false, ims', e, lost) -> ims' = ims).
Proof.
  intros H. assert (X := half_done).
  specialize (H (fun _ _ e => e) (fun _ _ _ a _ _ => a) no_pal no_quant ex_alloc [ex_one 1 IL_LUMINANCE [4]; ex_one 1 IL_COLOUR_INDEX [1]] IL_RGB IL_UNSIGNED_BYTE).
  set (r := ilConvertImage _ _ _ _ _ _ _ _) in *. clearbody r. destruct r as [[[[b l] e] z]| |]; try contradiction. destruct b; [contradiction|]. destruct l as [|a [|b [|? ?]]]; try contradiction.
  specialize (H [a; b] e z (proj1 ex_alloc_ok) (proj2 ex_alloc_ok)). assert (O : Forall (fun im => exists buf, img_ok im buf) [ex_one 1 IL_LUMINANCE [4]; ex_one 1 IL_COLOUR_INDEX [1]]).
  { repeat constructor; eexists; unfold img_ok; cbn; (split; [reflexivity|]); repeat split; auto; lia. }
  specialize (H O eq_refl). injection H as -> _. destruct X as (X & _). discriminate X.
Qed.
Print Assumptions C85_atomic_refuted.

(** a chain that meets the hypotheses *)
Example C85_ex : plain (fun _ _ e => e) ex_alloc IL_UNSIGNED_BYTE 1 (ex_one 1 IL_LUMINANCE [9]) [9] [9] /\ plain (fun _ _ e => e) ex_alloc IL_UNSIGNED_BYTE 1 (ex_one 4 IL_BGRA [1; 2; 3; 4]) [1; 2; 3; 4] [1; 2; 3; 4] /\
  not_swap (ex_one 1 IL_LUMINANCE [9]) IL_RGB IL_UNSIGNED_BYTE /\
  match ilConvertImage (fun _ _ e => e) (fun _ _ _ a _ _ => a) no_pal no_quant ex_alloc [ex_one 1 IL_LUMINANCE [9]; ex_one 4 IL_BGRA [1; 2; 3; 4]] IL_RGB IL_UNSIGNED_BYTE with
  | Ok (true, [a; b], [], false) => Data a = Some [9; 9; 9] /\ Data b = Some [3; 2; 1] | _ => False end.
Proof.
  split; [|split; [|split]].
  - unfold plain, img_ok, pixels. cbn. repeat split; auto; try lia; try constructor; discriminate.
  - unfold plain, img_ok, pixels. cbn. repeat split; auto; try lia; try constructor; discriminate.
  - right. split; [discriminate|]. intros X. inversion X.
  - vm_compute. auto.
Qed.
