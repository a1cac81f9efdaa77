(** C56: saving as Targa and loading back. *)
From Coq Require Import ZArith List Lia Bool.
From Verif Require Import Base Slices BitLemmas Scatter Enums Utility Image ImageSpec ImageProps Elem Flip FlipProofs FlipProps Lump LumpSpec LumpProofs LumpProps Channels ChannelsSpec ChannelsProofs ChannelsProps Endian EndianProps Raw RawProps Rle Pcx PcxProofs PcxProps Tga TgaSpec TgaProofs.
Import ListNotations.
Open Scope Z_scope.

(** 8-bit colour, luminance or colour-indexed images of at most 65535 x 65535 pixels *)
Definition tga_savable (im : img) : Prop :=
  Depth im = 1 /\ Bpc im = 1 /\ Type_ im = IL_UNSIGNED_BYTE /\ Width im <= 65535 /\ Height im <= 65535 /\
  (Origin im = IL_ORIGIN_UPPER_LEFT \/ Origin im = IL_ORIGIN_LOWER_LEFT) /\
  (((Bpp im = 3 /\ (Format im = IL_RGB \/ Format im = IL_BGR) \/
     Bpp im = 4 /\ (Format im = IL_RGBA \/ Format im = IL_BGRA) \/
     Bpp im = 1 /\ Format im = IL_LUMINANCE) /\ Pal im = mkPal None 0 IL_PAL_NONE) \/
   (Bpp im = 1 /\ Format im = IL_COLOUR_INDEX /\
    exists p n, Pal im = mkPal (Some p) (3 * n) IL_PAL_BGR24 /\ zlen p = 3 * n /\ 1 <= n <= 32767)).

(** the texts and the date fit their fields *)
Definition tga_texts (id an ac date : list Z) : Prop :=
  zlen id <= 255 /\ zlen an <= 41 /\ zlen ac <= 324 /\ zlen date = 6 /\ Forall (fun d => 0 <= d < 65536) date.

(** the image type: colour-indexed, colour or grey; 8 more for run-length encoded files *)
Definition tga_kind (comp : bool) (f : Z) : Z := (if f =? IL_COLOUR_INDEX then 1 else if f =? IL_LUMINANCE then 3 else 2) + (if comp then 8 else 0).
(** header, ID and palette of the file of an image *)
Definition tga_front (comp : bool) (id : list Z) (im : img) : list Z :=
  let ci := Format im =? IL_COLOUR_INDEX in
  tga_header (zlen id) (if ci then 1 else 0) (tga_kind comp (Format im)) 0 (if ci then PalSize (Pal im) / 3 else 0) (if ci then 24 else 0) 0 0
    (Width im) (Height im) (8 * Bpp im)
    ((if Bpp im =? 4 then 8 else 0) + (if Origin im =? IL_ORIGIN_UPPER_LEFT then 32 else 0)) ++
  id ++ match Palette (Pal im) with Some p => p | None => [] end.

Lemma file_gen : forall (comp : bool) alloc da id an ac date im buf, img_ok im buf -> tga_savable im -> tga_texts id an ac date ->
  allocator_ok alloc -> alloc (SizeOfData im) <> None -> SizeOfData im < 2146000000 ->
  exists px : list Z, zlen px = SizeOfData im /\
    (forall x t k, in_image im x t 0 k ->
       geti px (((Height im - 1 - t) * Width im + x) * Bpp im + stored_chan (Format im) k) = picture im buf x t 0 k) /\
    (Origin im = IL_ORIGIN_LOWER_LEFT -> stored_format (Format im) = Format im -> px = buf) /\
    forall body : list Z, zlen body <= 2146000000 ->
    (if comp then exists (rle rle' : list Z), alloc (u32 (SizeOfData im + SizeOfData im / 2 + 1)) = Some rle /\
         rle_image Tga (Bpp im) da px (Width im) (Height im) 1 rle = Ok (zlen body, px, rle') /\ zlen body <= zlen rle' /\ body = slice rle' 0 (zlen body)
     else body = px) ->
    exists s, iSaveTargaInternal alloc da comp id an ac date im = Ok (Some (true, s, im)) /\
    file_of s = Some (tga_front comp id im ++ body ++ tga_trailer (zlen (tga_front comp id im) + zlen body) an ac date idString 180).
Proof.
  intros comp alloc da id an ac date im buf Hok HS (Hid & Han & Hac & Hda & HdF) HA Hn Hsize.
  assert (HS' := HS). destruct HS' as (HD & HBc & HTy & HW & HH & HO & HF).
  assert (Hok' := Hok). destruct Hok' as (HDt & HW1 & HH1 & HDp & Hbpp & Hbpc & Hbps & Hpl & Hsz & H32 & Hlen).
  destruct (swapped_image im buf Hok HBc HD) as (ci & b1 & E1 & E2 & EC & OK1 & PIC & SM).
  { unfold tga_colour. intuition auto. }
  assert (CW : Width ci = Width im) by (rewrite EC; reflexivity). assert (CH : Height ci = Height im) by (rewrite EC; reflexivity).
  assert (CB : Bpp ci = Bpp im) by (rewrite EC; reflexivity). assert (CS : SizeOfData ci = SizeOfData im) by (rewrite EC; reflexivity).
  assert (CO : Origin ci = Origin im) by (rewrite EC; reflexivity). assert (CP : Pal ci = Pal im) by (rewrite EC; reflexivity).
  assert (CC : Bpc ci = Bpc im) by (rewrite EC; reflexivity). assert (CD : Depth ci = Depth im) by (rewrite EC; reflexivity).
  destruct (lower_data alloc ci b1 OK1) as (td & ET & LT & GT & UT); [rewrite CO; exact HO|exact HA|rewrite CS; exact Hn|].
  set (ty := tga_kind comp (Format im)). set (ps := if Format im =? IL_COLOUR_INDEX then PalSize (Pal im) / 3 else 0). set (pe := if Format im =? IL_COLOUR_INDEX then 24 else 0).
  assert (TT : tga_type (Format im) comp = Some ty).
  { unfold ty. destruct HF as [([(_ & [F|F])|[(_ & [F|F])|(_ & F)]] & _)|(_ & F & _)]; rewrite F; destruct comp; reflexivity. }
  set (up := match Palette (Pal im) with Some _ => true | None => false end).
  assert (PP : (PalType (Pal im) =? IL_PAL_NONE) = negb (Format im =? IL_COLOUR_INDEX) /\ ((PalType (Pal im) =? IL_PAL_NONE) || (PalType (Pal im) =? IL_PAL_BGR24)) = true /\
     (match Palette (Pal im) with Some _ => negb (PalSize (Pal im) =? 0) && negb (PalType (Pal im) =? IL_PAL_NONE) | None => false end) = (Format im =? IL_COLOUR_INDEX) /\
     (if Format im =? IL_COLOUR_INDEX then Palette (Pal im) else None) = Palette (Pal im) /\
     (forall p, Palette (Pal im) = Some p -> zlen p = PalSize (Pal im) /\ zlen p <= 1000000)).
  { destruct HF as [([(_ & [F|F])|[(_ & [F|F])|(_ & F)]] & P)|(_ & F & p & n & P & LP & Hnn)]; rewrite F, P; cbn [Palette PalSize PalType]; repeat split; try discriminate; try reflexivity.
    - replace (3 * n =? 0) with false by lia. reflexivity.
    - injection H as <-. lia.
    - injection H as <-. lia. }
  destruct PP as (PP1 & PP2 & PP3 & PP4 & PP5).
  assert (LF : zlen (tga_front comp id im) = 18 + zlen id + zlen (pal_bytes (Palette (Pal im)))).
  { unfold tga_front. cbv zeta. rewrite (zlen_app _ (tga_header _ _ _ _ _ _ _ _ _ _ _ _)), zlen_app. fold (pal_bytes (Palette (Pal im))). change (zlen (tga_header _ _ _ _ _ _ _ _ _ _ _ _)) with 18. lia. }
  assert (LP : 0 <= zlen (pal_bytes (Palette (Pal im))) <= 1000000).
  { destruct (Palette (Pal im)) as [p|]; cbn [pal_bytes]; [destruct (PP5 p eq_refl); split; auto; lia|cbn; lia]. }
  assert (0 <= zlen id) by auto. assert (0 <= zlen td) by auto.
  exists td. split; [rewrite LT, CS; reflexivity|]. split; [|split].
  - intros x t k Hi. assert (Hi' := Hi). destruct Hi' as (Hx & Ht & Hz & Hk). rewrite <- (PIC x t 0 k) by auto.
    assert (SB : 0 <= stored_chan (Format im) k < Bpp im * Bpc im).
    { rewrite HBc, Z.mul_1_r in *. unfold stored_chan. destruct HF as [([(B & [F|F])|[(B & [F|F])|(B & F)]] & _)|(B & F & _)]; rewrite F, B in *; cbn [Z.eqb Pos.eqb orb IL_RGB IL_BGR IL_RGBA IL_BGRA IL_LUMINANCE IL_COLOUR_INDEX];
      repeat match goal with |- context [if ?a =? ?b then _ else _] => destruct (a =? b) end; lia. }
    rewrite <- (GT x t 0 (stored_chan (Format im) k)). 2:{ unfold in_image. rewrite CW, CH, CD, CB, CC. auto. }
    f_equal. unfold pix_off. rewrite CW, CH, CB, CC, HBc. ring.
  - intros EO ES. rewrite UT by (rewrite CO; exact EO). apply SM. destruct HF as [([(_ & [F|F])|[(_ & [F|F])|(_ & F)]] & _)|(_ & F & _)]; rewrite F in *; try reflexivity; discriminate.
  - intros body Lb HB. assert (0 <= zlen body) by auto. destruct comp.
    + destruct HB as (rle & rle' & EA & ER & LR & EB). eexists. split.
      { unfold iSaveTargaInternal. rewrite TT, E1. cbn [bind]. rewrite PP2. change (negb true) with false. cbv iota. rewrite HBc. change (1 <? 1) with false. cbv iota.
        rewrite ET. cbn [bind]. change (negb true) with false. cbv iota. rewrite CS, EA, CB, CW, CH, CD, HD, ER. cbn [bind]. rewrite E2. cbn [bind]. reflexivity. }
      unfold file_of. rewrite PP3, PP1, CP, PP4. change (run_file ?p [] 0) with (run_file p [] (zlen (@nil Z))).
    rewrite (u8_small (zlen id)) by lia. do 2 rewrite run_b1 by (cbn; lia). cbn [app].
    eapply run_rest; [reflexivity|exact Hid|rewrite CW; lia|rewrite CH; lia|rewrite CB; intuition lia|rewrite CP; exact PP5|reflexivity|].
    match goal with |- run_file _ ?l _ = _ => assert (EL : l = tga_front true id im) end.
    { unfold tga_front, tga_header. fold ty. fold ps. fold (pal_bytes (Palette (Pal im))). rewrite CW, CH, CB, (Z.mul_comm 8).
      assert (Edesc : tga_desc ci = (if Bpp im =? 4 then 8 else 0) + (if Origin im =? IL_ORIGIN_UPPER_LEFT then 32 else 0)).
      { unfold tga_desc. rewrite CB, CO. assert (HB : Bpp im = 3 \/ Bpp im = 4 \/ Bpp im = 1) by intuition auto.
        destruct HB as [-> | [-> | ->]]; destruct (Origin im =? IL_ORIGIN_UPPER_LEFT); reflexivity. }
      rewrite Edesc. fold pe. unfold ps, pe. destruct (Format im =? IL_COLOUR_INDEX); cbn [negb app]; rewrite <- ?app_assoc; reflexivity. }
    rewrite EL. clear EL. assert (BD : zlen (tga_front true id im) + zlen body < 2147480000) by (rewrite LF; lia).
    rewrite run_text_part by lia. rewrite <- EB. rewrite run_ext by (auto; rewrite zlen_app; lia). rewrite zlen_app, <- app_assoc. reflexivity.
    + subst body. eexists. split.
      { unfold iSaveTargaInternal. rewrite TT, E1. cbn [bind]. rewrite PP2. change (negb true) with false. cbv iota. rewrite HBc. change (1 <? 1) with false. cbv iota.
        rewrite ET. cbn [bind]. change (negb false) with true. cbv iota. rewrite E2. cbn [bind]. reflexivity. }
      unfold file_of. rewrite PP3, PP1, CP, PP4. change (run_file ?p [] 0) with (run_file p [] (zlen (@nil Z))).
    rewrite (u8_small (zlen id)) by lia. do 2 rewrite run_b1 by (cbn; lia). cbn [app].
    eapply run_rest; [reflexivity|exact Hid|rewrite CW; lia|rewrite CH; lia|rewrite CB; intuition lia|rewrite CP; exact PP5|reflexivity|].
    match goal with |- run_file _ ?l _ = _ => assert (EL : l = tga_front false id im) end.
    { unfold tga_front, tga_header. fold ty. fold ps. fold (pal_bytes (Palette (Pal im))). rewrite CW, CH, CB, (Z.mul_comm 8).
      assert (Edesc : tga_desc ci = (if Bpp im =? 4 then 8 else 0) + (if Origin im =? IL_ORIGIN_UPPER_LEFT then 32 else 0)).
      { unfold tga_desc. rewrite CB, CO. assert (HB : Bpp im = 3 \/ Bpp im = 4 \/ Bpp im = 1) by intuition auto.
        destruct HB as [-> | [-> | ->]]; destruct (Origin im =? IL_ORIGIN_UPPER_LEFT); reflexivity. }
      rewrite Edesc. fold pe. unfold ps, pe. destruct (Format im =? IL_COLOUR_INDEX); cbn [negb app]; rewrite <- ?app_assoc; reflexivity. }
    rewrite EL. clear EL. assert (BD : zlen (tga_front false id im) + zlen td < 2147480000) by (rewrite LF, LT, CS; lia).
    rewrite <- LT. rewrite run_text by lia. rewrite run_ext by (auto; rewrite zlen_app; lia). rewrite zlen_app, <- app_assoc. reflexivity.
Qed.

(** C56a: an uncompressed file consists of header, ID, palette, the pixels in bottom-up order with blue
    before red, and the extension area with the footer; the image is unchanged. *)
Theorem C56_file : forall alloc da id an ac date im buf, img_ok im buf -> tga_savable im -> tga_texts id an ac date ->
  allocator_ok alloc -> alloc (SizeOfData im) <> None -> SizeOfData im < 2146000000 ->
  exists s px, iSaveTargaInternal alloc da false id an ac date im = Ok (Some (true, s, im)) /\
    file_of s = Some (tga_front false id im ++ px ++ tga_trailer (zlen (tga_front false id im) + zlen px) an ac date idString 180) /\
    zlen px = SizeOfData im /\
    (forall x t k, in_image im x t 0 k ->
       geti px (((Height im - 1 - t) * Width im + x) * Bpp im + stored_chan (Format im) k) = picture im buf x t 0 k) /\
    (Origin im = IL_ORIGIN_LOWER_LEFT -> stored_format (Format im) = Format im -> px = buf).
Proof.
  intros alloc da id an ac date im buf Hok HS HT HA Hn Hsize. destruct (file_gen false alloc da id an ac date im buf Hok HS HT HA Hn Hsize) as (px & L & G & E & W).
  destruct (W px) as (s & A & B); [lia|reflexivity|]. exists s, px. auto.
Qed.
Print Assumptions C56_file.

Definition tga_loaded (im : img) (px : list Z) : img :=
  mkImg (Width im) (Height im) 1 (Bpp im) 1 (Bps im) (Some px) (SizeOfData im) (SizeOfData im) (stored_format (Format im)) IL_UNSIGNED_BYTE
    (Origin im) (Pal im) 0 0 0 0.

Lemma load_gen : forall comp alloc old u idb up col id im buf body tail (P : bool -> list Z -> reader -> Prop), img_ok im buf -> tga_savable im -> zlen id <= 255 ->
  allocator_ok alloc -> (forall n, 0 <= n < 2 ^ 32 -> alloc n <> None) -> (forall i, zlen (u i) = 2) -> zlen idb = 255 ->
  zlen (tga_front comp id im ++ body ++ tail) < 4294967295 ->
  (forall F p im0 blk, F = tga_front comp id im ++ body ++ tail -> p = zlen (tga_front comp id im) -> slice F p (zlen body) = body -> Data im0 = Some blk -> zlen blk = SizeOfData im ->
     (Width im0, Height im0, Depth im0, Bpp im0, SizeOfData im0) = (Width im, Height im, 1, Bpp im, SizeOfData im) ->
     exists ok px r, tga_pixels comp col im0 (Rd F p (zlen F) []) = Ok (ok, with_Data im0 (Some px), r) /\ P ok px r) ->
  exists ok px r, ilLoadTargaL alloc old u idb up col (tga_front comp id im ++ body ++ tail) = Ok (true, tga_loaded im px, r) /\ P ok px r.
Proof.
  intros comp alloc old u idb up col id im buf body tail P0 Hok HS Hid HA Hn Hu Hidb LF PX.
  destruct HS as (HD & HBc & HTy & HW & HH & HO & HF).
  destruct Hok as (HDt & HW1 & HH1 & HDp & Hbpp & Hbpc & Hbps & Hpl & Hsz & H32 & Hlen).
  assert (0 <= zlen id) by auto. assert (0 <= zlen body) by auto. assert (0 <= zlen tail) by auto.
  set (pb := pal_bytes (Palette (Pal im))).
  set (hd := tga_header (zlen id) (if Format im =? IL_COLOUR_INDEX then 1 else 0) (tga_kind comp (Format im)) 0 (if Format im =? IL_COLOUR_INDEX then PalSize (Pal im) / 3 else 0)
     (if Format im =? IL_COLOUR_INDEX then 24 else 0) 0 0 (Width im) (Height im) (8 * Bpp im) ((if Bpp im =? 4 then 8 else 0) + (if Origin im =? IL_ORIGIN_UPPER_LEFT then 32 else 0))).
  assert (EF : tga_front comp id im ++ body ++ tail = hd ++ id ++ pb ++ body ++ tail).
  { unfold tga_front. cbv zeta. fold hd. fold (pal_bytes (Palette (Pal im))). fold pb. rewrite <- !app_assoc. reflexivity. }
  assert (EF' := eq_sym EF). rewrite EF in LF |- *. assert (Lh : zlen hd = 18) by reflexivity.
  remember (hd ++ id ++ pb ++ body ++ tail) as F eqn:DF.
  assert (0 <= zlen pb) by auto.
  assert (LFe : zlen F = 18 + zlen id + zlen pb + zlen body + zlen tail) by (rewrite DF, !zlen_app; lia).
  assert (SPB : slice F (18 + zlen id) (zlen pb) = pb).
  { rewrite DF, app_assoc. rewrite slice_app_r by (rewrite ?zlen_app; lia). rewrite zlen_app, Lh, Z.sub_diag. rewrite slice_app_l by lia. apply slice_all. }
  assert (SPX : slice F (18 + zlen id + zlen pb) (zlen body) = body).
  { rewrite DF, 2!app_assoc. rewrite slice_app_r by (rewrite ?zlen_app; lia). rewrite !zlen_app, Lh, Z.sub_diag. rewrite slice_app_l by lia. apply slice_all. }
  assert (LFR : zlen (tga_front comp id im) = 18 + zlen id + zlen pb).
  { unfold tga_front. cbv zeta. fold hd. fold (pal_bytes (Palette (Pal im))). fold pb. rewrite (zlen_app _ hd), zlen_app. lia. }
  assert (PSZ : 0 <= PalSize (Pal im) / 3 < 32768).
  { destruct HF as [(_ & ->)|(_ & _ & p & n & -> & _ & Hnn)]; cbn [PalSize]; [cbn; lia|rewrite Z.mul_comm, Z.div_mul by lia; lia]. }
  assert (HB : Bpp im = 3 \/ Bpp im = 4 \/ Bpp im = 1) by intuition auto.
  assert (EH : tga_head_of F = mkTga (zlen id) (if Format im =? IL_COLOUR_INDEX then 1 else 0) (tga_kind comp (Format im)) 0 (if Format im =? IL_COLOUR_INDEX then PalSize (Pal im) / 3 else 0)
     (if Format im =? IL_COLOUR_INDEX then 24 else 0) 0 0 (Width im) (Height im) (8 * Bpp im) ((if Bpp im =? 4 then 8 else 0) + (if Origin im =? IL_ORIGIN_UPPER_LEFT then 32 else 0))).
  { rewrite DF. apply tga_head_layout; try lia; try (unfold tga_kind; destruct comp, (Format im =? IL_COLOUR_INDEX), (Format im =? IL_LUMINANCE); lia);
    destruct (Bpp im =? 4), (Origin im =? IL_ORIGIN_UPPER_LEFT); lia. }
  unfold ilLoadTargaL, iLoadTargaInternal. rewrite tga_head_ok by (auto; lia). cbn [bind]. rewrite EH.
  set (h := mkTga _ _ _ _ _ _ _ _ _ _ _ _).
  assert (EC : iCheckTarga h = Some h).
  { unfold iCheckTarga, h. cbn [HWidth HHeight TBpp ImageDesc ImageType]. replace ((Width im =? 0) || (Height im =? 0)) with false by lia.
    replace (case (8 * Bpp im) [8; 15; 16; 24; 32]) with true by (destruct HB as [-> | [-> | ->]]; reflexivity). cbn [negb].
    replace (Z.land _ 16 =? 0) with true by (destruct (Bpp im =? 4), (Origin im =? IL_ORIGIN_UPPER_LEFT); reflexivity). cbn [negb].
    replace (case (tga_kind comp (Format im)) _) with true by (unfold tga_kind; destruct comp, (Format im =? IL_COLOUR_INDEX), (Format im =? IL_LUMINANCE); reflexivity). cbn [negb].
    replace (8 * Bpp im =? 15) with false by lia. reflexivity. }
  rewrite EC. clear EC.
  assert (ET : forall px, tga_origin alloc h (with_Origin (tga_loaded im px) IL_ORIGIN_LOWER_LEFT) = Ok (tga_loaded im px)).
  { intros px. unfold tga_origin, h. cbn [ImageDesc]. destruct HO as [HO|HO]; unfold tga_loaded; rewrite HO; destruct (Bpp im =? 4); reflexivity. }
  assert (SZ : SizeOfData im = Width im * Bpp im * Height im) by (rewrite Hsz, Hpl, Hbps, HBc, HD; ring).
  assert (SZ' : Bps im = Width im * Bpp im) by (rewrite Hbps, HBc; ring).
  assert (POS : 0 < Width im * Bpp im) by (apply Z.mul_pos_pos; lia).
  assert (SM : Width im * Bpp im <= SizeOfData im) by (rewrite SZ; nia).
  assert (INIT : forall f, exists blk, zlen blk = SizeOfData im /\ ilInitImage alloc old (Width im) (Height im) 1 (Bpp im) f IL_UNSIGNED_BYTE None =
     Ok (true, mkImg (Width im) (Height im) 1 (Bpp im) 1 (Bps im) (Some blk) (SizeOfData im) (SizeOfData im) f IL_UNSIGNED_BYTE IL_ORIGIN_LOWER_LEFT (mkPal None 0 IL_PAL_NONE) 0 0 0 0, [])).
  { intros f. unfold ilInitImage. change (ilGetBpcType IL_UNSIGNED_BYTE) with 1. change (1 =? 0) with false. cbv iota zeta.
    unfold nz1. replace (Width im =? 0) with false by lia. replace (Height im =? 0) with false by lia. change (1 =? 0) with false. cbv iota.
    rewrite !Z.mul_1_r. rewrite (u32_small (Width im * Bpp im)) by lia. rewrite <- SZ. rewrite (u32_small (SizeOfData im)) by lia. rewrite (u32_small (SizeOfData im)) by lia.
    destruct (alloc (SizeOfData im)) as [blk|] eqn:EA; [|exfalso; apply (Hn (SizeOfData im)); [split; [lia|exact H32]|exact EA]].
    exists blk. split; [apply HA; exact EA|]. rewrite SZ'. reflexivity. }
  assert (RID : iReadLump idb 1 (IDLen h) (Rd F 18 (zlen F) []) = Ok (zlen id, slice F 18 (zlen id) ++ skipn (Z.to_nat (zlen id)) idb, Rd F (18 + zlen id) (zlen F) [])).
  { unfold h. cbn [IDLen]. apply read_into; lia. }
  assert (SHR : Z.shiftr (TBpp h) 3 = Bpp im). { unfold h. cbn [TBpp]. rewrite Z.shiftr_div_pow2 by lia. change (2 ^ 3) with 8. lia. }
  destruct HF as [([(B & FF)|[(B & FF)|(B & FF)]] & P)|(B & FF & p & n & P & LP & Hnn)].
  - assert (T2 : ImageType h = if comp then 10 else 2) by (unfold h; cbn [ImageType]; destruct comp; destruct FF as [-> | ->]; reflexivity). rewrite T2.
    replace ((if comp then 10 else 2) =? 0) with false by (destruct comp; reflexivity). replace (((if comp then 10 else 2) =? 1) || ((if comp then 10 else 2) =? 9)) with false by (destruct comp; reflexivity). replace (((if comp then 10 else 2) =? 2) || ((if comp then 10 else 2) =? 10)) with true by (destruct comp; reflexivity). cbv iota.
    unfold iReadUnmapTga. rewrite RID. cbn [bind]. change (IDLen h) with (zlen id). rewrite Z.eqb_refl. change (negb true) with false. cbv iota.
    rewrite SHR. change (HWidth h) with (Width im). change (HHeight h) with (Height im). destruct (INIT 0) as (blk & LB & ->). cbn [bind]. change (negb true) with false. cbv iota.
    cbn [Bpp]. replace (case (Bpp im) [1; 2; 3; 4]) with true by (rewrite B; reflexivity). cbn [negb]. cbv iota. replace (Bpp im =? 1) with false by lia. replace (Bpp im =? 4) with false by lia. cbv iota.
    rewrite T2. replace ((if comp then 10 else 2) =? 10) with comp by (destruct comp; reflexivity).
    assert (PBN : pb = []) by (unfold pb; rewrite P; reflexivity). rewrite PBN in *. change (zlen []) with 0 in *. rewrite Z.add_0_r in SPX.
    match goal with |- context [tga_pixels comp col ?i (Rd F ?q _ _)] => destruct (PX F q i blk) as (ok & px & r & -> & ER); [exact EF'|rewrite LFR; lia|exact SPX|reflexivity|exact LB|reflexivity|] end.
    cbn [bind]. replace (TBpp h =? 16) with false by (unfold h; cbn [TBpp]; lia). match goal with |- context [if negb ok then Ok (false, ?i, ?q) else Ok (true, ?i, ?q)] => replace (if negb ok then Ok (false, i, q) else Ok (true, i, q)) with (Ok (ok, i, q)) by (destruct ok; reflexivity) end. cbn [bind].
    match goal with |- context [tga_origin alloc h ?i] => replace i with (with_Origin (tga_loaded im px) IL_ORIGIN_LOWER_LEFT) end.
    2:{ unfold tga_loaded. cbn [with_Data with_Format with_Origin Width Height Depth Bpp Bpc Bps Data SizeOfData SizeOfPlane Format Type_ Origin Pal Duration CubeFlags OffX OffY]. rewrite P. destruct FF as [-> | ->]; reflexivity. }
    rewrite ET. cbn [bind]. exists ok, px, r. split; [reflexivity|]. exact ER.
  - assert (T2 : ImageType h = if comp then 10 else 2) by (unfold h; cbn [ImageType]; destruct comp; destruct FF as [-> | ->]; reflexivity). rewrite T2.
    replace ((if comp then 10 else 2) =? 0) with false by (destruct comp; reflexivity). replace (((if comp then 10 else 2) =? 1) || ((if comp then 10 else 2) =? 9)) with false by (destruct comp; reflexivity). replace (((if comp then 10 else 2) =? 2) || ((if comp then 10 else 2) =? 10)) with true by (destruct comp; reflexivity). cbv iota.
    unfold iReadUnmapTga. rewrite RID. cbn [bind]. change (IDLen h) with (zlen id). rewrite Z.eqb_refl. change (negb true) with false. cbv iota.
    rewrite SHR. change (HWidth h) with (Width im). change (HHeight h) with (Height im). destruct (INIT 0) as (blk & LB & ->). cbn [bind]. change (negb true) with false. cbv iota.
    cbn [Bpp]. replace (case (Bpp im) [1; 2; 3; 4]) with true by (rewrite B; reflexivity). cbn [negb]. cbv iota. replace (Bpp im =? 1) with false by lia. replace (Bpp im =? 4) with true by lia. cbv iota.
    rewrite T2. replace ((if comp then 10 else 2) =? 10) with comp by (destruct comp; reflexivity).
    assert (PBN : pb = []) by (unfold pb; rewrite P; reflexivity). rewrite PBN in *. change (zlen []) with 0 in *. rewrite Z.add_0_r in SPX.
    match goal with |- context [tga_pixels comp col ?i (Rd F ?q _ _)] => destruct (PX F q i blk) as (ok & px & r & -> & ER); [exact EF'|rewrite LFR; lia|exact SPX|reflexivity|exact LB|reflexivity|] end.
    cbn [bind]. replace (TBpp h =? 16) with false by (unfold h; cbn [TBpp]; lia). match goal with |- context [if negb ok then Ok (false, ?i, ?q) else Ok (true, ?i, ?q)] => replace (if negb ok then Ok (false, i, q) else Ok (true, i, q)) with (Ok (ok, i, q)) by (destruct ok; reflexivity) end. cbn [bind].
    match goal with |- context [tga_origin alloc h ?i] => replace i with (with_Origin (tga_loaded im px) IL_ORIGIN_LOWER_LEFT) end.
    2:{ unfold tga_loaded. cbn [with_Data with_Format with_Origin Width Height Depth Bpp Bpc Bps Data SizeOfData SizeOfPlane Format Type_ Origin Pal Duration CubeFlags OffX OffY]. rewrite P. destruct FF as [-> | ->]; reflexivity. }
    rewrite ET. cbn [bind]. exists ok, px, r. split; [reflexivity|]. exact ER.
  - assert (T2 : ImageType h = if comp then 11 else 3) by (unfold h; cbn [ImageType]; destruct comp; rewrite FF; reflexivity). rewrite T2.
    replace ((if comp then 11 else 3) =? 0) with false by (destruct comp; reflexivity). replace (((if comp then 11 else 3) =? 1) || ((if comp then 11 else 3) =? 9)) with false by (destruct comp; reflexivity). replace (((if comp then 11 else 3) =? 2) || ((if comp then 11 else 3) =? 10)) with false by (destruct comp; reflexivity). cbv iota.
    unfold iReadBwTga. rewrite RID. cbn [bind]. change (IDLen h) with (zlen id). rewrite Z.eqb_refl. change (negb true) with false. cbv iota.
    rewrite SHR. change (HWidth h) with (Width im). change (HHeight h) with (Height im). destruct (INIT IL_LUMINANCE) as (blk & LB & ->). cbn [bind]. change (negb true) with false. cbv iota.
    rewrite T2. replace ((if comp then 11 else 3) =? 11) with comp by (destruct comp; reflexivity).
    assert (PBN : pb = []) by (unfold pb; rewrite P; reflexivity). rewrite PBN in *. change (zlen []) with 0 in *. rewrite Z.add_0_r in SPX.
    match goal with |- context [tga_pixels comp col ?i (Rd F ?q _ _)] => destruct (PX F q i blk) as (ok & px & r & -> & ER); [exact EF'|rewrite LFR; lia|exact SPX|reflexivity|exact LB|reflexivity|] end.
    cbn [bind].
    match goal with |- context [tga_origin alloc h ?i] => replace i with (with_Origin (tga_loaded im px) IL_ORIGIN_LOWER_LEFT) end.
    2:{ unfold tga_loaded. cbn [with_Data with_Format with_Origin Width Height Depth Bpp Bpc Bps Data SizeOfData SizeOfPlane Format Type_ Origin Pal Duration CubeFlags OffX OffY]. rewrite P, FF. reflexivity. }
    rewrite ET. cbn [bind]. exists ok, px, r. split; [reflexivity|]. exact ER.
  - assert (T2 : ImageType h = if comp then 9 else 1) by (unfold h; cbn [ImageType]; destruct comp; rewrite FF; reflexivity). rewrite T2.
    replace ((if comp then 9 else 1) =? 0) with false by (destruct comp; reflexivity). replace (((if comp then 9 else 1) =? 1) || ((if comp then 9 else 1) =? 9)) with true by (destruct comp; reflexivity). cbv iota.
    unfold iReadColMapTga. rewrite RID. cbn [bind]. change (IDLen h) with (zlen id). rewrite Z.eqb_refl. change (negb true) with false. cbv iota.
    rewrite SHR. change (HWidth h) with (Width im). change (HHeight h) with (Height im). destruct (INIT 0) as (blk & LB & ->). cbn [bind]. change (negb true) with false. cbv iota.
    assert (EE : ColMapEntSize h = 24) by (unfold h; cbn [ColMapEntSize]; rewrite FF; reflexivity).
    assert (EL : ColMapLen h = n) by (unfold h; cbn [ColMapLen]; rewrite FF, P; cbn [PalSize]; change (IL_COLOUR_INDEX =? IL_COLOUR_INDEX) with true; cbv iota; rewrite Z.mul_comm, Z.div_mul by lia; reflexivity).
    rewrite EE, EL, T2. change (24 =? 16) with false. change (Z.shiftr 24 3) with 3. change (negb (case 24 [16; 24; 32])) with false. change (24 =? 24) with true. cbv iota zeta.
    rewrite (u32_small (n * 3)) by lia.
    assert (PBN : pb = p) by (unfold pb; rewrite P; reflexivity). rewrite PBN in *.
    destruct (alloc (n * 3)) as [pl|] eqn:EA; [|exfalso; apply (Hn (n * 3)); [split; [lia|change (2 ^ 32) with 4294967296; lia]|exact EA]]. apply HA in EA.
    change (negb false) with true. cbv iota. rewrite read_in by lia. cbn [bind]. rewrite Z.eqb_refl. cbn [bind]. change (negb true) with false. cbv iota.
    replace ((if comp then 9 else 1) =? 9) with comp by (destruct comp; reflexivity). replace (n * 3) with (zlen p) by lia. rewrite SPB.
    match goal with |- context [tga_pixels comp col ?i (Rd F ?q _ _)] => destruct (PX F q i blk) as (ok & px & r & -> & ER); [exact EF'|rewrite LFR; lia|exact SPX|reflexivity|exact LB|reflexivity|] end.
    cbn [bind].
    match goal with |- context [tga_origin alloc h ?i] => replace i with (with_Origin (tga_loaded im px) IL_ORIGIN_LOWER_LEFT) end.
    2:{ unfold tga_loaded. cbn [with_Pal with_Data with_Format with_Origin Width Height Depth Bpp Bpc Bps Data SizeOfData SizeOfPlane Format Type_ Origin Pal Duration CubeFlags OffX OffY]. rewrite P, FF, LP. reflexivity. }
    rewrite ET. cbn [bind]. exists ok, px, r. split; [reflexivity|]. exact ER.
Qed.

Lemma round : forall alloc alloc' da old u idb up col id an ac date im buf, img_ok im buf -> tga_savable im -> tga_texts id an ac date ->
  allocator_ok alloc -> alloc (SizeOfData im) <> None -> SizeOfData im < 2146000000 ->
  allocator_ok alloc' -> (forall n, 0 <= n < 2 ^ 32 -> alloc' n <> None) -> (forall i, zlen (u i) = 2) -> zlen idb = 255 ->
  exists s f im2 buf2 r, iSaveTargaInternal alloc da false id an ac date im = Ok (Some (true, s, im)) /\ file_of s = Some f /\
    ilLoadTargaL alloc' old u idb up col f = Ok (true, im2, r) /\ rerr r = [] /\ img_ok im2 buf2 /\
    (Width im2, Height im2, Depth im2, Bpp im2, Type_ im2, Pal im2) = (Width im, Height im, Depth im, Bpp im, Type_ im, Pal im) /\
    Format im2 = stored_format (Format im) /\ Origin im2 = Origin im /\
    (forall x t k, in_image im x t 0 k -> in_image im2 x t 0 (stored_chan (Format im) k)) /\
    (forall x t k, in_image im x t 0 k -> geti buf2 (pix_off im2 x (Height im - 1 - t) 0 (stored_chan (Format im) k)) = picture im buf x t 0 k) /\
    (Origin im = IL_ORIGIN_LOWER_LEFT -> stored_format (Format im) = Format im -> buf2 = buf).
Proof.
  intros alloc alloc' da old u idb up col id an ac date im buf Hok HS HT HA Hn Hsize HA' Hn' Hu Hidb.
  destruct (C56_file alloc da id an ac date im buf Hok HS HT HA Hn Hsize) as (s & px & ES & EF & LP & GP & SP).
  assert (HT' := HT). destruct HT' as (Hid & Han & Hac & Hda & HdF).
  assert (LF : zlen (tga_front false id im) <= 1000300).
  { unfold tga_front. cbv zeta. rewrite (zlen_app _ (tga_header _ _ _ _ _ _ _ _ _ _ _ _)), zlen_app. change (zlen (tga_header _ _ _ _ _ _ _ _ _ _ _ _)) with 18.
    destruct HS as (_ & _ & _ & _ & _ & _ & [(_ & ->)|(_ & _ & p & n & -> & Lp & Hnn)]); cbn [Palette]; [change (zlen (@nil Z)) with 0|]; lia. }
  destruct (load_gen false alloc' old u idb up col id im buf px (tga_trailer (zlen (tga_front false id im) + zlen px) an ac date idString 180) (fun _ px' r => px' = px /\ rerr r = [])) as (ok & px' & r & EL & -> & ER); auto.
  { rewrite !zlen_app. rewrite zlen_trailer by (auto; reflexivity). lia. }
  { intros F p im0 blk HF Hp HSl HD HL HG. injection HG as G1 G2 G3 G4 G5. eexists _, px, _. split; [apply (pixels_raw col im0 blk F p [] px HD)|split; reflexivity].
    - lia.
    - subst p. auto.
    - subst F p. rewrite !zlen_app. assert (0 <= zlen (tga_trailer (zlen (tga_front false id im) + zlen px) an ac date idString 180)) by auto. lia.
    - subst F. rewrite !zlen_app, zlen_trailer by (auto; reflexivity). assert (0 <= zlen (tga_front false id im)) by auto. assert (0 <= zlen px) by auto. lia.
    - rewrite G5, <- LP. symmetry. exact HSl. }
  eexists s, _, (tga_loaded im px), px, r. split; [exact ES|]. split; [exact EF|]. split; [exact EL|]. split; [exact ER|].
  assert (Hok' := Hok). destruct Hok' as (HDt & HW1 & HH1 & HDp & Hbpp & Hbpc & Hbps & Hpl & Hsz & H32 & Hlen).
  assert (HS' := HS). destruct HS' as (HD & HBc & HTy & HW & HH & HO & HF). rewrite HBc, HD, Z.mul_1_r in *.
  split.
  { unfold img_ok, tga_loaded. cbn [Width Height Depth Bpp Bpc Bps SizeOfPlane SizeOfData Data]. repeat split; auto; try lia. }
  split; [unfold tga_loaded; cbn [Width Height Depth Bpp Type_ Pal]; rewrite ?HD, HTy; reflexivity|]. split; [reflexivity|]. split; [reflexivity|].
  split; [|split; [|exact SP]].
  - intros x t k (Hx & Ht & Hz & Hk). unfold in_image, tga_loaded. cbn [Width Height Depth Bpp Bpc]. rewrite HBc, Z.mul_1_r in *.
    split; [exact Hx|]. split; [exact Ht|]. split; [lia|]. unfold stored_chan.
    destruct HF as [([(B & [F|F])|[(B & [F|F])|(B & F)]] & _)|(B & F & _)]; rewrite F, B in *; cbn [Z.eqb Pos.eqb orb IL_RGB IL_BGR IL_RGBA IL_BGRA IL_LUMINANCE IL_COLOUR_INDEX];
      repeat match goal with |- context [if ?a =? ?b then _ else _] => destruct (a =? b) end; lia.
  - intros x t k Hi. rewrite <- (GP x t k Hi). f_equal. unfold pix_off, tga_loaded. cbn [Width Height Depth Bpp Bpc]. ring.
Qed.

(** C56b: the round trip, for images whose origin is lower left: the same picture comes back, with the same
    size, type, palette and origin; RGB comes back as BGR (the channels in the other order).
    Full property: for every origin.  That is false, see [C56_upside_down]. *)
Theorem C56_roundtrip_partial : forall alloc alloc' da old u idb up col id an ac date im buf,
  img_ok im buf -> tga_savable im -> tga_texts id an ac date -> Origin im = IL_ORIGIN_LOWER_LEFT ->
  allocator_ok alloc -> alloc (SizeOfData im) <> None -> SizeOfData im < 2146000000 ->
  allocator_ok alloc' -> (forall n, 0 <= n < 2 ^ 32 -> alloc' n <> None) -> (forall i, zlen (u i) = 2) -> zlen idb = 255 ->
  exists s f im2 buf2 r, iSaveTargaInternal alloc da false id an ac date im = Ok (Some (true, s, im)) /\ file_of s = Some f /\
    ilLoadTargaL alloc' old u idb up col f = Ok (true, im2, r) /\ rerr r = [] /\ img_ok im2 buf2 /\
    (Width im2, Height im2, Depth im2, Bpp im2, Type_ im2, Pal im2) = (Width im, Height im, Depth im, Bpp im, Type_ im, Pal im) /\
    Format im2 = stored_format (Format im) /\ Origin im2 = IL_ORIGIN_LOWER_LEFT /\
    (forall x t k, in_image im x t 0 k -> picture im2 buf2 x t 0 (stored_chan (Format im) k) = picture im buf x t 0 k) /\
    (stored_format (Format im) = Format im -> buf2 = buf).
Proof.
  intros. destruct (round alloc alloc' da old u idb up col id an ac date im buf) as (s & f & im2 & buf2 & r & A & B & C & D & E & F & G & I & J & K & L); auto.
  exists s, f, im2, buf2, r. repeat (split; [assumption || congruence|]). split; [|auto].
  intros x t k Hi. rewrite <- (K x t k Hi). unfold picture. rewrite I, H2. change (IL_ORIGIN_LOWER_LEFT =? IL_ORIGIN_UPPER_LEFT) with false. cbv iota.
  injection F as _ -> _ _ _ _. reflexivity.
Qed.
Print Assumptions C56_roundtrip_partial.

(** C56c: an image whose origin is upper left comes back upside down: row [t] of the loaded picture is row
    [Height - 1 - t] of the saved one.  The rows are written bottom-up (il_targa.cpp:702-710) but the header
    says top-down (744-745). *)
Theorem C56_upside_down : forall alloc alloc' da old u idb up col id an ac date im buf,
  img_ok im buf -> tga_savable im -> tga_texts id an ac date -> Origin im = IL_ORIGIN_UPPER_LEFT ->
  allocator_ok alloc -> alloc (SizeOfData im) <> None -> SizeOfData im < 2146000000 ->
  allocator_ok alloc' -> (forall n, 0 <= n < 2 ^ 32 -> alloc' n <> None) -> (forall i, zlen (u i) = 2) -> zlen idb = 255 ->
  exists s f im2 buf2 r, iSaveTargaInternal alloc da false id an ac date im = Ok (Some (true, s, im)) /\ file_of s = Some f /\
    ilLoadTargaL alloc' old u idb up col f = Ok (true, im2, r) /\ rerr r = [] /\ img_ok im2 buf2 /\
    (Width im2, Height im2, Depth im2, Bpp im2, Type_ im2, Pal im2) = (Width im, Height im, Depth im, Bpp im, Type_ im, Pal im) /\
    Format im2 = stored_format (Format im) /\ Origin im2 = IL_ORIGIN_UPPER_LEFT /\
    (forall x t k, in_image im x t 0 k -> picture im2 buf2 x (Height im - 1 - t) 0 (stored_chan (Format im) k) = picture im buf x t 0 k).
Proof.
  intros. destruct (round alloc alloc' da old u idb up col id an ac date im buf) as (s & f & im2 & buf2 & r & A & B & C & D & E & F & G & I & J & K & L); auto.
  exists s, f, im2, buf2, r. repeat (split; [assumption || congruence|]).
  intros x t k Hi. rewrite <- (K x t k Hi). unfold picture. rewrite I, H2. reflexivity.
Qed.
Print Assumptions C56_upside_down.

(** ** A concrete case *)
Definition ex_tga (o f b : Z) (d : list Z) : img := mkImg 2 2 1 b 1 (2 * b) (Some d) (4 * b) (4 * b) f IL_UNSIGNED_BYTE o (mkPal None 0 IL_PAL_NONE) 0 0 0 0.
Definition ex_u (i : Z) : list Z := [i; 9].
Definition ex_date : list Z := [11; 17; 2026; 14; 5; 0].
Definition ex_rgb : list Z := [1; 2; 3; 4; 5; 6; 7; 8; 9; 10; 11; 12].
Example ex_tga_ok : forall o, img_ok (ex_tga o IL_RGB 3 ex_rgb) ex_rgb.
Proof. intros. unfold img_ok; cbn; repeat split; lia. Qed.
Example ex_tga_savable : forall o, o = IL_ORIGIN_UPPER_LEFT \/ o = IL_ORIGIN_LOWER_LEFT -> tga_savable (ex_tga o IL_RGB 3 ex_rgb).
Proof. intros o Ho. unfold tga_savable. cbn. repeat split; try lia; try exact Ho. left. auto. Qed.
Example ex_tga_texts : tga_texts [65; 66] [67] [] ex_date.
Proof. unfold tga_texts, ex_date. cbn. repeat split; try lia. repeat constructor; lia. Qed.
Definition ex_trip (o : Z) : res (option (bool * option (list Z) * Z * Z)) :=
  match iSaveTargaInternal ex_alloc 0 false [65; 66] [67] [] ex_date (ex_tga o IL_RGB 3 ex_rgb) with
  | Ok (Some (true, s, _)) =>
      match file_of s with
      | Some f => let! (ok, im, _) := ilLoadTargaL ex_alloc ex_old ex_u (repeat 7 255) [0; 0] [0; 0; 0; 0] f in Ok (Some (ok, Data im, Format im, Origin im))
      | None => Ok None
      end
  | Ok _ => Ok None
  | UB => UB
  | Fuel => Fuel
  end.
Example ex_trip_lower : ex_trip IL_ORIGIN_LOWER_LEFT = Ok (Some (true, Some [3; 2; 1; 6; 5; 4; 9; 8; 7; 12; 11; 10], IL_BGR, IL_ORIGIN_LOWER_LEFT)).
Proof. vm_compute. reflexivity. Qed.
(** the same bytes in the other order of rows: upside down *)
Example ex_trip_upper : ex_trip IL_ORIGIN_UPPER_LEFT = Ok (Some (true, Some [9; 8; 7; 12; 11; 10; 3; 2; 1; 6; 5; 4], IL_BGR, IL_ORIGIN_UPPER_LEFT)).
Proof. vm_compute. reflexivity. Qed.

(** C56d: the round trip of the picture fails for images with origin upper left *)
Theorem C56_roundtrip_refuted : ~ (forall alloc da old u idb up col id an ac date im buf,
  img_ok im buf -> tga_savable im -> tga_texts id an ac date -> allocator_ok alloc -> (forall n, 0 <= n < 2 ^ 32 -> alloc n <> None) ->
  (forall i, zlen (u i) = 2) -> zlen idb = 255 ->
  forall s f im2 buf2 r, iSaveTargaInternal alloc da false id an ac date im = Ok (Some (true, s, im)) -> file_of s = Some f ->
    ilLoadTargaL alloc old u idb up col f = Ok (true, im2, r) -> Data im2 = Some buf2 ->
    forall x t k, in_image im x t 0 k -> picture im2 buf2 x t 0 (stored_chan (Format im) k) = picture im buf x t 0 k).
Proof.
  intros H.
  assert (NA : forall n, 0 <= n < 2 ^ 32 -> ex_alloc n <> None) by (intros; apply ex_alloc_some; assumption).
  destruct (C56_upside_down ex_alloc ex_alloc 0 ex_old ex_u (repeat 7 255) [0; 0] [0; 0; 0; 0] [65; 66] [67] [] ex_date _ _ (ex_tga_ok IL_ORIGIN_UPPER_LEFT))
    as (s & f & im2 & buf2 & r & A & B & C & D & E & F & G & I & J);
    [apply ex_tga_savable; auto|exact ex_tga_texts|reflexivity|exact ex_alloc_ok|apply ex_alloc_some; cbn; lia|reflexivity|exact ex_alloc_ok|exact NA|reflexivity|reflexivity|].
  assert (HI : forall t, 0 <= t < 2 -> in_image (ex_tga IL_ORIGIN_UPPER_LEFT IL_RGB 3 ex_rgb) 0 t 0 0) by (intros; unfold in_image; cbn; lia).
  assert (E1 := H ex_alloc 0 ex_old ex_u (repeat 7 255) [0; 0] [0; 0; 0; 0] [65; 66] [67] [] ex_date _ _ (ex_tga_ok IL_ORIGIN_UPPER_LEFT)
    (ex_tga_savable _ (or_introl eq_refl)) ex_tga_texts ex_alloc_ok NA (fun i => eq_refl) eq_refl s f im2 buf2 r A B C (proj1 E) 0 0 0 (HI 0 ltac:(lia))).
  assert (E2 := J 0 1 0 (HI 1 ltac:(lia))). change (Height _ - 1 - 1) with 0 in E2. rewrite E2 in E1. discriminate E1.
Qed.
Print Assumptions C56_roundtrip_refuted.

(** C59a: the size that ilDetermineSize gives for a colour or grey image is one byte less than the file. *)
Theorem C59_one_short : forall alloc da id an ac date im buf, img_ok im buf -> tga_savable im -> tga_texts id an ac date ->
  allocator_ok alloc -> alloc (SizeOfData im) <> None -> SizeOfData im < 2146000000 -> Format im <> IL_COLOUR_INDEX ->
  exists s f, iSaveTargaInternal alloc da false id an ac date im = Ok (Some (true, s, im)) /\ file_of s = Some f /\ zlen f = iTargaSize id im + 1.
Proof.
  intros alloc da id an ac date im buf Hok HS HT HA Hn Hsize HC.
  destruct (C56_file alloc da id an ac date im buf Hok HS HT HA Hn Hsize) as (s & px & ES & EF & LP & _). exists s. eexists. split; [exact ES|]. split; [exact EF|].
  destruct HT as (Hid & Han & Hac & Hda & HdF). assert (0 <= zlen id) by auto. rewrite !zlen_app, zlen_trailer by (auto; reflexivity).
  destruct HS as (HD & HBc & HTy & HW & HH & HO & HF). destruct Hok as (_ & _ & _ & _ & _ & _ & Hbps & Hpl & Hsz & _). assert (0 <= SizeOfData im) by (rewrite <- LP; auto).
  unfold tga_front. cbv zeta. rewrite (zlen_app _ (tga_header _ _ _ _ _ _ _ _ _ _ _ _)), zlen_app. change (zlen (tga_header _ _ _ _ _ _ _ _ _ _ _ _)) with 18.
  destruct HF as [(HF & ->)|(_ & F & _)]; [|contradiction]. cbn [Palette]. change (zlen (@nil Z)) with 0.
  assert (ET : iTargaSize id im = u32 (18 + u8 (zlen id) + Width im * Height im * Bpp im + 532)).
  { unfold iTargaSize. destruct HF as [(B & [F|F])|[(B & [F|F])|(B & F)]]; rewrite F, B; reflexivity. }
  rewrite ET, u8_small by lia. replace (Width im * Height im * Bpp im) with (SizeOfData im) by (rewrite Hsz, Hpl, Hbps, HBc, HD; ring).
  rewrite u32_small by lia. rewrite LP. ring.
Qed.
Print Assumptions C59_one_short.
(** for colour-indexed images it is zero *)
Theorem C59_index_zero : forall id im, Format im = IL_COLOUR_INDEX -> iTargaSize id im = 0.
Proof. intros id im F. unfold iTargaSize. rewrite F. reflexivity. Qed.
Print Assumptions C59_index_zero.
Example C59_hyp : iTargaSize [65; 66] (ex_tga IL_ORIGIN_LOWER_LEFT IL_RGB 3 ex_rgb) = 564 /\
  match iSaveTargaInternal ex_alloc 0 false [65; 66] [67] [] ex_date (ex_tga IL_ORIGIN_LOWER_LEFT IL_RGB 3 ex_rgb) with
  | Ok (Some (true, s, _)) => match file_of s with Some f => zlen f = 565 | None => False end | _ => False end.
Proof. split; vm_compute; reflexivity. Qed.

(** C60a: a file that ends inside the pixels is accepted: loading succeeds; the pixels present in the file are
    loaded, the others keep what the fresh block contained; only the error stack tells.  (il_targa.cpp:203-220
    set bTarga, but nothing looks at it.) *)
Theorem C60_truncated_accepted : forall alloc old u idb up col id im buf part, img_ok im buf -> tga_savable im -> zlen id <= 255 ->
  allocator_ok alloc -> (forall n, 0 <= n < 2 ^ 32 -> alloc n <> None) -> (forall i, zlen (u i) = 2) -> zlen idb = 255 ->
  zlen part < SizeOfData im -> SizeOfData im < 2146000000 ->
  exists px r, ilLoadTargaL alloc old u idb up col (tga_front false id im ++ part) = Ok (true, tga_loaded im px, r) /\
    slice px 0 (zlen part) = part /\ zlen px = SizeOfData im /\ rerr r = [IL_FILE_READ_ERROR].
Proof.
  intros alloc old u idb up col id im buf part Hok HS Hid HA Hn Hu Hidb Lp Hsz.
  assert (LF : 18 <= zlen (tga_front false id im) <= 1000300).
  { assert (0 <= zlen id) by auto. unfold tga_front. cbv zeta. rewrite (zlen_app _ (tga_header _ _ _ _ _ _ _ _ _ _ _ _)), zlen_app. change (zlen (tga_header _ _ _ _ _ _ _ _ _ _ _ _)) with 18.
    destruct HS as (_ & _ & _ & _ & _ & _ & [(_ & ->)|(_ & _ & p & n & -> & Lpp & Hnn)]); cbn [Palette]; [change (zlen (@nil Z)) with 0|]; lia. }
  assert (0 <= zlen part) by auto. assert (EP : tga_front false id im ++ part = tga_front false id im ++ part ++ []) by (rewrite app_nil_r; reflexivity). rewrite EP. clear EP.
  destruct (load_gen false alloc old u idb up col id im buf part [] (fun _ px r => slice px 0 (zlen part) = part /\ zlen px = SizeOfData im /\ rerr r = [IL_FILE_READ_ERROR]))
    as (ok & px & r & EL & E1 & E2 & E3); auto; [| |exists px, r; auto].
  - rewrite app_nil_r, zlen_app. lia.
  - intros F p im0 blk HF Hp HSl HD HL HG. injection HG as G1 G2 G3 G4 G5. rewrite app_nil_r in HF.
    assert (LFF : zlen F = p + zlen part) by (subst F p; rewrite zlen_app; reflexivity).
    assert (RS : rest F p (SizeOfData im) = part).
    { assert (LFS : zlen (rest F p (SizeOfData im)) = zlen part). { unfold rest, zlen in *. rewrite firstn_length, skipn_length. lia. }
      unfold rest. rewrite firstn_all2 by (rewrite skipn_length; unfold zlen in *; lia). subst F p. rewrite skipn_app. unfold zlen. rewrite Nat2Z.id, skipn_all, Nat.sub_diag. reflexivity. }
    unfold tga_pixels. rewrite HD, G5. rewrite (C21_read F) by (try (split; [reflexivity|cbn; lia]); lia). cbn [rpos rerr]. cbv zeta. rewrite Z.mul_1_l, RS.
    rewrite Z.div_1_r. replace (zlen part =? SizeOfData im) with false by lia. cbn [bind]. eexists _, _, _. split; [reflexivity|].
    split; [rewrite slice_app_l by lia; apply slice_all|]. split; [|reflexivity]. rewrite zlen_app. unfold zlen in *. rewrite skipn_length. lia.
Qed.
Print Assumptions C60_truncated_accepted.
Example C60_hyp : match ilLoadTargaL ex_alloc ex_old ex_u (repeat 7 255) [0; 0] [0; 0; 0; 0] (tga_front false [65] (ex_tga IL_ORIGIN_LOWER_LEFT IL_RGB 3 ex_rgb) ++ [1; 2; 3; 4]) with
  | Ok (true, im, r) => Data im = Some [1; 2; 3; 4; 7; 7; 7; 7; 7; 7; 7; 7] /\ rerr r = [IL_FILE_READ_ERROR] | _ => False end.
Proof. vm_compute. split; reflexivity. Qed.
