(** C25: saving as PCX and loading back. *)
From Coq Require Import ZArith List Lia Bool.
From Verif Require Import Base Slices BitLemmas Scatter Enums Utility Image ImageSpec ImageProps Flip FlipProofs FlipProps Lump LumpSpec LumpProofs LumpProps Channels Endian EndianProps Raw RawProps Pcx PcxSpec PcxProofs.
Import ListNotations.
Open Scope Z_scope.

(** 8-bit RGB, RGBA, or colour-indexed with an RGB palette of at most 256 colours *)
Definition pcx_savable (im : img) : Prop :=
  Depth im = 1 /\ Bpc im = 1 /\ Type_ im = IL_UNSIGNED_BYTE /\ Width im <= 65536 /\ Height im <= 65536 /\
  ((Bpp im = 3 /\ Format im = IL_RGB /\ Pal im = mkPal None 0 IL_PAL_NONE) \/
   (Bpp im = 4 /\ Format im = IL_RGBA /\ Pal im = mkPal None 0 IL_PAL_NONE) \/
   (Bpp im = 1 /\ Format im = IL_COLOUR_INDEX /\ exists p, Pal im = mkPal (Some p) (zlen p) IL_PAL_RGB24 /\ zlen p <= 768)).

(** The images that PCX can hold: not wider than 65534 or higher than 65536 pixels. *)
Definition pcx_image (im : img) : Prop := pcx_savable im /\ Width im <= 65534.

(** the palette of the loaded image: 256 colours, the missing ones black *)
Definition pcx_full_pal (p : pal) : pal :=
  match Palette p with Some b => mkPal (Some (b ++ repeat 0 (768 - length b))) 768 IL_PAL_RGB24 | None => p end.

Definition pcx_hdr (im : img) : list Z :=
  [10; 5; 1; 8; 0; 0; 0; 0] ++ little2 (Width im - 1) ++ little2 (Height im - 1) ++ [0; 0; 0; 0] ++ repeat 0 48 ++ [0; Bpp im] ++
  little2 (u16 (padded (Width im))) ++ [1; 0] ++ repeat 0 58.
Lemma zlen_hdr : forall im, zlen (pcx_hdr im) = 128.
Proof. reflexivity. Qed.

Lemma run_short : forall v k f, zlen f < 2147483640 -> run_file (SaveLittleUShort v k) f (zlen f) = run_file k (f ++ little2 v) (zlen (f ++ little2 v)).
Proof. intros v k f H. unfold SaveLittleUShort. rewrite le2. apply run_write; try lia; try reflexivity. Qed.

Lemma header_ok : forall im k, 1 <= Width im <= 65536 -> 1 <= Height im <= 65536 -> 0 <= Bpp im < 256 ->
  run_file (pcx_header im k) [] 0 = run_file k (pcx_hdr im) 128.
Proof.
  intros im k HW HH HB. unfold pcx_header. change (run_file ?p [] 0) with (run_file p [] (zlen (@nil Z))).
  do 4 rewrite run_putc by (cbn; lia). cbn [app].
  do 6 rewrite run_short by (rewrite ?zlen_app; cbn; lia).
  rewrite run_putn by (rewrite ?zlen_app; cbn; lia).
  do 2 rewrite run_putc by (rewrite ?zlen_app; cbn; lia).
  do 2 rewrite run_short by (rewrite ?zlen_app; cbn; lia).
  rewrite run_putn by (rewrite ?zlen_app; cbn; lia).
  rewrite u8_small by lia. rewrite (u16_small (Width im - 1)), (u16_small (Height im - 1)) by lia.
  rewrite <- !app_assoc. reflexivity.
Qed.

Lemma pal_ok : forall im p k f, Pal im = p -> 0 <= PalSize p <= 768 -> (forall b, Palette p = Some b -> zlen b = PalSize p) -> zlen f < 2147480000 ->
  k = match Palette p with Some b => b | None => [] end ->
  run_file (pcx_pal im (Palette p)) f (zlen f) = Some (f ++ [12] ++ k ++ repeat 0 (Z.to_nat (768 - PalSize p))).
Proof.
  intros im p k f HP HS HL Hf ->. unfold pcx_pal. rewrite HP. rewrite run_putc by lia. rewrite u32_small by lia.
  assert (Z1 : zlen (f ++ [12]) = zlen f + 1) by (rewrite zlen_app; reflexivity).
  destruct (Palette p) as [b|].
  - specialize (HL b eq_refl). rewrite run_write by lia. rewrite run_putn by (rewrite zlen_app; lia). cbn [run_file]. rewrite <- !app_assoc. reflexivity.
  - rewrite run_putn by lia. cbn [run_file]. rewrite <- !app_assoc. reflexivity.
Qed.

(** C25a: the file consists of a 128-byte header, for every row a PCX code of its planes (padded to an
    even length), the byte 12 and 768 bytes of palette. *)
Theorem C25_file : forall alloc im buf, img_ok im buf -> bytes buf -> pcx_savable im -> allocator_ok alloc -> alloc (SizeOfData im) <> None ->
  1000 + Height im * (Bpp im * (2 * Width im + 1)) < 2147480000 ->
  exists s td rows, iSavePcxInternal alloc im = Ok (Some s) /\
    file_of s = Some (pcx_hdr im ++ concat rows ++ [12] ++ match Palette (Pal im) with Some b => b | None => [] end ++ repeat 0 (Z.to_nat (768 - PalSize (Pal im)))) /\
    zlen rows = Height im /\ coded_rows (Width im) (Bpp im) td 0 rows /\
    zlen td = SizeOfData im /\ bytes td /\
    (forall x t z k, in_image im x t z k -> geti td (pix_off im x t z k) = picture im buf x t z k) /\
    (Origin im = IL_ORIGIN_UPPER_LEFT -> td = buf) /\
    zlen (concat rows) <= Height im * (Bpp im * (2 * Width im + 1)).
Proof.
  intros alloc im buf Hok HB HI HA Hn Hsize. destruct (upper_data alloc im buf Hok HA Hn) as (td & ET & LT & BT & GT & UT). specialize (BT HB).
  assert (Hok' := Hok). destruct Hok' as (HD & HW & HH & HDp & Hbpp & Hbpc & Hbps & Hpl & Hsz & H32 & Hlen).
  destruct HI as (HDe & HBc & HTy & HWm & HHm & HF).
  assert (EB : Bps im = Width im * Bpp im) by (rewrite Hbps, HBc; ring).
  assert (SZ : SizeOfData im = Width im * Bpp im * Height im) by (rewrite Hsz, Hpl, EB, HDe; ring).
  destruct (for_rows (Z.to_nat (Height im)) 0 (Width im) (Bpp im) td (pcx_pal im (Palette (Pal im))) (pcx_hdr im)) as (rows & E & LR & CR & ZR); auto; try lia.
  { rewrite zlen_hdr. rewrite Z2Nat.id by lia. lia. }
  assert (PS : 0 <= PalSize (Pal im) <= 768 /\ (forall b, Palette (Pal im) = Some b -> zlen b = PalSize (Pal im))).
  { destruct HF as [(_ & _ & ->)|[(_ & _ & ->)|(_ & _ & p & -> & Hp)]]; cbn; (split; [|try discriminate]); try lia.
    - assert (0 <= zlen p) by auto. lia.
    - intros b X. injection X as <-. reflexivity. }
  destruct PS as (PS & PL).
  exists (pcx_write im im td (Palette (Pal im))), td, rows.
  assert (PX : pcx_write im im td (Palette (Pal im)) = pcx_header im (pcx_pixels im td (pcx_pal im (Palette (Pal im))))) by reflexivity.
  split.
  { unfold iSavePcxInternal. rewrite HBc. change (1 <? 1) with false. rewrite ET. cbn [bind].
    destruct HF as [(_ & -> & ->)|[(_ & -> & ->)|(_ & -> & p & -> & Hp)]]; cbn [Palette PalSize PalType]; try reflexivity.
    change ((IL_COLOUR_INDEX =? IL_LUMINANCE) || (IL_COLOUR_INDEX =? IL_BGR) || (IL_COLOUR_INDEX =? IL_BGRA) || false) with false.
    change ((IL_COLOUR_INDEX =? IL_COLOUR_INDEX) && negb (IL_PAL_RGB24 =? IL_PAL_RGB24)) with false. cbv iota. change (IL_COLOUR_INDEX =? IL_COLOUR_INDEX) with true. cbv iota.
    rewrite Z.ltb_irrefl, slice_all. reflexivity. }
  split.
  { unfold file_of. rewrite PX, header_ok by lia. unfold pcx_pixels. rewrite EB, i32_small by lia.
    change 128 with (zlen (pcx_hdr im)). rewrite E. rewrite (pal_ok im (Pal im) (match Palette (Pal im) with Some b => b | None => [] end)); auto.
    rewrite zlen_app, zlen_hdr. rewrite Z2Nat.id in ZR by lia. lia. }
  split; [unfold zlen; lia|]. split; [exact CR|]. split; [exact LT|]. split; [exact BT|]. split; [exact GT|]. split; [exact UT|].
  rewrite Z2Nat.id in ZR by lia. exact ZR.
Qed.

Lemma check_hdr : forall im tail, 1 <= Width im <= 65534 -> 1 <= Height im <= 65536 -> 0 <= Bpp im < 256 ->
  let h := head_of (pcx_hdr im ++ tail) in
  iCheckPcx h = true /\ HBpp h = 8 /\ Version h = 5 /\ u32 (Xmax h - Xmin h + 1) = Width im /\ u32 (Ymax h - Ymin h + 1) = Height im /\ NumPlanes h = Bpp im /\
  HBps h = padded (Width im).
Proof.
  intros im tail HW HH HB h.
  assert (E1 : Xmin h = 0) by reflexivity. assert (E2 : Ymin h = 0) by reflexivity.
  assert (E3 : Xmax h = (Width im - 1) mod 256 + 256 * ((Width im - 1) / 256 mod 256)) by reflexivity.
  assert (E4 : Ymax h = (Height im - 1) mod 256 + 256 * ((Height im - 1) / 256 mod 256)) by reflexivity.
  assert (E5 : HBps h = u16 (padded (Width im)) mod 256 + 256 * (u16 (padded (Width im)) / 256 mod 256)) by reflexivity.
  assert (E6 : NumPlanes h = u8 (Bpp im)) by reflexivity.
  assert (E7 : Manufacturer h = 10) by reflexivity. assert (E8 : Encoding h = 1) by reflexivity. assert (E9 : Version h = 5) by reflexivity. assert (E0 : HBpp h = 8) by reflexivity.
  assert (PW : 0 <= padded (Width im) < 65536) by (unfold padded; destruct (Z.odd (Width im)); lia).
  assert (X3 : Xmax h = Width im - 1) by (rewrite E3; clear - HW; lia). assert (X4 : Ymax h = Height im - 1) by (rewrite E4; clear - HH; lia).
  assert (X5 : HBps h = padded (Width im)) by (rewrite E5, u16_small by auto; clear - PW; lia). clear E3 E4 E5.
  assert (W1 : u32 (Xmax h - Xmin h + 1) = Width im) by (rewrite X3, E1; rewrite u32_small; lia).
  split; [|rewrite E0, E9, W1, X4, E2, E6, X5; repeat split; try reflexivity; [rewrite u32_small; lia|apply u8_small; lia]].
  unfold iCheckPcx. rewrite E7, E8, E9, E0, X5, W1. cbn [Z.eqb negb orb andb Pos.eqb Z.leb Z.compare Pos.compare Pos.compare_cont].
  unfold padded. destruct (Z.odd (Width im)) eqn:O; [rewrite u32_small by lia|]; apply Z.eqb_refl.
Qed.

Lemma set3 : forall i o f p, with_Pal (with_Format (with_Origin i o) f) p =
  mkImg (Width i) (Height i) (Depth i) (Bpp i) (Bpc i) (Bps i) (Data i) (SizeOfData i) (SizeOfPlane i) f (Type_ i) o p (Duration i) (CubeFlags i) (OffX i) (OffY i).
Proof. intros [] o f p. reflexivity. Qed.

(** C25b: loading what was saved.  Missing from the full statement: the images that are converted when
    saved (luminance, BGR, BGRA, wider types, other palettes), and those that PCX cannot hold. *)
Theorem C25_roundtrip_partial : forall alloc old u cm fl im buf, img_ok im buf -> bytes buf -> pcx_image im ->
  allocator_ok alloc -> (forall n, 0 <= n < 2 ^ 32 -> alloc n <> None) ->
  1000 + Height im * (Bpp im * (2 * Width im + 1)) < 2147480000 ->
  (forall i, zlen (u i) = 2) -> zlen cm = 48 -> zlen fl = 54 ->
  exists s f im' buf' r, iSavePcxInternal alloc im = Ok (Some s) /\ file_of s = Some f /\
    ilLoadPcxL alloc old u cm fl f = Ok (true, im', r) /\ rerr r = [] /\ img_ok im' buf' /\
    Width im' = Width im /\ Height im' = Height im /\ Depth im' = Depth im /\ Bpp im' = Bpp im /\ Bpc im' = Bpc im /\
    Format im' = Format im /\ Type_ im' = Type_ im /\ Origin im' = IL_ORIGIN_UPPER_LEFT /\ Pal im' = pcx_full_pal (Pal im) /\
    Duration im' = 0 /\ CubeFlags im' = 0 /\ OffX im' = 0 /\ OffY im' = 0 /\
    (forall x t z k, in_image im x t z k -> picture im' buf' x t z k = picture im buf x t z k) /\
    (Origin im = IL_ORIGIN_UPPER_LEFT -> buf' = buf).
Proof.
  intros alloc old u cm fl im buf Hok HB HI HA Hn Hsize Hu Hcm Hfl.
  assert (Hok' := Hok). destruct Hok' as (HD & HW & HH & HDp & Hbpp & Hbpc & Hbps & Hpl & Hsz & H32 & Hlen).
  assert (Hn0 : alloc (SizeOfData im) <> None) by (apply Hn; rewrite <- Hlen; split; auto; lia).
  destruct (C25_file alloc im buf Hok HB (proj1 HI) HA Hn0 Hsize) as (s & td & rows & ES & EF & LR & CR & LT & BT & GT & UT & ZC).
  destruct HI as ((HDe & HBc & HTy & _ & HHm & HF) & HWm).
  assert (EB : Bps im = Width im * Bpp im) by (rewrite Hbps, HBc; ring).
  assert (SZ : SizeOfData im = Height im * Bps im) by (rewrite Hsz, Hpl, EB, HDe; ring).
  set (pb := match Palette (Pal im) with Some b => b | None => [] end) in *.
  remember ([12] ++ pb ++ repeat 0 (Z.to_nat (768 - PalSize (Pal im)))) as tail eqn:DT.
  remember (pcx_hdr im ++ concat rows ++ tail) as F eqn:DF.
  assert (PB : 0 <= PalSize (Pal im) <= 768 /\ zlen pb = PalSize (Pal im) /\ (Pal im = mkPal None 0 IL_PAL_NONE \/ Pal im = mkPal (Some pb) (zlen pb) IL_PAL_RGB24)).
  { destruct HF as [(_ & _ & P)|[(_ & _ & P)|(_ & _ & p & P & Hp)]]; unfold pb; rewrite P; cbn [Palette PalSize]; repeat split; auto; try lia; try reflexivity. }
  destruct PB as (PS & PZ & PP).
  assert (LTa : zlen tail = 769) by (rewrite DT, !zlen_app, zlen_repeat; change (zlen [12]) with 1; lia).
  assert (LF : zlen F = 128 + zlen (concat rows) + 769) by (rewrite DF, !zlen_app, zlen_hdr, LTa; lia).
  assert (0 <= zlen (concat rows)) by auto.
  exists s, F. 
  assert (HdrOK := head_ok F u cm fl ltac:(lia) Hu Hcm Hfl).
  destruct (check_hdr im (concat rows ++ tail)) as (C1 & C2 & C3 & C4 & C5 & C6 & C7); try lia. rewrite <- DF in C1, C2, C3, C4, C5, C6, C7.
  set (h := head_of F) in *. clearbody h.
  (* the blank image *)
  assert (WB : 0 < Bps im) by (rewrite EB; apply Z.mul_pos_pos; lia).
  assert (SZE : exact_size (Z.max 1 (Width im)) (Z.max 1 (Height im)) (Z.max 1 1) (Bpp im) 1 = SizeOfData im).
  { rewrite !Z.max_r by lia. unfold exact_size. rewrite SZ, EB. ring. }
  assert (exists blk, alloc (SizeOfData im) = Some blk) as (blk & EA) by (destruct (alloc (SizeOfData im)); [eauto|congruence]).
  destruct (C10_geometry_exact_partial alloc old (Width im) (Height im) 1 (Bpp im) 0 IL_UNSIGNED_BYTE 1 None blk)
    as (im1 & b1 & EI & A1 & A2 & A3 & A4 & A5 & A6 & A7 & A8 & A9 & A10 & A11 & _); auto; try lia; try (rewrite SZE; auto; lia).
  { constructor. }
  { intros src X; discriminate X. }
  specialize (A11 eq_refl). subst b1. rewrite Z.max_r in A1, A2 by lia. rewrite SZE in A9. change (Z.max 1 1) with 1 in A3.
  assert (PAL : Duration im1 = 0 /\ CubeFlags im1 = 0 /\ OffX im1 = 0 /\ OffY im1 = 0).
  { unfold ilInitImage in EI. cbv zeta in EI. revert EI. destruct (ilGetBpcType _ =? 0); [discriminate|]. destruct (alloc (u32 _)); [|discriminate]. intros EI.
    injection EI as <-. auto. }
  assert (D1 := proj1 A10).
  assert (BPS1 : Bps im1 = Bps im) by (destruct A10 as (_ & _ & _ & _ & _ & _ & X & _); rewrite X, A1, A4, A5, EB; ring).
  assert (LB : zlen blk = SizeOfData im) by (apply (HA _ _ EA)).
  (* the rows *)
  assert (PW : 1 <= padded (Width im) <= 65535) by (unfold padded; destruct (Z.odd (Width im)); lia).
  assert (PWB : 0 <= Bpp im * padded (Width im) <= 255 * 65535) by (split; [apply Z.mul_nonneg_nonneg; lia|apply Z.mul_le_mono_nonneg; lia]).
  assert (exists scan, alloc (Bpp im * padded (Width im)) = Some scan) as (scan & ESC).
  { specialize (Hn (Bpp im * padded (Width im)) ltac:(change (2 ^ 32) with 4294967296; lia)). destruct (alloc (Bpp im * padded (Width im))); [eauto|congruence]. }
  assert (LSC : zlen scan = Bpp im * padded (Width im)) by (apply (HA _ _ ESC)).
  change (2 ^ 32) with 4294967296 in *.
  destruct (rows_ok rows (Width im) (Bpp im) (Bps im) td F (pcx_hdr im) tail 0 blk scan [] CR) as (d & scan' & ER & LD & GD); auto; try lia.
  assert (DE : d = td).
  { apply list_ext; [lia|]. intros j Hj. rewrite GD by lia. replace ((0 * Bps im <=? j) && (j <? (0 + zlen rows) * Bps im)) with true; [reflexivity|].
    rewrite LD, LB, SZ in Hj. rewrite Z.add_0_l, LR. lia. }
  subst d. clear GD.
  (* common part *)
  assert (LoopE : loop 0 (Height im) (pcx_row (Width im) (Bpp im) (Bps im) (padded (Width im)) (Bpp im * padded (Width im))) (true, blk, scan, Rd F 128 (zlen F) []) =
    Ok (true, td, scan', Rd F (128 + zlen (concat rows)) (zlen F) [])).
  { unfold loop. replace (Z.to_nat (Height im - 0)) with (length rows) by (unfold zlen in LR; lia). exact ER. }
  assert (IMOK : forall fmt p, img_ok (mkImg (Width im) (Height im) (Depth im1) (Bpp im) (Bpc im1) (Bps im) (Some td) (SizeOfData im1) (SizeOfPlane im1) fmt (Type_ im1) IL_ORIGIN_UPPER_LEFT p (Duration im1) (CubeFlags im1) (OffX im1) (OffY im1)) td).
  { intros fmt p. destruct A10 as (_ & B2 & B3 & B4 & B5 & B6 & B7 & B8 & B9 & B10 & B11). unfold img_ok. cbn [Width Height Depth Bpp Bpc Bps Data SizeOfData SizeOfPlane]. rewrite <- A1, <- A2, <- A4, <- BPS1. repeat (split; [first [assumption|reflexivity|congruence]|]). congruence. }
  assert (PIC : forall fmt p x t z k, in_image im x t z k ->
    picture (mkImg (Width im) (Height im) (Depth im1) (Bpp im) (Bpc im1) (Bps im) (Some td) (SizeOfData im1) (SizeOfPlane im1) fmt (Type_ im1) IL_ORIGIN_UPPER_LEFT p (Duration im1) (CubeFlags im1) (OffX im1) (OffY im1)) td x t z k = picture im buf x t z k).
  { intros fmt p x t z k Hi. rewrite <- (GT x t z k Hi). unfold picture, pix_off. cbn [Origin Width Height Bpp Bpc]. rewrite Z.eqb_refl, A5, HBc. reflexivity. }
  unfold ilLoadPcxL. rewrite HdrOK. cbn [bind]. rewrite C1. cbn [negb]. unfold iUncompressPcx. rewrite C2. change (8 <? 8) with false. cbv iota.
  rewrite C4, C5, C6, EI. cbn [bind negb]. cbn [with_Origin Bpp]. rewrite A4.
  destruct PAL as (Q1 & Q2 & Q3 & Q4).
  destruct HF as [(E3 & EFo & EP)|[(E4 & EFo & EP)|(E1 & EFo & p & EP & Hp)]].
  - rewrite E3 in *. cbn [Z.eqb Pos.eqb]. rewrite set3. cbn [Bpp Data Height Width Bps]. rewrite A4, A1, A2, BPS1, C7, ESC, D1, LoopE. cbn [bind negb]. unfold pcx_palette.
    unfold with_Data. cbn [Width Height Depth Bpp Bpc Bps Data SizeOfData SizeOfPlane Format Type_ Origin Pal Duration CubeFlags OffX OffY]. rewrite C3. cbn [Z.eqb Pos.eqb andb].
    eexists. exists td. eexists. split; [exact ES|]. split; [exact EF|]. split; [reflexivity|]. split; [reflexivity|].
    cbn [Width Height Depth Bpp Bpc Bps SizeOfData SizeOfPlane Format Type_ Origin Pal Duration CubeFlags OffX OffY].
    split; [apply IMOK|]. repeat split; auto; try lia; try congruence. rewrite EP. reflexivity.
  - rewrite E4 in *. cbn [Z.eqb Pos.eqb]. rewrite set3. cbn [Bpp Data Height Width Bps]. rewrite A4, A1, A2, BPS1, C7, ESC, D1, LoopE. cbn [bind negb]. unfold pcx_palette.
    unfold with_Data. cbn [Width Height Depth Bpp Bpc Bps Data SizeOfData SizeOfPlane Format Type_ Origin Pal Duration CubeFlags OffX OffY]. rewrite C3. cbn [Z.eqb Pos.eqb andb].
    eexists. exists td. eexists. split; [exact ES|]. split; [exact EF|]. split; [reflexivity|]. split; [reflexivity|].
    cbn [Width Height Depth Bpp Bpc Bps SizeOfData SizeOfPlane Format Type_ Origin Pal Duration CubeFlags OffX OffY].
    split; [apply IMOK|]. repeat split; auto; try lia; try congruence. rewrite EP. reflexivity.
  - assert (pb = p) by (unfold pb; rewrite EP; reflexivity). subst p.
    assert (exists pl, alloc 768 = Some pl) as (pl & EPL) by (specialize (Hn 768 ltac:(lia)); destruct (alloc 768); [eauto|congruence]).
    assert (LPL : zlen pl = 768) by (apply (HA _ _ EPL)).
    rewrite E1 in *. cbn [Z.eqb Pos.eqb]. rewrite EPL. rewrite set3. cbn [Bpp Data Height Width Bps]. rewrite A4, A1, A2, BPS1, C7, ESC, D1, LoopE. cbn [bind negb]. unfold pcx_palette.
    unfold with_Data. cbn [Width Height Depth Bpp Bpc Bps Data SizeOfData SizeOfPlane Format Type_ Origin Pal Duration CubeFlags OffX OffY]. rewrite C3. cbn [Z.eqb Pos.eqb andb].
    remember (pb ++ repeat 0 (Z.to_nat (768 - PalSize (Pal im)))) as fullpal eqn:DP.
    assert (ZF : zlen fullpal = 768) by (rewrite DP, zlen_app, zlen_repeat; lia).
    replace (128 + zlen (concat rows)) with (zlen (pcx_hdr im ++ concat rows)) by (rewrite zlen_app, zlen_hdr; reflexivity).
    rewrite (byte_at F (pcx_hdr im ++ concat rows) 12 fullpal) by (auto; try lia; rewrite DF, DT, <- app_assoc; reflexivity).
    cbn [bind]. change (1 =? 0) with false. change (negb (geti [12] 0 =? 12)) with false. cbv iota. cbn [bind]. cbn [Pal Palette PalSize PalType].
    assert (RD := read_at (pcx_hdr im ++ concat rows ++ [12]) fullpal [] pl 1 768 []).
    assert (FE : (pcx_hdr im ++ concat rows ++ [12]) ++ fullpal ++ [] = F) by (rewrite app_nil_r, DF, DT, <- !app_assoc; reflexivity).
    rewrite FE in RD. replace (zlen (pcx_hdr im ++ concat rows) + 1) with (zlen (pcx_hdr im ++ concat rows ++ [12])) by (rewrite app_assoc, zlen_app; reflexivity).
    rewrite RD by lia. clear RD. rewrite skipn_all2 by (unfold zlen in *; lia). rewrite app_nil_r. cbn [bind].
    unfold with_PalData, with_Pal. cbn [Width Height Depth Bpp Bpc Bps Data SizeOfData SizeOfPlane Format Type_ Origin Pal Duration CubeFlags OffX OffY Palette PalSize PalType]. change (negb (768 =? 768)) with false. cbv iota.
    eexists. exists td. eexists. split; [exact ES|]. split; [exact EF|]. split; [reflexivity|]. split; [reflexivity|].
    cbn [Width Height Depth Bpp Bpc Bps SizeOfData SizeOfPlane Format Type_ Origin Pal Duration CubeFlags OffX OffY Palette PalSize PalType].
    split; [apply IMOK|]. repeat split; auto; try lia; try congruence. rewrite EP. unfold pcx_full_pal. cbn [Palette]. rewrite DP, EP. cbn [PalSize].
    replace (Z.to_nat (768 - zlen pb)) with (768 - length pb)%nat by (unfold zlen; lia). reflexivity.
Qed.

(** C25c: an image 65535 or 65536 pixels wide is saved, but the loader rejects the file. *)
Theorem C25_wide_refuted : forall alloc old u cm fl im buf, img_ok im buf -> bytes buf -> pcx_savable im -> 65535 <= Width im ->
  allocator_ok alloc -> (forall n, 0 <= n < 2 ^ 32 -> alloc n <> None) ->
  1000 + Height im * (Bpp im * (2 * Width im + 1)) < 2147480000 ->
  (forall i, zlen (u i) = 2) -> zlen cm = 48 -> zlen fl = 54 ->
  exists s f r, iSavePcxInternal alloc im = Ok (Some s) /\ file_of s = Some f /\ ilLoadPcxL alloc old u cm fl f = Ok (false, old, r).
Proof.
  intros alloc old u cm fl im buf Hok HB HI Hwide HA Hn Hsize Hu Hcm Hfl.
  assert (Hok' := Hok). destruct Hok' as (HD & HW & HH & HDp & Hbpp & Hbpc & Hbps & Hpl & Hsz & H32 & Hlen).
  assert (Hn0 : alloc (SizeOfData im) <> None) by (apply Hn; rewrite <- Hlen; split; auto; lia).
  destruct (C25_file alloc im buf Hok HB HI HA Hn0 Hsize) as (s & td & rows & ES & EF & LR & CR & LT & BT & GT & UT & ZC).
  destruct HI as (HDe & HBc & HTy & HWm & HHm & HF).
  remember ([12] ++ match Palette (Pal im) with Some b => b | None => [] end ++ repeat 0 (Z.to_nat (768 - PalSize (Pal im)))) as tail eqn:DT.
  assert (LTa : zlen tail <= 769 + 768).
  { rewrite DT, !zlen_app, zlen_repeat. change (zlen [12]) with 1. destruct HF as [(_ & _ & ->)|[(_ & _ & ->)|(_ & _ & p & -> & Hp)]]; cbn [Palette PalSize]; rewrite ?zlen_nil; try lia. }
  remember (concat rows ++ tail) as rest' eqn:DR. assert (0 <= zlen rest') by auto.
  assert (LRe : zlen rest' <= Height im * (Bpp im * (2 * Width im + 1)) + 1537) by (rewrite DR, zlen_app; lia).
  exists s, (pcx_hdr im ++ rest'). eexists. split; [exact ES|]. split; [exact EF|].
  unfold ilLoadPcxL. rewrite head_ok by (auto; rewrite zlen_app, zlen_hdr; lia). cbn [bind].
  set (h := head_of (pcx_hdr im ++ rest')).
  assert (E1 : Xmin h = 0) by reflexivity.
  assert (E3 : Xmax h = (Width im - 1) mod 256 + 256 * ((Width im - 1) / 256 mod 256)) by reflexivity.
  assert (E5 : HBps h = u16 (padded (Width im)) mod 256 + 256 * (u16 (padded (Width im)) / 256 mod 256)) by reflexivity.
  assert (E7 : Manufacturer h = 10) by reflexivity. assert (E8 : Encoding h = 1) by reflexivity. assert (E9 : Version h = 5) by reflexivity. assert (E0 : HBpp h = 8) by reflexivity.
  assert (X3 : Xmax h = Width im - 1) by (rewrite E3; clear - HWm HW; lia).
  assert (X5 : HBps h = 0).
  { rewrite E5. assert (padded (Width im) = 65536) as ->; [|reflexivity]. assert (Width im = 65535 \/ Width im = 65536) as [ -> | -> ] by lia; reflexivity. }
  assert (CK : iCheckPcx h = false).
  { unfold iCheckPcx. rewrite E7, E8, E9, E0, X5, X3, E1. cbn [Z.eqb negb orb andb Pos.eqb Z.leb Z.compare Pos.compare Pos.compare_cont].
    assert (Width im = 65535 \/ Width im = 65536) as [ -> | -> ] by lia; reflexivity. }
  rewrite CK. reflexivity.
Qed.

(** ** Examples *)

Definition ex_alloc : allocator := fun n => if n <? 0 then None else Some (repeat 7 (Z.to_nat n)).
Definition ex_u : Z -> list Z := fun _ => [0; 0].
Definition ex_cm : list Z := repeat 0 48.
Definition ex_fl : list Z := repeat 0 54.
Definition no_pal : pal := mkPal None 0 IL_PAL_NONE.
Definition ex_old : img := mkImg 1 1 1 3 1 3 (Some [0; 0; 0]) 3 3 IL_RGB IL_UNSIGNED_BYTE IL_ORIGIN_LOWER_LEFT no_pal 0 0 0 0.
Lemma ex_alloc_ok : allocator_ok ex_alloc.
Proof. intros n b H. unfold ex_alloc in H. revert H. destruct (n <? 0) eqn:E; [discriminate|]. intros X. injection X as <-. rewrite zlen_repeat. lia. Qed.
Lemma ex_alloc_some : forall n, 0 <= n < 2 ^ 32 -> ex_alloc n <> None.
Proof. intros n H. unfold ex_alloc. replace (n <? 0) with false by lia. discriminate. Qed.

Definition ex_rgb : img := mkImg 3 2 1 3 1 9 (Some [1; 2; 200; 1; 2; 200; 1; 9; 201; 0; 0; 0; 255; 0; 7; 0; 0; 7]) 18 18 IL_RGB IL_UNSIGNED_BYTE IL_ORIGIN_LOWER_LEFT no_pal 0 0 0 0.
Definition ex_idx : img := mkImg 5 1 1 1 1 5 (Some [0; 0; 0; 1; 200]) 5 5 IL_COLOUR_INDEX IL_UNSIGNED_BYTE IL_ORIGIN_UPPER_LEFT (mkPal (Some [1; 2; 3; 4; 5; 6]) 6 IL_PAL_RGB24) 0 0 0 0.

Ltac bytes_tac := let i := fresh in let H := fresh in apply bytes_Forall; repeat constructor; lia.

(** the hypotheses of [C25_roundtrip_partial] for an RGB image and for an image with a palette *)
Example C25_rgb_case : exists s f im' buf' r, iSavePcxInternal ex_alloc ex_rgb = Ok (Some s) /\ file_of s = Some f /\
    ilLoadPcxL ex_alloc ex_old ex_u ex_cm ex_fl f = Ok (true, im', r) /\ Data im' = Some buf' /\
    (forall x t z k, in_image ex_rgb x t z k -> picture im' buf' x t z k = picture ex_rgb [1; 2; 200; 1; 2; 200; 1; 9; 201; 0; 0; 0; 255; 0; 7; 0; 0; 7] x t z k).
Proof.
  destruct (C25_roundtrip_partial ex_alloc ex_old ex_u ex_cm ex_fl ex_rgb [1; 2; 200; 1; 2; 200; 1; 9; 201; 0; 0; 0; 255; 0; 7; 0; 0; 7]) as (s & f & im' & buf' & r & A & B & C & D & E & F).
  - repeat split; cbn; try lia; auto.
  - bytes_tac.
  - repeat split; cbn; try lia; auto.
  - exact ex_alloc_ok.
  - exact ex_alloc_some.
  - cbn. lia.
  - reflexivity.
  - reflexivity.
  - reflexivity.
  - exists s, f, im', buf', r. destruct E as (E & _). repeat (split; [assumption|]). intros x t z k Hi. apply F. exact Hi.
Qed.
Example C25_idx_case : exists s f im' r, iSavePcxInternal ex_alloc ex_idx = Ok (Some s) /\ file_of s = Some f /\
    ilLoadPcxL ex_alloc ex_old ex_u ex_cm ex_fl f = Ok (true, im', r) /\ Data im' = Data ex_idx /\
    Pal im' = mkPal (Some ([1; 2; 3; 4; 5; 6] ++ repeat 0 762)) 768 IL_PAL_RGB24.
Proof.
  destruct (C25_roundtrip_partial ex_alloc ex_old ex_u ex_cm ex_fl ex_idx [0; 0; 0; 1; 200]) as (s & f & im' & buf' & r & A & B & C & D & E & F).
  - repeat split; cbn; try lia; auto.
  - bytes_tac.
  - repeat split; cbn; try lia; auto. right. right. repeat split. exists [1; 2; 3; 4; 5; 6]. split; [reflexivity|cbn; lia].
  - exact ex_alloc_ok.
  - exact ex_alloc_some.
  - cbn. lia.
  - reflexivity.
  - reflexivity.
  - reflexivity.
  - exists s, f, im', r. destruct E as (E & _). repeat (split; [assumption|]).
    destruct F as (_ & _ & _ & _ & _ & _ & _ & _ & FP & _ & _ & _ & _ & _ & FU). rewrite E, (FU eq_refl). split; [reflexivity|]. rewrite FP. reflexivity.
Qed.
(** what the file of the image with a palette looks like after the header: two runs are used, and 200 has
    to be coded as a run; the row of 5 pixels is padded *)
Example C25_idx_bytes : match iSavePcxInternal ex_alloc ex_idx with
  | Ok (Some s) => match file_of s with Some f => slice f 128 7 | None => [] end | _ => [] end = [195; 0; 1; 193; 200; 0; 12].
Proof. vm_compute. reflexivity. Qed.

(** C25d: luminance-alpha images are saved (two planes), but the file cannot be loaded. *)
Definition ex_la : img := mkImg 1 1 1 2 1 2 (Some [5; 6]) 2 2 IL_LUMINANCE_ALPHA IL_UNSIGNED_BYTE IL_ORIGIN_UPPER_LEFT no_pal 0 0 0 0.
Theorem C25_luminance_alpha_refuted : exists s f im' r, iSavePcxInternal ex_alloc ex_la = Ok (Some s) /\ file_of s = Some f /\
  ilLoadPcxL ex_alloc ex_old ex_u ex_cm ex_fl f = Ok (false, im', r).
Proof. do 4 eexists. split; [reflexivity|]. split; [vm_compute; reflexivity|]. vm_compute. reflexivity. Qed.

(** C25e: of a volume only the first slice survives, though both calls succeed. *)
Definition ex_vol : img := mkImg 1 1 2 3 1 3 (Some [1; 2; 3; 4; 5; 6]) 6 3 IL_RGB IL_UNSIGNED_BYTE IL_ORIGIN_UPPER_LEFT no_pal 0 0 0 0.
Theorem C25_volume_refuted : exists s f im' r, iSavePcxInternal ex_alloc ex_vol = Ok (Some s) /\ file_of s = Some f /\
  ilLoadPcxL ex_alloc ex_old ex_u ex_cm ex_fl f = Ok (true, im', r) /\ Depth im' = 1 /\ Data im' = Some [1; 2; 3].
Proof. do 4 eexists. split; [reflexivity|]. split; [vm_compute; reflexivity|]. split; [vm_compute; reflexivity|]. split; reflexivity. Qed.

(** the hypotheses of [C25_wide_refuted] *)
Example C25_wide_case : let buf := repeat 9 (Z.to_nat 65535) in
  let im := mkImg 65535 1 1 1 1 65535 (Some buf) 65535 65535 IL_COLOUR_INDEX IL_UNSIGNED_BYTE IL_ORIGIN_UPPER_LEFT (mkPal (Some [1; 2; 3]) 3 IL_PAL_RGB24) 0 0 0 0 in
  img_ok im buf /\ bytes buf /\ pcx_savable im /\ 65535 <= Width im /\ 1000 + Height im * (Bpp im * (2 * Width im + 1)) < 2147480000.
Proof.
  intros buf im. assert (L : zlen buf = 65535) by (unfold buf; rewrite zlen_repeat; lia).
  assert (B : bytes buf) by (apply bytes_Forall; apply Forall_forall; intros x Hx; apply repeat_spec in Hx; lia).
  clearbody buf. unfold im. unfold img_ok, pcx_savable. cbn [Width Height Depth Bpp Bpc Bps Data SizeOfData SizeOfPlane Format Type_ Pal]. repeat split; auto; try lia.
  1, 2: apply (B i); assumption. right. right. repeat split. exists [1; 2; 3]. split; [reflexivity|cbn; lia].
Qed.

Print Assumptions C25_file.
Print Assumptions C25_roundtrip_partial.
Print Assumptions C25_wide_refuted.
Print Assumptions C25_luminance_alpha_refuted.
Print Assumptions C25_volume_refuted.
