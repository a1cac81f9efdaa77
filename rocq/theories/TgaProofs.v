(** Lemmas about the Targa model: what is written, and reading it. *)
From Coq Require Import ZArith List Lia Bool.
From Verif Require Import Base Slices BitLemmas Scatter Enums Utility Image ImageSpec ImageProps Elem Flip FlipProofs FlipProps Lump LumpSpec LumpProofs LumpProps Channels ChannelsSpec ChannelsProofs ChannelsProps Endian EndianProps Raw RawProps Rle Pcx PcxProofs PcxProps Tga TgaSpec.
Import ListNotations.
Open Scope Z_scope.

(** ** Writing *)

Lemma run_uint : forall v k f, zlen f < 2147483640 -> run_file (SaveLittleUInt v k) f (zlen f) = run_file k (f ++ little4 v) (zlen (f ++ little4 v)).
Proof. intros v k f H. unfold SaveLittleUInt. rewrite le4. apply run_write; try lia; try reflexivity. Qed.
Lemma run_sshort : forall v k f, zlen f < 2147483640 -> run_file (SaveLittleShort v k) f (zlen f) = run_file k (f ++ little2 v) (zlen (f ++ little2 v)).
Proof. intros v k f H. unfold SaveLittleShort. rewrite le2. apply run_write; try lia; try reflexivity. Qed.
Lemma run_b1 : forall v k f, zlen f < 2147483640 -> run_file (Write [v] 1 1 k) f (zlen f) = run_file k (f ++ [v]) (zlen (f ++ [v])).
Proof. intros v k f H. apply run_write; try lia; try reflexivity. Qed.
Lemma run_text : forall b k f, zlen f + zlen b < 2147483648 -> run_file (Write b 1 (zlen b) k) f (zlen f) = run_file k (f ++ b) (zlen (f ++ b)).
Proof. intros b k f H. assert (0 <= zlen b) by auto. apply run_write; lia. Qed.

Lemma run_text_part : forall b n k f, 0 <= n <= zlen b -> zlen f + n < 2147483648 ->
  run_file (Write b 1 n k) f (zlen f) = run_file k (f ++ slice b 0 n) (zlen (f ++ slice b 0 n)).
Proof.
  intros b n k f Hn Hw. cbn [run_file]. replace ((0 <=? 1) && (0 <=? n) && (1 * n <=? zlen b) && (zlen f + 1 * n <? 2147483648)) with true by lia.
  rewrite Z.mul_1_l. rewrite overwrite_end, zlen_app, zlen_slice by lia. reflexivity.
Qed.

Lemma run_dates : forall date k f, zlen f + 2 * zlen date < 2147483640 -> Forall (fun d => 0 <= d < 65536) date ->
  run_file (fold_right (fun d k => SaveLittleUShort (u16 d) k) k date) f (zlen f) =
  run_file k (f ++ concat (map little2 date)) (zlen (f ++ concat (map little2 date))).
Proof.
  induction date as [|d date IH]; intros k f H HD; cbn [fold_right map concat].
  - rewrite app_nil_r. reflexivity.
  - inversion HD as [|? ? D1 D2]. subst. rewrite zlen_cons in H. assert (0 <= zlen date) by auto.
    rewrite run_short by lia. rewrite IH by (auto; rewrite zlen_app; change (zlen (little2 _)) with 2; lia).
    rewrite (u16_small d) by lia. rewrite <- !app_assoc. reflexivity.
Qed.
Lemma zlen_dates : forall date, zlen (concat (map little2 date)) = 2 * zlen date.
Proof. induction date as [|d l IH]; [reflexivity|]. cbn [map concat]. rewrite zlen_app, IH, zlen_cons. change (zlen (little2 d)) with 2. lia. Qed.

Lemma run_field : forall n s k f, zlen s <= Z.of_nat n -> Z.of_nat n < 2147483648 -> zlen f + Z.of_nat n < 2147483640 ->
  run_file (Write s 1 (zlen s) (putn (Z.to_nat (u32 (Z.of_nat n - zlen s))) 0 k)) f (zlen f) =
  run_file k (f ++ field n s) (zlen (f ++ field n s)).
Proof.
  intros n s k f H Hn Hf. assert (0 <= zlen s) by auto. rewrite run_text by lia. rewrite u32_small by lia.
  rewrite run_putn by (rewrite zlen_app, Z2Nat.id; lia). unfold field. rewrite <- app_assoc.
  replace (Z.to_nat (Z.of_nat n - zlen s)) with (n - length s)%nat by (unfold zlen in *; lia). reflexivity.
Qed.
Lemma zlen_field : forall n s, zlen s <= Z.of_nat n -> zlen (field n s) = Z.of_nat n.
Proof. intros n s H. unfold field. rewrite zlen_app, zlen_repeat. unfold zlen in *. lia. Qed.

Lemma zlen_trailer : forall off an ac date, zlen an <= 41 -> zlen ac <= 324 -> zlen date = 6 -> zlen (tga_trailer off an ac date idString 180) = 533.
Proof.
  intros off an ac date H1 H2 H3. unfold tga_trailer. rewrite !zlen_app, zlen_dates, H3, !zlen_repeat. rewrite (zlen_field 41 an), (zlen_field 324 ac) by lia.
  reflexivity.
Qed.

Lemma run_ext : forall an ac date f, zlen f < 2147480000 -> zlen an <= 41 -> zlen ac <= 324 -> zlen date = 6 -> Forall (fun d => 0 <= d < 65536) date ->
  run_file (tga_ext an ac date) f (zlen f) = Some (f ++ tga_trailer (zlen f) an ac date idString 180).
Proof.
  intros an ac date f Hf H1 H2 H3 H4. unfold tga_ext. cbn [run_file].
  assert (0 <= zlen f) by auto.
  rewrite run_short by lia. change 41 with (Z.of_nat 41). rewrite run_field by (rewrite ?zlen_app; change (zlen (little2 _)) with 2; lia).
  assert (Z1 := zlen_field 41 an H1). assert (Z2 := zlen_field 324 ac H2).
  change 324 with (Z.of_nat 324). rewrite run_field by (rewrite ?zlen_app, ?Z1; change (zlen (little2 _)) with 2; lia).
  rewrite run_dates by (auto; rewrite ?zlen_app, ?Z1, ?Z2; change (zlen (little2 _)) with 2; lia).
  unfold tga_tail. set (g := (((f ++ little2 495) ++ field 41 an) ++ field 324 ac) ++ concat (map little2 date)).
  assert (LG : zlen g = zlen f + 379) by (unfold g; rewrite !zlen_app, Z1, Z2, zlen_dates; change (zlen (little2 _)) with 2; lia).
  cbn [for_s].
  do 6 rewrite run_short by (rewrite ?zlen_app; change (zlen (little2 0)) with 2; lia).
  rewrite run_putn by (rewrite ?zlen_app; change (zlen (little2 0)) with 2; lia).
  do 3 rewrite run_short by (rewrite ?zlen_app; change (zlen (little2 0)) with 2; change (zlen (repeat 0 41)) with 41; lia).
  change 41 with (Z.of_nat 41). rewrite run_field by (rewrite ?zlen_app; change (zlen (little2 0)) with 2; change (zlen (repeat 0 41)) with 41; cbn; lia).
  match goal with |- run_file _ ?l _ = _ => set (g2 := l) end.
  assert (LG2 : zlen g2 = zlen f + 479) by (unfold g2; rewrite !zlen_app, LG; change (zlen (field 41 idString)) with 41; change (zlen (little2 0)) with 2; change (zlen (repeat 0 41)) with 41; lia).
  rewrite run_short by lia. rewrite run_putc by (rewrite ?zlen_app; change (zlen (little2 _)) with 2; lia).
  do 6 rewrite run_uint by (rewrite ?zlen_app; change (zlen (little2 _)) with 2; change (zlen (little4 _)) with 4; change (zlen [_]) with 1; lia).
  rewrite run_putc by (rewrite ?zlen_app; change (zlen (little2 _)) with 2; change (zlen (little4 _)) with 4; change (zlen [_]) with 1; lia).
  do 2 rewrite run_uint by (rewrite ?zlen_app; change (zlen (little2 _)) with 2; change (zlen (little4 _)) with 4; change (zlen [_]) with 1; lia).
  rewrite run_text by (rewrite ?zlen_app; change (zlen (little2 _)) with 2; change (zlen (little4 _)) with 4; change (zlen [_]) with 1; change (zlen Footer) with 18; lia).
  cbn [run_file]. unfold g2, g, tga_trailer. rewrite <- !app_assoc. reflexivity.
Qed.

Definition pal_bytes (pal : option (list Z)) : list Z := match pal with Some p => p | None => [] end.

Lemma run_rest : forall ci typ psize pent id pal body ext f0 pre px,
  zlen f0 = 2 -> zlen id <= 255 -> 0 <= Width ci <= 65535 -> 0 <= Height ci <= 65535 -> 1 <= Bpp ci <= 4 ->
  (forall p, pal = Some p -> zlen p = PalSize (Pal ci) /\ zlen p <= 1000000) ->
  pre = (f0 ++ [typ] ++ little2 0 ++ little2 psize ++ [pent; 0; 0; 0; 0] ++ little2 (Width ci) ++ little2 (Height ci) ++ [Bpp ci * 8; tga_desc ci]) ++ id ++ pal_bytes pal ->
  run_file (body ext) pre (zlen pre) = Some px ->
  run_file (tga_rest ci typ psize pent id pal body ext) f0 (zlen f0) = Some px.
Proof.
  intros ci typ psize pent id pal body ext f0 pre px Hf Hid HW HH HB HP Epre E. unfold tga_rest.
  assert (0 <= zlen id) by auto.
  rewrite run_b1 by lia. do 2 rewrite run_sshort by (rewrite ?zlen_app; cbn; lia). rewrite run_b1 by (rewrite ?zlen_app; cbn; lia).
  do 2 rewrite run_write by (rewrite ?zlen_app; cbn; lia).
  do 2 rewrite run_short by (rewrite ?zlen_app; cbn; lia). do 2 rewrite run_b1 by (rewrite ?zlen_app; cbn; lia).
  rewrite (u8_small (zlen id)) by lia. rewrite run_text by (rewrite ?zlen_app; cbn; lia).
  rewrite !u16_small by lia. rewrite u8_small by lia.
  match goal with |- run_file _ ?l _ = _ => assert (El : l ++ pal_bytes pal = pre) by (rewrite Epre; rewrite <- !app_assoc; reflexivity) end.
  destruct pal as [p|]; cbn [pal_bytes] in El.
  - destruct (HP p eq_refl) as (P1 & P2). rewrite <- P1. rewrite run_text by (rewrite ?zlen_app; cbn; lia). rewrite El. exact E.
  - rewrite app_nil_r in El. rewrite El. exact E.
Qed.

(** ** The stored pixels *)

Lemma lower_data : forall alloc im buf, img_ok im buf -> Origin im = IL_ORIGIN_UPPER_LEFT \/ Origin im = IL_ORIGIN_LOWER_LEFT ->
  allocator_ok alloc -> alloc (SizeOfData im) <> None ->
  exists td, (if negb (Origin im =? IL_ORIGIN_LOWER_LEFT) then iGetFlipped alloc im else Ok (Data im)) = Ok (Some td) /\
    zlen td = SizeOfData im /\
    (forall x t z k, in_image im x t z k -> geti td (pix_off im x (Height im - 1 - t) z k) = picture im buf x t z k) /\
    (Origin im = IL_ORIGIN_LOWER_LEFT -> td = buf).
Proof.
  intros alloc im buf Hok HO HA Hn. destruct HO as [HO|HO]; rewrite HO.
  - change (negb (IL_ORIGIN_UPPER_LEFT =? IL_ORIGIN_LOWER_LEFT)) with true. cbv iota.
    destruct (C14_get_flipped_agrees_partial (fun _ _ => Some (repeat 0 4096)) alloc im buf) as (im' & td & E1 & E2 & E3); auto.
    { intros d y. exists (repeat 0 4096). split; [reflexivity|]. rewrite zlen_repeat. reflexivity. }
    destruct (C14_flip_reverses_rows_partial (fun _ _ => Some (repeat 0 4096)) im buf) as (im'' & td' & E4 & Hok' & HI & G); auto.
    { intros d y. exists (repeat 0 4096). split; [reflexivity|]. rewrite zlen_repeat. reflexivity. }
    assert (im'' = im') by congruence. subst im''. assert (td' = td) by (destruct Hok' as (X & _); congruence). subst td'.
    exists td. split; [exact E3|]. split. { destruct Hok' as (_ & _ & _ & _ & _ & _ & _ & _ & _ & _ & L). rewrite L, HI. reflexivity. }
    split; [|discriminate].
    intros x t z k (Hx & Ht & Hz & Hk). rewrite G by (repeat split; lia). unfold picture. rewrite HO.
    change (IL_ORIGIN_UPPER_LEFT =? IL_ORIGIN_UPPER_LEFT) with true. cbv iota. f_equal. f_equal. lia.
  - change (negb (IL_ORIGIN_LOWER_LEFT =? IL_ORIGIN_LOWER_LEFT)) with false. cbv iota.
    exists buf. destruct Hok as (HD & H). split; [rewrite HD; reflexivity|]. split; [apply H|]. split; [|auto].
    intros x t z k Hi. unfold picture. rewrite HO. reflexivity.
Qed.

Definition tga_colour (im : img) : Prop :=
  (Bpp im = 3 /\ (Format im = IL_RGB \/ Format im = IL_BGR)) \/ (Bpp im = 4 /\ (Format im = IL_RGBA \/ Format im = IL_BGRA)).

(** the image that is written: red and blue exchanged if necessary, and exchanged back later *)
Lemma swapped_image : forall im buf, img_ok im buf -> Bpc im = 1 -> Depth im = 1 -> tga_colour im \/ (Bpp im = 1 /\ (Format im = IL_LUMINANCE \/ Format im = IL_COLOUR_INDEX)) ->
  exists ci b1, swap_if (is_rgb (Format im)) im = Ok ci /\ swap_if (is_rgb (Format im)) ci = Ok im /\
    ci = with_Data (with_Format im (stored_format (Format im))) (Some b1) /\ img_ok ci b1 /\
    (forall x t z k, in_image im x t z k -> picture ci b1 x t z (stored_chan (Format im) k) = picture im buf x t z k) /\
    (is_rgb (Format im) = false -> b1 = buf).
Proof.
  intros im buf Hok HBc HD HF.
  assert (DD : Data im = Some buf) by apply Hok.
  assert (SAME : is_rgb (Format im) = false -> stored_format (Format im) = Format im -> (forall k, stored_chan (Format im) k = k) ->
     exists ci b1, swap_if false im = Ok ci /\ swap_if false ci = Ok im /\
    ci = with_Data (with_Format im (stored_format (Format im))) (Some b1) /\ img_ok ci b1 /\
    (forall x t z k, in_image im x t z k -> picture ci b1 x t z (stored_chan (Format im) k) = picture im buf x t z k) /\
    (false = false -> b1 = buf)).
  { intros _ E1 E2. exists im, buf. split; [reflexivity|]. split; [reflexivity|]. split; [rewrite E1, <- DD; destruct im; reflexivity|].
    split; [exact Hok|]. split; [intros x t z k _; rewrite E2; reflexivity|auto]. }
  assert (RBc : (exists f', red_blue (Format im) f' /\ channels (Format im) (Bpp im) /\ stored_format (Format im) = f' /\ is_rgb (Format im) = true /\
      (forall k, stored_chan (Format im) k = if k =? 0 then 2 else if k =? 2 then 0 else k)) \/
     (is_rgb (Format im) = false /\ stored_format (Format im) = Format im /\ (forall k, stored_chan (Format im) k = k))).
  { destruct HF as [[(B & [F|F])|(B & [F|F])]|(B & [F|F])]; rewrite F, B; try (right; repeat split; reflexivity).
    - left. exists IL_BGR. repeat split; constructor.
    - left. exists IL_BGRA. repeat split; constructor. }
  destruct RBc as [(f' & RB & CH & SF & RG & SC)|(RG & SF & SC)]; [|rewrite RG; apply SAME; auto].
  rewrite RG. destruct (C16_swap_partial im buf f' Hok RB CH) as (b1 & E & L & A & _).
  destruct (C16_involution im buf f' Hok RB CH) as (im' & E1 & E2). rewrite E in E1. injection E1 as <-.
  exists (with_Data (with_Format im f') (Some b1)), b1. unfold swap_if. rewrite E. cbn [bind]. rewrite E2. cbn [bind]. rewrite SF.
  split; [reflexivity|]. split; [reflexivity|]. split; [reflexivity|].
  split. { destruct Hok as (HDa & HW & HH & HDp & Hbpp & Hbpc & Hbps & Hpl & Hsz & H32 & Hlen). unfold img_ok.
    cbn [with_Data with_Format Data Width Height Depth Bpp Bpc Bps SizeOfPlane SizeOfData]. repeat split; auto; lia. }
  split; [|discriminate].
  intros x t z k (Hx & Ht & Hz & Hk). assert (z = 0) by lia. subst z. rewrite SC. unfold picture.
  change (pix_off (with_Data (with_Format im f') (Some b1))) with (pix_off im). change (Height (with_Data (with_Format im f') (Some b1))) with (Height im).
  change (Origin (with_Data (with_Format im f') (Some b1))) with (Origin im). cbv zeta.
  set (y := if Origin im =? IL_ORIGIN_UPPER_LEFT then t else Height im - 1 - t). assert (Hy : 0 <= y < Height im) by (unfold y; destruct (_ =? _); lia). clearbody y.
  destruct (A x y) as (A0 & A2 & AC). { repeat split; lia. }
  assert (S1 : forall b c, chan_at im b x y 0 c = slice b (pix_off im x y 0 c) 1) by (intros; unfold chan_at; rewrite HBc, Z.mul_1_r; reflexivity).
  rewrite HBc, Z.mul_1_r in Hk.
  assert (BN : forall c, 0 <= c < Bpp im -> 0 <= pix_off im x y 0 c < zlen buf).
  { intros c Hc. destruct (ok_pixels im buf Hok) as (_ & _ & H3 & _). destruct (pixel_index im buf x y 0 Hok) as (Q1 & _ & _). { repeat split; lia. }
    rewrite H3. unfold pix_off. rewrite HBc in *. rewrite !Z.mul_1_r in *.
    replace (0 * (Height im * (Width im * Bpp im)) + y * (Width im * Bpp im) + x * Bpp im + c) with (((0 * Height im + y) * Width im + x) * Bpp im + c) by ring.
    apply lin_bound; lia. }
  assert (G : forall b b' c c', zlen b = zlen buf -> zlen b' = zlen buf -> 0 <= c < Bpp im -> 0 <= c' < Bpp im -> slice b (pix_off im x y 0 c) 1 = slice b' (pix_off im x y 0 c') 1 -> geti b (pix_off im x y 0 c) = geti b' (pix_off im x y 0 c')).
  { intros b b' c c' L1 L2 H1 H2 Q. assert (B1 := BN c H1). assert (B2 := BN c' H2). change 1 with (1 + 0) in Q. rewrite (slice_cons b), (slice_cons b') in Q by lia. congruence. }
  rewrite !S1 in *. assert (HB3 : 3 <= Bpp im) by (inversion RB as [F|F|F|F]; rewrite <- F in CH; inversion CH; lia).
  destruct (Z.eqb_spec k 0) as [->|N0]; [apply G; auto; lia|].
  destruct (Z.eqb_spec k 2) as [->|N2]; [apply G; auto; lia|].
  apply G; auto; try lia. specialize (AC k Hk N0 N2). rewrite !S1 in AC. exact AC.
Qed.

(** ** Reading *)

Lemma gets_in : forall F p e stk, 0 <= p -> p + 2 <= zlen F -> zlen F < 4294967295 -> zlen stk = 2 ->
  GetLittleShort stk (Rd F p (zlen F) e) = Ok (signed 2 (geti F p + 256 * geti F (p + 1)), Rd F (p + 2) (zlen F) e).
Proof.
  intros F p e stk H1 H2 H3 H4. assert (E := get2_in F p e stk H1 H2 H3 H4). unfold GetLittleUShort in E. unfold GetLittleShort. rewrite E. reflexivity.
Qed.
Lemma read_into : forall F p e b n, 0 <= p -> 0 <= n -> p + n <= zlen F -> 0 < zlen F < 4294967295 -> n <= zlen b ->
  iReadLump b 1 n (Rd F p (zlen F) e) = Ok (n, slice F p n ++ skipn (Z.to_nat n) b, Rd F (p + n) (zlen F) e).
Proof.
  intros F p e b n Hp Hn HF Hm Hb. rewrite (C21_read F) by (try (split; [reflexivity|cbn; lia]); lia). cbn [rpos rerr]. cbv zeta.
  rewrite Z.mul_1_l. assert (LS : zlen (slice F p n) = n) by (apply zlen_slice; lia). rewrite rest_slice. rewrite LS, Z.div_1_r, Z.eqb_refl, app_nil_r.
  replace (length (slice F p n)) with (Z.to_nat n) by (unfold zlen in LS; lia). reflexivity.
Qed.

Definition tga_head_of (F : list Z) : tgahead :=
  let w p := geti F p + 256 * geti F (p + 1) in
  mkTga (u8 (geti F 0)) (u8 (geti F 1)) (u8 (geti F 2)) (signed 2 (w 3)) (signed 2 (w 5)) (u8 (geti F 7)) (signed 2 (w 8)) (signed 2 (w 10)) (w 12) (w 14)
    (u8 (geti F 16)) (u8 (geti F 17)).
Lemma tga_head_ok : forall F u, 18 <= zlen F < 4294967295 -> (forall i, zlen (u i) = 2) ->
  iGetTgaHead u (iSetInputLump F (zlen F)) = Ok (tga_head_of F, Rd F 18 (zlen F) []).
Proof.
  intros F u HF Hu. unfold iGetTgaHead, iSetInputLump.
  do 3 (rewrite getc_in by lia; cbn [bind]). do 2 (rewrite gets_in by (auto; lia); cbn [bind]). rewrite getc_in by lia; cbn [bind].
  do 2 (rewrite gets_in by (auto; lia); cbn [bind]). do 2 (rewrite get2_in by (auto; lia); cbn [bind]). do 2 (rewrite getc_in by lia; cbn [bind]). reflexivity.
Qed.

Lemma tga_head_layout : forall idl cm typ ncol ent w h bits desc tail, 0 <= idl < 256 -> 0 <= cm < 256 -> 0 <= typ < 256 -> 0 <= ncol < 32768 -> 0 <= ent < 256 ->
  0 <= w < 65536 -> 0 <= h < 65536 -> 0 <= bits < 256 -> 0 <= desc < 256 ->
  tga_head_of (tga_header idl cm typ 0 ncol ent 0 0 w h bits desc ++ tail) = mkTga idl cm typ 0 ncol ent 0 0 w h bits desc.
Proof.
  intros idl cm typ ncol ent w h bits desc tail H1 H2 H3 H4 H5 H6 H7 H8 H9. 
  set (m v := v mod 256 + 256 * (v / 256 mod 256)).
  transitivity (mkTga (u8 idl) (u8 cm) (u8 typ) (signed 2 (m 0)) (signed 2 (m ncol)) (u8 ent) (signed 2 (m 0)) (signed 2 (m 0)) (m w) (m h) (u8 bits) (u8 desc)); [reflexivity|].
  rewrite !u8_small by lia.
  assert (W : forall v, 0 <= v < 65536 -> m v = v) by (unfold m; clear; intros; lia). clearbody m. rewrite !W by lia.
  assert (S : forall v, 0 <= v < 32768 -> signed 2 v = v) by (clear; intros v Hv; unfold signed; change (2 ^ (8 * 2 - 1)) with 32768; replace (v <? 32768) with true by lia; reflexivity).
  rewrite !S by lia. reflexivity.
Qed.

Lemma pixels_raw : forall col im d F p e px, Data im = Some d -> zlen d = SizeOfData im -> 0 <= p -> p + SizeOfData im <= zlen F -> 0 < zlen F < 4294967295 ->
  px = slice F p (SizeOfData im) ->
  tga_pixels false col im (Rd F p (zlen F) e) = Ok (true, with_Data im (Some px), Rd F (p + SizeOfData im) (zlen F) e).
Proof.
  intros col im d F p e px HD L Hp HF Hm ->. assert (0 <= zlen d) by auto. unfold tga_pixels. rewrite HD. rewrite read_in by (auto; lia). cbn [bind]. rewrite Z.eqb_refl. reflexivity.
Qed.
