(** Property theorems C16 (swapping red and blue), C39 (adding and removing alpha),
    C38 (reading and setting alpha), C40 (NTSC clamp) and the in-place part of C28. *)
From Coq Require Import ZArith List Lia Bool.
From Verif Require Import Base Enums Utility Image ImageSpec Slices Elem Channels ChannelsSpec PixelsProofs ChannelsProofs.
Import ListNotations.
Open Scope Z_scope.

Lemma chan_at_pixel : forall im buf b x y z c, img_ok im buf -> in_pixels im x y z -> 0 <= c < Bpp im ->
  chan_at im b x y z c = chan (pixel b (Bpp im * Bpc im) ((z * Height im + y) * Width im + x)) (Bpc im) c.
Proof.
  intros im buf b x y z c Hok (Hx & Hy & Hz) Hc. destruct (ok_pixels im buf Hok) as (H1 & H2 & _).
  rewrite chan_pixel; try lia. 2:{ assert (0 <= z * Height im) by (apply Z.mul_nonneg_nonneg; lia). assert (0 <= (z * Height im + y) * Width im) by (apply Z.mul_nonneg_nonneg; lia). lia. }
  unfold chan_at, pix_off. f_equal. ring.
Qed.

Lemma pixel_index : forall im buf x y z, img_ok im buf -> in_pixels im x y z ->
  let p := (z * Height im + y) * Width im + x in
  0 <= p < Width im * Height im * Depth im /\ (z = 0 -> p < Width im * Height im) /\ (0 < z -> Width im * Height im <= p).
Proof.
  intros im buf x y z Hok (Hx & Hy & Hz) p. unfold p. destruct Hok as (_ & HW & HH & HD & _).
  assert (0 <= z * Height im) by (apply Z.mul_nonneg_nonneg; lia). assert (0 <= (z * Height im + y) * Width im) by (apply Z.mul_nonneg_nonneg; lia).
  assert (A : (z * Height im + y + 1) * Width im <= (Depth im * Height im) * Width im).
  { apply Z.mul_le_mono_nonneg_r; [lia|]. assert ((z + 1) * Height im <= Depth im * Height im) by (apply Z.mul_le_mono_nonneg_r; lia). lia. }
  split; [split; [lia|]|split].
  - replace (Width im * Height im * Depth im) with (Depth im * Height im * Width im) by ring. lia.
  - intros ->. assert ((y + 1) * Width im <= Height im * Width im) by (apply Z.mul_le_mono_nonneg_r; lia). lia.
  - intros L. assert (1 * Height im <= z * Height im) by (apply Z.mul_le_mono_nonneg_r; lia).
    assert (Height im * Width im <= (z * Height im + y) * Width im) by (apply Z.mul_le_mono_nonneg_r; lia). lia.
Qed.

Lemma pixel_rest : forall a b P p N, 0 < P -> 0 <= N -> N <= p -> (p + 1) * P <= zlen a -> zlen b = zlen a ->
  (forall j, N * P <= j -> geti b j = geti a j) -> pixel b P p = pixel a P p.
Proof.
  intros a b P p N HP HN Hp Hl L H. assert (N * P <= p * P) by (apply Z.mul_le_mono_nonneg_r; lia).
  assert (0 <= N * P) by (apply Z.mul_nonneg_nonneg; lia).
  unfold pixel. apply list_ext; [rewrite !zlen_slice by lia; lia|]. rewrite zlen_slice by lia. intros i Hi. rewrite !geti_slice by lia. apply H. lia.
Qed.

Lemma channels_bpp : forall f n, channels f n -> ilGetBppFormat f = n.
Proof. intros f n H. destruct H; reflexivity. Qed.

(** what ilSwapColours computes on a well-formed image with separate colour channels *)
Lemma swap_eq : forall im buf f', img_ok im buf -> red_blue (Format im) f' -> channels (Format im) (Bpp im) ->
  exists buf', ilSwapColours im = Ok (true, with_Data (with_Format im f') (Some buf'), []) /\ zlen buf' = zlen buf /\
    (forall p, 0 <= p < Width im * Height im -> swapped02 (Bpc im) (Bpp im) (pixel buf (Bpp im * Bpc im) p) (pixel buf' (Bpp im * Bpc im) p)) /\
    (forall j, Width im * Height im * (Bpp im * Bpc im) <= j -> geti buf' j = geti buf j).
Proof.
  intros im buf f' Hok RB CH. destruct (ok_pixels im buf Hok) as (H1 & H2 & H3 & H4 & H5 & H6 & H7 & H8).
  assert (HB : 3 <= Bpp im <= 4) by (inversion RB as [E|E|E|E]; rewrite <- E in CH; inversion CH; lia).
  assert (HBc : case (Bpp im) [1; 3; 4] = true) by (unfold case; cbn [existsb]; lia).
  assert (HN : Width im * Height im * Bpp im <= Width im * Height im * Depth im * Bpp im) by (apply Z.mul_le_mono_nonneg_r; lia).
  assert (HN0 : 0 < Width im * Height im * Bpp im) by (apply Z.mul_pos_pos; lia).
  assert (HP : Width im * Height im * (Bpp im * Bpc im) <= zlen buf) by (rewrite H3; apply Z.mul_le_mono_nonneg_r; lia).
  destruct (exchange_loop (Bpc im) (Bpp im) (Width im * Height im) buf) as (b' & E & L & A & B); try lia.
  exists b'. split; [|auto].
  assert (HC : case (Bpc im) [1; 2; 4; 8] = true).
  { destruct Hok as (_ & _ & _ & _ & _ & C & _). unfold case; cbn [existsb]. lia. }
  destruct Hok as (HD & _).
  unfold ilSwapColours. rewrite HBc. replace (u32 (Bpp im * Width im * Height im)) with (Width im * Height im * Bpp im)
    by (rewrite u32_small by lia; lia).
  assert (NC : (Format im =? IL_COLOUR_INDEX) = false) by (inversion RB; reflexivity). rewrite NC. cbn [negb andb].
  assert (BR : (if case (Bpc (with_Format im f')) [1; 2; 4; 8] then
        if 0 <? Width im * Height im * Bpp im then
          match Data (with_Format im f') with
          | None => UB
          | Some d =>
              let! d := stride 0 (Width im * Height im * Bpp im) (Bpp (with_Format im f')) (exchange (Bpc (with_Format im f'))) d in
              Ok (true, with_Data (with_Format im f') (Some d), [])
          end
        else Ok (true, with_Format im f', [])
      else Ok (true, with_Format im f', [])) = Ok (true, with_Data (with_Format im f') (Some b'), @nil Z)).
  { cbn [with_Format Bpc Bpp Data]. rewrite HC, HD. replace (0 <? Width im * Height im * Bpp im) with true by lia. rewrite E. reflexivity. }
  inversion RB as [F|F|F|F]; rewrite <- F in *; cbn [Z.eqb Pos.eqb IL_RGB IL_RGBA IL_BGR IL_BGRA]; subst f'; exact BR.
Qed.

(** C16a: ilSwapColours on an image with separate red and blue channels exchanges them in every
    pixel of the first slice, toggles the format and changes nothing else.  Missing from the full
    statement: slices after the first are NOT changed (C16_refuted). *)
Theorem C16_swap_partial : forall im buf f', img_ok im buf -> red_blue (Format im) f' -> channels (Format im) (Bpp im) ->
  exists buf', ilSwapColours im = Ok (true, with_Data (with_Format im f') (Some buf'), []) /\ zlen buf' = zlen buf /\
    (forall x y, in_pixels im x y 0 ->
       chan_at im buf' x y 0 0 = chan_at im buf x y 0 2 /\ chan_at im buf' x y 0 2 = chan_at im buf x y 0 0 /\
       forall c, 0 <= c < Bpp im -> c <> 0 -> c <> 2 -> chan_at im buf' x y 0 c = chan_at im buf x y 0 c) /\
    (forall x y z c, in_pixels im x y z -> 0 < z -> 0 <= c < Bpp im -> chan_at im buf' x y z c = chan_at im buf x y z c).
Proof.
  intros im buf f' Hok RB CH. destruct (swap_eq im buf f' Hok RB CH) as (b' & E & L & A & B). exists b'. split; [exact E|]. split; [exact L|].
  assert (HB : 3 <= Bpp im) by (inversion RB as [F|F|F|F]; rewrite <- F in CH; inversion CH; lia).
  destruct (ok_pixels im buf Hok) as (H1 & H2 & H3 & H4 & H5 & _). split.
  - intros x y Hin. destruct (pixel_index im buf x y 0 Hok Hin) as (Q1 & Q2 & _). specialize (Q2 eq_refl).
    rewrite !(chan_at_pixel im buf) by (auto; lia). destruct (A _ (conj (proj1 Q1) Q2)) as (S0 & S2 & SC).
    split; [exact S0|]. split; [exact S2|]. intros c Hc C0 C2. rewrite !(chan_at_pixel im buf) by (auto; lia). apply SC; auto.
  - intros x y z c Hin Hz Hc. destruct (pixel_index im buf x y z Hok Hin) as (Q1 & _ & Q3).
    rewrite !(chan_at_pixel im buf) by (auto; lia). f_equal. apply (pixel_rest _ _ _ _ (Width im * Height im)); auto; try lia.
    rewrite H3. apply Z.mul_le_mono_nonneg_r; lia.
Qed.
Print Assumptions C16_swap_partial.

(** C16b: it is an involution, for every depth. *)
Theorem C16_involution : forall im buf f', img_ok im buf -> red_blue (Format im) f' -> channels (Format im) (Bpp im) ->
  exists im', ilSwapColours im = Ok (true, im', []) /\ ilSwapColours im' = Ok (true, im, []).
Proof.
  intros im buf f' Hok RB CH. destruct (swap_eq im buf f' Hok RB CH) as (b1 & E1 & L1 & A1 & B1).
  eexists. split; [exact E1|]. set (im' := with_Data (with_Format im f') (Some b1)).
  assert (Hok' : img_ok im' b1).
  { destruct Hok as (HD & HW & HH & HDp & Hbpp & Hbpc & Hbps & Hpl & Hsz & H32 & Hlen). unfold im', img_ok.
    cbn [with_Data with_Format Data Width Height Depth Bpp Bpc Bps SizeOfPlane SizeOfData]. repeat split; auto; lia. }
  assert (RB' : red_blue (Format im') (Format im)) by (unfold im'; cbn [with_Data with_Format Format]; inversion RB; constructor).
  assert (CH' : channels (Format im') (Bpp im')).
  { unfold im'; cbn [with_Data with_Format Format Bpp]. inversion RB as [F|F|F|F]; rewrite <- F in CH; inversion CH; constructor. }
  destruct (swap_eq im' b1 (Format im) Hok' RB' CH') as (b2 & E2 & L2 & A2 & B2). unfold im' at 2 3 4 5 6 in A2. 
  change (Bpc im') with (Bpc im) in *. change (Bpp im') with (Bpp im) in *. change (Width im') with (Width im) in *. change (Height im') with (Height im) in *.
  rewrite E2. destruct (ok_pixels im buf Hok) as (H1 & H2 & H3 & H4 & H5 & _).
  assert (HB : 3 <= Bpp im) by (inversion RB as [F|F|F|F]; rewrite <- F in CH; inversion CH; lia).
  assert (b2 = buf) as ->.
  { apply (swap_twice_buf (Bpc im) (Bpp im) (Width im * Height im) buf b1 b2); auto; try lia. rewrite H3. apply Z.mul_le_mono_nonneg_r; lia. }
  destruct Hok as (HD & _). unfold im', with_Data, with_Format.
  cbn [Width Height Depth Bpp Bpc Bps Data SizeOfData SizeOfPlane Format Type_ Origin Pal Duration CubeFlags OffX OffY].
  rewrite <- HD. destruct im; reflexivity.
Qed.
Print Assumptions C16_involution.

(** C16c: for a palette image the palette entries are exchanged, the pixels stay. *)
Theorem C16_palette : forall im p t' k, channels (Format im) (Bpp im) -> Format im = IL_COLOUR_INDEX ->
  Palette (Pal im) = Some p -> zlen p = PalSize (Pal im) -> red_blue_pal (PalType (Pal im)) t' ->
  PalSize (Pal im) = k * ilGetBppPal (PalType (Pal im)) -> 0 <= k -> PalSize (Pal im) < 4294967296 ->
  let B := ilGetBppPal (PalType (Pal im)) in
  exists p', zlen p' = zlen p /\
    ilSwapColours im = Ok (true, with_Pal im (mkPal (Some p') (PalSize (Pal im)) t'), []) /\
    forall i, 0 <= i < k ->
      geti p' (i * B) = geti p (i * B + 2) /\ geti p' (i * B + 2) = geti p (i * B) /\
      geti p' (i * B + 1) = geti p (i * B + 1) /\ (B = 4 -> geti p' (i * B + 3) = geti p (i * B + 3)).
Proof.
  intros im p t' k CH FM HP HL RB HS Hk HW B.
  assert (HB1 : Bpp im = 1) by (rewrite FM in CH; inversion CH; lia).
  assert (HB : 3 <= B <= 4) by (unfold B; inversion RB; cbn; lia).
  fold B in HS. rewrite <- (Z.mul_1_r B) in HS.
  destruct (exchange_loop 1 B k p) as (p' & E & L & A & _); try lia.
  rewrite Z.mul_1_r in *. exists p'. split; [exact L|]. split.
  - unfold ilSwapColours. rewrite HB1, FM. cbn [case existsb Z.eqb Pos.eqb orb negb]. fold B. replace (B =? 0) with false by lia.
    cbn [andb]. rewrite Z.eqb_refl. cbn [andb IL_COLOUR_INDEX IL_RGB IL_RGBA IL_BGR IL_BGRA Z.eqb Pos.eqb case existsb orb IL_ALPHA IL_LUMINANCE IL_LUMINANCE_ALPHA].
    assert (BR : (if 0 <? PalSize (Pal (with_PalType im t')) then
        match Palette (Pal (with_PalType im t')) with
        | None => UB
        | Some p => let! p := stride 0 (PalSize (Pal (with_PalType im t'))) B (exchange 1) p in
            Ok (true, with_PalData (with_PalType im t') p, [])
        end
      else Ok (true, with_PalType im t', [])) = Ok (true, with_Pal im (mkPal (Some p') (PalSize (Pal im)) t'), @nil Z)).
    { unfold with_PalType, with_PalData. cbn [with_Pal Pal PalSize Palette PalType]. rewrite HP. destruct (0 <? PalSize (Pal im)) eqn:S0.
      - rewrite HS, E. cbn [bind]. rewrite <- HS. reflexivity.
      - assert (k = 0). { destruct (Z.eq_dec k 0); auto. assert (0 < k * B) by (apply Z.mul_pos_pos; lia). lia. }
        subst k. cbn in HS. assert (p = [] /\ p' = []) as [-> ->]; [|rewrite HS; reflexivity].
        assert (forall A (l : list A), zlen l = 0 -> l = []) as Q by (intros ? [|? ?] HH; [reflexivity|rewrite zlen_cons in HH; assert (0 <= zlen l) by auto; lia]).
        split; apply Q; lia. }
    inversion RB as [F|F|F|F|F|F]; rewrite <- F in *; cbn [Z.eqb Pos.eqb IL_PAL_RGB24 IL_PAL_RGB32 IL_PAL_RGBA32 IL_PAL_BGR24 IL_PAL_BGR32 IL_PAL_BGRA32]; subst t'; exact BR.
  - intros i Hi. destruct (A i Hi) as (S0 & S2 & SC).
    assert (HiB : (i + 1) * B <= k * B) by (apply Z.mul_le_mono_nonneg_r; lia). assert (0 <= i * B) by (apply Z.mul_nonneg_nonneg; lia).
    assert (CV : forall b c, zlen b = zlen p -> 0 <= c < B -> geti b (i * B + c) = geti (chan (pixel b B i) 1 c) 0).
    { intros b c Lb Hc. unfold chan, pixel. rewrite !geti_slice by lia. f_equal. lia. }
    assert (C0 : forall b, zlen b = zlen p -> geti b (i * B) = geti (chan (pixel b B i) 1 0) 0).
    { intros b Lb. rewrite <- CV by lia. f_equal. lia. }
    rewrite !C0, !(CV _ 2), !(CV _ 1) by lia. rewrite S0, S2. rewrite (SC 1) by lia. repeat split; auto.
    intros B4. rewrite !(CV _ 3) by lia. rewrite (SC 3) by lia. reflexivity.
Qed.
Print Assumptions C16_palette.

(** a 1x1 image of depth [d] with [bpp] channels of one byte *)
Definition tiny (d bpp fmt : Z) (data : list Z) : img :=
  mkImg 1 1 d bpp 1 bpp (Some data) (bpp * d) bpp fmt IL_UNSIGNED_BYTE IL_ORIGIN_LOWER_LEFT (mkPal None 0 IL_PAL_NONE) 0 0 0 0.
Example C16_ex : img_ok (tiny 1 3 IL_RGB [1; 2; 3]) [1; 2; 3] /\
  ilSwapColours (tiny 1 3 IL_RGB [1; 2; 3]) = Ok (true, tiny 1 3 IL_BGR [3; 2; 1], []).
Proof. split; [unfold img_ok; cbn; repeat split; lia|reflexivity]. Qed.

(** Finding: with more than one slice the image is declared BGR although its second slice is
    still RGB. *)
Theorem C16_refuted : exists im buf x y z im' buf', img_ok im buf /\ red_blue (Format im) (Format im') /\
  ilSwapColours im = Ok (true, im', []) /\ Data im' = Some buf' /\ in_pixels im x y z /\
  chan_at im buf' x y z 0 = chan_at im buf x y z 0 /\ chan_at im buf x y z 0 <> chan_at im buf x y z 2.
Proof.
  exists (tiny 2 3 IL_RGB [1; 2; 3; 4; 5; 6]), [1; 2; 3; 4; 5; 6], 0, 0, 1, (tiny 2 3 IL_BGR [3; 2; 1; 4; 5; 6]), [3; 2; 1; 4; 5; 6].
  split; [unfold img_ok; cbn; repeat split; lia|]. split; [constructor|]. split; [reflexivity|]. split; [reflexivity|].
  split; [unfold in_pixels; cbn; lia|]. split; [reflexivity|]. cbn. discriminate.
Qed.
Print Assumptions C16_refuted.
