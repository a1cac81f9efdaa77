(** Property theorems C38 (reading and setting the alpha channel), C40 (NTSC clamp) and
    C28_fast (in-place conversion between RGB(A) and BGR(A)). *)
From Coq Require Import ZArith List Lia Bool.
From Verif Require Import Base Enums Utility Image ImageSpec Slices Elem Channels ChannelsSpec PixelsProofs ChannelsProofs ChannelsProps ChannelsProps2.
Import ListNotations.
Open Scope Z_scope.

Lemma elsize_type : forall t n, type_size t n -> elsize t = n.
Proof. intros t n H. unfold elsize. destruct (type_size_bpc t n H) as (_ & a & E & _ & L). rewrite E. exact L. Qed.

(** C28 (fast path): converting a well-formed image between RGB and BGR, or RGBA and BGRA, of the
    same type exchanges red and blue in every pixel of every slice and changes nothing else. *)
Theorem C28_fast : forall im buf f', img_ok im buf -> red_blue (Format im) f' -> channels (Format im) (Bpp im) ->
  type_size (Type_ im) (Bpc im) ->
  exists buf', iFastConvert im f' = Ok (true, with_Data im (Some buf')) /\ zlen buf' = zlen buf /\
    forall x y z, in_pixels im x y z ->
       chan_at im buf' x y z 0 = chan_at im buf x y z 2 /\ chan_at im buf' x y z 2 = chan_at im buf x y z 0 /\
       forall c, 0 <= c < Bpp im -> c <> 0 -> c <> 2 -> chan_at im buf' x y z c = chan_at im buf x y z c.
Proof.
  intros im buf f' Hok RB CH TS. destruct (ok_pixels im buf Hok) as (H1 & H2 & H3 & H4 & H5 & H6 & H7 & H8 & H9).
  assert (HB : 3 <= Bpp im) by (inversion RB as [F|F|F|F]; rewrite <- F in CH; inversion CH; lia).
  set (N := Width im * Height im * Depth im) in *.
  destruct (swap02_loop (Bpc im) (Bpp im) N buf) as (b' & E & L & A & _); try lia.
  exists b'. split; [|split; [exact L|]].
  - unfold iFastConvert. destruct (type_size_bpc _ _ TS) as (_ & a & Ea & _ & La). rewrite Ea, La.
    assert (G : forall bpp, bpp = Bpp im -> (if Bpc im =? 0 then Ok (false, im)
      else if 0 <? SizeOfData im / (bpp * Bpc im) then
        match Data im with
        | None => UB
        | Some d => let! d := loop 0 (SizeOfData im / (bpp * Bpc im)) (fun k d => 
                         let! t := rde d (Bpc im) (k * bpp) in
                         let! v := rde d (Bpc im) (k * bpp + 2) in
                         let! d := wre d (Bpc im) (k * bpp) v in
                         wre d (Bpc im) (k * bpp + 2) t) d in
                    Ok (true, with_Data im (Some d))
        end
      else Ok (true, im)) = Ok (true, with_Data im (Some b'))).
    { intros bpp ->. destruct Hok as (HD & _ & _ & _ & _ & _ & _ & _ & _ & _ & HL).
      replace (SizeOfData im / (Bpp im * Bpc im)) with N by (rewrite <- HL, H3; symmetry; apply Z.div_mul; lia).
      replace (Bpc im =? 0) with false by lia. replace (0 <? N) with true by lia. rewrite HD, E. reflexivity. }
    inversion RB as [F|F|F|F]; rewrite <- F in CH; inversion CH; cbn [case existsb Z.eqb Pos.eqb orb IL_RGB IL_RGBA IL_BGR IL_BGRA]; apply G; lia.
  - intros x y z Hin. destruct (pixel_index im buf x y z Hok Hin) as (Q1 & _). fold N in Q1.
    rewrite !(chan_at_pixel im buf) by (auto; lia). destruct (A _ Q1) as (S0 & S2 & SC).
    split; [exact S0|]. split; [exact S2|]. intros c Hc C0 C2. rewrite !(chan_at_pixel im buf) by (auto; lia). apply SC; auto.
Qed.
Print Assumptions C28_fast.
Example C28_fast_ex : iFastConvert (tiny 2 3 IL_RGB [1; 2; 3; 4; 5; 6]) IL_BGR = Ok (true, tiny 2 3 IL_RGB [3; 2; 1; 6; 5; 4]).
Proof. reflexivity. Qed.

Lemma get_loop : forall d n off N A, 0 < n -> 0 < off -> 0 <= N -> N * (off * n) <= zlen d -> N * n <= zlen A ->
  off - 1 + N * off < 4294967296 -> N < 4294967296 ->
  exists A', stride (off - 1) (N * off) off (fun i s => let! v := rde d n i in
                                   let! A := wre (fst s) n (snd s) v in
                                   Ok (A, u32 (snd s + 1))) (A, 0) = Ok (A', N) /\ zlen A' = zlen A /\
    (forall p, 0 <= p < N -> pixel A' n p = chan (pixel d (off * n) p) n (off - 1)) /\
    (forall j, N * n <= j -> geti A' j = geti A j).
Proof.
  intros d n off N A Hn Ho HN Hd HA Hw Hw2. rewrite stride_loop by lia.
  destruct (loop_rule _ (fun k s => snd s = k /\ zlen (fst s) = zlen A /\
      (forall p, 0 <= p < k -> pixel (fst s) n p = chan (pixel d (off * n) p) n (off - 1)) /\
      (forall j, k * n <= j -> geti (fst s) j = geti A j)) 0 N
      (fun k s => let! v := rde d n (off - 1 + k * off) in let! A := wre (fst s) n (snd s) v in Ok (A, u32 (snd s + 1))) (A, 0))
    as ([A' j'] & E & J & L & P & R).
  - lia.
  - cbn. repeat split; auto; lia.
  - intros k [B j] Hk (J & L & P & R). cbn [fst snd] in *. subst j.
    assert ((k + 1) * (off * n) <= N * (off * n)) by (apply Z.mul_le_mono_nonneg_r; [apply Z.mul_nonneg_nonneg; lia|lia]).
    destruct (chan_read d n off k (off - 1)) as [E1 L1]; try lia.
    replace (off - 1 + k * off) with (k * off + (off - 1)) by lia. rewrite E1. cbn [bind]. remember (chan (pixel d (off * n) k) n (off - 1)) as v eqn:Ev.
    assert ((k + 1) * n <= N * n) by (apply Z.mul_le_mono_nonneg_r; lia). assert (0 <= k * n) by (apply Z.mul_nonneg_nonneg; lia).
    rewrite wre_ok by lia. cbn [bind]. rewrite u32_small by lia. eexists. split; [reflexivity|]. cbn [fst snd].
    split; [reflexivity|]. split; [rewrite zlen_splice; lia|]. split.
    + intros p Hp. destruct (Z.eq_dec p k) as [->|].
      * rewrite <- Ev. unfold pixel. assert (T := slice_splice_same B (k * n) v). rewrite L1 in T. apply T; lia.
      * rewrite <- (P p) by lia. assert (0 <= p * n) by (apply Z.mul_nonneg_nonneg; lia). assert ((p + 1) * n <= k * n) by (apply Z.mul_le_mono_nonneg_r; lia).
        unfold pixel. apply slice_splice_other; rewrite ?L1; lia.
    + intros i Hi. rewrite splice_after by (rewrite ?L1; lia). apply R. lia.
  - cbn [fst snd] in *. subst j'. exists A'. auto.
Qed.

(** C38a: ilGetAlpha in the image's own type returns, for every pixel in storage order, the
    bytes of its alpha channel, and touches no memory outside the two blocks. *)
Theorem C38_get : forall alloc conv im buf k A, img_ok im buf -> alpha_chan (Format im) k -> channels (Format im) (Bpp im) ->
  type_size (Type_ im) (Bpc im) ->
  alloc (Width im * Height im * Depth im * Bpc im) = Some A -> zlen A = Width im * Height im * Depth im * Bpc im ->
  exists A', ilGetAlpha alloc conv im (Type_ im) = Ok (Some A', []) /\ zlen A' = Width im * Height im * Depth im * Bpc im /\
    forall x y z, in_pixels im x y z ->
      slice A' (((z * Height im + y) * Width im + x) * Bpc im) (Bpc im) = chan_at im buf x y z k.
Proof.
  intros alloc conv im buf k A Hok AC CH TS HA HL.
  destruct (ok_pixels im buf Hok) as (H1 & H2 & H3 & H4 & H5 & H6 & H7 & H8 & H9).
  assert (HK : k = Bpp im - 1 /\ 2 <= Bpp im) by (inversion AC as [F|F|F]; rewrite <- F in CH; inversion CH; lia).
  destruct HK as [-> HB]. set (N := Width im * Height im * Depth im) in *.
  assert (N * Bpc im <= N * (Bpp im * Bpc im)).
  { apply Z.mul_le_mono_nonneg_l; [lia|]. assert (1 * Bpc im <= Bpp im * Bpc im) by (apply Z.mul_le_mono_nonneg_r; lia). lia. }
  assert (HB4 : Bpp im <= 4) by (inversion CH; lia).
  assert (HN1 : N * 1 <= N * Bpp im) by (apply Z.mul_le_mono_nonneg_l; lia).
  assert (HW : Bpp im - 1 + N * Bpp im < 4294967296).
  { assert (Bpp im = 4 \/ Bpp im = 2) as [Q|Q] by (inversion AC as [F|F|F]; rewrite <- F in CH; inversion CH; auto); rewrite Q in *; lia. }
  destruct (get_loop buf (Bpc im) (Bpp im) N A) as (A' & E & L & P & _); try lia.
  exists A'. split; [|split; [lia|]].
  - unfold ilGetAlpha. destruct (type_size_bpc _ _ TS) as (Eb & _). rewrite Eb. replace (Bpc im =? 0) with false by lia.
    rewrite Z.eqb_refl. cbn [bind]. replace (Bpp im =? 0) with false by lia. fold N.
    replace (u32 (N * Bpp im)) with (N * Bpp im) by (rewrite u32_small; lia). rewrite Z.div_mul by lia.
    replace (u32 (N * Bpc im)) with (N * Bpc im). 2:{ rewrite u32_small; auto. split; [apply Z.mul_nonneg_nonneg; lia|lia]. }
    rewrite HA. replace (case (Format im) [IL_RGB; IL_BGR; IL_LUMINANCE; IL_COLOUR_INDEX]) with false by (inversion AC; reflexivity).
    replace (Format im =? IL_ALPHA) with false by (inversion AC; reflexivity).
    replace (if Format im =? IL_LUMINANCE_ALPHA then 2 else 4) with (Bpp im) by (inversion AC as [F|F|F]; rewrite <- F in CH; inversion CH; reflexivity).
    rewrite (elsize_type _ _ TS). replace (Bpc im =? 0) with false by lia. destruct Hok as (HD & _). rewrite HD, E. reflexivity.
  - intros x y z Hin. destruct (pixel_index im buf x y z Hok Hin) as (Q1 & _). fold N in Q1.
    rewrite (chan_at_pixel im buf) by (auto; lia). exact (P _ Q1).
Qed.
Print Assumptions C38_get.

(** C38b: for a format without alpha every byte of the result is 255. *)
Theorem C38_get_opaque : forall alloc conv im buf A, img_ok im buf -> 
  (Format im = IL_RGB \/ Format im = IL_BGR \/ Format im = IL_LUMINANCE \/ Format im = IL_COLOUR_INDEX) ->
  type_size (Type_ im) (Bpc im) ->
  alloc (Width im * Height im * Depth im * Bpc im) = Some A -> zlen A = Width im * Height im * Depth im * Bpc im ->
  exists A', ilGetAlpha alloc conv im (Type_ im) = Ok (Some A', []) /\ zlen A' = zlen A /\
    forall j, 0 <= j < zlen A' -> geti A' j = 255.
Proof.
  intros alloc conv im buf A Hok HF TS HA HL.
  destruct (ok_pixels im buf Hok) as (H1 & H2 & H3 & H4 & H5 & H6 & H7 & H8 & H9).
  set (N := Width im * Height im * Depth im) in *. assert (B0 : 0 < Bpp im) by (destruct Hok as (_ & _ & _ & _ & B & _); lia).
  assert (N * Bpc im <= N * (Bpp im * Bpc im)).
  { apply Z.mul_le_mono_nonneg_l; [lia|]. assert (1 * Bpc im <= Bpp im * Bpc im) by (apply Z.mul_le_mono_nonneg_r; lia). lia. }
  assert (HN1 : N * 1 <= N * Bpp im) by (apply Z.mul_le_mono_nonneg_l; lia).
  assert (0 <= N * Bpc im) by (apply Z.mul_nonneg_nonneg; lia).
  destruct (memset_spec A 0 255 (N * Bpc im)) as (A' & E & L & P); try lia.
  exists A'. split; [|split; [lia|]].
  - unfold ilGetAlpha. destruct (type_size_bpc _ _ TS) as (Eb & _). rewrite Eb. replace (Bpc im =? 0) with false by lia.
    rewrite Z.eqb_refl. cbn [bind]. replace (Bpp im =? 0) with false by lia. fold N.
    replace (u32 (N * Bpp im)) with (N * Bpp im) by (rewrite u32_small; lia). rewrite Z.div_mul by lia.
    replace (u32 (N * Bpc im)) with (N * Bpc im) by (rewrite u32_small; lia).
    rewrite HA. replace (case (Format im) [IL_RGB; IL_BGR; IL_LUMINANCE; IL_COLOUR_INDEX]) with true
      by (unfold case; cbn [existsb]; lia).
    rewrite E. reflexivity.
  - intros j Hj. rewrite P by lia. replace ((0 <=? j) && (j <? 0 + N * Bpc im)) with true by lia. reflexivity.
Qed.
Print Assumptions C38_get_opaque.

Lemma set_loop : forall d n off N v, 0 < n -> 0 < off -> 0 <= N -> N * (off * n) <= zlen d -> zlen v = n -> off - 1 + N * off < 4294967296 ->
  exists d', stride (off - 1) (N * off) off (fun i d => wre d (zlen v) i v) d = Ok d' /\ zlen d' = zlen d /\
    (forall p, 0 <= p < N -> chan (pixel d' (off * n) p) n (off - 1) = v /\
        forall c, 0 <= c < off - 1 -> chan (pixel d' (off * n) p) n c = chan (pixel d (off * n) p) n c).
Proof.
  intros d n off N v Hn Ho HN Hd Hv Hw. rewrite stride_loop by lia.
  destruct (pixmap_inplace (fun px px' => chan px' n (off - 1) = v /\ forall c, 0 <= c < off - 1 -> chan px' n c = chan px n c) (off * n) N
     (fun k d => wre d (zlen v) (off - 1 + k * off) v) d) as (d' & E & L & A & _); auto.
  - apply Z.mul_pos_pos; lia.
  - intros p b Hp Lb Eb. assert ((p + 1) * (off * n) <= N * (off * n)) by (apply Z.mul_le_mono_nonneg_r; [apply Z.mul_nonneg_nonneg; lia|lia]).
    destruct (chan_write b n off p (off - 1) v) as (b' & W & Z1 & C1 & O1 & F1); try lia.
    exists b'. rewrite Hv. replace (off - 1 + p * off) with (p * off + (off - 1)) by lia. split; [exact W|]. split; [lia|]. split; [|exact F1].
    split; [exact C1|]. intros c Hc. rewrite <- Eb. apply O1; lia.
  - exists d'. auto.
Qed.

(** C38c: ilSetAlpha on an image with an alpha channel writes the value into the alpha channel of
    every pixel of every slice and leaves every other channel alone. [v] is the encoded value
    (C38_value below says which). *)
Theorem C38_set_partial : forall fenc denc conv im buf k a v, img_ok im buf -> alpha_chan (Format im) k -> channels (Format im) (Bpp im) ->
  type_size (Type_ im) (Bpc im) -> alpha_bytes fenc denc (Type_ im) a = Ok (Some v) -> zlen v = Bpc im ->
  exists buf', ilSetAlpha fenc denc conv im a = Ok (true, with_Data im (Some buf')) /\ img_ok (with_Data im (Some buf')) buf' /\
    forall x y z, in_pixels im x y z -> chan_at im buf' x y z k = v /\
      forall c, 0 <= c < Bpp im -> c <> k -> chan_at im buf' x y z c = chan_at im buf x y z c.
Proof.
  intros fenc denc conv im buf k a v Hok AC CH TS AB LV.
  destruct (ok_pixels im buf Hok) as (H1 & H2 & H3 & H4 & H5 & H6 & H7 & H8 & H9).
  assert (HK : k = Bpp im - 1 /\ 2 <= Bpp im <= 4) by (inversion AC as [F|F|F]; rewrite <- F in CH; inversion CH; lia).
  destruct HK as [-> HB]. set (N := Width im * Height im * Depth im) in *.
  assert (HW : Bpp im - 1 + N * Bpp im < 4294967296).
  { assert (Bpp im = 4 \/ Bpp im = 2) as [Q|Q] by (inversion AC as [F|F|F]; rewrite <- F in CH; inversion CH; auto); rewrite Q in *; lia. }
  assert (HN1 : 0 < N * Bpp im) by (apply Z.mul_pos_pos; lia).
  destruct (set_loop buf (Bpc im) (Bpp im) N v) as (d' & E & L & A); try lia.
  exists d'. split; [|split].
  - unfold ilSetAlpha. cbv beta zeta. fold N. rewrite AB. cbn [bind].
    assert (G : forall off, off = Bpp im -> (if off - 1 <? u32 (N * Bpp im) then
          match Data im with
          | None => UB
          | Some d => let! d := stride (off - 1) (u32 (N * Bpp im)) off (fun i d => wre d (zlen v) i v) d in
                      Ok (true, with_Data im (Some d))
          end
        else Ok (true, im)) = Ok (true, with_Data im (Some d'))).
    { intros off ->. rewrite u32_small by lia. assert (1 * Bpp im <= N * Bpp im) by (apply Z.mul_le_mono_nonneg_r; lia).
      replace (Bpp im - 1 <? N * Bpp im) with true by lia. destruct Hok as (HD & _). rewrite HD, E. reflexivity. }
    assert (FM : Format im = IL_RGBA /\ 4 = Bpp im \/ Format im = IL_BGRA /\ 4 = Bpp im \/ Format im = IL_LUMINANCE_ALPHA /\ 2 = Bpp im)
      by (clear - AC CH; inversion AC as [F|F|F]; rewrite <- F in CH; inversion CH; auto).
    destruct FM as [[-> FB]|[[-> FB]|[-> FB]]]; cbn [Z.eqb Pos.eqb IL_RGB IL_RGBA IL_BGR IL_BGRA IL_LUMINANCE IL_LUMINANCE_ALPHA].
    + apply (G 4). exact FB.
    + apply (G 4). exact FB.
    + apply (G 2). exact FB.
  - destruct Hok as (HD & HWi & HH & HDp & Hbpp & Hbpc & Hbps & Hpl & Hsz & H32 & Hlen). unfold img_ok.
    cbn [with_Data Data Width Height Depth Bpp Bpc Bps SizeOfPlane SizeOfData]. repeat split; auto; lia.
  - intros x y z Hin. destruct (pixel_index im buf x y z Hok Hin) as (Q1 & _). fold N in Q1.
    destruct (A _ Q1) as (A1 & A2). rewrite (chan_at_pixel im buf) by (auto; lia). split; [exact A1|].
    intros c Hc Hne. rewrite !(chan_at_pixel im buf) by (auto; lia). apply A2; lia.
Qed.
Print Assumptions C38_set_partial.
Example C38_set_ex : ilSetAlpha (fun _ => []) (fun _ => []) (fun _ _ _ => UB) (tiny 2 4 IL_RGBA [1; 2; 3; 4; 5; 6; 7; 8]) 524288 =
  Ok (true, tiny 2 4 IL_RGBA [1; 2; 3; 128; 5; 6; 7; 128]).
Proof. reflexivity. Qed.

(** C38d: for byte and short channels the value written is the argument (clamped to 0..1) scaled
    to the full range of the unsigned type and rounded to nearest. *)
Theorem C38_value : forall fenc denc t a n m, type_size t n -> n <= 2 -> m = 2 ^ (8 * n) - 1 -> 0 <= a <= 1048576 ->
  exists w, alpha_bytes fenc denc t a = Ok (Some (le (Z.to_nat n) w)) /\ 0 <= w <= m /\
    2 * Z.abs (w * 1048576 - a * m) <= 1048576.
Proof.
  intros fenc denc t a n m TS Hn Hm Ha. unfold alpha_bytes. replace (a <? 0) with false by lia. replace (1048576 <? a) with false by lia.
  exists ((a * m * 2 + 1048576) / 2097152).
  assert (n = 1 /\ m = 255 \/ n = 2 /\ m = 65535) as [[-> ->]|[-> ->]].
  { inversion TS; subst; try lia; cbn; auto. }
  - split; [|lia]. inversion TS; subst; reflexivity.
  - split; [|lia]. inversion TS; subst; reflexivity.
Qed.
Print Assumptions C38_value.

(** C38e: an argument outside 0..1 counts as 0 or 1, for every image and type. *)
Theorem C38_clamp : forall fenc denc conv im a,
  (a <= 0 -> ilSetAlpha fenc denc conv im a = ilSetAlpha fenc denc conv im 0) /\
  (1048576 <= a -> ilSetAlpha fenc denc conv im a = ilSetAlpha fenc denc conv im 1048576).
Proof.
  intros fenc denc conv im a.
  assert (G : forall t, (a <= 0 -> alpha_bytes fenc denc t a = alpha_bytes fenc denc t 0) /\ (1048576 <= a -> alpha_bytes fenc denc t a = alpha_bytes fenc denc t 1048576)).
  { intros t. unfold alpha_bytes. split; intros H.
    - replace (if a <? 0 then 0 else if 1048576 <? a then 1048576 else a) with 0; [reflexivity|].
      destruct (Z.ltb_spec a 0); [reflexivity|]. destruct (Z.ltb_spec 1048576 a); lia.
    - replace (if a <? 0 then 0 else if 1048576 <? a then 1048576 else a) with 1048576; [reflexivity|].
      destruct (Z.ltb_spec a 0); [lia|]. destruct (Z.ltb_spec 1048576 a); lia. }
  split; intros H; unfold ilSetAlpha.
  - assert (E := fun t => proj1 (G t) H). cbv zeta. repeat match goal with |- (if ?b then _ else _) = _ => destruct b end; rewrite ?E; try reflexivity;
    match goal with |- context [conv im ?f ?t] => destruct (conv im f t) as [[x|]| | ]; cbn [bind]; rewrite ?E; reflexivity end.
  - assert (E := fun t => proj2 (G t) H). cbv zeta. repeat match goal with |- (if ?b then _ else _) = _ => destruct b end; rewrite ?E; try reflexivity;
    match goal with |- context [conv im ?f ?t] => destruct (conv im f t) as [[x|]| | ]; cbn [bind]; rewrite ?E; reflexivity end.
Qed.
Print Assumptions C38_clamp.
Example C38_clamp_ex : ilSetAlpha (fun _ => []) (fun _ => []) (fun _ _ _ => UB) (tiny 1 4 IL_RGBA [1; 2; 3; 4]) 99999999 = Ok (true, tiny 1 4 IL_RGBA [1; 2; 3; 255]).
Proof. reflexivity. Qed.

(** Finding: for 32-bit integer channels the value is cast to a 16-bit type; every alpha of
    2^-16 or more is undefined behaviour. *)
Theorem C38_int_refuted : forall fenc denc conv im buf a, img_ok im buf -> Format im = IL_RGBA ->
  (Type_ im = IL_INT \/ Type_ im = IL_UNSIGNED_INT) -> 16 <= a <= 1048576 -> ilSetAlpha fenc denc conv im a = UB.
Proof.
  intros fenc denc conv im buf a Hok HF HT Ha. unfold ilSetAlpha. rewrite HF. cbn [Z.eqb Pos.eqb IL_RGB IL_RGBA].
  assert (AB : alpha_bytes fenc denc (Type_ im) a = UB).
  { unfold alpha_bytes. replace (a <? 0) with false by lia. replace (1048576 <? a) with false by lia.
    replace ((a * 4294967295 * 2 + 1048576) / 2097152 <? 65536) with false by lia. destruct HT as [-> | ->]; reflexivity. }
  rewrite AB. reflexivity.
Qed.
Print Assumptions C38_int_refuted.

(** Finding: ilModAlpha does nothing on images that already have an alpha channel. *)
Theorem C38_modalpha_refuted : forall conv im k, alpha_chan (Format im) k -> ilModAlpha_start conv im = Ok None.
Proof. intros conv im k H. unfold ilModAlpha_start. inversion H; reflexivity. Qed.
Print Assumptions C38_modalpha_refuted.

(** ** C40 *)
Section Clamp.
  Variable buf : list Z.
  Let St (o : Z) (s : list Z * Z) : Prop := snd s = o /\ zlen (fst s) = zlen buf /\
     forall j, 0 <= j -> geti (fst s) j = if j <? o then limit (geti buf j) 16 235 else geti buf j.
  Lemma adv : forall body k n o s, 0 <= o -> 0 <= k -> 0 <= n -> o + n * k <= zlen buf -> St o s ->
    (forall i o s, 0 <= o -> o + k <= zlen buf -> St o s -> exists s', body i s = Ok s' /\ St (o + k) s') ->
    exists s', loop 0 n body s = Ok s' /\ St (o + n * k) s'.
  Proof.
    intros body k n o s Ho Hk Hn Hl H0 H.
    destruct (loop_rule _ (fun i s => St (o + i * k) s) 0 n body s) as (s' & E & S'); auto.
    - rewrite Z.add_0_r. exact H0.
    - intros i st Hi HS. assert ((i + 1) * k <= n * k) by (apply Z.mul_le_mono_nonneg_r; lia). assert (0 <= i * k) by (apply Z.mul_nonneg_nonneg; lia).
      destruct (H i (o + i * k) st) as (s1 & E1 & S1); try lia; auto. exists s1. split; auto.
      replace (o + (i + 1) * k) with (o + i * k + k) by ring. exact S1.
    - exists s'. auto.
  Qed.
  Lemma clamp_pixel : forall bpp o s, 0 <= o -> 0 <= bpp -> o + bpp <= zlen buf -> zlen buf < 4294967296 -> St o s ->
    exists s', (let '(d, off) := s in
              let! d := loop 0 bpp (fun c d =>
                  let! v := rd d (u32 (off + c)) in wr d (u32 (off + c)) (limit v 16 235)) d in
              Ok (d, u32 (off + bpp))) = Ok s' /\ St (o + bpp) s'.
  Proof.
    intros bpp o [d off] Ho Hb Hl H32 (S1 & S2 & S3). cbn [fst snd] in *. subst off.
    destruct (loop_rule _ (fun i d => St (o + i) (d, o + i)) 0 bpp (fun c d => let! v := rd d (u32 (o + c)) in wr d (u32 (o + c)) (limit v 16 235)) d) as (d' & E & S'); auto.
    - rewrite Z.add_0_r. split; [reflexivity|auto].
    - intros c e Hc (T1 & T2 & T3). cbn [fst snd] in *. rewrite u32_small by lia. rewrite rd_ok by lia. cbn [bind]. rewrite wr_ok by lia.
      eexists. split; [reflexivity|]. split; [reflexivity|]. cbn [fst snd]. split; [rewrite zlen_upd; lia|].
      intros j Hj. rewrite geti_upd by lia. destruct (j =? o + c) eqn:Ej.
      + replace (j <? o + (c + 1)) with true by lia. rewrite T3 by lia. replace (o + c <? o + c) with false by lia. f_equal. f_equal. lia.
      + rewrite T3 by lia. replace (j <? o + (c + 1)) with (j <? o + c) by lia. reflexivity.
    - rewrite E. cbn [bind]. eexists. split; [reflexivity|]. destruct S' as (T1 & T2 & T3). cbn [fst snd] in *. split; [cbn; rewrite ?T1|auto].
      destruct (Z.eq_dec (o + bpp) 4294967296); [lia|]. apply u32_small. lia.
  Qed.
End Clamp.

Lemma clamp_eq : forall im buf, img_ok im buf -> Type_ im = IL_UNSIGNED_BYTE -> Bpc im = 1 ->
  exists buf', ilClampNTSC im = Ok (true, with_Data im (Some buf')) /\ zlen buf' = zlen buf /\
    forall j, 0 <= j < zlen buf -> geti buf' j = limit (geti buf j) 16 235.
Proof.
  intros im buf Hok HT HB. destruct (ok_pixels im buf Hok) as (H1 & H2 & H3 & H4 & H5 & H6 & H7 & H8 & H9).
  assert (Hok' := Hok). destruct Hok' as (HD & HW & HH & HDp & Hbpp & _ & _ & _ & HSz & H32 & HLen). change (2 ^ 32) with 4294967296 in H32.
  rewrite HB, Z.mul_1_r in H3.
  set (St := fun (o : Z) (s : list Z * Z) => snd s = o /\ zlen (fst s) = zlen buf /\
     forall j, 0 <= j -> geti (fst s) j = if j <? o then limit (geti buf j) 16 235 else geti buf j).
  assert (S0 : St 0 (buf, 0)).
  { split; [reflexivity|]. split; [reflexivity|]. intros j Hj. replace (j <? 0) with false by lia. reflexivity. }
  unfold ilClampNTSC. rewrite HT, Z.eqb_refl. cbn [negb]. replace ((0 <? Depth im) && (0 <? Height im) && (0 <? Width im) && (0 <? Bpp im)) with true by lia.
  rewrite HD.
  assert (B1 : 0 <= Width im * Bpp im) by (apply Z.mul_nonneg_nonneg; lia).
  assert (B2 : 0 <= Height im * (Width im * Bpp im)) by (apply Z.mul_nonneg_nonneg; lia).
  assert (LE : Depth im * (Height im * (Width im * Bpp im)) = zlen buf) by (rewrite H3; ring).
  match goal with |- context [loop 0 (Depth im) ?b (buf, 0)] => destruct (adv buf b (Height im * (Width im * Bpp im)) (Depth im) 0 (buf, 0)) as (s' & E & S1 & S2 & S3) end; try lia; auto.
  - intros i o s Ho Hl HS. apply adv; auto; try lia. intros i1 o1 s1 Ho1 Hl1 HS1. apply adv; auto; try lia.
    intros i2 o2 s2 Ho2 Hl2 HS2. apply clamp_pixel; auto; lia.
  - rewrite E. cbn [bind]. eexists. split; [reflexivity|]. split; [exact S2|]. intros j Hj. rewrite S3 by lia. replace (j <? 0 + Depth im * (Height im * (Width im * Bpp im))) with true by lia. reflexivity.
Qed.

(** C40: every channel byte is moved into 16..235 and bytes already inside are unchanged. *)
Theorem C40_clamp : forall im buf, img_ok im buf -> Type_ im = IL_UNSIGNED_BYTE -> Bpc im = 1 ->
  exists buf', ilClampNTSC im = Ok (true, with_Data im (Some buf')) /\ zlen buf' = zlen buf /\
    forall j, 0 <= j < zlen buf -> 16 <= geti buf' j <= 235 /\ (16 <= geti buf j <= 235 -> geti buf' j = geti buf j) /\
      (geti buf j < 16 -> geti buf' j = 16) /\ (235 < geti buf j -> geti buf' j = 235).
Proof.
  intros im buf Hok HT HB. destruct (clamp_eq im buf Hok HT HB) as (b' & E & L & A). exists b'. split; [exact E|]. split; [exact L|].
  intros j Hj. rewrite A by auto. unfold limit. destruct (geti buf j <? 16) eqn:E1; destruct (235 <? geti buf j) eqn:E2; lia.
Qed.
Print Assumptions C40_clamp.
Example C40_ex : ilClampNTSC (tiny 2 3 IL_RGB [1; 16; 17; 234; 235; 255]) = Ok (true, tiny 2 3 IL_RGB [16; 16; 17; 234; 235; 235]).
Proof. reflexivity. Qed.

(** clamping twice is clamping once *)
Theorem C40_idempotent : forall im buf, img_ok im buf -> Type_ im = IL_UNSIGNED_BYTE -> Bpc im = 1 ->
  exists im', ilClampNTSC im = Ok (true, im') /\ ilClampNTSC im' = Ok (true, im').
Proof.
  intros im buf Hok HT HB. destruct (clamp_eq im buf Hok HT HB) as (b' & E & L & A). eexists. split; [exact E|].
  assert (Hok' : img_ok (with_Data im (Some b')) b').
  { destruct Hok as (HD & HW & HH & HDp & Hbpp & Hbpc & Hbps & Hpl & Hsz & H32 & Hlen). unfold img_ok.
    cbn [with_Data Data Width Height Depth Bpp Bpc Bps SizeOfPlane SizeOfData]. repeat split; auto; lia. }
  destruct (clamp_eq _ b' Hok' HT HB) as (b2 & E2 & L2 & A2). rewrite E2. unfold with_Data. cbn. repeat f_equal.
  apply list_ext; [lia|]. intros j Hj. rewrite A2 by lia. rewrite A by lia. unfold limit.
  destruct (geti buf j <? 16) eqn:Q1; [reflexivity|]. destruct (235 <? geti buf j) eqn:Q2; [reflexivity|]. rewrite Q1, Q2. reflexivity.
Qed.
Print Assumptions C40_idempotent.

(** other types are refused and left alone *)
Theorem C40_other_types : forall im, Type_ im <> IL_UNSIGNED_BYTE -> ilClampNTSC im = Ok (false, im).
Proof. intros im H. unfold ilClampNTSC. replace (Type_ im =? IL_UNSIGNED_BYTE) with false by lia. reflexivity. Qed.
Print Assumptions C40_other_types.
