(** Property theorems C39 (adding and removing alpha). *)
From Coq Require Import ZArith List Lia Bool.
From Verif Require Import Base Enums Utility Image ImageSpec Slices Elem Channels ChannelsSpec PixelsProofs ChannelsProofs ChannelsProps.
Import ListNotations.
Open Scope Z_scope.

Lemma full_alpha_opaque : forall t a, full_alpha t a -> opaque t = Some a.
Proof. intros t a H. destruct H; reflexivity. Qed.
Lemma type_size_bpc : forall t n, type_size t n -> ilGetBpcType t = n /\ exists a, opaque t = Some a /\ full_alpha t a /\ zlen a = n.
Proof.
  intros t n H. destruct H; (split; [reflexivity|]); eexists; (split; [reflexivity|]); split; try constructor; reflexivity.
Qed.

Lemma add_loop : forall src n a N d, 0 < n -> zlen a = n -> 0 <= N -> N * (3 * n) <= zlen src -> N * (4 * n) <= zlen d ->
  N * 4 < 4294967296 ->
  exists d', stride2 (N * 3) 3 4 (fun i j d => let! d := copy3 src n i j d in wre d n (u32 (j + 3)) a) d = Ok d' /\
    zlen d' = zlen d /\
    (forall p, 0 <= p < N -> (forall c, 0 <= c < 3 -> chan (pixel d' (4 * n) p) n c = chan (pixel src (3 * n) p) n c) /\ chan (pixel d' (4 * n) p) n 3 = a) /\
    (forall j, N * (4 * n) <= j -> geti d' j = geti d j).
Proof.
  intros src n a N d Hn Ha HN Hs Hd Hw. rewrite stride2_loop by lia.
  apply (pixmap_out (fun p px => (forall c, 0 <= c < 3 -> chan px n c = chan (pixel src (3 * n) p) n c) /\ chan px n 3 = a) (4 * n)); auto; try lia.
  intros p b Hp Hl.
  assert ((p + 1) * (3 * n) <= N * (3 * n)) by (apply Z.mul_le_mono_nonneg_r; lia).
  assert ((p + 1) * (4 * n) <= N * (4 * n)) by (apply Z.mul_le_mono_nonneg_r; lia).
  destruct (copy3_step src n 3 4 p b) as (b1 & E1 & L1 & C1 & _ & F1); try lia. rewrite E1. cbn [bind].
  rewrite u32_small by lia.
  destruct (chan_write b1 n 4 p 3 a) as (b2 & E2 & L2 & C2 & O2 & F2); try lia. exists b2. split; [exact E2|]. split; [lia|]. split.
  - split; [intros c Hc; rewrite O2 by lia; apply C1; lia|exact C2].
  - intros j Hj Ho. rewrite F2, F1 by lia. reflexivity.
Qed.

Lemma remove_loop : forall src n N d, 0 < n -> 0 <= N -> N * (4 * n) <= zlen src -> N * (3 * n) <= zlen d ->
  N * 4 < 4294967296 ->
  exists d', stride2 (N * 4) 4 3 (fun i j d => copy3 src n i j d) d = Ok d' /\
    zlen d' = zlen d /\
    (forall p, 0 <= p < N -> (forall c, 0 <= c < 3 -> chan (pixel d' (3 * n) p) n c = chan (pixel src (4 * n) p) n c)) /\
    (forall j, N * (3 * n) <= j -> geti d' j = geti d j).
Proof.
  intros src n N d Hn HN Hs Hd Hw. rewrite stride2_loop by lia.
  apply (pixmap_out (fun p px => (forall c, 0 <= c < 3 -> chan px n c = chan (pixel src (4 * n) p) n c)) (3 * n)); auto; try lia.
  intros p b Hp Hl.
  assert ((p + 1) * (3 * n) <= N * (3 * n)) by (apply Z.mul_le_mono_nonneg_r; lia).
  assert ((p + 1) * (4 * n) <= N * (4 * n)) by (apply Z.mul_le_mono_nonneg_r; lia).
  destruct (copy3_step src n 4 3 p b) as (b1 & E1 & L1 & C1 & _ & F1); try lia. exists b1. split; [exact E1|]. split; [lia|]. split; auto.
Qed.

Lemma new_layout_ok : forall im buf bpp fmt d, img_ok im buf -> 1 <= bpp < 256 -> Depth im = 1 ->
  zlen d = Width im * Height im * (bpp * Bpc im) -> zlen d < 4294967296 ->
  img_ok (new_layout im bpp fmt d) d.
Proof.
  intros im buf bpp fmt d (HD & HW & HH & HDp & Hbpp & Hbpc & Hbps & Hpl & Hsz & H32 & Hlen) Hb D1 L L32.
  assert (HP : 0 < bpp * Bpc im) by (apply Z.mul_pos_pos; lia).
  assert (A0 : 0 < Width im * (bpp * Bpc im)) by (apply Z.mul_pos_pos; lia).
  assert (A1 : Width im * (bpp * Bpc im) * 1 <= Width im * (bpp * Bpc im) * Height im) by (apply Z.mul_le_mono_nonneg_l; lia).
  assert (A2 : zlen d = Width im * (bpp * Bpc im) * Height im) by (rewrite L; ring).
  assert (E1 : u32 (Width im * Bpc im * bpp) = Width im * (bpp * Bpc im)).
  { replace (Width im * Bpc im * bpp) with (Width im * (bpp * Bpc im)) by ring. apply u32_small. lia. }
  unfold img_ok, new_layout. cbn [Data Width Height Depth Bpp Bpc Bps SizeOfPlane SizeOfData].
  rewrite E1, D1. assert (E2 : u32 (Width im * (bpp * Bpc im) * Height im) = Width im * (bpp * Bpc im) * Height im) by (apply u32_small; lia).
  rewrite E2. rewrite Z.mul_1_r, E2. change (2 ^ 32) with 4294967296. repeat split; auto; lia.
Qed.

(** C39a: ilAddAlpha on a flat (depth 1) three-channel image of any channel type appends an
    opaque alpha channel to every pixel, keeps the colours and gives a well-formed image.
    Missing: images with several slices (C39_add_depth_refuted). *)
Theorem C39_add_partial : forall alloc im buf f' a blk,
  img_ok im buf -> Depth im = 1 -> plus_alpha (Format im) f' -> channels (Format im) (Bpp im) ->
  type_size (Type_ im) (Bpc im) -> full_alpha (Type_ im) a ->
  Width im * Height im * (4 * Bpc im) < 4294967296 ->
  alloc (Width im * Height im * (4 * Bpc im)) = Some blk -> zlen blk = Width im * Height im * (4 * Bpc im) ->
  exists im' buf', ilAddAlpha alloc im = Ok (true, im', []) /\ img_ok im' buf' /\
    Format im' = f' /\ Bpp im' = 4 /\ Width im' = Width im /\ Height im' = Height im /\ Depth im' = 1 /\
    Type_ im' = Type_ im /\ Bpc im' = Bpc im /\ Origin im' = Origin im /\ Pal im' = Pal im /\
    forall x y, in_pixels im x y 0 ->
      (forall c, 0 <= c < 3 -> chan_at im' buf' x y 0 c = chan_at im buf x y 0 c) /\
      chan_at im' buf' x y 0 3 = a.
Proof.
  intros alloc im buf f' a blk Hok D1 PA CH TS FA H32 HA HL.
  destruct (ok_pixels im buf Hok) as (H1 & H2 & H3 & H4 & H5 & H6 & H7 & H8 & H9).
  assert (B3 : Bpp im = 3) by (inversion PA as [F|F]; rewrite <- F in CH; inversion CH; lia).
  rewrite D1, Z.mul_1_r, B3 in H3.
  destruct (type_size_bpc _ _ TS) as (_ & a' & Ea & Fa & La).
  assert (a' = a) by (apply full_alpha_opaque in FA; congruence). subst a'.
  assert (HN4 : Width im * Height im * 4 < 4294967296).
  { assert (Width im * Height im * (4 * 1) <= Width im * Height im * (4 * Bpc im)) by (apply Z.mul_le_mono_nonneg_l; lia). lia. }
  destruct (add_loop buf (Bpc im) a (Width im * Height im) blk) as (d' & E & L & A & _); try lia.
  exists (new_layout im 4 f' d'), d'. split.
  - unfold ilAddAlpha. rewrite B3. change (negb (3 =? 3)) with false. replace (Bpc im =? 0) with false by lia. cbn match.
    replace (u32 (4 * Bpc im * Width im * Height im)) with (Width im * Height im * (4 * Bpc im)).
    2:{ replace (4 * Bpc im * Width im * Height im) with (Width im * Height im * (4 * Bpc im)) by ring. rewrite u32_small; auto. split; [|lia]. apply Z.mul_nonneg_nonneg; lia. }
    rewrite HA, Ea. destruct Hok as (HD & _). rewrite HD.
    replace (u32 (Bps im * Height im) / Bpc im) with (Width im * Height im * 3).
    2:{ rewrite H8, B3. rewrite u32_small by lia. rewrite Z.mul_assoc. symmetry. apply Z.div_mul. lia. }
    rewrite La, E. cbn [bind]. replace (if Format im =? IL_RGB then IL_RGBA else if Format im =? IL_BGR then IL_BGRA else Format im) with f'; [reflexivity|].
    inversion PA as [F|F]; reflexivity.
  - assert (Hok' : img_ok (new_layout im 4 f' d') d') by (apply (new_layout_ok im buf); auto; lia).
    split; [exact Hok'|]. unfold new_layout at 1 2 3 4 5 6 7 8 9. cbn [Format Bpp Width Height Depth Type_ Bpc Origin Pal].
    repeat (split; [first [reflexivity|assumption]|]). intros x y Hin.
    assert (Hin' : in_pixels (new_layout im 4 f' d') x y 0) by exact Hin.
    destruct (pixel_index im buf x y 0 Hok Hin) as (Q1 & Q2 & _). specialize (Q2 eq_refl).
    destruct (A _ (conj (proj1 Q1) Q2)) as (A1 & A2). split.
    + intros c Hc. rewrite (chan_at_pixel _ d') by (auto; cbn; lia). rewrite (chan_at_pixel im buf) by (auto; lia).
      cbn [new_layout Bpp Bpc Height Width]. rewrite B3. apply A1; lia.
    + rewrite (chan_at_pixel _ d') by (auto; cbn; lia). exact A2.
Qed.
Print Assumptions C39_add_partial.

Example C39_add_ex : ilAddAlpha (fun n => Some (repeat 0 (Z.to_nat n))) (tiny 1 3 IL_RGB [1; 2; 3]) =
  Ok (true, tiny 1 4 IL_RGBA [1; 2; 3; 255], []).
Proof. reflexivity. Qed.

(** C39b: adding and then removing the alpha channel restores the image exactly, for flat images
    with one byte per channel. Missing: wider channels (C39_remove_refuted), several slices. *)
Theorem C39_roundtrip_partial : forall alloc alloc' im buf f' blk blk',
  img_ok im buf -> Depth im = 1 -> plus_alpha (Format im) f' -> channels (Format im) (Bpp im) ->
  type_size (Type_ im) (Bpc im) -> Bpc im = 1 -> Width im * Height im * 4 < 4294967296 ->
  alloc (Width im * Height im * 4) = Some blk -> zlen blk = Width im * Height im * 4 ->
  alloc' (Width im * Height im * 3) = Some blk' -> zlen blk' = Width im * Height im * 3 ->
  exists im', ilAddAlpha alloc im = Ok (true, im', []) /\ ilRemoveAlpha alloc' im' = Ok (true, im, []).
Proof.
  intros alloc alloc' im buf f' blk blk' Hok D1 PA CH TS B1 H32 HA HL HA' HL'.
  destruct (ok_pixels im buf Hok) as (H1 & H2 & H3 & H4 & H5 & H6 & H7 & H8 & H9).
  assert (B3 : Bpp im = 3) by (inversion PA as [F|F]; rewrite <- F in CH; inversion CH; lia).
  rewrite D1, Z.mul_1_r, B3 in H3.
  destruct (type_size_bpc _ _ TS) as (_ & a & Ea & Fa & La). rewrite B1 in *.
  destruct (add_loop buf 1 a (Width im * Height im) blk) as (d' & E & L & A & _); try lia.
  destruct (remove_loop d' 1 (Width im * Height im) blk') as (r & E' & L' & A' & _); try lia.
  exists (new_layout im 4 f' d'). 
  assert (W3 : 0 < Width im * Height im * 3) by lia.
  assert (Hw4 : 0 < Width im * 4 <= Width im * Height im * 4).
  { destruct Hok as (_ & HW & HH & _). assert (Width im * 4 * 1 <= Width im * 4 * Height im) by (apply Z.mul_le_mono_nonneg_l; lia). lia. }
  split.
  - unfold ilAddAlpha. rewrite B3, B1. change (negb (3 =? 3)) with false. change (1 =? 0) with false. cbn match.
    replace (u32 (4 * 1 * Width im * Height im)) with (Width im * Height im * 4) by (rewrite u32_small; lia).
    rewrite HA, Ea. destruct Hok as (HD & _). rewrite HD.
    replace (u32 (Bps im * Height im) / 1) with (Width im * Height im * 3).
    2:{ rewrite H8, B3, Z.div_1_r. rewrite u32_small by lia. lia. }
    rewrite La, E. cbn [bind]. replace (if Format im =? IL_RGB then IL_RGBA else if Format im =? IL_BGR then IL_BGRA else Format im) with f'; [reflexivity|].
    inversion PA as [F|F]; reflexivity.
  - unfold ilRemoveAlpha. cbn [new_layout Bpp Bpc Bps Width Height Type_ Data Format Depth Origin Pal Duration CubeFlags OffX OffY].
    rewrite B1. change (negb (4 =? 4)) with false. cbn match.
    replace (u32 (3 * 1 * Width im * Height im)) with (Width im * Height im * 3) by (rewrite u32_small; lia).
    rewrite HA', Ea.
    replace (u32 (u32 (Width im * 1 * 4) * Height im)) with (Width im * Height im * 4).
    2:{ rewrite (u32_small (Width im * 1 * 4)) by lia. rewrite u32_small; lia. }
    rewrite La, E'. cbn [bind].
    assert (r = buf).
    { apply (pixels_ext r buf 3 (Width im * Height im)); try lia. intros p Hp.
      change 3 with (3 * 1) at 1 2. apply (chans_ext _ _ 1 3); try lia.
      - apply (zlen_pixel _ _ _ (Width im * Height im)); lia.
      - apply (zlen_pixel _ _ _ (Width im * Height im)); lia.
      - intros c Hc. rewrite A' by auto. destruct (A p Hp) as [A1 _]. apply A1; auto. }
    subst r. f_equal. f_equal. f_equal.
    assert (FE : (if f' =? IL_RGBA then IL_RGB else if f' =? IL_BGRA then IL_BGR else f') = Format im) by (inversion PA; reflexivity).
    rewrite FE. destruct Hok as (HD & HW & HH & HDp & Hbpp & Hbpc & Hbps & Hpl & Hsz & H32' & Hlen).
    unfold new_layout. cbn [Width Height Depth Bpp Bpc Bps Type_ Origin Pal Duration CubeFlags OffX OffY].
    rewrite D1, B1. assert (Q1 : u32 (Width im * 1 * 3) = Bps im) by (rewrite Hbps, B3, B1; rewrite u32_small; lia).
    rewrite Q1. assert (Q2 : u32 (Bps im * Height im) = SizeOfPlane im) by (rewrite Hpl; rewrite u32_small; [reflexivity|rewrite H8, B3; lia]).
    rewrite Q2, Z.mul_1_r. assert (Q3 : u32 (SizeOfPlane im) = SizeOfData im) by (rewrite Hsz, D1, Z.mul_1_r; rewrite u32_small; [reflexivity|rewrite H9, B3; lia]).
    rewrite Q3. clear - HD D1 B3 B1. destruct im; cbn in *.
    subst. reflexivity.
Qed.
Print Assumptions C39_roundtrip_partial.

(** Finding: removing the alpha channel of ANY image with more than one byte per channel
    accesses memory outside its buffers. *)
Theorem C39_remove_refuted : forall alloc im buf blk, img_ok im buf -> Bpp im = 4 ->
  type_size (Type_ im) (Bpc im) -> 1 < Bpc im ->
  alloc (Width im * Height im * (3 * Bpc im)) = Some blk -> zlen blk = Width im * Height im * (3 * Bpc im) ->
  ilRemoveAlpha alloc im = UB.
Proof.
  intros alloc im buf blk Hok B4 TS B1 HA HL.
  destruct (ok_pixels im buf Hok) as (H1 & H2 & H3 & H4 & H5 & H6 & H7 & H8 & H9). rewrite B4 in *.
  destruct (type_size_bpc _ _ TS) as (_ & a & Ea & Fa & La).
  set (N := Width im * Height im) in *. set (n := Bpc im) in *.
  assert (M : N * (4 * n) <= N * Depth im * (4 * n)) by (apply Z.mul_le_mono_nonneg_r; lia).
  unfold ilRemoveAlpha. rewrite B4. change (negb (4 =? 4)) with false. cbn match. fold n.
  replace (u32 (3 * n * Width im * Height im)) with (N * (3 * n)).
  2:{ replace (3 * n * Width im * Height im) with (N * (3 * n)) by (unfold N; ring). rewrite u32_small; auto.
      assert (N * (3 * n) <= N * (4 * n)) by (apply Z.mul_le_mono_nonneg_l; lia). assert (0 <= N * (3 * n)) by (apply Z.mul_nonneg_nonneg; lia). lia. }
  rewrite HA, Ea. destruct Hok as (HD & _). rewrite HD, La. rewrite H8. fold n.
  assert (0 <= N * (4 * n)) by (apply Z.mul_nonneg_nonneg; lia).
  replace (u32 (N * (4 * n))) with (N * n * 4) by (rewrite u32_small by lia; ring).
  assert (N1 : N + 1 <= N * n). { assert (N * 2 <= N * n) by (apply Z.mul_le_mono_nonneg_l; lia). lia. }
  rewrite stride2_loop by lia.
  assert (ML : N * (4 * n) <= zlen buf) by lia.
  assert (M4 : N * 4 < 4294967296). { assert (N * 4 * 1 <= N * 4 * n) by (apply Z.mul_le_mono_nonneg_l; lia). lia. }
  destruct (remove_loop buf n N blk) as (d' & E & L & _); try lia.
  rewrite stride2_loop in E by lia.
  rewrite (loop_split _ 0 N) by lia. rewrite E. cbn [bind]. rewrite loop_first by lia.
  assert (X : copy3 buf n (N * 4) (N * 3) d' = UB); [|rewrite X; reflexivity].
  unfold copy3. unfold rde at 1. destruct (inb (zlen buf) (N * 4 * n) n); [|reflexivity]. cbn [bind].
  unfold wre. replace (inb (zlen d') (N * 3 * n) n) with false by (symmetry; apply inb_false; lia). reflexivity.
Qed.
Print Assumptions C39_remove_refuted.
Example C39_remove_refuted_ex : exists im buf, img_ok im buf /\ Bpp im = 4 /\ type_size (Type_ im) (Bpc im) /\ 1 < Bpc im /\
  ilRemoveAlpha (fun n => Some (repeat 0 (Z.to_nat n))) im = UB.
Proof.
  exists (mkImg 1 1 1 4 2 8 (Some [1;2;3;4;5;6;7;8]) 8 8 IL_RGBA IL_UNSIGNED_SHORT IL_ORIGIN_LOWER_LEFT (mkPal None 0 IL_PAL_NONE) 0 0 0 0), [1;2;3;4;5;6;7;8].
  split; [unfold img_ok; cbn; repeat split; lia|]. split; [reflexivity|]. split; [constructor|]. split; [cbn; lia|]. reflexivity.
Qed.

(** Finding: after ilAddAlpha on ANY image with several slices the recorded size exceeds the
    allocated block: every later access to a later slice is outside it. *)
Theorem C39_add_depth_refuted : forall alloc im buf f' a blk,
  img_ok im buf -> 1 < Depth im -> plus_alpha (Format im) f' -> channels (Format im) (Bpp im) ->
  type_size (Type_ im) (Bpc im) -> full_alpha (Type_ im) a ->
  Width im * Height im * Depth im * (4 * Bpc im) < 4294967296 ->
  alloc (Width im * Height im * (4 * Bpc im)) = Some blk -> zlen blk = Width im * Height im * (4 * Bpc im) ->
  exists im' buf', ilAddAlpha alloc im = Ok (true, im', []) /\ Data im' = Some buf' /\ zlen buf' < SizeOfData im'.
Proof.
  intros alloc im buf f' a blk Hok D1 PA CH TS FA H32 HA HL.
  destruct (ok_pixels im buf Hok) as (H1 & H2 & H3 & H4 & H5 & H6 & H7 & H8 & H9).
  assert (B3 : Bpp im = 3) by (inversion PA as [F|F]; rewrite <- F in CH; inversion CH; lia). rewrite B3 in *.
  destruct (type_size_bpc _ _ TS) as (_ & a' & Ea & Fa & La).
  assert (a' = a) by (apply full_alpha_opaque in FA; congruence). subst a'.
  set (N := Width im * Height im) in *. set (n := Bpc im) in *.
  assert (M : N * (4 * n) * 2 <= N * (4 * n) * Depth im) by (apply Z.mul_le_mono_nonneg_l; [apply Z.mul_nonneg_nonneg; lia|lia]).
  assert (M0 : 0 < N * (4 * n)) by (apply Z.mul_pos_pos; lia).
  assert (M1 : N * Depth im * (4 * n) = N * (4 * n) * Depth im) by ring.
  assert (HN4 : N * 4 < 4294967296). { assert (N * 4 * 1 <= N * 4 * n) by (apply Z.mul_le_mono_nonneg_l; lia). lia. }
  assert (HN3 : N * (3 * n) <= N * Depth im * (3 * n)) by (apply Z.mul_le_mono_nonneg_r; lia).
  destruct (add_loop buf n a N blk) as (d' & E & L & A & _); try lia.
  exists (new_layout im 4 f' d'), d'. split; [|split; [reflexivity|]].
  - unfold ilAddAlpha. rewrite B3. change (negb (3 =? 3)) with false. fold n. replace (n =? 0) with false by lia. cbn match.
    replace (u32 (4 * n * Width im * Height im)) with (N * (4 * n)).
    2:{ replace (4 * n * Width im * Height im) with (N * (4 * n)) by (unfold N; ring). rewrite u32_small; auto. lia. }
    rewrite HA, Ea. destruct Hok as (HD & _). rewrite HD.
    replace (u32 (Bps im * Height im) / n) with (N * 3).
    2:{ rewrite H8. rewrite u32_small by lia. rewrite Z.mul_assoc. symmetry. apply Z.div_mul. lia. }
    rewrite La, E. cbn [bind]. replace (if Format im =? IL_RGB then IL_RGBA else if Format im =? IL_BGR then IL_BGRA else Format im) with f'; [reflexivity|].
    inversion PA as [F|F]; reflexivity.
  - cbn [new_layout SizeOfData]. rewrite L, HL. fold n.
    destruct Hok as (_ & HW & HH & _).
    assert (W4 : Width im * (4 * n) * 1 <= Width im * (4 * n) * Height im) by (apply Z.mul_le_mono_nonneg_l; [apply Z.mul_nonneg_nonneg; lia|lia]).
    assert (0 < Width im * (4 * n)) by (apply Z.mul_pos_pos; lia).
    assert (W5 : Width im * (4 * n) * Height im = N * (4 * n)) by (unfold N; ring).
    replace (Width im * n * 4) with (Width im * (4 * n)) by ring.
    rewrite (u32_small (Width im * (4 * n))) by lia. rewrite W5. rewrite (u32_small (N * (4 * n))) by lia. rewrite u32_small by lia. lia.
Qed.
Print Assumptions C39_add_depth_refuted.
