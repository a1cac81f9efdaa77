(** C84: luminance and alpha of palette images; C85: all images of a chain are converted. *)
From Coq Require Import ZArith QArith List Lia Bool.
From Verif Require Import Base Slices Scatter Enums Utility Image ImageSpec ImageProps Elem Lump LumpProps Endian EndianProps Channels ChannelsSpec ChannelsProofs ChannelsProps ChannelsProps2 ChannelsProps3
  ConvBuff ConvSpec ConvProofs ConvProps ConvInt ConvLum Pal PalSpec PalProps IluScale IluRotate ConvImg ConvImgProps.
Import ListNotations.
Open Scope Z_scope.

Definition blue_order (ct : Z) : bool := case ct [IL_PAL_BGR24; IL_PAL_BGR32; IL_PAL_BGRA32].
(** the luminance the table holds for entry [e] of a palette with three bytes per colour *)
Definition entry_lum (ct : Z) (p : list Z) (e : Z) : Z := lum_val (blue_order ct) (geti p (e * 3)) (geti p (e * 3 + 1)) (geti p (e * 3 + 2)).

Lemma pal_lum_ok : forall p ct e n, bytes p -> zlen p = n * 3 -> 0 <= e < n -> pal_lum p (blue_order ct) 3 (e * 3) = Ok (entry_lum ct p e) /\ 0 <= entry_lum ct p e < 256.
Proof.
  intros p ct e n HB HL He. assert (R0 : 0 <= geti p (e * 3) < 256) by (apply HB; lia). assert (R1 : 0 <= geti p (e * 3 + 1) < 256) by (apply HB; lia). assert (R2 : 0 <= geti p (e * 3 + 2) < 256) by (apply HB; lia).
  assert (RG := lum_val_range (blue_order ct) (geti p (e * 3)) (geti p (e * 3 + 1)) (geti p (e * 3 + 2)) 1 ltac:(auto) R0 R1 R2). change (256 ^ 1) with 256 in RG.
  unfold pal_lum, entry_lum. change (3 =? 3) with true. cbv iota. rewrite !rd_ok by lia. cbn [bind]. rewrite lum_int_val. set (l := lum_val _ _ _ _) in *. clearbody l.
  change (2 ^ (8 * Z.of_nat 1)) with 256. replace (l <? 256) with true by lia. cbn [bind]. split; [|exact RG]. rewrite unle_le by exact RG. reflexivity.
Qed.

Lemma table_ok : forall p ct n m temp, bytes p -> zlen p = n * 3 -> 0 <= n -> n * 3 < 2 ^ 24 -> m = 1 \/ m = 2 -> zlen temp = n * m -> ct <> IL_PAL_RGBA32 ->
  exists t, lum_table p ct (n * 3) 3 m temp = Ok t /\ zlen t = n * m /\
    forall e, 0 <= e < n -> geti t (e * m) = entry_lum ct p e /\ (m = 2 -> geti t (e * m + 1) = 255).
Proof.
  intros p ct n m temp HB HL Hn Hw Hm HT Hct. unfold lum_table. rewrite stride2_loop by nia. fold (blue_order ct).
  destruct (loop_rule _ (fun k t => zlen t = n * m /\ forall e, 0 <= e < k -> geti t (e * m) = entry_lum ct p e /\ (m = 2 -> geti t (e * m + 1) = 255))
    0 n (fun k temp => let! r := pal_lum p (blue_order ct) 3 (k * 3) in let! temp := wr temp (k * m) r in if m =? 2 then let! a := (if ct =? IL_PAL_RGBA32 then rd p (k * 3 + 3) else Ok 0xff) in wr temp (k * m + 1) a else Ok temp) temp Hn) as (t & E & L & G).
  - split; [exact HT|]. intros; lia.
  - intros k t Hk (L & G). destruct (pal_lum_ok p ct k n HB HL Hk) as (-> & RG). cbn [bind]. assert ((k + 1) * m <= n * m) by (apply Z.mul_le_mono_nonneg_r; lia). assert (0 <= k * m) by (apply Z.mul_nonneg_nonneg; lia).
    rewrite wr_ok by lia. cbn [bind]. destruct (m =? 2) eqn:M2.
    + replace (ct =? IL_PAL_RGBA32) with false by lia. cbn [bind]. rewrite wr_ok by (rewrite zlen_upd by lia; lia). eexists. split; [reflexivity|]. rewrite !zlen_upd by (rewrite ?zlen_upd by lia; lia). split; [exact L|].
      intros e He. rewrite !geti_upd by (rewrite ?zlen_upd by lia; lia). assert (m = 2) by lia. destruct (Z.eq_dec e k) as [->|N].
      * rewrite !Z.eqb_refl. replace (k * m =? k * m + 1) with false by lia. auto.
      * replace (e * m =? k * m + 1) with false by lia. replace (e * m =? k * m) with false by lia. replace (e * m + 1 =? k * m + 1) with false by lia. replace (e * m + 1 =? k * m) with false by lia. apply G. lia.
    + eexists. split; [reflexivity|]. rewrite zlen_upd by lia. split; [exact L|]. assert (m = 1) by lia. intros e He. split; [|lia]. rewrite geti_upd by lia. destruct (Z.eq_dec e k) as [->|N]; [rewrite Z.eqb_refl; reflexivity|].
      replace (e * m =? k * m) with false by lia. apply G. lia.
  - rewrite E. eauto.
Qed.

(** the table applied to the pixels *)
Definition put_lum (buf : list Z) (t : option (list Z)) (n i : Z) (d : list Z) : res (list Z) :=
  let! x := rdo (Some buf) i in let! v := rdo t (x * n) in let! d := wr d (u32 (i * n)) v in
  if n =? 2 then let! v := rdo t (x * 2 + 1) in wr d (u32 (i * 2 + 1)) v else Ok d.
Lemma put_lum_loop : forall buf t m c N blk, m = 1 \/ m = 2 -> 0 <= N -> zlen buf = N -> zlen blk = N * m -> N * m < 4294967296 -> zlen t = c * m -> (forall i, 0 <= i < N -> 0 <= geti buf i < c) ->
  exists d, loop 0 N (put_lum buf (Some t) m) blk = Ok d /\ zlen d = N * m /\ forall i o, 0 <= i < N -> 0 <= o < m -> geti d (i * m + o) = geti t (geti buf i * m + o).
Proof.
  intros buf t m c N blk Hm HN LB LK Hw LT HI.
  destruct (loop_rule _ (fun k d => zlen d = N * m /\ forall i o, 0 <= i < k -> 0 <= o < m -> geti d (i * m + o) = geti t (geti buf i * m + o)) 0 N (put_lum buf (Some t) m) blk HN) as (d & E & L & G).
  - split; [exact LK|]. intros; lia.
  - intros k d Hk (L & G). specialize (HI k Hk). assert ((geti buf k + 1) * m <= c * m) by (apply Z.mul_le_mono_nonneg_r; lia). assert (0 <= geti buf k * m) by (apply Z.mul_nonneg_nonneg; lia).
    assert ((k + 1) * m <= N * m) by (apply Z.mul_le_mono_nonneg_r; lia). assert (0 <= k * m) by (apply Z.mul_nonneg_nonneg; lia).
    unfold put_lum, rdo. rewrite rd_ok by lia. cbn [bind]. rewrite rd_ok by lia. cbn [bind]. rewrite (u32_small (k * m)) by lia. rewrite wr_ok by lia. cbn [bind]. destruct Hm as [-> | ->].
    + cbn [Z.eqb Pos.eqb]. eexists. split; [reflexivity|]. rewrite zlen_upd by lia. split; [exact L|]. intros i o Hi Ho. rewrite geti_upd by lia. destruct (Z.eq_dec i k) as [->|].
      * replace (k * 1 + o =? k * 1) with true by lia. replace o with 0 by lia. rewrite Z.add_0_r. reflexivity.
      * replace (i * 1 + o =? k * 1) with false by lia. apply G; lia.
    + cbn [Z.eqb Pos.eqb]. rewrite rd_ok by lia. cbn [bind]. rewrite u32_small by lia. rewrite wr_ok by (rewrite zlen_upd by lia; lia). eexists. split; [reflexivity|]. rewrite !zlen_upd by (rewrite ?zlen_upd by lia; lia). split; [exact L|].
      intros i o Hi Ho. rewrite !geti_upd by (rewrite ?zlen_upd by lia; lia). destruct (Z.eq_dec i k) as [->|].
      * assert (o = 0 \/ o = 1) as [-> | ->] by lia; [replace (k * 2 + 0 =? k * 2 + 1) with false by lia; replace (k * 2 + 0 =? k * 2) with true by lia; rewrite Z.add_0_r; reflexivity|rewrite Z.eqb_refl; reflexivity].
      * replace (i * 2 + o =? k * 2 + 1) with false by lia. replace (i * 2 + o =? k * 2) with false by lia. apply G; lia.
  - eauto.
Qed.

(** ** C84 *)
Definition lum_format (Dst : Z) : Prop := Dst = IL_LUMINANCE \/ Dst = IL_LUMINANCE_ALPHA.
(** the luminance of a colour *)
Definition luminance (c : rgba) : Q := (weight R * inject_Z (red c) + weight G * inject_Z (green c) + weight B * inject_Z (blue c))%Q.
Definition lum_copy (im : img) (Dst : Z) (nb : list Z) : img :=
  let n := ilGetBppFormat Dst in
  mkImg (Width im) (Height im) (Depth im) n (Bpc im) (Width im * n) (Some nb) (Width im * n * Height im) (Width im * n * Height im) Dst (Type_ im) (Origin im)
    (mkPal None 0 IL_PAL_NONE) (Duration im) (CubeFlags im) (OffX im) (OffY im).

Lemma three_bytes : forall t, t = IL_PAL_RGB24 \/ t = IL_PAL_BGR24 -> colour_size t = 3 /\ ilGetBppPal t = 3 /\ t <> IL_PAL_RGBA32 /\
  case t [IL_PAL_RGB24; IL_PAL_RGB32; IL_PAL_RGBA32; IL_PAL_BGR24; IL_PAL_BGR32; IL_PAL_BGRA32] = true /\ (t =? IL_PAL_NONE) = false.
Proof. intros t [-> | ->]; repeat split; try discriminate. Qed.

(** up to the loop over the pixels *)
Lemma lum_palette : forall alloc cur im buf n d Dst, allocator_ok alloc -> plenty alloc -> pal_image im buf n d -> bytes d ->
  PalType (Pal im) = IL_PAL_RGB24 \/ PalType (Pal im) = IL_PAL_BGR24 -> PalType (Pal cur) = PalType (Pal im) -> lum_format Dst ->
  exists t, zlen t = n * ilGetBppFormat Dst /\
    (forall e, 0 <= e < n -> geti t (e * ilGetBppFormat Dst) = entry_lum (PalType (Pal im)) d e /\ (ilGetBppFormat Dst = 2 -> geti t (e * ilGetBppFormat Dst + 1) = 255)) /\
    iConvertPalette alloc cur im Dst = flat alloc (with_Data im None) [] Dst (ilGetBppFormat Dst) (zlen buf) (put_lum buf (Some t) (ilGetBppFormat Dst)).
Proof.
  intros alloc cur im buf n d Dst HA HP (Hok & HF & HB & HC & Hpal & Hn & Hb & HI & Hw) HBd H3 HCt HD. assert (HD' : (Dst =? IL_LUMINANCE) || (Dst =? IL_LUMINANCE_ALPHA) = true) by (destruct HD as [-> | ->]; reflexivity).
  destruct (px_count im buf Hok HB HC) as (PC & SD & P0). assert (Hpal' := Hpal). destruct Hpal' as (HT & HPd & HS & HL).
  destruct (three_bytes _ H3) as (CS & BP & NA & CA & TN). rewrite CS in HL. assert (HDt : Data im = Some buf) by apply Hok.
  set (m := ilGetBppFormat Dst). assert (Hm : m = 1 \/ m = 2) by (destruct HD as [-> | ->]; vm_compute; auto). assert (EM : (if Dst =? IL_LUMINANCE_ALPHA then 2 else 1) = m) by (destruct HD as [-> | ->]; reflexivity).
  assert (T : u32 (m * (n * 3)) / 3 = n * m). { rewrite u32_small by nia. replace (m * (n * 3)) with (n * m * 3) by ring. apply Z.div_mul. lia. }
  destruct (alloc (n * m)) as [temp|] eqn:EA; [|exfalso; eapply HP; [|exact EA]; nia]. assert (LT := HA _ _ EA).
  destruct (table_ok d (PalType (Pal im)) n m temp) as (t & ET & LTt & GT); auto; try lia.
  exists t. split; [exact LTt|]. split; [exact GT|].
  unfold iConvertPalette. rewrite (copy_pal alloc zero_img im n d) by auto. cbn [bind]. rewrite HPd, TN, HB, HCt, CA, BP. replace (PalSize (Pal im) =? 0) with false by lia. cbn [orb negb Z.eqb Pos.eqb]. rewrite HD', EM.
  rewrite HS, HL, T, EA. rewrite ET. cbn [bind]. rewrite SD, HDt. reflexivity.
Qed.

Theorem C84_luminance_partial : forall fcast flum pal quant alloc im buf n d Dst, allocator_ok alloc -> plenty alloc -> pal_image im buf n d -> bytes d -> Depth im = 1 -> ilGetBpcType (Type_ im) = 1 ->
  PalType (Pal im) = IL_PAL_RGB24 \/ PalType (Pal im) = IL_PAL_BGR24 -> lum_format Dst ->
  exists im' buf', ilConvertImage fcast flum pal quant alloc [im] Dst (Type_ im) = Ok (true, [im'], [], false) /\ img_ok im' buf' /\ same_frame im im' /\
    Format im' = Dst /\ Type_ im' = Type_ im /\ Palette (Pal im') = None /\
    forall x y z, in_image im x y z 0 ->
      (let l := luminance (colour (PalType (Pal im)) d (geti buf (pix_off im x y z 0))) in l - (102 # 100) <= inject_Z (geti buf' (pix_off im' x y z 0)) <= l + (2 # 100))%Q /\
      (Dst = IL_LUMINANCE_ALPHA -> geti buf' (pix_off im' x y z 1) = 255).
Proof.
  intros fcast flum pal quant alloc im buf n d Dst HA HP HI HBd HD1 HT H3 HD. destruct (lum_palette alloc im im buf n d Dst HA HP HI HBd H3 eq_refl HD) as (t & LT & GT & EP).
  assert (HI' := HI). destruct HI' as (Hok & HF & HB & HC & Hpal & Hn & Hb & HIx & Hw).
  destruct (px_count im buf Hok HB HC) as (PC & SD & P0). assert (Hpal' := Hpal). destruct Hpal' as (HTp & HPd & HS & HL). destruct (three_bytes _ H3) as (CS & BP & NA & CA & TN). rewrite CS in HL.
  assert (Hok' := Hok). destruct Hok' as (HDt & W & H & D & _ & _ & E1 & E2 & E3 & _ & E4).
  set (m := ilGetBppFormat Dst) in *. assert (Hm : m = 1 \/ m = 2) by (destruct HD as [-> | ->]; vm_compute; auto). assert (EM : (if Dst =? IL_LUMINANCE_ALPHA then 2 else 1) = m) by (destruct HD as [-> | ->]; reflexivity).
  rewrite HD1, Z.mul_1_r in PC. assert (SZ : Width im * m * Height im = zlen buf * m) by (rewrite PC; ring).
  assert (T0 : zlen buf * m <= zlen buf * 2) by (apply Z.mul_le_mono_nonneg_l; lia). assert (T1 : 0 < Width im * m) by (apply Z.mul_pos_pos; lia).
  assert (T2 : Width im * m <= Width im * m * Height im) by (rewrite <- (Z.mul_1_r (Width im * m)) at 1; apply Z.mul_le_mono_nonneg_l; lia).
  destruct (alloc (Width im * m * Height im)) as [blk|] eqn:EA; [|exfalso; eapply HP; [|exact EA]; lia]. assert (LK := HA _ _ EA).
  destruct (put_lum_loop buf t m n (zlen buf) blk) as (nb & EN & LN & GN); auto; try lia.
  assert (EP' : iConvertPalette alloc im im Dst = Ok (Some (lum_copy im Dst nb), [], false)).
  { rewrite EP. unfold flat. cbn [Width Height with_Data]. rewrite (u32_small (Width im * m)) by lia. rewrite u32_small by lia. rewrite EA, EN. cbn [bind]. rewrite EM. reflexivity. }
  exists (take im (lum_copy im Dst nb) Dst (Type_ im)), nb. split.
  { unfold ilConvertImage. rewrite HF, Z.eqb_refl. replace (Dst =? IL_COLOUR_INDEX) with false by (destruct HD as [-> | ->]; reflexivity). cbn [andb].
    assert (FC : iFastConvert im Dst = Ok (false, im)). { unfold iFastConvert. destruct HD as [-> | ->]; reflexivity. } rewrite FC. cbn [bind].
    unfold iConvertImage. replace (Dst =? IL_COLOUR_INDEX) with false by (destruct HD as [-> | ->]; reflexivity). cbn [andb]. rewrite HF, Z.eqb_refl, EP'. cbn [bind].
    change (Type_ (lum_copy im Dst nb)) with (Type_ im). rewrite Z.eqb_refl. reflexivity. }
  assert (TK : take im (lum_copy im Dst nb) Dst (Type_ im) = mkImg (Width im) (Height im) 1 m 1 (Width im * m) (Some nb) (Width im * m * Height im) (Width im * m * Height im) Dst (Type_ im) (Origin im)
    (mkPal None 0 IL_PAL_NONE) (Duration im) (CubeFlags im) (OffX im) (OffY im)).
  { unfold take, lum_copy. cbn [Data Pal]. fold m. rewrite HT, HD1, Z.mul_1_r. rewrite (u32_small (Width im * m)) by lia. rewrite (u32_small (Width im * m * Height im)) by lia. rewrite Z.mul_1_l, u32_small by lia. reflexivity. }
  rewrite TK. split; [|split; [|split; [|split; [|split]]]]; try reflexivity.
  - unfold img_ok. cbn [Data Width Height Depth Bpp Bpc Bps SizeOfPlane SizeOfData]. repeat split; auto; try lia.
  - unfold same_frame. cbn. auto 10.
  - intros x y z (Hx & Hy & Hz & _). unfold pix_off. cbn [Height Width Bpp Bpc]. rewrite HB, HC. assert (z = 0) as -> by lia.
    set (i := 0 * (Height im * (Width im * (1 * 1))) + y * (Width im * (1 * 1)) + x * (1 * 1) + 0).
    assert (Hi : 0 <= i < zlen buf). { unfold i. rewrite PC. clear - Hx Hy W H. nia. }
    replace (0 * (Height im * (Width im * (m * 1))) + y * (Width im * (m * 1)) + x * (m * 1) + 0) with (i * m + 0) by (unfold i; ring).
    replace (0 * (Height im * (Width im * (m * 1))) + y * (Width im * (m * 1)) + x * (m * 1) + 1) with (i * m + 1) by (unfold i; ring).
    specialize (HIx i Hi). destruct (GT _ HIx) as (G0 & G1). split.
    + rewrite GN by lia. rewrite Z.add_0_r, G0. unfold entry_lum, luminance. set (e := geti buf i) in *.
      assert (R0 : 0 <= geti d (e * 3) < 256) by (apply HBd; lia). assert (R1 : 0 <= geti d (e * 3 + 1) < 256) by (apply HBd; lia). assert (R2 : 0 <= geti d (e * 3 + 2) < 256) by (apply HBd; lia).
      destruct H3 as [-> | ->]; unfold colour; [change (blue_first IL_PAL_RGB24) with false; change (colour_size IL_PAL_RGB24) with 3|change (blue_first IL_PAL_BGR24) with true; change (colour_size IL_PAL_BGR24) with 3]; cbn [red green blue].
      * apply lum_val_close_f; lia.
      * apply lum_val_close_t; lia.
    + intros ->. assert (m = 2) by reflexivity. rewrite GN by lia. apply G1. lia.
Qed.
Print Assumptions C84_luminance_partial.

(** ** Where it is false *)

(** an image of two dimensions, or deeper, whose palette has four bytes per colour: LumFactor is read beyond its end *)
Lemma to_lum : forall fcast flum pal quant alloc im rest Dst, Format im = IL_COLOUR_INDEX -> lum_format Dst \/ Dst = IL_ALPHA -> iConvertPalette alloc im im Dst = UB ->
  ilConvertImage fcast flum pal quant alloc (im :: rest) Dst (Type_ im) = UB.
Proof.
  intros fcast flum pal quant alloc im rest Dst HF HD E. assert (FC : iFastConvert im Dst = Ok (false, im)). { unfold iFastConvert. destruct HD as [[-> | ->] | ->]; reflexivity. }
  assert (NC : (Dst =? IL_COLOUR_INDEX) = false) by (destruct HD as [[-> | ->] | ->]; reflexivity).
  unfold ilConvertImage. rewrite HF, NC. cbn [andb]. rewrite Z.eqb_refl, FC. cbn [bind]. unfold iConvertImage. rewrite NC. cbn [andb]. rewrite HF, Z.eqb_refl, E. reflexivity.
Qed.
Lemma known_type : forall t, pal_type t -> (t =? IL_PAL_NONE) = false /\ case t [IL_PAL_RGB24; IL_PAL_RGB32; IL_PAL_RGBA32; IL_PAL_BGR24; IL_PAL_BGR32; IL_PAL_BGRA32] = true /\ ilGetBppPal t = colour_size t.
Proof. intros t H. unfold pal_type in H. cbn [In] in H. destruct H as [<-|[<-|[<-|[<-|[<-|[<-|[]]]]]]]; repeat split. Qed.

Theorem C84_four_bytes_refuted : forall fcast flum pal quant alloc im buf n d Dst rest, allocator_ok alloc -> plenty alloc -> pal_image im buf n d -> colour_size (PalType (Pal im)) = 4 -> lum_format Dst ->
  ilConvertImage fcast flum pal quant alloc (im :: rest) Dst (Type_ im) = UB.
Proof.
  intros fcast flum pal quant alloc im buf n d Dst rest HA HP (Hok & HF & HB & HC & Hpal & Hn & Hb & HI & Hw) CS HD. apply to_lum; auto.
  assert (HD' : (Dst =? IL_LUMINANCE) || (Dst =? IL_LUMINANCE_ALPHA) = true) by (destruct HD as [-> | ->]; reflexivity).
  assert (Hpal' := Hpal). destruct Hpal' as (HT & HPd & HS & HL). destruct (known_type _ HT) as (TN & CA & BP). rewrite CS in *.
  unfold iConvertPalette. rewrite (copy_pal alloc zero_img im n d) by auto. cbn [bind]. rewrite HPd, TN, HB, CA, BP, HD'. replace (PalSize (Pal im) =? 0) with false by lia. cbn [orb negb Z.eqb Pos.eqb].
  match goal with |- context [alloc ?s] => destruct (alloc s) as [temp|] eqn:EA end.
  - assert (EL : forall m, 0 <= m <= 2 -> lum_table d (PalType (Pal im)) (PalSize (Pal im)) 4 m temp = UB).
    { intros m Hm. unfold lum_table. rewrite HS, HL. assert (n * m <= n * 2) by (apply Z.mul_le_mono_nonneg_l; lia). rewrite stride2_loop by lia. apply PixelsProps.loop_first_ub; [lia|]. reflexivity. }
    rewrite EL; [reflexivity|]. destruct HD as [-> | ->]; vm_compute; split; congruence.
  - cbn [with_Data Pal]. rewrite HPd. reflexivity.
Qed.
Print Assumptions C84_four_bytes_refuted.

(** deep images: only one plane is allocated *)
Lemma put_lum_good : forall buf t m i L d, zlen d = L -> good (fun d => zlen d = L) (put_lum buf (Some t) m i d).
Proof.
  intros buf t m i L d Hd. unfold put_lum, rdo, rd, wr. destruct (inb (zlen buf) i 1); cbn [bind]; [|exact I]. destruct (inb (zlen t) (_ * m) 1); cbn [bind]; [|exact I].
  destruct (inb (zlen d) (u32 (i * m)) 1) eqn:E; cbn [bind]; [|exact I]. apply inb_true in E. destruct (m =? 2); [|cbn; rewrite zlen_upd by lia; exact Hd].
  destruct (inb (zlen t) _ 1); cbn [bind]; [|exact I]. match goal with |- good _ (if inb ?a ?b ?c then _ else _) => destruct (inb a b c) eqn:E2 end; [|exact I]. apply inb_true in E2. cbn. rewrite !zlen_upd by (rewrite ?zlen_upd in * by lia; lia). exact Hd.
Qed.
Theorem C84_depth_refuted : forall fcast flum pal quant alloc im buf n d Dst rest, allocator_ok alloc -> plenty alloc -> pal_image im buf n d -> bytes d -> 1 < Depth im ->
  PalType (Pal im) = IL_PAL_RGB24 \/ PalType (Pal im) = IL_PAL_BGR24 -> lum_format Dst ->
  ilConvertImage fcast flum pal quant alloc (im :: rest) Dst (Type_ im) = UB.
Proof.
  intros fcast flum pal quant alloc im buf n d Dst rest HA HP HI HBd HD1 H3 HD. assert (HF : Format im = IL_COLOUR_INDEX) by apply HI. apply to_lum; auto.
  destruct (lum_palette alloc im im buf n d Dst HA HP HI HBd H3 eq_refl HD) as (t & LT & GT & ->).
  destruct HI as (Hok & _ & HB & HC & Hpal & Hn & Hb & HIx & Hw). destruct (px_count im buf Hok HB HC) as (PC & SD & P0).
  destruct Hok as (HDt & W & H & D & _ & _ & E1 & E2 & E3 & _ & E4).
  set (m := ilGetBppFormat Dst) in *. assert (Hm : m = 1 \/ m = 2) by (destruct HD as [-> | ->]; vm_compute; auto).
  assert (WH : 0 < Width im * Height im) by (apply Z.mul_pos_pos; lia). assert (WD : Width im * Height im < zlen buf) by (rewrite PC; rewrite <- (Z.mul_1_r (Width im * Height im)) at 1; apply Z.mul_lt_mono_pos_l; lia).
  unfold flat. cbn [Width Height with_Data].
  assert (U : u32 (u32 (Width im * m) * Height im) = Width im * Height im * m).
  { assert (Width im * 1 <= Width im * Height im) by (apply Z.mul_le_mono_nonneg_l; lia). assert (Width im * m <= Width im * 2) by (apply Z.mul_le_mono_nonneg_l; lia). assert (0 < Width im * m) by (apply Z.mul_pos_pos; lia).
    rewrite (u32_small (Width im * m)) by lia. replace (Width im * m * Height im) with (Width im * Height im * m) by ring. rewrite u32_small; [reflexivity|]. assert (Width im * Height im * m <= Width im * Height im * 2) by (apply Z.mul_le_mono_nonneg_l; lia). assert (0 < Width im * Height im * m) by (apply Z.mul_pos_pos; lia). lia. }
  rewrite U. destruct (alloc (Width im * Height im * m)) as [blk|] eqn:EA; [|exfalso; eapply HP; [|exact EA]; apply Z.mul_nonneg_nonneg; lia]. assert (LK := HA _ _ EA).
  rewrite (loop_reach_ub _ (fun d => zlen d = Width im * Height im * m)) with (m := Width im * Height im); [reflexivity|lia|exact LK| |].
  - intros i s Hs. apply put_lum_good. exact Hs.
  - intros s Hs. specialize (HIx (Width im * Height im) ltac:(lia)). set (wh := Width im * Height im) in *. unfold put_lum, rdo. rewrite rd_ok by lia. cbn [bind].
    assert ((geti buf wh + 1) * m <= n * m) by (apply Z.mul_le_mono_nonneg_r; lia). assert (0 <= geti buf wh * m) by (apply Z.mul_nonneg_nonneg; lia).
    rewrite rd_ok by lia. cbn [bind]. assert (wh * m <= wh * 2) by (apply Z.mul_le_mono_nonneg_l; lia). assert (0 < wh * m) by (apply Z.mul_pos_pos; lia). rewrite u32_small by lia. rewrite wr_ub by lia. reflexivity.
Qed.
Print Assumptions C84_depth_refuted.

(** the second image of a chain: the type of the palette is taken from the first image, which no longer has one *)
Theorem C84_chain_refuted : forall fcast flum pal quant alloc im buf n d im2 buf2 n2 d2 rest Dst, allocator_ok alloc -> plenty alloc -> pal_image im buf n d -> bytes d -> Depth im = 1 -> ilGetBpcType (Type_ im) = 1 ->
  PalType (Pal im) = IL_PAL_RGB24 \/ PalType (Pal im) = IL_PAL_BGR24 -> lum_format Dst -> pal_image im2 buf2 n2 d2 ->
  ilConvertImage fcast flum pal quant alloc (im :: im2 :: rest) Dst (Type_ im) = UB.
Proof.
  intros fcast flum pal quant alloc im buf n d im2 buf2 n2 d2 rest Dst HA HP HI HBd HD1 HT H3 HD HI2.
  destruct (C84_luminance_partial fcast flum pal quant alloc im buf n d Dst HA HP HI HBd HD1 HT H3 HD) as (im' & buf' & E & _ & _ & _ & _ & EP & _).
  assert (NC : (Dst =? IL_COLOUR_INDEX) = false) by (destruct HD as [-> | ->]; reflexivity).
  revert E. unfold ilConvertImage. assert (HF : Format im = IL_COLOUR_INDEX) by apply HI. rewrite HF, NC. cbn [andb]. rewrite Z.eqb_refl.
  assert (FC : iFastConvert im Dst = Ok (false, im)). { unfold iFastConvert. destruct HD as [-> | ->]; reflexivity. } rewrite FC. cbn [bind].
  destruct (iConvertImage fcast flum pal quant alloc im im Dst (Type_ im)) as [[[[new|] e] lost]| |] eqn:EI; cbn [bind]; try discriminate. cbn [convert_rest bind]. intros _.
  assert (PN : PalType (Pal (take im new Dst (Type_ im))) = IL_PAL_NONE).
  { cbn [take Pal]. revert EI. unfold iConvertImage. rewrite NC. cbn [andb]. rewrite HF, Z.eqb_refl. destruct (lum_palette alloc im im buf n d Dst HA HP HI HBd H3 eq_refl HD) as (t & _ & _ & ->).
    unfold flat. destruct (alloc _); cbn [bind]; [|discriminate]. destruct (loop _ _ _ _); cbn [bind]; try discriminate. cbn [with_Data Type_]. rewrite Z.eqb_refl. intros X. injection X as <- _ _. reflexivity. }
  set (cur := take im new Dst (Type_ im)) in *. clearbody cur. clear - HI2 HD NC PN HA HP. unfold convert_rest.
  destruct HI2 as (Hok & HF & HB & HC & Hpal & Hn & Hb & HIx & Hw). destruct (px_count im2 buf2 Hok HB HC) as (PC & SD & P0).
  assert (Hpal' := Hpal). destruct Hpal' as (HT2 & HPd & HS & HL). destruct (known_type _ HT2) as (TN & CA & BP).
  assert (HD' : (Dst =? IL_LUMINANCE) || (Dst =? IL_LUMINANCE_ALPHA) = true) by (destruct HD as [-> | ->]; reflexivity). assert (HDt : Data im2 = Some buf2) by apply Hok.
  assert (E : iConvertPalette alloc cur im2 Dst = UB).
  { unfold iConvertPalette. rewrite (copy_pal alloc zero_img im2 n2 d2) by auto. cbn [bind]. rewrite HPd, TN, HB, HD', PN. assert (C := cs_cases (PalType (Pal im2))). replace (PalSize (Pal im2) =? 0) with false by nia. cbn [orb negb Z.eqb Pos.eqb].
    change (case IL_PAL_NONE _) with false. cbv iota. unfold flat. destruct (alloc (u32 _)) as [blk|] eqn:EA; [|exfalso; eapply HP; [|exact EA]; apply Z.mod_pos_bound; lia].
    rewrite HDt, SD. rewrite PixelsProps.loop_first_ub; [reflexivity|lia|]. unfold rdo. rewrite rd_ok by lia. reflexivity. }
  unfold iConvertImage. rewrite NC. cbn [andb]. rewrite HF, Z.eqb_refl, E. reflexivity.
Qed.
Print Assumptions C84_chain_refuted.

(** the alpha of a palette with alpha *)
Theorem C84_alpha_refuted : forall fcast flum pal quant alloc im buf n d rest, allocator_ok alloc -> plenty alloc -> pal_image im buf n d -> with_alpha (PalType (Pal im)) = true ->
  ilConvertImage fcast flum pal quant alloc (im :: rest) IL_ALPHA (Type_ im) = UB.
Proof.
  intros fcast flum pal quant alloc im buf n d rest HA HP (Hok & HF & HB & HC & Hpal & Hn & Hb & HI & Hw) WA. apply to_lum; auto.
  destruct (px_count im buf Hok HB HC) as (PC & SD & P0). assert (HDt : Data im = Some buf) by apply Hok. destruct Hok as (_ & W & H & D & _).
  assert (Hpal' := Hpal). destruct Hpal' as (HT & HPd & HS & HL). destruct (known_type _ HT) as (TN & CA & BP).
  assert (K : colour_size (PalType (Pal im)) = 4 /\ case (PalType (Pal im)) [IL_PAL_RGB24; IL_PAL_RGB32; IL_PAL_BGR24; IL_PAL_BGR32] = false /\ case (PalType (Pal im)) [IL_PAL_BGRA32; IL_PAL_RGBA32] = true).
  { clear - WA. unfold with_alpha in WA. apply orb_prop in WA. destruct WA as [E|E]; apply Z.eqb_eq in E; rewrite E; repeat split. }
  destruct K as (CS & K1 & K2). rewrite CS in *.
  unfold iConvertPalette. rewrite (copy_pal alloc zero_img im n d) by auto. cbn [bind]. rewrite HPd, TN, HB, BP. replace (PalSize (Pal im) =? 0) with false by lia.
  change ((IL_ALPHA =? IL_LUMINANCE) || (IL_ALPHA =? IL_LUMINANCE_ALPHA)) with false. change (IL_ALPHA =? IL_ALPHA) with true. cbn [orb negb Z.eqb Pos.eqb]. rewrite K1, K2.
  destruct (alloc (PalSize (Pal im) / 4)) as [temp|] eqn:EA; [|cbn [with_Data Pal]; rewrite HPd; reflexivity]. 
  assert (G : good (fun t : list Z => True) (stride2 (PalSize (Pal im)) 4 1 (fun i k temp => let! a := rd d (i + 3) in wr temp k a) temp)).
  { rewrite HS, HL. rewrite stride2_loop by lia. apply loop_good; [|exact I]. intros i s _. unfold rd, wr. destruct (inb _ _ _); cbn [bind]; [|exact I]. destruct (inb _ _ _); exact I. }
  destruct (stride2 _ _ _ _ _) as [t| |]; cbn [bind good] in *; try contradiction; [|reflexivity]. unfold flat. cbn [Width Height with_Data].
  set (sz := u32 (u32 (Width im * 1) * Height im)).
  assert (SZ : sz = Width im * Height im). { assert (Width im * 1 <= Width im * Height im) by (apply Z.mul_le_mono_nonneg_l; lia). assert (Width im * Height im * 1 <= Width im * Height im * Depth im) by (apply Z.mul_le_mono_nonneg_l; [|lia]; apply Z.mul_nonneg_nonneg; lia). unfold sz. rewrite Z.mul_1_r. rewrite (u32_small (Width im)) by lia. rewrite u32_small by lia. reflexivity. }
  destruct (alloc sz) as [blk|] eqn:EB; [|exfalso; eapply HP; [|exact EB]; unfold sz; apply Z.mod_pos_bound; lia]. assert (LK := HA _ _ EB).
  assert (W1 : 0 < Width im * Height im) by (apply Z.mul_pos_pos; lia). assert (W2 : Width im * Height im * 1 <= Width im * Height im * Depth im) by (apply Z.mul_le_mono_nonneg_l; lia).
  rewrite HDt, SD. rewrite (loop_reach_ub _ (fun d => zlen d = sz)) with (m := sz - 1); [reflexivity|lia|exact LK| |].
  - intros i s Hs. unfold rdo, rd, wr. destruct (inb (zlen buf) i 1); cbn [bind]; [|exact I]. destruct (inb (zlen t) (_ * 2) 1); cbn [bind]; [|exact I].
    destruct (inb (zlen s) (u32 (i * 2)) 1) eqn:E; cbn [bind]; [|exact I]. apply inb_true in E.
    destruct (inb (zlen t) _ 1); cbn [bind]; [|exact I]. match goal with |- good _ (if inb ?a ?b ?c then _ else _) => destruct (inb a b c) eqn:E2 end; [|exact I]. apply inb_true in E2. cbn. rewrite !zlen_upd by (rewrite ?zlen_upd in * by lia; lia). exact Hs.
  - intros s Hs. unfold rdo. rewrite rd_ok by lia. cbn [bind]. unfold rd. destruct (inb _ _ _); cbn [bind]; [|reflexivity]. rewrite u32_small by lia.
    unfold wr at 1. destruct (inb (zlen s) ((sz - 1) * 2) 1) eqn:E; cbn [bind]; [|reflexivity]. apply inb_true in E. destruct (inb _ _ _); cbn [bind]; [|reflexivity]. rewrite u32_small by lia. apply wr_ub. rewrite zlen_upd by lia. lia.
Qed.
Print Assumptions C84_alpha_refuted.

(** when the memory for the pixels is refused, the library no longer has a current image *)
Theorem C84_lost_refuted : forall fcast flum pal quant alloc im buf n d rest, allocator_ok alloc -> pal_image im buf n d -> bytes d -> Depth im = 1 ->
  PalType (Pal im) = IL_PAL_RGB24 -> alloc (n * 3) <> None -> alloc n <> None -> alloc (zlen buf) = None ->
  ilConvertImage fcast flum pal quant alloc (im :: rest) IL_LUMINANCE (Type_ im) = Ok (false, im :: rest, [IL_OUT_OF_MEMORY], true).
Proof.
  intros fcast flum pal quant alloc im buf n d rest HA (Hok & HF & HB & HC & Hpal & Hn & Hb & HI & Hw) HBd HD1 T24 A1 A2 A3.
  destruct (px_count im buf Hok HB HC) as (PC & SD & P0). assert (HDt : Data im = Some buf) by apply Hok. destruct Hok as (_ & W & H & D & _). rewrite HD1, Z.mul_1_r in PC.
  assert (Hpal' := Hpal). destruct Hpal' as (HT & HPd & HS & HL). rewrite T24 in *. change (colour_size IL_PAL_RGB24) with 3 in HL.
  destruct (alloc (n * 3)) as [b3|] eqn:E3; [|congruence]. destruct (alloc n) as [bn|] eqn:En; [|congruence]. assert (L3 := HA _ _ E3). assert (Ln := HA _ _ En).
  destruct (table_ok d IL_PAL_RGB24 n 1 bn) as (t & ET & LT & GT); auto; try lia; try discriminate.
  assert (E : iConvertPalette alloc im im IL_LUMINANCE = Ok (None, [IL_OUT_OF_MEMORY], true)).
  { unfold iConvertPalette, copy_attr. rewrite HPd, HS, HL, E3. rewrite memcpy_ok by lia. cbn [bind]. rewrite T24, HB. replace (n * 3 =? 0) with false by lia. cbn [orb negb Z.eqb Pos.eqb].
    change (IL_PAL_RGB24 =? IL_PAL_NONE) with false. change ((IL_LUMINANCE =? IL_LUMINANCE) || (IL_LUMINANCE =? IL_LUMINANCE_ALPHA)) with true. change (IL_LUMINANCE =? IL_LUMINANCE_ALPHA) with false.
    change (case IL_PAL_RGB24 [IL_PAL_RGB24; IL_PAL_RGB32; IL_PAL_RGBA32; IL_PAL_BGR24; IL_PAL_BGR32; IL_PAL_BGRA32]) with true. change (ilGetBppPal IL_PAL_RGB24) with 3. cbn [orb negb Z.eqb Pos.eqb]. cbv iota.
    rewrite u32_small by lia. replace (1 * (n * 3) / 3) with n by (replace (1 * (n * 3)) with (n * 3) by ring; symmetry; apply Z.div_mul; lia). rewrite En, ET. cbn [bind]. unfold flat. cbn [Width Height].
    assert (Width im * 1 <= Width im * Height im) by (apply Z.mul_le_mono_nonneg_l; lia). rewrite Z.mul_1_r. rewrite (u32_small (Width im)) by lia. rewrite u32_small by lia. rewrite <- PC, A3. reflexivity. }
  unfold ilConvertImage. rewrite HF. change (IL_LUMINANCE =? IL_COLOUR_INDEX) with false. cbn [andb]. rewrite Z.eqb_refl. change (iFastConvert im IL_LUMINANCE) with (Ok (false, im)). cbn [bind].
  unfold iConvertImage. change (IL_LUMINANCE =? IL_COLOUR_INDEX) with false. cbn [andb]. rewrite HF, Z.eqb_refl, E. reflexivity.
Qed.
Print Assumptions C84_lost_refuted.

Example C84_ex : pal_image (ex_im [1; 0] [0; 0; 0; 255; 128; 0] IL_PAL_RGB24) [1; 0] 2 [0; 0; 0; 255; 128; 0] /\ bytes [0; 0; 0; 255; 128; 0] /\
  match ex_conv [ex_im [1; 0] [0; 0; 0; 255; 128; 0] IL_PAL_RGB24] IL_LUMINANCE_ALPHA IL_UNSIGNED_BYTE with
  | Ok (true, [a], [], false) => Data a = Some [145; 255; 0; 255] | _ => False end.
Proof.
  split; [|split].
  - unfold pal_image, img_ok, palette_of, pal_type. cbn. repeat split; auto 10; try lia; assert (i = 0 \/ i = 1) as [-> | ->] by lia; vm_compute; congruence.
  - apply bytes_Forall. repeat constructor; lia.
  - vm_compute. reflexivity.
Qed.
