(** C94: textures with mipmaps, short files, safety. *)
From Coq Require Import ZArith List Lia Bool.
From Verif Require Import Base Slices Elem Enums Utility Image ImageSpec Flip Lump LumpSpec LumpProofs LumpProps Channels Endian EndianProps ConvImgProps RleSpec RawProps Pcx PcxProofs TgaProofs BmpSpec BmpSafe BmpDecode SgiSpec SgiProofs SgiLoad Safe Small SmallSpec SmallTex.
Import ListNotations.
Open Scope Z_scope.

(** ** WAL *)
Lemma init_nz : forall alloc old W H bpp fmt blk, allocator_ok alloc -> 0 <= W -> 0 <= H -> 1 <= bpp < 256 -> Z.max 1 W * bpp * Z.max 1 H < 4294967296 -> alloc (Z.max 1 W * bpp * Z.max 1 H) = Some blk ->
  ilInitImage alloc old W H 1 bpp fmt IL_UNSIGNED_BYTE None = Ok (true, low_img (Z.max 1 W) (Z.max 1 H) bpp fmt blk, []).
Proof.
  intros alloc old W H bpp fmt blk HA HW HH HB HS EA.
  assert (E : ilInitImage alloc old W H 1 bpp fmt IL_UNSIGNED_BYTE None = ilInitImage alloc old (Z.max 1 W) (Z.max 1 H) 1 bpp fmt IL_UNSIGNED_BYTE None).
  { assert (N : forall a, 0 <= a -> nz1 a = nz1 (Z.max 1 a)). { intros a Ha. unfold nz1. replace (Z.max 1 a =? 0) with false by lia. destruct (a =? 0) eqn:E; lia. } unfold ilInitImage. rewrite (N W HW), (N H HH). reflexivity. }
  rewrite E. apply init_low; auto; lia.
Qed.
(** a level of the mipmap chain: half the size, at least one *)
Definition half (n : Z) : Z := Z.max 1 (n / 2).
Lemma read_level : forall alloc F W H o p e d q, allocator_ok alloc -> 1 <= W -> 1 <= H -> W * H < 4294967296 -> 0 <= p <= zlen F -> zlen F < 2147483648 -> 0 <= o -> o + W * H <= zlen F -> zlen d = W * H ->
  forall l os, wal_read (top_img W H 1 IL_COLOUR_INDEX d q :: l) (o :: os) (Rd F p (zlen F) e) =
    let! (l, r) := wal_read l os (Rd F (o + W * H) (zlen F) e) in Ok (top_img W H 1 IL_COLOUR_INDEX (slice F o (W * 1 * H)) q :: l, r).
Proof.
  intros alloc F W H o p e d q HA HW HH HS Hp HM Ho HF L l os. assert (0 < W * H) by (apply Z.mul_pos_pos; lia). cbn [wal_read]. rewrite seek_set by lia. cbn [bind].
  change (Data (top_img W H 1 IL_COLOUR_INDEX d q)) with (Some d). change (Width (top_img W H 1 IL_COLOUR_INDEX d q)) with W. change (Height (top_img W H 1 IL_COLOUR_INDEX d q)) with H. cbv iota.
  rewrite (u32_small (W * H)) by lia. rewrite read_item1 by lia. cbn [bind]. change (1 =? 1) with true. cbn [negb]. cbv iota. rewrite top_data. rewrite (Z.mul_1_r W). reflexivity.
Qed.
Lemma levels_ok : forall alloc q2 W H b1 b2 b3, allocator_ok alloc -> 1 <= W -> 1 <= H -> W * H < 4294967296 ->
  alloc (Z.max 1 (W / 2) * 1 * Z.max 1 (H / 2)) = Some b1 -> alloc (Z.max 1 (W / 2 / 2) * 1 * Z.max 1 (H / 2 / 2)) = Some b2 -> alloc (Z.max 1 (W / 2 / 2 / 2) * 1 * Z.max 1 (H / 2 / 2 / 2)) = Some b3 ->
  wal_levels alloc q2 3 W H = Ok (Some [top_img (Z.max 1 (W / 2)) (Z.max 1 (H / 2)) 1 IL_COLOUR_INDEX b1 (mkPal None 768 IL_PAL_NONE);
    top_img (Z.max 1 (W / 2 / 2)) (Z.max 1 (H / 2 / 2)) 1 IL_COLOUR_INDEX b2 (mkPal None 768 IL_PAL_NONE); top_img (Z.max 1 (W / 2 / 2 / 2)) (Z.max 1 (H / 2 / 2 / 2)) 1 IL_COLOUR_INDEX b3 (mkPal None 768 IL_PAL_NONE)]).
Proof.
  intros alloc q2 W H b1 b2 b3 HA HW HH HS E1 E2 E3.
  assert (D : forall a b, 0 <= a <= W -> 0 <= b <= H -> Z.max 1 a * 1 * Z.max 1 b < 4294967296).
  { intros a b Ha Hb. rewrite Z.mul_1_r. assert (Z.max 1 a * Z.max 1 b <= W * H) by (apply Z.mul_le_mono_nonneg; lia). lia. }
  assert (X : forall a, 0 <= a -> 0 <= a / 2 <= a) by (intros a Ha; lia).
  assert (W1 := X W ltac:(lia)). assert (W2 := X (W / 2) ltac:(lia)). assert (W3 := X (W / 2 / 2) ltac:(lia)). assert (H1 := X H ltac:(lia)). assert (H2 := X (H / 2) ltac:(lia)). assert (H3 := X (H / 2 / 2) ltac:(lia)).
  cbn [wal_levels]. rewrite (init_nz alloc _ (W / 2) (H / 2) 1 IL_COLOUR_INDEX b1) by (auto; try apply D; lia). cbn [bind negb]. cbv iota.
  rewrite (init_nz alloc _ (W / 2 / 2) (H / 2 / 2) 1 IL_COLOUR_INDEX b2) by (auto; try apply D; lia). cbn [bind negb]. cbv iota.
  rewrite (init_nz alloc _ (W / 2 / 2 / 2) (H / 2 / 2 / 2) 1 IL_COLOUR_INDEX b3) by (auto; try apply D; lia). cbn [bind negb]. cbv iota. reflexivity.
Qed.

Lemma word4_range : forall F p, bytes F -> 0 <= p -> p + 4 <= zlen F -> 0 <= word4 F p < 4294967296.
Proof. intros F p B Hp HF. unfold word4, word2. assert (0 <= geti F p < 256) by (apply B; lia). assert (0 <= geti F (p + 1) < 256) by (apply B; lia). assert (0 <= geti F (p + 2) < 256) by (apply B; lia). assert (0 <= geti F (p + 2 + 1) < 256) by (apply B; lia). lia. Qed.

Lemma wal_head : forall alloc q2 old name u4 F, zlen name = 32 -> 100 <= zlen F < 4294967295 -> (forall i, zlen (u4 i) = 4) ->
  iLoadWalInternal alloc q2 old name u4 (Rd F 0 (zlen F) []) =
  (let W := word4 F 32 in let H := word4 F 36 in let r := Rd F 100 (zlen F) [] in
   let! (ok, im, _) := ilInitImage alloc old W H 1 1 IL_COLOUR_INDEX IL_UNSIGNED_BYTE None in
   if negb ok then Ok (false, im, []) else
   match alloc 768 with None => UB | Some _ =>
   let! l := wal_levels alloc q2 3 W H in
   match l with
   | None => UB
   | Some l =>
      let im := with_Pal (with_Origin im IL_ORIGIN_UPPER_LEFT) (mkPal (Some q2) 768 IL_PAL_RGB24) in
      match Data im with
      | None => UB
      | Some d =>
          let! (_, r) := iSeekRLump (i32 (wal_at F 0)) IL_SEEK_SET r in
          let! (n, d, r) := iReadLump d (u32 (W * H)) 1 r in
          if negb (n =? 1) then UB else
          let! (l, r) := wal_read l [wal_at F 1; wal_at F 2; wal_at F 3] r in
          Ok (true, with_Data im (Some d), l)
      end
   end end).
Proof.
  intros alloc q2 old name u4 F LN HF U4. unfold iLoadWalInternal. rewrite read_in by (auto; lia). cbn [bind]. do 6 (rewrite getu4 by (auto; lia); cbn [bind]). rewrite read_in by (auto; lia). cbn [bind].
  do 3 (rewrite getu4 by (auto; lia); cbn [bind]). reflexivity.
Qed.

(** C94d: a WAL file holds a picture and three smaller ones, each where its offset says; the picture is loaded
    with the game's palette and the three become its mipmaps. *)
Theorem C94_wal_partial : forall alloc q2 old name u4 F, allocator_ok alloc -> bytes F -> zlen name = 32 -> (forall i, zlen (u4 i) = 4) -> 100 <= zlen F < 2147483648 ->
  1 <= wal_w F 0 -> 1 <= wal_h F 0 -> (forall k, 0 <= k < 4 -> wal_at F k + wal_w F k * wal_h F k <= zlen F /\ alloc (wal_w F k * wal_h F k) <> None) -> alloc 768 <> None ->
  exists im mips, iLoadWalInternal alloc q2 old name u4 (Rd F 0 (zlen F) []) = Ok (true, im, mips) /\ zlen mips = 3 /\
    (forall k m, 0 <= k < 4 -> nth_error (im :: mips) (Z.to_nat k) = Some m -> shows m (wal_w F k) (wal_h F k) 1 IL_COLOUR_INDEX (stored F (wal_at F k) (wal_w F k) 1)) /\
    Pal im = mkPal (Some q2) 768 IL_PAL_RGB24.
Proof.
  intros alloc q2 old name u4 F HA B LN U4 HF HW HH HK Hn. rewrite wal_head by (auto; lia). cbv zeta.
  destruct (HK 0 ltac:(lia)) as (F0 & A0). destruct (HK 1 ltac:(lia)) as (F1 & A1). destruct (HK 2 ltac:(lia)) as (F2 & A2). destruct (HK 3 ltac:(lia)) as (F3 & A3). clear HK.
  assert (O : forall k, 0 <= k < 4 -> 0 <= wal_at F k). { intros k Hk. unfold wal_at. assert (X := word4_range F (40 + 4 * k) B). lia. }
  assert (O0 := O 0 ltac:(lia)). assert (O1 := O 1 ltac:(lia)). assert (O2 := O 2 ltac:(lia)). assert (O3 := O 3 ltac:(lia)). clear O.
  unfold wal_w, wal_h in *. change (0 =? 0) with true in *. change (1 =? 0) with false in *. change (2 =? 0) with false in *. change (3 =? 0) with false in *. cbv iota in *. change (2 ^ 1) with 2 in *. change (2 ^ 2) with (2 * 2) in *. change (2 ^ 3) with (2 * 2 * 2) in *. rewrite <- !Z.div_div in * by lia.
  set (W := word4 F 32) in *. set (H := word4 F 36) in *. clearbody W H. remember (wal_at F 0) as o0 eqn:V0. remember (wal_at F 1) as o1 eqn:V1. remember (wal_at F 2) as o2 eqn:V2. remember (wal_at F 3) as o3 eqn:V3.
  assert (P0 : 0 < W * H) by (apply Z.mul_pos_pos; lia).
  destruct (alloc (W * H)) as [b0|] eqn:E0; [|congruence]. destruct (alloc (Z.max 1 (W / 2) * _)) as [b1|] eqn:E1; [|congruence]. destruct (alloc (Z.max 1 (W / 2 / 2) * _)) as [b2|] eqn:E2; [|congruence]. destruct (alloc (Z.max 1 (W / 2 / 2 / 2) * _)) as [b3|] eqn:E3; [|congruence].
  assert (L0 := HA _ _ E0). assert (L1 := HA _ _ E1). assert (L2 := HA _ _ E2). assert (L3 := HA _ _ E3). destruct (alloc 768) as [pb|] eqn:EP; [|congruence].
  rewrite (init_low alloc old W H 1 IL_COLOUR_INDEX b0) by (rewrite ?Z.mul_1_r; auto; lia). cbn [bind negb]. cbv iota.
  rewrite (levels_ok alloc q2 W H b1 b2 b3) by (rewrite ?Z.mul_1_r; auto; lia). cbn [bind]. cbv iota. rewrite low_top, top_pal. change (Data (top_img W H 1 IL_COLOUR_INDEX b0 (mkPal (Some q2) 768 IL_PAL_RGB24))) with (Some b0). cbv iota.
  rewrite seek_set by lia. cbn [bind]. rewrite (u32_small (W * H)) by lia. rewrite read_item1 by lia. cbn [bind]. change (1 =? 1) with true. cbn [negb]. cbv iota.
  remember (Z.max 1 (W / 2)) as w1 eqn:Qw1. remember (Z.max 1 (W / 2 / 2)) as w2 eqn:Qw2. remember (Z.max 1 (W / 2 / 2 / 2)) as w3 eqn:Qw3. remember (Z.max 1 (H / 2)) as h1 eqn:Qh1. remember (Z.max 1 (H / 2 / 2)) as h2 eqn:Qh2. remember (Z.max 1 (H / 2 / 2 / 2)) as h3 eqn:Qh3.
  assert (1 <= w1) by lia. assert (1 <= w2) by lia. assert (1 <= w3) by lia. assert (1 <= h1) by lia. assert (1 <= h2) by lia. assert (1 <= h3) by lia.
  assert (0 < w1 * h1) by (apply Z.mul_pos_pos; lia). assert (0 < w2 * h2) by (apply Z.mul_pos_pos; lia). assert (0 < w3 * h3) by (apply Z.mul_pos_pos; lia).
  rewrite (read_level alloc F w1 h1 o1) by (auto; lia). rewrite (read_level alloc F w2 h2 o2) by (auto; lia). rewrite (read_level alloc F w3 h3 o3) by (auto; lia). cbn [wal_read bind]. rewrite top_data.
  do 2 eexists. split; [reflexivity|]. split; [reflexivity|]. split; [|reflexivity]. intros k m Hk E.
  assert (C : k = 0 \/ k = 1 \/ k = 2 \/ k = 3) by lia.
  destruct C as [-> | [-> | [-> | ->]]]; cbn [nth_error Z.to_nat Pos.to_nat Pos.iter_op Nat.add] in E; injection E as <-; cbn [Z.eqb Pos.eqb]; cbv iota.
  - rewrite <- V0. assert (T := stored_shows F o0 W H 1 IL_COLOUR_INDEX (mkPal (Some q2) 768 IL_PAL_RGB24)). rewrite (Z.mul_1_r W) in *. apply T; lia.
  - rewrite <- V1. change (2 ^ 1) with 2. rewrite <- Qw1, <- Qh1. apply stored_shows; rewrite ?Z.mul_1_r; lia.
  - rewrite <- V2. change (2 ^ 2) with (2 * 2). rewrite <- !Z.div_div, <- Qw2, <- Qh2 by lia. apply stored_shows; rewrite ?Z.mul_1_r; lia.
  - rewrite <- V3. change (2 ^ 3) with (2 * 2 * 2). rewrite <- !Z.div_div, <- Qw3, <- Qh3 by lia. apply stored_shows; rewrite ?Z.mul_1_r; lia.
Qed.
Print Assumptions C94_wal_partial.

(** The palette of the smaller pictures is lost: after every successful load they are colour-indexed images
    without one. *)
Lemma init_pal : forall alloc old W H D bpp f t ok im e, ilInitImage alloc old W H D bpp f t None = Ok (ok, im, e) -> ok = true -> Palette (Pal im) = None.
Proof.
  intros alloc old W H D bpp f t ok im e E ->. unfold ilInitImage in E. destruct (ilGetBpcType t =? 0); [discriminate|]. cbv zeta in E. destruct (alloc _); [|discriminate]. injection E as <- <-. reflexivity.
Qed.
Lemma levels_pal : forall alloc q2 n W H l, wal_levels alloc q2 n W H = Ok (Some l) -> Forall (fun m => Palette (Pal m) = None) l.
Proof.
  intros alloc q2. induction n as [|n IH]; intros W H l E; cbn [wal_levels] in E; [injection E as <-; constructor|].
  match type of E with bind ?m _ = _ => destruct m as [((ok, im), e)| |] eqn:EI end; cbn [bind] in E; try discriminate. destruct ok; cbn [negb] in E; [|discriminate].
  match type of E with bind ?m _ = _ => destruct m as [[l'|]| |] eqn:EL end; cbn [bind] in E; try discriminate. injection E as <-. constructor; [|eapply IH; eauto]. cbn [Pal with_Origin with_Pal Palette]. eapply init_pal; eauto.
Qed.
Lemma read_pal : forall l os r l' r', wal_read l os r = Ok (l', r') -> Forall (fun m => Palette (Pal m) = None) l -> Forall (fun m => Palette (Pal m) = None) l'.
Proof.
  induction l as [|im l IH]; intros os r l' r' E FA; cbn [wal_read] in E; [injection E as <- <-; constructor|]. destruct os as [|o os]; [injection E as <- <-; constructor|].
  match type of E with bind ?m _ = _ => destruct m as [(c, r1)| |] end; cbn [bind] in E; try discriminate. destruct (Data im); [|discriminate].
  match type of E with bind ?m _ = _ => destruct m as [((n, d), r2)| |] end; cbn [bind] in E; try discriminate. destruct (negb (n =? 1)); [discriminate|].
  match type of E with bind ?m _ = _ => destruct m as [(l2, r3)| |] eqn:E2 end; cbn [bind] in E; try discriminate. injection E as <- <-. apply Forall_cons_iff in FA. destruct FA as (P & FA). constructor; [exact P|]. eapply IH; eauto.
Qed.
Lemma bind_inv : forall A B (m : res A) (k : A -> res B) y, bind m k = Ok y -> exists x, m = Ok x /\ k x = Ok y.
Proof. intros A B [x| |] k y E; cbn in E; try discriminate. eauto. Qed.
Ltac nif E := match type of E with (if ?b then _ else _) = _ => destruct b; [discriminate|] end.
Ltac un E := apply bind_inv in E; destruct E as (? & ? & E); repeat match goal with p : (_ * _)%type |- _ => destruct p end; cbv beta iota in E.
Theorem C94_wal_palette_refuted : forall alloc q2 old name u4 r im mips, iLoadWalInternal alloc q2 old name u4 r = Ok (true, im, mips) -> Forall (fun m => Palette (Pal m) = None) mips.
Proof.
  intros alloc q2 old name u4 r im mips E. unfold iLoadWalInternal in E. do 12 un E.
  destruct x as ((ok0, im0), e0). cbv beta iota zeta in E. nif E. destruct (alloc 768); [|discriminate].
  apply bind_inv in E. destruct E as (lv & EL & E). destruct lv as [lv|]; [|discriminate]. apply levels_pal in EL. cbv zeta in E. match type of E with match ?d with _ => _ end = _ => destruct d; [|discriminate] end.
  do 2 un E. nif E. apply bind_inv in E. destruct E as ((l', r') & ER & E). injection E as <- <-. eapply read_pal; eauto.
Qed.
Print Assumptions C94_wal_palette_refuted.

(** A WAL file whose picture is cut short is not rejected: the clean-up frees the same memory twice. *)
Theorem C94_wal_short_refuted : forall alloc q2 old name u4 F W H, allocator_ok alloc -> plenty alloc -> zlen name = 32 -> (forall i, zlen (u4 i) = 4) -> 100 <= zlen F < 2147483648 ->
  word4 F 32 = W -> word4 F 36 = H -> 1 <= W -> 1 <= H -> W * H < 4294967296 -> 0 <= wal_at F 0 <= zlen F -> zlen F < wal_at F 0 + W * H ->
  iLoadWalInternal alloc q2 old name u4 (Rd F 0 (zlen F) []) = UB.
Proof.
  intros alloc q2 old name u4 F W H HA PL LN U4 HF EW EH HW HH HS HO HT. rewrite wal_head by (auto; lia). cbv zeta. rewrite EW, EH. assert (P0 : 0 < W * H) by (apply Z.mul_pos_pos; lia).
  assert (AL : forall k, 0 <= k -> exists b, alloc k = Some b). { intros k Hk. destruct (alloc k) eqn:E; [eauto|]. exfalso. apply (PL k Hk E). }
  destruct (AL (W * H) ltac:(lia)) as (b0 & E0). destruct (AL (Z.max 1 (W / 2) * Z.max 1 (H / 2)) ltac:(apply Z.mul_nonneg_nonneg; lia)) as (b1 & E1). destruct (AL (Z.max 1 (W / 2 / 2) * Z.max 1 (H / 2 / 2)) ltac:(apply Z.mul_nonneg_nonneg; lia)) as (b2 & E2).
  destruct (AL (Z.max 1 (W / 2 / 2 / 2) * Z.max 1 (H / 2 / 2 / 2)) ltac:(apply Z.mul_nonneg_nonneg; lia)) as (b3 & E3). destruct (AL 768 ltac:(lia)) as (pb & EP). assert (L0 := HA _ _ E0).
  rewrite (init_low alloc old W H 1 IL_COLOUR_INDEX b0) by (rewrite ?Z.mul_1_r; auto; lia). cbn [bind negb]. cbv iota. rewrite EP.
  rewrite (levels_ok alloc q2 W H b1 b2 b3) by (rewrite ?Z.mul_1_r; auto; lia). cbn [bind]. cbv iota. rewrite low_top, top_pal. change (Data (top_img W H 1 IL_COLOUR_INDEX b0 (mkPal (Some q2) 768 IL_PAL_RGB24))) with (Some b0). cbv iota.
  rewrite seek_set by lia. cbn [bind]. rewrite (u32_small (W * H)) by lia. rewrite (C21_read F) by (try (split; [reflexivity|cbn; lia]); lia). cbn [bind rpos rerr]. cbv zeta.
  match goal with |- context [negb (?a =? 1)] => assert (Q : a <> 1) end.
  { rewrite rest_slice. match goal with |- zlen ?l / _ <> 1 => assert (zlen l < W * H) end. { unfold slice, zlen. rewrite firstn_length, skipn_length. unfold zlen in *. lia. } rewrite Z.div_small; [lia|]. split; [auto|lia]. }
  replace (_ =? 1) with false by lia. reflexivity.
Qed.
Print Assumptions C94_wal_short_refuted.

(** A PXR file that is cut short is accepted; the pixels that are missing are what the memory contained. *)
Theorem C94_pxr_short_refuted : forall alloc old u2 F W H k N fmt blk, allocator_ok alloc -> bytes F -> In (k, N, fmt) [(8, 1, IL_LUMINANCE); (14, 3, IL_RGB); (15, 4, IL_RGBA)] ->
  word2 F 416 = H -> word2 F 418 = W -> geti F 424 = k -> 1 <= W -> 1 <= H -> 1024 <= zlen F < 1024 + W * N * H -> zlen F < 2147483648 -> W * N * H < 4294967296 -> (forall i, zlen (u2 i) = 2) -> alloc (W * N * H) = Some blk ->
  exists im buf, iLoadPxrInternal alloc old u2 (Rd F 0 (zlen F) []) = Ok (true, im, []) /\ Data im = Some buf /\ geti buf (W * N * H - 1) = geti blk (W * N * H - 1).
Proof.
  intros alloc old u2 F W H k N fmt blk HA B HK E1 E2 E3 HW HH HF HM HS U2 EA. assert (HN : 1 <= N <= 4) by (cbn in HK; destruct HK as [HK|[HK|[HK|[]]]]; injection HK as <- <- <-; lia).
  assert (0 < W * N * H) by (repeat apply Z.mul_pos_pos; lia). unfold iLoadPxrInternal. change 416 with (i32 416). rewrite seek_set by lia. change (i32 416) with 416. cbn [bind].
  rewrite getu2 by (auto; lia). cbn [bind]. rewrite getu2 by (auto; lia). cbn [bind]. change 424 with (i32 424). rewrite seek_set by lia. cbn [bind]. rewrite getc_in by lia. cbn [bind]. change (416 + 2) with 418. rewrite E1, E2, E3.
  assert (EK : (if u8 k =? 8 then Some (1, IL_LUMINANCE) else if u8 k =? 14 then Some (3, IL_RGB) else if u8 k =? 15 then Some (4, IL_RGBA) else None) = Some (N, fmt)).
  { cbn in HK. destruct HK as [HK|[HK|[HK|[]]]]; injection HK as <- <- <-; reflexivity. }
  rewrite EK. assert (LB := HA _ _ EA). rewrite (init_ok alloc old W H N fmt blk) by (auto; lia). cbn [bind].
  change 1024 with (i32 1024) at 1. rewrite seek_set by lia. cbn [bind Data SizeOfData]. rewrite (C21_read F) by (try (split; [reflexivity|cbn; lia]); lia). cbn [bind rpos rerr]. cbv zeta. do 2 eexists. split; [reflexivity|]. split; [reflexivity|].
  rewrite rest_slice. set (S := slice F 1024 (1 * (W * N * H))). assert (LS : zlen S <= zlen F - 1024). { unfold S, slice, zlen. rewrite firstn_length, skipn_length. unfold zlen in *. lia. }
  assert (0 <= zlen S) by auto. rewrite geti_app by lia. replace (_ <? _) with false by lia. unfold geti. rewrite nth_skipn_. f_equal. unfold zlen in *. lia.
Qed.
Print Assumptions C94_pxr_short_refuted.

(** ** Safety *)
Lemma init_safe : forall alloc old W H bpp fmt, allocator_ok alloc -> safe (fun x : bool * img * list Z => let '(ok, im, _) := x in
   0 <= SizeOfData im < 4294967296 /\ SizeOfData im = u32 (u32 (u32 (nz1 W * bpp * 1) * nz1 H) * 1) /\ (if ok then exists d, Data im = Some d /\ zlen d = SizeOfData im else Data im = None))
  (ilInitImage alloc old W H 1 bpp fmt IL_UNSIGNED_BYTE None).
Proof.
  intros alloc old W H bpp fmt HA. unfold ilInitImage. change (ilGetBpcType IL_UNSIGNED_BYTE) with 1. change (1 =? 0) with false. change (nz1 1) with 1. cbv iota zeta. destruct (alloc _) as [b|] eqn:E; cbn [safe SizeOfData Data].
  - split; [apply u32_range|]. split; [reflexivity|]. exists b. split; [reflexivity|]. apply HA; auto.
  - split; [apply u32_range|]. split; reflexivity.
Qed.
(** reading nothing *)
Lemma read_zero : forall F b n r, on F r -> exists c r', iReadLump b 0 n r = Ok (c, b, r') /\ on F r' /\ c = 0.
Proof.
  intros F b n r (H1 & H2 & H3). unfold iReadLump. rewrite Z.mul_0_l. change (u32 0) with 0. rewrite Z.min_l by apply u32_range. cbn [Z.to_nat read_loop bind]. do 2 eexists. split; [reflexivity|]. split; [|reflexivity].
  unfold on. cbn [rlump Lump.rsize rpos]. rewrite Z.add_0_r. split; [auto|]. split; [auto|]. assert (X := u32_range (rpos r)). assert (Y := u32_le (rpos r)). lia.
Qed.
Lemma safe_imp : forall A (P Q : A -> Prop) m, (forall x, P x -> Q x) -> safe P m -> safe Q m.
Proof. intros A P Q [x| |] H S; cbn in *; auto. Qed.
Ltac step P := apply (safe_bind _ _ P).
Ltac got4 F := step (fun x : Z * reader => on F (snd x) /\ 0 <= fst x < 256 ^ 4); [apply get_safe; auto; lia|intros (?v, ?r) (?O & _); cbn [fst snd] in *].

(** C94e: no FTX or LIF file, however damaged, makes the loaders leave their memory; the same for PXR files as
    long as memory can be allocated. *)
Theorem C94_safe : forall alloc old id u2 u4 F, allocator_ok alloc -> bytes F -> 0 < zlen F < 2147483648 -> zlen id = 8 -> (forall i, zlen (u2 i) = 2 /\ bytes (u2 i)) -> (forall i, zlen (u4 i) = 4 /\ bytes (u4 i)) ->
  iLoadFtxInternal alloc old u4 (Rd F 0 (zlen F) []) <> UB /\ iLoadLifInternal alloc old id u4 (Rd F 0 (zlen F) []) <> UB /\ (plenty alloc -> iLoadPxrInternal alloc old u2 (Rd F 0 (zlen F) []) <> UB).
Proof.
  intros alloc old id u2 u4 F HA B HF LI U2 U4. assert (U4l := fun i => proj1 (U4 i)). assert (U4b := fun i => proj2 (U4 i)). assert (U2l := fun i => proj1 (U2 i)). assert (U2b := fun i => proj2 (U2 i)).
  assert (SU : forall m : outcome, safe (fun _ => True) m -> m <> UB) by (intros m S E; rewrite E in S; exact S).
  assert (O0 : on F (Rd F 0 (zlen F) [])) by (split; [reflexivity|split; [reflexivity|cbn; lia]]).
  split; [|split].
  - apply SU. unfold iLoadFtxInternal. do 3 got4 F. eapply safe_bind; [apply init_safe; auto|]. intros ((ok, im), e) (HS & _ & HD). destruct ok; cbn [negb]; [|exact I]. destruct HD as (d & ED & LD). cbv zeta.
    change (Data (with_Origin im IL_ORIGIN_UPPER_LEFT)) with (Data im). rewrite ED. change (SizeOfData (with_Origin im IL_ORIGIN_UPPER_LEFT)) with (SizeOfData im). eapply safe_bind; [apply (read_safe F); auto; lia|]. intros ((n, b), r3) _. exact I.
  - apply SU. unfold iLoadLifInternal, iGetLifHead. step (fun x : lifhead * reader => on F (snd x)).
    { eapply safe_bind; [apply (read_safe F); auto; lia|]. intros ((n, b), r) (O & _). cbn [fst snd] in O. do 9 got4 F. exact O9. }
    intros (h, r) O. cbn [fst snd] in *. eapply safe_bind; [apply init_safe; auto|]. intros ((ok, im), e) (HS & ES & HD). destruct ok; cbn [negb]; [|exact I]. destruct HD as (d & ED & LD). cbv zeta.
    destruct (alloc 1024) as [pb|] eqn:EP; [|exact I]. assert (LP := HA _ _ EP). change (Data (with_Pal (with_Origin im IL_ORIGIN_UPPER_LEFT) (mkPal (Some pb) 1024 IL_PAL_RGBA32))) with (Data im). rewrite ED.
    set (im1 := with_Pal (with_Origin im IL_ORIGIN_UPPER_LEFT) (mkPal (Some pb) 1024 IL_PAL_RGBA32)). assert (SS : forall d q, SizeOfData (with_Pal (with_Data im1 d) q) = SizeOfData im) by reflexivity. clearbody im1.
    assert (RD : safe (fun x => on F (snd x) /\ (fst (fst x) = 1 -> zlen (snd (fst x)) = zlen d)) (iReadLump d (u32 (LWidth h * LHeight h)) 1 r)).
    { destruct (Z.eq_dec (u32 (LWidth h * LHeight h)) 0) as [E|E].
      - rewrite E. destruct (read_zero F d 1 r O) as (c & r' & -> & O' & ->). cbn [safe fst snd]. split; [exact O'|reflexivity].
      - assert (UR := u32_range (LWidth h * LHeight h)). assert (u32 (LWidth h * LHeight h) = SizeOfData im).
        { rewrite ES. unfold nz1. destruct (LWidth h =? 0) eqn:EW; [replace (LWidth h) with 0 in E by lia; rewrite Z.mul_0_l in E; contradiction E; reflexivity|].
          destruct (LHeight h =? 0) eqn:EH; [replace (LHeight h) with 0 in E by lia; rewrite Z.mul_0_r in E; contradiction E; reflexivity|]. rewrite !Z.mul_1_r. unfold u32. rewrite Z.mod_mod, Z.mul_mod_idemp_l by lia. reflexivity. }
        eapply safe_imp; [|apply (read_safe F); auto; lia]. intros ((n, b), r') (A1 & A2). cbn [fst snd] in *. auto. }
    eapply safe_bind; [exact RD|]. intros ((n, d1), r1) (O1 & L1). cbn [fst snd] in *. cbv zeta. destruct (n =? 1) eqn:E1; cbn [negb]; [|exact I]. assert (L1' := L1 ltac:(lia)).
    eapply safe_bind; [apply (read_safe F); auto; lia|]. intros ((n2, p2), r2) (O2 & _). cbv zeta. destruct (n2 =? 1024); cbn [negb]; [|exact I]. rewrite SS.
    step (fun d' : list Z => True); [|intros; exact I]. eapply safe_imp; [|apply (safe_loop _ (fun d' => zlen d' = SizeOfData im))]; auto; [lia|].
    intros k d' Hk Hd'. rewrite rd_ok by lia. cbn [bind]. rewrite wr_ok by lia. cbn [safe]. rewrite zlen_upd; lia.
  - intros PL. apply SU. unfold iLoadPxrInternal.
    destruct (set_safe F 416 _ HF O0 ltac:(lia)) as (c1 & r1 & -> & O1). cbn [bind]. eapply safe_bind; [apply (get_safe F 2 (u2 0)); auto; lia|]. intros (H, r2) (O2 & _). cbn [fst snd] in *.
    eapply safe_bind; [apply (get_safe F 2 (u2 1)); auto; lia|]. intros (W, r3) (O3 & _). cbn [fst snd] in *. destruct (set_safe F 424 r3 HF O3 ltac:(lia)) as (c4 & r4 & -> & O4). cbn [bind].
    eapply safe_bind; [apply (getc_safe F); auto; lia|]. intros (c, r5) (O5 & _). cbn [fst snd] in *. cbv zeta. destruct (if u8 c =? 8 then _ else _) as [(bpp, f)|]; [|exact I].
    assert (IS := init_safe alloc old W H bpp f HA). destruct (ilInitImage alloc old W H 1 bpp f IL_UNSIGNED_BYTE None) as [((ok, im), e)| |] eqn:EI; cbn [safe] in IS; try contradiction; [|exact I]. cbn [bind].
    destruct IS as (HS & _ & HD). destruct ok.
    + destruct HD as (d & ED & LD). destruct (set_safe F 1024 r5 HF O5 ltac:(lia)) as (c6 & r6 & -> & O6). cbn [bind]. rewrite ED. eapply safe_bind; [apply (read_safe F); auto; lia|]. intros ((n, b), r7) _. exact I.
    + exfalso. unfold ilInitImage in EI. change (ilGetBpcType IL_UNSIGNED_BYTE) with 1 in EI. change (1 =? 0) with false in EI. cbv iota zeta in EI. destruct (alloc _) eqn:EA; [discriminate|]. apply (PL _ (proj1 (u32_range _)) EA).
Qed.
Print Assumptions C94_safe.
