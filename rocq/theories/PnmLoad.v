(** C98: binary grey and colour maps. *)
From Coq Require Import ZArith List Lia Bool.
From Verif Require Import Base Slices Elem Enums Utility Image ImageSpec Flip Lump LumpSpec LumpProofs LumpProps CacheProps Channels Endian EndianProps ConvImgProps RleSpec RawProps Pcx PcxProofs TgaProofs BmpSpec BmpSafe BmpDecode SgiSpec SgiProofs SgiLoad Safe Small SmallSpec SmallTex SmallTexProps SmallSunProps Pal PalSpec PalJasc Pnm PnmSpec PnmProofs.
Import ListNotations.
Open Scope Z_scope.

Section Input.
Variables (F : list Z).
Hypothesis HF : zlen F < 2147483648.
Hypothesis BF : bytes F.
Notation R p e := (Rd F p (zlen F) e).

(** a word between blanks, before [rest]; what the call leaves is [rest], perhaps after blanks *)
Lemma word_step : forall b w g rest fuel sb p e, blank b -> Forall word_char w -> w <> [] -> zlen w < 180 -> blank g -> g <> [] -> rest <> [] -> hd 0 rest <> 32 -> zlen sb = 180 ->
  tail F p (b ++ w ++ g ++ rest) -> (length (b ++ w ++ g) < fuel)%nat ->
  exists sb' p' g', iGetWord fuel false sb (R p e) = Ok (true, sb', R p' e, []) /\ holds sb' w /\ blank g' /\ (length g' < length g)%nat /\ tail F p' (g' ++ rest) /\ (gap g -> g' = []).
Proof.
  intros b w g rest fuel sb p e HB HW NW LW HG NG NR HR Hsb T Hf. destruct (blank_split g HG NG) as (s & n & g' & HS & EG & HG' & HD).
  assert (NX : exists c r, g' ++ rest = c :: r /\ c <> 32). { destruct g' as [|y g']; [destruct rest as [|y rest]; [congruence|]; exists y, rest; auto|]. exists y. eexists. split; [reflexivity|exact HD]. }
  destruct NX as (c & r & EN & NC). rewrite EG, <- !app_assoc, EN in T. rewrite !app_length, EG, !app_length, repeat_length in Hf.
  assert (L1 : (1 <= length s)%nat) by (destruct HS as [-> | [-> | (q & _ & ->)]]; cbn; lia).
  unfold iGetWord. assert (NE : iEofLump (R p e) = false). { destruct b as [|y b]; [destruct w as [|y w]; [congruence|]|]; cbn [app] in T; eapply not_eof; eauto. } rewrite NE.
  destruct (get_word_ok F HF (length b) b w s n c r fuel sb p e) as (sb' & E & H1 & T'); auto; [lia|]. exists sb'. eexists. exists g'. split; [exact E|]. split; [auto|]. split; [auto|]. rewrite EG, !app_length, repeat_length. split; [lia|]. rewrite EN. split; [exact T'|].
  intros (s2 & n2 & HS2 & E2). destruct g' as [|y g']; [reflexivity|]. exfalso. cbn [hd] in HD.
  assert (G : forall n n2 y (g : list Z), y <> 32 -> repeat 32 n ++ y :: g = repeat 32 n2 -> False). { clear. induction n as [|n IH]; intros n2 y g N E; destruct n2 as [|n2]; cbn [repeat app] in E; try discriminate; injection E; intros; [congruence|eapply IH; eauto]. }
  assert (C : forall (c c2 l l2 : list Z), Forall (fun x => x <> 10) c -> Forall (fun x => x <> 10) c2 -> c ++ 10 :: l = c2 ++ 10 :: l2 -> l = l2).
  { clear. induction c as [|x c IH]; intros c2 l l2 H1 H2 E; destruct c2 as [|x2 c2]; cbn [app] in E; injection E; intros; subst; auto; try (inversion H1; congruence); try (inversion H2; congruence). inversion H1; inversion H2; subst. eapply IH; eauto. }
  destruct HS as [-> | [-> | (q & Hq & ->)]]; destruct HS2 as [-> | [-> | (q2 & Hq2 & ->)]]; cbn [app] in E2; try discriminate; injection E2; intros E3; try (exact (G _ _ _ _ HD E3)).
  rewrite <- !app_assoc in E3. cbn [app] in E3. apply C in E3; auto. exact (G _ _ _ _ HD E3).
Qed.

(** the magic number and the sizes; [g]: what follows *)
Lemma start_ok : forall t W H h g rest fuel sb, pnm_start t W H h -> 49 <= t <= 54 -> 0 <= W < 2147483648 -> 0 <= H < 2147483648 -> blank g -> g <> [] -> rest <> [] -> hd 0 rest <> 32 -> F = h ++ g ++ rest -> zlen sb = 180 -> (length F < fuel)%nat ->
  forall alloc old lb e, exists sb' p' g', zlen sb' = 180 /\ blank g' /\ tail F p' (g' ++ rest) /\ (gap g -> g' = []) /\
    iLoadPnmInternal fuel alloc old sb lb (R 0 e) =
      if W =? 0 then Ok (false, old, [IL_INVALID_FILE_HEADER]) else if H =? 0 then Ok (false, old, [IL_INVALID_FILE_HEADER]) else
      if (t =? 49) || (t =? 52) then pnm_pixels fuel alloc old t W H 1 sb' lb (R p' e) else
      let! (ok, sb, r, e) := iGetWord fuel true sb' (R p' e) in
      if negb ok then Ok (false, old, e) else
      let! M := word_num sb in
      if M =? 0 then Ok (false, old, [IL_INVALID_FILE_HEADER]) else pnm_pixels fuel alloc old t W H M sb lb r.
Proof.
  intros t W H h g rest fuel sb (g1 & g2 & w & l & EH & B1 & N1 & B2 & N2 & NW & NH) Ht HW HH HG NG NR HR EF Hsb Hf alloc old lb e.
  assert (HD : forall w v (r : list Z), number v w -> hd 0 (w ++ r) <> 32 /\ w ++ r <> []). { intros w0 v r (X & Y & _). destruct w0 as [|c w0]; [congruence|]. inversion Y; subst. cbn. split; [lia|discriminate]. }
  assert (T0 : tail F 0 ([] ++ [80; t] ++ g1 ++ (w ++ g2 ++ l ++ g ++ rest))). { rewrite EF, EH. cbn [app]. rewrite <- !app_assoc. apply tail_start. }
  assert (LF : length F = (2 + length g1 + length w + length g2 + length l + length g + length rest)%nat) by (rewrite EF, EH; cbn [app length]; rewrite !app_length; cbn [length]; lia).
  destruct (word_step [] [80; t] g1 (w ++ g2 ++ l ++ g ++ rest) fuel sb 0 e) as (sb1 & p1 & g1' & E1 & H1 & B1' & L1 & T1 & _); auto; try constructor; try discriminate; try reflexivity; try (eapply HD; eauto).
  { left. unfold letter. lia. } { constructor; [left; unfold letter; lia|constructor]. } { cbn [app length]. lia. }
  destruct (word_step g1' w g2 (l ++ g ++ rest) fuel sb1 p1 e) as (sb2 & p2 & g2' & E2 & H2 & B2' & L2 & T2 & _); auto; try apply digits_word; try apply NW; try (eapply HD; eauto); try apply H1. { rewrite !app_length. lia. }
  destruct (word_step g2' l g rest fuel sb2 p2 e) as (sb3 & p3 & g3' & E3 & H3 & B3' & L3 & T3 & G3); auto; try apply digits_word; try apply NH; try apply H2. { rewrite !app_length. lia. }
  exists sb3, p3, g3'. split; [apply H3|]. split; [auto|]. split; [auto|]. split; [auto|].
  unfold iLoadPnmInternal. rewrite E1. cbn [bind negb]. destruct H1 as (LB1 & t1 & ES1). rewrite rd_ok by lia. cbn [bind]. rewrite ES1. change (geti ([80; t] ++ 0 :: t1) 0) with 80. change (80 =? 80) with true. cbn [negb]. rewrite rd_ok by (rewrite <- ES1; lia). cbn [bind]. change (geti ([80; t] ++ 0 :: t1) 1) with t.
  replace (t =? 55) with false by lia. replace ((49 <=? t) && (t <=? 54)) with true by lia. unfold pnm_sizes. rewrite <- ES1, E2. cbn [bind negb]. rewrite (word_num_ok sb2 W w) by (auto; lia). cbn [bind].
  destruct (W =? 0); [reflexivity|]. rewrite E3. cbn [bind negb]. rewrite (word_num_ok sb3 H l) by (auto; lia). cbn [bind]. destruct (H =? 0); [reflexivity|].
  destruct ((t =? 49) || (t =? 52)); [reflexivity|]. destruct (iGetWord fuel true sb3 (R p3 e)) as [[[[ok sb4] r] e4]| |]; cbn [bind]; auto. destruct ok; cbn [negb]; [|reflexivity]. destruct (word_num sb4) as [M| |]; cbn [bind]; auto. destruct (M =? 0); reflexivity.
Qed.
Lemma gap_blank : forall g, gap g -> blank g /\ g <> [].
Proof.
  intros g (s & n & HS & ->). assert (R : blank (repeat 32 n)) by (induction n; cbn; [constructor|constructor; auto]). destruct HS as [-> | [-> | (c & Hc & ->)]]; cbn [app]; (split; [|discriminate]); [constructor; auto|constructor; auto|].
  rewrite <- app_assoc. cbn [app]. constructor; auto.
Qed.
Lemma head_ok : forall t W H M h data fuel sb, pnm_head t W H M h -> 49 <= t <= 54 -> t <> 49 -> t <> 52 -> 1 <= W < 2147483648 -> 1 <= H < 2147483648 -> 1 <= M < 2147483648 -> F = h ++ data -> zlen sb = 180 -> (length F < fuel)%nat ->
  forall alloc old lb e, exists sb', zlen sb' = 180 /\ tail F (zlen h) data /\
    iLoadPnmInternal fuel alloc old sb lb (R 0 e) = pnm_pixels fuel alloc old t W H M sb' lb (R (zlen h) e).
Proof.
  intros t W H M h data fuel sb (h0 & g & m & c & EH & HS & HG & NM & HC) Ht N1 N4 HW HH HM EF Hsb Hf alloc old lb e. destruct (gap_blank g HG) as (BG & NG).
  assert (HM0 : m ++ c :: data <> [] /\ hd 0 (m ++ c :: data) <> 32). { destruct NM as (X & Y & _). destruct m as [|a m]; [congruence|]. inversion Y; subst. cbn. split; [discriminate|lia]. }
  assert (EF' : F = h0 ++ g ++ m ++ c :: data). { rewrite EF, EH, <- !app_assoc. reflexivity. }
  destruct (start_ok t W H h0 g (m ++ c :: data) fuel sb HS Ht) with (alloc := alloc) (old := old) (lb := lb) (e := e) as (sb' & p' & g' & LB & _ & T & G & E); auto; try lia; try apply HM0.
  rewrite (G HG) in T. cbn [app] in T. rewrite E. replace (W =? 0) with false by lia. replace (H =? 0) with false by lia. replace ((t =? 49) || (t =? 52)) with false by lia.
  unfold iGetWord. assert (NE : iEofLump (R p' e) = false). { destruct m as [|a m]; [destruct NM; congruence|]. cbn [app] in T. eapply not_eof; eauto. } rewrite NE.
  assert (LM : (length m < fuel)%nat). { rewrite EF', !app_length in Hf. lia. }
  destruct (get_word_final F HF m c data fuel sb' p' e) as (sb2 & E2 & H2 & T2); auto; try apply digits_word; try apply NM. { unfold stop. lia. }
  rewrite E2. cbn [bind negb]. rewrite (word_num_ok sb2 M m) by (auto; lia). cbn [bind]. replace (M =? 0) with false by lia.
  assert (PE : p' + zlen m + 1 = zlen h). { assert (A := tail_len _ _ _ T2). rewrite EF, zlen_app in A. lia. }
  rewrite PE in *. exists sb2. split; [apply H2|]. auto.
Qed.
End Input.

Definition pnm_kind (t N fmt : Z) : Prop := (t = 53 /\ N = 1 /\ fmt = IL_LUMINANCE) \/ (t = 54 /\ N = 3 /\ fmt = IL_RGB).
Lemma pixels_eq : forall fuel alloc old t W H M sb lb r N fmt, pnm_kind t N fmt -> pnm_pixels fuel alloc old t W H M sb lb r =
  let! (ok, im, e) := ilReadBinaryPpm alloc old W H N r in
  if negb ok then Ok (false, set_Format im (ilGetFormatBpp (Bpp im)), e ++ [IL_FILE_READ_ERROR]) else
  Ok (true, set_Format (with_Origin (if 255 <? M then set_Type im IL_UNSIGNED_SHORT else im) IL_ORIGIN_UPPER_LEFT) fmt, []).
Proof. intros fuel alloc old t W H M sb lb r N fmt [(-> & -> & ->)|(-> & -> & ->)]; unfold pnm_pixels; cbn [Z.eqb Pos.eqb orb]; (destruct (ilReadBinaryPpm alloc old W H _ r) as [[[ok im] e]| |]; cbn [bind]; auto; destruct ok; reflexivity). Qed.
Lemma pnm_area : forall W H N, 1 <= W -> 1 <= H -> 1 <= N -> W * N * H < 2147483648 -> W < 2147483648 /\ H < 2147483648.
Proof. intros W H N HW HH HN HS. assert (A : W * 1 <= W * N) by (apply Z.mul_le_mono_nonneg_l; lia). assert (B : W * N * 1 <= W * N * H) by (apply Z.mul_le_mono_nonneg_l; lia). assert (C : 1 * H <= W * N * H) by (apply Z.mul_le_mono_nonneg_r; lia). lia. Qed.
Lemma kind_N : forall t N fmt, pnm_kind t N fmt -> (N = 1 \/ N = 3) /\ 49 <= t <= 54 /\ t <> 49 /\ t <> 52.
Proof. intros t N fmt [(-> & -> & ->)|(-> & -> & ->)]; lia. Qed.

(** C98a: a binary grey or colour map whose largest value is at most 255 is loaded into the samples it stores. *)
Theorem C98_binary : forall fuel alloc old sb lb F t W H M N fmt h data, allocator_ok alloc -> bytes F -> zlen F < 2147483648 -> (length F < fuel)%nat -> zlen sb = 180 ->
  pnm_kind t N fmt -> pnm_head t W H M h -> F = h ++ data -> 1 <= W -> 1 <= H -> 1 <= M <= 255 -> W * N * H <= zlen data -> alloc (W * N * H) <> None ->
  exists im, iLoadPnmInternal fuel alloc old sb lb (Rd F 0 (zlen F) []) = Ok (true, im, []) /\ shows im W H N fmt (stored data 0 W N).
Proof.
  intros fuel alloc old sb lb F t W H M N fmt h data HA BF HF Hf Hsb HK HD EF HW HH HM HL Hn. destruct (kind_N _ _ _ HK) as (HN & Ht & N1 & N4).
  assert (LF : zlen F = zlen h + zlen data) by (rewrite EF, zlen_app; reflexivity). assert (0 <= zlen h) by auto. assert (0 < W * N * H) by (repeat apply Z.mul_pos_pos; lia). destruct (pnm_area W H N) as (W2 & H2); try lia.
  destruct (head_ok F HF BF t W H M h data fuel sb HD Ht N1 N4) with (alloc := alloc) (old := old) (lb := lb) (e := @nil Z) as (sb' & _ & T & ->); auto; try lia.
  rewrite (pixels_eq _ _ _ _ _ _ _ _ _ _ N fmt) by auto. unfold ilReadBinaryPpm. destruct (alloc (W * N * H)) as [blk|] eqn:EA; [|congruence]. assert (LB := HA _ _ EA).
  rewrite (init_low alloc old W H N 0 blk) by (auto; lia). cbn [bind negb]. cbv iota. replace (W * H * N) with (W * N * H) by ring. rewrite (u32_small (W * N * H)) by lia. unfold low_img at 1. cbn [Data].
  rewrite read_in by (auto; lia). cbn [bind]. rewrite Z.eqb_refl. cbn [negb bind]. replace (255 <? M) with false by lia. eexists. split; [reflexivity|].
  assert (ES : slice F (zlen h) (W * N * H) = slice data 0 (W * N * H)). { destruct T as (_ & T). unfold slice. rewrite T. reflexivity. }
  rewrite ES. exact (stored_shows data 0 W H N fmt (mkPal None 0 IL_PAL_NONE) HW HH ltac:(lia) ltac:(lia) ltac:(lia) ltac:(lia)).
Qed.
Print Assumptions C98_binary.

(** Finding: a file that ends early makes the loader use the image it has just released. *)
Theorem C98_short_refuted : forall fuel alloc old sb lb F t W H M N fmt h data, allocator_ok alloc -> bytes F -> zlen F < 2147483648 -> (length F < fuel)%nat -> zlen sb = 180 ->
  pnm_kind t N fmt -> pnm_head t W H M h -> F = h ++ data -> 1 <= W -> 1 <= H -> 1 <= M < 2147483648 -> W * N * H < 2147483648 -> zlen data < W * N * H -> alloc (W * N * H) <> None ->
  iLoadPnmInternal fuel alloc old sb lb (Rd F 0 (zlen F) []) = UB.
Proof.
  intros fuel alloc old sb lb F t W H M N fmt h data HA BF HF Hf Hsb HK HD EF HW HH HM HS HL Hn. destruct (kind_N _ _ _ HK) as (HN & Ht & N1 & N4).
  assert (LF : zlen F = zlen h + zlen data) by (rewrite EF, zlen_app; reflexivity). assert (0 <= zlen data) by auto. destruct (pnm_area W H N) as (W2 & H2); try lia.
  assert (0 < zlen h). { destruct HD as (h0 & g & m & c & -> & _). rewrite !zlen_app. change (zlen [c]) with 1. assert (0 <= zlen h0) by auto. assert (0 <= zlen g) by auto. assert (0 <= zlen m) by auto. lia. }
  destruct (head_ok F HF BF t W H M h data fuel sb HD Ht N1 N4) with (alloc := alloc) (old := old) (lb := lb) (e := @nil Z) as (sb' & _ & T & ->); auto; try lia.
  rewrite (pixels_eq _ _ _ _ _ _ _ _ _ _ N fmt) by auto. unfold ilReadBinaryPpm. destruct (alloc (W * N * H)) as [blk|] eqn:EA; [|congruence]. assert (LB := HA _ _ EA).
  rewrite (init_low alloc old W H N 0 blk) by (auto; lia). cbn [bind negb]. cbv iota. replace (W * H * N) with (W * N * H) by ring. rewrite (u32_small (W * N * H)) by lia. unfold low_img at 1. cbn [Data].
  destruct (read_short F (zlen h) [] blk (W * N * H)) as (c & b' & r & -> & Hc); try lia. cbn [bind]. replace (c =? W * N * H) with false by lia. reflexivity.
Qed.
Print Assumptions C98_short_refuted.

(** Finding: with a largest value above 255 half of the samples are read, and the image claims two bytes for each
    channel although it has room for one. *)
Theorem C98_wide_refuted : forall fuel alloc old sb lb F t W H M N fmt h data, allocator_ok alloc -> bytes F -> zlen F < 2147483648 -> (length F < fuel)%nat -> zlen sb = 180 ->
  pnm_kind t N fmt -> pnm_head t W H M h -> F = h ++ data -> 1 <= W -> 1 <= H -> 256 <= M < 65536 -> 2 * (W * N * H) <= zlen data -> alloc (W * N * H) <> None ->
  exists im, iLoadPnmInternal fuel alloc old sb lb (Rd F 0 (zlen F) []) = Ok (true, im, []) /\ Type_ im = IL_UNSIGNED_SHORT /\ Bpc im = 1 /\ SizeOfData im = W * N * H.
Proof.
  intros fuel alloc old sb lb F t W H M N fmt h data HA BF HF Hf Hsb HK HD EF HW HH HM HL Hn. destruct (kind_N _ _ _ HK) as (HN & Ht & N1 & N4).
  assert (LF : zlen F = zlen h + zlen data) by (rewrite EF, zlen_app; reflexivity). assert (0 <= zlen h) by auto. assert (0 < W * N * H) by (repeat apply Z.mul_pos_pos; lia). destruct (pnm_area W H N) as (W2 & H2); try lia.
  destruct (head_ok F HF BF t W H M h data fuel sb HD Ht N1 N4) with (alloc := alloc) (old := old) (lb := lb) (e := @nil Z) as (sb' & _ & T & ->); auto; try lia.
  rewrite (pixels_eq _ _ _ _ _ _ _ _ _ _ N fmt) by auto. unfold ilReadBinaryPpm. destruct (alloc (W * N * H)) as [blk|] eqn:EA; [|congruence]. assert (LB := HA _ _ EA).
  rewrite (init_low alloc old W H N 0 blk) by (auto; lia). cbn [bind negb]. cbv iota. replace (W * H * N) with (W * N * H) by ring. rewrite (u32_small (W * N * H)) by lia. unfold low_img at 1. cbn [Data].
  rewrite read_in by (auto; lia). cbn [bind]. rewrite Z.eqb_refl. cbn [negb bind]. replace (255 <? M) with true by lia. eexists. split; [reflexivity|]. split; [reflexivity|]. split; reflexivity.
Qed.
Print Assumptions C98_wide_refuted.

(** C98b: a file with a size of zero is refused and the image stays as it was. *)
Theorem C98_empty_refused : forall fuel alloc old sb lb F t W H h g rest, bytes F -> zlen F < 2147483648 -> (length F < fuel)%nat -> zlen sb = 180 -> 49 <= t <= 54 ->
  pnm_start t W H h -> 0 <= W < 2147483648 -> 0 <= H < 2147483648 -> W = 0 \/ H = 0 -> blank g -> g <> [] -> rest <> [] -> hd 0 rest <> 32 -> F = h ++ g ++ rest ->
  iLoadPnmInternal fuel alloc old sb lb (Rd F 0 (zlen F) []) = Ok (false, old, [IL_INVALID_FILE_HEADER]).
Proof.
  intros fuel alloc old sb lb F t W H h g rest BF HF Hf Hsb Ht HS HW HH HZ HG NG NR HR EF.
  destruct (start_ok F HF BF t W H h g rest fuel sb) with (alloc := alloc) (old := old) (lb := lb) (e := @nil Z) as (sb' & p' & g' & _ & _ & _ & _ & ->); auto. destruct (W =? 0) eqn:E; [reflexivity|]. replace (H =? 0) with true by lia. reflexivity.
Qed.
Print Assumptions C98_empty_refused.
(** C98c: a file whose first word is not P1 .. P7 is refused and the image stays as it was. *)
Theorem C98_magic_refused : forall fuel alloc old sb lb F w g rest, bytes F -> zlen F < 2147483648 -> (length F < fuel)%nat -> zlen sb = 180 ->
  F = w ++ g ++ rest -> Forall letter w -> 1 < zlen w < 180 -> geti w 0 <> 80 \/ ~ (49 <= geti w 1 <= 55) -> blank g -> g <> [] -> rest <> [] -> hd 0 rest <> 32 ->
  iLoadPnmInternal fuel alloc old sb lb (Rd F 0 (zlen F) []) = Ok (false, old, [IL_INVALID_FILE_HEADER]).
Proof.
  intros fuel alloc old sb lb F w g rest BF HF Hf Hsb EF HW LW HM HG NG NR HR.
  destruct (word_step F HF BF [] w g rest fuel sb 0 []) as (sb1 & p1 & g1' & E1 & H1 & _); auto; try lia.
  { constructor. } { eapply Forall_impl; [|exact HW]. intros c Hc. left. exact Hc. } { intros ->. cbn in LW. lia. } { cbn [app]. rewrite <- EF. apply tail_start. } { cbn [app]. rewrite EF, !app_length in Hf. rewrite app_length. lia. }
  unfold iLoadPnmInternal. rewrite E1. cbn [bind negb]. destruct H1 as (LB & t & ES). rewrite rd_ok by lia. cbn [bind]. rewrite ES. rewrite geti_app by lia. replace (0 <? zlen w) with true by lia. destruct (geti w 0 =? 80) eqn:E0; cbn [negb]; [|reflexivity].
  rewrite rd_ok by (rewrite <- ES; lia). cbn [bind]. rewrite geti_app by lia. replace (1 <? zlen w) with true by lia. replace (geti w 1 =? 55) with false by lia. replace ((49 <=? geti w 1) && (geti w 1 <=? 54)) with false by lia. reflexivity.
Qed.
Print Assumptions C98_magic_refused.
