(** C98, C99: faults of the loader, and examples. *)
From Coq Require Import ZArith List Lia Bool Permutation.
From Verif Require Import Base Slices Elem BitLemmas Enums Utility Image ImageSpec Flip Lump LumpSpec LumpProofs LumpProps CacheProps Channels Endian EndianProps ConvImgProps RleSpec RawProps Pcx PcxProofs TgaProofs BmpSpec BmpSafe BmpDecode SgiSpec SgiProofs SgiLoad SgiSave Safe Small SmallSpec SmallTex SmallTexProps SmallSunProps Pal PalSpec PalJasc Pnm PnmSpec PnmProofs PnmLoad PnmBits PnmText PnmPam PnmSave.
Import ListNotations.
Open Scope Z_scope.

Section Input.
Variables (F : list Z).
Hypothesis HF : zlen F < 2147483648.
Notation R p e := (Rd F p (zlen F) e).

(** too few values *)
Lemma ascii_short : forall vs s, text_lines vs s -> forall fuel lb sb d di p e, 0 < zlen F -> tail F p s -> Forall (fun v => 0 <= v < 256) vs -> zlen lb = 180 -> zlen sb = 180 -> 0 <= di -> di + zlen vs < zlen d -> (length s < fuel)%nat ->
  exists d' r, ascii_lines fuel false (zlen d) lb sb d di (R p e) = Ok (d', di + zlen vs, r) /\ zlen d' = zlen d.
Proof.
  intros vs s TX. induction TX as [|vs l us rest TL TX IH]; intros fuel lb sb d di p e H0 T HV Llb Lsb Hdi Hd Hf; (destruct fuel as [|fuel]; [cbn in Hf; lia|]); cbn [ascii_lines].
  - change (zlen (@nil Z)) with 0 in *. replace (di <? zlen d) with true by lia. unfold get_line. destruct (fgets_eof F HF [] (S fuel) lb 0 p e) as (r & ->); auto; try (change (zlen (@nil Z)) with 0; lia).
    cbn [bind]. change (zlen (@nil Z)) with 0. rewrite splice_nil by lia. change (0 + 0) with 0. rewrite wr_ok by lia. cbn [bind]. change IL_EOF with (-1). cbn [Z.eqb Pos.eqb andb negb]. exists d, r. split; [do 3 f_equal; lia|reflexivity].
  - apply Forall_app in HV. destruct HV as (HV1 & HV2). rewrite zlen_app in Hd. assert (0 <= zlen vs) by auto. assert (0 <= zlen us) by auto. destruct (line_plain _ _ TL) as (PL & LL). rewrite app_length in Hf. cbn [length] in Hf.
    replace (di <? zlen d) with true by lia. destruct (get_line_ok F HF l (S fuel) lb p e rest) as (lb' & -> & HB & T'); auto; [lia|]. cbn [bind negb].
    destruct (line_values F vs l lb' sb d di) as (sb' & c & L' & -> & EC); auto; try lia. cbn [bind]. rewrite zlen_app. destruct (c =? 35).
    + subst vs. change (zlen (@nil Z)) with 0 in *. rewrite Z.add_0_l. apply IH; auto; try lia; try apply HB.
    + rewrite EC. cbn [bind]. assert (LS : zlen (splice d di vs) = zlen d) by (apply zlen_splice; lia). rewrite <- LS. destruct (IH fuel lb' sb' (splice d di vs) (di + zlen vs) (p + zlen l + 1) e) as (d' & r & -> & LD); auto; try lia; try apply HB. exists d', r. split; [do 3 f_equal; lia|lia].
Qed.
(** a line of 180 characters *)
Lemma fgets_long : forall l s fuel lb k p e, Forall plain_char l -> tail F p (l ++ s) -> 0 < zlen F -> 0 <= k -> k + zlen l = 180 -> zlen lb = 180 -> (length l < fuel)%nat ->
  exists c lb' r, fgets_chars fuel lb k (R p e) = Ok (c, 180, lb', r) /\ zlen lb' = 180.
Proof.
  induction l as [|a l IH]; intros s fuel lb k p e HP T H0 Hk HL Llb Hf; (destruct fuel as [|fuel]; [cbn in Hf; lia|]); cbn [fgets_chars].
  - cbn [app] in T. change (zlen (@nil Z)) with 0 in HL. assert (k = 180) by lia. subst k. assert (G : exists c r, iGetcLump (R p e) = Ok (c, r)).
    { assert (P := T). destruct P as (P & _). rewrite (C21_getc F) by (try (split; [reflexivity|cbn [rpos Lump.rsize]; split; [reflexivity|lia]]); lia). destruct (_ <? _); eexists; eexists; reflexivity. }
    destruct G as (c & r & ->). cbn [bind]. unfold MAX_BUFFER. rewrite Z.ltb_irrefl, andb_false_r. exists c, lb, r. auto.
  - cbn [app] in T. destruct (getc_tail F HF _ _ _ e T) as (-> & T' & _). cbn [bind]. inversion HP as [|? ? (HA & HB) HP']; subst. rewrite zlen_cons in *. assert (0 <= zlen l) by auto. change IL_EOF with (-1). unfold MAX_BUFFER. replace (negb (a =? 0) && negb (a =? 10) && negb (a =? -1) && (k <? 180)) with true by lia.
    rewrite wr_ok by lia. cbn [bind]. cbn [length] in Hf. apply (IH s fuel (upd lb k a) (k + 1) (p + 1) e); auto; try lia. rewrite zlen_upd by lia. auto.
Qed.
Lemma get_line_long : forall l s fuel lb p e, Forall plain_char l -> zlen l = 180 -> tail F p (l ++ s) -> zlen lb = 180 -> (length l < fuel)%nat -> get_line fuel lb (R p e) = UB.
Proof.
  intros l s fuel lb p e HP HL T Llb Hf. assert (LT := tail_len _ _ _ T). rewrite zlen_app in LT. assert (0 <= zlen s) by auto. assert (0 <= p) by (destruct T; lia). unfold get_line. destruct (fgets_long l s fuel lb 0 p e) as (c & lb' & r & -> & L'); auto; try lia. cbn [bind]. unfold wr. unfold inb. rewrite L'. reflexivity.
Qed.
(** a line of nothing but separators, when the rest of the buffer has no letters *)
Lemma skip_line_off : forall fuel (go : Z -> bool) lb li, (forall i, 0 <= i < zlen lb -> go (geti lb i) = true) -> 0 <= li <= zlen lb -> zlen lb - li < Z.of_nat fuel -> skip_line fuel go lb li = UB.
Proof.
  induction fuel as [|fuel IH]; intros go lb li HG Hli Hf; [lia|]. cbn [skip_line]. destruct (Z.eq_dec li (zlen lb)) as [->|].
  - unfold rd, inb. rewrite (proj2 (Z.leb_gt (zlen lb + 1) (zlen lb))) by lia. rewrite ?andb_false_r. reflexivity.
  - rewrite rd_ok by lia. cbn [bind]. rewrite HG by lia. apply IH; auto; lia.
Qed.
End Input.

Lemma read_text_eq : forall fuel alloc old F W H N sb lb M p blk, allocator_ok alloc -> 1 <= W -> 1 <= H -> 1 <= N < 256 -> 1 <= M <= 255 -> W * N * H < 2147483648 -> alloc (W * N * H) = Some blk ->
  ilReadAsciiPpm fuel alloc old W H M N sb lb (Rd F p (zlen F) []) =
  let! (d, di, _) := ascii_lines fuel false (zlen blk) lb sb blk 0 (Rd F p (zlen F) []) in
  if di <? zlen blk then Ok (false, top_img W H N 0 d (mkPal None 0 IL_PAL_NONE), [IL_ILLEGAL_FILE_VALUE]) else Ok (true, top_img W H N 0 d (mkPal None 0 IL_PAL_NONE), []).
Proof.
  intros fuel alloc old F W H N sb lb M p blk HA HW HH HN HM HS EA. unfold ilReadAsciiPpm. replace (255 <? M) with false by lia. cbv zeta. assert (LB := HA _ _ EA). assert (0 < W * N * H) by (repeat apply Z.mul_pos_pos; lia).
  rewrite (init_low alloc old W H N 0 blk) by (auto; lia). cbn [bind negb]. cbv iota. rewrite low_top. unfold top_img at 1. cbn [Data]. replace (W * H * N) with (W * N * H) by ring. rewrite (u32_small (W * N * H)) by lia. replace (i32 (W * N * H)) with (W * N * H) by (unfold i32; change (2 ^ 31) with 2147483648; change (2 ^ 32) with 4294967296; lia). rewrite LB. reflexivity.
Qed.
Lemma text_start : forall fuel alloc old sb lb F t W H M N fmt h data, bytes F -> zlen F < 2147483648 -> (length F < fuel)%nat -> zlen sb = 180 ->
  text_kind t N fmt -> pnm_head t W H M h -> F = h ++ data -> 1 <= W -> 1 <= H -> 1 <= M <= 255 -> W * N * H < 2147483648 ->
  exists sb', zlen sb' = 180 /\ tail F (zlen h) data /\ iLoadPnmInternal fuel alloc old sb lb (Rd F 0 (zlen F) []) =
    let! (ok, im, e) := ilReadAsciiPpm fuel alloc old W H M N sb' lb (Rd F (zlen h) (zlen F) []) in
    if ok then Ok (true, set_Format (with_Origin im IL_ORIGIN_UPPER_LEFT) fmt, []) else Ok (false, set_Format im (ilGetFormatBpp (Bpp im)), e ++ [IL_FILE_READ_ERROR]).
Proof.
  intros fuel alloc old sb lb F t W H M N fmt h data BF HF Hf Hsb HK HD EF HW HH HM HS.
  assert (HN : (N = 1 \/ N = 3) /\ 49 <= t <= 54 /\ t <> 49 /\ t <> 52) by (destruct HK as [(-> & -> & ->)|(-> & -> & ->)]; lia). destruct HN as (HN & Ht & N1 & N4). destruct (pnm_area W H N) as (W2 & H2); try lia.
  destruct (head_ok F HF BF t W H M h data fuel sb HD Ht N1 N4) with (alloc := alloc) (old := old) (lb := lb) (e := @nil Z) as (sb' & Lsb & T & E); auto; try lia. exists sb'. split; [auto|]. split; [auto|]. rewrite E.
  destruct HK as [(-> & -> & ->)|(-> & -> & ->)]; unfold pnm_pixels; cbn [Z.eqb Pos.eqb orb]; [replace (M <? 256) with true by lia|]; destruct (ilReadAsciiPpm _ _ _ _ _ _ _ _ _ _) as [[[ok im] e]| |]; cbn [bind]; auto; destruct ok; cbn [negb bind]; auto; replace (255 <? M) with false by lia; reflexivity.
Qed.

(** C98j: a map of text with fewer values than its sizes ask for is refused, if its last line is ended. *)
Theorem C98_text_short_refused : forall fuel alloc old sb lb F t W H M N fmt h vs data, allocator_ok alloc -> bytes F -> zlen F < 2147483648 -> (length F < fuel)%nat -> zlen sb = 180 -> zlen lb = 180 ->
  text_kind t N fmt -> pnm_head t W H M h -> F = h ++ data -> 1 <= W -> 1 <= H -> 1 <= M <= 255 -> text_lines vs data -> zlen vs < W * N * H -> W * N * H < 2147483648 -> Forall (fun v => 0 <= v < 256) vs -> alloc (W * N * H) <> None ->
  exists im, iLoadPnmInternal fuel alloc old sb lb (Rd F 0 (zlen F) []) = Ok (false, im, [IL_ILLEGAL_FILE_VALUE; IL_FILE_READ_ERROR]).
Proof.
  intros fuel alloc old sb lb F t W H M N fmt h vs data HA BF HF Hf Hsb Hlb HK HD EF HW HH HM TX LV HS HV Hn.
  destruct (text_start fuel alloc old sb lb F t W H M N fmt h data) as (sb' & Lsb & T & ->); auto. destruct (alloc (W * N * H)) as [blk|] eqn:EA; [|congruence]. assert (LB := HA _ _ EA).
  assert (HN : 1 <= N < 256) by (destruct HK as [(-> & -> & ->)|(-> & -> & ->)]; lia). rewrite (read_text_eq fuel alloc old F W H N sb' lb M (zlen h) blk) by auto.
  assert (F0 : 0 < zlen F). { rewrite EF, zlen_app. assert (0 <= zlen data) by auto. destruct HD as (h0 & g & m & c & -> & _). rewrite !zlen_app. change (zlen [c]) with 1. assert (0 <= zlen h0) by auto. assert (0 <= zlen g) by auto. assert (0 <= zlen m) by auto. lia. }
  assert (LD : (length data < fuel)%nat). { rewrite EF, app_length in Hf. lia. }
  destruct (ascii_short F HF vs data TX fuel lb sb' blk 0 (zlen h) []) as (d' & r & E & L'); auto; try lia. rewrite E. cbn [bind]. replace (0 + zlen vs <? zlen blk) with true by lia. cbn [bind]. eexists. reflexivity.
Qed.
Print Assumptions C98_text_short_refused.

(** C98k (refuted): a map of text whose first line of values has 180 characters or more makes the loader write
    behind its buffer. *)
Theorem C98_long_line_refuted : forall fuel alloc old sb lb F t W H M N fmt h l rest, allocator_ok alloc -> bytes F -> zlen F < 2147483648 -> (length F < fuel)%nat -> zlen sb = 180 -> zlen lb = 180 ->
  text_kind t N fmt -> pnm_head t W H M h -> F = h ++ l ++ rest -> 1 <= W -> 1 <= H -> 1 <= M <= 255 -> zlen l = 180 -> Forall (fun x => 1 <= x < 256 /\ x <> 10) l -> W * N * H < 2147483648 -> alloc (W * N * H) <> None ->
  iLoadPnmInternal fuel alloc old sb lb (Rd F 0 (zlen F) []) = UB.
Proof.
  intros fuel alloc old sb lb F t W H M N fmt h l rest HA BF HF Hf Hsb Hlb HK HD EF HW HH HM LL HL HS Hn.
  destruct (text_start fuel alloc old sb lb F t W H M N fmt h (l ++ rest)) as (sb' & Lsb & T & ->); auto. destruct (alloc (W * N * H)) as [blk|] eqn:EA; [|congruence]. assert (LB := HA _ _ EA).
  assert (HN : 1 <= N < 256) by (destruct HK as [(-> & -> & ->)|(-> & -> & ->)]; lia). rewrite (read_text_eq fuel alloc old F W H N sb' lb M (zlen h) blk) by auto.
  assert (0 < W * N * H) by (repeat apply Z.mul_pos_pos; lia). assert (LF : (length l < fuel)%nat) by (rewrite EF, !app_length in Hf; lia).
  destruct fuel as [|fuel]; [lia|]. cbn [ascii_lines]. replace (0 <? zlen blk) with true by lia. rewrite (get_line_long F HF l rest) by auto. reflexivity.
Qed.
Print Assumptions C98_long_line_refuted.

(** C98l (refuted): a first line of values with nothing but separators (a single space, say, or the carriage return
    of an empty line) makes the loader read on behind the line, and behind its buffer when the buffer is new. *)
Theorem C98_blank_line_refuted : forall fuel alloc old sb F t W H M N fmt h l rest, allocator_ok alloc -> bytes F -> zlen F < 2147483648 -> (length F < fuel)%nat -> zlen sb = 180 ->
  text_kind t N fmt -> pnm_head t W H M h -> F = h ++ l ++ 10 :: rest -> 1 <= W -> 1 <= H -> 1 <= M <= 255 -> 0 < zlen l < 180 -> Forall separator l -> geti l 0 <> 35 -> W * N * H < 2147483648 -> alloc (W * N * H) <> None ->
  iLoadPnmInternal fuel alloc old sb (repeat 0 180) (Rd F 0 (zlen F) []) = UB.
Proof.
  intros fuel alloc old sb F t W H M N fmt h l rest HA BF HF Hf Hsb HK HD EF HW HH HM LL HL N35 HS Hn. set (lb := repeat 0 180) in *. assert (Llb : zlen lb = 180) by reflexivity.
  destruct (text_start fuel alloc old sb lb F t W H M N fmt h (l ++ 10 :: rest)) as (sb' & Lsb & T & ->); auto. destruct (alloc (W * N * H)) as [blk|] eqn:EA; [|congruence]. assert (LB := HA _ _ EA).
  assert (HN : 1 <= N < 256) by (destruct HK as [(-> & -> & ->)|(-> & -> & ->)]; lia). rewrite (read_text_eq fuel alloc old F W H N sb' lb M (zlen h) blk) by auto.
  assert (0 < W * N * H) by (repeat apply Z.mul_pos_pos; lia). assert (LF : (length l < fuel)%nat) by (rewrite EF, !app_length in Hf; lia).
  assert (PL : Forall plain_char l) by (eapply Forall_impl; [|exact HL]; intros c (H1 & H2 & _); split; auto).
  destruct fuel as [|fuel]; [lia|]. cbn [ascii_lines]. replace (0 <? zlen blk) with true by lia. unfold get_line. rewrite (fgets_ok F HF l (S fuel) lb 0 (zlen h) [] 10 rest) by (auto; lia). cbn [bind]. rewrite Z.add_0_l. assert (LS : zlen (splice lb 0 l) = 180) by (rewrite zlen_splice by lia; auto). rewrite wr_ok by lia. cbn [bind]. change IL_EOF with (-1). cbn [Z.eqb Pos.eqb andb negb].
  set (lb' := upd (splice lb 0 l) (zlen l) 0). assert (L' : zlen lb' = 180) by (unfold lb'; rewrite zlen_upd by lia; auto).
  assert (G0 : forall i, 0 <= i < 180 -> geti lb' i = if i <? zlen l then geti l i else 0).
  { intros i Hi. unfold lb'. rewrite geti_upd by lia. destruct (i =? zlen l) eqn:E; [replace (i <? zlen l) with false by lia; reflexivity|]. rewrite geti_splice by lia. replace (0 <=? i) with true by lia. cbn [andb]. rewrite Z.add_0_l, Z.sub_0_r. destruct (i <? zlen l); [reflexivity|]. unfold geti, lb. apply nth_repeat. }
  assert (GS : forall i, 0 <= i < zlen l -> separator (geti l i)). { intros i Hi. rewrite Forall_forall in HL. apply HL. unfold geti. apply nth_In. unfold zlen in Hi. lia. }
  rewrite rd_ok by lia. cbn [bind]. rewrite G0 by lia. replace (0 <? zlen l) with true by lia. replace (geti l 0 =? 35) with false by lia.
  destruct (GS 0 ltac:(lia)) as (S1 & S2 & _). cbn [line_nums]. rewrite rd_ok by lia. cbn [bind]. rewrite G0 by lia. replace (0 <? zlen l) with true by lia. replace ((geti l 0 =? 0) || (geti l 0 =? 10)) with false by lia.
  rewrite skip_line_off; [reflexivity| |lia|unfold zlen; lia]. intros i Hi. rewrite G0 by lia. destruct (i <? zlen l) eqn:E; [|reflexivity]. rewrite alnum_false; [reflexivity|]. apply GS. lia.
Qed.
Print Assumptions C98_blank_line_refuted.

(** ** Examples *)
Definition zeros : list Z := repeat 0 180.
(** P4, 8 1, a line end and the byte 32, a picture of one line: the byte is taken for a space and the next one used *)
Definition ex_space : list Z := [80; 52; 10; 56; 32; 49; 10; 32; 255].
Theorem C98_bits_space_refuted : exists im, pbm_head 52 8 1 (firstn 7 ex_space) /\ (forall old, iLoadPnmInternal 20 ConvImgProps.ex_alloc old zeros zeros (Rd ex_space 0 (zlen ex_space) []) = Ok (true, im old, [])) /\
  (forall old, Data (im old) = Some (repeat 255 8)) /\ pbm_bit (skipn 7 ex_space) 8 0 0 = 0.
Proof.
  eexists (fun old => _). split; [|split; [intros old; vm_compute; reflexivity|split; [intros old; reflexivity|reflexivity]]].
  exists [80; 52; 10; 56; 32; 49], 10. split; [reflexivity|]. split; [|auto]. exists [10], [32], [56], [49]. split; [reflexivity|]. split; [repeat constructor|]. split; [discriminate|]. split; [repeat constructor|]. split; [discriminate|]. split; (split; [discriminate|]; split; [repeat constructor; lia|]; split; reflexivity).
Qed.
Print Assumptions C98_bits_space_refuted.

Definition ex_rgb : img := mkImg 1 2 1 3 1 3 (Some [1; 2; 3; 40; 50; 160]) 6 6 IL_RGB IL_UNSIGNED_BYTE IL_ORIGIN_LOWER_LEFT (mkPal None 0 IL_PAL_NONE) 0 0 0 0.
Ltac num := split; [discriminate|split; [repeat constructor; lia|split; reflexivity]].
Ltac byts := apply bytes_Forall; repeat (constructor; [lia|]); constructor.
Lemma ex_start : forall t, pnm_start t 2 1 [80; t; 10; 50; 32; 49].
Proof. intros t. exists [10], [32], [50], [49]. split; [reflexivity|]. split; [repeat constructor|]. split; [discriminate|]. split; [repeat constructor|]. split; [discriminate|]. split; num. Qed.
(** "P[t]\n2 1\n255\n" *)
Definition ex_head (t : Z) : list Z := [80; t; 10; 50; 32; 49; 10; 50; 53; 53; 10].
Lemma ex_head_ok : forall t, pnm_head t 2 1 255 (ex_head t).
Proof. intros t. exists [80; t; 10; 50; 32; 49], [10], [50; 53; 53], 10. split; [reflexivity|]. split; [apply ex_start|]. split; [eexists; exists 0%nat; split; [right; left; reflexivity|reflexivity]|]. split; [num|auto]. Qed.
Definition ex_ppm : list Z := ex_head 54 ++ [32; 2; 3; 4; 5; 6].
Example C98_binary_meets : exists im, iLoadPnmInternal 30 ConvImgProps.ex_alloc ex_rgb zeros zeros (Rd ex_ppm 0 (zlen ex_ppm) []) = Ok (true, im, []) /\ shows im 2 1 3 IL_RGB (stored [32; 2; 3; 4; 5; 6] 0 2 3).
Proof. apply (C98_binary 30 ConvImgProps.ex_alloc ex_rgb zeros zeros ex_ppm 54 2 1 255 3 IL_RGB (ex_head 54)); try reflexivity; try lia; try (cbn; lia); [apply ConvImgProps.ex_alloc_ok|byts|right; auto|apply ex_head_ok|discriminate]. Qed.
Example C98_short_meets : iLoadPnmInternal 30 ConvImgProps.ex_alloc ex_rgb zeros zeros (Rd (ex_head 54) 0 (zlen (ex_head 54)) []) = UB.
Proof. apply (C98_short_refuted 30 ConvImgProps.ex_alloc ex_rgb zeros zeros (ex_head 54) 54 2 1 255 3 IL_RGB (ex_head 54) []); try reflexivity; try lia; try (cbn; lia); [apply ConvImgProps.ex_alloc_ok|byts|right; auto|apply ex_head_ok|discriminate]. Qed.
(** a comment, then "17 200" without a line end *)
Definition ex_lines : list Z := [35; 104; 10; 49; 55; 32; 50; 48; 48].
Lemma ex_values : text [17; 200] ex_lines.
Proof.
  apply (text_line_ [] [35; 104] [17; 200] [49; 55; 32; 50; 48; 48]); [apply line_comment; [reflexivity|repeat constructor; lia]|]. apply text_last; [|discriminate].
  apply (line_numbers [] [17; 200] [49; 55; 32; 50; 48; 48]); [reflexivity|constructor|discriminate|]. apply (numbers_more 17 [49; 55] [32] [200] [50; 48; 48]); [num|repeat constructor; unfold letter; lia|discriminate|]. apply (numbers_last 200 [50; 48; 48] []); [num|constructor].
Qed.
Definition ex_pgm : list Z := ex_head 50 ++ ex_lines.
Example C98_text_meets : exists im, iLoadPnmInternal 30 ConvImgProps.ex_alloc ex_rgb zeros zeros (Rd ex_pgm 0 (zlen ex_pgm) []) = Ok (true, im, []) /\ shows im 2 1 1 IL_LUMINANCE (stored [17; 200] 0 2 1).
Proof. apply (C98_text_partial 30 ConvImgProps.ex_alloc ex_rgb zeros zeros ex_pgm 50 2 1 255 1 IL_LUMINANCE (ex_head 50) [17; 200] ex_lines); try reflexivity; try lia; try (cbn; lia); [apply ConvImgProps.ex_alloc_ok|byts|left; auto|apply ex_head_ok|apply ex_values|repeat constructor; lia|discriminate]. Qed.
Definition ex_pgm2 : list Z := ex_head 50 ++ [49; 55; 10].
Example C98_text_short_meets : exists im, iLoadPnmInternal 30 ConvImgProps.ex_alloc ex_rgb zeros zeros (Rd ex_pgm2 0 (zlen ex_pgm2) []) = Ok (false, im, [IL_ILLEGAL_FILE_VALUE; IL_FILE_READ_ERROR]).
Proof.
  apply (C98_text_short_refused 30 ConvImgProps.ex_alloc ex_rgb zeros zeros ex_pgm2 50 2 1 255 1 IL_LUMINANCE (ex_head 50) [17] [49; 55; 10]); try reflexivity; try lia; try (cbn; lia); [apply ConvImgProps.ex_alloc_ok|byts|left; auto|apply ex_head_ok| |repeat constructor; lia|discriminate].
  apply (lines_more [17] [49; 55] [] []); [|constructor]. apply (line_numbers [] [17] [49; 55]); [reflexivity|constructor|discriminate|]. apply (numbers_last 17 [49; 55] []); [num|constructor].
Qed.
Definition ex_pgm3 : list Z := ex_head 50 ++ repeat 49 180 ++ [].
Example C98_long_line_meets : iLoadPnmInternal 300 ConvImgProps.ex_alloc ex_rgb zeros zeros (Rd ex_pgm3 0 (zlen ex_pgm3) []) = UB.
Proof.
  apply (C98_long_line_refuted 300 ConvImgProps.ex_alloc ex_rgb zeros zeros ex_pgm3 50 2 1 255 1 IL_LUMINANCE (ex_head 50) (repeat 49 180) []); try reflexivity; try lia; try (cbn; lia); [apply ConvImgProps.ex_alloc_ok| |left; auto|apply ex_head_ok| |discriminate].
  - unfold ex_pgm3. rewrite app_nil_r. apply bytes_app; [byts|]. apply bytes_Forall, Forall_forall. intros x Hx. apply repeat_spec in Hx. lia.
  - apply Forall_forall. intros x Hx. apply repeat_spec in Hx. lia.
Qed.
Definition ex_pgm4 : list Z := ex_head 50 ++ [13] ++ [10; 49; 32; 50; 10].
Example C98_blank_line_meets : iLoadPnmInternal 300 ConvImgProps.ex_alloc ex_rgb zeros zeros (Rd ex_pgm4 0 (zlen ex_pgm4) []) = UB.
Proof. apply (C98_blank_line_refuted 300 ConvImgProps.ex_alloc ex_rgb zeros ex_pgm4 50 2 1 255 1 IL_LUMINANCE (ex_head 50) [13] [49; 32; 50; 10]); try reflexivity; try lia; try (cbn; lia); [apply ConvImgProps.ex_alloc_ok|byts|left; auto|apply ex_head_ok|repeat constructor; unfold letter; lia|discriminate]. Qed.
(** "P1\n2 1\n1 0\n" and "P4\n2 1\n" with the bits 10 *)
Definition ex_bits (t : Z) : list Z := [80; t; 10; 50; 32; 49; 10].
Lemma ex_bits_ok : forall t, pbm_head t 2 1 (ex_bits t).
Proof. intros t. exists [80; t; 10; 50; 32; 49], 10. split; [reflexivity|]. split; [apply ex_start|auto]. Qed.
Definition ex_pbm1 : list Z := ex_bits 49 ++ [49; 32; 48; 10].
Example C98_text_bits_meets : exists im, iLoadPnmInternal 30 ConvImgProps.ex_alloc ex_rgb zeros zeros (Rd ex_pbm1 0 (zlen ex_pbm1) []) = Ok (true, im, []) /\ shows im 2 1 1 IL_LUMINANCE (fun x t _ => 255 * geti [1; 0] (t * 2 + x)).
Proof.
  apply (C98_text_bits_partial 30 ConvImgProps.ex_alloc ex_rgb zeros zeros ex_pbm1 2 1 (ex_bits 49) [1; 0] [49; 32; 48; 10]); try reflexivity; try lia; try (cbn; lia); [apply ConvImgProps.ex_alloc_ok|byts|apply ex_bits_ok| |repeat constructor; lia|discriminate].
  apply (text_line_ [1; 0] [49; 32; 48] [] []); [|constructor]. apply (line_numbers [] [1; 0] [49; 32; 48]); [reflexivity|constructor|discriminate|]. apply (numbers_more 1 [49] [32] [0] [48]); [num|repeat constructor; unfold letter; lia|discriminate|]. apply (numbers_last 0 [48] []); [num|constructor].
Qed.
Definition ex_pbm4 : list Z := ex_bits 52 ++ [128].
Example C98_bits_meets : exists im, iLoadPnmInternal 30 ConvImgProps.ex_alloc ex_rgb zeros zeros (Rd ex_pbm4 0 (zlen ex_pbm4) []) = Ok (true, im, []) /\ shows im 2 1 1 IL_LUMINANCE (fun x t _ => 255 * pbm_bit [128] 2 x t).
Proof. apply (C98_bits_partial 30 ConvImgProps.ex_alloc ex_rgb zeros zeros ex_pbm4 2 1 (ex_bits 52) [128]); try reflexivity; try lia; try (cbn; lia); [apply ConvImgProps.ex_alloc_ok|byts|apply ex_bits_ok|discriminate]. Qed.
(** "P7\nTUPLTYPE RGB_ALPHA\nDEPTH 4\nWIDTH 1\nHEIGHT 1\nMAXVAL 255\nENDHDR\n" *)
Definition ex_pam_head (d : Z) : list Z := [80; 55] ++ [10] ++ (([84; 85; 80; 76; 84; 89; 80; 69] ++ [32] ++ [82; 71; 66; 95; 65; 76; 80; 72; 65]) ++ [10] ++ ([68; 69; 80; 84; 72] ++ [32] ++ [48 + d]) ++ [10] ++ ([87; 73; 68; 84; 72] ++ [32] ++ [49]) ++ [10] ++ ([72; 69; 73; 71; 72; 84] ++ [32] ++ [49]) ++ [10] ++ ([77; 65; 88; 86; 65; 76] ++ [32] ++ [50; 53; 53]) ++ [10] ++ [69; 78; 68; 72; 68; 82]) ++ [10].
Lemma ex_pam_head_ok : forall d, 0 <= d < 10 -> pam_head 1 1 d 255 [82; 71; 66; 95; 65; 76; 80; 72; 65] (ex_pam_head d).
Proof.
  intros d Hd. exists [10], [FTuple [82; 71; 66; 95; 65; 76; 80; 72; 65]; FDepth d; FWidth 1; FHeight 1; FMax 255]. eexists. exists 10. split; [reflexivity|]. split; [repeat constructor|]. split; [discriminate|]. split; [|split; [|auto]].
  - assert (B10 : blank [10]) by repeat constructor. assert (B32 : blank [32]) by repeat constructor.
    apply fields_more; [apply ft_tuple; [discriminate|reflexivity|repeat constructor; unfold upper; lia|auto|discriminate]|auto|discriminate|].
    apply fields_more; [apply ft_depth; [split; [discriminate|split; [repeat constructor; lia|split; [unfold value; cbn [fold_left]; lia|reflexivity]]]|lia|auto|discriminate]|auto|discriminate|].
    apply fields_more; [apply ft_width; [num|lia|auto|discriminate]|auto|discriminate|].
    apply fields_more; [apply ft_height; [num|lia|auto|discriminate]|auto|discriminate|].
    apply fields_more; [apply ft_max; [num|lia|auto|discriminate]|auto|discriminate|]. constructor.
  - change [FTuple [82; 71; 66; 95; 65; 76; 80; 72; 65]; FDepth d; FWidth 1; FHeight 1; FMax 255] with ([FTuple [82; 71; 66; 95; 65; 76; 80; 72; 65]; FDepth d] ++ [FWidth 1; FHeight 1; FMax 255]). eapply perm_trans; [apply Permutation_app_comm|]. cbn [app]. do 2 apply perm_skip. eapply perm_trans; [apply perm_skip, perm_swap|]. eapply perm_trans; [apply perm_swap|]. apply Permutation_refl.
Qed.
Definition ex_pam : list Z := ex_pam_head 4 ++ [9; 8; 7; 6].
Example C98_arbitrary_meets : exists im, iLoadPnmInternal 100 ConvImgProps.ex_alloc ex_rgb zeros zeros (Rd ex_pam 0 (zlen ex_pam) []) = Ok (true, im, []) /\ shows im 1 1 4 IL_RGBA (stored [9; 8; 7; 6] 0 1 4).
Proof. apply (C98_arbitrary_partial 100 ConvImgProps.ex_alloc ex_rgb zeros zeros ex_pam 1 1 4 [82; 71; 66; 95; 65; 76; 80; 72; 65] IL_RGBA (ex_pam_head 4) [9; 8; 7; 6]); try reflexivity; try lia; try (cbn; lia); [apply ConvImgProps.ex_alloc_ok|byts|apply ex_pam_head_ok; lia|unfold tuple_kind; auto 6|discriminate]. Qed.
Definition ex_pam2 : list Z := ex_pam_head 3 ++ [9; 8; 7; 6].
Example C98_arbitrary_refused_meets : iLoadPnmInternal 100 ConvImgProps.ex_alloc ex_rgb zeros zeros (Rd ex_pam2 0 (zlen ex_pam2) []) = Ok (false, ex_rgb, [IL_INVALID_FILE_HEADER]).
Proof.
  apply (C98_arbitrary_refused 100 ConvImgProps.ex_alloc ex_rgb zeros zeros ex_pam2 1 1 3 255 [82; 71; 66; 95; 65; 76; 80; 72; 65] (ex_pam_head 3) [9; 8; 7; 6]); try reflexivity; try (cbn; lia); [byts|apply ex_pam_head_ok; lia|].
  right. right. right. intros fmt [(E & _)|[(E & _)|[(E & _)|(_ & E & _)]]]; discriminate.
Qed.
Definition ex_pam3 : list Z := ex_pam_head 4 ++ [9; 8; 7].
Example C98_arbitrary_short_meets : iLoadPnmInternal 100 ConvImgProps.ex_alloc ex_rgb zeros zeros (Rd ex_pam3 0 (zlen ex_pam3) []) = UB.
Proof. apply (C98_arbitrary_short_refuted 100 ConvImgProps.ex_alloc ex_rgb zeros zeros ex_pam3 1 1 4 [82; 71; 66; 95; 65; 76; 80; 72; 65] IL_RGBA (ex_pam_head 4) [9; 8; 7]); try reflexivity; try lia; try (cbn; lia); [apply ConvImgProps.ex_alloc_ok|byts|apply ex_pam_head_ok; lia|unfold tuple_kind; auto 6|discriminate]. Qed.
Example C99_roundtrip_meets : forall Binary, exists p F, (forall k, iSavePnmInternal ConvImgProps.ex_alloc Binary (Ok (Some ex_rgb)) ex_rgb k = Ok (true, p k)) /\ file_of (p Done) = Some F /\
  forall fuel alloc' old sb lb, allocator_ok alloc' -> zlen sb = 180 -> zlen lb = 180 -> (length F < fuel)%nat -> alloc' 6 <> None ->
  exists im', iLoadPnmInternal fuel alloc' old sb lb (Rd F 0 (zlen F) []) = Ok (true, im', []) /\ shows im' 1 2 3 IL_RGB (fun x t c => picture ex_rgb [1; 2; 3; 40; 50; 160] x t 0 c).
Proof.
  intros Binary. destruct (C99_roundtrip ConvImgProps.ex_alloc Binary ex_rgb ex_rgb [1; 2; 3; 40; 50; 160]) as (p & F & H1 & H2 & _ & _ & H3); try reflexivity; [apply ConvImgProps.ex_alloc_ok| |byts|repeat split|discriminate|exists p, F; auto].
  unfold img_ok. cbn. repeat split; auto; lia.
Qed.

(** C98m: a file is taken for a portable anymap exactly if it starts with P1 .. P7, and the input stays where it is. *)
Theorem C98_valid : forall hd0 F p, zlen hd0 = 2 -> zlen F < 2147483648 -> 0 <= p -> p + 2 <= zlen F ->
  exists b, iIsValidPnm hd0 (Rd F p (zlen F) []) = Ok (b, Rd F p (zlen F) []) /\ (b = true <-> geti F p = 80 /\ 49 <= geti F (p + 1) <= 55).
Proof.
  intros hd0 F p H0 HF Hp HL. unfold iIsValidPnm. rewrite read_in by lia. cbn [bind]. unfold iSeekRLump, seek_lump. cbn [rpos Lump.rsize rlump rerr]. change (IL_SEEK_CUR =? IL_SEEK_SET) with false. change (IL_SEEK_CUR =? IL_SEEK_CUR) with true. cbv iota.
  rewrite u32_small by lia. replace (zlen F <? p + 2 + - (2)) with false by lia. cbn [bind Z.eqb Pos.eqb negb]. assert (SL : zlen (slice F p 2) = 2) by (apply zlen_slice; lia). rewrite !rd_ok by lia. cbn [bind]. rewrite !geti_slice by lia. rewrite Z.add_0_r. replace (p + 2 + - (2)) with p by lia. eexists. split; [reflexivity|]. lia.
Qed.
Print Assumptions C98_valid.
Example C98_valid_meets : exists b, iIsValidPnm [0; 0] (Rd ex_ppm 0 (zlen ex_ppm) []) = Ok (b, Rd ex_ppm 0 (zlen ex_ppm) []) /\ b = true.
Proof. destruct (C98_valid [0; 0] ex_ppm 0) as (b & E & H); try reflexivity; try lia; [cbn; lia|]. exists b. split; [exact E|]. apply H. split; [reflexivity|]. change (49 <= 54 <= 55). lia. Qed.
