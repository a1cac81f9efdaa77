(** C98: portable arbitrary maps. *)
From Coq Require Import ZArith List Lia Bool Permutation.
From Verif Require Import Base Slices Elem BitLemmas Enums Utility Image ImageSpec Flip Lump LumpSpec LumpProofs LumpProps CacheProps Channels Endian EndianProps ConvImgProps RleSpec RawProps Pcx PcxProofs TgaProofs BmpSpec BmpSafe BmpDecode SgiSpec SgiProofs SgiLoad Safe Small SmallSpec SmallTex SmallTexProps SmallSunProps Pal PalSpec PalJasc Pnm PnmSpec PnmProofs PnmLoad.
Import ListNotations.
Open Scope Z_scope.

Definition set_field (h : pam) (f : pam_field) : pam :=
  match f with
  | FWidth v => mkPam v (AHeight h) (ADepth h) (AMax h) (ATuple h)
  | FHeight v => mkPam (AWidth h) v (ADepth h) (AMax h) (ATuple h)
  | FDepth v => mkPam (AWidth h) (AHeight h) v (AMax h) (ATuple h)
  | FMax v => mkPam (AWidth h) (AHeight h) (ADepth h) v (ATuple h)
  | FTuple w => mkPam (AWidth h) (AHeight h) (ADepth h) (AMax h) (DecodeTupleType w)
  end.
Lemma field_split : forall f l, field_text f l -> exists k g w, l = k ++ g ++ w /\ Forall word_char k /\ k <> [] /\ zlen k < 180 /\ hd 0 k <> 32 /\ blank g /\ g <> [] /\ Forall word_char w /\ w <> [] /\ zlen w < 180 /\
  forall fuel (h : pam) sb sb' (r : reader), holds sb k -> holds sb' w ->
    (let! key := cword sb in
      if begins s_ENDHDR key then Ok (Some h, r, []) else
      if begins s_WIDTH key then let! v := word_num sb' in pam_fields fuel (mkPam v (AHeight h) (ADepth h) (AMax h) (ATuple h)) sb' r
      else if begins s_HEIGHT key then let! v := word_num sb' in pam_fields fuel (mkPam (AWidth h) v (ADepth h) (AMax h) (ATuple h)) sb' r
      else if begins s_DEPTH key then let! v := word_num sb' in pam_fields fuel (mkPam (AWidth h) (AHeight h) v (AMax h) (ATuple h)) sb' r
      else if begins s_MAXVAL key then let! v := word_num sb' in pam_fields fuel (mkPam (AWidth h) (AHeight h) (ADepth h) v (ATuple h)) sb' r
      else if begins s_TUPLTYPE key then let! w := cword sb' in pam_fields fuel (mkPam (AWidth h) (AHeight h) (ADepth h) (AMax h) (DecodeTupleType w)) sb' r
      else pam_fields fuel h sb' r) = pam_fields fuel (set_field h f) sb' r /\ begins s_ENDHDR k = false.
Proof.
  assert (NU : forall v w, number v w -> Forall word_char w /\ w <> [] /\ zlen w < 180) by (intros v w (A & B & _ & C); split; [apply digits_word, B|auto]).
  intros f l H. destruct H as [v w g HN Hv HB NB|v w g HN Hv HB NB|v w g HN Hv HB NB|v w g HN Hv HB NB|w g NW LW HW HB NB]; eexists; exists g, w; (split; [reflexivity|]);
    (split; [repeat (constructor; [unfold word_char, letter; lia|]); constructor|]); (split; [discriminate|]); (split; [reflexivity|]); (split; [cbn; lia|]); (split; [auto|]); (split; [auto|]);
    try (destruct (NU _ _ HN) as (A & B & C); split; [auto|]; split; [auto|]; split; [auto|]; intros fuel h sb sb' r H1 H2; rewrite (holds_word sb _ H1) by (repeat (constructor; [unfold word_char, letter; lia|]); constructor); cbn [bind]; split; [|reflexivity]; cbv -[bind word_num pam_fields set_field AWidth AHeight ADepth AMax ATuple]; rewrite (word_num_ok sb' v w) by auto; reflexivity).
  assert (WC : Forall word_char w) by (eapply Forall_impl; [|exact HW]; intros c Hc; unfold upper in Hc; unfold word_char, letter; lia). split; [auto|]. split; [auto|]. split; [auto|]. intros fuel h sb sb' r H1 H2. rewrite (holds_word sb _ H1) by (repeat (constructor; [unfold word_char, letter; lia|]); constructor). cbn [bind]. split; [|reflexivity].
  rewrite (holds_word sb' w H2 WC). reflexivity.
Qed.
Lemma fields_start : forall fs l, fields_text fs l -> l <> [] /\ hd 0 l <> 32.
Proof. intros fs l H. destruct H as [|f l g fs r HF]; [split; [discriminate|cbn; lia]|]. destruct HF; (split; [discriminate|cbn; lia]). Qed.

Section Input.
Variables (F : list Z).
Hypothesis HF : zlen F < 2147483648.
Hypothesis BF : bytes F.
Notation R p e := (Rd F p (zlen F) e).

Lemma fields_ok : forall fs l, fields_text fs l -> forall fuel h sb p e b c data, blank b -> (c = 10 \/ c = 32) -> data <> [] -> hd 0 data <> 32 -> tail F p (b ++ l ++ c :: data) -> zlen sb = 180 -> (length b + length l + 1 < fuel)%nat ->
  exists r, pam_fields fuel h sb (R p e) = Ok (Some (fold_left set_field fs h), r, []) /\ exists q, r = R q e /\ tail F q data.
Proof.
  intros fs l H. induction H as [|f l g fs l2 HFT HG NG HFS IH]; intros fuel h sb p e b c data HB HC ND HD T Lsb Hf; (destruct fuel as [|fuel]; [lia|]).
  - assert (NE : iEofLump (R p e) = false). { destruct b as [|y b]; cbn [app] in T; eapply not_eof; exact T. }
    assert (BG : blank [c] /\ gap [c]). { destruct HC as [-> | ->]; (split; [repeat constructor|]); eexists; exists 0%nat; (split; [|cbn [repeat]; rewrite app_nil_r; reflexivity]); auto. } destruct BG as (BG & GG).
    destruct (word_step F HF BF b s_ENDHDR [c] data (S fuel) sb p e) as (sb' & q & g' & E & HH & _ & _ & T' & G'); auto; try discriminate; try reflexivity. { repeat (constructor; [unfold word_char, letter; lia|]); constructor. } { rewrite !app_length. cbn [length s_ENDHDR] in *. lia. }
    cbn [pam_fields]. rewrite NE, E. cbn [bind negb]. rewrite (holds_word sb' s_ENDHDR) by (auto; repeat (constructor; [unfold word_char, letter; lia|]); constructor). cbn [bind]. change (begins s_ENDHDR s_ENDHDR) with true. cbv iota. eexists. split; [reflexivity|]. exists q. split; [reflexivity|]. rewrite (G' GG) in T'. exact T'.
  - destruct (field_split f l HFT) as (k & g1 & w & -> & WK & NK & LK & K32 & HG1 & NG1 & WW & NW & LW & ST). destruct (fields_start _ _ HFS) as (NL & HL).
    rewrite <- !app_assoc in T. rewrite !app_length in Hf.
    assert (NE : iEofLump (R p e) = false). { destruct b as [|y b]; cbn [app] in T; [|eapply not_eof; exact T]. destruct k as [|y k]; [congruence|]. cbn [app] in T. eapply not_eof; exact T. }
    assert (W32 : forall s, hd 0 (w ++ s) <> 32 /\ w ++ s <> []). { intros s. destruct w as [|y w]; [congruence|]. cbn. split; [|discriminate]. inversion WW as [|? ? HY]; subst. unfold word_char, letter in HY. lia. }
    destruct (word_step F HF BF b k g1 (w ++ g ++ l2 ++ c :: data) (S fuel) sb p e) as (sb1 & q1 & g2 & E1 & H1 & B2 & L2 & T1 & _); auto; try apply W32. { rewrite !app_length. lia. }
    assert (L32 : forall s, hd 0 (l2 ++ s) <> 32 /\ l2 ++ s <> []). { intros s. destruct l2; [congruence|]. split; [exact HL|discriminate]. }
    destruct (word_step F HF BF g2 w g (l2 ++ c :: data) (S fuel) sb1 q1 e) as (sb2 & q2 & g3 & E2 & H2 & B3 & L3 & T2 & _); auto; try apply L32; try apply H1. { rewrite !app_length. lia. }
    destruct (ST fuel h sb1 sb2 (R q2 e) H1 H2) as (EK & NEH). cbn [pam_fields]. rewrite NE, E1. cbn [bind negb]. rewrite (holds_word sb1 k H1 WK) in EK |- *. cbn [bind] in EK |- *. rewrite NEH in EK |- *. rewrite E2. cbn [bind negb]. rewrite EK. cbn [fold_left].
    assert (KP : (1 <= length k)%nat) by (destruct k; [congruence|cbn; lia]). apply (IH fuel (set_field h f) sb2 q2 e g3 c data); auto; [apply H2|lia].
Qed.
End Input.

Lemma fold_fields : forall fs h W H D M w, (forall v, In (FWidth v) fs -> v = W) -> (forall v, In (FHeight v) fs -> v = H) -> (forall v, In (FDepth v) fs -> v = D) -> (forall v, In (FMax v) fs -> v = M) -> (forall v, In (FTuple v) fs -> v = w) ->
  (In (FWidth W) fs \/ AWidth h = W) -> (In (FHeight H) fs \/ AHeight h = H) -> (In (FDepth D) fs \/ ADepth h = D) -> (In (FMax M) fs \/ AMax h = M) -> (In (FTuple w) fs \/ ATuple h = DecodeTupleType w) ->
  fold_left set_field fs h = mkPam W H D M (DecodeTupleType w).
Proof.
  induction fs as [|f fs IH]; intros h W H D M w U1 U2 U3 U4 U5 H1 H2 H3 H4 H5.
  - cbn. destruct h. cbn in *. intuition congruence.
  - cbn [fold_left]. apply IH; try (intros v Hv; first [apply U1|apply U2|apply U3|apply U4|apply U5]; right; exact Hv).
    + destruct H1 as [[-> |H1]|H1]; [right; reflexivity|left; exact H1|]. right. destruct f; cbn [set_field AWidth]; auto. apply U1. left. reflexivity.
    + destruct H2 as [[-> |H2]|H2]; [right; reflexivity|left; exact H2|]. right. destruct f; cbn [set_field AHeight]; auto. apply U2. left. reflexivity.
    + destruct H3 as [[-> |H3]|H3]; [right; reflexivity|left; exact H3|]. right. destruct f; cbn [set_field ADepth]; auto. apply U3. left. reflexivity.
    + destruct H4 as [[-> |H4]|H4]; [right; reflexivity|left; exact H4|]. right. destruct f; cbn [set_field AMax]; auto. apply U4. left. reflexivity.
    + destruct H5 as [[-> |H5]|H5]; [right; reflexivity|left; exact H5|]. right. destruct f as [| | | |u]; cbn [set_field ATuple]; auto. f_equal. apply U5. left. reflexivity.
Qed.
Lemma five_fields : forall fs W H D M w, Permutation fs [FWidth W; FHeight H; FDepth D; FMax M; FTuple w] -> forall h, fold_left set_field fs h = mkPam W H D M (DecodeTupleType w).
Proof.
  intros fs W H D M w P h. assert (Q := Permutation_sym P).
  apply fold_fields; try (intros v Hv; apply (Permutation_in _ P) in Hv; cbn in Hv; intuition congruence); left; apply (Permutation_in _ Q); cbn; auto 10.
Qed.
Lemma pam_start : forall fuel alloc old sb lb F W H D M w h data, bytes F -> zlen F < 2147483648 -> (length F < fuel)%nat -> zlen sb = 180 -> pam_head W H D M w h -> F = h ++ data -> data <> [] -> hd 0 data <> 32 ->
  exists fuel' sb' p, (forall hh, exists q, pam_fields fuel' hh sb' (Rd F p (zlen F) []) = Ok (Some (mkPam W H D M (DecodeTupleType w)), Rd F q (zlen F) [], []) /\ tail F q data) /\
    iLoadPnmInternal fuel alloc old sb lb (Rd F 0 (zlen F) []) = ilReadPam fuel' alloc old sb' (Rd F p (zlen F) []).
Proof.
  intros fuel alloc old sb lb F W H D M w h data BF HF Hf Hsb (b & fs & l & c & EH & HB & NB & HFS & HP & HC) EF ND HD. destruct (fields_start _ _ HFS) as (NL & HL).
  assert (EF' : F = [80; 55] ++ b ++ l ++ c :: data) by (rewrite EF, EH, <- !app_assoc; reflexivity). assert (T := tail_start F). rewrite EF' in T at 2.
  assert (LF : (length F = 2 + length b + length l + 1 + length data)%nat) by (rewrite EF', !app_length; cbn [length]; lia).
  destruct (word_step F HF BF [] [80; 55] b (l ++ c :: data) fuel sb 0 []) as (sb1 & q1 & g1 & E1 & H1 & B1 & L1 & T1 & _); auto; try discriminate; try reflexivity. { constructor. } { repeat (constructor; [unfold word_char, letter; lia|]); constructor. } { destruct l; [congruence|discriminate]. } { destruct l; [congruence|exact HL]. } { rewrite !app_length. cbn [length]. lia. }
  exists fuel, sb1, q1. split.
  - intros hh. destruct (fields_ok F HF BF fs l HFS fuel hh sb1 q1 [] g1 c data) as (r & E & q & -> & TQ); auto; [apply H1|lia|]. exists q. split; [|exact TQ]. rewrite E. rewrite (five_fields fs W H D M w HP). reflexivity.
  - unfold iLoadPnmInternal. rewrite E1. cbn [bind negb]. destruct H1 as (LS & t & ->). rewrite !rd_ok by (change (zlen ([80; 55] ++ 0 :: t)) with (zlen (80 :: 55 :: 0 :: t)); rewrite !zlen_cons; assert (0 <= zlen t) by auto; lia). cbn [bind]. reflexivity.
Qed.

(** C98g: a portable arbitrary map with grey or colour samples, with or without alpha, and the largest value 255 is
    loaded into the samples it stores; unless the first is 32, which passes for another space. *)
Theorem C98_arbitrary_partial : forall fuel alloc old sb lb F W H D w fmt h data, allocator_ok alloc -> bytes F -> zlen F < 2147483648 -> (length F < fuel)%nat -> zlen sb = 180 ->
  pam_head W H D 255 w h -> tuple_kind w D fmt -> F = h ++ data -> hd 32 data <> 32 -> 1 <= W -> 1 <= H -> W * D * H <= zlen data -> alloc (W * D * H) <> None ->
  exists im, iLoadPnmInternal fuel alloc old sb lb (Rd F 0 (zlen F) []) = Ok (true, im, []) /\ shows im W H D fmt (stored data 0 W D).
Proof.
  intros fuel alloc old sb lb F W H D w fmt h data HA BF HF Hf Hsb HD HK EF H32 HW HH HL Hn. assert (ND : data <> []) by (intros ->; cbn in H32; lia). assert (H0 : hd 0 data <> 32) by (destruct data; [congruence|exact H32]).
  assert (KD : pam_kind (DecodeTupleType w) = Some (D, fmt) /\ 1 <= D <= 4 /\ DecodeTupleType w <> 0) by (destruct HK as [(-> & -> & ->)|[(-> & -> & ->)|[(-> & -> & ->)|(-> & -> & ->)]]]; (split; [reflexivity|split; [lia|discriminate]])). destruct KD as (KD & RD & NT).
  destruct (pam_start fuel alloc old sb lb F W H D 255 w h data BF HF Hf Hsb HD EF ND H0) as (fuel' & sb' & p & HP & ->). destruct (HP (mkPam 0 0 0 0 0)) as (q & EP & TQ). unfold ilReadPam. rewrite EP. cbn [bind]. cbv iota. cbn [AWidth AHeight ADepth AMax ATuple].
  replace ((W =? 0) || (H =? 0) || (D =? 0) || (4 <? D) || (DecodeTupleType w =? 0)) with false by lia. change (255 =? 255) with true. cbv iota. rewrite KD. rewrite Z.eqb_refl. cbn [negb].
  assert (LT := tail_len _ _ _ TQ). assert (0 <= q) by (destruct TQ; lia). assert (0 < W * D * H) by (repeat apply Z.mul_pos_pos; lia). destruct (alloc (W * D * H)) as [blk|] eqn:EA; [|congruence]. assert (LB := HA _ _ EA).
  rewrite (init_low alloc old W H D 0 blk) by (auto; lia). cbn [bind negb]. cbv iota. replace (W * H * D) with (W * D * H) by ring. rewrite (u32_small (W * D * H)), Z.mul_1_l, u32_small by lia. unfold low_img at 1. unfold set_Format, with_Origin. cbn [Data Width Height Depth Bpp Bpc Bps SizeOfData SizeOfPlane Format Type_ Origin Pal Duration CubeFlags OffX OffY].
  rewrite read_in by (auto; lia). cbn [bind]. rewrite Z.eqb_refl. cbn [negb]. eexists. split; [reflexivity|].
  assert (SL : slice F q (W * D * H) = slice data 0 (W * D * H)). { unfold slice. destruct TQ as (_ & ->). reflexivity. }
  rewrite SL. exact (stored_shows data 0 W H D fmt (mkPal None 0 IL_PAL_NONE) HW HH ltac:(lia) ltac:(lia) ltac:(lia) ltac:(lia)).
Qed.
Print Assumptions C98_arbitrary_partial.

(** C98h: other depths, sizes of zero, other largest values and black and white ones are refused. *)
Theorem C98_arbitrary_refused : forall fuel alloc old sb lb F W H D M w h data, bytes F -> zlen F < 2147483648 -> (length F < fuel)%nat -> zlen sb = 180 ->
  pam_head W H D M w h -> F = h ++ data -> hd 32 data <> 32 -> W = 0 \/ H = 0 \/ ~ (M = 255 \/ M = 65535) \/ (forall fmt, ~ tuple_kind w D fmt) ->
  iLoadPnmInternal fuel alloc old sb lb (Rd F 0 (zlen F) []) = Ok (false, old, [IL_INVALID_FILE_HEADER]).
Proof.
  intros fuel alloc old sb lb F W H D M w h data BF HF Hf Hsb HD EF H32 HX. assert (ND : data <> []) by (intros ->; cbn in H32; lia). assert (H0 : hd 0 data <> 32) by (destruct data; [congruence|exact H32]).
  destruct (pam_start fuel alloc old sb lb F W H D M w h data BF HF Hf Hsb HD EF ND H0) as (fuel' & sb' & p & HP & ->). destruct (HP (mkPam 0 0 0 0 0)) as (q & EP & TQ). unfold ilReadPam. rewrite EP. cbn [bind]. cbv iota. cbn [AWidth AHeight ADepth AMax ATuple].
  destruct ((W =? 0) || (H =? 0) || (D =? 0) || (4 <? D) || (DecodeTupleType w =? 0)) eqn:EQ; [reflexivity|].
  assert (C : W <> 0 /\ H <> 0) by lia. destruct C as (C1 & C2). destruct HX as [HX|[HX|[HX|HX]]]; [contradiction|contradiction| |].
  - replace (M =? 255) with false by lia. replace (M =? 65535) with false by lia. reflexivity.
  - destruct (if M =? 255 then _ else _) as [[ty sz]|]; [|reflexivity]. destruct (pam_kind (DecodeTupleType w)) as [[n fmt]|] eqn:EK; [|reflexivity]. destruct (D =? n) eqn:ED; [|reflexivity]. exfalso. apply (HX fmt). assert (D = n) by lia. subst n.
    unfold DecodeTupleType, same in EK. unfold tuple_kind.
    destruct (list_eq_dec Z.eq_dec w s_BW); [discriminate EK|]. destruct (list_eq_dec Z.eq_dec w s_GRAYSCALE) as [-> |]; [inversion EK; solve [left; repeat split; auto|right; left; repeat split; auto|right; right; left; repeat split; auto|right; right; right; repeat split; auto]|]. destruct (list_eq_dec Z.eq_dec w s_RGB) as [-> |]; [inversion EK; solve [left; repeat split; auto|right; left; repeat split; auto|right; right; left; repeat split; auto|right; right; right; repeat split; auto]|]. destruct (list_eq_dec Z.eq_dec w (s_BW ++ s_ALPHA)); [discriminate EK|]. destruct (list_eq_dec Z.eq_dec w (s_GRAYSCALE ++ s_ALPHA)) as [-> |]; [inversion EK; solve [left; repeat split; auto|right; left; repeat split; auto|right; right; left; repeat split; auto|right; right; right; repeat split; auto]|]. destruct (list_eq_dec Z.eq_dec w (s_RGB ++ s_ALPHA)) as [-> |]; [inversion EK; solve [left; repeat split; auto|right; left; repeat split; auto|right; right; left; repeat split; auto|right; right; right; repeat split; auto]|discriminate EK].
Qed.
Print Assumptions C98_arbitrary_refused.

(** C98i (refuted): a map too short for its sizes leaves a freed current image. *)
Theorem C98_arbitrary_short_refuted : forall fuel alloc old sb lb F W H D w fmt h data, allocator_ok alloc -> bytes F -> zlen F < 2147483648 -> (length F < fuel)%nat -> zlen sb = 180 ->
  pam_head W H D 255 w h -> tuple_kind w D fmt -> F = h ++ data -> hd 32 data <> 32 -> 1 <= W -> 1 <= H -> W * D * H < 2147483648 -> zlen data < W * D * H -> alloc (W * D * H) <> None ->
  iLoadPnmInternal fuel alloc old sb lb (Rd F 0 (zlen F) []) = UB.
Proof.
  intros fuel alloc old sb lb F W H D w fmt h data HA BF HF Hf Hsb HD HK EF H32 HW HH HS HL Hn. assert (ND : data <> []) by (intros ->; cbn in H32; lia). assert (H0 : hd 0 data <> 32) by (destruct data; [congruence|exact H32]).
  assert (KD : pam_kind (DecodeTupleType w) = Some (D, fmt) /\ 1 <= D <= 4 /\ DecodeTupleType w <> 0) by (destruct HK as [(-> & -> & ->)|[(-> & -> & ->)|[(-> & -> & ->)|(-> & -> & ->)]]]; (split; [reflexivity|split; [lia|discriminate]])). destruct KD as (KD & RD & NT).
  destruct (pam_start fuel alloc old sb lb F W H D 255 w h data BF HF Hf Hsb HD EF ND H0) as (fuel' & sb' & p & HP & ->). destruct (HP (mkPam 0 0 0 0 0)) as (q & EP & TQ). unfold ilReadPam. rewrite EP. cbn [bind]. cbv iota. cbn [AWidth AHeight ADepth AMax ATuple].
  replace ((W =? 0) || (H =? 0) || (D =? 0) || (4 <? D) || (DecodeTupleType w =? 0)) with false by lia. change (255 =? 255) with true. cbv iota. rewrite KD. rewrite Z.eqb_refl. cbn [negb].
  assert (LT := tail_len _ _ _ TQ). assert (0 <= q) by (destruct TQ; lia). assert (0 <= zlen data) by auto. assert (0 < W * D * H) by (repeat apply Z.mul_pos_pos; lia). destruct (alloc (W * D * H)) as [blk|] eqn:EA; [|congruence]. assert (LB := HA _ _ EA).
  rewrite (init_low alloc old W H D 0 blk) by (auto; lia). cbn [bind negb]. cbv iota. replace (W * H * D) with (W * D * H) by ring. rewrite (u32_small (W * D * H)), Z.mul_1_l, u32_small by lia. unfold low_img at 1. unfold set_Format, with_Origin. cbn [Data Width Height Depth Bpp Bpc Bps SizeOfData SizeOfPlane Format Type_ Origin Pal Duration CubeFlags OffX OffY].
  assert (0 < zlen data) by (destruct data; [congruence|rewrite zlen_cons; assert (0 <= zlen data) by auto; lia]). destruct (read_short F q [] blk (W * D * H)) as (n & d & r & ER & NE); try lia. rewrite ER. cbn [bind]. replace (n =? W * D * H) with false by lia. reflexivity.
Qed.
Print Assumptions C98_arbitrary_short_refuted.
