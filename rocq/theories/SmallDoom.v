(** C97: DOOM pictures and flats. *)
From Coq Require Import ZArith List Lia Bool.
From Verif Require Import Base Slices Elem Enums Utility Image ImageSpec Flip Lump LumpSpec LumpProofs LumpProps Channels Endian EndianProps ConvImgProps RawProps Pcx PcxProofs TgaProofs TgaSafe BmpSpec BmpSafe BmpDecode SgiLoad Safe Small SmallSpec SmallTex SmallTexProps SmallSun SmallSunProps.
Import ListNotations.
Open Scope Z_scope.

Lemma read1_in : forall F p e b, 0 <= p < zlen F -> zlen F < 4294967295 -> zlen b = 1 -> iReadLump b 1 1 (Rd F p (zlen F) e) = Ok (1, [geti F p], Rd F (p + 1) (zlen F) e).
Proof.
  intros F p e b Hp HM Hb. rewrite read_in by lia. assert (E : slice F p 1 = [geti F p]); [|rewrite E; reflexivity]. apply list_ext; [rewrite zlen_slice by lia; reflexivity|]. intros j Hj. rewrite zlen_slice in Hj by lia. rewrite geti_slice by lia. replace j with 0 by lia. rewrite Z.add_0_r. reflexivity.
Qed.
(** distinct pixels are at distinct places *)
Lemma place : forall W x y x' y', 0 <= x < W -> 0 <= x' < W -> y * W + x = y' * W + x' -> x = x' /\ y = y'.
Proof.
  intros W x y x' y' Hx Hx' E. assert (E1 : (y * W + x) mod W = (y' * W + x') mod W) by congruence. rewrite Z.add_comm, Z_mod_plus_full, (Z.add_comm (y' * W)), Z_mod_plus_full, !Z.mod_small in E1 by lia. subst x'. split; [reflexivity|]. assert (M : y * W = y' * W) by lia. apply Z.mul_cancel_r in M; lia.
Qed.
Lemma inside : forall W H x y, 0 <= x < W -> 0 <= y < H -> 0 <= y * W + x < W * H.
Proof. intros W H x y Hx Hy. assert (0 <= y * W) by (apply Z.mul_nonneg_nonneg; lia). assert ((y + 1) * W <= H * W) by (apply Z.mul_le_mono_nonneg_r; lia). lia. Qed.

Lemma post_ok : forall F W H col top n d p e, 0 < zlen F < 4294967295 -> 0 <= p -> 0 <= n -> p + n <= zlen F -> 0 <= col < W -> 0 <= top -> zlen d = W * H ->
  exists d', doom_post W H col top n d (Rd F p (zlen F) e) = Ok (true, d', Rd F (p + n) (zlen F) e) /\ zlen d' = W * H /\
    forall x y, 0 <= x < W -> 0 <= y < H -> geti d' (y * W + x) = if (x =? col) && ((top <=? y) && (y <? top + n)) then geti F (p + (y - top)) else geti d (y * W + x).
Proof.
  intros F W H col top n d p e HM Hp Hn HF Hc Ht LD. unfold doom_post.
  set (I := fun k (st : bool * list Z * reader) => exists d', st = (true, d', Rd F (p + k) (zlen F) e) /\ zlen d' = W * H /\ forall x y, 0 <= x < W -> 0 <= y < H -> geti d' (y * W + x) = if (x =? col) && ((top <=? y) && (y <? top + k)) then geti F (p + (y - top)) else geti d (y * W + x)).
  match goal with |- context [loop 0 n ?b ?s] => destruct (loop_rule _ I 0 n b s Hn) as (st & E & (d' & -> & L & G)) end; [| |rewrite E; eauto].
  - exists d. split; [rewrite Z.add_0_r; reflexivity|]. split; [exact LD|]. intros x y Hx Hy. replace ((top <=? y) && (y <? top + 0)) with false by lia. rewrite andb_false_r. reflexivity.
  - intros k st Hk (d' & -> & L & G). cbn [negb]. cbv iota. rewrite read1_in by (try reflexivity; lia). cbn [bind]. change (negb (1 =? 1)) with false. cbv iota. change (geti [geti F (p + k)] 0) with (geti F (p + k)). destruct (k + top <? H) eqn:EH.
    + assert (IN := inside W H col (k + top) Hc ltac:(lia)). rewrite wr_ok by lia. cbn [bind]. eexists. split; [reflexivity|]. eexists. split; [rewrite Z.add_assoc; reflexivity|]. split; [rewrite zlen_upd; lia|]. intros x y Hx Hy. assert (IN2 := inside W H x y Hx Hy). rewrite geti_upd by lia. destruct (y * W + x =? (k + top) * W + col) eqn:EE.
      * destruct (place W x y col (k + top) Hx Hc ltac:(lia)) as (-> & ->). rewrite Z.eqb_refl. replace ((top <=? k + top) && (k + top <? top + (k + 1))) with true by lia. cbn [andb]. f_equal. lia.
      * rewrite G by auto. destruct (x =? col) eqn:EX; cbn [andb]; [|reflexivity]. assert (y <> k + top) by (intros ->; replace x with col in EE by lia; lia). replace ((top <=? y) && (y <? top + (k + 1))) with ((top <=? y) && (y <? top + k)) by lia. reflexivity.
    + eexists. split; [reflexivity|]. eexists. split; [rewrite Z.add_assoc; reflexivity|]. split; [exact L|]. intros x y Hx Hy. rewrite G by auto. replace ((top <=? y) && (y <? top + (k + 1))) with ((top <=? y) && (y <? top + k)) by lia. reflexivity.
Qed.
Lemma posts_room : forall F p posts, bytes F -> doom_posts F p posts -> 0 <= p /\ p + 4 * zlen posts < zlen F.
Proof.
  intros F p posts B HP. induction HP as [p Hp E|p posts Hp HF E HP IH]; [change (zlen (@nil (Z * list Z))) with 0; lia|]. rewrite zlen_cons. assert (0 <= geti F (p + 1) < 256); [|lia]. apply B. destruct IH. assert (0 <= zlen posts) by auto. destruct (Z.le_gt_cases (zlen F) (p + 1)) as [X|X]; [|lia].
  exfalso. unfold geti in H0, HF. rewrite nth_overflow in HF by (unfold zlen in X; lia). unfold zlen in *. lia.
Qed.
Lemma column_ok : forall F W H col, bytes F -> 0 < zlen F < 4294967295 -> 0 <= col < W -> forall p posts, doom_posts F p posts -> forall d e fuel, zlen d = W * H -> (length posts < fuel)%nat ->
  exists d' r, doom_column fuel W H col d (Rd F p (zlen F) e) = Ok (true, d', r) /\ (exists q, r = Rd F q (zlen F) e) /\ zlen d' = W * H /\
    forall x y, 0 <= x < W -> 0 <= y < H -> geti d' (y * W + x) = if x =? col then doom_row posts y (geti d (y * W + x)) else geti d (y * W + x).
Proof.
  intros F W H col B HM Hc p posts HP. induction HP as [p Hp E|p posts Hp HF E HP IH]; intros d e fuel LD Hf; (destruct fuel as [|fuel]; [lia|]); cbn [doom_column].
  - rewrite read1_in by (try reflexivity; lia). cbn [bind]. change (negb (1 =? 1)) with false. cbv iota. change (geti [geti F p] 0) with (geti F p). rewrite E. change (255 =? 255) with true. cbv iota. eexists _, _. split; [reflexivity|]. split; [eauto|]. split; [exact LD|]. intros x y Hx Hy. cbn [doom_row]. destruct (x =? col); reflexivity.
  - assert (X : 0 <= geti F (p + 1)). { destruct (posts_room F _ _ B HP) as (X & _). destruct (Z.le_gt_cases (zlen F) (p + 1)) as [Y|Y]; [|apply (B (p + 1)); lia]. unfold geti. rewrite nth_overflow by (unfold zlen in Y; lia). lia. }
    rewrite read1_in by (try reflexivity; lia). cbn [bind]. change (negb (1 =? 1)) with false. cbv iota. change (geti [geti F p] 0) with (geti F p). replace (geti F p =? 255) with false by lia. cbv iota zeta.
    rewrite read1_in by (try reflexivity; lia). cbn [bind]. change (negb (1 =? 1)) with false. cbv iota. change (geti [geti F (p + 1)] 0) with (geti F (p + 1)). rewrite read1_in by (try reflexivity; lia). cbn [bind]. change (negb (1 =? 1)) with false. cbv iota.
    assert (T : 0 <= geti F p) by (apply (B p); lia). destruct (post_ok F W H col (geti F p) (geti F (p + 1)) d (p + 1 + 1 + 1) e) as (d1 & -> & L1 & G1); auto; try lia. cbn [bind negb]. cbv iota. rewrite read1_in by (try reflexivity; lia). cbn [bind].
    replace (p + 1 + 1 + 1 + geti F (p + 1) + 1) with (p + 4 + geti F (p + 1)) by lia. cbn [length] in Hf. destruct (IH d1 e fuel L1 ltac:(lia)) as (d' & r & -> & R & L & G). eexists _, _. split; [reflexivity|]. split; [exact R|]. split; [exact L|].
    intros x y Hx Hy. rewrite G, G1 by auto. destruct (x =? col) eqn:EX; cbn [andb]; [|reflexivity]. cbn [doom_row]. rewrite zlen_slice by lia. destruct ((geti F p <=? y) && (y <? geti F p + geti F (p + 1))) eqn:EI; [|reflexivity]. rewrite geti_slice by lia. do 2 f_equal. lia.
Qed.
Lemma columns_ok : forall F W H posts u4 d, bytes F -> 0 < zlen F < 2147483648 -> 1 <= W -> 8 + 4 * W <= zlen F -> (forall i, zlen (u4 i) = 4) -> zlen d = W * H ->
  (forall x, 0 <= x < W -> doom_posts F (int4 F (8 + 4 * x)) (posts x)) ->
  exists d' r, doom_columns W H 0 u4 d (Rd F 8 (zlen F) []) = Ok (true, d', r) /\ zlen d' = W * H /\ forall x y, 0 <= x < W -> 0 <= y < H -> geti d' (y * W + x) = doom_row (posts x) y (geti d (y * W + x)).
Proof.
  intros F W H posts u4 d B HM HW HF U4 LD HP. unfold doom_columns.
  set (I := fun k (st : bool * list Z * reader) => exists d', st = (true, d', Rd F (8 + 4 * k) (zlen F) []) /\ zlen d' = W * H /\ forall x y, 0 <= x < W -> 0 <= y < H -> geti d' (y * W + x) = if x <? k then doom_row (posts x) y (geti d (y * W + x)) else geti d (y * W + x)).
  match goal with |- context [loop 0 W ?b ?s] => destruct (loop_rule _ I 0 W b s ltac:(lia)) as (st & E & (d' & -> & L & G)) end.
  - exists d. split; [reflexivity|]. split; [exact LD|]. intros x y Hx Hy. replace (x <? 0) with false by lia. reflexivity.
  - intros k st Hk (d' & -> & L & G). cbn [negb]. cbv iota. rewrite gets4 by (auto; lia). cbn [bind]. cbv zeta. cbn [rpos]. rewrite Z.add_0_l. assert (P := HP k Hk). destruct (posts_room F _ _ B P) as (P0 & P1). assert (0 <= zlen (posts k)) by auto.
    assert (IO : i32 (int4 F (8 + 4 * k)) = int4 F (8 + 4 * k)) by (apply i32_small; lia). rewrite IO, Z.eqb_refl. cbn [negb]. cbv iota. assert (SK := seek_set F (8 + 4 * k + 4) (int4 F (8 + 4 * k)) [] ltac:(lia) ltac:(lia)). rewrite IO in SK. rewrite SK. cbn [bind Lump.rsize].
    destruct (column_ok F W H k B ltac:(lia) Hk _ _ P d' [] (S (Z.to_nat (zlen F))) L) as (d2 & r2 & -> & (q & ->) & L2 & G2). { unfold zlen in *. lia. } cbn [bind negb]. cbv iota. rewrite seek_set by lia. cbn [bind]. eexists. split; [reflexivity|].
    exists d2. split; [do 2 f_equal; lia|]. split; [exact L2|]. intros x y Hx Hy. rewrite G2, G by auto. destruct (x =? k) eqn:EX.
    + replace x with k by lia. replace (k <? k) with false by lia. replace (k <? k + 1) with true by lia. reflexivity.
    + replace (x <? k + 1) with (x <? k) by lia. reflexivity.
  - rewrite E. eexists _, _. split; [reflexivity|]. split; [exact L|]. intros x y Hx Hy. rewrite G by auto. replace (x <? W) with true by lia. reflexivity.
Qed.

Lemma doom_begin : forall alloc conv dpal old u2 u4 F W H blk, allocator_ok alloc -> bytes F -> 8 <= zlen F < 2147483648 -> int2 F 0 = W -> int2 F 2 = H -> 1 <= W < 32768 -> 1 <= H < 32768 -> (forall i, zlen (u2 i) = 2) -> alloc (W * 1 * H) = Some blk -> alloc 768 <> None ->
  exists d0, zlen d0 = W * 1 * H /\ (forall j, 0 <= j < W * 1 * H -> geti d0 j = 247) /\
  iLoadDoomInternal alloc conv dpal old u2 u4 (Rd F 0 (zlen F) []) =
    let! (ok, d, r) := doom_columns W H 0 u4 d0 (Rd F 8 (zlen F) []) in let im := top_img W H 1 IL_COLOUR_INDEX blk (mkPal (Some dpal) 768 IL_PAL_RGB24) in
    if negb ok then Ok (false, with_Data im (Some d), []) else doom_finish alloc conv dpal im d.
Proof.
  intros alloc conv dpal old u2 u4 F W H blk HA B HF EW EH HW HH U2 EA Hp. assert (LB := HA _ _ EA). assert (BB : W * H <= 32767 * 32767) by (apply Z.mul_le_mono_nonneg; lia). assert (0 < W * H) by (apply Z.mul_pos_pos; lia). assert (E1 : W * 1 * H = W * H) by ring.
  destruct (memset_spec blk 0 247 (W * 1 * H)) as (d0 & ED & L0 & G0); try lia. exists d0. split; [lia|]. split. { intros j Hj. rewrite G0 by lia. replace ((0 <=? j) && (j <? 0 + W * 1 * H)) with true by lia. reflexivity. }
  unfold iLoadDoomInternal. cbn [rpos]. change (i32 0) with 0. cbv zeta. do 4 (rewrite gets2 by (auto; lia); cbn [bind]). change (0 + 2) with 2. rewrite EW, EH. change (2 + 2 + 2 + 2) with 8. rewrite (u32_small W), (u32_small H) by lia. rewrite (init_low alloc old W H 1 _ blk) by (auto; lia). cbn [bind negb]. cbv iota. destruct (alloc 768); [|congruence].
  rewrite low_top, top_pal. change (Data (top_img W H 1 IL_COLOUR_INDEX blk (mkPal (Some dpal) 768 IL_PAL_RGB24))) with (Some blk). change (SizeOfData (top_img W H 1 IL_COLOUR_INDEX blk (mkPal (Some dpal) 768 IL_PAL_RGB24))) with (W * 1 * H). cbv iota. rewrite ED. reflexivity.
Qed.

(** C97a: the columns of a picture are drawn post by post over transparent pixels (index 247), with DOOM's palette. *)
Theorem C97_picture : forall alloc dpal old u2 u4 F W H posts, allocator_ok alloc -> bytes F -> zlen F < 2147483648 -> int2 F 0 = W -> int2 F 2 = H -> 1 <= W -> 1 <= H -> 8 + 4 * W <= zlen F ->
  (forall x, 0 <= x < W -> doom_posts F (int4 F (8 + 4 * x)) (posts x)) -> (forall i, zlen (u2 i) = 2) -> (forall i, zlen (u4 i) = 4) -> alloc (W * H) <> None -> alloc 768 <> None ->
  exists im, iLoadDoomInternal alloc false dpal old u2 u4 (Rd F 0 (zlen F) []) = Ok (true, im, []) /\ Pal im = mkPal (Some dpal) 768 IL_PAL_RGB24 /\ shows im W H 1 IL_COLOUR_INDEX (fun x t c => doom_row (posts x) t 247).
Proof.
  intros alloc dpal old u2 u4 F W H posts HA B HM EW EH HW HH HF HP U2 U4 Hn Hp. assert (E1 : W * 1 * H = W * H) by ring. rewrite <- E1 in Hn. destruct (alloc (W * 1 * H)) as [blk|] eqn:EA; [|congruence]. assert (LB := HA _ _ EA).
  assert (I2 : forall o, 0 <= o -> o + 2 <= zlen F -> int2 F o < 32768). { intros o Ho Ho2. unfold int2. assert (BA : 0 <= geti F o < 256) by (apply B; lia). assert (BB : 0 <= geti F (o + 1) < 256) by (apply B; lia). unfold word2. destruct (_ <? _) eqn:E; lia. }
  assert (HW2 := I2 0 ltac:(lia) ltac:(lia)). assert (HH2 := I2 2 ltac:(lia) ltac:(lia)). assert (BB : W * H <= 32767 * 32767) by (apply Z.mul_le_mono_nonneg; lia).
  destruct (doom_begin alloc false dpal old u2 u4 F W H blk) as (d0 & L0 & G0 & ->); auto; try lia. destruct (columns_ok F W H posts u4 d0) as (d & r & -> & L & G); auto; try lia. cbn [bind negb]. cbv iota zeta. unfold doom_finish. rewrite top_data. eexists. split; [reflexivity|]. split; [reflexivity|].
  apply top_shows; auto; try lia. intros x t c Hx Hy Hc. replace ((t * W + x) * 1 + c) with (t * W + x) by lia. rewrite G by auto. rewrite G0; [reflexivity|]. rewrite E1. apply inside; auto.
Qed.
Print Assumptions C97_picture.

(** C97b: a flat is 64 by 64 stored pixels. *)
Theorem C97_flat : forall alloc dpal old F, allocator_ok alloc -> 4096 <= zlen F < 4294967295 -> alloc 4096 <> None -> alloc 768 <> None ->
  exists im, iLoadDoomFlatInternal alloc false dpal old (Rd F 0 (zlen F) []) = Ok (true, im, []) /\ Pal im = mkPal (Some dpal) 768 IL_PAL_RGB24 /\ shows im 64 64 1 IL_COLOUR_INDEX (stored F 0 64 1).
Proof.
  intros alloc dpal old F HA HF Hn Hp. destruct (alloc 4096) as [blk|] eqn:EA; [|congruence]. assert (LB := HA _ _ EA). unfold iLoadDoomFlatInternal. rewrite (init_low alloc old 64 64 1 _ blk) by (auto; lia). cbn [bind negb]. cbv iota zeta. destruct (alloc 768); [|congruence].
  rewrite low_top, top_pal. change (Data (top_img 64 64 1 IL_COLOUR_INDEX blk (mkPal (Some dpal) 768 IL_PAL_RGB24))) with (Some blk). cbv iota. rewrite read_in by lia. cbn [bind]. change (negb (4096 =? 4096)) with false. cbv iota. unfold doom_finish. rewrite top_data. eexists. split; [reflexivity|]. split; [reflexivity|].
  assert (LS : zlen (slice F 0 4096) = 4096) by (apply zlen_slice; lia). apply top_shows; try lia. intros x t c Hx Hy Hc. unfold stored. assert (O := off_in 64 64 1 x t c Hx Hy Hc). rewrite geti_slice by lia. reflexivity.
Qed.
Print Assumptions C97_flat.
(** a shorter file is refused *)
Theorem C97_flat_short_refused : forall alloc dpal old F, allocator_ok alloc -> 0 < zlen F < 4096 -> alloc 4096 <> None -> alloc 768 <> None ->
  exists im, iLoadDoomFlatInternal alloc false dpal old (Rd F 0 (zlen F) []) = Ok (false, im, []).
Proof.
  intros alloc dpal old F HA HF Hn Hp. destruct (alloc 4096) as [blk|] eqn:EA; [|congruence]. assert (LB := HA _ _ EA). unfold iLoadDoomFlatInternal. rewrite (init_low alloc old 64 64 1 _ blk) by (auto; lia). cbn [bind negb]. cbv iota zeta. destruct (alloc 768); [|congruence].
  rewrite low_top, top_pal. change (Data (top_img 64 64 1 IL_COLOUR_INDEX blk (mkPal (Some dpal) 768 IL_PAL_RGB24))) with (Some blk). cbv iota. destruct (read_short F 0 [] blk 4096) as (c & b' & r & -> & Hc); try lia. cbn [bind]. replace (c =? 4096) with false by lia. cbn [negb]. eexists. reflexivity.
Qed.
Print Assumptions C97_flat_short_refused.

(** C97c: every file whose table of columns is complete and has no negative offset is loaded without touching memory
    outside the image, however wrong the posts are, and the loader comes to an end. *)
Lemma read1_ret : forall F r b, 0 < zlen F < 4294967295 -> on F r -> zlen b = 1 -> exists n b' r', iReadLump b 1 1 r = Ok (n, b', r') /\ on F r' /\ rpos r <= rpos r' /\ (n = 1 -> rpos r' = rpos r + 1) /\ (bytes F -> bytes b -> 0 <= geti b' 0).
Proof.
  intros F r b HM O Lb. destruct (read_pos F b 1 1 r) as (c & b' & r' & E & O' & L & BB & P & P' & _); auto; try lia. eexists _, _, _. split; [exact E|]. split; [exact O'|]. split; [exact P|]. split; [intros X; rewrite P' by exact X; lia|]. intros B1 B2. apply (BB B1 B2 0). lia.
Qed.
Lemma post_ret : forall F W H col top n d r, bytes F -> 0 < zlen F < 4294967295 -> on F r -> 0 <= n -> 0 <= col < W -> 0 <= top -> (0 < H -> zlen d = W * H) ->
  exists ok d' r', doom_post W H col top n d r = Ok (ok, d', r') /\ zlen d' = zlen d /\ on F r' /\ rpos r <= rpos r'.
Proof.
  intros F W H col top n d r B HM O Hn Hc Ht LD. unfold doom_post.
  match goal with |- context [loop 0 n ?b ?s] => destruct (loop_rule _ (fun _ (st : bool * list Z * reader) => zlen (snd (fst st)) = zlen d /\ on F (snd st) /\ rpos r <= rpos (snd st)) 0 n b s Hn) as (((ok, d'), r') & E & (L & O' & P)) end; [| |rewrite E; eauto 8].
  - cbn [fst snd]. split; [reflexivity|]. split; [exact O|lia].
  - intros k ((ok, d1), r1) Hk (L & O1 & P). cbn [fst snd] in *. destruct ok; cbn [negb]; cbv iota; [|eauto 8]. destruct (read1_ret F r1 [0] HM O1 eq_refl) as (m & b & r2 & -> & O2 & P2 & _). cbn [bind]. destruct (negb (m =? 1)); [eexists; split; [reflexivity|]; cbn [fst snd]; split; [exact L|split; [exact O2|lia]]|].
    destruct (k + top <? H) eqn:EH.
    + specialize (LD ltac:(lia)). assert (IN := inside W H col (k + top) Hc ltac:(lia)). rewrite wr_ok by lia. cbn [bind]. eexists. split; [reflexivity|]. cbn [fst snd]. split; [rewrite zlen_upd; lia|]. split; [exact O2|lia].
    + eexists; split; [reflexivity|]; cbn [fst snd]; split; [exact L|split; [exact O2|lia]].
Qed.
Lemma column_ret : forall F W H col, bytes F -> 0 < zlen F < 4294967295 -> 0 <= col < W -> forall fuel d r, on F r -> (0 < H -> zlen d = W * H) -> zlen F - rpos r < Z.of_nat fuel ->
  exists ok d' r', doom_column fuel W H col d r = Ok (ok, d', r') /\ zlen d' = zlen d /\ on F r'.
Proof.
  intros F W H col B HM Hc. assert (B0 : bytes [0]). { intros i Hi. change (zlen [0]) with 1 in Hi. replace i with 0 by lia. change (geti [0] 0) with 0. lia. }
  induction fuel as [|fuel IH]; intros d r O LD Hf; [unfold on in O; lia|]. cbn [doom_column].
  destruct (read1_ret F r [0] HM O eq_refl) as (n1 & b1 & r1 & -> & O1 & P1 & Q1 & V1). cbn [bind]. destruct (n1 =? 1) eqn:N1; cbn [negb]; [|eauto 8]. destruct (geti b1 0 =? 255); [eauto 8|]. cbv zeta.
  destruct (read1_ret F r1 [0] HM O1 eq_refl) as (n2 & b2 & r2 & -> & O2 & P2 & _ & V2). cbn [bind]. destruct (n2 =? 1); cbn [negb]; [|eauto 8].
  destruct (read1_ret F r2 [0] HM O2 eq_refl) as (n3 & b3 & r3 & -> & O3 & P3 & _). cbn [bind]. destruct (n3 =? 1); cbn [negb]; [|eauto 8].
  destruct (post_ret F W H col (geti b1 0) (geti b2 0) d r3) as (ok & d4 & r4 & -> & L4 & O4 & P4); auto. cbn [bind]. destruct ok; cbn [negb]; cbv iota; [|eauto 8]. destruct (read1_ret F r4 [0] HM O4 eq_refl) as (n5 & b5 & r5 & -> & O5 & P5 & _). cbn [bind].
  destruct (IH d4 r5 O5) as (ok & d' & r' & -> & L & O'); [intros X; rewrite L4; auto|lia|]. eexists _, _, _. split; [reflexivity|]. split; [lia|exact O'].
Qed.
Theorem C97_safe_partial : forall alloc dpal old u2 u4 F, allocator_ok alloc -> bytes F -> 8 <= zlen F < 2147483648 -> 8 + 4 * int2 F 0 <= zlen F -> (forall x, 0 <= x < int2 F 0 -> 0 <= int4 F (8 + 4 * x)) -> (forall i, zlen (u2 i) = 2) -> (forall i, zlen (u4 i) = 4) ->
  exists ok im e, iLoadDoomInternal alloc false dpal old u2 u4 (Rd F 0 (zlen F) []) = Ok (ok, im, e).
Proof.
  intros alloc dpal old u2 u4 F HA B HF HT HO U2 U4. unfold iLoadDoomInternal. cbn [rpos]. change (i32 0) with 0. cbv zeta. do 4 (rewrite gets2 by (auto; lia); cbn [bind]). change (0 + 2) with 2. change (2 + 2 + 2 + 2) with 8.
  assert (I2 : forall o, 0 <= o -> o + 2 <= zlen F -> -32768 <= int2 F o < 32768). { intros o Ho Ho2. unfold int2. assert (BA : 0 <= geti F o < 256) by (apply B; lia). assert (BB : 0 <= geti F (o + 1) < 256) by (apply B; lia). unfold word2. destruct (_ <? _) eqn:E; lia. }
  assert (HW := I2 0 ltac:(lia) ltac:(lia)). assert (HH := I2 2 ltac:(lia) ltac:(lia)). set (W := int2 F 0) in *. set (H := int2 F 2) in *. clearbody W H.
  assert (IS := init_safe alloc old (u32 W) (u32 H) 1 IL_COLOUR_INDEX HA). destruct (ilInitImage alloc old (u32 W) (u32 H) 1 1 IL_COLOUR_INDEX IL_UNSIGNED_BYTE None) as [((ok, im), e)| |] eqn:EI; cbn [safe] in IS; [|contradiction|].
  2:{ exfalso. unfold ilInitImage in EI. change (ilGetBpcType IL_UNSIGNED_BYTE) with 1 in EI. change (1 =? 0) with false in EI. cbv iota zeta in EI. destruct (alloc _) in EI; discriminate. }
  destruct IS as (HS & ES & HD). cbn [bind]. destruct ok; cbn [negb]; cbv iota; [|eauto]. destruct HD as (d & ED & LD). destruct (alloc 768); [|eauto].
  change (Data (with_Pal (with_Origin im IL_ORIGIN_UPPER_LEFT) (mkPal (Some dpal) 768 IL_PAL_RGB24))) with (Data im). rewrite ED. change (SizeOfData (with_Pal (with_Origin im IL_ORIGIN_UPPER_LEFT) (mkPal (Some dpal) 768 IL_PAL_RGB24))) with (SizeOfData im).
  destruct (memset_spec d 0 247 (SizeOfData im)) as (d0 & -> & L0 & _); try lia. cbn [bind].
  assert (SZ : 0 < W -> 0 < H -> zlen d = W * H). { intros X Y. rewrite LD, ES. assert (BB : W * H <= 32767 * 32767) by (apply Z.mul_le_mono_nonneg; lia). assert (0 < W * H) by (apply Z.mul_pos_pos; lia). rewrite (u32_small W), (u32_small H) by lia. unfold nz1. replace (W =? 0) with false by lia. replace (H =? 0) with false by lia. rewrite !Z.mul_1_r. rewrite (u32_small W) by lia. rewrite !(u32_small (W * H)) by lia. reflexivity. }
  assert (CL : exists ok d' r, doom_columns W H 0 u4 d0 (Rd F 8 (zlen F) []) = Ok (ok, d', r)).
  { destruct (Z.le_gt_cases W 0) as [HW0|HW0]; [unfold doom_columns, loop; replace (Z.to_nat (W - 0)) with O by lia; cbn [for_]; eauto|]. unfold doom_columns.
    match goal with |- context [loop 0 W ?b ?s] => destruct (loop_rule _ (fun k (st : bool * list Z * reader) => let '(ok, d', r) := st in zlen d' = zlen d0 /\ (ok = true -> exists e, r = Rd F (8 + 4 * k) (zlen F) e)) 0 W b s ltac:(lia)) as (((ok, d'), r') & E & _) end; [| |rewrite E; eauto].
    - split; [reflexivity|]. intros _. eexists. reflexivity.
    - intros k ((ok, d1), r1) Hk (L1 & R1). destruct ok; cbn [negb]; cbv iota; [|eexists; split; [reflexivity|]; cbv beta iota; split; [exact L1|discriminate]]. destruct (R1 eq_refl) as (e1 & ->). rewrite gets4 by (auto; lia). cbn [bind]. cbv zeta. cbn [rpos]. rewrite Z.add_0_l.
      assert (P0 := HO k Hk). assert (PM : int4 F (8 + 4 * k) < 2147483648). { unfold int4. assert (X : forall o, 0 <= o -> o + 2 <= zlen F -> 0 <= word2 F o < 65536). { intros o Ho Ho2. assert (BA : 0 <= geti F o < 256) by (apply B; lia). assert (BB : 0 <= geti F (o + 1) < 256) by (apply B; lia). unfold word2. lia. } assert (X1 := X (8 + 4 * k) ltac:(lia) ltac:(lia)). assert (X2 := X (8 + 4 * k + 2) ltac:(lia) ltac:(lia)). unfold word4. destruct (_ <? _) eqn:EX; lia. }
      rewrite i32_small by lia. rewrite Z.eqb_refl. cbn [negb]. cbv iota. destruct (set_safe F (int4 F (8 + 4 * k)) (Rd F (8 + 4 * k + 4) (zlen F) e1)) as (c & r2 & -> & O2); auto; try lia. { split; [reflexivity|split; [reflexivity|cbn [rpos]; lia]]. } cbn [bind].
      destruct O2 as (OA & OB & OC). destruct (column_ret F W H k B ltac:(lia) ltac:(lia) (S (Z.to_nat (Lump.rsize r2))) d1 r2) as (ok & d3 & r3 & -> & L3 & O3); [split; auto|intros X; rewrite L1, L0; auto|rewrite OB; lia|]. cbn [bind]. destruct ok; cbn [negb]; cbv iota; [|eexists; split; [reflexivity|]; cbv beta iota; split; [lia|discriminate]].
      destruct r3 as [l3 p3 s3 e3]. destruct O3 as (OA3 & OB3 & OC3). cbn [rlump rpos Lump.rsize] in *. subst l3 s3. rewrite seek_set by lia. cbn [bind]. eexists. split; [reflexivity|]. cbv beta iota. split; [lia|]. intros _. eexists. f_equal. lia. }
  destruct CL as (ok & d' & r & ->). cbn [bind]. destruct ok; cbn [negb]; cbv iota; [|eauto]. unfold doom_finish. eauto.
Qed.
Print Assumptions C97_safe_partial.
