(** C93, continued: SGI images saved with run-length encoding. *)
From Coq Require Import ZArith List Lia Bool.
From Verif Require Import Base Slices Elem BitLemmas Enums Utility Image ImageSpec Flip Lump LumpSpec LumpProofs LumpProps Channels Endian EndianProps Rle RleSpec RleProofs RleProps RawProps Pcx PcxProofs TgaProofs Sgi SgiSpec SgiProofs SgiLoad SgiSave.
Import ListNotations.
Open Scope Z_scope.

(** ** The scan lines *)
Lemma gather_ok : forall td w i N line, 0 <= w -> 0 <= i -> 1 <= N -> (w = 0 \/ i + (w - 1) * N < zlen td) -> zlen line = w ->
  gather td w i N line = Ok (plane (Z.to_nat w) td i N).
Proof.
  intros td w i N line Hw Hi HN HL L. unfold gather.
  match goal with |- loop 0 w ?b line = _ => destruct (loop_rule _ (fun j s => zlen s = w /\ forall t, 0 <= t < j -> geti s t = geti td (i + t * N)) 0 w b line) as (s & E & Ls & G) end.
  - lia.
  - split; [auto|intros; lia].
  - intros j s Hj (Ls & G). assert (0 <= j * N) by (apply Z.mul_nonneg_nonneg; lia). assert (j * N <= (w - 1) * N) by (apply Z.mul_le_mono_nonneg_r; lia).
    rewrite rd_ok by lia. cbn [bind]. rewrite wr_ok by lia. eexists. split; [reflexivity|]. split; [rewrite zlen_upd; auto; lia|]. intros t Ht. rewrite geti_upd by lia.
    destruct (t =? j) eqn:Q; [f_equal; f_equal; f_equal; lia|apply G; lia].
  - rewrite E. f_equal. apply list_ext; [rewrite zlen_plane, Z2Nat.id by lia; auto|]. intros t Ht. rewrite geti_plane by lia. apply G. lia.
Qed.

(** an entry of the list of written lines holds this code *)
Definition holds (x : list Z * Z) (code : list Z) : Prop := snd x = zlen code /\ zlen code <= zlen (fst x) /\ slice (fst x) 0 (zlen code) = code.

(** line [y] of channel [c] *)
Definition line_of (td : list Z) (w bps N : Z) (c y : Z) : list Z := plane (Z.to_nat w) td (y * bps + c) N.

Lemma index : forall h c y, 0 <= y < h -> (c * h + y) / h = c /\ (c * h + y) mod h = y.
Proof. intros h c y Hy. split; [rewrite Z.div_add_l, Z.div_small by lia; lia|]. rewrite Z.add_comm, Z.mod_add by lia. apply Z.mod_small. lia. Qed.

Lemma code_bytes : forall code data, sgi_code code data -> bytes data -> bytes code.
Proof.
  intros code data C. rewrite !bytes_Forall. induction C as [|h px code data R L C IH|h b code data R C IH]; intros B.
  - repeat constructor; lia.
  - apply Forall_app in B. destruct B as (B1 & B2). constructor; [lia|]. apply Forall_app. auto.
  - apply Forall_app in B. destruct B as (B1 & B2). constructor; [lia|]. replace (Z.to_nat h) with (S (Z.to_nat (h - 1))) in B1 by lia. cbn [rep app] in B1. inversion B1; subst. constructor; auto.
Qed.
Lemma bytes_plane : forall n td i N, bytes td -> 0 <= i -> 0 <= N -> (n = O \/ i + (Z.of_nat n - 1) * N < zlen td) -> bytes (plane n td i N).
Proof.
  intros n td i N B Hi HN HL j Hj. rewrite zlen_plane in Hj. rewrite geti_plane by lia. apply B. assert (0 <= j * N) by (apply Z.mul_nonneg_nonneg; lia). destruct HL as [->|HL]; [lia|].
  assert (j * N <= (Z.of_nat n - 1) * N) by (apply Z.mul_le_mono_nonneg_r; lia). lia.
Qed.

Lemma lines_ok : forall td w h N bps line comp, 1 <= w < 2147483647 -> 1 <= h -> 1 <= N -> bps = w * N -> zlen td = h * bps -> bytes td -> zlen line = w -> zlen comp = w * 2 + 1 ->
  (forall c y, 0 <= c < N -> 0 <= y < h -> no_repeat 1 (line_of td w bps N c y) 0 w) ->
  exists l line' comp' codes, sgi_lines td w h N bps line comp = Ok (l, line', comp') /\ Forall2 holds l codes /\ zlen codes = h * N /\
    forall i, 0 <= i < h * N -> sgi_code (nth (Z.to_nat i) codes []) (line_of td w bps N (i / h) (i mod h)) /\ zlen (nth (Z.to_nat i) codes []) <= 2 * w + 1.
Proof.
  intros td w h N bps line comp Hw Hh HN EB LT BT LL LC NR. unfold sgi_lines.
  set (I := fun m (st : list (list Z * Z) * list Z * list Z) => let '(l, ln, cp) := st in zlen ln = w /\ zlen cp = w * 2 + 1 /\ exists codes, Forall2 holds l codes /\ zlen codes = m /\
    forall i, 0 <= i < m -> sgi_code (nth (Z.to_nat i) codes []) (line_of td w bps N (i / h) (i mod h)) /\ zlen (nth (Z.to_nat i) codes []) <= 2 * w + 1).
  match goal with |- context [loop 0 N ?b ?s] => destruct (loop_rule _ (fun c => I (c * h)) 0 N b s) as (((l & ln) & cp) & E & L1 & L2 & codes & F2 & Lc & G) end.
  - lia.
  - split; [auto|]. split; [auto|]. exists []. split; [constructor|]. split; [rewrite Z.mul_0_l; reflexivity|]. intros; lia.
  - intros c st Hc IH.
    match goal with |- context [loop 0 h ?b ?s] => destruct (loop_rule _ (fun y => I (c * h + y)) 0 h b s) as (st' & E & IH') end.
    + lia.
    + rewrite Z.add_0_r. exact IH.
    + intros y ((l & ln) & cp) Hy (L1 & L2 & codes & F2 & Lc & G).
      assert (0 <= c * h) by (apply Z.mul_nonneg_nonneg; lia). assert (BB : 0 <= bps) by (subst bps; apply Z.mul_nonneg_nonneg; lia). assert (0 <= y * bps) by (apply Z.mul_nonneg_nonneg; lia). assert (MM : (y + 1) * bps <= h * bps) by (apply Z.mul_le_mono_nonneg_r; lia).
      assert (RNG : y * bps + c + (w - 1) * N < zlen td) by (rewrite LT; lia).
      rewrite gather_ok by (auto; lia). cbn [bind]. fold (line_of td w bps N c y).
      assert (LN : zlen (line_of td w bps N c y) = w) by (unfold line_of; rewrite zlen_plane; lia).
      assert (BN : bytes (line_of td w bps N c y)) by (apply bytes_plane; auto; try lia; right; rewrite Z2Nat.id by lia; lia).
      destruct (C24_sgi_partial 0 0 (line_of td w bps N c y) 0 w BN) as (code & EC & SC & ZC); try lia. { apply NR; auto. }
      rewrite EC. cbn [bind]. replace (zlen cp <? zlen code) with false by lia. cbv iota. eexists. split; [reflexivity|]. assert (0 <= zlen code) by auto.
      split; [auto|]. split; [rewrite zlen_splice; lia|]. exists (codes ++ [code]). split.
      { apply Forall2_app; [auto|]. constructor; [|constructor]. unfold holds. cbn [fst snd]. rewrite zlen_splice by lia. split; [reflexivity|]. split; [lia|]. apply slice_splice_same; lia. }
      split. { unfold zlen in *. rewrite app_length. cbn [length]. lia. }
      intros i Hi. assert (LCN : length codes = Z.to_nat (c * h + y)) by (unfold zlen in Lc; lia). destruct (Z.eq_dec i (c * h + y)) as [->|Hne].
      * rewrite app_nth2 by lia. replace (Z.to_nat (c * h + y) - length codes)%nat with O by lia. cbn [nth]. destruct (index h c y Hy) as (-> & ->). split; [|lia].
        rewrite <- LN in SC at 2. rewrite slice_all in SC. exact SC.
      * rewrite app_nth1 by lia. apply G. lia.
    + rewrite E. exists st'. split; [reflexivity|]. replace ((c + 1) * h) with (c * h + h) by ring. exact IH'.
  - rewrite E. exists l, ln, cp, codes. split; [reflexivity|]. split; [auto|]. rewrite (Z.mul_comm h N). auto.
Qed.

(** ** The tables *)
Fixpoint offs (off : Z) (codes : list (list Z)) : list Z := match codes with [] => [] | c :: cs => off :: offs (off + zlen c) cs end.
Lemma zlen_be4s : forall vs, zlen (concat (map big4 vs)) = 4 * zlen vs.
Proof. induction vs as [|v vs IH]; [reflexivity|]. cbn [map concat]. rewrite zlen_app, IH. rewrite zlen_cons. change (zlen (big4 v)) with 4. lia. Qed.
Lemma nth_be4s : forall vs i, 0 <= i < zlen vs -> slice (concat (map big4 vs)) (4 * i) 4 = big4 (nth (Z.to_nat i) vs 0).
Proof.
  induction vs as [|v vs IH]; intros i Hi; [change (zlen (@nil Z)) with 0 in Hi; lia|]. cbn [map concat]. rewrite zlen_cons in Hi. destruct (Z.eq_dec i 0) as [->|].
  - reflexivity.
  - rewrite slice_app_r by (change (zlen (big4 v)) with 4; lia). change (zlen (big4 v)) with 4. replace (4 * i - 4) with (4 * (i - 1)) by lia. rewrite IH by lia. replace (Z.to_nat i) with (S (Z.to_nat (i - 1))) by lia. reflexivity.
Qed.
Lemma start_offs : forall l codes off, Forall2 holds l codes -> 0 <= off -> off + zlen (concat codes) < 4294967296 -> start_table off l = concat (map big4 (offs off codes)).
Proof.
  intros l codes off F2. revert off. induction F2 as [|(b & n) code l codes (E1 & E2 & E3) F2 IH]; intros off H0 HS; [reflexivity|].
  cbn [start_table offs map concat snd fst] in *. rewrite zlen_app in HS. assert (0 <= zlen code) by auto. assert (0 <= zlen (concat codes)) by auto. subst n. rewrite u32_small by lia. rewrite IH by lia. f_equal.
  rewrite le4. apply swap32_bytes. lia.
Qed.
Lemma len_lens : forall l codes, Forall2 holds l codes -> zlen (concat codes) < 4294967296 -> len_table l = concat (map big4 (map (fun c => zlen c) codes)).
Proof.
  intros l codes F2. unfold len_table. induction F2 as [|(b & n) code l codes (E1 & E2 & E3) F2 IH]; intros HS; [reflexivity|].
  cbn [map concat snd fst] in *. rewrite zlen_app in HS. assert (0 <= zlen code) by auto. assert (0 <= zlen (concat codes)) by auto. subst n. rewrite u32_small by lia. rewrite IH by lia. f_equal.
  rewrite le4. apply swap32_bytes. lia.
Qed.
Lemma length_offs : forall codes off, length (offs off codes) = length codes.
Proof. induction codes as [|c cs IH]; intros off; cbn [offs length]; auto. Qed.
Lemma nth_offs : forall codes off i, (i < length codes)%nat -> nth i (offs off codes) 0 = off + zlen (concat (firstn i codes)).
Proof.
  induction codes as [|c cs IH]; intros off i Hi; cbn [length] in Hi; [lia|]. destruct i as [|i]; cbn [offs nth firstn concat].
  - change (zlen (@nil Z)) with 0. lia.
  - rewrite IH by lia. rewrite zlen_app. lia.
Qed.
Lemma slice_concat : forall (codes : list (list Z)) i, (i < length codes)%nat -> slice (concat codes) (zlen (concat (firstn i codes))) (zlen (nth i codes [])) = nth i codes [].
Proof.
  induction codes as [|c cs IH]; intros i Hi; cbn [length] in Hi; [lia|]. destruct i as [|i]; cbn [nth firstn concat].
  - change (zlen (@nil Z)) with 0. rewrite slice_app_l by (auto; lia). apply slice_all.
  - rewrite zlen_app. assert (0 <= zlen (concat (firstn i cs))) by auto. rewrite slice_app_r by (auto; lia). replace (zlen c + zlen (concat (firstn i cs)) - zlen c) with (zlen (concat (firstn i cs))) by lia. apply IH. lia.
Qed.
Lemma concat_bound : forall (codes : list (list Z)) B, (forall i, (i < length codes)%nat -> zlen (nth i codes []) <= B) -> zlen (concat codes) <= zlen codes * B.
Proof.
  induction codes as [|c cs IH]; intros B H; [reflexivity|]. cbn [concat]. rewrite zlen_app. assert (X := H O ltac:(cbn [length]; lia)). cbn [nth] in X.
  assert (Y := IH B (fun i Hi => H (S i) ltac:(cbn [length]; lia))). assert (zlen (c :: cs) = 1 + zlen cs) by (unfold zlen; cbn [length]; lia). lia.
Qed.
Lemma prefix_bound : forall (codes : list (list Z)) i, (i < length codes)%nat -> zlen (concat (firstn i codes)) + zlen (nth i codes []) <= zlen (concat codes).
Proof.
  induction codes as [|c cs IH]; intros i Hi; cbn [length] in Hi; [lia|]. destruct i as [|i]; cbn [nth firstn concat]; rewrite ?zlen_app.
  - change (zlen (@nil Z)) with 0. assert (0 <= zlen (concat cs)) by auto. lia.
  - specialize (IH i ltac:(lia)). lia.
Qed.

Lemma be4_big4 : forall F p v, 0 <= v < 4294967296 -> 0 <= p -> p + 4 <= zlen F -> slice F p 4 = big4 v -> be4 F p = v.
Proof.
  intros F p v Hv Hp HF E. rewrite slice4 in E by lia. unfold big4 in E. injection E as E0 E1 E2 E3. unfold be4. rewrite E0, E1, E2, E3. clear - Hv. lia.
Qed.

Lemma run_codes : forall l codes k f, Forall2 holds l codes -> zlen f + zlen (concat codes) < 2147483640 ->
  run_file (fold_right (fun x k => Write (fst x) 1 (snd x) k) k l) f (zlen f) = run_file k (f ++ concat codes) (zlen (f ++ concat codes)).
Proof.
  intros l codes k f F2. revert f. induction F2 as [|(b & n) code l codes (E1 & E2 & E3) F2 IH]; intros f Hf; cbn [fold_right concat fst snd] in *.
  - rewrite app_nil_r. reflexivity.
  - rewrite zlen_app in Hf. assert (0 <= zlen code) by auto. assert (0 <= zlen (concat codes)) by auto. subst n. rewrite run_text_part by lia. rewrite E3. rewrite IH by (rewrite zlen_app; lia). rewrite <- app_assoc. reflexivity.
Qed.
Lemma overwrite_mid : forall a b c new, zlen new = zlen b -> overwrite (a ++ b ++ c) (zlen a) new = a ++ new ++ c.
Proof.
  intros a b c new L. unfold overwrite, zlen in *. rewrite Nat2Z.id. rewrite firstn_app, firstn_all, Nat.sub_diag. cbn [firstn]. rewrite app_nil_r. f_equal. f_equal.
  rewrite app_assoc. replace (length a + length new)%nat with (length (a ++ b)) by (rewrite app_length; lia). rewrite skipn_app, skipn_all, Nat.sub_diag. reflexivity.
Qed.
Lemma run_over : forall a b c new sz n k, 0 <= sz -> 0 <= n -> zlen new = sz * n -> zlen b = sz * n -> zlen a + sz * n < 2147483648 ->
  run_file (Write new sz n k) (a ++ b ++ c) (zlen a) = run_file k (a ++ new ++ c) (zlen a + sz * n).
Proof.
  intros a b c new sz n k Hs Hn L1 L2 H. cbn [run_file]. replace ((0 <=? sz) && (0 <=? n) && (sz * n <=? zlen new) && (zlen a + sz * n <? 2147483648)) with true by lia.
  rewrite rest_all by auto. rewrite overwrite_mid by lia. reflexivity.
Qed.

Lemma run_tell : forall k f p, run_file (Tell k) f p = run_file (k p) f p.
Proof. reflexivity. Qed.
Lemma run_set : forall off k f p, 0 <= off <= zlen f -> off < 2147483648 -> run_file (Seek off IL_SEEK_SET k) f p = run_file (k 0) f off.
Proof. intros off k f p H1 H2. cbn [run_file]. change (IL_SEEK_SET =? 0) with true. cbv iota. replace ((0 <=? off) && (off <=? zlen f) && (-2147483648 <? off) && (off <=? 2147483647)) with true by lia. reflexivity. Qed.

(** the whole of iSaveRleSgi *)
Lemma rle_file : forall alloc td w h N bps, allocator_ok alloc -> 1 <= w < 65536 -> 1 <= h < 65536 -> 1 <= N <= 4 -> bps = w * N -> zlen td = h * bps -> bytes td ->
  (forall c y, 0 <= c < N -> 0 <= y < h -> no_repeat 1 (line_of td w bps N c y) 0 w) -> 8 * (h * N) + h * N * (2 * w + 1) < 2147480000 ->
  alloc w <> None -> alloc (w * 2 + 1) <> None -> alloc (h * N * 4) <> None ->
  exists p codes, (forall k, iSaveRleSgi alloc td w h N bps k = Ok (p k)) /\ zlen codes = h * N /\ zlen (concat codes) <= h * N * (2 * w + 1) /\
    (forall i, 0 <= i < h * N -> sgi_code (nth (Z.to_nat i) codes []) (line_of td w bps N (i / h) (i mod h))) /\
    forall k f, zlen f = 512 -> let F := f ++ concat (map big4 (offs (512 + 8 * (h * N)) codes)) ++ concat (map big4 (map (fun c => zlen c) codes)) ++ concat codes in
      run_file (p k) f (zlen f) = run_file k F (512 + 8 * (h * N)).
Proof.
  intros alloc td w h N bps HA Hw Hh HN EB LT BT NR HS A1 A2 A3. unfold iSaveRleSgi. assert (0 < h * N) by (apply Z.mul_pos_pos; lia). assert (0 < h * N * (2 * w + 1)) by (apply Z.mul_pos_pos; lia).
  rewrite (u32_small (h * N)) by lia. rewrite (u32_small (w * 2 + 1)) by lia.
  destruct (alloc w) as [line|] eqn:E1; [|congruence]. destruct (alloc (w * 2 + 1)) as [comp|] eqn:E2; [|congruence]. destruct (alloc (h * N * 4)) as [start|] eqn:E3; [|congruence].
  destruct (lines_ok td w h N bps line comp) as (l & ln & cp & codes & E & F2 & LC & G); auto; try lia. rewrite E. cbn [bind].
  exists (fun k => Tell (fun TableOff =>
        Write start 4 (h * N) (Write (repeat 0 (Z.to_nat (h * N * 4))) 4 (h * N) (Tell (fun DataOff =>
          fold_right (fun x k => Write (fst x) 1 (snd x) k)
            (Seek (i32 TableOff) IL_SEEK_SET (fun _ =>
              Write (start_table DataOff l) 4 (h * N) (Write (len_table l) 4 (h * N) k))) l))))), codes.
  assert (CB : zlen (concat codes) <= h * N * (2 * w + 1)).
  { rewrite <- LC. apply concat_bound. intros i Hi. assert (X := G (Z.of_nat i)). rewrite Nat2Z.id in X. apply X. unfold zlen in LC. lia. }
  split; [reflexivity|]. split; [auto|]. split; [auto|]. split; [intros i Hi; apply G; auto|]. intros k f Lf. rewrite run_tell.
  assert (LS : zlen start = 4 * (h * N)) by (rewrite (HA _ _ E3); lia). assert (LR : zlen (repeat 0 (Z.to_nat (h * N * 4))) = 4 * (h * N)) by (rewrite zlen_repeat; lia).
  rewrite run_write by lia.
  assert (L2 : zlen (f ++ start) = 512 + 4 * (h * N)) by (rewrite zlen_app; lia).
  rewrite run_write by lia. rewrite run_tell. rewrite run_codes with (codes := codes) by (try rewrite !zlen_app; auto; lia).
  rewrite Lf. rewrite i32_small by lia. assert (0 <= zlen (concat codes)) by auto. rewrite run_set by (rewrite ?zlen_app; lia).
  replace (zlen ((f ++ start) ++ repeat 0 (Z.to_nat (h * N * 4)))) with (512 + 8 * (h * N)) by (rewrite !zlen_app; lia).
  rewrite <- (app_assoc f start), <- (app_assoc f), <- (app_assoc start).
  rewrite (start_offs l codes) by (auto; lia). rewrite (len_lens l codes) by (auto; lia).
  assert (LO : zlen (concat (map big4 (offs (512 + 8 * (h * N)) codes))) = 4 * (h * N)) by (rewrite zlen_be4s; unfold zlen at 1; rewrite length_offs; fold (zlen codes); unfold zlen in *; lia).
  assert (LL : zlen (concat (map big4 (map (fun c => zlen c) codes))) = 4 * (h * N)) by (rewrite zlen_be4s; unfold zlen at 1; rewrite map_length; unfold zlen in *; lia).
  match goal with |- run_file (Write ?new 4 (h * N) ?q) (f ++ start ++ ?r) 512 = _ => assert (X1 := run_over f start r new 4 (h * N) q ltac:(lia) ltac:(lia) LO ltac:(lia) ltac:(lia)); rewrite Lf in X1; etransitivity; [exact X1|]; clear X1 end.
  rewrite app_assoc. replace (512 + 4 * (h * N)) with (zlen (f ++ concat (map big4 (offs (512 + 8 * (h * N)) codes)))) by (rewrite zlen_app; lia).
  match goal with |- run_file (Write ?new 4 (h * N) ?q) (?a ++ ?b ++ ?r) (zlen ?a) = _ => assert (X1 := run_over a b r new 4 (h * N) q ltac:(lia) ltac:(lia) LL ltac:(lia) ltac:(rewrite zlen_app; lia)); etransitivity; [exact X1|]; clear X1 end.
  rewrite <- app_assoc. f_equal. rewrite zlen_app. lia.
Qed.

(** header, tables and codes make a run-length coded file *)
Lemma coded_file : forall X codes W H N px, zlen X = 512 -> 1 <= H -> 1 <= N -> zlen codes = H * N -> 512 + 8 * (H * N) + zlen (concat codes) < 2147483648 ->
  (forall i, 0 <= i < H * N -> sgi_code (nth (Z.to_nat i) codes []) (px (i / H) (i mod H))) -> (forall c y, zlen (px c y) = W) ->
  sgi_coded (X ++ concat (map big4 (offs (512 + 8 * (H * N)) codes)) ++ concat (map big4 (map (fun c => zlen c) codes)) ++ concat codes) W H N px.
Proof.
  intros X codes W H N px LH HH HN LC HS GC LN.
  set (A := concat (map big4 (offs (512 + 8 * (H * N)) codes))). set (B := concat (map big4 (map (fun c => zlen c) codes))).
  assert (LA0 : zlen (offs (512 + 8 * (H * N)) codes) = H * N) by (unfold zlen; rewrite length_offs; exact LC).
  assert (LB0 : zlen (map (fun c : list Z => zlen c) codes) = H * N) by (unfold zlen at 1; rewrite map_length; exact LC).
  assert (LA : zlen A = 4 * (H * N)) by (unfold A; rewrite zlen_be4s; lia).
  assert (LB : zlen B = 4 * (H * N)) by (unfold B; rewrite zlen_be4s; lia).
  assert (GA : forall i, 0 <= i < H * N -> slice A (4 * i) 4 = big4 (512 + 8 * (H * N) + zlen (concat (firstn (Z.to_nat i) codes)))).
  { intros i Hi. unfold A. rewrite nth_be4s by lia. rewrite nth_offs; [reflexivity|]. unfold zlen in LC. lia. }
  assert (GB : forall i, 0 <= i < H * N -> slice B (4 * i) 4 = big4 (zlen (nth (Z.to_nat i) codes []))).
  { intros i Hi. unfold B. rewrite nth_be4s by lia. f_equal. rewrite (nth_indep _ 0 (zlen (@nil Z))) by (rewrite map_length; unfold zlen in LC; lia). apply (map_nth (fun c => zlen c)). }
  clearbody A B. clear LA0 LB0.
  assert (LF : zlen (X ++ A ++ B ++ concat codes) = 512 + 8 * (H * N) + zlen (concat codes)) by (rewrite !zlen_app; lia).
  assert (0 <= zlen (concat codes)) by auto. split; [lia|]. intros c y Hc Hy off len. revert off len.
  assert (BK : 0 <= c * H /\ c * H + H <= N * H). { assert (0 <= c * H) by (apply Z.mul_nonneg_nonneg; lia). assert (M : (c + 1) * H <= N * H) by (apply Z.mul_le_mono_nonneg_r; lia). lia. }
  destruct (index H c y Hy) as (IX & IY). set (i := c * H + y) in *. assert (Hi : 0 <= i < H * N) by lia. clearbody i. clear BK.
  assert (HI : (Z.to_nat i < length codes)%nat) by (unfold zlen in LC; lia). assert (PBi := prefix_bound codes (Z.to_nat i) HI).
  assert (SC := GC i Hi). rewrite IX, IY in SC. assert (SL := slice_concat codes (Z.to_nat i) HI). specialize (GA i Hi). specialize (GB i Hi). clear GC HI IX IY.
  set (code := nth (Z.to_nat i) codes []) in *. set (pre := zlen (concat (firstn (Z.to_nat i) codes))) in *. assert (0 <= pre) by (unfold pre; auto). assert (0 <= zlen code) by auto. clearbody code pre. intros off len.
  assert (EO : off = 512 + 8 * (H * N) + pre).
  { unfold off. apply be4_big4; try lia. rewrite slice_app_r by lia. rewrite LH. rewrite slice_app_l by lia. replace (512 + 4 * i - 512) with (4 * i) by lia. exact GA. }
  assert (EL : len = zlen code).
  { unfold len. apply be4_big4; try lia. rewrite slice_app_r by lia. rewrite LH. rewrite slice_app_r by lia. rewrite LA. rewrite slice_app_l by lia. replace (512 + 4 * (N * H) + 4 * i - 512 - 4 * (H * N)) with (4 * i) by lia. exact GB. }
  clearbody off len. exists code. split; [exact SC|]. split; [apply LN|]. split; [lia|]. split; [lia|].
  rewrite EO. rewrite slice_app_r by lia. rewrite LH. rewrite slice_app_r by lia. rewrite LA. rewrite slice_app_r by lia. rewrite LB.
  replace (512 + 8 * (H * N) + pre - 512 - 4 * (H * N) - 4 * (H * N)) with pre by lia. exact SL.
Qed.

Lemma sgi_data_bytes : forall im buf td, img_ok im buf -> bytes buf -> sgi_plain_image im -> zlen td = SizeOfData im ->
  (forall x t z k, in_image im x t z k -> geti td (pix_off im x (Height im - 1 - t) z k) = picture im buf x t z k) -> bytes td.
Proof.
  intros im buf td Hok B HP LT GT.
  assert (SD : SizeOfData im = Width im * Height im * Bpp im) by (apply (flat_size im buf); [auto|apply HP|apply HP]).
  destruct Hok as (_ & W1 & H1 & D1 & _ & _ & E1 & E2 & E3 & _ & LB). destruct HP as (PC & PD & PT & PW & PH & PB & PF).
  set (W := Width im) in *. set (H := Height im) in *. set (N := Bpp im) in *.
  intros j Hj. assert (0 < W * N) by (apply Z.mul_pos_pos; lia). rewrite LT, SD in Hj. replace (W * H * N) with (H * (W * N)) in * by ring.
  assert (A := Z.div_mod j (W * N) ltac:(lia)). assert (M := Z.mod_pos_bound j (W * N) ltac:(lia)). assert (0 <= j / (W * N)) by (apply Z.div_pos; lia).
  assert (j / (W * N) < H) by (apply Z.div_lt_upper_bound; lia). set (q := j / (W * N)) in *. set (r := j mod (W * N)) in *. assert (A' := Z.div_mod r N ltac:(lia)). assert (M' := Z.mod_pos_bound r N ltac:(lia)). assert (0 <= r / N) by (apply Z.div_pos; lia).
  assert (r / N < W) by (apply Z.div_lt_upper_bound; lia). clearbody q r. set (x := r / N) in *. set (c := r mod N) in *. clearbody x c.
  assert (EJ : j = pix_off im x (H - 1 - (H - 1 - q)) 0 c) by (unfold pix_off; fold W H N; rewrite A, A', PC; ring). rewrite EJ. rewrite GT by (unfold in_image; fold W H N; rewrite PC, PD; lia).
  unfold picture. apply B. rewrite LB. fold H.
  assert (P : forall y, 0 <= y < H -> 0 <= pix_off im x y 0 c < SizeOfData im). { intros y Hy. unfold pix_off. fold W H N. rewrite PC, SD. rewrite Z.mul_1_r.
    assert (0 <= x * N) by (apply Z.mul_nonneg_nonneg; lia). assert ((x + 1) * N <= W * N) by (apply Z.mul_le_mono_nonneg_r; lia). assert (0 <= y * (W * N)) by (apply Z.mul_nonneg_nonneg; lia).
    assert ((y + 1) * (W * N) <= H * (W * N)) by (apply Z.mul_le_mono_nonneg_r; lia). lia. }
  destruct (Origin im =? IL_ORIGIN_UPPER_LEFT); apply P; lia.
Qed.

(** neighbours in a row differ in every channel *)
Definition no_equal_neighbours (im : img) (buf : list Z) : Prop :=
  forall x t c, 0 <= x -> x + 1 < Width im -> 0 <= t < Height im -> 0 <= c < Bpp im -> picture im buf x t 0 c <> picture im buf (x + 1) t 0 c.

(** C93b: saving with compression and loading again, for pictures in which neighbours in a row differ in every
    channel (see [C93_rle_refuted] for the others). *)
Theorem C93_rle_partial : forall alloc conv im buf, allocator_ok alloc -> img_ok im buf -> bytes buf -> sgi_plain_image im -> no_equal_neighbours im buf ->
  Origin im = IL_ORIGIN_UPPER_LEFT \/ Origin im = IL_ORIGIN_LOWER_LEFT -> alloc (SizeOfData im) <> None -> alloc (Width im) <> None -> alloc (Width im * 2 + 1) <> None -> alloc (Height im * Bpp im * 4) <> None ->
  8 * (Height im * Bpp im) + Height im * Bpp im * (2 * Width im + 1) < 2147480000 ->
  exists p F, (forall k, iSaveSgiInternal alloc true conv None im k = Ok (true, p k)) /\ file_of (p Done) = Some F /\
    (forall report, file_of (p (Tell report)) = run_file (report (512 + 8 * (Height im * Bpp im))) F (512 + 8 * (Height im * Bpp im))) /\
    512 + 8 * (Height im * Bpp im) < zlen F < 2147483648 /\ bytes F /\ sgi_head F 1 1 (Width im) (Height im) (Bpp im) /\
    forall alloc' old u2 u4, allocator_ok alloc' -> (forall i, zlen (u2 i) = 2) -> (forall i, zlen (u4 i) = 4) -> (forall n, 0 <= n -> alloc' n <> None) ->
    exists im' buf', ilLoadSgiL alloc' old u2 u4 F = Ok (true, im', []) /\ img_ok im' buf' /\ Width im' = Width im /\ Height im' = Height im /\ Depth im' = 1 /\
      Bpp im' = Bpp im /\ Bpc im' = 1 /\ Format im' = Format im /\ Type_ im' = Type_ im /\
      forall x t c, in_image im x t 0 c -> picture im' buf' x t 0 c = picture im buf x t 0 c.
Proof.
  intros alloc conv im buf HA Hok B HP HE HO Hn A1 A2 A3 HS. destruct (sgi_data alloc im buf Hok HO HA Hn) as (td & ET & LT & GT).
  assert (SD : SizeOfData im = Width im * Height im * Bpp im) by (apply (flat_size im buf); [auto|apply HP|apply HP]). unfold iSaveSgiInternal. rewrite sgi_no_target by auto. cbn [bind andb]. rewrite ET.
  assert (Hok' := Hok). destruct Hok' as (_ & W1 & H1 & D1 & _ & _ & E1 & E2 & E3 & _ & LB). assert (HP' := HP). destruct HP' as (PC & PD & PT & PW & PH & PB & PF).
  rewrite PC. change (1 =? 1) with true. cbn [bind negb]. cbv iota.
  set (W := Width im) in *. set (H := Height im) in *. set (N := Bpp im) in *. set (n := W * H) in *. assert (0 < n) by (apply Z.mul_pos_pos; lia). assert (0 < H * N) by (apply Z.mul_pos_pos; lia).
  assert (EBps : Bps im = W * N) by (rewrite E1, PC; ring).
  assert (CELL : forall c x t, 0 <= c < N -> 0 <= x < W -> 0 <= t < H -> geti td ((H - 1 - t) * (W * N) + c + x * N) = picture im buf x t 0 c).
  { intros c x t Hc Hx Ht. rewrite <- GT by (unfold in_image; fold W H N; rewrite PC, PD; lia). f_equal. unfold pix_off. fold W H N. rewrite PC. ring. }
  assert (LTd : zlen td = H * Bps im) by (rewrite LT, SD, EBps; unfold n; ring).
  assert (BT : bytes td) by (eapply sgi_data_bytes; eauto).
  assert (LINE : forall c y x, 0 <= c < N -> 0 <= y < H -> 0 <= x < W -> geti (line_of td W (Bps im) N c y) x = picture im buf x (H - 1 - y) 0 c).
  { intros c y x Hc Hy Hx. unfold line_of. rewrite geti_plane by lia. rewrite EBps. rewrite <- (CELL c x (H - 1 - y)) by lia. f_equal. ring. }
  destruct (rle_file alloc td W H N (Bps im)) as (p & codes & EP & LC & CB & GC & RUN); auto; try lia.
  { intros c y Hc Hy i Hi1 Hi2. unfold RleSpec.pixel. rewrite Z.mul_1_r. assert (LN : zlen (line_of td W (Bps im) N c y) = W) by (unfold line_of; rewrite zlen_plane; lia).
    intros X. apply (f_equal (fun l => geti l 0)) in X. rewrite !geti_slice in X by lia. rewrite !Z.add_0_r in X. rewrite Z.mul_1_r in X. rewrite !LINE in X by lia. revert X. apply HE; fold W H N; lia. }
  set (F := hd 1 W H N ++ concat (map big4 (offs (512 + 8 * (H * N)) codes)) ++ concat (map big4 (map (fun c => zlen c) codes)) ++ concat codes).
  assert (RF : forall k, file_of (sgi_header im true None (p k)) = run_file k F (512 + 8 * (H * N))).
  { intros k. unfold file_of. rewrite run_header by (auto; lia). fold W H N. rewrite <- (zlen_hd 1 W H N). rewrite RUN by reflexivity. rewrite zlen_hd. reflexivity. }
  assert (LO : zlen (concat (map big4 (offs (512 + 8 * (H * N)) codes))) = 4 * (H * N)) by (rewrite zlen_be4s; unfold zlen at 1; rewrite length_offs; unfold zlen in *; lia).
  assert (LL : zlen (concat (map big4 (map (fun c => zlen c) codes))) = 4 * (H * N)) by (rewrite zlen_be4s; unfold zlen at 1; rewrite map_length; unfold zlen in *; lia).
  assert (LF : zlen F = 512 + 8 * (H * N) + zlen (concat codes)) by (unfold F; rewrite !zlen_app, zlen_hd, LO, LL; lia).
  assert (LN : forall c y, zlen (line_of td W (Bps im) N c y) = W) by (intros c y; unfold line_of; rewrite zlen_plane; lia).
  assert (LCN : length codes = Z.to_nat (H * N)) by (unfold zlen in LC; lia).
  assert (CPOS : forall i, 0 <= i < H * N -> 0 < zlen (nth (Z.to_nat i) codes [])).
  { intros i Hi. destruct (GC i Hi); rewrite ?zlen_cons; [reflexivity|assert (0 <= zlen (px ++ code)) by auto; lia|assert (0 <= zlen code) by auto; lia]. }
  assert (B4 : forall vs, bytes (concat (map big4 vs))). { intros vs. apply bytes_Forall. induction vs as [|v vs IH]; [constructor|]. cbn [map concat]. apply Forall_app. split; [|auto]. repeat constructor; apply Z.mod_pos_bound; lia. }
  assert (BC : bytes (concat codes)).
  { apply bytes_Forall. apply Forall_concat. apply Forall_forall. intros c Hc. destruct (In_nth _ _ [] Hc) as (i & Hi & <-). rewrite <- bytes_Forall. assert (X := GC (Z.of_nat i) ltac:(lia)). rewrite Nat2Z.id in X. apply (code_bytes _ _ X).
    intros j Hj. rewrite LN in Hj. assert (0 < H) by lia. assert (A := Z.mod_pos_bound (Z.of_nat i) H ltac:(lia)). assert (0 <= Z.of_nat i / H) by (apply Z.div_pos; lia). assert (Z.of_nat i / H < N) by (apply Z.div_lt_upper_bound; lia).
    unfold line_of. rewrite geti_plane by lia. apply BT. rewrite LTd, EBps. set (c := Z.of_nat i / H) in *. set (y := Z.of_nat i mod H) in *. clearbody c y.
    assert (0 <= j * N) by (apply Z.mul_nonneg_nonneg; lia). assert ((j + 1) * N <= W * N) by (apply Z.mul_le_mono_nonneg_r; lia). assert (0 <= y * (W * N)) by (apply Z.mul_nonneg_nonneg; lia).
    assert ((y + 1) * (W * N) <= H * (W * N)) by (apply Z.mul_le_mono_nonneg_r; lia). lia. }
  assert (BF : bytes F) by (unfold F; apply bytes_app; [apply bytes_hd; auto|apply bytes_app; [auto|apply bytes_app; auto]]).
  assert (HD : sgi_head F 1 1 W H N) by (apply hd_head; auto; lia).
  exists (fun k => sgi_header im true None (p k)), F. split; [intros k; rewrite EP; reflexivity|]. split; [apply RF|]. split; [intros report; rewrite RF; reflexivity|].
  assert (P0 := CPOS 0 ltac:(lia)). assert (PB0 := prefix_bound codes 0%nat ltac:(lia)). cbn [firstn concat] in PB0. change (zlen (@nil Z)) with 0 in PB0. change (Z.to_nat 0) with 0%nat in P0.
  split; [lia|]. split; [auto|]. split; [auto|].
  intros alloc' old u2 u4 HA' U2 U4 Hn'.
  assert (Q1 : W * N * H = H * N * W) by ring. assert (Q2 : W * H * N = H * N * W) by ring. assert (0 < H * N * W) by (apply Z.mul_pos_pos; lia). fold n in Q2.
  destruct (C92_rle alloc' old u2 u4 F W H N (line_of td W (Bps im) N)) as (im' & buf' & EL & Hok' & EW & EH & ED & EB & EC & EF & ETy & GP); auto; try lia; try (apply Hn'; lia).
  { apply coded_file; auto; try lia. }
  exists im', buf'. rewrite PF, PT. repeat match goal with |- _ /\ _ => split end; auto. intros x t c (Hx & Ht & Hz & Hk). fold W H N in Hx, Ht, Hk. rewrite PC in Hk.
  rewrite GP by lia. rewrite LINE by lia. f_equal. lia.
Qed.
Print Assumptions C93_rle_partial.
