(** C48 (file type from the extension), C49 (integer square root), C50 (reading a line). *)
From Coq Require Import ZArith List Lia Bool String.
From Verif Require Import Base Slices Enums Lump LumpProofs Strings StringsProofs.
Import ListNotations.
Open Scope Z_scope.
Open Scope list_scope.

(** ** C48 *)

(** The extensions documented in the comments of include/IL/il.h:192-245, in the order of that file *)
Definition documented : list (string * Z) :=
  [("bmp"%string, IL_BMP); ("cut"%string, IL_CUT); ("ico"%string, IL_ICO); ("cur"%string, IL_ICO);
   ("jpg"%string, IL_JPG); ("jpe"%string, IL_JPG); ("jpeg"%string, IL_JPG); ("iff"%string, IL_ILBM);
   ("ilbm"%string, IL_ILBM); ("lbm"%string, IL_ILBM); ("pcd"%string, IL_PCD); ("pcx"%string, IL_PCX);
   ("pic"%string, IL_PIC); ("png"%string, IL_PNG); ("pbm"%string, IL_PNM); ("pgm"%string, IL_PNM);
   ("ppm"%string, IL_PNM); ("pnm"%string, IL_PNM); ("sgi"%string, IL_SGI); ("bw"%string, IL_SGI);
   ("rgb"%string, IL_SGI); ("rgba"%string, IL_SGI); ("tga"%string, IL_TGA); ("vda"%string, IL_TGA);
   ("icb"%string, IL_TGA); ("vst"%string, IL_TGA); ("tif"%string, IL_TIF); ("tiff"%string, IL_TIF);
   ("h"%string, IL_CHEAD); ("mdl"%string, IL_MDL); ("wal"%string, IL_WAL); ("lif"%string, IL_LIF);
   ("mng"%string, IL_MNG); ("gif"%string, IL_GIF); ("dds"%string, IL_DDS); ("dcx"%string, IL_DCX);
   ("psd"%string, IL_PSD); ("psp"%string, IL_PSP); ("pix"%string, IL_PIX); ("pxr"%string, IL_PXR);
   ("xpm"%string, IL_XPM); ("hdr"%string, IL_HDR); ("icns"%string, IL_ICNS); ("jp2"%string, IL_JP2);
   ("exr"%string, IL_EXR); ("wdp"%string, IL_WDP); ("hdp"%string, IL_WDP); ("vtf"%string, IL_VTF);
   ("wbmp"%string, IL_WBMP); ("sun"%string, IL_SUN); ("ras"%string, IL_SUN); ("rs"%string, IL_SUN);
   ("im1"%string, IL_SUN); ("im8"%string, IL_SUN); ("im24"%string, IL_SUN); ("im32"%string, IL_SUN);
   ("iff"%string, IL_IFF); ("tpl"%string, IL_TPL); ("fit"%string, IL_FITS); ("fits"%string, IL_FITS);
   ("dcm"%string, IL_DICOM); ("dicom"%string, IL_DICOM); ("iwi"%string, IL_IWI); ("blp"%string, IL_BLP);
   ("ftx"%string, IL_FTX); ("rot"%string, IL_ROT); ("texture"%string, IL_TEXTURE); ("dpx"%string, IL_DPX);
   ("utx"%string, IL_UTX); ("mp3"%string, IL_MP3); ("ktx"%string, IL_KTX); ("ch"%string, IL_SCITEX);
   ("ct"%string, IL_SCITEX); ("sct"%string, IL_SCITEX)].
(** Further extensions that are recognised but not in those comments *)
Definition undocumented : list (string * Z) :=
  [("dib"%string, IL_BMP); ("ham"%string, IL_ILBM); ("j2c"%string, IL_JP2); ("j2k"%string, IL_JP2);
   ("jfif"%string, IL_JPG); ("jif"%string, IL_JPG); ("jng"%string, IL_JNG); ("jpx"%string, IL_JP2);
   ("pam"%string, IL_PNM); ("pdd"%string, IL_PSD)].
(** The documented rows that do not hold, see [C48_doc_refuted] *)
Definition wrong_rows : list (string * Z) :=
  [("iff"%string, IL_ILBM); ("h"%string, IL_CHEAD); ("dcx"%string, IL_DCX)].

(** [x] is the extension [e], disregarding case *)
Definition is_ext (x : list Z) (e : string) : Prop := lower x = lit e.

(** The extension is what follows the last period. *)
Theorem C48_extension : forall base ext, str (base ++ 46 :: ext) -> ~ In 46 ext ->
  exists off, iGetExtension (cstr (base ++ 46 :: ext)) = Ok (Some off) /\
    skipn (Z.to_nat off) (base ++ 46 :: ext) = ext.
Proof.
  intros base ext H D. exists (zlen base + 1). split; [apply iGetExtension_dot; auto|].
  rewrite app_snoc. replace (Z.to_nat (zlen base + 1)) with (List.length (base ++ [46])).
  - rewrite skipn_app, skipn_all, Nat.sub_diag. reflexivity.
  - rewrite app_length. unfold zlen. cbn [List.length]. lia.
Qed.
Theorem C48_no_extension : forall name, str name -> ~ In 46 name ->
  iGetExtension (cstr name) = Ok None /\ exists e, ilTypeFromExt (cstr name) = Ok (IL_TYPE_UNKNOWN, e).
Proof.
  intros name H D. split; [apply iGetExtension_none; auto|]. unfold ilTypeFromExt. rewrite ilStrLen_ok by auto. cbn [bind].
  destruct (zlen name <? 1); [eauto|]. rewrite iGetExtension_none by auto. cbn [bind]. eauto.
Qed.

Fixpoint find_chain (x : list Z) (l : list (list string * Z)) : Z :=
  match l with
  | [] => IL_TYPE_UNKNOWN
  | (es, t) :: l => if existsb (fun e => if list_eq_dec Z.eq_dec x (lit e) then true else false) es then t else find_chain x l
  end.

Definition low_lit (e : string) : bool :=
  forallb (fun c => (0 <? c) && (c <? 256) && (tolower c =? c)) (lit e).
Lemma low_lit_ok : forall e, low_lit e = true -> str (lit e) /\ lower (lit e) = lit e.
Proof.
  intros e H. unfold low_lit in H. revert H. induction (lit e) as [|c l IH]; cbn [forallb]; intros H.
  - split; [constructor|reflexivity].
  - apply andb_prop in H. destruct H as [H1 H2]. destruct (IH H2) as [A B]. split.
    + constructor; auto. lia.
    + unfold lower in *. cbn [map]. rewrite B. f_equal. lia.
Qed.

Lemma any_match_ok : forall es p x, forallb low_lit es = true -> str x ->
  any_match (p ++ x ++ [0]) (zlen p) es = Ok (existsb (fun e => if list_eq_dec Z.eq_dec (lower x) (lit e) then true else false) es).
Proof.
  induction es as [|e es IH]; intros p x H Hx; cbn [any_match existsb]; [reflexivity|]. cbn [forallb] in H.
  apply andb_prop in H. destruct H as [H1 H2]. destruct (low_lit_ok e H1) as [A B].
  destruct (iStrCmp_ok p x (lit e) Hx A) as (c & -> & Hc). cbn [bind]. rewrite B in Hc.
  destruct (list_eq_dec Z.eq_dec (lower x) (lit e)) as [E|E].
  - apply Hc in E. rewrite E. reflexivity.
  - replace (c =? 0) with false; [apply IH; auto|]. symmetry. apply Z.eqb_neq. intros X. apply E, Hc, X.
Qed.
Lemma chain_ok : forall l p x, forallb (fun r => forallb low_lit (fst r)) l = true -> str x ->
  chain (p ++ x ++ [0]) (zlen p) l = Ok (find_chain (lower x) l).
Proof.
  induction l as [|[es t] l IH]; intros p x H Hx; cbn [chain find_chain]; [reflexivity|]. cbn [forallb fst] in H.
  apply andb_prop in H. destruct H as [H1 H2]. rewrite any_match_ok by auto. cbn [bind]. destruct (existsb _ es); auto.
Qed.
Lemma ext_chain_low : forallb (fun r => forallb low_lit (fst r)) ext_chain = true.
Proof. vm_compute. reflexivity. Qed.

Lemma type_ok : forall base x, str (base ++ 46 :: x) -> ~ In 46 x ->
  ilTypeFromExt (cstr (base ++ 46 :: x)) = Ok (find_chain (lower x) ext_chain, false).
Proof.
  intros base x H D. unfold ilTypeFromExt. rewrite ilStrLen_ok by auto. cbn [bind].
  assert (0 <= zlen base) by auto. assert (0 <= zlen x) by auto. rewrite zlen_app, zlen_cons.
  destruct (_ <? 1) eqn:E; [lia|]. rewrite iGetExtension_dot by auto. cbn [bind].
  unfold cstr. rewrite <- app_assoc. cbn [app]. rewrite app_snoc, <- zlen_snoc with (c := 46).
  rewrite chain_ok; [reflexivity|apply ext_chain_low|]. apply Forall_app in H. destruct H as [_ H]. inversion H; auto.
Qed.

(** A file name with a documented extension, in any case and after any base name, has its type. *)
Theorem C48_type_partial : forall base x e t, str (base ++ 46 :: x) -> ~ In 46 x ->
  In (e, t) documented -> ~ In (e, t) wrong_rows -> is_ext x e ->
  ilTypeFromExt (cstr (base ++ 46 :: x)) = Ok (t, false).
Proof.
  intros base x e t H D I W E. rewrite type_ok by auto. do 2 f_equal. rewrite E.
  assert (G : forallb (fun r => (find_chain (lit (fst r)) ext_chain =? snd r) ||
    existsb (fun w => String.eqb (fst r) (fst w) && (snd r =? snd w)) wrong_rows) documented = true) by (vm_compute; reflexivity).
  rewrite forallb_forall in G. specialize (G _ I). cbn [fst snd] in G. apply orb_prop in G. destruct G as [G|G]; [lia|].
  exfalso. apply W. apply existsb_exists in G. destruct G as ([e' t'] & I' & G). cbn [fst snd] in G.
  apply andb_prop in G. destruct G as [G1 G2]. apply String.eqb_eq in G1. apply Z.eqb_eq in G2. subst. exact I'.
Qed.
Theorem C48_undocumented : forall base x e t, str (base ++ 46 :: x) -> ~ In 46 x -> In (e, t) undocumented -> is_ext x e ->
  ilTypeFromExt (cstr (base ++ 46 :: x)) = Ok (t, false).
Proof.
  intros base x e t H D I E. rewrite type_ok by auto. do 2 f_equal. rewrite E.
  assert (G : forallb (fun r => find_chain (lit (fst r)) ext_chain =? snd r) undocumented = true) by (vm_compute; reflexivity).
  rewrite forallb_forall in G. specialize (G _ I). cbn [fst snd] in G. lia.
Qed.

(** Any other extension gives IL_TYPE_UNKNOWN. *)
Theorem C48_unknown : forall base x, str (base ++ 46 :: x) -> ~ In 46 x ->
  (forall e t, In (e, t) (documented ++ undocumented) -> ~ is_ext x e) ->
  ilTypeFromExt (cstr (base ++ 46 :: x)) = Ok (IL_TYPE_UNKNOWN, false).
Proof.
  intros base x H D N. rewrite type_ok by auto. do 2 f_equal.
  assert (G : forallb (fun r => forallb (fun e => existsb (fun d => String.eqb e (fst d)) (documented ++ undocumented)) (fst r)) ext_chain = true)
    by (vm_compute; reflexivity).
  revert G. induction ext_chain as [|[es t] l IH]; cbn [forallb find_chain fst]; intros G; [reflexivity|].
  apply andb_prop in G. destruct G as [G1 G2].
  replace (existsb _ es) with false; [auto|]. symmetry. apply not_true_is_false. intros X. apply existsb_exists in X.
  destruct X as (e & Ie & X). destruct (list_eq_dec Z.eq_dec (lower x) (lit e)) as [E|E]; [|discriminate].
  rewrite forallb_forall in G1. specialize (G1 e Ie). apply existsb_exists in G1. destruct G1 as ([e' t'] & Id & Q).
  cbn [fst] in Q. apply String.eqb_eq in Q. subst e'. apply (N e t' Id). exact E.
Qed.

(** include/IL/il.h:199,208,217 document three more rows, which do not hold: C headers and multi-page
    PCX are not recognised, and .iff (documented twice) is never Amiga ILBM. *)
Theorem C48_doc_refuted : forall base, str base ->
  ilTypeFromExt (cstr (base ++ 46 :: lit "h")) = Ok (IL_TYPE_UNKNOWN, false) /\
  ilTypeFromExt (cstr (base ++ 46 :: lit "dcx")) = Ok (IL_TYPE_UNKNOWN, false) /\
  ilTypeFromExt (cstr (base ++ 46 :: lit "iff")) = Ok (IL_IFF, false) /\ IL_IFF <> IL_ILBM.
Proof.
  intros base H. split; [|split; [|split; [|discriminate]]]; (rewrite type_ok; [vm_compute; reflexivity| |cbn; intuition lia]).
  - apply Forall_app. split; auto. cbn. repeat constructor.
  - apply Forall_app. split; auto. cbn. repeat constructor.
  - apply Forall_app. split; auto. cbn. repeat constructor.
Qed.

(** iCheckExtension agrees with iGetExtension: true exactly if the extension matches. *)
Theorem C48_check : forall base x e, str (base ++ 46 :: x) -> ~ In 46 x -> str e -> e <> [] ->
  exists b, iCheckExtension (cstr (base ++ 46 :: x)) (cstr e) = Ok b /\ (b = true <-> lower x = lower e).
Proof.
  intros base x e H D He Hn. unfold iCheckExtension. rewrite !ilStrLen_ok by auto. cbn [bind].
  assert (0 <= zlen base) by auto. assert (0 <= zlen x) by auto.
  assert (zlen e <> 0) by (destruct e; [congruence|rewrite zlen_cons; assert (0 <= zlen e) by auto; lia]).
  rewrite zlen_app, zlen_cons. destruct (_ || _) eqn:E; [lia|].
  assert (G := iGetExtension_dot base x H D). unfold iGetExtension in G. rewrite ilStrLen_ok in G by auto. cbn [bind] in G.
  rewrite zlen_app, zlen_cons in G. destruct (_ =? 0) eqn:E2 in G; [lia|].
  destruct (find_dot _ _ _) as [d| |] eqn:F; cbn [bind] in *; try discriminate.
  destruct d as [p|]; [|discriminate]. injection G as G.
  unfold cstr at 1. rewrite <- app_assoc. cbn [app]. rewrite app_snoc. rewrite G.
  rewrite <- zlen_snoc with (c := 46).
  assert (Hx : str x) by (apply Forall_app in H; destruct H as [_ H]; inversion H; auto).
  destruct (iStrCmp_ok (base ++ [46]) x e Hx He) as (c & -> & Hc). cbn [bind]. eexists. split; [reflexivity|].
  rewrite <- Hc. lia.
Qed.

Example C48_ex : ilTypeFromExt (cstr (lit "dir/my.image.JpEg")) = Ok (IL_JPG, false) /\ is_ext (lit "JpEg") "jpeg" /\
  iCheckExtension (cstr (lit "a.TGA")) (cstr (lit "tga")) = Ok true.
Proof. vm_compute. auto. Qed.

(** ** C49: the integer square root

    For every non-negative int the result is at most the square root, less than 1/16 below it (plus
    one), and exact below 289. *)

(** one table row covers [2^k] arguments: check of the bounds for every table index of a range *)
Definition row_ok (k : Z) (val : Z -> Z) (b : Z) : bool :=
  let r := val (geti sqrt_table b) in
  (0 <=? r) && (r * r <=? b * 2 ^ k) && (225 * ((b + 1) * 2 ^ k) <=? 256 * ((r + 1) * (r + 1))).
Definition rows (lo n : Z) : list Z := map (fun i => lo + Z.of_nat i) (seq 0 (Z.to_nat n)).
Lemma rows_in : forall lo n b, lo <= b < lo + n -> In b (rows lo n).
Proof. intros lo n b H. unfold rows. apply in_map_iff. exists (Z.to_nat (b - lo)). split; [lia|]. apply in_seq. lia. Qed.

Lemma range_ok : forall k val lo n x, 0 <= k -> 0 <= lo -> lo + n <= 256 ->
  forallb (row_ok k val) (rows lo n) = true -> lo * 2 ^ k <= x < (lo + n) * 2 ^ k ->
  exists v, rd sqrt_table (x / 2 ^ k) = Ok v /\ 0 <= val v /\ val v * val v <= x /\ 225 * x <= 256 * ((val v + 1) * (val v + 1)).
Proof.
  intros k val lo n x Hk Hlo Hn F Hx. assert (P : 0 < 2 ^ k) by (apply Z.pow_pos_nonneg; lia).
  set (b := x / 2 ^ k).
  assert (B1 : b * 2 ^ k <= x) by (unfold b; rewrite Z.mul_comm; apply Z.mul_div_le; lia).
  assert (B2 : x < (b + 1) * 2 ^ k).
  { unfold b. rewrite Z.mul_comm. replace (x / 2 ^ k + 1) with (Z.succ (x / 2 ^ k)) by lia. apply Z.mul_succ_div_gt. lia. }
  assert (Hb : lo <= b < lo + n).
  { split; [apply Z.div_le_lower_bound; [lia|rewrite Z.mul_comm; lia]|apply Z.div_lt_upper_bound; [lia|rewrite Z.mul_comm; lia]]. }
  clearbody b. rewrite forallb_forall in F. specialize (F b (rows_in lo n b Hb)). unfold row_ok in F.
  exists (geti sqrt_table b). split; [apply rd_ok; change (zlen sqrt_table) with 256; lia|].
  set (r := val (geti sqrt_table b)) in *. set (rr := r * r) in *. set (r1 := (r + 1) * (r + 1)) in *.
  set (bk := b * 2 ^ k) in *. set (bk1 := (b + 1) * 2 ^ k) in *. lia.
Qed.

Ltac row x k val lo n :=
  let v := fresh in let E := fresh in
  destruct (range_ok k val lo n x) as (v & E & ? & ? & ?);
    [lia|lia|lia|vm_compute; reflexivity|lia|];
  rewrite E; cbn [bind]; eexists; split; [reflexivity|]; auto.

Theorem C49_sqrt : forall x, 0 <= x < 2147483648 ->
  exists r, iSqrt x = Ok r /\ 0 <= r /\ r * r <= x /\ 225 * x <= 256 * ((r + 1) * (r + 1)).
Proof.
  intros x H. unfold iSqrt.
  destruct (0x10000 <=? x) eqn:E1.
  - destruct (0x1000000 <=? x) eqn:E2.
    + destruct (0x10000000 <=? x) eqn:E3.
      * destruct (0x40000000 <=? x) eqn:E4.
        -- row x 24 (fun v => v * 2 ^ 8) 64 64.
        -- row x 22 (fun v => v * 2 ^ 7) 64 192.
      * destruct (0x4000000 <=? x) eqn:E4.
        -- row x 20 (fun v => v * 2 ^ 6) 64 192.
        -- row x 18 (fun v => v * 2 ^ 5) 64 192.
    + destruct (0x100000 <=? x) eqn:E3.
      * destruct (0x400000 <=? x) eqn:E4.
        -- row x 16 (fun v => v * 2 ^ 4) 64 192.
        -- row x 14 (fun v => v * 2 ^ 3) 64 192.
      * destruct (0x40000 <=? x) eqn:E4.
        -- row x 12 (fun v => v * 2 ^ 2) 64 192.
        -- row x 10 (fun v => v * 2 ^ 1) 64 192.
  - destruct (0x100 <=? x) eqn:E2.
    + destruct (0x1000 <=? x) eqn:E3.
      * destruct (0x4000 <=? x) eqn:E4.
        -- row x 8 (fun v : Z => v) 64 192.
        -- row x 6 (fun v => v / 2 ^ 1) 64 192.
      * destruct (0x400 <=? x) eqn:E4.
        -- row x 4 (fun v => v / 2 ^ 2) 64 192.
        -- row x 2 (fun v => v / 2 ^ 3) 64 192.
    + replace (0 <=? x) with true by lia. row x 0 (fun v => v / 2 ^ 4) 0 256.
Qed.

Theorem C49_exact : forall x, 0 <= x < 289 -> exists r, iSqrt x = Ok r /\ r * r <= x < (r + 1) * (r + 1).
Proof.
  intros x H.
  assert (G : forallb (fun x => match iSqrt x with Ok r => (r * r <=? x) && (x <? (r + 1) * (r + 1)) | _ => false end) (rows 0 289) = true)
    by (vm_compute; reflexivity).
  rewrite forallb_forall in G. specialize (G x (rows_in 0 289 x ltac:(lia))).
  destruct (iSqrt x) as [r| |]; [|discriminate|discriminate]. exists r. split; [reflexivity|].
  set (a := r * r) in *. set (b := (r + 1) * (r + 1)) in *. lia.
Qed.
Theorem C49_289_refuted : iSqrt 289 = Ok 16.
Proof. reflexivity. Qed.

(** ** C50: reading a line *)

(** A line of [n] characters followed by a line feed, with [n] at most [maxlen], lands in a buffer of
    at least [maxlen + 1] bytes, followed by a zero, and the line feed is consumed. *)
Definition line (s : list Z) : Prop := Forall (fun c => 0 < c < 256 /\ c <> 10) s.

Lemma fgets_line : forall s inp buffer maxlen counter fuel, line s -> 0 <= counter -> counter + zlen s <= maxlen ->
  maxlen < zlen buffer -> (fuel > List.length s)%nat ->
  (match inp with c :: _ => c = 10 | [] => True end \/ counter + zlen s = maxlen) ->
  fgets_loop fuel (s ++ inp) buffer maxlen counter =
  Ok (splice buffer counter s, match inp with c :: _ => c | [] => -1 end, counter + zlen s, tl inp).
Proof.
  induction s as [|c s IH]; intros inp buffer maxlen counter fuel L Hc Hm Hb Hf Hi; (destruct fuel as [|fuel]; [cbn in Hf; lia|]); cbn [fgets_loop app].
  - rewrite zlen_nil, Z.add_0_r in *. set (t := match inp with c :: _ => c | [] => -1 end).
    replace (negb (t =? 0) && negb (t =? 10) && negb (t =? -1) && (counter <? maxlen)) with false.
    + f_equal. f_equal. f_equal. f_equal. unfold splice. cbn [app List.length]. rewrite Nat.add_0_r. symmetry. apply firstn_skipn.
    + symmetry. destruct Hi as [Hi|Hi].
      * destruct inp as [|c inp]; unfold t; [reflexivity|]. subst c. reflexivity.
      * replace (counter <? maxlen) with false by lia. apply andb_false_r.
  - inversion L as [|? ? [C1 C2] Ls]; subst. rewrite zlen_cons in *. assert (0 <= zlen s) by auto. cbn [tl].
    replace (negb (c =? 0) && negb (c =? 10) && negb (c =? -1) && (counter <? maxlen)) with true by lia.
    rewrite wr_ok by lia. cbn [bind]. assert (E : zlen (upd buffer counter c) = zlen buffer) by (apply zlen_upd; lia).
    rewrite IH; auto; try lia; [|cbn in Hf; lia|].
    + rewrite LumpProofs.splice_upd by lia. replace (counter + 1 + zlen s) with (counter + (1 + zlen s)) by lia. reflexivity.
    + destruct Hi as [Hi|Hi]; [auto|right; lia].
Qed.

Theorem C50_line_partial : forall s rest buffer maxlen, line s -> zlen s <= maxlen -> maxlen < zlen buffer ->
  exists b, iFgets (s ++ 10 :: rest) buffer maxlen = Ok (Some b, rest) /\
    zlen b = zlen buffer /\ firstn (List.length s) b = s /\ geti b (zlen s) = 0.
Proof.
  intros s rest buffer maxlen L Hm Hb. assert (0 <= zlen s) by auto. unfold iFgets.
  rewrite (fgets_line s (10 :: rest)); auto; try lia.
  2:{ rewrite app_length. cbn. lia. }
  cbn [bind tl]. assert (Z1 : zlen (splice buffer 0 s) = zlen buffer) by (apply zlen_splice; lia).
  rewrite wr_ok by lia. cbn [bind]. change ((10 =? -1) && (0 + zlen s =? 0)) with false. cbv iota.
  eexists. split; [reflexivity|]. rewrite Z.add_0_l. split; [rewrite zlen_upd; lia|]. split.
  - replace (firstn (List.length s) (upd (splice buffer 0 s) (zlen s) 0)) with (slice (upd (splice buffer 0 s) (zlen s) 0) 0 (zlen s)).
    2:{ unfold slice. change (Z.to_nat 0) with O. cbn [skipn]. f_equal. unfold zlen. apply Nat2Z.id. }
    assert (Z2 : zlen (upd (splice buffer 0 s) (zlen s) 0) = zlen buffer) by (rewrite zlen_upd; lia).
    apply list_ext; [rewrite zlen_slice; lia|]. intros j Hj. rewrite zlen_slice in Hj by lia. rewrite geti_slice by lia.
    rewrite geti_upd by lia. destruct (0 + j =? zlen s) eqn:E; [lia|]. rewrite geti_splice by lia.
    replace ((0 <=? 0 + j) && (0 + j <? 0 + zlen s)) with true by lia. f_equal. lia.
  - rewrite geti_upd by lia. rewrite Z.eqb_refl. reflexivity.
Qed.

(** A line longer than the limit is cut, and the character that did not fit is lost. *)
Theorem C50_long_line : forall s c rest buffer maxlen, line s -> zlen s = maxlen -> maxlen < zlen buffer -> 0 < c < 256 -> c <> 10 ->
  exists b, iFgets (s ++ c :: rest) buffer maxlen = Ok (Some b, rest).
Proof.
  intros s c rest buffer maxlen L Hm Hb Hc Hc2. assert (0 <= zlen s) by auto. unfold iFgets.
  rewrite (fgets_line s (c :: rest)); auto; try lia.
  2:{ rewrite app_length. cbn. lia. }
  cbn [bind tl]. assert (Z1 : zlen (splice buffer 0 s) = zlen buffer) by (apply zlen_splice; lia).
  rewrite wr_ok by lia. cbn [bind]. replace ((c =? -1) && (0 + zlen s =? 0)) with false by lia. eauto.
Qed.

(** Counterexample to the full C50: with a buffer of exactly [maxlen] bytes, which is what
    il_pnm.cpp:31,342 passes, a line of [maxlen] characters writes outside it. *)
Theorem C50_overflow_refuted : forall s rest buffer, line s -> zlen s = zlen buffer ->
  iFgets (s ++ 10 :: rest) buffer (zlen buffer) = UB.
Proof.
  intros s rest buffer L Hm. unfold iFgets.
  assert (G : forall s buffer counter fuel, line s -> 0 <= counter -> counter + zlen s = zlen buffer -> (fuel > List.length s)%nat ->
     exists b, fgets_loop fuel (s ++ 10 :: rest) buffer (zlen buffer) counter = Ok (b, 10, zlen buffer, rest) /\ zlen b = zlen buffer).
  { clear. induction s as [|c s IH]; intros buffer counter fuel L Hc Hm Hf; (destruct fuel as [|fuel]; [cbn in Hf; lia|]); cbn [fgets_loop app].
    - rewrite zlen_nil, Z.add_0_r in Hm. subst counter. change (negb (10 =? 10)) with false. rewrite andb_false_r. cbn [andb tl]. eauto.
    - inversion L as [|? ? [C1 C2] Ls]; subst. rewrite zlen_cons in *. assert (0 <= zlen s) by auto. cbn [tl].
      replace (negb (c =? 0) && negb (c =? 10) && negb (c =? -1) && (counter <? zlen buffer)) with true by lia.
      rewrite wr_ok by lia. cbn [bind]. assert (E : zlen (upd buffer counter c) = zlen buffer) by (apply zlen_upd; lia).
      destruct (IH (upd buffer counter c) (counter + 1) fuel Ls) as (b & E1 & E2); try lia; [cbn in Hf; lia|].
      rewrite E in E1, E2. exists b. auto. }
  destruct (G s buffer 0 (S (List.length (s ++ 10 :: rest))) L) as (b & -> & E); try lia.
  { rewrite app_length. cbn. lia. }
  cbn [bind]. rewrite wr_ub by lia. reflexivity.
Qed.

Example C50_ex : line [65;66;67] /\ iFgets [65;66;67;10;68] [1;1;1;1;1] 4 = Ok (Some [65;66;67;0;1], [68]).
Proof. split; [repeat constructor; lia|reflexivity]. Qed.

Print Assumptions C48_extension.
Print Assumptions C48_no_extension.
Print Assumptions C48_type_partial.
Print Assumptions C48_undocumented.
Print Assumptions C48_unknown.
Print Assumptions C48_doc_refuted.
Print Assumptions C48_check.
Print Assumptions C49_sqrt.
Print Assumptions C49_exact.
Print Assumptions C50_line_partial.
Print Assumptions C50_long_line.
Print Assumptions C50_overflow_refuted.
