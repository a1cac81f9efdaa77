(** Property theorems C20 (integer modes), C43 (format strings), C44 (clipping). *)
From Coq Require Import ZArith List Bool Lia.
From Verif Require Import Base Enums ErrorStack ErrorStackProofs Utility Image States StatesSpec StatesProofs StatesProps.
Import ListNotations.
Open Scope Z_scope.

Definition reachable (g : gst) : Prop := exists ok v h, srun ok h (g_init v) = Ok g.
Lemma reachable_inv : forall g, reachable g -> inv g.
Proof. intros g [ok [v [h E]]]. eapply run_inv; [apply inv_init|exact E]. Qed.

Lemma i32_u32 : forall p, is_int p -> i32 (u32 p) = p.
Proof. intros p H. unfold is_int, i32, u32 in *. lia. Qed.

(** the mode that reads a member *)
Definition get_mode_of (f : ifld) : Z :=
  match f with
  | Compression => IL_COMPRESS_MODE | FormatMode => IL_FORMAT_MODE | Interlace => IL_INTERLACE_MODE
  | KeepDxtcData => IL_KEEP_DXTC_DATA | OriginMode => IL_ORIGIN_MODE
  | QuantMaxIndexs => IL_MAX_QUANT_INDICES | NeuSample => IL_NEU_QUANT_SAMPLE
  | QuantMode => IL_QUANTIZATION_MODE | TypeMode => IL_TYPE_MODE
  | BmpRle => IL_BMP_RLE | DxtcFormat => IL_DXTC_FORMAT | JpgQuality => IL_JPG_QUALITY
  | JpgFormat => IL_JPG_SAVE_FORMAT | PcdPicNum => IL_PCD_PICNUM
  | PngAlphaIndex => IL_PNG_ALPHA_INDEX | PngInterlace => IL_PNG_INTERLACE | SgiRle => IL_SGI_RLE
  | TgaCreateStamp => IL_TGA_CREATE_STAMP | TgaRle => IL_TGA_RLE | VtfCompression => IL_VTF_COMP
  | AutoConvPal => IL_CONV_PAL | DefaultOnFail => IL_DEFAULT_ON_FAIL | OverWriteFiles => IL_FILE_MODE
  | FormatSet => IL_FORMAT_SET | OriginSet => IL_ORIGIN_SET | TypeSet => IL_TYPE_SET
  | UseKeyColour => IL_USE_KEY_COLOUR | BlitBlend => IL_BLIT_BLEND
  | JpgProgressive => IL_JPG_PROGRESSIVE | UseNVidiaDXT => IL_NVIDIA_COMPRESS
  | UseSquishDXT => IL_SQUISH_COMPRESS
  end.
Lemma get_mode_of_ok : forall m f, switch m get_modes = Some f -> m = get_mode_of f.
Proof.
  intros m f H. apply switch_In in H. unfold get_modes in H. cbn [In] in H.
  in_cases H; injection H as <- <-; reflexivity.
Qed.
Lemma set_get_mode : forall m f chk, switch m set_modes = Some (f, chk) -> switch m get_modes = Some f.
Proof.
  intros m f chk H. apply switch_In in H. unfold set_modes in H. cbn [In] in H.
  in_cases H; injection H as <- <- _; reflexivity.
Qed.

(** setting a member through the mode that reads it *)
Lemma set_int_answers : forall m f x g g', inv g -> switch m get_modes = Some f ->
  set_int f x g = Ok g' ->
  errs g' = errs g /\ answer (ilGetInteger m g') = Some (i32 x) /\
  forall m', m' <> m -> answer (ilGetInteger m' g') = answer (ilGetInteger m' g).
Proof.
  intros m f x g g' H Hf E. rewrite set_int_ok in E by apply H. injection E as <-.
  assert (F := frame_int f x g H). assert (I' := fr_inv _ _ F).
  split; [reflexivity|]. split.
  - rewrite getint_eq by exact I'. rewrite Hf. unfold after_int. cbn. rewrite zupd_eq. cbn.
    rewrite iupd_eq. reflexivity.
  - intros m' Hm. rewrite !getint_eq by assumption. cbn [cur after_int set_slots pos slots].
    destruct (switch m' get_modes) as [k|] eqn:Sk; [|reflexivity].
    unfold after_int. cbn. rewrite zupd_eq. cbn. rewrite iupd_neq; [reflexivity|].
    intros ->. apply Hm. apply get_mode_of_ok in Hf, Sk. congruence.
Qed.

(** What a rejected call may do: raise errors, nothing else *)
Definition only_errors (g g' : gst) : Prop := g' = set_errs g (errs g').

Lemma raise_only : forall e g, inv g -> exists g', raise e g = Ok g' /\ raised e g g' /\ only_errors g g'.
Proof.
  intros e g H. destruct (raise_ok e g (inv_est _ H)) as [s [E [R _]]].
  exists (set_errs g s). split; [exact R|]. split; [exact E|reflexivity].
Qed.

(** image attributes *)
Lemma attr_answers : forall v m x g, inv g -> cur g = Some v ->
  (m = IL_IMAGE_DURATION \/ m = IL_IMAGE_OFFX \/ m = IL_IMAGE_OFFY \/ m = IL_IMAGE_CUBEFLAGS) ->
  forall s, est_wf s ->
  let g' := set_errs (set_cur g (Some (with_view_img v (with_attr (v_img v) m x)))) s in
  answer (ilGetInteger m g') = Some (i32 x) /\
  forall m', m' <> m -> answer (ilGetInteger m' g') = answer (ilGetInteger m' g).
Proof.
  intros v m x g H C Hm s W g'.
  assert (I' : inv g').
  { unfold g'. destruct (frame_trans_errs _ _ s (frame_cur g (Some (with_view_img v (with_attr (v_img v) m x))) H) W). assumption. }
  split.
  - rewrite getint_eq by exact I'. unfold g'. cbn [cur set_errs set_cur].
    destruct Hm as [ -> | [ -> | [ -> | -> ]]]; reflexivity.
  - intros m' N. rewrite !getint_eq by assumption. unfold g'. cbn [cur set_errs set_cur slots pos].
    destruct (switch m' get_modes); [reflexivity|]. rewrite C. f_equal.
    unfold img_answer. cbn [v_name v_active with_view_img].
    destruct (m' =? IL_CUR_IMAGE); [reflexivity|]. destruct (m' =? IL_VERSION_NUM); [reflexivity|].
    destruct (_ || _); [reflexivity|].
    replace (image_query (with_view_img v (with_attr (v_img v) m x)) m') with (image_query v m'); [reflexivity|].
    unfold image_query.
    cbn [v_img with_view_img with_attr v_dxtc v_dxtc_size v_dxtc_fmt v_next
      v_mipmaps v_layers v_faces Width Height Depth Bpp Bpc Bps Data SizeOfData SizeOfPlane Format Type_
      Origin Pal Duration CubeFlags OffX OffY].
    destruct Hm as [ -> | [ -> | [ -> | -> ]]];
    change (IL_IMAGE_DURATION =? IL_IMAGE_DURATION) with true;
    change (IL_IMAGE_OFFX =? IL_IMAGE_OFFX) with true;
    change (IL_IMAGE_OFFY =? IL_IMAGE_OFFY) with true;
    change (IL_IMAGE_CUBEFLAGS =? IL_IMAGE_CUBEFLAGS) with true;
    cbn [switch]; apply Z.eqb_neq in N;
    repeat match goal with |- context [IL_IMAGE_DURATION =? ?k] => change (IL_IMAGE_DURATION =? k) with false end;
    repeat match goal with |- context [IL_IMAGE_OFFX =? ?k] => change (IL_IMAGE_OFFX =? k) with false end;
    repeat match goal with |- context [IL_IMAGE_OFFY =? ?k] => change (IL_IMAGE_OFFY =? k) with false end;
    repeat match goal with |- context [IL_IMAGE_CUBEFLAGS =? ?k] => change (IL_IMAGE_CUBEFLAGS =? k) with false end;
    rewrite N; reflexivity.
Qed.

(** C20.  In every reachable state, for every mode [m] other than IL_IMAGE_CUBEFLAGS and every
    [int] [p], [ilSetInteger(m,p)] returns and
    - either it is accepted: no error is raised, [ilGetInteger(m)] now answers [p], and every
      other mode answers as before;
    - or it is rejected: nothing but the error stack changes, and the last error raised is
      IL_INVALID_PARAM or IL_INVALID_ENUM. *)
Theorem C20_set_get_partial : forall g m p, reachable g -> is_int p -> m <> IL_IMAGE_CUBEFLAGS ->
  exists g', ilSetInteger m p g = Ok g' /\
   ((errs g' = errs g /\ answer (ilGetInteger m g') = Some p /\
     forall m', m' <> m -> answer (ilGetInteger m' g') = answer (ilGetInteger m' g))
    \/
    (only_errors g g' /\
     exists g1 e, only_errors g g1 /\ raised e g1 g' /\ (e = IL_INVALID_PARAM \/ e = IL_INVALID_ENUM))).
Proof.
  intros g m p HR Hp Hm. assert (H := reachable_inv g HR). clear HR.
  assert (R1 : forall e, (e = IL_INVALID_PARAM \/ e = IL_INVALID_ENUM) -> exists g', raise e g = Ok g' /\
     only_errors g g' /\ exists g1 e0, only_errors g g1 /\ raised e0 g1 g' /\ (e0 = IL_INVALID_PARAM \/ e0 = IL_INVALID_ENUM)).
  { intros e He. destruct (raise_only e g H) as [g' [E [Ra O]]]. exists g'. split; [exact E|]. split; [exact O|].
    exists g, e. split; [destruct g; reflexivity|]. auto. }
  assert (FN : forall f (c : bool), switch m get_modes = Some f ->
    exists g', (let! (_, g0) := (if c then let! g0 := set_int f (u32 p) g in Ok (IL_TRUE, g0)
               else let! g0 := raise IL_INVALID_PARAM g in Ok (IL_FALSE, g0)) in Ok g0) = Ok g' /\
   ((errs g' = errs g /\ answer (ilGetInteger m g') = Some p /\
     forall m', m' <> m -> answer (ilGetInteger m' g') = answer (ilGetInteger m' g))
    \/
    (only_errors g g' /\
     exists g1 e, only_errors g g1 /\ raised e g1 g' /\ (e = IL_INVALID_PARAM \/ e = IL_INVALID_ENUM)))).
  { intros f c Hf. destruct c.
    - assert (E := set_int_ok f (u32 p) g (inv_pos _ H)). rewrite E. cbn [bind].
      eexists. split; [reflexivity|]. left.
      destruct (set_int_answers m f (u32 p) g _ H Hf E) as [A [B C]]. rewrite i32_u32 in B by exact Hp. auto.
    - destruct (R1 IL_INVALID_PARAM ltac:(auto)) as [g' [E O]]. rewrite E. cbn [bind]. exists g'. auto. }
  unfold ilSetInteger.
  destruct (Z.eqb_spec m IL_FORMAT_MODE) as [->|_]; [apply FN; reflexivity|].
  destruct (Z.eqb_spec m IL_ORIGIN_MODE) as [->|_]; [apply FN; reflexivity|].
  destruct (Z.eqb_spec m IL_TYPE_MODE) as [->|_]; [apply FN; reflexivity|].
  destruct ((m =? IL_IMAGE_DURATION) || (m =? IL_IMAGE_OFFX) || (m =? IL_IMAGE_OFFY)) eqn:IM.
  { destruct (cur g) as [v|] eqn:C.
    - eexists. split; [reflexivity|]. left.
      destruct (attr_answers v m (u32 p) g H C) with (s := errs g) as [A B].
      { apply orb_true_iff in IM. destruct IM as [IM|IM]; [apply orb_true_iff in IM; destruct IM|]; lia. }
      { apply H. }
      rewrite i32_u32 in A by exact Hp.
      change (set_errs (set_cur g ?x) (errs g)) with (set_cur g x) in A, B. auto.
    - destruct (raise_only IL_ILLEGAL_OPERATION g H) as [g1 [E1 [Ra1 O1]]]. rewrite E1. cbn [bind].
      assert (I1 : inv g1) by (destruct (raise_frame IL_ILLEGAL_OPERATION g H) as [gx [Ex Fx]];
        rewrite E1 in Ex; injection Ex as ->; apply Fx).
      destruct (raise_only IL_INVALID_PARAM g1 I1) as [g2 [E2 [Ra2 O2]]]. exists g2. split; [exact E2|].
      right. split.
      + unfold only_errors in *. rewrite O2, O1. reflexivity.
      + exists g1, IL_INVALID_PARAM. auto. }
  destruct (Z.eqb_spec m IL_IMAGE_CUBEFLAGS) as [->|_]; [congruence|].
  destruct (switch m set_modes) as [[f chk]|] eqn:Sm.
  - destruct (chk p).
    + assert (E := set_int_ok f (store f p) g (inv_pos _ H)).
      eexists. split; [exact E|]. left.
      destruct (set_int_answers m f (store f p) g _ H (set_get_mode _ _ _ Sm) E) as [A [B C]].
      split; [exact A|]. split; [|exact C]. rewrite B. f_equal.
      unfold store. destruct f; try (apply i32_u32; exact Hp).
      apply i32_small. unfold is_int in Hp. lia.
    + destruct (R1 IL_INVALID_PARAM ltac:(auto)) as [g' [E O]]. exists g'. auto.
  - destruct (R1 IL_INVALID_ENUM ltac:(auto)) as [g' [E O]]. exists g'. auto.
Qed.
Print Assumptions C20_set_get_partial.

Example C20_hyp_met : reachable (g_init None) /\ is_int 5 /\ IL_JPG_QUALITY <> IL_IMAGE_CUBEFLAGS.
Proof. split; [exists (fun _ => true), None, []; reflexivity|]. split; [unfold is_int; lia|discriminate]. Qed.

(** C20, ranges.  For every mode with a documented range, except the three refuted below, a value
    is accepted exactly when it is in the documented range. *)
Theorem C20_range_exact : forall g m p b, reachable g -> is_int p -> documented m p = Some b ->
  m <> IL_PCD_PICNUM -> m <> IL_PNG_ALPHA_INDEX -> m <> IL_DXTC_FORMAT ->
  exists g', ilSetInteger m p g = Ok g' /\
    (b = true -> errs g' = errs g /\ answer (ilGetInteger m g') = Some p) /\
    (b = false -> raised IL_INVALID_PARAM g g' /\ only_errors g g').
Proof.
  intros g m p b HR Hp Hd N1 N2 N3. assert (H := reachable_inv g HR). clear HR.
  assert (RJ : exists g', raise IL_INVALID_PARAM g = Ok g' /\ raised IL_INVALID_PARAM g g' /\ only_errors g g')
    by (apply raise_only; exact H).
  assert (FN : forall f (c : bool), switch m get_modes = Some f -> c = b ->
    exists g', (let! (_, g0) := (if c then let! g0 := set_int f (u32 p) g in Ok (IL_TRUE, g0)
               else let! g0 := raise IL_INVALID_PARAM g in Ok (IL_FALSE, g0)) in Ok g0) = Ok g' /\
    (b = true -> errs g' = errs g /\ answer (ilGetInteger m g') = Some p) /\
    (b = false -> raised IL_INVALID_PARAM g g' /\ only_errors g g')).
  { intros f c Hf <-. destruct c.
    - assert (E := set_int_ok f (u32 p) g (inv_pos _ H)). rewrite E. cbn [bind].
      eexists. split; [reflexivity|]. split; [intros _|discriminate].
      destruct (set_int_answers m f (u32 p) g _ H Hf E) as [A [B C]]. rewrite i32_u32 in B by exact Hp. auto.
    - destruct RJ as [g' [E O]]. rewrite E. cbn [bind]. exists g'. split; [reflexivity|].
      split; [discriminate|auto]. }
  assert (FS : forall f (c : bool), switch m get_modes = Some f -> f <> PngAlphaIndex -> c = b ->
    exists g', (if c then set_int f (store f p) g else raise IL_INVALID_PARAM g) = Ok g' /\
    (b = true -> errs g' = errs g /\ answer (ilGetInteger m g') = Some p) /\
    (b = false -> raised IL_INVALID_PARAM g g' /\ only_errors g g')).
  { intros f c Hf Nf <-. destruct c.
    - assert (E := set_int_ok f (store f p) g (inv_pos _ H)). rewrite E.
      eexists. split; [reflexivity|]. split; [intros _|discriminate].
      destruct (set_int_answers m f (store f p) g _ H Hf E) as [A [B C]]. split; [exact A|].
      rewrite B. f_equal. unfold store. destruct f; try (apply i32_u32; exact Hp). congruence.
    - destruct RJ as [g' [E O]]. rewrite E. exists g'. split; [reflexivity|].
      split; [discriminate|auto]. }
  assert (U : forall k, 0 <= k < 2147483648 -> (u32 p =? k) = (p =? k)).
  { intros k Hk. unfold is_int in Hp. unfold u32.
    destruct (Z.eqb_spec p k); destruct (Z.eqb_spec (p mod 4294967296) k); try reflexivity; lia. }
  unfold documented in Hd. unfold ilSetInteger.
  destruct (Z.eqb_spec m IL_FORMAT_MODE) as [->|_].
  { injection Hd as Hd. apply FN; [reflexivity|]. rewrite <- Hd. cbn [existsb].
    rewrite !U by (vm_compute; split; [discriminate|reflexivity]).
    rewrite !orb_false_r, !orb_assoc. reflexivity. }
  destruct (Z.eqb_spec m IL_TYPE_MODE) as [->|_].
  { injection Hd as Hd. apply FN; [reflexivity|]. rewrite <- Hd. cbn [existsb].
    rewrite !U by (vm_compute; split; [discriminate|reflexivity]).
    rewrite !orb_false_r, !orb_assoc. reflexivity. }
  destruct (Z.eqb_spec m IL_ORIGIN_MODE) as [->|_].
  { injection Hd as Hd. apply FN; [reflexivity|]. rewrite <- Hd. cbn [existsb].
    rewrite !U by (vm_compute; split; [discriminate|reflexivity]).
    rewrite !orb_false_r. reflexivity. }
  destruct (existsb (Z.eqb m) _) eqn:Ex in Hd.
  { injection Hd as Hd. cbn [existsb] in Ex.
    assert (In m [IL_KEEP_DXTC_DATA; IL_BMP_RLE; IL_PNG_INTERLACE; IL_SGI_RLE; IL_TGA_CREATE_STAMP; IL_TGA_RLE]) as HI.
    { apply existsb_exists with (f := Z.eqb m) in Ex || idtac.
      assert (Q : exists x, In x [IL_KEEP_DXTC_DATA; IL_BMP_RLE; IL_PNG_INTERLACE; IL_SGI_RLE; IL_TGA_CREATE_STAMP; IL_TGA_RLE] /\ (m =? x) = true).
      { apply existsb_exists. exact Ex. }
      destruct Q as [x [Hx Qx]]. apply Z.eqb_eq in Qx. subst x. exact Hx. }
    cbn [In] in HI. in_cases HI; subst m; apply FS; (reflexivity || discriminate || exact Hd). }
  clear Ex.
  destruct (Z.eqb_spec m IL_MAX_QUANT_INDICES) as [->|_]; [injection Hd as Hd; apply FS; (reflexivity || discriminate || exact Hd)|].
  destruct (Z.eqb_spec m IL_NEU_QUANT_SAMPLE) as [->|_]; [injection Hd as Hd; apply FS; (reflexivity || discriminate || exact Hd)|].
  destruct (Z.eqb_spec m IL_QUANTIZATION_MODE) as [->|_]; [injection Hd as Hd; apply FS; (reflexivity || discriminate || exact Hd)|].
  destruct (Z.eqb_spec m IL_JPG_SAVE_FORMAT) as [->|_]; [injection Hd as Hd; apply FS; (reflexivity || discriminate || exact Hd)|].
  destruct (Z.eqb_spec m IL_JPG_QUALITY) as [->|_]; [injection Hd as Hd; apply FS; (reflexivity || discriminate || exact Hd)|].
  destruct (Z.eqb_spec m IL_VTF_COMP) as [->|_].
  { injection Hd as Hd. apply FS; [reflexivity|discriminate|]. rewrite <- Hd. cbn [existsb].
    rewrite orb_false_r, !orb_assoc. reflexivity. }
  destruct (Z.eqb_spec m IL_PCD_PICNUM); [congruence|].
  destruct (Z.eqb_spec m IL_PNG_ALPHA_INDEX); [congruence|].
  destruct (Z.eqb_spec m IL_DXTC_FORMAT); [congruence|]. discriminate.
Qed.
Print Assumptions C20_range_exact.

Example C20_range_met : documented IL_JPG_QUALITY 100 = Some false /\ documented IL_JPG_QUALITY 99 = Some true.
Proof. split; reflexivity. Qed.

(** C20, refuted part 1: IL_PCD_PICNUM, IL_PNG_ALPHA_INDEX and IL_DXTC_FORMAT accept every [int]:
    the range checks are disjunctions that are always true. *)
Theorem C20_range_refuted : forall g p, reachable g -> is_int p ->
  forall m, m = IL_PCD_PICNUM \/ m = IL_PNG_ALPHA_INDEX \/ m = IL_DXTC_FORMAT ->
  exists g', ilSetInteger m p g = Ok g' /\ errs g' = errs g /\ answer (ilGetInteger m g') = Some p.
Proof.
  intros g p HR Hp m Hm. assert (H := reachable_inv g HR).
  assert (FS : forall f (c : bool), switch m get_modes = Some f -> c = true ->
    exists g', (if c then set_int f (store f p) g else raise IL_INVALID_PARAM g) = Ok g' /\
    errs g' = errs g /\ answer (ilGetInteger m g') = Some p).
  { intros f c Hf ->. assert (E := set_int_ok f (store f p) g (inv_pos _ H)). rewrite E.
    eexists. split; [reflexivity|].
    destruct (set_int_answers m f (store f p) g _ H Hf E) as [A [B C]]. split; [exact A|].
    rewrite B. f_equal. unfold store. destruct f; try (apply i32_u32; exact Hp).
    apply i32_small. unfold is_int in Hp. lia. }
  destruct Hm as [ -> | [ -> | -> ]]; apply FS; try reflexivity.
  - lia.
  - lia.
  - unfold IL_DXT1, IL_DXT5. lia.
Qed.
Print Assumptions C20_range_refuted.

Example C20_range_refuted_is_out_of_range :
  documented IL_PCD_PICNUM 77 = Some false /\ documented IL_PNG_ALPHA_INDEX 1000 = Some false /\
  documented IL_DXTC_FORMAT 0 = Some false.
Proof. repeat split. Qed.

(** C20, refuted part 2: setting IL_IMAGE_CUBEFLAGS on a bound image changes the value but still
    raises IL_INVALID_PARAM, for every value. *)
Theorem C20_cubeflags_refuted : forall g v p, reachable g -> cur g = Some v -> is_int p ->
  exists g', ilSetInteger IL_IMAGE_CUBEFLAGS p g = Ok g' /\
    answer (ilGetInteger IL_IMAGE_CUBEFLAGS g') = Some p /\ raised IL_INVALID_PARAM g g'.
Proof.
  intros g v p HR C Hp. assert (H := reachable_inv g HR).
  change (ilSetInteger IL_IMAGE_CUBEFLAGS p g) with
    (match cur g with
    | None => let! g := raise IL_ILLEGAL_OPERATION g in raise IL_INVALID_PARAM g
    | Some v => raise IL_INVALID_PARAM (set_cur g (Some (with_view_img v (with_attr (v_img v) IL_IMAGE_CUBEFLAGS (u32 p)))))
    end). rewrite C.
  match goal with |- context [raise _ (set_cur g ?c)] =>
    destruct (raise_ok IL_INVALID_PARAM (set_cur g c) (inv_est _ H)) as [s [E [R W]]] end.
  rewrite R. eexists. split; [reflexivity|].
  destruct (attr_answers v IL_IMAGE_CUBEFLAGS (u32 p) g H C ltac:(auto) s W) as [A _].
  rewrite i32_u32 in A by exact Hp. split; [exact A|exact E].
Qed.
Print Assumptions C20_cubeflags_refuted.

(** A small image view used to show that the hypotheses can be met *)
Definition ex_view : view :=
  mkView (mkImg 1 1 1 1 1 1 (Some [0]) 1 1 IL_LUMINANCE IL_UNSIGNED_BYTE IL_ORIGIN_LOWER_LEFT
            (mkPal None 0 IL_PAL_NONE) 0 0 0 0) false 0 0 0 0 0 0 (fun _ => 0) 1.
Example C20_cubeflags_met : reachable (g_init (Some ex_view)) /\ cur (g_init (Some ex_view)) = Some ex_view.
Proof. split; [exists (fun _ => true), (Some ex_view), []; reflexivity|reflexivity]. Qed.

(** ** C43 *)

(** the string mode of a member *)
Definition str_mode_of (f : sfld) : Z :=
  match f with
  | TgaId => IL_TGA_ID_STRING | TgaAuthName => IL_TGA_AUTHNAME_STRING
  | TgaAuthComment => IL_TGA_AUTHCOMMENT_STRING | PngAuthName => IL_PNG_AUTHNAME_STRING
  | PngTitle => IL_PNG_TITLE_STRING | PngDescription => IL_PNG_DESCRIPTION_STRING
  | TifDescription => IL_TIF_DESCRIPTION_STRING | TifHostComputer => IL_TIF_HOSTCOMPUTER_STRING
  | TifDocumentName => IL_TIF_DOCUMENTNAME_STRING | TifAuthName => IL_TIF_AUTHNAME_STRING
  | CHeader => IL_CHEAD_HEADER_STRING
  end.
Lemma str_mode_of_ok : forall m f, switch m str_modes = Some f -> m = str_mode_of f.
Proof.
  intros m f H. apply switch_In in H. unfold str_modes in H. cbn [In] in H.
  in_cases H; injection H as <- <-; reflexivity.
Qed.
Definition string_mode (m : Z) : bool :=
  existsb (Z.eqb m)
   [IL_TGA_ID_STRING; IL_TGA_AUTHNAME_STRING; IL_TGA_AUTHCOMMENT_STRING; IL_PNG_AUTHNAME_STRING;
    IL_PNG_TITLE_STRING; IL_PNG_DESCRIPTION_STRING; IL_TIF_DESCRIPTION_STRING;
    IL_TIF_HOSTCOMPUTER_STRING; IL_TIF_DOCUMENTNAME_STRING; IL_TIF_AUTHNAME_STRING;
    IL_CHEAD_HEADER_STRING].
Lemma string_mode_spec : forall m, string_mode m = match switch m str_modes with Some _ => true | None => false end.
Proof. intros m. rewrite <- existsb_switch. reflexivity. Qed.
Lemma str_not_const : forall m f, switch m str_modes = Some f ->
  (m =? IL_VENDOR) || (m =? IL_VERSION_NUM) || (m =? IL_LOAD_EXT) || (m =? IL_SAVE_EXT) = false.
Proof. intros m f H. apply str_mode_of_ok in H. subst m. destruct f; reflexivity. Qed.

(** C43.  In every reachable state, when the allocation succeeds, ilSetString(m, s) makes
    ilGetString(m) deliver exactly [s], and no other string changes. *)
Theorem C43_set_get_string_partial : forall ok g m s, reachable g -> string_mode m = true ->
  (forall n, ok n = true) ->
  exists g', ilSetString ok m (CLit s) g = Ok g' /\
    string_of m g' = Some (Some s) /\ errs g' = errs g /\
    forall m', m' <> m -> string_of m' g' = string_of m' g.
Proof.
  intros ok g m s HR Hm Hok. assert (H := reachable_inv g HR). assert (P := inv_pos _ H).
  rewrite string_mode_spec in Hm. destruct (switch m str_modes) as [f|] eqn:Sf; [|discriminate]. clear Hm.
  assert (exists g', ilSetString ok m (CLit s) g = Ok g' /\ errs g' = errs g /\
     exists b, (forall a, sv (slots g (pos g)) f <> Some a -> b a = blocks g a) /\
     g' = after_str f (Some (nextb g)) (set_heap g (zupd b (nextb g) (Some s)) (nextb g + 1))) as [g' [E [Er [b [Hb G']]]]].
  { unfold ilSetString. rewrite Sf, get_str_ok by exact P. cbn [bind].
    destruct (sv (slots g (pos g)) f) as [a|] eqn:Sv.
    - destruct (inv_live _ H (pos g) f a ltac:(lia) Sv) as [_ Lb].
      unfold free_str. destruct (blocks g a) eqn:Ba; [|congruence]. cbn [bind].
      unfold strdup. cbn [read_str bind]. rewrite Hok. cbn [bind]. rewrite set_str_ok by exact P.
      eexists. split; [reflexivity|]. split; [reflexivity|].
      exists (zupd (blocks g) a None). split; [intros a0 N; apply zupd_neq; congruence|reflexivity].
    - cbn [bind]. unfold strdup. cbn [read_str bind]. rewrite Hok. cbn [bind]. rewrite set_str_ok by exact P.
      eexists. split; [reflexivity|]. split; [reflexivity|]. exists (blocks g). split; reflexivity. }
  exists g'. split; [exact E|].
  assert (F := set_string_frame ok m (CLit s) g g' H E). assert (I' := fr_inv _ _ F).
  assert (Sl : slots g' (pos g') = mkSts (iv (slots g (pos g))) (supd (sv (slots g (pos g))) f (Some (nextb g)))).
  { subst g'. unfold after_str. cbn. apply zupd_eq. }
  assert (Bl : forall a, blocks g' a = zupd b (nextb g) (Some s) a) by (intros a; subst g'; reflexivity).
  split; [|split; [exact Er|]].
  - rewrite string_eq by exact I'. rewrite (str_not_const m f Sf), Sf, Sl. cbn [sv]. rewrite supd_eq.
    rewrite Bl, zupd_eq. reflexivity.
  - intros m' N. rewrite !string_eq by assumption. destruct (_ || _); [reflexivity|].
    destruct (switch m' str_modes) as [k|] eqn:Sk; [|reflexivity].
    assert (Nk : k <> f) by (intros ->; apply N; apply str_mode_of_ok in Sf, Sk; congruence).
    rewrite Sl. cbn [sv]. rewrite supd_neq by exact Nk.
    destruct (sv (slots g (pos g)) k) as [a|] eqn:Sa; [|reflexivity].
    destruct (inv_live _ H (pos g) k a ltac:(lia) Sa) as [La _].
    rewrite Bl, zupd_neq by lia. rewrite Hb; [reflexivity|].
    intros Q. destruct (inv_sep _ H (pos g) k (pos g) f a ltac:(lia) ltac:(lia) Sa Q) as [_ R]. contradiction.
Qed.
Print Assumptions C43_set_get_string_partial.

(** C43, refuted: passing the library's own string back (ilSetString(m, ilGetString(m))) is a use
    after free, in every reachable state where the string is set. *)
Theorem C43_own_string_refuted : forall ok g m f a, reachable g -> switch m str_modes = Some f ->
  ilGetString m g = Ok (GSPtr (Some a), g) -> ilSetString ok m (CPtr a) g = UB.
Proof.
  intros ok g m f a HR Sf E. assert (H := reachable_inv g HR). assert (P := inv_pos _ H).
  unfold ilGetString in E. rewrite (str_not_const m f Sf), Sf, get_str_ok in E by exact P. cbn [bind] in E.
  injection E as E. unfold ilSetString. rewrite Sf, get_str_ok by exact P. cbn [bind]. rewrite E.
  destruct (inv_live _ H (pos g) f a ltac:(lia) E) as [_ Lb]. unfold free_str.
  destruct (blocks g a); [|congruence]. cbn [bind]. unfold strdup. cbn [read_str blocks set_heap].
  rewrite zupd_eq. reflexivity.
Qed.
Print Assumptions C43_own_string_refuted.

(** C43, refuted (leak): a string set inside a push is unreachable after the next push at that
    level, yet still allocated. *)
Theorem C43_leak_refuted : forall ok v, (forall n, ok n = true) ->
  exists g, srun ok [Push 0; SetString IL_PNG_TITLE_STRING (CLit [7]); Pop; Push 0] (g_init v) = Ok g /\
    blocks g 0 = Some [7] /\
    forall i f, 0 <= i < 32 -> sv (slots g i) f <> Some 0.
Proof.
  intros ok v Hok. cbn [srun sstep].
  assert (PN : forall g, inv g -> pos g < 31 -> exists e, ilPushAttrib ok 0 g = 
      Ok (mkG (zupd (zupd (slots g) (pos g + 1) default_sts) (pos g + 1) (push_sts 0 (slots g (pos g)))) (pos g + 1)
       IL_FASTEST IL_USE_COMPRESSION e (cur g) (blocks g) (nextb g)) /\ est_wf e).
  { intros g I B. destruct (push_unfold ok 0 g I B) as [e [We [_ [g1 [-> [_ E]]]]]]. exists e. split; [exact E|exact We]. }
  destruct (PN (g_init v) (inv_init v) ltac:(reflexivity)) as [e [E We]]. rewrite E. cbn [bind].
  match type of E with _ = Ok ?g => set (g1 := g) in * end.
  assert (I1 : inv g1) by (eapply (step_inv ok (Push 0) (g_init v)); [apply inv_init|exact E]).
  unfold ilSetString. change (switch IL_PNG_TITLE_STRING str_modes) with (Some PngTitle). cbv iota.
  rewrite get_str_ok by (cbn; lia). cbn [bind].
  change (sv (slots g1 (pos g1)) PngTitle) with (@None Z). cbn [bind].
  unfold strdup. cbn [read_str bind]. rewrite Hok. cbn [bind]. rewrite set_str_ok by (cbn; lia). cbn [bind].
  match goal with |- context [ilPopAttrib ?g] => set (g2 := g) end.
  assert (I2 : inv g2).
  { assert (Q : ilSetString ok IL_PNG_TITLE_STRING (CLit [7]) g1 = Ok g2).
    { unfold ilSetString. change (switch IL_PNG_TITLE_STRING str_modes) with (Some PngTitle). cbv iota.
      rewrite get_str_ok by (cbn; lia). cbn [bind].
      change (sv (slots g1 (pos g1)) PngTitle) with (@None Z). cbn [bind].
      unfold strdup. cbn [read_str bind]. rewrite Hok. cbn [bind]. rewrite set_str_ok by (cbn; lia). reflexivity. }
    eapply (step_inv ok (SetString IL_PNG_TITLE_STRING (CLit [7]))); [exact I1|exact Q]. }
  rewrite pop_eq by (cbn; lia). cbn [bind].
  assert (I3 := pop_inv g2 I2 ltac:(cbn; lia)).
  destruct (PN _ I3 ltac:(cbn; lia)) as [e' [E' We']]. rewrite E'. cbn [bind].
  eexists. split; [reflexivity|]. split; [reflexivity|].
  intros i f Hi. clear - Hi. cbn - [push_sts default_sts]. unfold zupd.
  destruct (Z.eqb_spec i 1) as [->|N]; [cbn; destruct f; discriminate|].
  destruct (Z.eqb_spec i 1); [lia|]. destruct (Z.eqb_spec i 0) as [->|N0]; cbn; try destruct f; discriminate.
Qed.
Print Assumptions C43_leak_refuted.

Example C43_hyp_met : string_mode IL_PNG_TITLE_STRING = true /\ reachable (g_init None).
Proof. split; [reflexivity|exists (fun _ => true), None, []; reflexivity]. Qed.

(** ** C44 *)

(** C44, refuted: clipping a string to [MaxLen] characters is only defined when the string has
    exactly [MaxLen] or [MaxLen - 1] characters: a shorter one is read beyond its terminator, a
    longer one overruns the fresh block. *)
Theorem C44_clip_refuted : forall s MaxLen c, 0 <= MaxLen -> zlen c = MaxLen + 1 ->
  iClipString s MaxLen (Some c) = UB <-> (zlen s < MaxLen - 1 \/ MaxLen < zlen s).
Proof.
  intros s M c HM Hc. unfold iClipString, memcpy.
  assert (L : zlen (s ++ [0]) = zlen s + 1) by (unfold zlen; rewrite app_length; cbn; lia).
  assert (Ls := zlen_nonneg _ s). rewrite L, Hc. unfold inb.
  destruct (Z_lt_le_dec (zlen s) (M - 1)) as [A|A].
  - replace (0 + M <=? zlen s + 1) with false by lia. rewrite !andb_false_r. cbn [bind]. tauto.
  - replace ((0 <=? 0) && (0 <=? M) && (0 + M <=? M + 1) && ((0 <=? 0) && (0 <=? M) && (0 + M <=? zlen s + 1)))
      with true by lia. cbn [bind].
    set (c1 := splice c 0 (slice (s ++ [0]) 0 M)).
    assert (L1 : zlen c1 = M + 1).
    { unfold c1. rewrite zlen_splice; [exact Hc|lia|]. rewrite zlen_slice by lia. lia. }
    unfold wr, inb. rewrite L1.
    destruct (Z_lt_le_dec M (zlen s)) as [B|B].
    + replace ((0 <=? zlen s) && (0 <=? 1) && (zlen s + 1 <=? M + 1)) with false by lia. cbn. tauto.
    + replace ((0 <=? zlen s) && (0 <=? 1) && (zlen s + 1 <=? M + 1)) with true by lia. cbn.
      split; [discriminate|lia].
Qed.
Print Assumptions C44_clip_refuted.

Example C44_hyp_met : zlen (repeat 0 41) = 40 + 1 /\ zlen [65; 66; 67] < 40 - 1.
Proof. split; reflexivity. Qed.

(** C44, the two lengths for which it works: the block then holds the string and its terminator. *)
Theorem C44_clip_ok_partial : forall s MaxLen c, 0 <= MaxLen -> zlen c = MaxLen + 1 ->
  zlen s = MaxLen \/ zlen s = MaxLen - 1 ->
  exists c', iClipString s MaxLen (Some c) = Ok (Some c') /\ slice c' 0 (zlen s + 1) = s ++ [0].
Proof.
  intros s M c HM Hc Hs. unfold iClipString.
  assert (L : zlen (s ++ [0]) = zlen s + 1) by (unfold zlen; rewrite app_length; cbn; lia).
  assert (Ls := zlen_nonneg _ s).
  rewrite memcpy_ok by lia. cbn [bind].
  assert (L0 : zlen (slice (s ++ [0]) 0 M) = M) by (apply zlen_slice; lia).
  assert (L1 : zlen (splice c 0 (slice (s ++ [0]) 0 M)) = M + 1) by (rewrite zlen_splice; lia).
  rewrite wr_ok by lia. cbn [bind]. eexists. split; [reflexivity|].
  apply list_ext.
  - rewrite zlen_slice; rewrite ?zlen_upd; lia.
  - intros j Hj. rewrite zlen_slice in Hj by (rewrite ?zlen_upd; lia).
    rewrite geti_slice by (rewrite ?zlen_upd; lia). rewrite geti_upd by lia.
    destruct (Z.eqb_spec (0 + j) (zlen s)) as [E|N].
    + replace j with (zlen s) by lia. unfold geti.
      unfold zlen. rewrite Nat2Z.id, app_nth2, Nat.sub_diag by lia.
      reflexivity.
    + rewrite geti_splice by lia.
      replace ((0 <=? 0 + j) && (0 + j <? 0 + zlen (slice (s ++ [0]) 0 M))) with true by lia.
      rewrite geti_slice by lia. f_equal. lia.
Qed.
Print Assumptions C44_clip_ok_partial.
