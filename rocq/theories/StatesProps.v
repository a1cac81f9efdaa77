(** Property theorems C17-C20, C43, C44 (state machine). *)
From Coq Require Import ZArith List Bool Lia.
From Verif Require Import Base Enums ErrorStack ErrorStackProofs Utility Image States StatesSpec StatesProofs.
Import ListNotations.
Open Scope Z_scope.

Lemma pos_level : forall ok h g g', inv g -> srun ok h g = Ok g' -> pos g' = level_from (pos g) h.
Proof.
  intros ok. induction h as [|o h IH]; intros g g' H E; cbn [srun] in E.
  - injection E as <-. reflexivity.
  - apply bind_ok in E. destruct E as [g1 [E1 E2]].
    assert (I1 := step_inv _ _ _ _ H E1). assert (P := inv_pos _ H). rewrite (IH _ _ I1 E2).
    destruct o; cbn [level_from];
      try (f_equal; eapply fr_pos, step_frame; [exact H| | |exact E1]; reflexivity).
    + cbn [sstep] in E1. destruct (Z.eq_dec (pos g) 31) as [B|B].
      * destruct (push_overflow ok bits g H B) as [s [_ [E3 _]]]. rewrite E3 in E1. injection E1 as <-.
        cbn. f_equal. lia.
      * destruct (push_inv ok bits g g1 H ltac:(lia) E1) as [_ [Q _]]. rewrite Q. f_equal. lia.
    + cbn [sstep] in E1. destruct (Z.eq_dec (pos g) 0) as [B|B].
      * destruct (pop_underflow g H B) as [s [_ [E3 _]]]. rewrite E3 in E1. injection E1 as <-.
        cbn. f_equal. lia.
      * rewrite pop_eq in E1 by lia. injection E1 as <-. cbn. f_equal. lia.
Qed.

(** everything below position [b], and its strings, is unchanged; position still above *)
Definition kept (b : Z) (g g' : gst) : Prop :=
  (forall i, 0 <= i <= b -> slots g' i = slots g i) /\
  (forall i f a, 0 <= i <= b -> sv (slots g i) f = Some a -> blocks g' a = blocks g a) /\
  nextb g <= nextb g'.

Lemma kept_trans : forall b g g1 g2, kept b g g1 -> kept b g1 g2 -> kept b g g2.
Proof.
  intros b g g1 g2 [A [B C]] [A' [B' C']]. split; [|split].
  - intros i Hi. rewrite A', A; auto.
  - intros i f a Hi Q. rewrite (B' i f a Hi), (B i f a Hi); auto. rewrite A; auto.
  - lia.
Qed.

Lemma kept_step : forall ok o b g g', inv g -> sstep ok o g = Ok g' -> 0 <= b < pos g ->
  kept b g g'.
Proof.
  intros ok o b g g' H E B. assert (P := inv_pos _ H).
  destruct (is_push o) eqn:IP; [|destruct (is_pop o) eqn:IO].
  - destruct o; try discriminate. cbn [sstep] in E. destruct (Z.eq_dec (pos g) 31) as [F|F].
    + destruct (push_overflow ok bits g H F) as [s [_ [E3 _]]]. rewrite E3 in E. injection E as <-.
      split; [|split]; cbn; auto; lia.
    + destruct (push_inv ok bits g g' H ltac:(lia) E) as [_ [Q [S1 [B1 [N1 _]]]]].
      split; [|split]; auto.
      * intros i Hi. apply S1. lia.
      * intros i f a Hi Sv. apply B1. apply (inv_live _ H i f a); [lia|exact Sv].
  - destruct o; try discriminate. cbn [sstep] in E. rewrite pop_eq in E by lia. injection E as <-.
    split; [|split]; cbn; auto; lia.
  - destruct (step_frame ok o g g' H IP IO E) as [_ _ S1 B1 N1]. split; [|split]; auto.
    + intros i Hi. apply S1. lia.
    + intros i f a Hi Sv. apply B1.
      * apply (inv_live _ H i f a); [lia|exact Sv].
      * intros k Hk. destruct (inv_sep _ H i f (pos g) k a); try lia; auto.
Qed.

Lemma kept_run : forall ok h b d room g g', inv g -> srun ok h g = Ok g' -> 0 <= b < pos g ->
  pos g = b + 1 + Z.of_nat d -> (Z.of_nat room + b <= 30) -> nested_from room d h ->
  kept b g g' /\ pos g' = b + 1.
Proof.
  intros ok. induction h as [|o h IH]; intros b d room g g' H E B P R N; cbn [srun] in E.
  - injection E as <-. cbn in N. subst d. split; [split; [|split]; auto; lia|lia].
  - apply bind_ok in E. destruct E as [g1 [E1 E2]].
    assert (I1 := step_inv _ _ _ _ H E1). assert (K1 := kept_step ok o b g g1 H E1 B).
    assert (PL := pos_level ok [o] g g1 H). cbn [srun] in PL. rewrite E1 in PL.
    specialize (PL eq_refl). assert (Pb := inv_pos _ H).
    assert (exists d', pos g1 = b + 1 + Z.of_nat d' /\ nested_from room d' h) as [d' [P' N']].
    { destruct o; cbn [nested_from level_from] in *; try (exists d; split; [lia|exact N]).
      - exists (S d). split; [lia|apply N].
      - exists (pred d). destruct N as [N1 N2]. split; [lia|exact N2]. }
    destruct (IH b d' room g1 g' I1 E2 ltac:(lia) P' R N') as [K2 P2].
    split; [|exact P2]. eapply kept_trans; eauto.
Qed.

(** the queries read only the current slot, its strings, and the image *)
Lemma isen_eq : forall m g, inv g -> answer (ilIsEnabled m g) =
  match switch m able_modes with Some f => Some (u8 (iv (slots g (pos g)) f)) | None => Some IL_FALSE end.
Proof.
  intros m g H. unfold ilIsEnabled. destruct (switch m able_modes).
  - rewrite get_int_ok by apply H. reflexivity.
  - destruct (raise_ok IL_INVALID_ENUM g (inv_est _ H)) as [s [_ [R _]]]. rewrite R. reflexivity.
Qed.

Definition img_answer (c : option view) (m : Z) : Z :=
  if m =? IL_CUR_IMAGE then match c with None => 0 | Some v => i32 (v_name v) end
  else if m =? IL_VERSION_NUM then IL_VERSION
  else if (m =? IL_ACTIVE_IMAGE) || (m =? IL_ACTIVE_MIPMAP) || (m =? IL_ACTIVE_LAYER) then
    match c with None => 0 | Some v => i32 (v_active v m) end
  else match c with None => 0 | Some v => match image_query v m with Some x => x | None => 0 end end.

Lemma getint_eq : forall m g, inv g -> answer (ilGetInteger m g) =
  Some (match switch m get_modes with
        | Some f => i32 (iv (slots g (pos g)) f) | None => img_answer (cur g) m end).
Proof.
  intros m g H. unfold ilGetInteger, img_answer. destruct (switch m get_modes).
  - rewrite get_int_ok by apply H. reflexivity.
  - assert (RA : forall e, answer (let! g0 := raise e g in Ok (0, g0)) = Some 0).
    { intros e. destruct (raise_ok e g (inv_est _ H)) as [s [_ [R _]]]. rewrite R. reflexivity. }
    destruct (m =? IL_CUR_IMAGE). { destruct (cur g); [reflexivity|apply RA]. }
    destruct (m =? IL_VERSION_NUM); [reflexivity|].
    destruct (_ || _). { destruct (cur g); [reflexivity|apply RA]. }
    unfold iGetIntegervImage. destruct (cur g) as [v|]; [|apply RA].
    destruct (image_query v m); [reflexivity|apply RA].
Qed.

Lemma string_eq : forall m g, inv g -> string_of m g =
  if (m =? IL_VENDOR) || (m =? IL_VERSION_NUM) || (m =? IL_LOAD_EXT) || (m =? IL_SAVE_EXT) then None
  else match switch m str_modes with
       | Some f => match sv (slots g (pos g)) f with
                   | None => Some None
                   | Some a => match blocks g a with Some s => Some (Some s) | None => None end
                   end
       | None => Some None end.
Proof.
  intros m g H. unfold string_of, ilGetString. destruct (_ || _); [reflexivity|].
  destruct (switch m str_modes) as [f|].
  - rewrite get_str_ok by apply H. reflexivity.
  - destruct (raise_ok IL_INVALID_ENUM g (inv_est _ H)) as [s [_ [R _]]]. rewrite R. reflexivity.
Qed.

(** How the current image can change: only the four settable attributes *)
Definition same_img_answers (c c' : option view) : Prop :=
  forall m, image_mode m = false -> img_answer c' m = img_answer c m.

Lemma query_with_attr : forall v k p m, image_mode m = false -> 
  image_query (with_view_img v (with_attr (v_img v) k p)) m = image_query v m.
Proof.
  intros v k p m Hm. unfold image_mode in Hm. cbn [existsb] in Hm.
  repeat rewrite orb_false_iff in Hm. destruct Hm as [M1 [M2 [M3 [M4 _]]]].
  unfold image_query. cbn [switch v_img with_view_img with_attr v_dxtc v_dxtc_size v_dxtc_fmt v_next
    v_mipmaps v_layers v_faces Width Height Depth Bpp Bpc Bps Data SizeOfData SizeOfPlane Format Type_
    Origin Pal Duration CubeFlags OffX OffY].
  rewrite M1, M2, M3, M4. reflexivity.
Qed.

Lemma img_answer_attr : forall v k p, same_img_answers (Some v)
   (Some (with_view_img v (with_attr (v_img v) k p))).
Proof.
  intros v k p m Hm. unfold img_answer. rewrite query_with_attr by exact Hm. reflexivity.
Qed.

Lemma same_img_refl : forall c, same_img_answers c c.
Proof. intros c m _. reflexivity. Qed.
Lemma same_img_trans : forall a b c, same_img_answers a b -> same_img_answers b c -> same_img_answers a c.
Proof. intros a b c H1 H2 m Hm. rewrite H2, H1; auto. Qed.

Lemma raise_cur : forall e g g', raise e g = Ok g' -> cur g' = cur g.
Proof.
  intros e g g' E. unfold raise in E. apply bind_ok in E. destruct E as [s [_ E]].
  injection E as <-. reflexivity.
Qed.
Lemma set_int_cur : forall f v g g', set_int f v g = Ok g' -> cur g' = cur g.
Proof.
  intros f v g g' E. unfold set_int in E. apply bind_ok in E. destruct E as [s [_ E]].
  unfold put_slot in E. destruct (_ && _); [|discriminate]. injection E as <-. reflexivity.
Qed.
Lemma set_str_cur : forall f v g g', set_str f v g = Ok g' -> cur g' = cur g.
Proof.
  intros f v g g' E. unfold set_str in E. apply bind_ok in E. destruct E as [s [_ E]].
  unfold put_slot in E. destruct (_ && _); [|discriminate]. injection E as <-. reflexivity.
Qed.
Lemma strdup_cur : forall ok c g p g', strdup ok c g = Ok (p, g') -> cur g' = cur g.
Proof.
  intros ok c g p g' E. unfold strdup in E. apply bind_ok in E. destruct E as [s [_ E]].
  destruct (ok (nextb g)); injection E as _ <-; reflexivity.
Qed.
Lemma dup_strs_cur : forall ok fs g g', dup_strs ok fs g = Ok g' -> cur g' = cur g.
Proof.
  intros ok. induction fs as [|f fs IH]; intros g g' E; cbn [dup_strs] in E; [congruence|].
  apply bind_ok in E. destruct E as [s [_ E]].
  apply bind_ok in E. destruct E as [[p g1] [E1 E]].
  apply bind_ok in E. destruct E as [g2 [E2 E]].
  rewrite (IH _ _ E), (set_str_cur _ _ _ _ E2), (strdup_cur _ _ _ _ _ E1). reflexivity.
Qed.
Lemma push_cur : forall ok bits g g', inv g -> ilPushAttrib ok bits g = Ok g' -> cur g' = cur g.
Proof.
  intros ok bits g g' H E. assert (P := inv_pos _ H). destruct (Z.eq_dec (pos g) 31) as [B|B].
  - destruct (push_overflow ok bits g H B) as [s [_ [E3 _]]]. rewrite E3 in E. injection E as <-. reflexivity.
  - destruct (push_unfold ok bits g H ltac:(lia)) as [e [_ [_ [g1 [G1 [_ E1]]]]]]. rewrite E1 in E.
    destruct (bit_on _ _).
    + rewrite (dup_strs_cur _ _ _ _ E). subst. reflexivity.
    + injection E as <-. subst. reflexivity.
Qed.

Ltac inv_bind E :=
  repeat match type of E with
  | bind _ _ = Ok _ => let a := fresh "a" in let Q := fresh "Q" in
                       apply bind_ok in E; destruct E as [a [Q E]]; try (destruct a)
  end.

Lemma func_cur : forall f, (f = ilOriginFunc \/ f = ilFormatFunc \/ f = ilTypeFunc \/ f = ilCompressFunc) ->
  forall m g v g', f m g = Ok (v, g') -> cur g' = cur g.
Proof.
  intros f Hf m g v g' E.
  destruct Hf as [ -> | [ -> | [ -> | -> ]]];
    unfold ilOriginFunc, ilFormatFunc, ilTypeFunc, ilCompressFunc in E;
    match type of E with context [if ?c then _ else _] => destruct c end;
    apply bind_ok in E; destruct E as [g1 [E1 E]]; injection E as _ <-;
    eauto using set_int_cur, raise_cur.
Qed.

Lemma step_img : forall ok o g g', inv g -> sstep ok o g = Ok g' -> same_img_answers (cur g) (cur g').
Proof.
  intros ok o g g' H E.
  assert (RC : forall e g1, raise e g = Ok g1 -> same_img_answers (cur g) (cur g1)).
  { intros e g1 R. rewrite (raise_cur _ _ _ R). apply same_img_refl. }
  destruct o; cbn [sstep] in E.
  - apply bind_ok in E. destruct E as [[v g1] [E1 E]]. injection E as <-.
    unfold ilEnable, ilAble in E1. destruct (switch _ _); apply bind_ok in E1; destruct E1 as [g2 [E2 E1]];
    injection E1 as _ <-; [rewrite (set_int_cur _ _ _ _ E2); apply same_img_refl|eauto].
  - apply bind_ok in E. destruct E as [[v g1] [E1 E]]. injection E as <-.
    unfold ilDisable, ilAble in E1. destruct (switch _ _); apply bind_ok in E1; destruct E1 as [g2 [E2 E1]];
    injection E1 as _ <-; [rewrite (set_int_cur _ _ _ _ E2); apply same_img_refl|eauto].
  - apply bind_ok in E. destruct E as [[v g1] [E1 E]]. injection E as <-.
    unfold ilIsEnabled in E1. destruct (switch _ _); apply bind_ok in E1; destruct E1 as [g2 [E2 E1]];
    injection E1 as _ <-; [apply same_img_refl|eauto].
  - apply bind_ok in E. destruct E as [[v g1] [E1 E]]. injection E as <-.
    unfold ilGetInteger in E1. destruct (switch _ _).
    { apply bind_ok in E1; destruct E1 as [g2 [E2 E1]]. injection E1 as _ <-. apply same_img_refl. }
    assert (RC2 : forall e v g1, (let! g0 := raise e g in Ok (0, g0)) = Ok (v, g1) ->
                    same_img_answers (cur g) (cur g1)).
    { intros e v' g1' R. apply bind_ok in R. destruct R as [g2 [R1 R2]]. injection R2 as _ <-. eauto. }
    destruct (m =? IL_CUR_IMAGE).
    { destruct (cur g) eqn:C; [injection E1 as _ <-; rewrite C; apply same_img_refl|eauto]. }
    destruct (m =? IL_VERSION_NUM); [injection E1 as _ <-; apply same_img_refl|].
    destruct (_ || _).
    { destruct (cur g) eqn:C; [injection E1 as _ <-; rewrite C; apply same_img_refl|eauto]. }
    unfold iGetIntegervImage in E1. destruct (cur g) as [w|] eqn:C; [|eauto].
    destruct (image_query w m); [injection E1 as _ <-; rewrite C; apply same_img_refl|eauto].
  - unfold ilSetInteger in E.
    destruct (m =? IL_FORMAT_MODE).
    { apply bind_ok in E. destruct E as [[v g1] [E1 E]]. injection E as <-.
      rewrite (func_cur ilFormatFunc ltac:(auto) _ _ _ _ E1). apply same_img_refl. }
    destruct (m =? IL_ORIGIN_MODE).
    { apply bind_ok in E. destruct E as [[v g1] [E1 E]]. injection E as <-.
      rewrite (func_cur ilOriginFunc ltac:(auto) _ _ _ _ E1). apply same_img_refl. }
    destruct (m =? IL_TYPE_MODE).
    { apply bind_ok in E. destruct E as [[v g1] [E1 E]]. injection E as <-.
      rewrite (func_cur ilTypeFunc ltac:(auto) _ _ _ _ E1). apply same_img_refl. }
    destruct ((m =? IL_IMAGE_DURATION) || _ || _).
    { destruct (cur g) as [w|] eqn:C.
      - injection E as <-. cbn. apply img_answer_attr.
      - apply bind_ok in E. destruct E as [g1 [E1 E]].
        rewrite (raise_cur _ _ _ E), (raise_cur _ _ _ E1), C. apply same_img_refl. }
    destruct (m =? IL_IMAGE_CUBEFLAGS).
    { destruct (cur g) as [w|] eqn:C.
      - rewrite (raise_cur _ _ _ E). cbn. apply img_answer_attr.
      - apply bind_ok in E. destruct E as [g1 [E1 E]].
        rewrite (raise_cur _ _ _ E), (raise_cur _ _ _ E1), C. apply same_img_refl. }
    destruct (switch m set_modes) as [[f chk]|]; [|eauto].
    destruct (chk p); [|eauto]. rewrite (set_int_cur _ _ _ _ E). apply same_img_refl.
  - apply bind_ok in E. destruct E as [[v g1] [E1 E]]. injection E as <-.
    rewrite (func_cur ilOriginFunc ltac:(auto) _ _ _ _ E1). apply same_img_refl.
  - apply bind_ok in E. destruct E as [[v g1] [E1 E]]. injection E as <-.
    rewrite (func_cur ilFormatFunc ltac:(auto) _ _ _ _ E1). apply same_img_refl.
  - apply bind_ok in E. destruct E as [[v g1] [E1 E]]. injection E as <-.
    rewrite (func_cur ilTypeFunc ltac:(auto) _ _ _ _ E1). apply same_img_refl.
  - apply bind_ok in E. destruct E as [[v g1] [E1 E]]. injection E as <-.
    rewrite (func_cur ilCompressFunc ltac:(auto) _ _ _ _ E1). apply same_img_refl.
  - rewrite (push_cur _ _ _ _ H E). apply same_img_refl.
  - unfold ilPopAttrib in E. destruct (pos g <=? 0).
    + rewrite (raise_cur _ _ _ E). apply same_img_refl.
    + injection E as <-. apply same_img_refl.
  - unfold ilHint in E.
    repeat match type of E with context [if ?c then _ else _] => destruct c end; eauto;
      injection E as <-; apply same_img_refl.
  - apply bind_ok in E. destruct E as [[v g1] [E1 E]]. injection E as <-.
    unfold ilGetString in E1. destruct (_ || _); [injection E1 as _ <-; apply same_img_refl|].
    destruct (switch _ _); apply bind_ok in E1; destruct E1 as [g2 [E2 E1]];
    injection E1 as _ <-; [apply same_img_refl|eauto].
  - unfold ilSetString in E. 
    assert (SC : forall f, (let! p := get_str f g in
          let! g := match p with Some a => free_str a g | None => Ok g end in
          let! (p, g) := strdup ok c g in set_str f p g) = Ok g' -> same_img_answers (cur g) (cur g')).
    { intros f Q. apply bind_ok in Q. destruct Q as [p [Q1 Q]].
      apply bind_ok in Q. destruct Q as [g1 [Q2 Q]].
      apply bind_ok in Q. destruct Q as [[p' g2] [Q3 Q]].
      rewrite (set_str_cur _ _ _ _ Q), (strdup_cur _ _ _ _ _ Q3).
      destruct p as [a|].
      - unfold free_str in Q2. destruct (blocks g a); [|discriminate]. injection Q2 as <-. apply same_img_refl.
      - injection Q2 as <-. apply same_img_refl. }
    destruct c; [eauto| |]; (destruct (switch m str_modes) as [f|]; [apply (SC f); exact E|eauto]).
  - apply bind_ok in E. destruct E as [[v s] [E1 E]]. injection E as <-. apply same_img_refl.
Qed.

Lemma run_img : forall ok h g g', inv g -> srun ok h g = Ok g' -> same_img_answers (cur g) (cur g').
Proof.
  intros ok. induction h as [|o h IH]; intros g g' H E; cbn [srun] in E.
  - injection E as <-. apply same_img_refl.
  - apply bind_ok in E. destruct E as [g1 [E1 E2]].
    eapply same_img_trans; [eapply step_img; eauto|]. eapply IH; eauto. eapply step_inv; eauto.
Qed.

Lemma srun_app : forall ok h1 h2 g, srun ok (h1 ++ h2) g = let! g1 := srun ok h1 g in srun ok h2 g1.
Proof.
  intros ok. induction h1 as [|o h1 IH]; intros h2 g; cbn [srun app].
  - reflexivity.
  - destruct (sstep ok o g) as [g1| |]; cbn [bind]; [apply IH|reflexivity|reflexivity].
Qed.

(** C17.  After any history [h0], for every choice [bits] of what to keep, every properly nested
    sequence of calls [h] in between (which may enable, disable, set, push and pop at will):
    if the calls [ilPushAttrib(bits); h; ilPopAttrib()] return, then no query of the modes,
    integers or strings can tell the state from the one before the push.
    The depth bound: the nesting fits in the 32 levels. *)
Theorem C17_pop_restores_partial : forall ok v h0 g0 bits h g1 room,
  srun ok h0 (g_init v) = Ok g0 ->
  level h0 + 1 + Z.of_nat room <= 31 -> nested room h ->
  srun ok (Push bits :: h ++ [Pop]) g0 = Ok g1 ->
  same_answers g0 g1.
Proof.
  intros ok v h0 g0 bits h g1 room E0 L N E.
  assert (I0 := run_inv _ _ _ _ (inv_init v) E0).
  assert (PL := pos_level _ _ _ _ (inv_init v) E0). cbn in PL. fold (level h0) in PL.
  assert (P0 := inv_pos _ I0).
  assert (I1 := run_inv _ _ _ _ I0 E).
  assert (IM := run_img _ _ _ _ I0 E).
  cbn [srun] in E. apply bind_ok in E. destruct E as [ga [Ea E]]. cbn [sstep] in Ea.
  assert (Ia := step_inv ok (Push bits) _ _ I0 Ea).
  destruct (push_inv ok bits g0 ga I0 ltac:(lia) Ea) as [_ [Pa [Sa [Ba [Na _]]]]].
  rewrite srun_app in E. apply bind_ok in E. destruct E as [gb [Eb E]].
  destruct (kept_run ok h (pos g0) 0 room ga gb Ia Eb ltac:(lia) ltac:(lia) ltac:(lia) N) as [[K1 [K2 K3]] Pb].
  cbn [srun sstep] in E. rewrite pop_eq in E by lia. cbn [bind] in E. injection E as E.
  assert (Ps : pos g1 = pos g0) by (subst g1; cbn; lia).
  assert (Ss : slots g1 (pos g1) = slots g0 (pos g0)).
  { rewrite Ps. subst g1. cbn. rewrite K1 by lia. apply Sa. lia. }
  split; [|split].
  - intros m. rewrite !isen_eq by assumption. rewrite Ss. reflexivity.
  - intros m Hm. rewrite !getint_eq by assumption. rewrite Ss, IM by exact Hm. reflexivity.
  - intros m. rewrite !string_eq by assumption. rewrite Ss.
    destruct (_ || _); [reflexivity|]. destruct (switch m str_modes) as [f|]; [|reflexivity].
    destruct (sv (slots g0 (pos g0)) f) as [a|] eqn:Sf; [|reflexivity].
    destruct (inv_live _ I0 (pos g0) f a ltac:(lia) Sf) as [La _].
    replace (blocks g1 a) with (blocks g0 a); [reflexivity|]. subst g1. cbn.
    rewrite (K2 (pos g0) f a); [symmetry; apply Ba; exact La|lia|]. rewrite Sa by lia. exact Sf.
Qed.
Print Assumptions C17_pop_restores_partial.

(** C17, safety: no history of calls that avoid the two hazards below is undefined. *)
Theorem C17_safe : forall ok v h, Forall tame h -> exists g, srun ok h (g_init v) = Ok g.
Proof.
  intros ok v h. assert (I0 := inv_init v). revert I0. generalize (g_init v).
  induction h as [|o h IH]; intros g I T; cbn [srun]; [eauto|].
  inversion T as [|? ? T1 T2]; subst.
  assert (exists g1, sstep ok o g = Ok g1) as [g1 E1].
  { assert (P := inv_pos _ I). destruct o; cbn [sstep].
    - destruct (able_ok m IL_TRUE g I) as [x [g1 [E1 F]]]. unfold ilEnable. rewrite E1. cbn. eauto.
    - destruct (able_ok m IL_FALSE g I) as [x [g1 [E1 F]]]. unfold ilDisable. rewrite E1. cbn. eauto.
    - destruct (is_enabled_ok m g I) as [x [g1 [E1 F]]]. rewrite E1. cbn. eauto.
    - destruct (get_integer_ok m g I) as [x [g1 [E1 F]]]. rewrite E1. cbn [bind]. eauto.
    - destruct (set_integer_ok m p g I) as [g1 [E1 F]]. eauto.
    - destruct (origin_ok m g I) as [x [g1 [E1 F]]]. rewrite E1. cbn. eauto.
    - destruct (format_ok m g I) as [x [g1 [E1 F]]]. rewrite E1. cbn. eauto.
    - destruct (type_ok m g I) as [x [g1 [E1 F]]]. rewrite E1. cbn. eauto.
    - destruct (compress_ok m g I) as [x [g1 [E1 F]]]. rewrite E1. cbn. eauto.
    - destruct (Z.eq_dec (pos g) 31) as [B|B].
      + destruct (push_overflow ok bits g I B) as [s [_ [E _]]]. eauto.
      + destruct (push_ok ok bits g I ltac:(lia)) as [g1 [E1 _]]; [|eauto].
        unfold bit_on. cbn in T1. rewrite T1. discriminate.
    - destruct (Z.eq_dec (pos g) 0) as [B|B].
      + destruct (pop_underflow g I B) as [s [_ [E _]]]. eauto.
      + rewrite pop_eq by lia. eauto.
    - destruct (hint_ok t m g I) as [g1 [E1 F]]. eauto.
    - destruct (get_string_ok m g I) as [x [g1 [E1 F]]]. rewrite E1. cbn. eauto.
    - unfold ilSetString. destruct c as [|s|a]; [|destruct (switch m str_modes) as [f|]|destruct T1].
      + destruct (raise_frame IL_INVALID_PARAM g I) as [g1 [E1 _]]. eauto.
      + rewrite get_str_ok by exact P. cbn [bind].
        destruct (sv (slots g (pos g)) f) as [a|] eqn:Sf.
        * destruct (inv_live _ I (pos g) f a ltac:(lia) Sf) as [_ Lb].
          unfold free_str. destruct (blocks g a); [|congruence]. cbn [bind].
          unfold strdup. cbn [read_str bind].
          destruct (ok _); cbn [bind]; rewrite set_str_ok by exact P; eauto.
        * cbn [bind]. unfold strdup. cbn [read_str bind].
          destruct (ok _); cbn [bind]; rewrite set_str_ok by exact P; eauto.
      + destruct (raise_frame IL_INVALID_ENUM g I) as [g1 [E1 _]]. eauto.
    - destruct (get_err_ok g I) as [x [s [E1 F]]]. rewrite E1. cbn. eauto. }
  rewrite E1. cbn [bind]. apply IH; [eapply step_inv; eauto|exact T2].
Qed.
Print Assumptions C17_safe.

Example C17_hyp_met :
  let h0 := [Push 1; Enable IL_ORIGIN_SET; SetString IL_TGA_ID_STRING (CLit [65; 66]); SetInt IL_JPG_QUALITY 3] in
  let h := [Enable IL_CONV_PAL; Push 64; SetString IL_TGA_ID_STRING (CLit [9]); Pop; SetInt IL_JPG_QUALITY 5] in
  level h0 + 1 + Z.of_nat 2 <= 31 /\ nested 2 h /\
  match srun (fun _ => true) h0 (g_init None) with
  | Ok g0 => match srun (fun _ => true) (Push 8 :: h ++ [Pop]) g0 with
             | Ok g1 => Some (answer (ilIsEnabled IL_ORIGIN_SET g0), string_of IL_TGA_ID_STRING g0,
                              answer (ilIsEnabled IL_ORIGIN_SET g1), string_of IL_TGA_ID_STRING g1)
             | _ => None end
  | _ => None end
  = Some (Some 1, Some (Some [65; 66]), Some 1, Some (Some [65; 66])).
Proof.
  cbn zeta. split; [vm_compute; discriminate|].
  split; [cbn; repeat split; lia|]. vm_compute; reflexivity.
Qed.

(** C17, refuted part 1: pushing the format-specific states copies NULL strings with strdup:
    undefined right after initialisation (and whenever one of the eleven strings is unset). *)
Theorem C17_push_format_specific_refuted : forall ok v,
  srun ok [Push IL_FORMAT_SPECIFIC_BIT] (g_init v) = UB /\
  srun ok [Push IL_ALL_ATTRIB_BITS] (g_init v) = UB.
Proof.
  intros ok v. cbn [srun sstep].
  split; (erewrite (push_null_ub ok _ (g_init v) TgaId (inv_init v)); [reflexivity| | |];
    [reflexivity|reflexivity|reflexivity]).
Qed.
Print Assumptions C17_push_format_specific_refuted.

(** C17, refuted part 2: hints and pending errors are not restored by a pop: a push silently
    resets the hints and discards the pending errors. *)
Theorem C17_hints_errors_refuted : forall ok v,
  exists g0 g1, srun ok [Hint IL_MEM_SPEED_HINT IL_LESS_MEM; Enable 0] (g_init v) = Ok g0 /\
    srun ok [Push IL_ORIGIN_BIT; Pop] g0 = Ok g1 /\
    answer (iGetHint IL_MEM_SPEED_HINT g0) = Some IL_LESS_MEM /\
    answer (iGetHint IL_MEM_SPEED_HINT g1) = Some IL_FASTEST /\
    (exists s, ilGetError (errs g0) = Ok (IL_INVALID_ENUM, s)) /\
    (exists s, ilGetError (errs g1) = Ok (IL_NO_ERROR, s)).
Proof.
  intros ok v. eexists _, _. split; [vm_compute; reflexivity|]. split; [vm_compute; reflexivity|].
  split; [reflexivity|]. split; [reflexivity|]. split; eexists; vm_compute; reflexivity.
Qed.
Print Assumptions C17_hints_errors_refuted.

(** C18.  After any history the number of open levels is as counted (clamped to 0..31); a push
    at level 31 only raises IL_STACK_OVERFLOW, a pop at level 0 only IL_STACK_UNDERFLOW: the
    state is otherwise identical. *)
Theorem C18_limits : forall ok v h g, srun ok h (g_init v) = Ok g ->
  0 <= level h <= 31 /\
  (level h = 31 -> forall bits, exists g', sstep ok (Push bits) g = Ok g' /\
      raised IL_STACK_OVERFLOW g g' /\ g' = set_errs g (errs g')) /\
  (level h = 0 -> exists g', sstep ok Pop g = Ok g' /\
      raised IL_STACK_UNDERFLOW g g' /\ g' = set_errs g (errs g')).
Proof.
  intros ok v h g E. assert (I := run_inv _ _ _ _ (inv_init v) E).
  assert (PL := pos_level _ _ _ _ (inv_init v) E). cbn in PL. fold (level h) in PL.
  assert (P := inv_pos _ I). split; [lia|]. split.
  - intros L bits. destruct (push_overflow ok bits g I ltac:(lia)) as [s [E1 [E2 _]]].
    exists (set_errs g s). cbn. auto.
  - intros L. destruct (pop_underflow g I ltac:(lia)) as [s [E1 [E2 _]]].
    exists (set_errs g s). cbn. auto.
Qed.
Print Assumptions C18_limits.

Example C18_hyp_met :
  (exists g, srun (fun _ => true) (repeat (Push 3) 40) (g_init None) = Ok g) /\
  level (repeat (Push 3) 40) = 31 /\ level (Push 1 :: Pop :: Pop :: []) = 0.
Proof.
  split; [apply C17_safe, Forall_forall; intros o Ho; apply repeat_spec in Ho; subst o; reflexivity|].
  split; reflexivity.
Qed.

(** ** C19 *)

Definition sw_rep (g : gst) (st : list (Z -> Z)) : Prop :=
  inv g /\ Z.of_nat (length st) = pos g + 1 /\
  forall i top, nth_error st i = Some top ->
    forall m f, switch m able_modes = Some f -> iv (slots g (pos g - Z.of_nat i)) f = top m.

Lemma switch_In : forall {A} m (l : list (Z * A)) a, switch m l = Some a -> In (m, a) l.
Proof.
  intros A m l a. induction l as [|[c b] l IH]; cbn [switch]; [discriminate|].
  destruct (Z.eqb_spec m c) as [->|]; [intros [= ->]; left; reflexivity|].
  intros H. right. auto.
Qed.

Ltac in_cases H :=
  repeat match type of H with
  | _ \/ _ => destruct H as [H|H]
  | False => destruct H
  end.

(** the mode that switches a member *)
Definition able_mode_of (f : ifld) : option Z :=
  match f with
  | OriginSet => Some IL_ORIGIN_SET | FormatSet => Some IL_FORMAT_SET | TypeSet => Some IL_TYPE_SET
  | OverWriteFiles => Some IL_FILE_OVERWRITE | AutoConvPal => Some IL_CONV_PAL
  | DefaultOnFail => Some IL_DEFAULT_ON_FAIL | UseKeyColour => Some IL_USE_KEY_COLOUR
  | BlitBlend => Some IL_BLIT_BLEND | Interlace => Some IL_SAVE_INTERLACED
  | JpgProgressive => Some IL_JPG_PROGRESSIVE | UseNVidiaDXT => Some IL_NVIDIA_COMPRESS
  | UseSquishDXT => Some IL_SQUISH_COMPRESS
  | _ => None
  end.
Lemma able_mode_of_ok : forall m f, switch m able_modes = Some f -> able_mode_of f = Some m.
Proof.
  intros m f H. apply switch_In in H. unfold able_modes in H. cbn [In] in H.
  in_cases H; injection H as <- <-; reflexivity.
Qed.
Lemma able_inj : forall m m' f, switch m able_modes = Some f -> switch m' able_modes = Some f -> m = m'.
Proof. intros m m' f H1 H2. apply able_mode_of_ok in H1, H2. congruence. Qed.

Lemma set_modes_able : forall m f chk, switch m set_modes = Some (f, chk) -> able_mode_of f = None.
Proof.
  intros m f chk H. apply switch_In in H. unfold set_modes in H. cbn [In] in H.
  in_cases H; injection H as _ <- _; reflexivity.
Qed.
Lemma able_not_set : forall m p f m' chk, switch m able_modes = Some f -> switch m' set_modes = Some (p, chk) -> f <> p.
Proof.
  intros m p f m' chk H1 H2 ->. apply able_mode_of_ok in H1. apply set_modes_able in H2. congruence.
Qed.
Lemma able_not_mode : forall m f, switch m able_modes = Some f ->
  f <> OriginMode /\ f <> FormatMode /\ f <> TypeMode /\ f <> Compression.
Proof.
  intros m f H. apply able_mode_of_ok in H. repeat split; intros ->; discriminate.
Qed.

Lemma copy_if_iv : forall c fs prev s f, iv (copy_if c fs prev s) f =
  if existsb (ifld_beq f) fs then (if c then iv prev f else iv s f) else iv s f.
Proof.
  intros [] fs prev s f; cbn [copy_if iv].
  2: { destruct (existsb _ _); reflexivity. }
  set (base := iv s f). assert (base = iv s f) as Hb by reflexivity. clearbody base. revert Hb.
  generalize (iv s) as h. intros h ->. revert h.
  induction fs as [|k fs IH]; intros h; cbn [fold_left existsb]; [reflexivity|].
  rewrite IH. unfold iupd.
  destruct (existsb (ifld_beq f) fs) eqn:X; [rewrite orb_true_r; reflexivity|]. rewrite orb_false_r.
  destruct (ifld_eq_dec f k) as [->|N].
  - rewrite internal_ifld_dec_lb by reflexivity. reflexivity.
  - destruct (ifld_beq f k) eqn:Q; [apply internal_ifld_dec_bl in Q; contradiction|reflexivity].
Qed.
Lemma push_able : forall bits prev m f, switch m able_modes = Some f ->
  iv (push_sts bits prev) f = if Z.land bits (switch_bit m) =? 0 then switch_default m else iv prev f.
Proof.
  intros bits prev m f H. apply switch_In in H. unfold able_modes in H. cbn [In] in H.
  unfold push_sts. rewrite !copy_if_iv.
  in_cases H; injection H as <- <-; cbn [existsb ifld_beq orb];
  match goal with |- context [switch_bit ?k] =>
    let b := eval vm_compute in (switch_bit k) in change (switch_bit k) with b;
    let d := eval vm_compute in (switch_default k) in change (switch_default k) with d end;
  unfold IL_ORIGIN_BIT, IL_FORMAT_BIT, IL_TYPE_BIT, IL_FILE_BIT, IL_PAL_BIT, IL_LOADFAIL_BIT,
    IL_COMPRESS_BIT, IL_FORMAT_SPECIFIC_BIT;
  rewrite ?Z.land_0_r; try reflexivity;
  match goal with |- context [negb (?a =? 0)] => destruct (a =? 0) end; reflexivity.
Qed.

(** members not touched at the current level *)
Definition iv_same (g g' : gst) (f : ifld) : Prop :=
  iv (slots g' (pos g)) f = iv (slots g (pos g)) f.

Lemma raise_slots : forall e g g', raise e g = Ok g' -> slots g' = slots g.
Proof.
  intros e g g' E. unfold raise in E. apply bind_ok in E. destruct E as [s [_ E]].
  injection E as <-. reflexivity.
Qed.
Lemma set_int_iv : forall k v g g' f, inv g -> set_int k v g = Ok g' -> f <> k -> iv_same g g' f.
Proof.
  intros k v g g' f H E N. rewrite set_int_ok in E by apply H. injection E as <-.
  unfold iv_same, after_int. cbn. rewrite zupd_eq. cbn. apply iupd_neq. exact N.
Qed.
Lemma set_int_iv_eq : forall k v g g', inv g -> set_int k v g = Ok g' -> iv (slots g' (pos g)) k = v.
Proof.
  intros k v g g' H E. rewrite set_int_ok in E by apply H. injection E as <-.
  unfold after_int. cbn. rewrite zupd_eq. cbn. apply iupd_eq.
Qed.

(** the steps that never touch a switch *)
Lemma other_iv : forall ok o g g' m f, inv g -> sstep ok o g = Ok g' ->
  is_push o = false -> is_pop o = false ->
  (forall k, o <> Enable k) -> (forall k, o <> Disable k) ->
  switch m able_modes = Some f -> iv_same g g' f.
Proof.
  intros ok o g g' m f H E N1 N2 N3 N4 Hf.
  destruct (able_not_mode m f Hf) as [M1 [M2 [M3 M4]]].
  assert (RC : forall e g1, raise e g = Ok g1 -> iv_same g g1 f).
  { intros e g1 R. unfold iv_same. rewrite (raise_slots _ _ _ R). reflexivity. }
  assert (RC2 : forall e (x y : Z) g1, (let! g0 := raise e g in Ok (x, g0)) = Ok (y, g1) -> iv_same g g1 f).
  { intros e x y g1 R. apply bind_ok in R. destruct R as [g2 [R1 R2]]. injection R2 as _ <-. eauto. }
  assert (SC2 : forall k w (x y : Z) g1, f <> k -> (let! g0 := set_int k w g in Ok (x, g0)) = Ok (y, g1) -> iv_same g g1 f).
  { intros k w x y g1 Hk R. apply bind_ok in R. destruct R as [g2 [R1 R2]]. injection R2 as _ <-.
    eapply set_int_iv; eauto. }
  assert (RF : iv_same g g f) by reflexivity.
  assert (OF : forall m v g1, ilOriginFunc m g = Ok (v, g1) -> iv_same g g1 f).
  { intros k v g1 Q. unfold ilOriginFunc in Q. destruct (_ || _); eauto. }
  assert (FF : forall m v g1, ilFormatFunc m g = Ok (v, g1) -> iv_same g g1 f).
  { intros k v g1 Q. unfold ilFormatFunc in Q.
    match type of Q with context [if ?c then _ else _] => destruct c end; eauto. }
  assert (TF : forall m v g1, ilTypeFunc m g = Ok (v, g1) -> iv_same g g1 f).
  { intros k v g1 Q. unfold ilTypeFunc in Q.
    match type of Q with context [if ?c then _ else _] => destruct c end; eauto. }
  destruct o; cbn [sstep is_push is_pop] in *; try discriminate.
  - exfalso. eapply N3. reflexivity.
  - exfalso. eapply N4. reflexivity.
  - apply bind_ok in E. destruct E as [[v g1] [E1 E]]. injection E as <-.
    unfold ilIsEnabled in E1. destruct (switch m0 able_modes); [|eauto].
    apply bind_ok in E1; destruct E1 as [g2 [E2 E1]]. injection E1 as _ <-. exact RF.
  - apply bind_ok in E. destruct E as [[v g1] [E1 E]]. injection E as <-.
    unfold ilGetInteger in E1. destruct (switch _ get_modes).
    { apply bind_ok in E1; destruct E1 as [g2 [E2 E1]]. injection E1 as _ <-. exact RF. }
    destruct (m0 =? IL_CUR_IMAGE). { destruct (cur g); [injection E1 as _ <-; exact RF|eauto]. }
    destruct (m0 =? IL_VERSION_NUM); [injection E1 as _ <-; exact RF|].
    destruct (_ || _). { destruct (cur g); [injection E1 as _ <-; exact RF|eauto]. }
    unfold iGetIntegervImage in E1. destruct (cur g) as [w|]; [|eauto].
    destruct (image_query w m0); [injection E1 as _ <-; exact RF|eauto].
  - unfold ilSetInteger in E.
    destruct (m0 =? IL_FORMAT_MODE).
    { apply bind_ok in E. destruct E as [[v g1] [E1 E]]. injection E as <-. eauto. }
    destruct (m0 =? IL_ORIGIN_MODE).
    { apply bind_ok in E. destruct E as [[v g1] [E1 E]]. injection E as <-. eauto. }
    destruct (m0 =? IL_TYPE_MODE).
    { apply bind_ok in E. destruct E as [[v g1] [E1 E]]. injection E as <-. eauto. }
    destruct ((m0 =? IL_IMAGE_DURATION) || _ || _).
    { destruct (cur g) as [w|].
      - injection E as <-. exact RF.
      - apply bind_ok in E. destruct E as [g1 [E1 E]].
        unfold iv_same. rewrite (raise_slots _ _ _ E), (raise_slots _ _ _ E1). reflexivity. }
    destruct (m0 =? IL_IMAGE_CUBEFLAGS).
    { destruct (cur g) as [w|].
      - unfold iv_same. rewrite (raise_slots _ _ _ E). reflexivity.
      - apply bind_ok in E. destruct E as [g1 [E1 E]].
        unfold iv_same. rewrite (raise_slots _ _ _ E), (raise_slots _ _ _ E1). reflexivity. }
    destruct (switch m0 set_modes) as [[k chk]|] eqn:Sm; [|eauto].
    destruct (chk p); [|eauto]. eapply set_int_iv; eauto. eapply able_not_set; eauto.
  - apply bind_ok in E. destruct E as [[v g1] [E1 E]]. injection E as <-. eauto.
  - apply bind_ok in E. destruct E as [[v g1] [E1 E]]. injection E as <-. eauto.
  - apply bind_ok in E. destruct E as [[v g1] [E1 E]]. injection E as <-. eauto.
  - apply bind_ok in E. destruct E as [[v g1] [E1 E]]. injection E as <-.
    unfold ilCompressFunc in E1. destruct (_ || _); eauto.
  - unfold ilHint in E.
    repeat match type of E with context [if ?c then _ else _] => destruct c end; eauto;
      injection E as <-; exact RF.
  - apply bind_ok in E. destruct E as [[v g1] [E1 E]]. injection E as <-.
    unfold ilGetString in E1. destruct (_ || _); [injection E1 as _ <-; exact RF|].
    destruct (switch _ str_modes); apply bind_ok in E1; destruct E1 as [g2 [E2 E1]];
    injection E1 as _ <-; [exact RF|eauto].
  - unfold ilSetString in E.
    assert (SC : forall k, (let! p := get_str k g in
          let! g := match p with Some a => free_str a g | None => Ok g end in
          let! (p, g) := strdup ok c g in set_str k p g) = Ok g' -> iv_same g g' f).
    { intros k Q. apply bind_ok in Q. destruct Q as [p [Q1 Q]].
      apply bind_ok in Q. destruct Q as [g1 [Q2 Q]].
      apply bind_ok in Q. destruct Q as [[p' g2] [Q3 Q]].
      assert (S1 : slots g1 = slots g /\ pos g1 = pos g).
      { destruct p as [a|].
        - unfold free_str in Q2. destruct (blocks g a); [|discriminate]. injection Q2 as <-. auto.
        - injection Q2 as <-. auto. }
      assert (S2 : slots g2 = slots g1 /\ pos g2 = pos g1).
      { unfold strdup in Q3. apply bind_ok in Q3. destruct Q3 as [s [_ Q3]].
        destruct (ok (nextb g1)); injection Q3 as _ <-; auto. }
      destruct S1 as [S1 S1']. destruct S2 as [S2 S2'].
      rewrite set_str_ok in Q by (rewrite S2', S1'; apply H). injection Q as <-.
      unfold iv_same, after_str. cbn. rewrite S2', S1', S2, S1, zupd_eq. reflexivity. }
    destruct c; [eauto| |]; (destruct (switch m0 str_modes) as [k|]; [apply (SC k); exact E|eauto]).
  - apply bind_ok in E. destruct E as [[v s] [E1 E]]. injection E as <-. exact RF.
Qed.

Lemma existsb_switch : forall {A} m (l : list (Z * A)),
  existsb (Z.eqb m) (map fst l) = match switch m l with Some _ => true | None => false end.
Proof.
  intros A m l. induction l as [|[c a] l IH]; cbn; [reflexivity|].
  destruct (m =? c); cbn; [reflexivity|exact IH].
Qed.
Lemma switchable_spec : forall m, switchable m = match switch m able_modes with Some _ => true | None => false end.
Proof. intros m. rewrite <- existsb_switch. reflexivity. Qed.

Lemma sw_other : forall ok o g g' st, sw_rep g st -> sstep ok o g = Ok g' ->
  is_push o = false -> is_pop o = false ->
  (forall k, o <> Enable k) -> (forall k, o <> Disable k) -> sw_rep g' st.
Proof.
  intros ok o g g' st [I [L R]] E N1 N2 N3 N4.
  destruct (step_frame ok o g g' I N1 N2 E) as [FI FP FS _ _].
  split; [exact FI|]. split; [lia|].
  intros i top Hi m f Hf. rewrite FP.
  destruct i as [|i].
  - replace (pos g - Z.of_nat 0) with (pos g) by lia.
    assert (Q := other_iv ok o g g' m f I E N1 N2 N3 N4 Hf). unfold iv_same in Q. rewrite Q.
    replace (pos g) with (pos g - Z.of_nat 0) at 1 by lia. eapply R; eauto.
  - rewrite FS by lia. eapply R; eauto.
Qed.

Lemma sw_able : forall g g' st m0 flag v, sw_rep g st -> ilAble m0 flag g = Ok (v, g') ->
  sw_rep g' (match st with top :: rest => (fun k => if k =? m0 then flag else top k) :: rest | [] => [] end).
Proof.
  intros g g' st m0 flag v [I [L R]] E. assert (P := inv_pos _ I).
  destruct st as [|top rest]; [cbn in L; lia|].
  destruct (able_ok m0 flag g I) as [v' [g1 [E1 [FI FP FS _ _]]]]. rewrite E1 in E. injection E as -> ->.
  split; [exact FI|]. split; [cbn [length] in *; lia|].
  intros i tp Hi m f Hf. rewrite FP. destruct i as [|i].
  - cbn in Hi. injection Hi as <-. replace (pos g - Z.of_nat 0) with (pos g) by lia.
    unfold ilAble in E1. destruct (switch m0 able_modes) as [k|] eqn:Sk.
    + apply bind_ok in E1. destruct E1 as [g2 [E2 E1]]. injection E1 as _ ->.
      destruct (Z.eqb_spec m m0) as [->|Ne].
      * rewrite Hf in Sk. injection Sk as ->. eapply set_int_iv_eq; eauto.
      * assert (f <> k) by (intros ->; apply Ne; eapply able_inj; eauto).
        assert (Q := set_int_iv _ _ _ _ f I E2 H). unfold iv_same in Q. rewrite Q.
        replace (pos g) with (pos g - Z.of_nat 0) at 1 by lia. eapply R; [reflexivity|exact Hf].
    + apply bind_ok in E1. destruct E1 as [g2 [E2 E1]]. injection E1 as _ ->.
      rewrite (raise_slots _ _ _ E2). destruct (Z.eqb_spec m m0) as [->|Ne]; [congruence|].
      replace (pos g) with (pos g - Z.of_nat 0) at 1 by lia. eapply R; [reflexivity|exact Hf].
  - rewrite FS by lia. eapply (R (S i)); eauto.
Qed.

Lemma sw_step_ok : forall ok o g g' st, sw_rep g st -> sstep ok o g = Ok g' -> sw_rep g' (sw_step o st).
Proof.
  intros ok o g g' st SR E. destruct o;
    try (match goal with |- sw_rep _ (sw_step ?o st) =>
      replace (sw_step o st) with st by (destruct st as [|? [|? ?]]; reflexivity) end;
      eapply sw_other; eauto; discriminate).
  - cbn [sstep] in E. apply bind_ok in E. destruct E as [[v g1] [E1 E]]. injection E as <-.
    assert (Q := sw_able _ _ _ _ _ _ SR E1). destruct st; exact Q.
  - cbn [sstep] in E. apply bind_ok in E. destruct E as [[v g1] [E1 E]]. injection E as <-.
    assert (Q := sw_able _ _ _ _ _ _ SR E1). destruct st; exact Q.
  - cbn [sstep] in E. destruct SR as [I [L R]]. assert (P := inv_pos _ I).
    destruct st as [|top rest]; [cbn in L; lia|]. cbn [sw_step].
    destruct (Z.eq_dec (pos g) 31) as [B|B].
    + destruct (push_overflow ok bits g I B) as [s [_ [E3 W]]]. rewrite E3 in E. injection E as <-.
      replace (length (top :: rest) <? 32)%nat with false by lia.
      split; [destruct I; constructor; cbn; auto|]. split; [exact L|]. exact R.
    + replace (length (top :: rest) <? 32)%nat with true by lia.
      destruct (push_inv ok bits g g' I ltac:(lia) E) as [I' [P' [S' _]]].
      split; [exact I'|]. split; [cbn [length] in *; lia|].
      intros i tp Hi m f Hf. destruct i as [|i].
      * cbn in Hi. injection Hi as <-.
        assert (IV : iv (slots g' (pos g')) f = iv (push_sts bits (slots g (pos g))) f).
        { destruct (push_ok ok bits g I ltac:(lia)) as [g2 [E2 [_ V]]].
          - intros Bt k N. rewrite (push_null_ub ok bits g k I ltac:(lia) Bt N) in E. discriminate.
          - rewrite E2 in E. injection E as <-. apply V. }
        replace (pos g' - Z.of_nat 0) with (pos g') by lia. rewrite IV, (push_able bits _ m f Hf).
        destruct (_ =? 0); [reflexivity|].
        replace (pos g) with (pos g - Z.of_nat 0) by lia. eapply R; [reflexivity|exact Hf].
      * rewrite S' by lia. replace (pos g' - Z.of_nat (S i)) with (pos g - Z.of_nat i) by lia.
        eapply R; eauto.
  - cbn [sstep] in E. destruct SR as [I [L R]]. assert (P := inv_pos _ I).
    destruct st as [|top rest]; [cbn in L; lia|]. destruct rest as [|next rest]; cbn [sw_step].
    + destruct (pop_underflow g I) as [s [_ [E3 W]]]; [cbn in L; lia|]. rewrite E3 in E. injection E as <-.
      split; [destruct I; constructor; cbn; auto|]. split; [exact L|]. exact R.
    + cbn [length] in L. rewrite pop_eq in E by lia. injection E as <-.
      split; [apply pop_inv; [exact I|lia]|]. cbn [pos set_pos slots]. split; [cbn [length]; lia|].
      intros i tp Hi m f Hf. replace (pos g - 1 - Z.of_nat i) with (pos g - Z.of_nat (S i)) by lia.
      eapply (R (S i)); eauto.
Qed.

Lemma sw_init : forall v, sw_rep (g_init v) [switch_default].
Proof.
  intros v. split; [apply inv_init|]. split; [reflexivity|].
  intros [|i] top Hi m f Hf; [|destruct i; discriminate]. cbn in Hi. injection Hi as <-.
  cbn. unfold zupd. cbn. apply switch_In in Hf. unfold able_modes in Hf. cbn [In] in Hf.
  in_cases Hf; injection Hf as <- <-; reflexivity.
Qed.

Lemma sw_run_ok : forall ok h g st g', sw_rep g st -> srun ok h g = Ok g' ->
  sw_rep g' (fold_left (fun st o => sw_step o st) h st).
Proof.
  intros ok. induction h as [|o h IH]; intros g st g' R E; cbn [srun fold_left] in *.
  - injection E as <-. exact R.
  - apply bind_ok in E. destruct E as [g1 [E1 E2]]. eapply IH; [|exact E2]. eapply sw_step_ok; eauto.
Qed.

Lemma sw_bool : forall h st, (forall top m, In top st -> top m = 0 \/ top m = 1) ->
  forall top m, In top (fold_left (fun st o => sw_step o st) h st) -> top m = 0 \/ top m = 1.
Proof.
  induction h as [|o h IH]; intros st Hs top m Hin; cbn [fold_left] in Hin; [eauto|].
  eapply IH; [|exact Hin]. clear - Hs. intros top m Hin.
  destruct o; cbn [sw_step] in Hin; try (destruct st as [|? [|? ?]]; eapply Hs; exact Hin).
  - destruct st as [|t r]; [eapply Hs; exact Hin|]. destruct Hin as [<-|Hin].
    + destruct (m =? m0); [auto|]. apply Hs. left; reflexivity.
    + apply Hs. right; exact Hin.
  - destruct st as [|t r]; [eapply Hs; exact Hin|]. destruct Hin as [<-|Hin].
    + destruct (m =? m0); [auto|]. apply Hs. left; reflexivity.
    + apply Hs. right; exact Hin.
  - destruct st as [|t r]; [eapply Hs; exact Hin|]. destruct (_ <? _)%nat; [|eapply Hs; exact Hin].
    destruct Hin as [<-|Hin].
    + destruct (_ =? 0); [unfold switch_default; destruct (_ =? _); auto|]. apply Hs. left; reflexivity.
    + apply Hs. exact Hin.
  - destruct st as [|t [|n r]]; try (eapply Hs; exact Hin).
    apply Hs. right; exact Hin.
Qed.

(** C19.  After any history [h] (switching, setting, pushing, popping ...) [ilIsEnabled(m)] answers
    exactly what the abstract machine [sw_run] says: the last ilEnable/ilDisable of [m] at this
    level, or what the enclosing push left.  In particular switching one mode never changes
    another.  An unknown mode answers IL_FALSE and raises IL_INVALID_ENUM, and enabling or
    disabling an unknown mode raises IL_INVALID_ENUM and changes nothing else. *)
Theorem C19_is_enabled : forall ok v h g, srun ok h (g_init v) = Ok g ->
  exists cur_level rest, sw_run h = cur_level :: rest /\
  (forall m, switchable m = true -> ilIsEnabled m g = Ok (cur_level m, g)) /\
  (forall m, switchable m = false ->
     (exists g', ilIsEnabled m g = Ok (IL_FALSE, g') /\ raised IL_INVALID_ENUM g g' /\ g' = set_errs g (errs g')) /\
     (exists g', ilEnable m g = Ok (IL_FALSE, g') /\ raised IL_INVALID_ENUM g g' /\ g' = set_errs g (errs g')) /\
     (exists g', ilDisable m g = Ok (IL_FALSE, g') /\ raised IL_INVALID_ENUM g g' /\ g' = set_errs g (errs g'))).
Proof.
  intros ok v h g E. assert (SR := sw_run_ok ok h _ _ _ (sw_init v) E). fold (sw_run h) in SR.
  destruct SR as [I [L R]]. assert (P := inv_pos _ I).
  destruct (sw_run h) as [|top rest] eqn:Run; [cbn in L; lia|].
  exists top, rest. split; [reflexivity|]. split.
  - intros m Hm. rewrite switchable_spec in Hm. unfold ilIsEnabled.
    destruct (switch m able_modes) as [f|] eqn:Sf; [|discriminate].
    rewrite get_int_ok by exact P. cbn [bind]. do 2 f_equal.
    assert (V : iv (slots g (pos g)) f = top m).
    { replace (pos g) with (pos g - Z.of_nat 0) by lia. eapply R; [reflexivity|exact Sf]. }
    rewrite V. assert (B : top m = 0 \/ top m = 1).
    { eapply (sw_bool h [switch_default]).
      - intros t k [<-|[]]. unfold switch_default. destruct (_ =? _); auto.
      - fold (sw_run h). rewrite Run. left; reflexivity. }
    destruct B as [-> | ->]; reflexivity.
  - intros m Hm. rewrite switchable_spec in Hm.
    destruct (switch m able_modes) as [f|] eqn:Sf; [discriminate|].
    destruct (raise_ok IL_INVALID_ENUM g (inv_est _ I)) as [s [E1 [E2 _]]].
    unfold ilIsEnabled, ilEnable, ilDisable, ilAble. rewrite Sf, E2. cbn [bind].
    repeat split; exists (set_errs g s); cbn; auto.
Qed.
Print Assumptions C19_is_enabled.

Example C19_hyp_met :
  let h := [Enable IL_CONV_PAL; Push (IL_PAL_BIT + IL_TYPE_BIT); Enable IL_FORMAT_SET; Disable IL_BLIT_BLEND] in
  (exists g, srun (fun _ => true) h (g_init None) = Ok g) /\
  match sw_run h with t :: _ => (t IL_CONV_PAL, t IL_FORMAT_SET, t IL_BLIT_BLEND, t IL_ORIGIN_SET) | [] => (9,9,9,9) end
    = (1, 1, 0, 0).
Proof. split; [apply C17_safe; repeat constructor|reflexivity]. Qed.
