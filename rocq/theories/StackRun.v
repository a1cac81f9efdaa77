(** Runs of legal histories, and the frame property of single calls. *)
From Coq Require Import ZArith List Bool Lia.
From Verif Require Import Base Enums Utility Stack StackHeap StackWf StackOps StackNames StackCopy StackInit StackSpec StackHist.
Import ListNotations.
Open Scope Z_scope.

Lemma links_chain : forall s k l a, links s k a l <-> chain s k a l.
Proof.
  induction l as [|b l IH]; intros a; cbn; [reflexivity|]. split; intros [i [E1 [E2 H]]]; exists i; (split; [assumption|split; [assumption|]]); apply IH; assumption.
Qed.
Lemma table_slotv : forall s n, table s n = slotv s n.
Proof. reflexivity. Qed.

(** [look] depends only on the tree of the name *)
Lemma locate_reach : forall s path a x, locate s (Some a) path = Some x -> reach s a x.
Proof.
  induction path as [|k path IH]; intros a x H; cbn in H; [injection H as <-; constructor|].
  destruct (ims s a) as [i|] eqn:Ei; [|discriminate]. destruct (getl k i) as [b|] eqn:Eb.
  - eapply reach_trans; [|apply IH; exact H]. eapply reach_step; [constructor|]. exists i. eauto.
  - destruct path; discriminate.
Qed.
Lemma locate_same : forall s s' path a, (forall x, reach s a x -> ims s' x = ims s x) -> locate s' (Some a) path = locate s (Some a) path.
Proof.
  induction path as [|k path IH]; intros a H; cbn; [reflexivity|]. rewrite (H a) by constructor.
  destruct (ims s a) as [i|] eqn:Ei; [|reflexivity]. destruct (getl k i) as [b|] eqn:Eb; [|destruct path; reflexivity].
  apply IH. intros x R. apply H. eapply reach_trans; [|exact R]. eapply reach_step; [constructor|]. exists i. eauto.
Qed.
Lemma look_same : forall s s' n, slotv s' n = slotv s n ->
  (forall a x, slotv s n = Some a -> reach s a x -> ims s' x = ims s x /\ forall k b, bpoints s x k b -> bks s' b = bks s b) ->
  forall path, look s' n path = look s n path.
Proof.
  intros s s' n E H path. unfold look. change table with slotv. rewrite E. destruct (slotv s n) as [a|] eqn:Ea.
  2:{ replace (locate s' None path) with (@None Z) by (destruct path; reflexivity).
      replace (locate s None path) with (@None Z) by (destruct path; reflexivity). reflexivity. }
  rewrite (locate_same s s' path a) by (intros x R; apply (H a x eq_refl R)).
  destruct (locate s (Some a) path) as [x|] eqn:El; [|reflexivity]. apply locate_reach in El. destruct (H a x eq_refl El) as [H1 H2].
  unfold see. rewrite H1. destruct (ims s x) as [i|] eqn:Ei; [|reflexivity]. unfold bytes_at. repeat f_equal.
  - destruct (iData i) as [b|] eqn:Eb; [|reflexivity]. apply (H2 BData). exists i. auto.
  - destruct (iPal i) as [b|] eqn:Eb; [|reflexivity]. apply (H2 BPal). exists i. auto.
Qed.
Lemma look_keep : forall s s' n, Inv none_r none_b s -> keep s s' -> slotv s' n = slotv s n -> forall path, look s' n path = look s n path.
Proof.
  intros s s' n I K E. apply look_same; [assumption|]. intros a x Ea R.
  assert (L : ims s x <> None). { eapply reach_live0; [exact I| |exact R]. apply points_slotv in Ea. exact (I_live _ _ _ I _ _ (fun y => y) Ea). }
  split; [apply K; assumption|]. intros k b P. apply K. exact (I_blive _ _ _ I _ _ _ (fun y => y) P).
Qed.
Lemma look_mutd : forall s s' a n c, Inv none_r none_b s -> touch (reach s a) (ownb s a) s s' -> slotv s' n = slotv s n ->
  (exists b, slotv s c = Some b /\ reach s b a) -> n <> c -> forall path, look s' n path = look s n path.
Proof.
  intros s s' a n c I T E [b [Eb R]] N. apply look_same; [assumption|]. intros d x Ed Rx.
  assert (L : ims s x <> None). { eapply reach_live0; [exact I| |exact Rx]. apply points_slotv in Ed. exact (I_live _ _ _ I _ _ (fun y => y) Ed). }
  destruct (ims s x) as [i|] eqn:Ei; [|congruence].
  destruct (mutd_other s s' a x i I T Ei) as [H1 H2].
  { intros R'. apply N. eapply forest; [exact I|exact Ed|exact Eb|exact Rx|]. eapply reach_trans; eauto. }
  split; [assumption|]. intros k z [j [Ej Gj]]. apply (H2 k). congruence.
Qed.
Lemma look_errs : forall e s n path, look (set_errs e s) n path = look s n path.
Proof. intros e s n path. apply look_same; auto. Qed.

Section Run.
Variable A : oracle.
Hypothesis OK : oracle_ok A.
Hypothesis NT : notab A.

Lemma run_ok : forall h v s, hinv A v s -> legal_from A v s h -> (nofail A \/ Forall (fun o => ~ needs_memory o) h) ->
  exists rs s', run A h s = Ok (rs, s') /\ length rs = length h /\ hinv A (view_of v h rs) s' /\ (tight_from A s h -> nl none none s -> nl none none s').
Proof.
  induction h as [|o h IH]; intros v s H L M.
  - exists [], s. cbn. auto.
  - destruct L as [L1 L2]. assert (Mo : nofail A \/ ~ needs_memory o) by (destruct M as [M|M]; [left; assumption|right; inversion M; assumption]).
    assert (Mh : nofail A \/ Forall (fun o => ~ needs_memory o) h) by (destruct M as [M|M]; [left; assumption|right; inversion M; assumption]).
    destruct (step_ok A OK NT v s o H L1 Mo) as (r & s1 & E & H1 & N1).
    destruct (IH (after v o r) s1 H1 (L2 r s1 E) Mh) as (rs & s' & E' & EL & H' & N').
    exists (r :: rs), s'. cbn [run view_of]. unfold bindM. rewrite E. cbn [bind]. rewrite E'. cbn.
    split; [reflexivity|]. split; [f_equal; assumption|]. split; [assumption|]. intros [T1 T2] N. apply N'; [exact (T2 r s1 E)|exact (N1 T1 N)].
Qed.
Lemma run_app : forall h1 h2 s, run A (h1 ++ h2) s = let! (r1, s1) := run A h1 s in let! (r2, s2) := run A h2 s1 in Ok (r1 ++ r2, s2).
Proof.
  induction h1 as [|o h1 IH]; intros h2 s; cbn [run app].
  - unfold ret. cbn [bind]. destruct (run A h2 s) as [[r s2]| |]; reflexivity.
  - unfold bindM at 1 3. destruct (step A o s) as [[r s1]| |]; cbn [bind]; [|reflexivity|reflexivity]. unfold bindM. rewrite IH.
    destruct (run A h1 s1) as [[r1 s2]| |]; cbn [bind]; [|reflexivity|reflexivity].
    unfold ret. cbn. destruct (run A h2 s2) as [[r2 s3]| |]; reflexivity.
Qed.
Lemma legal_app : forall h1 h2 v s rs s', legal_from A v s (h1 ++ h2) -> run A h1 s = Ok (rs, s') ->
  legal_from A v s h1 /\ legal_from A (view_of v h1 rs) s' h2.
Proof.
  induction h1 as [|o h1 IH]; intros h2 v s rs s' L E; cbn [run app] in *.
  - injection E as <- <-. cbn. auto.
  - destruct L as [L1 L2]. unfold bindM at 1 in E. destruct (step A o s) as [[r s1]| |] eqn:Es; cbn [bind] in E; try discriminate.
    unfold bindM in E. destruct (run A h1 s1) as [[r1 s2]| |] eqn:Er; cbn in E; try discriminate. injection E as <- <-.
    specialize (L2 r s1 eq_refl). destruct (IH h2 _ _ _ _ L2 Er) as [La Lb]. cbn [view_of]. split; [|exact Lb].
    split; [exact L1|]. intros r' s1' E'. assert (r' = r /\ s1' = s1) as [-> ->] by (split; congruence). exact La.
Qed.
(** the state reached by a legal history, before a further legal call *)
Lemma reached : forall h o rs s, (nofail A \/ Forall (fun o => ~ needs_memory o) h) -> legal_from A v0 st0 (h ++ [o]) -> run A h st0 = Ok (rs, s) ->
  hinv A (view_of v0 h rs) s /\ legal (view_of v0 h rs) s o.
Proof.
  intros h o rs s M L E. destruct (legal_app _ _ _ _ _ _ L E) as [L1 [L2 _]].
  destruct (run_ok h v0 st0 (hinv0 A) L1 M) as (rs' & s' & E' & _ & H & _). assert (rs' = rs /\ s' = s) as [-> ->] by (split; congruence). auto.
Qed.
Lemma on_legal : forall v s o, hinv A v s -> legal v s o -> match o with Init | ShutDown | IsImage _ => False | _ => True end -> on_inv A v s.
Proof. intros v s o H [L _] N. unfold hinv in H. destruct o; try contradiction; rewrite L in H; exact H. Qed.

(** ** The frame of a call *)
Lemma sync_owner : forall s a, cur s = Some a -> sync s -> exists b, slotv s (cnm s) = Some b /\ reach s b a.
Proof. intros s a C S. destruct (S a C) as [b [P R]]. exists b. split; [apply points_slotv; exact P|exact R]. Qed.

Definition framed (v : view) (o : op) (s s' : st) : Prop :=
  forall m path, In m (v_live v) -> ~ In m (touched v o) -> look s' m path = look s m path.
Lemma framed_mutd : forall v o s s' a, on_inv A v s -> nofail A -> v_sync v = true -> cur s = Some a -> mutd s s' a ->
  touched v o = [v_cur v] -> framed v o s s'.
Proof.
  intros v o s s' a h NF S C M T m path Hm Nm. rewrite T in Nm. eapply look_mutd; [apply h|apply M|apply glob_slotv; apply M|apply (sync_owner s a C); apply h; assumption|].
  rewrite (h_cnm _ _ _ h NF). intros ->. apply Nm. left. reflexivity.
Qed.
Lemma framed_keep : forall v o s s', on_inv A v s -> nofail A -> keep s s' -> (forall m, slotv s m <> None -> slotv s' m = slotv s m) -> framed v o s s'.
Proof.
  intros v o s s' h NF K SL m path Hm _. apply look_keep; [apply h|assumption|]. apply SL. apply (h_live _ _ _ h NF). assumption.
Qed.
Lemma bound_slots : forall s s' n, bound A s s' n -> forall m, slotv s m <> None -> slotv s' m = slotv s m.
Proof.
  intros s s' n b m Hm. destruct (Z.eq_dec m n) as [->|N]; [|apply b; assumption].
  destruct (slotv s n) as [x|] eqn:E; [|congruence]. apply (bo_old _ _ _ _ b); assumption.
Qed.
Lemma bound_keep : forall s s' n, bound A s s' n -> keep s s'.
Proof. intros s s' n b. apply b. Qed.

Lemma reg_frame : forall v s k1 k2 n o, on_inv A v s -> nofail A -> 0 <= n -> touched v o = [v_cur v] ->
  wp (do b <- ilRegisterNum A k1 k2 n; ret [b2z b]) s (fun _ s' => framed v o s s').
Proof.
  intros v s k1 k2 n o h NF Hn T. apply wp_bind. apply (wp_RegisterNum A OK NT); [assumption|apply h|assumption|].
  intros s1 s' a i b1 C1 Ei M N _. apply wp_ret. intros m path Hm Nm. rewrite T in Nm.
  assert (EN : match cur s with Some _ => cnm s | None => 0 end = v_cur v).
  { rewrite <- (h_cnm _ _ _ h NF). destruct (cur s) eqn:E; [reflexivity|]. exfalso. apply (h_cur _ _ _ h NF E). }
  rewrite EN in b1. transitivity (look s1 m path).
  - eapply (look_mutd s1 s' a m (v_cur v)); [apply b1|apply M|apply glob_slotv; apply M| |].
    + exists a. split; [|constructor]. rewrite <- (bo_cur _ _ _ _ b1). exact C1.
    + intros ->. apply Nm. left. reflexivity.
  - apply look_keep; [apply h|apply b1|]. apply (bound_slots _ _ _ b1). apply (h_live _ _ _ h NF). assumption.
Qed.

Theorem frame_ok : forall v s o, hinv A v s -> legal v s o -> nofail A -> v_on v = true -> v_sync v = true -> o <> ShutDown ->
  wp (step A o) s (fun _ s' => framed v o s s').
Proof.
  intros v s o H [L1 L2] NF E S NS. unfold hinv in H. rewrite E in H. destruct o; try congruence; cbn [step].
  - apply wp_bind. unfold ilInit. apply wp_bind, wp_get. rewrite (g_ini _ (h_GF _ _ _ H)). apply wp_ret. apply wp_ret. intros m path _ _. reflexivity.
  - assert (Q := h_top _ _ _ H). apply (wp_GenImages A OK NT); [apply H|unfold NMAX, name_limit in *; lia| |].
    + intros l s' Hn g _. apply framed_keep; auto; [apply g|]. intros m Hm. apply (gn_slot _ _ _ _ g). intros Q'. apply (gn_l _ _ _ _ g) in Q'. tauto.
    + intros _ m path _ _. apply look_errs.
  - apply wp_bind. apply (wp_BindImage A OK NT); [apply H|unfold NMAX, name_limit in *; lia| |].
    + intros Q. apply (h_dead _ _ _ H) in Q. tauto.
    + intros s' b. apply wp_ret. apply framed_keep; auto; [apply b|]. apply (bound_slots _ _ _ b).
  - apply wp_bind. apply (wp_DeleteImages A); [apply H|apply H; assumption|]. intros s' l1 l2 El d N2. apply wp_ret.
    rewrite (N2 NF), app_nil_r in El. subst l1. intros m path Hm Nm. cbn [touched] in Nm.
    assert (Q : ~ In m l \/ m <= 0). { destruct (in_dec Z.eq_dec m l) as [Hl|Hl]; [right|left; assumption]. destruct (Z_lt_dec 0 m); [|lia]. exfalso. apply Nm. apply positive_In. auto. }
    apply look_same; [apply d; assumption|]. intros a x Ea R. eapply (de_tree _ _ _ _ d); eauto.
  - apply wp_bind. apply wp_IsImage; [apply H|assumption|]. apply wp_ret. intros m path _ _. reflexivity.
  - apply wp_bind. apply wp_Active; [apply H| | | |]; intros; apply wp_ret; intros m path _ _; try reflexivity; try apply look_errs.
    apply look_same; auto.
  - apply wp_bind. apply wp_Num; [apply H| |]; intros; apply wp_ret; intros m path _ _; try reflexivity; apply look_errs.
  - destruct (cur s) as [a|] eqn:C; [|exfalso; apply (h_cur _ _ _ H NF); assumption].
    destruct (ims s a) as [i|] eqn:Ei; [|exfalso; eapply (g_cur _ (h_GF _ _ _ H)); eauto].
    apply wp_bind. eapply (wp_SubImage A OK); [apply H|apply H|exact C|exact Ei|lia|]. intros c s' M _ _ _ _. apply wp_ret.
    eapply framed_mutd; eauto.
  - destruct L2 as (B1&B2&B3&B4&B5&B6). destruct (cur s) as [a|] eqn:C; [|exfalso; apply (h_cur _ _ _ H NF); assumption].
    destruct (ims s a) as [i|] eqn:Ei; [|exfalso; eapply (g_cur _ (h_GF _ _ _ H)); eauto].
    apply wp_bind. unfold ilTexImage. apply wp_bind, wp_get. rewrite C.
    eapply (wp_TexImage_ A OK); [apply H|apply H|exact Ei|exact B5| |].
    { intros src Hs. specialize (B6 src Hs). assert (Q := size_le w h d bpp fmt typ B1 B2 B3 B4). lia. }
    intros ok s' M _ _ _ _ _. apply wp_ret. eapply framed_mutd; eauto.
  - destruct L2 as (B1&B2&B3&B4&B5&B6). destruct (cur s) as [a|] eqn:C; [|exfalso; apply (h_cur _ _ _ H NF); assumption].
    destruct (ims s a) as [i|] eqn:Ei; [|exfalso; eapply (g_cur _ (h_GF _ _ _ H)); eauto].
    apply wp_bind. eapply (wp_TexSurface A OK); [apply H|apply H|exact C|exact Ei|exact B5| |].
    { intros src Hs. specialize (B6 src Hs). assert (Q := size_le w h d bpp fmt typ B1 B2 B3 B4). lia. }
    intros ok s' M _ _ _ _. apply wp_ret. eapply framed_mutd; eauto.
  - destruct (cur s) as [a|] eqn:C; [|exfalso; apply (h_cur _ _ _ H NF); assumption].
    destruct (ims s a) as [i|] eqn:Ei; [|exfalso; eapply (g_cur _ (h_GF _ _ _ H)); eauto].
    apply wp_bind. eapply (wp_SetData A OK); [apply H|apply H|exact C|exact Ei| |].
    { intros src Hs. apply (L2 a i eq_refl Ei src Hs). }
    intros ok s' M _ _ _. apply wp_ret. eapply framed_mutd; eauto.
  - destruct (cur s) as [a|] eqn:C; [|exfalso; apply (h_cur _ _ _ H NF); assumption].
    destruct (ims s a) as [i|] eqn:Ei; [|exfalso; eapply (g_cur _ (h_GF _ _ _ H)); eauto].
    apply wp_bind. eapply (wp_RegisterPal A OK); [apply H|apply H|exact C|exact Ei|lia|apply L2|].
    intros s' M _ _. apply wp_ret. eapply framed_mutd; eauto.
  - apply reg_frame; auto.
  - apply reg_frame; auto.
  - apply reg_frame; auto.
  - apply wp_bind. apply wp_SetDuration; [apply H| |].
    + intros a i C Ei s' _ M _. apply wp_ret. eapply framed_mutd; eauto.
    + intros C. exfalso. apply (h_cur _ _ _ H NF). assumption.
  - destruct L2 as (B1&B2&B3&B4&B5). apply wp_bind. apply (wp_CopyImage A OK NT); auto.
    + apply H.
    + apply (h_base _ _ _ H NF B3).
    + intros Q. apply (h_dead _ _ _ H) in Q. tauto.
    + rewrite (h_cnm _ _ _ H NF). assumption.
    + intros _. apply wp_ret. intros m path _ _. apply look_errs.
    + intros s1 s2 s' dst sa si Hc C b1 b2 S2 Es C2 M _ _ _ _. apply wp_ret. intros m path Hm Nm. cbn in Nm.
      assert (Lm : slotv s m <> None) by (apply (h_live _ _ _ H NF); assumption).
      assert (E1 := bound_slots _ _ _ b1 m Lm). assert (E2 := bound_slots _ _ _ b2 m ltac:(congruence)).
      transitivity (look s2 m path); [|transitivity (look s1 m path)].
      * eapply (look_mutd s2 s' dst m (cnm s)); [apply b2|apply M|apply glob_slotv; apply M| |].
        -- exists dst. split; [|constructor]. rewrite <- (bo_cur _ _ _ _ b2). exact C2.
        -- rewrite (h_cnm _ _ _ H NF). intros ->. tauto.
      * apply look_keep; [apply b1|apply b2|assumption].
      * apply look_keep; [apply H|apply b1|assumption].
  - apply wp_bind. apply (wp_Clone A OK NT); [apply H| | |].
    + assert (Q := h_top _ _ _ H). unfold NMAX, name_limit in *. lia.
    + intros _. apply wp_ret. intros m path _ _. apply look_errs.
    + intros id s' c C. apply wp_ret. apply framed_keep; auto; [apply c|]. intros m Hm. apply (cl_slot _ _ _ _ c). intros ->.
      apply Hm. apply c.
Qed.
End Run.
