(** Histories: every legal call preserves the invariant that ties the library's state to the
    client's view. *)
From Coq Require Import ZArith List Bool Lia.
From Verif Require Import Base Enums Utility Stack StackHeap StackWf StackOps StackNames StackCopy StackInit StackSpec.
Import ListNotations.
Open Scope Z_scope.

Lemma mem_In : forall n l, mem n l = true <-> In n l.
Proof.
  intros n l. unfold mem. rewrite existsb_exists. split.
  - intros [x [H E]]. assert (n = x) by lia. subst. assumption.
  - intros H. exists n. split; [assumption|lia].
Qed.
Lemma minus_In : forall l d n, In n (minus l d) <-> In n l /\ ~ In n d.
Proof.
  intros l d n. unfold minus. rewrite filter_In. rewrite negb_true_iff. rewrite <- (mem_In n d).
  destruct (mem n d); split; intros [H1 H2]; split; auto; congruence.
Qed.
Lemma positive_In : forall l n, In n (positive l) <-> In n l /\ 0 < n.
Proof. intros l n. unfold positive. rewrite filter_In. rewrite Z.ltb_lt. reflexivity. Qed.

Section Hist.
Variable A : oracle.
Hypothesis OK : oracle_ok A.
Hypothesis NT : notab A.

Record on_inv (v : view) (s : st) : Prop := {
  h_GF : GF s;
  h_sync : v_sync v = true -> sync s;
  h_base : nofail A -> v_base v = true -> base s;
  h_cnm : nofail A -> cnm s = v_cur v;
  h_cur : nofail A -> cur s <> None;
  h_live : nofail A -> forall n, slotv s n <> None <-> In n (v_live v);
  h_0 : nofail A -> In 0 (v_live v);
  h_in : nofail A -> In (v_cur v) (v_live v);
  h_dead : forall n, In n (fre s) -> In n (v_dead v);
  h_top : lst s <= v_top v }.
Definition hinv (v : view) (s : st) : Prop := if v_on v then on_inv v s else Off s.

Lemma hinv0 : hinv v0 st0.
Proof.
  split; cbn; auto.
  - split; cbn; try lia; try congruence.
    + intros [n|p k] a _ []. destruct H; discriminate.
    + intros p k a _ [i [H _]]. discriminate.
    + intros [n|p k] r' a _ _ []. destruct H; discriminate.
    + intros p k b _ [i [H _]]. discriminate.
    + intros p k p' k' b _ _ [i [H _]]. discriminate.
  - intros a i H. discriminate.
Qed.
Lemma nl0 : nl none none st0.
Proof. split; cbn; congruence. Qed.

(** nothing the view depends on changed *)
Lemma hinv_same : forall v s s', on_inv v s -> GF s' -> cur s' = cur s -> glob s s' -> (sync s -> sync s') -> (base s -> base s') -> on_inv v s'.
Proof.
  intros v s s' h g C GL S B. assert (SL := fun n => glob_slotv s s' n GL). destruct GL as (E1&E2&E3&E4&E5&E6&E7).
  destruct h. split; auto; try congruence.
  - intros NF. rewrite E6. auto.
  - intros NF. rewrite C. auto.
  - intros NF n. rewrite SL. auto.
  - intros n. rewrite E4. auto.
Qed.
Lemma hinv_mutd : forall v s s' a, on_inv v s -> cur s = Some a -> mutd s s' a -> on_inv v s'.
Proof.
  intros v s s' a h C M. destruct (mutd_G s s' a (gf_G _ (h_GF _ _ h)) C M) as [g' [S B]].
  assert (GL := md_glob _ _ _ M). assert (CC : cur s' = cur s) by (destruct GL as (_&_&_&_&Q&_); exact Q).
  apply (hinv_same v s); auto. eapply mutd_GF; eauto. apply h.
Qed.
Lemma set_errs_GF : forall e s, GF s -> GF (set_errs e s).
Proof.
  intros e s [g ? ? ?]. split; auto. destruct g as [i z ? ? ? ? ? ? ? ?]; split; auto.
  - eapply ext_inv; [exact i|reflexivity|reflexivity|reflexivity|apply Z.le_refl].
  - eapply ext_siz; [exact z|reflexivity|reflexivity].
Qed.
Lemma hinv_errs : forall v s e, on_inv v s -> on_inv v (set_errs e s).
Proof.
  intros v s e h. apply (hinv_same v s); [exact h|apply set_errs_GF; apply h|reflexivity|repeat split| |exact (fun x => x)].
  intros S c Hc. destruct (S c Hc) as [b [P R]]. exists b. split; [exact P|]. eapply keep_reach; [|exact R]. split; [cbn; lia|reflexivity|reflexivity].
Qed.
Lemma nl_errs : forall e s, nl none none s -> nl none none (set_errs e s).
Proof. intros e s N. eapply ext_nl; [exact N|reflexivity|reflexivity|reflexivity]. Qed.

(** the size a caller must provide covers the size the library copies *)
Lemma size_le : forall w h d bpp fmt typ, 0 <= w -> 0 <= h -> 0 <= d -> 0 <= bpp ->
  hSize (init_hdr w h d bpp fmt typ) <= bytes_of w h d bpp typ.
Proof.
  intros w h d bpp fmt typ Hw Hh Hd Hb. unfold init_hdr, bytes_of. cbn [hSize]. change dim with one.
  assert (U : forall x, 0 <= x -> 0 <= u32 x <= x) by (intros x Hx; unfold u32; split; [apply Z.mod_pos_bound; lia|apply Z.mod_le; lia]).
  assert (O : forall x, 0 <= x -> 1 <= one x) by (intros x Hx; unfold one; destruct (x =? 0) eqn:E; lia).
  assert (Bc : 0 <= ilGetBpcType typ).
  { unfold ilGetBpcType. repeat (match goal with |- context[if ?c then _ else _] => destruct c end; try lia). }
  specialize (O w Hw) as O1. specialize (O h Hh) as O2. specialize (O d Hd) as O3.
  set (W := one w) in *. set (H := one h) in *. set (D := one d) in *. set (B := ilGetBpcType typ) in *.
  assert (P1 : 0 <= W * bpp * B) by (repeat apply Z.mul_nonneg_nonneg; lia).
  assert (U1 := U _ P1). set (x1 := u32 (W * bpp * B)) in *.
  assert (P2 : 0 <= x1 * H) by (apply Z.mul_nonneg_nonneg; lia). assert (U2 := U _ P2). set (x2 := u32 (x1 * H)) in *.
  assert (P3 : 0 <= x2 * D) by (apply Z.mul_nonneg_nonneg; lia). assert (U3 := U _ P3).
  assert (x2 * D <= W * bpp * B * H * D).
  { apply Z.mul_le_mono_nonneg_r; [lia|]. assert (x1 * H <= W * bpp * B * H) by (apply Z.mul_le_mono_nonneg_r; lia). lia. }
  assert (E : W * H * D * bpp * B = W * bpp * B * H * D) by ring. lia.
Qed.

Lemma sync_gf : forall s, cur s <> None -> sync s -> slotv s (cnm s) <> None.
Proof. intros s H S. destruct (cur s) as [c|] eqn:E; [|congruence]. destruct (S c E) as [b [P _]]. apply points_slotv in P. congruence. Qed.

(** binding *)
Lemma hinv_bound : forall v s s' n, on_inv v s -> bound A s s' n -> 0 <= n -> on_inv (after v (Bind n) []) s'.
Proof.
  intros v s s' n h b Hn. cbn. split; cbn.
  - apply b.
  - intros _. apply base_sync. eapply bound_base; eauto.
  - intros _ _. eapply bound_base; eauto.
  - intros _. apply b.
  - intros NF. rewrite (bo_cur _ _ _ _ b). destruct (slotv s n) as [x|] eqn:E.
    + rewrite (bo_old _ _ _ _ b x E). discriminate.
    + destruct (bo_new _ _ _ _ b E) as [[_ Q]|[x [Q _]]]; [exfalso; auto|congruence].
  - intros NF m. destruct (Z.eq_dec m n) as [->|Nm].
    + split; [left; reflexivity|]. intros _. destruct (slotv s n) as [x|] eqn:E.
      * rewrite (bo_old _ _ _ _ b x E). discriminate.
      * destruct (bo_new _ _ _ _ b E) as [[_ Q]|[x [Q _]]]; [exfalso; auto|congruence].
    + rewrite (bo_slot _ _ _ _ b) by assumption. rewrite (h_live _ _ h NF). split; [right; assumption|]. intros [Q|Q]; [congruence|assumption].
  - intros NF. right. apply (h_0 _ _ h NF).
  - intros _. left. reflexivity.
  - rewrite (bo_fre _ _ _ _ b). apply h.
  - assert (Q := bo_lst _ _ _ _ b). assert (Q2 := h_top _ _ h). lia.
Qed.

(** binding a name already in use changes nothing else *)
Lemma hinv_rebound : forall v s s' n, on_inv v s -> bound A s s' n -> 0 <= n -> nofail A -> In n (v_live v) -> n < v_top v ->
  on_inv (mkView (v_on v) (v_live v) (v_dead v) n true true (v_top v)) s'.
Proof.
  intros v s s' n h b Hn NF HL HT. destruct (hinv_bound v s s' n h b Hn). cbn in *. split; cbn; auto.
  - intros _ m. rewrite h_live0 by assumption. split; [intros [<-|Q]; assumption|auto].
  - intros _. apply (h_0 _ _ h NF).
  - replace (Z.max (v_top v) (n + 1)) with (v_top v) in h_top0 by lia. assumption.
Qed.

Lemma reg_step : forall v s k1 k2 n (Q : bool -> st -> Prop), on_inv v s -> nofail A -> 0 <= n -> v_on v = true ->
  (forall s', on_inv (mkView true (v_live v) (v_dead v) (v_cur v) true true (v_top v)) s' ->
     ((forall a i, bound_image s = Some a -> ims s a = Some i -> nocross k1 i) -> nl none none s -> nl none none s') -> Q true s') ->
  wp (ilRegisterNum A k1 k2 n) s Q.
Proof.
  intros v s k1 k2 n Q h NF Hn Hon HQ. apply (wp_RegisterNum A OK NT); [assumption|apply h|assumption|].
  intros s1 s' a i b1 C1 Ei M N _.
  assert (EN : match cur s with Some _ => cnm s | None => 0 end = v_cur v).
  { rewrite <- (h_cnm _ _ h NF). destruct (cur s) eqn:E; [reflexivity|]. exfalso. apply (h_cur _ _ h NF E). }
  rewrite EN in b1. assert (HI := h_in _ _ h NF). assert (SL := proj2 (h_live _ _ h NF _) HI).
  assert (Cn := g_cnm _ (h_GF _ _ h)). assert (HT := h_top _ _ h). rewrite (h_cnm _ _ h NF) in Cn.
  assert (h1 := hinv_rebound v s s1 (v_cur v) h b1 ltac:(lia) NF HI ltac:(lia)). rewrite Hon in h1.
  apply HQ; [eapply hinv_mutd; eauto|]. intros T N0. apply N; [|apply b1; assumption].
  destruct (slotv s (v_cur v)) as [b|] eqn:Eb; [|congruence]. assert (Sb := bo_old _ _ _ _ b1 b Eb).
  assert (a = b) by (rewrite (bo_cur _ _ _ _ b1) in C1; congruence). subst b.
  destruct (bo_same _ _ _ _ b1) as [B1 _]; [congruence|]. apply (T a i); [|congruence].
  unfold bound_image. rewrite EN. exact Eb.
Qed.

Theorem step_ok : forall v s o, hinv v s -> legal v s o -> (nofail A \/ ~ needs_memory o) ->
  wp (step A o) s (fun r s' => hinv (after v o r) s' /\ (tight s o -> nl none none s -> nl none none s')).
Proof.
  intros v s o H [L1 L2] NM. unfold hinv in *.
  assert (ON : v_on v = true -> on_inv v s) by (intros E; rewrite E in H; exact H).
  destruct o; cbn [step after v_on] in *.
  - (* Init *)
    destruct (v_on v) eqn:E.
    + apply wp_bind. unfold ilInit. apply wp_bind, wp_get. rewrite (g_ini _ (h_GF _ _ H)). apply wp_ret. apply wp_ret. rewrite E. auto.
    + apply wp_bind. apply (wp_Init A OK NT); [assumption|]. intros s' i. apply wp_ret. cbn. split; [|auto using (in_nl _ _ _ i)].
      split; cbn.
      * apply i.
      * intros _. apply base_sync. apply i.
      * intros _ _. apply i.
      * intros _. apply i.
      * intros NF. destruct (in_cur _ _ _ i NF) as (a & b & Q1 & Q2 & Q3). congruence.
      * intros NF n. destruct (in_cur _ _ _ i NF) as (a & b & Q1 & Q2 & Q3). split.
        -- intros Q. destruct (Z.eq_dec n 0) as [->|N0]; [auto|]. destruct (Z.eq_dec n 1) as [->|N1]; [auto|]. exfalso. apply Q. apply (in_slots _ _ _ i); assumption.
        -- intros [<-|[<-|[]]]; congruence.
      * auto.
      * auto.
      * rewrite (in_fre _ _ _ i). auto.
      * rewrite (in_lst _ _ _ i). lia.
  - (* ShutDown *)
    destruct (v_on v) eqn:E.
    + apply wp_bind. apply wp_ShutDown; [apply H|]. intros s' o EM _. apply wp_ret. split; [assumption|]. intros _ N. destruct (EM N) as [M1 M2].
      split; intros x; rewrite ?M1, ?M2; congruence.
    + apply wp_bind. unfold ilShutDown. apply wp_bind, wp_get. rewrite (of_ini _ H). apply wp_ret. apply wp_ret. auto.
  - (* Gen *)
    specialize (ON L1). rewrite L1. apply (wp_GenImages A OK NT); [apply ON|assert (Q := h_top _ _ ON); unfold NMAX, name_limit in *; lia| |].
    + intros l s' Hn g Hl. split; [|intros _ N; apply g; assumption].
      split; cbn.
      * apply g.
      * intros E c Hc. rewrite (gn_cur _ _ _ _ g) in Hc. destruct (h_sync _ _ ON E c Hc) as [b [P R]]. exists b. rewrite (gn_cnm _ _ _ _ g). split.
        -- apply points_slotv. apply points_slotv in P. rewrite (gn_slot _ _ _ _ g); [assumption|]. intros Q. apply (gn_l _ _ _ _ g) in Q. destruct Q as [Q _]. congruence.
        -- eapply keep_reach; [apply g|assumption].
      * intros NF E c Hc. rewrite (gn_cur _ _ _ _ g) in Hc. assert (P := h_base _ _ ON NF E c Hc). rewrite (gn_cnm _ _ _ _ g).
        apply points_slotv. apply points_slotv in P. rewrite (gn_slot _ _ _ _ g); [assumption|]. intros Q. apply (gn_l _ _ _ _ g) in Q. destruct Q as [Q _]. congruence.
      * intros NF. rewrite (gn_cnm _ _ _ _ g). apply (h_cnm _ _ ON NF).
      * intros NF. rewrite (gn_cur _ _ _ _ g). apply (h_cur _ _ ON NF).
      * intros NF n0. rewrite in_app_iff. destruct (in_dec Z.eq_dec n0 l) as [Hi|Hi].
        -- destruct (gn_live _ _ _ _ g NF n0 Hi) as [b [Q _]]. split; [auto|congruence].
        -- rewrite (gn_slot _ _ _ _ g) by assumption. rewrite (h_live _ _ ON NF). tauto.
      * intros NF. apply in_app_iff. right. apply (h_0 _ _ ON NF).
      * intros NF. apply in_app_iff. right. apply (h_in _ _ ON NF).
      * intros m Hm. apply (gn_fre _ _ _ _ g) in Hm. apply minus_In. split; [apply (h_dead _ _ ON)|]; tauto.
      * assert (Q := gn_lst _ _ _ _ g). assert (Q2 := h_top _ _ ON). lia.
    + intros Hn. split; [|intros _ N; apply nl_errs; assumption].
      assert (E : minus (v_dead v) [] = v_dead v).
      { unfold minus. cbn. induction (v_dead v) as [|x l IH]; [reflexivity|]. cbn. congruence. }
      cbn. rewrite E. replace (v_top v + Z.max 0 n) with (v_top v) by lia. assert (ON2 := hinv_errs v s (IL_INVALID_VALUE :: errs s) ON). destruct v as [b0 ? ? ? ? ? ?]; cbn in *. subst b0. exact ON2.
  - (* Bind *)
    specialize (ON L1). rewrite L1. apply wp_bind. apply (wp_BindImage A OK NT); [apply ON|unfold NMAX, name_limit in *; lia| |].
    { intros Q. apply (h_dead _ _ ON) in Q. tauto. }
    intros s' b. apply wp_ret. split; [|intros _ N; apply b; assumption].
    assert (hb := hinv_bound v s s' n ON b ltac:(lia)). cbn in hb. rewrite L1 in hb. exact hb.
  - (* Delete *)
    specialize (ON L1). rewrite L1. apply wp_bind. apply (wp_DeleteImages A); [apply ON|apply (h_sync _ _ ON); assumption|].
    intros s' l1 l2 El d NFl. apply wp_ret. split; [|intros _ N; apply d; assumption].
    assert (SUB : forall m, In m l1 -> In m l) by (intros m Hm; subst l; apply in_app_iff; auto).
    split; cbn.
    + apply d.
    + intros _. apply d.
    + intros NF E. assert (l1 = l) by (rewrite El, (NFl NF), app_nil_r; reflexivity). subst l1.
      apply orb_true_iff in E. destruct E as [E|E]; [apply d; apply (h_base _ _ ON NF E)|].
      apply mem_In, positive_In in E. rewrite <- (h_cnm _ _ ON NF) in E. destruct E as [E1 E2].
      destruct (de_cnm _ _ _ _ d) as [C1 C2].
      { split; [assumption|split; [assumption|]]. apply sync_gf; [apply (h_cur _ _ ON NF)|apply (h_sync _ _ ON L2)]. }
      intros c Hc. apply points_slotv. rewrite C1. rewrite (de_slot _ _ _ _ d) by lia. congruence.
    + intros NF. assert (l1 = l) by (rewrite El, (NFl NF), app_nil_r; reflexivity). subst l1.
      destruct (mem (v_cur v) (positive l)) eqn:E.
      * apply mem_In, positive_In in E. rewrite <- (h_cnm _ _ ON NF) in E. destruct E as [E1 E2]. apply (de_cnm _ _ _ _ d).
        split; [assumption|split; [assumption|]]. apply sync_gf; [apply (h_cur _ _ ON NF)|apply (h_sync _ _ ON L2)].
      * destruct (de_cnm' _ _ _ _ d) as [C1 C2].
        { intros [Q1 [Q2 _]]. assert (Q : mem (v_cur v) (positive l) = true) by (apply mem_In, positive_In; rewrite <- (h_cnm _ _ ON NF); auto). congruence. }
        rewrite C1. apply (h_cnm _ _ ON NF).
    + intros NF. assert (l1 = l) by (rewrite El, (NFl NF), app_nil_r; reflexivity). subst l1.
      assert (S0 : slotv s 0 <> None) by (apply (h_live _ _ ON NF); apply (h_0 _ _ ON NF)).
      destruct (mem (v_cur v) (positive l)) eqn:E.
      * apply mem_In, positive_In in E. rewrite <- (h_cnm _ _ ON NF) in E. destruct E as [E1 E2]. destruct (de_cnm _ _ _ _ d) as [_ C2]; [|congruence].
        split; [assumption|split; [assumption|]]. apply sync_gf; [apply (h_cur _ _ ON NF)|apply (h_sync _ _ ON L2)].
      * destruct (de_cnm' _ _ _ _ d) as [C1 C2].
        { intros [Q1 [Q2 _]]. assert (Q : mem (v_cur v) (positive l) = true) by (apply mem_In, positive_In; rewrite <- (h_cnm _ _ ON NF); auto). congruence. }
        rewrite C2. apply (h_cur _ _ ON NF).
    + intros NF m. assert (l1 = l) by (rewrite El, (NFl NF), app_nil_r; reflexivity). subst l1.
      rewrite minus_In, positive_In. destruct (in_dec Z.eq_dec m l) as [Hi|Hi].
      * destruct (Z_lt_le_dec 0 m) as [Hm|Hm].
        -- rewrite (de_del _ _ _ _ d m Hi Hm). split; [congruence|]. intros [_ Q]. tauto.
        -- rewrite (de_slot _ _ _ _ d) by auto. rewrite (h_live _ _ ON NF). split; [intros Q; split; [assumption|lia]|tauto].
      * rewrite (de_slot _ _ _ _ d) by auto. rewrite (h_live _ _ ON NF). tauto.
    + intros NF. apply minus_In. split; [apply (h_0 _ _ ON NF)|]. rewrite positive_In. lia.
    + intros NF. apply minus_In. destruct (mem (v_cur v) (positive l)) eqn:E.
      * split; [apply (h_0 _ _ ON NF)|]. rewrite positive_In. lia.
      * split; [apply (h_in _ _ ON NF)|]. rewrite <- mem_In. congruence.
    + intros m Hm. apply in_app_iff. destruct (de_fre _ _ _ _ d m Hm) as [Q|[Q1 Q2]]; [right; apply (h_dead _ _ ON); assumption|]. left.
      apply positive_In. split; [auto|].
      assert (Q3 := g_fre _ (de_GF _ _ _ _ d) m Hm). lia.
    + rewrite (de_lst _ _ _ _ d). apply ON.
  - (* IsImage *)
    destruct (v_on v) eqn:E.
    + apply wp_bind. apply wp_IsImage; [apply H|assumption|]. apply wp_ret. auto.
    + apply wp_bind. unfold ilIsImage. apply wp_bind, wp_get. apply wp_bind, wp_get. rewrite (of_stk _ H). apply wp_ret. apply wp_ret. auto.
  - (* Active *)
    specialize (ON L1). rewrite L1. apply wp_bind. apply wp_Active; [apply ON| | | |].
    + intros a Ha ->. apply wp_ret. split; [|auto]. cbn. rewrite andb_true_r. destruct ON; split; auto.
    + intros a b Ha Hn W. apply wp_ret. split; [|intros _ N; eapply ext_nl; [exact N|reflexivity|reflexivity|reflexivity]].
      assert (R := walk_reach _ _ _ _ _ W). assert (g := h_GF _ _ ON).
      assert (Lb : ims s b <> None) by (eapply reach_live0; [apply g|apply (g_cur _ g a Ha)|exact R]).
      cbn [b2z mem existsb]. replace (n =? 0) with false by lia. cbn [orb Z.eqb]. rewrite andb_false_r.
      destruct ON. split; cbn; auto; try congruence.
      * destruct h_GF0 as [g0 ? ? ?]. split; auto. destruct g0 as [i0 z0 ? ? ? ? ? ? ? ?]; split; auto.
        -- eapply ext_inv; [exact i0|reflexivity|reflexivity|reflexivity|apply Z.le_refl].
        -- eapply ext_siz; [exact z0|reflexivity|reflexivity].
        -- intros x Hx. cbn in Hx. injection Hx as <-. exact Lb.
      * intros E c Hc. injection Hc as <-. destruct (h_sync0 E a Ha) as [r [P R']]. exists r. split; [exact P|]. eapply keep_reach; [|eapply reach_trans; eauto]. split; [cbn; lia|reflexivity|reflexivity].
    + intros a Ha Hn W. apply wp_ret. split; [|intros _ N; apply nl_errs; assumption].
      cbn [b2z mem existsb]. replace (n =? 0) with false by lia. cbn. rewrite andb_true_r. apply (hinv_errs v s (IL_ILLEGAL_OPERATION :: errs s)) in ON. destruct ON; split; auto.
    + intros Ha. apply wp_ret. split; [|intros _ N; apply nl_errs; assumption].
      cbn [b2z mem existsb]. cbn. rewrite orb_true_r. rewrite andb_true_r. apply (hinv_errs v s (IL_ILLEGAL_OPERATION :: errs s)) in ON. destruct ON; split; auto.
  - (* Num *)
    specialize (ON L1). rewrite L1. apply wp_bind. apply wp_Num; [apply ON| |].
    + intros a l Ha _. apply wp_ret. auto.
    + intros Ha. apply wp_ret. split; [|intros _ N; apply nl_errs; assumption]. apply hinv_errs. assumption.
  - (* SubImage *)
    specialize (ON L1). rewrite L1. destruct (cur s) as [a|] eqn:C.
    + destruct (ims s a) as [i|] eqn:Ei; [|exfalso; eapply (g_cur _ (h_GF _ _ ON)); eauto].
      apply wp_bind. eapply (wp_SubImage A OK); [apply ON|apply ON|exact C|exact Ei|lia|].
      intros c s' M N _ _ _. apply wp_ret. split; [eapply hinv_mutd; eauto|]. intros T N0. apply N; auto.
      intros Q. eapply T; eauto.
    + apply wp_bind. unfold ilCreateSubImage. apply wp_bind, wp_get. rewrite C. apply wp_bind. unfold raise. apply wp_mod. apply wp_ret. apply wp_ret.
      split; [apply hinv_errs; assumption|]. intros _ N. apply nl_errs. assumption.
  - (* TexImage *)
    specialize (ON L1). rewrite L1. destruct L2 as (B1&B2&B3&B4&B5&B6). apply wp_bind. unfold ilTexImage. apply wp_bind, wp_get.
    destruct (cur s) as [a|] eqn:C.
    + destruct (ims s a) as [i|] eqn:Ei; [|exfalso; eapply (g_cur _ (h_GF _ _ ON)); eauto].
      eapply (wp_TexImage_ A OK); [apply ON|apply ON|exact Ei|exact B5| |].
      { intros src Hs. specialize (B6 src Hs). assert (Q := size_le w h d bpp fmt typ B1 B2 B3 B4). lia. }
      intros ok s' M N _ _ _ _. apply wp_ret. split; [eapply hinv_mutd; eauto|]. auto.
    + cbn. apply wp_bind. unfold raise. apply wp_mod. apply wp_ret. apply wp_ret.
      split; [apply hinv_errs; assumption|]. intros _ N. apply nl_errs. assumption.
  - (* TexSurface *)
    specialize (ON L1). rewrite L1. destruct L2 as (B1&B2&B3&B4&B5&B6). apply wp_bind.
    destruct (cur s) as [a|] eqn:C.
    + destruct (ims s a) as [i|] eqn:Ei; [|exfalso; eapply (g_cur _ (h_GF _ _ ON)); eauto].
      eapply (wp_TexSurface A OK); [apply ON|apply ON|exact C|exact Ei|exact B5| |].
      { intros src Hs. specialize (B6 src Hs). assert (Q := size_le w h d bpp fmt typ B1 B2 B3 B4). lia. }
      intros ok s' M N _ _ _. apply wp_ret. split; [eapply hinv_mutd; eauto|]. auto.
    + unfold ilTexImageSurface. apply wp_bind, wp_get. rewrite C. apply wp_bind. unfold raise. apply wp_mod. apply wp_ret. apply wp_ret.
      split; [apply hinv_errs; assumption|]. intros _ N. apply nl_errs. assumption.
  - (* SetData *)
    specialize (ON L1). rewrite L1. apply wp_bind.
    destruct (cur s) as [a|] eqn:C.
    + destruct (ims s a) as [i|] eqn:Ei; [|exfalso; eapply (g_cur _ (h_GF _ _ ON)); eauto].
      eapply (wp_SetData A OK); [apply ON|apply ON|exact C|exact Ei| |].
      { intros src Hs. apply (L2 a i eq_refl Ei src Hs). }
      intros ok s' M N _ _. apply wp_ret. split; [eapply hinv_mutd; eauto|]. auto.
    + unfold ilSetData. apply wp_bind, wp_get. rewrite C. apply wp_bind. unfold raise. apply wp_mod. apply wp_ret. apply wp_ret.
      split; [apply hinv_errs; assumption|]. intros _ N. apply nl_errs. assumption.
  - (* RegPal *)
    specialize (ON L1). rewrite L1. apply wp_bind. destruct NM as [NF|NM]; [|exfalso; apply NM; exact Logic.I].
    destruct (cur s) as [a|] eqn:C; [|exfalso; apply (h_cur _ _ ON NF); assumption].
    destruct (ims s a) as [i|] eqn:Ei; [|exfalso; eapply (g_cur _ (h_GF _ _ ON)); eauto].
    eapply (wp_RegisterPal A OK); [apply ON|apply ON|exact C|exact Ei|lia|apply L2|].
    intros s' M N _. apply wp_ret. split; [eapply hinv_mutd; eauto|]. intros [T1 T2]. apply N; assumption.
  - specialize (ON L1). rewrite L1. apply wp_bind. destruct NM as [NF|NM]; [|exfalso; apply NM; exact Logic.I].
    apply (reg_step v s LFaces LFaces n); auto. intros s' h N. apply wp_ret. split; [exact h|]. intros T. apply N.
    intros a i Ha Ei. split; [intros _; eapply T; eauto|discriminate].
  - specialize (ON L1). rewrite L1. apply wp_bind. destruct NM as [NF|NM]; [|exfalso; apply NM; exact Logic.I].
    apply (reg_step v s LMips LNext n); auto. intros s' h N. apply wp_ret. split; [exact h|]. intros T. apply N.
    intros a i Ha Ei. split; [discriminate|intros _; eapply T; eauto].
  - specialize (ON L1). rewrite L1. apply wp_bind. destruct NM as [NF|NM]; [|exfalso; apply NM; exact Logic.I].
    apply (reg_step v s LNext LNext n); auto. intros s' h N. apply wp_ret. split; [exact h|]. intros T. apply N.
    intros a i Ha Ei. split; discriminate.
  - (* SetDur *)
    specialize (ON L1). rewrite L1. apply wp_bind. apply wp_SetDuration; [apply ON| |].
    + intros a i C Ei s' _ M N. apply wp_ret. split; [eapply hinv_mutd; eauto|]. auto.
    + intros C. apply wp_ret. split; [apply hinv_errs; assumption|]. intros _ N. apply nl_errs. assumption.
  - (* Copy *)
    specialize (ON L1). destruct NM as [NF|NM]; [|exfalso; apply NM; exact Logic.I]. destruct L2 as (B1&B2&B3&B4&B5).
    apply wp_bind. apply (wp_CopyImage A OK NT); auto.
    + apply ON.
    + apply (h_base _ _ ON NF B3).
    + intros Q. apply (h_dead _ _ ON) in Q. tauto.
    + rewrite (h_cnm _ _ ON NF). assumption.
    + intros _. apply wp_ret. cbn. rewrite L1. split; [apply hinv_errs; assumption|]. intros _ N. apply nl_errs. assumption.
    + intros s1 s2 s' dst sa si Hc C b1 b2 S2 Es C2 M N _ _ _. apply wp_ret. cbn [b2z mem existsb Z.eqb orb]. rewrite L1. cbn [v_on].
      split; [|intros _ N0; apply N; apply b2; apply b1; assumption].
      assert (h1 := hinv_bound v s s1 n ON b1 ltac:(lia)). set (v1 := after v (Bind n) []) in *.
      assert (Cn := g_cnm _ (h_GF _ _ ON)). assert (HT := h_top _ _ ON).
      assert (h2 : on_inv (mkView (v_on v1) (v_live v1) (v_dead v1) (cnm s) true true (v_top v1)) s2).
      { apply (hinv_rebound v1 s1 s2 (cnm s)); auto; [lia| |].
        - right. rewrite (h_cnm _ _ ON NF). apply (h_in _ _ ON NF).
        - cbn. lia. }
      rewrite (h_cnm _ _ ON NF) in h2. cbn in h2. rewrite L1 in h2. eapply hinv_mutd; eauto.
  - (* Clone *)
    specialize (ON L1). apply wp_bind. apply (wp_Clone A OK NT); [apply ON| | |].
    + assert (Q := h_top _ _ ON). unfold NMAX, name_limit in *. lia.
    + intros _. apply wp_ret. cbn. rewrite L1. split; [apply hinv_errs; assumption|]. intros _ N. apply nl_errs. assumption.
    + intros id s' c C. apply wp_ret. destruct (cl_id _ _ _ _ c) as (I1&I2&I3). replace (id =? 0) with false by lia. cbn [v_on]. rewrite L1.
      split; [|intros _ N; apply c; assumption]. split; cbn.
      * apply c.
      * discriminate.
      * discriminate.
      * intros _. apply c.
      * intros _. rewrite (cl_cur _ _ _ _ c). assumption.
      * intros NF m. destruct (Z.eq_dec m id) as [->|Nm].
        -- split; [auto|]. intros _. destruct (cur s) as [a|] eqn:Ca; [|congruence].
           destruct (ims s a) as [i|] eqn:Ei; [|exfalso; eapply (g_cur _ (h_GF _ _ ON)); eauto].
           destruct (cl_copy _ _ _ _ c NF a i Ca Ei) as [b [Q _]]. congruence.
        -- rewrite (cl_slot _ _ _ _ c) by assumption. rewrite (h_live _ _ ON NF). split; [auto|]. intros [Q|Q]; [congruence|assumption].
      * intros NF. right. apply (h_0 _ _ ON NF).
      * auto.
      * intros m Hm. apply (cl_fre _ _ _ _ c) in Hm. apply minus_In. split; [apply (h_dead _ _ ON); tauto|]. intros [Q|[]]. destruct Hm. congruence.
      * assert (Q := cl_lst _ _ _ _ c). assert (Q2 := h_top _ _ ON). lia.
Qed.
End Hist.
