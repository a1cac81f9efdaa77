(** C03-C09, C33, C37, C45, C46: the name machine.  Model: Stack.v.  Vocabulary: StackSpec.v
    ([view], [legal_from], [look], [links], ...).

    Common hypotheses of the theorems about histories:
    - [oracle_ok A]: malloc(n) returns n bytes;
    - [notab A]: the allocation of the name table does not fail;
    - [nofail A]: no allocation fails (dropped where the theorem says so);
    - [legal_from A v0 st0 h]: the calls of [h] respect the restrictions of [legal]. *)
From Coq Require Import ZArith List Bool Lia.
From Verif Require Import Base Enums Utility Stack StackHeap StackWf StackOps StackNames StackCopy StackInit StackSpec StackHist StackRun StackExamples.
Import ListNotations.
Open Scope Z_scope.

Lemma A0_ok : oracle_ok A0 /\ notab A0 /\ nofail A0.
Proof.
  split; [|split]; [|discriminate|discriminate]. intros t n l Hn E. injection E as <-. unfold zlen. rewrite repeat_length. lia.
Qed.
(** the results, one by one *)
Lemma split_battery : forall (T : Type) (a b c d e f g h i a' b' c' d' e' f' g' h' i' : T) (U : Type) (j k l j' k' l' : U),
  ([a; b; c; d], [e; f; g; h; i], [j; k; l]) = ([a'; b'; c'; d'], [e'; f'; g'; h'; i'], [j'; k'; l']) ->
  a = a' /\ b = b' /\ c = c' /\ d = d' /\ e = e' /\ f = f' /\ g = g' /\ h = h' /\ i = i' /\ j = j' /\ k = k' /\ l = l'.
Proof. intros. injection H. intros. repeat split; assumption. Qed.
Lemma facts : exists s, step A0 Init st0 = Ok ([], s) /\
  out (run A0 h_clone s) = UB /\ out (run A0 h_shut s) = UB /\ out (run A0 h_self s) = UB /\ out (run A0 h_sub s) = UB /\
  out (run A0 h_gen s) = Ok [[2]; []; []; []; [1]; [2]; [3; 4]] /\ out (run A0 h_mips s) = Ok [[3]; [1]; [0]] /\
  out (run A0 h_layers s) = Ok [[3]; [1]; [0]] /\ out (run A0 h_deep s) = Ok [[1]; []; [1]; [0]] /\
  out (run A0 h_good s) = Ok [[2; 3; 4]; []; [1]; []; [2]; [2]; []; [1]; [1]; []; [0]] /\
  left_over (run A0 (h_gen ++ [ShutDown]) s) = ([8], [9]) /\ left_over (run A0 h_pal s) = ([], [6]) /\ left_over (run A0 h_both s) = ([8], [9]).
Proof.
  destruct Init_st as [l E]. exists (init_st l). split; [exact E|]. assert (B := battery l). cbv zeta in B.
  apply split_battery in B. exact B.
Qed.
Lemma out_cons : forall A o h s r s1, step A o s = Ok (r, s1) ->
  out (run A (o :: h) s) = match out (run A h s1) with Ok rs => Ok (r :: rs) | UB => UB | Fuel => Fuel end /\
  left_over (run A (o :: h) s) = left_over (run A h s1).
Proof.
  intros A o h s r s1 E. cbn [run]. unfold bindM at 1 3. rewrite E. cbn [bind]. unfold bindM, ret.
  destruct (run A h s1) as [[rs s']| |]; split; reflexivity.
Qed.

(** a history whose calls do not depend on the state is legal if it is legal along its own results *)
Fixpoint legal_along (v : view) (h : list op) (rs : list (list Z)) : Prop :=
  match h, rs with
  | o :: h', r :: rs' => (forall s, legal v s o) /\ legal_along (after v o r) h' rs'
  | [], [] => True
  | _, _ => False
  end.
Lemma legal_by_results : forall A h v s rs s', run A h s = Ok (rs, s') -> legal_along v h rs -> legal_from A v s h.
Proof.
  induction h as [|o h IH]; intros v s rs s' E L; cbn [legal_from]; [exact I|]. cbn [run] in E. unfold bindM in E.
  destruct (step A o s) as [[r s1]| |] eqn:Es; cbn [bind] in E; try discriminate.
  destruct (run A h s1) as [[rs1 s2]| |] eqn:Er; cbn in E; try discriminate. injection E as <- <-. destruct L as [L1 L2].
  split; [apply L1|]. intros r' s1' E'. assert (r' = r /\ s1' = s1) as [-> ->] by (split; congruence). eapply IH; eauto.
Qed.

(** the running example: names, pixels, palette, sub-images, copy, delete *)
Definition good : list op := Init :: h_good.
Definition good_results : list (list Z) := [[]; [2; 3; 4]; []; [1]; []; [2]; [2]; []; [1]; [1]; []; [0]].
Lemma good_run : exists s, run A0 good st0 = Ok (good_results, s).
Proof.
  assert (E : out (run A0 good st0) = Ok good_results) .
  { destruct facts as (s&E&_&_&_&_&_&_&_&_&F&_). destruct (out_cons _ _ h_good _ _ _ E) as [E1 _]. rewrite F in E1. exact E1. }
  generalize dependent (run A0 good st0). intros x E. destruct x as [[rs s]| |]; try discriminate. injection E as ->. eauto.
Qed.
Lemma good_legal : legal_along v0 good good_results.
Proof.
  unfold good, good_results, h_good. cbn [legal_along].
  repeat (split; [intros s; vm_compute after; (split; [try exact I; try reflexivity; try (vm_compute; congruence)|])|]);
  cbn [v_dead v_top v_base v_sync v_cur v_on In]; unfold name_limit;
  repeat match goal with
  | |- _ /\ _ => split
  | |- big _ _ => let H := fresh in intros ? H; injection H as <-; vm_compute; congruence
  end; try exact I; try reflexivity; try lia; try tauto; vm_compute; congruence.
Qed.

Lemma good_legal_from : legal_from A0 v0 st0 good.
Proof. destruct good_run as [s E]. eapply legal_by_results; [exact E|exact good_legal]. Qed.

Lemma good_then : forall h2, (forall s', legal_from A0 (view_of v0 good good_results) s' h2) -> legal_from A0 v0 st0 (good ++ h2).
Proof.
  destruct good_run as [s E].
  intros h2 H2. assert (L := good_legal). revert E L H2. generalize good_results, good, v0, st0. intros rs h.
  revert rs. induction h as [|o h IH]; intros rs v s0 E L H2; cbn [app legal_from].
  - destruct rs; [apply H2|contradiction].
  - destruct rs as [|r0 rs]; [contradiction|]. destruct L as [L1 L2]. split; [apply L1|]. intros r s1 Es.
    cbn [run] in E. unfold bindM in E. rewrite Es in E. cbn [bind] in E. destruct (run A0 h s1) as [[rs1 s2]| |] eqn:Er; cbn in E; try discriminate.
    injection E as -> -> ->. apply (IH rs); auto.
Qed.

(** * C06: memory safety *)
Theorem C06_partial : forall A h, oracle_ok A -> notab A -> (nofail A \/ Forall (fun o => ~ needs_memory o) h) ->
  legal_from A v0 st0 h -> exists rs s, run A h st0 = Ok (rs, s).
Proof.
  intros A h OK NT M L. destruct (run_ok A OK NT h v0 st0 (hinv0 A) L M) as (rs & s & E & _). eauto.
Qed.
Example C06_instance : exists rs s, run A0 good st0 = Ok (rs, s).
Proof. destruct A0_ok as (H1&H2&H3). apply C06_partial; auto. exact good_legal_from. Qed.
Definition all_histories_safe : Prop := forall A h, oracle_ok A -> nofail A -> exists rs s, run A h st0 = Ok (rs, s).
(** the current image is used after it was freed: clone the bound image and delete the original *)
Theorem C06_refuted : ~ all_histories_safe /\
  out (run A0 (Init :: h_clone) st0) = UB /\ out (run A0 (Init :: h_shut) st0) = UB /\
  out (run A0 (Init :: h_self) st0) = UB /\ out (run A0 (Init :: h_sub) st0) = UB.
Proof.
  destruct facts as (s&E&F1&F2&F3&F4&_).
  assert (U1 : out (run A0 (Init :: h_clone) st0) = UB) by (rewrite (proj1 (out_cons _ _ h_clone _ _ _ E)), F1; reflexivity).
  split; [|split; [exact U1|split; [|split]]].
  - intros H. destruct A0_ok as (H1&H2&H3). destruct (H A0 (Init :: h_clone) H1 H3) as (rs & s' & E').
    assert (X : out (Ok (rs, s')) = UB) by (rewrite <- E'; exact U1). discriminate.
  - rewrite (proj1 (out_cons _ _ h_shut _ _ _ E)), F2. reflexivity.
  - rewrite (proj1 (out_cons _ _ h_self _ _ _ E)), F3. reflexivity.
  - rewrite (proj1 (out_cons _ _ h_sub _ _ _ E)), F4. reflexivity.
Qed.

(** * C07: nothing is leaked *)
Theorem C07_partial : forall A h rs s, oracle_ok A -> notab A -> (nofail A \/ Forall (fun o => ~ needs_memory o) h) ->
  legal_from A v0 st0 h -> tight_from A st0 h -> run A h st0 = Ok (rs, s) ->
  exists s', step A ShutDown s = Ok ([], s') /\ (forall a, ims s' a = None) /\ (forall b, bks s' b = None) /\ stk s' = None /\ fre s' = [].
Proof.
  intros A h rs s OK NT M L T E. destruct (run_ok A OK NT h v0 st0 (hinv0 A) L M) as (rs' & s1 & E' & _ & H & N).
  assert (s1 = s /\ rs' = rs) as [-> ->] by (split; congruence). specialize (N T nl0). cbn [step]. unfold hinv in H.
  destruct (v_on (view_of v0 h rs)).
  - destruct (wp_ShutDown s (fun _ s' => empty s' /\ stk s' = None /\ fre s' = []) (h_GF _ _ _ H)) as ([] & s' & Es & (E1 & E2) & E3 & E4).
    { intros s' o F _. split; [apply F; assumption|]. split; apply o. }
    exists s'. unfold bindM. rewrite Es. cbn. auto.
  - exists s. unfold bindM, ilShutDown, bindM, get. cbn [bind]. rewrite (of_ini _ H). cbn. split; [reflexivity|].
    assert (IM : forall a, ims s a = None).
    { assert (I := of_inv _ H). assert (Q : forall n a, a <= Z.of_nat n -> ims s a = None).
      { induction n as [|n IH]; intros a Ha; destruct (ims s a) eqn:Ea; try reflexivity; exfalso.
        - assert (0 < a < nxt s) by (apply (I_im _ _ _ I); congruence). lia.
        - destruct (n_im _ _ _ N a) as [[]|[[m|p k] P]]; [congruence| |].
          + cbn in P. rewrite (of_stk _ H) in P. exact P.
          + assert (p < a) by (exact (I_ord _ _ _ I p k a (fun x => x) P)). destruct P as [j [Ej _]]. rewrite IH in Ej by lia. discriminate. }
      intros a. apply (Q (Z.to_nat a)). lia. }
    split; [exact IM|]. split; [|split; apply H].
    intros b. destruct (bks s b) eqn:Eb; [|reflexivity]. destruct (n_bk _ _ _ N b) as [[]|[p [k [j [Ej _]]]]]; [congruence|]. rewrite IM in Ej. discriminate.
Qed.
Lemma good_tight : tight_from A0 st0 good.
Proof.
  assert (G : forall h s, Forall (fun o => forall s, tight s o) h -> tight_from A0 s h).
  { induction h as [|o h IH]; intros s H; cbn; [exact I|]. inversion H; subst. split; [auto|]. intros r s' _. apply IH. assumption. }
  apply G. unfold good, h_good. repeat (apply Forall_cons; [intros s; cbn; try exact I|]); [| |apply Forall_nil].
  - split; [lia|discriminate].
  - discriminate.
Qed.
Example C07_instance : exists rs s s', run A0 good st0 = Ok (rs, s) /\ step A0 ShutDown s = Ok ([], s') /\ (forall a, ims s' a = None) /\ (forall b, bks s' b = None).
Proof.
  destruct good_run as [s E]. destruct A0_ok as (H1&H2&H3).
  destruct (C07_partial A0 good good_results s H1 H2 (or_introl H3) good_legal_from good_tight E) as (s' & E' & B1 & B2 & _).
  exists good_results, s, s'. auto.
Qed.
(** leaks: an image overwritten by ilGenImages; a palette of type IL_PAL_NONE; faces and mipmaps together *)
Theorem C07_refuted :
  left_over (run A0 (Init :: h_gen ++ [ShutDown]) st0) = ([8], [9]) /\
  left_over (run A0 (Init :: h_pal) st0) = ([], [6]) /\ left_over (run A0 (Init :: h_both) st0) = ([8], [9]).
Proof.
  destruct facts as (s&E&_&_&_&_&_&_&_&_&_&F1&F2&F3). split; [|split].
  - rewrite (proj2 (out_cons _ _ (h_gen ++ [ShutDown]) _ _ _ E)). exact F1.
  - rewrite (proj2 (out_cons _ _ h_pal _ _ _ E)). exact F2.
  - rewrite (proj2 (out_cons _ _ h_both _ _ _ E)). exact F3.
Qed.

(** * C03: generated names are fresh *)
Lemma isimage_step : forall A n s, G s -> 0 <= n -> step A (IsImage n) s = Ok ([b2z (negb (n =? 0) && non_null (slotv s n))], s).
Proof.
  intros A n s g Hn. destruct (wp_IsImage n s (fun b s' => b = negb (n =? 0) && non_null (slotv s n) /\ s' = s) g Hn) as (b & s' & E & -> & ->); [auto|].
  cbn [step]. unfold bindM. rewrite E. reflexivity.
Qed.
Theorem C03_partial : forall A h rs s n, oracle_ok A -> nofail A -> legal_from A v0 st0 (h ++ [Gen n]) -> run A h st0 = Ok (rs, s) ->
  exists l s', step A (Gen n) s = Ok (l, s') /\ NoDup l /\ zlen l = Z.max 0 n /\
    forall m, In m l -> m <> 0 /\ step A (IsImage m) s = Ok ([0], s) /\ step A (IsImage m) s' = Ok ([1], s').
Proof.
  intros A h rs s n OK NF L E. assert (NT : notab A) by (intros t m; apply NF).
  destruct (reached A OK NT h (Gen n) rs s (or_introl NF) L E) as [H [L1 L2]]. unfold hinv in H. rewrite L1 in H.
  assert (Q := h_top _ _ _ H). destruct (wp_GenImages A OK NT n s (fun l s' => (1 <= n /\ gend A s s' l /\ zlen l = n) \/ (n < 1 /\ l = [])))
    as (l & s' & Es & R); [apply H|unfold NMAX, name_limit in *; lia| | |]; auto.
  exists l, s'. split; [exact Es|]. destruct R as [(Hn & g & Hl)|[Hn ->]].
  - split; [apply g|]. split; [lia|]. intros m Hm. destruct (gn_l _ _ _ _ g m Hm) as (S1 & S2 & _). split; [lia|].
    assert (NZ : (m =? 0) = false) by lia. split; rewrite isimage_step by (try lia; try apply H; apply g); rewrite NZ; cbn [negb andb].
    + rewrite S1. reflexivity.
    + destruct (gn_live _ _ _ _ g NF m Hm) as [b [Eb _]]. rewrite Eb. reflexivity.
  - split; [constructor|]. split; [cbn; lia|]. intros m [].
Qed.
Example C03_instance : exists s, run A0 [Init] st0 = Ok ([[]], s) /\ legal_from A0 v0 st0 ([Init] ++ [Gen 3]).
Proof.
  destruct facts as (s&E&_). exists s. split; [cbn [run]; unfold bindM; rewrite E; reflexivity|]. cbn [legal_from app].
  split; [split; exact I|]. intros r s' E'. assert (r = []) by congruence. subst r. split; [|auto]. split; [reflexivity|]. cbn. unfold name_limit. lia.
Qed.
(** After delete 2, bind 2, the name 2 is an image and is generated again. *)
Theorem C03_refuted : out (run A0 [Init; Gen 1; Bind 2; Delete [2]; Bind 2; IsImage 2; Gen 1; Gen 2] st0) = Ok [[]; [2]; []; []; []; [1]; [2]; [3; 4]].
Proof.
  destruct facts as (s&E&_&_&_&_&F&_). fold h_gen. rewrite (proj1 (out_cons _ _ h_gen _ _ _ E)). rewrite F. reflexivity.
Qed.

(** * C04: ilIsImage *)
Lemma off_live : forall A h v s rs s', legal_from A v s h -> run A h s = Ok (rs, s') -> (v_on v = false -> v_live v = []) ->
  v_on (view_of v h rs) = false -> v_live (view_of v h rs) = [].
Proof.
  induction h as [|o h IH]; intros v s rs s' L E HV Hon; cbn [run] in E.
  - unfold ret in E. injection E as <- <-. cbn in *. auto.
  - unfold bindM in E. destruct L as [[L1 _] L2]. destruct (step A o s) as [[r s1]| |] eqn:Es; cbn [bind] in E; try discriminate.
    destruct (run A h s1) as [[rs1 s2]| |] eqn:Er; cbn in E; try discriminate. injection E as <- <-. cbn [view_of] in *.
    eapply (IH _ s1); eauto. intros Ha. clear - L1 HV Ha. destruct o; cbn in *; auto; try congruence.
    + destruct (v_on v) eqn:Ev; [congruence|discriminate].
    + destruct (mem 1 r); cbn in *; auto; congruence.
    + destruct r as [|id [|]]; cbn in *; auto; try congruence. destruct (id =? 0); cbn in *; auto; congruence.
Qed.
Theorem C04_partial : forall A h rs s n, oracle_ok A -> nofail A -> legal_from A v0 st0 h -> run A h st0 = Ok (rs, s) -> 0 <= n ->
  step A (IsImage n) s = Ok ([if negb (n =? 0) && mem n (v_live (view_of v0 h rs)) then 1 else 0], s).
Proof.
  intros A h rs s n OK NF L E Hn. assert (NT : notab A) by (intros t m; apply NF).
  destruct (run_ok A OK NT h v0 st0 (hinv0 A) L (or_introl NF)) as (rs' & s1 & E' & _ & H & _).
  assert (s1 = s /\ rs' = rs) as [-> ->] by (split; congruence). unfold hinv in H. destruct (v_on (view_of v0 h rs)) eqn:Eon.
  - rewrite isimage_step by (try apply H; assumption). destruct (n =? 0) eqn:E0; [reflexivity|]. cbn [negb andb].
    assert (Q := h_live _ _ _ H NF n). rewrite <- mem_In in Q. destruct (slotv s n), (mem n (v_live (view_of v0 h rs))); cbn; try reflexivity; exfalso; destruct Q as [Q1 Q2].
    + discriminate Q1. congruence.
    + apply Q2; reflexivity.
  - cbn [step]. unfold bindM, ilIsImage, bindM, get. cbn [bind]. rewrite (of_stk _ H). cbn.
    rewrite (off_live A h v0 st0 rs s L E (fun _ => eq_refl) Eon). rewrite andb_false_r. reflexivity.
Qed.
Example C04_instance : exists s, run A0 good st0 = Ok (good_results, s) /\
  v_live (view_of v0 good good_results) = [40; 4; 0; 1] /\ v_cur (view_of v0 good good_results) = 40.
Proof. destruct good_run as [s E]. exists s. split; [exact E|split; vm_compute; reflexivity]. Qed.

(** * C45: a call changes only the images it names *)
Theorem C45_partial : forall A h rs s o, oracle_ok A -> nofail A -> legal_from A v0 st0 (h ++ [o]) -> run A h st0 = Ok (rs, s) ->
  let v := view_of v0 h rs in v_on v = true -> v_sync v = true -> o <> ShutDown ->
  exists r s', step A o s = Ok (r, s') /\
    forall n path, In n (v_live v) -> ~ In n (touched v o) -> look s' n path = look s n path.
Proof.
  intros A h rs s o OK NF L E v Hon Hs No. assert (NT : notab A) by (intros t m; apply NF).
  destruct (reached A OK NT h o rs s (or_introl NF) L E) as [H L1].
  destruct (frame_ok A OK NT v s o H L1 NF Hon Hs No) as (r & s' & Es & F). exists r, s'. split; [exact Es|exact F].
Qed.
Example C45_instance : exists s, run A0 good st0 = Ok (good_results, s) /\ legal_from A0 v0 st0 (good ++ [TexImage 1 1 1 1 IL_LUMINANCE IL_UNSIGNED_BYTE None]) /\
  v_on (view_of v0 good good_results) = true /\ v_sync (view_of v0 good good_results) = true /\ touched (view_of v0 good good_results) (TexImage 1 1 1 1 IL_LUMINANCE IL_UNSIGNED_BYTE None) = [40].
Proof.
  destruct good_run as [s E]. exists s. split; [exact E|]. split; [|vm_compute; auto].
  apply good_then. intros s'. split; [|intros; exact I]. split; [vm_compute; reflexivity|]. repeat split; try lia; [discriminate|]. intros src Q. discriminate.
Qed.

(** * C05: deleting names *)
Theorem C05_partial : forall A h rs s l, oracle_ok A -> nofail A -> legal_from A v0 st0 (h ++ [Delete l]) -> run A h st0 = Ok (rs, s) ->
  let v := view_of v0 h rs in
  exists s', step A (Delete l) s = Ok ([], s') /\
    (forall n path, ~ In n l \/ n <= 0 -> look s' n path = look s n path) /\
    (forall n path, In n l -> 0 < n -> look s' n path = None) /\
    (In (v_cur v) l /\ 0 < v_cur v -> ilGetCurName s' = Ok (0, s') /\ cur s' = table s' 0) /\
    (~ (In (v_cur v) l /\ 0 < v_cur v) -> ilGetCurName s' = Ok (v_cur v, s') /\ cur s' = cur s).
Proof.
  intros A h rs s l OK NF L E v. assert (NT : notab A) by (intros t m; apply NF).
  destruct (reached A OK NT h (Delete l) rs s (or_introl NF) L E) as [H [L1 L2]]. fold v in H, L1, L2. unfold hinv in H. rewrite L1 in H.
  destruct (wp_DeleteImages A l s (fun _ s' => deld A s s' l)) as ([] & s' & Es & d); [apply H|apply H; assumption| |].
  { intros s' l1 l2 El d N2. rewrite (N2 NF), app_nil_r in El. subst l1. exact d. }
  exists s'. cbn [step]. unfold bindM. rewrite Es. split; [reflexivity|].
  assert (LC : slotv s (v_cur v) <> None) by (apply (h_live _ _ _ H NF); apply (h_in _ _ _ H NF)).
  assert (L0 : slotv s 0 <> None) by (apply (h_live _ _ _ H NF); apply (h_0 _ _ _ H NF)).
  assert (CN := h_cnm _ _ _ H NF). assert (HC := h_cur _ _ _ H NF).
  assert (GN : forall c n, cur s' = Some c -> cnm s' = n -> ilGetCurName s' = Ok (n, s')).
  { intros c n E1 <-. destruct (g_f _ (de_GF _ _ _ _ d)) as [f [F1 _]]. assert (SZ := g_ssz _ (de_GF _ _ _ _ d)).
    unfold ilGetCurName. rewrite E1, F1. replace (ssz s' =? 0) with false by lia. reflexivity. }
  split; [|split; [|split]].
  - intros n path Hn. apply look_same; [apply d; assumption|]. intros a x Ea R. eapply (de_tree _ _ _ _ d); eauto.
  - intros n path Hn Hp. unfold look. change table with slotv. rewrite (de_del _ _ _ _ d n Hn Hp). destruct path; reflexivity.
  - intros [Hl Hp]. destruct (de_cnm _ _ _ _ d) as [Q1 Q2]; [rewrite CN; auto|].
    assert (S0 : slotv s' 0 = slotv s 0) by (apply d; right; lia). split; [|change table with slotv; congruence].
    destruct (slotv s 0) as [c|] eqn:E0; [|congruence]. apply (GN c); congruence.
  - intros N. destruct (de_cnm' _ _ _ _ d) as [Q1 Q2]; [rewrite CN; tauto|]. split; [|assumption].
    destruct (cur s) as [c|] eqn:Ec; [|congruence]. apply (GN c); congruence.
Qed.

Example C05_instance : legal_from A0 v0 st0 (good ++ [Delete [40; 7]]) /\ v_cur (view_of v0 good good_results) = 40.
Proof. split; [|vm_compute; reflexivity]. apply good_then. intros s'. split; [|intros; exact I]. split; vm_compute; reflexivity. Qed.

(** * C08: sub-image selection, in every state in which the chain of the current image exists *)
Lemma follow_links : forall k l a s n, links s k a l -> follow k n a s = Ok (nth_error (a :: l) n, s).
Proof.
  induction l as [|b l IH]; intros a s n H; destruct n as [|n]; try reflexivity; cbn [follow]; destruct H as [i [E1 E2]]; unfold bindM, get_im; rewrite E1; cbn [bind].
  - rewrite E2. destruct n; reflexivity.
  - destruct E2 as [E2 E3]. rewrite E2. rewrite (IH b s n E3). reflexivity.
Qed.
Theorem C08 : forall A k n s c l, cur s = Some c -> links s k c l -> 0 <= n ->
  if n <=? zlen l
  then exists b, nth_error (c :: l) (Z.to_nat n) = Some b /\ step A (Active k n) s = Ok ([1], set_cur (Some b) s)
  else step A (Active k n) s = Ok ([0], set_errs (IL_ILLEGAL_OPERATION :: errs s) s).
Proof.
  intros A k n s c l C HL Hn. cbn [step]. unfold bindM, ilActive, bindM, get. cbn [bind]. rewrite C.
  assert (F := follow_links k l c s (Z.to_nat n) HL).
  assert (LEN : zlen (c :: l) = zlen l + 1) by (unfold zlen; cbn [length]; lia).
  destruct (n <=? zlen l) eqn:E.
  - destruct (nth_error (c :: l) (Z.to_nat n)) as [b|] eqn:Eb.
    2:{ apply nth_error_None in Eb. unfold zlen in *. lia. }
    exists b. split; [reflexivity|]. destruct (n =? 0) eqn:E0.
    + assert (n = 0) by lia. subst n. cbn in Eb. injection Eb as <-. cbn. destruct s; cbn in *. rewrite C. reflexivity.
    + rewrite F. cbn. reflexivity.
  - assert (N : nth_error (c :: l) (Z.to_nat n) = None) by (apply nth_error_None; unfold zlen in *; lia).
    assert (0 <= zlen l) by (unfold zlen; lia). replace (n =? 0) with false by lia. rewrite F, N. reflexivity.
Qed.
(** in the states reached by legal histories the chains exist, and IL_NUM_* counts them *)
Theorem C08_chains : forall A h rs s k c, oracle_ok A -> notab A -> (nofail A \/ Forall (fun o => ~ needs_memory o) h) ->
  legal_from A v0 st0 h -> run A h st0 = Ok (rs, s) -> v_on (view_of v0 h rs) = true -> cur s = Some c ->
  exists l, links s k c l /\ step A (Num k) s = Ok ([zlen l], s).
Proof.
  intros A h rs s k c OK NT M L E Hon C.
  destruct (run_ok A OK NT h v0 st0 (hinv0 A) L M) as (rs' & s1 & E' & _ & H & _).
  assert (s1 = s /\ rs' = rs) as [-> ->] by (split; congruence). unfold hinv in H. rewrite Hon in H.
  destruct (wp_Num k s (fun z s' => exists l, links s k c l /\ z = zlen l /\ s' = s)) as (z & s' & Es & l & HL & -> & ->); [apply H| | |].
  - intros a l Ha HL. exists l. assert (a = c) by congruence. subst a. split; [apply links_chain; exact HL|auto].
  - congruence.
  - exists l. split; [exact HL|]. cbn [step]. unfold bindM. rewrite Es. reflexivity.
Qed.
Example C08_instance : exists s c l, cur s = Some c /\ links s LNext c l /\ zlen l = 2.
Proof.
  exists (set_cur (Some 1) (set_ims (fun a => if a =? 1 then Some (putl LNext (Some 2) (im1 4)) else if a =? 2 then Some (putl LNext (Some 3) (im1 5))
     else if a =? 3 then Some (im1 6) else None) st0)), 1, [2; 3].
  split; [reflexivity|]. split; [|reflexivity]. eexists. split; [reflexivity|]. split; [reflexivity|]. eexists. split; [reflexivity|]. split; [reflexivity|].
  eexists. split; reflexivity.
Qed.

(** * C09: sub-image creation.  Proved for IL_SUB_NEXT; for mipmaps and layers only n = 1 works *)
Definition small_image (s : st) (a : Z) : Prop :=
  exists i b l, ims s a = Some i /\ hW (hd i) = 1 /\ hH (hd i) = 1 /\ hD (hd i) = 1 /\ hBpp (hd i) = 1 /\ iData i = Some b /\ bks s b = Some l /\ zlen l = 1.
Theorem C09_partial : forall A h rs s n, oracle_ok A -> nofail A -> 1 <= n -> legal_from A v0 st0 (h ++ [SubImage IL_SUB_NEXT n]) -> run A h st0 = Ok (rs, s) ->
  exists s', step A (SubImage IL_SUB_NEXT n) s = Ok ([n], s') /\ step A (Num LNext) s' = Ok ([n], s') /\
    forall j, 1 <= j <= n -> exists c, step A (Active LNext j) s' = Ok ([1], set_cur (Some c) s') /\ small_image s' c /\ ims s c = None.
Proof.
  intros A h rs s n OK NF Hn L E. assert (NT : notab A) by (intros t m; apply NF).
  destruct (reached A OK NT h _ rs s (or_introl NF) L E) as [H [L1 L2]]. unfold hinv in H. rewrite L1 in H.
  destruct (cur s) as [a|] eqn:C; [|exfalso; apply (h_cur _ _ _ H NF); assumption].
  destruct (ims s a) as [i|] eqn:Ei; [|exfalso; eapply (g_cur _ (h_GF _ _ _ H)); eauto].
  destruct (wp_SubImage A OK s a i IL_SUB_NEXT n (fun c s' => c = n /\ GF s' /\ cur s' = Some a /\ exists l, links s' LNext a l /\ zlen l = n /\
     Forall (fun x => nxt s <= x /\ fresh1 s' LNext x) l)) as (c & s' & Es & -> & g' & C' & l & HL & LL & FR);
    [apply H|apply H|assumption|assumption|lia| |].
  - intros c s' M _ _ K _. destruct (K LNext ltac:(lia) eq_refl) as [(_ & F & _)|(B1 & B2 & j & b & l & Ej & Gj & _ & HL & LL & FR)]; [exfalso; auto|].
    split; [auto|]. split; [eapply mutd_GF; eauto; apply H|]. split; [destruct (md_glob _ _ _ M) as (_&_&_&_&Q&_); congruence|].
    exists (b :: l). split; [|split; [|exact FR]].
    + exists j. split; [assumption|]. split; [assumption|]. apply links_chain. exact HL.
    + rewrite (B2 NF) in LL. unfold zlen in *. cbn [length]. lia.
  - exists s'. split; [cbn [step]; unfold bindM; rewrite Es; reflexivity|]. split.
    + destruct (wp_Num LNext s' (fun z s2 => z = n /\ s2 = s')) as (z & s2 & E2 & -> & ->); [apply g'| |congruence|].
      * intros a' l' Ha' HL'. assert (a' = a) by congruence. subst a'. split; [|reflexivity].
        assert (l' = l); [|congruence]. apply links_chain in HL'. clear - HL HL'. revert a l' HL HL'. induction l as [|b l IH]; intros a l' HL HL'.
        -- destruct HL as [i [E1 E2]]. destruct l' as [|b' l']; [reflexivity|]. destruct HL' as [i' [E1' [E2' _]]]. congruence.
        -- destruct HL as [i [E1 [E2 H]]]. destruct l' as [|b' l']; destruct HL' as [i' [E1' E2']]; [congruence|]. destruct E2' as [E2' H'].
           assert (b' = b) by congruence. subst b'. f_equal. eapply IH; eauto.
      * cbn [step]. unfold bindM. rewrite E2. reflexivity.
    + intros j Hj. assert (Q := C08 A LNext j s' a l C' HL ltac:(lia)). replace (j <=? zlen l) with true in Q by lia.
      destruct Q as [c [Hc Q]]. exists c. split; [exact Q|].
      assert (In c l). { replace (Z.to_nat j) with (S (Z.to_nat (j - 1))) in Hc by lia. cbn in Hc. eapply nth_error_In; eauto. }
      rewrite Forall_forall in FR. destruct (FR c H0) as [F1 [b [nx F2]]]. split.
      * assert (O := o_data _ _ _ _ (g_siz _ (gf_G _ g') c _ F2) (fun x => x) b eq_refl). destruct O as [d [D1 D2]].
        exists (putl LNext nx (im1 b)), b, d. repeat split; auto.
      * destruct (ims s c) eqn:Ec; [|reflexivity]. assert (0 < c < nxt s) by (apply (I_im _ _ _ (g_inv _ (h_GF _ _ _ H))); congruence). lia.
Qed.
Example C09_instance : legal_from A0 v0 st0 (good ++ [SubImage IL_SUB_NEXT 5]).
Proof. apply good_then. intros s'. split; [|intros; exact I]. split; [vm_compute; reflexivity|]. cbn. lia. Qed.
(** three mipmaps (or layers) requested: 3 is returned, but the count is 1 and the second cannot be selected *)
Theorem C09_refuted :
  out (run A0 [Init; SubImage IL_SUB_MIPMAP 3; Num LMips; Active LMips 2] st0) = Ok [[]; [3]; [1]; [0]] /\
  out (run A0 [Init; SubImage IL_SUB_LAYER 3; Num LLayers; Active LLayers 2] st0) = Ok [[]; [3]; [1]; [0]].
Proof.
  fold h_mips. fold h_layers. destruct facts as (s&E&_&_&_&_&_&F1&F2&_). split.
  - rewrite (proj1 (out_cons _ _ h_mips _ _ _ E)). rewrite F1. reflexivity.
  - rewrite (proj1 (out_cons _ _ h_layers _ _ _ E)). rewrite F2. reflexivity.
Qed.

(** * C33: copies *)
Theorem C33_partial : forall A h rs s n, oracle_ok A -> nofail A -> legal_from A v0 st0 (h ++ [Copy n]) -> run A h st0 = Ok (rs, s) ->
  let d := v_cur (view_of v0 h rs) in d <> 0 ->
  exists s' x y, step A (Copy n) s = Ok ([1], s') /\ look s' n [] = Some x /\ look s' d [] = Some y /\
    sn_hdr y = sn_hdr x /\ sn_pal y = sn_pal x /\ (sn_data x <> None -> sn_data y = sn_data x) /\
    (forall m path, In m (v_live (view_of v0 h rs)) -> m <> d -> look s' m path = look s m path).
Proof.
  intros A h rs s n OK NF L E d Hd. assert (NT : notab A) by (intros t m; apply NF).
  destruct (reached A OK NT h _ rs s (or_introl NF) L E) as [H LG]. assert (LG2 := LG). destruct LG2 as [L1 (B1&B2&B3&B4&B5)].
  assert (FR := frame_ok A OK NT _ s (Copy n) H LG NF L1 B4 ltac:(discriminate)). destruct FR as (r & s9 & E9 & FR).
  unfold hinv in H. rewrite L1 in H. assert (CN := h_cnm _ _ _ H NF). fold d in CN, B5.
  destruct (wp_CopyImage A OK NT s n (fun b s' => b = true /\ exists sa si, slotv s' n = Some sa /\ ims s' sa = Some si /\ exists da di,
     slotv s' d = Some da /\ ims s' da = Some di /\ hd di = hd si /\ (bytes_at s' (iPal di) = bytes_at s' (iPal si)) /\
     (bytes_at s' (iData si) <> None -> bytes_at s' (iData di) = bytes_at s' (iData si)))) as (b & s' & Es & -> & sa & si & S1 & S2 & da & di & S3 & S4 & S5 & S6 & S7); auto.
  - apply H.
  - apply (h_base _ _ _ H NF B3).
  - intros Q. apply (h_dead _ _ _ H) in Q. tauto.
  - congruence.
  - intros [Q|Q]; exfalso; [apply (h_cur _ _ _ H NF); assumption|congruence].
  - intros s1 s2 s' dst sa si Hc C b1 b2 S2 Es C2 M _ [(bb & p & I1 & (l & D1 & D2 & D3) & P1 & P2)] KS KB. split; [reflexivity|].
    exists sa, si. split; [rewrite (glob_slotv s2 s' n (md_glob _ _ _ M)); assumption|]. split; [assumption|].
    exists dst, (mkImb (hd si) None None None None (Some bb) p None None None).
    split; [rewrite (glob_slotv s2 s' d (md_glob _ _ _ M)); rewrite <- CN; rewrite <- (bo_cur _ _ _ _ b2); exact C2|].
    split; [exact I1|]. split; [reflexivity|]. cbn [iPal iData bytes_at]. split.
    + destruct (iPal si) as [q|] eqn:Ep.
      * destruct (P1 q eq_refl) as [c [-> Hc2]]. cbn [bytes_at]. rewrite (KB BPal q Ep).
        destruct (o_pal _ _ _ _ (g_siz _ (gf_G _ (bo_GF _ _ _ _ b2)) sa si Es) (fun x => x) q Ep) as [lq [Q1 _]]. rewrite Q1. apply Hc2. exact Q1.
      * rewrite (P2 eq_refl). reflexivity.
    + destruct (iData si) as [q|] eqn:Ed; cbn [bytes_at]; [|congruence]. intros _. rewrite (KB BData q Ed).
      destruct (o_data _ _ _ _ (g_siz _ (gf_G _ (bo_GF _ _ _ _ b2)) sa si Es) (fun x => x) q Ed) as [lq [Q1 _]]. rewrite Q1. rewrite D1. f_equal. eapply D3; eauto.
  - exists s', (mkSeen (hd si) (bytes_at s' (iData si)) (bytes_at s' (iPal si))), (mkSeen (hd di) (bytes_at s' (iData di)) (bytes_at s' (iPal di))).
    assert (ST : step A (Copy n) s = Ok ([1], s')) by (cbn [step]; unfold bindM; rewrite Es; reflexivity).
    split; [exact ST|]. unfold look. cbn [locate]. change table with slotv. rewrite S1, S3. unfold see. rewrite S2, S4. cbn [sn_hdr sn_pal sn_data].
    split; [reflexivity|]. split; [reflexivity|]. split; [assumption|]. split; [assumption|]. split; [assumption|].
    assert (s9 = s') by congruence. subst s9. intros m path Hm Nm. apply (FR m path Hm). intros [Q|[]]. apply Nm. symmetry. exact Q.
Qed.
Example C33_instance : legal_from A0 v0 st0 (good ++ [Copy 4]) /\ v_cur (view_of v0 good good_results) = 40.
Proof.
  split; [|vm_compute; reflexivity]. apply good_then. intros s'. split; [|intros; exact I]. split; [vm_compute; reflexivity|].
  vm_compute (view_of v0 good good_results). cbn. unfold name_limit. repeat split; try lia; try reflexivity; intuition discriminate.
Qed.
(** sub-images are not copied; copying an image onto itself reads freed memory; so does copying to a selected sub-image *)
Theorem C33_refuted :
  out (run A0 [Init; SubImage IL_SUB_NEXT 1; Bind 2; Copy 1; Num LNext] st0) = Ok [[]; [1]; []; [1]; [0]] /\
  out (run A0 [Init; Copy 1] st0) = UB /\
  out (run A0 [Init; Bind 3; SubImage IL_SUB_NEXT 1; Active LNext 1; Copy 1; SetDur 1] st0) = UB.
Proof.
  fold h_deep. fold h_self. fold h_sub. destruct facts as (s&E&_&_&F3&F4&_&_&_&F8&_). split; [|split].
  - rewrite (proj1 (out_cons _ _ h_deep _ _ _ E)). rewrite F8. reflexivity.
  - rewrite (proj1 (out_cons _ _ h_self _ _ _ E)). rewrite F3. reflexivity.
  - rewrite (proj1 (out_cons _ _ h_sub _ _ _ E)). rewrite F4. reflexivity.
Qed.

(** * C37: allocation failure.  Any allocation except that of the name table may fail, at any time. *)
Theorem C37_partial : forall A h, oracle_ok A -> notab A -> Forall (fun o => ~ needs_memory o) h ->
  legal_from A v0 st0 h -> exists rs s, run A h st0 = Ok (rs, s) /\
    forall o, legal (view_of v0 h rs) s o -> ~ needs_memory o -> exists r s', step A o s = Ok (r, s').
Proof.
  intros A h OK NT M L. destruct (run_ok A OK NT h v0 st0 (hinv0 A) L (or_intror M)) as (rs & s & E & _ & H & _).
  exists rs, s. split; [exact E|]. intros o Lo No. destruct (step_ok A OK NT _ s o H Lo (or_intror No)) as (r & s' & Es & _). eauto.
Qed.
(** a failing ilTexImage reports IL_OUT_OF_MEMORY and leaves a defined, empty image *)
Theorem C37_teximage : forall A h rs s c w ht d bpp fmt typ data, oracle_ok A -> notab A -> (nofail A \/ Forall (fun o => ~ needs_memory o) h) ->
  legal_from A v0 st0 (h ++ [TexImage w ht d bpp fmt typ data]) -> run A h st0 = Ok (rs, s) -> cur s = Some c ->
  exists r s', step A (TexImage w ht d bpp fmt typ data) s = Ok ([r], s') /\
    ((r = 1 /\ exists i b l, ims s' c = Some i /\ hW (hd i) = dim w /\ hH (hd i) = dim ht /\ hD (hd i) = dim d /\ hBpp (hd i) = bpp /\ hFmt (hd i) = fmt /\ hTyp (hd i) = typ /\
        hSize (hd i) = u32 (bytes_of w ht d bpp typ) /\ iData i = Some b /\ bks s' b = Some l /\ zlen l = hSize (hd i) /\
        forall src, data = Some src -> l = slice src 0 (hSize (hd i))) \/
     (r = 0 /\ errs s' = IL_OUT_OF_MEMORY :: errs s /\ ~ nofail A /\ exists i, ims s' c = Some i /\ iData i = None)).
Proof.
  intros A h rs s c w ht d bpp fmt typ data OK NT M L E C.
  destruct (reached A OK NT h _ rs s M L E) as [H [L1 (B1&B2&B3&B4&B5&B6)]]. unfold hinv in H. rewrite L1 in H.
  destruct (ims s c) as [i|] eqn:Ei; [|exfalso; eapply (g_cur _ (h_GF _ _ _ H)); eauto].
  destruct (wp_TexImage_ A OK s c i w ht d bpp fmt typ data (fun ok s' => 
     ims s' c = Some (fresh_im0 w ht d bpp fmt typ (if ok : bool then Some (nxt s) else None)) /\
     (ok = true -> exists l, bks s' (nxt s) = Some l /\ zlen l = hSize (init_hdr w ht d bpp fmt typ) /\
        forall src, data = Some src -> l = slice src 0 (hSize (init_hdr w ht d bpp fmt typ))) /\
     (ok = false -> errs s' = IL_OUT_OF_MEMORY :: errs s) /\ (nofail A -> ok = true))) as (ok & s' & Es & K1 & K2 & K3 & K4); try apply H; auto.
  { intros src Hs. specialize (B6 src Hs). assert (Q := size_le w ht d bpp fmt typ B1 B2 B3 B4). lia. }
  exists (b2z ok), s'. split; [cbn [step]; unfold bindM, ilTexImage, bindM, get; cbn [bind]; rewrite C, Es; reflexivity|].
  destruct ok.
  - left. split; [reflexivity|]. destruct (K2 eq_refl) as (l & D1 & D2 & D3). exists (fresh_im0 w ht d bpp fmt typ (Some (nxt s))), (nxt s), l.
    do 6 (split; [solve [assumption|reflexivity]|]). split; [reflexivity|]. split; [|auto 8].
    assert (U : forall a b, u32 (u32 a * b) = u32 (a * b)) by (intros a b; unfold u32; apply Zmult_mod_idemp_l).
    cbn [fresh_im0 hd init_hdr hSize]. unfold bytes_of. change dim with one. rewrite !U. rewrite <- Z.mul_assoc, U. f_equal. ring.
  - right. split; [reflexivity|]. split; [auto|]. split; [intros NF; specialize (K4 NF); discriminate|]. eexists. split; [exact K1|reflexivity].
Qed.
(** an oracle that refuses the 12288 bytes of the default image and every structure after the 20th request *)
Definition A_weak (T : Z) : oracle := fun w t n =>
  match w with
  | WBytes => if n =? 12288 then None else Some (repeat 205 (Z.to_nat n))
  | WStruct => if t <? T then Some [] else None
  | _ => Some []
  end.
(** an oracle that refuses to enlarge the name table *)
Definition A_table : oracle := fun w t n =>
  match w with
  | WBytes => if n =? 12288 then None else Some (repeat 205 (Z.to_nat n))
  | WTable => if t <? 3 then Some [] else None
  | _ => Some []
  end.
Lemma A_weak_ok : forall T, oracle_ok (A_weak T) /\ notab (A_weak T) /\ ~ nofail (A_weak T).
Proof.
  intros T. split; [|split].
  - intros t n l Hn E. cbn in E. destruct (n =? 12288); [discriminate|]. injection E as <-. unfold zlen. rewrite repeat_length. lia.
  - discriminate.
  - intros NF. apply (NF WBytes 0 12288). reflexivity.
Qed.
Example C37_instance : exists s, run (A_weak 20) [Init; Gen 9; Bind 4; SubImage IL_SUB_NEXT 3; IsImage 9; Delete [9; 4]] st0 =
    Ok ([[]; [2; 3; 4; 5; 6; 7; 8; 9; 10]; []; [0]; [0]; []], s) /\
  legal_from (A_weak 20) v0 st0 [Init; Gen 9; Bind 4; SubImage IL_SUB_NEXT 3; IsImage 9; Delete [9; 4]].
Proof.
  assert (X : exists s, run (A_weak 20) [Init; Gen 9; Bind 4; SubImage IL_SUB_NEXT 3; IsImage 9; Delete [9; 4]] st0 =
    Ok ([[]; [2; 3; 4; 5; 6; 7; 8; 9; 10]; []; [0]; [0]; []], s)).
  { eexists. vm_compute. reflexivity. }
  destruct X as [s E]. exists s. split; [exact E|]. eapply legal_by_results; [exact E|]. cbn [legal_along].
  repeat (split; [intros s0; vm_compute after; (split; [try exact I; try reflexivity; try (vm_compute; congruence)|])|]);
  cbn [v_dead v_top v_base v_sync v_cur v_on In]; unfold name_limit; repeat split; try exact I; try reflexivity; try lia; try tauto; vm_compute; congruence.
Qed.
(** When the table cannot be enlarged the library forgets it, and the next deletion reads through NULL,
    or image 1 is lost; when ilRegisterNumImages runs out of memory it frees part of its chain twice. *)
Theorem C37_refuted :
  out (run A_table [Init; Bind 1024; Delete [1]] st0) = UB /\
  out (run A_table [Init; IsImage 1; Bind 1024; IsImage 1] st0) = Ok [[]; [1]; []; [0]] /\
  out (run (A_weak 10) [Init; RegImages 3] st0) = UB.
Proof. vm_compute. repeat split; reflexivity. Qed.

Print Assumptions C03_partial.
Print Assumptions C04_partial.
Print Assumptions C05_partial.
Print Assumptions C06_partial.
Print Assumptions C06_refuted.
Print Assumptions C07_partial.
Print Assumptions C08.
Print Assumptions C09_partial.
Print Assumptions C33_partial.
Print Assumptions C37_partial.
Print Assumptions C37_teximage.
Print Assumptions C45_partial.
