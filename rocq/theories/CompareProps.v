(** C106: comparing the bound image with another name.  Model: Compare.v on top of Stack.v.  Vocabulary: StackSpec.v, CompareSpec.v. *)
From Coq Require Import ZArith List Bool Lia.
From Verif Require Import Base Enums Utility Stack StackHeap StackWf StackOps StackNames StackCopy StackInit StackSpec StackHist StackRun StackExamples StackProps Ilu Compare CompareSpec CompareProofs.
Import ListNotations.
Open Scope Z_scope.

Lemma on_state : forall A h rs s, oracle_ok A -> nofail A -> legal_from A v0 st0 h -> run A h st0 = Ok (rs, s) ->
  v_on (view_of v0 h rs) = true -> on_inv A (view_of v0 h rs) s.
Proof.
  intros A h rs s OK NF L E ON. destruct (run_ok A OK (fun t n => NF WTable t n) h v0 st0 (hinv0 A) L (or_introl NF)) as (rs' & s' & E' & _ & H & _).
  assert (rs' = rs /\ s' = s) as [-> ->] by (split; congruence). unfold hinv in H. rewrite ON in H. exact H.
Qed.
Lemma table_slot : forall s n, table s n = slotv s n.
Proof. reflexivity. Qed.

(** After any covered history, for every other image in use: the answer is yes exactly if the two
    images are the same picture, and the whole state is as before. *)
Theorem C106_compare_partial : forall A h rs s n x y dx dy, oracle_ok A -> nofail A ->
  legal_from A v0 st0 h -> run A h st0 = Ok (rs, s) -> let v := view_of v0 h rs in
  v_on v = true -> v_base v = true -> In n (v_live v) -> 0 < n -> n <> v_cur v ->
  look s (v_cur v) [] = Some x -> look s n [] = Some y -> sn_data x = Some dx -> sn_data y = Some dy ->
  exists r, iluCompareImage A n s = Ok (r, s) /\ (r = true <-> same_picture y x).
Proof.
  intros A h rs s n x y dx dy OK NF L E v ON BA Ln Hn Nn Lx Ly Dx Dy. assert (H := on_state A h rs s OK NF L E ON). fold v in H.
  assert (Ec := h_cur _ _ _ H NF). destruct (cur s) as [c|] eqn:C; [|congruence]. clear Ec.
  assert (B := h_base _ _ _ H NF BA c C). apply points_slotv in B. assert (Q := h_cnm _ _ _ H NF).
  unfold look, locate in Lx, Ly. rewrite !table_slot in Lx, Ly. rewrite <- Q, B in Lx.
  destruct (slotv s n) as [o|] eqn:So; [|discriminate Ly].
  destruct (compare_ok A s n c o c x y dx dy (h_GF _ _ _ H) C Lx So Ly B Hn) as (r & Er & Sr); [congruence|assumption|assumption|].
  exists r. split.
  - rewrite Er. rewrite <- C. destruct s. reflexivity.
  - rewrite Sr. unfold same_picture. rewrite Dx, Dy. split; intros [S1 S2]; (split; [exact S1|congruence]).
Qed.
(** With a sub-image active it is the sub-image that is compared, and afterwards the bound name's
    own image is current: nothing else changes. *)
Theorem C106_sub_image : forall A h rs s n c x y dx dy, oracle_ok A -> nofail A ->
  legal_from A v0 st0 h -> run A h st0 = Ok (rs, s) -> let v := view_of v0 h rs in
  v_on v = true -> In n (v_live v) -> 0 < n -> n <> v_cur v ->
  cur s = Some c -> see s c = Some x -> look s n [] = Some y -> sn_data x = Some dx -> sn_data y = Some dy ->
  exists r, iluCompareImage A n s = Ok (r, set_cur (table s (v_cur v)) s) /\ (r = true <-> same_picture y x).
Proof.
  intros A h rs s n c x y dx dy OK NF L E v ON Ln Hn Nn C Lx Ly Dx Dy. assert (H := on_state A h rs s OK NF L E ON). fold v in H.
  assert (Q := h_cnm _ _ _ H NF). assert (Li := proj2 (h_live _ _ _ H NF (v_cur v)) (h_in _ _ _ H NF)).
  destruct (slotv s (v_cur v)) as [b0|] eqn:B; [|congruence].
  unfold look, locate in Ly. rewrite !table_slot in Ly. rewrite table_slot, B.
  destruct (slotv s n) as [o|] eqn:So; [|discriminate Ly].
  destruct (compare_ok A s n c o b0 x y dx dy (h_GF _ _ _ H) C Lx So Ly) as (r & Er & Sr); [rewrite Q; exact B|exact Hn|congruence|assumption|assumption|].
  exists r. split; [exact Er|]. rewrite Sr. unfold same_picture. rewrite Dx, Dy. split; intros [S1 S2]; (split; [exact S1|congruence]).
Qed.
(** The bound name compared with itself *)
Theorem C106_self : forall A h rs s, oracle_ok A -> nofail A -> legal_from A v0 st0 h -> run A h st0 = Ok (rs, s) ->
  v_on (view_of v0 h rs) = true -> iluCompareImage A (v_cur (view_of v0 h rs)) s = Ok (true, s).
Proof.
  intros A h rs s OK NF L E ON. assert (H := on_state A h rs s OK NF L E ON). rewrite <- (h_cnm _ _ _ H NF).
  apply compare_self; [apply H|apply (h_cur _ _ _ H NF)].
Qed.
(** A name not in use, or 0: no, with an error, and no image is created for the name *)
Theorem C106_refused : forall A h rs s n, oracle_ok A -> nofail A -> legal_from A v0 st0 h -> run A h st0 = Ok (rs, s) ->
  let v := view_of v0 h rs in v_on v = true -> 0 <= n -> n <> v_cur v -> (n = 0 \/ ~ In n (v_live v)) ->
  iluCompareImage A n s = Ok (false, set_errs (ILU_ILLEGAL_OPERATION :: errs s) s).
Proof.
  intros A h rs s n OK NF L E v ON Hn Nn U. assert (H := on_state A h rs s OK NF L E ON). fold v in H.
  apply compare_refused; [apply H|apply (h_cur _ _ _ H NF)|exact Hn|rewrite (h_cnm _ _ _ H NF); exact Nn|].
  destruct U as [U|U]; [left; exact U|right]. destruct (slotv s n) as [b|] eqn:Sn; [|reflexivity].
  exfalso. apply U. apply (h_live _ _ _ H NF). congruence.
Qed.

(** ** A concrete history: two images with equal pixels and different palettes, one with other pixels *)
Definition tex (d : list Z) : op := TexImage 2 1 1 1 IL_COLOUR_INDEX IL_UNSIGNED_BYTE (Some d).
Definition h_cmp : list op := [Gen 3; Bind 2; tex [0; 1]; RegPal (Some [1; 2; 3; 4; 5; 6]) 6 IL_PAL_RGB24;
  Bind 3; tex [0; 2]; Bind 4; tex [0; 1]; RegPal (Some [9; 9; 9; 9; 9; 9]) 6 IL_PAL_RGB24].
Definition h_cmp_results : list (list Z) := [[2; 3; 4]; []; [1]; []; []; [1]; []; [1]; []].
Definition answers (r : res (list (list Z) * st)) : list (res bool) :=
  match r with
  | Ok (_, s) => map (fun n => match iluCompareImage A0 n s with Ok (b, _) => Ok b | UB => UB | Fuel => Fuel end) [0; 2; 3; 4; 5]
  | _ => []
  end.
Definition palettes (r : res (list (list Z) * st)) : list (option (option (list Z) * option (list Z))) :=
  match r with
  | Ok (_, s) => map (fun n => match look s n [] with Some x => Some (sn_data x, sn_pal x) | None => None end) [2; 3; 4]
  | _ => []
  end.
Definition h_cmp_palettes : list (option (option (list Z) * option (list Z))) :=
  [Some (Some [0; 1], Some [1; 2; 3; 4; 5; 6]); Some (Some [0; 2], None); Some (Some [0; 1], Some [9; 9; 9; 9; 9; 9])].
Lemma cmp_battery : forall l, let s := init_st l in
  (out (run A0 h_cmp s), answers (run A0 h_cmp s), palettes (run A0 h_cmp s)) =
  (Ok h_cmp_results, [Ok false; Ok true; Ok false; Ok true; Ok false], h_cmp_palettes).
Proof. intros l. lazy. reflexivity. Qed.
Lemma cmp_legal : legal_along v0 (Init :: h_cmp) ([] :: h_cmp_results).
Proof.
  unfold h_cmp, h_cmp_results, tex. cbn [legal_along].
  repeat (split; [intros s; vm_compute after; (split; [try exact I; try reflexivity; try (vm_compute; congruence)|])|]);
  cbn [v_dead v_top v_base v_sync v_cur v_on In]; unfold name_limit;
  repeat match goal with
  | |- _ /\ _ => split
  | |- big _ _ => let H := fresh in intros ? H; injection H as <-; vm_compute; congruence
  end; try exact I; try reflexivity; try lia; try tauto; vm_compute; congruence.
Qed.
Lemma cmp_run : exists s, run A0 (Init :: h_cmp) st0 = Ok ([] :: h_cmp_results, s) /\
  answers (Ok ([], s)) = [Ok false; Ok true; Ok false; Ok true; Ok false] /\ palettes (Ok ([], s)) = h_cmp_palettes.
Proof.
  destruct Init_st as [l E]. assert (B := cmp_battery l). cbv zeta in B. revert B. generalize (init_st l) as s0, E. intros s0 E0 B.
  cbn [run]. unfold bindM at 1. rewrite E0. cbn [bind]. unfold bindM. destruct (run A0 h_cmp s0) as [[rs s]| |]; cbn [out] in B; [|congruence|congruence].
  exists s. cbn [bind]. assert (rs = h_cmp_results) by congruence. subst rs. split; [reflexivity|]. split; [|].
  - assert (Q : answers (Ok (h_cmp_results, s)) = [Ok false; Ok true; Ok false; Ok true; Ok false]) by congruence. exact Q.
  - assert (Q : palettes (Ok (h_cmp_results, s)) = h_cmp_palettes) by congruence. exact Q.
Qed.
Lemma look_of : forall s n d p, match look s n [] with Some x => Some (sn_data x, sn_pal x) | None => None end = Some (Some d, p) ->
  exists x, look s n [] = Some x /\ sn_data x = Some d /\ sn_pal x = p.
Proof. intros s n d p H. destruct (look s n []) as [x|]; [|discriminate H]. exists x. injection H as H1 H2. auto. Qed.
Definition h_cmp_view : view := mkView true [4; 3; 2; 2; 3; 4; 0; 1] [] 4 true true 5.
Lemma cmp_view : view_of v0 (Init :: h_cmp) ([] :: h_cmp_results) = h_cmp_view.
Proof. reflexivity. Qed.
Example C106_instance : exists rs s, run A0 (Init :: h_cmp) st0 = Ok (rs, s) /\ legal_from A0 v0 st0 (Init :: h_cmp) /\
  view_of v0 (Init :: h_cmp) rs = h_cmp_view /\
  iluCompareImage A0 2 s = Ok (true, s) /\ iluCompareImage A0 3 s = Ok (false, s) /\
  iluCompareImage A0 4 s = Ok (true, s) /\ iluCompareImage A0 5 s = Ok (false, set_errs (ILU_ILLEGAL_OPERATION :: errs s) s).
Proof.
  destruct cmp_run as (s & E & An & P). exists ([] :: h_cmp_results), s. split; [exact E|].
  assert (L := legal_by_results _ _ _ _ _ _ E cmp_legal). split; [exact L|]. destruct A0_ok as (O1 & O2 & O3). split; [exact cmp_view|].
  cbn [palettes map] in P. injection P as P2 P3 P4.
  apply look_of in P2, P3, P4. destruct P2 as (y2 & L2 & D2 & _), P3 as (y3 & L3 & D3 & _), P4 as (x & L4 & D4 & _).
  assert (V := cmp_view). cbn [answers map] in An. injection An as A2 A3 A4 A5 A6.
  split; [|split; [|split]].
  - destruct (C106_compare_partial A0 (Init :: h_cmp) _ s 2 x y2 [0; 1] [0; 1] O1 O3 L E) as (r & Er & _); rewrite ?V; try eassumption; try reflexivity; cbn; try lia; try (intuition lia).
    rewrite Er in A3. injection A3 as ->. exact Er.
  - destruct (C106_compare_partial A0 (Init :: h_cmp) _ s 3 x y3 [0; 1] [0; 2] O1 O3 L E) as (r & Er & _); rewrite ?V; try eassumption; try reflexivity; cbn; try lia; try (intuition lia).
    rewrite Er in A4. injection A4 as ->. exact Er.
  - exact (C106_self A0 _ _ s O1 O3 L E eq_refl).
  - apply (C106_refused A0 _ _ s 5 O1 O3 L E eq_refl); rewrite ?V; cbn; lia || (right; lia).
Qed.

(** ** The full claim: equal palettes too *)
Definition compare_means_equal : Prop := forall A h rs s n x y dx dy, oracle_ok A -> nofail A ->
  legal_from A v0 st0 h -> run A h st0 = Ok (rs, s) -> let v := view_of v0 h rs in
  v_on v = true -> v_base v = true -> In n (v_live v) -> 0 < n -> n <> v_cur v ->
  look s (v_cur v) [] = Some x -> look s n [] = Some y -> sn_data x = Some dx -> sn_data y = Some dy ->
  exists r, iluCompareImage A n s = Ok (r, s) /\ (r = true <-> same_picture y x /\ sn_pal y = sn_pal x).
(** Two images with the same indices and palettes without a colour in common count as equal *)
Theorem C106_palette_refuted : ~ compare_means_equal.
Proof.
  intros H. destruct cmp_run as (s & E & An & P). assert (L := legal_by_results _ _ _ _ _ _ E cmp_legal). destruct A0_ok as (O1 & O2 & O3).
  cbn [palettes map] in P. injection P as P2 P3 P4. apply look_of in P2, P4. destruct P2 as (y & L2 & D2 & Q2), P4 as (x & L4 & D4 & Q4).
  assert (V := cmp_view). destruct (H A0 (Init :: h_cmp) _ s 2 x y [0; 1] [0; 1] O1 O3 L E) as (r & Er & Sr); rewrite ?V; try eassumption; try reflexivity; cbn; try lia; try (intuition lia).
  cbn [answers map] in An. injection An as A2 A3 A4 A5 A6. rewrite Er in A3. injection A3 as ->.
  destruct (proj1 Sr eq_refl) as [_ Z]. rewrite Q2, Q4 in Z. discriminate Z.
Qed.

(** ** A sub-image is active: the selection is lost, and the own name counts as equal unseen *)
Definition h_sel : list op := [Gen 2; Bind 2; tex [0; 1]; Bind 3; tex [0; 2]; SubImage IL_SUB_NEXT 1; Active LNext 1].
Definition h_sel_results : list (list Z) := [[2; 3]; []; [1]; []; [1]; [1]; [1]].
Definition selection (r : res (list (list Z) * st)) : option (res bool * res bool * bool * option Z * list (option (list Z))) :=
  match r with
  | Ok (_, s) =>
      match iluCompareImage A0 2 s with
      | Ok (b, s') => Some (Ok b, match iluCompareImage A0 3 s with Ok (b, _) => Ok b | UB => UB | Fuel => Fuel end,
                            match cur s, cur s' with Some a, Some b => a =? b | _, _ => false end, cur s,
                            [match look s 3 [] with Some x => sn_data x | None => None end;
                             match match cur s with Some a => see s a | None => None end with Some x => option_map (fun l => [zlen l]) (sn_data x) | None => None end])
      | _ => None
      end
  | _ => None
  end.
Lemma sel_battery : forall l, let s := init_st l in
  (out (run A0 h_sel s), selection (run A0 h_sel s)) = (Ok h_sel_results, Some (Ok false, Ok true, false, Some 12, [Some [0; 2]; Some [1]])).
Proof. intros l. lazy. reflexivity. Qed.
Lemma sel_legal : legal_along v0 (Init :: h_sel) ([] :: h_sel_results).
Proof.
  unfold h_sel, h_sel_results, tex. cbn [legal_along].
  repeat (split; [intros s; vm_compute after; (split; [try exact I; try reflexivity; try (vm_compute; congruence)|])|]);
  cbn [v_dead v_top v_base v_sync v_cur v_on In]; unfold name_limit;
  repeat match goal with
  | |- _ /\ _ => split
  | |- big _ _ => let H := fresh in intros ? H; injection H as <-; vm_compute; congruence
  end; try exact I; try reflexivity; try lia; try tauto; vm_compute; congruence.
Qed.
(** comparing leaves the current image alone, whatever is compared *)
Definition compare_keeps_current : Prop := forall A h rs s n r s', oracle_ok A -> nofail A ->
  legal_from A v0 st0 h -> run A h st0 = Ok (rs, s) -> iluCompareImage A n s = Ok (r, s') -> cur s' = cur s.
(** the current image is compared by content, even with its own name *)
Definition compare_own_name : Prop := forall A h rs s c x y, oracle_ok A -> nofail A ->
  legal_from A v0 st0 h -> run A h st0 = Ok (rs, s) -> let v := view_of v0 h rs in v_on v = true ->
  cur s = Some c -> see s c = Some x -> look s (v_cur v) [] = Some y -> iluCompareImage A (v_cur v) s = Ok (true, s) -> same_picture y x.
Lemma sel_run : exists s, run A0 (Init :: h_sel) st0 = Ok ([] :: h_sel_results, s) /\
  selection (Ok ([], s)) = Some (Ok false, Ok true, false, Some 12, [Some [0; 2]; Some [1]]).
Proof.
  destruct Init_st as [l E]. assert (B := sel_battery l). cbv zeta in B. revert B. generalize (init_st l) as s0, E. intros s0 E0 B.
  cbn [run]. unfold bindM at 1. rewrite E0. cbn [bind]. unfold bindM. destruct (run A0 h_sel s0) as [[rs s]| |]; cbn [out] in B; [|congruence|congruence].
  exists s. cbn [bind]. assert (rs = h_sel_results) by congruence. subst rs. split; [reflexivity|].
  assert (Q : selection (Ok (h_sel_results, s)) = Some (Ok false, Ok true, false, Some 12, [Some [0; 2]; Some [1]])) by congruence. exact Q.
Qed.
Theorem C106_selection_refuted : ~ compare_keeps_current.
Proof.
  intros H. destruct sel_run as (s & E & S). assert (L := legal_by_results _ _ _ _ _ _ E sel_legal). destruct A0_ok as (O1 & O2 & O3).
  cbn [selection] in S. destruct (iluCompareImage A0 2 s) as [[b s']| |] eqn:Ec; [|discriminate S|discriminate S].
  specialize (H A0 _ _ s 2 b s' O1 O3 L E Ec). rewrite H in S. injection S as S1 S2 S3 S4 S5 S6. rewrite S4 in S3. rewrite Z.eqb_refl in S3. discriminate S3.
Qed.
Theorem C106_own_name_refuted : ~ compare_own_name.
Proof.
  intros H. destruct sel_run as (s & E & S). assert (L := legal_by_results _ _ _ _ _ _ E sel_legal). destruct A0_ok as (O1 & O2 & O3).
  assert (T := C106_self A0 _ _ s O1 O3 L E eq_refl). change (v_cur (view_of v0 (Init :: h_sel) ([] :: h_sel_results))) with 3 in T.
  cbn [selection] in S. destruct (iluCompareImage A0 2 s) as [[b s']| |] eqn:Ec; [|discriminate S|discriminate S].
  injection S as S1 S2 S3 S4 S5 S6. destruct (cur s) as [c|] eqn:C; [|discriminate S4].
  destruct (see s c) as [x|] eqn:Ex; [|discriminate S6]. destruct (look s 3 []) as [y|] eqn:Ey; [|discriminate S5].
  destruct (H A0 _ _ s c x y O1 O3 L E eq_refl C Ex Ey T) as [_ D]. rewrite S5 in D. rewrite <- D in S6. discriminate S6.
Qed.

Print Assumptions C106_compare_partial.
Print Assumptions C106_sub_image.
Print Assumptions C106_self.
Print Assumptions C106_refused.
Print Assumptions C106_palette_refuted.
Print Assumptions C106_selection_refuted.
Print Assumptions C106_own_name_refuted.
