(** C32: registration of loaders. *)
From Coq Require Import ZArith List Lia Bool String.
From Verif Require Import Base Slices Enums Strings StringsProofs Register.
Import ListNotations.
Open Scope Z_scope.
Open Scope list_scope.

(** ** Specification: a partial map from extensions (disregarding case) to procedures. *)

(** two extensions are the same up to case *)
Definition same (a b : list Z) : Prop := lower a = lower b.
Lemma same_dec : forall a b, {same a b} + {~ same a b}.
Proof. intros. unfold same. apply list_eq_dec. apply Z.eq_dec. Defined.

Definition registry := list Z -> option Z.
Definition spec_step (o : reg_op) (s : registry) : registry :=
  match o with
  | Register e f => fun x => if same_dec x e then match s e with Some g => Some g | None => Some f end else s x
  | Remove e => fun x => if same_dec x e then None else s x
  | RemoveAll => fun _ => None
  end.
Fixpoint spec_run (os : list reg_op) (s : registry) : registry :=
  match os with [] => s | o :: os => spec_run os (spec_step o s) end.

(** the names used are C strings *)
Definition proper (o : reg_op) : Prop := match o with Register e _ | Remove e => str e | RemoveAll => True end.
(** the client never registers an extension that is registered already *)
Fixpoint no_duplicates (os : list reg_op) (s : registry) : Prop :=
  match os with
  | [] => True
  | o :: os => match o with Register e _ => s e = None | _ => True end /\ no_duplicates os (spec_step o s)
  end.

(** ** The list of nodes *)

Definition wf (l : list node) : Prop := Forall (fun n => str (fst n)) l.

Fixpoint handler (l : list node) (x : list Z) : option Z :=
  match l with [] => None | (e, f) :: l => if same_dec x e then Some f else handler l x end.

Lemma match_ext_ok : forall a b, str a -> str b -> match_ext a b = Ok (if same_dec a b then true else false).
Proof.
  intros a b Ha Hb. unfold match_ext. destruct (iStrCmp_ok [] a b Ha Hb) as (c & E & Hc). unfold cstr at 1.
  cbn [app] in E. change (zlen (@nil Z)) with 0 in E. rewrite E. cbn [bind].
  destruct (same_dec a b) as [S|S]; f_equal; unfold same in S; destruct (c =? 0) eqn:E0; auto; exfalso.
  - apply Hc in S. lia.
  - apply S, Hc. lia.
Qed.

Lemma first_match_ok : forall l base x, wf l -> str x -> first_match (base ++ x ++ [0]) (zlen base) l = Ok (handler l x).
Proof.
  induction l as [|[e f] l IH]; intros base x W Hx; cbn [first_match handler]; [reflexivity|].
  inversion W as [|? ? We Wl]; subst. cbn [fst] in We.
  destruct (iStrCmp_ok base x e Hx We) as (c & -> & Hc). cbn [bind].
  destruct (same_dec x e) as [S|S].
  - apply Hc in S. rewrite S. reflexivity.
  - replace (c =? 0) with false; [apply IH; auto|]. symmetry. apply Z.eqb_neq. intros X. apply S, Hc, X.
Qed.

(** Which procedure handles a file is [handler]. *)
Lemma iRegisterLoad_ok : forall l base x, wf l -> str (base ++ 46 :: x) -> ~ In 46 x ->
  iRegisterLoad (cstr (base ++ 46 :: x)) l = Ok (handler l x).
Proof.
  intros l base x W H D. unfold iRegisterLoad. rewrite iGetExtension_dot by auto. cbn [bind].
  unfold cstr. rewrite <- app_assoc. cbn [app]. rewrite app_snoc, <- zlen_snoc with (c := 46).
  apply first_match_ok; auto. apply Forall_app in H. destruct H as [_ H]. inversion H; auto.
Qed.

Lemma registered_ok : forall l e, wf l -> str e -> registered l e = Ok (match handler l e with Some _ => true | None => false end).
Proof.
  induction l as [|[x f] l IH]; intros e W He; cbn [registered handler]; [reflexivity|].
  inversion W as [|? ? Wx Wl]; subst. rewrite match_ext_ok by auto. cbn [bind].
  destruct (same_dec x e) as [S|S]; destruct (same_dec e x) as [S'|S']; auto; exfalso; apply S' || apply S; symmetry; auto.
Qed.

Lemma handler_app : forall l m x, handler (l ++ m) x = match handler l x with Some f => Some f | None => handler m x end.
Proof. induction l as [|[e f] l IH]; intros m x; cbn [app handler]; [reflexivity|]. destruct (same_dec x e); auto. Qed.
Lemma handler_same : forall l x y, same x y -> handler l x = handler l y.
Proof.
  induction l as [|[e f] l IH]; intros x y S; cbn [handler]; [reflexivity|].
  destruct (same_dec x e) as [A|A]; destruct (same_dec y e) as [B|B]; auto; exfalso; unfold same in *; congruence.
Qed.

Lemma register_step : forall e f l, wf l -> str e -> exists l', ilRegisterLoad e f l = Ok (true, l') /\ wf l' /\
  (forall x, handler l' x = if same_dec x e then match handler l e with Some g => Some g | None => Some f end else handler l x).
Proof.
  intros e f l W He. unfold ilRegisterLoad.
  assert (Wt : wf (tl l)) by (destruct l as [|n l]; [constructor|inversion W; auto]).
  rewrite registered_ok by auto. cbn [bind]. destruct (handler (tl l) e) as [g|] eqn:E.
  - exists l. split; auto. split; auto. intros x. destruct (same_dec x e) as [S|S]; auto.
    rewrite (handler_same l x e S). destruct l as [|[y h] l]; [discriminate|]. cbn [tl handler] in *.
    destruct (same_dec e y); auto. rewrite E. reflexivity.
  - exists (l ++ [(e, f)]). split; auto. split.
    + apply Forall_app. split; [exact W|constructor; [exact He|constructor]].
    + intros x. rewrite handler_app. cbn [handler]. destruct (same_dec x e) as [S|S].
      * rewrite (handler_same l x e S). reflexivity.
      * destruct (handler l x); reflexivity.
Qed.

Lemma remove_step : forall e l, wf l -> str e -> exists l', ilRemoveLoad e l = Ok (match handler l e with Some _ => true | None => false end, l') /\ wf l' /\
  (forall x, ~ same x e -> handler l' x = handler l x).
Proof.
  induction l as [|[y h] l IH]; intros W He; cbn [ilRemoveLoad handler].
  - exists []. split; auto.
  - inversion W as [|? ? Wy Wl]; subst. cbn [fst] in Wy. rewrite match_ext_ok by auto. cbn [bind].
    destruct (same_dec e y) as [S|S].
    + exists l. split; auto. split; auto. intros x X. destruct (same_dec x y) as [A|A]; auto.
      exfalso. apply X. unfold same in *. congruence.
    + destruct (IH Wl He) as (l' & -> & W' & H). cbn [bind]. exists ((y, h) :: l'). split; auto. split; [constructor; auto|].
      intros x X. cbn [handler]. destruct (same_dec x y); auto.
Qed.

Lemma remove_shape : forall e l b l', wf l -> str e -> ilRemoveLoad e l = Ok (b, l') ->
  (b = false /\ l' = l) \/ exists p n q, l = p ++ n :: q /\ l' = p ++ q /\ same e (fst n).
Proof.
  induction l as [|[y h] l IH]; intros b l' W He H; cbn [ilRemoveLoad] in H.
  - injection H as <- <-. auto.
  - inversion W as [|? ? Wy Wl]; subst. cbn [fst] in Wy. rewrite match_ext_ok in H by auto. cbn [bind] in H.
    destruct (same_dec e y) as [S|S].
    + injection H as <- <-. right. exists [], (y, h), l. auto.
    + apply bind_ok in H. destruct H as ([b1 l1] & E & H). injection H as <- <-.
      destruct (IH _ _ Wl He E) as [[-> ->]|(p & n & q & -> & -> & X)]; [auto|].
      right. exists ((y, h) :: p), n, q. auto.
Qed.

(** All nodes but the first are pairwise different. *)
Definition key (n : node) : list Z := lower (fst n).
Definition tail_nodup (l : list node) : Prop := NoDup (map key (tl l)).

Lemma handler_none : forall l x, handler l x = None <-> ~ In (lower x) (map key l).
Proof.
  induction l as [|[e f] l IH]; intros x; cbn [handler map In]; [tauto|].
  destruct (same_dec x e) as [S|S]; unfold same, key in *; cbn [fst].
  - split; [discriminate|]. intros X. exfalso. apply X. auto.
  - rewrite IH. split; [intros A [B|B]; [congruence|auto]|auto].
Qed.

Lemma nodup_mid : forall A (p : list A) n q, NoDup (p ++ n :: q) -> NoDup (p ++ q).
Proof. intros A p n q H. apply NoDup_remove_1 in H. auto. Qed.

Lemma nodup_snoc : forall A (l : list A) a, NoDup l -> ~ In a l -> NoDup (l ++ [a]).
Proof.
  intros A l a N H. pose proof (Add_app a l []) as Q. rewrite app_nil_r in Q.
  apply (NoDup_Add Q). auto.
Qed.

Lemma step_tail : forall o l l', wf l -> proper o -> tail_nodup l -> reg_step o l = Ok l' -> wf l' /\ tail_nodup l'.
Proof.
  intros o l l' W P T H. destruct o as [e f|e|]; cbn [reg_step proper] in *.
  - destruct (register_step e f l W P) as (l2 & E & W2 & _). rewrite E in H. cbn [bind] in H. injection H as <-. split; auto.
    unfold ilRegisterLoad in E. assert (Wt : wf (tl l)) by (destruct l as [|n l]; [constructor|inversion W; auto]).
    rewrite registered_ok in E by auto. cbn [bind] in E. destruct (handler (tl l) e) eqn:Hh; injection E as <-; auto.
    unfold tail_nodup in *. destruct l as [|n l]; [constructor|]. cbn [app tl] in *. rewrite map_app. cbn [map].
    apply handler_none in Hh. apply nodup_snoc; auto.
  - destruct (ilRemoveLoad e l) as [[b l1]| |] eqn:E; cbn [bind] in H; [|discriminate|discriminate]. injection H as <-.
    destruct (remove_step e l W P) as (l2 & E2 & W2 & _). rewrite E in E2. injection E2 as _ ->. split; auto.
    destruct (remove_shape e l b l2 W P E) as [[_ ->]|(p & n & q & -> & -> & _)]; auto.
    unfold tail_nodup in *. destruct p as [|m p]; cbn [app tl] in *.
    + destruct q as [|m q]; [constructor|]. cbn [tl]. inversion T; auto.
    + rewrite map_app in *. cbn [map] in T. apply nodup_mid in T. auto.
  - injection H as <-. split; constructor.
Qed.

Lemma run_tail : forall os l l', wf l -> Forall proper os -> tail_nodup l -> reg_run os l = Ok l' -> wf l' /\ tail_nodup l'.
Proof.
  induction os as [|o os IH]; intros l l' W P T H; cbn [reg_run] in H.
  - injection H as <-. auto.
  - apply bind_ok in H. destruct H as (l1 & E & H). inversion P; subst.
    destruct (step_tail o l l1 W) as [W1 T1]; auto. eapply IH; eauto.
Qed.

(** ** Theorems *)

(** Registration never fails or misbehaves, whatever the history. *)
Theorem C32_total : forall os, Forall proper os -> exists l, reg_run os [] = Ok l.
Proof.
  assert (G : forall os, Forall proper os -> forall l, wf l -> exists l', reg_run os l = Ok l').
  { induction 1 as [|o os Ho _ IH]; intros l W; cbn [reg_run]; [eauto|].
    destruct o as [e f|e|]; cbn [reg_step proper] in *.
    - destruct (register_step e f l W Ho) as (l' & -> & W' & _). cbn [bind]. auto.
    - destruct (remove_step e l W Ho) as (l' & -> & W' & _). cbn [bind]. auto.
    - cbn [bind]. apply IH. constructor. }
  intros os H. apply G; auto. constructor.
Qed.

(** After any history, registering [f] for [e]: files with that extension (in any case) are handled by
    the procedure registered before, or else by [f]; all other files are handled as before. *)
Theorem C32_register : forall os l e f, Forall proper os -> reg_run os [] = Ok l -> str e ->
  exists l', ilRegisterLoad e f l = Ok (true, l') /\
  forall base x, str (base ++ 46 :: x) -> ~ In 46 x ->
    let file := cstr (base ++ 46 :: x) in
    (~ same x e -> iRegisterLoad file l' = iRegisterLoad file l) /\
    (same x e -> iRegisterLoad file l = Ok None -> iRegisterLoad file l' = Ok (Some f)) /\
    (forall g, same x e -> iRegisterLoad file l = Ok (Some g) -> iRegisterLoad file l' = Ok (Some g)).
Proof.
  intros os l e f P R He. destruct (run_tail os [] l) as [W T]; auto; try constructor.
  destruct (register_step e f l W He) as (l' & E & W' & H). exists l'. split; auto.
  intros base x Hs D file. unfold file. rewrite !iRegisterLoad_ok by auto. rewrite H.
  repeat split.
  - intros N. destruct (same_dec x e); [contradiction|reflexivity].
  - intros S N. destruct (same_dec x e); [|contradiction]. rewrite <- (handler_same l x e S). injection N as ->. reflexivity.
  - intros g S N. destruct (same_dec x e); [|contradiction]. rewrite <- (handler_same l x e S). injection N as ->. reflexivity.
Qed.

(** Removing [e] says whether it was registered and does not affect files with another extension. *)
Theorem C32_remove_other : forall os l e, Forall proper os -> reg_run os [] = Ok l -> str e ->
  exists b l', ilRemoveLoad e l = Ok (b, l') /\
  (forall base x, str (base ++ 46 :: x) -> ~ In 46 x -> ~ same x e ->
    iRegisterLoad (cstr (base ++ 46 :: x)) l' = iRegisterLoad (cstr (base ++ 46 :: x)) l) /\
  (forall base x, str (base ++ 46 :: x) -> ~ In 46 x -> same x e ->
    (b = true <-> iRegisterLoad (cstr (base ++ 46 :: x)) l <> Ok None)).
Proof.
  intros os l e P R He. destruct (run_tail os [] l) as [W T]; auto; try constructor.
  destruct (remove_step e l W He) as (l' & E & W' & H). do 2 eexists. split; [exact E|]. split.
  - intros base x Hs D N. rewrite !iRegisterLoad_ok by auto. rewrite H by auto. reflexivity.
  - intros base x Hs D S. rewrite !iRegisterLoad_ok by auto. rewrite (handler_same l x e S).
    destruct (handler l e); split; congruence.
Qed.

(** However often an extension was registered, removing it twice leaves it unregistered. *)
Theorem C32_remove_twice : forall os l e, Forall proper os -> reg_run os [] = Ok l -> str e ->
  exists b1 l1 b2 l2, ilRemoveLoad e l = Ok (b1, l1) /\ ilRemoveLoad e l1 = Ok (b2, l2) /\
  forall base x, str (base ++ 46 :: x) -> ~ In 46 x -> same x e -> iRegisterLoad (cstr (base ++ 46 :: x)) l2 = Ok None.
Proof.
  intros os l e P R He. destruct (run_tail os [] l) as [W T]; auto; try constructor.
  destruct (remove_step e l W He) as (l1 & E1 & W1 & _).
  destruct (remove_step e l1 W1 He) as (l2 & E2 & W2 & _).
  exists (match handler l e with Some _ => true | None => false end), l1, (match handler l1 e with Some _ => true | None => false end), l2.
  split; [exact E1|]. split; [exact E2|].
  intros base x Hs D S. rewrite iRegisterLoad_ok by auto. f_equal. apply handler_none.
  assert (Sx : lower x = lower e) by exact S. rewrite Sx.
  destruct (remove_shape e l1 _ l2 W1 He E2) as [[B ->]|(p & n & q & -> & -> & X)].
  { apply handler_none. destruct (handler l1 e); [discriminate|reflexivity]. }
  assert (Kn : key n = lower e) by (unfold key, same in *; auto).
  destruct (remove_shape e l _ _ W He E1) as [[B L]|(p' & n' & q' & L & L' & X')].
  { assert (N : handler l e = None) by (destruct (handler l e); [discriminate|reflexivity]).
    rewrite <- L in N. apply handler_none in N. exfalso. apply N. rewrite map_app. apply in_or_app. right. left. auto. }
  assert (Kn' : key n' = lower e) by (unfold key, same in *; auto).
  (* l = p' ++ n' :: q', p ++ n :: q = p' ++ q' *)
  unfold tail_nodup in T. rewrite L in T. destruct p' as [|m p']; cbn [app tl] in *.
  - rewrite <- L' in T. rewrite map_app in T. cbn [map] in T. rewrite Kn in T. apply NoDup_remove_2 in T.
    rewrite map_app. exact T.
  - destruct p as [|m2 p]; cbn [app] in L'; injection L' as <- L'.
    + (* the first node is an e, and so is n', in the tail *)
      rewrite L', map_app in *. cbn [map] in T. rewrite Kn' in T. apply NoDup_remove_2 in T. cbn [app]. rewrite map_app. exact T.
    + exfalso. rewrite map_app in T. cbn [map] in T. rewrite Kn' in T. apply NoDup_remove_2 in T. apply T.
      rewrite <- map_app. rewrite <- L'. rewrite map_app. apply in_or_app. right. left. auto.
Qed.

(** Full behaviour for clients that never register an extension twice: the registry is the partial map.
    Missing from C32: an extension registered twice may need two removals ([C32_refuted]). *)
Theorem C32_map_partial : forall os, Forall proper os -> no_duplicates os (fun _ => None) ->
  exists l, reg_run os [] = Ok l /\
  forall base x, str (base ++ 46 :: x) -> ~ In 46 x ->
    iRegisterLoad (cstr (base ++ 46 :: x)) l = Ok (spec_run os (fun _ => None) x).
Proof.
  assert (G : forall os l s, Forall proper os -> no_duplicates os s -> wf l -> NoDup (map key l) -> (forall x, handler l x = s x) ->
     exists l', reg_run os l = Ok l' /\ wf l' /\ forall x, handler l' x = spec_run os s x).
  { induction os as [|o os IH]; intros l s P D W N H; cbn [reg_run spec_run]; [eauto|].
    inversion P as [|? ? Po Pos]; subst. destruct D as [Do D]. destruct o as [e f|e|]; cbn [reg_step proper] in *.
    - destruct (register_step e f l W Po) as (l' & E & W' & H'). rewrite E. cbn [bind]. apply IH; auto.
      + assert (HN : handler l e = None) by (rewrite H; auto).
        unfold ilRegisterLoad in E. assert (Wt : wf (tl l)) by (destruct l as [|n l]; [constructor|inversion W; auto]).
        rewrite registered_ok in E by auto. cbn [bind] in E.
        destruct (handler (tl l) e) eqn:Hh; injection E as <-; auto.
        rewrite map_app. cbn [map]. apply handler_none in HN.
        apply nodup_snoc; auto.
      + intros x. rewrite H'. cbn [spec_step]. destruct (same_dec x e); rewrite H; reflexivity.
    - destruct (remove_step e l W Po) as (l' & E & W' & H'). rewrite E. cbn [bind].
      destruct (remove_shape e l _ l' W Po E) as [[B ->]|(p & n & q & -> & -> & X)].
      + apply IH; auto. intros x. cbn [spec_step]. destruct (same_dec x e) as [S|S]; auto.
        rewrite (handler_same l x e S). destruct (handler l e); [discriminate|reflexivity].
      + rewrite map_app in N. cbn [map] in N. assert (N2 := NoDup_remove_1 _ _ _ N). apply NoDup_remove_2 in N.
        apply IH; auto; [rewrite map_app; auto|]. intros x. cbn [spec_step]. destruct (same_dec x e) as [S|S].
        * apply handler_none. rewrite map_app. unfold same in S, X. unfold key in N at 3. rewrite S, X. exact N.
        * rewrite H' by auto. apply H.
    - cbn [bind]. apply IH; auto; constructor. }
  intros os P D. destruct (G os [] (fun _ => None) P D) as (l & E & W & H); try constructor; auto.
  exists l. split; auto. intros base x Hs Hd. rewrite iRegisterLoad_ok by auto. rewrite H. reflexivity.
Qed.

(** Counterexample to the full C32: registering an extension twice adds a second entry, so that after
    one removal its files are still handled, by the second procedure. *)
Theorem C32_refuted : forall e f g base, str e -> ~ In 46 e -> str base ->
  exists l, reg_run [Register e f; Register e g; Remove e] [] = Ok l /\ iRegisterLoad (cstr (base ++ 46 :: e)) l = Ok (Some g).
Proof.
  intros e f g base He D Hb. exists [(e, g)]. cbn [reg_run reg_step]. unfold ilRegisterLoad. cbn [tl registered bind app].
  split.
  - cbn [ilRemoveLoad]. rewrite match_ext_ok by auto. cbn [bind]. destruct (same_dec e e) as [S|S]; [reflexivity|]. exfalso. apply S. reflexivity.
  - rewrite iRegisterLoad_ok; auto.
    + cbn [handler]. destruct (same_dec e e) as [S|S]; [reflexivity|]. exfalso. apply S. reflexivity.
    + repeat constructor. cbn. auto.
    + apply Forall_app. split; auto. constructor; auto. lia.
Qed.

Definition ex_history : list reg_op :=
  [Register (lit "abc") 1; Register (lit "xy") 2; Remove (lit "ABC"); Register (lit "Abc") 3; Register (lit "q") 4; Remove (lit "q")].
Example C32_ex : Forall proper ex_history /\ no_duplicates ex_history (fun _ => None) /\
  reg_run ex_history [] = Ok [(lit "xy", 2); (lit "Abc", 3)] /\
  iRegisterLoad (cstr (lit "some.file.aBC")) [(lit "xy", 2); (lit "Abc", 3)] = Ok (Some 3).
Proof.
  split; [repeat constructor; cbn; repeat constructor|].
  split; [vm_compute; repeat split|split; reflexivity].
Qed.

Print Assumptions C32_total.
Print Assumptions C32_register.
Print Assumptions C32_remove_other.
Print Assumptions C32_remove_twice.
Print Assumptions C32_map_partial.
Print Assumptions C32_refuted.
