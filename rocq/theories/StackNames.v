(** The calls of the name machine that work on the table of names. *)
From Coq Require Import ZArith List Bool Lia.
From Verif Require Import Base Enums Utility Stack StackHeap StackWf StackOps.
Import ListNotations.
Open Scope Z_scope.

(** the entry of the table for name [n] *)
Definition slotv (s : st) (n : Z) : option Z :=
  match stk s with Some (c, f) => if (0 <=? n) && (n <? c) then f n else None | None => None end.
Lemma points_slotv : forall s n x, points s (Root n) x <-> slotv s n = Some x.
Proof.
  intros s n x. unfold points, slotv. destruct (stk s) as [[c f]|]; [|split; [intros []|discriminate]].
  destruct ((0 <=? n) && (n <? c)) eqn:E; split; intros H.
  - apply H.
  - split; [lia|assumption].
  - lia.
  - discriminate.
Qed.
Lemma glob_slotv : forall s s' n, glob s s' -> slotv s' n = slotv s n.
Proof. intros s s' n [E _]. unfold slotv. rewrite E. reflexivity. Qed.

(** the table is unchanged outside [n] *)
Lemma wp_slot : forall s n c f (Q : option Z -> st -> Prop), stk s = Some (c, f) -> 0 <= n < c -> Q (f n) s -> wp (slot n) s Q.
Proof.
  intros s n c f Q E H HQ. exists (f n), s. unfold slot. rewrite E. replace ((0 <=? n) && (n <? c)) with true by lia. auto.
Qed.
Lemma wp_set_slot : forall s n p c f (Q : unit -> st -> Prop), stk s = Some (c, f) -> 0 <= n < c ->
  Q tt (set_stk (Some (c, fup f n p)) s) -> wp (set_slot n p) s Q.
Proof.
  intros s n p c f Q E H HQ. eexists tt, _. unfold set_slot. rewrite E. replace ((0 <=? n) && (n <? c)) with true by lia. auto.
Qed.

Lemma root_ok : forall (D D' : ref -> Prop) DB s c f n p, Inv D DB s -> stk s = Some (c, f) ->
  (forall x, ~ D' (Root n) -> p = Some x -> ims s x <> None /\ forall r, ~ D r -> ~ points s r x) ->
  (forall r, D r -> D' r \/ r = Root n) ->
  Inv D' DB (set_stk (Some (c, fup f n p)) s).
Proof.
  intros D D' DB s c f n p I E HP HD.
  assert (PT : forall r x, points (set_stk (Some (c, fup f n p)) s) r x -> (r = Root n /\ p = Some x) \/ (points s r x /\ r <> Root n)).
  { intros [m|q k] x H; cbn in H.
    - destruct H as [H1 H2]. destruct (Z.eq_dec m n) as [->|N].
      + rewrite fup_eq in H2. auto.
      + rewrite fup_neq in H2 by assumption. right. unfold points. rewrite E. split; [auto|congruence].
    - right. split; [exact H|discriminate]. }
  assert (ND : forall r, ~ D' r -> r <> Root n -> ~ D r) by (intros r N N' Q; destruct (HD r Q); auto).
  split; cbn [nxt ims bks set_stk]; try apply I.
  - intros r x N H. destruct (PT _ _ H) as [[-> Hp]|[H1 N1]]; [apply HP; assumption|]. eapply (I_live _ _ _ I); eauto.
  - intros q k x N H. destruct (PT _ _ H) as [[Q1 _]|[H1 N1]]; [discriminate|]. eapply (I_ord _ _ _ I); eauto.
  - intros r r' x N N' H H'. destruct (PT _ _ H) as [[-> Hp]|[H1 N1]]; destruct (PT _ _ H') as [[-> Hp']|[H1' N1']]; auto.
    + exfalso. destruct (HP x N Hp) as [_ Q]. eapply Q; eauto.
    + exfalso. destruct (HP x N' Hp') as [_ Q]. eapply Q; eauto.
    + eapply (I_uniq _ _ _ I); eauto.
Qed.
Lemma root_siz : forall DB s t, Siz DB s -> Siz DB (set_stk t s).
Proof. intros DB s t Z a i E. destruct (Z a i E). split; auto. Qed.
Lemma root_nl : forall (E EB E' : Z -> Prop) s c f n p, nl E EB s -> stk s = Some (c, f) -> 0 <= n < c ->
  (forall x, f n = Some x -> ims s x <> None -> E' x \/ p = Some x) -> (forall x, E x -> E' x \/ p = Some x) ->
  nl E' EB (set_stk (Some (c, fup f n p)) s).
Proof.
  intros E EB E' s c f n p N Es Hn H1 H2. split.
  - intros x Hx. cbn in Hx. assert (PP : p = Some x -> exists r, points (set_stk (Some (c, fup f n p)) s) r x).
    { intros Q. exists (Root n). cbn. rewrite fup_eq. auto. }
    destruct (n_im _ _ _ N x Hx) as [Q|[[m|q k] Q]].
    + destruct (H2 x Q); auto.
    + cbn in Q. rewrite Es in Q. destruct Q as [Q1 Q2]. destruct (Z.eq_dec m n) as [->|Nm].
      * destruct (H1 x Q2 Hx); auto.
      * right. exists (Root m). cbn. rewrite fup_neq by assumption. auto.
    + right. exists (Fld q k). exact Q.
  - intros b Hb. destruct (n_bk _ _ _ N b Hb) as [Q|[q [k Q]]]; [left; assumption|right; exists q, k; exact Q].
  - apply (n_tidy _ _ _ N).
Qed.

(** ** Trees *)
Lemma forest : forall s n m b b' c, Inv none_r none_b s -> slotv s n = Some b -> slotv s m = Some b' -> reach s b c -> reach s b' c -> n = m.
Proof.
  intros s n m b b' c I Hn Hm R R'. apply points_slotv in Hn, Hm.
  assert (RT : forall q x y, points s (Root q) x -> reach s y x -> y = x).
  { intros q x y Hq H. inversion H; subst; [reflexivity|]. exfalso. assert (Q : Root q = Fld p k); [|discriminate].
    eapply (I_uniq _ _ _ I); eauto. }
  revert m b' Hm R'. induction R as [|p k c R IH P]; intros m b' Hm R'.
  - rewrite (RT _ _ _ Hn R') in Hm. assert (Q : Root n = Root m); [|congruence]. eapply (I_uniq _ _ _ I); eauto.
  - inversion R'; subst.
    + exfalso. assert (Q : Root m = Fld p k); [|discriminate]. eapply (I_uniq _ _ _ I); eauto.
    + assert (Q : Fld p0 k0 = Fld p k) by (eapply (I_uniq _ _ _ I); eauto). injection Q as -> ->. eauto.
Qed.
Lemma reach_keep : forall s s' b x, reach s b x -> (forall p, reach s b p -> ims s p <> None -> ims s' p = ims s p) -> reach s' b x.
Proof.
  intros s s' b x H. induction H; intros HS; [constructor|].
  eapply reach_step; [apply IHreach; assumption|]. destruct H0 as [j [Ej G]]. exists j. split; [|exact G]. rewrite HS; [assumption|assumption|congruence].
Qed.

(** ** Initialised states of disciplined clients: free names are free *)
Record GF (s : st) : Prop := {
  gf_G :> G s;
  gf_nd : NoDup (fre s);
  gf_free : forall n, In n (fre s) -> slotv s n = None;
  gf_cnm : ~ In (cnm s) (fre s) }.

Definition notab (A : oracle) : Prop := forall t n, A WTable t n <> None.

Lemma g_slot_out : forall s n, G s -> ~ (0 <= n < lst s) -> slotv s n = None.
Proof.
  intros s n g H. destruct (g_f _ g) as [f [F1 F2]]. unfold slotv. rewrite F1.
  destruct ((0 <=? n) && (n <? ssz s)); [apply F2; assumption|reflexivity].
Qed.

(** only names, no images: what the table operations keep *)
Record keep (s s' : st) : Prop := {
  k_nxt : nxt s <= nxt s';
  k_im : forall x, ims s x <> None -> ims s' x = ims s x;
  k_bk : forall b, bks s b <> None -> bks s' b = bks s b }.
Lemma keep_refl : forall s, keep s s.
Proof. intros s. split; [lia| |]; auto. Qed.
Lemma keep_trans : forall s s1 s2, keep s s1 -> keep s1 s2 -> keep s s2.
Proof.
  intros s s1 s2 K1 K2. destruct K1, K2. split; [lia| |].
  - intros x Hx. rewrite k_im1; rewrite k_im0; auto.
  - intros x Hx. rewrite k_bk1; rewrite k_bk0; auto.
Qed.
Lemma keep_reach : forall s s' b x, keep s s' -> reach s b x -> reach s' b x.
Proof. intros s s' b x K H. eapply reach_keep; [exact H|]. intros p _ L. apply K. assumption. Qed.

Section Names.
Variable A : oracle.
Hypothesis OK : oracle_ok A.
Hypothesis NT : notab A.

(** ** iEnlargeStack *)
Lemma wp_Enlarge : forall s (Q : bool -> st -> Prop), GF s -> ssz s <= NMAX ->
  (forall s', GF s' -> ims s' = ims s -> bks s' = bks s -> nxt s' = nxt s -> (forall n, slotv s' n = slotv s n) -> ssz s' = ssz s + 1024 ->
     lst s' = lst s -> fre s' = fre s -> cur s' = cur s -> cnm s' = cnm s -> (forall E EB, nl E EB s -> nl E EB s') -> Q true s') ->
  wp (iEnlargeStack A) s Q.
Proof.
  intros s Q g HS HQ. unfold iEnlargeStack. apply wp_bind, wp_get. apply wp_bind, wp_get. apply wp_bind.
  destruct (g_f _ g) as [f [F1 F2]]. assert (B1 := g_ssz _ g). assert (B2 := g_lst _ g). unfold NMAX in *.
  assert (U1 : u32 (ssz s * 8) = ssz s * 8) by (apply u32_small; lia).
  assert (U2 : u32 ((ssz s + 1024) * 8) = (ssz s + 1024) * 8) by (apply u32_small; lia).
  assert (U3 : u32 (ssz s + 1024) = ssz s + 1024) by (apply u32_small; lia).
  rewrite U1, U2, U3, F1. unfold ialloc, wp at 1. destruct (A WTable (tk s) ((ssz s + 1024) * 8)) as [l|] eqn:EA; [|exfalso; eapply NT; eauto].
  eexists _, _. split; [reflexivity|].
  replace (Z.min (ssz s * 8) ((ssz s + 1024) * 8) / 8) with (ssz s) by lia.
  replace ((ssz s + 1024) * 8 / 8) with (ssz s + 1024) by lia. rewrite Z.ltb_irrefl.
  apply wp_bind, wp_mod. apply wp_bind, wp_mod. apply wp_ret.
  match goal with |- Q true ?t => set (s' := t) end.
  assert (SV : forall n, slotv s' n = slotv s n).
  { intros n. unfold slotv. rewrite F1. cbn [s' stk set_ssz set_stk set_tk].
    destruct ((0 <=? n) && (n <? ssz s)) eqn:E1; destruct ((0 <=? n) && (n <? ssz s + 1024)) eqn:E2; try lia.
    - replace (n <? ssz s) with true by lia. reflexivity.
    - replace (n <? ssz s) with false by lia. reflexivity.
    - reflexivity. }
  assert (PT : forall r x, points s' r x <-> points s r x).
  { intros [n|p k] x; [rewrite !points_slotv, SV; reflexivity|reflexivity]. }
  apply HQ; auto.
  - split; [split| | |].
    + destruct (g_inv _ g) as [i1 i2 i3 i4 i5 i6 i7 i8]. split; [exact i1|exact i2|exact i3| | | |exact i7|exact i8].
      * intros r a N H. apply PT in H. apply (i4 r a N H).
      * intros p k a N H. apply PT in H. apply (i5 p k a N H).
      * intros r r' a N N' H H'. apply PT in H, H'. apply (i6 r r' a N N' H H').
    + intros a i Ei. destruct (g_siz _ g a i Ei). split; auto.
    + exists (fun i => if i <? ssz s then f i else None). split; [reflexivity|].
      intros n H. change (lst s') with (lst s) in H. destruct (n <? ssz s); [apply F2; assumption|reflexivity].
    + cbn. unfold NMAX. lia.
    + cbn. lia.
    + apply (g_top _ g).
    + apply (g_fre _ g).
    + apply (g_cnm _ g).
    + apply (g_cur _ g).
    + apply (g_ini _ g).
    + apply (gf_nd _ g).
    + intros n Hn. rewrite SV. apply (gf_free _ g). assumption.
    + apply (gf_cnm _ g).
  - intros E EB N. split.
    + intros x Hx. destruct (n_im _ _ _ N x Hx) as [|[r H]]; [auto|]. right. exists r. apply PT. assumption.
    + intros x Hx. destruct (n_bk _ _ _ N x Hx) as [|H]; auto.
    + apply (n_tidy _ _ _ N).
Qed.

(** ** A fresh image for an empty entry *)
Record filled (s s' : st) (n : Z) (p : option Z) : Prop := {
  fl_inv : Inv none_r none_b s';
  fl_siz : Siz none_b s';
  fl_keep : keep s s';
  fl_stk : forall f, stk s = Some (ssz s, f) -> stk s' = Some (ssz s, fup f n p);
  fl_ssz : ssz s' = ssz s; fl_lst : lst s' = lst s; fl_fre : fre s' = fre s; fl_cur : cur s' = cur s;
  fl_cnm : cnm s' = cnm s; fl_ini : ini s' = ini s;
  fl_p : (p = None /\ (nofail A -> False)) \/ (exists b, p = Some b /\ nxt s <= b /\ ims s' b = Some (im1 (b + 1)));
  fl_nl : forall E EB, nl E EB s -> nl E EB s' }.

Lemma wp_newslot : forall {B} s n f (m : M B) (Q : B -> st -> Prop),
  Inv none_r none_b s -> Siz none_b s -> stk s = Some (ssz s, f) -> 0 <= n < ssz s -> f n = None ->
  (forall s' p, filled s s' n p -> wp m s' Q) ->
  wp (do p <- new1 A; exec set_slot n p; m) s Q.
Proof.
  intros B s n f m Q I Z E Hn En HQ. apply wp_bind. apply (wp_new1 A OK none_r none_b); auto.
  - intros s1 I1 Z1 G1 X1 M1 B1 ER NF N1. assert (E1 : stk s1 = Some (ssz s, f)) by (destruct G1 as [-> _]; assumption).
    apply wp_bind. eapply wp_set_slot; [exact E1|assumption|]. apply (HQ _ None).
    destruct G1 as (G1&G2&G3&G4&G5&G6&G7). split; auto.
    + apply (root_ok none_r none_r none_b s1 (ssz s) f n None I1 E1); [discriminate|intros r []].
    + apply root_siz. assumption.
    + split; [assumption|intros x _; apply M1|intros x _; apply B1].
    + intros f' E'. assert (f' = f) by congruence. subst f'. reflexivity.
    + intros E0 EB N. apply (root_nl E0 EB E0 s1 (ssz s) f n None (N1 _ _ N) E1 Hn); [congruence|auto].
  - intros s1 I1 Z1 G1 X1 M1 B1 F1 L1 NP N1. assert (E1 : stk s1 = Some (ssz s, f)) by (destruct G1 as [-> _]; assumption).
    assert (FI := fresh_im _ _ _ I). assert (FB := fresh_bk _ _ _ I).
    apply wp_bind. eapply wp_set_slot; [exact E1|assumption|]. apply (HQ _ (Some (nxt s))).
    destruct G1 as (G1&G2&G3&G4&G5&G6&G7). split; auto.
    + apply (root_ok none_r none_r none_b s1 (ssz s) f n (Some (nxt s)) I1 E1); [|intros r []].
      intros x _ Q1. injection Q1 as <-. split; [congruence|exact NP].
    + apply root_siz. assumption.
    + split; [cbn; lia|intros x Hx; apply M1; congruence|]. intros x Hx. apply B1. intros ->.
      apply (I_bk _ _ _ I) in Hx. lia.
    + intros f' E'. assert (f' = f) by congruence. subst f'. reflexivity.
    + right. exists (nxt s). split; [reflexivity|]. split; [lia|exact F1].
    + intros E0 EB N. apply (root_nl _ EB E0 s1 (ssz s) f n (Some (nxt s)) (N1 _ _ N) E1 Hn); [congruence|].
      intros x [Hx| ->]; auto.
Qed.

Lemma filled_slotv : forall s s' n p m f, filled s s' n p -> stk s = Some (ssz s, f) -> 0 <= n < ssz s ->
  slotv s' m = if m =? n then p else slotv s m.
Proof.
  intros s s' n p m f F E H. unfold slotv. rewrite (fl_stk _ _ _ _ F f E), E. unfold fup.
  destruct (m =? n) eqn:Em; [|reflexivity]. replace ((0 <=? m) && (m <? ssz s)) with true by lia. reflexivity.
Qed.
Lemma filled_p_live : forall s s' n p b, filled s s' n p -> p = Some b -> ims s' b <> None.
Proof.
  intros s s' n p b F E. destruct (fl_p _ _ _ _ F) as [[Q _]|[b' [Q [_ H]]]]; [congruence|].
  assert (b' = b) by congruence. subst. congruence.
Qed.

(** ** ilGenImages.  [gen s s' l]: the names [l] have been handed out. *)
Record gend (s s' : st) (l : list Z) : Prop := {
  gn_GF : GF s';
  gn_keep : keep s s';
  gn_cur : cur s' = cur s; gn_cnm : cnm s' = cnm s;
  gn_lst : lst s <= lst s' <= lst s + zlen l;
  gn_nd : NoDup l;
  gn_l : forall n, In n l -> slotv s n = None /\ 0 < n < lst s' /\ (In n (fre s) \/ lst s <= n) /\ ~ In n (fre s');
  gn_live : nofail A -> forall n, In n l -> exists b, slotv s' n = Some b /\ nxt s <= b /\ ims s' b = Some (im1 (b + 1));
  gn_some : forall n b, In n l -> slotv s' n = Some b -> nxt s <= b /\ ims s' b = Some (im1 (b + 1));
  gn_slot : forall n, ~ In n l -> slotv s' n = slotv s n;
  gn_fre : forall n, In n (fre s') <-> In n (fre s) /\ ~ In n l;
  gn_nl : forall E EB, nl E EB s -> nl E EB s' }.

Lemma gend_nil : forall s, GF s -> gend s s [].
Proof.
  intros s g. split; auto.
  - apply keep_refl.
  - unfold zlen. cbn. lia.
  - constructor.
  - intros n [].
  - intros _ n [].
  - intros n b [].
  - intros n. cbn. tauto.
Qed.

Lemma gend_cons : forall s s1 s' n l, gend s s1 [n] -> gend s1 s' l -> gend s s' (n :: l).
Proof.
  intros s s1 s' n l g h. assert (NF : In n (fre s1) -> False).
  { intros Q. apply (gn_fre _ _ _ g) in Q. apply Q. left. reflexivity. }
  assert (g0 := gn_l _ _ _ g n (or_introl eq_refl)). destruct g0 as (g1&g2&g3&g4).
  assert (Nl : ~ In n l). { intros Q. destruct (gn_l _ _ _ h n Q) as (_&_&[h3|h3]&_); [exact (g4 h3)|lia]. }
  assert (L1 := gn_lst _ _ _ g). assert (L2 := gn_lst _ _ _ h). unfold zlen in *. cbn [length] in *.
  split.
  - apply h.
  - eapply keep_trans; [apply g|apply h].
  - rewrite (gn_cur _ _ _ h). apply g.
  - rewrite (gn_cnm _ _ _ h). apply g.
  - unfold zlen. cbn [length]. lia.
  - constructor; [assumption|apply h].
  - intros m [<-|Hm].
    + split; [assumption|]. split; [lia|]. split; [assumption|]. intros Q. apply (gn_fre _ _ _ h) in Q. tauto.
    + destruct (gn_l _ _ _ h m Hm) as (h1&h2&h3&h4). assert (m <> n) by (intros ->; contradiction).
      split; [|split; [assumption|split; [|assumption]]].
      * rewrite <- h1. symmetry. apply (gn_slot _ _ _ g). intros [Q|[]]. congruence.
      * destruct h3 as [h3|h3]; [left; apply (gn_fre _ _ _ g) in h3; tauto|right; lia].
  - intros NF' m [<-|Hm].
    + destruct (gn_live _ _ _ g NF' n (or_introl eq_refl)) as [b [B1 [B2 B3]]]. exists b. split; [rewrite (gn_slot _ _ _ h) by assumption; assumption|].
      split; [assumption|]. rewrite (k_im _ _ (gn_keep _ _ _ h)) by congruence. assumption.
    + destruct (gn_live _ _ _ h NF' m Hm) as [b [B1 [B2 B3]]]. exists b. split; [assumption|]. split; [|assumption].
      assert (nxt s <= nxt s1) by apply g. lia.
  - intros m b [<-|Hm] Hb.
    + rewrite (gn_slot _ _ _ h) in Hb by assumption. destruct (gn_some _ _ _ g n b (or_introl eq_refl) Hb) as [B1 B2]. split; [assumption|].
      rewrite (k_im _ _ (gn_keep _ _ _ h)) by congruence. assumption.
    + destruct (gn_some _ _ _ h m b Hm Hb) as [B1 B2]. split; [|assumption]. assert (nxt s <= nxt s1) by apply g. lia.
  - intros m Hm. rewrite (gn_slot _ _ _ h), (gn_slot _ _ _ g); auto; intros Q; apply Hm; [destruct Q as [<-|[]]; left; reflexivity|right; assumption].
  - intros m. rewrite (gn_fre _ _ _ h), (gn_fre _ _ _ g). cbn. tauto.
  - intros E EB N. apply h, g, N.
Qed.

(** a name taken from the free names *)
Lemma gend_fre : forall s s1 n rest p, GF s -> fre s = n :: rest -> filled s s1 n p -> gend s (set_fre rest s1) [n].
Proof.
  intros s s1 n rest p g Ef F. destruct (g_f _ g) as [f [F1 F2]].
  assert (Hn : 0 < n < lst s) by (apply (g_fre _ g); rewrite Ef; left; reflexivity). assert (HL := g_lst _ g).
  assert (SV := fun m => filled_slotv s s1 n p m f F F1 ltac:(lia)).
  assert (ND := gf_nd _ g). rewrite Ef in ND. inversion ND; subst.
  assert (SN : slotv s n = None) by (apply (gf_free _ g); rewrite Ef; left; reflexivity).
  assert (CN : ~ In (cnm s) (n :: rest)) by (rewrite <- Ef; apply (gf_cnm _ g)).
  split.
  - split; [split| | |]; cbn [fre cnm cur lst ssz stk ini set_fre].
    + eapply ext_inv; [apply F| | | |]; try reflexivity.
    + eapply ext_siz; [apply F| |]; reflexivity.
    + exists (fup f n p). rewrite (fl_stk _ _ _ _ F f F1), (fl_ssz _ _ _ _ F), (fl_lst _ _ _ _ F). split; [reflexivity|].
      intros m Hm. rewrite fup_neq by lia. apply F2. assumption.
    + rewrite (fl_ssz _ _ _ _ F). apply g.
    + rewrite (fl_ssz _ _ _ _ F), (fl_lst _ _ _ _ F). apply g.
    + rewrite (fl_lst _ _ _ _ F). apply g.
    + rewrite (fl_lst _ _ _ _ F). intros m Hm. apply (g_fre _ g). rewrite Ef. right. assumption.
    + rewrite (fl_lst _ _ _ _ F), (fl_cnm _ _ _ _ F). apply g.
    + rewrite (fl_cur _ _ _ _ F). intros a Ea. cbn. rewrite (k_im _ _ (fl_keep _ _ _ _ F)); apply (g_cur _ g); assumption.
    + rewrite (fl_ini _ _ _ _ F). apply g.
    + assumption.
    + intros m Hm. change (slotv s1 m = None). rewrite SV. destruct (m =? n) eqn:E; [|apply (gf_free _ g); rewrite Ef; right; assumption].
      exfalso. assert (m = n) by lia. congruence.
    + rewrite (fl_cnm _ _ _ _ F). intros Q. apply CN. right. assumption.
  - destruct (fl_keep _ _ _ _ F). split; auto.
  - apply F.
  - apply F.
  - cbn. rewrite (fl_lst _ _ _ _ F). unfold zlen. cbn. lia.
  - constructor; [intros []|constructor].
  - intros m [<-|[]]. split; [assumption|]. cbn. rewrite (fl_lst _ _ _ _ F). split; [assumption|]. split; [left; rewrite Ef; left; reflexivity|assumption].
  - intros NF m [<-|[]]. destruct (fl_p _ _ _ _ F) as [[_ Q]|[b [-> [B1 B2]]]]; [exfalso; auto|]. exists b.
    split; [|auto]. change (slotv s1 n = Some b). rewrite SV, Z.eqb_refl. reflexivity.
  - intros m b [<-|[]] Hb. change (slotv s1 n = Some b) in Hb. rewrite SV, Z.eqb_refl in Hb.
    destruct (fl_p _ _ _ _ F) as [[Q _]|[b' [Q [B1 B2]]]]; [congruence|]. assert (b' = b) by congruence. subst b'. auto.
  - intros m Hm. change (slotv s1 m = slotv s m). rewrite SV. destruct (m =? n) eqn:E; [|reflexivity].
    exfalso. apply Hm. left. lia.
  - intros m. cbn. rewrite Ef. cbn. split.
    + intros Q. split; [auto|]. intros [->|[]]. contradiction.
    + intros [[->|Q] Q2]; [exfalso; apply Q2; auto|assumption].
  - intros E EB N. eapply ext_nl; [apply F; exact N| | |]; reflexivity.
Qed.
(** the next name *)
Lemma gend_lst : forall s s1 p, GF s -> fre s = [] -> lst s < ssz s -> lst s < NMAX -> filled s s1 (lst s) p -> gend s (set_lst (lst s + 1) s1) [lst s].
Proof.
  intros s s1 p g Ef Hs HM F. destruct (g_f _ g) as [f [F1 F2]]. assert (HL := g_lst _ g).
  assert (SV := fun m => filled_slotv s s1 (lst s) p m f F F1 ltac:(lia)).
  assert (SN : slotv s (lst s) = None) by (apply g_slot_out; [apply g|lia]).
  split.
  - split; [split| | |]; cbn [fre cnm cur lst ssz stk ini set_lst].
    + eapply ext_inv; [apply F| | | |]; try reflexivity.
    + eapply ext_siz; [apply F| |]; reflexivity.
    + exists (fup f (lst s) p). rewrite (fl_stk _ _ _ _ F f F1), (fl_ssz _ _ _ _ F). split; [reflexivity|].
      intros m Hm. rewrite fup_neq by lia. apply F2. lia.
    + rewrite (fl_ssz _ _ _ _ F). apply g.
    + rewrite (fl_ssz _ _ _ _ F). lia.
    + lia.
    + rewrite (fl_fre _ _ _ _ F), Ef. intros m [].
    + rewrite (fl_cnm _ _ _ _ F). assert (Q := g_cnm _ g). lia.
    + rewrite (fl_cur _ _ _ _ F). intros a Ea. cbn. rewrite (k_im _ _ (fl_keep _ _ _ _ F)); apply (g_cur _ g); assumption.
    + rewrite (fl_ini _ _ _ _ F). apply g.
    + rewrite (fl_fre _ _ _ _ F). apply (gf_nd _ g).
    + rewrite (fl_fre _ _ _ _ F), Ef. intros m [].
    + rewrite (fl_fre _ _ _ _ F), Ef. intros [].
  - destruct (fl_keep _ _ _ _ F). split; auto.
  - apply F.
  - apply F.
  - cbn. unfold zlen. cbn. lia.
  - constructor; [intros []|constructor].
  - intros m [<-|[]]. split; [assumption|]. cbn. split; [lia|]. split; [right; lia|]. rewrite (fl_fre _ _ _ _ F), Ef. intros [].
  - intros NF m [<-|[]]. destruct (fl_p _ _ _ _ F) as [[_ Q]|[b [-> [B1 B2]]]]; [exfalso; auto|]. exists b.
    split; [|auto]. change (slotv s1 (lst s) = Some b). rewrite SV, Z.eqb_refl. reflexivity.
  - intros m b [<-|[]] Hb. change (slotv s1 (lst s) = Some b) in Hb. rewrite SV, Z.eqb_refl in Hb.
    destruct (fl_p _ _ _ _ F) as [[Q _]|[b' [Q [B1 B2]]]]; [congruence|]. assert (b' = b) by congruence. subst b'. auto.
  - intros m Hm. change (slotv s1 m = slotv s m). rewrite SV. destruct (m =? lst s) eqn:E; [|reflexivity].
    exfalso. apply Hm. left. lia.
  - intros m. cbn. rewrite (fl_fre _ _ _ _ F), Ef. cbn. tauto.
  - intros E EB N. eapply ext_nl; [apply F; exact N| | |]; reflexivity.
Qed.

(** the machine's globals seen through a table enlargement *)
Lemma wp_gen_loop : forall k s (Q : list Z -> st -> Prop), GF s -> lst s + Z.of_nat k <= NMAX ->
  (forall l s', gend s s' l -> length l = k -> Q l s') -> wp (gen_loop A k) s Q.
Proof.
  induction k as [|k IH]; intros s Q g HM HQ; cbn [gen_loop].
  { apply wp_ret. apply HQ; [apply gend_nil; assumption|reflexivity]. }
  apply wp_bind, wp_get. destruct (fre s) as [|n rest] eqn:Ef.
  - apply wp_bind, wp_get. apply wp_bind, wp_get. apply wp_bind.
    assert (EN : forall (R : bool -> st -> Prop), (forall s', GF s' -> ims s' = ims s -> bks s' = bks s -> nxt s' = nxt s -> (forall n, slotv s' n = slotv s n) ->
        lst s < ssz s' -> lst s' = lst s -> fre s' = fre s -> cur s' = cur s -> cnm s' = cnm s -> (forall E EB, nl E EB s -> nl E EB s') -> R true s') ->
        wp (if ssz s <=? lst s then iEnlargeStack A else ret true) s R).
    { intros R HR. assert (HL := g_lst _ g). destruct (ssz s <=? lst s) eqn:E.
      - apply wp_Enlarge; [assumption|lia|]. intros s1 H1 H2 H3 H4 H5 H6 H7 H8 H9 H10 H11. apply HR; auto. lia.
      - apply wp_ret. apply HR; auto. lia. }
    apply EN. intros s1 g1 H2 H3 H4 H5 H6 H7 H8 H9 H10 H11. clear EN. cbn beta iota.
    destruct (g_f _ g1) as [f [F1 F2]]. assert (HL := g_lst _ g1).
    apply (wp_newslot s1 (lst s) f); [apply g1|apply g1|exact F1|rewrite H7 in HL; lia|apply F2; lia|].
    intros s2 p FL. apply wp_bind, wp_mod.
    assert (U : u32 (lst s + 1) = lst s + 1) by (apply u32_small; unfold NMAX in *; lia). rewrite U.
    rewrite <- H7 in FL.
    assert (g2 : gend s1 (set_lst (lst s1 + 1) s2) [lst s1]) by (eapply gend_lst; eauto; [congruence|lia|lia]). rewrite H7 in g2.
    assert (g3 : gend s (set_lst (lst s + 1) s2) [lst s]).
    { destruct g2. split; auto; rewrite ?H9, ?H10 in *; auto.
      - destruct gn_keep0. split; [lia|rewrite H2 in *; assumption|rewrite H3 in *; assumption].
      - lia.
      - intros n Hn. rewrite <- (H5 n), <- H8. rewrite H7 in gn_l0. apply gn_l0. assumption.
      - rewrite <- H4. auto.
      - rewrite <- H4. auto.
      - intros n Hn. rewrite gn_slot0; auto.
      - rewrite <- H8. assumption. }
    apply wp_bind. apply IH; [apply g3|cbn; lia|]. intros l s' g4 Hl. apply wp_ret. apply HQ; [|cbn; congruence].
    eapply gend_cons; eauto.
  - assert (Hn : 0 < n < lst s) by (apply (g_fre _ g); rewrite Ef; left; reflexivity). assert (HL := g_lst _ g).
    destruct (g_f _ g) as [f [F1 F2]]. assert (SN : slotv s n = None) by (apply (gf_free _ g); rewrite Ef; left; reflexivity).
    apply (wp_newslot s n f); [apply g|apply g|exact F1|lia| |].
    { unfold slotv in SN. rewrite F1 in SN. replace ((0 <=? n) && (n <? ssz s)) with true in SN by lia. exact SN. }
    intros s1 p FL. apply wp_bind, wp_mod. assert (g1 : gend s (set_fre rest s1) [n]) by (eapply gend_fre; eauto).
    apply wp_bind. apply IH; [apply g1| |].
    { cbn. rewrite (fl_lst _ _ _ _ FL). lia. }
    intros l s' g4 Hl. apply wp_ret. apply HQ; [|cbn; congruence]. eapply gend_cons; eauto.
Qed.
Lemma wp_GenImages : forall n s (Q : list Z -> st -> Prop), GF s -> lst s + Z.max 0 n <= NMAX ->
  (forall l s', 1 <= n -> gend s s' l -> zlen l = n -> Q l s') ->
  (n < 1 -> Q [] (set_errs (IL_INVALID_VALUE :: errs s) s)) -> wp (ilGenImages A n) s Q.
Proof.
  intros n s Q g HM H1 H2. unfold ilGenImages. destruct (n <? 1) eqn:E.
  - apply wp_bind, wp_mod. apply wp_ret. apply H2. lia.
  - apply wp_bind, wp_get. destruct (g_f _ g) as [f [F1 F2]]. rewrite F1. apply wp_bind, wp_ret.
    apply wp_gen_loop; [assumption|lia|]. intros l s' g' Hl. apply H1; [lia|assumption|unfold zlen; lia].
Qed.

(** ** ilBindImage *)
(** the same state with a larger table *)
Record wide (s s' : st) : Prop := {
  w_GF : GF s'; w_ims : ims s' = ims s; w_bks : bks s' = bks s; w_nxt : nxt s' = nxt s;
  w_slot : forall n, slotv s' n = slotv s n; w_lst : lst s' = lst s; w_fre : fre s' = fre s; w_cur : cur s' = cur s;
  w_cnm : cnm s' = cnm s; w_nl : forall E EB, nl E EB s -> nl E EB s' }.
Lemma wide_refl : forall s, GF s -> wide s s.
Proof. intros s g. split; auto. Qed.
Lemma wide_trans : forall s s1 s2, wide s s1 -> wide s1 s2 -> wide s s2.
Proof.
  intros s s1 s2 w v. destruct w, v. split; auto; try congruence.
Qed.
Lemma wide_reach : forall s s' b x, wide s s' -> (reach s' b x <-> reach s b x).
Proof.
  intros s s' b x w. split; intros H; (eapply reach_keep; [exact H|]); intros p _ _; rewrite (w_ims _ _ w); reflexivity.
Qed.

Lemma wp_grow : forall fuel n s (Q : bool -> st -> Prop), GF s -> n < NMAX -> n - ssz s < Z.of_nat fuel * 1024 ->
  (forall s', wide s s' -> n < ssz s' -> Q true s') -> wp (grow A fuel n) s Q.
Proof.
  induction fuel as [|fuel IH]; intros n s Q g HM HF HQ; cbn [grow]; apply wp_bind, wp_get; destruct (ssz s <=? n) eqn:E.
  - lia.
  - apply wp_ret. apply HQ; [apply wide_refl; assumption|lia].
  - apply wp_bind. apply wp_Enlarge; [assumption|lia|]. intros s1 H1 H2 H3 H4 H5 H6 H7 H8 H9 H10 H11. cbn beta iota.
    apply IH; [assumption|lia|lia|]. intros s2 w Hn. apply HQ; [|assumption]. eapply wide_trans; [|exact w]. split; auto.
  - apply wp_ret. apply HQ; [apply wide_refl; assumption|lia].
Qed.

Record bound (s s' : st) (n : Z) : Prop := {
  bo_GF : GF s';
  bo_keep : keep s s';
  bo_cnm : cnm s' = n;
  bo_cur : cur s' = slotv s' n;
  bo_slot : forall m, m <> n -> slotv s' m = slotv s m;
  bo_old : forall b, slotv s n = Some b -> slotv s' n = Some b;
  bo_new : slotv s n = None -> (slotv s' n = None /\ (nofail A -> False)) \/
     (exists b, slotv s' n = Some b /\ nxt s <= b /\ ims s' b = Some (im1 (b + 1)));
  bo_same : slotv s n <> None -> ims s' = ims s /\ bks s' = bks s;
  bo_lst : lst s <= lst s' <= Z.max (lst s) (n + 1) /\ n < lst s';
  bo_fre : fre s' = fre s;
  bo_nl : forall E EB, nl E EB s -> nl E EB s' }.

Lemma wp_BindImage : forall n s (Q : unit -> st -> Prop), GF s -> 0 <= n < NMAX -> ~ In n (fre s) ->
  (forall s', bound s s' n -> Q tt s') -> wp (ilBindImage A n) s Q.
Proof.
  intros n s Q g Hn Hf HQ. unfold ilBindImage. apply wp_bind, wp_get. apply wp_bind, wp_get. apply wp_bind.
  destruct (g_f _ g) as [f [F1 F2]]. rewrite F1. assert (HS := g_ssz _ g).
  replace (negb true || (ssz s =? 0)) with false by (symmetry; apply orb_false_iff; split; [reflexivity|lia]).
  apply wp_ret. cbn [negb]. apply wp_bind. apply wp_grow; [assumption|lia|lia|]. intros s1 w HN. cbn [negb].
  assert (g1 := w_GF _ _ w). destruct (g_f _ g1) as [f1 [F3 F4]]. assert (L1 := g_lst _ g1).
  assert (S1 : slotv s1 n = f1 n) by (unfold slotv; rewrite F3; replace ((0 <=? n) && (n <? ssz s1)) with true by lia; reflexivity).
  apply wp_bind. eapply wp_slot; [exact F3|lia|]. apply wp_bind.
  assert (FR1 : ~ In n (fre s1)) by (rewrite (w_fre _ _ w); assumption).
  destruct (f1 n) as [b|] eqn:Eb; cbn [non_null].
  - apply wp_ret. apply wp_bind. eapply wp_slot; [exact F3|lia|]. apply wp_bind, wp_mod. apply wp_mod. apply HQ.
    assert (LN : 0 <= n < lst s1).
    { destruct (Z_lt_le_dec n (lst s1)); [lia|]. rewrite F4 in Eb by lia. discriminate. }
    assert (SO : slotv s n = Some b) by (rewrite <- (w_slot _ _ w), S1; reflexivity).
    split.
    + split; [split| | |]; cbn [fre cnm cur lst ssz stk ini set_cur set_cnm].
      * eapply ext_inv; [apply g1| | | |]; try reflexivity.
      * eapply ext_siz; [apply g1| |]; reflexivity.
      * exact (g_f _ g1).
      * apply g1.
      * apply g1.
      * apply g1.
      * exact (g_fre _ g1).
      * assumption.
      * intros a Ea. cbn. assert (points s1 (Root n) a) by (apply points_slotv; congruence).
        eapply (I_live _ _ _ (g_inv _ g1) (Root n)); eauto.
      * apply g1.
      * apply g1.
      * intros m Hm. change (slotv s1 m = None). apply (gf_free _ g1). assumption.
      * assumption.
    + split; [cbn; rewrite (w_nxt _ _ w); lia|cbn; rewrite (w_ims _ _ w); auto|cbn; rewrite (w_bks _ _ w); auto].
    + reflexivity.
    + change (f1 n = slotv s1 n). congruence.
    + intros m _. change (slotv s1 m = slotv s m). apply w.
    + intros b' Hb. change (slotv s1 n = Some b'). rewrite (w_slot _ _ w). assumption.
    + intros Q1. congruence.
    + intros _. cbn. split; apply w.
    + cbn. rewrite (w_lst _ _ w) in *. lia.
    + cbn. apply w.
    + intros E EB N. eapply ext_nl; [apply (w_nl _ _ w); exact N| | |]; reflexivity.
  - apply (wp_newslot s1 n f1); [apply g1|apply g1|exact F3|lia|exact Eb|]. intros s2 p FL.
    assert (F5 := fl_stk _ _ _ _ FL f1 F3).
    assert (SV := fun m => filled_slotv s1 s2 n p m f1 FL F3 ltac:(lia)).
    apply wp_bind, wp_get. rewrite (fl_lst _ _ _ _ FL).
    assert (U : u32 (n + 1) = n + 1) by (apply u32_small; unfold NMAX in *; lia). rewrite U.
    set (L := if lst s1 <=? n then n + 1 else lst s1).
    assert (LST : forall (R : unit -> st -> Prop), R tt (set_lst L s2) -> wp (if lst s1 <=? n then mod_ (set_lst (n + 1)) else ret tt) s2 R).
    { intros R HR. unfold L in HR. destruct (lst s1 <=? n).
      - apply wp_mod. exact HR.
      - apply wp_ret. replace s2 with (set_lst (lst s1) s2); [exact HR|]. rewrite <- (fl_lst _ _ _ _ FL). destruct s2; reflexivity. }
    apply LST. clear LST. apply wp_bind. eapply wp_slot; [exact F5|lia|]. rewrite fup_eq.
    apply wp_bind, wp_mod. apply wp_mod. apply HQ.
    assert (HLL : lst s1 <= L <= Z.max (lst s1) (n + 1) /\ n < L) by (unfold L; destruct (lst s1 <=? n) eqn:E; lia).
    assert (SO : slotv s n = None) by (rewrite <- (w_slot _ _ w), S1; reflexivity).
    assert (SN : slotv s2 n = p) by (rewrite SV, Z.eqb_refl; reflexivity).
    split.
    + split; [split| | |]; cbn [fre cnm cur lst ssz stk ini set_cur set_cnm set_lst].
      * eapply ext_inv; [apply FL| | | |]; try reflexivity.
      * eapply ext_siz; [apply FL| |]; reflexivity.
      * exists (fup f1 n p). rewrite F5, (fl_ssz _ _ _ _ FL). split; [reflexivity|]. intros m Hm. rewrite fup_neq by lia. apply F4. lia.
      * rewrite (fl_ssz _ _ _ _ FL). apply g1.
      * rewrite (fl_ssz _ _ _ _ FL). lia.
      * assert (Q1 := g_top _ g1). lia.
      * rewrite (fl_fre _ _ _ _ FL). intros m Hm. apply (g_fre _ g1) in Hm. lia.
      * lia.
      * intros a Ea. cbn. eapply filled_p_live; eauto.
      * rewrite (fl_ini _ _ _ _ FL). apply g1.
      * rewrite (fl_fre _ _ _ _ FL). apply g1.
      * rewrite (fl_fre _ _ _ _ FL). intros m Hm. change (slotv s2 m = None). rewrite SV. destruct (m =? n) eqn:E; [|apply (gf_free _ g1); assumption].
        exfalso. apply FR1. replace n with m by lia. assumption.
      * rewrite (fl_fre _ _ _ _ FL). assumption.
    + destruct (fl_keep _ _ _ _ FL). split; cbn.
      * rewrite (w_nxt _ _ w) in *. lia.
      * rewrite (w_ims _ _ w) in *. auto.
      * rewrite (w_bks _ _ w) in *. auto.
    + reflexivity.
    + change (p = slotv s2 n). congruence.
    + intros m Hm. change (slotv s2 m = slotv s m). rewrite SV. replace (m =? n) with false by lia. apply w.
    + intros b Hb. congruence.
    + intros _. change (slotv (set_cnm n (set_cur p (set_lst L s2))) n) with (slotv s2 n). rewrite SN.
      destruct (fl_p _ _ _ _ FL) as [[-> Q1]|[b [-> [Q1 Q2]]]]; [left; auto|]. right. exists b. rewrite <- (w_nxt _ _ w). auto.
    + intros Q1. congruence.
    + cbn. rewrite (w_lst _ _ w) in *. lia.
    + cbn. rewrite (fl_fre _ _ _ _ FL). apply w.
    + intros E EB N. eapply ext_nl; [apply FL; apply (w_nl _ _ w); exact N| | |]; reflexivity.
Qed.
Lemma bound_base : forall s s' n, bound s s' n -> base s'.
Proof. intros s s' n b c Hc. rewrite (bo_cnm _ _ _ b). apply points_slotv. rewrite <- (bo_cur _ _ _ b). assumption. Qed.

(** ** ilDeleteImages *)
Record deld (s s' : st) (l : list Z) : Prop := {
  de_GF : GF s';
  de_sync : sync s';
  de_base : base s -> base s';
  de_nxt : nxt s' = nxt s;
  de_del : forall m, In m l -> 0 < m -> slotv s' m = None;
  de_slot : forall m, ~ In m l \/ m <= 0 -> slotv s' m = slotv s m;
  de_tree : forall m b x, ~ In m l \/ m <= 0 -> slotv s m = Some b -> reach s b x ->
     ims s' x = ims s x /\ forall k c, bpoints s x k c -> bks s' c = bks s c;
  de_lst : lst s' = lst s;
  de_fre : forall n, In n (fre s') -> In n (fre s) \/ (In n l /\ slotv s n <> None);
  de_fre' : nofail A -> forall n, In n (fre s) \/ (In n l /\ 0 < n /\ slotv s n <> None) -> In n (fre s');
  de_cnm : In (cnm s) l /\ 0 < cnm s /\ slotv s (cnm s) <> None -> cnm s' = 0 /\ cur s' = slotv s 0;
  de_cnm' : ~ (In (cnm s) l /\ 0 < cnm s /\ slotv s (cnm s) <> None) -> cnm s' = cnm s /\ cur s' = cur s;
  de_nl : forall E EB, nl E EB s -> nl E EB s' }.

Lemma deld_same : forall s l, GF s -> sync s -> (forall m, In m l -> 0 < m -> slotv s m = None) -> deld s s l.
Proof.
  intros s l g S H. split; auto.
  - intros _ n [Q|[Q1 [Q2 Q3]]]; [assumption|]. exfalso. auto.
  - intros [Q1 [Q2 Q3]]. exfalso. auto.
Qed.
Lemma deld_cons : forall s s1 s' n l, GF s -> deld s s1 [n] -> deld s1 s' l -> deld s s' (n :: l).
Proof.
  intros s s1 s' n l g0 g h.
  assert (NI : forall m, ~ In m (n :: l) \/ m <= 0 -> (~ In m [n] \/ m <= 0) /\ (~ In m l \/ m <= 0)).
  { intros m [Q|Q]; [|auto]. split; left; intros Q'; apply Q; [destruct Q' as [<-|[]]; left; reflexivity|right; assumption]. }
  assert (N0 : forall m, In m l -> 0 < m -> slotv s' m = None) by (apply h).
  assert (D1 : slotv s1 n = None \/ n <= 0).
  { destruct (Z_lt_le_dec 0 n); [left; apply (de_del _ _ _ g); [left; reflexivity|assumption]|right; lia]. }
  split.
  - apply h.
  - apply h.
  - intros B. apply h, g, B.
  - rewrite (de_nxt _ _ _ h). apply g.
  - intros m [<-|Hm] Hp; [|apply (de_del _ _ _ h); assumption]. destruct (in_dec Z.eq_dec n l) as [Q|Q]; [apply (de_del _ _ _ h); assumption|].
    rewrite (de_slot _ _ _ h) by auto. destruct D1; [assumption|lia].
  - intros m Hm. apply NI in Hm. rewrite (de_slot _ _ _ h), (de_slot _ _ _ g); tauto.
  - intros m b x Hm Hb R. destruct (NI m Hm) as [M1 M2].
    destruct (de_tree _ _ _ g m b x M1 Hb R) as [T1 T2].
    assert (R1 : reach s1 b x) by (eapply reach_keep; [exact R|]; intros p Rp _; apply (de_tree _ _ _ g m b p M1 Hb Rp)).
    assert (Hb1 : slotv s1 m = Some b) by (rewrite (de_slot _ _ _ g) by assumption; assumption).
    destruct (de_tree _ _ _ h m b x M2 Hb1 R1) as [T3 T4]. split; [congruence|]. intros k c P. rewrite <- (T2 k c P). apply (T4 k).
    destruct P as [j [Ej Gj]]. exists j. split; [congruence|assumption].
  - rewrite (de_lst _ _ _ h). apply g.
  - intros m Hm. apply (de_fre _ _ _ h) in Hm. destruct Hm as [Hm|[Hm1 Hm2]].
    + apply (de_fre _ _ _ g) in Hm. destruct Hm as [Hm|[[<-|[]] Hm2]]; [auto|]. right. split; [left; reflexivity|assumption].
    + right. split; [right; assumption|]. destruct (in_dec Z.eq_dec m [n]) as [Q|Q].
      * destruct Q as [->|[]]. intros E. apply Hm2. destruct D1 as [|D1]; [assumption|]. rewrite (de_slot _ _ _ g) by auto. assumption.
      * rewrite (de_slot _ _ _ g) in Hm2 by auto. assumption.
  - intros NF m Hm. apply (de_fre' _ _ _ h NF). destruct Hm as [Hm|[[<-|Hm] [H1 H2]]].
    + left. apply (de_fre' _ _ _ g NF). auto.
    + left. apply (de_fre' _ _ _ g NF). right. split; [left; reflexivity|auto].
    + destruct (Z.eq_dec m n) as [->|Nm]; [left; apply (de_fre' _ _ _ g NF); right; split; [left; reflexivity|auto]|].
      right. split; [assumption|]. split; [assumption|]. rewrite (de_slot _ _ _ g); [assumption|]. left. intros [Q|[]]. congruence.
  - intros [H1 [H2 H3]].
    assert (DD : {In (cnm s) [n]} + {~ In (cnm s) [n]}) by apply in_dec, Z.eq_dec. destruct DD as [Q|Q].
    + destruct (de_cnm _ _ _ g (conj Q (conj H2 H3))) as [C1 C2]. destruct (de_cnm' _ _ _ h) as [C3 C4].
      { rewrite C1. intros [_ [Q1 _]]. lia. }
      rewrite C3, C4, C1, C2. auto.
    + destruct (de_cnm' _ _ _ g) as [C1 C2]; [tauto|]. destruct (de_cnm _ _ _ h) as [C3 C4].
      { rewrite C1. split; [|split; [assumption|]]. { destruct H1 as [E|]; [|assumption]. exfalso. apply Q. left. assumption. }
        rewrite (de_slot _ _ _ g) by auto. assumption. }
      rewrite C3, C4. split; [reflexivity|]. apply (de_slot _ _ _ g). right. lia.
  - intros H. destruct (de_cnm' _ _ _ g) as [C1 C2]. { intros [[Q|[]] Q1]. apply H. split; [left; assumption|assumption]. }
    destruct (de_cnm' _ _ _ h) as [C3 C4]; [|split; congruence]. rewrite C1. intros [Q1 [Q2 Q3]]. apply H. split; [right; assumption|]. split; [assumption|].
    destruct (in_dec Z.eq_dec (cnm s) [n]) as [Q|Q].
    + destruct Q as [Q|[]]. rewrite <- Q in *. intros E. apply Q3. destruct D1 as [|D1]; [assumption|lia].
    + rewrite (de_slot _ _ _ g) in Q3 by auto. assumption.
  - intros E EB N. apply h, g, N.
Qed.

Lemma wp_del1 : forall n s (Q : bool -> st -> Prop), GF s -> sync s ->
  (forall ok s', deld s s' [n] -> (nofail A -> ok = true) -> Q ok s') ->
  wp (do l <- get lst;
      if (0 <? n) && (n <? l) then
        do p <- slot n;
        if non_null p then
          do c <- get cnm;
          exec (if n =? c then do p0 <- slot 0; exec mod_ (set_cur p0); mod_ (set_cnm 0) else ret tt);
          exec ilCloseImage p;
          exec set_slot n None;
          do r <- ialloc A WName 16;
          match r with
          | None => ret false
          | Some _ => do f <- get fre; exec mod_ (set_fre (n :: f)); ret true
          end
        else ret true
      else ret true) s Q.
Proof.
  intros n s Q g S HQ. apply wp_bind, wp_get. assert (HL := g_lst _ g).
  destruct ((0 <? n) && (n <? lst s)) eqn:E.
  2:{ apply wp_ret. apply HQ; auto. apply deld_same; auto. intros m [<-|[]] Hm. apply g_slot_out; [apply g|lia]. }
  destruct (g_f _ g) as [f [F1 F2]]. apply wp_bind. eapply wp_slot; [exact F1|lia|].
  assert (SN : slotv s n = f n) by (unfold slotv; rewrite F1; replace ((0 <=? n) && (n <? ssz s)) with true by lia; reflexivity).
  assert (S0 : slotv s 0 = f 0) by (unfold slotv; rewrite F1; replace ((0 <=? 0) && (0 <? ssz s)) with true by lia; reflexivity).
  destruct (f n) as [b|] eqn:Eb; cbn [non_null].
  2:{ apply wp_ret. apply HQ; auto. apply deld_same; auto. intros m [<-|[]] Hm. assumption. }
  apply wp_bind, wp_get. apply wp_bind.
  (* the new current image *)
  set (cn := if n =? cnm s then 0 else cnm s). set (cu := if n =? cnm s then f 0 else cur s).
  set (s1 := set_cnm cn (set_cur cu s)).
  assert (CUR : forall (R : unit -> st -> Prop), R tt s1 ->
     wp (if n =? cnm s then do p0 <- slot 0; exec mod_ (set_cur p0); mod_ (set_cnm 0) else ret tt) s R).
  { intros R HR. unfold s1, cn, cu in HR. destruct (n =? cnm s).
    - apply wp_bind. eapply wp_slot; [exact F1|lia|]. apply wp_bind, wp_mod. apply wp_mod. exact HR.
    - apply wp_ret. replace s with (set_cnm (cnm s) (set_cur (cur s) s)) by (destruct s; reflexivity). exact HR. }
  apply CUR. clear CUR. assert (I := g_inv _ g).
  assert (I1 : Inv none_r none_b s1) by (eapply ext_inv; [exact I| | | |]; try reflexivity).
  assert (Z1 : Siz none_b s1) by (eapply ext_siz; [apply g| |]; reflexivity).
  assert (Pb : points s1 (Root n) b) by (apply points_slotv; exact SN).
  assert (SY1 : forall c, cu = Some c -> exists b0, slotv s cn = Some b0 /\ reach s b0 c).
  { intros c Hc. unfold cu, cn in *. destruct (n =? cnm s).
    - exists c. split; [congruence|constructor].
    - destruct (S c Hc) as [b0 [P R]]. exists b0. split; [apply points_slotv; assumption|assumption]. }
  assert (CN : cn <> n) by (unfold cn; destruct (n =? cnm s) eqn:Q1; lia).
  assert (CNR : 0 <= cn < lst s) by (unfold cn; assert (Q1 := g_cnm _ g); destruct (n =? cnm s); lia).
  apply wp_bind. apply (wp_close none_r none_b); auto; [intros p k []|intros p k []|exact (I_live _ _ _ I1 _ _ (fun x => x) Pb)|].
  intros s2 F FB C. assert (HO := c_heap _ _ _ _ _ C). assert (NX := heap_only_nxt _ _ HO).
  assert (RF : forall x, In x F -> reach s b x).
  { intros x Hx. assert (R : reach s1 b x) by (apply C; assumption). eapply reach_keep; [exact R|]. reflexivity. }
  assert (TR : forall m b0 x, m <> n -> slotv s m = Some b0 -> reach s b0 x -> ~ In x F).
  { intros m b0 x Hm Hb R HF. apply Hm. eapply (forest s m n b0 b x I); eauto. }
  assert (I2 : Inv (fun r => none_r r \/ r = Root n) none_b s2).
  { apply (closed_inv none_r none_b (fun r => r = Root n) s1 s2 b F FB I1); [intros p k []|intros p k []|exact C|].
    intros r N P. exact (I_uniq _ _ _ I1 _ _ _ N (fun x => x) P Pb). }
  assert (Z2 : Siz none_b s2) by (apply (closed_siz none_r none_b s1 s2 b F FB I1 Z1); [intros p k []|intros p k []|exact C]).
  assert (E2 : stk s2 = Some (ssz s, f)) by (rewrite (heap_only_stk _ _ HO); exact F1).
  apply wp_bind. eapply wp_set_slot; [exact E2|lia|]. set (s3 := set_stk (Some (ssz s, fup f n None)) s2).
  assert (I3 : Inv none_r none_b s3).
  { apply (root_ok _ none_r none_b s2 (ssz s) f n None I2 E2); [discriminate|]. intros r [[]| ->]. auto. }
  assert (Z3 : Siz none_b s3) by (apply root_siz; assumption).
  assert (SV : forall m, slotv s3 m = if m =? n then None else slotv s m).
  { intros m. unfold slotv. cbn [s3 stk set_stk]. rewrite F1. unfold fup. destruct (m =? n); [|reflexivity]. destruct ((0 <=? m) && (m <? ssz s)); reflexivity. }
  assert (GL : ssz s3 = ssz s /\ lst s3 = lst s /\ fre s3 = fre s /\ cur s3 = cu /\ cnm s3 = cn /\ ini s3 = ini s /\ nxt s3 = nxt s).
  { destruct (heap_only_glob _ _ HO) as (H1&H2&H3&H4&H5&H6&H7). repeat split; cbn [s3 ssz lst fre cur cnm ini nxt set_stk]; assumption. }
  destruct GL as (G1&G2&G3&G4&G5&G6&G7).
  assert (LIVE : forall m b0 x, m <> n -> slotv s m = Some b0 -> reach s b0 x -> ims s3 x = ims s x /\ forall k c, bpoints s x k c -> bks s3 c = bks s c).
  { intros m b0 x Hm Hb R. assert (NF := TR m b0 x Hm Hb R). split; [exact (c_nF _ _ _ _ _ C x NF)|].
    intros k c P. apply (c_nFB _ _ _ _ _ C). intros Hc. destruct (c_bup _ _ _ _ _ C c Hc) as [q [k' [Hq Hk]]].
    destruct (I_buniq _ _ _ I x k q k' c) as [-> _]; auto. }
  assert (SY3 : forall c, cu = Some c -> exists b0, points s3 (Root cn) b0 /\ reach s3 b0 c).
  { intros c Hc. destruct (SY1 c Hc) as [b0 [P R]]. exists b0. split; [apply points_slotv; rewrite SV; replace (cn =? n) with false by lia; assumption|].
    eapply reach_keep; [exact R|]. intros p Rp _. apply (LIVE cn b0 p CN P Rp). }
  assert (CL3 : forall c, cu = Some c -> ims s3 c <> None).
  { intros c Hc. destruct (SY1 c Hc) as [b0 [P R]]. destruct (LIVE cn b0 c CN P R) as [-> _].
    eapply reach_live0; [exact I| |exact R]. apply points_slotv in P. exact (I_live _ _ _ I _ _ (fun x => x) P). }
  assert (NL3 : forall E EB, nl E EB s -> nl E EB s3).
  { intros E0 EB N. assert (N1 : nl E0 EB s1) by (eapply ext_nl; [exact N| | |]; reflexivity).
    assert (N2 := closed_nl E0 EB s1 s2 b F FB N1 C).
    apply (root_nl E0 EB E0 s2 (ssz s) f n None N2 E2 ltac:(lia)); [|auto].
    intros x Hx L. exfalso. apply L. assert (x = b) by congruence. subst x. apply C. apply C. }
  assert (CNF : In cn (fre s) -> False).
  { unfold cn. destruct (n =? cnm s); [|apply (gf_cnm _ g)]. intros Q1. apply (g_fre _ g) in Q1. lia. }
  assert (FRN : forall m, In m (fre s) -> m <> n) by (intros m Hm ->; apply (gf_free _ g) in Hm; congruence).
  (* the resulting state, whether or not the name is recorded *)
  assert (FIN : forall s' fr ok, glob (set_fre fr s3) s' -> ims s' = ims s3 -> bks s' = bks s3 -> nxt s' = nxt s3 ->
     (fr = fre s /\ (nofail A -> False) \/ fr = n :: fre s) -> (nofail A -> ok = true) -> Q ok s').
  { intros s' fr ok GG M' B' X' HF HO'. apply HQ; [|assumption].
    destruct GG as (L1&L2&L3&L4&L5&L6&L7). cbn [stk ssz lst fre cur cnm ini set_fre] in *.
    assert (SV' : forall m, slotv s' m = if m =? n then None else slotv s m).
    { intros m. unfold slotv at 1. rewrite L1. rewrite <- SV. reflexivity. }
    assert (BS : forall c, cu = Some c -> exists b0, points s' (Root cn) b0 /\ reach s' b0 c).
    { intros c Hc. destruct (SY3 c Hc) as [b0 [P R]]. exists b0. split; [unfold points in *; rewrite L1; exact P|].
      eapply reach_keep; [exact R|]. intros p _ _. rewrite M'. reflexivity. }
    split.
    - split; [split| | |].
      + eapply ext_inv; [exact I3|exact L1|rewrite M'; reflexivity|rewrite B'; reflexivity|lia].
      + eapply ext_siz; [exact Z3|rewrite M'; reflexivity|rewrite B'; reflexivity].
      + exists (fup f n None). rewrite L1, L2, L3, G1, G2. split; [reflexivity|]. intros m Hm. unfold fup. destruct (m =? n); [reflexivity|]. apply F2. assumption.
      + rewrite L2, G1. apply g.
      + rewrite L2, L3, G1, G2. apply g.
      + rewrite L3, G2. apply g.
      + rewrite L4, L3, G2. intros m Hm. destruct HF as [[-> _]| ->]; [apply (g_fre _ g); assumption|].
        destruct Hm as [<-|Hm]; [lia|apply (g_fre _ g); assumption].
      + rewrite L6, L3, G2, G5. assumption.
      + rewrite L5, G4, M'. exact CL3.
      + rewrite L7, G6. apply g.
      + rewrite L4. destruct HF as [[-> _]| ->]; [apply g|]. constructor; [|apply g]. intros Q1. exact (FRN n Q1 eq_refl).
      + rewrite L4. intros m Hm. rewrite SV'. destruct (m =? n) eqn:Em; [reflexivity|].
        apply (gf_free _ g). destruct HF as [[-> _]| ->]; [assumption|]. destruct Hm as [Hm|Hm]; [lia|assumption].
      + rewrite L6, G5, L4. destruct HF as [[-> _]| ->]; [exact CNF|]. intros [Q1|Q1]; [lia|exact (CNF Q1)].
    - intros c. rewrite L5, G4, L6, G5. apply BS.
    - intros B c. rewrite L5, G4, L6, G5. intros Hc. apply points_slotv. rewrite SV'. replace (cn =? n) with false by lia.
      unfold cu, cn in *. destruct (n =? cnm s); [congruence|]. apply points_slotv. apply B. assumption.
    - lia.
    - intros m [<-|[]] _. rewrite SV', Z.eqb_refl. reflexivity.
    - intros m Hm. rewrite SV'. destruct (m =? n) eqn:Em; [|reflexivity]. exfalso. destruct Hm as [Hm|Hm]; [apply Hm; left; lia|lia].
    - intros m b0 x Hm Hb R. rewrite M', B'. apply (LIVE m b0 x); auto. intros ->. destruct Hm as [Hm|Hm]; [apply Hm; left; reflexivity|lia].
    - lia.
    - rewrite L4. intros m Hm. destruct HF as [[-> _]| ->]; [auto|]. destruct Hm as [<-|Hm]; [|auto]. right. split; [left; reflexivity|congruence].
    - intros NF m Hm. rewrite L4. destruct HF as [[_ Q1]| ->]; [exfalso; auto|]. destruct Hm as [Hm|[[<-|[]] _]]; [right; assumption|left; reflexivity].
    - intros [[Q1|[]] _]. rewrite L6, L5, G4, G5. unfold cn, cu. replace (n =? cnm s) with true by lia. auto.
    - intros Q1. rewrite L6, L5, G4, G5. unfold cn, cu. destruct (n =? cnm s) eqn:Q2; [|auto]. exfalso. apply Q1.
      apply Z.eqb_eq in Q2. rewrite <- Q2. split; [left; reflexivity|]. split; [lia|congruence].
    - intros E0 EB N. eapply ext_nl; [exact (NL3 _ _ N)|exact L1|rewrite M'; reflexivity|rewrite B'; reflexivity]. }
  apply wp_bind. unfold ialloc, wp at 1. destruct (A WName (tk s3) 16) as [l|] eqn:EA.
  - eexists _, _. split; [reflexivity|]. apply wp_bind, wp_get. apply wp_bind, wp_mod. apply wp_ret.
    apply (FIN _ (n :: fre s)); try reflexivity; [|auto]. repeat split. change (n :: fre s3 = n :: fre s). congruence.
  - eexists _, _. split; [reflexivity|]. apply wp_ret. apply (FIN _ (fre s)); try reflexivity.
    + repeat split. change (fre s3 = fre s). congruence.
    + left. split; [reflexivity|]. intros NF. eapply NF; eauto.
    + intros NF. exfalso. eapply NF; eauto.
Qed.

Lemma wp_get_inv : forall {B C} (f : st -> B) (m : B -> M C) s Q, wp (bindM (get f) m) s Q -> wp (m (f s)) s Q.
Proof. intros B C f m s Q H. exact H. Qed.

Lemma wp_del_loop : forall l s (Q : bool -> st -> Prop), GF s -> sync s ->
  (forall ok s' l1 l2, l = l1 ++ l2 -> deld s s' l1 -> (ok = true -> l2 = []) -> (nofail A -> ok = true) -> Q ok s') ->
  wp (del_loop A l) s Q.
Proof.
  induction l as [|n l IH]; intros s Q g S HQ; cbn [del_loop].
  - apply wp_ret. apply (HQ true s [] []); auto. apply deld_same; auto; intros m [].
  - apply wp_bind, wp_get. apply wp_bind. refine (wp_get_inv lst _ s _ (wp_del1 n s _ g S _)).
    intros ok s1 d NF. destruct ok.
    + apply IH; [apply d|apply d|]. intros ok s' l1 l2 E d' H1 H2. apply (HQ ok s' (n :: l1) l2); auto.
      * cbn. congruence.
      * eapply deld_cons; eauto.
    + apply wp_ret. apply (HQ false s1 [n] l); auto. discriminate.
Qed.
Lemma wp_DeleteImages : forall l s (Q : unit -> st -> Prop), GF s -> sync s ->
  (forall s' l1 l2, l = l1 ++ l2 -> deld s s' l1 -> (nofail A -> l2 = []) -> Q tt s') ->
  wp (ilDeleteImages A l) s Q.
Proof.
  intros l s Q g S HQ. unfold ilDeleteImages. destruct (zlen l <? 1) eqn:E.
  - assert (l = []) as ->. { destruct l; [reflexivity|]. unfold zlen in E. cbn [length] in E. lia. }
    apply wp_ret. apply (HQ s [] []); auto. apply deld_same; auto; intros m [].
  - apply wp_bind, wp_get. assert (HS := g_ssz _ g). replace (ssz s =? 0) with false by lia.
    apply wp_bind. apply wp_del_loop; [assumption|assumption|]. intros ok s' l1 l2 E' d H1 H2. apply wp_ret. apply (HQ s' l1 l2); auto.
Qed.

(** ** ilIsImage, ilGetCurName *)
Lemma wp_IsImage : forall n s (Q : bool -> st -> Prop), G s -> 0 <= n ->
  Q (negb (n =? 0) && non_null (slotv s n)) s -> wp (ilIsImage n) s Q.
Proof.
  intros n s Q g Hn HQ. unfold ilIsImage. apply wp_bind, wp_get. apply wp_bind, wp_get.
  destruct (g_f _ g) as [f [F1 F2]]. rewrite F1. assert (HL := g_lst _ g). destruct ((lst s <=? n) || (n =? 0)) eqn:E.
  - apply wp_ret. destruct (n =? 0) eqn:E0; [exact HQ|]. rewrite g_slot_out in HQ; [exact HQ|assumption|lia].
  - apply wp_bind. eapply wp_slot; [exact F1|lia|]. apply wp_ret. unfold slotv in HQ. rewrite F1 in HQ.
    replace ((0 <=? n) && (n <? ssz s)) with true in HQ by lia. replace (n =? 0) with false in HQ by lia. exact HQ.
Qed.
Lemma wp_GetCurName : forall s (Q : Z -> st -> Prop), G s -> Q (match cur s with Some _ => cnm s | None => 0 end) s -> wp ilGetCurName s Q.
Proof.
  intros s Q g HQ. unfold ilGetCurName. destruct (g_f _ g) as [f [F1 F2]]. assert (HS := g_ssz _ g).
  unfold wp. rewrite F1. destruct (cur s); eexists _, _; (split; [reflexivity|]); [|exact HQ]. replace (ssz s =? 0) with false by lia. exact HQ.
Qed.

(** ** ilActiveImage and its siblings *)
Fixpoint walk (s : st) (k : lk) (n : nat) (a : Z) : option Z :=
  match n with
  | O => Some a
  | S n => match ims s a with Some i => match getl k i with Some b => walk s k n b | None => None end | None => None end
  end.
Lemma walk_reach : forall s k n a b, walk s k n a = Some b -> reach s a b.
Proof.
  induction n as [|n IH]; intros a b H; cbn in H; [injection H as <-; constructor|].
  destruct (ims s a) as [i|] eqn:Ei; [|discriminate]. destruct (getl k i) as [c|] eqn:Ec; [|discriminate].
  eapply reach_trans; [|apply IH; exact H]. eapply reach_step; [constructor|]. exists i. eauto.
Qed.
Lemma wp_follow : forall k n s a (Q : option Z -> st -> Prop), Inv none_r none_b s -> ims s a <> None -> Q (walk s k n a) s -> wp (follow k n a) s Q.
Proof.
  induction n as [|n IH]; intros s a Q I L HQ; cbn [follow walk] in *.
  - apply wp_ret. exact HQ.
  - destruct (ims s a) as [i|] eqn:Ei; [|congruence]. apply wp_bind. eapply wp_get_im; [exact Ei|].
    destruct (getl k i) as [b|] eqn:Eb.
    + apply IH; [assumption| |exact HQ]. eapply (I_live _ _ _ I (Fld a k)); [auto|]. exists i. auto.
    + apply wp_ret. exact HQ.
Qed.
Lemma wp_Active : forall k n s (Q : bool -> st -> Prop), G s ->
  (forall a, cur s = Some a -> n = 0 -> Q true s) ->
  (forall a b, cur s = Some a -> n <> 0 -> walk s k (Z.to_nat n) a = Some b -> Q true (set_cur (Some b) s)) ->
  (forall a, cur s = Some a -> n <> 0 -> walk s k (Z.to_nat n) a = None -> Q false (set_errs (IL_ILLEGAL_OPERATION :: errs s) s)) ->
  (cur s = None -> Q false (set_errs (IL_ILLEGAL_OPERATION :: errs s) s)) -> wp (ilActive k n) s Q.
Proof.
  intros k n s Q g H1 H2 H3 H4. unfold ilActive. apply wp_bind, wp_get. destruct (cur s) as [a|] eqn:Ec.
  - destruct (n =? 0) eqn:E; [apply wp_ret; apply (H1 a); auto; lia|]. apply wp_bind. apply wp_follow; [apply g|eapply (g_cur _ g); eauto|].
    destruct (walk s k (Z.to_nat n) a) as [b|] eqn:Ew.
    + apply wp_bind, wp_mod. apply wp_ret. apply (H2 a b); auto. lia.
    + apply wp_bind, wp_mod. apply wp_ret. apply (H3 a); auto. lia.
  - apply wp_bind, wp_mod. apply wp_ret. apply H4. reflexivity.
Qed.
(** the number of images behind [a] *)
Lemma wp_count : forall fuel k s a (Q : Z -> st -> Prop), Inv none_r none_b s -> ims s a <> None -> nxt s - a <= Z.of_nat fuel ->
  (forall l, chain s k a l -> Q (zlen l + 1) s) -> wp (count fuel k (Some a)) s Q.
Proof.
  induction fuel as [|fuel IH]; intros k s a Q I L HF HQ; cbn [count].
  - apply (I_im _ _ _ I) in L. lia.
  - destruct (ims s a) as [i|] eqn:Ei; [|congruence]. apply wp_bind. eapply wp_get_im; [exact Ei|]. apply wp_bind.
    destruct (getl k i) as [b|] eqn:Eb.
    + assert (P : points s (Fld a k) b) by (exists i; auto). assert (a < b) by (exact (I_ord _ _ _ I _ _ _ (fun x => x) P)).
      apply IH; [assumption|exact (I_live _ _ _ I _ _ (fun x => x) P)|lia|]. intros l Hl. apply wp_ret.
      replace (zlen l + 1 + 1) with (zlen (b :: l) + 1) by (unfold zlen; cbn [length]; lia). apply HQ. exists i. auto.
    + assert (HR : Q (0 + 1) s) by (apply (HQ []); exists i; auto). destruct fuel; cbn [count]; apply wp_ret; apply wp_ret; exact HR.
Qed.
Lemma wp_Num : forall k s (Q : Z -> st -> Prop), G s ->
  (forall a l, cur s = Some a -> chain s k a l -> Q (zlen l) s) ->
  (cur s = None -> Q 0 (set_errs (IL_ILLEGAL_OPERATION :: errs s) s)) -> wp (ilNum k) s Q.
Proof.
  intros k s Q g H1 H2. unfold ilNum. apply wp_bind, wp_get. destruct (cur s) as [a|] eqn:Ec.
  - destruct (ims s a) as [i|] eqn:Ei; [|exfalso; eapply (g_cur _ g); eauto]. apply wp_bind. eapply wp_get_im; [exact Ei|].
    apply wp_bind, wp_get. assert (I := g_inv _ g). destruct (getl k i) as [b|] eqn:Eb.
    + assert (P : points s (Fld a k) b) by (exists i; auto). assert (a < b) by (exact (I_ord _ _ _ I _ _ _ (fun x => x) P)).
      apply wp_count; [assumption|exact (I_live _ _ _ I _ _ (fun x => x) P)| |].
      { assert (0 < a < nxt s) by (apply (I_im _ _ _ I); congruence). lia. }
      intros l Hl. replace (zlen l + 1) with (zlen (b :: l)) by (unfold zlen; cbn [length]; lia). apply (H1 a); auto. exists i. auto.
    + assert (HR : Q 0 s) by (apply (H1 a []); auto; exists i; auto). destruct (Z.to_nat (nxt s)); apply wp_ret; exact HR.
  - apply wp_bind, wp_mod. apply wp_ret. apply H2. reflexivity.
Qed.
End Names.
