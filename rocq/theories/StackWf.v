(** Well-formed heaps and the effect of the primitive steps of the name machine on them. *)
From Coq Require Import ZArith List Bool Lia.
From Verif Require Import Base Enums Utility Stack StackHeap.
Import ListNotations.
Open Scope Z_scope.

(** ** Weakest preconditions *)
Definition wp {B} (m : M B) (s : st) (Q : B -> st -> Prop) : Prop := exists r s', m s = Ok (r, s') /\ Q r s'.
Lemma wp_bind : forall {B C} (m : M B) (k : B -> M C) s Q, wp m s (fun r s1 => wp (k r) s1 Q) -> wp (bindM m k) s Q.
Proof. intros B C m k s Q (r & s1 & E & r' & s2 & E' & H). exists r', s2. unfold bindM. rewrite E. cbn [bind]. auto. Qed.
Lemma wp_ret : forall {B} (r : B) s (Q : B -> st -> Prop), Q r s -> wp (ret r) s Q.
Proof. intros B r s Q H. exists r, s. auto. Qed.
Lemma wp_get : forall {B} (f : st -> B) s (Q : B -> st -> Prop), Q (f s) s -> wp (get f) s Q.
Proof. intros B f s Q H. exists (f s), s. auto. Qed.
Lemma wp_mod : forall f s (Q : unit -> st -> Prop), Q tt (f s) -> wp (mod_ f) s Q.
Proof. intros f s Q H. exists tt, (f s). auto. Qed.
Lemma wp_mono : forall {B} (m : M B) s (Q R : B -> st -> Prop), wp m s Q -> (forall r s', Q r s' -> R r s') -> wp m s R.
Proof. intros B m s Q R (r & s' & E & H) HR. exists r, s'. auto. Qed.
Lemma wp_get_im : forall a i s (Q : imb -> st -> Prop), ims s a = Some i -> Q i s -> wp (get_im a) s Q.
Proof. intros a i s Q E H. exists i, s. unfold get_im. rewrite E. auto. Qed.
Lemma wp_upd_im : forall a f i s (Q : unit -> st -> Prop), ims s a = Some i ->
  Q tt (set_ims (fup (ims s) a (Some (f i))) s) -> wp (upd_im a f) s Q.
Proof. intros a f i s Q E H. eexists tt, _. unfold upd_im. rewrite E. split; [reflexivity|assumption]. Qed.
Lemma wp_get_blk : forall b l s (Q : list Z -> st -> Prop), bks s b = Some l -> Q l s -> wp (get_blk b) s Q.
Proof. intros a i s Q E H. exists i, s. unfold get_blk. rewrite E. auto. Qed.
Lemma wp_put_blk : forall b l0 l s (Q : unit -> st -> Prop), bks s b = Some l0 ->
  Q tt (set_bks (fup (bks s) b (Some l)) s) -> wp (put_blk b l) s Q.
Proof. intros a l0 l s Q E H. eexists tt, _. unfold put_blk. rewrite E. split; [reflexivity|assumption]. Qed.

(** ** Image well-formedness *)
Definition geom (h : hdr) : Prop :=
  ilGetBpcType (hTyp h) <> 0 /\ hBpc h = ilGetBpcType (hTyp h) /\
  hW h <> 0 /\ hH h <> 0 /\ hD h <> 0 /\
  hBps h = u32 (hW h * hBpp h * hBpc h) /\ hPlane h = u32 (hBps h * hH h) /\ hSize h = u32 (hPlane h * hD h).
Record ok_im (DB : Z -> bk -> Prop) (s : st) (a : Z) (i : imb) : Prop := {
  o_anim : iAnim i = None; o_prof : iProf i = None; o_dxtc : iDxtc i = None;
  o_animsz : hAnimSize (hd i) = 0; o_profsz : hProfSize (hd i) = 0;
  o_dxtf : hDxtFmt (hd i) = IL_DXT_NO_COMP; o_dxts : hDxtSize (hd i) = 0;
  o_pals : 0 <= hPalSize (hd i);
  o_geom : geom (hd i);
  o_data : ~ DB a BData -> forall b, iData i = Some b -> exists l, bks s b = Some l /\ zlen l = hSize (hd i);
  o_pal : ~ DB a BPal -> forall b, iPal i = Some b -> exists l, bks s b = Some l /\ zlen l = hPalSize (hd i) }.
Definition Siz (DB : Z -> bk -> Prop) (s : st) : Prop := forall a i, ims s a = Some i -> ok_im DB s a i.

Lemma Siz_mono : forall (DB DB' : Z -> bk -> Prop) s, (forall p k, DB p k -> DB' p k) -> Siz DB s -> Siz DB' s.
Proof. intros DB DB' s H Z a i E. destruct (Z a i E). split; auto. Qed.

(** ** No leak: every allocation is referenced, except the images in [E] and blocks in [EB] *)
Record nl (E EB : Z -> Prop) (s : st) : Prop := {
  n_im : forall x, ims s x <> None -> E x \/ exists r, points s r x;
  n_bk : forall b, bks s b <> None -> EB b \/ exists p k, bpoints s p k b;
  n_tidy : forall x i, ims s x = Some i -> tidy i }.
Definition none (x : Z) : Prop := False.

(** ** What may have changed: images in [P], blocks in [PB] and fresh addresses *)
Record touch (P PB : Z -> Prop) (s s' : st) : Prop := {
  t_nxt : nxt s <= nxt s';
  t_im : forall x, x < nxt s -> ~ P x -> ims s' x = ims s x;
  t_bk : forall b, b < nxt s -> ~ PB b -> bks s' b = bks s b }.
Lemma touch_refl : forall P PB s, touch P PB s s.
Proof. intros. split; [lia| |]; reflexivity. Qed.
Lemma touch_trans : forall P PB P' PB' s s1 s2, touch P PB s s1 -> touch P' PB' s1 s2 ->
  (forall x, x < nxt s -> P' x -> P x) -> (forall x, x < nxt s -> PB' x -> PB x) -> touch P PB s s2.
Proof.
  intros P PB P' PB' s s1 s2 T1 T2 H HB. destruct T1, T2. split; [lia| |].
  - intros x Hx N. rewrite t_im1; [auto|lia|auto].
  - intros x Hx N. rewrite t_bk1; [auto|lia|auto].
Qed.
Lemma touch_mono : forall (P PB P' PB' : Z -> Prop) s s', touch P PB s s' -> (forall x, P x -> P' x) -> (forall x, PB x -> PB' x) -> touch P' PB' s s'.
Proof. intros P PB P' PB' s s' [] H HB. split; auto. Qed.

(** the globals of the name machine are unchanged *)
Definition glob (s s' : st) : Prop :=
  stk s' = stk s /\ ssz s' = ssz s /\ lst s' = lst s /\ fre s' = fre s /\ cur s' = cur s /\ cnm s' = cnm s /\ ini s' = ini s.
Lemma glob_refl : forall s, glob s s.
Proof. repeat split. Qed.
Lemma glob_trans : forall s s1 s2, glob s s1 -> glob s1 s2 -> glob s s2.
Proof. intros s s1 s2 (?&?&?&?&?&?&?) (?&?&?&?&?&?&?). repeat split; congruence. Qed.
Lemma heap_only_glob : forall s s', heap_only s s' -> glob s s'.
Proof. intros s s' H. rewrite H. repeat split. Qed.

(** ** Closing *)
Section Close.
Variables (D : ref -> Prop) (DB : Z -> bk -> Prop).
Lemma closed_inv : forall (R : ref -> Prop) s s' a F FB, Inv D DB s -> (forall p k, D (Fld p k) -> p < a) ->
  (forall p k, DB p k -> p < a) -> closed s s' a F FB -> (forall r, ~ D r -> points s r a -> R r) ->
  Inv (fun r => D r \/ R r) DB s'.
Proof.
  intros R s s' a F FB I HD HDB C HR.
  assert (NX := heap_only_nxt _ _ (c_heap _ _ _ _ _ C)).
  assert (GE : forall x, In x F -> a <= x) by (intros x Hx; eapply reach_ge; [exact I|exact HD|apply C; assumption]).
  assert (PT : forall r x, points s' r x -> points s r x /\ (forall p k, r = Fld p k -> ~ In p F)).
  { intros [n|p k] x H.
    - split; [|intros; discriminate]. unfold points in *. rewrite (heap_only_stk _ _ (c_heap _ _ _ _ _ C)) in H. exact H.
    - destruct H as [j [Ej Lj]]. assert (~ In p F). { intros Q. rewrite (c_F _ _ _ _ _ C p Q) in Ej. discriminate. }
      split; [|intros p' k' Q; injection Q as <- <-; assumption].
      exists j. split; [|assumption]. rewrite <- (c_nF _ _ _ _ _ C p H). assumption. }
  assert (BT : forall p k x, bpoints s' p k x -> bpoints s p k x /\ ~ In p F).
  { intros p k x [j [Ej Lj]]. assert (~ In p F). { intros Q. rewrite (c_F _ _ _ _ _ C p Q) in Ej. discriminate. }
    split; [|assumption]. exists j. split; [|assumption]. rewrite <- (c_nF _ _ _ _ _ C p H). assumption. }
  assert (BF : forall p k b, ~ DB p k -> bpoints s' p k b -> ~ In b FB).
  { intros p k b N P Q. destruct (BT _ _ _ P) as [P1 P2]. destruct (c_bup _ _ _ _ _ C b Q) as [q [k' [Hq Hb]]].
    destruct (I_buniq _ _ _ I p k q k' b) as [-> _]; auto. intros X. apply HDB in X. apply GE in Hq. lia. }
  split.
  - rewrite NX. apply I.
  - intros x Hx. rewrite NX. apply (I_im _ _ _ I). destruct (in_dec Z.eq_dec x F) as [Q|Q].
    + rewrite (c_F _ _ _ _ _ C x Q) in Hx. congruence.
    + rewrite <- (c_nF _ _ _ _ _ C x Q). assumption.
  - intros x Hx. rewrite NX. apply (I_bk _ _ _ I). destruct (in_dec Z.eq_dec x FB) as [Q|Q].
    + rewrite (c_FB _ _ _ _ _ C x Q) in Hx. congruence.
    + rewrite <- (c_nFB _ _ _ _ _ C x Q). assumption.
  - intros r x N P. destruct (PT _ _ P) as [P1 P2].
    assert (ND : ~ D r) by (intros Q; apply N; auto).
    destruct (in_dec Z.eq_dec x F) as [Q|Q]; [|rewrite (c_nF _ _ _ _ _ C x Q); exact (I_live _ _ _ I r x ND P1)].
    exfalso. destruct (c_up _ _ _ _ _ C x Q) as [->|[p [k [Hp Hk]]]]; [apply N; right; auto|].
    assert (r = Fld p k) as ->. { eapply (I_uniq _ _ _ I); eauto. intros X. apply HD in X. apply GE in Hp. lia. }
    eapply P2; eauto.
  - intros p k x N P. eapply (I_ord _ _ _ I); [intros Q; apply N; left; exact Q|]. apply PT. exact P.
  - intros r r' x N N' P P'. eapply (I_uniq _ _ _ I); [intros Q; apply N; left; exact Q|intros Q; apply N'; left; exact Q| |]; apply PT; eassumption.
  - intros p k b N P. rewrite (c_nFB _ _ _ _ _ C b (BF _ _ _ N P)). exact (I_blive _ _ _ I p k b N (proj1 (BT _ _ _ P))).
  - intros p k p' k' b N N' P P'. exact (I_buniq _ _ _ I p k p' k' b N N' (proj1 (BT _ _ _ P)) (proj1 (BT _ _ _ P'))).
Qed.
Lemma closed_siz : forall s s' a F FB, Inv D DB s -> Siz DB s -> (forall p k, D (Fld p k) -> p < a) ->
  (forall p k, DB p k -> p < a) -> closed s s' a F FB -> Siz DB s'.
Proof.
  intros s s' a F FB I Z HD HDB C x i E.
  assert (GE : forall x, In x F -> a <= x) by (intros y Hx; eapply reach_ge; [exact I|exact HD|apply C; assumption]).
  assert (Nx : ~ In x F) by (intros Q; rewrite (c_F _ _ _ _ _ C x Q) in E; discriminate).
  rewrite (c_nF _ _ _ _ _ C x Nx) in E. specialize (Z x i E).
  assert (BF : forall k b, ~ DB x k -> getb k i = Some b -> bks s' b = bks s b).
  { intros k b N G. apply (c_nFB _ _ _ _ _ C). intros Q. destruct (c_bup _ _ _ _ _ C b Q) as [q [k' [Hq Hb]]].
    destruct (I_buniq _ _ _ I x k q k' b) as [-> _]; auto.
    - intros X. apply HDB in X. apply GE in Hq. lia.
    - exists i. auto. }
  split; try apply Z.
  - intros N b Eb. rewrite (BF BData b N Eb). apply Z; assumption.
  - intros N b Eb. rewrite (BF BPal b N Eb). apply Z; assumption.
Qed.
Lemma closed_nl : forall E EB s s' a F FB, nl E EB s -> closed s s' a F FB -> nl E EB s'.
Proof.
  intros E EB s s' a F FB N C.
  destruct (c_full _ _ _ _ _ C) as [C1 C2]. { intros x i _ Ei. eapply n_tidy; eauto. }
  assert (LV : forall x, ims s' x <> None -> ~ In x F) by (intros x H Q; apply H, C; assumption).
  split.
  - intros x Hx. assert (Nx := LV x Hx). rewrite (c_nF _ _ _ _ _ C x Nx) in Hx.
    destruct (n_im _ _ _ N x Hx) as [Q|[[n|p k] Q]]; [left; assumption| |].
    + right. exists (Root n). unfold points in *. rewrite (heap_only_stk _ _ (c_heap _ _ _ _ _ C)). assumption.
    + right. exists (Fld p k). destruct (in_dec Z.eq_dec p F) as [HF|HF]; [exfalso; eauto|].
      destruct Q as [j [Ej Lj]]. exists j. split; [|assumption]. rewrite (c_nF _ _ _ _ _ C p HF). assumption.
  - intros b Hb. assert (Nb : ~ In b FB) by (intros Q; apply Hb, C; assumption).
    rewrite (c_nFB _ _ _ _ _ C b Nb) in Hb.
    destruct (n_bk _ _ _ N b Hb) as [Q|[p [k Q]]]; [left; assumption|]. right.
    exists p, k. destruct (in_dec Z.eq_dec p F) as [HF|HF]; [exfalso; eauto|].
    destruct Q as [j [Ej Lj]]. exists j. split; [|assumption]. rewrite (c_nF _ _ _ _ _ C p HF). assumption.
  - intros x i Ei. assert (Nx : ~ In x F) by (apply LV; congruence). rewrite (c_nF _ _ _ _ _ C x Nx) in Ei. eapply n_tidy; eauto.
Qed.
Lemma closed_touch : forall s s' a F FB, closed s s' a F FB -> touch (fun x => In x F) (fun b => In b FB) s s'.
Proof.
  intros s s' a F FB C. split.
  - rewrite (heap_only_nxt _ _ (c_heap _ _ _ _ _ C)). lia.
  - intros x _ N. apply C. assumption.
  - intros x _ N. apply C. assumption.
Qed.
Lemma wp_close : forall s a (Q : unit -> st -> Prop), Inv D DB s -> (forall p k, D (Fld p k) -> p < a) ->
  (forall p k, DB p k -> p < a) -> ims s a <> None ->
  (forall s' F FB, closed s s' a F FB -> Q tt s') -> wp (ilCloseImage (Some a)) s Q.
Proof.
  intros s a Q I HD HDB L H. destruct (close_ok (Z.to_nat (nxt s)) D DB s a I HD HDB L) as (s' & F & FB & E & C).
  { apply (I_im _ _ _ I) in L. lia. }
  exists tt, s'. split; [exact E|]. eapply H; eauto.
Qed.
End Close.

(** ** Updating a structure *)
Section Update.
Variables (D D' : ref -> Prop) (DB DB' : Z -> bk -> Prop).

Lemma points_fup : forall s a j r x, points (set_ims (fup (ims s) a (Some j)) s) r x ->
  (exists k, r = Fld a k /\ getl k j = Some x) \/ (points s r x /\ forall k, r <> Fld a k).
Proof.
  intros s a j [n|p k] x H.
  - right. split; [exact H|discriminate].
  - destruct H as [i [Ei Li]]. cbn [ims set_ims] in Ei. destruct (Z.eq_dec p a) as [->|N].
    + rewrite fup_eq in Ei. injection Ei as <-. left. exists k. auto.
    + rewrite fup_neq in Ei by assumption. right. split; [exists i; auto|congruence].
Qed.
Lemma bpoints_fup : forall s a j p k x, bpoints (set_ims (fup (ims s) a (Some j)) s) p k x ->
  (p = a /\ getb k j = Some x) \/ (bpoints s p k x /\ p <> a).
Proof.
  intros s a j p k x [i [Ei Li]]. cbn [ims set_ims] in Ei. destruct (Z.eq_dec p a) as [->|N].
  - rewrite fup_eq in Ei. injection Ei as <-. auto.
  - rewrite fup_neq in Ei by assumption. right. split; [exists i; auto|assumption].
Qed.

(** links and blocks of [a] kept, removed, or (link [k0], block [b0]) attached *)
Lemma upd_ok : forall s a i j, Inv D DB s -> ims s a = Some i ->
  (forall k x, ~ D' (Fld a k) -> getl k j = Some x -> (getl k i = Some x /\ ~ D (Fld a k)) \/
      (ims s x <> None /\ a < x /\ (forall r, ~ D r -> ~ points s r x) /\ forall k', getl k' j = Some x -> k' = k)) ->
  (forall k x, ~ DB' a k -> getb k j = Some x -> (getb k i = Some x /\ ~ DB a k) \/
      (bks s x <> None /\ (forall p k', ~ DB p k' -> ~ bpoints s p k' x) /\ forall k', getb k' j = Some x -> k' = k)) ->
  (forall r, D r -> D' r \/ exists k, r = Fld a k) ->
  (forall p k, DB p k -> DB' p k \/ p = a) ->
  Inv D' DB' (set_ims (fup (ims s) a (Some j)) s).
Proof.
  intros s a i j I Ei HL HB HD HDB.
  assert (PK : forall k x, ~ D' (Fld a k) -> getl k j = Some x -> ims s x <> None /\ a < x /\
      forall r, ~ D r -> points s r x -> r = Fld a k /\ getl k i = Some x).
  { intros k x NK G. destruct (HL k x NK G) as [[Q1 Q2]|[Q1 [Q2 [Q3 _]]]].
    - assert (P : points s (Fld a k) x) by (exists i; auto). split; [exact (I_live _ _ _ I _ _ Q2 P)|].
      split; [exact (I_ord _ _ _ I _ _ _ Q2 P)|]. intros r N Pr. split; [|assumption]. exact (I_uniq _ _ _ I _ _ _ N Q2 Pr P).
    - split; [assumption|]. split; [assumption|]. intros r N Pr. exfalso. eapply Q3; eauto. }
  assert (BK : forall k x, ~ DB' a k -> getb k j = Some x -> bks s x <> None /\
      forall p k', ~ DB p k' -> bpoints s p k' x -> p = a /\ k' = k /\ getb k i = Some x).
  { intros k x NK G. destruct (HB k x NK G) as [[Q1 Q2]|[Q1 [Q3 _]]].
    - assert (P : bpoints s a k x) by (exists i; auto). split; [exact (I_blive _ _ _ I _ _ _ Q2 P)|].
      intros p k' N Pr. destruct (I_buniq _ _ _ I _ _ _ _ _ N Q2 Pr P) as [-> ->]. auto.
    - split; [assumption|]. intros p k' N Pr. exfalso. eapply Q3; eauto. }
  assert (ND : forall r, ~ D' r -> (forall k, r <> Fld a k) -> ~ D r).
  { intros r N Nk Q. destruct (HD r Q) as [|[k ->]]; [auto|]. eapply Nk; eauto. }
  assert (NDB : forall p k, ~ DB' p k -> p <> a -> ~ DB p k).
  { intros p k N Nk Q. destruct (HDB p k Q) as [| ->]; auto. }
  split; cbn [nxt ims bks set_ims].
  - apply I.
  - intros x Hx. apply (I_im _ _ _ I). destruct (Z.eq_dec x a) as [->|N]; [congruence|]. rewrite fup_neq in Hx by assumption. assumption.
  - apply (I_bk _ _ _ I).
  - intros r x N P. assert (ims s x <> None).
    { destruct (points_fup _ _ _ _ _ P) as [[k [-> G]]|[Q Nk]]; [apply (PK k x N G)|]. apply (I_live _ _ _ I r x); auto. }
    unfold fup. destruct (x =? a); [discriminate|assumption].
  - intros p k x N P. destruct (points_fup _ _ _ _ _ P) as [[k' [Q G]]|[Q Nk]].
    + injection Q as -> ->. apply (PK _ _ N G).
    + apply (I_ord _ _ _ I p k x); auto.
  - intros r r' x N N' P P'. destruct (points_fup _ _ _ _ _ P) as [[k [-> G]]|[Q Nk]];
      destruct (points_fup _ _ _ _ _ P') as [[k' [-> G']]|[Q' Nk']].
    + f_equal. destruct (HL k x N G) as [[Q1 Q2]|[_ [_ [_ Q]]]]; [|symmetry; auto].
      destruct (HL k' x N' G') as [[Q1' Q2']|[_ [_ [_ Q]]]]; [|auto].
      assert (E : Fld a k = Fld a k'); [|injection E; auto]. apply (I_uniq _ _ _ I _ _ x); auto; exists i; auto.
    + exfalso. destruct (PK k x N G) as [_ [_ R]]. destruct (R r' (ND _ N' Nk') Q') as [-> _]. eapply Nk'; reflexivity.
    + exfalso. destruct (PK k' x N' G') as [_ [_ R]]. destruct (R r (ND _ N Nk) Q) as [-> _]. eapply Nk; reflexivity.
    + apply (I_uniq _ _ _ I _ _ x); auto.
  - intros p k x N P. destruct (bpoints_fup _ _ _ _ _ _ P) as [[-> G]|[Q Nk]]; [apply (BK k x N G)|]. apply (I_blive _ _ _ I p k); auto.
  - intros p k p' k' x N N' P P'. destruct (bpoints_fup _ _ _ _ _ _ P) as [[-> G]|[Q Nk]];
      destruct (bpoints_fup _ _ _ _ _ _ P') as [[-> G']|[Q' Nk']].
    + split; [reflexivity|]. destruct (HB k x N G) as [[Q1 Q2]|[_ [_ Q]]]; [|symmetry; auto].
      destruct (HB k' x N' G') as [[Q1' Q2']|[_ [_ Q]]]; [|auto].
      destruct (I_buniq _ _ _ I a k a k' x) as [_ R]; auto; exists i; auto.
    + exfalso. destruct (BK k x N G) as [_ R]. destruct (R p' k' (NDB _ _ N' Nk') Q') as [-> _]. congruence.
    + exfalso. destruct (BK k' x N' G') as [_ R]. destruct (R p k (NDB _ _ N Nk) Q) as [-> _]. congruence.
    + apply (I_buniq _ _ _ I _ _ _ _ x); auto.
Qed.
End Update.

(** no leak under an update: what [a] no longer references is dead *)
Lemma nl_upd : forall (E EB E' EB' : Z -> Prop) s a i j, nl E EB s -> ims s a = Some i ->
  (forall k x, getl k i = Some x -> ims s x <> None -> E' x \/ exists k', getl k' j = Some x) ->
  (forall k x, getb k i = Some x -> bks s x <> None -> EB' x \/ exists k', getb k' j = Some x) ->
  (forall x, E x -> E' x \/ exists k, getl k j = Some x) -> (forall x, EB x -> EB' x \/ exists k, getb k j = Some x) -> tidy j ->
  nl E' EB' (set_ims (fup (ims s) a (Some j)) s).
Proof.
  intros E EB E' EB' s a i j N Ei HL HB HE HEB T. split; cbn [ims bks set_ims].
  - intros x Hx. assert (Lx : ims s x <> None).
    { destruct (Z.eq_dec x a) as [->|Nx]; [congruence|]. rewrite fup_neq in Hx by assumption. assumption. }
    destruct (n_im _ _ _ N x Lx) as [Q|[[n|p k] Q]].
    + destruct (HE x Q) as [|[k G]]; [auto|]. right. exists (Fld a k), j. cbn [ims set_ims]. rewrite fup_eq. auto.
    + right. exists (Root n). exact Q.
    + destruct (Z.eq_dec p a) as [->|Np].
      * destruct Q as [i' [Ei' G]]. assert (i' = i) by congruence. subst i'. destruct (HL k x G Lx) as [|[k' G']]; [auto|].
        right. exists (Fld a k'), j. cbn [ims set_ims]. rewrite fup_eq. auto.
      * right. exists (Fld p k). destruct Q as [i' [Ei' G]]. exists i'. cbn [ims set_ims]. rewrite fup_neq by assumption. auto.
  - intros x Lx. destruct (n_bk _ _ _ N x Lx) as [Q|[p [k Q]]].
    + destruct (HEB x Q) as [|[k G]]; [auto|]. right. exists a, k, j. cbn [ims set_ims]. rewrite fup_eq. auto.
    + destruct (Z.eq_dec p a) as [->|Np].
      * destruct Q as [i' [Ei' G]]. assert (i' = i) by congruence. subst i'. destruct (HB k x G Lx) as [|[k' G']]; [auto|].
        right. exists a, k', j. cbn [ims set_ims]. rewrite fup_eq. auto.
      * right. exists p, k. destruct Q as [i' [Ei' G]]. exists i'. cbn [ims set_ims]. rewrite fup_neq by assumption. auto.
  - intros x i' Ei'. destruct (Z.eq_dec x a) as [->|Nx].
    + rewrite fup_eq in Ei'. congruence.
    + rewrite fup_neq in Ei' by assumption. eapply n_tidy; eauto.
Qed.

(** ** Phases: sub-images and blocks of [a] are released one after the other, the pointers to them
    stay behind *)
Definition inl (a : Z) (K : list lk) (r : ref) : Prop := exists k, r = Fld a k /\ In k K.
Definition inb_ (a : Z) (K : list bk) (p : Z) (k : bk) : Prop := p = a /\ In k K.
Definition ownb (s : st) (a b : Z) : Prop := exists p k, reach s a p /\ bpoints s p k b.

Record ph (s0 s : st) (a : Z) (i : imb) (K : list lk) (KB : list bk) : Prop := {
  p_i0 : ims s0 a = Some i;
  p_i : ims s a = Some i;
  p_heap : heap_only s0 s;
  p_inv : Inv (inl a K) (inb_ a KB) s;
  p_siz : Siz (inb_ a KB) s;
  p_im : forall x, ims s x = ims s0 x \/ (ims s x = None /\ reach s0 a x);
  p_bk : forall b, bks s b = bks s0 b \/ (bks s b = None /\ ownb s0 a b);
  p_K : forall k x, In k K -> getl k i = Some x -> ims s x = None;
  p_KB : forall k x, In k KB -> getb k i = Some x -> bks s x = None;
  p_nl : forall E EB, nl E EB s0 -> nl E EB s }.

Lemma ph_start : forall s a i, Inv none_r none_b s -> Siz none_b s -> ims s a = Some i -> ph s s a i [] [].
Proof.
  intros s a i I Z Ei. split; auto.
  - unfold heap_only. destruct s; reflexivity.
  - eapply Inv_mono; [| |exact I]; intros; contradiction.
  - intros x j Ej. specialize (Z x j Ej). destruct Z. split; auto.
  - intros k x [].
  - intros k x [].
Qed.
Lemma ph_points : forall s0 s a i K KB p k x, ph s0 s a i K KB -> points s (Fld p k) x -> points s0 (Fld p k) x.
Proof.
  intros s0 s a i K KB p k x P [j [Ej G]]. exists j. split; [|assumption].
  destruct (p_im _ _ _ _ _ _ P p) as [Q|[Q _]]; congruence.
Qed.
Lemma ph_bpoints : forall s0 s a i K KB p k x, ph s0 s a i K KB -> bpoints s p k x -> bpoints s0 p k x.
Proof.
  intros s0 s a i K KB p k x P [j [Ej G]]. exists j. split; [|assumption].
  destruct (p_im _ _ _ _ _ _ P p) as [Q|[Q _]]; congruence.
Qed.
Lemma ph_reach : forall s0 s a i K KB p x, ph s0 s a i K KB -> reach s p x -> reach s0 p x.
Proof. intros s0 s a i K KB p x P H. induction H; [constructor|]. eapply reach_step; [eassumption|]. eapply ph_points; eauto. Qed.

Lemma ph_close : forall s0 s a i K KB k (Q : unit -> st -> Prop), ph s0 s a i K KB -> ~ In k K ->
  (forall s', ph s0 s' a i (k :: K) KB -> Q tt s') -> wp (ilCloseImage (getl k i)) s Q.
Proof.
  intros s0 s a i K KB k Q P NK HQ. destruct (getl k i) as [y|] eqn:Ey.
  2:{ exists tt, s. split. { unfold ilCloseImage. destruct (Z.to_nat (nxt s)); reflexivity. }
      apply HQ. destruct P. split; auto.
      - eapply Inv_mono; [| |exact p_inv0]; [|auto]. intros r [k' [-> H]]. exists k'. split; [reflexivity|right; assumption].
      - intros k' x [<-|H] G; [congruence|]. eauto. }
  assert (I := p_inv _ _ _ _ _ _ P).
  assert (ND : ~ inl a K (Fld a k)) by (intros [k' [E H]]; injection E as <-; contradiction).
  assert (Py : points s (Fld a k) y) by (exists i; split; [apply P|assumption]).
  assert (ay : a < y) by (exact (I_ord _ _ _ I _ _ _ ND Py)).
  assert (HD : forall p k, inl a K (Fld p k) -> p < y) by (intros p k' [k'' [E _]]; injection E as -> _; assumption).
  assert (HDB : forall p k, inb_ a KB p k -> p < y) by (intros p k' [-> _]; assumption).
  apply (wp_close (inl a K) (inb_ a KB)); auto; [exact (I_live _ _ _ I _ _ ND Py)|].
  intros s' F FB C. apply HQ.
  assert (GE : forall x, In x F -> y <= x) by (intros x Hx; eapply reach_ge; [exact I|exact HD|apply C; assumption]).
  assert (RC : forall x, reach s y x -> reach s0 a x).
  { intros x Hx. eapply reach_trans; [|eapply ph_reach; eauto]. eapply reach_step; [constructor|]. eapply ph_points; eauto. }
  split.
  - apply P.
  - rewrite (c_nF _ _ _ _ _ C a); [apply P|]. intros H. apply GE in H. lia.
  - eapply heap_only_trans; [apply P|apply C].
  - eapply Inv_mono; [| |exact (closed_inv _ _ (fun r => r = Fld a k) s s' y F FB I HD HDB C (fun r N Pr => I_uniq _ _ _ I _ _ _ N ND Pr Py))].
    + intros r [[k' [-> H]]| ->]; eexists; (split; [reflexivity|]); [right; assumption|left; reflexivity].
    + auto.
  - exact (closed_siz _ _ _ _ _ _ _ I (p_siz _ _ _ _ _ _ P) HD HDB C).
  - intros x. destruct (in_dec Z.eq_dec x F) as [H|H].
    + right. split; [apply C; assumption|]. apply RC. apply C. assumption.
    + rewrite (c_nF _ _ _ _ _ C x H). apply P.
  - intros b. destruct (in_dec Z.eq_dec b FB) as [H|H].
    + right. split; [apply C; assumption|]. destruct (c_bup _ _ _ _ _ C b H) as [p [k' [Hp Hb]]].
      exists p, k'. split; [apply RC, C; assumption|]. eapply ph_bpoints; eauto.
    + rewrite (c_nFB _ _ _ _ _ C b H). apply P.
  - intros k' x [<-|H] G.
    + assert (x = y) by congruence. subst x. apply C. apply C.
    + destruct (in_dec Z.eq_dec x F) as [HF|HF]; [apply C; assumption|]. rewrite (c_nF _ _ _ _ _ C x HF). eapply p_K; eauto.
  - intros k' x H G. destruct (in_dec Z.eq_dec x FB) as [HF|HF]; [apply C; assumption|]. rewrite (c_nFB _ _ _ _ _ C x HF). eapply p_KB; eauto.
  - intros E EB N. eapply closed_nl; [|exact C]. apply P. assumption.
Qed.

Lemma ph_free : forall s0 s a i K KB k (Q : unit -> st -> Prop), ph s0 s a i K KB -> ~ In k KB ->
  (forall s', ph s0 s' a i K (k :: KB) -> Q tt s') -> wp (free_blk (getb k i)) s Q.
Proof.
  intros s0 s a i K KB k Q P NK HQ. destruct (getb k i) as [y|] eqn:Ey.
  2:{ exists tt, s. split; [reflexivity|].
      apply HQ. destruct P. split; auto.
      - eapply Inv_mono; [| |exact p_inv0]; [auto|]. intros p k' [-> H]. split; [reflexivity|right; assumption].
      - intros x j Ej. specialize (p_siz0 x j Ej). destruct p_siz0. split; auto.
        + intros N. apply o_data0. intros [-> H]. apply N. split; [reflexivity|right; assumption].
        + intros N. apply o_pal0. intros [-> H]. apply N. split; [reflexivity|right; assumption].
      - intros k' x [<-|H] G; [congruence|]. eauto. }
  assert (I := p_inv _ _ _ _ _ _ P).
  assert (ND : ~ inb_ a KB a k) by (intros [_ H]; contradiction).
  assert (Py : bpoints s a k y) by (exists i; split; [apply P|assumption]).
  assert (Ly := I_blive _ _ _ I _ _ _ ND Py).
  unfold wp, free_blk. destruct (bks s y) as [ly|] eqn:Ely; [|congruence].
  eexists tt, _. split; [reflexivity|]. apply HQ.
  assert (NE : forall p k' x, ~ inb_ a (k :: KB) p k' -> bpoints s p k' x -> x <> y).
  { intros p k' x N H ->. destruct (I_buniq _ _ _ I p k' a k y) as [-> ->]; auto.
    - intros [-> R]. apply N. split; [reflexivity|right; assumption].
    - apply N. split; [reflexivity|left; reflexivity]. }
  assert (NN : forall p k', ~ inb_ a (k :: KB) p k' -> ~ inb_ a KB p k').
  { intros p k' N [-> R]. apply N. split; [reflexivity|right; assumption]. }
  split; cbn [ims bks set_bks].
  - apply P.
  - apply P.
  - eapply heap_only_trans; [apply P|reflexivity].
  - split; cbn [ims bks set_bks nxt]; try apply I.
    + intros b Hb. apply (I_bk _ _ _ I). unfold fup in Hb. destruct (b =? y); congruence.
    + intros p k' b N H. change (bpoints s p k' b) in H. rewrite fup_neq by (eapply NE; eauto). apply (I_blive _ _ _ I p k'); auto.
    + intros p k' p' k'' b N N' H H'. apply (I_buniq _ _ _ I p k' p' k'' b); auto.
  - intros x j Ej. cbn [ims set_bks] in Ej. assert (Z := p_siz _ _ _ _ _ _ P x j Ej). split; try apply Z; cbn [bks set_bks].
    + intros N b Eb. rewrite fup_neq. apply Z; auto. apply (NE x BData b N). exists j. auto.
    + intros N b Eb. rewrite fup_neq. apply Z; auto. apply (NE x BPal b N). exists j. auto.
  - apply P.
  - intros b. unfold fup. destruct (b =? y) eqn:Eb; [|apply P]. apply Z.eqb_eq in Eb. subst b. right. split; [reflexivity|].
    exists a, k. split; [constructor|]. eapply ph_bpoints; eauto.
  - apply P.
  - intros k' x [<-|H] G; unfold fup; destruct (x =? y) eqn:Ex; try reflexivity.
    + apply Z.eqb_neq in Ex. congruence.
    + eapply p_KB; eauto.
  - intros E EB N. apply (p_nl _ _ _ _ _ _ P) in N. destruct N. split; cbn [ims bks set_bks]; auto.
    intros b Hb. apply n_bk0. unfold fup in Hb. destruct (b =? y); congruence.
Qed.

(** ** Allocation *)
Definition oracle_ok (A : oracle) : Prop := forall t n l, 0 <= n -> A WBytes t n = Some l -> zlen l = n.
Definition nofail (A : oracle) : Prop := forall w t n, A w t n <> None.

Lemma ext_inv : forall D DB s s', Inv D DB s -> stk s' = stk s -> (forall x, ims s' x = ims s x) -> (forall b, bks s' b = bks s b) ->
  nxt s <= nxt s' -> Inv D DB s'.
Proof.
  intros D DB s s' I E1 E2 E3 E4.
  assert (P : forall r x, points s' r x -> points s r x).
  { intros [n|p k] x; unfold points; [rewrite E1; auto|rewrite E2; auto]. }
  assert (B : forall p k x, bpoints s' p k x -> bpoints s p k x) by (intros p k x; unfold bpoints; rewrite E2; auto).
  split.
  - assert (0 < nxt s) by apply I. lia.
  - intros a. rewrite E2. intros H. apply (I_im _ _ _ I) in H. lia.
  - intros a. rewrite E3. intros H. apply (I_bk _ _ _ I) in H. lia.
  - intros r a N H. rewrite E2. eapply I_live; eauto.
  - intros p k a N H. eapply I_ord; eauto.
  - intros r r' a N N' H H'. eapply I_uniq; eauto.
  - intros p k b N H. rewrite E3. eapply I_blive; eauto.
  - intros p k p' k' b N N' H H'. eapply (I_buniq _ _ _ I p k p' k' b); eauto.
Qed.
Lemma ext_siz : forall DB s s', Siz DB s -> (forall x, ims s' x = ims s x) -> (forall b, bks s' b = bks s b) -> Siz DB s'.
Proof.
  intros DB s s' Z E2 E3 a i Ei. rewrite E2 in Ei. destruct (Z a i Ei). split; auto.
  - intros N b. rewrite E3. auto.
  - intros N b. rewrite E3. auto.
Qed.
Lemma ext_nl : forall E EB s s', nl E EB s -> stk s' = stk s -> (forall x, ims s' x = ims s x) -> (forall b, bks s' b = bks s b) -> nl E EB s'.
Proof.
  intros E EB s s' N E1 E2 E3.
  assert (P : forall r x, points s r x -> points s' r x).
  { intros [n|p k] x; unfold points; [rewrite E1; auto|rewrite E2; auto]. }
  assert (B : forall p k x, bpoints s p k x -> bpoints s' p k x) by (intros p k x; unfold bpoints; rewrite E2; auto).
  split.
  - intros x Hx. rewrite E2 in Hx. destruct (n_im _ _ _ N x Hx) as [|[r H]]; eauto.
  - intros x Hx. rewrite E3 in Hx. destruct (n_bk _ _ _ N x Hx) as [|[p [k H]]]; eauto 6.
  - intros x i. rewrite E2. apply N.
Qed.

(** writing into a block *)
Lemma put_inv : forall D DB s b l l', Inv D DB s -> bks s b = Some l -> Inv D DB (set_bks (fup (bks s) b (Some l')) s).
Proof.
  intros D DB s b l l' I E. split; cbn [nxt ims bks set_bks]; try apply I.
  - intros x Hx. apply (I_bk _ _ _ I). unfold fup in Hx. destruct (x =? b) eqn:Ex; [|assumption]. apply Z.eqb_eq in Ex. congruence.
  - intros p k x N H. unfold fup. destruct (x =? b); [discriminate|]. exact (I_blive _ _ _ I p k x N H).
Qed.
Lemma put_siz : forall DB s b l l', Siz DB s -> bks s b = Some l -> zlen l' = zlen l -> Siz DB (set_bks (fup (bks s) b (Some l')) s).
Proof.
  intros DB s b l l' Z E L a i Ei. change (ims s a = Some i) in Ei. destruct (Z a i Ei). split; auto; cbn [bks set_bks].
  - intros N x Ex. destruct (o_data0 N x Ex) as [m [M1 M2]]. unfold fup. destruct (x =? b) eqn:Exb; [|eauto].
    exists l'. split; [reflexivity|]. apply Z.eqb_eq in Exb. congruence.
  - intros N x Ex. destruct (o_pal0 N x Ex) as [m [M1 M2]]. unfold fup. destruct (x =? b) eqn:Exb; [|eauto].
    exists l'. split; [reflexivity|]. apply Z.eqb_eq in Exb. congruence.
Qed.
Lemma put_nl : forall E EB s b l l', nl E EB s -> bks s b = Some l -> nl E EB (set_bks (fup (bks s) b (Some l')) s).
Proof.
  intros E EB s b l l' N Eb. split; cbn [ims bks set_bks]; try apply N.
  intros x Hx. apply (n_bk _ _ _ N). unfold fup in Hx. destruct (x =? b) eqn:Ex; [|assumption]. apply Z.eqb_eq in Ex. congruence.
Qed.

(** a fresh block *)
Definition add_blk (l : list Z) (s : st) : st := set_nxt (nxt s + 1) (set_bks (fup (bks s) (nxt s) (Some l)) s).
Definition tick (s : st) : st := set_tk (tk s + 1) s.
Definition oom (s : st) : st := set_errs (IL_OUT_OF_MEMORY :: errs s) (tick s).
Lemma fresh_im : forall D DB s, Inv D DB s -> ims s (nxt s) = None.
Proof. intros D DB s I. destruct (ims s (nxt s)) eqn:E; [|reflexivity]. assert (0 < nxt s < nxt s) by (apply I; congruence). lia. Qed.
Lemma fresh_bk : forall D DB s, Inv D DB s -> bks s (nxt s) = None.
Proof. intros D DB s I. destruct (bks s (nxt s)) eqn:E; [|reflexivity]. assert (0 < nxt s < nxt s) by (apply (I_bk _ _ _ I); congruence). lia. Qed.
Lemma add_blk_inv : forall D DB s l, Inv D DB s -> Inv D DB (add_blk l s).
Proof.
  intros D DB s l I. split; cbn [nxt ims bks set_nxt set_bks add_blk]; unfold add_blk; cbn [nxt ims bks set_nxt set_bks].
  - assert (0 < nxt s) by apply I. lia.
  - intros a H. apply (I_im _ _ _ I) in H. lia.
  - intros a H. unfold fup in H. destruct (a =? nxt s) eqn:E.
    + assert (0 < nxt s) by apply I. lia.
    + apply (I_bk _ _ _ I) in H. lia.
  - apply (I_live _ _ _ I).
  - apply (I_ord _ _ _ I).
  - apply (I_uniq _ _ _ I).
  - intros p k b N H. unfold fup. destruct (b =? nxt s); [discriminate|]. eapply (I_blive _ _ _ I); eauto.
  - apply (I_buniq _ _ _ I).
Qed.
Lemma add_blk_siz : forall D DB s l, Inv D DB s -> Siz DB s -> Siz DB (add_blk l s).
Proof.
  intros D DB s l I Z a i Ei. change (ims s a = Some i) in Ei. destruct (Z a i Ei). split; auto; unfold add_blk; cbn [bks set_nxt set_bks].
  - intros N b Eb. destruct (o_data0 N b Eb) as [l' [H1 H2]]. exists l'. split; [|assumption]. rewrite fup_neq; [assumption|].
    intros ->. rewrite (fresh_bk _ _ _ I) in H1. discriminate.
  - intros N b Eb. destruct (o_pal0 N b Eb) as [l' [H1 H2]]. exists l'. split; [|assumption]. rewrite fup_neq; [assumption|].
    intros ->. rewrite (fresh_bk _ _ _ I) in H1. discriminate.
Qed.
Lemma add_blk_nl : forall E EB s l, nl E EB s -> nl E (fun b => EB b \/ b = nxt s) (add_blk l s).
Proof.
  intros E EB s l N. split.
  - apply (n_im _ _ _ N).
  - intros b Hb. unfold add_blk in Hb. cbn [bks set_nxt set_bks] in Hb. unfold fup in Hb. destruct (b =? nxt s) eqn:Eb; [left; right; lia|].
    destruct (n_bk _ _ _ N b Hb) as [|[p [k H]]]; [left; left; assumption|right; exists p, k; exact H].
  - apply (n_tidy _ _ _ N).
Qed.

Lemma wp_copy_in : forall b d src n s (Q : unit -> st -> Prop), bks s b = Some d -> zlen d = n -> n <= zlen src -> 0 <= n ->
  Q tt (set_bks (fup (bks s) b (Some (slice src 0 n))) s) -> wp (copy_in b src n) s Q.
Proof.
  intros b d src n s Q E Ld Ls Hn HQ. unfold copy_in. apply wp_bind. eapply wp_get_blk; [exact E|].
  rewrite memcpy_ok by lia. eapply wp_put_blk; [exact E|].
  replace (splice d 0 (slice src 0 n)) with (slice src 0 n); [exact HQ|].
  apply list_ext.
  - rewrite zlen_splice; rewrite ?zlen_slice; lia.
  - intros k Hk. rewrite zlen_slice in Hk by lia. rewrite geti_splice by (rewrite ?zlen_slice; lia).
    rewrite zlen_slice by lia. replace ((0 <=? k) && (k <? 0 + n)) with true by lia. f_equal. lia.
Qed.
Lemma wp_free_im : forall s a i (Q : unit -> st -> Prop), ims s a = Some i -> Q tt (set_ims (fup (ims s) a None) s) -> wp (free_im a) s Q.
Proof. intros s a i Q E H. eexists tt, _. unfold free_im. rewrite E. split; [reflexivity|assumption]. Qed.

Section Alloc.
Variable A : oracle.
Hypothesis OK : oracle_ok A.

Lemma wp_new_blk : forall n s (Q : option Z -> st -> Prop), 0 <= n ->
  (A WBytes (tk s) n = None -> Q None (oom s)) ->
  (forall l, A WBytes (tk s) n = Some l -> zlen l = n -> Q (Some (nxt s)) (add_blk l (tick s))) ->
  wp (new_blk A n) s Q.
Proof.
  intros n s Q Hn H1 H2. unfold new_blk, ialloc. apply wp_bind. unfold wp. destruct (A WBytes (tk s) n) as [l|] eqn:E.
  - eexists _, _. split; [reflexivity|]. eexists _, _. split; [reflexivity|]. apply H2; [reflexivity|]. eapply OK; eauto.
  - eexists _, _. split; [reflexivity|]. eexists _, _. split; [reflexivity|]. apply H1. reflexivity.
Qed.

(** the header ilInitImage writes *)
Definition one (n : Z) : Z := if n =? 0 then 1 else n.
Definition init_hdr (W H D bpp fmt typ : Z) : hdr :=
  let bpc := ilGetBpcType typ in
  let bps := u32 (one W * bpp * bpc) in
  let plane := u32 (bps * one H) in
  mkHdr (one W) (one H) (one D) bpp bpc bps (u32 (plane * one D)) plane fmt typ IL_ORIGIN_LOWER_LEFT 0 IL_PAL_NONE 0 0 0 0 0 0 IL_DXT_NO_COMP 0.
Lemma init_geom : forall W H D bpp fmt typ, ilGetBpcType typ <> 0 -> geom (init_hdr W H D bpp fmt typ).
Proof.
  intros W H D bpp fmt typ N. unfold geom, init_hdr. cbn [hTyp hBpc hW hH hD hBps hBpp hPlane hSize].
  assert (Q : forall n, one n <> 0) by (intros n; unfold one; destruct (n =? 0) eqn:E; lia).
  repeat split; auto.
Qed.

Lemma wp_init : forall D DB a i W H Dp bpp fmt typ data s (Q : bool -> st -> Prop),
  Inv D DB s -> (forall x j, x <> a -> ims s x = Some j -> ok_im DB s x j) -> ims s a = Some i ->
  ilGetBpcType typ <> 0 -> (forall src, data = Some src -> hSize (init_hdr W H Dp bpp fmt typ) <= zlen src) ->
  (forall ok s', 
     Inv (fun r => D r /\ forall k, r <> Fld a k) (fun p k => DB p k /\ p <> a) s' ->
     Siz (fun p k => DB p k /\ p <> a) s' -> glob s s' -> nxt s <= nxt s' ->
     (forall x, x <> a -> ims s' x = ims s x) -> (forall b, b <> nxt s -> bks s' b = bks s b) ->
     ims s' a = Some (mkImb (init_hdr W H Dp bpp fmt typ) None None None None (if ok : bool then Some (nxt s) else None) None None None None) ->
     (ok = true -> exists l, bks s' (nxt s) = Some l /\ zlen l = hSize (init_hdr W H Dp bpp fmt typ) /\
        forall src, data = Some src -> l = slice src 0 (hSize (init_hdr W H Dp bpp fmt typ))) ->
     (ok = false -> bks s' (nxt s) = None /\ errs s' = IL_OUT_OF_MEMORY :: errs s) ->
     (nofail A -> ok = true) ->
     (forall (E EB E' EB' : BinNums.Z -> Prop), nl E EB s -> (forall k x, getl k i = Some x -> ims s x <> None -> E' x) ->
        (forall k x, getb k i = Some x -> bks s x <> None -> EB' x) ->
        (forall x, E x -> E' x) -> (forall x, EB x -> EB' x) -> nl E' EB' s') ->
     Q ok s') ->
  wp (ilInitImage A a W H Dp bpp fmt typ data) s Q.
Proof.
  intros D DB a i W H Dp bpp fmt typ data s Q I Z Ei NT HS HQ. unfold ilInitImage.
  replace (ilGetBpcType typ =? 0) with false by (symmetry; apply Z.eqb_neq; assumption).
  set (h := init_hdr W H Dp bpp fmt typ) in *.
  change (mkHdr (if W =? 0 then 1 else W) _ _ _ _ _ _ _ _ _ _ _ _ _ _ _ _ _ _ _ _) with h.
  change (u32 (u32 (u32 ((if W =? 0 then 1 else W) * bpp * ilGetBpcType typ) * (if H =? 0 then 1 else H)) * (if Dp =? 0 then 1 else Dp))) with (hSize h).
  assert (Gh : geom h) by (apply init_geom; assumption).
  assert (Rs : 0 <= hSize h). { unfold h, init_hdr. cbn [hSize]. unfold u32. apply Z.mod_pos_bound. lia. }
  set (i0 := mkImb h None None None None None None None None None).
  set (s1 := set_ims (fup (ims s) a (Some i0)) s).
  set (D' := fun r => D r /\ forall k, r <> Fld a k). set (DB' := fun p (k : bk) => DB p k /\ p <> a).
  assert (I1 : Inv D' DB' s1).
  { apply (upd_ok D D' DB DB' s a i i0 I Ei).
    - intros [] x _; discriminate.
    - intros [] x _; discriminate.
    - intros [n|p k] Hr; [left; split; [assumption|discriminate]|]. destruct (Z.eq_dec p a) as [->|N]; [right; eauto|]. left. split; [assumption|congruence].
    - intros p k Hr. destruct (Z.eq_dec p a) as [->|N]; [right; auto|left; split; assumption]. }
  assert (Z1 : Siz DB' s1).
  { intros x j Ej. unfold s1 in Ej. cbn [ims set_ims] in Ej. destruct (Z.eq_dec x a) as [->|N].
    - rewrite fup_eq in Ej. injection Ej as <-. split; cbn; auto; try lia; intros; discriminate.
    - rewrite fup_neq in Ej by assumption. destruct (Z x j N Ej). split; auto.
      + intros Q1. apply o_data0. intros Q2. apply Q1. split; assumption.
      + intros Q1. apply o_pal0. intros Q2. apply Q1. split; assumption. }
  assert (N1 : forall (E EB E' EB' : BinNums.Z -> Prop), nl E EB s -> (forall k x, getl k i = Some x -> ims s x <> None -> E' x) ->
        (forall k x, getb k i = Some x -> bks s x <> None -> EB' x) ->
        (forall x, E x -> E' x) -> (forall x, EB x -> EB' x) -> nl E' EB' s1).
  { intros E EB E' EB' N H1 H2 H3 H4. apply (nl_upd E EB E' EB' s a i i0 N Ei); auto.
    - intros k x G L. left. eauto.
    - intros k x G L. left. eauto.
    - split; [intros Q1; exfalso; apply Q1; reflexivity|].
      split; [intros Q1; exfalso; apply Q1; reflexivity|].
      split; [intros Q1; exfalso; apply Q1; reflexivity|].
      split; [intros Q1; exfalso; apply Q1; reflexivity|]. left. reflexivity. }
  apply wp_bind. eapply wp_upd_im; [exact Ei|]. fold s1. apply wp_bind. apply wp_new_blk; [cbn; unfold u32; lia| |].
  - intros EA. apply wp_ret. apply HQ; try discriminate.
    + eapply ext_inv; [exact I1| | | |]; try reflexivity.
    + eapply ext_siz; [exact Z1| |]; reflexivity.
    + repeat split.
    + apply Z.le_refl.
    + intros x N. cbn. apply fup_neq. assumption.
    + reflexivity.
    + cbn. apply fup_eq.
    + intros _. split; [exact (fresh_bk _ _ _ I)|reflexivity].
    + intros NF. exfalso. eapply NF; eauto.
    + intros E EB E' EB' N H1 H2 H3 H4. eapply ext_nl; [exact (N1 E EB E' EB' N H1 H2 H3 H4)| | |]; reflexivity.
  - intros l EA Ll. set (s2 := add_blk l (tick s1)).
    assert (I2 : Inv D' DB' s2). { apply add_blk_inv. eapply ext_inv; [exact I1| | | |]; try reflexivity. }
    assert (Z2 : Siz DB' s2). { eapply add_blk_siz. eapply ext_inv; [exact I1| | | |]; try reflexivity. eapply ext_siz; [exact Z1| |]; reflexivity. }
    assert (E2 : ims s2 a = Some i0) by (cbn; apply fup_eq).
    change (nxt s1) with (nxt s).
    set (i3 := putb BData (Some (nxt s)) i0). set (s3 := set_ims (fup (ims s2) a (Some i3)) s2).
    assert (B2 : bks s2 (nxt s) = Some l) by (cbn; apply fup_eq).
    assert (I3 : Inv D' DB' s3).
    { apply (upd_ok D' D' DB' DB' s2 a i0 i3 I2 E2); auto.
      - intros [] x _; try discriminate. intros E. injection E as <-. right. split; [congruence|]. split.
        + intros p k N BP. change (bpoints s1 p k (nxt s)) in BP. apply (I_blive _ _ _ I1 p k _ N BP). exact (fresh_bk _ _ _ I1).
        + intros k' Q1. destruct k'; cbn in Q1; congruence. }
    assert (FR : forall x j k, ims s2 x = Some j -> ~ DB' x k -> getb k j <> Some (nxt s)).
    { intros x j k Ej N G. change (ims s1 x = Some j) in Ej. apply (I_blive _ _ _ I1 x k (nxt s) N); [exists j; auto|].
      exact (fresh_bk _ _ _ I1). }
    assert (N3 : forall (E EB E' EB' : BinNums.Z -> Prop), nl E EB s -> (forall k x, getl k i = Some x -> ims s x <> None -> E' x) ->
        (forall k x, getb k i = Some x -> bks s x <> None -> EB' x) ->
        (forall x, E x -> E' x) -> (forall x, EB x -> EB' x) -> nl E' EB' s3).
    { intros E EB E' EB' N H1 H2 H3 H4. assert (N2 := add_blk_nl E' EB' (tick s1) l (ext_nl _ _ s1 (tick s1) (N1 E EB E' EB' N H1 H2 H3 H4) eq_refl (fun _ => eq_refl) (fun _ => eq_refl))).
      eapply (nl_upd _ _ E' EB' s2 a i0 i3 N2 E2); auto.
      - intros [] x; discriminate.
      - intros [] x; discriminate.
      - intros b [Hb|Hb]; [left; assumption|]. right. exists BData. cbn. subst b. reflexivity.
      - split; [intros Q1; exfalso; apply Q1; reflexivity|].
        split; [intros Q1; exfalso; apply Q1; reflexivity|].
        split; [intros Q1; exfalso; apply Q1; reflexivity|].
        split; [intros Q1; exfalso; apply Q1; reflexivity|]. left. reflexivity. }
    assert (FIN : forall l' s4, zlen l' = hSize h -> (forall src, data = Some src -> l' = slice src 0 (hSize h)) ->
       glob s3 s4 -> nxt s4 = nxt s3 -> ims s4 = ims s3 -> (forall b, bks s4 b = if b =? nxt s then Some l' else bks s3 b) ->
       Q true s4).
    { intros l' s4 Hl Hs G4 X4 M4 B4.
      assert (PT : forall r x, points s4 r x -> points s3 r x).
      { intros [n|p k] x; unfold points; [|rewrite M4; auto]. destruct G4 as [-> _]. auto. }
      assert (BT : forall p k x, bpoints s4 p k x -> bpoints s3 p k x) by (intros p k x; unfold bpoints; rewrite M4; auto).
      apply HQ; try discriminate.
      - split.
        + rewrite X4. apply I3.
        + rewrite X4, M4. apply (I_im _ _ _ I3).
        + rewrite X4. intros b Hb. rewrite B4 in Hb. destruct (b =? nxt s) eqn:Eb; [|apply (I_bk _ _ _ I3); assumption].
          change (nxt s3) with (nxt s + 1). assert (0 < nxt s) by apply I. lia.
        + rewrite M4. intros r x N P. exact (I_live _ _ _ I3 r x N (PT _ _ P)).
        + intros p k x N P. exact (I_ord _ _ _ I3 p k x N (PT _ _ P)).
        + intros r r' x N N' P P'. exact (I_uniq _ _ _ I3 r r' x N N' (PT _ _ P) (PT _ _ P')).
        + intros p k b N BP. rewrite B4. destruct (b =? nxt s); [discriminate|]. exact (I_blive _ _ _ I3 p k b N (BT _ _ _ BP)).
        + intros p k p' k' b N N' P P'. exact (I_buniq _ _ _ I3 p k p' k' b N N' (BT _ _ _ P) (BT _ _ _ P')).
      - intros x j Ej. rewrite M4 in Ej. unfold s3 in Ej. cbn [ims set_ims] in Ej. destruct (Z.eq_dec x a) as [->|N].
        + rewrite fup_eq in Ej. injection Ej as <-. split; cbn; auto; try lia; try (intros; discriminate).
          intros _ b E. injection E as <-. rewrite B4, Z.eqb_refl. eauto.
        + rewrite fup_neq in Ej by assumption. destruct (Z2 x j Ej). split; auto.
          * intros Q1 b Eb. rewrite B4. destruct (b =? nxt s) eqn:Nb; [|apply o_data0; assumption].
            exfalso. apply (FR x j BData Ej Q1). cbn. rewrite Eb. f_equal. lia.
          * intros Q1 b Eb. rewrite B4. destruct (b =? nxt s) eqn:Nb; [|apply o_pal0; assumption].
            exfalso. apply (FR x j BPal Ej Q1). cbn. rewrite Eb. f_equal. lia.
      - eapply glob_trans; [|exact G4]. repeat split.
      - rewrite X4. change (nxt s <= nxt s + 1). lia.
      - intros x N. rewrite M4. cbn. rewrite fup_neq by assumption. apply fup_neq. assumption.
      - intros b N. rewrite B4. apply Z.eqb_neq in N. rewrite N. cbn. unfold fup. rewrite N. reflexivity.
      - rewrite M4. cbn. apply fup_eq.
      - intros _. exists l'. rewrite B4, Z.eqb_refl. auto.
      - reflexivity.
      - intros E EB E' EB' N H1 H2 H3 H4. specialize (N3 E EB E' EB' N H1 H2 H3 H4).
        assert (N4 : nl E' EB' (set_bks (bks s4) s3)).
        { destruct N3. split; cbn [ims bks set_bks]; auto.
          intros b Hb. apply n_bk0. rewrite B4 in Hb. destruct (b =? nxt s) eqn:Eb; [|assumption].
          apply Z.eqb_eq in Eb. subst b. change (bks s2 (nxt s) <> None). congruence. }
        eapply ext_nl; [exact N4|apply G4|intros x; cbn; rewrite M4; reflexivity|reflexivity]. }
    apply wp_bind. eapply wp_upd_im; [exact E2|]. fold s3. destruct data as [src|].
    + apply wp_bind. eapply wp_copy_in; [exact B2|exact Ll|apply HS; reflexivity|exact Rs|].
      apply wp_ret. apply (FIN (slice src 0 (hSize h))); try reflexivity.
      * apply zlen_slice; [lia|lia|]. specialize (HS src eq_refl). lia.
      * intros src' E. congruence.
      * repeat split.
    + apply wp_ret. apply (FIN l); try reflexivity; [exact Ll|discriminate|repeat split|].
      intros b. change (bks s3 b) with (bks s2 b). destruct (b =? nxt s) eqn:Eb; [|reflexivity].
      apply Z.eqb_eq in Eb. subst b. exact B2.
Qed.

(** the image ilNewImage(1, 1, 1, 1, 1) creates *)
Definition hdr1 : hdr := init_hdr 1 1 1 1 (ilGetFormatBpp 1) (ilGetTypeBpc 1).
Definition im1 (b : Z) : imb := mkImb hdr1 None None None None (Some b) None None None None.

Lemma wp_new1 : forall D DB s (Q : option Z -> st -> Prop), Inv D DB s -> Siz DB s ->
  (forall s', Inv D DB s' -> Siz DB s' -> glob s s' -> nxt s <= nxt s' ->
     (forall x, ims s' x = ims s x) -> (forall b, bks s' b = bks s b) ->
     errs s' = IL_OUT_OF_MEMORY :: errs s -> (nofail A -> False) -> (forall E EB, nl E EB s -> nl E EB s') -> Q None s') ->
  (forall s', Inv D DB s' -> Siz DB s' -> glob s s' -> nxt s < nxt s' ->
     (forall x, x <> nxt s -> ims s' x = ims s x) -> (forall b, b <> nxt s + 1 -> bks s' b = bks s b) ->
     ims s' (nxt s) = Some (im1 (nxt s + 1)) -> (exists l, bks s' (nxt s + 1) = Some l /\ zlen l = 1) ->
     (forall r, ~ D r -> ~ points s' r (nxt s)) ->
     (forall E EB, nl E EB s -> nl (fun x => E x \/ x = nxt s) EB s') -> Q (Some (nxt s)) s') ->
  wp (new1 A) s Q.
Proof.
  intros D DB s Q I Z HN HS. unfold new1, ilNewImage. cbn [Z.eqb Z.ltb orb Z.compare Pos.compare Pos.compare_cont Pos.eqb].
  apply wp_bind. unfold ialloc. unfold wp at 1. destruct (A WStruct (tk s) sizeof_ILimage) as [l|] eqn:EA.
  2:{ eexists _, _. split; [reflexivity|]. apply wp_ret. apply HN; try reflexivity.
      - eapply ext_inv; [exact I| | | |]; try reflexivity.
      - eapply ext_siz; [exact Z| |]; reflexivity.
      - repeat split.
      - intros NF. eapply NF; eauto.
      - intros E EB N. eapply ext_nl; [exact N| | |]; reflexivity. }
  eexists _, _. split; [reflexivity|].
  replace (ilGetBpcType (ilGetTypeBpc 1) =? 0) with false by reflexivity.
  set (a := nxt s). set (st1 := set_tk (tk s + 1) s).
  apply wp_bind, wp_get. change (nxt st1) with a. apply wp_bind, wp_mod.
  set (i0 := mkImb (mkHdr 0 0 0 0 0 0 0 0 0 0 0 0 0 0 0 0 0 0 0 0 0) None None None None None None None None None).
  set (s1 := set_nxt (a + 1) (set_ims (fup (ims st1) a (Some i0)) st1)).
  assert (FI := fresh_im _ _ _ I). assert (FB := fresh_bk _ _ _ I). fold a in FI, FB. assert (P0 : 0 < a) by apply I.
  assert (L0 : forall k, getl k i0 = None) by (intros []; reflexivity).
  assert (B0 : forall k, getb k i0 = None) by (intros []; reflexivity).
  assert (PT : forall r x, points s1 r x -> points s r x).
  { intros [n|p k] x H; [exact H|]. destruct H as [j [Ej G]]. cbn in Ej. unfold fup in Ej. destruct (p =? a) eqn:Ep.
    - injection Ej as <-. rewrite L0 in G. discriminate.
    - exists j. auto. }
  assert (BT : forall p k x, bpoints s1 p k x -> bpoints s p k x).
  { intros p k x [j [Ej G]]. cbn in Ej. unfold fup in Ej. destruct (p =? a) eqn:Ep.
    - injection Ej as <-. rewrite B0 in G. discriminate.
    - exists j. auto. }
  assert (I1 : Inv D DB s1).
  { split; cbn [nxt ims bks s1 set_nxt set_ims]; unfold s1; cbn [nxt ims bks set_nxt set_ims].
    - lia.
    - intros x Hx. unfold fup in Hx. destruct (x =? a) eqn:E; [lia|]. apply (I_im _ _ _ I) in Hx. lia.
    - intros x Hx. apply (I_bk _ _ _ I) in Hx. lia.
    - intros r x N H. unfold fup. destruct (x =? a); [discriminate|]. exact (I_live _ _ _ I r x N (PT _ _ H)).
    - intros p k x N H. exact (I_ord _ _ _ I p k x N (PT _ _ H)).
    - intros r r' x N N' H H'. exact (I_uniq _ _ _ I r r' x N N' (PT _ _ H) (PT _ _ H')).
    - intros p k x N H. exact (I_blive _ _ _ I p k x N (BT _ _ _ H)).
    - intros p k p' k' x N N' H H'. exact (I_buniq _ _ _ I p k p' k' x N N' (BT _ _ _ H) (BT _ _ _ H')). }
  assert (Ei : ims s1 a = Some i0) by (cbn; apply fup_eq).
  assert (N1 : forall E EB, nl E EB s -> nl (fun x => E x \/ x = a) EB s1).
  { intros E EB N. split.
    - intros x Hx. cbn in Hx. unfold fup in Hx. destruct (x =? a) eqn:E'; [left; right; lia|].
      destruct (n_im _ _ _ N x Hx) as [|[[n|p k] H]]; [left; auto|right; exists (Root n); exact H|].
      right. exists (Fld p k). destruct H as [j [Ej G]]. exists j. split; [|assumption]. cbn. rewrite fup_neq; [exact Ej|]. intros ->. congruence.
    - intros x Hx. destruct (n_bk _ _ _ N x Hx) as [|[p [k H]]]; [left; auto|]. right. exists p, k.
      destruct H as [j [Ej G]]. exists j. split; [|assumption]. cbn. rewrite fup_neq; [exact Ej|]. intros ->. congruence.
    - intros x j Ej. cbn in Ej. unfold fup in Ej. destruct (x =? a); [|eapply n_tidy; eauto].
      injection Ej as <-. split; [intros Q1; exfalso; apply Q1; reflexivity|].
        split; [intros Q1; exfalso; apply Q1; reflexivity|].
        split; [intros Q1; exfalso; apply Q1; reflexivity|].
        split; [intros Q1; exfalso; apply Q1; reflexivity|]. left. reflexivity. }
  apply wp_bind. apply (wp_init D DB a i0); auto.
  { intros x j N Ej. cbn in Ej. rewrite fup_neq in Ej by assumption. destruct (Z x j Ej). split; auto. }
  { discriminate. }
  { discriminate. }
  intros ok s2 I2 Z2 G2 X2 M2 B2 E2 T2 F2 NF2 N2.
  assert (I2' : Inv D DB s2) by (eapply Inv_mono; [| |exact I2]; [intros r [H _]; exact H|intros p k [H _]; exact H]).
  assert (Z2' : Siz DB s2).
  { intros x j Ej. destruct (Z2 x j Ej). split; auto; [intros N; apply o_data0|intros N; apply o_pal0]; intros [H _]; exact (N H). }
  assert (G02 : glob s s2) by (eapply glob_trans; [|exact G2]; repeat split).
  change (nxt s1) with (a + 1) in *.
  destruct ok.
  - apply wp_ret. apply HS; auto; fold a.
    + lia.
    + intros x N. rewrite M2 by assumption. cbn. apply fup_neq. assumption.
    + destruct (T2 eq_refl) as [l' [T3 [T4 _]]]. eauto.
    + intros r N H. destruct r as [n|p k].
      * assert (points s (Root n) a) as H'. { unfold points in *. destruct G02 as [<- _]. exact H. }
        apply (I_live _ _ _ I _ _ N H'). exact FI.
      * destruct H as [j [Ej G]]. destruct (Z.eq_dec p a) as [->|Np].
        -- rewrite E2 in Ej. injection Ej as <-. destruct k; discriminate.
        -- rewrite M2 in Ej by assumption. cbn in Ej. rewrite fup_neq in Ej by assumption.
           apply (I_live _ _ _ I (Fld p k) a N); [exists j; auto|exact FI].
    + intros E EB N. eapply N2; [apply N1; exact N|intros k x; rewrite L0; discriminate|intros k x; rewrite B0; discriminate|auto|auto].
  - destruct (F2 eq_refl) as [F3 F4]. apply wp_bind. eapply wp_get_im; [exact E2|]. apply wp_bind.
    unfold wp at 1. eexists tt, s2. split; [reflexivity|]. apply wp_bind. eapply wp_free_im; [exact E2|]. apply wp_ret.
    assert (PT2 : forall x, ims (set_ims (fup (ims s2) a None) s2) x = ims s x).
    { intros x. cbn. unfold fup. destruct (x =? a) eqn:Ex; [assert (x = a) by lia; congruence|].
      rewrite M2 by lia. cbn. apply fup_neq. lia. }
    assert (BT2 : forall b, bks (set_ims (fup (ims s2) a None) s2) b = bks s b).
    { intros b. cbn. destruct (Z.eq_dec b (a + 1)) as [->|Nb]; [|apply B2; assumption]. rewrite F3.
      destruct (bks s (a + 1)) eqn:Eb; [|reflexivity]. assert (0 < a + 1 < nxt s) by (apply (I_bk _ _ _ I); congruence). unfold a in *. lia. }
    apply HN; auto.
    + eapply ext_inv; [exact I|apply G02|exact PT2|exact BT2|cbn; lia].
    + eapply ext_siz; [exact Z|exact PT2|exact BT2].
    + cbn. unfold a in X2. lia.
    + intros NF. specialize (NF2 NF). discriminate.
    + intros E EB N. eapply ext_nl; [exact N|apply G02|exact PT2|exact BT2].
Qed.
End Alloc.
