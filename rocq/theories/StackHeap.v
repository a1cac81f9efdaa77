(** The heap of the name machine: references, the ownership invariant, and the effect of
    ilCloseImage on a well-formed heap. *)
From Coq Require Import ZArith List Bool Lia.
From Verif Require Import Base Enums Utility Stack.
Import ListNotations.
Open Scope Z_scope.

(** ** References *)
Inductive ref := Root (n : Z) | Fld (p : Z) (k : lk).

(** [points s r a]: the reference [r] holds the address [a] *)
Definition points (s : st) (r : ref) (a : Z) : Prop :=
  match r with
  | Root n => match stk s with Some (c, f) => 0 <= n < c /\ f n = Some a | None => False end
  | Fld p k => exists i, ims s p = Some i /\ getl k i = Some a
  end.
Definition bpoints (s : st) (p : Z) (k : bk) (b : Z) : Prop := exists i, ims s p = Some i /\ getb k i = Some b.

Definition lk_eq_dec : forall a b : lk, {a = b} + {a <> b}.
Proof. decide equality. Defined.
Definition bk_eq_dec : forall a b : bk, {a = b} + {a <> b}.
Proof. decide equality. Defined.

Lemma getl_putl_eq : forall k v i, getl k (putl k v i) = v.
Proof. intros [] v i; reflexivity. Qed.
Lemma getl_putl_neq : forall k k' v i, k <> k' -> getl k (putl k' v i) = getl k i.
Proof. intros [] [] v i H; try reflexivity; congruence. Qed.
Lemma getb_putl : forall k k' v i, getb k (putl k' v i) = getb k i.
Proof. intros [] [] v i; reflexivity. Qed.
Lemma hd_putl : forall k v i, hd (putl k v i) = hd i.
Proof. intros [] v i; reflexivity. Qed.
Lemma getb_putb_eq : forall k v i, getb k (putb k v i) = v.
Proof. intros [] v i; reflexivity. Qed.
Lemma getb_putb_neq : forall k k' v i, k <> k' -> getb k (putb k' v i) = getb k i.
Proof. intros [] [] v i H; try reflexivity; congruence. Qed.
Lemma getl_putb : forall k k' v i, getl k (putb k' v i) = getl k i.
Proof. intros [] [] v i; reflexivity. Qed.
Lemma hd_putb : forall k v i, hd (putb k v i) = hd i.
Proof. intros [] v i; reflexivity. Qed.
Lemma getl_puth : forall k h i, getl k (puth h i) = getl k i.
Proof. intros [] h i; reflexivity. Qed.
Lemma getb_puth : forall k h i, getb k (puth h i) = getb k i.
Proof. intros [] h i; reflexivity. Qed.

Lemma fup_eq : forall {B} (f : Z -> B) a v, fup f a v a = v.
Proof. intros. unfold fup. rewrite Z.eqb_refl. reflexivity. Qed.
Lemma fup_neq : forall {B} (f : Z -> B) a v x, x <> a -> fup f a v x = f x.
Proof. intros B f a v x H. unfold fup. apply Z.eqb_neq in H. rewrite H. reflexivity. Qed.

(** ** The invariant.  [D] and [DB]: references currently allowed to dangle. *)
Record Inv (D : ref -> Prop) (DB : Z -> bk -> Prop) (s : st) : Prop := {
  I_pos : 0 < nxt s;
  I_im : forall a, ims s a <> None -> 0 < a < nxt s;
  I_bk : forall b, bks s b <> None -> 0 < b < nxt s;
  I_live : forall r a, ~ D r -> points s r a -> ims s a <> None;
  I_ord : forall p k a, ~ D (Fld p k) -> points s (Fld p k) a -> p < a;
  I_uniq : forall r r' a, ~ D r -> ~ D r' -> points s r a -> points s r' a -> r = r';
  I_blive : forall p k b, ~ DB p k -> bpoints s p k b -> bks s b <> None;
  I_buniq : forall p k p' k' b, ~ DB p k -> ~ DB p' k' -> bpoints s p k b -> bpoints s p' k' b -> p = p' /\ k = k' }.

Definition none_r (r : ref) : Prop := False.
Definition none_b (p : Z) (k : bk) : Prop := False.

Lemma Inv_mono : forall (D D' : ref -> Prop) (DB DB' : Z -> bk -> Prop) s, (forall r, D r -> D' r) ->
  (forall p k, DB p k -> DB' p k) -> Inv D DB s -> Inv D' DB' s.
Proof.
  intros D D' DB DB' s H1 H2 I. split; try apply I.
  - intros r a N. apply (I_live _ _ _ I). auto.
  - intros p k a N. apply (I_ord _ _ _ I). auto.
  - intros r r' a N N'. apply (I_uniq _ _ _ I); auto.
  - intros p k b N. apply (I_blive _ _ _ I). auto.
  - intros p k p' k' b N N'. apply (I_buniq _ _ _ I); auto.
Qed.

(** ** Reachability through links *)
Inductive reach (s : st) (a : Z) : Z -> Prop :=
| reach_refl : reach s a a
| reach_step : forall p k x, reach s a p -> points s (Fld p k) x -> reach s a x.

Lemma reach_trans : forall s a b c, reach s a b -> reach s b c -> reach s a c.
Proof. intros s a b c H1 H2. induction H2; [assumption|]. eapply reach_step; eauto. Qed.

(** what ilCloseImage releases completely *)
Definition tidy (i : imb) : Prop :=
  (iPal i <> None -> 0 < hPalSize (hd i) /\ hPalType (hd i) <> IL_PAL_NONE) /\
  (iAnim i <> None -> hAnimSize (hd i) <> 0) /\
  (iProf i <> None -> hProfSize (hd i) <> 0) /\
  (iDxtc i <> None -> hDxtFmt (hd i) <> IL_DXT_NO_COMP) /\
  (iFaces i = None \/ iMips i = None).
Definition tidy_below (s : st) (a : Z) : Prop := forall x i, reach s a x -> ims s x = Some i -> tidy i.

(** Only the heap changed *)
Definition heap_only (s s' : st) : Prop := s' = set_ims (ims s') (set_bks (bks s') s).
Lemma heap_only_trans : forall s s1 s2, heap_only s s1 -> heap_only s1 s2 -> heap_only s s2.
Proof. unfold heap_only. intros s s1 s2 H1 H2. rewrite H2, H1 at 1. reflexivity. Qed.
Lemma heap_only_ims : forall s f, heap_only s (set_ims f s).
Proof. intros s f. reflexivity. Qed.
Lemma heap_only_bks : forall s f, heap_only s (set_bks f s).
Proof. intros s f. reflexivity. Qed.
Lemma heap_only_nxt : forall s s', heap_only s s' -> nxt s' = nxt s.
Proof. intros s s' H. rewrite H. reflexivity. Qed.
Lemma heap_only_stk : forall s s', heap_only s s' -> stk s' = stk s.
Proof. intros s s' H. rewrite H. reflexivity. Qed.

(** ** Specification of closing: the images [F] and blocks [FB] released *)
Record closed (s s' : st) (a : Z) (F FB : list Z) : Prop := {
  c_heap : heap_only s s';
  c_F : forall x, In x F -> ims s' x = None;
  c_nF : forall x, ~ In x F -> ims s' x = ims s x;
  c_FB : forall b, In b FB -> bks s' b = None;
  c_nFB : forall b, ~ In b FB -> bks s' b = bks s b;
  c_a : In a F;
  c_reach : forall x, In x F -> reach s a x;
  c_up : forall x, In x F -> x = a \/ exists p k, In p F /\ points s (Fld p k) x;
  c_bup : forall b, In b FB -> exists p k, In p F /\ bpoints s p k b;
  c_full : tidy_below s a ->
    (forall p k x, In p F -> points s (Fld p k) x -> In x F) /\
    (forall p k b, In p F -> bpoints s p k b -> In b FB) }.

(** while image [a] is being closed: descendants [F] and blocks [FB] are gone, [a] itself has
    structure [i1] instead of [i] *)
Record mid (s s1 : st) (a : Z) (K : list lk) (F FB : list Z) (i i1 : imb) : Prop := {
  m_heap : heap_only s s1;
  m_i : ims s a = Some i;
  m_i1 : ims s1 a = Some i1;
  m_na : ~ In a F;
  m_F : forall x, In x F -> ims s1 x = None;
  m_nF : forall x, x <> a -> ~ In x F -> ims s1 x = ims s x;
  m_FB : forall b, In b FB -> bks s1 b = None;
  m_nFB : forall b, ~ In b FB -> bks s1 b = bks s b;
  m_hd : hd i1 = hd i;
  m_l : forall k, getl k i1 = getl k i \/ getl k i1 = None;
  m_b : forall k, getb k i1 = getb k i \/ getb k i1 = None;
  m_bl : forall k b, getb k i1 = Some b -> ~ In b FB;
  m_reach : forall x, In x F -> reach s a x;
  m_up : forall x, In x F -> (exists k, In k K /\ getl k i = Some x) \/ exists p k, In p F /\ points s (Fld p k) x;
  m_bup : forall b, In b FB -> (exists k, getb k i = Some b) \/ exists p k, In p F /\ bpoints s p k b;
  m_full : tidy_below s a ->
    (forall p k x, In p F -> points s (Fld p k) x -> In x F) /\
    (forall p k b, In p F -> bpoints s p k b -> In b FB) }.

Lemma mid_start : forall s a i, ims s a = Some i -> mid s s a [] [] [] i i.
Proof.
  intros s a i H. split; try easy; auto.
  - unfold heap_only. destruct s; reflexivity.
Qed.

Lemma points_mid : forall s s1 a K F FB i i1 p k x, mid s s1 a K F FB i i1 ->
  points s1 (Fld p k) x -> points s (Fld p k) x /\ ~ In p F.
Proof.
  intros s s1 a K F FB i i1 p k x M [j [E L]]. destruct (Z.eq_dec p a) as [->|N].
  - rewrite (m_i1 _ _ _ _ _ _ _ _ M) in E. injection E as <-. split; [|apply M].
    exists i. split; [apply M|]. destruct (m_l _ _ _ _ _ _ _ _ M k); congruence.
  - assert (~ In p F). { intros HF. rewrite (m_F _ _ _ _ _ _ _ _ M p HF) in E. discriminate. }
    split; [|assumption]. exists j. split; [|assumption].
    rewrite <- (m_nF _ _ _ _ _ _ _ _ M p N H). assumption.
Qed.
Lemma bpoints_mid : forall s s1 a K F FB i i1 p k x, mid s s1 a K F FB i i1 ->
  bpoints s1 p k x -> bpoints s p k x /\ ~ In p F.
Proof.
  intros s s1 a K F FB i i1 p k x M [j [E L]]. destruct (Z.eq_dec p a) as [->|N].
  - rewrite (m_i1 _ _ _ _ _ _ _ _ M) in E. injection E as <-. split; [|apply M].
    exists i. split; [apply M|]. destruct (m_b _ _ _ _ _ _ _ _ M k); congruence.
  - assert (~ In p F). { intros HF. rewrite (m_F _ _ _ _ _ _ _ _ M p HF) in E. discriminate. }
    split; [|assumption]. exists j. split; [|assumption].
    rewrite <- (m_nF _ _ _ _ _ _ _ _ M p N H). assumption.
Qed.
Lemma root_mid : forall s s1 a K F FB i i1 n x, mid s s1 a K F FB i i1 -> points s1 (Root n) x -> points s (Root n) x.
Proof. intros s s1 a K F FB i i1 n x M. unfold points. rewrite (heap_only_stk _ _ (m_heap _ _ _ _ _ _ _ _ M)). auto. Qed.
Lemma any_mid : forall s s1 a K F FB i i1 r x, mid s s1 a K F FB i i1 -> points s1 r x -> points s r x.
Proof. intros s s1 a K F FB i i1 [n|p k] x M H; [eapply root_mid|eapply points_mid]; eauto. Qed.
Lemma reach_mid : forall s s1 a K F FB i i1 y x, mid s s1 a K F FB i i1 -> reach s1 y x -> reach s y x.
Proof.
  intros s s1 a K F FB i i1 y x M H. induction H; [constructor|].
  eapply reach_step; [eassumption|]. eapply points_mid; eauto.
Qed.

Section Closing.
Variables (D : ref -> Prop) (DB : Z -> bk -> Prop).

(** reachable addresses are above the start *)
Lemma reach_ge : forall s a x, Inv D DB s -> (forall p k, D (Fld p k) -> p < a) -> reach s a x -> a <= x.
Proof.
  intros s a x I HD H. induction H; [lia|].
  assert (~ D (Fld p k)) as N by (intros Q; apply HD in Q; lia).
  assert (p < x) by (eapply I_ord; eauto). lia.
Qed.

(** the invariant survives, except for links of [a] to what is gone *)
Lemma mid_inv : forall s s1 a K F FB i i1, Inv D DB s -> (forall p k, D (Fld p k) -> p < a) ->
  (forall p k, DB p k -> p < a) -> mid s s1 a K F FB i i1 ->
  Inv (fun r => D r \/ exists k x, r = Fld a k /\ getl k i1 = Some x /\ In x F) DB s1.
Proof.
  intros s s1 a K F FB i i1 I HD HDB M.
  assert (UP : forall x r, In x F -> ~ D r -> points s r x -> exists p k, r = Fld p k /\ (p = a \/ In p F)).
  { intros x r HF Nr Pr. destruct (m_up _ _ _ _ _ _ _ _ M x HF) as [[k [_ Hk]]|[p [k [Hp Hk]]]].
    - exists a, k. split; [|auto]. eapply I_uniq; [exact I|exact Nr| |exact Pr|].
      + intros Q. apply HD in Q. lia.
      + exists i. split; [apply M|assumption].
    - exists p, k. split; [|auto]. eapply I_uniq; [exact I|exact Nr| |exact Pr|exact Hk].
      intros Q. apply HD in Q. assert (a <= p) by (eapply reach_ge; eauto; eapply m_reach; eauto). lia. }
  assert (BUP : forall b p k, In b FB -> ~ DB p k -> bpoints s p k b -> p = a \/ In p F).
  { intros b p k HF Nr Pr. destruct (m_bup _ _ _ _ _ _ _ _ M b HF) as [[k' Hk]|[p' [k' [Hp Hk]]]].
    - left. eapply (I_buniq _ _ _ I p k a k' b); [exact Nr| |exact Pr|].
      + intros Q. apply HDB in Q. lia.
      + exists i. split; [apply M|assumption].
    - right. destruct (I_buniq _ _ _ I p k p' k' b) as [-> _]; auto.
      intros Q. apply HDB in Q. assert (a <= p') by (eapply reach_ge; eauto; eapply m_reach; eauto). lia. }
  assert (NX := heap_only_nxt _ _ (m_heap _ _ _ _ _ _ _ _ M)).
  split.
  - rewrite NX. apply I.
  - intros x Hx. rewrite NX. apply (I_im _ _ _ I). destruct (Z.eq_dec x a) as [->|N].
    + rewrite (m_i _ _ _ _ _ _ _ _ M). discriminate.
    + destruct (in_dec Z.eq_dec x F) as [HF|HF].
      * rewrite (m_F _ _ _ _ _ _ _ _ M x HF) in Hx. congruence.
      * rewrite <- (m_nF _ _ _ _ _ _ _ _ M x N HF). assumption.
  - intros b Hb. rewrite NX. apply (I_bk _ _ _ I). destruct (in_dec Z.eq_dec b FB) as [HF|HF].
    + rewrite (m_FB _ _ _ _ _ _ _ _ M b HF) in Hb. congruence.
    + rewrite <- (m_nFB _ _ _ _ _ _ _ _ M b HF). assumption.
  - intros r x Nr Pr.
    assert (Pr' := any_mid _ _ _ _ _ _ _ _ _ _ M Pr).
    assert (Nr' : ~ D r) by (intros Q; apply Nr; auto).
    assert (L := I_live _ _ _ I r x Nr' Pr').
    destruct (Z.eq_dec x a) as [->|N]; [rewrite (m_i1 _ _ _ _ _ _ _ _ M); discriminate|].
    destruct (in_dec Z.eq_dec x F) as [HF|HF]; [|rewrite (m_nF _ _ _ _ _ _ _ _ M x N HF); assumption].
    exfalso. destruct (UP x r HF Nr' Pr') as [p [k [-> [->|Hp]]]].
    + apply Nr. right. exists k, x. split; [reflexivity|]. split; [|assumption].
      destruct Pr as [j [Ej Lj]]. rewrite (m_i1 _ _ _ _ _ _ _ _ M) in Ej. congruence.
    + destruct (points_mid _ _ _ _ _ _ _ _ _ _ _ M Pr). contradiction.
  - intros p k x N P. apply (I_ord _ _ _ I p k x); [intros Q; apply N; auto|].
    eapply points_mid; eauto.
  - intros r r' x N N' P P'. eapply (I_uniq _ _ _ I r r' x); try (eapply any_mid; eauto); intros Q; [apply N|apply N']; auto.
  - intros p k b N P. destruct (bpoints_mid _ _ _ _ _ _ _ _ _ _ _ M P) as [P' NP].
    assert (L := I_blive _ _ _ I p k b N P').
    destruct (in_dec Z.eq_dec b FB) as [HF|HF]; [|rewrite (m_nFB _ _ _ _ _ _ _ _ M b HF); assumption].
    exfalso. destruct (BUP b p k HF N P') as [->|Q]; [|contradiction].
    destruct P as [j [Ej Lj]]. rewrite (m_i1 _ _ _ _ _ _ _ _ M) in Ej. injection Ej as <-.
    eapply (m_bl _ _ _ _ _ _ _ _ M); eauto.
  - intros p k p' k' b N N' P P'. eapply (I_buniq _ _ _ I); eauto; eapply bpoints_mid; eauto.
Qed.

(** releasing one block of [a] *)
Lemma mid_drop : forall s s1 a K F FB i i1 k c, Inv D DB s -> (forall p k, D (Fld p k) -> p < a) ->
  (forall p k, DB p k -> p < a) -> mid s s1 a K F FB i i1 ->
  exists s2 FB2 i2, drop_blk a k c s1 = Ok (tt, s2) /\ mid s s2 a K F FB2 i i2 /\
    (forall b, In b FB -> In b FB2) /\
    (forall l, getl l i2 = getl l i1) /\
    (forall k', k' <> k -> getb k' i2 = getb k' i1) /\
    (c (hd i) = true -> getb k i2 = None /\ forall b, getb k i1 = Some b -> In b FB2) /\
    (c (hd i) = false -> getb k i2 = getb k i1).
Proof.
  intros s s1 a K F FB i i1 k c I HD HDB M.
  assert (I1 := mid_inv s s1 a K F FB i i1 I HD HDB M).
  unfold drop_blk, bindM, get_im. rewrite (m_i1 _ _ _ _ _ _ _ _ M). cbn [bind].
  rewrite (m_hd _ _ _ _ _ _ _ _ M).
  destruct (getb k i1) as [b|] eqn:Eb; cbn [non_null andb].
  2:{ exists s1, FB, i1. split; [reflexivity|]. split; [exact M|]. split; [auto|]. split; [auto|]. split; [auto|].
      split; [|auto]. intros _. split; [exact Eb|congruence]. }
  destruct (c (hd i)) eqn:Ec.
  2:{ exists s1, FB, i1. split; [reflexivity|]. split; [exact M|]. split; [auto|]. split; [auto|]. split; [auto|].
      split; [discriminate|auto]. }
  assert (Lb : bks s1 b <> None).
  { apply (I_blive _ _ _ I1 a k b); [intros Q; apply HDB in Q; lia|]. exists i1. split; [apply M|assumption]. }
  unfold free_blk. destruct (bks s1 b) as [lb|] eqn:Ebb; [|congruence]. cbn [bind].
  unfold upd_im. cbn [ims set_bks set_ims]. rewrite (m_i1 _ _ _ _ _ _ _ _ M).
  eexists _, (b :: FB), (putb k None i1). split; [reflexivity|].
  split.
  { split; cbn [ims bks set_ims set_bks].
    - eapply heap_only_trans; [apply M|]. reflexivity.
    - apply M.
    - apply fup_eq.
    - apply M.
    - intros x HF. rewrite fup_neq; [apply M; assumption|]. intros ->. eapply m_na; eauto.
    - intros x Nx HF. rewrite fup_neq by assumption. apply M; assumption.
    - intros x [<-|Hx]; [apply fup_eq|]. unfold fup. destruct (x =? b); [reflexivity|]. apply M; assumption.
    - intros x Hx. rewrite fup_neq; [apply M|]; intros Q; apply Hx; [right; assumption|left; congruence].
    - rewrite hd_putb. apply M.
    - intros l. rewrite getl_putb. apply M.
    - intros l. destruct (bk_eq_dec l k) as [->|N]; [right; apply getb_putb_eq|].
      rewrite getb_putb_neq by assumption. apply M.
    - intros l b' Hl. destruct (bk_eq_dec l k) as [->|N]; [rewrite getb_putb_eq in Hl; discriminate|].
      rewrite getb_putb_neq in Hl by assumption. intros [<-|Q].
      + apply N. destruct (I_buniq _ _ _ I1 a l a k b) as [_ R]; try (intros Q; apply HDB in Q; lia); try assumption;
          exists i1; (split; [apply M|assumption]).
      + eapply m_bl; eauto.
    - apply M.
    - apply M.
    - intros b' [<-|Hb]; [|apply M; assumption]. left. exists k. destruct (m_b _ _ _ _ _ _ _ _ M k); congruence.
    - intros T. destruct (m_full _ _ _ _ _ _ _ _ M T) as [A1 A2]. split; [exact A1|].
      intros p k' b' Hp Hb. right. eauto. }
  split; [intros b' Hb; right; assumption|].
  split; [intros l; apply getl_putb|].
  split; [intros k' N; apply getb_putb_neq; assumption|].
  split; [|discriminate]. intros _. split; [apply getb_putb_eq|]. intros b' Q. left. congruence.
Qed.

(** freeing the structure itself ends the closing *)
Lemma mid_end : forall s s1 a K F FB i i1, mid s s1 a K F FB i i1 ->
  (tidy_below s a -> (forall k x, getl k i = Some x -> In x F) /\ (forall k b, getb k i = Some b -> In b FB)) ->
  exists s2, free_im a s1 = Ok (tt, s2) /\ closed s s2 a (a :: F) FB.
Proof.
  intros s s1 a K F FB i i1 M T. unfold free_im. rewrite (m_i1 _ _ _ _ _ _ _ _ M). eexists. split; [reflexivity|].
  split; cbn [ims bks set_ims].
  - eapply heap_only_trans; [apply M|]. reflexivity.
  - intros x [<-|Hx]; [apply fup_eq|]. unfold fup. destruct (x =? a); [reflexivity|]. apply M; assumption.
  - intros x Hx. assert (x <> a) by (intros ->; apply Hx; left; reflexivity). rewrite fup_neq by assumption.
    apply M; [assumption|]. intros Q; apply Hx; right; assumption.
  - apply M.
  - apply M.
  - left. reflexivity.
  - intros x [<-|Hx]; [constructor|]. apply M; assumption.
  - intros x [<-|Hx]; [left; reflexivity|]. right.
    destruct (m_up _ _ _ _ _ _ _ _ M x Hx) as [[k [_ Hk]]|[p [k [Hp Hk]]]].
    + exists a, k. split; [left; reflexivity|]. exists i. split; [apply M|assumption].
    + exists p, k. split; [right; assumption|assumption].
  - intros b Hb. destruct (m_bup _ _ _ _ _ _ _ _ M b Hb) as [[k Hk]|[p [k [Hp Hk]]]].
    + exists a, k. split; [left; reflexivity|]. exists i. split; [apply M|assumption].
    + exists p, k. split; [right; assumption|assumption].
  - intros Ht. destruct (T Ht) as [T1 T2]. destruct (m_full _ _ _ _ _ _ _ _ M Ht) as [A1 A2]. split.
    + intros p k x [<-|Hp] [j [Ej Lj]].
      * rewrite (m_i _ _ _ _ _ _ _ _ M) in Ej. injection Ej as <-. right. eauto.
      * right. eapply A1; [exact Hp|]. exists j. eauto.
    + intros p k x [<-|Hp] [j [Ej Lj]].
      * rewrite (m_i _ _ _ _ _ _ _ _ M) in Ej. injection Ej as <-. eauto.
      * eapply A2; [exact Hp|]. exists j. eauto.
Qed.

(** reachable addresses are allocated *)
Lemma reach_live : forall s a x, Inv D DB s -> (forall p k, D (Fld p k) -> p < a) -> ims s a <> None ->
  reach s a x -> ims s x <> None.
Proof.
  intros s a x I HD La H. induction H; [assumption|].
  apply (I_live _ _ _ I (Fld p k) x); [|assumption].
  intros Q. apply HD in Q. assert (a <= p) by (eapply reach_ge; eauto). lia.
Qed.
End Closing.

(** closing a child of [a] *)
Lemma mid_close : forall D DB s s1 s2 a K F FB i i1 k y F2 FB2, Inv D DB s ->
  (forall p k, D (Fld p k) -> p < a) -> (forall p k, DB p k -> p < a) ->
  mid s s1 a K F FB i i1 -> getl k i1 = Some y -> ~ In y F -> closed s1 s2 y F2 FB2 ->
  mid s s2 a (k :: K) (F2 ++ F) (FB2 ++ FB) i i1.
Proof.
  intros D DB s s1 s2 a K F FB i i1 k y F2 FB2 I HD HDB M Hy NyF C.
  assert (I1 := mid_inv D DB s s1 a K F FB i i1 I HD HDB M).
  set (D1 := fun r => D r \/ exists k x, r = Fld a k /\ getl k i1 = Some x /\ In x F) in I1.
  assert (Py : points s1 (Fld a k) y) by (exists i1; split; [apply M|assumption]).
  assert (NDy : ~ D1 (Fld a k)).
  { intros [Q|[k' [x [Q [Q1 Q2]]]]]; [apply HD in Q; lia|]. injection Q as <-. congruence. }
  assert (ay : a < y) by (apply (I_ord _ _ _ I1 a k y NDy Py)).
  assert (HD1 : forall p k, D1 (Fld p k) -> p < y).
  { intros p k' [Q|[k'' [x [Q _]]]]; [apply HD in Q; lia|]. injection Q as -> _. assumption. }
  assert (HDB1 : forall p k, DB p k -> p < y) by (intros p k' Q; apply HDB in Q; lia).
  assert (Ly := I_live _ _ _ I1 _ _ NDy Py).
  assert (GE : forall x, In x F2 -> y <= x).
  { intros x Hx. eapply reach_ge; [exact I1|exact HD1|]. apply C; assumption. }
  assert (LV : forall x, In x F2 -> ims s1 x <> None).
  { intros x Hx. eapply reach_live; [exact I1|exact HD1|exact Ly|]. apply C; assumption. }
  assert (NF : forall x, In x F2 -> ~ In x F).
  { intros x Hx Q. apply (LV x Hx). apply M; assumption. }
  assert (Na : ~ In a F2) by (intros Q; apply GE in Q; lia).
  assert (Rch : forall x, reach s1 y x -> reach s a x).
  { intros x Hx. eapply reach_trans; [|eapply reach_mid; eauto].
    eapply reach_step; [constructor|]. eapply points_mid; [exact M|exact Py]. }
  assert (SAME : forall x, In x F2 -> ims s1 x = ims s x).
  { intros x Hx. apply M; [intros ->; contradiction|auto]. }
  split.
  - eapply heap_only_trans; [apply M|apply C].
  - apply M.
  - rewrite (c_nF _ _ _ _ _ C a Na). apply M.
  - intros Q. apply in_app_or in Q. destruct Q as [Q|Q]; [contradiction|]. eapply m_na; eauto.
  - intros x Hx. apply in_app_or in Hx. destruct Hx as [Hx|Hx]; [apply C; assumption|].
    destruct (in_dec Z.eq_dec x F2) as [H2|H2]; [apply C; assumption|].
    rewrite (c_nF _ _ _ _ _ C x H2). apply M; assumption.
  - intros x Nx Hx. assert (~ In x F2 /\ ~ In x F) as [H1 H2] by (split; intros Q; apply Hx, in_or_app; auto).
    rewrite (c_nF _ _ _ _ _ C x H1). apply M; assumption.
  - intros x Hx. apply in_app_or in Hx. destruct Hx as [Hx|Hx]; [apply C; assumption|].
    destruct (in_dec Z.eq_dec x FB2) as [H2|H2]; [apply C; assumption|].
    rewrite (c_nFB _ _ _ _ _ C x H2). apply M; assumption.
  - intros x Hx. assert (~ In x FB2 /\ ~ In x FB) as [H1 H2] by (split; intros Q; apply Hx, in_or_app; auto).
    rewrite (c_nFB _ _ _ _ _ C x H1). apply M; assumption.
  - apply M.
  - apply M.
  - apply M.
  - intros k' b Hb Q. apply in_app_or in Q. destruct Q as [Q|Q]; [|eapply m_bl; eauto].
    destruct (c_bup _ _ _ _ _ C b Q) as [p [kk [Hp Hk]]].
    destruct (I_buniq _ _ _ I1 a k' p kk b) as [E _].
    + intros X. apply HDB in X. lia.
    + intros X. apply HDB in X. apply GE in Hp. lia.
    + exists i1. split; [apply M|assumption].
    + assumption.
    + subst p. contradiction.
  - intros x Hx. apply in_app_or in Hx. destruct Hx as [Hx|Hx]; [|apply M; assumption].
    apply Rch, C. assumption.
  - intros x Hx. apply in_app_or in Hx. destruct Hx as [Hx|Hx].
    + destruct (c_up _ _ _ _ _ C x Hx) as [->|[p [kk [Hp Hk]]]].
      * left. exists k. split; [left; reflexivity|]. destruct (m_l _ _ _ _ _ _ _ _ M k); congruence.
      * right. exists p, kk. split; [apply in_or_app; auto|]. eapply points_mid; eauto.
    + destruct (m_up _ _ _ _ _ _ _ _ M x Hx) as [[k' [Hk' E]]|[p [kk [Hp Hk]]]].
      * left. exists k'. split; [right; assumption|assumption].
      * right. exists p, kk. split; [apply in_or_app; auto|assumption].
  - intros b Hb. apply in_app_or in Hb. destruct Hb as [Hb|Hb].
    + right. destruct (c_bup _ _ _ _ _ C b Hb) as [p [kk [Hp Hk]]]. exists p, kk.
      split; [apply in_or_app; auto|]. eapply bpoints_mid; eauto.
    + destruct (m_bup _ _ _ _ _ _ _ _ M b Hb) as [E|[p [kk [Hp Hk]]]]; [left; assumption|].
      right. exists p, kk. split; [apply in_or_app; auto|assumption].
  - intros T. destruct (m_full _ _ _ _ _ _ _ _ M T) as [A1 A2].
    assert (T1 : tidy_below s1 y).
    { intros x j Rx Ej. apply (T x j); [apply Rch; assumption|]. rewrite <- Ej. symmetry.
      assert (y <= x) by (eapply reach_ge; [exact I1|exact HD1|assumption]).
      apply M; [lia|]. intros Q. rewrite (m_F _ _ _ _ _ _ _ _ M x Q) in Ej. discriminate. }
    destruct (c_full _ _ _ _ _ C T1) as [B1 B2]. split.
    + intros p kk x Hp Hx. apply in_or_app. apply in_app_or in Hp. destruct Hp as [Hp|Hp].
      * left. eapply B1; [exact Hp|]. destruct Hx as [j [Ej Lj]]. exists j. split; [|exact Lj].
        rewrite SAME by assumption. exact Ej.
      * right. eapply A1; eauto.
    + intros p kk x Hp Hx. apply in_or_app. apply in_app_or in Hp. destruct Hp as [Hp|Hp].
      * left. eapply B2; [exact Hp|]. destruct Hx as [j [Ej Lj]]. exists j. split; [|exact Lj].
        rewrite SAME by assumption. exact Ej.
      * right. eapply A2; eauto.
Qed.

(** setting a link of [a] to NULL *)
Lemma mid_null : forall s s1 a K F FB i i1 k, mid s s1 a K F FB i i1 ->
  exists s2, upd_im a (putl k None) s1 = Ok (tt, s2) /\ mid s s2 a K F FB i (putl k None i1).
Proof.
  intros s s1 a K F FB i i1 k M. unfold upd_im. rewrite (m_i1 _ _ _ _ _ _ _ _ M). eexists. split; [reflexivity|].
  split; cbn [ims bks set_ims]; try apply M.
  - eapply heap_only_trans; [apply M|reflexivity].
  - apply fup_eq.
  - intros x Hx. rewrite fup_neq; [apply M; assumption|]. intros ->. eapply m_na; eauto.
  - intros x Nx Hx. rewrite fup_neq by assumption. apply M; assumption.
  - rewrite hd_putl. apply M.
  - intros l. destruct (lk_eq_dec l k) as [->|N]; [right; apply getl_putl_eq|]. rewrite getl_putl_neq by assumption. apply M.
  - intros l. rewrite getb_putl. apply M.
  - intros l b. rewrite getb_putl. apply M.
Qed.

(** one "if the link is not NULL, close it" step; [k'] is the member set to NULL afterwards *)
Lemma mid_child : forall fuel D DB s s1 a K F FB i i1 k k', Inv D DB s ->
  (forall p k, D (Fld p k) -> p < a) -> (forall p k, DB p k -> p < a) ->
  (forall D DB s a, Inv D DB s -> (forall p k, D (Fld p k) -> p < a) -> (forall p k, DB p k -> p < a) ->
     ims s a <> None -> nxt s - a <= Z.of_nat fuel ->
     exists s' F FB, close fuel (Some a) s = Ok (tt, s') /\ closed s s' a F FB) ->
  nxt s - a <= Z.of_nat (S fuel) ->
  mid s s1 a K F FB i i1 -> ~ In k K ->
  exists s2 F2 FB2, (if non_null (getl k i1) then bindM (close fuel (getl k i1)) (fun _ => upd_im a (putl k' None)) else ret tt) s1
      = Ok (tt, s2) /\
    mid s s2 a (k :: K) F2 FB2 i (if non_null (getl k i1) then putl k' None i1 else i1) /\
    (forall x, In x F -> In x F2) /\ (forall x, In x FB -> In x FB2) /\
    (forall y, getl k i1 = Some y -> In y F2).
Proof.
  intros fuel D DB s s1 a K F FB i i1 k k' I HD HDB IH Hf M NK.
  destruct (getl k i1) as [y|] eqn:Ey; cbn [non_null].
  2:{ exists s1, F, FB. split; [reflexivity|]. split.
      - destruct M. split; auto. intros x Hx. destruct (m_up0 x Hx) as [[q [Q1 Q2]]|Q]; [left; exists q; split; [right|]; auto|right; auto].
      - split; [auto|]. split; [auto|]. discriminate. }
  assert (I1 := mid_inv D DB s s1 a K F FB i i1 I HD HDB M).
  set (D1 := fun r => D r \/ exists k x, r = Fld a k /\ getl k i1 = Some x /\ In x F) in I1.
  assert (Ps : points s (Fld a k) y).
  { exists i. split; [apply M|]. destruct (m_l _ _ _ _ _ _ _ _ M k); congruence. }
  assert (NDk : forall k, ~ D (Fld a k)) by (intros q Q; apply HD in Q; lia).
  assert (Ny : ~ In y F).
  { intros Q. destruct (m_up _ _ _ _ _ _ _ _ M y Q) as [[q [Q1 Q2]]|[p [q [Q1 Q2]]]].
    - assert (Fld a k = Fld a q) as E. { eapply (I_uniq _ _ _ I); auto. exact Ps. exists i. split; [apply M|assumption]. }
      injection E as <-. contradiction.
    - assert (Fld a k = Fld p q) as E.
      { eapply (I_uniq _ _ _ I); auto; [|exact Ps|exact Q2]. intros X. apply HD in X.
        assert (a <= p) by (eapply (reach_ge D DB); [exact I|exact HD|]; exact (m_reach _ _ _ _ _ _ _ _ M p Q1)). lia. }
      injection E as <- <-. eapply m_na; eauto. }
  assert (ND1 : ~ D1 (Fld a k)).
  { intros [Q|[q [x [Q [Q1 Q2]]]]]; [eapply NDk; eauto|]. injection Q as <-. congruence. }
  assert (P1 : points s1 (Fld a k) y) by (exists i1; split; [apply M|assumption]).
  assert (ay : a < y) by (apply (I_ord _ _ _ I1 a k y ND1 P1)).
  assert (HD1 : forall p k, D1 (Fld p k) -> p < y).
  { intros p q [Q|[q' [x [Q _]]]]; [apply HD in Q; lia|]. injection Q as -> _. assumption. }
  destruct (IH D1 DB s1 y I1 HD1) as [s' [F2 [FB2 [E C]]]].
  { intros p q Q. apply HDB in Q. lia. }
  { apply (I_live _ _ _ I1 _ _ ND1 P1). }
  { rewrite (heap_only_nxt _ _ (m_heap _ _ _ _ _ _ _ _ M)). lia. }
  assert (M2 := mid_close D DB s s1 s' a K F FB i i1 k y F2 FB2 I HD HDB M Ey Ny C).
  destruct (mid_null _ _ _ _ _ _ _ _ k' M2) as [s2 [E2 M3]].
  exists s2, (F2 ++ F), (FB2 ++ FB). unfold bindM. rewrite E. cbn [bind]. split; [exact E2|]. split; [exact M3|].
  split; [intros x Hx; apply in_or_app; auto|]. split; [intros x Hx; apply in_or_app; auto|].
  intros y' Q. injection Q as <-. apply in_or_app. left. apply C.
Qed.

(** ** ilCloseImage on a well-formed heap *)
Lemma close_ok : forall fuel D DB s a, Inv D DB s -> (forall p k, D (Fld p k) -> p < a) ->
  (forall p k, DB p k -> p < a) -> ims s a <> None -> nxt s - a <= Z.of_nat fuel ->
  exists s' F FB, close fuel (Some a) s = Ok (tt, s') /\ closed s s' a F FB.
Proof.
  induction fuel as [|fuel IH]; intros D DB s a I HD HDB La Hf.
  { apply (I_im _ _ _ I) in La. lia. }
  destruct (ims s a) as [i|] eqn:Ei; [|congruence]. clear La.
  assert (M0 := mid_start s a i Ei).
  cbn [close]. unfold bindM at 1.
  destruct (mid_drop D DB _ _ _ _ _ _ _ _ BData (fun _ => true) I HD HDB M0) as [s1 [B1 [i1 [E1 [M1 [S1 [L1 [N1 [T1 _]]]]]]]]].
  rewrite E1. cbn [bind]. unfold bindM at 1.
  destruct (mid_drop D DB _ _ _ _ _ _ _ _ BPal (fun h => (0 <? hPalSize h) && negb (hPalType h =? IL_PAL_NONE)) I HD HDB M1)
    as [s2 [B2 [i2 [E2 [M2 [S2 [L2 [N2 [T2 U2]]]]]]]]].
  rewrite E2. cbn [bind]. unfold bindM at 1. unfold get_im at 1. rewrite (m_i1 _ _ _ _ _ _ _ _ M2). cbn [bind].
  unfold bindM at 1.
  destruct (mid_child fuel D DB _ _ _ _ _ _ _ _ LNext LNext I HD HDB IH Hf M2 ltac:(intros []))
    as [s3 [F3 [B3 [E3 [M3 [X3 [S3 Y3]]]]]]].
  cbn [getl] in E3. rewrite E3. cbn [bind]. clear E1 E2 E3.
  set (i3 := if non_null (getl LNext i2) then putl LNext None i2 else i2) in *.
  unfold bindM at 1. unfold get_im at 1. rewrite (m_i1 _ _ _ _ _ _ _ _ M3). cbn [bind]. unfold bindM at 1.
  destruct (mid_child fuel D DB _ _ _ _ _ _ _ _ LFaces LMips I HD HDB IH Hf M3 ltac:(intros [|[]]; discriminate))
    as [s4 [F4 [B4 [E4 [M4 [X4 [S4 Y4]]]]]]].
  cbn [getl] in E4. rewrite E4. cbn [bind]. clear E4.
  set (i4 := if non_null (getl LFaces i3) then putl LMips None i3 else i3) in *.
  unfold bindM at 1. unfold get_im at 1. rewrite (m_i1 _ _ _ _ _ _ _ _ M4). cbn [bind]. unfold bindM at 1.
  destruct (mid_child fuel D DB _ _ _ _ _ _ _ _ LMips LMips I HD HDB IH Hf M4 ltac:(intros [|[|[]]]; discriminate))
    as [s5 [F5 [B5 [E5 [M5 [X5 [S5 Y5]]]]]]].
  cbn [getl] in E5. rewrite E5. cbn [bind]. clear E5.
  set (i5 := if non_null (getl LMips i4) then putl LMips None i4 else i4) in *.
  unfold bindM at 1. unfold get_im at 1. rewrite (m_i1 _ _ _ _ _ _ _ _ M5). cbn [bind]. unfold bindM at 1.
  destruct (mid_child fuel D DB _ _ _ _ _ _ _ _ LLayers LLayers I HD HDB IH Hf M5 ltac:(intros [|[|[|[]]]]; discriminate))
    as [s6 [F6 [B6 [E6 [M6 [X6 [S6 Y6]]]]]]].
  cbn [getl] in E6. rewrite E6. cbn [bind]. clear E6.
  set (i6 := if non_null (getl LLayers i5) then putl LLayers None i5 else i5) in *.
  unfold bindM at 1.
  destruct (mid_drop D DB _ _ _ _ _ _ _ _ BAnim (fun h => negb (hAnimSize h =? 0)) I HD HDB M6)
    as [s7 [B7 [i7 [E7 [M7 [S7 [L7 [N7 [T7 U7]]]]]]]]].
  rewrite E7. cbn [bind]. unfold bindM at 1.
  destruct (mid_drop D DB _ _ _ _ _ _ _ _ BProf (fun h => negb (hProfSize h =? 0)) I HD HDB M7)
    as [s8 [B8 [i8 [E8 [M8 [S8 [L8 [N8 [T8 U8]]]]]]]]].
  rewrite E8. cbn [bind]. unfold bindM at 1.
  destruct (mid_drop D DB _ _ _ _ _ _ _ _ BDxtc (fun h => negb (hDxtFmt h =? IL_DXT_NO_COMP)) I HD HDB M8)
    as [s9 [B9 [i9 [E9 [M9 [S9 [L9 [N9 [T9 U9]]]]]]]]].
  rewrite E9. cbn [bind]. clear E7 E8 E9.
  destruct (mid_end _ _ _ _ _ _ _ _ M9) as [sf [Ef C]].
  2:{ exists sf, (a :: F6), B9. split; [exact Ef|exact C]. }
  intros T. assert (Ti : tidy i) by (apply (T a i); [constructor|exact Ei]).
  destruct Ti as [Tp [Ta [Tr [Td Tm]]]].
  assert (G3 : forall k, k <> LNext -> getl k i3 = getl k i2).
  { intros k Q. unfold i3. destruct (non_null (getl LNext i2)); [apply getl_putl_neq; assumption|reflexivity]. }
  assert (G4 : forall k, k <> LMips -> getl k i4 = getl k i3).
  { intros k Q. unfold i4. destruct (non_null (getl LFaces i3)); [apply getl_putl_neq; assumption|reflexivity]. }
  assert (G5 : forall k, k <> LMips -> getl k i5 = getl k i4).
  { intros k Q. unfold i5. destruct (non_null (getl LMips i4)); [apply getl_putl_neq; assumption|reflexivity]. }
  assert (H3 : forall k, getb k i3 = getb k i2) by (intros k; unfold i3; destruct (non_null (getl LNext i2)); [apply getb_putl|reflexivity]).
  assert (H4 : forall k, getb k i4 = getb k i3) by (intros k; unfold i4; destruct (non_null (getl LFaces i3)); [apply getb_putl|reflexivity]).
  assert (H5 : forall k, getb k i5 = getb k i4) by (intros k; unfold i5; destruct (non_null (getl LMips i4)); [apply getb_putl|reflexivity]).
  assert (H6 : forall k, getb k i6 = getb k i5) by (intros k; unfold i6; destruct (non_null (getl LLayers i5)); [apply getb_putl|reflexivity]).
  clearbody i3 i5 i6. 
  split.
  - intros [] x Hx.
    + apply X6, X5, X4, Y3. rewrite L2, L1. exact Hx.
    + apply X6, X5, Y4. rewrite G3, L2, L1 by discriminate. exact Hx.
    + apply X6, Y5. unfold i4. destruct (getl LFaces i3) as [f|] eqn:Ef'.
      * exfalso. rewrite G3, L2, L1 in Ef' by discriminate. cbn [getl] in Ef', Hx. destruct Tm; congruence.
      * cbn [non_null]. rewrite G3, L2, L1 by discriminate. exact Hx.
    + apply Y6. rewrite G5, G4, G3, L2, L1 by discriminate. exact Hx.
  - intros [] b Hb.
    + apply S9, S8, S7, S6, S5, S4, S3, S2. destruct (T1 eq_refl) as [_ Q]. apply Q. exact Hb.
    + apply S9, S8, S7, S6, S5, S4, S3. cbn [getb] in Hb. destruct Tp as [Q1 Q2]; [congruence|].
      destruct T2 as [_ Q]. { apply andb_true_iff. split; [lia|]. apply Z.eqb_neq in Q2. rewrite Q2. reflexivity. }
      apply Q. rewrite N1 by discriminate. exact Hb.
    + apply S9, S8. cbn [getb] in Hb.
      destruct T7 as [_ Q]. { apply negb_true_iff, Z.eqb_neq. apply Ta. congruence. }
      apply Q. rewrite H6, H5, H4, H3, N2, N1 by discriminate. exact Hb.
    + apply S9. cbn [getb] in Hb.
      destruct T8 as [_ Q]. { apply negb_true_iff, Z.eqb_neq. apply Tr. congruence. }
      apply Q. rewrite N7, H6, H5, H4, H3, N2, N1 by discriminate. exact Hb.
    + cbn [getb] in Hb.
      destruct T9 as [_ Q]. { apply negb_true_iff, Z.eqb_neq. apply Td. congruence. }
      apply Q. rewrite N8, N7, H6, H5, H4, H3, N2, N1 by discriminate. exact Hb.
Qed.
