(** Lemmas on slices of buffers.  Proof infrastructure, models no code. *)
From Coq Require Import ZArith List Lia Bool.
From Verif Require Import Base.
Import ListNotations.
Open Scope Z_scope.

Lemma slice_0 : forall l off, slice l off 0 = [].
Proof. reflexivity. Qed.

Lemma slice_split : forall l off a b, 0 <= off -> 0 <= a -> 0 <= b ->
  slice l off (a + b) = slice l off a ++ slice l (off + a) b.
Proof.
  intros l off a b Ho Ha Hb. unfold slice. rewrite !Z2Nat.inj_add by lia.
  set (o := Z.to_nat off). set (x := Z.to_nat a). set (y := Z.to_nat b).
  rewrite <- (firstn_skipn x (firstn (x + y) (skipn o l))). f_equal.
  - rewrite firstn_firstn. f_equal. lia.
  - rewrite skipn_firstn_comm. f_equal; [lia|].
    clear. revert l; induction o as [|o IH]; intros l; [reflexivity|]. destruct l; cbn; [rewrite skipn_nil; reflexivity|apply IH].
Qed.

Lemma slice_cons : forall l off n, 0 <= off < zlen l -> 0 <= n ->
  slice l off (1 + n) = geti l off :: slice l (off + 1) n.
Proof.
  intros l off n Ho Hn. rewrite slice_split by lia.
  assert (slice l off 1 = [geti l off]) as ->; [|reflexivity].
  apply list_ext.
  - rewrite zlen_slice by lia. reflexivity.
  - rewrite zlen_slice by lia. intros i Hi. rewrite geti_slice by lia. replace i with 0 by lia.
    rewrite Z.add_0_r. reflexivity.
Qed.

Lemma slice_all : forall l, slice l 0 (zlen l) = l.
Proof.
  intros l. unfold slice, zlen. rewrite Nat2Z.id. apply firstn_all.
Qed.

Lemma slice_app_l : forall a b off n, 0 <= off -> 0 <= n -> off + n <= zlen a -> slice (a ++ b) off n = slice a off n.
Proof.
  intros a b off n H1 H2 H3. unfold slice, zlen in *. rewrite skipn_app, firstn_app, skipn_length.
  replace (Z.to_nat n - (length a - Z.to_nat off))%nat with 0%nat by lia. cbn. apply app_nil_r.
Qed.

Lemma slice_app_r : forall a b off n, zlen a <= off -> 0 <= n -> slice (a ++ b) off n = slice b (off - zlen a) n.
Proof.
  intros a b off n H1 H2. unfold slice, zlen in *. rewrite skipn_app.
  rewrite skipn_all2 by lia. cbn. f_equal. f_equal. lia.
Qed.

Lemma geti_app : forall a b i, 0 <= i -> geti (a ++ b) i = if i <? zlen a then geti a i else geti b (i - zlen a).
Proof.
  intros a b i H. unfold geti, zlen. destruct (i <? Z.of_nat (length a)) eqn:E.
  - apply app_nth1. lia.
  - rewrite app_nth2 by lia. f_equal. lia.
Qed.

Lemma geti_cons : forall x l i, 0 <= i -> geti (x :: l) i = if i =? 0 then x else geti l (i - 1).
Proof.
  intros x l i H. unfold geti. destruct (i =? 0) eqn:E; [replace i with 0 by lia; reflexivity|].
  replace (Z.to_nat i) with (S (Z.to_nat (i - 1))) by lia. reflexivity.
Qed.

Lemma splice_full : forall l new, zlen new = zlen l -> splice l 0 new = new.
Proof.
  intros l new H. unfold splice, zlen in *. cbn [Z.to_nat firstn app Nat.add].
  rewrite skipn_all2 by lia. apply app_nil_r.
Qed.

Lemma bytes_app : forall a b, bytes a -> bytes b -> bytes (a ++ b).
Proof. intros a b Ha Hb. apply bytes_Forall. apply Forall_app. split; apply bytes_Forall; auto. Qed.
Lemma bytes_slice : forall l off n, bytes l -> bytes (slice l off n).
Proof.
  intros l off n H. apply bytes_Forall. unfold slice.
  assert (F : Forall (fun b => 0 <= b < 256) (skipn (Z.to_nat off) l)).
  { apply bytes_Forall in H. rewrite <- (firstn_skipn (Z.to_nat off) l) in H. apply Forall_app in H. apply H. }
  rewrite <- (firstn_skipn (Z.to_nat n) (skipn (Z.to_nat off) l)) in F. apply Forall_app in F. apply F.
Qed.

Lemma splice_prefix : forall l off new, 0 <= off -> off + zlen new <= zlen l ->
  slice (splice l off new) 0 (off + zlen new) = slice l 0 off ++ new.
Proof.
  intros l off new H1 H2. unfold slice, splice, zlen in *. cbn [Z.to_nat skipn]. rewrite app_assoc.
  rewrite firstn_app. rewrite firstn_all2 by (rewrite app_length, firstn_length; lia).
  replace (Z.to_nat (off + Z.of_nat (length new)) - length (firstn (Z.to_nat off) l ++ new))%nat with 0%nat
    by (rewrite app_length, firstn_length; lia).
  cbn [firstn]. apply app_nil_r.
Qed.

Lemma splice_after : forall l off new j, 0 <= off -> off + zlen new <= zlen l -> off + zlen new <= j ->
  geti (splice l off new) j = geti l j.
Proof.
  intros l off new j H1 H2 H3. rewrite geti_splice by (auto; assert (0 <= zlen new) by auto; lia).
  replace (j <? off + zlen new) with false by lia. rewrite andb_false_r. reflexivity.
Qed.
