(** Common vocabulary of the model: machine integers, outcomes, byte buffers, loops.

    This file models no DevIL function; it fixes how C++ notions are rendered.
    - unsigned wrap-around: [u8], [u16], [u32]; reinterpretation as [int]: [i32];
    - an outcome [res A]: a value, undefined behaviour, or out of fuel (a loop that did
      not end within its fuel);
    - a buffer is a [list Z]; reads and writes outside it are [UB]. *)
From Coq Require Import ZArith List Lia Bool.
From Coq Require Export ZifyBool ZifyNat.
Import ListNotations.
Open Scope Z_scope.

Ltac Zify.zify_post_hook ::= Z.div_mod_to_equations.

(** ** Machine integers *)

Definition u8  (x : Z) : Z := x mod 256.
Definition u16 (x : Z) : Z := x mod 65536.
Definition u32 (x : Z) : Z := x mod 4294967296.
Definition u64 (x : Z) : Z := x mod 18446744073709551616.
(** conversion of a value to 32-bit two's complement [int] *)
Definition i32 (x : Z) : Z := (x + 2147483648) mod 4294967296 - 2147483648.

(** ** Outcomes *)

Inductive res (A : Type) : Type :=
| Ok (a : A)
| UB
| Fuel.
Arguments Ok {A} a.
Arguments UB {A}.
Arguments Fuel {A}.

Definition bind {A B} (m : res A) (k : A -> res B) : res B :=
  match m with Ok a => k a | UB => UB | Fuel => Fuel end.

Notation "'let!' x ':=' m 'in' k" := (bind m (fun x => k))
  (at level 200, x pattern, m at level 100, k at level 200, right associativity).

Lemma bind_ok : forall {A B} (m : res A) (k : A -> res B) b,
  bind m k = Ok b -> exists a, m = Ok a /\ k a = Ok b.
Proof. intros A B [a| |] k b H; cbn in H; try discriminate; eauto. Qed.

(** ** Buffers *)

Definition zlen {A} (l : list A) : Z := Z.of_nat (length l).

(** [geti l i]: byte [i] of [l]; 0 outside (only used under a bounds check or in
    specifications restricted to the valid range). *)
Definition geti (l : list Z) (i : Z) : Z := nth (Z.to_nat i) l 0.

Definition inb (len i n : Z) : bool := (0 <=? i) && (0 <=? n) && (i + n <=? len).

Definition rd (l : list Z) (i : Z) : res Z :=
  if inb (zlen l) i 1 then Ok (geti l i) else UB.

(** replace the bytes from [off] on by [new] *)
Definition splice (l : list Z) (off : Z) (new : list Z) : list Z :=
  firstn (Z.to_nat off) l ++ new ++ skipn (Z.to_nat off + length new) l.

Definition upd (l : list Z) (i v : Z) : list Z := splice l i [v].

Definition wr (l : list Z) (i v : Z) : res (list Z) :=
  if inb (zlen l) i 1 then Ok (upd l i v) else UB.

Definition slice (l : list Z) (off n : Z) : list Z :=
  firstn (Z.to_nat n) (skipn (Z.to_nat off) l).

(** memcpy(dst + doff, src + soff, n) between two distinct buffers *)
Definition memcpy (dst : list Z) (doff : Z) (src : list Z) (soff n : Z) : res (list Z) :=
  if inb (zlen dst) doff n && inb (zlen src) soff n
  then Ok (splice dst doff (slice src soff n)) else UB.

(** memset(dst + off, v, n) *)
Definition memset (dst : list Z) (off v n : Z) : res (list Z) :=
  if inb (zlen dst) off n
  then Ok (splice dst off (repeat (u8 v) (Z.to_nat n))) else UB.

(** ** Counted loops: [for_ n i body s] runs [body i; body (i+1); ...], [n] times *)

Fixpoint for_ {S} (n : nat) (i : Z) (body : Z -> S -> res S) (s : S) : res S :=
  match n with
  | O => Ok s
  | Datatypes.S n' => let! s' := body i s in for_ n' (i + 1) body s'
  end.

(** [for (i = lo; i < hi; i++)] *)
Definition loop {S} (lo hi : Z) (body : Z -> S -> res S) (s : S) : res S :=
  for_ (Z.to_nat (hi - lo)) lo body s.

(** ** Lemmas *)

Lemma zlen_nonneg : forall A (l : list A), 0 <= zlen l.
Proof. intros; unfold zlen; lia. Qed.
Global Hint Resolve zlen_nonneg : core.

Lemma zlen_app : forall A (a b : list A), zlen (a ++ b) = zlen a + zlen b.
Proof. intros; unfold zlen; rewrite app_length; lia. Qed.

Lemma zlen_cons : forall A (a : A) b, zlen (a :: b) = 1 + zlen b.
Proof. intros; unfold zlen; cbn [length]; lia. Qed.

Lemma zlen_nil : forall A, zlen (@nil A) = 0.
Proof. reflexivity. Qed.

Lemma zlen_repeat : forall A (a : A) n, zlen (repeat a n) = Z.of_nat n.
Proof. intros; unfold zlen; rewrite repeat_length; reflexivity. Qed.

Lemma inb_true : forall len i n, inb len i n = true <-> 0 <= i /\ 0 <= n /\ i + n <= len.
Proof. intros; unfold inb; lia. Qed.

Lemma inb_false : forall len i n, inb len i n = false <-> ~ (0 <= i /\ 0 <= n /\ i + n <= len).
Proof. intros; unfold inb; lia. Qed.

Lemma zlen_slice : forall l off n, 0 <= off -> 0 <= n -> off + n <= zlen l ->
  zlen (slice l off n) = n.
Proof.
  intros l off n H1 H2 H3. unfold slice, zlen in *.
  rewrite firstn_length, skipn_length. lia.
Qed.

Lemma nth_skipn_ : forall (l : list Z) k n, nth n (skipn k l) 0 = nth (k + n) l 0.
Proof.
  induction l as [|a l IH]; intros k n.
  - rewrite skipn_nil. rewrite !nth_overflow; cbn; auto; lia.
  - destruct k; cbn [skipn Nat.add]; auto. rewrite IH. reflexivity.
Qed.

Lemma nth_firstn_ : forall (l : list Z) k n, (n < k)%nat -> nth n (firstn k l) 0 = nth n l 0.
Proof.
  induction l as [|a l IH]; intros k n H.
  - rewrite firstn_nil. reflexivity.
  - destruct k; [lia|]. destruct n; cbn [firstn nth]; auto. apply IH; lia.
Qed.

Lemma geti_slice : forall l off n j, 0 <= off -> 0 <= j < n ->
  geti (slice l off n) j = geti l (off + j).
Proof.
  intros l off n j H1 H2. unfold slice, geti.
  rewrite nth_firstn_ by lia. rewrite nth_skipn_. f_equal. lia.
Qed.

Lemma zlen_splice : forall l off new, 0 <= off -> off + zlen new <= zlen l ->
  zlen (splice l off new) = zlen l.
Proof.
  intros l off new H1 H2. unfold splice, zlen in *.
  rewrite !app_length, firstn_length, skipn_length. lia.
Qed.

Lemma geti_splice : forall l off new j, 0 <= off -> off + zlen new <= zlen l -> 0 <= j ->
  geti (splice l off new) j =
  if (off <=? j) && (j <? off + zlen new) then geti new (j - off) else geti l j.
Proof.
  intros l off new j H1 H2 H3. unfold splice, geti, zlen in *.
  destruct ((off <=? j) && (j <? off + Z.of_nat (length new))) eqn:E.
  - rewrite app_nth2; rewrite firstn_length; [|lia].
    rewrite app_nth1 by lia. f_equal; lia.
  - destruct (Z.lt_ge_cases j off).
    + rewrite app_nth1 by (rewrite firstn_length; lia).
      apply nth_firstn_; lia.
    + rewrite app_nth2; rewrite firstn_length; [|lia].
      rewrite app_nth2 by lia. rewrite nth_skipn_. f_equal. lia.
Qed.

Lemma zlen_upd : forall l i v, 0 <= i < zlen l -> zlen (upd l i v) = zlen l.
Proof. intros. apply zlen_splice; rewrite ?zlen_cons, ?zlen_nil; lia. Qed.

Lemma geti_upd : forall l i v j, 0 <= i < zlen l -> 0 <= j ->
  geti (upd l i v) j = if j =? i then v else geti l j.
Proof.
  intros l i v j H1 H2. unfold upd. rewrite geti_splice; rewrite ?zlen_cons, ?zlen_nil; try lia.
  destruct (j =? i) eqn:E.
  - replace ((i <=? j) && (j <? i + (1 + 0))) with true by lia.
    replace (j - i) with 0 by lia. reflexivity.
  - replace ((i <=? j) && (j <? i + (1 + 0))) with false by lia. reflexivity.
Qed.

Lemma list_ext : forall a b : list Z, zlen a = zlen b ->
  (forall i, 0 <= i < zlen a -> geti a i = geti b i) -> a = b.
Proof.
  intros a b Hl H. apply (nth_ext a b 0 0).
  - unfold zlen in Hl. lia.
  - intros n Hn. specialize (H (Z.of_nat n)). unfold geti, zlen in H.
    rewrite Nat2Z.id in H. apply H; lia.
Qed.

Lemma rd_ok : forall l i, 0 <= i < zlen l -> rd l i = Ok (geti l i).
Proof. intros. unfold rd. replace (inb (zlen l) i 1) with true; auto. symmetry. apply inb_true; lia. Qed.

Lemma wr_ok : forall l i v, 0 <= i < zlen l -> wr l i v = Ok (upd l i v).
Proof. intros. unfold wr. replace (inb (zlen l) i 1) with true; auto. symmetry. apply inb_true; lia. Qed.

Lemma rd_ub : forall l i, ~ (0 <= i < zlen l) -> rd l i = UB.
Proof. intros. unfold rd. replace (inb (zlen l) i 1) with false; auto. symmetry. apply inb_false; lia. Qed.

Lemma wr_ub : forall l i v, ~ (0 <= i < zlen l) -> wr l i v = UB.
Proof. intros. unfold wr. replace (inb (zlen l) i 1) with false; auto. symmetry. apply inb_false; lia. Qed.

Lemma memcpy_ok : forall dst doff src soff n,
  0 <= doff -> 0 <= soff -> 0 <= n -> doff + n <= zlen dst -> soff + n <= zlen src ->
  memcpy dst doff src soff n = Ok (splice dst doff (slice src soff n)).
Proof.
  intros. unfold memcpy.
  replace (inb (zlen dst) doff n) with true by (symmetry; apply inb_true; lia).
  replace (inb (zlen src) soff n) with true by (symmetry; apply inb_true; lia).
  reflexivity.
Qed.

Lemma memcpy_inv : forall dst doff src soff n r, memcpy dst doff src soff n = Ok r ->
  0 <= doff /\ 0 <= soff /\ 0 <= n /\ doff + n <= zlen dst /\ soff + n <= zlen src /\
  r = splice dst doff (slice src soff n).
Proof.
  intros dst doff src soff n r H. unfold memcpy in H.
  destruct (inb (zlen dst) doff n) eqn:E1; destruct (inb (zlen src) soff n) eqn:E2;
    cbn in H; try discriminate.
  apply inb_true in E1. apply inb_true in E2. inversion H. repeat split; lia.
Qed.

(** Pointwise view of a memcpy *)
Lemma memcpy_spec : forall dst doff src soff n,
  0 <= doff -> 0 <= soff -> 0 <= n -> doff + n <= zlen dst -> soff + n <= zlen src ->
  exists r, memcpy dst doff src soff n = Ok r /\ zlen r = zlen dst /\
    forall j, 0 <= j -> geti r j =
      if (doff <=? j) && (j <? doff + n) then geti src (soff + (j - doff)) else geti dst j.
Proof.
  intros. rewrite memcpy_ok by assumption. eexists; split; [reflexivity|].
  assert (Hs : zlen (slice src soff n) = n) by (apply zlen_slice; lia).
  split.
  - apply zlen_splice; lia.
  - intros j Hj. rewrite geti_splice; rewrite ?Hs; try lia.
    destruct ((doff <=? j) && (j <? doff + n)) eqn:E; auto.
    rewrite geti_slice by lia. f_equal.
Qed.

Lemma nth_repeat_Z : forall v n i, 0 <= i < Z.of_nat n -> geti (repeat v n) i = v.
Proof.
  intros v n i Hi. unfold geti. apply (repeat_spec n). apply nth_In. rewrite repeat_length. lia.
Qed.

Lemma memset_spec : forall dst off v n,
  0 <= off -> 0 <= n -> off + n <= zlen dst ->
  exists r, memset dst off v n = Ok r /\ zlen r = zlen dst /\
    forall j, 0 <= j -> geti r j =
      if (off <=? j) && (j <? off + n) then u8 v else geti dst j.
Proof.
  intros. unfold memset.
  replace (inb (zlen dst) off n) with true by (symmetry; apply inb_true; lia).
  eexists; split; [reflexivity|].
  assert (Hs : zlen (repeat (u8 v) (Z.to_nat n)) = n) by (rewrite zlen_repeat; lia).
  split.
  - apply zlen_splice; lia.
  - intros j Hj. rewrite geti_splice; rewrite ?Hs; try lia.
    destruct ((off <=? j) && (j <? off + n)) eqn:E; auto.
    apply nth_repeat_Z. lia.
Qed.

(** Loop rule: an invariant indexed by the number of iterations done. *)
Lemma for_rule : forall S (I : Z -> S -> Prop) body n i s,
  I i s ->
  (forall k st, i <= k < i + Z.of_nat n -> I k st ->
     exists st', body k st = Ok st' /\ I (k + 1) st') ->
  exists s', for_ n i body s = Ok s' /\ I (i + Z.of_nat n) s'.
Proof.
  intros S I body n. induction n as [|n IH]; intros i s H0 Hstep.
  - exists s. split; auto. replace (i + Z.of_nat 0) with i by lia. exact H0.
  - cbn [for_]. destruct (Hstep i s) as [s1 [E1 H1]]; [lia|exact H0|].
    rewrite E1. cbn [bind].
    destruct (IH (i + 1) s1 H1) as [s' [E' H']].
    { intros k st Hk HI. apply Hstep; [lia|exact HI]. }
    exists s'. split; auto.
    replace (i + Z.of_nat (Datatypes.S n)) with (i + 1 + Z.of_nat n) by lia. exact H'.
Qed.

Lemma loop_rule : forall S (I : Z -> S -> Prop) lo hi body s,
  lo <= hi ->
  I lo s ->
  (forall k st, lo <= k < hi -> I k st -> exists st', body k st = Ok st' /\ I (k + 1) st') ->
  exists s', loop lo hi body s = Ok s' /\ I hi s'.
Proof.
  intros S I lo hi body s Hle H0 Hstep. unfold loop.
  destruct (for_rule S I body (Z.to_nat (hi - lo)) lo s H0) as [s' [E H]].
  - intros k st Hk HI. apply Hstep; [lia|exact HI].
  - exists s'. split; auto. replace hi with (lo + Z.of_nat (Z.to_nat (hi - lo))) by lia. exact H.
Qed.

(** Inversion form: if the loop ended normally then every invariant preserved by
    successful iterations holds. *)
Lemma for_inv : forall S (I : Z -> S -> Prop) body n i s s',
  for_ n i body s = Ok s' -> I i s ->
  (forall k st st', i <= k < i + Z.of_nat n -> I k st -> body k st = Ok st' -> I (k + 1) st') ->
  I (i + Z.of_nat n) s'.
Proof.
  intros S I body n. induction n as [|n IH]; intros i s s' E H0 Hstep.
  - cbn in E. inversion E; subst. replace (i + Z.of_nat 0) with i by lia. exact H0.
  - cbn [for_] in E. apply bind_ok in E. destruct E as [s1 [E1 E2]].
    replace (i + Z.of_nat (Datatypes.S n)) with (i + 1 + Z.of_nat n) by lia.
    apply (IH (i + 1) s1 s' E2).
    + apply (Hstep i s s1); auto; lia.
    + intros k st st' Hk HI Hb. apply (Hstep k st st'); auto; lia.
Qed.

Lemma loop_inv : forall S (I : Z -> S -> Prop) lo hi body s s',
  lo <= hi -> loop lo hi body s = Ok s' -> I lo s ->
  (forall k st st', lo <= k < hi -> I k st -> body k st = Ok st' -> I (k + 1) st') ->
  I hi s'.
Proof.
  intros S I lo hi body s s' Hle E H0 Hstep. unfold loop in E.
  replace hi with (lo + Z.of_nat (Z.to_nat (hi - lo))) by lia.
  eapply for_inv; eauto. intros k st st' Hk HI Hb. apply (Hstep k st st'); auto; lia.
Qed.

Lemma u8_range : forall x, 0 <= u8 x < 256.
Proof. intros; unfold u8; lia. Qed.
Lemma u16_range : forall x, 0 <= u16 x < 65536.
Proof. intros; unfold u16; lia. Qed.
Lemma u32_range : forall x, 0 <= u32 x < 4294967296.
Proof. intros; unfold u32; lia. Qed.
Lemma u8_small : forall x, 0 <= x < 256 -> u8 x = x.
Proof. intros; unfold u8; apply Z.mod_small; lia. Qed.
Lemma u16_small : forall x, 0 <= x < 65536 -> u16 x = x.
Proof. intros; unfold u16; apply Z.mod_small; lia. Qed.
Lemma u32_small : forall x, 0 <= x < 4294967296 -> u32 x = x.
Proof. intros; unfold u32; apply Z.mod_small; lia. Qed.
Lemma i32_small : forall x, -2147483648 <= x < 2147483648 -> i32 x = x.
Proof. intros; unfold i32; lia. Qed.

(** A byte list *)
Definition bytes (l : list Z) : Prop := forall i, 0 <= i < zlen l -> 0 <= geti l i < 256.

Lemma bytes_Forall : forall l, bytes l <-> Forall (fun b => 0 <= b < 256) l.
Proof.
  intros l. unfold bytes, geti, zlen. rewrite Forall_forall. split.
  - intros H b Hb. apply (In_nth _ _ 0) in Hb. destruct Hb as [n [Hn <-]].
    specialize (H (Z.of_nat n)). rewrite Nat2Z.id in H. apply H. lia.
  - intros H i Hi. apply H. apply nth_In. lia.
Qed.
