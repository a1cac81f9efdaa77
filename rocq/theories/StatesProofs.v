(** Lemmas about the state machine. *)
From Coq Require Import ZArith List Bool Lia.
From Verif Require Import Base Enums ErrorStack ErrorStackSpec ErrorStackProofs Utility Image States.
Import ListNotations.
Open Scope Z_scope.

Definition est_wf (s : est) : Prop := exists p, rep s p.

Lemma set_error_wf : forall e s, est_wf s -> exists s', ilSetError e s = Ok s' /\ est_wf s'.
Proof.
  intros e s [p Hp]. destruct (setError_actual s p e Hp) as [s' [E R]].
  exists s'. split; [exact E|]. eexists; exact R.
Qed.

Lemma get_error_wf : forall s, est_wf s -> exists v s', ilGetError s = Ok (v, s') /\ est_wf s'.
Proof.
  intros s [p Hp]. destruct (getError_spec s p Hp) as [s' [E R]].
  exists (hd 0 p), s'. split; [exact E|]. eexists; exact R.
Qed.

Lemma rep_len : forall s p, rep s p -> (length p <= 32)%nat.
Proof. intros s p H. unfold rep in H. unfold zlen in *. lia. Qed.

Lemma drain_wf : forall fuel s p, rep s p -> (length p < fuel)%nat ->
  exists s' , drain_errors fuel s = Ok s' /\ est_wf s'.
Proof.
  induction fuel as [|k IH]; intros s p R L; [lia|]. cbn [drain_errors].
  destruct (getError_spec s p R) as [s' [E R']]. rewrite E. cbn [bind].
  destruct (hd 0 p =? IL_NO_ERROR) eqn:Z0.
  - exists s'. split; [reflexivity|]. eexists; exact R'.
  - destruct p as [|a p]; [cbn in Z0; discriminate|]. cbn [tl length] in *.
    apply (IH s' p R'). lia.
Qed.

Lemma drain_ok : forall s, est_wf s -> exists s', drain_errors 64 s = Ok s' /\ est_wf s'.
Proof.
  intros s [p R]. assert (L := rep_len _ _ R). apply (drain_wf 64 s p R). lia.
Qed.

Lemma raise_ok : forall e g, est_wf (errs g) ->
  exists s, ilSetError e (errs g) = Ok s /\ raise e g = Ok (set_errs g s) /\ est_wf s.
Proof.
  intros e g H. destruct (set_error_wf e _ H) as [s [E W]].
  exists s. unfold raise. rewrite E. auto.
Qed.

(** ** Invariant of reachable states *)
Record inv (g : gst) : Prop := {
  inv_pos : 0 <= pos g < 32;
  inv_est : est_wf (errs g);
  inv_live : forall i f a, 0 <= i <= pos g -> sv (slots g i) f = Some a ->
               a < nextb g /\ blocks g a <> None;
  inv_sep : forall i f j k a, 0 <= i <= pos g -> 0 <= j <= pos g ->
               sv (slots g i) f = Some a -> sv (slots g j) k = Some a -> i = j /\ f = k;
  inv_fresh : forall a, nextb g <= a -> blocks g a = None }.

Lemma inv_init : forall v, inv (g_init v).
Proof.
  intros v. constructor; cbn; try lia.
  - exists []. apply rep_init.
  - intros i f a Hi. unfold zupd. destruct (i =? 0); discriminate.
  - intros i f j k a Hi Hj. unfold zupd. destruct (i =? 0); discriminate.
  - reflexivity.
Qed.

(** What a call that neither pushes nor pops can change. *)
Record frame (g g' : gst) : Prop := {
  fr_inv : inv g';
  fr_pos : pos g' = pos g;
  fr_slots : forall i, i <> pos g -> slots g' i = slots g i;
  fr_blocks : forall a, a < nextb g -> (forall f, sv (slots g (pos g)) f <> Some a) ->
                blocks g' a = blocks g a;
  fr_next : nextb g <= nextb g' }.

Lemma frame_refl : forall g, inv g -> frame g g.
Proof. intros g H. constructor; auto; lia. Qed.

Lemma frame_errs : forall g s, inv g -> est_wf s -> frame g (set_errs g s).
Proof.
  intros g s H W. constructor; cbn; auto; try lia.
  destruct H; constructor; cbn; auto.
Qed.
Lemma frame_hints : forall g a b, inv g -> frame g (set_hints g a b).
Proof.
  intros g a b H. constructor; cbn; auto; try lia.
  destruct H; constructor; cbn; auto.
Qed.
Lemma frame_cur : forall g c, inv g -> frame g (set_cur g c).
Proof.
  intros g a H. constructor; cbn; auto; try lia.
  destruct H; constructor; cbn; auto.
Qed.

Lemma slot_ok : forall g i, 0 <= i < 32 -> slot g i = Ok (slots g i).
Proof.
  intros g i H. unfold slot, IL_ATTRIB_STACK_MAX.
  replace ((0 <=? i) && (i <? 32)) with true by lia. reflexivity.
Qed.
Lemma put_slot_ok : forall g i s, 0 <= i < 32 -> put_slot g i s = Ok (set_slots g (zupd (slots g) i s)).
Proof.
  intros g i s H. unfold put_slot, IL_ATTRIB_STACK_MAX.
  replace ((0 <=? i) && (i <? 32)) with true by lia. reflexivity.
Qed.

Lemma zupd_eq : forall {A} (f : Z -> A) i v, zupd f i v i = v.
Proof. intros. unfold zupd. rewrite Z.eqb_refl. reflexivity. Qed.
Lemma zupd_neq : forall {A} (f : Z -> A) i v k, k <> i -> zupd f i v k = f k.
Proof. intros A f i v k H. unfold zupd. destruct (Z.eqb_spec k i); [contradiction|reflexivity]. Qed.
Lemma supd_eq : forall f i v, supd f i v i = v.
Proof. intros. unfold supd. destruct (sfld_eq_dec i i); congruence. Qed.
Lemma supd_neq : forall f i v k, k <> i -> supd f i v k = f k.
Proof. intros f i v k H. unfold supd. destruct (sfld_eq_dec k i); congruence. Qed.
Lemma iupd_eq : forall f i v, iupd f i v i = v.
Proof. intros. unfold iupd. destruct (ifld_eq_dec i i); congruence. Qed.
Lemma iupd_neq : forall f i v k, k <> i -> iupd f i v k = f k.
Proof. intros f i v k H. unfold iupd. destruct (ifld_eq_dec k i); congruence. Qed.

Definition after_int (f : ifld) (v : Z) (g : gst) : gst :=
  set_slots g (zupd (slots g) (pos g)
    (mkSts (iupd (iv (slots g (pos g))) f v) (sv (slots g (pos g))))).

Lemma set_int_ok : forall f v g, 0 <= pos g < 32 -> set_int f v g = Ok (after_int f v g).
Proof.
  intros f v g H. unfold set_int. rewrite slot_ok by exact H. cbn [bind].
  rewrite put_slot_ok by exact H. reflexivity.
Qed.

Lemma sv_zupd_same : forall g p s, sv s = sv (slots g p) ->
  forall i, sv (zupd (slots g) p s i) = sv (slots g i).
Proof.
  intros g p s H i. unfold zupd. destruct (Z.eqb_spec i p); [subst; exact H|reflexivity].
Qed.

Lemma frame_int : forall f v g, inv g -> frame g (after_int f v g).
Proof.
  intros f v g H. unfold after_int.
  assert (SV : forall i, sv (zupd (slots g) (pos g)
    (mkSts (iupd (iv (slots g (pos g))) f v) (sv (slots g (pos g)))) i) = sv (slots g i))
    by (apply sv_zupd_same; reflexivity).
  constructor; cbn; auto; try lia.
  - destruct H as [P E L S F]. constructor; cbn; auto.
    + intros i k a Hi. rewrite SV. apply L; exact Hi.
    + intros i k j l a Hi Hj. rewrite !SV. apply S; assumption.
  - intros i Hi. apply zupd_neq; exact Hi.
Qed.

(** freeing the current slot's string [f] and replacing it by [p] *)
Definition after_str (f : sfld) (p : option Z) (g : gst) : gst :=
  set_slots g (zupd (slots g) (pos g)
    (mkSts (iv (slots g (pos g))) (supd (sv (slots g (pos g))) f p))).
Lemma set_str_ok : forall f v g, 0 <= pos g < 32 -> set_str f v g = Ok (after_str f v g).
Proof.
  intros f v g H. unfold set_str. rewrite slot_ok by exact H. cbn [bind].
  rewrite put_slot_ok by exact H. reflexivity.
Qed.
Lemma get_str_ok : forall f g, 0 <= pos g < 32 -> get_str f g = Ok (sv (slots g (pos g)) f).
Proof. intros f g H. unfold get_str. rewrite slot_ok by exact H. reflexivity. Qed.
Lemma get_int_ok : forall f g, 0 <= pos g < 32 -> get_int f g = Ok (iv (slots g (pos g)) f).
Proof. intros f g H. unfold get_int. rewrite slot_ok by exact H. reflexivity. Qed.

(** string assignment when the old pointer has been dropped from the heap or was NULL *)
Lemma frame_assign : forall ok f s g b,
  inv g ->
  (forall a, sv (slots g (pos g)) f <> Some a -> b a = blocks g a) ->
  (forall a, nextb g <= a -> b a = None) ->
  let n := nextb g in
  let g1 := if ok n : bool then set_heap g (zupd b n (Some s)) (n + 1) else set_heap g b (n + 1) in
  let p := if ok n then Some n else None in
  frame g (after_str f p g1).
Proof.
  intros ok f s g b H Hb Hf n g1 p. destruct H as [P E L S F].
  assert (Pn : pos g1 = pos g) by (unfold g1; destruct (ok n); reflexivity).
  assert (Sn : slots g1 = slots g) by (unfold g1; destruct (ok n); reflexivity).
  assert (En : errs g1 = errs g) by (unfold g1; destruct (ok n); reflexivity).
  assert (Nn : nextb g1 = n + 1) by (unfold g1; destruct (ok n); reflexivity).
  assert (Bn : forall a, a <> n -> blocks g1 a = b a).
  { intros a Ha. unfold g1. destruct (ok n); cbn; [apply zupd_neq; exact Ha|reflexivity]. }
  assert (Bn' : ok n = true -> blocks g1 n = Some s).
  { intros O. unfold g1. rewrite O. cbn. apply zupd_eq. }
  assert (G : forall i k a, 0 <= i <= pos g -> sv (slots (after_str f p g1) i) k = Some a ->
      (i = pos g /\ k = f /\ a = n /\ ok n = true) \/
      (sv (slots g i) k = Some a /\ (i <> pos g \/ k <> f))).
  { intros i k a Hi. unfold after_str; cbn. rewrite Pn, Sn. unfold zupd.
    destruct (Z.eqb_spec i (pos g)) as [->|Ne].
    - cbn. unfold supd. destruct (sfld_eq_dec k f) as [->|Ne].
      + unfold p. destruct (ok n) eqn:O; [|discriminate]. intros [= <-]. left. auto.
      + intros Q. right. auto.
    - intros Q. right. auto. }
  constructor.
  - constructor.
    + cbn. rewrite Pn. exact P.
    + cbn. rewrite En. exact E.
    + intros i k a Hi Q. cbn in Hi. rewrite Pn in Hi.
      apply (G i k a Hi) in Q. cbn. rewrite Nn.
      destruct Q as [[-> [-> [-> O]]]|[Q D]].
      * split; [lia|]. rewrite (Bn' O). discriminate.
      * destruct (L i k a Hi Q) as [L1 L2]. unfold n in *. split; [lia|].
        rewrite Bn by lia. rewrite Hb; [exact L2|].
        intros Q'. destruct (S i k (pos g) f a Hi ltac:(lia) Q Q') as [A B]. tauto.
    + intros i k j l a Hi Hj Q1 Q2. cbn in Hi, Hj. rewrite Pn in Hi, Hj.
      apply (G i k a Hi) in Q1. apply (G j l a Hj) in Q2.
      destruct Q1 as [[-> [-> [-> O]]]|[Q1 D1]]; destruct Q2 as [[-> [-> [A O2]]]|[Q2 D2]].
      * auto.
      * destruct (L j l _ Hj Q2) as [L1 _]. unfold n in *. lia.
      * subst a. destruct (L i k _ Hi Q1) as [L1 _]. unfold n in *. lia.
      * apply (S i k j l a Hi Hj Q1 Q2).
    + intros a Ha. cbn in *. rewrite Nn in Ha. rewrite Bn by lia. apply Hf. unfold n in *. lia.
  - cbn. exact Pn.
  - intros i Hi. cbn. rewrite Pn, Sn. apply zupd_neq. exact Hi.
  - intros a Ha Hno. cbn. rewrite Bn by (unfold n; lia). apply Hb. apply Hno.
  - cbn. rewrite Nn. unfold n. lia.
Qed.

(** ** Each call *)

Ltac raise_step H e g :=
  let s := fresh "s" in let E := fresh "E" in let R := fresh "R" in let W := fresh "W" in
  destruct (raise_ok e g (inv_est _ H)) as [s [E [R W]]]; rewrite R; cbn [bind].

Lemma set_string_frame : forall ok m c g g', inv g -> ilSetString ok m c g = Ok g' -> frame g g'.
Proof.
  intros ok m c g g' H Q. assert (P := inv_pos _ H). unfold ilSetString in Q.
  destruct c as [|s|a].
  - destruct (raise_ok IL_INVALID_PARAM g (inv_est _ H)) as [s [E [R W]]].
    rewrite R in Q. injection Q as <-. apply frame_errs; auto.
  - destruct (switch m str_modes) as [f|].
    2: { destruct (raise_ok IL_INVALID_ENUM g (inv_est _ H)) as [s' [E [R W]]].
         rewrite R in Q. injection Q as <-. apply frame_errs; auto. }
    rewrite get_str_ok in Q by exact P. cbn [bind] in Q.
    destruct (sv (slots g (pos g)) f) as [a|] eqn:Sf.
    + unfold free_str in Q. destruct (blocks g a) eqn:Ba; [|discriminate]. cbn [bind] in Q.
      unfold strdup in Q. cbn [read_str bind] in Q. cbn [nextb set_heap] in Q.
      set (b := zupd (blocks g) a None) in *.
      assert (FA := frame_assign ok f s g b H).
      assert (Hb : forall a0, sv (slots g (pos g)) f <> Some a0 -> b a0 = blocks g a0).
      { intros a0 N. unfold b. apply zupd_neq. congruence. }
      assert (Hf : forall a0, nextb g <= a0 -> b a0 = None).
      { intros a0 N. unfold b, zupd. destruct (a0 =? a); [reflexivity|]. apply (inv_fresh _ H). exact N. }
      specialize (FA Hb Hf). cbn zeta in FA.
      destruct (ok (nextb g)); cbn [bind] in Q; rewrite set_str_ok in Q by exact P;
        injection Q as <-; exact FA.
    + cbn [bind] in Q. unfold strdup in Q. cbn [read_str bind] in Q.
      assert (FA := frame_assign ok f s g (blocks g) H).
      specialize (FA ltac:(reflexivity) (inv_fresh _ H)). cbn zeta in FA.
      destruct (ok (nextb g)); cbn [bind] in Q; rewrite set_str_ok in Q by exact P;
        injection Q as <-; exact FA.
  - destruct (switch m str_modes) as [f|].
    2: { destruct (raise_ok IL_INVALID_ENUM g (inv_est _ H)) as [s' [E [R W]]].
         rewrite R in Q. injection Q as <-. apply frame_errs; auto. }
    rewrite get_str_ok in Q by exact P. cbn [bind] in Q.
    destruct (sv (slots g (pos g)) f) as [a'|] eqn:Sf.
    + unfold free_str in Q. destruct (blocks g a') eqn:Ba; [|discriminate]. cbn [bind] in Q.
      unfold strdup in Q. cbn [read_str] in Q. cbn [nextb set_heap blocks] in Q.
      destruct (zupd (blocks g) a' None a) as [s|] eqn:Za; [|discriminate]. cbn [bind] in Q.
      set (b := zupd (blocks g) a' None) in *.
      assert (FA := frame_assign ok f s g b H).
      assert (Hb : forall a0, sv (slots g (pos g)) f <> Some a0 -> b a0 = blocks g a0).
      { intros a0 N. unfold b. apply zupd_neq. congruence. }
      assert (Hf : forall a0, nextb g <= a0 -> b a0 = None).
      { intros a0 N. unfold b, zupd. destruct (a0 =? a'); [reflexivity|]. apply (inv_fresh _ H). exact N. }
      specialize (FA Hb Hf). cbn zeta in FA.
      destruct (ok (nextb g)); cbn [bind] in Q; rewrite set_str_ok in Q by exact P;
        injection Q as <-; exact FA.
    + cbn [bind] in Q. unfold strdup in Q. cbn [read_str] in Q.
      destruct (blocks g a) as [s|] eqn:Ba; [|discriminate]. cbn [bind] in Q.
      assert (FA := frame_assign ok f s g (blocks g) H).
      specialize (FA ltac:(reflexivity) (inv_fresh _ H)). cbn zeta in FA.
      destruct (ok (nextb g)); cbn [bind] in Q; rewrite set_str_ok in Q by exact P;
        injection Q as <-; exact FA.
Qed.

Lemma able_ok : forall m flag g, inv g -> exists v g', ilAble m flag g = Ok (v, g') /\ frame g g'.
Proof.
  intros m flag g H. unfold ilAble. destruct (switch m able_modes).
  - rewrite set_int_ok by apply H. cbn [bind]. eexists _, _. split; [reflexivity|]. apply frame_int; auto.
  - raise_step H IL_INVALID_ENUM g. eexists _, _. split; [reflexivity|]. apply frame_errs; auto.
Qed.
Lemma is_enabled_ok : forall m g, inv g -> exists v g', ilIsEnabled m g = Ok (v, g') /\ frame g g'.
Proof.
  intros m g H. unfold ilIsEnabled. destruct (switch m able_modes).
  - rewrite get_int_ok by apply H. cbn [bind]. eexists _, _. split; [reflexivity|]. apply frame_refl; auto.
  - raise_step H IL_INVALID_ENUM g. eexists _, _. split; [reflexivity|]. apply frame_errs; auto.
Qed.
Lemma image_int_ok : forall m g, inv g -> exists v g', iGetIntegervImage m g = Ok (v, g') /\ frame g g'.
Proof.
  intros m g H. unfold iGetIntegervImage. destruct (cur g) as [v|].
  - destruct (image_query v m).
    + eexists _, _. split; [reflexivity|]. apply frame_refl; auto.
    + raise_step H IL_INVALID_ENUM g. eexists _, _. split; [reflexivity|]. apply frame_errs; auto.
  - raise_step H IL_ILLEGAL_OPERATION g. eexists _, _. split; [reflexivity|]. apply frame_errs; auto.
Qed.
Lemma get_integer_ok : forall m g, inv g -> exists v g', ilGetInteger m g = Ok (v, g') /\ frame g g'.
Proof.
  intros m g H. unfold ilGetInteger. destruct (switch m get_modes).
  - rewrite get_int_ok by apply H. cbn [bind]. eexists _, _. split; [reflexivity|]. apply frame_refl; auto.
  - destruct (m =? IL_CUR_IMAGE).
    { destruct (cur g).
      - eexists _, _. split; [reflexivity|]. apply frame_refl; auto.
      - raise_step H IL_ILLEGAL_OPERATION g. eexists _, _. split; [reflexivity|]. apply frame_errs; auto. }
    destruct (m =? IL_VERSION_NUM).
    { eexists _, _. split; [reflexivity|]. apply frame_refl; auto. }
    destruct ((m =? IL_ACTIVE_IMAGE) || (m =? IL_ACTIVE_MIPMAP) || (m =? IL_ACTIVE_LAYER)).
    { destruct (cur g).
      - eexists _, _. split; [reflexivity|]. apply frame_refl; auto.
      - raise_step H IL_ILLEGAL_OPERATION g. eexists _, _. split; [reflexivity|]. apply frame_errs; auto. }
    apply image_int_ok; auto.
Qed.
Lemma origin_ok : forall m g, inv g -> exists v g', ilOriginFunc m g = Ok (v, g') /\ frame g g'.
Proof.
  intros m g H. unfold ilOriginFunc. match goal with |- context [if ?c then _ else _] => destruct c end.
  - rewrite set_int_ok by apply H. cbn [bind]. eexists _, _. split; [reflexivity|]. apply frame_int; auto.
  - raise_step H IL_INVALID_PARAM g. eexists _, _. split; [reflexivity|]. apply frame_errs; auto.
Qed.
Lemma format_ok : forall m g, inv g -> exists v g', ilFormatFunc m g = Ok (v, g') /\ frame g g'.
Proof.
  intros m g H. unfold ilFormatFunc. match goal with |- context [if ?c then _ else _] => destruct c end.
  - rewrite set_int_ok by apply H. cbn [bind]. eexists _, _. split; [reflexivity|]. apply frame_int; auto.
  - raise_step H IL_INVALID_PARAM g. eexists _, _. split; [reflexivity|]. apply frame_errs; auto.
Qed.
Lemma type_ok : forall m g, inv g -> exists v g', ilTypeFunc m g = Ok (v, g') /\ frame g g'.
Proof.
  intros m g H. unfold ilTypeFunc. match goal with |- context [if ?c then _ else _] => destruct c end.
  - rewrite set_int_ok by apply H. cbn [bind]. eexists _, _. split; [reflexivity|]. apply frame_int; auto.
  - raise_step H IL_INVALID_PARAM g. eexists _, _. split; [reflexivity|]. apply frame_errs; auto.
Qed.
Lemma compress_ok : forall m g, inv g -> exists v g', ilCompressFunc m g = Ok (v, g') /\ frame g g'.
Proof.
  intros m g H. unfold ilCompressFunc. match goal with |- context [if ?c then _ else _] => destruct c end.
  - rewrite set_int_ok by apply H. cbn [bind]. eexists _, _. split; [reflexivity|]. apply frame_int; auto.
  - raise_step H IL_INVALID_PARAM g. eexists _, _. split; [reflexivity|]. apply frame_errs; auto.
Qed.
Lemma raise_frame : forall e g, inv g -> exists g', raise e g = Ok g' /\ frame g g'.
Proof.
  intros e g H. raise_step H e g. eexists. split; [reflexivity|]. apply frame_errs; auto.
Qed.
Lemma frame_trans_errs : forall g g1 s, frame g g1 -> est_wf s -> frame g (set_errs g1 s).
Proof.
  intros g g1 s [I P S B N] W. constructor; cbn; auto.
  destruct I; constructor; cbn; auto.
Qed.
Lemma set_integer_ok : forall m p g, inv g -> exists g', ilSetInteger m p g = Ok g' /\ frame g g'.
Proof.
  intros m p g H. unfold ilSetInteger.
  destruct (m =? IL_FORMAT_MODE).
  { destruct (format_ok (u32 p) g H) as [v [g' [E F]]]. rewrite E. cbn [bind]. eauto. }
  destruct (m =? IL_ORIGIN_MODE).
  { destruct (origin_ok (u32 p) g H) as [v [g' [E F]]]. rewrite E. cbn [bind]. eauto. }
  destruct (m =? IL_TYPE_MODE).
  { destruct (type_ok (u32 p) g H) as [v [g' [E F]]]. rewrite E. cbn [bind]. eauto. }
  destruct ((m =? IL_IMAGE_DURATION) || (m =? IL_IMAGE_OFFX) || (m =? IL_IMAGE_OFFY)).
  { destruct (cur g) as [v|].
    - eexists. split; [reflexivity|]. apply frame_cur; auto.
    - raise_step H IL_ILLEGAL_OPERATION g.
      destruct (raise_ok IL_INVALID_PARAM (set_errs g s) W) as [s2 [E2 [R2 W2]]].
      rewrite R2. eexists. split; [reflexivity|]. apply frame_trans_errs; auto. apply frame_errs; auto. }
  destruct (m =? IL_IMAGE_CUBEFLAGS).
  { destruct (cur g) as [v|].
    - match goal with |- context [raise _ (set_cur g ?c)] =>
        destruct (raise_ok IL_INVALID_PARAM (set_cur g c) (inv_est _ H)) as [s2 [E2 [R2 W2]]] end.
      rewrite R2. eexists. split; [reflexivity|]. apply frame_trans_errs; [|exact W2]. apply frame_cur; auto.
    - raise_step H IL_ILLEGAL_OPERATION g.
      destruct (raise_ok IL_INVALID_PARAM (set_errs g s) W) as [s2 [E2 [R2 W2]]].
      rewrite R2. eexists. split; [reflexivity|]. apply frame_trans_errs; auto. apply frame_errs; auto. }
  destruct (switch m set_modes) as [[f chk]|].
  - destruct (chk p).
    + rewrite set_int_ok by apply H. eexists. split; [reflexivity|]. apply frame_int; auto.
    + apply raise_frame; auto.
  - apply raise_frame; auto.
Qed.
Lemma hint_ok : forall t m g, inv g -> exists g', ilHint t m g = Ok g' /\ frame g g'.
Proof.
  intros t m g H. unfold ilHint.
  repeat match goal with |- context [if ?c then _ else _] => destruct c end;
    try (apply raise_frame; auto; fail); eexists; (split; [reflexivity|apply frame_hints; auto]).
Qed.
Lemma get_string_ok : forall m g, inv g -> exists v g', ilGetString m g = Ok (v, g') /\ frame g g'.
Proof.
  intros m g H. unfold ilGetString.
  match goal with |- context [if ?c then _ else _] => destruct c end.
  { eexists _, _. split; [reflexivity|]. apply frame_refl; auto. }
  destruct (switch m str_modes).
  - rewrite get_str_ok by apply H. cbn [bind]. eexists _, _. split; [reflexivity|]. apply frame_refl; auto.
  - raise_step H IL_INVALID_ENUM g. eexists _, _. split; [reflexivity|]. apply frame_errs; auto.
Qed.
Lemma get_err_ok : forall g, inv g -> exists v s, ilGetError (errs g) = Ok (v, s) /\ frame g (set_errs g s).
Proof.
  intros g H. destruct (get_error_wf _ (inv_est _ H)) as [v [s [E W]]].
  exists v, s. split; [exact E|]. apply frame_errs; auto.
Qed.

(** ** Push *)

(** [g] extends [g0] by one more slot, whose strings are newer than [g0] *)
Definition pushed (g0 g : gst) : Prop :=
  inv g /\ pos g = pos g0 + 1 /\ (forall i, i <> pos g -> slots g i = slots g0 i) /\
  (forall a, a < nextb g0 -> blocks g a = blocks g0 a) /\ nextb g0 <= nextb g /\
  (forall f a, sv (slots g (pos g)) f = Some a -> nextb g0 <= a).

Lemma inv_push_null : forall g s, inv g -> pos g < 31 -> (forall f, sv s f = None) -> forall m c e,
  est_wf e ->
  inv (mkG (zupd (slots g) (pos g + 1) s) (pos g + 1) m c e (cur g) (blocks g) (nextb g)).
Proof.
  intros g s [P E L S F] B N m c e W. constructor; cbn; auto; try lia.
  - intros i f a Hi. unfold zupd. destruct (Z.eqb_spec i (pos g + 1)).
    + rewrite N. discriminate.
    + apply L. lia.
  - intros i f j k a Hi Hj. unfold zupd.
    destruct (Z.eqb_spec i (pos g + 1)); [rewrite N; discriminate|].
    destruct (Z.eqb_spec j (pos g + 1)); [rewrite N; discriminate|].
    apply S; lia.
Qed.

Lemma dup_strs_ok : forall ok g0 fs g, pushed g0 g -> inv g0 ->
  (forall f, In f fs -> sv (slots g0 (pos g0)) f <> None) ->
  exists g', dup_strs ok fs g = Ok g' /\ pushed g0 g' /\
    (forall f, iv (slots g' (pos g')) f = iv (slots g (pos g)) f).
Proof.
  intros ok g0. induction fs as [|f fs IH]; intros g Hp H0 Hs.
  - exists g. auto.
  - destruct Hp as [I [P [SL [BL [NX NW]]]]]. assert (P0 := inv_pos _ H0). assert (Pg := inv_pos _ I).
    cbn [dup_strs]. rewrite slot_ok by lia. cbn [bind].
    rewrite SL by lia. replace (pos g - 1) with (pos g0) by lia.
    destruct (sv (slots g0 (pos g0)) f) as [a|] eqn:Sa; [|exfalso; apply (Hs f); [left; reflexivity|exact Sa]].
    destruct (inv_live _ H0 (pos g0) f a ltac:(lia) Sa) as [La Lb].
    unfold strdup. cbn [read_str]. rewrite BL by exact La.
    destruct (blocks g0 a) as [s|]; [|congruence]. cbn [bind].
    assert (FA := frame_assign ok f s g (blocks g) I ltac:(reflexivity) (inv_fresh _ I)). cbn zeta in FA.
    set (n := nextb g) in *.
    set (g1 := if ok n then set_heap g (zupd (blocks g) n (Some s)) (n + 1)
               else set_heap g (blocks g) (n + 1)) in *.
    set (p := if ok n then Some n else None) in *.
    assert (Q : (let! (p0, g2) := (if ok n then Ok (Some n, set_heap g (zupd (blocks g) n (Some s)) (n + 1))
                               else Ok (None, set_heap g (blocks g) (n + 1))) in
             let! g3 := set_str f p0 g2 in dup_strs ok fs g3) = dup_strs ok fs (after_str f p g1)).
    { unfold g1, p. destruct (ok n); cbn [bind]; rewrite set_str_ok by (cbn; exact Pg); reflexivity. }
    rewrite Q. clear Q.
    destruct FA as [FI FP FS FB FN].
    assert (P1 : pos (after_str f p g1) = pos g) by exact FP.
    assert (Slot1 : slots (after_str f p g1) (pos g) =
              mkSts (iv (slots g (pos g))) (supd (sv (slots g (pos g))) f p)).
    { unfold after_str. cbn. unfold g1. destruct (ok n); cbn; apply zupd_eq. }
    destruct (IH (after_str f p g1)) as [g' [E' [Hp' Hi']]].
    + split; [exact FI|]. split; [lia|]. split; [|split; [|split]].
      * intros i Hi. rewrite P1 in Hi. rewrite FS by exact Hi. apply SL; exact Hi.
      * intros b Hb. rewrite FB.
        -- apply BL; exact Hb.
        -- unfold n in *. lia.
        -- intros k Hk. assert (NK := NW k b Hk). lia.
      * unfold n in *. lia.
      * intros k b. rewrite P1, Slot1. cbn. unfold supd.
        destruct (sfld_eq_dec k f); [|apply NW]. unfold p. destruct (ok n); [|discriminate].
        intros [= <-]. exact NX.
    + exact H0.
    + intros k Hk. apply Hs. right; exact Hk.
    + exists g'. split; [exact E'|]. split; [exact Hp'|]. intros k. rewrite Hi', P1, Slot1. reflexivity.
Qed.

Lemma copy_if_sv : forall c fs prev s, sv (copy_if c fs prev s) = sv s.
Proof. intros [] fs prev s; reflexivity. Qed.

(** The integer members after a push: those selected by [bits] are the previous ones *)
Definition push_sts (bits : Z) (prev : sts) : sts :=
    let bit b := negb (Z.land bits b =? 0) in
    let s := copy_if (bit IL_ORIGIN_BIT) [OriginMode; OriginSet] prev default_sts in
    let s := copy_if (bit IL_FORMAT_BIT) [FormatMode; FormatSet] prev s in
    let s := copy_if (bit IL_TYPE_BIT) [TypeMode; TypeSet] prev s in
    let s := copy_if (bit IL_FILE_BIT) [OverWriteFiles] prev s in
    let s := copy_if (bit IL_PAL_BIT) [AutoConvPal] prev s in
    let s := copy_if (bit IL_LOADFAIL_BIT) [DefaultOnFail] prev s in
    let s := copy_if (bit IL_COMPRESS_BIT) [Compression] prev s in
    copy_if (bit IL_FORMAT_SPECIFIC_BIT)
               [TgaCreateStamp; JpgQuality; PngInterlace; TgaRle; BmpRle; SgiRle; JpgFormat;
                DxtcFormat; PcdPicNum; PngAlphaIndex] prev s.

Lemma push_sts_sv : forall bits prev f, sv (push_sts bits prev) f = None.
Proof. intros. unfold push_sts. rewrite !copy_if_sv. reflexivity. Qed.

Lemma free_strs_null : forall fs g, 0 <= pos g < 32 ->
  (forall f, sv (slots g (pos g)) f = None) -> free_strs fs g = Ok g.
Proof.
  induction fs as [|f fs IH]; intros g P H; [reflexivity|]. cbn [free_strs].
  rewrite get_str_ok by exact P. cbn [bind]. rewrite H. cbn [bind]. apply IH; assumption.
Qed.

Definition strings_set (s : sts) : Prop := forall f, sv s f <> None.

Definition bit_on (bits b : Z) : bool := negb (Z.land bits b =? 0).

Lemma push_unfold : forall ok bits g, inv g -> pos g < 31 ->
  exists e, est_wf e /\
  let g2 := mkG (zupd (slots g) (pos g + 1) (push_sts bits (slots g (pos g)))) (pos g + 1)
       IL_FASTEST IL_USE_COMPRESSION e (cur g) (blocks g) (nextb g) in
  pushed g g2 /\
  exists g1, g1 = mkG (zupd (zupd (slots g) (pos g + 1) default_sts) (pos g + 1) (push_sts bits (slots g (pos g)))) (pos g + 1)
       IL_FASTEST IL_USE_COMPRESSION e (cur g) (blocks g) (nextb g) /\ pushed g g1 /\
  ilPushAttrib ok bits g =
    if bit_on bits IL_FORMAT_SPECIFIC_BIT then dup_strs ok all_sfld g1 else Ok g1.
Proof.
  intros ok bits g H B. assert (P := inv_pos _ H).
  destruct (drain_ok _ (inv_est _ H)) as [e [De We]]. exists e. split; [exact We|]. cbn zeta.
  assert (PU : forall sl, (forall i, sl i = zupd (slots g) (pos g + 1) (push_sts bits (slots g (pos g))) i) ->
    pushed g (mkG sl (pos g + 1) IL_FASTEST IL_USE_COMPRESSION e (cur g) (blocks g) (nextb g))).
  { intros sl Hsl. split; [|split; [|split; [|split; [|split]]]]; cbn; auto; try lia.
    - assert (I := inv_push_null g (push_sts bits (slots g (pos g))) H B (push_sts_sv _ _)
                     IL_FASTEST IL_USE_COMPRESSION e We).
      destruct I as [P' E' L' S' F']. cbn in *. constructor; cbn; auto.
      + intros i f a. rewrite Hsl. apply L'.
      + intros i f j k a. rewrite !Hsl. apply S'.
    - intros i Hi. rewrite Hsl. apply zupd_neq; exact Hi.
    - intros f a. rewrite Hsl, zupd_eq, push_sts_sv. discriminate. }
  split; [apply PU; reflexivity|].
  eexists. split; [reflexivity|]. split.
  { apply PU. intros i. unfold zupd. destruct (i =? pos g + 1); reflexivity. }
  unfold ilPushAttrib, IL_ATTRIB_STACK_MAX.
  replace (32 - 1 <=? pos g) with false by lia.
  unfold ilDefaultStates. cbn [pos set_pos]. rewrite put_slot_ok by (cbn; lia). cbn [bind].
  cbn [set_hints set_slots set_pos errs slots pos mem_hint comp_hint cur blocks nextb].
  rewrite De. cbn [bind]. cbn [set_errs errs slots pos mem_hint comp_hint cur blocks nextb].
  rewrite !slot_ok by (cbn; lia). cbn [bind]. cbn [slots pos].
  rewrite put_slot_ok by (cbn; lia). cbn [bind]. unfold set_slots.
  cbn [set_errs set_hints set_pos errs slots pos mem_hint comp_hint cur blocks nextb].
  rewrite zupd_eq. replace (pos g + 1 - 1) with (pos g) by lia. rewrite (zupd_neq _ (pos g + 1) _ (pos g)) by lia.
  fold (bit_on bits IL_FORMAT_SPECIFIC_BIT).
  cbn [set_slots errs slots pos mem_hint comp_hint cur blocks nextb].
  match goal with |- context [zupd (zupd _ _ _) _ ?s] => change s with (push_sts bits (slots g (pos g))) end.
  destruct (bit_on bits IL_FORMAT_SPECIFIC_BIT) eqn:Bt.
  - rewrite free_strs_null.
    + reflexivity.
    + cbn. lia.
    + intros f. cbn. rewrite zupd_eq. apply push_sts_sv.
  - reflexivity.
Qed.

Lemma push_ok : forall ok bits g, inv g -> pos g < 31 ->
  (bit_on bits IL_FORMAT_SPECIFIC_BIT = true -> strings_set (slots g (pos g))) ->
  exists g', ilPushAttrib ok bits g = Ok g' /\ pushed g g' /\
    forall f, iv (slots g' (pos g')) f = iv (push_sts bits (slots g (pos g))) f.
Proof.
  intros ok bits g H B HS. destruct (push_unfold ok bits g H B) as [e [We [_ [g1 [G1 [P1 E1]]]]]].
  rewrite E1. destruct (bit_on bits IL_FORMAT_SPECIFIC_BIT).
  - destruct (dup_strs_ok ok g all_sfld g1 P1 H) as [g' [E' [P' I']]].
    + intros f _. apply HS. reflexivity.
    + exists g'. split; [exact E'|]. split; [exact P'|]. intros f. rewrite I'. subst g1. cbn.
      rewrite zupd_eq. reflexivity.
  - exists g1. split; [reflexivity|]. split; [exact P1|]. intros f. subst g1. cbn. rewrite zupd_eq. reflexivity.
Qed.

Lemma dup_strs_null : forall ok g0 fs g, pushed g0 g -> inv g0 ->
  (exists f, In f fs /\ sv (slots g0 (pos g0)) f = None) -> dup_strs ok fs g = UB.
Proof.
  intros ok g0. induction fs as [|f fs IH]; intros g Hp H0 [k [Hk Nk]]; [destruct Hk|].
  assert (I := proj1 Hp).
  destruct (sv (slots g0 (pos g0)) f) as [a|] eqn:Sa.
  - destruct (dup_strs_ok ok g0 [f] g Hp H0) as [g' [E' [P' _]]].
    { intros x [<-|[]]. congruence. }
    cbn [dup_strs] in *. apply bind_ok in E'. destruct E' as [prev [E1 E']]. rewrite E1. cbn [bind].
    apply bind_ok in E'. destruct E' as [[p g1] [E2 E']]. rewrite E2. cbn [bind].
    apply bind_ok in E'. destruct E' as [g2 [E3 E']]. rewrite E3. cbn [bind].
    injection E' as ->. apply IH; auto. destruct Hk as [->|Hk]; [congruence|]. eauto.
  - destruct Hp as [_ [P [SL _]]]. assert (Pg := inv_pos _ I). assert (P0 := inv_pos _ H0).
    cbn [dup_strs]. rewrite slot_ok by lia. cbn [bind]. rewrite SL by lia.
    replace (pos g - 1) with (pos g0) by lia. rewrite Sa. reflexivity.
Qed.

Lemma all_sfld_in : forall f, In f all_sfld.
Proof. intros []; cbn; tauto. Qed.

Lemma push_null_ub : forall ok bits g f, inv g -> pos g < 31 ->
  bit_on bits IL_FORMAT_SPECIFIC_BIT = true -> sv (slots g (pos g)) f = None ->
  ilPushAttrib ok bits g = UB.
Proof.
  intros ok bits g f H B Bt N. destruct (push_unfold ok bits g H B) as [e [We [_ [g1 [G1 [P1 E1]]]]]].
  rewrite E1, Bt. apply (dup_strs_null ok g all_sfld g1 P1 H). exists f. split; [apply all_sfld_in|exact N].
Qed.

Lemma push_inv : forall ok bits g g', inv g -> pos g < 31 -> ilPushAttrib ok bits g = Ok g' -> pushed g g'.
Proof.
  intros ok bits g g' H B E.
  destruct (bit_on bits IL_FORMAT_SPECIFIC_BIT) eqn:Bt.
  - assert (HS : strings_set (slots g (pos g))).
    { intros f N. rewrite (push_null_ub ok bits g f H B Bt N) in E. discriminate. }
    destruct (push_ok ok bits g H B) as [g2 [E2 [P2 _]]]; [auto|]. congruence.
  - destruct (push_ok ok bits g H B) as [g2 [E2 [P2 _]]]; [congruence|]. congruence.
Qed.

(** ** Arbitrary steps *)
Definition is_push (o : sop) : bool := match o with Push _ => true | _ => false end.
Definition is_pop (o : sop) : bool := match o with Pop => true | _ => false end.

Lemma step_frame : forall ok o g g', inv g -> is_push o = false -> is_pop o = false ->
  sstep ok o g = Ok g' -> frame g g'.
Proof.
  intros ok o g g' H N1 N2 E. destruct o; cbn [sstep is_push is_pop] in *; try discriminate.
  - destruct (able_ok m IL_TRUE g H) as [v [g1 [E1 F]]]. unfold ilEnable in E. rewrite E1 in E. cbn in E. congruence.
  - destruct (able_ok m IL_FALSE g H) as [v [g1 [E1 F]]]. unfold ilDisable in E. rewrite E1 in E. cbn in E. congruence.
  - destruct (is_enabled_ok m g H) as [v [g1 [E1 F]]]. rewrite E1 in E. cbn in E. congruence.
  - destruct (get_integer_ok m g H) as [v [g1 [E1 F]]]. rewrite E1 in E. cbn [bind] in E. congruence.
  - destruct (set_integer_ok m p g H) as [g1 [E1 F]]. congruence.
  - destruct (origin_ok m g H) as [v [g1 [E1 F]]]. rewrite E1 in E. cbn in E. congruence.
  - destruct (format_ok m g H) as [v [g1 [E1 F]]]. rewrite E1 in E. cbn in E. congruence.
  - destruct (type_ok m g H) as [v [g1 [E1 F]]]. rewrite E1 in E. cbn in E. congruence.
  - destruct (compress_ok m g H) as [v [g1 [E1 F]]]. rewrite E1 in E. cbn in E. congruence.
  - destruct (hint_ok t m g H) as [g1 [E1 F]]. congruence.
  - destruct (get_string_ok m g H) as [v [g1 [E1 F]]]. rewrite E1 in E. cbn in E. congruence.
  - eapply set_string_frame; eauto.
  - destruct (get_err_ok g H) as [v [s [E1 F]]]. rewrite E1 in E. cbn in E. congruence.
Qed.

Lemma push_overflow : forall ok bits g, inv g -> pos g = 31 ->
  exists s, ilSetError IL_STACK_OVERFLOW (errs g) = Ok s /\ ilPushAttrib ok bits g = Ok (set_errs g s) /\ est_wf s.
Proof.
  intros ok bits g H P. destruct (raise_ok IL_STACK_OVERFLOW g (inv_est _ H)) as [s [E [R W]]].
  exists s. split; [exact E|]. split; [|exact W].
  unfold ilPushAttrib, IL_ATTRIB_STACK_MAX. replace (32 - 1 <=? pos g) with true by lia.
  unfold raise. cbn [errs set_pos]. rewrite E. cbn [bind]. destruct g; cbn in *. subst. reflexivity.
Qed.
Lemma pop_underflow : forall g, inv g -> pos g = 0 ->
  exists s, ilSetError IL_STACK_UNDERFLOW (errs g) = Ok s /\ ilPopAttrib g = Ok (set_errs g s) /\ est_wf s.
Proof.
  intros g H P. destruct (raise_ok IL_STACK_UNDERFLOW g (inv_est _ H)) as [s [E [R W]]].
  exists s. split; [exact E|]. split; [|exact W].
  unfold ilPopAttrib. replace (pos g <=? 0) with true by lia.
  unfold raise. cbn [errs set_pos]. rewrite E. cbn [bind]. destruct g; cbn in *. subst. reflexivity.
Qed.
Lemma pop_eq : forall g, 0 < pos g -> ilPopAttrib g = Ok (set_pos g (pos g - 1)).
Proof. intros g P. unfold ilPopAttrib. replace (pos g <=? 0) with false by lia. reflexivity. Qed.

Lemma pop_inv : forall g, inv g -> 0 < pos g -> inv (set_pos g (pos g - 1)).
Proof.
  intros g [P E L S F] B. constructor; cbn; auto; try lia.
  - intros i f a Hi. apply L. lia.
  - intros i f j k a Hi Hj. apply S; lia.
Qed.

Lemma step_inv : forall ok o g g', inv g -> sstep ok o g = Ok g' -> inv g'.
Proof.
  intros ok o g g' H E. assert (P := inv_pos _ H). destruct o;
    try (eapply fr_inv; eapply step_frame; [exact H| | |exact E]; reflexivity).
  - cbn [sstep] in E. destruct (Z.eq_dec (pos g) 31) as [B|B].
    + destruct (push_overflow ok bits g H B) as [s [E1 [E2 W]]]. rewrite E2 in E. injection E as <-.
      destruct H; constructor; cbn; auto.
    + eapply (proj1 (push_inv ok bits g g' H ltac:(lia) E)).
  - cbn [sstep] in E. destruct (Z.eq_dec (pos g) 0) as [B|B].
    + destruct (pop_underflow g H B) as [s [E1 [E2 W]]]. rewrite E2 in E. injection E as <-.
      destruct H; constructor; cbn; auto.
    + rewrite pop_eq in E by lia. injection E as <-. apply pop_inv; [exact H|lia].
Qed.

Lemma run_inv : forall ok h g g', inv g -> srun ok h g = Ok g' -> inv g'.
Proof.
  intros ok. induction h as [|o h IH]; intros g g' H E; cbn [srun] in E.
  - congruence.
  - apply bind_ok in E. destruct E as [g1 [E1 E2]]. eapply IH; [|exact E2]. eapply step_inv; eauto.
Qed.
