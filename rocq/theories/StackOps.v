(** The calls of the name machine on well-formed states. *)
From Coq Require Import ZArith List Bool Lia.
From Verif Require Import Base Enums Utility Stack StackHeap StackWf.
Import ListNotations.
Open Scope Z_scope.

Definition NMAX : Z := 268435456. (* 2^28 *)

(** ** Initialised states *)
Record G (s : st) : Prop := {
  g_inv : Inv none_r none_b s;
  g_siz : Siz none_b s;
  g_f : exists f, stk s = Some (ssz s, f) /\ forall n, ~ (0 <= n < lst s) -> f n = None;
  g_ssz : 1024 <= ssz s <= NMAX + 1024;
  g_lst : 2 <= lst s <= ssz s;
  g_top : lst s <= NMAX;
  g_fre : forall n, In n (fre s) -> 0 < n < lst s;
  g_cnm : 0 <= cnm s < lst s;
  g_cur : forall a, cur s = Some a -> ims s a <> None;
  g_ini : ini s = true }.

(** the current image belongs to / is the image bound as CurName *)
Definition sync (s : st) : Prop := forall c, cur s = Some c -> exists b, points s (Root (cnm s)) b /\ reach s b c.
Definition base (s : st) : Prop := forall c, cur s = Some c -> points s (Root (cnm s)) c.
Lemma base_sync : forall s, base s -> sync s.
Proof. intros s H c E. exists c. split; [auto|constructor]. Qed.

(** ** Changes below the image [a] *)
Record mutd (s s' : st) (a : Z) : Prop := {
  md_inv : Inv none_r none_b s';
  md_siz : Siz none_b s';
  md_glob : glob s s';
  md_live : ims s' a <> None;
  md_touch : touch (reach s a) (ownb s a) s s' }.

Lemma none_r_not : forall r, ~ none_r r. Proof. intros r []. Qed.
Lemma none_b_not : forall p k, ~ none_b p k. Proof. intros p k []. Qed.
#[export] Hint Resolve none_r_not none_b_not : core.

Lemma reach_ge0 : forall s a x, Inv none_r none_b s -> reach s a x -> a <= x.
Proof. intros s a x I H. eapply reach_ge; [exact I| |exact H]. intros p k []. Qed.
Lemma reach_live0 : forall s a x, Inv none_r none_b s -> ims s a <> None -> reach s a x -> ims s x <> None.
Proof. intros s a x I L H. eapply reach_live; [exact I| |exact L|exact H]. intros p k []. Qed.

Lemma reach_below : forall s s' b x c, Inv none_r none_b s -> reach s b x -> x <= c ->
  (forall p, p < c -> ims s p <> None -> ims s' p = ims s p) -> reach s' b x.
Proof.
  intros s s' b x c I H. induction H; intros Hc HS; [constructor|].
  assert (p < x) by (exact (I_ord _ _ _ I p k x (none_r_not _) H0)).
  destruct H0 as [j [Ej G]].
  eapply reach_step; [apply IHreach; [lia|assumption]|]. exists j. split; [|exact G]. rewrite HS; [assumption|lia|congruence].
Qed.

Lemma points_root_glob : forall s s' n x, glob s s' -> points s (Root n) x -> points s' (Root n) x.
Proof. intros s s' n x [E _] H. unfold points in *. rewrite E. exact H. Qed.
Lemma glob_sym : forall s s', glob s s' -> glob s' s.
Proof. intros s s' (?&?&?&?&?&?&?). repeat split; congruence. Qed.

Lemma mutd_G : forall s s' a, G s -> cur s = Some a -> mutd s s' a -> G s' /\ (sync s -> sync s') /\ (base s -> base s').
Proof.
  intros s s' a g E m. destruct (md_glob _ _ _ m) as (E1&E2&E3&E4&E5&E6&E7).
  split; [|split].
  - split.
    + apply m.
    + apply m.
    + destruct (g_f _ g) as [f [F1 F2]]. exists f. rewrite E1, E2, E3. auto.
    + rewrite E2. apply g.
    + rewrite E2, E3. apply g.
    + rewrite E3. apply g.
    + rewrite E4, E3. apply g.
    + rewrite E6, E3. apply g.
    + intros x Hx. assert (x = a) by congruence. subst x. apply m.
    + rewrite E7. apply g.
  - intros S c Hc. rewrite E5 in Hc. destruct (S c Hc) as [b [P R]]. assert (c = a) by congruence. subst c.
    exists b. rewrite E6. split; [eapply points_root_glob; [apply m|assumption]|].
    eapply (reach_below s s' b a a); [apply g|exact R|lia|].
    intros p Hp L. apply (t_im _ _ _ _ (md_touch _ _ _ m)).
    + apply (I_im _ _ _ (g_inv _ g)) in L. lia.
    + intros Q. apply reach_ge0 in Q; [lia|apply g].
  - intros S c Hc. rewrite E6, E5 in *. eapply points_root_glob; [apply m|]. apply S. assumption.
Qed.

Lemma ph_touch : forall s0 s a i K KB, ph s0 s a i K KB -> touch (reach s0 a) (ownb s0 a) s0 s.
Proof.
  intros s0 s a i K KB P. split.
  - rewrite (heap_only_nxt _ _ (p_heap _ _ _ _ _ _ P)). lia.
  - intros x _ N. destruct (p_im _ _ _ _ _ _ P x) as [|[_ Q]]; [assumption|contradiction].
  - intros x _ N. destruct (p_bk _ _ _ _ _ _ P x) as [|[_ Q]]; [assumption|contradiction].
Qed.
(** one structure and blocks from [b0] on *)
Lemma touch_one : forall (P PB : Z -> Prop) s s' a, P a -> nxt s <= nxt s' -> (forall x, x < nxt s -> x <> a -> ims s' x = ims s x) ->
  (forall b, b < nxt s -> bks s' b = bks s b) -> touch P PB s s'.
Proof.
  intros P PB s s' a Pa Hn HI HB. split; [assumption| |].
  - intros x Hx N. apply HI; [assumption|]. intros ->. contradiction.
  - intros b Hb _. auto.
Qed.
Lemma touch_trans0 : forall (P PB : Z -> Prop) s s1 s2, touch P PB s s1 -> touch P PB s1 s2 -> touch P PB s s2.
Proof. intros. eapply touch_trans; eauto. Qed.

Definition all_lk : list lk := [LLayers; LFaces; LNext; LMips].
Lemma in_all_lk : forall k, In k all_lk.
Proof. intros []; cbn; tauto. Qed.
Definition fresh_im0 W H D bpp fmt typ (b : option Z) : imb :=
  mkImb (init_hdr W H D bpp fmt typ) None None None None b None None None None.

Lemma nl_tidy : forall E EB s a i, nl E EB s -> ims s a = Some i -> tidy i.
Proof. intros. eapply n_tidy; eauto. Qed.
Lemma pal_cond : forall i, tidy i -> iPal i <> None ->
  non_null (iPal i) && negb (hPalSize (hd i) =? 0) && negb (hPalType (hd i) =? IL_PAL_NONE) = true.
Proof.
  intros i [T _] N. destruct (T N) as [T1 T2]. destruct (iPal i); [|congruence]. cbn [non_null andb].
  apply andb_true_iff. split; apply negb_true_iff, Z.eqb_neq; [lia|assumption].
Qed.

(** ** The release part of ilTexImage_ *)
Lemma tex_release : forall {B} s a i (m : M B) Q, Inv none_r none_b s -> Siz none_b s -> ims s a = Some i ->
  (forall s' KB, ph s s' a i all_lk KB -> (forall k, k <> BPal -> In k KB) -> (tidy i -> forall k b, getb k i = Some b -> bks s' b = None) ->
     wp m s' Q) ->
  wp (exec (if non_null (iPal i) && negb (hPalSize (hd i) =? 0) && negb (hPalType (hd i) =? IL_PAL_NONE)
          then free_blk (iPal i) else ret tt);
      exec ilCloseImage (iMips i);
      exec ilCloseImage (iNext i);
      exec ilCloseImage (iFaces i);
      exec ilCloseImage (iLayers i);
      exec free_blk (iAnim i);
      exec free_blk (iProf i);
      exec free_blk (iDxtc i);
      exec free_blk (iData i); m) s Q.
Proof.
  intros B s a i m Q I Z Ei H.
  assert (ST : forall (R : unit -> st -> Prop), (forall s' KB, ph s s' a i [] KB -> (KB = [] \/ KB = [BPal]) ->
      (tidy i -> iPal i <> None -> KB = [BPal]) -> R tt s') ->
      wp (if non_null (iPal i) && negb (hPalSize (hd i) =? 0) && negb (hPalType (hd i) =? IL_PAL_NONE)
          then free_blk (iPal i) else ret tt) s R).
  { intros R HR. destruct (non_null (iPal i) && negb (hPalSize (hd i) =? 0) && negb (hPalType (hd i) =? IL_PAL_NONE)) eqn:C.
    - apply (ph_free s s a i [] [] BPal); [apply ph_start; assumption|auto|]. intros s' P. apply (HR s' [BPal]); auto.
    - apply wp_ret. apply (HR s []); [apply ph_start; assumption|auto|]. intros T N. rewrite (pal_cond i T N) in C. discriminate. }
  apply wp_bind. apply ST. intros s1 KB P1 HKB TP.
  assert (NB : forall k, k <> BPal -> ~ In k KB).
  { intros k Hk Q1. destruct HKB as [-> | ->]; [contradiction|]. destruct Q1 as [<-|[]]; congruence. }
  apply wp_bind. apply (ph_close s s1 a i [] KB LMips); [assumption|intros []|]. intros s2 P2.
  apply wp_bind. eapply (ph_close s s2 a i _ KB LNext); [eassumption|intros [|[]]; discriminate|]. intros s3 P3.
  apply wp_bind. eapply (ph_close s s3 a i _ KB LFaces); [eassumption|intros [|[|[]]]; discriminate|]. intros s4 P4.
  apply wp_bind. eapply (ph_close s s4 a i _ KB LLayers); [eassumption|intros [|[|[|[]]]]; discriminate|]. intros s5 P5.
  apply wp_bind. eapply (ph_free s s5 a i _ KB BAnim); [eassumption|apply NB; discriminate|]. intros s6 P6.
  apply wp_bind. eapply (ph_free s s6 a i _ _ BProf); [eassumption|intros [|Q1]; [discriminate|eapply (NB BProf); [discriminate|assumption]]|]. intros s7 P7.
  apply wp_bind. eapply (ph_free s s7 a i _ _ BDxtc); [eassumption|intros [|[|Q1]]; [discriminate|discriminate|eapply (NB BDxtc); [discriminate|assumption]]|]. intros s8 P8.
  apply wp_bind. eapply (ph_free s s8 a i _ _ BData); [eassumption|intros [|[|[|Q1]]]; [discriminate|discriminate|discriminate|eapply (NB BData); [discriminate|assumption]]|]. intros s9 P9.
  apply (H s9 _ P9).
  - intros [] Hk; cbn; tauto.
  - intros T k b Gb. destruct (bk_eq_dec k BPal) as [->|Nk].
    + apply (p_KB _ _ _ _ _ _ P9 BPal); [|assumption]. cbn in Gb. rewrite (TP T) by congruence. cbn. tauto.
    + apply (p_KB _ _ _ _ _ _ P9 k); [|assumption]. destruct k; cbn; tauto.
Qed.

Section Ops.
Variable A : oracle.
Hypothesis OK : oracle_ok A.

(** ** ilTexImage_ *)
Lemma wp_TexImage_ : forall s a i W H D bpp fmt typ data (Q : bool -> st -> Prop),
  Inv none_r none_b s -> Siz none_b s -> ims s a = Some i ->
  ilGetBpcType typ <> 0 -> (forall src, data = Some src -> hSize (init_hdr W H D bpp fmt typ) <= zlen src) ->
  (forall ok s', mutd s s' a -> (nl none none s -> nl none none s') ->
     ims s' a = Some (fresh_im0 W H D bpp fmt typ (if ok : bool then Some (nxt s) else None)) ->
     (ok = true -> exists l, bks s' (nxt s) = Some l /\ zlen l = hSize (init_hdr W H D bpp fmt typ) /\
        forall src, data = Some src -> l = slice src 0 (hSize (init_hdr W H D bpp fmt typ))) ->
     (ok = false -> errs s' = IL_OUT_OF_MEMORY :: errs s) -> (nofail A -> ok = true) -> Q ok s') ->
  wp (ilTexImage_ A (Some a) W H D bpp fmt typ data) s Q.
Proof.
  intros s a i W H D bpp fmt typ data Q I Z Ei NT HS HQ. unfold ilTexImage_. apply wp_bind. eapply wp_get_im; [exact Ei|].
  apply (tex_release s a i); auto. intros s1 KB P1 HK TD.
  assert (X1 := heap_only_nxt _ _ (p_heap _ _ _ _ _ _ P1)).
  apply (wp_init A OK (inl a all_lk) (inb_ a KB) a i); auto.
  - apply P1.
  - intros x j _ Ej. apply P1. assumption.
  - apply P1.
  - intros ok s2 I2 Z2 G2 X2 M2 B2 E2 T2 F2 NF2 N2. rewrite X1 in *.
    assert (M : mutd s s2 a).
    { split.
      - eapply Inv_mono; [| |exact I2].
        + intros r [[k [-> _]] Hr]. exfalso. eapply Hr; reflexivity.
        + intros p k [[-> _] Hp]. congruence.
      - eapply Siz_mono; [|exact Z2]. intros p k [[-> _] Hp]. congruence.
      - eapply glob_trans; [apply heap_only_glob; apply P1|exact G2].
      - rewrite E2. discriminate.
      - eapply touch_trans0; [eapply ph_touch; exact P1|]. apply (touch_one _ _ _ _ a); auto.
        + constructor.
        + lia.
        + intros b Hb. apply B2. lia. }
    apply HQ; auto.
    + intros N. eapply N2; [apply P1; exact N| | |intros x []|intros x []].
      * intros k x Gk L. exfalso. apply L. apply (p_K _ _ _ _ _ _ P1 k); [apply in_all_lk|assumption].
      * intros k x Gk L. exfalso. apply L. eapply TD; [|exact Gk]. eapply nl_tidy; eauto.
    + intros E. destruct (F2 E) as [_ F3]. rewrite F3. f_equal. rewrite (p_heap _ _ _ _ _ _ P1). reflexivity.
Qed.

(** ** ilTexImageSurface_ *)
Lemma wp_TexSurface : forall s a i W H D bpp fmt typ data (Q : bool -> st -> Prop),
  Inv none_r none_b s -> Siz none_b s -> cur s = Some a -> ims s a = Some i ->
  ilGetBpcType typ <> 0 -> (forall src, data = Some src -> hSize (init_hdr W H D bpp fmt typ) <= zlen src) ->
  (forall ok s', mutd s s' a -> (nl none none s -> nl none none s') ->
     (exists j, ims s' a = Some j /\ (forall k, getl k j = getl k i) /\ iPal j = None /\ iData j = (if ok : bool then Some (nxt s) else None) /\
        hd j = set_cube_org (hCube (hd i)) (hOrg (hd i)) (init_hdr W H D bpp fmt typ)) ->
     (ok = true -> exists l, bks s' (nxt s) = Some l /\ zlen l = hSize (init_hdr W H D bpp fmt typ) /\
        forall src, data = Some src -> l = slice src 0 (hSize (init_hdr W H D bpp fmt typ))) ->
     (nofail A -> ok = true) -> Q ok s') ->
  wp (ilTexImageSurface A W H D bpp fmt typ data) s Q.
Proof.
  intros s a i W H D bpp fmt typ data Q I Z C Ei NT HS HQ. unfold ilTexImageSurface. apply wp_bind, wp_get. rewrite C.
  apply wp_bind. eapply wp_get_im; [exact Ei|].
  assert (ST : forall (R : unit -> st -> Prop), (forall s' KB, ph s s' a i [] KB -> (KB = [] \/ KB = [BPal]) ->
      (tidy i -> iPal i <> None -> KB = [BPal]) -> R tt s') ->
      wp (if non_null (iPal i) && negb (hPalSize (hd i) =? 0) && negb (hPalType (hd i) =? IL_PAL_NONE)
          then free_blk (iPal i) else ret tt) s R).
  { intros R HR. destruct (non_null (iPal i) && negb (hPalSize (hd i) =? 0) && negb (hPalType (hd i) =? IL_PAL_NONE)) eqn:CC.
    - apply (ph_free s s a i [] [] BPal); [apply ph_start; assumption|auto|]. intros s' P. apply (HR s' [BPal]); auto.
    - apply wp_ret. apply (HR s []); [apply ph_start; assumption|auto|]. intros T N. rewrite (pal_cond i T N) in CC. discriminate. }
  apply wp_bind. apply ST. intros s1 KB P1 HKB TP. clear ST.
  assert (NB : forall k, k <> BPal -> ~ In k KB).
  { intros k Hk Q1. destruct HKB as [-> | ->]; [contradiction|]. destruct Q1 as [<-|[]]; congruence. }
  apply wp_bind. eapply (ph_free s s1 a i _ KB BAnim); [eassumption|apply NB; discriminate|]. intros s6 P6.
  apply wp_bind. eapply (ph_free s s6 a i _ _ BProf); [eassumption|intros [|Q1]; [discriminate|eapply (NB BProf); [discriminate|assumption]]|]. intros s7 P7.
  apply wp_bind. eapply (ph_free s s7 a i _ _ BDxtc); [eassumption|intros [|[|Q1]]; [discriminate|discriminate|eapply (NB BDxtc); [discriminate|assumption]]|]. intros s8 P8.
  apply wp_bind. eapply (ph_free s s8 a i _ _ BData); [eassumption|intros [|[|[|Q1]]]; [discriminate|discriminate|discriminate|eapply (NB BData); [discriminate|assumption]]|]. intros s9 P9.
  assert (X1 := heap_only_nxt _ _ (p_heap _ _ _ _ _ _ P9)).
  assert (TD : tidy i -> forall k b, getb k i = Some b -> bks s9 b = None).
  { intros T k b Gb. destruct (bk_eq_dec k BPal) as [->|Nk].
    + apply (p_KB _ _ _ _ _ _ P9 BPal); [|assumption]. cbn in Gb. rewrite (TP T) by congruence. cbn. tauto.
    + apply (p_KB _ _ _ _ _ _ P9 k); [|assumption]. destruct k; cbn; tauto. }
  clear P1 P6 P7 P8. set (KB9 := BData :: _) in P9. clearbody KB9.
  assert (I9 := p_inv _ _ _ _ _ _ P9).
  assert (NI : forall r, ~ inl a [] r) by (intros r [k [_ []]]).
  apply wp_bind. apply (wp_init A OK (inl a []) (inb_ a KB9) a i); auto.
  - intros x j _ Ej. apply P9. assumption.
  - apply P9.
  - intros ok s2 I2 Z2 G2 X2 M2 B2 E2 T2 F2 NF2 N2. rewrite X1 in *.
    apply wp_bind. eapply wp_upd_im; [exact E2|].
    apply wp_bind. eapply wp_upd_im; [cbn; apply fup_eq|].
    apply wp_bind. eapply wp_upd_im; [cbn; apply fup_eq|].
    apply wp_bind. eapply wp_upd_im; [cbn; apply fup_eq|].
    apply wp_bind. eapply wp_upd_im; [cbn; apply fup_eq|]. apply wp_ret.
    match goal with |- Q ok ?t => set (sf := t) end.
    set (jf := mkImb (set_cube_org (hCube (hd i)) (hOrg (hd i)) (init_hdr W H D bpp fmt typ))
                (iNext i) (iFaces i) (iMips i) (iLayers i) (if ok then Some (nxt s) else None) None None None None).
    assert (EF : forall x, ims sf x = ims (set_ims (fup (ims s2) a (Some jf)) s2) x).
    { intros x. unfold sf. cbn. unfold fup. destruct (x =? a); reflexivity. }
    assert (I2' : Inv none_r none_b s2).
    { eapply Inv_mono; [| |exact I2].
      - intros r [[k [_ []]] _].
      - intros p k [[-> _] Hp]. congruence. }
    assert (Z2' : Siz none_b s2) by (eapply Siz_mono; [|exact Z2]; intros p k [[-> _] Hp]; congruence).
    assert (LI : forall k x, getl k i = Some x -> points s9 (Fld a k) x) by (intros k x Gk; exists i; split; [apply P9|assumption]).
    assert (LJ : forall k, getl k jf = getl k i) by (intros []; reflexivity).
    assert (I3 : Inv none_r none_b (set_ims (fup (ims s2) a (Some jf)) s2)).
    { apply (upd_ok none_r none_r none_b none_b s2 a _ jf I2' E2); auto.
      - intros k x _ Gk. rewrite LJ in Gk. right. assert (Pk := LI k x Gk).
        assert (a < x) by (exact (I_ord _ _ _ I9 _ _ _ (NI _) Pk)).
        split; [rewrite M2 by lia; exact (I_live _ _ _ I9 _ _ (NI _) Pk)|]. split; [assumption|]. split.
        + intros r _ Pr. assert (r = Fld a k).
          { assert (Pr' : points s9 r x).
            { destruct r as [n|p k'].
              - eapply points_root_glob; [apply glob_sym; exact G2|exact Pr].
              - destruct Pr as [j [Ej Gj]]. destruct (Z.eq_dec p a) as [->|Np].
                + rewrite E2 in Ej. injection Ej as <-. destruct k'; discriminate.
                + exists j. rewrite <- M2 by assumption. auto. }
            exact (I_uniq _ _ _ I9 _ _ _ (NI _) (NI _) Pr' Pk). }
          subst r. destruct Pr as [j [Ej Gj]]. rewrite E2 in Ej. injection Ej as <-. destruct k; discriminate.
        + intros k' Gk'. rewrite LJ in Gk'. assert (E : Fld a k' = Fld a k); [|injection E; auto].
          exact (I_uniq _ _ _ I9 _ _ _ (NI _) (NI _) (LI _ _ Gk') Pk). }
    assert (M : mutd s sf a).
    { split.
      - eapply ext_inv; [exact I3|reflexivity|exact EF|reflexivity|apply Z.le_refl].
      - assert (Z3 : Siz none_b (set_ims (fup (ims s2) a (Some jf)) s2)); [|eapply ext_siz; [exact Z3|exact EF|reflexivity]].
        intros x j Ej. cbn in Ej. destruct (Z.eq_dec x a) as [->|Nx].
        + rewrite fup_eq in Ej. injection Ej as <-. assert (Z4 := Z2' a _ E2). split; try reflexivity; try apply Z4.
        + rewrite fup_neq in Ej by assumption. assert (Z4 := Z2' x _ Ej). split; apply Z4.
      - eapply glob_trans; [apply heap_only_glob; apply P9|]. eapply glob_trans; [exact G2|]. repeat split.
      - rewrite EF. cbn. rewrite fup_eq. discriminate.
      - eapply touch_trans0; [eapply ph_touch; exact P9|]. apply (touch_one _ _ _ _ a).
        + constructor.
        + cbn. lia.
        + intros x _ Nx. rewrite EF. cbn. rewrite fup_neq by assumption. apply M2. assumption.
        + intros b Hb. cbn. apply B2. lia. }
    apply HQ; auto.
    + intros N. assert (N9 := p_nl _ _ _ _ _ _ P9 _ _ N). assert (Ti : tidy i) by (exact (n_tidy _ _ _ N a i Ei)).
      assert (N3 : nl (fun x => exists k, getl k i = Some x) none s2).
      { eapply N2; [exact N9| | |intros x []|auto].
        - intros k x Gk _. eauto.
        - intros k x Gk L. exfalso. apply L. eapply TD; eauto. }
      assert (N4 : nl none none (set_ims (fup (ims s2) a (Some jf)) s2)).
      { eapply (nl_upd _ _ none none s2 a _ jf N3 E2).
        - intros k x Gk _. exfalso. destruct k; discriminate.
        - intros k x Gk _. right. exists BData. destruct k; try discriminate. exact Gk.
        - intros x [k Gk]. right. exists k. rewrite LJ. assumption.
        - intros x [].
        - destruct Ti as [_ [_ [_ [_ Tm]]]]. split; [intros Q1; exfalso; apply Q1; reflexivity|].
          split; [intros Q1; exfalso; apply Q1; reflexivity|].
          split; [intros Q1; exfalso; apply Q1; reflexivity|].
          split; [intros Q1; exfalso; apply Q1; reflexivity|]. exact Tm. }
      eapply ext_nl; [exact N4|reflexivity|exact EF|reflexivity].
    + exists jf. rewrite EF. cbn. rewrite fup_eq. repeat split; auto.
Qed.

(** ** Simple header updates *)
Lemma wp_puth : forall s a i f (Q : unit -> st -> Prop),
  Inv none_r none_b s -> Siz none_b s -> ims s a = Some i ->
  (forall DB, ok_im DB s a i -> ok_im DB s a (puth (f (hd i)) i)) ->
  (forall s', s' = set_ims (fup (ims s) a (Some (puth (f (hd i)) i))) s -> mutd s s' a ->
     ((tidy i -> tidy (puth (f (hd i)) i)) -> forall E EB, nl E EB s -> nl E EB s') -> Q tt s') ->
  wp (upd_im a (fun i => puth (f (hd i)) i)) s Q.
Proof.
  intros s a i f Q I Z Ei HF HQ. eapply wp_upd_im; [exact Ei|]. eapply HQ; [reflexivity| |].
  - split.
    + apply (upd_ok none_r none_r none_b none_b s a i _ I Ei); auto.
    + intros x j Ej. cbn in Ej. destruct (Z.eq_dec x a) as [->|Nx].
      * rewrite fup_eq in Ej. injection Ej as <-. assert (Z4 := HF _ (Z a _ Ei)). split; apply Z4.
      * rewrite fup_neq in Ej by assumption. assert (Z4 := Z x _ Ej). split; apply Z4.
    + repeat split.
    + cbn. rewrite fup_eq. discriminate.
    + apply (touch_one _ _ _ _ a); [constructor|cbn; lia| |reflexivity]. intros x _ Nx. cbn. apply fup_neq. assumption.
  - intros HT E EB N. eapply (nl_upd E EB E EB s a i _ N Ei); auto.
    + intros k x Gk _. right. exists k. rewrite getl_puth. assumption.
    + intros k x Gk _. right. exists k. rewrite getb_puth. assumption.
    + apply HT. eapply n_tidy; eauto.
Qed.

Lemma ok_set_dur : forall DB s a i d, ok_im DB s a i -> ok_im DB s a (puth (set_dur_hdr d (hd i)) i).
Proof. intros DB s a i d H. destruct i as [h ? ? ? ? ? ? ? ? ?]. destruct H. split; assumption. Qed.

Lemma wp_SetDuration : forall s d (Q : bool -> st -> Prop), G s ->
  (forall a i, cur s = Some a -> ims s a = Some i -> forall s', s' = set_ims (fup (ims s) a (Some (puth (set_dur_hdr d (hd i)) i))) s ->
     mutd s s' a -> (nl none none s -> nl none none s') -> Q true s') ->
  (cur s = None -> Q false (set_errs (IL_ILLEGAL_OPERATION :: errs s) s)) ->
  wp (ilSetDuration d) s Q.
Proof.
  intros s d Q g H1 H2. unfold ilSetDuration. apply wp_bind, wp_get. destruct (cur s) as [a|] eqn:Ec.
  - destruct (ims s a) as [i|] eqn:Ei; [|exfalso; eapply (g_cur _ g); eauto].
    apply wp_bind. apply (wp_puth s a i (set_dur_hdr d)); [apply g|apply g|assumption|intros; apply ok_set_dur; assumption|].
    intros s' Es' M N. apply wp_ret. eapply H1; eauto.
  - apply wp_bind. apply wp_mod. apply wp_ret. apply H2. reflexivity.
Qed.

(** ** A fresh block attached to [a] *)
Lemma wp_newblk' : forall {B} s a i k n (m : option Z -> M B) (Q : B -> st -> Prop), 0 <= n ->
  Inv none_r (inb_ a [k]) s -> Siz (inb_ a [k]) s -> ims s a = Some i ->
  (k = BData \/ k = BPal) ->
  (forall p s', Inv none_r none_b s' -> Siz (inb_ a [k]) s' -> glob s s' -> nxt s <= nxt s' ->
     (forall x, x <> a -> ims s' x = ims s x) -> (forall b, b <> nxt s -> bks s' b = bks s b) ->
     ims s' a = Some (putb k p i) ->
     (p = Some (nxt s) /\ exists l, bks s' (nxt s) = Some l /\ zlen l = n) \/
     (p = None /\ errs s' = IL_OUT_OF_MEMORY :: errs s /\ (nofail A -> False)) ->
     ((forall b, getb k i = Some b -> bks s b = None) -> tidy (putb k p i) -> forall E EB, nl E EB s -> nl E EB s') ->
     wp (m p) s' Q) ->
  wp (do b <- new_blk A n; exec upd_im a (putb k b); m b) s Q.
Proof.
  intros B s a i k n m Q Hn I Z Ei HK HQ. apply wp_bind.
  assert (FR : forall x j, ims s x = Some j -> forall k', ~ inb_ a [k] x k' -> getb k' j <> Some (nxt s)).
  { intros x j Ej k' N E. apply (I_blive _ _ _ I x k' (nxt s) N); [exists j; auto|]. exact (fresh_bk _ _ _ I). }
  assert (GEN : forall p s1, Inv none_r (inb_ a [k]) s1 -> glob s s1 -> nxt s <= nxt s1 -> (forall x, ims s1 x = ims s x) ->
     (forall b, b <> nxt s -> bks s1 b = bks s b) ->
     (p = Some (nxt s) /\ exists l, bks s1 (nxt s) = Some l /\ zlen l = n) \/
     (p = None /\ bks s1 (nxt s) = None /\ errs s1 = IL_OUT_OF_MEMORY :: errs s /\ (nofail A -> False)) ->
     (forall E EB, nl E EB s -> nl E (fun b => EB b \/ p = Some b) s1) ->
     wp (exec upd_im a (putb k p); m p) s1 Q).
  { intros p s1 I1 G1 X1 M1 B1 HP N1. assert (E1 : ims s1 a = Some i) by (rewrite M1; assumption).
    apply wp_bind. eapply wp_upd_im; [exact E1|]. apply HQ.
    - apply (upd_ok none_r none_r (inb_ a [k]) none_b s1 a i _ I1 E1); auto.
      + intros k' x _ Gk. rewrite getl_putb in Gk. auto.
      + intros k' x _ Gk. destruct (bk_eq_dec k' k) as [->|Nk].
        * rewrite getb_putb_eq in Gk. subst p. destruct HP as [[E [l [L1 L2]]]|[E _]]; [|discriminate]. injection E as ->.
          right. split; [congruence|]. split.
          -- intros p k' N [j [Ej Gj]]. rewrite M1 in Ej. eapply FR; eauto.
          -- intros k' Gk'. destruct (bk_eq_dec k' k); [assumption|]. exfalso.
             rewrite getb_putb_neq in Gk' by assumption. apply (FR a i Ei k'); [|assumption]. intros [_ [|[]]]; congruence.
        * rewrite getb_putb_neq in Gk by assumption. left. split; [assumption|]. intros [_ [|[]]]; congruence.
      + intros p' k' [-> _]. auto.
    - intros x j Ej. cbn in Ej. destruct (Z.eq_dec x a) as [->|Nx].
      + rewrite fup_eq in Ej. injection Ej as <-. assert (Zi := Z a i Ei). destruct Zi. 
        assert (OLD : forall k', k' <> k -> forall b, getb k' i = Some b -> bks (set_ims (fup (ims s1) a (Some (putb k p i))) s1) b = bks s b).
        { intros k' Nk b Gb. cbn. apply B1. intros ->. apply (FR a i Ei k'); [|assumption]. intros [_ [|[]]]; congruence. }
        split; rewrite ?hd_putb; auto.
        * destruct HK as [-> | ->]; assumption.
        * destruct HK as [-> | ->]; assumption.
        * destruct HK as [-> | ->]; assumption.
        * intros N b Eb. assert (Nk : BData <> k) by (intros <-; apply N; split; [reflexivity|left; reflexivity]).
          assert (Gb : getb BData i = Some b) by (rewrite <- (getb_putb_neq BData k p i Nk); exact Eb).
          rewrite (OLD BData Nk b Gb). apply o_data; assumption.
        * intros N b Eb. assert (Nk : BPal <> k) by (intros <-; apply N; split; [reflexivity|left; reflexivity]).
          assert (Gb : getb BPal i = Some b) by (rewrite <- (getb_putb_neq BPal k p i Nk); exact Eb).
          rewrite (OLD BPal Nk b Gb). apply o_pal; assumption.
      + rewrite fup_neq in Ej by assumption. rewrite M1 in Ej. assert (Zx := Z x j Ej). destruct Zx.
        assert (ND : forall k', ~ inb_ a [k] x k') by (intros k' [Q1 _]; congruence).
        split; auto; intros N b Eb; cbn [bks set_ims]; rewrite B1; auto; intros ->; [eapply (FR x j Ej BData)|eapply (FR x j Ej BPal)]; eauto.
    - eapply glob_trans; [exact G1|repeat split].
    - assumption.
    - intros x Nx. cbn. rewrite fup_neq by assumption. apply M1.
    - exact B1.
    - cbn. apply fup_eq.
    - destruct HP as [[-> HP]|[-> [_ HP]]]; [left; split; [reflexivity|exact HP]|right; split; [reflexivity|exact HP]].
    - intros HD HT E EB N. eapply (nl_upd _ _ E EB s1 a i _ (N1 E EB N) E1); auto.
      + intros k' x Gk _. right. exists k'. rewrite getl_putb. assumption.
      + intros k' x Gk L. destruct (bk_eq_dec k' k) as [->|Nk]; [|right; exists k'; rewrite getb_putb_neq by assumption; assumption].
        destruct (Z.eq_dec x (nxt s)) as [->|Nx]; [|exfalso; apply L; rewrite B1 by assumption; apply HD; assumption].
        destruct HP as [[Ep _]|[_ [HP _]]]; [|exfalso; exact (L HP)].
        right. exists k. rewrite getb_putb_eq. assumption.
      + intros x [Hx|Hx]; [left; assumption|]. right. exists k. rewrite getb_putb_eq. assumption. }
  apply wp_new_blk; [exact OK|exact Hn| |].
  - intros EA. apply GEN; try reflexivity.
    + eapply ext_inv; [exact I| | | |]; try reflexivity.
    + repeat split.
    + right. split; [reflexivity|]. split; [exact (fresh_bk _ _ _ I)|]. split; [reflexivity|]. intros NF. eapply NF; eauto.
    + intros E EB N. assert (N' : nl E EB (oom s)) by (eapply ext_nl; [exact N| | |]; reflexivity).
      split; [apply N'| |apply N']. intros b Hb. destruct (n_bk _ _ _ N' b Hb); auto.
  - intros l EA Ll. apply GEN; try reflexivity.
    + apply add_blk_inv. eapply ext_inv; [exact I| | | |]; try reflexivity.
    + repeat split.
    + cbn. lia.
    + intros b Nb. cbn. apply fup_neq. assumption.
    + left. split; [reflexivity|]. exists l. split; [cbn; apply fup_eq|assumption].
    + intros E EB N. assert (N' : nl E EB (tick s)) by (eapply ext_nl; [exact N| | |]; reflexivity).
      assert (N2 := add_blk_nl E EB (tick s) l N').
      split; [apply N2| |apply N2]. intros b Hb. destruct (n_bk _ _ _ N2 b Hb) as [[Q1|Q1]|Q1]; auto. left. right. subst b. reflexivity.
Qed.

Lemma siz_close : forall s a i k p n, Siz (inb_ a [k]) s -> ims s a = Some (putb k p i) ->
  (k = BData /\ n = hSize (hd i) \/ k = BPal /\ n = hPalSize (hd i)) ->
  (forall b, p = Some b -> exists l, bks s b = Some l /\ zlen l = n) -> Siz none_b s.
Proof.
  intros s a i k p n Z E Hk HP x j Ej. destruct (Z x j Ej). destruct (Z.eq_dec x a) as [->|Nx].
  - rewrite E in Ej. injection Ej as <-. rewrite !hd_putb in *. destruct Hk as [[-> ->]|[-> ->]]; (split; rewrite ?hd_putb; auto); intros _.
    + intros b Eb. apply o_pal; [|assumption]. intros [_ [|[]]]; discriminate.
    + intros b Eb. apply o_data; [|assumption]. intros [_ [|[]]]; discriminate.
  - split; auto; intros _; [apply o_data|apply o_pal]; intros [Q1 _]; congruence.
Qed.
Lemma wp_newblk : forall {B} s a i k n (m : option Z -> M B) (Q : B -> st -> Prop), 0 <= n ->
  Inv none_r (inb_ a [k]) s -> Siz (inb_ a [k]) s -> ims s a = Some i ->
  (k = BData /\ n = hSize (hd i) \/ k = BPal /\ n = hPalSize (hd i)) ->
  (forall p s', Inv none_r none_b s' -> Siz none_b s' -> glob s s' -> nxt s <= nxt s' ->
     (forall x, x <> a -> ims s' x = ims s x) -> (forall b, b <> nxt s -> bks s' b = bks s b) ->
     ims s' a = Some (putb k p i) ->
     (p = Some (nxt s) /\ exists l, bks s' (nxt s) = Some l /\ zlen l = n) \/
     (p = None /\ errs s' = IL_OUT_OF_MEMORY :: errs s /\ (nofail A -> False)) ->
     ((forall b, getb k i = Some b -> bks s b = None) -> tidy (putb k p i) -> forall E EB, nl E EB s -> nl E EB s') ->
     wp (m p) s' Q) ->
  wp (do b <- new_blk A n; exec upd_im a (putb k b); m b) s Q.
Proof.
  intros B s a i k n m Q Hn I Z Ei Hk HQ. apply (wp_newblk' s a i k n); auto; [tauto|]. intros p s' I1 Z1 G1 X1 M1 B1 E1 HP N1. apply HQ; auto.
  apply (siz_close s' a i k p n); auto. intros b Eb. destruct HP as [[E [l [L1 L2]]]|[E _]]; [|congruence].
  assert (b = nxt s) by congruence. subst b. eauto.
Qed.

(** writing into a block of [a] *)
Lemma put_mutd : forall s a i k b l l', Inv none_r none_b s -> Siz none_b s -> ims s a = Some i -> getb k i = Some b ->
  bks s b = Some l -> zlen l' = zlen l -> mutd s (set_bks (fup (bks s) b (Some l')) s) a.
Proof.
  intros s a i k b l l' I Z Ei Gb El Hl. split.
  - eapply put_inv; eauto.
  - eapply put_siz; eauto.
  - repeat split.
  - cbn. congruence.
  - split; [cbn; lia|reflexivity|]. intros x _ N. cbn. apply fup_neq. intros ->. apply N. exists a, k. split; [constructor|]. exists i. auto.
Qed.
Lemma mutd_refl : forall s a, Inv none_r none_b s -> Siz none_b s -> ims s a <> None -> mutd s s a.
Proof. intros s a I Z L. split; auto; [apply glob_refl|apply touch_refl]. Qed.

(** only [a] changed, sub-image links kept *)
Lemma reach_same : forall s s' a, (forall x, x <> a -> ims s' x = ims s x) -> (forall i i' k, ims s a = Some i -> ims s' a = Some i' -> getl k i' = getl k i) ->
  ims s a <> None -> forall b x, reach s' b x -> reach s b x.
Proof.
  intros s s' a H1 H2 L b x H. induction H; [constructor|]. eapply reach_step; [exact IHreach|].
  destruct H0 as [j [Ej Gj]]. destruct (Z.eq_dec p a) as [->|N].
  - destruct (ims s a) as [i|] eqn:Ei; [|congruence]. exists i. split; [assumption|]. rewrite <- (H2 i j k eq_refl Ej). assumption.
  - exists j. rewrite <- H1 by assumption. auto.
Qed.

Lemma wp_SetData : forall s a i data (Q : bool -> st -> Prop), Inv none_r none_b s -> Siz none_b s -> cur s = Some a -> ims s a = Some i ->
  (forall src, data = Some src -> hSize (hd i) <= zlen src) ->
  (forall ok s', mutd s s' a -> (nl none none s -> nl none none s') ->
     (ok = true -> exists src b, data = Some src /\ ims s' a = Some (putb BData (Some b) i) /\ bks s' b = Some (slice src 0 (hSize (hd i)))) ->
     (ok = false -> ims s' a = Some i /\ (data <> None -> nofail A -> False)) -> Q ok s') ->
  wp (ilSetData A data) s Q.
Proof.
  intros s a i data Q I Z C Ei HS HQ. unfold ilSetData. apply wp_bind, wp_get. rewrite C. destruct data as [src|].
  2:{ apply wp_bind, wp_mod, wp_ret. apply HQ; try discriminate.
      - split.
        + eapply ext_inv; [exact I| | | |]; try reflexivity.
        + eapply ext_siz; [exact Z| |]; reflexivity.
        + repeat split.
        + cbn. congruence.
        + split; [cbn; lia|reflexivity|reflexivity].
      - intros N. eapply ext_nl; [exact N| | |]; reflexivity.
      - intros _. split; [exact Ei|]. congruence. }
  apply wp_bind. eapply wp_get_im; [exact Ei|]. specialize (HS src eq_refl).
  assert (Rs : 0 <= hSize (hd i)).
  { destruct (o_geom _ _ _ _ (Z a i Ei)) as (_&_&_&_&_&_&_&->). unfold u32. apply Z.mod_pos_bound. lia. }
  destruct (iData i) as [b|] eqn:Ed.
  - apply wp_bind, wp_ret. destruct (o_data _ _ _ _ (Z a i Ei) (fun x => x) b Ed) as [l [El Ll]].
    apply wp_bind. eapply wp_copy_in; [exact El|exact Ll|exact HS|exact Rs|]. apply wp_ret.
    apply HQ; try discriminate.
    + eapply (put_mutd s a i BData); eauto. rewrite zlen_slice; lia.
    + intros N. eapply put_nl; eauto.
    + intros _. exists src, b. split; [reflexivity|]. split; [|cbn; apply fup_eq]. cbn. rewrite Ei. f_equal.
      destruct i; cbn in *. congruence.
  - apply wp_bind.
    assert (I' : Inv none_r (inb_ a [BData]) s) by (apply (Inv_mono none_r none_r none_b); [auto|intros p k []|exact I]).
    assert (Z' : Siz (inb_ a [BData]) s) by (apply (Siz_mono none_b); [intros p k []|exact Z]).
    apply (wp_newblk s a i BData); auto.
    intros p s' I1 Z1 G1 X1 M1 B1 E1 HP N1.
    assert (NL1 : nl none none s -> nl none none s').
    { intros N. apply N1; [intros b; cbn; rewrite Ed; discriminate| |assumption]. assert (T := n_tidy _ _ _ N a i Ei).
      destruct i; cbn in *; assumption. }
    assert (T1 : touch (reach s a) (ownb s a) s s').
    { apply (touch_one _ _ _ _ a); auto; [constructor|]. intros b Hb. apply B1. lia. }
    apply wp_ret. destruct HP as [[-> [l [El Ll]]]|[-> [HE NF]]].
    + apply wp_bind. eapply wp_copy_in; [exact El|exact Ll|exact HS|exact Rs|]. apply wp_ret.
      assert (PM : mutd s' (set_bks (fup (bks s') (nxt s) (Some (slice src 0 (hSize (hd i))))) s') a).
      { eapply (put_mutd s' a _ BData); [assumption|assumption|exact E1|reflexivity|exact El|]. rewrite zlen_slice; lia. }
      apply HQ; try discriminate.
      * split; try apply PM.
        -- eapply glob_trans; [exact G1|repeat split].
        -- apply (touch_trans _ _ none (fun x => x = nxt s) _ s'); [exact T1| |intros x _ []|intros x Hx ->; lia].
           split; [cbn; lia|reflexivity|]. intros x Hx Nx. cbn. apply fup_neq. assumption.
      * intros N. eapply put_nl; eauto.
      * intros _. exists src, (nxt s). split; [reflexivity|]. split; [exact E1|cbn; apply fup_eq].
    + apply wp_ret. apply HQ; try discriminate.
      * split; auto. rewrite E1. discriminate.
      * assumption.
      * intros _. split; [|auto]. rewrite E1. f_equal. destruct i; cbn in *. congruence.
Qed.

Lemma mutd_intro : forall s s1 s' a (P PB : Z -> Prop), touch (reach s a) (ownb s a) s s1 -> glob s s1 -> mutd s1 s' a ->
  touch P PB s1 s' -> (forall x, x < nxt s -> P x -> reach s a x) -> (forall x, x < nxt s -> PB x -> ownb s a x) -> mutd s s' a.
Proof.
  intros s s1 s' a P PB T G1 M T' H1 H2. split; try apply M.
  - eapply glob_trans; [exact G1|apply M].
  - eapply touch_trans; eauto.
Qed.

(** ** ilRegisterPal *)
Lemma wp_RegisterPal : forall s a i pal size typ (Q : unit -> st -> Prop), Inv none_r none_b s -> Siz none_b s -> cur s = Some a -> ims s a = Some i ->
  0 <= size -> (forall src, pal = Some src -> size <= zlen src) ->
  (forall s', mutd s s' a -> (0 < size -> typ <> IL_PAL_NONE -> nl none none s -> nl none none s') ->
     (exists p, ims s' a = Some (putb BPal p (puth (set_pal_hdr size typ (hd i)) i)) /\
        (nofail A -> exists b, p = Some b) /\
        forall b src, p = Some b -> pal = Some src -> bks s' b = Some (slice src 0 size)) -> Q tt s') ->
  wp (ilRegisterPal A pal size typ) s Q.
Proof.
  intros s a i pal size typ Q I Z C Ei Hs HS HQ. unfold ilRegisterPal. apply wp_bind, wp_get. rewrite C.
  apply wp_bind. eapply wp_get_im; [exact Ei|].
  apply wp_bind.
  assert (ST : forall (R : unit -> st -> Prop), (forall s', heap_only s s' -> Inv none_r (inb_ a [BPal]) s' -> Siz (inb_ a [BPal]) s' ->
      touch (reach s a) (ownb s a) s s' -> ims s' a = Some i ->
      (tidy i -> forall b, iPal i = Some b -> bks s' b = None) -> (forall E EB, nl E EB s -> nl E EB s') -> R tt s') ->
      wp (if negb (non_null (iPal i)) || (hPalSize (hd i) =? 0) || negb (hPalType (hd i) =? IL_PAL_NONE)
          then free_blk (iPal i) else ret tt) s R).
  { intros R HR. destruct (negb (non_null (iPal i)) || (hPalSize (hd i) =? 0) || negb (hPalType (hd i) =? IL_PAL_NONE)) eqn:CC.
    - apply (ph_free s s a i [] [] BPal); [apply ph_start; assumption|auto|]. intros s' P. apply HR.
      + apply P.
      + eapply Inv_mono; [| |apply P]; [intros r [k [_ []]]|auto].
      + apply P.
      + eapply ph_touch; eauto.
      + apply P.
      + intros _ b Eb. apply (p_KB _ _ _ _ _ _ P BPal); [left; reflexivity|assumption].
      + apply P.
    - apply wp_ret. apply HR; auto.
      + unfold heap_only. destruct s; reflexivity.
      + apply (Inv_mono none_r none_r none_b); [auto|intros p k []|exact I].
      + apply (Siz_mono none_b); [intros p k []|exact Z].
      + apply touch_refl.
      + intros [T _] b Eb. exfalso. destruct T as [T1 T2]; [congruence|]. rewrite Eb in CC. cbn [non_null negb orb] in CC.
        destruct (hPalSize (hd i) =? 0) eqn:E1; [lia|]. cbn [orb] in CC. apply negb_false_iff, Z.eqb_eq in CC. contradiction. }
  apply ST. intros s1 HO I1 Z1 T1 E1 FR N1. clear ST. assert (X1 := heap_only_nxt _ _ HO).
  apply wp_bind. eapply wp_upd_im; [exact E1|]. set (i2 := puth (set_pal_hdr size typ (hd i)) i).
  set (s2 := set_ims (fup (ims s1) a (Some i2)) s1).
  assert (I2 : Inv none_r (inb_ a [BPal]) s2).
  { apply (upd_ok none_r none_r (inb_ a [BPal]) (inb_ a [BPal]) s1 a i i2 I1 E1); auto. }
  assert (Z2 : Siz (inb_ a [BPal]) s2).
  { intros x j Ej. cbn in Ej. destruct (Z.eq_dec x a) as [->|Nx].
    - rewrite fup_eq in Ej. injection Ej as <-. destruct (Z1 a i E1). split; auto.
      intros N. exfalso. apply N. split; [reflexivity|left; reflexivity].
    - rewrite fup_neq in Ej by assumption. destruct (Z1 x j Ej). split; auto. }
  assert (E2 : ims s2 a = Some i2) by (cbn; apply fup_eq).
  apply (wp_newblk s2 a i2 BPal size); auto.
  intros p s3 I3 Z3 G3 X3 M3 B3 E3 HP N3. change (nxt s2) with (nxt s1) in *. rewrite X1 in *.
  assert (TT : touch (reach s a) (ownb s a) s s3).
  { eapply touch_trans0; [exact T1|]. apply (touch_one _ _ _ _ a); [constructor|rewrite X1; assumption| |].
    - intros x _ Nx. rewrite M3 by assumption. cbn. apply fup_neq. assumption.
    - intros b Hb. rewrite B3 by lia. reflexivity. }
  assert (GG : glob s s3) by (eapply glob_trans; [apply heap_only_glob; exact HO|]; eapply glob_trans; [|exact G3]; repeat split).
  assert (NN : 0 < size -> typ <> IL_PAL_NONE -> nl none none s -> nl none none s3).
  { intros Q1 Q2 N. assert (Ti := n_tidy _ _ _ N a i Ei). assert (T2 : tidy i2).
    { destruct Ti as [_ Ti]. split; [intros _; split; [exact Q1|exact Q2]|exact Ti]. }
    apply N3.
    - intros b Eb. apply FR; [exact Ti|exact Eb].
    - destruct T2 as [T2 T3]. split; [intros _; split; [exact Q1|exact Q2]|exact T3].
    - apply (nl_upd none none none none s1 a i i2 (N1 _ _ N) E1); auto.
      + intros k x Gk _. right. exists k. unfold i2. rewrite getl_puth. assumption.
      + intros k x Gk _. right. exists k. unfold i2. rewrite getb_puth. assumption. }
  assert (MM : mutd s s3 a) by (split; auto; rewrite E3; discriminate).
  destruct HP as [[-> [l [El Ll]]]|[-> [HE NF]]].
  - destruct pal as [src|].
    + eapply wp_copy_in; [exact El|exact Ll|apply HS; reflexivity|exact Hs|]. specialize (HS src eq_refl).
      assert (PM : mutd s3 (set_bks (fup (bks s3) (nxt s) (Some (slice src 0 size))) s3) a).
      { eapply (put_mutd s3 a _ BPal); [assumption|assumption|exact E3|reflexivity|exact El|]. rewrite zlen_slice; lia. }
      apply HQ.
      * apply (mutd_intro s s3 _ a none (fun x => x = nxt s)); auto; [|intros x _ []|intros x Hx ->; lia].
        split; [cbn; lia|reflexivity|]. intros x Hx Nx. cbn. apply fup_neq. assumption.
      * intros Q1 Q2 N. eapply put_nl; [exact (NN Q1 Q2 N)|exact El].
      * exists (Some (nxt s)). split; [exact E3|]. split; [eauto|]. intros b src' Eb Es. injection Eb as <-. injection Es as <-. cbn. apply fup_eq.
    + unfold raise. apply wp_mod. apply HQ.
      * split; [| | |cbn; rewrite E3; discriminate|].
        -- eapply ext_inv; [exact I3| | | |]; try reflexivity.
        -- eapply ext_siz; [exact Z3| |]; reflexivity.
        -- eapply glob_trans; [exact GG|repeat split].
        -- eapply touch_trans0; [exact TT|]. split; [cbn; lia|reflexivity|reflexivity].
      * intros Q1 Q2 N. eapply ext_nl; [exact (NN Q1 Q2 N)| | |]; reflexivity.
      * exists (Some (nxt s)). split; [exact E3|]. split; [eauto|]. discriminate.
  - apply wp_ret. apply HQ; auto.
    exists None. split; [exact E3|]. split; [intros H; exfalso; exact (NF H)|discriminate].
Qed.

(** ** A fresh image linked from [a] *)
Lemma wp_newlink : forall {B} s a i k (m : option Z -> M B) (Q : B -> st -> Prop),
  Inv (inl a [k]) none_b s -> Siz none_b s -> ims s a = Some i ->
  (forall s', Inv none_r none_b s' -> Siz none_b s' -> glob s s' -> nxt s <= nxt s' ->
     (forall x, x <> a -> ims s' x = ims s x) -> (forall b, bks s' b = bks s b) ->
     ims s' a = Some (putl k None i) -> errs s' = IL_OUT_OF_MEMORY :: errs s -> (nofail A -> False) ->
     ((forall x, getl k i = Some x -> ims s x = None) -> tidy (putl k None i) -> forall E EB, nl E EB s -> nl E EB s') ->
     wp (m None) s' Q) ->
  (forall s', Inv none_r none_b s' -> Siz none_b s' -> glob s s' -> nxt s < nxt s' ->
     (forall x, x <> a -> x <> nxt s -> ims s' x = ims s x) -> (forall b, b <> nxt s + 1 -> bks s' b = bks s b) ->
     ims s' a = Some (putl k (Some (nxt s)) i) -> a < nxt s -> ims s' (nxt s) = Some (im1 (nxt s + 1)) -> (exists l, bks s' (nxt s + 1) = Some l /\ zlen l = 1) ->
     ((forall x, getl k i = Some x -> ims s x = None) -> tidy (putl k (Some (nxt s)) i) -> forall E EB, nl E EB s -> nl E EB s') ->
     wp (m (Some (nxt s))) s' Q) ->
  wp (do p <- new1 A; exec upd_im a (putl k p); m p) s Q.
Proof.
  intros B s a i k m Q I Z Ei H1 H2. apply wp_bind.
  assert (La : a < nxt s). { assert (0 < a < nxt s) by (apply (I_im _ _ _ I); congruence). lia. }
  assert (SZ : forall s' p, Siz none_b s' -> ims s' a = Some i -> Siz none_b (set_ims (fup (ims s') a (Some (putl k p i))) s')).
  { intros s' p Z' E' x j Ej. cbn in Ej. destruct (Z.eq_dec x a) as [->|Nx].
    - rewrite fup_eq in Ej. injection Ej as <-. assert (Z4 := Z' a i E'). destruct i; destruct k; destruct Z4; split; assumption.
    - rewrite fup_neq in Ej by assumption. assert (Z4 := Z' x _ Ej). split; apply Z4. }
  apply (wp_new1 A OK (inl a [k]) none_b); auto.
  - intros s1 I1 Z1 G1 X1 M1 B1 ER NF N1. assert (E1 : ims s1 a = Some i) by (rewrite M1; assumption).
    apply wp_bind. eapply wp_upd_im; [exact E1|]. apply H1; auto.
    + apply (upd_ok (inl a [k]) none_r none_b none_b s1 a i _ I1 E1); auto.
      * intros k' x _ Gk. destruct (lk_eq_dec k' k) as [->|Nk]; [rewrite getl_putl_eq in Gk; discriminate|].
        rewrite getl_putl_neq in Gk by assumption. left. split; [assumption|]. intros [k2 [E [<-|[]]]]. congruence.
      * intros k' x _ Gk. rewrite getb_putl in Gk. auto.
      * intros r [k2 [-> _]]. eauto.
    + intros x Nx. cbn. rewrite fup_neq by assumption. apply M1.
    + cbn. apply fup_eq.
    + intros HD HT E EB N. apply (nl_upd E EB E EB s1 a i _ (N1 _ _ N) E1); auto.
      * intros k' x Gk L. destruct (lk_eq_dec k' k) as [->|Nk]; [exfalso; apply L; rewrite M1; auto|].
        right. exists k'. rewrite getl_putl_neq by assumption. assumption.
      * intros k' x Gk _. right. exists k'. rewrite getb_putl. assumption.
  - intros s1 I1 Z1 G1 X1 M1 B1 F1 L1 NP N1. assert (E1 : ims s1 a = Some i) by (rewrite M1 by lia; assumption).
    apply wp_bind. eapply wp_upd_im; [exact E1|]. apply H2; auto.
    + apply (upd_ok (inl a [k]) none_r none_b none_b s1 a i _ I1 E1); auto.
      * intros k' x _ Gk. destruct (lk_eq_dec k' k) as [->|Nk].
        -- rewrite getl_putl_eq in Gk. injection Gk as <-. right. split; [congruence|]. split; [assumption|]. split; [assumption|].
           intros k' Gk. destruct (lk_eq_dec k' k) as [|Nk]; [assumption|]. exfalso.
           rewrite getl_putl_neq in Gk by assumption. apply (NP (Fld a k')); [intros [k2 [E [<-|[]]]]; congruence|]. exists i. auto.
        -- rewrite getl_putl_neq in Gk by assumption. left. split; [assumption|]. intros [k2 [E [<-|[]]]]. congruence.
      * intros k' x _ Gk. rewrite getb_putl in Gk. auto.
      * intros r [k2 [-> _]]. eauto.
    + intros x Nx Nx'. cbn. rewrite fup_neq by assumption. apply M1. assumption.
    + cbn. apply fup_eq.
    + cbn. rewrite fup_neq by lia. assumption.
    + intros HD HT E EB N. apply (nl_upd _ _ E EB s1 a i _ (N1 _ _ N) E1); auto.
      * intros k' x Gk L. destruct (lk_eq_dec k' k) as [->|Nk].
        -- destruct (Z.eq_dec x (nxt s)) as [->|Nx]; [right; exists k; apply getl_putl_eq|].
           exfalso; apply L; rewrite M1 by assumption; auto.
        -- right. exists k'. rewrite getl_putl_neq by assumption. assumption.
      * intros k' x Gk _. right. exists k'. rewrite getb_putl. assumption.
      * intros x [Hx| ->]; [left; assumption|]. right. exists k. apply getl_putl_eq.
Qed.

(** the images after [a] along the links [k] *)
Fixpoint chain (s : st) (k : lk) (a : Z) (l : list Z) : Prop :=
  match l with
  | [] => exists i, ims s a = Some i /\ getl k i = None
  | b :: l => exists i, ims s a = Some i /\ getl k i = Some b /\ chain s k b l
  end.

Lemma im1_tidy : forall k p b, tidy (putl k p (im1 b)).
Proof.
  intros k p b. destruct k; (split; [intros Q1; exfalso; apply Q1; reflexivity|]);
  (split; [intros Q1; exfalso; apply Q1; reflexivity|]); (split; [intros Q1; exfalso; apply Q1; reflexivity|]);
  (split; [intros Q1; exfalso; apply Q1; reflexivity|]); cbn; auto.
Qed.
Lemma inl_of_none : forall s a k, Inv none_r none_b s -> Inv (inl a [k]) none_b s.
Proof. intros s a k I. apply (Inv_mono none_r _ none_b none_b); [intros r []|auto|exact I]. Qed.

(** what extending a chain from [b] on does *)
Definition fresh1 (s : st) (k : lk) (x : Z) : Prop := exists b nx, ims s x = Some (putl k nx (im1 b)).
Record grown (s s' : st) (k : lk) (b : Z) (ib : imb) (l : list Z) : Prop := {
  gr_inv : Inv none_r none_b s';
  gr_siz : Siz none_b s';
  gr_glob : glob s s';
  gr_touch : touch (fun x => x = b) none s s';
  gr_b : ims s' b = Some (putl k (hd_error l) ib);
  gr_chain : chain s' k b l;
  gr_fresh : Forall (fun x => nxt s <= x /\ fresh1 s' k x) l;
  gr_nl : tidy (putl k (hd_error l) ib) -> forall E EB, nl E EB s -> nl E EB s' }.

Lemma putl_same : forall k i, getl k i = None -> putl k None i = i.
Proof. intros [] [] E; cbn in *; congruence. Qed.
Lemma grown_nil : forall s k b ib, Inv none_r none_b s -> Siz none_b s -> ims s b = Some ib -> getl k ib = None -> grown s s k b ib [].
Proof.
  intros s k b ib I Z Ei E. split; auto.
  - apply glob_refl.
  - apply touch_refl.
  - cbn. rewrite putl_same; assumption.
  - exists ib. auto.
Qed.
(** one step, failing *)
Lemma grown_fail : forall s s' k b ib, Inv none_r none_b s' -> Siz none_b s' -> glob s s' -> nxt s <= nxt s' ->
  (forall x, x <> b -> ims s' x = ims s x) -> (forall x, bks s' x = bks s x) -> ims s' b = Some (putl k None ib) ->
  ((forall x, getl k ib = Some x -> ims s x = None) -> tidy (putl k None ib) -> forall E EB, nl E EB s -> nl E EB s') ->
  getl k ib = None -> grown s s' k b ib [].
Proof.
  intros s s' k b ib I Z G X M B E N EN. split; auto.
  - split; [assumption|intros x _ Nx; apply M; assumption|auto].
  - exists (putl k None ib). split; [assumption|apply getl_putl_eq].
  - intros T E1 EB N1. apply N; auto. intros x Q. congruence.
Qed.
Lemma grown_step : forall s s1 s' k b ib l, getl k ib = None -> Inv none_r none_b s1 -> Siz none_b s1 -> glob s s1 -> nxt s < nxt s1 ->
  (forall x, x <> b -> x <> nxt s -> ims s1 x = ims s x) -> (forall x, x <> nxt s + 1 -> bks s1 x = bks s x) ->
  ims s1 b = Some (putl k (Some (nxt s)) ib) -> b < nxt s -> ims s1 (nxt s) = Some (im1 (nxt s + 1)) ->
  ((forall x, getl k ib = Some x -> ims s x = None) -> tidy (putl k (Some (nxt s)) ib) -> forall E EB, nl E EB s -> nl E EB s1) ->
  grown s1 s' k (nxt s) (im1 (nxt s + 1)) l -> grown s s' k b ib (nxt s :: l).
Proof.
  intros s s1 s' k b ib l EN I Z G X M B E Lb F N g. assert (T := gr_touch _ _ _ _ _ _ g). destruct g.
  assert (Eb : ims s' b = Some (putl k (Some (nxt s)) ib)) by (rewrite (t_im _ _ _ _ T) by lia; assumption).
  split; auto.
  - eapply glob_trans; eauto.
  - destruct T. split; [lia| |].
    + intros x Hx Nx. rewrite t_im by lia. apply M; lia.
    + intros x Hx _. rewrite t_bk by (auto; lia). apply B. lia.
  - exists (putl k (Some (nxt s)) ib). split; [assumption|]. split; [apply getl_putl_eq|assumption].
  - constructor.
    + split; [lia|]. exists (nxt s + 1), (hd_error l). assumption.
    + eapply Forall_impl; [|exact gr_fresh0]. intros x [H1 H2]. split; [lia|assumption].
  - intros Ti E1 EB N1. apply gr_nl0; [apply im1_tidy|]. apply N; auto. intros x Q. congruence.
Qed.

Lemma wp_sub_loop : forall n s b ib cnt (Q : Z -> st -> Prop), Inv none_r none_b s -> Siz none_b s -> ims s b = Some ib -> getl LNext ib = None ->
  (forall l s', grown s s' LNext b ib l -> (length l <= n)%nat -> (nofail A -> length l = n) -> Q (cnt + zlen l) s') ->
  wp (sub_loop A n b cnt) s Q.
Proof.
  induction n as [|n IH]; intros s b ib cnt Q I Z Ei EN HQ; cbn [sub_loop].
  - apply wp_ret. replace cnt with (cnt + zlen (@nil BinNums.Z)) by (rewrite Z.add_0_r; reflexivity). apply HQ; auto. apply grown_nil; assumption.
  - apply (wp_newlink s b ib LNext (fun p => match p with None => ret cnt | Some b0 => sub_loop A n b0 (cnt + 1) end)); auto.
    + apply inl_of_none. assumption.
    + intros s1 I1 Z1 G1 X1 M1 B1 E1 ER NF N1. apply wp_ret.
      replace cnt with (cnt + zlen (@nil BinNums.Z)) by (rewrite Z.add_0_r; reflexivity). apply HQ; [|cbn; lia|intros H; exfalso; exact (NF H)].
      eapply grown_fail; eauto.
    + intros s1 I1 Z1 G1 X1 M1 B1 E1 Lb F1 L1 N1. eapply (IH s1 (nxt s)); eauto.
      intros l s' g Hl NF. assert (g' : grown s s' LNext b ib (nxt s :: l)) by (eapply grown_step; eauto).
      replace (cnt + 1 + zlen l) with (cnt + zlen (nxt s :: l)) by (unfold zlen; cbn [length]; lia).
      apply HQ; auto; [cbn; lia|]. intros H. cbn. rewrite NF; auto.
Qed.
Lemma wp_reg_loop : forall n k first s b ib (Q : bool -> st -> Prop), nofail A -> Inv none_r none_b s -> Siz none_b s -> ims s b = Some ib -> getl k ib = None ->
  (forall l s', grown s s' k b ib l -> length l = n -> Q true s') ->
  wp (reg_loop A n k first b) s Q.
Proof.
  induction n as [|n IH]; intros k first s b ib Q NF I Z Ei EN HQ; cbn [reg_loop].
  - apply wp_ret. apply (HQ []); auto. apply grown_nil; assumption.
  - apply (wp_newlink s b ib k (fun p => match p with None => do z <- get nxt; exec clean (Z.to_nat z) k (Some first); ret false | Some b0 => reg_loop A n k first b0 end)); auto.
    + apply inl_of_none. assumption.
    + intros. exfalso. auto.
    + intros s1 I1 Z1 G1 X1 M1 B1 E1 Lb F1 L1 N1. eapply (IH k first s1 (nxt s)); eauto.
      { destruct k; reflexivity. }
      intros l s' g Hl. assert (g' : grown s s' k b ib (nxt s :: l)) by (eapply grown_step; eauto).
      eapply HQ; eauto. cbn. congruence.
Qed.

(** ** ilCreateSubImage *)
Lemma wp_SubImage : forall s a i t n (Q : Z -> st -> Prop), Inv none_r none_b s -> Siz none_b s -> cur s = Some a -> ims s a = Some i -> 0 <= n ->
  (forall c s', mutd s s' a ->
     ((sub_kind t = Some LMips -> iFaces i = None) -> nl none none s -> nl none none s') ->
     (exists j, ims s' a = Some j /\ hd j = hd i /\ (forall k, getb k j = getb k i) /\ (forall k, sub_kind t <> Some k -> getl k j = getl k i)) ->
     (forall k, n <> 0 -> sub_kind t = Some k -> 
        (c = 0 /\ (nofail A -> False) /\ exists j, ims s' a = Some j /\ getl k j = None) \/
        (1 <= c <= n /\ (nofail A -> c = n) /\ exists j b l, ims s' a = Some j /\ getl k j = Some b /\ nxt s <= b /\ chain s' LNext b l /\ zlen l = c - 1 /\
           Forall (fun x => nxt s <= x /\ fresh1 s' LNext x) (b :: l))) ->
     ((n = 0 \/ sub_kind t = None) -> c = 0) -> Q c s') ->
  wp (ilCreateSubImage A t n) s Q.
Proof.
  intros s a i t n Q I Z C Ei Hn HQ. unfold ilCreateSubImage. apply wp_bind, wp_get. rewrite C.
  destruct (n =? 0) eqn:En.
  { apply wp_ret. apply HQ; auto.
    - apply mutd_refl; auto. congruence.
    - exists i. auto.
    - intros k N. lia. }
  destruct (sub_kind t) as [k|] eqn:Ek.
  2:{ apply wp_bind. unfold raise. apply wp_mod. apply wp_ret. apply HQ; auto.
      - split; [| | |cbn; congruence|].
        + eapply ext_inv; [exact I| | | |]; try reflexivity.
        + eapply ext_siz; [exact Z| |]; reflexivity.
        + repeat split.
        + split; [cbn; lia|reflexivity|reflexivity].
      - intros _ N. eapply ext_nl; [exact N| | |]; reflexivity.
      - exists i. auto.
      - intros k _ Q1. discriminate. }
  apply wp_bind. eapply wp_get_im; [exact Ei|]. apply wp_bind.
  assert (CL : forall (R : unit -> st -> Prop), (forall s', ph s s' a i [k] [] -> R tt s') ->
     wp (if non_null (getl k i) then ilCloseImage (getl k i) else ret tt) s R).
  { intros R HR. assert (P := ph_close s s a i [] [] k R (ph_start _ _ _ I Z Ei) (fun x => x) HR).
    destruct (getl k i); [exact P|]. destruct P as (r & s' & E & HP). exists r, s'. split; [|exact HP].
    unfold ilCloseImage in E. destruct (Z.to_nat (nxt s)); exact E. }
  apply CL. intros s1 P1. clear CL. assert (X1 := heap_only_nxt _ _ (p_heap _ _ _ _ _ _ P1)).
  assert (I1 : Inv (inl a [k]) none_b s1) by (eapply Inv_mono; [| |apply P1]; [auto|intros p k' [_ []]]).
  assert (Z1 : Siz none_b s1) by (eapply Siz_mono; [|apply P1]; intros p k' [_ []]).
  assert (DD : forall x, getl k i = Some x -> ims s1 x = None) by (intros x Gx; eapply (p_K _ _ _ _ _ _ P1 k); [left; reflexivity|assumption]).
  assert (TI : (Some k = Some LMips -> iFaces i = None) -> (k = LFaces -> False) -> nl none none s -> forall p, tidy (putl k p i)).
  { intros H H' N p. assert (T := n_tidy _ _ _ N a i Ei). destruct T as (T1&T2&T3&T4&T5). destruct i; destruct k; cbn in *;
      (split; [exact T1|]); (split; [exact T2|]); (split; [exact T3|]); (split; [exact T4|]); auto. exfalso; auto. }
  assert (NF' : k = LFaces -> False).
  { intros ->. revert Ek. unfold sub_kind. repeat (match goal with |- context[if ?c then _ else _] => destruct c end; try discriminate). }
  apply (wp_newlink s1 a i k (fun p => match p with None => ret 0 | Some b => sub_loop A (Z.to_nat (n - 1)) b 1 end)); auto.
  - apply P1.
  - intros s2 I2 Z2 G2 X2 M2 B2 E2 ER NF N2. apply wp_ret. apply HQ.
    + split; auto.
      * eapply glob_trans; [apply heap_only_glob; apply P1|assumption].
      * congruence.
      * eapply touch_trans0; [eapply ph_touch; exact P1|]. apply (touch_one _ _ _ _ a); auto; constructor.
    + intros H N. apply N2; auto. apply P1. assumption.
    + eexists. split; [exact E2|]. split; [apply hd_putl|]. split; [intros; apply getb_putl|]. intros k' Nk. apply getl_putl_neq. congruence.
    + intros k' _ Q1. injection Q1 as <-. left. split; [reflexivity|]. split; [assumption|]. eexists. split; [exact E2|apply getl_putl_eq].
    + auto.
  - intros s2 I2 Z2 G2 X2 M2 B2 E2 La F2 L2 N2. eapply wp_sub_loop; [exact I2|exact Z2|exact F2|reflexivity|].
    intros l s3 g Hl NF. rewrite X1 in *. assert (T3 := gr_touch _ _ _ _ _ _ g).
    assert (E3 : ims s3 a = Some (putl k (Some (nxt s)) i)) by (rewrite (t_im _ _ _ _ T3) by lia; assumption).
    apply HQ.
    + split; try apply g.
      * eapply glob_trans; [apply heap_only_glob; apply P1|]. eapply glob_trans; [exact G2|apply g].
      * congruence.
      * eapply touch_trans0; [eapply ph_touch; exact P1|]. apply (touch_one _ _ _ _ a); [constructor|destruct T3; lia| |].
        -- intros x Hx Nx. rewrite (t_im _ _ _ _ T3) by lia. apply M2; lia.
        -- intros b Hb. rewrite (t_bk _ _ _ _ T3) by (auto; lia). apply B2. lia.
    + intros H N. apply g; [apply im1_tidy|]. apply N2; auto. apply P1. assumption.
    + eexists. split; [exact E3|]. split; [apply hd_putl|]. split; [intros; apply getb_putl|]. intros k' Nk. apply getl_putl_neq. congruence.
    + intros k' _ Q1. injection Q1 as <-. right. split; [unfold zlen; lia|]. split; [intros H; specialize (NF H); unfold zlen; lia|].
      exists (putl k (Some (nxt s)) i), (nxt s), l. split; [exact E3|]. split; [apply getl_putl_eq|]. split; [lia|]. split; [apply g|].
      split; [lia|]. constructor.
      * split; [lia|]. eexists _, _. apply g.
      * eapply Forall_impl; [|apply g]. intros x [H1 H2]. split; [lia|assumption].
    + intros [Q1|Q1]; [lia|discriminate].
Qed.
End Ops.
