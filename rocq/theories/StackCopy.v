(** Copying images: [ilCopyImage], [ilCloneCurImage], and the chain registration functions. *)
From Coq Require Import ZArith List Bool Lia.
From Verif Require Import Base Enums Utility Stack StackHeap StackWf StackOps StackNames.
Import ListNotations.
Open Scope Z_scope.

Lemma geom_one : forall h, geom h -> init_hdr (hW h) (hH h) (hD h) (hBpp h) (hFmt h) (hTyp h) =
  mkHdr (hW h) (hH h) (hD h) (hBpp h) (hBpc h) (hBps h) (hSize h) (hPlane h) (hFmt h) (hTyp h) IL_ORIGIN_LOWER_LEFT 0 IL_PAL_NONE 0 0 0 0 0 0 IL_DXT_NO_COMP 0.
Proof.
  intros h (G1&G2&G3&G4&G5&G6&G7&G8). unfold init_hdr, one.
  replace (hW h =? 0) with false by lia. replace (hH h =? 0) with false by lia. replace (hD h =? 0) with false by lia.
  rewrite <- G2. rewrite <- G6, <- G7, <- G8. reflexivity.
Qed.
Definition init_from (h : hdr) : hdr := init_hdr (hW h) (hH h) (hD h) (hBpp h) (hFmt h) (hTyp h).

Section Copy.
Variable A : oracle.
Hypothesis OK : oracle_ok A.

(** a structure outside the tree of [a], and its blocks, survive changes below [a] *)
Lemma mutd_other : forall s s' a x i, Inv none_r none_b s -> touch (reach s a) (ownb s a) s s' -> ims s x = Some i -> ~ reach s a x ->
  ims s' x = Some i /\ forall k b, getb k i = Some b -> bks s' b = bks s b.
Proof.
  intros s s' a x i I T Ei N. assert (Lx : x < nxt s) by (assert (0 < x < nxt s) by (apply (I_im _ _ _ I); congruence); lia).
  split; [rewrite (t_im _ _ _ _ T x Lx N); assumption|].
  intros k b Gb. assert (P : bpoints s x k b) by (exists i; auto).
  apply (t_bk _ _ _ _ T).
  - assert (L := I_blive _ _ _ I _ _ _ (fun y => y) P). apply (I_bk _ _ _ I) in L. lia.
  - intros [p [k' [R P']]]. destruct (I_buniq _ _ _ I _ _ _ _ _ (fun y => y) (fun y => y) P P') as [-> _]. contradiction.
Qed.

Lemma wp_tex_from : forall s a i sa si (Q : bool -> st -> Prop), Inv none_r none_b s -> Siz none_b s ->
  cur s = Some a -> ims s a = Some i -> ims s sa = Some si -> ~ reach s a sa ->
  (forall ok s', mutd s s' a -> (nl none none s -> nl none none s') ->
     ims s' a = Some (mkImb (init_from (hd si)) None None None None (if ok : bool then Some (nxt s) else None) None None None None) ->
     (ok = true -> exists l, bks s' (nxt s) = Some l /\ zlen l = hSize (hd si) /\ forall p lp, iData si = Some p -> bks s p = Some lp -> l = lp) ->
     (nofail A -> ok = true) -> nxt s <= nxt s' -> Q ok s') ->
  wp (tex_from A sa) s Q.
Proof.
  intros s a i sa si Q I Z C Ei Esa NR HQ. unfold tex_from. apply wp_bind. eapply wp_get_im; [exact Esa|].
  apply wp_bind, wp_get. rewrite C. apply wp_bind. eapply wp_get_im; [exact Ei|].
  assert (Zs := Z sa si Esa). assert (Gs := o_geom _ _ _ _ Zs). assert (GO := geom_one _ Gs). fold (init_from (hd si)) in GO.
  assert (SZ : hSize (init_from (hd si)) = hSize (hd si)) by (rewrite GO; reflexivity).
  assert (Rs : 0 <= hSize (hd si)). { destruct Gs as (_&_&_&_&_&_&_&->). unfold u32. apply Z.mod_pos_bound. lia. }
  apply (tex_release s a i); auto. intros s1 KB P1 HK TD.
  assert (X1 := heap_only_nxt _ _ (p_heap _ _ _ _ _ _ P1)).
  unfold ilInitImage_from. apply wp_bind. apply (wp_init A OK (inl a all_lk) (inb_ a KB) a i); auto.
  - apply P1.
  - intros x j _ Ej. apply P1. assumption.
  - apply P1.
  - apply Gs.
  - discriminate.
  - intros ok s2 I2 Z2 G2 X2 M2 B2 E2 T2 F2 NF2 N2. rewrite X1 in *. fold (init_from (hd si)) in E2, T2.
    assert (M : mutd s s2 a).
    { split.
      - eapply Inv_mono; [| |exact I2].
        + intros r [[k [-> _]] Hr]. exfalso. eapply Hr; reflexivity.
        + intros p k [[-> _] Hp]. congruence.
      - eapply Siz_mono; [|exact Z2]. intros p k [[-> _] Hp]. congruence.
      - eapply glob_trans; [apply heap_only_glob; apply P1|exact G2].
      - rewrite E2. discriminate.
      - eapply touch_trans0; [eapply ph_touch; exact P1|]. apply (touch_one _ _ _ _ a); auto.
        + constructor.
        + lia.
        + intros b Hb. apply B2. lia. }
    assert (NL : nl none none s -> nl none none s2).
    { intros N. eapply N2; [apply P1; exact N| | |intros x []|intros x []].
      - intros k x Gk L. exfalso. apply L. apply (p_K _ _ _ _ _ _ P1 k); [apply in_all_lk|assumption].
      - intros k x Gk L. exfalso. apply L. eapply TD; [|exact Gk]. eapply nl_tidy; eauto. }
    destruct ok; cbn [negb]; [|apply wp_ret; apply HQ; auto; discriminate].
    destruct (T2 eq_refl) as [l0 [T3 [T4 _]]].
    destruct (iData si) as [p|] eqn:Ep.
    2:{ apply wp_ret. apply HQ; auto. intros _. exists l0. split; [assumption|]. split; [congruence|discriminate]. }
    apply wp_bind. eapply wp_get_im; [exact E2|].
    destruct (mutd_other s s2 a sa si I (md_touch _ _ _ M) Esa NR) as [_ SB].
    destruct (o_data _ _ _ _ Zs (fun x => x) p Ep) as [lp [Elp Llp]].
    assert (Elp2 : bks s2 p = Some lp) by (rewrite (SB BData p Ep); assumption).
    apply wp_bind. eapply wp_get_blk; [exact Elp2|]. cbn [iData hd]. apply wp_bind.
    eapply wp_copy_in; [exact T3|exact T4|lia|lia|]. apply wp_ret.
    assert (SL : slice lp 0 (hSize (init_from (hd si))) = lp).
    { apply list_ext; [rewrite zlen_slice; lia|]. intros k Hk. rewrite zlen_slice in Hk by lia. rewrite geti_slice by lia. f_equal. }
    rewrite SL.
    assert (PM : mutd s2 (set_bks (fup (bks s2) (nxt s) (Some lp)) s2) a).
    { eapply (put_mutd s2 a _ BData); [apply M|apply M|exact E2|reflexivity|exact T3|lia]. }
    apply HQ.
    + apply (mutd_intro s s2 _ a none (fun x => x = nxt s)); auto; try apply M; [|intros x _ []|intros x Hx ->; lia].
      split; [cbn; lia|reflexivity|]. intros x Hx Nx. cbn. apply fup_neq. assumption.
    + intros N. eapply put_nl; [apply NL; exact N|exact T3].
    + exact E2.
    + intros _. exists lp. split; [cbn; apply fup_eq|]. split; [assumption|]. intros p' lp' Ep' Elp'. congruence.
    + reflexivity.
    + exact X2.
Qed.

(** the image [ilCopyImageAttr] leaves in [a] *)
Definition blank (h : hdr) (b : option Z) : imb := mkImb h None None None None b None None None None.
Lemma blank_tidy : forall h b, tidy (blank h b).
Proof.
  intros h b. split; [intros Q1; exfalso; apply Q1; reflexivity|].
  split; [intros Q1; exfalso; apply Q1; reflexivity|].
  split; [intros Q1; exfalso; apply Q1; reflexivity|].
  split; [intros Q1; exfalso; apply Q1; reflexivity|]. left. reflexivity.
Qed.
Lemma pal_tidy : forall h b p, (p <> None -> 0 < hPalSize h /\ hPalType h <> IL_PAL_NONE) ->
  tidy (mkImb h None None None None b p None None None).
Proof. intros h b p H. repeat split; cbn in *; try tauto; try congruence; apply H; assumption. Qed.
Definition same_hdr (h : hdr) : Prop :=
  hAnimSize h = 0 /\ hProfSize h = 0 /\ hDxtFmt h = IL_DXT_NO_COMP /\ hDxtSize h = 0.

Lemma wp_CopyAttr : forall s a b sa si (Q : bool -> st -> Prop), Inv none_r none_b s -> Siz none_b s ->
  ims s a = Some (blank (init_from (hd si)) b) -> ims s sa = Some si -> a <> sa ->
  (forall ok s' p, Inv none_r none_b s' -> Siz none_b s' -> glob s s' -> nxt s <= nxt s' ->
     (forall x, x <> a -> ims s' x = ims s x) -> (forall x, x <> nxt s -> bks s' x = bks s x) ->
     ims s' a = Some (mkImb (if ok : bool then hd si else init_from (hd si)) None None None None b p None None None) ->
     (ok = false -> p = None) -> (nofail A -> ok = true) ->
     (ok = true -> match iPal si with
       | None => p = None
       | Some q => p = Some (nxt s) /\ forall lq, bks s q = Some lq -> bks s' (nxt s) = Some lq
       end) ->
     (nl none none s -> nl none none s') -> Q ok s') ->
  wp (ilCopyImageAttr A a sa) s Q.
Proof.
  intros s a b sa si Q I Z Ea Esa Nas HQ.
  assert (Zs := Z sa si Esa). assert (Gs := o_geom _ _ _ _ Zs). assert (GO := geom_one _ Gs). fold (init_from (hd si)) in GO.
  unfold ilCopyImageAttr, close_lnk. 
  apply wp_bind. eapply wp_get_im; [exact Ea|]. cbn [blank iPal non_null andb]. apply wp_bind, wp_ret.
  apply wp_bind. apply wp_bind. eapply wp_get_im; [exact Ea|]. cbn [getl blank iFaces non_null]. apply wp_ret.
  apply wp_bind. apply wp_bind. eapply wp_get_im; [exact Ea|]. cbn [getl blank iLayers non_null]. apply wp_ret.
  apply wp_bind. apply wp_bind. eapply wp_get_im; [exact Ea|]. cbn [getl blank iMips non_null]. apply wp_ret.
  apply wp_bind. apply wp_bind. eapply wp_get_im; [exact Ea|]. cbn [getl blank iNext non_null]. apply wp_ret.
  apply wp_bind. eapply wp_get_im; [exact Ea|]. cbn [blank iProf non_null]. apply wp_bind, wp_ret.
  apply wp_bind. eapply wp_get_im; [exact Ea|]. cbn [blank iDxtc non_null]. apply wp_bind, wp_ret.
  apply wp_bind. eapply wp_get_im; [exact Esa|].
  rewrite (o_anim _ _ _ _ Zs), (o_prof _ _ _ _ Zs). apply wp_bind, wp_ret. cbn [negb]. apply wp_bind, wp_ret. cbn [negb].
  assert (CH : copy_hdr (init_from (hd si)) (hd si) = hd si).
  { rewrite GO. unfold copy_hdr. cbn [hProfSize hDxtFmt hDxtSize].
    assert (Q1 := o_profsz _ _ _ _ Zs). assert (Q2 := o_dxtf _ _ _ _ Zs). assert (Q3 := o_dxts _ _ _ _ Zs).
    destruct (hd si). cbn in *. congruence. }
  (* the header is copied last *)
  assert (FIN : forall s1 p, Inv none_r none_b s1 -> Siz (inb_ a [BPal]) s1 -> glob s s1 -> nxt s <= nxt s1 ->
     (forall x, x <> a -> ims s1 x = ims s x) -> (forall x, x <> nxt s -> bks s1 x = bks s x) ->
     ims s1 a = Some (putb BPal p (blank (init_from (hd si)) b)) ->
     match iPal si with
       | None => p = None
       | Some q => p = Some (nxt s) /\ forall lq, bks s q = Some lq -> bks s1 (nxt s) = Some lq
       end ->
     (nl none none s -> nl none none (set_ims (fup (ims s1) a (Some (puth (hd si) (putb BPal p (blank (init_from (hd si)) b))))) s1)) ->
     wp (exec upd_im a (fun i => puth (copy_hdr (hd i) (hd si)) i); ret true) s1 Q).
  { intros s1 p I1 Z1 G1 X1 M1 B1 E1 HP N1. apply wp_bind. eapply wp_upd_im; [exact E1|]. apply wp_ret.
    rewrite hd_putb. cbn [hd blank]. rewrite CH. apply (HQ true _ p).
    - apply (upd_ok none_r none_r none_b none_b s1 a _ _ I1 E1); auto.
    - intros x j Ej. cbn in Ej. destruct (Z.eq_dec x a) as [->|Nx].
      + rewrite fup_eq in Ej. injection Ej as <-. assert (Za := Z1 a _ E1).
        split; try apply Zs; try reflexivity.
        * intros _ b' Eb. destruct (o_data _ _ _ _ Za) with (b := b') as [l [L1 L2]].
          -- intros [_ [Q1|[]]]. discriminate.
          -- exact Eb.
          -- exists l. split; [exact L1|]. rewrite L2. rewrite hd_putb. cbn [hd blank]. rewrite GO. reflexivity.
        * intros _ b' Eb. change (p = Some b') in Eb. subst p. destruct (iPal si) as [q|] eqn:Ep; [|discriminate]. destruct HP as [HP1 HP2]. injection HP1 as ->.
          destruct (o_pal _ _ _ _ Zs (fun x => x) q Ep) as [lq [L1 L2]]. exists lq. split; [apply HP2; assumption|exact L2].
      + rewrite fup_neq in Ej by assumption. assert (Zx := Z1 x j Ej).
        split; try apply Zx; intros _; [apply (o_data _ _ _ _ Zx)|apply (o_pal _ _ _ _ Zx)]; intros [Q1 _]; congruence.
    - eapply glob_trans; [exact G1|repeat split].
    - exact X1.
    - intros x Nx. cbn. rewrite fup_neq by assumption. apply M1. assumption.
    - exact B1.
    - cbn. rewrite fup_eq. reflexivity.
    - discriminate.
    - reflexivity.
    - intros _. exact HP.
    - exact N1. }
  assert (NLP : forall s1 p, ims s1 a = Some (putb BPal p (blank (init_from (hd si)) b)) -> (p <> None -> iPal si <> None) -> forall E EB,
     tidy si -> nl E (fun x => EB x) s1 -> nl E EB (set_ims (fup (ims s1) a (Some (puth (hd si) (putb BPal p (blank (init_from (hd si)) b))))) s1)).
  { intros s1 p E1 Hp E EB Ts N. apply (nl_upd E EB E EB s1 a _ _ N E1); auto.
    - intros k x Gk _. right. exists k. exact Gk.
    - intros k x Gk _. right. exists k. exact Gk.
    - apply pal_tidy. intros Q1. apply Ts. auto. }
  destruct (iPal si) as [q|] eqn:Ep.
  - destruct (o_pal _ _ _ _ Zs (fun x => x) q Ep) as [lq [L1 L2]]. 
    assert (Pq := o_pals _ _ _ _ Zs).
    unfold dup_blk. apply wp_bind. apply wp_bind. apply wp_bind. apply (wp_new_blk A OK); [exact Pq| |].
    + intros EA. apply wp_ret. apply wp_bind. eapply wp_upd_im; [exact Ea|]. apply wp_ret. cbn [non_null negb]. apply wp_ret.
      assert (EQ : forall x, fup (ims s) a (Some (putb BPal None (blank (init_from (hd si)) b))) x = ims s x).
      { intros x. unfold fup. destruct (x =? a) eqn:E; [|reflexivity]. assert (x = a) by lia. subst x. rewrite Ea. reflexivity. }
      apply (HQ false _ None); auto.
      * eapply ext_inv; [exact I|reflexivity|exact EQ|reflexivity|apply Z.le_refl].
      * eapply ext_siz; [exact Z|exact EQ|reflexivity].
      * repeat split.
      * apply Z.le_refl.
      * intros x _. apply EQ.
      * apply fup_eq.
      * intros NF. exfalso. eapply NF; exact EA.
      * discriminate.
      * intros N. eapply ext_nl; [exact N|reflexivity|exact EQ|reflexivity].
    + intros l EA Ll. assert (FB := fresh_bk _ _ _ I). assert (Nq : q <> nxt s) by congruence.
      apply wp_bind. eapply wp_get_blk; [cbn; rewrite fup_neq by assumption; exact L1|]. apply wp_bind.
      eapply wp_copy_in; [cbn; apply fup_eq|exact Ll|lia|lia|]. apply wp_ret.
      assert (SL : slice lq 0 (hPalSize (hd si)) = lq).
      { apply list_ext; [rewrite zlen_slice; lia|]. intros k Hk. rewrite zlen_slice in Hk by lia. rewrite geti_slice by lia. f_equal. }
      rewrite SL. set (s3 := set_bks _ _).
      assert (I3 : Inv none_r none_b s3).
      { eapply put_inv; [apply add_blk_inv; eapply ext_inv; [exact I|reflexivity|reflexivity|reflexivity|apply Z.le_refl]|]. cbn. apply fup_eq. }
      assert (Z3 : Siz none_b s3).
      { eapply put_siz; [eapply add_blk_siz; [eapply ext_inv; [exact I|reflexivity|reflexivity|reflexivity|apply Z.le_refl]|eapply ext_siz; [exact Z|reflexivity|reflexivity]]| |].
        - cbn. apply fup_eq.
        - lia. }
      assert (B3 : forall x, x <> nxt s -> bks s3 x = bks s x).
      { intros x Nx. unfold s3. cbn. rewrite fup_neq by assumption. rewrite fup_neq by assumption. reflexivity. }
      assert (F3 : bks s3 (nxt s) = Some lq) by (unfold s3; cbn; apply fup_eq).
      assert (N3 : nl none none s -> nl none (fun x => none x \/ x = nxt s) s3).
      { intros N. eapply put_nl; [apply (add_blk_nl none none (tick s)); eapply ext_nl; [exact N|reflexivity|reflexivity|reflexivity]|]. cbn. apply fup_eq. }
      assert (FR : forall x j k, ims s x = Some j -> getb k j <> Some (nxt s)).
      { intros x j k Ej Gk. apply (I_blive _ _ _ I x k (nxt s) (fun x => x)); [exists j; auto|assumption]. }
      assert (E3 : ims s3 a = Some (blank (init_from (hd si)) b)) by exact Ea.
      apply wp_bind. eapply wp_upd_im; [exact E3|]. apply wp_ret. cbn [non_null negb].
      set (j1 := putb BPal (Some (nxt s)) (blank (init_from (hd si)) b)).
      apply (FIN _ (Some (nxt s))).
      * apply (upd_ok none_r none_r none_b none_b s3 a _ _ I3 E3); auto.
        intros k x _ Gk. destruct (bk_eq_dec k BPal) as [->|Nk].
        -- change (Some (nxt s) = Some x) in Gk. injection Gk as <-. right. split; [congruence|]. split.
           ++ intros p k' _ [j [Ej Gj]]. eapply FR; eauto.
           ++ intros k' Gk'. destruct (bk_eq_dec k' BPal); [assumption|]. exfalso. unfold j1 in Gk'.
              rewrite getb_putb_neq in Gk' by assumption. eapply (FR a); eauto.
        -- left. unfold j1 in Gk. rewrite getb_putb_neq in Gk by assumption. auto.
      * intros x j Ej. cbn in Ej. destruct (Z.eq_dec x a) as [->|Nx].
        -- rewrite fup_eq in Ej. injection Ej as <-. assert (Za := Z3 a _ E3). split; try reflexivity.
           ++ apply (o_geom _ _ _ _ Za).
           ++ intros _ b' Eb. apply (o_data _ _ _ _ Za (fun x => x)). exact Eb.
           ++ intros NB. exfalso. apply NB. split; [reflexivity|left; reflexivity].
        -- rewrite fup_neq in Ej by assumption. assert (Zx := Z3 x j Ej). split; try apply Zx; intros _; [apply (o_data _ _ _ _ Zx)|apply (o_pal _ _ _ _ Zx)]; auto.
      * repeat split.
      * cbn. lia.
      * intros x Nx. cbn. apply fup_neq. assumption.
      * exact B3.
      * cbn. apply fup_eq.
      * split; [reflexivity|]. intros lq' Eq. assert (lq' = lq) by congruence. subst lq'. exact F3.
      * intros N. assert (Ts := n_tidy _ _ _ N _ _ Esa). apply N3 in N.
        assert (HH : nl none none (set_ims (fup (ims s3) a (Some (puth (hd si) j1))) s3)).
        { apply (nl_upd _ _ none none s3 a _ _ N E3).
          - intros k x Gk _. right. exists k. destruct k; exact Gk.
          - intros k x Gk _. right. destruct k; try discriminate Gk. exists BData. exact Gk.
          - intros x [].
          - intros x [[]| ->]. right. exists BPal. reflexivity.
          - apply pal_tidy. intros _. apply Ts. congruence. }
        eapply ext_nl; [exact HH|reflexivity| |reflexivity].
        intros x. cbn. unfold fup. destruct (x =? a); reflexivity.
  - apply wp_bind. apply wp_bind. eapply wp_upd_im; [exact Ea|]. apply wp_ret. cbn [negb].
    assert (EQ : forall x, fup (ims s) a (Some (putb BPal None (blank (init_from (hd si)) b))) x = ims s x).
    { intros x. unfold fup. destruct (x =? a) eqn:E; [|reflexivity]. assert (x = a) by lia. subst x. rewrite Ea. reflexivity. }
    apply (FIN _ None); auto.
    + eapply ext_inv; [exact I|reflexivity|exact EQ|reflexivity|apply Z.le_refl].
    + apply (Siz_mono none_b); [intros ? ? []|]. eapply ext_siz; [exact Z|exact EQ|reflexivity].
    + repeat split.
    + apply Z.le_refl.
    + intros x _. apply EQ.
    + cbn. apply fup_eq.
    + intros N. apply NLP.
      * cbn. apply fup_eq.
      * congruence.
      * eapply n_tidy; eauto.
      * eapply ext_nl; [exact N|reflexivity|exact EQ|reflexivity].
Qed.

(** ** A whole copy of the image [si] of state [s] into [a] *)
Record copied (s s' : st) (a : Z) (si : imb) : Prop := {
  cp_im : exists b p, ims s' a = Some (mkImb (hd si) None None None None (Some b) p None None None) /\
     (exists l, bks s' b = Some l /\ zlen l = hSize (hd si) /\ forall q lq, iData si = Some q -> bks s q = Some lq -> l = lq) /\
     (forall q, iPal si = Some q -> exists c, p = Some c /\ forall lq, bks s q = Some lq -> bks s' c = Some lq) /\
     (iPal si = None -> p = None) }.

Lemma wp_copy_img : forall s a i sa si (Q : unit -> st -> Prop), Inv none_r none_b s -> Siz none_b s ->
  cur s = Some a -> ims s a = Some i -> ims s sa = Some si -> ~ reach s a sa ->
  (forall s', mutd s s' a -> (nl none none s -> nl none none s') -> (nofail A -> copied s s' a si) -> Q tt s') ->
  wp (exec tex_from A sa; exec ilCopyImageAttr A a sa; ret tt) s Q.
Proof.
  intros s a i sa si Q I Z C Ei Esa NR HQ. apply wp_bind. eapply wp_tex_from; eauto.
  intros ok s1 M1 N1 E1 D1 NF1 X1. apply wp_bind.
  destruct (mutd_other s s1 a sa si I (md_touch _ _ _ M1) Esa NR) as [Es1 Bs1].
  assert (Nas : a <> sa) by (intros ->; apply NR; constructor).
  eapply wp_CopyAttr; [apply M1|apply M1|exact E1|exact Es1|exact Nas|].
  intros ok2 s2 p I2 Z2 G2 X2 M2 B2 E2 P2 NF2 HP2 N2. apply wp_ret. apply HQ.
  - apply (mutd_intro s s1 s2 a (fun x => x = a) (fun x => nxt s <= x)); try apply M1.
    + split; auto; [congruence|]. eapply (touch_one _ _ _ _ a); auto; [constructor|]. intros b Hb. apply B2. lia.
    + split; [assumption| |]; intros x Hx Nx; [apply M2|apply B2]; lia.
    + intros x _ ->. constructor.
    + intros x Hx Nx. lia.
  - auto.
  - intros NF. specialize (NF1 NF). specialize (NF2 NF). subst ok ok2. destruct (D1 eq_refl) as [l [L1 [L2 L3]]].
    specialize (HP2 eq_refl).
    assert (NX : nxt s < nxt s1).
    { assert (0 < nxt s < nxt s1); [|lia]. apply (I_bk _ _ _ (md_inv _ _ _ M1)). congruence. }
    split. exists (nxt s), p. split; [exact E2|]. split.
    + exists l. split; [rewrite B2 by lia; exact L1|]. split; assumption.
    + split.
      * intros q Eq. rewrite Eq in HP2. destruct HP2 as [-> HP2]. eexists. split; [reflexivity|]. intros lq Elq. apply HP2.
        rewrite (Bs1 BPal q Eq). exact Elq.
      * intros Eq. rewrite Eq in HP2. assumption.
Qed.

(** ** ilRegisterNumFaces, ilRegisterMipNum, ilRegisterNumImages after the bind *)
Definition nocross (k : lk) (i : imb) : Prop := (k = LFaces -> iMips i = None) /\ (k = LMips -> iFaces i = None).
Lemma nocross_tidy : forall k p i, tidy i -> nocross k i -> tidy (putl k p i).
Proof.
  intros k p i (T1&T2&T3&T4&T5) [H1 H2]. destruct i; destruct k; cbn in *; (split; [exact T1|]); (split; [exact T2|]); (split; [exact T3|]); (split; [exact T4|]); auto.
Qed.
Lemma none_tidy : forall k i, tidy i -> tidy (putl k None i).
Proof.
  intros k i (T1&T2&T3&T4&T5). destruct i; destruct k; cbn in *; (split; [exact T1|]); (split; [exact T2|]); (split; [exact T3|]); (split; [exact T4|]); auto.
Qed.

Lemma wp_RegTail : forall s a i k1 k2 n (Q : bool -> st -> Prop), nofail A -> Inv none_r none_b s -> Siz none_b s -> ims s a = Some i -> 0 <= n ->
  (forall s', mutd s s' a -> (nocross k1 i -> nl none none s -> nl none none s') ->
     (exists j, ims s' a = Some j /\ hd j = hd i /\ (forall k, getb k j = getb k i) /\ (forall k, k1 <> k -> getl k j = getl k i) /\
        ((n = 0 /\ getl k1 j = None) \/
         (exists b l, getl k1 j = Some b /\ nxt s <= b /\ chain s' k2 b l /\ zlen l = n - 1 /\ Forall (fun x => nxt s <= x /\ fresh1 s' k2 x) (b :: l)))) ->
     Q true s') ->
  wp (do i <- get_im a;
      exec ilCloseImage (getl k1 i);
      exec upd_im a (putl k1 None);
      if n =? 0 then ret true
      else
        do p <- new1 A; exec upd_im a (putl k1 p);
        match p with
        | None => ret false
        | Some b => reg_loop A (Z.to_nat (n - 1)) k2 b b
        end) s Q.
Proof.
  intros s a i k1 k2 n Q NF I Z Ei Hn HQ. apply wp_bind. eapply wp_get_im; [exact Ei|]. apply wp_bind.
  apply (ph_close s s a i [] [] k1 _ (ph_start _ _ _ I Z Ei) (fun x => x)). intros s1 P1.
  assert (X1 := heap_only_nxt _ _ (p_heap _ _ _ _ _ _ P1)).
  assert (I1 : Inv (inl a [k1]) none_b s1) by (eapply Inv_mono; [| |apply P1]; [auto|intros p k' [_ []]]).
  assert (Z1 : Siz none_b s1) by (eapply Siz_mono; [|apply P1]; intros p k' [_ []]).
  assert (DD : forall x, getl k1 i = Some x -> ims s1 x = None) by (intros x Gx; eapply (p_K _ _ _ _ _ _ P1 k1); [left; reflexivity|assumption]).
  assert (E1 := p_i _ _ _ _ _ _ P1).
  apply wp_bind. eapply wp_upd_im; [exact E1|]. set (s2 := set_ims _ _).
  assert (I2 : Inv none_r none_b s2).
  { apply (upd_ok (inl a [k1]) none_r none_b none_b s1 a i _ I1 E1); auto.
    - intros k x _ Gk. destruct (lk_eq_dec k k1) as [->|Nk]; [rewrite getl_putl_eq in Gk; discriminate|].
      rewrite getl_putl_neq in Gk by assumption. left. split; [assumption|]. intros [k' [Q1 [Q2|[]]]]. congruence.
    - intros k x _ Gk. rewrite getb_putl in Gk. auto.
    - intros r [k [-> _]]. right. eauto. }
  assert (Z2 : Siz none_b s2).
  { intros x j Ej. unfold s2 in Ej. cbn in Ej. destruct (Z.eq_dec x a) as [->|Nx].
    - rewrite fup_eq in Ej. injection Ej as <-. assert (Za := Z1 a i E1). destruct i, k1; destruct Za; split; auto.
    - rewrite fup_neq in Ej by assumption. assert (Zx := Z1 x j Ej). destruct Zx; split; auto. }
  assert (E2 : ims s2 a = Some (putl k1 None i)) by (unfold s2; cbn; apply fup_eq).
  assert (N2 : nl none none s -> nl none none s2).
  { intros N. apply (nl_upd none none none none s1 a i _ (p_nl _ _ _ _ _ _ P1 _ _ N) E1).
    - intros k x Gk Lx. right. destruct (lk_eq_dec k k1) as [->|Nk]; [exfalso; apply Lx; auto|]. exists k. rewrite getl_putl_neq; assumption.
    - intros k x Gk Lx. right. exists k. rewrite getb_putl. assumption.
    - intros x [].
    - intros x [].
    - apply none_tidy. eapply n_tidy; eauto. }
  assert (M2 : mutd s s2 a).
  { split; auto.
    - eapply glob_trans; [apply heap_only_glob; apply P1|repeat split].
    - congruence.
    - eapply touch_trans0; [eapply ph_touch; exact P1|]. apply (touch_one _ _ _ _ a); [constructor|unfold s2; cbn; lia| |].
      + intros x Hx Nx. unfold s2. cbn. apply fup_neq. assumption.
      + reflexivity. }
  destruct (n =? 0) eqn:En.
  - apply wp_ret. apply HQ; auto. exists (putl k1 None i). split; [exact E2|]. split; [apply hd_putl|]. split; [intros; apply getb_putl|].
    split; [intros k Nk; apply getl_putl_neq; congruence|]. left. split; [lia|apply getl_putl_eq].
  - assert (PP : forall p, putl k1 p (putl k1 None i) = putl k1 p i) by (intros p; destruct i, k1; reflexivity).
    apply (wp_newlink A OK s2 a (putl k1 None i) k1 (fun p => match p with None => ret false | Some b => reg_loop A (Z.to_nat (n - 1)) k2 b b end)); auto.
    + eapply Inv_mono; [| |exact I2]; [intros r []|auto].
    + intros. exfalso. auto.
    + intros s3 I3 Z3 G3 X3 M3 B3 E3 La F3 L3 N3. rewrite PP in *. eapply wp_reg_loop; [exact OK|exact NF|exact I3|exact Z3|exact F3|destruct k2; reflexivity|].
      intros l s4 g Hl. change (nxt s2) with (nxt s1) in *. rewrite X1 in *. assert (T4 := gr_touch _ _ _ _ _ _ g).
      assert (E4 : ims s4 a = Some (putl k1 (Some (nxt s)) i)) by (rewrite (t_im _ _ _ _ T4) by lia; assumption).
      apply HQ.
      * apply (mutd_intro s s2 s4 a (fun x => x = a) none); try apply M2; [| |intros x _ ->; constructor|intros x _ []].
        -- split; try apply g.
           ++ eapply glob_trans; [exact G3|apply g].
           ++ congruence.
           ++ change (nxt s2) with (nxt s1) in *. apply (touch_one _ _ _ _ a); [constructor|change (nxt s2) with (nxt s1); destruct T4; lia| |];
              change (nxt s2) with (nxt s1).
              ** intros x Hx Nx. rewrite (t_im _ _ _ _ T4) by lia. apply M3; [assumption|]. lia.
              ** intros b Hb. rewrite (t_bk _ _ _ _ T4) by (auto; lia). apply B3. lia.
        -- split.
           ++ change (nxt s2) with (nxt s1). destruct T4; lia.
           ++ change (nxt s2) with (nxt s1). intros x Hx Nx. rewrite (t_im _ _ _ _ T4) by lia. apply M3; [assumption|]. lia.
           ++ change (nxt s2) with (nxt s1). intros b Hb _. rewrite (t_bk _ _ _ _ T4) by (auto; lia). apply B3. lia.
      * intros NC N. apply g.
        -- apply im1_tidy.
        -- apply N3; auto.
           ++ rewrite getl_putl_eq. discriminate.
           ++ apply nocross_tidy; [|assumption]. eapply n_tidy; eauto.
      * eexists. split; [exact E4|]. split; [apply hd_putl|]. split; [intros; apply getb_putl|]. split; [intros k Nk; apply getl_putl_neq; congruence|].
        right. exists (nxt s), l. split; [apply getl_putl_eq|]. split; [lia|]. split; [apply g|]. split; [unfold zlen; lia|].
        constructor.
        -- split; [lia|]. eexists _, _. apply g.
        -- eapply Forall_impl; [|apply g]. intros x [H1 H2]. split; [lia|assumption].
Qed.
End Copy.

Lemma mutd_GF : forall s s' a, GF s -> cur s = Some a -> mutd s s' a -> GF s'.
Proof.
  intros s s' a g E M. destruct (mutd_G s s' a (gf_G _ g) E M) as [g' _].
  assert (GL := md_glob _ _ _ M). assert (SL := fun n => glob_slotv s s' n GL).
  destruct GL as (E1&E2&E3&E4&E5&E6&E7). split; [assumption| | |].
  - rewrite E4. apply g.
  - intros n. rewrite E4, SL. apply (gf_free _ g).
  - rewrite E4, E6. apply g.
Qed.

(** an address in one tree is in no other tree *)
Lemma forest_not : forall s n m b b', Inv none_r none_b s -> slotv s n = Some b -> slotv s m = Some b' -> n <> m -> ~ reach s b b'.
Proof. intros s n m b b' I Hn Hm N R. apply N. eapply forest; eauto. constructor. Qed.

(** a chainless image reaches only itself *)
Lemma reach_leaf : forall s b i x, ims s b = Some i -> (forall k, getl k i = None) -> reach s b x -> x = b.
Proof.
  intros s b i x Ei H R. induction R as [|p k c R IH [j [Ej Gj]]]; [reflexivity|]. subst p.
  exfalso. rewrite Ei in Ej. injection Ej as <-. rewrite H in Gj. discriminate.
Qed.

Section Whole.
Variable A : oracle.
Hypothesis OK : oracle_ok A.
Hypothesis NT : notab A.

(** ** ilRegisterNumFaces, ilRegisterMipNum, ilRegisterNumImages *)
Lemma wp_RegisterNum : forall s k1 k2 n (Q : bool -> st -> Prop), nofail A -> GF s -> 0 <= n ->
  (forall s1 s' a i, bound A s s1 (match cur s with Some _ => cnm s | None => 0 end) -> cur s1 = Some a -> ims s1 a = Some i -> mutd s1 s' a ->
     (nocross k1 i -> nl none none s1 -> nl none none s') ->
     (exists j, ims s' a = Some j /\ hd j = hd i /\ (forall k, getb k j = getb k i) /\ (forall k, k1 <> k -> getl k j = getl k i) /\
        ((n = 0 /\ getl k1 j = None) \/
         (exists b l, getl k1 j = Some b /\ nxt s1 <= b /\ chain s' k2 b l /\ zlen l = n - 1 /\ Forall (fun x => nxt s1 <= x /\ fresh1 s' k2 x) (b :: l)))) ->
     Q true s') ->
  wp (ilRegisterNum A k1 k2 n) s Q.
Proof.
  intros s k1 k2 n Q NF g Hn HQ. unfold ilRegisterNum. apply wp_bind. apply wp_GetCurName; [apply g|].
  set (nm := match cur s with Some _ => cnm s | None => 0 end) in *.
  assert (Hnm : 0 <= nm < NMAX /\ ~ In nm (fre s)).
  { assert (C := g_cnm _ g). assert (T := g_top _ g). unfold nm. destruct (cur s).
    - split; [lia|]. apply g.
    - split; [unfold NMAX; lia|]. intros H. apply (g_fre _ g) in H. lia. }
  destruct Hnm as [Hnm FR]. apply wp_bind. apply (wp_BindImage A OK NT); auto. intros s1 b1. apply wp_bind, wp_get.
  assert (C1 : exists a, slotv s1 nm = Some a).
  { destruct (slotv s nm) as [b|] eqn:E; [exists b; apply (bo_old _ _ _ _ b1); assumption|].
    destruct (bo_new _ _ _ _ b1 E) as [[_ H]|[b [H _]]]; [exfalso; auto|eauto]. }
  destruct C1 as [a Ea]. assert (C1 : cur s1 = Some a) by (rewrite (bo_cur _ _ _ _ b1); assumption). rewrite C1.
  assert (g1 := bo_GF _ _ _ _ b1). destruct (ims s1 a) as [i|] eqn:Ei; [|exfalso; eapply (g_cur _ g1); eauto].
  eapply (wp_RegTail A OK); eauto; apply g1.
Qed.

(** ** ilCopyImage *)
Lemma wp_CopyImage : forall s n (Q : bool -> st -> Prop), nofail A -> GF s -> base s -> 0 <= n < NMAX -> ~ In n (fre s) -> n <> cnm s ->
  (cur s = None \/ cnm s = 0 -> Q false (set_errs (IL_ILLEGAL_OPERATION :: errs s) s)) ->
  (forall s1 s2 s' dst sa si, cnm s <> 0 -> cur s = Some dst -> bound A s s1 n -> bound A s1 s2 (cnm s) -> slotv s2 n = Some sa -> ims s2 sa = Some si ->
     cur s2 = Some dst -> mutd s2 s' dst -> (nl none none s2 -> nl none none s') -> copied s2 s' dst si ->
     ims s' sa = Some si -> (forall k b, getb k si = Some b -> bks s' b = bks s2 b) -> Q true s') ->
  wp (ilCopyImage A n) s Q.
Proof.
  intros s n Q NF g B Hn FR Nn H1 H2. unfold ilCopyImage. apply wp_bind. apply wp_GetCurName; [apply g|]. apply wp_bind, wp_get.
  destruct (cur s) as [dst|] eqn:C; [|apply wp_bind; unfold raise; apply wp_mod; apply wp_ret; auto].
  destruct (cnm s =? 0) eqn:E0; [apply wp_bind; unfold raise; apply wp_mod; apply wp_ret; apply H1; right; lia|].
  assert (Cn := g_cnm _ g). assert (T := g_top _ g).
  assert (SD : slotv s (cnm s) = Some dst) by (apply points_slotv; apply B; assumption).
  apply wp_bind. apply (wp_BindImage A OK NT); auto. intros s1 b1. apply wp_bind, wp_get.
  assert (C1 : exists a, slotv s1 n = Some a).
  { destruct (slotv s n) as [b|] eqn:E; [exists b; apply (bo_old _ _ _ _ b1); assumption|].
    destruct (bo_new _ _ _ _ b1 E) as [[_ H]|[b [H _]]]; [exfalso; auto|eauto]. }
  destruct C1 as [sa Esa].
  assert (g1 := bo_GF _ _ _ _ b1).
  apply wp_bind. apply (wp_BindImage A OK NT); [assumption|lia|rewrite (bo_fre _ _ _ _ b1); apply g|]. intros s2 b2.
  rewrite (bo_cur _ _ _ _ b1), Esa.
  assert (S1 : slotv s1 (cnm s) = Some dst) by (rewrite (bo_slot _ _ _ _ b1) by congruence; assumption).
  assert (S2 : slotv s2 (cnm s) = Some dst) by (apply (bo_old _ _ _ _ b2); assumption).
  assert (S3 : slotv s2 n = Some sa) by (rewrite (bo_slot _ _ _ _ b2) by congruence; assumption).
  assert (g2 := bo_GF _ _ _ _ b2). assert (I2 := g_inv _ g2).
  assert (LV : forall m x, slotv s2 m = Some x -> ims s2 x <> None).
  { intros m x Hx. apply (I_live _ _ _ I2 (Root m)); [intros []|]. apply points_slotv. assumption. }
  destruct (ims s2 dst) as [di|] eqn:Ed; [|exfalso; exact (LV _ _ S2 Ed)].
  destruct (ims s2 sa) as [si|] eqn:Es; [|exfalso; exact (LV _ _ S3 Es)].
  assert (NR : ~ reach s2 dst sa) by (apply (forest_not s2 (cnm s) n); auto).
  assert (C2 : cur s2 = Some dst) by (rewrite (bo_cur _ _ _ _ b2); assumption).
  assert (W : wp (exec tex_from A sa; exec ilCopyImageAttr A dst sa; ret tt) s2 (fun _ s' => Q true s')).
  { eapply (wp_copy_img A OK s2 dst di sa si); eauto; [apply g2|]. intros s' M N Cp.
    destruct (mutd_other s2 s' dst sa si I2 (md_touch _ _ _ M) Es NR) as [O1 O2].
    eapply (H2 s1 s2 s' dst sa si); eauto. lia. }
  destruct W as ([] & s' & W & HQ). exists true, s'. split; [|exact HQ].
  unfold bindM in W |- *. destruct (tex_from A sa s2) as [[b s3]| |]; try discriminate.
  cbn in W |- *. destruct (ilCopyImageAttr A dst sa s3) as [[b' s4]| |]; try discriminate. cbn in W |- *. injection W as <-. reflexivity.
Qed.

(** ** ilCloneCurImage *)
Record cloned (s s' : st) (id : Z) : Prop := {
  cl_GF : GF s';
  cl_keep : keep s s';
  cl_cur : cur s' = cur s;
  cl_cnm : cnm s' = id;
  cl_id : slotv s id = None /\ 0 < id < lst s' /\ (In id (fre s) \/ lst s <= id);
  cl_slot : forall m, m <> id -> slotv s' m = slotv s m;
  cl_lst : lst s <= lst s' <= lst s + 1;
  cl_fre : forall m, In m (fre s') <-> In m (fre s) /\ m <> id;
  cl_copy : nofail A -> forall c ci, cur s = Some c -> ims s c = Some ci -> exists a, slotv s' id = Some a /\ copied s s' a ci;
  cl_nl : nl none none s -> nl none none s' }.

Lemma wp_Clone : forall s (Q : Z -> st -> Prop), GF s -> lst s + 1 <= NMAX ->
  (cur s = None -> Q 0 (set_errs (IL_ILLEGAL_OPERATION :: errs s) s)) ->
  (forall id s', cloned s s' id -> cur s <> None -> Q id s') ->
  wp (ilCloneCurImage A) s Q.
Proof.
  intros s Q g HM H0 HQ. unfold ilCloneCurImage. apply wp_bind, wp_get.
  destruct (cur s) as [ca|] eqn:C; [|apply wp_bind; unfold raise; apply wp_mod; apply wp_ret; auto].
  destruct (ims s ca) as [ci|] eqn:Ec; [|exfalso; eapply (g_cur _ g); eauto].
  apply wp_bind. apply (wp_GenImages A OK NT); [assumption|lia| |lia]. intros l s1 _ gn Ll.
  destruct l as [|id [|? ?]]; unfold zlen in Ll; cbn [length] in Ll; try lia. clear Ll.
  destruct (gn_l _ _ _ _ gn id (or_introl eq_refl)) as (L1&L2&L3&L4).
  replace (id =? 0) with false by lia. assert (g1 := gn_GF _ _ _ _ gn). assert (T1 := g_top _ g1).
  apply wp_bind. apply (wp_BindImage A OK NT); [assumption|lia|assumption|]. intros s2 b2.
  assert (g2 := bo_GF _ _ _ _ b2). assert (I2 := g_inv _ g2). assert (K : keep s s2) by (eapply keep_trans; [apply gn|apply b2]).
  assert (Lca : 0 < ca < nxt s) by (apply (I_im _ _ _ (g_inv _ g)); congruence).
  assert (Ec2 : ims s2 ca = Some ci) by (rewrite (k_im _ _ K); congruence).
  assert (LS : lst s <= lst s2 <= lst s + 1).
  { assert (Q1 := gn_lst _ _ _ _ gn). assert (Q2 := bo_lst _ _ _ _ b2). unfold zlen in Q1. cbn [length] in Q1. lia. }
  (* the new image is fresh *)
  assert (FRS : forall da, slotv s2 id = Some da -> nxt s <= da /\ ims s2 da = Some (im1 (da + 1))).
  { intros da Hda. destruct (slotv s1 id) as [b|] eqn:E1.
    - assert (Q1 := bo_old _ _ _ _ b2 b E1). assert (da = b) by congruence. subst b.
      destruct (gn_some _ _ _ _ gn id da (or_introl eq_refl) E1) as [Q3 Q4]. split; [assumption|].
      rewrite (k_im _ _ (bo_keep _ _ _ _ b2)); congruence.
    - destruct (bo_new _ _ _ _ b2 E1) as [[Q1 _]|[b [Q1 [Q2 Q3]]]]; [congruence|]. assert (b = da) by congruence. subst b.
      assert (Q4 := k_nxt _ _ (gn_keep _ _ _ _ gn)). split; [lia|assumption]. }
  assert (SL2 : forall m, m <> id -> slotv s2 m = slotv s m).
  { intros m Nm. rewrite (bo_slot _ _ _ _ b2) by assumption. apply (gn_slot _ _ _ _ gn). intros [Q1|[]]. congruence. }
  assert (FRE2 : forall m, In m (fre s2) <-> In m (fre s) /\ m <> id).
  { intros m. rewrite (bo_fre _ _ _ _ b2). rewrite (gn_fre _ _ _ _ gn). split; intros [Q1 Q2]; split; auto.
    - intros ->. apply Q2. left. reflexivity.
    - intros [->|[]]. congruence. }
  assert (C2 := bo_cur _ _ _ _ b2). assert (CN2 := bo_cnm _ _ _ _ b2).
  assert (NL2 : nl none none s -> nl none none s2) by (intros N; apply b2; apply gn; assumption).
  (* after the copy, whatever happened *)
  assert (FIN : forall s3, GF s3 -> glob s2 s3 -> nxt s2 <= nxt s3 -> (forall x, x < nxt s -> ims s2 x <> None -> ims s3 x = ims s2 x) ->
     (forall b, b < nxt s -> bks s2 b <> None -> bks s3 b = bks s2 b) -> (nl none none s2 -> nl none none s3) ->
     (nofail A -> exists a, slotv s3 id = Some a /\ copied s2 s3 a ci) ->
     wp (exec mod_ (set_cur (Some ca)); ret id) s3 Q).
  { intros s3 g3 G3 X3 M3 B3 N3 CP. assert (SL3 := fun n => glob_slotv s2 s3 n G3). destruct G3 as (E1&E2&E3&E4&E5&E6&E7).
    assert (K3 : keep s (set_cur (Some ca) s3)).
    { split; cbn [nxt ims bks set_cur].
      - assert (Q1 := k_nxt _ _ K). lia.
      - intros x Hx. assert (0 < x < nxt s) by (apply (I_im _ _ _ (g_inv _ g)); assumption). rewrite M3; [apply K; assumption|lia|].
        rewrite (k_im _ _ K); assumption.
      - intros x Hx. assert (0 < x < nxt s) by (apply (I_bk _ _ _ (g_inv _ g)); assumption). rewrite B3; [apply K; assumption|lia|].
        rewrite (k_bk _ _ K); assumption. }
    apply wp_bind, wp_mod. apply wp_ret. apply HQ; [|discriminate]. split.
    - split.
      + destruct (gf_G _ g3). split; cbn; auto.
        * eapply ext_inv; [exact g_inv|reflexivity|reflexivity|reflexivity|apply Z.le_refl].
        * eapply ext_siz; [exact g_siz|reflexivity|reflexivity].
        * intros a Ea. injection Ea as <-. assert (Q1 := k_im _ _ K3 ca). cbn in Q1. rewrite Q1; congruence.
      + apply (gf_nd _ g3).
      + apply (gf_free _ g3).
      + apply (gf_cnm _ g3).
    - exact K3.
    - cbn. congruence.
    - cbn. congruence.
    - cbn. rewrite E3. split; [assumption|]. split; [|assumption]. assert (Q1 := bo_lst _ _ _ _ b2). lia.
    - intros m Nm. change (slotv (set_cur (Some ca) s3) m) with (slotv s3 m). rewrite SL3. auto.
    - cbn. rewrite E3. exact LS.
    - intros m. cbn [fre set_cur]. rewrite E4. apply FRE2.
    - intros NF c ci' Hc Hci. assert (c = ca) by congruence. subst c. assert (ci' = ci) by congruence. subst ci'.
      destruct (CP NF) as [a [Ha [(b & p & P1 & (l & Q1 & Q2 & Q3) & P2 & P3)]]]. exists a. split; [exact Ha|]. split. exists b, p. split; [exact P1|].
      assert (OB : forall k q lq, getb k ci = Some q -> bks s q = Some lq -> bks s2 q = Some lq).
      { intros k q lq _ Hq. rewrite (k_bk _ _ K); congruence. }
      split; [exists l; split; [exact Q1|split; [exact Q2|]]|split; [|exact P3]].
      + intros q lq Eq Elq. apply (Q3 q lq Eq). apply (OB BData); assumption.
      + intros q Eq. destruct (P2 q Eq) as [c [P4 P5]]. exists c. split; [exact P4|]. intros lq Elq. apply P5. apply (OB BPal); assumption.
    - intros N. eapply ext_nl; [apply N3, NL2, N|reflexivity|reflexivity|reflexivity]. }
  destruct (slotv s2 id) as [da|] eqn:Eda.
  - destruct (FRS da eq_refl) as [Fda Edi].
    assert (LF : forall k, getl k (im1 (da + 1)) = None) by (intros []; reflexivity).
    assert (NR : ~ reach s2 da ca) by (intros R; apply (reach_leaf _ _ _ _ Edi LF) in R; lia).
    assert (W : wp (exec tex_from A ca; exec ilCopyImageAttr A da ca; ret tt) s2
        (fun _ s3 => cur s3 = Some da /\ wp (exec mod_ (set_cur (Some ca)); ret id) s3 Q)).
    { eapply (wp_copy_img A OK s2 da (im1 (da + 1)) ca ci); eauto; [apply g2|]. intros s3 M N Cp.
      assert (G3 := md_glob _ _ _ M). split; [destruct G3 as (_&_&_&_&Q1&_); congruence|]. apply FIN; auto.
      - eapply mutd_GF; eauto.
      - apply (md_touch _ _ _ M).
      - intros x Hx Lx. apply (md_touch _ _ _ M); [assert (Q1 := k_nxt _ _ K); lia|]. intros R.
        apply (reach_ge0 _ _ _ I2) in R. lia.
      - intros x Hx Lx. apply (md_touch _ _ _ M); [assert (Q1 := k_nxt _ _ K); lia|]. intros [p [k [R P]]].
        apply (reach_leaf _ _ _ _ Edi LF) in R. subst p. destruct P as [j [Ej Gj]].
        rewrite Edi in Ej. injection Ej as <-. destruct k; cbn in Gj; try discriminate. injection Gj as <-. lia.
      - intros NF. exists da. split; [|apply Cp; assumption]. rewrite (glob_slotv _ _ _ G3). assumption. }
    destruct W as ([] & s3 & W & C3 & HW). destruct HW as (r & s' & W2 & HQ2). exists r, s'. split; [|exact HQ2].
    unfold bindM in W |- *. destruct (tex_from A ca s2) as [[b s4]| |] eqn:TF; try discriminate.
    assert (CT : wp (tex_from A ca) s2 (fun _ s' => cur s' = Some da)).
    { eapply (wp_tex_from A OK s2 da (im1 (da + 1)) ca ci); eauto; [apply g2|]. intros ok s9 M _ _ _ _ _.
      destruct (md_glob _ _ _ M) as (_&_&_&_&Q1&_). congruence. }
    destruct CT as (r1 & s5 & CT1 & CT2). rewrite TF in CT1. injection CT1 as <- <-. cbn in W |- *. unfold get. rewrite CT2. unfold bindM.
    destruct (ilCopyImageAttr A da ca s4) as [[b' s6]| |]; try discriminate. cbn in W |- *. injection W as <-. exact W2.
  - unfold tex_from. apply wp_bind. apply wp_bind. eapply wp_get_im; [exact Ec2|]. apply wp_bind, wp_get. rewrite C2.
    apply wp_bind. unfold raise. apply wp_mod. apply wp_ret. apply wp_bind, wp_get. cbn [cur set_errs]. rewrite C2.
    apply wp_bind. apply wp_mod. apply FIN; cbn; auto.
    + destruct g2 as [g2 ? ? ?]. split; auto. destruct g2; split; cbn; auto.
      * eapply ext_inv; [exact g_inv|reflexivity|reflexivity|reflexivity|apply Z.le_refl].
      * eapply ext_siz; [exact g_siz|reflexivity|reflexivity].
    + repeat split.
    + lia.
    + intros N. eapply ext_nl; [exact N|reflexivity|reflexivity|reflexivity].
    + intros NF. exfalso. destruct (slotv s1 id) as [b|] eqn:E1.
      * assert (Q1 := bo_old _ _ _ _ b2 b E1). congruence.
      * destruct (bo_new _ _ _ _ b2 E1) as [[_ Q1]|[b [Q1 _]]]; [auto|congruence].
Qed.
End Whole.
