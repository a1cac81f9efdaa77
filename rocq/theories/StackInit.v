(** [ilInit] and [ilShutDown] on well-formed states. *)
From Coq Require Import ZArith List Bool Lia.
From Verif Require Import Base Enums Utility Stack StackHeap StackWf StackOps StackNames StackCopy.
Import ListNotations.
Open Scope Z_scope.

(** ** The checkerboard *)
Definition pix (bpp : Z) (color : bool) (s : list Z * Z) : res (list Z * Z) :=
  let '(buf, off) := s in
  let! buf := wr buf off (if color then 18 else 0) in
  let! buf := wr buf (off + 1) (if color then 246 else 0) in
  let! buf := wr buf (off + 2) (if color then 243 else 0) in
  Ok (buf, off + bpp).
Lemma pix_ok : forall bpp c buf off, 0 <= off -> off + 2 < zlen buf ->
  exists buf', pix bpp c (buf, off) = Ok (buf', off + bpp) /\ zlen buf' = zlen buf.
Proof.
  intros bpp c buf off H1 H2. unfold pix. rewrite wr_ok by lia. cbn [bind].
  assert (L1 : zlen (upd buf off (if c then 18 else 0)) = zlen buf) by (apply zlen_upd; lia). set (b1 := upd _ _ _) in *.
  rewrite wr_ok by lia. cbn [bind].
  assert (L2 : zlen (upd b1 (off + 1) (if c then 246 else 0)) = zlen b1) by (apply zlen_upd; lia). set (b2 := upd _ _ _) in *.
  rewrite wr_ok by lia. cbn [bind]. eexists. split; [reflexivity|]. rewrite zlen_upd by lia. lia.
Qed.
Lemma checker_ok : forall buf, zlen buf = 12288 -> exists buf', checker_fill 3 buf = Ok buf' /\ zlen buf' = 12288.
Proof.
  intros buf L. unfold checker_fill.
  edestruct (loop_rule (list Z * Z * bool) (fun k s => zlen (fst (fst s)) = 12288 /\ snd (fst s) = k * 1536) 0 8) as [s' [E [H1 H2]]];
    [lia| | |rewrite E; destruct s' as [[b o] c]; eexists; split; [reflexivity|exact H1]].
  { split; [exact L|reflexivity]. }
  intros k [[b o] c] Hk [I1 I2]. cbn [fst snd] in *.
  edestruct (loop_rule (list Z * Z * bool) (fun j s => zlen (fst (fst s)) = 12288 /\ snd (fst s) = k * 1536 + j * 192) 0 8) as [s' [E [H1 H2]]];
    [lia| | |exists s'; split; [exact E|split; [exact H1|lia]]].
  { split; [exact I1|cbn; lia]. }
  clear b o c I1 I2. intros j [[b o] c] Hj [I1 I2]. cbn [fst snd] in *.
  edestruct (loop_rule (list Z * Z * bool) (fun i s => zlen (fst (fst s)) = 12288 /\ snd (fst s) = k * 1536 + j * 192 + i * 24) 0 8) as [s' [E [H1 H2]]];
    [lia| | |exists s'; split; [exact E|split; [exact H1|lia]]].
  { split; [exact I1|cbn; lia]. }
  clear b o c I1 I2. intros i [[b o] c] Hi [I1 I2]. cbn [fst snd] in *.
  edestruct (loop_rule (list Z * Z) (fun m s => zlen (fst s) = 12288 /\ snd s = k * 1536 + j * 192 + i * 24 + m * 3) 0 8) as [s' [E [H1 H2]]];
    [lia| | |rewrite E; destruct s' as [b' o']; eexists; split; [reflexivity|split; [exact H1|cbn in *; lia]]].
  { split; [exact I1|cbn; lia]. }
  clear b o I1 I2. intros m [b o] Hm [I1 I2]. cbn [fst snd] in *.
  destruct (pix_ok 3 c b o) as [b' [E1 E2]]; [lia|lia|]. exists (b', o + 3). split; [exact E1|]. cbn. lia.
Qed.

(** ** Shut down *)
Record Off (s : st) : Prop := {
  of_inv : Inv none_r none_b s; of_siz : Siz none_b s;
  of_stk : stk s = None; of_ssz : ssz s = 0; of_lst : lst s = 0; of_fre : fre s = []; of_ini : ini s = false }.

Definition lower (i : Z) (r : ref) : Prop := exists j, r = Root j /\ 0 <= j < i.
Definition empty (s : st) : Prop := (forall x, ims s x = None) /\ forall b, bks s b = None.

Lemma wp_shut_loop : forall n i s (Q : unit -> st -> Prop), Inv (lower i) none_b s -> Siz none_b s -> 0 <= i ->
  (exists f, stk s = Some (ssz s, f)) -> ssz s = i + Z.of_nat n -> (forall j x, 0 <= j < i -> points s (Root j) x -> ims s x = None) ->
  (forall s', Inv (lower (ssz s)) none_b s' -> Siz none_b s' -> heap_only s s' -> (nl none none s -> nl none none s') ->
     (forall j x, 0 <= j < ssz s -> points s' (Root j) x -> ims s' x = None) -> Q tt s') ->
  wp (shut_loop n i) s Q.
Proof.
  induction n as [|n IH]; intros i s Q I Z Hi [f F] SZ DD HQ; cbn [shut_loop].
  - assert (ssz s = i) by lia. apply wp_ret. rewrite H in HQ. apply HQ; auto. unfold heap_only. destruct s; reflexivity.
  - apply wp_bind. eapply wp_slot; [exact F|lia|].
    assert (LM : forall r, lower i r -> lower (i + 1) r) by (intros r [j [-> Hj]]; exists j; split; [reflexivity|lia]).
    assert (ND : ~ lower i (Root i)) by (intros [j [E Hj]]; injection E as <-; lia).
    destruct (f i) as [a|] eqn:Ef; cbn [non_null].
    + assert (Pa : points s (Root i) a) by (apply points_slotv; unfold slotv; rewrite F; replace ((0 <=? i) && (i <? ssz s)) with true by lia; assumption).
      assert (HD : forall p k, lower i (Fld p k) -> p < a) by (intros p k [j [E _]]; discriminate).
      apply wp_bind. apply (wp_close (lower i) none_b); auto; [intros p k []|exact (I_live _ _ _ I _ _ ND Pa)|].
      intros s1 F1 FB1 C. assert (HO := c_heap _ _ _ _ _ C).
      assert (S1 := heap_only_stk _ _ HO). assert (G1 := heap_only_glob _ _ HO).
      assert (Z1 : ssz s1 = ssz s) by (destruct G1 as (_&Q1&_); exact Q1).
      assert (I1 : Inv (lower (i + 1)) none_b s1).
      { eapply Inv_mono; [| |eapply (closed_inv (lower i) none_b (fun r => r = Root i)); [exact I|exact HD|intros p k []|exact C|]].
        - intros r [ H | -> ]; [auto|]. exists i. split; [reflexivity|lia].
        - auto.
        - intros r N P. exact (I_uniq _ _ _ I _ _ _ N ND P Pa). }
      apply IH.
      * exact I1.
      * eapply (closed_siz (lower i) none_b); eauto. intros p k [].
      * lia.
      * exists f. rewrite S1, Z1. exact F.
      * lia.
      * intros j x Hj P. unfold points in P. rewrite S1 in P. change (points s (Root j) x) in P.
        destruct (Z.eq_dec j i) as [->|Nj].
        -- assert (x = a). { apply points_slotv in P, Pa. congruence. } subst x. apply C. apply C.
        -- destruct (in_dec Z.eq_dec x F1) as [HF|HF]; [apply C; assumption|]. rewrite (c_nF _ _ _ _ _ C x HF). apply (DD j); [lia|assumption].
      * rewrite Z1. intros s' I' Z' HO' N' D'. apply HQ; auto.
        -- eapply heap_only_trans; eauto.
        -- intros N. apply N'. eapply closed_nl; eauto.
    + apply wp_bind, wp_ret. apply IH; auto; [|lia|exists f; assumption|lia|].
      * eapply Inv_mono; [exact LM| |exact I]. auto.
      * intros j x Hj P. destruct (Z.eq_dec j i) as [->|Nj]; [|apply (DD j); [lia|assumption]].
        apply points_slotv in P. unfold slotv in P. rewrite F in P. destruct ((0 <=? i) && (i <? ssz s)); congruence.
Qed.

Lemma wp_ShutDown : forall s (Q : unit -> st -> Prop), GF s ->
  (forall s', Off s' -> (nl none none s -> empty s') -> cur s' = cur s -> Q tt s') -> wp ilShutDown s Q.
Proof.
  intros s Q g HQ. unfold ilShutDown. apply wp_bind, wp_get. rewrite (g_ini _ g). apply wp_bind, wp_mod. apply wp_bind, wp_get.
  destruct (g_f _ g) as [f [F1 F2]]. assert (S1 := g_ssz _ g). apply wp_bind. apply (wp_shut_loop _ 0 (set_fre [] s)).
  - eapply Inv_mono; [| |eapply ext_inv; [exact (g_inv _ g)|reflexivity|reflexivity|reflexivity|apply Z.le_refl]]; auto. intros r [].
  - eapply ext_siz; [exact (g_siz _ g)|reflexivity|reflexivity].
  - lia.
  - exists f. exact F1.
  - cbn. lia.
  - intros j x Hj. lia.
  - cbn [ssz set_fre]. intros s1 I1 Z1 HO N1 D1. apply wp_bind, wp_mod. apply wp_bind, wp_mod. apply wp_bind, wp_mod. apply wp_mod.
    destruct (heap_only_glob _ _ HO) as (E1&E2&E3&E4&E5&E6&E7). apply HQ.
    + split; try reflexivity.
      * destruct I1 as [i1 i2 i3 i4 i5 i6 i7 i8]. split; [exact i1|exact i2|exact i3| | | |exact i7|exact i8].
        -- intros [n|p k] a N H; [destruct H|]. apply (i4 (Fld p k)); [intros [j [Q1 _]]; discriminate|exact H].
        -- intros p k a N H. apply (i5 p k); [intros [j [Q1 _]]; discriminate|exact H].
        -- intros [n|p k] [n'|p' k'] a N N' H H'; try (destruct H; fail); try (destruct H'; fail).
           apply (i6 (Fld p k) (Fld p' k') a); [intros [j [Q1 _]]; discriminate|intros [j [Q1 _]]; discriminate|exact H|exact H'].
      * intros x i Ei. destruct (Z1 x i Ei). split; auto.
      * exact E4.
    + intros N. assert (N0 : nl none none s1) by (apply N1; eapply ext_nl; [exact N|reflexivity|reflexivity|reflexivity]).
      assert (EM : forall m x, x < m -> ims s1 x = None).
      { intros m. destruct (Z_lt_le_dec m 0) as [Hm|Hm].
        { intros x Hx. destruct (ims s1 x) eqn:E; [|reflexivity]. assert (0 < x < nxt s1) by (apply (I_im _ _ _ I1); congruence). lia. }
        revert m Hm. apply (natlike_ind (fun m => forall x, x < m -> ims s1 x = None)).
        - intros x Hx. destruct (ims s1 x) eqn:E; [|reflexivity]. assert (0 < x < nxt s1) by (apply (I_im _ _ _ I1); congruence). lia.
        - intros m Hm IH x Hx. destruct (Z_lt_le_dec x m); [auto|]. destruct (ims s1 x) as [i|] eqn:E; [|reflexivity]. exfalso.
          destruct (n_im _ _ _ N0 x) as [[]|[[n|p k] P]]; [congruence| |].
          + assert (ims s1 x = None); [|congruence]. apply (D1 n); [|exact P]. apply points_slotv in P. unfold slotv in P.
            rewrite E1 in P. cbn [stk set_fre] in P. rewrite F1 in P. destruct ((0 <=? n) && (n <? ssz s)) eqn:Q1; [lia|discriminate].
          + assert (Q1 : p < x) by (apply (I_ord _ _ _ I1 p k); [intros [j [Q1 _]]; discriminate|exact P]).
            destruct P as [j [Ej _]]. rewrite IH in Ej by lia. discriminate. }
      assert (EM' : forall x, ims s1 x = None) by (intros x; apply (EM (x + 1)); lia).
      split; [exact EM'|]. intros b. cbn. destruct (bks s1 b) eqn:E; [|reflexivity]. exfalso.
      destruct (n_bk _ _ _ N0 b) as [[]|[p [k [j [Ej _]]]]]; congruence.
    + cbn. exact E5.
Qed.

(** ** Init *)
Section Init.
Variable A : oracle.
Hypothesis OK : oracle_ok A.
Hypothesis NT : notab A.

Lemma wp_DefaultImage : forall s a i (Q : bool -> st -> Prop), Inv none_r none_b s -> Siz none_b s -> cur s = Some a -> ims s a = Some i ->
  (forall ok s', mutd s s' a -> (nl none none s -> nl none none s') -> Q ok s') -> wp (ilDefaultImage A) s Q.
Proof.
  intros s a i Q I Z C Ei HQ. unfold ilDefaultImage. apply wp_bind, wp_get. rewrite C. apply wp_bind. unfold ilTexImage.
  apply wp_bind, wp_get. rewrite C. eapply (wp_TexImage_ A OK); [exact I|exact Z|exact Ei|discriminate|discriminate|].
  intros ok s1 M N E1 D1 _ NF. destruct ok; cbn [negb]; [|apply wp_ret; apply HQ; auto].
  destruct (D1 eq_refl) as [l [L1 [L2 _]]]. apply wp_bind. eapply wp_get_im; [exact E1|]. cbn [iData fresh_im0].
  apply wp_bind. eapply wp_get_blk; [exact L1|].
  destruct (checker_ok l) as [l' [K1 K2]]. { rewrite L2. reflexivity. }
  change (hBpp (hd (fresh_im0 64 64 1 3 IL_BGR IL_UNSIGNED_BYTE (Some (nxt s))))) with 3. rewrite K1.
  apply wp_bind. eapply wp_put_blk; [exact L1|]. apply wp_ret. apply HQ.
  - assert (PM : mutd s1 (set_bks (fup (bks s1) (nxt s) (Some l')) s1) a).
    { eapply (put_mutd s1 a _ BData); [apply M|apply M|exact E1|reflexivity|exact L1|]. rewrite L2, K2. reflexivity. }
    apply (mutd_intro s s1 _ a none (fun x => x = nxt s)); auto; try apply M; [|intros x _ []|intros x Hx ->; lia].
    split; [cbn; lia|reflexivity|]. intros x Hx Nx. cbn. apply fup_neq. assumption.
  - intros N0. eapply put_nl; [apply N; exact N0|exact L1].
Qed.

Record inited (s s' : st) : Prop := {
  in_GF : GF s'; in_base : base s'; in_cnm : cnm s' = 1; in_lst : lst s' = 2; in_fre : fre s' = [];
  in_slots : forall n, n <> 0 -> n <> 1 -> slotv s' n = None;
  in_cur : nofail A -> exists a b, slotv s' 0 = Some a /\ slotv s' 1 = Some b /\ cur s' = Some b;
  in_nl : nl none none s -> nl none none s' }.

Lemma wp_Init : forall s (Q : unit -> st -> Prop), Off s -> (forall s', inited s s' -> Q tt s') -> wp (ilInit A) s Q.
Proof.
  intros s Q o HQ. unfold ilInit. apply wp_bind, wp_get. rewrite (of_ini _ o). apply wp_bind. unfold raise at 1. apply wp_mod.
  unfold iSetImage0. apply wp_bind. apply wp_bind, wp_get. cbn [stk set_errs]. rewrite (of_stk _ o).
  apply wp_bind. unfold iEnlargeStack. apply wp_bind, wp_get. apply wp_bind, wp_get. cbn [stk ssz set_errs]. rewrite (of_stk _ o), (of_ssz _ o).
  change (u32 ((0 + 1024) * 8)) with 8192. change (u32 (0 + 1024)) with 1024. change (8192 / 8) with 1024.
  apply wp_bind. unfold ialloc at 1, wp at 1. cbn [tk set_errs]. destruct (A WTable (tk s) 8192) eqn:EA; [|exfalso; eapply NT; eauto].
  eexists _, _. split; [reflexivity|]. apply wp_bind, wp_mod. apply wp_bind, wp_mod. apply wp_ret. cbn [negb].
  apply wp_bind, wp_mod. apply wp_bind, wp_mod.
  match goal with |- wp _ ?t _ => set (s1 := t) end.
  assert (PT : forall r x, points s1 r x -> points s r x).
  { intros [n|p k] x H; [|exact H]. apply points_slotv in H. unfold slotv in H. cbn in H. destruct ((0 <=? n) && (n <? 1024)); discriminate. }
  assert (PT' : forall r x, points s r x -> points s1 r x).
  { intros [n|p k] x H; [|exact H]. unfold points in H. rewrite (of_stk _ o) in H. contradiction. }
  assert (I1 : Inv none_r none_b s1).
  { destruct (of_inv _ o) as [i1 i2 i3 i4 i5 i6 i7 i8]. split; [exact i1|exact i2|exact i3| | | |exact i7|exact i8].
    - intros r a N H. apply (i4 r a N). auto.
    - intros p k a N H. apply (i5 p k a N). auto.
    - intros r r' a N N' H H'. apply (i6 r r' a N N'); auto. }
  assert (Z1 : Siz none_b s1) by (intros x i Ei; destruct (of_siz _ o x i Ei); split; auto).
  assert (N1 : nl none none s -> nl none none s1).
  { intros N. split; [|apply (n_bk _ _ _ N)|apply (n_tidy _ _ _ N)]. intros x Hx. destruct (n_im _ _ _ N x Hx) as [|[r H]]; [auto|right; exists r; auto]. }
  set (f0 := fun _ : Z => None : option Z).
  assert (F1 : stk s1 = Some (ssz s1, f0)) by reflexivity.
  assert (SS1 : ssz s1 = 1024) by reflexivity.
  apply wp_bind. eapply wp_slot; [exact F1|lia|]. cbn [f0 non_null].
  (* a fresh image for entry [n] *)
  assert (W1 : forall t n f (R : unit -> st -> Prop), Inv none_r none_b t -> Siz none_b t -> stk t = Some (ssz t, f) -> 0 <= n < ssz t -> f n = None ->
     (forall s2 p, filled A t s2 n p -> R tt s2) -> wp (do p <- new1 A; set_slot n p) t R).
  { intros t n f R It Zt Ft Hn Fn HR. assert (W := wp_newslot A OK t n f (ret tt) R It Zt Ft Hn Fn).
    destruct W as ([] & s' & W & HW); [intros s2 p Fl; apply wp_ret; eapply HR; eauto|]. exists tt, s'. split; [|exact HW].
    revert W. unfold bindM. destruct (new1 A t) as [[p s2]| |]; try discriminate. cbn.
    destruct (set_slot n p s2) as [[[] s3]| |]; cbn; intros W; try discriminate; exact W. }
  apply wp_bind. apply (W1 s1 0 f0); auto; [lia|]. intros s2 p FL2. assert (F2 := fl_stk _ _ _ _ _ FL2 f0 F1). rewrite SS1 in F2.
  apply wp_bind. eapply wp_slot; [exact F2|lia|]. rewrite fup_eq. apply wp_bind, wp_mod.
  set (s3 := set_cur p s2).
  assert (I3 : Inv none_r none_b s3) by (eapply ext_inv; [apply FL2|reflexivity|reflexivity|reflexivity|apply Z.le_refl]).
  assert (Z3 : Siz none_b s3) by (eapply ext_siz; [apply FL2|reflexivity|reflexivity]).
  assert (N3 : nl none none s -> nl none none s3) by (intros N; eapply ext_nl; [apply FL2; apply N1; exact N|reflexivity|reflexivity|reflexivity]).
  assert (LP : forall a, p = Some a -> exists i, ims s3 a = Some i).
  { intros a ->. destruct (fl_p _ _ _ _ _ FL2) as [[Q1 _]|[b [Q1 [_ Q3]]]]; [discriminate|]. injection Q1 as <-. eauto. }
  assert (DI : forall (R : bool -> st -> Prop), (forall ok s4, Inv none_r none_b s4 -> Siz none_b s4 -> glob s3 s4 -> (nl none none s3 -> nl none none s4) -> R ok s4) ->
     wp (ilDefaultImage A) s3 R).
  { intros R HR. destruct p as [a|].
    - destruct (LP a eq_refl) as [i Ei]. eapply wp_DefaultImage; eauto; [reflexivity|]. intros ok s4 M N. apply HR; auto; apply M.
    - unfold ilDefaultImage. apply wp_bind, wp_get. cbn [s3 cur set_cur]. apply wp_bind. unfold raise. apply wp_mod. apply wp_ret. apply HR.
      + eapply ext_inv; [exact I3|reflexivity|reflexivity|reflexivity|apply Z.le_refl].
      + eapply ext_siz; [exact Z3|reflexivity|reflexivity].
      + repeat split.
      + intros N. eapply ext_nl; [exact N|reflexivity|reflexivity|reflexivity]. }
  apply wp_bind. apply DI. clear DI. intros ok s4 I4 Z4 G4 N4. apply wp_ret.
  unfold iBindImageTemp. apply wp_bind. destruct G4 as (E1&E2&E3&E4&E5&E6&E7).
  assert (F4 : stk s4 = Some (1024, fup f0 0 p)) by (rewrite E1; exact F2).
  assert (SS4 : ssz s4 = 1024) by (rewrite E2; change (ssz s2 = 1024); rewrite (fl_ssz _ _ _ _ _ FL2); reflexivity).
  assert (LS4 : lst s4 = 1) by (rewrite E3; change (lst s2 = 1); rewrite (fl_lst _ _ _ _ _ FL2); reflexivity).
  apply wp_bind, wp_get. apply wp_bind, wp_get. rewrite F4, SS4. cbn [negb orb Z.leb Z.compare]. apply wp_bind, wp_ret. cbn [negb].
  apply wp_bind, wp_get. rewrite LS4. cbn [Z.ltb Z.compare]. apply wp_bind, wp_mod. apply wp_bind, wp_mod.
  set (s5 := set_cnm 1 (set_lst 2 s4)).
  assert (F5 : stk s5 = Some (ssz s5, fup f0 0 p)) by (unfold s5; cbn [stk ssz set_cnm set_lst]; rewrite SS4; exact F4).
  assert (SS5 : ssz s5 = 1024) by exact SS4.
  assert (I5 : Inv none_r none_b s5) by (eapply ext_inv; [exact I4|reflexivity|reflexivity|reflexivity|apply Z.le_refl]).
  assert (Z5 : Siz none_b s5) by (eapply ext_siz; [exact Z4|reflexivity|reflexivity]).
  apply wp_bind. eapply wp_slot; [exact F5|lia|]. rewrite fup_neq by lia. cbn [f0 non_null].
  apply wp_bind. apply (W1 s5 1 (fup f0 0 p)); auto; [lia|]. intros s6 q FL6. assert (F6 := fl_stk _ _ _ _ _ FL6 _ F5). rewrite SS5 in F6.
  apply wp_bind. eapply wp_slot; [exact F6|lia|]. rewrite fup_eq. apply wp_mod. apply wp_mod. apply HQ.
  match goal with |- inited s ?t => set (s7 := t) end.
  assert (SV : forall n, slotv s7 n = if (n =? 1) then q else if n =? 0 then p else None).
  { intros n. unfold slotv. cbn [s7 stk set_ini set_cur]. rewrite F6. unfold fup, f0. destruct ((0 <=? n) && (n <? 1024)) eqn:Q1; [reflexivity|].
    replace (n =? 1) with false by lia. replace (n =? 0) with false by lia. reflexivity. }
  assert (FR7 : fre s7 = []).
  { cbn [s7 fre set_ini set_cur]. rewrite (fl_fre _ _ _ _ _ FL6). cbn [s5 fre set_cnm set_lst]. rewrite E4. cbn [s3 fre set_cur].
    rewrite (fl_fre _ _ _ _ _ FL2). cbn. apply o. }
  assert (CN7 : cnm s7 = 1) by (cbn [s7 cnm set_ini set_cur]; rewrite (fl_cnm _ _ _ _ _ FL6); reflexivity).
  assert (LS7 : lst s7 = 2) by (cbn [s7 lst set_ini set_cur]; rewrite (fl_lst _ _ _ _ _ FL6); reflexivity).
  assert (SS7 : ssz s7 = 1024) by (cbn [s7 ssz set_ini set_cur]; rewrite (fl_ssz _ _ _ _ _ FL6); exact SS5).
  split; auto.
  - split; [split| | |]; rewrite ?FR7, ?CN7, ?LS7, ?SS7; auto.
    + eapply ext_inv; [apply FL6|reflexivity|reflexivity|reflexivity|apply Z.le_refl].
    + eapply ext_siz; [apply FL6|reflexivity|reflexivity].
    + eexists. split; [exact F6|]. intros n Hn. rewrite fup_neq by lia. rewrite fup_neq by lia. reflexivity.
    + unfold NMAX. lia.
    + lia.
    + unfold NMAX. lia.
    + intros n [].
    + lia.
    + intros a Ha. cbn in Ha. destruct (fl_p _ _ _ _ _ FL6) as [[Q1 _]|[b [Q1 [_ Q3]]]]; [congruence|]. cbn. congruence.
    + constructor.
    + intros n [].
  - intros c Hc. rewrite CN7. apply points_slotv. rewrite SV. exact Hc.
  - intros n H0 H1. rewrite SV. replace (n =? 1) with false by lia. replace (n =? 0) with false by lia. reflexivity.
  - intros NF. destruct (fl_p _ _ _ _ _ FL2) as [[_ Q1]|[a [Q1 _]]]; [exfalso; auto|]. destruct (fl_p _ _ _ _ _ FL6) as [[_ Q2]|[b [Q2 _]]]; [exfalso; auto|].
    exists a, b. rewrite !SV. cbn. auto.
  - intros N. eapply ext_nl; [apply FL6; eapply ext_nl; [apply N4, N3, N|reflexivity|reflexivity|reflexivity]|reflexivity|reflexivity|reflexivity].
Qed.
End Init.
