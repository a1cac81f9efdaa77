(** C28 (ilConvertBuffer), C29. *)
From Coq Require Import ZArith List Lia Bool.
From Verif Require Import Base Enums Utility Image Slices Elem Channels ChannelsSpec ChannelsProofs ChannelsProps2 PixelsProofs Endian Half Float
  ConvBuff ConvSpec ConvProofs.
Import ListNotations.
Open Scope Z_scope.

Lemma opq_full : forall Ty n, type_size Ty n -> full_alpha Ty (opq Ty) /\ zlen (opq Ty) = n.
Proof. intros Ty n H. inversion H; subst; split; try reflexivity; constructor. Qed.

Lemma sample_chan : forall b nch n p c, 0 < n -> 0 <= c < nch -> 0 <= p -> chan (pixel b (nch * n) p) n c = sample b nch n p c.
Proof. intros. unfold sample. rewrite chan_pixel by lia. f_equal; lia. Qed.

Definition cell_is (mid new : list Z) (s t m Ty p o : Z) (c : cell) : Prop :=
  match c with
  | El k => sample new t m p o = sample mid s m p k
  | Opq => sample new t m p o = opq Ty
  | Nil => sample new t m p o = repeat 0 (Z.to_nat m)
  | Lum _ _ => True
  end.
Definition cells_fit (s t : Z) (ws : list (Z * cell)) : Prop :=
  NoDup (map fst ws) /\ forall o c, In (o, c) ws -> 0 <= o < t /\ match c with El k => 0 <= k < s | Lum _ _ => False | _ => True end.

Section C.
Variables (fcast : Z -> Z -> list Z -> list Z) (flum : bool -> bool -> Z -> list Z -> list Z -> list Z -> list Z)
  (pal : list Z -> res (option (list Z) * list Z)) (alloc : allocator).
Hypothesis AO : allocator_ok alloc.

Lemma cells_vals : forall Ty m s t N mid ws, type_size Ty m -> 0 < m -> cells_fit s t ws -> N * (s * m) <= zlen mid -> N * s < 4294967296 ->
  forall p o c, 0 <= p < N -> In (o, c) ws -> 0 <= o < t /\ exists v, cell_val flum Ty m mid (p * s) c = Ok v /\ zlen v = m.
Proof.
  intros Ty m s t N mid ws HT Hm (_ & F) Hl Hw p o c Hp I. destruct (F o c I) as (Ho & K). split; auto. destruct c as [k| | |rev dbl].
  - destruct (cell_El flum Ty m s N mid p k) as (E & Z1); auto. eexists. split; [exact E|exact Z1].
  - eexists. split; [reflexivity|]. eapply opq_full; eauto.
  - eexists. split; [reflexivity|]. rewrite zlen_repeat. lia.
  - destruct K.
Qed.

Lemma cells_mean : forall Ty m s t N mid ws d', 0 < m -> cells_fit s t ws -> N * (s * m) <= zlen mid -> N * s < 4294967296 ->
  (forall p o c, 0 <= p < N -> In (o, c) ws -> cell_val flum Ty m mid (p * s) c = Ok (chan (pixel d' (t * m) p) m o)) ->
  forall p o c, 0 <= p < N -> In (o, c) ws -> cell_is mid d' s t m Ty p o c.
Proof.
  intros Ty m s t N mid ws d' Hm (_ & F) Hl Hw H p o c Hp I. specialize (H p o c Hp I). destruct (F o c I) as (Ho & K).
  rewrite sample_chan in H by lia. destruct c as [k| | |rev dbl]; cbn [cell_is]; auto; cbn [cell_val] in H.
  - destruct (cell_El flum Ty m s N mid p k) as (E & _); auto. cbn [cell_val] in E. rewrite E in H. rewrite sample_chan in H by lia. congruence.
  - congruence.
  - congruence.
Qed.

Lemma convert_cells : forall Src Dst SrcTy DstTy n m s t N buf mid blk size td ws,
  plan Src Dst = Some (size, td) -> td = Each s t ws \/ td = Whole s t ws ->
  Src <> Dst -> Src <> IL_COLOUR_INDEX -> case Src [IL_RGB; IL_RGBA; IL_BGR; IL_BGRA; IL_LUMINANCE; IL_LUMINANCE_ALPHA; IL_ALPHA] = true ->
  type_size SrcTy n -> type_size DstTy m -> 0 < s <= 4 -> 0 < t <= 4 -> 0 < N -> zlen buf = N * s * n -> 12 * N * m < 4294967296 ->
  iSwitchTypes fcast alloc (N * s * n) SrcTy DstTy buf = Ok (Some mid, []) -> zlen mid = N * s * m ->
  size (N * s * m) = N * t * m -> alloc (N * t * m) = Some blk -> cells_fit s t ws ->
  exists new, ilConvertBuffer fcast flum pal alloc (N * s * n) Src Dst SrcTy DstTy buf = Ok (Some new, []) /\ zlen new = N * t * m /\
    forall p o c, 0 <= p < N -> In (o, c) ws -> cell_is mid new s t m DstTy p o c.
Proof.
  intros Src Dst SrcTy DstTy n m s t N buf mid blk size td ws HP Htd Hne Hci Hcase Tn Tm Hs Ht HN Hbuf H32 HSw Hmid Hsize Halloc Hfit.
  assert (Hn : 1 <= n <= 8) by (inversion Tn; lia). assert (Hm : 1 <= m <= 8) by (inversion Tm; lia).
  assert (Bn : ilGetBpcType SrcTy = n) by (apply type_size_bpc; auto). assert (Bm : ilGetBpcType DstTy = m) by (apply type_size_bpc; auto).
  assert (Nm : 0 < N * m) by (apply Z.mul_pos_pos; lia). assert (N1 : N * 1 <= N * m) by (apply Z.mul_le_mono_nonneg_l; lia).
  assert (Ns : 0 < N * s) by (apply Z.mul_pos_pos; lia). assert (Ns4 : N * s <= N * 4) by (apply Z.mul_le_mono_nonneg_l; lia).
  assert (Nt4 : N * t <= N * 4) by (apply Z.mul_le_mono_nonneg_l; lia). 
  assert (Nsn : 0 < N * s * n) by (apply Z.mul_pos_pos; lia).
  assert (Nsm : 0 < N * s * m) by (apply Z.mul_pos_pos; lia). assert (Nsm4 : N * m * s <= N * m * 4) by (apply Z.mul_le_mono_nonneg_l; lia).
  unfold ilConvertBuffer. replace (N * s * n =? 0) with false by lia. rewrite HSw. cbn [bind].
  rewrite Bn, Bm. rewrite Z.div_mul by lia. replace (Dst =? Src) with false by lia. replace (Src =? IL_COLOUR_INDEX) with false by lia.
  rewrite Hcase, HP. replace (u32 (N * s * m)) with (N * s * m) by (symmetry; apply u32_small; lia). rewrite Hsize, Halloc.
  assert (Lb := AO _ _ Halloc).
  assert (V := cells_vals DstTy m s t N mid ws Tm ltac:(lia) Hfit ltac:(rewrite Hmid; lia) ltac:(lia)).
  assert (G : exists d', run flum DstTy m (N * s) mid td blk = Ok d' /\ zlen d' = zlen blk /\
    (forall p o c, 0 <= p < N -> In (o, c) ws -> cell_val flum DstTy m mid (p * s) c = Ok (chan (pixel d' (t * m) p) m o))).
  { destruct Htd as [ -> | -> ]; [apply run_each|apply run_whole]; auto; try lia; apply Hfit. }
  destruct G as (d' & E & Ld & Vd). rewrite E. cbn [bind]. exists d'. split; [reflexivity|]. split; [lia|].
  apply (cells_mean DstTy m s t N mid ws d'); auto; try lia.
Qed.

Lemma convert_same : forall F SrcTy DstTy n m s N buf mid blk,
  type_size SrcTy n -> type_size DstTy m -> 0 < s <= 4 -> 0 < N -> zlen buf = N * s * n -> 12 * N * m < 4294967296 ->
  iSwitchTypes fcast alloc (N * s * n) SrcTy DstTy buf = Ok (Some mid, []) -> zlen mid = N * s * m ->
  alloc (N * s * m) = Some blk -> ilConvertBuffer fcast flum pal alloc (N * s * n) F F SrcTy DstTy buf = Ok (Some mid, []).
Proof.
  intros F SrcTy DstTy n m s N buf mid blk Tn Tm Hs HN Hbuf H32 HSw Hmid Halloc.
  assert (Hn : 1 <= n <= 8) by (inversion Tn; lia). assert (Hm : 1 <= m <= 8) by (inversion Tm; lia).
  assert (Bn : ilGetBpcType SrcTy = n) by (apply type_size_bpc; auto). assert (Bm : ilGetBpcType DstTy = m) by (apply type_size_bpc; auto).
  assert (Nm : 0 < N * m) by (apply Z.mul_pos_pos; lia). assert (Ns : 0 < N * s) by (apply Z.mul_pos_pos; lia).
  assert (Nsn : 0 < N * s * n) by (apply Z.mul_pos_pos; lia).
  assert (Nsm : 0 < N * s * m) by (apply Z.mul_pos_pos; lia). assert (Nsm4 : N * m * s <= N * m * 4) by (apply Z.mul_le_mono_nonneg_l; lia).
  unfold ilConvertBuffer. replace (N * s * n =? 0) with false by lia. rewrite HSw. cbn [bind].
  rewrite Bn, Bm. rewrite Z.div_mul by lia. replace (F =? F) with true by lia.
  replace (u32 (N * s * m)) with (N * s * m) by (symmetry; apply u32_small; lia). rewrite Halloc. assert (Lb := AO _ _ Halloc).
  rewrite memcpy_ok by lia. cbn [bind]. rewrite <- Hmid, slice_all, splice_full by lia. reflexivity.
Qed.

Lemma convert_fill : forall Dst SrcTy DstTy n m N buf mid blk, case Dst [IL_RGB; IL_BGR] = true ->
  type_size SrcTy n -> type_size DstTy m -> 0 < N -> zlen buf = N * n -> 12 * N * m < 4294967296 ->
  iSwitchTypes fcast alloc (N * n) SrcTy DstTy buf = Ok (Some mid, []) -> zlen mid = N * m ->
  alloc (N * 3 * m) = Some blk ->
  ilConvertBuffer fcast flum pal alloc (N * n) IL_ALPHA Dst SrcTy DstTy buf = Ok (Some (repeat 0 (Z.to_nat (N * 3 * m))), []).
Proof.
  intros Dst SrcTy DstTy n m N buf mid blk HD Tn Tm HN Hbuf H32 HSw Hmid Halloc.
  assert (Hn : 1 <= n <= 8) by (inversion Tn; lia). assert (Hm : 1 <= m <= 8) by (inversion Tm; lia).
  assert (Bn : ilGetBpcType SrcTy = n) by (apply type_size_bpc; auto). assert (Bm : ilGetBpcType DstTy = m) by (apply type_size_bpc; auto).
  assert (Nm : 0 < N * m) by (apply Z.mul_pos_pos; lia). assert (Nn : 0 < N * n) by (apply Z.mul_pos_pos; lia).
  assert (P : plan IL_ALPHA Dst = Some ((fun b => u32 (b * 3)), Fill (fun b => u32 (b * 3)))) by (unfold plan; rewrite HD; reflexivity).
  assert (HD2 : Dst <> IL_ALPHA) by (intros ->; discriminate HD).
  unfold ilConvertBuffer. replace (N * n =? 0) with false by lia. rewrite HSw. cbn [bind].
  rewrite Bn, Bm. rewrite Z.div_mul by lia. replace (Dst =? IL_ALPHA) with false by lia.
  change (IL_ALPHA =? IL_COLOUR_INDEX) with false.
  change (case IL_ALPHA [IL_RGB; IL_RGBA; IL_BGR; IL_BGRA; IL_LUMINANCE; IL_LUMINANCE_ALPHA; IL_ALPHA]) with true. rewrite P.
  replace (u32 (N * m)) with (N * m) by (symmetry; apply u32_small; lia). replace (u32 (N * m * 3)) with (N * 3 * m) by (symmetry; rewrite u32_small; lia).
  rewrite Halloc. assert (Lb := AO _ _ Halloc). cbn [run].
  replace (u32 (N * m)) with (N * m) by (symmetry; apply u32_small; lia). replace (u32 (N * m * 3)) with (N * 3 * m) by (symmetry; rewrite u32_small; lia).
  unfold memset. replace (inb (zlen blk) 0 (N * 3 * m)) with true by (unfold inb; lia). cbn [bind]. do 3 f_equal.
  apply splice_full. rewrite zlen_repeat. lia.
Qed.
End C.

Lemma type_pos : forall Ty n, type_size Ty n -> 1 <= n <= 8.
Proof. intros Ty n H. inversion H; lia. Qed.

Ltac fit := split; [repeat constructor; cbn; lia|cbn [In keep3 swap3 grey3 app]; intros ? ? HIn;
  repeat match goal with HIn : _ \/ _ |- _ => destruct HIn as [HIn|HIn] | HIn : _ = _ |- _ => injection HIn; clear HIn; intros; subst | HIn : False |- _ => destruct HIn end;
  (split; [lia|first [exact I|lia]])].
Ltac sizes := cbv beta delta [same x4d3 x3d4]; rewrite ?u32_small by lia; lia.
(** Every component of every new pixel is as it should be. *)
Definition converted (Src Dst sc dc m Ty N : Z) (mid new : list Z) : Prop :=
  forall p k j w, 0 <= p < N -> comp_at Dst k j -> should_be Src k w -> is_what mid new sc dc m Ty p j w.

Ltac comps Tm H := intros p k j w Hp C S;
  inversion C; subst; inversion S as [k' i' C1|k' i' K C1|NA|k' NA E1]; subst;
  try (inversion C1; fail); try (exfalso; destruct K as [K|[K|K]]; discriminate K); try discriminate E1; try (exfalso; apply NA; reflexivity);
  try (exfalso; apply (NA 3); constructor); try (exfalso; apply (NA 1); constructor); try (exfalso; apply (NA 0); constructor);
  try (inversion C1; subst);
  cbn [is_what]; first
   [ refine (H p _ (El _) Hp _); cbn; tauto
   | refine (H p _ Nil Hp _); cbn; tauto
   | match goal with |- full_alpha ?Ty (sample ?new ?dc ?m ?p ?j) => let X := fresh in assert (X : sample new dc m p j = opq Ty) by (refine (H p _ Opq Hp _); cbn; tauto); rewrite X; exact (proj1 (opq_full _ _ Tm)) end ].

Ltac use_plan Tm TD s t ws w := lazymatch goal with
  | AO : allocator_ok ?alloc, HSw : iSwitchTypes _ _ _ _ _ _ = Ok (Some ?mid, []), Ha : ?alloc _ = Some ?blk |-
      exists new, ilConvertBuffer ?fcast ?flum ?pal ?alloc (?N * _ * ?n) ?S ?D ?ST ?DT ?buf = _ /\ zlen new = ?N * _ * ?m /\ _ =>
    let H := fresh "H" in let new := fresh "new" in let E := fresh "E" in let L := fresh "L" in
    destruct (convert_cells fcast flum pal alloc AO S D ST DT n m s t N buf mid blk _ TD ws eq_refl w) as (new & E & L & H);
    [discriminate|discriminate|reflexivity|assumption|assumption|lia|lia|lia|assumption|lia|assumption|assumption|sizes|assumption|fit
    |exists new; split; [exact E|split; [exact L|comps Tm H]]] end.
Ltac pair Tm := lazymatch goal with
  | |- exists new, ilConvertBuffer ?fcast ?flum ?pal ?alloc _ ?S ?D _ _ _ = _ /\ _ =>
    let TD := eval lazy in (match plan S D with Some (_, Fill _) => None | Some (_, td) => Some td | None => None end) in
    lazymatch TD with
    | None => idtac
    | Some (Each ?s ?t ?ws) => let TD := constr:(Each s t ws) in use_plan Tm TD s t ws (@or_introl (TD = Each s t ws) (TD = Whole s t ws) eq_refl)
    | Some (Whole ?s ?t ?ws) => let TD := constr:(Whole s t ws) in use_plan Tm TD s t ws (@or_intror (TD = Each s t ws) (TD = Whole s t ws) eq_refl)
    end end.

Theorem C28_convert_partial : forall fcast flum pal alloc Src Dst sc dc SrcTy DstTy n m N buf mid blk,
  allocator_ok alloc -> copying Src Dst -> Src <> IL_COLOUR_INDEX -> channels Src sc -> channels Dst dc -> type_size SrcTy n -> type_size DstTy m ->
  0 < N -> zlen buf = N * sc * n -> N * sc * n < 4294967296 -> 12 * N * m < 4294967296 ->
  iSwitchTypes fcast alloc (N * sc * n) SrcTy DstTy buf = Ok (Some mid, []) -> zlen mid = N * sc * m ->
  alloc (N * dc * m) = Some blk ->
  exists new, ilConvertBuffer fcast flum pal alloc (N * sc * n) Src Dst SrcTy DstTy buf = Ok (Some new, []) /\ zlen new = N * dc * m /\
    converted Src Dst sc dc m DstTy N mid new.
Proof.
  intros fcast flum pal alloc Src Dst sc dc SrcTy DstTy n m N buf mid blk AO CP Hci CS CD Tn Tm HN Hbuf Hw H12 HSw Hmid Halloc.
  assert (Hn := type_pos _ _ Tn). assert (Hm := type_pos _ _ Tm). assert (Nm : 0 < N * m) by (apply Z.mul_pos_pos; lia).
  assert (Same : forall F c, Src = F -> Dst = F -> channels F c -> exists new, ilConvertBuffer fcast flum pal alloc (N * sc * n) Src Dst SrcTy DstTy buf = Ok (Some new, []) /\
     zlen new = N * dc * m /\ converted Src Dst sc dc m DstTy N mid new).
  { intros F c -> -> HF. assert (sc = dc) as <- by (inversion CS; subst; inversion CD; reflexivity || discriminate).
    exists mid. split; [eapply convert_same; eauto; inversion CS; lia|]. split; [exact Hmid|]. intros p k j w Hp C S.
    inversion S as [k' i' C1|k' i' K C1|NA|k' NA E1]; subst.
    - assert (i' = j) as -> by (inversion C; subst; inversion C1; reflexivity). reflexivity.
    - exfalso. destruct K as [ -> |[ -> | -> ]]; inversion C; subst; inversion C1.
    - exfalso. exact (NA _ C).
    - exfalso. inversion C; subst; apply NA; reflexivity. }
  destruct CP as [S D c HS Hc HD|S c HS| | | | | ]; [| eapply (Same S); eauto| | | | | ].
  - destruct HD; inversion HS; subst; (try (eapply Same; eauto; fail)); (try (exfalso; apply Hc; reflexivity));
    inversion CS; subst; inversion CD; subst; try discriminate; clear Same.
    all: pair Tm.
    all: replace (N * 1 * n) with (N * n) in * by lia; replace (N * 1 * m) with (N * m) in * by lia;
      eexists; (split; [eapply convert_fill; eauto; reflexivity|]); (split; [rewrite zlen_repeat; lia|]);
      intros p k j w Hp C S; inversion C; subst; inversion S as [k' i' C1|k' i' K C1|NA|k' NA E1]; subst; try (inversion C1; fail); try discriminate;
      cbn [is_what]; unfold sample; (apply list_ext; [|intros i Hi]).
    all: assert ((p + 1) * (3 * m) <= N * (3 * m)) by (apply Z.mul_le_mono_nonneg_r; lia); assert (0 <= p * (3 * m)) by (apply Z.mul_nonneg_nonneg; lia).
    all: try (rewrite zlen_slice; rewrite ?zlen_repeat; lia).
    all: rewrite zlen_slice in Hi by (rewrite ?zlen_repeat; lia); rewrite geti_slice by lia; unfold geti; rewrite !nth_repeat; reflexivity.
  - inversion CS; subst; inversion CD; subst; try discriminate; clear Same. pair Tm.
  - inversion CS; subst; inversion CD; subst; try discriminate; clear Same. pair Tm.
  - inversion CS; subst; inversion CD; subst; try discriminate; clear Same. pair Tm.
  - inversion CS; subst; inversion CD; subst; try discriminate; clear Same. pair Tm.
  - inversion CS; subst; inversion CD; subst; try discriminate; clear Same. pair Tm.
Qed.

Lemma switch_same : forall fcast alloc size Ty n buf, type_size Ty n -> iSwitchTypes fcast alloc size Ty Ty buf = Ok (Some buf, []).
Proof.
  intros fcast alloc size Ty n buf H. unfold iSwitchTypes. assert (Bp : ilGetBpcType Ty = n) by (apply type_size_bpc; auto). rewrite Bp. assert (P := type_pos _ _ H).
  replace ((n =? 0) || (n =? 0)) with false by lia. replace (Ty =? Ty) with true by lia. reflexivity.
Qed.

(** Between colour formats: nothing is lost when the other format has room for every component. *)
Theorem C28_roundtrip_partial : forall fcast flum pal alloc F1 F2 c1 c2 Ty n N buf blk1 blk2,
  allocator_ok alloc -> colour_format F1 -> colour_format F2 -> channels F1 c1 -> channels F2 c2 -> c1 <= c2 -> type_size Ty n ->
  0 < N -> zlen buf = N * c1 * n -> 12 * N * n < 4294967296 -> alloc (N * c2 * n) = Some blk2 -> alloc (N * c1 * n) = Some blk1 ->
  exists new, ilConvertBuffer fcast flum pal alloc (N * c1 * n) F1 F2 Ty Ty buf = Ok (Some new, []) /\ zlen new = N * c2 * n /\
    ilConvertBuffer fcast flum pal alloc (N * c2 * n) F2 F1 Ty Ty new = Ok (Some buf, []).
Proof.
  intros fcast flum pal alloc F1 F2 c1 c2 Ty n N buf blk1 blk2 AO C1 C2 H1 H2 Hc HT HN Hbuf H32 A2 A1.
  assert (Hn := type_pos _ _ HT). assert (Nm : 0 < N * n) by (apply Z.mul_pos_pos; lia).
  assert (B1 : 3 <= c1 <= 4) by (destruct C1; inversion H1; lia). assert (B2 : 3 <= c2 <= 4) by (destruct C2; inversion H2; lia).
  assert (N * n * c1 <= N * n * 4) by (apply Z.mul_le_mono_nonneg_l; lia). assert (N * n * c2 <= N * n * 4) by (apply Z.mul_le_mono_nonneg_l; lia).
  destruct (C28_convert_partial fcast flum pal alloc F1 F2 c1 c2 Ty Ty n n N buf buf blk2) as (new & E & L & V); auto; try lia;
    [eapply cp_colour; eauto; intros ->; inversion C1|intros ->; inversion C1|eapply switch_same; eauto|].
  exists new. split; [exact E|]. split; [exact L|].
  destruct (C28_convert_partial fcast flum pal alloc F2 F1 c2 c1 Ty Ty n n N new new blk1) as (back & E' & L' & V'); auto; try lia;
    [eapply cp_colour; eauto; intros ->; inversion C2|intros ->; inversion C2|eapply switch_same; eauto|].
  rewrite E'. do 3 f_equal. assert (0 < c1 * n) by (apply Z.mul_pos_pos; lia).
  apply (pixels_ext back buf (c1 * n) N); try lia. intros p Hp.
  assert ((p + 1) * (c1 * n) <= N * (c1 * n)) by (apply Z.mul_le_mono_nonneg_r; lia). assert (0 <= p * (c1 * n)) by (apply Z.mul_nonneg_nonneg; lia).
  apply (chans_ext _ _ n c1); try lia; try (unfold pixel; rewrite zlen_slice; lia). intros c Hcc.
  rewrite !sample_chan by lia.
  assert (K : exists k j, comp_at F1 k c /\ comp_at F2 k j).
  { assert (c = 0 \/ c = 1 \/ c = 2 \/ c = 3 /\ c1 = 4) as D by lia.
    destruct C1, C2; inversion H1; subst; inversion H2; subst; try discriminate; try lia;
    destruct D as [ -> |[ -> |[ -> |( -> & D)]]]; try discriminate D; eexists; eexists; split; constructor. }
  destruct K as (k & j & K1 & K2).
  assert (X := V p k j (Copied c) Hp K2 (sb_same _ _ _ K1)). assert (Y := V' p k c (Copied j) Hp K1 (sb_same _ _ _ K2)).
  cbn [is_what] in X, Y. rewrite Y, X. reflexivity.
Qed.

Lemma loop_ub : forall (S : Type) (I : S -> Prop) N (body : Z -> S -> res S) s, 0 < N -> I s ->
  (forall k st, 0 <= k < N - 1 -> I st -> exists st', body k st = Ok st' /\ I st') -> (forall st, I st -> body (N - 1) st = UB) ->
  loop 0 N body s = UB.
Proof.
  intros S I N body s HN Hs Hb Hu. rewrite (loop_split _ 0 (N - 1) N) by lia.
  destruct (loop_rule _ (fun _ st => I st) 0 (N - 1) body s) as (st & E & Hst); [lia|exact Hs|intros k st Hk Hi; apply Hb; auto|].
  rewrite E. cbn [bind]. rewrite loop_first by lia. rewrite Hu by auto. reflexivity.
Qed.
