(** Proofs about the buffer conversions. *)
From Coq Require Import ZArith List Lia Bool.
From Verif Require Import Base Enums Utility Image Slices Elem Channels ChannelsProofs PixelsProofs Endian Half Float ConvBuff.
Import ListNotations.
Open Scope Z_scope.

Section P.
Variable flum : bool -> bool -> Z -> list Z -> list Z -> list Z -> list Z.

(** the cells of one pixel *)
Lemma put_cells_ok : forall Ty n src i t p ws d, 0 < n -> 0 <= p -> (p + 1) * t < 4294967296 -> (p + 1) * (t * n) <= zlen d ->
  NoDup (map fst ws) -> (forall o c, In (o, c) ws -> 0 <= o < t /\ exists v, cell_val flum Ty n src i c = Ok v /\ zlen v = n) ->
  exists d', put_cells flum Ty n src i (p * t) ws d = Ok d' /\ zlen d' = zlen d /\
    (forall o c, In (o, c) ws -> cell_val flum Ty n src i c = Ok (chan (pixel d' (t * n) p) n o)) /\
    (forall o, 0 <= o < t -> ~ In o (map fst ws) -> chan (pixel d' (t * n) p) n o = chan (pixel d (t * n) p) n o) /\
    (forall j, 0 <= j -> (j < p * (t * n) \/ p * (t * n) + t * n <= j) -> geti d' j = geti d j).
Proof.
  intros Ty n src i t p ws d Hn Hp Hw Hl ND H. revert d Hl. induction ws as [|(o, c) ws IH]; intros d Hl.
  - exists d. split; [reflexivity|]. split; auto. split; [intros ? ? []|]. split; auto.
  - cbn [put_cells]. destruct (H o c (or_introl eq_refl)) as (Ho & v & Ev & Lv). rewrite Ev. cbn [bind].
    assert (0 <= p * t) by (apply Z.mul_nonneg_nonneg; lia).
    rewrite u32_small by lia.
    destruct (chan_write d n t p o v) as (d1 & W & L1 & C1 & O1 & F1); auto. rewrite W. cbn [bind].
    cbn [map fst] in ND. apply NoDup_cons_iff in ND. destruct ND as (NI & ND).
    destruct (IH ND ltac:(intros; apply H; right; auto) d1 ltac:(lia)) as (d2 & E2 & L2 & V2 & K2 & F2).
    exists d2. split; [exact E2|]. split; [lia|]. split; [|split].
    + intros o' c' [E|I]; [|apply V2; auto]. inversion E; subst. rewrite K2 by (auto; lia). rewrite C1. auto.
    + intros o' Ho' N. cbn [map fst] in N. rewrite K2 by (auto; intros ?; apply N; right; auto). apply O1; auto. intros ->. apply N. left; auto.
    + intros j Hj Hoj. rewrite F2, F1 by auto. reflexivity.
Qed.

(** all pixels *)
Lemma cells_loop : forall Ty n s t N src ws d, 0 < n -> 0 < s -> 0 < t -> 0 <= N -> N * s < 4294967296 -> N * t < 4294967296 ->
  N * (t * n) <= zlen d -> NoDup (map fst ws) ->
  (forall p o c, 0 <= p < N -> In (o, c) ws -> 0 <= o < t /\ exists v, cell_val flum Ty n src (p * s) c = Ok v /\ zlen v = n) ->
  exists d', loop 0 N (fun k => put_cells flum Ty n src (k * s) (k * t) ws) d = Ok d' /\ zlen d' = zlen d /\
    (forall p o c, 0 <= p < N -> In (o, c) ws -> cell_val flum Ty n src (p * s) c = Ok (chan (pixel d' (t * n) p) n o)).
Proof.
  intros Ty n s t N src ws d Hn Hs Ht HN Hws Hwt Hd ND H.
  destruct (pixmap_out (fun p px => forall o c, In (o, c) ws -> cell_val flum Ty n src (p * s) c = Ok (chan px n o)) (t * n) N
     (fun k => put_cells flum Ty n src (k * s) (k * t) ws) d) as (d' & E & L & A & _); auto.
  - apply Z.mul_pos_pos; lia.
  - intros p b Hp Lb. assert ((p + 1) * (t * n) <= N * (t * n)) by (apply Z.mul_le_mono_nonneg_r; lia).
    assert ((p + 1) * t <= N * t) by (apply Z.mul_le_mono_nonneg_r; lia).
    destruct (put_cells_ok Ty n src (p * s) t p ws b) as (b' & E & L & V & _ & F); auto; try lia; try (intros; apply H; auto; lia).
    exists b'. split; [exact E|]. split; [lia|]. split; auto.
  - exists d'. split; [exact E|]. split; [lia|]. intros p o c Hp I. apply A; auto.
Qed.

Lemma run_each : forall Ty n s t N src ws d, 0 < n -> 0 < s -> 0 < t -> 0 <= N -> N * s < 4294967296 -> N * t < 4294967296 ->
  N * (t * n) <= zlen d -> NoDup (map fst ws) ->
  (forall p o c, 0 <= p < N -> In (o, c) ws -> 0 <= o < t /\ exists v, cell_val flum Ty n src (p * s) c = Ok v /\ zlen v = n) ->
  exists d', run flum Ty n (N * s) src (Each s t ws) d = Ok d' /\ zlen d' = zlen d /\
    (forall p o c, 0 <= p < N -> In (o, c) ws -> cell_val flum Ty n src (p * s) c = Ok (chan (pixel d' (t * n) p) n o)).
Proof.
  intros. cbn [run]. rewrite stride2_loop by lia. apply cells_loop; auto.
Qed.
Lemma run_whole : forall Ty n s t N src ws d, 0 < n -> 0 < s -> 0 < t -> 0 <= N -> N * s < 4294967296 -> N * t < 4294967296 ->
  N * (t * n) <= zlen d -> NoDup (map fst ws) ->
  (forall p o c, 0 <= p < N -> In (o, c) ws -> 0 <= o < t /\ exists v, cell_val flum Ty n src (p * s) c = Ok v /\ zlen v = n) ->
  exists d', run flum Ty n (N * s) src (Whole s t ws) d = Ok d' /\ zlen d' = zlen d /\
    (forall p o c, 0 <= p < N -> In (o, c) ws -> cell_val flum Ty n src (p * s) c = Ok (chan (pixel d' (t * n) p) n o)).
Proof.
  intros Ty n s t N src ws d Hn Hs Ht HN Hws Hwt Hd ND H. cbn [run]. rewrite Z.div_mul by lia.
  destruct (cells_loop Ty n s t N src ws d) as (d' & E & L); auto. exists d'. split; [|exact L]. rewrite <- E.
  apply loop_ext. intros k st Hk. assert ((k + 1) * s <= N * s) by (apply Z.mul_le_mono_nonneg_r; lia).
  assert ((k + 1) * t <= N * t) by (apply Z.mul_le_mono_nonneg_r; lia).
  assert (0 <= k * s) by (apply Z.mul_nonneg_nonneg; lia). assert (0 <= k * t) by (apply Z.mul_nonneg_nonneg; lia).
  rewrite !u32_small by lia. reflexivity.
Qed.

(** an element of the source pixel *)
Lemma cell_El : forall Ty n s N src p k, 0 < n -> 0 <= p < N -> 0 <= k < s -> N * (s * n) <= zlen src -> N * s < 4294967296 ->
  cell_val flum Ty n src (p * s) (El k) = Ok (chan (pixel src (s * n) p) n k) /\ zlen (chan (pixel src (s * n) p) n k) = n.
Proof.
  intros Ty n s N src p k Hn Hp Hk Hl Hw. cbn [cell_val]. assert ((p + 1) * s <= N * s) by (apply Z.mul_le_mono_nonneg_r; lia).
  assert ((p + 1) * (s * n) <= N * (s * n)) by (apply Z.mul_le_mono_nonneg_r; [apply Z.mul_nonneg_nonneg; lia|lia]).
  assert (0 <= p * s) by (apply Z.mul_nonneg_nonneg; lia). rewrite u32_small by lia. apply chan_read; lia.
Qed.
End P.

(** iSwitchTypes element by element *)
Lemma switch_ok : forall fcast alloc Src Dst bs bd N Buffer blk, ilGetBpcType Src = bs -> ilGetBpcType Dst = bd -> 0 < bs -> 0 < bd ->
  Src <> Dst -> no_case Src Dst = false -> 0 <= N -> zlen Buffer = N * bs -> N * bd < 4294967296 -> alloc (N * bd) = Some blk -> zlen blk = N * bd ->
  (forall i, 0 <= i < N -> exists v, conv_elem fcast Src Dst (slice Buffer (i * bs) bs) = Ok v /\ zlen v = bd) ->
  exists new, iSwitchTypes fcast alloc (N * bs) Src Dst Buffer = Ok (Some new, []) /\ zlen new = N * bd /\
    forall i, 0 <= i < N -> conv_elem fcast Src Dst (slice Buffer (i * bs) bs) = Ok (slice new (i * bd) bd).
Proof.
  intros fcast alloc Src Dst bs bd N Buffer blk Es Ed Hs Hd Hne Hc HN HB H32 HA HL H.
  unfold iSwitchTypes. rewrite Es, Ed. replace ((bs =? 0) || (bd =? 0)) with false by lia. replace (Src =? Dst) with false by lia.
  rewrite Z.div_mul by lia. rewrite u32_small by (split; [apply Z.mul_nonneg_nonneg; lia|lia]). rewrite HA, Hc.
  destruct (pixmap_out (fun i px => conv_elem fcast Src Dst (slice Buffer (i * bs) bs) = Ok px) bd N
     (fun i d => let! e := rde Buffer bs i in let! v := conv_elem fcast Src Dst e in wre d bd i v) blk) as (d' & E & L & A & _); auto; try lia.
  - intros i b Hi Lb. destruct (H i Hi) as (v & Ev & Lv).
    assert ((i + 1) * bs <= N * bs) by (apply Z.mul_le_mono_nonneg_r; lia). assert (0 <= i * bs) by (apply Z.mul_nonneg_nonneg; lia).
    assert ((i + 1) * bd <= N * bd) by (apply Z.mul_le_mono_nonneg_r; lia). assert (0 <= i * bd) by (apply Z.mul_nonneg_nonneg; lia).
    rewrite rde_ok by lia. cbn [bind]. rewrite Ev. cbn [bind]. rewrite wre_ok by lia. eexists. split; [reflexivity|].
    split; [rewrite zlen_splice by lia; lia|]. split.
    + unfold pixel. rewrite <- Lv at 3. rewrite slice_splice_same by lia. reflexivity.
    + intros j Hj Ho. rewrite geti_splice by lia. replace ((i * bd <=? j) && (j <? i * bd + zlen v)) with false by lia. reflexivity.
  - rewrite E. cbn [bind]. exists d'. split; [reflexivity|]. split; [lia|]. intros i Hi. apply A. auto.
Qed.
