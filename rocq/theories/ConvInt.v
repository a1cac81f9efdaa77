(** C29: conversions between integer types. *)
From Coq Require Import ZArith List Lia Bool.
From Verif Require Import Base Enums Utility Image Slices Elem Channels ChannelsSpec ChannelsProofs ChannelsProps2 Endian EndianProps BitLemmas Half Float
  ConvBuff ConvSpec ConvProofs ConvProps ConvProps2.
Import ListNotations.
Open Scope Z_scope.

Lemma number_unle : forall b, number b = unle b.
Proof. induction b; cbn [number unle]; lia. Qed.
Lemma le_len : forall n v, zlen (le n v) = Z.of_nat n.
Proof. induction n; intros v; [reflexivity|]. cbn [le]. rewrite zlen_cons, IHn. lia. Qed.
Lemma unle_le : forall n v, 0 <= v < 256 ^ Z.of_nat n -> unle (le n v) = v.
Proof.
  induction n; intros v H; [cbn in H; cbn; lia|]. cbn [le unle]. rewrite IHn; [lia|].
  rewrite Nat2Z.inj_succ, Z.pow_succ_r in H by lia. set (P := 256 ^ Z.of_nat n) in *. clearbody P. lia.
Qed.
Lemma unle_range : forall e, bytes e -> 0 <= unle e < 256 ^ zlen e.
Proof.
  induction e as [|x e IH]; intros H; [cbn; lia|]. rewrite zlen_cons. cbn [unle]. rewrite Z.pow_add_r by (first [lia|auto]).
  apply (proj1 (bytes_Forall _)) in H. inversion H as [|? ? Hx He]; subst. assert (K := IH (proj2 (bytes_Forall _) He)). change (256 ^ 1) with 256.
  set (P := 256 ^ zlen e) in *. clearbody P. lia.
Qed.
Lemma le_unle : forall e n, bytes e -> zlen e = Z.of_nat n -> le n (unle e) = e.
Proof.
  induction e as [|x e IH]; intros n H L.
  - destruct n; [reflexivity|]. rewrite zlen_nil in L. lia.
  - apply (proj1 (bytes_Forall _)) in H. inversion H as [|? ? Hx He]; subst. apply (proj2 (bytes_Forall _)) in He. rewrite zlen_cons in L. assert (0 <= zlen e) by auto. destruct n; [lia|]. cbn [le unle]. 
    assert (zlen e = Z.of_nat n) by lia. f_equal; [lia|]. replace ((x + 256 * unle e) / 256) with (unle e) by lia. apply IH; auto.
Qed.

Definition factor (n m : Z) : Z := (2 ^ (8 * m) - 1) / (2 ^ (8 * n) - 1).

Lemma conv_widen : forall fcast S D n m e, int_type S n -> int_type D m -> n < m -> bytes e -> zlen e = n ->
  conv_elem fcast S D e = Ok (le (Z.to_nat m) (unle e * factor n m)) /\ 0 <= unle e * factor n m < 256 ^ m.
Proof.
  intros fcast S D n m e HS HD Hnm HB HL. assert (K := unle_range e HB). rewrite HL in K. clear HL. remember (unle e) as v eqn:Ev.
  assert (V1 : n = 1 -> v < 256) by (intros ->; change (256 ^ 1) with 256 in K; lia).
  assert (V2 : n = 2 -> v < 65536) by (intros ->; change (256 ^ 2) with 65536 in K; lia).
  assert (W12 : n = 1 -> m = 2 -> Z.lor (Z.shiftl v 8) v = v * factor n m /\ 0 <= v * factor n m < 256 ^ m).
  { intros H1 H2. specialize (V1 H1). rewrite H1, H2. change (factor 1 2) with 257. change (256 ^ 2) with 65536.
    rewrite Z.shiftl_mul_pow2, lor_add by lia. change (2 ^ 8) with 256. lia. }
  assert (W14 : n = 1 -> m = 4 -> u32 (Z.lor (Z.lor (Z.lor (Z.shiftl v 24) (Z.shiftl v 16)) (Z.shiftl v 8)) v) = v * factor n m /\ 0 <= v * factor n m < 256 ^ m).
  { intros H1 H2. specialize (V1 H1). rewrite H1, H2. change (factor 1 4) with 16843009. change (256 ^ 4) with 4294967296.
    rewrite !Z.shiftl_mul_pow2 by lia. replace (v * 2 ^ 16) with ((v * 2 ^ 8) * 2 ^ 8) by (change (2 ^ 16) with (2 ^ 8 * 2 ^ 8); ring).
    rewrite <- (Z.lor_assoc _ _ v). rewrite (lor_add v v 8) by lia. rewrite <- Z.lor_assoc.
    replace (Z.lor (v * 2 ^ 8 * 2 ^ 8) (v * 2 ^ 8 + v)) with (v * 65536 + (v * 256 + v)).
    2:{ replace (v * 2 ^ 8 * 2 ^ 8) with (v * 2 ^ 16) by (change (2 ^ 16) with (2 ^ 8 * 2 ^ 8); ring). rewrite lor_add by (change (2 ^ 8) with 256; change (2 ^ 16) with 65536; lia).
        reflexivity. }
    rewrite lor_add by (change (2 ^ 24) with 16777216; lia). change (2 ^ 24) with 16777216. rewrite u32_small by lia. lia. }
  assert (W24 : n = 2 -> m = 4 -> u32 (Z.lor (Z.shiftl v 16) v) = v * factor n m /\ 0 <= v * factor n m < 256 ^ m).
  { intros H1 H2. specialize (V2 H1). rewrite H1, H2. change (factor 2 4) with 65537. change (256 ^ 4) with 4294967296.
    rewrite Z.shiftl_mul_pow2, lor_add by (try lia; change (2 ^ 16) with 65536; lia). change (2 ^ 16) with 65536. rewrite u32_small by lia. lia. }
  inversion HS; inversion HD; subst; try lia;
  first [destruct (W12 eq_refl eq_refl) as (W & WB)|destruct (W14 eq_refl eq_refl) as (W & WB)|destruct (W24 eq_refl eq_refl) as (W & WB)];
  (split; [|exact WB]); rewrite <- W; reflexivity.
Qed.

Lemma conv_narrow : forall fcast S D n m e, int_type S n -> int_type D m -> m < n -> bytes e -> zlen e = n ->
  conv_elem fcast S D e = Ok (le (Z.to_nat m) (unle e / 2 ^ (8 * (n - m)))) /\ 0 <= unle e / 2 ^ (8 * (n - m)) < 256 ^ m.
Proof.
  intros fcast S D n m e HS HD Hnm HB HL. assert (K := unle_range e HB). rewrite HL in K. clear HL. remember (unle e) as v eqn:Ev.
  assert (W : forall k, k = 8 * (n - m) -> 0 <= k -> Z.shiftr v k = v / 2 ^ (8 * (n - m))) by (intros k -> Hk; apply Z.shiftr_div_pow2; lia).
  assert (WB : 0 <= v / 2 ^ (8 * (n - m)) < 256 ^ m).
  { assert (256 ^ n = 2 ^ (8 * (n - m)) * 256 ^ m).
    { change 256 with (2 ^ 8). rewrite <- !Z.pow_mul_r by (inversion HS; inversion HD; lia). rewrite <- Z.pow_add_r by (inversion HS; inversion HD; lia). f_equal. lia. }
    assert (0 < 2 ^ (8 * (n - m))) by (apply Z.pow_pos_nonneg; lia). split; [apply Z.div_pos; lia|apply Z.div_lt_upper_bound; lia]. }
  split; [|exact WB].
  inversion HS; inversion HD; subst; try lia;
  first [rewrite <- (W 8) by lia|rewrite <- (W 16) by lia|rewrite <- (W 24) by lia]; reflexivity.
Qed.

Lemma int_bpc : forall T n, int_type T n -> ilGetBpcType T = n /\ 0 < n.
Proof. intros T n H. inversion H; split; reflexivity. Qed.
Lemma int_case : forall S D n m, int_type S n -> int_type D m -> n <> m -> no_case S D = false /\ S <> D.
Proof. intros S D n m HS HD H. inversion HS; inversion HD; subst; try (exfalso; apply H; reflexivity); split; try reflexivity; discriminate. Qed.

Lemma elem_of : forall buf n N i, bytes buf -> 0 < n -> zlen buf = N * n -> 0 <= i < N -> bytes (slice buf (i * n) n) /\ zlen (slice buf (i * n) n) = n.
Proof.
  intros buf n N i HB Hn HL Hi. assert ((i + 1) * n <= N * n) by (apply Z.mul_le_mono_nonneg_r; lia). assert (0 <= i * n) by (apply Z.mul_nonneg_nonneg; lia).
  split; [apply bytes_slice; auto; lia|apply zlen_slice; lia].
Qed.

(** Widening scales every value by the ratio of the two ranges: 0 stays 0, the maximum becomes the maximum. *)
Theorem C29_widen : forall fcast alloc S D n m N buf blk, allocator_ok alloc -> int_type S n -> int_type D m -> n < m ->
  bytes buf -> 0 <= N -> zlen buf = N * n -> N * m < 4294967296 -> alloc (N * m) = Some blk ->
  exists new, iSwitchTypes fcast alloc (N * n) S D buf = Ok (Some new, []) /\ zlen new = N * m /\
    forall i, 0 <= i < N -> number (slice new (i * m) m) = number (slice buf (i * n) n) * ((2 ^ (8 * m) - 1) / (2 ^ (8 * n) - 1)).
Proof.
  intros fcast alloc S D n m N buf blk AO HS HD Hnm HB HN HL H32 HA.
  destruct (int_bpc _ _ HS) as (BS & Hn). destruct (int_bpc _ _ HD) as (BD & Hm). destruct (int_case S D n m HS HD ltac:(lia)) as (NC & NE).
  destruct (switch_ok fcast alloc S D n m N buf blk) as (new & E & L & V); auto; try (apply AO; auto).
  - intros i Hi. destruct (elem_of buf n N i) as (EB & EL); auto. destruct (conv_widen fcast S D n m _ HS HD Hnm EB EL) as (W & _).
    eexists. split; [exact W|]. rewrite le_len. lia.
  - exists new. split; [exact E|]. split; [exact L|]. intros i Hi. specialize (V i Hi).
    destruct (elem_of buf n N i) as (EB & EL); auto. destruct (conv_widen fcast S D n m _ HS HD Hnm EB EL) as (W & WB). rewrite W in V.
    injection V as V. rewrite <- V, !number_unle. rewrite unle_le by (rewrite Z2Nat.id by lia; exact WB). reflexivity.
Qed.

(** Narrowing keeps the high-order bytes. *)
Theorem C29_narrow : forall fcast alloc S D n m N buf blk, allocator_ok alloc -> int_type S n -> int_type D m -> m < n ->
  bytes buf -> 0 <= N -> zlen buf = N * n -> N * n < 4294967296 -> alloc (N * m) = Some blk ->
  exists new, iSwitchTypes fcast alloc (N * n) S D buf = Ok (Some new, []) /\ zlen new = N * m /\
    forall i, 0 <= i < N -> number (slice new (i * m) m) = number (slice buf (i * n) n) / 2 ^ (8 * (n - m)).
Proof.
  intros fcast alloc S D n m N buf blk AO HS HD Hnm HB HN HL H32 HA.
  destruct (int_bpc _ _ HS) as (BS & Hn). destruct (int_bpc _ _ HD) as (BD & Hm). destruct (int_case S D n m HS HD ltac:(lia)) as (NC & NE).
  assert (N * m <= N * n) by (apply Z.mul_le_mono_nonneg_l; lia).
  destruct (switch_ok fcast alloc S D n m N buf blk) as (new & E & L & V); auto; try (apply AO; auto); try lia.
  - intros i Hi. destruct (elem_of buf n N i) as (EB & EL); auto. destruct (conv_narrow fcast S D n m _ HS HD Hnm EB EL) as (W & _).
    eexists. split; [exact W|]. rewrite le_len. lia.
  - exists new. split; [exact E|]. split; [exact L|]. intros i Hi. specialize (V i Hi).
    destruct (elem_of buf n N i) as (EB & EL); auto. destruct (conv_narrow fcast S D n m _ HS HD Hnm EB EL) as (W & WB). rewrite W in V.
    injection V as V. rewrite <- V, !number_unle. rewrite unle_le by (rewrite Z2Nat.id by lia; exact WB). reflexivity.
Qed.

Lemma number_eq : forall a b, bytes a -> bytes b -> zlen a = zlen b -> number a = number b -> a = b.
Proof.
  intros a b Ha Hb L E. rewrite !number_unle in E. rewrite <- (le_unle a (length a)), <- (le_unle b (length b)) by auto.
  unfold zlen in L. rewrite E. f_equal. lia.
Qed.

(** the factor is undone by the shift *)
Lemma factor_back : forall S D n m v, int_type S n -> int_type D m -> n < m -> 0 <= v < 256 ^ n -> v * factor n m / 2 ^ (8 * (m - n)) = v.
Proof.
  intros S D n m v HS HD Hnm Hv. inversion HS; inversion HD; subst; try lia; clear HS HD.
  all: match goal with |- _ * ?f / ?d = _ => let f' := eval vm_compute in f in let d' := eval vm_compute in d in change f with f'; change d with d' end.
  all: match type of Hv with _ <= _ < ?b => let b' := eval vm_compute in b in change b with b' in Hv end; lia.
Qed.

Lemma bytes_le : forall n v, bytes (le n v).
Proof.
  intros n v. apply (proj2 (bytes_Forall _)). revert v. induction n; intros v; cbn [le]; constructor; auto. lia.
Qed.
Lemma bytes_elems : forall (b : list Z) n N, 0 < n -> 0 <= N -> zlen b = N * n -> (forall i, 0 <= i < N -> bytes (slice b (i * n) n)) -> bytes b.
Proof.
  intros b n N Hn HN HL H j Hj. assert (Q : 0 <= j / n < N) by (split; [apply Z.div_pos; lia|apply Z.div_lt_upper_bound; lia]).
  assert (D := Z.div_mod j n ltac:(lia)). assert (M := Z.mod_pos_bound j n Hn).
  assert ((j / n + 1) * n <= N * n) by (apply Z.mul_le_mono_nonneg_r; lia). assert (0 <= j / n * n) by (apply Z.mul_nonneg_nonneg; lia).
  assert (K := H (j / n) Q (j mod n)). rewrite zlen_slice in K by lia. rewrite geti_slice in K by lia.
  replace (j / n * n + j mod n) with j in K by lia. apply K. lia.
Qed.

(** Widening and narrowing back gives the same bytes. *)
Theorem C29_roundtrip_partial : forall fcast alloc S D n m N buf blk blk', allocator_ok alloc -> int_type S n -> int_type D m -> n < m ->
  bytes buf -> 0 <= N -> zlen buf = N * n -> N * m < 4294967296 -> alloc (N * m) = Some blk -> alloc (N * n) = Some blk' ->
  exists wide, iSwitchTypes fcast alloc (N * n) S D buf = Ok (Some wide, []) /\ zlen wide = N * m /\
    iSwitchTypes fcast alloc (N * m) D S wide = Ok (Some buf, []).
Proof.
  intros fcast alloc S D n m N buf blk blk' AO HS HD Hnm HB HN HL H32 HA HA'.
  destruct (int_bpc _ _ HS) as (BS & Hn). destruct (int_bpc _ _ HD) as (BD & Hm). destruct (int_case S D n m HS HD ltac:(lia)) as (NC & NE).
  destruct (int_case D S m n HD HS ltac:(lia)) as (NC' & NE').
  assert (NL : N * n <= N * m) by (apply Z.mul_le_mono_nonneg_l; lia).
  assert (CE : forall i, 0 <= i < N -> conv_elem fcast S D (slice buf (i * n) n) = Ok (le (Z.to_nat m) (unle (slice buf (i * n) n) * factor n m)) /\
     0 <= unle (slice buf (i * n) n) * factor n m < 256 ^ m).
  { intros i Hi. destruct (elem_of buf n N i) as (EB & EL); auto. exact (conv_widen fcast S D n m _ HS HD Hnm EB EL). }
  destruct (switch_ok fcast alloc S D n m N buf blk) as (wide & E & L & V); auto; try (apply AO; auto).
  { intros i Hi. destruct (CE i Hi) as (W & _). eexists. split; [exact W|]. rewrite le_len. lia. }
  exists wide. split; [exact E|]. split; [exact L|].
  assert (SW : forall i, 0 <= i < N -> slice wide (i * m) m = le (Z.to_nat m) (unle (slice buf (i * n) n) * factor n m)).
  { intros i Hi. specialize (V i Hi). destruct (CE i Hi) as (W & _). rewrite W in V. congruence. }
  assert (CB : forall i, 0 <= i < N -> conv_elem fcast D S (slice wide (i * m) m) = Ok (slice buf (i * n) n)).
  { intros i Hi. assert (EB : bytes (slice wide (i * m) m)) by (rewrite SW by auto; apply bytes_le).
    assert (EL : zlen (slice wide (i * m) m) = m) by (rewrite SW by auto; rewrite le_len; lia).
    destruct (conv_narrow fcast D S m n _ HD HS ltac:(lia) EB EL) as (W & _). rewrite W. destruct (CE i Hi) as (_ & WB).
    rewrite SW by auto. rewrite unle_le by (rewrite Z2Nat.id by lia; exact WB).
    destruct (elem_of buf n N i) as (EB' & EL'); auto. assert (K := unle_range _ EB'). rewrite EL' in K.
    rewrite (factor_back S D n m) by auto. f_equal. apply le_unle; [auto|lia]. }
  destruct (switch_ok fcast alloc D S m n N wide blk') as (back & E' & L' & V'); auto; try (apply AO; auto); try lia.
  { intros i Hi. exists (slice buf (i * n) n). split; [apply CB; auto|]. eapply elem_of; eauto. }
  rewrite E'. do 3 f_equal. apply (pixels_ext back buf n N); auto. intros p Hp. specialize (V' p Hp). rewrite (CB p Hp) in V'. unfold pixel. congruence.
Qed.

(** Order, as unsigned numbers and, between signed types, as signed numbers *)
Theorem C29_order : forall fcast alloc S D n m N buf new, allocator_ok alloc -> int_type S n -> int_type D m -> n <> m ->
  bytes buf -> 0 <= N -> zlen buf = N * n -> N * n < 4294967296 -> N * m < 4294967296 ->
  iSwitchTypes fcast alloc (N * n) S D buf = Ok (Some new, []) ->
  forall i j, 0 <= i < N -> 0 <= j < N ->
    (number (slice buf (i * n) n) <= number (slice buf (j * n) n) -> number (slice new (i * m) m) <= number (slice new (j * m) m)) /\
    (n < m -> number (slice buf (i * n) n) < number (slice buf (j * n) n) -> number (slice new (i * m) m) < number (slice new (j * m) m)) /\
    (signed_number n (number (slice buf (i * n) n)) <= signed_number n (number (slice buf (j * n) n)) ->
       signed_number m (number (slice new (i * m) m)) <= signed_number m (number (slice new (j * m) m))).
Proof.
  intros fcast alloc S D n m N buf new AO HS HD Hnm HB HN HL H32 H32' E i j Hi Hj.
  destruct (int_bpc _ _ HS) as (BS & Hn). destruct (int_bpc _ _ HD) as (BD & Hm).
  assert (HA : exists blk, alloc (N * m) = Some blk).
  { unfold iSwitchTypes in E. rewrite BS, BD in E. replace ((n =? 0) || (m =? 0)) with false in E by lia.
    destruct (int_case S D n m HS HD Hnm) as (NC & NE). replace (S =? D) with false in E by lia. rewrite Z.div_mul in E by lia.
    rewrite u32_small in E by (split; [apply Z.mul_nonneg_nonneg; lia|lia]). destruct (alloc (N * m)); [eexists; reflexivity|discriminate]. }
  destruct HA as (blk & HA).
  destruct (elem_of buf n N i) as (EBi & ELi); auto. destruct (elem_of buf n N j) as (EBj & ELj); auto.
  assert (Ki := unle_range _ EBi). assert (Kj := unle_range _ EBj). rewrite <- number_unle, ELi in Ki. rewrite <- number_unle, ELj in Kj.
  assert (C : n < m /\ number (slice new (i * m) m) = number (slice buf (i * n) n) * factor n m /\ number (slice new (j * m) m) = number (slice buf (j * n) n) * factor n m \/
     m < n /\ number (slice new (i * m) m) = number (slice buf (i * n) n) / 2 ^ (8 * (n - m)) /\ number (slice new (j * m) m) = number (slice buf (j * n) n) / 2 ^ (8 * (n - m))).
  { assert (n < m \/ m < n) as [C|C] by lia; [left|right]; (split; [exact C|]).
    - destruct (C29_widen fcast alloc S D n m N buf blk) as (new' & E' & L' & V); auto. rewrite E in E'. injection E' as <-. split; apply V; auto.
    - destruct (C29_narrow fcast alloc S D n m N buf blk) as (new' & E' & L' & V); auto. rewrite E in E'. injection E' as <-. split; apply V; auto. }
  set (a := number (slice buf (i * n) n)) in *. set (b := number (slice buf (j * n) n)) in *.
  set (a' := number (slice new (i * m) m)) in *. set (b' := number (slice new (j * m) m)) in *. clearbody a b a' b'.
  clear - HS HD C Ki Kj. unfold signed_number.
  assert (F : factor 1 2 = 257 /\ factor 1 4 = 16843009 /\ factor 2 4 = 65537) by (vm_compute; auto). destruct F as (F1 & F2 & F3).
  destruct C as [(C & Ea & Eb)|(C & Ea & Eb)]; inversion HS; inversion HD; subst n m; try lia; clear HS HD C; rewrite ?F1, ?F2, ?F3 in *.
  all: try change (2 ^ (8 * (4 - 2))) with 65536 in *.
  all: cbn [Z.sub Z.mul Z.pow Z.pow_pos Pos.iter Pos.mul Pos.sub Z.add Z.opp Pos.pred_double Z.pos_sub Pos.pred Pos.succ] in *.
  all: repeat split; intros;
    repeat match goal with H : context [if ?x <? ?y then _ else _] |- _ => destruct (Z.ltb_spec x y) | |- context [if ?x <? ?y then _ else _] => destruct (Z.ltb_spec x y) end; lia.
Qed.

(** Between the signed and unsigned type of the same size the block is returned as allocated: nothing is converted. *)
Theorem C29_same_size_refuted : forall fcast alloc S D n N buf blk, int_type S n -> int_type D n -> S <> D ->
  0 <= N -> N * n < 4294967296 -> alloc (N * n) = Some blk -> iSwitchTypes fcast alloc (N * n) S D buf = Ok (Some blk, []).
Proof.
  intros fcast alloc S D n N buf blk HS HD Hne HN H32 HA. destruct (int_bpc _ _ HS) as (BS & Hn). destruct (int_bpc _ _ HD) as (BD & _).
  unfold iSwitchTypes. rewrite BS, BD. replace ((n =? 0) || (n =? 0)) with false by lia. replace (S =? D) with false by lia.
  rewrite Z.div_mul by lia. rewrite u32_small by (split; [apply Z.mul_nonneg_nonneg; lia|lia]). rewrite HA.
  replace (no_case S D) with true; [reflexivity|]. inversion HS; inversion HD; subst; try discriminate; try (exfalso; apply Hne; reflexivity); reflexivity.
Qed.

(** ** Concrete cases *)
Example C29_ex : iSwitchTypes no_cast some_alloc 3 IL_UNSIGNED_BYTE IL_INT [0; 128; 255] = Ok (Some [0; 0; 0; 0; 128; 128; 128; 128; 255; 255; 255; 255], []) /\ iSwitchTypes no_cast some_alloc 12 IL_INT IL_UNSIGNED_BYTE [0; 0; 0; 0; 128; 128; 128; 128; 255; 255; 255; 255] = Ok (Some [0; 128; 255], []).
Proof. split; reflexivity. Qed.
Example C29_ex_hyp : exists wide, iSwitchTypes no_cast some_alloc (3 * 1) IL_UNSIGNED_BYTE IL_INT [0; 128; 255] = Ok (Some wide, []) /\ zlen wide = 3 * 4 /\ iSwitchTypes no_cast some_alloc (3 * 4) IL_INT IL_UNSIGNED_BYTE wide = Ok (Some [0; 128; 255], []).
Proof.
  apply (C29_roundtrip_partial no_cast some_alloc IL_UNSIGNED_BYTE IL_INT 1 4 3 [0; 128; 255] (repeat 170 12) (repeat 170 3)); try lia; try reflexivity.
  - exact some_alloc_ok.
  - exact it_ub.
  - exact it_i.
  - apply (proj2 (bytes_Forall _)); repeat constructor; lia.
Qed.
Example C29_ex_same : iSwitchTypes no_cast some_alloc 3 IL_UNSIGNED_BYTE IL_BYTE [1; 2; 3] = Ok (Some [170; 170; 170], []).
Proof. reflexivity. Qed.
Print Assumptions C29_widen.
Print Assumptions C29_narrow.
Print Assumptions C29_roundtrip_partial.
Print Assumptions C29_order.
Print Assumptions C29_same_size_refuted.
