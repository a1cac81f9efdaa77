(** C54: luminance. *)
From Coq Require Import ZArith List Lia Bool QArith Qround Qabs Lqa.
From Verif Require Import Base Enums Utility Image Slices Elem Channels ChannelsSpec ChannelsProofs ChannelsProps2 Endian EndianProps Half Float
  ConvBuff ConvSpec ConvProofs ConvProps ConvProps2 ConvInt ConvFloat.
Import ListNotations.
Open Scope Z_scope.

(** Weights of red, green and blue in millionths (ITU-R BT.709) *)
Definition weight (k : comp) : Q := match k with R => 212671 # 1000000 | G => 715160 # 1000000 | B => 72169 # 1000000 | _ => 0%Q end.

(** absolute error of single precision below 2^16 *)
Lemma abs_err : forall x, (0 <= x)%Q -> (x < 65536)%Q -> (x - (1 # 512) <= val (rnd 24 (-149) x) <= x + (1 # 512))%Q.
Proof.
  intros x H0 H1. destruct (Qlt_le_dec 0 x) as [X|X].
  - assert (E := rnd_err 24 (-149) x X). cbv zeta in E. set (k := Z.max _ _) in *.
    assert (K : k <= -8).
    { unfold k. destruct (expo_spec x X) as (A & _). assert (L : (p2 (expo x) < p2 16)%Q) by (change (p2 16) with 65536%Q; lra). apply p2_lt_inv in L. lia. }
    assert (P : (p2 k <= p2 (-8))%Q) by (apply p2_le; lia). change (p2 (-8)) with (1 # 256)%Q in P. lra.
  - rewrite rnd_0 by auto. unfold val. cbn [fst snd]. change (inject_Z 0) with 0%Q. lra.
Qed.

Definition wt (c : Z) : Q := if c =? 0 then 212671 # 1000000 else if c =? 1 then 715160 # 1000000 else 72169 # 1000000.
Lemma lum_factor : forall c, (wt c - (1 # 33554432) <= LumFactor c <= wt c + (1 # 33554432))%Q.
Proof.
  intros c. unfold LumFactor, wt. destruct (c =? 0); [|destruct (c =? 1)]; split; vm_compute; discriminate.
Qed.

(** one term of the sum *)
Lemma lum_step : forall acc v c, (0 <= acc)%Q -> (acc + inject_Z v * wt c <= 65535 + (12 # 1000))%Q -> 0 <= v <= 65535 ->
  (acc + inject_Z v * wt c - (6 # 1000) <= lum_add false acc v c <= acc + inject_Z v * wt c + (6 # 1000))%Q.
Proof.
  intros acc v c Ha Hs Hv. unfold lum_add.
  assert (E1 : (val (rnd 24 (-149) (inject_Z v)) == inject_Z v)%Q) by (apply rnd_Z; lia).
  set (q := val (rnd 24 (-149) (inject_Z v))) in *. assert (V0 : (0 <= inject_Z v)%Q) by (change 0%Q with (inject_Z 0); rewrite <- Zle_Qle; lia).
  assert (V1 : (inject_Z v <= 65535)%Q) by (change 65535%Q with (inject_Z 65535); rewrite <- Zle_Qle; lia). clearbody q.
  assert (L := lum_factor c). assert (W : (72169 # 1000000 <= wt c <= 715160 # 1000000)%Q) by (unfold wt; destruct (c =? 0); [|destruct (c =? 1)]; split; vm_compute; discriminate).
  set (f := LumFactor c) in *. clearbody f. set (w := wt c) in *. clearbody w. set (V := inject_Z v) in *. clearbody V.
  assert (Pd : (V * w - (2 # 1000) <= q * f <= V * w + (2 # 1000))%Q) by (rewrite E1; nra).
  assert (P0 : (0 <= q * f)%Q) by (apply Qmult_le_0_compat; lra). assert (P1 : (q * f < 65536)%Q) by nra.
  assert (A := abs_err (q * f) P0 P1). set (pr := val (rnd 24 (-149) (q * f))) in *. assert (PR0 := rnd_nonneg 24 (-149) (q * f) ltac:(lia) P0). fold pr in PR0. clearbody pr.
  assert (B := abs_err (acc + pr) ltac:(lra) ltac:(lra)). lra.
Qed.

Lemma lum_close : forall rev v0 v1 v2, 0 <= v0 <= 65535 -> 0 <= v1 <= 65535 -> 0 <= v2 <= 65535 ->
  let w c := if rev : bool then 2 - c else c in
  let y := (inject_Z v0 * wt (w 0%Z) + inject_Z v1 * wt (w 1%Z) + inject_Z v2 * wt (w 2%Z))%Q in
  let r := lum_add false (lum_add false (lum_add false 0 v0 (w 0)) v1 (w 1)) v2 (w 2) in
  (y - (2 # 100) <= r <= y + (2 # 100))%Q.
Proof.
  intros rev v0 v1 v2 H0 H1 H2 w y r.
  assert (I : forall v, 0 <= v <= 65535 -> (0 <= inject_Z v <= 65535)%Q).
  { intros v Hv. split; [change 0%Q with (inject_Z 0)|change 65535%Q with (inject_Z 65535)]; rewrite <- Zle_Qle; lia. }
  assert (W : (0 <= wt (w 0%Z))%Q /\ (0 <= wt (w 1%Z))%Q /\ (0 <= wt (w 2%Z))%Q /\ (wt (w 0%Z) + wt (w 1%Z) + wt (w 2%Z) == 1)%Q) by (unfold w; destruct rev; repeat split; vm_compute; discriminate || reflexivity).
  destruct W as (W0 & W1 & W2 & WS). assert (I0 := I v0 H0). assert (I1 := I v1 H1). assert (I2 := I v2 H2). unfold y, r. clear y r.
  set (a := wt (w 0%Z)) in *. set (b := wt (w 1%Z)) in *. set (c := wt (w 2%Z)) in *.
  assert (S1 := lum_step 0 v0 (w 0) ltac:(lra) ltac:(fold a; nra) H0). fold a in S1. set (r1 := lum_add false 0 v0 (w 0)) in *.
  assert (N0 : (0 <= r1)%Q). { unfold r1, lum_add. apply rnd_nonneg; [lia|]. rewrite Qplus_0_l. apply rnd_nonneg; [lia|]. apply Qmult_le_0_compat; [apply rnd_nonneg; [lia|lra]|]. assert (L := lum_factor (w 0)). assert (0 < LumFactor (w 0%Z))%Q by (unfold w; destruct rev; vm_compute; reflexivity). lra. }
  clearbody r1.
  assert (S2 := lum_step r1 v1 (w 1) N0 ltac:(fold b; nra) H1). fold b in S2. set (r2 := lum_add false r1 v1 (w 1)) in *.
  assert (N1 : (0 <= r2)%Q). { unfold r2, lum_add. apply rnd_nonneg; [lia|]. assert (0 <= val (rnd 24 (-149) (val (rnd 24 (-149) (inject_Z v1)) * LumFactor (w 1%Z))))%Q; [|lra]. apply rnd_nonneg; [lia|]. apply Qmult_le_0_compat; [apply rnd_nonneg; [lia|lra]|]. assert (0 < LumFactor (w 1%Z))%Q by (unfold w; destruct rev; vm_compute; reflexivity). lra. }
  clearbody r2.
  assert (S3 := lum_step r2 v2 (w 2) N1 ltac:(fold c; nra) H2). fold c in S3. lra.
Qed.

Inductive small_int : Z -> Z -> Prop :=
| si_b : small_int IL_BYTE 1 | si_ub : small_int IL_UNSIGNED_BYTE 1 | si_s : small_int IL_SHORT 2 | si_us : small_int IL_UNSIGNED_SHORT 2.

Lemma small_type : forall Ty n, small_int Ty n -> type_size Ty n /\ (n = 1 \/ n = 2).
Proof. intros Ty n H. inversion H; split; try constructor; auto; lia. Qed.

Definition lum_val (rev : bool) (v0 v1 v2 : Z) : Z :=
  let w c := if rev then 2 - c else c in Qfloor (lum_add false (lum_add false (lum_add false 0 v0 (w 0)) v1 (w 1)) v2 (w 2)).

Lemma lum_int_val : forall rev k x y z, lum_int rev false k x y z = if lum_val rev x y z <? 2 ^ (8 * Z.of_nat k) then Ok (le k (lum_val rev x y z)) else UB.
Proof. intros. unfold lum_int, lum_val. cbv zeta. reflexivity. Qed.

Lemma lum_elem_small : forall flum rev dbl Ty n a b c, small_int Ty n -> bytes a -> bytes b -> bytes c -> zlen a = n -> zlen b = n -> zlen c = n ->
  lum_elem flum rev dbl Ty a b c = Ok (le (Z.to_nat n) (lum_val rev (unle a) (unle b) (unle c))) /\ 0 <= lum_val rev (unle a) (unle b) (unle c) < 256 ^ n.
Proof.
  intros flum rev dbl Ty n a b c HT Ba Bb Bc La Lb Lc. assert (Ka := unle_range _ Ba). assert (Kb := unle_range _ Bb). assert (Kc := unle_range _ Bc).
  rewrite La in Ka. rewrite Lb in Kb. rewrite Lc in Kc. set (x := unle a) in *. set (y := unle b) in *. set (z := unle c) in *.
  destruct (small_type _ _ HT) as (_ & Hn).
  assert (P : 256 ^ n = 256 \/ 256 ^ n = 65536) by (destruct Hn as [En|En]; rewrite En; [left|right]; reflexivity).
  assert (C := lum_close rev x y z ltac:(lia) ltac:(lia) ltac:(lia)). cbv zeta in C.
  assert (Q : 0 <= lum_val rev x y z < 256 ^ n).
  { unfold lum_val. cbv zeta. set (r := lum_add false _ _ _) in *.
    assert (I : forall v, 0 <= v <= 256 ^ n - 1 -> (0 <= inject_Z v <= inject_Z (256 ^ n - 1))%Q).
    { intros v Hv. split; [change 0%Q with (inject_Z 0)|]; rewrite <- Zle_Qle; lia. }
    assert (I0 := I x ltac:(lia)). assert (I1 := I y ltac:(lia)). assert (I2 := I z ltac:(lia)).
    assert (N0 : (0 <= r)%Q).
    { unfold r, lum_add. apply rnd_nonneg; [lia|]. assert (T : forall v c, (0 <= inject_Z v)%Q -> (0 <= val (rnd 24 (-149) (val (rnd 24 (-149) (inject_Z v)) * LumFactor c)))%Q).
      { intros v k Hv. apply rnd_nonneg; [lia|]. apply Qmult_le_0_compat; [apply rnd_nonneg; [lia|auto]|]. unfold LumFactor. destruct (k =? 0); [|destruct (k =? 1)]; vm_compute; discriminate. }
      assert (T0 := T x (if rev then 2 - 0 else 0) ltac:(lra)). assert (T1 := T y (if rev then 2 - 1 else 1) ltac:(lra)). assert (T2 := T z (if rev then 2 - 2 else 2) ltac:(lra)).
      assert (A1 := rnd_nonneg 24 (-149) (0 + val (rnd 24 (-149) (val (rnd 24 (-149) (inject_Z x)) * LumFactor (if rev then (2 - 0)%Z else 0%Z)))) ltac:(lia) ltac:(lra)).
      assert (A2 := rnd_nonneg 24 (-149) (val (rnd 24 (-149) (0 + val (rnd 24 (-149) (val (rnd 24 (-149) (inject_Z x)) * LumFactor (if rev then (2 - 0)%Z else 0%Z))))) +
         val (rnd 24 (-149) (val (rnd 24 (-149) (inject_Z y)) * LumFactor (if rev then (2 - 1)%Z else 1%Z)))) ltac:(lia) ltac:(lra)). lra. }
    assert (U : (r < inject_Z (256 ^ n))%Q).
    { assert (W : (0 <= wt (if rev then (2 - 0)%Z else 0%Z))%Q /\ (0 <= wt (if rev then (2 - 1)%Z else 1%Z))%Q /\ (0 <= wt (if rev then (2 - 2)%Z else 2%Z))%Q /\
         (wt (if rev then (2 - 0)%Z else 0%Z) + wt (if rev then (2 - 1)%Z else 1%Z) + wt (if rev then (2 - 2)%Z else 2%Z) == 1)%Q) by (destruct rev; repeat split; vm_compute; discriminate || reflexivity).
      destruct W as (W0 & W1 & W2 & WS). set (a' := wt _) in W0, WS, C. set (b' := wt _) in W1, WS, C. set (c' := wt _) in W2, WS, C. clearbody a' b' c' r.
      replace (256 ^ n) with ((256 ^ n - 1) + 1) by lia. rewrite inject_Z_plus. change (inject_Z 1) with 1%Q. set (M := inject_Z (256 ^ n - 1)) in *.
      assert (X0 : (inject_Z x * a' <= M * a')%Q) by (apply Qmult_le_compat_r; lra). assert (X1 : (inject_Z y * b' <= M * b')%Q) by (apply Qmult_le_compat_r; lra).
      assert (X2 : (inject_Z z * c' <= M * c')%Q) by (apply Qmult_le_compat_r; lra).
      assert (X3 : (M * a' + M * b' + M * c' == M)%Q) by (transitivity (M * (a' + b' + c'))%Q; [ring|rewrite WS; ring]). lra. }
    split.
    - apply Qfloor_resp_le in N0. exact N0.
    - assert (K := Qfloor_le r). assert (K2 : (inject_Z (Qfloor r) < inject_Z (256 ^ n))%Q) by lra. rewrite <- Zlt_Qlt in K2. exact K2. }
  split; [|exact Q].
  assert (G : forall k, Z.of_nat k = n -> lum_int rev false k x y z = Ok (le (Z.to_nat n) (lum_val rev x y z))).
  { intros k Ek. rewrite lum_int_val. set (l := lum_val rev x y z) in *. clearbody l. rewrite Ek.
    replace (l <? 2 ^ (8 * n)) with true.
    - do 2 f_equal. lia.
    - replace (2 ^ (8 * n)) with (256 ^ n) by (change 256 with (2 ^ 8); rewrite <- Z.pow_mul_r by lia; reflexivity). lia. }
  unfold x, y, z in *. destruct HT; first [exact (G 1%nat eq_refl)|exact (G 2%nat eq_refl)].
Qed.

(** The luminance is close to the weighted sum, and is monotone. *)
Lemma lum_val_close : forall rev x y z, 0 <= x <= 65535 -> 0 <= y <= 65535 -> 0 <= z <= 65535 ->
  let s := (inject_Z x * wt (if rev : bool then 2 - 0 else 0)%Z + inject_Z y * wt (if rev then 2 - 1 else 1)%Z + inject_Z z * wt (if rev then 2 - 2 else 2)%Z)%Q in
  (s - (102 # 100) <= inject_Z (lum_val rev x y z) <= s + (2 # 100))%Q.
Proof.
  intros rev x y z Hx Hy Hz s. assert (C := lum_close rev x y z Hx Hy Hz). cbv beta zeta in C. unfold s. unfold lum_val. cbv beta zeta. set (r := lum_add false _ _ _) in *.
  assert (F1 := Qfloor_le r). assert (F2 := Qlt_floor r). rewrite inject_Z_plus in F2. change (inject_Z 1) with 1%Q in F2. lra.
Qed.
Lemma lum_add_mono : forall a a' v v' c, (0 <= a)%Q -> (a <= a')%Q -> 0 <= v <= v' -> (0 <= lum_add false a v c <= lum_add false a' v' c)%Q.
Proof.
  intros a a' v v' c Ha H Hv. unfold lum_add.
  assert (V : (0 <= inject_Z v <= inject_Z v')%Q) by (split; [change 0%Q with (inject_Z 0)|]; rewrite <- Zle_Qle; lia).
  assert (F : (0 <= LumFactor c)%Q) by (unfold LumFactor; destruct (c =? 0); [|destruct (c =? 1)]; vm_compute; discriminate).
  assert (A := rnd_mono 24 (-149) _ _ ltac:(lia) (proj1 V) (proj2 V)). assert (A0 := rnd_nonneg 24 (-149) _ ltac:(lia) (proj1 V)).
  set (q := val (rnd 24 (-149) (inject_Z v))) in *. set (q' := val (rnd 24 (-149) (inject_Z v'))) in *.
  assert (P0 : (0 <= q * LumFactor c)%Q) by (apply Qmult_le_0_compat; auto). assert (P : (q * LumFactor c <= q' * LumFactor c)%Q) by (apply Qmult_le_compat_r; auto).
  assert (B := rnd_mono 24 (-149) _ _ ltac:(lia) P0 P). assert (B0 := rnd_nonneg 24 (-149) _ ltac:(lia) P0).
  split; [apply rnd_nonneg; [lia|lra]|apply rnd_mono; [lia|lra|lra]].
Qed.
Lemma lum_val_mono : forall rev x y z x' y' z', 0 <= x <= x' -> 0 <= y <= y' -> 0 <= z <= z' -> lum_val rev x y z <= lum_val rev x' y' z'.
Proof.
  intros rev x y z x' y' z' Hx Hy Hz. unfold lum_val. cbv beta zeta. apply Qfloor_resp_le.
  destruct (lum_add_mono 0 0 x x' (if rev then 2 - 0 else 0) ltac:(lra) ltac:(lra) Hx) as (A0 & A1).
  destruct (lum_add_mono _ _ y y' (if rev then 2 - 1 else 1) A0 A1 Hy) as (B0 & B1). apply (lum_add_mono _ _ z z' (if rev then 2 - 2 else 2) B0 B1 Hz).
Qed.

Lemma bytes_sample : forall b nch n p c, bytes b -> bytes (sample b nch n p c).
Proof. intros. apply bytes_slice. auto. Qed.
Lemma zlen_sample : forall b nch n p c N, 0 < n -> 0 <= c < nch -> 0 <= p < N -> N * (nch * n) <= zlen b -> zlen (sample b nch n p c) = n.
Proof.
  intros b nch n p c N Hn Hc Hp H. unfold sample. assert ((p + 1) * (nch * n) <= N * (nch * n)) by (apply Z.mul_le_mono_nonneg_r; nia).
  assert ((c + 1) * n <= nch * n) by (apply Z.mul_le_mono_nonneg_r; lia). assert (0 <= c * n) by (apply Z.mul_nonneg_nonneg; lia).
  assert (0 <= p * (nch * n)) by (apply Z.mul_nonneg_nonneg; nia). apply zlen_slice; lia.
Qed.

Section B.
Variables (fcast : Z -> Z -> list Z -> list Z) (flum : bool -> bool -> Z -> list Z -> list Z -> list Z -> list Z)
  (pal : list Z -> res (option (list Z) * list Z)) (alloc : allocator).
Hypothesis AO : allocator_ok alloc.

Definition lum_fits (s t : Z) (ws : list (Z * cell)) : Prop :=
  NoDup (map fst ws) /\ forall o c, In (o, c) ws -> 0 <= o < t /\ match c with El k => 0 <= k < s | Lum _ _ => 3 <= s | _ => True end.
Definition lum_is (mid new : list Z) (s t m Ty p o : Z) (c : cell) : Prop :=
  match c with
  | El k => sample new t m p o = sample mid s m p k
  | Opq => sample new t m p o = opq Ty
  | Nil => sample new t m p o = repeat 0 (Z.to_nat m)
  | Lum rev _ => sample new t m p o = le (Z.to_nat m) (lum_val rev (number (sample mid s m p 0)) (number (sample mid s m p 1)) (number (sample mid s m p 2)))
  end.

Lemma lum_vals : forall Ty m s t N mid ws p o c, small_int Ty m -> lum_fits s t ws -> 0 < s -> N * (s * m) <= zlen mid -> N * s < 4294967296 -> bytes mid ->
  0 <= p < N -> In (o, c) ws -> exists v, cell_val flum Ty m mid (p * s) c = Ok v /\ zlen v = m /\
   match c with
   | El k => v = sample mid s m p k
   | Opq => v = opq Ty
   | Nil => v = repeat 0 (Z.to_nat m)
   | Lum rev _ => v = le (Z.to_nat m) (lum_val rev (number (sample mid s m p 0)) (number (sample mid s m p 1)) (number (sample mid s m p 2)))
   end.
Proof.
  intros Ty m s t N mid ws p o c HT (_ & HF) Hs Hl Hw HB Hp HI. destruct (HF o c HI) as (Ho & Hc).
  destruct (small_type _ _ HT) as (Tm & Hm). assert (Hm0 : 0 < m) by lia.
  assert (K : forall k, 0 <= k < s -> rde mid m (u32 (p * s + k)) = Ok (sample mid s m p k) /\ zlen (sample mid s m p k) = m).
  { intros k Hk. destruct (cell_El flum Ty m s N mid p k) as (E & L); auto. cbn [cell_val] in E. rewrite sample_chan in E by lia. rewrite sample_chan in L by lia. auto. }
  destruct c as [k| | |rev dbl].
  - destruct (K k Hc) as (E & L). exists (sample mid s m p k). cbn [cell_val]. auto.
  - exists (opq Ty). cbn [cell_val]. split; auto. split; auto. apply opq_full in Tm. apply Tm.
  - exists (repeat 0 (Z.to_nat m)). cbn [cell_val]. split; auto. split; auto. rewrite zlen_repeat. lia.
  - destruct (K 0 ltac:(lia)) as (E0 & L0). destruct (K 1 ltac:(lia)) as (E1 & L1). destruct (K 2 ltac:(lia)) as (E2 & L2).
    assert (Hps : 0 <= p * s /\ p * s < 4294967296) by (assert ((p + 1) * s <= N * s) by (apply Z.mul_le_mono_nonneg_r; lia); split; [apply Z.mul_nonneg_nonneg; lia|lia]).
    rewrite Z.add_0_r, u32_small in E0 by lia. cbn [cell_val]. rewrite E0, E1, E2. cbn [bind].
    destruct (lum_elem_small flum rev dbl Ty m _ _ _ HT (bytes_sample mid s m p 0 HB) (bytes_sample mid s m p 1 HB) (bytes_sample mid s m p 2 HB) L0 L1 L2) as (E & _).
    rewrite E. eexists. split; [reflexivity|]. split; [|rewrite (number_unle (sample mid s m p 0)), (number_unle (sample mid s m p 1)), (number_unle (sample mid s m p 2)); reflexivity].
    rewrite le_len. lia.
Qed.

Lemma convert_lum : forall Src Dst SrcTy DstTy n m s t N buf mid blk size ws,
  plan Src Dst = Some (size, Whole s t ws) \/ plan Src Dst = Some (size, Each s t ws) ->
  Src <> Dst -> Src <> IL_COLOUR_INDEX -> case Src [IL_RGB; IL_RGBA; IL_BGR; IL_BGRA; IL_LUMINANCE; IL_LUMINANCE_ALPHA; IL_ALPHA] = true ->
  type_size SrcTy n -> small_int DstTy m -> 0 < s <= 4 -> 0 < t <= 4 -> 0 < N -> zlen buf = N * s * n -> 12 * N * m < 4294967296 ->
  iSwitchTypes fcast alloc (N * s * n) SrcTy DstTy buf = Ok (Some mid, []) -> zlen mid = N * s * m -> bytes mid ->
  size (N * s * m) = N * t * m -> alloc (N * t * m) = Some blk -> lum_fits s t ws ->
  exists new, ilConvertBuffer fcast flum pal alloc (N * s * n) Src Dst SrcTy DstTy buf = Ok (Some new, []) /\ zlen new = N * t * m /\
    forall p o c, 0 <= p < N -> In (o, c) ws -> lum_is mid new s t m DstTy p o c.
Proof.
  intros Src Dst SrcTy DstTy n m s t N buf mid blk size ws HP Hne Hci Hcase Tn HT Hs Ht HN Hbuf H32 HSw Hmid HB Hsize Halloc Hfit.
  destruct (small_type _ _ HT) as (Tm & Hm12).
  assert (Hn : 1 <= n <= 8) by (inversion Tn; lia). assert (Hm : 1 <= m <= 8) by lia.
  assert (Bn : ilGetBpcType SrcTy = n) by (apply type_size_bpc; auto). assert (Bm : ilGetBpcType DstTy = m) by (apply type_size_bpc; auto).
  assert (Nm : 0 < N * m) by (apply Z.mul_pos_pos; lia). assert (N1 : N * 1 <= N * m) by (apply Z.mul_le_mono_nonneg_l; lia).
  assert (Ns : 0 < N * s) by (apply Z.mul_pos_pos; lia). assert (Ns4 : N * s <= N * 4) by (apply Z.mul_le_mono_nonneg_l; lia).
  assert (Nt4 : N * t <= N * 4) by (apply Z.mul_le_mono_nonneg_l; lia). 
  assert (Nsn : 0 < N * s * n) by (apply Z.mul_pos_pos; lia).
  assert (Nsm : 0 < N * s * m) by (apply Z.mul_pos_pos; lia). assert (Nsm4 : N * m * s <= N * m * 4) by (apply Z.mul_le_mono_nonneg_l; lia).
  assert (Lm : N * (s * m) <= zlen mid) by (rewrite Hmid; lia).
  unfold ilConvertBuffer. replace (N * s * n =? 0) with false by lia. rewrite HSw. cbn [bind].
  rewrite Bn, Bm. rewrite Z.div_mul by lia. replace (Dst =? Src) with false by lia. replace (Src =? IL_COLOUR_INDEX) with false by lia.
  rewrite Hcase. assert (Lb := AO _ _ Halloc).
  assert (V : forall p o c, 0 <= p < N -> In (o, c) ws -> 0 <= o < t /\ exists v, cell_val flum DstTy m mid (p * s) c = Ok v /\ zlen v = m).
  { intros p o c Hp HI. split; [apply (proj2 Hfit o c HI)|]. destruct (lum_vals DstTy m s t N mid ws p o c) as (v & E & L & _); auto; try lia. exists v. auto. }
  assert (G : exists td d', plan Src Dst = Some (size, td) /\ run flum DstTy m (N * s) mid td blk = Ok d' /\ zlen d' = zlen blk /\
    (forall p o c, 0 <= p < N -> In (o, c) ws -> cell_val flum DstTy m mid (p * s) c = Ok (chan (pixel d' (t * m) p) m o))).
  { destruct HP as [HP|HP]; eexists; rewrite HP.
    - destruct (run_whole flum DstTy m s t N mid ws blk) as (d' & X); auto; try lia; try apply Hfit. exists d'. split; [reflexivity|exact X].
    - destruct (run_each flum DstTy m s t N mid ws blk) as (d' & X); auto; try lia; try apply Hfit. exists d'. split; [reflexivity|exact X]. }
  destruct G as (td & d' & EP & E & Ld & Vd). rewrite EP. replace (u32 (N * s * m)) with (N * s * m) by (symmetry; apply u32_small; lia). rewrite Hsize, Halloc.
  rewrite E. cbn [bind]. exists d'. split; [reflexivity|]. split; [lia|].
  intros p o c Hp HI. destruct (lum_vals DstTy m s t N mid ws p o c) as (v & Ev & Lv & Mv); auto; try lia.
  destruct (proj2 Hfit o c HI) as (Ho & _). assert (X := Vd p o c Hp HI). rewrite Ev in X. rewrite sample_chan in X by lia. injection X as X.
  unfold lum_is. destruct c; congruence.
Qed.
End B.

(** ** C54 *)
(** Formats between which a luminance is made with the right weights: [i] is the alpha of the source *)
Inductive to_luminance : Z -> Z -> Prop :=
| tl_l : forall S, colour_format S -> to_luminance S IL_LUMINANCE
| tl_rgb : to_luminance IL_RGB IL_LUMINANCE_ALPHA
| tl_rgba : to_luminance IL_RGBA IL_LUMINANCE_ALPHA.

(** The weighted sum of the colour of pixel [p] *)
Definition luma (F : Z) (buf : list Z) (nch n p : Z) (y : Q) : Prop :=
  exists r g b, comp_at F R r /\ comp_at F G g /\ comp_at F B b /\
   (y == weight R * inject_Z (number (sample buf nch n p r)) + weight G * inject_Z (number (sample buf nch n p g)) + weight B * inject_Z (number (sample buf nch n p b)))%Q.

Ltac lfit := split; [repeat constructor; cbn; lia|cbn [In]; intros ? ? HIn;
  repeat match goal with HIn : _ \/ _ |- _ => destruct HIn as [HIn|HIn] | HIn : _ = _ |- _ => injection HIn; clear HIn; intros; subst | HIn : False |- _ => destruct HIn end;
  (split; [lia|first [exact I|lia]])].

Lemma number_le : forall n v, 0 < n -> 0 <= v < 256 ^ n -> number (le (Z.to_nat n) v) = v.
Proof. intros n v Hn H. rewrite number_unle. apply unle_le. rewrite Z2Nat.id by lia. exact H. Qed.
Lemma lum_val_close_f : forall x y z, 0 <= x <= 65535 -> 0 <= y <= 65535 -> 0 <= z <= 65535 ->
  let s := (weight R * inject_Z x + weight G * inject_Z y + weight B * inject_Z z)%Q in (s - (102 # 100) <= inject_Z (lum_val false x y z) <= s + (2 # 100))%Q.
Proof.
  intros x y z Hx Hy Hz s. assert (C := lum_val_close false x y z Hx Hy Hz). cbv beta zeta in C. unfold s, weight. unfold wt in C.
  change (0 =? 0) with true in C. change (1 =? 0) with false in C. change (1 =? 1) with true in C. change (2 =? 0) with false in C. change (2 =? 1) with false in C. cbv beta iota in C. lra.
Qed.
Lemma lum_val_close_t : forall x y z, 0 <= x <= 65535 -> 0 <= y <= 65535 -> 0 <= z <= 65535 ->
  let s := (weight R * inject_Z z + weight G * inject_Z y + weight B * inject_Z x)%Q in (s - (102 # 100) <= inject_Z (lum_val true x y z) <= s + (2 # 100))%Q.
Proof.
  intros x y z Hx Hy Hz s. assert (C := lum_val_close true x y z Hx Hy Hz). cbv beta zeta in C. unfold s, weight. unfold wt in C. cbv beta iota in C.
  change (2 - 0 =? 0) with false in C. change (2 - 0 =? 1) with false in C. change (2 - 1 =? 0) with false in C. change (2 - 1 =? 1) with true in C. change (2 - 2 =? 0) with true in C. cbv beta iota in C. lra.
Qed.
Lemma lum_val_range : forall rev x y z m, m = 1 \/ m = 2 -> 0 <= x < 256 ^ m -> 0 <= y < 256 ^ m -> 0 <= z < 256 ^ m -> 0 <= lum_val rev x y z < 256 ^ m.
Proof.
  intros rev x y z m Hm Hx Hy Hz. assert (T : exists Ty, small_int Ty m) by (destruct Hm as [ -> | -> ]; eexists; constructor). destruct T as (Ty & HT).
  assert (E : forall v, 0 <= v < 256 ^ m -> unle (le (Z.to_nat m) v) = v) by (intros v Hv; apply unle_le; rewrite Z2Nat.id by lia; exact Hv).
  assert (Ln : forall v, zlen (le (Z.to_nat m) v) = m) by (intros v; rewrite le_len; lia).
  destruct (lum_elem_small (fun _ _ _ a _ _ => a) rev false Ty m (le (Z.to_nat m) x) (le (Z.to_nat m) y) (le (Z.to_nat m) z) HT) as (_ & Q); auto using bytes_le.
  rewrite !E in Q by auto. exact Q.
Qed.

(** Every luminance is at most 1.02 below and at most 0.02 above the weighted sum of the colour, so
    the result is the weighted sum truncated up to the error of single precision; a pixel that is
    nowhere brighter does not become brighter; alpha is copied, or opaque. *)
Theorem C54_luminance_partial : forall fcast flum pal alloc Src Dst sc dc SrcTy DstTy n m N buf mid blk,
  allocator_ok alloc -> to_luminance Src Dst -> channels Src sc -> channels Dst dc -> type_size SrcTy n -> small_int DstTy m ->
  0 < N -> zlen buf = N * sc * n -> 12 * N * m < 4294967296 ->
  iSwitchTypes fcast alloc (N * sc * n) SrcTy DstTy buf = Ok (Some mid, []) -> zlen mid = N * sc * m -> bytes mid ->
  alloc (N * dc * m) = Some blk ->
  exists new, ilConvertBuffer fcast flum pal alloc (N * sc * n) Src Dst SrcTy DstTy buf = Ok (Some new, []) /\ zlen new = N * dc * m /\
    (forall p y, 0 <= p < N -> luma Src mid sc m p y -> (y - (102 # 100) <= inject_Z (number (sample new dc m p 0)) <= y + (2 # 100))%Q) /\
    (forall p q, 0 <= p < N -> 0 <= q < N -> (forall k i, comp_at Src k i -> k <> A -> number (sample mid sc m p i) <= number (sample mid sc m q i)) ->
       number (sample new dc m p 0) <= number (sample new dc m q 0)) /\
    (forall p j w, 0 <= p < N -> comp_at Dst A j -> should_be Src A w -> is_what mid new sc dc m DstTy p j w).
Proof.
  intros fcast flum pal alloc Src Dst sc dc SrcTy DstTy n m N buf mid blk AO TL CS CD Tn HT HN Hbuf H12 HSw Hmid HB Halloc.
  destruct (small_type _ _ HT) as (Tm & Hm). assert (Hm0 : 0 < m) by lia.
  assert (Nm : 0 < N * m) by (apply Z.mul_pos_pos; lia).
  assert (Lm : N * (sc * m) <= zlen mid) by (rewrite Hmid, Z.mul_assoc; apply Z.le_refl).
  assert (P8 : 256 ^ m - 1 <= 65535) by (destruct Hm as [ -> | -> ]; vm_compute; discriminate).
  assert (RG : forall p i, 0 <= p < N -> 0 <= i < sc -> 0 <= number (sample mid sc m p i) < 256 ^ m).
  { intros p i Hp Hi. rewrite number_unle. assert (K := unle_range _ (bytes_sample mid sc m p i HB)). rewrite (zlen_sample mid sc m p i N Hm0 Hi Hp Lm) in K. exact K. }
  assert (GEN : forall rev ws size, plan Src Dst = Some (size, Whole sc dc ws) -> Src <> Dst -> Src <> IL_COLOUR_INDEX ->
     case Src [IL_RGB; IL_RGBA; IL_BGR; IL_BGRA; IL_LUMINANCE; IL_LUMINANCE_ALPHA; IL_ALPHA] = true -> size (N * sc * m) = N * dc * m -> 3 <= sc <= 4 -> 0 < dc <= 4 ->
     (exists d, In (0, Lum rev d) ws) -> lum_fits sc dc ws -> (forall k, k <> A -> forall i, comp_at Src k i -> 0 <= i <= 2) ->
     comp_at Src (if rev then B else R) 0 -> comp_at Src G 1 -> comp_at Src (if rev then R else B) 2 ->
     (forall new p j w, (forall p o c, 0 <= p < N -> In (o, c) ws -> lum_is mid new sc dc m DstTy p o c) -> 0 <= p < N -> comp_at Dst A j -> should_be Src A w -> is_what mid new sc dc m DstTy p j w) ->
     exists new, ilConvertBuffer fcast flum pal alloc (N * sc * n) Src Dst SrcTy DstTy buf = Ok (Some new, []) /\ zlen new = N * dc * m /\
    (forall p y, 0 <= p < N -> luma Src mid sc m p y -> (y - (102 # 100) <= inject_Z (number (sample new dc m p 0)) <= y + (2 # 100))%Q) /\
    (forall p q, 0 <= p < N -> 0 <= q < N -> (forall k i, comp_at Src k i -> k <> A -> number (sample mid sc m p i) <= number (sample mid sc m q i)) ->
       number (sample new dc m p 0) <= number (sample new dc m q 0)) /\
    (forall p j w, 0 <= p < N -> comp_at Dst A j -> should_be Src A w -> is_what mid new sc dc m DstTy p j w)).
  { intros rev ws size HP Hne Hci Hcase Hsize Hsc Hdc (d & HI) Hfit _ C0 C1 C2 HA.
    destruct (convert_lum fcast flum pal alloc AO Src Dst SrcTy DstTy n m sc dc N buf mid blk size ws) as (new & E & L & V); auto; try lia.
    assert (NV : forall p, 0 <= p < N -> number (sample new dc m p 0) = lum_val rev (number (sample mid sc m p 0)) (number (sample mid sc m p 1)) (number (sample mid sc m p 2))).
    { intros p Hp. assert (X := V p 0 _ Hp HI). cbn [lum_is] in X. rewrite X. apply number_le; auto. apply lum_val_range; auto; apply RG; lia. }
    exists new. split; [exact E|]. split; [exact L|]. split; [|split].
    - intros p y Hp (r & g & b & Hr & Hg & Hb & Y). rewrite NV by auto. rewrite Y.
      assert (U : forall k i j, comp_at Src k i -> comp_at Src k j -> i = j) by (intros k i j A1 A2; inversion A1; subst; inversion A2; reflexivity || discriminate).
      assert (R0 := RG p 0 Hp ltac:(lia)). assert (R1 := RG p 1 Hp ltac:(lia)). assert (R2 := RG p 2 Hp ltac:(lia)).
      rewrite (U G g 1) by auto. destruct rev.
      + rewrite (U R r 2), (U B b 0) by auto. apply (lum_val_close_t (number (sample mid sc m p 0)) (number (sample mid sc m p 1)) (number (sample mid sc m p 2))); lia.
      + rewrite (U R r 0), (U B b 2) by auto. apply (lum_val_close_f (number (sample mid sc m p 0)) (number (sample mid sc m p 1)) (number (sample mid sc m p 2))); lia.
    - intros p q Hp Hq H. rewrite !NV by auto.
      assert (R0 := RG p 0 Hp ltac:(lia)). assert (R1 := RG p 1 Hp ltac:(lia)). assert (R2 := RG p 2 Hp ltac:(lia)).
      apply lum_val_mono; (split; [lia|]); eapply H; eauto; destruct rev; discriminate.
    - intros p j w Hp Hj Hw. apply HA; auto. }
  assert (D3 : N * 3 * m / 3 = N * m) by (replace (N * 3 * m) with (N * m * 3) by lia; apply Z.div_mul; lia).
  assert (D4 : N * 4 * m / 4 = N * m) by (replace (N * 4 * m) with (N * m * 4) by lia; apply Z.div_mul; lia).
  destruct TL as [S HS| | ]; [destruct HS| | ]; inversion CS; subst; inversion CD; subst; try discriminate.
  all: lazymatch goal with |- exists new, ilConvertBuffer _ _ _ _ _ ?S ?D _ _ _ = _ /\ _ =>
     let r := eval lazy in (if case S [IL_BGR; IL_BGRA] then true else false) in
     apply (GEN r _ _ eq_refl); [discriminate|discriminate|reflexivity|cbv beta; lia|lia|lia|eexists; left; reflexivity|lfit| | | | | ] end.
  all: try (intros k Hk i HC; inversion HC; subst; try congruence; lia).
  all: try constructor.
  all: intros new p j w V Hp Hj Hw; inversion Hj; subst; inversion Hw as [k' i' C1|k' i' K C1|NA|k' NA E1]; subst;
    try (inversion C1; fail); try (exfalso; destruct K as [K|[K|K]]; discriminate K); try discriminate E1;
    try (exfalso; apply (NA 3); constructor); try (inversion C1; subst); try (exfalso; congruence); cbn [is_what].
  - assert (X : sample new 2 m p 1 = opq DstTy) by (apply (V p 1 Opq Hp); cbn; tauto). rewrite X. exact (proj1 (opq_full _ _ Tm)).
  - apply (V p 1 (El 3) Hp); cbn; tauto.
Qed.

(** A grey of level 35 becomes 34: the weights add up to 1, but their sum in single precision is
    truncated. *)
Theorem C54_grey_refuted : ~ (forall fcast flum pal alloc v new, allocator_ok alloc -> 0 <= v < 256 ->
  ilConvertBuffer fcast flum pal alloc 3 IL_RGB IL_LUMINANCE IL_UNSIGNED_BYTE IL_UNSIGNED_BYTE [v; v; v] = Ok (Some new, []) -> new = [v]).
Proof.
  intros H. specialize (H no_cast no_lum no_pal some_alloc 35 [34] some_alloc_ok ltac:(lia)).
  assert (E : [34] = [35]) by (apply H; vm_compute; reflexivity). discriminate E.
Qed.

(** BGR and BGRA pixels are given the weights of RGB when the target has alpha: blue becomes 54, and
    18 when the target is luminance without alpha. *)
Theorem C54_bgr_la_refuted : forall fcast flum pal,
  ilConvertBuffer fcast flum pal some_alloc 3 IL_BGR IL_LUMINANCE_ALPHA IL_UNSIGNED_BYTE IL_UNSIGNED_BYTE [255; 0; 0] = Ok (Some [54; 255], []) /\
  ilConvertBuffer fcast flum pal some_alloc 4 IL_BGRA IL_LUMINANCE_ALPHA IL_UNSIGNED_BYTE IL_UNSIGNED_BYTE [255; 0; 0; 7] = Ok (Some [54; 7], []) /\
  ilConvertBuffer fcast flum pal some_alloc 3 IL_BGR IL_LUMINANCE IL_UNSIGNED_BYTE IL_UNSIGNED_BYTE [255; 0; 0] = Ok (Some [18], []).
Proof. intros. repeat split; vm_compute; reflexivity. Qed.

(** The luminance of white does not fit in 32-bit integers, and casting it to one is undefined. *)
Theorem C54_int_white_refuted : forall fcast flum pal,
  ilConvertBuffer fcast flum pal some_alloc 12 IL_RGB IL_LUMINANCE IL_UNSIGNED_INT IL_UNSIGNED_INT (repeat 255 12) = UB.
Proof. intros. vm_compute. reflexivity. Qed.

(** Halves are weighted as if they were integers: (1, 0, 0) becomes a half far below the weight of
    red (2^-12 is 3072; the weight would be 0x32ce = 13006). *)
Theorem C54_half_refuted : forall fcast flum pal,
  ilConvertBuffer fcast flum pal some_alloc 6 IL_RGB IL_LUMINANCE IL_HALF IL_HALF [0; 60; 0; 0; 0; 0] = Ok (Some (le 2 3266), []).
Proof. intros. vm_compute. reflexivity. Qed.

(** There is no conversion from alpha to luminance. *)
Theorem C54_alpha_missing_refuted : forall fcast flum pal v,
  ilConvertBuffer fcast flum pal some_alloc 1 IL_ALPHA IL_LUMINANCE IL_UNSIGNED_BYTE IL_UNSIGNED_BYTE [v] = Ok (None, [IL_INVALID_CONVERSION]).
Proof. intros. vm_compute. reflexivity. Qed.

Example C54_ex : exists new, ilConvertBuffer no_cast no_lum no_pal some_alloc (2 * 4 * 1) IL_BGRA IL_LUMINANCE IL_UNSIGNED_BYTE IL_UNSIGNED_BYTE [10; 20; 30; 40; 50; 60; 70; 80] = Ok (Some new, []) /\
  (forall y, luma IL_BGRA [10; 20; 30; 40; 50; 60; 70; 80] 4 1 0 y -> (y - (102 # 100) <= inject_Z (number (sample new 1 1 0 0)) <= y + (2 # 100))%Q) /\
  number (sample new 1 1 0 0) <= number (sample new 1 1 1 0).
Proof.
  destruct (C54_luminance_partial no_cast no_lum no_pal some_alloc IL_BGRA IL_LUMINANCE 4 1 IL_UNSIGNED_BYTE IL_UNSIGNED_BYTE 1 1 2 [10; 20; 30; 40; 50; 60; 70; 80] [10; 20; 30; 40; 50; 60; 70; 80] (repeat 170 2))
    as (new & E & _ & V & M & _); [exact some_alloc_ok|apply tl_l; constructor|constructor|constructor|constructor|constructor|lia|reflexivity|lia|reflexivity|reflexivity|apply bytes_Forall; repeat constructor; lia|reflexivity|].
  exists new. split; [exact E|]. split; [intros y; apply V; lia|]. apply M; try lia. intros k i C K. inversion C; subst; try congruence; vm_compute; discriminate.
Qed.
Example C54_ex_val : ilConvertBuffer no_cast no_lum no_pal some_alloc (2 * 4 * 1) IL_BGRA IL_LUMINANCE IL_UNSIGNED_BYTE IL_UNSIGNED_BYTE [10; 20; 30; 40; 50; 60; 70; 80] = Ok (Some [21; 61], []).
Proof. vm_compute. reflexivity. Qed.
Print Assumptions C54_luminance_partial.
Print Assumptions C54_grey_refuted.
Print Assumptions C54_bgr_la_refuted.
Print Assumptions C54_int_white_refuted.
Print Assumptions C54_half_refuted.
Print Assumptions C54_alpha_missing_refuted.
