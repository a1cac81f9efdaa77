(** The pixels of icons. *)
From Coq Require Import ZArith List Lia Bool.
From Verif Require Import Base Slices BitLemmas Elem Enums Utility Image ImageSpec Lump LumpSpec LumpProofs LumpProps Endian ConvImgProps PcxProofs TgaProofs BmpSpec BmpDecode SgiLoad Small SmallSpec SmallTex Dds DdsProofs Icon IconSpec.
Import ListNotations.
Open Scope Z_scope.

Lemma aligned : forall m, 0 <= m -> (m + 31) / 32 * 4 = (m + 7) / 8 + (4 - (m + 7) / 8 mod 4) mod 4.
Proof. intros m Hm. lia. Qed.

Lemma reads3 : forall (l : list Z) k, 0 <= k -> k + 3 <= zlen l -> rd l k = Ok (geti l k) /\ rd l (k + 1) = Ok (geti l (k + 1)) /\ rd l (k + 2) = Ok (geti l (k + 2)).
Proof. intros l k Hk HL. rewrite !rd_ok by lia. auto. Qed.
Section Paint.
Variables (dat msk : list Z) (p : option (list Z)) (sz H2 b W H st : Z).
Hypothesis (HB : b = 8 /\ st = 1 \/ b = 24 /\ st = 3) (HW : 1 <= W) (HH : 1 <= H) (WB : W * b + 7 < 2147483648).
Let S := line_size b W. Let A := line_size 1 W.
Hypothesis (LD : zlen dat = S * H) (LM : zlen msk = A * H) (SM : W * 4 * H < 4294967296).
Notation c := (mkIcon sz W H2 b p (Some dat) (Some msk)).
Let n := W * H.
Let pad := (4 - (W * b + 7) / 8 mod 4) mod 4.
Let apad := (4 - (W + 7) / 8 mod 4) mod 4.

Definition at_pixel (q : Z) (d : list Z) : paint := mkPaint d (q / W * S + q mod W * st) (2 ^ (7 - (q mod W) mod 8)) (q / W * A + (q mod W) / 8) (q mod W).
Lemma S_eq : S = W * st + pad /\ 0 <= pad < 4.
Proof. clear - HB HW. unfold S, line_size, pad. rewrite aligned by lia. split; [|lia]. f_equal. destruct HB as [(-> & ->)|(-> & ->)]; lia. Qed.
Lemma A_eq : A = (W + 7) / 8 + apad /\ 0 <= apad < 4.
Proof. clear - HW. unfold A, line_size, apad. rewrite aligned by lia. rewrite Z.mul_1_r. split; lia. Qed.
Lemma split_pixel : forall q, 0 <= q -> (q mod W + 1 = W /\ (q + 1) mod W = 0 /\ (q + 1) / W = q / W + 1) \/ (q mod W + 1 < W /\ (q + 1) mod W = q mod W + 1 /\ (q + 1) / W = q / W).
Proof.
  clear - HW. intros q Hq. assert (E := Z.div_mod q W ltac:(lia)). assert (R := Z.mod_pos_bound q W ltac:(lia)). set (y := q / W) in *. set (x := q mod W) in *. clearbody y x.
  assert (x + 1 = W \/ x + 1 < W) as [L|L] by lia; [left|right].
  - assert (q + 1 = W * (y + 1) + 0) by nia. split; [exact L|]. split; symmetry; [apply (Z.mod_unique _ _ (y + 1)); lia|apply (Z.div_unique _ _ _ 0); lia].
  - split; [exact L|]. split; symmetry; [apply (Z.mod_unique _ _ y); lia|apply (Z.div_unique _ _ _ (x + 1)); lia].
Qed.
Lemma pow_half : forall i, 0 <= i < 8 -> Z.shiftr (2 ^ (7 - i)) 1 = if i =? 7 then 0 else 2 ^ (7 - (i + 1)).
Proof. clear. intros i Hi. assert (i = 0 \/ i = 1 \/ i = 2 \/ i = 3 \/ i = 4 \/ i = 5 \/ i = 6 \/ i = 7) as E by lia. repeat (destruct E as [-> |E]; [reflexivity|]). subst i. reflexivity. Qed.
Lemma next_pixel : forall q d, 0 <= q -> next W pad apad st (at_pixel q d) = at_pixel (q + 1) d.
Proof.
  intros q d Hq. assert (SE := S_eq). assert (AE := A_eq). clear LD LM SM WB HH n. unfold next, at_pixel. cbn [PD PK PL PA PX]. assert (R := Z.mod_pos_bound q W ltac:(lia)). set (x := q mod W) in *. rewrite pow_half by (apply Z.mod_pos_bound; lia).
  destruct (split_pixel q Hq) as [(L & E1 & E2)|(L & E1 & E2)]; fold x in L, E1; rewrite E1, E2.
  - replace (x + 1 =? W) with true by lia. rewrite orb_true_r. f_equal.
    + rewrite (proj1 SE). rewrite Z.mul_add_distr_r. lia.
    + change (0 / 8) with 0. rewrite (proj1 AE). rewrite Z.mul_add_distr_r. assert (X : x / 8 + 1 = (W + 7) / 8) by (replace W with (x + 1) by lia; lia). lia.
  - replace (x + 1 =? W) with false by lia. rewrite orb_false_r. destruct (x mod 8 =? 7) eqn:E7.
    + change (0 =? 0) with true. cbv iota. f_equal; [lia| |lia]. replace ((x + 1) mod 8) with 0 by lia. reflexivity.
    + assert (M : (x + 1) mod 8 = x mod 8 + 1) by lia. rewrite M. assert (P : 0 < 2 ^ (7 - (x mod 8 + 1))) by (apply Z.pow_pos_nonneg; lia). replace (2 ^ (7 - (x mod 8 + 1)) =? 0) with false by lia. f_equal; lia.
Qed.
(** where a pixel is *)
Lemma pixel_in : forall q, 0 <= q < n -> 0 <= q mod W < W /\ 0 <= q / W < H /\ 0 <= q / W * S + q mod W * st /\ q / W * S + q mod W * st + st <= S * H /\ 0 <= q / W * A + (q mod W) / 8 < A * H.
Proof.
  intros q Hq. assert (SE := S_eq). assert (AE := A_eq). clear LD LM SM WB. unfold n in Hq. assert (R := Z.mod_pos_bound q W ltac:(lia)). assert (Y : 0 <= q / W < H) by (split; [apply Z.div_pos; lia|apply Z.div_lt_upper_bound; lia]).
  set (x := q mod W) in *. set (y := q / W) in *. assert (H1 : 1 <= st) by lia. assert (X1 : 0 <= x * st) by (apply Z.mul_nonneg_nonneg; lia). assert (X2 : (x + 1) * st <= W * st) by (apply Z.mul_le_mono_nonneg_r; lia).
  assert (S0 : 0 <= S) by (assert (0 <= W * st) by (apply Z.mul_nonneg_nonneg; lia); lia). assert (Y1 : 0 <= y * S) by (apply Z.mul_nonneg_nonneg; lia). assert (Y2 : (y + 1) * S <= H * S) by (apply Z.mul_le_mono_nonneg_r; lia).
  assert (A0 : 1 <= A) by lia. assert (Y3 : 0 <= y * A) by (apply Z.mul_nonneg_nonneg; lia). assert (Y4 : (y + 1) * A <= H * A) by (apply Z.mul_le_mono_nonneg_r; lia). assert (X3 : x / 8 < A) by lia. assert (X4 : 0 <= x / 8) by (apply Z.div_pos; lia). split; [lia|]. split; [lia|]. lia.
Qed.
(** after [q] pixels *)
Variable new : Z -> Z -> Z.
Definition painted (q : Z) (d : list Z) : Prop := zlen d = n * 4 /\ forall i ch, 0 <= i < q -> 0 <= ch < 4 -> geti d (i * 4 + ch) = new i ch.
Lemma put4_ok : forall q d v0 v1 v2 v3, 0 <= q < n -> painted q d -> new q 0 = v0 -> new q 1 = v1 -> new q 2 = v2 -> new q 3 = v3 -> exists d', put4 d (q * 4) v0 v1 v2 v3 = Ok d' /\ painted (q + 1) d'.
Proof.
  clear. intros q d v0 v1 v2 v3 Hq (L & G) N0 N1 N2 N3. unfold put4. rewrite wr_ok by lia. cbn [bind]. set (d1 := upd d (q * 4) v0). assert (L1 : zlen d1 = zlen d) by (apply zlen_upd; lia). rewrite wr_ok by lia. cbn [bind]. set (d2 := upd d1 (q * 4 + 1) v1). assert (L2 : zlen d2 = zlen d) by (unfold d2; rewrite zlen_upd; lia).
  rewrite wr_ok by lia. cbn [bind]. set (d3 := upd d2 (q * 4 + 2) v2). assert (L3 : zlen d3 = zlen d) by (unfold d3; rewrite zlen_upd; lia). rewrite wr_ok by lia. eexists. split; [reflexivity|]. split; [rewrite zlen_upd; lia|].
  intros i ch Hi Hc. rewrite geti_upd by lia. unfold d3. rewrite geti_upd by lia. unfold d2. rewrite geti_upd by lia. unfold d1. rewrite geti_upd by lia.
  destruct (i * 4 + ch =? q * 4 + 3) eqn:E3; [replace i with q by lia; replace ch with 3 by lia; auto|]. destruct (i * 4 + ch =? q * 4 + 2) eqn:E2; [replace i with q by lia; replace ch with 2 by lia; auto|]. destruct (i * 4 + ch =? q * 4 + 1) eqn:E1; [replace i with q by lia; replace ch with 1 by lia; auto|]. destruct (i * 4 + ch =? q * 4) eqn:E0; [replace i with q by lia; replace ch with 0 by lia; auto|].
  apply G; lia.
Qed.
Lemma paint_all : forall (body : Z -> paint -> res paint) (state : Z -> list Z -> paint) d, zlen d = n * 4 ->
  (forall q d, 0 <= q < n -> painted q d -> exists d', body (q * 4) (state q d) = Ok (state (q + 1) d') /\ painted (q + 1) d') ->
  exists d', stride 0 (n * 4) 4 body (state 0 d) = Ok (state n d') /\ painted n d'.
Proof.
  intros body state d L ST. assert (Hn : 0 <= n * 4 < 4294967296) by (unfold n; split; [|lia]; apply Z.mul_nonneg_nonneg; [apply Z.mul_nonneg_nonneg; lia|lia]). rewrite stride_loop by lia.
  destruct (loop_rule _ (fun q s => exists d, s = state q d /\ painted q d) 0 n (fun k => body (0 + k * 4)) (state 0 d)) as (s & E & d' & -> & P).
  - lia.
  - exists d. split; [reflexivity|]. split; [exact L|]. intros i ch Hi. lia.
  - intros k s Hk (d0 & -> & P). rewrite Z.add_0_l. destruct (ST k d0 Hk P) as (d' & E & P'). eexists. split; [exact E|]. exists d'. auto.
  - exists d'. auto.
Qed.
Lemma alpha_ok : forall q d, 0 <= q < n -> Opacity c (at_pixel q d) = Ok (if Z.testbit (geti msk (q / W * A + (q mod W) / 8)) (7 - (q mod W) mod 8) then 0 else 255).
Proof.
  intros q d Hq. assert (I := pixel_in q Hq). unfold Opacity, at_pixel. cbn [CAnd rdp PA PL]. rewrite rd_ok by lia. cbn [bind]. fold (has (geti msk (q / W * A + (q mod W) / 8)) (2 ^ (7 - (q mod W) mod 8))). rewrite has_bit by lia. reflexivity.
Qed.

Hypothesis (NA : forall q, 0 <= q < n -> new q 3 = if Z.testbit (geti msk (q / W * A + (q mod W) / 8)) (7 - (q mod W) mod 8) then 0 else 255).
Lemma next_put : forall q d d', 0 <= q -> next W pad apad st (mkPaint d' (PK (at_pixel q d)) (PL (at_pixel q d)) (PA (at_pixel q d)) (PX (at_pixel q d))) = at_pixel (q + 1) d'.
Proof. intros q d d' Hq. exact (next_pixel q d' Hq). Qed.
Lemma paint24 : st = 3 -> (forall q ch, 0 <= q < n -> 0 <= ch < 3 -> new q ch = geti dat (q / W * S + q mod W * 3 + ch)) -> forall q d, 0 <= q < n -> painted q d ->
  exists d', Paint24 c W pad apad (q * 4) (at_pixel q d) = Ok (at_pixel (q + 1) d') /\ painted (q + 1) d'.
Proof.
  intros ES NC q d Hq P. assert (I := pixel_in q Hq). unfold Paint24. rewrite alpha_ok by exact Hq. change (PK (at_pixel q d)) with (q / W * S + q mod W * st). cbn [CData rdp]. rewrite ES in I |- *. destruct I as (_ & _ & I1 & I2 & _).
  destruct (reads3 dat (q / W * S + q mod W * 3) I1 ltac:(rewrite LD; exact I2)) as (-> & -> & ->). cbn [bind].
  destruct (put4_ok q d _ _ _ _ Hq P (NC q 0 Hq ltac:(lia)) (NC q 1 Hq ltac:(lia)) (NC q 2 Hq ltac:(lia)) (NA q Hq)) as (d' & E & P'). rewrite Z.add_0_r in E. change (PD (at_pixel q d)) with d. rewrite E. cbn [bind]. exists d'. split; [|exact P'].
  assert (N := next_put q d d' ltac:(lia)). change (PK (at_pixel q d)) with (q / W * S + q mod W * st) in N. rewrite ES in N. rewrite N. reflexivity.
Qed.
Lemma paint8 : forall pl, p = Some pl -> zlen pl = 1024 -> bytes dat -> st = 1 -> (forall q ch, 0 <= q < n -> 0 <= ch < 3 -> new q ch = geti pl (geti dat (q / W * S + q mod W) * 4 + ch)) -> forall q d, 0 <= q < n -> painted q d ->
  exists d', Paint8 c W pad apad (q * 4) (at_pixel q d) = Ok (at_pixel (q + 1) d') /\ painted (q + 1) d'.
Proof.
  intros pl EP LP BD ES NC q d Hq P. assert (I := pixel_in q Hq). unfold Paint8. rewrite alpha_ok by exact Hq. change (PK (at_pixel q d)) with (q / W * S + q mod W * st). cbn [CData CPal CAnd rdp]. rewrite ES in I |- *. rewrite Z.mul_1_r in I |- *. rewrite EP. destruct I as (_ & _ & I1 & I2 & _). assert (I3 : q / W * S + q mod W < zlen dat) by (rewrite LD; apply Z.lt_le_trans with (q / W * S + q mod W + 1); [apply Z.lt_succ_diag_r|exact I2]). rewrite rd_ok by (split; [exact I1|exact I3]). cbn [bind].
  assert (B := BD _ (conj I1 I3)). cbn [rdp]. destruct (reads3 pl (geti dat (q / W * S + q mod W) * 4) ltac:(clear - B; lia) ltac:(clear - B LP; lia)) as (-> & -> & ->). cbn [bind].
  destruct (put4_ok q d _ _ _ _ Hq P (NC q 0 Hq ltac:(lia)) (NC q 1 Hq ltac:(lia)) (NC q 2 Hq ltac:(lia)) (NA q Hq)) as (d' & E & P'). rewrite Z.add_0_r in E. change (PD (at_pixel q d)) with d. rewrite E. cbn [bind]. exists d'. split; [|exact P'].
  assert (N := next_put q d d' ltac:(lia)). change (PK (at_pixel q d)) with (q / W * S + q mod W * st) in N. rewrite ES in N. rewrite Z.mul_1_r in N. rewrite N. reflexivity.
Qed.
End Paint.

