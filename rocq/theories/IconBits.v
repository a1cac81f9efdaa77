(** The pixels of icons of 1 and 4 bits. *)
From Coq Require Import ZArith List Lia Bool.
From Verif Require Import Base Slices BitLemmas Elem Enums Utility Image ImageSpec Small SmallSpec SmallTex Dds DdsProofs Icon IconSpec IconProofs.
Import ListNotations.
Open Scope Z_scope.
Section Low.
Variables (dat msk pl : list Z) (sz H2 b W H ppb : Z).
Hypothesis (HB : b = 1 /\ ppb = 8 \/ b = 4 /\ ppb = 2) (HW : 1 <= W) (HH : 1 <= H).
Let S := line_size b W. Let A := line_size 1 W.
Hypothesis (LD : zlen dat = S * H) (LM : zlen msk = A * H) (BD : bytes dat) (LP : 4 * 2 ^ b <= zlen pl).
Notation c := (mkIcon sz W H2 b (Some pl) (Some dat) (Some msk)).
Let n := W * H.
Let pad := (4 - (W * b + 7) / 8 mod 4) mod 4.
Let apad := (4 - (W + 7) / 8 mod 4) mod 4.
Variable new : Z -> Z -> Z.
Notation painted := (painted W H new).
(** the state before pixel [t] of the byte whose first pixel is at [x], [y] *)
Definition mid (x y t : Z) (d : list Z) : paint := mkPaint d (y * S + x / ppb) (Z.shiftr (2 ^ (7 - x mod 8)) t) (y * A + x / 8) (x + t).
Hypothesis (NA : forall x y, 0 <= x < W -> 0 <= y < H -> new (y * W + x) 3 = if Z.testbit (geti msk (y * A + x / 8)) (7 - x mod 8) then 0 else 255).
Lemma S_low : S = (W * b + 7) / 8 + pad /\ 0 <= pad < 4.
Proof. clear - HB HW. assert (0 <= W * b) by (destruct HB as [(-> & _)|(-> & _)]; lia). unfold S, line_size, pad. rewrite aligned by lia. split; lia. Qed.
Lemma A_low : A = (W + 7) / 8 + apad /\ 0 <= apad < 4.
Proof. clear - HW. unfold A, line_size, apad. rewrite aligned by lia. rewrite Z.mul_1_r. split; lia. Qed.
Lemma shift_bit : forall x t, 0 <= t -> x mod 8 + t < 8 -> Z.shiftr (2 ^ (7 - x mod 8)) t = 2 ^ (7 - (x mod 8 + t)).
Proof. clear. intros x t Ht H. rewrite Z.shiftr_div_pow2 by lia. replace (7 - x mod 8) with (7 - (x mod 8 + t) + t) by lia. rewrite Z.pow_add_r by lia. apply Z.div_mul. apply Z.pow_nonzero; lia. Qed.
Lemma shift_out : forall x t, x mod 8 + t = 8 -> Z.shiftr (2 ^ (7 - x mod 8)) t = 0.
Proof. clear. intros x t H. rewrite Z.shiftr_div_pow2 by lia. apply Z.div_small. split; [apply Z.pow_nonneg; lia|]. apply Z.pow_lt_mono_r; lia. Qed.
Lemma in_mask : forall x y, 0 <= x < W -> 0 <= y < H -> 0 <= y * A + x / 8 < zlen msk.
Proof.
  clear - HW LM HH. intros x y Hx Hy. rewrite LM. assert (A1 : 1 <= A /\ x / 8 < A) by (unfold A, line_size; lia). assert (0 <= y * A) by (apply Z.mul_nonneg_nonneg; lia). assert ((y + 1) * A <= H * A) by (apply Z.mul_le_mono_nonneg_r; lia). assert (0 <= x / 8) by (apply Z.div_pos; lia). clearbody A. lia.
Qed.
Lemma in_data : forall x y, 0 <= x < W -> 0 <= y < H -> 0 <= y * S + x / ppb < zlen dat.
Proof.
  intros x y Hx Hy. rewrite LD. assert (SL := S_low). clear - HW HH Hx Hy HB SL. assert (A1 : 1 <= S /\ 0 <= x / ppb < S) by (destruct SL as (-> & SL); clearbody pad; destruct HB as [(-> & ->)|(-> & ->)]; lia). clear SL. assert (0 <= y * S) by (apply Z.mul_nonneg_nonneg; lia). assert ((y + 1) * S <= H * S) by (apply Z.mul_le_mono_nonneg_r; lia). clearbody S. lia.
Qed.
Lemma idx_ok : forall x y t d i, 0 <= x -> 0 <= y < H -> 0 <= t -> x + t < W -> x mod 8 + t < 8 -> painted (y * W + (x + t)) d -> 0 <= i < 2 ^ b -> (forall ch, 0 <= ch < 3 -> new (y * W + (x + t)) ch = geti pl (i * 4 + ch)) ->
  exists d', Indexed c i ((y * W + (x + t)) * 4) (mid x y t d) = Ok (mid x y (t + 1) d') /\ painted (y * W + (x + t) + 1) d'.
Proof.
  intros x y t d i Hx Hy Ht HX HM P Hi NC. unfold Indexed. cbn [CPal rdp]. destruct (reads3 pl (i * 4) ltac:(clear - Hi; lia) ltac:(clear - Hi LP; lia)) as (-> & -> & ->). cbn [bind].
  assert (E8 : (x + t) / 8 = x / 8 /\ (x + t) mod 8 = x mod 8 + t) by (clear - Hx Ht HM; lia). destruct E8 as (E8 & E9).
  assert (OP : Opacity c (mid x y t d) = Ok (new (y * W + (x + t)) 3)).
  { unfold Opacity, mid. cbn [CAnd rdp PA PL]. rewrite NA by (clear - Hx Ht HX Hy; lia). assert (IM := in_mask x y ltac:(clear - Hx Ht HX; lia) Hy). rewrite rd_ok by exact IM. cbn [bind]. rewrite shift_bit by (clear - Ht HM; lia). rewrite E8, E9. fold (has (geti msk (y * A + x / 8)) (2 ^ (7 - (x mod 8 + t)))). rewrite has_bit by (clear - HM; lia). reflexivity. }
  rewrite OP. cbn [bind].
  assert (Q : 0 <= y * W + (x + t) < W * H) by (assert (0 <= y * W) by (apply Z.mul_nonneg_nonneg; clear - Hy HW; lia); assert ((y + 1) * W <= H * W) by (apply Z.mul_le_mono_nonneg_r; clear - Hy HW; lia); lia).
  destruct (put4_ok W H new (y * W + (x + t)) d _ _ _ _ Q P (NC 0 ltac:(lia)) (NC 1 ltac:(lia)) (NC 2 ltac:(lia)) eq_refl) as (d' & E & P'). rewrite Z.add_0_r in E. change (PD (mid x y t d)) with d. rewrite E. cbn [bind]. exists d'. split; [|exact P'].
  unfold mid. cbn [PK PL PA PX]. rewrite Z.shiftr_shiftr by lia. rewrite Z.add_assoc. reflexivity.
Qed.
Lemma end_ok : forall x y t d, 0 <= x -> 1 <= t -> x mod ppb = 0 -> t <= ppb -> x + t <= W -> (x + t = W \/ t = ppb) ->
  line_end W pad apad (mid x y t d) = if x + t =? W then mid 0 (y + 1) 0 d else mid (x + t) y 0 d.
Proof.
  intros x y t d Hx Ht HM Htp HX HT. unfold line_end, mid. cbn [PL PX PD PK PA]. assert (SL := S_low). assert (AL := A_low). destruct (x + t =? W) eqn:EW.
  - rewrite orb_true_r. assert (X1 : x + t = W) by lia. f_equal.
    + change (0 / ppb) with 0. rewrite (proj1 SL). rewrite Z.mul_add_distr_r. assert (x / ppb + 1 = (W * b + 7) / 8) by (clear - HB X1 HM Htp Ht Hx; destruct HB as [(-> & ->)|(-> & ->)]; lia). lia.
    + rewrite (proj1 AL). rewrite Z.mul_add_distr_r. change (0 / 8) with 0. assert (x / 8 + 1 = (W + 7) / 8) by (clear - HB X1 HM Htp Ht Hx; destruct HB as [(-> & ->)|(-> & ->)]; lia). lia.
  - rewrite orb_false_r. assert (ET : t = ppb) by lia. subst t. rewrite Z.add_0_r. change (Z.shiftr (2 ^ (7 - (x + ppb) mod 8)) 0) with (2 ^ (7 - (x + ppb) mod 8)).
    assert (D1 : (x + ppb) / ppb = x / ppb + 1) by (clear - HB; destruct HB as [(-> & ->)|(-> & ->)]; lia).
    assert (C : x mod 8 + ppb < 8 \/ x mod 8 + ppb = 8) by (clear - HB HM Hx; destruct HB as [(-> & ->)|(-> & ->)]; lia). destruct C as [C|C].
    + rewrite shift_bit by lia. assert (P : 0 < 2 ^ (7 - (x mod 8 + ppb))) by (apply Z.pow_pos_nonneg; lia). replace (2 ^ (7 - (x mod 8 + ppb)) =? 0) with false by lia. assert (D2 : (x + ppb) / 8 = x / 8 /\ (x + ppb) mod 8 = x mod 8 + ppb) by (clear - C Hx Ht; lia). rewrite D1, (proj1 D2), (proj2 D2). f_equal; lia.
    + rewrite shift_out by lia. change (0 =? 0) with true. cbv iota. assert (D2 : (x + ppb) / 8 = x / 8 + 1 /\ (x + ppb) mod 8 = 0) by (clear - C Hx Ht; lia). rewrite D1, (proj1 D2), (proj2 D2). change (2 ^ (7 - 0)) with 128. f_equal; lia.
Qed.
Hypothesis (NC : forall x y ch, 0 <= x < W -> 0 <= y < H -> 0 <= ch < 3 -> new (y * W + x) ch = geti pl (geti dat (y * S + x * b / 8) / 2 ^ (8 - b - x * b mod 8) mod 2 ^ b * 4 + ch)).
Lemma pixel_lt : forall x y, 0 <= x < W -> 0 <= y < H -> 0 <= y * W + x < W * H.
Proof. clear - HW. intros x y Hx Hy. assert (0 <= y * W) by (apply Z.mul_nonneg_nonneg; lia). assert ((y + 1) * W <= H * W) by (apply Z.mul_le_mono_nonneg_r; lia). lia. Qed.
(** what a loop does from the byte at [x], [y] on *)
Definition goes_on (f : Z -> paint -> res paint) (x y : Z) (d : list Z) : Prop := exists s, f ((y * W + x) * 4) (mid x y 0 d) = Ok s /\ painted (W * H) (PD s).
Lemma go_end : forall (f : Z -> paint -> res paint) x y t d, 0 <= x -> 0 <= y < H -> 1 <= t -> x mod ppb = 0 -> t <= ppb -> x + t <= W -> (x + t = W \/ t = ppb) -> painted (y * W + (x + t)) d ->
  (forall x' y' d', 0 <= x' < W -> x' mod ppb = 0 -> 0 <= y' <= H -> (y' = H -> x' = 0) -> y' * W + x' = y * W + (x + t) -> painted (y' * W + x') d' -> goes_on f x' y' d') ->
  exists s, f ((y * W + (x + t)) * 4) (line_end W pad apad (mid x y t d)) = Ok s /\ painted (W * H) (PD s).
Proof.
  intros f x y t d Hx Hy Ht HM Htp HX HT P GO. rewrite end_ok by auto. destruct (x + t =? W) eqn:EW.
  - assert (E : (y + 1) * W + 0 = y * W + (x + t)) by (clear - EW; lia). rewrite <- E. apply (GO 0 (y + 1) d); [clear - HW; lia|reflexivity|clear - Hy; lia|reflexivity|exact E|rewrite E; exact P].
  - apply (GO (x + t) y d); [clear - EW HX Hx Ht; lia| |clear - Hy; lia|clear - Hy; lia|reflexivity|exact P]. assert (ET : t = ppb) by (clear - EW HT; lia). rewrite ET. clear - HB HM Hx. destruct HB as [(-> & ->)|(-> & ->)]; lia.
Qed.
Lemma done : forall (f : Z -> paint -> res paint) x d, (forall s, f (W * H * 4) s = Ok s) -> x = 0 -> painted (H * W + x) d -> goes_on f x H d.
Proof. clear. intros f x d F -> P. unfold goes_on. replace ((H * W + 0) * 4) with (W * H * 4) by ring. rewrite F. eexists. split; [reflexivity|]. cbn [PD mid]. replace (W * H) with (H * W + 0) by ring. exact P. Qed.
Lemma loop4 : b = 4 -> ppb = 2 -> forall fuel x y d, 0 <= x < W -> x mod ppb = 0 -> 0 <= y <= H -> (y = H -> x = 0) -> painted (y * W + x) d -> W * H - (y * W + x) <= Z.of_nat fuel ->
  goes_on (Paint4 fuel c W pad apad (W * H * 4)) x y d.
Proof.
  intros E4 E2. induction fuel as [|fuel IH]; intros x y d Hx HM Hy HE P HF.
  - destruct (Z.eq_dec y H) as [-> |NE]; [|assert (Q := pixel_lt x y Hx ltac:(clear - NE Hy; lia)); clear - Q HF; lia]. apply done; auto. intros s. cbn [Paint4]. rewrite Z.ltb_irrefl. reflexivity.
  - destruct (Z.eq_dec y H) as [-> |NE]; [apply done; auto; intros s; cbn [Paint4]; rewrite Z.ltb_irrefl; reflexivity|].
    assert (Hy' : 0 <= y < H) by (clear - NE Hy; lia). assert (Q := pixel_lt x y Hx Hy'). unfold goes_on. cbn [Paint4]. replace ((y * W + x) * 4 <? W * H * 4) with true by (clear - Q; lia).
    change (PK (mid x y 0 d)) with (y * S + x / ppb). cbn [CData rdp]. assert (ID := in_data x y Hx Hy'). rewrite rd_ok by exact ID. cbn [bind]. assert (B := BD _ ID). set (v := geti dat (y * S + x / ppb)) in *.
    assert (V1 : forall ch, 0 <= ch < 3 -> new (y * W + (x + 0)) ch = geti pl (v / 16 * 4 + ch)).
    { intros ch Hc. rewrite Z.add_0_r. rewrite NC by auto. rewrite E4. rewrite E2 in HM. replace (x * 4 / 8) with (x / ppb) by (rewrite E2; clear; lia). replace (8 - 4 - x * 4 mod 8) with 4 by (clear - HM; lia). fold v. rewrite (Z.mod_small (v / 2 ^ 4)) by (change (2 ^ 4) with 16; clear - B; lia). reflexivity. }
    rewrite E2 in HM. destruct (idx_ok x y 0 d (v / 16) ltac:(clear - Hx; lia) Hy' ltac:(clear; lia) ltac:(clear - Hx; lia) ltac:(clear - HM Hx; lia) ltac:(rewrite Z.add_0_r; exact P) ltac:(rewrite E4; change (2 ^ 4) with 16; clear - B; lia) V1) as (d1 & X1 & P1). rewrite Z.add_0_r in X1, P1. rewrite X1. cbn [bind].
    change (PX (mid x y (0 + 1) d1)) with (x + 1). change (0 + 1) with 1. destruct (x + 1 <? W) eqn:E1.
    + assert (V2 : forall ch, 0 <= ch < 3 -> new (y * W + (x + 1)) ch = geti pl (v mod 16 * 4 + ch)).
      { intros ch Hc. rewrite NC by (auto; clear - Hx E1; lia). rewrite E4. replace ((x + 1) * 4 / 8) with (x / ppb) by (rewrite E2; clear - HM; lia). replace (8 - 4 - (x + 1) * 4 mod 8) with 0 by (clear - HM; lia). fold v. rewrite Z.pow_0_r, Z.div_1_r. reflexivity. }
      destruct (idx_ok x y 1 d1 (v mod 16) ltac:(clear - Hx; lia) Hy' ltac:(clear; lia) ltac:(clear - E1; lia) ltac:(clear - HM Hx; lia) ltac:(rewrite Z.add_assoc; exact P1) ltac:(rewrite E4; change (2 ^ 4) with 16; clear - B; lia) V2) as (d2 & X2 & P2).
      replace ((y * W + x) * 4 + 4) with ((y * W + (x + 1)) * 4) by (clear; lia). rewrite X2. cbn [bind]. change (1 + 1) with 2. replace ((y * W + x) * 4 + 8) with ((y * W + (x + 2)) * 4) by (clear; lia).
      apply (go_end (Paint4 fuel c W pad apad (W * H * 4)) x y 2 d2); [clear - Hx; lia|exact Hy'|clear; lia|rewrite E2; exact HM|rewrite E2; clear; lia|clear - E1; lia|right; rewrite E2; reflexivity|replace (y * W + (x + 2)) with (y * W + (x + 1) + 1) by (clear; lia); exact P2|].
      intros x' y' d' A1 A2 A3 A4 A5 A6. apply IH; auto. clear - A5 HF. lia.
    + replace ((y * W + x) * 4 + 4) with ((y * W + (x + 1)) * 4) by (clear; lia).
      apply (go_end (Paint4 fuel c W pad apad (W * H * 4)) x y 1 d1); [clear - Hx; lia|exact Hy'|clear; lia|rewrite E2; exact HM|rewrite E2; clear; lia|clear - Hx; lia|left; clear - Hx E1; lia|rewrite Z.add_assoc; exact P1|].
      intros x' y' d' A1 A2 A3 A4 A5 A6. apply IH; auto. clear - A5 HF. lia.
Qed.
Lemma bits_ok : b = 1 -> ppb = 8 -> forall k x y t d, 0 <= x < W -> x mod 8 = 0 -> 0 <= y < H -> Z.of_nat k = 8 - t -> 0 <= t <= 8 -> x + t <= W -> painted (y * W + (x + t)) d ->
  exists t' d', Bits k c W (geti dat (y * S + x / ppb)) (Z.shiftr 128 t) ((y * W + (x + t)) * 4) (mid x y t d) = Ok ((y * W + (x + t')) * 4, mid x y t' d') /\ painted (y * W + (x + t')) d' /\ t <= t' <= 8 /\ x + t' <= W /\ (x + t' = W \/ t' = 8).
Proof.
  intros E1 E8. induction k as [|k IH]; intros x y t d Hx HM Hy Hk Ht HX P.
  - exists t, d. split; [reflexivity|]. split; [exact P|]. clear - Hk Ht HX. lia.
  - cbn [Bits]. change (PX (mid x y t d)) with (x + t). destruct (x + t <? W) eqn:E; [|exists t, d; split; [reflexivity|]; split; [exact P|]; clear - E Ht HX; lia].
    set (v := geti dat (y * S + x / ppb)) in *. assert (T8 : t < 8) by (clear - Hk; lia).
    assert (SH : Z.shiftr 128 t = 2 ^ (7 - t)) by (assert (SB := shift_bit 0 t ltac:(clear - Ht; lia) ltac:(change (0 mod 8) with 0; clear - T8; lia)); change (7 - 0 mod 8) with 7 in SB; change (2 ^ 7) with 128 in SB; exact SB).
    assert (EI : (if Z.land v (Z.shiftr 128 t) =? 0 then 0 else 1) = v / 2 ^ (7 - t) mod 2).
    { rewrite SH. assert (HBT := has_bit v (7 - t) ltac:(clear - T8; lia)). unfold has in HBT. assert (TS := Z.testbit_spec' v (7 - t) ltac:(clear - T8; lia)). rewrite <- TS, <- HBT. destruct (Z.land v (2 ^ (7 - t)) =? 0); reflexivity. }
    rewrite EI.
    assert (V : forall ch, 0 <= ch < 3 -> new (y * W + (x + t)) ch = geti pl (v / 2 ^ (7 - t) mod 2 * 4 + ch)).
    { intros ch Hc. rewrite NC by (auto; clear - Hx Ht E; lia). rewrite E1. rewrite Z.mul_1_r. replace ((x + t) / 8) with (x / ppb) by (rewrite E8; clear - HM Ht T8; lia). replace (8 - 1 - (x + t) mod 8) with (7 - t) by (clear - HM Ht T8; lia). fold v. rewrite Z.pow_1_r. reflexivity. }
    destruct (idx_ok x y t d (v / 2 ^ (7 - t) mod 2) ltac:(clear - Hx; lia) Hy ltac:(clear - Ht; lia) ltac:(clear - E; lia) ltac:(clear - HM T8; lia) P ltac:(rewrite E1; apply Z.mod_pos_bound; reflexivity) V) as (d1 & X1 & P1). rewrite X1. cbn [bind].
    replace (Z.shiftr (Z.shiftr 128 t) 1) with (Z.shiftr 128 (t + 1)) by (symmetry; apply Z.shiftr_shiftr; clear; lia). replace ((y * W + (x + t)) * 4 + 4) with ((y * W + (x + (t + 1))) * 4) by (clear; lia).
    destruct (IH x y (t + 1) d1 Hx HM Hy ltac:(clear - Hk; lia) ltac:(clear - Ht T8; lia) ltac:(clear - E; lia)) as (t' & d' & X & P' & A1 & A2 & A3); [replace (y * W + (x + (t + 1))) with (y * W + (x + t) + 1) by (clear; lia); exact P1|].
    exists t', d'. split; [exact X|]. split; [exact P'|]. split; [clear - A1; lia|]. split; [exact A2|exact A3].
Qed.
Lemma loop1 : b = 1 -> ppb = 8 -> forall fuel x y d, 0 <= x < W -> x mod ppb = 0 -> 0 <= y <= H -> (y = H -> x = 0) -> painted (y * W + x) d -> W * H - (y * W + x) <= Z.of_nat fuel ->
  goes_on (Paint1 fuel c W pad apad (W * H * 4)) x y d.
Proof.
  intros E1 E8. induction fuel as [|fuel IH]; intros x y d Hx HM Hy HE P HF.
  - destruct (Z.eq_dec y H) as [-> |NE]; [|assert (Q := pixel_lt x y Hx ltac:(clear - NE Hy; lia)); clear - Q HF; lia]. apply done; auto. intros s. cbn [Paint1]. rewrite Z.ltb_irrefl. reflexivity.
  - destruct (Z.eq_dec y H) as [-> |NE]; [apply done; auto; intros s; cbn [Paint1]; rewrite Z.ltb_irrefl; reflexivity|].
    assert (Hy' : 0 <= y < H) by (clear - NE Hy; lia). assert (Q := pixel_lt x y Hx Hy'). unfold goes_on. cbn [Paint1]. replace ((y * W + x) * 4 <? W * H * 4) with true by (clear - Q; lia).
    change (PK (mid x y 0 d)) with (y * S + x / ppb). cbn [CData rdp]. assert (ID := in_data x y Hx Hy'). rewrite rd_ok by exact ID. cbn [bind].
    destruct (bits_ok E1 E8 8 x y 0 d Hx ltac:(rewrite <- E8; exact HM) Hy' eq_refl ltac:(clear; lia) ltac:(clear - Hx; lia) ltac:(rewrite Z.add_0_r; exact P)) as (t & d1 & X & P1 & A1 & A2 & A3). change (Z.shiftr 128 0) with 128 in X. rewrite Z.add_0_r in X. rewrite X. cbn [bind].
    assert (T1 : 1 <= t) by (clear - A1 A2 A3 Hx; lia).
    apply (go_end (Paint1 fuel c W pad apad (W * H * 4)) x y t d1); [clear - Hx; lia|exact Hy'|exact T1|exact HM|rewrite E8; clear - A1; lia|exact A2|rewrite E8; exact A3|exact P1|].
    intros x' y' d' B1 B2 B3 B4 B5 B6. apply IH; auto. clear - B5 HF T1. lia.
Qed.
End Low.
