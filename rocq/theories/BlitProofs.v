(** Proofs about blitting. *)
From Coq Require Import ZArith List Lia Bool QArith Qround Lqa.
From Verif Require Import Base Enums Utility Image ImageSpec Flip FlipProofs FlipProps Scatter PixelsProofs Elem ChannelsProps2 Float ConvBuff ConvProps Blit.
Import ListNotations.
Open Scope Z_scope.

(** Byte [j] of [d'] is [g] of byte [j] of [d] wherever [W j g], and nothing else changed. *)
Definition gstep (W : Z -> (Z -> Z) -> Prop) (d d' : list Z) : Prop :=
  zlen d' = zlen d /\
  (forall j g, W j g -> geti d' j = g (geti d j)) /\
  (forall j, 0 <= j -> (forall g, ~ W j g) -> geti d' j = geti d j).

Lemma gstep_seq : forall (W1 W2 : Z -> (Z -> Z) -> Prop) d d1 d2,
  gstep W1 d d1 -> gstep W2 d1 d2 -> (forall j g g', W1 j g -> W2 j g' -> False) ->
  (forall j g, W1 j g \/ W2 j g -> 0 <= j) ->
  gstep (fun j g => W1 j g \/ W2 j g) d d2.
Proof.
  intros W1 W2 d d1 d2 (A1 & A2 & A3) (B1 & B2 & B3) Hd Hp. split; [lia|]. split.
  - intros j g [H|H].
    + rewrite B3; [apply A2; auto|eapply Hp; eauto|]. intros g' H'. eapply Hd; eauto.
    + rewrite (B2 j g H). f_equal. apply A3; [eapply Hp; eauto|]. intros g' H'. eapply Hd; eauto.
  - intros j Hj Hn. rewrite B3; [apply A3; auto; intros v Hv; apply (Hn v); auto|auto|]. intros v Hv. apply (Hn v). auto.
Qed.
Lemma gstep_ext : forall (W W' : Z -> (Z -> Z) -> Prop) d d', gstep W d d' -> (forall j v, W j v <-> W' j v) -> gstep W' d d'.
Proof.
  intros W W' d d' (H1 & H2 & H3) E. split; auto. split.
  - intros j v Hw. apply H2, E, Hw.
  - intros j Hj Hn. apply H3; auto. intros v Hw. apply (Hn v), E, Hw.
Qed.
Lemma gstep_loop : forall (W : Z -> Z -> (Z -> Z) -> Prop) (I : list Z -> Prop) N body n d0,
  zlen d0 = N -> 0 <= n -> I d0 ->
  (forall k d, 0 <= k < n -> zlen d = N -> I d -> exists d', body k d = Ok d' /\ gstep (W k) d d' /\ I d') ->
  (forall k k' j v v', 0 <= k < n -> 0 <= k' < n -> W k j v -> W k' j v' -> k = k') ->
  (forall k j v, 0 <= k < n -> W k j v -> 0 <= j) ->
  exists d', loop 0 n body d0 = Ok d' /\ gstep (fun j v => exists k, 0 <= k < n /\ W k j v) d0 d' /\ I d'.
Proof.
  intros W I N body n d0 HN Hn HI Hb Hdis Hpos.
  destruct (loop_rule _ (fun m d => gstep (fun j v => exists k, 0 <= k < m /\ W k j v) d0 d /\ I d) 0 n body d0) as (d' & E & H); auto.
  - split; auto. split; auto. split; auto. intros j v (k & Hk & _). lia.
  - intros m d Hm (H & HId). destruct (Hb m d) as (d' & E' & H' & HI'); auto.
    { destruct H as [H _]. lia. }
    exists d'. split; auto. split; auto. eapply gstep_ext.
    + apply (gstep_seq (fun j v => exists k, 0 <= k < m /\ W k j v) (W m) d0 d d'); auto.
      * intros j v v' (k & Hk & Hw) Hw'. assert (k = m) by (eapply (Hdis k m); eauto; lia). lia.
      * intros j v [(k & Hk & Hw)|Hw]; [eapply (Hpos k)|eapply (Hpos m)]; eauto; lia.
    + intros j v; split.
      * intros [(k & Hk & Hw)|Hw]; [exists k; split; auto; lia|exists m; split; auto; lia].
      * intros (k & Hk & Hw). destruct (Z.eq_dec k m); [subst; auto|left; exists k; split; auto; lia].
  - exists d'. split; auto.
Qed.
Lemma gstep_wr : forall d i v, 0 <= i < zlen d -> exists d', wr d i v = Ok d' /\ gstep (fun j g => j = i /\ forall o, g o = v) d d'.
Proof.
  intros d i v Hi. rewrite wr_ok by lia. eexists; split; [reflexivity|].
  split; [apply zlen_upd; lia|]. split.
  - intros j w [-> E]. rewrite geti_upd by lia. rewrite Z.eqb_refl, E. reflexivity.
  - intros j Hj Hn. rewrite geti_upd by lia. destruct (j =? i) eqn:E; auto. exfalso. apply (Hn (fun _ => v)). split; auto. lia.
Qed.

(** Three nested loops that change [m] bytes of every pixel of a box *)
Lemma box_g : forall (F : Z -> Z -> Z -> Z -> Z -> Z) (I : list Z -> Prop) N P BS SP DX DY DZ Wd Hd w h d m body buf,
  0 < P -> BS = Wd * P -> SP = BS * Hd -> 0 <= m <= P -> 0 <= DX -> 0 <= DY -> 0 <= DZ ->
  0 <= w -> 0 <= h -> 0 <= d -> w + DX <= Wd -> h + DY <= Hd -> zlen buf = N -> I buf ->
  (forall z y x b, 0 <= z < d -> 0 <= y < h -> 0 <= x < w -> zlen b = N -> I b ->
     exists b', body z y x b = Ok b' /\ gstep (fun j g => exists c, 0 <= c < m /\ j = (z + DZ) * SP + (y + DY) * BS + (x + DX) * P + c /\ forall o, g o = F z y x c o) b b' /\ I b') ->
  exists b', loop 0 d (fun z => loop 0 h (fun y => loop 0 w (fun x => body z y x))) buf = Ok b' /\ I b' /\
    gstep (fun j g => exists z y x c, 0 <= z < d /\ 0 <= y < h /\ 0 <= x < w /\ 0 <= c < m /\
      j = (z + DZ) * SP + (y + DY) * BS + (x + DX) * P + c /\ forall o, g o = F z y x c o) buf b'.
Proof.
  intros F I N P BS SP DX DY DZ Wd Hd w h d m body buf HP HB HS Hm HDX HDY HDZ Hw Hh Hd0 Hwx Hhy HN HI Hb.
  assert (PX : forall x c, 0 <= x < w -> 0 <= c < m -> 0 <= (x + DX) * P + c < BS).
  { intros x c Hx Hc. assert ((x + DX + 1) * P <= Wd * P) by (apply Z.mul_le_mono_nonneg_r; lia). assert (0 <= (x + DX) * P) by (apply Z.mul_nonneg_nonneg; lia). lia. }
  assert (PY : forall y x c, 0 <= y < h -> 0 <= x < w -> 0 <= c < m -> 0 <= (y + DY) * BS + ((x + DX) * P + c) < SP).
  { intros y x c Hy Hx Hc. assert (K := PX x c Hx Hc). assert ((y + DY + 1) * BS <= Hd * BS) by (apply Z.mul_le_mono_nonneg_r; lia). assert (0 <= (y + DY) * BS) by (apply Z.mul_nonneg_nonneg; lia). lia. }
  assert (PZ : forall z, 0 <= z -> 0 <= w -> 0 <= SP -> 0 <= (z + DZ) * SP) by (intros; apply Z.mul_nonneg_nonneg; lia).
  assert (UX : forall x x' c c', 0 <= c < m -> 0 <= c' < m -> (x + DX) * P + c = (x' + DX) * P + c' -> x = x').
  { intros x x' c c' Hc Hc' E. destruct (radix2 P (x + DX) c (x' + DX) c'); lia. }
  destruct (gstep_loop (fun z j g => exists y x c, 0 <= y < h /\ 0 <= x < w /\ 0 <= c < m /\ j = (z + DZ) * SP + (y + DY) * BS + (x + DX) * P + c /\ forall o, g o = F z y x c o)
     I N (fun z => loop 0 h (fun y => loop 0 w (fun x => body z y x))) d buf) as (b' & E & G & HI'); auto.
  - intros z b Hz Lb Ib.
    destruct (gstep_loop (fun y j g => exists x c, 0 <= x < w /\ 0 <= c < m /\ j = (z + DZ) * SP + (y + DY) * BS + (x + DX) * P + c /\ forall o, g o = F z y x c o)
       I N (fun y => loop 0 w (fun x => body z y x)) h b) as (b1 & E1 & G1 & I1); auto.
    + intros y b1 Hy Lb1 Ib1.
      destruct (gstep_loop (fun x j g => exists c, 0 <= c < m /\ j = (z + DZ) * SP + (y + DY) * BS + (x + DX) * P + c /\ forall o, g o = F z y x c o)
         I N (fun x => body z y x) w b1) as (b2 & E2 & G2 & I2); auto.
      * intros k k' j v v' Hk Hk' (c & Hc & E2 & _) (c' & Hc' & E2' & _). apply (UX k k' c c'); lia.
      * intros k j v Hk (c & Hc & E2 & _). assert (K := PY y k c Hy Hk Hc). assert (K2 := PZ z ltac:(lia) Hw ltac:(lia)). lia.
      * exists b2. split; [exact E2|]. split; [|exact I2]. eapply gstep_ext; [exact G2|]. intros j g. split.
        -- intros (x & Hx & c & Hc & Hj & Hg). exists x, c. auto.
        -- intros (x & c & Hx & Hc & Hj & Hg). exists x. split; auto. exists c. auto.
    + intros k k' j v v' Hk Hk' (x & c & Hx & Hc & E2 & _) (x' & c' & Hx' & Hc' & E2' & _).
      assert (K := PX x c Hx Hc). assert (K' := PX x' c' Hx' Hc'). destruct (radix2 BS (k + DY) ((x + DX) * P + c) (k' + DY) ((x' + DX) * P + c')); lia.
    + intros k j v Hk (x & c & Hx & Hc & E2 & _). assert (K := PY k x c Hk Hx Hc). assert (K2 := PZ z ltac:(lia) Hw ltac:(lia)). lia.
    + exists b1. split; [exact E1|]. split; [|exact I1]. eapply gstep_ext; [exact G1|]. intros j g. split.
      * intros (y & Hy & x & c & Hx & Hc & Hj & Hg). exists y, x, c. repeat (split; auto).
      * intros (y & x & c & Hy & Hx & Hc & Hj & Hg). exists y. split; auto. exists x, c. auto.
  - intros k k' j v v' Hk Hk' (y & x & c & Hy & Hx & Hc & E2 & _) (y' & x' & c' & Hy' & Hx' & Hc' & E2' & _).
    assert (K := PY y x c Hy Hx Hc). assert (K' := PY y' x' c' Hy' Hx' Hc').
    destruct (radix2 SP (k + DZ) ((y + DY) * BS + ((x + DX) * P + c)) (k' + DZ) ((y' + DY) * BS + ((x' + DX) * P + c'))); lia.
  - intros k j v Hk (y & x & c & Hy & Hx & Hc & E2 & _). assert (K := PY y x c Hy Hx Hc). assert (K2 := PZ k ltac:(lia) Hw ltac:(lia)). lia.
  - exists b'. split; [exact E|]. split; [exact HI'|]. eapply gstep_ext; [exact G|]. intros j g. split.
    + intros (z & Hz & y & x & c & Hy & Hx & Hc & Hj & Hg). exists z, y, x, c. repeat (split; auto).
    + intros (z & y & x & c & Hz & Hy & Hx & Hc & Hj & Hg). exists z. split; auto. exists y, x, c. repeat (split; auto).
Qed.

(** ** Blending of bytes *)
Lemma abs_err_p2 : forall x k, -100 <= k -> (0 <= x)%Q -> (x < p2 k)%Q -> (x - p2 (k - 25) <= val (rnd 24 (-149) x) <= x + p2 (k - 25))%Q.
Proof.
  intros x k Hk H0 H1. destruct (Qlt_le_dec 0 x) as [X|X].
  - assert (E := rnd_err 24 (-149) x X). cbv zeta in E. set (e := Z.max _ _) in *.
    assert (K : e <= k - 24).
    { unfold e. destruct (expo_spec x X) as (A & _). assert (L : (p2 (expo x) < p2 k)%Q) by lra. apply p2_lt_inv in L. lia. }
    assert (P : (p2 e <= p2 (k - 24))%Q) by (apply p2_le; lia). assert (D : (p2 (k - 24) == 2 * p2 (k - 25))%Q).
    { replace (k - 24) with (k - 25 + 1) by lia. apply p2_1. } lra.
  - rewrite rnd_0 by auto. unfold val. cbn [fst snd]. change (inject_Z 0) with 0%Q. assert (Z0 : (0 <= p2 (k - 25))%Q) by (apply Qlt_le_weak, p2_pos). lra.
Qed.

(** The new byte is the weighted mean, truncated up to the error of single precision. *)
Lemma blend_ok : forall a s d, 0 <= a <= 255 -> 0 <= s <= 255 -> 0 <= d <= 255 ->
  exists r, blend_byte a s d = Ok r /\ 0 <= r <= 255 /\ (a = 255 -> r = s) /\ (a = 0 -> r = d) /\
    let y := (inject_Z (s * a + d * (255 - a)) / 255)%Q in (y - (1001 # 1000) <= inject_Z r <= y + (1 # 1000))%Q.
Proof.
  intros a s d Ha Hs Hd.
  assert (I : forall v, 0 <= v <= 255 -> (0 <= inject_Z v <= 255)%Q).
  { intros v Hv. split; [change 0%Q with (inject_Z 0)|change 255%Q with (inject_Z 255)]; rewrite <- Zle_Qle; lia. }
  assert (Ia := I a Ha). assert (Is := I s Hs). assert (Id := I d Hd).
  unfold blend_byte. cbv zeta.
  assert (A0 : (0 <= inject_Z a / 255 <= 1)%Q) by (split; [apply Qle_shift_div_l|apply Qle_shift_div_r]; lra).
  assert (EF := abs_err_p2 (inject_Z a / 255) 1 ltac:(lia) ltac:(lra) ltac:(change (p2 1) with 2%Q; lra)).
  assert (F1 : (0 <= val (rnd 24 (-149) (inject_Z a / 255)) <= 1)%Q).
  { split; [apply rnd_nonneg; [lia|lra]|]. apply rnd_le_rep; try lia; try lra. exists 1, 0. repeat split; try lia. }
  assert (FX : a = 255 -> (val (rnd 24 (-149) (inject_Z a / 255)) == 1)%Q).
  { intros ->. rewrite (rnd_comp 24 (-149) (inject_Z 255 / 255) 1); [|lia|vm_compute; discriminate|vm_compute; reflexivity]. apply rnd_exact; [lia|vm_compute; discriminate|]. exists 1, 0. repeat split; try lia. }
  assert (FZ : a = 0 -> (val (rnd 24 (-149) (inject_Z a / 255)) == 0)%Q) by (intros ->; vm_compute; reflexivity).
  set (F := val (rnd 24 (-149) (inject_Z a / 255))) in *. clearbody F.
  assert (EB := abs_err_p2 (1 - F) 1 ltac:(lia) ltac:(lra) ltac:(change (p2 1) with 2%Q; lra)).
  assert (B1 : (0 <= val (rnd 24 (-149) (1 - F)) <= 1)%Q).
  { split; [apply rnd_nonneg; [lia|lra]|]. apply rnd_le_rep; try lia; try lra. exists 1, 0. repeat split; try lia. }
  assert (BX : (F == 1)%Q -> (val (rnd 24 (-149) (1 - F)) == 0)%Q) by (intros E; rewrite rnd_0 by lra; reflexivity).
  assert (BZ : (F == 0)%Q -> (val (rnd 24 (-149) (1 - F)) == 1)%Q).
  { intros E. rewrite (rnd_exact 24 (-149) (1 - F)); [lra|lia|lra|]. exists 1, 0. repeat split; try lia. change (inject_Z 1) with 1%Q. change (p2 0) with 1%Q. lra. }
  set (B := val (rnd 24 (-149) (1 - F))) in *. clearbody B.
  set (S := inject_Z s) in *. set (D := inject_Z d) in *.
  assert (SF : (0 <= S * F <= 255)%Q) by nra. assert (DB : (0 <= D * B <= 255)%Q) by nra.
  assert (ES := abs_err_p2 (S * F) 8 ltac:(lia) ltac:(lra) ltac:(change (p2 8) with 256%Q; lra)).
  assert (ED := abs_err_p2 (D * B) 8 ltac:(lia) ltac:(lra) ltac:(change (p2 8) with 256%Q; lra)).
  assert (NS := rnd_nonneg 24 (-149) (S * F) ltac:(lia) ltac:(lra)). assert (ND := rnd_nonneg 24 (-149) (D * B) ltac:(lia) ltac:(lra)).
  assert (RS : forall v, 0 <= v <= 255 -> rep 24 (-149) (inject_Z v)).
  { intros v Hv. exists v, 0. repeat split; try lia. change (p2 0) with 1%Q. ring. }
  assert (XS : (F == 1)%Q -> (val (rnd 24 (-149) (S * F)) == S)%Q).
  { intros E. rewrite (rnd_comp 24 (-149) (S * F) S); [|lia|lra|rewrite E; ring]. apply rnd_exact; [lia|lra|apply RS; auto]. }
  assert (XD : (B == 1)%Q -> (val (rnd 24 (-149) (D * B)) == D)%Q).
  { intros E. rewrite (rnd_comp 24 (-149) (D * B) D); [|lia|lra|rewrite E; ring]. apply rnd_exact; [lia|lra|apply RS; auto]. }
  assert (ZS : (F == 0)%Q -> (val (rnd 24 (-149) (S * F)) == 0)%Q) by (intros E; rewrite rnd_0 by (rewrite E; lra); reflexivity).
  assert (ZD : (B == 0)%Q -> (val (rnd 24 (-149) (D * B)) == 0)%Q) by (intros E; rewrite rnd_0 by (rewrite E; lra); reflexivity).
  set (p := val (rnd 24 (-149) (S * F))) in *. set (q := val (rnd 24 (-149) (D * B))) in *. clearbody p q.
  change (p2 (8 - 25)) with (1 # 131072)%Q in *. change (p2 (1 - 25)) with (1 # 16777216)%Q in *.
  assert (ER := abs_err_p2 (p + q) 9 ltac:(lia) ltac:(lra) ltac:(change (p2 9) with 512%Q; lra)). change (p2 (9 - 25)) with (1 # 65536)%Q in ER.
  assert (RX : forall v, 0 <= v <= 255 -> (p + q == inject_Z v)%Q -> (val (rnd 24 (-149) (p + q)) == inject_Z v)%Q).
  { intros v Hv E. rewrite (rnd_comp 24 (-149) (p + q) (inject_Z v)); [|lia|lra|exact E]. apply rnd_exact; [lia|apply I; auto|apply RS; auto]. }
  assert (RN := rnd_nonneg 24 (-149) (p + q) ltac:(lia) ltac:(lra)).
  set (r := val (rnd 24 (-149) (p + q))) in *. clearbody r.
  assert (Y : (inject_Z (s * a + d * (255 - a)) / 255 == S * (inject_Z a / 255) + D * (1 - inject_Z a / 255))%Q).
  { rewrite inject_Z_plus, !inject_Z_mult. unfold Zminus. rewrite inject_Z_plus, inject_Z_opp. fold S D. change (inject_Z 255) with 255%Q. field. }
  assert (YB : (S * (inject_Z a / 255) + D * (1 - inject_Z a / 255) <= 255)%Q) by nra.
  set (y := (inject_Z (s * a + d * (255 - a)) / 255)%Q) in *. set (al := (inject_Z a / 255)%Q) in *. clearbody y al.
  assert (HSs : (S == inject_Z s)%Q) by reflexivity. assert (HDd : (D == inject_Z d)%Q) by reflexivity. clearbody S D. assert (E1 : (S * al - (1 # 65536) <= S * F <= S * al + (1 # 65536))%Q) by (clear - EF Is; nra).
  assert (E3 : (1 - al - (2 # 16777216) <= B <= 1 - al + (2 # 16777216))%Q) by (clear - EF EB; lra).
  assert (E2 : (D * (1 - al) - (1 # 16384) <= D * B <= D * (1 - al) + (1 # 16384))%Q) by (clear - E3 Id; nra).
  assert (RY : (y - (1 # 1000) <= r <= y + (1 # 1000))%Q) by (clear - Y ES ED ER E1 E2; lra).
  assert (FL := Qfloor_le r). assert (FU := Qlt_floor r). rewrite inject_Z_plus in FU. change (inject_Z 1) with 1%Q in FU.
  assert (R0 : 0 <= Qfloor r) by (apply (Qfloor_resp_le 0 r RN)).
  assert (R1 : Qfloor r < 256) by (rewrite Zlt_Qlt; change (inject_Z 256) with 256%Q; lra).
  exists (Qfloor r). replace (Qfloor r <? 256) with true by lia. split; [reflexivity|]. split; [lia|]. split; [|split].
  - intros E. specialize (FX E). rewrite (Qfloor_comp r (inject_Z s)); [apply Qfloor_Z|]. apply RX; auto. rewrite (XS FX), (ZD (BX FX)). lra.
  - intros E. specialize (FZ E). rewrite (Qfloor_comp r (inject_Z d)); [apply Qfloor_Z|]. apply RX; auto. rewrite (ZS FZ), (XD (BZ FZ)). lra.
  - lra.
Qed.
