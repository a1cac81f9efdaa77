(** The three decoders put the specified value in every pixel. *)
From Coq Require Import ZArith List Lia Bool.
From Verif Require Import Base Enums Utility Image ImageSpec Slices Elem BitLemmas IluMosaic DxtSpec Dxt DxtProofs.
Import ListNotations.
Open Scope Z_scope.

(** the end colours as this library computes them: green from six bits with [g << 2 | g >> 3]; in
    DXT1 the blue takes its low bits from the red *)
Definition green_lib (w : Z) : Z := Z.lor (4 * green6 w) (green6 w / 8).
Definition blue1_lib (w : Z) : Z := 8 * blue5 w + red5 w / 4.
Definition e1 : Z -> Z -> Z := end_colour green_lib blue1_lib.
Definition e35 : Z -> Z -> Z := end_colour green_lib (fun w => wide5 (blue5 w)).

Ltac powers := repeat match goal with |- context [2 ^ ?e] => let v := eval vm_compute in (2 ^ e) in change (2 ^ e) with v end.

Lemma enum64 : forall P : Z -> bool, forallb P (map Z.of_nat (seq 0 64)) = true -> forall g, 0 <= g < 64 -> P g = true.
Proof.
  intros P HP g Hg. rewrite forallb_forall in HP. apply HP. rewrite in_map_iff. exists (Z.to_nat g). split; [lia|]. apply in_seq. lia.
Qed.
Lemma green_range : forall g, 0 <= g < 64 -> 0 <= Z.lor (4 * g) (g / 8) < 256.
Proof.
  intros g Hg. pose proof (enum64 (fun g => (0 <=? Z.lor (4 * g) (g / 8)) && (Z.lor (4 * g) (g / 8) <? 256)) ltac:(vm_compute; reflexivity) g Hg) as E. cbn beta in E. lia.
Qed.

Lemma e_range : forall w ch, 0 <= w < 65536 -> 0 <= e1 w ch < 256 /\ 0 <= e35 w ch < 256.
Proof.
  intros w ch Hw. unfold e1, e35, end_colour, green_lib, blue1_lib, wide5, red5, green6, blue5.
  pose proof (green_range (w / 32 mod 64) ltac:(lia)). destruct (ch =? 0); [lia|]. destruct (ch =? 1); lia.
Qed.

Lemma lor8 : forall a b, 0 <= b < 8 -> Z.lor (Z.shiftl a 3) b = 8 * a + b.
Proof. intros a b Hb. rewrite Z.shiftl_mul_pow2 by lia. rewrite (lor_add a b 3) by lia. change (2 ^ 3) with 8. lia. Qed.

Lemma read_colour : forall w a, 0 <= w < 65536 -> DxtcReadColor w a = C8 (e1 w 0) (e1 w 1) (e1 w 2) a.
Proof.
  intros w a Hw. unfold DxtcReadColor, e1, end_colour, green_lib, blue1_lib. cbn [Z.eqb Pos.eqb].
  assert (B : Z.land w 31 = blue5 w). { change 31 with (2 ^ 5 - 1). rewrite land_mask by lia. reflexivity. }
  assert (G : Z.shiftr (Z.land w 2016) 5 = green6 w). { rewrite Z.shiftr_land. change (Z.shiftr 2016 5) with (2 ^ 6 - 1). rewrite land_mask, Z.shiftr_div_pow2 by lia. reflexivity. }
  assert (R : Z.shiftr (Z.land w 63488) 11 = red5 w). { rewrite Z.shiftr_land. change (Z.shiftr 63488 11) with (2 ^ 5 - 1). rewrite land_mask, Z.shiftr_div_pow2 by lia. unfold red5. change (2 ^ 11) with 2048. change (2 ^ 5) with 32. lia. }
  rewrite B, G, R. rewrite !(Z.shiftr_div_pow2 (red5 w)), (Z.shiftr_div_pow2 (green6 w)) by lia. change (2 ^ 2) with 4. change (2 ^ 3) with 8.
  assert (0 <= red5 w < 32) by (unfold red5; lia). assert (0 <= green6 w < 64) by (unfold green6; lia). assert (0 <= blue5 w < 32) by (unfold blue5; lia).
  rewrite !lor8 by lia. replace (Z.shiftl (green6 w) 2) with (4 * green6 w) by (rewrite Z.shiftl_mul_pow2 by lia; change (2 ^ 2) with 4; lia).
  pose proof (green_range (green6 w) ltac:(lia)). unfold wide5. rewrite !u8_small by lia. reflexivity.
Qed.

Lemma read_colours : forall a b, 0 <= a < 256 -> 0 <= b < 256 -> DxtcReadColors a b = C8 (e35 (a + 256 * b) 0) (e35 (a + 256 * b) 1) (e35 (a + 256 * b) 2) 0.
Proof.
  intros a b Ha Hb. set (w := a + 256 * b). assert (Hw : 0 <= w < 65536) by lia. unfold DxtcReadColors, e35, end_colour, green_lib. cbn [Z.eqb Pos.eqb].
  assert (B : Z.land a 31 = blue5 w). { change 31 with (2 ^ 5 - 1). rewrite land_mask by lia. unfold blue5, w. change (2 ^ 5) with 32. lia. }
  assert (G : Z.lor (Z.shiftr (Z.land a 224) 5) (Z.shiftl (Z.land b 7) 3) = green6 w).
  { rewrite Z.shiftr_land. change (Z.shiftr 224 5) with (2 ^ 3 - 1). rewrite land_mask, Z.shiftr_div_pow2 by lia. change 7 with (2 ^ 3 - 1). rewrite land_mask by lia.
    rewrite Z.lor_comm, lor8 by (change (2 ^ 3) with 8; lia). unfold green6, w. change (2 ^ 3) with 8. change (2 ^ 5) with 32. lia. }
  assert (R : Z.shiftr (Z.land b 248) 3 = red5 w). { rewrite Z.shiftr_land. change (Z.shiftr 248 3) with (2 ^ 5 - 1). rewrite land_mask, Z.shiftr_div_pow2 by lia. unfold red5, w. change (2 ^ 3) with 8. change (2 ^ 5) with 32. lia. }
  rewrite B, G, R. rewrite (Z.shiftr_div_pow2 (red5 w)), (Z.shiftr_div_pow2 (blue5 w)), (Z.shiftr_div_pow2 (green6 w)) by lia. change (2 ^ 2) with 4. change (2 ^ 3) with 8.
  assert (0 <= red5 w < 32) by (unfold red5; lia). assert (0 <= green6 w < 64) by (unfold green6; lia). assert (0 <= blue5 w < 32) by (unfold blue5; lia).
  rewrite !lor8 by lia. replace (Z.shiftl (green6 w) 2) with (4 * green6 w) by (rewrite Z.shiftl_mul_pow2 by lia; change (2 ^ 2) with 4; lia).
  pose proof (green_range (green6 w) ltac:(lia)). unfold wide5. rewrite !u8_small by lia. reflexivity.
Qed.

Lemma select_field : forall m k, 0 <= m < 4294967296 -> 0 <= k < 16 -> Select m k = field m 2 k /\ 0 <= field m 2 k < 4.
Proof.
  intros m k Hm Hk. unfold Select, field. split; [|change (2 ^ 2) with 4; apply Z.mod_pos_bound; lia].
  assert (u32 (Z.shiftl 3 (k * 2)) = Z.shiftl 3 (k * 2)) as ->.
  { apply u32_small. rewrite Z.shiftl_mul_pow2 by lia. assert (0 < 2 ^ (k * 2)) by (apply Z.pow_pos_nonneg; lia). assert (2 ^ (k * 2) <= 2 ^ 30) by (apply Z.pow_le_mono_r; lia). change (2 ^ 30) with 1073741824 in *. lia. }
  rewrite Z.shiftr_land. rewrite Z.shiftr_shiftl_l by lia. rewrite Z.sub_diag, Z.shiftl_0_r. change 3 with (2 ^ 2 - 1). rewrite land_mask by lia.
  rewrite Z.shiftr_div_pow2 by lia. rewrite (Z.mul_comm k 2). reflexivity.
Qed.

Lemma rdn_ok : forall n c p, 0 <= p -> p + Z.of_nat n <= zlen c -> rdn c p n = Ok (number (slice c p (Z.of_nat n))).
Proof.
  induction n as [|n IH]; intros c p Hp Hl; [reflexivity|]. cbn [rdn]. rewrite rd_ok by lia. cbn [bind]. rewrite IH by lia. cbn [bind].
  replace (Z.of_nat (S n)) with (1 + Z.of_nat n) by lia. rewrite slice_split by lia.
  replace (slice c p 1) with [geti c p]. 2:{ change 1 with (1 + 0) at 1. rewrite (slice_cons c p 0) by lia. rewrite slice_0. reflexivity. }
  reflexivity.
Qed.

Lemma number_range : forall l, bytes l -> 0 <= number l < 256 ^ zlen l.
Proof.
  intros l Hl. rewrite bytes_Forall in Hl. induction Hl as [|b l Hb Hl IH]; [cbn; lia|]. rewrite zlen_cons. rewrite Z.pow_add_r by (try apply zlen_nonneg; lia). cbn [number]. change (256 ^ 1) with 256. lia.
Qed.
Lemma number_in : forall c p n, bytes c -> 0 <= p -> 0 <= n -> p + n <= zlen c -> 0 <= number (slice c p n) < 256 ^ n.
Proof. intros c p n Hc Hp Hn Hl. pose proof (number_range (slice c p n) (bytes_slice _ _ _ Hc)) as R. rewrite zlen_slice in R by lia. exact R. Qed.

Lemma wr_in : forall d o v d', wr d o v = Ok d' -> 0 <= o < zlen d.
Proof. intros d o v d' E. unfold wr, inb in E. destruct ((0 <=? o) && (0 <=? 1) && (o + 1 <=? zlen d)) eqn:Q; [lia | discriminate]. Qed.

(** the pixels of a block in a picture *)
Definition val (f : list Z -> Z -> Z -> Z) (bs : Z) (c : list Z) (W H x y z ch : Z) : Z :=
  f (blk bs c (block_of W H x y z)) (in_block x y) ch.
Lemma val_at : forall f bs c W H bx by_ z i j ch, 0 <= i < 4 -> 0 <= j < 4 ->
  val f bs c W H (bx * 4 + i) (by_ * 4 + j) z ch = f (blk bs c ((z * quads H + by_) * quads W + bx)) (4 * j + i) ch.
Proof.
  intros. unfold val, block_of, in_block. replace ((by_ * 4 + j) / 4) with by_ by lia. replace ((bx * 4 + i) / 4) with bx by lia.
  replace ((by_ * 4 + j) mod 4) with j by lia. replace ((bx * 4 + i) mod 4) with i by lia. reflexivity.
Qed.

Section Decode.
Variables (im : img) (W H D : Z) (c : list Z).
Hypothesis (HW : 0 < W) (HH : 0 < H) (HD : 0 < D) (HN : 4 * W * H * D < 4294967296).
Hypothesis (IW : Width im = W) (IH : Height im = H) (ID : Depth im = D) (IB : Bpp im = 4) (IS : Bps im = 4 * W) (IP : SizeOfPlane im = 4 * W * H).
Hypothesis (Hc : bytes c).

Lemma block_in : forall bs bx by_ z, 0 <= bs -> quads W * quads H * D * bs <= zlen c -> 0 <= bx < quads W -> 0 <= by_ < quads H -> 0 <= z < D ->
  let T := ((z * quads H + by_) * quads W + bx) * bs in 0 <= T /\ T + bs <= zlen c.
Proof using HW HH HD.
  clear - HW HH HD. intros bs bx by_ z Hbs Hl Hx Hy Hz. cbn zeta.
  assert (0 <= z * quads H + by_ <= D * quads H - 1). { assert (0 <= z * quads H) by (apply Z.mul_nonneg_nonneg; lia). assert (z * quads H <= (D - 1) * quads H) by (apply Z.mul_le_mono_nonneg_r; lia). lia. }
  assert (0 <= (z * quads H + by_) * quads W) by (apply Z.mul_nonneg_nonneg; lia).
  assert ((z * quads H + by_) * quads W <= (D * quads H - 1) * quads W) by (apply Z.mul_le_mono_nonneg_r; lia).
  set (b := (z * quads H + by_) * quads W + bx) in *. assert (Hb : 0 <= b <= D * quads H * quads W - 1) by lia.
  assert (0 <= b * bs) by (apply Z.mul_nonneg_nonneg; lia). assert (b * bs <= (D * quads H * quads W - 1) * bs) by (apply Z.mul_le_mono_nonneg_r; lia).
  split; [lia|]. replace (quads W * quads H * D * bs) with (D * quads H * quads W * bs) in Hl by ring. lia.
Qed.

Lemma code4 : forall (P : Z -> Prop) code, 0 <= code < 4 -> P 0 -> P 1 -> P 2 -> P 3 -> P code.
Proof using. clear. intros P code Hc H0 H1 H2 H3. assert (code = 0 \/ code = 1 \/ code = 2 \/ code = 3) as [-> | [-> | [-> | -> ]]] by lia; assumption. Qed.

Lemma dxt1_ok : quads W * quads H * D * 8 <= zlen c -> block_ok W H D (val (dxt1 e1) 8 c W H) 8 (block1 im c).
Proof using HW HH HD HN IW IH ID IB IS IP Hc.
  intros Hl bx by_ z S d Hx Hy Hz G. destruct (block_in 8 bx by_ z ltac:(lia) Hl Hx Hy Hz) as (T0 & T8).
  set (b := (z * quads H + by_) * quads W + bx) in *. set (T := b * 8) in *. unfold block1.
  rewrite (rdn_ok 2 c T), (rdn_ok 2 c (T + 2)), (rdn_ok 4 c (T + 4)) by lia. cbn [bind Z.of_nat Pos.of_succ_nat Pos.succ].
  pose proof (number_in c T 2 Hc ltac:(lia) ltac:(lia) ltac:(lia)) as R0. pose proof (number_in c (T + 2) 2 Hc ltac:(lia) ltac:(lia) ltac:(lia)) as R1. pose proof (number_in c (T + 4) 4 Hc ltac:(lia) ltac:(lia) ltac:(lia)) as RM.
  change (256 ^ 2) with 65536 in *. change (256 ^ 4) with 4294967296 in *.
  assert (B0 : slice (blk 8 c b) 0 2 = slice c T 2) by (unfold blk; rewrite slice_slice by lia; f_equal; lia).
  assert (B1 : slice (blk 8 c b) 2 2 = slice c (T + 2) 2) by (unfold blk; rewrite slice_slice by lia; f_equal; lia).
  assert (BM : slice (blk 8 c b) 4 4 = slice c (T + 4) 4) by (unfold blk; rewrite slice_slice by lia; f_equal; lia).
  set (w0 := number (slice c T 2)) in *. set (w1 := number (slice c (T + 2) 2)) in *. set (m := number (slice c (T + 4) 4)) in *.
  rewrite !read_colour by lia.
  match goal with |- context [put_block im _ _ _ ?cs m true d] => destruct (put_ok im W H D (val (dxt1 e1) 8 c W H) HW HH HD HN IW IH ID IB IS IP cs m true bx by_ z S d Hx Hy Hz) as (d' & E & G') end.
  - intros i j Hi Hj. cbn zeta. rewrite !val_at by auto. fold b. unfold dxt1. cbv zeta. rewrite B0, B1, BM. fold w0 w1 m. cbn [Z.eqb Pos.eqb].
    destruct (select_field m (4 * j + i) ltac:(lia) ltac:(lia)) as (-> & RF).
    pose proof (proj1 (e_range w0 0 R0)). pose proof (proj1 (e_range w0 1 R0)). pose proof (proj1 (e_range w0 2 R0)).
    pose proof (proj1 (e_range w1 0 R1)). pose proof (proj1 (e_range w1 1 R1)). pose proof (proj1 (e_range w1 2 R1)).
    generalize dependent (field m 2 (4 * j + i)). intros code RF. destruct (w1 <? w0); pattern code; match goal with |- ?P code => apply (code4 P code RF) end;
      change (Z.to_nat 0) with 0%nat; change (Z.to_nat 1) with 1%nat; change (Z.to_nat 2) with 2%nat; change (Z.to_nat 3) with 3%nat; cbn [nth c_r c_g c_b c_a third middle]; unfold four_colours, three_colours; cbn [Z.eqb Pos.eqb orb negb];
      rewrite ?u8_small by lia; repeat split; first [reflexivity | intros _; reflexivity | f_equal; lia].
  - exact G.
  - rewrite E. cbn [bind]. exists d'. split; [reflexivity|]. eapply Good_sub; [exact G'|]. unfold rows. intros x y z' ch _ [?|(? & ? & ? & _)]; auto 10.
Qed.

Lemma colours_ok : forall (f : list Z -> Z -> Z -> Z) bs b T bx by_ z S d, T = b * bs + (bs - 8) -> 8 <= bs -> 0 <= T -> T + 8 <= zlen c ->
  b = (z * quads H + by_) * quads W + bx -> 0 <= b * bs -> 0 <= bx < quads W -> 0 <= by_ < quads H -> 0 <= z < D ->
  (forall B k ch, ch < 3 -> f B k ch = four_colours e35 (number (slice B (bs - 8) 2)) (number (slice B (bs - 8 + 2) 2)) (field (number (slice B (bs - 8 + 4) 4)) 2 k) ch) ->
  Good W H D (val f bs c W H) S d ->
  exists cs m, block_colours c T = Ok (cs, m) /\ exists d', put_block im (bx * 4) (by_ * 4) z cs m false d = Ok d' /\
    Good W H D (val f bs c W H) (rows S (bx * 4) (by_ * 4) 0 4 z (fun ch => ch < 3)) d'.
Proof using HW HH HD HN IW IH ID IB IS IP Hc.
  intros f bs b T bx by_ z S d HT Hbs T0 T8 Hb Hb0 Hx Hy Hz Hf G. unfold block_colours.
  pose proof (number_in c (T + 4) 4 Hc ltac:(lia) ltac:(lia) ltac:(lia)) as RM. change (256 ^ 4) with 4294967296 in *.
  assert (R2 : forall p, 0 <= p -> p + 2 <= zlen c -> number (slice c p 2) = geti c p + 256 * geti c (p + 1)).
  { intros p Hp Hp2. change 2 with (1 + (1 + 0)). rewrite slice_cons by lia. rewrite (slice_cons c (p + 1) 0) by lia. rewrite slice_0. cbn [number]. lia. }
  pose proof (number_in c T 2 Hc ltac:(lia) ltac:(lia) ltac:(lia)) as N0. pose proof (number_in c (T + 2) 2 Hc ltac:(lia) ltac:(lia) ltac:(lia)) as N1. change (256 ^ 2) with 65536 in *.
  rewrite !rd_ok by lia. cbn [bind]. rewrite (rdn_ok 4) by lia. cbn [bind Z.of_nat Pos.of_succ_nat Pos.succ].
  assert (BR : forall k, 0 <= k < zlen c -> 0 <= geti c k < 256) by exact Hc.
  rewrite !read_colours by (apply BR; lia). replace (T + 3) with (T + 2 + 1) by lia. rewrite <- !R2 by lia.
  do 2 eexists. split; [reflexivity|].
  assert (B0 : slice (blk bs c b) (bs - 8) 2 = slice c T 2) by (unfold blk; rewrite slice_slice by lia; f_equal; lia).
  assert (B1 : slice (blk bs c b) (bs - 8 + 2) 2 = slice c (T + 2) 2) by (unfold blk; rewrite slice_slice by lia; f_equal; lia).
  assert (BM : slice (blk bs c b) (bs - 8 + 4) 4 = slice c (T + 4) 4) by (unfold blk; rewrite slice_slice by lia; f_equal; lia).
  set (w0 := number (slice c T 2)) in *. set (w1 := number (slice c (T + 2) 2)) in *. set (m := number (slice c (T + 4) 4)) in *.
  match goal with |- context [put_block im _ _ _ ?cs m false d] => destruct (put_ok im W H D (val f bs c W H) HW HH HD HN IW IH ID IB IS IP cs m false bx by_ z S d Hx Hy Hz) as (d' & E & G') end.
  - intros i j Hi Hj. cbn zeta. rewrite !val_at by auto. rewrite <- Hb. rewrite !Hf by lia. rewrite B0, B1, BM. fold w0 w1 m.
    destruct (select_field m (4 * j + i) ltac:(lia) ltac:(lia)) as (-> & RF).
    pose proof (proj2 (e_range w0 0 N0)). pose proof (proj2 (e_range w0 1 N0)). pose proof (proj2 (e_range w0 2 N0)).
    pose proof (proj2 (e_range w1 0 N1)). pose proof (proj2 (e_range w1 1 N1)). pose proof (proj2 (e_range w1 2 N1)).
    generalize dependent (field m 2 (4 * j + i)). intros code RF. pattern code; match goal with |- ?P code => apply (code4 P code RF) end;
      change (Z.to_nat 0) with 0%nat; change (Z.to_nat 1) with 1%nat; change (Z.to_nat 2) with 2%nat; change (Z.to_nat 3) with 3%nat; cbn [nth c_r c_g c_b c_a third]; unfold four_colours; cbn [Z.eqb Pos.eqb];
      rewrite ?u8_small by lia; repeat split; first [reflexivity | discriminate | f_equal; lia].
  - exact G.
  - exists d'. split; [exact E|]. eapply Good_sub; [exact G'|]. unfold rows. intros x y z' ch _ [?|(? & ? & ? & ?)]; auto 10.
Qed.

Lemma num8 : forall p, 0 <= p -> p + 8 <= zlen c -> number (slice c p 8) =
  geti c p + 256 * (geti c (p + 1) + 256 * (geti c (p + 2) + 256 * (geti c (p + 3) + 256 * (geti c (p + 4) + 256 * (geti c (p + 5) + 256 * (geti c (p + 6) + 256 * geti c (p + 7))))))).
Proof using.
  clear. intros p Hp Hl. change 8 with (1 + (1 + (1 + (1 + (1 + (1 + (1 + (1 + 0)))))))). rewrite !slice_cons by lia. rewrite slice_0. cbn [number].
  replace (p + 1 + 1) with (p + 2) by lia. replace (p + 2 + 1) with (p + 3) by lia. replace (p + 3 + 1) with (p + 4) by lia. replace (p + 4 + 1) with (p + 5) by lia. replace (p + 5 + 1) with (p + 6) by lia. replace (p + 6 + 1) with (p + 7) by lia. lia.
Qed.

Lemma nibble : forall p j i, 0 <= p -> p + 8 <= zlen c -> 0 <= j < 4 -> 0 <= i < 4 ->
  field (number (slice c p 8)) 4 (4 * j + i) = (geti c (p + 2 * j) + 256 * geti c (p + 2 * j + 1)) / 2 ^ (4 * i) mod 16.
Proof using Hc.
  clear - Hc. intros p j i Hp Hl Hj Hi. rewrite num8 by lia. assert (BR : forall k, 0 <= k < zlen c -> 0 <= geti c k < 256) by exact Hc.
  pose proof (BR p ltac:(lia)). pose proof (BR (p + 1) ltac:(lia)). pose proof (BR (p + 2) ltac:(lia)). pose proof (BR (p + 3) ltac:(lia)).
  pose proof (BR (p + 4) ltac:(lia)). pose proof (BR (p + 5) ltac:(lia)). pose proof (BR (p + 6) ltac:(lia)). pose proof (BR (p + 7) ltac:(lia)).
  unfold field.
  assert (j = 0 \/ j = 1 \/ j = 2 \/ j = 3) as [-> | [-> | [-> | -> ]]] by lia;
    [replace (p + 2 * 0) with p by lia | replace (p + 2 * 1 + 1) with (p + 3) by lia; replace (p + 2 * 1) with (p + 2) by lia | replace (p + 2 * 2 + 1) with (p + 5) by lia; replace (p + 2 * 2) with (p + 4) by lia | replace (p + 2 * 3 + 1) with (p + 7) by lia; replace (p + 2 * 3) with (p + 6) by lia];
    clear BR; generalize dependent (geti c p); generalize dependent (geti c (p + 1)); generalize dependent (geti c (p + 2)); generalize dependent (geti c (p + 3));
    generalize dependent (geti c (p + 4)); generalize dependent (geti c (p + 5)); generalize dependent (geti c (p + 6)); generalize dependent (geti c (p + 7)); clear - Hi; intros;
    assert (i = 0 \/ i = 1 \/ i = 2 \/ i = 3) as [-> | [-> | [-> | -> ]]] by lia; powers; lia.
Qed.

Lemma dxt3_ok : quads W * quads H * D * 16 <= zlen c -> block_ok W H D (val (dxt3 e35) 16 c W H) 16 (block3 im c).
Proof using HW HH HD HN IW IH ID IB IS IP Hc.
  intros Hl bx by_ z S d Hx Hy Hz G. pose proof (sizes W H D HW HH HD HN) as (SW & SH & SD & _). destruct (block_in 16 bx by_ z ltac:(lia) Hl Hx Hy Hz) as (T0 & T8).
  set (b := (z * quads H + by_) * quads W + bx) in *. set (T := b * 16) in *. unfold block3.
  destruct (colours_ok (dxt3 e35) 16 b (T + 8) bx by_ z S d) as (cs & m & E1 & d1 & E2 & G1); try lia; auto.
  { intros B k ch Hch. unfold dxt3. replace (ch =? 3) with false by lia. reflexivity. }
  rewrite E1. cbn [bind]. rewrite E2. cbn [bind]. unfold alpha3.
  match goal with |- context [loop 0 4 ?b d1] =>
    assert (A : exists d', loop 0 4 b d1 = Ok d' /\ Good W H D (val (dxt3 e35) 16 c W H) (rows (rows S (bx * 4) (by_ * 4) 0 4 z (fun ch => ch < 3)) (bx * 4) (by_ * 4) 0 4 z (fun ch => ch = 3)) d');
    [ destruct (loop_rule _ (fun j d => Good W H D (val (dxt3 e35) 16 c W H) (rows (rows S (bx * 4) (by_ * 4) 0 4 z (fun ch => ch < 3)) (bx * 4) (by_ * 4) 0 j z (fun ch => ch = 3)) d) 0 4 b d1) as (d' & E & G') | ] end.
  - lia.
  - eapply Good_sub; [exact G1|]. intros x y z' ch _ [?|(? & ? & _)]; [auto|lia].
  - intros j e Hj Ge. rewrite !rd_ok by lia. cbn [bind].
    assert (BR : forall k, 0 <= k < zlen c -> 0 <= geti c k < 256) by exact Hc.
    pose proof (BR (T + 2 * j) ltac:(lia)). pose proof (BR (T + 2 * j + 1) ltac:(lia)).
    assert (u16 (geti c (T + 2 * j) + 256 * geti c (T + 2 * j + 1)) = geti c (T + 2 * j) + 256 * geti c (T + 2 * j + 1)) as -> by (unfold u16; apply Z.mod_small; lia).
    set (w := geti c (T + 2 * j) + 256 * geti c (T + 2 * j + 1)) in *.
    match goal with |- context [loop 0 4 ?b (w, e)] => destruct (row_ok W H D (val (dxt3 e35) 16 c W H) Z (fun i => Z.shiftr w (4 * i)) b (bx * 4) (by_ * 4 + j) z (fun ch => ch = 3)) with (S := rows (rows S (bx * 4) (by_ * 4) 0 4 z (fun ch => ch < 3)) (bx * 4) (by_ * 4) 0 j z (fun ch => ch = 3)) (d := e) as (d' & E & G') end; [|exact Ge|].
    + intros i S2 d2 Hi G2. rewrite IW, IH. unfold quads in Hx, Hy. rewrite (u32_small (bx * 4 + i)), (u32_small (by_ * 4 + j)) by lia.
      assert (N : Z.shiftr (Z.shiftr w (4 * i)) 4 = Z.shiftr w (4 * (i + 1))) by (rewrite Z.shiftr_shiftr by lia; f_equal; lia).
      destruct ((bx * 4 + i <? W) && (by_ * 4 + j <? H)) eqn:Q.
      * apply andb_prop in Q as (Q1 & Q2).
        set (v := Z.land (Z.shiftr w (4 * i)) 15).
        assert (Vv : v = w / 2 ^ (4 * i) mod 16). { unfold v. change 15 with (2 ^ 4 - 1). rewrite land_mask, Z.shiftr_div_pow2 by lia. reflexivity. }
        assert (V0 : 0 <= v < 16) by (rewrite Vv; apply Z.mod_pos_bound; lia).
        assert (VV : 17 * v = val (dxt3 e35) 16 c W H (bx * 4 + i) (by_ * 4 + j) z 3).
        { rewrite val_at by lia. fold b. unfold dxt3. cbn [Z.eqb Pos.eqb]. unfold blk. rewrite slice_slice by lia. fold T. replace (T + 0) with T by lia. rewrite nibble by lia. fold w. rewrite <- Vv. reflexivity. }
        destruct (set_alpha im W H D (val (dxt3 e35) 16 c W H) HW HH HD HN IB IS IP S2 d2 (bx * 4 + i) (by_ * 4 + j) z (17 * v) G2 ltac:(lia) ltac:(lia) Hz VV) as (d3 & W3 & G3).
        set (o := u32 (offs im (bx * 4 + i) (by_ * 4 + j) z + 3)) in *.
        assert (Ho : 0 <= o < zlen d2) by (apply (wr_in _ _ _ _ W3)).
        rewrite wr_ok in W3 by auto. rewrite wr_ok by auto. cbn [bind]. rewrite rd_ok by (rewrite zlen_upd; auto). cbn [bind]. rewrite geti_upd by lia. rewrite Z.eqb_refl.
        assert (u8 (Z.lor v (Z.shiftl v 4)) = 17 * v) as ->. { rewrite Z.lor_comm, Z.shiftl_mul_pow2 by lia. rewrite lor_add by (change (2 ^ 4) with 16; lia). change (2 ^ 4) with 16. rewrite u8_small by lia. lia. }
        rewrite wr_ok by (rewrite zlen_upd; auto). cbn [bind]. exists d3. split; [|exact G3]. rewrite N. injection W3 as <-. do 2 f_equal.
        apply list_ext; [rewrite !zlen_upd; auto; rewrite zlen_upd; auto|]. intros k Hk. assert (Hk2 : 0 <= k < zlen d2) by (rewrite !zlen_upd in Hk; auto; rewrite zlen_upd; auto).
        rewrite !geti_upd by (rewrite ?zlen_upd; auto; lia). destruct (k =? o); reflexivity.
      * exists d2. split; [rewrite N; reflexivity|]. eapply Good_sub; [exact G2|]. unfold plus, inside. intros x' y' z' ch (Hx' & Hy' & _) [?|(-> & -> & _)]; [auto|lia].
    + cbn [Z.mul] in E. rewrite Z.shiftr_0_r in E. rewrite E. cbn [bind]. exists d'. split; [reflexivity|]. eapply Good_sub; [exact G'|].
      intros x y z' ch _ [?|(? & ? & -> & ->)]; [left; left; auto|]. destruct (Z.eq_dec y (by_ * 4 + j)) as [-> |]; [right; auto|]. left. right. repeat split; auto; lia.
  - exists d'. auto.
  - destruct A as (d' & -> & G'). cbn [bind]. exists d'. split; [f_equal; f_equal; lia|]. eapply Good_sub; [exact G'|].
    unfold rows, inside. intros x y z' ch (_ & _ & _ & Hch) [?|(? & ? & ? & _)]; [auto|]. destruct (Z.eq_dec ch 3); [right; auto|]. left. right. repeat split; try lia.
Qed.

Lemma num6 : forall p, 0 <= p -> p + 6 <= zlen c -> number (slice c p 6) = number (slice c p 3) + 16777216 * number (slice c (p + 3) 3).
Proof using.
  clear. intros p Hp Hl. change 6 with (1 + (1 + (1 + (1 + (1 + (1 + 0)))))). change 3 with (1 + (1 + (1 + 0))) at 1 3. rewrite !slice_cons by lia. rewrite !slice_0. cbn [number].
  replace (p + (1 + (1 + (1 + 0)))) with (p + 3) by lia. replace (p + 1 + 1 + 1) with (p + 3) by lia. lia.
Qed.

Lemma octal : forall p j i lo, 0 <= p -> p + 6 <= zlen c -> lo = 0 \/ lo = 2 -> lo <= j < lo + 2 -> 0 <= i < 4 ->
  field (number (slice c p 6)) 3 (4 * j + i) = number (slice c (p + (if lo =? 0 then 0 else 3)) 3) / 2 ^ (3 * (4 * (j - lo) + i)) mod 8.
Proof using Hc.
  clear - Hc. intros p j i lo Hp Hl Hlo Hj Hi. rewrite num6 by lia.
  pose proof (number_in c p 3 Hc ltac:(lia) ltac:(lia) ltac:(lia)) as R0. pose proof (number_in c (p + 3) 3 Hc ltac:(lia) ltac:(lia) ltac:(lia)) as R1. change (256 ^ 3) with 16777216 in *.
  unfold field. destruct Hlo as [-> | -> ]; cbn [Z.eqb Pos.eqb]; [replace (p + 0) with p by lia|]; set (a := number (slice c p 3)) in *; set (b := number (slice c (p + 3) 3)) in *; clearbody a b;
  [assert (j = 0 \/ j = 1) as [-> | -> ] by lia | assert (j = 2 \/ j = 3) as [-> | -> ] by lia];
    assert (i = 0 \/ i = 1 \/ i = 2 \/ i = 3) as [-> | [-> | [-> | -> ]]] by lia; powers; lia.
Qed.

Lemma alphas_at : forall a0 a1 code, 0 <= a0 < 256 -> 0 <= a1 < 256 -> 0 <= code < 8 -> rd (alphas5 a0 a1) code = Ok (alpha_at a0 a1 code).
Proof using.
  clear. intros a0 a1 code H0 H1 Hc. unfold alphas5, alpha_at. rewrite !u8_small by lia.
  assert (code = 0 \/ code = 1 \/ code = 2 \/ code = 3 \/ code = 4 \/ code = 5 \/ code = 6 \/ code = 7) as [-> | [-> | [-> | [-> | [-> | [-> | [-> | -> ]]]]]]] by lia;
    destruct (a1 <? a0); cbn [Z.eqb Pos.eqb]; rewrite rd_ok by (unfold zlen; cbn; lia); unfold geti; f_equal; reflexivity.
Qed.

Lemma alpha5_ok : forall a0 a1 lo b bx by_ z S d, 0 <= bx < quads W -> 0 <= by_ < quads H -> 0 <= z < D -> lo = 0 \/ lo = 2 ->
  b = (z * quads H + by_) * quads W + bx -> 0 <= b * 16 -> b * 16 + 16 <= zlen c -> a0 = geti c (b * 16) -> a1 = geti c (b * 16 + 1) ->
  Good W H D (val (dxt5 e35) 16 c W H) S d ->
  exists d', alpha5 im (alphas5 a0 a1) lo (number (slice c (b * 16 + 2 + (if lo =? 0 then 0 else 3)) 3)) (bx * 4) (by_ * 4) z d = Ok d' /\
    Good W H D (val (dxt5 e35) 16 c W H) (rows S (bx * 4) (by_ * 4) lo (lo + 2) z (fun ch => ch = 3)) d'.
Proof using HW HH HD HN IW IH ID IB IS IP Hc.
  intros a0 a1 lo b bx by_ z S d Hx Hy Hz Hlo Hb Hb0 Hbl Ha0 Ha1 G. pose proof (sizes W H D HW HH HD HN) as (SW & SH & SD & _). unfold alpha5. set (bits := number _).
  assert (BR : forall k, 0 <= k < zlen c -> 0 <= geti c k < 256) by exact Hc.
  assert (A0 : 0 <= a0 < 256) by (subst a0; apply BR; lia). assert (A1 : 0 <= a1 < 256) by (subst a1; apply BR; lia).
  match goal with |- context [loop lo (lo + 2) ?f (bits, d)] => destruct (rows_ok W H D (val (dxt5 e35) 16 c W H) Z (fun j => Z.shiftr bits (3 * (4 * (j - lo)))) f (bx * 4) (by_ * 4) z lo (lo + 2) (fun ch => ch = 3)) with (S := S) (d := d) as (d' & E & G') end; [lia| |exact G|].
  - intros j S1 d1 Hj G1.
    match goal with |- context [loop 0 4 ?f (Z.shiftr bits (3 * (4 * (j - lo))), d1)] => destruct (row_ok W H D (val (dxt5 e35) 16 c W H) Z (fun i => Z.shiftr bits (3 * (4 * (j - lo) + i))) f (bx * 4) (by_ * 4 + j) z (fun ch => ch = 3)) with (S := S1) (d := d1) as (d' & E & G') end; [|exact G1|].
    + intros i S2 d2 Hi G2. rewrite IW, IH. unfold quads in Hx, Hy. rewrite (u32_small (bx * 4 + i)), (u32_small (by_ * 4 + j)) by lia.
      assert (N : Z.shiftr (Z.shiftr bits (3 * (4 * (j - lo) + i))) 3 = Z.shiftr bits (3 * (4 * (j - lo) + (i + 1)))) by (rewrite Z.shiftr_shiftr by lia; f_equal; lia).
      destruct ((bx * 4 + i <? W) && (by_ * 4 + j <? H)) eqn:Q.
      * apply andb_prop in Q as (Q1 & Q2). set (code := Z.land _ 7).
        assert (Cv : code = field (number (slice c (b * 16 + 2) 6)) 3 (4 * j + i)). { unfold code. change 7 with (2 ^ 3 - 1). rewrite land_mask, Z.shiftr_div_pow2 by lia. rewrite (octal _ j i lo) by lia. reflexivity. }
        assert (0 <= code < 8) by (rewrite Cv; unfold field; change (2 ^ 3) with 8; apply Z.mod_pos_bound; lia).
        rewrite alphas_at by auto. cbn [bind].
        destruct (set_alpha im W H D (val (dxt5 e35) 16 c W H) HW HH HD HN IB IS IP S2 d2 (bx * 4 + i) (by_ * 4 + j) z (alpha_at a0 a1 code) G2 ltac:(lia) ltac:(lia) Hz) as (d3 & W3 & G3).
        { rewrite val_at by lia. rewrite <- Hb. unfold dxt5. cbn [Z.eqb Pos.eqb]. unfold blk. rewrite slice_slice by lia. rewrite !geti_slice by lia. rewrite Cv, Ha0, Ha1. replace (b * 16 + 0) with (b * 16) by lia. reflexivity. }
        rewrite W3. cbn [bind]. exists d3. rewrite N. auto.
      * exists d2. split; [rewrite N; reflexivity|]. eapply Good_sub; [exact G2|]. unfold plus, inside. intros x' y' z' ch (Hx' & Hy' & _) [?|(-> & -> & _)]; [auto|lia].
    + exists d'. split; [|exact G']. replace (3 * (4 * (j + 1 - lo))) with (3 * (4 * (j - lo) + 4)) by lia. rewrite Z.add_0_r in E. exact E.
  - replace (3 * (4 * (lo - lo))) with 0 in E by lia. rewrite Z.shiftr_0_r in E. rewrite E. cbn [bind]. exists d'. auto.
Qed.

Lemma dxt5_ok : quads W * quads H * D * 16 <= zlen c -> block_ok W H D (val (dxt5 e35) 16 c W H) 16 (block5 im c).
Proof using HW HH HD HN IW IH ID IB IS IP Hc.
  intros Hl bx by_ z S d Hx Hy Hz G. destruct (block_in 16 bx by_ z ltac:(lia) Hl Hx Hy Hz) as (T0 & T8).
  set (b := (z * quads H + by_) * quads W + bx) in *. set (T := b * 16) in *. unfold block5. rewrite !rd_ok by lia. cbn [bind].
  destruct (colours_ok (dxt5 e35) 16 b (T + 8) bx by_ z S d) as (cs & m & E1 & d1 & E2 & G1); try lia; auto.
  { intros B k ch Hch. unfold dxt5. replace (ch =? 3) with false by lia. reflexivity. }
  rewrite E1. cbn [bind]. rewrite E2. cbn [bind]. rewrite (rdn_ok 3) by lia. rewrite (rdn_ok 3) by lia. cbn [bind Z.of_nat Pos.of_succ_nat Pos.succ].
  destruct (alpha5_ok (geti c T) (geti c (T + 1)) 0 b bx by_ z _ d1 Hx Hy Hz ltac:(lia) eq_refl ltac:(lia) ltac:(lia) eq_refl eq_refl G1) as (d2 & E3 & G2).
  cbn [Z.eqb] in E3. rewrite Z.add_0_r in E3. fold T in E3. rewrite E3. cbn [bind].
  destruct (alpha5_ok (geti c T) (geti c (T + 1)) 2 b bx by_ z _ d2 Hx Hy Hz ltac:(lia) eq_refl ltac:(lia) ltac:(lia) eq_refl eq_refl G2) as (d3 & E4 & G3).
  cbn [Z.eqb] in E4. fold T in E4. replace (T + 2 + 3) with (T + 5) in E4 by lia. rewrite E4. cbn [bind].
  exists d3. split; [reflexivity|]. eapply Good_sub; [exact G3|].
  unfold rows, inside. intros x y z' ch (_ & _ & _ & Hch) [?|(? & ? & ? & _)]; [auto|]. destruct (Z.eq_dec ch 3).
  - destruct (Z_lt_dec y (by_ * 4 + 2)); [left; right; repeat split; auto; lia | right; repeat split; auto; lia].
  - left. left. right. repeat split; try lia.
Qed.
End Decode.
