(** Theorems C90: flipping compressed texture data. *)
From Coq Require Import ZArith List Lia Bool.
From Verif Require Import Base Enums Utility Image ImageSpec Slices Elem BitLemmas ConvImg ConvImgProps DxtSpec Dxt DxtProofs DxtDecode DxtProps DxtBlocks.
Import ListNotations.
Open Scope Z_scope.

(** ** One block *)
Definition fl8 (B : list Z) : list Z := [geti B 0; geti B 1; geti B 2; geti B 3; geti B 7; geti B 6; geti B 5; geti B 4].
(** twelve bits and twelve bits exchanged *)
Definition hp (d0 d1 d2 : Z) : list Z :=
  let t0 := d0 + 256 * (d1 mod 16) in let t1 := d1 / 16 + 16 * d2 in [t1 mod 256; t1 / 256 + 16 * (t0 mod 16); t0 / 16].
Definition flipb (fmt : Z) (B : list Z) : list Z :=
  if fmt =? IL_DXT1 then fl8 B
  else if fmt =? IL_DXT3 then [geti B 6; geti B 7; geti B 4; geti B 5; geti B 2; geti B 3; geti B 0; geti B 1] ++ fl8 (slice B 8 8)
  else [geti B 0; geti B 1] ++ hp (geti B 5) (geti B 6) (geti B 7) ++ hp (geti B 2) (geti B 3) (geti B 4) ++ fl8 (slice B 8 8).

Ltac get_tac := repeat match goal with |- context [geti (?x :: ?l) ?i] => let v := eval cbv [geti nth Z.to_nat Pos.to_nat Pos.iter_op Nat.add] in (geti (x :: l) i) in change (geti (x :: l) i) with v end.
Ltac upd_tac := repeat match goal with |- context [upd (?x :: ?l) ?i ?v] => let w := eval cbv [upd splice firstn skipn app length Z.to_nat Pos.to_nat Pos.iter_op Nat.add] in (upd (x :: l) i v) in change (upd (x :: l) i v) with w end.
Ltac len_tac := unfold zlen in *; cbn [length Z.of_nat Pos.of_succ_nat Pos.succ] in *; lia.
Ltac local_step := first [ rewrite rd_local by len_tac | rewrite wr_local by len_tac ]; cbn [bind]; get_tac; upd_tac.
Ltac fold_off := rewrite <- ?Z.add_assoc; cbn [Z.add Pos.add Pos.succ Pos.add_carry].

Lemma cons_eq : forall (a b : Z) l m, a = b -> l = m -> a :: l = b :: m.
Proof. intros; subst; reflexivity. Qed.
Lemma hp_bits : forall d0 d1 d2, 0 <= d0 < 256 -> 0 <= d1 < 256 -> 0 <= d2 < 256 ->
  let t0 := Z.land (Z.lor d0 (Z.shiftl d1 8)) 4095 in let t1 := Z.land (Z.lor (Z.shiftr d1 4) (Z.shiftl d2 4)) 4095 in
  [u8 t1; u8 (Z.lor (Z.shiftr t1 8) (Z.shiftl t0 4)); u8 (Z.shiftr t0 4)] = hp d0 d1 d2.
Proof.
  intros d0 d1 d2 H0 H1 H2. cbv zeta.
  assert (T0 : Z.land (Z.lor d0 (Z.shiftl d1 8)) 4095 = d0 + 256 * (d1 mod 16)).
  { rewrite Z.lor_comm, Z.shiftl_mul_pow2 by lia. rewrite lor_add by (change (2 ^ 8) with 256; lia). change 4095 with (2 ^ 12 - 1). rewrite land_mask by lia. change (2 ^ 8) with 256. change (2 ^ 12) with 4096. lia. }
  assert (T1 : Z.land (Z.lor (Z.shiftr d1 4) (Z.shiftl d2 4)) 4095 = d1 / 16 + 16 * d2).
  { rewrite Z.lor_comm, Z.shiftl_mul_pow2, Z.shiftr_div_pow2 by lia. rewrite lor_add by (change (2 ^ 4) with 16; lia). change 4095 with (2 ^ 12 - 1). rewrite land_mask by lia. change (2 ^ 4) with 16. change (2 ^ 12) with 4096. lia. }
  rewrite T0, T1. unfold hp. cbv zeta. set (t0 := d0 + 256 * (d1 mod 16)). set (t1 := d1 / 16 + 16 * d2).
  assert (0 <= t0 < 4096) by (unfold t0; lia). assert (0 <= t1 < 4096) by (unfold t1; lia). clearbody t0 t1.
  rewrite (Z.lor_comm (Z.shiftr t1 8)), Z.shiftl_mul_pow2, !Z.shiftr_div_pow2 by lia. change (2 ^ 8) with 256. rewrite lor_add by (change (2 ^ 4) with 16; lia). change (2 ^ 4) with 16. unfold u8. repeat (apply cons_eq; [lia|]). reflexivity.
Qed.

Lemma hp_bytes : forall d0 d1 d2, 0 <= d0 < 256 -> 0 <= d1 < 256 -> 0 <= d2 < 256 -> Forall (fun b => 0 <= b < 256) (hp d0 d1 d2).
Proof. intros. unfold hp. cbv zeta. repeat constructor; lia. Qed.

Lemma swap_local : forall d B p i j, 0 <= p -> p + zlen B <= zlen d -> 0 <= i < zlen B -> 0 <= j < zlen B ->
  swap (splice d p B) (p + i) (p + j) = Ok (splice d p (upd (upd B i (geti B j)) j (geti B i))).
Proof.
  intros d B p i j Hp Hl Hi Hj. unfold swap. rewrite !rd_local by lia. cbn [bind]. rewrite wr_local by lia. cbn [bind]. rewrite wr_local by (rewrite ?zlen_upd; lia). reflexivity.
Qed.
Lemma swap_local0 : forall d B p j, 0 <= p -> p + zlen B <= zlen d -> 0 <= j < zlen B ->
  swap (splice d p B) p (p + j) = Ok (splice d p (upd (upd B 0 (geti B j)) j (geti B 0))).
Proof. intros d B p j Hp Hl Hj. pose proof (swap_local d B p 0 j Hp Hl ltac:(lia) Hj) as S. rewrite Z.add_0_r in S. exact S. Qed.
Ltac swap_step := first [ rewrite swap_local by len_tac | rewrite swap_local0 by len_tac ]; cbn [bind]; get_tac; upd_tac.

Lemma bytes_list : forall l, bytes l -> Forall (fun b => 0 <= b < 256) l.
Proof. intros l H. apply bytes_Forall. exact H. Qed.

Lemma flip_op : forall fmt bs, dxt_format fmt bs -> block_op bs (flip_block fmt) (flipb fmt).
Proof.
  intros fmt bs Hf. split.
  - intros d p Hd Hp Hl. assert (Hbs : 0 <= bs) by (destruct Hf as [(-> & ->) | [(-> & ->) | (-> & ->)]]; lia).
    pose proof (zlen_slice d p bs Hp Hbs Hl) as L. pose proof (bytes_slice d p bs Hd) as HB.
    rewrite <- (splice_self d p bs Hp Hbs Hl) at 1. set (B := slice d p bs) in *. clearbody B.
    destruct Hf as [(-> & ->) | [(-> & ->) | (-> & ->)]]; unfold flip_block; cbn [Z.eqb Pos.eqb IL_DXT1 IL_DXT3 IL_DXT5].
    + destruct (block8 B L) as (b0 & b1 & b2 & b3 & b4 & b5 & b6 & b7 & ->). unfold iFlipColorBlock. do 2 swap_step. reflexivity.
    + destruct (block16 B L) as (b0 & b1 & b2 & b3 & b4 & b5 & b6 & b7 & b8 & b9 & b10 & b11 & b12 & b13 & b14 & b15 & ->).
      unfold iFlipSimpleAlphaBlock, iFlipColorBlock. fold_off. do 6 swap_step. reflexivity.
    + destruct (block16 B L) as (b0 & b1 & b2 & b3 & b4 & b5 & b6 & b7 & b8 & b9 & b10 & b11 & b12 & b13 & b14 & b15 & ->).
      apply bytes_list in HB. repeat match goal with H : Forall _ (_ :: _) |- _ => inversion H; clear H; subst end.
      unfold iFlipComplexAlphaBlock, iFlipColorBlock, iComplexAlphaHelper. fold_off. do 3 swap_step.
      do 6 local_step. fold_off. do 6 local_step. do 2 swap_step. unfold flipb. cbn [Z.eqb Pos.eqb IL_DXT1 IL_DXT3 IL_DXT5]. get_tac.
      rewrite <- (hp_bits b5 b6 b7), <- (hp_bits b2 b3 b4) by auto. reflexivity.
  - intros B HB HL. destruct Hf as [(-> & ->) | [(-> & ->) | (-> & ->)]]; unfold flipb; cbn [Z.eqb Pos.eqb IL_DXT1 IL_DXT3 IL_DXT5].
    + destruct (block8 B HL) as (b0 & b1 & b2 & b3 & b4 & b5 & b6 & b7 & ->). split; [reflexivity|]. rewrite bytes_Forall in *.
      repeat match goal with H : Forall _ (_ :: _) |- _ => inversion H; clear H; subst end. unfold fl8. get_tac. repeat constructor; lia.
    + destruct (block16 B HL) as (b0 & b1 & b2 & b3 & b4 & b5 & b6 & b7 & b8 & b9 & b10 & b11 & b12 & b13 & b14 & b15 & ->). split; [reflexivity|]. rewrite bytes_Forall in *.
      repeat match goal with H : Forall _ (_ :: _) |- _ => inversion H; clear H; subst end. change (slice [b0; b1; b2; b3; b4; b5; b6; b7; b8; b9; b10; b11; b12; b13; b14; b15] 8 8) with [b8; b9; b10; b11; b12; b13; b14; b15].
      unfold fl8. get_tac. cbn [app]. repeat constructor; lia.
    + destruct (block16 B HL) as (b0 & b1 & b2 & b3 & b4 & b5 & b6 & b7 & b8 & b9 & b10 & b11 & b12 & b13 & b14 & b15 & ->). split; [reflexivity|]. rewrite bytes_Forall in *.
      repeat match goal with H : Forall _ (_ :: _) |- _ => inversion H; clear H; subst end. change (slice [b0; b1; b2; b3; b4; b5; b6; b7; b8; b9; b10; b11; b12; b13; b14; b15] 8 8) with [b8; b9; b10; b11; b12; b13; b14; b15].
      unfold fl8. get_tac. rewrite !Forall_app. repeat split; try apply hp_bytes; auto; repeat constructor; lia.
Qed.

(** ** Rows of a block *)
Lemma low_field : forall w i r q, 0 < w -> 0 <= i < 4 -> (r + 2 ^ (4 * w) * q) / 2 ^ (w * i) mod 2 ^ w = r / 2 ^ (w * i) mod 2 ^ w.
Proof.
  intros w i r q Hw Hi. assert (0 <= w * i) by (apply Z.mul_nonneg_nonneg; lia). assert (w * i <= w * 3) by (apply Z.mul_le_mono_nonneg_l; lia).
  replace (2 ^ (4 * w)) with (2 ^ (w * i) * 2 ^ w * 2 ^ (4 * w - w * i - w)) by (rewrite <- !Z.pow_add_r by lia; f_equal; lia).
  assert (0 < 2 ^ (w * i)) by (apply Z.pow_pos_nonneg; lia). assert (0 < 2 ^ w) by (apply Z.pow_pos_nonneg; lia).
  replace (r + 2 ^ (w * i) * 2 ^ w * 2 ^ (4 * w - w * i - w) * q) with (r + (2 ^ w * 2 ^ (4 * w - w * i - w) * q) * 2 ^ (w * i)) by ring.
  rewrite Z.div_add by lia. replace (2 ^ w * 2 ^ (4 * w - w * i - w) * q) with (2 ^ (4 * w - w * i - w) * q * 2 ^ w) by ring. apply Z.mod_add. lia.
Qed.
Lemma field4 : forall w r0 r1 r2 r3 j i, 0 < w -> 0 <= r0 < 2 ^ (4 * w) -> 0 <= r1 < 2 ^ (4 * w) -> 0 <= r2 < 2 ^ (4 * w) -> 0 <= j < 4 -> 0 <= i < 4 ->
  field (r0 + 2 ^ (4 * w) * (r1 + 2 ^ (4 * w) * (r2 + 2 ^ (4 * w) * r3))) w (4 * j + i) =
  (if j =? 0 then r0 else if j =? 1 then r1 else if j =? 2 then r2 else r3) / 2 ^ (w * i) mod 2 ^ w.
Proof.
  intros w r0 r1 r2 r3 j i Hw H0 H1 H2 Hj Hi. unfold field. assert (0 <= w * i) by (apply Z.mul_nonneg_nonneg; lia).
  assert (P : 0 < 2 ^ (4 * w)) by (apply Z.pow_pos_nonneg; lia). assert (0 < 2 ^ (w * i)) by (apply Z.pow_pos_nonneg; lia).
  assert (C : forall r q, 0 <= r < 2 ^ (4 * w) -> (r + 2 ^ (4 * w) * q) / 2 ^ (4 * w) = q) by (intros r q Hr; rewrite (Z.mul_comm (2 ^ (4 * w)) q), Z.div_add, Z.div_small; lia).
  assert (j = 0 \/ j = 1 \/ j = 2 \/ j = 3) as [-> | [-> | [-> | -> ]]] by lia; cbn [Z.eqb Pos.eqb].
  - replace (w * (4 * 0 + i)) with (w * i) by ring. apply low_field; auto.
  - replace (w * (4 * 1 + i)) with (4 * w + w * i) by ring. rewrite Z.pow_add_r, <- Z.div_div, C by lia. apply low_field; auto.
  - replace (w * (4 * 2 + i)) with (4 * w + (4 * w + w * i)) by ring. rewrite !Z.pow_add_r, <- !Z.div_div, !C by lia. apply low_field; auto.
  - replace (w * (4 * 3 + i)) with (4 * w + (4 * w + (4 * w + w * i))) by ring. rewrite !Z.pow_add_r, <- !Z.div_div, !C by (try apply Z.mul_pos_pos; lia). reflexivity.
Qed.
Lemma field_rev : forall w r0 r1 r2 r3 j i, 0 < w -> 0 <= r0 < 2 ^ (4 * w) -> 0 <= r1 < 2 ^ (4 * w) -> 0 <= r2 < 2 ^ (4 * w) -> 0 <= r3 < 2 ^ (4 * w) -> 0 <= j < 4 -> 0 <= i < 4 ->
  field (r3 + 2 ^ (4 * w) * (r2 + 2 ^ (4 * w) * (r1 + 2 ^ (4 * w) * r0))) w (4 * j + i) = field (r0 + 2 ^ (4 * w) * (r1 + 2 ^ (4 * w) * (r2 + 2 ^ (4 * w) * r3))) w (4 * (3 - j) + i).
Proof.
  intros. rewrite !field4 by (auto; lia). assert (j = 0 \/ j = 1 \/ j = 2 \/ j = 3) as [-> | [-> | [-> | -> ]]] by lia; reflexivity.
Qed.

(** the rows of a flipped block are those of the block in reverse order *)
Lemma flip_texel : forall fmt bs B i j ch, dxt_format fmt bs -> bytes B -> zlen B = bs -> 0 <= i < 4 -> 0 <= j < 4 ->
  texel fmt (flipb fmt B) (4 * j + i) ch = texel fmt B (4 * (3 - j) + i) ch.
Proof.
  intros fmt bs B i j ch Hf HB HL Hi Hj. rewrite bytes_Forall in HB.
  assert (C : forall b0 b1 b2 b3, 0 <= b0 < 256 -> 0 <= b1 < 256 -> 0 <= b2 < 256 -> 0 <= b3 < 256 -> field (number [b3; b2; b1; b0]) 2 (4 * j + i) = field (number [b0; b1; b2; b3]) 2 (4 * (3 - j) + i)).
  { clear - Hi Hj. intros b0 b1 b2 b3 H0 H1 H2 H3. cbn [number]. rewrite !Z.mul_0_r, !Z.add_0_r. apply (field_rev 2); change (2 ^ (4 * 2)) with 256; auto; lia. }
  destruct Hf as [(-> & ->) | [(-> & ->) | (-> & ->)]]; unfold texel, flipb; cbn [Z.eqb Pos.eqb IL_DXT1 IL_DXT3 IL_DXT5].
  - destruct (block8 B HL) as (b0 & b1 & b2 & b3 & b4 & b5 & b6 & b7 & ->). repeat match goal with H : Forall _ (_ :: _) |- _ => inversion H; clear H; subst end.
    unfold fl8, dxt1. get_tac. cbv zeta.
    change (slice [b0; b1; b2; b3; b7; b6; b5; b4] 4 4) with [b7; b6; b5; b4]. change (slice [b0; b1; b2; b3; b4; b5; b6; b7] 4 4) with [b4; b5; b6; b7]. rewrite C by auto. reflexivity.
  - destruct (block16 B HL) as (b0 & b1 & b2 & b3 & b4 & b5 & b6 & b7 & b8 & b9 & b10 & b11 & b12 & b13 & b14 & b15 & ->). repeat match goal with H : Forall _ (_ :: _) |- _ => inversion H; clear H; subst end.
    change (slice [b0; b1; b2; b3; b4; b5; b6; b7; b8; b9; b10; b11; b12; b13; b14; b15] 8 8) with [b8; b9; b10; b11; b12; b13; b14; b15]. unfold fl8. get_tac. cbn [app]. unfold dxt3.
    change (slice [b6; b7; b4; b5; b2; b3; b0; b1; b8; b9; b10; b11; b15; b14; b13; b12] 12 4) with [b15; b14; b13; b12].
    change (slice [b0; b1; b2; b3; b4; b5; b6; b7; b8; b9; b10; b11; b12; b13; b14; b15] 12 4) with [b12; b13; b14; b15]. rewrite C by auto.
    destruct (ch =? 3); [|reflexivity]. f_equal.
    change (slice [b6; b7; b4; b5; b2; b3; b0; b1; b8; b9; b10; b11; b15; b14; b13; b12] 0 8) with [b6; b7; b4; b5; b2; b3; b0; b1].
    change (slice [b0; b1; b2; b3; b4; b5; b6; b7; b8; b9; b10; b11; b12; b13; b14; b15] 0 8) with [b0; b1; b2; b3; b4; b5; b6; b7].
    pose proof (field_rev 4 (b0 + 256 * b1) (b2 + 256 * b3) (b4 + 256 * b5) (b6 + 256 * b7) j i) as R. change (2 ^ (4 * 4)) with 65536 in R. specialize (R ltac:(lia) ltac:(lia) ltac:(lia) ltac:(lia) ltac:(lia) Hj Hi).
    cbn [number]. rewrite !Z.mul_0_r, !Z.add_0_r. etransitivity; [|etransitivity; [exact R|]]; f_equal; ring.
  - destruct (block16 B HL) as (b0 & b1 & b2 & b3 & b4 & b5 & b6 & b7 & b8 & b9 & b10 & b11 & b12 & b13 & b14 & b15 & ->). repeat match goal with H : Forall _ (_ :: _) |- _ => inversion H; clear H; subst end.
    change (slice [b0; b1; b2; b3; b4; b5; b6; b7; b8; b9; b10; b11; b12; b13; b14; b15] 8 8) with [b8; b9; b10; b11; b12; b13; b14; b15]. unfold fl8. get_tac. unfold hp. cbv zeta. cbn [app]. unfold dxt5.
    match goal with |- context [geti (b0 :: b1 :: ?x :: ?y :: ?z :: ?u :: ?v :: ?w :: ?l)] => set (h0 := x); set (h1 := y); set (h2 := z); set (k0 := u); set (k1 := v); set (k2 := w) end.
    get_tac.
    change (slice [b0; b1; h0; h1; h2; k0; k1; k2; b8; b9; b10; b11; b15; b14; b13; b12] 12 4) with [b15; b14; b13; b12].
    change (slice [b0; b1; b2; b3; b4; b5; b6; b7; b8; b9; b10; b11; b12; b13; b14; b15] 12 4) with [b12; b13; b14; b15]. rewrite C by auto.
    destruct (ch =? 3); [|reflexivity]. f_equal.
    change (slice [b0; b1; h0; h1; h2; k0; k1; k2; b8; b9; b10; b11; b15; b14; b13; b12] 2 6) with [h0; h1; h2; k0; k1; k2].
    change (slice [b0; b1; b2; b3; b4; b5; b6; b7; b8; b9; b10; b11; b12; b13; b14; b15] 2 6) with [b2; b3; b4; b5; b6; b7].
    clear C. assert (E1 : h0 + 256 * h1 + 65536 * h2 = (b5 + 256 * b6 + 65536 * b7) / 4096 + 4096 * ((b5 + 256 * b6 + 65536 * b7) mod 4096)) by (unfold h0, h1, h2; lia).
    assert (E2 : k0 + 256 * k1 + 65536 * k2 = (b2 + 256 * b3 + 65536 * b4) / 4096 + 4096 * ((b2 + 256 * b3 + 65536 * b4) mod 4096)) by (unfold k0, k1, k2; lia).
    assert (N1 : number [h0; h1; h2; k0; k1; k2] = (h0 + 256 * h1 + 65536 * h2) + 16777216 * (k0 + 256 * k1 + 65536 * k2)) by (cbn [number]; ring).
    assert (N2 : number [b2; b3; b4; b5; b6; b7] = (b2 + 256 * b3 + 65536 * b4) + 16777216 * (b5 + 256 * b6 + 65536 * b7)) by (cbn [number]; ring).
    rewrite N1, N2, E1, E2. assert (R1 : 0 <= b2 + 256 * b3 + 65536 * b4 < 16777216) by lia. assert (R2 : 0 <= b5 + 256 * b6 + 65536 * b7 < 16777216) by lia.
    set (m := b2 + 256 * b3 + 65536 * b4) in *. set (n := b5 + 256 * b6 + 65536 * b7) in *. clearbody m n. clear - R1 R2 Hi Hj.
    pose proof (field_rev 3 (m mod 4096) (m / 4096) (n mod 4096) (n / 4096) j i) as R. change (2 ^ (4 * 3)) with 4096 in R. specialize (R ltac:(lia) ltac:(lia) ltac:(lia) ltac:(lia) ltac:(lia) Hj Hi).
    etransitivity; [|etransitivity; [exact R|]]; f_equal; lia.
Qed.

Lemma flip_twice : forall fmt bs B, dxt_format fmt bs -> bytes B -> zlen B = bs -> flipb fmt (flipb fmt B) = B.
Proof.
  intros fmt bs B Hf HB HL. rewrite bytes_Forall in HB. destruct Hf as [(-> & ->) | [(-> & ->) | (-> & ->)]]; unfold flipb; cbn [Z.eqb Pos.eqb IL_DXT1 IL_DXT3 IL_DXT5].
  - destruct (block8 B HL) as (b0 & b1 & b2 & b3 & b4 & b5 & b6 & b7 & ->). reflexivity.
  - destruct (block16 B HL) as (b0 & b1 & b2 & b3 & b4 & b5 & b6 & b7 & b8 & b9 & b10 & b11 & b12 & b13 & b14 & b15 & ->). reflexivity.
  - destruct (block16 B HL) as (b0 & b1 & b2 & b3 & b4 & b5 & b6 & b7 & b8 & b9 & b10 & b11 & b12 & b13 & b14 & b15 & ->). repeat match goal with H : Forall _ (_ :: _) |- _ => inversion H; clear H; subst end.
    change (slice [b0; b1; b2; b3; b4; b5; b6; b7; b8; b9; b10; b11; b12; b13; b14; b15] 8 8) with [b8; b9; b10; b11; b12; b13; b14; b15]. unfold fl8 at 2. get_tac. unfold hp. cbv zeta. cbn [app]. get_tac.
    match goal with |- context [slice (?a0 :: ?a1 :: ?a2 :: ?a3 :: ?a4 :: ?a5 :: ?a6 :: ?a7 :: ?l) 8 8] => change (slice (a0 :: a1 :: a2 :: a3 :: a4 :: a5 :: a6 :: a7 :: l) 8 8) with l end. unfold fl8. get_tac. repeat (apply cons_eq; [lia|]). reflexivity.
Qed.
