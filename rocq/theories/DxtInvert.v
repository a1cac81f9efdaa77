(** Theorems C91: inverting the alpha of compressed texture data. *)
From Coq Require Import ZArith List Lia Bool.
From Verif Require Import Base Enums Utility Image ImageSpec Slices Elem BitLemmas ConvImg ConvImgProps DxtSpec Dxt DxtProofs DxtDecode DxtProps DxtBlocks DxtFlip DxtFlipProps.
Import ListNotations.
Open Scope Z_scope.

(** ** Octal digits *)
Fixpoint octs (l : list Z) : Z := match l with [] => 0 | a :: r => a + 8 * octs r end.
Fixpoint digs (k : nat) (n : Z) : list Z := match k with O => [] | S k => n mod 8 :: digs k (n / 8) end.
Definition digit (a : Z) : Prop := 0 <= a < 8.

Lemma octs_digs : forall k n, 0 <= n < 8 ^ Z.of_nat k -> octs (digs k n) = n.
Proof.
  induction k as [|k IH]; intros n Hn; [cbn in *; lia|]. cbn [digs octs]. rewrite IH; [lia|].
  replace (Z.of_nat (S k)) with (Z.of_nat k + 1) in Hn by lia. rewrite Z.pow_add_r in Hn by lia. change (8 ^ 1) with 8 in Hn. lia.
Qed.
Lemma digs_octs : forall l, Forall digit l -> digs (length l) (octs l) = l.
Proof.
  induction l as [|a l IH]; intros H; [reflexivity|]. inversion H as [|? ? Ha Hl]; subst. unfold digit in Ha. cbn [length octs digs]. f_equal; [lia|].
  replace ((a + 8 * octs l) / 8) with (octs l) by lia. apply IH; auto.
Qed.
Lemma digs_digit : forall k n, Forall digit (digs k n).
Proof. induction k as [|k IH]; intros n; cbn [digs]; constructor; auto. unfold digit. lia. Qed.
Lemma digs_len : forall k n, length (digs k n) = k.
Proof. induction k as [|k IH]; intros n; cbn [digs length]; [|rewrite IH]; reflexivity. Qed.
Lemma octs_range : forall l, Forall digit l -> 0 <= octs l < 8 ^ Z.of_nat (length l).
Proof.
  induction l as [|a l IH]; intros H; [cbn; lia|]. inversion H as [|? ? Ha Hl]; subst. specialize (IH Hl). unfold digit in Ha. cbn [octs length].
  replace (Z.of_nat (S (length l))) with (Z.of_nat (length l) + 1) by lia. rewrite Z.pow_add_r by lia. change (8 ^ 1) with 8. lia.
Qed.
Lemma geti_digs : forall k n i, 0 <= i < Z.of_nat k -> geti (digs k n) i = field n 3 i.
Proof.
  induction k as [|k IH]; intros n i Hi; [lia|]. cbn [digs]. destruct (Z.eq_dec i 0) as [-> | Hne].
  - unfold field. change (2 ^ (3 * 0)) with 1. change (2 ^ 3) with 8. rewrite Z.div_1_r. reflexivity.
  - rewrite geti_cons by lia. replace (i =? 0) with false by lia. rewrite IH by lia. unfold field. change (2 ^ 3) with 8. replace (3 * i) with (3 + 3 * (i - 1)) by lia. rewrite Z.pow_add_r by lia. change (2 ^ 3) with 8.
    rewrite Z.div_div by (try lia; apply Z.pow_pos_nonneg; lia). reflexivity.
Qed.
Lemma octs_app : forall l b, octs (l ++ [b]) = octs l + b * 8 ^ Z.of_nat (length l).
Proof.
  induction l as [|a l IH]; intros b; [cbn; lia|]. cbn [app octs length]. rewrite IH. replace (Z.of_nat (S (length l))) with (Z.of_nat (length l) + 1) by lia. rewrite Z.pow_add_r by lia. change (8 ^ 1) with 8. lia.
Qed.

(** each digit of a number of eight digits replaced according to [m] *)
Definition remap (m : list Z) (n : Z) : Z := octs (map (geti m) (digs 8 n)).
Definition renaming (m : list Z) : Prop := zlen m = 8 /\ forall a, digit a -> digit (geti m a) /\ geti m (geti m a) = a.
Lemma code8 : forall (P : Z -> Prop) a, digit a -> P 0 -> P 1 -> P 2 -> P 3 -> P 4 -> P 5 -> P 6 -> P 7 -> P a.
Proof. intros P a H; unfold digit in H; intros. assert (a = 0 \/ a = 1 \/ a = 2 \/ a = 3 \/ a = 4 \/ a = 5 \/ a = 6 \/ a = 7) as [-> | [-> | [-> | [-> | [-> | [-> | [-> | -> ]]]]]]] by lia; assumption. Qed.
Lemma renaming1 : renaming map1.
Proof. split; [reflexivity|]. intros a Ha. pattern a. apply code8; [exact Ha| | | | | | | |]; (split; [vm_compute; split; [discriminate|reflexivity]|reflexivity]). Qed.
Lemma renaming2 : renaming map2.
Proof. split; [reflexivity|]. intros a Ha. pattern a. apply code8; [exact Ha| | | | | | | |]; (split; [vm_compute; split; [discriminate|reflexivity]|reflexivity]). Qed.

Lemma mapped : forall m n, renaming m -> Forall digit (map (geti m) (digs 8 n)).
Proof. intros m n (_ & Hm). pose proof (digs_digit 8 n) as D. induction D; cbn [map]; constructor; auto. apply Hm. auto. Qed.
Lemma remap_range : forall m n, renaming m -> 0 <= remap m n < 16777216.
Proof. intros m n Hm. pose proof (octs_range _ (mapped m n Hm)) as R. rewrite map_length, digs_len in R. change (8 ^ Z.of_nat 8) with 16777216 in R. exact R. Qed.
Lemma digs_remap : forall m n, renaming m -> digs 8 (remap m n) = map (geti m) (digs 8 n).
Proof. intros m n Hm. pose proof (digs_octs _ (mapped m n Hm)) as D. rewrite map_length, digs_len in D. exact D. Qed.
Lemma remap_twice : forall m n, renaming m -> 0 <= n < 16777216 -> remap m (remap m n) = n.
Proof.
  intros m n Hm Hn. unfold remap at 1. rewrite digs_remap by auto. rewrite map_map.
  rewrite <- (octs_digs 8 n) at 2 by (change (8 ^ Z.of_nat 8) with 16777216; exact Hn). f_equal. destruct Hm as (_ & Hm). pose proof (digs_digit 8 n) as D. induction D; cbn [map]; [reflexivity|]. f_equal; auto. apply Hm. auto.
Qed.
Lemma field_remap : forall m n i, renaming m -> 0 <= i < 8 -> field (remap m n) 3 i = geti m (field n 3 i).
Proof.
  intros m n i Hm Hi. rewrite <- !(geti_digs 8) by lia. rewrite digs_remap by auto. set (l := digs 8 n). pose proof (digs_len 8 n) as L. fold l in L. clearbody l.
  unfold geti at 1. rewrite nth_indep with (d' := geti m 0) by (rewrite map_length; lia). rewrite map_nth. reflexivity.
Qed.

Lemma remap_loop : forall m n, renaming m -> 0 <= n ->
  loop 0 8 (fun j out => let! b := rd m (Z.land (Z.shiftr n (j * 3)) 7) in Ok (Z.lor out (Z.shiftl b (j * 3)))) 0 = Ok (remap m n).
Proof.
  intros m n Hm Hn. set (L := map (geti m) (digs 8 n)). assert (LL : zlen L = 8) by (unfold L, zlen; rewrite map_length, digs_len; reflexivity). assert (HL : Forall digit L) by (apply mapped; auto).
  match goal with |- loop 0 8 ?body 0 = _ => destruct (loop_rule _ (fun j out => out = octs (firstn (Z.to_nat j) L)) 0 8 body 0) as (out & E & K) end.
  - lia.
  - reflexivity.
  - intros j out Hj ->.
    assert (F : Z.land (Z.shiftr n (j * 3)) 7 = field n 3 j).
    { change 7 with (2 ^ 3 - 1). rewrite land_mask by lia. rewrite Z.shiftr_div_pow2 by lia. unfold field. rewrite (Z.mul_comm 3 j). reflexivity. }
    rewrite F. assert (FD : digit (field n 3 j)) by (unfold digit, field; change (2 ^ 3) with 8; apply Z.mod_pos_bound; lia).
    rewrite rd_ok by (destruct Hm as (-> & _); exact FD). cbn [bind]. eexists. split; [reflexivity|].
    assert (FN : length (firstn (Z.to_nat j) L) = Z.to_nat j) by (rewrite firstn_length; unfold zlen in LL; lia).
    assert (RO : 0 <= octs (firstn (Z.to_nat j) L) < 2 ^ (j * 3)).
    { assert (HF : Forall digit (firstn (Z.to_nat j) L)) by (rewrite <- (firstn_skipn (Z.to_nat j) L), Forall_app in HL; apply HL).
      pose proof (octs_range _ HF) as R. rewrite FN in R. replace (Z.of_nat (Z.to_nat j)) with j in R by lia. change 8 with (2 ^ 3) in R. rewrite <- Z.pow_mul_r in R by lia. rewrite (Z.mul_comm 3 j) in R. exact R. }
    rewrite Z.shiftl_mul_pow2 by lia. rewrite Z.lor_comm, lor_add by (auto; lia).
    replace (Z.to_nat (j + 1)) with (S (Z.to_nat j)) by lia.
    assert (G : firstn (S (Z.to_nat j)) L = firstn (Z.to_nat j) L ++ [geti m (field n 3 j)]).
    { assert (GJ : geti L j = geti m (field n 3 j)).
      { rewrite <- (geti_digs 8) by lia. unfold L. pose proof (digs_len 8 n) as Ld. set (l := digs 8 n) in *. clearbody l. unfold geti at 1. rewrite nth_indep with (d' := geti m 0) by (rewrite map_length; lia). rewrite map_nth. reflexivity. }
      rewrite <- GJ. clear - LL Hj. unfold geti. assert (Hn : (Z.to_nat j < length L)%nat) by (unfold zlen in LL; lia). generalize dependent (Z.to_nat j). clear. induction L as [|a l IH]; intros k Hk; [cbn in Hk; lia|].
      destruct k; [reflexivity|]. cbn [firstn nth app]. f_equal. apply IH. cbn in Hk. lia. }
    rewrite G, octs_app, FN. replace (Z.of_nat (Z.to_nat j)) with j by lia. change 8 with (2 ^ 3). rewrite <- Z.pow_mul_r by lia. rewrite (Z.mul_comm 3 j). lia.
  - rewrite E, K. reflexivity.
Qed.

(** ** One block *)
Definition le3 (n : Z) : list Z := [n mod 256; n / 256 mod 256; n / 65536].
Definition amap (a0 a1 : Z) : list Z := if a1 <? a0 then map1 else map2.
Definition neg3 (B : list Z) : list Z := map (fun i => 255 - geti B i) [0; 1; 2; 3; 4; 5; 6; 7] ++ slice B 8 8.
Definition neg5 (B : list Z) : list Z :=
  let m := amap (geti B 0) (geti B 1) in
  [255 - geti B 1; 255 - geti B 0] ++ le3 (remap m (number (slice B 2 3))) ++ le3 (remap m (number (slice B 5 3))) ++ slice B 8 8.
Definition negb_ (fmt : Z) (B : list Z) : list Z := if fmt =? IL_DXT3 then neg3 B else neg5 B.

Lemma amap_ok : forall a0 a1, renaming (amap a0 a1).
Proof. intros. unfold amap. destruct (a1 <? a0); [apply renaming1 | apply renaming2]. Qed.
Lemma number_le3 : forall n, 0 <= n < 16777216 -> number (le3 n) = n.
Proof. intros n Hn. unfold le3. cbn [number]. lia. Qed.
Lemma le3_bytes : forall n, 0 <= n < 16777216 -> Forall (fun b => 0 <= b < 256) (le3 n).
Proof. intros n Hn. unfold le3. repeat constructor; lia. Qed.

Lemma u8_lnot : forall v, 0 <= v < 256 -> u8 (Z.lnot v) = 255 - v.
Proof. intros v Hv. unfold u8. pose proof (Z.add_lnot_diag v) as E. lia. Qed.

Lemma fix_local : forall m d p B q, renaming m -> 0 <= p -> p + zlen B <= zlen d -> 0 <= q -> q + 3 <= zlen B -> bytes B ->
  fix_indices m (p + q) (splice d p B) =
  Ok (splice d p (upd (upd (upd B q (remap m (number (slice B q 3)) mod 256)) (q + 1) (remap m (number (slice B q 3)) / 256 mod 256)) (q + 2) (remap m (number (slice B q 3)) / 65536))).
Proof.
  intros m d p B q Hm Hp Hl Hq Hq3 HB. unfold fix_indices.
  assert (N : rdn (splice d p B) (p + q) 3 = Ok (number (slice B q 3))).
  { rewrite rdn_ok by (rewrite ?zlen_splice; lia). f_equal. f_equal. change (Z.of_nat 3) with 3. rewrite slice_splice_in by lia. f_equal. lia. }
  rewrite N. cbn [bind]. assert (R : 0 <= number (slice B q 3)) by (apply number_in; auto; lia). rewrite remap_loop by auto. cbn [bind].
  pose proof (remap_range m (number (slice B q 3)) Hm) as RR. set (n := remap m (number (slice B q 3))) in *. clearbody n.
  rewrite <- !Z.add_assoc. rewrite wr_local by lia. cbn [bind]. rewrite wr_local by (rewrite ?zlen_upd; lia). cbn [bind]. rewrite wr_local by (rewrite ?zlen_upd; rewrite ?zlen_upd; lia).
  rewrite !Z.shiftr_div_pow2 by lia. change (2 ^ 8) with 256. change (2 ^ 16) with 65536. unfold u8. rewrite (Z.mod_small (n / 65536) 256) by lia. reflexivity.
Qed.

Lemma invert_op : forall fmt, fmt = IL_DXT3 \/ fmt = IL_DXT5 ->
  block_op 16 (fun p => if fmt =? IL_DXT3 then iInvertDxt3Alpha p else iInvertDxt5Alpha p) (negb_ fmt).
Proof.
  intros fmt Hf. split.
  - intros d p Hd Hp Hl. pose proof (zlen_slice d p 16 Hp ltac:(lia) Hl) as L. pose proof (bytes_slice d p 16 Hd) as HB.
    rewrite <- (splice_self d p 16 Hp ltac:(lia) Hl) at 1. set (B := slice d p 16) in *. clearbody B.
    destruct (block16 B L) as (b0 & b1 & b2 & b3 & b4 & b5 & b6 & b7 & b8 & b9 & b10 & b11 & b12 & b13 & b14 & b15 & ->). pose proof HB as HB'. rewrite bytes_Forall in HB'. repeat match goal with H : Forall _ (_ :: _) |- _ => inversion H; clear H; subst end.
    destruct Hf as [-> | -> ]; unfold negb_; cbn [Z.eqb Pos.eqb IL_DXT3 IL_DXT5].
    + unfold iInvertDxt3Alpha. unfold neg3. change (slice [b0; b1; b2; b3; b4; b5; b6; b7; b8; b9; b10; b11; b12; b13; b14; b15] 8 8) with [b8; b9; b10; b11; b12; b13; b14; b15]. cbn [map app]. get_tac.
      do 8 (rewrite loop_first by lia; rewrite rd_local by len_tac; cbn [bind]; rewrite wr_local by len_tac; cbn [bind]; cbn [Z.add Pos.add Pos.succ Pos.add_carry]; get_tac; upd_tac).
      rewrite !u8_lnot by auto. reflexivity.
    + unfold iInvertDxt5Alpha, neg5. change (slice [b0; b1; b2; b3; b4; b5; b6; b7; b8; b9; b10; b11; b12; b13; b14; b15] 8 8) with [b8; b9; b10; b11; b12; b13; b14; b15]. 
      change (slice [b0; b1; b2; b3; b4; b5; b6; b7; b8; b9; b10; b11; b12; b13; b14; b15] 2 3) with [b2; b3; b4]. change (slice [b0; b1; b2; b3; b4; b5; b6; b7; b8; b9; b10; b11; b12; b13; b14; b15] 5 3) with [b5; b6; b7]. get_tac.
      replace (rd (splice d p [b0; b1; b2; b3; b4; b5; b6; b7; b8; b9; b10; b11; b12; b13; b14; b15]) p) with (Ok b0).
      2:{ symmetry. pose proof (rd_local d [b0; b1; b2; b3; b4; b5; b6; b7; b8; b9; b10; b11; b12; b13; b14; b15] p ltac:(lia) ltac:(len_tac) 0 ltac:(len_tac)) as E. rewrite Z.add_0_r in E. rewrite E. reflexivity. }
      cbn [bind]. rewrite rd_local by len_tac. cbn [bind]. get_tac.
      replace (u8 (255 - b1)) with (255 - b1) by (unfold u8; rewrite Z.mod_small; lia). replace (u8 (255 - b0)) with (255 - b0) by (unfold u8; rewrite Z.mod_small; lia).
      replace (wr (splice d p [b0; b1; b2; b3; b4; b5; b6; b7; b8; b9; b10; b11; b12; b13; b14; b15]) p (255 - b1)) with (Ok (splice d p [255 - b1; b1; b2; b3; b4; b5; b6; b7; b8; b9; b10; b11; b12; b13; b14; b15])).
      2:{ symmetry. pose proof (wr_local d [b0; b1; b2; b3; b4; b5; b6; b7; b8; b9; b10; b11; b12; b13; b14; b15] p ltac:(lia) ltac:(len_tac) 0 (255 - b1) ltac:(len_tac)) as E. rewrite Z.add_0_r in E. rewrite E. reflexivity. }
      cbn [bind]. rewrite wr_local by len_tac. cbn [bind]. upd_tac. cbv zeta. fold (amap b0 b1). pose proof (amap_ok b0 b1) as Hm. set (m := amap b0 b1) in *. clearbody m.
      assert (R1 := remap_range m (number [b2; b3; b4]) Hm). assert (R2 := remap_range m (number [b5; b6; b7]) Hm).
      rewrite fix_local; [|auto|auto|len_tac|lia|len_tac|rewrite bytes_Forall; repeat constructor; lia].
      change (slice [255 - b1; 255 - b0; b2; b3; b4; b5; b6; b7; b8; b9; b10; b11; b12; b13; b14; b15] 2 3) with [b2; b3; b4]. set (n1 := remap m (number [b2; b3; b4])) in *. clearbody n1.
      cbn [bind Z.add Pos.add Pos.succ Pos.add_carry]. upd_tac.
      rewrite fix_local; [|auto|auto|len_tac|lia|len_tac|rewrite bytes_Forall; repeat constructor; lia].
      match goal with |- context [slice (?a :: ?l) 5 3] => change (slice (a :: l) 5 3) with [b5; b6; b7] end. set (n2 := remap m (number [b5; b6; b7])) in *. clearbody n2.
      cbn [bind Z.add Pos.add Pos.succ Pos.add_carry]. upd_tac. reflexivity.
  - intros B HB L. destruct (block16 B L) as (b0 & b1 & b2 & b3 & b4 & b5 & b6 & b7 & b8 & b9 & b10 & b11 & b12 & b13 & b14 & b15 & ->). rewrite bytes_Forall in HB. repeat match goal with H : Forall _ (_ :: _) |- _ => inversion H; clear H; subst end.
    destruct Hf as [-> | -> ]; unfold negb_; cbn [Z.eqb Pos.eqb IL_DXT3 IL_DXT5].
    + split; [reflexivity|]. rewrite bytes_Forall. unfold neg3. change (slice [b0; b1; b2; b3; b4; b5; b6; b7; b8; b9; b10; b11; b12; b13; b14; b15] 8 8) with [b8; b9; b10; b11; b12; b13; b14; b15]. cbn [map app]. get_tac. repeat constructor; lia.
    + split; [reflexivity|]. rewrite bytes_Forall. unfold neg5. change (slice [b0; b1; b2; b3; b4; b5; b6; b7; b8; b9; b10; b11; b12; b13; b14; b15] 8 8) with [b8; b9; b10; b11; b12; b13; b14; b15]. cbv zeta. get_tac.
      pose proof (amap_ok b0 b1) as Hm. repeat (apply Forall_app; split); try apply le3_bytes; try apply remap_range; auto; repeat constructor; lia.
Qed.

(** the alpha values of an inverted block *)
Lemma alpha_neg : forall a0 a1 c, 0 <= a0 < 256 -> 0 <= a1 < 256 -> digit c -> alpha_at (255 - a1) (255 - a0) (geti (amap a0 a1) c) = 255 - alpha_at a0 a1 c.
Proof.
  intros a0 a1 c H0 H1 Hc. unfold amap, alpha_at. replace (255 - a0 <? 255 - a1) with (a1 <? a0) by lia.
  destruct (a1 <? a0) eqn:Q; pattern c; apply code8; auto;
  match goal with |- context [geti ?m ?k] => let v := eval vm_compute in (geti m k) in change (geti m k) with v end; cbn [Z.eqb Pos.eqb Z.leb Z.compare Pos.compare Pos.compare_cont]; lia.
Qed.
Lemma field_split : forall a b k, 0 <= a < 16777216 -> 0 <= k < 16 -> field (a + 16777216 * b) 3 k = if k <? 8 then field a 3 k else field b 3 (k - 8).
Proof.
  intros a b k Ha Hk. unfold field. change 16777216 with (2 ^ 24) in *. destruct (k <? 8) eqn:Q.
  - replace (2 ^ 24) with (2 ^ (3 * k) * 2 ^ 3 * 2 ^ (24 - 3 * k - 3)) by (rewrite <- !Z.pow_add_r by lia; replace (3 * k + 3 + (24 - 3 * k - 3)) with 24 by lia; reflexivity).
    assert (0 < 2 ^ (3 * k)) by (apply Z.pow_pos_nonneg; lia).
    replace (a + 2 ^ (3 * k) * 2 ^ 3 * 2 ^ (24 - 3 * k - 3) * b) with (a + (2 ^ 3 * (2 ^ (24 - 3 * k - 3) * b)) * 2 ^ (3 * k)) by ring.
    rewrite Z.div_add by lia. rewrite (Z.mul_comm (2 ^ 3)). apply Z.mod_add. discriminate.
  - replace (2 ^ (3 * k)) with (2 ^ 24 * 2 ^ (3 * (k - 8))) by (rewrite <- Z.pow_add_r by lia; f_equal; lia).
    rewrite <- Z.div_div; [|discriminate|apply Z.pow_pos_nonneg; lia]. replace (a + 2 ^ 24 * b) with (a + b * 2 ^ 24) by ring. rewrite Z.div_add by discriminate. rewrite (Z.div_small a) by exact Ha. reflexivity.
Qed.

(** the four bits of a byte and its complement *)
Lemma number_neg : forall l, number (map (fun b => 255 - b) l) = 256 ^ zlen l - 1 - number l.
Proof.
  induction l as [|b l IH]; [reflexivity|]. cbn [map number]. rewrite IH. replace (zlen (b :: l)) with (1 + zlen l) by (unfold zlen; cbn [length]; lia).
  rewrite Z.pow_add_r by (try lia; unfold zlen; lia). change (256 ^ 1) with 256. lia.
Qed.
Lemma field_neg : forall n k, 0 <= n < 2 ^ 64 -> 0 <= k < 16 -> field (2 ^ 64 - 1 - n) 4 k = 15 - field n 4 k.
Proof.
  intros n k Hn Hk. unfold field. assert (P : 0 < 2 ^ (4 * k)) by (apply Z.pow_pos_nonneg; lia).
  assert (E : 2 ^ 64 = 2 ^ (4 * k) * (16 * 2 ^ (60 - 4 * k))) by (change 16 with (2 ^ 4); rewrite <- !Z.pow_add_r by lia; f_equal; lia).
  change (2 ^ 4) with 16. rewrite E. set (u := 2 ^ (4 * k)) in *. set (v := 2 ^ (60 - 4 * k)).
  assert (D : (u * (16 * v) - 1 - n) / u = 16 * v - 1 - n / u).
  { symmetry. apply Z.div_unique with (r := u - 1 - n mod u); [left; pose proof (Z.mod_pos_bound n u P); lia|]. pose proof (Z.div_mod n u ltac:(lia)) as DM. rewrite DM at 1. ring. }
  rewrite D. lia.
Qed.

Lemma invert_texel : forall fmt B k ch, fmt = IL_DXT3 \/ fmt = IL_DXT5 -> bytes B -> zlen B = 16 -> 0 <= k < 16 ->
  texel fmt (negb_ fmt B) k ch = if ch =? 3 then 255 - texel fmt B k 3 else texel fmt B k ch.
Proof.
  intros fmt B k ch Hf HB L Hk. destruct (block16 B L) as (b0 & b1 & b2 & b3 & b4 & b5 & b6 & b7 & b8 & b9 & b10 & b11 & b12 & b13 & b14 & b15 & ->).
  rewrite bytes_Forall in HB. repeat match goal with H : Forall _ (_ :: _) |- _ => inversion H; clear H; subst end.
  destruct Hf as [-> | -> ]; unfold texel, negb_; cbn [Z.eqb Pos.eqb IL_DXT1 IL_DXT3 IL_DXT5].
  - unfold dxt3, neg3. change (slice [b0; b1; b2; b3; b4; b5; b6; b7; b8; b9; b10; b11; b12; b13; b14; b15] 8 8) with [b8; b9; b10; b11; b12; b13; b14; b15]. cbn [map app]. get_tac. destruct (ch =? 3); [|reflexivity]. cbn [Z.eqb Pos.eqb].
    change (slice [255 - b0; 255 - b1; 255 - b2; 255 - b3; 255 - b4; 255 - b5; 255 - b6; 255 - b7; b8; b9; b10; b11; b12; b13; b14; b15] 0 8) with (map (fun b => 255 - b) [b0; b1; b2; b3; b4; b5; b6; b7]).
    change (slice [b0; b1; b2; b3; b4; b5; b6; b7; b8; b9; b10; b11; b12; b13; b14; b15] 0 8) with [b0; b1; b2; b3; b4; b5; b6; b7]. rewrite number_neg. change (256 ^ zlen [b0; b1; b2; b3; b4; b5; b6; b7]) with (2 ^ 64).
    rewrite field_neg; auto; [unfold wide4; lia|]. change (2 ^ 64) with (256 ^ zlen [b0; b1; b2; b3; b4; b5; b6; b7]). apply number_range. rewrite bytes_Forall. repeat constructor; lia.
  - unfold dxt5, neg5. change (slice [b0; b1; b2; b3; b4; b5; b6; b7; b8; b9; b10; b11; b12; b13; b14; b15] 8 8) with [b8; b9; b10; b11; b12; b13; b14; b15].
    change (slice [b0; b1; b2; b3; b4; b5; b6; b7; b8; b9; b10; b11; b12; b13; b14; b15] 2 3) with [b2; b3; b4]. change (slice [b0; b1; b2; b3; b4; b5; b6; b7; b8; b9; b10; b11; b12; b13; b14; b15] 5 3) with [b5; b6; b7]. cbv zeta. get_tac.
    pose proof (amap_ok b0 b1) as Hm. destruct (ch =? 3); [|reflexivity]. cbn [Z.eqb Pos.eqb].
    set (n1 := number [b2; b3; b4]) in *. set (n2 := number [b5; b6; b7]) in *.
    match goal with |- alpha_at (geti ?X 0) (geti ?X 1) (field (number (slice ?X 2 6)) 3 k) = _ => change (geti X 0) with (255 - b1); change (geti X 1) with (255 - b0); change (slice X 2 6) with (le3 (remap (amap b0 b1) n1) ++ le3 (remap (amap b0 b1) n2)) end.
    change (slice [b0; b1; b2; b3; b4; b5; b6; b7; b8; b9; b10; b11; b12; b13; b14; b15] 2 6) with ([b2; b3; b4] ++ [b5; b6; b7]).
    assert (NA : forall x y z l, number ([x; y; z] ++ l) = number [x; y; z] + 16777216 * number l) by (intros; cbn [app number]; lia).
    assert (NL : forall n l, 0 <= n < 16777216 -> number (le3 n ++ l) = n + 16777216 * number l) by (intros n l Hn; unfold le3; rewrite NA; fold (le3 n); rewrite number_le3 by auto; reflexivity).
    pose proof (remap_range (amap b0 b1) n1 Hm) as R1. pose proof (remap_range (amap b0 b1) n2 Hm) as R2.
    rewrite NL, number_le3 by auto. rewrite NA. fold n1 n2. assert (0 <= n1 < 16777216) by (unfold n1; cbn [number]; lia). assert (0 <= n2 < 16777216) by (unfold n2; cbn [number]; lia).
    rewrite !field_split by auto.
    assert (DF : forall n i, digit (field n 3 i)) by (intros; unfold digit, field; change (2 ^ 3) with 8; apply Z.mod_pos_bound; lia).
    destruct (k <? 8) eqn:Q; rewrite field_remap by (auto; lia); apply alpha_neg; auto.
Qed.

Lemma invert_twice : forall fmt B, fmt = IL_DXT3 \/ fmt = IL_DXT5 -> bytes B -> zlen B = 16 -> negb_ fmt (negb_ fmt B) = B.
Proof.
  intros fmt B Hf HB L. destruct (block16 B L) as (b0 & b1 & b2 & b3 & b4 & b5 & b6 & b7 & b8 & b9 & b10 & b11 & b12 & b13 & b14 & b15 & ->).
  rewrite bytes_Forall in HB. repeat match goal with H : Forall _ (_ :: _) |- _ => inversion H; clear H; subst end.
  destruct Hf as [-> | -> ]; unfold negb_; cbn [Z.eqb Pos.eqb IL_DXT1 IL_DXT3 IL_DXT5].
  - unfold neg3 at 2. change (slice [b0; b1; b2; b3; b4; b5; b6; b7; b8; b9; b10; b11; b12; b13; b14; b15] 8 8) with [b8; b9; b10; b11; b12; b13; b14; b15]. cbn [map app]. get_tac.
    unfold neg3. match goal with |- context [slice (?a :: ?l) 8 8] => change (slice (a :: l) 8 8) with [b8; b9; b10; b11; b12; b13; b14; b15] end. cbn [map app]. get_tac. repeat (apply cons_eq; [lia|]). reflexivity.
  - unfold neg5 at 2. change (slice [b0; b1; b2; b3; b4; b5; b6; b7; b8; b9; b10; b11; b12; b13; b14; b15] 8 8) with [b8; b9; b10; b11; b12; b13; b14; b15].
    change (slice [b0; b1; b2; b3; b4; b5; b6; b7; b8; b9; b10; b11; b12; b13; b14; b15] 2 3) with [b2; b3; b4]. change (slice [b0; b1; b2; b3; b4; b5; b6; b7; b8; b9; b10; b11; b12; b13; b14; b15] 5 3) with [b5; b6; b7]. cbv zeta. get_tac.
    pose proof (amap_ok b0 b1) as Hm. pose proof (remap_range (amap b0 b1) (number [b2; b3; b4]) Hm) as R1. pose proof (remap_range (amap b0 b1) (number [b5; b6; b7]) Hm) as R2.
    unfold neg5. match goal with |- context [slice ?X 8 8] => set (Y := X) end.
    change (slice Y 8 8) with [b8; b9; b10; b11; b12; b13; b14; b15]. change (slice Y 2 3) with (le3 (remap (amap b0 b1) (number [b2; b3; b4]))). change (slice Y 5 3) with (le3 (remap (amap b0 b1) (number [b5; b6; b7]))).
    change (geti Y 0) with (255 - b1). change (geti Y 1) with (255 - b0). cbv zeta.
    replace (amap (255 - b1) (255 - b0)) with (amap b0 b1) by (unfold amap; replace (255 - b0 <? 255 - b1) with (b1 <? b0) by lia; reflexivity).
    rewrite !number_le3 by auto. rewrite !remap_twice by (auto; cbn [number]; lia).
    unfold le3. cbn [app number]. repeat (apply cons_eq; [lia|]). reflexivity.
Qed.

(** ** The whole data *)
Lemma invert_ok : forall s fmt bs w h d c, fmt <> IL_DXT1 -> carries s fmt bs w h d c ->
  exists c', ilInvertSurfaceDxtcDataAlpha s = Ok (true, mkSurf (simg s) (Some c') fmt (DxtcSize s), []) /\ bytes c' /\ zlen c' = zlen c /\
    forall b, 0 <= b < quads w * quads h * d -> blk bs c' b = negb_ fmt (blk bs c b).
Proof.
  intros s fmt bs w h d c Hne (Hf & Hw & Hh & Hd & HN & EW & EH & ED & EF & EC & Hc & Hl & HB).
  pose proof (quads_pos w Hw) as Qw. pose proof (quads_pos h Hh) as Qh. unfold ilInvertSurfaceDxtcDataAlpha. rewrite EC, EF, EW, EH, ED. fold (quads w) (quads h). cbv zeta.
  assert (H35 : (fmt = IL_DXT3 \/ fmt = IL_DXT5) /\ bs = 16) by (destruct Hf as [(-> & ->) | [(-> & ->) | (-> & ->)]]; [exfalso; apply Hne; reflexivity | auto | auto]). destruct H35 as (H35 & ->).
  replace (negb ((fmt =? IL_DXT3) || (fmt =? IL_DXT5))) with false by (destruct H35 as [-> | -> ]; reflexivity).
  set (N := quads w * quads h * d) in *. assert (HN0 : 0 <= N) by (unfold N; repeat apply Z.mul_nonneg_nonneg; lia).
  destruct (run_blocks 16 _ _ N 0 N c ltac:(lia) (invert_op fmt H35) Hc Hl ltac:(lia) HN0 ltac:(lia)) as (c' & E & B & L & K).
  change (loop 0 N (fun i => if fmt =? IL_DXT3 then iInvertDxt3Alpha (i * 16) else iInvertDxt5Alpha (i * 16)) c = Ok c') in E.
  rewrite E. cbn [bind]. exists c'. split; [reflexivity|]. split; [exact B|]. split; [lia|]. intros b Hb. rewrite K by auto. replace ((0 <=? b) && (b <? 0 + N)) with true by lia. reflexivity.
Qed.

(** inverting the alpha of the compressed data and decoding it shows the same colours with the alpha values
    subtracted from 255 *)
Theorem C91_invert : forall alloc s fmt bs w h d c, allocator_ok alloc -> plenty alloc -> carries s fmt bs w h d c -> fmt <> IL_DXT1 ->
  exists s1 c' s2 s3, ilInvertSurfaceDxtcDataAlpha s = Ok (true, s1, []) /\ carries s1 fmt bs w h d c' /\ simg s1 = simg s /\
    ilDxtcDataToSurface alloc s = Ok (true, s2, []) /\ shows (simg s2) w h d (texels fmt bs w h c) /\
    ilDxtcDataToSurface alloc s1 = Ok (true, s3, []) /\
    shows (simg s3) w h d (fun x t z ch => if ch =? 3 then 255 - texels fmt bs w h c x t z 3 else texels fmt bs w h c x t z ch).
Proof.
  intros alloc s fmt bs w h d c Ha Hp Hs Hne. destruct (invert_ok s fmt bs w h d c Hne Hs) as (c' & E & B & L & K).
  pose proof (carries_again s fmt bs w h d c c' Hs B L) as Hs1.
  destruct (C89_decode_partial alloc s fmt bs w h d c Ha Hp Hs) as (s2 & E2 & _ & _ & S2). destruct (C89_decode_partial alloc _ fmt bs w h d c' Ha Hp Hs1) as (s3 & E3 & _ & _ & S3).
  do 4 eexists. split; [exact E|]. split; [exact Hs1|]. split; [reflexivity|]. split; [exact E2|]. split; [exact S2|]. split; [exact E3|].
  destruct S3 as (buf & I & EW & EH & ED & EF & ET & EO & P). exists buf. repeat match goal with |- _ /\ _ => split end; auto.
  intros x t z ch Hx Ht Hz Hch. rewrite P by auto. destruct Hs as (Hf & Hw & Hh & Hd & _ & _ & _ & _ & _ & _ & Hc & Hl & _).
  assert (H35 : (fmt = IL_DXT3 \/ fmt = IL_DXT5) /\ bs = 16) by (destruct Hf as [(-> & ->) | [(-> & ->) | (-> & ->)]]; [exfalso; apply Hne; reflexivity | auto | auto]). destruct H35 as (H35 & ->).
  assert (Hx4 : 0 <= x / 4 < quads w) by (unfold quads; lia). assert (Ht4 : 0 <= t / 4 < quads h) by (unfold quads; lia).
  assert (RB : 0 <= z * quads h + t / 4 < d * quads h) by (apply (cell_bound (quads h) d z); lia).
  assert (CB : 0 <= block_of w h x t z < d * quads h * quads w) by (unfold block_of; apply (cell_bound (quads w) (d * quads h)); auto).
  replace (d * quads h * quads w) with (quads w * quads h * d) in CB by ring.
  unfold texels. rewrite K by auto. apply invert_texel; auto.
  - unfold blk. apply bytes_slice. exact Hc.
  - apply (blk_zlen 16 c _ (quads w * quads h * d)); auto; lia.
  - unfold in_block. pose proof (Z.mod_pos_bound t 4 ltac:(lia)). pose proof (Z.mod_pos_bound x 4 ltac:(lia)). lia.
Qed.
Print Assumptions C91_invert.

(** inverting twice restores the data *)
Theorem C91_twice : forall s fmt bs w h d c, carries s fmt bs w h d c -> fmt <> IL_DXT1 ->
  exists s1, ilInvertSurfaceDxtcDataAlpha s = Ok (true, s1, []) /\ ilInvertSurfaceDxtcDataAlpha s1 = Ok (true, s, []).
Proof.
  intros s fmt bs w h d c Hs Hne. destruct (invert_ok s fmt bs w h d c Hne Hs) as (c1 & E1 & B1 & L1 & K1).
  pose proof (carries_again s fmt bs w h d c c1 Hs B1 L1) as Hs1. destruct (invert_ok _ fmt bs w h d c1 Hne Hs1) as (c2 & E2 & B2 & L2 & K2).
  eexists. split; [exact E1|]. rewrite E2. cbn [simg DxtcSize]. destruct Hs as (Hf & Hw & Hh & Hd & _ & _ & _ & _ & EF & EC & Hc & Hl & _).
  assert (H35 : (fmt = IL_DXT3 \/ fmt = IL_DXT5) /\ bs = 16) by (destruct Hf as [(-> & ->) | [(-> & ->) | (-> & ->)]]; [exfalso; apply Hne; reflexivity | auto | auto]). destruct H35 as (H35 & ->).
  assert (C : c2 = c).
  { apply (blocks_ext 16 c2 c (quads w * quads h * d)); try lia. intros b Hb. rewrite K2, K1 by auto. apply invert_twice; auto; [unfold blk; apply bytes_slice; exact Hc | apply (blk_zlen 16 c b (quads w * quads h * d)); auto; lia]. }
  subst c2. destruct s as [i dd ff zz]. cbn in *. subst. reflexivity.
Qed.
Print Assumptions C91_twice.

(** data of another format is refused and kept *)
Theorem C91_refused : forall s c, DxtcData s = Some c -> DxtcFormat s <> IL_DXT3 -> DxtcFormat s <> IL_DXT5 ->
  ilInvertSurfaceDxtcDataAlpha s = Ok (false, s, [IL_INVALID_PARAM]).
Proof.
  intros s c EC H3 H5. unfold ilInvertSurfaceDxtcDataAlpha. rewrite EC. replace (negb ((DxtcFormat s =? IL_DXT3) || (DxtcFormat s =? IL_DXT5))) with true by lia. reflexivity.
Qed.
Print Assumptions C91_refused.

(** an example: the picture of C89_ex *)
Lemma C91_ex : exists s s1, ilTexImageDxtc ex_alloc 5 2 1 IL_DXT5 (Some ex_dxt5) = Ok (true, s) /\ carries s IL_DXT5 16 5 2 1 ex_dxt5 /\ IL_DXT5 <> IL_DXT1 /\
  ilInvertSurfaceDxtcDataAlpha s = Ok (true, s1, []) /\ exists c, DxtcData s1 = Some c /\
  map (fun x => texels IL_DXT5 16 5 2 ex_dxt5 x 0 0 3) [0; 1; 4] = [143; 200; 255] /\ map (fun x => texels IL_DXT5 16 5 2 c x 0 0 3) [0; 1; 4] = [112; 55; 0].
Proof.
  destruct C89_ex as (s & _ & E & K & _). exists s. eexists. split; [exact E|]. split; [exact K|]. split; [discriminate|].
  vm_compute in E. injection E as <-. split; [vm_compute; reflexivity|]. eexists. split; [reflexivity|]. split; vm_compute; reflexivity.
Qed.
