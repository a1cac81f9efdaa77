(** Lemmas about the bitmap model: reading pixels. *)
From Coq Require Import ZArith List Lia Bool.
From Verif Require Import Base Slices BitLemmas Scatter Enums Utility Image ImageSpec ImageProps Elem Flip Lump LumpSpec LumpProofs LumpProps Channels Endian EndianProps Raw RawProps Pcx PcxProofs PcxProps PcxSafe Pal Bmp BmpSpec.
Import ListNotations.
Open Scope Z_scope.

(** ** Reading inside the file *)
Lemma item_in : forall n F p e, (0 < n)%nat -> 0 <= p -> p + Z.of_nat n <= zlen F -> zlen F < 4294967295 ->
  read_item n (Rd F p (zlen F) e) = Ok (true, unle (slice F p (Z.of_nat n)), Rd F (p + Z.of_nat n) (zlen F) e).
Proof.
  intros n F p e Hn Hp HF Hm. unfold read_item. assert (R := C21_read F (Rd F p (zlen F) e) (repeat 0 n) (Z.of_nat n) 1).
  rewrite R by (try (split; [reflexivity|cbn; lia]); try lia; rewrite zlen_repeat; lia). clear R. cbn [rpos rerr]. cbv zeta. rewrite Z.mul_1_r. rewrite rest_slice.
  assert (LS : zlen (slice F p (Z.of_nat n)) = Z.of_nat n) by (apply zlen_slice; lia). rewrite LS, Z.div_same by lia. change (1 =? 1) with true.
  rewrite skipn_all2 by (rewrite repeat_length; unfold zlen in LS; lia). rewrite !app_nil_r. reflexivity.
Qed.
Lemma slice_1 : forall F p, 0 <= p < zlen F -> slice F p 1 = [geti F p].
Proof. intros F p Hp. change 1 with (1 + 0). rewrite (slice_cons F p 0) by lia. rewrite slice_0. reflexivity. Qed.
Lemma slice_2 : forall F p, 0 <= p -> p + 2 <= zlen F -> slice F p 2 = [geti F p; geti F (p + 1)].
Proof. intros F p Hp HF. change 2 with (1 + 1). rewrite (slice_cons F p 1) by lia. rewrite slice_1 by lia. reflexivity. Qed.
Lemma slice_4 : forall F p, 0 <= p -> p + 4 <= zlen F -> slice F p 4 = [geti F p; geti F (p + 1); geti F (p + 2); geti F (p + 3)].
Proof. intros F p Hp HF. change 4 with (1 + (1 + 2)). rewrite (slice_cons F p (1 + 2)) by lia. rewrite (slice_cons F (p + 1) 2) by lia. replace (p + 1 + 1) with (p + 2) by lia. rewrite slice_2 by lia. replace (p + 2 + 1) with (p + 3) by lia. reflexivity. Qed.
Lemma item1 : forall F p e, 0 <= p < zlen F -> zlen F < 4294967295 -> read_item 1 (Rd F p (zlen F) e) = Ok (true, geti F p, Rd F (p + 1) (zlen F) e).
Proof. intros F p e Hp Hm. rewrite item_in by lia. change (Z.of_nat 1) with 1. rewrite slice_1 by lia. cbn [unle]. rewrite Z.mul_0_r, Z.add_0_r. reflexivity. Qed.
Lemma item2 : forall F p e, 0 <= p -> p + 2 <= zlen F -> zlen F < 4294967295 -> read_item 2 (Rd F p (zlen F) e) = Ok (true, word2 F p, Rd F (p + 2) (zlen F) e).
Proof. intros F p e Hp HF Hm. rewrite item_in by lia. change (Z.of_nat 2) with 2. rewrite slice_2 by lia. unfold word2. cbn [unle]. match goal with |- Ok (true, ?a, _) = Ok (true, ?b, _) => replace a with b by lia end. reflexivity. Qed.
Lemma item4 : forall F p e, 0 <= p -> p + 4 <= zlen F -> zlen F < 4294967295 -> read_item 4 (Rd F p (zlen F) e) = Ok (true, word4 F p, Rd F (p + 4) (zlen F) e).
Proof. intros F p e Hp HF Hm. rewrite item_in by lia. change (Z.of_nat 4) with 4. rewrite slice_4 by lia. unfold word4, word2. cbn [unle]. replace (p + 2 + 1) with (p + 3) by lia. match goal with |- Ok (true, ?a, _) = Ok (true, ?b, _) => replace a with b by lia end. reflexivity. Qed.
Lemma pad_in : forall F p e n, 0 <= n <= 4 -> 0 <= p -> p + n <= zlen F -> 0 < zlen F < 4294967295 -> read_pad n (Rd F p (zlen F) e) = Ok (Rd F (p + n) (zlen F) e).
Proof.
  intros F p e n Hn Hp HF Hm. unfold read_pad. assert (R := C21_read F (Rd F p (zlen F) e) [0; 0; 0; 0] 1 n).
  rewrite R by (try (split; [reflexivity|cbn; lia]); change (zlen [0; 0; 0; 0]) with 4; lia). cbn [rpos rerr]. cbv zeta. rewrite Z.mul_1_l, rest_slice, zlen_slice by lia. rewrite Z.div_1_r, Z.eqb_refl, app_nil_r. reflexivity.
Qed.
Lemma seek_pad_in : forall F p e n, 0 <= n -> 0 <= p -> p + n <= zlen F -> zlen F < 4294967295 -> seek_pad n (Rd F p (zlen F) e) = Ok (Rd F (p + n) (zlen F) e).
Proof.
  intros F p e n Hn Hp HF Hm. unfold seek_pad, iSeekRLump, seek_lump. cbn [rpos Lump.rsize rlump rerr]. change (IL_SEEK_CUR =? IL_SEEK_SET) with false. change (IL_SEEK_CUR =? IL_SEEK_CUR) with true. cbv iota.
  rewrite u32_small by lia. replace (zlen F <? p + n) with false by lia. reflexivity.
Qed.
Lemma seek_set_in : forall F p e n, 0 <= n <= zlen F -> zlen F < 2147483648 -> iSeekRLump n IL_SEEK_SET (Rd F p (zlen F) e) = Ok (0, Rd F n (zlen F) e).
Proof.
  intros F p e n Hn Hm. unfold iSeekRLump, seek_lump. cbn [rpos Lump.rsize rlump rerr]. change (IL_SEEK_SET =? IL_SEEK_SET) with true. cbv iota. rewrite i32_small by lia. replace (zlen F <? n) with false by lia.
  rewrite u32_small by lia. reflexivity.
Qed.

(** ** Loops *)
Lemma until_rule : forall {S} (I : Z -> S -> Prop) (body : Z -> S -> res (bool * S)) n lo s, I lo s ->
  (forall i s, lo <= i < lo + Z.of_nat n -> I i s -> exists s', body i s = Ok (true, s') /\ I (i + 1) s') ->
  exists s', until n lo body s = Ok (true, s') /\ I (lo + Z.of_nat n) s'.
Proof.
  intros S I body. induction n as [|n IH]; intros lo s Hs HB.
  - exists s. split; [reflexivity|]. rewrite Z.add_0_r. exact Hs.
  - destruct (HB lo s ltac:(lia) Hs) as (s1 & E1 & I1). cbn [until]. rewrite E1. cbn [bind].
    destruct (IH (lo + 1) s1 I1) as (s2 & E2 & I2). { intros i s2 Hi H2. apply HB; auto; lia. }
    exists s2. split; [exact E2|]. replace (lo + Z.of_nat (Datatypes.S n)) with (lo + 1 + Z.of_nat n) by lia. exact I2.
Qed.
Lemma until_safe : forall {S} (J : S -> Prop) (body : Z -> S -> res (bool * S)) n lo s, J s ->
  (forall i s, lo <= i < lo + Z.of_nat n -> J s -> exists ok s', body i s = Ok (ok, s') /\ J s') ->
  exists ok s', until n lo body s = Ok (ok, s') /\ J s'.
Proof.
  intros S J body. induction n as [|n IH]; intros lo s Hs HB; [cbn; eauto|].
  destruct (HB lo s ltac:(lia) Hs) as (ok & s1 & E1 & I1). cbn [until]. rewrite E1. cbn [bind]. destruct ok; [|eauto].
  apply IH; auto. intros i s2 Hi H2. apply HB; auto; lia.
Qed.

(** [d'] is [d] with the [n] bytes from [base] on replaced *)
Definition filled (d d' : list Z) (base n : Z) (v : Z -> Z) : Prop :=
  zlen d' = zlen d /\ forall q, 0 <= q < zlen d -> geti d' q = if (base <=? q) && (q <? base + n) then v (q - base) else geti d q.
Lemma filled_0 : forall d base v, filled d d base 0 v.
Proof. intros. split; [reflexivity|]. intros q Hq. replace ((base <=? q) && (q <? base + 0)) with false by lia. reflexivity. Qed.
Lemma filled_upd : forall d i x, 0 <= i < zlen d -> filled d (upd d i x) i 1 (fun _ => x).
Proof.
  intros d i x Hi. split; [apply zlen_upd; lia|]. intros q Hq. rewrite geti_upd by lia. destruct (q =? i) eqn:E.
  - replace ((i <=? q) && (q <? i + 1)) with true by lia. reflexivity.
  - replace ((i <=? q) && (q <? i + 1)) with false by lia. reflexivity.
Qed.
Lemma filled_app : forall d d1 d2 base n1 n2 v1 v2, 0 <= n1 -> 0 <= n2 -> filled d d1 base n1 v1 -> filled d1 d2 (base + n1) n2 v2 ->
  filled d d2 base (n1 + n2) (fun q => if q <? n1 then v1 q else v2 (q - n1)).
Proof.
  intros d d1 d2 base n1 n2 v1 v2 H1 H2 (L1 & G1) (L2 & G2). split; [lia|]. intros q Hq. rewrite G2, G1 by lia.
  destruct ((base + n1 <=? q) && (q <? base + n1 + n2)) eqn:E2.
  - replace ((base <=? q) && (q <? base + (n1 + n2))) with true by lia. replace (q - base <? n1) with false by lia. f_equal. lia.
  - destruct ((base <=? q) && (q <? base + n1)) eqn:E1.
    + replace ((base <=? q) && (q <? base + (n1 + n2))) with true by lia. replace (q - base <? n1) with true by lia. reflexivity.
    + replace ((base <=? q) && (q <? base + (n1 + n2))) with false by lia. reflexivity.
Qed.
Lemma filled_ext : forall d d' base n n' v v', n = n' -> (forall q, 0 <= q < n -> v q = v' q) -> filled d d' base n v -> filled d d' base n' v'.
Proof.
  intros d d' base n n' v v' <- E (L & G). split; [exact L|]. intros q Hq. rewrite G by lia. destruct ((base <=? q) && (q <? base + n)) eqn:B; [|reflexivity]. apply E. lia.
Qed.

(** rows of [L] bytes each, read from rows of [stride] bytes *)
Lemma rows_rule : forall F p e H L stride v (body : Z -> pix -> res (bool * pix)) d, 0 <= H -> 0 <= L -> 
  (forall j d1, 0 <= j < H -> zlen d1 = zlen d -> exists d2, body j (d1, Rd F (p + j * stride) (zlen F) e) = Ok (true, (d2, Rd F (p + (j + 1) * stride) (zlen F) e)) /\ filled d1 d2 (j * L) L (v j)) ->
  H * L <= zlen d ->
  exists d', until (Z.to_nat H) 0 body (d, Rd F p (zlen F) e) = Ok (true, (d', Rd F (p + H * stride) (zlen F) e)) /\ zlen d' = zlen d /\
    forall y i, 0 <= y < H -> 0 <= i < L -> geti d' (y * L + i) = v y i.
Proof.
  intros F p e H L stride v body d HH HL HB HS.
  destruct (until_rule (fun j s => exists d', s = (d', Rd F (p + j * stride) (zlen F) e) /\ zlen d' = zlen d /\ forall y i, 0 <= y < j -> 0 <= i < L -> geti d' (y * L + i) = v y i) body (Z.to_nat H) 0 (d, Rd F p (zlen F) e)) as (s & E & d' & -> & LD & G).
  - exists d. rewrite Z.mul_0_l, Z.add_0_r. split; [reflexivity|]. split; [reflexivity|]. intros; lia.
  - rewrite Z2Nat.id by lia. intros j s Hj (d1 & -> & L1 & G1). destruct (HB j d1 ltac:(lia) L1) as (d2 & E2 & F2). exists (d2, Rd F (p + (j + 1) * stride) (zlen F) e). split; [exact E2|].
    exists d2. split; [reflexivity|]. destruct F2 as (L2 & G2). split; [lia|]. intros y i Hy Hi. assert (0 <= y * L) by nia. assert (y * L + L <= H * L) by nia. rewrite G2 by lia. destruct (y =? j) eqn:EY.
    + replace y with j in * by lia. replace ((j * L <=? j * L + i) && (j * L + i <? j * L + L)) with true by lia. f_equal. lia.
    + assert (y * L + L <= j * L) by nia. replace ((j * L <=? y * L + i) && (y * L + i <? j * L + L)) with false by lia. apply G1; lia.
  - rewrite Z2Nat.id, Z.add_0_l in * by lia. exists d'. auto.
Qed.

(** ** 1 bit *)
Lemma bit_val : forall b m, 0 <= m -> (if Z.land b (2 ^ m) =? 0 then 0 else 1) = b / 2 ^ m mod 2.
Proof.
  intros b m Hm. rewrite land_pow2 by lia. rewrite <- Z.testbit_spec' by lia. destruct (Z.testbit b m); cbn [Z.b2z].
  - assert (0 < 2 ^ m) by (apply Z.pow_pos_nonneg; lia). replace (1 * 2 ^ m =? 0) with false by lia. reflexivity.
  - reflexivity.
Qed.
Lemma put_bits_ok : forall c b W base i d, 0 <= i < W -> 0 <= base -> base + W <= zlen d -> zlen d < 4294967296 ->
  exists d', put_bits c (2 ^ (Z.of_nat c - 1)) b W base i d = Ok (Z.min W (i + Z.of_nat c), d') /\
    filled d d' (base + i) (Z.min W (i + Z.of_nat c) - i) (fun q => b / 2 ^ (Z.of_nat c - 1 - q) mod 2).
Proof.
  induction c as [|c IH]; intros b W base i d Hi Hb HW HL; cbn [put_bits].
  - exists d. rewrite Z.add_0_r. replace (Z.min W i) with i by lia. split; [reflexivity|]. rewrite Z.sub_diag. apply filled_0.
  - rewrite u32_small by lia. rewrite wr_ok by lia. cbn [bind]. assert (M : Z.of_nat (S c) - 1 = Z.of_nat c) by lia. rewrite M. rewrite bit_val by lia.
    assert (FU := filled_upd d (base + i) (b / 2 ^ Z.of_nat c mod 2) ltac:(lia)).
    destruct (W <=? i + 1) eqn:EW.
    + eexists. split; [do 2 f_equal; lia|]. eapply filled_ext; [| |exact FU]; [lia|]. intros q Hq. replace (Z.of_nat c - q) with (Z.of_nat c) by lia. reflexivity.
    + destruct c as [|c].
      * cbn [put_bits]. eexists. split; [do 2 f_equal; lia|]. eapply filled_ext; [| |exact FU]; [lia|]. intros q Hq. replace (Z.of_nat 0 - q) with (Z.of_nat 0) by lia. reflexivity.
      * assert (P2 : Z.shiftr (2 ^ Z.of_nat (S c)) 1 = 2 ^ (Z.of_nat (S c) - 1)).
        { rewrite Z.shiftr_div_pow2 by lia. change (2 ^ 1) with 2. replace (Z.of_nat (S c)) with (Z.of_nat (S c) - 1 + 1) at 1 by lia. rewrite Z.pow_add_r by lia. change (2 ^ 1) with 2. apply Z.div_mul. lia. }
        rewrite P2. destruct (IH b W base (i + 1) (upd d (base + i) (b / 2 ^ Z.of_nat (S c) mod 2))) as (d' & E & FI); try lia; try (rewrite zlen_upd; lia).
        exists d'. rewrite E. split; [do 2 f_equal; lia|]. replace (base + (i + 1)) with (base + i + 1) in FI by lia.
        eapply filled_ext; [| |eapply (filled_app d _ d' (base + i) 1 _ _ _ ltac:(lia)); [|exact FU|exact FI]]; [lia| |lia].
        intros q Hq. cbv beta. destruct (q <? 1) eqn:EQ; [replace (Z.of_nat (S c) - q) with (Z.of_nat (S c)) by lia; reflexivity|].
        do 3 f_equal. lia.
Qed.
Lemma row1_ok : forall fuel F p e W base i d, 0 <= i -> i mod 8 = 0 \/ W <= i -> 0 <= base -> base + W <= zlen d -> zlen d < 4294967296 -> 0 <= p -> p + (W + 7) / 8 <= zlen F -> zlen F < 4294967295 ->
  W - i <= Z.of_nat fuel -> i <= W ->
  exists d', row1 fuel W base i d (Rd F (p + (i + 7) / 8) (zlen F) e) = Ok (true, (d', Rd F (p + (W + 7) / 8) (zlen F) e)) /\
    filled d d' (base + i) (W - i) (fun q => geti F (p + (i + q) / 8) / 2 ^ (7 - (i + q) mod 8) mod 2).
Proof.
  induction fuel as [|fuel IH]; intros F p e W base i d Hi Hm Hb HW HL Hp HF HFl Hf HiW; cbn [row1].
  - replace (i <? W) with false by lia. replace i with W in * by lia. exists d. split; [reflexivity|]. rewrite Z.sub_diag. apply filled_0.
  - destruct (i <? W) eqn:E.
    2: { replace i with W in * by lia. exists d. split; [reflexivity|]. rewrite Z.sub_diag. apply filled_0. }
    assert (M8 : i mod 8 = 0) by lia. clear Hm. rewrite item1 by lia. cbn [bind negb].
    destruct (put_bits_ok 8 (geti F (p + (i + 7) / 8)) W base i d) as (d1 & E1 & F1); try lia. change (2 ^ (Z.of_nat 8 - 1)) with 128 in E1. rewrite E1. cbn [bind]. change (Z.of_nat 8) with 8 in *.
    assert (L1 := proj1 F1).
    destruct (IH F p e W base (Z.min W (i + 8)) d1) as (d2 & E2 & F2); try lia.
    replace (p + (i + 7) / 8 + 1) with (p + (Z.min W (i + 8) + 7) / 8) by lia. rewrite E2. exists d2. split; [reflexivity|].
    replace (base + Z.min W (i + 8)) with (base + i + (Z.min W (i + 8) - i)) in F2 by lia.
    eapply filled_ext; [| |eapply filled_app; [| |exact F1|exact F2]]; try lia.
    intros q Hq. cbv beta. destruct (q <? Z.min W (i + 8) - i) eqn:EQ.
    + replace ((i + q) / 8) with ((i + 7) / 8) by lia. replace (7 - (i + q) mod 8) with (8 - 1 - q) by lia. reflexivity.
    + replace (Z.min W (i + 8) + (q - (Z.min W (i + 8) - i))) with (i + q) by lia. reflexivity.
Qed.

(** ** 4 bits *)
Lemma nibble_hi : forall b, Z.shiftr b 4 = b / 16.
Proof. intros. rewrite Z.shiftr_div_pow2 by lia. reflexivity. Qed.
Lemma nibble_lo : forall b, Z.land b 15 = b mod 16.
Proof. intros. change 15 with (Z.ones 4). rewrite Z.land_ones by lia. reflexivity. Qed.
Lemma row4_ok : forall fuel F p e W base i d, 0 <= i -> i mod 2 = 0 -> 0 <= base -> base + W <= zlen d -> zlen d < 4294967296 -> 0 <= p -> p + (W + 1) / 2 <= zlen F -> zlen F < 4294967295 ->
  W - i <= Z.of_nat fuel -> i <= W + 1 ->
  exists d', row4 fuel W base i d (Rd F (p + (i + 1) / 2) (zlen F) e) = Ok (true, (d', Rd F (p + (W + 1) / 2) (zlen F) e)) /\
    filled d d' (base + i) (Z.max 0 (W - i)) (fun q => if Z.even (i + q) then geti F (p + (i + q) / 2) / 16 else geti F (p + (i + q) / 2) mod 16).
Proof.
  induction fuel as [|fuel IH]; intros F p e W base i d Hi M2 Hb HW HL Hp HF HFl Hf HiW; cbn [row4].
  - replace (i <? W) with false by lia. exists d. split; [do 4 f_equal; lia|]. replace (Z.max 0 (W - i)) with 0 by lia. apply filled_0.
  - destruct (i <? W) eqn:E.
    2: { exists d. split; [do 4 f_equal; lia|]. replace (Z.max 0 (W - i)) with 0 by lia. apply filled_0. }
    rewrite item1 by lia. cbn [bind negb]. rewrite u32_small by lia. rewrite wr_ok by lia. cbn [bind]. rewrite nibble_hi. change 0x0F with 15. 
    assert (FU := filled_upd d (base + i) (geti F (p + (i + 1) / 2) / 16) ltac:(lia)).
    assert (EV : Z.even i = true) by (rewrite Zeven_mod; apply Zeq_is_eq_bool; exact M2).
    destruct (i + 1 =? W) eqn:EW.
    + eexists. split; [do 4 f_equal; lia|]. eapply filled_ext; [| |exact FU]; [lia|]. intros q Hq. replace (i + q) with i by lia. rewrite EV. replace (i / 2) with ((i + 1) / 2) by lia. reflexivity.
    + set (d1 := upd d (base + i) (geti F (p + (i + 1) / 2) / 16)) in *. assert (L1 : zlen d1 = zlen d) by (apply zlen_upd; lia).
      rewrite u32_small by lia. rewrite wr_ok by lia. cbn [bind]. rewrite nibble_lo.
      assert (FV := filled_upd d1 (base + (i + 1)) (geti F (p + (i + 1) / 2) mod 16) ltac:(lia)). set (d2 := upd d1 (base + (i + 1)) (geti F (p + (i + 1) / 2) mod 16)) in *. assert (L2 : zlen d2 = zlen d1) by (apply zlen_upd; lia).
      destruct (IH F p e W base (i + 2) d2) as (d3 & E3 & F3); try lia.
      replace (p + (i + 1) / 2 + 1) with (p + (i + 2 + 1) / 2) by lia. rewrite E3. exists d3. split; [reflexivity|].
      replace (base + (i + 1)) with (base + i + 1) in FV by lia. assert (FW := filled_app d d1 d2 (base + i) 1 1 _ _ ltac:(lia) ltac:(lia) FU FV).
      replace (base + (i + 2)) with (base + i + (1 + 1)) in F3 by lia.
      eapply filled_ext; [| |eapply filled_app; [| |exact FW|exact F3]]; try lia.
      intros q Hq. cbv beta. destruct (q <? 1 + 1) eqn:EQ.
      * destruct (q <? 1) eqn:EQ1.
        -- replace (i + q) with i by lia. rewrite EV. replace (i / 2) with ((i + 1) / 2) by lia. reflexivity.
        -- replace (i + q) with (i + 1) by lia. rewrite Z.even_add, EV. reflexivity.
      * replace (i + 2 + (q - (1 + 1))) with (i + q) by lia. reflexivity.
Qed.
