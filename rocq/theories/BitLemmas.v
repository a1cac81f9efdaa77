(** Bit operations as arithmetic.  Proof infrastructure, models no code. *)
From Coq Require Import ZArith Lia Bool.
From Verif Require Import Base.
Open Scope Z_scope.

Lemma land_pow2 : forall x k, 0 <= k -> Z.land x (2 ^ k) = (x / 2 ^ k mod 2) * 2 ^ k.
Proof.
  intros x k Hk. rewrite <- Z.testbit_spec' by lia. apply Z.bits_inj'. intros n Hn.
  rewrite Z.land_spec. destruct (Z.eq_dec n k) as [->|D].
  - rewrite Z.pow2_bits_true by lia. rewrite andb_true_r. rewrite Z.mul_pow2_bits by lia. rewrite Z.sub_diag.
    destruct (Z.testbit x k); reflexivity.
  - rewrite Z.pow2_bits_false by lia. rewrite andb_false_r. rewrite Z.mul_pow2_bits by lia.
    destruct (Z.testbit x k); cbn [Z.b2z]; [|rewrite Z.bits_0; reflexivity].
    destruct (Z.lt_ge_cases n k); [rewrite Z.testbit_neg_r by lia; reflexivity|].
    change 1 with (2 ^ 0). rewrite Z.pow2_bits_false by lia. reflexivity.
Qed.

Lemma lor_add : forall b a k, 0 <= k -> 0 <= a < 2 ^ k -> Z.lor (b * 2 ^ k) a = b * 2 ^ k + a.
Proof.
  intros b a k Hk Ha. rewrite <- Z.lxor_lor, <- Z.add_nocarry_lxor; auto.
  all: apply Z.bits_inj'; intros n Hn; rewrite Z.land_spec, Z.bits_0; rewrite Z.mul_pow2_bits by lia;
    destruct (Z.lt_ge_cases n k); [rewrite Z.testbit_neg_r by lia; reflexivity|].
  all: destruct (Z.eq_dec a 0) as [->|]; [rewrite Z.bits_0; apply andb_false_r|].
  all: rewrite (Z.bits_above_log2 a); [apply andb_false_r|lia|].
  all: apply Z.log2_lt_pow2; [lia|];
    apply Z.lt_le_trans with (2 ^ k); [lia|apply Z.pow_le_mono_r; lia].
Qed.

Lemma land_mask : forall x k, 0 <= k -> Z.land x (2 ^ k - 1) = x mod 2 ^ k.
Proof. intros x k Hk. rewrite <- Z.land_ones by lia. f_equal. rewrite Z.ones_equiv. lia. Qed.
