(** Property theorems C36: the bit reader. *)
From Coq Require Import ZArith List Lia Bool.
From Verif Require Import Base Slices Bits.
Import ListNotations.
Open Scope Z_scope.

(** The specification: the bits of a byte, most significant first, and of a byte string. *)
Definition bit (b k : Z) : Z := b / 2 ^ k mod 2.
Definition byte_bits (b : Z) : list Z := [bit b 7; bit b 6; bit b 5; bit b 4; bit b 3; bit b 2; bit b 1; bit b 0].
Definition stream (file : list Z) : list Z := concat (map byte_bits file).

(** cut a list in pieces of the given sizes *)
Fixpoint cut (sizes : list Z) (l : list Z) : list (list Z) :=
  match sizes with
  | [] => []
  | n :: t => firstn (Z.to_nat n) l :: cut t (skipn (Z.to_nat n) l)
  end.

(** the bits the reader has still to deliver *)
Fixpoint low_bits (k : nat) (b : Z) : list Z :=
  match k with O => [] | S k' => bit b (Z.of_nat k') :: low_bits k' b end.
Definition pending (f : bitf) : list Z :=
  (if (ByteBitOff f <? 0) || (7 <? ByteBitOff f) then [] else low_bits (Z.to_nat (ByteBitOff f + 1)) (Buff f)) ++ stream (rest f).
Definition fine (f : bitf) : Prop := -1 <= ByteBitOff f <= 8.

Lemma byte_bits_low : forall b, byte_bits b = low_bits 8 b.
Proof. reflexivity. Qed.

Lemma cur_bit_ok : forall f, 0 <= ByteBitOff f <= 7 -> cur_bit f = bit (Buff f) (ByteBitOff f).
Proof.
  intros f H. unfold cur_bit, bit. set (b := Buff f). set (k := ByteBitOff f) in *.
  assert (E : Z.testbit b k = (b / 2 ^ k mod 2 =? 1)) by (rewrite <- Z.testbit_spec' by lia; destruct (Z.testbit b k); reflexivity).
  assert (R : 0 <= b / 2 ^ k mod 2 < 2) by (apply Z.mod_pos_bound; lia).
  destruct (Z.land b (Z.shiftl 1 k) =? 0) eqn:Q.
  - assert (Z.testbit b k = false).
    { apply Z.eqb_eq in Q. assert (T : Z.testbit (Z.land b (Z.shiftl 1 k)) k = false) by (rewrite Q; apply Z.bits_0).
      rewrite Z.land_spec, Z.shiftl_spec, Z.sub_diag in T by lia. destruct (Z.testbit b k); auto. }
    rewrite H0 in E. symmetry in E. apply Z.eqb_neq in E. lia.
  - destruct (Z.testbit b k) eqn:T.
    + symmetry in E. apply Z.eqb_eq in E. lia.
    + exfalso. apply Z.eqb_neq in Q. apply Q. apply Z.bits_inj'. intros n Hn. rewrite Z.land_spec, Z.bits_0, Z.shiftl_spec by lia.
      destruct (Z.eq_dec n k) as [->|]; [rewrite T; reflexivity|].
      rewrite andb_comm. destruct (n - k) eqn:D; [lia| |reflexivity]. destruct p; reflexivity.
Qed.

Lemma refill_pending : forall f, fine f ->
  match pending f with
  | [] => exists f', refill f = (None, f')
  | x :: l => exists f', refill f = (Some f', f') /\ cur_bit f' = x /\ pending (advance f') = l /\ fine (advance f') /\ BitPos f' = BitPos f
  end.
Proof.
  intros [pos off buf r] F. unfold fine in F. cbn in F. unfold pending, refill. cbn [ByteBitOff Buff rest].
  destruct ((off <? 0) || (7 <? off)) eqn:E; cbn [app].
  - destruct r as [|b r].
    + cbn. eexists; reflexivity.
    + unfold stream at 1. cbn [map concat]. change (byte_bits b ++ _) with (bit b 7 :: (low_bits 7 b ++ stream r)).
      eexists. split; [reflexivity|]. cbn. split; [|split; [|split; [unfold fine; cbn; lia|reflexivity]]].
      * rewrite cur_bit_ok by (cbn; lia). reflexivity.
      * reflexivity.
  - replace (Z.to_nat (off + 1)) with (S (Z.to_nat off)) by lia. cbn [low_bits app]. eexists. split; [reflexivity|].
    split; [|split; [|split; [unfold fine; cbn; lia|reflexivity]]].
    + rewrite cur_bit_ok by (cbn; lia). cbn. f_equal. lia.
    + unfold pending. cbn [advance ByteBitOff Buff rest]. destruct ((off - 1 <? 0) || (7 <? off - 1)) eqn:E2.
      * replace (Z.to_nat off) with O by lia. reflexivity.
      * f_equal. f_equal. lia.
Qed.

Lemma bread__ok : forall n f, fine f -> (n <= length (pending f))%nat ->
  exists f', bread_ n f = (firstn n (pending f), f') /\ fine f' /\ pending f' = skipn n (pending f) /\ BitPos f' = BitPos f.
Proof.
  induction n as [|n IH]; intros f F L; [exists f; auto|]. cbn [bread_]. assert (R := refill_pending f F).
  destruct (pending f) as [|x l]; [cbn in L; lia|]. destruct R as (f' & -> & C & P & F' & B).
  destruct (IH (advance f') F') as (f'' & E & F'' & P'' & B''); [rewrite P; cbn in L; lia|].
  rewrite E. exists f''. rewrite P, C in *. cbn [firstn skipn]. split; [reflexivity|]. split; [exact F''|]. split; [exact P''|].
  rewrite B''. exact B.
Qed.

Lemma length_stream : forall file, length (stream file) = (8 * length file)%nat.
Proof. induction file as [|b l IH]; [reflexivity|]. unfold stream in *. cbn [map concat]. rewrite app_length, IH. cbn. lia. Qed.

(** C36: for every file and every sequence of read sizes that fits in it, the reads return the
    sizes asked for and store the consecutive pieces of the bit stream. *)
Theorem C36_bread_partial : forall pos file sizes, Forall (fun n => 0 <= n < 4294967296) sizes ->
  fold_right Z.add 0 sizes <= 8 * zlen file ->
  reads sizes (bfile pos file) = combine sizes (cut sizes (stream file)).
Proof.
  intros pos file sizes. assert (G : forall sizes f, fine f -> Forall (fun n => 0 <= n < 4294967296) sizes ->
     fold_right Z.add 0 sizes <= zlen (pending f) -> reads sizes f = combine sizes (cut sizes (pending f))).
  { induction sizes0 as [|n t IH]; intros f F H L; [reflexivity|]. inversion H as [|? ? H1 H2]; subst. cbn [fold_right] in L.
    assert (0 <= fold_right Z.add 0 t) by (clear - H2; induction H2; cbn; lia).
    unfold zlen in L. cbn [reads cut combine]. unfold bread. rewrite Z.mul_1_l, u32_small by lia.
    destruct (bread__ok (Z.to_nat n) f F) as (f' & E & F' & P & _); [lia|]. rewrite E. rewrite <- P. f_equal.
    - f_equal. unfold zlen. rewrite firstn_length. lia.
    - apply IH; auto. rewrite P. unfold zlen. rewrite skipn_length. lia. }
  intros H L. rewrite G; auto; [unfold fine; cbn; lia|]. change (pending (bfile pos file)) with (stream file). unfold zlen in *. rewrite length_stream. lia.
Qed.
Print Assumptions C36_bread_partial.

Example C36_ex : reads [3; 4; 6] (bfile 0 [179; 64]) = [(3, [1;0;1]); (4, [1;0;0;1]); (6, [1;0;1;0;0;0])].
Proof. reflexivity. Qed.

(** C36: a read that asks for more than there is returns the number of bits that were left and
    stores exactly these. *)
Theorem C36_short_read : forall pos file n, 8 * zlen file <= n < 4294967296 ->
  exists f', bread 1 n (bfile pos file) = (8 * zlen file, stream file, f').
Proof.
  intros pos file n H. unfold bread. rewrite Z.mul_1_l, u32_small by (assert (0 <= zlen file) by auto; lia).
  assert (G : forall n f, fine f -> (length (pending f) <= n)%nat -> exists f', bread_ n f = (pending f, f')).
  { induction n0 as [|k IH]; intros f F L; [destruct (pending f); cbn in L; [exists f; reflexivity|lia]|]. cbn [bread_].
    assert (R := refill_pending f F). destruct (pending f) as [|x l]; [destruct R as (f' & ->); exists f'; reflexivity|].
    destruct R as (f' & -> & C & P & F' & _). destruct (IH (advance f') F') as (f'' & E); [rewrite P; cbn in L; lia|].
    rewrite E, C, P. eauto. }
  assert (P : pending (bfile pos file) = stream file) by reflexivity.
  destruct (G (Z.to_nat n) (bfile pos file)) as (f' & E); [unfold fine; cbn; lia|rewrite P, length_stream; unfold zlen in H; lia|].
  rewrite E, P. exists f'. f_equal. f_equal. unfold zlen. rewrite length_stream. lia.
Qed.
Print Assumptions C36_short_read.

(** Findings.  breadVal returns the number of bits it read, never their value: *)
Theorem C36_readval_refuted : forall pos file n, 0 <= n <= 32 -> n <= 8 * zlen file ->
  fst (breadVal n (bfile pos file)) = n.
Proof.
  intros pos file n H L. unfold breadVal. replace (32 <? n) with false by lia.
  assert (G : forall k f p b, fine f -> (k <= length (pending f))%nat -> fst (breadVal_ k f p b) = p + Z.of_nat k).
  { induction k as [|k IH]; intros f p b F Lf; [cbn; lia|]. cbn [breadVal_]. assert (R := refill_pending f F).
    destruct (pending f) as [|x l]; [cbn in Lf; lia|]. destruct R as (f' & -> & _ & P & F' & _).
    rewrite IH; [lia|exact F'|rewrite P; cbn in Lf; lia]. }
  rewrite G; [lia|unfold fine; cbn; lia|]. change (pending (bfile pos file)) with (stream file). rewrite length_stream. unfold zlen in L. lia.
Qed.
Print Assumptions C36_readval_refuted.
Example C36_readval_ex : fst (breadVal 10 (bfile 0 [255; 255])) = 10 /\ fst (breadVal 10 (bfile 0 [0; 0])) = 10.
Proof. split; reflexivity. Qed.

(** btell does not move when bits are read, and after a failed read the reader delivers
    the last byte again instead of reporting the end of the file. *)
Theorem C36_tell_refuted :
  (forall size number f, btell (snd (bread size number f)) = btell f) /\
  (exists file f1 l f2, bread 1 9 (bfile 0 file) = (8, stream file, f1) /\ bread 1 8 f1 = (8, l, f2) /\ l = stream file).
Proof.
  split.
  - intros size number f. unfold bread. generalize (Z.to_nat (u32 (size * number))). intros n. unfold btell.
    assert (G : forall n f, BitPos (snd (bread_ n f)) = BitPos f).
    { induction n0 as [|k IH]; intros g; [reflexivity|]. cbn [bread_]. unfold refill.
      destruct ((ByteBitOff g <? 0) || (7 <? ByteBitOff g)).
      - destruct (rest g) as [|b r]; [reflexivity|]. specialize (IH (advance {| BitPos := BitPos g; ByteBitOff := 7; Buff := b; rest := r |})).
        destruct (bread_ k (advance {| BitPos := BitPos g; ByteBitOff := 7; Buff := b; rest := r |})). cbn in *. exact IH.
      - specialize (IH (advance g)). destruct (bread_ k (advance g)). cbn in *. exact IH. }
    specialize (G n f). destruct (bread_ n f). cbn in *. rewrite G. reflexivity.
  - exists [179]. do 3 eexists. split; [vm_compute; reflexivity|]. split; vm_compute; reflexivity.
Qed.
Print Assumptions C36_tell_refuted.
