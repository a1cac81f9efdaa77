(** Operations on compressed data that change whole blocks: flipping and inverting the alpha. *)
From Coq Require Import ZArith List Lia Bool.
From Verif Require Import Base Enums Utility Image Slices Elem BitLemmas DxtSpec Dxt DxtDecode.
Import ListNotations.
Open Scope Z_scope.

(** ** Programs that stay inside one block *)
Section Local.
Variables (d B : list Z) (p : Z).
Hypothesis (Hp : 0 <= p) (Hl : p + zlen B <= zlen d).
Lemma rd_local : forall i, 0 <= i < zlen B -> rd (splice d p B) (p + i) = Ok (geti B i).
Proof.
  intros i Hi. rewrite rd_ok by (rewrite zlen_splice; lia). rewrite geti_splice by lia. f_equal.
  replace ((p <=? p + i) && (p + i <? p + zlen B)) with true by lia. f_equal. lia.
Qed.
Lemma wr_local : forall i v, 0 <= i < zlen B -> wr (splice d p B) (p + i) v = Ok (splice d p (upd B i v)).
Proof.
  intros i v Hi. rewrite wr_ok by (rewrite zlen_splice; lia). f_equal. apply list_ext.
  { rewrite zlen_upd by (rewrite zlen_splice; lia). rewrite !zlen_splice; try lia; rewrite zlen_upd; lia. }
  intros k Hk. rewrite zlen_upd in Hk by (rewrite zlen_splice; lia). rewrite zlen_splice in Hk by lia.
  rewrite geti_upd by (rewrite ?zlen_splice; lia). rewrite !geti_splice by (rewrite ?zlen_upd; lia). rewrite zlen_upd by lia.
  destruct ((p <=? k) && (k <? p + zlen B)) eqn:Q.
  - rewrite geti_upd by lia. replace (k - p =? i) with (k =? p + i) by lia. reflexivity.
  - replace (k =? p + i) with false by lia. reflexivity.
Qed.
End Local.

Lemma splice_self : forall d p n, 0 <= p -> 0 <= n -> p + n <= zlen d -> splice d p (slice d p n) = d.
Proof.
  intros d p n Hp Hn Hl. assert (L : zlen (slice d p n) = n) by (apply zlen_slice; lia). apply list_ext; [apply zlen_splice; lia|].
  intros k Hk. rewrite zlen_splice in Hk by lia. rewrite geti_splice by lia. rewrite L.
  destruct ((p <=? k) && (k <? p + n)) eqn:Q; [|reflexivity]. rewrite geti_slice by lia. f_equal. lia.
Qed.

Lemma block8 : forall B : list Z, zlen B = 8 -> exists a b c d e f g h, B = [a; b; c; d; e; f; g; h].
Proof.
  intros B H. unfold zlen in H. do 8 (destruct B as [|? B]; [cbn in H; lia|]). destruct B; [|cbn [length] in H; lia]. repeat eexists.
Qed.
Lemma block16 : forall B : list Z, zlen B = 16 -> exists a b c d e f g h i j k l m n o q, B = [a; b; c; d; e; f; g; h; i; j; k; l; m; n; o; q].
Proof.
  intros B H. unfold zlen in H. do 16 (destruct B as [|? B]; [cbn in H; lia|]). destruct B; [|cbn [length] in H; lia]. repeat eexists.
Qed.

(** ** Runs of blocks *)

(** an operation that replaces the block at its position by [f] of it *)
Definition block_op (bs : Z) (op : Z -> list Z -> res (list Z)) (f : list Z -> list Z) : Prop :=
  (forall d p, bytes d -> 0 <= p -> p + bs <= zlen d -> op p d = Ok (splice d p (f (slice d p bs)))) /\
  (forall B, bytes B -> zlen B = bs -> zlen (f B) = bs /\ bytes (f B)).

Lemma bytes_splice : forall d p B, bytes d -> bytes B -> 0 <= p -> p + zlen B <= zlen d -> bytes (splice d p B).
Proof.
  intros d p B Hd HB Hp Hl k Hk. rewrite zlen_splice in Hk by lia. rewrite geti_splice by lia.
  destruct ((p <=? k) && (k <? p + zlen B)) eqn:Q; [apply HB; lia | apply Hd; lia].
Qed.

Lemma blk_zlen : forall bs c b N, 0 < bs -> zlen c = N * bs -> 0 <= b < N -> zlen (blk bs c b) = bs.
Proof.
  intros bs c b N Hbs Hl Hb. unfold blk. assert (0 <= b * bs) by (apply Z.mul_nonneg_nonneg; lia). assert ((b + 1) * bs <= N * bs) by (apply Z.mul_le_mono_nonneg_r; lia).
  apply zlen_slice; lia.
Qed.

Lemma blk_splice : forall bs d b B N b', 0 < bs -> zlen d = N * bs -> zlen B = bs -> 0 <= b < N -> 0 <= b' < N ->
  blk bs (splice d (b * bs) B) b' = if b' =? b then B else blk bs d b'.
Proof.
  intros bs d b B N b' Hbs Hl HB Hb Hb'.
  assert (0 <= b * bs) by (apply Z.mul_nonneg_nonneg; lia). assert ((b + 1) * bs <= N * bs) by (apply Z.mul_le_mono_nonneg_r; lia).
  assert (0 <= b' * bs) by (apply Z.mul_nonneg_nonneg; lia). assert ((b' + 1) * bs <= N * bs) by (apply Z.mul_le_mono_nonneg_r; lia).
  unfold blk. destruct (b' =? b) eqn:Q.
  - apply Z.eqb_eq in Q. subst b'. pose proof (slice_splice_same d (b * bs) B ltac:(lia) ltac:(lia)) as S. rewrite HB in S. exact S.
  - apply slice_splice_other; try lia.
    assert (b' < b \/ b < b') as [C | C] by lia; [left | right].
    + assert ((b' + 1) * bs <= b * bs) by (apply Z.mul_le_mono_nonneg_r; lia). lia.
    + assert ((b + 1) * bs <= b' * bs) by (apply Z.mul_le_mono_nonneg_r; lia). lia.
Qed.

Lemma run_blocks : forall bs op f N b0 n d, 0 < bs -> block_op bs op f -> bytes d -> zlen d = N * bs -> 0 <= b0 -> 0 <= n -> b0 + n <= N ->
  exists d', loop 0 n (fun i d => op (b0 * bs + i * bs) d) d = Ok d' /\ bytes d' /\ zlen d' = N * bs /\
    forall b, 0 <= b < N -> blk bs d' b = if (b0 <=? b) && (b <? b0 + n) then f (blk bs d b) else blk bs d b.
Proof.
  intros bs op f N b0 n d Hbs (HO & Hf) Hd Hl Hb0 Hn HN.
  destruct (loop_rule _ (fun i d' => bytes d' /\ zlen d' = N * bs /\ forall b, 0 <= b < N -> blk bs d' b = if (b0 <=? b) && (b <? b0 + i) then f (blk bs d b) else blk bs d b)
              0 n (fun i d => op (b0 * bs + i * bs) d) d) as (d' & E & K).
  - lia.
  - repeat split; auto; try (apply Hd; auto). intros b Hb. replace ((b0 <=? b) && (b <? b0 + 0)) with false by lia. reflexivity.
  - intros i e Hi (He & Le & A). replace (b0 * bs + i * bs) with ((b0 + i) * bs) by ring.
    assert (0 <= (b0 + i) * bs) by (apply Z.mul_nonneg_nonneg; lia). assert ((b0 + i + 1) * bs <= N * bs) by (apply Z.mul_le_mono_nonneg_r; lia).
    rewrite HO by (auto; lia). fold (blk bs e (b0 + i)).
    assert (LB : zlen (blk bs e (b0 + i)) = bs) by (apply (blk_zlen _ _ _ N); auto; lia).
    destruct (Hf (blk bs e (b0 + i)) (bytes_slice _ _ _ He) LB) as (L1 & B1).
    eexists. split; [reflexivity|]. split; [apply bytes_splice; auto; lia|]. split; [rewrite zlen_splice; lia|].
    intros b Hb. rewrite (blk_splice _ _ _ _ N) by (auto; lia). destruct (b =? b0 + i) eqn:Q.
    + apply Z.eqb_eq in Q. subst b. replace ((b0 <=? b0 + i) && (b0 + i <? b0 + (i + 1))) with true by lia. rewrite A by lia. replace ((b0 <=? b0 + i) && (b0 + i <? b0 + i)) with false by lia. reflexivity.
    + rewrite A by lia. replace ((b0 <=? b) && (b <? b0 + (i + 1))) with ((b0 <=? b) && (b <? b0 + i)) by lia. reflexivity.
  - exists d'. split; [exact E|]. tauto.
Qed.

Lemma blocks_ext : forall bs c c' N, 0 < bs -> zlen c = N * bs -> zlen c' = N * bs -> (forall b, 0 <= b < N -> blk bs c b = blk bs c' b) -> c = c'.
Proof.
  intros bs c c' N Hbs Hc Hc' H. apply list_ext; [lia|]. intros k Hk. rewrite Hc in Hk.
  assert (0 <= k / bs) by (apply Z.div_pos; lia). assert (k / bs < N) by (apply Z.div_lt_upper_bound; lia).
  pose proof (Z.div_mod k bs ltac:(lia)) as E. pose proof (Z.mod_pos_bound k bs Hbs) as R.
  assert (0 <= k / bs * bs) by (apply Z.mul_nonneg_nonneg; lia).
  assert (F : geti (blk bs c (k / bs)) (k mod bs) = geti (blk bs c' (k / bs)) (k mod bs)) by (rewrite H by lia; reflexivity).
  unfold blk in F. rewrite !geti_slice in F by lia. replace (k / bs * bs + k mod bs) with k in F by lia. exact F.
Qed.
