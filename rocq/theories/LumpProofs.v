(** Loops of Lump.v solved. *)
From Coq Require Import ZArith List Lia Bool.
From Verif Require Import Base Slices Lump LumpSpec.
Import ListNotations.
Open Scope Z_scope.

Lemma rest_slice : forall l p n, rest l p n = slice l p n.
Proof. reflexivity. Qed.
Lemma overwrite_splice : forall f p new, overwrite f p new = splice f p new.
Proof. reflexivity. Qed.

Lemma splice_nil : forall l off, 0 <= off <= zlen l -> splice l off [] = l.
Proof.
  intros l off H. unfold splice. cbn [app length]. rewrite Nat.add_0_r. apply firstn_skipn.
Qed.

Lemma splice_upd : forall l i c t, 0 <= i -> i + 1 + zlen t <= zlen l -> splice (upd l i c) (i + 1) t = splice l i (c :: t).
Proof.
  intros l i c t H1 H2. assert (0 <= zlen t) by auto. assert (zlen (c :: t) = 1 + zlen t) by apply zlen_cons.
  assert (zlen (upd l i c) = zlen l) by (apply zlen_upd; lia).
  apply list_ext; [rewrite !zlen_splice by lia; auto|]. rewrite zlen_splice by lia. intros j Hj.
  rewrite !geti_splice by lia. rewrite geti_upd by lia.
  destruct ((i + 1 <=? j) && (j <? i + 1 + zlen t)) eqn:E1; destruct ((i <=? j) && (j <? i + zlen (c :: t))) eqn:E2; try lia.
  - rewrite geti_cons by lia. destruct (j - i =? 0) eqn:E3; [lia|]. f_equal. lia.
  - rewrite geti_cons by lia. destruct (j =? i) eqn:E3; destruct (j - i =? 0) eqn:E4; lia.
  - destruct (j =? i) eqn:E3; lia.
Qed.

Lemma read_loop_ok : forall n i r b, 0 <= i -> 0 <= rpos r -> rsize r = zlen (rlump r) -> rsize r < 4294967296 ->
  rpos r + i + Z.of_nat n <= rsize r -> i + Z.of_nat n <= zlen b ->
  read_loop n i r b = Ok (splice b i (slice (rlump r) (rpos r + i) (Z.of_nat n)), i + Z.of_nat n, false).
Proof.
  induction n as [|n IH]; intros i r b Hi Hp Hs Hb H1 H2.
  - cbn [read_loop]. change (Z.of_nat 0) with 0. rewrite slice_0, splice_nil by lia. rewrite Z.add_0_r. reflexivity.
  - cbn [read_loop]. rewrite rd_ok by lia. cbn [bind]. rewrite wr_ok by lia. cbn [bind].
    rewrite u32_small by lia. replace ((0 <? rsize r) && (rsize r <? rpos r + i)) with false by lia.
    assert (E : zlen (upd b i (geti (rlump r) (rpos r + i))) = zlen b) by (apply zlen_upd; lia).
    rewrite IH by lia. replace (Z.of_nat (S n)) with (1 + Z.of_nat n) by lia.
    rewrite slice_cons by lia. replace (rpos r + (i + 1)) with (rpos r + i + 1) by ring.
    rewrite splice_upd; [|lia|rewrite zlen_slice; lia]. do 3 f_equal. ring.
Qed.

(** how many of [n] bytes still fit *)
Definition fit (size pos n : Z) : Z := Z.max 0 (Z.min n (size - pos)).

Lemma write_loop_ok : forall n i b w, 0 <= i -> 0 <= wpos w -> wsize w = zlen (wlump w) -> wsize w < 4294967296 ->
  wpos w < 4294967296 -> (0 < wsize w \/ n = O) ->
  wpos w + i <= wsize w \/ (i = 0 /\ wsize w <= wpos w) -> i + Z.of_nat n <= zlen b ->
  let k := fit (wsize w) (wpos w + i) (Z.of_nat n) in
  write_loop n i b w =
    Ok (i + k, Wr (splice (wlump w) (wpos w + i) (slice b i k)) (wpos w + i + k) (wsize w)
                 (werr w ++ if k <? Z.of_nat n then [Enums.IL_FILE_WRITE_ERROR] else [])).
Proof.
  induction n as [|n IH]; intros i b [wl p sz er] Hi Hp Hs Hb Hpb Hz Hc H2 k.
  - cbn [write_loop wlump wpos wsize werr] in *. change (Z.of_nat 0) with 0 in *.
    assert (Ek : k = 0) by (unfold k, fit; lia). rewrite Ek, slice_0. rewrite Z.ltb_irrefl, app_nil_r.
    rewrite !Z.add_0_r. replace (u32 (p + i)) with (p + i) by (symmetry; apply u32_small; lia).
    f_equal. f_equal. f_equal. unfold splice. cbn [app length]. rewrite Nat.add_0_r. symmetry. apply firstn_skipn.
  - cbn [write_loop wlump wpos wsize werr] in *. destruct Hz as [Hz|Hz]; [|discriminate].
    rewrite u32_small by lia. destruct ((0 <? sz) && (sz <=? p + i)) eqn:E.
    + assert (Ek : k = 0) by (unfold k, fit; lia). rewrite Ek, slice_0. rewrite !Z.add_0_r.
      replace (0 <? Z.of_nat (S n)) with true by lia.
      do 3 f_equal. unfold splice. cbn [app length]. rewrite Nat.add_0_r. symmetry. apply firstn_skipn.
    + rewrite rd_ok by lia. cbn [bind]. rewrite wr_ok by lia. cbn [bind].
      assert (E1 : zlen (upd wl (p + i) (geti b i)) = zlen wl) by (apply zlen_upd; lia).
      assert (Ek : k = 1 + fit sz (p + (i + 1)) (Z.of_nat n)) by (unfold k, fit; lia).
      set (k' := fit sz (p + (i + 1)) (Z.of_nat n)) in *.
      assert (0 <= k' <= Z.of_nat n) by (unfold k', fit; lia).
      assert (p + (i + 1) + k' <= sz) by (unfold k', fit; lia).
      rewrite IH; cbn [wlump wpos wsize werr]; try lia. fold k'. rewrite Ek.
      rewrite slice_cons by lia. replace (p + (i + 1)) with (p + i + 1) by ring.
      rewrite splice_upd; [|lia|rewrite zlen_slice; lia].
      replace (1 + k' <? Z.of_nat (S n)) with (k' <? Z.of_nat n) by lia.
      f_equal. f_equal; [ring|]. f_equal. ring.
Qed.
