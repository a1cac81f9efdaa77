(** C21 (reading from a lump), C22 (writing to a lump), C23 (ilDetermineSize). *)
From Coq Require Import ZArith List Lia Bool.
From Verif Require Import Base Slices Enums Lump LumpSpec LumpProofs.
Import ListNotations.
Open Scope Z_scope.

(** ** C21 *)

(** What a loader is allowed to ask for: its buffer is as large as it says, offsets are ints,
    absolute positions are not negative, and it does not seek INT_MIN from the end. *)
Definition proper_r (o : rop) : Prop :=
  match o with
  | ReadOp b s n => 0 <= s < 4294967296 /\ 0 <= n < 4294967296 /\ s * n <= zlen b
  | SeekOp off m => -2147483648 <= off < 2147483648 /\ (m = IL_SEEK_SET -> 0 <= off) /\ (m = IL_SEEK_END -> off <> -2147483648)
  | _ => True
  end.

(** a reader opened on all of [mem], at some position of it *)
Definition on (mem : list Z) (r : reader) : Prop :=
  rlump r = mem /\ rsize r = zlen mem /\ 0 <= rpos r <= zlen mem.

Lemma u32_le : forall x, 0 <= x -> u32 x <= x.
Proof. intros x H. unfold u32. apply Z.mod_le; lia. Qed.

Lemma seek_in : forall off m p size, -2147483648 <= off < 2147483648 -> (m = IL_SEEK_SET -> 0 <= off) ->
  (m = IL_SEEK_END -> off <> -2147483648) -> 0 <= size < 4294967296 -> 0 <= p <= size ->
  exists c q, seek_lump off m p size = Ok (c, q) /\ 0 <= q <= size.
Proof.
  intros off m p size Ho H0 H2 Hs Hp. unfold seek_lump.
  destruct (m =? IL_SEEK_SET) eqn:E0.
  - destruct (i32 size <? off) eqn:E; do 2 eexists; (split; [reflexivity|]); [lia|].
    specialize (H0 ltac:(lia)). rewrite u32_small by lia. unfold i32 in E. lia.
  - destruct (m =? IL_SEEK_CUR) eqn:E1.
    + pose proof (u32_range (p + off)). destruct (size <? u32 (p + off)) eqn:E; do 2 eexists; (split; [reflexivity|]); lia.
    + destruct (m =? IL_SEEK_END) eqn:E2; [|do 2 eexists; split; [reflexivity|lia]].
      specialize (H2 ltac:(lia)). destruct (0 <? off) eqn:E; [do 2 eexists; split; [reflexivity|lia]|].
      unfold abs_int. replace (off =? -2147483648) with false by lia. cbn [bind].
      destruct (i32 size <? Z.abs off) eqn:E3; do 2 eexists; (split; [reflexivity|]); [lia|].
      assert (Z.abs off <= size) by (unfold i32 in E3; lia).
      rewrite u32_small by lia. lia.
Qed.

(** Getting a character: the byte at the position, which moves on; at the end IL_EOF and the error. *)
Theorem C21_getc : forall mem r, 0 < zlen mem < 4294967295 -> on mem r ->
  iGetcLump r = Ok (if rpos r <? zlen mem
    then (geti mem (rpos r), Rd mem (rpos r + 1) (zlen mem) (rerr r))
    else (IL_EOF, Rd mem (zlen mem - 1) (zlen mem) (rerr r ++ [IL_FILE_READ_ERROR]))).
Proof.
  intros mem [l p s e] Hm (H1 & H2 & H3). cbn in H1, H2, H3. subst l s. unfold iGetcLump. cbn [rlump rsize rpos rerr].
  rewrite (u32_small (p + 1)) by lia. destruct (p <? zlen mem) eqn:E.
  - replace ((0 <? zlen mem) && (zlen mem <? p + 1)) with false by lia.
    rewrite rd_ok by lia. reflexivity.
  - replace ((0 <? zlen mem) && (zlen mem <? p + 1)) with true by lia. rewrite u32_small by lia.
    do 4 f_equal. lia.
Qed.

(** Reading [Number] items of [Size] bytes: the bytes from the position on, as many as asked for and
    available, land at the start of the buffer and the rest of the buffer is untouched; the position
    moves by that many; the result is the number of whole items, and the error is raised exactly if
    it is not [Number]. *)
Theorem C21_read : forall mem r b s n, 0 < zlen mem < 4294967295 -> on mem r ->
  0 < s -> 0 <= n -> s * n < 4294967296 -> s * n <= zlen b ->
  let got := rest mem (rpos r) (s * n) in
  iReadLump b s n r = Ok (zlen got / s, got ++ skipn (length got) b,
    Rd mem (rpos r + zlen got) (zlen mem)
       (rerr r ++ if zlen got / s =? n then [] else [IL_FILE_READ_ERROR])).
Proof.
  intros mem [l p sz e] b s n Hm (H1 & H2 & H3) Hs Hn Hw Hb got. cbn in H1, H2, H3. subst l sz.
  cbn [rpos rerr] in *. unfold iReadLump. cbn [rlump rsize rpos rerr].
  assert (0 <= s * n) by (apply Z.mul_nonneg_nonneg; lia).
  set (N := s * n) in *. clearbody N. clear Hn.
  rewrite (u32_small N) by lia. rewrite (u32_small (zlen mem - p)) by lia.
  set (k := Z.min N (zlen mem - p)).
  assert (Hk : 0 <= k <= zlen mem - p) by (unfold k; lia).
  assert (Hg : got = slice mem p k).
  { unfold got, rest, slice, k. destruct (Z.le_gt_cases N (zlen mem - p)).
    - f_equal. lia.
    - rewrite !firstn_all2; auto; rewrite skipn_length; unfold zlen in *; lia. }
  assert (Hl : zlen got = k) by (rewrite Hg; apply zlen_slice; lia).
  rewrite read_loop_ok; cbn [rlump rsize rpos rerr]; try lia; try (unfold k in *; lia).
  cbn [bind]. rewrite Z2Nat.id by lia. rewrite !Z.add_0_r, !Z.add_0_l, Hl.
  rewrite u32_small by lia. replace (s =? 0) with false by lia. rewrite <- Hg. reflexivity.
Qed.

(** Asking for more than is left raises the error. *)
Theorem C21_past_end : forall mem r b s n, 0 < zlen mem < 4294967295 -> on mem r ->
  0 < s -> 0 <= n -> s * n < 4294967296 -> s * n <= zlen b -> zlen mem - rpos r < s * n ->
  exists c b' r', iReadLump b s n r = Ok (c, b', r') /\ c < n /\ rerr r' = rerr r ++ [IL_FILE_READ_ERROR].
Proof.
  intros mem r b s n Hm Hr Hs Hn Hw Hb Hp. rewrite (C21_read mem r b s n) by auto. cbv zeta.
  do 3 eexists. split; [reflexivity|]. destruct Hr as (H1 & H2 & H3).
  assert (L : zlen (rest mem (rpos r) (s * n)) < s * n).
  { unfold rest, zlen in *. rewrite firstn_length, skipn_length. lia. }
  assert (zlen (rest mem (rpos r) (s * n)) / s < n) by (apply Z.div_lt_upper_bound; lia).
  split; auto. cbn [rerr]. destruct (_ =? n) eqn:E; [lia|reflexivity].
Qed.

Lemma read_on : forall mem r b s n, 0 < zlen mem < 4294967295 -> on mem r ->
  0 <= s < 4294967296 -> 0 <= n < 4294967296 -> s * n <= zlen b ->
  exists c b' r', iReadLump b s n r = Ok (c, b', r') /\ on mem r'.
Proof.
  intros mem [l p sz e] b s n Hm (H1 & H2 & H3) Hs Hn Hb. cbn in H1, H2, H3. subst l sz.
  assert (H0 : 0 <= s * n) by (apply Z.mul_nonneg_nonneg; lia).
  pose proof (u32_range (s * n)) as R. pose proof (u32_le _ H0) as L.
  unfold iReadLump. cbn [rlump rsize rpos rerr]. rewrite (u32_small (zlen mem - p)) by lia.
  set (k := Z.min _ _). assert (0 <= k <= zlen mem - p) by (unfold k; lia).
  rewrite read_loop_ok; cbn [rlump rsize rpos rerr]; try lia; try (unfold k in *; lia).
  cbn [bind]. do 3 eexists. split; [reflexivity|]. unfold on. cbn [rlump rsize rpos].
  rewrite Z2Nat.id by lia. rewrite u32_small by lia. split; [reflexivity|lia].
Qed.

Lemma rstep_on : forall mem o r, 0 < zlen mem < 4294967295 -> on mem r -> proper_r o ->
  exists a r', rstep o r = Ok (a, r') /\ on mem r'.
Proof.
  intros mem o r Hm Hr Ho. destruct o as [|b s n|off m| |]; cbn [rstep].
  - rewrite (C21_getc mem r) by auto. destruct Hr as (H1 & H2 & H3).
    destruct (rpos r <? zlen mem) eqn:E; cbn [bind]; do 2 eexists; (split; [reflexivity|]);
      (unfold on; cbn [rlump rsize rpos]; split; [reflexivity|lia]).
  - destruct Ho as (A & B & C). destruct (read_on mem r b s n Hm Hr A B C) as (c & b' & r' & -> & X).
    cbn [bind]. eauto.
  - destruct Ho as (A & B & C). destruct Hr as (H1 & H2 & H3). unfold iSeekRLump.
    destruct (seek_in off m (rpos r) (rsize r)) as (c & q & -> & X); auto; try lia.
    cbn [bind]. do 2 eexists. split; [reflexivity|]. unfold on. cbn [rlump rsize rpos]. rewrite H2 in X. auto.
  - eauto.
  - eauto.
Qed.

(** Loading from a lump: no sequence of proper requests ever reads outside the lump (or writes
    outside the loader's buffer), and the position stays inside it.
    Missing from C21: absolute seeks to a negative position, which are accepted and make the next
    read leave the lump ([C21_seek_refuted]). *)
Theorem C21_safe_partial : forall mem os, 0 < zlen mem < 4294967295 -> Forall proper_r os ->
  exists l r, rrun os (iSetInputLump mem (zlen mem)) = Ok (l, r) /\ rlump r = mem /\ 0 <= rpos r <= zlen mem.
Proof.
  intros mem os Hm Hos.
  assert (G : forall os, Forall proper_r os -> forall r, on mem r -> exists l r', rrun os r = Ok (l, r') /\ on mem r').
  { clear os Hos. induction 1 as [|o os Ho _ IH]; intros r Hr; cbn [rrun]; [eauto|].
    destruct (rstep_on mem o r Hm Hr Ho) as (a & r' & -> & Hr'). cbn [bind].
    destruct (IH r' Hr') as (l & r'' & -> & Hr''). cbn [bind]. eauto. }
  destruct (G os Hos (iSetInputLump mem (zlen mem))) as (l & r & E & X1 & X2 & X3).
  { unfold on, iSetInputLump. cbn. split; [reflexivity|lia]. }
  exists l, r. auto.
Qed.

(** Reading a lump character by character from the start gives its bytes in order. *)
Theorem C21_sequential : forall mem n, 0 < zlen mem < 4294967295 -> (n <= length mem)%nat ->
  exists r, rrun (repeat GetcOp n) (iSetInputLump mem (zlen mem)) = Ok (map (fun c => (c, [])) (firstn n mem), r)
            /\ rerr r = [].
Proof.
  intros mem n Hm Hn.
  assert (G : forall n p e, 0 <= p -> p + Z.of_nat n <= zlen mem ->
     rrun (repeat GetcOp n) (Rd mem p (zlen mem) e) =
     Ok (map (fun c => (c, [])) (slice mem p (Z.of_nat n)), Rd mem (p + Z.of_nat n) (zlen mem) e)).
  { clear n Hn. induction n as [|n IH]; intros p e Hp Hl.
    - cbn [repeat rrun]. change (Z.of_nat 0) with 0. rewrite slice_0, Z.add_0_r. reflexivity.
    - cbn [repeat rrun rstep]. rewrite (C21_getc mem) by (lia || (split; [reflexivity|cbn; lia])). cbn [rpos rerr].
      replace (p <? zlen mem) with true by lia. cbn [bind]. rewrite IH by lia. cbn [bind].
      replace (Z.of_nat (S n)) with (1 + Z.of_nat n) by lia. rewrite slice_cons by lia. cbn [map].
      do 3 f_equal. ring. }
  unfold iSetInputLump. rewrite (G n 0 []) by (unfold zlen in *; lia).
  exists (Rd mem (0 + Z.of_nat n) (zlen mem) []). split; [|reflexivity]. unfold slice. cbn [Z.to_nat skipn]. rewrite Nat2Z.id. reflexivity.
Qed.

(** Counterexample to the full C21: on every lump, seeking to absolute position -1 succeeds, and the
    next character is read from outside. *)
Theorem C21_seek_refuted : forall mem, 0 < zlen mem < 2147483648 ->
  rrun [SeekOp (-1) IL_SEEK_SET] (iSetInputLump mem (zlen mem)) = Ok ([(0, [])], Rd mem 4294967295 (zlen mem) []) /\
  rrun [SeekOp (-1) IL_SEEK_SET; GetcOp] (iSetInputLump mem (zlen mem)) = UB.
Proof.
  intros mem Hm. unfold iSetInputLump. cbn [rrun rstep]. unfold iSeekRLump, seek_lump. cbn [rpos rsize rlump rerr].
  change (IL_SEEK_SET =? IL_SEEK_SET) with true. rewrite i32_small by lia.
  replace (zlen mem <? -1) with false by lia. cbn [bind]. change (u32 (-1)) with 4294967295. split; [reflexivity|].
  unfold iGetcLump. cbn [rpos rsize rlump rerr]. change (u32 (4294967295 + 1)) with 0.
  replace ((0 <? zlen mem) && (zlen mem <? 0)) with false by lia. rewrite rd_ub by lia. reflexivity.
Qed.

(** IL_EOF is not sticky: the character after it is the last byte of the lump again. *)
Theorem C21_eof_not_sticky : forall mem, 0 < zlen mem < 4294967295 ->
  exists r, rrun [GetcOp; GetcOp] (Rd mem (zlen mem) (zlen mem) []) = Ok ([(IL_EOF, []); (geti mem (zlen mem - 1), [])], r).
Proof.
  intros mem Hm. cbn [rrun rstep]. rewrite (C21_getc mem) by (lia || (split; [reflexivity|cbn; lia])). cbn [rpos rerr].
  rewrite Z.ltb_irrefl. cbn [bind]. rewrite (C21_getc mem) by (lia || (split; [reflexivity|cbn; lia])). cbn [rpos rerr].
  replace (zlen mem - 1 <? zlen mem) with true by lia. cbn [bind]. eauto.
Qed.

Example C21_ex : rrun [GetcOp; ReadOp [0;0;0;0] 2 2; TellOp; EofOp; GetcOp; SeekOp (-2) IL_SEEK_END; GetcOp; SeekOp 9 IL_SEEK_SET]
    (iSetInputLump [11;22;33;44] 4) =
  Ok ([(11, []); (1, [22;33;44;0]); (4, []); (1, []); (IL_EOF, []); (0, []); (33, []); (1, [])],
      Rd [11;22;33;44] 3 4 [IL_FILE_READ_ERROR; IL_FILE_READ_ERROR]).
Proof. reflexivity. Qed.

(** ** C22 *)

Definition proper_w (o : wop) : Prop :=
  match o with
  | WriteOp b s n => 0 <= s < 4294967296 /\ 0 <= n < 4294967296 /\ s * n <= zlen b
  | SeekWOp off m => -2147483648 <= off < 2147483648 /\ (m = IL_SEEK_END -> off <> -2147483648)
  | _ => True
  end.

Definition onw (size : Z) (w : writer) : Prop :=
  zlen (wlump w) = size /\ wsize w = size /\ 0 <= wpos w < 4294967296.

(** A character inside the lump lands at the position, and nothing else changes. *)
Theorem C22_putc : forall w c, 0 < wsize w < 4294967296 -> onw (wsize w) w ->
  iPutcLump c w = Ok (if wpos w <? wsize w
    then (c, Wr (overwrite (wlump w) (wpos w) [c]) (wpos w + 1) (wsize w) (werr w)) else (IL_EOF, w)).
Proof.
  intros [l p s e] c Hs (H1 & H2 & H3). cbn [wlump wpos wsize werr] in *. unfold iPutcLump. cbn [wlump wpos wsize werr].
  destruct (p <? s) eqn:E.
  - replace (s <=? p) with false by lia. rewrite wr_ok by lia. cbn [bind]. rewrite u32_small by lia. reflexivity.
  - replace (s <=? p) with true by lia. reflexivity.
Qed.

(** A block: as many of its bytes as still fit land at the position in order, nothing else changes,
    their number is returned, and the error is raised exactly if some did not fit. *)
Theorem C22_write : forall w b s n, 0 < wsize w < 4294967296 -> onw (wsize w) w ->
  0 <= s -> 0 <= n -> s * n < 4294967296 -> s * n <= zlen b ->
  let k := Z.max 0 (Z.min (s * n) (wsize w - wpos w)) in
  iWriteLump b s n w = Ok (k, Wr (overwrite (wlump w) (wpos w) (rest b 0 k)) (wpos w + k) (wsize w)
                               (werr w ++ if k <? s * n then [IL_FILE_WRITE_ERROR] else [])).
Proof.
  intros w b s n Hs (H1 & H2 & H3) Hs0 Hn Hw Hb k. unfold iWriteLump.
  assert (0 <= s * n) by (apply Z.mul_nonneg_nonneg; lia).
  rewrite (u32_small (s * n)) by lia.
  rewrite write_loop_ok by lia. rewrite Z2Nat.id by lia. rewrite !Z.add_0_r, !Z.add_0_l. reflexivity.
Qed.

Lemma seek_any : forall off m p size, -2147483648 <= off < 2147483648 -> (m = IL_SEEK_END -> off <> -2147483648) ->
  0 <= p < 4294967296 ->
  exists c q, seek_lump off m p size = Ok (c, q) /\ 0 <= q < 4294967296.
Proof.
  intros off m p size Ho H2 Hp. unfold seek_lump.
  destruct (m =? IL_SEEK_SET) eqn:E0.
  - pose proof (u32_range off). destruct (_ <? _); do 2 eexists; (split; [reflexivity|lia]).
  - destruct (m =? IL_SEEK_CUR) eqn:E1.
    + pose proof (u32_range (p + off)). destruct (_ <? _); do 2 eexists; (split; [reflexivity|lia]).
    + destruct (m =? IL_SEEK_END) eqn:E2; [|do 2 eexists; split; [reflexivity|lia]].
      specialize (H2 ltac:(lia)). destruct (0 <? off) eqn:E; [do 2 eexists; split; [reflexivity|lia]|].
      unfold abs_int. replace (off =? -2147483648) with false by lia. cbn [bind].
      pose proof (u32_range (size + off)). destruct (i32 size <? Z.abs off); do 2 eexists; (split; [reflexivity|lia]).
Qed.

Lemma wstep_on : forall size o w, 0 < size < 4294967296 -> onw size w -> proper_w o ->
  exists a w', wstep o w = Ok (a, w') /\ onw size w'.
Proof.
  intros size o w Hs Hw Ho. assert (Hw' := Hw). destruct Hw' as (H1 & H2 & H3).
  destruct o as [c|b s n|off m|]; cbn [wstep].
  - rewrite C22_putc by (rewrite ?H2; auto). destruct (wpos w <? wsize w) eqn:E; do 2 eexists; (split; [reflexivity|]); auto. unfold onw. cbn [wlump wsize wpos].
    rewrite overwrite_splice, zlen_splice by (change (zlen [c]) with 1; lia). lia.
  - destruct Ho as (A & B & C). unfold iWriteLump.
    assert (H0 : 0 <= s * n) by (apply Z.mul_nonneg_nonneg; lia).
    pose proof (u32_range (s * n)) as R. pose proof (u32_le _ H0) as L.
    rewrite write_loop_ok by lia. do 2 eexists. split; [reflexivity|].
    rewrite Z2Nat.id by lia. rewrite !Z.add_0_r, ?Z.add_0_l.
    set (k := fit _ _ _). assert (Hk : 0 <= k <= u32 (s * n)) by (unfold k, fit; lia).
    assert (Hk2 : wpos w + k <= size \/ k = 0) by (unfold k, fit; lia).
    unfold onw. cbn [wlump wsize wpos]. assert (zlen (slice b 0 k) = k) by (apply zlen_slice; lia).
    destruct Hk2 as [Hk2|Hk2].
    + rewrite zlen_splice by lia. lia.
    + rewrite Hk2 in *. rewrite slice_0. unfold splice. cbn [app length]. rewrite Nat.add_0_r, firstn_skipn. lia.
  - destruct Ho as (A & B). unfold iSeekWLump.
    destruct (seek_any off m (wpos w) (wsize w)) as (c & q & -> & X); auto.
    cbn [bind]. do 2 eexists. split; [reflexivity|]. unfold onw. cbn [wlump wsize wpos]. auto.
  - eauto.
Qed.

(** Saving to a lump of a given positive size: no sequence of writes and seeks touches memory outside
    it, not even after a seek to a negative position.
    Missing from C22: the size 0 ([C22_zero_refuted]), and the error for characters that do not fit
    ([C22_putc_silent_refuted]). *)
Theorem C22_safe_partial : forall mem os, 0 < zlen mem < 4294967296 -> Forall proper_w os ->
  exists l w, wrun os (iSetOutputLump mem (zlen mem)) = Ok (l, w) /\ zlen (wlump w) = zlen mem.
Proof.
  intros mem os Hm Hos.
  assert (G : forall os, Forall proper_w os -> forall w, onw (zlen mem) w -> exists l w', wrun os w = Ok (l, w') /\ onw (zlen mem) w').
  { clear os Hos. induction 1 as [|o os Ho _ IH]; intros w Hw; cbn [wrun]; [eauto|].
    destruct (wstep_on (zlen mem) o w Hm Hw Ho) as (a & w' & -> & Hw'). cbn [bind].
    destruct (IH w' Hw') as (l & w'' & -> & Hw''). cbn [bind]. eauto. }
  destruct (G os Hos (iSetOutputLump mem (zlen mem))) as (l & w & E & X1 & X2 & X3).
  { unfold onw, iSetOutputLump. cbn. lia. }
  exists l, w. auto.
Qed.

(** A lump announced with size 0 is written without any check. *)
Theorem C22_zero_refuted : forall b s n, 0 < s -> 0 < n -> s * n < 4294967296 -> s * n <= zlen b ->
  wrun [WriteOp b s n] (iSetOutputLump [] 0) = UB.
Proof.
  intros b s n Hs Hn Hw Hb. assert (0 < s * n) by (apply Z.mul_pos_pos; lia).
  unfold iSetOutputLump. cbn [wrun wstep]. unfold iWriteLump. rewrite u32_small by lia.
  destruct (Z.to_nat (s * n)) eqn:E; [lia|]. cbn [write_loop wsize wpos wlump]. cbn [Z.ltb Z.compare andb].
  rewrite rd_ok by lia. cbn [bind]. rewrite wr_ub by (cbn; lia). reflexivity.
Qed.

(** A character that does not fit is dropped without an error. *)
Theorem C22_putc_silent_refuted : forall mem c e, 0 < zlen mem < 4294967296 ->
  wrun [PutcOp c] (Wr mem (zlen mem) (zlen mem) e) = Ok ([IL_EOF], Wr mem (zlen mem) (zlen mem) e).
Proof.
  intros mem c e Hm. cbn [wrun wstep]. rewrite C22_putc by (cbn; unfold onw; cbn; lia). cbn [wpos wsize].
  rewrite Z.ltb_irrefl. reflexivity.
Qed.

Example C22_ex : wrun [PutcOp 1; WriteOp [2;3;4] 1 3; SeekWOp (-3) IL_SEEK_CUR; PutcOp 9; SeekWOp (-7) IL_SEEK_SET; WriteOp [5] 1 1;
                       SeekWOp 4 IL_SEEK_SET; WriteOp [6;7;8] 3 1; TellWOp] (iSetOutputLump [0;0;0;0;0] 5)
  = Ok ([1; 3; 0; 9; 0; 0; 0; 1; 5], Wr [1;9;3;4;6] 5 5 [IL_FILE_WRITE_ERROR; IL_FILE_WRITE_ERROR]).
Proof. reflexivity. Qed.

(** ** C23 *)

Lemma zlen_overwrite : forall f p new, 0 <= p <= zlen f -> zlen (overwrite f p new) = Z.max (zlen f) (p + zlen new).
Proof.
  intros f p new H. unfold overwrite, zlen in *. rewrite !app_length, firstn_length, skipn_length. lia.
Qed.
Lemma geti_overwrite : forall f p new j, 0 <= p <= zlen f -> 0 <= j ->
  geti (overwrite f p new) j = if (p <=? j) && (j <? p + zlen new) then geti new (j - p) else geti f j.
Proof.
  intros f p new j H Hj. unfold overwrite.
  assert (L : zlen (firstn (Z.to_nat p) f) = p) by (unfold zlen in *; rewrite firstn_length; lia).
  rewrite geti_app by lia. rewrite L. destruct (j <? p) eqn:E1.
  - replace ((p <=? j) && _) with false by lia. unfold geti. apply nth_firstn_. lia.
  - rewrite geti_app by lia. destruct (j - p <? zlen new) eqn:E2.
    + replace ((p <=? j) && _) with true by lia. reflexivity.
    + replace ((p <=? j) && _) with false by lia. unfold geti. rewrite nth_skipn_. f_equal. unfold zlen in *. lia.
Qed.
Lemma zlen_rest : forall b n, 0 <= n <= zlen b -> zlen (rest b 0 n) = n.
Proof. intros b n H. rewrite rest_slice. apply zlen_slice; lia. Qed.

Lemma overwrite_twice : forall mem f p new, 0 <= p <= zlen f -> zlen f <= zlen mem -> p + zlen new <= zlen mem ->
  splice (overwrite mem 0 f) p new = overwrite mem 0 (overwrite f p new).
Proof.
  intros mem f p new H1 H2 H3. assert (0 <= zlen new) by auto. assert (0 <= zlen f) by auto.
  assert (L1 : zlen (overwrite mem 0 f) = zlen mem) by (rewrite zlen_overwrite; lia).
  assert (L2 : zlen (overwrite f p new) = Z.max (zlen f) (p + zlen new)) by (apply zlen_overwrite; lia).
  apply list_ext.
  - rewrite zlen_splice by lia. rewrite L1, zlen_overwrite by lia. lia.
  - rewrite zlen_splice by lia. rewrite L1. intros j Hj. rewrite geti_splice by lia.
    rewrite !geti_overwrite by lia. rewrite L2. rewrite !Z.sub_0_r, !Z.add_0_l.
    destruct ((p <=? j) && (j <? p + zlen new)) eqn:E1.
    + replace ((0 <=? j) && (j <? _)) with true by lia. reflexivity.
    + destruct ((0 <=? j) && (j <? zlen f)) eqn:E2.
      * replace ((0 <=? j) && (j <? Z.max _ _)) with true by lia. reflexivity.
      * replace ((0 <=? j) && (j <? Z.max _ _)) with false by lia. reflexivity.
Qed.

Lemma bump_in : forall s, cur s <= maxp s -> bump s = s.
Proof. intros [c m e] H. unfold bump. cbn [cur maxp serr] in *. replace (m <? c) with false by lia. reflexivity. Qed.

Lemma size_sim : forall p f pos g s, run_file p f pos = Some g -> 0 <= pos <= zlen f -> zlen f < 2147483648 ->
  cur s = pos -> maxp s = zlen f -> maxp (run_size p s) = zlen g.
Proof.
  induction p as [|c k IH|b sz n k IH|off m k IH|k IH]; intros f pos g [cu mx er] R Hp Hf Hc Hm;
    cbn [run_file run_size cur maxp] in *; subst cu mx.
  - injection R as <-. reflexivity.
  - destruct (zlen f <? 2147483647) eqn:E; [|discriminate]. unfold iSizePutc. cbn [cur maxp serr].
    rewrite u32_small by lia. eapply IH; eauto; rewrite ?zlen_overwrite by lia; change (zlen [c]) with 1; unfold bump; cbn [cur maxp]; try lia.
    destruct (zlen f <? pos + 1) eqn:E2; lia.
  - destruct (_ && _) eqn:E in R; [|discriminate].
    assert (0 <= sz * n) by (apply Z.mul_nonneg_nonneg; lia).
    assert (L : zlen (rest b 0 (sz * n)) = sz * n) by (apply zlen_rest; lia).
    unfold iSizeWrite. cbn [cur maxp serr].
    rewrite (u32_small (sz * n)) by lia. rewrite u32_small by lia.
    eapply IH; eauto; rewrite ?zlen_overwrite, ?L by lia; unfold bump; cbn [cur maxp]; try lia.
    destruct (zlen f <? pos + sz * n) eqn:E2; lia.
  - unfold iSizeSeek, IL_SEEK_SET, IL_SEEK_CUR, IL_SEEK_END. cbn [cur maxp serr].
    destruct (m =? 0) eqn:E0; [|destruct (m =? 1) eqn:E1; [|destruct (m =? 2) eqn:E2; [|discriminate]]];
      (destruct (_ && _) eqn:E in R; [|discriminate]); rewrite u32_small by lia;
      rewrite ?(bump_in (Sz _ _ _)) by (cbn [cur maxp]; lia); rewrite ?(bump_in (Sz _ _ _)) by (cbn [cur maxp]; lia); eapply IH; eauto; cbn [cur maxp]; lia.
  - unfold iSizeTell. cbn [cur]. eapply IH; eauto.
Qed.

Lemma file_grows : forall p f pos g, run_file p f pos = Some g -> 0 <= pos <= zlen f -> zlen f <= zlen g.
Proof.
  induction p as [|c k IH|b sz n k IH|off m k IH|k IH]; intros f pos g R Hp; cbn [run_file] in *.
  - injection R as <-. lia.
  - destruct (zlen f <? _) eqn:E; [|discriminate]. specialize (IH _ _ _ _ R). rewrite zlen_overwrite in IH by lia.
    change (zlen [c]) with 1 in IH. lia.
  - destruct (_ && _) eqn:E in R; [|discriminate].
    assert (0 <= sz * n) by (apply Z.mul_nonneg_nonneg; lia).
    specialize (IH _ _ _ R). rewrite zlen_overwrite, zlen_rest in IH by lia. lia.
  - destruct (if m =? 0 then _ else _) as [t|]; [|discriminate]. destruct (_ && _) eqn:E in R; [|discriminate].
    apply (IH _ _ _ _ R). lia.
  - eapply IH; eauto.
Qed.

Lemma lump_sim : forall p f pos g mem w, run_file p f pos = Some g -> no_end p -> 0 <= pos <= zlen f ->
  zlen g <= zlen mem -> zlen mem < 2147483648 ->
  wlump w = overwrite mem 0 f -> wpos w = pos -> wsize w = zlen mem ->
  exists w', run_lump p w = Ok w' /\ wlump w' = overwrite mem 0 g /\ werr w' = werr w.
Proof.
  induction p as [|c k IH|b sz n k IH|off m k IH|k IH]; intros f pos g mem [l wp wsz er] R N Hp Hg Hm Hl Hq Hs;
    pose proof (file_grows _ _ _ _ R Hp) as HG; cbn [run_file run_lump wlump wpos wsize werr] in *; subst wp wsz;
    assert (LL : zlen l = zlen mem) by (subst l; rewrite zlen_overwrite by (pose proof (zlen_nonneg _ mem); lia); lia).
  - injection R as <-. eauto.
  - destruct (zlen f <? _) eqn:E; [|discriminate]. inversion N; subst.
    assert (HF := file_grows _ _ _ _ R). rewrite zlen_overwrite in HF by lia. change (zlen [c]) with 1 in HF.
    unfold iPutcLump. cbn [wlump wpos wsize werr]. replace (zlen mem <=? pos) with false by lia.
    rewrite wr_ok by lia. cbn [bind]. rewrite u32_small by lia.
    eapply (IH c (overwrite f pos [c]) (pos + 1) g mem); cbn [wlump wpos wsize werr]; eauto;
      try (rewrite zlen_overwrite by lia; change (zlen [c]) with 1; lia).
    apply overwrite_twice; change (zlen [c]) with 1; lia.
  - destruct (_ && _) eqn:E in R; [|discriminate].
    assert (0 <= sz * n) by (apply Z.mul_nonneg_nonneg; lia). inversion N; subst.
    assert (L : zlen (rest b 0 (sz * n)) = sz * n) by (apply zlen_rest; lia).
    assert (HF := file_grows _ _ _ _ R). rewrite zlen_overwrite, L in HF by lia.
    unfold iWriteLump. rewrite (u32_small (sz * n)) by lia.
    rewrite write_loop_ok; cbn [wlump wpos wsize werr]; try lia.
    cbn [bind]. rewrite Z2Nat.id by lia. rewrite !Z.add_0_r.
    replace (fit (zlen mem) pos (sz * n)) with (sz * n) by (unfold fit; lia).
    rewrite Z.ltb_irrefl, app_nil_r.
    eapply (IH (overwrite f pos (rest b 0 (sz * n))) (pos + sz * n) g mem); cbn [wlump wpos wsize werr]; eauto;
      try (rewrite zlen_overwrite, L by lia; lia).
    rewrite <- rest_slice. apply overwrite_twice; lia.
  - inversion N as [| | |off' m' k' Hm' Nk|]; subst. unfold iSeekWLump. cbn [wlump wpos wsize werr]. unfold seek_lump, IL_SEEK_SET, IL_SEEK_CUR, IL_SEEK_END.
    destruct (m =? 0) eqn:E0; [|destruct (m =? 1) eqn:E1; [|destruct (m =? 2) eqn:E2; [lia|discriminate]]];
      (destruct (_ && _) eqn:E in R; [|discriminate]).
    + rewrite i32_small by lia. replace (zlen mem <? off) with false by lia. cbn [bind]. rewrite u32_small by lia.
      eapply (IH 0 f off g mem); cbn [wlump wpos wsize werr]; eauto; lia.
    + rewrite u32_small by lia. replace (zlen mem <? pos + off) with false by lia. cbn [bind].
      eapply (IH 0 f (pos + off) g mem); cbn [wlump wpos wsize werr]; eauto; lia.
  - unfold iTellWLump. cbn [wpos]. inversion N; subst. eapply (IH pos f pos g mem); cbn [wlump wpos wsize werr]; eauto.
Qed.

(** ilDetermineSize reports the size of the file the saver writes, for every saver that stays inside
    what it has written. *)
Theorem C23_size : forall p f, file_of p = Some f -> determine_size p = zlen f.
Proof. intros p f H. unfold determine_size. eapply size_sim; eauto; cbn; lia. Qed.

(** and a lump of at least that size receives exactly that file, with no error and nothing else
    changed.  Missing from C23: savers that seek relative to the end when the lump is larger than the
    file ([C23_end_refuted]), savers that seek past the end ([C23_gap_refuted]), TGA (ilDetermineSize
    uses a formula) and the formats written by other libraries. *)
Theorem C23_lump_partial : forall p f mem, file_of p = Some f -> no_end p ->
  determine_size p <= zlen mem -> zlen mem < 2147483648 ->
  exists w, save_lump p mem (zlen mem) = Ok w /\ wlump w = f ++ skipn (length f) mem /\ werr w = [].
Proof.
  intros p f mem H N Hl Hm. rewrite (C23_size p f H) in Hl. unfold file_of in H.
  destruct (lump_sim p [] 0 f mem (iSetOutputLump mem (zlen mem)) H N) as (w & E & X & Y); auto.
  - cbn; lia.
  - exists w. auto.
Qed.

(** In particular the buffer of the reported size ends up equal to the file. *)
Corollary C23_exact : forall p f mem, file_of p = Some f -> no_end p -> zlen mem = determine_size p ->
  zlen mem < 2147483648 -> exists w, save_lump p mem (zlen mem) = Ok w /\ wlump w = f.
Proof.
  intros p f mem H N Hl Hm. destruct (C23_lump_partial p f mem H N ltac:(lia) Hm) as (w & E & X & _).
  exists w. split; auto. rewrite X, skipn_all2, app_nil_r; auto.
  rewrite (C23_size p f H) in Hl. unfold zlen in Hl. lia.
Qed.

(** A saver that seeks past the end without writing there is charged for it. *)
Theorem C23_gap_refuted : forall n, 0 <= n < 2147483648 -> determine_size (Seek n IL_SEEK_SET (fun _ => Done)) = n.
Proof.
  intros n H. unfold determine_size. cbn [run_size]. unfold iSizeSeek, IL_SEEK_SET. cbn [Z.eqb run_size].
  rewrite u32_small by lia. unfold bump. cbn [cur maxp]. destruct (0 <? n) eqn:E; cbn [cur maxp]; [destruct (n <? n); auto|].
  rewrite E. cbn. lia.
Qed.

(** Seeking to the end of a lump larger than the file goes to the end of the lump, and what follows is
    lost (this is how il_tiff.cpp:816 measures its file). *)
Theorem C23_end_refuted : forall mem, 3 < zlen mem < 2147483648 ->
  let p := Write [1;2] 1 2 (Seek 0 IL_SEEK_END (fun _ => Putc 3 (fun _ => Done))) in
  file_of p = Some [1;2;3] /\ determine_size p = 3 /\
  exists w, save_lump p mem (zlen mem) = Ok w /\ wlump w = [1;2] ++ skipn 2 mem.
Proof.
  intros mem H p. split; [reflexivity|]. split; [reflexivity|]. unfold save_lump, iSetOutputLump, p. cbn [run_lump].
  unfold iWriteLump. change (u32 (1 * 2)) with 2.
  rewrite write_loop_ok; cbn [wlump wpos wsize werr]; try lia; try (cbn; lia).
  cbn [bind]. change (Z.of_nat (Z.to_nat 2)) with 2. replace (fit (zlen mem) (0 + 0) 2) with 2 by (unfold fit; lia).
  change (slice [1;2] 0 2) with [1;2]. cbn [Z.ltb Z.compare app Z.add Pos.compare Pos.compare_cont Pos.add].
  unfold iSeekWLump. cbn [wlump wpos wsize werr]. unfold seek_lump. change (IL_SEEK_END =? IL_SEEK_SET) with false.
  change (IL_SEEK_END =? IL_SEEK_CUR) with false. change (IL_SEEK_END =? IL_SEEK_END) with true. cbn [Z.ltb Z.compare].
  change (abs_int 0) with (Ok 0). cbn [bind]. rewrite i32_small by lia. replace (zlen mem <? 0) with false by lia. cbn [bind].
  rewrite u32_small by lia. unfold iPutcLump. cbn [wlump wpos wsize werr]. replace (zlen mem <=? zlen mem + 0) with true by lia.
  cbn [bind run_lump]. eexists. split; [reflexivity|]. cbn [wlump]. reflexivity.
Qed.

(** A saver like that of BMP: header with a size field, data, then back to patch the size. *)
Definition ex_saver : saver :=
  Write [66;77] 2 1 (Putc 0 (fun _ => Write [7;8;9] 1 3 (Tell (fun n =>
    Seek 2 IL_SEEK_SET (fun _ => Putc n (fun _ => Seek n IL_SEEK_SET (fun _ => Putc 255 (fun _ => Done)))))))).
Example C23_ex : file_of ex_saver = Some [66;77;6;7;8;9;255] /\ no_end ex_saver /\ determine_size ex_saver = 7.
Proof.
  split; [reflexivity|]. split; [|reflexivity].
  repeat first [constructor; try (unfold IL_SEEK_SET; lia); intros].
Qed.

Print Assumptions C21_getc.
Print Assumptions C21_read.
Print Assumptions C21_past_end.
Print Assumptions C21_safe_partial.
Print Assumptions C21_sequential.
Print Assumptions C21_seek_refuted.
Print Assumptions C21_eof_not_sticky.
Print Assumptions C22_putc.
Print Assumptions C22_write.
Print Assumptions C22_safe_partial.
Print Assumptions C22_zero_refuted.
Print Assumptions C22_putc_silent_refuted.
Print Assumptions C23_size.
Print Assumptions C23_lump_partial.
Print Assumptions C23_exact.
Print Assumptions C23_gap_refuted.
Print Assumptions C23_end_refuted.
