(** Proofs about Pcx.v. *)
From Coq Require Import ZArith List Lia Bool.
From Verif Require Import Base Slices BitLemmas Scatter Enums Utility Image ImageSpec ImageProps Flip FlipProofs FlipProps Lump LumpSpec LumpProofs LumpProps Channels Endian EndianProps Raw RawProps Pcx PcxSpec.
Import ListNotations.
Open Scope Z_scope.

Lemma pcx_coded_app : forall e1 d1 e2 d2, pcx_coded e1 d1 -> pcx_coded e2 d2 -> pcx_coded (e1 ++ e2) (d1 ++ d2).
Proof.
  intros e1 d1 e2 d2 H1 H2. induction H1; cbn [app]; auto.
  - constructor; auto.
  - rewrite <- app_assoc. constructor; auto.
Qed.

(** ** The encoder *)

Fixpoint plane (n : nat) (buf : list Z) (off step : Z) : list Z :=
  match n with O => [] | S n => geti buf off :: plane n buf (off + step) step end.
Lemma zlen_plane : forall n buf off step, zlen (plane n buf off step) = Z.of_nat n.
Proof. induction n; intros; cbn [plane]; [reflexivity|]. rewrite zlen_cons, IHn. lia. Qed.
Lemma geti_plane : forall n buf off step i, 0 <= i < Z.of_nat n -> geti (plane n buf off step) i = geti buf (off + i * step).
Proof.
  induction n; intros buf off step i H; [lia|]. cbn [plane]. rewrite geti_cons by lia. destruct (i =? 0) eqn:E.
  - f_equal. replace i with 0 by lia. lia.
  - rewrite IHn by lia. f_equal. ring.
Qed.

Lemma at_ok : forall buf i k, 0 <= i < zlen buf -> at_ buf i k = k (geti buf i).
Proof. intros. unfold at_. rewrite rd_ok by auto. reflexivity. Qed.

Lemma run_mark : forall n, 0 <= n <= 63 -> u8 (Z.lor 192 n) = 192 + n.
Proof.
  intros n H. assert (E := lor_disj 6 n 3). change (2 ^ 6) with 64 in E. specialize (E ltac:(lia) ltac:(lia)). rewrite Z.lor_comm. change (3 * 64) with 192 in E. rewrite E.
  rewrite u8_small; lia.
Qed.
Lemma and_192 : forall b, 0 <= b < 256 -> (192 =? Z.land 192 b) = (192 <=? b).
Proof.
  assert (A : forallb (fun i => Bool.eqb (192 =? Z.land 192 (Z.of_nat i)) (192 <=? Z.of_nat i)) (seq 0 256) = true) by (vm_compute; reflexivity).
  intros b H. rewrite forallb_forall in A. specialize (A (Z.to_nat b)). rewrite Z2Nat.id in A by lia. apply eqb_prop. apply A. apply in_seq. lia.
Qed.
Lemma is_run : forall b, 0 <= b < 256 -> (Z.land b 192 =? 192) = (192 <=? b).
Proof. intros b H. rewrite <- and_192 by auto. rewrite Z.land_comm. apply Z.eqb_sym. Qed.
Lemma run_len : forall n, 0 <= n <= 63 -> Z.land (192 + n) 63 = n.
Proof.
  intros n H. change 63 with (Z.ones 6). rewrite Z.land_ones by lia. change (2 ^ 6) with 64. symmetry. apply Z.mod_unique with 3; lia.
Qed.

(** what one call of encput emits *)
Definition code (b n : Z) : list Z := if (n =? 1) && (b <? 192) then [b] else [192 + n; b].
Lemma code_ok : forall b n, 0 <= b < 256 -> 1 <= n <= 63 -> pcx_coded (code b n) (repeat b (Z.to_nat n)).
Proof.
  intros b n Hb Hn. unfold code. destruct ((n =? 1) && (b <? 192)) eqn:E.
  - replace n with 1 by lia. constructor; [lia|constructor].
  - rewrite <- (app_nil_r (repeat b (Z.to_nat n))). constructor; auto. constructor.
Qed.
Lemma code_len : forall b n, 1 <= zlen (code b n) <= 2.
Proof. intros. unfold code. destruct (_ && _); cbn; lia. Qed.
Lemma run_encput : forall b n k f, 0 <= b < 256 -> 1 <= n <= 63 -> zlen f < 2147483645 ->
  exists i, i <> 0 /\ run_file (encput b n k) f (zlen f) = run_file (k i) (f ++ code b n) (zlen (f ++ code b n)).
Proof.
  intros b n k f Hb Hn Hf. unfold encput, code. replace (n =? 0) with false by lia. cbn [negb]. rewrite and_192 by auto.
  replace (negb (192 <=? b)) with (b <? 192) by lia. destruct ((n =? 1) && (b <? 192)) eqn:E.
  - rewrite run_putc by lia. change IL_EOF with (-1). replace (-1 =? b) with false by lia. exists 1. split; [lia|reflexivity].
  - rewrite run_mark by lia. rewrite run_putc by lia. change IL_EOF with (-1). replace (-1 =? 192 + n) with false by lia.
    rewrite run_putc by (rewrite zlen_app; change (zlen [192 + n]) with 1; lia). replace (-1 =? b) with false by lia. exists 2. split; [lia|]. rewrite <- app_assoc. reflexivity.
Qed.

Definition pad_of (odd : bool) : list Z := if odd then [0] else [].
Lemma run_pad : forall (odd : bool) k f, zlen f < 2147483645 ->
  run_file (if odd then Putc 0 (fun _ => k) else k) f (zlen f) = run_file k (f ++ pad_of odd) (zlen (f ++ pad_of odd)).
Proof.
  intros odd k f H. destruct odd; cbn [pad_of].
  - apply run_putc. lia.
  - rewrite app_nil_r. reflexivity.
Qed.
Lemma pad_coded : forall odd, pcx_coded (pad_of odd) (pad_of odd).
Proof. intros [|]; cbn; [constructor; [lia|]|]; constructor. Qed.

Lemma pc_repeat : forall (b n : Z), repeat b (Z.to_nat (n + 1)) = repeat b (Z.to_nat n) ++ [b] \/ n < 0.
Proof.
  intros b n. destruct (Z.lt_ge_cases n 0); [auto|left]. replace (Z.to_nat (n + 1)) with (Z.to_nat n + 1)%nat by lia.
  rewrite repeat_app. reflexivity.
Qed.

(** the invariant of the encoder: the pending run, then the rest of the line *)
Lemma enc_loop_ok : forall n buf off step last run total odd k f, bytes buf -> 0 <= step ->
  0 <= off -> off + Z.of_nat n * step < zlen buf -> 0 <= last < 256 -> 0 <= run < 63 ->
  zlen f + 2 * (1 + Z.of_nat n) + 1 < 2147483645 ->
  exists e t, run_file (enc_loop n buf off step last run total odd k) f (zlen f) = run_file (k t) (f ++ e) (zlen (f ++ e)) /\
    pcx_coded e (repeat last (Z.to_nat run) ++ plane n buf (off + step) step ++ pad_of odd) /\ zlen e <= 2 * (1 + Z.of_nat n) + 1.
Proof.
  induction n as [|n IH]; intros buf off step last run total odd k f HB Hst Hoff Hlen Hlast Hrun Hf; cbn [enc_loop plane].
  - destruct (run =? 0) eqn:E0; cbn [negb].
    + replace run with 0 by lia. rewrite (run_pad odd (k total) f) by lia. exists (pad_of odd), total. split; [reflexivity|]. cbn [repeat Z.to_nat app].
      split; [apply pad_coded|]. destruct odd; cbn; lia.
    + destruct (run_encput last run (fun i => if i =? 0 then k 0 else if odd then Putc 0 (fun _ => k (total + i)) else k (total + i)) f) as (i & Hi & ->); try lia.
      replace (i =? 0) with false by lia. assert (CL := code_len last run). rewrite run_pad by (rewrite zlen_app; lia).
      exists (code last run ++ pad_of odd), (total + i). rewrite <- app_assoc. split; [reflexivity|]. split.
      * apply pcx_coded_app; [apply code_ok; lia|apply pad_coded].
      * rewrite zlen_app. destruct odd; cbn [pad_of]; [change (zlen [0]) with 1|change (zlen (@nil Z)) with 0]; lia.
  - assert (S0 : 0 <= Z.of_nat n * step) by (apply Z.mul_nonneg_nonneg; lia).
    assert (EQ : off + Z.of_nat (S n) * step = off + step + Z.of_nat n * step) by lia. rewrite EQ in Hlen.
    rewrite at_ok by lia. set (this := geti buf (off + step)). assert (Ht : 0 <= this < 256) by (apply HB; lia).
    destruct (this =? last) eqn:E1.
    + assert (this = last) as -> by lia. clear E1. rewrite u8_small by lia. destruct (run + 1 =? 63) eqn:E2.
      * destruct (run_encput last (run + 1) (fun i => if i =? 0 then k 0 else enc_loop n buf (off + step) step last 0 (total + i) odd k) f) as (i & Hi & ->); try lia.
        replace (i =? 0) with false by lia. assert (CL := code_len last (run + 1)).
        destruct (IH buf (off + step) step last 0 (total + i) odd k (f ++ code last (run + 1))) as (e & t & -> & C & L); auto; try lia.
        { rewrite zlen_app. lia. }
        exists (code last (run + 1) ++ e), t. rewrite <- app_assoc. split; [reflexivity|]. split; [|rewrite zlen_app; lia].
        destruct (pc_repeat last run) as [R|R]; [|lia].
        change (last :: plane n buf (off + step + step) step) with ([last] ++ plane n buf (off + step + step) step).
        rewrite <- !app_assoc. rewrite (app_assoc (repeat last _) [last]), <- R. apply pcx_coded_app; [apply code_ok; lia|]. exact C.
      * destruct (IH buf (off + step) step last (run + 1) total odd k f) as (e & t & -> & C & L); auto; try lia.
        exists e, t. split; [reflexivity|]. split; [|lia]. destruct (pc_repeat last run) as [R|R]; [|lia].
        change (last :: plane n buf (off + step + step) step) with ([last] ++ plane n buf (off + step + step) step).
        rewrite <- !app_assoc. rewrite (app_assoc (repeat last _) [last]), <- R. exact C.
    + destruct (run =? 0) eqn:E2; cbn [negb].
      * destruct (IH buf (off + step) step this 1 total odd k f) as (e & t & -> & C & L); auto; try lia.
        exists e, t. split; [reflexivity|]. split; [|lia]. replace run with 0 by lia. cbn [repeat Z.to_nat app]. exact C.
      * destruct (run_encput last run (fun i => if i =? 0 then k 0 else enc_loop n buf (off + step) step this 1 (total + i) odd k) f) as (i & Hi & ->); try lia.
        replace (i =? 0) with false by lia. assert (CL := code_len last run).
        destruct (IH buf (off + step) step this 1 (total + i) odd k (f ++ code last run)) as (e & t & -> & C & L); auto; try lia.
        { rewrite zlen_app. lia. }
        exists (code last run ++ e), t. rewrite <- app_assoc. split; [reflexivity|]. split; [|rewrite zlen_app; lia].
        apply pcx_coded_app; [apply code_ok; lia|]. exact C.
Qed.

Lemma encLine_ok : forall buf off w bpp k f, bytes buf -> 1 <= bpp < 256 -> 1 <= w < 2147483648 -> 0 <= off -> off + (w - 1) * bpp < zlen buf ->
  zlen f + 2 * w + 1 < 2147483645 ->
  exists e t, run_file (encLine buf off w (u8 (bpp - 1)) k) f (zlen f) = run_file (k t) (f ++ e) (zlen (f ++ e)) /\
    pcx_coded e (plane (Z.to_nat w) buf off bpp ++ pad_of (Z.odd w)) /\ zlen e <= 2 * w + 1.
Proof.
  intros buf off w bpp k f HB Hb Hw Ho Hl Hf. unfold encLine. assert (0 <= (w - 1) * bpp) by (apply Z.mul_nonneg_nonneg; lia).
  rewrite at_ok by lia. rewrite u8_small by lia. replace (bpp - 1 + 1) with bpp by lia.
  replace (negb (Z.rem w 2 =? 0)) with (Z.odd w).
  2:{ rewrite Z.rem_mod_nonneg by lia. rewrite Zmod_odd. destruct (Z.odd w); reflexivity. }
  destruct (enc_loop_ok (Z.to_nat (w - 1)) buf off bpp (geti buf off) 1 0 (Z.odd w) k f) as (e & t & E & C & L); auto; try lia.
  { apply HB. lia. }
  exists e, t. split; [exact E|]. split; [|lia].
  replace (Z.to_nat w) with (S (Z.to_nat (w - 1))) by lia. exact C.
Qed.

(** one row: all planes *)
Fixpoint planes (n : nat) (c : Z) (w : Z) (buf : list Z) (off bpp : Z) : list Z :=
  match n with O => [] | S n => (plane (Z.to_nat w) buf (off + c) bpp ++ pad_of (Z.odd w)) ++ planes n (c + 1) w buf off bpp end.
Definition padded (w : Z) : Z := if Z.odd w then w + 1 else w.
Lemma zlen_pad : forall w, 0 <= w -> w + zlen (pad_of (Z.odd w)) = padded w.
Proof. intros. unfold padded. destruct (Z.odd w); cbn; lia. Qed.
Lemma zlen_planes : forall n c w buf off bpp, 0 <= w -> zlen (planes n c w buf off bpp) = Z.of_nat n * padded w.
Proof.
  induction n; intros; cbn [planes]; [reflexivity|]. rewrite !zlen_app, zlen_plane, IHn by lia. rewrite Z2Nat.id by lia. rewrite zlen_pad by lia. lia.
Qed.
Lemma geti_planes : forall n c0 w buf off bpp c x, 0 <= w -> 0 <= c < Z.of_nat n -> 0 <= x < w ->
  geti (planes n c0 w buf off bpp) (x + c * padded w) = geti buf (off + c0 + c + x * bpp).
Proof.
  induction n; intros c0 w buf off bpp c x Hw Hc Hx; [lia|]. cbn [planes].
  assert (P := zlen_pad w Hw). assert (0 <= zlen (pad_of (Z.odd w))) by auto.
  assert (L1 : zlen (plane (Z.to_nat w) buf (off + c0) bpp ++ pad_of (Z.odd w)) = padded w) by (rewrite zlen_app, zlen_plane; lia).
  assert (0 <= c * padded w) by (apply Z.mul_nonneg_nonneg; lia).
  rewrite geti_app by lia. rewrite L1. destruct (x + c * padded w <? padded w) eqn:E.
  - assert (c = 0). { destruct (Z.eq_dec c 0); auto. assert (1 * padded w <= c * padded w) by (apply Z.mul_le_mono_nonneg_r; lia). lia. }
    subst c. rewrite Z.mul_0_l, Z.add_0_r, geti_app by lia. rewrite zlen_plane. replace (x <? Z.of_nat (Z.to_nat w)) with true by lia.
    rewrite geti_plane by lia. f_equal. lia.
  - assert (c <> 0) by (intros ->; lia). replace (x + c * padded w - padded w) with (x + (c - 1) * padded w) by ring.
    rewrite IHn by lia. f_equal. lia.
Qed.

Lemma for_planes : forall n c w buf off bpp k f, bytes buf -> 1 <= bpp < 256 -> 1 <= w < 2147483648 -> 0 <= off -> 0 <= c -> c + Z.of_nat n <= bpp ->
  off + w * bpp <= zlen buf -> zlen f + Z.of_nat n * (2 * w + 1) < 2147483645 ->
  exists e, run_file (for_s n c (fun c k => encLine buf (off + c) w (u8 (bpp - 1)) (fun _ => k)) k) f (zlen f) = run_file k (f ++ e) (zlen (f ++ e)) /\
    pcx_coded e (planes n c w buf off bpp) /\ zlen e <= Z.of_nat n * (2 * w + 1).
Proof.
  induction n; intros c w buf off bpp k f HB Hb Hw Ho Hc Hn Hl Hf; cbn [for_s planes].
  - exists []. rewrite app_nil_r. split; [reflexivity|]. split; [constructor|]. cbn. lia.
  - assert (0 <= Z.of_nat n * (2 * w + 1)) by (apply Z.mul_nonneg_nonneg; lia).
    assert (EQ : Z.of_nat (S n) * (2 * w + 1) = 2 * w + 1 + Z.of_nat n * (2 * w + 1)) by lia.
    destruct (encLine_ok buf (off + c) w bpp (fun _ => for_s n (c + 1) (fun c k => encLine buf (off + c) w (u8 (bpp - 1)) (fun _ => k)) k) f) as (e1 & t & -> & C1 & L1); auto; try lia.
    destruct (IHn (c + 1) w buf off bpp k (f ++ e1)) as (e2 & -> & C2 & L2); auto; try lia.
    { rewrite zlen_app. lia. }
    exists (e1 ++ e2). rewrite <- app_assoc. split; [reflexivity|]. split; [apply pcx_coded_app; auto|]. rewrite zlen_app. lia.
Qed.

(** all rows *)
Definition row_data (w bpp : Z) (buf : list Z) (y : Z) : list Z := planes (Z.to_nat bpp) 0 w buf (w * bpp * y) bpp.
Inductive coded_rows (w bpp : Z) (buf : list Z) : Z -> list (list Z) -> Prop :=
| cr_nil : forall y, coded_rows w bpp buf y []
| cr_cons : forall y e l, pcx_coded e (row_data w bpp buf y) -> coded_rows w bpp buf (y + 1) l -> coded_rows w bpp buf y (e :: l).

Lemma for_rows : forall n y w bpp buf k f, bytes buf -> 1 <= bpp < 256 -> 1 <= w < 2147483648 -> 0 <= y -> w * bpp * (y + Z.of_nat n) <= zlen buf ->
  zlen buf < 4294967296 -> zlen f + Z.of_nat n * (bpp * (2 * w + 1)) < 2147483645 ->
  exists l, run_file (for_s n y (fun i k =>
    for_s (Z.to_nat bpp) 0 (fun c k =>
      encLine buf (u32 (w * bpp * i) + c) w (u8 (bpp - 1)) (fun _ => k)) k) k) f (zlen f) = run_file k (f ++ concat l) (zlen (f ++ concat l)) /\
    length l = n /\ coded_rows w bpp buf y l /\ zlen (concat l) <= Z.of_nat n * (bpp * (2 * w + 1)).
Proof.
  induction n; intros y w bpp buf k f HB Hb Hw Hy Hl H32 Hf; cbn [for_s].
  - exists []. cbn [concat]. rewrite app_nil_r. split; [reflexivity|]. split; [reflexivity|]. split; [constructor|]. cbn. lia.
  - set (R := bpp * (2 * w + 1)) in *. assert (0 <= R) by (apply Z.mul_nonneg_nonneg; lia). assert (0 <= Z.of_nat n * R) by (apply Z.mul_nonneg_nonneg; lia).
    assert (EQ : Z.of_nat (S n) * R = R + Z.of_nat n * R) by lia.
    assert (P : 0 <= w * bpp) by (apply Z.mul_nonneg_nonneg; lia). assert (P2 : 0 <= w * bpp * y) by (apply Z.mul_nonneg_nonneg; lia).
    assert (P3 : w * bpp * y + w * bpp <= zlen buf). { assert (w * bpp * (y + 1) <= w * bpp * (y + Z.of_nat (S n))) by (apply Z.mul_le_mono_nonneg_l; lia). lia. }
    rewrite (u32_small (w * bpp * y)). 2:{ assert (0 < w * bpp) by (apply Z.mul_pos_pos; lia). lia. }
    destruct (for_planes (Z.to_nat bpp) 0 w buf (w * bpp * y) bpp (for_s n (y + 1) (fun i k =>
      for_s (Z.to_nat bpp) 0 (fun c k => encLine buf (u32 (w * bpp * i) + c) w (u8 (bpp - 1)) (fun _ => k)) k) k) f) as (e & -> & C & L); auto; try lia.
    rewrite Z2Nat.id in L by lia. fold R in L.
    destruct (IHn (y + 1) w bpp buf k (f ++ e)) as (l & -> & LL & CR & LC); auto; try lia.
    { rewrite zlen_app. fold R. lia. }
    exists (e :: l). cbn [concat length]. rewrite <- app_assoc. split; [reflexivity|]. split; [lia|]. split; [constructor; auto|].
    rewrite zlen_app. fold R in LC. lia.
Qed.

Lemma run_putn : forall n c k f, zlen f + Z.of_nat n < 2147483647 -> run_file (putn n c k) f (zlen f) = run_file k (f ++ repeat c n) (zlen (f ++ repeat c n)).
Proof.
  induction n; intros c k f H; cbn [putn repeat].
  - rewrite app_nil_r. reflexivity.
  - rewrite run_putc by lia. rewrite IHn by (rewrite zlen_app; change (zlen [c]) with 1; lia). rewrite <- app_assoc. reflexivity.
Qed.

(** ** The decoder *)

Lemma upd_app : forall a x b v, upd (a ++ x :: b) (zlen a) v = a ++ v :: b.
Proof.
  intros a x b v. unfold upd, splice, zlen. rewrite Nat2Z.id, firstn_app, firstn_all, Nat.sub_diag. cbn [firstn length]. rewrite app_nil_r. f_equal. cbn [app]. f_equal.
  rewrite skipn_app, skipn_all2 by lia. replace (length a + 1 - length a)%nat with 1%nat by lia. reflexivity.
Qed.
Lemma skipn_head : forall (l : list Z) n, (n < length l)%nat -> exists x, skipn n l = x :: skipn (n + 1) l.
Proof.
  induction l as [|a l IH]; intros n H; cbn [length] in H; [lia|]. destruct n; [exists a; reflexivity|]. cbn [skipn Nat.add]. apply IH. lia.
Qed.
Lemma put_run_ok : forall cnt x col pref junk, 0 <= cnt <= zlen junk -> zlen pref = x ->
  put_run x cnt col (pref ++ junk) = Ok (pref ++ repeat col (Z.to_nat cnt) ++ skipn (Z.to_nat cnt) junk).
Proof.
  intros cnt x col pref junk Hc Hx. unfold put_run.
  destruct (loop_rule _ (fun i s => s = pref ++ repeat col (Z.to_nat i) ++ skipn (Z.to_nat i) junk) 0 cnt (fun i s => wr s (x + i) col) (pref ++ junk)) as (s & -> & ->); auto; try lia.
  intros i s Hi ->. assert (0 <= zlen pref) by auto.
  destruct (skipn_head junk (Z.to_nat i)) as (j & ->); [unfold zlen in *; lia|].
  assert (Hx' : x + i = zlen (pref ++ repeat col (Z.to_nat i))) by (rewrite zlen_app, zlen_repeat; lia).
  rewrite app_assoc, Hx'. rewrite wr_ok by (rewrite (zlen_app _ (pref ++ _)), zlen_cons; assert (0 <= zlen (skipn (Z.to_nat i + 1) junk)) by auto; lia).
  eexists. split; [reflexivity|]. rewrite upd_app. replace (Z.to_nat (i + 1)) with (Z.to_nat i + 1)%nat by lia. rewrite repeat_app, <- !app_assoc. reflexivity.
Qed.

Lemma byte_at : forall F pre b post e, F = pre ++ b :: post -> zlen F < 4294967295 ->
  iReadLump [0] 1 1 (Rd F (zlen pre) (zlen F) e) = Ok (1, [b], Rd F (zlen pre + 1) (zlen F) e).
Proof.
  intros F pre b post e -> H. assert (T := read_at pre [b] post [0] 1 1 e). cbn [app length skipn] in T. rewrite T; auto; try lia; try (cbn; lia).
  rewrite zlen_app, zlen_cons. assert (0 <= zlen pre) by auto. assert (0 <= zlen post) by auto. lia.
Qed.

Lemma line_ok : forall e d, pcx_coded e d -> forall F fuel pre post pref junk er size,
  (length e < fuel)%nat -> zlen junk = zlen d -> F = pre ++ e ++ post -> zlen F < 4294967295 -> size = zlen pref + zlen d ->
  pcx_line fuel size (zlen pref) (pref ++ junk) (Rd F (zlen pre) (zlen F) er) =
  Ok (true, pref ++ d, Rd F (zlen pre + zlen e) (zlen F) er).
Proof.
  intros e d H. induction H as [|b e d Hb H IH|n b e d Hn Hb H IH]; intros F fuel pre post pref junk er size Hf Hj HF Hm ->.
  - assert (junk = []) as -> by (destruct junk; auto; rewrite zlen_cons, zlen_nil in Hj; assert (0 <= zlen junk) by auto; lia).
    destruct fuel; cbn [pcx_line]; change (zlen (@nil Z)) with 0; rewrite Z.add_0_r, Z.ltb_irrefl, Z.add_0_r; reflexivity.
  - destruct fuel as [|fuel]; [cbn in Hf; lia|]. cbn [pcx_line]. rewrite zlen_cons in *. assert (0 <= zlen d) by auto. assert (0 <= zlen pref) by auto.
    replace (zlen pref <? zlen pref + (1 + zlen d)) with true by lia.
    cbn [app length] in *. rewrite (byte_at F pre b (e ++ post)) by auto. cbn [bind]. change (negb (1 =? 1)) with false. cbv iota. change (geti [b] 0) with b. cbv zeta.
    rewrite is_run by lia. replace (192 <=? b) with false by lia.
    destruct junk as [|j junk]; [rewrite zlen_nil in Hj; lia|]. rewrite zlen_cons in Hj.
    rewrite wr_ok by (rewrite zlen_app, zlen_cons; assert (0 <= zlen junk) by auto; lia). cbn [bind].
    rewrite upd_app. replace (zlen pref + 1) with (zlen (pref ++ [b])) by (rewrite zlen_app; reflexivity).
    replace (zlen pre + 1) with (zlen (pre ++ [b])) by (rewrite zlen_app; reflexivity).
    replace (pref ++ b :: junk) with ((pref ++ [b]) ++ junk) by (rewrite <- app_assoc; reflexivity).
    rewrite (IH F fuel (pre ++ [b]) post (pref ++ [b]) junk er); auto; try lia.
    + rewrite <- app_assoc. cbn [app]. do 3 f_equal. rewrite zlen_app. change (zlen [b]) with 1. rewrite zlen_cons. lia.
    + rewrite HF, <- app_assoc. reflexivity.
    + rewrite zlen_app. change (zlen [b]) with 1. lia.
  - destruct fuel as [|fuel]; [cbn in Hf; lia|]. cbn [pcx_line]. rewrite zlen_app, zlen_repeat in *. rewrite Z2Nat.id in * by lia. assert (0 <= zlen d) by auto. assert (0 <= zlen pref) by auto.
    replace (zlen pref <? zlen pref + (n + zlen d)) with true by lia.
    cbn [app length] in *. rewrite (byte_at F pre (192 + n) (b :: e ++ post)) by auto. cbn [bind]. change (negb (1 =? 1)) with false. cbv iota. change (geti [192 + n] 0) with (192 + n). cbv zeta.
    rewrite is_run by lia. replace (192 <=? 192 + n) with true by lia. rewrite run_len by lia.
    replace (zlen pre + 1) with (zlen (pre ++ [192 + n])) by (rewrite zlen_app; reflexivity).
    rewrite (byte_at F (pre ++ [192 + n]) b (e ++ post)); auto. 2:{ rewrite HF, <- app_assoc. reflexivity. }
    cbn [bind]. change (negb (1 =? 1)) with false. cbv iota. change (geti [b] 0) with b.
    replace (zlen pref + (n + zlen d) <? zlen pref + n) with false by lia.
    rewrite put_run_ok by lia. cbn [bind].
    assert (ZS : zlen (skipn (Z.to_nat n) junk) = zlen d) by (unfold zlen in *; rewrite skipn_length; lia).
    replace (zlen (pre ++ [192 + n]) + 1) with (zlen (pre ++ [192 + n; b])) by (rewrite !zlen_app, !zlen_cons, zlen_nil; lia).
    replace (zlen pref + n) with (zlen (pref ++ repeat b (Z.to_nat n))) by (rewrite zlen_app, zlen_repeat; lia).
    rewrite app_assoc.
    rewrite (IH F fuel (pre ++ [192 + n; b]) post (pref ++ repeat b (Z.to_nat n)) (skipn (Z.to_nat n) junk) er); auto; try lia.
    + rewrite <- app_assoc. do 3 f_equal. rewrite zlen_app, !zlen_cons, zlen_nil. lia.
    + rewrite HF, <- app_assoc. reflexivity.
    + rewrite zlen_app, zlen_repeat. lia.
Qed.

Lemma deinterleave_ok : forall W bpp bps hbps y scan d, 0 <= W <= hbps -> 1 <= bpp -> bps = W * bpp -> 0 <= y -> zlen scan = bpp * hbps -> bpp * hbps < 4294967296 ->
  y * bps + bps <= zlen d -> zlen d < 4294967296 ->
  exists d', pcx_deinterleave W bpp bps hbps y scan d = Ok d' /\
    step (fun j v => exists x, 0 <= x < W /\ exists c, 0 <= c < bpp /\ j = y * bps + x * bpp + c /\ v = geti scan (x + c * hbps)) d d'.
Proof.
  intros W bpp bps hbps y scan d HW Hb Hbps Hy Hs Hs32 Hd Hd32. unfold pcx_deinterleave.
  assert (0 <= y * bps) by (apply Z.mul_nonneg_nonneg; [lia|subst; apply Z.mul_nonneg_nonneg; lia]).
  assert (XB : forall x c, 0 <= x < W -> 0 <= c < bpp -> 0 <= x * bpp + c < bps) by (intros; subst bps; apply lin_bound; auto).
  assert (CB : forall x c, 0 <= x < W -> 0 <= c < bpp -> 0 <= c * hbps + x < bpp * hbps) by (intros; apply lin_bound; lia).
  apply (step_loop (fun x j v => exists c, 0 <= c < bpp /\ j = y * bps + x * bpp + c /\ v = geti scan (x + c * hbps)) (zlen d)); auto.
  - intros x d0 Hx Hd0.
    apply (step_loop (fun c j v => j = y * bps + x * bpp + c /\ v = geti scan (x + c * hbps)) (zlen d)); auto.
    + intros c d1 Hc Hd1. specialize (XB x c Hx Hc). specialize (CB x c Hx Hc). rewrite u32_small by lia. rewrite (u32_small (y * bps + _ + _)) by lia.
      apply step_copy; lia.
    + intros c c' j v v' Hc Hc' (E & _) (E' & _). lia.
    + intros c j v Hc (E & _). specialize (XB x c Hx Hc). lia.
  - intros x x' j v v' Hx Hx' (c & Hc & E & _) (c' & Hc' & E' & _). destruct (radix2 bpp x c x' c'); auto; lia.
  - intros x j v Hx (c & Hc & E & _). specialize (XB x c Hx Hc). lia.
Qed.

Lemma row_ok : forall W bpp bps buf F pre e post y d scan er, 1 <= W -> 1 <= bpp < 256 -> bps = W * bpp -> 0 <= y ->
  pcx_coded e (row_data W bpp buf y) -> F = pre ++ e ++ post -> zlen F < 4294967295 -> zlen scan = bpp * padded W -> bpp * padded W < 4294967296 ->
  y * bps + bps <= zlen d -> zlen d < 4294967296 ->
  exists d' scan', pcx_row W bpp bps (padded W) (bpp * padded W) y (true, d, scan, Rd F (zlen pre) (zlen F) er) =
    Ok (true, d', scan', Rd F (zlen pre + zlen e) (zlen F) er) /\ zlen d' = zlen d /\ zlen scan' = bpp * padded W /\
    (forall j, 0 <= j -> geti d' j = if (y * bps <=? j) && (j <? y * bps + bps) then geti buf j else geti d j).
Proof.
  intros W bpp bps buf F pre e post y d scan er HW Hb Hbps Hy HC HF HF32 Hs Hs32 Hd Hd32. unfold pcx_row. cbn [negb].
  assert (LR : zlen (row_data W bpp buf y) = bpp * padded W) by (unfold row_data; rewrite zlen_planes, Z2Nat.id by lia; reflexivity).
  assert (LE : (length e < S (length F))%nat) by (rewrite HF, !app_length; lia).
  cbn [rlump]. change 0 with (zlen (@nil Z)) at 1. change scan with ([] ++ scan) at 1.
  rewrite (line_ok e _ HC F (S (length F)) pre post [] scan er (bpp * padded W)); auto; try lia.
  cbn [bind negb app].
  assert (PW : W <= padded W) by (unfold padded; destruct (Z.odd W); lia).
  assert (HB0 : 0 < bps) by (subst; apply Z.mul_pos_pos; lia).
  destruct (deinterleave_ok W bpp bps (padded W) y (row_data W bpp buf y) d) as (d' & -> & SL & SW & SN); auto; try lia.
  cbn [bind]. exists d', (row_data W bpp buf y). split; [reflexivity|]. split; [auto|]. split; [auto|].
  intros j Hj. destruct ((y * bps <=? j) && (j <? y * bps + bps)) eqn:E.
  - set (q := j - y * bps). assert (Hq : 0 <= q < W * bpp) by (unfold q; lia).
    assert (QX : 0 <= q / bpp < W) by (split; [apply Z.div_pos; lia|apply Z.div_lt_upper_bound; lia]).
    assert (QC := Z.mod_pos_bound q bpp ltac:(lia)). assert (QE := Z.div_mod q bpp ltac:(lia)).
    apply SW. exists (q / bpp). split; [auto|]. exists (q mod bpp). split; [auto|]. split; [unfold q in *; lia|].
    unfold row_data. rewrite geti_planes by lia. f_equal. unfold q in *. rewrite Hbps in *. lia.
  - apply SN; auto. intros v (x & Hx & c & Hc & Ej & _). assert (0 <= x * bpp + c < W * bpp) by (apply lin_bound; auto). rewrite <- Hbps in *. lia.
Qed.

Lemma rows_ok : forall l W bpp bps buf F pre post y d scan er, coded_rows W bpp buf y l -> 1 <= W -> 1 <= bpp < 256 -> bps = W * bpp -> 0 <= y ->
  F = pre ++ concat l ++ post -> zlen F < 4294967295 -> zlen scan = bpp * padded W -> bpp * padded W < 4294967296 ->
  (y + zlen l) * bps <= zlen d -> zlen d < 4294967296 ->
  exists d' scan', for_ (length l) y (pcx_row W bpp bps (padded W) (bpp * padded W)) (true, d, scan, Rd F (zlen pre) (zlen F) er) =
    Ok (true, d', scan', Rd F (zlen pre + zlen (concat l)) (zlen F) er) /\ zlen d' = zlen d /\
    (forall j, 0 <= j -> geti d' j = if (y * bps <=? j) && (j <? (y + zlen l) * bps) then geti buf j else geti d j).
Proof.
  induction l as [|e l IH]; intros W bpp bps buf F pre post y d scan er HC HW Hb Hbps Hy HF HF32 Hs Hs32 Hd Hd32.
  - exists d, scan. cbn [length for_ concat]. rewrite zlen_nil, !Z.add_0_r. split; [reflexivity|]. split; [reflexivity|].
    intros j Hj. replace ((y * bps <=? j) && (j <? y * bps)) with false by lia. reflexivity.
  - inversion HC as [|y0 e0 l0 H1 H2]; subst y0 e0 l0. cbn [length for_ concat] in *. rewrite zlen_cons in *.
    assert (HB0 : 0 < bps) by (subst bps; apply Z.mul_pos_pos; lia). assert (0 <= zlen l) by auto.
    assert (YB : 0 <= y * bps) by (apply Z.mul_nonneg_nonneg; lia).
    assert (LB : 0 <= zlen l * bps) by (apply Z.mul_nonneg_nonneg; lia).
    assert (EQ : (y + (1 + zlen l)) * bps = y * bps + bps + zlen l * bps) by ring. rewrite EQ in *.
    destruct (row_ok W bpp bps buf F pre e (concat l ++ post) y d scan er) as (d1 & s1 & -> & L1 & L2 & G1); auto; try lia.
    { rewrite HF, <- app_assoc. reflexivity. }
    cbn [bind]. replace (zlen pre + zlen e) with (zlen (pre ++ e)) by (rewrite zlen_app; reflexivity).
    assert (EQ2 : (y + 1 + zlen l) * bps = y * bps + bps + zlen l * bps) by ring. assert (EQ3 : (y + 1) * bps = y * bps + bps) by ring.
    destruct (IH W bpp bps buf F (pre ++ e) post (y + 1) d1 s1 er) as (d2 & s2 & -> & L3 & G2); auto; try lia.
    { rewrite HF, <- !app_assoc. reflexivity. }
    exists d2, s2. split; [do 3 f_equal; rewrite !zlen_app; lia|]. split; [lia|].
    intros j Hj. rewrite G2, G1 by auto. rewrite EQ2, EQ3.
    destruct ((y * bps + bps <=? j) && (j <? y * bps + bps + zlen l * bps)) eqn:E1.
    + replace ((y * bps <=? j) && (j <? y * bps + bps + zlen l * bps)) with true by lia. reflexivity.
    + destruct ((y * bps <=? j) && (j <? y * bps + bps)) eqn:E2.
      * replace ((y * bps <=? j) && (j <? y * bps + bps + zlen l * bps)) with true by lia. reflexivity.
      * replace ((y * bps <=? j) && (j <? y * bps + bps + zlen l * bps)) with false by lia. reflexivity.
Qed.

(** ** The header *)

Lemma getc_in : forall F p e, 0 <= p < zlen F -> zlen F < 4294967295 -> iGetcLump (Rd F p (zlen F) e) = Ok (geti F p, Rd F (p + 1) (zlen F) e).
Proof.
  intros F p e Hp HF. rewrite (C21_getc F) by (try (split; [reflexivity|cbn; lia]); lia). cbn [rpos rerr]. replace (p <? zlen F) with true by lia. reflexivity.
Qed.
Lemma read_in : forall F p e b n, 0 <= p -> 0 <= n -> p + n <= zlen F -> 0 < zlen F < 4294967295 -> zlen b = n ->
  iReadLump b 1 n (Rd F p (zlen F) e) = Ok (n, slice F p n, Rd F (p + n) (zlen F) e).
Proof.
  intros F p e b n Hp Hn HF Hm Hb. rewrite (C21_read F) by (try (split; [reflexivity|cbn; lia]); lia). cbn [rpos rerr]. cbv zeta.
  rewrite Z.mul_1_l. assert (LS : zlen (slice F p n) = n) by (apply zlen_slice; lia). rewrite rest_slice. rewrite LS, Z.div_1_r, Z.eqb_refl, app_nil_r.
  rewrite skipn_all2 by (unfold zlen in *; lia). rewrite app_nil_r. reflexivity.
Qed.
Lemma get2_in : forall F p e stk, 0 <= p -> p + 2 <= zlen F -> zlen F < 4294967295 -> zlen stk = 2 ->
  GetLittleUShort stk (Rd F p (zlen F) e) = Ok (geti F p + 256 * geti F (p + 1), Rd F (p + 2) (zlen F) e).
Proof.
  intros F p e stk Hp HF Hm Hs. unfold GetLittleUShort, get.
  assert (R := C21_read F (Rd F p (zlen F) e) stk 2 1). rewrite R by (try (split; [reflexivity|cbn; lia]); lia). clear R. cbn [rpos rerr]. cbv zeta.
  change (2 * 1) with 2. rewrite rest_slice. assert (LS : zlen (slice F p 2) = 2) by (apply zlen_slice; lia). rewrite LS. change (2 / 2 =? 1) with true.
  rewrite skipn_all2 by (unfold zlen in *; lia). rewrite !app_nil_r. cbn [bind]. do 2 f_equal.
  change 2 with (1 + 1) at 1. rewrite (slice_cons F p 1) by lia. change 1 with (1 + 0) at 2. rewrite (slice_cons F (p + 1) 0) by lia. rewrite slice_0. cbn [unle]. lia.
Qed.

(** the header of a file of at least 128 bytes *)
Definition head_of (F : list Z) : pcxhead :=
  let w p := geti F p + 256 * geti F (p + 1) in
  mkHead (u8 (geti F 0)) (u8 (geti F 1)) (u8 (geti F 2)) (u8 (geti F 3)) (w 4) (w 6) (w 8) (w 10) (w 14) (slice F 16 48) (u8 (geti F 65)) (w 66).
Lemma head_ok : forall F u cm fl, 128 <= zlen F < 4294967295 -> (forall i, zlen (u i) = 2) -> zlen cm = 48 -> zlen fl = 54 ->
  iGetPcxHead u cm fl (iSetInputLump F (zlen F)) = Ok (head_of F, Rd F 128 (zlen F) []).
Proof.
  intros F u cm fl HF Hu Hc Hl. unfold iGetPcxHead, iSetInputLump.
  rewrite getc_in by lia. cbn [bind]. rewrite getc_in by lia. cbn [bind]. rewrite getc_in by lia. cbn [bind]. rewrite getc_in by lia. cbn [bind].
  do 6 (rewrite get2_in by (auto; lia); cbn [bind]).
  rewrite read_in by (auto; lia). cbn [bind]. rewrite getc_in by lia. cbn [bind]. rewrite getc_in by lia. cbn [bind].
  do 4 (rewrite get2_in by (auto; lia); cbn [bind]).
  rewrite read_in by (auto; lia). cbn [bind]. reflexivity.
Qed.

(** ** The data of an image, top row first *)

Lemma upper_data : forall alloc im buf, img_ok im buf -> allocator_ok alloc -> alloc (SizeOfData im) <> None ->
  exists td, (if negb (Origin im =? IL_ORIGIN_UPPER_LEFT) then iGetFlipped alloc im else Ok (Data im)) = Ok (Some td) /\
    zlen td = SizeOfData im /\ (bytes buf -> bytes td) /\
    (forall x t z k, in_image im x t z k -> geti td (pix_off im x t z k) = picture im buf x t z k) /\
    (Origin im = IL_ORIGIN_UPPER_LEFT -> td = buf).
Proof.
  intros alloc im buf Hok HA Hn. destruct (Origin im =? IL_ORIGIN_UPPER_LEFT) eqn:EO; cbn [negb].
  - exists buf. destruct Hok as (HD & H). split; [rewrite HD; reflexivity|]. split; [apply H|]. split; [auto|]. split; [|auto].
    intros x t z k Hi. unfold picture. rewrite EO. reflexivity.
  - destruct (C14_get_flipped_agrees_partial (fun _ _ => Some (repeat 0 4096)) alloc im buf) as (im' & td & E1 & E2 & E3); auto.
    { intros d y. exists (repeat 0 4096). split; [reflexivity|]. rewrite zlen_repeat. reflexivity. }
    destruct (C14_flip_reverses_rows_partial (fun _ _ => Some (repeat 0 4096)) im buf) as (im'' & td' & E4 & Hok' & HI & G); auto.
    { intros d y. exists (repeat 0 4096). split; [reflexivity|]. rewrite zlen_repeat. reflexivity. }
    assert (im'' = im') by congruence. subst im''. assert (td' = td) by (destruct Hok' as (X & _); congruence). subst td'.
    assert (LT : zlen td = SizeOfData im). { destruct Hok' as (_ & _ & _ & _ & _ & _ & _ & _ & _ & _ & L). rewrite L, HI. reflexivity. }
    exists td. split; [exact E3|]. split; [exact LT|].
    assert (G' : forall x t z k, in_image im x t z k -> geti td (pix_off im x t z k) = picture im buf x t z k).
    { intros x t z k Hi. rewrite G by auto. unfold picture. rewrite EO. reflexivity. }
    split; [|split; [exact G'|lia]].
    intros HB j Hj. destruct Hok as (HD & HW & HH & HDp & Hbpp & Hbpc & Hbps & Hpl & Hsz & H32 & Hlen).
    destruct (decompose (Depth im) (Height im) (Bps im) j) as (z & y & q & Hz & Hy & Hq & Hjq).
    { rewrite Hbps. apply Z.mul_nonneg_nonneg; [lia|apply Z.mul_nonneg_nonneg; lia]. }
    { lia. }
    { rewrite LT in Hj. rewrite Hsz, Hpl in Hj. lia. }
    destruct (decompose 1 (Width im) (Bpp im * Bpc im) q) as (o & x & k & Hoo & Hx & Hk & Hqx); try lia.
    assert (o = 0) by lia. subst o.
    assert (Hi' : j = pix_off im x y z k) by (unfold pix_off; rewrite Hjq, Hqx, Hbps; lia).
    assert (II : in_image im x y z k) by (repeat split; lia).
    rewrite Hi', G by auto. apply HB. rewrite Hlen.
    assert (A1 : 0 <= x * (Bpp im * Bpc im) + k < Width im * (Bpp im * Bpc im)) by (apply lin_bound; lia).
    assert (A2 : 0 <= (Height im - 1 - y) * (Width im * (Bpp im * Bpc im)) + (x * (Bpp im * Bpc im) + k) < Height im * (Width im * (Bpp im * Bpc im))) by (apply lin_bound; lia).
    assert (A3 := lin_bound (Height im * (Width im * (Bpp im * Bpc im))) (Depth im) z _ A2 Hz).
    rewrite Hsz, Hpl, Hbps. unfold pix_off. lia.
Qed.
