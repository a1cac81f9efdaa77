From Coq Require Import ZArith List Lia Bool.
From Verif Require Import Base Enums Utility UtilityProofs Image ImageSpec Flip.
Import ListNotations.
Open Scope Z_scope.

(** rows [r] and [y] of size [ls]: byte [k] of row [r] lies in row [y] iff r = y *)
Lemma row_in : forall ls r y k, 0 <= k < ls ->
  ((y * ls <=? r * ls + k) && (r * ls + k <? y * ls + ls)) = (r =? y).
Proof.
  intros ls r y k Hk. destruct (r =? y) eqn:E.
  - assert (r = y) by lia. subst. lia.
  - destruct (Z.lt_ge_cases r y).
    + assert ((r + 1) * ls <= y * ls) by (apply Z.mul_le_mono_nonneg_r; lia). lia.
    + assert ((y + 1) * ls <= r * ls) by (apply Z.mul_le_mono_nonneg_r; lia). lia.
Qed.

Lemma row_in_base : forall P ls r y k, 0 <= k < ls ->
  ((P + y * ls <=? P + r * ls + k) && (P + r * ls + k <? P + y * ls + ls)) = (r =? y).
Proof. intros. rewrite <- (row_in ls r y k) by auto. lia. Qed.

Lemma row_bound : forall ls n r k, 0 <= k < ls -> 0 <= r < n -> 0 <= r * ls + k < n * ls.
Proof.
  intros ls n r k Hk Hr. assert ((r + 1) * ls <= n * ls) by (apply Z.mul_le_mono_nonneg_r; lia).
  assert (0 <= r * ls) by (apply Z.mul_nonneg_nonneg; lia). lia.
Qed.

Lemma row_end : forall ls n r, 0 <= ls -> 0 <= r < n -> r * ls + ls <= n * ls /\ 0 <= r * ls.
Proof.
  intros ls n r Hk Hr. assert ((r + 1) * ls <= n * ls) by (apply Z.mul_le_mono_nonneg_r; lia).
  assert (0 <= r * ls) by (apply Z.mul_nonneg_nonneg; lia). lia.
Qed.

(** flipping one plane that starts at [P] *)
Definition plane_flipped (b r : list Z) (P n ls : Z) : Prop :=
  zlen r = zlen b /\
  (forall y k, 0 <= y < n -> 0 <= k < ls -> geti r (P + y * ls + k) = geti b (P + (n - 1 - y) * ls + k)) /\
  (forall j, 0 <= j -> ~ (P <= j < P + n * ls) -> geti r j = geti b j).

Definition scr_ok (scr : scratch) : Prop :=
  forall d y, exists blk, scr d y = Some blk /\ zlen blk = 4096.

Lemma flip_plane : forall (scr : Z -> option (list Z)) b P n ls,
  (forall y, exists blk, scr y = Some blk /\ zlen blk = 4096) ->
  0 <= P -> 0 <= n -> 0 <= ls < 4294967296 -> P + n * ls <= zlen b ->
  exists r sp ep, loop 0 (n / 2) (fun y '(b, sp, ep) =>
        let ep := ep - ls in
        let! b := iMemSwap (scr y) b sp ep ls in
        Ok (b, sp + ls, ep)) (b, P, P + n * ls) = Ok (r, sp, ep) /\ plane_flipped b r P n ls.
Proof.
  intros scr b P n ls Hscr HP Hn Hls Hlen.
  destruct (loop_rule _ (fun y (st : list Z * Z * Z) =>
     let '(c, sp, ep) := st in
     sp = P + y * ls /\ ep = P + (n - y) * ls /\ zlen c = zlen b /\
     (forall r k, 0 <= r < n -> 0 <= k < ls -> geti c (P + r * ls + k) =
        if (r <? y) || (n - y <=? r) then geti b (P + (n - 1 - r) * ls + k) else geti b (P + r * ls + k)) /\
     (forall j, 0 <= j -> ~ (P <= j < P + n * ls) -> geti c j = geti b j))
     0 (n / 2) (fun y '(b, sp, ep) =>
        let ep := ep - ls in
        let! b := iMemSwap (scr y) b sp ep ls in
        Ok (b, sp + ls, ep)) (b, P, P + n * ls)) as [[[r sp] ep] [E HI]].
  - lia.
  - repeat split; auto; try lia.
    intros r k Hr Hk. replace ((r <? 0) || (n - 0 <=? r)) with false by lia. reflexivity.
  - intros y [[c sp] ep] Hy (Hsp & Hep & Hl & HA & HB). subst sp ep. cbv zeta beta iota.
    destruct (Hscr y) as [blk [Eb Lb]]. rewrite Eb.
    assert (Hy2 : 2 * y + 2 <= n) by lia.
    assert (Ha1 : 0 <= y * ls) by (apply Z.mul_nonneg_nonneg; lia).
    assert (Ha2 : (y + 1) * ls <= (n - 1 - y) * ls) by (apply Z.mul_le_mono_nonneg_r; lia).
    assert (Ha3 : (n - 1 - y) * ls + ls <= n * ls).
    { replace ((n - 1 - y) * ls + ls) with ((n - y) * ls) by lia. apply Z.mul_le_mono_nonneg_r; lia. }
    replace (P + (n - y) * ls - ls) with (P + (n - 1 - y) * ls) by lia.
    destruct (iMemSwap_spec blk c (P + y * ls) (P + (n - 1 - y) * ls) ls) as [r [E [L S]]]; try lia.
    rewrite E. cbn [bind]. eexists; split; [reflexivity|].
    split; [lia|]. split; [f_equal; lia|]. split; [lia|]. split.
    + intros q k Hq Hk. 
      assert (Hb := row_bound ls n q k Hk Hq).
      rewrite S by lia. rewrite !row_in_base by auto.
      destruct (q =? y) eqn:Eq1.
      * assert (q = y) by lia. subst q.
        replace (P + (n - 1 - y) * ls + (P + y * ls + k - (P + y * ls))) with (P + (n - 1 - y) * ls + k) by lia.
        rewrite HA by lia.
        replace ((n - 1 - y <? y) || (n - y <=? n - 1 - y)) with false by lia.
        replace ((y <? y + 1) || (n - (y + 1) <=? y)) with true by lia. reflexivity.
      * destruct (q =? n - 1 - y) eqn:Eq2.
        -- assert (q = n - 1 - y) by lia. subst q.
           replace (P + y * ls + (P + (n - 1 - y) * ls + k - (P + (n - 1 - y) * ls))) with (P + y * ls + k) by lia.
           rewrite HA by lia.
           replace ((y <? y) || (n - y <=? y)) with false by lia.
           replace ((n - 1 - y <? y + 1) || (n - (y + 1) <=? n - 1 - y)) with true by lia.
           f_equal. lia.
        -- rewrite HA by lia.
           destruct ((q <? y) || (n - y <=? q)) eqn:E1; destruct ((q <? y + 1) || (n - (y + 1) <=? q)) eqn:E2;
             try reflexivity; lia.
    + intros j Hj Hout. rewrite S by lia.
      replace ((P + y * ls <=? j) && (j <? P + y * ls + ls)) with false by lia.
      replace ((P + (n - 1 - y) * ls <=? j) && (j <? P + (n - 1 - y) * ls + ls)) with false by lia.
      apply HB; lia.
  - destruct HI as (Hsp & Hep & Hl & HA & HB).
    exists r, sp, ep. split; [exact E|]. repeat split; auto.
    intros y k Hy Hk. rewrite HA by lia.
    destruct ((y <? n / 2) || (n - n / 2 <=? y)) eqn:Ey; auto.
    replace (n - 1 - y) with y by lia. reflexivity.
Qed.

(** the whole buffer flipped: every plane *)
Definition flipped (b r : list Z) (depth n ls : Z) : Prop :=
  zlen r = zlen b /\
  (forall d y k, 0 <= d < depth -> 0 <= y < n -> 0 <= k < ls ->
     geti r (d * (n * ls) + y * ls + k) = geti b (d * (n * ls) + (n - 1 - y) * ls + k)) /\
  (forall j, depth * (n * ls) <= j -> geti r j = geti b j).

Lemma flip_buffer_spec : forall scr b depth n ls,
  scr_ok scr -> 0 <= depth -> 0 <= n -> 0 <= ls < 4294967296 ->
  depth * (n * ls) <= zlen b -> depth * (n * ls) < 4294967296 -> n * ls < 4294967296 ->
  exists r, iFlipBuffer scr b depth ls n = Ok r /\ flipped b r depth n ls.
Proof.
  intros scr b depth n ls Hscr Hd Hn Hls Hlen H32 Hs32. unfold iFlipBuffer.
  assert (Hs0 : 0 <= n * ls) by (apply Z.mul_nonneg_nonneg; lia).
  rewrite (u32_small (n * ls)) by lia. set (size := n * ls) in *. cbv zeta.
  destruct (loop_rule _ (fun d c => zlen c = zlen b /\
     (forall q y k, 0 <= q < d -> 0 <= y < n -> 0 <= k < ls ->
        geti c (q * size + y * ls + k) = geti b (q * size + (n - 1 - y) * ls + k)) /\
     (forall j, d * size <= j -> geti c j = geti b j)) 0 depth
     (fun d b => let! (b, _, _) := loop 0 (n / 2) (fun y '(b, sp, ep) =>
        let ep := ep - ls in
        let! b := iMemSwap (scr d y) b sp ep ls in
        Ok (b, sp + ls, ep)) (b, u32 (d * size), u32 (d * size) + size) in Ok b) b) as [r [E (L & HA & HB)]].
  - lia.
  - repeat split; auto; intros; lia.
  - intros d c Hk (L & HA & HB).
    assert (Hx : (d + 1) * size <= depth * size) by (apply Z.mul_le_mono_nonneg_r; lia).
    assert (Hx0 : 0 <= d * size) by (apply Z.mul_nonneg_nonneg; lia).
    rewrite u32_small by lia.
    destruct (flip_plane (scr d) c (d * size) n ls) as (r & sp & ep & E & (Lr & PA & PB)); try lia.
    { intros y. apply Hscr. }
    fold size in E. rewrite E. cbn [bind]. exists r. split; [reflexivity|].
    split; [lia|]. split.
    + intros q y k Hq Hy Hk'. assert (Hb := row_bound ls n y k Hk' Hy). fold size in Hb.
      assert (Hq0 : 0 <= q * size) by (apply Z.mul_nonneg_nonneg; lia).
      destruct (Z.eq_dec q d) as [->|Hne].
      * rewrite PA by lia. apply HB.
        assert (0 <= (n - 1 - y) * ls) by (apply Z.mul_nonneg_nonneg; lia). lia.
      * assert (Hqd : (q + 1) * size <= d * size) by (apply Z.mul_le_mono_nonneg_r; lia).
        rewrite PB by (fold size; lia). apply HA; lia.
    + intros j Hj. rewrite PB by (fold size; lia). apply HB. lia.
  - exists r. split; [exact E|]. repeat split; auto.
Qed.

(** every offset is in some row *)
Lemma decompose : forall depth n ls j, 0 <= ls -> 0 <= n -> 0 <= j < depth * (n * ls) ->
  exists d y k, 0 <= d < depth /\ 0 <= y < n /\ 0 <= k < ls /\ j = d * (n * ls) + y * ls + k.
Proof.
  intros depth n ls j Hls Hn Hj.
  assert (Hs : 0 < n * ls).
  { assert (0 <= n * ls) by (apply Z.mul_nonneg_nonneg; lia).
    destruct (Z.eq_dec (n * ls) 0) as [E|]; [rewrite E in Hj; lia|lia]. }
  assert (Hls' : 0 < ls) by (destruct (Z.eq_dec ls 0) as [E|]; [subst; lia|lia]).
  exists (j / (n * ls)), ((j mod (n * ls)) / ls), ((j mod (n * ls)) mod ls).
  assert (Hm := Z.mod_pos_bound j (n * ls) Hs).
  split; [|split; [|split]].
  - split; [apply Z.div_pos; lia|]. apply Z.div_lt_upper_bound; lia.
  - split; [apply Z.div_pos; lia|]. apply Z.div_lt_upper_bound; lia.
  - apply Z.mod_pos_bound; lia.
  - rewrite (Z.div_mod j (n * ls)) at 1 by lia.
    rewrite (Z.div_mod (j mod (n * ls)) ls) at 1 by lia. lia.
Qed.

Lemma flipped_unique : forall b r r' depth n ls, 0 <= ls -> 0 <= n ->
  flipped b r depth n ls -> flipped b r' depth n ls -> r = r'.
Proof.
  intros b r r' depth n ls Hls Hn (L1 & A1 & B1) (L2 & A2 & B2).
  apply list_ext; [lia|]. intros i Hi.
  destruct (Z.lt_ge_cases i (depth * (n * ls))).
  - destruct (decompose depth n ls i) as (d & y & k & Hd & Hy & Hk & ->); auto; try lia.
    rewrite A1, A2 by lia. reflexivity.
  - rewrite B1, B2 by lia. reflexivity.
Qed.

Lemma flipped_involutive : forall b r s depth n ls, 0 <= ls -> 0 <= n ->
  flipped b r depth n ls -> flipped r s depth n ls -> s = b.
Proof.
  intros b r s depth n ls Hls Hn (L1 & A1 & B1) (L2 & A2 & B2).
  apply list_ext; [lia|]. intros i Hi.
  destruct (Z.lt_ge_cases i (depth * (n * ls))).
  - destruct (decompose depth n ls i) as (d & y & k & Hd & Hy & Hk & ->); auto; try lia.
    rewrite A2, A1 by lia. f_equal. replace (n - 1 - (n - 1 - y)) with y by lia. reflexivity.
  - rewrite B2, B1 by lia. reflexivity.
Qed.

Lemma flip_new_plane : forall data buff P n ls,
  0 <= P -> 0 <= n -> 0 <= ls -> P + n * ls <= zlen buff -> P + n * ls <= zlen data ->
  exists r s1 s2, loop 0 n (fun y '(data, s1, s2) =>
            let s2 := s2 - ls in
            let! data := memcpy data s2 buff s1 ls in
            Ok (data, s1 + ls, s2)) (data, P, P + n * ls) = Ok (r, s1, s2) /\
   zlen r = zlen data /\
   (forall y k, 0 <= y < n -> 0 <= k < ls -> geti r (P + y * ls + k) = geti buff (P + (n - 1 - y) * ls + k)) /\
   (forall j, 0 <= j -> ~ (P <= j < P + n * ls) -> geti r j = geti data j).
Proof.
  intros data buff P n ls HP Hn Hls Hlb Hld.
  destruct (loop_rule _ (fun y (st : list Z * Z * Z) =>
     let '(c, s1, s2) := st in
     s1 = P + y * ls /\ s2 = P + (n - y) * ls /\ zlen c = zlen data /\
     (forall r k, n - y <= r < n -> 0 <= k < ls -> geti c (P + r * ls + k) = geti buff (P + (n - 1 - r) * ls + k)) /\
     (forall j, 0 <= j -> ~ (P <= j < P + n * ls) -> geti c j = geti data j))
     0 n (fun y '(data, s1, s2) =>
            let s2 := s2 - ls in
            let! data := memcpy data s2 buff s1 ls in
            Ok (data, s1 + ls, s2)) (data, P, P + n * ls)) as [[[r sp] ep] [E HI]].
  - lia.
  - repeat split; auto; try lia.
  - intros y [[c s1] s2] Hy (Hsp & Hep & Hl & HA & HB). subst s1 s2. cbv zeta beta iota.
    assert (Ha1 := row_end ls n y Hls Hy).
    assert (Ha2 := row_end ls n (n - 1 - y) Hls ltac:(lia)).
    replace (P + (n - y) * ls - ls) with (P + (n - 1 - y) * ls) by lia.
    destruct (memcpy_spec c (P + (n - 1 - y) * ls) buff (P + y * ls) ls) as [r [E [L S]]]; try lia.
    rewrite E. cbn [bind]. eexists; split; [reflexivity|].
    split; [lia|]. split; [f_equal; lia|]. split; [lia|]. split.
    + intros q k Hq Hk. assert (Hb := row_bound ls n q k Hk ltac:(lia)).
      rewrite S by lia. rewrite row_in_base by auto.
      destruct (q =? n - 1 - y) eqn:Eq.
      * assert (q = n - 1 - y) by lia. subst q. f_equal. lia.
      * apply HA; lia.
    + intros j Hj Hout. rewrite S by lia.
      replace ((P + (n - 1 - y) * ls <=? j) && (j <? P + (n - 1 - y) * ls + ls)) with false by lia.
      apply HB; lia.
  - destruct HI as (Hsp & Hep & Hl & HA & HB).
    exists r, sp, ep. split; [exact E|]. repeat split; auto.
    intros y k Hy Hk. apply HA; lia.
Qed.

Lemma flip_new_buffer_spec : forall alloc b depth n ls data,
  0 <= depth -> 0 <= n -> 0 <= ls < 4294967296 ->
  depth * (n * ls) <= zlen b -> depth * (n * ls) < 4294967296 -> n * ls < 4294967296 ->
  alloc (depth * (n * ls)) = Some data -> zlen data = depth * (n * ls) ->
  exists r, iFlipNewBuffer alloc b depth ls n = Ok (Some r) /\ zlen r = depth * (n * ls) /\
  (forall d y k, 0 <= d < depth -> 0 <= y < n -> 0 <= k < ls ->
     geti r (d * (n * ls) + y * ls + k) = geti b (d * (n * ls) + (n - 1 - y) * ls + k)).
Proof.
  intros alloc b depth n ls data Hd Hn Hls Hlen H32 Hs32 Ea La. unfold iFlipNewBuffer.
  assert (Hs0 : 0 <= n * ls) by (apply Z.mul_nonneg_nonneg; lia).
  rewrite (u32_small (n * ls)) by lia. set (size := n * ls) in *.
  assert (Hds : 0 <= depth * size) by (apply Z.mul_nonneg_nonneg; lia).
  rewrite u32_small by lia. cbv zeta. rewrite Ea.
  destruct (loop_rule _ (fun d c => zlen c = zlen data /\
     (forall q y k, 0 <= q < d -> 0 <= y < n -> 0 <= k < ls ->
        geti c (q * size + y * ls + k) = geti b (q * size + (n - 1 - y) * ls + k))) 0 depth
     (fun d data =>
        let! (data, _, _) := loop 0 n (fun y '(data, s1, s2) =>
            let s2 := s2 - ls in
            let! data := memcpy data s2 b s1 ls in
            Ok (data, s1 + ls, s2)) (data, u32 (d * size), u32 (d * size) + size) in
        Ok data) data) as [r [E (L & HA)]].
  - lia.
  - repeat split; auto; intros; lia.
  - intros d c Hk (L & HA).
    assert (Hx : (d + 1) * size <= depth * size) by (apply Z.mul_le_mono_nonneg_r; lia).
    assert (Hx0 : 0 <= d * size) by (apply Z.mul_nonneg_nonneg; lia).
    rewrite u32_small by lia.
    destruct (flip_new_plane c b (d * size) n ls) as (r & sp & ep & E & (Lr & PA & PB)); try lia;
      try (fold size; lia).
    fold size in E. rewrite E. cbn [bind]. exists r. split; [reflexivity|].
    split; [lia|].
    intros q y k Hq Hy Hk'. assert (Hb := row_bound ls n y k Hk' Hy). fold size in Hb.
    assert (Hq0 : 0 <= q * size) by (apply Z.mul_nonneg_nonneg; lia).
    destruct (Z.eq_dec q d) as [->|Hne].
    + rewrite PA by lia. reflexivity.
    + assert (Hqd : (q + 1) * size <= d * size) by (apply Z.mul_le_mono_nonneg_r; lia).
      rewrite PB by (fold size; lia). apply HA; lia.
  - cbv zeta in E. rewrite E. cbn [bind]. exists r. repeat split; auto. lia.
Qed.

(** ** Mirror *)

Lemma mirror_pixel : forall n (bpp : Z) dst src B (t P : Z) f,
  0 < n -> 0 <= bpp -> 0 <= B -> 0 <= t ->
  (forall c, 0 <= c < bpp -> f c = B + c * n) ->
  B + bpp * n <= zlen dst -> (t + bpp) * n <= zlen src ->
  exists r, loop 0 bpp (fun c '(dst, t) =>
     let! dst := memcpy dst (f c) src (t * n) n in Ok (dst, t + 1)) (dst, t) = Ok (r, t + bpp) /\
   zlen r = zlen dst /\
   forall j, 0 <= j -> geti r j = if (B <=? j) && (j <? B + bpp * n) then geti src (t * n + (j - B)) else geti dst j.
Proof.
  intros n bpp dst src B t P f Hn Hb HB Ht Hf Hd Hs.
  destruct (loop_rule _ (fun c (st : list Z * Z) => snd st = t + c /\ zlen (fst st) = zlen dst /\
     forall j, 0 <= j -> geti (fst st) j = if (B <=? j) && (j <? B + c * n) then geti src (t * n + (j - B)) else geti dst j)
     0 bpp (fun c '(dst, t) =>
     let! dst := memcpy dst (f c) src (t * n) n in Ok (dst, t + 1)) (dst, t)) as [[r u] [E (Hu & L & S)]].
  - lia.
  - cbn [fst snd]. repeat split; auto; try lia.
    intros j Hj. replace ((B <=? j) && (j <? B + 0 * n)) with false by lia. reflexivity.
  - intros c [r u] Hc (Hu & L & S). cbn [fst snd] in *. subst u.
    rewrite Hf by lia.
    assert (H1 := row_end n bpp c ltac:(lia) Hc).
    assert (H2 : (t + c) * n = t * n + c * n) by lia.
    assert (H3 : (t + bpp) * n = t * n + bpp * n) by lia.
    assert (H4 : 0 <= t * n) by (apply Z.mul_nonneg_nonneg; lia).
    destruct (memcpy_spec r (B + c * n) src ((t + c) * n) n) as [r' [E' [L' S']]]; try lia.
    rewrite E'. cbn [bind]. exists (r', t + c + 1). cbn [fst snd]. split; [reflexivity|].
    split; [lia|]. split; [lia|]. intros j Hj. rewrite S' by lia.
    replace ((c + 1) * n) with (c * n + n) by lia.
    destruct ((B + c * n <=? j) && (j <? B + c * n + n)) eqn:E1.
    + replace ((B <=? j) && (j <? B + (c * n + n))) with true by lia. f_equal. lia.
    + rewrite S by lia.
      destruct ((B <=? j) && (j <? B + c * n)) eqn:E2;
        destruct ((B <=? j) && (j <? B + (c * n + n))) eqn:E3; try reflexivity; lia.
  - cbn [fst snd] in *. subst u. exists r. auto.
Qed.

(** One scanline: [P] = bytes per pixel, row at byte [R] in both buffers *)
Lemma mirror_row : forall n bpp W dst src R g,
  0 < n -> 0 <= bpp -> 0 <= W -> 0 <= R ->
  let P := bpp * n in
  (forall i c, 0 <= i < W -> 0 <= c < bpp -> g i c = R + (W - 1 - i) * P + c * n) ->
  R + W * P <= zlen dst -> R + W * P <= zlen src ->
  forall t, t * n = R -> 0 <= t ->
  exists r, loop 0 W (fun i st => loop 0 bpp (fun c '(dst, t) =>
     let! dst := memcpy dst (g i c) src (t * n) n in Ok (dst, t + 1)) st) (dst, t) = Ok (r, t + W * bpp) /\
   zlen r = zlen dst /\
   (forall x k, 0 <= x < W -> 0 <= k < P -> geti r (R + x * P + k) = geti src (R + (W - 1 - x) * P + k)) /\
   (forall j, 0 <= j -> ~ (R <= j < R + W * P) -> geti r j = geti dst j).
Proof.
  intros n bpp W dst src R g Hn Hb HW HR P Hg Hd Hs t Ht Ht0.
  assert (HP : 0 <= P) by (apply Z.mul_nonneg_nonneg; lia).
  destruct (loop_rule _ (fun i (st : list Z * Z) => snd st = t + i * bpp /\ zlen (fst st) = zlen dst /\
     (forall x k, W - i <= x < W -> 0 <= k < P -> geti (fst st) (R + x * P + k) = geti src (R + (W - 1 - x) * P + k)) /\
     (forall j, 0 <= j -> ~ (R <= j < R + W * P) -> geti (fst st) j = geti dst j))
     0 W (fun i st => loop 0 bpp (fun c '(dst, t) =>
     let! dst := memcpy dst (g i c) src (t * n) n in Ok (dst, t + 1)) st) (dst, t)) as [[r u] [E (Hu & L & A & B)]].
  - lia.
  - cbn [fst snd]. repeat split; auto; try lia.
  - intros i [r u] Hi (Hu & L & A & B). cbn [fst snd] in *. subst u.
    assert (H1 := row_end P W (W - 1 - i) HP ltac:(lia)).
    assert (H2 := row_end P W i HP Hi).
    assert (Hib : 0 <= i * bpp) by (apply Z.mul_nonneg_nonneg; lia).
    assert (Htn : (t + i * bpp) * n = R + i * P) by (unfold P; lia).
    destruct (mirror_pixel n bpp r src (R + (W - 1 - i) * P) (t + i * bpp) P (g i)) as [r' [E' [L' S']]]; try lia.
    { intros c Hc. rewrite Hg by lia. reflexivity. }
    exists (r', t + i * bpp + bpp). split; [exact E'|]. cbn [fst snd].
    fold P in S'. rewrite Htn in S'.
    split; [lia|]. split; [lia|]. split.
    + intros x k Hx Hk. assert (Hxb := row_bound P W x k Hk ltac:(lia)). rewrite S' by lia.
      rewrite row_in_base by auto.
      destruct (x =? W - 1 - i) eqn:Ex.
      * assert (x = W - 1 - i) by lia. subst x. f_equal. lia.
      * apply A; lia.
    + intros j Hj Hout. rewrite S' by lia.
      replace ((R + (W - 1 - i) * P <=? j) && (j <? R + (W - 1 - i) * P + P)) with false by lia.
      apply B; lia.
  - cbn [fst snd] in *. subst u. exists r. split; [exact E|]. repeat split; auto.
    intros x k Hx Hk. apply A; lia.
Qed.

Definition mirrored (b r : list Z) (depth H W P : Z) : Prop :=
  zlen r = zlen b /\
  forall d y x k, 0 <= d < depth -> 0 <= y < H -> 0 <= x < W -> 0 <= k < P ->
   geti r (d * (H * (W * P)) + y * (W * P) + x * P + k) =
   geti b (d * (H * (W * P)) + y * (W * P) + (W - 1 - x) * P + k).

Lemma mirror_spec : forall alloc im buf fresh, img_ok im buf ->
  Width im < 2147483648 ->
  alloc (SizeOfData im) = Some fresh -> zlen fresh = SizeOfData im ->
  exists r, iMirror alloc im = Ok (Some (with_Data im (Some r))) /\
   mirrored buf r (Depth im) (Height im) (Width im) (Bpp im * Bpc im).
Proof.
  intros alloc im buf fresh (HD & HW & HH & HDp & Hbpp & Hbpc & Hbps & Hpl & Hsz & H32 & Hlen) HW31 Ea La.
  unfold iMirror. rewrite Ea, HD.
  set (n := Bpc im) in *. set (bpp := Bpp im) in *. set (W := Width im) in *.
  set (H := Height im) in *. set (D := Depth im) in *. set (P := bpp * n) in *.
  assert (Hn : 0 < n) by lia.
  replace ((n =? 1) || (n =? 2) || (n =? 4) || (n =? 8)) with true by lia.
  assert (HP : 0 < P) by (apply Z.mul_pos_pos; lia).
  assert (Hpix : Bps im / n = W * bpp).
  { rewrite Hbps. unfold P. replace (W * (bpp * n)) with (W * bpp * n) by lia. apply Z.div_mul. lia. }
  rewrite Hpix. cbv zeta.
  rewrite (i32_small (W - 1)) by lia. replace (W - 1 + 1) with W by lia.
  set (S := SizeOfPlane im) in *.
  assert (HS : S = H * (W * P)) by (rewrite Hpl, Hbps; lia).
  assert (Hrow : 0 < W * P) by (apply Z.mul_pos_pos; lia).
  assert (HSpos : 0 < S) by (rewrite HS; apply Z.mul_pos_pos; lia).
  (* loop over planes *)
  destruct (loop_rule _ (fun d (st : list Z * Z) => snd st * n = d * S /\ 0 <= snd st /\ zlen (fst st) = zlen fresh /\
     (forall q y x k, 0 <= q < d -> 0 <= y < H -> 0 <= x < W -> 0 <= k < P ->
        geti (fst st) (q * S + y * (W * P) + x * P + k) = geti buf (q * S + y * (W * P) + (W - 1 - x) * P + k)))
     0 D (fun d st =>
                loop 0 H (fun y st =>
                  loop 0 W (fun i st =>
                    let x := W - 1 - i in
                    loop 0 bpp (fun c '(dst, t) =>
                      let! dst := memcpy dst (u32 (d * S) + u32 (y * (W * bpp) + x * bpp + c) * n)
                                        buf (t * n) n in
                      Ok (dst, t + 1)) st) st) st) (fresh, 0)) as [[r u] [E (Hu & Hu0 & L & A)]].
  - lia.
  - cbn [fst snd]. repeat split; auto; intros; lia.
  - intros d [r u] Hd (Hu & Hu0 & L & A). cbn [fst snd] in *.
    assert (HdS := row_end S D d ltac:(lia) Hd). assert (HDS : D * S = SizeOfData im) by lia.
    rewrite (u32_small (d * S)) by lia.
    destruct (loop_rule _ (fun y (st : list Z * Z) => snd st * n = d * S + y * (W * P) /\ 0 <= snd st /\ zlen (fst st) = zlen fresh /\
      (forall v x k, 0 <= v < y -> 0 <= x < W -> 0 <= k < P ->
        geti (fst st) (d * S + v * (W * P) + x * P + k) = geti buf (d * S + v * (W * P) + (W - 1 - x) * P + k)) /\
      (forall j, 0 <= j < d * S -> geti (fst st) j = geti r j))
      0 H (fun y st =>
                  loop 0 W (fun i st =>
                    let x := W - 1 - i in
                    loop 0 bpp (fun c '(dst, t) =>
                      let! dst := memcpy dst (d * S + u32 (y * (W * bpp) + x * bpp + c) * n)
                                        buf (t * n) n in
                      Ok (dst, t + 1)) st) st) (r, u)) as [[r2 u2] [E2 (Hu2 & Hu20 & L2 & A2 & B2)]].
    + lia.
    + cbn [fst snd]. repeat split; auto; intros; lia.
    + intros y [r1 u1] Hy (Hu1 & Hu10 & L1 & A1 & B1). cbn [fst snd] in *.
      assert (HyR := row_end (W * P) H y ltac:(lia) Hy). rewrite <- HS in HyR.
      destruct (mirror_row n bpp W r1 buf (d * S + y * (W * P))
         (fun i c => d * S + u32 (y * (W * bpp) + (W - 1 - i) * bpp + c) * n))
         with (t := u1) as [r' [E' [L' [A' B']]]]; try lia.
      { intros i c Hi Hc. fold P.
        assert (Hx : 0 <= (W - 1 - i) * bpp + c < W * bpp) by (apply (row_bound bpp W); lia).
        assert (Hx1 : 0 <= y * (W * bpp) + ((W - 1 - i) * bpp + c) < H * (W * bpp)).
        { apply (row_bound (W * bpp) H); lia. }
        assert (Hx2 : H * (W * bpp) * n = S) by (rewrite HS; unfold P; lia).
        assert (Hx3 : H * (W * bpp) <= H * (W * bpp) * n).
        { rewrite <- (Z.mul_1_r (H * (W * bpp))) at 1. apply Z.mul_le_mono_nonneg_l; lia. }
        rewrite u32_small by lia. unfold P. lia. }
      cbv zeta. rewrite E'. exists (r', u1 + W * bpp). split; [reflexivity|]. cbn [fst snd]. fold P in A', B'.
      assert (HWb : 0 <= W * bpp) by (apply Z.mul_nonneg_nonneg; lia).
      split; [|split; [|split; [|split]]]; try lia.
      { intros v x k Hv Hx Hk. assert (Hb := row_bound P W x k Hk Hx).
        assert (Hv0 : 0 <= v * (W * P)) by (apply Z.mul_nonneg_nonneg; lia).
        destruct (Z.eq_dec v y) as [->|].
        - rewrite A' by lia. reflexivity.
        - assert ((v + 1) * (W * P) <= y * (W * P)) by (apply Z.mul_le_mono_nonneg_r; lia).
          rewrite B' by lia. apply A1; lia. }
      { intros j Hj. rewrite B' by lia. apply B1; lia. }
    + cbn [fst snd] in *. exists (r2, u2). split; [exact E2|]. cbn [fst snd].
      split; [lia|]. split; [lia|]. split; [lia|].
      intros q y x k Hq Hy Hx Hk. destruct (Z.eq_dec q d) as [->|].
      * apply A2; lia.
      * assert ((q + 1) * S <= d * S) by (apply Z.mul_le_mono_nonneg_r; lia).
        assert (Hb := row_bound P W x k Hk Hx).
        assert (Hb2 := row_bound (W * P) H y (x * P + k) ltac:(lia) Hy). rewrite <- HS in Hb2.
        assert (0 <= q * S) by (apply Z.mul_nonneg_nonneg; lia).
        rewrite B2 by lia. apply A; lia.
  - cbv zeta in E. rewrite E. cbn [bind fst snd] in *. exists r. split; [reflexivity|].
    split; [lia|]. rewrite <- HS. exact A.
Qed.
