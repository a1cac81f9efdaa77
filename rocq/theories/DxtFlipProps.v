(** Theorems C90: flipping compressed texture data. *)
From Coq Require Import ZArith List Lia Bool.
From Verif Require Import Base Enums Utility Image ImageSpec Slices Elem BitLemmas ConvImg ConvImgProps DxtSpec Dxt DxtProofs DxtDecode DxtProps DxtBlocks DxtFlip.
Import ListNotations.
Open Scope Z_scope.

(** ** Rows of blocks *)
Lemma slice_splice_in : forall d p B a n, 0 <= p -> p + zlen B <= zlen d -> p <= a -> 0 <= n -> a + n <= p + zlen B -> slice (splice d p B) a n = slice B (a - p) n.
Proof.
  intros d p B a n Hp Hl Ha Hn Hr. apply list_ext; [rewrite !zlen_slice; rewrite ?zlen_splice; lia|].
  intros k Hk. rewrite zlen_slice in Hk by (rewrite ?zlen_splice; lia). rewrite !geti_slice by (rewrite ?zlen_splice; lia). rewrite geti_splice by lia.
  replace ((p <=? a + k) && (a + k <? p + zlen B)) with true by lia. f_equal. lia.
Qed.

Section Rows.
Variables (bs nx R : Z).
Hypothesis Hbs : 0 < bs.
Hypothesis Hnx : 0 < nx.

Lemma row_len : 0 < nx * bs. Proof using Hbs Hnx. apply Z.mul_pos_pos; auto. Qed.
Lemma row_at : forall r, 0 <= r < R -> 0 <= r * (nx * bs) /\ r * (nx * bs) + nx * bs <= R * nx * bs.
Proof using Hbs Hnx.
  intros r Hr. pose proof row_len as L. split; [apply Z.mul_nonneg_nonneg; lia|].
  replace (r * (nx * bs) + nx * bs) with ((r + 1) * (nx * bs)) by ring. replace (R * nx * bs) with (R * (nx * bs)) by ring. apply Z.mul_le_mono_nonneg_r; lia.
Qed.
Lemma cell_at : forall x, 0 <= x < nx -> 0 <= x * bs /\ x * bs + bs <= nx * bs.
Proof using Hbs.
  intros x Hx. split; [apply Z.mul_nonneg_nonneg; lia|]. replace (x * bs + bs) with ((x + 1) * bs) by ring. apply Z.mul_le_mono_nonneg_r; lia.
Qed.
Lemma blk_row : forall d r x, blk bs d (r * nx + x) = slice d (r * (nx * bs) + x * bs) bs.
Proof using. clear. intros. unfold blk. f_equal. ring. Qed.
Lemma cell_bound : forall r x, 0 <= r < R -> 0 <= x < nx -> 0 <= r * nx + x < R * nx.
Proof using. clear. intros r x Hr Hx. assert (0 <= r * nx) by (apply Z.mul_nonneg_nonneg; lia). assert ((r + 1) * nx <= R * nx) by (apply Z.mul_le_mono_nonneg_r; lia). lia. Qed.

(** exchanging two rows *)
Lemma swap_rows : forall d a b, bytes d -> zlen d = R * nx * bs -> 0 <= a < R -> 0 <= b < R -> a <> b ->
  let L := nx * bs in
  let d2 := splice (splice d (a * L) (slice d (b * L) L)) (b * L) (slice d (a * L) L) in
  bytes d2 /\ zlen d2 = R * nx * bs /\
  forall r x, 0 <= r < R -> 0 <= x < nx -> blk bs d2 (r * nx + x) = blk bs d ((if r =? a then b else if r =? b then a else r) * nx + x).
Proof using Hbs Hnx.
  intros d a b Hd Hl Ha Hb Hne L d2. destruct (row_at a Ha) as (A1 & A2). destruct (row_at b Hb) as (B1 & B2). fold L in A1, A2, B1, B2. pose proof row_len as HL. fold L in HL.
  assert (La : zlen (slice d (a * L) L) = L) by (apply zlen_slice; lia). assert (Lb : zlen (slice d (b * L) L) = L) by (apply zlen_slice; lia).
  assert (L1 : zlen (splice d (a * L) (slice d (b * L) L)) = R * nx * bs) by (rewrite zlen_splice; lia).
  assert (Ba : bytes (slice d (a * L) L)) by (apply bytes_slice; auto). assert (Bb : bytes (slice d (b * L) L)) by (apply bytes_slice; auto).
  assert (B3 : bytes (splice d (a * L) (slice d (b * L) L))) by (apply bytes_splice; auto; lia).
  split; [apply bytes_splice; auto; lia|]. split; [unfold d2; rewrite zlen_splice; lia|].
  intros r x Hr Hx. rewrite !blk_row. fold L. destruct (row_at r Hr) as (R1 & R2). fold L in R1, R2. destruct (cell_at x Hx) as (X1 & X2). fold L in X2.
  assert (Far : forall u v, 0 <= u -> 0 <= v -> u <> v -> u * L + L <= v * L \/ v * L + L <= u * L).
  { intros u v Hu Hv Huv. destruct (Z_lt_ge_dec u v); [left | right]; rewrite <- (Z.mul_1_l L) at 2; rewrite <- Z.mul_add_distr_r; apply Z.mul_le_mono_nonneg_r; lia. }
  unfold d2. destruct (r =? b) eqn:Qb.
  - apply Z.eqb_eq in Qb. subst r. replace (b =? a) with false by lia. rewrite slice_splice_in by lia. rewrite slice_slice by lia. f_equal. lia.
  - destruct (Far r b) as [F | F]; try lia.
    + rewrite slice_splice_other by lia. destruct (r =? a) eqn:Qa.
      * apply Z.eqb_eq in Qa. subst r. rewrite slice_splice_in by lia. rewrite slice_slice by lia. f_equal. lia.
      * destruct (Far r a) as [G | G]; try lia; apply slice_splice_other; lia.
    + rewrite slice_splice_other by lia. destruct (r =? a) eqn:Qa.
      * apply Z.eqb_eq in Qa. subst r. rewrite slice_splice_in by lia. rewrite slice_slice by lia. f_equal. lia.
      * destruct (Far r a) as [G | G]; try lia; apply slice_splice_other; lia.
Qed.

(** an operation on all blocks of a row *)
Lemma row_op : forall op f d a, block_op bs op f -> bytes d -> zlen d = R * nx * bs -> 0 <= a < R ->
  exists d', loop 0 nx (fun i d => op (a * (nx * bs) + i * bs) d) d = Ok d' /\ bytes d' /\ zlen d' = R * nx * bs /\
    forall r x, 0 <= r < R -> 0 <= x < nx -> blk bs d' (r * nx + x) = if r =? a then f (blk bs d (r * nx + x)) else blk bs d (r * nx + x).
Proof using Hbs Hnx.
  intros op f d a Ho Hd Hl Ha. pose proof (cell_bound a 0 Ha ltac:(lia)) as C0. pose proof (cell_bound a (nx - 1) Ha ltac:(lia)) as C1.
  destruct (run_blocks bs op f (R * nx) (a * nx) nx d Hbs Ho Hd Hl) as (d' & E & B & L & K); try lia.
  exists d'. replace (a * (nx * bs)) with (a * nx * bs) by ring. split; [exact E|]. split; [exact B|]. split; [exact L|].
  intros r x Hr Hx. rewrite K by (apply cell_bound; auto).
  assert (Far : forall u v, u < v -> u * nx + nx <= v * nx) by (intros u v Huv; replace (u * nx + nx) with ((u + 1) * nx) by ring; apply Z.mul_le_mono_nonneg_r; lia).
  replace ((a * nx <=? r * nx + x) && (r * nx + x <? a * nx + nx)) with (r =? a); [reflexivity|].
  destruct (Z.compare_spec r a) as [Q | Q | Q]; [subst; lia | pose proof (Far r a Q); lia | pose proof (Far a r Q); lia].
Qed.
End Rows.

(** ** One plane *)
Lemma plane_ok : forall fmt bs nx ny D z d, dxt_format fmt bs -> 0 < nx -> 0 < ny -> 0 <= z < D -> bytes d -> zlen d = D * ny * nx * bs ->
  exists d', flip_plane fmt bs nx ny (z * (nx * bs * ny)) d = Ok d' /\ bytes d' /\ zlen d' = D * ny * nx * bs /\
    forall r x, 0 <= r < D * ny -> 0 <= x < nx ->
      blk bs d' (r * nx + x) = if (z * ny <=? r) && (r <? z * ny + ny) then flipb fmt (blk bs d ((2 * (z * ny) + ny - 1 - r) * nx + x)) else blk bs d (r * nx + x).
Proof.
  intros fmt bs nx ny D z d Hf Hnx Hny Hz Hd Hl. pose proof (flip_op fmt bs Hf) as FO.
  assert (Hbs : 0 < bs) by (destruct Hf as [(_ & ->) | [(_ & ->) | (_ & ->)]]; lia).
  set (Z0 := z * ny). assert (HZ : 0 <= Z0 /\ Z0 + ny <= D * ny).
  { unfold Z0. split; [apply Z.mul_nonneg_nonneg; lia|]. replace (z * ny + ny) with ((z + 1) * ny) by ring. apply Z.mul_le_mono_nonneg_r; lia. }
  set (R := D * ny) in *. unfold flip_plane. cbv zeta.
  set (Inv := fun y d' => bytes d' /\ zlen d' = R * nx * bs /\ forall r x, 0 <= r < R -> 0 <= x < nx ->
      blk bs d' (r * nx + x) = if ((Z0 <=? r) && (r <? Z0 + y)) || ((Z0 + ny - 1 - y <? r) && (r <? Z0 + ny)) then flipb fmt (blk bs d ((2 * Z0 + ny - 1 - r) * nx + x)) else blk bs d (r * nx + x)).
  match goal with |- context [loop 0 (ny / 2) ?body d] => destruct (loop_rule _ Inv 0 (ny / 2) body d) as (d1 & E1 & B1 & L1 & K1) end.
  - apply Z.div_pos; lia.
  - split; [exact Hd|]. split; [exact Hl|]. intros r x Hr Hx.
    replace (((Z0 <=? r) && (r <? Z0 + 0)) || ((Z0 + ny - 1 - 0 <? r) && (r <? Z0 + ny))) with false by lia. reflexivity.
  - intros y e Hy (B & L & K). cbn beta. assert (Hy2 : 2 * y + 1 < ny) by lia.
    replace (z * (nx * bs * ny) + y * (nx * bs)) with ((Z0 + y) * (nx * bs)) by (unfold Z0; ring).
    replace (z * (nx * bs * ny) + (ny - 1) * (nx * bs) - y * (nx * bs)) with ((Z0 + ny - 1 - y) * (nx * bs)) by (unfold Z0; ring).
    set (a := Z0 + y). set (b := Z0 + ny - 1 - y). assert (Ha : 0 <= a < R) by lia. assert (Hb : 0 <= b < R) by lia. assert (Hab : a < b) by lia.
    destruct (row_at bs nx R Hbs Hnx a Ha) as (A1 & A2). destruct (row_at bs nx R Hbs Hnx b Hb) as (C1 & C2). pose proof (row_len bs nx Hbs Hnx) as RL.
    replace (inb (zlen e) (a * (nx * bs)) (nx * bs) && inb (zlen e) (b * (nx * bs)) (nx * bs)) with true by (symmetry; apply andb_true_iff; rewrite !inb_true; lia). cbn [negb].
    destruct (swap_rows bs nx R Hbs Hnx e a b B L Ha Hb ltac:(lia)) as (B2 & L2 & K2).
    match type of B2 with bytes ?q => set (e2 := q) in * end. clearbody e2.
    destruct (row_op bs nx R Hbs Hnx (flip_block fmt) (flipb fmt) e2 a FO B2 L2 Ha) as (e3 & E3 & B3 & L3 & K3).
    destruct (row_op bs nx R Hbs Hnx (flip_block fmt) (flipb fmt) e3 b FO B3 L3 Hb) as (e4 & E4 & B4 & L4 & K4).
    unfold FlipBlocks. rewrite E3. cbn [bind]. exists e4. split; [exact E4|]. split; [exact B4|]. split; [exact L4|].
    intros r x Hr Hx. rewrite K4, K3, K2 by auto.
    destruct (r =? b) eqn:Qb.
    + apply Z.eqb_eq in Qb. subst r. replace (b =? a) with false by lia. rewrite K by auto.
      replace (((Z0 <=? a) && (a <? Z0 + y)) || ((Z0 + ny - 1 - y <? a) && (a <? Z0 + ny))) with false by lia.
      replace (((Z0 <=? b) && (b <? Z0 + (y + 1))) || ((Z0 + ny - 1 - (y + 1) <? b) && (b <? Z0 + ny))) with true by lia. replace (2 * Z0 + ny - 1 - b) with a by lia. reflexivity.
    + destruct (r =? a) eqn:Qa.
      * apply Z.eqb_eq in Qa. subst r. rewrite K by auto.
        replace (((Z0 <=? b) && (b <? Z0 + y)) || ((Z0 + ny - 1 - y <? b) && (b <? Z0 + ny))) with false by lia.
        replace (((Z0 <=? a) && (a <? Z0 + (y + 1))) || ((Z0 + ny - 1 - (y + 1) <? a) && (a <? Z0 + ny))) with true by lia. replace (2 * Z0 + ny - 1 - a) with b by lia. reflexivity.
      * rewrite K by auto. replace (((Z0 <=? r) && (r <? Z0 + (y + 1))) || ((Z0 + ny - 1 - (y + 1) <? r) && (r <? Z0 + ny))) with (((Z0 <=? r) && (r <? Z0 + y)) || ((Z0 + ny - 1 - y <? r) && (r <? Z0 + ny))) by lia. reflexivity.
  - rewrite E1. cbn [bind]. destruct (ny mod 2 =? 0) eqn:Q; cbn [negb].
    + exists d1. split; [reflexivity|]. split; [exact B1|]. split; [exact L1|]. intros r x Hr Hx. rewrite K1 by auto.
      replace (((Z0 <=? r) && (r <? Z0 + ny / 2)) || ((Z0 + ny - 1 - ny / 2 <? r) && (r <? Z0 + ny))) with ((Z0 <=? r) && (r <? Z0 + ny)) by lia. reflexivity.
    + set (m := Z0 + ny / 2). assert (Hm : 0 <= m < R) by lia.
      destruct (row_op bs nx R Hbs Hnx (flip_block fmt) (flipb fmt) d1 m FO B1 L1 Hm) as (d2 & E2 & B2 & L2 & K2).
      replace (z * (nx * bs * ny) + ny / 2 * (nx * bs)) with (m * (nx * bs)) by (unfold m, Z0; ring).
      unfold FlipBlocks. exists d2. split; [exact E2|]. split; [exact B2|]. split; [exact L2|]. intros r x Hr Hx. rewrite K2 by auto.
      destruct (r =? m) eqn:Qm.
      * apply Z.eqb_eq in Qm. subst r. rewrite K1 by auto.
        replace (((Z0 <=? m) && (m <? Z0 + ny / 2)) || ((Z0 + ny - 1 - ny / 2 <? m) && (m <? Z0 + ny))) with false by lia.
        replace ((Z0 <=? m) && (m <? Z0 + ny)) with true by lia. replace (2 * Z0 + ny - 1 - m) with m by lia. reflexivity.
      * rewrite K1 by auto. replace (((Z0 <=? r) && (r <? Z0 + ny / 2)) || ((Z0 + ny - 1 - ny / 2 <? r) && (r <? Z0 + ny))) with ((Z0 <=? r) && (r <? Z0 + ny)) by lia. reflexivity.
Qed.

(** ** The whole data *)
Lemma flip_ok : forall alloc s fmt bs w h d c, plenty alloc -> carries s fmt bs w h d c ->
  exists c', ilFlipSurfaceDxtcData alloc s = Ok (mkSurf (simg s) (Some c') fmt (DxtcSize s), []) /\ bytes c' /\ zlen c' = zlen c /\
    forall z r x, 0 <= z < d -> 0 <= r < quads h -> 0 <= x < quads w ->
      blk bs c' ((z * quads h + r) * quads w + x) = flipb fmt (blk bs c ((z * quads h + (quads h - 1 - r)) * quads w + x)).
Proof.
  intros alloc s fmt bs w h d c Hp (Hf & Hw & Hh & Hd & HN & EW & EH & ED & EF & EC & Hc & Hl & HB).
  pose proof (quads_pos w Hw) as Qw. pose proof (quads_pos h Hh) as Qh. unfold ilFlipSurfaceDxtcData. rewrite EC, EF.
  assert (Hbs : (if fmt =? IL_DXT1 then 8 else 16) = bs) by (destruct Hf as [(-> & ->) | [(-> & ->) | (-> & ->)]]; reflexivity). rewrite Hbs. cbv zeta.
  assert (Hbp : 0 < bs) by (destruct Hf as [(_ & ->) | [(_ & ->) | (_ & ->)]]; lia).
  replace (negb ((fmt =? IL_DXT1) || (fmt =? IL_DXT3) || (fmt =? IL_DXT5))) with false.
  2:{ destruct Hf as [(-> & _) | [(-> & _) | (-> & _)]]; reflexivity. }
  rewrite EW, EH, ED. fold (quads w) (quads h). set (nx := quads w) in *. set (ny := quads h) in *.
  destruct (alloc (nx * bs)) as [t|] eqn:EA; [|exfalso; apply (Hp (nx * bs)); [apply Z.mul_nonneg_nonneg; lia|exact EA]].
  assert (Hl2 : zlen c = d * ny * nx * bs) by (rewrite Hl; ring).
  match goal with |- context [loop 0 d ?body c] =>
    destruct (loop_rule _ (fun k c' => bytes c' /\ zlen c' = d * ny * nx * bs /\ forall z r x, 0 <= z < d -> 0 <= r < ny -> 0 <= x < nx ->
      blk bs c' ((z * ny + r) * nx + x) = if z <? k then flipb fmt (blk bs c ((z * ny + (ny - 1 - r)) * nx + x)) else blk bs c ((z * ny + r) * nx + x)) 0 d body c) as (c' & E & B & L & K) end.
  - lia.
  - split; [exact Hc|]. split; [exact Hl2|]. intros z r x Hz Hr Hx. replace (z <? 0) with false by lia. reflexivity.
  - intros k e Hk (B & L & K). destruct (plane_ok fmt bs nx ny d k e Hf Qw Qh Hk B L) as (e' & E' & B' & L' & K').
    exists e'. split; [exact E'|]. split; [exact B'|]. split; [exact L'|]. intros z r x Hz Hr Hx.
    assert (RB : 0 <= z * ny + r < d * ny) by (apply (cell_bound ny d z r); lia). rewrite K' by auto.
    assert (Far : forall u v, u < v -> u * ny + ny <= v * ny) by (intros u v Huv; replace (u * ny + ny) with ((u + 1) * ny) by ring; apply Z.mul_le_mono_nonneg_r; lia).
    destruct (Z.compare_spec z k) as [Q | Q | Q].
    + subst z. replace ((k * ny <=? k * ny + r) && (k * ny + r <? k * ny + ny)) with true by lia.
      replace (2 * (k * ny) + ny - 1 - (k * ny + r)) with (k * ny + (ny - 1 - r)) by lia. rewrite K by lia.
      replace (k <? k) with false by lia. replace (k <? k + 1) with true by lia. reflexivity.
    + pose proof (Far z k Q). replace ((k * ny <=? z * ny + r) && (z * ny + r <? k * ny + ny)) with false by lia. rewrite K by lia.
      replace (z <? k) with true by lia. replace (z <? k + 1) with true by lia. reflexivity.
    + pose proof (Far k z Q). replace ((k * ny <=? z * ny + r) && (z * ny + r <? k * ny + ny)) with false by lia. rewrite K by lia.
      replace (z <? k) with false by lia. replace (z <? k + 1) with false by lia. reflexivity.
  - rewrite E. cbn [bind]. exists c'. split; [reflexivity|]. split; [exact B|]. split; [lia|]. intros z r x Hz Hr Hx. rewrite K by lia. replace (z <? d) with true by lia. reflexivity.
Qed.

Lemma carries_again : forall s fmt bs w h d c c', carries s fmt bs w h d c -> bytes c' -> zlen c' = zlen c -> carries (mkSurf (simg s) (Some c') fmt (DxtcSize s)) fmt bs w h d c'.
Proof.
  intros s fmt bs w h d c c' (Hf & Hw & Hh & Hd & HN & EW & EH & ED & EF & EC & Hc & Hl & HB) Hb Hz. unfold carries. cbn [simg DxtcFormat DxtcData]. rewrite Hz.
  repeat match goal with |- _ /\ _ => split end; auto.
Qed.

(** flipping the compressed data and decoding it shows the picture upside down *)
Theorem C90_flip_partial : forall alloc s fmt bs w h d c, allocator_ok alloc -> plenty alloc -> carries s fmt bs w h d c -> h mod 4 = 0 ->
  exists s1 c' s2 s3, ilFlipSurfaceDxtcData alloc s = Ok (s1, []) /\ carries s1 fmt bs w h d c' /\ simg s1 = simg s /\
    ilDxtcDataToSurface alloc s = Ok (true, s2, []) /\ shows (simg s2) w h d (texels fmt bs w h c) /\
    ilDxtcDataToSurface alloc s1 = Ok (true, s3, []) /\ shows (simg s3) w h d (fun x t z ch => texels fmt bs w h c x (h - 1 - t) z ch).
Proof.
  intros alloc s fmt bs w h d c Ha Hp Hs H4. destruct (flip_ok alloc s fmt bs w h d c Hp Hs) as (c' & E & B & L & K).
  pose proof (carries_again s fmt bs w h d c c' Hs B L) as Hs1.
  destruct (C89_decode_partial alloc s fmt bs w h d c Ha Hp Hs) as (s2 & E2 & _ & _ & S2). destruct (C89_decode_partial alloc _ fmt bs w h d c' Ha Hp Hs1) as (s3 & E3 & _ & _ & S3).
  do 4 eexists. split; [exact E|]. split; [exact Hs1|]. split; [reflexivity|]. split; [exact E2|]. split; [exact S2|]. split; [exact E3|].
  destruct S3 as (buf & I & EW & EH & ED & EF & ET & EO & P). exists buf. repeat match goal with |- _ /\ _ => split end; auto.
  intros x t z ch Hx Ht Hz Hch. rewrite P by auto. destruct Hs as (Hf & Hw & Hh & Hd & _ & _ & _ & _ & _ & _ & Hc & Hl & _).
  assert (Hbp : 0 < bs) by (destruct Hf as [(_ & ->) | [(_ & ->) | (_ & ->)]]; lia).
  assert (Hx4 : 0 <= x / 4 < quads w) by (unfold quads; lia). assert (Ht4 : 0 <= t / 4 < quads h) by (unfold quads; lia).
  unfold texels, block_of. rewrite K by auto. unfold in_block.
  assert (RB : 0 <= z * quads h + (quads h - 1 - t / 4) < d * quads h) by (apply (cell_bound (quads h) d z); lia).
  assert (CB : 0 <= (z * quads h + (quads h - 1 - t / 4)) * quads w + x / 4 < d * quads h * quads w) by (apply (cell_bound (quads w) (d * quads h)); auto).
  rewrite flip_texel with (bs := bs); auto; try (apply Z.mod_pos_bound; lia).
  2:{ unfold blk. apply bytes_slice. exact Hc. }
  2:{ apply (blk_zlen bs c _ (d * quads h * quads w)); auto. rewrite Hl. ring. }
  assert (Q1 : (h - 1 - t) / 4 = quads h - 1 - t / 4) by (unfold quads; lia). assert (Q2 : (h - 1 - t) mod 4 = 3 - t mod 4) by lia. rewrite Q1, Q2. reflexivity.
Qed.
Print Assumptions C90_flip_partial.

(** flipping twice restores the data, whatever the height *)
Theorem C90_twice : forall alloc s fmt bs w h d c, plenty alloc -> carries s fmt bs w h d c ->
  exists s1, ilFlipSurfaceDxtcData alloc s = Ok (s1, []) /\ ilFlipSurfaceDxtcData alloc s1 = Ok (s, []).
Proof.
  intros alloc s fmt bs w h d c Hp Hs. destruct (flip_ok alloc s fmt bs w h d c Hp Hs) as (c1 & E1 & B1 & L1 & K1).
  pose proof (carries_again s fmt bs w h d c c1 Hs B1 L1) as Hs1. destruct (flip_ok alloc _ fmt bs w h d c1 Hp Hs1) as (c2 & E2 & B2 & L2 & K2).
  eexists. split; [exact E1|]. rewrite E2. cbn [simg DxtcSize]. destruct Hs as (Hf & Hw & Hh & Hd & _ & _ & _ & _ & EF & EC & Hc & Hl & _).
  assert (Hbp : 0 < bs) by (destruct Hf as [(_ & ->) | [(_ & ->) | (_ & ->)]]; lia). pose proof (quads_pos w Hw) as Qw. pose proof (quads_pos h Hh) as Qh.
  assert (Hl2 : zlen c = d * quads h * quads w * bs) by (rewrite Hl; ring).
  assert (C : c2 = c).
  { apply (blocks_ext bs c2 c (d * quads h * quads w)); try lia. intros b Hb.
    pose proof (Z.div_mod b (quads w) ltac:(lia)) as D1. pose proof (Z.mod_pos_bound b (quads w) Qw) as D2. set (x := b mod quads w) in *. set (q := b / quads w) in *.
    assert (0 <= q < d * quads h) by (split; [apply Z.div_pos; lia | apply Z.div_lt_upper_bound; lia]).
    pose proof (Z.div_mod q (quads h) ltac:(lia)) as D3. pose proof (Z.mod_pos_bound q (quads h) Qh) as D4. set (r := q mod quads h) in *. set (z := q / quads h) in *.
    assert (0 <= z < d) by (split; [apply Z.div_pos; lia | apply Z.div_lt_upper_bound; lia]).
    assert (Eb : b = (z * quads h + r) * quads w + x) by (rewrite (Z.mul_comm z), <- D3, (Z.mul_comm q); exact D1).
    rewrite Eb, K2, K1 by lia. replace (quads h - 1 - (quads h - 1 - r)) with r by lia. rewrite <- Eb.
    apply (flip_twice fmt bs); auto; [unfold blk; apply bytes_slice; exact Hc | apply (blk_zlen bs c b (d * quads h * quads w)); auto]. }
  subst c2. destruct s as [i dd ff zz]. cbn in *. subst. reflexivity.
Qed.
Print Assumptions C90_twice.

(** a height that is not a multiple of four: the rows that fill up the last blocks come in, and the top row of
    a picture one pixel high is not what it was *)
Theorem C90_flip_refuted : ~ (forall alloc s fmt bs w h d c, allocator_ok alloc -> plenty alloc -> carries s fmt bs w h d c ->
  exists s1 s3, ilFlipSurfaceDxtcData alloc s = Ok (s1, []) /\ ilDxtcDataToSurface alloc s1 = Ok (true, s3, []) /\ shows (simg s3) w h d (fun x t z ch => texels fmt bs w h c x (h - 1 - t) z ch)).
Proof.
  intros H. destruct ex_alloc_ok as (A & P). set (c := [0; 248; 31; 0; 0; 0; 0; 85]).
  assert (K : carries (one_pixel IL_DXT1 c) IL_DXT1 8 1 1 1 c) by (apply one_pixel_carries; [left; auto | apply bytes_of; reflexivity | reflexivity]).
  destruct (H _ _ _ _ _ _ _ _ A P K) as (s1 & s3 & E & E3 & (buf & O1 & _ & _ & _ & _ & _ & _ & X)).
  destruct (flip_ok _ _ _ _ _ _ _ _ P K) as (c' & E' & B & L & F). rewrite E in E'. match type of E' with Ok (?a, _) = Ok (?b, _) => assert (Es : a = b) by congruence end. subst s1.
  pose proof (carries_again _ _ _ _ _ _ _ _ K B L) as K1.
  destruct (C89_decode_partial _ _ _ _ _ _ _ _ A P K1) as (s4 & E4 & _ & _ & (b4 & O4 & _ & _ & _ & _ & _ & _ & X4)). rewrite E3 in E4. injection E4 as <-.
  assert (b4 = buf) by (destruct O1 as (O1 & _); destruct O4 as (O2 & _); congruence). subst b4.
  specialize (X 0 0 0 0 ltac:(lia) ltac:(lia) ltac:(lia) ltac:(lia)). rewrite X4 in X by lia. unfold texels in X.
  change (quads 1) with 1 in F. specialize (F 0 0 0 ltac:(lia) ltac:(lia) ltac:(lia)).
  change ((0 * 1 + 0) * 1 + 0) with 0 in F. change (block_of 1 1 0 0 0) with 0 in X. rewrite F in X. vm_compute in X. discriminate X.
Qed.
Print Assumptions C90_flip_refuted.

(** an example: 4 x 8 pixels in DXT1, red above blue *)
Definition ex_dxt1 : list Z := [0; 248; 31; 0; 0; 0; 0; 0] ++ [31; 0; 0; 248; 0; 0; 0; 85].
Lemma C90_ex : exists s, ilTexImageDxtc ex_alloc 4 8 1 IL_DXT1 (Some ex_dxt1) = Ok (true, s) /\ carries s IL_DXT1 8 4 8 1 ex_dxt1 /\ 8 mod 4 = 0 /\
  map (fun t => texels IL_DXT1 8 4 8 ex_dxt1 0 t 0 0) [0; 1; 2; 3; 4; 5; 6; 7] = [255; 255; 255; 255; 0; 0; 0; 255] /\
  exists s1, ilFlipSurfaceDxtcData ex_alloc s = Ok (s1, []) /\ DxtcData s1 = Some ([31; 0; 0; 248; 85; 0; 0; 0] ++ [0; 248; 31; 0; 0; 0; 0; 0]).
Proof.
  destruct ex_alloc_ok as (A & P).
  destruct (C89_set ex_alloc IL_DXT1 8 4 8 1 ex_dxt1 A P (or_introl (conj eq_refl eq_refl)) ltac:(lia) ltac:(lia) ltac:(lia) ltac:(lia) ltac:(lia) ltac:(lia) ltac:(vm_compute; reflexivity) (bytes_of ex_dxt1 eq_refl) ltac:(vm_compute; discriminate)) as (s & E & K & _).
  assert (S : slice ex_dxt1 0 (quads 4 * quads 8 * 1 * 8) = ex_dxt1) by reflexivity. rewrite S in K. exists s.
  split; [exact E|]. split; [exact K|]. split; [reflexivity|]. split; [vm_compute; reflexivity|].
  vm_compute in E. injection E as <-. eexists. split; vm_compute; reflexivity.
Qed.
