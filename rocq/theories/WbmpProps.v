(** C87, C88: wireless bitmaps. *)
From Coq Require Import ZArith List Lia Bool.
From Verif Require Import Base Slices BitLemmas Scatter Enums Utility Image ImageSpec ImageProps Flip FlipProofs FlipProps Lump LumpSpec LumpProofs LumpProps Channels Endian EndianProps Raw RawProps
  Elem Bits BitsProps Pcx PcxSpec PcxProofs BmpSpec BmpProofs BmpDecode Wbmp.
Import ListNotations.
Open Scope Z_scope.

(** ** Specification *)

(** a number in groups of seven bits, most significant first; every byte but the last has its
    highest bit set *)
Inductive groups : list Z -> Z -> Z -> Prop :=
| g_last : forall b acc, 0 <= b < 128 -> groups [b] acc (acc * 128 + b)
| g_more : forall b e acc v, 0 <= b < 128 -> groups e (acc * 128 + b) v -> groups (128 + b :: e) acc v.
Definition number_of (e : list Z) (v : Z) : Prop := groups e 0 v /\ zlen e <= 5 /\ v < 2 ^ 32.

(** a wireless bitmap of type 0: two zero bytes, width, height, rows of whole bytes *)
Definition wbmp_file (f : list Z) (w h : Z) (px : list Z) : Prop :=
  exists ew eh, f = 0 :: 0 :: ew ++ eh ++ px /\ number_of ew w /\ number_of eh h.
Definition row_bytes (w : Z) : Z := (w + 7) / 8.
(** the bit of column [x] in row [y] *)
Definition px_bit (px : list Z) (w x y : Z) : Z := bit (geti px (y * row_bytes w + x / 8)) (7 - x mod 8).

(** ** Numbers *)

Lemma groups_range : forall e acc v, groups e acc v -> 0 <= acc -> acc <= v /\ 0 < zlen e.
Proof.
  intros e acc v G. induction G; intros HA; rewrite ?zlen_cons; [split; [lia|reflexivity]|]. destruct IHG; lia.
Qed.
Lemma group_step : forall acc b, 0 <= acc -> 0 <= b < 256 -> acc * 128 + b mod 128 < 4294967296 ->
  u32 (Z.lor (Z.shiftl acc 7) (Z.land b 127)) = acc * 128 + b mod 128.
Proof.
  intros acc b HA HB HL. rewrite Z.shiftl_mul_pow2 by lia. change 127 with (2 ^ 7 - 1). rewrite land_mask by lia. assert (0 <= b mod 2 ^ 7 < 2 ^ 7) by (apply Z.mod_pos_bound; lia).
  rewrite lor_add by lia. change (2 ^ 7) with 128 in *. apply u32_small. lia.
Qed.
Lemma high_bit : forall b, 0 <= b < 256 -> (Z.land b 128 =? 0) = (b <? 128).
Proof.
  intros b H. change 128 with (2 ^ 7) at 1. rewrite land_pow2 by lia. change (2 ^ 7) with 128. destruct (b <? 128) eqn:E.
  - rewrite (Z.div_small b) by lia. reflexivity.
  - assert (b / 128 = 1) by (symmetry; apply Z.div_unique with (b - 128); lia). rewrite H0. reflexivity.
Qed.

Lemma getb_in : forall F p e, 0 <= p < zlen F -> zlen F < 4294967295 -> 0 <= geti F p < 256 -> getb (Rd F p (zlen F) e) = Ok (geti F p, Rd F (p + 1) (zlen F) e).
Proof. intros F p e Hp HF HB. unfold getb. rewrite getc_in by lia. cbn [bind]. rewrite u8_small by lia. reflexivity. Qed.

Lemma get_multi_ok : forall e acc v, groups e acc v -> forall n F p er, 0 <= acc -> v < 4294967296 -> (length e <= n)%nat -> 0 <= p -> p + zlen e <= zlen F -> zlen F < 4294967295 ->
  slice F p (zlen e) = e -> get_multi n acc (Rd F p (zlen F) er) = Ok (v, Rd F (p + zlen e) (zlen F) er).
Proof.
  intros e acc v G. induction G as [b acc Hb|b e acc v Hb G IH]; intros n F p er HA HV HN HP HL HF HS.
  - destruct n as [|n]; [cbn in HN; lia|]. change (zlen [b]) with 1 in *. assert (X : geti F p = b) by (rewrite <- (Z.add_0_r p), <- (geti_slice F p 1 0), HS by lia; reflexivity).
    cbn [get_multi]. rewrite getb_in by lia. cbn [bind]. rewrite X. assert (M : b mod 128 = b) by (apply Z.mod_small; lia). rewrite group_step by (rewrite ?M; lia). rewrite high_bit by lia. replace (b <? 128) with true by lia. rewrite M. reflexivity.
  - destruct n as [|n]; [cbn in HN; lia|]. rewrite zlen_cons in *. assert (0 <= zlen e) by auto. assert (X : geti F p = 128 + b) by (rewrite <- (Z.add_0_r p), <- (geti_slice F p (1 + zlen e) 0), HS by lia; reflexivity).
    destruct (groups_range _ _ _ G) as (R1 & R2); [lia|].
    cbn [get_multi]. rewrite getb_in by lia. cbn [bind]. rewrite X. assert (M : (128 + b) mod 128 = b) by (symmetry; apply Z.mod_unique with 1; lia). rewrite group_step by (rewrite ?M; lia). rewrite high_bit by lia. replace (128 + b <? 128) with false by lia. rewrite M.
    assert (Y : slice F (p + 1) (zlen e) = e).
    { apply list_ext; [rewrite zlen_slice; lia|]. intros i Hi. rewrite zlen_slice in Hi by lia. rewrite geti_slice by lia.
      assert (Y : geti (slice F p (1 + zlen e)) (i + 1) = geti (128 + b :: e) (i + 1)) by (rewrite HS; reflexivity).
      rewrite geti_slice in Y by lia. rewrite geti_cons in Y by lia. replace (i + 1 =? 0) with false in Y by lia. replace (p + 1 + i) with (p + (i + 1)) by lia. rewrite Y. f_equal. lia. }
    rewrite IH by (auto; try lia; cbn in HN; lia).
    f_equal. f_equal. f_equal. lia.
Qed.

(** ** Bits *)

Lemma geti_stream : forall file q r, 0 <= q < zlen file -> 0 <= r < 8 -> geti (stream file) (8 * q + r) = bit (geti file q) (7 - r).
Proof.
  induction file as [|b l IH]; intros q r Hq Hr; [change (zlen []) with 0 in Hq; lia|]. rewrite zlen_cons in Hq. change (stream (b :: l)) with (byte_bits b ++ stream l).
  rewrite geti_app by lia. change (zlen (byte_bits b)) with 8. rewrite (geti_cons b l q) by lia. destruct (q =? 0) eqn:E.
  - replace q with 0 by lia. replace (8 * 0 + r <? 8) with true by lia. assert (r = 0 \/ r = 1 \/ r = 2 \/ r = 3 \/ r = 4 \/ r = 5 \/ r = 6 \/ r = 7) as K by lia.
    destruct K as [-> | [-> | [-> | [-> | [-> | [-> | [-> | ->]]]]]]]; reflexivity.
  - replace (8 * q + r <? 8) with false by lia. replace (8 * q + r - 8) with (8 * (q - 1) + r) by lia. apply IH; lia.
Qed.
Lemma zlen_stream : forall file, zlen (stream file) = 8 * zlen file.
Proof. intros. unfold zlen. rewrite length_stream. lia. Qed.

Lemma zlen_skipn_ : forall (l : list Z) n, 0 <= n <= zlen l -> zlen (skipn (Z.to_nat n) l) = zlen l - n.
Proof. intros l n H. unfold zlen in *. rewrite skipn_length. lia. Qed.
Lemma skipn_more : forall a b (l : list Z), skipn a (skipn b l) = skipn (b + a) l.
Proof. intros a b. revert a. induction b as [|b IH]; intros a l; [reflexivity|]. destruct l as [|x l]; [cbn [skipn Nat.add]; destruct a; reflexivity|]. cbn [skipn Nat.add]. apply IH. Qed.

Lemma bread_ok : forall f n, fine f -> 0 <= n < 4294967296 -> n <= zlen (pending f) -> exists f', bread 1 n f = (n, slice (pending f) 0 n, f') /\ fine f' /\ pending f' = skipn (Z.to_nat n) (pending f).
Proof.
  intros f n Hf Hn Hl. unfold bread. rewrite Z.mul_1_l, u32_small by lia. destruct (bread__ok (Z.to_nat n) f Hf) as (f' & E & F & P & _); [unfold zlen in Hl; lia|].
  rewrite E. exists f'. unfold slice. cbn [skipn Z.to_nat]. split; [|auto]. f_equal. f_equal. unfold zlen in *. rewrite firstn_length. lia.
Qed.

Lemma bread_len : forall n f l f', bread_ n f = (l, f') -> zlen l <= Z.of_nat n.
Proof.
  induction n as [|n IH]; intros f0 l0 f1 E0; cbn [bread_] in E0; [injection E0 as <- <-; reflexivity|]. destruct (refill f0) as [[f2|] f3]; [|injection E0 as <- <-; change (zlen []) with 0; lia].
  destruct (bread_ n (advance f2)) as [l2 f4] eqn:Q. injection E0 as <- <-. apply IH in Q. rewrite zlen_cons. lia.
Qed.

Lemma stride_pad : forall w, 1 <= w -> w + (8 - w mod 8) mod 8 = 8 * row_bytes w /\ 0 <= (8 - w mod 8) mod 8 < 8.
Proof. intros w H. unfold row_bytes. assert (A := Z.div_mod w 8 ltac:(lia)). assert (B := Z.mod_pos_bound w 8 ltac:(lia)).
  destruct (Z.eq_dec (w mod 8) 0) as [E|E].
  - rewrite E. change ((8 - 0) mod 8) with 0. assert ((w + 7) / 8 = w / 8) by (symmetry; apply Z.div_unique with 7; lia). lia.
  - rewrite Z.mod_small by lia. assert ((w + 7) / 8 = w / 8 + 1) by (symmetry; apply Z.div_unique with (w mod 8 - 1); lia). lia.
Qed.

Lemma rows_ok : forall w h px d pos, 1 <= w -> 0 <= h -> w < 4294967296 -> w * h <= zlen d -> zlen d < 4294967296 -> h * row_bytes w <= zlen px ->
  exists d' f', loop 0 h (wbmp_row w ((8 - w mod 8) mod 8)) (d, bfile pos px) = Ok (d', f') /\ zlen d' = zlen d /\ fine f' /\ pending f' = skipn (Z.to_nat (8 * row_bytes w * h)) (stream px) /\
    forall x y, 0 <= x < w -> 0 <= y < h -> geti d' (w * y + x) = px_bit px w x y.
Proof.
  intros w h px d pos Hw Hh Hw32 Hs Hs32 Lp. destruct (stride_pad w Hw) as (SP & PB). set (P := (8 - w mod 8) mod 8) in *. set (R := row_bytes w) in *.
  assert (HR : 1 <= R) by lia.
  destruct (loop_rule _ (fun k (st : list Z * bitf) => zlen (fst st) = zlen d /\ fine (snd st) /\ pending (snd st) = skipn (Z.to_nat (8 * R * k)) (stream px) /\
     forall x y, 0 <= x < w -> 0 <= y < k -> geti (fst st) (w * y + x) = px_bit px w x y) 0 h (wbmp_row w P) (d, bfile pos px)) as ([d' f'] & E & L & F & PE & G); try lia.
  - cbn [fst snd]. split; [reflexivity|]. split; [unfold fine; cbn; lia|]. split; [|intros; lia]. rewrite Z.mul_0_r. reflexivity.
  - intros k [d1 f1] Hk (L1 & F1 & P1 & G1). cbn [fst snd] in *. unfold wbmp_row.
    assert (K1 : R * k + R <= zlen px) by (assert (R * (k + 1) <= R * h) by (apply Z.mul_le_mono_nonneg_l; lia); lia).
    assert (K0 : 0 <= R * k) by (apply Z.mul_nonneg_nonneg; lia).
    assert (ZP : zlen (pending f1) = 8 * zlen px - 8 * R * k) by (rewrite P1, zlen_skipn_, zlen_stream; rewrite ?zlen_stream; lia).
    destruct (bread_ok f1 w F1) as (f2 & E2 & F2 & P2); try lia. rewrite E2. rewrite zlen_slice by lia.
    assert (W1 : w * k + w <= w * h) by (assert (w * (k + 1) <= w * h) by (apply Z.mul_le_mono_nonneg_l; lia); lia). assert (W0 : 0 <= w * k) by (apply Z.mul_nonneg_nonneg; lia).
    rewrite u32_small by lia. destruct (memcpy_spec d1 (w * k) (slice (pending f1) 0 w) 0 w) as (d2 & -> & L2 & G2); try (rewrite ?zlen_slice; lia). cbn [bind].
    assert (ZP2 : zlen (pending f2) = zlen (pending f1) - w) by (rewrite P2; apply zlen_skipn_; lia).
    destruct (bread_ok f2 P F2) as (f3 & E3 & F3 & P3); try lia. rewrite E3.
    rewrite zlen_slice by lia. replace (8 <? P) with false by lia.
    eexists. split; [reflexivity|]. cbn [fst snd]. split; [lia|]. split; [exact F3|]. split.
    { rewrite P3, P2, P1, !skipn_more. f_equal. lia. }
    intros x y Hx Hy. assert (0 <= w * y) by (apply Z.mul_nonneg_nonneg; lia). rewrite G2 by lia. destruct (Z.eq_dec y k) as [->|N].
    + replace ((w * k <=? w * k + x) && (w * k + x <? w * k + w)) with true by lia. replace (0 + (w * k + x - w * k)) with x by lia. rewrite geti_slice by lia. rewrite P1, Z.add_0_l.
      assert (X : geti (skipn (Z.to_nat (8 * R * k)) (stream px)) x = geti (stream px) (8 * R * k + x)).
      { transitivity (geti (slice (stream px) (8 * R * k) w) x); [unfold slice, geti; rewrite nth_firstn_ by lia; reflexivity|apply geti_slice; lia]. }
      rewrite X. unfold px_bit. fold R. assert (A := Z.div_mod x 8 ltac:(lia)). assert (B := Z.mod_pos_bound x 8 ltac:(lia)).
      assert (C : x / 8 < R) by (apply Z.div_lt_upper_bound; lia). assert (0 <= x / 8) by (apply Z.div_pos; lia).
      replace (8 * R * k + x) with (8 * (k * R + x / 8) + x mod 8) by lia. apply geti_stream; lia.
    + assert (w * (y + 1) <= w * k) by (apply Z.mul_le_mono_nonneg_l; lia). replace ((w * k <=? w * y + x) && (w * y + x <? w * k + w)) with false by lia. apply G1; lia.
  - exists d', f'. cbn [fst snd] in *. auto 10.
Qed.

Lemma white_ok : forall n d, 0 <= n <= zlen d -> exists d', wbmp_white n d = Ok d' /\ zlen d' = zlen d /\ forall i, 0 <= i < zlen d -> geti d' i = if (i <? n) && (geti d i =? 1) then 255 else geti d i.
Proof.
  intros n d Hn. unfold wbmp_white. destruct (loop_rule _ (fun k d' => zlen d' = zlen d /\ forall i, 0 <= i < zlen d -> geti d' i = if (i <? k) && (geti d i =? 1) then 255 else geti d i) 0 n
    (fun i d => let! v := rd d i in if v =? 1 then wr d i 255 else Ok d) d) as (d' & E & L & G); try lia.
  - split; [reflexivity|]. intros i Hi. replace (i <? 0) with false by lia. reflexivity.
  - intros k d1 Hk (L & G). rewrite rd_ok by lia. cbn [bind]. assert (X := G k ltac:(lia)). replace (k <? k) with false in X by lia. cbn [andb] in X. rewrite X. destruct (geti d k =? 1) eqn:E.
    + rewrite wr_ok by lia. eexists. split; [reflexivity|]. split; [rewrite zlen_upd; lia|]. intros i Hi. rewrite geti_upd by lia. destruct (i =? k) eqn:Q.
      * replace i with k by lia. replace (k <? k + 1) with true by lia. rewrite E. reflexivity.
      * rewrite G by lia. replace (i <? k + 1) with (i <? k) by lia. reflexivity.
    + eexists. split; [reflexivity|]. split; [exact L|]. intros i Hi. rewrite G by lia. destruct (Z.eq_dec i k) as [->|]; [rewrite E, !andb_false_r; reflexivity|]. replace (i <? k + 1) with (i <? k) by lia. reflexivity.
  - exists d'. auto.
Qed.

(** the header of a well-formed file *)
Lemma header_ok : forall alloc file old f w h px, wbmp_file f w h px -> zlen f < 4294967295 ->
  exists p, 0 <= p /\ skipn (Z.to_nat p) f = px /\ ilLoadWbmpL alloc file old f =
  (if (w =? 0) || (h =? 0) then Ok (false, old, [IL_INVALID_FILE_HEADER]) else
   let! (ok, im, e) := ilInitImage alloc old w h 1 1 IL_LUMINANCE IL_UNSIGNED_BYTE None in
   if negb ok then Ok (false, im, e) else
   let im := with_Origin im IL_ORIGIN_UPPER_LEFT in
   if negb file then Ok (false, im, []) else
   match Data im with
   | None => UB
   | Some d =>
      let! (d, f) := loop 0 (Height im) (wbmp_row (Width im) ((8 - w mod 8) mod 8)) (d, bfile p px) in
      let! d := wbmp_white (SizeOfData im) d in
      Ok (true, with_Data im (Some d), [])
   end).
Proof.
  intros alloc file old f w h px (ew & eh & EF & (G1 & L1 & B1) & (G2 & L2 & B2)) LF. change (2 ^ 32) with 4294967296 in *. assert (LE : zlen f = 2 + zlen ew + zlen eh + zlen px) by (rewrite EF, !zlen_cons, !zlen_app; lia).
  destruct (groups_range _ _ _ G1) as (_ & P1); [lia|]. destruct (groups_range _ _ _ G2) as (_ & P2); [lia|]. assert (0 <= zlen px) by auto.
  exists (2 + zlen ew + zlen eh). split; [lia|]. assert (SK : skipn (Z.to_nat (2 + zlen ew + zlen eh)) f = px).
  { rewrite EF. change (0 :: 0 :: ew ++ eh ++ px) with ([0; 0] ++ ew ++ eh ++ px). rewrite !app_assoc, skipn_app. replace (Z.to_nat (2 + zlen ew + zlen eh)) with (length (([0; 0] ++ ew) ++ eh)) by (rewrite !app_length; unfold zlen; cbn [length]; lia).
    rewrite skipn_all, Nat.sub_diag. reflexivity. }
  split; [exact SK|].
  assert (Z0 : geti f 0 = 0) by (rewrite EF; reflexivity). assert (Z1 : geti f 1 = 0) by (rewrite EF; reflexivity).
  assert (S1 : slice f 2 (zlen ew) = ew).
  { apply list_ext; [rewrite zlen_slice; lia|]. intros i Hi. rewrite zlen_slice in Hi by lia. rewrite geti_slice by lia. rewrite EF. rewrite !geti_cons by lia. replace (2 + i =? 0) with false by lia. replace (2 + i - 1 =? 0) with false by lia.
    rewrite geti_app by lia. replace (2 + i - 1 - 1) with i by lia. replace (i <? zlen ew) with true by lia. reflexivity. }
  assert (S2 : slice f (2 + zlen ew) (zlen eh) = eh).
  { apply list_ext; [rewrite zlen_slice; lia|]. intros i Hi. rewrite zlen_slice in Hi by lia. rewrite geti_slice by lia. rewrite EF. rewrite !geti_cons by lia. replace (2 + zlen ew + i =? 0) with false by lia. replace (2 + zlen ew + i - 1 =? 0) with false by lia.
    rewrite geti_app by lia. replace (2 + zlen ew + i - 1 - 1 <? zlen ew) with false by lia. rewrite geti_app by lia. replace (2 + zlen ew + i - 1 - 1 - zlen ew) with i by lia. replace (i <? zlen eh) with true by lia. reflexivity. }
  unfold ilLoadWbmpL, iSetInputLump, iLoadWbmpInternal. rewrite getc_in by lia. cbn [bind]. rewrite Z0. change (negb (0 =? 0)) with false. cbv iota. rewrite getc_in by lia. cbn [bind]. change (0 + 1) with 1. rewrite Z1. change (negb (0 =? 0)) with false. cbv iota.
  unfold WbmpGetMultibyte. change (1 + 1) with 2. rewrite (get_multi_ok ew 0 w) by (auto; try lia; unfold zlen in L1; lia). cbn [bind]. rewrite (get_multi_ok eh 0 h) by (auto; try lia; unfold zlen in L2; lia). cbn [bind rpos rlump]. rewrite SK. reflexivity.
Qed.

(** C87: every well-formed file with enough rows becomes a luminance image, black and white, the
    top row first. *)
Theorem C87_decode_partial : forall alloc old f w h px, allocator_ok alloc -> wbmp_file f w h px -> 1 <= w -> 1 <= h -> w * h < 2 ^ 32 -> alloc (w * h) <> None -> zlen f < 4294967295 ->
  h * row_bytes w <= zlen px ->
  exists im buf, ilLoadWbmpL alloc true old f = Ok (true, im, []) /\ img_ok im buf /\ Width im = w /\ Height im = h /\ Depth im = 1 /\ Bpp im = 1 /\
    Format im = IL_LUMINANCE /\ Type_ im = IL_UNSIGNED_BYTE /\ Origin im = IL_ORIGIN_UPPER_LEFT /\
    forall x t, 0 <= x < w -> 0 <= t < h -> picture im buf x t 0 0 = 255 * px_bit px w x t.
Proof.
  intros alloc old f w h px HA HF Hw Hh Hs Hn LF LP. change (2 ^ 32) with 4294967296 in Hs. destruct (header_ok alloc true old f w h px HF LF) as (p & Hp & _ & ->).
  replace (w =? 0) with false by lia. replace (h =? 0) with false by lia. cbn [orb negb]. destruct (alloc (w * h)) as [blk|] eqn:EA; [|congruence].
  rewrite (init_ok alloc old w h 1 IL_LUMINANCE blk) by (auto; rewrite ?Z.mul_1_r; auto; lia). cbn [bind negb]. cbv zeta. cbn [Data with_Origin Height Width SizeOfData].
  assert (LB := HA _ _ EA). assert (w * 1 <= w * h) by (apply Z.mul_le_mono_nonneg_l; lia). destruct (rows_ok w h px blk p) as (d & f' & -> & L & _ & _ & G); auto; try lia. cbn [bind]. rewrite !Z.mul_1_r. destruct (white_ok (w * h) d) as (d' & -> & L' & G'); [lia|]. cbn [bind].
  eexists; exists d'. split; [reflexivity|]. split; [|repeat split; try reflexivity].
  { assert (0 < w * h) by (apply Z.mul_pos_pos; lia). unfold img_ok. cbn. repeat split; auto; lia. }
  intros x t Hx Ht. unfold picture, pix_off. cbn [with_Origin with_Data Origin Height Width Bpp Bpc]. change (IL_ORIGIN_UPPER_LEFT =? IL_ORIGIN_UPPER_LEFT) with true. cbv iota.
  replace (0 * (h * (w * (1 * 1))) + t * (w * (1 * 1)) + x * (1 * 1) + 0) with (w * t + x) by ring.
  assert (w * (t + 1) <= w * h) by (apply Z.mul_le_mono_nonneg_l; lia). assert (0 <= w * t) by (apply Z.mul_nonneg_nonneg; lia). rewrite G' by lia. rewrite G by lia. replace (w * t + x <? w * h) with true by lia. cbn [andb].
  assert (K : px_bit px w x t = 0 \/ px_bit px w x t = 1) by (unfold px_bit, bit; match goal with |- ?a mod 2 = 0 \/ _ => assert (0 <= a mod 2 < 2) by (apply Z.mod_pos_bound; lia); lia end).
  destruct K as [-> | ->]; reflexivity.
Qed.
Print Assumptions C87_decode_partial.

(** Loading from memory before any file has been opened fails for every file: the image has
    already been replaced by one whose pixels nobody has set. *)
Theorem C87_memory_refuted : forall alloc old f w h px blk, wbmp_file f w h px -> allocator_ok alloc -> 1 <= w -> 1 <= h -> w * h < 2 ^ 32 -> alloc (w * h) = Some blk -> zlen f < 4294967295 ->
  exists im, ilLoadWbmpL alloc false old f = Ok (false, im, []) /\ Width im = w /\ Height im = h /\ Data im = Some blk.
Proof.
  intros alloc old f w h px blk HF HA Hw Hh Hs EA LF. change (2 ^ 32) with 4294967296 in Hs. destruct (header_ok alloc false old f w h px HF LF) as (p & Hp & _ & ->).
  replace (w =? 0) with false by lia. replace (h =? 0) with false by lia. cbn [orb negb].
  rewrite (init_ok alloc old w h 1 IL_LUMINANCE blk) by (auto; rewrite ?Z.mul_1_r; auto; lia). cbn [bind negb]. cbv zeta. eexists. split; [reflexivity|]. auto.
Qed.
Print Assumptions C87_memory_refuted.

(** A file that ends behind its header is accepted: the pixels are what the memory held. *)
Theorem C87_truncated_refuted : forall alloc old f w blk, wbmp_file f w 1 [] -> allocator_ok alloc -> 1 <= w < 2 ^ 32 -> alloc w = Some blk -> zlen f < 4294967295 ->
  exists im buf, ilLoadWbmpL alloc true old f = Ok (true, im, []) /\ img_ok im buf /\ Width im = w /\ Height im = 1 /\
    forall x, 0 <= x < w -> picture im buf x 0 0 0 = if geti blk x =? 1 then 255 else geti blk x.
Proof.
  intros alloc old f w blk HF HA Hw EA LF. change (2 ^ 32) with 4294967296 in Hw. destruct (header_ok alloc true old f w 1 [] HF LF) as (p & Hp & _ & ->).
  replace (w =? 0) with false by lia. cbn [orb negb Z.eqb]. rewrite (init_ok alloc old w 1 1 IL_LUMINANCE blk) by (auto; rewrite ?Z.mul_1_r; auto; lia). cbn [bind negb]. cbv zeta. cbn [Data with_Origin Height Width SizeOfData].
  assert (LB := HA _ _ EA). destruct (stride_pad w) as (SP & PB); [lia|]. set (P := (8 - w mod 8) mod 8) in *.
  assert (E : exists f', loop 0 1 (wbmp_row w P) (blk, bfile p []) = Ok (blk, f')).
  { assert (E0 : loop 0 1 (wbmp_row w P) (blk, bfile p []) = let! s1 := wbmp_row w P 0 (blk, bfile p []) in Ok s1) by reflexivity. rewrite E0. clear E0. unfold wbmp_row, bread. rewrite Z.mul_1_l, u32_small by lia. replace (Z.to_nat w) with (S (Z.to_nat (w - 1))) by lia. cbn [bread_ refill bfile ByteBitOff rest Z.ltb Z.compare Pos.compare Pos.compare_cont orb].
    rewrite Z.mul_0_r. change (u32 0) with 0. change (zlen []) with 0. rewrite memcpy_ok by (try lia; change (zlen []) with 0; lia). cbn [bind]. rewrite Z.mul_1_l, u32_small by lia.
    destruct (bread_ (Z.to_nat P) _) as [l f'] eqn:EB. assert (BL : zlen l <= P).
    { apply bread_len in EB. lia. }
    replace (8 <? zlen l) with false by lia. exists f'. f_equal. f_equal. unfold splice, slice. cbn [Z.to_nat firstn skipn app]. reflexivity. }
  destruct E as (f' & ->). cbn [bind]. rewrite !Z.mul_1_r. destruct (white_ok w blk) as (d' & -> & L' & G'); [lia|]. cbn [bind].
  eexists; exists d'. split; [reflexivity|]. split; [|split; [reflexivity|split; [reflexivity|]]].
  { unfold img_ok. cbn. repeat split; auto; lia. }
  intros x Hx. unfold picture, pix_off. cbn [with_Origin with_Data Origin Height Width Bpp Bpc]. change (IL_ORIGIN_UPPER_LEFT =? IL_ORIGIN_UPPER_LEFT) with true. cbv iota.
  replace (0 * (1 * (w * (1 * 1))) + 0 * (w * (1 * 1)) + x * (1 * 1) + 0) with x by ring. rewrite G' by lia. replace (x <? w) with true by lia. reflexivity.
Qed.
Print Assumptions C87_truncated_refuted.

(** When width times height needs more than 32 bits and the file is complete, the rows are written
    outside of the image, whatever the file, the size and the allocator. *)
Theorem C87_size_refuted : forall alloc old f w h px, wbmp_file f w h px -> allocator_ok alloc -> alloc ((w * h) mod 2 ^ 32) <> None -> zlen f < 4294967295 ->
  1 <= w -> 1 <= h -> 2 ^ 32 <= w * h -> h * row_bytes w <= zlen px ->
  ilLoadWbmpL alloc true old f = UB.
Proof.
  intros alloc old f w h px HF HA EA LF Hw Hh Hs Lp. change (2 ^ 32) with 4294967296 in *. destruct (header_ok alloc true old f w h px HF LF) as (p & Hp & _ & ->).
  replace (w =? 0) with false by lia. replace (h =? 0) with false by lia. cbn [orb negb].
  assert (W32 : w < 4294967296) by (destruct HF as (ew & eh & _ & (_ & _ & B) & _); exact B).
  set (n := (w * h) mod 4294967296) in *. assert (Hn : 0 <= n < 4294967296) by (apply Z.mod_pos_bound; lia). destruct (alloc n) as [blk|] eqn:EB; [|congruence]. assert (LB := HA _ _ EB).
  unfold ilInitImage. change (ilGetBpcType IL_UNSIGNED_BYTE) with 1. change (1 =? 0) with false. cbv iota zeta. unfold nz1. replace (w =? 0) with false by lia. replace (h =? 0) with false by lia. change (1 =? 0) with false. cbv iota.
  rewrite !Z.mul_1_r. rewrite (u32_small w) by lia. change (u32 (w * h)) with n. rewrite (u32_small n) by lia. rewrite EB. cbn [bind negb]. cbn [Data with_Origin Height Width SizeOfData].
  assert (A := Z.div_mod n w ltac:(lia)). assert (B := Z.mod_pos_bound n w ltac:(lia)). set (k := n / w) in *. assert (K0 : 0 <= k) by (apply Z.div_pos; lia).
  assert (KH : k < h) by (apply Z.div_lt_upper_bound; lia). destruct (stride_pad w Hw) as (SP & PB). assert (R1 : 1 <= row_bytes w) by lia.
  assert (KR : (k + 1) * row_bytes w <= h * row_bytes w) by (apply Z.mul_le_mono_nonneg_r; lia). assert (KR0 : 0 <= k * row_bytes w) by (apply Z.mul_nonneg_nonneg; lia).
  destruct (rows_ok w k px blk p) as (d & f' & E & L & F & PE & _); try lia.
  rewrite (loop_split _ 0 k h) by lia. rewrite E. cbn [bind]. rewrite loop_first by lia. unfold wbmp_row at 1.
  destruct (bread_ok f' w F) as (f2 & E2 & F2 & P2); [lia|rewrite PE, zlen_skipn_, zlen_stream by (rewrite ?zlen_stream; lia); lia|]. rewrite E2.
  rewrite zlen_slice by (try lia; rewrite PE, zlen_skipn_, zlen_stream by (rewrite ?zlen_stream; lia); lia). rewrite u32_small by (assert (0 <= w * k) by (apply Z.mul_nonneg_nonneg; lia); lia).
  unfold memcpy. replace (inb (zlen d) (w * k) w) with false; [reflexivity|]. symmetry. unfold inb. lia.
Qed.
Print Assumptions C87_size_refuted.

Lemma rows_safe : forall w h d f, 1 <= w < 4294967296 -> 0 <= h -> w * h <= zlen d -> zlen d < 4294967296 ->
  exists d' f', loop 0 h (wbmp_row w ((8 - w mod 8) mod 8)) (d, f) = Ok (d', f') /\ zlen d' = zlen d.
Proof.
  intros w h d f Hw Hh Hs Hd. destruct (stride_pad w) as (_ & PB); [lia|].
  destruct (loop_rule _ (fun k (st : list Z * bitf) => zlen (fst st) = zlen d) 0 h (wbmp_row w ((8 - w mod 8) mod 8)) (d, f)) as ([d' f'] & E & L); auto.
  - intros k [d1 f1] Hk L. cbn [fst] in *. unfold wbmp_row, bread. destruct (bread_ (Z.to_nat (u32 (1 * w))) f1) as [l f2] eqn:E1. apply bread_len in E1. rewrite Z.mul_1_l, u32_small in E1 by lia.
    assert (W1 : w * k + w <= w * h) by (assert (w * (k + 1) <= w * h) by (apply Z.mul_le_mono_nonneg_l; lia); lia). assert (W0 : 0 <= w * k) by (apply Z.mul_nonneg_nonneg; lia). assert (0 <= zlen l) by auto.
    rewrite u32_small by lia. destruct (memcpy_spec d1 (w * k) l 0 (zlen l)) as (d2 & -> & L2 & _); try lia. cbn [bind].
    destruct (bread_ (Z.to_nat (u32 (1 * _))) f2) as [l2 f3] eqn:E2. apply bread_len in E2. rewrite Z.mul_1_l, u32_small in E2 by lia. replace (8 <? zlen l2) with false by lia. eexists. split; [reflexivity|]. cbn [fst]. lia.
  - exists d', f'. auto.
Qed.

Lemma get_on : forall mem r, 0 < zlen mem < 4294967295 -> on mem r -> exists c r', iGetcLump r = Ok (c, r') /\ on mem r'.
Proof.
  intros mem r Hm Hr. destruct (rstep_on mem GetcOp r Hm Hr I) as (a & r' & E & O). cbn [rstep] in E. destruct (iGetcLump r) as [[c r1]| |]; try discriminate. cbn [bind] in E. injection E as <- <-. eauto.
Qed.
Lemma multi_on : forall mem n acc r, 0 < zlen mem < 4294967295 -> on mem r -> 0 <= acc < 4294967296 -> exists v r', get_multi n acc r = Ok (v, r') /\ on mem r' /\ 0 <= v < 4294967296.
Proof.
  intros mem n. induction n as [|n IH]; intros acc r Hm Hr HA; cbn [get_multi]; [eauto|]. unfold getb. destruct (get_on mem r Hm Hr) as (c & r' & -> & O). cbn [bind].
  assert (R := u32_range (Z.lor (Z.shiftl acc 7) (Z.land (u8 c) 127))). destruct (_ =? 0); [eauto|apply IH; auto].
Qed.

(** C87: loading never leaves the memory of the lump or of the image, whatever the bytes and the
    allocator do, unless the announced size exceeds 32 bits. *)
Theorem C87_safe_partial : forall alloc file old f, allocator_ok alloc -> 0 < zlen f < 4294967295 ->
  (forall w h r r', WbmpGetMultibyte (Rd f 2 (zlen f) []) = Ok (w, r) -> WbmpGetMultibyte r = Ok (h, r') -> w * h < 2 ^ 32) ->
  exists b im e, ilLoadWbmpL alloc file old f = Ok (b, im, e) /\ (b = true -> exists buf, img_ok im buf).
Proof.
  intros alloc file old f HA LF HD. unfold ilLoadWbmpL, iLoadWbmpInternal, iSetInputLump.
  assert (O0 : on f (Rd f 0 (zlen f) [])) by (unfold on; cbn [rlump rpos rsize]; repeat split; lia). rewrite (C21_getc f) by auto. cbn [rpos rerr]. replace (0 <? zlen f) with true by lia. cbn [bind].
  destruct (geti f 0 =? 0) eqn:Z0; cbn [negb]; [|do 3 eexists; split; [reflexivity|discriminate]].
  assert (O1 : on f (Rd f (0 + 1) (zlen f) [])) by (unfold on; cbn [rlump rpos rsize]; repeat split; lia). rewrite (C21_getc f) by auto. cbn [rpos rerr]. change (0 + 1) with 1. destruct (1 <? zlen f) eqn:L1; cbn [bind].
  2:{ change (negb (IL_EOF =? 0)) with true. cbv iota. do 3 eexists; split; [reflexivity|discriminate]. }
  destruct (geti f 1 =? 0) eqn:Z1; cbn [negb]; [|do 3 eexists; split; [reflexivity|discriminate]]. change (1 + 1) with 2.
  assert (O2 : on f (Rd f 2 (zlen f) [])) by (unfold on; cbn [rlump rpos rsize]; repeat split; lia). unfold WbmpGetMultibyte in *.
  destruct (multi_on f 5 0 (Rd f 2 (zlen f) [])) as (w & r1 & E1 & O3 & W1); auto; [lia|]. rewrite E1. cbn [bind]. destruct (multi_on f 5 0 r1) as (h & r2 & E2 & O4 & H1); auto; [lia|]. rewrite E2. cbn [bind].
  specialize (HD w h r1 r2 E1 E2). change (2 ^ 32) with 4294967296 in HD. destruct ((w =? 0) || (h =? 0)) eqn:EZ; [do 3 eexists; split; [reflexivity|discriminate]|].
  assert (w * 1 <= w * h) by (apply Z.mul_le_mono_nonneg_l; lia).
  destruct (alloc (w * h)) as [blk|] eqn:EA.
  - rewrite (init_ok alloc old w h 1 IL_LUMINANCE blk) by (auto; rewrite ?Z.mul_1_r; auto; lia). cbn [bind negb]. cbv zeta. cbn [Data with_Origin Height Width SizeOfData]. destruct file; cbn [negb]; [|do 3 eexists; split; [reflexivity|discriminate]].
    assert (LB := HA _ _ EA). match goal with |- context [bfile ?a ?b] => set (bf := bfile a b) end. destruct (rows_safe w h blk bf) as (d & f' & -> & L); try lia. cbn [bind]. rewrite !Z.mul_1_r. destruct (white_ok (w * h) d) as (d' & -> & L' & G'); [lia|]. cbn [bind].
    do 3 eexists. split; [reflexivity|]. intros _. exists d'. unfold img_ok. cbn. repeat split; auto; lia.
  - unfold ilInitImage. change (ilGetBpcType IL_UNSIGNED_BYTE) with 1. change (1 =? 0) with false. cbv iota zeta. unfold nz1. replace (w =? 0) with false by lia. replace (h =? 0) with false by lia. change (1 =? 0) with false. cbv iota.
    rewrite !Z.mul_1_r. rewrite (u32_small w) by lia. rewrite (u32_small (w * h)) by lia. rewrite (u32_small (w * h)) by lia. rewrite EA. cbn [bind negb]. do 3 eexists; split; [reflexivity|discriminate].
Qed.
Print Assumptions C87_safe_partial.

(** ** Saving *)

Fixpoint digits (i : nat) (v : Z) : list Z :=
  match i with O => [] | S i => (if Nat.eqb i 0 then v / 128 ^ Z.of_nat i mod 128 else 128 + v / 128 ^ Z.of_nat i mod 128) :: digits i v end.
Lemma zlen_digits : forall i v, zlen (digits i v) = Z.of_nat i.
Proof. induction i; intros; cbn [digits]; [reflexivity|]. rewrite zlen_cons, IHi. lia. Qed.
Lemma run_multi : forall i v k f, 0 <= v -> zlen f + Z.of_nat i < 2147483647 -> run_file (put_multi i v k) f (zlen f) = run_file k (f ++ digits i v) (zlen (f ++ digits i v)).
Proof.
  induction i as [|i IH]; intros v k f Hv Hf; cbn [put_multi digits]; [rewrite app_nil_r; reflexivity|].
  assert (M : Z.land (Z.shiftr v (Z.of_nat i * 7)) 127 = v / 128 ^ Z.of_nat i mod 128).
  { change 127 with (2 ^ 7 - 1). rewrite land_mask by lia. rewrite Z.shiftr_div_pow2 by lia. rewrite Z.mul_comm, Z.pow_mul_r by lia. reflexivity. }
  assert (R : 0 <= v / 128 ^ Z.of_nat i mod 128 < 128) by (apply Z.mod_pos_bound; lia).
  rewrite run_putc by lia. rewrite IH by (rewrite ?zlen_app; change (zlen [_]) with 1; lia). rewrite <- app_assoc. cbn [app]. rewrite M.
  replace (Z.lor (v / 128 ^ Z.of_nat i mod 128) 128) with (128 + v / 128 ^ Z.of_nat i mod 128); [reflexivity|].
  rewrite Z.lor_comm. change 128 with (1 * 2 ^ 7) at 4. rewrite lor_add by (change (2 ^ 7) with 128; lia). reflexivity.
Qed.
Lemma groups_digits : forall i acc v, 0 <= v -> groups (digits (S i) v) acc (acc * 128 ^ (Z.of_nat i + 1) + v mod 128 ^ (Z.of_nat i + 1)).
Proof.
  induction i as [|i IH]; intros acc v Hv.
  - cbn [digits Nat.eqb]. change (128 ^ (Z.of_nat 0 + 1)) with 128. change (128 ^ Z.of_nat 0) with 1. rewrite Z.div_1_r. apply g_last. apply Z.mod_pos_bound. lia.
  - change (digits (S (S i)) v) with (128 + v / 128 ^ Z.of_nat (S i) mod 128 :: digits (S i) v). apply g_more; [apply Z.mod_pos_bound; lia|].
    set (q := v / 128 ^ Z.of_nat (S i) mod 128).
    replace (acc * 128 ^ (Z.of_nat (S i) + 1) + v mod 128 ^ (Z.of_nat (S i) + 1)) with ((acc * 128 + q) * 128 ^ (Z.of_nat i + 1) + v mod 128 ^ (Z.of_nat i + 1)); [apply IH; auto|].
    unfold q. replace (Z.of_nat (S i)) with (Z.of_nat i + 1) by lia. set (m := Z.of_nat i + 1). assert (0 <= m) by lia. assert (0 < 128 ^ m) by (apply Z.pow_pos_nonneg; lia).
    rewrite Z.pow_add_r by lia. change (128 ^ 1) with 128. rewrite (Z.rem_mul_r v (128 ^ m) 128) by lia. ring.
Qed.
Lemma num_bytes_ok : forall n v, 0 <= v < 128 ^ Z.of_nat n -> (1 <= n)%nat -> exists k, num_bytes n v = S k /\ (S k <= n)%nat /\ v < 128 ^ (Z.of_nat k + 1).
Proof.
  induction n as [|n IH]; intros v Hv Hn; [lia|]. cbn [num_bytes]. rewrite Z.shiftr_div_pow2 by lia. change (2 ^ 7) with 128. assert (A := Z.div_mod v 128 ltac:(lia)). assert (B := Z.mod_pos_bound v 128 ltac:(lia)). destruct (v / 128 =? 0) eqn:E.
  - exists O. change (128 ^ (Z.of_nat 0 + 1)) with 128. repeat split; lia.
  - assert (0 <= v / 128) by (apply Z.div_pos; lia). replace (Z.of_nat (S n)) with (Z.of_nat n + 1) in Hv by lia. rewrite Z.pow_add_r in Hv by lia. change (128 ^ 1) with 128 in Hv.
    destruct n as [|n]; [cbn in Hv; lia|]. destruct (IH (v / 128)) as (k & -> & K1 & K2); [split; [lia|apply Z.div_lt_upper_bound; lia]|lia|]. exists (S k). split; [reflexivity|]. split; [lia|].
    replace (Z.of_nat (S k) + 1) with (Z.of_nat k + 1 + 1) by lia. rewrite (Z.pow_add_r 128 (Z.of_nat k + 1) 1) by lia. change (128 ^ 1) with 128. lia.
Qed.

(** what WbmpPutMultibyte writes is read as the same number *)
Lemma put_number : forall v k f, 0 <= v < 4294967296 -> zlen f < 2147483640 -> exists e, number_of e v /\ run_file (WbmpPutMultibyte v k) f (zlen f) = run_file k (f ++ e) (zlen (f ++ e)).
Proof.
  intros v k f Hv Hf. unfold WbmpPutMultibyte. destruct (num_bytes_ok 5 v) as (n & -> & N5 & NV); [change (128 ^ Z.of_nat 5) with 34359738368; lia|lia|].
  exists (digits (S n) v). split.
  - split; [|split; [rewrite zlen_digits; lia|exact (proj2 Hv)]]. assert (G := groups_digits n 0 v ltac:(lia)). rewrite Z.mul_0_l, Z.add_0_l, Z.mod_small in G by lia. exact G.
  - apply run_multi; lia.
Qed.

Lemma bit_tb : forall b k, 0 <= k -> bit b k = Z.b2z (Z.testbit b k).
Proof. intros b k H. unfold bit. rewrite Z.testbit_spec' by lia. reflexivity. Qed.

Lemma byte_ok : forall n k d W i j Val next, Z.of_nat n + k = 8 -> 0 <= k -> 0 <= j -> 0 <= i -> j + 8 < 4294967296 -> W * i + W <= zlen d -> zlen d < 4294967296 -> 0 <= W ->
  exists v, wbmp_byte n k d W i j Val next = next v /\
    (forall r, 0 <= r < k -> Z.testbit v (7 - r) = Z.testbit Val (7 - r)) /\
    (forall r, k <= r < 8 -> j + r < W -> (forall r', k <= r' < 8 -> Z.testbit Val (7 - r') = false) -> Z.testbit v (7 - r) = (geti d (W * i + j + r) =? 1)).
Proof.
  induction n as [|n IH]; intros k d W i j Val next Hn Hk Hj Hi Hj32 HW Hd HW0; cbn [wbmp_byte].
  - exists Val. split; [reflexivity|]. split; [reflexivity|]. intros; lia.
  - assert (0 <= W * i) by (apply Z.mul_nonneg_nonneg; lia). rewrite (u32_small (j + k)) by lia. destruct (j + k <? W) eqn:E.
    + rewrite (u32_small (W * i + j + k)) by lia. rewrite at_ok by lia. set (t := geti d (W * i + j + k) =? 1). 
      destruct (IH (k + 1) d W i j (if t then Z.lor Val (Z.shiftr 128 k) else Val) next) as (v & -> & A & B); try lia. exists v. split; [reflexivity|].
      assert (S : forall r, 0 <= r < 8 -> Z.testbit (if t then Z.lor Val (Z.shiftr 128 k) else Val) (7 - r) = Z.testbit Val (7 - r) || (t && (r =? k))).
      { intros r Hr. destruct t; [|rewrite orb_false_r; reflexivity]. rewrite Z.lor_spec, Z.shiftr_spec by lia. f_equal. change 128 with (2 ^ 7). destruct (r =? k) eqn:Q.
        - replace (7 - r + k) with 7 by lia. apply Z.pow2_bits_true. lia.
        - apply Z.pow2_bits_false. lia. }
      split.
      * intros r Hr. rewrite A by lia. rewrite S by lia. replace (r =? k) with false by lia. rewrite andb_false_r, orb_false_r. reflexivity.
      * intros r Hr Hx H0. destruct (Z.eq_dec r k) as [->|N].
        -- rewrite A by lia. rewrite S by lia. rewrite H0 by lia. rewrite Z.eqb_refl, andb_true_r. reflexivity.
        -- apply B; try lia. intros r' Hr'. rewrite S by lia. rewrite H0 by lia. replace (r' =? k) with false by lia. rewrite andb_false_r. reflexivity.
    + destruct (IH (k + 1) d W i j Val next) as (v & -> & A & B); try lia. exists v. split; [reflexivity|]. split; [intros r Hr; apply A; lia|]. intros r Hr Hx H0. destruct (Z.eq_dec r k) as [->|N]; [lia|]. lia.
Qed.

Lemma line_ok : forall n d W i j k f, 0 <= j -> 0 <= i -> j + 8 * Z.of_nat n < 4294967296 -> W * i + W <= zlen d -> zlen d < 4294967296 -> 0 <= W -> zlen f + Z.of_nat n < 2147483647 ->
  exists p, run_file (wbmp_line n d W i j k) f (zlen f) = run_file k (f ++ p) (zlen (f ++ p)) /\ zlen p = Z.of_nat n /\
    forall q r, 0 <= q < Z.of_nat n -> 0 <= r < 8 -> j + 8 * q + r < W -> bit (geti p q) (7 - r) = if geti d (W * i + j + 8 * q + r) =? 1 then 1 else 0.
Proof.
  induction n as [|n IH]; intros d W i j k f Hj Hi Hj32 HW Hd HW0 Hf; cbn [wbmp_line].
  - exists []. rewrite app_nil_r. split; [reflexivity|]. split; [reflexivity|]. intros; lia.
  - match goal with |- context [wbmp_byte 8 0 d W i j 0 ?nx] => destruct (byte_ok 8 0 d W i j 0 nx) as (v & -> & _ & B); try lia end.
    rewrite run_putc by lia. destruct (IH d W i (j + 8) k (f ++ [v])) as (p & -> & L & G); try lia; [rewrite zlen_app; change (zlen [v]) with 1; lia|].
    exists (v :: p). rewrite <- app_assoc. split; [reflexivity|]. split; [rewrite zlen_cons; lia|]. intros q r Hq Hr Hx. rewrite geti_cons by lia. destruct (q =? 0) eqn:E.
    + replace q with 0 in * by lia. rewrite bit_tb by lia. rewrite B by (try lia; intros; apply Z.bits_0). replace (W * i + j + 8 * 0 + r) with (W * i + j + r) by lia. destruct (_ =? 1); reflexivity.
    + rewrite G by lia. replace (W * i + (j + 8) + 8 * (q - 1) + r) with (W * i + j + 8 * q + r) by lia. reflexivity.
Qed.

Lemma lines_ok : forall m d W i f, 0 <= i -> 1 <= W -> W * (i + Z.of_nat m) <= zlen d -> zlen d < 4294967296 -> W + 8 < 4294967296 -> zlen f + Z.of_nat m * row_bytes W < 2147483647 ->
  exists px, run_file (for_s m i (fun i k => wbmp_line (Z.to_nat ((W + 7) / 8)) d W i 0 k) Done) f (zlen f) = Some (f ++ px) /\ zlen px = Z.of_nat m * row_bytes W /\
    forall x y, 0 <= x < W -> 0 <= y < Z.of_nat m -> px_bit px W x y = if geti d (W * (i + y) + x) =? 1 then 1 else 0.
Proof.
  induction m as [|m IH]; intros d W i f Hi HW HD Hd H8 Hf; cbn [for_s].
  - exists []. rewrite app_nil_r. split; [reflexivity|]. split; [reflexivity|]. intros; lia.
  - fold (row_bytes W). destruct (stride_pad W HW) as (SP & PB). set (R := row_bytes W) in *. assert (0 <= R * Z.of_nat m) by (apply Z.mul_nonneg_nonneg; lia). assert (0 <= W * Z.of_nat m) by (apply Z.mul_nonneg_nonneg; lia).
    match goal with |- context [wbmp_line ?n d W i 0 ?kk] => destruct (line_ok n d W i 0 kk f) as (p & -> & L & G); try lia end. rewrite Z2Nat.id in L, G by lia.
    destruct (IH d W (i + 1) (f ++ p)) as (px & E & LP & GP); try lia; [rewrite zlen_app; fold R; lia|]. fold (row_bytes W) in E. fold R in E. rewrite E. exists (p ++ px). rewrite app_assoc. split; [reflexivity|]. fold R in LP.
    split; [rewrite zlen_app; lia|]. intros x y Hx Hy. unfold px_bit. fold R. assert (A := Z.div_mod x 8 ltac:(lia)). assert (B := Z.mod_pos_bound x 8 ltac:(lia)). assert (0 <= x / 8) by (apply Z.div_pos; lia). assert (x / 8 < R) by (apply Z.div_lt_upper_bound; lia).
    assert (0 <= y * R) by (apply Z.mul_nonneg_nonneg; lia). rewrite geti_app by lia. destruct (Z.eq_dec y 0) as [->|N].
    + replace (0 * R + x / 8 <? zlen p) with true by lia. rewrite Z.mul_0_l, Z.add_0_l. rewrite G by lia. replace (W * i + 0 + 8 * (x / 8) + x mod 8) with (W * (i + 0) + x) by lia. reflexivity.
    + assert (1 * R <= y * R) by (apply Z.mul_le_mono_nonneg_r; lia). replace (y * R + x / 8 <? zlen p) with false by lia. specialize (GP x (y - 1) Hx ltac:(lia)). unfold px_bit in GP. fold R in GP.
      replace (y * R + x / 8 - zlen p) with ((y - 1) * R + x / 8) by lia. rewrite GP. replace (i + 1 + (y - 1)) with (i + y) by lia. reflexivity.
Qed.

(** C88: what is saved for an image the quantiser turned into two colours is a well-formed file,
    and loading it shows the first slice: white where the pixel has colour 1, black elsewhere. *)
Theorem C88_roundtrip_partial : forall alloc quant im tm buf, allocator_ok alloc -> quant im = Some tm -> img_ok tm buf -> Bpp tm = 1 -> Bpc tm = 1 -> Width tm = Width im -> Height tm = Height im ->
  alloc (SizeOfData tm) <> None -> Width im + 8 < 2 ^ 32 -> Height im * row_bytes (Width im) < 2147483600 ->
  exists p f px, iSaveWbmpInternal alloc quant im = Ok (true, p) /\ file_of p = Some f /\ wbmp_file f (Width im) (Height im) px /\ zlen px = Height im * row_bytes (Width im) /\
    forall alloc' old, allocator_ok alloc' -> alloc' (Width im * Height im) <> None ->
    exists im' buf', ilLoadWbmpL alloc' true old f = Ok (true, im', []) /\ img_ok im' buf' /\ Width im' = Width im /\ Height im' = Height im /\ Depth im' = 1 /\ Bpp im' = 1 /\
      forall x t, 0 <= x < Width im -> 0 <= t < Height im -> picture im' buf' x t 0 0 = if picture tm buf x t 0 0 =? 1 then 255 else 0.
Proof.
  intros alloc quant im tm buf HA HQ Hok HB HC EW EH Hn H8 Hs. change (2 ^ 32) with 4294967296 in *. destruct (upper_data alloc tm buf Hok HA Hn) as (td & ET & LT & _ & GT & _).
  unfold iSaveWbmpInternal. rewrite HQ, ET. cbn [bind]. rewrite EW, EH. assert (Hok' := Hok). destruct Hok' as (_ & W & H & D & _ & _ & E1 & E2 & E3 & E4 & E5). rewrite HB, HC, EW in *. rewrite EH in *. set (w := Width im) in *. set (h := Height im) in *. change (2 ^ 32) with 4294967296 in *.
  assert (SD : SizeOfData tm = w * h * Depth tm) by (rewrite E3, E2, E1; ring). assert (P0 : 0 < w * h) by (apply Z.mul_pos_pos; lia). assert (P1 : w * h * 1 <= w * h * Depth tm) by (apply Z.mul_le_mono_nonneg_l; lia). assert (w * 1 <= w * h) by (apply Z.mul_le_mono_nonneg_l; lia). assert (1 * h <= w * h) by (apply Z.mul_le_mono_nonneg_r; lia).
  match goal with |- context [Ok (true, Putc 0 ?k)] => set (K := k) end.
  unfold file_of. destruct (put_number w (WbmpPutMultibyte h (for_s (Z.to_nat h) 0 (fun i k => wbmp_line (Z.to_nat ((w + 7) / 8)) td w i 0 k) Done)) ([0] ++ [0])) as (ew & NW & RW); [lia|reflexivity|].
  destruct (put_number h (for_s (Z.to_nat h) 0 (fun i k => wbmp_line (Z.to_nat ((w + 7) / 8)) td w i 0 k) Done) (([0] ++ [0]) ++ ew)) as (eh & NH & RH); [lia|destruct NW as (_ & X & _); rewrite zlen_app; change (zlen ([0] ++ [0])) with 2; lia|].
  destruct (lines_ok (Z.to_nat h) td w 0 ((([0] ++ [0]) ++ ew) ++ eh)) as (px & RP & LP & GP); try lia.
  { rewrite Z2Nat.id by lia. destruct NW as (_ & X & _). destruct NH as (_ & Y & _). rewrite !zlen_app. change (zlen [0]) with 1. lia. }
  rewrite Z2Nat.id in LP, GP by lia. exists (Putc 0 K), (((([0] ++ [0]) ++ ew) ++ eh) ++ px), px. split; [reflexivity|].
  split. { change 0 with (zlen (@nil Z)) at 2. unfold K. rewrite run_putc by reflexivity. rewrite run_putc by reflexivity. cbn [app] in *. rewrite RW, RH. exact RP. }
  assert (WF : wbmp_file (((([0] ++ [0]) ++ ew) ++ eh) ++ px) w h px) by (exists ew, eh; split; [rewrite <- !app_assoc; reflexivity|auto]).
  split; [exact WF|]. split; [exact LP|]. intros alloc' old HA' Hn'.
  destruct (C87_decode_partial alloc' old (((([0] ++ [0]) ++ ew) ++ eh) ++ px) w h px HA' WF) as (im' & buf' & L1 & L2 & L3 & L4 & L5 & L6 & _ & _ & _ & L7); auto; try (change (2 ^ 32) with 4294967296; lia); try lia.
  { destruct NW as (_ & X & _). destruct NH as (_ & Y & _). rewrite !zlen_app. change (zlen [0]) with 1. lia. }
  exists im', buf'. repeat (split; [assumption|]). intros x t Hx Ht. rewrite L7 by auto. rewrite GP by auto. rewrite Z.add_0_l.
  assert (G := GT x t 0 0). unfold in_image in G. rewrite HB, HC, EW, EH in G. fold w h in G. specialize (G ltac:(lia)). rewrite <- G. unfold pix_off. rewrite HB, HC, EW, EH. fold w h.
  replace (0 * (h * (w * (1 * 1))) + t * (w * (1 * 1)) + x * (1 * 1) + 0) with (w * t + x) by ring. destruct (_ =? 1); reflexivity.
Qed.
Print Assumptions C88_roundtrip_partial.

Example C87_ex : wbmp_file [0; 0; 129; 0; 1; 128; 0; 0; 0; 0; 0; 0; 0; 0; 0; 0; 0; 0; 0; 0; 1] 128 1 [128; 0; 0; 0; 0; 0; 0; 0; 0; 0; 0; 0; 0; 0; 0; 1] /\ px_bit [128; 0; 0; 0; 0; 0; 0; 0; 0; 0; 0; 0; 0; 0; 0; 1] 128 0 0 = 1 /\
  wbmp_file [0; 0; 5; 1] 5 1 [].
Proof.
  split; [|split; [reflexivity|]].
  - exists [129; 0], [1]. split; [reflexivity|]. split.
    + split; [|split; [vm_compute; discriminate|reflexivity]]. change 129 with (128 + 1). apply g_more; [lia|]. apply (g_last 0 1). lia.
    + split; [|split; [vm_compute; discriminate|reflexivity]]. apply (g_last 1 0). lia.
  - exists [5], [1]. split; [reflexivity|]. split; (split; [|split; [vm_compute; discriminate|reflexivity]]); [apply (g_last 5 0)|apply (g_last 1 0)]; lia.
Qed.
(* a file of 65536 times 65536 pixels *)
Example C87_ex_big : exists f, wbmp_file f 65536 65536 (repeat 0 (Z.to_nat (65536 * row_bytes 65536))) /\ (65536 * 65536) mod 2 ^ 32 = 0.
Proof.
  exists (0 :: 0 :: [132; 128; 0] ++ [132; 128; 0] ++ repeat 0 (Z.to_nat (65536 * row_bytes 65536))). split; [|reflexivity]. exists [132; 128; 0], [132; 128; 0]. split; [reflexivity|].
  assert (N : number_of [132; 128; 0] 65536).
  { split; [|split; [vm_compute; discriminate|reflexivity]]. change 132 with (128 + 4). apply g_more; [lia|]. apply (g_more 0 [0]); [lia|]. apply (g_last 0 512). lia. }
  auto.
Qed.
Example C88_ex : let tm := mkImg 9 1 1 1 1 9 (Some [1; 0; 0; 1; 1; 0; 0; 0; 1]) 9 9 IL_COLOUR_INDEX IL_UNSIGNED_BYTE IL_ORIGIN_LOWER_LEFT (mkPal None 0 IL_PAL_NONE) 0 0 0 0 in
  img_ok tm [1; 0; 0; 1; 1; 0; 0; 0; 1] /\
  match iSaveWbmpInternal (fun n => Some (repeat 0 (Z.to_nat n))) (fun im => Some im) tm with Ok (true, p) => file_of p = Some [0; 0; 9; 1; 152; 128] | _ => False end.
Proof. split; [unfold img_ok; cbn; repeat split; auto; lia|vm_compute; reflexivity]. Qed.
