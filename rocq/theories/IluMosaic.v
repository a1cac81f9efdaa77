(** Mosaic of images of bytes (C82): every block becomes its average. *)
From Coq Require Import ZArith List Lia Bool QArith.
From Verif Require Import Base Slices Enums Utility Image ImageSpec Elem Channels ChannelsSpec ChannelsProofs ChannelsProps Endian Float Flip Pixels Scatter PixelsProofs PixelsProps Ilu IluCrop IluProps Ilu2 IluScale IluRotate IluFilter.
Import ListNotations.
Open Scope Z_scope.

(** [f 0 + ... + f (n - 1)] *)
Fixpoint sum_ (n : nat) (f : Z -> Z) : Z := match n with O => 0 | S k => sum_ k f + f (Z.of_nat k) end.
Definition sum (n : Z) (f : Z -> Z) : Z := sum_ (Z.to_nat n) f.

Lemma sum_step : forall n f, 0 <= n -> sum (n + 1) f = sum n f + f n.
Proof. intros n f Hn. unfold sum. replace (Z.to_nat (n + 1)) with (S (Z.to_nat n)) by lia. cbn [sum_]. rewrite Z2Nat.id by lia. reflexivity. Qed.
Lemma sum_0 : forall f, sum 0 f = 0.
Proof. reflexivity. Qed.
Lemma sum_const : forall n v, 0 <= n -> sum n (fun _ => v) = n * v.
Proof. intros n v Hn. pattern n. apply natlike_ind; auto. intros k Hk IH. unfold Z.succ. rewrite sum_step, IH by lia. ring. Qed.
Lemma sum_bound : forall n f M, 0 <= n -> (forall i, 0 <= i < n -> 0 <= f i <= M) -> 0 <= sum n f <= n * M.
Proof.
  intros n f M Hn. pattern n. apply natlike_ind; auto. - intros _. rewrite sum_0. lia.
  - intros k Hk IH Hf. unfold Z.succ in *. rewrite sum_step by lia. assert (A := IH ltac:(intros; apply Hf; lia)). assert (B := Hf k ltac:(lia)). lia.
Qed.
Lemma sum_ext : forall n f g, 0 <= n -> (forall i, 0 <= i < n -> f i = g i) -> sum n f = sum n g.
Proof. intros n f g Hn. pattern n. apply natlike_ind; auto. intros k Hk IH Hf. unfold Z.succ in *. rewrite !sum_step by lia. rewrite IH, Hf by (intros; try apply Hf; lia). reflexivity. Qed.

(** ** Spec: the block of a coordinate begins at the multiple of [P] below it and ends at [P] further or at [N] *)
Definition from (P v : Z) : Z := P * (v / P).
Definition size (P N v : Z) : Z := Z.min P (N - from P v).
(** value of a channel *)
Definition value (im : img) (d : list Z) (x y z c : Z) : Z := geti (chan_at im d x y z c) 0.
Definition average (im : img) (d : list Z) (P x y z c : Z) : Z :=
  sum (size P (Depth im) z) (fun k => sum (size P (Height im) y) (fun j => sum (size P (Width im) x) (fun i =>
    value im d (from P x + i) (from P y + j) (from P z + k) c))) / (size P (Depth im) z * size P (Height im) y * size P (Width im) x).

(** ** Loops *)
Lemma stride_rule : forall S (I : Z -> S -> Prop) hi st (body : Z -> S -> res S) s, 0 < st -> 0 <= hi -> hi + st <= 4294967296 -> I 0 s ->
  (forall k s, 0 <= k -> k * st < hi -> I k s -> exists s', body (k * st) s = Ok s' /\ I (k + 1) s') ->
  exists n s', stride 0 hi st body s = Ok s' /\ hi <= n * st /\ I n s'.
Proof.
  intros S I hi st body s Hst Hhi Hw H0 HS. unfold stride.
  assert (G : forall f k s, 0 <= k -> hi <= k * st + Z.of_nat f -> k * st < hi + st -> I k s -> exists n s', stride_ f hi st body (k * st) s = Ok s' /\ hi <= n * st /\ I n s').
  { induction f as [|f IH]; intros k t Hk Hf Hlt It; cbn [stride_].
    - replace (k * st <? hi) with false by lia. exists k, t. split; [reflexivity|]. split; [lia|auto].
    - destruct (k * st <? hi) eqn:Q; [|exists k, t; split; [reflexivity|]; split; [lia|auto]].
      destruct (HS k t Hk ltac:(lia) It) as (t' & -> & It'). cbn [bind]. assert (0 <= k * st) by (apply Z.mul_nonneg_nonneg; lia). rewrite u32_small by lia.
      replace (k * st + st) with ((k + 1) * st) by ring. apply IH; auto; lia. }
  apply (G (Z.to_nat hi) 0 s); auto; lia.
Qed.

Lemma acc_loop : forall n (f g : Z -> Z) body T C, 0 <= n -> 0 <= T < 4294967296 -> 0 <= C < 4294967296 ->
  (forall i T C, 0 <= i < n -> 0 <= T < 4294967296 -> 0 <= C < 4294967296 -> body i (T, C) = Ok (u32 (T + f i), u32 (C + g i))) ->
  loop 0 n body (T, C) = Ok (u32 (T + sum n f), u32 (C + sum n g)).
Proof.
  intros n f g body T C Hn HT HC Hb.
  destruct (loop_rule _ (fun k s => s = (u32 (T + sum k f), u32 (C + sum k g))) 0 n body (T, C)) as (s & E & Es); [lia| | |congruence].
  - rewrite !sum_0, !Z.add_0_r, !u32_small by lia. reflexivity.
  - intros k s Hk ->. eexists. split; [apply Hb; [lia|apply u32_range|apply u32_range]|]. rewrite !sum_step by lia. unfold u32. f_equal.
    + rewrite Zplus_mod_idemp_l. f_equal. ring.
    + rewrite Zplus_mod_idemp_l. f_equal. ring.
Qed.

Section Mosaic.
Variables (im : img) (buf : list Z) (P : Z).
Hypothesis Hok : img_ok im buf.
Hypothesis Hby : bytes buf.
Hypothesis Hn : Bpc im = 1.
Hypothesis HP : 1 <= P.
Hypothesis HP255 : 255 * (P * P * P) < 4294967296.

Let W := Width im. Let H := Height im. Let D := Depth im. Let B := Bpp im.
Definition enc (z y x c : Z) : Z := ((z * H + y) * W + x) * B + c.
Definition cc (j : Z) := j mod B.
Definition cx (j : Z) := j / B mod W.
Definition cy (j : Z) := j / B / W mod H.
Definition cz (j : Z) := j / B / W / H.
Definition inside (z y x c : Z) : Prop := 0 <= z < D /\ 0 <= y < H /\ 0 <= x < W /\ 0 <= c < B.

Lemma facts : Data im = Some buf /\ 1 <= W /\ 1 <= H /\ 1 <= D /\ 1 <= B < 256 /\ zlen buf = D * H * W * B /\ zlen buf < 4294967296 /\ Bps im / Bpc im = W * B /\ SizeOfPlane im = H * W * B.
Proof.
  assert (Hok' := Hok). destruct Hok' as (HDt & HW & HH & HD & Hbpp & Hbpc & Hbps & Hpl & Hsz & H32 & Hlen). change (2 ^ 32) with 4294967296 in *. unfold W, H, D, B.
  repeat split; auto; try lia; try (rewrite Hbps, Hn, Z.div_1_r; ring); rewrite Hpl, Hbps, Hn; ring.
Qed.

Lemma enc_in : forall z y x c, inside z y x c -> 0 <= enc z y x c < zlen buf.
Proof. intros z y x c (Hz & Hy & Hx & Hc). destruct facts as (_ & _ & _ & _ & _ & -> & _). apply elem_in; auto. Qed.
Lemma dec_in : forall j, 0 <= j < zlen buf -> inside (cz j) (cy j) (cx j) (cc j) /\ j = enc (cz j) (cy j) (cx j) (cc j).
Proof.
  intros j Hj. destruct facts as (_ & HW & HH & HD & HB & L & _). rewrite L in Hj. destruct (elem_split D H W B j) as (A1 & A2 & A3 & A4 & A5); try lia.
  unfold inside, enc, cz, cy, cx, cc. repeat split; try apply A1; try apply A2; try apply A3; try apply A4. exact A5.
Qed.
Lemma dec_enc : forall z y x c, inside z y x c -> cz (enc z y x c) = z /\ cy (enc z y x c) = y /\ cx (enc z y x c) = x /\ cc (enc z y x c) = c.
Proof.
  intros z y x c (Hz & Hy & Hx & Hc). unfold cz, cy, cx, cc, enc. destruct (dm ((z * H + y) * W + x) B c Hc) as (-> & ->).
  destruct (dm (z * H + y) W x Hx) as (-> & ->). destruct (dm z H y Hy) as (-> & ->). auto.
Qed.

Definition avg (j : Z) : Z := average im buf P (cx j) (cy j) (cz j) (cc j).
(** some of the elements are replaced *)
Definition upto (done : Z -> bool) (d : list Z) : Prop := zlen d = zlen buf /\ forall j, 0 <= j < zlen buf -> geti d j = if done j then avg j else geti buf j.

Lemma value_enc : forall d x y z c, value im d x y z c = geti (slice d (enc z y x c) 1) 0.
Proof. intros. unfold value, chan_at, pix_off, enc, W, H, B. rewrite Hn. f_equal. f_equal. ring. Qed.

(** one row, plane or box of writes *)
Lemma fill_loop : forall N (sel : Z -> bool) (at_ : Z -> Z) (lo v : Z) body d, 0 <= N ->
  zlen d = zlen buf ->
  (forall i d, 0 <= i < N -> zlen d = zlen buf -> exists d', body i d = Ok d' /\ zlen d' = zlen buf /\
     forall j, 0 <= j < zlen buf -> geti d' j = if sel j && (at_ j =? lo + i) then v else geti d j) ->
  exists d', loop 0 N body d = Ok d' /\ zlen d' = zlen buf /\
    forall j, 0 <= j < zlen buf -> geti d' j = if sel j && ((lo <=? at_ j) && (at_ j <? lo + N)) then v else geti d j.
Proof.
  intros N sel at_ lo v body d HN Hl Hb.
  destruct (loop_rule _ (fun k d' => zlen d' = zlen buf /\ forall j, 0 <= j < zlen buf -> geti d' j = if sel j && ((lo <=? at_ j) && (at_ j <? lo + k)) then v else geti d j) 0 N body d) as (d' & E & L & A); [lia| | |exists d'; auto].
  - split; [exact Hl|]. intros j Hj. replace ((lo <=? at_ j) && (at_ j <? lo + 0)) with false by lia. rewrite andb_false_r. reflexivity.
  - intros k d1 Hk (L & A). destruct (Hb k d1 Hk L) as (d2 & E & L2 & A2). exists d2. split; [exact E|]. split; [exact L2|].
    intros j Hj. rewrite A2, A by auto. destruct (sel j); cbn [andb]; [|reflexivity].
    destruct (at_ j =? lo + k) eqn:Q; [replace ((lo <=? at_ j) && (at_ j <? lo + (k + 1))) with true by lia; reflexivity|].
    replace ((lo <=? at_ j) && (at_ j <? lo + (k + 1))) with ((lo <=? at_ j) && (at_ j <? lo + k)) by lia. reflexivity.
Qed.

Lemma off_enc : forall z y x c, inside z y x c -> u32 (z * SizeOfPlane im + y * (Bps im / Bpc im) + x * B + c) = enc z y x c.
Proof.
  intros z y x c Hi. assert (E := enc_in z y x c Hi). destruct facts as (_ & _ & _ & _ & _ & _ & L & -> & ->).
  replace (z * (H * W * B) + y * (W * B) + x * B + c) with (enc z y x c) by (unfold enc; ring). apply u32_small. lia.
Qed.

Lemma write_one : forall d z y x c v, inside z y x c -> zlen d = zlen buf ->
  wre d 1 (enc z y x c) (le 1 v) = Ok (upd d (enc z y x c) (v mod 256)).
Proof.
  intros d z y x c v Hi L. assert (E := enc_in z y x c Hi). rewrite wre_ok; [|lia|lia|reflexivity]. rewrite Z.mul_1_r. reflexivity.
Qed.

(** the block of (z0, y0, x0), channel c: the sum *)
Definition total (z0 y0 x0 c : Z) : Z :=
  sum (Z.min P (D - z0)) (fun k => sum (Z.min P (H - y0)) (fun j => sum (Z.min P (W - x0)) (fun i => geti buf (enc (z0 + k) (y0 + j) (x0 + i) c)))).
Definition cells (z0 y0 x0 : Z) : Z := Z.min P (D - z0) * Z.min P (H - y0) * Z.min P (W - x0).
Definition same_block (z0 y0 x0 c j : Z) : bool :=
  (z0 <=? cz j) && (cz j <? z0 + P) && ((y0 <=? cy j) && (cy j <? y0 + P)) && ((x0 <=? cx j) && (cx j <? x0 + P)) && (cc j =? c).

Lemma byte_at : forall j, 0 <= geti buf j < 256.
Proof.
  intros j. assert (F := proj1 (bytes_Forall buf) Hby). unfold geti. destruct (nth_in_or_default (Z.to_nat j) buf 0) as [I| ->]; [|lia].
  rewrite Forall_forall in F. apply F. exact I.
Qed.

Lemma total_range : forall z0 y0 x0 c, 0 <= z0 < D -> 0 <= y0 < H -> 0 <= x0 < W ->
  0 <= total z0 y0 x0 c <= cells z0 y0 x0 * 255 /\ 1 <= cells z0 y0 x0 <= P * P * P.
Proof.
  intros z0 y0 x0 c Hz Hy Hx. unfold total, cells. set (a := Z.min P (D - z0)). set (b := Z.min P (H - y0)). set (e := Z.min P (W - x0)).
  assert (1 <= a <= P /\ 1 <= b <= P /\ 1 <= e <= P) as (Ha & Hb & He) by lia. split.
  - replace (a * b * e * 255) with (a * (b * (e * 255))) by ring. apply sum_bound; [lia|]. intros k Hk. apply sum_bound; [lia|]. intros j Hj. apply sum_bound; [lia|]. intros i Hi. assert (G := byte_at (enc (z0 + k) (y0 + j) (x0 + i) c)). lia.
  - assert (1 <= a * b <= P * P) by (clear - Ha Hb; nia). assert (1 <= a * b * e <= P * P * P) by (clear - H0 He HP; nia). lia.
Qed.

Lemma sum_ok : forall d z0 y0 x0 c, 0 <= z0 < D -> 0 <= y0 < H -> 0 <= x0 < W -> 0 <= c < B -> zlen d = zlen buf ->
  (forall j, 0 <= j < zlen buf -> same_block z0 y0 x0 c j = true -> geti d j = geti buf j) ->
  block_sum im d 1 (Bps im / Bpc im) P z0 y0 x0 c = Ok (total z0 y0 x0 c, cells z0 y0 x0).
Proof.
  intros d z0 y0 x0 c Hz Hy Hx Hc L Hd. unfold block_sum. fold D H W B.
  destruct (total_range z0 y0 x0 c Hz Hy Hx) as (T1 & T2). assert (cells z0 y0 x0 * 255 < 4294967296) by lia.
  rewrite (acc_loop _ (fun k => sum (Z.min P (H - y0)) (fun j => sum (Z.min P (W - x0)) (fun i => geti buf (enc (z0 + k) (y0 + j) (x0 + i) c)))) (fun _ => Z.min P (H - y0) * Z.min P (W - x0))); try lia.
  - rewrite !Z.add_0_l. rewrite sum_const by lia. fold (total z0 y0 x0 c). rewrite Z.mul_assoc. fold (cells z0 y0 x0). rewrite !u32_small by lia. reflexivity.
  - intros k T C Hk HT HC. rewrite (acc_loop _ (fun j => sum (Z.min P (W - x0)) (fun i => geti buf (enc (z0 + k) (y0 + j) (x0 + i) c))) (fun _ => Z.min P (W - x0))); try lia; [rewrite sum_const by lia; reflexivity|].
    intros j T' C' Hj HT' HC'. rewrite (acc_loop _ (fun i => geti buf (enc (z0 + k) (y0 + j) (x0 + i) c)) (fun _ => 1)); try lia; [rewrite sum_const, Z.mul_1_r by lia; reflexivity|].
    intros i T2' C2' Hi _ _. assert (IN : inside (z0 + k) (y0 + j) (x0 + i) c) by (unfold inside; lia). assert (E := enc_in _ _ _ _ IN).
    rewrite off_enc by exact IN. rewrite rde_ok by lia. cbn [bind]. rewrite Z.mul_1_r, slice_1 by lia. cbn [unle]. rewrite Hd; [f_equal; f_equal; f_equal; lia|exact E|].
    unfold same_block. destruct (dec_enc _ _ _ _ IN) as (-> & -> & -> & ->). lia.
Qed.

Lemma write_ok : forall d z0 y0 x0 c v, 0 <= z0 < D -> 0 <= y0 < H -> 0 <= x0 < W -> 0 <= c < B -> zlen d = zlen buf -> 0 <= v < 256 ->
  exists d', loop 0 (Z.min P (D - z0)) (fun k => loop 0 (Z.min P (H - y0)) (fun j => loop 0 (Z.min P (W - x0)) (fun i d =>
      let! m := if 1 =? 1 then Ok 1 else rdmask None 0 in
      if m =? 0 then Ok d else wre d 1 (u32 ((z0 + k) * SizeOfPlane im + (y0 + j) * (Bps im / Bpc im) + (x0 + i) * B + c)) (le 1 v)))) d = Ok d' /\
    zlen d' = zlen buf /\ forall j, 0 <= j < zlen buf -> geti d' j = if same_block z0 y0 x0 c j then v else geti d j.
Proof.
  intros d z0 y0 x0 c v Hz Hy Hx Hc L Hv.
  destruct (fill_loop (Z.min P (D - z0)) (fun j => ((y0 <=? cy j) && (cy j <? y0 + Z.min P (H - y0))) && ((x0 <=? cx j) && (cx j <? x0 + Z.min P (W - x0))) && (cc j =? c)) cz z0 v
    (fun k => loop 0 (Z.min P (H - y0)) (fun j => loop 0 (Z.min P (W - x0)) (fun i d =>
      let! m := if 1 =? 1 then Ok 1 else rdmask None 0 in
      if m =? 0 then Ok d else wre d 1 (u32 ((z0 + k) * SizeOfPlane im + (y0 + j) * (Bps im / Bpc im) + (x0 + i) * B + c)) (le 1 v)))) d) as (d' & E & L' & A); try lia; auto.
  - intros k d1 Hk L1. destruct (fill_loop (Z.min P (H - y0)) (fun j => ((x0 <=? cx j) && (cx j <? x0 + Z.min P (W - x0))) && (cc j =? c) && (cz j =? z0 + k)) cy y0 v
      (fun j => loop 0 (Z.min P (W - x0)) (fun i d =>
      let! m := if 1 =? 1 then Ok 1 else rdmask None 0 in
      if m =? 0 then Ok d else wre d 1 (u32 ((z0 + k) * SizeOfPlane im + (y0 + j) * (Bps im / Bpc im) + (x0 + i) * B + c)) (le 1 v))) d1) as (d' & E & L' & A); try lia; auto.
    + intros j d2 Hj L2. destruct (fill_loop (Z.min P (W - x0)) (fun j' => (cc j' =? c) && (cz j' =? z0 + k) && (cy j' =? y0 + j)) cx x0 v
        (fun i d => let! m := if 1 =? 1 then Ok 1 else rdmask None 0 in
          if m =? 0 then Ok d else wre d 1 (u32 ((z0 + k) * SizeOfPlane im + (y0 + j) * (Bps im / Bpc im) + (x0 + i) * B + c)) (le 1 v)) d2) as (d' & E & L' & A); try lia; auto.
      * intros i d3 Hi L3. assert (IN : inside (z0 + k) (y0 + j) (x0 + i) c) by (unfold inside; lia). assert (E := enc_in _ _ _ _ IN).
        cbn [Z.eqb Pos.eqb bind]. rewrite off_enc by exact IN. rewrite write_one by auto. eexists. split; [reflexivity|]. split; [rewrite zlen_upd by lia; exact L3|].
        intros j' Hj'. rewrite geti_upd by lia. destruct (dec_enc _ _ _ _ IN) as (Q1 & Q2 & Q3 & Q4). destruct (dec_in j' Hj') as (_ & EJ).
        rewrite Z.mod_small by lia.
        destruct ((cc j' =? c) && (cz j' =? z0 + k) && (cy j' =? y0 + j) && (cx j' =? x0 + i)) eqn:S.
        -- assert (cc j' = c /\ cz j' = z0 + k /\ cy j' = y0 + j /\ cx j' = x0 + i) as (R1 & R2 & R3 & R4) by lia. rewrite R1, R2, R3, R4 in EJ. replace (j' =? enc (z0 + k) (y0 + j) (x0 + i) c) with true by lia. reflexivity.
        -- destruct (j' =? enc (z0 + k) (y0 + j) (x0 + i) c) eqn:QQ; [|reflexivity]. exfalso. assert (j' = enc (z0 + k) (y0 + j) (x0 + i) c) by lia. subst j'. rewrite Q1, Q2, Q3, Q4 in S. lia.
      * exists d'. split; [exact E|]. split; [exact L'|]. intros j' Hj'. rewrite A by auto. match goal with |- (if ?a then _ else _) = (if ?b then _ else _) => replace a with b by lia end. reflexivity.
    + exists d'. split; [exact E|]. split; [exact L'|]. intros j' Hj'. rewrite A by auto. match goal with |- (if ?a then _ else _) = (if ?b then _ else _) => replace a with b by lia end. reflexivity.
  - exists d'. split; [exact E|]. split; [exact L'|]. intros j Hj. rewrite A by auto. destruct (dec_in j Hj) as ((I1 & I2 & I3 & I4) & _).
    unfold same_block. match goal with |- (if ?a then _ else _) = (if ?b then _ else _) => replace a with b by lia end. reflexivity.
Qed.

Lemma from_mul : forall k v, k * P <= v < k * P + P -> from P v = k * P.
Proof. intros k v Hv. unfold from. replace (v / P) with k; [ring|]. apply Z.div_unique with (v - P * k); lia. Qed.

Lemma avg_block : forall kz ky kx c j, 0 <= kz * P -> 0 <= ky * P -> 0 <= kx * P -> 0 <= j < zlen buf -> same_block (kz * P) (ky * P) (kx * P) c j = true ->
  avg j = total (kz * P) (ky * P) (kx * P) c / cells (kz * P) (ky * P) (kx * P).
Proof.
  intros kz ky kx c j Gz Gy Gx Hj S. destruct (dec_in j Hj) as ((I1 & I2 & I3 & I4) & _). unfold same_block in S. unfold avg, average, size. fold D H W.
  assert (EC : cc j = c) by lia. rewrite (from_mul kz), (from_mul ky), (from_mul kx), EC by lia. f_equal. unfold total.
  apply sum_ext; [lia|]. intros k Hk. apply sum_ext; [lia|]. intros y Hy. apply sum_ext; [lia|]. intros x Hx.
  rewrite value_enc. assert (IN : inside (kz * P + k) (ky * P + y) (kx * P + x) c) by (unfold inside; lia). assert (E := enc_in _ _ _ _ IN). rewrite slice_1 by lia. reflexivity.
Qed.

Lemma cut_div : forall a b, 0 < b -> 0 <= a <= b * 255 -> 0 <= a / b < 256.
Proof. intros a b Hb Ha. split; [apply Z.div_pos; lia|]. apply Z.div_lt_upper_bound; lia. Qed.

Lemma mosaic_ok : Width im + P <= 4294967296 -> Height im + P <= 4294967296 -> Depth im + P <= 4294967296 ->
  exists d, pixelize None im P buf = Ok d /\ upto (fun _ => true) d.
Proof.
  intros OW OH OD. unfold pixelize. rewrite Hn. assert (EB : Bps im / 1 = Bps im / Bpc im) by (rewrite Hn; reflexivity). rewrite EB. fold D H W B. cbv iota zeta.
  destruct facts as (_ & HW & HH & HD & HB & L & L32 & _).
  set (I0 := fun (k : Z) (s : list Z * Z) => upto (fun j => cz j <? k * P) (fst s)).
  destruct (stride_rule _ I0 D P (fun z => stride 0 H P (fun y => stride 0 W P (fun x '(d, r) =>
    let! d := loop 0 B (fun c d =>
      let! (Total, Tested) := block_sum im d 1 (Bps im / Bpc im) P z y x c in
      if Tested =? 0 then UB
      else
        let v := Total / Tested in
        loop 0 (Z.min P (D - z)) (fun k => loop 0 (Z.min P (H - y)) (fun j =>
          loop 0 (Z.min P (W - x)) (fun i d =>
            let! m := if 1 =? 1 then Ok 1 else rdmask None (u32 (r + i)) in
            if m =? 0 then Ok d
            else wre d 1 (u32 ((z + k) * SizeOfPlane im + (y + j) * (Bps im / Bpc im) + (x + i) * B + c)) (le (Z.to_nat 1) v)))) d) d in
    Ok (d, u32 (r + P))))) (buf, 0)) as (n & (d & r) & E & HNn & LD & A); try lia; unfold D in *; try lia.
  - split; [reflexivity|]. intros j Hj. destruct (dec_in j Hj) as ((I1 & _) & _). replace (cz j <? 0 * P) with false by lia. reflexivity.
  - fold D. intros kz s Hkz HzD (Ls & As).
    set (I1 := fun (k : Z) (s : list Z * Z) => upto (fun j => (cz j <? kz * P) || (cz j <? kz * P + P) && (cy j <? k * P)) (fst s)).
    match goal with |- context [stride 0 H P ?b s] => destruct (stride_rule _ I1 H P b s) as (n & t & E & HNn & Lt & At) end; try lia; unfold H in *; try lia.
    + split; [exact Ls|]. intros j Hj. rewrite As by auto. destruct (dec_in j Hj) as ((J1 & J2 & _) & _). replace ((cz j <? kz * P) || (cz j <? kz * P + P) && (cy j <? 0 * P)) with (cz j <? kz * P) by lia. reflexivity.
    + fold H. intros ky t Hky HyH (Lt & At).
      set (I2 := fun (k : Z) (s : list Z * Z) => upto (fun j => (cz j <? kz * P) || (cz j <? kz * P + P) && ((cy j <? ky * P) || (cy j <? ky * P + P) && (cx j <? k * P))) (fst s)).
      match goal with |- context [stride 0 W P ?b t] => destruct (stride_rule _ I2 W P b t) as (n & u & E & HNn & Lu & Au) end; try lia; unfold W in *; try lia.
      * split; [exact Lt|]. intros j Hj. rewrite At by auto. destruct (dec_in j Hj) as ((J1 & J2 & J3 & _) & _).
        match goal with |- (if ?a then _ else _) = (if ?b then _ else _) => replace a with b by lia end. reflexivity.
      * fold W. intros kx (d1, r1) Hkx HxW (L1 & A1). cbn [fst] in *.
        set (I3 := fun (k : Z) (d : list Z) => upto (fun j => (cz j <? kz * P) || (cz j <? kz * P + P) && ((cy j <? ky * P) || (cy j <? ky * P + P) && ((cx j <? kx * P) || (cx j <? kx * P + P) && (cc j <? k)))) d).
        assert (Z0 : 0 <= kz * P) by (apply Z.mul_nonneg_nonneg; lia). assert (Y0 : 0 <= ky * P) by (apply Z.mul_nonneg_nonneg; lia). assert (X0 : 0 <= kx * P) by (apply Z.mul_nonneg_nonneg; lia).
        match goal with |- context [loop 0 B ?b d1] => destruct (loop_rule _ I3 0 B b d1) as (d2 & E & L2 & A2) end; try lia.
        -- split; [exact L1|]. intros j Hj. rewrite A1 by auto. destruct (dec_in j Hj) as ((J1 & J2 & J3 & J4) & _).
           match goal with |- (if ?a then _ else _) = (if ?b then _ else _) => replace a with b by lia end. reflexivity.
        -- intros c d3 Hc (L3 & A3). rewrite sum_ok; try lia.
           2:{ intros j Hj S. rewrite A3 by auto. unfold same_block in S. match goal with |- (if ?a then _ else _) = _ => replace a with false by lia end. reflexivity. }
           cbn [bind]. destruct (total_range (kz * P) (ky * P) (kx * P) c) as (T1 & T2); try lia. replace (cells (kz * P) (ky * P) (kx * P) =? 0) with false by lia. cbv zeta.
           destruct (write_ok d3 (kz * P) (ky * P) (kx * P) c (total (kz * P) (ky * P) (kx * P) c / cells (kz * P) (ky * P) (kx * P))) as (d4 & E4 & L4 & A4); try lia; [apply cut_div; lia|].
           exists d4. split; [exact E4|]. split; [exact L4|]. intros j Hj. rewrite A4 by auto. destruct (same_block (kz * P) (ky * P) (kx * P) c j) eqn:S.
           ++ rewrite (avg_block kz ky kx c j Z0 Y0 X0 Hj S). unfold same_block in S. match goal with |- _ = (if ?a then _ else _) => replace a with true by lia end. reflexivity.
           ++ rewrite A3 by auto. unfold same_block in S. destruct (dec_in j Hj) as ((J1 & J2 & J3 & J4) & _).
              match goal with |- (if ?a then _ else _) = (if ?b then _ else _) => replace a with b; [reflexivity|] end.
              destruct ((cz j <? kz * P)) eqn:?; cbn [orb]; [reflexivity|]. destruct (cz j <? kz * P + P) eqn:?; cbn [andb]; [|reflexivity].
              destruct ((cy j <? ky * P)) eqn:?; cbn [orb]; [reflexivity|]. destruct (cy j <? ky * P + P) eqn:?; cbn [andb]; [|reflexivity].
              destruct ((cx j <? kx * P)) eqn:?; cbn [orb]; [reflexivity|]. destruct (cx j <? kx * P + P) eqn:?; cbn [andb]; [|reflexivity]. lia.
        -- rewrite E. cbn [bind]. eexists. split; [reflexivity|]. cbn [fst]. split; [exact L2|]. intros j Hj. rewrite A2 by auto. destruct (dec_in j Hj) as ((J1 & J2 & J3 & J4) & _).
           match goal with |- (if ?a then _ else _) = (if ?b then _ else _) => replace a with b by lia end. reflexivity.
      * exists u. split; [exact E|]. split; [exact Lu|]. intros j Hj. rewrite Au by auto. destruct (dec_in j Hj) as ((J1 & J2 & J3 & J4) & _). unfold W in J3.
        match goal with |- (if ?a then _ else _) = (if ?b then _ else _) => replace a with b by lia end. reflexivity.
    + exists t. split; [exact E|]. split; [exact Lt|]. intros j Hj. rewrite At by auto. destruct (dec_in j Hj) as ((J1 & J2 & J3 & J4) & _). unfold H in J2.
      match goal with |- (if ?a then _ else _) = (if ?b then _ else _) => replace a with b by lia end. reflexivity.
  - exists d. split; [|split; [exact LD|]].
    + rewrite E. reflexivity.
    + intros j Hj. rewrite A by auto. destruct (dec_in j Hj) as ((J1 & _) & _). unfold D in J1. replace (cz j <? n * P) with true by lia. reflexivity.
Qed.
End Mosaic.

(** ** C82: every channel of a mosaic of bytes is the average, rounded down, of its block, whose edges are cut off at
    the edges of the image *)
Theorem C82_mosaic_partial : forall im buf P, img_ok im buf -> bytes buf -> Bpc im = 1 -> 1 <= P <= 256 ->
  Width im + P <= 2 ^ 32 -> Height im + P <= 2 ^ 32 -> Depth im + P <= 2 ^ 32 ->
  exists d, iluPixelize None im P = Ok (with_Data im (Some d)) /\ zlen d = zlen buf /\
    forall x y z c, in_pixels im x y z -> 0 <= c < Bpp im -> value im d x y z c = average im buf P x y z c.
Proof.
  intros im buf P Hok Hby Hn HP OW OH OD. change (2 ^ 32) with 4294967296 in *. assert (P3 : 255 * (P * P * P) < 4294967296).
  { assert (P * P <= 256 * 256) by (apply Z.mul_le_mono_nonneg; lia). assert (P * P * P <= 256 * 256 * 256) by (apply Z.mul_le_mono_nonneg; lia). lia. }
  destruct (mosaic_ok im buf P Hok Hby Hn ltac:(lia) P3 OW OH OD) as (d & E & L & A).
  unfold iluPixelize. rewrite (proj1 Hok). unfold nz1. replace (P =? 0) with false by lia. rewrite E. cbn [bind]. exists d. split; [reflexivity|]. split; [exact L|].
  intros x y z c (Hx & Hy & Hz) Hc. assert (IN : inside im z y x c) by (unfold inside; lia). assert (EI := enc_in im buf Hok Hn z y x c IN).
  rewrite (value_enc im Hn d). rewrite slice_1 by lia. unfold geti at 1. cbn [nth Z.to_nat]. rewrite A by exact EI. unfold avg.
  destruct (dec_enc im z y x c IN) as (-> & -> & -> & ->). reflexivity.
Qed.
Print Assumptions C82_mosaic_partial.

Definition row5 : img := mkImg 5 1 1 1 1 5 (Some [10; 20; 31; 40; 50]) 5 5 IL_LUMINANCE IL_UNSIGNED_BYTE IL_ORIGIN_UPPER_LEFT (mkPal None 0 IL_PAL_NONE) 0 0 0 0.
Example C82_row : img_ok row5 [10; 20; 31; 40; 50] /\ bytes [10; 20; 31; 40; 50] /\ match iluPixelize None row5 2 with Ok im => Data im = Some [15; 15; 35; 35; 50] | _ => False end.
Proof. split; [unfold img_ok; vm_compute; intuition congruence|]. split; [apply bytes_Forall; repeat constructor; lia|]. vm_compute. reflexivity. Qed.
