(** C34: ilClearImage sets every pixel to the clear colour. *)
From Coq Require Import ZArith List Lia Bool.
From Verif Require Import Base Slices Enums Utility Image ImageSpec Elem Channels ChannelsSpec PixelsProofs ChannelsProofs ChannelsProps Clear.
Import ListNotations.
Open Scope Z_scope.

(** ** Specification: the clear colour encoded in a format and a type *)

(** component of channel [k] of a format *)
Inductive component (c : colour) : Z -> Z -> Z -> Prop :=
| co_rgb_r : component c IL_RGB 0 (cR c) | co_rgb_g : component c IL_RGB 1 (cG c) | co_rgb_b : component c IL_RGB 2 (cB c)
| co_rgba_r : component c IL_RGBA 0 (cR c) | co_rgba_g : component c IL_RGBA 1 (cG c) | co_rgba_b : component c IL_RGBA 2 (cB c)
| co_rgba_a : component c IL_RGBA 3 (cA c)
| co_bgr_b : component c IL_BGR 0 (cB c) | co_bgr_g : component c IL_BGR 1 (cG c) | co_bgr_r : component c IL_BGR 2 (cR c)
| co_bgra_b : component c IL_BGRA 0 (cB c) | co_bgra_g : component c IL_BGRA 1 (cG c) | co_bgra_r : component c IL_BGRA 2 (cR c)
| co_bgra_a : component c IL_BGRA 3 (cA c)
| co_l : component c IL_LUMINANCE 0 (cL c)
| co_la_l : component c IL_LUMINANCE_ALPHA 0 (cL c) | co_la_a : component c IL_LUMINANCE_ALPHA 1 (cA c)
| co_a : component c IL_ALPHA 0 (cA c).

(** number with the given little-endian bytes *)
Fixpoint val (v : list Z) : Z := match v with [] => 0 | b :: v => b + 256 * val v end.

(** [v] is the component [a / 2^16] in type [t]: for integer types a number closer than 1 to
    [a / 2^16] times the maximum of the unsigned type *)
Definition encodes (fenc denc : Z -> list Z) (t a : Z) (v : list Z) : Prop :=
  if t =? IL_FLOAT then v = fenc a
  else if t =? IL_DOUBLE then v = denc a
  else forall n, type_size t n -> zlen v = n /\ Forall (fun b => 0 <= b < 256) v /\
       let m := 2 ^ (8 * n) - 1 in 0 <= val v <= m /\ Z.abs (val v * 65536 - a * m) < 65536.

Definition in_range (c : colour) : Prop :=
  0 <= cR c <= 65536 /\ 0 <= cG c <= 65536 /\ 0 <= cB c <= 65536 /\ 0 <= cA c <= 65536 /\ 0 <= cL c <= 65536.

(** The cases that the code treats correctly: the colour formats with every type, except that full
    intensity is undefined for 32-bit integers; luminance with alpha for 16 and 32-bit integers and
    doubles. *)
Definition supported (c : colour) (f t : Z) : Prop :=
  (f = IL_RGB \/ f = IL_RGBA \/ f = IL_BGR \/ f = IL_BGRA \/
   f = IL_LUMINANCE_ALPHA /\ (t = IL_SHORT \/ t = IL_UNSIGNED_SHORT \/ t = IL_INT \/ t = IL_UNSIGNED_INT \/ t = IL_DOUBLE)) /\
  ((t = IL_INT \/ t = IL_UNSIGNED_INT) -> cR c < 65536 /\ cG c < 65536 /\ cB c < 65536 /\ cA c < 65536 /\ cL c < 65536).

(** ** Proofs *)

Lemma fl_bound : forall p m, (m = 255 \/ m = 65535) -> 0 <= p <= 65536 * m ->
  0 <= fl p / 65536 <= m /\ Z.abs (fl p / 65536 * 65536 - p) < 65536.
Proof.
  intros p m Hm Hp. unfold fl. destruct (p <? 16777216) eqn:E; [lia|].
  assert (B1 := Z.log2_spec p ltac:(lia)).
  assert (L1 : 24 <= Z.log2 p) by (apply Z.log2_le_pow2; lia).
  assert (L2 : Z.log2 p < 32) by (apply Z.log2_lt_pow2; lia).
  assert (C : Z.log2 p = 24 \/ Z.log2 p = 25 \/ Z.log2 p = 26 \/ Z.log2 p = 27 \/ Z.log2 p = 28 \/ Z.log2 p = 29 \/ Z.log2 p = 30 \/ Z.log2 p = 31) by lia.
  clear B1 L1 L2. set (l := Z.log2 p) in *. clearbody l.
  assert (Hp2 : 0 <= p <= 65536 * 65535 /\ (p <= 65536 * m)) by lia.
  destruct C as [ -> | [ -> | [ -> | [ -> | [ -> | [ -> | [ -> | -> ] ] ] ] ] ] ];
   match goal with |- context [2 ^ (?a - 23)] => let k := eval compute in (2 ^ (a - 23)) in change (2 ^ (a - 23)) with k end;
   cbv zeta; match goal with |- context [if ?b then _ else _] => destruct b eqn:T end; 
   try (clear T; destruct Hm as [-> | ->]; lia);
   match type of T with context [Z.odd ?q] => generalize dependent (Z.odd q); intros; destruct Hm as [-> | ->]; lia end.
Qed.

Lemma le_val : forall n v, 0 <= v < 256 ^ Z.of_nat n -> val (le n v) = v /\ zlen (le n v) = Z.of_nat n /\ Forall (fun b => 0 <= b < 256) (le n v).
Proof.
  induction n as [|n IH]; intros v H; cbn [le val]; [cbn in H; split; [lia|split; [reflexivity|constructor]]|].
  assert (E : 256 ^ Z.of_nat (S n) = 256 * 256 ^ Z.of_nat n) by (rewrite Nat2Z.inj_succ, Z.pow_succ_r; lia).
  destruct (IH (v / 256)) as (A & B & C). { set (q := 256 ^ Z.of_nat n) in *. lia. }
  rewrite A, zlen_cons, B. split; [lia|]. split; [lia|]. constructor; auto. lia.
Qed.

Lemma fl_int : forall a, 0 <= a < 65536 -> fl (a * 4294967296) / 65536 = a * 65536.
Proof.
  intros a H. destruct (Z.eq_dec a 0) as [->|Hn]; [reflexivity|].
  unfold fl. replace (a * 4294967296 <? 16777216) with false by lia.
  assert (L0 : Z.log2 (a * 2 ^ 32) = 32 + Z.log2 a) by (apply Z.log2_mul_pow2; lia). change (2 ^ 32) with 4294967296 in L0. rewrite L0.
  assert (B1 : 0 <= Z.log2 a) by apply Z.log2_nonneg. assert (B2 : Z.log2 a < 16) by (apply Z.log2_lt_pow2; lia).
  replace (32 + Z.log2 a - 23) with (9 + Z.log2 a) by lia. set (s := 9 + Z.log2 a) in *.
  assert (P : 0 < 2 ^ s) by (apply Z.pow_pos_nonneg; lia).
  assert (X : a * 4294967296 = a * 2 ^ (32 - s) * 2 ^ s).
  { change 4294967296 with (2 ^ 32). rewrite <- Z.mul_assoc, <- Z.pow_add_r by lia. do 2 f_equal. lia. }
  rewrite X. rewrite Z.mod_mul, Z.div_mul by lia.
  cbv zeta. rewrite Z.mul_0_r. replace (2 ^ s <? 0) with false by lia. replace (0 =? 2 ^ s) with false by lia. cbn [orb andb].
  rewrite <- X. lia.
Qed.

Lemma comp_ok : forall fenc denc t n a, type_size t n -> 0 <= a <= 65536 -> ((t = IL_INT \/ t = IL_UNSIGNED_INT) -> a < 65536) ->
  (forall a, zlen (fenc a) = 4) -> (forall a, zlen (denc a) = 8) ->
  exists v, comp fenc denc t a = Some (Ok v) /\ zlen v = n /\ encodes fenc denc t a v.
Proof.
  intros fenc denc t n a TS Ha HI Hf Hd. 
  assert (BY : exists v, Some (Ok (le 1 (fl (a * 255) / 65536))) = Some (Ok v) /\ zlen v = 1 /\
     Forall (fun b => 0 <= b < 256) v /\ 0 <= val v <= 255 /\ Z.abs (val v * 65536 - a * 255) < 65536).
  { destruct (fl_bound (a * 255) 255) as [X Y]; [auto|lia|]. destruct (le_val 1 (fl (a * 255) / 65536)) as (A & B & C); [cbn; lia|].
    eexists. split; [reflexivity|]. rewrite A, B. auto. }
  assert (SH : exists v, Some (Ok (le 2 (fl (a * 65535) / 65536))) = Some (Ok v) /\ zlen v = 2 /\
     Forall (fun b => 0 <= b < 256) v /\ 0 <= val v <= 65535 /\ Z.abs (val v * 65536 - a * 65535) < 65536).
  { destruct (fl_bound (a * 65535) 65535) as [X Y]; [auto|lia|]. destruct (le_val 2 (fl (a * 65535) / 65536)) as (A & B & C); [cbn; lia|].
    eexists. split; [reflexivity|]. rewrite A, B. auto. }
  assert (IN : (t = IL_INT \/ t = IL_UNSIGNED_INT) -> exists v,
     Some (let v := fl (a * 4294967296) / 65536 in if v <? 4294967296 then Ok (le 4 v) else UB) = Some (Ok v) /\ zlen v = 4 /\
     Forall (fun b => 0 <= b < 256) v /\ 0 <= val v <= 4294967295 /\ Z.abs (val v * 65536 - a * 4294967295) < 65536).
  { intros T. specialize (HI T). rewrite fl_int by lia. cbv zeta. replace (a * 65536 <? 4294967296) with true by lia.
    destruct (le_val 4 (a * 65536)) as (A & B & C); [cbn; lia|].
    eexists. split; [reflexivity|]. rewrite A, B. split; auto. split; auto. lia. }
  inversion TS; subst; unfold comp, encodes; cbn [case existsb Z.eqb Pos.eqb orb IL_BYTE IL_UNSIGNED_BYTE IL_SHORT IL_UNSIGNED_SHORT IL_INT IL_UNSIGNED_INT IL_FLOAT IL_DOUBLE];
    try (destruct (IN ltac:(auto)) as (v & E & L & F & V & W); exists v; split; [exact E|]; split; [exact L|]; intros n' T'; inversion T'; subst; auto);
    try (destruct BY as (v & E & L & F & V & W); exists v; split; [exact E|]; split; [exact L|]; intros n' T'; inversion T'; subst; auto);
    try (destruct SH as (v & E & L & F & V & W); exists v; split; [exact E|]; split; [exact L|]; intros n' T'; inversion T'; subst; auto);
    eexists; (split; [reflexivity|]); auto.
Qed.

(** the array that ilGetClear fills: channel [k] encodes component [k] *)
Lemma store_ok : forall fenc denc t n, type_size t n -> (forall a, zlen (fenc a) = 4) -> (forall a, zlen (denc a) = 8) ->
  forall ws b, zlen b = 32 ->
  Forall (fun w => 0 <= fst w < 4 /\ 0 <= snd w <= 65536 /\ ((t = IL_INT \/ t = IL_UNSIGNED_INT) -> snd w < 65536)) ws ->
  NoDup (map fst ws) ->
  exists b', store fenc denc t ws b = Ok b' /\ zlen b' = 32 /\
    (forall i a, In (i, a) ws -> encodes fenc denc t a (slice b' (i * n) n)) /\
    (forall i, 0 <= i < 4 -> ~ In i (map fst ws) -> slice b' (i * n) n = slice b (i * n) n).
Proof.
  intros fenc denc t n TS Hf Hd. assert (Hn : 1 <= n <= 8) by (inversion TS; lia).
  induction ws as [|[i a] ws IH]; intros b Hb F ND; cbn [store].
  - exists b. split; [reflexivity|]. split; [auto|]. split; [intros i a []|auto].
  - inversion F as [|? ? (F1 & F2 & F3) Fs]; subst. inversion ND as [|? ? Ni ND']; subst. cbn [fst snd] in *.
    destruct (comp_ok fenc denc t n a TS F2 F3 Hf Hd) as (v & -> & Lv & Ev). cbn [bind].
    assert (A1 : 0 <= i * n /\ i * n + n <= 32).
    { assert (0 <= i * n) by (apply Z.mul_nonneg_nonneg; lia). assert ((i + 1) * n <= 4 * n) by (apply Z.mul_le_mono_nonneg_r; lia). lia. }
    rewrite wre_ok by (rewrite ?Lv; lia). rewrite Lv. cbn [bind].
    assert (Ls : zlen (splice b (i * n) v) = 32) by (rewrite zlen_splice; lia).
    destruct (IH (splice b (i * n) v) Ls Fs ND') as (b' & E & L & A & B). exists b'. split; [exact E|]. split; [exact L|]. split.
    + intros j x [X|X]; [|apply A; exact X]. injection X as <- <-. rewrite B; auto.
      assert (T := slice_splice_same b (i * n) v). rewrite Lv in T. rewrite T by lia. exact Ev.
    + intros j Hj Nj. rewrite B; [|auto|intros X; apply Nj; right; exact X].
      assert (A2 : 0 <= j * n /\ j * n + n <= 32).
      { assert (0 <= j * n) by (apply Z.mul_nonneg_nonneg; lia). assert ((j + 1) * n <= 4 * n) by (apply Z.mul_le_mono_nonneg_r; lia). lia. }
      apply slice_splice_other; try lia. assert (j <> i) by (intros ->; apply Nj; left; reflexivity).
      assert (j < i \/ i < j) as [Q|Q] by lia.
      * assert ((j + 1) * n <= i * n) by (apply Z.mul_le_mono_nonneg_r; lia). lia.
      * assert ((i + 1) * n <= j * n) by (apply Z.mul_le_mono_nonneg_r; lia). lia.
Qed.

Lemma type_elsize : forall t n, type_size t n -> elsize t = n.
Proof. intros t n H; inversion H; reflexivity. Qed.

Lemma getclear_ok : forall fenc denc c b f t n, type_size t n -> (forall a, zlen (fenc a) = 4) -> (forall a, zlen (denc a) = 8) ->
  zlen b = 32 -> in_range c -> supported c f t ->
  exists b', ilGetClear fenc denc c b f t = Ok (b', []) /\ zlen b' = 32 /\
    forall k a, component c f k a -> encodes fenc denc t a (slice b' (k * n) n).
Proof.
  intros fenc denc c b f t n TS Hf Hd Hb (R1 & R2 & R3 & R4 & R5) (S1 & S2). unfold ilGetClear. rewrite (type_elsize t n TS).
  replace (n =? 0) with false by (inversion TS; reflexivity).
  assert (W : exists ws, writes f t c = Some ws /\ NoDup (map fst ws) /\
     Forall (fun w => 0 <= fst w < 4 /\ 0 <= snd w <= 65536 /\ ((t = IL_INT \/ t = IL_UNSIGNED_INT) -> snd w < 65536)) ws /\
     forall k a, component c f k a -> In (k, a) ws).
  { destruct S1 as [ -> | [ -> | [ -> | [ -> | [ -> S1 ] ] ] ] ].
    5: replace (writes IL_LUMINANCE_ALPHA t c) with (Some [(0, cL c); (1, cA c)]) by (destruct S1 as [ -> | [ -> | [ -> | [ -> | -> ] ] ] ]; reflexivity).
    all: eexists; split; [reflexivity|]; split; [cbn; repeat (constructor; [cbn; lia|]); constructor|]; split;
      [repeat (constructor; [cbn [fst snd]; split; [lia|split; [lia|intros T; specialize (S2 T); lia]]|]); constructor
      |intros k a C; inversion C; subst; cbn; auto 6]. }
  destruct W as (ws & -> & ND & F & CW). destruct (store_ok fenc denc t n TS Hf Hd ws b Hb F ND) as (b' & -> & L & A & _).
  cbn [bind]. exists b'. split; [reflexivity|]. split; [exact L|]. intros k a C. apply A, CW, C.
Qed.

(** one channel of every pixel *)
Lemma fill_chan : forall n bpp N c v d, 0 < n -> 0 <= c < bpp -> 0 <= N -> zlen d = N * (bpp * n) -> zlen v = n ->
  exists d', loop 0 N (fun p d => wrs d (c * n + p * (bpp * n)) v) d = Ok d' /\ zlen d' = zlen d /\
    (forall p, 0 <= p < N -> chan (pixel d' (bpp * n) p) n c = v) /\
    (forall p c', 0 <= p < N -> 0 <= c' < bpp -> c' <> c -> chan (pixel d' (bpp * n) p) n c' = chan (pixel d (bpp * n) p) n c').
Proof.
  intros n bpp N c v d Hn Hc HN Hd Hv.
  destruct (loop_rule _ (fun k s => zlen s = zlen d /\ (forall p, 0 <= p < k -> chan (pixel s (bpp * n) p) n c = v) /\
     (forall p c', 0 <= p < N -> 0 <= c' < bpp -> c' <> c -> chan (pixel s (bpp * n) p) n c' = chan (pixel d (bpp * n) p) n c'))
     0 N (fun p d => wrs d (c * n + p * (bpp * n)) v) d) as (d' & E & A & B & C); [lia|split; [auto|split; [lia|auto]]| |exists d'; auto].
  intros k s Hk (A & B & C).
  assert (HP : 0 < bpp * n) by (apply Z.mul_pos_pos; lia).
  assert (K1 : (k + 1) * (bpp * n) <= N * (bpp * n)) by (apply Z.mul_le_mono_nonneg_r; lia).
  destruct (chan_write s n bpp k c v) as (s' & W & L & X & Y & Q); try lia.
  assert (Eoff : (k * bpp + c) * n = c * n + k * (bpp * n)) by ring.
  exists s'. split.
  - unfold wre in W. rewrite Eoff in W. unfold wrs. rewrite Hv. destruct (inb _ _ _); [|discriminate W].
    destruct (zlen v =? n); [exact W|discriminate W].
  - assert (OTH : forall p c', 0 <= p < N -> 0 <= c' < bpp -> p <> k -> chan (pixel s' (bpp * n) p) n c' = chan (pixel s (bpp * n) p) n c').
    { intros p c' Hp Hc' Hpk. f_equal. assert (0 <= p * (bpp * n)) by (apply Z.mul_nonneg_nonneg; lia).
      assert ((p + 1) * (bpp * n) <= N * (bpp * n)) by (apply Z.mul_le_mono_nonneg_r; lia).
      unfold pixel. apply list_ext; [rewrite !zlen_slice by lia; lia|]. rewrite zlen_slice by lia. intros i Hi. rewrite !geti_slice by lia. apply Q; [lia|].
      assert (p < k \/ k < p) as [T|T] by lia.
      - assert ((p + 1) * (bpp * n) <= k * (bpp * n)) by (apply Z.mul_le_mono_nonneg_r; lia). lia.
      - assert ((k + 1) * (bpp * n) <= p * (bpp * n)) by (apply Z.mul_le_mono_nonneg_r; lia). lia. }
    split; [lia|]. split.
    + intros p Hp. destruct (Z.eq_dec p k) as [->|Hpk]; [exact X|]. rewrite OTH by lia. apply B. lia.
    + intros p c' Hp Hc' Hne. destruct (Z.eq_dec p k) as [->|Hpk]; [rewrite Y by auto; apply C; auto|rewrite OTH by lia; apply C; auto].
Qed.

(** all channels of all pixels *)
Lemma fill_ok : forall n bpp N Col d, 0 < n -> 1 <= bpp -> 0 <= N -> zlen d = N * (bpp * n) -> bpp * n <= zlen Col -> N * (bpp * n) + bpp * n < 4294967296 ->
  (n = 1 \/ n = 2 \/ n = 4 \/ n = 8) ->
  exists d', stride 0 (bpp * n) n (fun k d =>
            stride k (N * (bpp * n)) (bpp * n) (fun i d =>
              let! v := rde Col n (if n =? 1 then k else k / n) in wrs d i v) d) d = Ok d' /\ zlen d' = zlen d /\
    (forall p c, 0 <= p < N -> 0 <= c < bpp -> chan (pixel d' (bpp * n) p) n c = slice Col (c * n) n).
Proof.
  intros n bpp N Col d Hn Hb HN Hd HC H32 Hn2. assert (HP : 0 < bpp * n) by (apply Z.mul_pos_pos; lia).
  assert (HN2 : 0 <= N * (bpp * n)) by (apply Z.mul_nonneg_nonneg; lia).
  rewrite stride_loop by lia.
  destruct (loop_rule _ (fun k s => zlen s = zlen d /\ (forall p c, 0 <= p < N -> 0 <= c < k -> chan (pixel s (bpp * n) p) n c = slice Col (c * n) n))
     0 bpp (fun k d => stride (0 + k * n) (N * (bpp * n)) (bpp * n) (fun i d =>
              let! v := rde Col n (if n =? 1 then 0 + k * n else (0 + k * n) / n) in wrs d i v) d) d) as (d' & E & A & B); [lia|split; [auto|lia]| |exists d'; auto].
  intros k s Hk (A & B). rewrite Z.add_0_l.
  assert (K0 : 0 <= k * n) by (apply Z.mul_nonneg_nonneg; lia). assert (K1 : (k + 1) * n <= bpp * n) by (apply Z.mul_le_mono_nonneg_r; lia).
  assert (IX : (if n =? 1 then k * n else k * n / n) = k) by (destruct (n =? 1) eqn:E1; [lia|apply Z.div_mul; lia]).
  rewrite IX, stride_loop by lia. rewrite rde_ok by lia. cbn [bind].
  destruct (fill_chan n bpp N k (slice Col (k * n) n) s) as (s' & E & L & X & Y); try lia; [apply zlen_slice; lia|].
  exists s'. split; [exact E|]. split; [lia|]. intros p c Hp Hc. destruct (Z.eq_dec c k) as [->|Hne]; [apply X; auto|]. rewrite Y by lia. apply B; lia.
Qed.

Definition all_component : forall c f bpp k, channels f bpp -> f <> IL_COLOUR_INDEX -> 0 <= k < bpp -> exists a, component c f k a.
Proof.
  intros c f bpp k CH NI Hk. inversion CH; subst; try congruence;
   assert (k = 0 \/ k = 1 \/ k = 2 \/ k = 3) as [ -> | [ -> | [ -> | -> ] ] ] by lia; try lia; eexists; constructor.
Qed.

(** C34a: every pixel gets the clear colour encoded in the format and type of the image; nothing but
    the pixels changes.  Missing from the full statement: the formats, types and colours excluded by
    [supported], refuted below, and images within one pixel of 2^32 bytes. *)
Theorem C34_clear_partial : forall fenc denc alloc c stk im buf,
  (forall a, zlen (fenc a) = 4) -> (forall a, zlen (denc a) = 8) ->
  img_ok im buf -> channels (Format im) (Bpp im) -> type_size (Type_ im) (Bpc im) ->
  in_range c -> zlen stk = 32 -> supported c (Format im) (Type_ im) -> SizeOfData im + Bpp im * Bpc im < 2 ^ 32 ->
  exists buf', ilClearImage_ fenc denc alloc c stk im = Ok (true, with_Data im (Some buf'), []) /\ zlen buf' = zlen buf /\
    forall x y z k, in_pixels im x y z -> 0 <= k < Bpp im ->
      exists a, component c (Format im) k a /\ encodes fenc denc (Type_ im) a (chan_at im buf' x y z k).
Proof.
  intros fenc denc alloc c stk im buf Hf Hd Hok CH TS HR Hs SUP H32. unfold ilClearImage_.
  destruct (getclear_ok fenc denc c stk (Format im) (Type_ im) (Bpc im) TS Hf Hd Hs HR SUP) as (Col & -> & LC & A). cbn [bind].
  assert (NI : Format im <> IL_COLOUR_INDEX) by (destruct SUP as ([ -> | [ -> | [ -> | [ -> | [ -> _ ] ] ] ] ] & _); discriminate).
  replace (Format im =? IL_COLOUR_INDEX) with false by lia. cbn [negb].
  rewrite (type_elsize _ _ TS). replace (Bpc im =? 0) with false by (inversion TS; reflexivity).
  destruct (ok_pixels im buf Hok) as (Q1 & Q2 & Q3 & Q4 & Q5 & Q6 & Q7 & _).
  assert (Hok' := Hok). destruct Hok' as (HD & HW & HH & HDp & Hbpp & Hbpc & Hbps & Hpl & Hsz & H3 & Hlen). rewrite HD.
  set (N := Width im * Height im * Depth im) in *.
  assert (SZ : SizeOfData im = N * (Bpp im * Bpc im)) by lia. change (2 ^ 32) with 4294967296 in *.
  rewrite (u32_small (Bpp im * Bpc im)) by lia. rewrite SZ.
  destruct (fill_ok (Bpc im) (Bpp im) N Col buf) as (d' & -> & L & F); try lia.
  { assert (Bpp im <= 4) by (inversion CH; lia). assert (Bpp im * Bpc im <= 4 * Bpc im) by (apply Z.mul_le_mono_nonneg_r; lia). lia. }
  cbn [bind]. exists d'. split; [reflexivity|]. split; [exact L|]. intros x y z k Hin Hk.
  destruct (pixel_index im buf x y z Hok Hin) as (P1 & _). rewrite (chan_at_pixel im buf) by (auto; lia).
  rewrite F by (auto; lia). destruct (all_component c (Format im) (Bpp im) k CH NI Hk) as (a & Ca). exists a. split; [exact Ca|]. apply A. exact Ca.
Qed.

(** Counterexamples to the full statement, for every image of the kind. *)
(** luminance images are filled with the alpha component *)
Theorem C34_luminance_refuted : forall fenc denc alloc c stk im buf,
  img_ok im buf -> Format im = IL_LUMINANCE -> Bpp im = 1 -> Type_ im = IL_UNSIGNED_BYTE -> Bpc im = 1 ->
  in_range c -> zlen stk = 32 -> SizeOfData im + 1 < 2 ^ 32 ->
  exists buf', ilClearImage_ fenc denc alloc c stk im = Ok (true, with_Data im (Some buf'), []) /\ zlen buf' = zlen buf /\
    forall x y z, in_pixels im x y z -> encodes fenc denc IL_UNSIGNED_BYTE (cA c) (chan_at im buf' x y z 0).
Proof.
  intros fenc denc alloc c stk im buf Hok HF HB HT HC (R1 & R2 & R3 & R4 & R5) Hs H32. unfold ilClearImage_.
  destruct (ok_pixels im buf Hok) as (Q1 & Q2 & Q3 & Q4 & Q5 & Q6 & Q7 & _).
  assert (Hok' := Hok). destruct Hok' as (HD & HW & HH & HDp & Hbpp & Hbpc & Hbps & Hpl & Hsz & H3 & Hlen). 
  rewrite HF, HT, HD. unfold ilGetClear. change (elsize IL_UNSIGNED_BYTE) with 1. cbn [Z.eqb]. change (writes IL_LUMINANCE IL_UNSIGNED_BYTE c) with (Some [(0, cA c)]).
  cbn [store]. change (comp fenc denc IL_UNSIGNED_BYTE (cA c)) with (Some (Ok (le 1 (fl (cA c * 255) / 65536)))). cbn [bind].
  destruct (fl_bound (cA c * 255) 255) as [X Y]; [auto|lia|]. destruct (le_val 1 (fl (cA c * 255) / 65536)) as (VA & VB & VC); [cbn; lia|].
  set (v := le 1 (fl (cA c * 255) / 65536)) in *. clearbody v. change (Z.of_nat 1) with 1 in VB.
  rewrite VB. rewrite wre_ok by lia. cbn [bind]. change (0 * 1) with 0.
  assert (Ls : zlen (splice stk 0 v) = 32) by (rewrite zlen_splice; lia).
  replace (negb (IL_LUMINANCE =? IL_COLOUR_INDEX)) with true by reflexivity. cbv iota. cbn [Z.eqb Pos.eqb].
  change (2 ^ 32) with 4294967296 in *. rewrite HB, HC in *. change (u32 (1 * 1)) with (1 * 1).
  set (N := Width im * Height im * Depth im) in *. replace (SizeOfData im) with (N * (1 * 1)) by lia.
  destruct (fill_ok 1 1 N (splice stk 0 v) buf) as (d' & E & L & F); try lia. 
  change (1 =? 1) with true in E. cbv iota in E. rewrite E. cbn [bind]. exists d'. split; [reflexivity|]. split; [exact L|].
  intros x y z Hin. destruct (pixel_index im buf x y z Hok Hin) as (P1 & _). rewrite (chan_at_pixel im buf) by (auto; lia).
  rewrite HB, HC. rewrite F by (auto; lia). change (0 * 1) with 0. assert (T := slice_splice_same stk 0 v). rewrite VB in T. rewrite T by lia.
  unfold encodes. cbn [Z.eqb Pos.eqb IL_UNSIGNED_BYTE IL_FLOAT IL_DOUBLE]. intros n T'. inversion T'; subst. rewrite VA. auto.
Qed.

(** alpha images have no case: an error is raised, the call still succeeds, and the pixels become
    uninitialised memory *)
Theorem C34_alpha_refuted : forall fenc denc alloc c stk im buf,
  img_ok im buf -> Format im = IL_ALPHA -> Bpp im = 1 -> Type_ im = IL_UNSIGNED_BYTE -> Bpc im = 1 ->
  zlen stk = 32 -> SizeOfData im + 1 < 2 ^ 32 ->
  exists buf', ilClearImage_ fenc denc alloc c stk im = Ok (true, with_Data im (Some buf'), [IL_INTERNAL_ERROR]) /\
    forall x y z, in_pixels im x y z -> chan_at im buf' x y z 0 = slice stk 0 1.
Proof.
  intros fenc denc alloc c stk im buf Hok HF HB HT HC Hs H32. unfold ilClearImage_.
  destruct (ok_pixels im buf Hok) as (Q1 & Q2 & Q3 & Q4 & Q5 & Q6 & Q7 & _).
  assert (Hok' := Hok). destruct Hok' as (HD & HW & HH & HDp & Hbpp & Hbpc & Hbps & Hpl & Hsz & H3 & Hlen). 
  rewrite HF, HT, HD. change (ilGetClear fenc denc c stk IL_ALPHA IL_UNSIGNED_BYTE) with (Ok (stk, [IL_INTERNAL_ERROR])). cbn [bind].
  replace (negb (IL_ALPHA =? IL_COLOUR_INDEX)) with true by reflexivity. cbv iota. change (elsize IL_UNSIGNED_BYTE) with 1. cbn [Z.eqb Pos.eqb].
  change (2 ^ 32) with 4294967296 in *. rewrite HB, HC in *. change (u32 (1 * 1)) with (1 * 1).
  set (N := Width im * Height im * Depth im) in *. replace (SizeOfData im) with (N * (1 * 1)) by lia.
  destruct (fill_ok 1 1 N stk buf) as (d' & E & L & F); try lia. 
  change (1 =? 1) with true in E. cbv iota in E. rewrite E. cbn [bind]. exists d'. split; [reflexivity|].
  intros x y z Hin. destruct (pixel_index im buf x y z Hok Hin) as (P1 & _). rewrite (chan_at_pixel im buf) by (auto; lia).
  rewrite HB, HC. rewrite F by (auto; lia). reflexivity.
Qed.

(** full intensity in a 32-bit integer image is undefined behaviour; the initial clear colour has
    full red (il_devil.cpp:319) *)
Theorem C34_int_refuted : forall fenc denc alloc c stk im f,
  (f = IL_RGB \/ f = IL_RGBA \/ f = IL_BGR \/ f = IL_BGRA) -> Format im = f -> (Type_ im = IL_INT \/ Type_ im = IL_UNSIGNED_INT) ->
  cR c = 65536 -> ilClearImage_ fenc denc alloc c stk im = UB.
Proof.
  intros fenc denc alloc c stk im f Hf HF HT HR. unfold ilClearImage_.
  assert (G : ilGetClear fenc denc c stk (Format im) (Type_ im) = UB).
  { subst f. unfold ilGetClear. destruct HT as [-> | ->]; destruct Hf as [ -> | [ -> | [ -> | -> ] ] ];
      cbn [writes Z.eqb Pos.eqb IL_RGB IL_RGBA IL_BGR IL_BGRA store]; rewrite HR; reflexivity. }
  rewrite G. reflexivity.
Qed.

(** byte luminance-alpha images get alpha in both channels *)
Theorem C34_la_byte_refuted : forall fenc denc c stk, zlen stk = 32 -> in_range c ->
  exists b, ilGetClear fenc denc c stk IL_LUMINANCE_ALPHA IL_UNSIGNED_BYTE = Ok (b, []) /\
    slice b 0 1 = slice b 1 1 /\ encodes fenc denc IL_UNSIGNED_BYTE (cA c) (slice b 0 1).
Proof.
  intros fenc denc c stk Hs (R1 & R2 & R3 & R4 & R5). unfold ilGetClear. change (elsize IL_UNSIGNED_BYTE) with 1. cbn [Z.eqb].
  change (writes IL_LUMINANCE_ALPHA IL_UNSIGNED_BYTE c) with (Some [(0, cL c); (1, cA c); (0, cA c)]).
  cbn [store].
  change (comp fenc denc IL_UNSIGNED_BYTE (cA c)) with (Some (Ok (le 1 (fl (cA c * 255) / 65536)))).
  change (comp fenc denc IL_UNSIGNED_BYTE (cL c)) with (Some (Ok (le 1 (fl (cL c * 255) / 65536)))). cbn [bind].
  destruct (fl_bound (cA c * 255) 255) as [X Y]; [auto|lia|]. destruct (le_val 1 (fl (cA c * 255) / 65536)) as (VA & VB & VC); [cbn; lia|].
  destruct (fl_bound (cL c * 255) 255) as [X2 Y2]; [auto|lia|]. destruct (le_val 1 (fl (cL c * 255) / 65536)) as (UA & UB_ & UC); [cbn; lia|].
  set (v := le 1 (fl (cA c * 255) / 65536)) in *. set (u := le 1 (fl (cL c * 255) / 65536)) in *. clearbody u v.
  change (Z.of_nat 1) with 1 in *. rewrite VB, UB_.
  rewrite wre_ok by lia. cbn [bind]. change (0 * 1) with 0. change (1 * 1) with 1.
  assert (L1 : zlen (splice stk 0 u) = 32) by (rewrite zlen_splice; lia).
  rewrite wre_ok by lia. cbn [bind]. change (1 * 1) with 1.
  assert (L2 : zlen (splice (splice stk 0 u) 1 v) = 32) by (rewrite zlen_splice; lia).
  rewrite wre_ok by lia. cbn [bind]. change (0 * 1) with 0. eexists. split; [reflexivity|].
  assert (S0 : slice (splice (splice (splice stk 0 u) 1 v) 0 v) 0 1 = v).
  { assert (T := slice_splice_same (splice (splice stk 0 u) 1 v) 0 v). rewrite VB in T. apply T; lia. }
  assert (S1 : slice (splice (splice (splice stk 0 u) 1 v) 0 v) 1 1 = v).
  { rewrite slice_splice_other by lia. assert (T := slice_splice_same (splice stk 0 u) 1 v). rewrite VB in T. apply T; lia. }
  rewrite S0, S1. split; [reflexivity|].
  unfold encodes. cbn [Z.eqb Pos.eqb IL_UNSIGNED_BYTE IL_FLOAT IL_DOUBLE]. intros n T'. inversion T'; subst. rewrite VA. auto.
Qed.

(** palette images: entries 1, 2 and 3 of the new palette colour come from uninitialised memory *)
Theorem C34_palette_refuted : forall fenc denc alloc c stk im buf, img_ok im buf -> Format im = IL_COLOUR_INDEX ->
  Type_ im = IL_UNSIGNED_BYTE -> zlen stk = 32 -> in_range c -> alloc 4 <> None ->
  exists im' p, ilClearImage_ fenc denc alloc c stk im = Ok (true, im', []) /\ Palette (Pal im') = Some p /\
    slice p 1 3 = [u8 (geti stk 1 * 255); u8 (geti stk 2 * 255); u8 (geti stk 3 * 255)].
Proof.
  intros fenc denc alloc c stk im buf Hok HF HT Hs (R1 & R2 & R3 & R4 & R5) HA. unfold ilClearImage_. rewrite HF, HT.
  unfold ilGetClear. change (elsize IL_UNSIGNED_BYTE) with 1. cbn [Z.eqb].
  change (writes IL_COLOUR_INDEX IL_UNSIGNED_BYTE c) with (Some [(0, cA c)]). cbn [store].
  change (comp fenc denc IL_UNSIGNED_BYTE (cA c)) with (Some (Ok (le 1 (fl (cA c * 255) / 65536)))). cbn [bind].
  destruct (fl_bound (cA c * 255) 255) as [X Y]; [auto|lia|]. destruct (le_val 1 (fl (cA c * 255) / 65536)) as (VA & VB & VC); [cbn; lia|].
  set (v := le 1 (fl (cA c * 255) / 65536)) in *. clearbody v. change (Z.of_nat 1) with 1 in VB.
  rewrite VB. rewrite wre_ok by lia. cbn [bind]. change (0 * 1) with 0.
  assert (Ls : zlen (splice stk 0 v) = 32) by (rewrite zlen_splice; lia).
  change (negb (IL_COLOUR_INDEX =? IL_COLOUR_INDEX)) with false. cbv iota.
  destruct Hok as (HD & _ & _ & _ & _ & _ & _ & _ & _ & _ & Hlen). rewrite HD.
  assert (0 <= zlen buf) by auto. destruct (memset_spec buf 0 0 (SizeOfData im)) as (d & -> & _); try lia. cbn [bind].
  destruct (alloc 4) as [blk|]; [|congruence]. rewrite !rd_ok by lia. cbn [bind].
  eexists. eexists. split; [reflexivity|]. split; [reflexivity|].
  assert (G : forall j, 1 <= j < 32 -> geti (splice stk 0 v) j = geti stk j).
  { intros j Hj. rewrite geti_splice by lia. replace ((0 <=? j) && (j <? 0 + zlen v)) with false by lia. reflexivity. }
  rewrite (G 1), (G 2), (G 3) by lia. reflexivity.
Qed.

Example C34_ex : let im := mkImg 2 1 1 4 2 16 (Some (repeat 7 16)) 16 16 IL_BGRA IL_UNSIGNED_SHORT IL_ORIGIN_LOWER_LEFT (mkPal None 0 IL_PAL_NONE) 0 0 0 0 in
  let c := ilClearColour (fun r g b => (r + g + b) / 3) 65536 32768 (-5) 16384 in
  img_ok im (repeat 7 16) /\ channels (Format im) (Bpp im) /\ type_size (Type_ im) (Bpc im) /\ in_range c /\ supported c (Format im) (Type_ im) /\
  ilClearImage_ (fun _ => []) (fun _ => []) (fun _ => None) c (repeat 1 32) im =
  Ok (true, with_Data im (Some [0;0;255;127;255;255;255;63;0;0;255;127;255;255;255;63]), []).
Proof.
  cbv zeta. split; [repeat split; cbn; auto; lia|]. split; [constructor|]. split; [constructor|]. split; [repeat split; cbn; lia|].
  split; [split; [auto 6|intros [X|X]; discriminate X]|]. vm_compute. reflexivity.
Qed.

Print Assumptions C34_clear_partial.
Print Assumptions C34_luminance_refuted.
Print Assumptions C34_alpha_refuted.
Print Assumptions C34_int_refuted.
Print Assumptions C34_la_byte_refuted.
Print Assumptions C34_palette_refuted.

(** C34b: whatever the arguments, the colour that is kept has every component between 0 and 1; an
    argument in that range is kept as it is, one outside becomes the nearest end; the luminance of a
    grey is that grey. *)
Definition nearest01 (a b : Z) : Prop := 0 <= b <= 65536 /\ forall c, 0 <= c <= 65536 -> Z.abs (a - b) <= Z.abs (a - c).
Theorem C34_clamp : forall lum R G B A, let c := ilClearColour lum R G B A in
  in_range c /\ nearest01 R (cR c) /\ nearest01 G (cG c) /\ nearest01 B (cB c) /\ nearest01 A (cA c) /\ (R = G -> G = B -> cL c = cR c).
Proof.
  intros lum R G B A c. subst c.
  assert (K : forall a, nearest01 a (clampf a)).
  { intros a. unfold nearest01, clampf. destruct (Z.ltb_spec a 0); [|destruct (Z.ltb_spec 65536 a)]; split; intros; lia. }
  unfold ilClearColour. cbn [cR cG cB cA cL]. split.
  - unfold in_range. cbn [cR cG cB cA cL]. repeat (split; [apply K|]). destruct ((R =? G) && (R =? B) && (G =? B)); apply K.
  - repeat (split; [apply K|]). intros <- <-. rewrite !Z.eqb_refl. reflexivity.
Qed.
Print Assumptions C34_clamp.
Example C34_clamp_ex : ilClearColour (fun r g b => (r + g + b) / 3) 70000 70000 70000 (-1) = mkColour 65536 65536 65536 0 65536.
Proof. reflexivity. Qed.
