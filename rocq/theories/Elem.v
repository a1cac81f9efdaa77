(** Typed access to pixel buffers: arrays of [n]-byte elements over a byte buffer, strided loops,
    and rules for loops that treat one pixel per iteration.

    Models no DevIL function.  A value of an [n]-byte channel type is the list of its [n] bytes in
    memory order; [((T* )buf)[i]] is [rde buf n i]. *)
From Coq Require Import ZArith List Lia Bool.
From Verif Require Import Base Slices.
Import ListNotations.
Open Scope Z_scope.

Definition rde (l : list Z) (n i : Z) : res (list Z) :=
  if inb (zlen l) (i * n) n then Ok (slice l (i * n) n) else UB.
Definition wre (l : list Z) (n i : Z) (v : list Z) : res (list Z) :=
  if inb (zlen l) (i * n) n && (zlen v =? n) then Ok (splice l (i * n) v) else UB.

(** [for (i = lo; i < hi; i += st)] with 32-bit unsigned [i]; [hi] iterations suffice unless the
    counter wraps or [st] is 0, where the result is [Fuel] *)
Fixpoint stride_ {S} (fuel : nat) (hi st : Z) (body : Z -> S -> res S) (i : Z) (s : S) : res S :=
  if i <? hi then
    match fuel with
    | O => Fuel
    | Datatypes.S f => let! s' := body i s in stride_ f hi st body (u32 (i + st)) s'
    end
  else Ok s.
Definition stride {S} (lo hi st : Z) (body : Z -> S -> res S) (s : S) : res S :=
  stride_ (Z.to_nat hi) hi st body lo s.

(** Pixel [p] of a buffer of [P]-byte pixels, channel [c] of a pixel with [n]-byte channels *)
Definition pixel (buf : list Z) (P p : Z) : list Z := slice buf (p * P) P.
Definition chan (px : list Z) (n c : Z) : list Z := slice px (c * n) n.

Lemma rde_ok : forall l n i, 0 <= i * n -> 0 <= n -> i * n + n <= zlen l -> rde l n i = Ok (slice l (i * n) n).
Proof. intros. unfold rde. replace (inb _ _ _) with true; auto. symmetry. apply inb_true. lia. Qed.
Lemma wre_ok : forall l n i v, 0 <= i * n -> i * n + n <= zlen l -> zlen v = n -> wre l n i v = Ok (splice l (i * n) v).
Proof.
  intros l n i v H1 H2 H3. unfold wre. assert (0 <= zlen v) by auto. replace (inb _ _ _) with true by (symmetry; apply inb_true; lia).
  replace (zlen v =? n) with true by lia. reflexivity.
Qed.

Lemma slice_slice : forall l a n b m, 0 <= a -> 0 <= b -> 0 <= m -> b + m <= n -> slice (slice l a n) b m = slice l (a + b) m.
Proof.
  intros l a n b m Ha Hb Hm H. unfold slice. rewrite skipn_firstn_comm, firstn_firstn.
  replace (Nat.min (Z.to_nat m) (Z.to_nat n - Z.to_nat b)) with (Z.to_nat m) by lia. f_equal.
  rewrite Z2Nat.inj_add by lia. generalize (Z.to_nat a) (Z.to_nat b). intros x y. clear.
  revert l; induction x as [|x IH]; intros l; [reflexivity|]. destruct l; cbn; [apply skipn_nil|apply IH].
Qed.

Lemma chan_pixel : forall buf n bpp p c, 0 <= n -> 0 <= p -> 0 <= c < bpp ->
  chan (pixel buf (bpp * n) p) n c = slice buf ((p * bpp + c) * n) n.
Proof.
  intros buf n bpp p c Hn Hp Hc. unfold chan, pixel.
  assert (0 <= p * (bpp * n)) by (apply Z.mul_nonneg_nonneg; [lia|apply Z.mul_nonneg_nonneg; lia]).
  assert (0 <= c * n) by (apply Z.mul_nonneg_nonneg; lia).
  assert ((c + 1) * n <= bpp * n) by (apply Z.mul_le_mono_nonneg_r; lia).
  rewrite slice_slice by lia. f_equal. ring.
Qed.

Lemma slice_splice_same : forall l off new, 0 <= off -> off + zlen new <= zlen l -> slice (splice l off new) off (zlen new) = new.
Proof.
  intros l off new H1 H2. assert (0 <= zlen new) by auto. apply list_ext.
  - apply zlen_slice; rewrite ?zlen_splice by lia; lia.
  - rewrite zlen_slice by (rewrite ?zlen_splice by lia; lia). intros i Hi. rewrite geti_slice by lia.
    rewrite geti_splice by lia. replace ((off <=? off + i) && (off + i <? off + zlen new)) with true by lia. f_equal. lia.
Qed.

Lemma slice_splice_other : forall l off new a n, 0 <= off -> off + zlen new <= zlen l -> 0 <= a -> 0 <= n -> a + n <= zlen l ->
  (a + n <= off \/ off + zlen new <= a) -> slice (splice l off new) a n = slice l a n.
Proof.
  intros l off new a n H1 H2 H3 H4 H5 H6. assert (0 <= zlen new) by auto. apply list_ext.
  - rewrite !zlen_slice; rewrite ?zlen_splice by lia; lia.
  - rewrite zlen_slice by (rewrite ?zlen_splice by lia; lia). intros i Hi. rewrite !geti_slice by lia.
    rewrite geti_splice by lia. replace ((off <=? a + i) && (a + i <? off + zlen new)) with false by lia. reflexivity.
Qed.

(** A buffer is determined by its pixels *)
Lemma pixels_ext : forall a b P n, 0 < P -> zlen a = n * P -> zlen b = n * P ->
  (forall p, 0 <= p < n -> pixel a P p = pixel b P p) -> a = b.
Proof.
  intros a b P n HP Ha Hb H. apply list_ext; [lia|]. intros i Hi.
  assert (D : i = (i / P) * P + i mod P) by (rewrite Z.mul_comm; apply Z.div_mod; lia).
  assert (M := Z.mod_pos_bound i P HP). assert (Q : 0 <= i / P < n).
  { split; [apply Z.div_pos; lia|]. apply Z.div_lt_upper_bound; [lia|]. rewrite Z.mul_comm. lia. }
  specialize (H _ Q). unfold pixel in H. assert (0 <= i / P * P) by (apply Z.mul_nonneg_nonneg; lia).
  assert (E : geti (slice a (i / P * P) P) (i mod P) = geti (slice b (i / P * P) P) (i mod P)) by (rewrite H; reflexivity).
  rewrite !geti_slice in E by lia. rewrite <- !D in E. exact E.
Qed.

Lemma chans_ext : forall a b n bpp, 0 < n -> zlen a = bpp * n -> zlen b = bpp * n ->
  (forall c, 0 <= c < bpp -> chan a n c = chan b n c) -> a = b.
Proof. intros a b n bpp Hn Ha Hb H. apply (pixels_ext a b n bpp); auto. Qed.

(** A strided loop is a counted loop when the counter does not wrap *)
Lemma stride_loop : forall S lo n st (body : Z -> S -> res S) s, 0 <= lo < st -> 0 <= n -> lo + n * st < 4294967296 ->
  stride lo (n * st) st body s = loop 0 n (fun k => body (lo + k * st)) s.
Proof.
  intros S lo n st body s Hlo Hn Hw. unfold stride, loop.
  assert (G : forall m f k s, (m <= f)%nat -> 0 <= k -> k + Z.of_nat m = n ->
     stride_ f (n * st) st body (lo + k * st) s = for_ m k (fun k => body (lo + k * st)) s).
  { induction m as [|m IH]; intros f k s' Hf Hk Hkm.
    - replace k with n by lia. cbn [for_]. destruct f; cbn [stride_]; replace (lo + n * st <? n * st) with false by lia; reflexivity.
    - destruct f as [|f]; [lia|]. cbn [stride_ for_].
      assert ((k + 1) * st <= n * st) by (apply Z.mul_le_mono_nonneg_r; lia).
      assert (0 <= k * st) by (apply Z.mul_nonneg_nonneg; lia).
      replace (lo + k * st <? n * st) with true by lia. destruct (body (lo + k * st) s'); cbn [bind]; auto.
      rewrite u32_small by lia. replace (lo + k * st + st) with (lo + (k + 1) * st) by ring. apply IH; lia. }
  replace (n - 0) with n by lia. rewrite <- (G (Z.to_nat n) (Z.to_nat (n * st)) 0 s); try lia.
  - f_equal. lia.
  - assert (n * 1 <= n * st) by (apply Z.mul_le_mono_nonneg_l; lia). lia.
Qed.

(** One pixel per iteration, in place *)
Lemma pixmap_inplace : forall (R : list Z -> list Z -> Prop) P n body buf, 0 < P -> 0 <= n -> n * P <= zlen buf ->
  (forall p b, 0 <= p < n -> zlen b = zlen buf -> pixel b P p = pixel buf P p ->
     exists b', body p b = Ok b' /\ zlen b' = zlen buf /\ R (pixel buf P p) (pixel b' P p) /\
       forall j, 0 <= j -> (j < p * P \/ p * P + P <= j) -> geti b' j = geti b j) ->
  exists b', loop 0 n body buf = Ok b' /\ zlen b' = zlen buf /\
    (forall p, 0 <= p < n -> R (pixel buf P p) (pixel b' P p)) /\
    (forall j, n * P <= j -> geti b' j = geti buf j).
Proof.
  intros R P n body buf HP Hn Hl H.
  destruct (loop_rule _ (fun k b => zlen b = zlen buf /\ (forall p, 0 <= p < k -> R (pixel buf P p) (pixel b P p)) /\
     (forall j, k * P <= j -> geti b j = geti buf j)) 0 n body buf) as (b' & E & L & A & B); [lia|split; [auto|split; [lia|auto]]| |exists b'; auto].
  intros k st Hk (L & A & B).
  assert (HkP : 0 <= k * P) by (apply Z.mul_nonneg_nonneg; lia). assert (HkP1 : (k + 1) * P <= n * P) by (apply Z.mul_le_mono_nonneg_r; lia).
  assert (PE : pixel st P k = pixel buf P k).
  { unfold pixel. apply list_ext; [rewrite !zlen_slice by lia; lia|]. rewrite zlen_slice by lia. intros i Hi. rewrite !geti_slice by lia. apply B. lia. }
  destruct (H k st Hk L PE) as (b' & E & L' & R' & O). exists b'. split; auto. split; auto. split.
  - intros p Hp. destruct (Z.eq_dec p k) as [->|]; auto.
    assert (pixel b' P p = pixel st P p) as ->; [|apply A; lia].
    assert (0 <= p * P) by (apply Z.mul_nonneg_nonneg; lia). assert ((p + 1) * P <= k * P) by (apply Z.mul_le_mono_nonneg_r; lia).
    unfold pixel. apply list_ext; [rewrite !zlen_slice by lia; lia|]. rewrite zlen_slice by lia. intros i Hi. rewrite !geti_slice by lia. apply O; lia.
  - intros j Hj. rewrite O by lia. apply B. lia.
Qed.

(** One pixel per iteration, from a source to a destination buffer *)
Lemma pixmap_out : forall (R : Z -> list Z -> Prop) Q n body dst, 0 < Q -> 0 <= n -> n * Q <= zlen dst ->
  (forall p b, 0 <= p < n -> zlen b = zlen dst -> 
     exists b', body p b = Ok b' /\ zlen b' = zlen dst /\ R p (pixel b' Q p) /\
       forall j, 0 <= j -> (j < p * Q \/ p * Q + Q <= j) -> geti b' j = geti b j) ->
  exists b', loop 0 n body dst = Ok b' /\ zlen b' = zlen dst /\
    (forall p, 0 <= p < n -> R p (pixel b' Q p)) /\
    (forall j, n * Q <= j -> geti b' j = geti dst j).
Proof.
  intros R Q n body dst HQ Hn Hl H.
  destruct (loop_rule _ (fun k b => zlen b = zlen dst /\ (forall p, 0 <= p < k -> R p (pixel b Q p)) /\
     (forall j, k * Q <= j -> geti b j = geti dst j)) 0 n body dst) as (b' & E & L & A & B); [lia|split; [auto|split; [lia|auto]]| |exists b'; auto].
  intros k st Hk (L & A & B).
  assert (HkP : 0 <= k * Q) by (apply Z.mul_nonneg_nonneg; lia). assert (HkP1 : (k + 1) * Q <= n * Q) by (apply Z.mul_le_mono_nonneg_r; lia).
  destruct (H k st Hk L) as (b' & E & L' & R' & O). exists b'. split; auto. split; auto. split.
  - intros p Hp. destruct (Z.eq_dec p k) as [->|]; auto.
    assert (pixel b' Q p = pixel st Q p) as ->; [|apply A; lia].
    assert (0 <= p * Q) by (apply Z.mul_nonneg_nonneg; lia). assert ((p + 1) * Q <= k * Q) by (apply Z.mul_le_mono_nonneg_r; lia).
    unfold pixel. apply list_ext; [rewrite !zlen_slice by lia; lia|]. rewrite zlen_slice by lia. intros i Hi. rewrite !geti_slice by lia. apply O; lia.
  - intros j Hj. rewrite O by lia. apply B. lia.
Qed.

(** Writing one channel of pixel [p] *)
Lemma chan_write : forall b n bpp p c v, 0 < n -> 0 <= p -> 0 <= c < bpp -> (p + 1) * (bpp * n) <= zlen b -> zlen v = n ->
  exists b', wre b n (p * bpp + c) v = Ok b' /\ zlen b' = zlen b /\
    chan (pixel b' (bpp * n) p) n c = v /\
    (forall c', 0 <= c' < bpp -> c' <> c -> chan (pixel b' (bpp * n) p) n c' = chan (pixel b (bpp * n) p) n c') /\
    (forall j, 0 <= j -> (j < p * (bpp * n) \/ p * (bpp * n) + bpp * n <= j) -> geti b' j = geti b j).
Proof.
  intros b n bpp p c v Hn Hp Hc Hl Hv.
  assert (A0 : 0 <= p * (bpp * n)) by (apply Z.mul_nonneg_nonneg; [lia|apply Z.mul_nonneg_nonneg; lia]).
  assert (A1 : forall c, 0 <= c < bpp -> 0 <= c * n /\ c * n + n <= bpp * n).
  { intros d Hd. assert ((d + 1) * n <= bpp * n) by (apply Z.mul_le_mono_nonneg_r; lia). split; [apply Z.mul_nonneg_nonneg; lia|lia]. }
  assert (E : forall c, (p * bpp + c) * n = p * (bpp * n) + c * n) by (intros; ring).
  assert (Ac := A1 c Hc). 
  rewrite wre_ok by (rewrite ?E; lia). eexists. split; [reflexivity|]. rewrite E.
  split; [apply zlen_splice; lia|]. split; [|split].
  - rewrite chan_pixel by lia. rewrite E. set (o := p * (bpp * n) + c * n) in *. assert (T := slice_splice_same b o v). rewrite Hv in T. apply T; lia.
  - intros c' Hc' Hne. rewrite !chan_pixel by lia. rewrite E. assert (Ac' := A1 c' Hc'). apply slice_splice_other; try lia.
    assert (c' < c \/ c < c') as [L|L] by lia.
    + assert ((c' + 1) * n <= c * n) by (apply Z.mul_le_mono_nonneg_r; lia). lia.
    + assert ((c + 1) * n <= c' * n) by (apply Z.mul_le_mono_nonneg_r; lia). lia.
  - intros j Hj Ho. rewrite geti_splice by lia.
    replace ((p * (bpp * n) + c * n <=? j) && (j <? p * (bpp * n) + c * n + zlen v)) with false by lia. reflexivity.
Qed.

(** Reading one channel *)
Lemma chan_read : forall b n bpp p c, 0 < n -> 0 <= p -> 0 <= c < bpp -> (p + 1) * (bpp * n) <= zlen b ->
  rde b n (p * bpp + c) = Ok (chan (pixel b (bpp * n) p) n c) /\ zlen (chan (pixel b (bpp * n) p) n c) = n.
Proof.
  intros b n bpp p c Hn Hp Hc Hl.
  assert (A0 : 0 <= p * (bpp * n)) by (apply Z.mul_nonneg_nonneg; [lia|apply Z.mul_nonneg_nonneg; lia]).
  assert ((c + 1) * n <= bpp * n) by (apply Z.mul_le_mono_nonneg_r; lia). assert (0 <= c * n) by (apply Z.mul_nonneg_nonneg; lia).
  assert (E : (p * bpp + c) * n = p * (bpp * n) + c * n) by ring.
  rewrite chan_pixel by lia. rewrite rde_ok by (rewrite ?E; lia). split; auto. apply zlen_slice; rewrite ?E; lia.
Qed.

(** Splitting loops *)
Lemma for_app : forall S (body : Z -> S -> res S) m k i s,
  for_ (m + k) i body s = let! s1 := for_ m i body s in for_ k (i + Z.of_nat m) body s1.
Proof.
  intros S body m. induction m as [|m IH]; intros k i s; cbn [for_ Nat.add bind].
  - rewrite Z.add_0_r. reflexivity.
  - destruct (body i s); cbn [bind]; auto. rewrite IH. replace (i + Z.of_nat (Datatypes.S m)) with (i + 1 + Z.of_nat m) by lia. reflexivity.
Qed.
Lemma loop_split : forall S lo mid hi (body : Z -> S -> res S) s, lo <= mid <= hi ->
  loop lo hi body s = let! s1 := loop lo mid body s in loop mid hi body s1.
Proof.
  intros S lo mid hi body s H. unfold loop. replace (Z.to_nat (hi - lo)) with (Z.to_nat (mid - lo) + Z.to_nat (hi - mid))%nat by lia.
  rewrite for_app. replace (lo + Z.of_nat (Z.to_nat (mid - lo))) with mid by lia. reflexivity.
Qed.
Lemma loop_first : forall S lo hi (body : Z -> S -> res S) s, lo < hi ->
  loop lo hi body s = let! s1 := body lo s in loop (lo + 1) hi body s1.
Proof.
  intros S lo hi body s H. unfold loop. replace (Z.to_nat (hi - lo)) with (Datatypes.S (Z.to_nat (hi - (lo + 1)))) by lia. reflexivity.
Qed.
