(** Noise (C80). *)
From Coq Require Import ZArith List Lia Bool QArith Qround Lqa.
From Verif Require Import Base Slices Enums Utility Image ImageSpec Elem Channels ChannelsSpec ChannelsProofs ChannelsProps ConvSpec ConvInt Endian Float Flip Pixels Scatter PixelsProofs PixelsProps Ilu IluCrop IluProps Ilu2 IluScale.
Import ListNotations.
Open Scope Z_scope.

(** a loop over the elements [a .. a+B-1] of size [n], each replaced by a function of itself *)
Lemma elem_seg : forall n a B (f : list Z -> list Z) body buf, 0 < n -> 0 <= a -> 0 <= B -> (a + B) * n <= zlen buf ->
  (forall c, 0 <= c < B -> zlen (f (slice buf ((a + c) * n) n)) = n) ->
  (forall c d, 0 <= c < B -> zlen d = zlen buf -> slice d ((a + c) * n) n = slice buf ((a + c) * n) n ->
     body c d = Ok (splice d ((a + c) * n) (f (slice buf ((a + c) * n) n)))) ->
  exists d, loop 0 B body buf = Ok d /\ zlen d = zlen buf /\
    forall e, 0 <= e -> (e + 1) * n <= zlen buf -> slice d (e * n) n = if (a <=? e) && (e <? a + B) then f (slice buf (e * n) n) else slice buf (e * n) n.
Proof.
  intros n a B f body buf Hn Ha HB Hl Hf Hb.
  destruct (loop_rule _ (fun k d => zlen d = zlen buf /\ forall e, 0 <= e -> (e + 1) * n <= zlen buf ->
    slice d (e * n) n = if (a <=? e) && (e <? a + k) then f (slice buf (e * n) n) else slice buf (e * n) n) 0 B body buf) as (d & E & L & A); [lia| | |exists d; auto].
  { split; [auto|]. intros e He _. replace ((a <=? e) && (e <? a + 0)) with false by lia. reflexivity. }
  intros k d Hk (L & A). assert (R : 0 <= (a + k) * n /\ (a + k + 1) * n <= zlen buf).
  { split; [apply Z.mul_nonneg_nonneg; lia|]. assert ((a + k + 1) * n <= (a + B) * n) by (apply Z.mul_le_mono_nonneg_r; lia). lia. }
  assert (S0 := A (a + k) ltac:(lia) ltac:(lia)). replace ((a <=? a + k) && (a + k <? a + k)) with false in S0 by lia.
  rewrite Hb by auto. specialize (Hf k Hk). eexists. split; [reflexivity|]. split; [rewrite zlen_splice; lia|].
  intros e He Le. destruct (Z.eq_dec e (a + k)) as [->|Hne].
  - replace ((a <=? a + k) && (a + k <? a + (k + 1))) with true by lia. assert (SS := slice_splice_same d ((a + k) * n) (f (slice buf ((a + k) * n) n))). rewrite Hf in SS. apply SS; lia.
  - assert (0 <= e * n) by (apply Z.mul_nonneg_nonneg; lia). rewrite slice_splice_other; try lia.
    + rewrite A by auto. replace ((a <=? e) && (e <? a + (k + 1))) with ((a <=? e) && (e <? a + k)) by lia. reflexivity.
    + destruct (Z.lt_ge_cases e (a + k)); [left|right; rewrite Hf]; [assert ((e + 1) * n <= (a + k) * n) by (apply Z.mul_le_mono_nonneg_r; lia)|assert ((a + k + 1) * n <= e * n) by (apply Z.mul_le_mono_nonneg_r; lia)]; lia.
Qed.

(** the value of an element *)
Definition element (d : list Z) (n e : Z) : Z := number (slice d (e * n) n).
Definition clamp (n v : Z) : Z := Z.max 0 (Z.min v (256 ^ n - 1)).

Lemma pow256 : forall n, 0 <= n -> 2 ^ (8 * n) = 256 ^ n.
Proof. intros n Hn. rewrite Z.pow_mul_r by lia. reflexivity. Qed.

Lemma shifted_clamp : forall n v s, n = 1 \/ n = 2 -> 0 <= v < 256 ^ n -> shifted n v s = Ok (clamp n (v + s)).
Proof.
  intros n v s Hn Hv. unfold shifted, clamp. replace (n =? 4) with false by lia. rewrite pow256 by lia.
  destruct (256 ^ n - 1 <? v + s) eqn:E; [f_equal; lia|]. destruct (v + s <? 0) eqn:F; f_equal; lia.
Qed.

Lemma noise_ok : forall rand mask F n B N src, n = 1 \/ n = 2 -> 0 < F < 65536 -> 1 <= B -> 0 <= N -> bytes src -> N * B * n <= zlen src -> zlen src < 4294967296 ->
  (forall k, 0 <= rand k) -> (forall m, mask = Some m -> N <= zlen m) ->
  exists d, noise rand mask F n B (N * B) src = Ok d /\ zlen d = zlen src /\
    forall p, 0 <= p < N -> exists s, - F <= s < F /\ forall c, 0 <= c < B ->
      element d n (p * B + c) = if flag mask p then clamp n (element src n (p * B + c) + s) else element src n (p * B + c).
Proof.
  intros rand mask F n B N src Hn HF HB HN Hby Hl H32 Hr Hm. unfold noise.
  assert (NB : 0 <= N * B) by (apply Z.mul_nonneg_nonneg; lia). assert (NBn : N * B <= N * B * n) by (apply le_mul_l; lia).
  rewrite stride_loop by lia.
  rewrite (u32_small (F + F)) by lia.
  match goal with |- context [loop 0 N ?b _] => set (body := b) end.
  destruct (loop_rule _ (fun p (s : list Z * Z) => let (d, k) := s in zlen d = zlen src /\
    (forall q, 0 <= q < p -> exists s, - F <= s < F /\ forall c, 0 <= c < B ->
      element d n (q * B + c) = if flag mask q then clamp n (element src n (q * B + c) + s) else element src n (q * B + c)) /\
    forall e, p * B <= e < N * B -> slice d (e * n) n = slice src (e * n) n) 0 N body (src, 0)) as ((d & k) & E & L & A & _); [lia| | |rewrite E; cbn [bind]; exists d; auto].
  { repeat split; auto; lia. }
  intros p (d, k) Hp (L & A & U). unfold body. cbv beta. rewrite Z.add_0_l.
  assert (PB : 0 <= p * B) by (apply Z.mul_nonneg_nonneg; lia). assert (PB1 : (p + 1) * B <= N * B) by (apply Z.mul_le_mono_nonneg_r; lia).
  assert (EB : forall e, 0 <= e < N * B -> 0 <= e * n /\ (e + 1) * n <= zlen src).
  { intros e He. split; [apply Z.mul_nonneg_nonneg; lia|]. assert ((e + 1) * n <= N * B * n) by (apply Z.mul_le_mono_nonneg_r; lia). lia. }
  rewrite Z.div_mul by lia.
  assert (MK : (match mask with None => Ok 1 | Some m => rd m p end) = Ok (match mask with None => 1 | Some m => geti m p end)).
  { destruct mask as [m|]; [|reflexivity]. specialize (Hm m eq_refl). rewrite rd_ok by lia. reflexivity. }
  rewrite MK. cbn [bind].
  assert (SKIP : forall x, (match mask with None => 1 | Some m => geti m p end =? 0) = x -> flag mask p = negb x).
  { intros x <-. unfold flag. destruct mask; reflexivity. }
  destruct (match mask with None => 1 | Some m => geti m p end =? 0) eqn:Q; specialize (SKIP _ eq_refl); cbn [negb] in SKIP.
  { eexists (d, k). split; [reflexivity|]. split; [exact L|]. split; [|intros e He; apply U; lia].
    intros q Hq. destruct (Z.eq_dec q p) as [->|Hne]; [|apply A; lia]. exists 0. split; [lia|]. intros c Hc. rewrite SKIP. unfold element. rewrite U by lia. reflexivity. }
  replace (F + F =? 0) with false by lia.
  set (s := i32 (u32 (rand k mod (F + F) - F))).
  assert (S0 : s = rand k mod (F + F) - F /\ - F <= s < F).
  { assert (M := Z.mod_pos_bound (rand k) (F + F) ltac:(lia)). unfold s. assert (T : i32 (u32 (rand k mod (F + F) - F)) = rand k mod (F + F) - F); [|lia].
    set (t := rand k mod (F + F) - F) in *. assert (- 65536 <= t < 65536) by lia. clearbody t. clear - H. unfold i32, u32. lia. }
  destruct S0 as (_ & S0). clearbody s.
  set (f := fun v => le (Z.to_nat n) (clamp n (unle v + s))).
  assert (CL : forall v, 0 <= clamp n v < 256 ^ n) by (intros v; unfold clamp; assert (0 < 256 ^ n) by (apply Z.pow_pos_nonneg; lia); lia).
  assert (LF : forall v, zlen (f v) = n) by (intros v; unfold f; rewrite le_len; lia).
  assert (BY : forall e, 0 <= e < N * B -> bytes (slice src (e * n) n)).
  { intros e He. destruct (EB e He). apply bytes_slice; auto. }
  destruct (elem_seg n (p * B) B f (fun c d => let! v := rde d n (u32 (p * B + c)) in let! w := shifted n (unle v) s in wre d n (u32 (p * B + c)) (le (Z.to_nat n) w)) d) as (d' & E' & L' & A'); auto; try lia.
  { intros c d1 Hc L1 S1. destruct (EB (p * B + c) ltac:(lia)). rewrite !u32_small by lia. rewrite rde_ok by lia. cbn [bind]. rewrite S1.
    assert (RG : 0 <= unle (slice d ((p * B + c) * n) n) < 256 ^ n).
    { rewrite U by lia. assert (R := ConvInt.unle_range _ (BY (p * B + c) ltac:(lia))). rewrite zlen_slice in R by lia. exact R. }
    rewrite shifted_clamp by auto. cbn [bind]. fold (f (slice d ((p * B + c) * n) n)). apply wre_ok; auto; lia. }
  rewrite E'. cbn [bind]. eexists (d', k + 1). split; [reflexivity|]. split; [lia|]. split.
  - intros q Hq. destruct (Z.eq_dec q p) as [->|Hne].
    + exists s. split; [exact S0|]. intros c Hc. rewrite SKIP. unfold element. destruct (EB (p * B + c) ltac:(lia)). rewrite A' by lia.
      replace ((p * B <=? p * B + c) && (p * B + c <? p * B + B)) with true by lia. rewrite U by lia. rewrite !number_unle. unfold f.
      apply unle_le. rewrite Z2Nat.id by lia. apply CL.
    + destruct (A q ltac:(lia)) as (t & Ht & At). exists t. split; [exact Ht|]. intros c Hc. rewrite <- At by auto. unfold element.
      assert (QB : (q + 1) * B <= p * B) by (apply Z.mul_le_mono_nonneg_r; lia). assert (0 <= q * B) by (apply Z.mul_nonneg_nonneg; lia). destruct (EB (q * B + c) ltac:(lia)). rewrite A' by lia.
      replace ((p * B <=? q * B + c) && (q * B + c <? p * B + B)) with false by lia. reflexivity.
  - intros e He. destruct (EB e ltac:(lia)). rewrite A' by lia. replace ((p * B <=? e) && (e <? p * B + B)) with false by lia. apply U. lia.
Qed.

Lemma factor_range : forall n tol, n = 1 \/ n = 2 -> (0 <= tol <= 1)%Q -> 0 <= factor n tol <= (256 ^ n - 1) / 2.
Proof.
  intros n tol Hn (T0 & T1). unfold factor. rewrite pow256 by lia. set (h := (256 ^ n - 1) / 2).
  assert (Hh : 0 <= h < 2 ^ 23) by (unfold h; destruct Hn as [-> | ->]; vm_compute; intuition congruence).
  assert (Eh := rnd_exact 24 (-149) (inject_Z h) ltac:(lia) ltac:(change 0%Q with (inject_Z 0); rewrite <- Zle_Qle; lia) (rep_int 24 (-149) h ltac:(lia) ltac:(lia))).
  set (v := Float.val (rnd 24 (-149) (inject_Z h))) in *.
  assert (H0 : (0 <= inject_Z h)%Q) by (change 0%Q with (inject_Z 0); rewrite <- Zle_Qle; lia).
  assert (P0 : (0 <= tol * v)%Q) by (apply Qmult_le_0_compat; lra).
  assert (P1 : (tol * v <= inject_Z h)%Q). { rewrite Eh. rewrite <- (Qmult_1_l (inject_Z h)) at 2. apply Qmult_le_compat_r; lra. }
  assert (F0 := rnd_nonneg 24 (-149) _ ltac:(lia) P0). assert (F1 := rnd_le_rep 24 (-149) _ (inject_Z h) ltac:(lia) P0 (rep_int 24 (-149) h ltac:(lia) ltac:(lia)) P1).
  assert (FR := floor_range (Float.val (rnd 24 (-149) (tol * v))) 0 (h + 1)). change (inject_Z 0) with 0%Q in FR. specialize (FR F0).
  assert (FR2 : (Float.val (rnd 24 (-149) (tol * v)) < inject_Z (h + 1))%Q) by (rewrite inject_Z_plus; change (inject_Z 1) with 1%Q; lra). specialize (FR FR2). lia.
Qed.

(** ** C80: for channels of one and two bytes the noise moves all channels of a pixel by one amount within the
    tolerance, stays within the range of the type, and leaves pixels outside of the region alone *)
Theorem C80_noise_partial : forall rand mask tol im buf, img_ok im buf -> bytes buf -> Bpc im = 1 \/ Bpc im = 2 -> (0 <= tol <= 1)%Q ->
  (forall k, 0 <= rand k) -> (forall m, mask = Some m -> Width im * Height im * Depth im <= zlen m) ->
  exists F buf', 0 <= F <= (256 ^ Bpc im - 1) / 2 /\ iluNoisify rand mask tol im = Ok (with_Data im (Some buf')) /\ zlen buf' = zlen buf /\
    forall x y z, in_pixels im x y z -> let p := (z * Height im + y) * Width im + x in
      exists s, - F <= s <= F /\ forall c, 0 <= c < Bpp im ->
        number (chan_at im buf' x y z c) = if flag mask p then clamp (Bpc im) (number (chan_at im buf x y z c) + s) else number (chan_at im buf x y z c).
Proof.
  intros rand mask tol im buf Hok Hby Hn Ht Hr Hm.
  assert (Hok' := Hok). destruct Hok' as (HDt & HW & HH & HD & Hbpp & Hbpc & Hbps & Hpl & Hsz & H32 & Hlen).
  assert (FR := factor_range _ _ Hn Ht). exists (factor (Bpc im) tol). unfold iluNoisify. rewrite HDt. replace (Bpc im =? 8) with false by lia.
  assert (SELF : with_Data im (Some buf) = im) by (rewrite <- HDt; destruct im; reflexivity).
  assert (NZ : forall x y z c, in_pixels im x y z -> 0 <= c < Bpp im -> number (chan_at im buf x y z c) = clamp (Bpc im) (number (chan_at im buf x y z c) + 0)).
  { intros x y z c Hp Hc. assert (PI := pixel_index im buf x y z Hok Hp). cbv zeta in PI. rewrite Z.add_0_r. unfold clamp, chan_at, pix_off.
    set (p := (z * Height im + y) * Width im + x) in *. set (N := Width im * Height im * Depth im) in *.
    assert (EL : zlen buf = N * Bpp im * Bpc im) by (unfold N; rewrite Hlen, Hsz, Hpl, Hbps; ring).
    assert (0 <= p * (Bpp im * Bpc im)) by (repeat apply Z.mul_nonneg_nonneg; lia). assert ((p + 1) * (Bpp im * Bpc im) <= N * (Bpp im * Bpc im)) by (apply Z.mul_le_mono_nonneg_r; nia).
    assert (0 <= c * Bpc im) by (apply Z.mul_nonneg_nonneg; lia). assert ((c + 1) * Bpc im <= Bpp im * Bpc im) by (apply Z.mul_le_mono_nonneg_r; lia).
    rewrite number_unle. match goal with |- context [slice buf ?o _] => set (o' := o) end.
    assert (OB : 0 <= o' /\ o' + Bpc im <= zlen buf) by (unfold o'; lia). assert (R := ConvInt.unle_range _ (bytes_slice buf o' (Bpc im) Hby)). rewrite zlen_slice in R by lia. lia. }
  destruct (factor (Bpc im) tol =? 0) eqn:Q.
  { exists buf. split; [lia|]. rewrite SELF. split; [reflexivity|]. split; [reflexivity|]. intros x y z Hp. exists 0. split; [lia|]. intros c Hc. destruct (flag mask _); [apply NZ; auto|reflexivity]. }
  set (N := Width im * Height im * Depth im).
  assert (EL : zlen buf = N * Bpp im * Bpc im) by (unfold N; rewrite Hlen, Hsz, Hpl, Hbps; ring).
  assert (EN : SizeOfData im / Bpc im = N * Bpp im) by (rewrite <- Hlen, EL; apply Z.div_mul; lia). rewrite EN.
  destruct (noise_ok rand mask (factor (Bpc im) tol) (Bpc im) (Bpp im) N buf) as (d & E & L & A); auto; try lia.
  { assert ((256 ^ Bpc im - 1) / 2 < 65536) by (destruct Hn as [-> | ->]; reflexivity). lia. }
  rewrite E. cbn [bind]. exists d. split; [lia|]. split; [reflexivity|]. split; [exact L|].
  intros x y z Hp. set (p := (z * Height im + y) * Width im + x). assert (PI := pixel_index im buf x y z Hok Hp). cbv zeta in PI. fold p N in PI. destruct (A p ltac:(lia)) as (s & Hs & As). exists s. split; [lia|].
  intros c Hc. specialize (As c Hc). unfold element in As. unfold chan_at, pix_off.
  match goal with |- context [slice d ?o _] => replace o with ((p * Bpp im + c) * Bpc im) by (unfold p; ring) end. exact As.
Qed.
Print Assumptions C80_noise_partial.

Definition grey2 : img := mkImg 2 1 1 1 1 2 (Some [10; 250]) 2 2 IL_LUMINANCE IL_UNSIGNED_BYTE IL_ORIGIN_UPPER_LEFT (mkPal None 0 IL_PAL_NONE) 0 0 0 0.
Example C80_ex : img_ok grey2 [10; 250] /\ bytes [10; 250] /\
  match iluNoisify (fun k => 5 + 200 * k) None 1%Q grey2 with Ok im => Data im = Some [0; 255] | _ => False end.
Proof. split; [unfold img_ok; vm_compute; intuition congruence|]. split; [apply bytes_Forall; repeat constructor; lia|]. vm_compute. reflexivity. Qed.

(** C80b: with channels of 32 bits the full tolerance divides by zero, for every image *)
Theorem C80_full_refuted : forall rand im buf, img_ok im buf -> Bpc im = 4 -> iluNoisify rand None 1%Q im = UB.
Proof.
  intros rand im buf Hok Hn. assert (Hok' := Hok). destruct Hok' as (HDt & HW & HH & HD & Hbpp & Hbpc & Hbps & Hpl & Hsz & H32 & Hlen).
  unfold iluNoisify. rewrite HDt, Hn. replace (4 =? 8) with false by lia. replace (factor 4 1) with 2147483648 by (vm_compute; reflexivity). cbn [Z.eqb].
  set (N := Width im * Height im * Depth im). assert (EN : SizeOfData im = N * Bpp im * 4) by (unfold N; rewrite Hsz, Hpl, Hbps, Hn; ring).
  assert (1 <= N) by (unfold N; nia). assert (N * Bpp im <= SizeOfData im) by nia. change (2 ^ 32) with 4294967296 in *.
  rewrite EN, Z.div_mul by lia. unfold noise. rewrite stride_loop by lia. rewrite loop_first_ub; [reflexivity|lia|]. reflexivity.
Qed.
Print Assumptions C80_full_refuted.

(** C80c: the channels of the upper half of the range of 32 bits are set to zero instead of being brightened *)
Theorem C80_bright_refuted : forall v s, 2147483648 <= v < 4294967296 -> 0 <= s < 4294967296 - v -> shifted 4 v s = Ok 0.
Proof.
  intros v s Hv Hs. unfold shifted. cbn [Z.eqb Pos.eqb]. assert (E : i32 v = v - 4294967296) by (unfold i32; lia). rewrite E.
  replace ((v - 4294967296 + s <? -2147483648) || (2147483647 <? v - 4294967296 + s)) with false by lia. replace (v - 4294967296 + s <? 0) with true by lia. reflexivity.
Qed.
Print Assumptions C80_bright_refuted.
