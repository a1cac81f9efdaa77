(** C93: saving SGI images, and loading what was saved. *)
From Coq Require Import ZArith List Lia Bool.
From Verif Require Import Base Slices Elem BitLemmas Enums Utility Image ImageSpec Flip Lump LumpSpec LumpProofs LumpProps Channels Endian EndianProps Rle RleSpec RawProps Pcx PcxProofs TgaProofs Sgi SgiSpec SgiProofs SgiLoad.
Import ListNotations.
Open Scope Z_scope.

Lemma run_bushort : forall v k f, 0 <= v < 65536 -> zlen f < 2147483640 -> run_file (SaveBigUShort v k) f (zlen f) = run_file k (f ++ big2 v) (zlen (f ++ big2 v)).
Proof.
  intros v k f Hv H. unfold SaveBigUShort. rewrite u16_small by lia.
  replace (le 2 (iSwapUShort v)) with (big2 v). { apply run_write; try lia; reflexivity. }
  rewrite le2, swap16 by lia. unfold little2, big2. f_equal; [lia|f_equal; lia].
Qed.
Lemma run_buint : forall v k f, zlen f < 2147483640 -> run_file (SaveBigUInt v k) f (zlen f) = run_file k (f ++ big4 (u32 v)) (zlen (f ++ big4 (u32 v))).
Proof.
  intros v k f H. unfold SaveBigUInt. replace (le 4 (iSwapUInt (u32 v))) with (big4 (u32 v)). { apply run_write; try lia; reflexivity. }
  rewrite le4. symmetry. apply swap32_bytes. apply u32_range.
Qed.
Lemma run_bint : forall v k f, zlen f < 2147483640 -> run_file (SaveBigInt v k) f (zlen f) = run_file k (f ++ big4 (u32 v)) (zlen (f ++ big4 (u32 v))).
Proof. exact run_buint. Qed.
Lemma run_pad : forall n i k f, zlen f + 4 * Z.of_nat n < 2147483640 ->
  run_file (for_s n i (fun _ k => SaveLittleInt 0 k) k) f (zlen f) = run_file k (f ++ repeat 0 (4 * n)) (zlen (f ++ repeat 0 (4 * n))).
Proof.
  induction n as [|n IH]; intros i k f H; cbn [for_s].
  - cbn [Nat.mul repeat]. rewrite app_nil_r. reflexivity.
  - unfold SaveLittleInt at 1. rewrite run_write by (try reflexivity; lia). rewrite IH by (rewrite zlen_app; change (zlen (le 4 0)) with 4; lia).
    change (le 4 0) with (repeat 0 4). rewrite <- app_assoc, <- repeat_app. replace (4 * S n)%nat with (4 + 4 * n)%nat by lia. reflexivity.
Qed.

(** the header that is written *)
Definition hd (st W H N : Z) : list Z :=
  big2 474 ++ [st] ++ [1] ++ big2 (if N =? 1 then 2 else 3) ++ big2 W ++ big2 H ++ big2 N ++ big4 0 ++ big4 255 ++ big4 0 ++ repeat 0 80 ++ big4 0 ++ repeat 0 404.
Lemma zlen_hd : forall st W H N, zlen (hd st W H N) = 512.
Proof. reflexivity. Qed.

(** images that are written as they are *)
Definition sgi_plain_image (im : img) : Prop :=
  Bpc im = 1 /\ Depth im = 1 /\ Type_ im = IL_UNSIGNED_BYTE /\ Width im < 65536 /\ Height im < 65536 /\
  (Bpp im = 1 \/ Bpp im = 3 \/ Bpp im = 4) /\ Format im = sgi_format (Bpp im).

Lemma run_header : forall im c k, sgi_plain_image im -> 1 <= Width im -> 1 <= Height im ->
  run_file (sgi_header im c None k) [] 0 = run_file k (hd (if c then 1 else 0) (Width im) (Height im) (Bpp im)) 512.
Proof.
  intros im c k (_ & _ & ET & HW & HH & HB & EF) W1 H1. unfold sgi_header. rewrite ET, EF. change (IL_UNSIGNED_BYTE =? IL_UNSIGNED_BYTE) with true. change (IL_UNSIGNED_BYTE =? IL_BYTE) with false. cbv iota zeta.
  replace ((sgi_format (Bpp im) =? IL_LUMINANCE) || (sgi_format (Bpp im) =? IL_COLOUR_INDEX)) with (Bpp im =? 1) by (destruct HB as [-> | [-> | ->]]; reflexivity).
  unfold sgi_name. change (@nil Z) with (@nil Z) at 1. change 0 with (zlen (@nil Z)) at 1.
  rewrite run_bushort by (try change (zlen (@nil Z)) with 0; lia). rewrite run_putc by reflexivity. rewrite run_putc by reflexivity.
  rewrite run_bushort by (try destruct (Bpp im =? 1); try lia; reflexivity). do 3 (rewrite run_bushort by (try lia; reflexivity)). do 3 (rewrite run_bint by reflexivity).
  rewrite run_putn by reflexivity. rewrite run_buint by reflexivity. rewrite run_pad by reflexivity.
  change (u32 0) with 0. change (u32 255) with 255. change (4 * 101)%nat with 404%nat. cbn [app]. rewrite <- !app_assoc. reflexivity.
Qed.

Lemma big2_be : forall v, 0 <= v < 65536 -> 256 * (v / 256 mod 256) + v mod 256 = v.
Proof. intros v Hv. lia. Qed.
Lemma hd_head : forall st W H N tail, st = 0 \/ st = 1 -> 0 <= W < 65536 -> 0 <= H < 65536 -> N = 1 \/ N = 3 \/ N = 4 -> sgi_head (hd st W H N ++ tail) st 1 W H N.
Proof.
  intros st W H N tail Hst HW HH HN. unfold sgi_head. rewrite zlen_app, zlen_hd. assert (0 <= zlen tail) by auto.
  split; [lia|]. split; [reflexivity|]. split; [reflexivity|]. split; [reflexivity|]. split; [destruct HN as [-> | [-> | ->]]; discriminate|].
  split; [exact (big2_be W HW)|]. split; [exact (big2_be H HH)|]. split; [apply (big2_be N); lia|]. change (0 < 128). lia.
Qed.
Lemma bytes_app : forall a b, bytes a -> bytes b -> bytes (a ++ b).
Proof. intros a b Ha Hb. apply bytes_Forall. apply Forall_app. split; apply bytes_Forall; auto. Qed.
Lemma bytes_hd : forall st W H N, st = 0 \/ st = 1 -> bytes (hd st W H N).
Proof.
  intros st W H N Hst. assert (M : forall v, 0 <= v mod 256 < 256) by (intros; apply Z.mod_pos_bound; lia).
  assert (B2 : forall v, bytes (big2 v)) by (intros v; apply bytes_Forall; repeat constructor; apply M). assert (B4 : forall v, bytes (big4 v)) by (intros v; apply bytes_Forall; repeat constructor; apply M).
  assert (B0 : forall n, bytes (repeat 0 n)) by (intros n; apply bytes_Forall; apply Forall_forall; intros x Hx; apply repeat_spec in Hx; lia).
  unfold hd. repeat first [apply bytes_app | apply B2 | apply B4 | apply B0]; apply bytes_Forall; repeat constructor; lia.
Qed.

(** ** Planes *)
Lemma run_plane : forall n td i B k f, 0 <= i -> 1 <= B -> (n = O \/ i + (Z.of_nat n - 1) * B < zlen td) -> zlen f + Z.of_nat n < 2147483640 ->
  run_file (put_plane n td i B k) f (zlen f) = run_file k (f ++ plane n td i B) (zlen (f ++ plane n td i B)).
Proof.
  induction n as [|n IH]; intros td i B k f Hi HB HL Hf; cbn [put_plane plane].
  - rewrite app_nil_r. reflexivity.
  - destruct HL as [HL|HL]; [discriminate|]. assert (0 <= Z.of_nat n * B) by (apply Z.mul_nonneg_nonneg; lia). replace (Z.of_nat (S n) - 1) with (Z.of_nat n) in HL by lia.
    rewrite at_ok by lia. rewrite run_putc by lia. rewrite IH; try lia.
    + rewrite <- app_assoc. reflexivity.
    + rewrite zlen_app. change (zlen [geti td i]) with 1. lia.
Qed.
Lemma run_planes_all : forall m c n td N f cnt, 0 <= c -> c + Z.of_nat m <= N -> 1 <= N -> 0 <= n -> zlen td = n * N -> zlen f + Z.of_nat m * n < 2147483640 ->
  (forall c, 0 <= c < N -> cnt c = Z.to_nat n) ->
  exists px, (forall k, run_file (for_s m c (fun c k => put_plane (cnt c) td c N k) k) f (zlen f) = run_file k (f ++ px) (zlen (f ++ px))) /\ zlen px = Z.of_nat m * n /\
    forall j i, 0 <= j < Z.of_nat m -> 0 <= i < n -> geti px (j * n + i) = geti td (i * N + (c + j)).
Proof.
  induction m as [|m IH]; intros c n td N f cnt Hc HM HN Hn L Hf HC; cbn [for_s].
  - exists []. rewrite app_nil_r. split; [reflexivity|]. split; [reflexivity|]. intros; lia.
  - assert (0 <= Z.of_nat m * n) by (apply Z.mul_nonneg_nonneg; lia). rewrite HC by lia. assert (LP := zlen_plane (Z.to_nat n) td c N). rewrite Z2Nat.id in LP by lia.
      destruct (IH (c + 1) n td N (f ++ plane (Z.to_nat n) td c N) cnt) as (px & E & Lx & G); auto; try lia; [rewrite zlen_app; lia|].
      exists (plane (Z.to_nat n) td c N ++ px). split. { intros k. rewrite run_plane; try lia. rewrite E, <- app_assoc. reflexivity. } split; [rewrite zlen_app; lia|].
      intros j i Hj Hi. assert (0 <= j * n) by (apply Z.mul_nonneg_nonneg; lia). rewrite geti_app by lia. rewrite LP. destruct (Z.eq_dec j 0) as [->|].
      * replace (0 * n + i <? n) with true by lia. rewrite Z.mul_0_l, Z.add_0_l. rewrite geti_plane by lia. f_equal. lia.
      * assert (1 * n <= j * n) by (apply Z.mul_le_mono_nonneg_r; lia). replace (j * n + i <? n) with false by lia. replace (j * n + i - n) with ((j - 1) * n + i) by ring. rewrite G by lia. f_equal. lia.
Qed.

Lemma sgi_data : forall alloc im buf, img_ok im buf -> Origin im = IL_ORIGIN_UPPER_LEFT \/ Origin im = IL_ORIGIN_LOWER_LEFT -> allocator_ok alloc -> alloc (SizeOfData im) <> None ->
  exists td, (if Origin im =? IL_ORIGIN_UPPER_LEFT then iGetFlipped alloc im else Ok (Data im)) = Ok (Some td) /\ zlen td = SizeOfData im /\
    forall x t z k, in_image im x t z k -> geti td (pix_off im x (Height im - 1 - t) z k) = picture im buf x t z k.
Proof.
  intros alloc im buf Hok HO HA Hn. destruct (lower_data alloc im buf Hok HO HA Hn) as (td & E & L & G & _). exists td. split; [|auto].
  destruct HO as [HO|HO]; rewrite HO in *; exact E.
Qed.

Lemma sgi_no_target : forall im, sgi_plain_image im -> sgi_target im = None.
Proof.
  intros im (_ & _ & ET & _ & _ & HB & EF). unfold sgi_target. rewrite ET, EF. destruct HB as [-> | [-> | ->]]; reflexivity.
Qed.

Lemma flat_size : forall im buf, img_ok im buf -> Bpc im = 1 -> Depth im = 1 -> SizeOfData im = Width im * Height im * Bpp im.
Proof. intros im buf (_ & _ & _ & _ & _ & _ & E1 & E2 & E3 & _) HB HD. rewrite E3, E2, E1, HB, HD. ring. Qed.

(** C93a: saving without compression and loading again gives the picture back. *)
Theorem C93_roundtrip : forall alloc conv im buf, allocator_ok alloc -> img_ok im buf -> bytes buf -> sgi_plain_image im ->
  Origin im = IL_ORIGIN_UPPER_LEFT \/ Origin im = IL_ORIGIN_LOWER_LEFT -> alloc (SizeOfData im) <> None -> SizeOfData im < 2147483000 ->
  exists p F, (forall k, iSaveSgiInternal alloc false conv None im k = Ok (true, p k)) /\ file_of (p Done) = Some F /\
    (forall report, file_of (p (Tell report)) = run_file (report (zlen F)) F (zlen F)) /\ zlen F = 512 + SizeOfData im /\ bytes F /\
    sgi_head F 0 1 (Width im) (Height im) (Bpp im) /\
    forall alloc' old u2 u4, allocator_ok alloc' -> (forall i, zlen (u2 i) = 2) -> (forall i, zlen (u4 i) = 4) -> alloc' (SizeOfData im) <> None ->
    exists im' buf', ilLoadSgiL alloc' old u2 u4 F = Ok (true, im', []) /\ img_ok im' buf' /\ Width im' = Width im /\ Height im' = Height im /\ Depth im' = 1 /\
      Bpp im' = Bpp im /\ Bpc im' = 1 /\ Format im' = Format im /\ Type_ im' = Type_ im /\
      forall x t c, in_image im x t 0 c -> picture im' buf' x t 0 c = picture im buf x t 0 c.
Proof.
  intros alloc conv im buf HA Hok B HP HO Hn HS. destruct (sgi_data alloc im buf Hok HO HA Hn) as (td & ET & LT & GT).
  assert (SD : SizeOfData im = Width im * Height im * Bpp im) by (apply (flat_size im buf); [auto|apply HP|apply HP]). unfold iSaveSgiInternal. rewrite sgi_no_target by auto. cbn [bind andb]. rewrite ET. cbn [bind negb]. cbv iota.
  assert (Hok' := Hok). destruct Hok' as (_ & W1 & H1 & D1 & _ & _ & E1 & E2 & E3 & _ & LB). assert (HP' := HP). destruct HP' as (PC & PD & PT & PW & PH & PB & PF).
  set (W := Width im) in *. set (H := Height im) in *. set (N := Bpp im) in *. set (n := W * H) in *. assert (0 < n) by (apply Z.mul_pos_pos; lia).
  unfold put_planes. fold N. rewrite SD.
  set (cnt := fun c => Z.to_nat ((n * N - c + N - 1) / N)).
  assert (HC : forall c, 0 <= c < N -> cnt c = Z.to_nat n). { intros c Hc. unfold cnt. f_equal. replace (n * N - c + N - 1) with (n * N + (N - 1 - c)) by ring. rewrite Z.div_add_l by lia. rewrite Z.div_small by lia. lia. }
  destruct (run_planes_all (Z.to_nat N) 0 n td N (hd 0 W H N) cnt) as (px & E & Lx & G); auto; try lia.
  { rewrite zlen_hd, Z2Nat.id by lia. lia. }
  rewrite Z2Nat.id in * by lia. rewrite zlen_hd in E.
  exists (fun k => sgi_header im false None (for_s (Z.to_nat N) 0 (fun c k => put_plane (cnt c) td c N k) k)), (hd 0 W H N ++ px).
  assert (LF : zlen (hd 0 W H N ++ px) = 512 + n * N) by (rewrite zlen_app, zlen_hd; lia).
  assert (CELL : forall c i, 0 <= c < N -> 0 <= i < n -> exists x t, in_image im x t 0 c /\ geti td (i * N + c) = picture im buf x t 0 c).
  { intros c i Hc Hi. assert (A := Z.div_mod i W ltac:(lia)). assert (A2 := Z.mod_pos_bound i W ltac:(lia)). assert (0 <= i / W) by (apply Z.div_pos; lia). assert (i / W < H) by (apply Z.div_lt_upper_bound; lia).
    exists (i mod W), (H - 1 - i / W). assert (II : in_image im (i mod W) (H - 1 - i / W) 0 c). { unfold in_image. fold W H N. rewrite PC, PD. lia. }
    split; [auto|]. rewrite <- GT by auto. f_equal. unfold pix_off. fold W H N. rewrite PC. rewrite A at 1. ring. }
  assert (BF : bytes (hd 0 W H N ++ px)).
  { apply bytes_app; [apply bytes_hd; auto|]. intros j Hj. rewrite Lx in Hj. assert (A := Z.div_mod j n ltac:(lia)). assert (A2 := Z.mod_pos_bound j n ltac:(lia)). assert (0 <= j / n) by (apply Z.div_pos; lia). assert (j / n < N) by (apply Z.div_lt_upper_bound; lia).
    replace j with (j / n * n + j mod n) by lia. rewrite G by lia. destruct (CELL (0 + j / n) (j mod n)) as (x & t & (Hx & Ht & Hz & Hk) & ->); try lia. unfold picture. apply B. rewrite LB. fold H.
    assert (P : forall y, 0 <= y < H -> 0 <= pix_off im x y 0 (0 + j / n) < SizeOfData im). { intros y Hy. unfold pix_off. fold W H N. rewrite PC, SD. rewrite Z.mul_1_r. 
      assert (0 <= x * N) by (apply Z.mul_nonneg_nonneg; lia). assert ((x + 1) * N <= W * N) by (apply Z.mul_le_mono_nonneg_r; lia). assert (0 <= y * (W * N)) by (apply Z.mul_nonneg_nonneg; [lia|apply Z.mul_nonneg_nonneg; lia]).
      assert ((y + 1) * (W * N) <= H * (W * N)) by (apply Z.mul_le_mono_nonneg_r; [apply Z.mul_nonneg_nonneg; lia|lia]). assert (EQ : n * N = H * (W * N)) by (unfold n; ring). lia. }
    destruct (Origin im =? IL_ORIGIN_UPPER_LEFT); apply P; lia. }
  split; [reflexivity|]. assert (R : forall k, file_of (sgi_header im false None (for_s (Z.to_nat N) 0 (fun c k => put_plane (cnt c) td c N k) k)) = run_file k (hd 0 W H N ++ px) (zlen (hd 0 W H N ++ px))).
  { intros k. unfold file_of. rewrite run_header by (auto; lia). fold W H N. apply E. }
  split; [apply R|]. split; [intros report; rewrite R; reflexivity|].
  split; [lia|]. split; [auto|]. split; [apply hd_head; auto; lia|].
  intros alloc' old u2 u4 HA' U2 U4 Hn'. destruct (C92_verbatim alloc' old u2 u4 (hd 0 W H N ++ px) W H N) as (im' & buf' & EL & Hok' & EW & EH & ED & EB & EC & EF & ETy & GP); auto; try lia.
  { apply hd_head; auto; lia. } { replace (W * N * H) with (n * N) by (unfold n; ring). exact Hn'. }
  exists im', buf'. rewrite PF, PT. repeat match goal with |- _ /\ _ => split end; auto. intros x t c (Hx & Ht & Hz & Hk). fold W H N in Hx, Ht, Hk. rewrite PC in Hk.
  rewrite GP by lia. unfold sgi_verbatim. rewrite geti_app.
  2:{ assert (0 <= c * (W * H)) by (apply Z.mul_nonneg_nonneg; lia). assert (0 <= (H - 1 - t) * W) by (apply Z.mul_nonneg_nonneg; lia). lia. }
  rewrite zlen_hd. fold n.
  assert (0 <= c * n) by (apply Z.mul_nonneg_nonneg; lia). assert (0 <= (H - 1 - t) * W) by (apply Z.mul_nonneg_nonneg; lia). assert ((H - 1 - t + 1) * W <= H * W) by (apply Z.mul_le_mono_nonneg_r; lia).
  replace (512 + c * n + (H - 1 - t) * W + x <? 512) with false by lia. replace (512 + c * n + (H - 1 - t) * W + x - 512) with (c * n + ((H - 1 - t) * W + x)) by lia.
  rewrite G by lia. rewrite <- (GT x t 0 c) by (unfold in_image; fold W H N; rewrite PC, PD; lia). f_equal. unfold pix_off. fold W H N. rewrite PC. ring.
Qed.
Print Assumptions C93_roundtrip.
