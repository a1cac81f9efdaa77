(** Property theorems C24: run-length encoding. *)
From Coq Require Import ZArith Zwf List Lia Bool.
From Verif Require Import Base Slices Rle RleSpec RleProofs.
Import ListNotations.
Open Scope Z_scope.

(** The full claim for one line: for every line, the encoder produces a code that decodes to
    the line, and reports its length. *)
Definition lossless_tga (bpp : Z) (line : list Z) : Prop :=
  exists code, rle_line Tga bpp 0 0 line 0 (zlen line / bpp) = Ok (zlen code, code) /\ tga_code bpp code line.

Lemma line_state : forall m bpp qa dw src p n r,
  rle_loop (S (Z.to_nat n)) m bpp qa (1 - (qa - dw) mod 2) src {| rp := p; rn := n; rsize := 0; rout := [] |} = r ->
  rle_line m bpp qa dw src p n = match r with Ok s => Ok (rle_end m s) | UB => UB | Fuel => Fuel end.
Proof. intros m bpp qa dw src p n r E. unfold rle_line. rewrite E. destruct r; reflexivity. Qed.

(** C24, TGA, any line (anywhere in a buffer) without two equal adjacent pixels: the code
    decodes to the line, the reported size is its length, and nothing outside the buffer is
    read.  Missing for the full claim: lines with equal neighbours, see [C24_overread]. *)
Theorem C24_tga_partial : forall bpp qa dw src a n, bytes src -> 1 <= bpp <= 4 -> 0 <= n < 2147483648 -> 0 <= a ->
  (a + n) * bpp <= zlen src -> no_repeat bpp src a n ->
  exists code, rle_line Tga bpp qa dw src (a * bpp) n = Ok (zlen code, code) /\
    tga_code bpp code (slice src (a * bpp) (n * bpp)) /\ bytes code /\ zlen code <= n * bpp + n.
Proof.
  intros bpp qa dw src a n B Hb Hn Ha L NR.
  destruct (distinct_ok src bpp Tga qa (1 - (qa - dw) mod 2) B Hb (or_introl eq_refl)) with (n := n) (fuel := S (Z.to_nat n)) (a := a) (size := 0) (out := @nil Z)
    as (code & E & C & BC & ZC); auto; [discriminate|].
  exists code. rewrite (line_state _ _ _ _ _ _ _ _ E). cbn [rle_end rsize rout app]. auto.
Qed.
Print Assumptions C24_tga_partial.

Example C24_tga_ex : rle_line Tga 3 0 0 [1;2;3; 4;5;6; 1;2;3] 0 3 = Ok (11, [1; 1;2;3; 4;5;6; 0; 1;2;3]).
Proof. reflexivity. Qed.
Example C24_tga_hyp : no_repeat 3 [1;2;3; 4;5;6; 1;2;3] 0 3 /\ bytes [1;2;3; 4;5;6; 1;2;3].
Proof.
  split.
  - intros i H1 H2. assert (i = 0 \/ i = 1) as [-> | ->] by lia; vm_compute; discriminate.
  - apply bytes_Forall. repeat constructor; lia.
Qed.

(** C24, SGI (one byte per element), likewise. *)
Theorem C24_sgi_partial : forall qa dw src a n, bytes src -> 0 <= n < 2147483648 -> 0 <= a ->
  a + n <= zlen src -> no_repeat 1 src a n ->
  exists code, rle_line Sgi 1 qa dw src a n = Ok (zlen code, code) /\
    sgi_code code (slice src a n) /\ zlen code <= 2 * n + 1.
Proof.
  intros qa dw src a n B Hn Ha L NR.
  destruct (distinct_ok src 1 Sgi qa (1 - (qa - dw) mod 2) B) with (n := n) (fuel := S (Z.to_nat n)) (a := a) (size := 0) (out := @nil Z)
    as (code & E & C & BC & ZC); auto; try lia; [right; reflexivity|].
  rewrite !Z.mul_1_r in *. exists (code ++ [0]). rewrite (line_state _ _ _ _ _ _ _ _ E). cbn [rle_end rsize rout app codes] in *.
  rewrite zlen_app. change (zlen [0]) with 1. split; [reflexivity|]. split; [exact C|lia].
Qed.
Print Assumptions C24_sgi_partial.

Example C24_sgi_ex : rle_line Sgi 1 0 0 [7; 8; 7] 0 3 = Ok (6, [130; 7; 8; 129; 7; 0]).
Proof. reflexivity. Qed.

(** Finding: for every line with two equal adjacent pixels, in a buffer that ends with the
    line (the scan line buffer of the SGI writer; the last line of an image for TGA), the
    encoder reads past the end of the buffer. *)
Theorem C24_overread : forall m bpp qa dw src n, m = Tga \/ m = Sgi -> bytes src -> 1 <= bpp <= 4 -> 1 <= n < 2147483648 ->
  zlen src = n * bpp -> ~ no_repeat bpp src 0 n ->
  rle_line m bpp qa dw src 0 n = UB.
Proof.
  intros m bpp qa dw src n Hm B Hb Hn L NR.
  rewrite (line_state m bpp qa dw src 0 n UB); [reflexivity|]. change 0 with (0 * bpp) at 1. apply repeat_ub; auto; lia.
Qed.
Print Assumptions C24_overread.

Example C24_overread_hyp : ~ no_repeat 1 [5; 9; 9] 0 3.
Proof. intros H. apply (H 1); [lia|lia|reflexivity]. Qed.

(** So the unrestricted claim is false; and when the line is not the last one, the bytes
    produced and the bytes reported differ. *)
Theorem C24_refuted :
  ~ (forall bpp line, bytes line -> 1 <= bpp <= 4 -> zlen line mod bpp = 0 -> lossless_tga bpp line) /\
  (exists src n size code, rle_line Tga 1 0 0 src 0 n = Ok (size, code) /\ size <> zlen code /\
     ~ tga_code 1 code (slice src 0 n)).
Proof.
  split.
  - intros H. destruct (H 1 [5; 5]) as (code & E & _); [apply bytes_Forall; repeat constructor; lia|lia|reflexivity|].
    vm_compute in E. discriminate.
  - exists [5; 5; 6], 2, 2, [129; 5; 6]. split; [vm_compute; reflexivity|]. split; [vm_compute; discriminate|].
    intros X. assert (N : forall d, ~ tga_code 1 [6] d).
    { intros d Y. inversion Y; match goal with Q : zlen ?p = _ |- _ => destruct p; cbn in *; try discriminate; unfold zlen in Q; cbn in Q; lia end. }
    inversion X; [lia|].
    match goal with Q : zlen ?p = 1, R : ?p ++ ?c = _, T : tga_code 1 ?c ?d |- _ =>
      destruct p as [|x [|y p]]; unfold zlen in Q; cbn in Q; try lia; injection R as -> ->; exact (N _ T) end.
Qed.
Print Assumptions C24_refuted.

(** BMP mode loses data: every nonempty line of up to 127 bytes without equal neighbours is
    encoded as an empty line. *)
Theorem C24_bmp_refuted : forall qa dw src n, bytes src -> 1 <= n <= 127 -> zlen src = n -> no_repeat 1 src 0 n ->
  rle_line Bmp 1 qa dw src 0 n = Ok (2, [0; 0]) /\ ~ bmp_code [0; 0] src.
Proof.
  intros qa dw src n B Hn L NR. split.
  - apply (line_state Bmp 1 qa dw src 0 n (Ok {| rp := 0; rn := 0; rsize := 0; rout := [] |})).
    cbn [rle_loop rn]. replace (0 <? n) with true by lia. unfold rle_iter. cbn [rn rp rsize rout max_run].
    rewrite (i32_small n) by lia. replace (127 <? n) with false by lia.
    destruct (count_diff_spec src 1 B ltac:(lia) 0 n) as (d & Ed & D1 & D2 & D3); try lia.
    destruct (count_same_spec src 1 B ltac:(lia) 0 n) as (s & Es & S1 & S2 & _); try lia. cbn [Z.mul] in *.
    rewrite Ed. cbn [bind]. rewrite Es. cbn [bind].
    assert (n - d - s <= 0).
    { destruct (Z.eq_dec n 1) as [->|]; [lia|]. destruct D3 as (D3 & D4 & D5); [lia|].
      assert (d = n - 1); [|lia]. destruct (Z.eq_dec d (n - 1)); auto. exfalso. apply (NR (0 + d)); try lia. apply D5. lia. }
    rewrite i32_small by lia. replace (n - d - s <? 3) with true by lia. cbn [andb].
    replace (Z.to_nat (n - d - s)) with O by lia. cbn [bmp_tail bind]. destruct (Z.to_nat n); reflexivity.
  - intros X. assert (Y := bmp_code_det _ _ _ X bmp_end). subst src. unfold zlen in L. cbn in L. lia.
Qed.
Print Assumptions C24_bmp_refuted.

Example C24_bmp_ex : rle_line Bmp 1 0 0 [3; 1; 4; 1; 5] 0 5 = Ok (2, [0; 0]).
Proof. reflexivity. Qed.

(** Whole images in TGA mode: if no line has equal neighbours and the output buffer has room for
    one header per pixel, the code decodes to the image data and its length is reported. *)
Lemma tga_app : forall bpp c1 d1 c2 d2, tga_code bpp c1 d1 -> tga_code bpp c2 d2 -> tga_code bpp (c1 ++ c2) (d1 ++ d2).
Proof.
  intros bpp c1 d1 c2 d2 H1 H2. induction H1 as [|h px c d R L H IH|h px c d R L H IH]; auto.
  - cbn [app]. rewrite <- !app_assoc. apply tga_raw; auto.
  - cbn [app]. rewrite <- !app_assoc. apply tga_run; auto.
Qed.

Theorem C24_image_partial : forall bpp da src w h d dst, bytes src -> 1 <= bpp <= 4 -> 0 <= w < 2147483648 -> 0 <= h -> 0 <= d ->
  zlen src = h * d * (w * bpp) -> h * d * (w * bpp + w) <= zlen dst -> zlen dst < 4294967296 ->
  (forall i, 0 <= i < h * d -> no_repeat bpp src (i * w) w) ->
  exists size dst', rle_image Tga bpp da src w h d dst = Ok (size, src, dst') /\ 0 <= size <= zlen dst /\ zlen dst' = zlen dst /\
    tga_code bpp (slice dst' 0 size) src /\ (forall j, size <= j -> geti dst' j = geti dst j).
Proof.
  intros bpp da src w h d dst B Hb Hw Hh Hd L LD L32 NR. unfold rle_image, rle_lines. set (k := h * d) in *.
  assert (Hk : 0 <= k) by (apply Z.mul_nonneg_nonneg; lia). clearbody k. clear Hh Hd h d.
  edestruct (loop_rule (Z * Z * list Z) (fun i '(destw, linelen, dst') =>
     0 <= destw <= i * (w * bpp + w) /\ zlen dst' = zlen dst /\ tga_code bpp (slice dst' 0 destw) (slice src 0 (i * (w * bpp))) /\
     forall j, destw <= j -> geti dst' j = geti dst j) 0 k) as [r [E I]]; [exact Hk| | |].
  3: { rewrite E. cbn [bind]. destruct r as [[destw ll] dst']. destruct I as (I1 & I2 & I3 & I4). exists destw, dst'.
       split; [reflexivity|]. split; [lia|]. split; [exact I2|]. split; [|exact I4].
       rewrite <- L, slice_all in I3. exact I3. }
  - cbn. split; [lia|]. split; [reflexivity|]. split; [constructor|]. auto.
  - intros i [[destw ll] dst'] Hi (I1 & I2 & I3 & I4). cbn beta iota.
    assert (S1 : 0 <= i * (w * bpp)) by nia.
    assert (S2 : (i + 1) * (w * bpp) <= k * (w * bpp)) by (apply Z.mul_le_mono_nonneg_r; nia).
    destruct (C24_tga_partial bpp (da + destw) ll src (i * w) w) as (code & Ec & C & BC & ZC); auto; [nia|nia|].
    replace (i * (w * bpp)) with (i * w * bpp) in * by ring.
    rewrite Ec. cbn [bind].
    assert (S3 : (i + 1) * (w * bpp + w) <= k * (w * bpp + w)) by (apply Z.mul_le_mono_nonneg_r; nia).
    assert (S4 : destw + zlen code <= (i + 1) * (w * bpp + w)) by nia.
    assert (0 <= zlen code) by auto.
    rewrite memcpy_ok by lia. cbn [bind]. eexists. split; [reflexivity|]. cbn beta iota. rewrite slice_all.
    rewrite u32_small by lia. split; [lia|]. split; [rewrite zlen_splice by lia; exact I2|]. split.
    + rewrite splice_prefix by lia.
      replace ((i + 1) * (w * bpp)) with (i * w * bpp + w * bpp) by ring. rewrite slice_split by nia. apply tga_app; auto.
    + intros j Hj. rewrite splice_after by lia. apply I4. lia.
Qed.
Print Assumptions C24_image_partial.

Example C24_image_ex : exists dst', rle_image Tga 1 0 [1; 2; 3; 4] 2 2 1 (repeat 0 8) = Ok (8, [1; 2; 3; 4], dst') /\
  dst' = [0;1;0;2;0;3;0;4].
Proof. eexists. split; vm_compute; reflexivity. Qed.

(** Finding: the TGA writer allocates SizeOfData + SizeOfData / 2 + 1 bytes (il_targa.cpp:760);
    a 2x2 luminance image without any repetition overflows that. *)
Theorem C24_tga_buffer_refuted : exists src w h, bytes src /\ zlen src = w * h /\
  (forall i, 0 <= i < h -> no_repeat 1 src (i * w) w) /\
  rle_image Tga 1 0 src w h 1 (repeat 0 (Z.to_nat (zlen src + zlen src / 2 + 1))) = UB.
Proof.
  exists [1; 2; 3; 4], 2, 2. split; [apply bytes_Forall; repeat constructor; lia|]. split; [reflexivity|]. split; [|reflexivity].
  intros i Hi j H1 H2. assert (i = 0 \/ i = 1) as [-> | ->] by lia; [assert (j = 0) as -> by lia|assert (j = 2) as -> by lia]; vm_compute; discriminate.
Qed.
Print Assumptions C24_tga_buffer_refuted.
