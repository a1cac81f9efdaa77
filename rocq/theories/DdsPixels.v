(** Masks and pixels of DirectDraw surfaces. *)
From Coq Require Import ZArith List Lia Bool.
From Verif Require Import Base Slices BitLemmas Elem Enums Utility Image ImageSpec Lump BmpSpec DxtSpec Dxt DxtDecode Dds DdsSpec.
Import ListNotations.
Open Scope Z_scope.

Lemma bits_all : forallb (fun n => forallb (fun s => (32 <? s + n) || ((fst (GetBitsFromMask ((2 ^ n - 1) * 2 ^ s)) =? 8 - n) && (snd (GetBitsFromMask ((2 ^ n - 1) * 2 ^ s)) =? s)))
  (map Z.of_nat (seq 0 32))) (map Z.of_nat (seq 1 8)) = true.
Proof. vm_compute. reflexivity. Qed.
Lemma bits_ok : forall n s, 1 <= n <= 8 -> 0 <= s -> s + n <= 32 -> GetBitsFromMask ((2 ^ n - 1) * 2 ^ s) = (8 - n, s).
Proof.
  intros n s Hn Hs Hb. assert (A := bits_all). rewrite forallb_forall in A. assert (I : In n (map Z.of_nat (seq 1 8))) by (apply in_map_iff; exists (Z.to_nat n); split; [lia|apply in_seq; lia]).
  specialize (A n I). cbv beta in A. rewrite forallb_forall in A. assert (I2 : In s (map Z.of_nat (seq 0 32))) by (apply in_map_iff; exists (Z.to_nat s); split; [lia|apply in_seq; lia]).
  specialize (A s I2). cbv beta in A. destruct (GetBitsFromMask ((2 ^ n - 1) * 2 ^ s)) as (L & R). cbn [fst snd] in A. f_equal; lia.
Qed.
Lemma bits_range : forall v n s, 0 <= n -> 0 <= bits_at v n s < 2 ^ n.
Proof. intros. unfold bits_at. apply Z.mod_pos_bound. apply Z.pow_pos_nonneg; lia. Qed.
Lemma pow8 : forall n, 0 <= n <= 8 -> 2 ^ n * 2 ^ (8 - n) = 256.
Proof. intros. rewrite <- Z.pow_add_r by lia. replace (n + (8 - n)) with 8 by lia. reflexivity. Qed.
Lemma colour_range : forall v n s, 0 <= n <= 8 -> 0 <= colour8_of v n s < 256.
Proof. intros v n s Hn. unfold colour8_of. assert (R := bits_range v n s ltac:(lia)). assert (P := pow8 n Hn). assert (0 < 2 ^ (8 - n)) by (apply Z.pow_pos_nonneg; lia). nia. Qed.
Lemma channel_ok : forall v m n s bits, mask_of m n s bits -> bits <= 32 -> channel v m = colour8_of v n s.
Proof.
  intros v m n s bits (Hn & Hs & Hb & ->) H32. unfold channel. destruct (Z.eq_dec n 0) as [-> | N0].
  - unfold colour8_of, bits_at. change (2 ^ 0) with 1. rewrite Z.mod_1_r. cbn [Z.sub Z.mul]. change (1 - 1) with 0. rewrite Z.mul_0_l. cbn [GetBitsFromMask Z.eqb]. rewrite Z.land_0_r. reflexivity.
  - rewrite bits_ok by lia. assert (0 < 2 ^ s) by (apply Z.pow_pos_nonneg; lia). assert (E : Z.shiftr (Z.land v ((2 ^ n - 1) * 2 ^ s)) s = bits_at v n s).
    { rewrite Z.shiftr_land. rewrite (Z.shiftr_div_pow2 ((2 ^ n - 1) * 2 ^ s)) by lia. rewrite Z.div_mul by lia. rewrite land_mask by lia. rewrite Z.shiftr_div_pow2 by lia. reflexivity. }
    rewrite E. rewrite Z.shiftl_mul_pow2 by lia. fold (colour8_of v n s). apply u8_small. apply colour_range. lia.
Qed.
(** only the bits of the pixel count *)
Lemma bits_low : forall a b k n s, 0 <= n -> 0 <= s -> s + n <= k -> bits_at (a + 2 ^ k * b) n s = bits_at a n s.
Proof.
  intros a b k n s Hn Hs Hk. unfold bits_at. replace (2 ^ k) with (2 ^ (k - s - n) * 2 ^ n * 2 ^ s) by (rewrite <- !Z.pow_add_r by lia; f_equal; lia).
  replace (2 ^ (k - s - n) * 2 ^ n * 2 ^ s * b) with (2 ^ (k - s - n) * b * 2 ^ n * 2 ^ s) by ring. assert (0 < 2 ^ s) by (apply Z.pow_pos_nonneg; lia). assert (0 < 2 ^ n) by (apply Z.pow_pos_nonneg; lia).
  rewrite Z.div_add by lia. rewrite Z.mod_add by lia. reflexivity.
Qed.
(** what is stored for alpha *)
Definition alpha_lib (v m : Z) : Z :=
  let a := channel v m in let L := fst (GetBitsFromMask m) in
  if 7 <=? L then (if a =? 0 then 0 else 255) else if 4 <=? L then Z.lor a (Z.shiftr a 4) else a.
Lemma lor_all : forallb (fun n => forallb (fun f => (2 ^ n <=? f) || (Z.lor (f * 2 ^ (8 - n)) (Z.shiftr (f * 2 ^ (8 - n)) 4) =? f * 2 ^ (8 - n) + f * 2 ^ (4 - n))) (map Z.of_nat (seq 0 16))) [2; 3; 4] = true.
Proof. vm_compute. reflexivity. Qed.
Lemma alpha_lib_ok : forall v m n s bits, mask_of m n s bits -> bits <= 32 -> alpha_lib v m = alpha8_of v n s.
Proof.
  intros v m n s bits M H32. assert (C := channel_ok v m n s bits M H32). destruct M as (Hn & Hs & Hb & ->). unfold alpha_lib. rewrite C. cbv zeta. unfold alpha8_of. destruct (Z.eq_dec n 0) as [-> | N0].
  - change ((2 ^ 0 - 1) * 2 ^ s) with 0. cbn [GetBitsFromMask Z.eqb fst Z.leb Z.compare andb]. reflexivity.
  - rewrite bits_ok by lia. cbn [fst]. assert (R := bits_range v n s ltac:(lia)). unfold colour8_of. destruct (Z.eq_dec n 1) as [-> | N1].
    + change (7 <=? 8 - 1) with true. change (1 =? 1) with true. cbv iota. change (2 ^ (8 - 1)) with 128. change (2 ^ 1) with 2 in R. destruct (bits_at v 1 s * 128 =? 0) eqn:E; lia.
    + replace (7 <=? 8 - n) with false by lia. replace (n =? 1) with false by lia. replace (2 <=? n) with true by lia. cbn [andb]. destruct (n <=? 4) eqn:E4; [|replace (4 <=? 8 - n) with false by lia; reflexivity].
      replace (4 <=? 8 - n) with true by lia. assert (A := lor_all). rewrite forallb_forall in A. assert (I : In n [2; 3; 4]) by (cbn; lia). specialize (A n I). cbv beta in A. rewrite forallb_forall in A.
      assert (P : 2 ^ n <= 16) by (assert (n = 2 \/ n = 3 \/ n = 4) as [-> | [-> | ->]] by lia; cbn; lia). assert (I2 : In (bits_at v n s) (map Z.of_nat (seq 0 16))) by (apply in_map_iff; exists (Z.to_nat (bits_at v n s)); split; [lia|apply in_seq; lia]).
      specialize (A _ I2). cbv beta in A. lia.
Qed.

Lemma number_app : forall a b, number (a ++ b) = number a + 2 ^ (8 * zlen a) * number b.
Proof.
  induction a as [|x a IH]; intros b; [cbn [app number]; change (zlen []) with 0; change (2 ^ (8 * 0)) with 1; lia|]. cbn [app number]. rewrite IH, zlen_cons. assert (0 <= zlen a) by auto.
  replace (8 * (1 + zlen a)) with (8 + 8 * zlen a) by lia. rewrite Z.pow_add_r by lia. change (2 ^ 8) with 256. ring.
Qed.
Lemma pixel_read : forall c N S k n ReadI, readable N S -> 0 <= k < n -> n * S <= zlen c ->
  exists b, read_pixel c (k * S) (n * N - k * N) S ReadI = Ok (number (slice c (k * S) S) + 2 ^ (8 * S) * b).
Proof.
  intros c N S k n ReadI HR Hk Hl. unfold read_pixel. assert (HS : 1 <= S <= 4) by (unfold readable in HR; lia). assert (T : 0 <= k * S /\ k * S + (n - k) * S = n * S) by nia. destruct T as (T0 & T1).
  destruct (n * N - k * N <? 4) eqn:E.
  - exists 0. rewrite Z.mul_0_r, Z.add_0_r. assert (S = 3 \/ S = 1 \/ S = 2) as HS3. { destruct HR as [?|[?|[?|(-> & ->)]]]; lia. }
    assert (k * S + S <= zlen c) by nia. destruct HS3 as [-> | [-> | ->]]; cbn [Z.eqb Pos.eqb]; cbv iota; apply rdn_ok; lia.
  - assert (R4 : k * S + 4 <= zlen c). { assert (4 <= (n - k) * S); [|lia]. assert (4 <= (n - k) * N) by lia. destruct HR as [(-> & ?)|[(-> & ?)|[(-> & ?)|(-> & ->)]]]; nia. }
    rewrite rdn_ok by lia. change (Z.of_nat 4) with 4. exists (number (slice c (k * S + S) (4 - S))). f_equal. replace 4 with (S + (4 - S)) at 1 by lia. rewrite slice_split by lia. rewrite number_app. rewrite zlen_slice by lia. reflexivity.
Qed.

Section Fields.
Variables (h : dds) (q : fields) (N S bits : Z).
Hypothesis (HR : readable N S) (Hb : bits <= 8 * S).
Hypothesis (MR : mask_of (RMask h) (rn q) (rs q) bits) (MG : mask_of (GMask h) (gn q) (gs q) bits) (MB : mask_of (BMask h) (bn q) (DdsSpec.bs q) bits) (MA : mask_of (AMask h) (an q) (as_ q) bits).
Hypothesis (NA : N = 2 -> ~ 2 <= an q <= 4).

Lemma HS4 : 1 <= S <= 4. Proof using HR. unfold readable in HR. lia. Qed.
Lemma colour_low : forall a b n s m, mask_of m n s bits -> colour8_of (a + 2 ^ (8 * S) * b) n s = colour8_of a n s.
Proof using Hb. intros a b n s m (Hn & Hs & Hk & _). unfold colour8_of. rewrite bits_low by lia. reflexivity. Qed.
Lemma alpha_low : forall a b n s m, mask_of m n s bits -> alpha8_of (a + 2 ^ (8 * S) * b) n s = alpha8_of a n s.
Proof using Hb. intros a b n s m (Hn & Hs & Hk & _). unfold alpha8_of. rewrite bits_low by lia. reflexivity. Qed.

(** all pixels *)
Lemma fields_ok : forall f im c d n, BitCount h / 8 = S -> (f =? PF_LUMINANCE) && (BitCount h =? 16) && (RMask h =? 65535) = false -> Bpp im = N -> SizeOfData im = n * N -> 0 <= n -> n * N < 4294967296 ->
  zlen d = n * N -> n * S <= zlen c ->
  exists d', DecompressARGB h f im c d = Ok d' /\ zlen d' = n * N /\ forall p k, 0 <= p < n -> 0 <= k < N -> geti d' (p * N + k) = channel_of q N (number (slice c (p * S) S)) k.
Proof using HR Hb MR MG MB MA NA.
  intros f im c d n HBC HF IN IS Hn Hw Ld Lc. unfold DecompressARGB. rewrite HF, IN, IS, HBC. assert (H32 : bits <= 32) by (assert (X := HS4); lia).
  assert (N4 : N = 1 \/ N = 2 \/ N = 3 \/ N = 4) by (unfold readable in HR; lia). rewrite stride_loop by lia. cbn [Z.add].
  match goal with |- context [loop 0 n ?b ?s] => destruct (loop_rule _ (fun k (st : Z * Z * list Z) => fst (fst st) = k * S /\ zlen (snd st) = n * N /\
    forall p j, 0 <= p < k -> 0 <= j < N -> geti (snd st) (p * N + j) = channel_of q N (number (slice c (p * S) S)) j) 0 n b s Hn) as (((T & v) & d') & E & (HT & L & G)) end; cbn [fst snd] in *.
  - split; [reflexivity|]. split; [exact Ld|]. intros; lia.
  - intros k ((T & v0) & d0) Hk (HT & L & G). cbn [fst snd] in *. subst T. destruct (pixel_read c N S k n v0 HR Hk Lc) as (b & ->). cbn [bind]. set (v := number (slice c (k * S) S)) in *.
    assert (K : k * N + N <= n * N) by (destruct N4 as [-> | [-> | [-> | ->]]]; lia). assert (K0 : 0 <= k * N) by (destruct N4 as [-> | [-> | [-> | ->]]]; lia).
    assert (SEP : forall p j, 0 <= p < k -> 0 <= j < N -> 0 <= p * N + j < k * N) by (destruct N4 as [-> | [-> | [-> | ->]]]; lia).
    rewrite (channel_ok _ _ _ _ _ MR H32), (colour_low _ _ _ _ _ MR). rewrite wr_ok by lia. cbn [bind].
    assert (AL := alpha_lib_ok (v + 2 ^ (8 * S) * b) _ _ _ _ MA H32). rewrite (alpha_low _ _ _ _ _ MA) in AL. unfold alpha_lib in AL. cbv zeta in AL.
    assert (A2 : N = 2 -> (7 <=? fst (GetBitsFromMask (AMask h))) = false -> (4 <=? fst (GetBitsFromMask (AMask h))) = false).
    { intros X Y. specialize (NA X). destruct MA as (Hn8 & Hs & Hbb & EM). rewrite EM in *. destruct (Z.eq_dec (an q) 0) as [Z0|Z0]; [rewrite Z0 in *; reflexivity|]. rewrite bits_ok in * by lia. cbn [fst] in *. lia. }
    match goal with |- context [bind ?m _] => assert (W : exists d2, m = Ok d2 /\ zlen d2 = n * N /\ (forall j, 0 <= j < k * N -> geti d2 j = geti d0 j) /\ forall j, 0 <= j < N -> geti d2 (k * N + j) = channel_of q N v j) end.
    { destruct N4 as [-> | [-> | [-> | ->]]].
      - cbn [Z.leb Z.compare Pos.compare Pos.compare_cont Z.eqb Pos.eqb]. cbv iota. eexists. split; [reflexivity|]. split; [rewrite zlen_upd; lia|]. split; intros j Hj; rewrite geti_upd by lia; [replace (j =? k * 1) with false by lia; reflexivity|]. replace j with 0 by lia. replace (k * 1 + 0 =? k * 1) with true by lia. reflexivity.
      - cbn [Z.leb Z.compare Pos.compare Pos.compare_cont Z.eqb Pos.eqb]. cbv iota. specialize (A2 eq_refl).
        assert (W : forall x, x = alpha8_of v (an q) (as_ q) -> exists d2, wr (upd d0 (k * 2) (colour8_of v (rn q) (rs q))) (k * 2 + 1) x = Ok d2 /\ zlen d2 = n * 2 /\ (forall j, 0 <= j < k * 2 -> geti d2 j = geti d0 j) /\ forall j, 0 <= j < 2 -> geti d2 (k * 2 + j) = channel_of q 2 v j).
        { intros x ->. rewrite wr_ok by (rewrite zlen_upd; lia). eexists. split; [reflexivity|]. split; [rewrite !zlen_upd by (rewrite ?zlen_upd; lia); lia|]. split; intros j Hj; rewrite !geti_upd by (rewrite ?zlen_upd; lia).
          - replace (j =? k * 2 + 1) with false by lia. replace (j =? k * 2) with false by lia. reflexivity.
          - unfold channel_of. change (2 =? 2) with true. assert (j = 0 \/ j = 1) as [-> | ->] by lia; cbn [Z.eqb].
            + replace (k * 2 + 0 =? k * 2 + 1) with false by lia. replace (k * 2 + 0 =? k * 2) with true by lia. reflexivity.
            + replace (k * 2 + 1 =? k * 2 + 1) with true by lia. reflexivity. }
        destruct (7 <=? fst (GetBitsFromMask (AMask h))); [apply W; exact AL|]. rewrite (A2 eq_refl) in *. apply W. exact AL.
      - change (3 <=? 3) with true. change (3 =? 4) with false. cbv iota. rewrite (channel_ok _ _ _ _ _ MG H32), (colour_low _ _ _ _ _ MG), (channel_ok _ _ _ _ _ MB H32), (colour_low _ _ _ _ _ MB). rewrite wr_ok by (rewrite zlen_upd; lia). cbn [bind]. rewrite wr_ok by (rewrite !zlen_upd by (rewrite ?zlen_upd; lia); lia). cbn [bind].
        eexists. split; [reflexivity|]. split; [rewrite !zlen_upd by (rewrite ?zlen_upd by (rewrite ?zlen_upd; lia); lia); lia|]. split; intros j Hj; rewrite !geti_upd by (rewrite ?zlen_upd by (rewrite ?zlen_upd; lia); lia).
        + replace (j =? k * 3 + 2) with false by lia. replace (j =? k * 3 + 1) with false by lia. replace (j =? k * 3) with false by lia. reflexivity.
        + unfold channel_of. assert (j = 0 \/ j = 1 \/ j = 2) as [-> | [-> | ->]] by lia; cbn [Z.eqb Pos.eqb].
          * replace (k * 3 + 0 =? k * 3 + 2) with false by lia. replace (k * 3 + 0 =? k * 3 + 1) with false by lia. replace (k * 3 + 0 =? k * 3) with true by lia. reflexivity.
          * replace (k * 3 + 1 =? k * 3 + 2) with false by lia. replace (k * 3 + 1 =? k * 3 + 1) with true by lia. reflexivity.
          * replace (k * 3 + 2 =? k * 3 + 2) with true by lia. reflexivity.
      - change (3 <=? 4) with true. change (4 =? 4) with true. cbv iota. rewrite (channel_ok _ _ _ _ _ MG H32), (colour_low _ _ _ _ _ MG), (channel_ok _ _ _ _ _ MB H32), (colour_low _ _ _ _ _ MB). rewrite wr_ok by (rewrite zlen_upd; lia). cbn [bind]. rewrite wr_ok by (rewrite !zlen_upd by (rewrite ?zlen_upd; lia); lia). cbn [bind].
        match goal with |- context [wr ?x (k * 4 + 3) _] => set (d3 := x) end. assert (L3 : zlen d3 = n * 4) by (unfold d3; rewrite !zlen_upd by (rewrite ?zlen_upd by (rewrite ?zlen_upd; lia); lia); lia).
        assert (G3 : forall j, 0 <= j -> geti d3 j = if j =? k * 4 + 2 then colour8_of v (bn q) (DdsSpec.bs q) else if j =? k * 4 + 1 then colour8_of v (gn q) (gs q) else if j =? k * 4 then colour8_of v (rn q) (rs q) else geti d0 j) by (intros j Hj; unfold d3; rewrite !geti_upd by (rewrite ?zlen_upd by (rewrite ?zlen_upd; lia); lia); reflexivity).
        assert (W : forall x, x = alpha8_of v (an q) (as_ q) -> exists d2, wr d3 (k * 4 + 3) x = Ok d2 /\ zlen d2 = n * 4 /\ (forall j, 0 <= j < k * 4 -> geti d2 j = geti d0 j) /\ forall j, 0 <= j < 4 -> geti d2 (k * 4 + j) = channel_of q 4 v j).
        { intros x ->. rewrite wr_ok by lia. eexists. split; [reflexivity|]. split; [rewrite zlen_upd; lia|]. split; intros j Hj; rewrite geti_upd by lia; rewrite G3 by lia.
          - replace (j =? k * 4 + 3) with false by lia. replace (j =? k * 4 + 2) with false by lia. replace (j =? k * 4 + 1) with false by lia. replace (j =? k * 4) with false by lia. reflexivity.
          - unfold channel_of. assert (j = 0 \/ j = 1 \/ j = 2 \/ j = 3) as [-> | [-> | [-> | ->]]] by lia; cbn [Z.eqb Pos.eqb].
            + replace (k * 4 + 0 =? k * 4 + 3) with false by lia. replace (k * 4 + 0 =? k * 4 + 2) with false by lia. replace (k * 4 + 0 =? k * 4 + 1) with false by lia. replace (k * 4 + 0 =? k * 4) with true by lia. reflexivity.
            + replace (k * 4 + 1 =? k * 4 + 3) with false by lia. replace (k * 4 + 1 =? k * 4 + 2) with false by lia. replace (k * 4 + 1 =? k * 4 + 1) with true by lia. reflexivity.
            + replace (k * 4 + 2 =? k * 4 + 3) with false by lia. replace (k * 4 + 2 =? k * 4 + 2) with true by lia. reflexivity.
            + replace (k * 4 + 3 =? k * 4 + 3) with true by lia. reflexivity. }
        destruct (7 <=? fst (GetBitsFromMask (AMask h))); [apply W; exact AL|]. destruct (4 <=? fst (GetBitsFromMask (AMask h))); apply W; exact AL. }
    destruct W as (d2 & -> & L2 & O2 & N2). cbn [bind]. eexists. split; [reflexivity|]. cbn [fst snd]. split; [lia|]. split; [exact L2|]. intros p j Hp Hj. destruct (Z.eq_dec p k) as [-> | ].
    + apply N2. lia.
    + rewrite O2 by (apply SEP; lia). apply G; lia.
  - exists d'. rewrite E. split; [reflexivity|]. auto.
Qed.
End Fields.
