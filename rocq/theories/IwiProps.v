(** C107: IWI textures. *)
From Coq Require Import ZArith List Lia Bool.
From Verif Require Import Base Slices BitLemmas Elem Enums Utility Image ImageSpec Lump LumpSpec LumpProofs LumpProps Endian ConvImgProps PcxProofs TgaProofs BmpSpec BmpDecode DxtSpec Dxt DxtProofs DxtDecode DxtProps Small SmallSpec SmallTex SmallProps Dds DdsSpec DdsProofs DdsLevels Iwi IwiSpec IwiProofs IwiLoad.
Import ListNotations.
Open Scope Z_scope.

(** a use of the loader: an allocator that works, variables of the right sizes, a whole file *)
Definition iwi_use (alloc : allocator) (u4 : list Z) (u2 : Z -> list Z) (F : list Z) : Prop :=
  allocator_ok alloc /\ plenty alloc /\ zlen u4 = 4 /\ (forall i, zlen (u2 i) = 2) /\ bytes F /\ zlen F < 4294967295.
(** a file is loaded: the picture and its [n] smaller levels, with the right sizes, formats and pixels *)
Definition iwi_loaded (alloc : allocator) (u4 : list Z) (u2 : Z -> list Z) (F : list Z) (W H n N fmt : Z) (size : Z -> Z -> Z) (px : Z -> Z -> Z -> Z -> Z -> Z) : Prop :=
  forall old e, exists ims, iLoadIwiInternal alloc u4 u2 old (Rd F 0 (zlen F) e) = Ok (true, ims, []) /\ zlen ims = n + 1 /\
    forall k, 0 <= k <= n -> exists im, nth_error ims (Z.to_nat k) = Some im /\
      SmallSpec.shows im (side W k) (side H k) N fmt (px (level_at size W H n k) (side W k)).
Definition byte_format (f N fmt : Z) : Prop := f = 1 /\ N = 4 /\ fmt = IL_BGRA \/ f = 2 /\ N = 3 /\ fmt = IL_BGR \/ f = 4 /\ N = 1 /\ fmt = IL_ALPHA.

(** The levels that are loaded end where one side is 1; see C107_levels_refuted for what is missing. *)
Theorem C107_bytes_partial : forall alloc u4 u2 F f N fmt W H, iwi_use alloc u4 u2 F -> iwi_header F f W H -> byte_format f N fmt -> W * N * H < 4294967296 ->
  let n := if alone F then 0 else Z.log2 (Z.min W H) in
  let size := fun W H => W * N * H in
  28 + bytes_from size W H 0 (Z.to_nat (n + 1)) <= zlen F ->
  iwi_loaded alloc u4 u2 F W H n N fmt size (fun p W => stored F p W N).
Proof.
  intros alloc u4 u2 F f N fmt W H (HA & HP & L4 & L2 & BF & HF) HD BFm HS n size HL old e. assert (HD2 := HD). destruct HD2 as (L28 & _ & _ & _ & _ & HW & HH).
  assert (HN : 1 <= N <= 4) by (unfold byte_format in BFm; lia).
  apply (load_ok F BF ltac:(lia) alloc u4 u2 old e f N fmt W H size (fun p W => stored F p W N)); auto.
  - left. unfold formats. unfold byte_format in BFm. unfold IWI_ARGB8, IWI_RGB8, IWI_ARGB4, IWI_A8. lia.
  - destruct BFm as [(-> & -> & ->) | [(-> & -> & ->) | (-> & -> & ->)]]; reflexivity.
  - intros w h A B. unfold size. nia.
  - apply bytes_read; auto; try lia. unfold IWI_ARGB8, IWI_RGB8, IWI_A8. unfold byte_format in BFm. lia.
Qed.

(** Four bits per channel: bits b are loaded as the byte 16 b; see C107_nibbles_refuted. *)
Theorem C107_nibbles_partial : forall alloc u4 u2 F W H, iwi_use alloc u4 u2 F -> iwi_header F 3 W H -> W * 4 * H < 2147483648 ->
  let n := if alone F then 0 else Z.log2 (Z.min W H) in
  let size := fun W H => W * H * 2 in
  28 + bytes_from size W H 0 (Z.to_nat (n + 1)) <= zlen F ->
  iwi_loaded alloc u4 u2 F W H n 4 IL_BGRA size (fun p W x t c => 16 * nibble F p W x t c).
Proof.
  intros alloc u4 u2 F W H (HA & HP & L4 & L2 & BF & HF) HD HS n size HL old e. assert (HD2 := HD). destruct HD2 as (L28 & _ & _ & _ & _ & HW & HH).
  apply (load_ok F BF ltac:(lia) alloc u4 u2 old e 3 4 IL_BGRA W H size (fun p W x t c => 16 * nibble F p W x t c)); auto; try lia.
  - left. unfold formats. unfold IWI_ARGB8, IWI_RGB8, IWI_ARGB4, IWI_A8. lia.
  - intros w h A B. unfold size. nia.
  - apply nibbles_read; auto; lia.
Qed.

(** ** Compressed textures *)
Lemma quads_pow : forall i, 2 <= i -> quads (2 ^ i) = 2 ^ (i - 2).
Proof. intros i Hi. unfold quads. replace (2 ^ i) with (2 ^ (i - 2) * 4). 2:{ change 4 with (2 ^ 2). rewrite <- Z.pow_add_r by lia. f_equal. lia. } lia. Qed.
Lemma whole_pow : forall i j, 0 <= i -> 0 <= j -> (2 <= i /\ 2 <= j) \/ (i <= j + 1 /\ j <= i + 1) -> whole (2 ^ i) (2 ^ j).
Proof.
  intros i j Hi Hj C. assert ((2 <= i /\ 2 <= j) \/ (i <= 2 /\ j <= 2)) as [(A & B)|(A & B)] by lia; unfold whole.
  - rewrite !quads_pow by lia. assert (0 < 2 ^ (i - 2)) by (apply Z.pow_pos_nonneg; lia). assert (0 < 2 ^ (j - 2)) by (apply Z.pow_pos_nonneg; lia).
    assert (E : 2 ^ i * 2 ^ j = 2 ^ (i - 2) * 2 ^ (j - 2) * 16). { change 16 with (2 ^ 4). rewrite <- !Z.pow_add_r by lia. f_equal. lia. } rewrite E. nia.
  - assert (i = 0 \/ i = 1 \/ i = 2) as [-> | [-> | ->]] by lia; (assert (j = 0 \/ j = 1 \/ j = 2) as [-> | [-> | ->]] by lia); vm_compute; reflexivity.
Qed.
Lemma side_pow : forall a k, 0 <= k <= a -> side (2 ^ a) k = 2 ^ (a - k).
Proof. intros a k Hk. unfold side. rewrite Z.pow_sub_r by lia. assert (0 < 2 ^ (a - k)) by (apply Z.pow_pos_nonneg; lia). rewrite Z.pow_sub_r in H by lia. lia. Qed.
Lemma quads_mono : forall a b, a <= b -> quads a <= quads b. Proof. intros. unfold quads. lia. Qed.

(** DXT1, DXT3 and DXT5: sides of at least four pixels without smaller levels, or a side at most twice the
    other.  See C107_dxt_refuted. *)
Definition dxt_format (f fmt bs : Z) : Prop := f = 11 /\ fmt = IL_DXT1 /\ bs = 8 \/ f = 12 /\ fmt = IL_DXT3 /\ bs = 16 \/ f = 13 /\ fmt = IL_DXT5 /\ bs = 16.
Theorem C107_dxt_partial : forall alloc u4 u2 F f fmt bs W H, iwi_use alloc u4 u2 F -> iwi_header F f W H -> dxt_format f fmt bs ->
  (exists a, 0 <= a /\ W = 2 ^ a) -> (exists b, 0 <= b /\ H = 2 ^ b) -> moderate W H 1 ->
  (alone F = true /\ 4 <= W /\ 4 <= H) \/ (W <= 2 * H /\ H <= 2 * W) ->
  let n := if alone F then 0 else Z.log2 (Z.min W H) in
  let size := fun W H => quads W * quads H * bs in
  28 + bytes_from size W H 0 (Z.to_nat (n + 1)) <= zlen F ->
  iwi_loaded alloc u4 u2 F W H n 4 IL_RGBA size (fun p W x t c => texel fmt (slice F (p + (t / 4 * quads W + x / 4) * bs) bs) (in_block x t) c).
Proof.
  intros alloc u4 u2 F f fmt bs W H (HA & HP & L4 & L2 & BF & HF) HD DF PW PH MO C n size HL old e. assert (HD2 := HD). destruct HD2 as (L28 & _ & _ & _ & _ & HW & HH).
  assert (K : iwi_dxt f fmt bs) by exact DF. assert (SZ := moderate_sizes _ _ _ MO). assert (MO2 := MO). destruct MO2 as (_ & _ & _ & LIM).
  apply (load_ok F BF ltac:(lia) alloc u4 u2 old e f 4 IL_RGBA W H size (fun p W x t c => stored_blocks F fmt bs p W 1 x t 0 c)); auto; try lia.
  - right. split; [|split; [exact PW|exact PH]]. destruct DF as [(-> & _) | [(-> & _) | (-> & _)]]; reflexivity.
  - destruct DF as [(-> & _) | [(-> & _) | (-> & _)]]; reflexivity.
  - intros w h A B. unfold size. assert (1 <= quads w) by (unfold quads; lia). assert (1 <= quads h) by (unfold quads; lia). assert (0 <= bs) by (unfold dxt_format in DF; lia). nia.
  - apply dxt_read; auto; try lia. intros k Hk. destruct PW as (a & Ha & ->). destruct PH as (b & Hb & ->). split.
    + unfold moderate. assert (S1 := side_pos (2 ^ a) k). assert (S2 := side_pos (2 ^ b) k). assert (Q1 := quads_mono _ _ (side_le (2 ^ a) k ltac:(lia) ltac:(lia))). assert (Q2 := quads_mono _ _ (side_le (2 ^ b) k ltac:(lia) ltac:(lia))).
      assert (0 <= quads (side (2 ^ a) k)) by (unfold quads; lia). assert (0 <= quads (side (2 ^ b) k)) by (unfold quads; lia). repeat split; try lia. nia.
    + assert (LM : Z.log2 (Z.min (2 ^ a) (2 ^ b)) = Z.min a b).
      { destruct (Z.min_spec a b) as [(A & ->)|(A & ->)].
        - rewrite Z.min_l by (apply Z.pow_le_mono_r; lia). apply Z.log2_pow2. lia.
        - rewrite Z.min_r by (apply Z.pow_le_mono_r; lia). apply Z.log2_pow2. lia. }
      assert (KA : k <= a /\ k <= b /\ (alone F = true -> k = 0)). { unfold smaller, until_one in Hk. rewrite LM in Hk. destruct (alone F); [repeat split; lia|]. repeat split; lia. }
      rewrite !side_pow by lia. apply whole_pow; try lia. destruct C as [(AL & W4 & H4)|(R1 & R2)].
      * left. rewrite (proj2 (proj2 KA) AL). change 4 with (2 ^ 2) in W4, H4. apply Z.pow_le_mono_r_iff in W4; [|lia|lia]. apply Z.pow_le_mono_r_iff in H4; [|lia|lia]. lia.
      * right. assert (E1 : 2 * 2 ^ b = 2 ^ (b + 1)) by (rewrite Z.pow_add_r by lia; change (2 ^ 1) with 2; ring). assert (E2 : 2 * 2 ^ a = 2 ^ (a + 1)) by (rewrite Z.pow_add_r by lia; change (2 ^ 1) with 2; ring).
        rewrite E1 in R1. rewrite E2 in R2. apply Z.pow_le_mono_r_iff in R1; [|lia|lia]. apply Z.pow_le_mono_r_iff in R2; [|lia|lia]. lia.
Qed.

(** ** Files that are not IWI textures, or end too early *)
Definition iwi_valid (F : list Z) : Prop :=
  (slice F 0 4 = iwi_name 5 \/ slice F 0 4 = iwi_name 6) /\ 0 < word2 F 6 /\ 0 < word2 F 8 /\
  (geti F 4 = 1 \/ geti F 4 = 2 \/ geti F 4 = 3 \/ geti F 4 = 4 \/
   (11 <= geti F 4 <= 13 /\ (exists a, 0 <= a /\ word2 F 6 = 2 ^ a) /\ (exists b, 0 <= b /\ word2 F 8 = 2 ^ b))).
Lemma check_valid : forall F, bytes F -> 28 <= zlen F < 4294967295 -> exists b, iCheckIwi (head_of F) = Ok b /\ (b = true <-> iwi_valid F).
Proof.
  intros F BF HF. assert (S := sides_in F BF HF). unfold iCheckIwi, head_of. cbn [ISig IFormat IWidth IHeight].
  destruct (negb (word4 F 0 =? 107566921) && negb (word4 F 0 =? 90789705)) eqn:E1.
  { exists false. split; [reflexivity|]. split; [discriminate|]. intros (NM & _). exfalso. destruct NM as [E|E]; rewrite (named F BF HF _ E) in E1; discriminate E1. }
  assert (NM : slice F 0 4 = iwi_name 5 \/ slice F 0 4 = iwi_name 6) by (destruct (word4 F 0 =? 107566921) eqn:E3; [right|left]; apply (name_only F BF HF); lia).
  destruct ((word2 F 6 =? 0) || (word2 F 8 =? 0)) eqn:E2. { exists false. split; [reflexivity|]. split; [discriminate|]. intros (_ & A & B & _). lia. }
  destruct (is_dxt (geti F 4)) eqn:ED.
  - destruct (np2_exact (word2 F 6)) as (z & -> & Z1); [lia|]. destruct (np2_exact (word2 F 8)) as (y & -> & Y1); [lia|]. cbn [bind].
    assert (R : 11 <= geti F 4 <= 13) by (unfold is_dxt, IWI_DXT1, IWI_DXT3, IWI_DXT5 in ED; lia).
    destruct (negb (word2 F 6 =? z) || negb (word2 F 8 =? y)) eqn:E3.
    + exists false. split; [reflexivity|]. split; [discriminate|]. intros (_ & _ & _ & C). assert (P : (exists a, 0 <= a /\ word2 F 6 = 2 ^ a) /\ (exists b, 0 <= b /\ word2 F 8 = 2 ^ b)) by (destruct C as [C|[C|[C|[C|(_ & C)]]]]; [lia|lia|lia|lia|exact C]). destruct P as (P1 & P2). apply Z1 in P1. apply Y1 in P2. lia.
    + exists true. split; [rewrite !orb_true_r; reflexivity|]. split; [|reflexivity]. intros _. split; [exact NM|]. split; [lia|]. split; [lia|]. do 4 right. split; [exact R|]. split; [apply Z1|apply Y1]; lia.
  - cbn [bind]. eexists. split; [reflexivity|]. unfold is_dxt, IWI_DXT1, IWI_DXT3, IWI_DXT5 in ED. unfold IWI_ARGB8, IWI_RGB8, IWI_ARGB4, IWI_A8. split.
    + intros Q. split; [exact NM|]. split; [lia|]. split; [lia|]. lia.
    + intros (_ & _ & _ & C). assert (geti F 4 = 1 \/ geti F 4 = 2 \/ geti F 4 = 3 \/ geti F 4 = 4) by (destruct C as [C|[C|[C|[C|(C & _)]]]]; lia). lia.
Qed.
Theorem C107_header_refused : forall alloc u4 u2 old F e, zlen u4 = 4 -> (forall i, zlen (u2 i) = 2) -> bytes F -> 28 <= zlen F < 4294967295 -> ~ iwi_valid F ->
  iLoadIwiInternal alloc u4 u2 old (Rd F 0 (zlen F) e) = Ok (false, [old], [IL_INVALID_FILE_HEADER]).
Proof.
  intros alloc u4 u2 old F e L4 L2 BF HF NV. unfold iLoadIwiInternal. rewrite get_head by auto. cbn [bind]. destruct (check_valid F BF HF) as (b & -> & V). cbn [bind]. destruct b; [exfalso; apply NV, V; reflexivity|]. reflexivity.
Qed.
(** Asking whether a file is an IWI texture gives the right answer, but leaves the position behind the header. *)
Theorem C107_valid : forall u4 u2 F e, zlen u4 = 4 -> (forall i, zlen (u2 i) = 2) -> bytes F -> 28 <= zlen F < 4294967295 ->
  exists b, iIsValidIwi u4 u2 (Rd F 0 (zlen F) e) = Ok (b, Rd F 28 (zlen F) e) /\ (b = true <-> iwi_valid F).
Proof.
  intros u4 u2 F e L4 L2 BF HF. unfold iIsValidIwi. rewrite get_head by auto. cbn [bind]. unfold iTellRLump. cbn [rpos]. change (i32 0) with 0.
  unfold iSeekRLump, seek_lump. cbn [rpos Lump.rsize rlump rerr]. change (IL_SEEK_CUR =? IL_SEEK_SET) with false. change (IL_SEEK_CUR =? IL_SEEK_CUR) with true. cbv iota. change (28 + 0) with 28. rewrite (u32_small 28) by lia. replace (zlen F <? 28) with false by lia. cbn [bind].
  destruct (check_valid F BF HF) as (b & -> & V). cbn [bind]. exists b. split; [reflexivity|exact V].
Qed.
Theorem C107_position_refuted : ~ forall u4 u2 F e b r, zlen u4 = 4 -> (forall i, zlen (u2 i) = 2) -> bytes F -> 28 <= zlen F < 4294967295 -> iIsValidIwi u4 u2 (Rd F 0 (zlen F) e) = Ok (b, r) -> rpos r = 0.
Proof.
  intros Q. pose (F := repeat 0 28). assert (BF : bytes F) by (apply bytes_check; reflexivity). assert (HF : 28 <= zlen F < 4294967295) by (change (zlen F) with 28; lia). assert (L2 : forall i, zlen (ex_u2 i) = 2) by reflexivity.
  destruct (C107_valid [0; 0; 0; 0] ex_u2 F [] eq_refl L2 BF HF) as (b & E & _). specialize (Q [0; 0; 0; 0] ex_u2 F [] _ _ eq_refl L2 BF HF E). discriminate Q.
Qed.

(** pixels that are missing: loading fails *)
Theorem C107_short_refused : forall alloc u4 u2 old F e f N fmt W H, iwi_use alloc u4 u2 F -> iwi_header F f W H -> byte_format f N fmt -> W * N * H < 4294967296 -> alone F = true ->
  zlen F < 28 + W * N * H -> exists ims, iLoadIwiInternal alloc u4 u2 old (Rd F 0 (zlen F) e) = Ok (false, ims, []).
Proof.
  intros alloc u4 u2 old F e f N fmt W H (HA & HP & L4 & L2 & BF & HF0) HD BFm HS AL HL. assert (HD2 := HD). destruct HD2 as (L28 & _ & EF & EW & EH & HW & HH). assert (HF : 28 <= zlen F < 4294967295) by lia.
  assert (HN : 1 <= N <= 4) by (unfold byte_format in BFm; lia). unfold iLoadIwiInternal. rewrite get_head by auto. cbn [bind].
  assert (FM : formats f) by (unfold formats; unfold byte_format in BFm; unfold IWI_ARGB8, IWI_RGB8, IWI_ARGB4, IWI_A8; lia). rewrite (check_ok F BF HF f W H) by auto. cbn [bind negb].
  cbn [head_of IFlags IFormat IWidth IHeight]. rewrite EF, EW, EH. assert (GF : IwiGetFormat f = (fmt, N)) by (destruct BFm as [(-> & -> & ->) | [(-> & -> & ->) | (-> & -> & ->)]]; reflexivity). rewrite GF. cbv zeta.
  destruct (init_level alloc N fmt W H HA HP HN ltac:(lia) ltac:(lia) HS old 0 ltac:(lia)) as (blk & EI & LB). rewrite !side_0 in EI, LB by lia. rewrite EI. cbn [bind negb]. rewrite low_top.
  assert (A3 : Z.land (geti F 5) 3 = geti F 5 mod 4) by (change 3 with (Z.ones 2); rewrite Z.land_ones by lia; reflexivity). rewrite A3. fold (alone F). rewrite AL. cbn [negb bind IwiReadImage]. unfold ReadLevel. cbn [top_img Data SizeOfData].
  replace ((f =? IWI_ARGB8) || (f =? IWI_RGB8) || (f =? IWI_A8)) with true by (destruct BFm as [(-> & _) | [(-> & _) | (-> & _)]]; reflexivity).
  destruct (read_short F 28 e blk (W * N * H)) as (c & b' & r & -> & Hc); try lia. cbn [bind]. replace (c =? W * N * H) with false by lia. eexists. reflexivity.
Qed.

(** ** What is missing *)
(** The levels of an IWI texture go on until both sides are 1.  The loader stops as soon as one is, and so takes
    the first smaller levels for the larger ones: the full statement is false. *)
Definition iwi_levels_full : Prop := forall alloc u4 u2 F f N fmt W H, iwi_use alloc u4 u2 F -> iwi_header F f W H -> byte_format f N fmt -> W * N * H < 4294967296 ->
  let n := if alone F then 0 else Z.log2 (Z.max W H) in
  let size := fun W H => W * N * H in
  28 + bytes_from size W H 0 (Z.to_nat (n + 1)) <= zlen F ->
  iwi_loaded alloc u4 u2 F W H n N fmt size (fun p W => stored F p W N).
(** two pixels, 10 and 20, behind the level of one pixel, 15 *)
Definition iwi_two : list Z := [73; 87; 105; 6; 4; 0; 2; 0; 1; 0] ++ repeat 0 18 ++ [15; 10; 20].
Lemma two_use : forall F, bytes F -> zlen F < 4294967295 -> iwi_use ex_alloc [1; 2; 3; 4] ex_u2 F.
Proof. intros F B L. exact (conj ex_A (conj ex_P (conj eq_refl (conj (fun _ => eq_refl) (conj B L))))). Qed.
Theorem C107_levels_refuted : ~ iwi_levels_full.
Proof.
  intros Q. assert (U : iwi_use ex_alloc [1; 2; 3; 4] ex_u2 iwi_two) by (apply two_use; [apply bytes_check; reflexivity|reflexivity]).
  assert (HD : iwi_header iwi_two 4 2 1) by (repeat split; try (vm_compute; reflexivity); try (vm_compute; discriminate); right; reflexivity).
  specialize (Q ex_alloc [1; 2; 3; 4] ex_u2 iwi_two 4 1 IL_ALPHA 2 1 U HD ltac:(unfold byte_format; tauto) ltac:(lia)). cbv zeta in Q.
  destruct (Q ltac:(vm_compute; discriminate) ex_old []) as (ims & E & L & _).
  assert (E1 : exists im, iLoadIwiInternal ex_alloc [1; 2; 3; 4] ex_u2 ex_old (Rd iwi_two 0 (zlen iwi_two) []) = Ok (true, [im], [])) by (vm_compute; eexists; reflexivity).
  destruct E1 as (im & E1). rewrite E1 in E. injection E as <-. vm_compute in L. discriminate L.
Qed.
(** the picture it shows instead: the level of one pixel, then the first pixel *)
Example iwi_two_shown : exists im, iLoadIwiInternal ex_alloc [1; 2; 3; 4] ex_u2 ex_old (Rd iwi_two 0 (zlen iwi_two) []) = Ok (true, [im], []) /\ Data im = Some [15; 10].
Proof. vm_compute. eexists. split; reflexivity. Qed.

(** Four bits should fill the range of a byte, 15 becoming 255; the brightest colour becomes 240. *)
Definition iwi_white : list Z := [73; 87; 105; 6; 3; 3; 1; 0; 1; 0] ++ repeat 0 18 ++ [255; 255].
Theorem C107_nibbles_refuted : ~ forall alloc u4 u2 F W H, iwi_use alloc u4 u2 F -> iwi_header F 3 W H -> W * 4 * H < 2147483648 -> alone F = true -> 28 + W * H * 2 <= zlen F ->
  iwi_loaded alloc u4 u2 F W H 0 4 IL_BGRA (fun W H => W * H * 2) (fun p W x t c => 17 * nibble F p W x t c).
Proof.
  intros Q. assert (U : iwi_use ex_alloc [1; 2; 3; 4] ex_u2 iwi_white) by (apply two_use; [apply bytes_check; reflexivity|reflexivity]).
  assert (HD : iwi_header iwi_white 3 1 1) by (repeat split; try (vm_compute; reflexivity); try (vm_compute; discriminate); right; reflexivity).
  destruct (Q ex_alloc [1; 2; 3; 4] ex_u2 iwi_white 1 1 U HD ltac:(lia) eq_refl ltac:(vm_compute; discriminate) ex_old []) as (ims & E & L & G).
  destruct (G 0 ltac:(lia)) as (im & EI & buf & (DI & _) & _ & _ & _ & _ & _ & _ & _ & PX).
  assert (E1 : match iLoadIwiInternal ex_alloc [1; 2; 3; 4] ex_u2 ex_old (Rd iwi_white 0 (zlen iwi_white) []) with Ok (_, im :: _, _) => forall buf, Data im = Some buf -> picture im buf 0 0 0 0 = 240 | _ => False end)
    by (vm_compute; intros b X; injection X as <-; reflexivity).
  rewrite E in E1. destruct ims as [|im1 ims]; [contradiction|]. cbn in EI. injection EI as <-. specialize (E1 buf DI). rewrite (PX 0 0 0) in E1 by (vm_compute; split; [discriminate|reflexivity]). vm_compute in E1. discriminate E1.
Qed.

(** Without the condition on the sides: a DXT1 texture of 8 by 2 pixels has two blocks, of which the loader reads
    one; the decoder then reads past the data. *)
Definition iwi_wide : list Z := [73; 87; 105; 6; 11; 3; 8; 0; 2; 0] ++ repeat 0 18 ++ repeat 85 16.
Theorem C107_dxt_refuted : ~ forall alloc u4 u2 F f fmt bs W H, iwi_use alloc u4 u2 F -> iwi_header F f W H -> dxt_format f fmt bs ->
  (exists a, 0 <= a /\ W = 2 ^ a) -> (exists b, 0 <= b /\ H = 2 ^ b) -> moderate W H 1 -> alone F = true -> 28 + quads W * quads H * bs <= zlen F ->
  forall old e, iLoadIwiInternal alloc u4 u2 old (Rd F 0 (zlen F) e) <> UB.
Proof.
  intros Q. assert (U : iwi_use ex_alloc [1; 2; 3; 4] ex_u2 iwi_wide) by (apply two_use; [apply bytes_check; reflexivity|reflexivity]).
  assert (HD : iwi_header iwi_wide 11 8 2) by (repeat split; try (vm_compute; reflexivity); try (vm_compute; discriminate); right; reflexivity).
  assert (D : dxt_format 11 IL_DXT1 8) by (unfold dxt_format; tauto). assert (E : iLoadIwiInternal ex_alloc [1; 2; 3; 4] ex_u2 ex_old (Rd iwi_wide 0 (zlen iwi_wide) []) = UB) by (vm_compute; reflexivity).
  revert E. apply (Q ex_alloc [1; 2; 3; 4] ex_u2 iwi_wide 11 IL_DXT1 8 8 2 U HD D); [exists 3; split; [lia|reflexivity]|exists 1; split; [lia|reflexivity]|vm_compute; repeat split; discriminate|reflexivity|vm_compute; discriminate].
Qed.

(** ** Concrete files *)
(** a texture of 2 by 2 pixels of one byte with its level of one pixel *)
Definition iwi_ex : list Z := [73; 87; 105; 5; 4; 0; 2; 0; 2; 0] ++ repeat 0 18 ++ [15; 10; 20; 30; 40].
Example C107_bytes_ex : iwi_loaded ex_alloc [1; 2; 3; 4] ex_u2 iwi_ex 2 2 1 1 IL_ALPHA (fun W H => W * 1 * H) (fun p W => stored iwi_ex p W 1) /\
  level_at (fun W H => W * 1 * H) 2 2 1 0 = 29 /\ level_at (fun W H => W * 1 * H) 2 2 1 1 = 28 /\ stored iwi_ex 29 2 1 1 0 0 = 20.
Proof.
  split; [|repeat split; vm_compute; reflexivity]. apply (C107_bytes_partial ex_alloc [1; 2; 3; 4] ex_u2 iwi_ex 4 1 IL_ALPHA 2 2).
  - apply two_use; [apply bytes_check; reflexivity|reflexivity].
  - repeat split; try (vm_compute; reflexivity); try (vm_compute; discriminate). left. reflexivity.
  - unfold byte_format; tauto.
  - reflexivity.
  - vm_compute. discriminate.
Qed.
Example C107_nibbles_ex : iwi_loaded ex_alloc [1; 2; 3; 4] ex_u2 iwi_white 1 1 0 4 IL_BGRA (fun W H => W * H * 2) (fun p W x t c => 16 * nibble iwi_white p W x t c) /\ 16 * nibble iwi_white 28 1 0 0 3 = 240.
Proof.
  split; [|reflexivity]. apply (C107_nibbles_partial ex_alloc [1; 2; 3; 4] ex_u2 iwi_white 1 1).
  - apply two_use; [apply bytes_check; reflexivity|reflexivity].
  - repeat split; try (vm_compute; reflexivity); try (vm_compute; discriminate). right. reflexivity.
  - reflexivity.
  - vm_compute. discriminate.
Qed.
(** a DXT1 texture of 2 by 2 pixels and its level of one pixel: two blocks *)
Definition iwi_blocks : list Z := [73; 87; 105; 6; 11; 0; 2; 0; 2; 0] ++ repeat 0 18 ++ [255; 255; 0; 0; 0; 0; 0; 0] ++ [0; 248; 31; 0; 1; 4; 0; 0].
Example C107_dxt_ex : iwi_loaded ex_alloc [1; 2; 3; 4] ex_u2 iwi_blocks 2 2 1 4 IL_RGBA (fun W H => quads W * quads H * 8) (fun p W x t c => texel IL_DXT1 (slice iwi_blocks (p + (t / 4 * quads W + x / 4) * 8) 8) (in_block x t) c) /\
  texel IL_DXT1 (slice iwi_blocks 36 8) (in_block 0 0) 2 = 248 /\ texel IL_DXT1 (slice iwi_blocks 36 8) (in_block 1 0) 0 = 255.
Proof.
  split; [|split; vm_compute; reflexivity]. apply (C107_dxt_partial ex_alloc [1; 2; 3; 4] ex_u2 iwi_blocks 11 IL_DXT1 8 2 2).
  - apply two_use; [apply bytes_check; reflexivity|reflexivity].
  - repeat split; try (vm_compute; reflexivity); try (vm_compute; discriminate). right. reflexivity.
  - unfold dxt_format; tauto.
  - exists 1. split; [lia|reflexivity].
  - exists 1. split; [lia|reflexivity].
  - vm_compute. repeat split; discriminate.
  - right. lia.
  - vm_compute. discriminate.
Qed.
(** sides that are not powers of two, a format that does not exist, missing pixels *)
Definition iwi_odd : list Z := [73; 87; 105; 6; 11; 3; 6; 0; 2; 0] ++ repeat 0 18 ++ repeat 85 16.
Example C107_odd_ex : iLoadIwiInternal ex_alloc [1; 2; 3; 4] ex_u2 ex_old (Rd iwi_odd 0 (zlen iwi_odd) []) = Ok (false, [ex_old], [IL_INVALID_FILE_HEADER]).
Proof.
  apply C107_header_refused; [reflexivity|reflexivity|apply bytes_check; reflexivity|split; vm_compute; [discriminate|reflexivity]|].
  intros (_ & _ & _ & C). change (geti iwi_odd 4) with 11 in C. change (word2 iwi_odd 6) with 6 in C. destruct C as [C|[C|[C|[C|(_ & (a & Ha & C) & _)]]]]; try discriminate C.
  assert (a <= 2 \/ 3 <= a) as [A|A] by lia; [assert (a = 0 \/ a = 1 \/ a = 2) as [-> | [-> | ->]] by lia; discriminate C|]. assert (2 ^ 3 <= 2 ^ a) by (apply Z.pow_le_mono_r; lia). lia.
Qed.
Definition iwi_cut : list Z := [73; 87; 105; 5; 4; 3; 2; 0; 2; 0] ++ repeat 0 18 ++ [15; 10; 20].
Example C107_cut_ex : exists ims, iLoadIwiInternal ex_alloc [1; 2; 3; 4] ex_u2 ex_old (Rd iwi_cut 0 (zlen iwi_cut) []) = Ok (false, ims, []).
Proof.
  apply (C107_short_refused ex_alloc [1; 2; 3; 4] ex_u2 ex_old iwi_cut [] 4 1 IL_ALPHA 2 2).
  - apply two_use; [apply bytes_check; reflexivity|reflexivity].
  - repeat split; try (vm_compute; reflexivity); try (vm_compute; discriminate). left. reflexivity.
  - unfold byte_format; tauto.
  - reflexivity.
  - reflexivity.
  - reflexivity.
Qed.

Print Assumptions C107_bytes_partial.
Print Assumptions C107_nibbles_partial.
Print Assumptions C107_dxt_partial.
Print Assumptions C107_header_refused.
Print Assumptions C107_valid.
Print Assumptions C107_position_refuted.
Print Assumptions C107_short_refused.
Print Assumptions C107_levels_refuted.
Print Assumptions C107_nibbles_refuted.
Print Assumptions C107_dxt_refuted.
