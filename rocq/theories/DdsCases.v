(** C103 - C105, continued: what the loader gets wrong and what it refuses; examples. *)
From Coq Require Import ZArith List Lia Bool.
From Verif Require Import Base Slices BitLemmas Elem Enums Utility Image ImageSpec Lump LumpSpec LumpProofs LumpProps Endian ConvImgProps PcxProofs Tga TgaProofs BmpSpec BmpDecode SmallTex DxtSpec Dxt DxtProofs DxtDecode DxtProps Dds DdsSpec DdsPixels DdsProofs DdsLevels DdsLoad DdsProps.
Import ListNotations.
Open Scope Z_scope.

(** ** C105: what is a DirectDraw surface, and what is refused *)
(** the header the library looks for; the size may also be the name again *)
Definition dds_valid (F : list Z) : Prop :=
  slice F 0 4 = dds_name /\ (word4 F 4 = 124 \/ word4 F 4 = number dds_name) /\ word4 F 76 = 32 /\ word4 F 16 <> 0 /\ word4 F 12 <> 0.
Lemma four : forall l, zlen l = 4 -> (geti l 0 =? 68) && (geti l 1 =? 68) && (geti l 2 =? 83) && (geti l 3 =? 32) = true <-> l = dds_name.
Proof.
  intros [|a [|b [|c [|d [|]]]]] L; try (unfold zlen in L; cbn [length] in L; lia). change (geti [a; b; c; d] 0) with a. change (geti [a; b; c; d] 1) with b. change (geti [a; b; c; d] 2) with c. change (geti [a; b; c; d] 3) with d. unfold dds_name. split.
  - rewrite !andb_true_iff, !Z.eqb_eq. intros (((-> & ->) & ->) & ->). reflexivity.
  - intros E. inversion E. reflexivity.
Qed.
Lemma check_head : forall F, 128 <= zlen F -> iCheckDds (head_of F) = true <-> dds_valid F.
Proof.
  intros F HL. unfold iCheckDds, dds_valid. cbn [head_of Sig Size1 Size2 DWidth DHeight]. rewrite <- (four (slice F 0 4)) by (apply zlen_slice; lia). change (number dds_name) with 542327876.
  destruct (_ && (geti (slice F 0 4) 3 =? 32)); cbn [negb]; [|split; [discriminate|intros (X & _); exact X]].
  destruct (word4 F 4 =? 124) eqn:E1; destruct (word4 F 4 =? 542327876) eqn:E2; cbn [negb andb]; try (split; [discriminate|intros (_ & X & _); lia]);
  (destruct (word4 F 76 =? 32) eqn:E3; cbn [negb]; [|split; [discriminate|intros (_ & _ & X & _); lia]]; destruct (word4 F 16 =? 0) eqn:E4; cbn [orb]; [split; [discriminate|intros (_ & _ & _ & X & _); lia]|]; destruct (word4 F 12 =? 0) eqn:E5; cbn [orb]; [split; [discriminate|intros (_ & _ & _ & _ & X); lia]|]; split; [intros _; repeat split; lia|reflexivity]).
Qed.
Theorem C105_valid : forall sg u4 F e, zlen sg = 4 -> (forall i, zlen (u4 i) = 4) -> 128 <= zlen F < 4294967295 ->
  exists v, iIsValidDds sg u4 (Rd F 0 (zlen F) e) = Ok (v, Rd F 0 (zlen F) e) /\ (v = true <-> dds_valid F).
Proof.
  intros sg u4 F e LS HU HF. unfold iIsValidDds. rewrite get_head by (auto; lia). cbn [bind]. unfold iSeekRLump, seek_lump. exists (iCheckDds (head_of F)). split; [|apply check_head; lia].
  cbn [rpos Lump.rsize rlump rerr]. change (IL_SEEK_CUR =? IL_SEEK_SET) with false. change (IL_SEEK_CUR =? IL_SEEK_CUR) with true. cbv iota. change (u32 (128 + -128)) with 0. replace (zlen F <? 0) with false by lia. reflexivity.
Qed.
Print Assumptions C105_valid.

Lemma check_h0 : forall F, iCheckDds (h0 F) = iCheckDds (head_of F). Proof. intros F. unfold h0. destruct (_ =? 0); reflexivity. Qed.
Theorem C105_header_refused : forall alloc other sg u4 old F e, zlen sg = 4 -> (forall i, zlen (u4 i) = 4) -> 128 <= zlen F < 4294967295 -> ~ dds_valid F ->
  iLoadDdsInternal alloc other sg u4 old (Rd F 0 (zlen F) e) = Ok (false, [old], [IL_INVALID_FILE_HEADER]).
Proof.
  intros alloc other sg u4 old F e LS HU HF NV. unfold iLoadDdsInternal. rewrite get_head by (auto; lia). cbn [bind]. cbv zeta. fold (h0 F). rewrite check_h0. destruct (iCheckDds (head_of F)) eqn:E; [exfalso; apply NV; apply check_head; auto; lia|]. reflexivity.
Qed.
Print Assumptions C105_header_refused.

(** the codes of the formats the library knows: DXT1 to DXT5, DX10, ATI1, ATI2, RXGB, and numbers for formats with 16 or 32 bits per channel *)
Definition known_codes : list Z :=
  map number [[68; 88; 84; 49]; [68; 88; 84; 50]; [68; 88; 84; 51]; [68; 88; 84; 52]; [68; 88; 84; 53]; [68; 88; 49; 48]; [65; 84; 73; 49]; [65; 84; 73; 50]; [82; 88; 71; 66]] ++ [36; 111; 112; 113; 114; 115; 116].
Theorem C105_unknown_refused : forall alloc other sg u4 old F e, zlen sg = 4 -> (forall i, zlen (u4 i) = 4) -> 128 <= zlen F < 4294967295 -> flag F 80 2 = true -> ~ In (word4 F 84) known_codes ->
  iLoadDdsInternal alloc other sg u4 old (Rd F 0 (zlen F) e) = Ok (false, [old], [IL_INVALID_FILE_HEADER]).
Proof.
  intros alloc other sg u4 old F e LS HU HF FL NK. unfold iLoadDdsInternal. rewrite get_head by (auto; lia). cbn [bind]. cbv zeta. fold (h0 F). destruct (negb (iCheckDds (h0 F))); [reflexivity|].
  unfold DecodePixelFormat. rewrite h0_flags2, fourcc_bit. fold (flag F 80 2). rewrite FL, h0_fourcc.
  assert (K : forall x, In x known_codes -> word4 F 84 =? x = false) by (intros x Hx; destruct (word4 F 84 =? x) eqn:E; [apply Z.eqb_eq in E; subst x; contradiction|reflexivity]).
  unfold fourcc. rewrite !K by (vm_compute; tauto). reflexivity.
Qed.
Print Assumptions C105_unknown_refused.

(** files that end within the data of the first level leave the image as it was *)
Lemma short_load : forall alloc other sg u4 old F e f BS W H size, use alloc sg u4 F -> dds_header F W H -> ~ cube F -> moderate W H (depth_of F) ->
  DecodePixelFormat (h0 F) = (f, BS) -> masked f || dxt135 f = true -> masked f && Check16BitComponents (h0 F) = false ->
  has (Flags1 (h2 F f BS)) DDS_LINEARSIZE = true -> Linear (h2 F f BS) = size -> 0 <= size < 4294967296 -> zlen F < 128 + size ->
  iLoadDdsInternal alloc other sg u4 old (Rd F 0 (zlen F) e) = Ok (false, [old], []).
Proof.
  intros alloc other sg u4 old F e f BS W H size (HA & HP & LS & HU & BF & HF) HD NC M DP MK C16 HLi EL HSz HL. destruct HD as (L128 & NM & S1 & S2 & EW & EH & HW & HH).
  unfold iLoadDdsInternal. rewrite get_head by (auto; lia). cbn [bind]. fold (h0 F). rewrite check_h0.
  assert (CK : iCheckDds (head_of F) = true) by (apply check_head; [lia|]; unfold dds_valid; rewrite NM, S1, S2, EW, EH; repeat split; auto; lia).
  rewrite CK. cbn [negb]. rewrite DP. cbv iota. replace (f =? PF_UNKNOWN) with false. 2:{ destruct (f =? PF_UNKNOWN) eqn:E; [|reflexivity]. apply Z.eqb_eq in E. rewrite E in MK. discriminate. }
  rewrite MK, C16. cbn [negb orb]. cbv zeta. fold (h1 F BS). destruct (h1_fields F BF ltac:(lia) BS) as (_ & EC1 & EC2 & _). rewrite EC1, EC2.
  assert (CB : has (word4 F 108) DDS_COMPLEX && has (word4 F 112) DDS_CUBEMAP = false). { change DDS_COMPLEX with (2 ^ 3). change DDS_CUBEMAP with (2 ^ 9). rewrite !has_bit by lia. fold (flag F 108 3) (flag F 112 9). destruct (flag F 108 3) eqn:A; destruct (flag F 112 9) eqn:B; try reflexivity. exfalso. apply NC. split; auto. }
  rewrite CB. fold (h2 F f BS). unfold ReadData at 1. rewrite HLi, EL. destruct (alloc size) as [b|] eqn:EA; [|exfalso; apply (HP size); auto; lia]. assert (LB := HA _ _ EA).
  destruct (read_short F 128 e b size) as (c & b' & r & -> & Hc); try lia. cbn [bind]. replace (c =? size) with false by lia. reflexivity.
Qed.
Theorem C105_short_refused : forall alloc other sg u4 old F e N S q W H, use alloc sg u4 F -> dds_header F W H -> ~ cube F -> moderate W H (depth_of F) ->
  uncompressed F N -> 1 <= N <= 4 -> 1 <= S <= 4 -> word4 F 88 = 8 * S -> masks F q (8 * S) -> size_stated F (W * H * depth_of F * S) false -> zlen F < 128 + W * H * depth_of F * S ->
  iLoadDdsInternal alloc other sg u4 old (Rd F 0 (zlen F) e) = Ok (false, [old], []).
Proof.
  intros alloc other sg u4 old F e N S q W H US HD NC M U HN HS BC MS ST HL. assert (B := US). destruct B as (_ & _ & _ & _ & BF & HF). assert (L128 : 128 <= zlen F) by (destruct HD; assumption).
  assert (DP := decode_masked alloc sg u4 F US L128 N HN U). set (BS := u32 _) in DP.
  assert (MK : masked (pf_of N) = true) by (assert (N = 1 \/ N = 2 \/ N = 3 \/ N = 4) as [-> | [-> | [-> | ->]]] by lia; reflexivity).
  assert (SZ := moderate_sizes _ _ _ M). assert (M' := M). destruct M' as (HW & HH & HD1 & LIM). assert (HD' := HD). destruct HD' as (_ & _ & _ & _ & EW & EH & _). assert (X24 := w4 F BF 24 ltac:(lia) ltac:(lia)).
  assert (B8 : word4 F 88 / 8 = S) by (rewrite BC; replace (8 * S) with (S * 8) by ring; apply Z.div_mul; lia).
  assert (NN : 0 <= W * H * depth_of F * S < 4294967296) by (clear - SZ HS; nia).
  assert (LIN := h2_linear F BF ltac:(lia) (pf_of N) BS (W * H * depth_of F * S) false). rewrite MK, EW, EH, B8 in LIN.
  assert (LIN' : if has (Flags1 (h2 F (pf_of N) BS)) DDS_LINEARSIZE then Linear (h2 F (pf_of N) BS) = W * H * depth_of F * S else false = true).
  { apply LIN; auto.
    - intros V. unfold BS. rewrite EW, EH, B8. assert (D1 : depth_of F = 1) by (clear - V X24; unfold depth_of; destruct (flag _ _ _); lia). rewrite D1 in *. replace (Z.max 1 (word4 F 24)) with 1 by lia. apply u32_small. exact NN.
    - intros V. replace (Z.max 1 W) with W by lia. replace (Z.max 1 H) with H by lia. assert (W * H * S <= W * H * depth_of F * S) by (clear - HW HH HS HD1; nia). assert (0 <= W * H * S) by (clear - HW HH HS; nia). rewrite (u32_small (W * H * S)) by lia. rewrite u32_small; [ring|]. replace (W * H * S * depth_of F) with (W * H * depth_of F * S) by ring. exact NN. }
  destruct (has (Flags1 (h2 F (pf_of N) BS)) DDS_LINEARSIZE) eqn:EL; [|discriminate].
  eapply (short_load alloc other sg u4 old F e (pf_of N) BS W H (W * H * depth_of F * S)); eauto.
  - rewrite MK. reflexivity.
  - rewrite h0_16. rewrite (no_sixteen F q (8 * S)) by auto. apply andb_false_r.
Qed.
Print Assumptions C105_short_refused.

(** ** Examples *)
Definition le4 (x : Z) : list Z := [x mod 256; x / 256 mod 256; x / 65536 mod 256; x / 16777216 mod 256].
(** a header: flags, sizes, size of the data, depth, levels; flags, code, bits and masks of pixels; capabilities *)
Definition file (fl H W lin D mips fl2 : Z) (code : list Z) (bits r g b a c1 c2 : Z) (px : list Z) : list Z :=
  dds_name ++ le4 124 ++ le4 fl ++ le4 H ++ le4 W ++ le4 lin ++ le4 D ++ le4 mips ++ repeat 0 44 ++ le4 32 ++ le4 fl2 ++ code ++ le4 bits ++ le4 r ++ le4 g ++ le4 b ++ le4 a ++ le4 c1 ++ le4 c2 ++ repeat 0 12 ++ px.
Definition ex_other : dds -> Z -> reader -> res (bool * list img * list Z) := fun _ _ _ => UB.
Definition ex_sg : list Z := [0; 0; 0; 0].
Definition load (F : list Z) : res (bool * list img * list Z) := iLoadDdsInternal ex_alloc ex_other ex_sg (fun _ => ex_sg) no_img (Rd F 0 (zlen F) []).
Lemma ex_use : forall F, forallb (fun x => (0 <=? x) && (x <? 256)) F && (zlen F <? 4294967295) = true -> use ex_alloc ex_sg (fun _ => ex_sg) F.
Proof.
  intros F E. apply andb_true_iff in E as (E & L). destruct ex_alloc_ok as (A & P). split; [exact A|]. split; [exact P|]. split; [reflexivity|]. split; [reflexivity|]. split; [|lia].
  intros i Hi. rewrite forallb_forall in E. specialize (E (geti F i)). unfold geti, zlen in *. specialize (E (nth_In F 0 (n := Z.to_nat i) ltac:(lia))). lia.
Qed.
Ltac plain := repeat (first [split | reflexivity | discriminate]).

(** RGB with 5, 6 and 5 bits, 2 by 1, two levels *)
Definition ex_565 : list Z := file 131072 1 2 0 0 2 64 [0; 0; 0; 0] 16 63488 2016 31 0 0 0 [0; 248; 224; 7; 31; 0].
Definition q_565 : fields := mkFields 5 11 6 5 5 0 0 0.
Lemma ex_565_ok : use ex_alloc ex_sg (fun _ => ex_sg) ex_565 /\ dds_header ex_565 2 1 /\ ~ cube ex_565 /\ moderate 2 1 (depth_of ex_565) /\ uncompressed ex_565 3 /\ word4 ex_565 88 = 8 * 2 /\ masks ex_565 q_565 (8 * 2) /\ readable 3 2 /\
  size_stated ex_565 4 true /\ 128 + all_levels (fun W H D => W * H * D * 2) (Z.to_nat (levels_of ex_565)) 2 1 (depth_of ex_565) <= zlen ex_565.
Proof.
  split; [apply ex_use; reflexivity|]. split; [plain|]. split; [intros (X & _); discriminate|]. split; [plain|]. split; [plain|]. split; [reflexivity|]. split; [plain|]. split; [unfold readable; lia|]. split; [right; left; reflexivity|]. vm_compute. discriminate.
Qed.
Example C103_ex : exists a b, load ex_565 = Ok (true, [a; b], []) /\ Data a = Some [248; 0; 0; 0; 252; 0] /\ Data b = Some [0; 0; 248].
Proof. do 2 eexists. split; [vm_compute; reflexivity|]. split; reflexivity. Qed.
Example C103_ex_nonvacuous : exists ims, load ex_565 = Ok (true, ims, []) /\ zlen ims = levels_of ex_565 /\
  levels (fun W H D => W * H * D * 2) 3 1 IL_UNSIGNED_BYTE (stored_fields ex_565 q_565 3 2) 128 2 1 (depth_of ex_565) ims.
Proof.
  destruct ex_565_ok as (A & B & C & D & E & G & I & J & K & L). apply (C103_pixels_partial ex_alloc ex_other ex_sg (fun _ => ex_sg) no_img ex_565 [] 3 2 q_565 2 1); auto. split; auto. lia.
Qed.
(** white of five bits is 248 (31 * 8), not 255 *)
Example C103_white : exists a, load (file 0 1 1 0 0 0 64 [0; 0; 0; 0] 16 63488 2016 31 0 0 0 [255; 255]) = Ok (true, [a], []) /\ Data a = Some [248; 252; 248].
Proof. eexists. split; [vm_compute; reflexivity|]. reflexivity. Qed.
Example C103_short_ex : exists a, load (file 0 1 2 0 0 0 131072 [0; 0; 0; 0] 16 65535 0 0 0 0 0 [1; 2; 3; 4]) = Ok (true, [a], []) /\ Data a = Some [1; 2; 3; 4] /\ Type_ a = IL_UNSIGNED_SHORT.
Proof. eexists. split; [vm_compute; reflexivity|]. split; reflexivity. Qed.

(** ** C103: pixels that are not read right *)
(** RGB in four bytes: the last pixel is not read at all *)
Definition ex_x8 : list Z := file 0 1 2 0 0 0 64 [0; 0; 0; 0] 32 16711680 65280 255 0 0 0 [3; 2; 1; 0; 6; 5; 4; 0].
Definition q_888 : fields := mkFields 8 16 8 8 8 0 0 0.
Theorem C103_rgb32_refuted : ~ pixels_loaded (fun N S q => N = 3 /\ S = 4).
Proof.
  intros C. destruct (C ex_alloc ex_other ex_sg (fun _ => ex_sg) no_img ex_x8 [] 3 4 q_888 2 1) as (ims & E & _ & L); try (split; reflexivity); try reflexivity.
  - apply ex_use. reflexivity.
  - plain.
  - intros (X & _). discriminate.
  - plain.
  - plain.
  - plain.
  - right; left; reflexivity.
  - assert (X : load ex_x8 = Ok (true, ims, [])) by exact E. vm_compute in X. injection X as <-. cbn [levels] in L. destruct L as ((buf & OK & _ & _ & _ & _ & _ & _ & _ & _ & P) & _). specialize (P 1 0 0 0 ltac:(lia) ltac:(reflexivity || (vm_compute; split; [discriminate|reflexivity])) ltac:(vm_compute; split; [discriminate|reflexivity]) ltac:(lia)).
    destruct OK as (D & _). cbn [Data] in D. injection D as <-. vm_compute in P.
  discriminate P.
Qed.
Print Assumptions C103_rgb32_refuted.
(** RGBA in two bytes: the loader reads past the end of the data *)
Definition ex_4444 : list Z := file 0 1 1 0 0 0 65 [0; 0; 0; 0] 16 3840 240 15 61440 0 0 [255; 255].
Theorem C103_rgba16_refuted : ~ pixels_loaded (fun N S q => N = 4 /\ S = 2).
Proof.
  intros C. destruct (C ex_alloc ex_other ex_sg (fun _ => ex_sg) no_img ex_4444 [] 4 2 (mkFields 4 8 4 4 4 0 4 12) 1 1) as (ims & E & _); try (split; reflexivity); try reflexivity.
  - apply ex_use. reflexivity.
  - plain.
  - intros (X & _). discriminate.
  - plain.
  - plain.
  - plain.
  - right; left; reflexivity.
  - assert (X : load ex_4444 = Ok (true, ims, [])) by exact E. vm_compute in X. discriminate X.
Qed.
Print Assumptions C103_rgba16_refuted.
(** luminance and alpha in one byte, and with four bits of alpha in two bytes: likewise *)
Definition ex_44 : list Z := file 0 1 2 0 0 0 131073 [0; 0; 0; 0] 8 15 0 0 240 0 0 [18; 52].
Theorem C103_la8_refuted : ~ pixels_loaded (fun N S q => N = 2 /\ S = 1).
Proof.
  intros C. destruct (C ex_alloc ex_other ex_sg (fun _ => ex_sg) no_img ex_44 [] 2 1 (mkFields 4 0 0 0 0 0 4 4) 2 1) as (ims & E & _); try (split; reflexivity); try reflexivity.
  - apply ex_use. reflexivity.
  - plain.
  - intros (X & _). discriminate.
  - plain.
  - plain.
  - plain.
  - right; left; reflexivity.
  - assert (X : load ex_44 = Ok (true, ims, [])) by exact E. vm_compute in X. discriminate X.
Qed.
Print Assumptions C103_la8_refuted.
Definition ex_84 : list Z := file 0 1 1 0 0 0 131073 [0; 0; 0; 0] 16 255 0 0 3840 0 0 [18; 5].
Theorem C103_alpha4_refuted : ~ pixels_loaded (fun N S q => N = 2 /\ S = 2 /\ an q = 4).
Proof.
  intros C. destruct (C ex_alloc ex_other ex_sg (fun _ => ex_sg) no_img ex_84 [] 2 2 (mkFields 8 0 0 0 0 0 4 8) 1 1) as (ims & E & _); try (split; reflexivity); try reflexivity.
  - apply ex_use. reflexivity.
  - plain.
  - intros (X & _). discriminate.
  - plain.
  - plain.
  - plain.
  - plain.
  - right; left; reflexivity.
  - assert (X : load ex_84 = Ok (true, ims, [])) by exact E. vm_compute in X. discriminate X.
Qed.
Print Assumptions C103_alpha4_refuted.

(** ** C104: a stated size is believed *)
(** DXT1, 4 by 4, in two slices, and with two levels *)
Definition ex_dxt (fl lin D mips c2 : Z) (px : list Z) : list Z := file fl 4 4 lin D mips 4 [68; 88; 84; 49] 0 0 0 0 0 0 c2 px.
Definition ex_block : list Z := [0; 248; 31; 0; 0; 85; 170; 255].
Definition ex_vol : list Z := ex_dxt 131072 0 2 2 2097152 (ex_block ++ ex_block ++ ex_block).
Lemma ex_vol_ok : use ex_alloc ex_sg (fun _ => ex_sg) ex_vol /\ dds_header ex_vol 4 4 /\ ~ cube ex_vol /\ moderate 4 4 (depth_of ex_vol) /\ flag ex_vol 80 2 = true /\ slice ex_vol 84 4 = dxt_name IL_DXT1 /\
  size_stated ex_vol 16 false /\ 128 + all_levels (fun W H D => quads W * quads H * D * 8) (Z.to_nat (levels_of ex_vol)) 4 4 (depth_of ex_vol) <= zlen ex_vol /\ depth_of ex_vol = 2 /\ levels_of ex_vol = 2.
Proof.
  split; [apply ex_use; reflexivity|]. split; [plain|]. split; [intros (X & _); discriminate|]. split; [plain|]. split; [plain|]. split; [reflexivity|]. split; [right; left; reflexivity|]. split; [vm_compute; discriminate|]. split; reflexivity.
Qed.
Example C104_ex : exists ims, load ex_vol = Ok (true, ims, []) /\ map Depth ims = [2; 1] /\ map Width ims = [4; 2].
Proof. eexists. split; [vm_compute; reflexivity|]. split; reflexivity. Qed.
Example C104_ex_nonvacuous : exists ims, load ex_vol = Ok (true, ims, []) /\ zlen ims = levels_of ex_vol /\
  levels (fun W H D => quads W * quads H * D * dxt_size IL_DXT1) 4 1 IL_UNSIGNED_BYTE (stored_blocks ex_vol IL_DXT1 (dxt_size IL_DXT1)) 128 4 4 (depth_of ex_vol) ims.
Proof.
  destruct ex_vol_ok as (A & B & C & D & E & G & I & J & _). apply (C104_dxt_partial ex_alloc ex_other ex_sg (fun _ => ex_sg) no_img ex_vol [] IL_DXT1 4 4); auto. cbn. auto.
Qed.
(** without [size_stated]: a stated size of four bytes makes the decoder read past the data *)
Definition ex_lin : list Z := ex_dxt 524288 4 0 0 0 ex_block.
Theorem C104_size_refuted : ~ (forall alloc other sg u4 old F e fmt W H, use alloc sg u4 F -> dds_header F W H -> ~ cube F -> moderate W H (depth_of F) ->
  In fmt [IL_DXT1; IL_DXT3; IL_DXT5] -> flag F 80 2 = true -> slice F 84 4 = dxt_name fmt ->
  128 + quads W * quads H * depth_of F * dxt_size fmt <= zlen F ->
  exists ok ims es, iLoadDdsInternal alloc other sg u4 old (Rd F 0 (zlen F) e) = Ok (ok, ims, es)).
Proof.
  intros C. destruct (C ex_alloc ex_other ex_sg (fun _ => ex_sg) no_img ex_lin [] IL_DXT1 4 4) as (ok & ims & es & E); try reflexivity.
  - apply ex_use. reflexivity.
  - plain.
  - intros (X & _). discriminate.
  - plain.
  - cbn. auto.
  - assert (X : load ex_lin = Ok (ok, ims, es)) by exact E. vm_compute in X. discriminate X.
Qed.
Print Assumptions C104_size_refuted.

Example C105_ex : exists r, iIsValidDds ex_sg (fun _ => ex_sg) (Rd ex_565 0 (zlen ex_565) []) = Ok (true, r).
Proof. eexists. vm_compute. reflexivity. Qed.
Example C105_refused_ex : load (repeat 0 128) = Ok (false, [no_img], [IL_INVALID_FILE_HEADER]) /\
  load (file 0 1 1 0 0 0 4 [65; 66; 67; 68] 0 0 0 0 0 0 0 []) = Ok (false, [no_img], [IL_INVALID_FILE_HEADER]) /\
  load (file 0 1 2 0 0 0 64 [0; 0; 0; 0] 16 63488 2016 31 0 0 0 [0; 248; 224]) = Ok (false, [no_img], []).
Proof. vm_compute. auto. Qed.
