(** C26 (RAW round trip) and C52 (RAW loading is memory safe). *)
From Coq Require Import ZArith List Lia Bool.
From Verif Require Import Base Slices Enums Utility Image ImageSpec ImageProps Lump LumpSpec LumpProofs LumpProps Channels Endian EndianProps Raw.
Import ListNotations.
Open Scope Z_scope.

(** the file: three little-endian numbers, two bytes, the pixels *)
Definition raw_file (im : img) (buf : list Z) : list Z :=
  little4 (Width im) ++ little4 (Height im) ++ little4 (Depth im) ++ [Bpp im; Bpc im] ++ buf.

Lemma overwrite_end : forall f new, overwrite f (zlen f) new = f ++ new.
Proof.
  intros f new. unfold overwrite, zlen. rewrite Nat2Z.id, firstn_all. f_equal. rewrite skipn_all2 by lia. apply app_nil_r.
Qed.
Lemma rest_all : forall b n, zlen b = n -> rest b 0 n = b.
Proof. intros b n <-. unfold rest, zlen. rewrite Nat2Z.id. cbn [Z.to_nat skipn]. apply firstn_all. Qed.
Lemma run_write : forall f b s n k, 0 <= s -> 0 <= n -> zlen b = s * n -> zlen f + s * n < 2147483648 ->
  run_file (Write b s n k) f (zlen f) = run_file k (f ++ b) (zlen (f ++ b)).
Proof.
  intros f b s n k Hs Hn Hb Hw. cbn [run_file]. replace ((0 <=? s) && (0 <=? n) && (s * n <=? zlen b) && (zlen f + s * n <? 2147483648)) with true by lia.
  rewrite rest_all by auto. rewrite overwrite_end, zlen_app. rewrite Hb. reflexivity.
Qed.
Lemma run_putc : forall f c k, zlen f < 2147483647 -> run_file (Putc c k) f (zlen f) = run_file (k c) (f ++ [c]) (zlen (f ++ [c])).
Proof.
  intros f c k H. cbn [run_file]. replace (zlen f <? 2147483647) with true by lia. rewrite overwrite_end, zlen_app. reflexivity.
Qed.

(** C26a: the file written (for sizes that fit the int offsets of the writers) *)
Theorem C26_file : forall im buf, img_ok im buf -> SizeOfData im < 2147483648 - 14 -> file_of (iSaveRawInternal im buf) = Some (raw_file im buf).
Proof.
  intros im buf (_ & _ & _ & _ & _ & _ & _ & _ & _ & _ & L) Hs. unfold file_of, iSaveRawInternal, SaveLittleUInt. rewrite !le4.
  assert (0 <= zlen buf) by auto.
  change 0 with (zlen (@nil Z)) at 1. rewrite run_write by (cbn; lia). cbn [app]. rewrite run_write by (cbn; lia). rewrite run_write by (cbn; lia).
  rewrite run_putc by (cbn; lia). rewrite run_putc by (cbn; lia). rewrite run_write; [|lia|lia|lia|rewrite Z.mul_1_l, !zlen_app; cbn [zlen]; change (zlen (little4 _)) with 4; change (zlen [_]) with 1; lia].
  cbn [run_file]. unfold raw_file. rewrite <- !app_assoc. reflexivity.
Qed.

Lemma getc_at : forall pre c post e, zlen (pre ++ c :: post) < 4294967295 ->
  iGetcLump (Rd (pre ++ c :: post) (zlen pre) (zlen (pre ++ c :: post)) e) = Ok (c, Rd (pre ++ c :: post) (zlen pre + 1) (zlen (pre ++ c :: post)) e).
Proof.
  intros pre c post e H. assert (0 <= zlen pre) by auto. assert (0 <= zlen post) by auto.
  assert (L : zlen (pre ++ c :: post) = zlen pre + 1 + zlen post) by (rewrite zlen_app, zlen_cons; lia).
  rewrite (C21_getc (pre ++ c :: post)) by (try (split; [reflexivity|cbn; lia]); lia). cbn [rpos rerr].
  replace (zlen pre <? zlen (pre ++ c :: post)) with true by lia. do 3 f_equal.
  rewrite geti_app by lia. rewrite Z.ltb_irrefl, Z.sub_diag. reflexivity.
Qed.
Lemma read_at : forall pre b post stk s n e, 0 < s -> 0 <= n -> zlen b = s * n -> s * n <= zlen stk -> zlen (pre ++ b ++ post) < 4294967295 ->
  0 < zlen (pre ++ b ++ post) ->
  iReadLump stk s n (Rd (pre ++ b ++ post) (zlen pre) (zlen (pre ++ b ++ post)) e) =
  Ok (n, b ++ skipn (length b) stk, Rd (pre ++ b ++ post) (zlen pre + s * n) (zlen (pre ++ b ++ post)) e).
Proof.
  intros pre b post stk s n e Hs Hn Hb Hl Hm Hp. assert (0 <= zlen pre) by auto. assert (0 <= zlen post) by auto. assert (0 <= zlen b) by auto.
  assert (L : zlen (pre ++ b ++ post) = zlen pre + s * n + zlen post) by (rewrite !zlen_app; lia).
  rewrite (C21_read (pre ++ b ++ post)) by (try (split; [reflexivity|cbn; lia]); lia). cbn [rpos rerr]. cbv zeta.
  assert (R : rest (pre ++ b ++ post) (zlen pre) (s * n) = b).
  { unfold rest, zlen. rewrite Nat2Z.id, skipn_app, skipn_all, Nat.sub_diag. cbn [skipn app].
    unfold zlen in Hb. rewrite <- Hb, Nat2Z.id. rewrite firstn_app, firstn_all, Nat.sub_diag. cbn [firstn]. apply app_nil_r. }
  rewrite R, Hb. rewrite Z.mul_comm, Z.div_mul by lia. rewrite Z.eqb_refl, app_nil_r. reflexivity.
Qed.

(** Format, type and origin of the loaded image: the file does not contain them. *)
Definition raw_format (bpp : Z) : Z := if bpp =? 1 then IL_LUMINANCE else if bpp =? 3 then IL_RGB else IL_RGBA.

(** C26b: loading the file of an image gives an image with the same dimensions, number and size of
    channels and the same bytes.  Missing from the full statement: format, type and origin are not in
    the file (see the refutations). *)
Theorem C26_roundtrip_partial : forall alloc origin old s1 s2 s3 im buf f blk, img_ok im buf ->
  Width im < 2 ^ 32 -> Height im < 2 ^ 32 -> Depth im < 2 ^ 32 ->
  file_of (iSaveRawInternal im buf) = Some f -> SizeOfData im < 2147483648 - 14 ->
  zlen s1 = 4 -> zlen s2 = 4 -> zlen s3 = 4 -> allocator_ok alloc -> alloc (SizeOfData im) = Some blk ->
  exists im' r, ilLoadRawL alloc origin old s1 s2 s3 f = Ok (true, im', r) /\ rerr r = [] /\ img_ok im' buf /\
    Width im' = Width im /\ Height im' = Height im /\ Depth im' = Depth im /\ Bpp im' = Bpp im /\ Bpc im' = Bpc im /\
    Format im' = raw_format (Bpp im) /\ Type_ im' = ilGetTypeBpc (Bpc im) /\
    Origin im' = match origin with Some o => o | None => IL_ORIGIN_UPPER_LEFT end /\ Pal im' = mkPal None 0 IL_PAL_NONE /\
    Duration im' = 0 /\ CubeFlags im' = 0 /\ OffX im' = 0 /\ OffY im' = 0.
Proof.
  intros alloc origin old s1 s2 s3 im buf f blk Hok HW2 HH2 HD2 HF Hsz L1 L2 L3 HA HB.
  rewrite (C26_file im buf Hok Hsz) in HF. assert (f = raw_file im buf) as -> by congruence. clear HF.
  destruct Hok as (HD & HW & HH & HDp & Hbpp & Hbpc & Hbps & Hpl & Hsz2 & H32 & Hlen). change (2 ^ 32) with 4294967296 in *.
  assert (0 <= zlen buf) by auto.
  set (w4 := little4 (Width im)). set (h4 := little4 (Height im)). set (d4 := little4 (Depth im)).
  assert (Z4 : zlen w4 = 4 /\ zlen h4 = 4 /\ zlen d4 = 4) by (split; [|split]; reflexivity). destruct Z4 as (Zw & Zh & Zd).
  assert (E0 : raw_file im buf = [] ++ w4 ++ (h4 ++ d4 ++ [Bpp im; Bpc im] ++ buf)) by reflexivity.
  assert (E1 : raw_file im buf = w4 ++ h4 ++ (d4 ++ [Bpp im; Bpc im] ++ buf)) by reflexivity.
  assert (E2 : raw_file im buf = (w4 ++ h4) ++ d4 ++ ([Bpp im; Bpc im] ++ buf)) by (unfold raw_file; rewrite <- app_assoc; reflexivity).
  assert (E3 : raw_file im buf = (w4 ++ h4 ++ d4) ++ Bpp im :: (Bpc im :: buf)) by (unfold raw_file; rewrite <- !app_assoc; reflexivity).
  assert (E4 : raw_file im buf = (w4 ++ h4 ++ d4 ++ [Bpp im]) ++ [Bpc im] ++ buf) by (unfold raw_file; rewrite <- !app_assoc; reflexivity).
  assert (E5 : raw_file im buf = (w4 ++ h4 ++ d4 ++ [Bpp im; Bpc im]) ++ buf ++ []) by (unfold raw_file; rewrite app_nil_r, <- !app_assoc; reflexivity).
  assert (LF : zlen (raw_file im buf) = 14 + SizeOfData im).
  { rewrite E5, !zlen_app, Zw, Zh, Zd, Hlen. change (zlen [Bpp im; Bpc im]) with 2. change (zlen (@nil Z)) with 0. lia. }
  set (F := raw_file im buf) in *. set (sz := zlen F) in *.
  assert (P1 : zlen w4 = 4) by auto. assert (P2 : zlen (w4 ++ h4) = 8) by (rewrite zlen_app; lia).
  assert (P3 : zlen (w4 ++ h4 ++ d4) = 12) by (rewrite !zlen_app; lia).
  assert (P4 : zlen (w4 ++ h4 ++ d4 ++ [Bpp im]) = 13) by (rewrite !zlen_app; cbn; lia).
  assert (P5 : zlen (w4 ++ h4 ++ d4 ++ [Bpp im; Bpc im]) = 14) by (rewrite !zlen_app; cbn; lia).
  assert (G0 : GetLittleUInt s1 (Rd F 0 sz []) = Ok (Width im, Rd F 4 sz [])).
  { assert (T := get_at 4 [] w4 (h4 ++ d4 ++ [Bpp im; Bpc im] ++ buf) s1 []). rewrite <- E0 in T. fold sz in T. unfold GetLittleUInt.
    change (zlen (@nil Z)) with 0 in T. rewrite T by lia. unfold w4. rewrite unle4 by lia. reflexivity. }
  assert (G1 : GetLittleUInt s2 (Rd F 4 sz []) = Ok (Height im, Rd F 8 sz [])).
  { assert (T := get_at 4 w4 h4 (d4 ++ [Bpp im; Bpc im] ++ buf) s2 []). rewrite <- E1 in T. fold sz in T. unfold GetLittleUInt.
    rewrite P1 in T. rewrite T by lia. unfold h4. rewrite unle4 by lia. reflexivity. }
  assert (G2 : GetLittleUInt s3 (Rd F 8 sz []) = Ok (Depth im, Rd F 12 sz [])).
  { assert (T := get_at 4 (w4 ++ h4) d4 ([Bpp im; Bpc im] ++ buf) s3 []). rewrite <- E2 in T. fold sz in T. unfold GetLittleUInt.
    rewrite P2 in T. rewrite T by lia. unfold d4. rewrite unle4 by lia. reflexivity. }
  assert (G3 : iGetcLump (Rd F 12 sz []) = Ok (Bpp im, Rd F 13 sz [])).
  { assert (T := getc_at (w4 ++ h4 ++ d4) (Bpp im) (Bpc im :: buf) []). rewrite <- E3 in T. fold sz in T. rewrite P3 in T. apply T. lia. }
  assert (G4 : iReadLump [Bpc old] 1 1 (Rd F 13 sz []) = Ok (1, [Bpc im], Rd F 14 sz [])).
  { assert (T := read_at (w4 ++ h4 ++ d4 ++ [Bpp im]) [Bpc im] buf [Bpc old] 1 1 []). rewrite <- E4 in T. fold sz in T. rewrite P4 in T. apply T; try lia; cbn; lia. }
  unfold ilLoadRawL, iLoadRawInternal, iSetInputLump. fold sz. rewrite G0. cbn [bind]. rewrite G1. cbn [bind]. rewrite G2. cbn [bind]. rewrite G3. cbn [bind].
  rewrite G4. cbn [bind]. change (negb (1 =? 1)) with false. cbv iota. change (geti [Bpc im] 0) with (Bpc im).
  replace (u8 (Bpp im)) with (Bpp im) by (unfold u8; symmetry; apply Z.mod_small; lia).
  set (im0 := old).
  assert (CS : channel_size (ilGetTypeBpc (Bpc im)) (Bpc im)) by (destruct Hbpc as [ -> | [ -> | [ -> | -> ] ] ]; constructor).
  assert (SZE : exact_size (Z.max 1 (Width im)) (Z.max 1 (Height im)) (Z.max 1 (Depth im)) (Bpp im) (Bpc im) = SizeOfData im).
  { rewrite !Z.max_r by lia. unfold exact_size. rewrite Hsz2, Hpl, Hbps. ring. }
  destruct (C10_geometry_exact_partial alloc im0 (Width im) (Height im) (Depth im) (Bpp im) 0 (ilGetTypeBpc (Bpc im)) (Bpc im) None blk)
    as (im1 & b1 & EI & A1 & A2 & A3 & A4 & A5 & A6 & A7 & A8 & A9 & A10 & A11 & _); auto; try lia; try (rewrite SZE; auto; lia).
  { intros src X; discriminate X. }
  rewrite EI. cbn [bind]. change (negb true) with false. cbv iota. rewrite SZE in A9. specialize (A11 eq_refl). subst b1.
  assert (PAL : Pal im1 = mkPal None 0 IL_PAL_NONE /\ Duration im1 = 0 /\ CubeFlags im1 = 0 /\ OffX im1 = 0 /\ OffY im1 = 0).
  { unfold ilInitImage in EI. cbv zeta in EI. revert EI. destruct (ilGetBpcType _ =? 0); [discriminate|]. destruct (alloc (u32 _)); [|discriminate]. intros EI.
    injection EI as <-. auto. }
  assert (D1 := proj1 A10). rewrite D1.
  assert (LB : zlen blk = SizeOfData im) by (apply (HA _ _ HB)).
  assert (G5 : iReadLump blk 1 (SizeOfData im1) (Rd F 14 sz []) = Ok (SizeOfData im1, buf, Rd F (14 + SizeOfData im) sz [])).
  { rewrite A9. assert (T := read_at (w4 ++ h4 ++ d4 ++ [Bpp im; Bpc im]) buf [] blk 1 (SizeOfData im) []). rewrite <- E5 in T. fold sz in T. rewrite P5 in T.
    rewrite T by lia. replace (skipn (length buf) blk) with (@nil Z) by (symmetry; apply skipn_all2; unfold zlen in *; lia). rewrite app_nil_r, Z.mul_1_l. reflexivity. }
  rewrite G5. cbn [bind]. cbn [with_Data SizeOfData]. rewrite Z.ltb_irrefl.
  eexists. eexists. split; [reflexivity|]. split; [reflexivity|].
  unfold raw_finish. destruct A10 as (_ & B2 & B3 & B4 & B5 & B6 & B7 & B8 & B9 & B10 & B11).
  cbn [with_Data with_Origin with_Format Width Height Depth Bpp Bpc Bps Data SizeOfData SizeOfPlane Format Type_ Origin Pal Duration CubeFlags OffX OffY].
  split.
  { unfold img_ok. cbn [with_Data with_Origin with_Format Width Height Depth Bpp Bpc Bps Data SizeOfData SizeOfPlane]. repeat split; auto; try lia. }
  destruct PAL as (PA & PB & PC & PD & PE).
  repeat split; try lia; auto; try (rewrite A4; reflexivity).
Qed.

Lemma img_eq : forall a b, Width a = Width b -> Height a = Height b -> Depth a = Depth b -> Bpp a = Bpp b -> Bpc a = Bpc b -> Bps a = Bps b ->
  Data a = Data b -> SizeOfData a = SizeOfData b -> SizeOfPlane a = SizeOfPlane b -> Format a = Format b -> Type_ a = Type_ b -> Origin a = Origin b ->
  Pal a = Pal b -> Duration a = Duration b -> CubeFlags a = CubeFlags b -> OffX a = OffX b -> OffY a = OffY b -> a = b.
Proof. intros a b. destruct a, b. cbn. intros; subst; reflexivity. Qed.

(** C26c: an image that has the attributes implied by the file format comes back unchanged. *)
Theorem C26_exact : forall alloc old s1 s2 s3 im buf f blk, img_ok im buf ->
  Width im < 2 ^ 32 -> Height im < 2 ^ 32 -> Depth im < 2 ^ 32 ->
  Format im = raw_format (Bpp im) -> Type_ im = ilGetTypeBpc (Bpc im) -> Origin im = IL_ORIGIN_UPPER_LEFT ->
  Pal im = mkPal None 0 IL_PAL_NONE -> Duration im = 0 -> CubeFlags im = 0 -> OffX im = 0 -> OffY im = 0 ->
  file_of (iSaveRawInternal im buf) = Some f -> SizeOfData im < 2147483648 - 14 ->
  zlen s1 = 4 -> zlen s2 = 4 -> zlen s3 = 4 -> allocator_ok alloc -> alloc (SizeOfData im) = Some blk ->
  exists r, ilLoadRawL alloc None old s1 s2 s3 f = Ok (true, im, r) /\ rerr r = [].
Proof.
  intros alloc old s1 s2 s3 im buf f blk Hok HW HH HD HF HT HO HP Q1 Q2 Q3 Q4 E Hs L1 L2 L3 HA HB.
  destruct (C26_roundtrip_partial alloc None old s1 s2 s3 im buf f blk) as (im' & r & A & B & OK & C1 & C2 & C3 & C4 & C5 & C6 & C7 & C8 & C9 & D1 & D2 & D3 & D4); auto.
  exists r. split; [|exact B]. rewrite A. do 3 f_equal.
  destruct OK as (O1 & _ & _ & _ & _ & _ & O2 & O3 & O4 & _). destruct Hok as (R1 & _ & _ & _ & _ & _ & R2 & R3 & R4 & _).
  assert (BPS : Bps im' = Bps im) by (rewrite O2, R2, C1, C4, C5; reflexivity).
  assert (SP : SizeOfPlane im' = SizeOfPlane im) by (rewrite O3, R3, BPS, C2; reflexivity).
  assert (SD : SizeOfData im' = SizeOfData im) by (rewrite O4, R4, SP, C3; reflexivity).
  apply img_eq; congruence.
Qed.

(** Counterexamples to the full statement. *)
Theorem C26_attributes_refuted : forall alloc old s1 s2 s3 im buf f blk, img_ok im buf ->
  Width im < 2 ^ 32 -> Height im < 2 ^ 32 -> Depth im < 2 ^ 32 ->
  file_of (iSaveRawInternal im buf) = Some f -> SizeOfData im < 2147483648 - 14 ->
  zlen s1 = 4 -> zlen s2 = 4 -> zlen s3 = 4 -> allocator_ok alloc -> alloc (SizeOfData im) = Some blk ->
  exists im' r, ilLoadRawL alloc None old s1 s2 s3 f = Ok (true, im', r) /\ Data im' = Some buf /\
    (Bpp im = 3 -> Format im = IL_BGR -> Format im' = IL_RGB) /\
    (Bpp im = 2 -> Format im = IL_LUMINANCE_ALPHA -> Format im' = IL_RGBA /\ Bpp im' = 2) /\
    (Bpc im = 4 -> Type_ im = IL_FLOAT -> Type_ im' = IL_UNSIGNED_INT) /\
    (Origin im = IL_ORIGIN_LOWER_LEFT -> Origin im' = IL_ORIGIN_UPPER_LEFT).
Proof.
  intros alloc old s1 s2 s3 im buf f blk Hok HW HH HD E Hs L1 L2 L3 HA HB.
  destruct (C26_roundtrip_partial alloc None old s1 s2 s3 im buf f blk) as (im' & r & A & B & OK & C1 & C2 & C3 & C4 & C5 & C6 & C7 & C8 & C9); auto.
  exists im', r. split; [exact A|]. split; [apply OK|]. split; [intros X _; rewrite C6, X; reflexivity|].
  split; [intros X _; rewrite C6, C4, X; split; reflexivity|]. split; [intros X _; rewrite C7, X; reflexivity|]. intros _. exact C8.
Qed.

Example C26_ex : let im := mkImg 2 1 1 3 1 6 (Some [1;2;3;4;5;6]) 6 6 IL_RGB IL_UNSIGNED_BYTE IL_ORIGIN_UPPER_LEFT (mkPal None 0 IL_PAL_NONE) 0 0 0 0 in
  img_ok im [1;2;3;4;5;6] /\ file_of (iSaveRawInternal im [1;2;3;4;5;6]) = Some [2;0;0;0;1;0;0;0;1;0;0;0;3;1;1;2;3;4;5;6] /\
  ilLoadRawL (fun n => Some (repeat 9 (Z.to_nat n))) None im [7;7;7;7] [7;7;7;7] [7;7;7;7] [2;0;0;0;1;0;0;0;1;0;0;0;3;1;1;2;3;4;5;6] =
  Ok (true, im, Rd [2;0;0;0;1;0;0;0;1;0;0;0;3;1;1;2;3;4;5;6] 20 20 []).
Proof. cbv zeta. split; [repeat split; cbn; auto; lia|]. vm_compute. auto. Qed.

(** ** C52 *)

Lemma get_on : forall mem n stk r, 0 < zlen mem < 4294967295 -> on mem r -> 0 < n < 4294967296 -> zlen stk = n ->
  exists v r', get n stk r = Ok (v, r') /\ on mem r'.
Proof.
  intros mem n stk r Hm Hr Hn Hs. unfold get. rewrite (C21_read mem) by (auto; lia). cbv zeta. cbn [bind].
  do 2 eexists. split; [reflexivity|]. split; [reflexivity|]. split; [reflexivity|]. destruct Hr as (_ & _ & Hr). cbn [rpos].
  unfold rest, zlen in *. rewrite firstn_length, skipn_length. lia.
Qed.
Lemma getc_on : forall mem r, 0 < zlen mem < 4294967295 -> on mem r -> exists c r', iGetcLump r = Ok (c, r') /\ on mem r' /\ (c = -1 \/ In c mem).
Proof.
  intros mem r Hm Hr. rewrite (C21_getc mem) by auto. destruct Hr as (_ & _ & Hr). destruct (rpos r <? zlen mem) eqn:E.
  - do 2 eexists. split; [reflexivity|]. split; [split; [reflexivity|split; [reflexivity|cbn; lia]]|]. right. unfold geti. apply nth_In. unfold zlen in *. lia.
  - do 2 eexists. split; [reflexivity|]. split; [split; [reflexivity|split; [reflexivity|cbn; lia]]|]. auto.
Qed.
Lemma read_on : forall mem b s n r, 0 < zlen mem < 4294967295 -> on mem r -> 0 < s -> 0 <= n -> s * n < 4294967296 -> s * n <= zlen b ->
  exists c b' r', iReadLump b s n r = Ok (c, b', r') /\ on mem r' /\ zlen b' = zlen b /\ (bytes mem -> bytes b -> bytes b').
Proof.
  intros mem b s n r Hm Hr Hs Hn Hw Hb. rewrite (C21_read mem) by auto. cbv zeta. do 3 eexists. split; [reflexivity|].
  assert (H := Hr). destruct H as (_ & _ & H). set (got := rest mem (rpos r) (s * n)).
  assert (L : (length got <= length mem - Z.to_nat (rpos r) /\ length got <= Z.to_nat (s * n))%nat).
  { unfold got, rest. rewrite firstn_length, skipn_length. lia. }
  split; [split; [reflexivity|split; [reflexivity|cbn [rpos]; unfold zlen in *; lia]]|]. split.
  - rewrite zlen_app. unfold zlen in *. rewrite skipn_length. lia.
  - intros B1 B2. apply bytes_app.
    + unfold got, rest. apply bytes_slice. exact B1.
    + apply bytes_Forall. apply bytes_Forall in B2. rewrite <- (firstn_skipn (length got) b) in B2. apply Forall_app in B2. apply B2.
Qed.

(** C52: loading any non-empty byte string as RAW stays inside all buffers and ends, whatever the
    allocator does and whatever the uninitialised locals contain. *)
Theorem C52_safe_partial : forall alloc origin old s1 s2 s3 mem, 0 < zlen mem < 4294967295 -> allocator_ok alloc ->
  zlen s1 = 4 -> zlen s2 = 4 -> zlen s3 = 4 ->
  exists ok im r, ilLoadRawL alloc origin old s1 s2 s3 mem = Ok (ok, im, r) /\
    (ok = true -> exists d, Data im = Some d /\ zlen d = SizeOfData im).
Proof.
  intros alloc origin old s1 s2 s3 mem Hm HA L1 L2 L3. unfold ilLoadRawL, iLoadRawInternal, GetLittleUInt.
  assert (R0 : on mem (iSetInputLump mem (zlen mem))) by (split; [reflexivity|split; [reflexivity|cbn; lia]]).
  destruct (get_on mem 4 s1 _ Hm R0 ltac:(lia) L1) as (W & r1 & -> & R1). cbn [bind].
  destruct (get_on mem 4 s2 _ Hm R1 ltac:(lia) L2) as (H & r2 & -> & R2). cbn [bind].
  destruct (get_on mem 4 s3 _ Hm R2 ltac:(lia) L3) as (D & r3 & -> & R3). cbn [bind].
  destruct (getc_on mem r3 Hm R3) as (c & r4 & -> & R4 & _). cbn [bind].
  destruct (read_on mem [Bpc old] 1 1 r4 Hm R4) as (n & b & r5 & -> & R5 & _); try (cbn; lia). cbn [bind].
  destruct (negb (n =? 1)); [do 3 eexists; split; [reflexivity|discriminate]|].
  unfold ilInitImage. destruct (ilGetBpcType _ =? 0); [do 3 eexists; split; [reflexivity|discriminate]|]. cbv zeta.
  set (size := u32 (u32 (u32 _ * _) * _)). assert (0 <= size < 4294967296) by apply u32_range.
  destruct (alloc size) as [blk|] eqn:EA; cbn [bind]; [|do 3 eexists; split; [reflexivity|discriminate]].
  apply HA in EA. change (negb true) with false. cbn iota. cbn [Data SizeOfData].
  destruct (read_on mem blk 1 size r5 Hm R5) as (n' & b' & r6 & -> & R6 & L & _); try lia. cbn [bind]. cbn [with_Data SizeOfData].
  destruct (n' <? size); [do 3 eexists; split; [reflexivity|discriminate]|].
  do 3 eexists. split; [reflexivity|]. intros _. exists b'. split; [reflexivity|]. cbn. lia.
Qed.

(** But the loaded image may claim more pixels than its buffer has: a file of 16 bytes gives an image
    of 2147483649 x 2 pixels of one byte with a buffer of 2 bytes. *)
Theorem C52_size_refuted : forall alloc old s1 s2 s3 a b, allocator_ok alloc -> alloc 2 <> None ->
  zlen s1 = 4 -> zlen s2 = 4 -> zlen s3 = 4 ->
  exists im r, ilLoadRawL alloc None old s1 s2 s3 [1;0;0;128; 2;0;0;0; 1;0;0;0; 1; 1; a; b] = Ok (true, im, r) /\
    Data im = Some [a; b] /\ Width im = 2147483649 /\ Height im = 2 /\ Depth im = 1 /\ Bpp im = 1 /\ Bpc im = 1.
Proof.
  intros alloc old s1 s2 s3 a b HA HB L1 L2 L3. unfold ilLoadRawL, iLoadRawInternal, GetLittleUInt, iSetInputLump.
  set (mem := [1;0;0;128; 2;0;0;0; 1;0;0;0; 1; 1; a; b]). change (zlen mem) with 16.
  destruct s1 as [|x1 [|x2 [|x3 [|x4 [|q t]]]]]; try discriminate L1. 2:{ rewrite !zlen_cons in L1. assert (0 <= zlen t) by auto. lia. }
  destruct s2 as [|y1 [|y2 [|y3 [|y4 [|q t]]]]]; try discriminate L2. 2:{ rewrite !zlen_cons in L2. assert (0 <= zlen t) by auto. lia. }
  destruct s3 as [|w1 [|w2 [|w3 [|w4 [|q t]]]]]; try discriminate L3. 2:{ rewrite !zlen_cons in L3. assert (0 <= zlen t) by auto. lia. }
  change (get 4 [x1; x2; x3; x4] (Rd mem 0 16 [])) with (Ok (2147483649, Rd mem 4 16 [])). cbn [bind].
  change (get 4 [y1; y2; y3; y4] (Rd mem 4 16 [])) with (Ok (2, Rd mem 8 16 [])). cbn [bind].
  change (get 4 [w1; w2; w3; w4] (Rd mem 8 16 [])) with (Ok (1, Rd mem 12 16 [])). cbn [bind].
  change (iGetcLump (Rd mem 12 16 [])) with (Ok (1, Rd mem 13 16 [])). cbn [bind].
  change (iReadLump [Bpc old] 1 1 (Rd mem 13 16 [])) with (Ok (1, [1], Rd mem 14 16 [])). cbn [bind].
  change (negb (1 =? 1)) with false. cbv iota. change (geti [1] 0) with 1. change (u8 1) with 1.
  unfold ilInitImage. change (ilGetBpcType (ilGetTypeBpc 1)) with 1. change (1 =? 0) with false. cbv iota.
  change (u32 (u32 (u32 (nz1 2147483649 * 1 * 1) * nz1 2) * nz1 1)) with 2. cbv zeta.
  destruct (alloc 2) as [blk|] eqn:EA; [|congruence]. apply HA in EA. cbn [bind]. change (negb true) with false. cbv iota. cbn [Data SizeOfData].
  destruct blk as [|z1 [|z2 [|q t]]]; try discriminate EA. 2:{ rewrite !zlen_cons in EA. assert (0 <= zlen t) by auto. lia. }
  change (u32 (u32 (u32 (nz1 2147483649 * 1 * 1) * nz1 2) * nz1 1)) with 2.
  change (iReadLump [z1; z2] 1 2 (Rd mem 14 16 [])) with (Ok (2, [a; b], Rd mem 16 16 [])). cbn [bind]. cbn [with_Data SizeOfData].
  change (2 <? 2) with false. cbv iota. do 2 eexists. split; [reflexivity|]. cbn. auto 10.
Qed.

(** An empty lump (size 0) makes the size checks inactive and the first byte is read outside it. *)
Theorem C52_empty_refuted : forall alloc origin old s1 s2 s3, ilLoadRawL alloc origin old s1 s2 s3 [] = UB.
Proof. intros. reflexivity. Qed.

Print Assumptions C26_file.
Print Assumptions C26_roundtrip_partial.
Print Assumptions C26_exact.
Print Assumptions C26_attributes_refuted.
Print Assumptions C52_safe_partial.
Print Assumptions C52_size_refuted.
Print Assumptions C52_empty_refuted.
