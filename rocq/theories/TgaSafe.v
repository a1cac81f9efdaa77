(** C57: loading any Targa file: memory safety and termination. *)
From Coq Require Import ZArith List Lia Bool.
From Verif Require Import Base Slices BitLemmas Scatter Enums Utility Image ImageSpec ImageProps Elem Flip FlipProofs FlipProps Lump LumpSpec LumpProofs LumpProps Channels Endian EndianProps Raw RawProps Rle Pcx PcxProofs PcxProps PcxSafe Tga TgaSpec TgaProofs TgaProps.
Import ListNotations.
Open Scope Z_scope.

Lemma put_pixel_safe : forall n c p Size Color d, 0 <= c -> c + Z.of_nat n <= zlen Color -> zlen d = Size ->
  exists d', put_pixel n c p Size Color d = Ok d' /\ zlen d' = Size.
Proof.
  induction n as [|n IH]; intros c p Size Color d Hc HC Hd; cbn [put_pixel]; [eauto|].
  destruct (u32 (p + c) <? Size) eqn:E; [|eauto]. assert (R := u32_range (p + c)). rewrite rd_ok by lia. cbn [bind]. rewrite wr_ok by lia. cbn [bind].
  apply IH; try lia. rewrite zlen_upd; lia.
Qed.
Lemma seek_on : forall F r off, 0 < zlen F < 4294967295 -> on F r -> exists c r', iSeekRLump off IL_SEEK_CUR r = Ok (c, r') /\ on F r'.
Proof.
  intros F [l p s e] off Hm (H1 & H2 & H3). cbn in H1, H2, H3. subst l s. unfold iSeekRLump, seek_lump. cbn [rpos Lump.rsize rlump rerr].
  change (IL_SEEK_CUR =? IL_SEEK_SET) with false. change (IL_SEEK_CUR =? IL_SEEK_CUR) with true. cbv iota. assert (R := u32_range (p + off)).
  destruct (zlen F <? u32 (p + off)) eqn:E; cbn [bind]; do 2 eexists; (split; [reflexivity|]); (split; [reflexivity|split; [reflexivity|cbn; lia]]).
Qed.

(** decoding run-length packets stays inside the pixels, whatever the packets are *)
Lemma tga_loop_safe : forall F Bpp Size, 0 < zlen F < 4294967295 -> bytes F -> 1 <= Bpp <= 4 -> Size <= 4294966784 ->
  forall fuel b Color d r, 0 <= b -> zlen d = Size -> zlen Color = 4 -> on F r -> Size - b < Z.of_nat fuel ->
  exists ok d' r', tga_loop fuel Bpp Size b Color d r = Ok (ok, d', r') /\ zlen d' = Size /\ on F r'.
Proof.
  intros F Bpp Size Hm HB HBp HS. induction fuel as [|fuel IH]; intros b Color d r Hb Hd HC Hr Hf.
  - cbn [tga_loop]. replace (b <? Size) with false by lia. eauto 6.
  - cbn [tga_loop]. destruct (b <? Size) eqn:EB; [|eauto 6].
    destruct (getc_on F r Hm Hr) as (h & r1 & -> & R1 & Hh). cbn [bind]. assert (U := u8_range h). set (hd := u8 h) in *. clearbody hd.
    destruct (negb (Z.land hd 128 =? 0)) eqn:EH.
    + destruct (RawProps.read_on F Color 1 Bpp r1) as (n & c' & r2 & -> & R2 & LC & _); auto; try lia. cbn [bind].
      destruct (negb (n =? Bpp)); [eauto 6|].
      assert (RL : 0 <= Z.land hd 127 < 128). { change 127 with (Z.ones 7). rewrite Z.land_ones by lia. apply Z.mod_pos_bound. reflexivity. }
      set (m := Z.land hd 127 + 1) in *. assert (1 <= m * Bpp <= 512) by nia. rewrite stride_loop by lia.
      destruct (loop_rule _ (fun _ d' => zlen d' = Size) 0 m (fun k => (fun i d => put_pixel (Z.to_nat Bpp) 0 (b + i) Size c' d) (0 + k * Bpp)) d) as (d' & -> & L'); auto; try lia.
      { intros i s Hi L. cbv beta. apply put_pixel_safe; lia. }
      cbn [bind]. rewrite u32_small by lia. apply IH; auto; lia.
    + set (m := (hd + 1) * Bpp) in *. assert (HM : 1 <= m <= 512). { apply negb_false_iff in EH. change 128 with (2 ^ 7) in EH. rewrite land_pow2 in EH by lia. change (2 ^ 7) with 128 in EH. unfold m. nia. }
      clearbody m. cbv zeta. rewrite (u32_small (b + m)) by lia.
      set (T := if Size <? b + m then u32 (Size - b) else m). assert (HT : 0 <= T <= m /\ T <= Size - b). { unfold T. destruct (Size <? b + m) eqn:E; [rewrite u32_small by lia|]; lia. }
      clearbody T. unfold iread_at.
      destruct (RawProps.read_on F (slice d b (zlen d - b)) 1 T r1) as (n & d1 & r2 & -> & R2 & LD & _); auto; try lia. { rewrite zlen_slice by lia. lia. }
      rewrite zlen_slice in LD by lia. cbn [bind]. assert (LS : zlen (splice d b d1) = Size) by (rewrite zlen_splice; lia).
      destruct (negb (n =? T)); [eauto 6|].
      assert (exists c r3, (if Size <? u32 (b + m + m) then iSeekRLump (i32 (m - T)) IL_SEEK_CUR r2 else Ok (0, r2)) = Ok (c, r3) /\ on F r3) as (c & r3 & -> & R3).
      { destruct (Size <? u32 (b + m + m)); [apply seek_on; auto|eauto]. }
      cbn [bind]. apply IH; auto; lia.
Qed.

Lemma tga_pixels_safe : forall F comp col im d r, 0 < zlen F < 4294967295 -> bytes F -> on F r -> zlen col = 4 -> 1 <= Bpp im <= 4 -> Data im = Some d -> zlen d = SizeOfData im ->
  0 <= SizeOfData im < 4294967296 -> SizeOfData im = u32 (Width im * Height im * Depth im * Bpp im) ->
  (comp = true -> SizeOfData im <= 4294966784) ->
  exists ok d' r', tga_pixels comp col im r = Ok (ok, with_Data im (Some d'), r') /\ zlen d' = SizeOfData im /\ on F r'.
Proof.
  intros F comp col im d r Hm HB Hr Hc Hb HD HL HS HE HC. unfold tga_pixels. rewrite HD. destruct comp.
  - cbv zeta. rewrite <- HE. destruct (tga_loop_safe F (Bpp im) (SizeOfData im) Hm HB Hb (HC eq_refl) (S (Z.to_nat (SizeOfData im))) 0 col d r) as (ok & d' & r' & -> & L & R); auto; try lia.
    cbn [bind]. eauto 6.
  - destruct (RawProps.read_on F d 1 (SizeOfData im) r) as (n & d1 & r2 & -> & R2 & LD & _); auto; try lia. cbn [bind]. do 3 eexists. split; [reflexivity|]. split; [lia|auto].
Qed.

Lemma get2_on : forall F stk r, 0 < zlen F < 4294967295 -> on F r -> zlen stk = 2 ->
  exists v r', get 2 stk r = Ok (v, r') /\ on F r' /\ rpos r' = Z.min (rpos r + 2) (zlen F).
Proof.
  intros F stk r Hm Hr Hs. unfold get. rewrite (C21_read F) by (auto; lia). cbv zeta. cbn [bind]. destruct Hr as (_ & _ & Hr).
  assert (L : zlen (rest F (rpos r) (2 * 1)) = Z.min 2 (zlen F - rpos r)). { unfold rest, zlen in *. rewrite firstn_length, skipn_length. lia. }
  do 2 eexists. split; [reflexivity|]. split; [split; [reflexivity|split; [reflexivity|cbn [rpos]; lia]]|]. cbn [rpos]. lia.
Qed.

Lemma pal16_safe : forall F up size, 0 < zlen F < 4294967295 -> zlen up = 2 -> 
  forall fuel i p r, on F r -> zlen p = size -> (0 < size -> 4 <= size) -> 0 <= i -> zlen F - rpos r < 2 * Z.of_nat fuel ->
  exists ok p' r', pal16 fuel up i size p r = Ok (ok, p', r') /\ zlen p' = size /\ on F r'.
Proof.
  intros F up size Hm Hu. induction fuel as [|fuel IH]; intros i p r Hr Hp H4 Hi Hf.
  - destruct Hr as (_ & _ & Hr). lia.
  - cbn [pal16]. destruct (i <? size) eqn:E; [|eauto 6]. unfold GetBigUShort.
    destruct (get2_on F up r Hm Hr Hu) as (v & r1 & -> & R1 & P1). cbn [bind]. unfold iEofLump. assert (R1' := R1). destruct R1' as (_ & S1 & Q1). rewrite S1. replace (zlen F =? 0) with false by lia.
    destruct (zlen F <=? rpos r1) eqn:EE; [eauto 6|].
    do 4 (rewrite wr_ok by (rewrite ?zlen_upd; rewrite ?zlen_upd; rewrite ?zlen_upd; rewrite ?zlen_upd; lia); cbn [bind]).
    assert (U := u32_range (i + 4)). apply IH; auto; try lia. do 4 (rewrite zlen_upd; [|rewrite ?zlen_upd; rewrite ?zlen_upd; rewrite ?zlen_upd; lia]). exact Hp.
Qed.

Lemma i16_safe : forall alloc im d, allocator_ok alloc -> Data im = Some d -> 1 <= Width im -> 1 <= Height im -> zlen d = u32 (Width im * Height im * 2) -> Width im * Height im * 3 < 4294967296 ->
  exists ok im', i16BitTarga alloc im = Ok (ok, im').
Proof.
  intros alloc im d HA HD HW HH HL HS. unfold i16BitTarga. rewrite HD.
  assert (WH : 0 < Width im * Height im) by (apply Z.mul_pos_pos; lia). rewrite (u32_small (Width im * Height im * 2)) in HL by lia. rewrite (u32_small (Width im * Height im * 3)) by lia. rewrite (u32_small (Width im * Height im)) by lia.
  destruct (alloc (Width im * Height im * 3)) as [new|] eqn:EA; [|eauto]. assert (LN := HA _ _ EA). set (n := Width im * Height im) in *.
  match goal with |- context [loop 0 n ?f new] => destruct (loop_rule _ (fun _ new' => zlen new' = n * 3) 0 n f new) as (new' & -> & L'); auto; try lia end.
  { intros x s Hx L. do 2 (rewrite rd_ok by lia; cbn [bind]). cbv zeta.
    assert (ST : forall s k v, zlen s = n * 3 -> 0 <= k < 3 -> exists s', wr s (3 * x + k) v = Ok s' /\ zlen s' = n * 3) by (intros s' k v L' Hk; rewrite wr_ok by lia; eexists; split; [reflexivity|]; rewrite zlen_upd; lia).
    destruct (ST s 0 (u8 (Z.shiftl (Z.land (geti d (2 * x) + 256 * geti d (2 * x + 1)) 31) 3)) L ltac:(lia)) as (s1 & E1 & L1). rewrite Z.add_0_r in E1. rewrite E1. cbn [bind].
    match goal with |- context [wr s1 _ ?v] => destruct (ST s1 1 v L1 ltac:(lia)) as (s2 & -> & L2) end. cbn [bind]. apply ST; auto; lia. }
  cbn [bind]. unfold ilInitImage. change (ilGetBpcType IL_UNSIGNED_BYTE) with 1. change (1 =? 0) with false. cbv iota zeta.
  assert (NZ : nz1 (Width im) = Width im /\ nz1 (Height im) = Height im) by (unfold nz1; split; [destruct (Width im =? 0) eqn:Q|destruct (Height im =? 0) eqn:Q]; lia). destruct NZ as (-> & ->). change (nz1 1) with 1.
  assert (Width im * 3 <= n * 3) by (unfold n; nia).
  assert (E3 : u32 (u32 (u32 (Width im * 3 * 1) * Height im) * 1) = n * 3). { rewrite !Z.mul_1_r. rewrite (u32_small (Width im * 3)) by lia. replace (Width im * 3 * Height im) with (n * 3) by (unfold n; ring). rewrite !(u32_small (n * 3)) by lia; reflexivity. }
  rewrite E3. destruct (alloc (n * 3)) as [blk|] eqn:EB; [|cbn; eauto]. assert (LB := HA _ _ EB). rewrite memcpy_ok by lia. cbn [bind]. eauto.
Qed.

(** bytes per pixel that a header announces: 15 bits are stored in two bytes *)
Definition tga_bytes (F : list Z) : Z := (geti F 16 + 7) / 8.

(** C57: loading never leaves a buffer and always terminates, on every file of at least 18 bytes, provided
    that run-length encoded pixels take at most 2^32 - 512 bytes (modulo 2^32) and that the 24-bit
    version of 15/16-bit pixels takes less than 2^32 bytes.  Without these it is false, see below. *)
Theorem C57_safe_partial : forall alloc old u idb up col F, allocator_ok alloc -> bytes F -> 18 <= zlen F < 2 ^ 32 - 1 ->
  (forall i, zlen (u i) = 2) -> zlen idb = 255 -> zlen up = 2 -> zlen col = 4 ->
  (8 <= geti F 2 -> (le16 F 12 * le16 F 14 * tga_bytes F) mod 2 ^ 32 <= 2 ^ 32 - 512) ->
  (geti F 2 = 2 \/ geti F 2 = 10 -> tga_bytes F = 2 -> le16 F 12 * le16 F 14 * 3 < 2 ^ 32) ->
  exists ok im r, ilLoadTargaL alloc old u idb up col F = Ok (ok, im, r).
Proof.
  intros alloc old u idb up col F HA HB HF Hu Hid Hup Hcol HR H16. change (2 ^ 32) with 4294967296 in *.
  unfold ilLoadTargaL, iLoadTargaInternal. rewrite tga_head_ok by (auto; lia). cbn [bind].
  assert (HBy : forall p, 0 <= p < 18 -> 0 <= geti F p < 256) by (intros; apply HB; lia).
  assert (HW16 : forall p, 0 <= p < 17 -> 0 <= le16 F p < 65536) by (intros p Hp; unfold le16; assert (A := HBy p ltac:(lia)); assert (B := HBy (p + 1) ltac:(lia)); lia).
  assert (R0 : on F (Rd F 18 (zlen F) [])) by (split; [reflexivity|split; [reflexivity|cbn; lia]]).
  set (r0 := Rd F 18 (zlen F) []) in *. clearbody r0.
  assert (Fm : 0 < zlen F < 4294967295) by lia.
  destruct (iCheckTarga (tga_head_of F)) as [h|] eqn:EC; [|eauto].
  assert (HH : ImageType h = geti F 2 /\ IDLen h = geti F 0 /\ HWidth h = le16 F 12 /\ HHeight h = le16 F 14 /\ Z.shiftr (TBpp h) 3 = tga_bytes F /\ 1 <= tga_bytes F <= 4 /\
    (TBpp h = 16 -> tga_bytes F = 2) /\ Z.land (ImageDesc h) 16 = 0 /\ 1 <= le16 F 12 /\ 1 <= le16 F 14).
  { revert EC. unfold iCheckTarga, tga_head_of. cbn [HWidth HHeight TBpp ImageDesc ImageType]. rewrite !u8_small by (apply HBy; lia). fold (le16 F 12). change (geti F 12 + 256 * geti F (12 + 1)) with (le16 F 12). change (geti F 14 + 256 * geti F (14 + 1)) with (le16 F 14).
    destruct ((le16 F 12 =? 0) || (le16 F 14 =? 0)) eqn:E1; [discriminate|]. destruct (case (geti F 16) [8; 15; 16; 24; 32]) eqn:E2; cbn [negb]; [|discriminate].
    destruct (Z.land (geti F 17) 16 =? 0) eqn:E3; cbn [negb]; [|discriminate]. destruct (case (geti F 2) _); cbn [negb]; [|discriminate].
    assert (HWp := HW16 12 ltac:(lia)). assert (HHp := HW16 14 ltac:(lia)). unfold case in E2. cbn [existsb] in E2. unfold tga_bytes.
    assert (B5 : geti F 16 = 8 \/ geti F 16 = 15 \/ geti F 16 = 16 \/ geti F 16 = 24 \/ geti F 16 = 32) by lia. intros X. injection X as <-.
    destruct B5 as [B5|[B5|[B5|[B5|B5]]]]; rewrite B5; cbn [Z.eqb Pos.eqb]; cbn [ImageType IDLen HWidth HHeight TBpp ImageDesc]; rewrite ?B5; (repeat split); try reflexivity; try lia; try (vm_compute; congruence). }
  clear EC. destruct HH as (HT & HI & HWd & HHt & HSh & HBp & HB16 & HDs & HW1 & HH1).
  assert (HWp := HW16 12 ltac:(lia)). assert (HHp := HW16 14 ltac:(lia)). set (W := le16 F 12) in *. set (H := le16 F 14) in *. clearbody W H.
  set (b := tga_bytes F) in *. clearbody b. assert (ID0 := HBy 0 ltac:(lia)). rewrite HT.
  destruct (geti F 2 =? 0); [eauto|].
  assert (NZ : nz1 W = W /\ nz1 H = H) by (unfold nz1; split; [destruct (W =? 0) eqn:Q|destruct (H =? 0) eqn:Q]; lia). destruct NZ as (NZ1 & NZ2).
  assert (WB : 0 <= W * b <= 262140) by nia.
  assert (SZ : u32 (u32 (u32 (W * b * 1) * H) * 1) = u32 (W * H * b)). { rewrite !Z.mul_1_r. rewrite (u32_small (W * b)) by lia. replace (W * b * H) with (W * H * b) by ring. unfold u32. rewrite Z.mod_mod by lia. reflexivity. }
  assert (SR := u32_range (W * H * b)). fold (u32 (W * H * b)) in HR.
  assert (INIT : forall f, exists ok im er, ilInitImage alloc old W H 1 b f IL_UNSIGNED_BYTE None = Ok (ok, im, er) /\
     (ok = true -> exists d, Data im = Some d /\ zlen d = u32 (W * H * b) /\ SizeOfData im = u32 (W * H * b) /\ Width im = W /\ Height im = H /\ Depth im = 1 /\ Bpp im = b)).
  { intros f. unfold ilInitImage. change (ilGetBpcType IL_UNSIGNED_BYTE) with 1. change (1 =? 0) with false. cbv iota zeta. rewrite NZ1, NZ2. change (nz1 1) with 1. rewrite SZ.
    destruct (alloc (u32 (W * H * b))) as [blk|] eqn:EA; [|do 3 eexists; split; [reflexivity|discriminate]]. do 3 eexists. split; [reflexivity|]. intros _. exists blk. assert (LB := HA _ _ EA). cbn. auto 10. }
  assert (PIX : forall comp im d r, on F r -> (comp = true -> 8 <= geti F 2) -> Data im = Some d -> zlen d = u32 (W * H * b) -> SizeOfData im = u32 (W * H * b) -> Width im = W -> Height im = H -> Depth im = 1 -> Bpp im = b ->
     exists ok d' r', tga_pixels comp col im r = Ok (ok, with_Data im (Some d'), r') /\ zlen d' = u32 (W * H * b) /\ on F r').
  { intros comp im d r Hr Hc A1 A2 A3 A4 A5 A6 A7. destruct (tga_pixels_safe F comp col im d r) as (ok & d' & r' & E & L & R); auto; try lia.
    - rewrite A3, A4, A5, A6, A7. rewrite Z.mul_1_r. reflexivity.
    - rewrite A3 in L. eauto 6. }
  assert (OR : forall im : img, exists im', tga_origin alloc h im = Ok im').
  { intros im. assert (D48 : Z.land (ImageDesc h) 48 = 0 \/ Z.land (ImageDesc h) 48 = 32).
    { change 48 with (Z.lor 32 16). rewrite Z.land_lor_distr_r, HDs, Z.lor_0_r. change 32 with (2 ^ 5). rewrite land_pow2 by lia. change (2 ^ 5) with 32. lia. }
    unfold tga_origin. cbv zeta. destruct D48 as [-> | ->]; cbn [Z.eqb Pos.eqb]; eauto. }
  assert (OUT : forall m : res (bool * img * reader), (exists ok im r, m = Ok (ok, im, r)) -> exists ok im r, (let! (_, im0, r1) := m in let! im1 := tga_origin alloc h im0 in Ok (true, im1, r1)) = Ok (ok, im, r)).
  { intros m (ok & im & r & ->). cbn [bind]. destruct (OR im) as (im' & ->). cbn [bind]. eauto. }
  apply OUT.
  destruct ((geti F 2 =? 1) || (geti F 2 =? 9)) eqn:T1; [|destruct ((geti F 2 =? 2) || (geti F 2 =? 10)) eqn:T2].
  - unfold iReadColMapTga. rewrite HI, HWd, HHt, HSh, HT. destruct (RawProps.read_on F idb 1 (geti F 0) r0) as (n & c' & r2 & -> & R2 & LC & _); auto; try lia. cbn [bind].
    destruct (negb (n =? geti F 0)); [eauto|]. destruct (INIT 0) as (ok & im & er & -> & HIm). cbn [bind]. destruct ok; cbn [negb]; [|eauto]. destruct (HIm eq_refl) as (d & A1 & A2 & A3 & A4 & A5 & A6 & A7). cbv zeta.
    destruct (case (ColMapEntSize h) [16; 24; 32]) eqn:CE; cbn [negb]; [|eauto]. unfold case in CE. cbn [existsb] in CE.
    set (size := u32 _). assert (SS := u32_range (ColMapLen h * (if ColMapEntSize h =? 16 then 4 else Z.shiftr (ColMapEntSize h) 3))). fold size in SS.
    destruct (alloc size) as [p|] eqn:EA; [|eauto]. assert (LP := HA _ _ EA).
    destruct (negb (ColMapEntSize h =? 16)) eqn:E16.
    + destruct (RawProps.read_on F p 1 size r2) as (n3 & p3 & r3 & -> & R3 & L3 & _); auto; try lia. cbn [bind]. destruct (negb (n3 =? size)); [eauto|].
      destruct (PIX (geti F 2 =? 9) (with_Pal (with_Format im IL_COLOUR_INDEX) (mkPal (Some p3) size (if ColMapEntSize h =? 24 then IL_PAL_BGR24 else IL_PAL_BGRA32))) d r3) as (ok & d' & r' & -> & _); auto; try lia. eauto.
    + destruct (pal16_safe F up size Fm Hup (S (length (rlump r2))) 0 p r2) as (ok & p3 & r3 & -> & L3 & R3); auto; try lia.
      { unfold size. replace (ColMapEntSize h =? 16) with true by (destruct (ColMapEntSize h =? 16); [reflexivity|discriminate]). unfold u32. lia. }
      { destruct R2 as (-> & _ & HP). unfold zlen. lia. }
      cbn [bind]. destruct ok; cbn [negb]; [|eauto].
      destruct (PIX (geti F 2 =? 9) (with_Pal (with_Format im IL_COLOUR_INDEX) (mkPal (Some p3) size (if ColMapEntSize h =? 24 then IL_PAL_BGR24 else IL_PAL_BGRA32))) d r3) as (ok & d' & r' & -> & _); auto; try lia. eauto.
  - unfold iReadUnmapTga. rewrite HI, HWd, HHt, HSh, HT. destruct (RawProps.read_on F idb 1 (geti F 0) r0) as (n & c' & r2 & -> & R2 & LC & _); auto; try lia. cbn [bind].
    destruct (negb (n =? geti F 0)); [eauto|]. destruct (INIT 0) as (ok & im & er & -> & HIm). cbn [bind]. destruct ok; cbn [negb]; [|eauto]. destruct (HIm eq_refl) as (d & A1 & A2 & A3 & A4 & A5 & A6 & A7).
    destruct (case (Bpp im) [1; 2; 3; 4]); cbn [negb]; [|eauto].
    set (im2 := with_Format im _). destruct (PIX (geti F 2 =? 10) im2 d r2) as (ok & d' & r' & -> & L' & _); auto; try lia. cbn [bind].
    destruct ok; cbn [negb]; [|eauto]. destruct (TBpp h =? 16) eqn:E16; [|eauto]. specialize (HB16 ltac:(lia)). specialize (H16 ltac:(lia) HB16). rewrite HB16 in *.
    assert (W2 : Width (with_Data im2 (Some d')) = W) by exact A4. assert (H2 : Height (with_Data im2 (Some d')) = H) by exact A5.
    destruct (i16_safe alloc (with_Data im2 (Some d')) d') as (ok & im' & ->); auto; rewrite ?W2, ?H2; auto; try lia.
    cbn [bind]. eauto.
  - unfold iReadBwTga. rewrite HI, HWd, HHt, HSh, HT. destruct (RawProps.read_on F idb 1 (geti F 0) r0) as (n & c' & r2 & -> & R2 & LC & _); auto; try lia. cbn [bind].
    destruct (negb (n =? geti F 0)); [eauto|]. destruct (INIT IL_LUMINANCE) as (ok & im & er & -> & HIm). cbn [bind]. destruct ok; cbn [negb]; [|eauto]. destruct (HIm eq_refl) as (d & A1 & A2 & A3 & A4 & A5 & A6 & A7).
    destruct (PIX (geti F 2 =? 11) im d r2) as (ok & d' & r' & -> & L' & _); auto; try lia. eauto.
Qed.
Print Assumptions C57_safe_partial.

(** a colour file of 2 x 1 pixels with 24 bits whose second pixel is missing, and a 16-bit run-length encoded
    one, meet the hypotheses *)
Definition ex_short_file : list Z := tga_header 0 0 2 0 0 0 0 0 2 1 24 0 ++ [1; 2; 3].
Definition ex_16_file : list Z := tga_header 0 0 10 0 0 0 0 0 3 1 16 0 ++ [130; 31; 124].
Example C57_safe_case : bytes ex_short_file /\ bytes ex_16_file /\ 18 <= zlen ex_16_file /\
  (le16 ex_16_file 12 * le16 ex_16_file 14 * tga_bytes ex_16_file) mod 2 ^ 32 <= 2 ^ 32 - 512 /\ tga_bytes ex_16_file = 2 /\ le16 ex_16_file 12 * le16 ex_16_file 14 * 3 < 2 ^ 32 /\
  match ilLoadTargaL ex_alloc ex_old ex_u (repeat 7 255) [0; 0] [0; 0; 0; 0] ex_16_file with Ok (ok, im, _) => ok = true /\ Data im = Some [248; 0; 248; 248; 0; 248; 248; 0; 248] | _ => False end.
Proof. split; [apply bytes_Forall; repeat constructor; lia|]. split; [apply bytes_Forall; repeat constructor; lia|]. vm_compute. repeat split; discriminate. Qed.

(** C57b: a file of 1 to 17 bytes is refused and the image is not touched, although the missing numbers of the
    header are uninitialised memory. *)
Lemma getc_pos : forall F r, 0 < zlen F < 4294967295 -> on F r -> exists c r', iGetcLump r = Ok (c, r') /\ on F r' /\
  rpos r' = (if rpos r <? zlen F then rpos r + 1 else zlen F - 1) /\ (zlen F <= rpos r -> c = -1).
Proof.
  intros F r Hm Hr. rewrite (C21_getc F) by auto. destruct Hr as (_ & _ & Hr). destruct (rpos r <? zlen F) eqn:E; do 2 eexists; (split; [reflexivity|]); cbn [rpos];
    (split; [split; [reflexivity|split; [reflexivity|cbn; lia]]|]); (split; [reflexivity|]); intros; try reflexivity; lia.
Qed.
Theorem C57_short_refused : forall alloc old u idb up col F, 0 < zlen F < 18 -> (forall i, zlen (u i) = 2) ->
  exists r, ilLoadTargaL alloc old u idb up col F = Ok (false, old, r).
Proof.
  intros alloc old u idb up col F HF Hu. unfold ilLoadTargaL, iLoadTargaInternal, iGetTgaHead, GetLittleShort, GetLittleUShort.
  assert (R0 : on F (iSetInputLump F (zlen F))) by (split; [reflexivity|split; [reflexivity|cbn; lia]]).
  assert (P0 : rpos (iSetInputLump F (zlen F)) = 0) by reflexivity. set (r0 := iSetInputLump F (zlen F)) in *. clearbody r0. assert (Fm : 0 < zlen F < 4294967295) by lia.
  destruct (getc_pos F r0 Fm R0) as (c1 & r1 & -> & R1 & P1 & _). cbn [bind].
  destruct (getc_pos F r1 Fm R1) as (c2 & r2 & -> & R2 & P2 & _). cbn [bind].
  destruct (getc_pos F r2 Fm R2) as (c3 & r3 & -> & R3 & P3 & _). cbn [bind].
  destruct (get2_on F (u 0) r3 Fm R3 (Hu 0)) as (v4 & r4 & -> & R4 & P4). cbn [bind].
  destruct (get2_on F (u 1) r4 Fm R4 (Hu 1)) as (v5 & r5 & -> & R5 & P5). cbn [bind].
  destruct (getc_pos F r5 Fm R5) as (c6 & r6 & -> & R6 & P6 & _). cbn [bind].
  destruct (get2_on F (u 2) r6 Fm R6 (Hu 2)) as (v7 & r7 & -> & R7 & P7). cbn [bind].
  destruct (get2_on F (u 3) r7 Fm R7 (Hu 3)) as (v8 & r8 & -> & R8 & P8). cbn [bind].
  destruct (get2_on F (u 4) r8 Fm R8 (Hu 4)) as (v9 & r9 & -> & R9 & P9). cbn [bind].
  destruct (get2_on F (u 5) r9 Fm R9 (Hu 5)) as (v10 & r10 & -> & R10 & P10). cbn [bind].
  destruct (getc_pos F r10 Fm R10) as (c11 & r11 & -> & R11 & P11 & C11). cbn [bind].
  destruct (getc_pos F r11 Fm R11) as (c12 & r12 & -> & R12 & P12 & C12). cbn [bind].
  assert (E : c11 = -1 \/ c12 = -1).
  { clear - HF P0 P1 P2 P3 P4 P5 P6 P7 P8 P9 P10 P11 C11 C12. set (n := zlen F) in *. clearbody n.
    assert (N : n = 1 \/ n = 2 \/ n = 3 \/ n = 4 \/ n = 5 \/ n = 6 \/ n = 7 \/ n = 8 \/ n = 9 \/ n = 10 \/ n = 11 \/ n = 12 \/ n = 13 \/ n = 14 \/ n = 15 \/ n = 16 \/ n = 17) by lia.
    rewrite P0 in P1. repeat (destruct N as [->|N]); try subst n;
      cbn in P1; rewrite P1 in P2; cbn in P2; rewrite P2 in P3; cbn in P3; rewrite P3 in P4; cbn in P4; rewrite P4 in P5; cbn in P5; rewrite P5 in P6; cbn in P6; rewrite P6 in P7; cbn in P7; rewrite P7 in P8; cbn in P8; rewrite P8 in P9; cbn in P9; rewrite P9 in P10; cbn in P10; rewrite P10 in P11, C11; cbn in P11; rewrite P11 in C12; solve [left; apply C11; lia | right; apply C12; lia]. }
  match goal with |- context [iCheckTarga ?h] => assert (EC : iCheckTarga h = None) end.
  { unfold iCheckTarga. cbn [HWidth HHeight TBpp ImageDesc ImageType]. destruct ((v9 =? 0) || (v10 =? 0)); [reflexivity|]. destruct E as [-> | ->]; [reflexivity|].
    destruct (negb (case (u8 c11) [8; 15; 16; 24; 32])); reflexivity. }
  rewrite EC. eauto.
Qed.
Print Assumptions C57_short_refused.
Example C57_short_case : exists r, ilLoadTargaL ex_alloc ex_old ex_u (repeat 7 255) [0; 0] [0; 0; 0; 0] [0; 0; 2] = Ok (false, ex_old, r).
Proof. eexists. vm_compute. reflexivity. Qed.

(** ** The hypotheses are needed *)

(** C57c: the empty file: one byte behind it is read. *)
Theorem C57_empty_refuted : forall alloc old u idb up col, ilLoadTargaL alloc old u idb up col [] = UB.
Proof. reflexivity. Qed.

(** C57d: a 16-bit image of 46341 x 46341 pixels takes 2^32 + 9266 bytes, so 9266 bytes are allocated and
    read from the file; then the 46341 x 46341 pixels are expanded. *)
Theorem C57_16bit_refuted : forall alloc old u idb up col px, allocator_ok alloc -> alloc 9266 <> None -> alloc 2147497547 <> None ->
  (forall i, zlen (u i) = 2) -> zlen idb = 255 -> zlen px = 9266 ->
  ilLoadTargaL alloc old u idb up col (tga_header 0 0 2 0 0 0 0 0 46341 46341 16 0 ++ px) = UB.
Proof.
  intros alloc old u idb up col px HA N1 N2 Hu Hid LP. set (F := tga_header 0 0 2 0 0 0 0 0 46341 46341 16 0 ++ px).
  assert (LF : zlen F = 9284) by (unfold F; rewrite (zlen_app _ (tga_header _ _ _ _ _ _ _ _ _ _ _ _)), LP; reflexivity).
  unfold ilLoadTargaL, iLoadTargaInternal. rewrite tga_head_ok by (auto; lia). cbn [bind].
  assert (EH : tga_head_of F = mkTga 0 0 2 0 0 0 0 0 46341 46341 16 0) by (apply tga_head_layout; lia). rewrite EH. clear EH.
  assert (SF : slice F 18 9266 = px) by (unfold F; rewrite slice_app_r by (cbn; lia); change (18 - zlen (tga_header _ _ _ _ _ _ _ _ _ _ _ _)) with 0; rewrite <- LP; apply slice_all). clearbody F.
  change (iCheckTarga (mkTga 0 0 2 0 0 0 0 0 46341 46341 16 0)) with (Some (mkTga 0 0 2 0 0 0 0 0 46341 46341 16 0)). cbv iota. cbn [ImageType]. cbn [Z.eqb Pos.eqb orb]. cbv iota.
  unfold iReadUnmapTga. cbn [IDLen HWidth HHeight TBpp ImageType]. change (Z.shiftr 16 3) with 2. rewrite read_into by lia. cbn [bind]. change (negb (0 =? 0)) with false. cbv iota.
  unfold ilInitImage at 1. change (ilGetBpcType IL_UNSIGNED_BYTE) with 1. change (1 =? 0) with false. cbv iota zeta.
  change (nz1 46341) with 46341. change (nz1 1) with 1. change (u32 (46341 * 2 * 1)) with 92682. change (u32 (92682 * 46341)) with 9266. change (u32 (9266 * 1)) with 9266.
  destruct (alloc 9266) as [blk|] eqn:EA; [|congruence]. assert (LB := HA _ _ EA). cbn [bind negb]. cbn [Bpp]. cbn [case existsb Z.eqb Pos.eqb orb negb]. cbv iota.
  rewrite (pixels_raw col _ blk F _ [] px); [|reflexivity|exact LB|lia|cbn [with_Format SizeOfData]; lia|lia|cbn [with_Format SizeOfData]; symmetry; exact SF].
  cbn [bind negb]. cbn [Z.eqb Pos.eqb]. unfold i16BitTarga. cbn [with_Data with_Format Width Height Data]. change (u32 (46341 * 46341 * 3)) with 2147497547. change (u32 (46341 * 46341)) with 2147488281.
  destruct (alloc 2147497547) as [new|] eqn:EN; [|congruence]. assert (LN := HA _ _ EN).
  assert (UBL : forall m x (new : list Z), zlen new = 2147497547 -> 0 <= x -> x + Z.of_nat m = 4633 -> for_ (m + Z.to_nat (2147488281 - 4633)) x (fun x new =>
        let! lo := rd px (2 * x) in let! hi := rd px (2 * x + 1) in
        let p := lo + 256 * hi in
        let! new := wr new (3 * x) (u8 (Z.shiftl (Z.land p 0x001F) 3)) in
        let! new := wr new (3 * x + 1) (u8 (Z.shiftr (Z.land p 0x03E0) 2)) in
        wr new (3 * x + 2) (u8 (Z.shiftr (Z.land p 0x7C00) 7))) new = UB).
  { induction m as [|m IH]; intros x new' L Hx Hm.
    - cbn [Nat.add]. remember (Z.to_nat (2147488281 - 4633)) as k eqn:Dk. destruct k as [|k]; [lia|]. clear Dk. cbn [for_]. rewrite rd_ub by lia. reflexivity.
    - cbn [Nat.add for_]. do 2 (rewrite rd_ok by lia; cbn [bind]). cbv zeta.
      assert (ST : forall s k v, zlen s = 2147497547 -> 0 <= k < 3 -> exists s', wr s (3 * x + k) v = Ok s' /\ zlen s' = 2147497547) by (intros s' k v L' Hk; rewrite wr_ok by lia; eexists; split; [reflexivity|]; rewrite zlen_upd; lia).
      destruct (ST new' 0 (u8 (Z.shiftl (Z.land (geti px (2 * x) + 256 * geti px (2 * x + 1)) 31) 3)) L ltac:(lia)) as (s1 & E1 & L1). rewrite Z.add_0_r in E1. rewrite E1. cbn [bind].
      match goal with |- context [wr s1 _ ?v] => destruct (ST s1 1 v L1 ltac:(lia)) as (s2 & -> & L2) end. cbn [bind].
      match goal with |- context [wr s2 _ ?v] => destruct (ST s2 2 v L2 ltac:(lia)) as (s3 & -> & L3) end. cbn [bind]. apply IH; lia. }
  unfold loop. replace (Z.to_nat (2147488281 - 0)) with (Z.to_nat 4633 + Z.to_nat (2147488281 - 4633))%nat by lia. rewrite UBL by lia. reflexivity.
Qed.
Print Assumptions C57_16bit_refuted.

(** C57e: a run-length encoded image of 32766 x 32770 pixels of 32 bits takes 2^32 - 16 bytes.  After 8388607
    packets of 128 equal pixels a packet of 128 literal pixels is read although only 124 are missing: the
    comparison with the size overflows. *)
Lemma runs_step : forall F e, zlen F < 4294967295 -> forall k fuel b p Color d, 0 <= p -> 0 <= b -> b + 512 * Z.of_nat k < 4294967280 -> p + 5 * Z.of_nat k <= zlen F ->
  (forall i, 0 <= i < Z.of_nat k -> geti F (p + 5 * i) = 255) -> zlen d = 4294967280 -> zlen Color = 4 ->
  exists Color' d', tga_loop (k + fuel) 4 4294967280 b Color d (Rd F p (zlen F) e) = tga_loop fuel 4 4294967280 (b + 512 * Z.of_nat k) Color' d' (Rd F (p + 5 * Z.of_nat k) (zlen F) e) /\
    zlen d' = 4294967280 /\ zlen Color' = 4.
Proof.
  intros F e HF. induction k as [|k IH]; intros fuel b p Color d Hp Hb Hk HpF HG Ld LC.
  - exists Color, d. cbn [Nat.add]. rewrite !Z.mul_0_r, !Z.add_0_r. auto.
  - cbn [Nat.add tga_loop]. replace (b <? 4294967280) with true by lia. rewrite getc_in by lia. cbn [bind]. assert (G0 := HG 0 ltac:(lia)). rewrite Z.mul_0_r, Z.add_0_r in G0. rewrite G0.
    change (negb (Z.land (u8 255) 128 =? 0)) with true. cbv iota zeta. change (Z.land (u8 255) 127) with 127. rewrite read_into by lia. cbn [bind].
    change (negb (4 =? 4)) with false. cbv iota. change ((127 + 1) * 4) with 512.
    set (C2 := slice F (p + 1) 4 ++ skipn (Z.to_nat 4) Color). assert (LC2 : zlen C2 = 4). { unfold C2. rewrite zlen_app, zlen_slice by lia. unfold zlen in *. rewrite skipn_length. lia. } clearbody C2.
    assert (EST : exists d', stride 0 512 4 (fun (i : Z) (d0 : list Z) => put_pixel (Z.to_nat 4) 0 (b + i) 4294967280 C2 d0) d = Ok d' /\ zlen d' = 4294967280).
    { change 512 with (128 * 4). rewrite stride_loop by lia. apply (loop_rule _ (fun _ d' => zlen d' = 4294967280)); auto; try lia. intros i s Hi L. apply put_pixel_safe; lia. }
    destruct EST as (d2 & -> & L2). cbn [bind]. rewrite u32_small by lia.
    destruct (IH fuel (b + 512) (p + 1 + 4) C2 d2) as (C3 & d3 & E3 & L3 & LC3); auto; try lia.
    { intros i Hi. replace (p + 1 + 4 + 5 * i) with (p + 5 * (i + 1)) by ring. apply HG. lia. }
    exists C3, d3. rewrite E3. split; [|auto]. f_equal; [lia|f_equal; lia].
Qed.
Lemma read_loop_over : forall F p e, 0 <= p -> zlen F < 4294967295 -> forall n i b, 0 <= i <= zlen b -> zlen b < i + Z.of_nat n -> p + i + Z.of_nat n <= zlen F ->
  read_loop n i (Rd F p (zlen F) e) b = UB.
Proof.
  intros F p e Hp HF. induction n as [|n IH]; intros i b Hi Hb Hn; [lia|]. cbn [read_loop rlump rpos Lump.rsize]. rewrite rd_ok by lia. cbn [bind].
  destruct (Z.eq_dec i (zlen b)) as [->|]; [rewrite wr_ub by lia; reflexivity|]. rewrite wr_ok by lia. cbn [bind]. rewrite u32_small by lia. replace (zlen F <? p + i) with false by lia. rewrite andb_false_r.
  apply IH; rewrite ?zlen_upd; lia.
Qed.
Lemma read_over : forall F p e b n, 0 <= p -> zlen F < 4294967295 -> zlen b < n -> p + n <= zlen F -> iReadLump b 1 n (Rd F p (zlen F) e) = UB.
Proof.
  intros F p e b n Hp HF Hb Hn. assert (0 <= zlen b) by auto. unfold iReadLump. cbn [rpos Lump.rsize]. rewrite Z.mul_1_l, !u32_small by lia. rewrite Z.min_l by lia. rewrite read_loop_over by lia. reflexivity.
Qed.
Lemma split_nat : forall n z, 0 <= z <= Z.of_nat n -> exists k m, n = (k + m)%nat /\ Z.of_nat k = z /\ Z.of_nat m = Z.of_nat n - z.
Proof. intros n z Hz. exists (Z.to_nat z), (n - Z.to_nat z)%nat. lia. Qed.
Theorem C57_rle_refuted : forall alloc old u idb up col F, allocator_ok alloc -> alloc 4294967280 <> None -> (forall i, zlen (u i) = 2) -> zlen idb = 255 -> zlen col = 4 ->
  F = tga_header 0 0 10 0 0 0 0 0 32766 32770 32 8 ++ concat (repeat [255; 1; 2; 3; 4] (Z.to_nat 8388607)) ++ [127] ++ repeat 0 (Z.to_nat 512) ->
  ilLoadTargaL alloc old u idb up col F = UB.
Proof.
  intros alloc old u idb up col F HA N1 Hu Hid Hcol DF.
  assert (CR : forall n i, 0 <= i < Z.of_nat n -> geti (concat (repeat [255; 1; 2; 3; 4] n)) (5 * i) = 255).
  { induction n as [|n IHn]; intros i Hi; [lia|]. cbn [repeat concat]. rewrite geti_app by lia. change (zlen [255; 1; 2; 3; 4]) with 5. destruct (Z.eq_dec i 0) as [->|]; [reflexivity|].
    replace (5 * i <? 5) with false by lia. replace (5 * i - 5) with (5 * (i - 1)) by ring. apply IHn. lia. }
  specialize (CR (Z.to_nat 8388607)). rewrite Z2Nat.id in CR by lia.
  assert (LCR := zlen_concat_rep [255; 1; 2; 3; 4] (Z.to_nat 8388607)). rewrite Z2Nat.id in LCR by lia. change (8388607 * zlen [255; 1; 2; 3; 4]) with 41943035 in LCR.
  set (runs := concat (repeat [255; 1; 2; 3; 4] (Z.to_nat 8388607))) in *. clearbody runs.
  assert (LR : zlen (repeat 0 (Z.to_nat 512)) = 512) by (rewrite zlen_repeat; lia). set (z := repeat 0 (Z.to_nat 512)) in *. clearbody z.
  assert (LF : zlen F = 41943566) by (rewrite DF, (zlen_app _ (tga_header _ _ _ _ _ _ _ _ _ _ _ _)), !zlen_app, LCR, LR; reflexivity).
  assert (EH : tga_head_of F = mkTga 0 0 10 0 0 0 0 0 32766 32770 32 8) by (rewrite DF; apply tga_head_layout; lia).
  assert (G1 : forall i, 0 <= i < 8388607 -> geti F (18 + 5 * i) = 255).
  { intros i Hi. rewrite DF. rewrite geti_app by lia. change (zlen (tga_header _ _ _ _ _ _ _ _ _ _ _ _)) with 18. replace (18 + 5 * i <? 18) with false by lia. replace (18 + 5 * i - 18) with (5 * i) by ring.
    rewrite geti_app by lia. rewrite LCR. replace (5 * i <? 41943035) with true by lia. apply CR. lia. }
  assert (G2 : geti F 41943053 = 127).
  { rewrite DF. rewrite geti_app by lia. change (zlen (tga_header _ _ _ _ _ _ _ _ _ _ _ _)) with 18. change (41943053 <? 18) with false. change (41943053 - 18) with 41943035. cbv iota. rewrite geti_app by lia. rewrite LCR. reflexivity. }
  clear DF CR LCR LR.
  unfold ilLoadTargaL, iLoadTargaInternal. rewrite tga_head_ok by (auto; lia). cbn [bind]. rewrite EH.
  change (iCheckTarga (mkTga 0 0 10 0 0 0 0 0 32766 32770 32 8)) with (Some (mkTga 0 0 10 0 0 0 0 0 32766 32770 32 8)). cbv iota. cbn [ImageType]. cbn [Z.eqb Pos.eqb orb]. cbv iota.
  unfold iReadUnmapTga. cbn [IDLen HWidth HHeight TBpp ImageType]. change (Z.shiftr 32 3) with 4. rewrite read_into by lia. cbn [bind]. change (negb (0 =? 0)) with false. cbv iota.
  unfold ilInitImage at 1. change (ilGetBpcType IL_UNSIGNED_BYTE) with 1. change (1 =? 0) with false. cbv iota zeta.
  change (nz1 32766) with 32766. change (nz1 32770) with 32770. change (nz1 1) with 1. change (u32 (32766 * 4 * 1)) with 131064. change (u32 (131064 * 32770)) with 4294967280. change (u32 (4294967280 * 1)) with 4294967280.
  destruct (alloc 4294967280) as [blk|] eqn:EA; [|congruence]. assert (LB := HA _ _ EA). cbn [bind negb]. cbn [Bpp]. cbn [case existsb Z.eqb Pos.eqb orb negb]. cbv iota.
  unfold tga_pixels. cbn [with_Format Data Width Height Depth Bpp]. change (u32 (32766 * 32770 * 1 * 4)) with 4294967280. cbv zeta.
  assert (Dfu : Z.of_nat (Z.to_nat 4294967280) = 4294967280) by (apply Z2Nat.id; discriminate). set (fu := Z.to_nat 4294967280) in *. clearbody fu.
  destruct (split_nat (S fu) 8388607) as (k & m & Efu & Ek & Em); [rewrite Nat2Z.inj_succ, Dfu; lia|]. rewrite Nat2Z.inj_succ, Dfu in Em. rewrite Efu. clear Efu. destruct m as [|m]; [discriminate Em|].
  destruct (runs_step F [] ltac:(lia) k (S m) 0 (18 + 0) col blk) as (C3 & d3 & E3 & L3 & LC3); rewrite ?Ek; try lia; auto.
  rewrite E3. clear E3. rewrite Ek. change (0 + 512 * 8388607) with 4294966784. change (18 + 0 + 5 * 8388607) with 41943053.
  cbn [tga_loop]. change (4294966784 <? 4294967280) with true. cbv iota. rewrite getc_in by lia. cbn [bind]. rewrite G2.
  change (negb (Z.land (u8 127) 128 =? 0)) with false. cbv iota zeta. change ((u8 127 + 1) * 4) with 512. change (4294967280 <? u32 (4294966784 + 512)) with false. cbv iota.
  unfold iread_at. rewrite read_over by (rewrite ?zlen_slice; lia). reflexivity.
Qed.
Print Assumptions C57_rle_refuted.
