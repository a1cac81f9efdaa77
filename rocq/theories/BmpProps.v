(** Theorems about the Windows bitmap loader: what is decoded. *)
From Coq Require Import ZArith List Lia Bool.
From Verif Require Import Base Slices BitLemmas Scatter Enums Utility Image ImageSpec ImageProps Elem Flip Lump LumpSpec LumpProofs LumpProps Channels Endian EndianProps Raw RawProps Pcx PcxProofs PcxProps PcxSafe Pal Bmp BmpSpec BmpProofs BmpRows BmpDecode.
Import ListNotations.
Open Scope Z_scope.

Definition stacks (us ui : Z -> list Z) : Prop := (forall i, zlen (us i) = 2) /\ (forall i, zlen (ui i) = 4).

Lemma read_plain : forall F p e b n, 0 < n -> 0 <= p -> p + n <= zlen F -> zlen F < 4294967295 -> zlen b = n ->
  iReadLump b 1 n (Rd F p (zlen F) e) = Ok (n, slice F p n, Rd F (p + n) (zlen F) e).
Proof.
  intros F p e b n Hn Hp HF Hm Hb. assert (R := C21_read F (Rd F p (zlen F) e) b 1 n). rewrite R by (try (split; [reflexivity|cbn; lia]); lia). clear R. cbn [rpos rerr]. cbv zeta. rewrite Z.mul_1_l, rest_slice.
  assert (LS : zlen (slice F p n) = n) by (apply zlen_slice; lia). rewrite LS, Z.div_1_r, Z.eqb_refl. rewrite skipn_all2 by (unfold zlen in *; lia). rewrite !app_nil_r. reflexivity.
Qed.
Lemma read_none : forall F p e n, 0 <= p <= zlen F -> 0 < zlen F < 4294967295 -> n = 0 ->
  iReadLump [] 1 n (Rd F p (zlen F) e) = Ok (0, [], Rd F p (zlen F) e).
Proof.
  intros F p e n Hp Hm ->. assert (R := C21_read F (Rd F p (zlen F) e) [] 1 0). rewrite R by (try (split; [reflexivity|cbn; lia]); try (change (zlen []) with 0); lia). cbn [rpos rerr]. cbv zeta. rewrite Z.mul_0_r, rest_slice, slice_0. change (zlen []) with 0. cbn [app skipn length]. change (0 / 1 =? 0) with true. rewrite app_nil_r, Z.add_0_r. reflexivity.
Qed.

Lemma bmp_head : forall F w h bits comp off colours, bmp_file F w h bits comp off colours ->
  bfType (bmp_head_of F) = 19778 /\ bfDataOff (bmp_head_of F) = off /\ biSize (bmp_head_of F) = 40 /\ biWidth (bmp_head_of F) = w /\ biHeight (bmp_head_of F) = h /\
  biPlanes (bmp_head_of F) = 1 /\ biBitCount (bmp_head_of F) = bits /\ biCompression (bmp_head_of F) = comp /\ biClrUsed (bmp_head_of F) = colours.
Proof.
  intros F w h bits comp off colours (HF & HB & T0 & T1 & Ho & Hs & Hw & Hh & Hp & Hb & Hc & Hcl). unfold bmp_head_of. cbn [bfType bfDataOff biSize biWidth biHeight biPlanes biBitCount biCompression biClrUsed]. unfold word2. change (0 + 1) with 1. rewrite T0, T1. repeat split; assumption.
Qed.

(** what is done for a valid header, up to the pixels *)
Lemma load_uncomp : forall alloc old us ui hb F w h bits comp off colours blk p, bmp_file F w h bits comp off colours ->
  allocator_ok alloc -> stacks us ui -> 1 <= w -> h <> 0 -> -2147483648 < h -> case bits [1; 4; 8; 16; 24; 32] = true -> comp = 0 \/ (comp = 3 /\ (bits = 16 \/ bits = 32)) ->
  0 <= colours < 536870912 -> w * bmp_bpp bits * Z.abs h < 4294967296 -> 0 <= off <= zlen F ->
  54 + bmp_palette bits colours <= zlen F ->
  alloc (w * bmp_bpp bits * Z.abs h) = Some blk -> (bits <= 8 -> alloc (bmp_palette bits colours) = Some p) ->
  exists pal fmt org, 
   ilLoadBmpL alloc old us ui hb F =
     (let im := mkImg w (Z.abs h) 1 (bmp_bpp bits) 1 (w * bmp_bpp bits) (Some blk) (w * bmp_bpp bits * Z.abs h) (w * bmp_bpp bits * Z.abs h) fmt IL_UNSIGNED_BYTE org pal 0 0 0 0 in
      let! (ok, (d, r)) := bmp_pixels (bmp_head_of F) im blk (Rd F off (zlen F) []) in Ok (ok, with_Data im (Some d), r)) /\
   fmt = (if bits <=? 8 then IL_COLOUR_INDEX else IL_BGR) /\ org = (if h <? 0 then IL_ORIGIN_UPPER_LEFT else IL_ORIGIN_LOWER_LEFT) /\
   pal = (if bits <=? 8 then mkPal (Some (slice F 54 (bmp_palette bits colours))) (bmp_palette bits colours) IL_PAL_BGR32 else mkPal None 0 IL_PAL_NONE).
Proof.
  intros alloc old us ui hb F w h bits comp off colours blk p HF HA (U2 & U4) Hw Hh Hm HB HC Hcl HS Hoff HP EA EP.
  assert (BB : bits = 1 \/ bits = 4 \/ bits = 8 \/ bits = 16 \/ bits = 24 \/ bits = 32) by (unfold case in HB; cbn in HB; lia).
  destruct (bmp_head _ _ _ _ _ _ _ HF) as (T & TO & TS & TW & TH & TP & TB & TC & TCl). destruct HF as (HFL & HFB & _ & _ & _ & _ & Hw4 & Hh4 & _).
  assert (WR := proj1 (int4_range F 18 HFB ltac:(lia) ltac:(lia))). rewrite Hw4 in WR. assert (HR := proj1 (int4_range F 22 HFB ltac:(lia) ltac:(lia))). rewrite Hh4 in HR.
  unfold ilLoadBmpL, iLoadBitmapInternal, iSetInputLump. rewrite head_in by (auto; lia). cbn [bind]. set (hd := bmp_head_of F) in *.
  assert (CK : iCheckBmp hd = true). { unfold iCheckBmp. rewrite T, TS, TH, TW, TP, TC, TB. cbn [Z.eqb Pos.eqb negb orb andb]. replace ((h =? 0) || (w <? 1)) with false by lia. cbn [negb andb Z.ltb Z.compare Pos.compare Pos.compare_cont]. rewrite HB. destruct HC as [ -> | ( -> & [ -> | -> ])]; reflexivity. }
  rewrite CK. cbn [negb]. rewrite TP. change (negb (1 =? 1)) with false. cbv iota. rewrite TC. replace ((comp =? 0) || (comp =? 3)) with true by lia.
  unfold ilReadUncompBmp. rewrite TH, TW, TB, TCl. unfold abs_int. replace (h =? -2147483648) with false by lia. cbn [bind]. rewrite (u32_small w) by lia.
  assert (EB : (if ((if bits <? 8 then 1 else u8 (Z.shiftr bits 3)) =? 2) || ((if bits <? 8 then 1 else u8 (Z.shiftr bits 3)) =? 4) then 3 else (if bits <? 8 then 1 else u8 (Z.shiftr bits 3))) = bmp_bpp bits).
  { destruct BB as [ -> |[ -> |[ -> |[ -> |[ -> | -> ]]]]]; reflexivity. }
  rewrite EB. rewrite (init_ok alloc old w (Z.abs h) (bmp_bpp bits) 0 blk) by (auto; try lia; unfold bmp_bpp; destruct (16 <=? bits); lia). cbn [bind negb].
  rewrite TO.
  assert (SP : forall T (k : Z -> Z -> res T), (let! (size, ty) := (if bits =? 1 then Ok (8, IL_PAL_BGR32) else if (bits =? 4) || (bits =? 8) then let! s := (if colours =? 0 then Ok 1024 else clr_bytes colours) in Ok (if bits =? 4 then 64 else s, IL_PAL_BGR32) else Ok (0, IL_PAL_NONE)) in k size ty) = k (bmp_palette bits colours) (if bits <=? 8 then IL_PAL_BGR32 else IL_PAL_NONE)).
  { intros T0 k. unfold clr_bytes. replace ((4 * colours <? -2147483648) || (2147483647 <? 4 * colours)) with false by lia. rewrite u32_small by lia. unfold bmp_palette.
    destruct BB as [ -> |[ -> |[ -> |[ -> |[ -> | -> ]]]]]; cbn [Z.eqb Pos.eqb orb Z.leb Z.compare Pos.compare Pos.compare_cont]; destruct (colours =? 0); reflexivity. }
  rewrite SP. clear SP EB. set (size := bmp_palette bits colours) in *.
  assert (SZ : if bits <=? 8 then 0 < size < 4294967296 else size = 0). { unfold size, bmp_palette. destruct BB as [ -> |[ -> |[ -> |[ -> |[ -> | -> ]]]]]; cbn [Z.eqb Pos.eqb orb Z.leb Z.compare Pos.compare Pos.compare_cont]; destruct (colours =? 0) eqn:E; lia. }
  destruct (bits <=? 8) eqn:E8.
  - change (IL_PAL_BGR32 =? IL_PAL_NONE) with false. cbv iota. rewrite EP by lia. unfold with_Origin, with_Format. cbn [Width Height Depth Bpp Bpc Bps Data SizeOfData SizeOfPlane Format Type_ Origin Pal Duration CubeFlags OffX OffY].
    rewrite seek_set_in by lia. cbn [bind]. rewrite read_plain by (try lia; apply HA, EP; lia). cbn [bind]. rewrite Z.eqb_refl. cbn [negb]. rewrite seek_set_in by lia. cbn [bind]. unfold with_Pal. cbn [Width Height Depth Bpp Bpc Bps Data SizeOfData SizeOfPlane Format Type_ Origin Pal Duration CubeFlags OffX OffY].
    do 3 eexists. split; [reflexivity|]. split; [reflexivity|]. split; reflexivity.
  - change (IL_PAL_NONE =? IL_PAL_NONE) with true. cbv iota. unfold with_Origin, with_Format. cbn [Width Height Depth Bpp Bpc Bps Data SizeOfData SizeOfPlane Format Type_ Origin Pal Duration CubeFlags OffX OffY].
    rewrite seek_set_in by lia. cbn [bind]. rewrite read_none by lia. cbn [bind]. rewrite SZ. change (negb (0 =? 0)) with false. cbv iota. rewrite seek_set_in by lia. cbn [bind].
    do 3 eexists. split; [reflexivity|]. split; [reflexivity|]. split; reflexivity.
Qed.

(** C67: every uncompressed bitmap - 1, 4, 8, 16, 24 or 32 bits, stored from the bottom or from the top - is decoded to the
    pixels of the file, with the palette of the file. *)
Theorem C67_decode : forall alloc old us ui hb F w h bits off colours blk p, bmp_file F w h bits 0 off colours ->
  allocator_ok alloc -> stacks us ui -> 1 <= w -> h <> 0 -> -2147483648 < h -> In bits [1; 4; 8; 16; 24; 32] ->
  0 <= colours < 536870912 -> w * bmp_bpp bits * Z.abs h < 4294967296 ->
  0 <= off -> off + Z.abs h * bmp_stride w bits <= zlen F -> 54 + bmp_palette bits colours <= zlen F ->
  alloc (w * bmp_bpp bits * Z.abs h) = Some blk -> (bits <= 8 -> alloc (bmp_palette bits colours) = Some p) ->
  exists im buf r, ilLoadBmpL alloc old us ui hb F = Ok (true, im, r) /\ img_ok im buf /\
    Width im = w /\ Height im = Z.abs h /\ Depth im = 1 /\ Bpp im = bmp_bpp bits /\ Bpc im = 1 /\ Type_ im = IL_UNSIGNED_BYTE /\
    Format im = (if bits <=? 8 then IL_COLOUR_INDEX else IL_BGR) /\
    Pal im = (if bits <=? 8 then mkPal (Some (slice F 54 (bmp_palette bits colours))) (bmp_palette bits colours) IL_PAL_BGR32 else mkPal None 0 IL_PAL_NONE) /\
    forall x t k, in_image im x t 0 k -> picture im buf x t 0 k = sample bits F (off + bmp_row h t * bmp_stride w bits) x k.
Proof.
  intros alloc old us ui hb F w h bits off colours blk p HF HA HU Hw Hh Hm HB Hcl HS Ho HOF HP EA EP.
  assert (HB' : case bits [1; 4; 8; 16; 24; 32] = true). { cbn in HB. destruct HB as [<-|[<-|[<-|[<-|[<-|[<-|[]]]]]]]; reflexivity. }
  assert (S0 : 0 <= bmp_stride w bits). { cbn in HB. unfold bmp_stride. assert (0 <= w * bits) by nia. lia. }
  destruct (load_uncomp alloc old us ui hb F w h bits 0 off colours blk p HF HA HU Hw Hh Hm HB' ltac:(left; reflexivity) Hcl HS ltac:(nia) HP EA EP) as (pal & fmt & org & -> & Ef & Eo & Ep).
  destruct (bmp_head _ _ _ _ _ _ _ HF) as (_ & _ & _ & _ & _ & _ & TB & TC & _). destruct HF as (HFL & HFB & _). cbv zeta.
  assert (LB := HA _ _ EA).
  destruct (pixels_ok (bmp_head_of F) w (Z.abs h) (bmp_bpp bits) pal fmt org blk F [] off) as (d & r & E & LD & G); try rewrite TB; auto; try lia.
  rewrite E. cbn [bind]. rewrite TB in G. unfold with_Data. cbn [Width Height Depth Bpp Bpc Bps Data SizeOfData SizeOfPlane Format Type_ Origin Pal Duration CubeFlags OffX OffY].
  eexists _, d, r. split; [reflexivity|]. cbn [Width Height Depth Bpp Bpc Bps Data SizeOfData SizeOfPlane Format Type_ Origin Pal Duration CubeFlags OffX OffY]. split.
  { unfold img_ok. cbn [Width Height Depth Bpp Bpc Bps Data SizeOfData SizeOfPlane Format Type_ Origin Pal Duration CubeFlags OffX OffY]. assert (BP : bmp_bpp bits = 1 \/ bmp_bpp bits = 3) by (unfold bmp_bpp; destruct (16 <=? bits); auto). split; [reflexivity|]. repeat split; try lia. }
  do 6 (split; [reflexivity|]). split; [exact Ef|]. split; [exact Ep|].
  intros x t k (Hx & Ht & _ & Hk). cbn [Width Height Depth Bpp Bpc] in Hx, Ht, Hk. unfold picture, pix_off. cbn [Width Height Depth Bpp Bpc Origin].
  assert (RW : (if org =? IL_ORIGIN_UPPER_LEFT then t else Z.abs h - 1 - t) = bmp_row h t). { rewrite Eo. unfold bmp_row. destruct (h <? 0) eqn:E0; [reflexivity|]. change (IL_ORIGIN_LOWER_LEFT =? IL_ORIGIN_UPPER_LEFT) with false. cbv iota. lia. }
  rewrite RW. rewrite <- (G x (bmp_row h t) k); [f_equal; lia|lia| |lia]. unfold bmp_row. destruct (h <? 0) eqn:E0; lia.
Qed.

(** ** Colour masks *)
Lemma masks_in : forall h def F e off, biCompression h = 3 -> bfDataOff h = off -> 12 <= off <= zlen F -> zlen F < 2147483648 ->
  bmp_masks h def (Rd F off (zlen F) e) = Ok ((word4 F (off - 4), GetShiftFromMask (word4 F (off - 4))), (word4 F (off - 8), GetShiftFromMask (word4 F (off - 8))), (word4 F (off - 12), GetShiftFromMask (word4 F (off - 12))), Rd F off (zlen F) e).
Proof.
  intros h ((mb, mg), mr) F e off HC HO Ho HF. unfold bmp_masks. rewrite HC, HO. change (3 =? 3) with true. cbv iota. unfold int_sub. replace (off - 12 <? -2147483648) with false by lia. cbn [bind].
  rewrite seek_set_in by lia. cbn [bind]. assert (L4 : forall v, zlen (le 4 v) = 4) by reflexivity.
  rewrite get_in by (try apply L4; lia). cbn [bind]. rewrite get_in by (try apply L4; lia). cbn [bind]. rewrite get_in by (try apply L4; lia). cbn [bind]. rewrite !unle_word4 by lia.
  replace (off - 12 + 4 + 4 + 4) with off by lia. replace (off - 12 + 4 + 4) with (off - 4) by lia. replace (off - 12 + 4) with (off - 8) by lia. reflexivity.
Qed.
Lemma pixels_masks : forall h W H pal fmt org d F e p, biCompression h = 3 -> biBitCount h = 16 \/ biBitCount h = 32 -> bfDataOff h = p ->
  1 <= W -> 1 <= H -> W * 3 * H < 4294967296 -> zlen d = W * 3 * H -> 12 <= p -> p + H * bmp_stride W (biBitCount h) <= zlen F -> 0 < zlen F < 2147483648 ->
  let im := mkImg W H 1 3 1 (W * 3) (Some d) (W * 3 * H) (W * 3 * H) fmt IL_UNSIGNED_BYTE org pal 0 0 0 0 in
  exists d' r, bmp_pixels h im d (Rd F p (zlen F) e) = Ok (true, (d', r)) /\ zlen d' = zlen d /\
    forall x y k, 0 <= x < W -> 0 <= y < H -> 0 <= k < 3 -> geti d' ((y * W + x) * 3 + k) =
      (let m := word4 F (p - 4 - 4 * k) in extract (pixel_value (biBitCount h) F (p + y * bmp_stride W (biBitCount h)) x) (m, GetShiftFromMask m)).
Proof.
  intros h W H pal fmt org d F e p HC HB HO HW HH HS Hd Hp HF HFl im. unfold bmp_pixels. cbn [Width Height Bps SizeOfPlane SizeOfData im].
  assert (WB : 0 < W * 3 <= W * 3 * H) by nia. assert (ST0 : 0 <= bmp_stride W (biBitCount h)) by (unfold bmp_stride; destruct HB as [-> | ->]; lia).
  assert (MI := fun def => masks_in h def F e p HC HO ltac:(nia) ltac:(lia)).
  assert (MM : forall v k, 0 <= k < 3 -> extract v (the_mask ((word4 F (p - 4), GetShiftFromMask (word4 F (p - 4))), (word4 F (p - 8), GetShiftFromMask (word4 F (p - 8))), (word4 F (p - 12), GetShiftFromMask (word4 F (p - 12)))) k) = (let m := word4 F (p - 4 - 4 * k) in extract v (m, GetShiftFromMask m))).
  { intros v k Hk. assert (k = 0 \/ k = 1 \/ k = 2) as [ -> | [ -> | -> ]] by lia; unfold the_mask; cbn [Z.eqb Pos.eqb]; cbv zeta.
    - replace (p - 4 - 4 * 0) with (p - 4) by lia. reflexivity.
    - replace (p - 4 - 4 * 1) with (p - 8) by lia. reflexivity.
    - replace (p - 4 - 4 * 2) with (p - 12) by lia. reflexivity. }
  destruct HB as [Eb|Eb]; rewrite Eb in *; cbn [Z.eqb Pos.eqb orb]; rewrite MI; cbn [bind].
  - match goal with |- context [rows16 ?m W H d _] => destruct (rows16_ok m F p e W H d) as (d' & -> & L' & G'); try lia end. do 2 eexists. split; [reflexivity|]. split; [lia|]. intros x y k Hx Hy Hk.
    replace ((y * W + x) * 3 + k) with (y * (3 * W) + (3 * x + k)) by lia. rewrite G' by lia. replace ((3 * x + k) / 3) with x by lia. replace ((3 * x + k) mod 3) with k by lia. rewrite MM by lia. reflexivity.
  - assert (ST : bmp_stride W 32 = 4 * W) by (unfold bmp_stride; lia). rewrite ST in *. assert (HF4 : p + 4 * (W * H) <= zlen F) by lia.
    match goal with |- context [rows32 _ ?m _ 0 d _] => destruct (rows32_ok (Z.to_nat (W * H)) m F p e (W * H) (lump_fuel (Rd F p (zlen F) e)) 0 d) as (d' & E' & L' & _ & G'); try lia end.
    { unfold lump_fuel. cbn [rlump]. unfold zlen in HF4. lia. }
    rewrite !Z.mul_0_r, Z.add_0_r in E'. replace (W * 3 * H) with (3 * (W * H)) by lia. rewrite E'. do 2 eexists. split; [reflexivity|]. split; [lia|]. intros x y k Hx Hy Hk. assert (0 <= y * W + x < W * H) by nia.
    replace ((y * W + x) * 3 + k) with (3 * (y * W + x) + k) by lia. rewrite G' by lia. rewrite MM by lia. cbv zeta. unfold pixel_value. cbn [Z.eqb Pos.eqb]. do 2 f_equal. lia.
Qed.

(** C69: bitmaps with colour masks.  The masks are the three numbers before the pixels, for red, green and blue; a mask with
    at most eight bits selects its field of every pixel value.  (Full statement: the masks are those that follow the header,
    and a field wider than eight bits is reduced to its upper eight bits.) *)
Theorem C69_masks_partial : forall alloc old us ui hb F w h bits off colours blk, bmp_file F w h bits 3 off colours ->
  allocator_ok alloc -> stacks us ui -> 1 <= w -> h <> 0 -> -2147483648 < h -> bits = 16 \/ bits = 32 ->
  0 <= colours < 536870912 -> w * 3 * Z.abs h < 4294967296 ->
  12 <= off -> off + Z.abs h * bmp_stride w bits <= zlen F -> alloc (w * 3 * Z.abs h) = Some blk ->
  exists im buf r, ilLoadBmpL alloc old us ui hb F = Ok (true, im, r) /\ img_ok im buf /\
    Width im = w /\ Height im = Z.abs h /\ Depth im = 1 /\ Bpp im = 3 /\ Format im = IL_BGR /\
    forall x t k s n, in_image im x t 0 k -> mask_bits (word4 F (off - 4 - 4 * k)) s n -> n <= 8 ->
      picture im buf x t 0 k = field (pixel_value bits F (off + bmp_row h t * bmp_stride w bits) x) s n.
Proof.
  intros alloc old us ui hb F w h bits off colours blk HF HA HU Hw Hh Hm HB Hcl HS Ho HOF EA.
  assert (HB' : case bits [1; 4; 8; 16; 24; 32] = true) by (destruct HB as [-> | ->]; reflexivity). assert (BP : bmp_bpp bits = 3) by (destruct HB as [-> | ->]; reflexivity).
  assert (PZ : bmp_palette bits colours = 0) by (destruct HB as [-> | ->]; reflexivity).
  assert (S0 : 0 <= bmp_stride w bits). { unfold bmp_stride. assert (0 <= w * bits) by nia. lia. }
  destruct (load_uncomp alloc old us ui hb F w h bits 3 off colours blk [] HF HA HU Hw Hh Hm HB' ltac:(right; auto) Hcl ltac:(rewrite BP; exact HS) ltac:(nia) ltac:(rewrite PZ; destruct HF; lia) ltac:(rewrite BP; exact EA) ltac:(lia)) as (pal & fmt & org & -> & Ef & Eo & Ep).
  destruct (bmp_head _ _ _ _ _ _ _ HF) as (_ & TO & _ & _ & _ & _ & TB & TC & _). destruct HF as (HFL & HFB & _). cbv zeta. rewrite BP.
  assert (LB := HA _ _ EA). 
  destruct (pixels_masks (bmp_head_of F) w (Z.abs h) pal fmt org blk F [] off) as (d & r & E & LD & G); try rewrite TB; auto; try lia.
  rewrite E. cbn [bind]. rewrite TB in G. unfold with_Data. cbn [Width Height Depth Bpp Bpc Bps Data SizeOfData SizeOfPlane Format Type_ Origin Pal Duration CubeFlags OffX OffY].
  eexists _, d, r. split; [reflexivity|]. cbn [Width Height Depth Bpp Bpc Bps Data SizeOfData SizeOfPlane Format Type_ Origin Pal Duration CubeFlags OffX OffY]. split.
  { unfold img_ok. cbn [Width Height Depth Bpp Bpc Bps Data SizeOfData SizeOfPlane Format Type_ Origin Pal Duration CubeFlags OffX OffY]. split; [reflexivity|]. repeat split; try lia. }
  do 4 (split; [reflexivity|]). split; [rewrite Ef; destruct HB as [-> | ->]; reflexivity|].
  intros x t k s n (Hx & Ht & _ & Hk) HMB Hn. cbn [Width Height Depth Bpp Bpc] in Hx, Ht, Hk. unfold picture, pix_off. cbn [Width Height Depth Bpp Bpc Origin].
  assert (RW : (if org =? IL_ORIGIN_UPPER_LEFT then t else Z.abs h - 1 - t) = bmp_row h t). { rewrite Eo. unfold bmp_row. destruct (h <? 0) eqn:E0; [reflexivity|]. change (IL_ORIGIN_LOWER_LEFT =? IL_ORIGIN_UPPER_LEFT) with false. cbv iota. lia. }
  rewrite RW. assert (BR : 0 <= bmp_row h t < Z.abs h) by (unfold bmp_row; destruct (h <? 0) eqn:E0; lia). specialize (G x (bmp_row h t) k Hx BR ltac:(lia)). cbv zeta in G. rewrite (extract_field _ _ s n HMB Hn) in G. rewrite <- G. f_equal. lia.
Qed.

(** ** Concrete files *)
Definition bmp_alloc : allocator := fun n => if (0 <=? n) && (n <? 4096) then Some (repeat 170 (Z.to_nat n)) else None.
Lemma bmp_alloc_ok : allocator_ok bmp_alloc.
Proof. intros n b E. unfold bmp_alloc in E. destruct ((0 <=? n) && (n <? 4096)) eqn:B; [|discriminate]. injection E as <-. unfold zlen. rewrite repeat_length. lia. Qed.
Definition us0 (_ : Z) : list Z := [0; 0].
Definition ui0 (_ : Z) : list Z := [0; 0; 0; 0].
Lemma stacks0 : stacks us0 ui0.
Proof. split; reflexivity. Qed.

Lemma bmp_file_check : forall F w h bits comp off colours, (54 <=? zlen F) && (zlen F <? 2147483648) = true -> forallb (fun b => (0 <=? b) && (b <? 256)) F = true ->
  geti F 0 = 66 -> geti F 1 = 77 -> int4 F 10 = off -> int4 F 14 = 40 -> int4 F 18 = w -> int4 F 22 = h -> int2 F 26 = 1 -> int2 F 28 = bits -> int4 F 30 = comp -> int4 F 46 = colours -> bmp_file F w h bits comp off colours.
Proof.
  intros F w h bits comp off colours HL HB E0 E1 E2 E3 E4 E5 E6 E7 E8 E9. split; [lia|]. split; [|exact (conj E0 (conj E1 (conj E2 (conj E3 (conj E4 (conj E5 (conj E6 (conj E7 (conj E8 E9)))))))))].
  apply bytes_Forall, Forall_forall. intros x Hx. rewrite forallb_forall in HB. specialize (HB x Hx). lia.
Qed.

(** 3 x 2 pixels of 24 bits, with rows of 9 and 3 bytes of padding *)
Definition ex24 : list Z := bmp_header 78 54 3 2 24 0 0 ++ [1; 2; 3; 4; 5; 6; 7; 8; 9; 0; 0; 0; 11; 12; 13; 14; 15; 16; 17; 18; 19; 0; 0; 0].
Lemma ex24_file : bmp_file ex24 3 2 24 0 54 0.
Proof. apply bmp_file_check; reflexivity. Qed.
Example C67_ex : exists im buf r, ilLoadBmpL bmp_alloc ex_old us0 ui0 [] ex24 = Ok (true, im, r) /\ picture im buf 1 0 0 2 = 16.
Proof.
  destruct (C67_decode bmp_alloc ex_old us0 ui0 [] ex24 3 2 24 54 0 (repeat 170 18) [] ex24_file bmp_alloc_ok stacks0) as (im & buf & r & E & OK & W & H & D & B & C & _ & _ & _ & G); [lia|lia|lia|cbn; auto 10|lia|reflexivity|lia|vm_compute; discriminate|vm_compute; discriminate|reflexivity|lia|].
  exists im, buf, r. split; [exact E|]. rewrite G; [reflexivity|]. unfold in_image. rewrite W, H, D, B, C. change (bmp_bpp 24) with 3. lia.
Qed.

(** 1 x 1 pixels of 16 bits, with masks of 5, 6 and 5 bits *)
Definition ex565 : list Z := bmp_header 70 66 1 1 16 3 0 ++ little4 63488 ++ little4 2016 ++ little4 31 ++ [255; 7; 0; 0].
Lemma ex565_file : bmp_file ex565 1 1 16 3 66 0.
Proof. apply bmp_file_check; reflexivity. Qed.
Example C69_ex : exists im buf r, ilLoadBmpL bmp_alloc ex_old us0 ui0 [] ex565 = Ok (true, im, r) /\ picture im buf 0 0 0 1 = 252.
Proof.
  destruct (C69_masks_partial bmp_alloc ex_old us0 ui0 [] ex565 1 1 16 66 0 (repeat 170 3) ex565_file bmp_alloc_ok stacks0) as (im & buf & r & E & OK & W & H & D & B & _ & G); [lia|lia|lia|lia|lia|lia|lia|vm_compute; discriminate|reflexivity|].
  exists im, buf, r. split; [exact E|]. rewrite (G 0 0 1 5 6); [reflexivity| | |lia].
  - destruct OK as (_ & _ & _ & _ & _ & BC & BS & PL & SZ & _). unfold in_image. rewrite W, H, D, B. lia.
  - unfold mask_bits. split; [lia|]. split; [lia|]. split; [lia|]. reflexivity.
Qed.

(** A mask of ten bits: the loader keeps the lower eight of the ten, so a nearly full red (1020 of 1023) becomes 252 and
    half of it (512) becomes 0; the upper eight bits would be 255 and 128. *)
Definition ex_wide (v : Z) : list Z := bmp_header 70 66 1 1 32 3 0 ++ little4 1023 ++ little4 0 ++ little4 0 ++ little4 v.
Theorem C69_wide_refuted : forall hb, (exists im r, ilLoadBmpL bmp_alloc ex_old us0 ui0 hb (ex_wide 1020) = Ok (true, im, r) /\ Data im = Some [0; 0; 252]) /\
  (exists im r, ilLoadBmpL bmp_alloc ex_old us0 ui0 hb (ex_wide 512) = Ok (true, im, r) /\ Data im = Some [0; 0; 0]).
Proof. intros hb. split; do 2 eexists; (split; [vm_compute; reflexivity|reflexivity]). Qed.

(** The masks are read from before the pixels, not from after the header: with four bytes in between, the green mask is
    used for red. *)
Definition ex_gap : list Z := bmp_header 74 70 1 1 16 3 0 ++ little4 63488 ++ little4 2016 ++ little4 31 ++ little4 0 ++ [0; 248; 0; 0].
Theorem C69_gap_refuted : forall hb, exists im r, ilLoadBmpL bmp_alloc ex_old us0 ui0 hb ex_gap = Ok (true, im, r) /\ Data im = Some [0; 0; 0] /\
  field (word2 ex_gap 70) 11 5 = 248 /\ mask_bits (word4 ex_gap 54) 11 5.
Proof. intros hb. do 2 eexists. split; [vm_compute; reflexivity|]. split; [reflexivity|]. split; [reflexivity|]. unfold mask_bits. split; [lia|]. split; [lia|]. split; [lia|]. reflexivity. Qed.
Print Assumptions C67_decode.
Print Assumptions C69_masks_partial.
