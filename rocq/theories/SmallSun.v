(** C96: SUN rasters. *)
From Coq Require Import ZArith List Lia Bool.
From Verif Require Import Base Slices Elem Enums Utility Image ImageSpec Flip Lump LumpSpec LumpProofs LumpProps Channels Endian EndianProps ConvImgProps RleSpec RawProps Pcx PcxProofs TgaProofs TgaSafe TgaRle BmpSpec BmpSafe BmpDecode SgiSpec SgiProofs SgiLoad SgiProps Safe Small SmallSpec SmallTex SmallTexProps CacheProps SmallRle.
Import ListNotations.
Open Scope Z_scope.

(** ** Header *)
Lemma getb4u_in : forall F p e stk, bytes F -> 0 <= p -> p + 4 <= zlen F -> zlen F < 4294967295 -> zlen stk = 4 -> GetBigUInt stk (Rd F p (zlen F) e) = Ok (be4 F p, Rd F (p + 4) (zlen F) e).
Proof.
  intros F p e stk B H1 H2 H3 H4. unfold GetBigUInt, get.
  rewrite (C21_read F (Rd F p (zlen F) e) stk 4 1) by (try (split; [reflexivity|cbn; lia]); lia). cbn [rpos rerr]. cbv zeta. change (4 * 1) with 4. rewrite rest_slice.
  assert (LS : zlen (slice F p 4) = 4) by (apply zlen_slice; lia). rewrite LS. change (4 / 4 =? 1) with true. rewrite skipn_all2 by (unfold zlen in *; lia). rewrite !app_nil_r. cbn [bind].
  rewrite slice4 by lia. cbn [unle]. rewrite be4_swap by (apply B; lia). reflexivity.
Qed.
Lemma sun_get : forall F u4, bytes F -> 32 <= zlen F < 4294967295 -> (forall i, zlen (u4 i) = 4) ->
  iGetSunHead u4 (Rd F 0 (zlen F) []) = Ok (mkSun (be4 F 0) (be4 F 4) (be4 F 8) (be4 F 12) (be4 F 16) (be4 F 20) (be4 F 24) (be4 F 28), Rd F 32 (zlen F) []).
Proof. intros F u4 B HF U4. unfold iGetSunHead. do 8 (rewrite getb4u_in by (auto; lia); cbn [bind]). reflexivity. Qed.
Definition low_pal (W H N fmt : Z) (d : list Z) (p : pal) : img := with_Pal (low_img W H N fmt d) p.

(** the common beginning: what remains is to read the lines into the block [blk] *)
Definition sun_body (W H depth typ : Z) (d : list Z) (r : reader) : res (list Z * reader) :=
  let N := sun_chans depth in
  if depth =? 32 then sun_quads W H d r else if typ =? 2 then sun_rle_rows H (W * N) d r else sun_rows H (W * N) (W * N) d r.
Lemma sun_start : forall alloc old u4 F W H depth typ mt ml blk, allocator_ok alloc -> bytes F -> zlen F < 2147483648 -> sun_head F W H depth typ mt ml -> depth = 8 \/ depth = 24 \/ (depth = 32 /\ typ <> 2) -> typ = 0 \/ typ = 1 \/ typ = 2 \/ typ = 3 ->
  (mt = 0 /\ ml = 0) \/ (mt = 1 /\ 1 <= ml) -> 32 + ml <= zlen F -> 1 <= W -> 1 <= H -> W * sun_chans depth * H < 4294967296 -> (forall i, zlen (u4 i) = 4) -> alloc ml <> None -> alloc (W * sun_chans depth * H) = Some blk ->
  iLoadSunInternal alloc old u4 (Rd F 0 (zlen F) []) =
  let! (d, r) := sun_body W H depth typ blk (Rd F (32 + ml) (zlen F) []) in Ok (true, top_img W H (sun_chans depth) (sun_format depth typ mt) d (sun_pal F depth mt ml), []).
Proof.
  intros alloc old u4 F W H depth typ mt ml blk HA B HM (HF & E0 & E1 & E2 & E3 & E5 & E6 & E7) HD HT HC HL HW HH HS U4 Hn EA. unfold iLoadSunInternal. rewrite sun_get by (auto; lia). cbn [bind]. rewrite E0, E1, E2, E3, E5, E6, E7.
  assert (CK : iCheckSun (mkSun 1504078485 W H depth (be4 F 16) typ mt ml) = true).
  { unfold iCheckSun. cbn [NMagic NWidth NHeight NDepth NType NMapType NMapLength]. change (1504078485 =? 1504078485) with true. cbn [negb]. cbv iota. replace ((W =? 0) || (H =? 0)) with false by lia. cbv iota.
    replace (negb (depth =? 1) && negb (depth =? 8) && negb (depth =? 24) && negb (depth =? 32)) with false by lia. replace (3 <? typ) with false by lia. replace (1 <? mt) with false by lia. replace ((0 <? mt) && (ml =? 0)) with false by lia. replace (((depth =? 1) || (depth =? 32)) && (typ =? 2)) with false by lia. reflexivity. }
  rewrite CK. cbn [negb]. cbv iota zeta. cbn [NWidth NHeight NDepth NType NMapType NMapLength]. replace (depth =? 1) with false by lia.
  assert (BP : 0 < W * sun_chans depth) by (apply Z.mul_pos_pos; [lia|unfold sun_chans; destruct (depth =? 8); lia]). assert (BW : W * sun_chans depth * 1 <= W * sun_chans depth * H) by (apply Z.mul_le_mono_nonneg_l; lia).
  destruct (depth =? 8) eqn:E8.
  - assert (EN : sun_chans depth = 1) by (unfold sun_chans; rewrite E8; reflexivity). rewrite EN in *. unfold sun_format. rewrite E8. rewrite (init_low alloc old W H 1 _ blk) by (auto; lia). cbn [bind negb]. cbv iota.
    assert (PL : (if mt =? 0 then Ok (true, low_img W H 1 (if mt =? 0 then IL_LUMINANCE else IL_COLOUR_INDEX) blk, [], Rd F 32 (zlen F) []) else
        match alloc ml with
        | None => Ok (false, low_img W H 1 (if mt =? 0 then IL_LUMINANCE else IL_COLOUR_INDEX) blk, [IL_OUT_OF_MEMORY], Rd F 32 (zlen F) [])
        | Some p => let! (n, p, r) := iReadLump p 1 ml (Rd F 32 (zlen F) []) in
            if negb (n =? ml) then Ok (false, with_PalData (low_img W H 1 (if mt =? 0 then IL_LUMINANCE else IL_COLOUR_INDEX) blk) p, [IL_FILE_READ_ERROR], r)
            else Ok (true, with_Pal (low_img W H 1 (if mt =? 0 then IL_LUMINANCE else IL_COLOUR_INDEX) blk) (mkPal (Some p) ml IL_PAL_RGB24), [], r)
        end) = Ok (true, low_pal W H 1 (if mt =? 0 then IL_LUMINANCE else IL_COLOUR_INDEX) blk (sun_pal F depth mt ml), [], Rd F (32 + ml) (zlen F) [])).
    { unfold sun_pal. rewrite E8. destruct HC as [(-> & ->)|(-> & Hml)]; [reflexivity|]. change (1 =? 0) with false. change (1 =? 1) with true. cbn [andb]. cbv iota. destruct (alloc ml) as [pb|] eqn:EP; [|congruence]. assert (LP := HA _ _ EP). rewrite read_in by lia. cbn [bind]. rewrite Z.eqb_refl. reflexivity. }
    rewrite PL. clear PL. cbn [bind negb]. cbv iota. change (Data (low_pal W H 1 (if mt =? 0 then IL_LUMINANCE else IL_COLOUR_INDEX) blk (sun_pal F depth mt ml))) with (Some blk). cbv iota.
    change (Bps (low_pal W H 1 (if mt =? 0 then IL_LUMINANCE else IL_COLOUR_INDEX) blk (sun_pal F depth mt ml))) with (W * 1). change (Height (low_pal W H 1 (if mt =? 0 then IL_LUMINANCE else IL_COLOUR_INDEX) blk (sun_pal F depth mt ml))) with H.
    unfold sun_body. rewrite EN. replace (depth =? 32) with false by lia. destruct (typ =? 2); cbn [negb]; cbv iota zeta; rewrite ?(Z.mul_1_r W); reflexivity.
  - assert (EN : sun_chans depth = 3) by (unfold sun_chans; rewrite E8; reflexivity). rewrite EN in *. unfold sun_format. rewrite E8.
    assert (SK : (if 0 <? ml then iSeekRLump (i32 ml) IL_SEEK_CUR (Rd F 32 (zlen F) []) else Ok (0, Rd F 32 (zlen F) [])) = Ok (0, Rd F (32 + ml) (zlen F) [])).
    { destruct (0 <? ml) eqn:EM; [|replace ml with 0 by lia; reflexivity]. unfold iSeekRLump, seek_lump. cbn [rpos Lump.rsize rlump rerr]. change (IL_SEEK_CUR =? IL_SEEK_SET) with false. change (IL_SEEK_CUR =? IL_SEEK_CUR) with true. cbv iota. rewrite i32_small by lia. rewrite u32_small by lia. replace (zlen F <? 32 + ml) with false by lia. reflexivity. }
    rewrite SK. cbn [bind]. rewrite (init_low alloc old W H 3 _ blk) by (auto; lia). cbn [bind negb]. cbv iota. unfold sun_pal. rewrite E8. cbn [andb]. cbv iota.
    change (Data (low_img W H 3 (if typ =? 3 then IL_RGB else IL_BGR) blk)) with (Some blk). cbv iota. change (Bps (low_img W H 3 (if typ =? 3 then IL_RGB else IL_BGR) blk)) with (W * 3). change (Height (low_img W H 3 (if typ =? 3 then IL_RGB else IL_BGR) blk)) with H.
    unfold sun_body. rewrite EN. destruct (depth =? 24) eqn:E24; [replace (depth =? 32) with false by lia|replace (depth =? 32) with true by lia; reflexivity]. rewrite (u32_small (W * 3)) by lia. destruct (typ =? 2); reflexivity.
Qed.

(** ** Lines *)
Lemma read_at_ok : forall F p e d off n, 0 <= p -> 0 <= n -> p + n <= zlen F -> 0 < zlen F < 4294967295 -> 0 <= off -> off + n <= zlen d -> read_at d off 1 n (Rd F p (zlen F) e) = Ok (n, splice d off (slice F p n), Rd F (p + n) (zlen F) e).
Proof.
  intros F p e d off n Hp Hn HF HM Ho HD. unfold read_at. replace (zlen d <? off) with false by lia. rewrite read_into; try lia. 2:{ rewrite zlen_slice; lia. } cbn [bind].
  assert (LS : zlen (slice F p n) = n) by (apply zlen_slice; lia). do 3 f_equal. rewrite <- LS at 2. apply splice_tail; lia.
Qed.
Lemma pad_ok : forall F p e n, 0 <= n -> 0 <= p -> p + n mod 2 <= zlen F -> zlen F < 4294967295 ->
  (if negb (n mod 2 =? 0) then let! (_, r) := iGetcLump (Rd F p (zlen F) e) in Ok r else Ok (Rd F p (zlen F) e)) = Ok (Rd F (p + n mod 2) (zlen F) e).
Proof. intros F p e n Hn Hp HF HM. destruct (n mod 2 =? 0) eqn:E; cbn [negb]; cbv iota; [do 3 f_equal; lia|]. rewrite getc_in by lia. cbn [bind]. do 3 f_equal. lia. Qed.
Lemma rows_ok : forall F H n p e d, 1 <= n -> 0 <= H -> zlen d = n * H -> n * H < 4294967296 -> 0 <= p -> p + H * (n + n mod 2) <= zlen F -> 0 < zlen F < 4294967295 ->
  exists d' r, sun_rows H n n d (Rd F p (zlen F) e) = Ok (d', r) /\ zlen d' = n * H /\ forall y k, 0 <= y < H -> 0 <= k < n -> geti d' (y * n + k) = geti F (p + y * (n + n mod 2) + k).
Proof.
  intros F H n p e d Hn HH LD HS Hp HF HM. unfold sun_rows.
  match goal with |- context [loop 0 H ?b ?s] => destruct (loop_rule _ (fun i st => exists d', st = (d', Rd F (p + i * (n + n mod 2)) (zlen F) e) /\ zlen d' = n * H /\ forall y k, 0 <= y < i -> 0 <= k < n -> geti d' (y * n + k) = geti F (p + y * (n + n mod 2) + k)) 0 H b s) as (st & E & d' & -> & L & G) end.
  - lia.
  - exists d. split; [do 2 f_equal; lia|]. split; [auto|]. intros; lia.
  - intros i st Hi (d' & -> & L & G). assert (BI : 0 <= i * n /\ i * n + n <= n * H). { assert (0 <= i * n) by (apply Z.mul_nonneg_nonneg; lia). assert (M : (i + 1) * n <= H * n) by (apply Z.mul_le_mono_nonneg_r; lia). lia. }
    assert (BP : 0 <= i * (n + n mod 2) /\ i * (n + n mod 2) + (n + n mod 2) <= H * (n + n mod 2)). { assert (0 <= i * (n + n mod 2)) by (apply Z.mul_nonneg_nonneg; lia). assert (M : (i + 1) * (n + n mod 2) <= H * (n + n mod 2)) by (apply Z.mul_le_mono_nonneg_r; lia). lia. }
    rewrite (u32_small (i * n)) by lia. rewrite read_at_ok by lia. cbn [bind]. replace ((2 - n mod 2) mod 2) with (n mod 2) by lia. assert (P := pad_ok F (p + i * (n + n mod 2) + n) e n ltac:(lia) ltac:(lia) ltac:(lia) ltac:(lia)).
    exists (splice d' (i * n) (slice F (p + i * (n + n mod 2)) n), Rd F (p + (i + 1) * (n + n mod 2)) (zlen F) e). assert (LS : zlen (slice F (p + i * (n + n mod 2)) n) = n) by (apply zlen_slice; lia). split.
    + destruct (negb (n mod 2 =? 0)); [destruct (iGetcLump _) as [(c, r)| |]; cbn [bind] in *; try discriminate|]; injection P as ->; do 2 f_equal; f_equal; lia.
    + eexists. split; [reflexivity|]. rewrite zlen_splice by lia. split; [auto|]. intros y k Hy Hk. assert (0 <= y * n) by (apply Z.mul_nonneg_nonneg; lia). rewrite geti_splice by (rewrite ?LS; try split; try lia). rewrite LS. destruct (Z.eq_dec y i) as [->|Hne].
      * replace ((i * n <=? i * n + k) && (i * n + k <? i * n + n)) with true by lia. rewrite geti_slice by lia. f_equal. lia.
      * assert (M : (y + 1) * n <= i * n) by (apply Z.mul_le_mono_nonneg_r; lia). replace ((i * n <=? y * n + k) && (y * n + k <? i * n + n)) with false by lia. apply G; lia.
  - rewrite E. eauto.
Qed.

(** C96a: an uncompressed raster with 8 bits per pixel (grey or with a colour map) or 24 (BGR, or RGB for type 3) is loaded
    into the picture it stores: lines top down, padded to an even number of bytes, after the colour map. *)
Theorem C96_plain : forall alloc old u4 F W H depth typ mt ml, allocator_ok alloc -> bytes F -> zlen F < 2147483648 -> sun_head F W H depth typ mt ml -> depth = 8 \/ depth = 24 -> typ = 0 \/ typ = 1 \/ typ = 3 ->
  (mt = 0 /\ ml = 0) \/ (mt = 1 /\ 1 <= ml) -> 1 <= W -> 1 <= H -> let N := sun_chans depth in let line := W * N + (W * N) mod 2 in 32 + ml + H * line <= zlen F -> (forall i, zlen (u4 i) = 4) -> alloc ml <> None -> alloc (W * N * H) <> None ->
  exists im, iLoadSunInternal alloc old u4 (Rd F 0 (zlen F) []) = Ok (true, im, []) /\ Pal im = sun_pal F depth mt ml /\
    shows im W H N (sun_format depth typ mt) (fun x t c => geti F (32 + ml + t * line + (x * N + c))).
Proof.
  intros alloc old u4 F W H depth typ mt ml HA B HM HD Hd Ht Hm HW HH N line HF U4 Hn Hn2. destruct (alloc (W * N * H)) as [blk|] eqn:EA; [|congruence]. assert (LB := HA _ _ EA). assert (HN : 1 <= N <= 3) by (unfold N, sun_chans; destruct (depth =? 8); lia).
  assert (P0 : 0 < W * N) by (apply Z.mul_pos_pos; lia). assert (P1 : 0 < H * (W * N)) by (apply Z.mul_pos_pos; lia). assert (P2 : H * (W * N) <= H * line) by (unfold line; apply Z.mul_le_mono_nonneg_l; lia). assert (EQ : W * N * H = H * (W * N)) by ring.
  rewrite (sun_start alloc old u4 F W H depth typ mt ml blk) by (auto; fold N; lia). unfold sun_body. fold N. replace (depth =? 32) with false by lia. replace (typ =? 2) with false by lia. cbv zeta.
  assert (HF' : 32 + ml + H * (W * N + (W * N) mod 2) <= zlen F) by exact HF. destruct (rows_ok F H (W * N) (32 + ml) [] blk) as (d & r & -> & Ld & G); auto; try lia. cbn [bind]. eexists. split; [reflexivity|]. split; [reflexivity|]. apply top_shows; auto; try lia.
  intros x t c Hx Hy Hc. assert (0 <= x * N) by (apply Z.mul_nonneg_nonneg; lia). assert (M : (x + 1) * N <= W * N) by (apply Z.mul_le_mono_nonneg_r; lia). replace ((t * W + x) * N + c) with (t * (W * N) + (x * N + c)) by ring. apply G; lia.
Qed.
Print Assumptions C96_plain.
