(** C95: PIX pictures, and damaged CUT and PIX files. *)
From Coq Require Import ZArith List Lia Bool.
From Verif Require Import Base Slices Elem Enums Utility Image ImageSpec Flip Lump LumpSpec LumpProofs LumpProps Channels Endian EndianProps ConvImgProps RleSpec RawProps Pcx PcxProofs TgaProofs TgaRle BmpSpec BmpSafe BmpDecode SgiSpec SgiProofs SgiLoad SgiProps Safe Small SmallSpec SmallTex SmallTexProps CacheProps SmallRle.
Import ListNotations.
Open Scope Z_scope.

(** ** PIX *)
Lemma geti_rep : forall n a b c j k, 0 <= j < Z.of_nat n -> 0 <= k < 3 -> geti (rep n [a; b; c]) (3 * j + k) = geti [a; b; c] k.
Proof.
  induction n as [|n IH]; intros a b c j k Hj Hk; [lia|]. cbn [rep]. rewrite geti_app by lia. change (zlen [a; b; c]) with 3. destruct (Z.eq_dec j 0) as [->|Hne]; [replace (3 * 0 + k <? 3) with true by lia; f_equal; lia|].
  replace (3 * j + k <? 3) with false by lia. replace (3 * j + k - 3) with (3 * (j - 1) + k) by lia. apply IH; lia.
Qed.
Lemma fill3_ok : forall n a b c d i, 0 <= n -> 0 <= i -> i + 3 * n <= zlen d ->
  loop 0 n (fun j d => let! d := wr d (i + 3 * j) a in let! d := wr d (i + 3 * j + 1) b in wr d (i + 3 * j + 2) c) d = Ok (splice d i (rep (Z.to_nat n) [a; b; c])).
Proof.
  intros n a b c d i Hn Hi Hd. assert (LR : zlen (rep (Z.to_nat n) [a; b; c]) = 3 * n) by (rewrite zlen_rep; change (zlen [a; b; c]) with 3; lia).
  match goal with |- loop 0 n ?body d = _ => destruct (loop_rule _ (fun k d' => zlen d' = zlen d /\ forall j, 0 <= j < zlen d -> geti d' j = if (i <=? j) && (j <? i + 3 * k) then geti [a; b; c] ((j - i) mod 3) else geti d j) 0 n body d) as (d' & E & L & G) end.
  - lia.
  - split; auto. intros j Hj. replace ((i <=? j) && (j <? i + 3 * 0)) with false by lia. reflexivity.
  - intros k d' Hk (L & G). rewrite wr_ok by lia. cbn [bind]. rewrite wr_ok by (rewrite zlen_upd by lia; lia). cbn [bind]. rewrite wr_ok by (rewrite !zlen_upd by (rewrite ?zlen_upd by lia; lia); lia). eexists. split; [reflexivity|].
    split; [rewrite !zlen_upd by (rewrite ?zlen_upd by (rewrite ?zlen_upd by lia; lia); lia); auto|]. intros j Hj. rewrite !geti_upd by (rewrite ?zlen_upd by (rewrite ?zlen_upd by lia; lia); lia).
    destruct (j =? i + 3 * k + 2) eqn:E2; [replace ((i <=? j) && (j <? i + 3 * (k + 1))) with true by lia; replace ((j - i) mod 3) with 2 by lia; reflexivity|].
    destruct (j =? i + 3 * k + 1) eqn:E1; [replace ((i <=? j) && (j <? i + 3 * (k + 1))) with true by lia; replace ((j - i) mod 3) with 1 by lia; reflexivity|].
    destruct (j =? i + 3 * k) eqn:E0; [replace ((i <=? j) && (j <? i + 3 * (k + 1))) with true by lia; replace ((j - i) mod 3) with 0 by lia; reflexivity|].
    rewrite G by lia. replace ((i <=? j) && (j <? i + 3 * (k + 1))) with ((i <=? j) && (j <? i + 3 * k)) by lia. reflexivity.
  - rewrite E. f_equal. apply list_ext; [rewrite zlen_splice by lia; lia|]. intros j Hj. rewrite L in Hj. rewrite G by lia. rewrite geti_splice, LR by lia.
    destruct ((i <=? j) && (j <? i + 3 * n)) eqn:Q; [|reflexivity]. replace (j - i) with (3 * ((j - i) / 3) + (j - i) mod 3) at 2 by lia. rewrite geti_rep; auto; lia.
Qed.
Lemma pix_code_ok : forall code px, pix_code code px -> forall F Size i d p e fuel col, bytes F -> 0 < zlen F < 4294967295 -> here F p code -> 0 <= i -> i + zlen px <= Size -> zlen d = Size -> zlen col = 3 -> (length code <= fuel)%nat ->
  (exists col' fuel', zlen col' = 3 /\ (fuel - length code <= fuel')%nat /\ pix_loop fuel Size i col d (Rd F p (zlen F) e) = pix_loop fuel' Size (i + zlen px) col' (splice d i px) (Rd F (p + zlen code) (zlen F) e)) \/
  (i + zlen px = Size /\ pix_loop fuel Size i col d (Rd F p (zlen F) e) = Ok (true, splice d i px)).
Proof.
  intros code px C. induction C as [|n a b c code data HN C IH]; intros F Size i d p e fuel col B HM HE Hi HS LD LC Hfuel.
  - left. exists col, fuel. split; [auto|]. split; [lia|]. change (zlen (@nil Z)) with 0 in *. rewrite !Z.add_0_r. rewrite splice_nil by lia. reflexivity.
  - assert (LR : zlen (rep (Z.to_nat n) [a; b; c]) = 3 * n) by (rewrite zlen_rep; change (zlen [a; b; c]) with 3; lia). rewrite zlen_app, LR in *. assert (0 <= zlen data) by auto. assert (0 <= zlen code) by auto.
    destruct (i <? Size) eqn:EI.
    + destruct (here_cons _ _ _ _ HE) as (G0 & H1 & HP). assert (HT : here F (p + 1) [a; b; c] /\ here F (p + 4) code). { destruct (here_app F (p + 1) [a; b; c] code H1) as (X & Y). split; [exact X|]. change (zlen [a; b; c]) with 3 in Y. replace (p + 1 + 3) with (p + 4) in Y by lia. exact Y. }
      destruct HT as ((_ & HF & S3) & H4). change (zlen [a; b; c]) with 3 in *. assert (Hp : 0 <= p) by apply HE. destruct fuel as [|fuel]; [cbn in Hfuel; lia|]. cbn [pix_loop]. rewrite EI. rewrite getc_in by lia. cbn [bind]. rewrite read_in by lia. cbn [bind]. change (3 =? 3) with true. cbn [negb]. cbv iota.
      rewrite S3, G0. rewrite u8_small by lia. change (geti [a; b; c] 0) with a. change (geti [a; b; c] 1) with b. change (geti [a; b; c] 2) with c. rewrite fill3_ok by lia. cbn [bind]. cbn [length] in Hfuel.
      assert (X := splice_splice_adj d i (rep (Z.to_nat n) [a; b; c]) data). rewrite LR in X.
      destruct (IH F Size (i + 3 * n) (splice d i (rep (Z.to_nat n) [a; b; c])) (p + 1 + 3) e fuel [a; b; c]) as [(col' & fuel' & L3 & Hf & E)|(HE2 & E)]; auto; try lia.
      { replace (p + 1 + 3) with (p + 4) by lia. exact H4. } { rewrite zlen_splice; lia. }
      * left. exists col', fuel'. split; [auto|]. split; [cbn [length]; lia|]. rewrite E, X by lia. rewrite !zlen_cons. f_equal; [lia|]. f_equal. lia.
      * right. split; [lia|]. rewrite E, X by lia. reflexivity.
    + right. split; [lia|]. assert (n = 0) by lia. subst n. assert (zlen data = 0) by lia. destruct data; [|rewrite zlen_cons in *; assert (0 <= zlen data) by auto; lia]. cbn [Z.to_nat rep app]. rewrite splice_nil by lia. destruct fuel; cbn [pix_loop]; rewrite EI; reflexivity.
Qed.
Lemma pix_start : forall alloc old u2 col F W H blk, allocator_ok alloc -> bytes F -> zlen F < 4294967295 -> pix_head F W H -> 1 <= W -> 1 <= H -> W * 3 * H < 4294967296 -> (forall i, zlen (u2 i) = 2) -> alloc (W * 3 * H) = Some blk ->
  iLoadPixInternal alloc old u2 col (Rd F 0 (zlen F) []) =
  (let! (ok, d) := pix_loop (S (Z.to_nat (zlen F))) (W * 3 * H) 0 col blk (Rd F 10 (zlen F) []) in
   if negb ok then Ok (false, low_img W H 3 IL_BGR d, []) else Ok (true, top_img W H 3 IL_BGR d (mkPal None 0 IL_PAL_NONE), [])).
Proof.
  intros alloc old u2 col F W H blk HA B HM (HF & E1 & E2 & E3) HW HH HS U2 EA. unfold iLoadPixInternal. do 5 (rewrite getb2_in by (auto; lia); cbn [bind]). change (0 + 2) with 2. change (2 + 2 + 2 + 2) with 8. rewrite E1, E2, E3. replace (W =? 0) with false by lia. replace (H =? 0) with false by lia. change (24 =? 24) with true. cbn [orb negb]. cbv iota.
  assert (LB := HA _ _ EA). rewrite (init_low alloc old W H 3 IL_BGR blk) by (auto; lia). cbn [bind negb]. cbv iota. reflexivity.
Qed.

(** C95b: a PIX file (five big-endian numbers, then counts with colours) is loaded into the picture its code stands
    for; trailing bytes do not matter. *)
Theorem C95_pix : forall alloc old u2 col F W H code px, allocator_ok alloc -> bytes F -> zlen F < 4294967295 -> pix_head F W H -> 1 <= W -> 1 <= H -> W * 3 * H < 4294967296 ->
  here F 10 code -> pix_code code px -> zlen px = W * 3 * H -> (forall i, zlen (u2 i) = 2) -> zlen col = 3 -> alloc (W * 3 * H) <> None ->
  exists im, iLoadPixInternal alloc old u2 col (Rd F 0 (zlen F) []) = Ok (true, im, []) /\ shows im W H 3 IL_BGR (fun x t c => geti px ((t * W + x) * 3 + c)).
Proof.
  intros alloc old u2 col F W H code px HA B HM HD HW HH HS HE C LP U2 LC Hn. destruct (alloc (W * 3 * H)) as [blk|] eqn:EA; [|congruence]. assert (LB := HA _ _ EA). rewrite (pix_start alloc old u2 col F W H blk) by auto. assert (HF : 10 <= zlen F) by apply HD.
  assert (LCd : (length code <= S (Z.to_nat (zlen F)))%nat). { destruct HE as (_ & X & _). unfold zlen in *. lia. }
  assert (0 < W * 3 * H) by (repeat apply Z.mul_pos_pos; lia).
  assert (E : pix_loop (S (Z.to_nat (zlen F))) (W * 3 * H) 0 col blk (Rd F 10 (zlen F) []) = Ok (true, px)).
  { assert (SF := splice_full blk px ltac:(lia)). destruct (pix_code_ok code px C F (W * 3 * H) 0 blk 10 [] (S (Z.to_nat (zlen F))) col) as [(col' & fuel' & _ & _ & E)|(_ & E)]; auto; try lia.
    - rewrite E, SF. rewrite Z.add_0_l, LP. destruct fuel'; cbn [pix_loop]; rewrite Z.ltb_irrefl; reflexivity.
    - rewrite E, SF. reflexivity. }
  rewrite E. cbn [bind negb]. cbv iota. eexists. split; [reflexivity|]. apply top_shows; auto; lia.
Qed.
Print Assumptions C95_pix.

(** C95c: a PIX file whose code ends too early is rejected. *)
Theorem C95_pix_short : forall alloc old u2 col F W H code px tl, allocator_ok alloc -> bytes F -> zlen F < 4294967295 -> pix_head F W H -> 1 <= W -> 1 <= H -> W * 3 * H < 4294967296 ->
  here F 10 (code ++ tl) -> zlen F = 10 + zlen code + zlen tl -> zlen tl < 4 -> pix_code code px -> zlen px < W * 3 * H -> (forall i, zlen (u2 i) = 2) -> zlen col = 3 -> alloc (W * 3 * H) <> None ->
  exists im e, iLoadPixInternal alloc old u2 col (Rd F 0 (zlen F) []) = Ok (false, im, e).
Proof.
  intros alloc old u2 col F W H code px tl HA B HM HD HW HH HS HE HF LT C LP U2 LC Hn. destruct (alloc (W * 3 * H)) as [blk|] eqn:EA; [|congruence]. assert (LB := HA _ _ EA). rewrite (pix_start alloc old u2 col F W H blk) by auto.
  destruct (here_app _ _ _ _ HE) as (HE1 & HE2). assert (0 <= zlen code) by auto. assert (0 <= zlen tl) by auto. assert (0 <= zlen px) by auto.
  assert (LCd : (length code <= Z.to_nat (zlen F))%nat). { unfold zlen in *. lia. }
  destruct (pix_code_ok code px C F (W * 3 * H) 0 blk 10 [] (S (Z.to_nat (zlen F))) col) as [(col' & fuel' & L3 & Hf & E)|(X & E)]; auto; try lia. rewrite E.
  destruct fuel' as [|fuel']; [lia|]. cbn [pix_loop]. replace (0 + zlen px <? W * 3 * H) with true by lia. destruct (Z.eq_dec (zlen tl) 0) as [ET|ET].
  - rewrite (C21_getc F) by (try (split; [reflexivity|cbn [rpos Lump.rsize]; split; [reflexivity|lia]]); lia). cbn [rpos rerr]. replace (10 + zlen code <? zlen F) with false by lia. cbn [bind].
    match goal with |- context [iReadLump col' 1 3 (Rd F ?q (zlen F) ?er)] => destruct (read_short F q er col' 3) as (c & b' & r & -> & Hc); try lia end. cbn [bind]. replace (c =? 3) with false by lia. cbn [negb bind]. cbv iota. eauto.
  - rewrite getc_in by lia. cbn [bind]. destruct (read_short F (10 + zlen code + 1) [] col' 3) as (c & b' & r & -> & Hc); try lia. cbn [bind]. replace (c =? 3) with false by lia. cbn [negb bind]. cbv iota. eauto.
Qed.
Print Assumptions C95_pix_short.

(** ** Damaged files *)
(** A run that does not fit into what is left of the picture is written past the end of it. *)
Theorem C95_cut_overflow_refuted : forall alloc old u2 u4 F W H n, allocator_ok alloc -> bytes F -> 10 <= zlen F < 4294967295 -> word2 F 0 = W -> word2 F 2 = H -> 1 <= W -> 1 <= H ->
  geti F 8 = 128 + n -> W * H < n < 128 -> (forall i, zlen (u2 i) = 2) -> (forall i, zlen (u4 i) = 4) -> alloc (W * 1 * H) <> None ->
  iLoadCutInternal alloc old u2 u4 (Rd F 0 (zlen F) []) = UB.
Proof.
  intros alloc old u2 u4 F W H n HA B HM EW EH HW HH E8 HN U2 U4 Hn. assert (0 < W * H) by (apply Z.mul_pos_pos; lia).
  unfold iLoadCutInternal. assert (SW : forall p, 0 <= p -> p + 2 <= zlen F -> u16 (int2 F p) = word2 F p).
  { intros p Hp Hq. unfold int2, word2, u16. assert (0 <= geti F p < 256) by (apply B; lia). assert (0 <= geti F (p + 1) < 256) by (apply B; lia). destruct (_ <? _) eqn:E; lia. }
  rewrite gets2 by (auto; lia). cbn [bind]. rewrite gets2 by (auto; lia). cbn [bind]. rewrite gets4 by (auto; lia). cbn [bind]. cbv zeta. change (0 + 2) with 2. rewrite !SW by lia. rewrite EW, EH. replace (W =? 0) with false by lia. replace (H =? 0) with false by lia. cbn [orb].
  destruct (alloc (W * 1 * H)) as [blk|] eqn:EA; [|congruence]. assert (LB := HA _ _ EA). rewrite (init_low alloc old W H 1 IL_COLOUR_INDEX blk) by (auto; rewrite ?Z.mul_1_r; lia). cbn [bind negb]. cbv iota. replace (2147483647 <? W * H) with false by lia.
  change (Data (low_img W H 1 IL_COLOUR_INDEX blk)) with (Some blk). cbv iota. change (2 + 2 + 4) with 8. rewrite Z.mul_1_r in LB.
  replace (2 * (Z.to_nat (W * H) + Z.to_nat (Lump.rsize (Rd F 8 (zlen F) [])) + 1))%nat with (S (2 * (Z.to_nat (W * H) + Z.to_nat (zlen F)) + 1))%nat by (cbn [Lump.rsize]; lia).
  cbn [cut_loop]. replace (0 <? W * H) with true by lia. rewrite getc_in by lia. cbn [bind]. rewrite E8, u8_small by lia. replace (128 + n =? 0) with false by lia. cbv zeta. destruct (bit7_high n ltac:(lia)) as (-> & ->). change (negb (128 =? 0)) with true. cbv iota.
  rewrite getc_in by lia. cbn [bind]. rewrite (loop_ub _ (fun k d => zlen d = W * H)); [reflexivity|lia| |].
  - intros k d Hk Ld. unfold wr. destruct (inb (zlen d) (0 + k) 1) eqn:E; [|left; reflexivity]. right. eexists. split; [reflexivity|]. unfold inb in E. rewrite zlen_upd by lia. auto.
  - exists (W * H). split; [lia|]. intros d Ld. unfold wr. replace (inb (zlen d) (0 + W * H) 1) with false; [reflexivity|]. unfold inb. lia.
Qed.
Print Assumptions C95_cut_overflow_refuted.
Theorem C95_pix_overflow_refuted : forall alloc old u2 col F W H, allocator_ok alloc -> bytes F -> 14 <= zlen F < 4294967295 -> pix_head F W H -> 1 <= W -> 1 <= H -> W * 3 * H < 4294967296 ->
  W * H < geti F 10 -> (forall i, zlen (u2 i) = 2) -> zlen col = 3 -> alloc (W * 3 * H) <> None -> iLoadPixInternal alloc old u2 col (Rd F 0 (zlen F) []) = UB.
Proof.
  intros alloc old u2 col F W H HA B HM HD HW HH HS HN U2 LC Hn. destruct (alloc (W * 3 * H)) as [blk|] eqn:EA; [|congruence]. assert (LB := HA _ _ EA). rewrite (pix_start alloc old u2 col F W H blk) by (auto; lia). assert (EQ : W * 3 * H = 3 * (W * H)) by ring. assert (0 < W * H) by (apply Z.mul_pos_pos; lia).
  cbn [pix_loop]. replace (0 <? W * 3 * H) with true by lia. assert (0 <= geti F 10 < 256) by (apply B; lia). rewrite getc_in by lia. cbn [bind]. rewrite read_in by lia. cbn [bind]. change (3 =? 3) with true. cbn [negb]. cbv iota. rewrite u8_small by lia.
  rewrite (loop_ub _ (fun k d => zlen d = 3 * (W * H))); [reflexivity|lia| |].
  - intros k d Hk Ld. unfold wr. destruct (inb (zlen d) (0 + 3 * k) 1) eqn:E; [|left; reflexivity]. unfold inb in E. cbn [bind]. rewrite zlen_upd by lia. destruct (inb (zlen d) (0 + 3 * k + 1) 1) eqn:E1; [|left; reflexivity]. unfold inb in E1. cbn [bind]. rewrite !zlen_upd by (rewrite ?zlen_upd by lia; lia).
    destruct (inb (zlen d) (0 + 3 * k + 2) 1) eqn:E2; [|left; reflexivity]. unfold inb in E2. right. eexists. split; [reflexivity|]. rewrite !zlen_upd by (rewrite ?zlen_upd by (rewrite ?zlen_upd by lia; lia); lia). auto.
  - exists (W * H). split; [lia|]. intros d Ld. unfold wr at 1. replace (inb (zlen d) (0 + 3 * (W * H)) 1) with false; [reflexivity|]. unfold inb. lia.
Qed.
Print Assumptions C95_pix_overflow_refuted.
(** A CUT file that ends in the byte 128 where a packet should begin is read for ever: no number of turns is enough. *)
Theorem C95_cut_hang_refuted : forall fuel F Size i d e, bytes F -> 0 < zlen F < 4294967295 -> geti F (zlen F - 1) = 128 -> i < Size -> cut_loop fuel Size i d (Rd F (zlen F - 1) (zlen F) e) = Fuel.
Proof.
  induction fuel as [|fuel IH]; intros F Size i d e B HM HL Hi; cbn [cut_loop]; replace (i <? Size) with true by lia; [reflexivity|]. rewrite getc_in by lia. cbn [bind]. rewrite HL. change (u8 128 =? 0) with false. cbv iota. change (negb (Z.land (u8 128) 128 =? 0)) with true. change (Z.land (u8 128) 127) with 0. cbv iota zeta.
  rewrite (C21_getc F) by (try (split; [reflexivity|cbn [rpos Lump.rsize]; split; [reflexivity|lia]]); lia). cbn [rpos rerr]. replace (zlen F - 1 + 1 <? zlen F) with false by lia. cbn [bind]. unfold loop. cbn [Z.sub Z.opp Z.add Z.to_nat for_ bind]. apply IH; auto; lia.
Qed.
Print Assumptions C95_cut_hang_refuted.
