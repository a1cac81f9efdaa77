(** Theorems about run-length encoded bitmaps. *)
From Coq Require Import ZArith List Lia Bool.
From Verif Require Import Base Slices BitLemmas Scatter Enums Utility Image ImageSpec ImageProps Elem Flip Lump LumpSpec LumpProofs LumpProps Channels Endian EndianProps Raw RawProps Pcx PcxProofs PcxProps PcxSafe Pal Bmp BmpSpec BmpProofs BmpRows BmpDecode BmpProps.
Import ListNotations.
Open Scope Z_scope.

(** the file from position [p] on *)
Definition holds (F : list Z) (p : Z) (code : list Z) : Prop := 0 <= p /\ zlen F = p + zlen code /\ forall i, 0 <= i < zlen code -> geti F (p + i) = geti code i.
Lemma holds_app : forall F p a b, holds F p (a ++ b) -> p + zlen a <= zlen F /\ (forall i, 0 <= i < zlen a -> geti F (p + i) = geti a i) /\ holds F (p + zlen a) b.
Proof.
  intros F p a b (Hp & HL & G). rewrite zlen_app in *. assert (0 <= zlen a) by (unfold zlen; lia). assert (0 <= zlen b) by (unfold zlen; lia). split; [lia|]. split.
  - intros i Hi. rewrite G by lia. rewrite geti_app by lia. replace (i <? zlen a) with true by lia. reflexivity.
  - split; [lia|]. split; [lia|]. intros i Hi. replace (p + zlen a + i) with (p + (zlen a + i)) by lia. rewrite G by lia. rewrite geti_app by lia. replace (zlen a + i <? zlen a) with false by lia. f_equal. lia.
Qed.
Lemma item_pair : forall F p e a b, p + 2 <= zlen F -> 0 <= p -> zlen F < 4294967295 -> geti F p = a -> geti F (p + 1) = b -> 
  read_item 2 (Rd F p (zlen F) e) = Ok (true, a + 256 * b, Rd F (p + 2) (zlen F) e).
Proof. intros F p e a b HF Hp Hm <- <-. rewrite item2 by lia. reflexivity. Qed.
Lemma pair_lo : forall a b, 0 <= a < 256 -> (a + 256 * b) mod 256 = a.
Proof. intros. lia. Qed.
Lemma pair_hi : forall a b, 0 <= a < 256 -> (a + 256 * b) / 256 = b.
Proof. intros. lia. Qed.

Lemma memset_filled : forall d off v n, 0 <= off -> 0 <= n -> off + n <= zlen d -> 0 <= v < 256 -> exists d', memset d off v n = Ok d' /\ filled d d' off n (fun _ => v).
Proof.
  intros d off v n Ho Hn HL Hv. destruct (memset_spec d off v n) as (d' & E & L & G); try lia. exists d'. split; [exact E|]. split; [lia|]. intros q Hq. rewrite G by lia. rewrite u8_small by lia. reflexivity.
Qed.
Lemma read_block_ok : forall F p e off n d, 0 < n -> 0 <= p -> p + n <= zlen F -> zlen F < 4294967295 -> 0 <= off -> off + n <= zlen d ->
  exists d', read_block off n d (Rd F p (zlen F) e) = Ok (true, (d', Rd F (p + n) (zlen F) e)) /\ filled d d' off n (fun q => geti F (p + q)).
Proof.
  intros F p e off n d Hn Hp HF Hm Ho HL. unfold read_block. assert (LT : zlen (slice d off (zlen d - off)) = zlen d - off) by (apply zlen_slice; lia).
  assert (R := C21_read F (Rd F p (zlen F) e) (slice d off (zlen d - off)) n 1). rewrite R by (try (split; [reflexivity|cbn; lia]); lia). clear R. cbn [rpos rerr]. cbv zeta. rewrite Z.mul_1_r, rest_slice.
  assert (LS : zlen (slice F p n) = n) by (apply zlen_slice; lia). rewrite LS, Z.div_same by lia. cbn [bind]. change (1 =? 1) with true. rewrite app_nil_r. eexists. split; [reflexivity|].
  set (b := slice F p n ++ _). assert (LB : zlen b = zlen d - off). { unfold b. rewrite zlen_app, LS. unfold zlen in *. rewrite skipn_length. lia. }
  split; [apply zlen_splice; lia|]. intros q Hq. rewrite geti_splice by lia. rewrite LB. destruct ((off <=? q) && (q <? off + n)) eqn:E.
  - replace ((off <=? q) && (q <? off + (zlen d - off))) with true by lia. unfold b. rewrite geti_app by lia. rewrite LS. replace (q - off <? n) with true by lia. rewrite geti_slice by lia. reflexivity.
  - destruct ((off <=? q) && (q <? off + (zlen d - off))) eqn:E2; [|reflexivity]. unfold b. rewrite geti_app by lia. rewrite LS. replace (q - off <? n) with false by lia.
    unfold geti at 1. rewrite nth_skipn_. unfold zlen in LS. replace (length (slice F p n) + Z.to_nat (q - off - n))%nat with (Z.to_nat (q - off)) by lia. change (nth (Z.to_nat (q - off)) (slice d off (zlen d - off)) 0) with (geti (slice d off (zlen d - off)) (q - off)). rewrite geti_slice by lia. f_equal. lia.
Qed.
Lemma run4_ok : forall d off n c, 0 <= off -> 0 <= n -> off + n <= zlen d ->
  exists d', loop 0 n (fun i d => wr d (off + i) (if Z.odd i then Z.land c 15 else Z.shiftr c 4)) d = Ok d' /\ filled d d' off n (pick true c).
Proof.
  intros d off n c Ho Hn HL. destruct (loop_rule _ (fun i s => filled d s off i (pick true c)) 0 n (fun i d => wr d (off + i) (if Z.odd i then Z.land c 15 else Z.shiftr c 4)) d Hn) as (d' & E & FI).
  - apply filled_0.
  - intros i s Hi FI. assert (L := proj1 FI). rewrite wr_ok by lia. eexists. split; [reflexivity|]. eapply filled_ext; [| |eapply filled_app; [| |exact FI|apply filled_upd; lia]]; try lia.
    intros q Hq. cbv beta. destruct (q <? i) eqn:Eq; [reflexivity|]. replace q with i by lia. unfold pick. rewrite nibble_lo, nibble_hi. rewrite <- Z.negb_odd. destruct (Z.odd i); reflexivity.
  - exists d'. auto.
Qed.
Lemma lit4_ok : forall n F p e i b0 off d, 0 <= i -> (Z.odd i = true -> b0 = geti F (p + i / 2)) -> 0 <= p -> p + (i + Z.of_nat n + 1) / 2 <= zlen F -> zlen F < 4294967295 -> 0 <= off -> off + Z.of_nat n <= zlen d ->
  exists d', lit4 n i b0 off d (Rd F (p + (i + 1) / 2) (zlen F) e) = Ok (true, (d', Rd F (p + (i + Z.of_nat n + 1) / 2) (zlen F) e)) /\
    filled d d' off (Z.of_nat n) (fun q => pick true (geti F (p + (i + q) / 2)) (i + q)).
Proof.
  induction n as [|n IH]; intros F p e i b0 off d Hi Hb Hp HF Hm Ho HL; cbn [lit4].
  - exists d. split; [do 4 f_equal; lia|]. apply filled_0.
  - assert (OD := Z.odd_spec). assert (PAR : if Z.odd i then i mod 2 = 1 else i mod 2 = 0) by (rewrite Zmod_odd; destruct (Z.odd i); reflexivity).
    assert (ST : exists v, (if Z.odd i then Ok (true, b0, Rd F (p + (i + 1) / 2) (zlen F) e) else read_item 1 (Rd F (p + (i + 1) / 2) (zlen F) e)) = Ok (true, v, Rd F (p + (i + 1 + 1) / 2) (zlen F) e) /\ v = geti F (p + i / 2)).
    { destruct (Z.odd i) eqn:EO.
      - exists b0. split; [do 3 f_equal; lia|auto].
      - rewrite item1 by lia. eexists. split; [do 3 f_equal; lia|]. f_equal. lia. }
    destruct ST as (v & -> & Ev). cbn [bind negb]. rewrite wr_ok by lia. cbn [bind]. assert (FU := filled_upd d off (if Z.odd i then Z.land v 15 else Z.shiftr v 4) ltac:(lia)).
    destruct (IH F p e (i + 1) v (off + 1) (upd d off (if Z.odd i then Z.land v 15 else Z.shiftr v 4))) as (d' & E & FI); try lia.
    { intros H1. rewrite Z.odd_add in H1. change (Z.odd 1) with true in H1. destruct (Z.odd i); [discriminate|]. rewrite Ev. f_equal. lia. }
    { rewrite zlen_upd by lia. lia. }
    change 0x0F with 15. rewrite E. exists d'. split; [do 4 f_equal; lia|]. eapply filled_ext; [| |eapply filled_app; [| |exact FU|exact FI]]; try lia.
    intros q Hq. cbv beta. destruct (q <? 1) eqn:Eq.
    + replace q with 0 by lia. rewrite Z.add_0_r, <- Ev. unfold pick. rewrite nibble_lo, nibble_hi. rewrite <- Z.negb_odd. destruct (Z.odd i); reflexivity.
    + replace (i + 1 + (q - 1)) with (i + q) by lia. reflexivity.
Qed.

(** ** Painting *)
Lemma colour_app : forall ps qs x y v, colour_of (ps ++ qs) x y v = colour_of qs x y (colour_of ps x y v).
Proof. intros. unfold colour_of. apply fold_left_app. Qed.
Lemma colour_painted : forall n x y value a b v, 0 <= n -> colour_of (painted x y n value) a b v = if (b =? y) && (x <=? a) && (a <? x + n) then value (a - x) else v.
Proof.
  intros n x y value a b v Hn. unfold painted, colour_of. rewrite <- (Z2Nat.id n) at 2 by lia. generalize (Z.to_nat n) as m. clear n Hn. induction m as [|m IH].
  - cbn. replace ((b =? y) && (x <=? a) && (a <? x + 0)) with false by lia. reflexivity.
  - rewrite seq_S, map_app, fold_left_app, IH. cbn [map fold_left plus]. destruct ((x + Z.of_nat m =? a) && (y =? b)) eqn:E.
    + replace ((b =? y) && (x <=? a) && (a <? x + Z.of_nat (S m))) with true by lia. f_equal. lia.
    + destruct ((b =? y) && (x <=? a) && (a <? x + Z.of_nat m)) eqn:E2.
      * replace ((b =? y) && (x <=? a) && (a <? x + Z.of_nat (S m))) with true by lia. reflexivity.
      * replace ((b =? y) && (x <=? a) && (a <? x + Z.of_nat (S m))) with false by lia. reflexivity.
Qed.
Lemma in_line : forall w x y n a b, 0 <= x -> x + n <= w -> 0 <= a < w -> (y * w + x <=? b * w + a) && (b * w + a <? y * w + x + n) = (b =? y) && (x <=? a) && (a <? x + n).
Proof.
  intros w x y n a b Hx Hn Ha. destruct (b =? y) eqn:E.
  - replace b with y by lia. lia.
  - cbn [andb]. assert (b * w + w <= y * w \/ y * w + w <= b * w) by (assert (b < y \/ y < b) as [H|H] by lia; [left|right]; nia). lia.
Qed.
(** [d'] is [d] after painting [ps] *)
Definition paints (w h : Z) (d d' : list Z) (ps : list (Z * Z * Z)) : Prop :=
  zlen d' = zlen d /\ forall a b, 0 <= a < w -> 0 <= b < h -> geti d' (b * w + a) = colour_of ps a b (geti d (b * w + a)).
Lemma paints_step : forall w h d d1 d' x y n value ps, 0 <= x -> 0 <= n -> x + n <= w -> w * h <= zlen d -> filled d d1 (y * w + x) n value -> paints w h d1 d' ps ->
  paints w h d d' (painted x y n value ++ ps).
Proof.
  intros w h d d1 d' x y n value ps Hx Hn Hw HL (L1 & G1) (L2 & G2). split; [lia|]. intros a b Ha Hb. assert (0 <= b * w + a < w * h) by nia. rewrite G2 by lia. rewrite colour_app, colour_painted by lia. f_equal.
  rewrite G1 by lia. rewrite in_line by lia. destruct ((b =? y) && (x <=? a) && (a <? x + n)) eqn:E; [|reflexivity]. f_equal. assert (b = y) by lia. subst b. lia.
Qed.
Lemma full_stays : forall four w h x y code ps, rle_stream four w h x y code ps -> 0 <= x <= w -> h <= y \/ (y = h - 1 /\ w <= x) -> ps = [].
Proof.
  intros four w h x y code ps HS. induction HS; intros Hx HF; auto.
  - apply IHHS; lia.
  - apply IHHS; lia.
  - lia.
  - lia.
Qed.

Lemma rle_ok : forall four w h x y code ps, rle_stream four w h x y code ps -> forall F p e d fuel, holds F p code -> 0 <= x <= w -> 0 <= y -> 1 <= w < 16777216 -> 1 <= h -> zlen d = w * h ->
  zlen F < 4294967295 -> zlen F - p < Z.of_nat fuel -> w * h < 4294967296 ->
  exists d' r, (if four then rle4 else rle8) fuel w (w * h) (y * w + x) ((y + 1) * w) d (Rd F p (zlen F) e) = Ok (true, (d', r)) /\ paints w h d d' ps.
Proof.
  intros four w h x y code ps HS. induction HS; intros F p e d fuel HH Hx Hy Hw Hh Hd HF Hf Hwh.
  all: assert (STOP : w * h <= y * w + x -> exists d' r, (if four then rle4 else rle8) fuel w (w * h) (y * w + x) ((y + 1) * w) d (Rd F p (zlen F) e) = Ok (true, (d', r)) /\ paints w h d d' [])
    by (intros HE; exists d, (Rd F p (zlen F) e); split; [destruct four, fuel; cbn [rle4 rle8]; replace (y * w + x <? w * h) with false by lia; reflexivity|split; [reflexivity|intros; reflexivity]]).
  - destruct (Z_lt_le_dec (y * w + x) (w * h)) as [HE|HE]; [|auto]. clear STOP. assert (HP := proj1 HH). apply holds_app in HH as (HL & G & _). change (zlen [0; 1]) with 2 in *. assert (G0 := G 0 ltac:(lia)). assert (G1 := G 1 ltac:(lia)). rewrite Z.add_0_r in G0. change (geti [0; 1] 0) with 0 in G0. change (geti [0; 1] 1) with 1 in G1. clear G.
    destruct fuel as [|fuel]; [lia|]. exists d. exists (Rd F (p + 2) (zlen F) e).
    destruct four; cbn [rle4 rle8]; (replace (y * w + x <? w * h) with true by lia); rewrite (item_pair F p e 0 1) by (auto; lia); cbn [bind negb]; rewrite pair_lo, pair_hi by lia; cbn [Z.eqb Pos.eqb];
      (split; [destruct fuel; cbn [rle4 rle8]; rewrite Z.ltb_irrefl; reflexivity|split; [reflexivity|intros; reflexivity]]).
  - apply STOP. nia.
  - destruct (Z_lt_le_dec (y * w + x) (w * h)) as [HE|HE]. 2: { assert (ps = []) as -> by (eapply full_stays; [exact HS|lia|]; nia). auto. } clear STOP.
    assert (HP := proj1 HH). apply holds_app in HH as (HL & G & HR). change (zlen [0; 0]) with 2 in *. assert (G0 := G 0 ltac:(lia)). assert (G1 := G 1 ltac:(lia)). rewrite Z.add_0_r in G0. change (geti [0; 0] 0) with 0 in G0. change (geti [0; 0] 1) with 0 in G1. clear G.
    destruct fuel as [|fuel]; [lia|]. destruct (IHHS F (p + 2) e d fuel) as (d' & r & E & P); try lia; auto. exists d', r. split; [|exact P]. rewrite Z.add_0_r in E.
    destruct four; cbn [rle4 rle8]; (replace (y * w + x <? w * h) with true by lia); rewrite (item_pair F p e 0 0) by (auto; lia); cbn [bind negb]; rewrite pair_lo, pair_hi by lia; cbn [Z.eqb Pos.eqb]; replace ((y + 1) * w + w) with ((y + 1 + 1) * w) by lia; exact E.
  - destruct (Z_lt_le_dec (y * w + x) (w * h)) as [HE|HE]. 2: { assert (ps = []) as -> by (eapply full_stays; [exact HS|lia|]; nia). auto. } clear STOP.
    assert (HP := proj1 HH). apply holds_app in HH as (HL & G & HR). change (zlen [0; 2; dx; dy]) with 4 in *. assert (G0 := G 0 ltac:(lia)). assert (G1 := G 1 ltac:(lia)). assert (G2 := G 2 ltac:(lia)). assert (G3 := G 3 ltac:(lia)). rewrite Z.add_0_r in G0. change (geti [0; 2; dx; dy] 0) with 0 in G0. change (geti [0; 2; dx; dy] 1) with 2 in G1. change (geti [0; 2; dx; dy] 2) with dx in G2. change (geti [0; 2; dx; dy] 3) with dy in G3. clear G. replace (p + 3) with (p + 2 + 1) in G3 by lia.
    destruct fuel as [|fuel]; [lia|]. destruct (IHHS F (p + 4) e d fuel) as (d' & r & E & P); try lia; auto. exists d', r. split; [|exact P].
    assert (0 <= dy * w < 256 * w) by nia.
    destruct four; cbn [rle4 rle8]; (replace (y * w + x <? w * h) with true by lia); rewrite (item_pair F p e 0 2) by (auto; lia); cbn [bind negb]; rewrite pair_lo, pair_hi by lia; cbn [Z.eqb Pos.eqb]; rewrite (item_pair F (p + 2) e dx dy) by (auto; lia); cbn [bind negb]; rewrite pair_lo, pair_hi by lia; rewrite !u32_small by lia;
      replace (p + 2 + 2) with (p + 4) by lia; replace (y * w + x + (dx + dy * w)) with ((y + dy) * w + (x + dx)) by lia; replace ((y + 1) * w + dy * w) with ((y + dy + 1) * w) by lia; exact E.
  - clear STOP. assert (HE : y * w + x + n <= w * h) by nia. assert (Y0 : 0 <= y * w) by nia.
    assert (HP := proj1 HH). apply holds_app in HH as (HL & G & HR). change (zlen [n; c]) with 2 in *. assert (G0 := G 0 ltac:(lia)). assert (G1 := G 1 ltac:(lia)). rewrite Z.add_0_r in G0. change (geti [n; c] 0) with n in G0. change (geti [n; c] 1) with c in G1. clear G.
    destruct fuel as [|fuel]; [lia|].
    assert (RUN : exists d1, (if four then loop 0 n (fun i d => wr d (y * w + x + i) (if Z.odd i then Z.land c 15 else Z.shiftr c 4)) d else memset d (y * w + x) c n) = Ok d1 /\ filled d d1 (y * w + x) n (pick four c)).
    { destruct four; [apply run4_ok; lia|]. destruct (memset_filled d (y * w + x) c n) as (d1 & E1 & F1); try lia. exists d1. auto. }
    destruct RUN as (d1 & E1 & F1). assert (L1 := proj1 F1).
    destruct (IHHS F (p + 2) e d1 fuel) as (d' & r & E & P); try lia; auto. exists d', r. split; [|eapply paints_step; [| | | |exact F1|exact P]; lia].
    destruct four; cbn [rle4 rle8]; (replace (y * w + x <? w * h) with true by lia); rewrite (item_pair F p e n c) by (auto; lia); cbn [bind negb]; rewrite pair_lo, pair_hi by lia; replace (n =? 0) with false by lia; rewrite (Z.min_l n) by lia; change 0x0F with 15; rewrite E1; cbn [bind]; replace (y * w + x + n) with (y * w + (x + n)) by lia; exact E.
  - clear STOP. assert (HE : y * w + x + n <= w * h) by nia. assert (Y0 : 0 <= y * w) by nia. assert (Z0 : 0 <= zlen data) by (unfold zlen; lia). assert (Z1 : 0 <= zlen rest) by (unfold zlen; lia).
    assert (HP := proj1 HH). apply holds_app in HH as (HL & G & HR). change (zlen [0; n]) with 2 in *. assert (G0 := G 0 ltac:(lia)). assert (G1 := G 1 ltac:(lia)). rewrite Z.add_0_r in G0. change (geti [0; n] 0) with 0 in G0. change (geti [0; n] 1) with n in G1. clear G.
    apply holds_app in HR as (HL2 & GD & HR). apply holds_app in HR as (HL3 & _ & HR).
    destruct fuel as [|fuel]; [lia|].
    assert (LIT : exists d1, (if four then lit4 (Z.to_nat n) 0 0 (y * w + x) d (Rd F (p + 2) (zlen F) e) else read_block (y * w + x) n d (Rd F (p + 2) (zlen F) e)) = Ok (true, (d1, Rd F (p + 2 + zlen data) (zlen F) e)) /\ filled d d1 (y * w + x) n (literal four data)).
    { unfold literal_bytes in *. destruct four.
      - destruct (lit4_ok (Z.to_nat n) F (p + 2) e 0 0 (y * w + x) d) as (d1 & E1 & F1); try lia; try discriminate. rewrite Z2Nat.id in * by lia. change ((0 + 1) / 2) with 0 in E1. rewrite Z.add_0_r, Z.add_0_l in E1. exists d1. rewrite E1. split; [do 4 f_equal; lia|].
        eapply filled_ext; [reflexivity| |exact F1]. intros q Hq. cbv beta. rewrite Z.add_0_l. unfold literal. rewrite GD by lia. reflexivity.
      - destruct (read_block_ok F (p + 2) e (y * w + x) n d) as (d1 & E1 & F1); try lia. exists d1. rewrite E1. split; [do 4 f_equal; lia|]. eapply filled_ext; [reflexivity| |exact F1]. intros q Hq. cbv beta. unfold literal. rewrite GD by lia. reflexivity. }
    destruct LIT as (d1 & E1 & F1). assert (L1 := proj1 F1).
    destruct (IHHS F (p + 2 + zlen data + zlen pad) e d1 fuel) as (d' & r & E & P); try lia; auto. exists d', r. split; [|eapply paints_step; [| | | |exact F1|exact P]; lia].
    destruct four; cbn [rle4 rle8]; (replace (y * w + x <? w * h) with true by lia); rewrite (item_pair F p e 0 n) by (auto; lia); cbn [bind negb]; rewrite pair_lo, pair_hi by lia; change (0 =? 0) with true; cbv iota; replace (n =? 0) with false by lia; replace (n =? 1) with false by lia; replace (n =? 2) with false by lia; cbv iota; rewrite (Z.min_l n) by lia; rewrite E1; cbn [bind negb].
    + unfold literal_bytes in *. replace (y * w + x + n) with (y * w + (x + n)) by lia. destruct ((n mod 4 =? 1) || (n mod 4 =? 2)) eqn:EA.
      * rewrite item1 by lia. cbn [bind negb]. replace (p + 2 + zlen data + 1) with (p + 2 + zlen data + zlen pad) by lia. exact E.
      * replace (p + 2 + zlen data) with (p + 2 + zlen data + zlen pad) by lia. exact E.
    + unfold literal_bytes in *. replace (y * w + x + n) with (y * w + (x + n)) by lia. assert (PAR : n mod 2 = if Z.odd n then 1 else 0) by apply Zmod_odd. destruct (Z.odd n).
      * rewrite item1 by lia. cbn [bind negb]. replace (p + 2 + zlen data + 1) with (p + 2 + zlen data + zlen pad) by lia. exact E.
      * replace (p + 2 + zlen data) with (p + 2 + zlen data + zlen pad) by lia. exact E.
Qed.

Lemma read_one : forall F p e b n, 0 < n -> 0 <= p -> p + n <= zlen F -> zlen F < 4294967295 -> zlen b = n ->
  iReadLump b n 1 (Rd F p (zlen F) e) = Ok (1, slice F p n, Rd F (p + n) (zlen F) e).
Proof.
  intros F p e b n Hn Hp HF Hm Hb. assert (R := C21_read F (Rd F p (zlen F) e) b n 1). rewrite R by (try (split; [reflexivity|cbn; lia]); lia). clear R. cbn [rpos rerr]. cbv zeta. rewrite Z.mul_1_r, rest_slice.
  assert (LS : zlen (slice F p n) = n) by (apply zlen_slice; lia). rewrite LS, Z.div_same by lia. rewrite skipn_all2 by (unfold zlen in *; lia). rewrite !app_nil_r. reflexivity.
Qed.
Lemma holds_slice : forall F p, 0 <= p <= zlen F -> holds F p (slice F p (zlen F - p)).
Proof.
  intros F p Hp. assert (L : zlen (slice F p (zlen F - p)) = zlen F - p) by (apply zlen_slice; lia). split; [lia|]. split; [lia|]. intros i Hi. rewrite geti_slice by lia. reflexivity.
Qed.

(** C68: a run-length encoded bitmap (8 bits, or 4 bits for [four]) is decoded to the pixels that its codes paint: runs,
    literal pixels, ends of lines, jumps and the end of the picture.  (Full statement: pixels that are not painted have
    colour 0.  They keep what was in the memory; see C68_unpainted_refuted.) *)
Theorem C68_rle_partial : forall (four : bool) alloc old us ui hb F w h off colours blk p code ps,
  bmp_file F w h (if four then 4 else 8) (if four then 2 else 1) off colours ->
  allocator_ok alloc -> stacks us ui -> 1 <= w < 16777216 -> h <> 0 -> -2147483648 < h -> 0 <= colours < 536870912 -> w * Z.abs h < 4294967296 ->
  0 <= off <= zlen F -> slice F off (zlen F - off) = code -> rle_stream four w (Z.abs h) 0 0 code ps ->
  54 + bmp_palette (if four then 4 else 8) colours <= zlen F ->
  alloc (w * Z.abs h) = Some blk -> alloc (bmp_palette (if four then 4 else 8) colours) = Some p ->
  exists im buf r, ilLoadBmpL alloc old us ui hb F = Ok (true, im, r) /\ img_ok im buf /\
    Width im = w /\ Height im = Z.abs h /\ Depth im = 1 /\ Bpp im = 1 /\ Bpc im = 1 /\ Type_ im = IL_UNSIGNED_BYTE /\ Format im = IL_COLOUR_INDEX /\
    Pal im = mkPal (Some (slice F 54 (bmp_palette (if four then 4 else 8) colours))) (bmp_palette (if four then 4 else 8) colours) IL_PAL_BGR32 /\
    forall x t, in_image im x t 0 0 -> exists unpainted, picture im buf x t 0 0 = colour_of ps x (bmp_row h t) unpainted.
Proof.
  intros four alloc old us ui hb F w h off colours blk p code ps HF HA (U2 & U4) Hw Hh Hm Hcl HS Hoff HC HRS HP EA EP.
  destruct (bmp_head _ _ _ _ _ _ _ HF) as (T & TO & TS & TW & TH & TP & TB & TC & TCl). destruct HF as (HFL & HFB & _ & _ & _ & _ & Hw4 & Hh4 & _).
  assert (HR := proj1 (int4_range F 22 HFB ltac:(lia) ltac:(lia))). rewrite Hh4 in HR.
  unfold ilLoadBmpL, iLoadBitmapInternal, iSetInputLump. rewrite head_in by (auto; lia). cbn [bind]. set (hd := bmp_head_of F) in *.
  assert (CK : iCheckBmp hd = true). { unfold iCheckBmp. rewrite T, TS, TH, TW, TP, TC, TB. cbn [Z.eqb Pos.eqb negb orb andb]. replace ((h =? 0) || (w <? 1)) with false by lia. destruct four; reflexivity. }
  rewrite CK. cbn [negb]. rewrite TP. change (negb (1 =? 1)) with false. cbv iota. rewrite TC. replace (((if four then 2 else 1) =? 0) || ((if four then 2 else 1) =? 3)) with false by (destruct four; reflexivity). replace ((if four then 2 else 1) =? 2) with four by (destruct four; reflexivity).
  unfold ilReadRLEBmp. rewrite TH, TW, TCl, TO. unfold abs_int. replace (h =? -2147483648) with false by lia. cbn [bind]. rewrite (u32_small w) by lia.
  rewrite (init_ok alloc old w (Z.abs h) 1 0 blk) by (auto; rewrite ?Z.mul_1_r; try lia; auto). cbn [bind negb]. rewrite !Z.mul_1_r.
  set (size := bmp_palette (if four then 4 else 8) colours) in *.
  assert (SP : (if four return res Z then Ok 64 else (let! s := clr_bytes colours in Ok (if s =? 0 then 1024 else s))) = Ok size).
  { unfold clr_bytes. replace ((4 * colours <? -2147483648) || (2147483647 <? 4 * colours)) with false by lia. rewrite u32_small by lia. unfold size, bmp_palette. destruct four; cbn [bind Z.eqb Pos.eqb]; [reflexivity|]. destruct (colours =? 0) eqn:E.
    - replace (4 * colours =? 0) with true by lia. reflexivity.
    - replace (4 * colours =? 0) with false by lia. reflexivity. }
  rewrite SP. cbn [bind]. rewrite EP. assert (SZ : 0 < size). { unfold size, bmp_palette. destruct four; cbn [Z.eqb Pos.eqb]; [lia|]. destruct (colours =? 0) eqn:E; lia. }
  unfold with_Origin, with_Format, with_Pal. cbn [Width Height Depth Bpp Bpc Bps Data SizeOfData SizeOfPlane Format Type_ Origin Pal Duration CubeFlags OffX OffY].
  rewrite seek_set_in by lia. cbn [bind]. rewrite read_one by (try lia; apply HA; auto). cbn [bind]. change (negb (1 =? 1)) with false. cbv iota. rewrite seek_set_in by lia. cbn [bind].
  assert (LB := HA _ _ EA). assert (HO := holds_slice F off Hoff). rewrite HC in HO.
  destruct (rle_ok four w (Z.abs h) 0 0 code ps HRS F off [] blk (lump_fuel (Rd F off (zlen F) []))) as (d & r & E & LD & G); try lia; auto.
  { unfold lump_fuel. cbn [rlump]. unfold zlen. lia. }
  replace (0 * w + 0) with 0 in E by lia. replace ((0 + 1) * w) with w in E by lia. rewrite E. cbn [bind]. unfold with_Data. cbn [Width Height Depth Bpp Bpc Bps Data SizeOfData SizeOfPlane Format Type_ Origin Pal Duration CubeFlags OffX OffY].
  eexists _, d, r. split; [reflexivity|]. cbn [Width Height Depth Bpp Bpc Bps Data SizeOfData SizeOfPlane Format Type_ Origin Pal Duration CubeFlags OffX OffY]. split.
  { unfold img_ok. cbn [Width Height Depth Bpp Bpc Bps Data SizeOfData SizeOfPlane Format Type_ Origin Pal Duration CubeFlags OffX OffY]. split; [reflexivity|]. repeat split; try lia. }
  do 8 (split; [reflexivity|]).
  intros x t (Hx & Ht & _). cbn [Width Height Depth Bpp Bpc] in Hx, Ht. unfold picture, pix_off. cbn [Width Height Depth Bpp Bpc Origin].
  assert (RW : (if (if h <? 0 then IL_ORIGIN_UPPER_LEFT else IL_ORIGIN_LOWER_LEFT) =? IL_ORIGIN_UPPER_LEFT then t else Z.abs h - 1 - t) = bmp_row h t). { unfold bmp_row. destruct (h <? 0) eqn:E0; [reflexivity|]. change (IL_ORIGIN_LOWER_LEFT =? IL_ORIGIN_UPPER_LEFT) with false. cbv iota. lia. }
  rewrite RW. assert (BR : 0 <= bmp_row h t < Z.abs h) by (unfold bmp_row; destruct (h <? 0) eqn:E0; lia). eexists. rewrite <- (G x (bmp_row h t) Hx BR). f_equal. lia.
Qed.

(** a picture of 5 x 3 pixels in 4 bits: a run of 3, two literal pixels are not possible (three are the least), so a line with
    a run, the end of the line, a jump, literals and the end *)
Definition ex_rle : list Z := bmp_header 130 118 5 3 4 2 0 ++ repeat 7 64 ++ [3; 33; 0; 0; 0; 2; 1; 1; 0; 3; 69; 96; 0; 1].
Definition ex_ps : list (Z * Z * Z) := painted 0 0 3 (pick true 33) ++ painted 1 2 3 (literal true [69; 96]).
Lemma ex_rle_file : bmp_file ex_rle 5 3 4 2 118 0.
Proof. apply bmp_file_check; reflexivity. Qed.
Lemma ex_rle_stream : rle_stream true 5 3 0 0 [3; 33; 0; 0; 0; 2; 1; 1; 0; 3; 69; 96; 0; 1] ex_ps.
Proof.
  apply (RleRun true 5 3 0 0 3 33 [0; 0; 0; 2; 1; 1; 0; 3; 69; 96; 0; 1]); try lia. apply (RleLine true 5 3 _ 0). apply (RleDelta true 5 3 0 1 1 1); try lia.
  rewrite <- (app_nil_r (painted 1 2 3 _)). apply (RleLiteral true 5 3 1 2 3 [69; 96] [] [0; 1] []); try lia; try reflexivity.
  - apply bytes_Forall. repeat (apply Forall_cons; [lia|]). constructor.
  - apply (RleEnd true 5 3 _ _ []).
Qed.
Example C68_ex : exists im buf r, ilLoadBmpL bmp_alloc ex_old us0 ui0 [] ex_rle = Ok (true, im, r) /\ picture im buf 1 2 0 0 = 1 /\ picture im buf 3 0 0 0 = 6.
Proof.
  destruct (C68_rle_partial true bmp_alloc ex_old us0 ui0 [] ex_rle 5 3 118 0 (repeat 170 15) (repeat 170 64) [3; 33; 0; 0; 0; 2; 1; 1; 0; 3; 69; 96; 0; 1] ex_ps ex_rle_file bmp_alloc_ok stacks0) as (im & buf & r & E & OK & W & H & D & B & C & _ & _ & _ & G);
    [lia|lia|lia|lia|lia|split; [lia|vm_compute; discriminate]|reflexivity|exact ex_rle_stream|vm_compute; discriminate|reflexivity|reflexivity|].
  exists im, buf, r. split; [exact E|]. split.
  - destruct (G 1 2) as (u & ->); [unfold in_image; rewrite W, H, D, B, C; lia|]. reflexivity.
  - destruct (G 3 0) as (u & ->); [unfold in_image; rewrite W, H, D, B, C; lia|]. reflexivity.
Qed.

(** A file that paints nothing loads, and its picture is what was in the memory. *)
Definition ex_none : list Z := bmp_header 120 118 1 1 4 2 0 ++ repeat 7 64 ++ [0; 1].
Theorem C68_unpainted_refuted : forall us ui hb v, stacks us ui -> 0 <= v < 256 -> exists alloc im r, allocator_ok alloc /\ ilLoadBmpL alloc ex_old us ui hb ex_none = Ok (true, im, r) /\ Data im = Some [v].
Proof.
  intros us ui hb v HU Hv. exists (fun n => if n =? 1 then Some [v] else bmp_alloc n). 
  assert (HA : allocator_ok (fun n => if n =? 1 then Some [v] else bmp_alloc n)). { intros n b E. destruct (n =? 1) eqn:E1; [injection E as <-; change (zlen [v]) with 1; lia|apply bmp_alloc_ok; exact E]. }
  unfold ilLoadBmpL, iLoadBitmapInternal, iSetInputLump. rewrite head_in by (try apply HU; vm_compute; intuition discriminate). do 2 eexists. split; [exact HA|]. split; [vm_compute; reflexivity|reflexivity].
Qed.
Print Assumptions C68_rle_partial.
