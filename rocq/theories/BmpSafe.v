(** The bitmap loader on arbitrary files. *)
From Coq Require Import ZArith List Lia Bool.
From Verif Require Import Base Slices BitLemmas Scatter Enums Utility Image ImageSpec ImageProps Elem Flip Lump LumpSpec LumpProofs LumpProps Channels Endian EndianProps Raw RawProps Pcx PcxProofs PcxProps PcxSafe TgaSafe Pal Bmp BmpSpec BmpProofs BmpRows BmpDecode BmpProps.
Import ListNotations.
Open Scope Z_scope.

Lemma read_pos : forall F b s n r, 0 < zlen F < 4294967295 -> on F r -> 0 < s -> 0 <= n -> s * n < 4294967296 -> s * n <= zlen b ->
  exists c b' r', iReadLump b s n r = Ok (c, b', r') /\ on F r' /\ zlen b' = zlen b /\ (bytes F -> bytes b -> bytes b') /\ rpos r <= rpos r' /\ (c = n -> rpos r' = rpos r + s * n) /\ 0 <= c <= n.
Proof.
  intros F b s n r Hm Hr Hs Hn Hw Hb. destruct (RawProps.read_on F b s n r Hm Hr Hs Hn Hw Hb) as (c & b' & r' & E & O & L & B). exists c, b', r'. split; [exact E|]. split; [exact O|]. split; [exact L|]. split; [exact B|].
  rewrite (C21_read F) in E by auto. cbv zeta in E. injection E as <- <- <-. cbn [rpos]. set (got := rest F (rpos r) (s * n)). assert (LG : 0 <= zlen got <= s * n). { unfold got, rest, zlen. rewrite firstn_length. lia. }
  split; [lia|]. assert (zlen got / s * s <= zlen got) by (rewrite Z.mul_comm; apply Z.mul_div_le; lia). split; [intros EC; rewrite EC in H; nia|]. split; [apply Z.div_pos; lia|]. apply Z.div_le_upper_bound; lia.
Qed.
Lemma unle_range : forall l, Forall (fun b => 0 <= b < 256) l -> 0 <= unle l < 256 ^ zlen l.
Proof.
  induction l as [|x l IH]; intros H; [cbn; lia|]. inversion H; subst. specialize (IH H3). cbn [unle]. rewrite zlen_cons. rewrite Z.pow_add_r by (unfold zlen; lia). change (256 ^ 1) with 256. lia.
Qed.
Lemma item_safe : forall F n r, (0 < n <= 4)%nat -> bytes F -> 0 < zlen F < 4294967295 -> on F r ->
  exists ok v r', read_item n r = Ok (ok, v, r') /\ on F r' /\ 0 <= v < 256 ^ Z.of_nat n /\ rpos r <= rpos r' /\ (ok = true -> rpos r' = rpos r + Z.of_nat n).
Proof.
  intros F n r Hn HB Hm Hr. unfold read_item. destruct (read_pos F (repeat 0 n) (Z.of_nat n) 1 r) as (c & b & r' & -> & O & L & B & P & P' & _); auto; try lia. { rewrite zlen_repeat. lia. }
  cbn [bind]. exists (c =? 1), (unle b), r'. split; [reflexivity|]. split; [exact O|]. split.
  - rewrite zlen_repeat in L. rewrite <- L. apply unle_range. apply bytes_Forall. apply B; auto. apply bytes_Forall, Forall_forall. intros x Hx. apply repeat_spec in Hx. lia.
  - split; [exact P|]. intros E. rewrite P' by lia. lia.
Qed.
Lemma pad_safe : forall F n r, 0 <= n <= 4 -> 0 < zlen F < 4294967295 -> on F r -> exists r', read_pad n r = Ok r' /\ on F r' /\ rpos r <= rpos r'.
Proof.
  intros F n r Hn Hm Hr. unfold read_pad. destruct (read_pos F [0; 0; 0; 0] 1 n r) as (c & b & r' & -> & O & _ & _ & P & _); auto; try lia. { change (zlen [0; 0; 0; 0]) with 4. lia. } cbn [bind]. eauto.
Qed.
Lemma seek_safe : forall F n r, 0 < zlen F < 4294967295 -> on F r -> exists r', seek_pad n r = Ok r' /\ on F r'.
Proof. intros F n r Hm Hr. unfold seek_pad. destruct (seek_on F r n Hm Hr) as (c & r' & -> & O). cbn [bind]. eauto. Qed.
Lemma set_safe : forall F n r, 0 < zlen F < 2147483648 -> on F r -> 0 <= n -> exists c r', iSeekRLump n IL_SEEK_SET r = Ok (c, r') /\ on F r'.
Proof.
  intros F n [l p s e] Hm (H1 & H2 & H3) Hn. cbn in H1, H2, H3. subst l s. unfold iSeekRLump, seek_lump. cbn [rpos Lump.rsize rlump rerr]. change (IL_SEEK_SET =? IL_SEEK_SET) with true. cbv iota. rewrite i32_small by lia.
  destruct (zlen F <? n) eqn:E; cbn [bind]; do 2 eexists; (split; [reflexivity|]); (split; [reflexivity|split; [reflexivity|cbn; try rewrite u32_small by lia; lia]]).
Qed.
(** what the pixel loops keep *)
Definition good (F : list Z) (L : Z) (s : list Z * reader) : Prop := zlen (fst s) = L /\ on F (snd s).

Definition ends (F : list Z) (L : Z) (m : res (bool * pix)) : Prop := exists ok s, m = Ok (ok, s) /\ good F L s.

Lemma row1_safe : forall fuel F L W base i d r, 0 <= i -> 0 <= base -> base + W <= L -> L < 4294967296 -> bytes F -> 0 < zlen F < 4294967295 -> W - i <= Z.of_nat fuel -> good F L (d, r) ->
  ends F L (row1 fuel W base i d r).
Proof.
  induction fuel as [|fuel IH]; intros F L W base i d r Hi Hb HW HL HB Hm Hf (Hd & Hr); cbn [fst snd] in *; cbn [row1].
  - replace (i <? W) with false by lia. do 2 eexists. split; [reflexivity|]. split; auto.
  - destruct (i <? W) eqn:E. 2: { do 2 eexists. split; [reflexivity|]. split; auto. }
    destruct (item_safe F 1 r ltac:(lia) HB Hm Hr) as (ok & v & r' & -> & O & _). cbn [bind]. destruct ok; cbn [negb]. 2: { do 2 eexists. split; [reflexivity|]. split; auto. }
    destruct (put_bits_ok 8 v W base i d) as (d1 & E1 & F1); try lia. change (2 ^ (Z.of_nat 8 - 1)) with 128 in E1. rewrite E1. cbn [bind]. apply IH; auto; try lia. split; [cbn; rewrite (proj1 F1); exact Hd|exact O].
Qed.
Lemma row4_safe : forall fuel F L W base i d r, 0 <= i -> 0 <= base -> base + W <= L -> L < 4294967296 -> bytes F -> 0 < zlen F < 4294967295 -> W - i <= Z.of_nat fuel -> good F L (d, r) ->
  ends F L (row4 fuel W base i d r).
Proof.
  induction fuel as [|fuel IH]; intros F L W base i d r Hi Hb HW HL HB Hm Hf (Hd & Hr); cbn [fst snd] in *; cbn [row4].
  - replace (i <? W) with false by lia. do 2 eexists. split; [reflexivity|]. split; auto.
  - destruct (i <? W) eqn:E. 2: { do 2 eexists. split; [reflexivity|]. split; auto. }
    destruct (item_safe F 1 r ltac:(lia) HB Hm Hr) as (ok & v & r' & -> & O & _). cbn [bind]. destruct ok; cbn [negb]. 2: { do 2 eexists. split; [reflexivity|]. split; auto. }
    rewrite u32_small by lia. rewrite wr_ok by lia. cbn [bind]. destruct (i + 1 =? W) eqn:E1. { do 2 eexists. split; [reflexivity|]. split; [cbn; rewrite zlen_upd; lia|exact O]. }
    rewrite u32_small by lia. rewrite wr_ok by (rewrite zlen_upd; lia). cbn [bind]. apply IH; auto; try lia. split; [cbn; rewrite !zlen_upd by (rewrite ?zlen_upd by lia; lia); exact Hd|exact O].
Qed.
Definition skips_safe (skip : Z -> reader -> res reader) : Prop := forall F n r, 0 <= n <= 4 -> 0 < zlen F < 4294967295 -> on F r -> exists r', skip n r = Ok r' /\ on F r'.
Lemma skips_safe_read : skips_safe read_pad.
Proof. intros F n r Hn Hm Hr. destruct (pad_safe F n r Hn Hm Hr) as (r' & E & O & _). eauto. Qed.
Lemma skips_safe_seek : skips_safe seek_pad.
Proof. intros F n r Hn Hm Hr. apply seek_safe; auto. Qed.

Lemma rows1_safe : forall skip F L W H d r, skips_safe skip -> 0 < W -> 0 <= H -> H * W <= L -> L < 4294967296 -> bytes F -> 0 < zlen F < 4294967295 -> good F L (d, r) -> ends F L (rows1 skip W H d r).
Proof.
  intros skip F L W H d r SK HW HH HS HL HB Hm HG. unfold rows1. apply (until_safe (good F L)); [exact HG|]. intros j (d1, r1) Hj HG1. rewrite Z2Nat.id in Hj by lia. assert (J : 0 <= j * W /\ j * W + W <= L) by nia. rewrite u32_small by lia.
  destruct (row1_safe (Z.to_nat W) F L W (j * W) 0 d1 r1) as (ok & (d2, r2) & -> & (L2 & O2)); auto; try lia. cbn [bind]. destruct ok. 2: { do 2 eexists. split; [reflexivity|]. split; auto. }
  destruct (SK F (pad1 W) r2) as (r3 & -> & O3); auto. { unfold pad1. lia. } cbn [bind]. do 2 eexists. split; [reflexivity|]. split; auto.
Qed.
Lemma rows4_safe : forall skip F L W H d r, skips_safe skip -> 0 < W -> 0 <= H -> H * W <= L -> L < 4294967296 -> bytes F -> 0 < zlen F < 4294967295 -> good F L (d, r) -> ends F L (rows4 skip W H d r).
Proof.
  intros skip F L W H d r SK HW HH HS HL HB Hm HG. unfold rows4. apply (until_safe (good F L)); [exact HG|]. intros j (d1, r1) Hj HG1. rewrite Z2Nat.id in Hj by lia. assert (J : 0 <= j * W /\ j * W + W <= L) by nia. rewrite u32_small by lia.
  destruct (row4_safe (Z.to_nat W) F L W (j * W) 0 d1 r1) as (ok & (d2, r2) & -> & (L2 & O2)); auto; try lia. cbn [bind]. destruct ok. 2: { do 2 eexists. split; [reflexivity|]. split; auto. }
  destruct (SK F (pad4 W) r2) as (r3 & -> & O3); auto. { unfold pad4. lia. } cbn [bind]. do 2 eexists. split; [reflexivity|]. split; auto.
Qed.
Lemma rows16_safe : forall m F L W H d r, 0 < W -> 0 <= H -> H * (3 * W) <= L -> L < 4294967296 -> bytes F -> 0 < zlen F < 4294967295 -> good F L (d, r) -> ends F L (rows16 m W H d r).
Proof.
  intros ((mb, mg), mr) F L W H d r HW HH HS HL HB Hm HG. unfold rows16. apply (until_safe (good F L)); [exact HG|]. intros j (d1, r1) Hj HG1. rewrite Z2Nat.id in Hj by lia. assert (J : 0 <= j * W /\ 3 * (j * W) + 3 * W <= L) by nia. remember (j * W) as jw eqn:Ejw.
  match goal with |- context [until (Z.to_nat W) 0 ?b] => destruct (until_safe (good F L) b (Z.to_nat W) 0 (d1, r1) HG1) as (ok & (d2, r2) & -> & (L2 & O2)) end.
  - rewrite Z2Nat.id by lia. intros i (d2, r2) Hi (L2 & O2). cbn [fst snd] in *. destruct (item_safe F 2 r2 ltac:(lia) HB Hm O2) as (ok & v & r' & -> & O & _). cbn [bind]. destruct ok; cbn [negb]. 2: { do 2 eexists. split; [reflexivity|]. split; auto. }
    rewrite !u32_small by lia. destruct (write3 d2 (3 * (jw + i)) (extract v mb) (extract v mg) (extract v mr)) as (W1 & W2 & W3 & FW); [lia|lia|]. rewrite W1. cbn [bind]. rewrite W2. cbn [bind]. rewrite W3. cbn [bind]. do 2 eexists. split; [reflexivity|]. split; [cbn [fst]; rewrite (proj1 FW); exact L2|exact O].
  - cbn [bind]. destruct ok. 2: { do 2 eexists. split; [reflexivity|]. split; auto. } destruct (pad_safe F (padb (u32 (W * 2))) r2) as (r3 & -> & O3 & _); auto. { unfold padb. lia. } cbn [bind]. do 2 eexists. split; [reflexivity|]. split; auto.
Qed.
Lemma row_safe : forall F off n d r, bytes F -> 0 < zlen F < 4294967295 -> on F r -> 0 <= n < 4294967296 -> 0 <= off -> off + n <= zlen d ->
  exists ok d' r', read_row off n d r = Ok (ok, (d', r')) /\ zlen d' = zlen d /\ on F r' /\ rpos r <= rpos r' /\ (ok = true -> rpos r' = rpos r + n).
Proof.
  intros F off n d r HB Hm Hr Hn Ho HL. unfold read_row. assert (LT : zlen (slice d off (zlen d - off)) = zlen d - off) by (apply zlen_slice; lia).
  destruct (read_pos F (slice d off (zlen d - off)) 1 n r) as (c & b & r' & -> & O & L & _ & P & P' & _); auto; try lia. cbn [bind]. do 3 eexists. split; [reflexivity|]. split; [apply zlen_splice; lia|]. split; [exact O|]. split; [exact P|]. intros E. rewrite P' by lia. lia.
Qed.
Lemma block_safe : forall F off n d r, bytes F -> 0 < zlen F < 4294967295 -> on F r -> 0 < n < 4294967296 -> 0 <= off -> off + n <= zlen d ->
  exists ok d' r', read_block off n d r = Ok (ok, (d', r')) /\ zlen d' = zlen d /\ on F r' /\ rpos r <= rpos r'.
Proof.
  intros F off n d r HB Hm Hr Hn Ho HL. unfold read_block. assert (LT : zlen (slice d off (zlen d - off)) = zlen d - off) by (apply zlen_slice; lia).
  destruct (read_pos F (slice d off (zlen d - off)) n 1 r) as (c & b & r' & -> & O & L & _ & P & P' & _); auto; try lia. cbn [bind]. do 3 eexists. split; [reflexivity|]. split; [apply zlen_splice; lia|]. split; [exact O|exact P].
Qed.
Lemma rows8_safe : forall fuel F L Bps H y d r, 0 < Bps -> 0 <= y -> Bps * H <= L -> L < 4294967296 -> bytes F -> 0 < zlen F < 4294967295 -> zlen F - rpos r < Z.of_nat fuel -> good F L (d, r) -> ends F L (rows8 fuel Bps (Bps * H) (y * Bps) d r).
Proof.
  induction fuel as [|fuel IH]; intros F L Bps H y d r Hb Hy HL Hl HB Hm Hf (Hd & Hr); cbn [fst snd] in *; cbn [rows8]; assert (PP := proj2 (proj2 Hr)).
  - lia.
  - destruct (y * Bps <? Bps * H) eqn:E. 2: { do 2 eexists. split; [reflexivity|]. split; auto. }
    assert (y < H) by nia. assert (Y : y * Bps + Bps <= Bps * H) by nia. assert (Y0 : 0 <= y * Bps) by nia.
    destruct (row_safe F (y * Bps) Bps d r) as (ok & d1 & r1 & -> & L1 & O1 & P1 & P1'); auto; try lia. cbn [bind]. destruct ok; cbn [negb]. 2: { do 2 eexists. split; [reflexivity|]. split; [cbn; lia|exact O1]. }
    destruct (pad_safe F (4 - Bps mod 4) r1) as (r2 & -> & O2 & P2); auto; try lia. cbn [bind]. rewrite u32_small by lia. replace (y * Bps + Bps) with ((y + 1) * Bps) by lia. specialize (P1' eq_refl). apply IH; auto; try lia. split; [cbn; lia|exact O2].
Qed.
Lemma rows32_safe : forall fuel m F L N t d r, 0 <= t -> 3 * N <= L -> L < 4294967296 -> bytes F -> 0 < zlen F < 4294967295 -> zlen F - rpos r < Z.of_nat fuel -> good F L (d, r) -> ends F L (rows32 fuel m (3 * N) (3 * t) d r).
Proof.
  induction fuel as [|fuel IH]; intros ((mb, mg), mr) F L N t d r Ht HL Hl HB Hm Hf (Hd & Hr); cbn [fst snd] in *; cbn [rows32]; assert (PP := proj2 (proj2 Hr)).
  - lia.
  - destruct (3 * t <? 3 * N) eqn:E. 2: { do 2 eexists. split; [reflexivity|]. split; auto. }
    destruct (item_safe F 4 r ltac:(lia) HB Hm Hr) as (ok & v & r1 & -> & O1 & _ & P1 & P1'). cbn [bind]. destruct ok; cbn [negb]. 2: { do 2 eexists. split; [reflexivity|]. split; auto. }
    rewrite !(u32_small (3 * t + _)) by lia. destruct (write3 d (3 * t) (extract v mb) (extract v mg) (extract v mr)) as (W1 & W2 & W3 & FW); [lia|lia|]. rewrite W1. cbn [bind]. rewrite W2. cbn [bind]. rewrite W3. cbn [bind].
    replace (3 * t + 3) with (3 * (t + 1)) by lia. specialize (P1' eq_refl). apply IH; auto; try lia. split; [cbn [fst]; rewrite (proj1 FW); exact Hd|exact O1].
Qed.
Lemma os2_rows_safe : forall F L Bps H d r, 0 < Bps -> 0 <= H -> H * Bps <= L -> L < 4294967296 -> bytes F -> 0 < zlen F < 4294967295 -> good F L (d, r) -> ends F L (os2_rows Bps H d r).
Proof.
  intros F L Bps H d r HW HH HS HL HB Hm HG. unfold os2_rows. apply (until_safe (good F L)); [exact HG|]. intros j (d1, r1) Hj (L1 & O1). cbn [fst snd] in *. rewrite Z2Nat.id in Hj by lia. assert (J : 0 <= j * Bps /\ j * Bps + Bps <= L) by nia. rewrite u32_small by lia.
  destruct (row_safe F (j * Bps) Bps d1 r1) as (ok & d2 & r2 & -> & L2 & O2 & _); auto; try lia. cbn [bind]. destruct ok. 2: { do 2 eexists. split; [reflexivity|]. split; [cbn; lia|auto]. }
  destruct (seek_safe F (padb Bps) r2) as (r3 & -> & O3); auto. cbn [bind]. do 2 eexists. split; [reflexivity|]. split; [cbn; lia|auto].
Qed.

(** ** Run-length codes *)
Lemma pair_bytes : forall v, 0 <= v < 256 ^ Z.of_nat 2 -> 0 <= v mod 256 < 256 /\ 0 <= v / 256 < 256.
Proof. intros v Hv. change (256 ^ Z.of_nat 2) with 65536 in Hv. lia. Qed.
Lemma rle8_safe : forall fuel F L W off eol d r, 0 <= off -> 0 <= eol -> 0 <= W -> L < 4294967296 -> bytes F -> 0 < zlen F < 4294967295 -> zlen F - rpos r < Z.of_nat fuel -> good F L (d, r) -> ends F L (rle8 fuel W L off eol d r).
Proof.
  induction fuel as [|fuel IH]; intros F L W off eol d r Ho He HW Hl HB Hm Hf (Hd & Hr); cbn [fst snd] in *; cbn [rle8]; assert (PP := proj2 (proj2 Hr)); [lia|].
  destruct (off <? L) eqn:E. 2: { do 2 eexists. split; [reflexivity|]. split; auto. }
  destruct (item_safe F 2 r ltac:(lia) HB Hm Hr) as (ok & v & r1 & -> & O1 & V & P1 & P1'). cbn [bind]. destruct ok; cbn [negb]. 2: { do 2 eexists. split; [reflexivity|]. split; auto. }
  specialize (P1' eq_refl). destruct (pair_bytes v V) as (V0 & V1). set (b0 := v mod 256) in *. set (b1 := v / 256) in *. clearbody b0 b1. clear V.
  destruct (b0 =? 0) eqn:EB0.
  - destruct (b1 =? 0) eqn:EB1; [apply IH; auto; try lia; split; auto|]. destruct (b1 =? 1) eqn:EB2; [apply IH; auto; try lia; split; auto|]. destruct (b1 =? 2) eqn:EB3.
    + destruct (item_safe F 2 r1 ltac:(lia) HB Hm O1) as (ok & v2 & r2 & -> & O2 & V2 & P2 & P2'). cbn [bind]. destruct ok; cbn [negb]. 2: { do 2 eexists. split; [reflexivity|]. split; auto. }
      assert (R1 := u32_range (v2 mod 256 + v2 / 256 * W)). assert (R2 := u32_range (v2 / 256 * W)). apply IH; auto; try lia. split; auto.
    + destruct (block_safe F off (Z.min b1 (L - off)) d r1) as (ok & d2 & r2 & -> & L2 & O2 & P2); auto; try lia. cbn [bind]. destruct ok; cbn [negb]. 2: { do 2 eexists. split; [reflexivity|]. split; [cbn; lia|auto]. }
      destruct (Z.odd (Z.min b1 (L - off))).
      * destruct (item_safe F 1 r2 ltac:(lia) HB Hm O2) as (ok & v3 & r3 & -> & O3 & _ & P3 & _). cbn [bind]. destruct ok; cbn [negb]. 2: { do 2 eexists. split; [reflexivity|]. split; [cbn; lia|auto]. } apply IH; auto; try lia. split; [cbn; lia|auto].
      * apply IH; auto; try lia. split; [cbn; lia|auto].
  - destruct (memset_spec d off b1 (Z.min b0 (L - off))) as (d2 & -> & L2 & _); try lia. cbn [bind]. apply IH; auto; try lia. split; [cbn; lia|auto].
Qed.
Lemma lit4_safe : forall n F L i b0 off d r, 0 <= off -> off + Z.of_nat n <= L -> bytes F -> 0 < zlen F < 4294967295 -> good F L (d, r) ->
  exists ok d' r', lit4 n i b0 off d r = Ok (ok, (d', r')) /\ good F L (d', r') /\ rpos r <= rpos r'.
Proof.
  induction n as [|n IH]; intros F L i b0 off d r Ho HL HB Hm (Hd & Hr); cbn [fst snd] in *; cbn [lit4].
  - do 3 eexists. split; [reflexivity|]. split; [split; auto|lia].
  - assert (ST : exists ok v r1, (if Z.odd i then Ok (true, b0, r) else read_item 1 r) = Ok (ok, v, r1) /\ on F r1 /\ rpos r <= rpos r1).
    { destruct (Z.odd i); [do 3 eexists; split; [reflexivity|]; split; [auto|lia]|]. destruct (item_safe F 1 r ltac:(lia) HB Hm Hr) as (ok & v & r1 & -> & O & _ & P & _). eauto 10. }
    destruct ST as (ok & v & r1 & -> & O & P). cbn [bind]. destruct ok; cbn [negb]. 2: { do 3 eexists. split; [reflexivity|]. split; [split; auto|lia]. }
    rewrite wr_ok by lia. cbn [bind]. match goal with |- context [lit4 n _ _ _ ?dd _] => destruct (IH F L (i + 1) v (off + 1) dd r1) as (ok & d' & r' & -> & G & P2); auto; try lia end.
    { split; [cbn; rewrite zlen_upd; lia|auto]. } do 3 eexists. split; [reflexivity|]. split; [auto|lia].
Qed.
Lemma rle4_safe : forall fuel F L W off eol d r, 0 <= off -> 0 <= eol -> 0 <= W -> L < 4294967296 -> bytes F -> 0 < zlen F < 4294967295 -> zlen F - rpos r < Z.of_nat fuel -> good F L (d, r) -> ends F L (rle4 fuel W L off eol d r).
Proof.
  induction fuel as [|fuel IH]; intros F L W off eol d r Ho He HW Hl HB Hm Hf (Hd & Hr); cbn [fst snd] in *; cbn [rle4]; assert (PP := proj2 (proj2 Hr)); [lia|].
  destruct (off <? L) eqn:E. 2: { do 2 eexists. split; [reflexivity|]. split; auto. }
  destruct (item_safe F 2 r ltac:(lia) HB Hm Hr) as (ok & v & r1 & -> & O1 & V & P1 & P1'). cbn [bind]. destruct ok; cbn [negb]. 2: { do 2 eexists. split; [reflexivity|]. split; auto. }
  specialize (P1' eq_refl). destruct (pair_bytes v V) as (V0 & V1). set (b0 := v mod 256) in *. set (b1 := v / 256) in *. clearbody b0 b1. clear V.
  destruct (b0 =? 0) eqn:EB0.
  - destruct (b1 =? 0) eqn:EB1; [apply IH; auto; try lia; split; auto|]. destruct (b1 =? 1) eqn:EB2; [apply IH; auto; try lia; split; auto|]. destruct (b1 =? 2) eqn:EB3.
    + destruct (item_safe F 2 r1 ltac:(lia) HB Hm O1) as (ok & v2 & r2 & -> & O2 & V2 & P2 & P2'). cbn [bind]. destruct ok; cbn [negb]. 2: { do 2 eexists. split; [reflexivity|]. split; auto. }
      assert (R1 := u32_range (v2 mod 256 + v2 / 256 * W)). assert (R2 := u32_range (v2 / 256 * W)). apply IH; auto; try lia. split; auto.
    + destruct (lit4_safe (Z.to_nat (Z.min b1 (L - off))) F L 0 b0 off d r1) as (ok & d2 & r2 & -> & (L2 & O2) & P2); auto; try lia. { split; auto. } cbn [fst snd] in *. cbn [bind]. destruct ok; cbn [negb]. 2: { do 2 eexists. split; [reflexivity|]. split; [cbn; lia|auto]. }
      destruct ((b1 mod 4 =? 1) || (b1 mod 4 =? 2)).
      * destruct (item_safe F 1 r2 ltac:(lia) HB Hm O2) as (ok & v3 & r3 & -> & O3 & _ & P3 & _). cbn [bind]. destruct ok; cbn [negb]. 2: { do 2 eexists. split; [reflexivity|]. split; [cbn; lia|auto]. } apply IH; auto; try lia. split; [cbn; lia|auto].
      * apply IH; auto; try lia. split; [cbn; lia|auto].
  - match goal with |- context [loop 0 ?n ?f d] => destruct (loop_rule _ (fun _ s => zlen s = L) 0 n f d) as (d2 & -> & L2) end; [lia|exact Hd| |].
    + intros k st Hk Hs. rewrite wr_ok by lia. eexists. split; [reflexivity|]. rewrite zlen_upd; lia.
    + cbn [bind]. apply IH; auto; try lia. split; [cbn; lia|auto].
Qed.

(** ** The whole loader *)
Lemma fuel_enough : forall F r, on F r -> zlen F - rpos r < Z.of_nat (lump_fuel r).
Proof. intros F r (E1 & E2 & E3). unfold lump_fuel. rewrite E1. unfold zlen in *. lia. Qed.
Lemma masks_safe : forall F h def r, 0 < zlen F < 2147483648 -> on F r -> (biCompression h = 3 -> 12 <= bfDataOff h) -> exists m r', bmp_masks h def r = Ok (m, r') /\ on F r'.
Proof.
  intros F h ((b, g), rd0) r Hm Hr H3. unfold bmp_masks. destruct (biCompression h =? 3) eqn:E; [|eauto]. specialize (H3 ltac:(lia)). unfold int_sub. replace (bfDataOff h - 12 <? -2147483648) with false by lia. cbn [bind].
  destruct (set_safe F (bfDataOff h - 12) r Hm Hr ltac:(lia)) as (c & r1 & -> & O1). cbn [bind].
  destruct (get_on F 4 (le 4 (fst rd0)) r1 ltac:(lia) O1 ltac:(lia) eq_refl) as (v1 & r2 & -> & O2). cbn [bind].
  destruct (get_on F 4 (le 4 (fst g)) r2 ltac:(lia) O2 ltac:(lia) eq_refl) as (v2 & r3 & -> & O3). cbn [bind].
  destruct (get_on F 4 (le 4 (fst b)) r3 ltac:(lia) O3 ltac:(lia) eq_refl) as (v3 & r4 & -> & O4). cbn [bind]. eauto.
Qed.
Lemma pixels_safe : forall h W H bpp pal fmt org od d F r, case (biBitCount h) [1; 4; 8; 16; 24; 32] = true -> bpp = bmp_bpp (biBitCount h) -> (biCompression h = 3 -> 12 <= bfDataOff h) ->
  1 <= W -> 1 <= H -> W * bpp * H < 4294967296 -> zlen d = W * bpp * H -> bytes F -> on F r -> 0 < zlen F < 2147483648 ->
  let im := mkImg W H 1 bpp 1 (W * bpp) od (W * bpp * H) (W * bpp * H) fmt IL_UNSIGNED_BYTE org pal 0 0 0 0 in
  ends F (zlen d) (bmp_pixels h im d r).
Proof.
  intros h W H bpp pal fmt org od d F r HB Hbpp H3 HW HH HS Hd HBy Hr HFl im. unfold bmp_pixels. cbn [Width Height Bps SizeOfPlane SizeOfData im]. clear im. unfold bmp_bpp in Hbpp. set (b := biBitCount h) in *.
  assert (BB : b = 1 \/ b = 4 \/ b = 8 \/ b = 16 \/ b = 24 \/ b = 32) by (unfold case in HB; cbn in HB; lia).
  assert (WB : 0 < W * bpp <= W * bpp * H) by (destruct (16 <=? b); nia). assert (HG : good F (zlen d) (d, r)) by (split; auto). assert (Fm : 0 < zlen F < 4294967295) by lia.
  assert (R8 : ends F (zlen d) (if padb (W * bpp) =? 0 then read_row 0 (W * bpp * H) d r else rows8 (lump_fuel r) (W * bpp) (W * bpp * H) 0 d r)).
  { destruct (padb (W * bpp) =? 0).
    - destruct (row_safe F 0 (W * bpp * H) d r) as (ok & d' & r' & -> & L & O & _); auto; try lia. do 2 eexists. split; [reflexivity|]. split; auto.
    - apply (rows8_safe (lump_fuel r) F (zlen d) (W * bpp) H 0 d r); auto; try lia. apply fuel_enough; auto. }
  destruct BB as [Eb|[Eb|[Eb|[Eb|[Eb|Eb]]]]]; rewrite Eb in *; cbn [Z.leb Z.compare Pos.compare Pos.compare_cont] in Hbpp; cbn [Z.eqb Pos.eqb orb].
  - apply rows1_safe; auto using skips_safe_read; lia.
  - apply rows4_safe; auto using skips_safe_read; lia.
  - exact R8.
  - destruct (masks_safe F h masks16 r HFl Hr H3) as (m & r1 & -> & O1). cbn [bind]. apply rows16_safe; auto; try lia. split; auto.
  - exact R8.
  - destruct (masks_safe F h masks32 r HFl Hr H3) as (m & r1 & -> & O1). cbn [bind]. replace (W * bpp * H) with (3 * (W * H)) by lia. apply (rows32_safe (lump_fuel r1) m F (zlen d) (W * H) 0); auto; try lia; [apply fuel_enough; auto|split; auto].
Qed.

(** the image left behind: nothing was changed, or there are no pixels, or the image is exact *)
Definition left_ok (old im : img) : Prop := im = old \/ Data im = None \/ exists buf, img_ok im buf.
Lemma img_shape : forall W H bpp d fmt org pal, 1 <= W -> 1 <= H -> 1 <= bpp < 256 -> W * bpp * H < 4294967296 -> zlen d = W * bpp * H ->
  img_ok (mkImg W H 1 bpp 1 (W * bpp) (Some d) (W * bpp * H) (W * bpp * H) fmt IL_UNSIGNED_BYTE org pal 0 0 0 0) d.
Proof. intros. unfold img_ok. cbn [Data Width Height Depth Bpp Bpc Bps SizeOfPlane SizeOfData]. change (2 ^ 32) with 4294967296. repeat split; try lia. Qed.
Lemma init_fail : forall alloc old W H bpp fmt, 1 <= W -> 1 <= H -> 1 <= bpp < 256 -> W * bpp * H < 4294967296 -> alloc (W * bpp * H) = None ->
  exists im e, ilInitImage alloc old W H 1 bpp fmt IL_UNSIGNED_BYTE None = Ok (false, im, e) /\ Data im = None.
Proof.
  intros alloc old W H bpp fmt HW HH HB HS EA. unfold ilInitImage. change (ilGetBpcType IL_UNSIGNED_BYTE) with 1. change (1 =? 0) with false. cbv iota zeta.
  unfold nz1. replace (W =? 0) with false by lia. replace (H =? 0) with false by lia. change (1 =? 0) with false. cbv iota.
  rewrite !Z.mul_1_r. assert (W * bpp <= W * bpp * H) by nia. assert (0 < W * bpp) by nia. rewrite (u32_small (W * bpp)) by lia. rewrite (u32_small (W * bpp * H)) by lia. rewrite (u32_small (W * bpp * H)) by lia.
  rewrite EA. do 2 eexists. split; reflexivity.
Qed.
Definition finishes (old : img) (m : res (bool * img * reader)) : Prop := exists ok im r, m = Ok (ok, im, r) /\ left_ok old im /\ (ok = true -> exists buf, img_ok im buf).

Lemma clr_ok : forall c, -536870912 <= c < 536870912 -> clr_bytes c = Ok (u32 (4 * c)) /\ (c <> 0 -> 0 < u32 (4 * c) < 4294967296) /\ (c = 0 -> u32 (4 * c) = 0).
Proof. intros c Hc. unfold clr_bytes. replace ((4 * c <? -2147483648) || (2147483647 <? 4 * c)) with false by lia. split; [reflexivity|]. unfold u32. lia. Qed.

Lemma uncomp_safe : forall alloc old h F r, allocator_ok alloc -> iCheckBmp h = true -> biCompression h = 0 \/ biCompression h = 3 -> 0 <= bfDataOff h -> (biCompression h = 3 -> 12 <= bfDataOff h) -> -2147483648 < biHeight h < 2147483648 -> biWidth h < 2147483648 ->
  -536870912 <= biClrUsed h < 536870912 -> biWidth h * bmp_bpp (biBitCount h) * Z.abs (biHeight h) < 4294967296 -> bytes F -> on F r -> 0 < zlen F < 2147483648 ->
  finishes old (ilReadUncompBmp alloc old h r).
Proof.
  intros alloc old h F r HA CK HC Hoff H3 HHr HWr Hcl HS HBy Hr HFl. assert (Fm : 0 < zlen F < 4294967295) by lia.
  assert (BB : biBitCount h = 1 \/ biBitCount h = 4 \/ biBitCount h = 8 \/ biBitCount h = 16 \/ biBitCount h = 24 \/ biBitCount h = 32 ). { unfold iCheckBmp in CK. apply andb_prop in CK. destruct CK as (_ & CK). unfold case in CK. cbn in CK. lia. }
  assert (DD : biHeight h <> 0 /\ 1 <= biWidth h) by (unfold iCheckBmp in CK; lia). destruct DD as (Hh & Hw).
  unfold ilReadUncompBmp. set (bits := biBitCount h) in *. set (w := biWidth h) in *. set (hh := biHeight h) in *. set (colours := biClrUsed h) in *. unfold abs_int. replace (hh =? -2147483648) with false by lia. cbn [bind]. rewrite (u32_small w) by lia.
  assert (EB : (if ((if bits <? 8 then 1 else u8 (Z.shiftr bits 3)) =? 2) || ((if bits <? 8 then 1 else u8 (Z.shiftr bits 3)) =? 4) then 3 else (if bits <? 8 then 1 else u8 (Z.shiftr bits 3))) = bmp_bpp bits).
  { destruct BB as [ -> |[ -> |[ -> |[ -> |[ -> | -> ]]]]]; reflexivity. }
  rewrite EB. assert (BP : 1 <= bmp_bpp bits < 256) by (unfold bmp_bpp; destruct (16 <=? bits); lia).
  destruct (alloc (w * bmp_bpp bits * Z.abs hh)) as [blk|] eqn:EA.
  2: { destruct (init_fail alloc old w (Z.abs hh) (bmp_bpp bits) 0) as (im & e & -> & ED); auto; try lia. cbn [bind negb]. do 3 eexists. split; [reflexivity|]. split; [right; left; exact ED|discriminate]. }
  rewrite (init_ok alloc old w (Z.abs hh) (bmp_bpp bits) 0 blk) by (auto; lia). cbn [bind negb]. assert (LB := HA _ _ EA).
  assert (SP : exists size ty, (if bits =? 1 then Ok (8, IL_PAL_BGR32) else if (bits =? 4) || (bits =? 8) then let! s := (if colours =? 0 then Ok 1024 else clr_bytes colours) in Ok (if bits =? 4 then 64 else s, IL_PAL_BGR32) else Ok (0, IL_PAL_NONE)) = Ok (size, ty) /\ ((ty = IL_PAL_NONE /\ size = 0) \/ (ty = IL_PAL_BGR32 /\ 0 < size < 4294967296))).
  { destruct (clr_ok colours Hcl) as (-> & C1 & C0). destruct (colours =? 0) eqn:E0; destruct BB as [ -> |[ -> |[ -> |[ -> |[ -> | -> ]]]]]; cbn [Z.eqb Pos.eqb orb bind]; do 2 eexists; (split; [reflexivity|]); lia. }
  destruct SP as (size & ty & -> & SP). cbn [bind].
  unfold with_Origin, with_Format, with_Pal, with_Data. cbn [Width Height Depth Bpp Bpc Bps Data SizeOfData SizeOfPlane Format Type_ Origin Pal Duration CubeFlags OffX OffY].
  assert (PP : (if ty =? IL_PAL_NONE then Some [] else alloc size) = None \/ exists p, (if ty =? IL_PAL_NONE then Some [] else alloc size) = Some p /\ zlen p = size).
  { destruct SP as [( -> & -> )|( -> & S1)]; cbn [Z.eqb]; [right; exists []; split; reflexivity|]. change (IL_PAL_BGR32 =? IL_PAL_NONE) with false. cbv iota. destruct (alloc size) as [p|] eqn:E; [right; exists p; split; [reflexivity|rewrite (HA _ _ E); lia]|left; reflexivity]. }
  destruct PP as [ -> |(p & -> & LP)].
  { do 3 eexists. split; [reflexivity|]. split; [|discriminate]. right. right. eexists. apply img_shape; auto; lia. }
  destruct (set_safe F 54 r HFl Hr ltac:(lia)) as (c & r1 & -> & O1). cbn [bind].
  destruct (read_pos F p 1 size r1) as (n & p' & r2 & -> & O2 & L2 & _); auto; try lia. cbn [bind].
  assert (SHAPE : forall fmt org, exists pal, (if ty =? IL_PAL_NONE then mkImg w (Z.abs hh) 1 (bmp_bpp bits) 1 (w * bmp_bpp bits) (Some blk) (w * bmp_bpp bits * Z.abs hh) (w * bmp_bpp bits * Z.abs hh) fmt IL_UNSIGNED_BYTE org (mkPal None 0 IL_PAL_NONE) 0 0 0 0
     else mkImg w (Z.abs hh) 1 (bmp_bpp bits) 1 (w * bmp_bpp bits) (Some blk) (w * bmp_bpp bits * Z.abs hh) (w * bmp_bpp bits * Z.abs hh) fmt IL_UNSIGNED_BYTE org (mkPal (Some p') size ty) 0 0 0 0) = mkImg w (Z.abs hh) 1 (bmp_bpp bits) 1 (w * bmp_bpp bits) (Some blk) (w * bmp_bpp bits * Z.abs hh) (w * bmp_bpp bits * Z.abs hh) fmt IL_UNSIGNED_BYTE org pal 0 0 0 0).
  { intros. destruct (ty =? IL_PAL_NONE); eauto. }
  match goal with |- context [if ty =? IL_PAL_NONE then mkImg _ _ _ _ _ _ _ _ _ ?f _ ?o _ _ _ _ _ else _] => destruct (SHAPE f o) as (pal & ->) end. clear SHAPE.
  destruct (negb (n =? size)). { do 3 eexists. split; [reflexivity|]. split; [|discriminate]. right. right. eexists. apply img_shape; auto; lia. }
  destruct (set_safe F (bfDataOff h) r2 HFl O2 Hoff) as (c3 & r3 & -> & O3). cbn [bind].
  match goal with |- context [bmp_pixels h (mkImg _ _ _ _ _ _ ?od _ _ ?f _ ?o _ _ _ _ _) _ _] => destruct (pixels_safe h w (Z.abs hh) (bmp_bpp bits) pal f o od blk F r3) as (ok & (d, r4) & -> & (LD & O4)); auto; try lia end.
  { fold bits. unfold case. cbn. lia. }
  cbn [bind]. cbn [fst] in LD. unfold with_Data. cbn [Width Height Depth Bpp Bpc Bps Data SizeOfData SizeOfPlane Format Type_ Origin Pal Duration CubeFlags OffX OffY].
  do 3 eexists. split; [reflexivity|]. split; [right; right|intros _]; eexists; apply img_shape; auto; lia.
Qed.
Lemma rle_safe : forall four alloc old h F r, allocator_ok alloc -> iCheckBmp h = true -> 0 <= bfDataOff h -> -2147483648 < biHeight h < 2147483648 -> biWidth h < 2147483648 ->
  -536870912 <= biClrUsed h < 536870912 -> biWidth h * Z.abs (biHeight h) < 4294967296 -> bytes F -> on F r -> 0 < zlen F < 2147483648 ->
  finishes old (ilReadRLEBmp four alloc old h r).
Proof.
  intros four alloc old h F r HA CK Hoff HHr HWr Hcl HS HBy Hr HFl. assert (Fm : 0 < zlen F < 4294967295) by lia.
  assert (DD : biHeight h <> 0 /\ 1 <= biWidth h) by (unfold iCheckBmp in CK; lia). destruct DD as (Hh & Hw).
  unfold ilReadRLEBmp. set (w := biWidth h) in *. set (hh := biHeight h) in *. set (colours := biClrUsed h) in *. unfold abs_int. replace (hh =? -2147483648) with false by lia. cbn [bind]. rewrite (u32_small w) by lia.
  assert (HS1 : w * 1 * Z.abs hh < 4294967296) by lia.
  destruct (alloc (w * 1 * Z.abs hh)) as [blk|] eqn:EA.
  2: { destruct (init_fail alloc old w (Z.abs hh) 1 0) as (im & e & -> & ED); auto; try lia. cbn [bind negb]. do 3 eexists. split; [reflexivity|]. split; [right; left; exact ED|discriminate]. }
  rewrite (init_ok alloc old w (Z.abs hh) 1 0 blk) by (auto; lia). cbn [bind negb]. assert (LB := HA _ _ EA).
  assert (SP : exists size, (if four then Ok 64 else let! s := clr_bytes colours in Ok (if s =? 0 then 1024 else s)) = Ok size /\ 0 < size < 4294967296).
  { destruct four; [eexists; split; [reflexivity|lia]|]. destruct (clr_ok colours Hcl) as (-> & C1 & C0). cbn [bind]. eexists. split; [reflexivity|]. destruct (Z.eq_dec colours 0) as [E|E]; [rewrite (C0 E); cbn; lia|]. specialize (C1 E). replace (u32 (4 * colours) =? 0) with false by lia. lia. }
  destruct SP as (size & -> & SP). cbn [bind].
  unfold with_Origin, with_Format, with_Pal, with_Data. cbn [Width Height Depth Bpp Bpc Bps Data SizeOfData SizeOfPlane Format Type_ Origin Pal Duration CubeFlags OffX OffY].
  destruct (alloc size) as [p|] eqn:EP.
  2: { do 3 eexists. split; [reflexivity|]. split; [|discriminate]. right. right. eexists. apply img_shape; auto; lia. }
  assert (LP := HA _ _ EP).
  destruct (set_safe F 54 r HFl Hr ltac:(lia)) as (c & r1 & -> & O1). cbn [bind].
  destruct (read_pos F p size 1 r1) as (n & p' & r2 & -> & O2 & L2 & _); auto; try lia. cbn [bind].
  destruct (negb (n =? 1)). { do 3 eexists. split; [reflexivity|]. split; [|discriminate]. right. right. eexists. apply img_shape; auto; lia. }
  destruct (set_safe F (bfDataOff h) r2 HFl O2 Hoff) as (c3 & r3 & -> & O3). cbn [bind].
  assert (RL : ends F (zlen blk) ((if four then rle4 else rle8) (lump_fuel r3) w (w * 1 * Z.abs hh) 0 w blk r3)).
  { rewrite <- LB. assert (FE := fuel_enough F r3 O3). destruct four; [apply rle4_safe|apply rle8_safe]; auto; try lia; split; auto. }
  destruct RL as (ok & (d, r4) & -> & (LD & O4)). cbn [bind]. cbn [fst] in LD.
  do 3 eexists. split; [reflexivity|]. split; [right; right|intros _]; eexists; apply img_shape; auto; lia.
Qed.
Lemma os2_safe : forall alloc old o F r, allocator_ok alloc -> iCheckOS2 o = true -> 0 <= cx o < 65536 -> 0 <= cy o < 65536 -> 0 <= i32 (oDataOff o) -> cx o * cy o * (if cBitCount o =? 24 then 3 else 1) < 4294967296 ->
  bytes F -> on F r -> 0 < zlen F < 2147483648 -> finishes old (iGetOS2Bmp alloc old o r).
Proof.
  intros alloc old o F r HA CK Hx Hy Hoff HS HBy Hr HFl. assert (Fm : 0 < zlen F < 4294967295) by lia.
  assert (BB : cBitCount o = 1 \/ cBitCount o = 4 \/ cBitCount o = 8 \/ cBitCount o = 24). { unfold iCheckOS2 in CK. apply andb_prop in CK. destruct CK as (_ & CK). unfold case in CK. cbn in CK. lia. }
  assert (DD : cx o <> 0 /\ cy o <> 0) by (unfold iCheckOS2 in CK; lia).
  unfold iGetOS2Bmp. set (bits := cBitCount o) in *. set (w := cx o) in *. set (hh := cy o) in *. set (bpp := if bits =? 24 then 3 else 1) in *.
  assert (BP : 1 <= bpp < 256) by (unfold bpp; destruct (bits =? 24); lia). assert (HS1 : w * bpp * hh < 4294967296) by lia.
  destruct (alloc (w * bpp * hh)) as [blk|] eqn:EA.
  2: { match goal with |- context [ilInitImage _ _ _ _ _ _ ?f _ _] => destruct (init_fail alloc old w hh bpp f) as (im & e & -> & ED); auto; try lia end. cbn [bind negb]. do 3 eexists. split; [reflexivity|]. split; [right; left; exact ED|discriminate]. }
  rewrite (init_ok alloc old w hh bpp _ blk) by (auto; lia). cbn [bind negb]. assert (LB := HA _ _ EA).
  set (size := if bits =? 1 then 6 else if bits =? 4 then 48 else if bits =? 8 then 768 else 0).
  assert (SZ : if bits =? 24 then size = 0 else 0 < size < 1000) by (unfold size; destruct BB as [ -> |[ -> |[ -> | -> ]]]; cbn; lia).
  unfold with_Pal, with_Data. cbn [Width Height Depth Bpp Bpc Bps Data SizeOfData SizeOfPlane Format Type_ Origin Pal Duration CubeFlags OffX OffY].
  assert (PP : (if bits =? 24 then Some [] else alloc size) = None \/ exists p, (if bits =? 24 then Some [] else alloc size) = Some p /\ zlen p = size).
  { destruct (bits =? 24); [right; exists []; split; [reflexivity|rewrite SZ; reflexivity]|]. destruct (alloc size) as [p|] eqn:E; [right; exists p; split; [reflexivity|rewrite (HA _ _ E); lia]|left; reflexivity]. }
  destruct PP as [ -> |(p & -> & LP)].
  { do 3 eexists. split; [reflexivity|]. split; [|discriminate]. right. right. eexists. apply img_shape; auto; lia. }
  assert (RP : exists n p' r1, (if bits =? 24 then Ok (0, p, r) else iReadLump p 1 size r) = Ok (n, p', r1) /\ on F r1).
  { destruct (bits =? 24); [eauto 10|]. destruct (read_pos F p 1 size r) as (n & p' & r2 & -> & O2 & _); auto; try lia. eauto 10. }
  destruct RP as (n & p' & r1 & -> & O1). cbn [bind].
  match goal with |- context [if bits =? 24 then mkImg ?a ?b ?c ?dd ?e ?ff ?g ?hx ?i ?f ?t ?og ?pl ?x1 ?x2 ?x3 ?x4 else mkImg _ _ _ _ _ _ _ _ _ _ _ _ ?pl2 _ _ _ _] =>
    assert (SHAPE : exists pal, (if bits =? 24 then mkImg a b c dd e ff g hx i f t og pl x1 x2 x3 x4 else mkImg a b c dd e ff g hx i f t og pl2 x1 x2 x3 x4) = mkImg a b c dd e ff g hx i f t og pal x1 x2 x3 x4) by (destruct (bits =? 24); eauto) end.
  destruct SHAPE as (pal & ->).
  destruct (negb (n =? size)). { do 3 eexists. split; [reflexivity|]. split; [|discriminate]. right. right. eexists. apply img_shape; auto; lia. }
  destruct (set_safe F (i32 (oDataOff o)) r1 HFl O1 Hoff) as (c3 & r3 & -> & O3). cbn [bind]. cbn [Width Height Depth Bpp Bpc Bps Data SizeOfData SizeOfPlane Format Type_ Origin Pal Duration CubeFlags OffX OffY].
  assert (HG : good F (zlen blk) (blk, r3)) by (split; auto).
  match goal with |- context [bind ?m _] => assert (PX : ends F (zlen blk) m) end.
  { assert (WB : 0 < w * bpp <= w * bpp * hh) by nia. destruct (bits =? 1) eqn:E1. { apply rows1_safe; auto using skips_safe_seek; try lia. replace bpp with 1 in * by (unfold bpp; replace (bits =? 24) with false by lia; reflexivity). lia. }
    destruct (bits =? 4) eqn:E4. { apply rows4_safe; auto using skips_safe_seek; try lia. replace bpp with 1 in * by (unfold bpp; replace (bits =? 24) with false by lia; reflexivity). lia. }
    destruct (padb (w * bpp) =? 0).
    - destruct (row_safe F 0 (w * bpp * hh) blk r3) as (ok & d' & r' & -> & L & O & _); auto; try lia. do 2 eexists. split; [reflexivity|]. split; auto.
    - apply os2_rows_safe; auto; lia. }
  destruct PX as (ok & (d, r4) & -> & (LD & O4)). cbn [bind]. cbn [fst] in LD.
  do 3 eexists. split; [reflexivity|]. split; [right; right|intros _]; eexists; apply img_shape; auto; lia.
Qed.

(** what the header of the file must satisfy (offset 14: the size of the second header, 40 for the Windows version; the
    OS/2 version has 16-bit dimensions at offset 18) *)
Definition bmp_sane (F : list Z) : Prop :=
  0 <= int4 F 10 /\ -2147483636 <= int4 F 14 /\
  word2 F 18 * word2 F 20 * (if word2 F 24 =? 24 then 3 else 1) < 4294967296 /\
  (int4 F 14 = 40 ->
     (int4 F 30 = 3 -> 12 <= int4 F 10) /\ int4 F 22 <> -2147483648 /\ -536870912 <= int4 F 46 < 536870912 /\
     int4 F 18 * (if 16 <=? int2 F 28 then 3 else 1) * Z.abs (int4 F 22) < 4294967296).

(** C66: every file of at least 54 bytes with such a header is loaded or refused without leaving a buffer, the loader
    terminates, and the image it leaves is unchanged, without pixels or exact *)
Theorem C66_safe_partial : forall alloc old us ui hb F, allocator_ok alloc -> stacks us ui -> zlen hb = 26 -> bytes F -> 54 <= zlen F < 2147483648 -> bmp_sane F ->
  exists ok im r, ilLoadBmpL alloc old us ui hb F = Ok (ok, im, r) /\ (im = old \/ Data im = None \/ exists buf, img_ok im buf) /\ (ok = true -> exists buf, img_ok im buf).
Proof.
  intros alloc old us ui hb F HA (U2 & U4) Hhb HB HF (S1 & S2 & S3 & S4). unfold ilLoadBmpL, iLoadBitmapInternal, iSetInputLump. rewrite head_in by (auto; lia). cbn [bind].
  assert (R0 : on F (Rd F 54 (zlen F) [])) by (split; [reflexivity|split; [reflexivity|cbn; lia]]). assert (Fm : 0 < zlen F < 2147483648) by lia.
  destruct (iCheckBmp (bmp_head_of F)) eqn:CK; cbn [negb].
  - destruct (negb (biPlanes (bmp_head_of F) =? 1)). { do 3 eexists. split; [reflexivity|]. split; [left; reflexivity|discriminate]. }
    assert (S40 : int4 F 14 = 40) by (unfold iCheckBmp in CK; cbn [bmp_head_of bfType biSize biHeight biWidth biPlanes biCompression biBitCount] in CK; lia). destruct (S4 S40) as (S5 & S6 & S7 & S8).
    assert (RW := proj1 (int4_range F 18 HB ltac:(lia) ltac:(lia))). assert (RH := proj1 (int4_range F 22 HB ltac:(lia) ltac:(lia))).
    destruct ((biCompression (bmp_head_of F) =? 0) || (biCompression (bmp_head_of F) =? 3)) eqn:EC.
    + apply (uncomp_safe alloc old (bmp_head_of F) F); auto; cbn [bmp_head_of bfDataOff biCompression biHeight biWidth biClrUsed biBitCount] in *; try lia.
    + apply (rle_safe _ alloc old (bmp_head_of F) F); auto; cbn [bmp_head_of bfDataOff biCompression biHeight biWidth biClrUsed biBitCount] in *; try lia.
      assert (WP : 1 <= int4 F 18) by (unfold iCheckBmp in CK; cbn [bmp_head_of bfType biSize biHeight biWidth biPlanes biCompression biBitCount] in CK; lia). destruct (16 <=? int2 F 28); nia.
  - assert (SK : iSeekRLump (-54) IL_SEEK_CUR (Rd F 54 (zlen F) []) = Ok (0, Rd F 0 (zlen F) [])). { unfold iSeekRLump, seek_lump. cbn [rpos Lump.rsize]. change (IL_SEEK_CUR =? IL_SEEK_SET) with false. change (IL_SEEK_CUR =? IL_SEEK_CUR) with true. cbv iota. change (u32 (54 + -54)) with 0. replace (zlen F <? 0) with false by lia. reflexivity. }
    rewrite SK. cbn [bind]. clear SK. unfold iGetOS2Head.
    assert (RD := C21_read F (Rd F 0 (zlen F) []) hb 26 1). rewrite RD by (try (split; [reflexivity|cbn; lia]); lia). clear RD. cbn [rpos rerr]. cbv zeta. change (26 * 1) with 26. rewrite rest_slice.
    assert (LS : zlen (slice F 0 26) = 26) by (apply zlen_slice; lia). rewrite LS. change (26 / 26) with 1. change (1 =? 1) with true. cbn [bind]. rewrite skipn_all2 by (unfold zlen in *; lia). rewrite !app_nil_r. change (0 + 26) with 26. cbn [negb].
    rewrite !slice_slice by lia. cbn [Z.add]. rewrite !unle_word2, !unle_word4 by lia. cbn [cbFix].
    assert (I4 : forall p, 0 <= p -> p + 4 <= zlen F -> i32 (word4 F p) = int4 F p). { intros p Hp HpF. assert (R := proj2 (int4_range F p HB Hp HpF)). unfold int4, i32. destruct (word4 F p <? 2147483648) eqn:E; lia. }
    rewrite I4 by lia. unfold int_sub. replace (int4 F 14 - 12 <? -2147483648) with false by lia. cbn [bind].
    assert (R1 : on F (Rd F 26 (zlen F) [])) by (split; [reflexivity|split; [reflexivity|cbn; lia]]).
    destruct (seek_on F (Rd F 26 (zlen F) []) (int4 F 14 - 12) ltac:(lia) R1) as (c & r2 & -> & O2). change (negb (1 =? 1)) with false. cbv iota. cbn [bind].
    match goal with |- context [iCheckOS2 ?o] => destruct (iCheckOS2 o) eqn:CO end; cbn [negb].
    2: { do 3 eexists. split; [reflexivity|]. split; [left; reflexivity|discriminate]. }
    apply (os2_safe alloc old _ F); auto; cbn [cx cy oDataOff cBitCount]; [apply (int2_range F 18); auto; lia|apply (int2_range F 20); auto; lia|rewrite I4 by lia; exact S1].
Qed.
Print Assumptions C66_safe_partial.

Definition ex_short : list Z := bmp_header 78 54 3 2 24 0 0 ++ [1; 2; 3; 4; 5].
Example C66_ex : exists ok im r, ilLoadBmpL bmp_alloc ex_old us0 ui0 (repeat 0 26) ex_short = Ok (ok, im, r).
Proof.
  assert (B : bytes ex_short) by (apply bytes_Forall; repeat constructor; vm_compute; try discriminate; reflexivity).
  destruct (C66_safe_partial bmp_alloc ex_old us0 ui0 (repeat 0 26) ex_short bmp_alloc_ok stacks0 eq_refl B) as (ok & im & r & E & _).
  - vm_compute. split; [discriminate|reflexivity].
  - repeat split; try (vm_compute; discriminate); vm_compute; reflexivity.
  - eauto.
Qed.
(** an OS/2 bitmap of two 4-bit pixels, which is loaded *)
Definition os2_header (off w h bits : Z) : list Z := [66; 77] ++ little4 0 ++ little4 0 ++ little4 off ++ little4 12 ++ little2 w ++ little2 h ++ little2 1 ++ little2 bits.
Definition ex_os2 : list Z := os2_header 74 2 1 4 ++ repeat 7 48 ++ [0x21; 0; 0; 0].
Example C66_os2_ex : exists im r, ilLoadBmpL bmp_alloc ex_old us0 ui0 (repeat 0 26) ex_os2 = Ok (true, im, r) /\ Data im = Some [2; 1] /\ bmp_sane ex_os2.
Proof. do 2 eexists. split; [vm_compute; reflexivity|]. split; [reflexivity|]. repeat split; try (vm_compute; discriminate); vm_compute; reflexivity. Qed.

(** Without these conditions it is false. *)
Definition exB (off w h bits comp colours : Z) : list Z := bmp_header 0 off w h bits comp colours ++ repeat 1 16.
(** the pixels before the beginning of the file *)
Theorem C66_offset_refuted : ilLoadBmpL bmp_alloc ex_old us0 ui0 (repeat 0 26) (exB (-4) 1 1 24 0 0) = UB.
Proof. vm_compute. reflexivity. Qed.
(** the masks before the beginning of the file *)
Theorem C66_mask_refuted : ilLoadBmpL bmp_alloc ex_old us0 ui0 (repeat 0 26) (exB 11 1 1 16 3 0) = UB.
Proof. vm_compute. reflexivity. Qed.
(** the absolute value of the height *)
Theorem C66_height_refuted : ilLoadBmpL bmp_alloc ex_old us0 ui0 (repeat 0 26) (exB 54 1 2147483648 24 0 0) = UB.
Proof. vm_compute. reflexivity. Qed.
(** the size of the palette *)
Theorem C66_colours_refuted : ilLoadBmpL bmp_alloc ex_old us0 ui0 (repeat 0 26) (exB 54 1 1 8 0 536870912) = UB.
Proof. vm_compute. reflexivity. Qed.
(** 65536 x 65536 pixels: a block of 0 bytes *)
Theorem C66_size_refuted : ilLoadBmpL bmp_alloc ex_old us0 ui0 (repeat 0 26) (exB 62 65536 65536 1 0 0) = UB.
Proof. vm_compute. reflexivity. Qed.
(** an OS/2 bitmap of one 24-bit pixel, 30 bytes: its header is not read, because the file is shorter than the Windows
    header that is tried first; what is loaded depends on uninitialised memory *)
Theorem C66_small_refuted : exists hb hb', zlen hb = 26 /\ zlen hb' = 26 /\
  (exists im r, ilLoadBmpL bmp_alloc ex_old us0 ui0 hb (os2_header 26 1 1 24 ++ [1; 2; 3; 0]) = Ok (false, im, r)) /\
  (exists im r, ilLoadBmpL bmp_alloc ex_old us0 ui0 hb' (os2_header 26 1 1 24 ++ [1; 2; 3; 0]) = Ok (true, im, r)).
Proof.
  exists (repeat 0 26), (os2_header 26 1 1 24). split; [reflexivity|]. split; [reflexivity|]. split; do 2 eexists; vm_compute; reflexivity.
Qed.
