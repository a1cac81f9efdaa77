(** Reading icons. *)
From Coq Require Import ZArith List Lia Bool.
From Verif Require Import Base Slices BitLemmas Elem Enums Utility Image ImageSpec Lump LumpSpec LumpProofs LumpProps Endian ConvImgProps PcxProofs TgaProofs BmpSpec BmpDecode SgiLoad Small SmallSpec SmallTex Dds DdsProofs Icon IconSpec IconProofs IconBits IconPaint.
Import ListNotations.
Open Scope Z_scope.

Lemma word2_eq : forall F o, word2 F o = geti F o + 256 * geti F (o + 1).
Proof. reflexivity. Qed.
(** a header that begins with 40 is not that of a PNG *)
Lemma not_png : forall F o, bytes F -> 0 <= o -> o + 4 <= zlen F -> int4 F o = 40 -> is_png (slice F (o + 1) 3) = false.
Proof.
  intros F o BF Ho HF E. unfold is_png. rewrite geti_slice by lia. assert (B0 := BF o ltac:(lia)). assert (B1 := BF (o + 1) ltac:(lia)). assert (B2 := BF (o + 2) ltac:(lia)). assert (B3 := BF (o + 2 + 1) ltac:(lia)).
  assert (Z1 : geti F (o + 1) = 0) by (unfold int4, word4 in E; rewrite !word2_eq in E; destruct (_ <? _) in E; lia). rewrite Z.add_0_r. rewrite Z1. reflexivity.
Qed.
Lemma row_ok : forall W b, 1 <= W -> 1 <= b -> W * b + 7 < 2147483648 -> row W b = Ok ((W * b + 7) / 8).
Proof.
  intros W b HW Hb HB. assert (1 <= W * b) by nia. unfold row, int. replace ((-2147483648 <=? W * b) && (W * b <? 2147483648)) with true by lia. cbn [bind]. replace ((-2147483648 <=? W * b + 7) && (W * b + 7 <? 2147483648)) with true by lia. cbn [bind]. rewrite Z.quot_div_nonneg by lia. reflexivity.
Qed.
Lemma lines_ok : forall W b H2, 1 <= W -> 1 <= b -> W * b + 7 < 2147483648 -> 0 <= H2 < 2147483648 -> line_size b W * (H2 / 2) < 4294967296 -> lines ((W * b + 7) / 8) H2 = line_size b W * (H2 / 2).
Proof.
  intros W b H2 HW Hb HB HH HS. assert (1 <= W * b) by nia. unfold lines, padding. set (n := (W * b + 7) / 8) in *. assert (Hn : 0 <= n < 268435456) by (unfold n; lia). rewrite (Z.rem_mod_nonneg n 4) by lia. rewrite Z.rem_mod_nonneg by lia. rewrite (u32_small ((4 - n mod 4) mod 4)) by lia. rewrite (u32_small (n + _)) by lia. rewrite Z.quot_div_nonneg by lia. rewrite (u32_small (H2 / 2)) by lia.
  assert (E : n + (4 - n mod 4) mod 4 = line_size b W) by (unfold line_size; rewrite aligned by lia; reflexivity). rewrite E. apply u32_small. split; [|exact HS]. apply Z.mul_nonneg_nonneg; [rewrite <- E; lia|lia].
Qed.
Section Load.
Variables (alloc : allocator) (png : reader -> res (option icon * reader)) (u4 u2 t3 F : list Z).
Hypothesis (HA : allocator_ok alloc) (HP : plenty alloc) (U4 : zlen u4 = 4) (U2 : zlen u2 = 2) (T3 : zlen t3 = 3) (BF : bytes F) (HF : 0 < zlen F < 2147483648).
Lemma block_ok : forall n p e, 0 <= n -> 0 <= p -> p + n <= zlen F -> ReadBlock alloc n (Rd F p (zlen F) e) = Ok (Some (slice F p n), Rd F (p + n) (zlen F) e).
Proof.
  intros n p e Hn Hp HE. unfold ReadBlock. destruct (alloc n) as [k|] eqn:EK; [|elim (HP n Hn EK)]. rewrite read_in by (auto; lia). cbn [bind]. rewrite Z.eqb_refl. reflexivity.
Qed.
Lemma block_short : forall n p e, 0 <= n < 4294967296 -> 0 <= p <= zlen F -> zlen F < p + n -> exists r, ReadBlock alloc n (Rd F p (zlen F) e) = Ok (None, r).
Proof.
  intros n p e Hn Hp HE. unfold ReadBlock. destruct (alloc n) as [k|] eqn:EK; [|elim (HP n ltac:(lia) EK)]. assert (LK := HA _ _ EK). destruct (read_short F p e k n) as (c & b' & r & E & NE); try lia. rewrite E. cbn [bind]. replace (c =? n) with false by lia. exists r. reflexivity.
Qed.
Lemma pal_pos : forall o, depth (icon_bits F o) -> pal_ok (icon_bits F o) (icon_pal F o) -> 0 <= icon_pal F o.
Proof.
  intros o HB PO. unfold pal_ok in PO. destruct (Z.lt_ge_cases (icon_bits F o) 8) as [C|C]; [specialize (PO C); assert (0 < 2 ^ icon_bits F o) by (apply Z.pow_pos_nonneg; [reflexivity|unfold depth in HB; clear - HB; lia]); clear - PO H; lia|].
  unfold icon_pal. replace (icon_bits F o <? 8) with false by (clear - C; lia). destruct (icon_bits F o =? 8); discriminate.
Qed.
(** the size of the palettes of few colours, as the loader finds it *)
Lemma few_colours : forall o, depth (icon_bits F o) -> icon_bits F o < 8 -> (if int4 F (o + 32) =? 0 then (if icon_bits F o =? 1 then 2 else if icon_bits F o =? 4 then 16 else 0) else int4 F (o + 32)) * 4 = icon_pal F o.
Proof.
  intros o HB C. unfold icon_pal. replace (icon_bits F o <? 8) with true by (clear - C; lia). destruct HB as [E|[E|E]]; [| |exfalso; clear - C E; lia]; rewrite E; destruct (int4 F (o + 32) =? 0); try reflexivity; apply Z.mul_comm.
Qed.
Lemma pal_read : forall o e, 0 <= o -> depth (icon_bits F o) -> pal_ok (icon_bits F o) (icon_pal F o) -> o + 40 + icon_pal F o <= zlen F ->
  ReadPal alloc (icon_bits F o) (int4 F (o + 32)) (Rd F (o + 40) (zlen F) e) = Ok (Some (if icon_bits F o <=? 8 then Some (slice F (o + 40) (icon_pal F o)) else None), Rd F (colours_at (icon_pal F o) o) (zlen F) e).
Proof.
  intros o e Ho HB PO HE. assert (PP := pal_pos o HB PO). unfold ReadPal, colours_at. cbv zeta. destruct (icon_bits F o <? 8) eqn:E.
  - rewrite (few_colours o HB) by (clear - E; lia). unfold pal_ok in PO. assert (PO' := PO ltac:(clear - E; lia)). assert (P2 : 0 < 2 ^ icon_bits F o) by (apply Z.pow_pos_nonneg; [reflexivity|unfold depth in HB; clear - HB; lia]). clear PO. set (k := 2 ^ icon_bits F o) in *. clearbody k. set (n := icon_pal F o) in *. clearbody n. unfold int. replace ((-2147483648 <=? n) && (n <? 2147483648)) with true by (clear - PO' P2; lia). cbn [bind].
    unfold ReadItem. destruct (alloc n) as [q|] eqn:EK; [|elim (HP n PP EK)]. assert (LK := HA _ _ EK). rewrite (u32_small n) by (clear - PO' P2; lia). rewrite read_item1; [|clear - Ho; lia|clear - PO' P2; lia|exact HE|clear - HF; lia|exact LK]. cbn [bind]. change (1 =? 1) with true. cbv iota. replace (icon_bits F o <=? 8) with true by (clear - E; lia). reflexivity.
  - destruct (icon_bits F o =? 8) eqn:E8.
    + assert (N : icon_pal F o = 1024) by (unfold icon_pal; rewrite E, E8; reflexivity). rewrite N in *. rewrite block_ok by (clear - Ho HE; lia). cbn [bind]. replace (icon_bits F o <=? 8) with true by (clear - E8; lia). reflexivity.
    + assert (N : icon_pal F o = 0) by (unfold icon_pal; rewrite E, E8; reflexivity). rewrite N. rewrite Z.add_0_r. replace (icon_bits F o <=? 8) with false by (clear - E E8; lia). reflexivity.
Qed.
Lemma pal_short : forall o e, 0 <= o -> depth (icon_bits F o) -> pal_ok (icon_bits F o) (icon_pal F o) -> o + 40 < zlen F < o + 40 + icon_pal F o ->
  exists r, ReadPal alloc (icon_bits F o) (int4 F (o + 32)) (Rd F (o + 40) (zlen F) e) = Ok (None, r).
Proof.
  intros o e Ho HB PO HE. assert (PP := pal_pos o HB PO). unfold ReadPal. cbv zeta. destruct (icon_bits F o <? 8) eqn:E.
  - rewrite (few_colours o HB) by (clear - E; lia). unfold pal_ok in PO. assert (PO' := PO ltac:(clear - E; lia)). assert (P2 : 0 < 2 ^ icon_bits F o) by (apply Z.pow_pos_nonneg; [reflexivity|unfold depth in HB; clear - HB; lia]). clear PO. set (k := 2 ^ icon_bits F o) in *. clearbody k. set (n := icon_pal F o) in *. clearbody n. unfold int. replace ((-2147483648 <=? n) && (n <? 2147483648)) with true by (clear - PO' P2; lia). cbn [bind].
    unfold ReadItem. destruct (alloc n) as [q|] eqn:EK; [|elim (HP n PP EK)]. assert (LK := HA _ _ EK). rewrite (u32_small n) by (clear - PO' P2; lia).
    rewrite (C21_read F) by (try (split; [reflexivity|cbn; clear - Ho HE; lia]); clear - PO' P2 LK HF; lia). cbn [rpos rerr bind]. cbv zeta. rewrite Z.mul_1_r. rewrite rest_slice.
    match goal with |- context [zlen ?l / n] => assert (L : 0 <= zlen l < n) by (split; [apply zlen_nonneg|]; unfold slice, zlen in *; rewrite firstn_length, skipn_length; clear - HE Ho; lia) end. rewrite (Z.div_small _ n L). change (0 =? 1) with false. eexists. reflexivity.
  - destruct (icon_bits F o =? 8) eqn:E8.
    + assert (N : icon_pal F o = 1024) by (unfold icon_pal; rewrite E, E8; reflexivity). rewrite N in *. destruct (block_short 1024 (o + 40) e ltac:(clear; lia) ltac:(clear - Ho HE; lia) ltac:(clear - HE; lia)) as (r & ->). exists r. reflexivity.
    + assert (N : icon_pal F o = 0) by (unfold icon_pal; rewrite E, E8; reflexivity). rewrite N in HE. exfalso. clear - HE. lia.
Qed.
Lemma icon_read : forall o p e, icon_ok F o -> exists e', ReadIcon alloc png u4 u2 t3 o (Rd F p (zlen F) e) = Ok (Some (icon_at F o), Rd F (icon_end (icon_pal F o) (icon_bits F o) (icon_w F o) (icon_h F o) o) (zlen F) e').
Proof.
  intros o p e (Ho & E40 & HW & HH & HB & PO & WB & SM & HE). unfold ReadIcon.
  assert (b1 : 1 <= icon_bits F o) by (clear - HB; unfold depth in HB; lia). assert (WW : icon_w F o * 1 + 7 < 2147483648) by (clear - HB WB HW; destruct HB as [B|[B|[B|[B|B]]]]; rewrite B in WB; lia).
  assert (P1 : 1 <= line_size 1 (icon_w F o)) by (unfold line_size; lia). assert (Pb : 1 <= line_size (icon_bits F o) (icon_w F o)) by (clear - HB HW; unfold line_size; destruct HB as [-> |[-> |[-> |[-> | ->]]]]; lia).
  assert (Q1 : 0 <= line_size 1 (icon_w F o) * icon_h F o) by (apply Z.mul_nonneg_nonneg; lia). assert (Qb : 1 <= line_size (icon_bits F o) (icon_w F o) * icon_h F o) by (assert (1 * 1 <= line_size (icon_bits F o) (icon_w F o) * icon_h F o) by (apply Z.mul_le_mono_nonneg; lia); lia).
  assert (PB := pal_pos o HB PO).
  assert (IE : icon_end (icon_pal F o) (icon_bits F o) (icon_w F o) (icon_h F o) o = o + 40 + icon_pal F o + line_size (icon_bits F o) (icon_w F o) * icon_h F o + line_size 1 (icon_w F o) * icon_h F o) by reflexivity.
  rewrite seek_set by lia. cbn [bind]. rewrite getc_in by lia. cbn [bind]. rewrite read_item1 by (auto; lia). cbn [bind]. rewrite seek_set by lia. cbn [bind]. rewrite (not_png F o BF Ho) by (auto; lia).
  rewrite gets4 by (auto; lia). cbn [bind]. rewrite gets4 by (auto; lia). cbn [bind]. rewrite gets4 by (auto; lia). cbn [bind]. rewrite gets2 by (auto; lia). cbn [bind]. rewrite gets2 by (auto; lia). cbn [bind]. do 6 (rewrite gets4 by (auto; lia); cbn [bind]).
  rewrite <- !Z.add_assoc. cbn [Z.add Pos.add Pos.succ]. rewrite E40. fold (icon_w F o). fold (icon_bits F o).
  match goal with |- context [iEofLump ?r] => replace (iEofLump r) with false by (unfold iEofLump; cbn [rsize rpos]; replace (zlen F =? 0) with false by lia; symmetry; apply Z.leb_gt; lia) end. cbv iota.
  assert (RP : exists e', ReadPal alloc (icon_bits F o) (int4 F (o + 32)) (Rd F (o + 40) (zlen F) e) = Ok (Some (if icon_bits F o <=? 8 then Some (slice F (o + 40) (icon_pal F o)) else None), Rd F (colours_at (icon_pal F o) o) (zlen F) e')).
  { exists e. apply pal_read; auto. lia. }
  destruct RP as (e' & RP). rewrite RP. cbn [bind]. rewrite row_ok by lia. cbn [bind].
  assert (HH2 : 0 <= int4 F (o + 8) < 2147483648) by (clear - HH BF HE IE PB Q1 Qb Ho; split; [unfold icon_h in HH; lia|]; assert (B0 := BF (o + 8) ltac:(lia)); assert (B1 := BF (o + 8 + 1) ltac:(lia)); assert (B2 := BF (o + 8 + 2) ltac:(lia)); assert (B3 := BF (o + 8 + 2 + 1) ltac:(lia)); unfold int4, word4; rewrite !word2_eq; destruct (_ <? _) eqn:Q; lia).
  change (icon_h F o) with (int4 F (o + 8) / 2) in *. rewrite lines_ok by lia. rewrite block_ok by (unfold colours_at; lia). cbn [bind]. replace (row (icon_w F o) 1) with (Ok ((icon_w F o * 1 + 7) / 8)) by (symmetry; apply row_ok; lia). cbn [bind]. rewrite lines_ok by lia. fold (mask_at (icon_pal F o) (icon_bits F o) (icon_w F o) (int4 F (o + 8) / 2) o). rewrite block_ok by (unfold mask_at, colours_at; lia). cbn [bind]. exists e'. reflexivity.
Qed.
Lemma icon_short : forall o p e, icon_cut F o -> exists r, ReadIcon alloc png u4 u2 t3 o (Rd F p (zlen F) e) = Ok (None, r).
Proof.
  intros o p e (Ho & E40 & HW & HH & HB & PO & WB & SM & HL & HE). unfold ReadIcon.
  assert (b1 : 1 <= icon_bits F o) by (clear - HB; unfold depth in HB; lia). assert (WW : icon_w F o * 1 + 7 < 2147483648) by (clear - HB WB HW; destruct HB as [B|[B|[B|[B|B]]]]; rewrite B in WB; lia).
  assert (P1 : 1 <= line_size 1 (icon_w F o) <= icon_w F o * 4) by (unfold line_size; lia). assert (Pb : 1 <= line_size (icon_bits F o) (icon_w F o) <= icon_w F o * 4) by (clear - HB HW; unfold line_size; destruct HB as [-> |[-> |[-> |[-> | ->]]]]; lia).
  assert (Q1 : 0 <= line_size 1 (icon_w F o) * icon_h F o) by (apply Z.mul_nonneg_nonneg; lia). assert (Qb : 0 <= line_size (icon_bits F o) (icon_w F o) * icon_h F o) by (apply Z.mul_nonneg_nonneg; lia).
  assert (R1 : line_size 1 (icon_w F o) * icon_h F o <= icon_w F o * 4 * icon_h F o) by (apply Z.mul_le_mono_nonneg_r; lia). assert (Rb : line_size (icon_bits F o) (icon_w F o) * icon_h F o <= icon_w F o * 4 * icon_h F o) by (apply Z.mul_le_mono_nonneg_r; lia).
  assert (IE : icon_end (icon_pal F o) (icon_bits F o) (icon_w F o) (icon_h F o) o = o + 40 + icon_pal F o + line_size (icon_bits F o) (icon_w F o) * icon_h F o + line_size 1 (icon_w F o) * icon_h F o) by reflexivity.
  rewrite seek_set by lia. cbn [bind]. rewrite getc_in by lia. cbn [bind]. rewrite read_item1 by (auto; lia). cbn [bind]. rewrite seek_set by lia. cbn [bind]. rewrite (not_png F o BF Ho) by (auto; lia).
  rewrite gets4 by (auto; lia). cbn [bind]. rewrite gets4 by (auto; lia). cbn [bind]. rewrite gets4 by (auto; lia). cbn [bind]. rewrite gets2 by (auto; lia). cbn [bind]. rewrite gets2 by (auto; lia). cbn [bind]. do 6 (rewrite gets4 by (auto; lia); cbn [bind]).
  rewrite <- !Z.add_assoc. cbn [Z.add Pos.add Pos.succ]. rewrite E40. fold (icon_w F o). fold (icon_bits F o).
  match goal with |- context [iEofLump ?r] => replace (iEofLump r) with false by (unfold iEofLump; cbn [rsize rpos]; replace (zlen F =? 0) with false by lia; symmetry; apply Z.leb_gt; lia) end. cbv iota.
  assert (HH2 : 0 <= int4 F (o + 8) < 2147483648) by (clear - HH BF HL Ho; split; [unfold icon_h in HH; lia|]; assert (B0 := BF (o + 8) ltac:(lia)); assert (B1 := BF (o + 8 + 1) ltac:(lia)); assert (B2 := BF (o + 8 + 2) ltac:(lia)); assert (B3 := BF (o + 8 + 2 + 1) ltac:(lia)); unfold int4, word4; rewrite !word2_eq; destruct (_ <? _) eqn:Q; lia).
  change (icon_h F o) with (int4 F (o + 8) / 2) in *.
  assert (RP : (exists r, ReadPal alloc (icon_bits F o) (int4 F (o + 32)) (Rd F (o + 40) (zlen F) e) = Ok (None, r)) \/ (colours_at (icon_pal F o) o <= zlen F /\ exists q, ReadPal alloc (icon_bits F o) (int4 F (o + 32)) (Rd F (o + 40) (zlen F) e) = Ok (Some q, Rd F (colours_at (icon_pal F o) o) (zlen F) e))).
  { unfold colours_at. destruct (Z.le_gt_cases (o + 40 + icon_pal F o) (zlen F)) as [C|C]; [right; split; [exact C|]; eexists; apply pal_read; auto|left; apply pal_short; auto; lia]. }
  assert (PB := pal_pos o HB PO).
  destruct RP as [(r & RP)|(LC & q & RP)]; rewrite RP; cbn [bind]; [exists r; reflexivity|]. rewrite row_ok by lia. cbn [bind]. rewrite lines_ok by lia. unfold colours_at in *.
  destruct (Z.le_gt_cases (o + 40 + icon_pal F o + line_size (icon_bits F o) (icon_w F o) * (int4 F (o + 8) / 2)) (zlen F)) as [C|C].
  - rewrite block_ok by lia. cbn [bind]. replace (row (icon_w F o) 1) with (Ok ((icon_w F o * 1 + 7) / 8)) by (symmetry; apply row_ok; lia). cbn [bind]. rewrite lines_ok by lia.
    destruct (block_short (line_size 1 (icon_w F o) * (int4 F (o + 8) / 2)) (o + 40 + icon_pal F o + line_size (icon_bits F o) (icon_w F o) * (int4 F (o + 8) / 2)) e ltac:(lia) ltac:(lia) ltac:(lia)) as (r & E). rewrite E. exists r. reflexivity.
  - destruct (block_short (line_size (icon_bits F o) (icon_w F o) * (int4 F (o + 8) / 2)) (o + 40 + icon_pal F o) e ltac:(lia) ltac:(lia) ltac:(lia)) as (r & E). rewrite E. exists r. reflexivity.
Qed.
Lemma icons_short : forall offs p e, Forall (fun o => icon_ok F o \/ icon_cut F o) offs -> Exists (icon_cut F) offs -> ReadIcons alloc png u4 u2 t3 offs (Rd F p (zlen F) e) = Ok None.
Proof.
  induction offs as [|o offs IH]; intros p e H X; [inversion X|]. inversion H as [|? ? H1 H2]; subst. cbn [ReadIcons]. destruct H1 as [H1|H1].
  - destruct (icon_read o p e H1) as (e' & E). rewrite E. cbn [bind]. inversion X as [? ? C|? ? X']; subst; [destruct H1 as (_ & _ & _ & _ & _ & _ & _ & _ & L1); destruct C as (_ & _ & _ & _ & _ & _ & _ & _ & _ & L2); lia|]. rewrite (IH _ _ H2 X'). reflexivity.
  - destruct (icon_short o p e H1) as (r & E). rewrite E. reflexivity.
Qed.
Lemma icons_read : forall offs p e, Forall (icon_ok F) offs -> ReadIcons alloc png u4 u2 t3 offs (Rd F p (zlen F) e) = Ok (Some (map (icon_at F) offs)).
Proof.
  induction offs as [|o offs IH]; intros p e H; [reflexivity|]. inversion H as [|? ? H1 H2]; subst. cbn [ReadIcons map]. destruct (icon_read o p e H1) as (e' & E). rewrite E. cbn [bind]. rewrite (IH _ _ H2). reflexivity.
Qed.
Definition offs_from (i : Z) (n : nat) : list Z := map (fun k => icon_off F (i + Z.of_nat k)) (seq 0 n).
Lemma offs_cons : forall i n, offs_from i (S n) = icon_off F i :: offs_from (i + 1) n.
Proof. intros i n. unfold offs_from. cbn [seq map]. rewrite Z.add_0_r. f_equal. rewrite <- seq_shift, map_map. apply map_ext. intros k. f_equal. lia. Qed.
Lemma entries_read : forall n i e, 0 <= i -> 6 + 16 * (i + Z.of_nat n) < zlen F -> exists e', ReadEntries n u4 u2 (Rd F (6 + 16 * i) (zlen F) e) = Ok (Some (offs_from i n), Rd F (6 + 16 * (i + Z.of_nat n)) (zlen F) e').
Proof.
  induction n as [|n IH]; intros i e Hi HE; [exists e; rewrite Z.add_0_r; reflexivity|]. cbn [ReadEntries]. do 4 (rewrite getc_in by lia; cbn [bind]). do 2 (rewrite gets2 by (auto; lia); cbn [bind]). do 2 (rewrite getu4 by (auto; lia); cbn [bind]).
  replace (6 + 16 * i + 1 + 1 + 1 + 1 + 2 + 2 + 4) with (6 + 16 * i + 12) by ring. replace (6 + 16 * i + 12 + 4) with (6 + 16 * (i + 1)) by ring.
  match goal with |- context [iEofLump ?r] => replace (iEofLump r) with false by (unfold iEofLump; cbn [rsize rpos]; replace (zlen F =? 0) with false by lia; symmetry; apply Z.leb_gt; lia) end. cbv iota.
  destruct (IH (i + 1) e ltac:(lia) ltac:(lia)) as (e' & E). rewrite E. cbn [bind]. exists e'. rewrite offs_cons. replace (i + 1 + Z.of_nat n) with (i + Z.of_nat (S n)) by lia. reflexivity.
Qed.
Lemma low_shows : forall W H d px, 1 <= W -> 1 <= H -> W * 4 * H < 4294967296 -> zlen d = W * 4 * H ->
  (forall x y c, 0 <= x < W -> 0 <= y < H -> 0 <= c < 4 -> geti d ((y * W + x) * 4 + c) = px x y c) -> shows (low_img W H 4 IL_BGRA d) W H 4 IL_BGRA (fun x t c => px x (H - 1 - t) c).
Proof.
  clear. intros W H d px HW HH HS L G. exists d. split.
  - unfold img_ok, low_img. cbn [Data Width Height Depth Bpp Bpc Bps SizeOfPlane SizeOfData]. change (2 ^ 32) with 4294967296. repeat match goal with |- _ /\ _ => split end; auto; try lia; try ring.
  - do 7 (split; [reflexivity|]). intros x t c Hx Ht Hc. rewrite <- (G x (H - 1 - t) c Hx ltac:(lia) Hc). unfold picture, pix_off, low_img. cbn [Origin Height Width Bpp Bpc]. change (IL_ORIGIN_LOWER_LEFT =? IL_ORIGIN_UPPER_LEFT) with false. cbv iota. f_equal. ring.
Qed.
Lemma images_ok : forall offs base old, Forall (icon_ok F) offs -> (base = true \/ offs <> []) -> exists ims, Images alloc base old (map (icon_at F) offs) = Ok ims /\ Forall2 (shows_icon F) ims offs.
Proof.
  induction offs as [|o offs IH]; intros base old H NE; [destruct NE as [-> |C]; [|elim C; reflexivity]; exists []; split; [reflexivity|constructor]|]. inversion H as [|? ? H1 H2]; subst. destruct (IH true old H2 (or_introl eq_refl)) as (ims & E & FA).
  assert (K := H1). destruct K as (Ho & _ & HW & HH & HB & _ & WB & SM & HE). cbn [map Images]. rewrite E. set (rest := Images alloc true old (map (icon_at F) offs)). clear IH rest E.
  change (CBits (icon_at F o)) with (icon_bits F o). change (CSize (icon_at F o)) with 40. change (CWidth (icon_at F o)) with (icon_w F o). change (CHeight (icon_at F o)) with (int4 F (o + 8)).
  replace (known (icon_bits F o)) with true by (unfold known; destruct HB as [-> |[-> |[-> |[-> | ->]]]]; reflexivity). cbn [negb]. change (40 =? 0) with false. cbv iota zeta. assert (I8 : 0 <= int4 F (o + 8)) by (unfold icon_h in HH; lia). rewrite Z.quot_div_nonneg by lia. change (int4 F (o + 8) / 2) with (icon_h F o).
  assert (B1 : 1 * icon_h F o <= icon_w F o * 4 * icon_h F o) by (apply Z.mul_le_mono_nonneg_r; lia). assert (B2 : icon_w F o * 4 * 1 <= icon_w F o * 4 * icon_h F o) by (apply Z.mul_le_mono_nonneg_l; lia). rewrite (u32_small (icon_w F o)) by (clear - B1 B2 HW HH WB SM; lia). rewrite (u32_small (icon_h F o)) by lia.
  destruct (alloc (icon_w F o * 4 * icon_h F o)) as [blk|] eqn:EK; [|elim (HP (icon_w F o * 4 * icon_h F o) ltac:(lia) EK)]. assert (LB := HA _ _ EK).
  destruct (Paint_ok F o blk BF H1 LB) as (d & ED & LD & G). assert (SH := low_shows (icon_w F o) (icon_h F o) d _ HW HH SM LD G).
  exists (low_img (icon_w F o) (icon_h F o) 4 IL_BGRA d :: ims). split; [|constructor; [exact SH|exact FA]].
  destruct base.
  - rewrite (init_low alloc _ (icon_w F o) (icon_h F o) 4 _ blk) by (auto; lia). cbn [bind negb andb]. change (with_Format (low_img (icon_w F o) (icon_h F o) 4 (ilGetFormatBpp 4) blk) IL_BGRA) with (low_img (icon_w F o) (icon_h F o) 4 IL_BGRA blk). cbn [Data low_img SizeOfData]. rewrite ED. reflexivity.
  - rewrite (init_low alloc _ (icon_w F o) (icon_h F o) 4 _ blk) by (auto; lia). cbn [bind negb andb]. change (with_Origin (low_img (icon_w F o) (icon_h F o) 4 IL_BGRA blk) IL_ORIGIN_LOWER_LEFT) with (low_img (icon_w F o) (icon_h F o) 4 IL_BGRA blk). cbn [Data low_img SizeOfData]. rewrite ED. reflexivity.
Qed.
Lemma load_ok : forall old e, 1 <= icons_in F -> 6 + 16 * icons_in F < zlen F -> (forall i, 0 <= i < icons_in F -> icon_ok F (icon_off F i)) ->
  exists ims, iLoadIconInternal alloc png u4 u2 t3 old (Rd F 0 (zlen F) e) = Ok (true, ims) /\ Forall2 (shows_icon F) ims (offs_from 0 (Z.to_nat (icons_in F))).
Proof.
  intros old e HN HL HI. unfold iLoadIconInternal. do 3 (rewrite gets2 by (auto; lia); cbn [bind]). change (0 + 2 + 2) with 4. change (4 + 2) with 6. fold (icons_in F).
  match goal with |- context [iEofLump ?r] => replace (iEofLump r) with false by (unfold iEofLump; cbn [rsize rpos]; replace (zlen F =? 0) with false by lia; symmetry; apply Z.leb_gt; lia) end. cbv iota.
  destruct (alloc (16 * icons_in F)) eqn:E1; [|elim (HP (16 * icons_in F) ltac:(lia) E1)]. destruct (alloc (64 * icons_in F)) eqn:E2; [|elim (HP (64 * icons_in F) ltac:(lia) E2)].
  destruct (entries_read (Z.to_nat (icons_in F)) 0 e ltac:(lia) ltac:(lia)) as (e' & E). change (6 + 16 * 0) with 6 in E. rewrite E. cbn [bind].
  assert (FO : Forall (icon_ok F) (offs_from 0 (Z.to_nat (icons_in F)))) by (apply Forall_forall; intros o IN; apply in_map_iff in IN; destruct IN as (k & <- & IN); apply in_seq in IN; apply HI; lia).
  rewrite icons_read by exact FO. cbn [bind]. destruct (images_ok (offs_from 0 (Z.to_nat (icons_in F))) false old FO) as (ims & EI & FA); [right; destruct (Z.to_nat (icons_in F)) eqn:Q; [lia|rewrite offs_cons; discriminate]|]. rewrite EI. cbn [bind]. exists ims. auto.
Qed.
Lemma load_short : forall old e, 1 <= icons_in F -> 6 + 16 * icons_in F < zlen F -> (forall i, 0 <= i < icons_in F -> icon_ok F (icon_off F i) \/ icon_cut F (icon_off F i)) -> (exists i, 0 <= i < icons_in F /\ icon_cut F (icon_off F i)) ->
  iLoadIconInternal alloc png u4 u2 t3 old (Rd F 0 (zlen F) e) = Ok (false, [old]).
Proof.
  intros old e HN HL HI (j & Hj & HC). unfold iLoadIconInternal. do 3 (rewrite gets2 by (auto; lia); cbn [bind]). change (0 + 2 + 2) with 4. change (4 + 2) with 6. fold (icons_in F).
  match goal with |- context [iEofLump ?r] => replace (iEofLump r) with false by (unfold iEofLump; cbn [rsize rpos]; replace (zlen F =? 0) with false by lia; symmetry; apply Z.leb_gt; lia) end. cbv iota.
  destruct (alloc (16 * icons_in F)) eqn:E1; [|elim (HP (16 * icons_in F) ltac:(lia) E1)]. destruct (alloc (64 * icons_in F)) eqn:E2; [|elim (HP (64 * icons_in F) ltac:(lia) E2)].
  destruct (entries_read (Z.to_nat (icons_in F)) 0 e ltac:(lia) ltac:(lia)) as (e' & E). change (6 + 16 * 0) with 6 in E. rewrite E. cbn [bind].
  rewrite icons_short; [reflexivity| |].
  - apply Forall_forall. intros o IN. apply in_map_iff in IN. destruct IN as (k & <- & IN). apply in_seq in IN. apply HI. lia.
  - apply Exists_exists. exists (icon_off F j). split; [|exact HC]. apply in_map_iff. exists (Z.to_nat j). split; [f_equal; lia|]. apply in_seq. lia.
Qed.
End Load.
