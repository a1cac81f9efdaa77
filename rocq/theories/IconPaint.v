(** The pixels of icons of all depths. *)
From Coq Require Import ZArith List Lia Bool.
From Verif Require Import Base Slices BitLemmas Elem Enums Utility Image ImageSpec BmpSpec Small SmallSpec SmallTex Dds DdsProofs Icon IconSpec IconProofs IconBits.
Import ListNotations.
Open Scope Z_scope.

Definition icon_at (F : list Z) (o : Z) : icon :=
  let W := icon_w F o in let H := icon_h F o in let b := icon_bits F o in let n := icon_pal F o in
  mkIcon 40 W (int4 F (o + 8)) b (if b <=? 8 then Some (slice F (o + 40) n) else None) (Some (slice F (colours_at n o) (line_size b W * H))) (Some (slice F (mask_at n b W H o) (line_size 1 W * H))).
Lemma pads : forall W b, 1 <= W -> 1 <= b -> W * b + 7 < 2147483648 -> u32 (4 - u32 (u32 (W * b) + 7) / 8 mod 4) mod 4 = (4 - (W * b + 7) / 8 mod 4) mod 4.
Proof. intros W b HW Hb HB. assert (1 <= W * b) by nia. rewrite (u32_small (W * b)) by lia. rewrite (u32_small (W * b + 7)) by lia. rewrite u32_small by lia. reflexivity. Qed.
Lemma Paint_ok : forall F o d, bytes F -> icon_ok F o -> zlen d = icon_w F o * 4 * icon_h F o ->
  exists d', Paint (icon_at F o) (icon_w F o * 4 * icon_h F o) d = Ok d' /\ zlen d' = icon_w F o * 4 * icon_h F o /\
    forall x y ch, 0 <= x < icon_w F o -> 0 <= y < icon_h F o -> 0 <= ch < 4 -> geti d' ((y * icon_w F o + x) * 4 + ch) = icon_px F o (icon_pal F o) (icon_bits F o) (icon_w F o) (icon_h F o) x y ch.
Proof.
  intros F o d BF (Ho & _ & HW & HH & HB & PO & WB & SM & HE) Ld. unfold icon_at.
  assert (N8 : icon_bits F o = 8 -> icon_pal F o = 1024) by (unfold icon_pal; intros ->; reflexivity). assert (N0 : 8 < icon_bits F o -> icon_pal F o = 0) by (unfold icon_pal; intros Q; replace (icon_bits F o <? 8) with false by lia; replace (icon_bits F o =? 8) with false by lia; reflexivity). set (W := icon_w F o) in *. set (H := icon_h F o) in *. set (b := icon_bits F o) in *. set (n := icon_pal F o) in *. cbv zeta. set (H2 := int4 F (o + 8)). clearbody W H b H2 n. unfold depth in HB.
  assert (P1 : 1 <= line_size 1 W) by (unfold line_size; lia). assert (Pb : 1 <= line_size b W /\ (8 <= b -> W <= line_size b W)) by (unfold line_size; destruct HB as [-> |[-> |[-> |[-> | ->]]]]; lia). destruct Pb as (Pb1 & Pb).
  assert (Q1 : 0 <= line_size 1 W * H) by (apply Z.mul_nonneg_nonneg; lia). assert (Qb : 0 <= line_size b W * H) by (apply Z.mul_nonneg_nonneg; lia).
  assert (PB : 0 <= n) by (unfold pal_ok in PO; destruct HB as [Q|[Q|[Q|[Q|Q]]]]; rewrite Q in PO; lia). assert (CA : colours_at n o = o + 40 + n) by reflexivity. assert (MA : mask_at n b W H o = colours_at n o + line_size b W * H) by reflexivity. assert (IE : icon_end n b W H o = mask_at n b W H o + line_size 1 W * H) by reflexivity.
  set (msk := slice F (mask_at n b W H o) (line_size 1 W * H)). set (dat := slice F (colours_at n o) (line_size b W * H)). assert (LM : zlen msk = line_size 1 W * H) by (apply zlen_slice; lia). assert (LD : zlen dat = line_size b W * H) by (apply zlen_slice; lia).
  assert (GM : forall i, 0 <= i < line_size 1 W * H -> geti msk i = geti F (mask_at n b W H o + i)) by (intros i Hi; apply geti_slice; lia). assert (GD : forall i, 0 <= i < line_size b W * H -> geti dat i = geti F (colours_at n o + i)) by (intros i Hi; apply geti_slice; lia).
  assert (BD : bytes dat) by (intros i Hi; rewrite GD by lia; apply BF; lia). clearbody msk dat.
  set (new := fun q ch => icon_px F o n b W H (q mod W) (q / W) ch). replace (W * 4 * H) with (W * H * 4) in * by ring.
  assert (FIN : forall d', painted W H new (W * H) d' -> zlen d' = W * H * 4 /\ forall x y ch, 0 <= x < W -> 0 <= y < H -> 0 <= ch < 4 -> geti d' ((y * W + x) * 4 + ch) = icon_px F o n b W H x y ch).
  { intros d' (L & G). split; [exact L|]. intros x y ch Hx Hy Hc. assert ((y + 1) * W <= H * W) by (apply Z.mul_le_mono_nonneg_r; lia). assert (0 <= y * W) by (apply Z.mul_nonneg_nonneg; lia). rewrite G by lia. unfold new. replace ((y * W + x) mod W) with x by (apply (Z.mod_unique _ _ y); lia). replace ((y * W + x) / W) with y by (apply (Z.div_unique _ _ _ x); lia). reflexivity. }
  assert (ND : forall q, 0 <= q < W * H -> 0 <= q mod W < W /\ 0 <= q / W < H) by (intros q Hq; split; [apply Z.mod_pos_bound; lia|split; [apply Z.div_pos; lia|apply Z.div_lt_upper_bound; lia]]).
  unfold Paint. cbn [CWidth CBits]. rewrite (u32_small W) by lia. rewrite pads by lia. replace (u32 (W + 7)) with (u32 (u32 (W * 1) + 7)) by (rewrite Z.mul_1_r, (u32_small W) by lia; reflexivity). rewrite pads by lia. rewrite Z.mul_1_r.
  assert (NA : b <= 24 -> forall q, 0 <= q < W * H -> new q 3 = if Z.testbit (geti msk (q / W * line_size 1 W + (q mod W) / 8)) (7 - (q mod W) mod 8) then 0 else 255).
  { intros Hb q Hq. unfold new, icon_px. cbv zeta. replace (b =? 32) with false by lia. change (3 =? 3) with true. cbv iota. unfold hidden. destruct (ND q Hq) as (X & Y). clear Hq. set (y := q / W) in *. set (x := q mod W) in *. clearbody x y. assert (M1 : (y + 1) * line_size 1 W <= H * line_size 1 W) by (apply Z.mul_le_mono_nonneg_r; clear - Y P1; lia). assert (M2 : 0 <= y * line_size 1 W) by (apply Z.mul_nonneg_nonneg; clear - Y P1; lia). assert (M3 : 0 <= x / 8 < line_size 1 W) by (clear - X; unfold line_size; lia).
    rewrite GM by (clear - M1 M2 M3; lia). rewrite Z.add_assoc. reflexivity. }
  assert (Z0 : forall st, mkPaint d 0 128 0 0 = at_pixel b W st 0 d) by (intros st; unfold at_pixel; rewrite Z.mod_0_l, Z.div_0_l by lia; reflexivity).
  assert (WH0 : 0 <= W * H) by (apply Z.mul_nonneg_nonneg; clear - HW HH; lia).
  assert (Z1 : forall ppb, 0 < ppb -> mid b W ppb 0 0 0 d = mkPaint d 0 128 0 0) by (intros ppb Hp; unfold mid; change (0 / ppb) with 0; reflexivity).
  assert (XY : forall x y, 0 <= x < W -> (y * W + x) mod W = x /\ (y * W + x) / W = y) by (clear; intros x y Hx; split; symmetry; [apply (Z.mod_unique _ _ y); lia|apply (Z.div_unique _ _ _ x); lia]).
  assert (PXL : forall x y, 0 <= x < W -> 0 <= y < H -> 0 <= y * W + x < W * H) by (clear - HW; intros x y Hx Hy; assert (0 <= y * W) by (apply Z.mul_nonneg_nonneg; lia); assert ((y + 1) * W <= H * W) by (apply Z.mul_le_mono_nonneg_r; lia); lia).
  assert (NAX : (forall q, 0 <= q < W * H -> new q 3 = if Z.testbit (geti msk (q / W * line_size 1 W + (q mod W) / 8)) (7 - (q mod W) mod 8) then 0 else 255) -> forall x y, 0 <= x < W -> 0 <= y < H -> new (y * W + x) 3 = if Z.testbit (geti msk (y * line_size 1 W + x / 8)) (7 - x mod 8) then 0 else 255).
  { intros Q x y Hx Hy. rewrite Q by (apply PXL; auto). destruct (XY x y Hx) as (-> & ->). reflexivity. }
  assert (LPL : b < 8 -> 4 * 2 ^ b <= zlen (slice F (o + 40) n)) by (intros Q; rewrite zlen_slice by (clear - Ho PB CA MA IE HE Q1 Qb; lia); apply PO; exact Q).
  assert (NCX : b < 8 -> forall x y ch, 0 <= x < W -> 0 <= y < H -> 0 <= ch < 3 -> new (y * W + x) ch = geti (slice F (o + 40) n) (geti dat (y * line_size b W + x * b / 8) / 2 ^ (8 - b - x * b mod 8) mod 2 ^ b * 4 + ch)).
  { intros Q x y ch Hx Hy Hc. assert (P2 : 0 < 2 ^ b) by (apply Z.pow_pos_nonneg; clear - HB; lia). match goal with |- context [?v mod 2 ^ b * 4 + ch] => assert (MB := Z.mod_pos_bound v (2 ^ b) P2) end.
    rewrite geti_slice; [|clear - Ho; lia|specialize (PO Q); clear - MB PO Hc; lia]. unfold new. destruct (XY x y Hx) as (-> & ->). unfold icon_px. cbv zeta. replace (b =? 32) with false by (clear - Q; lia). replace (b =? 24) with false by (clear - Q; lia). replace (ch =? 3) with false by (clear - Hc; lia).
    assert (XB : 0 <= x * b / 8 < line_size b W) by (clear - HB Q Hx; unfold line_size; destruct HB as [-> |[-> |C]]; [lia|lia|exfalso; lia]).
    assert (M4 : (y + 1) * line_size b W <= H * line_size b W) by (apply Z.mul_le_mono_nonneg_r; clear - Hy Pb1; lia). assert (M5 : 0 <= y * line_size b W) by (apply Z.mul_nonneg_nonneg; clear - Hy Pb1; lia).
    rewrite GD by (clear - XB M4 M5; lia). unfold digit. rewrite Z.add_assoc. f_equal. rewrite (Z.add_assoc (colours_at n o)). ring. }
  destruct HB as [EB|[EB|[EB|[EB|EB]]]].
  - specialize (NA ltac:(clear - EB; lia)). replace (b <=? 8) with true by (clear - EB; lia). replace (b =? 1) with true by (clear - EB; lia).
    assert (G := loop1 dat msk (slice F (o + 40) n) 40 H2 b W H 8 (or_introl (conj EB eq_refl)) HW HH LD LM (LPL ltac:(clear - EB; lia)) new (NAX NA) (NCX ltac:(clear - EB; lia)) EB eq_refl (Z.to_nat (W * H * 4)) 0 0 d). assert (F1 : W * H - (0 * W + 0) <= Z.of_nat (Z.to_nat (W * H * 4))) by (clear - WH0; lia). assert (P0 : painted W H new (0 * W + 0) d) by (split; [exact Ld|intros i ch Hi; clear - Hi; lia]).
    specialize (G ltac:(clear - HW; lia) eq_refl ltac:(clear - HH; lia) ltac:(intros _; reflexivity) P0 F1). destruct G as (s & E & P).
    change ((0 * W + 0) * 4) with 0 in E. rewrite (Z1 8) in E by (clear; lia). rewrite E. cbn [bind]. exists (PD s). split; [reflexivity|exact (FIN _ P)].
  - specialize (NA ltac:(clear - EB; lia)). replace (b <=? 8) with true by (clear - EB; lia). replace (b =? 1) with false by (clear - EB; lia). replace (b =? 4) with true by (clear - EB; lia).
    assert (G := loop4 dat msk (slice F (o + 40) n) 40 H2 b W H 2 (or_intror (conj EB eq_refl)) HW HH LD LM BD (LPL ltac:(clear - EB; lia)) new (NAX NA) (NCX ltac:(clear - EB; lia)) EB eq_refl (Z.to_nat (W * H * 4)) 0 0 d). assert (F1 : W * H - (0 * W + 0) <= Z.of_nat (Z.to_nat (W * H * 4))) by (clear - WH0; lia). assert (P0 : painted W H new (0 * W + 0) d) by (split; [exact Ld|intros i ch Hi; clear - Hi; lia]).
    specialize (G ltac:(clear - HW; lia) eq_refl ltac:(clear - HH; lia) ltac:(intros _; reflexivity) P0 F1). destruct G as (s & E & P).
    change ((0 * W + 0) * 4) with 0 in E. rewrite (Z1 2) in E by (clear; lia). rewrite E. cbn [bind]. exists (PD s). split; [reflexivity|exact (FIN _ P)].
  - clear LPL NCX NAX PO N0. specialize (Pb ltac:(clear - EB; lia)). specialize (NA ltac:(clear - EB; lia)). replace (b =? 1) with false by (clear - EB; lia). replace (b =? 4) with false by (clear - EB; lia). replace (b =? 8) with true by (clear - EB; lia). specialize (N8 EB). rewrite N8 in *. replace (b <=? 8) with true by (clear - EB; lia). set (pl := slice F (o + 40) 1024). assert (LP : zlen pl = 1024) by (apply zlen_slice; clear - Ho CA MA IE HE Q1 Qb; lia).
    assert (GP : forall i, 0 <= i < 1024 -> geti pl i = geti F (o + 40 + i)) by (intros i Hi; apply geti_slice; clear - Ho Hi; lia). clearbody pl.
    destruct (paint_all b W H HW HH ltac:(clear - SM; lia) new (Paint8 (mkIcon 40 W H2 b (Some pl) (Some dat) (Some msk)) W ((4 - (W * b + 7) / 8 mod 4) mod 4) ((4 - (W + 7) / 8 mod 4) mod 4)) (at_pixel b W 1) d Ld) as (d' & E & P); [|rewrite (Z0 1); rewrite E; cbn [bind]; exists d'; split; [reflexivity|exact (FIN d' P)]].
    apply (paint8 dat msk (Some pl) 40 H2 b W H 1) with (pl := pl); auto. intros q ch Hq Hc. unfold new, icon_px. cbv zeta. replace (b =? 32) with false by (clear - EB; lia). replace (ch =? 3) with false by (clear - Hc; lia). replace (b =? 24) with false by (clear - EB; lia). destruct (ND q Hq) as (X1 & Y1). clear Hq. set (y := q / W) in *. set (x := q mod W) in *. clearbody x y. assert (M4 : (y + 1) * line_size b W <= H * line_size b W) by (apply Z.mul_le_mono_nonneg_r; clear - Y1 Pb1; lia). assert (M5 : 0 <= y * line_size b W) by (apply Z.mul_nonneg_nonneg; clear - Y1 Pb1; lia).
    assert (B := BD (y * line_size b W + x) ltac:(rewrite LD; clear - M4 M5 X1 Pb EB; lia)). rewrite GP by (clear - B Hc; lia). rewrite GD by (clear - M4 M5 X1 Pb; lia). unfold digit. rewrite EB. replace (x * 8 / 8) with x by (clear; lia). replace (8 - 8 - x * 8 mod 8) with 0 by (clear; lia). rewrite Z.pow_0_r, Z.div_1_r. change (2 ^ 8) with 256.
    rewrite N8. rewrite EB in B, GD, M4, M5, Pb. rewrite <- (Z.add_assoc (colours_at 1024 o)). rewrite GD in B by (clear - M4 M5 X1 Pb; lia). rewrite Z.mod_small by exact B. f_equal. ring.
  - clear LPL NCX NAX PO N0 N8. specialize (NA ltac:(clear - EB; lia)). replace (b <=? 8) with false by (clear - EB; lia). replace (b =? 1) with false by (clear - EB; lia). replace (b =? 4) with false by (clear - EB; lia). replace (b =? 8) with false by (clear - EB; lia). replace (b =? 24) with true by (clear - EB; lia).
    destruct (paint_all b W H HW HH ltac:(clear - SM; lia) new (Paint24 (mkIcon 40 W H2 b None (Some dat) (Some msk)) W ((4 - (W * b + 7) / 8 mod 4) mod 4) ((4 - (W + 7) / 8 mod 4) mod 4)) (at_pixel b W 3) d Ld) as (d' & E & P); [|rewrite (Z0 3); rewrite E; cbn [bind]; exists d'; split; [reflexivity|exact (FIN d' P)]].
    apply (paint24 dat msk None 40 H2 b W H 3); auto. intros q ch Hq Hc. unfold new, icon_px. cbv zeta. replace (b =? 32) with false by (clear - EB; lia). replace (ch =? 3) with false by (clear - Hc; lia). replace (b =? 24) with true by (clear - EB; lia). destruct (ND q Hq) as (X1 & Y1). clear Hq. set (y := q / W) in *. set (x := q mod W) in *. clearbody x y. assert (M4 : (y + 1) * line_size b W <= H * line_size b W) by (apply Z.mul_le_mono_nonneg_r; clear - Y1 Pb1; lia). assert (M5 : 0 <= y * line_size b W) by (apply Z.mul_nonneg_nonneg; clear - Y1 Pb1; lia).
    assert (M6 : W * 3 <= line_size b W) by (clear - EB HW; unfold line_size; rewrite EB; lia). rewrite GD by (clear - M4 M5 M6 X1 Hc; lia). f_equal. ring.
  - clear LPL NCX NAX PO N0 N8. replace (b <=? 8) with false by (clear - EB; lia). replace (b =? 1) with false by (clear - EB; lia). replace (b =? 4) with false by (clear - EB; lia). replace (b =? 8) with false by (clear - EB; lia). replace (b =? 24) with false by (clear - EB; lia). assert (LS : line_size b W = W * 4) by (clear - EB HW; unfold line_size; rewrite EB; lia).
    destruct (paint_all b W H HW HH ltac:(clear - SM; lia) new (Paint32 (mkIcon 40 W H2 b None (Some dat) (Some msk))) (fun q d => mkPaint d (q * 4) 128 0 0) d Ld) as (d' & E & P); [|change (0 * 4) with 0 in E; rewrite E; cbn [bind]; exists d'; split; [reflexivity|exact (FIN d' P)]].
    intros q d0 Hq P. unfold Paint32. cbn [CData rdp PK PL PA PX PD]. rewrite !rd_ok by (rewrite LD, LS; clear - Hq; lia). cbn [bind].
    assert (NC : forall ch, 0 <= ch < 4 -> new q ch = geti dat (q * 4 + ch)).
    { intros ch Hc. unfold new, icon_px. cbv zeta. replace (b =? 32) with true by (clear - EB; lia). rewrite GD by (rewrite LS; clear - Hq Hc; lia). f_equal. rewrite LS. assert (Q := Z.div_mod q W ltac:(clear - HW; lia)). rewrite Q at 3. ring. }
    destruct (put4_ok W H new q d0 _ _ _ _ Hq P (NC 0 ltac:(lia)) (NC 1 ltac:(lia)) (NC 2 ltac:(lia)) (NC 3 ltac:(lia))) as (d' & E & P'). rewrite Z.add_0_r in E. rewrite E. cbn [bind]. exists d'. split; [|exact P']. f_equal. f_equal. clear; lia.
Qed.
