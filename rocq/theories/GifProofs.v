(** The frames of a GIF file, one after the other. *)
From Coq Require Import ZArith List Lia Bool.
From Verif Require Import Base Slices BitLemmas Elem Enums Utility Image ImageSpec Lump LumpProofs Endian PcxProofs TgaProofs BmpSpec BmpDecode ConvImgProps SmallSpec PnmProofs Gif GifSpec GifBits GifLzw GifFrame GifParts.
Import ListNotations.
Open Scope Z_scope.

Lemma shorts_len : forall n l, length l = (2 * n)%nat -> length (shorts l) = n.
Proof. induction n as [|n IH]; intros l HL; [destruct l; [reflexivity|cbn in HL; lia]|]. destruct l as [|a [|b l]]; cbn in HL; try lia. cbn [shorts length]. rewrite IH; lia. Qed.
Lemma blocks_len : forall data l, sub_blocks data l -> zlen data < zlen l.
Proof. induction 1 as [|a data l Ha SB IH]; [reflexivity|]. rewrite zlen_cons, !zlen_app. lia. Qed.
Lemma codes_bits : forall size D prev cs px, 2 <= size <= 8 -> lzw size D prev cs px -> zlen cs <= total_bits cs.
Proof.
  intros size D prev cs px Hs Z. induction Z; cbn [total_bits]; rewrite !zlen_cons, ?zlen_nil; assert (RW := width_range size Hs D); lia.
Qed.
Lemma paint_size : forall s1 s2 W H S P b sk px n d, paint (mkC s1 W H S P b sk) n px d = paint (mkC s2 W H S P b sk) n px d.
Proof. intros s1 s2 W H S P b sk. induction px as [|c px IH]; intros n d; cbn [paint]; [reflexivity|]. rewrite IH. reflexivity. Qed.

Lemma in_rect : forall w h a b, 0 <= a < w -> 0 <= b < h -> 0 <= b * w + a < w * h.
Proof. intros. nia. Qed.
Lemma rect_inj : forall w a b x t, 0 <= a < w -> 0 <= x < w -> b * w + a = t * w + x -> b = t /\ a = x.
Proof. intros. assert (b = t) by nia. subst. lia. Qed.

Lemma table_shape : forall info p, colour_table info p -> Z.testbit info 7 = true -> exists n, length p = (3 * n)%nat /\ 2 <= Z.of_nat n <= 256 /\ p <> [] /\ byte info /\ zlen p = 3 * colours info.
Proof.
  intros info p (B & T) E. rewrite E in T. assert (M := Z.mod_pos_bound info 8 ltac:(lia)). assert (CB : 2 <= colours info <= 256). { unfold colours. split; [change 2 with (2 ^ 1) at 1|change 256 with (2 ^ 8)]; apply Z.pow_le_mono_r; lia. }
  exists (Z.to_nat (colours info)). split; [unfold zlen in T; lia|]. split; [lia|]. split; [intros ->; rewrite zlen_nil in T; lia|]. auto.
Qed.

Section Input.
Variables (F : list Z) (us : Z -> list Z) (alloc : allocator).
Hypothesis HF : zlen F < 2147483648.
Hypothesis BF : bytes F.
Hypothesis HU : forall p, zlen (us p) = 2.
Hypothesis HA : allocator_ok alloc.
Hypothesis HP : plenty alloc.
Notation R p e := (Rd F p (zlen F) e).

Definition sees (g : gfx) (c : Z) : bool :=
  ((if negb (Used g) then Z.shiftr (Z.land (Packed g) 28) 2 else 0) =? 1) && negb (Used g) && (Transparent g =? c) && Z.odd (Packed g).

Lemma data_ok : forall g d bb b W HT S px l p e rest fuel, 1 <= W -> 1 <= HT < 65536 -> W <= S -> 0 <= b -> b + (HT - 1) * S + W <= zlen d -> zlen d < 4294967296 -> zlen bb = 257 ->
  gif_data px l -> zlen px = W * HT -> tail F p (l ++ rest) -> 8 * zlen F + 4200 <= Z.of_nat fuel ->
  exists bb' p' e', GifGetData fuel alloc g d bb b W HT S 0 (R p e) = Ok (true, paint (mkC 8 W HT S 0 b (sees g)) 0 px d, bb', R p' e') /\ zlen bb' = 257 /\ tail F p' (0 :: rest).
Proof.
  intros g d bb b W HT S px l p e rest fuel HW HH HS HB HL HL32 LB (size & cs & data & blocks & Hs & (cs' & EC & NE & Z) & LC & (BD & TB & EV) & SB & ->) HX T Hf.
  cbn [app] in T. destruct (getc_tail F HF _ _ _ e T) as (EG & T1 & P). unfold GifGetData. rewrite EG. cbn [bind]. change IL_EOF with (-1). replace (size =? -1) with false by lia. replace ((size <? 2) || (9 <? size)) with false by lia.
  unfold MAX_CODES. change (4096 + 1) with 4097. change (2 * 4097) with 8194. destruct (alloc 4097) as [sf|] eqn:EA; [|exfalso; apply (HP 4097); auto; lia]. destruct (alloc 8194) as [pf|] eqn:EB; [|exfalso; apply (HP 8194); auto; lia].
  assert (LS := HA _ _ EA). assert (LP := HA _ _ EB). assert (LSH : zlen (shorts pf) = 4097) by (unfold zlen in *; rewrite (shorts_len 4097) by lia; lia).
  match goal with |- context [codes fuel ?kk _ _ _] => set (k := kk) end.
  assert (BL := blocks_len _ _ SB). assert (TL := tail_len _ _ _ T1). rewrite zlen_app in TL. assert (0 <= zlen rest) by auto. assert (0 <= zlen data) by auto.
  assert (LZ : lzw size [] (Some [0]) cs px). { rewrite EC, <- (width_first size Hs). constructor; auto. }
  assert (FB := codes_bits _ _ _ _ _ Hs LZ). assert (PS := pow_size size Hs).
  assert (G := codes_ok F rest k (zlen d) size HF BF Hs eq_refl HW ltac:(cbn [cHeight k]; lia) HS HB HL HL32 _ _ _ _ LZ 0 (mkOut d b 0 0 0) (mkBits bb 0 0 0 0 (R (p + 1) e))).
  cbv beta iota in G. destruct G with (fuel := fuel) (t := mkTable (size + 1) (2 ^ (size + 1)) (newcodes k) 0 0 sf (shorts pf)) as (o' & s' & EQ & EP & LB' & p' & e' & EI & T').
  - exists data. split; [auto|]. split.
    { split; [auto|]. cbn [navail pbytes byte_buff input]. split; [lia|]. split; [lia|]. split; [lia|]. exists data, blocks, e, (p + 1). split; [reflexivity|]. split; [auto|]. split; [auto|]. rewrite slice_0. reflexivity. }
    cbn [nbits b1]. split; [lia|]. split; [lia|]. split; [lia|]. unfold value_ahead. cbn [b1 nbits]. change (0 / 2 ^ (8 - 0)) with 0. change (2 ^ 0) with 1. rewrite Z.mul_1_l, Z.add_0_l. exact EV.
  - split; [reflexivity|]. cbn [cWidth cHeight k col row Read ptr cStride base]. split; [nia|]. split; [|intros; nia]. intros _. rewrite Z.div_0_l, Z.mod_0_l by lia. lia.
  - cbn [cWidth cHeight k]. lia.
  - auto.
  - unfold table_ok. cbn [curr_size top_slot slot oc fc suffix prefix]. rewrite (width_first size Hs). split; [auto|]. split; [auto|]. assert (EN : newcodes k = next_code size []) by (unfold newcodes, ending, clear, next_code; cbn [cSize k]; rewrite zlen_nil; lia). split; [auto|].
    assert (newcodes k <= 4096) by (rewrite EN; unfold next_code; rewrite zlen_nil; lia). split; [auto|]. split; [auto|]. split; [auto|]. split.
    + intros c s E. unfold entry in E. destruct ((0 <=? c) && (c <? 2 ^ size)) eqn:E1; [inversion E; subst s; split; [constructor; lia|cbn; lia]|]. destruct (2 ^ size + 2 <=? c) eqn:E2; [|discriminate]. destruct (Z.to_nat (c - 2 ^ size - 2)); discriminate.
    + intros _. split; [constructor; lia|]. split; [reflexivity|cbn; lia].
  - lia.
  - exists (byte_buff s'), p', e'. rewrite EQ. cbn [bind]. rewrite EI, EP. split; [|auto]. cbn [pixels]. do 4 f_equal.
Qed.

(** ** The canvas *)
Section Canvas.
Variables (W HT bg : Z) (gc : list Z).
Hypothesis HW : 1 <= W < 65536.
Hypothesis HH : 1 <= HT < 65536.
Hypothesis Hbg : byte bg.

Definition cimg (buf : list Z) (p : pal) (dur ox oy : Z) : img :=
  mkImg W HT 1 1 1 W (Some buf) (W * HT) (W * HT) IL_COLOUR_INDEX IL_UNSIGNED_BYTE IL_ORIGIN_UPPER_LEFT p dur 0 ox oy.
Definition holds (buf : list Z) (cv : Z -> Z -> Z) : Prop :=
  zlen buf = W * HT /\ forall x t, 0 <= x < W -> 0 <= t < HT -> geti buf (t * W + x) = cv x t.

Lemma size32 : W * HT < 4294967296.
Proof. nia. Qed.
Lemma in_buf : forall x t, 0 <= x < W -> 0 <= t < HT -> 0 <= t * W + x < W * HT.
Proof. intros. nia. Qed.

Lemma shows_cimg : forall buf p dur ox oy cv, holds buf cv -> shows (cimg buf p dur ox oy) W HT 1 IL_COLOUR_INDEX (fun x t _ => cv x t).
Proof.
  intros buf p dur ox oy cv (LB & G). exists buf. assert (S := size32). split.
  - unfold img_ok, cimg. cbn [Data Width Height Depth Bpp Bpc Bps SizeOfPlane SizeOfData]. change (2 ^ 32) with 4294967296. repeat match goal with |- _ /\ _ => split end; auto; try lia; try ring.
  - do 7 (split; [reflexivity|]). intros x t c Hx Ht Hc. rewrite <- (G x t Hx Ht). unfold picture, pix_off, cimg. cbn [Origin Height Width Bpp Bpc]. change (IL_ORIGIN_UPPER_LEFT =? IL_ORIGIN_UPPER_LEFT) with true. cbv iota. f_equal. assert (c = 0) by lia. subst c. ring.
Qed.

(** the pixels of a frame on the canvas *)
Lemma paint_canvas : forall f g buf cv, 1 <= fw f -> 1 <= fh f -> 0 <= fx f -> 0 <= fy f -> fx f + fw f <= W -> fy f + fh f <= HT -> zlen (fpx f) = fw f * fh f -> bytes (fpx f) -> holds buf cv -> holds_control g (fctl f) ->
  holds (paint (mkC 8 (fw f) (fh f) W 0 (fx f + u32 (fy f * W)) (sees g)) 0 (fpx f) buf) (canvas_after f (fun t => t) cv).
Proof.
  intros f g buf cv H1 H2 H3 H4 H5 H6 HX BX (LB & G) HC. assert (S := size32). assert (0 <= fy f * W) by nia. assert (fy f * W + W * fh f <= W * HT) by nia. assert (W <= W * fh f) by nia. rewrite u32_small by lia.
  set (k := mkC _ _ _ _ _ _ _). assert (A1 : 1 <= cWidth k) by exact H1. assert (A2 : 1 <= cHeight k < 4294967296) by (cbn; lia). assert (A3 : cWidth k <= cStride k) by (cbn; lia). assert (A4 : 0 <= base k) by (cbn; lia).
  assert (A5 : base k + (cHeight k - 1) * cStride k + cWidth k <= W * HT) by (cbn [base cHeight cStride cWidth k]; nia).
  assert (A6 : 0 + zlen (fpx f) <= cWidth k * cHeight k) by (cbn; lia).
  assert (SEE : forall v, 0 <= v < 256 -> sees g v = shows_through f v).
  { intros v Hv. unfold sees, shows_through. destruct (fctl f) as [c|] eqn:EC; cbn [holds_control] in HC.
    - subst g. cbn [Used Packed Transparent negb]. assert (EM : Z.shiftr (Z.land (c_flags c) 28) 2 = method c).
      { unfold method. rewrite Z.shiftr_land. change (Z.shiftr 28 2) with (2 ^ 3 - 1). rewrite land_mask by lia. rewrite Z.shiftr_div_pow2 by lia. reflexivity. }
      rewrite EM. unfold transparent. rewrite (Z.eqb_sym (c_index c) v). destruct (method c =? 1), (Z.odd (c_flags c)), (v =? c_index c); reflexivity.
    - rewrite HC. reflexivity. }
  split; [eapply zlen_paint with (L := W * HT); eauto; lia|]. intros x t Hx Ht. assert (IB := in_buf x t Hx Ht). unfold canvas_after. destruct ((fx f <=? x) && (x <? fx f + fw f) && (fy f <=? t) && (t <? fy f + fh f)) eqn:E.
  - set (i := (t - fy f) * fw f + (x - fx f)). assert (Hi : 0 <= i < zlen (fpx f)) by (unfold i; rewrite HX; apply in_rect; clear - E; lia).
    assert (PI : place k (0 + i) = t * W + x).
    { unfold place. cbn [base cWidth cStride k]. assert (ED : i / fw f = t - fy f) by (symmetry; apply (Z.div_unique _ _ _ (x - fx f)); [lia|unfold i; ring]). assert (EM : i mod fw f = x - fx f) by (symmetry; apply (Z.mod_unique _ _ (t - fy f)); [lia|unfold i; ring]). rewrite Z.add_0_l, ED, EM. ring. }
    rewrite <- PI. rewrite (paint_at k (W * HT) A1 A2 A3 A4 A5 S) by (auto; lia). rewrite PI. cbn [skip k cPal]. specialize (BX i Hi). rewrite SEE by auto. cbv zeta. fold i. destruct (shows_through f (geti (fpx f) i)); [apply G; auto|]. rewrite Z.add_0_r. apply u8_small. auto.
  - rewrite (paint_other k (W * HT) A1 A2 A3 A4 A5 S); [apply G; auto|lia|auto|auto|auto|]. intros j Hj Ej. assert (Q1 := Z.mod_pos_bound j (fw f) ltac:(lia)). assert (Q2 : 0 <= j / fw f < fh f) by (split; [apply Z.div_pos; lia|apply Z.div_lt_upper_bound; lia]). unfold place in Ej. cbn [base cWidth cStride k] in Ej.
    assert (ET : (fy f + j / fw f) * W + (fx f + j mod fw f) = t * W + x) by (rewrite <- Ej; ring). destruct (rect_inj W (fx f + j mod fw f) (fy f + j / fw f) x t) as (Q3 & Q4); [clear - Q1 H3 H5; lia|auto|auto|]. clear - Q1 Q2 Q3 Q4 E. lia.
Qed.

(** interlaced lines *)
Lemma stored_range : forall h s, 0 <= s < h -> 0 <= stored_line h s < h.
Proof.
  intros h s Hs. unfold stored_line. destruct (passes h ltac:(lia)) as (E & P0 & P1 & P2). set (c0 := (h + 7) / 8) in *. set (c4 := (h + 3) / 8) in *. set (c2 := (h + 1) / 4) in *.
  assert (s mod 8 = 0 -> s / 8 < c0) by (unfold c0; clear - Hs; lia). assert (s mod 8 = 4 -> s / 8 < c4) by (unfold c4; clear - Hs; lia). assert (s mod 4 = 2 -> s / 4 < c2) by (unfold c2; clear - Hs; lia).
  assert (s mod 8 <> 0 -> s mod 8 <> 4 -> s mod 4 <> 2 -> s / 2 < h / 2) by (clear - Hs; lia). assert (0 <= s / 8 /\ 0 <= s / 4 /\ 0 <= s / 2) by (clear - Hs; lia). assert (0 <= h / 2) by (clear - Hs; lia). clearbody c0 c4 c2.
  destruct (s mod 8 =? 0) eqn:E0; [lia|]. destruct (s mod 8 =? 4) eqn:E4; [lia|]. destruct (s mod 4 =? 2) eqn:E2; lia.
Qed.
Lemma deinterlace_ok : forall f buf p dur u, interlaced f = true -> 0 <= fy f -> fy f + fh f = HT -> 1 <= fh f -> holds buf (canvas_after f (fun t => t) (fun _ _ => u)) ->
  exists buf', RemoveInterlace alloc (cimg buf p dur (fx f) (fy f)) = Ok (true, cimg buf' p dur (fx f) (fy f)) /\ holds buf' (canvas_after f (line f) (fun _ _ => u)).
Proof.
  intros f buf p dur u IT H1 H2 H3 (LB & G). assert (S := size32). unfold RemoveInterlace. cbn [SizeOfData Data cimg OffY Height Bps]. destruct (alloc (W * HT)) as [nd|] eqn:EA; [|exfalso; apply (HP (W * HT)); auto; nia]. assert (LN := HA _ _ EA).
  destruct (interlace_ok buf W HT (fy f) ltac:(lia) ltac:(lia) ltac:(lia) LB S nd LN) as (nd' & j' & EQ & L' & RW).
  assert (EQ' : forall (K : list Z * Z -> res (bool * img)), (let! s := loop 0 (fy f) (copy_line W buf) (nd, 0) in let! s := stride (fy f) HT 8 (copy_line W buf) s in let! s := stride (u32 (4 + fy f)) HT 8 (copy_line W buf) s in
    let! s := stride (u32 (2 + fy f)) HT 4 (copy_line W buf) s in let! s := stride (u32 (1 + fy f)) HT 2 (copy_line W buf) s in K s) = K (nd', j')).
  { intros K. destruct (loop 0 (fy f) (copy_line W buf) (nd, 0)) as [s1| | ]; cbn [bind] in *; try discriminate. destruct (stride (fy f) HT 8 (copy_line W buf) s1) as [s2| | ]; cbn [bind] in *; try discriminate. destruct (stride (u32 (4 + fy f)) HT 8 (copy_line W buf) s2) as [s3| | ]; cbn [bind] in *; try discriminate.
    destruct (stride (u32 (2 + fy f)) HT 4 (copy_line W buf) s3) as [s4| | ]; cbn [bind] in *; try discriminate. rewrite EQ. reflexivity. }
  cbv zeta. rewrite EQ'. exists nd'. split; [reflexivity|]. split; [auto|]. intros x t Hx Ht. rewrite RW by auto. unfold line_of. unfold line. rewrite IT.
  destruct (t <? fy f) eqn:E.
  - rewrite G by auto. unfold canvas_after. replace (fy f <=? t) with false by lia. rewrite !andb_false_r. reflexivity.
  - assert (SR := stored_range (fh f) (t - fy f) ltac:(lia)). replace (HT - fy f) with (fh f) by lia. rewrite G by lia. unfold canvas_after. replace (fy f + stored_line (fh f) (t - fy f) - fy f) with (stored_line (fh f) (t - fy f)) by lia.
    replace (fy f <=? t) with true by lia. replace (t <? fy f + fh f) with true by lia. replace (fy f <=? fy f + stored_line (fh f) (t - fy f)) with true by lia. replace (fy f + stored_line (fh f) (t - fy f) <? fy f + fh f) with true by lia. reflexivity.
Qed.

(** *** One frame *)
Definition ctl_ok (c : option control) : Prop := match c with None => True | Some c => byte (c_flags c) /\ short (c_delay c) /\ byte (c_index c) end.
Lemma ext_ok : forall c l c', extensions c l c' -> ctl_ok c -> ctl_ok c'.
Proof. induction 1 as [c|c c1 l c2 B1 B2 B3 X IH|c label data blocks l c2 B1 N1 SB X IH]; intros C; auto. apply IH. cbn. auto. Qed.

Definition gmethod (g : gfx) : Z := if negb (Used g) then Z.shiftr (Z.land (Packed g) 28) 2 else 1.
Lemma gmethod_ok : forall g f, holds_control g (fctl f) -> gmethod g = frame_method f.
Proof.
  intros g f HC. unfold gmethod, frame_method. destruct (fctl f) as [c|]; cbn [holds_control] in HC; [subst g|rewrite HC; reflexivity]. cbn [Used Packed negb]. unfold method. rewrite Z.shiftr_land. change (Z.shiftr 28 2) with (2 ^ 3 - 1). rewrite land_mask by lia. rewrite Z.shiftr_div_pow2 by lia. reflexivity.
Qed.
Lemma gback_ok : forall g f, holds_control g (fctl f) -> (if negb (Used g) && Z.odd (Packed g) then Transparent g else bg) = background bg (fctl f).
Proof. intros g f HC. unfold background. destruct (fctl f) as [c|]; cbn [holds_control] in HC; [subst g; reflexivity|rewrite HC; reflexivity]. Qed.
Lemma back_byte : forall f, ctl_ok (fctl f) -> byte (background bg (fctl f)).
Proof. intros f C. unfold background. destruct (fctl f) as [c|]; [|auto]. destruct (transparent c); [apply C|auto]. Qed.

Lemma next_image_ok : forall f g first old_info prev buf0 p0 dur0 ox oy im1 before, holds_control g (fctl f) -> ctl_ok (fctl f) -> zlen buf0 = W * HT ->
  (first = true -> prev = []) -> Width (hd (cimg buf0 p0 dur0 ox oy) prev) = W -> Height (hd (cimg buf0 p0 dur0 ox oy) prev) = HT ->
  (first = true \/ frame_method f <= 3) -> (first = false -> frame_method f < 2 -> holds buf0 before) -> (first = false -> (if Z.testbit old_info 6 then RemoveInterlace alloc (cimg buf0 p0 dur0 ox oy) else Ok (true, cimg buf0 p0 dur0 ox oy)) = Ok (true, im1)) ->
  exists buf p dx dy, next_image alloc bg first old_info g prev (cimg buf0 p0 dur0 ox oy) = Ok (true, if first then [] else prev ++ [im1], cimg buf p (if first then dur0 else 0) dx dy) /\
    holds buf (canvas_before bg first f before).
Proof.
  intros f g first old_info prev buf0 p0 dur0 ox oy im1 before HC CO LB FP HWp HHp HM HB0 HR. assert (S := size32). assert (0 < W * HT) by nia. unfold next_image. rewrite (gback_ok _ _ HC). fold (gmethod g). rewrite (gmethod_ok _ _ HC). assert (BB := back_byte f CO). unfold byte in BB.
  assert (FILL : forall d, zlen d = W * HT -> exists d', memset d 0 (background bg (fctl f)) (W * HT) = Ok d' /\ holds d' (fun _ _ => background bg (fctl f))).
  { intros d LD. destruct (memset_spec d 0 (background bg (fctl f)) (W * HT)) as (d' & E1 & E2 & E3); try lia. exists d'. split; [auto|]. split; [lia|]. intros x t Hx Ht. assert (IB := in_buf x t Hx Ht). rewrite E3 by lia. replace ((0 <=? t * W + x) && (t * W + x <? 0 + W * HT)) with true by lia. apply u8_small. auto. }
  unfold canvas_before. fold (frame_method f). destruct first.
  - rewrite FP by auto. unfold fill_data. cbn [Data cimg SizeOfData]. destruct (FILL buf0 LB) as (d & -> & HD). cbn [bind orb]. exists d, p0, ox, oy. split; [reflexivity|exact HD].
  - destruct HM as [HM|HM]; [discriminate|]. cbv zeta. rewrite HWp, HHp. change (ilGetFormatBpp 1) with IL_LUMINANCE. change (ilGetTypeBpc 1) with IL_UNSIGNED_BYTE.
    destruct (alloc (W * 1 * HT)) as [nb|] eqn:EA; [|exfalso; apply (HP (W * 1 * HT)); auto; nia]. assert (LN := HA _ _ EA). rewrite (init_ok alloc _ W HT 1 IL_LUMINANCE nb) by (auto; lia). cbn [bind negb]. rewrite !Z.mul_1_r in *.
    assert (M0 : 0 <= frame_method f). { unfold frame_method. destruct (fctl f) as [c|]; [|lia]. unfold method. apply Z.mod_pos_bound. lia. }
    specialize (HR eq_refl). rewrite HR. cbn [bind negb]. cbn [orb]. destruct ((frame_method f =? 2) || (frame_method f =? 3)) eqn:EM.
    + unfold fill_data. cbn [Data SizeOfData cimg]. destruct (FILL nb LN) as (d & -> & HD). cbn [bind negb]. exists d, (mkPal None 0 IL_PAL_NONE), 0, 0. split; [reflexivity|exact HD].
    + replace ((frame_method f =? 1) || (frame_method f =? 0)) with true by lia. cbn [Data SizeOfData cimg]. rewrite memcpy_ok by lia. cbn [bind negb]. exists (splice nb 0 (slice buf0 0 (W * HT))), (mkPal None 0 IL_PAL_NONE), 0, 0. split; [reflexivity|].
      rewrite splice_full by (rewrite zlen_slice by lia; lia). rewrite <- LB at 1. rewrite slice_all. exact (HB0 eq_refl ltac:(lia)).
Qed.

Lemma frame_palette_ok : forall f g gp gblk gn num prev im p e s, colour_table (finfo f) (fcolours f) -> holds_control g (fctl f) -> frame_colours gc f <> [] -> (fcolours f = [] \/ num = 0 \/ frame_method f <> 1) ->
  (gc <> [] -> gp = mkPal (Some (gc ++ gblk)) (zlen gc) IL_PAL_RGB24 /\ length gc = (3 * gn)%nat /\ 2 <= Z.of_nat gn <= 256) -> tail F p (fcolours f ++ s) ->
  exists blk n, frame_palette alloc gp num g (finfo f) prev im (R p e) = Ok (true, with_Pal im (mkPal (Some (frame_colours gc f ++ blk)) (zlen (frame_colours gc f)) IL_PAL_RGB24), 0, R (p + zlen (fcolours f)) e, []) /\ length (frame_colours gc f) = (3 * n)%nat /\ 2 <= Z.of_nat n <= 256.
Proof.
  intros f g gp gblk gn num prev im p e s CT HC NC OWN GP T. unfold frame_palette. fold (gmethod g). rewrite (gmethod_ok _ _ HC). destruct (Z.testbit (finfo f) 7) eqn:E7.
  - destruct (table_shape _ _ CT E7) as (n & L1 & L2 & L3 & BI & L4). replace ((frame_method f =? 1) && negb (num =? 0)) with false by (destruct OWN as [O|[O|O]]; [congruence|subst num; rewrite andb_comm; reflexivity|replace (frame_method f =? 1) with false by lia; reflexivity]).
    destruct (palette_ok F us HF HU alloc (finfo f) (Pal im) (fcolours f) p e s HA HP BI L4 T) as (blk & ->). cbn [bind]. exists blk, n. unfold frame_colours. destruct (fcolours f) as [|c0 cs]; [congruence|]. auto.
  - assert (E0 : fcolours f = []) by (destruct CT as (_ & CT); rewrite E7 in CT; auto). unfold frame_colours in *. rewrite E0 in *. destruct (GP NC) as (-> & L1 & L2). assert (LG : zlen gc = 3 * Z.of_nat gn) by (unfold zlen; lia).
    rewrite copy_ok by (auto; lia). cbn [bind]. exists [], gn. rewrite app_nil_r, zlen_nil, Z.add_0_r. auto.
Qed.

Lemma frame_ok : forall f l gp gblk gn first fuel num old_info g bb prev buf0 p0 ox oy dur0 im1 before pos e x s,
  frame_bytes W HT f l -> tail F pos (l ++ x :: s) -> Used g = true -> zlen bb = 257 -> 8 * zlen F + 4300 <= Z.of_nat fuel -> zlen buf0 = W * HT ->
  (gc <> [] -> gp = mkPal (Some (gc ++ gblk)) (zlen gc) IL_PAL_RGB24 /\ length gc = (3 * gn)%nat /\ 2 <= Z.of_nat gn <= 256) ->
  (first = true -> prev = [] /\ num = 0 /\ dur0 = 0) -> Width (hd (cimg buf0 p0 dur0 ox oy) prev) = W -> Height (hd (cimg buf0 p0 dur0 ox oy) prev) = HT ->
  (first = true \/ frame_method f <= 3) -> frame_colours gc f <> [] -> (fcolours f = [] \/ first = true \/ frame_method f <> 1) -> (first = false -> frame_method f < 2 -> holds buf0 before) ->
  (first = false -> (if Z.testbit old_info 6 then RemoveInterlace alloc (cimg buf0 p0 dur0 ox oy) else Ok (true, cimg buf0 p0 dur0 ox oy)) = Ok (true, im1)) ->
  exists buf p bb' pos' e' g' num', GetImages (S fuel) alloc us gp bg first num old_info g bb prev (cimg buf0 p0 dur0 ox oy) (R pos e) =
      GetImages fuel alloc us gp bg false num' (finfo f) g' bb' (if first then [] else prev ++ [im1]) (cimg buf p (match fctl f with Some c => c_delay c * 10 | None => 0 end) (fx f) (fy f)) (R pos' e') /\
    frame_pal gc f p /\ holds buf (canvas_after f (fun t => t) (canvas_before bg first f before)) /\ Used g' = true /\ zlen bb' = 257 /\ tail F pos' (x :: s).
Proof.
  intros f l gp gblk gn first fuel num old_info g bb prev buf0 p0 ox oy dur0 im1 before pos e x s (H1 & H2 & H3 & H4 & H5 & H6 & HX & BX & CT & ext & data & EXT & GD & ->) T HG LB Hf LB0 GP FI HWp HHp HM NC OWN HB0 HR.
  assert (CO := ext_ok _ _ _ EXT I). assert (TL := tail_len _ _ _ T).
  assert (NE : iEofLump (R pos e) = false). { destruct ext; cbn [app] in T; eapply not_eof; eauto. }
  cbn [GetImages]. rewrite NE. rewrite <- app_assoc in T. cbn [app] in T.
  assert (LE : (length ext < fuel)%nat). { rewrite zlen_app in TL. rewrite zlen_app in TL. unfold zlen in *. assert (P : 0 <= pos) by apply T. lia. }
  destruct (extensions_ok F us HF BF HU _ _ _ EXT g pos e 44 _ fuel HG T ltac:(lia) LE) as (g1 & -> & HC). cbn [bind negb]. assert (T1 := tail_app _ _ _ _ T).
  destruct (getc_tail F HF _ _ _ e T1) as (-> & T2 & _). cbn [bind]. change (u8 44 =? 44) with true. cbn [negb].
  rewrite <- !app_assoc in T2. destruct (u2_tail F us HF HU _ e _ _ T2) as (-> & T3). cbn [bind]. destruct (u2_tail F us HF HU _ e _ _ T3) as (-> & T4). cbn [bind]. destruct (u2_tail F us HF HU _ e _ _ T4) as (-> & T5). cbn [bind]. destruct (u2_tail F us HF HU _ e _ _ T5) as (-> & T6). cbn [bind].
  cbn [app] in T6. destruct (getc_tail F HF _ _ _ e T6) as (-> & T7 & _). cbn [bind]. assert (BI := proj1 CT). unfold byte in BI. rewrite (u8_small (finfo f)) by lia. rewrite <- app_assoc in T7.
  assert (NE7 : forall q, tail F q (fcolours f ++ data ++ x :: s) -> iEofLump (R q e) = false). { intros q Tq. destruct (fcolours f); [|eapply not_eof; eauto]. cbn [app] in Tq. destruct data; cbn [app] in Tq; eapply not_eof; eauto. }
  rewrite NE7 by exact T7. cbv zeta.
  destruct (next_image_ok f g1 first old_info prev buf0 p0 dur0 ox oy im1 before HC CO LB0 ltac:(intros Q; apply FI; auto) HWp HHp HM HB0 HR) as (b1_ & p1 & dx & dy & -> & HD). cbn [bind negb].
  assert (OWN' : fcolours f = [] \/ (if first then num else u32 (num + 1)) = 0 \/ frame_method f <> 1) by (destruct OWN as [O|[O|O]]; auto; right; left; subst first; apply FI; auto).
  destruct (frame_palette_ok f g1 gp gblk gn (if first then num else u32 (num + 1)) (if first then [] else prev ++ [im1]) (set_offset (cimg b1_ p1 (if first then dur0 else 0) dx dy) (fx f) (fy f)) _ e _ CT HC NC OWN' GP T7) as (blk & n & -> & LC & NB).
  cbn [bind negb]. assert (T8 := tail_app _ _ _ _ T7). unfold frame_data. cbn [Data with_Pal set_offset cimg dX dY dW dH Width].
  assert (BASE : 0 <= fx f + u32 (fy f * W) /\ fx f + u32 (fy f * W) + (fh f - 1) * W + fw f <= zlen b1_). { destruct HD as (-> & _). assert (SZ := size32). assert (0 <= fy f * W) by nia. assert (fy f * W + W * fh f <= W * HT) by nia. assert (W <= W * fh f) by nia. rewrite u32_small by lia. lia. }
  assert (S32 : zlen b1_ < 4294967296) by (destruct HD as (-> & _); apply size32).
  destruct (data_ok g1 b1_ bb (fx f + u32 (fy f * W)) (fw f) (fh f) W (fpx f) data _ e (x :: s) fuel H1 ltac:(lia) ltac:(lia) (proj1 BASE) (proj2 BASE) S32 LB GD HX T8 ltac:(lia)) as (bb' & p' & e' & -> & LBB & T9).
  cbn [bind negb]. set (nb := paint _ 0 (fpx f) b1_). assert (HN : holds nb (canvas_after f (fun t => t) (canvas_before bg first f before))) by (apply paint_canvas; auto).
  assert (DUR : (if first then dur0 else 0) = 0) by (destruct first; [apply FI; auto|reflexivity]). rewrite DUR.
  destruct (getc_tail F HF _ _ _ e' T9) as (GC & T10 & _).
  unfold frame_pal. destruct (fctl f) as [c|] eqn:EC; cbn [holds_control] in HC.
  - subst g1. cbn [Used Packed Delay Transparent negb]. unfold transparent. destruct (Z.odd (c_flags c)) eqn:EO.
    + cbn [Pal with_Pal with_Data set_duration set_offset cimg]. rewrite (transparent_ok alloc _ blk _ _ n) by (auto; lia). cbn [bind negb]. rewrite GC. cbn [bind]. change (0 =? IL_EOF) with false. change (0 =? 0) with true. cbn [negb bind].
      eexists nb, _, bb', _, e', _, _. split; [reflexivity|]. split; [|auto]. assert (EZ : zlen (frame_colours gc f) / 3 * 4 = 4 * Z.of_nat n) by (unfold zlen; rewrite LC, Nat2Z.inj_mul; change (Z.of_nat 3) with 3; rewrite (Z.mul_comm 3), Z.div_mul by lia; lia). rewrite EZ. reflexivity.
    + cbn [bind negb]. rewrite GC. cbn [bind]. change (0 =? IL_EOF) with false. change (0 =? 0) with true. cbn [negb bind]. eexists nb, _, bb', _, e', _, _. split; [reflexivity|]. split; [exists blk; reflexivity|auto].
  - rewrite HC. cbn [negb bind]. rewrite GC. cbn [bind]. change (0 =? IL_EOF) with false. change (0 =? 0) with true. cbn [negb bind]. eexists nb, _, bb', _, e', _, _. split; [reflexivity|]. split; [exists blk; reflexivity|auto].
Qed.

(** *** All frames *)
(** the picture of a frame when the loader is done with it *)
Lemma finish_frame : forall f buf p CB, (interlaced f = true -> fy f + fh f = HT /\ exists u, forall x t, CB x t = u) -> 1 <= fh f -> 0 <= fy f -> frame_pal gc f p -> holds buf (canvas_after f (fun t => t) CB) ->
  exists im buf', (if interlaced f then RemoveInterlace alloc (cimg buf p (match fctl f with Some c => c_delay c * 10 | None => 0 end) (fx f) (fy f)) else Ok (true, cimg buf p (match fctl f with Some c => c_delay c * 10 | None => 0 end) (fx f) (fy f))) = Ok (true, im) /\
    im = cimg buf' p (match fctl f with Some c => c_delay c * 10 | None => 0 end) (fx f) (fy f) /\ frame_image W HT gc f (canvas_after f (line f) CB) im.
Proof.
  intros f buf p CB IL H1 H2 FP HB. set (dur := match fctl f with Some c => c_delay c * 10 | None => 0 end).
  assert (G : exists buf', (if interlaced f then RemoveInterlace alloc (cimg buf p dur (fx f) (fy f)) else Ok (true, cimg buf p dur (fx f) (fy f))) = Ok (true, cimg buf' p dur (fx f) (fy f)) /\ holds buf' (canvas_after f (line f) CB)).
  { destruct (interlaced f) eqn:E.
    - destruct (IL eq_refl) as (HB2 & u & U). destruct (deinterlace_ok f buf p dur u E H2 HB2 H1) as (buf' & E1 & L' & E2).
      { destruct HB as (L & G). split; [auto|]. intros x t Hx Ht. rewrite G by auto. unfold canvas_after. rewrite U. reflexivity. }
      exists buf'. split; [auto|]. split; [auto|]. intros x t Hx Ht. rewrite E2 by auto. unfold canvas_after. rewrite U. reflexivity.
    - exists buf. split; [auto|]. destruct HB as (L & G). split; [auto|]. intros x t Hx Ht. rewrite G by auto. unfold canvas_after, line. rewrite E. reflexivity. }
  destruct G as (buf' & E1 & HB'). exists (cimg buf' p dur (fx f) (fy f)), buf'. split; [exact E1|]. split; [reflexivity|]. split; [apply shows_cimg; auto|]. split; [exact FP|]. split; [reflexivity|]. split; reflexivity.
Qed.

Lemma raw_line : forall f CB, interlaced f = false -> canvas_after f (fun t => t) CB = canvas_after f (line f) CB.
Proof. intros f CB E. unfold canvas_after, line. rewrite E. reflexivity. Qed.

Variables (gp : pal) (gblk : list Z) (gn : nat).
Hypothesis GP : gc <> [] -> gp = mkPal (Some (gc ++ gblk)) (zlen gc) IL_PAL_RGB24 /\ length gc = (3 * gn)%nat /\ 2 <= Z.of_nat gn <= 256.

Lemma frames_ok : forall fs l, frames_bytes W HT fs l -> forall f0 CB num g bb prev buf p pos e junk fuel, tail F pos (l ++ 59 :: junk) -> Used g = true -> zlen bb = 257 -> zlen l + 8 * zlen F + 4310 <= Z.of_nat fuel ->
  loadable HT gc false fs -> (interlaced f0 = true -> fy f0 + fh f0 = HT /\ (exists u, forall x t, CB x t = u) /\ match fs with [] => True | n :: _ => fresh false n end) -> 1 <= fh f0 -> 0 <= fy f0 -> frame_pal gc f0 p -> holds buf (canvas_after f0 (fun t => t) CB) ->
  (forall d, Width d = W -> Height d = HT -> Width (hd d prev) = W /\ Height (hd d prev) = HT) ->
  exists im ims, GetImages fuel alloc us gp bg false num (finfo f0) g bb prev (cimg buf p (match fctl f0 with Some c => c_delay c * 10 | None => 0 end) (fx f0) (fy f0)) (R pos e) = Ok (true, prev ++ im :: ims, []) /\
    frame_image W HT gc f0 (canvas_after f0 (line f0) CB) im /\ animation W HT bg gc false (canvas_after f0 (line f0) CB) fs ims.
Proof.
  intros fs l FB. induction FB as [|f fs l l' FB1 FB IH]; intros f0 CB num g bb prev buf p pos e junk fuel T HG LB Hf LD IL H1 H2 FP HB HD.
  - destruct (finish_frame f0 buf p CB ltac:(intros Q; destruct (IL Q) as (A & B & _); auto) H1 H2 FP HB) as (im & buf' & E1 & EI & FI). exists im, []. destruct fuel as [|fuel]; [assert (0 <= zlen F) by auto; rewrite zlen_nil in Hf; lia|]. cbn [app] in T. cbn [GetImages]. rewrite (not_eof F _ e _ _ T).
    destruct (extensions_ok F us HF BF HU None [] None (ext_none None) g pos e 59 junk fuel HG T ltac:(lia) ltac:(assert (0 <= zlen F) by auto; rewrite zlen_nil in Hf; cbn; lia)) as (g1 & -> & HC). cbn [bind negb]. rewrite zlen_nil, Z.add_0_r.
    destruct (getc_tail F HF _ _ _ e T) as (-> & T2 & _). cbn [bind]. change (u8 59 =? 44) with false. cbn [negb]. fold (interlaced f0). rewrite E1. cbn [bind negb]. split; [reflexivity|]. split; [auto|exact I].
  - cbn [loadable] in LD. destruct LD as (L1 & L2 & L3 & L4 & L5). rewrite <- app_assoc in T.
    assert (HX : exists x s, l' ++ 59 :: junk = x :: s) by (destruct l'; cbn; eauto). destruct HX as (x & s & HX). rewrite HX in T. rewrite zlen_app in Hf. assert (0 <= zlen l) by auto. assert (0 <= zlen l') by auto. assert (0 <= zlen F) by auto.
    assert (LPOS : 1 <= zlen l). { destruct FB1 as (_ & _ & _ & _ & _ & _ & _ & _ & _ & ext & data & _ & _ & ->). cbn [app]. assert (0 <= zlen ext) by auto. match goal with |- context [44 :: ?q] => assert (0 <= zlen q) by auto end. rewrite zlen_app, zlen_cons. lia. }
    destruct fuel as [|fuel]; [lia|].
    destruct (finish_frame f0 buf p CB ltac:(intros Q; destruct (IL Q) as (A & B & _); auto) H1 H2 FP HB) as (im & buf' & E1 & EI & FI).
    set (cv := canvas_after f0 (line f0) CB) in *.
    destruct (HD (cimg buf p (match fctl f0 with Some c => c_delay c * 10 | None => 0 end) (fx f0) (fy f0)) eq_refl eq_refl) as (D1 & D2).
    destruct (frame_ok f l gp gblk gn false fuel num (finfo f0) g bb prev buf p (fx f0) (fy f0) (match fctl f0 with Some c => c_delay c * 10 | None => 0 end) im cv pos e x s FB1 T HG LB ltac:(lia) (proj1 HB) GP ltac:(discriminate) D1 D2 L1 L2 L3) as (b1_ & p1 & bb1 & pos1 & e1 & g1 & num1 & E2 & FP1 & HB1 & HG1 & LB1 & T1).
    { intros _ M. destruct (interlaced f0) eqn:EI0; [destruct (IL eq_refl) as (_ & _ & [Q|[Q|Q]]); [discriminate|lia|lia]|]. unfold cv. rewrite <- raw_line by auto. exact HB. }
    { intros _. fold (interlaced f0). exact E1. }
    rewrite E2. rewrite <- HX in T1. destruct FB1 as (Q1 & Q2 & Q3 & Q4 & Q5 & Q6 & _). 
    destruct (IH f (canvas_before bg false f cv) num1 g1 bb1 (prev ++ [im]) b1_ p1 pos1 e1 junk fuel T1 HG1 LB1 ltac:(lia) L5) as (im2 & ims & E3 & FI2 & AN); auto.
    + intros Q. destruct (L4 Q) as (FR & EB & NX). split; [auto|]. split; [|exact NX]. exists (background bg (fctl f)). intros x0 t0. unfold canvas_before. fold (frame_method f). destruct FR as [FR|[FR|FR]]; [discriminate|rewrite FR; reflexivity|rewrite FR; reflexivity].
    + intros d Wd Hd. destruct prev as [|q prev']; cbn [app hd]; [rewrite EI; split; reflexivity|]. apply (HD d Wd Hd).
    + exists im, (im2 :: ims). rewrite E3. split; [rewrite <- app_assoc; reflexivity|]. split; [auto|]. cbn [animation]. split; [exact FI2|exact AN].
Qed.
End Canvas.

(** ** Whole files *)
Lemma name_ok : forall sig, gif_name sig -> gif_sig sig = true.
Proof.
  intros sig (g & i & f & a & n & -> & Hg & Hi & Hf & Ha & Hn). destruct Hg as [-> | ->], Hi as [-> | ->], Hf as [-> | ->], Ha as [-> | ->], Hn as [-> | ->]; vm_compute; reflexivity.
Qed.

Lemma load_ok : forall W HT bg gc f fs old sig bb g fuel e, gif_file W HT bg gc (f :: fs) F -> loadable HT gc true (f :: fs) -> zlen sig = 6 -> zlen bb = 257 -> 9 * zlen F + 4320 <= Z.of_nat fuel ->
  exists ims, iLoadGifInternal fuel alloc us sig bb g old (R 0 e) = Ok (true, ims, []) /\ animation W HT bg gc true (fun _ _ => 0) (f :: fs) ims.
Proof.
  intros W HT bg gc f fs old sig bb g fuel e (HW & HH & Hbg & nm & info & aspect & l & junk & NM & CT & BA & FB & EF) LD LS LB Hf.
  assert (T := tail_start F). rewrite EF in T at 2. assert (L6 : zlen nm = 6) by (destruct NM as (? & ? & ? & ? & ? & -> & _); reflexivity). assert (TL := tail_len _ _ _ T). rewrite zlen_app in TL. match type of TL with context [zlen nm + zlen ?q] => assert (0 <= zlen q) by auto end.
  unfold iLoadGifInternal. rewrite read_in by lia. cbn [bind]. assert (ES := slice_tail F _ _ _ T). rewrite L6 in ES. rewrite ES. rewrite (name_ok _ NM). cbn [negb].
  assert (T1 := tail_app _ _ _ _ T). rewrite L6 in T1. destruct (u2_tail F us HF HU _ e _ _ T1) as (-> & T2). cbn [bind]. destruct (u2_tail F us HF HU _ e _ _ T2) as (-> & T3). cbn [bind]. cbn [app] in T3.
  destruct (getc_tail F HF _ _ _ e T3) as (-> & T4 & _). cbn [bind]. destruct (getc_tail F HF _ _ _ e T4) as (-> & T5 & _). cbn [bind]. destruct (getc_tail F HF _ _ _ e T5) as (-> & T6 & _). cbn [bind].
  assert (S : W * HT < 4294967296) by nia. destruct (alloc (W * 1 * HT)) as [nb|] eqn:EA; [|exfalso; apply (HP (W * 1 * HT)); auto; nia]. assert (LN := HA _ _ EA). rewrite (init_ok alloc _ W HT 1 IL_COLOUR_INDEX nb) by (auto; lia). cbn [bind negb].
  rewrite !Z.mul_1_r in *. unfold byte in *. rewrite (u8_small bg) by lia. assert (BI := proj1 CT). unfold byte in BI. rewrite (u8_small info) by lia.
  assert (PAL : exists gp gblk gn, (if Z.testbit info 7 then iGetPalette alloc info (mkPal None 0 0) None (R (0 + 6 + 2 + 2 + 1 + 1 + 1) e) else Ok (true, mkPal None 0 0, R (0 + 6 + 2 + 2 + 1 + 1 + 1) e, [])) = Ok (true, gp, R (0 + 6 + 2 + 2 + 1 + 1 + 1 + zlen gc) e, []) /\
    (gc <> [] -> gp = mkPal (Some (gc ++ gblk)) (zlen gc) IL_PAL_RGB24 /\ length gc = (3 * gn)%nat /\ 2 <= Z.of_nat gn <= 256)).
  { destruct (Z.testbit info 7) eqn:E7.
    - destruct (table_shape _ _ CT E7) as (n & L1 & L2 & L3 & BI' & L4). destruct (palette_ok F us HF HU alloc info (mkPal None 0 0) gc _ e _ HA HP BI' L4 T6) as (blk & ->). exists (mkPal (Some (gc ++ blk)) (zlen gc) IL_PAL_RGB24), blk, n. split; [reflexivity|auto].
    - assert (E0 : gc = []) by (destruct CT as (_ & CT); rewrite E7 in CT; auto). subst gc. exists (mkPal None 0 0), [], 0%nat. rewrite zlen_nil, Z.add_0_r. split; [reflexivity|congruence]. }
  destruct PAL as (gp & gblk & gn & -> & GP). cbn [bind negb]. assert (T7 := tail_app _ _ _ _ T6).
  inversion FB as [|? ? l1 l2 FB1 FB2 E1 E2]. subst l. rewrite <- app_assoc in T7. assert (HX : exists x s, l2 ++ 59 :: junk = x :: s) by (destruct l2; cbn; eauto). destruct HX as (x & s & HX). cbn [app] in T7. rewrite HX in T7.
  cbn [loadable] in LD. destruct LD as (L1 & L2 & L3 & L4 & L5). assert (TL7 := tail_len _ _ _ T7). rewrite zlen_app in TL7. assert (0 <= zlen gc) by auto. assert (0 <= zlen l1) by auto. assert (LX : zlen (l2 ++ 59 :: junk) = zlen (x :: s)) by (rewrite HX; reflexivity). rewrite zlen_app in LX. assert (0 <= zlen (59 :: junk)) by auto. assert (0 <= zlen l2) by auto.
  destruct fuel as [|fuel]; [lia|].
  destruct (frame_ok W HT bg gc HW HH Hbg f l1 gp gblk gn true fuel 0 0 (mkGfx true (Packed g) (Delay g) (Transparent g)) bb [] nb (mkPal None 0 IL_PAL_NONE) 0 0 0 old (fun _ _ => 0) _ e x s FB1 T7 eq_refl LB ltac:(lia) LN GP ltac:(auto) eq_refl eq_refl (or_introl eq_refl) L2 (or_intror (or_introl eq_refl)) ltac:(discriminate) ltac:(discriminate)) as (b1_ & p1 & bb1 & pos1 & e1 & g1 & num1 & E3 & FP1 & HB1 & HG1 & LB1 & T8).
  rewrite <- HX in T8. destruct FB1 as (Q1 & Q2 & Q3 & Q4 & Q5 & Q6 & _).
  destruct (frames_ok W HT bg gc HW HH Hbg gp gblk gn GP fs l2 FB2 f (canvas_before bg true f (fun _ _ => 0)) num1 g1 bb1 [] b1_ p1 pos1 e1 junk fuel T8 HG1 LB1 ltac:(lia) L5) as (im & ims & E4 & FI & AN); auto.
  { intros Q. destruct (L4 Q) as (_ & EB & NX). split; [auto|]. split; [|exact NX]. exists (background bg (fctl f)). reflexivity. }
  exists (im :: ims). split; [|split; auto]. etransitivity; [exact E3|]. exact E4.
Qed.
End Input.
