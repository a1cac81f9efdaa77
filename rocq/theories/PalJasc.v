(** C62, C63: Paint Shop Pro palette files. *)
From Coq Require Import ZArith List Lia Bool.
From Verif Require Import Base Slices Scatter Enums Utility Image ImageProps Elem Lump LumpProofs CacheProps Channels Pal PalSpec PalProps PcxProps.
Import ListNotations.
Open Scope Z_scope.

(** ** Numbers *)
Definition decimalb (v : Z) (w : list Z) : bool :=
  negb (zlen w =? 0) && forallb (fun c => (48 <=? c) && (c <=? 57)) w && (value w =? v) && ((zlen w <=? 1) || (48 <? geti w 0)).
Lemma decimalb_ok : forall v w, decimalb v w = true -> decimal v w.
Proof.
  intros v w H. unfold decimalb in H. apply andb_prop in H as (H & H4). apply andb_prop in H as (H & H3). apply andb_prop in H as (H1 & H2).
  split; [destruct w; [discriminate|discriminate]|]. split; [|split; [lia|lia]].
  rewrite forallb_forall in H2. apply Forall_forall. intros x Hx. specialize (H2 x Hx). lia.
Qed.
Lemma print_decimal : forall v, 0 <= v < 256 -> decimal v (print_d v).
Proof.
  assert (A : forallb (fun k => decimalb (Z.of_nat k) (print_d (Z.of_nat k))) (seq 0 256) = true) by (vm_compute; reflexivity).
  intros v Hv. rewrite forallb_forall in A. specialize (A (Z.to_nat v)). rewrite Z2Nat.id in A by lia. apply decimalb_ok, A. apply in_seq. lia.
Qed.

Definition val_from (a : Z) (w : list Z) : Z := fold_left (fun a c => 10 * a + (c - 48)) w a.
Lemma val_from_ge : forall w a, Forall (fun c => 48 <= c <= 57) w -> 0 <= a -> a * 10 ^ zlen w <= val_from a w.
Proof.
  induction w as [|c w IH]; intros a HF Ha; [cbn; lia|]. inversion HF; subst. rewrite zlen_cons. unfold val_from. cbn [fold_left]. fold (val_from (10 * a + (c - 48)) w).
  assert (0 <= zlen w) by auto. rewrite Z.pow_add_r by lia. specialize (IH (10 * a + (c - 48)) ltac:(auto) ltac:(lia)). assert (0 < 10 ^ zlen w) by (apply Z.pow_pos_nonneg; lia). nia.
Qed.
Lemma decimal_short : forall v w, decimal v w -> v < 2147483648 -> zlen w < 255.
Proof.
  intros v w (Hn & HF & HV & HL) Hv. destruct w as [|c w]; [congruence|]. rewrite zlen_cons in *. assert (0 <= zlen w) by auto. inversion HF; subst.
  destruct (Z.eq_dec (zlen w) 0); [lia|]. specialize (HL ltac:(lia)). unfold geti in HL. cbn in HL.
  assert (G := val_from_ge w (10 * 0 + (c - 48)) ltac:(auto) ltac:(lia)). change (val_from (10 * 0 + (c - 48)) w) with (value (c :: w)) in G.
  destruct (Z_lt_le_dec (zlen w) 10); [lia|]. assert (10 ^ 10 <= 10 ^ zlen w) by (apply Z.pow_le_mono_r; lia). change (10 ^ 10) with 10000000000 in *. exfalso. nia.
Qed.
Lemma atoi_digits_val : forall w a, Forall (fun c => 48 <= c <= 57) w -> atoi_digits w a = val_from a w.
Proof.
  induction w as [|c w IH]; intros a HF; [reflexivity|]. inversion HF; subst. cbn [atoi_digits]. unfold isdigit. replace ((48 <=? c) && (c <=? 57)) with true by lia. rewrite IH by auto. reflexivity.
Qed.
Lemma atoi_decimal : forall v w, decimal v w -> v <= 2147483647 -> atoi w = Ok v.
Proof.
  intros v w (Hn & HF & HV & HL) Hv. assert (0 <= v). { assert (G := val_from_ge w 0 HF ltac:(lia)). change (val_from 0 w) with (value w) in G. lia. }
  destruct w as [|c w]; [congruence|]. unfold atoi. inversion HF; subst. replace (c =? 45) with false by lia. replace (c =? 43) with false by lia. rewrite atoi_digits_val by auto. change (val_from 0 (c :: w)) with (value (c :: w)). rewrite (proj2 (Z.leb_le _ _)) by lia. rewrite (proj2 (Z.leb_le _ _)) by lia. reflexivity.
Qed.

(** ** Words *)
Definition word (w : list Z) : Prop := Forall (fun c => 33 <= c <= 126) w.
Lemma fgetc_mid : forall pre c rest, fgetc (St (pre ++ c :: rest) (zlen pre)) = (c, St (pre ++ c :: rest) (zlen pre + 1)).
Proof.
  intros. unfold fgetc. cbn [spos sdata]. rewrite zlen_app, zlen_cons. assert (0 <= zlen rest) by auto. assert (0 <= zlen pre) by auto. replace (zlen pre <? zlen pre + (1 + zlen rest)) with true by lia.
  rewrite geti_app by lia. replace (zlen pre <? zlen pre) with false by lia. rewrite Z.sub_diag. reflexivity.
Qed.
Lemma fgetc_end : forall d, fgetc (St d (zlen d)) = (IL_EOF, St d (zlen d)).
Proof. intros. unfold fgetc. cbn [spos sdata]. rewrite Z.ltb_irrefl. reflexivity. Qed.
Lemma word_loop : forall w n fuel acc pre rest, word w -> (length w <= n)%nat ->
  fgetw_loop n fuel acc (St (pre ++ w ++ rest) (zlen pre)) = fgetw_loop (n - length w) fuel (acc ++ w) (St (pre ++ w ++ rest) (zlen pre + zlen w)).
Proof.
  induction w as [|c w IH]; intros n fuel acc pre rest HW Hn.
  - cbn [length app]. rewrite Nat.sub_0_r, app_nil_r, zlen_nil, Z.add_0_r. reflexivity.
  - inversion HW; subst. cbn [length] in *. destruct n as [|n]; [lia|]. cbn [fgetw_loop]. cbn [app]. rewrite fgetc_mid.
    replace ((c =? 10) || (c =? 0) || (c =? IL_EOF)) with false by (unfold IL_EOF; lia). replace (c =? 32) with false by lia.
    replace (isprint c) with true by (unfold isprint; lia). cbn [negb].
    specialize (IH n fuel (acc ++ [c]) (pre ++ [c]) rest ltac:(auto) ltac:(lia)). rewrite <- !app_assoc in IH. cbn [app] in IH. rewrite zlen_app, (zlen_cons _ c []), zlen_nil in IH. rewrite Z.add_0_r in IH. rewrite IH. rewrite zlen_cons. cbn [Nat.sub]. f_equal. f_equal. lia.
Qed.
Lemma getw_line : forall fuel w pre rest, word w -> zlen w < 255 ->
  iFgetw fuel (St (pre ++ w ++ 10 :: rest) (zlen pre)) = Ok (w, St (pre ++ w ++ 10 :: rest) (zlen pre + zlen w + 1)).
Proof.
  intros fuel w pre rest HW HL. unfold iFgetw. unfold zlen in HL. rewrite word_loop by (auto; lia). cbn [app]. destruct (255 - length w)%nat as [|n] eqn:E; [lia|].
  cbn [fgetw_loop]. rewrite app_assoc. rewrite <- (zlen_app _ pre w). rewrite fgetc_mid. cbn [Z.eqb Pos.eqb orb]. reflexivity.
Qed.
Lemma getw_space : forall fuel w pre c rest, word w -> zlen w < 255 -> c <> 32 -> (0 < fuel)%nat ->
  iFgetw fuel (St (pre ++ w ++ 32 :: c :: rest) (zlen pre)) = Ok (w, St (pre ++ w ++ 32 :: c :: rest) (zlen pre + zlen w + 1)).
Proof.
  intros fuel w pre c rest HW HL Hc Hf. unfold iFgetw. unfold zlen in HL. rewrite word_loop by (auto; lia). cbn [app]. destruct (255 - length w)%nat as [|n] eqn:E; [lia|].
  cbn [fgetw_loop]. assert (A : pre ++ w ++ 32 :: c :: rest = (pre ++ w) ++ 32 :: c :: rest) by (rewrite app_assoc; reflexivity).
  assert (B : pre ++ w ++ 32 :: c :: rest = (pre ++ w ++ [32]) ++ c :: rest) by (rewrite <- !app_assoc; reflexivity).
  assert (ZB : zlen pre + zlen w + 1 = zlen (pre ++ w ++ [32])) by (rewrite !zlen_app; change (zlen [32]) with 1; lia).
  rewrite A. rewrite <- (zlen_app _ pre w). rewrite fgetc_mid. rewrite <- A. cbn [Z.eqb Pos.eqb orb IL_EOF]. destruct fuel as [|fuel]; [lia|]. cbn [skip_while]. change (32 =? 32) with true. cbv iota.
  rewrite zlen_app, ZB. rewrite B at 1. rewrite fgetc_mid. destruct fuel; cbn [skip_while]; (replace (32 =? c) with false by lia); cbn [bind]; unfold fback; cbn [spos sdata]; assert (0 <= zlen (pre ++ w ++ [32])) by auto;
    replace (0 <? zlen (pre ++ w ++ [32]) + 1) with true by lia; rewrite <- B; rewrite Z.add_simpl_r; reflexivity.
Qed.

(** ** Loading *)
Definition flat (cs : list rgba) : list Z := concat (map (fun c => [red c; green c; blue c]) cs).
Definition byte_colour (c : rgba) : Prop := 0 <= red c < 256 /\ 0 <= green c < 256 /\ 0 <= blue c < 256.
Lemma zlen_flat : forall cs, zlen (flat cs) = 3 * zlen cs.
Proof. induction cs as [|c cs IH]; [reflexivity|]. unfold flat in *. cbn [map concat]. rewrite zlen_app, IH, (zlen_cons _ c cs). change (zlen [red c; green c; blue c]) with 3. lia. Qed.
Lemma decimal_word : forall v w, decimal v w -> word w.
Proof. intros v w (_ & HF & _). eapply Forall_impl; [|exact HF]. cbn. intros; lia. Qed.
Lemma decimal_head : forall v w, decimal v w -> exists c w', w = c :: w' /\ c <> 32.
Proof. intros v w (Hn & HF & _). destruct w as [|c w']; [congruence|]. inversion HF; subst. exists c, w'. split; [reflexivity|lia]. Qed.
Lemma line_ok : forall fuel i p pre r g b l rest n, psp_line r g b l -> 0 <= r < 256 -> 0 <= g < 256 -> 0 <= b < 256 -> (0 < fuel)%nat -> 0 <= i -> i + 3 <= zlen p ->
  jasc_numbers (S (S (S n))) fuel i p (St (pre ++ l ++ rest) (zlen pre)) = jasc_numbers n fuel (i + 3) (splice p i [r; g; b]) (St (pre ++ l ++ rest) (zlen pre + zlen l)).
Proof.
  intros fuel i p pre r g b l rest n HL Hr Hg Hb Hf Hi HP. destruct HL as [r g b x y z Dx Dy Dz].
  destruct (decimal_head _ _ Dy) as (cy & y' & Ey & Ny). destruct (decimal_head _ _ Dz) as (cz & z' & Ez & Nz).
  assert (Sx := decimal_short _ _ Dx ltac:(lia)). assert (Sy := decimal_short _ _ Dy ltac:(lia)). assert (Sz := decimal_short _ _ Dz ltac:(lia)).
  set (F := pre ++ (x ++ [32] ++ y ++ [32] ++ z ++ [10]) ++ rest).
  assert (F1 : F = pre ++ x ++ 32 :: cy :: (y' ++ [32] ++ z ++ [10] ++ rest)) by (unfold F; rewrite Ey; rewrite <- !app_assoc; cbn [app]; rewrite <- ?app_assoc; reflexivity).
  assert (F2 : F = (pre ++ x ++ [32]) ++ y ++ 32 :: cz :: (z' ++ [10] ++ rest)) by (unfold F; rewrite Ez; rewrite <- !app_assoc; cbn [app]; rewrite <- ?app_assoc; reflexivity).
  assert (F3 : F = (pre ++ x ++ [32] ++ y ++ [32]) ++ z ++ 10 :: rest) by (unfold F; rewrite <- !app_assoc; reflexivity).
  assert (Z2 : zlen pre + zlen x + 1 = zlen (pre ++ x ++ [32])) by (rewrite !zlen_app; change (zlen [32]) with 1; lia).
  assert (Z3 : zlen (pre ++ x ++ [32]) + zlen y + 1 = zlen (pre ++ x ++ [32] ++ y ++ [32])) by (rewrite !zlen_app; change (zlen [32]) with 1; lia).
  assert (Z4 : zlen (pre ++ x ++ [32] ++ y ++ [32]) + zlen z + 1 = zlen pre + zlen (x ++ [32] ++ y ++ [32] ++ z ++ [10])) by (rewrite !zlen_app; change (zlen [32]) with 1; change (zlen [10]) with 1; lia).
  clearbody F. cbn [jasc_numbers].
  rewrite F1 at 1. rewrite getw_space by (auto; eapply decimal_word; eassumption). rewrite <- F1, Z2. cbn [bind]. rewrite (atoi_decimal r x Dx) by lia. cbn [bind]. rewrite u8_small by lia. rewrite wr_ok by lia. cbn [bind].
  rewrite F2 at 1. rewrite getw_space by (auto; eapply decimal_word; eassumption). rewrite <- F2, Z3. cbn [bind]. rewrite (atoi_decimal g y Dy) by lia. cbn [bind]. rewrite u8_small by lia. rewrite wr_ok by (rewrite zlen_upd; lia). cbn [bind].
  rewrite F3 at 1. rewrite getw_line by (auto; eapply decimal_word; eassumption). rewrite <- F3, Z4. cbn [bind]. rewrite (atoi_decimal b z Dz) by lia. cbn [bind]. rewrite u8_small by lia. rewrite wr_ok by (rewrite !zlen_upd by (rewrite ?zlen_upd; lia); lia). cbn [bind].
  replace (i + 1 + 1 + 1) with (i + 3) by lia. f_equal. apply list_ext.
  - rewrite !zlen_upd by (rewrite ?zlen_upd by (rewrite ?zlen_upd; lia); lia). rewrite zlen_splice by (change (zlen [r; g; b]) with 3; lia). reflexivity.
  - intros q Hq. rewrite !zlen_upd in Hq by (rewrite ?zlen_upd by (rewrite ?zlen_upd; lia); lia). rewrite !geti_upd by (rewrite ?zlen_upd by (rewrite ?zlen_upd; lia); lia). rewrite geti_splice by (change (zlen [r; g; b]) with 3; lia). change (zlen [r; g; b]) with 3.
    destruct (q =? i + 1 + 1) eqn:E1; [replace q with (i + 2) by lia; replace ((i <=? i + 2) && (i + 2 <? i + 3)) with true by lia; replace (i + 2 - i) with 2 by lia; reflexivity|].
    destruct (q =? i + 1) eqn:E2; [replace q with (i + 1) by lia; replace ((i <=? i + 1) && (i + 1 <? i + 3)) with true by lia; replace (i + 1 - i) with 1 by lia; reflexivity|].
    destruct (q =? i) eqn:E3; [replace q with i by lia; replace ((i <=? i) && (i <? i + 3)) with true by lia; replace (i - i) with 0 by lia; reflexivity|].
    replace ((i <=? q) && (q <? i + 3)) with false by lia. reflexivity.
Qed.

Lemma lines_ok : forall cs ls, psp_lines cs ls -> Forall byte_colour cs -> forall fuel i p pre rest, (0 < fuel)%nat -> 0 <= i -> i + 3 * zlen cs <= zlen p ->
  jasc_numbers (3 * length cs) fuel i p (St (pre ++ ls ++ rest) (zlen pre)) = Ok (splice p i (flat cs), St (pre ++ ls ++ rest) (zlen pre + zlen ls)).
Proof.
  intros cs ls H. induction H as [|c cs l ls HL HS IH]; intros HB fuel i p pre rest Hf Hi HP.
  - rewrite zlen_nil in HP. cbn [length Nat.mul jasc_numbers flat map concat]. rewrite LumpProofs.splice_nil by lia. rewrite zlen_nil, Z.add_0_r. reflexivity.
  - inversion HB as [|? ? (B1 & B2 & B3) HB']; subst. rewrite zlen_cons in HP. assert (0 <= zlen cs) by auto.
    replace (3 * length (c :: cs))%nat with (S (S (S (3 * length cs)))) by (cbn [length]; lia).
    rewrite <- app_assoc. rewrite (line_ok fuel i p pre (red c) (green c) (blue c) l (ls ++ rest)) by (auto; lia).
    assert (A : pre ++ l ++ ls ++ rest = (pre ++ l) ++ ls ++ rest) by (rewrite <- !app_assoc; reflexivity). rewrite A. rewrite <- zlen_app.
    rewrite IH; auto; [|lia|rewrite zlen_splice by (change (zlen [red c; green c; blue c]) with 3; lia); lia].
    f_equal. f_equal; [|f_equal; rewrite !zlen_app; lia].
    change (flat (c :: cs)) with ([red c; green c; blue c] ++ flat cs).
    replace (i + 3) with (i + zlen [red c; green c; blue c]) by reflexivity. apply CacheProps.splice_splice_adj; [lia|]. rewrite zlen_flat. change (zlen [red c; green c; blue c]) with 3. lia.
Qed.

(** C62a: loading a palette file gives exactly the colours in the file. *)
Theorem C62_load : forall alloc fuel im cs F, allocator_ok alloc -> psp_file cs F -> Forall byte_colour cs -> 0 < 3 * zlen cs < 2 ^ 31 -> (0 < fuel)%nat ->
  alloc (3 * zlen cs) <> None ->
  exists d, ilLoadJascPal alloc fuel im F = Ok (true, with_Pal im (mkPal (Some d) (3 * zlen cs) IL_PAL_RGB24)) /\
    zlen d = 3 * zlen cs /\ forall i, 0 <= i < zlen cs -> let c := nth (Z.to_nat i) cs (RGBA 0 0 0 0) in colour IL_PAL_RGB24 d i = RGBA (red c) (green c) (blue c) 255.
Proof.
  intros alloc fuel im cs F HA HF HB Hn Hf A. change (2 ^ 31) with 2147483648 in Hn. destruct HF as [cs n ls Dn HL].
  exists (flat cs). split; [|split; [apply zlen_flat|]].
  - unfold ilLoadJascPal. assert (DP : forall q, with_Pal (drop_pal im) q = with_Pal im q) by (intros q; unfold drop_pal; match goal with |- context [if ?b then _ else _] => destruct b end; reflexivity).
    set (im1 := drop_pal im) in *. clearbody im1.
    set (h1 := [74; 65; 83; 67; 45; 80; 65; 76]). set (h2 := [48; 49; 48; 48]).
    set (F := [74; 65; 83; 67; 45; 80; 65; 76; 10] ++ [48; 49; 48; 48; 10] ++ n ++ [10] ++ ls).
    assert (F1 : F = [] ++ h1 ++ 10 :: ([48; 49; 48; 48; 10] ++ n ++ [10] ++ ls)) by reflexivity.
    assert (F2 : F = (h1 ++ [10]) ++ h2 ++ 10 :: (n ++ [10] ++ ls)) by reflexivity.
    assert (F3 : F = (h1 ++ [10] ++ h2 ++ [10]) ++ n ++ 10 :: ls) by reflexivity.
    assert (F4 : F = (h1 ++ [10] ++ h2 ++ [10] ++ n ++ [10]) ++ ls ++ []) by (rewrite app_nil_r; unfold F, h1, h2; cbn [app]; rewrite <- ?app_assoc; reflexivity).
    assert (W1 : word h1) by (unfold h1; repeat constructor; lia). assert (W2 : word h2) by (unfold h2; repeat constructor; lia).
    assert (Sn := decimal_short _ _ Dn ltac:(lia)).
    assert (E1 : zlen (@nil Z) + zlen h1 + 1 = zlen (h1 ++ [10])) by reflexivity. assert (E2 : zlen (h1 ++ [10]) + zlen h2 + 1 = zlen (h1 ++ [10] ++ h2 ++ [10])) by reflexivity.
    assert (E3 : zlen (h1 ++ [10] ++ h2 ++ [10]) + zlen n + 1 = zlen (h1 ++ [10] ++ h2 ++ [10] ++ n ++ [10])) by (rewrite !zlen_app; change (zlen [10]) with 1; lia).
    clearbody F. cbv zeta.
    rewrite F1 at 1. change (St ([] ++ h1 ++ 10 :: [48; 49; 48; 48; 10] ++ n ++ [10] ++ ls) 0) with (St ([] ++ h1 ++ 10 :: [48; 49; 48; 48; 10] ++ n ++ [10] ++ ls) (zlen (@nil Z))).
    rewrite getw_line by (auto; reflexivity). rewrite <- F1, E1. cbn [bind].
    rewrite F2 at 1. rewrite getw_line by (auto; reflexivity). rewrite <- F2, E2. cbn [bind].
    rewrite F3 at 1. rewrite getw_line by (auto; eapply decimal_word; eassumption). rewrite <- F3, E3. cbn [bind].
    rewrite (atoi_decimal _ _ Dn) by lia. cbn [bind]. rewrite (u32_small (zlen cs)) by lia. replace (zlen cs =? 0) with false by lia.
    change (stricmp_eq h1 [74; 65; 83; 67; 45; 80; 65; 76]) with true. change (stricmp_eq h2 [48; 49; 48; 48]) with true. cbn [orb negb]. cbv zeta. rewrite (u32_small (zlen cs * 3)) by lia.
    replace (zlen cs * 3) with (3 * zlen cs) by ring. destruct (alloc (3 * zlen cs)) as [p|] eqn:EA; [|congruence]. assert (LP := HA _ _ EA).
    replace (Z.to_nat (3 * zlen cs)) with (3 * length cs)%nat by (unfold zlen; lia).
    rewrite F4. rewrite (lines_ok cs ls HL HB fuel 0 p) by (auto; lia). cbn [bind]. rewrite DP. rewrite splice_full by (rewrite zlen_flat; lia). reflexivity.
  - intros i Hi. cbv zeta. clear - Hi. unfold colour. change (colour_size IL_PAL_RGB24) with 3. change (blue_first IL_PAL_RGB24) with false. change (with_alpha IL_PAL_RGB24) with false. cbv iota zeta.
    assert (G : forall k, 0 <= k < 3 -> geti (flat cs) (i * 3 + k) = geti (let c := nth (Z.to_nat i) cs (RGBA 0 0 0 0) in [red c; green c; blue c]) k).
    { revert i Hi. induction cs as [|c cs IH]; intros i Hi k Hk; [rewrite zlen_nil in Hi; lia|]. rewrite zlen_cons in Hi.
      change (flat (c :: cs)) with ([red c; green c; blue c] ++ flat cs). rewrite geti_app by lia. change (zlen [red c; green c; blue c]) with 3.
      destruct (Z.eq_dec i 0) as [->|N].
      - replace (0 * 3 + k <? 3) with true by lia. reflexivity.
      - replace (i * 3 + k <? 3) with false by lia. replace (i * 3 + k - 3) with ((i - 1) * 3 + k) by lia. rewrite IH by lia. replace (Z.to_nat i) with (S (Z.to_nat (i - 1))) by lia. reflexivity. }
    assert (G0 := G 0 ltac:(lia)). rewrite Z.add_0_r in G0. rewrite G0, (G 1), (G 2) by lia. reflexivity.
Qed.
Print Assumptions C62_load.

(** ** Saving *)
Definition pal_colours (t : Z) (d : list Z) (n : Z) : list rgba := map (fun i => colour t d (Z.of_nat i)) (seq 0 (Z.to_nat n)).
Definition black : rgba := RGBA 0 0 0 255.

Lemma lines_app : forall a la b lb, psp_lines a la -> psp_lines b lb -> psp_lines (a ++ b) (la ++ lb).
Proof. intros a la b lb H HB. induction H; [exact HB|]. cbn [app]. rewrite <- app_assoc. constructor; auto. Qed.
Lemma line_print : forall c, byte_colour c -> psp_line (red c) (green c) (blue c) (jasc_line (red c) (green c) (blue c)).
Proof. intros c (B1 & B2 & B3). unfold jasc_line. apply PspLine; apply print_decimal; auto. Qed.
Lemma lines_black : forall k, psp_lines (repeat black k) (concat (repeat (jasc_line 0 0 0) k)).
Proof. induction k as [|k IH]; cbn [repeat concat]; [constructor|]. constructor; [|exact IH]. apply (line_print black). unfold byte_colour, black. cbn. lia. Qed.

Lemma colour_bytes : forall t d n i, zlen d = n * colour_size t -> bytes d -> 0 <= i < n -> byte_colour (colour t d i).
Proof.
  intros t d n i HL HB Hi. assert (C := cs_cases t). unfold colour, byte_colour.
  assert (B : forall k, 0 <= k < 3 -> 0 <= geti d (i * colour_size t + k) < 256) by (intros k Hk; apply HB; nia).
  assert (B0 := B 0 ltac:(lia)). rewrite Z.add_0_r in B0. assert (B1 := B 1 ltac:(lia)). assert (B2 := B 2 ltac:(lia)). cbv zeta. destruct (blue_first t); cbn [red green blue]; auto.
Qed.

(** C62b: the file that is written is a palette file of 256 colours: those of the palette, whatever its type, then
    black.  The palette of the image is afterwards declared to be of type RGB24. *)
Theorem C62_save : forall alloc im n d, allocator_ok alloc -> palette_of (Pal im) n d -> bytes d -> 0 < n <= 256 ->
  alloc (zlen d) <> None -> alloc 16 <> None -> alloc (n * 3) <> None ->
  exists F, ilSaveJascPal alloc im = Ok (true, Some F, with_Pal im (mkPal (Some d) (n * 3) IL_PAL_RGB24)) /\
    psp_file (pal_colours (PalType (Pal im)) d n ++ repeat black (Z.to_nat (256 - n))) F.
Proof.
  intros alloc im n d HA HP HB Hn A1 A2 A3. assert (HP' := HP). destruct HP' as (HT & HD & HS & HL).
  assert (C1 := cs_cases (PalType (Pal im))). unfold ilSaveJascPal.
  assert (EN : pal_num_cols (Pal im) = Ok n).
  { unfold pal_num_cols. rewrite HD. assert (TN : (PalType (Pal im) =? IL_PAL_NONE) = false /\ ilGetBppPal (PalType (Pal im)) = colour_size (PalType (Pal im))).
    { unfold pal_type in HT. cbn [In] in HT. destruct HT as [<-|[<-|[<-|[<-|[<-|[<-|[]]]]]]]; split; reflexivity. }
    destruct TN as (-> & ->). replace (PalSize (Pal im) =? 0) with false by nia. cbn [orb]. rewrite HS, HL. replace (colour_size (PalType (Pal im)) =? 0) with false by lia. rewrite Z.div_mul by lia. reflexivity. }
  rewrite EN. cbn [bind]. replace (n =? 0) with false by lia. replace (256 <? n) with false by lia. cbn [orb]. rewrite HD, HS.
  destruct (alloc (zlen d)) as [copy|] eqn:EA; [|congruence]. assert (LC := HA _ _ EA). rewrite memcpy_ok by nia. cbn [bind].
  assert (E : splice copy 0 (slice d 0 (zlen d)) = d) by (rewrite slice_all; apply splice_full; lia). rewrite E. cbv zeta.
  destruct (C61_current_partial alloc (with_Pal im (mkPal (Some d) (zlen d) (PalType (Pal im)))) IL_PAL_RGB24 n d) as (im' & d' & -> & EI & HP2 & HT2 & HC); auto; try lia.
  { repeat split; auto. } { unfold pal_type. cbn. auto. }
  cbn [bind negb]. destruct HP2 as (_ & HD2 & HS2 & HL2). rewrite HD2, HS2, HT2. rewrite HT2 in HL2. change (colour_size IL_PAL_RGB24) with 3 in HL2. rewrite HL2. change (ilGetBppPal IL_PAL_RGB24) with 3.
  assert (HC' : forall i, 0 <= i < n -> colour (PalType (Pal im)) d i = RGBA (geti d' (i * 3)) (geti d' (i * 3 + 1)) (geti d' (i * 3 + 2)) (alpha (colour (PalType (Pal im)) d i))).
  { intros i Hi. specialize (HC i Hi). rewrite HT2 in HC. cbn [Pal with_Pal PalType] in HC. unfold colour at 1 in HC. unfold held in HC. change (colour_size IL_PAL_RGB24) with 3 in HC. change (blue_first IL_PAL_RGB24) with false in HC. change (with_alpha IL_PAL_RGB24) with false in HC. cbv iota zeta in HC.
    injection HC as -> -> ->. destruct (colour (PalType (Pal im)) d i); reflexivity. }
  rewrite stride_loop by lia.
  match goal with |- context [loop 0 n ?f jasc_head] => destruct (loop_rule _ (fun p F => exists ls, F = jasc_head ++ ls /\ psp_lines (pal_colours (PalType (Pal im)) d p) ls) 0 n f jasc_head) as (F & -> & ls & EF & PL); [lia| | |] end.
  { exists []. rewrite app_nil_r. split; [reflexivity|constructor]. }
  { intros i F Hi (ls & -> & PL). rewrite !(rd_ok d') by lia. cbn [bind]. eexists. split; [reflexivity|]. exists (ls ++ jasc_line (geti d' (i * 3)) (geti d' (i * 3 + 1)) (geti d' (i * 3 + 2))).
    split; [rewrite app_assoc; reflexivity|]. unfold pal_colours in *. replace (Z.to_nat (i + 1)) with (Z.to_nat i + 1)%nat by lia. rewrite seq_app, map_app. apply lines_app; [exact PL|]. cbn [seq map]. rewrite Nat.add_0_l, Z2Nat.id by lia.
    rewrite <- (app_nil_r (jasc_line _ _ _)). apply PspCons; [|apply PspNil]. assert (B := colour_bytes _ d n i HL HB Hi). rewrite (HC' i Hi) in B |- *. cbn [red green blue]. apply (line_print (RGBA (geti d' (i * 3)) (geti d' (i * 3 + 1)) (geti d' (i * 3 + 2)) 0)). exact B. }
  cbn [bind]. eexists. split.
  - rewrite EI. reflexivity.
  - rewrite EF. unfold jasc_head. rewrite <- app_assoc.
    apply (PspFile _ [50; 53; 54] (ls ++ concat (repeat (jasc_line 0 0 0) (Z.to_nat (256 - n))))).
    + unfold pal_colours. rewrite zlen_app. unfold zlen. rewrite map_length, seq_length, repeat_length. replace (Z.of_nat (Z.to_nat n) + Z.of_nat (Z.to_nat (256 - n))) with 256 by lia. apply decimalb_ok. reflexivity.
    + apply lines_app; [exact PL|apply lines_black].
Qed.
Print Assumptions C62_save.

(** C62: saving a palette of up to 256 colours of any type and loading the file gives these colours, then black ones. *)
Theorem C62_roundtrip : forall alloc fuel im im2 n d, allocator_ok alloc -> palette_of (Pal im) n d -> bytes d -> 0 < n <= 256 -> (0 < fuel)%nat ->
  alloc (zlen d) <> None -> alloc 16 <> None -> alloc (n * 3) <> None -> alloc 768 <> None ->
  exists F im1 q, ilSaveJascPal alloc im = Ok (true, Some F, im1) /\ ilLoadJascPal alloc fuel im2 F = Ok (true, with_Pal im2 (mkPal (Some q) 768 IL_PAL_RGB24)) /\
    zlen q = 768 /\ forall i, 0 <= i < 256 -> colour IL_PAL_RGB24 q i = held IL_PAL_RGB24 (if i <? n then colour (PalType (Pal im)) d i else black).
Proof.
  intros alloc fuel im im2 n d HA HP HB Hn Hf A1 A2 A3 A4.
  destruct (C62_save alloc im n d HA HP HB Hn A1 A2 A3) as (F & ES & HF). assert (HL : zlen d = n * colour_size (PalType (Pal im))) by (destruct HP as (_ & _ & _ & HL); exact HL).
  set (cs := pal_colours (PalType (Pal im)) d n ++ repeat black (Z.to_nat (256 - n))) in *.
  assert (LC : zlen cs = 256). { unfold cs, pal_colours. rewrite zlen_app. unfold zlen. rewrite map_length, seq_length, repeat_length. lia. }
  assert (BC : Forall byte_colour cs).
  { unfold cs, pal_colours. apply Forall_app. split.
    - apply Forall_forall. intros c Hc. apply in_map_iff in Hc as (k & <- & Hk). apply in_seq in Hk. apply (colour_bytes _ d n); auto; lia.
    - apply Forall_forall. intros c Hc. apply repeat_spec in Hc as ->. unfold byte_colour, black. cbn. lia. }
  destruct (C62_load alloc fuel im2 cs F) as (q & EL & LQ & GQ); auto; try lia. { rewrite LC. exact A4. }
  rewrite LC in *. change (3 * 256) with 768 in *. exists F, (with_Pal im (mkPal (Some d) (n * 3) IL_PAL_RGB24)), q. split; [exact ES|]. split; [exact EL|]. split; [exact LQ|].
  intros i Hi. specialize (GQ i Hi). cbv zeta in GQ. rewrite GQ.
  assert (EN : nth (Z.to_nat i) cs (RGBA 0 0 0 0) = if i <? n then colour (PalType (Pal im)) d i else black).
  { unfold cs, pal_colours. destruct (i <? n) eqn:E.
    - rewrite app_nth1 by (rewrite map_length, seq_length; lia). rewrite (nth_indep _ _ (colour (PalType (Pal im)) d (Z.of_nat 0))) by (rewrite map_length, seq_length; lia). rewrite (map_nth (fun i => colour (PalType (Pal im)) d (Z.of_nat i))). rewrite seq_nth by lia. rewrite Nat.add_0_l, Z2Nat.id by lia. reflexivity.
    - rewrite app_nth2 by (rewrite map_length, seq_length; lia). rewrite map_length, seq_length. rewrite (nth_indep _ _ black) by (rewrite repeat_length; lia). apply nth_repeat. }
  rewrite EN. reflexivity.
Qed.
Print Assumptions C62_roundtrip.

(** C62c: with a palette of type RGB24 the image is as before. *)
Theorem C62_image_partial : forall alloc im n d, allocator_ok alloc -> palette_of (Pal im) n d -> bytes d -> 0 < n <= 256 -> PalType (Pal im) = IL_PAL_RGB24 ->
  alloc (zlen d) <> None -> alloc 16 <> None -> alloc (n * 3) <> None ->
  exists F, ilSaveJascPal alloc im = Ok (true, Some F, im).
Proof.
  intros alloc im n d HA HP HB Hn HT A1 A2 A3. destruct (C62_save alloc im n d HA HP HB Hn A1 A2 A3) as (F & E & _). exists F. rewrite E. repeat f_equal.
  destruct HP as (_ & HD & HS & HL). rewrite HT in HL. change (colour_size IL_PAL_RGB24) with 3 in HL. destruct im. cbn in *. unfold with_Pal. cbn. f_equal. destruct Pal. cbn in *. subst. congruence.
Qed.
Print Assumptions C62_image_partial.

(** C62d: with any other type it is not: the palette of the image is declared to be RGB24 while its bytes stay, so
    that here red and blue are exchanged, and with the types of four bytes a colour is read at the wrong place. *)
Definition ex_bgr (im : img) : img := with_Pal im (mkPal (Some [1; 2; 3]) 3 IL_PAL_BGR24).
Definition ex_bgr32 (im : img) : img := with_Pal im (mkPal (Some [1; 2; 3; 0; 4; 5; 6; 0]) 8 IL_PAL_BGR32).
Theorem C62_image_refuted : forall alloc im, allocator_ok alloc -> (forall n, 0 <= n < 4294967296 -> alloc n <> None) ->
  (exists F im', ilSaveJascPal alloc (ex_bgr im) = Ok (true, Some F, im') /\ palette_of (Pal im') 1 [1; 2; 3] /\
     colour (PalType (Pal (ex_bgr im))) [1; 2; 3] 0 = RGBA 3 2 1 255 /\ colour (PalType (Pal im')) [1; 2; 3] 0 = RGBA 1 2 3 255) /\
  (exists F im', ilSaveJascPal alloc (ex_bgr32 im) = Ok (true, Some F, im') /\
     colour (PalType (Pal (ex_bgr32 im))) [1; 2; 3; 0; 4; 5; 6; 0] 1 = RGBA 6 5 4 255 /\ colour (PalType (Pal im')) [1; 2; 3; 0; 4; 5; 6; 0] 1 = RGBA 0 4 5 255).
Proof.
  intros alloc im HA HS. split.
  - destruct (C62_save alloc (ex_bgr im) 1 [1; 2; 3]) as (F & E & _); auto; try (apply HS; cbn; lia); try lia.
    { unfold palette_of, pal_type. cbn. repeat split; auto 10. }
    { apply bytes_Forall. repeat (apply Forall_cons; [lia|]). constructor. }
    do 2 eexists. split; [exact E|]. split; [|split; reflexivity]. unfold palette_of, pal_type. cbn. repeat split; auto 10.
  - destruct (C62_save alloc (ex_bgr32 im) 2 [1; 2; 3; 0; 4; 5; 6; 0]) as (F & E & _); auto; try (apply HS; cbn; lia); try lia.
    { unfold palette_of, pal_type. cbn. repeat split; auto 10. }
    { apply bytes_Forall. repeat (apply Forall_cons; [lia|]). constructor. }
    do 2 eexists. split; [exact E|]. split; reflexivity.
Qed.
Print Assumptions C62_image_refuted.

(** ** C63: loading arbitrary palette files *)
Definition nonprint_hang : forall fuel d, skip_while fuel (fun t => negb (isprint t)) IL_EOF (St d (zlen d)) = Fuel.
Proof. induction fuel as [|fuel IH]; intros d; [reflexivity|]. cbn [skip_while]. change (negb (isprint IL_EOF)) with true. cbv iota. rewrite fgetc_end. apply IH. Qed.

Lemma getw_hang : forall fuel w pre, word w -> zlen w < 255 -> iFgetw fuel (St (pre ++ w ++ [13; 10]) (zlen pre)) = Fuel.
Proof.
  intros fuel w pre HW HL. unfold iFgetw. unfold zlen in HL. rewrite word_loop by (auto; lia). cbn [app]. destruct (255 - length w)%nat as [|n] eqn:E; [lia|].
  cbn [fgetw_loop]. rewrite app_assoc. rewrite <- (zlen_app _ pre w). rewrite fgetc_mid. cbv iota beta. replace ((13 =? 10) || (13 =? 0) || (13 =? IL_EOF)) with false by reflexivity. change (13 =? 32) with false. change (negb (isprint 13)) with true. cbv iota.
  assert (K : skip_while fuel (fun t => negb (isprint t)) 13 (St ((pre ++ w) ++ [13; 10]) (zlen (pre ++ w) + 1)) = Fuel).
  { destruct fuel as [|fuel]; [reflexivity|]. cbn [skip_while]. change (negb (isprint 13)) with true. cbv iota.
    replace ((pre ++ w) ++ [13; 10]) with (((pre ++ w) ++ [13]) ++ [10]) by (rewrite <- app_assoc; reflexivity).
    replace (zlen (pre ++ w) + 1) with (zlen ((pre ++ w) ++ [13])) by (rewrite (zlen_app _ (pre ++ w)); reflexivity). rewrite fgetc_mid. cbv iota beta.
    destruct fuel as [|fuel]; [reflexivity|]. cbn [skip_while]. change (negb (isprint 10)) with true. cbv iota.
    replace (zlen ((pre ++ w) ++ [13]) + 1) with (zlen (((pre ++ w) ++ [13]) ++ [10])) by (rewrite (zlen_app _ ((pre ++ w) ++ [13])); reflexivity). rewrite fgetc_end. apply nonprint_hang. }
  rewrite K. reflexivity.
Qed.

(** a palette of one colour, with lines ending as on Windows *)
Definition crlf_file : list Z :=
  [74; 65; 83; 67; 45; 80; 65; 76; 13; 10; 48; 49; 48; 48; 13; 10; 49; 13; 10; 50; 53; 53; 32; 48; 32; 48; 13; 10].
(** C63a: the loader never returns from it, however long it runs *)
Theorem C63_hang_refuted : forall alloc im fuel, allocator_ok alloc -> alloc 3 <> None -> ilLoadJascPal alloc fuel im crlf_file = Fuel.
Proof.
  intros alloc im fuel HA A3. destruct fuel as [|[|fuel]]; [reflexivity|reflexivity|].
  unfold ilLoadJascPal. set (fl := S (S fuel)).
  assert (W1 : iFgetw fl (St crlf_file 0) = Ok ([74; 65; 83; 67; 45; 80; 65; 76], St crlf_file 10)) by (destruct fuel; reflexivity).
  assert (W2 : iFgetw fl (St crlf_file 10) = Ok ([48; 49; 48; 48], St crlf_file 16)) by (destruct fuel; reflexivity).
  assert (W3 : iFgetw fl (St crlf_file 16) = Ok ([49], St crlf_file 19)) by (destruct fuel; reflexivity).
  assert (W4 : iFgetw fl (St crlf_file 19) = Ok ([50; 53; 53], St crlf_file 23)) by (destruct fuel; reflexivity).
  assert (W5 : iFgetw fl (St crlf_file 23) = Ok ([48], St crlf_file 25)) by (destruct fuel; reflexivity).
  assert (W6 : iFgetw fl (St crlf_file 25) = Fuel).
  { assert (H := getw_hang fl [48] (firstn 25 crlf_file)). change (firstn 25 crlf_file ++ [48] ++ [13; 10]) with crlf_file in H. change (zlen (firstn 25 crlf_file)) with 25 in H. apply H; [|reflexivity]. apply Forall_cons; [lia|constructor]. }
  clearbody fl. rewrite W1. cbn [bind]. rewrite W2. cbn [bind]. rewrite W3. cbn [bind]. change (atoi [49]) with (@Ok Z 1). cbn [bind]. change (u32 1) with 1.
  change (1 =? 0) with false. cbn [orb]. change (stricmp_eq [74; 65; 83; 67; 45; 80; 65; 76] [74; 65; 83; 67; 45; 80; 65; 76]) with true. change (stricmp_eq [48; 49; 48; 48] [48; 49; 48; 48]) with true. cbn [negb orb]. cbv zeta.
  change (u32 (1 * 3)) with 3. destruct (alloc 3) as [p|] eqn:EA; [|congruence]. assert (LP := HA _ _ EA). change (Z.to_nat (1 * 3)) with 3%nat.
  cbn [jasc_numbers]. rewrite W4. cbn [bind]. change (atoi [50; 53; 53]) with (@Ok Z 255). cbn [bind]. rewrite wr_ok by lia. cbn [bind]. rewrite W5. cbn [bind]. change (atoi [48]) with (@Ok Z 0). cbn [bind]. rewrite wr_ok by (rewrite zlen_upd; lia). cbn [bind]. rewrite W6. reflexivity.
Qed.
Print Assumptions C63_hang_refuted.

(** C63b: a number of colours of 1431655766 makes the loader write behind the two bytes it has allocated. *)
Definition big_file : list Z :=
  [74; 65; 83; 67; 45; 80; 65; 76; 10; 48; 49; 48; 48; 10; 49; 52; 51; 49; 54; 53; 53; 55; 54; 54; 10; 49; 32; 50; 32; 51; 10].
Theorem C63_overflow_refuted : forall alloc im fuel, allocator_ok alloc -> alloc 2 <> None -> (0 < fuel)%nat -> ilLoadJascPal alloc fuel im big_file = UB.
Proof.
  intros alloc im fuel HA A2 Hf. destruct fuel as [|fuel]; [lia|]. unfold ilLoadJascPal. set (fl := S fuel).
  assert (W1 : iFgetw fl (St big_file 0) = Ok ([74; 65; 83; 67; 45; 80; 65; 76], St big_file 9)) by (destruct fuel; reflexivity).
  assert (W2 : iFgetw fl (St big_file 9) = Ok ([48; 49; 48; 48], St big_file 14)) by (destruct fuel; reflexivity).
  assert (W3 : iFgetw fl (St big_file 14) = Ok ([49; 52; 51; 49; 54; 53; 53; 55; 54; 54], St big_file 25)) by (destruct fuel; reflexivity).
  assert (W4 : iFgetw fl (St big_file 25) = Ok ([49], St big_file 27)) by (destruct fuel; reflexivity).
  assert (W5 : iFgetw fl (St big_file 27) = Ok ([50], St big_file 29)) by (destruct fuel; reflexivity).
  assert (W6 : iFgetw fl (St big_file 29) = Ok ([51], St big_file 31)) by (destruct fuel; reflexivity).
  clearbody fl. rewrite W1. cbn [bind]. rewrite W2. cbn [bind]. rewrite W3. cbn [bind]. change (atoi [49; 52; 51; 49; 54; 53; 53; 55; 54; 54]) with (@Ok Z 1431655766). cbn [bind]. change (u32 1431655766) with 1431655766.
  change (1431655766 =? 0) with false. cbn [orb]. change (stricmp_eq [74; 65; 83; 67; 45; 80; 65; 76] [74; 65; 83; 67; 45; 80; 65; 76]) with true. change (stricmp_eq [48; 49; 48; 48] [48; 49; 48; 48]) with true. cbn [negb orb]. cbv zeta.
  change (u32 (1431655766 * 3)) with 2. destruct (alloc 2) as [p|] eqn:EA; [|congruence]. assert (LP := HA _ _ EA).
  assert (EX : exists m, Z.to_nat (1431655766 * 3) = S (S (S m))).
  { exists (Z.to_nat (1431655766 * 3 - 3)). set (k := 1431655766 * 3). assert (3 <= k) by (unfold k; lia). clearbody k. lia. }
  destruct EX as (m & ->). cbn [jasc_numbers]. rewrite W4. cbn [bind]. change (atoi [49]) with (@Ok Z 1). cbn [bind]. rewrite wr_ok by lia. cbn [bind]. rewrite W5. cbn [bind]. change (atoi [50]) with (@Ok Z 2). cbn [bind]. rewrite wr_ok by (rewrite zlen_upd; lia). cbn [bind]. rewrite W6. cbn [bind]. change (atoi [51]) with (@Ok Z 3). cbn [bind].
  rewrite wr_ub by (rewrite !zlen_upd by (rewrite ?zlen_upd; lia); lia). reflexivity.
Qed.
Print Assumptions C63_overflow_refuted.

(** C63: files of printable characters and newlines, where no number has more than nine digits or a minus sign, are read to
    the end: the loader returns, and with success there is a palette of as many bytes as it claims to have. *)
Definition digit (c : Z) : Prop := 48 <= c <= 57.
Definition text (F : list Z) : Prop := forall i, 0 <= i < zlen F -> geti F i = 10 \/ 32 <= geti F i <= 126.
Definition short_numbers (F : list Z) : Prop := forall i, 0 <= i -> i + 10 <= zlen F -> exists k, 0 <= k < 10 /\ ~ digit (geti F (i + k)).
Definition no_negatives (F : list Z) : Prop := forall i, 0 <= i -> i + 1 < zlen F -> geti F i = 45 -> ~ digit (geti F (i + 1)).

Lemma skip_spaces : forall fuel F p t, 0 < p <= zlen F -> (Z.to_nat (zlen F - p) < fuel)%nat ->
  exists t' p', skip_while fuel (Z.eqb 32) t (St F p) = Ok (t', St F p') /\ 0 < p' <= zlen F.
Proof.
  induction fuel as [|fuel IH]; intros F p t Hp Hf; [lia|]. cbn [skip_while]. destruct (32 =? t); [|eauto].
  unfold fgetc. cbn [spos sdata]. destruct (p <? zlen F) eqn:E.
  - apply IH; lia.
  - destruct fuel as [|fuel]; cbn [skip_while]; change (32 =? IL_EOF) with false; cbv iota; eauto.
Qed.
Lemma getw_text : forall n fuel F p acc, text F -> 0 <= p <= zlen F -> (length F < fuel)%nat ->
  exists k p', fgetw_loop n fuel acc (St F p) = Ok (acc ++ slice F p k, St F p') /\ 0 <= k /\ p + k <= zlen F /\ 0 <= p' <= zlen F.
Proof.
  induction n as [|n IH]; intros fuel F p acc HT Hp Hf; cbn [fgetw_loop].
  - exists 0, p. rewrite slice_0, app_nil_r. split; [reflexivity|lia].
  - unfold fgetc. cbn [spos sdata].
    destruct (p <? zlen F) eqn:E; cbv iota beta.
    2: { change (IL_EOF =? IL_EOF) with true. rewrite !orb_true_r. exists 0, p. rewrite slice_0, app_nil_r. split; [reflexivity|lia]. }
    destruct ((geti F p =? 10) || (geti F p =? 0) || (geti F p =? IL_EOF)) eqn:E1.
    { exists 0, (p + 1). rewrite slice_0, app_nil_r. split; [reflexivity|lia]. }
    destruct (geti F p =? 32) eqn:E2.
    { destruct (skip_spaces fuel F (p + 1) (geti F p)) as (t' & p' & -> & Hp'); [lia|unfold zlen in *; lia|]. cbn [bind]. exists 0, (p' - 1). rewrite slice_0, app_nil_r.
      unfold fback. cbn [spos sdata]. replace (0 <? p') with true by lia. split; [reflexivity|lia]. }
    assert (HP : negb (isprint (geti F p)) = false). { unfold isprint. specialize (HT p ltac:(lia)). lia. }
    rewrite HP. destruct (IH fuel F (p + 1) (acc ++ [geti F p]) HT ltac:(lia) Hf) as (k & p' & -> & Hk & Hk2 & Hp').
    exists (k + 1), p'. split; [|lia]. rewrite <- app_assoc. do 3 f_equal. replace (k + 1) with (1 + k) by lia. rewrite (slice_cons F p k) by lia. reflexivity.
Qed.
Lemma atoi_bound : forall w v, (forall j, 0 <= j -> j < zlen w -> digit (geti w j)) -> 0 <= v -> 0 <= atoi_digits w v < (v + 1) * 10 ^ zlen w.
Proof.
  induction w as [|c w IH]; intros v HD Hv; [cbn; lia|]. assert (0 <= zlen w) by auto. rewrite zlen_cons in *. assert (DC := HD 0 ltac:(lia) ltac:(lia)). unfold digit, geti in DC. cbn in DC.
  cbn [atoi_digits]. unfold isdigit. replace ((48 <=? c) && (c <=? 57)) with true by lia. rewrite Z.pow_add_r by lia.
  assert (G := IH (10 * v + (c - 48))). assert (0 < 10 ^ zlen w) by (apply Z.pow_pos_nonneg; lia). destruct G as (G1 & G2); [|lia|].
  - intros j Hj Hj2. specialize (HD (1 + j) ltac:(lia) ltac:(lia)). rewrite geti_cons in HD by lia. replace (1 + j =? 0) with false in HD by lia. replace (1 + j - 1) with j in HD by lia. exact HD.
  - split; [lia|]. nia.
Qed.
(** only the digits before the first other character count *)
Lemma atoi_prefix : forall w v, exists k, 0 <= k <= zlen w /\ (forall j, 0 <= j < k -> digit (geti w j)) /\ atoi_digits w v = atoi_digits (slice w 0 k) v.
Proof.
  induction w as [|c w IH]; intros v.
  - exists 0. rewrite slice_0. cbn. split; [lia|]. split; [intros; lia|reflexivity].
  - assert (0 <= zlen w) by auto. cbn [atoi_digits]. destruct (isdigit c) eqn:E.
    + destruct (IH (10 * v + (c - 48))) as (k & Hk & HD & ->). exists (1 + k). rewrite zlen_cons. split; [lia|]. split.
      * intros j Hj. rewrite geti_cons by lia. destruct (j =? 0) eqn:EJ; [unfold isdigit in E; unfold digit; lia|]. apply HD. lia.
      * rewrite slice_cons by (rewrite ?zlen_cons; lia). change (geti (c :: w) 0) with c. cbn [atoi_digits]. rewrite E. f_equal.
    + exists 0. rewrite slice_0. rewrite zlen_cons. split; [lia|]. split; [intros; lia|reflexivity].
Qed.
Lemma digits_small : forall F p k, short_numbers F -> 0 <= p -> 0 <= k -> p + k <= zlen F -> 0 <= atoi_digits (slice F p k) 0 < 1000000000.
Proof.
  intros F p k HS Hp Hk HF. destruct (atoi_prefix (slice F p k) 0) as (m & Hm & HD & ->). rewrite zlen_slice in Hm by lia.
  assert (m <= 9). { destruct (Z_le_gt_dec m 9); [auto|]. destruct (HS p ltac:(lia) ltac:(lia)) as (j & Hj & HN). exfalso. apply HN. specialize (HD j ltac:(lia)). rewrite geti_slice in HD by lia. exact HD. }
  assert (G := atoi_bound (slice (slice F p k) 0 m) 0). rewrite zlen_slice in G by (rewrite ?zlen_slice; lia). assert (10 ^ m <= 10 ^ 9) by (apply Z.pow_le_mono_r; lia). change (10 ^ 9) with 1000000000 in *.
  assert (0 <= atoi_digits (slice (slice F p k) 0 m) 0 < (0 + 1) * 10 ^ m); [|lia]. apply G; [|lia]. intros j Hj Hj2. specialize (HD j ltac:(lia)). rewrite geti_slice by (rewrite ?zlen_slice; lia). rewrite Z.add_0_l. exact HD.
Qed.
Lemma atoi_text : forall F p k, short_numbers F -> no_negatives F -> 0 <= p -> 0 <= k -> p + k <= zlen F -> exists v, atoi (slice F p k) = Ok v /\ 0 <= v < 1000000000.
Proof.
  intros F p k HS HN Hp Hk HF. destruct (Z.eq_dec k 0) as [->|]; [rewrite slice_0; exists 0; split; [reflexivity|lia]|].
  assert (A := digits_small F p k HS Hp Hk HF). assert (B := digits_small F (p + 1) (k - 1) HS ltac:(lia) ltac:(lia) ltac:(lia)).
  replace k with (1 + (k - 1)) in A |- * by lia. rewrite slice_cons in A |- * by lia. unfold atoi.
  set (c := geti F p) in *. destruct (c =? 45) eqn:E1.
  - assert (Z0 : atoi_digits (slice F (p + 1) (k - 1)) 0 = 0).
    { destruct (Z.eq_dec k 1) as [->|]; [rewrite slice_0; reflexivity|]. replace (k - 1) with (1 + (k - 2)) by lia. rewrite slice_cons by lia. cbn [atoi_digits]. assert (N := HN p Hp ltac:(lia) ltac:(unfold c in E1; lia)). unfold digit in N. unfold isdigit. replace ((48 <=? geti F (p + 1)) && (geti F (p + 1) <=? 57)) with false by lia. reflexivity. }
    rewrite Z0. exists 0. split; [reflexivity|lia].
  - destruct (c =? 43).
    + exists (atoi_digits (slice F (p + 1) (k - 1)) 0). split; [|lia]. rewrite (proj2 (Z.leb_le _ _)) by lia. rewrite (proj2 (Z.leb_le _ _)) by lia. reflexivity.
    + exists (atoi_digits (c :: slice F (p + 1) (k - 1)) 0). split; [|lia]. rewrite (proj2 (Z.leb_le _ _)) by lia. rewrite (proj2 (Z.leb_le _ _)) by lia. reflexivity.
Qed.
Lemma numbers_text : forall F fuel, text F -> short_numbers F -> no_negatives F -> (length F < fuel)%nat ->
  forall n i p pos, 0 <= i -> i + Z.of_nat n <= zlen p -> 0 <= pos <= zlen F -> exists p' s', jasc_numbers n fuel i p (St F pos) = Ok (p', s') /\ zlen p' = zlen p.
Proof.
  intros F fuel HT HS HN Hf. induction n as [|n IH]; intros i p pos Hi HL Hp; cbn [jasc_numbers]; [eauto|].
  destruct (getw_text 255 fuel F pos [] HT Hp Hf) as (k & p1 & E & Hk & Hk2 & Hp1). unfold iFgetw. rewrite E. cbn [bind app].
  destruct (atoi_text F pos k HS HN) as (v & -> & Hv); try lia. cbn [bind]. rewrite wr_ok by lia. cbn [bind].
  destruct (IH (i + 1) (upd p i (u8 v)) p1) as (p' & s' & -> & L'); [lia|rewrite zlen_upd; lia|lia|]. exists p', s'. split; [reflexivity|]. rewrite L', zlen_upd; lia.
Qed.

Theorem C63_safe_partial : forall alloc fuel im F, allocator_ok alloc -> text F -> short_numbers F -> no_negatives F -> (length F < fuel)%nat ->
  exists ok im', ilLoadJascPal alloc fuel im F = Ok (ok, im') /\ im' = with_Pal im (Pal im') /\
    (ok = true -> exists n q, palette_of (Pal im') n q /\ PalType (Pal im') = IL_PAL_RGB24 /\ 0 < n).
Proof.
  intros alloc fuel im F HA HT HS HN Hf. unfold ilLoadJascPal, iFgetw. assert (0 <= zlen F) by auto.
  assert (DP : forall p, with_Pal (drop_pal im) p = with_Pal im p). { intros p. unfold drop_pal. destruct (match Palette (Pal im) with Some _ => _ | None => _ end); reflexivity. }
  assert (DQ : drop_pal im = with_Pal im (Pal (drop_pal im))). { unfold drop_pal. destruct (match Palette (Pal im) with Some _ => _ | None => _ end); [reflexivity|]. destruct im; reflexivity. }
  destruct (getw_text 255 fuel F 0 [] HT ltac:(lia) Hf) as (k1 & p1 & -> & ? & ? & Hp1). cbn [bind].
  destruct (getw_text 255 fuel F p1 [] HT ltac:(lia) Hf) as (k2 & p2 & -> & ? & ? & Hp2). cbn [bind].
  destruct (getw_text 255 fuel F p2 [] HT ltac:(lia) Hf) as (k3 & p3 & -> & ? & ? & Hp3). cbn [bind app].
  destruct (atoi_text F p2 k3 HS HN) as (v & -> & Hv); try lia. cbn [bind]. rewrite (u32_small v) by lia.
  destruct ((v =? 0) || _ || _) eqn:E0; [do 2 eexists; split; [reflexivity|split; [exact DQ|discriminate]]|].
  cbv zeta. rewrite (u32_small (v * 3)) by lia. destruct (alloc (v * 3)) as [p|] eqn:EA.
  2: { do 2 eexists. split; [reflexivity|]. split; [rewrite DP; reflexivity|discriminate]. }
  assert (LP := HA _ _ EA). destruct (numbers_text F fuel HT HS HN Hf (Z.to_nat (v * 3)) 0 p p3) as (p' & s' & -> & L'); [lia|lia|lia|]. cbn [bind].
  do 2 eexists. split; [reflexivity|]. rewrite DP. split; [reflexivity|]. intros _. exists v, p'. unfold palette_of. cbn [Pal with_Pal PalType Palette PalSize]. change (colour_size IL_PAL_RGB24) with 3. assert (v <> 0) by (destruct (v =? 0) eqn:EV; [discriminate|lia]).
  repeat split; auto; try lia. unfold pal_type. cbn. auto 10.
Qed.
Print Assumptions C63_safe_partial.

(** the hypotheses are met, here by a file of two colours that ends early *)
Definition ex_psp : list Z := [74; 65; 83; 67; 45; 80; 65; 76; 10; 48; 49; 48; 48; 10; 50; 10; 50; 53; 53; 32; 48; 32; 55; 10; 49; 50].
Example C63_case : text ex_psp /\ short_numbers ex_psp /\ no_negatives ex_psp /\
  exists im', ilLoadJascPal ex_alloc 30 ex_old ex_psp = Ok (true, im') /\ Pal im' = mkPal (Some [255; 0; 7; 12; 0; 0]) 6 IL_PAL_RGB24.
Proof.
  split; [|split; [|split]].
  - intros i Hi. assert (A : Forall (fun c => c = 10 \/ 32 <= c <= 126) ex_psp) by (unfold ex_psp; repeat (apply Forall_cons; [lia|]); constructor).
    rewrite Forall_forall in A. apply A. apply nth_In. unfold zlen in Hi. lia.
  - intros i Hi HL. change (zlen ex_psp) with 26 in HL. assert (C : i <= 8 \/ 8 < i <= 10 \/ 10 < i) by lia. destruct C as [C|[C|C]].
    + exists (8 - i). split; [lia|]. replace (i + (8 - i)) with 8 by lia. unfold digit. change (geti ex_psp 8) with 10. lia.
    + exists (13 - i). split; [lia|]. replace (i + (13 - i)) with 13 by lia. unfold digit. change (geti ex_psp 13) with 10. lia.
    + exists (19 - i). split; [lia|]. replace (i + (19 - i)) with 19 by lia. unfold digit. change (geti ex_psp 19) with 32. lia.
  - intros i Hi HL H45 D. change (zlen ex_psp) with 26 in HL. assert (C : i = 4).
    { assert (A : forallb (fun k => negb (geti ex_psp (Z.of_nat k) =? 45) || (k =? 4)%nat) (seq 0 26) = true) by (vm_compute; reflexivity).
      rewrite forallb_forall in A. specialize (A (Z.to_nat i)). rewrite Z2Nat.id in A by lia. rewrite H45 in A. change (negb (45 =? 45)) with false in A. cbn [orb] in A.
      specialize (A ltac:(apply in_seq; lia)). apply Nat.eqb_eq in A. lia. }
    subst i. unfold digit in D. change (geti ex_psp (4 + 1)) with 80 in D. lia.
  - eexists. split; vm_compute; reflexivity.
Qed.

Example C62_case : palette_of (Pal (ex_bgr ex_old)) 1 [1; 2; 3] /\ bytes [1; 2; 3] /\
  exists F im1 q, ilSaveJascPal ex_alloc (ex_bgr ex_old) = Ok (true, Some F, im1) /\ ilLoadJascPal ex_alloc 1 ex_old F = Ok (true, with_Pal ex_old (mkPal (Some q) 768 IL_PAL_RGB24)) /\
    colour IL_PAL_RGB24 q 0 = RGBA 3 2 1 255.
Proof.
  assert (A : palette_of (Pal (ex_bgr ex_old)) 1 [1; 2; 3]) by (unfold palette_of, pal_type; cbn; repeat split; auto 10).
  assert (B : bytes [1; 2; 3]) by (apply bytes_Forall; repeat (apply Forall_cons; [lia|]); constructor).
  split; [exact A|]. split; [exact B|].
  destruct (C62_roundtrip ex_alloc 1 (ex_bgr ex_old) ex_old 1 [1; 2; 3] ex_alloc_ok A B) as (F & im1 & q & E1 & E2 & _ & E3); try lia; try (apply ex_alloc_some; cbn; lia).
  exists F, im1, q. split; [exact E1|]. split; [exact E2|]. rewrite (E3 0) by lia. reflexivity.
Qed.
