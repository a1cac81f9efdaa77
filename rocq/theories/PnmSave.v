(** C99: saving portable pixmaps. *)
From Coq Require Import ZArith List Lia Bool.
From Verif Require Import Base Slices Elem BitLemmas Enums Utility Image ImageSpec Flip Lump LumpSpec LumpProofs LumpProps CacheProps Channels Endian EndianProps ConvImgProps RleSpec RawProps Pcx PcxProofs TgaProofs BmpSpec BmpSafe BmpDecode SgiSpec SgiProofs SgiLoad SgiSave Safe Small SmallSpec SmallTex SmallTexProps SmallSunProps Pal PalSpec PalJasc Pnm PnmSpec PnmProofs PnmLoad PnmText.
Import ListNotations.
Open Scope Z_scope.

(** ** Numbers in decimal *)
Lemma value_snoc : forall w c, value (w ++ [c]) = 10 * value w + (c - 48).
Proof. intros w c. unfold value. rewrite fold_left_app. reflexivity. Qed.
Lemma digits_ok : forall n v, 0 <= v < 10 ^ (Z.of_nat n + 1) -> digits n v <> [] /\ Forall (fun c => 48 <= c <= 57) (digits n v) /\ value (digits n v) = v /\ zlen (digits n v) <= Z.of_nat n + 1.
Proof.
  induction n as [|n IH]; intros v Hv.
  - change (10 ^ (Z.of_nat 0 + 1)) with 10 in Hv. cbn [digits]. rewrite Z.mod_small by lia. split; [discriminate|]. split; [repeat constructor; lia|]. split; [|reflexivity]. unfold value. cbn [fold_left]. lia.
  - cbn [digits]. destruct (v <? 10) eqn:E.
    + split; [discriminate|]. split; [repeat constructor; lia|]. split; [unfold value; cbn [fold_left]; lia|change (zlen [48 + v]) with 1; lia].
    + assert (M := Z.mod_pos_bound v 10 ltac:(lia)). assert (DM := Z.div_mod v 10 ltac:(lia)). destruct (IH (v / 10)) as (A & B & C & D).
      { split; [apply Z.div_pos; lia|]. apply Z.div_lt_upper_bound; [lia|]. rewrite <- Z.pow_succ_r by lia. replace (Z.succ (Z.of_nat n + 1)) with (Z.of_nat (S n) + 1) by lia. lia. }
      split; [intros H; apply app_eq_nil in H; destruct H; discriminate|]. split; [apply Forall_app; split; [auto|repeat constructor; lia]|]. split; [rewrite value_snoc, C; lia|]. rewrite zlen_app. change (zlen [48 + v mod 10]) with 1. lia.
Qed.
Lemma print_number : forall v, 0 <= v < 2147483648 -> number v (print_d v) /\ zlen (print_d v) <= 11.
Proof. intros v Hv. destruct (digits_ok 10 v) as (A & B & C & D); [change (10 ^ (Z.of_nat 10 + 1)) with 100000000000; lia|]. change (Z.of_nat 10 + 1) with 11 in D. unfold print_d. split; [|auto]. split; [auto|]. split; [auto|]. split; [auto|lia]. Qed.
Lemma print_short : forall v, 0 <= v < 256 -> zlen (print_d v) <= 3.
Proof.
  assert (A : forallb (fun k => zlen (print_d (Z.of_nat k)) <=? 3) (seq 0 256) = true) by (vm_compute; reflexivity).
  intros v Hv. rewrite forallb_forall in A. specialize (A (Z.to_nat v)). rewrite Z2Nat.id in A by lia. apply Z.leb_le, A. apply in_seq. lia.
Qed.

(** ** Text *)
Definition words (vs : list Z) : list Z := concat (map (fun v => print_d v ++ [32]) vs).
Lemma words_app : forall a b, words (a ++ b) = words a ++ words b.
Proof. intros a b. unfold words. rewrite map_app, concat_app. reflexivity. Qed.
Lemma words_numbers : forall vs, vs <> [] -> Forall (fun v => 0 <= v < 256) vs -> numbers vs (words vs).
Proof.
  assert (SP : Forall separator [32]) by (repeat constructor; unfold separator, letter; lia).
  induction vs as [|v vs IH]; intros NE HV; [congruence|]. inversion HV; subst. destruct (print_number v) as (N & _); [lia|]. change (words (v :: vs)) with ((print_d v ++ [32]) ++ words vs). destruct vs as [|u vs].
  - change (words []) with (@nil Z). rewrite app_nil_r. constructor; auto.
  - rewrite <- app_assoc. apply numbers_more; auto; try discriminate. apply IH; [discriminate|auto].
Qed.
Lemma words_line : forall vs, vs <> [] -> Forall (fun v => 0 <= v < 256) vs -> zlen (words vs) < 180 -> text_line vs (words vs).
Proof. intros vs NE HV HL. apply (line_numbers [] vs (words vs)); auto; [discriminate|apply words_numbers; auto]. Qed.

Lemma run_text : forall l k f, zlen f + zlen l < 2147483648 -> run_file (put_text l k) f (zlen f) = run_file k (f ++ l) (zlen (f ++ l)).
Proof. intros l k f H. assert (0 <= zlen l) by auto. unfold put_text. apply run_write; lia. Qed.
Lemma ascii_save : forall n td i LinePos us f, bytes td -> 0 <= i -> i + 3 * Z.of_nat n <= zlen td -> Forall (fun v => 0 <= v < 256) us -> zlen (words us) = LinePos -> LinePos <= 65 -> zlen f + 13 * Z.of_nat n < 2147483648 ->
  exists data, (forall k, run_file (put_ascii n td i LinePos k) f (zlen f) = run_file k (f ++ data) (zlen (f ++ data))) /\ text (us ++ slice td i (3 * Z.of_nat n)) (words us ++ data) /\ bytes data /\ zlen data <= 13 * Z.of_nat n.
Proof.
  induction n as [|n IH]; intros td i LinePos us f BT Hi HT HU HL HP Hf.
  - exists []. split; [intros k; rewrite app_nil_r; reflexivity|]. change (3 * Z.of_nat 0) with 0. rewrite slice_0, !app_nil_r. split; [|split; [intros j Hj; change (zlen (@nil Z)) with 0 in Hj; lia|cbn; lia]]. destruct us as [|u us]; [constructor|]. apply text_last; [|discriminate]. apply words_line; auto; [discriminate|lia].
  - assert (BA := BT i ltac:(lia)). assert (BB := BT (i + 1) ltac:(lia)). assert (BC := BT (i + 2) ltac:(lia)). set (a := geti td i) in *. set (b := geti td (i + 1)) in *. set (c := geti td (i + 2)) in *.
    assert (PA := print_short a BA). assert (PB := print_short b BB). assert (PC := print_short c BC). assert (0 <= zlen (print_d a)) by auto. assert (0 <= zlen (print_d b)) by auto. assert (0 <= zlen (print_d c)) by auto. assert (0 <= zlen f) by auto.
    assert (E3 : slice td i (3 * Z.of_nat (S n)) = [a; b; c] ++ slice td (i + 3) (3 * Z.of_nat n)).
    { replace (3 * Z.of_nat (S n)) with (1 + (1 + (1 + 3 * Z.of_nat n))) by lia. rewrite !slice_cons by lia. replace (i + 1 + 1) with (i + 2) by lia. replace (i + 2 + 1) with (i + 3) by lia. reflexivity. }
    set (w := words [a; b; c]). assert (EW : w = (print_d a ++ [32]) ++ (print_d b ++ [32]) ++ (print_d c ++ [32])) by (unfold w, words; cbn [map concat]; rewrite app_nil_r; reflexivity).
    assert (LW : zlen w = zlen (print_d a) + 1 + (zlen (print_d b) + 1) + (zlen (print_d c) + 1)) by (rewrite EW, !zlen_app; change (zlen [32]) with 1; lia).
    assert (BW : bytes w). { assert (G : forall v, 0 <= v < 256 -> bytes (print_d v ++ [32])) by (intros v Hv; apply bytes_Forall; apply Forall_app; split; [destruct (print_number v) as ((_ & D & _) & _); [lia|]; eapply Forall_impl; [|exact D]; intros q Hq; cbv beta in Hq; lia|repeat constructor; lia]). rewrite EW. apply bytes_app; [apply G; auto|]. apply bytes_app; apply G; auto. }
    assert (R : forall k, run_file (put_ascii (S n) td i LinePos k) f (zlen f) = run_file (if 65 <? LinePos + zlen w then put_text [10] (put_ascii n td (i + 3) 0 k) else put_ascii n td (i + 3) (LinePos + zlen w) k) (f ++ w) (zlen (f ++ w))).
    { intros k. cbn [put_ascii]. rewrite at_ok by lia. fold a. rewrite run_text by (rewrite zlen_app; change (zlen [32]) with 1; lia). rewrite at_ok by lia. fold b. rewrite run_text by (rewrite !zlen_app; change (zlen [32]) with 1; lia). rewrite at_ok by lia. fold c. rewrite run_text by (rewrite !zlen_app; change (zlen [32]) with 1; lia).
      rewrite EW. rewrite <- !app_assoc. cbv zeta. replace (LinePos + zlen (print_d a) + 1 + zlen (print_d b) + 1 + zlen (print_d c) + 1) with (LinePos + zlen (print_d a ++ [32] ++ print_d b ++ [32] ++ print_d c ++ [32])) by (rewrite !zlen_app; change (zlen [32]) with 1; lia). destruct (65 <? _); reflexivity. }
    assert (HU' : Forall (fun v => 0 <= v < 256) (us ++ [a; b; c])) by (apply Forall_app; split; [auto|constructor; [exact BA|constructor; [exact BB|constructor; [exact BC|constructor]]]]).
    assert (WA : words (us ++ [a; b; c]) = words us ++ w) by apply words_app. assert (LA : zlen (words us ++ w) = LinePos + zlen w) by (rewrite zlen_app; lia).
    destruct (65 <? LinePos + zlen w) eqn:EL.
    + destruct (IH td (i + 3) 0 [] ((f ++ w) ++ [10])) as (data & D & T & BD & LD); auto; try lia; try (rewrite !zlen_app; change (zlen [10]) with 1; lia).
      exists (w ++ 10 :: data). split; [|split; [|split]].
      * intros k. rewrite R. rewrite run_text by (rewrite zlen_app; change (zlen [10]) with 1; lia). rewrite D. rewrite <- !app_assoc. reflexivity.
      * rewrite E3. rewrite !app_assoc. rewrite <- WA. apply text_line_; [|exact T]. apply words_line; [destruct us; discriminate|auto|]. rewrite WA, LA. lia.
      * apply bytes_app; [auto|]. change (10 :: data) with ([10] ++ data). apply bytes_app; [apply bytes_Forall; repeat constructor; lia|auto].
      * rewrite zlen_app, zlen_cons. lia.
    + destruct (IH td (i + 3) (LinePos + zlen w) (us ++ [a; b; c]) (f ++ w)) as (data & D & T & BD & LD); auto; try lia; try (rewrite WA; auto); try (rewrite zlen_app; lia).
      exists (w ++ data). split; [|split; [|split]].
      * intros k. rewrite R, D. rewrite <- app_assoc. reflexivity.
      * rewrite E3. rewrite WA in T. rewrite <- !app_assoc in T. exact T.
      * apply bytes_app; auto.
      * rewrite zlen_app. lia.
Qed.
Lemma binary_save : forall n td i f, 0 <= i -> i + 3 * Z.of_nat n <= zlen td -> zlen f + 3 * Z.of_nat n < 2147483648 ->
  forall k, run_file (put_binary n td i k) f (zlen f) = run_file k (f ++ slice td i (3 * Z.of_nat n)) (zlen (f ++ slice td i (3 * Z.of_nat n))).
Proof.
  induction n as [|n IH]; intros td i f Hi HT Hf k.
  - change (3 * Z.of_nat 0) with 0. rewrite slice_0, app_nil_r. reflexivity.
  - cbn [put_binary]. assert (0 <= zlen f) by auto. rewrite at_ok by lia. rewrite run_putc by lia. rewrite at_ok by lia. rewrite run_putc by (rewrite zlen_app; change (zlen [geti td i]) with 1; lia). rewrite at_ok by lia. rewrite run_putc by (rewrite !zlen_app; repeat change (zlen [_]) with 1; lia).
    rewrite IH by (rewrite ?zlen_app; repeat change (zlen [_]) with 1; lia). replace (3 * Z.of_nat (S n)) with (1 + (1 + (1 + 3 * Z.of_nat n))) by lia. rewrite !slice_cons by lia. replace (i + 1 + 1) with (i + 2) by lia. replace (i + 2 + 1) with (i + 3) by lia. rewrite <- !app_assoc. reflexivity.
Qed.

(** ** Files *)
(** an image that can be the result of a conversion to RGB bytes *)
Definition rgb_bytes (tm : img) : Prop := Bpp tm = 3 /\ Bpc tm = 1 /\ Format tm = IL_RGB /\ Type_ tm = IL_UNSIGNED_BYTE.
Definition ppm_head (t W H M : Z) : list Z := [80; t; 10] ++ (print_d W ++ [32] ++ print_d H ++ [10]) ++ (print_d M ++ [10]).
Lemma ppm_head_ok : forall t W H M, 0 <= W < 2147483648 -> 0 <= H < 2147483648 -> 0 <= M < 2147483648 -> pnm_head t W H M (ppm_head t W H M) /\ zlen (ppm_head t W H M) <= 40 /\ (0 <= t < 256 -> bytes (ppm_head t W H M)).
Proof.
  intros t W H M HW HH HM. destruct (print_number W HW) as (NW & LW). destruct (print_number H HH) as (NH & LH). destruct (print_number M HM) as (NM & LM). split; [|split].
  - exists ([80; t] ++ [10] ++ print_d W ++ [32] ++ print_d H), [10], (print_d M), 10. split; [unfold ppm_head; rewrite <- !app_assoc; reflexivity|].
    assert (G10 : gap [10]) by (eexists; exists 0%nat; split; [|cbn [repeat]; rewrite app_nil_r; reflexivity]; auto).
    split; [|auto]. exists [10], [32], (print_d W), (print_d H). split; [reflexivity|]. split; [repeat constructor|]. split; [discriminate|]. split; [repeat constructor|]. split; [discriminate|]. split; [exact NW|exact NH].
  - unfold ppm_head. rewrite !zlen_app. change (zlen [80; t; 10]) with 3. change (zlen [32]) with 1. change (zlen [10]) with 1. lia.
  - intros Ht. apply bytes_Forall. assert (D : forall v, number v (print_d v) -> Forall (fun x => 0 <= x < 256) (print_d v)) by (intros v (_ & D & _); eapply Forall_impl; [|exact D]; intros q Hq; cbv beta in Hq; lia).
    unfold ppm_head. repeat (apply Forall_app; split); auto; repeat constructor; lia.
Qed.

(** what is written for an image that [conv] made, [M] the largest value stated *)
Lemma save_file : forall alloc Binary im tm buf M, allocator_ok alloc -> img_ok tm buf -> bytes buf -> rgb_bytes tm -> alloc (SizeOfData tm) <> None -> 13 * (Width tm * Height tm) < 2147483000 ->
  (Type_ im = IL_UNSIGNED_BYTE /\ M = 255 \/ Type_ im = IL_UNSIGNED_SHORT /\ M = 65535 /\ Binary = false) ->
  exists p td data, (forall k, iSavePnmInternal alloc Binary (Ok (Some tm)) im k = Ok (true, p k)) /\ (let h := ppm_head (if Binary then 54 else 51) (Width tm) (Height tm) M in file_of (p Done) = Some (h ++ data) /\
      (forall report, file_of (p (Tell report)) = run_file (report (zlen (h ++ data))) (h ++ data) (zlen (h ++ data)))) /\
    zlen td = 3 * (Width tm * Height tm) /\ bytes td /\ (forall x t c, in_image tm x t 0 c -> geti td ((t * Width tm + x) * 3 + c) = picture tm buf x t 0 c) /\
    bytes data /\ zlen data <= 13 * (Width tm * Height tm) /\ (if Binary then data = td else text td data).
Proof.
  intros alloc Binary im tm buf M HA Hok BB (HB & HC & HF & HT) Hn HS HM. destruct (upper_data alloc tm buf Hok HA Hn) as (td & ET & LT & BT & GT & _). specialize (BT BB).
  assert (SZ : SizeOfPlane tm = 3 * (Width tm * Height tm) /\ SizeOfPlane tm <= SizeOfData tm /\ 1 <= Width tm < 2147483648 /\ 1 <= Height tm < 2147483648 /\ 1 <= Depth tm /\ 1 <= Width tm * Height tm).
  { destruct Hok as (_ & W1 & H1 & D1 & _ & _ & S1 & S2 & S3 & _ & _). rewrite S3, S2, S1, HB, HC. assert (A : Width tm * 1 <= Width tm * Height tm) by (apply Z.mul_le_mono_nonneg_l; lia). assert (B : 1 * Height tm <= Width tm * Height tm) by (apply Z.mul_le_mono_nonneg_r; lia).
    split; [ring|]. split; [|lia]. rewrite <- (Z.mul_1_r (Width tm * (3 * 1) * Height tm)) at 1. apply Z.mul_le_mono_nonneg_l; [|lia]. repeat apply Z.mul_nonneg_nonneg; lia. }
  destruct SZ as (SP & SD & HW & HH & HD & A1). set (A := Width tm * Height tm) in *. assert (SL : zlen (slice td 0 (3 * A)) = 3 * A) by (apply zlen_slice; lia).
  assert (NP : Z.to_nat ((SizeOfPlane tm + 2) / 3) = Z.to_nat A). { f_equal. rewrite SP. replace (3 * A + 2) with (2 + A * 3) by ring. rewrite Z.div_add by lia. reflexivity. }
  assert (M2 : 0 <= M < 2147483648) by lia. destruct (ppm_head_ok (if Binary then 54 else 51) (Width tm) (Height tm) M) as (_ & LHD & _); try lia. set (h := ppm_head (if Binary then 54 else 51) (Width tm) (Height tm) M) in *.
  assert (BS : bytes (slice td 0 (3 * A))) by (intros j Hj; rewrite SL in Hj; rewrite geti_slice by lia; apply BT; lia).
  assert (GP : forall x t c, in_image tm x t 0 c -> geti (slice td 0 (3 * A)) ((t * Width tm + x) * 3 + c) = picture tm buf x t 0 c).
  { intros x t c HI. rewrite <- (GT x t 0 c HI). destruct HI as (Ix & It & _ & Ic). rewrite HB, HC in Ic. assert (B := off_in (Width tm) (Height tm) 3 x t c Ix It ltac:(lia)). rewrite geti_slice by lia. f_equal. unfold pix_off. rewrite HB, HC. ring. }
  assert (HD1 : forall k, run_file (put_text [80; if Binary then 54 else 51; 10] (put_text (print_d (Width tm) ++ [32] ++ print_d (Height tm) ++ [10]) (put_text (print_d M ++ [10]) k))) [] 0 = run_file k h (zlen h)).
  { intros k. unfold h, ppm_head in LHD |- *. rewrite !zlen_app in LHD. assert (0 <= zlen (print_d M)) by auto. assert (0 <= zlen (print_d (Width tm))) by auto. assert (0 <= zlen (print_d (Height tm))) by auto. assert (0 <= zlen [80; if Binary then 54 else 51; 10]) by auto. change (zlen [32]) with 1 in *. change (zlen [10]) with 1 in *.
    match goal with |- run_file ?p [] 0 = _ => change (run_file p [] 0) with (run_file p [] (zlen (@nil Z))) end. do 3 (rewrite run_text by (rewrite ?zlen_app; change (zlen (@nil Z)) with 0; change (zlen [32]) with 1; change (zlen [10]) with 1; lia)). rewrite <- !app_assoc. reflexivity. }
  assert (EQ : forall k, iSavePnmInternal alloc Binary (Ok (Some tm)) im k = Ok (true, put_text [80; if Binary then 54 else 51; 10] (put_text (print_d (Width tm) ++ [32] ++ print_d (Height tm) ++ [10]) (put_text (print_d M ++ [10]) (if Binary then put_binary (Z.to_nat A) td 0 k else put_ascii (Z.to_nat A) td 0 0 k))))).
  { intros k. unfold iSavePnmInternal. assert (EM : (if Type_ im =? IL_UNSIGNED_BYTE then Some 255 else if Type_ im =? IL_UNSIGNED_SHORT then Some 65535 else None) = Some M /\ (255 <? M) && Binary = false) by (destruct HM as [(-> & ->)|(-> & -> & ->)]; split; reflexivity). destruct EM as (-> & ->). cbn [bind]. rewrite HB. cbn [Z.eqb Pos.eqb negb]. rewrite ET. cbn [bind]. cbv zeta. rewrite NP. reflexivity. }
  exists (fun k => put_text [80; if Binary then 54 else 51; 10] (put_text (print_d (Width tm) ++ [32] ++ print_d (Height tm) ++ [10]) (put_text (print_d M ++ [10]) (if Binary then put_binary (Z.to_nat A) td 0 k else put_ascii (Z.to_nat A) td 0 0 k)))), (slice td 0 (3 * A)).
  assert (NA : Z.of_nat (Z.to_nat A) = A) by lia. assert (0 <= zlen h) by auto.
  destruct Binary.
  - exists (slice td 0 (3 * A)). split; [exact EQ|]. assert (R : forall k, file_of (put_text [80; 54; 10] (put_text (print_d (Width tm) ++ [32] ++ print_d (Height tm) ++ [10]) (put_text (print_d M ++ [10]) (put_binary (Z.to_nat A) td 0 k)))) = run_file k (h ++ slice td 0 (3 * A)) (zlen (h ++ slice td 0 (3 * A)))).
    { intros k. unfold file_of. rewrite HD1. rewrite binary_save by lia. rewrite NA. reflexivity. }
    split; [split; [rewrite R; reflexivity|intros report; rewrite R; reflexivity]|]. split; [exact SL|]. split; [exact BS|]. split; [exact GP|]. split; [exact BS|]. split; [lia|reflexivity].
  - destruct (ascii_save (Z.to_nat A) td 0 0 [] h) as (data & D & T & BD & LD); auto; try lia; try reflexivity. rewrite NA in *. exists data. split; [exact EQ|]. assert (R : forall k, file_of (put_text [80; 51; 10] (put_text (print_d (Width tm) ++ [32] ++ print_d (Height tm) ++ [10]) (put_text (print_d M ++ [10]) (put_ascii (Z.to_nat A) td 0 0 k)))) = run_file k (h ++ data) (zlen (h ++ data))).
    { intros k. unfold file_of. rewrite HD1, D. reflexivity. }
    split; [split; [rewrite R; reflexivity|intros report; rewrite R; reflexivity]|]. split; [exact SL|]. split; [exact BS|]. split; [exact GP|]. split; [exact BD|]. split; [lia|exact T].
Qed.

(** C99a: an image of bytes is saved, as text or in binary, into a file with the sizes of the image and the largest
    value 255, and the file is loaded into the picture that the conversion to RGB gave (of its first slice, if
    there are several). *)
Theorem C99_roundtrip : forall alloc Binary im tm buf, allocator_ok alloc -> Type_ im = IL_UNSIGNED_BYTE -> img_ok tm buf -> bytes buf -> rgb_bytes tm -> alloc (SizeOfData tm) <> None -> 13 * (Width tm * Height tm) < 2147483000 ->
  exists p F, (forall k, iSavePnmInternal alloc Binary (Ok (Some tm)) im k = Ok (true, p k)) /\ file_of (p Done) = Some F /\ (forall report, file_of (p (Tell report)) = run_file (report (zlen F)) F (zlen F)) /\
    (exists h data, F = h ++ data /\ pnm_head (if Binary then 54 else 51) (Width tm) (Height tm) 255 h /\ (Binary = true -> zlen data = 3 * (Width tm * Height tm))) /\
    forall fuel alloc' old sb lb, allocator_ok alloc' -> zlen sb = 180 -> zlen lb = 180 -> (length F < fuel)%nat -> alloc' (3 * (Width tm * Height tm)) <> None ->
    exists im', iLoadPnmInternal fuel alloc' old sb lb (Rd F 0 (zlen F) []) = Ok (true, im', []) /\ shows im' (Width tm) (Height tm) 3 IL_RGB (fun x t c => picture tm buf x t 0 c).
Proof.
  intros alloc Binary im tm buf HA HT Hok BB HR Hn HS. destruct (save_file alloc Binary im tm buf 255 HA Hok BB HR Hn HS) as (p & td & data & EP & (EF & ER) & LT & BT & GT & BD & LD & HX); [left; auto|]. exists p.
  assert (SZ : 1 <= Width tm < 2147483648 /\ 1 <= Height tm < 2147483648 /\ 1 <= Width tm * Height tm /\ 1 <= Depth tm).
  { destruct Hok as (_ & W1 & H1 & D1 & _). assert (A : Width tm * 1 <= Width tm * Height tm) by (apply Z.mul_le_mono_nonneg_l; lia). assert (B : 1 * Height tm <= Width tm * Height tm) by (apply Z.mul_le_mono_nonneg_r; lia). lia. }
  destruct SZ as (HW & HH & HA1 & HD1). destruct (ppm_head_ok (if Binary then 54 else 51) (Width tm) (Height tm) 255) as (PH & LH & BH); try lia. specialize (BH ltac:(destruct Binary; lia)). set (h := ppm_head (if Binary then 54 else 51) (Width tm) (Height tm) 255) in *.
  exists (h ++ data). split; [exact EP|]. split; [exact EF|]. split; [exact ER|]. split; [exists h, data; split; [reflexivity|]; split; [exact PH|]; intros ->; rewrite HX; exact LT|].
  intros fuel alloc' old sb lb HA' Hsb Hlb Hf Hn'. assert (BF : bytes (h ++ data)) by (apply bytes_app; auto). assert (LF : zlen (h ++ data) < 2147483648) by (rewrite zlen_app; lia).
  assert (E3 : Width tm * 3 * Height tm = 3 * (Width tm * Height tm)) by ring.
  assert (SH : forall im', shows im' (Width tm) (Height tm) 3 IL_RGB (stored td 0 (Width tm) 3) -> shows im' (Width tm) (Height tm) 3 IL_RGB (fun x t c => picture tm buf x t 0 c)).
  { intros im' (b & I & P1 & P2 & P3 & P4 & P5 & P6 & P7 & G). exists b. repeat (split; [assumption|]). intros x t c Hx Ht Hc. rewrite G by auto. unfold stored. rewrite Z.add_0_l. apply GT. destruct HR as (R1 & R2 & _). unfold in_image. rewrite R1, R2. lia. }
  destruct Binary.
  - subst data. destruct (C98_binary fuel alloc' old sb lb (h ++ td) 54 (Width tm) (Height tm) 255 3 IL_RGB h td) as (im' & E & S); auto; try lia; try (rewrite E3; auto); try lia. { right. auto. } exists im'. split; [exact E|apply SH, S].
  - destruct (C98_text_partial fuel alloc' old sb lb (h ++ data) 51 (Width tm) (Height tm) 255 3 IL_RGB h td data) as (im' & E & S); auto; try lia; try (rewrite E3; auto); try lia. { right. auto. } { apply bytes_Forall. exact BT. } exists im'. split; [exact E|apply SH, S].
Qed.
Print Assumptions C99_roundtrip.

(** C99b (refuted): an image of 16-bit samples is saved as text with the largest value 65535, although the numbers
    are at most 255: almost black. *)
Theorem C99_wide_refuted : forall alloc im tm buf, allocator_ok alloc -> Type_ im = IL_UNSIGNED_SHORT -> img_ok tm buf -> bytes buf -> rgb_bytes tm -> alloc (SizeOfData tm) <> None -> 13 * (Width tm * Height tm) < 2147483000 ->
  exists p h vs data, (forall k, iSavePnmInternal alloc false (Ok (Some tm)) im k = Ok (true, p k)) /\ file_of (p Done) = Some (h ++ data) /\ pnm_head 51 (Width tm) (Height tm) 65535 h /\ text vs data /\ zlen vs = 3 * (Width tm * Height tm) /\ Forall (fun v => 0 <= v < 256) vs.
Proof.
  intros alloc im tm buf HA HT Hok BB HR Hn HS. destruct (save_file alloc false im tm buf 65535 HA Hok BB HR Hn HS) as (p & td & data & EP & (EF & ER) & LT & BT & GT & BD & LD & HX); [right; auto|]. exists p, (ppm_head 51 (Width tm) (Height tm) 65535), td, data.
  assert (SZ : 1 <= Width tm < 2147483648 /\ 1 <= Height tm < 2147483648). { destruct Hok as (_ & W1 & H1 & D1 & _). assert (A : Width tm * 1 <= Width tm * Height tm) by (apply Z.mul_le_mono_nonneg_l; lia). assert (B : 1 * Height tm <= Width tm * Height tm) by (apply Z.mul_le_mono_nonneg_r; lia). lia. }
  destruct (ppm_head_ok 51 (Width tm) (Height tm) 65535) as (PH & _); try lia. repeat (split; [assumption|]). apply bytes_Forall. exact BT.
Qed.
Print Assumptions C99_wide_refuted.

(** C99c: other types of samples, and 16-bit ones if compression is asked for, are refused before anything is
    written; if the conversion fails there is no file but its first line. *)
Theorem C99_refused : forall alloc Binary conv im k,
  (Type_ im <> IL_UNSIGNED_BYTE -> Type_ im <> IL_UNSIGNED_SHORT -> iSavePnmInternal alloc Binary conv im k = Ok (false, k)) /\
  (Type_ im = IL_UNSIGNED_SHORT -> iSavePnmInternal alloc true conv im k = Ok (false, k)) /\
  (Type_ im = IL_UNSIGNED_BYTE -> conv = Ok None -> exists l, zlen l = 3 /\ iSavePnmInternal alloc Binary conv im k = Ok (false, Write l 1 3 k)).
Proof.
  intros alloc Binary conv im k. unfold iSavePnmInternal. split; [|split].
  - intros H1 H2. replace (Type_ im =? IL_UNSIGNED_BYTE) with false by lia. replace (Type_ im =? IL_UNSIGNED_SHORT) with false by lia. reflexivity.
  - intros ->. reflexivity.
  - intros -> ->. exists [80; if Binary then 54 else 51; 10]. split; reflexivity.
Qed.
Print Assumptions C99_refused.
