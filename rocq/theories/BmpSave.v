(** Saving Windows bitmaps: the file, and loading it again. *)
From Coq Require Import ZArith List Lia Bool.
From Verif Require Import Base Slices BitLemmas Scatter Enums Utility Image ImageSpec ImageProps Elem Flip FlipProofs FlipProps Lump LumpSpec LumpProofs LumpProps Channels Endian EndianProps Raw RawProps Pcx PcxProofs PcxProps Tga TgaProofs Pal PalSpec PalProps Blit BlitProps Bmp BmpSpec BmpProofs BmpRows BmpDecode BmpProps.
Import ListNotations.
Open Scope Z_scope.

(** ** The rows, lowest first *)
Lemma lower_data : forall alloc im buf, img_ok im buf -> valid_origin im -> allocator_ok alloc -> alloc (SizeOfData im) <> None ->
  exists td, (if negb (Origin im =? IL_ORIGIN_LOWER_LEFT) then iGetFlipped alloc im else Ok (Data im)) = Ok (Some td) /\
    zlen td = SizeOfData im /\ (bytes buf -> bytes td) /\
    (forall x t z k, in_image im x t z k -> geti td (pix_off im x (Height im - 1 - t) z k) = picture im buf x t z k).
Proof.
  intros alloc im buf Hok [EO|EO] HA Hn; rewrite EO.
  - exists buf. change (negb (IL_ORIGIN_LOWER_LEFT =? IL_ORIGIN_LOWER_LEFT)) with false. cbv iota. assert (H := Hok). destruct H as (HD & H). split; [rewrite HD; reflexivity|]. split; [apply H|]. split; [auto|].
    intros x t z k Hi. unfold picture. rewrite EO. reflexivity.
  - change (negb (IL_ORIGIN_UPPER_LEFT =? IL_ORIGIN_LOWER_LEFT)) with true. cbv iota.
    set (im2 := with_Origin im IL_ORIGIN_LOWER_LEFT). assert (Hok2 : img_ok im2 buf) by exact Hok.
    destruct (upper_data alloc im2 buf Hok2 HA Hn) as (td & E & L & B & G & _). exists td. unfold im2 in E at 1. cbn [with_Origin Origin] in E. change (negb (IL_ORIGIN_LOWER_LEFT =? IL_ORIGIN_UPPER_LEFT)) with true in E. cbv iota in E.
    split; [exact E|]. split; [exact L|]. split; [exact B|]. intros x t z k Hi. assert (II : in_image im2 x (Height im - 1 - t) z k) by (unfold in_image in *; change (Height im2) with (Height im); change (Width im2) with (Width im); change (Depth im2) with (Depth im); change (Bpp im2) with (Bpp im); change (Bpc im2) with (Bpc im); lia).
    specialize (G _ _ _ _ II). change (pix_off im2) with (pix_off im) in G. rewrite G. unfold picture. change (pix_off im2) with (pix_off im). change (Height im2) with (Height im). rewrite EO. change (Origin im2) with IL_ORIGIN_LOWER_LEFT.
    change (IL_ORIGIN_LOWER_LEFT =? IL_ORIGIN_UPPER_LEFT) with false. change (IL_ORIGIN_UPPER_LEFT =? IL_ORIGIN_UPPER_LEFT) with true. cbv iota. f_equal. f_equal. lia.
Qed.

(** rows of [bps] bytes of [td] from row [y] on, each followed by [pad] zeros *)
Fixpoint padded (bps pad : Z) (td : list Z) (n : nat) (y : Z) : list Z :=
  match n with O => [] | S n => slice td (y * bps) bps ++ repeat 0 (Z.to_nat pad) ++ padded bps pad td n (y + 1) end.
Lemma zlen_padded : forall bps pad td n y, 0 < bps -> 0 <= pad -> 0 <= y -> (y + Z.of_nat n) * bps <= zlen td -> zlen (padded bps pad td n y) = Z.of_nat n * (bps + pad).
Proof.
  intros bps pad td. induction n as [|n IH]; intros y Hb Hp Hy HL; cbn [padded]; [reflexivity|].
  rewrite !zlen_app, zlen_repeat, zlen_slice by nia. rewrite IH by (auto; try lia; nia). lia.
Qed.
Lemma geti_padded : forall bps pad td n y j i, 0 < bps -> 0 <= pad -> 0 <= y -> (y + Z.of_nat n) * bps <= zlen td -> 0 <= j < Z.of_nat n -> 0 <= i < bps ->
  geti (padded bps pad td n y) (j * (bps + pad) + i) = geti td ((y + j) * bps + i).
Proof.
  intros bps pad td. induction n as [|n IH]; intros y j i Hb Hp Hy HL Hj Hi; cbn [padded]; [lia|].
  assert (LS : zlen (slice td (y * bps) bps) = bps) by (apply zlen_slice; nia). rewrite geti_app by nia. rewrite LS.
  destruct (Z.eq_dec j 0) as [->|Nj].
  - replace (0 * (bps + pad) + i <? bps) with true by lia. rewrite geti_slice by nia. f_equal. lia.
  - assert (bps + pad <= j * (bps + pad)) by nia. replace (j * (bps + pad) + i <? bps) with false by lia. rewrite geti_app by lia. rewrite zlen_repeat.
    replace (j * (bps + pad) + i - bps <? Z.of_nat (Z.to_nat pad)) with false by lia.
    replace (j * (bps + pad) + i - bps - Z.of_nat (Z.to_nat pad)) with ((j - 1) * (bps + pad) + i) by lia. rewrite IH by (try lia; nia). f_equal. lia.
Qed.
Lemma bytes_padded : forall bps pad td n y, 0 < bps -> 0 <= y -> (y + Z.of_nat n) * bps <= zlen td -> bytes td -> bytes (padded bps pad td n y).
Proof.
  intros bps pad td. induction n as [|n IH]; intros y Hb Hy HL HB; cbn [padded]; [apply bytes_Forall; constructor|].
  apply bytes_app; [apply bytes_slice; auto; nia|]. apply bytes_app; [apply bytes_Forall, Forall_forall; intros x Hx; apply repeat_spec in Hx; lia|]. apply IH; auto; try lia. 
Qed.
Lemma padded_full : forall bps td n y, 0 < bps -> 0 <= y -> (y + Z.of_nat n) * bps <= zlen td -> padded bps 0 td n y = slice td (y * bps) (Z.of_nat n * bps).
Proof.
  intros bps td n y Hb Hy HL. assert (LP := zlen_padded bps 0 td n y Hb ltac:(lia) Hy HL). rewrite Z.add_0_r in LP. assert (0 <= Z.of_nat n * bps) by nia. assert (LS : zlen (slice td (y * bps) (Z.of_nat n * bps)) = Z.of_nat n * bps) by (apply zlen_slice; nia).
  apply list_ext; [lia|]. intros i Hi. rewrite LP in Hi. assert (EI : i = i / bps * bps + i mod bps) by (rewrite Z.mul_comm; apply Z.div_mod; lia). assert (MI : 0 <= i mod bps < bps) by (apply Z.mod_pos_bound; lia).
  assert (DI : 0 <= i / bps < Z.of_nat n) by (split; [apply Z.div_pos; lia|apply Z.div_lt_upper_bound; lia]). rewrite geti_slice by nia. rewrite EI at 1. assert (G := geti_padded bps 0 td n y (i / bps) (i mod bps) Hb ltac:(lia) Hy HL DI MI). rewrite Z.add_0_r in G. rewrite G. f_equal. lia.
Qed.
Lemma run_rows : forall bps pad td k n y f, 0 < bps -> 0 < pad <= 4 -> 0 <= y -> (y + Z.of_nat n) * bps <= zlen td -> zlen f + Z.of_nat n * (bps + pad) < 2147483648 ->
  run_file (for_s n y (fun y k => Write (slice td (y * bps) (zlen td - y * bps)) 1 bps (Write [0; 0; 0; 0] 1 pad k)) k) f (zlen f) =
  run_file k (f ++ padded bps pad td n y) (zlen (f ++ padded bps pad td n y)).
Proof.
  intros bps pad td k. induction n as [|n IH]; intros y f Hb Hp Hy HL Hf; cbn [for_s padded]; [rewrite app_nil_r; reflexivity|].
  assert (Y : 0 <= y * bps /\ y * bps + bps <= zlen td) by nia. assert (LS : zlen (slice td (y * bps) (zlen td - y * bps)) = zlen td - y * bps) by (apply zlen_slice; lia).
  assert (NN : 0 <= Z.of_nat n * (bps + pad)) by nia.
  rewrite run_text_part by lia. rewrite slice_slice by lia. rewrite Z.add_0_r. assert (LS2 : zlen (slice td (y * bps) bps) = bps) by (apply zlen_slice; lia).
  rewrite run_text_part by (rewrite ?zlen_app; change (zlen [0; 0; 0; 0]) with 4; lia).
  assert (EP : slice [0; 0; 0; 0] 0 pad = repeat 0 (Z.to_nat pad)) by (assert (C : pad = 1 \/ pad = 2 \/ pad = 3 \/ pad = 4) by lia; destruct C as [ -> |[ -> |[ -> | -> ]]]; reflexivity). rewrite EP.
  rewrite IH; auto; try lia; [rewrite <- !app_assoc; reflexivity|]. rewrite !zlen_app, zlen_repeat. lia.
Qed.
Lemma run_bmp_rows : forall im td k f, 0 < Bps im -> 0 < Height im -> SizeOfPlane im = Bps im * Height im -> SizeOfPlane im <= zlen td -> zlen f + Height im * (Bps im + padb (Bps im)) < 2147483648 ->
  run_file (bmp_rows im td k) f (zlen f) = run_file k (f ++ padded (Bps im) (padb (Bps im)) td (Z.to_nat (Height im)) 0) (zlen (f ++ padded (Bps im) (padb (Bps im)) td (Z.to_nat (Height im)) 0)).
Proof.
  intros im td k f Hb Hh HP HL Hf. unfold bmp_rows. assert (PR : 0 <= padb (Bps im) < 4) by (unfold padb; lia). assert (0 <= Bps im * Height im) by nia. destruct (padb (Bps im) =? 0) eqn:E.
  - apply Z.eqb_eq in E. rewrite E. rewrite padded_full by (rewrite ?Z2Nat.id by lia; lia). rewrite E in Hf. rewrite Z2Nat.id by lia. rewrite HP. replace (Height im * Bps im) with (Bps im * Height im) by lia. rewrite run_text_part by lia. reflexivity.
  - rewrite HP. replace (Bps im * Height im / Bps im) with (Height im) by (rewrite Z.mul_comm, Z.div_mul by lia; reflexivity). apply run_rows; rewrite ?Z2Nat.id by lia; lia.
Qed.

(** ** The header *)
Lemma run_int : forall v k f, zlen f < 2147483640 -> run_file (SaveLittleInt v k) f (zlen f) = run_file k (f ++ little4 v) (zlen (f ++ little4 v)).
Proof. intros v k f H. unfold SaveLittleInt. rewrite le4. apply run_write; try lia; try reflexivity. Qed.
Lemma run_ushort : forall v k f, zlen f < 2147483640 -> run_file (SaveLittleUShort v k) f (zlen f) = run_file k (f ++ little2 v) (zlen (f ++ little2 v)).
Proof. intros v k f H. unfold SaveLittleUShort. rewrite le2. apply run_write; try lia; try reflexivity. Qed.
Lemma patch_size : forall n0 n1 rest, overwrite ([66; 77] ++ little4 n0 ++ rest) 2 (little4 n1) = [66; 77] ++ little4 n1 ++ rest.
Proof. intros. reflexivity. Qed.

Lemma header_file : forall size off w h bits comp colours tail, 0 <= off < 2147483648 -> 0 <= w < 2147483648 -> 0 <= h < 2147483648 -> 0 <= bits < 32768 -> 0 <= comp < 2147483648 -> 0 <= colours < 2147483648 -> 0 <= size < 4294967296 ->
  bytes tail -> 54 + zlen tail < 2147483648 ->
  bmp_file (bmp_header size off w h bits comp colours ++ tail) w h bits comp off colours /\ word4 (bmp_header size off w h bits comp colours ++ tail) 2 = size.
Proof.
  intros size off w h bits comp colours tail Ho Hw Hh Hb Hc Hcl Hs HB HL. set (F := bmp_header size off w h bits comp colours ++ tail).
  assert (W4 : forall v, 0 <= v < 4294967296 -> v mod 256 + 256 * (v / 256 mod 256) + 65536 * (v / 65536 mod 256 + 256 * (v / 16777216 mod 256)) = v) by (intros; lia).
  assert (I4 : forall p v, 0 <= v < 2147483648 -> word4 F p = v mod 256 + 256 * (v / 256 mod 256) + 65536 * (v / 65536 mod 256 + 256 * (v / 16777216 mod 256)) -> int4 F p = v). { intros p v Hv E. unfold int4. rewrite E, W4 by lia. replace (v <? 2147483648) with true by lia. reflexivity. }
  assert (I2 : forall p v, 0 <= v < 32768 -> word2 F p = v mod 256 + 256 * (v / 256 mod 256) -> int2 F p = v). { intros p v Hv E. unfold int2. rewrite E. replace (v mod 256 + 256 * (v / 256 mod 256)) with v by lia. replace (v <? 32768) with true by lia. reflexivity. }
  split; [|rewrite <- (W4 size) by lia; reflexivity].
  assert (BH : bytes (bmp_header size off w h bits comp colours)).
  { apply bytes_Forall. unfold bmp_header. cbn [app]. unfold little4, little2. cbn [app]. repeat (apply Forall_cons; [apply Z.mod_pos_bound; lia || lia|]) || idtac. all: repeat (apply Forall_cons; [first [apply Z.mod_pos_bound; lia | lia]|]). apply Forall_nil. }
  repeat apply conj; try (apply I4; [lia|reflexivity]); try (apply I2; [lia|reflexivity]); try reflexivity.
  - unfold F. rewrite zlen_app. change (zlen (bmp_header size off w h bits comp colours)) with 54. assert (0 <= zlen tail) by auto. lia.
  - unfold F. rewrite zlen_app. change (zlen (bmp_header size off w h bits comp colours)) with 54. lia.
  - apply bytes_app; auto.
Qed.

Lemma run_header : forall off w h bits cols k,
  run_file (Putc 66 (fun _ => Putc 77 (fun _ => SaveLittleUInt 0 (SaveLittleUInt 0 (SaveLittleUInt off
              (SaveLittleUInt 0x28 (SaveLittleUInt w (SaveLittleInt h
              (SaveLittleUShort 1 (SaveLittleUShort bits (SaveLittleInt 0
              (SaveLittleInt 0 (SaveLittleInt 0 (SaveLittleInt 0
              (SaveLittleInt cols (SaveLittleInt 0 k)))))))))))))))) [] 0 =
  run_file k (bmp_header 0 off w h bits 0 cols) (zlen (bmp_header 0 off w h bits 0 cols)).
Proof.
  intros. match goal with |- run_file ?p0 [] 0 = _ => change (run_file p0 [] 0) with (run_file p0 [] (zlen (@nil Z))) end. rewrite run_putc by reflexivity. rewrite run_putc by reflexivity.
  do 5 (rewrite run_uint by reflexivity). rewrite run_int by reflexivity. do 2 (rewrite run_ushort by reflexivity). do 6 (rewrite run_int by reflexivity). reflexivity.
Qed.

(** ** The file *)
(** images that are saved without conversion, with a palette of [n] colours in the bytes [d] (none: n = 0) *)
Definition bmp_image (im : img) (n : Z) (d : list Z) : Prop :=
  Bpc im = 1 /\
  ((((Format im = IL_BGR /\ Bpp im = 3) \/ (Format im = IL_BGRA /\ Bpp im = 4)) /\ PalType (Pal im) = IL_PAL_NONE /\ PalSize (Pal im) = 0 /\ n = 0) \/
   (Format im = IL_COLOUR_INDEX /\ Bpp im = 1 /\ palette_of (Pal im) n d /\ bytes d /\ 0 < n /\ 3 * n < 2 ^ 24)).

Lemma bpp_pal : forall t, pal_type t -> ilGetBppPal t = colour_size t /\ t <> IL_PAL_NONE.
Proof. intros t H. unfold pal_type in H. cbn [In] in H. destruct H as [<-|[<-|[<-|[<-|[<-|[<-|[]]]]]]]; (split; [reflexivity|discriminate]). Qed.

Lemma save_pal : forall alloc im n d, allocator_ok alloc -> bmp_image im n d -> alloc 16 <> None -> alloc (n * 4) <> None ->
  exists tp,
    (if match Palette (Pal im) with Some _ => negb (PalSize (Pal im) =? 0) && negb (PalType (Pal im) =? IL_PAL_NONE) | None => false end
     then if PalType (Pal im) =? IL_PAL_BGR32 then Ok (Some (Pal im)) else let! (p, _) := iConvertPal alloc (Pal im) IL_PAL_BGR32 in Ok p
     else Ok (Some (Pal im))) = Ok (Some tp) /\ PalSize tp = 4 * n /\
    (if PalType (Pal im) =? IL_PAL_NONE then Ok 0 else pal_num_cols (Pal im)) = Ok n /\
    exists pd, (slice (match Palette tp with Some p => p | None => [] end) 0 (4 * n)) = pd /\ 4 * n <= zlen (match Palette tp with Some p => p | None => [] end) /\ zlen pd = 4 * n /\ bytes pd /\
      forall i, 0 <= i < n -> colour IL_PAL_BGR32 pd i = held IL_PAL_BGR32 (colour (PalType (Pal im)) d i).
Proof.
  intros alloc im n d HA (HC & H) A1 A2. destruct H as [(_ & HT & HS & ->)|(HF & HB & (HT & HP & HS & HL) & HBy & Hn & Hb)].
  - exists (Pal im). rewrite HT, HS. change (0 =? 0) with true. cbn [negb andb]. change (IL_PAL_NONE =? IL_PAL_NONE) with true. cbv iota.
    split; [destruct (Palette (Pal im)); reflexivity|]. split; [reflexivity|]. split; [reflexivity|]. eexists. split; [reflexivity|]. change (4 * 0) with 0. rewrite slice_0. split; [auto|]. split; [reflexivity|]. split; [apply bytes_Forall; constructor|]. intros; lia.
  - destruct (bpp_pal _ HT) as (EB & NN). assert (CS := cs_cases (PalType (Pal im))). assert (S0 : (PalSize (Pal im) =? 0) = false) by nia. assert (T0 : (PalType (Pal im) =? IL_PAL_NONE) = false) by lia.
    assert (NC : pal_num_cols (Pal im) = Ok n). { unfold pal_num_cols. rewrite HP, S0, T0. cbn [orb]. rewrite EB. replace (colour_size (PalType (Pal im)) =? 0) with false by lia. rewrite HS, HL, Z.div_mul by lia. reflexivity. }
    rewrite T0. rewrite NC. rewrite HP. rewrite S0. cbn [negb andb]. destruct (PalType (Pal im) =? IL_PAL_BGR32) eqn:E32.
    + apply Z.eqb_eq in E32. exists (Pal im). split; [reflexivity|]. rewrite E32 in *. change (colour_size IL_PAL_BGR32) with 4 in HL. split; [lia|]. split; [reflexivity|]. rewrite HP. replace (4 * n) with (zlen d) by lia. rewrite slice_all. exists d. split; [reflexivity|]. split; [lia|]. split; [lia|]. split; [auto|]. intros i Hi. reflexivity.
    + destruct (convert_core alloc (Pal im) IL_PAL_BGR32 n d) as (r & e & E & HR & HQ); auto; [repeat split; auto|unfold pal_type; cbn; auto 10|]. change (colour_size IL_PAL_BGR32) with 4 in HR. rewrite E. cbn [bind]. destruct r as [q|]; [|exfalso; apply HR; auto].
      destruct (HQ q eq_refl) as (dq & (QT & QP & QS & QL) & QE & QC & QB). exists q. split; [reflexivity|]. rewrite QE in *. change (colour_size IL_PAL_BGR32) with 4 in QL. split; [lia|]. split; [reflexivity|]. rewrite QP. replace (4 * n) with (zlen dq) by lia. rewrite slice_all. exists dq. split; [reflexivity|]. split; [lia|]. split; [lia|]. split; [auto|].
      intros i Hi. specialize (QC i Hi). rewrite QE in QC. exact QC.
Qed.

(** C65: the file is a Windows bitmap with the width, the height, the pixels and the palette of the image *)
Theorem C65_file : forall alloc im buf n d, allocator_ok alloc -> img_ok im buf -> bytes buf -> valid_origin im -> bmp_image im n d ->
  alloc (SizeOfData im) <> None -> alloc 16 <> None -> alloc (n * 4) <> None ->
  54 + 4 * n + Height im * bmp_stride (Width im) (8 * Bpp im) < 2147483640 ->
  exists p F, iSaveBitmapInternal alloc im = Ok (Some (true, p)) /\ file_of p = Some F /\
    bmp_file F (Width im) (Height im) (8 * Bpp im) 0 (54 + 4 * n) n /\
    word4 F 2 = zlen F /\ zlen F = 54 + 4 * n + Height im * bmp_stride (Width im) (8 * Bpp im) /\
    (forall x t k, in_image im x t 0 k -> sample (8 * Bpp im) F (54 + 4 * n + bmp_row (Height im) t * bmp_stride (Width im) (8 * Bpp im)) x k = picture im buf x t 0 k) /\
    (forall i, 0 <= i < n -> colour IL_PAL_BGR32 (slice F 54 (4 * n)) i = held IL_PAL_BGR32 (colour (PalType (Pal im)) d i)).
Proof.
  intros alloc im buf n d HA Hok HB HO HI N1 N2 N3 HS. assert (HI' := HI). destruct HI' as (HC & HI').
  destruct (save_pal alloc im n d HA HI N2 N3) as (tp & ET & ES & EC & pd & EP & LPd & LP & BP & CP).
  destruct (lower_data alloc im buf Hok HO HA N1) as (td & ED & LT & BT & GT). specialize (BT HB).
  destruct Hok as (HD & HW & HH & HDp & Hbpp & Hbpc & Hbps & Hpl & Hsz & H32 & Hlen).
  assert (Bb : Bpp im = 1 \/ Bpp im = 3 \/ Bpp im = 4) by intuition lia. assert (N0 : 0 <= n) by intuition lia.
  assert (EF : case (Format im) [IL_BGR; IL_BGRA; IL_COLOUR_INDEX] = true) by (destruct HI' as [([(E & _)|(E & _)] & _)|(E & _)]; rewrite E; reflexivity). clear HI'.
  rewrite HC, Z.mul_1_r in Hbps.
  assert (ST : bmp_stride (Width im) (8 * Bpp im) = Bps im + padb (Bps im)) by (rewrite Hbps; unfold bmp_stride, padb; destruct Bb as [ -> |[ -> | -> ]]; lia). rewrite ST in *.
  assert (PB : 0 <= padb (Bps im) < 4) by (unfold padb; lia). assert (WB : Width im <= Bps im) by (rewrite Hbps; nia). assert (BH : Bps im + padb (Bps im) <= Height im * (Bps im + padb (Bps im))) by nia. assert (HHs : Height im <= Height im * (Bps im + padb (Bps im))) by nia. assert (P0 : 0 <= SizeOfPlane im) by (rewrite Hpl; nia). assert (PL : SizeOfPlane im <= zlen td) by (rewrite LT, Hsz; clear - P0 HDp; nia).
  unfold iSaveBitmapInternal. rewrite ET. cbn [bind]. rewrite EF, HC. change (negb true || (1 <? 1)) with false. cbv iota. rewrite ED. cbn [bind]. rewrite EC. cbn [bind]. rewrite ES. replace (u16 (Bpp im * 8)) with (8 * Bpp im) by (rewrite u16_small by lia; lia).
  do 2 eexists. split; [reflexivity|]. unfold file_of. rewrite run_header. set (hd := bmp_header 0 (54 + 4 * n) (Width im) (Height im) (8 * Bpp im) 0 n). assert (LH : zlen hd = 54) by reflexivity.
  rewrite run_text_part by lia. rewrite EP. rewrite run_bmp_rows by (try lia; rewrite zlen_app; lia). set (rows := padded (Bps im) (padb (Bps im)) td (Z.to_nat (Height im)) 0).
  assert (LR : zlen rows = Height im * (Bps im + padb (Bps im))) by (unfold rows; rewrite zlen_padded by (rewrite ?Z2Nat.id by lia; lia); rewrite Z2Nat.id by lia; lia).
  assert (BR : bytes rows) by (apply bytes_padded; rewrite ?Z2Nat.id by lia; auto; lia).
  set (body := (hd ++ pd) ++ rows). assert (LBd : zlen body = 54 + 4 * n + Height im * (Bps im + padb (Bps im))) by (unfold body; rewrite !zlen_app; lia).
  cbn [run_file]. change (IL_SEEK_SET =? 0) with true. cbv iota. replace ((0 <=? 2) && (2 <=? zlen body) && (-2147483648 <? 2) && (2 <=? 2147483647)) with true by lia. unfold SaveLittleUInt. rewrite le4. cbn [run_file].
  change ((0 <=? 4) && (0 <=? 1) && (4 * 1 <=? zlen (little4 (zlen body))) && (2 + 4 * 1 <? 2147483648)) with true. cbv iota.
  rewrite rest_all by reflexivity.
  assert (EB : overwrite body 2 (little4 (zlen body)) = bmp_header (zlen body) (54 + 4 * n) (Width im) (Height im) (8 * Bpp im) 0 n ++ pd ++ rows).
  { unfold body at 1. rewrite <- app_assoc. unfold hd, bmp_header. rewrite <- !app_assoc. apply patch_size. }
  rewrite EB. assert (LF : zlen (bmp_header (zlen body) (54 + 4 * n) (Width im) (Height im) (8 * Bpp im) 0 n ++ pd ++ rows) = zlen body) by (unfold body; rewrite !zlen_app, LH; change (zlen (bmp_header _ _ _ _ _ _ _)) with 54; lia).
  rewrite LF. change (IL_SEEK_SET =? 0) with true. cbv iota. replace ((0 <=? zlen body) && (zlen body <=? zlen body) && (-2147483648 <? zlen body) && (zlen body <=? 2147483647)) with true by lia.
  split; [reflexivity|]. fold hd. fold rows. fold body.
  destruct (header_file (zlen body) (54 + 4 * n) (Width im) (Height im) (8 * Bpp im) 0 n (pd ++ rows)) as (BF & WF); try lia; [apply bytes_app; auto|rewrite zlen_app; lia|].
  split; [exact BF|]. split; [rewrite LF; exact WF|]. split; [rewrite LF; exact LBd|]. set (F := bmp_header (zlen body) (54 + 4 * n) (Width im) (Height im) (8 * Bpp im) 0 n ++ pd ++ rows) in *.
  assert (GF : forall i, 0 <= i -> geti F (54 + 4 * n + i) = geti rows i). { intros i Hi. unfold F. rewrite geti_app by lia. change (zlen (bmp_header _ _ _ _ _ _ _)) with 54. replace (54 + 4 * n + i <? 54) with false by lia. rewrite geti_app by lia. rewrite LP. replace (54 + 4 * n + i - 54 <? 4 * n) with false by lia. f_equal. lia. }
  split.
  - intros x t k Hx. rewrite <- (GT x t 0 k Hx). unfold in_image in Hx. rewrite HC in Hx. unfold bmp_row. replace (Height im <? 0) with false by lia. set (y := Height im - 1 - t) in *. assert (Y : 0 <= y < Height im) by lia.
    assert (XK : 0 <= x * Bpp im + k < Bps im) by (rewrite Hbps; nia). unfold pix_off. rewrite HC, !Z.mul_1_r, <- Hbps.
    assert (G := geti_padded (Bps im) (padb (Bps im)) td (Z.to_nat (Height im)) 0 y (x * Bpp im + k)). rewrite Z2Nat.id in G by lia. specialize (G ltac:(lia) ltac:(lia) ltac:(lia) ltac:(lia) ltac:(lia) XK). fold rows in G.
    replace (0 * (Height im * Bps im) + y * Bps im + x * Bpp im + k) with ((0 + y) * Bps im + (x * Bpp im + k)) by lia. rewrite <- G. rewrite <- GF by nia. unfold sample. destruct Bb as [Eb|[Eb|Eb]]; rewrite Eb in *; try change (8 * 1) with 8; try change (8 * 3) with 24; try change (8 * 4) with 32; cbn [Z.eqb Pos.eqb]; f_equal; clearbody y; try replace k with 0 by lia; ring.
  - intros i Hi. rewrite <- CP by auto. f_equal. unfold F. rewrite slice_app_r by (change (zlen (bmp_header _ _ _ _ _ _ _)) with 54; lia). change (zlen (bmp_header _ _ _ _ _ _ _)) with 54. change (54 - 54) with 0. rewrite slice_app_l by lia. rewrite <- LP. apply slice_all.
Qed.
Print Assumptions C65_file.

(** and loading it again gives the picture back *)
Theorem C65_roundtrip : forall alloc im buf n d old us ui hb, allocator_ok alloc -> img_ok im buf -> bytes buf -> valid_origin im -> bmp_image im n d -> stacks us ui ->
  (forall m, 0 <= m -> alloc m <> None) ->
  54 + 4 * n + Height im * bmp_stride (Width im) (8 * Bpp im) < 2147483640 ->
  exists p F im' buf' r, iSaveBitmapInternal alloc im = Ok (Some (true, p)) /\ file_of p = Some F /\
    ilLoadBmpL alloc old us ui hb F = Ok (true, im', r) /\ img_ok im' buf' /\
    Width im' = Width im /\ Height im' = Height im /\ Format im' = (if Bpp im =? 1 then IL_COLOUR_INDEX else IL_BGR) /\
    (forall x t k, in_image im' x t 0 k -> picture im' buf' x t 0 k = picture im buf x t 0 k) /\
    (Format im <> IL_BGRA -> Bpp im' = Bpp im) /\
    (0 < n -> exists d', palette_of (Pal im') n d' /\ same_colours (Pal im) (Pal im') n d d').
Proof.
  intros alloc im buf n d old us ui hb HA Hok HB HO HI HU N HS. assert (N0 : 0 <= n) by (destruct HI as (_ & HI); intuition lia). assert (S0 : 0 <= SizeOfData im) by (destruct Hok as (_ & _ & _ & _ & _ & _ & _ & _ & _ & _ & L); rewrite <- L; auto).
  destruct (C65_file alloc im buf n d HA Hok HB HO HI (N _ S0) (N 16 ltac:(lia)) (N (n * 4) ltac:(lia)) HS) as (p & F & EP & EF & BF & _ & LF & GF & CF).
  destruct Hok as (HD & HW & HH & HDp & Hbpp & Hbpc & Hbps & Hpl & Hsz & H32 & Hlen). destruct HI as (HC & HI). assert (Bb : Bpp im = 1 \/ Bpp im = 3 \/ Bpp im = 4) by intuition lia. assert (NB : (Bpp im = 1 /\ 0 < n /\ palette_of (Pal im) n d) \/ (Bpp im <> 1 /\ n = 0)) by (unfold palette_of in *; intuition lia).
  assert (Nn : 3 * n < 2 ^ 24) by (change (2 ^ 24) with 16777216 in *; intuition lia). change (2 ^ 24) with 16777216 in Nn.
  assert (BS : bmp_bpp (8 * Bpp im) <= Bpp im /\ 1 <= bmp_bpp (8 * Bpp im)) by (destruct Bb as [ -> |[ -> | -> ]]; vm_compute; split; discriminate).
  assert (SZ : 0 <= Width im * bmp_bpp (8 * Bpp im) * Z.abs (Height im) < 4294967296). { rewrite Z.abs_eq by lia. change (2 ^ 32) with 4294967296 in *. rewrite HC, Z.mul_1_r in Hbps. assert (Width im * bmp_bpp (8 * Bpp im) <= Bps im) by nia. assert (Width im * bmp_bpp (8 * Bpp im) * Height im <= SizeOfPlane im) by nia. assert (SizeOfPlane im <= SizeOfData im) by nia. nia. }
  assert (PZ : bmp_palette (8 * Bpp im) n = 4 * n) by (destruct NB as [( -> & Hn & _)|(Hn & -> )]; [unfold bmp_palette; cbn [Z.mul Pos.mul Z.eqb Pos.eqb]; replace (n =? 0) with false by lia; reflexivity|destruct Bb as [ E |[ -> | -> ]]; [lia|reflexivity..]]).
  assert (S1 : 0 <= Height im * bmp_stride (Width im) (8 * Bpp im)) by (apply Z.mul_nonneg_nonneg; [lia|unfold bmp_stride; lia]).
  destruct (alloc (Width im * bmp_bpp (8 * Bpp im) * Z.abs (Height im))) as [blk|] eqn:EA; [|exfalso; apply (N _ (proj1 SZ)); exact EA].
  destruct (alloc (4 * n)) as [pb|] eqn:EA2; [|exfalso; apply (N (4 * n) ltac:(lia)); exact EA2].
  destruct (C67_decode alloc old us ui hb F (Width im) (Height im) (8 * Bpp im) (54 + 4 * n) n blk pb BF HA HU) as (im' & buf' & r & E & OK' & W' & H' & D' & B' & C' & T' & F' & P' & G'); auto; try lia.
  { destruct Bb as [ -> |[ -> | -> ]]; cbn; auto 10. }
  { rewrite PZ. auto. }
  exists p, F, im', buf', r. split; [exact EP|]. split; [exact EF|]. split; [exact E|]. split; [exact OK'|]. split; [exact W'|]. split; [rewrite H'; lia|]. split; [rewrite F'; destruct Bb as [ -> |[ -> | -> ]]; reflexivity|].
  split; [|split].
  - intros x t k Hx. rewrite G' by auto. apply GF. unfold in_image in *. rewrite W', H', D', B', C' in Hx. rewrite HC. lia.
  - intros NF. rewrite B'. destruct Bb as [Eb|[Eb|Eb]]; rewrite Eb in *; try reflexivity. exfalso. intuition lia.
  - intros Hn. destruct NB as [(Eb & _ & HP)|(_ & ?)]; [|lia]. rewrite PZ, Eb in P'. change (8 * 1 <=? 8) with true in P'. cbv iota in P'. exists (slice F 54 (4 * n)). rewrite P'. destruct BF as (LFF & _). assert (LS : zlen (slice F 54 (4 * n)) = 4 * n) by (apply zlen_slice; lia). split.
    + split; [unfold pal_type; cbn; auto 10|]. split; [reflexivity|]. cbn [PalSize PalType]. change (colour_size IL_PAL_BGR32) with 4. lia.
    + exact CF.
Qed.
Print Assumptions C65_roundtrip.

(** what is written at position [pos] of an output that holds [f] *)
Definition bmp_saved (im : img) (f : list Z) (pos : Z) : option (list Z) :=
  match iSaveBitmapInternal bmp_alloc im with Ok (Some (true, p)) => run_file p f pos | _ => None end.
(** a colour-indexed image with two colours in RGB order, upper left origin *)
Definition ex_ci : img := mkImg 3 2 1 1 1 3 (Some [0; 1; 0; 1; 1; 0]) 6 6 IL_COLOUR_INDEX IL_UNSIGNED_BYTE IL_ORIGIN_UPPER_LEFT (mkPal (Some [1; 2; 3; 4; 5; 6]) 6 IL_PAL_RGB24) 0 0 0 0.
Example C65_ex : bmp_image ex_ci 2 [1; 2; 3; 4; 5; 6] /\ img_ok ex_ci [0; 1; 0; 1; 1; 0] /\ valid_origin ex_ci /\
  exists F, bmp_saved ex_ci [] 0 = Some F /\ slice F 54 16 = [3; 2; 1; 255; 6; 5; 4; 255; 1; 1; 0; 0; 0; 1; 0; 0].
Proof.
  split; [|split; [|split]].
  - split; [reflexivity|]. right. split; [reflexivity|]. split; [reflexivity|]. split; [|split; [|split; reflexivity]].
    + split; [cbn; auto|]. repeat split; reflexivity.
    + apply bytes_Forall. repeat constructor; discriminate || reflexivity.
  - repeat split; try reflexivity; try discriminate; cbn; auto.
  - right. reflexivity.
  - eexists. split; vm_compute; reflexivity.
Qed.

(** The alpha channel of a BGRA image is written, but not read: *)
Definition ex_bgra : img := mkImg 1 1 1 4 1 4 (Some [10; 20; 30; 40]) 4 4 IL_BGRA IL_UNSIGNED_BYTE IL_ORIGIN_LOWER_LEFT (mkPal None 0 IL_PAL_NONE) 0 0 0 0.
Theorem C65_alpha_refuted : exists F im r, bmp_saved ex_bgra [] 0 = Some F /\
  geti F 57 = 40 /\ ilLoadBmpL bmp_alloc ex_old us0 ui0 [] F = Ok (true, im, r) /\ Format im = IL_BGR /\ Data im = Some [10; 20; 30].
Proof.
  eexists. assert (E : exists im r, ilLoadBmpL bmp_alloc ex_old us0 ui0 [] (bmp_header 58 54 1 1 32 0 0 ++ [10; 20; 30; 40]) = Ok (true, im, r) /\ Format im = IL_BGR /\ Data im = Some [10; 20; 30]) by (do 2 eexists; split; [vm_compute; reflexivity|]; split; reflexivity).
  destruct E as (im & r & E1 & E2 & E3). exists im, r. split; [vm_compute; reflexivity|]. split; [reflexivity|]. split; [exact E1|]. auto.
Qed.
(** A colour-indexed image without a palette is written, but its file cannot be read: the loader expects 256 colours. *)
Definition ex_nopal : img := mkImg 3 2 1 1 1 3 (Some [0; 1; 0; 1; 1; 0]) 6 6 IL_COLOUR_INDEX IL_UNSIGNED_BYTE IL_ORIGIN_LOWER_LEFT (mkPal None 0 IL_PAL_NONE) 0 0 0 0.
Theorem C65_nopal_refuted : exists F, bmp_saved ex_nopal [] 0 = Some F /\
  exists im r, ilLoadBmpL bmp_alloc ex_old us0 ui0 [] F = Ok (false, im, r).
Proof.
  eexists. assert (E : exists im r, ilLoadBmpL bmp_alloc ex_old us0 ui0 [] (bmp_header 62 54 3 2 8 0 0 ++ [0; 1; 0; 0; 1; 1; 0; 0]) = Ok (false, im, r)) by (do 2 eexists; vm_compute; reflexivity).
  split; [vm_compute; reflexivity|]. exact E.
Qed.
(** Saving after other data in the same output (ilSaveF with a file that is already open) writes the size over bytes 2 to 5
    of that data: the position is not relative to the beginning of the bitmap. *)
Theorem C65_embed_refuted : exists F, bmp_saved ex_bgra [1; 2; 3; 4; 5; 6; 7; 8] 8 = Some F /\ slice F 0 8 = [1; 2; 66; 0; 0; 0; 7; 8] /\ slice F 10 4 = [0; 0; 0; 0].
Proof. eexists. split; [vm_compute; reflexivity|]. split; reflexivity. Qed.
