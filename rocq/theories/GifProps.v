(** C100, C101, C102: GIF files. *)
From Coq Require Import ZArith List Lia Bool.
From Verif Require Import Base Slices BitLemmas Elem Enums Utility Image ImageSpec Lump LumpSpec LumpProofs LumpProps Endian Strings ConvImgProps PcxProofs BmpDecode Safe SmallSpec PnmProofs Gif GifSpec GifBits GifLzw GifFrame GifParts GifProofs.
Import ListNotations.
Open Scope Z_scope.

(** ** C100: what a file shows *)

(** the images of a file are the canvases after its frames, with their palettes, places and durations *)
Theorem C100_animation_partial : forall F us alloc W H bg gc f fs old sig bb g fuel e,
  zlen F < 2147483648 -> bytes F -> (forall p, zlen (us p) = 2) -> allocator_ok alloc -> plenty alloc ->
  gif_file W H bg gc (f :: fs) F -> loadable H gc true (f :: fs) -> zlen sig = 6 -> zlen bb = 257 -> 9 * zlen F + 4320 <= Z.of_nat fuel ->
  exists ims, iLoadGifInternal fuel alloc us sig bb g old (Rd F 0 (zlen F) e) = Ok (true, ims, []) /\
    animation W H bg gc true (fun _ _ => 0) (f :: fs) ims.
Proof. intros F us alloc W H bg gc f fs old sig bb g fuel e HF BF HU HA HP GF LD LS LB Hf. eapply load_ok; eauto. Qed.

(** *** An example: two frames of two by two pixels *)
Definition ex_data : list Z := [2; 2; 68; 94; 0].
Definition ex_ctl : control := mkCtl 9 5 1.
Definition ex_gc : list Z := [10; 20; 30; 40; 50; 60].
Definition ex_f1 : frame := mkFrame 0 0 2 2 0 [] [0; 1; 1; 1] None.
Definition ex_f2 : frame := mkFrame 1 1 2 2 193 [1; 2; 3; 4; 5; 6; 7; 8; 9; 10; 11; 12] [0; 1; 1; 1] (Some ex_ctl).
Definition ex_ext : list Z := [33; 254; 2; 72; 105; 0; 33; 249; 4; 9; 5; 0; 1; 0].
Definition ex_l1 : list Z := [44; 0; 0; 0; 0; 2; 0; 2; 0; 0] ++ ex_data.
Definition ex_l2 : list Z := ex_ext ++ [44; 1; 0; 1; 0; 2; 0; 2; 0; 193] ++ [1; 2; 3; 4; 5; 6; 7; 8; 9; 10; 11; 12] ++ ex_data.
Definition ex_F : list Z := [71; 73; 70; 56; 57; 97; 3; 0; 3; 0; 128; 0; 0] ++ ex_gc ++ ex_l1 ++ ex_l2 ++ [59].

Lemma ex_lzw : lzw_stream 2 [(3, 4); (3, 0); (3, 1); (3, 7); (4, 5)] [0; 1; 1; 1].
Proof.
  eexists. split; [reflexivity|]. split; [discriminate|]. apply (lzw_first 2 [] 0); [lia|]. apply (lzw_known 2 [] [0] 1 [1] _ [1; 1]); [reflexivity|].
  apply (lzw_next 2 [[0; 1]] [1] _ []); [reflexivity|]. apply (lzw_end 2 [[0; 1]; [1; 1]] (Some [1; 1])).
Qed.
Example ex_data_ok : gif_data [0; 1; 1; 1] ex_data.
Proof.
  exists 2, [(3, 4); (3, 0); (3, 1); (3, 7); (4, 5)], [68; 94], [2; 68; 94; 0]. split; [lia|]. split; [exact ex_lzw|]. split; [reflexivity|]. split.
  - split; [apply bytes_Forall; repeat constructor; lia|]. split; [vm_compute; split; congruence|vm_compute; reflexivity].
  - split; [|reflexivity]. apply (sb_block [68; 94] [] [0]); [cbn; lia|constructor].
Qed.
Example ex_ext_ok : extensions None ex_ext (Some ex_ctl).
Proof.
  change ex_ext with ([33; 254] ++ [2; 72; 105; 0] ++ [33; 249; 4; 9; 5; 0; 1; 0]). apply (ext_other None 254 [72; 105] [2; 72; 105; 0]); [unfold byte; lia|lia|apply (sb_block [72; 105] [] [0]); [cbn; lia|constructor]|].
  apply (ext_control None ex_ctl []); [unfold byte; cbn; lia|unfold short; cbn; lia|unfold byte; cbn; lia|constructor].
Qed.
Example ex_file_ok : gif_file 3 3 0 ex_gc [ex_f1; ex_f2] ex_F.
Proof.
  split; [lia|]. split; [lia|]. split; [unfold byte; lia|]. exists [71; 73; 70; 56; 57; 97], 128, 0, (ex_l1 ++ ex_l2 ++ []), []. split; [exists 71, 73, 70, 97, 57; split; [reflexivity|auto 10]|].
  split; [split; [unfold byte; lia|reflexivity]|]. split; [unfold byte; lia|]. split; [|reflexivity].
  apply frames_cons; [|apply frames_cons; [|apply frames_nil]]; (do 6 (split; [cbn; lia|])); (split; [reflexivity|]); (split; [apply bytes_Forall; repeat constructor; lia|]); (split; [split; [unfold byte; cbn; lia|reflexivity]|]).
  - exists [], ex_data. split; [constructor|]. split; [exact ex_data_ok|reflexivity].
  - exists ex_ext, ex_data. split; [exact ex_ext_ok|]. split; [exact ex_data_ok|reflexivity].
Qed.
Example ex_loadable : loadable 3 ex_gc true [ex_f1; ex_f2].
Proof.
  cbn [loadable]. split; [auto|]. split; [discriminate|]. split; [auto|]. split; [discriminate|]. split; [right; vm_compute; congruence|]. split; [discriminate|]. split; [right; right; vm_compute; congruence|].
  split; [intros _; split; [right; left; reflexivity|split; [reflexivity|exact I]]|exact I].
Qed.
Lemma ex_bytes : bytes ex_F.
Proof.
  assert (E : forallb (fun b => (0 <=? b) && (b <? 256)) ex_F = true) by (vm_compute; reflexivity). apply bytes_Forall, Forall_forall. intros b Hb. rewrite forallb_forall in E. specialize (E b Hb). lia.
Qed.
(** what they show: the first frame in the corner of the background; the second one, whose colour 1 is transparent, on a canvas of that colour *)
Example ex_animation : exists im1 im2, iLoadGifInternal (Z.to_nat 6000) ex_alloc (fun _ => [0; 0]) [0; 0; 0; 0; 0; 0] (repeat 0 257) (mkGfx true 0 0 0) (mkImg 0 0 0 0 0 0 None 0 0 0 0 0 (mkPal None 0 0) 0 0 0 0) (Rd ex_F 0 (zlen ex_F) []) = Ok (true, [im1; im2], []) /\
  shows im1 3 3 1 IL_COLOUR_INDEX (fun x t _ => geti [0; 1; 0; 1; 1; 0; 0; 0; 0] (t * 3 + x)) /\ shows im2 3 3 1 IL_COLOUR_INDEX (fun x t _ => geti [1; 1; 1; 1; 0; 1; 1; 1; 1] (t * 3 + x)) /\
  Pal im2 = mkPal (Some [1; 2; 3; 255; 4; 5; 6; 0; 7; 8; 9; 255; 10; 11; 12; 255]) 16 IL_PAL_RGBA32 /\ Duration im2 = 50 /\ OffX im2 = 1.
Proof.
  destruct (C100_animation_partial ex_F (fun _ => [0; 0]) ex_alloc 3 3 0 ex_gc ex_f1 [ex_f2] (mkImg 0 0 0 0 0 0 None 0 0 0 0 0 (mkPal None 0 0) 0 0 0 0) [0; 0; 0; 0; 0; 0] (repeat 0 257) (mkGfx true 0 0 0) (Z.to_nat 6000) []) as (ims & -> & AN);
    [reflexivity|exact ex_bytes|reflexivity|apply ex_alloc_ok|apply ex_alloc_ok|exact ex_file_ok|exact ex_loadable|reflexivity|reflexivity|rewrite Z2Nat.id by lia; vm_compute; discriminate|].
  destruct ims as [|im1 [|im2 [|im3 ims]]]; cbn [animation] in AN; try tauto. destruct AN as ((S1 & _) & (S2 & P2 & O2 & _ & D2) & _). exists im1, im2. split; [reflexivity|].
  assert (EQ : forall im px px', shows im 3 3 1 IL_COLOUR_INDEX px -> (forall x t, 0 <= x < 3 -> 0 <= t < 3 -> px x t 0 = px' x t 0) -> shows im 3 3 1 IL_COLOUR_INDEX px').
  { intros im px px' (buf & Q1 & Q2 & Q3 & Q4 & Q5 & Q6 & Q7 & Q8 & Q9) E. exists buf. do 8 (split; [auto|]). intros x t c Hx Ht Hc. rewrite Q9 by auto. assert (c = 0) by lia. subst c. apply E; auto. }
  split; [eapply EQ; [exact S1|]|split; [eapply EQ; [exact S2|]|]].
  - intros x t Hx Ht. assert (x = 0 \/ x = 1 \/ x = 2) as [-> | [-> | ->]] by lia; assert (t = 0 \/ t = 1 \/ t = 2) as [-> | [-> | ->]] by lia; vm_compute; reflexivity.
  - intros x t Hx Ht. assert (x = 0 \/ x = 1 \/ x = 2) as [-> | [-> | ->]] by lia; assert (t = 0 \/ t = 1 \/ t = 2) as [-> | [-> | ->]] by lia; vm_compute; reflexivity.
  - split; [exact P2|]. split; [exact D2|exact O2].
Qed.

(** *** Faults *)
Definition ex_load (F : list Z) (alloc : allocator) : res gifres :=
  iLoadGifInternal 40 alloc (fun _ => [0; 0]) [0; 0; 0; 0; 0; 0] (repeat 0 257) (mkGfx true 0 0 0) (mkImg 0 0 0 0 0 0 None 0 0 0 0 0 (mkPal None 0 0) 0 0 0 0) (Rd F 0 (zlen F) []).

(** a picture of one pixel is refused *)
Definition ex_dot : list Z := [71; 73; 70; 56; 57; 97; 1; 0; 1; 0; 128; 0; 0; 10; 20; 30; 40; 50; 60; 44; 0; 0; 0; 0; 1; 0; 1; 0; 0; 2; 2; 68; 1; 0; 59].
Theorem C100_single_pixel_refuted :
  gif_data_with true [0] [2; 2; 68; 1; 0] /\ ex_dot = [71; 73; 70; 56; 57; 97] ++ word 1 ++ word 1 ++ [128; 0; 0] ++ [10; 20; 30; 40; 50; 60] ++ ([44] ++ word 0 ++ word 0 ++ word 1 ++ word 1 ++ [0] ++ [2; 2; 68; 1; 0]) ++ [59] /\
  exists ims, ex_load ex_dot ex_alloc = Ok (false, ims, [IL_ILLEGAL_FILE_VALUE]).
Proof.
  split; [|split; [reflexivity|eexists; vm_compute; reflexivity]].
  exists 2, [(3, 4); (3, 0); (3, 5)], [68; 1], [2; 68; 1; 0]. split; [lia|]. split; [eexists; split; [reflexivity|]; split; [discriminate|]; apply (lzw_first 2 [] 0); [lia|]; apply (lzw_end 2 [] (Some [0]))|]. split; [reflexivity|]. split.
  - split; [apply bytes_Forall; repeat constructor; lia|]. split; [vm_compute; split; congruence|vm_compute; reflexivity].
  - split; [|reflexivity]. apply (sb_block [68; 1] [] [0]); [cbn; lia|constructor].
Qed.

(** a second frame with colours of its own that is drawn over the first one: too many bytes are taken for colours *)
Definition ex_two : list Z := [71; 73; 70; 56; 57; 97; 2; 0; 2; 0; 128; 0; 0; 10; 20; 30; 40; 50; 60] ++ [44; 0; 0; 0; 0; 2; 0; 2; 0; 0] ++ ex_data ++ [44; 0; 0; 0; 0; 2; 0; 2; 0; 128; 1; 2; 3; 4; 5; 6] ++ ex_data ++ [59].
Definition ex_two_fs : list frame := [mkFrame 0 0 2 2 0 [] [0; 1; 1; 1] None; mkFrame 0 0 2 2 128 [1; 2; 3; 4; 5; 6] [0; 1; 1; 1] None].
Theorem C100_second_palette_refuted : gif_file 2 2 0 ex_gc ex_two_fs ex_two /\ exists ims er, ex_load ex_two ex_alloc = Ok (false, ims, er).
Proof.
  split; [|do 2 eexists; vm_compute; reflexivity].
  split; [lia|]. split; [lia|]. split; [unfold byte; lia|]. exists [71; 73; 70; 56; 57; 97], 128, 0, (([44; 0; 0; 0; 0; 2; 0; 2; 0; 0] ++ ex_data) ++ ([44; 0; 0; 0; 0; 2; 0; 2; 0; 128; 1; 2; 3; 4; 5; 6] ++ ex_data) ++ []), []. split; [exists 71, 73, 70, 97, 57; split; [reflexivity|auto 10]|].
  split; [split; [unfold byte; lia|reflexivity]|]. split; [unfold byte; lia|]. split; [|reflexivity].
  apply frames_cons; [|apply frames_cons; [|apply frames_nil]]; (do 6 (split; [cbn; lia|])); (split; [reflexivity|]); (split; [apply bytes_Forall; repeat constructor; lia|]); (split; [split; [unfold byte; cbn; lia|reflexivity]|]).
  - exists [], ex_data. split; [constructor|]. split; [exact ex_data_ok|reflexivity].
  - exists [], ex_data. split; [constructor|]. split; [exact ex_data_ok|reflexivity].
Qed.

(** ** C101: what is refused *)

Lemma lower_is : forall x y, 0 <= x < 256 -> 97 <= y <= 122 -> (tolower x = y <-> x = y - 32 \/ x = y).
Proof. intros x y Hx Hy. unfold tolower. destruct ((65 <=? x) && (x <=? 90)) eqn:E; lia. Qed.
Lemma lower_digit : forall x y, 0 <= x < 256 -> 48 <= y <= 57 -> tolower x = y -> x = y.
Proof. intros x y Hx Hy. unfold tolower. destruct ((65 <=? x) && (x <=? 90)) eqn:E; lia. Qed.
Lemma sig_name : forall sig, bytes sig -> zlen sig = 6 -> gif_sig sig = true <-> gif_name sig.
Proof.
  intros sig B L. split; [|apply name_ok]. rewrite bytes_Forall in B. unfold zlen in L. destruct sig as [|a [|b [|c [|d [|n [|f [|? ?]]]]]]]; try (cbn in L; lia). clear L.
  repeat match goal with HB : Forall _ (_ :: _) |- _ => inversion HB; clear HB; subst end. unfold gif_sig, same_sig. cbn [map GIF87A GIF89A].
  change (tolower 71) with 103. change (tolower 73) with 105. change (tolower 70) with 102. change (tolower 56) with 56. change (tolower 55) with 55. change (tolower 57) with 57. change (tolower 65) with 97.
  intros E. apply orb_true_iff in E. assert (G : forall m, 48 <= m <= 57 -> (m = 55 \/ m = 57) -> (if list_eq_dec Z.eq_dec [tolower a; tolower b; tolower c; tolower d; tolower n; tolower f] [103; 105; 102; 56; m; 97] then true else false) = true -> gif_name [a; b; c; d; n; f]).
  { intros m Hm Hm2 Q. match type of Q with context [list_eq_dec ?a1 ?a2 ?a3] => destruct (list_eq_dec a1 a2 a3) as [Q2|]; [|discriminate Q] end. injection Q2 as Q3 Q4 Q5 Q6 Q7 Q8. apply lower_is in Q3; [|auto|lia]. apply lower_is in Q4; [|auto|lia]. apply lower_is in Q5; [|auto|lia]. apply lower_digit in Q6; [|auto|lia]. apply lower_digit in Q7; [|auto|lia]. apply lower_is in Q8; [|auto|lia].
    exists a, b, c, f, n. subst d. split; [reflexivity|]. lia. }
  destruct E as [E|E]; [apply (G 55); auto; lia|apply (G 57); auto; lia].
Qed.

Section Input.
Variables (F : list Z).
Hypothesis HF : zlen F < 2147483648.
Hypothesis BF : bytes F.
Notation R p e := (Rd F p (zlen F) e).

(** a file is taken for a GIF exactly if it starts with the name, and the test does not move the position *)
Theorem C101_valid : forall hd p e, zlen hd = 6 -> 0 <= p -> p + 6 <= zlen F -> exists b, iIsValidGif hd (R p e) = Ok (b, R p e) /\ (b = true <-> gif_name (slice F p 6)).
Proof.
  intros hd p e LH Hp HL. unfold iIsValidGif. rewrite read_in by lia. cbn [bind]. change (6 =? 6) with true. cbn [negb]. unfold iSeekRLump, seek_lump. cbn [rpos Lump.rsize rlump rerr]. change (IL_SEEK_CUR =? IL_SEEK_SET) with false. change (IL_SEEK_CUR =? IL_SEEK_CUR) with true. cbv iota.
  rewrite u32_small by lia. replace (zlen F <? p + 6 + -6) with false by lia. cbn [bind]. exists (gif_sig (slice F p 6)). split; [do 3 f_equal; lia|]. apply sig_name; [apply bytes_slice; auto; lia|apply zlen_slice; lia].
Qed.
(** a file with another name is refused *)
Theorem C101_name_refused : forall fuel alloc us sig bb g old e, (forall p, zlen (us p) = 2) -> zlen sig = 6 -> 13 <= zlen F -> ~ gif_name (slice F 0 6) ->
  iLoadGifInternal fuel alloc us sig bb g old (R 0 e) = Ok (false, [old], [IL_INVALID_FILE_HEADER]).
Proof.
  intros fuel alloc us sig bb g old e HU LS HL NN. unfold iLoadGifInternal. rewrite read_in by lia. cbn [bind]. unfold u2. cbn [rpos]. rewrite getu2 by (auto; lia). cbn [bind]. cbn [rpos]. rewrite getu2 by (auto; lia). cbn [bind].
  rewrite getc_in by lia. cbn [bind]. rewrite getc_in by lia. cbn [bind]. rewrite getc_in by lia. cbn [bind]. destruct (gif_sig (slice F 0 6)) eqn:E; [|reflexivity]. exfalso. apply NN. apply sig_name; auto; [apply bytes_slice; auto; lia|apply zlen_slice; lia].
Qed.
(** data whose code size is not 2 .. 9 are refused, and nothing is written *)
Theorem C101_code_size_refused : forall fuel alloc g d bb b W H S off p e, 0 <= p < zlen F -> ~ 2 <= geti F p <= 9 -> GifGetData fuel alloc g d bb b W H S off (R p e) = Ok (false, d, bb, R (p + 1) e).
Proof.
  intros fuel alloc g d bb b W H S off p e Hp NS. unfold GifGetData. rewrite getc_in by lia. cbn [bind]. destruct (geti F p =? IL_EOF); [reflexivity|]. replace ((geti F p <? 2) || (9 <? geti F p)) with true by lia. reflexivity.
Qed.
(** a file without global colours whose first frame has none of its own is refused *)
Theorem C101_colours_refused : forall us alloc W H bg f fs old sig bb g fuel e, (forall p, zlen (us p) = 2) -> allocator_ok alloc -> plenty alloc ->
  gif_file W H bg [] (f :: fs) F -> fcolours f = [] -> zlen sig = 6 -> zlen bb = 257 -> zlen F < Z.of_nat fuel ->
  exists ims, iLoadGifInternal fuel alloc us sig bb g old (R 0 e) = Ok (false, ims, []).
Proof.
  intros us alloc W HT bg f fs old sig bb g fuel e HU HA HP (HW & HH & Hbg & nm & info & aspect & l & junk & NM & CT & BA & FB & EF) NC LS LB Hf.
  assert (T := tail_start F). rewrite EF in T at 2. assert (L6 : zlen nm = 6) by (destruct NM as (? & ? & ? & ? & ? & -> & _); reflexivity). assert (TL := tail_len _ _ _ T). rewrite zlen_app in TL. match type of TL with context [zlen nm + zlen ?q] => assert (0 <= zlen q) by auto end.
  unfold iLoadGifInternal. rewrite read_in by lia. cbn [bind]. assert (ES := slice_tail F _ _ _ T). rewrite L6 in ES. rewrite ES. rewrite (name_ok _ NM). cbn [negb].
  assert (T1 := tail_app _ _ _ _ T). rewrite L6 in T1. destruct (u2_tail F us HF HU _ e _ _ T1) as (-> & T2). cbn [bind]. destruct (u2_tail F us HF HU _ e _ _ T2) as (-> & T3). cbn [bind]. cbn [app] in T3.
  destruct (getc_tail F HF _ _ _ e T3) as (-> & T4 & _). cbn [bind]. destruct (getc_tail F HF _ _ _ e T4) as (-> & T5 & _). cbn [bind]. destruct (getc_tail F HF _ _ _ e T5) as (-> & T6 & _). cbn [bind].
  assert (S : W * HT < 4294967296) by nia. destruct (alloc (W * 1 * HT)) as [nb|] eqn:EA; [|exfalso; apply (HP (W * 1 * HT)); auto; nia]. assert (LN := HA _ _ EA). rewrite (init_ok alloc _ W HT 1 IL_COLOUR_INDEX nb) by (auto; lia). cbn [bind negb].
  rewrite !Z.mul_1_r in *. unfold byte in *. rewrite (u8_small bg) by lia. assert (BI := proj1 CT). unfold byte in BI. rewrite (u8_small info) by lia.
  destruct (Z.testbit info 7) eqn:E7; [destruct (table_shape _ _ CT E7) as (n & _ & _ & L3 & _); congruence|]. cbn [bind negb].
  inversion FB as [|? ? l1 l2 FB1 FB2 E1 E2]. subst l. destruct FB1 as (H1 & H2 & H3 & H4 & H5 & H6 & HX & BX & CTF & ext & data & EXT & GD & ->).
  rewrite <- !app_assoc in T6. cbn [app] in T6. assert (CO := ext_ok _ _ _ EXT I). assert (TL6 := tail_len _ _ _ T6). rewrite zlen_app in TL6. match type of TL6 with context [zlen ext + zlen ?q] => assert (0 <= zlen q) by auto end.
  destruct fuel as [|fuel]; [assert (0 <= zlen F) by auto; lia|]. set (pos := 0 + 6 + 2 + 2 + 1 + 1 + 1) in *. assert (NE : iEofLump (R pos e) = false) by (destruct ext; cbn [app] in T6; eapply not_eof; eauto).
  cbn [GetImages]. rewrite NE. assert (LE : (length ext < fuel)%nat) by (unfold zlen in *; lia).
  destruct (extensions_ok F us HF BF HU _ _ _ EXT (mkGfx true (Packed g) (Delay g) (Transparent g)) pos e 44 _ fuel eq_refl T6 ltac:(lia) LE) as (g1 & -> & HC). cbn [bind negb]. assert (T7 := tail_app _ _ _ _ T6).
  destruct (getc_tail F HF _ _ _ e T7) as (-> & T8 & _). cbn [bind]. change (u8 44 =? 44) with true. cbn [negb].
  destruct (u2_tail F us HF HU _ e _ _ T8) as (-> & T9). cbn [bind]. destruct (u2_tail F us HF HU _ e _ _ T9) as (-> & T10). cbn [bind]. destruct (u2_tail F us HF HU _ e _ _ T10) as (-> & T11). cbn [bind]. destruct (u2_tail F us HF HU _ e _ _ T11) as (-> & T12). cbn [bind].
  cbn [app] in T12. destruct (getc_tail F HF _ _ _ e T12) as (-> & T13 & _). cbn [bind]. assert (BI2 := proj1 CTF). unfold byte in BI2. rewrite (u8_small (finfo f)) by lia.
  rewrite NC in T13. cbn [app] in T13. assert (NE7 : forall q m z, tail F q (data ++ l2 ++ m :: z) -> iEofLump (R q e) = false) by (intros q m z Tq; destruct data; cbn [app] in Tq; [destruct l2; cbn [app] in Tq|]; eapply not_eof; eauto).
  rewrite (NE7 _ _ _ T13). cbv zeta.
  assert (EXI : with_Origin (mkImg W HT 1 1 1 W (Some nb) (W * HT) (W * HT) IL_COLOUR_INDEX IL_UNSIGNED_BYTE IL_ORIGIN_LOWER_LEFT (mkPal None 0 IL_PAL_NONE) 0 0 0 0) IL_ORIGIN_UPPER_LEFT = cimg W HT nb (mkPal None 0 IL_PAL_NONE) 0 0 0) by reflexivity. rewrite EXI.
  destruct (next_image_ok F us alloc HF HU HA HP W HT bg HW HH Hbg f g1 true 0 [] nb (mkPal None 0 IL_PAL_NONE) 0 0 0 old (fun _ _ => 0) HC CO LN ltac:(auto) eq_refl eq_refl (or_introl eq_refl) ltac:(discriminate) ltac:(discriminate)) as (b1_ & p1 & dx & dy & -> & HD). cbn [bind negb].
  unfold frame_palette. assert (E72 : Z.testbit (finfo f) 7 = false). { destruct (Z.testbit (finfo f) 7) eqn:E72; [|auto]. destruct (table_shape _ _ CTF E72) as (n & _ & _ & L3 & _). congruence. }
  rewrite E72. unfold iCopyPalette. cbn [Palette bind negb]. eexists. reflexivity.
Qed.
(** a file without frames is refused *)
Theorem C101_empty_refused : forall us alloc W H bg gc old sig bb g fuel e, (forall p, zlen (us p) = 2) -> allocator_ok alloc -> plenty alloc ->
  gif_file W H bg gc [] F -> zlen sig = 6 -> zlen F < Z.of_nat fuel ->
  exists ims, iLoadGifInternal fuel alloc us sig bb g old (R 0 e) = Ok (false, ims, []).
Proof.
  intros us alloc W HT bg gc old sig bb g fuel e HU HA HP (HW & HH & Hbg & nm & info & aspect & l & junk & NM & CT & BA & FB & EF) LS Hf.
  assert (T := tail_start F). rewrite EF in T at 2. assert (L6 : zlen nm = 6) by (destruct NM as (? & ? & ? & ? & ? & -> & _); reflexivity). assert (TL := tail_len _ _ _ T). rewrite zlen_app in TL. match type of TL with context [zlen nm + zlen ?q] => assert (0 <= zlen q) by auto end.
  unfold iLoadGifInternal. rewrite read_in by lia. cbn [bind]. assert (ES := slice_tail F _ _ _ T). rewrite L6 in ES. rewrite ES. rewrite (name_ok _ NM). cbn [negb].
  assert (T1 := tail_app _ _ _ _ T). rewrite L6 in T1. destruct (u2_tail F us HF HU _ e _ _ T1) as (-> & T2). cbn [bind]. destruct (u2_tail F us HF HU _ e _ _ T2) as (-> & T3). cbn [bind]. cbn [app] in T3.
  destruct (getc_tail F HF _ _ _ e T3) as (-> & T4 & _). cbn [bind]. destruct (getc_tail F HF _ _ _ e T4) as (-> & T5 & _). cbn [bind]. destruct (getc_tail F HF _ _ _ e T5) as (-> & T6 & _). cbn [bind].
  assert (S : W * HT < 4294967296) by nia. destruct (alloc (W * 1 * HT)) as [nb|] eqn:EA; [|exfalso; apply (HP (W * 1 * HT)); auto; nia]. assert (LN := HA _ _ EA). rewrite (init_ok alloc _ W HT 1 IL_COLOUR_INDEX nb) by (auto; lia). cbn [bind negb].
  rewrite !Z.mul_1_r in *. unfold byte in *. rewrite (u8_small bg) by lia. assert (BI := proj1 CT). unfold byte in BI. rewrite (u8_small info) by lia.
  assert (PAL : exists gp gblk gn, (if Z.testbit info 7 then iGetPalette alloc info (mkPal None 0 0) None (R (0 + 6 + 2 + 2 + 1 + 1 + 1) e) else Ok (true, mkPal None 0 0, R (0 + 6 + 2 + 2 + 1 + 1 + 1) e, [])) = Ok (true, gp, R (0 + 6 + 2 + 2 + 1 + 1 + 1 + zlen gc) e, []) /\
    (gc <> [] -> gp = mkPal (Some (gc ++ gblk)) (zlen gc) IL_PAL_RGB24 /\ length gc = (3 * gn)%nat /\ 2 <= Z.of_nat gn <= 256)).
  { destruct (Z.testbit info 7) eqn:E7.
    - destruct (table_shape _ _ CT E7) as (n & L1 & L2 & L3 & BI' & L4). destruct (palette_ok F us HF HU alloc info (mkPal None 0 0) gc _ e _ HA HP BI' L4 T6) as (blk & ->). exists (mkPal (Some (gc ++ blk)) (zlen gc) IL_PAL_RGB24), blk, n. split; [reflexivity|auto].
    - assert (E0 : gc = []) by (destruct CT as (_ & CT); rewrite E7 in CT; auto). subst gc. exists (mkPal None 0 0), [], 0%nat. rewrite zlen_nil, Z.add_0_r. split; [reflexivity|congruence]. }
  destruct PAL as (gp & gblk & gn & -> & GP). cbn [bind negb]. assert (T7 := tail_app _ _ _ _ T6).
  inversion FB. subst l. cbn [app] in T7. assert (TL7 := tail_len _ _ _ T7). assert (0 <= zlen F) by auto. destruct fuel as [|fuel]; [lia|]. cbn [GetImages]. rewrite (not_eof F _ e _ _ T7).
  assert (0 <= zlen gc) by auto. assert (0 <= zlen (59 :: junk)) by auto.
  destruct (extensions_ok F us HF BF HU None [] None (ext_none None) (mkGfx true (Packed g) (Delay g) (Transparent g)) _ e 59 junk fuel eq_refl T7 ltac:(lia) ltac:(cbn; lia)) as (g1 & -> & HC). cbn [bind negb]. rewrite zlen_nil, Z.add_0_r.
  destruct (getc_tail F HF _ _ _ e T7) as (-> & T8 & _). cbn [bind]. change (u8 59 =? 44) with false. cbn [negb]. change (Z.testbit 0 6) with false. cbn [bind negb]. eexists. reflexivity.
Qed.
End Input.
(** a file with colours and no frames *)
Definition ex_none : list Z := [71; 73; 70; 56; 57; 97; 3; 0; 3; 0; 128; 0; 0] ++ ex_gc ++ [59].
Example C101_empty_ex : gif_file 3 3 0 ex_gc [] ex_none /\ exists ims, ex_load ex_none ex_alloc = Ok (false, ims, []).
Proof.
  split; [|vm_compute; eexists; reflexivity]. split; [lia|]. split; [lia|]. split; [unfold byte; lia|]. exists [71; 73; 70; 56; 57; 97], 128, 0, [], []. split; [exists 71, 73, 70, 97, 57; split; [reflexivity|lia]|].
  split; [split; [unfold byte; lia|reflexivity]|]. split; [unfold byte; lia|]. split; [apply frames_nil|reflexivity].
Qed.

(** ** C102: memory *)

(** reading codes never leaves the 257 bytes of the block buffer, whatever the file contains *)
Definition buffer_ok (F : list Z) (s : bitst) : Prop :=
  zlen (byte_buff s) = 257 /\ 0 <= pbytes s /\ (0 < navail s -> pbytes s + navail s <= 257) /\ on F (input s).
Section Safety.
Variable (F : list Z).
Hypothesis HF : 0 < zlen F < 2147483648.
Hypothesis BF : bytes F.
Lemma getc_byte : forall r, on F r -> safe (fun x => on F (snd x) /\ (fst x = -1 \/ 0 <= fst x < 256)) (iGetcLump r).
Proof.
  intros r HR. rewrite (C21_getc F r) by (auto; lia). destruct HR as (H1 & H2 & H3). destruct (rpos r <? zlen F) eqn:E; cbn [safe fst snd]; (split; [unfold on; cbn [rlump Lump.rsize rpos]; repeat match goal with |- _ /\ _ => split end; auto; lia|]); [right; apply BF; lia|left; reflexivity].
Qed.
Lemma fill_safe : forall n i bb r, on F r -> zlen bb = 257 -> 0 <= i -> i + Z.of_nat n <= 257 -> safe (fun x => zlen (snd (fst x)) = 257 /\ on F (snd x)) (fill n i bb r).
Proof.
  induction n as [|n IH]; intros i bb r HR LB Hi Hn; cbn [fill]; [cbn; auto|]. eapply safe_bind; [apply getc_byte; auto|]. intros (t & r') (HR' & HB). cbn [fst snd] in *. destruct (t =? IL_EOF); [cbn; auto|]. rewrite wr_ok by lia. cbn [bind]. apply IH; auto; [rewrite zlen_upd by lia; auto|lia|lia].
Qed.
Lemma next_byte_safe : forall s, buffer_ok F s -> safe (fun x => buffer_ok F (snd x) /\ nbits (snd x) = nbits s) (next_byte s).
Proof.
  intros s (LB & HP & HN & HR). unfold next_byte. eapply safe_bind with (P := fun x => let '(ok, bb, p, n, r) := x in zlen bb = 257 /\ 0 <= p < 257 /\ (0 < n -> p + n <= 257) /\ on F r).
  - destruct (navail s <=? 0) eqn:E; [|cbn; repeat match goal with |- _ /\ _ => split end; auto; lia]. eapply safe_bind; [apply getc_byte; auto|]. intros (n & r) (HR' & HB). cbn [fst snd] in *. change IL_EOF with (-1). destruct (n =? -1) eqn:E1; [cbn; repeat match goal with |- _ /\ _ => split end; auto; lia|].
    eapply safe_bind; [apply fill_safe; auto; lia|]. intros ((ok & bb) & r2) (L2 & R2). cbn [fst snd] in *. cbn. repeat match goal with |- _ /\ _ => split end; auto; lia.
  - intros ((((ok & bb) & p) & n) & r) (L2 & P2 & N2 & R2). destruct ok; cbn [negb].
    + rewrite rd_ok by lia. cbn. unfold buffer_ok. cbn. repeat match goal with |- _ /\ _ => split end; auto; lia.
    + cbn. unfold buffer_ok. cbn. repeat match goal with |- _ /\ _ => split end; auto; lia.
Qed.
Theorem C102_bits_partial : forall en cs s, 0 <= cs <= 12 -> buffer_ok F s -> safe (fun x => buffer_ok F (snd x)) (get_next_code en cs s).
Proof.
  intros en cs s Hc B. unfold get_next_code. eapply safe_bind with (P := fun x => buffer_ok F (snd x)).
  - destruct (nbits s =? 0); [|exact B]. eapply safe_bind; [apply next_byte_safe; auto|]. intros (ok & s') (B' & _). cbn [snd] in *. destruct ok; exact B'.
  - intros (ok & s1) B1. cbn [snd] in B1. destruct ok; cbn [negb]; [|exact B1].
    assert (G : forall fuel ret s, buffer_ok F s -> safe (fun x => buffer_ok F (snd x)) (more_bits fuel cs ret s)).
    { induction fuel as [|fuel IH]; intros ret s2 B2; cbn [more_bits]; (destruct (nbits s2 <? cs); [|exact B2]); [exact I|]. eapply safe_bind; [apply next_byte_safe; auto|]. intros (ok & s') (B' & _). cbn [snd] in *. destruct ok; cbn [negb]; [|exact B']. apply IH. exact B'. }
    eapply safe_bind; [apply G; exact B1|]. intros (ret & s2) B2. cbn [snd] in B2. destruct ret; [|exact B2]. replace ((0 <=? cs) && (cs <=? 12)) with true by lia. exact B2.
Qed.
End Safety.
Example ex_buffer : buffer_ok [2; 68; 94; 0] (mkBits (repeat 0 257) 0 0 0 0 (Rd [2; 68; 94; 0] 0 4 [])).
Proof. unfold buffer_ok, on. cbn. repeat match goal with |- _ /\ _ => split end; auto; try reflexivity; lia. Qed.

(** a frame that lies outside the canvas is written past the end of the picture *)
Definition ex_outside : list Z := [71; 73; 70; 56; 57; 97; 1; 0; 1; 0; 128; 0; 0; 10; 20; 30; 40; 50; 60; 44; 1; 0; 0; 0; 1; 0; 1; 0; 0; 2; 2; 68; 1; 0; 59].
Theorem C102_outside_refuted : ex_load ex_outside ex_alloc = UB.
Proof. vm_compute. reflexivity. Qed.
(** a code that stands for no string yet makes the loader follow entries of the table that were never written *)
Definition ex_corrupt : list Z := [71; 73; 70; 56; 57; 97; 9; 0; 1; 0; 128; 0; 0; 10; 20; 30; 40; 50; 60; 44; 0; 0; 0; 0; 9; 0; 1; 0; 0; 2; 2; 196; 15; 0; 59].
Definition ex_alloc127 : allocator := fun n => Some (repeat 127 (Z.to_nat n)).
Theorem C102_corrupt_refuted : ex_load ex_corrupt ex_alloc127 = UB.
Proof. vm_compute. reflexivity. Qed.

Print Assumptions C100_animation_partial.
Print Assumptions C100_single_pixel_refuted.
Print Assumptions C100_second_palette_refuted.
Print Assumptions C101_valid.
Print Assumptions C101_name_refused.
Print Assumptions C101_code_size_refused.
Print Assumptions C101_empty_refused.
Print Assumptions C101_colours_refused.
Print Assumptions C102_bits_partial.
Print Assumptions C102_outside_refuted.
Print Assumptions C102_corrupt_refuted.
