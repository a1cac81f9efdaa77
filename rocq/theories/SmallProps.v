(** C94 - C97: concrete files for every theorem, and concrete losses. *)
From Coq Require Import ZArith List Lia Bool.
From Verif Require Import Base Slices Elem Enums Utility Image ImageSpec Lump LumpProps Channels Endian ConvImgProps RleSpec PcxProofs BmpSpec BmpDecode SgiSpec SgiProofs SgiLoad Small SmallSpec SmallTex SmallTexProps SmallRle SmallRleProps SmallSun SmallSunProps SmallDoom.
Import ListNotations.
Open Scope Z_scope.

Definition ex_alloc := ConvImgProps.ex_alloc.
Definition ex_old : img := mkImg 1 1 1 1 1 1 (Some [0]) 1 1 IL_LUMINANCE IL_UNSIGNED_BYTE IL_ORIGIN_LOWER_LEFT (mkPal None 0 IL_PAL_NONE) 0 0 0 0.
Definition ex_u2 (_ : Z) : list Z := [1; 2].
Definition ex_u4 (_ : Z) : list Z := [1; 2; 3; 4].
Lemma bytes_check : forall F, forallb (fun b => (0 <=? b) && (b <? 256)) F = true -> bytes F.
Proof. intros F H. apply bytes_Forall, Forall_forall. intros x Hx. rewrite forallb_forall in H. specialize (H x Hx). lia. Qed.
Lemma ex_A : allocator_ok ex_alloc. Proof. exact (proj1 ConvImgProps.ex_alloc_ok). Qed.
Lemma ex_P : plenty ex_alloc. Proof. exact (proj2 ConvImgProps.ex_alloc_ok). Qed.
Lemma ex_some : forall n, 0 <= n -> ex_alloc n <> None. Proof. intros n Hn. apply ex_P. exact Hn. Qed.
Ltac say := match goal with
  | |- allocator_ok _ => exact ex_A
  | |- plenty _ => exact ex_P
  | |- bytes _ => apply bytes_check; vm_compute; reflexivity
  | |- ex_alloc _ <> None => apply ex_some; vm_compute; discriminate
  | |- forall i : Z, zlen _ = _ => intros; reflexivity
  | |- _ <= _ < _ => split; vm_compute; (reflexivity || discriminate)
  | |- _ < _ < _ => split; vm_compute; reflexivity
  | |- _ <= _ <= _ => split; vm_compute; discriminate
  | |- _ <= _ => vm_compute; discriminate
  | |- _ < _ => vm_compute; reflexivity
  | |- _ <> _ => vm_compute; discriminate
  | |- @eq Z _ _ => vm_compute; reflexivity
  | |- @eq (option _) _ _ => vm_compute; reflexivity
  end.

(** a complete FTX file of two pixels, and one that is cut short *)
Definition ftx_ex : list Z := [2; 0; 0; 0; 1; 0; 0; 0; 0; 0; 0; 0; 10; 20; 30; 40; 50; 60; 70; 80].
Example C94_ftx_ex : exists im, iLoadFtxInternal ex_alloc ex_old ex_u4 (Rd ftx_ex 0 (zlen ftx_ex) []) = Ok (true, im, []) /\ shows im 2 1 4 IL_RGBA (stored ftx_ex 12 2 4) /\ stored ftx_ex 12 2 4 1 0 2 = 70.
Proof. destruct (C94_ftx ex_alloc ex_old ex_u4 ftx_ex 2 1) as (ok & im & E & EO & S); [try say ..|]. exists im. change (ok = true) in EO. subst ok. split; [exact E|]. split; [apply S; reflexivity|reflexivity]. Qed.
Definition ftx_cut : list Z := [2; 0; 0; 0; 1; 0; 0; 0; 0; 0; 0; 0; 10; 20; 30].
Example C94_ftx_cut : exists im, iLoadFtxInternal ex_alloc ex_old ex_u4 (Rd ftx_cut 0 (zlen ftx_cut) []) = Ok (false, im, []).
Proof. destruct (C94_ftx ex_alloc ex_old ex_u4 ftx_cut 2 1) as (ok & im & E & EO & S); [try say ..|]. exists im. change (ok = false) in EO. subst ok. exact E. Qed.

Definition pxr_ex : list Z := repeat 0 416 ++ [2; 0; 1; 0; 0; 0; 0; 0; 8] ++ repeat 0 599 ++ [77; 88].
Example C94_pxr_ex : exists im, iLoadPxrInternal ex_alloc ex_old ex_u2 (Rd pxr_ex 0 (zlen pxr_ex) []) = Ok (true, im, []) /\ shows im 1 2 1 IL_LUMINANCE (stored pxr_ex 1024 1 1) /\ stored pxr_ex 1024 1 1 0 1 0 = 88.
Proof. destruct (C94_pxr_partial ex_alloc ex_old ex_u2 pxr_ex 1 2 8 1 IL_LUMINANCE) as (im & E & S); [try say ..|]. { left. reflexivity. } exists im. split; [exact E|]. split; [exact S|vm_compute; reflexivity]. Qed.
Definition pxr_cut : list Z := repeat 0 416 ++ [2; 0; 1; 0; 0; 0; 0; 0; 8] ++ repeat 0 599 ++ [77].
Example C94_pxr_cut : exists im buf, iLoadPxrInternal ex_alloc ex_old ex_u2 (Rd pxr_cut 0 (zlen pxr_cut) []) = Ok (true, im, []) /\ Data im = Some buf /\ geti buf 1 = 0.
Proof. apply (C94_pxr_short_refuted ex_alloc ex_old ex_u2 pxr_cut 1 2 8 1 IL_LUMINANCE [0; 0]); try say. left. reflexivity. Qed.

Definition lif_ex : list Z := repeat 0 16 ++ [1; 0; 0; 0; 1; 0; 0; 0] ++ repeat 0 20 ++ [255] ++ repeat 9 1024.
Example C94_lif_ex : exists im, iLoadLifInternal ex_alloc ex_old (repeat 0 8) ex_u4 (Rd lif_ex 0 (zlen lif_ex) []) = Ok (true, im, []) /\ shows im 1 1 1 IL_COLOUR_INDEX (fun x t c => (stored lif_ex 44 1 1 x t c + 1) mod 256) /\ (stored lif_ex 44 1 1 0 0 0 + 1) mod 256 = 0.
Proof. destruct (C94_lif ex_alloc ex_old (repeat 0 8) ex_u4 lif_ex 1 1) as (ok & im & E & EO & S); [try say ..|]. exists im. assert (EO' : ok = true) by (rewrite EO; vm_compute; reflexivity). subst ok. split; [exact E|]. split; [apply S; exact EO'|vm_compute; reflexivity]. Qed.

Definition wal_ex : list Z := repeat 65 32 ++ [2; 0; 0; 0; 2; 0; 0; 0] ++ [100; 0; 0; 0; 104; 0; 0; 0; 105; 0; 0; 0; 106; 0; 0; 0] ++ repeat 0 44 ++ [1; 2; 3; 4; 5; 6; 7].
Example C94_wal_ex : exists im mips, iLoadWalInternal ex_alloc (repeat 7 768) ex_old (repeat 0 32) ex_u4 (Rd wal_ex 0 (zlen wal_ex) []) = Ok (true, im, mips) /\ zlen mips = 3 /\
  (forall k m, 0 <= k < 4 -> nth_error (im :: mips) (Z.to_nat k) = Some m -> shows m (wal_w wal_ex k) (wal_h wal_ex k) 1 IL_COLOUR_INDEX (stored wal_ex (wal_at wal_ex k) (wal_w wal_ex k) 1)) /\
  Forall (fun m => Palette (Pal m) = None) mips /\ wal_w wal_ex 0 = 2 /\ wal_w wal_ex 1 = 1 /\ stored wal_ex (wal_at wal_ex 1) 1 1 0 0 0 = 5.
Proof.
  destruct (C94_wal_partial ex_alloc (repeat 7 768) ex_old (repeat 0 32) ex_u4 wal_ex) as (im & mips & E & L & S & _); [try say ..|].
  { intros k Hk. assert (HK : k = 0 \/ k = 1 \/ k = 2 \/ k = 3) by lia. destruct HK as [-> | [-> | [-> | ->]]]; (split; [vm_compute; discriminate|apply ex_some; vm_compute; discriminate]). }
  exists im, mips. split; [exact E|]. split; [exact L|]. split; [exact S|]. split; [exact (C94_wal_palette_refuted _ _ _ _ _ _ _ _ E)|]. split; [vm_compute; reflexivity|]. split; vm_compute; reflexivity.
Qed.
Definition wal_cut : list Z := repeat 65 32 ++ [2; 0; 0; 0; 2; 0; 0; 0] ++ [100; 0; 0; 0; 104; 0; 0; 0; 105; 0; 0; 0; 106; 0; 0; 0] ++ repeat 0 44 ++ [1; 2; 3].
Example C94_wal_cut : iLoadWalInternal ex_alloc (repeat 7 768) ex_old (repeat 0 32) ex_u4 (Rd wal_cut 0 (zlen wal_cut) []) = UB.
Proof. apply (C94_wal_short_refuted ex_alloc (repeat 7 768) ex_old (repeat 0 32) ex_u4 wal_cut 2 2); say. Qed.
Example C94_safe_ex : iLoadFtxInternal ex_alloc ex_old ex_u4 (Rd [255] 0 1 []) <> UB /\ iLoadLifInternal ex_alloc ex_old (repeat 0 8) ex_u4 (Rd [255] 0 1 []) <> UB /\ (plenty ex_alloc -> iLoadPxrInternal ex_alloc ex_old ex_u2 (Rd [255] 0 1 []) <> UB).
Proof. apply (C94_safe ex_alloc ex_old (repeat 0 8) ex_u2 ex_u4 [255]); try say; (intros i; split; [reflexivity|say]). Qed.

(** a CUT picture of two lines: a run of three, and a literal byte before a run of two *)
Definition cut_ex : list Z := [3; 0; 2; 0; 0; 0] ++ [3; 0; 131; 9; 0] ++ [5; 0; 1; 4; 130; 6; 0].
Example C95_cut_ex : exists im, iLoadCutInternal ex_alloc ex_old ex_u2 ex_u4 (Rd cut_ex 0 (zlen cut_ex) []) = Ok (true, im, []) /\ shows im 3 2 1 IL_COLOUR_INDEX (fun x t c => geti (nth (Z.to_nat t) [[9; 9; 9]; [4; 6; 6]] []) x).
Proof.
  apply (C95_cut ex_alloc ex_old ex_u2 ex_u4 cut_ex 3 2 [[9; 9; 9]; [4; 6; 6]] ([3; 0; 131; 9; 0] ++ [5; 0; 1; 4; 130; 6; 0])); try say.
  - split; [lia|]. split; vm_compute; [discriminate|reflexivity].
  - apply (cut_line 3 0 [9; 9; 9] [131; 9] [[4; 6; 6]] [5; 0; 1; 4; 130; 6; 0]); [apply (cut_run 3 9 [] []); [lia|constructor]|]. apply (cut_line 5 0 [4; 6; 6] [1; 4; 130; 6] [] []); [|constructor]. apply (cut_lit [4] [130; 6] [6; 6]); [vm_compute; split; [discriminate|reflexivity]|]. apply (cut_run 2 6 [] []); [lia|constructor].
  - repeat constructor.
Qed.
Definition cut_bad : list Z := [1; 0; 1; 0; 0; 0; 2; 0; 130; 9; 0].
Example C95_cut_bad : iLoadCutInternal ex_alloc ex_old ex_u2 ex_u4 (Rd cut_bad 0 (zlen cut_bad) []) = UB.
Proof. apply (C95_cut_overflow_refuted ex_alloc ex_old ex_u2 ex_u4 cut_bad 1 1 2); try say. Qed.
Definition cut_stuck : list Z := [1; 0; 1; 0; 0; 0; 2; 0; 128].
Example C95_cut_stuck : forall fuel, cut_loop fuel 1 0 [0] (Rd cut_stuck 8 (zlen cut_stuck) []) = Fuel.
Proof. intros fuel. apply (C95_cut_hang_refuted fuel cut_stuck 1 0 [0] []); say. Qed.

Definition pix_ex : list Z := [0; 2; 0; 1; 0; 0; 0; 0; 0; 24] ++ [2; 10; 20; 30].
Example C95_pix_ex : exists im, iLoadPixInternal ex_alloc ex_old ex_u2 [0; 0; 0] (Rd pix_ex 0 (zlen pix_ex) []) = Ok (true, im, []) /\ shows im 2 1 3 IL_BGR (fun x t c => geti [10; 20; 30; 10; 20; 30] ((t * 2 + x) * 3 + c)).
Proof.
  apply (C95_pix ex_alloc ex_old ex_u2 [0; 0; 0] pix_ex 2 1 [2; 10; 20; 30] [10; 20; 30; 10; 20; 30]); try say.
  - split; [vm_compute; discriminate|]. repeat split.
  - split; [lia|]. split; vm_compute; [discriminate|reflexivity].
  - apply (pix_run 2 10 20 30 [] []); [lia|constructor].
Qed.
Definition pix_cut : list Z := [0; 2; 0; 1; 0; 0; 0; 0; 0; 24] ++ [1; 10; 20; 30; 1; 5].
Example C95_pix_cut : exists im e, iLoadPixInternal ex_alloc ex_old ex_u2 [0; 0; 0] (Rd pix_cut 0 (zlen pix_cut) []) = Ok (false, im, e).
Proof.
  apply (C95_pix_short ex_alloc ex_old ex_u2 [0; 0; 0] pix_cut 2 1 [1; 10; 20; 30] [10; 20; 30] [1; 5]); try say.
  - split; [vm_compute; discriminate|]. repeat split.
  - split; [lia|]. split; vm_compute; [discriminate|reflexivity].
  - apply (pix_run 1 10 20 30 [] []); [lia|constructor].
Qed.
Definition pix_bad : list Z := [0; 2; 0; 1; 0; 0; 0; 0; 0; 24] ++ [3; 10; 20; 30].
Example C95_pix_bad : iLoadPixInternal ex_alloc ex_old ex_u2 [0; 0; 0] (Rd pix_bad 0 (zlen pix_bad) []) = UB.
Proof. apply (C95_pix_overflow_refuted ex_alloc ex_old ex_u2 [0; 0; 0] pix_bad 2 1); try say. split; [vm_compute; discriminate|]. repeat split. Qed.

(** SUN rasters: three grey pixels in a line with padding; the same line encoded; 32 bits; a colour map *)
Definition sun_top (w h depth typ mt ml : Z) : list Z := [89; 166; 106; 149] ++ [0; 0; 0; w] ++ [0; 0; 0; h] ++ [0; 0; 0; depth] ++ [0; 0; 0; 0] ++ [0; 0; 0; typ] ++ [0; 0; 0; mt] ++ [0; 0; 0; ml].
Definition sun_ex : list Z := sun_top 3 1 8 1 0 0 ++ [7; 7; 128; 0].
Example C96_plain_ex : exists im, iLoadSunInternal ex_alloc ex_old ex_u4 (Rd sun_ex 0 (zlen sun_ex) []) = Ok (true, im, []) /\ Pal im = mkPal None 0 IL_PAL_NONE /\ shows im 3 1 1 IL_LUMINANCE (fun x t c => geti sun_ex (32 + 0 + t * 4 + (x * 1 + c))).
Proof. apply (C96_plain ex_alloc ex_old ex_u4 sun_ex 3 1 8 1 0 0); try say; try lia. split; [vm_compute; discriminate|]. repeat split. Qed.
Definition sun_code_ex : list Z := sun_top 3 1 8 2 0 0 ++ [128; 1; 7; 128; 0; 55].
Example C96_rle_ex : exists im, iLoadSunInternal ex_alloc ex_old ex_u4 (Rd sun_code_ex 0 (zlen sun_code_ex) []) = Ok (true, im, []) /\ Pal im = mkPal None 0 IL_PAL_NONE /\ shows im 3 1 1 IL_LUMINANCE (fun x t c => geti (nth (Z.to_nat t) [[7; 7; 128]] []) (x * 1 + c)).
Proof.
  apply (C96_rle ex_alloc ex_old ex_u4 sun_code_ex 3 1 8 0 0 [[7; 7; 128]] [128; 1; 7; 128; 0; 55]); try say; try lia.
  - split; [vm_compute; discriminate|]. repeat split.
  - split; [lia|]. split; vm_compute; [discriminate|reflexivity].
  - change [128; 1; 7; 128; 0; 55] with ([128; 1; 7; 128; 0] ++ [55] ++ []). apply (sun_line (3 * sun_chans 8) [7; 7; 128] [128; 1; 7; 128; 0] [55] [] []); [|reflexivity|reflexivity|constructor]. apply (sun_run 1 7 [128; 0] [128]); [lia|]. apply (sun_128 [] []). constructor.
Qed.
Definition sun_32 : list Z := sun_top 2 1 32 1 0 0 ++ [0; 1; 2; 3; 0; 4; 5; 6].
Example C96_quads_ex : exists im buf, iLoadSunInternal ex_alloc ex_old ex_u4 (Rd sun_32 0 (zlen sun_32) []) = Ok (true, im, []) /\ Data im = Some buf /\ zlen buf = 6 /\ forall j, 3 <= j < 6 -> geti buf j = geti [0; 0; 0; 0; 0; 0] j.
Proof. apply (C96_quads_refuted ex_alloc ex_old ex_u4 sun_32 2 1 1 0 0 [0; 0; 0; 0; 0; 0]); try say; try lia. split; [vm_compute; discriminate|]. repeat split. Qed.
Example C96_safe_ex : exists ok im e, iLoadSunInternal ex_alloc ex_old ex_u4 (Rd (sun_top 200 3 8 2 0 0 ++ [5; 128]) 0 34 []) = Ok (ok, im, e).
Proof. apply (C96_safe_partial ex_alloc ex_old ex_u4 (sun_top 200 3 8 2 0 0 ++ [5; 128])); say. Qed.
(** A colour map holds all reds, then all greens, then all blues; the palette takes it for colour after colour. *)
Definition sun_mapped : list Z := sun_top 2 1 8 1 1 6 ++ [10; 11; 20; 21; 30; 31] ++ [0; 1].
Theorem C96_map_refuted : exists F n im p, sun_head F 2 1 8 1 1 (3 * n) /\ iLoadSunInternal ex_alloc ex_old ex_u4 (Rd F 0 (zlen F) []) = Ok (true, im, []) /\ Palette (Pal im) = Some p /\ PalType (Pal im) = IL_PAL_RGB24 /\
  (geti p 3, geti p 4, geti p 5) <> (geti F (32 + 1), geti F (32 + n + 1), geti F (32 + 2 * n + 1)).
Proof.
  destruct (C96_plain ex_alloc ex_old ex_u4 sun_mapped 2 1 8 1 1 6) as (im & E & EP & _); [try say; try lia ..|]. { split; [vm_compute; discriminate|]. repeat split. }
  exists sun_mapped, 2, im, [10; 11; 20; 21; 30; 31]. split; [split; [vm_compute; discriminate|]; repeat split|]. split; [exact E|]. rewrite EP. split; [vm_compute; reflexivity|]. split; [vm_compute; reflexivity|]. vm_compute. discriminate.
Qed.
Print Assumptions C96_map_refuted.

(** a DOOM picture of one column with two posts *)
Definition doom_ex : list Z := [1; 0; 4; 0; 0; 0; 0; 0] ++ [12; 0; 0; 0] ++ [0; 2; 0; 5; 6; 0] ++ [3; 1; 0; 7; 0] ++ [255].
Example C97_picture_ex : exists im, iLoadDoomInternal ex_alloc false (repeat 9 768) ex_old ex_u2 ex_u4 (Rd doom_ex 0 (zlen doom_ex) []) = Ok (true, im, []) /\ Pal im = mkPal (Some (repeat 9 768)) 768 IL_PAL_RGB24 /\
  shows im 1 4 1 IL_COLOUR_INDEX (fun x t c => doom_row [(0, [5; 6]); (3, [7])] t 247) /\ doom_row [(0, [5; 6]); (3, [7])] 1 247 = 6 /\ doom_row [(0, [5; 6]); (3, [7])] 2 247 = 247.
Proof.
  destruct (C97_picture ex_alloc (repeat 9 768) ex_old ex_u2 ex_u4 doom_ex 1 4 (fun _ => [(0, [5; 6]); (3, [7])])) as (im & E & P & S); [try say ..|].
  - intros x Hx. replace x with 0 by lia. change (int4 doom_ex (8 + 4 * 0)) with 12. apply (doom_more doom_ex 12); [lia|reflexivity|discriminate|]. apply (doom_more doom_ex 18); [lia|reflexivity|discriminate|]. apply doom_end; [split; [vm_compute; discriminate|reflexivity]|reflexivity].
  - exists im. split; [exact E|]. split; [exact P|]. split; [exact S|]. split; reflexivity.
Qed.
Example C97_flat_ex : exists im, iLoadDoomFlatInternal ex_alloc false (repeat 9 768) ex_old (Rd (repeat 4 4096) 0 (zlen (repeat 4 4096)) []) = Ok (true, im, []) /\ Pal im = mkPal (Some (repeat 9 768)) 768 IL_PAL_RGB24 /\ shows im 64 64 1 IL_COLOUR_INDEX (stored (repeat 4 4096) 0 64 1).
Proof. apply (C97_flat ex_alloc (repeat 9 768) ex_old (repeat 4 4096)); [exact ex_A|rewrite zlen_repeat; lia|apply ex_some; lia|apply ex_some; lia]. Qed.
(** posts far below the picture, in a file that ends early *)
Definition doom_odd : list Z := [1; 0; 1; 0; 0; 0; 0; 0] ++ [12; 0; 0; 0] ++ [200; 200; 0; 5; 6; 0].
Example C97_safe_ex : exists ok im e, iLoadDoomInternal ex_alloc false (repeat 9 768) ex_old ex_u2 ex_u4 (Rd doom_odd 0 (zlen doom_odd) []) = Ok (ok, im, e).
Proof. apply (C97_safe_partial ex_alloc (repeat 9 768) ex_old ex_u2 ex_u4 doom_odd); try say. intros x Hx. change (int2 doom_odd 0) with 1 in Hx. replace x with 0 by lia. vm_compute. discriminate. Qed.

(** A negative column offset makes the loader read in front of the file. *)
Theorem C97_negative_refuted : exists F, bytes F /\ zlen F = 12 /\ iLoadDoomInternal ex_alloc false (repeat 9 768) ex_old ex_u2 ex_u4 (Rd F 0 (zlen F) []) = UB.
Proof. exists [1; 0; 1; 0; 0; 0; 0; 0; 255; 255; 255; 255]. split; [say|]. split; [reflexivity|]. vm_compute. reflexivity. Qed.
Print Assumptions C97_negative_refuted.
(** With IL_CONV_PAL a picture does not get the colours of its palette: only one byte of a pixel is written, and it is
    taken from the wrong place. *)
Theorem C97_conv_refuted : exists F dpal im buf, zlen dpal = 768 /\ iLoadDoomInternal ex_alloc true dpal ex_old ex_u2 ex_u4 (Rd F 0 (zlen F) []) = Ok (true, im, []) /\ Format im = IL_RGBA /\ Data im = Some buf /\
  exists v, int2 F 0 = 1 /\ int2 F 2 = 1 /\ doom_posts F (int4 F 8) [(0, [v])] /\ v <> 247 /\ (geti buf 0, geti buf 1, geti buf 2) <> (geti dpal (3 * v), geti dpal (3 * v + 1), geti dpal (3 * v + 2)).
Proof.
  exists ([1; 0; 1; 0; 0; 0; 0; 0] ++ [12; 0; 0; 0] ++ [0; 1; 0; 5; 0; 255]), (repeat 9 768). eexists _, [9; 0; 0; 255]. split; [reflexivity|]. split; [vm_compute; reflexivity|]. split; [reflexivity|]. split; [reflexivity|]. exists 5.
  split; [reflexivity|]. split; [reflexivity|]. split. { change (int4 _ 8) with 12. apply doom_more; [lia|reflexivity|discriminate|]. apply doom_end; [split; [vm_compute; discriminate|reflexivity]|reflexivity]. } split; [discriminate|vm_compute; discriminate].
Qed.
Print Assumptions C97_conv_refuted.

(** Files with a wrong header are refused and the image stays as it was. *)
Theorem C94_pxr_refused : forall alloc old u2 F, bytes F -> 425 <= zlen F < 2147483648 -> (forall i, zlen (u2 i) = 2) -> ~ In (geti F 424) [8; 14; 15] ->
  iLoadPxrInternal alloc old u2 (Rd F 0 (zlen F) []) = Ok (false, old, [IL_INVALID_FILE_HEADER]).
Proof.
  intros alloc old u2 F B HF U2 HK. unfold iLoadPxrInternal. assert (S1 := seek_set F 0 416 [] ltac:(lia) ltac:(lia)). rewrite i32_small in S1 by lia. rewrite S1. cbn [bind]. do 2 (rewrite getu2 by (auto; lia); cbn [bind]).
  assert (S2 := seek_set F (416 + 2 + 2) 424 [] ltac:(lia) ltac:(lia)). rewrite i32_small in S2 by lia. rewrite S2. cbn [bind]. rewrite getc_in by lia. cbn [bind]. assert (R := B 424 ltac:(lia)). rewrite u8_small by lia. cbn [In] in HK. cbv zeta.
  replace (geti F 424 =? 8) with false by lia. replace (geti F 424 =? 14) with false by lia. replace (geti F 424 =? 15) with false by lia. reflexivity.
Qed.
Print Assumptions C94_pxr_refused.
Theorem C95_refused : forall alloc old u2 u4 col F, bytes F -> zlen F < 4294967295 -> (forall i, zlen (u2 i) = 2) -> (forall i, zlen (u4 i) = 4) ->
  (10 <= zlen F -> be2 F 0 = 0 \/ be2 F 2 = 0 \/ be2 F 8 <> 24 -> iLoadPixInternal alloc old u2 col (Rd F 0 (zlen F) []) = Ok (false, old, [IL_INVALID_FILE_HEADER])) /\
  (8 <= zlen F -> word2 F 0 = 0 \/ word2 F 2 = 0 -> iLoadCutInternal alloc old u2 u4 (Rd F 0 (zlen F) []) = Ok (false, old, [IL_INVALID_FILE_HEADER])).
Proof.
  intros alloc old u2 u4 col F B HM U2 U4. split; intros HF HK.
  - unfold iLoadPixInternal. do 5 (rewrite getb2_in by (auto; lia); cbn [bind]). change (0 + 2) with 2. change (2 + 2 + 2 + 2) with 8. replace ((be2 F 0 =? 0) || (be2 F 2 =? 0) || negb (be2 F 8 =? 24)) with true by lia. reflexivity.
  - unfold iLoadCutInternal. rewrite gets2 by (auto; lia). cbn [bind]. cbv zeta. rewrite gets2 by (auto; lia). cbn [bind]. rewrite gets4 by (auto; lia). cbn [bind]. change (0 + 2) with 2.
    assert (Z0 : forall o, word2 F o = 0 -> u16 (int2 F o) = 0) by (intros o E; unfold int2; rewrite E; reflexivity). replace ((u16 (int2 F 0) =? 0) || (u16 (int2 F 2) =? 0)) with true; [reflexivity|]. destruct HK as [HK|HK]; rewrite (Z0 _ HK), Z.eqb_refl, ?orb_true_r; reflexivity.
Qed.
Print Assumptions C95_refused.
Theorem C96_refused : forall alloc old u4 F, bytes F -> 32 <= zlen F < 4294967295 -> (forall i, zlen (u4 i) = 4) ->
  be4 F 0 <> 1504078485 \/ be4 F 4 = 0 \/ be4 F 8 = 0 \/ ~ In (be4 F 12) [1; 8; 24; 32] \/ 3 < be4 F 20 \/ 1 < be4 F 24 \/ (be4 F 24 = 1 /\ be4 F 28 = 0) \/ (be4 F 20 = 2 /\ (be4 F 12 = 1 \/ be4 F 12 = 32)) ->
  iLoadSunInternal alloc old u4 (Rd F 0 (zlen F) []) = Ok (false, old, [IL_INVALID_FILE_HEADER]).
Proof.
  intros alloc old u4 F B HF U4 HK. unfold iLoadSunInternal. rewrite sun_get by (auto; lia). cbn [bind In] in *.
  assert (CK : iCheckSun (mkSun (be4 F 0) (be4 F 4) (be4 F 8) (be4 F 12) (be4 F 16) (be4 F 20) (be4 F 24) (be4 F 28)) = false); [|rewrite CK; reflexivity].
  unfold iCheckSun. cbn [NMagic NWidth NHeight NDepth NType NMapType NMapLength]. destruct (be4 F 0 =? 1504078485) eqn:E0; cbn [negb]; [|reflexivity]. destruct ((be4 F 4 =? 0) || (be4 F 8 =? 0)) eqn:E1; [reflexivity|].
  destruct (negb (be4 F 12 =? 1) && negb (be4 F 12 =? 8) && negb (be4 F 12 =? 24) && negb (be4 F 12 =? 32)) eqn:E2; [reflexivity|]. destruct (3 <? be4 F 20) eqn:E3; [reflexivity|]. destruct (1 <? be4 F 24) eqn:E4; [reflexivity|]. destruct ((0 <? be4 F 24) && (be4 F 28 =? 0)) eqn:E5; [reflexivity|].
  replace (((be4 F 12 =? 1) || (be4 F 12 =? 32)) && (be4 F 20 =? 2)) with true by lia. reflexivity.
Qed.
Print Assumptions C96_refused.
Definition sun_odd : list Z := sun_top 2 1 32 2 0 0.
Example C96_refused_ex : iLoadSunInternal ex_alloc ex_old ex_u4 (Rd sun_odd 0 (zlen sun_odd) []) = Ok (false, ex_old, [IL_INVALID_FILE_HEADER]).
Proof. apply (C96_refused ex_alloc ex_old ex_u4 sun_odd); try say. do 7 right. split; [reflexivity|]. right. reflexivity. Qed.
Definition pix_odd : list Z := [0; 2; 0; 1; 0; 0; 0; 0; 0; 8].
Example C95_refused_ex : iLoadPixInternal ex_alloc ex_old ex_u2 [0; 0; 0] (Rd pix_odd 0 (zlen pix_odd) []) = Ok (false, ex_old, [IL_INVALID_FILE_HEADER]).
Proof. destruct (C95_refused ex_alloc ex_old ex_u2 ex_u4 [0; 0; 0] pix_odd) as (E & _); [say ..|]. apply E; [say|]. right. right. vm_compute. discriminate. Qed.
Definition pxr_odd : list Z := repeat 0 425.
Example C94_pxr_refused_ex : iLoadPxrInternal ex_alloc ex_old ex_u2 (Rd pxr_odd 0 (zlen pxr_odd) []) = Ok (false, ex_old, [IL_INVALID_FILE_HEADER]).
Proof. apply (C94_pxr_refused ex_alloc ex_old ex_u2 pxr_odd); [say ..|]. vm_compute. intros [|[|[|[]]]]; discriminate. Qed.
