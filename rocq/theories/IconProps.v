(** C109: Windows icons. *)
From Coq Require Import ZArith List Lia Bool.
From Verif Require Import Base Slices Enums Utility Image ImageSpec Lump Endian ConvImgProps PcxProofs BmpSpec Small SmallSpec SmallTex SmallProps Icon IconSpec IconProofs IconLoad.
Import ListNotations.
Open Scope Z_scope.

(** what the loader is given: memory, what is on the stack, a file of bytes *)
Definition icon_use (alloc : allocator) (u4 u2 t3 F : list Z) : Prop :=
  allocator_ok alloc /\ plenty alloc /\ zlen u4 = 4 /\ zlen u2 = 2 /\ zlen t3 = 3 /\ bytes F /\ 0 < zlen F < 2147483648.

(** An icon file loads as its icons, in the order of the directory, each with its colours and its opacity. *)
Theorem C109_icons_partial : forall alloc png u4 u2 t3 F old e, icon_use alloc u4 u2 t3 F -> 1 <= icons_in F -> 6 + 16 * icons_in F < zlen F -> (forall i, 0 <= i < icons_in F -> icon_ok F (icon_off F i)) ->
  exists ims, iLoadIconInternal alloc png u4 u2 t3 old (Rd F 0 (zlen F) e) = Ok (true, ims) /\ zlen ims = icons_in F /\
    forall i, 0 <= i < icons_in F -> exists im, nth_error ims (Z.to_nat i) = Some im /\ shows_icon F im (icon_off F i).
Proof.
  intros alloc png u4 u2 t3 F old e (HA & HP & U4 & U2 & T3 & BF & HF) HN HL HI. destruct (load_ok alloc png u4 u2 t3 F HA HP U4 U2 T3 BF HF old e HN HL HI) as (ims & E & FA).
  exists ims. split; [exact E|]. assert (LN : length ims = length (offs_from F 0 (Z.to_nat (icons_in F)))) by (clear - FA; induction FA; cbn [length]; congruence). unfold offs_from in LN. rewrite map_length, seq_length in LN. split; [unfold zlen; lia|]. intros i Hi.
  destruct (nth_error ims (Z.to_nat i)) as [im|] eqn:EN; [|apply nth_error_None in EN; lia]. exists im. split; [reflexivity|].
  assert (G : forall (ims : list img) l k im o, Forall2 (shows_icon F) ims l -> nth_error ims k = Some im -> nth_error l k = Some o -> shows_icon F im o).
  { clear. induction ims as [|a ims IH]; intros l k im o H E1 E2; [destruct k; discriminate|]. inversion H; subst. destruct k; cbn [nth_error] in *; [congruence|eauto]. }
  apply (G ims _ (Z.to_nat i) im _ FA EN). unfold offs_from. rewrite nth_error_map. rewrite (nth_error_nth' _ 0%nat) by (rewrite seq_length; lia). rewrite seq_nth by lia. cbn [option_map]. do 2 f_equal. lia.
Qed.

(** A file that ends inside an icon is refused, and the image stays as it was. *)
Theorem C109_short_refused : forall alloc png u4 u2 t3 F old e, icon_use alloc u4 u2 t3 F -> 1 <= icons_in F -> 6 + 16 * icons_in F < zlen F ->
  (forall i, 0 <= i < icons_in F -> icon_ok F (icon_off F i) \/ icon_cut F (icon_off F i)) -> (exists i, 0 <= i < icons_in F /\ icon_cut F (icon_off F i)) ->
  iLoadIconInternal alloc png u4 u2 t3 old (Rd F 0 (zlen F) e) = Ok (false, [old]).
Proof. intros alloc png u4 u2 t3 F old e (HA & HP & U4 & U2 & T3 & BF & HF). exact (load_short alloc png u4 u2 t3 F HA HP U4 U2 T3 BF HF old e). Qed.

(** ** Where the general statement fails *)
Definition no_png (r : reader) : res (option icon * reader) := Ok (None, r).
Definition ico_word (n : Z) : list Z := [n mod 256; n / 256].
Definition ico_int (n : Z) : list Z := [n mod 256; n / 256; 0; 0].
Definition ico_head (W H b used : Z) : list Z := ico_int 40 ++ ico_int W ++ ico_int (2 * H) ++ ico_word 1 ++ ico_word b ++ repeat 0 16 ++ ico_int used ++ repeat 0 4.
Definition ico_entry (o : Z) : list Z := repeat 7 12 ++ ico_int o.

Lemma ico_use : forall F, forallb (fun b => (0 <=? b) && (b <? 256)) F = true -> (0 <? zlen F) && (zlen F <? 2147483648) = true -> icon_use ex_alloc [1; 2; 3; 4] [1; 2] [1; 2; 3] F.
Proof. intros F B L. apply conj; [exact ex_A|]. apply conj; [exact ex_P|]. do 3 (apply conj; [reflexivity|]). split; [exact (bytes_check F B)|lia]. Qed.

(** An icon of 16 bits per pixel: success, but the image is the one from before. *)
Definition ico_16 : list Z := [0; 0; 1; 0; 1; 0] ++ ico_entry 22 ++ ico_head 2 1 16 0 ++ repeat 1 8.
Theorem C109_unknown_refuted : ~ forall alloc png u4 u2 t3 F old e im ims, icon_use alloc u4 u2 t3 F -> icons_in F = 1 -> int4 F (icon_off F 0) = 40 ->
  iLoadIconInternal alloc png u4 u2 t3 old (Rd F 0 (zlen F) e) = Ok (true, im :: ims) -> Width im = icon_w F (icon_off F 0).
Proof.
  intros Q. specialize (Q ex_alloc no_png [1; 2; 3; 4] [1; 2] [1; 2; 3] ico_16 ex_old [] ex_old [] (ico_use ico_16 eq_refl eq_refl) eq_refl eq_refl). assert (C : Width ex_old = icon_w ico_16 (icon_off ico_16 0)) by (apply Q; vm_compute; reflexivity). vm_compute in C. discriminate C.
Qed.
(** A file without icons: success. *)
Theorem C109_empty_refuted : ~ forall alloc png u4 u2 t3 F old e, icon_use alloc u4 u2 t3 F -> icons_in F = 0 -> exists ims, iLoadIconInternal alloc png u4 u2 t3 old (Rd F 0 (zlen F) e) = Ok (false, ims).
Proof.
  intros Q. destruct (Q ex_alloc no_png [1; 2; 3; 4] [1; 2] [1; 2; 3] [0; 0; 1; 0; 0; 0; 9] ex_old [] (ico_use [0; 0; 1; 0; 0; 0; 9] eq_refl eq_refl) eq_refl) as (ims & E). vm_compute in E. discriminate E.
Qed.
(** An icon of 8 bits per pixel with a palette of fewer than 256 colours, all there, is refused: 256 are read. *)
Definition ico_pal2 : list Z := [0; 0; 1; 0; 1; 0] ++ ico_entry 22 ++ ico_head 1 1 8 2 ++ [10; 20; 30; 0; 11; 21; 31; 0] ++ [1; 0; 0; 0] ++ [0; 0; 0; 0].
Theorem C109_colours_refuted : ~ forall alloc png u4 u2 t3 F old e, icon_use alloc u4 u2 t3 F -> icons_in F = 1 -> 22 < zlen F ->
  let o := icon_off F 0 in 0 <= o -> int4 F o = 40 -> icon_bits F o = 8 -> 1 <= icon_w F o < 65536 -> 1 <= icon_h F o < 4096 -> 1 <= int4 F (o + 32) <= 256 ->
  o + 40 + 4 * int4 F (o + 32) + line_size 8 (icon_w F o) * icon_h F o + line_size 1 (icon_w F o) * icon_h F o <= zlen F ->
  exists ims, iLoadIconInternal alloc png u4 u2 t3 old (Rd F 0 (zlen F) e) = Ok (true, ims).
Proof.
  intros Q. specialize (Q ex_alloc no_png [1; 2; 3; 4] [1; 2] [1; 2; 3] ico_pal2 ex_old [] (ico_use ico_pal2 eq_refl eq_refl) eq_refl). cbv zeta in Q. change (icon_off ico_pal2 0) with 22 in Q. change (icon_w ico_pal2 22) with 1 in Q. change (icon_h ico_pal2 22) with 1 in Q. change (int4 ico_pal2 (22 + 32)) with 2 in Q. change (zlen ico_pal2) with 78 in Q. change (line_size 8 1) with 4 in Q. change (line_size 1 1) with 4 in Q.
  destruct (Q ltac:(lia) ltac:(lia) eq_refl eq_refl ltac:(lia) ltac:(lia) ltac:(lia) ltac:(lia)) as (ims & E). vm_compute in E. discriminate E.
Qed.

(** ** Examples *)
(** an icon of 24 bits, 2 by 2, with the pixel at the bottom right hidden, and one of 32 bits *)
Definition ico_two : list Z := [0; 0; 1; 0; 2; 0] ++ ico_entry 38 ++ ico_entry 102 ++
  ico_head 2 2 24 0 ++ [1; 2; 3; 4; 5; 6; 0; 0; 7; 8; 9; 10; 11; 12; 0; 0] ++ [64; 0; 0; 0; 0; 0; 0; 0] ++
  ico_head 1 1 32 0 ++ [50; 60; 70; 80] ++ [0; 0; 0; 0].
Lemma ico_two_ok : forall i, 0 <= i < 2 -> icon_ok ico_two (icon_off ico_two i).
Proof.
  intros i Hi. assert (i = 0 \/ i = 1) as [-> | ->] by lia; unfold icon_ok.
  - split; [vm_compute; discriminate|]. split; [reflexivity|]. split; [vm_compute; discriminate|]. split; [vm_compute; discriminate|]. split; [right; right; right; left; reflexivity|]. split; [intros C; vm_compute in C; discriminate C|]. split; [reflexivity|]. split; [reflexivity|]. vm_compute. discriminate.
  - split; [vm_compute; discriminate|]. split; [reflexivity|]. split; [vm_compute; discriminate|]. split; [vm_compute; discriminate|]. split; [right; right; right; right; reflexivity|]. split; [intros C; vm_compute in C; discriminate C|]. split; [reflexivity|]. split; [reflexivity|]. vm_compute. discriminate.
Qed.
Example C109_icons_ex : exists ims, iLoadIconInternal ex_alloc no_png [1; 2; 3; 4] [1; 2] [1; 2; 3] ex_old (Rd ico_two 0 (zlen ico_two) []) = Ok (true, ims) /\ zlen ims = 2 /\
  forall i, 0 <= i < 2 -> exists im, nth_error ims (Z.to_nat i) = Some im /\ shows_icon ico_two im (icon_off ico_two i).
Proof. apply (C109_icons_partial ex_alloc no_png [1; 2; 3; 4] [1; 2] [1; 2; 3] ico_two ex_old []); [apply ico_use; reflexivity|vm_compute; discriminate|reflexivity|exact ico_two_ok]. Qed.
Example ico_two_px : map (fun c => icon_px ico_two 38 0 24 2 2 1 0 c) [0; 1; 2; 3] = [4; 5; 6; 0] /\ map (fun c => icon_px ico_two 38 0 24 2 2 0 1 c) [0; 1; 2; 3] = [7; 8; 9; 255] /\ map (fun c => icon_px ico_two 102 0 32 1 1 0 0 c) [0; 1; 2; 3] = [50; 60; 70; 80].
Proof. repeat split; vm_compute; reflexivity. Qed.
Definition ico_8 : list Z := [0; 0; 1; 0; 1; 0] ++ ico_entry 22 ++ ico_head 1 1 8 0 ++ [10; 20; 30; 0; 11; 21; 31; 0] ++ repeat 0 1016 ++ [1; 0; 0; 0] ++ [0; 0; 0; 0].
Example ico_8_shown : exists ims, iLoadIconInternal ex_alloc no_png [1; 2; 3; 4] [1; 2] [1; 2; 3] ex_old (Rd ico_8 0 (zlen ico_8) []) = Ok (true, ims) /\ zlen ims = 1 /\
  forall i, 0 <= i < 1 -> exists im, nth_error ims (Z.to_nat i) = Some im /\ shows_icon ico_8 im (icon_off ico_8 i).
Proof.
  apply (C109_icons_partial ex_alloc no_png [1; 2; 3; 4] [1; 2] [1; 2; 3] ico_8 ex_old []); [apply ico_use; vm_compute; reflexivity|vm_compute; discriminate|vm_compute; reflexivity|].
  intros i Hi. change (icons_in ico_8) with 1 in Hi. replace i with 0 by lia. unfold icon_ok. split; [vm_compute; discriminate|]. split; [reflexivity|]. split; [vm_compute; discriminate|]. split; [vm_compute; discriminate|]. split; [right; right; left; reflexivity|]. split; [intros C; vm_compute in C; discriminate C|]. split; [vm_compute; reflexivity|]. split; [vm_compute; reflexivity|]. vm_compute. discriminate.
Qed.
Example ico_8_px : map (fun c => icon_px ico_8 22 1024 8 1 1 0 0 c) [0; 1; 2; 3] = [11; 21; 31; 255].
Proof. vm_compute. reflexivity. Qed.
(** an icon of 4 bits, 3 by 1, with all its 16 colours and its last pixel hidden, and one of 1 bit, 2 by 1, with a
    palette whose size is in the header *)
Definition ico_few : list Z := [0; 0; 1; 0; 2; 0] ++ ico_entry 38 ++ ico_entry 150 ++
  ico_head 3 1 4 0 ++ flat_map (fun k => [k; k + 100; k + 200; 0]) [0; 1; 2; 3; 4; 5; 6; 7; 8; 9; 10; 11; 12; 13; 14; 15] ++ [90; 192; 0; 0] ++ [32; 0; 0; 0] ++
  ico_head 2 1 1 2 ++ [1; 2; 3; 0; 4; 5; 6; 0] ++ [64; 0; 0; 0] ++ [0; 0; 0; 0].
Lemma ico_few_ok : forall i, 0 <= i < 2 -> icon_ok ico_few (icon_off ico_few i).
Proof.
  intros i Hi. assert (i = 0 \/ i = 1) as [-> | ->] by lia; unfold icon_ok.
  - split; [vm_compute; discriminate|]. split; [reflexivity|]. split; [vm_compute; discriminate|]. split; [vm_compute; discriminate|]. split; [right; left; reflexivity|]. split; [intros _; vm_compute; split; [discriminate|reflexivity]|]. split; [reflexivity|]. split; [reflexivity|]. vm_compute. discriminate.
  - split; [vm_compute; discriminate|]. split; [reflexivity|]. split; [vm_compute; discriminate|]. split; [vm_compute; discriminate|]. split; [left; reflexivity|]. split; [intros _; vm_compute; split; [discriminate|reflexivity]|]. split; [reflexivity|]. split; [reflexivity|]. vm_compute. discriminate.
Qed.
Example C109_few_ex : exists ims, iLoadIconInternal ex_alloc no_png [1; 2; 3; 4] [1; 2] [1; 2; 3] ex_old (Rd ico_few 0 (zlen ico_few) []) = Ok (true, ims) /\ zlen ims = 2 /\
  forall i, 0 <= i < 2 -> exists im, nth_error ims (Z.to_nat i) = Some im /\ shows_icon ico_few im (icon_off ico_few i).
Proof. apply (C109_icons_partial ex_alloc no_png [1; 2; 3; 4] [1; 2] [1; 2; 3] ico_few ex_old []); [apply ico_use; reflexivity|vm_compute; discriminate|reflexivity|exact ico_few_ok]. Qed.
Example ico_few_px : map (fun c => icon_px ico_few 38 64 4 3 1 1 0 c) [0; 1; 2; 3] = [10; 110; 210; 255] /\ map (fun c => icon_px ico_few 38 64 4 3 1 2 0 c) [0; 1; 2; 3] = [12; 112; 212; 0] /\ map (fun c => icon_px ico_few 150 8 1 2 1 1 0 c) [0; 1; 2; 3] = [4; 5; 6; 255].
Proof. repeat split; vm_compute; reflexivity. Qed.
Definition ico_short : list Z := firstn 148 ico_two.
Example C109_short_ex : iLoadIconInternal ex_alloc no_png [1; 2; 3; 4] [1; 2] [1; 2; 3] ex_old (Rd ico_short 0 (zlen ico_short) []) = Ok (false, [ex_old]).
Proof.
  apply C109_short_refused; [apply ico_use; reflexivity|vm_compute; discriminate|reflexivity| |].
  - intros i Hi. change (icons_in ico_short) with 2 in Hi. assert (i = 0 \/ i = 1) as [-> | ->] by lia; [left|right]; unfold icon_ok, icon_cut.
    + split; [vm_compute; discriminate|]. split; [reflexivity|]. split; [vm_compute; discriminate|]. split; [vm_compute; discriminate|]. split; [right; right; right; left; reflexivity|]. split; [intros C; vm_compute in C; discriminate C|]. split; [reflexivity|]. split; [reflexivity|]. vm_compute. discriminate.
    + split; [vm_compute; discriminate|]. split; [reflexivity|]. split; [vm_compute; discriminate|]. split; [vm_compute; discriminate|]. split; [right; right; right; right; reflexivity|]. split; [intros C; vm_compute in C; discriminate C|]. split; [reflexivity|]. split; [reflexivity|]. vm_compute. split; reflexivity.
  - exists 1. split; [vm_compute; split; [discriminate|reflexivity]|]. unfold icon_cut. split; [vm_compute; discriminate|]. split; [reflexivity|]. split; [vm_compute; discriminate|]. split; [vm_compute; discriminate|]. split; [right; right; right; right; reflexivity|]. split; [intros C; vm_compute in C; discriminate C|]. split; [reflexivity|]. split; [reflexivity|]. vm_compute. split; reflexivity.
Qed.

Print Assumptions C109_icons_partial.
Print Assumptions C109_short_refused.
Print Assumptions C109_unknown_refuted.
Print Assumptions C109_empty_refuted.
Print Assumptions C109_colours_refuted.
