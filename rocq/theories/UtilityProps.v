(** Property theorems C30 (size helpers) and C41 (memory swap). *)
From Coq Require Import ZArith List Lia Bool.
From Verif Require Import Base Enums Utility UtilityProofs.
Import ListNotations.
Open Scope Z_scope.

(** C30a: for every n up to 2^31, ilNextPower2 ends and returns the least power of two
    that is not below n. *)
Theorem C30_next_power2_partial : forall n, 0 <= n <= 2 ^ 31 ->
  exists j, 0 <= j /\ ilNextPower2 31 n = Ok (2 ^ j) /\ n <= 2 ^ j /\
    forall i, 0 <= i -> n <= 2 ^ i -> 2 ^ j <= 2 ^ i.
Proof.
  intros n Hn. unfold ilNextPower2. change 1 with (2 ^ 0).
  destruct (np2_loop_spec 31 0 n) as [j [Hj [E [Hle Hlt]]]]; try lia.
  exists j. repeat split; auto; try lia.
  intros i Hi Hni. apply Z.pow_le_mono_r; [lia|].
  destruct Hlt as [->|Hlt]; [lia|].
  destruct (Z.le_gt_cases j i); auto.
  assert (2 ^ i <= 2 ^ (j - 1)) by (apply Z.pow_le_mono_r; lia). lia.
Qed.
Print Assumptions C30_next_power2_partial.

Example C30_next_power2_ex : ilNextPower2 31 100 = Ok 128 /\ ilNextPower2 31 2147483648 = Ok 2147483648.
Proof. split; reflexivity. Qed.

(** C30b, finding: for every n above 2^31 the loop never ends, whatever the fuel. *)
Theorem C30_next_power2_diverges : forall n fuel, 2 ^ 31 < n < 2 ^ 32 ->
  ilNextPower2 fuel n = Fuel.
Proof.
  intros n fuel Hn. unfold ilNextPower2. apply np2_loop_diverges; [lia|].
  left. exists 0. split; [lia|reflexivity].
Qed.
Print Assumptions C30_next_power2_diverges.

(** C30c: the table from channel count to format is inverted by the table from format to
    channel count, for all byte values (0 = "unknown"). *)
Theorem C30_format_bpp_inverse : forall bpp, 0 <= bpp < 256 ->
  ilGetBppFormat (ilGetFormatBpp bpp) = if (1 <=? bpp) && (bpp <=? 4) then bpp else 0.
Proof.
  intros bpp H. unfold ilGetFormatBpp, case. cbn [existsb].
  destruct (bpp =? 1) eqn:E1; [replace bpp with 1 by lia; reflexivity|].
  destruct (bpp =? 2) eqn:E2; [replace bpp with 2 by lia; reflexivity|].
  destruct (bpp =? 3) eqn:E3; [replace bpp with 3 by lia; reflexivity|].
  destruct (bpp =? 4) eqn:E4; [replace bpp with 4 by lia; reflexivity|].
  replace ((1 <=? bpp) && (bpp <=? 4)) with false by lia. reflexivity.
Qed.
Print Assumptions C30_format_bpp_inverse.

(** C30d: likewise for bytes per channel and types. *)
Theorem C30_type_bpc_inverse : forall bpc, 0 <= bpc < 256 ->
  ilGetBpcType (ilGetTypeBpc bpc) =
  if (bpc =? 1) || (bpc =? 2) || (bpc =? 4) || (bpc =? 8) then bpc else 0.
Proof.
  intros b H. unfold ilGetTypeBpc, case. cbn [existsb].
  destruct (b =? 1) eqn:E1; [replace b with 1 by lia; reflexivity|].
  destruct (b =? 2) eqn:E2; [replace b with 2 by lia; reflexivity|].
  destruct (b =? 4) eqn:E3; [replace b with 4 by lia; reflexivity|].
  destruct (b =? 8) eqn:E4; [replace b with 8 by lia; reflexivity|]. reflexivity.
Qed.
Print Assumptions C30_type_bpc_inverse.

(** C30e: every format known to the library has between 1 and 4 channels, all others 0;
    a palette type has the channel count of its base format. *)
Theorem C30_palette_bpp : forall pt, ilGetBppPal pt = ilGetBppFormat (ilGetPalBaseType pt).
Proof.
  intros pt. unfold ilGetBppPal, ilGetPalBaseType, case. cbn [existsb].
  destruct (pt =? IL_PAL_RGB24) eqn:E1; [reflexivity|].
  destruct (pt =? IL_PAL_BGR24) eqn:E2.
  - apply Z.eqb_eq in E2. subst. reflexivity.
  - cbn [orb].
    destruct (pt =? IL_PAL_RGB32) eqn:E3; [reflexivity|].
    destruct (pt =? IL_PAL_RGBA32) eqn:E4; [reflexivity|]. cbn [orb].
    destruct (pt =? IL_PAL_BGR32) eqn:E5; [reflexivity|].
    destruct (pt =? IL_PAL_BGRA32) eqn:E6; reflexivity.
Qed.
Print Assumptions C30_palette_bpp.

(** C30f: the converse composition is NOT the identity on formats and types: the tables
    forget BGR order, signedness and floats. *)
Theorem C30_inverse_on_formats_refuted :
  (exists f, ilGetBppFormat f <> 0 /\ ilGetFormatBpp (ilGetBppFormat f) <> f) /\
  (exists t, ilGetBpcType t <> 0 /\ ilGetTypeBpc (ilGetBpcType t) <> t).
Proof.
  split; [exists IL_BGR|exists IL_FLOAT]; split; intro H; vm_compute in H; discriminate.
Qed.
Print Assumptions C30_inverse_on_formats_refuted.

(** C41: iMemSwap exchanges two disjoint byte ranges of any length and touches nothing
    else, for every content of its scratch block. *)
Theorem C41_memswap : forall blk b o1 o2 size,
  zlen blk = 4096 -> 0 <= size < 2 ^ 32 -> 0 <= o1 -> 0 <= o2 ->
  o1 + size <= zlen b -> o2 + size <= zlen b -> (o1 + size <= o2 \/ o2 + size <= o1) ->
  exists r, iMemSwap (Some blk) b o1 o2 size = Ok r /\ zlen r = zlen b /\
   (forall j, 0 <= j < size -> geti r (o1 + j) = geti b (o2 + j) /\ geti r (o2 + j) = geti b (o1 + j)) /\
   (forall j, 0 <= j < zlen b -> ~ (o1 <= j < o1 + size) -> ~ (o2 <= j < o2 + size) -> geti r j = geti b j).
Proof.
  intros blk b o1 o2 size Hblk Hs H1 H2 H3 H4 Hd.
  destruct (iMemSwap_spec blk b o1 o2 size) as [r [E [L S]]]; auto.
  exists r. repeat split; auto.
  - rewrite S by lia. replace ((o1 <=? o1 + j) && (o1 + j <? o1 + size)) with true by lia. f_equal; lia.
  - rewrite S by lia. replace ((o1 <=? o2 + j) && (o2 + j <? o1 + size)) with false by lia.
    replace ((o2 <=? o2 + j) && (o2 + j <? o2 + size)) with true by lia. f_equal; lia.
  - intros j Hj Hn1 Hn2. rewrite S by lia.
    replace ((o1 <=? j) && (j <? o1 + size)) with false by lia.
    replace ((o2 <=? j) && (j <? o2 + size)) with false by lia. reflexivity.
Qed.
Print Assumptions C41_memswap.

Example C41_hyp_met : exists r, iMemSwap (Some (repeat 9 (Z.to_nat 4096))) [1;2;3;4;5;6] 0 4 2 = Ok r /\ r = [5;6;3;4;1;2].
Proof. eexists. split; vm_compute; reflexivity. Qed.
