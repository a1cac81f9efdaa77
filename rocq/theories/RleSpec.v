(** What the packet formats mean, independently of the encoder.

    [tga_code bpp code data]: the TGA specification: a header byte below 128 is followed by
    header+1 literal pixels; a header of 128 or more is followed by one pixel, repeated
    header-127 times.
    [sgi_code code data]: the SGI specification (1 byte per element): a byte above 128
    is followed by (byte mod 128) literal bytes; one with its top bit clear and not 0 is
    followed by one byte repeated that many times; 0 ends the line.
    [bmp_code code data]: Windows RLE8: a nonzero byte is followed by one byte repeated that
    many times; 0 then k>=3 is followed by k literal bytes, padded to an even number; 0 0 ends
    the line. *)
From Coq Require Import ZArith List Lia Bool.
From Verif Require Import Base.
Import ListNotations.
Open Scope Z_scope.

Fixpoint rep (n : nat) (px : list Z) : list Z :=
  match n with O => [] | S k => px ++ rep k px end.

Inductive tga_code (bpp : Z) : list Z -> list Z -> Prop :=
| tga_nil : tga_code bpp [] []
| tga_raw : forall h px code data, 0 <= h < 128 -> zlen px = (h + 1) * bpp ->
    tga_code bpp code data -> tga_code bpp (h :: px ++ code) (px ++ data)
| tga_run : forall h px code data, 128 <= h < 256 -> zlen px = bpp ->
    tga_code bpp code data -> tga_code bpp (h :: px ++ code) (rep (Z.to_nat (h - 127)) px ++ data).

Inductive sgi_code : list Z -> list Z -> Prop :=
| sgi_end : sgi_code [0] []
| sgi_raw : forall h px code data, 128 < h < 256 -> zlen px = h - 128 ->
    sgi_code code data -> sgi_code (h :: px ++ code) (px ++ data)
| sgi_run : forall h b code data, 0 < h < 128 ->
    sgi_code code data -> sgi_code (h :: b :: code) (rep (Z.to_nat h) [b] ++ data).

Inductive bmp_code : list Z -> list Z -> Prop :=
| bmp_end : bmp_code [0; 0] []
| bmp_run : forall h b code data, 0 < h < 256 ->
    bmp_code code data -> bmp_code (h :: b :: code) (rep (Z.to_nat h) [b] ++ data)
| bmp_abs : forall k px code data, 3 <= k < 256 -> zlen px = k ->
    bmp_code code data ->
    bmp_code (0 :: k :: px ++ repeat 0 (Z.to_nat (k mod 2)) ++ code) (px ++ data).

(** pixel [i] of a buffer of [bpp]-byte pixels *)
Definition pixel (bpp : Z) (l : list Z) (i : Z) : list Z := slice l (i * bpp) bpp.

(** no two adjacent pixels among pixels [a .. a+n-1] are equal *)
Definition no_repeat (bpp : Z) (l : list Z) (a n : Z) : Prop :=
  forall i, a <= i -> i + 1 < a + n -> pixel bpp l i <> pixel bpp l (i + 1).

(** the codes are uniquely decodable, so "decoding" is well defined *)
Lemma app_split : forall (a b c d : list Z), zlen a = zlen c -> a ++ b = c ++ d -> a = c /\ b = d.
Proof.
  induction a as [|x a IH]; intros b [|y c] d L E; unfold zlen in *; cbn in *; auto; try lia.
  injection E as -> E. apply IH in E; [|lia]. destruct E as [-> ->]. auto.
Qed.

Lemma tga_code_det : forall bpp code d1 d2, 1 <= bpp ->
  tga_code bpp code d1 -> tga_code bpp code d2 -> d1 = d2.
Proof.
  intros bpp code d1 d2 B H. revert d2. induction H as [|h px code data R L H IH|h px code data R L H IH];
    intros d2 H2; inversion H2 as [E|h' px' code' data' R' L' H' E|h' px' code' data' R' L' H' E];
    subst; auto; try discriminate; try lia.
  - match goal with E : px' ++ _ = px ++ _ |- _ => apply app_split in E; [destruct E as [-> ->]|congruence] end.
    f_equal. auto.
  - match goal with E : px' ++ _ = px ++ _ |- _ => apply app_split in E; [destruct E as [-> ->]|congruence] end.
    f_equal. auto.
Qed.

Lemma sgi_code_det : forall code d1 d2, sgi_code code d1 -> sgi_code code d2 -> d1 = d2.
Proof.
  intros code d1 d2 H. revert d2. induction H as [|h px code data R L H IH|h b code data R H IH];
    intros d2 H2; inversion H2 as [E|h' px' code' data' R' L' H' E|h' b' code' data' R' H' E];
    subst; auto; try discriminate; try lia.
  - match goal with E : px' ++ _ = px ++ _ |- _ => apply app_split in E; [destruct E as [-> ->]|congruence] end.
    f_equal. auto.
  - f_equal. auto.
Qed.

Lemma bmp_code_det : forall code d1 d2, bmp_code code d1 -> bmp_code code d2 -> d1 = d2.
Proof.
  intros code d1 d2 H. revert d2. induction H as [|h b code data R H IH|k px code data R L H IH];
    intros d2 H2; inversion H2 as [E|h' b' code' data' R' H' E|k' px' code' data' R' L' H' E];
    subst; auto; try discriminate; try lia.
  - f_equal; auto.
  - match goal with E : px' ++ _ = px ++ _ |- _ =>
      apply app_split in E; [destruct E as [-> E1]|congruence] end.
    apply app_split in E1; [destruct E1 as [_ ->]|reflexivity]. f_equal. auto.
Qed.
