(** What it means for two images to be the same picture, as far as the comparison promises. *)
From Coq Require Import ZArith List.
From Verif Require Import Stack StackSpec.
Open Scope Z_scope.

(** same size, pixel layout and origin *)
Definition same_hdr (x y : hdr) : Prop :=
  hW x = hW y /\ hH x = hH y /\ hD x = hD y /\ hBpp x = hBpp y /\ hFmt x = hFmt y /\ hTyp x = hTyp y /\ hOrg x = hOrg y.
(** and the same pixels *)
Definition same_picture (x y : seen) : Prop := same_hdr (sn_hdr x) (sn_hdr y) /\ sn_data x = sn_data y.
