(** PCX run-length coding, independently of the code: a byte below 192 stands for itself, 192+n
    followed by a byte stands for n times that byte. *)
From Coq Require Import ZArith List.
Import ListNotations.
Open Scope Z_scope.

Inductive pcx_coded : list Z -> list Z -> Prop :=
| pc_nil : pcx_coded [] []
| pc_lit : forall b e d, 0 <= b < 192 -> pcx_coded e d -> pcx_coded (b :: e) (b :: d)
| pc_run : forall n b e d, 1 <= n <= 63 -> 0 <= b < 256 -> pcx_coded e d ->
    pcx_coded (192 + n :: b :: e) (repeat b (Z.to_nat n) ++ d).
