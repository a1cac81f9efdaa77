(** IWI textures, independently of the loader: the header, the levels of detail, the pixels. *)
From Coq Require Import ZArith List Bool.
From Verif Require Import Base Enums Image ImageSpec BmpSpec DxtSpec SmallSpec.
Import ListNotations.
Open Scope Z_scope.

(** ** The header: 28 bytes: "IWi" and the version, the format, the flags, the sides *)
Definition iwi_name (v : Z) : list Z := [73; 87; 105; v].   (* "IWi" *)
Definition iwi_header (F : list Z) (f W H : Z) : Prop :=
  28 <= zlen F /\ (slice F 0 4 = iwi_name 5 \/ slice F 0 4 = iwi_name 6) /\ geti F 4 = f /\ word2 F 6 = W /\ word2 F 8 = H /\ 0 < W /\ 0 < H.
(** both lowest flags set: no smaller levels *)
Definition alone (F : list Z) : bool := geti F 5 mod 4 =? 3.

(** ** The levels: half the size, but at least one *)
Definition side (n k : Z) : Z := Z.max 1 (n / 2 ^ k).
(** level [k] of [n] + 1 levels lies behind the smaller ones; a level of W by H pixels takes [size W H] bytes *)
Fixpoint bytes_from (size : Z -> Z -> Z) (W H k : Z) (n : nat) : Z :=
  match n with O => 0 | S n => size (side W k) (side H k) + bytes_from size W H (k + 1) n end.
Definition level_at (size : Z -> Z -> Z) (W H n k : Z) : Z := 28 + bytes_from size W H (k + 1) (Z.to_nat (n - k)).

(** ** The pixels *)
(** four bits per channel: the first byte of the pixel has channels 0 (high half) and 1, the second 2 and 3 *)
Definition nibble (F : list Z) (o W x t c : Z) : Z :=
  let b := geti F (o + (t * W + x) * 2 + c / 2) in if Z.even c then b / 16 else b mod 16.
