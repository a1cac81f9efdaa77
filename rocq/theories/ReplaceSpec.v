(** Replacing a colour, independently of the code. *)
From Coq Require Import ZArith List Bool.
From Verif Require Import Base Enums Image ImageSpec Clear.
Open Scope Z_scope.

(** a component of the clear colour (in units of 2^-16) in eight bits *)
Definition clear8 (a : Z) : Z := a * 255 / 65536.
(** the distance of two colours, cut to an integer, is at most [T] *)
Definition near (T r g b r' g' b' : Z) : Prop := (r - r') ^ 2 + (g - g') ^ 2 + (b - b') ^ 2 < (T + 1) ^ 2.
(** the image [im'] with data [d] is the image [im] with data [buf] except for its pixels *)
Definition repainted (im im' : img) (d : list Z) : Prop := im' = with_Data im (Some d) /\ zlen d = SizeOfData im.
(** a place in the image *)
Definition place (im : img) (x t z : Z) : Prop := 0 <= x < Width im /\ 0 <= t < Height im /\ 0 <= z < Depth im.
