(** IEEE 754 binary32 and binary16 by value, independent of the conversion code.

    Magnitudes are integers: in units of 2^-149 for floats and of 2^-24 for halves, so that one
    half unit is 2^125 float units. *)
From Coq Require Import ZArith List Lia Bool.
From Verif Require Import Base.
Open Scope Z_scope.

(** fields of a float pattern *)
Definition fsign (i : Z) : Z := i / 2 ^ 31.
Definition fexp (i : Z) : Z := i / 2 ^ 23 mod 256.
Definition fman (i : Z) : Z := i mod 2 ^ 23.
Definition fmag (i : Z) : Z := if fexp i =? 0 then fman i else (2 ^ 23 + fman i) * 2 ^ (fexp i - 1).
Definition fval (i : Z) : Z := if fsign i =? 0 then fmag i else - fmag i.
Definition ffinite (i : Z) : Prop := fexp i < 255.
Definition finf (i : Z) : Prop := fexp i = 255 /\ fman i = 0.
Definition fnan (i : Z) : Prop := fexp i = 255 /\ fman i <> 0.

(** fields of a half pattern *)
Definition hsign (y : Z) : Z := y / 2 ^ 15.
Definition hexp (y : Z) : Z := y / 2 ^ 10 mod 32.
Definition hman (y : Z) : Z := y mod 2 ^ 10.
Definition hmag (y : Z) : Z := if hexp y =? 0 then hman y else (2 ^ 10 + hman y) * 2 ^ (hexp y - 1).
Definition hval (y : Z) : Z := if hsign y =? 0 then hmag y else - hmag y.
Definition hfinite (y : Z) : Prop := hexp y < 31.
Definition hinf (y : Z) : Prop := hexp y = 31 /\ hman y = 0.
Definition hnan (y : Z) : Prop := hexp y = 31 /\ hman y <> 0.

(** one half unit in float units *)
Definition unit : Z := 2 ^ 125.
