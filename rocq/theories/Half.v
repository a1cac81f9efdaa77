(** Model of the half-float conversions: src-IL/src/il_manip.cpp:29-221.  Arguments and results
    are bit patterns.  ilFloatToHalfOverflow (il_manip.cpp:11-23) only multiplies a local float and
    is not represented. *)
From Coq Require Import ZArith List Lia Bool.
From Verif Require Import Base.
Open Scope Z_scope.

(** ilFloatToHalf, il_manip.cpp:29-154 *)
Definition ilFloatToHalf (i : Z) : Z :=
  let s := Z.land (Z.shiftr i 16) 32768 in                      (* 40 *)
  let e := Z.land (Z.shiftr i 23) 255 - (127 - 15) in           (* 41 *)
  let m := Z.land i 8388607 in                                  (* 42 *)
  if e <=? 0 then
    if e <? -10 then 0                                          (* 50-61 *)
    else
      let m := Z.shiftr (Z.lor m 8388608) (1 - e) in            (* 70 *)
      let m := if Z.land m 4096 =? 0 then m else m + 8192 in    (* 81-82 *)
      u16 (Z.lor s (Z.shiftr m 13))                             (* 88 *)
  else if e =? 255 - (127 - 15) then
    if m =? 0 then u16 (Z.lor s 31744)                          (* 99 *)
    else
      let m := Z.shiftr m 13 in                                 (* 112 *)
      u16 (Z.lor (Z.lor (Z.lor s 31744) m) (if m =? 0 then 1 else 0))  (* 113 *)
  else
    let '(m, e) :=
      if Z.land m 4096 =? 0 then (m, e)
      else let m := m + 8192 in
           if Z.land m 8388608 =? 0 then (m, e) else (0, e + 1) in  (* 127-136 *)
    if 30 <? e then u16 (Z.lor s 31744)                         (* 142-146 *)
    else u16 (Z.lor (Z.lor s (Z.shiftl e 10)) (Z.shiftr m 13)). (* 152 *)

(** the renormalising loop of ilHalfToFloat, il_manip.cpp:179-183 *)
Fixpoint renorm (fuel : nat) (m e : Z) : res (Z * Z) :=
  if Z.land m 1024 =? 0 then
    match fuel with O => Fuel | S f => renorm f (Z.shiftl m 1) (e - 1) end
  else Ok (m, e).

(** ilHalfToFloat, il_manip.cpp:157-221; [s << 31] of an int is taken modulo 2^32 *)
Definition ilHalfToFloat (y : Z) : res Z :=
  let s := Z.land (Z.shiftr y 15) 1 in
  let e := Z.land (Z.shiftr y 10) 31 in
  let m := Z.land y 1023 in
  let norm (m e : Z) :=                                          (* 213-220 *)
    Ok (u32 (Z.lor (Z.lor (Z.shiftl s 31) (Z.shiftl (e + (127 - 15)) 23)) (Z.shiftl m 13))) in
  if e =? 0 then
    if m =? 0 then Ok (u32 (Z.shiftl s 31))                      (* 171 *)
    else let! r := renorm 10 m e in
         let '(m, e) := r in
         norm (Z.land m (Z.lnot 1024)) (e + 1)                    (* 185-186 *)
  else if e =? 31 then
    if m =? 0 then Ok (u32 (Z.lor (Z.shiftl s 31) 2139095040))   (* 197 *)
    else Ok (u32 (Z.lor (Z.lor (Z.shiftl s 31) 2139095040) (Z.shiftl m 13)))  (* 205 *)
  else norm m e.
