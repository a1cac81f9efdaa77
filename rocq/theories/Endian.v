(** Endian-aware reading and writing of numbers (src-IL/src/il_endian.cpp) on a little-endian
    machine, over memory lumps ([reader]) and savers.

    The value read lives in an uninitialised local variable: [stk] gives its bytes before the read,
    which remain when the input ends early.  Not modelled: the assembly variants (USE_WIN32_ASM,
    GCC_X86_ASM) and EndianSwapData, which is not called (il_convert.cpp:1018-1022 is a comment). *)
From Coq Require Import ZArith List Lia Bool.
From Verif Require Import Base Enums Lump Channels.
Import ListNotations.
Open Scope Z_scope.

(** the number with the given bytes in memory *)
Fixpoint unle (b : list Z) : Z := match b with [] => 0 | x :: b => x + 256 * unle b end.
(** two's complement of an [n]-byte number *)
Definition signed (n v : Z) : Z := if v <? 2 ^ (8 * n - 1) then v else v - 2 ^ (8 * n).

(** il_endian.cpp:30 *)
Definition iSwapUShort (s : Z) : Z := u16 (Z.lor (Z.shiftr s 8) (Z.shiftl s 8)).
(** il_endian.cpp:53 *)
Definition iSwapUInt (i : Z) : Z :=
  u32 (Z.lor (Z.lor (Z.lor (Z.shiftr i 24) (Z.land (Z.shiftr i 8) 0xff00))
                    (Z.land (u32 (Z.shiftl i 8)) 0xff0000))
             (u32 (Z.shiftl i 24))).
(** il_endian.cpp:75-80, on the bytes of the double: [t=b[x]; b[x]=b[y]; b[y]=b[x]] *)
Definition dswap (b : list Z) (x y : Z) : res (list Z) :=
  let! _t := rd b x in
  let! v := rd b y in let! b := wr b x v in
  let! v := rd b x in wr b y v.
Definition iSwapDouble (b : list Z) : res (list Z) :=
  let! b := dswap b 0 7 in let! b := dswap b 1 6 in let! b := dswap b 2 5 in dswap b 3 4.

(** iread(&v, n, 1) into a local variable *)
Definition get (n : Z) (stk : list Z) (r : reader) : res (Z * reader) :=
  let! (_, b, r) := iReadLump stk n 1 r in Ok (unle b, r).

(** il_endian.cpp:85-92, 94-101, 103-110, 112-119 *)
Definition GetLittleUShort (stk : list Z) (r : reader) : res (Z * reader) := get 2 stk r.
Definition GetLittleShort (stk : list Z) (r : reader) : res (Z * reader) := let! (v, r) := get 2 stk r in Ok (signed 2 v, r).
Definition GetLittleUInt (stk : list Z) (r : reader) : res (Z * reader) := get 4 stk r.
Definition GetLittleInt (stk : list Z) (r : reader) : res (Z * reader) := let! (v, r) := get 4 stk r in Ok (signed 4 v, r).
(** il_endian.cpp:139-146, 148-155, 157-164, 166-173 *)
Definition GetBigUShort (stk : list Z) (r : reader) : res (Z * reader) := let! (v, r) := get 2 stk r in Ok (iSwapUShort v, r).
Definition GetBigShort (stk : list Z) (r : reader) : res (Z * reader) := let! (v, r) := get 2 stk r in Ok (signed 2 (iSwapUShort v), r).
Definition GetBigUInt (stk : list Z) (r : reader) : res (Z * reader) := let! (v, r) := get 4 stk r in Ok (iSwapUInt v, r).
Definition GetBigInt (stk : list Z) (r : reader) : res (Z * reader) := let! (v, r) := get 4 stk r in Ok (signed 4 (iSwapUInt v), r).
(** il_endian.cpp:184-191 GetBigDouble, as bytes *)
Definition GetBigDouble (stk : list Z) (r : reader) : res (list Z * reader) :=
  let! (_, b, r) := iReadLump stk 8 1 r in let! b := iSwapDouble b in Ok (b, r).

(** il_endian.cpp:193-198, 200-205, 207-212, 214-219; the value is an [n]-byte number.  What the
    functions return (the result of iwrite) is not used by the savers modelled here. *)
Definition SaveLittleUShort (s : Z) (k : saver) : saver := Write (le 2 s) 2 1 k.
Definition SaveLittleShort (s : Z) (k : saver) : saver := Write (le 2 s) 2 1 k.
Definition SaveLittleUInt (i : Z) (k : saver) : saver := Write (le 4 i) 4 1 k.
Definition SaveLittleInt (i : Z) (k : saver) : saver := Write (le 4 i) 4 1 k.
(** il_endian.cpp:236-241, 244-249, 252-257, 260-265 *)
Definition SaveBigUShort (s : Z) (k : saver) : saver := Write (le 2 (iSwapUShort (u16 s))) 2 1 k.
Definition SaveBigShort (s : Z) (k : saver) : saver := Write (le 2 (iSwapUShort (u16 s))) 2 1 k.
Definition SaveBigUInt (i : Z) (k : saver) : saver := Write (le 4 (iSwapUInt (u32 i))) 4 1 k.
Definition SaveBigInt (i : Z) (k : saver) : saver := Write (le 4 (iSwapUInt (u32 i))) 4 1 k.
(** il_endian.cpp:276-281, the double given by its bytes *)
Definition SaveBigDouble (b : list Z) (k : saver) : res saver := let! b := iSwapDouble b in Ok (Write b 8 1 k).
