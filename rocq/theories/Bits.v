(** Model of the bit reader: src-IL/src/il_bits.cpp.

    The underlying file is modelled by the bytes that iread has not delivered yet; iread of
    one byte delivers the next one, or reports end of file (il_files.cpp, any source). *)
From Coq Require Import ZArith List Lia Bool.
From Verif Require Import Base.
Import ListNotations.
Open Scope Z_scope.

(** BITFILE, il_bits.h:22-28 *)
Record bitf := { BitPos : Z; ByteBitOff : Z; Buff : Z; rest : list Z }.

(** bfile, il_bits.cpp:39-54: [pos] is itell() *)
Definition bfile (pos : Z) (file : list Z) : bitf :=
  {| BitPos := u32 (pos * 8); ByteBitOff := 8; Buff := 0; rest := file |}.

(** btell, il_bits.cpp:73-76 *)
Definition btell (f : bitf) : Z := i32 (BitPos f).

(** fetching a byte when the current one is used up, il_bits.cpp:132-136 and 164-168: [None]
    when iread fails *)
Definition refill (f : bitf) : option bitf * bitf :=
  if (ByteBitOff f <? 0) || (7 <? ByteBitOff f) then
    match rest f with
    | [] => (None, {| BitPos := BitPos f; ByteBitOff := 7; Buff := Buff f; rest := [] |})
    | b :: r => let f' := {| BitPos := BitPos f; ByteBitOff := 7; Buff := b; rest := r |} in (Some f', f')
    end
  else (Some f, f).

(** !!(Buff & (1 << ByteBitOff)), il_bits.cpp:138, 170 *)
Definition cur_bit (f : bitf) : Z := if Z.land (Buff f) (Z.shiftl 1 (ByteBitOff f)) =? 0 then 0 else 1.
Definition advance (f : bitf) : bitf :=
  {| BitPos := BitPos f; ByteBitOff := ByteBitOff f - 1; Buff := Buff f; rest := rest f |}.

(** bread's loop, il_bits.cpp:131-142; the bytes stored in Buffer, in order *)
Fixpoint bread_ (n : nat) (f : bitf) : list Z * bitf :=
  match n with
  | O => ([], f)
  | S n' =>
      match refill f with
      | (None, f') => ([], f')
      | (Some f', _) => let '(l, f'') := bread_ n' (advance f') in (cur_bit f' :: l, f'')
      end
  end.

(** bread, il_bits.cpp:122-145: the value returned is the number of bits stored *)
Definition bread (size number : Z) (f : bitf) : Z * list Z * bitf :=
  let '(l, f') := bread_ (Z.to_nat (u32 (size * number))) f in (zlen l, l, f').

(** breadVal, il_bits.cpp:149-177: [Buffer] accumulates, but BuffPos is what is returned *)
Fixpoint breadVal_ (n : nat) (f : bitf) (buffpos buffer : Z) : Z * bitf :=
  match n with
  | O => (buffpos, f)
  | S n' =>
      let buffer := u32 (buffer * 2) in
      match refill f with
      | (None, f') => (buffpos, f')
      | (Some f', _) => breadVal_ n' (advance f') (buffpos + 1) (u32 (buffer + cur_bit f'))
      end
  end.
Definition breadVal (n : Z) (f : bitf) : Z * bitf :=
  if 32 <? n then (0, f) else breadVal_ (Z.to_nat n) f 0 0.

(** a client: reads of the given sizes, one after the other; what each one returned and stored *)
Fixpoint reads (sizes : list Z) (f : bitf) : list (Z * list Z) :=
  match sizes with
  | [] => []
  | n :: t => let '(r, l, f') := bread 1 n f in (r, l) :: reads t f'
  end.
