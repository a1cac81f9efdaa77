(** Wireless bitmaps (src-IL/src/il_wbmp.cpp).

    Input comes from a memory lump; the bit reader is Bits.v, on the bytes the lump has not
    delivered yet.  The quantiser (il_quantizer.cpp, il_neuquant.cpp) is a parameter. *)
From Coq Require Import ZArith List Lia Bool.
From Verif Require Import Base Enums Utility Image Flip Lump Bits Pcx.
Import ListNotations.
Open Scope Z_scope.

(** ** Loading *)

(** igetc() stored in an ILubyte: IL_EOF becomes 255 *)
Definition getb (r : reader) : res (Z * reader) := let! (c, r) := iGetcLump r in Ok (u8 c, r).

(** the loop of WbmpGetMultibyte, il_wbmp.cpp:124-130, with [n] iterations left *)
Fixpoint get_multi (n : nat) (Val : Z) (r : reader) : res (Z * reader) :=
  match n with
  | O => Ok (Val, r)
  | S n =>
      let! (Cur, r) := getb r in
      let Val := u32 (Z.lor (Z.shiftl Val 7) (Z.land Cur 127)) in
      if Z.land Cur 128 =? 0 then Ok (Val, r) else get_multi n Val r
  end.
(** il_wbmp.cpp:119-133 *)
Definition WbmpGetMultibyte (r : reader) : res (Z * reader) := get_multi 5 0 r.

(** the rows, il_wbmp.cpp:102-106: bread stores its bits in the image at Width * i; the padding
    goes to a buffer of eight bytes *)
Definition wbmp_row (W BitPadding i : Z) (st : list Z * bitf) : res (list Z * bitf) :=
  let '(d, f) := st in
  let '(_, l, f) := bread 1 W f in
  let! d := memcpy d (u32 (W * i)) l 0 (zlen l) in
  let '(_, l, f) := bread 1 BitPadding f in
  if 8 <? zlen l then UB else Ok (d, f).

(** il_wbmp.cpp:108-111 *)
Definition wbmp_white (size : Z) (d : list Z) : res (list Z) :=
  loop 0 size (fun i d => let! v := rd d i in if v =? 1 then wr d i 255 else Ok d) d.

(** il_wbmp.cpp:68-116 on a current image; [file]: FileRead is not NULL, which is what bfile
    (il_bits.cpp:39-54) tests (its own allocation is taken to succeed).  The result, the image,
    the errors set. *)
Definition iLoadWbmpInternal (alloc : allocator) (file : bool) (old : img) (r : reader) : res (bool * img * list Z) :=
  let! (c, r) := iGetcLump r in
  if negb (c =? 0) then Ok (false, old, [IL_INVALID_FILE_HEADER]) else
  let! (c, r) := iGetcLump r in
  if negb (c =? 0) then Ok (false, old, [IL_INVALID_FILE_HEADER]) else
  let! (W, r) := WbmpGetMultibyte r in
  let! (H, r) := WbmpGetMultibyte r in
  if (W =? 0) || (H =? 0) then Ok (false, old, [IL_INVALID_FILE_HEADER]) else
  let! (ok, im, e) := ilInitImage alloc old W H 1 1 IL_LUMINANCE IL_UNSIGNED_BYTE None in
  if negb ok then Ok (false, im, e) else
  let im := with_Origin im IL_ORIGIN_UPPER_LEFT in
  let BitPadding := (8 - W mod 8) mod 8 in
  if negb file then Ok (false, im, []) else
  match Data im with
  | None => UB
  | Some d =>
      let f := bfile (rpos r) (skipn (Z.to_nat (rpos r)) (rlump r)) in
      let! (d, f) := loop 0 (Height im) (wbmp_row (Width im) BitPadding) (d, f) in
      let! d := wbmp_white (SizeOfData im) d in
      Ok (true, with_Data im (Some d), [])
  end.

(** il_wbmp.cpp:60-65; FileRead keeps the handle of an earlier load, NULL if there was none *)
Definition ilLoadWbmpL (alloc : allocator) (file : bool) (old : img) (Lump : list Z) : res (bool * img * list Z) :=
  iLoadWbmpInternal alloc file old (iSetInputLump Lump (zlen Lump)).

(** ** Saving *)

(** the number of bytes, il_wbmp.cpp:140-144: [n] is an upper bound of the iterations *)
Fixpoint num_bytes (n : nat) (MultiVal : Z) : nat :=
  match n with
  | O => O
  | S n => let MultiVal := Z.shiftr MultiVal 7 in if MultiVal =? 0 then 1%nat else S (num_bytes n MultiVal)
  end.
(** il_wbmp.cpp:146-151: [i] + 1 bytes left *)
Fixpoint put_multi (i : nat) (Val : Z) (k : saver) : saver :=
  match i with
  | O => k
  | S i =>
      let MultiVal := Z.land (Z.shiftr Val (Z.of_nat i * 7)) 127 in
      Putc (if Nat.eqb i 0 then MultiVal else Z.lor MultiVal 128) (fun _ => put_multi i Val k)
  end.
(** il_wbmp.cpp:136-154; an ILuint has at most five groups of seven bits *)
Definition WbmpPutMultibyte (Val : Z) (k : saver) : saver := put_multi (num_bytes 5 Val) Val k.

(** the byte of eight pixels, il_wbmp.cpp:252-258; [n] iterations left *)
Fixpoint wbmp_byte (n : nat) (k : Z) (d : list Z) (W i j Val : Z) (next : Z -> saver) : saver :=
  match n with
  | O => next Val
  | S n =>
      if u32 (j + k) <? W then
        at_ d (u32 (W * i + j + k)) (fun v => wbmp_byte n (k + 1) d W i j (if v =? 1 then Z.lor Val (Z.shiftr 128 k) else Val) next)
      else wbmp_byte n (k + 1) d W i j Val next
  end.
(** il_wbmp.cpp:251-260: one row, [n] bytes left from column [j] *)
Fixpoint wbmp_line (n : nat) (d : list Z) (W i j : Z) (k : saver) : saver :=
  match n with
  | O => k
  | S n => wbmp_byte 8 0 d W i j 0 (fun Val => Putc Val (fun _ => wbmp_line n d W i (j + 8) k))
  end.

(** il_wbmp.cpp:216-268: the program that writes, and whether it reports success.  The rows have
    ceil(Width / 8) bytes (the loop for (j = 0; j < Width; j += 8) without wrap of j). *)
Definition iSaveWbmpInternal (alloc : allocator) (quant : img -> option img) (im : img) : res (bool * saver) :=
  let head k := Putc 0 (fun _ => Putc 0 (fun _ => WbmpPutMultibyte (Width im) (WbmpPutMultibyte (Height im) k))) in
  match quant im with
  | None => Ok (false, head Done)
  | Some tm =>
      let! td := (if negb (Origin tm =? IL_ORIGIN_UPPER_LEFT) then iGetFlipped alloc tm else Ok (Data tm)) in
      match td with
      | None => Ok (false, head Done)
      | Some d => Ok (true, head (for_s (Z.to_nat (Height tm)) 0 (fun i k => wbmp_line (Z.to_nat ((Width tm + 7) / 8)) d (Width tm) i 0 k) Done))
      end
  end.
