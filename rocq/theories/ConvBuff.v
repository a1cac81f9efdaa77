(** Model of the buffer conversions: iSwitchTypes and ilConvertBuffer
    (src-IL/src/il_convbuff.cpp).  CLAMP_HALF, CLAMP_FLOATS, CLAMP_DOUBLES are 1 (il.h:32-34); the
    machine is little-endian; float expressions are evaluated in their own type. *)
From Coq Require Import ZArith List Lia Bool QArith Qround.
From Verif Require Import Base Enums Utility Image Elem Channels Endian Half Float.
Import ListNotations.
Open Scope Z_scope.

(** ** iSwitchTypes, il_convbuff.cpp:1968-2315 *)

Definition bytes_t : list Z := [IL_UNSIGNED_BYTE; IL_BYTE].
Definition shorts_t : list Z := [IL_UNSIGNED_SHORT; IL_SHORT].
Definition ints_t : list Z := [IL_UNSIGNED_INT; IL_INT].

(** the number in a float bit pattern after IL_CLAMP (il.h:152-153); [None]: not a number, which
    the two comparisons of IL_CLAMP let through *)
Definition clamped (p emin nb bits : Z) : option Q :=
  let mag := bits mod 2 ^ (8 * nb - 1) in
  let infinity := (2 ^ (8 * nb - 1) / 2 ^ (p - 1) - 1) * 2 ^ (p - 1) in
  if infinity <? mag then None
  else if 2 ^ (8 * nb - 1) <=? bits then Some 0%Q                       (* negative *)
  else if enc p emin (2 ^ (p - 1), 1 - p) <? mag then Some 1%Q          (* above 1 *)
  else
    let E := mag / 2 ^ (p - 1) in
    let M := mag mod 2 ^ (p - 1) in
    Some (if E =? 0 then val (M, emin) else val (M + 2 ^ (p - 1), E - 1 + emin)).

(** [(T)(x * MAX)]: [max] is converted to the floating type, the product rounded, the result
    truncated; out of the range of the [dn]-byte type the cast is undefined *)
Definition float_to_int (p emin nb max : Z) (dn : nat) (bits : Z) : res (list Z) :=
  match clamped p emin nb bits with
  | None => UB
  | Some x => let v := quant p emin x (val (rnd p emin (inject_Z max))) in
              if v <? 2 ^ (8 * Z.of_nat dn) then Ok (le dn v) else UB
  end.

(** [v / (T)MAX] *)
Definition int_to_float (p emin : Z) (nb : nat) (max v : Z) : list Z :=
  let q := val (rnd p emin (inject_Z (Z.abs v))) in
  let m := val (rnd p emin (inject_Z max)) in
  le nb (enc p emin (rnd p emin (q / m)) + if v <? 0 then 2 ^ (8 * Z.of_nat nb - 1) else 0).

Definition float_to_int32 := float_to_int 24 (-149) 4.
Definition float_to_int64 := float_to_int 53 (-1074) 8.
Definition int_to_float32 := int_to_float 24 (-149) 4.
Definition int_to_float64 := int_to_float 53 (-1074) 8.

(** UCHAR_MAX, USHRT_MAX, UINT_MAX for an integer type; the value of an element *)
Definition int_max (Ty : Z) : Z :=
  if case Ty bytes_t then 255 else if case Ty shorts_t then 65535 else 4294967295.
Definition int_val (Ty : Z) (e : list Z) : Z :=
  if case Ty [IL_BYTE; IL_SHORT; IL_INT] then signed (zlen e) (unle e) else unle e.

(** The expression assigned in the loop for the pair of types.  [fcast] stands for the conversions
    between float and double.  Shifts of a promoted byte or short that leave int are taken modulo
    2^32 (2112-2113, 2119). *)
Definition conv_elem (fcast : Z -> Z -> list Z -> list Z) (Src Dst : Z) (e : list Z) : res (list Z) :=
  let half := ilHalfToFloat (unle e) in
  if case Dst bytes_t then
    if case Src shorts_t then Ok (le 1 (Z.shiftr (unle e) 8))                  (* 2008 *)
    else if case Src ints_t then Ok (le 1 (Z.shiftr (unle e) 24))              (* 2014 *)
    else if Src =? IL_FLOAT then float_to_int32 255 1 (unle e)                 (* 2020-2021 *)
    else if Src =? IL_HALF then let! f := half in float_to_int32 255 1 f       (* 2030-2032 *)
    else float_to_int64 255 1 (unle e)                                         (* 2042-2043 *)
  else if case Dst shorts_t then
    if case Src bytes_t then Ok (le 2 (Z.lor (Z.shiftl (unle e) 8) (unle e)))  (* 2060 *)
    else if case Src ints_t then Ok (le 2 (Z.shiftr (unle e) 16))              (* 2066 *)
    else if Src =? IL_FLOAT then float_to_int32 65535 2 (unle e)               (* 2072-2073 *)
    else if Src =? IL_HALF then let! f := half in float_to_int32 65535 2 f     (* 2082-2084 *)
    else float_to_int64 65535 2 (unle e)                                       (* 2094-2095 *)
  else if case Dst ints_t then
    if case Src bytes_t then
      Ok (le 4 (u32 (Z.lor (Z.lor (Z.lor (Z.shiftl (unle e) 24) (Z.shiftl (unle e) 16)) (Z.shiftl (unle e) 8)) (unle e))))  (* 2112-2113 *)
    else if case Src shorts_t then Ok (le 4 (u32 (Z.lor (Z.shiftl (unle e) 16) (unle e))))  (* 2119 *)
    else if Src =? IL_FLOAT then float_to_int32 4294967295 4 (unle e)          (* 2125-2126 *)
    else if Src =? IL_HALF then let! f := half in float_to_int32 4294967295 4 f  (* 2135-2137 *)
    else float_to_int64 4294967295 4 (unle e)                                  (* 2147-2148 *)
  else if Dst =? IL_FLOAT then
    if Src =? IL_HALF then let! f := half in Ok (le 4 f)                       (* 2194 *)
    else if Src =? IL_DOUBLE then Ok (fcast IL_DOUBLE IL_FLOAT e)              (* 2199 *)
    else Ok (int_to_float32 (int_max Src) (int_val Src e))                     (* 2164-2189 *)
  else if Dst =? IL_DOUBLE then
    if Src =? IL_HALF then let! f := half in Ok (fcast IL_FLOAT IL_DOUBLE (le 4 f))  (* 2241-2242 *)
    else if Src =? IL_FLOAT then Ok (fcast IL_FLOAT IL_DOUBLE e)               (* 2247 *)
    else Ok (int_to_float64 (int_max Src) (int_val Src e))                     (* 2211-2236 *)
  else (* IL_HALF *)
    if Src =? IL_DOUBLE then Ok (le 2 (ilFloatToHalf (unle (fcast IL_DOUBLE IL_FLOAT e))))  (* 2295-2296 *)
    else if Src =? IL_FLOAT then Ok (le 2 (ilFloatToHalf (unle e)))            (* 2301-2302 *)
    else Ok (le 2 (ilFloatToHalf (unle (int_to_float32 (int_max Src) (int_val Src e))))).  (* 2259-2290 *)

(** pairs of types without a case: the new block is returned as allocated *)
Definition no_case (Src Dst : Z) : bool :=
  (case Src bytes_t && case Dst bytes_t) || (case Src shorts_t && case Dst shorts_t) || (case Src ints_t && case Dst ints_t).

(** The result is the buffer to use ([None]: NULL), and the errors set. *)
Definition iSwitchTypes (fcast : Z -> Z -> list Z -> list Z) (alloc : allocator) (SizeOfData Src Dst : Z) (Buffer : list Z)
  : res (option (list Z) * list Z) :=
  let bs := ilGetBpcType Src in
  let bd := ilGetBpcType Dst in
  if (bs =? 0) || (bd =? 0) then Ok (None, [IL_INTERNAL_ERROR])                (* 1981-1984 *)
  else if Src =? Dst then Ok (Some Buffer, [])                                 (* 1989-1991 *)
  else
    let Size := SizeOfData / bs in
    match alloc (u32 (Size * bd)) with                                         (* 1993 *)
    | None => Ok (None, [IL_OUT_OF_MEMORY])
    | Some d =>
        if no_case Src Dst then Ok (Some d, [])
        else let! d := loop 0 Size (fun i d => let! e := rde Buffer bs i in
                                               let! v := conv_elem fcast Src Dst e in
                                               wre d bd i v) d in
             Ok (Some d, [])
    end.

(** ** ilConvertBuffer, il_convbuff.cpp:35-1961 *)

(** What is stored in one element of a new pixel: element [k] of the source pixel, the opaque value,
    zero, or the luminance of the first three elements with the weights taken in the order
    [rev = false]: LumFactor[0], [1], [2] or [rev = true]: [2], [1], [0]; [dbl]: for 32-bit integers
    and floats the sum is a double. *)
Inductive cell := El (k : Z) | Opq | Nil | Lum (rev dbl : bool).

(** How one pair of formats is handled: allocated size in elements as a function of NumPix (the
    multiplications and divisions of the source, applied to bytes), then either a memset of the
    given number of bytes or a loop over pixels.  [Each]: [for (i = 0; i < NumPix; i += s, j += t)];
    [Whole]: [for (i = 0; i < NumPix / s; i++)] with [i * s] and [i * t]. *)
Inductive todo := Fill (n : Z -> Z) | Each (s t : Z) (ws : list (Z * cell)) | Whole (s t : Z) (ws : list (Z * cell)).

Definition keep3 : list (Z * cell) := [(0, El 0); (1, El 1); (2, El 2)].
Definition swap3 : list (Z * cell) := [(0, El 2); (1, El 1); (2, El 0)].
Definition grey3 : list (Z * cell) := [(0, El 0); (1, El 0); (2, El 0)].

Definition same (b : Z) : Z := b.
Definition x4d3 (b : Z) : Z := u32 (b * 4) / 3.
Definition x3d4 (b : Z) : Z := u32 (b * 3) / 4.

(** The two nested switches over SrcFormat and DestFormat; [b] is NumPix * BpcDest.
    [None]: IL_INVALID_CONVERSION. *)
Definition plan (Src Dst : Z) : option ((Z -> Z) * todo) :=
  if Src =? IL_RGB then
    if Dst =? IL_BGR then Some (same, Each 3 3 swap3)                                      (* 122-187 *)
    else if Dst =? IL_RGBA then Some (x4d3, Each 3 4 (keep3 ++ [(3, Opq)]))                (* 189-239 *)
    else if Dst =? IL_BGRA then Some (x4d3, Each 3 4 (swap3 ++ [(3, Opq)]))                (* 241-291 *)
    else if Dst =? IL_LUMINANCE then Some ((fun b => b / 3), Whole 3 1 [(0, Lum false false)])    (* 293-349 *)
    else if Dst =? IL_LUMINANCE_ALPHA then
      Some ((fun b => b / 3 * 2), Whole 3 2 [(0, Lum false false); (1, Opq)])              (* 351-412 *)
    else if Dst =? IL_ALPHA then Some ((fun b => b / 3), Fill same)                        (* 414-418 *)
    else None
  else if Src =? IL_RGBA then
    if Dst =? IL_BGRA then Some (same, Each 4 4 (swap3 ++ [(3, El 3)]))                    (* 431-501 *)
    else if Dst =? IL_RGB then Some (x3d4, Each 4 3 keep3)                                 (* 503-548 *)
    else if Dst =? IL_BGR then Some (x3d4, Each 4 3 swap3)                                 (* 550-595 *)
    else if Dst =? IL_LUMINANCE then Some ((fun b => b / 4), Whole 4 1 [(0, Lum false true)])     (* 597-653 *)
    else if Dst =? IL_LUMINANCE_ALPHA then
      Some ((fun b => b / 4 * 2), Whole 4 2 [(0, Lum false true); (1, El 3)])              (* 655-716 *)
    else if Dst =? IL_ALPHA then Some ((fun b => b / 4), Whole 4 1 [(0, El 3)])            (* 718-755 *)
    else None
  else if Src =? IL_BGR then
    if Dst =? IL_RGB then Some (same, Each 3 3 swap3)                                      (* 767-832 *)
    else if Dst =? IL_BGRA then Some (x4d3, Each 3 4 (keep3 ++ [(3, Opq)]))                (* 834-884 *)
    else if Dst =? IL_RGBA then Some (x4d3, Each 3 4 (swap3 ++ [(3, Opq)]))                (* 886-936 *)
    else if Dst =? IL_LUMINANCE then Some ((fun b => b / 3), Whole 3 1 [(0, Lum true true)])      (* 938-994 *)
    else if Dst =? IL_LUMINANCE_ALPHA then
      Some ((fun b => b / 3 * 2), Whole 3 2 [(0, Lum false false); (1, Opq)])              (* 996-1057 *)
    else if Dst =? IL_ALPHA then Some ((fun b => b / 3), Fill (fun b => b / 3))            (* 1059-1063 *)
    else None
  else if Src =? IL_BGRA then
    if Dst =? IL_RGBA then Some (same, Each 4 4 (swap3 ++ [(3, El 3)]))                    (* 1076-1146 *)
    else if Dst =? IL_BGR then Some (x3d4, Each 4 3 keep3)                                 (* 1148-1193 *)
    else if Dst =? IL_RGB then Some (x3d4, Each 4 3 swap3)                                 (* 1195-1240 *)
    else if Dst =? IL_LUMINANCE then Some ((fun b => b / 4), Whole 4 1 [(0, Lum true true)])      (* 1242-1298 *)
    else if Dst =? IL_LUMINANCE_ALPHA then
      Some ((fun b => b / 4 * 2), Whole 4 2 [(0, Lum false true); (1, El 3)])              (* 1300-1361 *)
    else if Dst =? IL_ALPHA then Some ((fun b => b / 4), Whole 4 1 [(0, El 3)])            (* 1363-1400 *)
    else None
  else if Src =? IL_LUMINANCE then
    if case Dst [IL_RGB; IL_BGR] then Some ((fun b => u32 (b * 3)), Each 1 3 grey3)        (* 1413-1460 *)
    else if case Dst [IL_RGBA; IL_BGRA] then Some ((fun b => u32 (b * 4)), Each 1 4 (grey3 ++ [(3, Opq)]))  (* 1462-1514 *)
    else if Dst =? IL_LUMINANCE_ALPHA then Some ((fun b => u32 (b * 2)), Whole 1 2 [(0, El 0); (1, Opq)])   (* 1516-1557 *)
    else if Dst =? IL_ALPHA then Some (same, Fill same)                                    (* 1559-1563 *)
    else None
  else if Src =? IL_LUMINANCE_ALPHA then
    if case Dst [IL_RGB; IL_BGR] then Some ((fun b => u32 (b / 2 * 3)), Each 2 3 grey3)    (* 1597-1644 *)
    else if case Dst [IL_RGBA; IL_BGRA] then Some ((fun b => u32 (b / 2 * 4)), Each 2 4 (grey3 ++ [(3, El 1)]))  (* 1646-1698 *)
    else if Dst =? IL_LUMINANCE then Some ((fun b => b / 2), Each 2 1 [(0, El 0)])         (* 1700-1736 *)
    else if Dst =? IL_ALPHA then Some ((fun b => b / 2), Whole 2 1 [(0, El 3)])            (* 1738-1775 *)
    else None
  else if Src =? IL_ALPHA then
    if case Dst [IL_RGB; IL_BGR] then Some ((fun b => u32 (b * 3)), Fill (fun b => u32 (b * 3)))  (* 1808-1828 *)
    else if case Dst [IL_RGBA; IL_BGRA] then
      Some ((fun b => u32 (b * 4)), Each 1 4 [(0, Nil); (1, Nil); (2, Nil); (3, El 0)])    (* 1830-1882 *)
    else if Dst =? IL_LUMINANCE_ALPHA then Some ((fun b => u32 (b * 2)), Whole 1 2 [(0, Nil); (1, El 0)])   (* 1884-1920 *)
    else None
  else None.

(** UCHAR_MAX, USHRT_MAX (also for IL_HALF, 204-211), UINT_MAX, 1.0f, 1.0 *)
Definition opq (Ty : Z) : list Z :=
  if Ty =? IL_HALF then [255; 255] else match opaque Ty with Some a => a | None => [] end.

(** 0.212671f, 0.715160f, 0.072169f, il_convbuff.cpp:39 *)
Definition LumFactor (c : Z) : Q :=
  val (rnd 24 (-149) (if c =? 0 then 212671 # 1000000 else if c =? 1 then 715160 # 1000000 else 72169 # 1000000)).

(** [Result += v * LumFactor[c]]: the product in single precision, the sum in float or double *)
Definition lum_add (dbl : bool) (acc : Q) (v c : Z) : Q :=
  let prod := val (rnd 24 (-149) (val (rnd 24 (-149) (inject_Z v)) * LumFactor c)) in
  if dbl then val (rnd 53 (-1074) (acc + prod)) else val (rnd 24 (-149) (acc + prod)).

(** The luminance of the integers [v0 v1 v2].  Truncated; the cast is undefined out of range. *)
Definition lum_int (rev dbl : bool) (n : nat) (v0 v1 v2 : Z) : res (list Z) :=
  let w c := if rev then 2 - c else c in
  let r := lum_add dbl (lum_add dbl (lum_add dbl 0 v0 (w 0)) v1 (w 1)) v2 (w 2) in
  if Qfloor r <? 2 ^ (8 * Z.of_nat n) then Ok (le n (Qfloor r)) else UB.

(** The luminance for each type; the sum of 16-bit and 8-bit values is always a float; half floats
    are summed as if they were integers (309-316).  [flum] stands for the sums of floats and
    doubles. *)
Definition lum_elem (flum : bool -> bool -> Z -> list Z -> list Z -> list Z -> list Z) (rev dbl : bool) (Ty : Z) (a b c : list Z) : res (list Z) :=
  if case Ty bytes_t then lum_int rev false 1 (unle a) (unle b) (unle c)
  else if case Ty [IL_UNSIGNED_SHORT; IL_SHORT; IL_HALF] then lum_int rev false 2 (unle a) (unle b) (unle c)
  else if case Ty ints_t then lum_int rev dbl 4 (unle a) (unle b) (unle c)
  else Ok (flum rev dbl Ty a b c).

(** the value of a cell for the pixel that starts at element [i] of the source *)
Definition cell_val (flum : bool -> bool -> Z -> list Z -> list Z -> list Z -> list Z) (Ty n : Z) (src : list Z) (i : Z) (c : cell) : res (list Z) :=
  match c with
  | El k => rde src n (u32 (i + k))
  | Opq => Ok (opq Ty)
  | Nil => Ok (repeat 0 (Z.to_nat n))
  | Lum rev dbl => let! a := rde src n i in let! b := rde src n (u32 (i + 1)) in let! c := rde src n (u32 (i + 2)) in
                   lum_elem flum rev dbl Ty a b c
  end.

Fixpoint put_cells flum (Ty n : Z) (src : list Z) (i j : Z) (ws : list (Z * cell)) (d : list Z) : res (list Z) :=
  match ws with
  | [] => Ok d
  | (o, c) :: ws => let! v := cell_val flum Ty n src i c in let! d := wre d n (u32 (j + o)) v in put_cells flum Ty n src i j ws d
  end.

Definition run flum (Ty n NumPix : Z) (src : list Z) (t : todo) (d : list Z) : res (list Z) :=
  match t with
  | Fill f => memset d 0 0 (f (u32 (NumPix * n)))
  | Each s t ws => stride2 NumPix s t (fun i j => put_cells flum Ty n src i j ws) d
  | Whole s t ws => loop 0 (NumPix / s) (fun k => put_cells flum Ty n src (u32 (k * s)) (u32 (k * t)) ws) d
  end.

(** [pal] stands for the conversion of colour-indexed data (76-111), which calls iConvertPalette. *)
Definition ilConvertBuffer fcast flum (pal : list Z -> res (option (list Z) * list Z)) (alloc : allocator)
    (SizeOfData Src Dst SrcTy DstTy : Z) (Buffer : list Z) : res (option (list Z) * list Z) :=
  if SizeOfData =? 0 then Ok (None, [IL_INVALID_PARAM])                         (* 51-54 *)
  else
    let! (d, e) := iSwitchTypes fcast alloc SizeOfData SrcTy DstTy Buffer in    (* 56 *)
    match d with
    | None => Ok (None, e)
    | Some Data =>
        let n := ilGetBpcType DstTy in
        let NumPix := SizeOfData / ilGetBpcType SrcTy in
        if Dst =? Src then                                                      (* 63-73 *)
          match alloc (u32 (NumPix * n)) with
          | None => Ok (None, [IL_OUT_OF_MEMORY])
          | Some new => let! new := memcpy new 0 Data 0 (u32 (NumPix * n)) in Ok (Some new, [])
          end
        else if Src =? IL_COLOUR_INDEX then pal Buffer
        else if case Src [IL_RGB; IL_RGBA; IL_BGR; IL_BGRA; IL_LUMINANCE; IL_LUMINANCE_ALPHA; IL_ALPHA] then
          match plan Src Dst with
          | None => Ok (None, [IL_INVALID_CONVERSION])
          | Some (size, t) =>
              match alloc (size (u32 (NumPix * n))) with
              | None => Ok (None, [IL_OUT_OF_MEMORY])
              | Some new => let! new := run flum DstTy n NumPix Data t new in Ok (Some new, [])
              end
          end
        else Ok (None, [])
    end.
