(** Replacing a colour: iluReplaceColour (src-ILU/src/ilu_manip.cpp:688-755). *)
From Coq Require Import ZArith List Lia Bool QArith Qround Qabs.
From Verif Require Import Base Enums Utility Image Elem Clear.
Import ListNotations.
Open Scope Z_scope.

(** 701-702: the tolerance, clamped *)
Definition clamped (tol : Q) : Q := if Qle_bool tol 1 && Qle_bool (- (1)) tol then tol else 1%Q.
(** 706: Tolerance <= FLT_EPSILON && Tolerance >= 0 *)
Definition tiny (tol : Q) : bool := Qle_bool tol (1 # 8388608) && Qle_bool 0 tol.

(** 719: the square root of an integer below 2^24, cut to an integer: correctly rounded, it does not reach the next
    integer *)
Definition distance (a b c : Z) : Z := Z.sqrt (a * a + b * b + c * c).

(** 713-726 and 727-740: a pixel at [i]; [cl] is the clear colour, [R], [G], [B] go to the channels [r], 1, [b] *)
Definition replace3 (cl : list Z) (T r b R G B i : Z) (d : list Z) : res (list Z) :=
  let! x := rd d (u32 i) in let! c0 := rd cl 0 in
  let! y := rd d (u32 (i + 1)) in let! c1 := rd cl 1 in
  let! z := rd d (u32 (i + 2)) in let! c2 := rd cl 2 in
  let D := distance (x - c0) (y - c1) (z - c2) in
  if (- T <=? D) && (D <=? T) then
    let! d := wr d (u32 (i + r)) R in
    let! d := wr d (u32 (i + 1)) G in
    wr d (u32 (i + b)) B
  else Ok d.
(** 741-749 *)
Definition replace1 (cl : list Z) (T B i : Z) (d : list Z) : res (list Z) :=
  let! x := rd d (u32 i) in let! c0 := rd cl 0 in
  if (- T <=? x - c0) && (x - c0 <=? T) then wr d (u32 i) B else Ok d.

(** iluReplaceColour, ilu_manip.cpp:688-755, on a current image; [clear] is the clear colour, [stk] the local
    array ClearCol.  [tv] is 703: the absolute value of the tolerance times 255, cut to an integer; whether the product
    is rounded to a float depends on the overload of fabs. *)
Definition iluReplaceColour (fenc denc : Z -> list Z) (tv : Q -> Z) (clear : colour) (stk : list Z) (R G B : Z) (tol : Q) (im : img) : res (bool * img) :=
  let! (cl, _) := ilGetClear fenc denc clear stk IL_RGBA IL_UNSIGNED_BYTE in
  let tol := clamped tol in
  let T := tv tol in
  if tiny tol then Ok (true, im)
  else
    let body := if case (Format im) [IL_RGB; IL_RGBA] then Some (replace3 cl T 0 2 R G B)
                else if case (Format im) [IL_BGR; IL_BGRA] then Some (replace3 cl T 2 0 R G B)
                else if case (Format im) [IL_LUMINANCE; IL_LUMINANCE_ALPHA] then Some (replace1 cl T B)
                else None in
    match body with
    | None => Ok (true, im)
    | Some body =>
        match Data im with
        | None => if SizeOfData im =? 0 then Ok (true, im) else UB
        | Some d => let! d := stride 0 (SizeOfData im) (Bpp im) body d in Ok (true, with_Data im (Some d))
        end
    end.
