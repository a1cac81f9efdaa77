(** Comparing the bound image with another name, in the name machine of Stack.v. *)
From Coq Require Import ZArith List Bool Lia.
From Verif Require Import Base Enums Stack Ilu.
Import ListNotations.
Open Scope Z_scope.

(** DevIL/src-ILU/src/ilu_manip.cpp:675-680: the bytes, from [i], for [n] more bytes; the first
    difference ends the loop.  An index beyond either block is [UB]. *)
Fixpoint same_bytes (n : nat) (i : Z) (x y : list Z) : res bool :=
  match n with
  | O => Ok true
  | S n => let! p := rd x i in let! q := rd y i in
           if negb (p =? q) then Ok false else same_bytes n (i + 1) x y
  end.
(** ilu_manip.cpp:662-668: the attributes compared, in the order of the code *)
Definition differ (x y : hdr) : bool :=
  negb (hBpp x =? hBpp y) || negb (hD x =? hD y) || negb (hFmt x =? hFmt y) || negb (hH x =? hH y) ||
  negb (hOrg x =? hOrg y) || negb (hTyp x =? hTyp y) || negb (hW x =? hW y).
(** one of the two Data pointers dereferenced; NULL is [UB] *)
Definition data_of (i : imb) : M (list Z) :=
  match iData i with None => ub | Some b => get_blk b end.

(** ilu_manip.cpp:642-684 [iluCompareImage] *)
Definition iluCompareImage (A : oracle) (Comp : Z) : M bool :=
  do mine <- get cur;                                              (* 648 *)
  do OrigName <- ilGetCurName;                                     (* 649 *)
  if OrigName =? Comp then ret true else                   (* 652-653 *)
  do ok <- (if non_null mine then ilIsImage Comp else ret false);
  if negb ok then exec raise ILU_ILLEGAL_OPERATION; ret false else   (* 655-658 *)
  exec ilBindImage A Comp;                                         (* 660 *)
  do other <- get cur;                                             (* 661 *)
  match other, mine with
  | Some o, Some c =>
      do oi <- get_im o; do ci <- get_im c;
      if differ (hd oi) (hd ci) then exec ilBindImage A OrigName; ret false else   (* 664-672 *)
      do same <- (if hSize (hd ci) <=? 0 then ret true
                  else do x <- data_of oi; do y <- data_of ci;
                       fun s => let! b := same_bytes (Z.to_nat (hSize (hd ci))) 0 x y in Ok (b, s));
      exec ilBindImage A OrigName;                                 (* 682 *)
      ret same
  | _, _ => ub
  end.
