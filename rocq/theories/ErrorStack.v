(** Model of src-IL/src/il_error.cpp: the error stack. *)
From Coq Require Import ZArith List.
From Verif Require Import Base Enums.
Import ListNotations.
Open Scope Z_scope.

(** src-IL/src/il_error.cpp:17 *)
Definition IL_ERROR_STACK_SIZE : Z := 32.

(** src-IL/src/il_error.cpp:20-21: globals [ilErrorNum] and [ilErrorPlace] *)
Record est := { e_num : list Z; e_place : Z }.

(** src-IL/src/il_error.cpp:20-21: static initialisation (array zeroed, place -1) *)
Definition est_init : est := {| e_num := repeat 0 32; e_place := -1 |}.

(** src-IL/src/il_error.cpp:26-40 [ilSetError].  [ilErrorPlace++] cannot overflow [int]
    because it is at most 31 before. *)
Definition ilSetError (e : Z) (s : est) : res est :=
  let place := e_place s + 1 in
  let! s1 :=
    if IL_ERROR_STACK_SIZE <=? place then
      let! a := loop 0 (IL_ERROR_STACK_SIZE - 2)
                  (fun i a => let! v := rd a (i + 1) in wr a i v) (e_num s) in
      Ok {| e_num := a; e_place := IL_ERROR_STACK_SIZE - 1 |}
    else Ok {| e_num := e_num s; e_place := place |} in
  let! a := wr (e_num s1) (e_place s1) e in
  Ok {| e_num := a; e_place := e_place s1 |}.

(** src-IL/src/il_error.cpp:44-56 [ilGetError] *)
Definition ilGetError (s : est) : res (Z * est) :=
  if 0 <=? e_place s then
    let! v := rd (e_num s) (e_place s) in
    Ok (v, {| e_num := e_num s; e_place := e_place s - 1 |})
  else Ok (IL_NO_ERROR, s).

(** A client-visible history: the library raises an error, or the client asks for one. *)
Inductive eop := Raise (e : Z) | Get.

(** Run a history; the result lists what the successive [ilGetError] calls returned. *)
Fixpoint erun (h : list eop) (s : est) : res (list Z * est) :=
  match h with
  | [] => Ok ([], s)
  | Raise e :: h' => let! s' := ilSetError e s in erun h' s'
  | Get :: h' =>
      let! (v, s') := ilGetError s in
      let! (vs, s'') := erun h' s' in
      Ok (v :: vs, s'')
  end.
