(** The registry of user-supplied loaders (src-IL/src/il_register.cpp).

    A node of the linked list is its extension (a string without the terminating zero) and the
    registered procedure, an opaque number; the list of nodes is a Gallina list.  The saver registry
    (ilRegisterSave, ilRemoveSave, iRegisterSave, :59-88,:120-146,:197-221) has the same text.
    Simplification: allocation does not fail. *)
From Coq Require Import ZArith List Lia Bool String.
From Verif Require Import Base Enums Strings.
Import ListNotations.
Open Scope Z_scope.
Open Scope list_scope.

Definition node := (list Z * Z)%type.

(** !iStrCmp(a, b) *)
Definition match_ext (a b : list Z) : res bool := let! c := iStrCmp (cstr a) 0 (cstr b) in Ok (c =? 0).

(* il_register.cpp:31-38: the search for an existing entry, which starts at the second node *)
Fixpoint registered (l : list node) (Ext : list Z) : res bool :=
  match l with
  | [] => Ok false
  | (e, _) :: l => let! b := match_ext e Ext in if b then Ok true else registered l Ext
  end.

(* il_register.cpp:26-56 ilRegisterLoad *)
Definition ilRegisterLoad (Ext : list Z) (Load : Z) (LoadProcs : list node) : res (bool * list node) :=
  let! found := registered (tl LoadProcs) Ext in
  if found then Ok (true, LoadProcs) else Ok (true, LoadProcs ++ [(Ext, Load)]).

(* il_register.cpp:91-117 ilRemoveLoad *)
Fixpoint ilRemoveLoad (Ext : list Z) (LoadProcs : list node) : res (bool * list node) :=
  match LoadProcs with
  | [] => Ok (false, [])
  | (e, f) :: l =>
      let! b := match_ext Ext e in
      if b then Ok (true, l)
      else let! (r, l) := ilRemoveLoad Ext l in Ok (r, (e, f) :: l)
  end.

(* il_register.cpp:150-170 ilRemoveRegistered, the loaders *)
Definition ilRemoveRegistered (LoadProcs : list node) : list node := [].

(* il_register.cpp:173-196 iRegisterLoad: the procedure that is called for a file name, if any *)
Fixpoint first_match (FileName : list Z) (off : Z) (l : list node) : res (option Z) :=
  match l with
  | [] => Ok None
  | (e, f) :: l => let! c := iStrCmp FileName off (cstr e) in if c =? 0 then Ok (Some f) else first_match FileName off l
  end.
Definition iRegisterLoad (FileName : list Z) (LoadProcs : list node) : res (option Z) :=
  let! e := iGetExtension FileName in
  match e with
  | None => Ok None
  | Some off => first_match FileName off LoadProcs
  end.

Inductive reg_op := Register (Ext : list Z) (Load : Z) | Remove (Ext : list Z) | RemoveAll.
Definition reg_step (o : reg_op) (l : list node) : res (list node) :=
  match o with
  | Register e f => let! (_, l) := ilRegisterLoad e f l in Ok l
  | Remove e => let! (_, l) := ilRemoveLoad e l in Ok l
  | RemoveAll => Ok (ilRemoveRegistered l)
  end.
Fixpoint reg_run (os : list reg_op) (l : list node) : res (list node) :=
  match os with [] => Ok l | o :: os => let! l := reg_step o l in reg_run os l end.
