(** What a client of the name machine knows, and which histories the theorems of StackProps.v cover.

    The [view] is computed from the calls made and the values they returned only; nothing in it
    looks at the library's state. *)
From Coq Require Import ZArith List Bool Lia.
From Verif Require Import Base Enums Utility Stack.
Import ListNotations.
Open Scope Z_scope.

Definition mem (n : Z) (l : list Z) : bool := existsb (Z.eqb n) l.
Definition minus (l d : list Z) : list Z := filter (fun n => negb (mem n d)) l.
Definition positive (l : list Z) : list Z := filter (fun n => 0 <? n) l.

Record view := mkView {
  v_on : bool;          (* between ilInit and ilShutDown *)
  v_live : list Z;      (* names created (0 and 1 by ilInit) and not deleted since *)
  v_dead : list Z;      (* names passed to ilDeleteImages and not handed out since *)
  v_cur : Z;            (* the bound name *)
  v_base : bool;        (* the current image is the bound name's own image, not a sub-image *)
  v_sync : bool;        (* the current image belongs to the bound name: false after ilCloneCurImage *)
  v_top : Z }.          (* an upper bound of the names in use *)

Definition v0 : view := mkView false [] [] 0 true true 0.

(** the view after call [o] returned the values [r] *)
Definition after (v : view) (o : op) (r : list Z) : view :=
  match o with
  | Init => if v_on v then v else mkView true [0; 1] [] 1 true true 2
  | ShutDown => mkView false [] [] 0 true true 0
  | Gen n => mkView (v_on v) (r ++ v_live v) (minus (v_dead v) r) (v_cur v) (v_base v) (v_sync v) (v_top v + Z.max 0 n)
  | Bind n => mkView (v_on v) (n :: v_live v) (v_dead v) n true true (Z.max (v_top v) (n + 1))
  | Delete l =>
      let gone := mem (v_cur v) (positive l) in
      mkView (v_on v) (minus (v_live v) (positive l)) (positive l ++ v_dead v) (if gone then 0 else v_cur v)
        (v_base v || gone) (v_sync v) (v_top v)
  | Active _ n => mkView (v_on v) (v_live v) (v_dead v) (v_cur v)
        (v_base v && ((n =? 0) || mem 0 r)) (v_sync v) (v_top v)
  | RegFaces _ | RegMips _ | RegImages _ => mkView (v_on v) (v_live v) (v_dead v) (v_cur v) true true (v_top v)
  | Clone => match r with
             | [id] => if id =? 0 then v
                       else mkView (v_on v) (id :: v_live v) (minus (v_dead v) r) id false false (v_top v + 1)
             | _ => v
             end
  | Copy n => if mem 1 r then mkView (v_on v) (n :: v_live v) (v_dead v) (v_cur v) true true (Z.max (v_top v) (n + 1)) else v
  | _ => v
  end.
Fixpoint view_of (v : view) (h : list op) (rs : list (list Z)) : view :=
  match h, rs with
  | o :: h', r :: rs' => view_of (after v o r) h' rs'
  | _, _ => v
  end.

(** bytes of an image; zero dimensions count as one (il_devil.cpp:25-27) *)
Definition dim (n : Z) : Z := if n =? 0 then 1 else n.
Definition bytes_of (w h d bpp typ : Z) : Z := dim w * dim h * dim d * bpp * ilGetBpcType typ.
Definition big (n : Z) (data : option (list Z)) : Prop := forall src, data = Some src -> n <= zlen src.
(** at most 2^28 names *)
Definition name_limit : Z := 268435456.

(** The calls covered.  Each restriction is needed: StackProps.v refutes the unrestricted claims. *)
Definition legal (v : view) (s : st) (o : op) : Prop :=
  match o with
  | Init | ShutDown => True
  | IsImage n => 0 <= n
  | _ => v_on v = true
  end /\
  match o with
  | Gen n => v_top v + Z.max 0 n <= name_limit
  | Bind n => 0 <= n < name_limit /\ ~ In n (v_dead v)
  | Delete l => v_sync v = true
  | Active _ n | RegFaces n | RegMips n | RegImages n => 0 <= n
  | SubImage _ n => 0 <= n
  | TexImage w h d bpp _ typ data | TexSurface w h d bpp _ typ data =>
      0 <= w /\ 0 <= h /\ 0 <= d /\ 0 <= bpp /\ ilGetBpcType typ <> 0 /\ big (bytes_of w h d bpp typ) data
  | SetData data => forall a i, cur s = Some a -> ims s a = Some i -> big (hSize (hd i)) data
  | RegPal pal size _ => 0 <= size /\ big size pal
  | Copy n => 0 <= n < name_limit /\ ~ In n (v_dead v) /\ v_base v = true /\ v_sync v = true /\ n <> v_cur v
  | Clone => v_top v + 1 <= name_limit
  | _ => True
  end.

(** the calls that are not safe when an allocation fails (refuted in StackProps.v) *)
Definition needs_memory (o : op) : Prop :=
  match o with RegPal _ _ _ | RegFaces _ | RegMips _ | RegImages _ | Copy _ => True | _ => False end.

(** [legal] all along a run from [s] *)
Fixpoint legal_from (A : oracle) (v : view) (s : st) (h : list op) : Prop :=
  match h with
  | [] => True
  | o :: h' => legal v s o /\ forall r s', step A o s = Ok (r, s') -> legal_from A (after v o r) s' h'
  end.

(** For C07: palettes are given a size and a type, and no image gets both faces and mipmaps. *)
Definition bound_image (s : st) : option Z :=
  match stk s with
  | Some (c, f) => let n := match cur s with Some _ => cnm s | None => 0 end in if (0 <=? n) && (n <? c) then f n else None
  | None => None
  end.
Definition tight (s : st) (o : op) : Prop :=
  match o with
  | RegPal _ size typ => 0 < size /\ typ <> IL_PAL_NONE
  | RegFaces _ => forall a i, bound_image s = Some a -> ims s a = Some i -> iMips i = None
  | RegMips _ => forall a i, bound_image s = Some a -> ims s a = Some i -> iFaces i = None
  | SubImage t _ => sub_kind t = Some LMips -> forall a i, cur s = Some a -> ims s a = Some i -> iFaces i = None
  | _ => True
  end.
Fixpoint tight_from (A : oracle) (s : st) (h : list op) : Prop :=
  match h with
  | [] => True
  | o :: h' => tight s o /\ forall r s', step A o s = Ok (r, s') -> tight_from A s' h'
  end.

(** ** What a client can see of an image.  [look s n path] is the image reached from name [n] by
    following sub-image links: its scalar attributes, pixels and palette. *)
Record seen := mkSeen { sn_hdr : hdr; sn_data : option (list Z); sn_pal : option (list Z) }.
Definition table (s : st) (n : Z) : option Z :=
  match stk s with Some (c, f) => if (0 <=? n) && (n <? c) then f n else None | None => None end.
Definition bytes_at (s : st) (p : option Z) : option (list Z) := match p with Some b => bks s b | None => None end.
Definition see (s : st) (a : Z) : option seen :=
  match ims s a with Some i => Some (mkSeen (hd i) (bytes_at s (iData i)) (bytes_at s (iPal i))) | None => None end.
Fixpoint locate (s : st) (p : option Z) (path : list lk) : option Z :=
  match path with
  | [] => p
  | k :: path => match p with
                 | Some a => match ims s a with Some i => locate s (getl k i) path | None => None end
                 | None => None
                 end
  end.
Definition look (s : st) (n : Z) (path : list lk) : option seen :=
  match locate s (table s n) path with Some a => see s a | None => None end.

(** the names whose images a call may change or remove; every other image in use stays as it is *)
Definition touched (v : view) (o : op) : list Z :=
  match o with
  | Delete l => positive l
  | TexImage _ _ _ _ _ _ _ | TexSurface _ _ _ _ _ _ _ | SetData _ | RegPal _ _ _ | SubImage _ _
  | RegFaces _ | RegMips _ | RegImages _ | SetDur _ | Copy _ => [v_cur v]
  | _ => []
  end.

(** the images behind [a] along the links [k], to the end of the chain *)
Fixpoint links (s : st) (k : lk) (a : Z) (l : list Z) : Prop :=
  match l with
  | [] => exists i, ims s a = Some i /\ getl k i = None
  | b :: l => exists i, ims s a = Some i /\ getl k i = Some b /\ links s k b l
  end.
