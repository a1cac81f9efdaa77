(** The image-name machine: model of src-IL/src/il_stack.cpp, of the image definition and copy
    functions of src-IL/src/il_devil.cpp, of the chain registration functions of
    src-IL/src/il_register.cpp and of [ilDefaultImage] (src-IL/src/il_manip.cpp), over an
    explicit heap.

    Rendering of memory.
    - Image structures and byte blocks live in two partial maps indexed by addresses; addresses
      are handed out in increasing order and never reused (the code compares pointers only with
      NULL in the functions modelled here, so reuse could only hide errors).
    - Accessing or freeing an address that is not allocated is [UB].
    - [malloc] is an oracle [A]: purpose, number of the request, size; [None] is failure,
      [Some l] the contents of the fresh block.
    - The array ImageStack is a capacity (in entries) and its entries; the FreeNames list is
      the list of its names (one allocated node per element).
    - Errors: [errs] lists the codes raised so far, newest first (the bounded stack that
      ilGetError reads is modelled in ErrorStack.v).
    Not represented: [OnExit]/[atexit] registration and the write-only [ParentImage]. *)
From Coq Require Import ZArith List Bool.
From Verif Require Import Base Enums Utility.
Import ListNotations.
Open Scope Z_scope.

(** include/IL/devil_internal_exports.h:50-90: scalar members of [ILimage] *)
Record hdr := mkHdr {
  hW : Z; hH : Z; hD : Z; hBpp : Z; hBpc : Z; hBps : Z; hSize : Z; hPlane : Z;
  hFmt : Z; hTyp : Z; hOrg : Z; hPalSize : Z; hPalType : Z; hDur : Z; hCube : Z;
  hAnimSize : Z; hProfSize : Z; hOffX : Z; hOffY : Z; hDxtFmt : Z; hDxtSize : Z }.

(** its pointer members: links to images, and blocks of bytes *)
Inductive lk := LNext | LFaces | LMips | LLayers.
Inductive bk := BData | BPal | BAnim | BProf | BDxtc.
Record imb := mkImb { hd : hdr; iNext : option Z; iFaces : option Z; iMips : option Z; iLayers : option Z;
  iData : option Z; iPal : option Z; iAnim : option Z; iProf : option Z; iDxtc : option Z }.

Definition getl (k : lk) (i : imb) : option Z :=
  match k with LNext => iNext i | LFaces => iFaces i | LMips => iMips i | LLayers => iLayers i end.
Definition putl (k : lk) (v : option Z) (i : imb) : imb :=
  match k with
  | LNext => mkImb (hd i) v (iFaces i) (iMips i) (iLayers i) (iData i) (iPal i) (iAnim i) (iProf i) (iDxtc i)
  | LFaces => mkImb (hd i) (iNext i) v (iMips i) (iLayers i) (iData i) (iPal i) (iAnim i) (iProf i) (iDxtc i)
  | LMips => mkImb (hd i) (iNext i) (iFaces i) v (iLayers i) (iData i) (iPal i) (iAnim i) (iProf i) (iDxtc i)
  | LLayers => mkImb (hd i) (iNext i) (iFaces i) (iMips i) v (iData i) (iPal i) (iAnim i) (iProf i) (iDxtc i)
  end.
Definition getb (k : bk) (i : imb) : option Z :=
  match k with BData => iData i | BPal => iPal i | BAnim => iAnim i | BProf => iProf i | BDxtc => iDxtc i end.
Definition putb (k : bk) (v : option Z) (i : imb) : imb :=
  match k with
  | BData => mkImb (hd i) (iNext i) (iFaces i) (iMips i) (iLayers i) v (iPal i) (iAnim i) (iProf i) (iDxtc i)
  | BPal => mkImb (hd i) (iNext i) (iFaces i) (iMips i) (iLayers i) (iData i) v (iAnim i) (iProf i) (iDxtc i)
  | BAnim => mkImb (hd i) (iNext i) (iFaces i) (iMips i) (iLayers i) (iData i) (iPal i) v (iProf i) (iDxtc i)
  | BProf => mkImb (hd i) (iNext i) (iFaces i) (iMips i) (iLayers i) (iData i) (iPal i) (iAnim i) v (iDxtc i)
  | BDxtc => mkImb (hd i) (iNext i) (iFaces i) (iMips i) (iLayers i) (iData i) (iPal i) (iAnim i) (iProf i) v
  end.
Definition puth (h : hdr) (i : imb) : imb :=
  mkImb h (iNext i) (iFaces i) (iMips i) (iLayers i) (iData i) (iPal i) (iAnim i) (iProf i) (iDxtc i).

(** The program state: heap and the globals of il_stack.cpp:19-43, 603 *)
Record st := mkSt {
  ims : Z -> option imb;          (* image structures *)
  bks : Z -> option (list Z);     (* byte blocks *)
  nxt : Z;                        (* next address *)
  tk : Z;                         (* number of allocation requests so far *)
  stk : option (Z * (Z -> option Z)); (* ImageStack: capacity and entries *)
  ssz : Z;                        (* StackSize *)
  lst : Z;                        (* LastUsed *)
  fre : list Z;                   (* FreeNames *)
  cur : option Z;                 (* iCurImage *)
  cnm : Z;                        (* CurName *)
  ini : bool;                     (* IsInit *)
  errs : list Z }.

Definition set_ims f s := mkSt f (bks s) (nxt s) (tk s) (stk s) (ssz s) (lst s) (fre s) (cur s) (cnm s) (ini s) (errs s).
Definition set_bks f s := mkSt (ims s) f (nxt s) (tk s) (stk s) (ssz s) (lst s) (fre s) (cur s) (cnm s) (ini s) (errs s).
Definition set_nxt f s := mkSt (ims s) (bks s) f (tk s) (stk s) (ssz s) (lst s) (fre s) (cur s) (cnm s) (ini s) (errs s).
Definition set_tk f s := mkSt (ims s) (bks s) (nxt s) f (stk s) (ssz s) (lst s) (fre s) (cur s) (cnm s) (ini s) (errs s).
Definition set_stk f s := mkSt (ims s) (bks s) (nxt s) (tk s) f (ssz s) (lst s) (fre s) (cur s) (cnm s) (ini s) (errs s).
Definition set_ssz f s := mkSt (ims s) (bks s) (nxt s) (tk s) (stk s) f (lst s) (fre s) (cur s) (cnm s) (ini s) (errs s).
Definition set_lst f s := mkSt (ims s) (bks s) (nxt s) (tk s) (stk s) (ssz s) f (fre s) (cur s) (cnm s) (ini s) (errs s).
Definition set_fre f s := mkSt (ims s) (bks s) (nxt s) (tk s) (stk s) (ssz s) (lst s) f (cur s) (cnm s) (ini s) (errs s).
Definition set_cur f s := mkSt (ims s) (bks s) (nxt s) (tk s) (stk s) (ssz s) (lst s) (fre s) f (cnm s) (ini s) (errs s).
Definition set_cnm f s := mkSt (ims s) (bks s) (nxt s) (tk s) (stk s) (ssz s) (lst s) (fre s) (cur s) f (ini s) (errs s).
Definition set_ini f s := mkSt (ims s) (bks s) (nxt s) (tk s) (stk s) (ssz s) (lst s) (fre s) (cur s) (cnm s) f (errs s).
Definition set_errs f s := mkSt (ims s) (bks s) (nxt s) (tk s) (stk s) (ssz s) (lst s) (fre s) (cur s) (cnm s) (ini s) f.

(** il_stack.cpp:19-43, 603: static initialisation *)
Definition st0 : st := mkSt (fun _ => None) (fun _ => None) 1 0 None 0 0 [] None 0 false [].

Definition fup {B} (f : Z -> B) (a : Z) (v : B) : Z -> B := fun x => if x =? a then v else f x.

(** Computations *)
Definition M (A : Type) : Type := st -> res (A * st).
Definition ret {A} (a : A) : M A := fun s => Ok (a, s).
Definition bindM {A B} (m : M A) (k : A -> M B) : M B := fun s => let! (a, s') := m s in k a s'.
Definition ub {A} : M A := fun _ => UB.
Definition mod_ (f : st -> st) : M unit := fun s => Ok (tt, f s).
Definition get {A} (f : st -> A) : M A := fun s => Ok (f s, s).
Notation "'do' x <- m ; k" := (bindM m (fun x => k))
  (at level 200, x pattern, m at level 100, k at level 200, right associativity).
Notation "'exec' m ; k" := (bindM m (fun _ => k)) (at level 200, m at level 100, k at level 200, right associativity).

(** What an allocation is for *)
Inductive what := WStruct | WBytes | WTable | WName.
Definition oracle := what -> Z -> Z -> option (list Z).

Section Machine.
Variable A : oracle.

(** il_error.cpp:26 [ilSetError] *)
Definition raise (e : Z) : M unit := mod_ (fun s => set_errs (e :: errs s) s).

(** il_alloc.cpp:88-94 [ialloc]: contents of the fresh block *)
Definition ialloc (w : what) (n : Z) : M (option (list Z)) := fun s =>
  let s1 := set_tk (tk s + 1) s in
  match A w (tk s) n with
  | Some l => Ok (Some l, s1)
  | None => Ok (None, set_errs (IL_OUT_OF_MEMORY :: errs s) s1)
  end.

(** a byte block *)
Definition new_blk (n : Z) : M (option Z) :=
  do r <- ialloc WBytes n;
  match r with
  | None => ret None
  | Some l => fun s => Ok (Some (nxt s), set_nxt (nxt s + 1) (set_bks (fup (bks s) (nxt s) (Some l)) s))
  end.

(** il_alloc.cpp:96-102 [ifree] of a byte block; NULL is ignored *)
Definition free_blk (p : option Z) : M unit := fun s =>
  match p with
  | None => Ok (tt, s)
  | Some b => match bks s b with
              | None => UB
              | Some _ => Ok (tt, set_bks (fup (bks s) b None) s)
              end
  end.
(** [ifree] of an image structure *)
Definition free_im (a : Z) : M unit := fun s =>
  match ims s a with
  | None => UB
  | Some _ => Ok (tt, set_ims (fup (ims s) a None) s)
  end.
Definition get_im (a : Z) : M imb := fun s =>
  match ims s a with None => UB | Some i => Ok (i, s) end.
Definition upd_im (a : Z) (f : imb -> imb) : M unit := fun s =>
  match ims s a with None => UB | Some i => Ok (tt, set_ims (fup (ims s) a (Some (f i))) s) end.
Definition get_blk (b : Z) : M (list Z) := fun s =>
  match bks s b with None => UB | Some l => Ok (l, s) end.
Definition put_blk (b : Z) (l : list Z) : M unit := fun s =>
  match bks s b with None => UB | Some _ => Ok (tt, set_bks (fup (bks s) b (Some l)) s) end.

(** memcpy(block [b], [src], n) *)
Definition copy_in (b : Z) (src : list Z) (n : Z) : M unit :=
  do d <- get_blk b;
  match memcpy d 0 src 0 n with Ok d' => put_blk b d' | UB => ub | Fuel => fun _ => Fuel end.

(** ImageStack[n]; a NULL ImageStack or an index beyond the block is [UB] *)
Definition slot (n : Z) : M (option Z) := fun s =>
  match stk s with
  | None => UB
  | Some (c, f) => if (0 <=? n) && (n <? c) then Ok (f n, s) else UB
  end.
Definition set_slot (n : Z) (p : option Z) : M unit := fun s =>
  match stk s with
  | None => UB
  | Some (c, f) => if (0 <=? n) && (n <? c) then Ok (tt, set_stk (Some (c, fup f n p)) s) else UB
  end.

Definition non_null (p : option Z) : bool := match p with Some _ => true | None => false end.

(** il_stack.cpp:553-571 [ilRecalloc] as used by il_stack.cpp:581-600 [iEnlargeStack]: the
    sizes are truncated to 32 bits; entries are 8 bytes. *)
Definition iEnlargeStack : M bool :=
  do old <- get stk; do n <- get ssz;
  let oldsize := u32 (n * 8) in
  let newsize := u32 ((n + 1024) * 8) in
  do r <- ialloc WTable newsize;
  match r with
  | None => exec mod_ (set_stk None); ret false
  | Some _ =>
      let copy := Z.min oldsize newsize / 8 in
      match old with
      | Some (c, f) =>
          if c <? copy then ub
          else exec mod_ (set_stk (Some (newsize / 8, fun i => if i <? copy then f i else None)));
               exec mod_ (set_ssz (u32 (n + 1024))); ret true
      | None =>
          exec mod_ (set_stk (Some (newsize / 8, fun _ => None)));
          exec mod_ (set_ssz (u32 (n + 1024))); ret true
      end
  end.

(** il_devil.cpp:19-58 [ilInitImage] on an allocated structure; [data] is the caller's buffer *)
Definition ilInitImage (a W H D bpp fmt typ : Z) (data : option (list Z)) : M bool :=
  let bpc := ilGetBpcType typ in
  if bpc =? 0 then exec raise IL_INVALID_PARAM; ret false
  else
    let W := if W =? 0 then 1 else W in
    let H := if H =? 0 then 1 else H in
    let D := if D =? 0 then 1 else D in
    let bps := u32 (W * bpp * bpc) in
    let plane := u32 (bps * H) in
    let size := u32 (plane * D) in
    exec upd_im a (fun _ => mkImb
         (mkHdr W H D bpp bpc bps size plane fmt typ IL_ORIGIN_LOWER_LEFT 0 IL_PAL_NONE 0 0 0 0 0 0 IL_DXT_NO_COMP 0)
         None None None None None None None None None);
    do b <- new_blk size;
    match b with
    | None => ret false
    | Some b0 =>
        exec upd_im a (putb BData b);
        match data with
        | None => ret true
        | Some src => exec copy_in b0 src size; ret true
        end
    end.

(** il_devil.cpp:63-85 [ilNewImage]; a structure is created by the memset in [ilInitImage].
    With a channel size that no type has, [ilInitImage] fails before the memset and the
    indeterminate member Data is read: [UB]. *)
Definition sizeof_ILimage : Z := 192.
Definition ilNewImage (W H D bpp bpc : Z) : M (option Z) :=
  if (bpp =? 0) || (4 <? bpp) then ret None
  else
    do r <- ialloc WStruct sizeof_ILimage;
    match r with
    | None => ret None
    | Some _ =>
        if ilGetBpcType (ilGetTypeBpc bpc) =? 0 then ub
        else
          do a <- get nxt;
          exec mod_ (fun s => set_nxt (a + 1) (set_ims (fup (ims s) a (Some (mkImb
            (mkHdr 0 0 0 0 0 0 0 0 0 0 0 0 0 0 0 0 0 0 0 0 0) None None None None None None None None None))) s));
          do ok <- ilInitImage a W H D bpp (ilGetFormatBpp bpp) (ilGetTypeBpc bpc) None;
          if ok : bool then ret (Some a)
          else do i <- get_im a;
               exec free_blk (iData i);
               exec free_im a; ret None
    end.

(** il_stack.cpp:203-260: free a block member if [c] holds, and set it to NULL *)
Definition drop_blk (a : Z) (k : bk) (c : hdr -> bool) : M unit :=
  do i <- get_im a;
  if non_null (getb k i) && c (hd i) then
    exec free_blk (getb k i); upd_im a (putb k None)
  else ret tt.

(** il_stack.cpp:203-260 [ilCloseImage].  The recursion is bounded by fuel. *)
Fixpoint close (fuel : nat) (p : option Z) : M unit :=
  match p with
  | None => ret tt
  | Some a =>
      match fuel with
      | O => fun _ => Fuel
      | S fuel =>
          exec drop_blk a BData (fun _ => true);
          exec drop_blk a BPal (fun h => (0 <? hPalSize h) && negb (hPalType h =? IL_PAL_NONE));
          do i <- get_im a;
          exec (if non_null (iNext i) then exec close fuel (iNext i); upd_im a (putl LNext None) else ret tt);
          do i <- get_im a;
          exec (if non_null (iFaces i) then exec close fuel (iFaces i); upd_im a (putl LMips None) else ret tt);
          do i <- get_im a;
          exec (if non_null (iMips i) then exec close fuel (iMips i); upd_im a (putl LMips None) else ret tt);
          do i <- get_im a;
          exec (if non_null (iLayers i) then exec close fuel (iLayers i); upd_im a (putl LLayers None) else ret tt);
          exec drop_blk a BAnim (fun h => negb (hAnimSize h =? 0));
          exec drop_blk a BProf (fun h => negb (hProfSize h =? 0));
          exec drop_blk a BDxtc (fun h => negb (hDxtFmt h =? IL_DXT_NO_COMP));
          free_im a
      end
  end.
(** enough fuel for every acyclic structure: the recursion visits each address at most once *)
Definition ilCloseImage (p : option Z) : M unit := fun s => close (Z.to_nat (nxt s)) p s.

(** the fresh 1x1 image of il_stack.cpp *)
Definition new1 : M (option Z) := ilNewImage 1 1 1 1 1.

(** il_stack.cpp:62-79: the loop of [ilGenImages]; the names stored in [Images] *)
Fixpoint gen_loop (n : nat) : M (list Z) :=
  match n with
  | O => ret []
  | S n =>
      do f <- get fre;
      match f with
      | nm :: rest =>
          do p <- new1; exec set_slot nm p; exec mod_ (set_fre rest);
          do r <- gen_loop n; ret (nm :: r)
      | [] =>
          do l <- get lst; do z <- get ssz;
          do ok <- (if z <=? l then iEnlargeStack else ret true);
          if ok : bool then
            do p <- new1; exec set_slot l p; exec mod_ (set_lst (u32 (l + 1)));
            do r <- gen_loop n; ret (l :: r)
          else ret []
      end
  end.
(** il_stack.cpp:48-82 [ilGenImages] with a non-NULL [Images] *)
Definition ilGenImages (Num : Z) : M (list Z) :=
  if Num <? 1 then exec raise IL_INVALID_VALUE; ret []
  else
    do t <- get stk;
    do ok <- (match t with None => iEnlargeStack | Some _ => ret true end);
    if ok : bool then gen_loop (Z.to_nat Num) else ret [].

(** il_stack.cpp:101-105: enlarge until the name fits *)
Fixpoint grow (fuel : nat) (n : Z) : M bool :=
  do z <- get ssz;
  if z <=? n then
    match fuel with
    | O => fun _ => Fuel
    | S fuel => do ok <- iEnlargeStack; if ok : bool then grow fuel n else ret false
    end
  else ret true.

(** il_stack.cpp:92-119 [ilBindImage] *)
Definition ilBindImage (n : Z) : M unit :=
  do t <- get stk; do z <- get ssz;
  do ok <- (if negb (match t with Some _ => true | None => false end) || (z =? 0) then iEnlargeStack else ret true);
  if negb ok then ret tt else
  do ok <- grow (Z.to_nat n) n;
  if negb ok then ret tt else
  do p <- slot n;
  exec (if non_null p then ret tt
      else do p <- new1; exec set_slot n p; do l <- get lst;
           if l <=? n then mod_ (set_lst (u32 (n + 1))) else ret tt);
  do p <- slot n;
  exec mod_ (set_cur p);
  mod_ (set_cnm n).

(** il_stack.cpp:135-172: the loop of [ilDeleteImages]; [false]: returned early *)
Fixpoint del_loop (names : list Z) : M bool :=
  match names with
  | [] => ret true
  | n :: rest =>
      do l <- get lst;
      do go <- (if (0 <? n) && (n <? l) then
        do p <- slot n;
        if non_null p then
          do c <- get cnm;
          exec (if n =? c then do p0 <- slot 0; exec mod_ (set_cur p0); mod_ (set_cnm 0) else ret tt);
          exec ilCloseImage p;
          exec set_slot n None;
          do r <- ialloc WName 16;
          match r with
          | None => ret false
          | Some _ => do f <- get fre; exec mod_ (set_fre (n :: f)); ret true
          end
        else ret true
      else ret true);
      if go : bool then del_loop rest else ret false
  end.
(** il_stack.cpp:123-173 [ilDeleteImages] *)
Definition ilDeleteImages (names : list Z) : M unit :=
  if zlen names <? 1 then ret tt
  else do z <- get ssz;
       if z =? 0 then ret tt else exec del_loop names; ret tt.

(** il_stack.cpp:181-199 [ilIsImage] *)
Definition ilIsImage (n : Z) : M bool :=
  do t <- get stk; do l <- get lst;
  match t with
  | None => ret false
  | Some _ => if (l <=? n) || (n =? 0) then ret false else do p <- slot n; ret (non_null p)
  end.

(** il_stack.cpp:515-520 [ilGetCurName] *)
Definition ilGetCurName : M Z := fun s =>
  match cur s, stk s with
  | Some _, Some _ => Ok ((if ssz s =? 0 then 0 else cnm s), s)
  | _, _ => Ok (0, s)
  end.

(** il_stack.cpp:318-333 and its copies: follow [n] links of kind [k] from [a] *)
Fixpoint follow (k : lk) (n : nat) (a : Z) : M (option Z) :=
  match n with
  | O => ret (Some a)
  | S n => do i <- get_im a;
           match getl k i with None => ret None | Some b => follow k n b end
  end.
(** il_stack.cpp:303-337 [ilActiveMipmap], 341-376 [ilActiveImage], 380-415 [ilActiveFace],
    420-455 [ilActiveLayer]: the same text with another member *)
Definition ilActive (k : lk) (n : Z) : M bool :=
  do c <- get cur;
  match c with
  | None => exec raise IL_ILLEGAL_OPERATION; ret false
  | Some a =>
      if n =? 0 then ret true
      else
        do r <- follow k (Z.to_nat n) a;
        match r with
        | Some _ => exec mod_ (set_cur r); ret true
        | None => exec raise IL_ILLEGAL_OPERATION; ret false
        end
  end.

(** il_states.cpp:615-633: the counts IL_NUM_FACES/IMAGES/LAYERS/MIPMAPS of the current image *)
Fixpoint count (fuel : nat) (k : lk) (p : option Z) : M Z :=
  match p with
  | None => ret 0
  | Some a => match fuel with
              | O => fun _ => Fuel
              | S fuel => do i <- get_im a; do c <- count fuel k (getl k i); ret (c + 1)
              end
  end.
Definition ilNum (k : lk) : M Z :=
  do c <- get cur;
  match c with
  | None => exec raise IL_ILLEGAL_OPERATION; ret 0
  | Some a => do i <- get_im a; do z <- get nxt; count (Z.to_nat z) k (getl k i)
  end.

(** il_stack.cpp:501-508: [n] more images linked through Next; the number created so far *)
Fixpoint sub_loop (n : nat) (a : Z) (cnt : Z) : M Z :=
  match n with
  | O => ret cnt
  | S n => do p <- new1; exec upd_im a (putl LNext p);
           match p with None => ret cnt | Some b => sub_loop n b (cnt + 1) end
  end.
(** il_stack.cpp:458-511 [ilCreateSubImage] *)
Definition sub_kind (t : Z) : option lk :=
  if t =? IL_SUB_NEXT then Some LNext else if t =? IL_SUB_MIPMAP then Some LMips
  else if t =? IL_SUB_LAYER then Some LLayers else None.
Definition ilCreateSubImage (t n : Z) : M Z :=
  do c <- get cur;
  match c with
  | None => exec raise IL_ILLEGAL_OPERATION; ret 0
  | Some a =>
      if n =? 0 then ret 0
      else match sub_kind t with
      | None => exec raise IL_INVALID_ENUM; ret 0
      | Some k =>
          do i <- get_im a;
          exec (if non_null (getl k i) then ilCloseImage (getl k i) else ret tt);
          do p <- new1; exec upd_im a (putl k p);
          match p with
          | None => ret 0
          | Some b => sub_loop (Z.to_nat (n - 1)) b 1
          end
      end
  end.

(** il_devil.cpp:133-166 [ilTexImage_] *)
Definition ilTexImage_ (p : option Z) (W H D bpp fmt typ : Z) (data : option (list Z)) : M bool :=
  match p with
  | None => exec raise IL_ILLEGAL_OPERATION; ret false
  | Some a =>
      do i <- get_im a;
      exec (if non_null (iPal i) && negb (hPalSize (hd i) =? 0) && negb (hPalType (hd i) =? IL_PAL_NONE)
          then free_blk (iPal i) else ret tt);
      exec ilCloseImage (iMips i);
      exec ilCloseImage (iNext i);
      exec ilCloseImage (iFaces i);
      exec ilCloseImage (iLayers i);
      exec free_blk (iAnim i);
      exec free_blk (iProf i);
      exec free_blk (iDxtc i);
      exec free_blk (iData i);
      ilInitImage a W H D bpp fmt typ data
  end.
(** il_devil.cpp:126-130 [ilTexImage] *)
Definition ilTexImage (W H D bpp fmt typ : Z) (data : option (list Z)) : M bool :=
  do c <- get cur; ilTexImage_ c W H D bpp fmt typ data.

(** il_devil.cpp:188-241 [ilTexImageSurface_] on the current image *)
Definition set_cube_org (cube org : Z) (h : hdr) : hdr :=
  mkHdr (hW h) (hH h) (hD h) (hBpp h) (hBpc h) (hBps h) (hSize h) (hPlane h) (hFmt h) (hTyp h) org
    (hPalSize h) (hPalType h) (hDur h) cube (hAnimSize h) (hProfSize h) (hOffX h) (hOffY h) (hDxtFmt h) (hDxtSize h).
Definition ilTexImageSurface (W H D bpp fmt typ : Z) (data : option (list Z)) : M bool :=
  do c <- get cur;
  match c with
  | None => exec raise IL_ILLEGAL_OPERATION; ret false
  | Some a =>
      do i <- get_im a;
      exec (if non_null (iPal i) && negb (hPalSize (hd i) =? 0) && negb (hPalType (hd i) =? IL_PAL_NONE)
          then free_blk (iPal i) else ret tt);
      exec free_blk (iAnim i);
      exec free_blk (iProf i);
      exec free_blk (iDxtc i);
      exec free_blk (iData i);
      do r <- ilInitImage a W H D bpp fmt typ data;
      exec upd_im a (putl LMips (iMips i));
      exec upd_im a (putl LNext (iNext i));
      exec upd_im a (putl LFaces (iFaces i));
      exec upd_im a (putl LLayers (iLayers i));
      exec upd_im a (fun i' => puth (set_cube_org (hCube (hd i)) (hOrg (hd i)) (hd i')) i');
      ret r
  end.

(** il_devil.cpp:250-275 [ilSetData] / [ilTexSubImage_] *)
Definition ilSetData (data : option (list Z)) : M bool :=
  do c <- get cur;
  match c with
  | None => exec raise IL_ILLEGAL_OPERATION; ret false
  | Some a =>
      match data with
      | None => exec raise IL_INVALID_PARAM; ret false
      | Some src =>
          do i <- get_im a;
          do p <- (match iData i with
                   | Some b => ret (Some b)
                   | None => do b <- new_blk (hSize (hd i)); exec upd_im a (putb BData b); ret b
                   end);
          match p with
          | None => ret false
          | Some b => exec copy_in b src (hSize (hd i)); ret true
          end
      end
  end.

(** il_register.cpp:399-423 [ilRegisterPal]; iCurImage is dereferenced unconditionally *)
Definition set_pal_hdr (size typ : Z) (h : hdr) : hdr :=
  mkHdr (hW h) (hH h) (hD h) (hBpp h) (hBpc h) (hBps h) (hSize h) (hPlane h) (hFmt h) (hTyp h) (hOrg h)
    size typ (hDur h) (hCube h) (hAnimSize h) (hProfSize h) (hOffX h) (hOffY h) (hDxtFmt h) (hDxtSize h).
Definition ilRegisterPal (pal : option (list Z)) (size typ : Z) : M unit :=
  do c <- get cur;
  match c with
  | None => ub
  | Some a =>
      do i <- get_im a;
      exec (if negb (non_null (iPal i)) || (hPalSize (hd i) =? 0) || negb (hPalType (hd i) =? IL_PAL_NONE)
          then free_blk (iPal i) else ret tt);
      exec upd_im a (fun i => puth (set_pal_hdr size typ (hd i)) i);
      do b <- new_blk size;
      exec upd_im a (putb BPal b);
      match b with
      | None => ret tt
      | Some b0 => match pal with
                   | Some src => copy_in b0 src size
                   | None => raise IL_INVALID_PARAM
                   end
      end
  end.

(** il_register.cpp:425-434 [ilSetDuration] *)
Definition set_dur_hdr (d : Z) (h : hdr) : hdr :=
  mkHdr (hW h) (hH h) (hD h) (hBpp h) (hBpc h) (hBps h) (hSize h) (hPlane h) (hFmt h) (hTyp h) (hOrg h)
    (hPalSize h) (hPalType h) d (hCube h) (hAnimSize h) (hProfSize h) (hOffX h) (hOffY h) (hDxtFmt h) (hDxtSize h).
Definition ilSetDuration (d : Z) : M bool :=
  do c <- get cur;
  match c with
  | None => exec raise IL_ILLEGAL_OPERATION; ret false
  | Some a => exec upd_im a (fun i => puth (set_dur_hdr d (hd i)) i); ret true
  end.

(** il_register.cpp:284-300, 320-336, 356-372: extend the chain through link [k]; on failure close
    the elements one after the other ([clean]) starting from the first one *)
Fixpoint clean (fuel : nat) (k : lk) (p : option Z) : M unit :=
  match p with
  | None => ret tt
  | Some a => match fuel with
              | O => fun _ => Fuel
              | S fuel => do i <- get_im a; exec ilCloseImage (Some a); clean fuel k (getl k i)
              end
  end.
Fixpoint reg_loop (n : nat) (k : lk) (first : Z) (a : Z) : M bool :=
  match n with
  | O => ret true
  | S n => do p <- new1; exec upd_im a (putl k p);
           match p with
           | None => do z <- get nxt; exec clean (Z.to_nat z) k (Some first); ret false
           | Some b => reg_loop n k first b
           end
  end.
(** il_register.cpp:267-301 [ilRegisterNumFaces] ([k1 = k2 = LFaces]), 304-338 [ilRegisterMipNum]
    ([k1 = LMips], [k2 = LNext]), 341-375 [ilRegisterNumImages] ([k1 = k2 = LNext]) *)
Definition ilRegisterNum (k1 k2 : lk) (n : Z) : M bool :=
  do nm <- ilGetCurName;
  exec ilBindImage nm;
  do c <- get cur;
  match c with
  | None => ub
  | Some a =>
      do i <- get_im a;
      exec ilCloseImage (getl k1 i);
      exec upd_im a (putl k1 None);
      if n =? 0 then ret true
      else
        do p <- new1; exec upd_im a (putl k1 p);
        match p with
        | None => ret false
        | Some b => reg_loop (Z.to_nat (n - 1)) k2 b b
        end
  end.

(** il_devil.cpp:958-1043 [ilCopyImageAttr] on non-NULL images *)
Definition close_lnk (a : Z) (k : lk) : M unit :=
  do i <- get_im a;
  if non_null (getl k i) then exec ilCloseImage (getl k i); upd_im a (putl k None) else ret tt.
Definition copy_hdr (d s : hdr) : hdr :=
  mkHdr (hW s) (hH s) (hD s) (hBpp s) (hBpc s) (hBps s) (hSize s) (hPlane s) (hFmt s) (hTyp s) (hOrg s)
    (hPalSize s) (hPalType s) (hDur s) (hCube s) (hAnimSize s) (hProfSize d) (hOffX s) (hOffY s)
    (hDxtFmt d) (hDxtSize d).
Definition set_prof_hdr (n : Z) (h : hdr) : hdr :=
  mkHdr (hW h) (hH h) (hD h) (hBpp h) (hBpc h) (hBps h) (hSize h) (hPlane h) (hFmt h) (hTyp h) (hOrg h)
    (hPalSize h) (hPalType h) (hDur h) (hCube h) (hAnimSize h) n (hOffX h) (hOffY h) (hDxtFmt h) (hDxtSize h).
Definition set_dxt_hdr (f n : Z) (h : hdr) : hdr :=
  mkHdr (hW h) (hH h) (hD h) (hBpp h) (hBpc h) (hBps h) (hSize h) (hPlane h) (hFmt h) (hTyp h) (hOrg h)
    (hPalSize h) (hPalType h) (hDur h) (hCube h) (hAnimSize h) (hProfSize h) (hOffX h) (hOffY h) f n.
(** copy the block [p] of the source (its first [n] bytes) into a fresh block *)
Definition dup_blk (p : Z) (n : Z) : M (option Z) :=
  do b <- new_blk n;
  match b with
  | None => ret None
  | Some b0 => do l <- get_blk p; exec copy_in b0 l n; ret b
  end.
Definition ilCopyImageAttr (dst src : Z) : M bool :=
  do i <- get_im dst;
  exec (if non_null (iPal i) && negb (hPalSize (hd i) =? 0) && negb (hPalType (hd i) =? IL_PAL_NONE)
      then exec free_blk (iPal i); upd_im dst (putb BPal None) else ret tt);
  exec close_lnk dst LFaces;
  exec close_lnk dst LLayers;
  exec close_lnk dst LMips;
  exec close_lnk dst LNext;
  do i <- get_im dst;
  exec (if non_null (iProf i)
      then exec free_blk (iProf i); exec upd_im dst (putb BProf None);
           upd_im dst (fun i => puth (set_prof_hdr 0 (hd i)) i) else ret tt);
  do i <- get_im dst;
  exec (if non_null (iDxtc i)
      then exec free_blk (iDxtc i); exec upd_im dst (putb BDxtc None);
           upd_im dst (fun i => puth (set_dxt_hdr IL_DXT_NO_COMP 0 (hd i)) i) else ret tt);
  do s <- get_im src;
  do ok <- (match iAnim s with
            | Some p => if hAnimSize (hd s) =? 0 then ret true
                        else do b <- dup_blk p (u32 (hAnimSize (hd s)) * 4);
                             exec upd_im dst (putb BAnim b); ret (non_null b)
            | None => ret true
            end);
  if negb ok then ret false else
  do ok <- (match iProf s with
            | Some p => do b <- dup_blk p (hProfSize (hd s));
                        exec upd_im dst (putb BProf b);
                        if non_null b then exec upd_im dst (fun i => puth (set_prof_hdr (hProfSize (hd s)) (hd i)) i); ret true
                        else ret false
            | None => ret true
            end);
  if negb ok then ret false else
  do ok <- (match iPal s with
            | Some p => do b <- dup_blk p (hPalSize (hd s));
                        exec upd_im dst (putb BPal b); ret (non_null b)
            | None => exec upd_im dst (putb BPal None); ret true
            end);
  if negb ok then ret false else
  exec upd_im dst (fun i => puth (copy_hdr (hd i) (hd s)) i);
  ret true.

(** the buffer [SrcImage->Data] passed to [ilTexImage]: it is read after the destination has been
    closed, when [ilInitImage] copies from it.  [tex_from]: [ilTexImage(src->Width, ..., src->Data)]
    on the current image. *)
Definition ilInitImage_from (a W H D bpp fmt typ : Z) (src : option Z) : M bool :=
  do ok <- ilInitImage a W H D bpp fmt typ None;
  if negb ok then ret false else
  match src with
  | None => ret true
  | Some p => do i <- get_im a; do l <- get_blk p;
              match iData i with
              | Some b => exec copy_in b l (hSize (hd i)); ret true
              | None => ub
              end
  end.
Definition tex_from (src : Z) : M bool :=
  do s <- get_im src;
  do c <- get cur;
  match c with
  | None => exec raise IL_ILLEGAL_OPERATION; ret false
  | Some a =>
      do i <- get_im a;
      exec (if non_null (iPal i) && negb (hPalSize (hd i) =? 0) && negb (hPalType (hd i) =? IL_PAL_NONE)
          then free_blk (iPal i) else ret tt);
      exec ilCloseImage (iMips i);
      exec ilCloseImage (iNext i);
      exec ilCloseImage (iFaces i);
      exec ilCloseImage (iLayers i);
      exec free_blk (iAnim i);
      exec free_blk (iProf i);
      exec free_blk (iDxtc i);
      exec free_blk (iData i);
      ilInitImage_from a (hW (hd s)) (hH (hd s)) (hD (hd s)) (hBpp (hd s)) (hFmt (hd s)) (hTyp (hd s)) (iData s)
  end.

(** il_devil.cpp:1047-1064 [ilCopyImage] *)
Definition ilCopyImage (src : Z) : M bool :=
  do dn <- ilGetCurName;
  do c <- get cur;
  match c with
  | None => exec raise IL_ILLEGAL_OPERATION; ret false
  | Some dst =>
      if dn =? 0 then exec raise IL_ILLEGAL_OPERATION; ret false
      else
        exec ilBindImage src;
        do s <- get cur;
        exec ilBindImage dn;
        match s with
        | None => ub
        | Some sa => exec tex_from sa; exec ilCopyImageAttr dst sa; ret true
        end
  end.

(** il_devil.cpp:1091-1114 [ilCloneCurImage].  When ilGenImages fails the local [Id] is read
    uninitialised: [UB]. *)
Definition ilCloneCurImage : M Z :=
  do c <- get cur;
  match c with
  | None => exec raise IL_ILLEGAL_OPERATION; ret 0
  | Some ca =>
      do ids <- ilGenImages 1;
      match ids with
      | id :: _ =>
          if id =? 0 then ret 0
          else
            exec ilBindImage id;
            exec tex_from ca;
            do d <- get cur;
            exec (match d with
                | Some da => exec ilCopyImageAttr da ca; ret tt
                | None => raise IL_INVALID_PARAM
                end);
            exec mod_ (set_cur (Some ca));
            ret id
      | [] => ub
      end
  end.

(** il_manip.cpp:805-861 [ilDefaultImage]: the loops that fill the 64x64 BGR buffer *)
Definition checker_fill (bpp : Z) (buf : list Z) : res (list Z) :=
  let flip (c : bool) := negb c in
  let! (buf, _, _) :=
    loop 0 8 (fun _ '(buf, off, color) =>
      loop 0 8 (fun _ st => loop 0 8 (fun _ '(buf, off, color) =>
        let! (buf, off) := loop 0 8 (fun _ '(buf, off) =>
            let! buf := wr buf off (if color : bool then 18 else 0) in
            let! buf := wr buf (off + 1) (if color then 246 else 0) in
            let! buf := wr buf (off + 2) (if color then 243 else 0) in
            Ok (buf, off + bpp)) (buf, off) in
        Ok (buf, off, flip color)) st) (buf, off, flip color)) (buf, 0, true) in
  Ok buf.
Definition ilDefaultImage : M bool :=
  do c <- get cur;
  match c with
  | None => exec raise IL_ILLEGAL_OPERATION; ret false
  | Some a =>
      do ok <- ilTexImage 64 64 1 3 IL_BGR IL_UNSIGNED_BYTE None;
      if negb ok then ret false else
      do i <- get_im a;
      match iData i with
      | None => ub
      | Some b =>
          do l <- get_blk b;
          match checker_fill (hBpp (hd i)) l with
          | Ok l' => exec put_blk b l'; ret true
          | UB => ub
          | Fuel => fun _ => Fuel
          end
      end
  end.

(** il_stack.cpp:675-690 [iSetImage0] *)
Definition iSetImage0 : M unit :=
  do t <- get stk;
  do ok <- (match t with None => iEnlargeStack | Some _ => ret true end);
  if negb ok then ret tt else
  exec mod_ (set_lst 1);
  exec mod_ (set_cnm 0);
  do p <- slot 0;
  exec (if non_null p then ret tt else do p <- new1; set_slot 0 p);
  do p <- slot 0;
  exec mod_ (set_cur p);
  exec ilDefaultImage; ret tt.

(** il_stack.cpp:693-708 [iBindImageTemp] *)
Definition iBindImageTemp : M unit :=
  do t <- get stk; do z <- get ssz;
  do ok <- (if negb (match t with Some _ => true | None => false end) || (z <=? 1) then iEnlargeStack else ret true);
  if negb ok then ret tt else
  do l <- get lst;
  exec (if l <? 2 then mod_ (set_lst 2) else ret tt);
  exec mod_ (set_cnm 1);
  do p <- slot 1;
  exec (if non_null p then ret tt else do p <- new1; set_slot 1 p);
  do p <- slot 1;
  mod_ (set_cur p).

(** il_stack.cpp:612-633 [ilInit] as far as the name machine is concerned (the states are modelled
    in States.v, the I/O callbacks in Lump.v) *)
Definition ilInit : M unit :=
  do b <- get ini;
  if b : bool then ret tt
  else
    exec raise IL_NO_ERROR;
    exec iSetImage0;
    exec iBindImageTemp;
    mod_ (set_ini true).

(** il_stack.cpp:654-659: close every entry; entries are not reset *)
Fixpoint shut_loop (n : nat) (i : Z) : M unit :=
  match n with
  | O => ret tt
  | S n => do p <- slot i;
           exec (if non_null p then ilCloseImage p else ret tt);
           shut_loop n (i + 1)
  end.
(** il_stack.cpp:638-671 [ilShutDown] *)
Definition ilShutDown : M unit :=
  do b <- get ini;
  if b : bool then
    exec mod_ (set_fre []);
    do z <- get ssz;
    exec shut_loop (Z.to_nat z) 0;
    exec mod_ (set_stk None);
    exec mod_ (set_lst 0);
    exec mod_ (set_ssz 0);
    mod_ (set_ini false)
  else ret tt.

(** The calls a client can make. *)
Inductive op :=
| Init | ShutDown
| Gen (n : Z) | Bind (n : Z) | Delete (l : list Z) | IsImage (n : Z)
| Active (k : lk) (n : Z) | Num (k : lk) | SubImage (t n : Z)
| TexImage (w h d bpp fmt typ : Z) (data : option (list Z))
| TexSurface (w h d bpp fmt typ : Z) (data : option (list Z))
| SetData (data : option (list Z))
| RegPal (pal : option (list Z)) (size typ : Z)
| RegFaces (n : Z) | RegMips (n : Z) | RegImages (n : Z)
| SetDur (d : Z)
| Copy (n : Z) | Clone.

(** One call; the result is the list of values it delivers to the caller (names, 0/1, count) *)
Definition b2z (b : bool) : Z := if b then 1 else 0.
Definition step (o : op) : M (list Z) :=
  match o with
  | Init => exec ilInit; ret []
  | ShutDown => exec ilShutDown; ret []
  | Gen n => ilGenImages n
  | Bind n => exec ilBindImage n; ret []
  | Delete l => exec ilDeleteImages l; ret []
  | IsImage n => do b <- ilIsImage n; ret [b2z b]
  | Active k n => do b <- ilActive k n; ret [b2z b]
  | Num k => do c <- ilNum k; ret [c]
  | SubImage t n => do c <- ilCreateSubImage t n; ret [c]
  | TexImage w h d bpp fmt typ data => do b <- ilTexImage w h d bpp fmt typ data; ret [b2z b]
  | TexSurface w h d bpp fmt typ data => do b <- ilTexImageSurface w h d bpp fmt typ data; ret [b2z b]
  | SetData data => do b <- ilSetData data; ret [b2z b]
  | RegPal pal size typ => exec ilRegisterPal pal size typ; ret []
  | RegFaces n => do b <- ilRegisterNum LFaces LFaces n; ret [b2z b]
  | RegMips n => do b <- ilRegisterNum LMips LNext n; ret [b2z b]
  | RegImages n => do b <- ilRegisterNum LNext LNext n; ret [b2z b]
  | SetDur d => do b <- ilSetDuration d; ret [b2z b]
  | Copy n => do b <- ilCopyImage n; ret [b2z b]
  | Clone => do id <- ilCloneCurImage; ret [id]
  end.
(** A history; the results of the successive calls. *)
Fixpoint run (h : list op) : M (list (list Z)) :=
  match h with
  | [] => ret []
  | o :: h' => do r <- step o; do rs <- run h'; ret (r :: rs)
  end.
End Machine.
