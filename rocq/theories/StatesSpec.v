(** Specification vocabulary for the state machine: what a client observes. *)
From Coq Require Import ZArith List Bool.
From Verif Require Import Base Enums ErrorStack Image States.
Import ListNotations.
Open Scope Z_scope.

(** The answer of a query, if the query does not run into undefined behaviour. *)
Definition answer {A} (r : res (A * gst)) : option A :=
  match r with Ok (v, _) => Some v | _ => None end.

(** the characters a client sees behind [ilGetString(m)]; [None] for NULL, constants ignored *)
Definition string_of (m : Z) (g : gst) : option (option (list Z)) :=
  match ilGetString m g with
  | Ok (GSPtr None, _) => Some None
  | Ok (GSPtr (Some a), _) => match blocks g a with Some s => Some (Some s) | None => None end
  | _ => None
  end.

(** modes whose answer depends on the current image rather than on the state machine *)
Definition image_mode (m : Z) : bool :=
  existsb (Z.eqb m)
    [IL_IMAGE_DURATION; IL_IMAGE_OFFX; IL_IMAGE_OFFY; IL_IMAGE_CUBEFLAGS].

(** A client cannot tell the two states apart through the mode, integer and string queries
    (the image attributes the client set meanwhile excepted). *)
Definition same_answers (g g' : gst) : Prop :=
  (forall m, answer (ilIsEnabled m g') = answer (ilIsEnabled m g)) /\
  (forall m, image_mode m = false -> answer (ilGetInteger m g') = answer (ilGetInteger m g)) /\
  (forall m, string_of m g' = string_of m g).

(** Nesting: [nested room h]: pops match pushes inside [h], at most [room] are open. *)
Fixpoint nested_from (room d : nat) (h : list sop) : Prop :=
  match h with
  | [] => d = O
  | Push _ :: h' => (d < room)%nat /\ nested_from room (S d) h'
  | Pop :: h' => (0 < d)%nat /\ nested_from room (pred d) h'
  | _ :: h' => nested_from room d h'
  end.
Definition nested (room : nat) (h : list sop) : Prop := nested_from room 0 h.

(** Number of open pushes after a history; the stack has 32 levels. *)
Fixpoint level_from (d : Z) (h : list sop) : Z :=
  match h with
  | [] => d
  | Push _ :: h' => level_from (Z.min 31 (d + 1)) h'
  | Pop :: h' => level_from (Z.max 0 (d - 1)) h'
  | _ :: h' => level_from d h'
  end.
Definition level (h : list sop) : Z := level_from 0 h.

(** Calls that are safe in every state: everything except pushing the format-specific
    strings, and passing a pointer obtained from the library to [ilSetString]. *)
Definition tame (o : sop) : Prop :=
  match o with
  | Push bits => Z.land bits IL_FORMAT_SPECIFIC_BIT = 0
  | SetString _ (CPtr _) => False
  | _ => True
  end.

(** ** The switchable modes *)

(** modes accepted by ilEnable / ilDisable / ilIsEnabled, il.h *)
Definition switchable (m : Z) : bool :=
  existsb (Z.eqb m)
    [IL_ORIGIN_SET; IL_FORMAT_SET; IL_TYPE_SET; IL_FILE_OVERWRITE; IL_CONV_PAL;
     IL_DEFAULT_ON_FAIL; IL_USE_KEY_COLOUR; IL_BLIT_BLEND; IL_SAVE_INTERLACED;
     IL_JPG_PROGRESSIVE; IL_NVIDIA_COMPRESS; IL_SQUISH_COMPRESS].

(** which attribute bit preserves a switch across a push (0: none, it is reset) *)
Definition switch_bit (m : Z) : Z :=
  if m =? IL_ORIGIN_SET then IL_ORIGIN_BIT
  else if m =? IL_FORMAT_SET then IL_FORMAT_BIT
  else if m =? IL_TYPE_SET then IL_TYPE_BIT
  else if m =? IL_FILE_OVERWRITE then IL_FILE_BIT
  else if m =? IL_CONV_PAL then IL_PAL_BIT
  else if m =? IL_DEFAULT_ON_FAIL then IL_LOADFAIL_BIT
  else 0.
Definition switch_default (m : Z) : Z := if m =? IL_BLIT_BLEND then 1 else 0.

(** Abstract machine: a stack of assignments of 0/1 to modes, current level first. *)
Definition sw_step (o : sop) (st : list (Z -> Z)) : list (Z -> Z) :=
  match o, st with
  | Enable m, top :: rest => (fun k => if k =? m then 1 else top k) :: rest
  | Disable m, top :: rest => (fun k => if k =? m then 0 else top k) :: rest
  | Push bits, top :: rest =>
      if (length st <? 32)%nat then
        (fun k => if Z.land bits (switch_bit k) =? 0 then switch_default k else top k) :: st
      else st
  | Pop, top :: (next :: rest) => next :: rest
  | _, _ => st
  end.
Definition sw_run (h : list sop) : list (Z -> Z) :=
  fold_left (fun st o => sw_step o st) h [switch_default].

(** ** Documented ranges of the integer modes (il.h and the library manual) *)
Definition documented (m p : Z) : option bool :=
  if m =? IL_FORMAT_MODE then
    Some (existsb (Z.eqb p) [IL_RGB; IL_RGBA; IL_BGR; IL_BGRA; IL_LUMINANCE; IL_LUMINANCE_ALPHA])
  else if m =? IL_TYPE_MODE then
    Some (existsb (Z.eqb p) [IL_BYTE; IL_UNSIGNED_BYTE; IL_SHORT; IL_UNSIGNED_SHORT; IL_INT;
                             IL_UNSIGNED_INT; IL_FLOAT; IL_DOUBLE])
  else if m =? IL_ORIGIN_MODE then
    Some (existsb (Z.eqb p) [IL_ORIGIN_LOWER_LEFT; IL_ORIGIN_UPPER_LEFT])
  else if existsb (Z.eqb m) [IL_KEEP_DXTC_DATA; IL_BMP_RLE; IL_PNG_INTERLACE; IL_SGI_RLE;
                             IL_TGA_CREATE_STAMP; IL_TGA_RLE] then Some ((p =? 0) || (p =? 1))
  else if m =? IL_MAX_QUANT_INDICES then Some ((2 <=? p) && (p <=? 256))
  else if m =? IL_NEU_QUANT_SAMPLE then Some ((1 <=? p) && (p <=? 30))
  else if m =? IL_QUANTIZATION_MODE then Some ((p =? IL_WU_QUANT) || (p =? IL_NEU_QUANT))
  else if m =? IL_JPG_SAVE_FORMAT then Some ((p =? IL_JFIF) || (p =? IL_EXIF))
  else if m =? IL_JPG_QUALITY then Some ((0 <=? p) && (p <=? 99))
  else if m =? IL_VTF_COMP then
    Some (existsb (Z.eqb p) [IL_DXT1; IL_DXT5; IL_DXT3; IL_DXT1A; IL_DXT_NO_COMP])
  else if m =? IL_PCD_PICNUM then Some ((0 <=? p) && (p <=? 2))
  else if m =? IL_PNG_ALPHA_INDEX then Some ((-1 <=? p) && (p <=? 255))
  else if m =? IL_DXTC_FORMAT then
    Some (existsb (Z.eqb p) [IL_DXT1; IL_DXT2; IL_DXT3; IL_DXT4; IL_DXT5; IL_DXT1A])
  else None.

(** [int] range *)
Definition is_int (p : Z) : Prop := -2147483648 <= p < 2147483648.

(** the error [e] has been raised since *)
Definition raised (e : Z) (g g' : gst) : Prop := ilSetError e (errs g) = Ok (errs g').
