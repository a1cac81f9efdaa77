(** The layout of Targa files, from the Truevision TGA 2.0 specification. *)
From Coq Require Import ZArith List Bool.
From Verif Require Import Base Enums Image EndianProps.
Import ListNotations.
Open Scope Z_scope.

(** the 18 bytes of the header: length of the image ID, colour map present, image type, first colour map
    entry, number of entries, bits per entry, x and y origin, width, height, bits per pixel, descriptor *)
Definition tga_header (idlen cm typ first ncol ent x y w h bits desc : Z) : list Z :=
  [idlen; cm; typ] ++ little2 first ++ little2 ncol ++ [ent] ++ little2 x ++ little2 y ++ little2 w ++ little2 h ++ [bits; desc].

(** a text field of [n] bytes *)
Definition field (n : nat) (s : list Z) : list Z := s ++ repeat 0 (n - length s).

(** The extension area and the footer of a file whose extension area begins at [off].  The second row of
    zeros is not part of the specification: the time of the file appears twice in it. *)
Definition tga_trailer (off : Z) (author comment date software : list Z) (version : Z) : list Z :=
  little2 495 ++ field 41 author ++ field 324 comment ++ concat (map little2 date) ++ repeat 0 12 ++
  field 41 [] ++ repeat 0 6 ++ field 41 software ++ little2 version ++ [32] ++
  repeat 0 24 ++ [3] ++
  little4 off ++ little4 0 ++ [84; 82; 85; 69; 86; 73; 83; 73; 79; 78; 45; 88; 70; 73; 76; 69; 46; 0].

(** Targa stores blue before red: the format in which the pixels of an image of format [f] are stored, and
    the place of its channel [k] *)
Definition stored_format (f : Z) : Z := if f =? IL_RGB then IL_BGR else if f =? IL_RGBA then IL_BGRA else f.
Definition stored_chan (f k : Z) : Z :=
  if (f =? IL_RGB) || (f =? IL_RGBA) then (if k =? 0 then 2 else if k =? 2 then 0 else k) else k.
