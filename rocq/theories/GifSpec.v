(** The GIF format, independently of the loader: packed codes, the string table, sub-blocks, interlacing. *)
From Coq Require Import ZArith List Lia Bool.
From Verif Require Import Base Enums Image SmallSpec.
Import ListNotations.
Open Scope Z_scope.

(** ** Codes of varying width, packed into bytes with the low bits first *)

(** the number whose binary digits are those of the codes, first code lowest; a code comes with its width *)
Fixpoint packed_codes (cs : list (Z * Z)) : Z :=
  match cs with [] => 0 | (w, c) :: cs => c + 2 ^ w * packed_codes cs end.
Fixpoint total_bits (cs : list (Z * Z)) : Z :=
  match cs with [] => 0 | (w, _) :: cs => w + total_bits cs end.
(** the number whose base-256 digits are the bytes, first byte lowest *)
Fixpoint le_number (l : list Z) : Z :=
  match l with [] => 0 | b :: l => b + 256 * le_number l end.
(** [data] are the codes, packed; the unused bits of the last byte may be anything *)
Definition packs (cs : list (Z * Z)) (data : list Z) : Prop :=
  bytes data /\ 8 * (zlen data - 1) < total_bits cs <= 8 * zlen data /\
  le_number data mod 2 ^ total_bits cs = packed_codes cs.

(** ** LZW with clear and end codes *)

(** [D] are the strings with the codes 2^size + 2, 2^size + 3, ... *)
Definition entry (size : Z) (D : list (list Z)) (c : Z) : option (list Z) :=
  if (0 <=? c) && (c <? 2 ^ size) then Some [c]
  else if 2 ^ size + 2 <=? c then nth_error D (Z.to_nat (c - 2 ^ size - 2))
  else None.
(** the first code without a string *)
Definition next_code (size : Z) (D : list (list Z)) : Z := 2 ^ size + 2 + zlen D.
(** codes have as many bits as the next code needs, at least size + 1 and at most 12 *)
Definition code_width (size : Z) (D : list (list Z)) : Z :=
  Z.min 12 (Z.max (size + 1) (Z.log2 (next_code size D) + 1)).
(** a new string, unless all 4096 codes are taken *)
Definition learned (size : Z) (D : list (list Z)) (s : list Z) : list (list Z) :=
  if next_code size D <? 4096 then D ++ [s] else D.

(** [lzw size D prev cs px]: after the strings [D] were learnt and the string [prev] was the last one written
    ([None] just after a clear code), the codes [cs], each with its width, stand for the pixels [px].  A clear
    code only occurs if pixels follow. *)
Inductive lzw (size : Z) : list (list Z) -> option (list Z) -> list (Z * Z) -> list Z -> Prop :=
| lzw_end : forall D prev, lzw size D prev [(code_width size D, 2 ^ size + 1)] []
| lzw_clear : forall D prev cs px, px <> [] -> lzw size [] None cs px -> lzw size D prev ((code_width size D, 2 ^ size) :: cs) px
| lzw_first : forall D c cs px, 0 <= c < 2 ^ size -> lzw size D (Some [c]) cs px ->
    lzw size D None ((code_width size D, c) :: cs) (c :: px)
| lzw_known : forall D p c s cs px, entry size D c = Some s -> lzw size (learned size D (p ++ [hd 0 s])) (Some s) cs px ->
    lzw size D (Some p) ((code_width size D, c) :: cs) (s ++ px)
| lzw_next : forall D p cs px, next_code size D < 4096 -> lzw size (D ++ [p ++ [hd 0 p]]) (Some (p ++ [hd 0 p])) cs px ->
    lzw size D (Some p) ((code_width size D, next_code size D) :: cs) (p ++ [hd 0 p] ++ px).

(** the codes begin with a clear code (which has size + 1 bits) *)
Definition lzw_stream (size : Z) (cs : list (Z * Z)) (px : list Z) : Prop :=
  exists cs', cs = (size + 1, 2 ^ size) :: cs' /\ px <> [] /\ lzw size [] None cs' px.

(** the last code before the end code comes directly after a clear code *)
Fixpoint late_clear (size : Z) (fresh : bool) (cs : list (Z * Z)) : bool :=
  match cs with
  | [] => false
  | [_] => false
  | [_; _] => fresh
  | (_, c) :: cs => late_clear size (c =? 2 ^ size) cs
  end.

(** ** Sub-blocks: a length from 1 to 255 before that many bytes; a zero at the end *)
Inductive sub_blocks : list Z -> list Z -> Prop :=
| sb_end : sub_blocks [] [0]
| sb_block : forall a data l, 1 <= zlen a <= 255 -> sub_blocks data l -> sub_blocks (a ++ data) (zlen a :: a ++ l).

(** the data of an image of pixels [px]: the code size, then the packed codes in sub-blocks *)
Definition gif_data_with (late : bool) (px l : list Z) : Prop :=
  exists size cs data blocks, 2 <= size <= 8 /\ lzw_stream size cs px /\ late_clear size false cs = late /\
    packs cs data /\ sub_blocks data blocks /\ l = size :: blocks.
(** the usual case: the last code does not come directly after a clear code *)
Definition gif_data : list Z -> list Z -> Prop := gif_data_with false.

(** ** Interlacing: line [t] of an interlaced image of [H] lines is stored as line [stored_line H t] *)
Definition stored_line (H t : Z) : Z :=
  if t mod 8 =? 0 then t / 8
  else if t mod 8 =? 4 then (H + 7) / 8 + t / 8
  else if t mod 4 =? 2 then (H + 7) / 8 + (H + 3) / 8 + t / 4
  else (H + 7) / 8 + (H + 3) / 8 + (H + 1) / 4 + t / 2.

(** ** Files *)

(** a 16-bit number, low byte first *)
Definition word (v : Z) : list Z := [v mod 256; v / 256].
(** a graphic control block: the packed flags, the delay in hundredths of a second, the transparent colour *)
Record control := mkCtl { c_flags : Z; c_delay : Z; c_index : Z }.
Definition byte (v : Z) : Prop := 0 <= v < 256.
Definition short (v : Z) : Prop := 0 <= v < 65536.
(** what happens to the canvas before the frame (the loader applies the method to the frame that carries it) *)
Definition method (c : control) : Z := (c_flags c / 4) mod 8.
Definition transparent (c : control) : bool := Z.odd (c_flags c).

(** [extensions c l c']: [l] is a sequence of extension blocks; [c'] is the control block in force after them *)
Inductive extensions : option control -> list Z -> option control -> Prop :=
| ext_none : forall c, extensions c [] c
| ext_control : forall c c1 l c2, byte (c_flags c1) -> short (c_delay c1) -> byte (c_index c1) -> extensions (Some c1) l c2 ->
    extensions c ([33; 249; 4; c_flags c1] ++ word (c_delay c1) ++ [c_index c1; 0] ++ l) c2
| ext_other : forall c label data blocks l c2, byte label -> label <> 249 -> sub_blocks data blocks -> extensions c l c2 ->
    extensions c ([33; label] ++ blocks ++ l) c2.

(** one frame: its place on the canvas, the flags of the descriptor, its own colours (empty: the global ones are used), its pixels, the
    control block if there is one *)
Record frame := mkFrame { fx : Z; fy : Z; fw : Z; fh : Z; finfo : Z; fcolours : list Z; fpx : list Z; fctl : option control }.
(** the number of colours that flags stand for *)
Definition colours (info : Z) : Z := 2 ^ (info mod 8 + 1).

(** the flags announce a table of colours ([p] if it is there) *)
Definition colour_table (info : Z) (p : list Z) : Prop :=
  byte info /\ if Z.testbit info 7 then zlen p = 3 * colours info else p = [].

(** a frame in a file, on a canvas of [W] by [H] pixels *)
Definition frame_bytes (W H : Z) (f : frame) (l : list Z) : Prop :=
  1 <= fw f /\ 1 <= fh f /\ 0 <= fx f /\ 0 <= fy f /\ fx f + fw f <= W /\ fy f + fh f <= H /\ zlen (fpx f) = fw f * fh f /\ bytes (fpx f) /\ colour_table (finfo f) (fcolours f) /\
  exists ext data, extensions None ext (fctl f) /\ gif_data (fpx f) data /\
    l = ext ++ [44] ++ word (fx f) ++ word (fy f) ++ word (fw f) ++ word (fh f) ++ [finfo f] ++ fcolours f ++ data.
(** the frames one after the other *)
Inductive frames_bytes (W H : Z) : list frame -> list Z -> Prop :=
| frames_nil : frames_bytes W H [] []
| frames_cons : forall f fs l l', frame_bytes W H f l -> frames_bytes W H fs l' -> frames_bytes W H (f :: fs) (l ++ l').

(** a file: "GIF87a" or "GIF89a" in letters of either case, the size of the canvas, flags, the background colour, the aspect
    ratio, the global colours, the frames, a trailer *)
Definition gif_name (sig : list Z) : Prop :=
  exists g i f a n, sig = [g; i; f; 56; n; a] /\ (g = 71 \/ g = 103) /\ (i = 73 \/ i = 105) /\ (f = 70 \/ f = 102) /\ (a = 65 \/ a = 97) /\ (n = 55 \/ n = 57).
Definition gif_file (W H bg : Z) (gcolours : list Z) (fs : list frame) (F : list Z) : Prop :=
  1 <= W < 65536 /\ 1 <= H < 65536 /\ byte bg /\ exists sig info aspect l junk, gif_name sig /\ colour_table info gcolours /\ byte aspect /\ frames_bytes W H fs l /\
    F = sig ++ word W ++ word H ++ [info; bg; aspect] ++ gcolours ++ l ++ [59] ++ junk.

(** ** What the frames look like *)

(** colour index of the canvas before the frame: [before] is the canvas of the previous frame.  Methods 0 and 1 keep it, 2 and 3
    fill it with the background (the transparent colour if there is one); so is it before the first frame. *)
Definition background (bg : Z) (c : option control) : Z :=
  match c with Some c => if transparent c then c_index c else bg | None => bg end.
Definition canvas_before (bg : Z) (first : bool) (f : frame) (before : Z -> Z -> Z) (x y : Z) : Z :=
  let m := match fctl f with Some c => method c | None => 1 end in
  if first || (m =? 2) || (m =? 3) then background bg (fctl f) else before x y.
(** a transparent pixel of a frame with method 1 leaves the canvas as it is *)
Definition shows_through (f : frame) (v : Z) : bool :=
  match fctl f with Some c => (method c =? 1) && transparent c && (v =? c_index c) | None => false end.
(** the canvas with the frame; line [t] of the frame is line [line t] of the data *)
Definition canvas_after (f : frame) (line : Z -> Z) (before : Z -> Z -> Z) (x y : Z) : Z :=
  if (fx f <=? x) && (x <? fx f + fw f) && (fy f <=? y) && (y <? fy f + fh f) then
    let v := geti (fpx f) (line (y - fy f) * fw f + (x - fx f)) in
    if shows_through f v then before x y else v
  else before x y.

(** colours with an alpha channel: 0 for the transparent one, 255 for all others *)
Fixpoint with_alpha (n t : Z) (p : list Z) : list Z :=
  match p with r :: g :: b :: p => r :: g :: b :: (if n =? t then 0 else 255) :: with_alpha (n + 1) t p | _ => [] end.

(** ** The images of an animation *)

Definition frame_method (f : frame) : Z := match fctl f with Some c => method c | None => 1 end.
Definition interlaced (f : frame) : bool := Z.testbit (finfo f) 6.
(** line [t] of the frame is this line of its data *)
Definition line (f : frame) (t : Z) : Z := if interlaced f then stored_line (fh f) t else t.
(** the colours of the frame: its own or else the global ones *)
Definition frame_colours (gc : list Z) (f : frame) : list Z := match fcolours f with [] => gc | c => c end.
(** the palette has these colours, with alpha if one of them is transparent *)
Definition frame_pal (gc : list Z) (f : frame) (p : pal) : Prop :=
  let c := frame_colours gc f in
  match fctl f with
  | Some g => if transparent g then p = mkPal (Some (with_alpha 0 (c_index g) c)) (zlen c / 3 * 4) IL_PAL_RGBA32
              else exists blk, p = mkPal (Some (c ++ blk)) (zlen c) IL_PAL_RGB24
  | None => exists blk, p = mkPal (Some (c ++ blk)) (zlen c) IL_PAL_RGB24
  end.
(** the image of frame [f]: the whole canvas [cv] with its palette, the place of the frame and how many milliseconds it stays *)
Definition frame_image (W H : Z) (gc : list Z) (f : frame) (cv : Z -> Z -> Z) (im : img) : Prop :=
  shows im W H 1 IL_COLOUR_INDEX (fun x t _ => cv x t) /\ frame_pal gc f (Pal im) /\ OffX im = fx f /\ OffY im = fy f /\
  Duration im = match fctl f with Some c => c_delay c * 10 | None => 0 end.
(** one image per frame; [before] is the canvas before the first of these frames *)
Fixpoint animation (W H bg : Z) (gc : list Z) (first : bool) (before : Z -> Z -> Z) (fs : list frame) (ims : list img) : Prop :=
  match fs, ims with
  | [], [] => True
  | f :: fs, im :: ims =>
      let cv := canvas_after f (line f) (canvas_before bg first f before) in
      frame_image W H gc f cv im /\ animation W H bg gc false cv fs ims
  | _, _ => False
  end.

(** the canvas is filled with one colour before the frame *)
Definition fresh (first : bool) (f : frame) : Prop := first = true \/ frame_method f = 2 \/ frame_method f = 3.
(** animations for which the loader does the right thing: the methods are 0 .. 3; there are colours; a frame with method 1 (or without a
    control block) other than the first has no colours of its own; an interlaced frame is on a fresh canvas, reaches
    its bottom, and the canvas of the next frame is fresh, too *)
Fixpoint loadable (H : Z) (gc : list Z) (first : bool) (fs : list frame) : Prop :=
  match fs with
  | [] => True
  | f :: fs =>
      (first = true \/ frame_method f <= 3) /\ frame_colours gc f <> [] /\ (fcolours f = [] \/ first = true \/ frame_method f <> 1) /\
      (interlaced f = true -> fresh first f /\ fy f + fh f = H /\ match fs with [] => True | n :: _ => fresh false n end) /\
      loadable H gc false fs
  end.
