(** The layout of portable anymaps, independently of the loader. *)
From Coq Require Import ZArith List Permutation Lia Bool.
From Verif Require Import Base Enums PalSpec.
Import ListNotations.
Open Scope Z_scope.

(** [w] are the decimal digits of [v] *)
Definition number (v : Z) (w : list Z) : Prop := w <> [] /\ Forall (fun c => 48 <= c <= 57) w /\ value w = v /\ zlen w < 180.

(** what may stand between the words of a header: spaces, line ends, and comments from a # to the end of the line *)
Inductive blank : list Z -> Prop :=
| blank_nil : blank []
| blank_space : forall b, blank b -> blank (32 :: b)
| blank_line : forall b, blank b -> blank (10 :: b)
| blank_comment : forall c b, Forall (fun x => x <> 10) c -> blank b -> blank (35 :: c ++ 10 :: b).
(** a space, a line end or a comment, and then spaces only *)
Definition gap (g : list Z) : Prop :=
  exists s n, (s = [32] \/ s = [10] \/ exists c, Forall (fun x => x <> 10) c /\ s = 35 :: c ++ [10]) /\ g = s ++ repeat 32 n.

(** the magic number P[t], the width, the height *)
Definition pnm_start (t W H : Z) (h : list Z) : Prop :=
  exists g1 g2 w l, h = 80 :: t :: g1 ++ w ++ g2 ++ l /\ blank g1 /\ g1 <> [] /\ blank g2 /\ g2 <> [] /\ number W w /\ number H l.
(** the same, the largest value, and one space or line end *)
Definition pnm_head (t W H M : Z) (h : list Z) : Prop :=
  exists h0 g m e, h = h0 ++ g ++ m ++ [e] /\ pnm_start t W H h0 /\ gap g /\ number M m /\ (e = 10 \/ e = 32).
(** the header of a file of bits: magic number, sizes, one space or line end *)
Definition pbm_head (t W H : Z) (h : list Z) : Prop := exists h0 e, h = h0 ++ [e] /\ pnm_start t W H h0 /\ (e = 10 \/ e = 32).

(** ** Text *)
Definition letter (c : Z) : Prop := 48 <= c <= 57 \/ 65 <= c <= 90 \/ 97 <= c <= 122.
Definition separator (c : Z) : Prop := 1 <= c < 256 /\ c <> 10 /\ ~ letter c.
(** numbers separated and perhaps followed by separators *)
Inductive numbers : list Z -> list Z -> Prop :=
| numbers_last : forall v w s, number v w -> Forall separator s -> numbers [v] (w ++ s)
| numbers_more : forall v w s vs l, number v w -> Forall separator s -> s <> [] -> numbers vs l -> numbers (v :: vs) (w ++ s ++ l).
(** a line: empty, a comment, or numbers, perhaps after separators; at most 179 characters *)
Inductive text_line : list Z -> list Z -> Prop :=
| line_empty : text_line [] []
| line_comment : forall c, zlen c < 179 -> Forall (fun x => 1 <= x < 256 /\ x <> 10) c -> text_line [] (35 :: c)
| line_numbers : forall s vs l, zlen (s ++ l) < 180 -> Forall separator s -> geti s 0 <> 35 -> numbers vs l -> text_line vs (s ++ l).
(** lines of text with the values [vs]; after the last value anything may follow *)
Inductive text : list Z -> list Z -> Prop :=
| text_done : forall rest, text [] rest
| text_line_ : forall vs l us rest, text_line vs l -> text us rest -> text (vs ++ us) (l ++ 10 :: rest)
| text_last : forall vs l, text_line vs l -> vs <> [] -> text vs l.
(** the same, every line ended and nothing after them *)
Inductive text_lines : list Z -> list Z -> Prop :=
| lines_nil : text_lines [] []
| lines_more : forall vs l us rest, text_line vs l -> text_lines us rest -> text_lines (vs ++ us) (l ++ 10 :: rest).

(** ** Bits *)
(** the bit of column [x] in row [t]; rows of whole bytes, the most significant bit first *)
Definition pbm_bit (data : list Z) (W x t : Z) : Z := geti data (t * ((W + 7) / 8) + x / 8) / 2 ^ (7 - x mod 8) mod 2.

(** ** Arbitrary maps *)
Inductive pam_field := FWidth (v : Z) | FHeight (v : Z) | FDepth (v : Z) | FMax (v : Z) | FTuple (w : list Z).
Definition upper (c : Z) : Prop := 65 <= c <= 90 \/ c = 95.
Inductive field_text : pam_field -> list Z -> Prop :=
| ft_width : forall v w g, number v w -> v < 2147483648 -> blank g -> g <> [] -> field_text (FWidth v) ([87; 73; 68; 84; 72] ++ g ++ w)
| ft_height : forall v w g, number v w -> v < 2147483648 -> blank g -> g <> [] -> field_text (FHeight v) ([72; 69; 73; 71; 72; 84] ++ g ++ w)
| ft_depth : forall v w g, number v w -> v < 2147483648 -> blank g -> g <> [] -> field_text (FDepth v) ([68; 69; 80; 84; 72] ++ g ++ w)
| ft_max : forall v w g, number v w -> v < 2147483648 -> blank g -> g <> [] -> field_text (FMax v) ([77; 65; 88; 86; 65; 76] ++ g ++ w)
| ft_tuple : forall w g, w <> [] -> zlen w < 180 -> Forall upper w -> blank g -> g <> [] -> field_text (FTuple w) ([84; 85; 80; 76; 84; 89; 80; 69] ++ g ++ w).
(** the fields, each followed by blanks, and ENDHDR *)
Inductive fields_text : list pam_field -> list Z -> Prop :=
| fields_end : fields_text [] [69; 78; 68; 72; 68; 82]
| fields_more : forall f l g fs r, field_text f l -> blank g -> g <> [] -> fields_text fs r -> fields_text (f :: fs) (l ++ g ++ r).
(** a whole header: P7, the five fields in any order, and one space or line end *)
Definition pam_head (W H D M : Z) (w : list Z) (h : list Z) : Prop :=
  exists b fs l e, h = [80; 55] ++ b ++ l ++ [e] /\ blank b /\ b <> [] /\ fields_text fs l /\ Permutation fs [FWidth W; FHeight H; FDepth D; FMax M; FTuple w] /\ (e = 10 \/ e = 32).
(** the tuple types: GRAYSCALE, GRAYSCALE_ALPHA, RGB, RGB_ALPHA *)
Definition tuple_kind (w : list Z) (D fmt : Z) : Prop :=
  (w = [71; 82; 65; 89; 83; 67; 65; 76; 69] /\ D = 1 /\ fmt = IL_LUMINANCE) \/
  (w = [71; 82; 65; 89; 83; 67; 65; 76; 69; 95; 65; 76; 80; 72; 65] /\ D = 2 /\ fmt = IL_LUMINANCE_ALPHA) \/
  (w = [82; 71; 66] /\ D = 3 /\ fmt = IL_RGB) \/
  (w = [82; 71; 66; 95; 65; 76; 80; 72; 65] /\ D = 4 /\ fmt = IL_RGBA).
