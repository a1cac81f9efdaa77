(** Specification vocabulary for channel-wise operations: channels of pixels by coordinates. *)
From Coq Require Import ZArith List.
From Verif Require Import Base Enums Image ImageSpec.
Import ListNotations.
Open Scope Z_scope.

(** The bytes of channel [c] of the pixel at column [x], stored row [y], slice [z] *)
Definition chan_at (im : img) (buf : list Z) (x y z c : Z) : list Z :=
  slice buf (pix_off im x y z (c * Bpc im)) (Bpc im).

Definition in_pixels (im : img) (x y z : Z) : Prop :=
  0 <= x < Width im /\ 0 <= y < Height im /\ 0 <= z < Depth im.

(** Formats that differ by the order of red and blue *)
Inductive red_blue : Z -> Z -> Prop :=
| rb_rgb : red_blue IL_RGB IL_BGR
| rb_bgr : red_blue IL_BGR IL_RGB
| rb_rgba : red_blue IL_RGBA IL_BGRA
| rb_bgra : red_blue IL_BGRA IL_RGBA.

Inductive red_blue_pal : Z -> Z -> Prop :=
| rbp_1 : red_blue_pal IL_PAL_RGB24 IL_PAL_BGR24
| rbp_2 : red_blue_pal IL_PAL_BGR24 IL_PAL_RGB24
| rbp_3 : red_blue_pal IL_PAL_RGB32 IL_PAL_BGR32
| rbp_4 : red_blue_pal IL_PAL_BGR32 IL_PAL_RGB32
| rbp_5 : red_blue_pal IL_PAL_RGBA32 IL_PAL_BGRA32
| rbp_6 : red_blue_pal IL_PAL_BGRA32 IL_PAL_RGBA32.

(** Formats that differ by an alpha channel at the end of the pixel *)
Inductive plus_alpha : Z -> Z -> Prop :=
| pa_rgb : plus_alpha IL_RGB IL_RGBA
| pa_bgr : plus_alpha IL_BGR IL_BGRA.

(** Number of channels of a format *)
Inductive channels : Z -> Z -> Prop :=
| ch_rgb : channels IL_RGB 3
| ch_bgr : channels IL_BGR 3
| ch_rgba : channels IL_RGBA 4
| ch_bgra : channels IL_BGRA 4
| ch_lum : channels IL_LUMINANCE 1
| ch_luma : channels IL_LUMINANCE_ALPHA 2
| ch_alpha : channels IL_ALPHA 1
| ch_ci : channels IL_COLOUR_INDEX 1.

(** Bytes per channel of a type *)
Inductive type_size : Z -> Z -> Prop :=
| ts_b : type_size IL_BYTE 1
| ts_ub : type_size IL_UNSIGNED_BYTE 1
| ts_s : type_size IL_SHORT 2
| ts_us : type_size IL_UNSIGNED_SHORT 2
| ts_i : type_size IL_INT 4
| ts_ui : type_size IL_UNSIGNED_INT 4
| ts_f : type_size IL_FLOAT 4
| ts_d : type_size IL_DOUBLE 8.

(** The value that means fully opaque in a channel of the type, in memory order *)
Inductive full_alpha : Z -> list Z -> Prop :=
| fa_b : full_alpha IL_BYTE [255]
| fa_ub : full_alpha IL_UNSIGNED_BYTE [255]
| fa_s : full_alpha IL_SHORT [255; 255]
| fa_us : full_alpha IL_UNSIGNED_SHORT [255; 255]
| fa_i : full_alpha IL_INT [255; 255; 255; 255]
| fa_ui : full_alpha IL_UNSIGNED_INT [255; 255; 255; 255]
| fa_f : full_alpha IL_FLOAT [0; 0; 128; 63]
| fa_d : full_alpha IL_DOUBLE [0; 0; 0; 0; 0; 0; 240; 63].

(** Position of the alpha channel in formats that have one *)
Inductive alpha_chan : Z -> Z -> Prop :=
| ac_rgba : alpha_chan IL_RGBA 3
| ac_bgra : alpha_chan IL_BGRA 3
| ac_luma : alpha_chan IL_LUMINANCE_ALPHA 1.
