(** What compressed texture blocks mean, independently of the program: numbers stored lowest byte
    first, fields of such numbers, the colours and alpha values they select. *)
From Coq Require Import ZArith List Bool.
From Verif Require Import Base.
Import ListNotations.
Open Scope Z_scope.

(** the number stored in some bytes, lowest first *)
Fixpoint number (l : list Z) : Z := match l with [] => 0 | b :: r => b + 256 * number r end.

(** the [k]-th field of [w] bits of a number *)
Definition field (n w k : Z) : Z := n / 2 ^ (w * k) mod 2 ^ w.

(** eight bits from five, from six, from four, by repeating the leading bits *)
Definition wide5 (v : Z) : Z := 8 * v + v / 4.
Definition wide6 (v : Z) : Z := 4 * v + v / 16.
Definition wide4 (v : Z) : Z := 17 * v.

(** the three parts of a colour of sixteen bits *)
Definition red5 (w : Z) : Z := w / 2048.
Definition green6 (w : Z) : Z := w / 32 mod 64.
Definition blue5 (w : Z) : Z := w mod 32.

(** a colour of sixteen bits as eight-bit channels (0 red, 1 green, 2 blue), with the green and
    the blue as this library computes them: [green w], [blue w] *)
Definition end_colour (green blue : Z -> Z) (w ch : Z) : Z :=
  if ch =? 0 then wide5 (red5 w) else if ch =? 1 then green w else blue w.

(** the colour at [code] in a block with end colours [w0] and [w1] *)
Definition four_colours (e : Z -> Z -> Z) (w0 w1 code ch : Z) : Z :=
  if code =? 0 then e w0 ch else if code =? 1 then e w1 ch
  else if code =? 2 then (2 * e w0 ch + e w1 ch + 1) / 3 else (e w0 ch + 2 * e w1 ch + 1) / 3.
Definition three_colours (e : Z -> Z -> Z) (w0 w1 code ch : Z) : Z :=
  if code =? 0 then e w0 ch else if code =? 1 then e w1 ch
  else if code =? 2 then (e w0 ch + e w1 ch) / 2 else (e w0 ch + 2 * e w1 ch + 1) / 3.

(** one channel of pixel [k] (0 to 15, by rows) of a block [B] *)
Definition dxt1 (e : Z -> Z -> Z) (B : list Z) (k ch : Z) : Z :=
  let w0 := number (slice B 0 2) in
  let w1 := number (slice B 2 2) in
  let code := field (number (slice B 4 4)) 2 k in
  if ch =? 3 then (if (w1 <? w0) || negb (code =? 3) then 255 else 0)
  else if w1 <? w0 then four_colours e w0 w1 code ch else three_colours e w0 w1 code ch.

Definition dxt3 (e : Z -> Z -> Z) (B : list Z) (k ch : Z) : Z :=
  if ch =? 3 then wide4 (field (number (slice B 0 8)) 4 k)
  else four_colours e (number (slice B 8 2)) (number (slice B 10 2)) (field (number (slice B 12 4)) 2 k) ch.

(** the alpha value at [code] between the end values [a0] and [a1] *)
Definition alpha_at (a0 a1 code : Z) : Z :=
  if code =? 0 then a0 else if code =? 1 then a1
  else if a1 <? a0 then ((8 - code) * a0 + (code - 1) * a1 + 3) / 7
  else if code <=? 5 then ((6 - code) * a0 + (code - 1) * a1 + 2) / 5
  else if code =? 6 then 0 else 255.
Definition dxt5 (e : Z -> Z -> Z) (B : list Z) (k ch : Z) : Z :=
  if ch =? 3 then alpha_at (geti B 0) (geti B 1) (field (number (slice B 2 6)) 3 k)
  else four_colours e (number (slice B 8 2)) (number (slice B 10 2)) (field (number (slice B 12 4)) 2 k) ch.

(** the number of four-pixel blocks covering [n] pixels *)
Definition quads (n : Z) : Z := (n + 3) / 4.
(** block number [b] of some data with blocks of [bs] bytes *)
Definition blk (bs : Z) (c : list Z) (b : Z) : list Z := slice c (b * bs) bs.
(** the number of the block that holds pixel (x, y, z) of a picture [W] wide and [H] high *)
Definition block_of (W H x y z : Z) : Z := (z * quads H + y / 4) * quads W + x / 4.
(** and the pixel's number in the block *)
Definition in_block (x y : Z) : Z := 4 * (y mod 4) + x mod 4.
