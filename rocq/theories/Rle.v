(** Model of the run-length encoder: src-IL/src/il_rle.cpp and src-IL/include/il_rle.h.

    The source is a buffer; a read outside it is [UB].  The encoder writes its output
    strictly sequentially through [*q++], so the output of one line is modelled as the list
    of the bytes written, in order; [rle_image] places that list in the destination buffer
    (and is [UB] when it does not fit). *)
From Coq Require Import ZArith List Lia Bool.
From Verif Require Import Base.
Import ListNotations.
Open Scope Z_scope.

(** IL_TGACOMP, IL_SGICOMP, IL_BMPCOMP (il_rle.cpp:22-35; any other value is refused) *)
Inductive rmode := Tga | Sgi | Bmp.

(** TGA_MAX_RUN, SGI_MAX_RUN, BMP_MAX_RUN: il_rle.h:18-20 *)
Definition max_run (m : rmode) : Z :=
  match m with Tga => 128 | Sgi => 127 | Bmp => 127 end.

(** GetPix's loop, il_rle.h:33-36: [k] more bytes *)
Fixpoint getpix_ (k : nat) (src : list Z) (p acc : Z) : res Z :=
  match k with
  | O => Ok acc
  | S k' => let! b := rd src p in getpix_ k' src (p + 1) (Z.lor (u32 (Z.shiftl acc 8)) b)
  end.

(** GetPix, il_rle.h:29-38 *)
Definition getpix (src : list Z) (p bpp : Z) : res Z :=
  let! b := rd src p in getpix_ (Z.to_nat (bpp - 1)) src (p + 1) b.

(** CountDiffPixels' loop, il_rle.h:50-58; [k] is [pixCnt - 1] *)
Fixpoint cd_loop (k : nat) (src : list Z) (p bpp pixel next n : Z) : res (Z * Z * Z) :=
  match k with
  | O => Ok (pixel, next, n)
  | S k' =>
      let! next' := getpix src (p + bpp) bpp in
      if next' =? pixel then Ok (pixel, next', n)
      else cd_loop k' src (p + bpp) bpp next' next' (n + 1)
  end.

(** CountDiffPixels, il_rle.h:40-63 *)
Definition count_diff (src : list Z) (p bpp cnt : Z) : res Z :=
  if cnt =? 1 then Ok 1
  else let! pixel := getpix src p bpp in
       let! r := cd_loop (Z.to_nat (cnt - 1)) src p bpp pixel 0 0 in
       let '(pixel', next, n) := r in
       if next =? pixel' then Ok n else Ok (n + 1).

(** CountSamePixels' loop, il_rle.h:75-82 *)
Fixpoint cs_loop (k : nat) (src : list Z) (p bpp pixel n : Z) : res Z :=
  match k with
  | O => Ok n
  | S k' =>
      let! next := getpix src (p + bpp) bpp in
      if negb (next =? pixel) then Ok n else cs_loop k' src (p + bpp) bpp pixel (n + 1)
  end.

(** CountSamePixels, il_rle.h:66-85 *)
Definition count_same (src : list Z) (p bpp cnt : Z) : res Z :=
  let! pixel := getpix src p bpp in
  cs_loop (Z.to_nat (cnt - 1)) src p bpp pixel 1.

(** [k] times [*q++ = *p++] *)
Fixpoint copy_bytes (k : nat) (src : list Z) (p : Z) (out : list Z) : res (list Z) :=
  match k with
  | O => Ok out
  | S k' => let! b := rd src p in copy_bytes k' src (p + 1) (out ++ [b])
  end.

(** the fall-through switch of il_rle.cpp:75-80 and 105-110: the number of bytes it copies *)
Definition px_bytes (bpp : Z) : Z := if (1 <=? bpp) && (bpp <=? 4) then bpp else 0.

(** il_rle.cpp:47-51 *)
Fixpoint bmp_tail (k : nat) (src : list Z) (p : Z) (out : list Z) : res (Z * list Z) :=
  match k with
  | O => Ok (p, out)
  | S k' => let! b := rd src p in bmp_tail k' src (p + 1) (out ++ [1; b])
  end.

(** Encoder state: read offset, pixels left, reported size, bytes written *)
Record rst := { rp : Z; rn : Z; rsize : Z; rout : list Z }.

(** The raw packet, il_rle.cpp:58-89.  [qa] is the parity of the address of the output
    buffer, [pad] is bmp_pad_to_even.  Lines 74-82 copy pixel by pixel; all pixels are copied
    in one run of bytes here. *)
Definition raw_packet (m : rmode) (bpp qa pad : Z) (src : list Z) (diff : Z) (s : rst) : res rst :=
  if 0 <? diff then
    let hdr := match m with
               | Tga => [u8 (diff - 1)]
               | Bmp => [0; u8 diff]
               | Sgi => [u8 (Z.lor diff 128)]
               end in
    let nbytes := diff * px_bytes bpp in
    let! out := copy_bytes (Z.to_nat nbytes) src (rp s) (rout s ++ hdr) in
    let out' := match m with
                | Bmp => if (qa + zlen out) mod 2 =? pad then out ++ [0] else out
                | _ => out
                end in
    Ok {| rp := rp s + nbytes; rn := u32 (rn s - diff);
          rsize := rsize s + diff * bpp + 1 + match m with Bmp => 1 | _ => 0 end;
          rout := out' |}
  else Ok s.

(** The run packet, il_rle.cpp:91-111; line 104 copies one byte before the switch copies the
    pixel. *)
Definition run_packet (m : rmode) (bpp : Z) (src : list Z) (same : Z) (s : rst) : res rst :=
  if 1 <? same then
    let hdr := match m with Tga => [u8 (Z.lor (same - 1) 128)] | _ => [u8 same] end in
    let p := rp s + (same - 1) * bpp in
    let! out := copy_bytes (Z.to_nat (1 + px_bytes bpp)) src p (rout s ++ hdr) in
    Ok {| rp := p + 1 + px_bytes bpp; rn := u32 (rn s - same);
          rsize := rsize s + bpp + 1; rout := out |}
  else Ok s.

(** One iteration of the loop of il_rle.cpp:37-112 *)
Definition rle_iter (m : rmode) (bpp qa pad : Z) (src : list Z) (s : rst) : res rst :=
  let cnt := if max_run m <? i32 (rn s) then max_run m else rn s in
  let! diff := count_diff src (rp s) bpp cnt in
  let! same := count_same src (rp s) bpp cnt in
  let remaining := i32 (rn s - diff - same) in
  if (match m with Bmp => true | _ => false end) && (remaining <? 3) then
    let! r := bmp_tail (Z.to_nat remaining) src (rp s) (rout s) in
    let '(p, out) := r in
    Ok {| rp := p; rn := 0; rsize := rsize s; rout := out |}
  else
    let! s1 := raw_packet m bpp qa pad src diff s in
    run_packet m bpp src same s1.

Fixpoint rle_loop (fuel : nat) (m : rmode) (bpp qa pad : Z) (src : list Z) (s : rst) : res rst :=
  if 0 <? rn s then
    match fuel with
    | O => Fuel
    | S f => let! s' := rle_iter m bpp qa pad src s in rle_loop f m bpp qa pad src s'
    end
  else Ok s.

(** il_rle.cpp:114-125: the line terminator and the reported size *)
Definition rle_end (m : rmode) (s : rst) : Z * list Z :=
  match m with
  | Tga => (rsize s, rout s)
  | Sgi => (rsize s + 1, rout s ++ [0])
  | Bmp => (rsize s + 2, rout s ++ [0; 0])
  end.

(** ilRleCompressLine, il_rle.cpp:13-128: the reported size ( *DestWidth ) and the bytes
    written at [q].  [p] is the offset of the line in its buffer, [qa] the address of [q] and
    [dw0] the value of *DestWidth on entry (only their parity matters, line 20). *)
Definition rle_line (m : rmode) (bpp qa dw0 : Z) (src : list Z) (p n : Z) : res (Z * list Z) :=
  let pad := 1 - (qa - dw0) mod 2 in
  let! s := rle_loop (S (Z.to_nat n)) m bpp qa pad src
              {| rp := p; rn := n; rsize := 0; rout := [] |} in
  Ok (rle_end m s).

(** The loops of ilRleCompress over planes and lines, il_rle.cpp:138-145, as one loop over the
    [Height * Depth] lines (line [j * Height + i] starts at
    [j * Width*Height*Bpp + i * Width*Bpp]); [da] is the address of Dest, [LineLen]'s value on
    entry is the previous one.  The ScanTable output is not modelled. *)
Definition rle_lines (m : rmode) (bpp da : Z) (src : list Z) (w k : Z) (dst : list Z)
  : res (Z * Z * list Z) :=
  loop 0 k (fun i '(destw, linelen, dst) =>
    let! r := rle_line m bpp (da + destw) linelen src (i * (w * bpp)) w in
    let '(len, out) := r in
    let! dst' := memcpy dst destw out 0 (zlen out) in
    Ok (u32 (destw + len), len, dst')) (0, 0, dst).

(** ilRleCompress, il_rle.cpp:132-153 (TGA: no end-of-image code).  In BMP mode the two
    end-of-image bytes are written to Data (lines 148-149). *)
Definition rle_image (m : rmode) (bpp da : Z) (src : list Z) (w h d : Z) (dst : list Z)
  : res (Z * list Z * list Z) :=
  let! r := rle_lines m bpp da src w (h * d) dst in
  let '(destw, _, dst') := r in
  match m with
  | Bmp => let! s1 := wr src destw 0 in
           let! s2 := wr s1 (destw + 1) 1 in
           Ok (destw + 2, s2, dst')
  | _ => Ok (destw, src, dst')
  end.
