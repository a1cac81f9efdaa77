(** Model of ilBlit and ilOverlayImage, src-IL/src/il_devil.cpp:717-879. *)
From Coq Require Import ZArith List Bool QArith Qround.
From Verif Require Import Base Enums Utility Image Flip Elem Float ConvBuff.
Import ListNotations.
Open Scope Z_scope.

(** il_devil.cpp:801-803: extent after the comparison with the destination, [off] signed *)
Definition clip_blit (lim off ext : Z) : Z := if lim <? u32 (ext + off) then u32 (lim - off) else ext.

(** il_devil.cpp:818-821 and 841-848 for 8-bit destinations: [Front] is the alpha over 255.0f,
    [Back] is 1.0f - Front, and the new byte the truncated sum, in single precision.  The cast is
    undefined out of range. *)
Definition blend_byte (a s d : Z) : res Z :=
  let front := val (rnd 24 (-149) (inject_Z a / 255)) in
  let back := val (rnd 24 (-149) (1 - front)) in
  let r := val (rnd 24 (-149) (val (rnd 24 (-149) (inject_Z s * front)) + val (rnd 24 (-149) (inject_Z d * back)))) in
  if Qfloor r <? 256 then Ok (Qfloor r) else UB.

(** ilBlit, il_devil.cpp:731-879, on two different images: [Dest] is the current image, [Src] the
    one named by Source; both exist.  [fblend] stands for the blending of channels wider than a
    byte.  Not modelled: the memory leaked when the conversion fails.
    Result: return value, destination, and whether the destination is bound again. *)
Section B.
Variables (fcast : Z -> Z -> list Z -> list Z) (flum : bool -> bool -> Z -> list Z -> list Z -> list Z -> list Z)
  (pal : list Z -> res (option (list Z) * list Z)) (alloc : allocator) (scr1 scr2 : scratch)
  (fblend : Z -> list Z -> Z -> Z -> res Z).

(** il_devil.cpp:811-839: the alpha element read for one pixel; no case for IL_HALF *)
Definition blit_alpha (Ty : Z) (cv : list Z) (i : Z) : res (list Z) :=
  if Ty =? IL_HALF then Ok [] else rde cv (ilGetBpcType Ty) i.

(** one pixel, 808-856 and 865-868 *)
Definition blit_pixel (blend alpha : bool) (Dest : img) (cv : list Z) (s t : Z) (d : list Z) : res (list Z) :=
  let bpp := Bpp Dest in
  let copy d := loop 0 bpp (fun c d => let! v := rd cv (u32 (s + c)) in wr d (u32 (t + c)) v) d in
  if alpha then
    let! a := blit_alpha (Type_ Dest) cv (u32 (s + (bpp - 1))) in
    if blend then
      loop 0 (bpp - 1) (fun c d =>
        let! v := rd cv (u32 (s + c)) in
        let! o := rd d (u32 (t + c)) in
        let! r := (if case (Type_ Dest) bytes_t then blend_byte (geti a 0) v o else fblend (Type_ Dest) a v o) in
        wr d (u32 (t + c)) r) d
    else copy d
  else copy d.

(** the loops, 805-873 *)
Definition blit_loops (blend alpha : bool) (Dest Src : img) (cv : list Z) (DX DY DZ SX SY SZ W H D : Z) (d : list Z) : res (list Z) :=
  let ConvBps := u32 (Bpp Dest * Width Src) in                                   (* 793-794 *)
  let ConvSizePlane := u32 (ConvBps * Height Src) in
  loop 0 (clip_blit (Depth Dest) DZ D) (fun z =>
    loop 0 (clip_blit (Height Dest) DY H) (fun y =>
      loop 0 (clip_blit (Width Dest) DX W) (fun x =>
        blit_pixel blend alpha Dest cv
          (u32 (u32 (z + SZ) * ConvSizePlane + u32 (y + SY) * ConvBps + u32 (x + SX) * Bpp Dest))
          (u32 (u32 (z + DZ) * SizeOfPlane Dest + u32 (y + DY) * Bps Dest + u32 (x + DX) * Bpp Dest))))) d.

Definition ilBlit (blend : bool) (Dest Src : img) (DX DY DZ SX SY SZ W H D : Z) : res (bool * img * bool) :=
  let flipped := Origin Dest =? IL_ORIGIN_LOWER_LEFT in
  let! Dest := (if flipped then ilFlipImage scr1 Dest else Ok Dest) in           (* 754-757 *)
  let back Dest := if flipped then ilFlipImage scr2 Dest else Ok Dest in
  let own := match Data Src with Some b => b | None => [] end in
  let! t := (if Origin Src =? IL_ORIGIN_LOWER_LEFT then iGetFlipped alloc Src else Ok (Some own)) in  (* 772-786 *)
  match t with
  | None => let! Dest := back Dest in Ok (false, Dest, true)
  | Some t =>
      let! (cv, _) := ilConvertBuffer fcast flum pal alloc (SizeOfData Src) (Format Src) (Format Dest) (Type_ Src) (Type_ Dest) t in
      match cv with
      | None => Ok (false, Dest, false)                                          (* 790-791 *)
      | Some cv =>
          let alpha := case (Format Src) [IL_RGBA; IL_BGRA; IL_LUMINANCE_ALPHA] in
          let d := match Data Dest with Some b => b | None => [] end in
          let! d := blit_loops blend alpha Dest Src cv DX DY DZ SX SY SZ W H D d in
          let! Dest := back (match Data Dest with Some _ => with_Data Dest (Some d) | None => Dest end) in
          Ok (true, Dest, true)
      end
  end.

(** ilOverlayImage, il_devil.cpp:717-728 *)
Definition ilOverlayImage (blend : bool) (Dest Src : img) (X Y Z_ : Z) : res (bool * img * bool) :=
  ilBlit blend Dest Src X Y Z_ 0 0 0 (Width Src) (Height Src) (Depth Src).
End B.
