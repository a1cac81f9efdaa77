(** Model of the region copies ilCopyPixels / ilSetPixels, src-IL/src/il_manip.cpp:381-803.

    [om] is the origin setting: [Some m] when IL_ORIGIN_SET is enabled with mode [m], [None]
    when disabled.  Buffers are byte lists; a NULL pixel pointer is the empty list (any access
    is then [UB]).  The result [None] stands for IL_FALSE. *)
From Coq Require Import ZArith List Bool.
From Verif Require Import Base Enums Utility Image Flip.
Import ListNotations.
Open Scope Z_scope.

(** il_manip.cpp:384-392 (and the same lines of the other functions): the buffer accessed,
    the image's own or a flipped copy of it.  [Some (b, flipped?)]. *)
Definition iOriginData (alloc : allocator) (om : option Z) (im : img) : res (option (list Z * bool)) :=
  let own := match Data im with Some b => b | None => [] end in
  match om with
  | Some m => if m =? Origin im then Ok (Some (own, false))
              else let! f := iGetFlipped alloc im in
                   match f with Some b => Ok (Some (b, true)) | None => Ok None end
  | None => Ok (Some (own, false))
  end.

(** [for (x = 0; x < NewBps; x += PixBpp)], [x] a 32-bit unsigned: iteration [i] has
    [x = i * PixBpp]; if the last increment wraps the loop never ends ([Fuel]). *)
Definition xloop {S} (newbps pix : Z) (body : Z -> S -> res S) (s : S) : res S :=
  if newbps =? 0 then Ok s
  else if pix =? 0 then Fuel
  else
    let n := (newbps + pix - 1) / pix in
    if n * pix <? 4294967296 then loop 0 n (fun i => body (i * pix)) s else Fuel.

(** il_manip.cpp:396-401: clipped extent in bytes *)
Definition clip_bps (W XOff Width pix : Z) : Z :=
  if W <? u32 (XOff + Width) then u32 (u32 (W - XOff) * pix) else u32 (Width * pix).
(** il_manip.cpp:438-441: clipped extent in rows or planes *)
Definition clip (H YOff Height : Z) : Z :=
  if H <? u32 (YOff + Height) then u32 (H - YOff) else Height.

(** il_manip.cpp:381-414 [ilCopyPixels1D] *)
Definition ilCopyPixels1D (alloc : allocator) (om : option Z) (im : img) (XOff W : Z) (dst : list Z)
  : res (option (list Z)) :=
  let! o := iOriginData alloc om im in
  match o with
  | None => Ok None
  | Some (src, _) =>
      let pix := Bpp im * Bpc im in
      let newbps := clip_bps (Width im) XOff W pix in
      let newoff := u32 (XOff * pix) in
      let! dst := xloop newbps pix (fun x => loop 0 pix (fun c dst =>
          let! v := rd src (u32 (u32 (x + newoff) + c)) in
          wr dst (u32 (x + c)) v)) dst in
      Ok (Some dst)
  end.

(** il_manip.cpp:418-459 [ilCopyPixels2D] *)
Definition ilCopyPixels2D (alloc : allocator) (om : option Z) (im : img) (XOff YOff W H : Z) (dst : list Z)
  : res (option (list Z)) :=
  let! o := iOriginData alloc om im in
  match o with
  | None => Ok None
  | Some (src, _) =>
      let pix := Bpp im * Bpc im in
      let newbps := clip_bps (Width im) XOff W pix in
      let newh := clip (Height im) YOff H in
      let databps := u32 (W * pix) in
      let newxoff := u32 (XOff * pix) in
      let! dst := loop 0 newh (fun y => xloop newbps pix (fun x => loop 0 pix (fun c dst =>
          let! v := rd src (u32 (u32 (y + YOff) * Bps im + x + newxoff + c)) in
          wr dst (u32 (y * databps + x + c)) v))) dst in
      Ok (Some dst)
  end.

(** il_manip.cpp:463-514 [ilCopyPixels3D] *)
Definition ilCopyPixels3D (alloc : allocator) (om : option Z) (im : img)
    (XOff YOff ZOff W H D : Z) (dst : list Z) : res (option (list Z)) :=
  let! o := iOriginData alloc om im in
  match o with
  | None => Ok None
  | Some (src, _) =>
      let pix := Bpp im * Bpc im in
      let newbps := clip_bps (Width im) XOff W pix in
      let newh := clip (Height im) YOff H in
      let newd := clip (Depth im) ZOff D in
      let databps := u32 (W * pix) in
      let newplane := u32 (newbps * newh) in
      let newxoff := u32 (XOff * pix) in
      let! dst := loop 0 newd (fun z => loop 0 newh (fun y => xloop newbps pix (fun x =>
        loop 0 pix (fun c dst =>
          let! v := rd src (u32 (u32 (z + ZOff) * SizeOfPlane im + u32 (y + YOff) * Bps im + x + newxoff + c)) in
          wr dst (u32 (z * newplane + y * databps + x + c)) v)))) dst in
      Ok (Some dst)
  end.

(** A pixel-format converter standing for ilConvertBuffer (modelled in ConvBuff.v):
    size, source format, destination format, source type, destination type, buffer. *)
Definition converter := Z -> Z -> Z -> Z -> Z -> list Z -> res (option (list Z)).

(** il_manip.cpp:517-583 [ilCopyPixels]: returned size, contents of the caller's buffer after
    the call, errors raised by this function itself. *)
Definition ilCopyPixels (alloc : allocator) (conv : converter) (om : option Z) (im : img)
    (XOff YOff ZOff W H D fmt typ : Z) (data : option (list Z)) : res (Z * option (list Z) * list Z) :=
  let destsize := u32 (W * H * D * ilGetBppFormat fmt * ilGetBpcType typ) in
  if destsize =? 0 then Ok (0, data, [])
  else match data with
  | None => Ok (0, data, [IL_INVALID_PARAM])
  | Some buf =>
    if fmt =? IL_COLOUR_INDEX then Ok (0, data, [IL_INVALID_PARAM])
    else
      let srcsize := u32 (W * H * D * Bpp im * Bpc im) in
      let same := (fmt =? Format im) && (typ =? Type_ im) in
      match (if same then Some buf else alloc srcsize) with
      | None => Ok (0, data, [IL_OUT_OF_MEMORY])
      | Some temp =>
          let! r := if u32 (YOff + H) <=? 1 then ilCopyPixels1D alloc om im XOff W temp
                    else if u32 (ZOff + D) <=? 1 then ilCopyPixels2D alloc om im XOff YOff W H temp
                    else ilCopyPixels3D alloc om im XOff YOff ZOff W H D temp in
          match r with
          | None => Ok (0, data, [IL_OUT_OF_MEMORY])
          | Some temp' =>
              if same then Ok (destsize, Some temp', [])
              else
                let! c := conv srcsize (Format im) fmt (Type_ im) typ temp' in
                match c with
                | None => Ok (0, data, [])
                | Some c => let! buf' := memcpy buf 0 c 0 destsize in Ok (destsize, Some buf', [])
                end
          end
      end
  end.

(** il_manip.cpp:600-603: a negative offset becomes (skip, 0); abs(INT_MIN) is undefined *)
Definition skip_of (off : Z) : res (Z * Z) :=
  if off =? -2147483648 then UB
  else if off <? 0 then Ok (- off, 0) else Ok (0, off).

(** il_manip.cpp:605-612: signed clipped extent *)
Definition clip_signed (W XOff Width skip : Z) : Z :=
  let n := if W <? u32 (XOff + Width) then i32 (W - XOff) else i32 Width in
  i32 (n - skip).

(** il_manip.cpp:622-627: when a flipped copy was written, it replaces the image's buffer;
    the origin field is not changed. *)
Definition set_result (im : img) (fl : bool) (tmp : list Z) : img :=
  match Data im with
  | None => if fl then with_Data im (Some tmp) else im
  | Some _ => with_Data im (Some tmp)
  end.

(** il_manip.cpp:587-628 [ilSetPixels1D] *)
Definition ilSetPixels1D (alloc : allocator) (om : option Z) (im : img) (XOff W : Z) (data : list Z)
  : res (option img) :=
  let! o := iOriginData alloc om im in
  match o with
  | None => Ok None
  | Some (dst, fl) =>
      let pix := Bpp im * Bpc im in
      let! (skipx, xoff) := skip_of XOff in
      let neww := clip_signed (Width im) xoff W skipx in
      let! dst := loop 0 neww (fun x => loop 0 pix (fun c dst =>
          let! v := rd data (u32 (u32 (x + skipx) * pix + c)) in
          wr dst (u32 (u32 (x + xoff) * pix + c)) v)) dst in
      Ok (Some (set_result im fl dst))
  end.

(** il_manip.cpp:632-685 [ilSetPixels2D] *)
Definition ilSetPixels2D (alloc : allocator) (om : option Z) (im : img) (XOff YOff W H : Z) (data : list Z)
  : res (option img) :=
  let! o := iOriginData alloc om im in
  match o with
  | None => Ok None
  | Some (dst, fl) =>
      let pix := Bpp im * Bpc im in
      let! (skipx, xoff) := skip_of XOff in
      let! (skipy, yoff) := skip_of YOff in
      let neww := clip_signed (Width im) xoff W skipx in
      let newbps := u32 (W * pix) in
      let newh := clip_signed (Height im) yoff H skipy in
      let! dst := loop 0 newh (fun y => loop 0 neww (fun x => loop 0 pix (fun c dst =>
          let! v := rd data (u32 (u32 (y + skipy) * newbps + u32 (x + skipx) * pix + c)) in
          wr dst (u32 (u32 (y + yoff) * Bps im + u32 (x + xoff) * pix + c)) v))) dst in
      Ok (Some (set_result im fl dst))
  end.

(** il_manip.cpp:689-756 [ilSetPixels3D] *)
Definition ilSetPixels3D (alloc : allocator) (om : option Z) (im : img)
    (XOff YOff ZOff W H D : Z) (data : list Z) : res (option img) :=
  let! o := iOriginData alloc om im in
  match o with
  | None => Ok None
  | Some (dst, fl) =>
      let pix := Bpp im * Bpc im in
      let! (skipx, xoff) := skip_of XOff in
      let! (skipy, yoff) := skip_of YOff in
      let! (skipz, zoff) := skip_of ZOff in
      let neww := clip_signed (Width im) xoff W skipx in
      let newbps := u32 (W * pix) in
      let newh := clip_signed (Height im) yoff H skipy in
      let newd := clip_signed (Depth im) zoff D skipz in
      let newplane := u32 (newbps * H) in
      let! dst := loop 0 newd (fun z => loop 0 newh (fun y => loop 0 neww (fun x =>
        loop 0 pix (fun c dst =>
          let! v := rd data (u32 (u32 (z + skipz) * newplane + u32 (y + skipy) * newbps + u32 (x + skipx) * pix + c)) in
          wr dst (u32 (u32 (z + zoff) * SizeOfPlane im + u32 (y + yoff) * Bps im + u32 (x + xoff) * pix + c)) v)))) dst in
      Ok (Some (set_result im fl dst))
  end.

(** il_manip.cpp:759-803 [ilSetPixels]: the image after the call and the errors raised.  An
    allocation failure inside leaves the image alone (IL_OUT_OF_MEMORY was raised). *)
Definition ilSetPixels (alloc : allocator) (conv : converter) (om : option Z) (im : img)
    (XOff YOff ZOff W H D fmt typ : Z) (data : option (list Z)) : res (img * list Z) :=
  match data with
  | None => Ok (im, [IL_INVALID_PARAM])
  | Some buf =>
      let! cv := if (fmt =? Format im) && (typ =? Type_ im) then Ok (Some buf)
                 else conv (u32 (W * H * D * ilGetBppFormat fmt * ilGetBpcType typ))
                           fmt (Format im) typ (Type_ im) buf in
      match cv with
      | None => Ok (im, [])
      | Some buf =>
          let! r := if u32 (YOff + H) <=? 1 then ilSetPixels1D alloc om im XOff W buf
                    else if u32 (ZOff + D) <=? 1 then ilSetPixels2D alloc om im XOff YOff W H buf
                    else ilSetPixels3D alloc om im XOff YOff ZOff W H D buf in
          match r with
          | None => Ok (im, [IL_OUT_OF_MEMORY])
          | Some im' => Ok (im', [])
          end
      end
  end.
