(** Model of further image utilities: src-ILU/src/ilu_filter.cpp (iluPixelize, Filter, iluConvolution),
    ilu_noise.cpp, ilu_rotate.cpp (right angles), ilu_scale.cpp, ilu_scale2d.cpp and ilu_scale3d.cpp (nearest
    and linear filter), ilu_mipmap.cpp and the point lists of ilu_region.cpp.

    The current image is given by value.  [mask] is what iScanFill returned: [None] when no region is set.
    Images with a palette are converted first by these functions; that case is not represented. *)
From Coq Require Import ZArith List Bool QArith Qround.
From Verif Require Import Base Enums Utility Image Elem Channels Endian Float Flip Pixels.
Import ListNotations.
Open Scope Z_scope.

(** ** iluPixelize, ilu_filter.cpp:10-182 *)

(** [RegionMask[k]] where the pointer is not tested first (ilu_filter.cpp:95, 130, 165) *)
Definition rdmask (mask : option (list Z)) (k : Z) : res Z := match mask with Some m => rd m k | None => UB end.

(** the sum over one block and channel (44-53); [n] is the size of an element, offsets count elements.  The
    loop conditions [k < PixSize && z+k < Depth] end at the smaller bound. *)
Definition block_sum (im : img) (d : list Z) (n bps P z y x c : Z) : res (Z * Z) :=
  loop 0 (Z.min P (Depth im - z)) (fun k => loop 0 (Z.min P (Height im - y)) (fun j =>
    loop 0 (Z.min P (Width im - x)) (fun i '(Total, Tested) =>
      let! v := rde d n (u32 ((z + k) * SizeOfPlane im + (y + j) * bps + (x + i) * Bpp im + c)) in
      Ok (u32 (Total + unle v), u32 (Tested + 1))))) (0, 0).

(** iluPixelize for 1, 2 and 4 bytes per channel (case 8 differs only in the arithmetic and is not
    represented).  The mask is tested in two ways: 57-60 for bytes, 95 and 130 otherwise. *)
Definition pixelize (mask : option (list Z)) (im : img) (P : Z) (d : list Z) : res (list Z) :=
  let n := Bpc im in let bps := Bps im / n in
  let! (d, _) := stride 0 (Depth im) P (fun z => stride 0 (Height im) P (fun y => stride 0 (Width im) P (fun x '(d, r) =>
    let! d := loop 0 (Bpp im) (fun c d =>
      let! (Total, Tested) := block_sum im d n bps P z y x c in
      if Tested =? 0 then UB
      else
        let v := Total / Tested in
        loop 0 (Z.min P (Depth im - z)) (fun k => loop 0 (Z.min P (Height im - y)) (fun j =>
          loop 0 (Z.min P (Width im - x)) (fun i d =>
            let! m := if n =? 1 then match mask with None => Ok 1 | Some m => rd m (u32 ((y + j) * Width im + (x + i))) end
                      else rdmask mask (u32 (r + i)) in
            if m =? 0 then Ok d
            else wre d n (u32 ((z + k) * SizeOfPlane im + (y + j) * bps + (x + i) * Bpp im + c)) (le (Z.to_nat n) v)))) d) d in
    Ok (d, u32 (r + P))))) (d, 0) in
  Ok d.

Definition iluPixelize (mask : option (list Z)) (im : img) (PixSize : Z) : res img :=
  match Data im with
  | None => UB
  | Some d => let! d := pixelize mask im (nz1 PixSize) d in Ok (with_Data im (Some d))
  end.

(** ** iluNoisify, ilu_noise.cpp:22-112 *)

(** [Factor] for a tolerance between 0 and 1 (45, 67, 90): the product in single precision, cut to an integer *)
Definition factor (n : Z) (tol : Q) : Z :=
  Qfloor (val (rnd 24 (-149) (tol * val (rnd 24 (-149) (inject_Z ((2 ^ (8 * n) - 1) / 2)))))).

(** one channel: 56-61, 78-83; for 32 bits (101-106) the first test never holds and the second one adds two
    ints, whose overflow is [UB] *)
Definition shifted (n v Val : Z) : res Z :=
  if n =? 4 then
    let s := i32 v + Val in
    if (s <? - 2147483648) || (2147483647 <? s) then UB
    else if s <? 0 then Ok 0 else Ok (u32 (v + Val))
  else if 2 ^ (8 * n) - 1 <? v + Val then Ok (2 ^ (8 * n) - 1)
  else if v + Val <? 0 then Ok 0 else Ok (v + Val).

(** [rand k] is the value of the k-th call of rand(); [rand() % Factor2] with 0 is [UB] *)
Definition noise (rand : Z -> Z) (mask : option (list Z)) (F n bpp N : Z) (d : list Z) : res (list Z) :=
  let F2 := u32 (F + F) in
  let! (d, _) := stride 0 N bpp (fun i '(d, k) =>
    let! m := match mask with None => Ok 1 | Some m => rd m (i / bpp) end in
    if m =? 0 then Ok (d, k)
    else if F2 =? 0 then UB
    else
      let Val := i32 (u32 (rand k mod F2 - F)) in
      let! d := loop 0 bpp (fun c d =>
        let! v := rde d n (u32 (i + c)) in
        let! w := shifted n (unle v) Val in
        wre d n (u32 (i + c)) (le (Z.to_nat n) w)) d in
      Ok (d, k + 1)) (d, 0) in
  Ok d.

Definition iluNoisify (rand : Z -> Z) (mask : option (list Z)) (tol : Q) (im : img) : res img :=
  match Data im with
  | None => UB
  | Some d =>
      if Bpc im =? 8 then Ok im
      else
        let F := factor (Bpc im) tol in
        if F =? 0 then Ok im
        else let! d := noise rand mask F (Bpc im) (Bpp im) (SizeOfData im / Bpc im) d in Ok (with_Data im (Some d))
  end.

(** ** Filter, ilu_filter.cpp:185-409, without a region

    [q] stands for [(ILuint)fabs(Num / (ILdouble)scale + bias)] as a function of [Num]; it is left abstract.
    Indices are exact: ILint arithmetic beyond 2^31 is not represented.  [s] and [d] are the offsets of the
    plane in the source and the result (398-399). *)
Definition conv9 (q : Z -> Z) (m : list Z) (src : list Z) (o : list Z) : res Z :=
  let! v0 := rd src (geti o 0) in let! v1 := rd src (geti o 1) in let! v2 := rd src (geti o 2) in
  let! v3 := rd src (geti o 3) in let! v4 := rd src (geti o 4) in let! v5 := rd src (geti o 5) in
  let! v6 := rd src (geti o 6) in let! v7 := rd src (geti o 7) in let! v8 := rd src (geti o 8) in
  let Num := v0 * geti m 0 + v1 * geti m 1 + v2 * geti m 2 + v3 * geti m 3 + v4 * geti m 4 + v5 * geti m 5
             + v6 * geti m 6 + v7 * geti m 7 + v8 * geti m 8 in
  Ok (if 255 <? q Num then 255 else q Num).

Definition put9 (q : Z -> Z) (m src : list Z) (o : list Z) (t : Z) (d : list Z) : res (list Z) :=
  let! v := conv9 q m src o in wr d t v.

(** one plane; [b] is its offset *)
Definition filter_plane (q : Z -> Z) (m src : list Z) (W H B b : Z) (d : list Z) : res (list Z) :=
  let bps := W * B in
  (* 213-272 *)
  let! d := loop 1 (H - 1) (fun y => loop 1 (W - 1) (fun x => loop 0 B (fun c d =>
    let o dy dx := b + ((y + dy) * W + (x + dx)) * B + c in
    put9 q m src [o (-1) (-1); o (-1) 0; o (-1) 1; o 0 (-1); o 0 0; o 0 1; o 1 (-1); o 1 0; o 1 (-1)] (o 0 0) d))) d in
  (* 276-282 *)
  let! d := loop 0 B (fun c d =>
    let cp i d := let! v := rd src (b + i + c) in wr d (b + i + c) v in
    let! d := cp 0 d in let! d := cp (bps - B) d in let! d := cp ((H - 1) * bps) d in cp (H * bps - B) d) d in
  (* 290-314 *)
  let! d := loop 1 (W - 1) (fun x => loop 0 B (fun c d =>
    let o dx := b + (x + dx) * B + c in let o1 dx := b + (W + (x + dx)) * B + c in
    put9 q m src [o (-1); o 0; o 1; o (-1); o 0; o 1; o1 (-1); o1 0; o1 (-1)] (o 0) d)) d in
  (* 317-341 *)
  let y := (H - 1) * bps in
  let! d := loop 1 (W - 1) (fun x => loop 0 B (fun c d =>
    let o dx := b + y + (x + dx) * B + c in let o1 dx := b + y - bps + (x + dx) * B + c in
    put9 q m src [o1 (-1); o1 0; o1 1; o (-1); o 0; o 1; o (-1); o 0; o (-1)] (o 0) d)) d in
  (* 344-367 *)
  let! d := loop 1 (H - 1) (fun i => loop 0 B (fun c d =>
    let y := i * bps in let o dy k := b + y + dy * bps + k * B + c in
    put9 q m src [o (-1) 0; o (-1) 1; o (-1) 2; o 0 0; o 0 1; o 0 2; o 1 0; o 1 1; o 1 2] (o 0 0) d)) d in
  (* 370-395 *)
  loop 1 (H - 1) (fun i => loop 0 B (fun c d =>
    let y := (i + 1) * bps - B in let o dy k := b + y + dy * bps + k * B + c in
    put9 q m src [o (-1) 0; o (-1) 1; o (-1) 2; o 0 0; o 0 1; o 0 2; o 1 0; o 1 1; o 1 2] (o 0 0) d)) d.

(** [src] is the memory that can be read from the image data on: the pixels, or more than them *)
Definition Filter (q : Z -> Z) (m : list Z) (im : img) (src new : list Z) : res (list Z) :=
  loop 0 (Depth im) (fun z => filter_plane q m src (Width im) (Height im) (Bpp im) (z * SizeOfPlane im)) new.

(** iluConvolution, ilu_filter.cpp:1285-1320, for images of unsigned bytes without palette *)
Definition iluConvolution (alloc : allocator) (q : Z -> Z) (m : list Z) (im : img) : res (callres bool) :=
  match Data im with
  | None => UB
  | Some src =>
      match alloc (SizeOfData im) with
      | None => Ok (false, im, [IL_OUT_OF_MEMORY])
      | Some new => let! d := Filter q m im src new in Ok (true, with_Data im (Some d), [])
      end
  end.

(** ** iluRotate by 90, 180 and 270 degrees, ilu_rotate.cpp:18-62 and 84-363

    The size of the rotated image (102-128) comes from cos and sin in double precision; for the right angles it
    is taken to be the exact one.  The new image is cleared first (133), its contents before the loops are
    left arbitrary. *)
Definition turn (a : Z) (im : img) (src dst : list Z) : res (list Z) :=
  let n := Bpc im in
  let ib := Bps im / n in
  let rb := u32 (Bpp im * n * (if a =? 180 then Width im else Height im)) / n in
  loop 0 (Width im) (fun x => loop 0 (Height im) (fun y =>
    let ro := if a =? 90 then u32 (x * rb + u32 (Width im - 1 - y) * Bpp im)
              else if a =? 180 then u32 (u32 (Height im - 1 - y) * rb + x * Bpp im)
              else u32 (u32 (Height im - 1 - x) * rb + y * Bpp im) in
    let io := u32 (y * ib + x * Bpp im) in
    loop 0 (Bpp im) (fun c d => let! v := rde src n (u32 (io + c)) in wre d n (u32 (ro + c)) v))) dst.

Definition iluRotate (scr alloc : allocator) (a : Z) (im : img) : res (callres bool) :=
  match Data im with
  | None => UB
  | Some src =>
      let W := if a =? 180 then Width im else Height im in
      let H := if a =? 180 then Height im else Width im in
      match scr (u32 (u32 (Bpp im * Bpc im * W) * H)) with
      | None => Ok (false, im, [IL_OUT_OF_MEMORY])
      | Some new =>
          let! new := turn a im src new in
          let! (ok, im', e) := ilInitImage alloc im W H 1 (Bpp im) (Format im) (Type_ im) (Some new) in
          Ok (true, with_Origin im' (Origin im), e)
      end
  end.

(** ** iluScale with ILU_NEAREST *)

(** [ScaleX], ilu_scale2d.cpp:42: a single precision quotient *)
Definition scale (W' W : Z) : Q :=
  val (rnd 24 (-149) (val (rnd 24 (-149) (inject_Z W')) / val (rnd 24 (-149) (inject_Z W)))).
(** [(ILuint)(x / ScaleX)], ilu_scale2d.cpp:66: a double precision quotient, cut to an integer *)
Definition pick (W' W x : Z) : Z := Qfloor (val (rnd 53 (-1074) (inject_Z x / scale W' W))).
(** [ScaleX] of iluScale1D_ is a double precision quotient, ilu_scale.cpp:204 *)
Definition pick1 (W' W x : Z) : Z := Qfloor (val (rnd 53 (-1074) (inject_Z x / val (rnd 53 (-1074) (inject_Z W' / inject_Z W))))).

(** iluScale1D_, ilu_scale.cpp:213-241 *)
Definition scale1 (n B W' W : Z) (src dst : list Z) : res (list Z) :=
  if n =? 8 then Ok dst
  else loop 0 W' (fun x => loop 0 B (fun c d =>
    let! v := rde src n (u32 (pick1 W' W x * B + c)) in wre d n (u32 (x * B + c)) v)) dst.

(** iluScale3DNear_, ilu_scale3d.cpp:53-127; iluScale2DNear_ (ilu_scale2d.cpp:55-110) is the same without the
    outer loop, so it is [scale3] with both depths 1 *)
Definition scale3 (n B W' H' D' W H D : Z) (src dst : list Z) : res (list Z) :=
  if n =? 8 then Ok dst
  else loop 0 D' (fun z => loop 0 H' (fun y => loop 0 W' (fun x => loop 0 B (fun c d =>
    let! v := rde src n (u32 (pick D' D z * (W * B * H) + pick H' H y * (W * B) + pick W' W x * B + c)) in
    wre d n (u32 (z * (W' * B * H') + y * (W' * B) + x * B + c)) v)))) dst.

(** iluScale_, ilu_scale.cpp:137-188.  The contents of the new image before the loops are arbitrary. *)
Definition iluScale_ (alloc : allocator) (im : img) (W H D : Z) : res (option img) :=
  match ilResizeImage alloc im W H D (Bpp im) (Bpc im) with
  | (true, sc, _) =>
      match Data im, Data sc with
      | Some src, Some d =>
          let! d := if (H <=? 1) && (Height im <=? 1) then scale1 (Bpc im) (Bpp im) W (Width im) src d else Ok d in
          let! d := if (D <=? 1) && (Depth im <=? 1) then scale3 (Bpc im) (Bpp im) W H 1 (Width im) (Height im) 1 src d
                    else scale3 (Bpc im) (Bpp im) W H D (Width im) (Height im) (Depth im) src d in
          Ok (Some (with_Data sc (Some d)))
      | _, _ => UB
      end
  | _ => Ok None
  end.

(** iluScale, ilu_scale.cpp:34-133.  A failure of iluScale_ is reported by FALSE only. *)
Definition iluScale (scr alloc : allocator) (im : img) (W H D : Z) : res (callres bool) :=
  if (Width im =? W) && (Height im =? H) && (Depth im =? D) then Ok (true, im, [])
  else
    let! t := iluScale_ scr im (nz1 W) (nz1 H) (nz1 D) in
    match t with
    | None => Ok (false, im, [IL_OUT_OF_MEMORY])
    | Some t =>
        let! (ok, im', e) := ilInitImage alloc im (Width t) (Height t) (Depth t) (Bpp t) (Format t) (Type_ t) (Data t) in
        if ok : bool then Ok (true, with_Origin im' (Origin im), e) else Ok (false, im', e)
    end.

(** iluScale2DLinear_ for one byte per channel, ilu_scale2d.cpp:119-141.  [mix] stands for the interpolation of
    line 138; [t4] is computed in double precision. *)
Definition t4 (W' x : Z) : Q := val (rnd 53 (-1074) (val (rnd 53 (-1074) (inject_Z x / inject_Z W')) * inject_Z W')).
Definition linear2 (mix : Z -> Z -> Z -> Z) (B W' H' W H : Z) (src dst : list Z) : res (list Z) :=
  loop 0 H' (fun y => loop 0 W' (fun x =>
    let i := Qfloor (val (rnd 53 (-1074) (t4 W' x / scale W' W))) in
    let y1 := pick H' H y * (W * B) in
    loop 0 B (fun c d =>
      let! a := rd src (u32 (y1 + i * B + c)) in
      let! b := rd src (u32 (y1 + (i + 1) * B + c)) in
      wr d (u32 (y * (W' * B) + x * B + c)) (mix x a b)))) dst.

(** ** iluBuildMipmaps, ilu_mipmap.cpp:19-60: the outcome and the chain of mipmaps *)
Fixpoint iBuildMipmaps (fuel : nat) (alloc : allocator) (parent : img) (W H D : Z) : res (bool * list img) :=
  match fuel with
  | O => Fuel
  | S fuel =>
      if (Width parent =? 1) && (Height parent =? 1) && (Depth parent =? 1) then Ok (true, [])
      else
        let! t := iluScale_ alloc parent (nz1 W) (nz1 H) (nz1 D) in
        match t with
        | None => Ok (false, [])
        | Some m =>
            let! (_, l) := iBuildMipmaps fuel alloc m (Z.shiftr (Width m) 1) (Z.shiftr (Height m) 1) (Z.shiftr (Depth m) 1) in
            Ok (true, m :: l)
        end
  end.
Definition iluBuildMipmaps (fuel : nat) (alloc : allocator) (im : img) : res (bool * list img) :=
  iBuildMipmaps fuel alloc im (Z.shiftr (Width im) 1) (Z.shiftr (Height im) 1) (Z.shiftr (Depth im) 1).

(** ** The points of a region, ilu_region.cpp:17-70 and their use by iScanFill (226-304)

    [live] lists the blocks that are allocated; freeing anything else, or reading it, is [UB]. *)
Record region := mkRegion { ri : option Z; rf : option Z; num : Z; live : list Z; fresh : Z }.
Definition free_points (p : option Z) (r : region) : res region :=
  match p with
  | None => Ok r
  | Some b => if existsb (Z.eqb b) (live r) then Ok (mkRegion (ri r) (rf r) (num r) (filter (fun x => negb (x =? b)) (live r)) (fresh r)) else UB
  end.
Definition both (r : region) : res region := let! r1 := free_points (ri r) r in free_points (rf r1) r1.

(** [n] points; 0 is the call with NULL or no points; [mem] tells whether ialloc succeeds *)
Definition iluRegionfv (mem : bool) (n : Z) (r : region) : res region :=
  if n =? 0 then let! r := both r in Ok (mkRegion (ri r) None 0 (live r) (fresh r))
  else if n <? 3 then Ok r
  else
    let! r := both r in
    if mem then Ok (mkRegion (ri r) (Some (fresh r)) n (fresh r :: live r) (fresh r + 1))
    else Ok (mkRegion (ri r) None (num r) (live r) (fresh r)).
Definition iluRegioniv (mem : bool) (n : Z) (r : region) : res region :=
  if n =? 0 then let! r := both r in Ok (mkRegion None (rf r) 0 (live r) (fresh r))
  else if n <? 3 then Ok r
  else
    let! r := both r in
    if mem then Ok (mkRegion (Some (fresh r)) (rf r) n (fresh r :: live r) (fresh r + 1))
    else Ok (mkRegion None (rf r) (num r) (live r) (fresh r)).

(** iScanFill: for float points the integer points are allocated anew and released again; otherwise the
    integer points are read *)
Definition scan (mem : bool) (r : region) : res region :=
  match ri r, rf r with
  | None, None => Ok r
  | i, f =>
      if num r =? 0 then Ok r
      else match f with
      | Some b => if negb mem then Ok (mkRegion None (rf r) (num r) (live r) (fresh r))
                  else if existsb (Z.eqb b) (live r) then Ok (mkRegion None (rf r) (num r) (live r) (fresh r + 1)) else UB
      | None => match i with Some b => if existsb (Z.eqb b) (live r) then Ok r else UB | None => Ok r end
      end
  end.
Inductive rop := Fv (mem : bool) (n : Z) | Iv (mem : bool) (n : Z) | Scan (mem : bool).
Definition rstep (o : rop) (r : region) : res region :=
  match o with Fv m n => iluRegionfv m n r | Iv m n => iluRegioniv m n r | Scan m => scan m r end.
Fixpoint rrun (h : list rop) (r : region) : res region :=
  match h with [] => Ok r | o :: h => let! r := rstep o r in rrun h r end.
Definition region0 : region := mkRegion None None 0 [] 1.
