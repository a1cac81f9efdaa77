(** Compressed texture data kept with an image (src-IL/src/il_dds.cpp): setting it, decompressing
    DXT1, DXT3 and DXT5, flipping it, inverting its alpha. *)
From Coq Require Import ZArith List Lia Bool.
From Verif Require Import Base Enums Utility Image Elem Endian.
Import ListNotations.
Open Scope Z_scope.

(* include/IL/il.h:386-390 *)
Definition IL_DXT1 : Z := 1798.
Definition IL_DXT3 : Z := 1800.
Definition IL_DXT5 : Z := 1802.

(** an image with the fields DxtcData, DxtcFormat and DxtcSize (include/IL/devil_internal_exports.h:87-89) *)
Record surf := mkSurf { simg : img; DxtcData : option (list Z); DxtcFormat : Z; DxtcSize : Z }.

(** ** Colours *)

(** Color8888, include/il_dds.h *)
Record colour8 := C8 { c_r : Z; c_g : Z; c_b : Z; c_a : Z }.

(** DxtcReadColors, il_dds.cpp:1221-1240: one of the two colours, from its two bytes; the alpha
    field is not set *)
Definition DxtcReadColors (D0 D1 : Z) : colour8 :=
  let b := Z.land D0 31 in
  let g := Z.lor (Z.shiftr (Z.land D0 224) 5) (Z.shiftl (Z.land D1 7) 3) in
  let r := Z.shiftr (Z.land D1 248) 3 in
  C8 (u8 (Z.lor (Z.shiftl r 3) (Z.shiftr r 2))) (u8 (Z.lor (Z.shiftl g 2) (Z.shiftr g 3))) (u8 (Z.lor (Z.shiftl b 3) (Z.shiftr b 2))) 0.

(** DxtcReadColor, il_dds.cpp:1243-1254 *)
Definition DxtcReadColor (Data a : Z) : colour8 :=
  let b := Z.land Data 31 in
  let g := Z.shiftr (Z.land Data 2016) 5 in
  let r := Z.shiftr (Z.land Data 63488) 11 in
  C8 (u8 (Z.lor (Z.shiftl r 3) (Z.shiftr r 2))) (u8 (Z.lor (Z.shiftl g 2) (Z.shiftr g 3))) (u8 (Z.lor (Z.shiftl b 3) (Z.shiftr r 2))) a.

(** (2 * a + b + 1) / 3 in the three components, e.g. il_dds.cpp:1302-1304 *)
Definition third (a b : colour8) (alpha : Z) : colour8 :=
  C8 (u8 ((2 * c_r a + c_r b + 1) / 3)) (u8 ((2 * c_g a + c_g b + 1) / 3)) (u8 ((2 * c_b a + c_b b + 1) / 3)) alpha.
(** (a + b) / 2, il_dds.cpp:2741-2743 *)
Definition middle (a b : colour8) (alpha : Z) : colour8 :=
  C8 (u8 ((c_r a + c_r b) / 2)) (u8 ((c_g a + c_g b) / 2)) (u8 ((c_b a + c_b b) / 2)) alpha.

(** (bitmask & (0x03 << k*2)) >> k*2, e.g. il_dds.cpp:1316 *)
Definition Select (bitmask k : Z) : Z := Z.shiftr (Z.land bitmask (u32 (Z.shiftl 3 (k * 2)))) (k * 2).

(** the byte offset of a pixel, e.g. il_dds.cpp:1320; [Bps] and [SizeOfPlane] of the image *)
Definition offs (im : img) (x y z : Z) : Z := u32 (z * SizeOfPlane im + y * Bps im + x * Bpp im).

(** an unsigned integer of [n] bytes in memory, lowest byte first (il_endian.h: no swap) *)
Fixpoint rdn (c : list Z) (p : Z) (n : nat) : res Z :=
  match n with O => Ok 0 | S n => let! b := rd c p in let! r := rdn c (p + 1) n in Ok (b + 256 * r) end.

(** the loops over the sixteen pixels of a block, il_dds.cpp:1313-1327 (and 1402-1417, 2753-2766):
    [put] stores one pixel *)
Definition put_block (im : img) (x y z : Z) (colours : list colour8) (bitmask : Z) (alpha : bool) (d : list Z) : res (list Z) :=
  let! (_, d) := loop 0 4 (fun j => loop 0 4 (fun i '(k, d) =>
    let col := nth (Z.to_nat (Select bitmask k)) colours (C8 0 0 0 0) in
    if (u32 (x + i) <? Width im) && (u32 (y + j) <? Height im) then
      let o := offs im (x + i) (y + j) z in
      let! d := wr d o (c_r col) in
      let! d := wr d (o + 1) (c_g col) in
      let! d := wr d (o + 2) (c_b col) in
      let! d := (if alpha then wr d (o + 3) (c_a col) else Ok d) in
      Ok (k + 1, d)
    else Ok (k + 1, d))) (0, d) in
  Ok d.

(** the blocks of an image in order, e.g. il_dds.cpp:1287-1290 *)
Definition blocks (im : img) (block : Z -> Z -> Z -> Z * list Z -> res (Z * list Z)) (d : list Z) : res (list Z) :=
  let! (_, d) := loop 0 (Depth im) (fun z => stride 0 (Height im) 4 (fun y => stride 0 (Width im) 4 (fun x => block x y z))) (0, d) in
  Ok d.

(** DecompressDXT1, il_dds.cpp:2692-2773 *)
Definition block1 (im : img) (c : list Z) (x y z : Z) (st : Z * list Z) : res (Z * list Z) :=
  let '(T, d) := st in
  let! color_0 := rdn c T 2 in
  let! color_1 := rdn c (T + 2) 2 in
  let c0 := DxtcReadColor color_0 255 in
  let c1 := DxtcReadColor color_1 255 in
  let! bitmask := rdn c (T + 4) 4 in
  let colours := if color_1 <? color_0 then [c0; c1; third c0 c1 255; third c1 c0 255] else [c0; c1; middle c0 c1 255; third c1 c0 0] in
  let! d := put_block im x y z colours bitmask true d in
  Ok (T + 8, d).
Definition DecompressDXT1 (im : img) (c d : list Z) : res (list Z) := blocks im (block1 im c) d.

(** the colours and the bit mask of a DXT3 or DXT5 block at [T], il_dds.cpp:1293-1310 *)
Definition block_colours (c : list Z) (T : Z) : res (list colour8 * Z) :=
  let! a := rd c T in let! b := rd c (T + 1) in
  let! a' := rd c (T + 2) in let! b' := rd c (T + 3) in
  let c0 := DxtcReadColors a b in
  let c1 := DxtcReadColors a' b' in
  let! bitmask := rdn c (T + 4) 4 in
  Ok ([c0; c1; third c0 c1 0; third c1 c0 0], bitmask).

(** DecompressDXT3, il_dds.cpp:1273-1342 *)
Definition alpha3 (im : img) (c : list Z) (A x y z : Z) (d : list Z) : res (list Z) :=
  loop 0 4 (fun j d =>
    let! a := rd c (A + 2 * j) in let! b := rd c (A + 2 * j + 1) in
    let! (_, d) := loop 0 4 (fun i '(word, d) =>
      if (u32 (x + i) <? Width im) && (u32 (y + j) <? Height im) then
        let o := u32 (offs im (x + i) (y + j) z + 3) in
        let! d := wr d o (Z.land word 15) in
        let! v := rd d o in
        let! d := wr d o (u8 (Z.lor v (Z.shiftl v 4))) in
        Ok (Z.shiftr word 4, d)
      else Ok (Z.shiftr word 4, d)) (u16 (a + 256 * b), d) in
    Ok d) d.
Definition block3 (im : img) (c : list Z) (x y z : Z) (st : Z * list Z) : res (Z * list Z) :=
  let '(T, d) := st in
  let! (colours, bitmask) := block_colours c (T + 8) in
  let! d := put_block im x y z colours bitmask false d in
  let! d := alpha3 im c T x y z d in
  Ok (T + 16, d).
Definition DecompressDXT3 (im : img) (c d : list Z) : res (list Z) := blocks im (block3 im c) d.

(** DecompressDXT5, il_dds.cpp:1358-1473; the test at 1374 cannot fail inside the loops *)
Definition alphas5 (a0 a1 : Z) : list Z :=
  if a1 <? a0 then
    [a0; a1; u8 ((6 * a0 + 1 * a1 + 3) / 7); u8 ((5 * a0 + 2 * a1 + 3) / 7); u8 ((4 * a0 + 3 * a1 + 3) / 7);
     u8 ((3 * a0 + 4 * a1 + 3) / 7); u8 ((2 * a0 + 5 * a1 + 3) / 7); u8 ((1 * a0 + 6 * a1 + 3) / 7)]
  else
    [a0; a1; u8 ((4 * a0 + 1 * a1 + 2) / 5); u8 ((3 * a0 + 2 * a1 + 2) / 5); u8 ((2 * a0 + 3 * a1 + 2) / 5);
     u8 ((1 * a0 + 4 * a1 + 2) / 5); 0; 255].
(** il_dds.cpp:1446-1456 for [lo] = 0, 1460-1470 for [lo] = 2 *)
Definition alpha5 (im : img) (alphas : list Z) (lo bits x y z : Z) (d : list Z) : res (list Z) :=
  let! (_, d) := loop lo (lo + 2) (fun j => loop 0 4 (fun i '(bits, d) =>
    if (u32 (x + i) <? Width im) && (u32 (y + j) <? Height im) then
      let! v := rd alphas (Z.land bits 7) in
      let! d := wr d (u32 (offs im (x + i) (y + j) z + 3)) v in
      Ok (Z.shiftr bits 3, d)
    else Ok (Z.shiftr bits 3, d))) (bits, d) in
  Ok d.
Definition block5 (im : img) (c : list Z) (x y z : Z) (st : Z * list Z) : res (Z * list Z) :=
  let '(T, d) := st in
  let! a0 := rd c T in
  let! a1 := rd c (T + 1) in
  let! (colours, bitmask) := block_colours c (T + 8) in
  let! d := put_block im x y z colours bitmask false d in
  let! bits := rdn c (T + 2) 3 in
  let! d := alpha5 im (alphas5 a0 a1) 0 bits x y z d in
  let! bits := rdn c (T + 5) 3 in
  let! d := alpha5 im (alphas5 a0 a1) 2 bits x y z d in
  Ok (T + 16, d).
Definition DecompressDXT5 (im : img) (c d : list Z) : res (list Z) := blocks im (block5 im c) d.

(** ** The interface *)

(** ilTexImageDxtc, il_dds.cpp:2332-2398 on a current image; its old contents are released.  The
    sizes are ILint: a product that does not fit is undefined. *)
Definition ilTexImageDxtc (alloc : allocator) (w h d DxtFormat : Z) (data : option (list Z)) : res (bool * surf) :=
  let xBlocks := Z.quot (w + 3) 4 in
  let yBlocks := Z.quot (h + 3) 4 in
  let BlockSize := if DxtFormat =? IL_DXT1 then 8 else 16 in
  let DataSize := yBlocks * (xBlocks * BlockSize) * d in
  let im := mkImg (u32 w) (u32 h) (u32 d) 0 0 0 None 0 0 0 0 IL_ORIGIN_LOWER_LEFT (mkPal None 0 IL_PAL_NONE) 0 0 0 0 in
  if (2147483647 <? w + 3) || (2147483647 <? h + 3) || (2147483647 <? xBlocks * BlockSize) || (2147483647 <? yBlocks * (xBlocks * BlockSize)) || (2147483647 <? DataSize) || (DataSize <? 0) then UB
  else
    match alloc DataSize with
    | None => Ok (false, mkSurf im None DxtFormat DataSize)
    | Some b =>
        match data with
        | None => Ok (true, mkSurf im (Some b) DxtFormat DataSize)
        | Some src => let! b := memcpy b 0 src 0 DataSize in Ok (true, mkSurf im (Some b) DxtFormat DataSize)
        end
    end.

(** ilDxtcDataToSurface, il_dds.cpp:2192-2244 on a current image; ilFixCur is the identity when no
    conversion state is set.  The result, the image, the errors set. *)
Definition ilDxtcDataToSurface (alloc : allocator) (s : surf) : res (bool * surf * list Z) :=
  match DxtcData s with
  | None => Ok (false, s, [IL_INVALID_PARAM])
  | Some c =>
      if negb ((DxtcFormat s =? IL_DXT1) || (DxtcFormat s =? IL_DXT3) || (DxtcFormat s =? IL_DXT5)) then Ok (false, s, [IL_INVALID_PARAM])
      else
        let im := simg s in
        let bps := u32 (Width im * 4 * 1) in
        let plane := u32 (Height im * bps) in
        let size := u32 (plane * Depth im) in
        let old := if SizeOfData im =? size then Data im else None in
        match (match old with Some d => Some d | None => alloc size end) with
        | None => UB
        | Some d =>
            let im := mkImg (Width im) (Height im) (Depth im) 4 1 bps (Some d) size plane IL_RGBA IL_UNSIGNED_BYTE (Origin im) (Pal im) (Duration im) (CubeFlags im) (OffX im) (OffY im) in
            let! d := (if DxtcFormat s =? IL_DXT1 then DecompressDXT1 im c d else if DxtcFormat s =? IL_DXT3 then DecompressDXT3 im c d else DecompressDXT5 im c d) in
            Ok (true, mkSurf (with_Origin (with_Data im (Some d)) IL_ORIGIN_UPPER_LEFT) (Some c) (DxtcFormat s) (DxtcSize s), [])
        end
  end.

(** ** Flipping *)

(** swapping bytes [p] and [q] *)
Definition swap (d : list Z) (p q : Z) : res (list Z) :=
  let! a := rd d p in let! b := rd d q in let! d := wr d p b in wr d q a.
(** iFlipColorBlock, il_dds.cpp:2405-2416 *)
Definition iFlipColorBlock (p : Z) (d : list Z) : res (list Z) := let! d := swap d (p + 4) (p + 7) in swap d (p + 5) (p + 6).
(** iFlipSimpleAlphaBlock, il_dds.cpp:2418-2429: swapping elements of two bytes *)
Definition iFlipSimpleAlphaBlock (p : Z) (d : list Z) : res (list Z) :=
  let! d := swap d p (p + 6) in let! d := swap d (p + 1) (p + 7) in
  let! d := swap d (p + 2) (p + 4) in swap d (p + 3) (p + 5).
(** iComplexAlphaHelper, il_dds.cpp:2431-2443 *)
Definition iComplexAlphaHelper (p : Z) (d : list Z) : res (list Z) :=
  let! d0 := rd d p in let! d1 := rd d (p + 1) in let! d2 := rd d (p + 2) in
  let t0 := Z.land (Z.lor d0 (Z.shiftl d1 8)) 4095 in
  let t1 := Z.land (Z.lor (Z.shiftr d1 4) (Z.shiftl d2 4)) 4095 in
  let! d := wr d p (u8 t1) in
  let! d := wr d (p + 1) (u8 (Z.lor (Z.shiftr t1 8) (Z.shiftl t0 4))) in
  wr d (p + 2) (u8 (Z.shiftr t0 4)).
(** iFlipComplexAlphaBlock, il_dds.cpp:2445-2458 *)
Definition iFlipComplexAlphaBlock (p : Z) (d : list Z) : res (list Z) :=
  let! d := swap d (p + 2) (p + 5) in let! d := swap d (p + 3) (p + 6) in let! d := swap d (p + 4) (p + 7) in
  let! d := iComplexAlphaHelper (p + 2) d in
  iComplexAlphaHelper (p + 5) d.
(** iFlipDxt1, iFlipDxt3, iFlipDxt5, il_dds.cpp:2460-2488 *)
Definition flip_block (fmt p : Z) (d : list Z) : res (list Z) :=
  if fmt =? IL_DXT1 then iFlipColorBlock p d
  else if fmt =? IL_DXT3 then let! d := iFlipSimpleAlphaBlock p d in iFlipColorBlock (p + 8) d
  else let! d := iFlipComplexAlphaBlock p d in iFlipColorBlock (p + 8) d.
Definition FlipBlocks (fmt bs p count : Z) (d : list Z) : res (list Z) :=
  loop 0 count (fun i d => flip_block fmt (p + i * bs) d) d.

(** one plane, il_dds.cpp:2549-2573 *)
Definition flip_plane (fmt bs nx ny Runner : Z) (d : list Z) : res (list Z) :=
  let LineSize := nx * bs in
  let! d := loop 0 (ny / 2) (fun y d =>
    let Top := Runner + y * LineSize in
    let Bottom := Runner + (ny - 1) * LineSize - y * LineSize in
    if negb (inb (zlen d) Top LineSize && inb (zlen d) Bottom LineSize) then UB else
    let Temp := slice d Top LineSize in
    let d := splice d Top (slice d Bottom LineSize) in
    let d := splice d Bottom Temp in
    let! d := FlipBlocks fmt bs Top nx d in
    FlipBlocks fmt bs Bottom nx d) d in
  if negb (ny mod 2 =? 0) then FlipBlocks fmt bs (Runner + ny / 2 * LineSize) nx d else Ok d.

(** ilFlipSurfaceDxtcData, il_dds.cpp:2501-2578 for the formats DXT1, DXT3 and DXT5 (others: not
    modelled, an invalid parameter here).  The block counts and sizes are taken not to wrap. *)
Definition ilFlipSurfaceDxtcData (alloc : allocator) (s : surf) : res (surf * list Z) :=
  match DxtcData s with
  | None => Ok (s, [IL_INVALID_PARAM])
  | Some c =>
      let im := simg s in
      let nx := (Width im + 3) / 4 in
      let ny := (Height im + 3) / 4 in
      if negb ((DxtcFormat s =? IL_DXT1) || (DxtcFormat s =? IL_DXT3) || (DxtcFormat s =? IL_DXT5)) then Ok (s, [IL_INVALID_PARAM])
      else
        let bs := if DxtcFormat s =? IL_DXT1 then 8 else 16 in
        match alloc (nx * bs) with
        | None => Ok (s, [IL_OUT_OF_MEMORY])
        | Some _ =>
            let! c := loop 0 (Depth im) (fun z => flip_plane (DxtcFormat s) bs nx ny (z * (nx * bs * ny))) c in
            Ok (mkSurf im (Some c) (DxtcFormat s) (DxtcSize s), [])
        end
  end.

(** ** Inverting alpha *)

(** iInvertDxt3Alpha, il_dds.cpp:2581-2600 *)
Definition iInvertDxt3Alpha (p : Z) (d : list Z) : res (list Z) :=
  loop 0 8 (fun i d => let! v := rd d (p + i) in wr d (p + i) (u8 (Z.lnot v))) d.
(** the three bytes of indices, il_dds.cpp:2624-2642 *)
Definition map1 : list Z := [1; 0; 7; 6; 5; 4; 3; 2].
Definition map2 : list Z := [1; 0; 5; 4; 3; 2; 7; 6].
Definition fix_indices (m : list Z) (p : Z) (d : list Z) : res (list Z) :=
  let! in_ := rdn d p 3 in
  let! out := loop 0 8 (fun j out =>
    let! b := rd m (Z.land (Z.shiftr in_ (j * 3)) 7) in
    Ok (Z.lor out (Z.shiftl b (j * 3)))) 0 in
  let! d := wr d p (u8 out) in
  let! d := wr d (p + 1) (u8 (Z.shiftr out 8)) in
  wr d (p + 2) (u8 (Z.shiftr out 16)).
(** iInvertDxt5Alpha, il_dds.cpp:2602-2643 *)
Definition iInvertDxt5Alpha (p : Z) (d : list Z) : res (list Z) :=
  let! a0 := rd d p in let! a1 := rd d (p + 1) in
  let! d := wr d p (u8 (255 - a1)) in
  let! d := wr d (p + 1) (u8 (255 - a0)) in
  let m := if a1 <? a0 then map1 else map2 in
  let! d := fix_indices m (p + 2) d in
  fix_indices m (p + 5) d.

(** ilInvertSurfaceDxtcDataAlpha, il_dds.cpp:2645-2687; numBlocks is taken not to overflow *)
Definition ilInvertSurfaceDxtcDataAlpha (s : surf) : res (bool * surf * list Z) :=
  match DxtcData s with
  | None => Ok (false, s, [IL_INVALID_PARAM])
  | Some c =>
      let im := simg s in
      let n := (Width im + 3) / 4 * ((Height im + 3) / 4) * Depth im in
      if negb ((DxtcFormat s =? IL_DXT3) || (DxtcFormat s =? IL_DXT5)) then Ok (false, s, [IL_INVALID_PARAM])
      else
        let! c := loop 0 n (fun i => if DxtcFormat s =? IL_DXT3 then iInvertDxt3Alpha (i * 16) else iInvertDxt5Alpha (i * 16)) c in
        Ok (true, mkSurf im (Some c) (DxtcFormat s) (DxtcSize s), [])
  end.
