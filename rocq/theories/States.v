(** Model of src-IL/src/il_states.cpp: the state machine (modes, attribute stack, hints,
    format-specific strings, integer queries).

    Representation.  [IL_STATES] (src-IL/include/il_states.h:28-103) is a pair of maps, one for
    the integer members and one for the string pointers.  Strings live in a heap of blocks;
    freeing or reading a block that is not allocated is [UB].  A string block holds the
    characters without the terminating zero. *)
From Coq Require Import ZArith List Bool Lia.
From Verif Require Import Base Enums ErrorStack Utility Image.
Import ListNotations.
Open Scope Z_scope.

(** src-IL/include/il_states.h:30-86: the integer members of [IL_STATES] *)
Inductive ifld :=
| OriginSet | OriginMode | FormatSet | TypeSet | FormatMode | TypeMode | OverWriteFiles
| AutoConvPal | DefaultOnFail | UseKeyColour | BlitBlend | Compression | Interlace
| QuantMode | NeuSample | QuantMaxIndexs | KeepDxtcData | UseNVidiaDXT | UseSquishDXT
| TgaCreateStamp | JpgQuality | PngInterlace | TgaRle | BmpRle | SgiRle | JpgFormat
| JpgProgressive | DxtcFormat | PcdPicNum | PngAlphaIndex | VtfCompression.
Scheme Equality for ifld.

(** src-IL/include/il_states.h:92-102: the string members of [IL_STATES] *)
Inductive sfld :=
| TgaId | TgaAuthName | TgaAuthComment | PngAuthName | PngTitle | PngDescription
| TifDescription | TifHostComputer | TifDocumentName | TifAuthName | CHeader.
Scheme Equality for sfld.

Definition all_sfld : list sfld :=
  [TgaId; TgaAuthName; TgaAuthComment; PngAuthName; PngTitle; PngDescription;
   TifDescription; TifHostComputer; TifDocumentName; TifAuthName; CHeader].

(** [IL_STATES]; a string member is [None] (NULL) or the address of a block *)
Record sts := mkSts { iv : ifld -> Z; sv : sfld -> option Z }.

(** What the queries read of the current image: the image itself, its DXTC block
    (present?, size, format), the lengths of the chains reached through [Next], [Mipmaps],
    [Layers], [Faces], its position among them, and the bound name. *)
Record view := mkView {
  v_img : img;
  v_dxtc : bool; v_dxtc_size : Z; v_dxtc_fmt : Z;
  v_next : Z; v_mipmaps : Z; v_layers : Z; v_faces : Z;
  v_active : Z -> Z;
  v_name : Z }.

(** All the globals: [ilStates], [ilCurrentPos], [ilHints] (il_states.h:25-120), the error
    stack, the current image ([None] when [iCurImage] is NULL), and the string heap with its
    bump pointer. *)
Record gst := mkG {
  slots : Z -> sts; pos : Z;
  mem_hint : Z; comp_hint : Z;
  errs : est;
  cur : option view;
  blocks : Z -> option (list Z); nextb : Z }.

Definition set_slots (g : gst) (f : Z -> sts) : gst :=
  mkG f (pos g) (mem_hint g) (comp_hint g) (errs g) (cur g) (blocks g) (nextb g).
Definition set_pos (g : gst) (p : Z) : gst :=
  mkG (slots g) p (mem_hint g) (comp_hint g) (errs g) (cur g) (blocks g) (nextb g).
Definition set_hints (g : gst) (m c : Z) : gst :=
  mkG (slots g) (pos g) m c (errs g) (cur g) (blocks g) (nextb g).
Definition set_errs (g : gst) (e : est) : gst :=
  mkG (slots g) (pos g) (mem_hint g) (comp_hint g) e (cur g) (blocks g) (nextb g).
Definition set_cur (g : gst) (c : option view) : gst :=
  mkG (slots g) (pos g) (mem_hint g) (comp_hint g) (errs g) c (blocks g) (nextb g).
Definition set_heap (g : gst) (b : Z -> option (list Z)) (n : Z) : gst :=
  mkG (slots g) (pos g) (mem_hint g) (comp_hint g) (errs g) (cur g) b n.

(** update of a map at one place *)
Definition zupd {A} (f : Z -> A) (i : Z) (v : A) : Z -> A := fun k => if k =? i then v else f k.
Definition iupd (f : ifld -> Z) (i : ifld) (v : Z) : ifld -> Z :=
  fun k => if ifld_eq_dec k i then v else f k.
Definition supd (f : sfld -> option Z) (i : sfld) (v : option Z) : sfld -> option Z :=
  fun k => if sfld_eq_dec k i then v else f k.

(** [IL_ATTRIB_STACK_MAX], il_states.h:23 *)
Definition IL_ATTRIB_STACK_MAX : Z := 32.

(** [ilStates[i]]: an access outside the array is [UB] *)
Definition slot (g : gst) (i : Z) : res sts :=
  if (0 <=? i) && (i <? IL_ATTRIB_STACK_MAX) then Ok (slots g i) else UB.
Definition put_slot (g : gst) (i : Z) (s : sts) : res gst :=
  if (0 <=? i) && (i <? IL_ATTRIB_STACK_MAX) then Ok (set_slots g (zupd (slots g) i s)) else UB.

(** [ilStates[ilCurrentPos].f = v] *)
Definition set_int (f : ifld) (v : Z) (g : gst) : res gst :=
  let! s := slot g (pos g) in put_slot g (pos g) (mkSts (iupd (iv s) f v) (sv s)).
Definition set_str (f : sfld) (v : option Z) (g : gst) : res gst :=
  let! s := slot g (pos g) in put_slot g (pos g) (mkSts (iv s) (supd (sv s) f v)).
Definition get_int (f : ifld) (g : gst) : res Z := let! s := slot g (pos g) in Ok (iv s f).
Definition get_str (f : sfld) (g : gst) : res (option Z) := let! s := slot g (pos g) in Ok (sv s f).

(** [ilSetError(e)], il_error.cpp:26-40 *)
Definition raise (e : Z) (g : gst) : res gst :=
  let! s := ilSetError e (errs g) in Ok (set_errs g s).

(** [free(p)] of a live block *)
Definition free_str (a : Z) (g : gst) : res gst :=
  match blocks g a with
  | Some _ => Ok (set_heap g (zupd (blocks g) a None) (nextb g))
  | None => UB
  end.

(** A [const char*] argument: characters owned by the caller, a pointer obtained from the
    library, or NULL. *)
Inductive cstr := CNull | CLit (s : list Z) | CPtr (a : Z).

Definition read_str (c : cstr) (g : gst) : res (list Z) :=
  match c with
  | CNull => UB
  | CLit s => Ok s
  | CPtr a => match blocks g a with Some s => Ok s | None => UB end
  end.

(** [strdup]: [ok n] tells whether the allocation of the block numbered [n] succeeds *)
Definition strdup (ok : Z -> bool) (c : cstr) (g : gst) : res (option Z * gst) :=
  let! s := read_str c g in
  let n := nextb g in
  if ok n then Ok (Some n, set_heap g (zupd (blocks g) n (Some s)) (n + 1))
  else Ok (None, set_heap g (blocks g) (n + 1)).

(** [while (ilGetError() != IL_NO_ERROR);], il_states.cpp:101; the fuel is larger than the
    number of slots *)
Fixpoint drain_errors (fuel : nat) (s : est) : res est :=
  match fuel with
  | O => Fuel
  | S k => let! (v, s') := ilGetError s in
           if v =? IL_NO_ERROR then Ok s' else drain_errors k s'
  end.

(** il_states.cpp:46-92: the values assigned by [ilDefaultStates] *)
Definition default_int (f : ifld) : Z :=
  match f with
  | OriginSet => IL_FALSE | OriginMode => IL_ORIGIN_LOWER_LEFT
  | FormatSet => IL_FALSE | FormatMode => IL_BGRA
  | TypeSet => IL_FALSE | TypeMode => IL_UNSIGNED_BYTE
  | OverWriteFiles => IL_FALSE | AutoConvPal => IL_FALSE | DefaultOnFail => IL_FALSE
  | UseKeyColour => IL_FALSE | BlitBlend => IL_TRUE | Compression => IL_COMPRESS_ZLIB
  | Interlace => IL_FALSE
  | TgaCreateStamp => IL_FALSE | JpgQuality => 99 | PngInterlace => IL_FALSE
  | TgaRle => IL_FALSE | BmpRle => IL_FALSE | SgiRle => IL_FALSE | JpgFormat => IL_JFIF
  | JpgProgressive => IL_FALSE | DxtcFormat => IL_DXT1 | PcdPicNum => 2
  | PngAlphaIndex => -1 | VtfCompression => IL_DXT_NO_COMP
  | QuantMode => IL_WU_QUANT | NeuSample => 15 | QuantMaxIndexs => 256
  | KeepDxtcData => IL_FALSE | UseNVidiaDXT => IL_FALSE | UseSquishDXT => IL_FALSE
  end.
Definition default_sts : sts := mkSts default_int (fun _ => None).

(** il_states.cpp:45-104 [ilDefaultStates] *)
Definition ilDefaultStates (g : gst) : res gst :=
  let! g := put_slot g (pos g) default_sts in
  let g := set_hints g IL_FASTEST IL_USE_COMPRESSION in
  let! e := drain_errors 64 (errs g) in
  Ok (set_errs g e).

(** A [switch] whose cases each name a member *)
Fixpoint switch {A} (m : Z) (cases : list (Z * A)) : option A :=
  match cases with
  | [] => None
  | (c, a) :: rest => if m =? c then Some a else switch m rest
  end.

(** il_states.cpp:124-145: the cases of [ilGetString] and (187-211) [iGetString] and
    (960-1025) [ilSetString] that name a member *)
Definition str_modes : list (Z * sfld) :=
  [(IL_TGA_ID_STRING, TgaId); (IL_TGA_AUTHNAME_STRING, TgaAuthName);
   (IL_TGA_AUTHCOMMENT_STRING, TgaAuthComment); (IL_PNG_AUTHNAME_STRING, PngAuthName);
   (IL_PNG_TITLE_STRING, PngTitle); (IL_PNG_DESCRIPTION_STRING, PngDescription);
   (IL_TIF_DESCRIPTION_STRING, TifDescription); (IL_TIF_HOSTCOMPUTER_STRING, TifHostComputer);
   (IL_TIF_DOCUMENTNAME_STRING, TifDocumentName); (IL_TIF_AUTHNAME_STRING, TifAuthName);
   (IL_CHEAD_HEADER_STRING, CHeader)].

(** il_states.cpp:108-154 [ilGetString], for the names that denote a member; the four constant
    strings (vendor, version, extensions) are not modelled: [GSConst] stands for them. *)
Inductive gstr := GSConst | GSPtr (p : option Z).
Definition ilGetString (m : Z) (g : gst) : res (gstr * gst) :=
  if (m =? IL_VENDOR) || (m =? IL_VERSION_NUM) || (m =? IL_LOAD_EXT) || (m =? IL_SAVE_EXT)
  then Ok (GSConst, g)
  else match switch m str_modes with
       | Some f => let! p := get_str f g in Ok (GSPtr p, g)
       | None => let! g := raise IL_INVALID_ENUM g in Ok (GSPtr None, g)
       end.

(** il_states.cpp:157-179 [iClipString] on a string with characters [s] ([strlen] is its
    length; the block holding it has one more byte, the terminator).  [blk] is the block
    returned by [ialloc(MaxLen + 1)] ([None]: failure). *)
Definition iClipString (s : list Z) (MaxLen : Z) (blk : option (list Z)) : res (option (list Z)) :=
  match blk with
  | None => Ok None
  | Some c =>
      let! c := memcpy c 0 (s ++ [0]) 0 MaxLen in
      let! c := wr c (zlen s) 0 in
      Ok (Some c)
  end.

(** il_states.cpp:234-283 [ilAble] / (287-320) [ilIsEnabled]: mode to member *)
Definition able_modes : list (Z * ifld) :=
  [(IL_ORIGIN_SET, OriginSet); (IL_FORMAT_SET, FormatSet); (IL_TYPE_SET, TypeSet);
   (IL_FILE_OVERWRITE, OverWriteFiles); (IL_CONV_PAL, AutoConvPal);
   (IL_DEFAULT_ON_FAIL, DefaultOnFail); (IL_USE_KEY_COLOUR, UseKeyColour);
   (IL_BLIT_BLEND, BlitBlend); (IL_SAVE_INTERLACED, Interlace);
   (IL_JPG_PROGRESSIVE, JpgProgressive); (IL_NVIDIA_COMPRESS, UseNVidiaDXT);
   (IL_SQUISH_COMPRESS, UseSquishDXT)].

(** il_states.cpp:234-283 [ilAble] *)
Definition ilAble (m : Z) (flag : Z) (g : gst) : res (Z * gst) :=
  match switch m able_modes with
  | Some f => let! g := set_int f flag g in Ok (IL_TRUE, g)
  | None => let! g := raise IL_INVALID_ENUM g in Ok (IL_FALSE, g)
  end.
(** il_states.cpp:218-229 *)
Definition ilEnable (m : Z) (g : gst) := ilAble m IL_TRUE g.
Definition ilDisable (m : Z) (g : gst) := ilAble m IL_FALSE g.

(** il_states.cpp:287-320 [ilIsEnabled]; [ilInterlace] is an [ILenum] returned as
    [ILboolean]: truncated to 8 bits *)
Definition ilIsEnabled (m : Z) (g : gst) : res (Z * gst) :=
  match switch m able_modes with
  | Some f => let! v := get_int f g in Ok (u8 v, g)
  | None => let! g := raise IL_INVALID_ENUM g in Ok (IL_FALSE, g)
  end.

(** il_states.cpp:324-327 [ilIsDisabled] *)
Definition ilIsDisabled (m : Z) (g : gst) : res (Z * gst) :=
  let! (v, g) := ilIsEnabled m g in Ok ((if v =? 0 then 1 else 0), g).

(** il_states.cpp:424-528: the cases of [ilGetIntegerv] that read a member *)
Definition get_modes : list (Z * ifld) :=
  [(IL_COMPRESS_MODE, Compression); (IL_FORMAT_MODE, FormatMode); (IL_INTERLACE_MODE, Interlace);
   (IL_KEEP_DXTC_DATA, KeepDxtcData); (IL_ORIGIN_MODE, OriginMode);
   (IL_MAX_QUANT_INDICES, QuantMaxIndexs); (IL_NEU_QUANT_SAMPLE, NeuSample);
   (IL_QUANTIZATION_MODE, QuantMode); (IL_TYPE_MODE, TypeMode);
   (IL_BMP_RLE, BmpRle); (IL_DXTC_FORMAT, DxtcFormat); (IL_JPG_QUALITY, JpgQuality);
   (IL_JPG_SAVE_FORMAT, JpgFormat); (IL_PCD_PICNUM, PcdPicNum);
   (IL_PNG_ALPHA_INDEX, PngAlphaIndex); (IL_PNG_INTERLACE, PngInterlace); (IL_SGI_RLE, SgiRle);
   (IL_TGA_CREATE_STAMP, TgaCreateStamp); (IL_TGA_RLE, TgaRle); (IL_VTF_COMP, VtfCompression);
   (IL_CONV_PAL, AutoConvPal); (IL_DEFAULT_ON_FAIL, DefaultOnFail); (IL_FILE_MODE, OverWriteFiles);
   (IL_FORMAT_SET, FormatSet); (IL_ORIGIN_SET, OriginSet); (IL_TYPE_SET, TypeSet);
   (IL_USE_KEY_COLOUR, UseKeyColour); (IL_BLIT_BLEND, BlitBlend);
   (IL_JPG_PROGRESSIVE, JpgProgressive); (IL_NVIDIA_COMPRESS, UseNVidiaDXT);
   (IL_SQUISH_COMPRESS, UseSquishDXT)].

(** il_states.cpp:640-656: [IL_PALETTE_BASE_TYPE]; the [switch] has no [break]s, so every known
    palette type falls through to [IL_BGRA] *)
Definition pal_base_type (t : Z) : Z :=
  if (t =? IL_PAL_RGB24) || (t =? IL_PAL_RGB32) || (t =? IL_PAL_RGBA32)
     || (t =? IL_PAL_BGR24) || (t =? IL_PAL_BGR32) || (t =? IL_PAL_BGRA32)
  then IL_BGRA else 0.

(** il_states.cpp:538-660 [iGetIntegervImage]; the outer [None] is the [default] case.
    The values are [unsigned] stored through [ILint*]. *)
Definition image_query (v : view) (m : Z) : option Z :=
  let im := v_img v in
  switch m
    [(IL_DXTC_DATA_FORMAT, if negb (v_dxtc v) || (v_dxtc_size v =? 0) then IL_DXT_NO_COMP
                           else i32 (v_dxtc_fmt v));
     (IL_IMAGE_BITS_PER_PIXEL, Bpp im * 8 * Bpc im);
     (IL_IMAGE_BYTES_PER_PIXEL, Bpp im * Bpc im);
     (IL_IMAGE_BPC, Bpc im); (IL_IMAGE_CHANNELS, Bpp im);
     (IL_IMAGE_CUBEFLAGS, i32 (CubeFlags im)); (IL_IMAGE_DEPTH, i32 (Depth im));
     (IL_IMAGE_DURATION, i32 (Duration im)); (IL_IMAGE_FORMAT, i32 (Format im));
     (IL_IMAGE_HEIGHT, i32 (Height im)); (IL_IMAGE_SIZE_OF_DATA, i32 (SizeOfData im));
     (IL_IMAGE_OFFX, i32 (OffX im)); (IL_IMAGE_OFFY, i32 (OffY im));
     (IL_IMAGE_ORIGIN, i32 (Origin im)); (IL_IMAGE_PLANESIZE, i32 (SizeOfPlane im));
     (IL_IMAGE_TYPE, i32 (Type_ im)); (IL_IMAGE_WIDTH, i32 (Width im));
     (IL_NUM_FACES, v_faces v); (IL_NUM_IMAGES, v_next v); (IL_NUM_LAYERS, v_layers v);
     (IL_NUM_MIPMAPS, v_mipmaps v);
     (IL_PALETTE_TYPE, i32 (PalType (Pal im)));
     (IL_PALETTE_BPP, ilGetBppPal (PalType (Pal im)));
     (IL_PALETTE_NUM_COLS,
        if (match Palette (Pal im) with None => true | Some _ => false end)
           || (PalSize (Pal im) =? 0) || (PalType (Pal im) =? IL_PAL_NONE) then 0
        else i32 (PalSize (Pal im) / ilGetBppPal (PalType (Pal im))));
     (IL_PALETTE_BASE_TYPE, pal_base_type (PalType (Pal im)))].

(** il_states.cpp:538-660 [iGetIntegervImage] with non-NULL [Param] *)
Definition iGetIntegervImage (m : Z) (g : gst) : res (Z * gst) :=
  match cur g with
  | None => let! g := raise IL_ILLEGAL_OPERATION g in Ok (0, g)
  | Some v => match image_query v m with
              | Some x => Ok (x, g)
              | None => let! g := raise IL_INVALID_ENUM g in Ok (0, g)
              end
  end.

(** il_states.cpp:409-533 [ilGetIntegerv] with non-NULL [Param] (and (664-670)
    [ilGetInteger]).  [iGetActiveNum] (il_states.cpp:350-404) is [v_active]. *)
Definition ilGetInteger (m : Z) (g : gst) : res (Z * gst) :=
  match switch m get_modes with
  | Some f => let! v := get_int f g in Ok (i32 v, g)
  | None =>
      if m =? IL_CUR_IMAGE then
        match cur g with
        | None => let! g := raise IL_ILLEGAL_OPERATION g in Ok (0, g)
        | Some v => Ok (i32 (v_name v), g)
        end
      else if m =? IL_VERSION_NUM then Ok (IL_VERSION, g)
      else if (m =? IL_ACTIVE_IMAGE) || (m =? IL_ACTIVE_MIPMAP) || (m =? IL_ACTIVE_LAYER) then
        match cur g with
        | None => let! g := raise IL_ILLEGAL_OPERATION g in Ok (0, g)
        | Some v => Ok (i32 (v_active v m), g)
        end
      else iGetIntegervImage m g
  end.

(** il_states.cpp:331-351 [ilGetBoolean]: the integer is stored into an 8-bit [ILboolean] *)
Definition ilGetBoolean (m : Z) (g : gst) : res (Z * gst) :=
  let! (v, g) := ilGetInteger m g in Ok (u8 v, g).

(** il_states.cpp:674-687 [ilOriginFunc] *)
Definition ilOriginFunc (m : Z) (g : gst) : res (Z * gst) :=
  if (m =? IL_ORIGIN_LOWER_LEFT) || (m =? IL_ORIGIN_UPPER_LEFT)
  then let! g := set_int OriginMode m g in Ok (IL_TRUE, g)
  else let! g := raise IL_INVALID_PARAM g in Ok (IL_FALSE, g).

(** il_states.cpp:691-710 [ilFormatFunc] *)
Definition ilFormatFunc (m : Z) (g : gst) : res (Z * gst) :=
  if (m =? IL_RGB) || (m =? IL_RGBA) || (m =? IL_BGR) || (m =? IL_BGRA)
     || (m =? IL_LUMINANCE) || (m =? IL_LUMINANCE_ALPHA)
  then let! g := set_int FormatMode m g in Ok (IL_TRUE, g)
  else let! g := raise IL_INVALID_PARAM g in Ok (IL_FALSE, g).

(** il_states.cpp:714-734 [ilTypeFunc] *)
Definition ilTypeFunc (m : Z) (g : gst) : res (Z * gst) :=
  if (m =? IL_BYTE) || (m =? IL_UNSIGNED_BYTE) || (m =? IL_SHORT) || (m =? IL_UNSIGNED_SHORT)
     || (m =? IL_INT) || (m =? IL_UNSIGNED_INT) || (m =? IL_FLOAT) || (m =? IL_DOUBLE)
  then let! g := set_int TypeMode m g in Ok (IL_TRUE, g)
  else let! g := raise IL_INVALID_PARAM g in Ok (IL_FALSE, g).

(** il_states.cpp:737-752 [ilCompressFunc] *)
Definition ilCompressFunc (m : Z) (g : gst) : res (Z * gst) :=
  if (m =? IL_COMPRESS_NONE) || (m =? IL_COMPRESS_RLE) || (m =? IL_COMPRESS_ZLIB)
  then let! g := set_int Compression m g in Ok (IL_TRUE, g)
  else let! g := raise IL_INVALID_PARAM g in Ok (IL_FALSE, g).

(** Copy members of the previous slot into the current one when a bit is set,
    il_states.cpp:783-815 *)
Definition copy_if (c : bool) (fs : list ifld) (prev : sts) (s : sts) : sts :=
  if c then mkSts (fold_left (fun f k => iupd f k (iv prev k)) fs (iv s)) (sv s) else s.

(** il_states.cpp:821-855: for each string, free the slot's own (il_states.cpp:821-843, always
    NULL after [ilDefaultStates]) and [strdup] the previous slot's.  The C text frees all
    before duplicating all; the model keeps that order. *)
Fixpoint free_strs (fs : list sfld) (g : gst) : res gst :=
  match fs with
  | [] => Ok g
  | f :: rest =>
      let! p := get_str f g in
      let! g := match p with Some a => free_str a g | None => Ok g end in
      free_strs rest g
  end.
Fixpoint dup_strs (ok : Z -> bool) (fs : list sfld) (g : gst) : res gst :=
  match fs with
  | [] => Ok g
  | f :: rest =>
      let! prev := slot g (pos g - 1) in
      let! (p, g) := strdup ok (match sv prev f with Some a => CPtr a | None => CNull end) g in
      let! g := set_str f p g in
      dup_strs ok rest g
  end.

(** il_states.cpp:767-865 [ilPushAttrib] *)
Definition ilPushAttrib (ok : Z -> bool) (bits : Z) (g : gst) : res gst :=
  if IL_ATTRIB_STACK_MAX - 1 <=? pos g then
    raise IL_STACK_OVERFLOW (set_pos g (IL_ATTRIB_STACK_MAX - 1))
  else
    let g := set_pos g (pos g + 1) in
    let! g := ilDefaultStates g in
    let! prev := slot g (pos g - 1) in
    let! s := slot g (pos g) in
    let bit b := negb (Z.land bits b =? 0) in
    let s := copy_if (bit IL_ORIGIN_BIT) [OriginMode; OriginSet] prev s in
    let s := copy_if (bit IL_FORMAT_BIT) [FormatMode; FormatSet] prev s in
    let s := copy_if (bit IL_TYPE_BIT) [TypeMode; TypeSet] prev s in
    let s := copy_if (bit IL_FILE_BIT) [OverWriteFiles] prev s in
    let s := copy_if (bit IL_PAL_BIT) [AutoConvPal] prev s in
    let s := copy_if (bit IL_LOADFAIL_BIT) [DefaultOnFail] prev s in
    let s := copy_if (bit IL_COMPRESS_BIT) [Compression] prev s in
    let s := copy_if (bit IL_FORMAT_SPECIFIC_BIT)
               [TgaCreateStamp; JpgQuality; PngInterlace; TgaRle; BmpRle; SgiRle; JpgFormat;
                DxtcFormat; PcdPicNum; PngAlphaIndex] prev s in
    let! g := put_slot g (pos g) s in
    if bit IL_FORMAT_SPECIFIC_BIT then
      let! g := free_strs all_sfld g in dup_strs ok all_sfld g
    else Ok g.

(** il_states.cpp:869-884 [ilPopAttrib] *)
Definition ilPopAttrib (g : gst) : res gst :=
  if pos g <=? 0 then raise IL_STACK_UNDERFLOW (set_pos g 0)
  else Ok (set_pos g (pos g - 1)).

(** il_states.cpp:888-937 [ilHint] *)
Definition ilHint (target mode : Z) (g : gst) : res gst :=
  if target =? IL_MEM_SPEED_HINT then
    if (mode =? IL_FASTEST) || (mode =? IL_LESS_MEM) then Ok (set_hints g mode (comp_hint g))
    else if mode =? IL_DONT_CARE then Ok (set_hints g IL_FASTEST (comp_hint g))
    else raise IL_INVALID_ENUM g
  else if target =? IL_COMPRESSION_HINT then
    if (mode =? IL_USE_COMPRESSION) || (mode =? IL_NO_COMPRESSION) then Ok (set_hints g (mem_hint g) mode)
    else if mode =? IL_DONT_CARE then Ok (set_hints g (mem_hint g) IL_NO_COMPRESSION)
    else raise IL_INVALID_ENUM g
  else raise IL_INVALID_ENUM g.

(** il_states.cpp:940-951 [iGetHint] *)
Definition iGetHint (target : Z) (g : gst) : res (Z * gst) :=
  if target =? IL_MEM_SPEED_HINT then Ok (mem_hint g, g)
  else if target =? IL_COMPRESSION_HINT then Ok (comp_hint g, g)
  else let! g := raise IL_INTERNAL_ERROR g in Ok (0, g).

(** il_states.cpp:954-1029 [ilSetString]: free the old string, then [strdup] the argument *)
Definition ilSetString (ok : Z -> bool) (m : Z) (c : cstr) (g : gst) : res gst :=
  match c with
  | CNull => raise IL_INVALID_PARAM g
  | _ =>
      match switch m str_modes with
      | None => raise IL_INVALID_ENUM g
      | Some f =>
          let! p := get_str f g in
          let! g := match p with Some a => free_str a g | None => Ok g end in
          let! (p, g) := strdup ok c g in
          set_str f p g
      end
  end.

(** setting [OffX] etc. of the current image, il_states.cpp:1073-1100 *)
Definition with_view_img (v : view) (im : img) : view :=
  mkView im (v_dxtc v) (v_dxtc_size v) (v_dxtc_fmt v) (v_next v) (v_mipmaps v) (v_layers v)
    (v_faces v) (v_active v) (v_name v).
Definition with_attr (im : img) (m p : Z) : img :=
  mkImg (Width im) (Height im) (Depth im) (Bpp im) (Bpc im) (Bps im) (Data im)
    (SizeOfData im) (SizeOfPlane im) (Format im) (Type_ im) (Origin im) (Pal im)
    (if m =? IL_IMAGE_DURATION then p else Duration im)
    (if m =? IL_IMAGE_CUBEFLAGS then p else CubeFlags im)
    (if m =? IL_IMAGE_OFFX then p else OffX im)
    (if m =? IL_IMAGE_OFFY then p else OffY im).

(** il_states.cpp:1032-1190 [ilSetInteger], the cases that range-check a parameter against a
    member of the current state.  The conditions are those of the C text, including the
    [||] of lines 1111, 1136 and 1142. *)
Definition set_modes : list (Z * (ifld * (Z -> bool))) :=
  let bool_ok p := (p =? IL_FALSE) || (p =? IL_TRUE) in
  [(IL_KEEP_DXTC_DATA, (KeepDxtcData, bool_ok));
   (IL_MAX_QUANT_INDICES, (QuantMaxIndexs, fun p => (2 <=? p) && (p <=? 256)));
   (IL_NEU_QUANT_SAMPLE, (NeuSample, fun p => (1 <=? p) && (p <=? 30)));
   (IL_QUANTIZATION_MODE, (QuantMode, fun p => (p =? IL_WU_QUANT) || (p =? IL_NEU_QUANT)));
   (IL_BMP_RLE, (BmpRle, bool_ok));
   (IL_DXTC_FORMAT, (DxtcFormat, fun p => (IL_DXT1 <=? p) || (p <=? IL_DXT5) || (p =? IL_DXT1A)));
   (IL_JPG_SAVE_FORMAT, (JpgFormat, fun p => (p =? IL_JFIF) || (p =? IL_EXIF)));
   (IL_JPG_QUALITY, (JpgQuality, fun p => (0 <=? p) && (p <=? 99)));
   (IL_PNG_INTERLACE, (PngInterlace, bool_ok));
   (IL_PCD_PICNUM, (PcdPicNum, fun p => (0 <=? p) || (p <=? 2)));
   (IL_PNG_ALPHA_INDEX, (PngAlphaIndex, fun p => (-1 <=? p) || (p <=? 255)));
   (IL_SGI_RLE, (SgiRle, bool_ok));
   (IL_TGA_CREATE_STAMP, (TgaCreateStamp, bool_ok));
   (IL_TGA_RLE, (TgaRle, bool_ok));
   (IL_VTF_COMP, (VtfCompression, fun p => (p =? IL_DXT1) || (p =? IL_DXT5) || (p =? IL_DXT3)
                                   || (p =? IL_DXT1A) || (p =? IL_DXT_NO_COMP)))].

(** the value stored in a member: the members are unsigned except [ilPngAlphaIndex] *)
Definition store (f : ifld) (p : Z) : Z := match f with PngAlphaIndex => p | _ => u32 p end.

(** il_states.cpp:1032-1190 [ilSetInteger] *)
Definition ilSetInteger (m p : Z) (g : gst) : res gst :=
  if m =? IL_FORMAT_MODE then let! (_, g) := ilFormatFunc (u32 p) g in Ok g
  else if m =? IL_ORIGIN_MODE then let! (_, g) := ilOriginFunc (u32 p) g in Ok g
  else if m =? IL_TYPE_MODE then let! (_, g) := ilTypeFunc (u32 p) g in Ok g
  else if (m =? IL_IMAGE_DURATION) || (m =? IL_IMAGE_OFFX) || (m =? IL_IMAGE_OFFY) then
    match cur g with
    | None => let! g := raise IL_ILLEGAL_OPERATION g in raise IL_INVALID_PARAM g
    | Some v => Ok (set_cur g (Some (with_view_img v (with_attr (v_img v) m (u32 p)))))
    end
  else if m =? IL_IMAGE_CUBEFLAGS then
    match cur g with
    | None => let! g := raise IL_ILLEGAL_OPERATION g in raise IL_INVALID_PARAM g
    | Some v => raise IL_INVALID_PARAM (set_cur g (Some (with_view_img v (with_attr (v_img v) m (u32 p)))))
    end
  else match switch m set_modes with
       | None => raise IL_INVALID_ENUM g
       | Some (f, chk) => if chk p then set_int f (store f p) g else raise IL_INVALID_PARAM g
       end.

(** il_states.cpp:1194-1212 [iGetInt] *)
Definition iGetInt (m : Z) (g : gst) : res (Z * gst) :=
  let! (r, g) := ilGetInteger m g in
  let! (e, s) := ilGetError (errs g) in
  let g := set_errs g s in
  let! g := raise (if (r =? -1) && (e =? IL_INVALID_ENUM) then IL_INTERNAL_ERROR else e) g in
  Ok (r, g).

(** The calls a client can make, and their execution.  [GetErr] is [ilGetError]. *)
Inductive sop :=
| Enable (m : Z) | Disable (m : Z) | IsEnabled (m : Z)
| GetInt (m : Z) | SetInt (m p : Z)
| OriginFunc (m : Z) | FormatFunc (m : Z) | TypeFunc (m : Z) | CompressFunc (m : Z)
| Push (bits : Z) | Pop | Hint (t m : Z)
| GetString (m : Z) | SetString (m : Z) (c : cstr)
| GetErr.

Definition sstep (ok : Z -> bool) (o : sop) (g : gst) : res gst :=
  match o with
  | Enable m => let! (_, g) := ilEnable m g in Ok g
  | Disable m => let! (_, g) := ilDisable m g in Ok g
  | IsEnabled m => let! (_, g) := ilIsEnabled m g in Ok g
  | GetInt m => let! (_, g) := ilGetInteger m g in Ok g
  | SetInt m p => ilSetInteger m p g
  | OriginFunc m => let! (_, g) := ilOriginFunc m g in Ok g
  | FormatFunc m => let! (_, g) := ilFormatFunc m g in Ok g
  | TypeFunc m => let! (_, g) := ilTypeFunc m g in Ok g
  | CompressFunc m => let! (_, g) := ilCompressFunc m g in Ok g
  | Push bits => ilPushAttrib ok bits g
  | Pop => ilPopAttrib g
  | Hint t m => ilHint t m g
  | GetString m => let! (_, g) := ilGetString m g in Ok g
  | SetString m c => ilSetString ok m c g
  | GetErr => let! (_, s) := ilGetError (errs g) in Ok (set_errs g s)
  end.

Fixpoint srun (ok : Z -> bool) (h : list sop) (g : gst) : res gst :=
  match h with
  | [] => Ok g
  | o :: h' => let! g' := sstep ok o g in srun ok h' g'
  end.

(** State after [ilInit] as far as this file is concerned (il_stack.cpp:612-633 calls
    [ilDefaultStates] on position 0); members of the other slots are zero-initialised. *)
Definition g_init (v : option view) : gst :=
  mkG (zupd (fun _ => mkSts (fun _ => 0) (fun _ => None)) 0 default_sts) 0
      IL_FASTEST IL_USE_COMPRESSION est_init v (fun _ => None) 0.
