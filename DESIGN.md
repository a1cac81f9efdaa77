# Formal model of DevIL in Coq: design

Source: `/repo` (DevIL, pinned commit). All line citations in the Coq comments are
relative to `/repo/DevIL/`.  Nothing in `/repo` is built or run; the model is written
by reading the C++ text.

## 1. Modelling conventions

* **Integers.** C integers are `Z`; every place where the C type wraps (unsigned) is an
  explicit `u8`, `u16`, `u32`, and where a signed value is reinterpreted it is an explicit
  `i32`.  `ILsizei` is `size_t` (64 bit); pointers are 8 bytes (LP64).
* **Bytes and buffers.** A buffer is a `list Z` of bytes.  Accesses are bounds-checked by
  the model: an access outside the buffer makes the outcome `UB`.
* **Outcome type.** `res A = Ok a | UB | Fuel`.  `UB` stands for undefined behaviour of the
  C++ program (out-of-bounds, use after free, double free, NULL dereference, read of
  indeterminate pointers).  `Fuel` stands for a loop that does not terminate within the
  fuel passed; theorems that claim termination exclude it.
* **Allocation.** `malloc` may fail: each allocation consults an oracle that is part of the
  state and universally quantified.  Contents of fresh memory are arbitrary: fresh
  contents are a universally quantified argument or an explicit indeterminate value.
* **Heap.** The image-name machine works on an explicit finite-map heap; images are
  heap blocks that contain pointers to other blocks.  Using or freeing an address that is
  not allocated is `UB`.
* **Floats.** Half floats are bit patterns (`Half.v`).  Single and double arithmetic that a
  property depends on is modelled exactly: `Float.v` defines rounding to nearest even of a
  rational at a given precision and least exponent, and the code's chains of operations are
  compositions of these roundings (`ConvBuff.v`, `Blit.v`, `Clear.v`).  Evaluation in excess
  precision (x87) is not modelled.  Float computations whose result no theorem depends on are
  left as section variables, i.e. the theorems hold for every choice (`fcast`, `flum`, `fblend`).
* **Refutations.** A theorem named `..._refuted` shows that the property as a user would state
  it is false of the model, and by the cited lines of the code.  The strongest true version is
  proved beside it; its name ends in `_partial`.

## 2. Layout

`rocq/theories/`: each area has a model file (`X.v`: definitions with citations), a
proof file (`XProofs.v`) and a statement file (`XProps.v`) that contains only the
property theorems, the non-vacuity examples and `Print Assumptions`.  Specifications that a
property refers to (besides plain Coq list/integer functions) are in small `XSpec.v` files
or at the head of the statement file.

## 3. Plan per property

| id | model | method |
|----|-------|--------|
| C01, C02 | `ErrorStack.v` | invariant: the array prefix is the list of outstanding errors; induction over the history. Full "drop only the oldest" is expected to be false of the code (the shift loop is one short): refutation plus strongest true form |
| C03-C09, C37 | `Stack.v` heap machine | refinement: concrete heap = flattening of a forest of image trees; induction over the history |
| C10 | `Image.v` | direct arithmetic over the 32-bit products; refutation for wrap-around |
| C11-C13 | `Pixels.v` | loop invariants, pointwise specification of the buffers |
| C14, C15 | `Flip.v` | loop invariants, pointwise specification |
| C16, C39 | `ConvertAlpha.v` | loop invariants |
| C17-C20 | `States.v` | state machine, induction over histories; per-mode case analysis |
| C21, C22, C23 | `Lump.v` | invariants over I/O sequences |
| C24 | `Rle.v` | induction on the line with a decoder specification |
| C25, C31 | `Pcx.v` | encoder/decoder round trip by induction; safety of the loader by loop invariants over all byte strings |
| C26 | `Raw.v` | composition of writer and reader |
| C27 | `Half.v` | bit-level case analysis |
| C28, C29 | `ConvBuff.v` | loop invariants, pointwise |
| C30 | `Utility.v` | arithmetic |
| C32 | `Register.v` | induction over histories |
| C33 | `Stack.v` / `CopyImage.v` | refinement |
| C34 | `Clear.v` | loop invariants |
| C35 | `Blit.v` | loop invariants, refutation for negative offsets |
| C36 | `Bits.v` | bit-list specification |
| C38, C40 | `Alpha.v` | loop invariants |
| C41 | `Flip.v` (iMemSwap) | loop invariant over chunks |
| C42, C46 | `Image.v`, `Stack.v` | case analysis of the call, arithmetic |
| C43, C44 | `Strings.v` | state machine over string slots with an explicit heap of strings |
| C45 | `Stack.v` | refinement: frame theorem per call over the forest of images |
| C47 | `Cache.v` | simulation between cached and direct reader |
| C48 | `Strings.v`, `Register.v` | string induction; table equality against the documented table |
| C49 | `Utility.v` | interval arithmetic over the table ranges |
| C50 | `Strings.v` (iFgets) | induction on the line |
| C51 | `Endian.v` | byte lists and their value, induction on the length |
| C52 | `Raw.v` | reader invariants for every file |
| C53 | `Float.v`, `ConvBuff.v` | rounding lemmas (monotone, error bound, exactness), loop invariants |
| C54 | `ConvBuff.v` | error analysis of the single-precision sum, pointwise loop rule |
| C55 | `Blit.v` | error analysis of the mixture, box loops |
| C56, C59, C60 | `Tga.v`, `TgaSpec.v` | running the writer symbolically against a specification of the layout; the loader on every file of that layout |
| C57 | `Tga.v` | loop invariants over all byte strings; abstract counterexample files |
| C58 | `Tga.v`, `Rle.v` | induction over the packet specification |
| C61 | `Pal.v`, `PalSpec.v` | loop invariant over the colours, the float size computation by exact rounding |
| C62 | `Pal.v`, `PalSpec.v` | induction over the lines of a file grammar; the writer refined to the same grammar |
| C63 | `Pal.v` | invariant over the stream position for all text files; counterexample files for all fuel |
| C64 | `Pal.v` | case analysis of the entry check |
| C65 | `Bmp.v`, `BmpSpec.v` | running the writer symbolically; every pixel of the file related to the format's definition of a sample, then C67 |
| C66 | `Bmp.v` | invariant (reader inside the file, length of the pixel buffer) through all loops; fuel bounded by the file length |
| C67 | `Bmp.v`, `BmpSpec.v` | row loop rules with exact contents for each bit depth |
| C68 | `Bmp.v`, `BmpSpec.v` | induction over an inductive definition of code streams, with the painted pixels as a history |
| C69 | `Bmp.v`, `BmpSpec.v` | bit lemmas for shifts and masks, all masks of contiguous bits |
| C70, C71 | `Ilu.v` | composition of the buffer copy, ilTexImage and row loops; exact contents by `splice` lemmas |
| C72 | `Ilu.v`, `Flip.v` | the flip theorem applied twice |
| C73, C74 | `Ilu.v` | flattening of nested loops, element-wise loop rule |
| C75 | `Ilu.v` | invariant: the growing table holds exactly the distinct codes seen, induction over the pixels |
| C76 | `Ilu2.v` region points as allocated blocks | induction over histories with an ownership invariant |
| C77, C78 | `Ilu2.v` scaling with the rounded single and double precision arithmetic of `Float.v` | error bounds of the two roundings give the index; four nested loops are flattened; induction over the chain |
| C79, C82 | `Ilu2.v` Filter, iluPixelize | an undefined iteration is reached; with memory behind the pixels, each inner pixel is the weighted sum (`IluFilterPlane.v`); block invariants over nested strides, sums modulo 2^32 |
| C83, C84 | `ConvImg.v` iConvertPalette, iConvertImage, ilConvertImage | induction on the chain; palette conversion (C61) composed with a gather over the pixels |
| C85 | `ConvImg.v` ilConvertImage | induction on the chain over the buffer conversion theorem (C29) |
| C86 | `ConvImg.v` grey_palette, iConvertImage | loop invariant for the grey table |
| C87, C88 | `Wbmp.v` loader and saver of il_wbmp.cpp | the bit reader (C33) as a stream, loop invariants over rows; the multi-byte integers by induction on their groups |
| C89 | `Dxt.v` ilTexImageDxtc, ilDxtcDataToSurface, DecompressDXT1/3/5; meaning of blocks in `DxtSpec.v` | loop invariants over blocks, rows, pixels; field extraction by arithmetic; the distance to the exact colours by linear arithmetic |
| C90 | `Dxt.v` ilFlipSurfaceDxtcData | every operation acts on one block as a function; runs of blocks and exchanges of rows by induction |
| C91 | `Dxt.v` ilInvertSurfaceDxtcDataAlpha | the same, with octal digits of the index bytes |
| C92 | `Sgi.v` iLoadSgiInternal and what it calls | layout in `SgiSpec.v`; one line of code by induction over its derivation, planes and assembly by loop invariants; safety by a predicate transformer (`Safe.v`) |
| C93 | `Sgi.v` iSaveSgiInternal, iSaveRleSgi | the file is computed symbolically (header, tables, codes) and satisfies the layout; then C92; the encoder is that of C24 |
| C94 | `Small.v` iLoadFtxInternal, iLoadPxrInternal, iLoadLifInternal, iLoadWalInternal | layout in `SmallSpec.v`; the reads are computed symbolically; safety by `Safe.v` |
| C95 | `Small.v` iLoadCutInternal, iLoadPixInternal | codes as inductive relations in `SmallSpec.v`; the decoder is followed by induction over the derivation |
| C96 | `Small.v` iLoadSunInternal, iSunGetRle | as C95 for the codes; loop invariants for lines; termination of the decoder by a measure on bytes left and reader position |
| C97 | `Small.v` iLoadDoomInternal, iLoadDoomFlatInternal | posts as an inductive relation; loop invariants over posts and columns; termination because every post advances the reader |
| C98 | `Pnm.v` iLoadPnmInternal, ilReadAsciiPpm, ilReadBinaryPpm, ilReadBitPbm, ilReadPam, iGetWord, iFgets, iIsValidPnm | headers as inductive relations over blanks, comments and words; induction over the blanks before a word, the lines of text and the fields of a header |
| C99 | `Pnm.v` iSavePnmInternal | the file is written piece by piece; induction over the pixels, with the numbers of the line begun; loaded again by the theorems of C98 |
| C100 | `Gif.v` iLoadGifInternal, GetImages, GifGetData, get_next_code, iGetPalette, SkipExtensions, RemoveInterlace, ConvertTransparent | codes, string table, sub-blocks, extensions and frames as inductive relations; simulation of the bit reader against one big number, of the prefix/suffix tables against the strings learnt; induction over codes, then over frames with the canvas as state |
| C101 | `Gif.v` iIsValidGif, gif_sig and the checks of the loader | case analysis over the header and the code size |
| C102 | `Gif.v` get_next_code | invariant of the buffer of a sub-block; counterexamples by computation |
| C103 | `Dds.v` iLoadDdsInternal, ReadData, DecompressARGB, GetBitsFromMask, ReadMipmaps, AdjustVolumeTexture | fields and levels in `DdsSpec.v`; one pixel by bit arithmetic, one level by a loop invariant, the levels by induction |
| C104 | `Dds.v` DdsDecompress with the decoders of `Dxt.v` | as C103, with the block decoders of C89 for one level |
| C105 | `Dds.v` iIsValidDds, iCheckDds, DecodePixelFormat, ReadData | the header is read symbolically; case analysis |
| C106 | `Compare.v` iluCompareImage, on the heap and name table of `Stack.v` | histories of C09 and its followers; the comparison is a list equality on views of the images (`CompareSpec.v`) |
| C107 | `Iwi.v` iLoadIwiInternal, IwiReadImage, IwiInitMipmaps, iCheckIwi, iIsValidIwi | levels in `IwiSpec.v`; one level per format (block decoders of C89), the levels by induction from the smallest |
| C108 | `Replace.v` iluReplaceColour with ilGetClear of `Clear.v` | pixel by pixel invariant; the integer square root is characterised by squares |
| C109 | `Icon.v` iLoadIconInternal without PNG entries | directory, icons and pixels in `IconSpec.v`; loop invariant over the pixels with the mask bit, induction over directory, icons and images |
| C80 | `Ilu2.v` noise, arbitrary `rand` | pixel by pixel invariant |
| C81 | `Ilu2.v` right angle rotation | the destination of every element is its own (scatter lemma); wrapped offsets are shown to lie outside |

## 4. Trusted base

* Coq 8.16.1 kernel (including its `vm_compute` reduction machine) and `coqc`.
* `Print Assumptions` output for every property theorem: see the statement files; summary in
  section 6.
* The hand translation from C++ to Gallina (each definition cites the lines it models).

## 5. Findings

Each line is a theorem about the model; together with the cited code it is a defect of the
program (or of the documented claim).

**Error stack, names, images**
* C02: when the error stack is full the shift loop copies the wrong slots, so more than the oldest
  error is lost (`C02_drop_oldest_refuted`).
* C03: after deleting a name and binding it again, ilGenImages can return it although it is in use.
* C06, C07: deleting an image after ilCloneCurImage leaves a dangling current pointer; use after
  shutdown, copying an image onto itself and copying into a selected sub-image touch freed blocks;
  three leaks.
* C09: ilCreateSubImage with a count above one for mipmaps and layers.
* C10: sizes whose 32-bit product wraps get a buffer that is too small.
* C33: sub-images are not copied by ilCopyImage.
* C37: a failed allocation of the name table, or of a chain node, is followed by a NULL dereference.

**Pixels**
* C11: ilCopyPixels ignores depth for one-row regions and misplaces clipped 3-D regions; offsets
  beyond the image make the clipped extent wrap.
* C12, C13: ilSetPixels with negative offsets reads the wrong source pixels; the origin flip is
  applied to the image only.
* C14: if the scratch block cannot be allocated, ilFlipImage toggles the origin without flipping.
* C15: widths from 2^31 mirror to uninitialised memory.
* C16: only the first slice of a volume is swapped, although the format changes for all.
* C34: clearing LUMINANCE uses the alpha of the clear colour; IL_ALPHA and palettes write
  uninitialised memory; 32-bit integer types at full intensity are an undefined cast; byte
  LUMINANCE_ALPHA writes alpha twice.
* C35: ilBlit neither clips negative offsets nor the source rectangle; an offset beyond the edge
  makes the extent wrap; channels wider than a byte copy only part of the pixels; after a failed
  conversion the source stays bound and the destination flipped.
* C55: blending onto RGB takes the blue value for the alpha.
* C38: ilSetAlpha on 32-bit integers is an undefined cast; ilModAlpha ignores images with alpha.
* C39: ilRemoveAlpha reads outside its buffer for channels wider than a byte; ilAddAlpha fills only
  the first slice.

**Targa**
* C56: an image with origin upper left is written bottom-up but flagged top-down, so it comes back
  upside down (proved for every such image).
* C57: 15/16-bit images from 1431655766 pixels overflow the heap when expanded (a 9 kB file
  suffices); run-length images of more than 2^32 - 512 bytes overflow the heap in a literal packet;
  the empty file reads outside.
* C58: saving with compression a grey or palette image of width 1 (height 3 or more) writes past
  the end of the buffer.
* C59: ilDetermineSize is one byte short for every Targa image, and 0 for palette images.
* C60: a file cut inside its pixels, palette or ID is reported as loaded.

**Palettes**
* C61: the size of a converted palette is computed in single precision; from 5592407 colours on it can be
  a byte short (heap overflow). A `.plt` palette with an odd size is read past its end.
* C62: saving a palette that is not RGB24 leaves the image with the palette type RGB24 over the old bytes.
* C63: a palette file with Windows line ends (or any unprintable character before the end) never
  returns; 1431655766 colours allocate two bytes and are written past the end.
* C64: ilApplyPal refuses every image (it compares the format with two type constants using "or").

**Bitmaps**
* C65: the alpha channel of 32-bit bitmaps is written but dropped on loading. A palette image without a palette
  is saved to a file that cannot be loaded. Saving into an output that already holds data writes the file
  size over bytes 2 to 5 of that data.
* C66: reads before the file (negative offset of the pixels, masks with an offset below 12), integer overflow
  (height -2^31, 2^29 colours), heap overflow (65536 x 65536 pixels allocate 0 bytes). OS/2 bitmaps shorter
  than 54 bytes are judged by an uninitialised header.
* C68: pixels that no code paints keep uninitialised memory.
* C69: a mask wider than 8 bits keeps the low bits of the channel; the masks are taken from the 12 bytes before the
  pixels, not from behind the header.

**Image utilities (ILU)**
* C70: the offset of a crop is not checked (out of bounds read); with more than one byte per channel the row copy
  uses the wrong offset; a palette image loses its palette and its pixels; volumes get a depth of D - Z, and planes
  after the first are not written.
* C71: wider channels put the picture at the wrong place; when ilTexImage fails the NULL data is written.
* C73: doubles are not negated; for a palette image with a region the mask is indexed by palette bytes.
* C74: the loop stops Bpp-1 pixels early, so the last pixels keep their alpha.
* C75: there are nine blocks of N/8 colours (rounded down), so an image of 9 to 63 pixels with many colours writes a
  tenth block pointer behind the table; images with two bytes per pixel read outside the pixel.
* C76: iluRegioniv releases the float points without clearing the pointer and iluRegionfv the integer points, so
  mixing the two releases a block twice.
* C77: thirty columns reduced to ten take column 2 instead of 3, because the ratio is rounded first; images of doubles
  are not scaled at all; the linear filter reads one column too far.
* C78: a failure below the first mipmap is reported as success.
* C79: the loop for the right edge reads up to two pixels behind the image; the last weight uses x-1 instead of x+1.
* C80: 32-bit channels: the full tolerance is a division by zero, and values of 2^31 and more become 0.
* C81: the destination of a quarter turn is computed with the wrong dimension; a half turn only reverses the rows.
* C82: for 2, 4 and 8 byte channels the region mask is read without testing whether there is one.

**Conversions**
* C83: an index beyond the palette reads outside of it; if the type changes too, the palette stays attached to the RGB image.
* C84: luminance conversion reads three bytes apart whatever the palette's colour size, fills only the first plane, keeps its table across the images of a chain (the second image uses a NULL table), and an alpha conversion reads past the palette. Without memory for the pixels the current image pointer becomes NULL.
* C85: the early return (nothing to do) and the red/blue swap ignore the following images; a failure midway leaves the earlier images converted.
* C86: luminance wider than a byte is copied into the palette image unconverted.
* Also modelled: a failing temporary palette is freed twice (undefined); palette to palette copies the pixels of the current image, not of the image converted.
* C28: RGB to ALPHA and LUMINANCE_ALPHA to ALPHA leave their buffers; sizes
  are computed in 32 bits; an opaque half alpha is written as a NaN, an alpha for signed types
  as -1.
* C29: same-size signed/unsigned conversions do not keep the order.
* C53: white in float to 32-bit integers is an undefined cast; NaN passes the clamp; half loses
  levels; negative values are lost; 32-bit integers do not survive float.
* C54: grey does not stay the same grey; BGR with alpha uses swapped weights; 32-bit integer sums
  overflow; halves are summed as integers.

**Wireless bitmaps**
* C87: loading from memory fails, after replacing the current image, unless a file was opened before: the bit reader tests the file callback. A file that ends behind its header is accepted and shows what the memory held. With 2^32 pixels or more the size wraps and the loader writes out of bounds.
* C88: what is saved are palette indices, so black and white can be exchanged; the header is written before the quantiser can fail.

**Compressed textures**
* C89: the green of every format loses a bit (32 and 33 of 63 give the same value, up to 4 off); the blue of DXT1 has low bits set that belong to no field (pure red decodes with blue 7). When the pixels cannot be allocated the decoder writes through a null pointer.
* C90: a height that is no multiple of four: the filling rows of the last blocks become visible.

**SGI images**
- iGetScanLine (il_sgi.cpp:331) only tests the position before a run: a run longer than the rest of the line writes past the plane (`C92_overflow_refuted`).
- iNewSgi passes the bytes per channel as the depth of the image (446): a 16-bit file becomes a two-slice image with one byte per channel and a 16-bit type (`C92_16bit_refuted`). With run-length encoding and more than one channel, lines 282-290 then index the planes out of bounds.
- Saving with IL_SGI_RLE reads past the line buffer for every picture with two equal neighbours (`C93_rle_refuted`, see C24), reads Temp before it is tested for NULL (595), ignores a failing iSaveRleSgi, and leaves the output position behind the tables, so the reported number of bytes is too small (in `C93_rle_partial`).
- Signed types have no case in the switch that writes the bytes per channel (601-609): the file does not load (`C93_signed_refuted`). Unsigned short data is written as interleaved byte planes.
- The file name is padded the wrong way round (637-651): 79 bytes are written from a shorter name (`C93_name_refuted`); the static pointer is kept after the call.

**Small formats**
- il_wal.cpp: the mipmap levels are set up by ilTexImage after the palette was attached, which clears it (`C94_wal_palette_refuted`); a short file makes the clean-up free the levels that the image still owns (`C94_wal_short_refuted`); a level that cannot be allocated leaves iCurImage pointing to a freed image.
- il_pxr.cpp ignores the result of the read (`C94_pxr_short_refuted`) and of ilTexImage (a failing allocation is written through).
- il_cut.cpp, il_pix.cpp: runs are not checked against the picture (`C95_cut_overflow_refuted`, `C95_pix_overflow_refuted`); a CUT file ending in the byte 128 is never finished (`C95_cut_hang_refuted`), because igetc at the end of a lump steps back by one byte.
- il_sun.cpp: Offset is never advanced for 32 bits per pixel (`C96_quads_refuted`); the planar colour map is taken for an RGB24 palette (`C96_map_refuted`).
- il_doom.cpp: a negative column offset is passed to iseek and the next read is outside the lump (`C97_negative_refuted`); with IL_CONV_PAL one byte per pixel is written, indexed by the pixel and not by three times the pixel, and green and blue stay uninitialised (`C97_conv_refuted`); ilLoadDoomFlat calls ilLoadDoomF.

**Portable anymaps**
* C98: a binary map (or a PAM file) that ends early makes the loader use the image it has just released; binary
  maps with a largest value above 255 are loaded as shorts although the samples are read as bytes.
* C98: with P4 and P7 a first byte 32 of the pixels is skipped as if it were a space; set bits are shown white, the
  format says black.
* C98: in text maps a line of 180 or more characters overruns the line buffer; a line with nothing but a space or a
  carriage return is read past its end. P1 files without spaces between the bits are read as one number.
* C99: 16-bit images are saved as text with the largest value 65535 and numbers up to 255. The file name's
  extension is ignored (FName is never set), so grey images and .pgm names give colour files as well.

**GIF** (il_gif.cpp)
* C100: if the last pixel comes directly after a clear code, the image is refused; no 1 by 1 GIF can be loaded
  (`C100_single_pixel_refuted`).
* C100: a frame other than the first that is drawn over the one before and brings its own colours takes too many
  bytes for colours, since the palette is merged by bytes and not by colours (`C100_second_palette_refuted`).
* C100: interlaced frames are copied to the canvas of the next frame before their lines are put in order, and the
  order is wrong unless the frame reaches the bottom of the canvas. The disposal method is applied to the frame
  that carries it and not to the one after it; methods above 3 leave pixels uninitialised. Data that end early in
  a lump are accepted.
* C102: a frame outside the canvas is written outside the picture (`C102_outside_refuted`); a code above the next
  free one makes the decoder follow uninitialised entries of its tables (`C102_corrupt_refuted`).

**DDS** (il_dds.cpp)
* C103: RGB in four bytes (X8R8G8B8): the last pixel of every level is not read and repeats the one before
  (`C103_rgb32_refuted`). RGBA in two bytes (A4R4G4B4, A1R5G5B5) and luminance with alpha in one byte (A4L4): the last pixels
  are read past the end of the data (`C103_rgba16_refuted`, `C103_la8_refuted`). Luminance with two to four bits of
  alpha reads two bytes after the pixel it writes (`C103_alpha4_refuted`).
* C103: colours of less than eight bits are shifted, not scaled: white of five bits becomes 248.
* C104: the stated size of the data is believed; a smaller one makes the decoder read past its buffer
  (`C104_size_refuted`). Compressed files that state the length of a line instead are refused, as lines are measured in
  bits per pixel, which is 0.
* The check of the DirectX 10 extension (`ResourceDimension < 2 && > 4`) can never be true (not modelled).

**States and strings**
* C17: pushing the format-specific group with a failing string allocation; hints are reset by push.
* C20: IL_IMAGE_CUBEFLAGS sets the value and raises an error; three documented ranges are not
  enforced.
* C43, C44: ilSetString with the string returned by ilGetString uses freed memory; the clipping of
  strings is undefined except for two lengths.
* C48: three documented extensions are not recognised as documented.
* C106: comparing images ignores their palettes; comparing while a sub-image is active makes the base image current; comparing
  an active sub-image with its own name answers yes without looking; name 0 is always refused.
* C107: IWI levels end where one side is 1 instead of both, so every level of a picture that is not square comes from the wrong
  place; four-bit channels reach only 240; the size of DXT levels with a side below four pixels is too small, and the decoder
  reads past the data; checking a file leaves the position behind its header.
* C108: replacing a colour in a BGR image compares red with blue; a tolerance of zero replaces nothing, not even the colour
  itself; in grey images only the blue of the new colour counts.
* C109: an icon of 16 bits per pixel, and a file without icons, load with success and leave the image as it was; for 8 bits per
  pixel 256 colours are read whatever number the header gives; type and reserved word of the header are not checked.

**I/O**
* C21: SEEK_SET accepts negative offsets, and the next read is out of bounds.
* C22: a declared lump size of 0 switches the bounds check off; a single byte past the end is
  dropped silently.
* C23: seeking past the end or SEEK_END in a writer makes ilDetermineSize disagree.
* C24: the run-length encoder reads past the last line; BMP lines without repeats are lost; the TGA
  save buffer is too small for incompressible images.
* C25, C31: PCX files of width 65535 or 65536 and of luminance-alpha images are rejected by the own
  loader, later slices are dropped; reversed extents, short 16-colour lines and wrapping sizes
  corrupt memory; short files expose uninitialised memory.
* C26, C52: RAW does not store format, type and origin; size products wrap; an empty lump is read
  out of bounds.
* C27: none (the negative zero becomes positive, which the property allows).
* C32: an extension registered twice gets a second entry and needs two removals.
* C36: breadVal returns the number of bits read instead of the value; btell is not exact.
* C47: the cache assumes it is set up at the start of the file; end of file and a second set-up
  differ from direct reading.
* C50: iFgets needs maxlen+1 bytes; its caller in the PNM loader passes maxlen.
* C51: byte-swapped doubles lose half of their bytes.

## 6. Assumptions per theorem

Every property theorem is followed by `Print Assumptions` in its statement file; all of them print
`Closed under the global context`: no axiom is used, neither of ours nor of the standard library.
(The checker also lists seven declarations of `Coq.ssr.ssrunder`, which are part of the standard
distribution and come with the loaded libraries; no theorem depends on them.)

## 7. What is modelled and what is not

Modelled (by file of `/repo/DevIL/src-IL/src`): il_error (all); il_stack (names, binding, deletion,
chains, shutdown); il_devil (ilTexImage, ilSetData, ilSetPixels, ilCopyPixels, ilClearImage, ilBlit,
ilOverlayImage, copying of images); il_manip (flip, mirror, channel swap, alpha, NTSC);
il_convbuff (ilConvertBuffer, iSwitchTypes); il_convert (ilAddAlpha, ilRemoveAlpha, iConvertPalette, iConvertImage, ilConvertImage without quantisation and key colour);
il_rle; il_bits; il_size; il_files (lump and cached input, lump output); il_states; il_utility;
il_endian.h; il_register; il_raw; il_pcx; il_targa (8 bits per channel); il_bmp (saving only of images that need no conversion); il_pal (conversion, Paint Shop Pro palettes, .plt and .act
loading, the entry check of ilApplyPal); half conversion (il_utility / il_internal);
il_wbmp; il_sgi; il_ftx; il_pxr; il_lif; il_wal; il_cut (without the palette file); il_pix; il_sun (not one bit per pixel); il_doom; il_pnm (the conversion before saving is a parameter); il_gif (loading); il_iwi (loading); il_icon (loading, PNG entries are a parameter); il_dds (loading of masked and DXT1, DXT3, DXT5 data with volumes and levels; ilTexImageDxtc, ilDxtcDataToSurface, flipping and alpha inversion of DXT1, DXT3, DXT5 data);
il_io (extension lookup, the registry dispatch). Of `/repo/DevIL/src-ILU/src`: ilu_manip (crop, enlarge canvas,
flip, negative, invert alpha, colours used, comparison, replacing colours), ilu_filter (iluPixelize, Filter, iluConvolution), ilu_noise, ilu_rotate
(right angles), ilu_scale* (nearest filter, the loop of the linear one), ilu_mipmap, the point lists of ilu_region.

Not modelled: the readers and writers of the other formats unless listed above; the other compressed
formats and in the DDS reader cube maps, the DirectX 10 extension, channels of more than eight bits and the FOURCC formats other than
DXT1, DXT3 and DXT5; quantisation (il_neuquant, il_quantizer); the real file system (a file is a byte list, a
failing file is the case of a short one); the rest of ILU, and ILUT; threads (the library has global state and
no locks, all histories are sequential).

## 8. How to read `seeded/LOG.jsonl`

* `theorems_failed`: the lemmas, theorems and examples (with their file) whose proofs coqc rejected after the edit. In the
  recent runs a rejected proof was admitted in the scratch copy and the compilation went on, at most eight times per
  file, so the list can be incomplete. Names are those at the time of the run: lemmas may have moved since, for example
  `IconProofs.Paint_ok` to `IconPaint.v`.
* `depend_on_failed`: computed, not observed: the property theorems whose text refers, directly or through other
  lemmas, to something in `theorems_failed`. It is found by name only and can name too many or too few theorems.
* A rejected proof shows that the proof notices the edit; it does not by itself show that the statement became false.
* An entry with an empty `theorems_failed` survived. `tightened` names the theorem added for it. The one entry without is
  an edit that has no effect at the API.
* `Gif.GetImages` (files without frames) survived at first as well; the entry shows the second run, with the theorem
  that was added for it.
* Not all edits planned for icons were run: about a dozen, in `Paint`, `Images`, `known`, `ReadPal`, `ReadItem` and
  `iLoadIconInternal`, are missing.
