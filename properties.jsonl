{"id": "C01", "title": "Errors are delivered most recent first", "statement": "If a client lets at most 32 errors be outstanding, ilGetError hands them back in the reverse order in which they were raised, and returns IL_NO_ERROR once they are all consumed.", "quantifier": "every interleaving, of any length, of error-raising calls and ilGetError calls", "why_tests_cant": "the order depends on the whole history of raises and reads, including stack wrap-around at depth 32", "anchors": ["DevIL/src-IL/src/il_error.cpp: ilSetError, ilGetError"]}
{"id": "C02", "title": "Error stack never writes outside its 32 slots and keeps the newest error", "statement": "After any history the newest raised error is the next one ilGetError returns, at most 32 errors are ever pending, and no slot outside the table is accessed; on overflow only the oldest error is dropped.", "quantifier": "every history of raises and reads, including unbounded overflow", "why_tests_cant": "overflow behaviour depends on histories longer than 32 raises", "anchors": ["DevIL/src-IL/src/il_error.cpp: ilSetError, ilGetError"]}
{"id": "C03", "title": "Generated image names are fresh", "statement": "ilGenImages returns pairwise distinct names, none of which denotes an existing image at the time of the call, and afterwards each of them is an image.", "quantifier": "every history of Init/Gen/Bind/Delete/CreateSubImage calls and every requested count", "why_tests_cant": "freshness depends on every earlier bind and delete, through the free-name list and the table's high-water mark", "anchors": ["DevIL/src-IL/src/il_stack.cpp: ilGenImages, ilBindImage, ilDeleteImages, iEnlargeStack"]}
{"id": "C04", "title": "ilIsImage tracks exactly the live names", "statement": "ilIsImage(n) is true exactly when n was created by Gen or Bind (or by initialisation) and not deleted since.", "quantifier": "every history of name-management calls and every name", "why_tests_cant": "needs the whole call history", "anchors": ["DevIL/src-IL/src/il_stack.cpp: ilIsImage, ilGenImages, ilBindImage, ilDeleteImages"]}
{"id": "C05", "title": "Deleting names affects only those names", "statement": "ilDeleteImages leaves every other image, its pixels and attributes unchanged, ignores 0 and unknown names, and rebinds the default image when the bound one is deleted.", "quantifier": "every state reachable through the API and every name list, including duplicates", "why_tests_cant": "frame property over all other images and all histories", "anchors": ["DevIL/src-IL/src/il_stack.cpp: ilDeleteImages, ilCloseImage"]}
{"id": "C06", "title": "Name management is memory safe", "statement": "No history of name-management and image-definition calls makes the library dereference, free or write a block that is not allocated.", "quantifier": "every finite history of Init/Gen/Bind/Delete/Active*/CreateSubImage/TexImage/CloneCurImage/ShutDown calls", "why_tests_cant": "use-after-free depends on unusual call orders that tests do not enumerate", "anchors": ["DevIL/src-IL/src/il_stack.cpp", "DevIL/src-IL/src/il_devil.cpp: ilTexImage_, ilInitImage", "DevIL/src-IL/src/il_devil.cpp: ilCloneCurImage"]}
{"id": "C07", "title": "No image memory is leaked", "statement": "After ilShutDown no block allocated for images, sub-images, pixels or name tables is still allocated.", "quantifier": "every finite history of name-management calls followed by ilShutDown", "why_tests_cant": "needs the whole heap after every history", "anchors": ["DevIL/src-IL/src/il_stack.cpp: ilShutDown, ilCloseImage, ilDeleteImages"]}
{"id": "C08", "title": "Sub-image selection", "statement": "ilActiveImage/Mipmap/Face/Layer(n) makes the n-th element of the corresponding chain current and succeeds iff the chain has more than n elements; on failure the current image is unchanged and IL_ILLEGAL_OPERATION is raised.", "quantifier": "every chain length and every index", "why_tests_cant": "chain lengths and indices are unbounded", "anchors": ["DevIL/src-IL/src/il_stack.cpp: ilActiveImage, ilActiveMipmap, ilActiveFace, ilActiveLayer"]}
{"id": "C09", "title": "Sub-image creation", "statement": "ilCreateSubImage(type, n) replaces the chain by n fresh 1x1 images and returns n; the count queries then report n and indices 1..n can be activated.", "quantifier": "every n and every previous chain", "why_tests_cant": "unbounded chain length", "anchors": ["DevIL/src-IL/src/il_stack.cpp: ilCreateSubImage", "DevIL/src-IL/src/il_states.cpp: ilGetInteger IL_NUM_IMAGES"]}
{"id": "C10", "title": "Image allocation geometry", "statement": "After a successful ilTexImage the reported width, height, depth, bytes per pixel and channel are the requested ones, the scanline/plane/data sizes are their exact products and the pixel buffer has exactly the reported size.", "quantifier": "all dimensions, channel counts and types", "why_tests_cant": "the products are computed modulo 2^32; tests do not reach the wrap-around dimensions", "anchors": ["DevIL/src-IL/src/il_devil.cpp: ilInitImage, ilTexImage_"]}
{"id": "C100", "title": "GIF animations are loaded into the canvases they describe", "statement": "Loading a GIF file gives one indexed image per frame, in order, of the size of the canvas. Each shows its frame (unpacked from its codes, put in order if interlaced) at its place over what the disposal method of its control block says, with the colours of the frame or else of the file, the transparent colour, and the duration.", "quantifier": "all canvas and frame sizes, numbers of frames, code sizes, code sequences with clear codes anywhere and full tables, cuts into sub-blocks, extensions between frames", "why_tests_cant": "every picture can be coded in unboundedly many ways and the string table is a history of all codes read so far", "anchors": ["DevIL/src-IL/src/il_gif.cpp:iLoadGifInternal", "DevIL/src-IL/src/il_gif.cpp:GetImages", "DevIL/src-IL/src/il_gif.cpp:GifGetData", "DevIL/src-IL/src/il_gif.cpp:get_next_code", "DevIL/src-IL/src/il_gif.cpp:iGetPalette", "DevIL/src-IL/src/il_gif.cpp:RemoveInterlace", "DevIL/src-IL/src/il_gif.cpp:SkipExtensions", "DevIL/src-IL/src/il_gif.cpp:ConvertTransparent"]}
{"id": "C101", "title": "What is not a GIF file is refused", "statement": "A file is recognised as GIF exactly if it begins with GIF87a or GIF89a, and recognising it moves nothing. A file with another name, data with a code size the format does not allow, and a file whose first frame has no colours are refused.", "quantifier": "all files, positions and previous images", "why_tests_cant": "every wrong header and every combination of missing colours must be covered", "anchors": ["DevIL/src-IL/src/il_gif.cpp:iIsValidGif", "DevIL/src-IL/src/il_gif.cpp:iGetGifHead", "DevIL/src-IL/src/il_gif.cpp:GifGetData", "DevIL/src-IL/src/il_gif.cpp:GetImages"]}
{"id": "C102", "title": "Reading GIF data stays in its memory", "statement": "Whatever the file holds, unpacking codes from sub-blocks and drawing frames reads and writes only the buffers that belong to the decoder and the picture.", "quantifier": "all files and all code widths", "why_tests_cant": "the damaged files are unboundedly many and the faults depend on stale contents of tables", "anchors": ["DevIL/src-IL/src/il_gif.cpp:get_next_code", "DevIL/src-IL/src/il_gif.cpp:GifGetData", "DevIL/src-IL/src/il_gif.cpp:GetImages"]}
{"id": "C103", "title": "DirectDraw surfaces with uncompressed pixels are loaded as their masks say", "statement": "Loading a DirectDraw surface whose pixels are luminance, luminance with alpha, RGB or RGBA, with a contiguous bit mask for each channel, yields an image for every level of detail of the file, of the right size and depth, whose channels are the bits the masks select, scaled to eight bits; luminance of sixteen bits is kept as it is.", "quantifier": "all sizes, depths, numbers of levels, masks and pixels", "why_tests_cant": "masks, pixel sizes, volumes and levels combine without bound", "anchors": ["DevIL/src-IL/src/il_dds.cpp:iLoadDdsInternal", "DevIL/src-IL/src/il_dds.cpp:DecompressARGB", "DevIL/src-IL/src/il_dds.cpp:GetBitsFromMask", "DevIL/src-IL/src/il_dds.cpp:ReadMipmaps", "DevIL/src-IL/src/il_dds.cpp:AdjustVolumeTexture"]}
{"id": "C104", "title": "DirectDraw surfaces with compressed pixels are decompressed", "statement": "Loading a DirectDraw surface in DXT1, DXT3 or DXT5 yields an RGBA image for every level of detail, each pixel being the one its block of four by four pixels describes, in every slice of a volume and for sizes that are not multiples of four; a stated data size that is too small does no harm.", "quantifier": "all sizes, depths, numbers of levels and block contents", "why_tests_cant": "every block can hold any of 2^64 or 2^128 values, sizes and levels are unbounded", "anchors": ["DevIL/src-IL/src/il_dds.cpp:iLoadDdsInternal", "DevIL/src-IL/src/il_dds.cpp:DdsDecompress", "DevIL/src-IL/src/il_dds.cpp:DecompressDXT1", "DevIL/src-IL/src/il_dds.cpp:ReadData"]}
{"id": "C105", "title": "Only DirectDraw surfaces are accepted as such", "statement": "A file is recognised as a DirectDraw surface exactly if its header says so, without moving the position in the file; loading refuses other headers, unknown formats and files that end within the first level, leaving the image as it was.", "quantifier": "all files of at least 128 bytes", "why_tests_cant": "each byte of the header can be wrong, each length can be too short", "anchors": ["DevIL/src-IL/src/il_dds.cpp:iIsValidDds", "DevIL/src-IL/src/il_dds.cpp:iCheckDds", "DevIL/src-IL/src/il_dds.cpp:DecodePixelFormat", "DevIL/src-IL/src/il_dds.cpp:ReadData"]}
{"id": "C106", "title": "Comparing images answers whether they are the same picture", "statement": "Comparing the bound image with another image name answers yes exactly if both have the same size, format, type, origin and data, and changes nothing: no image, binding, name or error.", "quantifier": "all histories of image operations, all images and names", "why_tests_cant": "which image is current, bound or active depends on the whole history, and equality ranges over all sizes and contents", "anchors": ["DevIL/src-ILU/src/ilu_manip.cpp:iluCompareImage"]}
{"id": "C107", "title": "IWI textures are loaded with all their levels", "statement": "Loading an IWI texture yields the picture and its smaller levels, which are stored from the smallest to the largest, each of the right size, with the pixels stored as bytes, as four bits per channel or as DXT1, DXT3 or DXT5 blocks; other headers and missing pixels are refused, and asking whether a file is an IWI texture does not move the position.", "quantifier": "all sizes, formats, numbers of levels and pixels", "why_tests_cant": "the position of a level depends on the sizes of all smaller ones; sizes and formats combine without bound", "anchors": ["DevIL/src-IL/src/il_iwi.cpp:iLoadIwiInternal", "DevIL/src-IL/src/il_iwi.cpp:IwiReadImage", "DevIL/src-IL/src/il_iwi.cpp:IwiInitMipmaps", "DevIL/src-IL/src/il_iwi.cpp:iCheckIwi", "DevIL/src-IL/src/il_iwi.cpp:iIsValidIwi"]}
{"id": "C108", "title": "Replacing a colour changes exactly the pixels near the clear colour", "statement": "Replacing a colour gives the new colour to exactly those pixels whose distance from the clear colour is within the tolerance, keeps alpha, size, format and all other pixels, and does so for every colour order.", "quantifier": "all images of bytes, clear colours, new colours and tolerances", "why_tests_cant": "the set of replaced pixels depends on every pixel value, the tolerance and the colour order", "anchors": ["DevIL/src-ILU/src/ilu_manip.cpp:iluReplaceColour"]}
{"id": "C109", "title": "Icons load as their pictures", "statement": "Loading a Windows icon file gives one image per icon of the directory, in its order: four channels in the order blue, green, red, opacity, with the size of the icon, the colours of the file (through the palette for 1, 4 and 8 bits per pixel), and the opacity from the mask (1, 4, 8 and 24 bits) or from the fourth channel (32 bits). A file that ends inside an icon is refused and the current image stays as it was.", "quantifier": "every number of icons, every offset, every size within 32 bits, every pixel content and mask, every rest of the file", "why_tests_cant": "line padding, mask bytes and palettes interact differently for every width and depth, and each icon can lie anywhere in the file", "anchors": ["DevIL/src-IL/src/il_icon.cpp: iLoadIconInternal", "DevIL/src-IL/include/il_icon.h: ICODIR, ICODIRENTRY, INFOHEAD"]}
{"id": "C11", "title": "ilCopyPixels returns the requested region", "statement": "For a region inside the image, destination pixel (x,y,z) equals image pixel (XOff+x,YOff+y,ZOff+z); the part of a region outside the image is not touched.", "quantifier": "all image dimensions, formats, offsets and extents", "why_tests_cant": "clipping arithmetic is unsigned and depends on all parameters", "anchors": ["DevIL/src-IL/src/il_manip.cpp: ilCopyPixels, ilCopyPixels1D, ilCopyPixels2D, ilCopyPixels3D"]}
{"id": "C12", "title": "ilSetPixels writes exactly the requested region", "statement": "After ilSetPixels every image pixel in the region holds the supplied value and every other pixel is unchanged; no byte outside the image buffer or the caller's buffer is accessed.", "quantifier": "all image dimensions, offsets (also negative) and extents", "why_tests_cant": "clipping arithmetic is signed/unsigned mixed", "anchors": ["DevIL/src-IL/src/il_manip.cpp: ilSetPixels, ilSetPixels1D, ilSetPixels2D, ilSetPixels3D"]}
{"id": "C13", "title": "ilSetPixels then ilCopyPixels is the identity", "statement": "Reading back a region just written returns the data written.", "quantifier": "all in-range regions, images and data", "why_tests_cant": "quantifies over all regions and data", "anchors": ["DevIL/src-IL/src/il_manip.cpp: ilSetPixels, ilCopyPixels"]}
{"id": "C14", "title": "Flipping", "statement": "Flipping an image twice restores it; one flip reverses the scanlines of every depth plane, and ilFlipImage also toggles the origin so that the picture is unchanged.", "quantifier": "all dimensions including odd heights, depths and bytes per scanline", "why_tests_cant": "unbounded dimensions", "anchors": ["DevIL/src-IL/src/il_manip.cpp: iFlipBuffer, iFlipNewBuffer, iGetFlipped, ilFlipImage"]}
{"id": "C15", "title": "Mirroring", "statement": "Mirroring reverses the pixels of every scanline and mirroring twice restores the image; no byte outside the buffers is accessed.", "quantifier": "all dimensions, channel counts and channel sizes", "why_tests_cant": "unbounded dimensions", "anchors": ["DevIL/src-IL/src/il_manip.cpp: iMirror"]}
{"id": "C16", "title": "Channel swapping", "statement": "ilSwapColours exchanges the red and blue channels of every pixel, updates the format accordingly, and is an involution.", "quantifier": "all images of RGB/RGBA/BGR/BGRA and palette formats, all channel sizes and depths", "why_tests_cant": "unbounded dimensions and depth", "anchors": ["DevIL/src-IL/src/il_convert.cpp: ilSwapColours"]}
{"id": "C17", "title": "Attribute push/pop", "statement": "ilPopAttrib restores every state the library had at the matching ilPushAttrib, for properly nested calls, whatever happened in between.", "quantifier": "every well-nested history of pushes, pops and state changes up to the documented depth", "why_tests_cant": "nesting histories are unbounded", "anchors": ["DevIL/src-IL/src/il_states.cpp: ilPushAttrib, ilPopAttrib"]}
{"id": "C18", "title": "Attribute stack limits", "statement": "A push beyond the maximal depth raises IL_STACK_OVERFLOW and an unmatched pop raises IL_STACK_UNDERFLOW; neither changes any state nor accesses memory outside the stack.", "quantifier": "every history of pushes and pops", "why_tests_cant": "history-dependent", "anchors": ["DevIL/src-IL/src/il_states.cpp: ilPushAttrib, ilPopAttrib"]}
{"id": "C19", "title": "Enable/Disable/IsEnabled", "statement": "ilIsEnabled(m) reports the last ilEnable/ilDisable of m; switching one mode never changes another; unknown modes raise IL_INVALID_ENUM and change nothing.", "quantifier": "every history of enable/disable calls and every mode value", "why_tests_cant": "all histories and all 2^32 mode values", "anchors": ["DevIL/src-IL/src/il_states.cpp: ilEnable, ilDisable, ilAble, ilIsEnabled"]}
{"id": "C20", "title": "SetInteger/GetInteger", "statement": "ilSetInteger(m,v) followed by ilGetInteger(m) returns v for every accepted v; rejected values raise IL_INVALID_PARAM and change nothing; setting one mode leaves the others unchanged.", "quantifier": "every mode and every value", "why_tests_cant": "all 2^64 pairs", "anchors": ["DevIL/src-IL/src/il_states.cpp: ilSetInteger, ilGetIntegerv"]}
{"id": "C21", "title": "Lump reads stay inside the lump", "statement": "Loading from a memory lump never reads outside the supplied buffer, whatever sequence of reads and seeks the loader makes; reading past the end raises IL_FILE_READ_ERROR.", "quantifier": "every lump, and every sequence of reads, seeks and end-of-file tests", "why_tests_cant": "adversarial seek/read sequences come from file contents", "anchors": ["DevIL/src-IL/src/il_files.cpp: iGetcLump, iReadLump, iSeekRLump, iEofLump, iTellRLump"]}
{"id": "C22", "title": "Lump writes stay inside the lump", "statement": "Saving to a memory lump of a given size never writes outside it; bytes written land at the current position in order; exhaustion raises IL_FILE_WRITE_ERROR.", "quantifier": "every buffer size and every sequence of writes and seeks", "why_tests_cant": "all sequences", "anchors": ["DevIL/src-IL/src/il_files.cpp: iPutcLump, iWriteLump, iSeekWLump"]}
{"id": "C23", "title": "Size determination", "statement": "ilDetermineSize reports exactly the number of bytes the saver would produce.", "quantifier": "every sequence of writes and seeks of a saver", "why_tests_cant": "all savers and images", "anchors": ["DevIL/src-IL/src/il_size.cpp: ilDetermineSize, iSizeSeek, iSizeWrite, iSizePutc"]}
{"id": "C24", "title": "RLE compression is lossless", "statement": "Decoding what ilRleCompress produced (per the TGA, SGI and BMP packet rules) yields the original bytes, and the reported size is the number of bytes produced.", "quantifier": "all lines, pixel sizes and packet mixes", "why_tests_cant": "all data", "anchors": ["DevIL/src-IL/src/il_rle.cpp: ilRleCompressLine, ilRleCompress", "DevIL/src-IL/include/il_rle.h"]}
{"id": "C25", "title": "PCX save/load round trip", "statement": "Decoding the PCX encoding of a scanline (any stride) gives back the scanline, runs never exceed 63, and saving an 8-bit-per-channel image as PCX then loading it gives the same pixels.", "quantifier": "all lines, widths, strides and pixel data", "why_tests_cant": "all data", "anchors": ["DevIL/src-IL/src/il_pcx.cpp: encput, encLine, iUncompressPcx, iSavePcxInternal"]}
{"id": "C26", "title": "RAW save/load round trip", "statement": "Saving an image as RAW and loading it back restores dimensions, channel layout and all pixel bytes.", "quantifier": "all images", "why_tests_cant": "all data", "anchors": ["DevIL/src-IL/src/il_raw.cpp: iLoadRawInternal, iSaveRawInternal"]}
{"id": "C27", "title": "Half-float conversions", "statement": "Every half value converted to float and back is unchanged (up to NaN payload and signed zero), and conversion is monotone on finite values.", "quantifier": "all 65536 half patterns and all 2^32 float patterns", "why_tests_cant": "2^32 float inputs", "anchors": ["DevIL/src-IL/src/il_manip.cpp: ilFloatToHalf, ilHalfToFloat"]}
{"id": "C28", "title": "Lossless channel conversions", "statement": "Converting between RGB, BGR, RGBA and BGRA permutes channels and preserves their values; adding an opaque alpha and dropping it again is the identity.", "quantifier": "all pixel buffers, channel types and sizes", "why_tests_cant": "all data", "anchors": ["DevIL/src-IL/src/il_convbuff.cpp: ilConvertBuffer", "DevIL/src-IL/src/il_fastconv.cpp: iFastConvert"]}
{"id": "C29", "title": "Integer channel widening is lossless", "statement": "Widening an integer channel type (byte to short to int) and narrowing back is the identity, and converted values keep their order.", "quantifier": "all channel values and buffers", "why_tests_cant": "all 2^32 values", "anchors": ["DevIL/src-IL/src/il_convbuff.cpp: iSwitchTypes"]}
{"id": "C30", "title": "Size helper functions", "statement": "ilNextPower2(n) is the least power of two not below n; bytes-per-pixel/-channel and format tables are mutually inverse.", "quantifier": "all 32-bit arguments", "why_tests_cant": "2^32 arguments, including non-termination", "anchors": ["DevIL/src-IL/src/il_utility.cpp"]}
{"id": "C31", "title": "PCX loading is memory safe", "statement": "Loading any byte string as PCX never accesses memory outside the allocated buffers, and terminates.", "quantifier": "all byte strings", "why_tests_cant": "adversarial inputs", "anchors": ["DevIL/src-IL/src/il_pcx.cpp: iLoadPcxInternal, iUncompressPcx, iUncompressSmall"]}
{"id": "C32", "title": "Loader registration", "statement": "After ilRegisterLoad(ext, f) files with that extension are handled by the first registered handler until ilRemoveLoad(ext); registering an extension twice does not add a second entry; removal affects only that extension.", "quantifier": "every history of registrations and removals", "why_tests_cant": "history-dependent", "anchors": ["DevIL/src-IL/src/il_register.cpp: ilRegisterLoad, ilRemoveLoad, ilRemoveRegistered, iRegisterLoad"]}
{"id": "C33", "title": "Image copies are deep and equal", "statement": "ilCopyImage(src) makes the current image equal in dimensions, attributes, palette and pixels to src, and later changes of one never affect the other.", "quantifier": "all source and destination images, including sub-images", "why_tests_cant": "aliasing across all later histories", "anchors": ["DevIL/src-IL/src/il_devil.cpp: ilCopyImage, ilCopyImageAttr, ilCopyImage_"]}
{"id": "C34", "title": "ilClearImage sets every pixel", "statement": "After ilClearImage every pixel holds the clear colour encoded in the image's format and type.", "quantifier": "all formats, types and dimensions", "why_tests_cant": "all dimensions", "anchors": ["DevIL/src-IL/src/il_devil.cpp: ilClearImage_, ilGetClear"]}
{"id": "C35", "title": "Blitting stays inside both images", "statement": "ilBlit writes only pixels of the destination inside the clipped target rectangle and reads only source pixels, for every combination of offsets and extents.", "quantifier": "all offsets (also negative), extents and image sizes", "why_tests_cant": "signed/unsigned clipping arithmetic", "anchors": ["DevIL/src-IL/src/il_devil.cpp: ilBlit"]}
{"id": "C36", "title": "Bit reader", "statement": "Reading n bits returns the next n bits of the stream most significant first, for every split of a bit stream into reads.", "quantifier": "all byte strings and all read-size sequences", "why_tests_cant": "all sequences", "anchors": ["DevIL/src-IL/src/il_bits.cpp: bread, bseek, btell"]}
{"id": "C37", "title": "Allocation failure is contained", "statement": "If any allocation fails, the call reports failure with IL_OUT_OF_MEMORY pending, and every later call behaves normally.", "quantifier": "every allocation failure schedule and every call history", "why_tests_cant": "failure points are schedule dependent", "anchors": ["DevIL/src-IL/src/il_alloc.cpp: ialloc, icalloc, ifree", "DevIL/src-IL/src/il_stack.cpp: iEnlargeStack"]}
{"id": "C38", "title": "Alpha channel editing", "statement": "ilGetAlpha extracts and ilSetAlpha overwrites exactly the alpha channel of every pixel; colour channels are unchanged.", "quantifier": "all images with an alpha channel and all alpha values", "why_tests_cant": "all data", "anchors": ["DevIL/src-IL/src/il_manip.cpp: ilGetAlpha, ilSetAlpha"]}
{"id": "C39", "title": "Adding and removing alpha", "statement": "ilAddAlpha followed by ilRemoveAlpha restores the pixel data and format, and touches no byte outside the buffers.", "quantifier": "all RGB/BGR images of any type and depth", "why_tests_cant": "unbounded dimensions and depth", "anchors": ["DevIL/src-IL/src/il_convert.cpp: ilAddAlpha, ilRemoveAlpha"]}
{"id": "C40", "title": "NTSC clamping", "statement": "ilClampNTSC maps every channel byte into 16..235, leaves values already inside unchanged and is idempotent.", "quantifier": "all images", "why_tests_cant": "all data", "anchors": ["DevIL/src-IL/src/il_manip.cpp: ilClampNTSC"]}
{"id": "C41", "title": "Exchanging two memory ranges", "statement": "The block exchange used by flipping swaps two disjoint equally long ranges exactly, for any length (not only multiples of its scratch size), and touches nothing else.", "quantifier": "all buffers, offsets and lengths", "why_tests_cant": "the chunked loop has boundary cases at every multiple of the 4096-byte scratch size", "anchors": ["DevIL/src-IL/src/il_utility.cpp: iMemSwap"]}
{"id": "C42", "title": "Replacing the pixels of an image", "statement": "ilSetData copies exactly the reported data size into the pixel buffer, changes no other attribute, and rejects NULL without any change.", "quantifier": "all images and source buffers", "why_tests_cant": "sizes and contents are unbounded", "anchors": ["DevIL/src-IL/src/il_devil.cpp: ilSetData, ilTexSubImage_"]}
{"id": "C43", "title": "SetString/GetString", "statement": "ilSetString(m, s) followed by ilGetString(m) delivers the characters of s, changes no other string, and does not lose memory; any string readable by the caller may be passed.", "quantifier": "every reachable state, every string mode and every string", "why_tests_cant": "all strings, modes and histories", "anchors": ["DevIL/src-IL/src/il_states.cpp: ilSetString, ilGetString"]}
{"id": "C44", "title": "Clipping of strings", "statement": "Fetching a format string clipped to a maximal length yields the first MaxLen characters of the string, for every string, within the bounds of the blocks involved.", "quantifier": "every string and every maximal length", "why_tests_cant": "all string lengths", "anchors": ["DevIL/src-IL/src/il_states.cpp: iClipString"]}
{"id": "C45", "title": "A call changes only the images it names", "statement": "Every call other than ilShutDown leaves the attributes, pixels, palette and sub-images of every name in use unchanged, except: the bound name for calls that define or change the current image, and the listed names for ilDeleteImages.", "quantifier": "every state reachable through the API, every call and every path of sub-image links", "why_tests_cant": "frame property over all images, histories and sub-image paths; depends on absence of aliasing in the heap", "anchors": ["DevIL/src-IL/src/il_stack.cpp", "DevIL/src-IL/src/il_devil.cpp", "DevIL/src-IL/src/il_register.cpp"]}
{"id": "C46", "title": "Defining an image", "statement": "ilTexImage(w,h,d,bpp,format,type,data) either succeeds, and the current image then has exactly these attributes, its size is w*h*d*bpp*channel size (zero dimensions counting as one, modulo 2^32) and its pixels are the first bytes of data; or it fails with IL_OUT_OF_MEMORY pending and leaves an image without pixels. With enough memory it succeeds.", "quantifier": "every reachable state, every dimension, format, type and buffer, every allocation failure", "why_tests_cant": "ranges over all sizes, buffers and allocation outcomes", "anchors": ["DevIL/src-IL/src/il_devil.cpp: ilTexImage_, ilInitImage"]}
{"id": "C47", "title": "Caching a file is invisible", "statement": "Reading a file through the read cache (set up by iPreCache, dropped by iUnCache) returns the same bytes in the same order as reading the file directly, whatever the cache size and the mixture of single-byte and block reads, and dropping the cache leaves the file position where an uncached reader would have it.", "quantifier": "every file content, every cache size, every sequence of single-byte and block reads", "why_tests_cant": "the cache refills at data-dependent points; all interleavings of reads and refills matter", "anchors": ["DevIL/src-IL/src/il_files.cpp: iPreCache, iUnCache, iGetcFile, iReadFile"]}
{"id": "C48", "title": "File type from the extension", "statement": "ilTypeFromExt depends only on what follows the last period of the name, disregarding case: each extension documented in il.h gives the type it is documented for, and every other extension gives IL_TYPE_UNKNOWN. A name without a period has no extension.", "quantifier": "every file name (any base name, any characters, any case), every extension", "why_tests_cant": "unbounded names and all spellings of each extension", "anchors": ["DevIL/src-IL/src/il_io.cpp: ilTypeFromExt", "DevIL/src-IL/src/il_internal.cpp: iGetExtension, iCheckExtension, iStrCmp", "DevIL/include/IL/il.h: file types"]}
{"id": "C49", "title": "Integer square root", "statement": "iSqrt never reads outside its table and for every non-negative int returns r with r*r <= x and x <= (16/15)^2 (r+1)^2; it is the exact integer square root for small arguments.", "quantifier": "every int from 0 to 2^31-1", "why_tests_cant": "two thousand million arguments", "anchors": ["DevIL/src-IL/src/il_internal.cpp: iSqrt"]}
{"id": "C50", "title": "Reading a text line", "statement": "iFgets stores a line of at most maxlen characters, zero terminated, consumes the line feed, cuts longer lines and never writes outside the buffer of maxlen bytes its caller passes.", "quantifier": "every input, every line length, every buffer", "why_tests_cant": "all line lengths, including those equal to the limit", "anchors": ["DevIL/src-IL/src/il_internal.cpp: iFgets", "DevIL/src-IL/src/il_pnm.cpp: iReadPnmInternal, iPnmReadParam"]}
{"id": "C51", "title": "Numbers in files have the stated byte order", "statement": "Each helper that saves a little- or big-endian number writes exactly the bytes of that number in the stated order, and the matching helper that reads one gives the number back.", "quantifier": "every 16/32-bit number, every position in the file, every content of uninitialised memory", "why_tests_cant": "2^32 values and every byte order combination", "anchors": ["DevIL/src-IL/include/il_endian.h: SaveLittleUInt, SaveBigUInt, GetLittleUInt, GetBigUInt, GetBigDouble, iSwapDouble"]}
{"id": "C52", "title": "RAW loading is memory safe", "statement": "Loading any bytes as RAW ends with success or failure without touching memory outside the file and the image buffer, and on success the image buffer holds as many bytes as the image claims.", "quantifier": "every byte string, every allocator behaviour, every content of uninitialised locals", "why_tests_cant": "headers can name 2^96 sizes; the products wrap", "anchors": ["DevIL/src-IL/src/il_raw.cpp: iLoadRawInternal", "DevIL/src-IL/src/il_devil.cpp: ilTexImage, ilInitImage"]}
{"id": "C53", "title": "Integer and floating channel types", "statement": "Converting integer channels to float or double maps 0 to 0, the largest integer to 1 and keeps the order and (when the floating type has enough digits) the value; converting back to the same integer type gives the original; converting a float outside 0..1 to an integer gives the nearest end.", "quantifier": "all channel values and buffers", "why_tests_cant": "all values of every type", "anchors": ["DevIL/src-IL/src/il_convbuff.cpp: iSwitchTypes"]}
{"id": "C54", "title": "Luminance of a colour", "statement": "Converting colour pixels to luminance yields, for every pixel, the weighted sum of its red, green and blue (within one level plus single-precision error), never makes a nowhere brighter pixel brighter, does not depend on the order in which the format stores the components, and keeps or adds alpha.", "quantifier": "all colour formats, buffers and channel values", "why_tests_cant": "all combinations of 2^24 or 2^48 colours and sizes", "anchors": ["DevIL/src-IL/src/il_convbuff.cpp: ilConvertBuffer"]}
{"id": "C55", "title": "Blending mixes by the alpha of the source", "statement": "When blending is enabled and the source image has an alpha channel, blitting it onto an image with an alpha channel replaces every colour value in the target rectangle by the mixture of source and destination in the proportion of the alpha of the source pixel: opaque source pixels replace the destination, fully transparent ones leave it, the alpha of the destination and all pixels outside the rectangle are untouched.", "quantifier": "every pair of images, every offset and extent inside them, every pixel and channel value", "why_tests_cant": "single-precision arithmetic and truncation for all 2^24 combinations of alpha, source and destination at every position of images of every size", "anchors": ["DevIL/src-IL/src/il_devil.cpp:ilBlit", "DevIL/src-IL/src/il_devil.cpp:ilOverlayImage"]}
{"id": "C56", "title": "Targa round trip", "statement": "Saving an 8-bit colour, greyscale or palette image as an uncompressed Targa file and loading that file gives back an image of the same size, type and palette that shows the same picture (red and blue may be stored in the other order, with the format saying so), and saving leaves the image unchanged.", "quantifier": "all 8-bit images up to 65535 x 65535, all ID/author/comment strings, all dates", "why_tests_cant": "every pixel position, size, format and origin combination; the file layout depends on all of them", "anchors": ["DevIL/src-IL/src/il_targa.cpp: iSaveTargaInternal", "DevIL/src-IL/src/il_targa.cpp: iLoadTargaInternal", "DevIL/src-IL/src/il_targa.cpp: iReadUnmapTga"]}
{"id": "C57", "title": "Loading any Targa file is memory safe", "statement": "Loading an arbitrary byte string as a Targa file never reads or writes outside a buffer and always terminates; a file too short to contain a header is refused and leaves the current image alone.", "quantifier": "all byte strings, all contents of uninitialised memory, all allocator behaviours", "why_tests_cant": "the loader must survive every possible (hostile) file; no finite test set covers them", "anchors": ["DevIL/src-IL/src/il_targa.cpp: iLoadTargaInternal", "DevIL/src-IL/src/il_targa.cpp: iUncompressTgaData", "DevIL/src-IL/src/il_targa.cpp: i16BitTarga", "DevIL/src-IL/src/il_targa.cpp: iReadColMapTga"]}
{"id": "C58", "title": "Run-length encoded Targa files", "statement": "Every stream of run-length packets that the Targa specification allows is decoded to the pixels it stands for, with packets across row ends and anything after the pixels; and saving an image with compression enabled and loading the file gives back the picture.", "quantifier": "all packet streams, all images", "why_tests_cant": "packet streams are unboundedly many, boundaries of packets and rows interact", "anchors": ["DevIL/src-IL/src/il_targa.cpp: iUncompressTgaData", "DevIL/src-IL/src/il_targa.cpp: iSaveTargaInternal", "DevIL/src-IL/src/il_rle.cpp: ilRleCompress"]}
{"id": "C59", "title": "The announced Targa size is the size written", "statement": "The size that the size query reports for saving the current image as Targa is the number of bytes that saving writes.", "quantifier": "all savable images and texts", "why_tests_cant": "must hold for every size, format and text length", "anchors": ["DevIL/src-IL/src/il_targa.cpp: iTargaSize", "DevIL/src-IL/src/il_size.cpp: ilDetermineSize"]}
{"id": "C60", "title": "A truncated Targa file is not reported as loaded", "statement": "Loading a Targa file that ends before its pixels do reports failure.", "quantifier": "all truncation points of all files", "why_tests_cant": "every prefix of every file", "anchors": ["DevIL/src-IL/src/il_targa.cpp: iLoadTargaInternal"]}
{"id": "C61", "title": "Palette conversion keeps the colours", "statement": "Converting a palette to another palette type keeps the number of colours and every colour, as far as the new type can hold it: the same red, green and blue, and the alpha where both types have one (opaque otherwise). This holds for every palette the library can produce and never leaves the palettes' memory.", "quantifier": "all palettes, all pairs of types", "why_tests_cant": "every size and every pair of types", "anchors": ["DevIL/src-IL/src/il_pal.cpp: iConvertPal", "DevIL/src-IL/src/il_pal.cpp: ilConvertPal"]}
{"id": "C62", "title": "Paint Shop Pro palettes: round trip", "statement": "Saving the palette of an image as a Paint Shop Pro text palette writes a well-formed file of the palette's colours, leaves the image unchanged, and loading the file gives back the colours.", "quantifier": "all palettes of up to 256 colours of every type", "why_tests_cant": "every palette and every value; a text format with numbers of different lengths", "anchors": ["DevIL/src-IL/src/il_pal.cpp: ilSaveJascPal", "DevIL/src-IL/src/il_pal.cpp: ilLoadJascPal", "DevIL/src-IL/src/il_pal.cpp: iFgetw"]}
{"id": "C63", "title": "Palette files cannot hang or corrupt the program", "statement": "Loading any file as a Paint Shop Pro palette ends and stays inside the library's buffers; when it succeeds, the image has a palette of as many bytes as it declares.", "quantifier": "all byte strings as files", "why_tests_cant": "every byte string, including malformed ones", "anchors": ["DevIL/src-IL/src/il_pal.cpp: ilLoadJascPal", "DevIL/src-IL/src/il_pal.cpp: iFgetw"]}
{"id": "C64", "title": "A palette can be applied to an image", "statement": "Applying a palette file to an image of unsigned bytes succeeds and makes it a palette image of the nearest colours.", "quantifier": "all images", "why_tests_cant": "claims about every image", "anchors": ["DevIL/src-IL/src/il_pal.cpp: ilApplyPal"]}
{"id": "C65", "title": "Saving and loading a Windows bitmap keeps the picture", "statement": "Saving an image as BMP writes a Windows bitmap file with the width, height, palette and pixels of the image (and the right file size), and loading that file gives the same picture and the same colours.", "quantifier": "all images of 24 or 32 bits and all palette images, of any size and origin, with palettes of any type", "why_tests_cant": "every width (row padding), height, origin and pixel content", "anchors": ["DevIL/src-IL/src/il_bmp.cpp: iSaveBitmapInternal", "DevIL/src-IL/src/il_bmp.cpp: ilReadUncompBmp"]}
{"id": "C66", "title": "Malformed bitmap files cannot corrupt memory", "statement": "Loading any file as BMP (Windows or OS/2, compressed or not) ends and stays inside the file and the library's buffers; the current image afterwards is unchanged, empty or consistent, and consistent if loading succeeded.", "quantifier": "all byte strings as files", "why_tests_cant": "every byte string, including truncated and hostile ones", "anchors": ["DevIL/src-IL/src/il_bmp.cpp: iLoadBitmapInternal", "DevIL/src-IL/src/il_bmp.cpp: ilReadUncompBmp", "DevIL/src-IL/src/il_bmp.cpp: ilReadRLE8Bmp", "DevIL/src-IL/src/il_bmp.cpp: ilReadRLE4Bmp", "DevIL/src-IL/src/il_bmp.cpp: iGetOS2Bmp"]}
{"id": "C67", "title": "Uncompressed bitmaps are decoded as the format says", "statement": "Loading an uncompressed Windows bitmap of 1, 4, 8, 16, 24 or 32 bits per pixel gives the width, height, palette and every pixel that the format description assigns, for both row orders.", "quantifier": "all uncompressed Windows bitmap files", "why_tests_cant": "every width, height, bit depth, row order, palette size, position of the pixels and content", "anchors": ["DevIL/src-IL/src/il_bmp.cpp: ilReadUncompBmp"]}
{"id": "C68", "title": "Run-length encoded bitmaps are decoded as the format says", "statement": "Loading an 8-bit or 4-bit run-length encoded bitmap paints exactly the pixels its codes describe: runs, literal pixels, end of line, jumps and end of bitmap.", "quantifier": "all streams of codes", "why_tests_cant": "every sequence of codes and every position in the picture", "anchors": ["DevIL/src-IL/src/il_bmp.cpp: ilReadRLE8Bmp", "DevIL/src-IL/src/il_bmp.cpp: ilReadRLE4Bmp"]}
{"id": "C69", "title": "Colour masks of bitmaps are respected", "statement": "Loading a 16- or 32-bit bitmap with colour masks gives for every channel the masked bits of the pixel, scaled to a byte.", "quantifier": "all masks, all pixel values", "why_tests_cant": "every mask position and width and every pixel value", "anchors": ["DevIL/src-IL/src/il_bmp.cpp: ilReadUncompBmp", "DevIL/include/il_bmp.h: GetShiftFromMask"]}
{"id": "C70", "title": "Cropping keeps exactly the chosen region", "statement": "iluCrop with a region inside the current image makes the image that region: it has the size of the region, and every pixel is the pixel of the old image at the offset plus its position; the format, type and origin stay.", "quantifier": "all images, all regions inside them", "why_tests_cant": "every size, format, offset and size of the region", "anchors": ["DevIL/src-ILU/src/ilu_manip.cpp: iluCrop", "DevIL/src-ILU/src/ilu_manip.cpp: iluCrop2D", "DevIL/src-ILU/src/ilu_manip.cpp: iluCrop3D"]}
{"id": "C71", "title": "Enlarging the canvas keeps the picture and fills the rest", "statement": "iluEnlargeCanvas makes the image of the given size, with the old picture at the place chosen by iluImageParameter(ILU_PLACEMENT, ...) and the clear colour everywhere else.", "quantifier": "all images, all larger sizes, all placements, all clear colours", "why_tests_cant": "every combination of sizes, placement, origin and colour", "anchors": ["DevIL/src-ILU/src/ilu_manip.cpp: iluEnlargeCanvas"]}
{"id": "C72", "title": "Flipping an image twice restores it", "statement": "iluFlipImage turns the picture upside down, every slice and every channel, and doing it twice gives the original image.", "quantifier": "all images", "why_tests_cant": "every size, depth and number of bytes per pixel", "anchors": ["DevIL/src-ILU/src/ilu_manip.cpp: iluFlipImage", "DevIL/src-IL/src/il_manip.cpp: iFlipBuffer"]}
{"id": "C73", "title": "The negative of an image", "statement": "iluNegative replaces every channel value by the largest value minus it, in the selected region only, and doing it twice gives the original image.", "quantifier": "all images, all regions", "why_tests_cant": "every size, type, palette and region", "anchors": ["DevIL/src-ILU/src/ilu_manip.cpp: iluNegative"]}
{"id": "C74", "title": "Inverting the alpha channel", "statement": "iluInvertAlpha inverts the alpha value of every pixel and changes nothing else.", "quantifier": "all images with an alpha channel", "why_tests_cant": "every size, format and type", "anchors": ["DevIL/src-ILU/src/ilu_manip.cpp: iluInvertAlpha"]}
{"id": "C75", "title": "Counting the colours of an image", "statement": "iluColoursUsed returns the number of different colours of the image.", "quantifier": "all images", "why_tests_cant": "every size and every set of pixel values", "anchors": ["DevIL/src-ILU/src/ilu_manip.cpp: iluColoursUsed"]}
{"id": "C76", "title": "Region points are released exactly once", "statement": "In every history of calls that set, clear and use the points of a region, each block of points is released exactly once and never read after that.", "quantifier": "all histories of calls, with or without failing allocations", "why_tests_cant": "histories of any length over two kinds of points that share their state", "anchors": ["DevIL/src-ILU/src/ilu_region.cpp: iluRegionfv", "DevIL/src-ILU/src/ilu_region.cpp: iluRegioniv", "DevIL/src-ILU/src/ilu_region.cpp: iScanFill"]}
{"id": "C77", "title": "Scaling takes the pixel at the corresponding place", "statement": "Scaling an image with the nearest filter gives an image of the requested size and of the same format, type and origin in which every pixel is a pixel of the source whose column, row and slice correspond to its own: the index lies in the source, is at most one away from the integer part of x * old / new, and equal to it when the ratio is exact (enlarging by a whole factor or reducing by a power of two).", "quantifier": "all images and target sizes", "why_tests_cant": "every size and ratio; floating point rounding at every index", "anchors": ["DevIL/src-ILU/src/ilu_scale.cpp: iluScale", "DevIL/src-ILU/src/ilu_scale2d.cpp: iluScale2DNear_", "DevIL/src-ILU/src/ilu_scale3d.cpp: iluScale3DNear_"]}
{"id": "C78", "title": "The chain of mipmaps is complete", "statement": "Building mipmaps of an image yields floor(log2(largest dimension)) images, each half as large as the one before it (never smaller than one) with pixels taken from it, and the last one has one pixel.", "quantifier": "all images", "why_tests_cant": "any size; recursion whose depth depends on the image", "anchors": ["DevIL/src-ILU/src/ilu_mipmap.cpp: iluBuildMipmaps", "DevIL/src-ILU/src/ilu_mipmap.cpp: iBuildMipmaps"]}
{"id": "C79", "title": "Convolution stays inside the image", "statement": "A convolution reads only the pixels of the image, and every inner pixel becomes the weighted sum of its nine neighbours.", "quantifier": "all images and kernels", "why_tests_cant": "memory access for every size", "anchors": ["DevIL/src-ILU/src/ilu_filter.cpp: iluConvolution", "DevIL/src-ILU/src/ilu_filter.cpp: Filter"]}
{"id": "C80", "title": "Noise keeps within its tolerance", "statement": "Adding noise moves all channels of a pixel by the same amount of at most the tolerance, keeps the values within the range of the type, and leaves pixels outside of the region alone.", "quantifier": "all images, tolerances, regions and random numbers", "why_tests_cant": "every sequence of random numbers and every value", "anchors": ["DevIL/src-ILU/src/ilu_noise.cpp: iluNoisify"]}
{"id": "C81", "title": "Rotation by right angles is exact", "statement": "Rotating an image by 90, 180 or 270 degrees moves every pixel to its place in the turned image and nothing else.", "quantifier": "all images", "why_tests_cant": "every size, including images that are not square", "anchors": ["DevIL/src-ILU/src/ilu_rotate.cpp: iluRotate", "DevIL/src-ILU/src/ilu_rotate.cpp: iluRotate_"]}
{"id": "C82", "title": "Mosaic: blocks become their average", "statement": "Pixelizing an image sets every channel to the average, rounded down, of its block of the given size; blocks at the edges are cut off at the edges.", "quantifier": "all images and block sizes", "why_tests_cant": "every size, in particular those that are not multiples of the block", "anchors": ["DevIL/src-ILU/src/ilu_filter.cpp: iluPixelize"]}
{"id": "C83", "title": "Converting palette images to colour keeps every pixel's colour", "statement": "Converting a chain of palette images to RGB, BGR, RGBA or BGRA gives, for every image, an image of the same frame without palette, whose every pixel is the palette colour its index names.", "quantifier": "all chains of palette images, palettes of every kind and target formats", "why_tests_cant": "every combination of palette type, size, index and chain length", "anchors": ["DevIL/src-IL/src/il_convert.cpp: iConvertPalette", "DevIL/src-IL/src/il_convert.cpp: iConvertImage", "DevIL/src-IL/src/il_convert.cpp: ilConvertImage"]}
{"id": "C84", "title": "Converting palette images to luminance", "statement": "Converting a palette image to luminance gives each pixel the weighted luminance of its palette colour; the alpha of luminance-alpha is opaque; a failing conversion leaves the current image bound.", "quantifier": "all palette images, chains and allocation failures", "why_tests_cant": "every palette type, depth, chain and failing allocation", "anchors": ["DevIL/src-IL/src/il_convert.cpp: iConvertPalette", "DevIL/src-IL/src/il_convert.cpp: ilConvertImage"]}
{"id": "C85", "title": "Conversion converts the whole chain or nothing", "statement": "Converting an image converts all images of its chain to the same format and type, keeping the frame of each; when it fails no image is changed.", "quantifier": "all chains of images, formats and types", "why_tests_cant": "chains of every length, formats of every mix", "anchors": ["DevIL/src-IL/src/il_convert.cpp: ilConvertImage", "DevIL/src-IL/src/il_convert.cpp: iConvertImage"]}
{"id": "C86", "title": "Luminance images become palettes of greys", "statement": "Converting a luminance image to a palette image gives a palette of 256 greys and leaves the luminance of every pixel unchanged.", "quantifier": "all luminance images", "why_tests_cant": "every size, type and value", "anchors": ["DevIL/src-IL/src/il_convert.cpp: iConvertImage"]}
{"id": "C87", "title": "Wireless bitmaps decode to the black and white picture they store", "statement": "Loading a well-formed type 0 wireless bitmap from a file or from memory succeeds and gives a luminance image of the stored size, upper left origin, whose pixel (x, y) is 255 where the stored bit is 1 and 0 where it is 0; a file too short for its picture is refused, and no file makes the loader access memory out of bounds.", "quantifier": "all files, sizes and multi-byte integer encodings of the sizes", "why_tests_cant": "sizes and encodings of every length, every bit pattern and every file length", "anchors": ["DevIL/src-IL/src/il_wbmp.cpp: ilLoadWbmp", "DevIL/src-IL/src/il_wbmp.cpp: iLoadWbmpInternal", "DevIL/src-IL/src/il_wbmp.cpp: WbmpGetMultibyte"]}
{"id": "C88", "title": "Saving a wireless bitmap and loading it restores the picture", "statement": "An image of two colours saved as a wireless bitmap and loaded again has the same size and the same pixels.", "quantifier": "all sizes and pixel patterns", "why_tests_cant": "widths that are no multiple of eight, sizes that need several bytes", "anchors": ["DevIL/src-IL/src/il_wbmp.cpp: ilSaveWbmp", "DevIL/src-IL/src/il_wbmp.cpp: iSaveWbmpInternal", "DevIL/src-IL/src/il_wbmp.cpp: WbmpPutMultibyte"]}
{"id": "C89", "title": "Compressed texture data decodes to the picture the format defines", "statement": "After ilTexImageDxtc with DXT1, DXT3 or DXT5 data, ilDxtcDataToSurface gives an RGBA image of the same size, upper left origin, in which every channel of every pixel is what the block format defines, also at the right and bottom edges where blocks are cut.", "quantifier": "all sizes, block contents and formats DXT1, DXT3, DXT5", "why_tests_cant": "every 16-byte block and every size", "anchors": ["DevIL/src-IL/src/il_dds.cpp: ilTexImageDxtc", "DevIL/src-IL/src/il_dds.cpp: ilDxtcDataToSurface", "DevIL/src-IL/src/il_dds.cpp: DecompressDXT1", "DevIL/src-IL/src/il_dds.cpp: DecompressDXT3", "DevIL/src-IL/src/il_dds.cpp: DecompressDXT5"]}
{"id": "C90", "title": "Flipping compressed data flips the picture", "statement": "ilFlipSurfaceDxtcData on DXT1, DXT3 or DXT5 data makes the decoded picture the vertical mirror image of what it was, and doing it twice restores the data.", "quantifier": "all sizes, block contents and formats DXT1, DXT3, DXT5", "why_tests_cant": "every 16-byte block and every size", "anchors": ["DevIL/src-IL/src/il_dds.cpp: ilFlipSurfaceDxtcData", "DevIL/src-IL/src/il_dds.cpp: iFlipDxt1", "DevIL/src-IL/src/il_dds.cpp: iFlipDxt3", "DevIL/src-IL/src/il_dds.cpp: iFlipDxt5", "DevIL/src-IL/src/il_dds.cpp: iComplexAlphaHelper"]}
{"id": "C91", "title": "Inverting compressed alpha inverts the decoded alpha exactly", "statement": "ilInvertSurfaceDxtcDataAlpha on DXT3 or DXT5 data makes the alpha of every pixel of the decoded picture 255 minus what it was and keeps the colours; doing it twice restores the data; other formats are refused and kept.", "quantifier": "all sizes, block contents and formats", "why_tests_cant": "every 16-byte block: interpolated values must round the same way in both directions", "anchors": ["DevIL/src-IL/src/il_dds.cpp: ilInvertSurfaceDxtcDataAlpha", "DevIL/src-IL/src/il_dds.cpp: iInvertDxt3Alpha", "DevIL/src-IL/src/il_dds.cpp: iInvertDxt5Alpha"]}
{"id": "C92", "title": "Loading SGI images", "statement": "A well-formed 8-bit SGI file, verbatim or run-length encoded, loads to exactly the picture its planes describe, line by line from the bottom, with the right size, format and type; and no file makes the loader leave its memory.", "quantifier": "all sizes, channels 1, 3, 4, all plane contents, all correct codes, all malformed verbatim files", "why_tests_cant": "every file: every code of every line", "anchors": ["DevIL/src-IL/src/il_sgi.cpp: iLoadSgiInternal", "DevIL/src-IL/src/il_sgi.cpp: iReadRleSgi", "DevIL/src-IL/src/il_sgi.cpp: iGetScanLine", "DevIL/src-IL/src/il_sgi.cpp: iReadNonRleSgi", "DevIL/src-IL/src/il_sgi.cpp: iNewSgi"]}
{"id": "C93", "title": "Saving SGI images", "statement": "Saving an 8-bit greyscale, RGB or RGBA image as SGI, with or without compression, and loading the file again gives the same picture; the number of bytes reported is the size of the file.", "quantifier": "all images with 1, 3 or 4 channels of one byte, both origins, both compression settings", "why_tests_cant": "every picture: every line is encoded separately", "anchors": ["DevIL/src-IL/src/il_sgi.cpp: iSaveSgiInternal", "DevIL/src-IL/src/il_sgi.cpp: iSaveRleSgi", "DevIL/src-IL/src/il_sgi.cpp: ilSaveSgiF", "DevIL/src-IL/src/il_rle.cpp: ilRleCompressLine"]}
{"id": "C94", "title": "Loading textures: FTX, PXR, LIF, WAL", "statement": "A complete FTX, Pxrar, Homeworld LIF or Quake 2 WAL file loads to exactly the picture its bytes describe, line by line from the top, with the right size, format and palette, and for WAL with its three smaller versions; a file that is cut short is rejected; no file makes the loader leave its memory.", "quantifier": "all sizes, all pixel contents, all kinds of channels, all short and damaged files", "why_tests_cant": "every file of every size; a cut can be at any byte", "anchors": ["DevIL/src-IL/src/il_ftx.cpp: iLoadFtxInternal", "DevIL/src-IL/src/il_pxr.cpp: iLoadPxrInternal", "DevIL/src-IL/src/il_lif.cpp: iLoadLifInternal", "DevIL/src-IL/src/il_wal.cpp: iLoadWalInternal"]}
{"id": "C95", "title": "Loading run-length encoded pictures: CUT, PIX", "statement": "A CUT or Alias PIX file loads to the picture its codes stand for, whatever mixture of runs and literal bytes was used; a file that ends too early is rejected; the loaders end and write only inside the picture for every file.", "quantifier": "all pictures, all codes of a picture, all damaged codes", "why_tests_cant": "the same picture has exponentially many codes, and damaged codes are unbounded", "anchors": ["DevIL/src-IL/src/il_cut.cpp: iLoadCutInternal", "DevIL/src-IL/src/il_pix.cpp: iLoadPixInternal"]}
{"id": "C96", "title": "Loading SUN rasters", "statement": "A SUN raster file with 8, 24 or 32 bits per pixel, verbatim or run-length encoded, loads to the picture it describes, with its colour map; whatever follows the header, the loader ends and writes only inside the image.", "quantifier": "all sizes, depths 8, 24 and 32, all types and map lengths, all codes, all damaged rasters", "why_tests_cant": "every file: runs may cross lines, lines are padded or not, files end anywhere", "anchors": ["DevIL/src-IL/src/il_sun.cpp: iLoadSunInternal", "DevIL/src-IL/src/il_sun.cpp: iSunGetRle", "DevIL/src-IL/src/il_sun.cpp: iCheckSun"]}
{"id": "C97", "title": "Loading DOOM pictures and flats", "statement": "A DOOM picture loads with its columns drawn post by post over transparent pixels and DOOM's palette (or, if palettes are to be converted, with the colours of the palette); a flat loads as 64 by 64 stored pixels; no file makes the loader read or write outside its memory, and it always ends.", "quantifier": "all sizes up to 32767, all column tables and posts, all damaged files", "why_tests_cant": "columns may share or overlap posts, and offsets point anywhere", "anchors": ["DevIL/src-IL/src/il_doom.cpp: iLoadDoomInternal", "DevIL/src-IL/src/il_doom.cpp: iLoadDoomFlatInternal"]}
{"id": "C98", "title": "Portable anymaps are loaded into the samples they store", "statement": "Loading a portable bitmap, graymap, pixmap or arbitrary map, in binary or as text, with comments and blanks anywhere the format allows them in the header, gives an image of the size, channels and samples that the file states; a file with a wrong magic number, a size of zero, or too few values is refused without a change to the current image or access outside the buffers.", "quantifier": "all files, sizes, layouts of blanks and comments, buffers and previous images", "why_tests_cant": "the layouts of headers and lines are unbounded, and the faulty ones depend on the exact length of a line or a byte that looks like a space", "anchors": ["DevIL/src-IL/src/il_pnm.cpp:iLoadPnmInternal", "DevIL/src-IL/src/il_pnm.cpp:ilReadAsciiPpm", "DevIL/src-IL/src/il_pnm.cpp:ilReadBinaryPpm", "DevIL/src-IL/src/il_pnm.cpp:ilReadBitPbm", "DevIL/src-IL/src/il_pnm.cpp:ilReadPam", "DevIL/src-IL/src/il_pnm.cpp:iGetWord", "DevIL/src-IL/src/il_internal.cpp:iFgets"]}
{"id": "C99", "title": "Portable pixmaps that are saved can be loaded again", "statement": "Saving an image of bytes as a portable pixmap, in binary or as text, writes a file with the size of the image from which loading restores the same picture, whatever its origin; types the format cannot hold are refused before anything is written.", "quantifier": "all images, both encodings, all origins", "why_tests_cant": "every size and every sequence of values gives other line breaks and other lengths", "anchors": ["DevIL/src-IL/src/il_pnm.cpp:iSavePnmInternal", "DevIL/src-IL/src/il_files.cpp:ilprintf"]}
