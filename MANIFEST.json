{
 "claims": [
  {
   "property": "C01",
   "status": "proved",
   "theorems": [
    "C01_errors_lifo"
   ],
   "note": "for every interleaving with at most 32 outstanding"
  },
  {
   "property": "C02",
   "status": "partial",
   "theorems": [
    "C02_actual_policy_partial",
    "C02_newest_first",
    "C02_drained_after_32",
    "C02_drop_oldest_refuted"
   ],
   "note": "newest-first, bound 32 and slot safety proved for every history; the claim that overflow drops only the oldest is refuted (the code shifts 31 slots incorrectly) and the actual policy is characterised exactly"
  },
  {
   "property": "C03",
   "status": "partial",
   "theorems": [
    "C03_partial",
    "C03_refuted"
   ],
   "note": "distinct, fresh and live names after every history that never binds a deleted name and under successful allocation; refuted otherwise: delete n, bind n, generate returns n although it is in use"
  },
  {
   "property": "C04",
   "status": "partial",
   "theorems": [
    "C04_partial"
   ],
   "note": "all histories of the covered calls (restrictions in StackSpec.legal), no allocation failure"
  },
  {
   "property": "C05",
   "status": "partial",
   "theorems": [
    "C05_partial"
   ],
   "note": "all covered histories; excluded are states after ilCloneCurImage where the current image is not the bound one (C06_refuted shows the dangling pointer)"
  },
  {
   "property": "C06",
   "status": "partial",
   "theorems": [
    "C06_partial",
    "C06_refuted"
   ],
   "note": "safe for every history satisfying StackSpec.legal; refuted without it: delete after clone, use after shutdown, self copy, copy into a selected sub-image"
  },
  {
   "property": "C07",
   "status": "partial",
   "theorems": [
    "C07_partial",
    "C07_refuted"
   ],
   "note": "heap empty after ilShutDown for every legal history that also satisfies StackSpec.tight; refuted otherwise by three leaks"
  },
  {
   "property": "C08",
   "status": "proved",
   "theorems": [
    "C08",
    "C08_chains"
   ],
   "note": "every state whose current image has a chain; C08_chains: reachable states do, and the IL_NUM_* counts agree"
  },
  {
   "property": "C09",
   "status": "partial",
   "theorems": [
    "C09_partial",
    "C09_refuted"
   ],
   "note": "IL_SUB_NEXT for every count; refuted for mipmaps and layers with counts above one"
  },
  {
   "property": "C10",
   "status": "partial",
   "theorems": [
    "C10_geometry_exact_partial",
    "C10_block_matches_reported_size",
    "C10_geometry_wraps_refuted"
   ],
   "note": "exact for every size below 2^32; refuted when the 32-bit product wraps"
  },
  {
   "property": "C100",
   "status": "partial",
   "theorems": [
    "C100_animation_partial",
    "C100_single_pixel_refuted",
    "C100_second_palette_refuted"
   ],
   "note": "files within the 31-bit size limit whose last pixel does not come directly after a clear code, whose later frames bring colours of their own only with method 0, 2 or 3, with interlaced frames only on fresh canvases down to their bottom; the refuted theorems show what happens otherwise"
  },
  {
   "property": "C101",
   "status": "proved",
   "theorems": [
    "C101_valid",
    "C101_name_refused",
    "C101_code_size_refused",
    "C101_colours_refused",
    "C101_empty_refused"
   ],
   "note": ""
  },
  {
   "property": "C102",
   "status": "partial",
   "theorems": [
    "C102_bits_partial",
    "C102_outside_refuted",
    "C102_corrupt_refuted"
   ],
   "note": "reading codes is safe; frames outside the canvas and corrupt codes are not"
  },
  {
   "property": "C103",
   "status": "partial",
   "theorems": [
    "C103_pixels_partial",
    "C103_short",
    "C103_rgb32_refuted",
    "C103_rgba16_refuted",
    "C103_la8_refuted",
    "C103_alpha4_refuted"
   ],
   "note": "channels of at most eight bits; RGB in four bytes, RGBA in less than four, luminance and alpha in one byte or with two to four bits of alpha are read wrongly (refuted theorems); cube maps and formats of 16 and 32 bits per channel are not modelled"
  },
  {
   "property": "C104",
   "status": "partial",
   "theorems": [
    "C104_dxt_partial",
    "C104_size_refuted"
   ],
   "note": "files whose data size is not stated, stated exactly or recomputed for volumes; a stated size that is too small makes the decoder read past its data; DXT2 and DXT4 are not modelled"
  },
  {
   "property": "C105",
   "status": "proved",
   "theorems": [
    "C105_valid",
    "C105_header_refused",
    "C105_unknown_refused",
    "C105_short_refused"
   ],
   "note": "short files: uncompressed pixels whose size is not given by lines"
  },
  {
   "property": "C106",
   "status": "partial",
   "theorems": [
    "C106_compare_partial",
    "C106_sub_image",
    "C106_self",
    "C106_refused",
    "C106_palette_refuted",
    "C106_selection_refuted",
    "C106_own_name_refuted"
   ],
   "note": "palettes are not compared, an active sub-image loses its selection, and an active sub-image is equal to its own name unseen (refuted theorems)"
  },
  {
   "property": "C107",
   "status": "partial",
   "theorems": [
    "C107_bytes_partial",
    "C107_nibbles_partial",
    "C107_dxt_partial",
    "C107_header_refused",
    "C107_valid",
    "C107_short_refused",
    "C107_levels_refuted",
    "C107_nibbles_refuted",
    "C107_dxt_refuted",
    "C107_position_refuted"
   ],
   "note": "the loader stops at the first level with a side of one pixel and so misreads the levels of pictures that are not square; four bits are not scaled to the full range; narrow DXT levels are read past their data; the position moves when a file is checked (refuted theorems)"
  },
  {
   "property": "C108",
   "status": "partial",
   "theorems": [
    "C108_rgb",
    "C108_bgr_partial",
    "C108_grey",
    "C108_zero",
    "C108_bgr_refuted",
    "C108_zero_refuted"
   ],
   "note": "in BGR images the components of the clear colour are compared in the wrong order, and a tolerance of zero replaces nothing (refuted theorems); channels of more than one byte are not covered"
  },
  {
   "property": "C109",
   "status": "partial",
   "theorems": [
    "C109_icons_partial",
    "C109_short_refused",
    "C109_unknown_refuted",
    "C109_empty_refuted",
    "C109_colours_refuted"
   ],
   "note": "icons of 1, 4, 8, 24 and 32 bits per pixel; PNG entries are a parameter. Icons of 16 bits leave the image unchanged and report success, files without icons succeed, and 8-bit palettes of fewer than 256 colours are misread (refuted theorems)"
  },
  {
   "property": "C11",
   "status": "partial",
   "theorems": [
    "C11_copy_pixels_inside_partial",
    "C11_copy_pixels_clipped_partial",
    "C11_copy_empty",
    "C11_copy_depth_ignored_refuted",
    "C11_copy_clipped_3d_refuted",
    "C11_copy_offset_outside_ub"
   ],
   "note": "exact for regions inside the image and for clipped one-slice regions; refuted for one-row regions of deep images, clipped 3-D regions and offsets beyond the image; the format-converting path is not covered here"
  },
  {
   "property": "C12",
   "status": "partial",
   "theorems": [
    "C12_set_pixels_safe",
    "C12_set_pixels_exact_partial",
    "C12_negative_offset_refuted",
    "C12_negative_row_refuted",
    "C12_origin_refuted",
    "C12_empty_region_refuted"
   ],
   "note": "memory safety for all offsets; exactness except for the refuted negative-offset and origin cases"
  },
  {
   "property": "C13",
   "status": "partial",
   "theorems": [
    "C13_set_then_copy_partial",
    "C13_origin_refuted"
   ],
   "note": "all regions inside the image without an origin mismatch"
  },
  {
   "property": "C14",
   "status": "partial",
   "theorems": [
    "C14_flip_reverses_rows_partial",
    "C14_flip_keeps_picture_partial",
    "C14_flip_involution_partial",
    "C14_get_flipped_agrees_partial",
    "C14_flip_out_of_memory_refuted"
   ],
   "note": "full claim for every well-formed image when the scratch block is available; refuted when that allocation fails"
  },
  {
   "property": "C15",
   "status": "partial",
   "theorems": [
    "C15_mirror_reverses_columns_partial",
    "C15_mirror_involution_partial",
    "C15_mirror_wide_refuted"
   ],
   "note": "all widths below 2^31; for larger widths nothing is copied (refuted)"
  },
  {
   "property": "C16",
   "status": "partial",
   "theorems": [
    "C16_swap_partial",
    "C16_involution",
    "C16_palette",
    "C16_refuted"
   ],
   "note": "First slice swapped, later slices untouched although the format changes (C16_refuted); involution for every depth; palettes complete."
  },
  {
   "property": "C17",
   "status": "partial",
   "theorems": [
    "C17_pop_restores_partial",
    "C17_safe",
    "C17_push_format_specific_refuted",
    "C17_hints_errors_refuted"
   ],
   "note": "proved for every well-nested history of calls that do not fall under the two refuted cases (a push of the format-specific group with a failing string allocation; hints are reset by a push)"
  },
  {
   "property": "C18",
   "status": "proved",
   "theorems": [
    "C18_limits"
   ],
   "note": ""
  },
  {
   "property": "C19",
   "status": "proved",
   "theorems": [
    "C19_is_enabled"
   ],
   "note": ""
  },
  {
   "property": "C20",
   "status": "partial",
   "theorems": [
    "C20_set_get_partial",
    "C20_range_exact",
    "C20_range_refuted",
    "C20_cubeflags_refuted"
   ],
   "note": "every mode and value; refuted for IL_IMAGE_CUBEFLAGS (sets the value and raises) and for the documented ranges of three modes"
  },
  {
   "property": "C21",
   "status": "partial",
   "theorems": [
    "C21_safe_partial",
    "C21_getc",
    "C21_read",
    "C21_past_end",
    "C21_sequential",
    "C21_seek_refuted",
    "C21_eof_not_sticky"
   ],
   "note": "Memory input: reads stay inside the lump, deliver its bytes in order and fail past the end, for lumps shorter than 2^32-1 bytes. The full claim is false: SEEK_SET accepts negative offsets (C21_seek_refuted)."
  },
  {
   "property": "C22",
   "status": "partial",
   "theorems": [
    "C22_safe_partial",
    "C22_putc",
    "C22_write",
    "C22_zero_refuted",
    "C22_putc_silent_refuted"
   ],
   "note": "Memory output with a declared size; a declared size of 0 switches the check off (C22_zero_refuted) and a single byte past the end is dropped silently."
  },
  {
   "property": "C23",
   "status": "partial",
   "theorems": [
    "C23_size",
    "C23_lump_partial",
    "C23_exact",
    "C23_gap_refuted",
    "C23_end_refuted"
   ],
   "note": "The size pass agrees with the bytes a writer produces for writers that do not seek past the end nor use SEEK_END; both exclusions are shown to be needed."
  },
  {
   "property": "C24",
   "status": "partial",
   "theorems": [
    "C24_tga_partial",
    "C24_sgi_partial",
    "C24_overread",
    "C24_refuted",
    "C24_bmp_refuted",
    "C24_image_partial",
    "C24_tga_buffer_refuted"
   ],
   "note": "The TGA and SGI scan line encoders are inverted by a decoder written from the format descriptions for every line, provided the byte after the line is readable and differs from the last pixel; the encoder reads past the end of the last line when its last pixels are equal (C24_overread, C24_refuted), the BMP encoder loses lines without repeats (C24_bmp_refuted), and the TGA save buffer is too small for some images (C24_tga_buffer_refuted)."
  },
  {
   "property": "C25",
   "status": "partial",
   "theorems": [
    "C25_file",
    "C25_roundtrip_partial",
    "C25_wide_refuted",
    "C25_luminance_alpha_refuted",
    "C25_volume_refuted"
   ],
   "note": "Every 8-bit RGB, RGBA or paletted (<= 256 colours) image up to 65534 x 65536 that PCX can hold: the file is a header plus a PCX coding of the padded planes plus a 768-byte palette, and loading it gives the same dimensions, format and pixel at every position (buffer identical if upper-left). Missing: images converted while saving. Refuted: widths 65535/65536 (own file rejected), luminance-alpha (own file rejected), volumes (later slices dropped)."
  },
  {
   "property": "C26",
   "status": "partial",
   "theorems": [
    "C26_file",
    "C26_roundtrip_partial",
    "C26_exact",
    "C26_attributes_refuted"
   ],
   "note": "Dimensions, channel count/size and bytes come back for every image; format, type and origin are not stored (C26_attributes_refuted), so the exact image comes back only when they have the implied values (C26_exact)."
  },
  {
   "property": "C27",
   "status": "proved",
   "theorems": [
    "C27_half_to_float_exact",
    "C27_roundtrip",
    "C27_nearest",
    "C27_monotone",
    "C27_nan",
    "C27_minus_zero_refuted"
   ],
   "note": "All 65536 halves and all 2^32 floats, by field arithmetic, not enumeration. The negative zero becomes the positive zero (C27_minus_zero_refuted), which the property allows."
  },
  {
   "property": "C28",
   "status": "partial",
   "theorems": [
    "C28_fast",
    "C28_convert_partial",
    "C28_roundtrip_partial",
    "C28_rgb_to_alpha_refuted",
    "C28_la_to_alpha_refuted",
    "C28_size_refuted",
    "C28_half_alpha_refuted",
    "C28_new_alpha_refuted"
   ],
   "note": "ilConvertBuffer for every pair of formats that copies components, with the type conversion before it, all buffers whose converted size times 12 fits 32 bits; round trip is the identity. Refuted: RGB to ALPHA and LUMINANCE_ALPHA to ALPHA leave their buffers, sizes that wrap, opaque half alpha is a NaN, an alpha made for signed types is -1."
  },
  {
   "property": "C29",
   "status": "partial",
   "theorems": [
    "C29_widen",
    "C29_narrow",
    "C29_roundtrip_partial",
    "C29_order",
    "C29_same_size_refuted"
   ],
   "note": "All integer types and values, unsigned reading for the order. Same-size signed/unsigned pairs: C29_same_size_refuted."
  },
  {
   "property": "C30",
   "status": "partial",
   "theorems": [
    "C30_next_power2_partial",
    "C30_next_power2_diverges",
    "C30_format_bpp_inverse",
    "C30_type_bpc_inverse",
    "C30_palette_bpp",
    "C30_inverse_on_formats_refuted"
   ],
   "note": "arguments up to 2^31; above that the code does not terminate; table inverses hold in one direction only"
  },
  {
   "property": "C31",
   "status": "partial",
   "theorems": [
    "C31_safe_partial",
    "C31_reversed_refuted",
    "C31_short_lines_refuted",
    "C31_truncated_refuted",
    "C31_palette_refuted",
    "C31_overflow_refuted"
   ],
   "note": "Any file of >= 128 bytes with ordered extents, below 2^32 bytes of pixels and long enough 16-colour lines loads without leaving a buffer and terminates. Refuted without each hypothesis: reversed extents and short 16-colour lines read out of bounds, size wrap-around writes out of bounds (8450-byte file), short files and version 0 expose uninitialised memory."
  },
  {
   "property": "C32",
   "status": "partial",
   "theorems": [
    "C32_map_partial",
    "C32_total",
    "C32_register",
    "C32_remove_other",
    "C32_remove_twice",
    "C32_refuted"
   ],
   "note": "Registered loaders as a finite map from extensions; the refutation shows where the registry departs from it."
  },
  {
   "property": "C33",
   "status": "partial",
   "theorems": [
    "C33_partial",
    "C33_refuted",
    "C45_partial"
   ],
   "note": "attributes, palette and pixels equal, independence by C45; sub-images are not copied (refuted), self copy is undefined (refuted)"
  },
  {
   "property": "C34",
   "status": "partial",
   "theorems": [
    "C34_clear_partial",
    "C34_clamp",
    "C34_luminance_refuted",
    "C34_alpha_refuted",
    "C34_int_refuted",
    "C34_la_byte_refuted",
    "C34_palette_refuted"
   ],
   "note": "RGB/RGBA/BGR/BGRA of all types and LUMINANCE_ALPHA of short/int/double. Refuted: luminance uses alpha, IL_ALPHA and palettes use uninitialised memory, full intensity in 32-bit integers is undefined, byte LUMINANCE_ALPHA gets alpha twice."
  },
  {
   "property": "C35",
   "status": "partial",
   "theorems": [
    "C35_blit_partial",
    "C35_same_format",
    "C35_overlay",
    "C35_negative_refuted",
    "C35_wraps_refuted",
    "C35_source_refuted",
    "C35_source_end_refuted",
    "C35_beyond_refuted",
    "C35_wide_refuted",
    "C35_failure_refuted"
   ],
   "note": "proved for offsets and extents inside the images and destinations with one byte per channel; the full statement is false: negative offsets, offsets beyond the edge and rectangles reaching out of the source are not clipped, and wider channel types copy the wrong bytes"
  },
  {
   "property": "C36",
   "status": "partial",
   "theorems": [
    "C36_bread_partial",
    "C36_short_read",
    "C36_readval_refuted",
    "C36_tell_refuted"
   ],
   "note": "bread returns exactly the bits of the file in order for every split of a read into calls. breadVal returns the number of bits read instead of the value, and btell does not move with the bits read."
  },
  {
   "property": "C37",
   "status": "partial",
   "theorems": [
    "C37_partial",
    "C37_teximage",
    "C37_refuted"
   ],
   "note": "safety under every failure schedule that spares the name table, for all calls except the chain registrations, palettes and copies; refuted for the table and the registrations"
  },
  {
   "property": "C38",
   "status": "partial",
   "theorems": [
    "C38_get",
    "C38_get_opaque",
    "C38_set_partial",
    "C38_value",
    "C38_clamp",
    "C38_int_refuted",
    "C38_modalpha_refuted"
   ],
   "note": "ilGetAlpha in the own type of the image and ilSetAlpha on images with an alpha channel, all dimensions; missing: the conversions done first for other types and formats. 32-bit integer alpha is undefined behaviour (C38_int_refuted), ilModAlpha ignores images with alpha."
  },
  {
   "property": "C39",
   "status": "partial",
   "theorems": [
    "C39_add_partial",
    "C39_roundtrip_partial",
    "C39_remove_refuted",
    "C39_add_depth_refuted"
   ],
   "note": "Flat images; round trip for one byte per channel. Wider channels make ilRemoveAlpha read outside its buffer, and ilAddAlpha loses later slices (both refutations hold for every such image)."
  },
  {
   "property": "C40",
   "status": "proved",
   "theorems": [
    "C40_clamp",
    "C40_idempotent",
    "C40_other_types"
   ],
   "note": ""
  },
  {
   "property": "C41",
   "status": "proved",
   "theorems": [
    "C41_memswap"
   ],
   "note": ""
  },
  {
   "property": "C42",
   "status": "proved",
   "theorems": [
    "C42_set_data",
    "C42_set_data_null",
    "C42_set_data_short_source_ub"
   ],
   "note": ""
  },
  {
   "property": "C43",
   "status": "partial",
   "theorems": [
    "C43_set_get_string_partial",
    "C43_own_string_refuted",
    "C43_leak_refuted"
   ],
   "note": "set-then-get for all strings and modes; refuted when the argument is the string returned by ilGetString; leak exhibited"
  },
  {
   "property": "C44",
   "status": "partial",
   "theorems": [
    "C44_clip_refuted",
    "C44_clip_ok_partial"
   ],
   "note": "exact characterisation: the clipping is undefined except for two lengths"
  },
  {
   "property": "C45",
   "status": "partial",
   "theorems": [
    "C45_partial"
   ],
   "note": "all legal histories with the current image belonging to the bound name, no allocation failure"
  },
  {
   "property": "C46",
   "status": "proved",
   "theorems": [
    "C37_teximage"
   ],
   "note": ""
  },
  {
   "property": "C47",
   "status": "partial",
   "theorems": [
    "C47_cache_partial",
    "C47_start_refuted",
    "C47_eof_refuted",
    "C47_twice_refuted"
   ],
   "note": "Proved for a cache set up at the start of the file and reads inside it; the three refutations show what fails outside these conditions."
  },
  {
   "property": "C48",
   "status": "partial",
   "theorems": [
    "C48_extension",
    "C48_no_extension",
    "C48_type_partial",
    "C48_undocumented",
    "C48_unknown",
    "C48_doc_refuted",
    "C48_check"
   ],
   "note": "All names and spellings; three documented rows (.h, .dcx, and .iff as ILBM) do not hold, C48_doc_refuted."
  },
  {
   "property": "C49",
   "status": "proved",
   "theorems": [
    "C49_sqrt",
    "C49_exact",
    "C49_289_refuted"
   ],
   "note": "C49_289_refuted: 289 is the first argument whose result is not the exact integer root."
  },
  {
   "property": "C50",
   "status": "partial",
   "theorems": [
    "C50_line_partial",
    "C50_long_line",
    "C50_overflow_refuted"
   ],
   "note": "A buffer of maxlen+1 bytes is enough; with exactly maxlen bytes, as the PNM loader passes, a line of that length is written out of bounds (C50_overflow_refuted)."
  },
  {
   "property": "C51",
   "status": "partial",
   "theorems": [
    "C51_order",
    "C51_roundtrip_partial",
    "C51_roundtrip_short",
    "C51_double_refuted",
    "C51_double_lost_refuted"
   ],
   "note": "16- and 32-bit numbers in full; byte-swapped doubles lose half of their bytes (C51_double_refuted)."
  },
  {
   "property": "C52",
   "status": "partial",
   "theorems": [
    "C52_safe_partial",
    "C52_size_refuted",
    "C52_empty_refuted"
   ],
   "note": "Safe for every non-empty file. Size products wrap: C52_size_refuted; an empty lump is read out of bounds: C52_empty_refuted."
  },
  {
   "property": "C53",
   "status": "partial",
   "theorems": [
    "C53_to_float_partial",
    "C53_roundtrip_partial",
    "C53_to_int_partial",
    "C53_white_uint_refuted",
    "C53_nan_refuted",
    "C53_half_refuted",
    "C53_signed_refuted",
    "C53_uint_float_refuted"
   ],
   "note": "Unsigned types into floating types with more digits; the refutations cover 32-bit white in float, NaN, half, signed types."
  },
  {
   "property": "C54",
   "status": "partial",
   "theorems": [
    "C54_luminance_partial",
    "C54_grey_refuted",
    "C54_bgr_la_refuted",
    "C54_int_white_refuted",
    "C54_half_refuted",
    "C54_alpha_missing_refuted"
   ],
   "note": "Byte and short types; from BGR(A) only to LUMINANCE: with alpha the weights are swapped (C54_bgr_la_refuted). 32-bit integers overflow, halves are summed as integers; sums of floats and doubles are not modelled."
  },
  {
   "property": "C55",
   "status": "partial",
   "theorems": [
    "C55_blend_partial",
    "C55_rgb_refuted"
   ],
   "note": "8-bit destinations with alpha; blending onto a format without alpha uses the last colour as alpha; wider channels are not covered"
  },
  {
   "property": "C56",
   "status": "partial",
   "theorems": [
    "C56_file",
    "C56_roundtrip_partial",
    "C56_upside_down",
    "C56_roundtrip_refuted"
   ],
   "note": "the layout of the file is proved for every savable image (C56_file); the picture comes back for images with origin lower left; images with origin upper left come back upside down (C56_upside_down), so the full statement is false. Channels wider than a byte and palettes that must be converted are not modelled."
  },
  {
   "property": "C57",
   "status": "partial",
   "theorems": [
    "C57_safe_partial",
    "C57_short_refused",
    "C57_empty_refuted",
    "C57_16bit_refuted",
    "C57_rle_refuted"
   ],
   "note": "every file of 18 bytes or more below the size limits in the hypotheses; the limits are needed (C57_16bit_refuted, C57_rle_refuted), and the empty file reads one byte outside (C57_empty_refuted)"
  },
  {
   "property": "C58",
   "status": "partial",
   "theorems": [
    "C58_decode",
    "C58_roundtrip_partial",
    "C58_overflow_refuted"
   ],
   "note": "decoding is proved in full (C58_decode); the encoder side for colour images without equal neighbours in a row: equal neighbours make the encoder read behind the row (C24_overread) and narrow grey images overflow its buffer (C58_overflow_refuted)"
  },
  {
   "property": "C59",
   "status": "partial",
   "theorems": [
    "C59_one_short",
    "C59_index_zero"
   ],
   "note": "the full statement is false for every image: the announced size is one byte short for colour and grey images, and zero for palette images"
  },
  {
   "property": "C60",
   "status": "partial",
   "theorems": [
    "C60_truncated_accepted"
   ],
   "note": "the full statement is false: every file cut inside the pixels is accepted"
  },
  {
   "property": "C61",
   "status": "partial",
   "theorems": [
    "C61_convert_partial",
    "C61_current_partial",
    "C61_large_refuted",
    "C61_odd_refuted"
   ],
   "note": "palettes of less than 2^24/3 colours with a whole number of colours; the sizes are computed in single precision, so that larger palettes overflow (C61_large_refuted), and a .plt file can give a palette that is not a whole number of colours (C61_odd_refuted)"
  },
  {
   "property": "C62",
   "status": "partial",
   "theorems": [
    "C62_save",
    "C62_load",
    "C62_roundtrip",
    "C62_image_partial",
    "C62_image_refuted"
   ],
   "note": "file, loading and round trip are proved in full, the file always having 256 colours; the image is only unchanged for RGB24 palettes, for other types it is left with its palette declared wrongly"
  },
  {
   "property": "C63",
   "status": "partial",
   "theorems": [
    "C63_safe_partial",
    "C63_hang_refuted",
    "C63_overflow_refuted"
   ],
   "note": "files of printable characters and newlines with numbers of at most nine digits and no sign; a file with Windows line ends never returns and a large number of colours overflows the buffer"
  },
  {
   "property": "C64",
   "status": "partial",
   "theorems": [
    "C64_apply_refuted"
   ],
   "note": "the full statement is false: the check at the start compares the format with two types and always refuses"
  },
  {
   "property": "C65",
   "status": "partial",
   "theorems": [
    "C65_file",
    "C65_roundtrip",
    "C65_alpha_refuted",
    "C65_nopal_refuted",
    "C65_embed_refuted"
   ],
   "note": "file and round trip for BGR, BGRA (colour channels) and palette images; alpha is not read back, a palette image without palette gives an unreadable file, saving behind other data overwrites bytes 2 to 5 of it; formats that are converted first are not covered"
  },
  {
   "property": "C66",
   "status": "partial",
   "theorems": [
    "C66_safe_partial",
    "C66_offset_refuted",
    "C66_mask_refuted",
    "C66_height_refuted",
    "C66_colours_refuted",
    "C66_size_refuted",
    "C66_small_refuted"
   ],
   "note": "every file of at least 54 bytes whose offset, size and colour count pass simple conditions; each condition is shown to be necessary"
  },
  {
   "property": "C67",
   "status": "proved",
   "theorems": [
    "C67_decode"
   ],
   "note": ""
  },
  {
   "property": "C68",
   "status": "partial",
   "theorems": [
    "C68_rle_partial",
    "C68_unpainted_refuted"
   ],
   "note": "all painted pixels; pixels that no code paints keep what the memory held before instead of index 0"
  },
  {
   "property": "C69",
   "status": "partial",
   "theorems": [
    "C69_masks_partial",
    "C69_wide_refuted",
    "C69_gap_refuted"
   ],
   "note": "masks of contiguous bits of at most 8 bits, pixels directly after the masks; wider masks keep the low bits and masks are looked for before the pixels"
  },
  {
   "property": "C70",
   "status": "partial",
   "theorems": [
    "C70_crop_partial",
    "C70_offset_refuted",
    "C70_bpc_refuted",
    "C70_index_refuted",
    "C70_volume_refuted",
    "C70_slices_refuted"
   ],
   "note": "flat images with one byte per channel, regions inside the image, the allocations succeed; the offset is not checked, wider channels take the wrong pixels, palette images lose palette and pixels, volumes get a wrong depth or unwritten slices"
  },
  {
   "property": "C71",
   "status": "partial",
   "theorems": [
    "C71_canvas_partial",
    "C71_bpc_refuted",
    "C71_alloc_refuted"
   ],
   "note": "one byte per channel, the allocations succeed; with wider channels the picture is put at the wrong place, a failed allocation is followed by a NULL dereference"
  },
  {
   "property": "C72",
   "status": "proved",
   "theorems": [
    "C72_flip"
   ],
   "note": "for a scratch allocation that succeeds"
  },
  {
   "property": "C73",
   "status": "partial",
   "theorems": [
    "C73_negative_partial",
    "C73_double_refuted",
    "C73_palette_refuted"
   ],
   "note": "formats without palette with 1, 2 or 4 bytes per channel; doubles are left unchanged, a palette with a region reads behind the region mask"
  },
  {
   "property": "C74",
   "status": "partial",
   "theorems": [
    "C74_invert_alpha_partial",
    "C74_last_refuted"
   ],
   "note": "all pixels except the last Bpp-1, which are never inverted"
  },
  {
   "property": "C75",
   "status": "partial",
   "theorems": [
    "C75_colours_partial",
    "C75_heap_refuted",
    "C75_two_channels_refuted"
   ],
   "note": "1, 3 or 4 bytes per pixel and a heap that is large enough (always for up to 8 and from 64 pixels); for other images with many colours, and for two bytes per pixel, memory outside the block is touched"
  },
  {
   "property": "C76",
   "status": "partial",
   "theorems": [
    "C76_region_partial",
    "C76_double_free_refuted"
   ],
   "note": "histories that use only integer points or only float points; mixing the two kinds releases a block twice (refuted)"
  },
  {
   "property": "C77",
   "status": "partial",
   "theorems": [
    "C77_scale_partial",
    "C77_exact_refuted",
    "C77_double_refuted",
    "C77_linear_refuted"
   ],
   "note": "nearest filter, channels of up to 4 bytes, dimensions up to 2^22, no palette; index bounds proved for the rounded arithmetic; exactness, doubles and the linear filter are refuted; the other filters are not modelled"
  },
  {
   "property": "C78",
   "status": "partial",
   "theorems": [
    "C78_mipmaps_partial",
    "C78_report_refuted"
   ],
   "note": "channels of up to 4 bytes, dimensions up to 2^22, enough memory; when memory runs out an incomplete chain is reported as success"
  },
  {
   "property": "C79",
   "status": "partial",
   "theorems": [
    "C79_convolution_refuted",
    "C79_kernel_refuted",
    "C79_plane_partial"
   ],
   "note": "refuted for every image of at least three rows: the code reads behind the pixels, and one weight is applied to the wrong neighbour"
  },
  {
   "property": "C80",
   "status": "partial",
   "theorems": [
    "C80_noise_partial",
    "C80_full_refuted",
    "C80_bright_refuted"
   ],
   "note": "channels of one and two bytes; with 32 bits the full tolerance divides by zero and bright values become zero"
  },
  {
   "property": "C81",
   "status": "partial",
   "theorems": [
    "C81_rotate_partial",
    "C81_half_turn_refuted",
    "C81_size_refuted"
   ],
   "note": "square images for 90 and 270 degrees; 180 degrees is a mirror image; images that are not square access memory outside of the new image"
  },
  {
   "property": "C82",
   "status": "partial",
   "theorems": [
    "C82_mosaic_partial",
    "C82_pixelize_refuted"
   ],
   "note": "channels of one byte without region, blocks of up to 256; wider channels without region are undefined for every image"
  },
  {
   "property": "C83",
   "status": "partial",
   "theorems": [
    "C83_palette_partial",
    "C83_index_refuted",
    "C83_leftover_refuted"
   ],
   "note": "indices within the palette and unchanged one byte type; an index outside of the palette is undefined, a changed type leaves the palette behind"
  },
  {
   "property": "C84",
   "status": "partial",
   "theorems": [
    "C84_luminance_partial",
    "C84_four_bytes_refuted",
    "C84_depth_refuted",
    "C84_chain_refuted",
    "C84_alpha_refuted",
    "C84_lost_refuted"
   ],
   "note": "24 bit palettes, depth 1, one image; four byte palettes, deeper images, second images, and alpha access memory outside of the palette; out of memory loses the current image"
  },
  {
   "property": "C85",
   "status": "partial",
   "theorems": [
    "C85_chain_partial",
    "C85_following_refuted",
    "C85_atomic_refuted"
   ],
   "note": "formats that copy channels, outside of the fast path; the fast path and the early return leave the following images unconverted; a failure leaves earlier images converted"
  },
  {
   "property": "C86",
   "status": "partial",
   "theorems": [
    "C86_grey_partial",
    "C86_wide_refuted"
   ],
   "note": "luminance of one byte; wider types are copied unconverted and the image claims fewer bytes"
  },
  {
   "property": "C87",
   "status": "partial",
   "theorems": [
    "C87_decode_partial",
    "C87_memory_refuted",
    "C87_truncated_refuted",
    "C87_size_refuted",
    "C87_safe_partial"
   ],
   "note": "fewer than 2^32 pixels, from a file; from memory before any file was opened loading always fails; a file that ends behind the header is accepted; 2^32 pixels or more write out of bounds"
  },
  {
   "property": "C88",
   "status": "partial",
   "theorems": [
    "C88_roundtrip_partial"
   ],
   "note": "indices 0 and 1, a quantiser that keeps them, no memory failure; which of the two colours is brighter is not kept"
  },
  {
   "property": "C89",
   "status": "partial",
   "theorems": [
    "C89_decode_partial",
    "C89_set",
    "C89_near",
    "C89_exact_refuted",
    "C89_green_refuted",
    "C89_memory_refuted"
   ],
   "note": "decodes every block, but green is up to 4 off and the blue of DXT1 up to 7 off; without memory for the pixels a null pointer is written through"
  },
  {
   "property": "C90",
   "status": "partial",
   "theorems": [
    "C90_flip_partial",
    "C90_twice",
    "C90_flip_refuted"
   ],
   "note": "heights that are multiples of four; at others the rows that fill up the last blocks come into the picture"
  },
  {
   "property": "C91",
   "status": "proved",
   "theorems": [
    "C91_invert",
    "C91_twice",
    "C91_refused"
   ],
   "note": "the formats DXT3 and DXT5; with memory for the decoder, whose end colours are as in C89"
  },
  {
   "property": "C92",
   "status": "partial",
   "theorems": [
    "C92_verbatim",
    "C92_rle",
    "C92_safe_partial",
    "C92_overflow_refuted",
    "C92_header_refused",
    "C92_16bit_refuted"
   ],
   "note": "one byte per channel; a run longer than the line overruns the plane, so safety is proved for files that are not run-length encoded; 16-bit files load as two slices of bytes"
  },
  {
   "property": "C93",
   "status": "partial",
   "theorems": [
    "C93_roundtrip",
    "C93_rle_partial",
    "C93_rle_refuted",
    "C93_signed_refuted",
    "C93_name_refuted"
   ],
   "note": "compressed: pictures whose neighbours in a row differ in every channel, the others read out of bounds, and the reported size is that of header and tables; unsigned bytes; no file name in the header"
  },
  {
   "property": "C94",
   "status": "partial",
   "theorems": [
    "C94_ftx",
    "C94_pxr_partial",
    "C94_lif",
    "C94_wal_partial",
    "C94_safe",
    "C94_pxr_refused",
    "C94_wal_palette_refuted",
    "C94_wal_short_refuted",
    "C94_pxr_short_refuted"
   ],
   "note": "FTX and LIF completely; PXR accepts files that are cut short; the smaller pictures of a WAL file have no palette, and a WAL file that is cut short makes the clean-up free memory twice"
  },
  {
   "property": "C95",
   "status": "partial",
   "theorems": [
    "C95_cut",
    "C95_pix",
    "C95_pix_short",
    "C95_refused",
    "C95_cut_overflow_refuted",
    "C95_pix_overflow_refuted",
    "C95_cut_hang_refuted"
   ],
   "note": "every correct code; a run that is too long overruns the picture, and a CUT file that ends in 128 is read for ever"
  },
  {
   "property": "C96",
   "status": "partial",
   "theorems": [
    "C96_plain",
    "C96_rle",
    "C96_refused",
    "C96_safe_partial",
    "C96_quads_refuted",
    "C96_map_refuted"
   ],
   "note": "depths 8 and 24; with 32 bits only the first pixel is written; colour maps are planar but are used as interleaved palettes; safety for sizes below 2^31 bytes; one bit per pixel is not modelled"
  },
  {
   "property": "C97",
   "status": "partial",
   "theorems": [
    "C97_picture",
    "C97_flat",
    "C97_flat_short_refused",
    "C97_safe_partial",
    "C97_negative_refuted",
    "C97_conv_refuted"
   ],
   "note": "without conversion of palettes, which does not give the colours of the palette; safety for tables of columns without negative offsets"
  },
  {
   "property": "C98",
   "status": "partial",
   "theorems": [
    "C98_binary",
    "C98_bits_partial",
    "C98_text_partial",
    "C98_text_bits_partial",
    "C98_arbitrary_partial",
    "C98_empty_refused",
    "C98_magic_refused",
    "C98_arbitrary_refused",
    "C98_text_short_refused",
    "C98_valid",
    "C98_short_refuted",
    "C98_wide_refuted",
    "C98_bits_space_refuted",
    "C98_long_line_refuted",
    "C98_blank_line_refuted",
    "C98_arbitrary_short_refuted"
   ],
   "note": "maps with values up to 255; text in lines of at most 179 characters with the last value at the end of a line, bits separated; P4 and P7 pixels that do not start with 32; faults on short binary files, long lines and blank lines"
  },
  {
   "property": "C99",
   "status": "proved",
   "theorems": [
    "C99_roundtrip",
    "C99_refused",
    "C99_wide_refuted"
   ],
   "note": "whatever image the conversion to RGB bytes yields; 16-bit images are saved with a wrong largest value"
  }
 ]
}