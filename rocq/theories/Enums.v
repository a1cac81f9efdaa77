(** DevIL enumerants, generated from include/IL/il.h; each comment gives the line. *)
From Coq Require Import ZArith.
Open Scope Z_scope.

Definition IL_FALSE : Z := 0. (* include/IL/il.h:118 *)
Definition IL_TRUE : Z := 1. (* include/IL/il.h:119 *)
Definition IL_COLOUR_INDEX : Z := 6400. (* include/IL/il.h:123 *)
Definition IL_COLOR_INDEX : Z := 6400. (* include/IL/il.h:124 *)
Definition IL_ALPHA : Z := 6406. (* include/IL/il.h:125 *)
Definition IL_RGB : Z := 6407. (* include/IL/il.h:126 *)
Definition IL_RGBA : Z := 6408. (* include/IL/il.h:127 *)
Definition IL_BGR : Z := 32992. (* include/IL/il.h:128 *)
Definition IL_BGRA : Z := 32993. (* include/IL/il.h:129 *)
Definition IL_LUMINANCE : Z := 6409. (* include/IL/il.h:130 *)
Definition IL_LUMINANCE_ALPHA : Z := 6410. (* include/IL/il.h:131 *)
Definition IL_BYTE : Z := 5120. (* include/IL/il.h:134 *)
Definition IL_UNSIGNED_BYTE : Z := 5121. (* include/IL/il.h:135 *)
Definition IL_SHORT : Z := 5122. (* include/IL/il.h:136 *)
Definition IL_UNSIGNED_SHORT : Z := 5123. (* include/IL/il.h:137 *)
Definition IL_INT : Z := 5124. (* include/IL/il.h:138 *)
Definition IL_UNSIGNED_INT : Z := 5125. (* include/IL/il.h:139 *)
Definition IL_FLOAT : Z := 5126. (* include/IL/il.h:140 *)
Definition IL_DOUBLE : Z := 5130. (* include/IL/il.h:141 *)
Definition IL_HALF : Z := 5131. (* include/IL/il.h:142 *)
Definition IL_VENDOR : Z := 7936. (* include/IL/il.h:155 *)
Definition IL_LOAD_EXT : Z := 7937. (* include/IL/il.h:156 *)
Definition IL_SAVE_EXT : Z := 7938. (* include/IL/il.h:157 *)
Definition IL_VERSION_1_8_0 : Z := 1. (* include/IL/il.h:164 *)
Definition IL_VERSION : Z := 180. (* include/IL/il.h:165 *)
Definition IL_ORIGIN_BIT : Z := 1. (* include/IL/il.h:169 *)
Definition IL_FILE_BIT : Z := 2. (* include/IL/il.h:170 *)
Definition IL_PAL_BIT : Z := 4. (* include/IL/il.h:171 *)
Definition IL_FORMAT_BIT : Z := 8. (* include/IL/il.h:172 *)
Definition IL_TYPE_BIT : Z := 16. (* include/IL/il.h:173 *)
Definition IL_COMPRESS_BIT : Z := 32. (* include/IL/il.h:174 *)
Definition IL_LOADFAIL_BIT : Z := 64. (* include/IL/il.h:175 *)
Definition IL_FORMAT_SPECIFIC_BIT : Z := 128. (* include/IL/il.h:176 *)
Definition IL_ALL_ATTRIB_BITS : Z := 1048575. (* include/IL/il.h:177 *)
Definition IL_PAL_NONE : Z := 1024. (* include/IL/il.h:181 *)
Definition IL_PAL_RGB24 : Z := 1025. (* include/IL/il.h:182 *)
Definition IL_PAL_RGB32 : Z := 1026. (* include/IL/il.h:183 *)
Definition IL_PAL_RGBA32 : Z := 1027. (* include/IL/il.h:184 *)
Definition IL_PAL_BGR24 : Z := 1028. (* include/IL/il.h:185 *)
Definition IL_PAL_BGR32 : Z := 1029. (* include/IL/il.h:186 *)
Definition IL_PAL_BGRA32 : Z := 1030. (* include/IL/il.h:187 *)
Definition IL_TYPE_UNKNOWN : Z := 0. (* include/IL/il.h:191 *)
Definition IL_BMP : Z := 1056. (* include/IL/il.h:192 *)
Definition IL_CUT : Z := 1057. (* include/IL/il.h:193 *)
Definition IL_DOOM : Z := 1058. (* include/IL/il.h:194 *)
Definition IL_DOOM_FLAT : Z := 1059. (* include/IL/il.h:195 *)
Definition IL_ICO : Z := 1060. (* include/IL/il.h:196 *)
Definition IL_JPG : Z := 1061. (* include/IL/il.h:197 *)
Definition IL_JFIF : Z := 1061. (* include/IL/il.h:198 *)
Definition IL_ILBM : Z := 1062. (* include/IL/il.h:199 *)
Definition IL_PCD : Z := 1063. (* include/IL/il.h:200 *)
Definition IL_PCX : Z := 1064. (* include/IL/il.h:201 *)
Definition IL_PIC : Z := 1065. (* include/IL/il.h:202 *)
Definition IL_PNG : Z := 1066. (* include/IL/il.h:203 *)
Definition IL_PNM : Z := 1067. (* include/IL/il.h:204 *)
Definition IL_SGI : Z := 1068. (* include/IL/il.h:205 *)
Definition IL_TGA : Z := 1069. (* include/IL/il.h:206 *)
Definition IL_TIF : Z := 1070. (* include/IL/il.h:207 *)
Definition IL_CHEAD : Z := 1071. (* include/IL/il.h:208 *)
Definition IL_RAW : Z := 1072. (* include/IL/il.h:209 *)
Definition IL_MDL : Z := 1073. (* include/IL/il.h:210 *)
Definition IL_WAL : Z := 1074. (* include/IL/il.h:211 *)
Definition IL_LIF : Z := 1076. (* include/IL/il.h:212 *)
Definition IL_MNG : Z := 1077. (* include/IL/il.h:213 *)
Definition IL_JNG : Z := 1077. (* include/IL/il.h:214 *)
Definition IL_GIF : Z := 1078. (* include/IL/il.h:215 *)
Definition IL_DDS : Z := 1079. (* include/IL/il.h:216 *)
Definition IL_DCX : Z := 1080. (* include/IL/il.h:217 *)
Definition IL_PSD : Z := 1081. (* include/IL/il.h:218 *)
Definition IL_EXIF : Z := 1082. (* include/IL/il.h:219 *)
Definition IL_PSP : Z := 1083. (* include/IL/il.h:220 *)
Definition IL_PIX : Z := 1084. (* include/IL/il.h:221 *)
Definition IL_PXR : Z := 1085. (* include/IL/il.h:222 *)
Definition IL_XPM : Z := 1086. (* include/IL/il.h:223 *)
Definition IL_HDR : Z := 1087. (* include/IL/il.h:224 *)
Definition IL_ICNS : Z := 1088. (* include/IL/il.h:225 *)
Definition IL_JP2 : Z := 1089. (* include/IL/il.h:226 *)
Definition IL_EXR : Z := 1090. (* include/IL/il.h:227 *)
Definition IL_WDP : Z := 1091. (* include/IL/il.h:228 *)
Definition IL_VTF : Z := 1092. (* include/IL/il.h:229 *)
Definition IL_WBMP : Z := 1093. (* include/IL/il.h:230 *)
Definition IL_SUN : Z := 1094. (* include/IL/il.h:231 *)
Definition IL_IFF : Z := 1095. (* include/IL/il.h:232 *)
Definition IL_TPL : Z := 1096. (* include/IL/il.h:233 *)
Definition IL_FITS : Z := 1097. (* include/IL/il.h:234 *)
Definition IL_DICOM : Z := 1098. (* include/IL/il.h:235 *)
Definition IL_IWI : Z := 1099. (* include/IL/il.h:236 *)
Definition IL_BLP : Z := 1100. (* include/IL/il.h:237 *)
Definition IL_FTX : Z := 1101. (* include/IL/il.h:238 *)
Definition IL_ROT : Z := 1102. (* include/IL/il.h:239 *)
Definition IL_TEXTURE : Z := 1103. (* include/IL/il.h:240 *)
Definition IL_DPX : Z := 1104. (* include/IL/il.h:241 *)
Definition IL_UTX : Z := 1105. (* include/IL/il.h:242 *)
Definition IL_MP3 : Z := 1106. (* include/IL/il.h:243 *)
Definition IL_KTX : Z := 1107. (* include/IL/il.h:244 *)
Definition IL_SCITEX : Z := 1108. (* include/IL/il.h:245 *)
Definition IL_JASC_PAL : Z := 1141. (* include/IL/il.h:248 *)
Definition IL_NO_ERROR : Z := 0. (* include/IL/il.h:252 *)
Definition IL_INVALID_ENUM : Z := 1281. (* include/IL/il.h:253 *)
Definition IL_OUT_OF_MEMORY : Z := 1282. (* include/IL/il.h:254 *)
Definition IL_FORMAT_NOT_SUPPORTED : Z := 1283. (* include/IL/il.h:255 *)
Definition IL_INTERNAL_ERROR : Z := 1284. (* include/IL/il.h:256 *)
Definition IL_INVALID_VALUE : Z := 1285. (* include/IL/il.h:257 *)
Definition IL_ILLEGAL_OPERATION : Z := 1286. (* include/IL/il.h:258 *)
Definition IL_ILLEGAL_FILE_VALUE : Z := 1287. (* include/IL/il.h:259 *)
Definition IL_INVALID_FILE_HEADER : Z := 1288. (* include/IL/il.h:260 *)
Definition IL_INVALID_PARAM : Z := 1289. (* include/IL/il.h:261 *)
Definition IL_COULD_NOT_OPEN_FILE : Z := 1290. (* include/IL/il.h:262 *)
Definition IL_INVALID_EXTENSION : Z := 1291. (* include/IL/il.h:263 *)
Definition IL_FILE_ALREADY_EXISTS : Z := 1292. (* include/IL/il.h:264 *)
Definition IL_OUT_FORMAT_SAME : Z := 1293. (* include/IL/il.h:265 *)
Definition IL_STACK_OVERFLOW : Z := 1294. (* include/IL/il.h:266 *)
Definition IL_STACK_UNDERFLOW : Z := 1295. (* include/IL/il.h:267 *)
Definition IL_INVALID_CONVERSION : Z := 1296. (* include/IL/il.h:268 *)
Definition IL_BAD_DIMENSIONS : Z := 1297. (* include/IL/il.h:269 *)
Definition IL_FILE_READ_ERROR : Z := 1298. (* include/IL/il.h:270 *)
Definition IL_FILE_WRITE_ERROR : Z := 1298. (* include/IL/il.h:271 *)
Definition IL_LIB_GIF_ERROR : Z := 1505. (* include/IL/il.h:273 *)
Definition IL_LIB_JPEG_ERROR : Z := 1506. (* include/IL/il.h:274 *)
Definition IL_LIB_PNG_ERROR : Z := 1507. (* include/IL/il.h:275 *)
Definition IL_LIB_TIFF_ERROR : Z := 1508. (* include/IL/il.h:276 *)
Definition IL_LIB_MNG_ERROR : Z := 1509. (* include/IL/il.h:277 *)
Definition IL_LIB_JP2_ERROR : Z := 1510. (* include/IL/il.h:278 *)
Definition IL_LIB_EXR_ERROR : Z := 1511. (* include/IL/il.h:279 *)
Definition IL_UNKNOWN_ERROR : Z := 1535. (* include/IL/il.h:280 *)
Definition IL_ORIGIN_SET : Z := 1536. (* include/IL/il.h:284 *)
Definition IL_ORIGIN_LOWER_LEFT : Z := 1537. (* include/IL/il.h:285 *)
Definition IL_ORIGIN_UPPER_LEFT : Z := 1538. (* include/IL/il.h:286 *)
Definition IL_ORIGIN_MODE : Z := 1539. (* include/IL/il.h:287 *)
Definition IL_FORMAT_SET : Z := 1552. (* include/IL/il.h:291 *)
Definition IL_FORMAT_MODE : Z := 1553. (* include/IL/il.h:292 *)
Definition IL_TYPE_SET : Z := 1554. (* include/IL/il.h:293 *)
Definition IL_TYPE_MODE : Z := 1555. (* include/IL/il.h:294 *)
Definition IL_FILE_OVERWRITE : Z := 1568. (* include/IL/il.h:298 *)
Definition IL_FILE_MODE : Z := 1569. (* include/IL/il.h:299 *)
Definition IL_CONV_PAL : Z := 1584. (* include/IL/il.h:303 *)
Definition IL_DEFAULT_ON_FAIL : Z := 1586. (* include/IL/il.h:307 *)
Definition IL_USE_KEY_COLOUR : Z := 1589. (* include/IL/il.h:311 *)
Definition IL_USE_KEY_COLOR : Z := 1589. (* include/IL/il.h:312 *)
Definition IL_BLIT_BLEND : Z := 1590. (* include/IL/il.h:313 *)
Definition IL_SAVE_INTERLACED : Z := 1593. (* include/IL/il.h:317 *)
Definition IL_INTERLACE_MODE : Z := 1594. (* include/IL/il.h:318 *)
Definition IL_QUANTIZATION_MODE : Z := 1600. (* include/IL/il.h:322 *)
Definition IL_WU_QUANT : Z := 1601. (* include/IL/il.h:323 *)
Definition IL_NEU_QUANT : Z := 1602. (* include/IL/il.h:324 *)
Definition IL_NEU_QUANT_SAMPLE : Z := 1603. (* include/IL/il.h:325 *)
Definition IL_MAX_QUANT_INDEXS : Z := 1604. (* include/IL/il.h:326 *)
Definition IL_MAX_QUANT_INDICES : Z := 1604. (* include/IL/il.h:327 *)
Definition IL_FASTEST : Z := 1632. (* include/IL/il.h:331 *)
Definition IL_LESS_MEM : Z := 1633. (* include/IL/il.h:332 *)
Definition IL_DONT_CARE : Z := 1634. (* include/IL/il.h:333 *)
Definition IL_MEM_SPEED_HINT : Z := 1637. (* include/IL/il.h:334 *)
Definition IL_USE_COMPRESSION : Z := 1638. (* include/IL/il.h:335 *)
Definition IL_NO_COMPRESSION : Z := 1639. (* include/IL/il.h:336 *)
Definition IL_COMPRESSION_HINT : Z := 1640. (* include/IL/il.h:337 *)
Definition IL_NVIDIA_COMPRESS : Z := 1648. (* include/IL/il.h:341 *)
Definition IL_SQUISH_COMPRESS : Z := 1649. (* include/IL/il.h:342 *)
Definition IL_SUB_NEXT : Z := 1664. (* include/IL/il.h:346 *)
Definition IL_SUB_MIPMAP : Z := 1665. (* include/IL/il.h:347 *)
Definition IL_SUB_LAYER : Z := 1666. (* include/IL/il.h:348 *)
Definition IL_COMPRESS_MODE : Z := 1792. (* include/IL/il.h:352 *)
Definition IL_COMPRESS_NONE : Z := 1793. (* include/IL/il.h:353 *)
Definition IL_COMPRESS_RLE : Z := 1794. (* include/IL/il.h:354 *)
Definition IL_COMPRESS_LZO : Z := 1795. (* include/IL/il.h:355 *)
Definition IL_COMPRESS_ZLIB : Z := 1796. (* include/IL/il.h:356 *)
Definition IL_TGA_CREATE_STAMP : Z := 1808. (* include/IL/il.h:360 *)
Definition IL_JPG_QUALITY : Z := 1809. (* include/IL/il.h:361 *)
Definition IL_PNG_INTERLACE : Z := 1810. (* include/IL/il.h:362 *)
Definition IL_TGA_RLE : Z := 1811. (* include/IL/il.h:363 *)
Definition IL_BMP_RLE : Z := 1812. (* include/IL/il.h:364 *)
Definition IL_SGI_RLE : Z := 1813. (* include/IL/il.h:365 *)
Definition IL_TGA_ID_STRING : Z := 1815. (* include/IL/il.h:366 *)
Definition IL_TGA_AUTHNAME_STRING : Z := 1816. (* include/IL/il.h:367 *)
Definition IL_TGA_AUTHCOMMENT_STRING : Z := 1817. (* include/IL/il.h:368 *)
Definition IL_PNG_AUTHNAME_STRING : Z := 1818. (* include/IL/il.h:369 *)
Definition IL_PNG_TITLE_STRING : Z := 1819. (* include/IL/il.h:370 *)
Definition IL_PNG_DESCRIPTION_STRING : Z := 1820. (* include/IL/il.h:371 *)
Definition IL_TIF_DESCRIPTION_STRING : Z := 1821. (* include/IL/il.h:372 *)
Definition IL_TIF_HOSTCOMPUTER_STRING : Z := 1822. (* include/IL/il.h:373 *)
Definition IL_TIF_DOCUMENTNAME_STRING : Z := 1823. (* include/IL/il.h:374 *)
Definition IL_TIF_AUTHNAME_STRING : Z := 1824. (* include/IL/il.h:375 *)
Definition IL_JPG_SAVE_FORMAT : Z := 1825. (* include/IL/il.h:376 *)
Definition IL_CHEAD_HEADER_STRING : Z := 1826. (* include/IL/il.h:377 *)
Definition IL_PCD_PICNUM : Z := 1827. (* include/IL/il.h:378 *)
Definition IL_PNG_ALPHA_INDEX : Z := 1828. (* include/IL/il.h:379 *)
Definition IL_JPG_PROGRESSIVE : Z := 1829. (* include/IL/il.h:380 *)
Definition IL_VTF_COMP : Z := 1830. (* include/IL/il.h:381 *)
Definition IL_DXTC_FORMAT : Z := 1797. (* include/IL/il.h:385 *)
Definition IL_DXT1 : Z := 1798. (* include/IL/il.h:386 *)
Definition IL_DXT2 : Z := 1799. (* include/IL/il.h:387 *)
Definition IL_DXT3 : Z := 1800. (* include/IL/il.h:388 *)
Definition IL_DXT4 : Z := 1801. (* include/IL/il.h:389 *)
Definition IL_DXT5 : Z := 1802. (* include/IL/il.h:390 *)
Definition IL_DXT_NO_COMP : Z := 1803. (* include/IL/il.h:391 *)
Definition IL_KEEP_DXTC_DATA : Z := 1804. (* include/IL/il.h:392 *)
Definition IL_DXTC_DATA_FORMAT : Z := 1805. (* include/IL/il.h:393 *)
Definition IL_3DC : Z := 1806. (* include/IL/il.h:394 *)
Definition IL_RXGB : Z := 1807. (* include/IL/il.h:395 *)
Definition IL_ATI1N : Z := 1808. (* include/IL/il.h:396 *)
Definition IL_DXT1A : Z := 1809. (* include/IL/il.h:397 *)
Definition IL_CUBEMAP_POSITIVEX : Z := 1024. (* include/IL/il.h:400 *)
Definition IL_CUBEMAP_NEGATIVEX : Z := 2048. (* include/IL/il.h:401 *)
Definition IL_CUBEMAP_POSITIVEY : Z := 4096. (* include/IL/il.h:402 *)
Definition IL_CUBEMAP_NEGATIVEY : Z := 8192. (* include/IL/il.h:403 *)
Definition IL_CUBEMAP_POSITIVEZ : Z := 16384. (* include/IL/il.h:404 *)
Definition IL_CUBEMAP_NEGATIVEZ : Z := 32768. (* include/IL/il.h:405 *)
Definition IL_SPHEREMAP : Z := 65536. (* include/IL/il.h:406 *)
Definition IL_VERSION_NUM : Z := 3554. (* include/IL/il.h:410 *)
Definition IL_IMAGE_WIDTH : Z := 3556. (* include/IL/il.h:411 *)
Definition IL_IMAGE_HEIGHT : Z := 3557. (* include/IL/il.h:412 *)
Definition IL_IMAGE_DEPTH : Z := 3558. (* include/IL/il.h:413 *)
Definition IL_IMAGE_SIZE_OF_DATA : Z := 3559. (* include/IL/il.h:414 *)
Definition IL_IMAGE_BPP : Z := 3560. (* include/IL/il.h:415 *)
Definition IL_IMAGE_BYTES_PER_PIXEL : Z := 3560. (* include/IL/il.h:416 *)
Definition IL_IMAGE_BITS_PER_PIXEL : Z := 3561. (* include/IL/il.h:418 *)
Definition IL_IMAGE_FORMAT : Z := 3562. (* include/IL/il.h:419 *)
Definition IL_IMAGE_TYPE : Z := 3563. (* include/IL/il.h:420 *)
Definition IL_PALETTE_TYPE : Z := 3564. (* include/IL/il.h:421 *)
Definition IL_PALETTE_SIZE : Z := 3565. (* include/IL/il.h:422 *)
Definition IL_PALETTE_BPP : Z := 3566. (* include/IL/il.h:423 *)
Definition IL_PALETTE_NUM_COLS : Z := 3567. (* include/IL/il.h:424 *)
Definition IL_PALETTE_BASE_TYPE : Z := 3568. (* include/IL/il.h:425 *)
Definition IL_NUM_FACES : Z := 3553. (* include/IL/il.h:426 *)
Definition IL_NUM_IMAGES : Z := 3569. (* include/IL/il.h:427 *)
Definition IL_NUM_MIPMAPS : Z := 3570. (* include/IL/il.h:428 *)
Definition IL_NUM_LAYERS : Z := 3571. (* include/IL/il.h:429 *)
Definition IL_ACTIVE_IMAGE : Z := 3572. (* include/IL/il.h:430 *)
Definition IL_ACTIVE_MIPMAP : Z := 3573. (* include/IL/il.h:431 *)
Definition IL_ACTIVE_LAYER : Z := 3574. (* include/IL/il.h:432 *)
Definition IL_ACTIVE_FACE : Z := 3584. (* include/IL/il.h:433 *)
Definition IL_CUR_IMAGE : Z := 3575. (* include/IL/il.h:434 *)
Definition IL_IMAGE_DURATION : Z := 3576. (* include/IL/il.h:435 *)
Definition IL_IMAGE_PLANESIZE : Z := 3577. (* include/IL/il.h:436 *)
Definition IL_IMAGE_BPC : Z := 3578. (* include/IL/il.h:437 *)
Definition IL_IMAGE_OFFX : Z := 3579. (* include/IL/il.h:438 *)
Definition IL_IMAGE_OFFY : Z := 3580. (* include/IL/il.h:439 *)
Definition IL_IMAGE_CUBEFLAGS : Z := 3581. (* include/IL/il.h:440 *)
Definition IL_IMAGE_ORIGIN : Z := 3582. (* include/IL/il.h:441 *)
Definition IL_IMAGE_CHANNELS : Z := 3583. (* include/IL/il.h:442 *)
