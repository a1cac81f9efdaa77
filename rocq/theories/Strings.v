(** C strings, file-name extensions, iFgets and iSqrt (src-IL/src/il_internal.cpp), and ilTypeFromExt
    (src-IL/src/il_io.cpp).

    A [char*] is a buffer and an offset; reading outside the buffer is [UB].  strcasecmp is the C
    library's in the C locale. *)
From Coq Require Import ZArith List Lia Bool String Ascii.
From Verif Require Import Base Enums.
Import ListNotations.
Open Scope Z_scope.
Open Scope list_scope.

Definition lit (s : string) : list Z := map (fun c => Z.of_nat (nat_of_ascii c)) (list_ascii_of_string s).
(** the memory of a C string *)
Definition cstr (s : list Z) : list Z := s ++ [0].

(* tolower in the C locale *)
Definition tolower (c : Z) : Z := if (65 <=? c) && (c <=? 90) then c + 32 else c.

(* il_internal.cpp:25-28,57-61 iStrCmp: strcasecmp(a + i, b + j) *)
Fixpoint strcasecmp (fuel : nat) (a : list Z) (i : Z) (b : list Z) (j : Z) : res Z :=
  match fuel with
  | O => Fuel
  | S fuel =>
      let! x := rd a i in
      let! y := rd b j in
      if tolower x =? tolower y then if x =? 0 then Ok 0 else strcasecmp fuel a (i + 1) b (j + 1)
      else Ok (tolower x - tolower y)
  end.
Definition iStrCmp (a : list Z) (i : Z) (b : list Z) : res Z := strcasecmp (S (List.length b)) a i b 0.

(* il_internal.cpp:79-89 ilStrLen (and ilCharStrLen :94-104) of a non-null string *)
Fixpoint strlen_ (fuel : nat) (s : list Z) (i : Z) : res Z :=
  match fuel with
  | O => Fuel
  | S fuel => let! c := rd s i in if c =? 0 then Ok i else strlen_ fuel s (i + 1)
  end.
Definition ilStrLen (s : list Z) : res Z := strlen_ (S (List.length s)) s 0.

(* the backward search shared by iCheckExtension (:119-125) and iGetExtension (:149-155):
   [for (i = Len; i >= 0; i--) { if ( *p == '.') ...; p--; }]; the result is the offset of the period *)
Fixpoint find_dot (n : nat) (s : list Z) (p : Z) : res (option Z) :=
  match n with
  | O => Ok None
  | S n => let! c := rd s p in if c =? 46 then Ok (Some p) else find_dot n s (p - 1)
  end.

(* il_internal.cpp:138-161 iGetExtension; the result is an offset into the file name *)
Definition iGetExtension (FileName : list Z) : res (option Z) :=
  let! Len := ilStrLen FileName in
  if Len =? 0 then Ok None
  else
    let! d := find_dot (Z.to_nat (Len + 1)) FileName Len in
    Ok (match d with Some p => Some (p + 1) | None => None end).

(* il_internal.cpp:107-135 iCheckExtension *)
Definition iCheckExtension (Arg Ext : list Z) : res bool :=
  let! La := ilStrLen Arg in
  let! Le := ilStrLen Ext in
  if (La =? 0) || (Le =? 0) then Ok false
  else
    let! d := find_dot (Z.to_nat (La + 1)) Arg La in
    match d with
    | Some p => let! c := iStrCmp Arg (p + 1) Ext in Ok (c =? 0)
    | None => Ok false
    end.

(** the chain of comparisons of ilTypeFromExt, in order (il_io.cpp:61-167) *)
Definition ext_chain : list (list string * Z) :=
  [(["tga"; "vda"; "icb"; "vst"]%string, IL_TGA);
   (["jpg"; "jpe"; "jpeg"; "jif"; "jfif"]%string, IL_JPG);
   (["jp2"; "jpx"; "j2k"; "j2c"]%string, IL_JP2);
   (["dds"]%string, IL_DDS);
   (["png"]%string, IL_PNG);
   (["bmp"; "dib"]%string, IL_BMP);
   (["gif"]%string, IL_GIF);
   (["blp"]%string, IL_BLP);
   (["cut"]%string, IL_CUT);
   (["ch"; "ct"; "sct"]%string, IL_SCITEX);
   (["dcm"; "dicom"]%string, IL_DICOM);
   (["dpx"]%string, IL_DPX);
   (["exr"]%string, IL_EXR);
   (["fit"; "fits"]%string, IL_FITS);
   (["ftx"]%string, IL_FTX);
   (["hdr"]%string, IL_HDR);
   (["iff"]%string, IL_IFF);
   (["ilbm"; "lbm"; "ham"]%string, IL_ILBM);
   (["ico"; "cur"]%string, IL_ICO);
   (["icns"]%string, IL_ICNS);
   (["iwi"]%string, IL_IWI);
   (["iwi"]%string, IL_IWI);
   (["jng"]%string, IL_JNG);
   (["ktx"]%string, IL_KTX);
   (["lif"]%string, IL_LIF);
   (["mdl"]%string, IL_MDL);
   (["mng"; "jng"]%string, IL_MNG);
   (["mp3"]%string, IL_MP3);
   (["pcd"]%string, IL_PCD);
   (["pcx"]%string, IL_PCX);
   (["pic"]%string, IL_PIC);
   (["pix"]%string, IL_PIX);
   (["pbm"; "pgm"; "pnm"; "ppm"; "pam"]%string, IL_PNM);
   (["psd"; "pdd"]%string, IL_PSD);
   (["psp"]%string, IL_PSP);
   (["pxr"]%string, IL_PXR);
   (["rot"]%string, IL_ROT);
   (["sgi"; "bw"; "rgb"; "rgba"]%string, IL_SGI);
   (["sun"; "ras"; "rs"; "im1"; "im8"; "im24"; "im32"]%string, IL_SUN);
   (["texture"]%string, IL_TEXTURE);
   (["tif"; "tiff"]%string, IL_TIF);
   (["tpl"]%string, IL_TPL);
   (["utx"]%string, IL_UTX);
   (["vtf"]%string, IL_VTF);
   (["wal"]%string, IL_WAL);
   (["wbmp"]%string, IL_WBMP);
   (["wdp"; "hdp"]%string, IL_WDP);
   (["xpm"]%string, IL_XPM)].

Fixpoint any_match (FileName : list Z) (off : Z) (l : list string) : res bool :=
  match l with
  | [] => Ok false
  | e :: l => let! c := iStrCmp FileName off (cstr (lit e)) in if c =? 0 then Ok true else any_match FileName off l
  end.
Fixpoint chain (FileName : list Z) (off : Z) (l : list (list string * Z)) : res Z :=
  match l with
  | [] => Ok IL_TYPE_UNKNOWN
  | (es, t) :: l => let! b := any_match FileName off es in if b then Ok t else chain FileName off l
  end.
(* il_io.cpp:45-170 ilTypeFromExt of a non-null name; the flag says whether IL_INVALID_PARAM was set *)
Definition ilTypeFromExt (FileName : list Z) : res (Z * bool) :=
  let! Len := ilStrLen FileName in
  if Len <? 1 then Ok (IL_TYPE_UNKNOWN, true)
  else
    let! e := iGetExtension FileName in
    match e with
    | None => Ok (IL_TYPE_UNKNOWN, false)
    | Some off => let! t := chain FileName off ext_chain in Ok (t, false)
    end.

(* il_internal.cpp:182-200 iFgets: reads characters from [inp] (igetc returns IL_EOF = -1 at its end)
   into [buffer]; the loop from [counter].  The result: the buffer, the last character and counter,
   and the unread input. *)
Fixpoint fgets_loop (fuel : nat) (inp buffer : list Z) (maxlen counter : Z) : res (list Z * Z * Z * list Z) :=
  match fuel with
  | O => Fuel
  | S fuel =>
      let temp := match inp with c :: _ => c | [] => -1 end in
      let inp := tl inp in
      if negb (temp =? 0) && negb (temp =? 10) && negb (temp =? -1) && (counter <? maxlen) then
        let! buffer := wr buffer counter temp in
        fgets_loop fuel inp buffer maxlen (counter + 1)
      else Ok (buffer, temp, counter, inp)
  end.
(* [None]: NULL was returned *)
Definition iFgets (inp buffer : list Z) (maxlen : Z) : res (option (list Z) * list Z) :=
  let! (b, temp, counter, inp') := fgets_loop (S (List.length inp)) inp buffer maxlen 0 in
  let! b := wr b counter 0 in
  Ok (if (temp =? -1) && (counter =? 0) then None else Some b, inp').

(* il_internal.cpp:207-226 table *)
Definition sqrt_table : list Z :=
  [0; 16; 22; 27; 32; 35; 39; 42; 45; 48; 50; 53; 55; 57; 59; 61;
   64; 65; 67; 69; 71; 73; 75; 76; 78; 80; 81; 83; 84; 86; 87; 89;
   90; 91; 93; 94; 96; 97; 98; 99; 101; 102; 103; 104; 106; 107; 108; 109;
   110; 112; 113; 114; 115; 116; 117; 118; 119; 120; 121; 122; 123; 124; 125; 126;
   128; 128; 129; 130; 131; 132; 133; 134; 135; 136; 137; 138; 139; 140; 141; 142;
   143; 144; 144; 145; 146; 147; 148; 149; 150; 150; 151; 152; 153; 154; 155; 155;
   156; 157; 158; 159; 160; 160; 161; 162; 163; 163; 164; 165; 166; 167; 167; 168;
   169; 170; 170; 171; 172; 173; 173; 174; 175; 176; 176; 177; 178; 178; 179; 180;
   181; 181; 182; 183; 183; 184; 185; 185; 186; 187; 187; 188; 189; 189; 190; 191;
   192; 192; 193; 193; 194; 195; 195; 196; 197; 197; 198; 199; 199; 200; 201; 201;
   202; 203; 203; 204; 204; 205; 206; 206; 207; 208; 208; 209; 209; 210; 211; 211;
   212; 212; 213; 214; 214; 215; 215; 216; 217; 217; 218; 218; 219; 219; 220; 221;
   221; 222; 222; 223; 224; 224; 225; 225; 226; 226; 227; 227; 228; 229; 229; 230;
   230; 231; 231; 232; 232; 233; 234; 234; 235; 235; 236; 236; 237; 237; 238; 238;
   239; 240; 240; 241; 241; 242; 242; 243; 243; 244; 244; 245; 245; 246; 246; 247;
   247; 248; 248; 249; 249; 250; 250; 251; 251; 252; 252; 253; 253; 254; 254; 255].

(* il_internal.cpp:227-267 iSqrt *)
Definition iSqrt (x : Z) : res Z :=
  let t (k : Z) := rd sqrt_table (x / 2 ^ k) in
  let shl (v : res Z) (k : Z) := let! a := v in Ok (a * 2 ^ k) in
  let shr (v : res Z) (k : Z) := let! a := v in Ok (a / 2 ^ k) in
  if 0x10000 <=? x then
    if 0x1000000 <=? x then
      if 0x10000000 <=? x then
        if 0x40000000 <=? x then shl (t 24) 8 else shl (t 22) 7
      else if 0x4000000 <=? x then shl (t 20) 6 else shl (t 18) 5
    else if 0x100000 <=? x then
      if 0x400000 <=? x then shl (t 16) 4 else shl (t 14) 3
    else if 0x40000 <=? x then shl (t 12) 2 else shl (t 10) 1
  else if 0x100 <=? x then
    if 0x1000 <=? x then
      if 0x4000 <=? x then t 8 else shr (t 6) 1
    else if 0x400 <=? x then shr (t 4) 2 else shr (t 2) 3
  else if 0 <=? x then shr (t 0) 4
  else Ok (-1).
