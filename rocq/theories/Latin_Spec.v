(* The four encodings of Latin text (ISO 32000-1, Annex D.2 and D.3), by code; independent of the code and of its table by glyph name.
   Written from the Annex and from Python's codecs mac_roman and cp1252. *)
From Coq Require Import String.
From Verif Require Import Base Obj.
Open Scope Z_scope.

Inductive encoding := Standard | MacRoman | WinAnsi | PDFDoc.
(* each run: the first code, and the characters (Unicode) of that code and the codes after it.  Other codes have no character. *)
(* StandardEncoding *)
Definition standard_runs : list (Z * list Z) :=
  [(32, [32; 33; 34; 35; 36; 37; 38; 8217; 40; 41; 42; 43; 44; 45; 46; 47; 48; 49; 50; 51; 52; 53; 54; 55; 56; 57; 58; 59; 60; 61; 62; 63; 64; 65; 66;
   67; 68; 69; 70; 71; 72; 73; 74; 75; 76; 77; 78; 79; 80; 81; 82; 83; 84; 85; 86; 87; 88; 89; 90; 91; 92; 93; 94; 95; 8216; 97; 98; 99; 100; 101;
   102; 103; 104; 105; 106; 107; 108; 109; 110; 111; 112; 113; 114; 115; 116; 117; 118; 119; 120; 121; 122; 123; 124; 125; 126]); (161, [161; 162;
   163; 8260; 165; 402; 167; 164; 39; 8220; 171; 8249; 8250; 64257; 64258]); (177, [8211; 8224; 8225; 183]); (182, [182; 8226; 8218; 8222; 8221; 187;
   8230; 8240]); (191, [191]); (193, [96; 180; 710; 732; 175; 728; 729; 168]); (202, [730; 184]); (205, [733; 731; 711; 8212]); (225, [198]); (227,
   [170]); (232, [321; 216; 338; 186]); (241, [230]); (245, [305]); (248, [322; 248; 339; 223])].

(* MacRomanEncoding *)
Definition mac_runs : list (Z * list Z) :=
  [(32, [32; 33; 34; 35; 36; 37; 38; 39; 40; 41; 42; 43; 44; 45; 46; 47; 48; 49; 50; 51; 52; 53; 54; 55; 56; 57; 58; 59; 60; 61; 62; 63; 64; 65; 66;
   67; 68; 69; 70; 71; 72; 73; 74; 75; 76; 77; 78; 79; 80; 81; 82; 83; 84; 85; 86; 87; 88; 89; 90; 91; 92; 93; 94; 95; 96; 97; 98; 99; 100; 101; 102;
   103; 104; 105; 106; 107; 108; 109; 110; 111; 112; 113; 114; 115; 116; 117; 118; 119; 120; 121; 122; 123; 124; 125; 126]); (128, [196; 197; 199;
   201; 209; 214; 220; 225; 224; 226; 228; 227; 229; 231; 233; 232; 234; 235; 237; 236; 238; 239; 241; 243; 242; 244; 246; 245; 250; 249; 251; 252;
   8224; 176; 162; 163; 167; 8226; 182; 223; 174; 169; 8482; 180; 168]); (174, [198; 216]); (177, [177]); (180, [165; 181]); (187, [170; 186]); (190,
   [230; 248; 191; 161; 172]); (196, [402]); (199, [171; 187; 8230; 32; 192; 195; 213; 338; 339; 8211; 8212; 8220; 8221; 8216; 8217; 247]); (216,
   [255; 376; 8260; 164; 8249; 8250; 64257; 64258; 8225; 183; 8218; 8222; 8240; 194; 202; 193; 203; 200; 205; 206; 207; 204; 211; 212]); (241, [210;
   218; 219; 217; 305; 710; 732; 175; 728; 729; 730; 184; 733; 731; 711])].

(* WinAnsiEncoding: 128-159 as in Windows code page 1252, 160 a space, 173 a hyphen, 161-255 otherwise as in Latin-1 *)
Definition win_runs : list (Z * list Z) :=
  [(32, [32; 33; 34; 35; 36; 37; 38; 39; 40; 41; 42; 43; 44; 45; 46; 47; 48; 49; 50; 51; 52; 53; 54; 55; 56; 57; 58; 59; 60; 61; 62; 63; 64; 65; 66;
   67; 68; 69; 70; 71; 72; 73; 74; 75; 76; 77; 78; 79; 80; 81; 82; 83; 84; 85; 86; 87; 88; 89; 90; 91; 92; 93; 94; 95; 96; 97; 98; 99; 100; 101; 102;
   103; 104; 105; 106; 107; 108; 109; 110; 111; 112; 113; 114; 115; 116; 117; 118; 119; 120; 121; 122; 123; 124; 125; 126]); (128, [8364]); (130,
   [8218; 402; 8222; 8230; 8224; 8225; 710; 8240; 352; 8249; 338]); (142, [381]); (145, [8216; 8217; 8220; 8221; 8226; 8211; 8212; 732; 8482; 353;
   8250; 339]); (158, [382; 376; 32; 161; 162; 163; 164; 165; 166; 167; 168; 169; 170; 171; 172; 45; 174; 175; 176; 177; 178; 179; 180; 181; 182; 183;
   184; 185; 186; 187; 188; 189; 190; 191; 192; 193; 194; 195; 196; 197; 198; 199; 200; 201; 202; 203; 204; 205; 206; 207; 208; 209; 210; 211; 212;
   213; 214; 215; 216; 217; 218; 219; 220; 221; 222; 223; 224; 225; 226; 227; 228; 229; 230; 231; 232; 233; 234; 235; 236; 237; 238; 239; 240; 241;
   242; 243; 244; 245; 246; 247; 248; 249; 250; 251; 252; 253; 254; 255])].

(* PDFDocEncoding *)
Definition pdf_runs : list (Z * list Z) :=
  [(24, [728; 711; 710; 729; 733; 731; 730; 732; 32; 33; 34; 35; 36; 37; 38; 39; 40; 41; 42; 43; 44; 45; 46; 47; 48; 49; 50; 51; 52; 53; 54; 55; 56;
   57; 58; 59; 60; 61; 62; 63; 64; 65; 66; 67; 68; 69; 70; 71; 72; 73; 74; 75; 76; 77; 78; 79; 80; 81; 82; 83; 84; 85; 86; 87; 88; 89; 90; 91; 92; 93;
   94; 95; 96; 97; 98; 99; 100; 101; 102; 103; 104; 105; 106; 107; 108; 109; 110; 111; 112; 113; 114; 115; 116; 117; 118; 119; 120; 121; 122; 123;
   124; 125; 126]); (128, [8226; 8224; 8225; 8230; 8212; 8211; 402; 8260; 8249; 8250; 8722; 8240; 8222; 8220; 8221; 8216; 8217; 8218; 8482; 64257;
   64258; 321; 338; 352; 376; 381; 305; 322; 339; 353; 382]); (160, [8364; 161; 162; 163; 164; 165; 166; 167; 168; 169; 170; 171; 172]); (174, [174;
   175; 176; 177; 178; 179; 180; 181; 182; 183; 184; 185; 186; 187; 188; 189; 190; 191; 192; 193; 194; 195; 196; 197; 198; 199; 200; 201; 202; 203;
   204; 205; 206; 207; 208; 209; 210; 211; 212; 213; 214; 215; 216; 217; 218; 219; 220; 221; 222; 223; 224; 225; 226; 227; 228; 229; 230; 231; 232;
   233; 234; 235; 236; 237; 238; 239; 240; 241; 242; 243; 244; 245; 246; 247; 248; 249; 250; 251; 252; 253; 254; 255])].

Definition runs (e : encoding) : list (Z * list Z) :=
  match e with Standard => standard_runs | MacRoman => mac_runs | WinAnsi => win_runs | PDFDoc => pdf_runs end.
(* the character of a code *)
Definition Assigned (e : encoding) (c ch : Z) : Prop :=
  exists first l k, In (first, l) (runs e) /\ c = first + Z.of_nat k /\ nth_error l k = Some ch.
(* the names of the encodings in a file *)
Inductive Called : list Z -> encoding -> Prop :=
| Ca_std : Called (bs "StandardEncoding") Standard
| Ca_mac : Called (bs "MacRomanEncoding") MacRoman
| Ca_win : Called (bs "WinAnsiEncoding") WinAnsi
| Ca_pdf : Called (bs "PDFDocEncoding") PDFDoc.
