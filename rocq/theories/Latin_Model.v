(* Model of pdfmajor/utils/encoding/latin_enc.py (LATIN_ENCODING) and of the tables parser/EncodingDB.py:6-19 builds from it.
   Of utils/encoding/glyphlist.py only the entries whose names occur in LATIN_ENCODING are given here.
   Written by a script from the text of those files. *)
From Coq Require Import String.
From Verif Require Import Base Obj CMap_Model.
Open Scope Z_scope.

(* latin_enc.py:9-242: name, then the codes in the standard, Mac Roman, WinAnsi and PDFDoc encodings; 0 for None (which is false as well) *)
Definition latin_encoding : list (string * (Z * Z * Z * Z)) :=
  [
    ("A", (65, 65, 65, 65)); ("AE", (225, 174, 198, 198)); ("Aacute", (0, 231, 193, 193)); ("Acircumflex", (0, 229, 194, 194));
    ("Adieresis", (0, 128, 196, 196)); ("Agrave", (0, 203, 192, 192)); ("Aring", (0, 129, 197, 197)); ("Atilde", (0, 204, 195, 195));
    ("B", (66, 66, 66, 66)); ("C", (67, 67, 67, 67)); ("Ccedilla", (0, 130, 199, 199)); ("D", (68, 68, 68, 68)); ("E", (69, 69, 69, 69));
    ("Eacute", (0, 131, 201, 201)); ("Ecircumflex", (0, 230, 202, 202)); ("Edieresis", (0, 232, 203, 203)); ("Egrave", (0, 233, 200, 200));
    ("Eth", (0, 0, 208, 208)); ("Euro", (0, 0, 128, 160)); ("F", (70, 70, 70, 70)); ("G", (71, 71, 71, 71)); ("H", (72, 72, 72, 72));
    ("I", (73, 73, 73, 73)); ("Iacute", (0, 234, 205, 205)); ("Icircumflex", (0, 235, 206, 206)); ("Idieresis", (0, 236, 207, 207));
    ("Igrave", (0, 237, 204, 204)); ("J", (74, 74, 74, 74)); ("K", (75, 75, 75, 75)); ("L", (76, 76, 76, 76)); ("Lslash", (232, 0, 0, 149));
    ("M", (77, 77, 77, 77)); ("N", (78, 78, 78, 78)); ("Ntilde", (0, 132, 209, 209)); ("O", (79, 79, 79, 79)); ("OE", (234, 206, 140, 150));
    ("Oacute", (0, 238, 211, 211)); ("Ocircumflex", (0, 239, 212, 212)); ("Odieresis", (0, 133, 214, 214)); ("Ograve", (0, 241, 210, 210));
    ("Oslash", (233, 175, 216, 216)); ("Otilde", (0, 205, 213, 213)); ("P", (80, 80, 80, 80)); ("Q", (81, 81, 81, 81)); ("R", (82, 82, 82, 82));
    ("S", (83, 83, 83, 83)); ("Scaron", (0, 0, 138, 151)); ("T", (84, 84, 84, 84)); ("Thorn", (0, 0, 222, 222)); ("U", (85, 85, 85, 85));
    ("Uacute", (0, 242, 218, 218)); ("Ucircumflex", (0, 243, 219, 219)); ("Udieresis", (0, 134, 220, 220)); ("Ugrave", (0, 244, 217, 217));
    ("V", (86, 86, 86, 86)); ("W", (87, 87, 87, 87)); ("X", (88, 88, 88, 88)); ("Y", (89, 89, 89, 89)); ("Yacute", (0, 0, 221, 221));
    ("Ydieresis", (0, 217, 159, 152)); ("Z", (90, 90, 90, 90)); ("Zcaron", (0, 0, 142, 153)); ("a", (97, 97, 97, 97)); ("aacute", (0, 135, 225, 225));
    ("acircumflex", (0, 137, 226, 226)); ("acute", (194, 171, 180, 180)); ("adieresis", (0, 138, 228, 228)); ("ae", (241, 190, 230, 230));
    ("agrave", (0, 136, 224, 224)); ("ampersand", (38, 38, 38, 38)); ("aring", (0, 140, 229, 229)); ("asciicircum", (94, 94, 94, 94));
    ("asciitilde", (126, 126, 126, 126)); ("asterisk", (42, 42, 42, 42)); ("at", (64, 64, 64, 64)); ("atilde", (0, 139, 227, 227));
    ("b", (98, 98, 98, 98)); ("backslash", (92, 92, 92, 92)); ("bar", (124, 124, 124, 124)); ("braceleft", (123, 123, 123, 123));
    ("braceright", (125, 125, 125, 125)); ("bracketleft", (91, 91, 91, 91)); ("bracketright", (93, 93, 93, 93)); ("breve", (198, 249, 0, 24));
    ("brokenbar", (0, 0, 166, 166)); ("bullet", (183, 165, 149, 128)); ("c", (99, 99, 99, 99)); ("caron", (207, 255, 0, 25));
    ("ccedilla", (0, 141, 231, 231)); ("cedilla", (203, 252, 184, 184)); ("cent", (162, 162, 162, 162)); ("circumflex", (195, 246, 136, 26));
    ("colon", (58, 58, 58, 58)); ("comma", (44, 44, 44, 44)); ("copyright", (0, 169, 169, 169)); ("currency", (168, 219, 164, 164));
    ("d", (100, 100, 100, 100)); ("dagger", (178, 160, 134, 129)); ("daggerdbl", (179, 224, 135, 130)); ("degree", (0, 161, 176, 176));
    ("dieresis", (200, 172, 168, 168)); ("divide", (0, 214, 247, 247)); ("dollar", (36, 36, 36, 36)); ("dotaccent", (199, 250, 0, 27));
    ("dotlessi", (245, 245, 0, 154)); ("e", (101, 101, 101, 101)); ("eacute", (0, 142, 233, 233)); ("ecircumflex", (0, 144, 234, 234));
    ("edieresis", (0, 145, 235, 235)); ("egrave", (0, 143, 232, 232)); ("eight", (56, 56, 56, 56)); ("ellipsis", (188, 201, 133, 131));
    ("emdash", (208, 209, 151, 132)); ("endash", (177, 208, 150, 133)); ("equal", (61, 61, 61, 61)); ("eth", (0, 0, 240, 240));
    ("exclam", (33, 33, 33, 33)); ("exclamdown", (161, 193, 161, 161)); ("f", (102, 102, 102, 102)); ("fi", (174, 222, 0, 147));
    ("five", (53, 53, 53, 53)); ("fl", (175, 223, 0, 148)); ("florin", (166, 196, 131, 134)); ("four", (52, 52, 52, 52));
    ("fraction", (164, 218, 0, 135)); ("g", (103, 103, 103, 103)); ("germandbls", (251, 167, 223, 223)); ("grave", (193, 96, 96, 96));
    ("greater", (62, 62, 62, 62)); ("guillemotleft", (171, 199, 171, 171)); ("guillemotright", (187, 200, 187, 187));
    ("guilsinglleft", (172, 220, 139, 136)); ("guilsinglright", (173, 221, 155, 137)); ("h", (104, 104, 104, 104));
    ("hungarumlaut", (205, 253, 0, 28)); ("hyphen", (45, 45, 45, 45)); ("i", (105, 105, 105, 105)); ("iacute", (0, 146, 237, 237));
    ("icircumflex", (0, 148, 238, 238)); ("idieresis", (0, 149, 239, 239)); ("igrave", (0, 147, 236, 236)); ("j", (106, 106, 106, 106));
    ("k", (107, 107, 107, 107)); ("l", (108, 108, 108, 108)); ("less", (60, 60, 60, 60)); ("logicalnot", (0, 194, 172, 172));
    ("lslash", (248, 0, 0, 155)); ("m", (109, 109, 109, 109)); ("macron", (197, 248, 175, 175)); ("minus", (0, 0, 0, 138)); ("mu", (0, 181, 181, 181));
    ("multiply", (0, 0, 215, 215)); ("n", (110, 110, 110, 110)); ("nbspace", (0, 202, 160, 0)); ("nine", (57, 57, 57, 57));
    ("ntilde", (0, 150, 241, 241)); ("numbersign", (35, 35, 35, 35)); ("o", (111, 111, 111, 111)); ("oacute", (0, 151, 243, 243));
    ("ocircumflex", (0, 153, 244, 244)); ("odieresis", (0, 154, 246, 246)); ("oe", (250, 207, 156, 156)); ("ogonek", (206, 254, 0, 29));
    ("ograve", (0, 152, 242, 242)); ("one", (49, 49, 49, 49)); ("onehalf", (0, 0, 189, 189)); ("onequarter", (0, 0, 188, 188));
    ("onesuperior", (0, 0, 185, 185)); ("ordfeminine", (227, 187, 170, 170)); ("ordmasculine", (235, 188, 186, 186)); ("oslash", (249, 191, 248, 248));
    ("otilde", (0, 155, 245, 245)); ("p", (112, 112, 112, 112)); ("paragraph", (182, 166, 182, 182)); ("parenleft", (40, 40, 40, 40));
    ("parenright", (41, 41, 41, 41)); ("percent", (37, 37, 37, 37)); ("period", (46, 46, 46, 46)); ("periodcentered", (180, 225, 183, 183));
    ("perthousand", (189, 228, 137, 139)); ("plus", (43, 43, 43, 43)); ("plusminus", (0, 177, 177, 177)); ("q", (113, 113, 113, 113));
    ("question", (63, 63, 63, 63)); ("questiondown", (191, 192, 191, 191)); ("quotedbl", (34, 34, 34, 34)); ("quotedblbase", (185, 227, 132, 140));
    ("quotedblleft", (170, 210, 147, 141)); ("quotedblright", (186, 211, 148, 142)); ("quoteleft", (96, 212, 145, 143));
    ("quoteright", (39, 213, 146, 144)); ("quotesinglbase", (184, 226, 130, 145)); ("quotesingle", (169, 39, 39, 39)); ("r", (114, 114, 114, 114));
    ("registered", (0, 168, 174, 174)); ("ring", (202, 251, 0, 30)); ("s", (115, 115, 115, 115)); ("scaron", (0, 0, 154, 157));
    ("section", (167, 164, 167, 167)); ("semicolon", (59, 59, 59, 59)); ("seven", (55, 55, 55, 55)); ("six", (54, 54, 54, 54));
    ("slash", (47, 47, 47, 47)); ("space", (32, 32, 32, 32)); ("space", (0, 202, 160, 0)); ("space", (0, 202, 173, 0));
    ("sterling", (163, 163, 163, 163)); ("t", (116, 116, 116, 116)); ("thorn", (0, 0, 254, 254)); ("three", (51, 51, 51, 51));
    ("threequarters", (0, 0, 190, 190)); ("threesuperior", (0, 0, 179, 179)); ("tilde", (196, 247, 152, 31)); ("trademark", (0, 170, 153, 146));
    ("two", (50, 50, 50, 50)); ("twosuperior", (0, 0, 178, 178)); ("u", (117, 117, 117, 117)); ("uacute", (0, 156, 250, 250));
    ("ucircumflex", (0, 158, 251, 251)); ("udieresis", (0, 159, 252, 252)); ("ugrave", (0, 157, 249, 249)); ("underscore", (95, 95, 95, 95));
    ("v", (118, 118, 118, 118)); ("w", (119, 119, 119, 119)); ("x", (120, 120, 120, 120)); ("y", (121, 121, 121, 121)); ("yacute", (0, 0, 253, 253));
    ("ydieresis", (0, 216, 255, 255)); ("yen", (165, 180, 165, 165)); ("z", (122, 122, 122, 122)); ("zcaron", (0, 0, 158, 158));
    ("zero", (48, 48, 48, 48))]%string.
(* glyphlist.py, the names above *)
Definition latin_glyphs : list (string * list Z) :=
  [
    ("A", [65]); ("AE", [198]); ("Aacute", [193]); ("Acircumflex", [194]); ("Adieresis", [196]); ("Agrave", [192]); ("Aring", [197]);
    ("Atilde", [195]); ("B", [66]); ("C", [67]); ("Ccedilla", [199]); ("D", [68]); ("E", [69]); ("Eacute", [201]); ("Ecircumflex", [202]);
    ("Edieresis", [203]); ("Egrave", [200]); ("Eth", [208]); ("Euro", [8364]); ("F", [70]); ("G", [71]); ("H", [72]); ("I", [73]); ("Iacute", [205]);
    ("Icircumflex", [206]); ("Idieresis", [207]); ("Igrave", [204]); ("J", [74]); ("K", [75]); ("L", [76]); ("Lslash", [321]); ("M", [77]);
    ("N", [78]); ("Ntilde", [209]); ("O", [79]); ("OE", [338]); ("Oacute", [211]); ("Ocircumflex", [212]); ("Odieresis", [214]); ("Ograve", [210]);
    ("Oslash", [216]); ("Otilde", [213]); ("P", [80]); ("Q", [81]); ("R", [82]); ("S", [83]); ("Scaron", [352]); ("T", [84]); ("Thorn", [222]);
    ("U", [85]); ("Uacute", [218]); ("Ucircumflex", [219]); ("Udieresis", [220]); ("Ugrave", [217]); ("V", [86]); ("W", [87]); ("X", [88]);
    ("Y", [89]); ("Yacute", [221]); ("Ydieresis", [376]); ("Z", [90]); ("Zcaron", [381]); ("a", [97]); ("aacute", [225]); ("acircumflex", [226]);
    ("acute", [180]); ("adieresis", [228]); ("ae", [230]); ("agrave", [224]); ("ampersand", [38]); ("aring", [229]); ("asciicircum", [94]);
    ("asciitilde", [126]); ("asterisk", [42]); ("at", [64]); ("atilde", [227]); ("b", [98]); ("backslash", [92]); ("bar", [124]); ("braceleft", [123]);
    ("braceright", [125]); ("bracketleft", [91]); ("bracketright", [93]); ("breve", [728]); ("brokenbar", [166]); ("bullet", [8226]); ("c", [99]);
    ("caron", [711]); ("ccedilla", [231]); ("cedilla", [184]); ("cent", [162]); ("circumflex", [710]); ("colon", [58]); ("comma", [44]);
    ("copyright", [169]); ("currency", [164]); ("d", [100]); ("dagger", [8224]); ("daggerdbl", [8225]); ("degree", [176]); ("dieresis", [168]);
    ("divide", [247]); ("dollar", [36]); ("dotaccent", [729]); ("dotlessi", [305]); ("e", [101]); ("eacute", [233]); ("ecircumflex", [234]);
    ("edieresis", [235]); ("egrave", [232]); ("eight", [56]); ("ellipsis", [8230]); ("emdash", [8212]); ("endash", [8211]); ("equal", [61]);
    ("eth", [240]); ("exclam", [33]); ("exclamdown", [161]); ("f", [102]); ("fi", [64257]); ("five", [53]); ("fl", [64258]); ("florin", [402]);
    ("four", [52]); ("fraction", [8260]); ("g", [103]); ("germandbls", [223]); ("grave", [96]); ("greater", [62]); ("guillemotleft", [171]);
    ("guillemotright", [187]); ("guilsinglleft", [8249]); ("guilsinglright", [8250]); ("h", [104]); ("hungarumlaut", [733]); ("hyphen", [45]);
    ("i", [105]); ("iacute", [237]); ("icircumflex", [238]); ("idieresis", [239]); ("igrave", [236]); ("j", [106]); ("k", [107]); ("l", [108]);
    ("less", [60]); ("logicalnot", [172]); ("lslash", [322]); ("m", [109]); ("macron", [175]); ("minus", [8722]); ("mu", [181]); ("multiply", [215]);
    ("n", [110]); ("nbspace", [160]); ("nine", [57]); ("ntilde", [241]); ("numbersign", [35]); ("o", [111]); ("oacute", [243]); ("ocircumflex", [244]);
    ("odieresis", [246]); ("oe", [339]); ("ogonek", [731]); ("ograve", [242]); ("one", [49]); ("onehalf", [189]); ("onequarter", [188]);
    ("onesuperior", [185]); ("ordfeminine", [170]); ("ordmasculine", [186]); ("oslash", [248]); ("otilde", [245]); ("p", [112]); ("paragraph", [182]);
    ("parenleft", [40]); ("parenright", [41]); ("percent", [37]); ("period", [46]); ("periodcentered", [183]); ("perthousand", [8240]); ("plus", [43]);
    ("plusminus", [177]); ("q", [113]); ("question", [63]); ("questiondown", [191]); ("quotedbl", [34]); ("quotedblbase", [8222]);
    ("quotedblleft", [8220]); ("quotedblright", [8221]); ("quoteleft", [8216]); ("quoteright", [8217]); ("quotesinglbase", [8218]);
    ("quotesingle", [39]); ("r", [114]); ("registered", [174]); ("ring", [730]); ("s", [115]); ("scaron", [353]); ("section", [167]);
    ("semicolon", [59]); ("seven", [55]); ("six", [54]); ("slash", [47]); ("space", [32]); ("sterling", [163]); ("t", [116]); ("thorn", [254]);
    ("three", [51]); ("threequarters", [190]); ("threesuperior", [179]); ("tilde", [732]); ("trademark", [8482]); ("two", [50]);
    ("twosuperior", [178]); ("u", [117]); ("uacute", [250]); ("ucircumflex", [251]); ("udieresis", [252]); ("ugrave", [249]); ("underscore", [95]);
    ("v", [118]); ("w", [119]); ("x", [120]); ("y", [121]); ("yacute", [253]); ("ydieresis", [255]); ("yen", [165]); ("z", [122]); ("zcaron", [382]);
    ("zero", [48])]%string.
Definition latin_glyph (n : list Z) : option (list Z) :=
  match find (fun e => list_eqb n (bs (fst e))) latin_glyphs with Some e => Some (snd e) | None => None end.

(* the table as EncodingDB.py reads it (CMap_Model.encodings models EncodingDB.py:6-26, the loop of the class body) *)
Definition present (c : Z) : option Z := if c =? 0 then None else Some c.
Definition latin_table : latin :=
  map (fun e => let '(n, (a, b, c, d)) := e in (bs n, present a, present b, present c, present d)) latin_encoding.
