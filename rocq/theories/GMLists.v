(** * Constants of GeneralMap.py (GENERATED by tools/gen_tables.py; do not edit). *)
From Coq Require Import List NArith.
From Verif Require Import PyStr.
Import ListNotations.

(** aksharamukha/GeneralMap.py:48-48 *)
Definition GM_VedicSvaras : str := "(᳚|॑|॒)?"%u.

(** aksharamukha/GeneralMap.py:49-49 *)
Definition GM_VedicSvarasList : list str :=
  [[0x1CDA]%N; [0x951]%N; [0x952]%N].

(** aksharamukha/GeneralMap.py:51-51 *)
Definition GM_Vowels : list str :=
  ["VowelMap"%u; "SouthVowelMap"%u; "ModernVowelMap"%u; "SinhalaVowelMap"%u].

(** aksharamukha/GeneralMap.py:52-52 *)
Definition GM_VowelSignsNV : list str :=
  ["VowelSignMap"%u; "SouthVowelSignMap"%u; "ModernVowelSignMap"%u; "SinhalaVowelSignMap"%u].

(** aksharamukha/GeneralMap.py:53-53 *)
Definition GM_VowelSigns : list str :=
  ["ViramaMap"%u; "VowelSignMap"%u; "SouthVowelSignMap"%u; "ModernVowelSignMap"%u; "SinhalaVowelSignMap"%u].

(** aksharamukha/GeneralMap.py:54-54 *)
Definition GM_CombiningSigns : list str :=
  ["AyogavahaMap"%u; "NuktaMap"%u].

(** aksharamukha/GeneralMap.py:55-55 *)
Definition GM_Consonants : list str :=
  ["ConsonantMap"%u; "SouthConsonantMap"%u; "NuktaConsonantMap"%u; "SinhalaConsonantMap"%u].

(** aksharamukha/GeneralMap.py:57-57 *)
Definition GM_Signs : list str :=
  ["SignMap"%u].

(** aksharamukha/GeneralMap.py:58-58 *)
Definition GM_Numerals : list str :=
  ["NumeralMap"%u].

(** aksharamukha/GeneralMap.py:59-59 *)
Definition GM_Aytham : list str :=
  ["Aytham"%u].

(** aksharamukha/GeneralMap.py:60-60 *)
Definition GM_om : list str :=
  ["OmMap"%u].

(** aksharamukha/GeneralMap.py:61-61 *)
Definition GM_virama : list str :=
  ["ViramaMap"%u].

(** aksharamukha/GeneralMap.py:64-64 *)
Definition GM_MainIndic : list str :=
  ["GurmukhiLoC"%u; "LimbuLoC"%u; "BengaliRaBa"%u; "Nandinagari"%u; "Shahmukhi"%u; "TamilExtended"%u; "MasaramGondi"%u; "GunjalaGondi"%u;
    "Dogra"%u; "Ranjana"%u; "Khojki"%u; "GranthaGrantamil"%u; "Multani"%u; "Ahom"%u; "Mahajani"%u; "SiddhamDevanagari"%u;
    "Vatteluttu"%u; "GranthaPandya"%u; "Khudawadi"%u; "Bhaiksuki"%u; "Sharada"%u; "Newa"%u; "SylotiNagri"%u; "Takri"%u;
    "Tirhuta"%u; "Modi"%u; "Kaithi"%u; "Kharoshthi"%u; "Lepcha"%u; "Chakma"%u; "Brahmi"%u; "MeeteiMayek"%u;
    "Limbu"%u; "Assamese"%u; "Bengali"%u; "Devanagari"%u; "Grantha"%u; "Gujarati"%u; "Gurmukhi"%u; "Kannada"%u;
    "Malayalam"%u; "Oriya"%u; "Saurashtra"%u; "Sinhala"%u; "Tamil"%u; "TamilBrahmi"%u; "TamilGrantha"%u; "Telugu"%u;
    "Urdu"%u].

(** aksharamukha/GeneralMap.py:65-65 *)
Definition GM_EastIndic : list str :=
  ["DivesAkuru"%u; "TibetanLoC"%u; "BatakLoC"%u; "ThamLoC"%u; "KhmerLoC"%u; "ShanLoC"%u; "Makasar"%u; "Kawi"%u;
    "Pallava"%u; "LaoTham"%u; "LueTham"%u; "KhuenTham"%u; "Marchen"%u; "Soyombo"%u; "KhomThai"%u; "KhamtiShan"%u;
    "TaiLaing"%u; "Mon"%u; "Shan"%u; "ZanabazarSquare"%u; "Rejang"%u; "Lao2"%u; "Buhid"%u; "Hanunoo"%u;
    "Siddham"%u; "Tibetan"%u; "Lao"%u; "TaiTham"%u; "Cham"%u; "BatakKaro"%u; "BatakPakpak"%u; "BatakSima"%u;
    "BatakToba"%u; "BatakManda"%u; "LaoPali"%u; "PhagsPa"%u; "Buginese"%u; "Tagbanwa"%u; "Tagalog"%u; "Sundanese"%u;
    "Balinese"%u; "Burmese"%u; "Javanese"%u; "Khmer"%u; "Siddham"%u; "Ranjana"%u; "Thaana"%u; "Thai"%u;
    "BurmeseALALC"%u].

(** aksharamukha/GeneralMap.py:66-66 *)
Definition GM_NonIndic : list str :=
  ["OldPersian"%u; "Hebrew"%u].

(** aksharamukha/GeneralMap.py:67-67 *)
Definition GM_Roman : list str :=
  ["BatakLoCRomanLoC"%u; "GurmukhiLoCRomanLoC"%u; "TibetanLoCRomanLoC"%u; "LimbuLoCRomanLoC"%u; "BalineseSimpleRomanLoC"%u; "BalineseRomanLoC"%u; "JavaneseSimpleRomanLoC"%u; "JavaneseRomanLoC"%u;
    "BatakKaroRomanLoC"%u; "BatakMandaRomanLoC"%u; "BatakPakpakRomanLoC"%u; "BatakSimaRomanLoC"%u; "BatakTobaRomanLoC"%u; "GurmukhiRomanLoC"%u; "TibetanRomanLoC"%u; "LimbuRomanLoC"%u;
    "KannadaRomanLoC"%u; "TeluguRomanLoC"%u; "SinhalaRomanLoC"%u; "OriyaRomanLoC"%u; "AssameseRomanLoC"%u; "BengaliRomanLoC"%u; "GujaratiRomanLoC"%u; "DevanagariRomanLoC"%u;
    "ThamLoCRomanLoC"%u; "KhmerLoCRomanLoC"%u; "RomanLoC"%u; "ShanLoCRomanLoC"%u; "ThamLoCRomanLoC"%u; "KhmerLoCRomanLoC"%u; "ShanLoCRomanLoC"%u; "BurmeseRomanLoC"%u;
    "RomanSemitic"%u; "RomanColloquial"%u; "ISOPali"%u; "RomanKana"%u; "BarahaNorth"%u; "BarahaSouth"%u; "Mongolian"%u; "SLP1"%u;
    "Wancho"%u; "Mro"%u; "IASTPali"%u; "HanifiRohingya"%u; "Ariyaka"%u; "RomanReadable"%u; "Aksharaa"%u; "WarangCiti"%u;
    "SoraSompeng"%u; "WX-kok"%u; "Avestan"%u; "HK"%u; "IAST"%u; "ISO"%u; "Itrans"%u; "Titus"%u;
    "Titus"%u; "Velthuis"%u; "WX"%u; "Inter"%u; "IPA"%u; "TolongSiki"%u; "Santali"%u; "RussianCyrillic"%u].

(** aksharamukha/GeneralMap.py:68-68 *)
Definition GM_RomanDiacritic : list str :=
  ["IAST"%u; "Titus"%u; "ISO"%u; "IPA"%u; "IASTPali"%u; "ISOPali"%u; "BurmeseRomanLoC"%u; "ISOLOC"%u;
    "RomanSemitic"%u; "ShanLoCRomanLoC"%u; "KhmerLoCRomanLoC"%u].

(** aksharamukha/GeneralMap.py:81-81 *)
Definition GM_Inter : str := "Inter"%u.

(** aksharamukha/GeneralMap.py:83-83 *)
Definition GM_Characters : list str :=
  ["VowelMap"%u; "SouthVowelMap"%u; "ModernVowelMap"%u; "SinhalaVowelMap"%u; "ViramaMap"%u; "VowelSignMap"%u; "SouthVowelSignMap"%u; "ModernVowelSignMap"%u;
    "SinhalaVowelSignMap"%u; "AyogavahaMap"%u; "NuktaMap"%u; "ConsonantMap"%u; "SouthConsonantMap"%u; "NuktaConsonantMap"%u; "SinhalaConsonantMap"%u].

(** aksharamukha/GeneralMap.py:84-84 *)
Definition GM_CharactersNV : list str :=
  ["VowelMap"%u; "SouthVowelMap"%u; "ModernVowelMap"%u; "SinhalaVowelMap"%u; "VowelSignMap"%u; "SouthVowelSignMap"%u; "ModernVowelSignMap"%u; "SinhalaVowelSignMap"%u;
    "AyogavahaMap"%u; "NuktaMap"%u; "ConsonantMap"%u; "SouthConsonantMap"%u; "NuktaConsonantMap"%u; "SinhalaConsonantMap"%u].

(** aksharamukha/GeneralMap.py:86-86 *)
Definition GM_Diacritics : list str :=
  ["ʽ"%u; "·"%u; "¹"%u; "²"%u; "³"%u; "⁴"%u; "₁"%u; "₂"%u;
    "₃"%u; "₄"%u].

(** aksharamukha/GeneralMap.py:87-87 *)
Definition GM_DiacriticsRemovable : list str :=
  ["ʼ"%u; "ˇ"%u; "ˆ"%u; "˘"%u; "·"%u].

(** aksharamukha/GeneralMap.py:88-88 *)
Definition GM_DiacriticsRemovableTamil : list str :=
  ["ˇ"%u; "ˆ"%u; "˘"%u; "·"%u].

(** aksharamukha/GeneralMap.py:90-90 *)
Definition GM_ScriptAll : list str :=
  ["Aytham"%u; "Signs"%u; "CombiningSigns"%u; "VowelSigns"%u; "Vowels"%u; "Consonants"%u; "Numerals"%u].

(** aksharamukha/GeneralMap.py:92-187 *)
Definition GM_IndicScripts : list str :=
  ["DivesAkuru"%u; "TibetanLoC"%u; "GurmukhiLoC"%u; "LimbuLoC"%u; "ThamLoC"%u; "KhmerLoC"%u; "ShanLoC"%u; "BengaliRaBa"%u;
    "RomanSemitic"%u; "Makasar"%u; "Nandinagari"%u; "Kawi"%u; "Shahmukhi"%u; "Pallava"%u; "Hebrew"%u; "LaoTham"%u;
    "LueTham"%u; "KhuenTham"%u; "TamilExtended"%u; "Marchen"%u; "MasaramGondi"%u; "GunjalaGondi"%u; "Soyombo"%u; "Dogra"%u;
    "KhomThai"%u; "KhamtiShan"%u; "TaiLaing"%u; "Mon"%u; "Khojki"%u; "Shan"%u; "Ranjana"%u; "ZanabazarSquare"%u;
    "Rejang"%u; "GranthaGrantamil"%u; "Devanagari"%u; "Multani"%u; "Ahom"%u; "Mahajani"%u; "Lao2"%u; "Hanunoo"%u;
    "Buhid"%u; "Siddham"%u; "SiddhamDevanagari"%u; "GranthaPandya"%u; "Vatteluttu"%u; "Khudawadi"%u; "Bhaiksuki"%u; "Sharada"%u;
    "Newa"%u; "Takri"%u; "SylotiNagri"%u; "Tirhuta"%u; "Modi"%u; "Kaithi"%u; "Kharoshthi"%u; "Telugu"%u;
    "Kannada"%u; "Malayalam"%u; "Gujarati"%u; "Bengali"%u; "Oriya"%u; "Gurmukhi"%u; "Tamil"%u; "Assamese"%u;
    "Saurashtra"%u; "TamilBrahmi"%u; "Grantha"%u; "TamilGrantha"%u; "Sinhala"%u; "Khmer"%u; "Burmese"%u; "Urdu"%u;
    "Balinese"%u; "Javanese"%u; "Thaana"%u; "Tibetan"%u; "Thai"%u; "OldPersian"%u; "Limbu"%u; "Lepcha"%u;
    "Sundanese"%u; "Tagalog"%u; "Tagbanwa"%u; "Buginese"%u; "Chakma"%u; "PhagsPa"%u; "MeeteiMayek"%u; "LaoPali"%u;
    "BatakKaro"%u; "BatakPakpak"%u; "BatakSima"%u; "BatakToba"%u; "BatakManda"%u; "Cham"%u; "TaiTham"%u; "Lao"%u;
    "Brahmi"%u].

(** aksharamukha/GeneralMap.py:189-189 *)
Definition GM_SiddhamRanjana : list str :=
  ["Ranjana"%u].

(** aksharamukha/GeneralMap.py:191-192 *)
Definition GM_LatinScripts : list str :=
  ["GurmukhiLoCRomanLoC"%u; "TibetanLoCRomanLoC"%u; "LimbuLoCRomanLoC"%u; "BalineseSimpleRomanLoC"%u; "BalineseRomanLoC"%u; "JavaneseSimpleRomanLoC"%u; "JavaneseRomanLoC"%u; "KannadaRomanLoC"%u;
    "TeluguRomanLoC"%u; "SinhalaRomanLoC"%u; "OriyaRomanLoC"%u; "AssameseRomanLoC"%u; "BengaliRomanLoC"%u; "GujaratiRomanLoC"%u; "DevanagariRomanLoC"%u; "ThamLoCRomanLoC"%u;
    "KhmerLoCRomanLoC"%u; "RomanLoC"%u; "ShanLoCRomanLoC"%u; "BurmeseRomanLoC"%u; "RomanColloquial"%u; "ISOPali"%u; "RomanKana"%u; "BarahaNorth"%u;
    "BarahaSouth"%u; "Mongolian"%u; "SLP1"%u; "Wancho"%u; "Mro"%u; "IASTPali"%u; "HanifiRohingya"%u; "Ariyaka"%u;
    "RomanReadable"%u; "Aksharaa"%u; "WarangCiti"%u; "SoraSompeng"%u; "WX-kok"%u; "Avestan"%u; "ISO"%u; "IAST"%u;
    "HK"%u; "Titus"%u; "Itrans"%u; "Velthuis"%u; "WX"%u; "Inter"%u; "IPA"%u; "TolongSiki"%u;
    "Santali"%u; "RussianCyrillic"%u].

(** aksharamukha/GeneralMap.py:194-206 *)
Definition GM_Gemination : list (str * str) :=
  [("Gurmukhi"%u, [0xA71]%N);
   ("Thaana"%u, "އް"%u);
   ("Urdu"%u, [0x651]%N);
   ("Shahmukhi"%u, [0x651]%N);
   ("Grantha"%u, [0x11302]%N);
   ("Malayalam"%u, [0xD02]%N);
   ("Khojki"%u, [0x11237]%N);
   ("Buginese"%u, []);
   ("Buhid"%u, []);
   ("Tagbanwa"%u, []);
   ("Makasar"%u, [])].

(** aksharamukha/GeneralMap.py:208-208 *)
Definition GM_pipeScripts : list str :=
  ["HK"%u; "IASTPali"%u; "IAST"%u; "ISO"%u; "Itrans"%u; "ISOPali"%u].

(** aksharamukha/GeneralMap.py:210-210 *)
Definition GM_Transliteration : list str :=
  ["IASTPali"%u; "RomanReadable"%u; "Aksharaa"%u; "ISO"%u; "IAST"%u; "HK"%u; "Titus"%u; "Itrans"%u;
    "Velthuis"%u; "WX"%u; "IPA"%u; "RussianCyrillic"%u; "IASTPali"%u; "ISOPali"%u; "RomanLoC"%u].

(** aksharamukha/GeneralMap.py:213-213 *)
Definition GM_romanNumeralScripts : list str :=
  ["Tamil"%u; "Gurmukhi"%u; "Malayalam"%u; "Telugu"%u].

(** aksharamukha/GeneralMap.py:215-215 *)
Definition GM_romanPunctscripts : list str :=
  ["Tamil"%u; "Kannada"%u; "Malayalam"%u; "Telugu"%u; "Gujarati"%u].

(** aksharamukha/GeneralMap.py:218-218 *)
Definition GM_LoCScripts : list str :=
  ["Burmese"%u; "Shan"%u; "Khmer"%u; "KhuenTham"%u; "TaiTham"%u; "LaoTham"%u; "LueTham"%u; "Kannada"%u;
    "Tamil"%u; "Malayalam"%u; "Sinhala"%u; "Telugu"%u; "Kannada"%u; "Oriya"%u; "Assamese"%u; "Bengali"%u;
    "Gujarati"%u; "Devanagari"%u; "Balinese"%u; "Javanese"%u; "BatakKaro"%u; "BatakManda"%u; "BatakPakpak"%u; "BatakSima"%u;
    "BatakToba"%u; "Gurmukhi"%u; "Tibetan"%u; "Limbu"%u].

(** aksharamukha/GeneralMap.py:222-222 *)
Definition GM_LocPostPre : list str :=
  ["Burmese"%u; "Shan"%u; "Khmer"%u; "ThamLoC"%u; "ShanLoC"%u; "KhmerLoC"%u].

(** aksharamukha/GeneralMap.py:224-224 *)
Definition GM_LoCSrcMap : list str :=
  ["Shan"%u; "Khmer"%u; "Gurmukhi"%u; "Limbu"%u; "Tibetan"%u].

(** aksharamukha/GeneralMap.py:226-226 *)
Definition GM_LoCTgtMap : list str :=
  ["Burmese"%u; "Shan"%u; "Khmer"%u; "KhuenTham"%u; "TaiTham"%u; "LaoTham"%u; "LueTham"%u; "ThamLoC"%u;
    "ShanLoC"%u; "KhmerLoC"%u; "Kannada"%u; "Telugu"%u; "Sinhala"%u; "Oriya"%u; "Assamese"%u; "Bengali"%u;
    "Gujarati"%u; "Devanagari"%u; "Balinese"%u; "Javanese"%u; "Batak"%u; "Gurmukhi"%u; "GurmukhiLoC"%u; "Tibetan"%u;
    "Limbu"%u; "LimbuLoC"%u; "Tibetan"%u; "TibetanLoC"%u].

(** aksharamukha/GeneralMap.py:229-229 *)
Definition GM_LoCTgtISO : list str :=
  ["Tamil"%u; "Malayalam"%u].

(** aksharamukha/GeneralMap.py:232-246 *)
Definition GM_LoCTgtPostOptions : list (str * list str) :=
  [("Telugu"%u, ["AnusvaratoNasalASTISO"%u; "RomanLoCChandrabindu"%u]);
   ("Kannada"%u, ["AnusvaratoNasalASTISO"%u; "RomanLoCChandrabindu"%u]);
   ("Malayalam"%u, ["AnusvaratoNasalASTISO"%u; "RomanLoCChandrabindu"%u; "MalayalamRomanLoCFix"%u; "mDotBelowToAbove"%u]);
   ("Sinhala"%u, ["AnusvaratoNasalASTISO"%u; "SinhalaSannakaNasalization"%u; "RomanLoCChandrabindu"%u]);
   ("Oriya"%u, ["AnusvaratoNasalASTISO"%u; "RomanLoCChandrabindu"%u]);
   ("Assamese"%u, ["RomanLoCChandrabindu"%u]);
   ("GurmukhiLoC"%u, ["GurmukhiRomanLoCFix"%u]);
   ("Bengali"%u, ["RomanLoCChandrabindu"%u]);
   ("Gujarati"%u, ["AnusvaratoNasalASTISO"%u; "RomanLoCChandrabindu"%u]);
   ("Devanagari"%u, ["AnusvaratoNasalASTISO"%u; "RomanLoCChandrabindu"%u; "DevanagariRomanLoCFix"%u]);
   ("Balinese"%u, ["BalineseRomanLoCFix"%u]);
   ("Javanese"%u, ["JavaneseRomanLoCFix"%u]);
   ("TibetanLoC"%u, ["TibetanLoCRomanLoCFix"%u])].

(** aksharamukha/GeneralMap.py:249-252 *)
Definition GM_LoCTgtPreOptions : list (str * list str) :=
  [("Assamese"%u, ["KhandaTaRomanLoC"%u]);
   ("Bengali"%u, ["KhandaTaRomanLoC"%u; "BengaliSubojinedVa"%u])].

(** aksharamukha/GeneralMap.py:255-259 *)
Definition GM_LoCSrcPostOptions : list (str * list str) :=
  [("Assamese"%u, ["KhandaTaRomanLoC"%u]);
   ("Bengali"%u, ["KhandaTaRomanLoC"%u]);
   ("Telugu"%u, ["TeluguArasunnaChandrabindu"%u])].

(** aksharamukha/GeneralMap.py:262-275 *)
Definition GM_LoCSrcPreOptions : list (str * list str) :=
  [("Telugu"%u, ["RomanLoCChandrabindu"%u]);
   ("Kannada"%u, ["RomanLoCChandrabindu"%u]);
   ("Malayalam"%u, ["RomanLoCChandrabindu"%u; "MalayalamRomanLoCFix"%u]);
   ("Sinhala"%u, ["RomanLoCChandrabindu"%u]);
   ("Oriya"%u, ["RomanLoCChandrabindu"%u]);
   ("Assamese"%u, ["RomanLoCChandrabindu"%u]);
   ("Bengali"%u, ["RomanLoCChandrabindu"%u]);
   ("Gujarati"%u, ["RomanLoCChandrabindu"%u]);
   ("Devanagari"%u, ["RomanLoCChandrabindu"%u; "DevanagariRomanLoCFix"%u]);
   ("Balinese"%u, ["BalineseRomanLoCFix"%u]);
   ("Javanese"%u, ["JavaneseRomanLoCFix"%u]);
   ("TibetanLoC"%u, ["TibetanLoCRomanLoCFix"%u])].

(** aksharamukha/GeneralMap.py:277-277 *)
Definition GM_SemiticScripts : list str :=
  ["Arab-Pa"%u; "Syrj"%u; "Syrn"%u; "Syre"%u; "Thaa"%u; "Arab-Ur"%u; "Type"%u; "Hebr-Ar"%u;
    "Arab-Fa"%u; "Latn"%u; "Arab"%u; "Ethi"%u; "Armi"%u; "Brah"%u; "Chrs"%u; "Egyp"%u;
    "Elym"%u; "Grek"%u; "Hatr"%u; "Hebr"%u; "Mani"%u; "Narb"%u; "Nbat"%u; "Palm"%u;
    "Phli"%u; "Phlp"%u; "Phnx"%u; "Prti"%u; "Samr"%u; "Sarb"%u; "Sogd"%u; "Sogo"%u;
    "Ugar"%u].

(** aksharamukha/GeneralMap.py:281-281 *)
Definition GM_SemiticConsonants : list str :=
  ["ʾ"%u; "b"%u; "v"%u; "g"%u; "j"%u; "d"%u; "h"%u; "w"%u;
    "z"%u; "ḥ"%u; "ṭ"%u; "y"%u; "k"%u; "l"%u; "m"%u; "n"%u;
    "s"%u; "ʿ"%u; "f"%u; "ṣ"%u; "q"%u; "r"%u; "š"%u; "t"%u;
    "ḍ"%u; "ḏ"%u; "ḫ"%u; "ġ"%u; "ṯ"%u; "ẓ"%u; "p"%u; "č"%u;
    "ž"%u; "ɖ"%u; "ʈ"%u; "ʂ"%u; "ɭ"%u; "ɲ"%u; "ɳ"%u; "ɽ"%u;
    "ʰ"%u].

(** aksharamukha/GeneralMap.py:283-283 *)
Definition GM_SemiticVowels : list str :=
  ["a"%u; "ā"%u; "i"%u; "ī"%u; "u"%u; "ū"%u; "ē"%u; "ō"%u;
    "e"%u; "o"%u; "#"%u; [0x33D]%N].

(** aksharamukha/GeneralMap.py:285-285 *)
Definition GM_semiticVowelsAll : list str :=
  ["꞉"%u; "a"%u; "ā"%u; "i"%u; "ī"%u; "u"%u; "ū"%u; "e"%u;
    "ē"%u; "o"%u; "ō"%u; "a̮"%u; [0x33D]%N; "ā̮"%u; "ĕ"%u; "ă"%u;
    "ŏ"%u; "aŷ"%u; "aŵ"%u; "a"%u; "aⁿ"%u; "uⁿ"%u; "iⁿ"%u].

(** aksharamukha/GeneralMap.py:286-286 *)
Definition GM_vowelsInitialAll : list str :=
  ["ˀā̮̂"%u; "ā̮̂"%u; "â"%u; "ā̂"%u; "î"%u; "ī̂"%u; "û"%u; "ū̂"%u;
    "ê"%u; "ē̂"%u; "ô"%u; "ō̂"%u; "âŷ"%u; "âŵ"%u; "ˀâ"%u; "ˀî"%u].

(** aksharamukha/GeneralMap.py:288-293 *)
Definition GM_semiticISO : list (str * str) :=
  [("ISO259"%u, "Hebrew"%u);
   ("HebrewSBL"%u, "Hebrew"%u);
   ("ISO233"%u, "Arab"%u);
   ("PersianDMG"%u, "Arab-Fa"%u)].

(** aksharamukha/GeneralMap.py:295-295 *)
Definition GM_ReversibleScripts : list str :=
  ["Devanagari"%u; "Tamil"%u; "Telugu"%u; "Kannada"%u; "Sinhala"%u; "Oriya"%u; "Gujarati"%u; "Bengali"%u;
    "Assamese"%u; "Malayalam"%u; "Gurmukhi"%u].

(** aksharamukha/GeneralMap.py:297-297 *)
Definition GM_RomanReversible : list str :=
  ["IAST"%u; "HK"%u; "Itrans"%u; "Velthuis"%u; "Titus"%u; "WX"%u; "RussianCyrillic"%u; "ISO"%u].

(** aksharamukha/GeneralMap.py:299-299 *)
Definition GM_CharmapLists : list str :=
  ["VowelMap"%u; "VowelSignMap"%u; "ConsonantMap"%u; "SignMap"%u; "AyogavahaMap"%u; "ModernVowelMap"%u; "ModernVowelSignMap"%u].

(** aksharamukha/GeneralMap.py:300-300 *)
Definition GM_InterAdd : list (str * str) :=
  [("VowelMap"%u, [0xF0000]%N);
   ("VowelSignMap"%u, [0xF0000]%N);
   ("ConsonantMap"%u, [0xF2000]%N);
   ("SignMap"%u, [0xF3000]%N);
   ("AyogavahaMap"%u, [0xF4000]%N);
   ("ModernVowelMap"%u, [0xF5000]%N);
   ("ModernVowelSignMap"%u, [0xF5000]%N)].
