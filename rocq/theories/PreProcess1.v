(** * PreProcess functions, part 1 (GENERATED by tools/py2coq.py from
    aksharamukha/PreProcess.py; do not edit). *)
From Coq Require Import List NArith ZArith Bool.
From Verif Require Import PyStr Regex Unicode Prog GMLists GeneralMap FixNum PostProcess1 ConvertFix1.
Import ListNotations.
Local Open Scope list_scope.

(** aksharamukha/PreProcess.py:15-16  def ItransLL(Strng) *)
Definition PrP_ItransLL : prog :=
  [].

(** aksharamukha/PreProcess.py:18-21  def RomanLoCChandrabindu(Strng) *)
Definition PrP_RomanLoCChandrabindu : prog :=
  [ReSub "n̐"%u "m̐"%u].

(** aksharamukha/PreProcess.py:23-26  def BalineseRomanLoCFix(Strng) *)
Definition PrP_BalineseRomanLoCFix : prog :=
  [Replace "‘"%u "ng̈"%u].

(** aksharamukha/PreProcess.py:28-31  def JavaneseRomanLoCFix(Strng) *)
Definition PrP_JavaneseRomanLoCFix : prog :=
  [Replace "‘"%u "ng̈"%u].

(** aksharamukha/PreProcess.py:33-38  def HindiMarathiRomanLoCFix(Strng) *)
Definition PrP_HindiMarathiRomanLoCFix : prog :=
  [Replace "sh"%u "ṣ"%u]
  ++ [Replace "ḷ"%u "ḻ"%u]
  ++ [Replace "l̤"%u "l̳"%u].

(** aksharamukha/PreProcess.py:59-62  def RomanLoCLaUnderscoreDoubleDot(Strng) *)
Definition PrP_RomanLoCLaUnderscoreDoubleDot : prog :=
  [Replace "l̤"%u "ḻ"%u].

(** aksharamukha/PreProcess.py:44-46  def RomanLoCVaWa(Strng) *)
Definition PrP_RomanLoCVaWa : prog :=
  [Replace "w"%u "v"%u].

(** aksharamukha/PreProcess.py:48-51  def RomanLoCSasha(Strng) *)
Definition PrP_RomanLoCSasha : prog :=
  [Replace "sh"%u "ṣ"%u].

(** aksharamukha/PreProcess.py:53-57  def RomanLoCSLaDotLaUnderscore(Strng) *)
Definition PrP_RomanLoCSLaDotLaUnderscore : prog :=
  [Replace "ḻ"%u "l̤"%u]
  ++ [Replace "l̳"%u "ḻ"%u].

(** aksharamukha/PreProcess.py:64-67  def MalayalamRomanLoCFix(Strng) *)
Definition PrP_MalayalamRomanLoCFix : prog :=
  [Replace "ṯṯ"%u "ṟṟ"%u]
  ++ [Replace "ȧ"%u "ŭ"%u].

(** aksharamukha/PreProcess.py:69-73  def DevanagariRomanLoCFix(Strng) *)
Definition PrP_DevanagariRomanLoCFix : prog :=
  [Replace "g̳h̳"%u "gḧ"%u]
  ++ [Replace "t̤"%u "ṭ̈"%u]
  ++ [Replace "s̤"%u "s̈"%u]
  ++ [Replace "h̤"%u "ḧ"%u].

(** aksharamukha/PreProcess.py:75-78  def IASTLDotRetroflex(Strng) *)
Definition PrP_IASTLDotRetroflex : prog :=
  [Replace "ḷ"%u "l̤"%u].

(** aksharamukha/PreProcess.py:80-82  def ArchaicJnaSimplifyRomanLOC(Strng) *)
Definition PrP_ArchaicJnaSimplifyRomanLOC : prog :=
  [Replace "ꦘ"%u "ꦚ"%u].

(** aksharamukha/PreProcess.py:84-87  def KhandaTaRomanLoC(Strng) *)
Definition PrP_KhandaTaRomanLoC : prog :=
  [Replace "ৎ"%u "ṯ"%u].

(** aksharamukha/PreProcess.py:89-93  def TibetanLoCRomanLoCFix(Strng) *)
Definition PrP_TibetanLoCRomanLoCFix : prog :=
  [ReSub "t(?![ʹhs])"%u "tʹ"%u]
  ++ [ReSub "n(?![ʹy])"%u "nʹ"%u].

(** aksharamukha/PreProcess.py:95-107  def BalineseJavaneseMoveRepha(Strng, tgt, reph) *)
Definition PrP_BalineseJavaneseMoveRepha (tgt : str) (reph : str) : prog :=
  let repha := (("("%u ++ reph) ++ ")"%u) in
  let! v1 := CrunchSymbols GM_Consonants tgt in
  let cons_ := (("("%u ++ (join "|"%u v1)) ++ ")"%u) in
  let! v2 := CrunchSymbols GM_VowelSignsNV tgt in
  let vows := (("("%u ++ (join "|"%u v2)) ++ ")"%u) in
  let! v3 := CrunchSymbols GM_virama tgt in
  let! v4 := idx v3 (0)%Z in
  let vir := v4 in
  let! v5 := CrunchSymbols GM_CombiningSigns tgt in
  let candAnu := (("["%u ++ (join [] (slice v5 None (Some (2)%Z)))) ++ "]"%u) in
  [ReSub ((("("%u ++ candAnu) ++ ")"%u) ++ repha) "\2\1"%u]
  ++ [ReSub (((((((((("("%u ++ cons_) ++ ")"%u) ++ "("%u) ++ vir) ++ cons_) ++ ")*"%u) ++ "("%u) ++ vows) ++ ")?"%u) ++ repha) "\7\1\3\5"%u].

(** aksharamukha/PreProcess.py:109-121  def DivesAkuruAlternateIndVowels(Strng) *)
Definition PrP_DivesAkuruAlternateIndVowels : prog :=
  let vow := (split " "%u "𑤁 𑤂 𑤃 𑤄 𑤅 𑤆 𑤆𑤵 𑤉 𑤀"%u) in
  let vowy := (split " "%u "𑤥𑤰 𑤥𑤱 𑤥𑤲 𑤥𑤳 𑤥𑤴 𑤥𑤵 𑤥𑤷 𑤥𑤸 𑤥"%u) in
  foreach (zip vow vowy) (fun '(v, vy) => 
    [Replace vy v]).

(** aksharamukha/PreProcess.py:123-133  def KawiMoveRepha(Strng) *)
Definition PrP_KawiMoveRepha : prog :=
  let tgt := "Kawi"%u in
  let repha := [0x11F02]%N in
  let! v1 := CrunchSymbols (GM_Consonants ++ GM_Vowels) tgt in
  let cons_ := (("("%u ++ (join "|"%u v1)) ++ ")"%u) in
  let! v2 := CrunchSymbols GM_VowelSignsNV tgt in
  let vows := (("("%u ++ (join "|"%u v2)) ++ ")"%u) in
  let vir := [0x11F42]%N in
  [ReSub ((((((((((repha ++ "(("%u) ++ cons_) ++ ")"%u) ++ "("%u) ++ vir) ++ cons_) ++ ")*"%u) ++ "("%u) ++ vows) ++ ")?)"%u) ("\1"%u ++ repha)].

(** aksharamukha/PreProcess.py:135-136  def JavaneseMoveRepha(Strng) *)
Definition PrP_JavaneseMoveRepha : prog :=
  (PrP_BalineseJavaneseMoveRepha "Javanese"%u [0xA982]%N).

(** aksharamukha/PreProcess.py:138-139  def BalineseMoveRepha(Strng) *)
Definition PrP_BalineseMoveRepha : prog :=
  (PrP_BalineseJavaneseMoveRepha "Balinese"%u [0x1B03]%N).

(** aksharamukha/PreProcess.py:141-144  def OriyaSubojinedVa(Strng) *)
Definition PrP_OriyaSubojinedVa : prog :=
  [ReSub "(??<![ମବ])(୍ବ)"%u [0xB4D; 0xB71]%N].

(** aksharamukha/PreProcess.py:146-149  def BengaliSubojinedVa(Strng) *)
Definition PrP_BengaliSubojinedVa : prog :=
  [ReSub "(?<![মব])(্ব)"%u [0x9CD; 0x9AD; 0x9BC]%N].

(** aksharamukha/PreProcess.py:151-154  def BengaliTargetVa(Strng) *)
Definition PrP_BengaliTargetVa : prog :=
  [Replace "ব"%u "ভ়"%u].

(** aksharamukha/PreProcess.py:156-159  def OriyaTargetVa(Strng) *)
Definition PrP_OriyaTargetVa : prog :=
  [Replace "ବ"%u "ୱ"%u].

(** aksharamukha/PreProcess.py:161-163  def RetainDevangariDanda(Strng) *)
Definition PrP_RetainDevangariDanda : prog :=
  [Replace "।"%u "│"%u]
  ++ [Replace "॥"%u "┃"%u].

(** aksharamukha/PreProcess.py:165-170  def RetainPipeDanda(Strng, src) *)
Definition PrP_RetainPipeDanda (src : str) : prog :=
  [Replace "।"%u "|"%u]
  ++ [Replace "॥"%u "||"%u]
  ++ [Replace "."%u "●"%u]
  ++ [Replace "||"%u "┃"%u]
  ++ [Replace "|"%u "│"%u].

(** aksharamukha/PreProcess.py:173-200  def ThamLoCRomanLoCTarget(Strng) *)
Definition PrP_ThamLoCRomanLoCTarget : prog :=
  let! v1 := CrunchSymbols GM_Consonants "ThamLoC"%u in
  let ListC := (join "|"%u v1) in
  [Replace [0x1A6E; 0x1A63]%N [0x1A70]%N]
  ++ [ReSub [0x1A74; 0x1A60; 0x1A3F]%N [0x1A74; 0x1A7F; 0x1A3F]%N]
  ++ [ReSub [0x1A71; 0x1A60; 0x1A3F]%N [0x1A71; 0x1A7F; 0x1A3F]%N]
  ++ [ReSub [0x1A60; 0x1A45; 0x1A6D]%N [0x1A7F; 0x1A45; 0x1A6D]%N]
  ++ [ReSub [0x1A60; 0x1A45; 0x1A6B]%N [0x1A7F; 0x1A45; 0x1A6B]%N]
  ++ [ReSub (("(᩠)(ᨿ|ᩅ)(?=("%u ++ ListC) ++ "))"%u) ([0x1A7F]%N ++ "\2"%u)]
  ++ [Replace [0x1A7C]%N [0x1A7A]%N]
  ++ [Replace [0x1A7A]%N [0x1A7A; 0x2BB]%N].

(** aksharamukha/PreProcess.py:202-211  def ThamLoCRomanLoCSource(Strng) *)
Definition PrP_ThamLoCRomanLoCSource : prog :=
  let! v1 := CrunchSymbols GM_Consonants "ThamLoCRomanLoC"%u in
  let ListC := (join "|"%u v1) in
  let! v2 := CrunchSymbols GM_Vowels "ThamLoCRomanLoC"%u in
  let ListV := (join "|"%u v2) in
  [ReSub (("(a|ǫḥ|ǫ|œ|ò)(?=("%u ++ ListC) ++ "))"%u) "\1ʽ"%u]
  ++ [Replace "ʻ"%u "a᩺"%u].

(** aksharamukha/PreProcess.py:213-222  def KhmerWordSplit(Strng) *)
(** Not modelled: depends on the third-party package khmernltk. *)
Definition PrP_KhmerWordSplit : prog := [Raise (External "khmernltk"%u)].

(** aksharamukha/PreProcess.py:224-251  def KhmerLoCRomanLoCTarget(Strng) *)
Definition PrP_KhmerLoCRomanLoCTarget : prog :=
  let! v1 := CrunchSymbols GM_Consonants "Khmer"%u in
  let ListC := (join "|"%u v1) in
  let! v2 := CrunchSymbols GM_VowelSigns "Khmer"%u in
  let ListV := (join "|"%u v2) in
  let! v3 := CrunchSymbols GM_CombiningSigns "Khmer"%u in
  let ListA := (join "|"%u v3) in
  let! v4 := idx (attr "EastIndic"%u "Khmer"%u "ViramaMap"%u) (0)%Z in
  let vir := v4 in
  [Replace [0x17B9]%N [0x17B7; 0x17C6; 0x2BD]%N]
  ++ [ReSub "(.)(.(្.)*)(់)"%u "\1\4\2"%u]
  ++ [ReSub "([ងញមបយរវ])(ុ)([ិឹីឺ])"%u "\1៉\3"%u]
  ++ [ReSub "([សហអ])(ុ)([ិឹីឺ])"%u "\1៊\3"%u]
  ++ [ReSub ((((((("("%u ++ ListC) ++ ")"%u) ++ "([៎៏])("%u) ++ ListV) ++ ")("%u) ++ ListA) ++ ")?"%u) "\1\3\4\2"%u]
  ++ [ReSub ((((((("("%u ++ ListC) ++ ")"%u) ++ "("%u) ++ ListV) ++ ")([៎៏៊៉])("%u) ++ ListA) ++ ")?"%u) "\1\2\4\3"%u]
  ++ [Replace "ឲ្យ"%u "ឱ្យ"%u]
  ++ [Replace "ឱ្យ"%u ("ឱ្យ"%u ++ vir)]
  ++ [ReSub "[៙៚]"%u []].

(** aksharamukha/PreProcess.py:253-262  def KhmerLoCRomanLoCSource(Strng) *)
Definition PrP_KhmerLoCRomanLoCSource : prog :=
  let listdenormalize := ["å"%u; "ẙ"%u; "à"%u; "á"%u; "é"%u; "í"%u; "ó"%u; "ú"%u; "à"%u; "è"%u; "ì"%u; "ò"%u; "ù"%u; "ă"%u] in
  foreach listdenormalize (fun let_ => 
    [Replace let_ (normalize_NFD let_)])
  ++ [ReSub "‛(?!ʹ)"%u "‛ʹ"%u]
  ++ [ReSub "oaḥ"%u "oḥ"%u].

(** aksharamukha/PreProcess.py:265-299  def ShanLoCRomanLoCTarget(Strng) *)
Definition PrP_ShanLoCRomanLoCTarget : prog :=
  [Replace [0x1082; 0x103A]%N [0x36E]%N]
  ++ [Replace [0x1062]%N [0x1083]%N]
  ++ [Replace [0x102B]%N [0x1083]%N]
  ++ [Replace [0x1083; 0x1086]%N [0x1062; 0x1086]%N]
  ++ [Replace [0x1086; 0x1062]%N [0x1062; 0x1086]%N]
  ++ [Replace [0x1086; 0x1083]%N [0x1062; 0x1086]%N]
  ++ [Replace [0x103A; 0x1039]%N [0x1039]%N]
  ++ (let yrv := ((slice (attr "EastIndic"%u "Burmese"%u "ConsonantMap"%u) (Some (25)%Z) (Some (27)%Z)) ++ (slice (attr "EastIndic"%u "Burmese"%u "ConsonantMap"%u) (Some (28)%Z) (Some (29)%Z))) in
  let yrvsub := [[0x103B]%N; [0x103C]%N; [0x1082]%N] in
  let! v1 := idx (attr "EastIndic"%u "Burmese"%u "ViramaMap"%u) (0)%Z in
  let vir := v1 in
  foreach (zip yrv yrvsub) (fun '(x, y) => 
    [Replace y ((vir ++ vir) ++ x)])
  ++ (let aThat := [0x103A]%N in
  [ReSub ("(?<!ႃ)"%u ++ aThat) (aThat ++ "ʻ"%u)]
  ++ [Replace "ဢ"%u "’ဢ"%u]
  ++ [Replace [0x1039]%N [0x103A]%N])).

(** aksharamukha/PreProcess.py:301-308  def KhuenRaHaamKaren(Strng) *)
Definition PrP_KhuenRaHaamKaren : prog :=
  [Replace [0x1A7A]%N "ᩁ᩠"%u]
  ++ [Replace [0x1A7C]%N [0x1A7A]%N].

(** aksharamukha/PreProcess.py:310-312  def ShanLoCRomanLoCSource(Strng) *)
Definition PrP_ShanLoCRomanLoCSource : prog :=
  [].

(** aksharamukha/PreProcess.py:314-350  def BurmeseRomanLoCSource(Strng) *)
Definition PrP_BurmeseRomanLoCSource : prog :=
  let chars_misc := [("e*"%u, "၏"%u); ("n*"%u, "၌"%u); ("r*"%u, "၍"%u); ("l*"%u, "၎"%u)] in
  foreach chars_misc (fun '(lat, bur) => 
    [Replace lat bur])
  ++ [Replace "ṁ"%u "ṃ"%u]
  ++ [Replace ","%u "၊"%u]
  ++ [Replace "."%u "။"%u]
  ++ [Replace "˝"%u "ʺ"%u]
  ++ [Replace "ʺ"%u "ḥ"%u]
  ++ [Replace "´"%u "ʹ"%u]
  ++ [Replace "ʹ"%u "˳"%u]
  ++ (let! v1 := CrunchSymbols GM_VowelSignsNV "IAST"%u in
  let vowelSigns := (join "|"%u v1) in
  [ReSub (("(ʼ)(a|"%u ++ vowelSigns) ++ ")"%u) ("’"%u ++ "\2"%u)]
  ++ (let! v2 := CrunchSymbols GM_Consonants "IAST"%u in
  let consonants := (join "|"%u v2) in
  [ReSub (("("%u ++ consonants) ++ ")(‘)"%u) ("\1"%u ++ "ʻ"%u)]
  ++ [Replace "o‘"%u "oʻ"%u]
  ++ [Replace "oʻ"%u "au"%u])).

(** aksharamukha/PreProcess.py:352-354  def paliTham(Strng) *)
Definition PrP_paliTham : prog :=
  [].

(** aksharamukha/PreProcess.py:356-369  def segmentThamSyllabes(Strng) *)
Definition PrP_segmentThamSyllabes : prog :=
  let myConsonant := "ᨠ-ᩌ"%u in
  let otherChar := "ᩍ-ᩔ!-/:-@[-`{-~\s"%u in
  let ssSymbol := [0x1A60]%N in
  let aThat := [0x1A7A]%N in
  let BreakPattern := (((((((((("((?<!"%u ++ ssSymbol) ++ ")["%u) ++ myConsonant) ++ "](?!["%u) ++ aThat) ++ ssSymbol) ++ "])"%u) ++ "|["%u) ++ otherChar) ++ "])"%u) in
  [ReSub BreakPattern (" "%u ++ "\1"%u)].

(** aksharamukha/PreProcess.py:371-384  def segmentBurmeseSyllables(Strng) *)
Definition PrP_segmentBurmeseSyllables : prog :=
  let myConsonant := "က-အ"%u in
  let otherChar := "ဣဤဥဦဧဩဪဿ၌၍၏၀-၉၊။!-/:-@[-`{-~\s"%u in
  let ssSymbol := [0x1039]%N in
  let aThat := [0x103A]%N in
  let BreakPattern := (((((((((("((?<!"%u ++ ssSymbol) ++ ")["%u) ++ myConsonant) ++ "](?!["%u) ++ aThat) ++ ssSymbol) ++ "])"%u) ++ "|["%u) ++ otherChar) ++ "])"%u) in
  [Replace [0x1037; 0x103A]%N [0x103A; 0x1037]%N]
  ++ [ReSub BreakPattern (" "%u ++ "\1"%u)].

(** aksharamukha/PreProcess.py:386-399  def segmentShanSyllables(Strng) *)
Definition PrP_segmentShanSyllables : prog :=
  let myConsonant := "ၵၶၷꧠငၸꧡꩡꧢၺꩦꩧꩨꩩꧣတထၻꩪၼပၽၿꧤမယရလဝသႁꩮၹၾႀဢ"%u in
  let otherChar := "႞႟႐-႙၊။!-/:-@[-`{-~\s"%u in
  let ssSymbol := [0x1039]%N in
  let aThat := [0x103A]%N in
  let BreakPattern := (((((((((("((?<!"%u ++ ssSymbol) ++ ")["%u) ++ myConsonant) ++ "](?!["%u) ++ aThat) ++ ssSymbol) ++ "])"%u) ++ "|["%u) ++ otherChar) ++ "])"%u) in
  [Replace [0x1037; 0x103A]%N [0x103A; 0x1037]%N]
  ++ [ReSub BreakPattern (" "%u ++ "\1"%u)].

(** aksharamukha/PreProcess.py:401-442  def BurmeseRomanLoCTarget(Strng) *)
Definition PrP_BurmeseRomanLoCTarget : prog :=
  [Replace [0x103A; 0x1039]%N [0x1039]%N]
  ++ [Replace [0x102D; 0x102F]%N [0x102F; 0x102D]%N]
  ++ [Replace "ဪ"%u "ဩʻ"%u]
  ++ (let yrvh := (((slice (attr "EastIndic"%u "Burmese"%u "ConsonantMap"%u) (Some (25)%Z) (Some (27)%Z)) ++ (slice (attr "EastIndic"%u "Burmese"%u "ConsonantMap"%u) (Some (28)%Z) (Some (29)%Z))) ++ (slice (attr "EastIndic"%u "Burmese"%u "ConsonantMap"%u) (Some (32)%Z) (Some (33)%Z))) in
  let yrvhsub := [[0x103B]%N; [0x103C]%N; [0x103D]%N; [0x103E]%N] in
  let! v1 := idx (attr "EastIndic"%u "Burmese"%u "ViramaMap"%u) (0)%Z in
  let vir := v1 in
  foreach (zip yrvh yrvhsub) (fun '(x, y) => 
    [Replace y ((vir ++ vir) ++ x)])
  ++ [Replace [0x1037; 0x103A]%N [0x103A; 0x1037]%N]
  ++ (let aThat := [0x103A]%N in
  [Replace aThat (aThat ++ "ʻ"%u)]
  ++ [Replace "အ"%u "’အ"%u]
  ++ (let vowDep := (split " "%u "အော် အော အိ အီ အု အူ အေ"%u) in
  let vowIndep := (split " "%u "ဪ ဩ ဣ ဤ ဥ ဦ ဧ"%u) in
  foreach (zip vowDep vowIndep) (fun '(x, y) => 
    [Replace x y])
  ++ [Replace "၊"%u ","%u]
  ++ [Replace "။"%u "."%u]))).

(** aksharamukha/PreProcess.py:444-446  def insertViramaSyriac(Strng) *)
Definition PrP_insertViramaSyriac : prog :=
  [Append [0xF001]%N].

(** aksharamukha/PreProcess.py:448-453  def BengaliSwitchYaYYa(Strng) *)
Definition PrP_BengaliSwitchYaYYa : prog :=
  [ReSub "(?<!্)য"%u "@#$"%u]
  ++ [ReSub "য়"%u "য"%u]
  ++ [Replace "@#$"%u "য়"%u].

(** aksharamukha/PreProcess.py:456-469  def removeFinalSchwaArab(Strng) *)
Definition PrP_removeFinalSchwaArab : prog :=
  let diacrtics := [[0x652]%N; [0x64E]%N; [0x650]%N; [0x64F]%N] in
  [ReSub "([ب-ه])(?![ًٌٍَُِّْى])(?=(\W|$))"%u ("\1"%u ++ [0x652]%N)]
  ++ [ReSub "([ب-ه]ّ)(?![ًٌٍَُِْى])(?=(\W|$))"%u ("\1"%u ++ [0x652]%N)]
  ++ [ReSub "(?<!ِ)([ي])(?![ًٌٍَُِّْى])(?=(\W|$))"%u ("\1"%u ++ [0x652]%N)]
  ++ [ReSub "(?<!ِ)([ي]ّ)(?![ًٌٍَُِْى])(?=(\W|$))"%u ("\1"%u ++ [0x652]%N)]
  ++ [ReSub "(?<!ُ)([و])(?![ًٌٍَُِّْى])(?=(\W|$))"%u ("\1"%u ++ [0x652]%N)]
  ++ [ReSub "(?<!ُ)([و]ّ)(?![ًٌٍَُِْى])(?=(\W|$))"%u ("\1"%u ++ [0x652]%N)].

(** aksharamukha/PreProcess.py:471-474  def AlephMaterLectionis(Strng, target='semitic') *)
Definition PrP_AlephMaterLectionis (target : str) : prog :=
  [Append [0x5CD]%N].

(** aksharamukha/PreProcess.py:477-588  def FixSemiticRoman(Strng, Source) *)
Definition PrP_FixSemiticRoman (Source : str) : prog :=
  let vir := [0x33D]%N in
  [IfIn [0x5CD]%N ((PP_AlephMaterLectionis "semitic"%u)) ([])]
  ++ [IfIn [0x5CC]%N (PP_removeSemiticLetters
  ++ (let AyinAlephInitial := [("ʾa"%u, "ʾ"%u); ("ʾā"%u, "ā̂"%u); ("ʾi"%u, "î"%u); ("ʾī"%u, "ī̂"%u); ("ʾu"%u, "û"%u); ("ʾū"%u, "ū̂"%u); ("ʾe"%u, "ê"%u); ("ʾē"%u, "ē̂"%u); ("ʾo"%u, "ô"%u); ("ʾō"%u, "ō̂"%u)] in
  foreach AyinAlephInitial (fun '(x, y) => 
    [Replace x y])
  ++ (if (str_eqb Source "Arab"%u) then ((PP_arabizeLatn "indic"%u)) else ((if (orb (str_eqb Source "Arab-Ur"%u) (orb (str_eqb Source "Arab-Pa"%u) (str_eqb Source "Arab-Fa"%u))) then ((PP_urduizeLatn "indic"%u)) else ((if (str_eqb Source "Syrn"%u) then ((PP_syricizeLatn "indic"%u)) else ((if (orb (str_eqb Source "Syrj"%u) (str_eqb Source "Hebr"%u)) then ((PP_hebraizeLatn "indic"%u)) else ([])))))))))) ([])]
  ++ [Replace [0x32A]%N []]
  ++ [Replace [0x32E]%N []]
  ++ [ReSub "([ʰ])(꞉)"%u "\2\1"%u]
  ++ [ReSub "([aiuāīū])(꞉)"%u "\2\1"%u]
  ++ [ReSub "(.)(꞉)"%u (("\1"%u ++ vir) ++ "\1"%u)]
  ++ [Replace ("ʿ"%u ++ vir) (("ʿ"%u ++ vir) ++ [0x200B]%N)]
  ++ (let cons_prev := (join "|"%u GM_SemiticConsonants) in
  (if (contains "Syr"%u Source) then (let consSyrc := (join "|"%u ["ʾ"%u; "b"%u; "v"%u; "g"%u; "ġ"%u; "d"%u; "ḏ"%u; "h"%u; "w"%u; "z"%u; "ḥ"%u; "ṭ"%u; "y"%u; "k"%u; "ḫ"%u; "l"%u; "m"%u; "n"%u; "s"%u; "ʿ"%u; "p"%u; "f"%u; "ṣ"%u; "q"%u; "r"%u; "š"%u; "t"%u; "ṯ"%u; "č"%u; "ž"%u; "j"%u]) in
  let vowelSyrc := ["a"%u; "ā"%u; "e"%u; "ē"%u; "ū"%u; "ō"%u; "ī"%u; "â"%u; "ā̂"%u; "ê"%u; "ē̂"%u] in
  let vowelsDepSyrc := (join "|"%u ["a"%u; "ā"%u; "e"%u; "ē"%u; "u"%u; "i"%u; "o"%u]) in
  let vowelsInDepSyrc1 := ["i"%u; "u"%u; "o"%u] in
  let vowelsInDepSyrc2 := ["ī̂"%u; "û"%u; "ô"%u] in
  (let pA := ([Replace "ī"%u "i"%u]
  ++ [Replace "ū"%u "u"%u]
  ++ [Replace "ō"%u "o"%u]
  ++ foreach (zip vowelsInDepSyrc1 vowelsInDepSyrc2) (fun '(vow1, vow2) => 
    [ReSub ("(?<!\w)"%u ++ vow1) vow2])
  ++ [Replace [0x302; 0x302]%N [0x302]%N]
  ++ [Replace "ô̂"%u "ô"%u]
  ++ [IfIn [0xF001]%N ([ReSub ((((("("%u ++ consSyrc) ++ ")"%u) ++ "(?!"%u) ++ vowelsDepSyrc) ++ ")"%u) ("\1"%u ++ vir)]) ([])]
  ++ [ReSub ((("(?<="%u ++ cons_prev) ++ ")"%u) ++ "a(?!̄)"%u) []]) in fold_right (fun v acc => [IfIn v pA acc]) ([]) vowelSyrc)
  ++ [Replace [0xF001]%N []]) else ([]))
  ++ (if (orb (contains "Arab"%u Source) (orb (str_eqb Source "Latn"%u) (orb (str_eqb Source "Hebr"%u) (orb (str_eqb Source "Thaa"%u) (str_eqb Source "Type"%u))))) then (let basic_vowels := (("("%u ++ (join "|"%u ["a"%u; "ā"%u; "i"%u; "ī"%u; "u"%u; "ū"%u; "ē"%u; "ō"%u; "e"%u; "o"%u; "#"%u; vir])) ++ ")"%u) in
  [ReSub (("(ŵ)(?="%u ++ basic_vowels) ++ ")"%u) "w"%u]
  ++ [ReSub (("(ŷ)(?="%u ++ basic_vowels) ++ ")"%u) "y"%u]
  ++ [ReSub ((("(?<="%u ++ cons_prev) ++ ")"%u) ++ "a(?!(ŵ|ŷ|̄|̮))"%u) []]
  ++ [ReSub ("(?<=ḧ)"%u ++ "a(?!(ŵ|ŷ|̄|̮))"%u) []]
  ++ (if (contains "Arab"%u Source) then (let simp_vow := (split " "%u "a ā i ī u ū"%u) in
  let init_vow := (split " "%u "â ā̂ î ī̂ û ū̂"%u) in
  foreach (zip simp_vow init_vow) (fun '(x, y) => 
    [ReSub ("ʔ"%u ++ x) y])
  ++ [IfIn [0x5CC]%N ([Replace "ʔ"%u []]) ([])]) else ([]))) else ([]))
  ++ (let SemiticIndic := [("ṣ"%u, "sQ"%u); ("ʿ"%u, "ʾQ"%u); ("ṭ"%u, "tQ"%u); ("ḥ"%u, "hQ"%u); ("ḍ"%u, "dQ"%u); ("p̣"%u, "pQ"%u); ("ž"%u, "šQ"%u); ("ẓ"%u, "jʰQ"%u); ("ḏ"%u, "dʰQ"%u); ("ṯ"%u, "tʰQ"%u); ("w"%u, "vQ"%u); ("ḵ"%u, "k"%u); ([0x32A]%N, []); ([0x32E]%N, []); ("a̮"%u, "ā"%u); ([0x308]%N, []); ("ĕ̂"%u, "ê"%u); ("ă̂"%u, "â"%u); ("ŏ̂"%u, "ô"%u); ("ĕ"%u, "e"%u); ("ă"%u, []); ("ŏ"%u, "o"%u); ("ḵ"%u, "k"%u); ("ʾQā"%u, "ā̂Q"%u); ("ʾQi"%u, "îQ"%u); ("ʾQī"%u, "ī̂Q"%u); ("ʾQu"%u, "ûQ"%u); ("ʾQū"%u, "ū̂Q"%u); ("ʾQe"%u, "êQ"%u); ("ʾQē"%u, "ē̂Q"%u); ("ʾQo"%u, "ôQ"%u); ("ʾQō"%u, "ō̂Q"%u); ("ⁿ"%u, "n̽"%u); ("ʾā"%u, "ā̂"%u)] in
  foreach SemiticIndic (fun '(s, i) => 
    [Replace s i])
  ++ (if (contains "Arab"%u Source) then ([ReSub "(̽)([iuā])"%u "\2"%u]
  ++ [ReSub "(̽)([a])"%u []]) else ([]))
  ++ [Replace "ʾ"%u "â"%u])).

(** aksharamukha/PreProcess.py:590-597  def perisanizeArab(Strng) *)
Definition PrP_perisanizeArab : prog :=
  let arabKafYe := (split " "%u "ك ي"%u) in
  let persKafYe := (split " "%u "ک ی"%u) in
  foreach (zip arabKafYe persKafYe) (fun '(x, y) => 
    [Replace x y]).

(** aksharamukha/PreProcess.py:599-607  def ArabizePersian(Strng) *)
Definition PrP_ArabizePersian : prog :=
  let arabKafYe := (split " "%u "ك ي"%u) in
  let persKafYe := (split " "%u "ک ی"%u) in
  foreach (zip arabKafYe persKafYe) (fun '(x, y) => 
    [Replace y x]).

(** aksharamukha/PreProcess.py:609-619  def semiticizeUrdu(Strng) *)
Definition PrP_semiticizeUrdu : prog :=
  let urduSpecific := (split " "%u "ے ڈ ٹ ہ"%u) in
  let semitic := (split " "%u "ي د ت ه"%u) in
  foreach (zip urduSpecific semitic) (fun '(x, y) => 
    [Replace x y])
  ++ [Replace "ھ"%u []].

(** aksharamukha/PreProcess.py:621-623  def ShowChillus(Strng) *)
Definition PrP_ShowChillus : prog :=
  (PP_MalayalamChillu true true).

(** aksharamukha/PreProcess.py:625-628  def ShowKhandaTa(Strng) *)
Definition PrP_ShowKhandaTa : prog :=
  [Replace "ৎ"%u "ত্ˍ"%u].

(** aksharamukha/PreProcess.py:630-632  def eiaudipthongs(Strng) *)
Definition PrP_eiaudipthongs : prog :=
  [].

(** aksharamukha/PreProcess.py:634-636  def wasvnukta(Strng) *)
Definition PrP_wasvnukta : prog :=
  [].

(** aksharamukha/PreProcess.py:638-640  def default(Strng) *)
Definition PrP_default : prog :=
  [].

(** aksharamukha/PreProcess.py:642-645  def SogdReshAyin(Strng) *)
Definition PrP_SogdReshAyin : prog :=
  [Replace "𐽀"%u [0x5B; 0xEA01; 0x2D; 0xEA02; 0x5D]%N].

(** aksharamukha/PreProcess.py:647-650  def SogoReshAyinDaleth(Strng) *)
Definition PrP_SogoReshAyinDaleth : prog :=
  [Replace "𐼘"%u [0x5B; 0xEA01; 0x2D; 0xEA02; 0x2D; 0xEA06; 0x5D]%N].

(** aksharamukha/PreProcess.py:652-655  def PhlpMemQoph(Strng) *)
Definition PrP_PhlpMemQoph : prog :=
  [Replace "𐮋"%u [0x5B; 0xEA03; 0x2D; 0xEA04; 0x5D]%N].

(** aksharamukha/PreProcess.py:657-660  def PhlpWawAyinResh(Strng) *)
Definition PrP_PhlpWawAyinResh : prog :=
  [Replace "𐮅"%u [0x5B; 0xEA05; 0x2D; 0xEA02; 0x2D; 0xEA01; 0x5D]%N].

(** aksharamukha/PreProcess.py:662-665  def PhliWawAyinResh(Strng) *)
Definition PrP_PhliWawAyinResh : prog :=
  [Replace "𐭥"%u [0x5B; 0xEA05; 0x2D; 0xEA02; 0x2D; 0xEA01; 0x5D]%N].

(** aksharamukha/PreProcess.py:667-670  def HatrDalethResh(Strng) *)
Definition PrP_HatrDalethResh : prog :=
  [Replace "𐣣"%u [0x5B; 0xEA06; 0x2D; 0xEA01; 0x5D]%N].

(** aksharamukha/PreProcess.py:672-679  def MalayalamHalfu(Strng) *)
Definition PrP_MalayalamHalfu : prog :=
  let consu := "[കചടതറനണരലവഴളറ]"%u in
  let! v1 := CrunchSymbols GM_VowelSigns "Malayalam"%u in
  let! v2 := idx v1 (0)%Z in
  let vir := v2 in
  let! v3 := CrunchSymbols GM_Consonants "Malayalam"%u in
  let consAll := (("("%u ++ (join "|"%u v3)) ++ ")"%u) in
  [ReSub (((((((("(?<="%u ++ consu) ++ ")"%u) ++ "("%u) ++ vir) ++ ")"%u) ++ "(?!"%u) ++ consAll) ++ ")"%u) ("\2"%u ++ [0xD41; 0xD4D]%N)].

(** aksharamukha/PreProcess.py:681-732  def MalayalamTranscribe(Strng) *)
Definition PrP_MalayalamTranscribe : prog :=
  PrP_MalayalamHalfu
  ++ (let script := "Malayalam"%u in
  let! v1 := CrunchList "ConsonantMap"%u script in
  let ListC := v1 in
  let! v2 := CrunchList "SouthConsonantMap"%u script in
  let ListSC := v2 in
  let! v3 := CrunchSymbols GM_VowelSigns script in
  let! v4 := idx v3 (0)%Z in
  let vir := v4 in
  let! v6 := mapR (fun x => do v5 <- idx ListC x; Ok v5) [(0)%Z; (5)%Z; (10)%Z; (15)%Z; (20)%Z] in
  let ConUnVoiced := v6 in
  let! v8 := mapR (fun x => do v7 <- idx ListC x; Ok v7) [(2)%Z; (7)%Z; (12)%Z; (17)%Z; (22)%Z] in
  let ConVoicedJ := v8 in
  let! v10 := mapR (fun x => do v9 <- idx ListC x; Ok v9) [(2)%Z; (5)%Z; (12)%Z; (17)%Z; (22)%Z] in
  let ConVoicedS := v10 in
  let! v12 := mapR (fun x => do v11 <- idx ListC x; Ok v11) [(4)%Z; (9)%Z; (14)%Z; (19)%Z; (24)%Z] in
  let ConNasalsAll := (join "|"%u v12) in
  let! v14 := mapR (fun x => do v13 <- idx ListC x; Ok v13) [(9)%Z] in
  let conNasalCa := (join "|"%u v14) in
  let ConNasalsGroup := [ConNasalsAll; conNasalCa; ConNasalsAll; ConNasalsAll; ConNasalsAll] in
  let ConMedials := (join "|"%u (((slice ListC (Some (25)%Z) (Some (28)%Z)) ++ (slice ListSC (Some (0)%Z) (Some (2)%Z))) ++ (slice ListSC (Some (3)%Z) (Some (4)%Z)))) in
  let! v15 := CrunchSymbols (GM_Vowels ++ GM_VowelSignsNV) script in
  let Vowels := (join "|"%u v15) in
  let! v16 := CrunchList "Aytham"%u script in
  let! v17 := idx v16 (0)%Z in
  let Aytham := v17 in
  let! v18 := CrunchSymbols GM_Consonants script in
  let Consonants := (join "|"%u v18) in
  let! v19 := idx ListSC (3)%Z in
  let! v20 := idx ListSC (2)%Z in
  let NRA := ((v19 ++ vir) ++ v20) in
  let! v21 := idx ListC (14)%Z in
  let! v22 := idx ListC (12)%Z in
  let! v23 := idx ListC (26)%Z in
  let NDRA := ((((v21 ++ vir) ++ v22) ++ vir) ++ v23) in
  foreach (range 0%Z (Z.of_nat (length ConUnVoiced))) (fun i => 
    let! v24 := idx ConUnVoiced i in
  let! v25 := idx ConVoicedS i in
  [ReSub (((((((((("("%u ++ Vowels) ++ "|"%u) ++ Consonants) ++ "|"%u) ++ Aytham) ++ ")"%u) ++ v24) ++ "(?!"%u) ++ vir) ++ ")"%u) ("\1"%u ++ v25)]
  ++ (let! v26 := idx ConVoicedS i in
  let! v27 := idx ConUnVoiced i in
  let! v28 := idx ConVoicedS i in
  [ReSub (((((("("%u ++ v26) ++ ")"%u) ++ v27) ++ "(?!"%u) ++ vir) ++ ")"%u) ("\1"%u ++ v28)]
  ++ (let! v29 := idx ConNasalsGroup i in
  let! v30 := idx ConUnVoiced i in
  let! v31 := idx ConVoicedJ i in
  [ReSub (((((("("%u ++ v29) ++ ")"%u) ++ "("%u) ++ vir) ++ ")"%u) ++ v30) ("\1\2"%u ++ v31)]
  ++ (let! v32 := idx ConUnVoiced i in
  let! v33 := idx ConVoicedS i in
  [ReSub ((((((((("("%u ++ ConMedials) ++ ")"%u) ++ "("%u) ++ vir) ++ ")"%u) ++ v32) ++ "(?!"%u) ++ vir) ++ ")"%u) ("\1\2"%u ++ v33)]))))
  ++ [Replace "റ്റ"%u "ട്ട"%u]
  ++ [Replace "ന്റ"%u "ണ്ഡ"%u]
  ++ [Replace [0xD02]%N "മ്"%u]).

(** aksharamukha/PreProcess.py:734-752  def retainLatin(Strng, reverse=False) *)
Definition PrP_retainLatin (reverse : bool) : prog :=
  let latn_basic_lower := "a b c d e f g h i j k l m n o p q r s t u v w x y z ḥ ṭ ṣ ʾ ʿ š ā ī ū ē ō"%u in
  let latn_basic_upper := (py_upper latn_basic_lower) in
  let latn_all := (latn_basic_lower ++ latn_basic_upper) in
  let latn_all := (split " "%u latn_all) in
  (if (negb reverse) then (foreach (enumerate latn_all) (fun '(i, c) => 
    [Replace c [Z.to_N ((60929)%Z + i)%Z]])
  ++ [Replace [0xEA01]%N "r"%u]
  ++ [Replace [0xEA02]%N "ʿ"%u]
  ++ [Replace [0xEA03]%N "m"%u]
  ++ [Replace [0xEA04]%N "q"%u]
  ++ [Replace [0xEA05]%N "w"%u]
  ++ [Replace [0xEA06]%N "d"%u]) else (foreach (enumerate latn_all) (fun '(i, c) => 
    [Replace [Z.to_N ((60929)%Z + i)%Z] c]))).

(** aksharamukha/PreProcess.py:754-798  def JapanesePreProcess(src, txt, preoptions) *)
(** Not modelled: depends on the third-party package pykakasi. *)
Definition PrP_JapanesePreProcess (src : str) (preoptions : list (str)) : prog := [Raise (External "pykakasi"%u)].

(** aksharamukha/PreProcess.py:800-804  def holamlong(Strng) *)
Definition PrP_holamlong : prog :=
  [Replace [0x5B9; 0x5BC]%N [0x5BC; 0x5B9]%N]
  ++ [ReSub "(?<!ו)ֹ"%u "וֹ"%u].

(** aksharamukha/PreProcess.py:818-822  def novowelshebrewSemitic(Strng) *)
Definition PrP_novowelshebrewSemitic : prog :=
  [Replace "כ"%u "כּ"%u]
  ++ [Replace "פ"%u "פּ"%u]
  ++ [Replace "ב"%u "בּ"%u]
  ++ [Replace "ך"%u "ךּ"%u]
  ++ [Replace "ף"%u "ףּ"%u].

(** aksharamukha/PreProcess.py:806-816  def novowelshebrewIndic(Strng) *)
Definition PrP_novowelshebrewIndic : prog :=
  PrP_novowelshebrewSemitic
  ++ (let finals := ["ך"%u; "ם"%u; "ן"%u; "ף"%u; "ץ"%u; "ףּ"%u; "ךּ"%u] in
  let otherCons := (split ","%u "ב,ח,ע,צ,ש,ת"%u) in
  let! v1 := CrunchSymbols GM_Consonants "Hebrew"%u in
  let consonantsAll := (("("%u ++ (join "|"%u (((v1 ++ finals) ++ otherCons) ++ ["׳"%u; "י"%u; "ו"%u; "א"%u]))) ++ ")"%u) in
  let! v2 := CrunchSymbols GM_VowelSigns "Hebrew"%u in
  let vowelsignsADShinG := (("("%u ++ (join "|"%u (v2 ++ [[0x5B7]%N; [0x5BC]%N; [0x5C1]%N; "׳"%u]))) ++ ")"%u) in
  [ReSub (((consonantsAll ++ "(?!"%u) ++ vowelsignsADShinG) ++ ")"%u) (("\1"%u ++ [0x5B7]%N) ++ "\2"%u)]).

(** aksharamukha/PreProcess.py:824-827  def shvanakhall(Strng) *)
Definition PrP_shvanakhall : prog :=
  [Append [0x20; 0xBDE]%N].

(** aksharamukha/PreProcess.py:829-832  def longEOISO(Strng) *)
Definition PrP_longEOISO : prog :=
  [Replace "e"%u "ē"%u]
  ++ [Replace "o"%u "ō"%u].

(** aksharamukha/PreProcess.py:834-836  def SanskritLexicaizeHK(Strng) *)
Definition PrP_SanskritLexicaizeHK : prog :=
  [].

(** aksharamukha/PreProcess.py:838-851  def ThaiPhonetic(Strng) *)
Definition PrP_ThaiPhonetic : prog :=
  [Replace "ด"%u "ท"%u]
  ++ [Replace "บ"%u "พ"%u]
  ++ [Replace "ก̥"%u "ค"%u]
  ++ [Replace "จ̥"%u "ช"%u]
  ++ [Replace "งํ"%u "ง"%u]
  ++ [Replace [0x35C]%N []]
  ++ [Replace [0xE47]%N []]
  ++ [Append "ʻʻ"%u].

(** aksharamukha/PreProcess.py:853-862  def LaoPhonetic(Strng) *)
Definition PrP_LaoPhonetic : prog :=
  [Replace "ດ"%u "ທ"%u]
  ++ [Replace "ບ"%u "ພ"%u]
  ++ [Replace "ງໍ"%u "ງ"%u]
  ++ [Replace [0x35C]%N []]
  ++ [Append "ʻʻ"%u].

(** aksharamukha/PreProcess.py:864-875  def SaurastraHaaruColonTamil(Strng) *)
Definition PrP_SaurastraHaaruColonTamil : prog :=
  [Replace "ன"%u "ந"%u]
  ++ (let! v1 := CrunchSymbols GM_VowelSigns "Tamil"%u in
  let ListVS := (join "|"%u v1) in
  [ReSub ((("("%u ++ ListVS) ++ ")"%u) ++ "(:)"%u) "\2\1"%u]
  ++ (let chars_ := "([நமரல])"%u in
  [ReSub (chars_ ++ ":"%u) ("\1"%u ++ [0xA8B4]%N)])).

(** aksharamukha/PreProcess.py:877-893  def ChakmaPali(Strng) *)
Definition PrP_ChakmaPali : prog :=
  [Replace "𑅇"%u "𑄤"%u]
  ++ [Replace "𑄠"%u "𑄡"%u]
  ++ (let! v1 := CrunchSymbols GM_Consonants "Chakma"%u in
  let listC := (("("%u ++ (join "|"%u (sort_len_desc (v1 ++ (slice (attr "MainIndic"%u "Chakma"%u "VowelMap"%u) None (Some (1)%Z)))))) ++ ")"%u) in
  let! v2 := CrunchSymbols GM_VowelSigns "Chakma"%u in
  let listV := (("("%u ++ (join "|"%u (sort_len_desc ((v2 ++ (attr "MainIndic"%u "Chakma"%u "ViramaMap"%u)) ++ [[0x11133]%N])))) ++ ")"%u) in
  [Replace "ʽ"%u []]
  ++ [Replace [0x11102]%N [0x11127]%N]
  ++ [ReSub ((((("("%u ++ listC) ++ ")"%u) ++ "(?!"%u) ++ listV) ++ ")"%u) "\1ʾ"%u]
  ++ [Replace [0x11127]%N []]
  ++ [Replace "ʾ"%u [0x11127]%N]).

(** aksharamukha/PreProcess.py:895-897  def TakriArchaicKha(Strng) *)
Definition PrP_TakriArchaicKha : prog :=
  [Replace "𑚋"%u "𑚸"%u].

(** aksharamukha/PreProcess.py:899-902  def UrduShortNotShown(Strng) *)
Definition PrP_UrduShortNotShown : prog :=
  [Append "ʻʻ"%u].

(** aksharamukha/PreProcess.py:908-914  def AnuChandraEq(Strng, script) *)
Definition PrP_AnuChandraEq (script : str) : prog :=
  let! v1 := CrunchList "AyogavahaMap"%u script in
  let! v2 := idx v1 (0)%Z in
  let Chandrabindu := v2 in
  let! v3 := CrunchList "AyogavahaMap"%u script in
  let! v4 := idx v3 (1)%Z in
  let Anusvara := v4 in
  [Replace Chandrabindu Anusvara].

(** aksharamukha/PreProcess.py:904-906  def AnuChandraEqDeva(Strng) *)
Definition PrP_AnuChandraEqDeva : prog :=
  (PrP_AnuChandraEq "Devanagari"%u).

(** aksharamukha/PreProcess.py:916-934  def TamilNumeralSub(Strng) *)
Definition PrP_TamilNumeralSub : prog :=
  let ListC := (("("%u ++ "[கசடதபஜஸ]"%u) ++ ")"%u) in
  let! v1 := CrunchSymbols GM_VowelSigns "Tamil"%u in
  let ListV := (("("%u ++ (join "|"%u v1)) ++ ")"%u) in
  [ReSub ((ListC ++ ListV) ++ "2"%u) ("\1\2"%u ++ "²"%u)]
  ++ [ReSub ((ListC ++ ListV) ++ "3"%u) ("\1\2"%u ++ "³"%u)]
  ++ [ReSub ((ListC ++ ListV) ++ "4"%u) ("\1\2"%u ++ "⁴"%u)]
  ++ [ReSub (ListC ++ "2"%u) ("\1"%u ++ "²"%u)]
  ++ [ReSub (ListC ++ "3"%u) ("\1"%u ++ "³"%u)]
  ++ [ReSub (ListC ++ "4"%u) ("\1"%u ++ "⁴"%u)]
  ++ [Replace "ரு'"%u "ருʼ"%u]
  ++ [Replace "ரு’"%u "ருʼ"%u]
  ++ [Replace "ம்'"%u "ம்ʼ"%u]
  ++ [Replace "ம்’"%u "ம்ʼ"%u].

(** aksharamukha/PreProcess.py:936-945  def swapEe(Strng) *)
Definition PrP_swapEe : prog :=
  [Replace "E"%u "X@X@"%u]
  ++ [Replace "e"%u "E"%u]
  ++ [Replace "X@X@"%u "e"%u]
  ++ [Replace "O"%u "X@X@"%u]
  ++ [Replace "o"%u "O"%u]
  ++ [Replace "X@X@"%u "o"%u].

(** aksharamukha/PreProcess.py:947-956  def swapEeItrans(Strng) *)
Definition PrP_swapEeItrans : prog :=
  [Replace "^e"%u "X@X@"%u]
  ++ [Replace "e"%u "^e"%u]
  ++ [Replace "X@X@"%u "e"%u]
  ++ [Replace "^o"%u "X@X@"%u]
  ++ [Replace "o"%u "^o"%u]
  ++ [Replace "X@X@"%u "o"%u].

(** aksharamukha/PreProcess.py:958-959  def egrantamil(Strng) *)
Definition PrP_egrantamil : prog :=
  [].

(** aksharamukha/PreProcess.py:961-962  def siddhammukta(Strng) *)
Definition PrP_siddhammukta : prog :=
  [].

(** aksharamukha/PreProcess.py:964-965  def TaiKuen(Strng) *)
Definition PrP_TaiKuen : prog :=
  [].

(** aksharamukha/PreProcess.py:967-968  def TaiThamLao(Strng) *)
Definition PrP_TaiThamLao : prog :=
  [].

(** aksharamukha/PreProcess.py:970-983  def ThaiSajjhayaOrthography(Strng) *)
Definition PrP_ThaiSajjhayaOrthography : prog :=
  let Script := "Thai"%u in
  [Replace [0xE31; 0xE07]%N [0xE31; 0xE07; 0xE3A]%N]
  ++ [Replace [0xE4C]%N [0xE3A]%N]
  ++ [Replace [0xE4E]%N [0xE3A]%N]
  ++ [Replace [0xE31]%N []].

(** aksharamukha/PreProcess.py:985-989  def ThaiSajjhayawithA(Strng) *)
Definition PrP_ThaiSajjhayawithA : prog :=
  [Replace "ะ"%u []]
  ++ PrP_ThaiSajjhayaOrthography.

(** aksharamukha/PreProcess.py:991-1000  def LaoSajhayaOrthography(Strng) *)
Definition PrP_LaoSajhayaOrthography : prog :=
  [Replace [0xEB1; 0xE87]%N [0xEB1; 0xE87; 0xEBA]%N]
  ++ [ReSub "([ເໂໄ])(.๎)([ຍຣລວຨຩສຫຬ])"%u "\2\1\3"%u]
  ++ [Replace [0xECC]%N [0xEBA]%N]
  ++ [Replace [0xE4E]%N [0xEBA]%N]
  ++ [Replace [0xEB1]%N []].

(** aksharamukha/PreProcess.py:1002-1006  def LaoSajhayaOrthographywithA(Strng) *)
Definition PrP_LaoSajhayaOrthographywithA : prog :=
  [Replace "ະ"%u []]
  ++ PrP_LaoSajhayaOrthography.

(** aksharamukha/PreProcess.py:1009-1059  def RemoveSchwaHindi(Strng, showschwa=False) *)
Definition PrP_RemoveSchwaHindi (showschwa : bool) : prog :=
  let! v1 := CrunchSymbols GM_Vowels "Devanagari"%u in
  let VowI := (("("%u ++ (join "|"%u v1)) ++ ")"%u) in
  let! v2 := CrunchSymbols GM_VowelSignsNV "Devanagari"%u in
  let VowS := (("("%u ++ (join "|"%u v2)) ++ ")"%u) in
  let! v3 := CrunchSymbols GM_Consonants "Devanagari"%u in
  let Cons := (("("%u ++ (join "|"%u v3)) ++ ")"%u) in
  let! v4 := CrunchSymbols GM_Characters "Devanagari"%u in
  let Char := (("("%u ++ (join "|"%u v4)) ++ ")"%u) in
  let Nas := "([ंःँ]?)"%u in
  let ISyl := ((((((((("(("%u ++ VowI) ++ "|"%u) ++ "("%u) ++ Cons) ++ VowS) ++ "?"%u) ++ "))"%u) ++ Nas) ++ ")"%u) in
  let Syl := ((((("(("%u ++ Cons) ++ VowS) ++ ")"%u) ++ Nas) ++ ")"%u) in
  let SylAny := (((((("(("%u ++ Cons) ++ VowS) ++ "?"%u) ++ ")"%u) ++ Nas) ++ ")"%u) in
  (if (negb showschwa) then (let vir := [0x94D]%N in
  let vir2 := [0x94D]%N in
  [ReSub ((((((ISyl ++ Cons) ++ Cons) ++ SylAny) ++ "(?!"%u) ++ Char) ++ ")"%u) (("\1\8"%u ++ vir) ++ "\9\10"%u)]
  ++ [ReSub ((((((ISyl ++ Cons) ++ Syl) ++ SylAny) ++ "(?!"%u) ++ Char) ++ ")"%u) (("\1\8"%u ++ vir) ++ "\9\15"%u)]
  ++ [ReSub (((((ISyl ++ Cons) ++ Syl) ++ "(?!"%u) ++ Char) ++ ")"%u) (("\1\8"%u ++ vir) ++ "\9"%u)]
  ++ [ReSub ((((ISyl ++ Cons) ++ "(?!"%u) ++ Char) ++ ")"%u) ("\1\8"%u ++ vir)]
  ++ (let Cons_sss := (((("(("%u ++ Cons) ++ vir) ++ ")"%u) ++ "([शषस]))"%u) in
  [ReSub ((((ISyl ++ Cons_sss) ++ "(?!"%u) ++ Char) ++ ")"%u) ("\1\8"%u ++ vir)]
  ++ (let Target := "Devanagari"%u in
  let! v7 := mapR (fun x => do v5 <- CrunchList "ConsonantMap"%u Target; do v6 <- idx v5 x; Ok v6) [(0)%Z; (2)%Z; (5)%Z; (7)%Z; (10)%Z; (12)%Z; (15)%Z; (17)%Z; (20)%Z; (22)%Z; (4)%Z; (9)%Z; (14)%Z; (19)%Z; (24)%Z; (25)%Z; (26)%Z; (27)%Z; (28)%Z; (29)%Z; (30)%Z; (31)%Z; (32)%Z] in
  let ConUnAsp := v7 in
  let! v8 := CrunchList "SouthConsonantMap"%u Target in
  let! v9 := CrunchList "NuktaConsonantMap"%u Target in
  let ConUnAsp := ((ConUnAsp ++ v8) ++ v9) in
  let! v12 := mapR (fun x => do v10 <- CrunchList "ConsonantMap"%u Target; do v11 <- idx v10 x; Ok v11) [(1)%Z; (3)%Z; (6)%Z; (8)%Z; (11)%Z; (13)%Z; (16)%Z; (18)%Z; (21)%Z; (23)%Z] in
  let ConAsp := v12 in
  [ReSub ((((((((((ISyl ++ "("%u) ++ (join "|"%u ConUnAsp)) ++ ")"%u) ++ "("%u) ++ vir) ++ ")("%u) ++ "\8"%u) ++ ")(?!"%u) ++ Char) ++ ")"%u) ("\1\8\9\10"%u ++ vir)]
  ++ foreach (range 0%Z (Z.of_nat (length ConAsp))) (fun i => 
    let! v13 := idx ConUnAsp i in
  let! v14 := idx ConAsp i in
  [ReSub ((((((((((ISyl ++ "("%u) ++ v13) ++ ")"%u) ++ "("%u) ++ vir) ++ ")"%u) ++ "("%u) ++ v14) ++ ")"%u) ++ "(?!"" + Char + "")"%u) ("\1\8\9\10"%u ++ vir)])
  ++ (let cons_pyramid := ["[यरलव]"%u; "[नमण]"%u; "[शषस]"%u; "[कखपफगघबभ]"%u; "[टठतथडढदध]"%u; "[चछजझज़]"%u] in
  foreach (enumerate cons_pyramid) (fun '(c1, cons1) => 
    foreach (enumerate cons_pyramid) (fun '(c2, cons2) => 
    (if (Z.ltb c1 c2) then (let Cons_pyr := (((((("(("%u ++ cons1) ++ vir) ++ ")"%u) ++ "("%u) ++ cons2) ++ "))"%u) in
  [ReSub ((((ISyl ++ Cons_pyr) ++ "(?!"%u) ++ Char) ++ ")"%u) ("\1\8"%u ++ vir)]) else ([]))))
  ++ [Replace vir vir2])))) else (let vir := [0x954]%N in
  let vir2 := [0x954]%N in
  [ReSub ((((((ISyl ++ Cons) ++ Cons) ++ SylAny) ++ "(?!"%u) ++ Char) ++ ")"%u) (("\1\8"%u ++ vir) ++ "\9\10"%u)]
  ++ [ReSub ((((((ISyl ++ Cons) ++ Syl) ++ SylAny) ++ "(?!"%u) ++ Char) ++ ")"%u) (("\1\8"%u ++ vir) ++ "\9\15"%u)]
  ++ [ReSub (((((ISyl ++ Cons) ++ Syl) ++ "(?!"%u) ++ Char) ++ ")"%u) (("\1\8"%u ++ vir) ++ "\9"%u)]
  ++ [ReSub ((((ISyl ++ Cons) ++ "(?!"%u) ++ Char) ++ ")"%u) ("\1\8"%u ++ vir)]
  ++ (let Cons_sss := (((("(("%u ++ Cons) ++ vir) ++ ")"%u) ++ "([शषस]))"%u) in
  [ReSub ((((ISyl ++ Cons_sss) ++ "(?!"%u) ++ Char) ++ ")"%u) ("\1\8"%u ++ vir)]
  ++ (let Target := "Devanagari"%u in
  let! v17 := mapR (fun x => do v15 <- CrunchList "ConsonantMap"%u Target; do v16 <- idx v15 x; Ok v16) [(0)%Z; (2)%Z; (5)%Z; (7)%Z; (10)%Z; (12)%Z; (15)%Z; (17)%Z; (20)%Z; (22)%Z; (4)%Z; (9)%Z; (14)%Z; (19)%Z; (24)%Z; (25)%Z; (26)%Z; (27)%Z; (28)%Z; (29)%Z; (30)%Z; (31)%Z; (32)%Z] in
  let ConUnAsp := v17 in
  let! v18 := CrunchList "SouthConsonantMap"%u Target in
  let! v19 := CrunchList "NuktaConsonantMap"%u Target in
  let ConUnAsp := ((ConUnAsp ++ v18) ++ v19) in
  let! v22 := mapR (fun x => do v20 <- CrunchList "ConsonantMap"%u Target; do v21 <- idx v20 x; Ok v21) [(1)%Z; (3)%Z; (6)%Z; (8)%Z; (11)%Z; (13)%Z; (16)%Z; (18)%Z; (21)%Z; (23)%Z] in
  let ConAsp := v22 in
  [ReSub ((((((((((ISyl ++ "("%u) ++ (join "|"%u ConUnAsp)) ++ ")"%u) ++ "("%u) ++ vir) ++ ")("%u) ++ "\8"%u) ++ ")(?!"%u) ++ Char) ++ ")"%u) ("\1\8\9\10"%u ++ vir)]
  ++ foreach (range 0%Z (Z.of_nat (length ConAsp))) (fun i => 
    let! v23 := idx ConUnAsp i in
  let! v24 := idx ConAsp i in
  [ReSub ((((((((((ISyl ++ "("%u) ++ v23) ++ ")"%u) ++ "("%u) ++ vir) ++ ")"%u) ++ "("%u) ++ v24) ++ ")"%u) ++ "(?!"" + Char + "")"%u) ("\1\8\9\10"%u ++ vir)])
  ++ (let cons_pyramid := ["[यरलव]"%u; "[नमण]"%u; "[शषस]"%u; "[कखपफगघबभ]"%u; "[टठतथडढदध]"%u; "[चछजझज़]"%u] in
  foreach (enumerate cons_pyramid) (fun '(c1, cons1) => 
    foreach (enumerate cons_pyramid) (fun '(c2, cons2) => 
    (if (Z.ltb c1 c2) then (let Cons_pyr := (((((("(("%u ++ cons1) ++ vir) ++ ")"%u) ++ "("%u) ++ cons2) ++ "))"%u) in
  [ReSub ((((ISyl ++ Cons_pyr) ++ "(?!"%u) ++ Char) ++ ")"%u) ("\1\8"%u ++ vir)]) else ([]))))
  ++ [Replace vir vir2]))))).

(** aksharamukha/PreProcess.py:1062-1095  def RemoveFinal(Strng, Target) *)
Definition PrP_RemoveFinal (Target : str) : prog :=
  (if (str_eqb Target "Bengali"%u) then ((PP_KhandaTa Target true)) else ([]))
  ++ (let! v1 := CrunchSymbols GM_Vowels Target in
  let VowI := (("("%u ++ (join "|"%u v1)) ++ ")"%u) in
  let! v2 := CrunchSymbols GM_VowelSignsNV Target in
  let VowS := (("("%u ++ (join "|"%u v2)) ++ ")"%u) in
  let! v3 := CrunchSymbols GM_Consonants Target in
  let Cons := (("("%u ++ (join "|"%u v3)) ++ ")"%u) in
  let! v4 := CrunchSymbols GM_Characters Target in
  let Char := (("("%u ++ (join "|"%u v4)) ++ ")"%u) in
  let! v5 := CrunchList "AyogavahaMap"%u Target in
  let Nas := (("(["%u ++ (join "|"%u v5)) ++ "]?)"%u) in
  let ISyl := ((((((((("(("%u ++ VowI) ++ "|"%u) ++ "("%u) ++ Cons) ++ VowS) ++ "?"%u) ++ ")"%u) ++ Nas) ++ "))"%u) in
  let Syl := ((((("(("%u ++ Cons) ++ VowS) ++ ")"%u) ++ Nas) ++ ")"%u) in
  let SylAny := (((((("(("%u ++ Cons) ++ VowS) ++ "?"%u) ++ ")"%u) ++ Nas) ++ ")"%u) in
  let! v6 := CrunchList "ViramaMap"%u Target in
  let! v7 := idx v6 (0)%Z in
  let vir := v7 in
  (if (negb (str_eqb Target "Bengali"%u)) then (let Cons2 := ((((("(("%u ++ Cons) ++ vir) ++ ")?"%u) ++ Cons) ++ ")"%u) in
  (if (orb (str_eqb Target "Khmer"%u) (str_eqb Target "KhmerLoC"%u)) then (let! v8 := CrunchSymbols (sort_len_desc GM_Consonants) Target in
  let ListC := (join "|"%u v8) in
  let! v9 := idx (attr "EastIndic"%u "Khmer"%u "ConsonantMap"%u) (26)%Z in
  let ra := v9 in
  [ReSub ((("("%u ++ ListC) ++ ")"%u) ++ [0x17CC]%N) ((ra ++ [0x17D2]%N) ++ "\1"%u)]
  ++ [ReSub (((((((ISyl ++ "("%u) ++ ListC) ++ ")"%u) ++ "(((្)"%u) ++ "("%u) ++ ListC) ++ [0x29; 0x29; 0x2A; 0x29; 0x28; 0x5B; 0x17CD; 0x17CE; 0x17CF; 0x5D; 0x3F; 0x29; 0x28; 0x3F; 0x3D; 0x5B; 0x5C; 0x73; 0xA; 0x5D; 0x29]%N) (("\1\8\9"%u ++ vir) ++ "\13"%u)]
  ++ [ReSub (((((((ISyl ++ "("%u) ++ ListC) ++ ")"%u) ++ "(((្)"%u) ++ "("%u) ++ ListC) ++ "))*)([៍៎៏]?)$"%u) (("\1\8\9"%u ++ vir) ++ "\13"%u)]) else ([ReSub ((((ISyl ++ Cons2) ++ "(?!"%u) ++ Char) ++ ")"%u) ("\1\8"%u ++ vir)]
  ++ [ReSub ((((ISyl ++ Cons2) ++ "(?!"%u) ++ Char) ++ ")"%u) ("\1\8"%u ++ vir)]))) else (let Cons2 := (("(()?"%u ++ Cons) ++ ")"%u) in
  (if (orb (str_eqb Target "Khmer"%u) (str_eqb Target "KhmerLoC"%u)) then (let! v10 := CrunchSymbols (sort_len_desc GM_Consonants) Target in
  let ListC := (join "|"%u v10) in
  let! v11 := idx (attr "EastIndic"%u "Khmer"%u "ConsonantMap"%u) (26)%Z in
  let ra := v11 in
  [ReSub ((("("%u ++ ListC) ++ ")"%u) ++ [0x17CC]%N) ((ra ++ [0x17D2]%N) ++ "\1"%u)]
  ++ [ReSub (((((((ISyl ++ "("%u) ++ ListC) ++ ")"%u) ++ "(((្)"%u) ++ "("%u) ++ ListC) ++ [0x29; 0x29; 0x2A; 0x29; 0x28; 0x5B; 0x17CD; 0x17CE; 0x17CF; 0x5D; 0x3F; 0x29; 0x28; 0x3F; 0x3D; 0x5B; 0x5C; 0x73; 0xA; 0x5D; 0x29]%N) (("\1\8\9"%u ++ vir) ++ "\13"%u)]
  ++ [ReSub (((((((ISyl ++ "("%u) ++ ListC) ++ ")"%u) ++ "(((្)"%u) ++ "("%u) ++ ListC) ++ "))*)([៍៎៏]?)$"%u) (("\1\8\9"%u ++ vir) ++ "\13"%u)]) else ([ReSub ((((ISyl ++ Cons2) ++ "(?!"%u) ++ Char) ++ ")"%u) ("\1\8"%u ++ vir)]
  ++ [ReSub ((((ISyl ++ Cons2) ++ "(?!"%u) ++ Char) ++ ")"%u) ("\1\8"%u ++ vir)]))))).

(** aksharamukha/PreProcess.py:1097-1101  def SchwaFinalGurmukhi(Strng) *)
Definition PrP_SchwaFinalGurmukhi : prog :=
  (PrP_RemoveFinal "Gurmukhi"%u).

(** aksharamukha/PreProcess.py:1103-1107  def SchwaFinalGujarati(Strng) *)
Definition PrP_SchwaFinalGujarati : prog :=
  (PrP_RemoveFinal "Gujarati"%u).

(** aksharamukha/PreProcess.py:1109-1113  def SchwaFinalBengali(Strng) *)
Definition PrP_SchwaFinalBengali : prog :=
  (PrP_RemoveFinal "Bengali"%u).

(** aksharamukha/PreProcess.py:1115-1119  def SchwaFinalKhmerLoC(Strng) *)
Definition PrP_SchwaFinalKhmerLoC : prog :=
  (PrP_RemoveFinal "KhmerLoC"%u).

(** aksharamukha/PreProcess.py:1121-1125  def SchwaFinalKhmer(Strng) *)
Definition PrP_SchwaFinalKhmer : prog :=
  (PrP_RemoveFinal "Khmer"%u).

(** aksharamukha/PreProcess.py:1127-1146  def SchwaFinalWarangCiti(Strng) *)
Definition PrP_SchwaFinalWarangCiti : prog :=
  let Target := "WarangCiti"%u in
  let! v1 := CrunchSymbols GM_Vowels Target in
  let VowI := (("("%u ++ (join "|"%u v1)) ++ ")"%u) in
  let! v2 := CrunchSymbols GM_VowelSignsNV Target in
  let VowS := (("("%u ++ (join "|"%u v2)) ++ ")"%u) in
  let! v3 := CrunchSymbols GM_Consonants Target in
  let Cons := (("("%u ++ (join "|"%u v3)) ++ ")"%u) in
  let! v4 := CrunchSymbols GM_Characters Target in
  let Char := (("("%u ++ (join "|"%u v4)) ++ ")"%u) in
  let! v5 := CrunchList "AyogavahaMap"%u Target in
  let Nas := (("(["%u ++ (join "|"%u v5)) ++ "]?)"%u) in
  let ISyl := ((((((((("(("%u ++ VowI) ++ "|"%u) ++ "("%u) ++ Cons) ++ VowS) ++ "?"%u) ++ ")"%u) ++ Nas) ++ "))"%u) in
  let Syl := ((((("(("%u ++ Cons) ++ VowS) ++ ")"%u) ++ Nas) ++ ")"%u) in
  let SylAny := (((((("(("%u ++ Cons) ++ VowS) ++ "?"%u) ++ ")"%u) ++ Nas) ++ ")"%u) in
  let vir := "ʻ"%u in
  let Cons2 := ((((("(("%u ++ Cons) ++ vir) ++ ")?"%u) ++ Cons) ++ ")"%u) in
  [ReSub ((((ISyl ++ Cons2) ++ "(?!"%u) ++ Char) ++ ")"%u) ("\1\8"%u ++ vir)].

(** aksharamukha/PreProcess.py:1148-1149  def siddhamUnicode(Strng) *)
Definition PrP_siddhamUnicode : prog :=
  [].

(** aksharamukha/PreProcess.py:1151-1154  def ThaiOrthography(Strng) *)
Definition PrP_ThaiOrthography : prog :=
  [Append "ʻʻ"%u].

(** aksharamukha/PreProcess.py:1156-1159  def LaoTranscription(Strng) *)
Definition PrP_LaoTranscription : prog :=
  [Append "ʻʻ"%u].

(** aksharamukha/PreProcess.py:1161-1168  def LimbuDevanagariConvention(Strng) *)
Definition PrP_LimbuDevanagariConvention : prog :=
  [Replace "ए़"%u "ऎ"%u]
  ++ [Replace "ओ़"%u "ऒ"%u]
  ++ [Replace [0x947; 0x93C]%N [0x946]%N]
  ++ [Replace [0x94B; 0x93C]%N [0x94A]%N]
  ++ [Replace [0x903]%N "꞉"%u].

(** aksharamukha/PreProcess.py:1170-1179  def LimbuSpellingSaI(Strng) *)
Definition PrP_LimbuSpellingSaI : prog :=
  let! v1 := idx (attr "MainIndic"%u "Limbu"%u "ViramaMap"%u) (0)%Z in
  let vir := v1 in
  let! v3 := mapR (fun x => do v2 <- idx (attr "MainIndic"%u "Limbu"%u "ConsonantMap"%u) x; Ok v2) [(0)%Z; (4)%Z; (15)%Z; (19)%Z; (20)%Z; (24)%Z; (26)%Z; (27)%Z] in
  let FCons := (map (fun x => (x ++ vir)) v3) in
  let FinalCons := [[0x1930]%N; [0x1931]%N; [0x1933]%N; [0x1934]%N; [0x1935]%N; [0x1936]%N; [0x1937]%N; [0x1938]%N] in
  foreach (zip FCons FinalCons) (fun '(x, y) => 
    [Replace x ([0x193A]%N ++ y)]).

(** aksharamukha/PreProcess.py:1182-1197  def removeChillus(Strng) *)
Definition PrP_removeChillus : prog :=
  let Chillus := ["ൺ"%u; "ൻ"%u; "ർ"%u; "ൽ"%u; "ൾ"%u] in
  let! v1 := idx (attr "MainIndic"%u "Malayalam"%u "ViramaMap"%u) (0)%Z in
  let vir := v1 in
  let! v2 := idx (attr "MainIndic"%u "Malayalam"%u "ConsonantMap"%u) (14)%Z in
  let! v3 := idx (attr "MainIndic"%u "Malayalam"%u "ConsonantMap"%u) (19)%Z in
  let! v4 := idx (attr "MainIndic"%u "Malayalam"%u "ConsonantMap"%u) (26)%Z in
  let! v5 := idx (attr "MainIndic"%u "Malayalam"%u "ConsonantMap"%u) (27)%Z in
  let! v6 := idx (attr "MainIndic"%u "Malayalam"%u "SouthConsonantMap"%u) (0)%Z in
  let ConVir := [(v2 ++ vir); (v3 ++ vir); (v4 ++ vir); (v5 ++ vir); (v6 ++ vir)] in
  foreach (zip Chillus ConVir) (fun '(x, y) => 
    [Replace x y]).

(** aksharamukha/PreProcess.py:1199-1202  def SinhalaPali(Strng) *)
Definition PrP_SinhalaPali : prog :=
  (PP_SinhalaPali true).

(** aksharamukha/PreProcess.py:1204-1207  def IASTPali(Strng) *)
Definition PrP_IASTPali : prog :=
  [Replace "ḷ"%u "l̤"%u].

(** aksharamukha/PreProcess.py:1209-1212  def CyrillicPali(Strng) *)
Definition PrP_CyrillicPali : prog :=
  [Replace "л̣"%u "л̤"%u].

(** aksharamukha/PreProcess.py:1214-1219  def MalayalamPrakrit(Strng) *)
Definition PrP_MalayalamPrakrit : prog :=
  (PP_ReverseGeminationSign "Malayalam"%u)
  ++ [Replace [0xD00]%N [0xD02]%N].

(** aksharamukha/PreProcess.py:1221-1227  def GranthaPrakrit(Strng) *)
Definition PrP_GranthaPrakrit : prog :=
  (PP_ReverseGeminationSign "Grantha"%u)
  ++ [Replace [0x11300]%N [0x11302]%N].

(** aksharamukha/PreProcess.py:1229-1255  def RomanPreFix(Strng, Source) *)
Definition PrP_RomanPreFix (Source : str) : prog :=
  let DepV := "ṿ"%u in
  let Asp := "ʰ"%u in
  let! v1 := CrunchList "ViramaMap"%u Source in
  let! v2 := idx v1 (0)%Z in
  let Vir := v2 in
  let! v3 := CrunchList "NuktaMap"%u Source in
  let! v4 := idx v3 (0)%Z in
  let Nuk := v4 in
  let! v5 := CrunchSymbols ["VowelMap"%u] Source in
  let! v6 := idx v5 (0)%Z in
  let VowelA := v6 in
  let! v7 := CrunchSymbols GM_VowelSigns Source in
  let ListV := (join "|"%u v7) in
  let! v8 := CrunchSymbols GM_Consonants Source in
  let ListC := (join "|"%u v8) in
  [ReSub ((((((("("%u ++ ListC) ++ ")"%u) ++ "(?!"%u) ++ ListV) ++ "|"%u) ++ VowelA) ++ ")"%u) (("\1"%u ++ DepV) ++ Vir)]
  ++ [ReSub ((((((("("%u ++ ListC) ++ "|"%u) ++ Nuk) ++ ")"%u) ++ "("%u) ++ ListV) ++ ")"%u) (("\1"%u ++ DepV) ++ "\2"%u)]
  ++ [ReSub ((((("(?<="%u ++ ListC) ++ ")"%u) ++ "("%u) ++ VowelA) ++ ")"%u) []]
  ++ [Replace (((DepV ++ Vir) ++ Nuk) ++ VowelA) Nuk]
  ++ [ReSub (((((DepV ++ Vir) ++ Nuk) ++ "(?=["%u) ++ DepV) ++ "])"%u) Nuk]
  ++ [Replace ((DepV ++ Vir) ++ Nuk) ((Nuk ++ DepV) ++ Vir)].

(** aksharamukha/PreProcess.py:1257-1264  def joinVowelCons(Strng, script) *)
Definition PrP_joinVowelCons (script : str) : prog :=
  let! v1 := CrunchSymbols GM_Consonants script in
  let consonantsAll := (("("%u ++ (join "|"%u (sort_len_desc v1))) ++ ")"%u) in
  let! v2 := CrunchSymbols GM_Vowels script in
  let vowelsAll := (("("%u ++ (join "|"%u (sort_len_desc v2))) ++ ")"%u) in
  [ReSub ((consonantsAll ++ " "%u) ++ vowelsAll) "\1\2"%u]
  ++ [ReSub ((consonantsAll ++ " "%u) ++ consonantsAll) "\1\2"%u].

(** aksharamukha/PreProcess.py:1266-1267  def joinVowelConsIAST(Strng) *)
Definition PrP_joinVowelConsIAST : prog :=
  (PrP_joinVowelCons "IAST"%u).

(** aksharamukha/PreProcess.py:1269-1270  def joinVowelConsISO(Strng) *)
Definition PrP_joinVowelConsISO : prog :=
  (PrP_joinVowelCons "ISO"%u).

(** aksharamukha/PreProcess.py:1495-1666  def normalize(Strng, Source) *)
Definition PrP_normalize (Source : str) : prog :=
  let nuktaDecom := ["क़"%u; "ख़"%u; "ग़"%u; "ज़"%u; "ड़"%u; "ढ़"%u; "फ़"%u; "य़"%u; "ਲ਼"%u; "ਸ਼"%u; "ਖ਼"%u; "ਗ਼"%u; "ਜ਼"%u; "ਫ਼"%u; "ড়"%u; "ঢ়"%u; "য়"%u; "ଡ଼"%u; "ଢ଼"%u] in
  let nuktaPrecom := ["क़"%u; "ख़"%u; "ग़"%u; "ज़"%u; "ड़"%u; "ढ़"%u; "फ़"%u; "य़"%u; "ਲ਼"%u; "ਸ਼"%u; "ਖ਼"%u; "ਗ਼"%u; "ਜ਼"%u; "ਫ਼"%u; "ড়"%u; "ঢ়"%u; "য়"%u; "ଡ଼"%u; "ଢ଼"%u] in
  (if (negb (mem Source ["Grantha"%u; "TamilGrantha"%u])) then (foreach (zip nuktaDecom nuktaPrecom) (fun '(x, y) => 
    [Replace x y])) else ([]))
  ++ (if (mem Source ["IAST"%u; "ISO"%u; "ISOPali"%u; "Titus"%u; "IASTPali"%u]) then ([Replace "ü"%u "uʼ"%u]
  ++ [Replace "ǖ"%u "ūʼ"%u]
  ++ [Replace "ö"%u "aʼ"%u]
  ++ [Replace "ȫ"%u "āʼ"%u]) else ([]))
  ++ (if (orb (mem Source ["IAST"%u; "ISO"%u; "ISOPali"%u; "IASTPali"%u; "Titus"%u]) (contains "RomanLoC"%u Source)) then ([Norm true]
  ++ [Replace "ẗ"%u "ẗ"%u]
  ++ [Replace "ÿ"%u "ÿ"%u]
  ++ [Replace "ḧ"%u "ḧ"%u]
  ++ (if (contains "RomanLoC"%u Source) then ([Replace "˙"%u "˚"%u]) else ([]))) else ([]))
  ++ (if (orb (str_eqb Source "Arab-Ur"%u) (str_eqb Source "Arab-Pa"%u)) then ([Replace "ك"%u "ک"%u]
  ++ [Replace "ي"%u "ی"%u]) else ([]))
  ++ (if (str_eqb Source "Hebr"%u) then (let vowels := [[0x5B0]%N; [0x5B1]%N; [0x5B2]%N; [0x5B3]%N; [0x5B4]%N; [0x5B5]%N; [0x5B6]%N; [0x5B7]%N; [0x5B8]%N; [0x5B9]%N; [0x5BA]%N; [0x5BB]%N; [0x5C7]%N] in
  let vowelsR := (("("%u ++ (join "|"%u (vowels ++ ["וֹ"%u; "וּ"%u]))) ++ ")"%u) in
  [ReSub (vowelsR ++ "([ּׁׂ])"%u) "\2\1"%u]
  ++ [Replace [0x5BC; 0x5B0; 0x5C1]%N [0x5C1; 0x5BC; 0x5B0]%N]) else ([]))
  ++ (let chilluZwj := [[0xD23; 0xD4D; 0x200D]%N; [0xD28; 0xD4D; 0x200D]%N; [0xD30; 0xD4D; 0x200D]%N; [0xD32; 0xD4D; 0x200D]%N; [0xD33; 0xD4D; 0x200D]%N; [0xD15; 0xD4D; 0x200D]%N] in
  let chilluAtom := ["ൺ"%u; "ൻ"%u; "ർ"%u; "ൽ"%u; "ൾ"%u; "ൿ"%u] in
  foreach (zip chilluZwj chilluAtom) (fun '(x, y) => 
    [Replace x y])
  ++ [Replace [0xD4C]%N [0xD57]%N]
  ++ [Replace "ൟ"%u "ഈ"%u]
  ++ [Replace "ൎ"%u "ര്"%u]
  ++ [Replace "ൻ്റ"%u "ന്റ"%u]
  ++ [Replace "ೝ"%u "ನ್"%u]
  ++ [Replace "ౝ"%u "న్"%u]
  ++ (let tamAlt := ["ஸ்ரீ"%u; [0xB95; 0xBCD; 0x200C; 0xBB7]%N; [0xBB0; 0x200C; 0xBBF]%N; [0xBB0; 0x200C; 0xBC0]%N] in
  let tamNorm := ["ஶ்ரீ"%u; "க்ஷ"%u; "ரி"%u; "ரீ"%u] in
  [Replace "ဿ"%u "သ္သ"%u]
  ++ (let subNum := ["¹"%u; "₁"%u; "₂"%u; "₃"%u; "₄"%u] in
  let supNum := [[]; []; "²"%u; "³"%u; "⁴"%u] in
  foreach (zip (tamAlt ++ subNum) (tamNorm ++ supNum)) (fun '(x, y) => 
    [Replace x y])
  ++ (let oldVow := [[0xF76]%N; [0xF77]%N; [0xF78]%N; [0xF79]%N; [0xF73]%N; [0xF75]%N; "ཀྵ"%u; [0xFB9]%N] in
  let newVow := [[0xFB2; 0xF80]%N; [0xFB2; 0xF71; 0xF80]%N; [0xFB3; 0xF80]%N; [0xFB3; 0xF71; 0xF80]%N; [0xF71; 0xF72]%N; [0xF71; 0xF74]%N; "ཀྵ"%u; [0xF90; 0xFB5]%N] in
  foreach (zip oldVow newVow) (fun '(x, y) => 
    [Replace x y])
  ++ (let latinDecom := ["ā"%u; "ī"%u; "ū"%u; "ē"%u; "ō"%u; "ṃ"%u; "ṁ"%u; "ḥ"%u; "ś"%u; "ṣ"%u; "ṇ"%u; "ṛ"%u; "ṝ"%u; "ḷ"%u; "ḹ"%u; "ḻ"%u; "ṉ"%u; "ṟ"%u] in
  let latinPrecom := ["ā"%u; "ī"%u; "ū"%u; "ē"%u; "ō"%u; "ṃ"%u; "ṁ"%u; "ḥ"%u; "ś"%u; "ṣ"%u; "ṇ"%u; "ṛ"%u; "ṝ"%u; "ḷ"%u; "ḹ"%u; "ḻ"%u; "ṉ"%u; "ṟ"%u] in
  foreach (zip latinDecom latinPrecom) (fun '(x, y) => 
    [Replace x y])
  ++ [Replace [0xE4D; 0xE32]%N "ำ"%u]
  ++ [Replace [0xECD; 0xEB2]%N "ຳ"%u]
  ++ [Replace "।।"%u "॥"%u]
  ++ [Replace [0x1920; 0x193A; 0x1923]%N [0x1920; 0x1923; 0x193A]%N]
  ++ [Replace [0x193A; 0x1923]%N [0x1923; 0x193A]%N]
  ++ [Replace [0x1920; 0x1923]%N [0x1925]%N]
  ++ [Replace "ฎ"%u "ฏ"%u]
  ++ [Replace [0x1134C]%N [0x11357]%N]
  ++ [Replace [0xF82]%N [0xF83]%N]
  ++ [Replace "ॲ"%u "ऍ"%u]
  ++ [Replace [0x9C7; 0x9BE]%N [0x9CB]%N]
  ++ [Replace [0x9BE; 0x9C7]%N [0x9CB]%N]
  ++ [Replace [0x9C7; 0x9D7]%N [0x9CC]%N]
  ++ [Replace [0x9D7; 0x9C7]%N [0x9CC]%N]
  ++ [Replace [0xBC6; 0xBBE]%N [0xBCA]%N]
  ++ [Replace [0xBBE; 0xBC6]%N [0xBCA]%N]
  ++ [Replace [0xBC7; 0xBBE]%N [0xBCB]%N]
  ++ [Replace [0xBBE; 0xBC7]%N [0xBCB]%N]
  ++ [Replace [0xBC6; 0xBD7]%N [0xBCC]%N]
  ++ [Replace [0xBD7; 0xBC6]%N [0xBCC]%N]
  ++ [Replace [0xD46; 0xD3E]%N [0xD4A]%N]
  ++ [Replace [0xD3E; 0xD46]%N [0xD4A]%N]
  ++ [Replace [0xD47; 0xD3E]%N [0xD4B]%N]
  ++ [Replace [0xD3E; 0xD47]%N [0xD4B]%N]
  ++ [Replace [0x11347; 0x1133E]%N [0x1134B]%N]
  ++ [Replace [0x1133E; 0x11347]%N [0x1134B]%N]))))).

(** aksharamukha/PreProcess.py:1272-1402  def PreProcess(Strng, Source, Target, postoptions, preoptions) *)
Definition PrP_PreProcess (Source : str) (Target : str) (postoptions : list (str)) (preoptions : list (str)) : prog :=
  (if (orb (mem Source GM_RomanDiacritic) (str_eqb Source "Latn"%u)) then ([Lower]) else ([]))
  ++ (if (mem Source GM_pipeScripts) then ([IfIn "|"%u ([Replace "."%u "●"%u]
  ++ [Replace "।"%u "|"%u]
  ++ [Replace "॥"%u "||"%u]
  ++ [Replace "|"%u "."%u]
  ++ [Replace "||"%u ".."%u]) ([])]
  ++ (if (str_eqb Source "Itrans"%u) then ([ReSub "●([acCDN])"%u ("."%u ++ "\1"%u)]) else ((if (str_eqb Source "Velthuis"%u) then ([ReSub "●([rRlLmhtdnTDsyg])"%u ("."%u ++ "\1"%u)]
  ++ [ReSub "●●([lr])"%u ("."%u ++ "\1"%u)]) else ([]))))) else ([]))
  ++ (if (contains "Arab"%u Source) then ([ReSub "([وي])(?=[ًٌٍَُِّ])"%u ("˞"%u ++ "\1"%u)]) else ([]))
  ++ (if (mem Source ["Syrj"%u; "Syrn"%u]) then ([Replace [0x323]%N [0x742]%N]) else ([]))
  ++ (if (str_eqb Source "Itrans"%u) then (let sOm := "OM"%u in
  let tOm := "oM"%u in
  let! v1 := CrunchSymbols GM_Signs Source in
  let punc := (("("%u ++ (join "|"%u (((map (fun x => ("\"%u ++ x)) (chars punctuation)) ++ ["\s"%u]) ++ (map (fun x => (replace "."%u "\."%u x)) (slice v1 (Some (1)%Z) (Some (3)%Z)))))) ++ ")"%u) in
  [ReSub ((punc ++ sOm) ++ punc) (("\1"%u ++ tOm) ++ "\2"%u)]
  ++ [ReSub (("^"%u ++ sOm) ++ punc) (tOm ++ "\1"%u)]
  ++ [ReSub ((punc ++ sOm) ++ "$"%u) ("\1"%u ++ tOm)]
  ++ [ReSub (("^"%u ++ sOm) ++ "$"%u) tOm]
  ++ (let punc := "(\s)"%u in
  [ReSub ((punc ++ sOm) ++ punc) (("\1"%u ++ tOm) ++ "\2"%u)]
  ++ [ReSub (("^"%u ++ sOm) ++ punc) (tOm ++ "\1"%u)]
  ++ [ReSub ((punc ++ sOm) ++ "$"%u) ("\1"%u ++ tOm)]
  ++ [ReSub (("^"%u ++ sOm) ++ "$"%u) tOm]
  ++ [ReSub "([aAiuUeoEO])([R]){2}([iI])"%u (((("\1"%u ++ "\2"%u) ++ "_"%u) ++ "\2"%u) ++ "\3"%u)]
  ++ [ReSub "([aAiuUeoEO])([L]){2}([iI])"%u (((("\1"%u ++ "\2"%u) ++ "_"%u) ++ "\2"%u) ++ "\3"%u)]
  ++ (let AltForm := ["O"%u; "aa"%u; "ii"%u; "uu"%u; "RRi"%u; "RRI"%u; "LLi"%u; "LLI"%u; "N^"%u; "JN"%u; "chh"%u; "shh"%u; "x"%u; "GY"%u; ".n"%u; ".m"%u; ".h"%u; "AUM"%u; "E"%u; "J"%u; "c.o"%u; "c.e"%u] in
  let NormForm := ["^o"%u; "A"%u; "I"%u; "U"%u; "R^i"%u; "R^I"%u; "L^i"%u; "L^I"%u; "~N"%u; "~n"%u; "Ch"%u; "Sh"%u; "kSh"%u; "j~n"%u; "M"%u; "M"%u; []; "oM"%u; "^e"%u; "z"%u; "A.c"%u; "e.c"%u] in
  foreach (zip AltForm NormForm) (fun '(x, y) => 
    [Replace x y])
  ++ (let AltForms := [("ee"%u, "I"%u); ("dny"%u, "j~n"%u); ("oo"%u, "U"%u); ("kS"%u, "kSh"%u); ("w"%u, "v"%u); ("|"%u, "."%u); ("kShh"%u, "kSh"%u)] in
  foreach AltForms (fun '(x, y) => 
    [Replace x y])
  ++ [Replace "OM"%u "oM"%u])))) else ([]))
  ++ (if (orb (str_eqb Source "BarahaNorth"%u) (str_eqb Source "BarahaSouth"%u)) then (let alt_baraha := [("A"%u, "aa"%u); ("I"%u, "ee"%u); ("U"%u, "oo"%u); ("~loo"%u, "~lU"%u); ("Roo"%u, "RU"%u); ("ou"%u, "au"%u); ("K"%u, "kh"%u); ("G"%u, "gh"%u); ("ch"%u, "c"%u); ("Ch"%u, "C"%u); ("J"%u, "jh"%u); ("P"%u, "ph"%u); ("B"%u, "bh"%u); ("w"%u, "v"%u); ("sh"%u, "S"%u); ("~h"%u, "_h"%u); ("Y"%u, "yx"%u); ("^^"%u, "{}"%u); ("^"%u, "()"%u); ("tx"%u, "rx"%u); ("zh"%u, "Lx"%u); ("~e"%u, "~a"%u); ("q"%u, "\_"%u); ("#"%u, "\'"%u); ("$"%u, "\"""%u)] in
  foreach alt_baraha (fun '(alt, norm) => 
    [Replace alt norm])
  ++ (if (str_eqb Target "Tamil"%u) then ([Replace "n"%u "nx"%u]
  ++ [Replace "~nx"%u "n"%u]) else ([]))) else ([]))
  ++ (if (contains "IAST"%u Source) then ([Replace "aï"%u "a_i"%u]
  ++ [Replace "aü"%u "a_u"%u]
  ++ [Replace [0x303]%N "ṃ"%u]) else ([]))
  ++ (if (contains "ISO"%u Source) then ([Replace "a:i"%u "a_i"%u]
  ++ [Replace "a:u"%u "a_u"%u]
  ++ [Replace [0x303]%N "ṁ"%u]
  ++ [Replace "ṃ"%u "ṁ"%u]) else ([]))
  ++ (if (str_eqb Source "Titus"%u) then ([]) else ([]))
  ++ (if (orb (str_eqb Source "ISO"%u) (orb (str_eqb Source "IAST"%u) (orb (str_eqb Source "Titus"%u) (negb (Nat.eqb (length "RussianCyrillic"%u) 0))))) then (CF_VedicSvarasNonDiacritic) else ([]))
  ++ (if (andb (str_eqb Source "Latn"%u) (contains "Syr"%u Target)) then ([Replace "ḇ"%u "v"%u]
  ++ [Replace "ḡ"%u "ḡ"%u]
  ++ [Replace "ḵ"%u "ḫ"%u]
  ++ [Replace "p̄"%u "f"%u]) else ([]))
  ++ (let p2 := ([Replace "↓"%u [0x952]%N]
  ++ [Replace "↑↑"%u [0x1CDA]%N]
  ++ [Replace "↑"%u [0x951]%N]) in let q3 := ([]) in (let p4 := (if (mem Target GM_IndicScripts) then p2 else q3) in let q5 := q3 in [IfIn "↓"%u p4 [IfIn "↑"%u p4 q5]]))
  ++ (let p6 := ([Replace "↓"%u "\_"%u]
  ++ [Replace "↑↑"%u "\"""%u]
  ++ [Replace "↑"%u "\'"%u]) in let q7 := ([]) in (let p8 := (if (mem Target GM_LatinScripts) then p6 else q7) in let q9 := q7 in [IfIn "↓"%u p8 [IfIn "↑"%u p8 q9]]))
  ++ (if (str_eqb Source "WarangCiti"%u) then ([Replace [0x200D]%N "×"%u]) else ([]))
  ++ (if (str_eqb Source "Hebr-Ar"%u) then (let dot_var := [("עׄ"%u, "ג"%u); ("תׄ"%u, "ת֒"%u); ("ת"%u, "ת̈"%u); ("ק"%u, "ק̈"%u)] in
  foreach dot_var (fun '(char, char_var) => 
    [Replace char_var char])) else ([]))
  ++ (PrP_normalize Source)
  ++ (if (andb (mem Source GM_IndicScripts) (mem Target GM_Transliteration)) then (let udatta := [0x951]%N in
  let! v10 := CrunchList "SignMap"%u Source in
  let! v11 := idx v10 (0)%Z in
  let avagrahaSrc := v11 in
  let! v12 := CrunchList "SignMap"%u Target in
  let! v13 := idx v12 (0)%Z in
  let avagrahaTgt := v13 in
  (if (str_eqb avagrahaTgt "'"%u) then ([Replace (udatta ++ avagrahaSrc) ((udatta ++ [0x200B]%N) ++ avagrahaSrc)]) else ([]))) else ([])).

(** aksharamukha/PreProcess.py:1404-1407  def ISO259Target(Strng) *)
Definition PrP_ISO259Target : prog :=
  [Replace "א"%u "ʾ"%u]
  ++ [Replace "׳"%u "’"%u].

(** aksharamukha/PreProcess.py:1409-1415  def ISO233Target(Strng) *)
Definition PrP_ISO233Target : prog :=
  let replacements := [("أ"%u, "ˈʾ"%u); ("ء"%u, "¦"%u); ("إ"%u, "ˌʾ"%u)] in
  foreach replacements (fun '(x, y) => 
    [Replace x y]).

(** aksharamukha/PreProcess.py:1417-1423  def PersianDMGTarget(Strng) *)
Definition PrP_PersianDMGTarget : prog :=
  let replacements := [("ا"%u, "ʾ"%u)] in
  foreach replacements (fun '(x, y) => 
    [Replace x y]).

(** aksharamukha/PreProcess.py:1425-1437  def ISO233Source(Strng) *)
Definition PrP_ISO233Source : prog :=
  let replacements := [("أ"%u, "ˈʾ"%u); ("ء"%u, "¦"%u); ("إ"%u, "ˌʾ"%u)] in
  foreach replacements (fun '(x, y) => 
    [Replace y x])
  ++ (let replacements := [("j"%u, "ǧ"%u); ("g"%u, "ǧ"%u); ("ḧ"%u, "ẗ"%u); ("ḫ"%u, "ẖ"%u); ("a̮"%u, "ỳ"%u); ("aⁿ"%u, "á"%u); ("iⁿ"%u, "í"%u); ("uⁿ"%u, "ú"%u); ("ā̂"%u, "ʾâ"%u); ("ˀ"%u, "ˈ"%u)] in
  foreach replacements (fun '(x, y) => 
    [Replace y x])).

(** aksharamukha/PreProcess.py:1439-1442  def HebrewSBLTarget(Strng) *)
Definition PrP_HebrewSBLTarget : prog :=
  [Replace "א"%u "ʾ"%u]
  ++ [Replace "׳"%u "’"%u].

(** aksharamukha/PreProcess.py:1444-1458  def HebrewSBLSource(Strng) *)
Definition PrP_HebrewSBLSource : prog :=
  [Replace "ʾ"%u "א"%u]
  ++ [Replace "’"%u "׳"%u]
  ++ [Replace [0x307; 0xB0]%N "°̇"%u]
  ++ (let replacements := [("v"%u, "ḇ"%u); ("f"%u, "p̄"%u); ("d꞉"%u, "d"%u); ("d"%u, "ḏ"%u); ("g꞉"%u, "g"%u); ("g"%u, "ḡ"%u); ("t꞉"%u, "t"%u); ("t"%u, "ṯ"%u); ("š̮"%u, "š"%u); ("š̪"%u, "ś"%u); ("o"%u, "ō"%u); ("ō"%u, "ô"%u); ("ū"%u, "û"%u); ([0x33D]%N, "ĕ"%u)] in
  foreach replacements (fun '(x, y) => 
    [Replace y x])).

(** aksharamukha/PreProcess.py:1460-1476  def ISO259Source(Strng) *)
Definition PrP_ISO259Source : prog :=
  [Replace "ʾ"%u "א"%u]
  ++ [Replace "’"%u "׳"%u]
  ++ [Replace [0x307; 0xB0]%N "°̇"%u]
  ++ (let replacements := [("ḵ"%u, "k"%u); ("v"%u, "b"%u); ("f"%u, "p"%u); ("b"%u, "ḃ"%u); ("p"%u, "ṗ"%u); ("k"%u, "k̇"%u); ("꞉"%u, [0x307]%N); ("š̮"%u, "š"%u); ("š"%u, "s̀"%u); ("š̪"%u, "ś"%u); ("ā"%u, "å"%u); ("e"%u, "ȩ"%u); ("ō"%u, "ŵ"%u); ("ū"%u, "ẇ"%u); ([0x33D]%N, "°"%u); ("ĕ"%u, "ḝ"%u)] in
  foreach replacements (fun '(x, y) => 
    [Replace y x])
  ++ [Norm false]
  ++ [Replace [0x307]%N "꞉"%u]
  ++ [Norm true]).

(** aksharamukha/PreProcess.py:1478-1480  def UnSupThaana(Strng) *)
Definition PrP_UnSupThaana : prog :=
  [].

(** aksharamukha/PreProcess.py:1482-1486  def RemoveJoiners(Strng) *)
Definition PrP_RemoveJoiners : prog :=
  [Replace [0x200D]%N []]
  ++ [Replace [0x200C]%N []].

(** aksharamukha/PreProcess.py:1488-1491  def ArabicGimelJa(Strng) *)
Definition PrP_ArabicGimelJa : prog :=
  [Replace "ج"%u "ڨ"%u].

(** aksharamukha/PreProcess.py:1669-1672  def removeZW(Strng) *)
Definition PrP_removeZW : prog :=
  [Raise TypeError]
  ++ [Raise TypeError].

(** aksharamukha/PreProcess.py:1674-1693  def PhagsPaArrange(Strng, Source) *)
Definition PrP_PhagsPaArrange (Source : str) : prog :=
  (if (mem Source GM_IndicScripts) then (let! v1 := CrunchSymbols GM_Consonants Source in
  let ListC := (join "|"%u (sort_len_desc v1)) in
  let! v2 := CrunchSymbols GM_Vowels Source in
  let ListV := (join "|"%u (sort_len_desc v2)) in
  let! v3 := CrunchSymbols GM_VowelSignsNV Source in
  let ListVS := (join "|"%u (sort_len_desc v3)) in
  let! v4 := CrunchSymbols GM_CombiningSigns Source in
  let ListCS := (join "|"%u (sort_len_desc v4)) in
  let! v5 := CrunchSymbols GM_VowelSigns Source in
  let! v6 := idx v5 (0)%Z in
  let vir := v6 in
  let! v9 := mapR (fun i => do v7 <- CrunchSymbols GM_Consonants Source; do v8 <- idx v7 i; Ok v8) [(25)%Z; (26)%Z; (28)%Z] in
  let yrv := (join "|"%u v9) in
  [ReSub (((((((((((((((("("%u ++ ListC) ++ ")"%u) ++ "("%u) ++ vir) ++ ")"%u) ++ "("%u) ++ yrv) ++ ")"%u) ++ "("%u) ++ "("%u) ++ ListVS) ++ ")?"%u) ++ "("%u) ++ ListCS) ++ ")?"%u) ++ ")"%u) " \1\2\3\4"%u]
  ++ [ReSub (((((((((((((((((("("%u ++ ListC) ++ ListV) ++ ")"%u) ++ "("%u) ++ "("%u) ++ ListVS) ++ ")?"%u) ++ "("%u) ++ ListCS) ++ ")?"%u) ++ ")"%u) ++ "("%u) ++ ListC) ++ ")"%u) ++ "("%u) ++ vir) ++ ")"%u) ++ "(?!\s)"%u) "\1\2\5\6 "%u]
  ++ [ReSub ((((((((((((((((("("%u ++ ListC) ++ ListV) ++ ")"%u) ++ "("%u) ++ "("%u) ++ ListVS) ++ ")?"%u) ++ "("%u) ++ ListCS) ++ ")?"%u) ++ ")"%u) ++ "("%u) ++ ListC) ++ ")"%u) ++ "(?!"%u) ++ vir) ++ ")"%u) "\1\2 \5"%u]
  ++ [ReSub ((((((((((((((((("("%u ++ ListC) ++ ListV) ++ ")"%u) ++ "("%u) ++ "("%u) ++ ListVS) ++ ")?"%u) ++ "("%u) ++ ListCS) ++ ")?"%u) ++ ")"%u) ++ "("%u) ++ ListC) ++ ")"%u) ++ "(?!"%u) ++ vir) ++ ")"%u) "\1\2 \5"%u]) else ((if (mem Source GM_LatinScripts) then ([]) else ([])))).

(** aksharamukha/PreProcess.py:1695-1778  def TamilTranscribeCommon(Strng, c=31) *)
Definition PrP_TamilTranscribeCommon (c : Z) : prog :=
  let script := "Tamil"%u in
  let! v1 := CrunchList "ConsonantMap"%u script in
  let ListC := v1 in
  let! v2 := CrunchList "SouthConsonantMap"%u script in
  let ListSC := v2 in
  let! v3 := CrunchSymbols GM_VowelSigns script in
  let! v4 := idx v3 (0)%Z in
  let vir := v4 in
  let! v6 := mapR (fun x => do v5 <- idx ListC x; Ok v5) [(0)%Z; (5)%Z; (10)%Z; (15)%Z; (20)%Z] in
  let ConUnVoiced := v6 in
  let! v8 := mapR (fun x => do v7 <- idx ListC x; Ok v7) [(2)%Z; (7)%Z; (12)%Z; (17)%Z; (22)%Z] in
  let ConVoicedJ := v8 in
  let! v10 := mapR (fun x => do v9 <- idx ListC x; Ok v9) [(2)%Z; (31)%Z; (12)%Z; (17)%Z; (22)%Z] in
  let ConVoicedS := v10 in
  let! v12 := mapR (fun x => do v11 <- idx ListC x; Ok v11) [(4)%Z; (9)%Z; (14)%Z; (19)%Z; (24)%Z] in
  let ConNasalsAll := (join "|"%u v12) in
  let! v14 := mapR (fun x => do v13 <- idx ListC x; Ok v13) [(9)%Z] in
  let conNasalCa := (join "|"%u v14) in
  let ConNasalsGroup := [ConNasalsAll; conNasalCa; ConNasalsAll; ConNasalsAll; ConNasalsAll] in
  let ConMedials := (join "|"%u (((slice ListC (Some (25)%Z) (Some (28)%Z)) ++ (slice ListSC (Some (0)%Z) (Some (2)%Z))) ++ (slice ListSC (Some (3)%Z) (Some (4)%Z)))) in
  let! v15 := CrunchSymbols (GM_Vowels ++ GM_VowelSignsNV) script in
  let Vowels := (join "|"%u v15) in
  let! v16 := CrunchList "Aytham"%u script in
  let! v17 := idx v16 (0)%Z in
  let Aytham := v17 in
  let! v18 := CrunchSymbols GM_Consonants script in
  let Consonants := (join "|"%u v18) in
  let! v19 := idx ListSC (3)%Z in
  let! v20 := idx ListSC (2)%Z in
  let NRA := ((v19 ++ vir) ++ v20) in
  let! v21 := idx ListC (14)%Z in
  let! v22 := idx ListC (12)%Z in
  let! v23 := idx ListC (26)%Z in
  let NDRA := ((((v21 ++ vir) ++ v22) ++ vir) ++ v23) in
  foreach (range 0%Z (Z.of_nat (length ConUnVoiced))) (fun i => 
    let! v24 := idx ConUnVoiced i in
  let! v25 := idx ConVoicedS i in
  [ReSub (((((((((("("%u ++ Vowels) ++ "|"%u) ++ Consonants) ++ "|"%u) ++ Aytham) ++ ")"%u) ++ v24) ++ "(?!"%u) ++ vir) ++ ")"%u) ("\1"%u ++ v25)]
  ++ (let! v26 := idx ConUnVoiced i in
  let! v27 := idx ConVoicedS i in
  [ReSub (((("([³])"%u ++ v26) ++ "(?!"%u) ++ vir) ++ ")"%u) ("\1"%u ++ v27)]
  ++ [ReSub "³+"%u "³"%u]
  ++ (let! v28 := idx ConNasalsGroup i in
  let! v29 := idx ConUnVoiced i in
  let! v30 := idx ConVoicedJ i in
  [ReSub (((((("("%u ++ v28) ++ ")"%u) ++ "("%u) ++ vir) ++ ")"%u) ++ v29) ("\1\2"%u ++ v30)]
  ++ (let! v31 := idx ConUnVoiced i in
  let! v32 := idx ConVoicedS i in
  [ReSub ((((((((("("%u ++ ConMedials) ++ ")"%u) ++ "("%u) ++ vir) ++ ")"%u) ++ v31) ++ "(?!"%u) ++ vir) ++ ")"%u) ("\1\2"%u ++ v32)]))))
  ++ [Replace NRA NDRA]
  ++ (let! v33 := idx ListC (5)%Z in
  let! v34 := idx ListSC (2)%Z in
  let! v35 := idx ListC (5)%Z in
  let! v36 := idx ListC c in
  [ReSub ((((((((((((("(?<!"%u ++ "("%u) ++ v33) ++ "|"%u) ++ v34) ++ "|"%u) ++ "ட"%u) ++ ")"%u) ++ vir) ++ ")"%u) ++ v35) ++ "(?!"%u) ++ vir) ++ ")"%u) v36]
  ++ (let punct := ((join "|"%u (map (fun x => ("\"%u ++ x)) (chars (replace "?"%u [] (replace "."%u [] punctuation))))) ++ "|\s"%u) in
  let! v37 := idx ListC (5)%Z in
  let! v38 := idx ListC c in
  let! v39 := idx ListC (5)%Z in
  [ReSub ((((((((("("%u ++ v37) ++ vir) ++ ")"%u) ++ "(("%u) ++ punct) ++ ")+)"%u) ++ "("%u) ++ v38) ++ ")"%u) ("\1\2"%u ++ v39)]
  ++ (let! v40 := idx ListC (9)%Z in
  let! v41 := idx ListC c in
  let! v42 := idx ListC (7)%Z in
  [ReSub ((((((((("("%u ++ v40) ++ vir) ++ ")"%u) ++ "(("%u) ++ punct) ++ ")+)"%u) ++ "("%u) ++ v41) ++ ")"%u) ("\1\2"%u ++ v42)]
  ++ (let! v43 := idx ListC (4)%Z in
  let! v44 := idx ListC (0)%Z in
  let! v45 := idx ListC (2)%Z in
  [ReSub ((((((((("("%u ++ v43) ++ vir) ++ ")"%u) ++ "(("%u) ++ punct) ++ ")+)"%u) ++ "("%u) ++ v44) ++ ")"%u) ("\1\2"%u ++ v45)]
  ++ (let! v46 := idx ListC (14)%Z in
  let! v47 := idx ListC (10)%Z in
  let! v48 := idx ListC (12)%Z in
  [ReSub ((((((((("("%u ++ v46) ++ vir) ++ ")"%u) ++ "(("%u) ++ punct) ++ ")+)"%u) ++ "("%u) ++ v47) ++ ")"%u) ("\1\2"%u ++ v48)]
  ++ (let! v49 := idx ListC (19)%Z in
  let! v50 := idx ListC (15)%Z in
  let! v51 := idx ListC (17)%Z in
  [ReSub ((((((((("("%u ++ v49) ++ vir) ++ ")"%u) ++ "(("%u) ++ punct) ++ ")+)"%u) ++ "("%u) ++ v50) ++ ")"%u) ("\1\2"%u ++ v51)]
  ++ (let! v52 := idx (attr "MainIndic"%u "Tamil"%u "Aytham"%u) (0)%Z in
  let! v53 := idx ListC (0)%Z in
  let! v54 := idx ListC (32)%Z in
  let! v55 := idx ListC (32)%Z in
  [Replace (v52 ++ v53) ((v54 ++ vir) ++ v55)]
  ++ (let! v56 := idx (attr "MainIndic"%u "Tamil"%u "Aytham"%u) (0)%Z in
  let! v57 := idx ListC (32)%Z in
  [Replace v56 (v57 ++ vir)]
  ++ (let! v58 := idx ListSC (2)%Z in
  let! v59 := idx ListSC (2)%Z in
  let! v60 := idx ListC (10)%Z in
  let! v61 := idx ListC (26)%Z in
  [ReSub ((v58 ++ vir) ++ v59) ((v60 ++ vir) ++ v61)]
  ++ (let! v62 := idx ListC (10)%Z in
  let! v63 := idx ListSC (2)%Z in
  let! v64 := idx ListC c in
  let! v65 := idx ListC (5)%Z in
  [ReSub (((((((((("("%u ++ "["%u) ++ v62) ++ v63) ++ "]"%u) ++ vir) ++ ")"%u) ++ "(\s)"%u) ++ "("%u) ++ v64) ++ ")"%u) ("\1\2"%u ++ v65)]
  ++ (let! v66 := idx ListSC (3)%Z in
  let! v67 := idx ListC (19)%Z in
  [Replace v66 v67]))))))))))).

(** aksharamukha/PreProcess.py:1780-1783  def TamilTranscribe(Strng) *)
Definition PrP_TamilTranscribe : prog :=
  (PrP_TamilTranscribeCommon (31)%Z).

(** aksharamukha/PreProcess.py:1785-1788  def TamilTranscribeDialect(Strng) *)
Definition PrP_TamilTranscribeDialect : prog :=
  (PrP_TamilTranscribeCommon (29)%Z).

(** aksharamukha/PreProcess.py:1790-1794  def IPAIndic(Strng) *)
Definition PrP_IPAIndic : prog :=
  [Replace "ʊ"%u "u"%u]
  ++ [Replace "ɛ"%u "e"%u]
  ++ [Raise NoneResult].

