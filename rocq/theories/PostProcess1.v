(** * PostProcess functions, part 1 (GENERATED by tools/py2coq.py from
    aksharamukha/PostProcess.py; do not edit). *)
From Coq Require Import List NArith ZArith Bool.
From Verif Require Import PyStr Regex Unicode Prog GMLists GeneralMap FixNum.
Import ListNotations.
Local Open Scope list_scope.

(** aksharamukha/PostProcess.py:20-24  def default(Strng, langage='') *)
Definition PP_default (langage : str) : prog :=
  [Replace [0xF001]%N []]
  ++ [Replace [0x5CC]%N []]
  ++ [Replace "ʻʻ"%u []]
  ++ [Replace [0x5CD]%N []]
  ++ [Replace "˂"%u []].

(** aksharamukha/PostProcess.py:2900-2911  def RetainIndicNumerals(Strng, Target, reverse=False) *)
Definition PP_RetainIndicNumerals (Target : str) (reverse : bool) : prog :=
  let! v1 := CrunchList "NumeralMap"%u Target in
  let NativeNumerals := v1 in
  let! v2 := CrunchList "NumeralMap"%u "ISO"%u in
  let ArabicNumerals := v2 in
  (if (negb reverse) then (foreach (zip ArabicNumerals NativeNumerals) (fun '(x, y) => 
    [ReSub ("(?<!h)"%u ++ x) y])) else (foreach (zip NativeNumerals ArabicNumerals) (fun '(x, y) => 
    [Replace x y]))).

(** aksharamukha/PostProcess.py:2888-2898  def RetainDandasIndic(Strng, Target, reverse=False) *)
Definition PP_RetainDandasIndic (Target : str) (reverse : bool) : prog :=
  let! v1 := CrunchList "SignMap"%u Target in
  let Dandas := (slice v1 (Some (1)%Z) (Some (3)%Z)) in
  (if (negb reverse) then (let! v2 := idx Dandas (1)%Z in
  [Replace ".."%u v2]
  ++ (let! v3 := idx Dandas (0)%Z in
  [Replace "."%u v3])) else (let! v4 := idx Dandas (0)%Z in
  [Replace v4 "."%u]
  ++ (let! v5 := idx Dandas (1)%Z in
  [Replace v5 ".."%u]))).

(** aksharamukha/PostProcess.py:28-47  def defaultPost(src, tgt, Strng, nativize, preoptions, postoptions) *)
Definition PP_defaultPost (src : str) (tgt : str) (nativize : bool) (preoptions : list (str)) (postoptions : list (str)) : prog :=
  [Replace [0x34F]%N []]
  ++ (if (mem "romanNumerals"%u postoptions) then ((PP_RetainIndicNumerals tgt true)) else ([]))
  ++ (if (mem "indicNumerals"%u postoptions) then ((PP_RetainIndicNumerals tgt false)) else ([]))
  ++ (if (mem "romanFullStop"%u postoptions) then ((PP_RetainDandasIndic tgt true)) else ([]))
  ++ (if (negb (mem tgt GM_Transliteration)) then ([Replace "│"%u "।"%u]
  ++ [Replace "┃"%u "॥"%u]) else ([Replace "│"%u "|"%u]
  ++ [Replace "┃"%u "||"%u]))
  ++ [Replace "●"%u "."%u].

(** aksharamukha/PostProcess.py:57-61  def KhojkiRRI(Strng) *)
Definition PP_KhojkiRRI : prog :=
  [Replace [0x11241]%N [0x11235; 0x11226; 0x1122D]%N]
  ++ [Replace [0x11240]%N "𑈂"%u].

(** aksharamukha/PostProcess.py:63-66  def KhojkiQa(Strng) *)
Definition PP_KhojkiQa : prog :=
  [Replace "𑈈𑈶"%u [0x1123F]%N].

(** aksharamukha/PostProcess.py:68-75  def removePaliAhom(Strng) *)
Definition PP_removePaliAhom : prog :=
  let pali := (split " "%u "𑝁 𑝂 𑝃 𑝄 𑝅 𑝆"%u) in
  let nonPali := (split " "%u "𑜄 𑜌 𑜓 𑜔 𑜃 𑜎"%u) in
  foreach (zip pali nonPali) (fun '(p, np) => 
    [Replace p np]).

(** aksharamukha/PostProcess.py:77-80  def SinhalaChandrbinduAnusvara(Strng) *)
Definition PP_SinhalaChandrbinduAnusvara : prog :=
  [Replace [0xD81]%N [0xD82]%N].

(** aksharamukha/PostProcess.py:82-86  def LoCMarc8(Strng) *)
Definition PP_LoCMarc8 : prog :=
  [Norm false]
  ++ [Replace "˚"%u "˙"%u].

(** aksharamukha/PostProcess.py:88-90  def AnusvaraAsN(Strng) *)
Definition PP_AnusvaraAsN : prog :=
  [Replace "m͏"%u "n"%u].

(** aksharamukha/PostProcess.py:98-101  def KannadaSpacingCandrabindu(Strng) *)
Definition PP_KannadaSpacingCandrabindu : prog :=
  [Replace [0xC81]%N "ಀ"%u].

(** aksharamukha/PostProcess.py:103-108  def KannadaNotRepha(Strng) *)
Definition PP_KannadaNotRepha : prog :=
  let! v1 := CrunchSymbols GM_Consonants "Kannada"%u in
  let ListC := (("("%u ++ (join "|"%u v1)) ++ ")"%u) in
  [ReSub (("ರ್(?="%u ++ ListC) ++ ")"%u) [0xCB0; 0x200D; 0xCCD]%N].

(** aksharamukha/PostProcess.py:110-115  def KannadaNakaraPollu(Strng) *)
Definition PP_KannadaNakaraPollu : prog :=
  let! v1 := CrunchSymbols GM_Consonants "Kannada"%u in
  let ListC := (("("%u ++ (join "|"%u v1)) ++ ")"%u) in
  [ReSub (("(?<!್)ನ್(?!"%u ++ ListC) ++ ")"%u) "ೝ"%u].

(** aksharamukha/PostProcess.py:117-120  def TeluguRemoveNukta(Strng) *)
Definition PP_TeluguRemoveNukta : prog :=
  [Replace [0xC3C]%N []].

(** aksharamukha/PostProcess.py:122-125  def TeluguRemoveAeAo(Strng) *)
Definition PP_TeluguRemoveAeAo : prog :=
  [Replace [0x952; 0x200B]%N []].

(** aksharamukha/PostProcess.py:127-132  def TeluguNakaraPollu(Strng) *)
Definition PP_TeluguNakaraPollu : prog :=
  let! v1 := CrunchSymbols GM_Consonants "Telugu"%u in
  let ListC := (("("%u ++ (join "|"%u v1)) ++ ")"%u) in
  [ReSub (("(?<!్)న్(?!"%u ++ ListC) ++ ")"%u) "ౝ"%u].

(** aksharamukha/PostProcess.py:135-137  def syriacVowelsBelow(Strng) *)
Definition PP_syriacVowelsBelow : prog :=
  [].

(** aksharamukha/PostProcess.py:140-142  def syriacWesternOToU(Strng) *)
Definition PP_syriacWesternOToU : prog :=
  [].

(** aksharamukha/PostProcess.py:145-147  def olddogra(Strng) *)
Definition PP_olddogra : prog :=
  [].

(** aksharamukha/PostProcess.py:150-161  def ISO259Target(Strng) *)
Definition PP_ISO259Target : prog :=
  let replacements := [("b"%u, "ḃ"%u); ("p"%u, "ṗ"%u); ("k"%u, "k̇"%u); ("ḵ"%u, "k"%u); ("v"%u, "b"%u); ("f"%u, "p"%u); ("꞉"%u, [0x307]%N); ("š̪"%u, "ś"%u); ("š̮"%u, "š"%u); ("š"%u, "s̀"%u); ("ā"%u, "å"%u); ("e"%u, "ȩ"%u); ("ō"%u, "ŵ"%u); ("ū"%u, "ẇ"%u); ([0x33D]%N, "°"%u); ("ĕ"%u, "ḝ"%u)] in
  foreach replacements (fun '(x, y) => 
    [Replace x y])
  ++ [Replace "°̇"%u [0x307; 0xB0]%N].

(** aksharamukha/PostProcess.py:164-182  def HebrewSBLTarget(Strng) *)
Definition PP_HebrewSBLTarget : prog :=
  let replacements := [("v"%u, "ḇ"%u); ("f"%u, "p̄"%u); ("d"%u, "ḏ"%u); ("ḏ꞉"%u, "d"%u); ("g"%u, "ḡ"%u); ("ḡ꞉"%u, "g"%u); ("t"%u, "ṯ"%u); ("ṯ꞉"%u, "t"%u); ("š̪"%u, "ś"%u); ("š̮"%u, "š"%u); ("ō"%u, "ô"%u); ("o"%u, "ō"%u); ("ū"%u, "û"%u); ([0x33D]%N, "ĕ"%u)] in
  foreach replacements (fun '(x, y) => 
    [Replace x y])
  ++ [Replace "ĕ꞉"%u "꞉ĕ"%u]
  ++ [IfIn [0x5CE]%N ([Replace "ḏ"%u "d"%u]
  ++ [Replace "ṯ"%u "t"%u]
  ++ [Replace "ḡ"%u "g"%u]
  ++ [Replace [0x5CE]%N []]) ([])]
  ++ [Replace "°̇"%u [0x307; 0xB0]%N].

(** aksharamukha/PostProcess.py:185-191  def removetddash(Strng) *)
Definition PP_removetddash : prog :=
  [Append [0x5CE]%N]
  ++ [Replace "d"%u "d꞉"%u]
  ++ [Replace "t"%u "t꞉"%u]
  ++ [Replace "g"%u "g꞉"%u]
  ++ [Replace "ḏ"%u "d"%u]
  ++ [Replace "ṯ"%u "t"%u]
  ++ [Replace "ḡ"%u "g"%u]
  ++ [Replace [0x5CE]%N []].

(** aksharamukha/PostProcess.py:194-196  def ISO259Source(Strng) *)
Definition PP_ISO259Source : prog :=
  [].

(** aksharamukha/PostProcess.py:199-201  def ISO233Source(Strng) *)
Definition PP_ISO233Source : prog :=
  [].

(** aksharamukha/PostProcess.py:204-206  def HebrewSBLSource(Strng) *)
Definition PP_HebrewSBLSource : prog :=
  [].

(** aksharamukha/PostProcess.py:209-211  def PersianDMGSBLSource(Strng) *)
Definition PP_PersianDMGSBLSource : prog :=
  [].

(** aksharamukha/PostProcess.py:214-221  def ISO233Target(Strng) *)
Definition PP_ISO233Target : prog :=
  let replacements := [("j"%u, "ǧ"%u); ("g"%u, "ǧ"%u); ("ḧ"%u, "ẗ"%u); ("ḫ"%u, "ẖ"%u); ("a̮"%u, "ỳ"%u); ("ˀ"%u, "ˈ"%u); ("aⁿ"%u, "á"%u); ("iⁿ"%u, "í"%u); ("uⁿ"%u, "ú"%u); ("ā̂"%u, "ʾâ"%u); ([0x33D]%N, [])] in
  foreach replacements (fun '(x, y) => 
    [Replace x y]).

(** aksharamukha/PostProcess.py:224-227  def inherentAO(Strng) *)
Definition PP_inherentAO : prog :=
  [Replace "a"%u "ô"%u].

(** aksharamukha/PostProcess.py:229-232  def BengaliOldRA(Strng) *)
Definition PP_BengaliOldRA : prog :=
  [Replace "র"%u "ৰ"%u].

(** aksharamukha/PostProcess.py:235-241  def PersianDMGTarget(Strng) *)
Definition PP_PersianDMGTarget : prog :=
  let replacements := [("ḏ"%u, "ẕ"%u); ("ḍ"%u, "ż"%u); ("ṯ"%u, "s̱"%u); ("j"%u, "ǧ"%u); ("ˀ"%u, "ʼ"%u); ("ʔ"%u, "ʼ"%u); ("ȳ"%u, "ye"%u); ("ā̂"%u, "ā"%u); ([0x33D]%N, [])] in
  foreach replacements (fun '(x, y) => 
    [Replace x y]).

(** aksharamukha/PostProcess.py:407-418  def LatnInitialVowels(Strng, initLetter='') *)
Definition PP_LatnInitialVowels (initLetter : str) : prog :=
  let initVow := (split " "%u "â ā̂ î ī̂ û ū̂ ê ē̂ âŷ ô ō̂ âŵ"%u) in
  let nonInitVow := (split " "%u "a ā i ī u ū e ē aŷ o ō aŵ"%u) in
  foreach (zip initVow nonInitVow) (fun '(x, y) => 
    [Replace x (initLetter ++ y)])
  ++ [Replace [0x302]%N []]
  ++ [ReSub [0x33D]%N []].

(** aksharamukha/PostProcess.py:244-286  def arabizeLatn(Strng, target='semitic') *)
Definition PP_arabizeLatn (target : str) : prog :=
  let cons_ := (("("%u ++ (join "|"%u GM_SemiticConsonants)) ++ ")"%u) in
  [ReSub (cons_ ++ "(ʾ)"%u) ("\1"%u ++ "ā"%u)]
  ++ (if (str_eqb target "indic"%u) then ([Replace "ʾā"%u "ā̂"%u]) else ([]))
  ++ (if (negb (str_eqb target "indic"%u)) then ([ReSub "ʾ"%u "a"%u]) else ([ReSub "ʾ"%u "â"%u]))
  ++ [ReSub "(a̮|ā̮)"%u "ā"%u]
  ++ [ReSub "ˀ?ā̮̂"%u "ʼā"%u]
  ++ (if (negb (str_eqb target "indic"%u)) then ([ReSub "[ˀʔ]"%u "ʼ"%u]) else ([ReSub "[ˀ]"%u []]))
  ++ (if (negb (str_eqb target "indic"%u)) then ((PP_LatnInitialVowels "ʾ"%u)) else ([]))
  ++ (if (negb (str_eqb target "indic"%u)) then ([ReSub "ʼʾ"%u "ʼ"%u]) else ([]))
  ++ (if (negb (str_eqb target "indic"%u)) then ([ReSub [0x33D]%N []]) else ([]))
  ++ [ReSub "(ā)([iau])(ⁿ)"%u "\2\3"%u].

(** aksharamukha/PostProcess.py:290-295  def BengaliSwitchYaYYa(Strng) *)
Definition PP_BengaliSwitchYaYYa : prog :=
  [ReSub "(?<!্)য"%u "@#$"%u]
  ++ [ReSub "য়"%u "য"%u]
  ++ [Replace "@#$"%u "য়"%u].

(** aksharamukha/PostProcess.py:298-304  def AlephMaterLectionis(Strng, target='semitic') *)
Definition PP_AlephMaterLectionis (target : str) : prog :=
  let cons_ := (("("%u ++ (join "|"%u GM_SemiticConsonants)) ++ ")"%u) in
  [ReSub (cons_ ++ "(ʾ)"%u) ("\1"%u ++ "ā"%u)].

(** aksharamukha/PostProcess.py:307-332  def urduizeLatn(Strng, target='semitic') *)
Definition PP_urduizeLatn (target : str) : prog :=
  let cons_ := (("("%u ++ (join "|"%u GM_SemiticConsonants)) ++ ")"%u) in
  [ReSub (cons_ ++ "(ʾ)"%u) ("\1"%u ++ "ā"%u)]
  ++ (if (str_eqb target "indic"%u) then ([Replace "ʾā"%u "ā̂"%u]) else ([]))
  ++ [ReSub "ʾ"%u "â"%u]
  ++ [ReSub "[ˀʔ]"%u "ʾ"%u]
  ++ [ReSub "(a̮|ā̮)"%u "ā"%u]
  ++ [ReSub "ˀ?ā̮̂"%u "ʼā"%u]
  ++ (if (negb (str_eqb target "indic"%u)) then ([ReSub [0x33D]%N []]) else ([]))
  ++ (if (negb (str_eqb target "indic"%u)) then ((PP_LatnInitialVowels [])) else ([]))
  ++ [ReSub "(ā)([iau])(ⁿ)"%u "\2\3"%u].

(** aksharamukha/PostProcess.py:335-348  def syricizeLatn(Strng, target='semitic') *)
Definition PP_syricizeLatn (target : str) : prog :=
  let cons_ := (("("%u ++ (join "|"%u GM_SemiticConsonants)) ++ ")"%u) in
  (if (negb (str_eqb target "indic"%u)) then ([ReSub "â"%u "ʾa"%u]
  ++ [ReSub "ā̂"%u "ʾā"%u]
  ++ [ReSub "ê"%u "ʾe"%u]
  ++ [ReSub "ē̂"%u "ʾē"%u]) else ([]))
  ++ (if (negb (str_eqb target "indic"%u)) then ((PP_LatnInitialVowels [])) else ([])).

(** aksharamukha/PostProcess.py:351-356  def hebraizeLatn(Strng, target='semitic') *)
Definition PP_hebraizeLatn (target : str) : prog :=
  (if (negb (str_eqb target "indic"%u)) then ((PP_LatnInitialVowels "ʾ"%u)) else ([])).

(** aksharamukha/PostProcess.py:359-362  def syriacRoman(Strng) *)
Definition PP_syriacRoman : prog :=
  [Replace "v"%u "ḇ"%u]
  ++ [Replace "ġ"%u "ḡ"%u]
  ++ [Replace "ḫ"%u "ḵ"%u]
  ++ [Replace "f"%u "p̄"%u].

(** aksharamukha/PostProcess.py:365-368  def alephAyinLatnAlternate(Strng) *)
Definition PP_alephAyinLatnAlternate : prog :=
  [Replace "ʾ"%u "ʼ"%u]
  ++ [Replace "ʿ"%u "ʽ"%u].

(** aksharamukha/PostProcess.py:371-374  def alephAyinLatnAlternate2(Strng) *)
Definition PP_alephAyinLatnAlternate2 : prog :=
  [Replace "ʾ"%u "ʔ"%u]
  ++ [Replace "ʿ"%u "ʕ"%u].

(** aksharamukha/PostProcess.py:377-380  def ArabRemoveAdditions(Strng) *)
Definition PP_ArabRemoveAdditions : prog :=
  [Replace "ڨ"%u "ج"%u]
  ++ [Replace "ڤ"%u "ف"%u]
  ++ [Replace "پ"%u "ف"%u].

(** aksharamukha/PostProcess.py:383-387  def arabicRemoveAdditionsPhonetic(Strng) *)
Definition PP_arabicRemoveAdditionsPhonetic : prog :=
  [Replace "ڨ"%u "غ"%u]
  ++ [Replace "ڤ"%u "ف"%u]
  ++ [Replace "پ"%u "ب"%u].

(** aksharamukha/PostProcess.py:390-394  def removeSemiticLetters(Strng) *)
Definition PP_removeSemiticLetters : prog :=
  [Replace "ṭ"%u "t"%u]
  ++ [Replace "ḥ"%u "h"%u]
  ++ [Replace "ḍ"%u "z"%u]
  ++ [Replace "ḏ"%u "z"%u]
  ++ [Replace "ẓ"%u "z"%u]
  ++ [Replace "w"%u "v"%u]
  ++ [Replace "ʿ"%u "ʾ"%u]
  ++ [Replace "ṣ"%u "s"%u].

(** aksharamukha/PostProcess.py:397-404  def removeNikkud(Strng) *)
Definition PP_removeNikkud : prog :=
  let nikkuds := [[0x5B7]%N; [0x5B8]%N; [0x5B4]%N; [0x5B4; 0x5D9]%N; [0x5BB]%N; [0x5C2]%N; [0x5C1]%N; [0x5B6]%N; [0x5B5]%N; [0x5B9]%N; "וֹ"%u; [0x5B1]%N; [0x5B2]%N; [0x5B3]%N; [0x5BC]%N; [0x5B0]%N; [0x5C7]%N] in
  foreach nikkuds (fun nikkud => 
    [Replace nikkud []]).

(** aksharamukha/PostProcess.py:421-424  def removeMajliyana(Strng) *)
Definition PP_removeMajliyana : prog :=
  [Replace [0x330]%N []].

(** aksharamukha/PostProcess.py:427-430  def removeRukkaka(Strng) *)
Definition PP_removeRukkaka : prog :=
  [Replace [0x741]%N []].

(** aksharamukha/PostProcess.py:433-436  def removeQussaya(Strng) *)
Definition PP_removeQussaya : prog :=
  [Replace [0x742]%N []].

(** aksharamukha/PostProcess.py:439-444  def removeVowelsSyriac(Strng) *)
Definition PP_removeVowelsSyriac : prog :=
  [ReSub "[ܼܸܹܲܵܿ]"%u []]
  ++ [ReSub "[ّܰܶܺܽܳ]"%u []].

(** aksharamukha/PostProcess.py:447-453  def removeDiacriticsArabic(Strng) *)
Definition PP_removeDiacriticsArabic : prog :=
  let diacrtics := [[0x652]%N; [0x64E]%N; [0x650]%N; [0x64F]%N] in
  foreach diacrtics (fun diacritic => 
    [Replace diacritic []]).

(** aksharamukha/PostProcess.py:456-459  def removeSukunEnd(Strng) *)
Definition PP_removeSukunEnd : prog :=
  [ReSub "(ْ)(\W|$)"%u "\2"%u].

(** aksharamukha/PostProcess.py:462-465  def persianPaGaFaJa(Strng) *)
Definition PP_persianPaGaFaJa : prog :=
  [Replace "پ"%u "ف"%u]
  ++ [Replace "گ"%u "ج"%u].

(** aksharamukha/PostProcess.py:468-470  def removeDiacriticsPersian(Strng) *)
Definition PP_removeDiacriticsPersian : prog :=
  [].

(** aksharamukha/PostProcess.py:473-475  def removeDiacriticsSyriac(Strng) *)
Definition PP_removeDiacriticsSyriac : prog :=
  [].

(** aksharamukha/PostProcess.py:478-480  def useKtivMale(Strng) *)
Definition PP_useKtivMale : prog :=
  [].

(** aksharamukha/PostProcess.py:483-485  def PhoneticMapping(Strng) *)
Definition PP_PhoneticMapping : prog :=
  [].

(** aksharamukha/PostProcess.py:488-491  def ArabicGimelGaGha(Strng) *)
Definition PP_ArabicGimelGaGha : prog :=
  [Replace "ج"%u "غ"%u].

(** aksharamukha/PostProcess.py:494-497  def ArabicGimelPaBa(Strng) *)
Definition PP_ArabicGimelPaBa : prog :=
  [Replace "ف"%u "ب"%u].

(** aksharamukha/PostProcess.py:500-536  def BurmeseRomanLoCSource(Strng) *)
Definition PP_BurmeseRomanLoCSource : prog :=
  [Replace "ʻ"%u []]
  ++ (let yrvh := (((slice (attr "EastIndic"%u "Burmese"%u "ConsonantMap"%u) (Some (25)%Z) (Some (27)%Z)) ++ (slice (attr "EastIndic"%u "Burmese"%u "ConsonantMap"%u) (Some (28)%Z) (Some (29)%Z))) ++ (slice (attr "EastIndic"%u "Burmese"%u "ConsonantMap"%u) (Some (32)%Z) (Some (33)%Z))) in
  let yrvhPat := (join [] yrvh) in
  [ReSub ("(်)(္)(["%u ++ yrvhPat ++ "])"%u) "\2\3"%u]
  ++ (let virsub := [0x1039]%N in
  let yrvhsub := [[0x103B]%N; [0x103C]%N; [0x103D]%N; [0x103E]%N] in
  foreach (zip yrvh yrvhsub) (fun '(x, y) => 
    [Replace (virsub ++ x) y])
  ++ (let vowDep := (split " "%u "အော် အော အိ အီ အု အူ အေ"%u) in
  let vowIndep := (split " "%u "ဪ ဩ ဣ ဤ ဥ ဦ ဧ"%u) in
  [Replace "ʼ"%u "’"%u]
  ++ foreach (zip vowDep vowIndep) (fun '(x, y) => 
    [Replace ("’"%u ++ y) x])
  ++ [Replace [0x102F; 0x1023]%N [0x102D; 0x102F]%N]
  ++ [Replace "’အ"%u "အ"%u]
  ++ [Replace [0x103A; 0x1037]%N [0x1037; 0x103A]%N]))).

(** aksharamukha/PostProcess.py:539-546  def removeSegmentSpacesBurmese(Strng) *)
Definition PP_removeSegmentSpacesBurmese : prog :=
  [Sub burmese_space_re [TGroup 1; TGroup 2]]
  ++ [Sub burmese_space_re [TGroup 1; TGroup 2]].

(** aksharamukha/PostProcess.py:548-551  def UseAlternateo1(Strng) *)
Definition PP_UseAlternateo1 : prog :=
  [Replace [0x1A6E; 0x1A63]%N [0x1A70]%N].

(** aksharamukha/PostProcess.py:554-557  def UseAlternateo2(Strng) *)
Definition PP_UseAlternateo2 : prog :=
  [Replace [0x1A70]%N [0x1A6E; 0x1A63]%N].

(** aksharamukha/PostProcess.py:560-561  def ThamLoCRomanLoCTarget(Strng) *)
Definition PP_ThamLoCRomanLoCTarget : prog :=
  [].

(** aksharamukha/PostProcess.py:563-570  def ThamLoCRomanLoCSource(Strng) *)
Definition PP_ThamLoCRomanLoCSource : prog :=
  [Replace [0x1A7F]%N [0x1A60]%N]
  ++ [Replace [0x1A71; 0x1A3F; 0x1A7A]%N [0x1A71; 0x1A60; 0x1A3F]%N].

(** aksharamukha/PostProcess.py:573-587  def KhmerLoCRomanLoCTarget(Strng) *)
Definition PP_KhmerLoCRomanLoCTarget : prog :=
  [Norm true]
  ++ [ReSub "(ʹ)(′?)(?=[aāiīuūẏȳeoăáâààáéíóúàèìòùă])"%u "\2"%u]
  ++ [Replace "oḥ"%u "oaḥ"%u]
  ++ [Replace "  "%u " "%u].

(** aksharamukha/PostProcess.py:589-612  def KhmerLoCRomanLoCSource(Strng) *)
Definition PP_KhmerLoCRomanLoCSource : prog :=
  let! v1 := CrunchSymbols GM_Consonants "Khmer"%u in
  let ListC := (join "|"%u v1) in
  let! v2 := CrunchSymbols GM_VowelSigns "Khmer"%u in
  let ListV := (join "|"%u v2) in
  let! v3 := CrunchSymbols GM_CombiningSigns "Khmer"%u in
  let ListA := (join "|"%u v3) in
  let! v4 := idx (attr "EastIndic"%u "Khmer"%u "ViramaMap"%u) (0)%Z in
  let vir := v4 in
  [ReSub "(់)(.)"%u "\2\1"%u]
  ++ [ReSub ((((((("("%u ++ ListC) ++ ")"%u) ++ "("%u) ++ ListV) ++ ")("%u) ++ ListA) ++ ")?([៎៏])"%u) "\1\4\2\3"%u]
  ++ [ReSub "([ងញមបយរវ])(៉)([ិឹីឺ])"%u "\1ុ\3"%u]
  ++ [ReSub "([សហអ])(៊)([ិឹីឺ])"%u "\1ុ\3"%u]
  ++ [Replace vir []].

(** aksharamukha/PostProcess.py:615-619  def ShanLoCRomanLoCTarget(Strng) *)
Definition PP_ShanLoCRomanLoCTarget : prog :=
  [ReSub "(ʻ)([̢̐])"%u "\2\1"%u]
  ++ [ReSub "(ō)([̢̐]?)(ʻ)"%u "\1\2"%u].

(** aksharamukha/PostProcess.py:621-650  def ShanLoCRomanLoCSource(Strng) *)
Definition PP_ShanLoCRomanLoCSource : prog :=
  let yrv := ((slice (attr "EastIndic"%u "Burmese"%u "ConsonantMap"%u) (Some (25)%Z) (Some (27)%Z)) ++ (slice (attr "EastIndic"%u "Burmese"%u "ConsonantMap"%u) (Some (28)%Z) (Some (29)%Z))) in
  let vir := [0x103A]%N in
  let yrvsub := [[0x103B]%N; [0x103C]%N; [0x1082]%N] in
  foreach (zip yrv yrvsub) (fun '(x, y) => 
    [Replace (vir ++ x) y])
  ++ [Replace "ʼ"%u "’"%u]
  ++ [Replace "’"%u []]
  ++ [Replace "ʻ"%u []]
  ++ [Replace [0x36E]%N [0x1082; 0x103A]%N]
  ++ (let cons_ := "[ၵၶၷꧠငၸꧡꩡꧢၺꩦꩧꩨꩩꧣတထၻꩪၼပၽၿꧤမယရလဝသႁꩮၹၾႀဢ]"%u in
  let open := [[0x1083]%N; [0x1084]%N; [0x1031]%N] in
  let closed := [[0x1062]%N; [0x1085]%N; [0x1035]%N] in
  foreach (zip open closed) (fun '(o, c) => 
    [ReSub (((((((("("%u ++ cons_) ++ ")"%u) ++ "("%u) ++ o) ++ ")"%u) ++ "("%u) ++ cons_) ++ ")"%u) (("\1"%u ++ c) ++ "\3"%u)])).

(** aksharamukha/PostProcess.py:653-680  def BurmeseRomanLoCTarget(Strng) *)
Definition PP_BurmeseRomanLoCTarget : prog :=
  [Replace "˳"%u "ʹ"%u]
  ++ [Replace "auʻ"%u "oʻ"%u]
  ++ [Replace "ḥ"%u "ʺ"%u]
  ++ (let chars_misc := [("e*"%u, "၏"%u); ("n*"%u, "၌"%u); ("r*"%u, "၍"%u); ("l*"%u, "၎"%u)] in
  foreach chars_misc (fun '(lat, bur) => 
    [Replace bur lat])).

(** aksharamukha/PostProcess.py:684-699  def insertARomanSemitic(Strng) *)
Definition PP_insertARomanSemitic : prog :=
  [Replace "ʽ"%u []]
  ++ (let consonantsAll := (("("%u ++ (join "|"%u (sort_len_desc GM_SemiticConsonants))) ++ ")"%u) in
  let vowelsAll := (("("%u ++ (join "|"%u GM_SemiticVowels)) ++ ")"%u) in
  [ReSub (((consonantsAll ++ "(?![꞉ʰ])(?!"%u) ++ vowelsAll) ++ ")"%u) ("\1"%u ++ "a"%u)]
  ++ [ReSub (("(꞉)(?!ʰ)(?!"%u ++ vowelsAll) ++ ")"%u) ("\1"%u ++ "a"%u)]).

(** aksharamukha/PostProcess.py:703-731  def FixSemiticRoman(Strng, Target) *)
Definition PP_FixSemiticRoman (Target : str) : prog :=
  let vir := [0x33D]%N in
  [ReSub "ō̂̄̂"%u "ō̂"%u]
  ++ (if (contains "Arab"%u Target) then (let! v1 := CrunchSymbols GM_Consonants "RomanSemitic"%u in
  let consonantsAll := (("("%u ++ (join "|"%u (sort_len_desc v1))) ++ ")"%u) in
  [ReSub ((consonantsAll ++ vir) ++ "\1"%u) ("\1"%u ++ "꞉"%u)]) else ([]))
  ++ [ReSub "âQ"%u "ʿ"%u]
  ++ [ReSub "aQ"%u "Qa"%u]
  ++ (let SemiticIndic := [("ʾQā"%u, "ā̂Q"%u); ("ʾQi"%u, "îQ"%u); ("ʾQī"%u, "ī̂Q"%u); ("ʾQu"%u, "ûQ"%u); ("ʾQū"%u, "ū̂Q"%u); ("ʾQe"%u, "êQ"%u); ("ʾQē"%u, "ē̂Q"%u); ("ʾQo"%u, "ôQ"%u); ("ʾQō"%u, "ō̂Q"%u); ("ṣ"%u, "sQ"%u); ("ʿ"%u, "ʾQ"%u); ("ṭ"%u, "tQ"%u); ("ḥ"%u, "hQ"%u); ("ḍ"%u, "dQ"%u); ("p̣"%u, "pQ"%u); ("ž"%u, "šQ"%u); ("ž"%u, "zQ"%u); ("ẓ"%u, "jʰQ"%u); ("ḏ"%u, "dʰQ"%u); ("ṯ"%u, "tʰQ"%u); ("w"%u, "vQ"%u)] in
  foreach SemiticIndic (fun '(s, i) => 
    [Replace i s])
  ++ [Replace [0x33D; 0x33D]%N [0x33D]%N]).

(** aksharamukha/PostProcess.py:734-738  def ArabAtoAleph(Strng) *)
Definition PP_ArabAtoAleph : prog :=
  [Replace "أ"%u "ا"%u].

(** aksharamukha/PostProcess.py:741-743  def estrangelasyriac(Strng) *)
Definition PP_estrangelasyriac : prog :=
  [].

(** aksharamukha/PostProcess.py:746-748  def easternsyriac(Strng) *)
Definition PP_easternsyriac : prog :=
  [].

(** aksharamukha/PostProcess.py:751-753  def westernsyriac(Strng) *)
Definition PP_westernsyriac : prog :=
  [].

(** aksharamukha/PostProcess.py:756-758  def kawitan(Strng) *)
Definition PP_kawitan : prog :=
  [].

(** aksharamukha/PostProcess.py:760-762  def sundapura(Strng) *)
Definition PP_sundapura : prog :=
  [].

(** aksharamukha/PostProcess.py:764-770  def readableItrans(Strng) *)
Definition PP_readableItrans : prog :=
  let pairsReadable := [("R^i"%u, "RRi"%u); ("R^I"%u, "RRii"%u); ([], []); ([], []); ("A"%u, "aa"%u); ("I"%u, "ii"%u); ("U"%u, "uu"%u); ("Ch"%u, "chh"%u); ("kSh"%u, "x"%u); ("M"%u, ".m"%u)] in
  foreach pairsReadable (fun '(x, y) => 
    [Replace x y]).

(** aksharamukha/PostProcess.py:2001-2010  def AnusvaratoNasalASTISO(Strng) *)
Definition PP_AnusvaratoNasalASTISO : prog :=
  [ReSub "(ṃ|ṁ)(k|g)"%u ("ṅ"%u ++ "\2"%u)]
  ++ [ReSub "(ṃ|ṁ)(c|j)"%u ("ñ"%u ++ "\2"%u)]
  ++ [ReSub "(ṃ|ṁ)(ṭ|ḍ)"%u ("ṇ"%u ++ "\2"%u)]
  ++ [ReSub "(ṃ|ṁ)(t|d)"%u ("n"%u ++ "\2"%u)]
  ++ [ReSub "(ṃ|ṁ)(p|b)"%u ("m"%u ++ "\2"%u)].

(** aksharamukha/PostProcess.py:773-777  def NasalTilde(Strng) *)
Definition PP_NasalTilde : prog :=
  PP_AnusvaratoNasalASTISO
  ++ [ReSub "(m̐|ṃ|ṁ)"%u [0x303]%N].

(** aksharamukha/PostProcess.py:780-782  def siddhamBija(Strng) *)
Definition PP_siddhamBija : prog :=
  [].

(** aksharamukha/PostProcess.py:785-787  def verticalKana(Strng) *)
Definition PP_verticalKana : prog :=
  [].

(** aksharamukha/PostProcess.py:790-792  def verticalSiddham(Strng) *)
Definition PP_verticalSiddham : prog :=
  [].

(** aksharamukha/PostProcess.py:795-797  def vtobJapanese(txt) *)
Definition PP_vtobJapanese : prog :=
  [].

(** aksharamukha/PostProcess.py:800-803  def SogdReshAyin(Strng) *)
Definition PP_SogdReshAyin : prog :=
  [Replace "𐼽"%u "𐽀"%u].

(** aksharamukha/PostProcess.py:806-809  def SogoReshAyinDaleth(Strng) *)
Definition PP_SogoReshAyinDaleth : prog :=
  [Replace "𐼓"%u "𐼘"%u].

(** aksharamukha/PostProcess.py:812-814  def arabPaFa(Strng) *)
Definition PP_arabPaFa : prog :=
  [Replace "پ"%u "ف"%u].

(** aksharamukha/PostProcess.py:818-820  def arabChaSa(Strng) *)
Definition PP_arabChaSa : prog :=
  [Replace "چ"%u "س"%u].

(** aksharamukha/PostProcess.py:835-836  def gainGimel(Strng) *)
Definition PP_gainGimel : prog :=
  [Replace "ק"%u "ק̈"%u].

(** aksharamukha/PostProcess.py:827-828  def tavTwodot(Strng) *)
Definition PP_tavTwodot : prog :=
  [Replace "ת"%u "ת̈"%u].

(** aksharamukha/PostProcess.py:831-832  def tavThreedot(Strng) *)
Definition PP_tavThreedot : prog :=
  [Replace "תׄ"%u "ת֒"%u].

(** aksharamukha/PostProcess.py:839-848  def tokushuon(txt) *)
Definition PP_tokushuon : prog :=
  [Replace "si"%u "suxi"%u]
  ++ [Replace "zi"%u "zuxi"%u]
  ++ [Replace "yi"%u "ixi"%u]
  ++ [Replace "fy"%u "fux"%u]
  ++ [Replace "nye"%u "nixe"%u]
  ++ [ReSub "(?<![sc])hu"%u "hoxu"%u]
  ++ [ReSub "(?<![sc])hye"%u "hixe"%u].

(** aksharamukha/PostProcess.py:851-960  def JapanesePostProcess(src, tgt, txt, nativize, postoptions) *)
(** Not modelled: depends on the third-party package pykakasi. *)
Definition PP_JapanesePostProcess (src : str) (tgt : str) (nativize : bool) (postoptions : list (str)) : prog := [Raise (External "pykakasi"%u)].

(** aksharamukha/PostProcess.py:963-966  def urduRemoveInherent(Strng) *)
Definition PP_urduRemoveInherent : prog :=
  [ReSub "\Ba"%u []].

(** aksharamukha/PostProcess.py:969-978  def HebrewVetVav(Strng) *)
Definition PP_HebrewVetVav : prog :=
  let shortVowels := (("("%u ++ (join "|"%u [[0x5B7]%N; [0x5B8]%N; [0x5B4]%N; [0x5BB]%N; [0x5B5]%N; [0x5B6]%N; [0x5B9]%N; [0x5B0]%N])) ++ ")"%u) in
  [ReSub ((((shortVowels ++ "("%u) ++ "ו"%u) ++ ")"%u) ++ "(?!ּ)"%u) ("\1"%u ++ "ב"%u)]
  ++ [Replace "בֺ"%u "בֹ"%u].

(** aksharamukha/PostProcess.py:980-982  def devanagariuttara(Strng) *)
Definition PP_devanagariuttara : prog :=
  [].

(** aksharamukha/PostProcess.py:984-986  def devanagarinepali(Strng) *)
Definition PP_devanagarinepali : prog :=
  [].

(** aksharamukha/PostProcess.py:988-990  def devanagaribalbodh(Strng) *)
Definition PP_devanagaribalbodh : prog :=
  [].

(** aksharamukha/PostProcess.py:992-994  def devanagarijain(Strng) *)
Definition PP_devanagarijain : prog :=
  [].

(** aksharamukha/PostProcess.py:996-998  def HiraganaaunotDipthong(Strng) *)
Definition PP_HiraganaaunotDipthong : prog :=
  [].

(** aksharamukha/PostProcess.py:1001-1003  def IASTISONasalTilde(Strng) *)
Definition PP_IASTISONasalTilde : prog :=
  [].

(** aksharamukha/PostProcess.py:1006-1009  def HeberewQoph(Strng) *)
Definition PP_HeberewQoph : prog :=
  [Replace "כּ"%u "ק"%u]
  ++ [Replace "ךּ"%u "ק"%u].

(** aksharamukha/PostProcess.py:1012-1015  def HebewShortO(Strng) *)
Definition PP_HebewShortO : prog :=
  [ReSub "(?<!ו)ֹ"%u [0x5C7]%N].

(** aksharamukha/PostProcess.py:1018-1022  def HebrewKatevMalei(Strng) *)
Definition PP_HebrewKatevMalei : prog :=
  [Replace [0x5B8]%N "א"%u]
  ++ [Replace [0x5B7]%N "א"%u].

(** aksharamukha/PostProcess.py:1025-1054  def HebrewnonFinalShort(Strng) *)
Definition PP_HebrewnonFinalShort : prog :=
  let finals := ["ך"%u; "ם"%u; "ן"%u; "ף"%u; "ץ"%u; "ףּ"%u; "ךּ"%u] in
  let finalCons := ["כ"%u; "מ"%u; "נ"%u; "פ"%u; "צ"%u; "פּ"%u; "כּ"%u] in
  let otherCons := (split ","%u "ב,ח,ע,צ,ש,ת"%u) in
  let! v1 := CrunchSymbols GM_Consonants "Hebrew"%u in
  let consonantsAll := (("("%u ++ (join "|"%u (((v1 ++ finals) ++ ["׳"%u; "י"%u; "ו"%u]) ++ otherCons))) ++ ")"%u) in
  let shortVowels := [[0x5B7]%N; [0x5B8]%N; [0x5B4]%N; [0x5BB]%N; [0x5B5]%N; [0x5B6]%N; [0x5B9]%N; [0x5C7]%N] in
  let shortVowelsR := (("("%u ++ (join "|"%u ([[0x5B7]%N; [0x5B8]%N; [0x5B4]%N; [0x5BB]%N; [0x5B5]%N; [0x5B6]%N; [0x5B9]%N; [0x5C7]%N] ++ ["׳"%u]))) ++ ")"%u) in
  foreach shortVowels (fun s => 
    [ReSub (((((("("%u ++ s) ++ ")"%u) ++ "(׳?)"%u) ++ "(?!"%u) ++ consonantsAll) ++ ")"%u) (("\1\2"%u ++ "ה"%u) ++ "ʾ"%u)])
  ++ foreach (zip finals finalCons) (fun '(f, c) => 
    [ReSub (((((("("%u ++ f) ++ ")"%u) ++ shortVowelsR) ++ "(׳?)"%u) ++ "ה"%u) ++ "ʾ"%u) ((c ++ "\2\3"%u) ++ "ה"%u)])
  ++ foreach finals (fun f => 
    [Replace (f ++ [0x5B0]%N) f])
  ++ [Replace ((([0x5B0]%N ++ "׳"%u) ++ "ה"%u) ++ "ʾ"%u) ([0x5B0]%N ++ "׳"%u)]
  ++ [Replace ("וֹה"%u ++ "ʾ"%u) "וֹ"%u]
  ++ [Replace "ʾ"%u []]
  ++ (let uVowels := ["וֹ"%u; "וּ"%u] in
  []).

(** aksharamukha/PostProcess.py:2688-2711  def NasalToAnusvara(Strng, Target) *)
Definition PP_NasalToAnusvara (Target : str) : prog :=
  let! v3 := mapR (fun x => do v1 <- CrunchSymbols GM_Consonants Target; do v2 <- idx v1 x; Ok v2) [(4)%Z; (9)%Z; (14)%Z; (19)%Z; (24)%Z] in
  let ListN := v3 in
  let! v4 := CrunchList "ConsonantMap"%u Target in
  let! v5 := CrunchList "ConsonantMap"%u Target in
  let! v6 := CrunchList "ConsonantMap"%u Target in
  let! v7 := CrunchList "ConsonantMap"%u Target in
  let! v8 := CrunchList "ConsonantMap"%u Target in
  let ListC := [(join "|"%u (slice v4 (Some (0)%Z) (Some (4)%Z))); (join "|"%u (slice v5 (Some (5)%Z) (Some (9)%Z))); (join "|"%u (slice v6 (Some (10)%Z) (Some (14)%Z))); (join "|"%u (slice v7 (Some (15)%Z) (Some (19)%Z))); (join "|"%u (slice v8 (Some (20)%Z) (Some (24)%Z)))] in
  let! v9 := CrunchSymbols GM_Characters Target in
  let ListCAll := (("("%u ++ (join "|"%u v9)) ++ ")"%u) in
  let! v10 := CrunchSymbols GM_VowelSigns Target in
  let! v11 := idx v10 (0)%Z in
  let vir := v11 in
  let! v12 := CrunchSymbols GM_CombiningSigns Target in
  let! v13 := idx v12 (1)%Z in
  let Anu := v13 in
  foreach (range 0%Z (Z.of_nat (length ListN))) (fun i => 
    let! v14 := idx ListN i in
  let! v15 := idx ListC i in
  [ReSub (((((((((((((ListCAll ++ GM_VedicSvaras) ++ "(?<!"%u) ++ vir) ++ ")"%u) ++ "("%u) ++ v14) ++ ")"%u) ++ "("%u) ++ vir) ++ ")"%u) ++ "("%u) ++ v15) ++ ")"%u) (("\1\2"%u ++ Anu) ++ "\5"%u)]
  ++ (let! v16 := idx ListN i in
  let! v17 := idx ListC i in
  [ReSub (((((((((((((ListCAll ++ GM_VedicSvaras) ++ "(?<!"%u) ++ vir) ++ ")"%u) ++ "("%u) ++ v16) ++ ")"%u) ++ "("%u) ++ vir) ++ ")"%u) ++ "("%u) ++ v17) ++ ")"%u) (("\1\2"%u ++ Anu) ++ "\5"%u)]))
  ++ foreach GM_VedicSvarasList (fun svara => 
    [Replace (svara ++ Anu) (Anu ++ svara)]).

(** aksharamukha/PostProcess.py:1056-1058  def DevanagariAnusvara(Strng) *)
Definition PP_DevanagariAnusvara : prog :=
  (PP_NasalToAnusvara "Devanagari"%u).

(** aksharamukha/PostProcess.py:1060-1063  def jainomDevangari(Strng) *)
Definition PP_jainomDevangari : prog :=
  [Replace "ॐ"%u "ꣽ"%u].

(** aksharamukha/PostProcess.py:1065-1068  def GurmukhiCandrabindu(Strng) *)
Definition PP_GurmukhiCandrabindu : prog :=
  [Replace [0xA01]%N [0xA02]%N].

(** aksharamukha/PostProcess.py:1071-1074  def mDotAboveToBelow(Strng) *)
Definition PP_mDotAboveToBelow : prog :=
  [Replace "ṃ"%u "ṁ"%u].

(** aksharamukha/PostProcess.py:1077-1080  def mDotBelowToAbove(Strng) *)
Definition PP_mDotBelowToAbove : prog :=
  [Replace "ṁ"%u "ṃ"%u].

(** aksharamukha/PostProcess.py:1084-1087  def noLongEO(Strng) *)
Definition PP_noLongEO : prog :=
  [Replace "ē"%u "e"%u]
  ++ [Replace "ō"%u "o"%u].

(** aksharamukha/PostProcess.py:1089-1092  def TamilStyleUUCore(Strng) *)
Definition PP_TamilStyleUUCore : prog :=
  [ReSub ("([ഖഗഘഛഝഠഡഢഥദധഫബഭ])"%u ++ "([ുൂ])"%u) (("\1"%u ++ [0x200D]%N) ++ "\2"%u)].

(** aksharamukha/PostProcess.py:1094-1100  def TamilStyleUUOther(Strng) *)
Definition PP_TamilStyleUUOther : prog :=
  [ReSub ("([ജശഷസഹ])"%u ++ "([ുൂ])"%u) (("\1"%u ++ [0x200D]%N) ++ "\2"%u)]
  ++ [ReSub ("(ശ്ര)"%u ++ "([ുൂ])"%u) (("\1"%u ++ [0x200D]%N) ++ "\2"%u)]
  ++ [ReSub ([0x28; 0xD36; 0xD4D; 0x200D; 0xD30; 0x29]%N ++ "([ുൂ])"%u) (("\1"%u ++ [0x200D]%N) ++ "\2"%u)].

(** aksharamukha/PostProcess.py:1102-1128  def ContextualLLa(Strng) *)
Definition PP_ContextualLLa : prog :=
  let! v1 := CrunchSymbols GM_VowelSigns "Tamil"%u in
  let ListVS := (join "|"%u v1) in
  let! v2 := CrunchSymbols GM_Consonants "Tamil"%u in
  let ListC := (join "|"%u v2) in
  [ReSub ("(ஆவ|ாவ)"%u ++ "ல"%u) ("\1"%u ++ "ள"%u)]
  ++ [ReSub ("(்ரவா|்ரவ|ர|பவ|வி|ரா|ஷ்க|த⁴வ)"%u ++ "ல"%u) ("\1"%u ++ "ள"%u)]
  ++ [ReSub ("(யா|யாம|கோம)"%u ++ "ல"%u) ("\1"%u ++ "ள"%u)]
  ++ [ReSub ("(மௌ)"%u ++ "ல"%u) ("\1"%u ++ "ள"%u)]
  ++ [ReSub ("([\s^])(ந)"%u ++ "ல"%u) ("\1"%u ++ "ள"%u)]
  ++ [Replace "கலத்ர"%u "களத்ர"%u]
  ++ [Replace "ஶீதல"%u "ஶீதள"%u]
  ++ [Replace "ஸுதல"%u "ஸுதள"%u]
  ++ [Replace "காலி"%u "காளி"%u]
  ++ [Replace "காலீ"%u "காளீ"%u]
  ++ [Replace "கலேவர"%u "களேவர"%u]
  ++ [Replace "கலேவர"%u "களேவர"%u]
  ++ [Replace "ப³ஹுல"%u "ப³ஹுள"%u]
  ++ [Replace "கஶ்மல"%u "கஶ்மள"%u]
  ++ [ReSub ((((("([கத])"%u ++ "("%u) ++ ListVS) ++ ")?"%u) ++ "([³⁴])"%u) ++ "ல"%u) ("\1\2\3"%u ++ "ள"%u)]
  ++ [ReSub ("(ஜு)"%u ++ "ல"%u) ("\1"%u ++ "ள"%u)]
  ++ [ReSub ("(து)"%u ++ "லசி"%u) ("\1"%u ++ "ளசி"%u)]
  ++ [ReSub ("(ரிம)"%u ++ "ல"%u) ("\1"%u ++ "ள"%u)]
  ++ [Replace "ள்ய"%u "ல்ய"%u].

(** aksharamukha/PostProcess.py:1130-1137  def FinalNNa(Strng) *)
Definition PP_FinalNNa : prog :=
  [ReSub "ன"%u "ந"%u]
  ++ [ReSub ("ந்"%u ++ "([\.।॥,!-])"%u) ("ன்"%u ++ "\1"%u)]
  ++ [ReSub ("ந்"%u ++ "(\s)"%u) ("ன்"%u ++ "\1"%u)]
  ++ [ReSub "ந்$"%u "ன்"%u].

(** aksharamukha/PostProcess.py:1139-1312  def TamilpredictDentaNaExtended(Strng) *)
Definition PP_TamilpredictDentaNaExtended : prog :=
  let listDentalNa := (split [0xA]%N [0xD29; 0xD16; 0xA; 0xD29; 0xD17; 0xD30; 0xA; 0xD29; 0xD15; 0xD41; 0xD32; 0xA; 0xD29; 0xD17; 0xD4D; 0x200C; 0xD29; 0xA; 0xD29; 0xD15; 0xD4D; 0xD37; 0xD24; 0xD4D; 0x200C; 0xD30; 0xA; 0xD29; 0xD1F; 0xD30; 0xD3E; 0xD1C; 0xA; 0xD29; 0xD1F; 0xD40; 0xA; 0xD29; 0xD26; 0xD40; 0xA; 0xD29; 0xD28; 0xD4D; 0x200C; 0xD26; 0xD29; 0xA; 0xD29; 0xD2A; 0xD41; 0xD02; 0xD38; 0xD15; 0xA; 0xD29; 0xD2D; 0x2A; 0x2A; 0xA; 0xD29; 0xD2E; 0x2A; 0x2A; 0xA; 0xD29; 0xD2E; 0xD36; 0xD4D; 0x200C; 0xA; 0xD29; 0xD2E; 0xD38; 0xD4D; 0x200C; 0xA; 0xD29; 0xD2E; 0xD3E; 0xD2E; 0xA; 0xD29; 0xD2E; 0xD3E; 0xD2E; 0xD3F; 0xA; 0xD29; 0xD2E; 0xD3E; 0xD2E; 0xD4B; 0xA; 0xD29; 0xD2E; 0xD41; 0xD1A; 0xD3F; 0xA; 0xD29; 0xD2E; 0xD4B; 0xA; 0xD29; 0xD2E; 0xD4B; 0xD28; 0xD2E; 0xA; 0xD29; 0xD2E; 0xD4B; 0xD28; 0xD2E; 0xD4B; 0xA; 0xD29; 0xD2E; 0xD4B; 0xD38; 0xD4D; 0x200C; 0xD24; 0xD41; 0xA; 0xD29; 0xD2E; 0xD4B; 0xD38; 0xD4D; 0x200C; 0xD24; 0xD41; 0xD24; 0xD47; 0xA; 0xD29; 0xD2E; 0xD03; 0xA; 0xD29; 0xD2F; 0xD29; 0xA; 0xD29; 0xD30; 0x2A; 0x2A; 0xA; 0xD29; 0xD30; 0xD15; 0xA; 0xD29; 0xD30; 0xD4D; 0x200C; 0xD24; 0xD15; 0xA; 0xD29; 0xD30; 0xD4D; 0x200C; 0xD24; 0xD29; 0xA; 0xD29; 0xD30; 0xD4D; 0x200C; 0xD2E; 0xD26; 0xA; 0xD29; 0xD32; 0x2A; 0x2A; 0xA; 0xD29; 0xD32; 0xD3F; 0xD29; 0xA; 0xD29; 0xD35; 0x2A; 0x2A; 0xA; 0xD29; 0xD35; 0xD40; 0xD29; 0xA; 0xD29; 0xD35; 0xD4D; 0x200C; 0xD2F; 0xA; 0xD29; 0xD36; 0xD4D; 0x200C; 0x2A; 0x2A; 0xA; 0xD29; 0xD37; 0xD4D; 0x200C; 0xD1F; 0xA; 0xD29; 0xD3E; 0xD30; 0xD3E; 0xD2F; 0xD23; 0xA; 0xD29; 0xD3E; 0xD17; 0xA; 0xD29; 0xD3E; 0xD1F; 0xD15; 0xA; 0xD29; 0xD3E; 0xD21; 0xD40; 0xA; 0xD29; 0xD3E; 0xD1F; 0xD4D; 0x200C; 0xD2F; 0xA; 0xD29; 0xD3E; 0xD21; 0xD4D; 0x200C; 0xD2F; 0xA; 0xD29; 0xD3E; 0xD25; 0xA; 0xD29; 0xD3E; 0xD26; 0xA; 0xD29; 0xD3E; 0xD30; 0xD24; 0xA; 0xD29; 0xD3E; 0xD29; 0xD3E; 0x2A; 0x2A; 0x2A; 0xA; 0xD29; 0xD3E; 0xD29; 0xD4D; 0x200C; 0xD2F; 0x2A; 0x2A; 0xA; 0xD29; 0xD3E; 0xD29; 0xD43; 0xD24; 0xA; 0xD29; 0xD3E; 0xD2D; 0xA; 0xD29; 0xD3E; 0xD2E; 0xA; 0xD29; 0xD3E; 0xD2F; 0xD15; 0xA; 0xD29; 0xD3E; 0xD2F; 0xD3F; 0xD15; 0xD3E; 0xA; 0xD29; 0xD3E; 0xD30; 0xD26; 0xA; 0xD29; 0xD3E; 0xD30; 0xD38; 0xD3F; 0xD02; 0xD39; 0xA; 0xD29; 0xD3E; 0xD30; 0xD3F; 0xA; 0xD29; 0xD3E; 0xD30; 0xD40; 0xA; 0xD29; 0xD3E; 0xD35; 0x2A; 0x2A; 0x2A; 0xA; 0xD29; 0xD3E; 0xD36; 0xA; 0xD29; 0xD3E; 0xD38; 0xD3F; 0xD15; 0xA; 0xD29; 0xD3F; 0xD17; 0xD2E; 0xA; 0xD29; 0xD3F; 0xD15; 0xD1F; 0xA; 0xD29; 0xD3F; 0xD15; 0xD30; 0xA; 0xD29; 0xD3F; 0xD15; 0xD3E; 0xD2E; 0xA; 0xD29; 0xD3F; 0xD15; 0xD3E; 0xD2F; 0xA; 0xD29; 0xD3F; 0xD16; 0xD3F; 0xD32; 0xA; 0xD29; 0xD3F; 0xD15; 0xD41; 0xD1E; 0xD4D; 0x200C; 0xD1C; 0xA; 0xD29; 0xD3F; 0xD18; 0xD42; 0xD29; 0xA; 0xD29; 0xD3F; 0xD15; 0xD47; 0xD24; 0xA; 0xD29; 0xD3F; 0xD17; 0xD4D; 0x200C; 0xD30; 0xD39; 0xA; 0xD29; 0xD3F; 0xD17; 0xD43; 0xD39; 0xA; 0xD29; 0xD3F; 0xD15; 0xD43; 0xD28; 0xD4D; 0x200C; 0xD24; 0xA; 0xD29; 0xD3F; 0xD17; 0xD4D; 0x200C; 0xD30; 0xD28; 0xD4D; 0x200C; 0xD24; 0xA; 0xD29; 0xD3F; 0xD15; 0xD4D; 0xD37; 0xD3F; 0xD2A; 0xA; 0xD29; 0xD3F; 0xD15; 0xD4D; 0xD37; 0xD47; 0xD2A; 0xA; 0xD29; 0xD3F; 0xD18; 0xD4D; 0x200C; 0xD29; 0xA; 0xD29; 0xD3F; 0xD1C; 0xA; 0xD29; 0xD3F; 0xD26; 0xD30; 0xD4D; 0x200C; 0xD36; 0xA; 0xD29; 0xD3F; 0xD24; 0xD2E; 0xD4D; 0x200C; 0xD2C; 0xA; 0xD29; 0xD3F; 0xD24; 0xD30; 0xA; 0xD29; 0xD3F; 0xD26; 0xD3E; 0xD18; 0xA; 0xD29; 0xD3F; 0xD26; 0xD3E; 0xD29; 0xA; 0xD29; 0xD3F; 0xD24; 0xD3E; 0xD28; 0xD4D; 0x200C; 0xD24; 0xA; 0xD29; 0xD3F; 0xD27; 0xD3E; 0xD29; 0xA; 0xD29; 0xD3F; 0xD27; 0xD3E; 0xD2F; 0xA; 0xD29; 0xD3F; 0xD27; 0xA; 0xD29; 0xD3F; 0xD27; 0xD47; 0xD39; 0xD3F; 0xA; 0xD29; 0xD3F; 0xD26; 0xD4D; 0x200C; 0xD30; 0xA; 0xD29; 0xD3F; 0xD24; 0xD4D; 0x200C; 0xD2F; 0xA; 0xD29; 0xD3F; 0xD28; 0xD4D; 0x200C; 0xD26; 0xD3E; 0xA; 0xD29; 0xD3F; 0xD2C; 0xD26; 0xD4D; 0x200C; 0xD27; 0xA; 0xD29; 0xD3F; 0xD2C; 0xD27; 0xD4D; 0x200C; 0xA; 0xD29; 0xD3F; 0xD2C; 0xD28; 0xD4D; 0x200C; 0xD27; 0xD29; 0xA; 0xD29; 0xD3F; 0xD2A; 0xD1F; 0xA; 0xD29; 0xD3F; 0xD2A; 0xD24; 0xD3F; 0xD24; 0xA; 0xD29; 0xD3F; 0xD2A; 0xD24; 0xD4D; 0x200C; 0xD2F; 0xA; 0xD29; 0xD3F; 0xD2A; 0xD2A; 0xD3E; 0xD24; 0xA; 0xD29; 0xD3F; 0xD2A; 0xD3E; 0xD24; 0xD3F; 0xD24; 0xA; 0xD29; 0xD3F; 0xD2A; 0xD3E; 0xD24; 0xD4D; 0x200C; 0xD2F; 0xA; 0xD29; 0xD3F; 0xD2A; 0xD41; 0xD23; 0xA; 0xD29; 0xD3F; 0xD2C; 0xD4B; 0xD27; 0xA; 0xD29; 0xD3F; 0xD2D; 0xD43; 0xD24; 0xA; 0xD29; 0xD3F; 0xD2E; 0xD17; 0xD4D; 0x200C; 0xD29; 0xA; 0xD29; 0xD3F; 0xD2E; 0xD3F; 0xD24; 0xD4D; 0x200C; 0xD24; 0xA; 0xD29; 0xD3F; 0xD2E; 0xD3F; 0xD37; 0xA; 0xD29; 0xD3F; 0xD2F; 0xD24; 0xA; 0xD29; 0xD3F; 0xD2F; 0xD28; 0xD4D; 0x200C; 0xD24; 0xA; 0xD29; 0xD3F; 0xD2F; 0xD28; 0xD4D; 0x200C; 0xD24; 0xD4D; 0x200C; 0xD30; 0xA; 0xD29; 0xD3F; 0xD2F; 0xD2E; 0xA; 0xD29; 0xD3F; 0xD2F; 0xD41; 0xD15; 0xD4D; 0x200C; 0xD24; 0xA; 0xD29; 0xD3F; 0xD2F; 0xD41; 0xD1C; 0xD4D; 0x200C; 0xD2F; 0xA; 0xD29; 0xD3F; 0xD2F; 0xD4B; 0xA; 0xD29; 0xD3F; 0xD30; 0xA; 0xD29; 0xD3F; 0xD30; 0xD4D; 0x200C; 0xA; 0xD29; 0xD3F; 0xD32; 0xD2F; 0xA; 0xD29; 0xD3F; 0xD35; 0xD30; 0xD4D; 0x200C; 0xA; 0xD29; 0xD3F; 0xD35; 0xD38; 0xA; 0xD29; 0xD3F; 0xD35; 0xD3E; 0xD30; 0xA; 0xD29; 0xD3F; 0xD35; 0xD3E; 0xD38; 0xA; 0xD29; 0xD3F; 0xD35; 0xD3F; 0xD37; 0xD4D; 0x200C; 0xD1F; 0xA; 0xD29; 0xD3F; 0xD35; 0xD47; 0xD26; 0xA; 0xD29; 0xD3F; 0xD35; 0xD47; 0xD36; 0xA; 0xD29; 0xD3F; 0xD35; 0xD43; 0xA; 0xD29; 0xD3F; 0xD36; 0xA; 0xD29; 0xD3F; 0xD36; 0xD4D; 0x200C; 0xA; 0xD29; 0xD3F; 0xD37; 0xA; 0xD29; 0xD3F; 0xD37; 0xD4D; 0x200C; 0xA; 0xD29; 0xD3F; 0xD38; 0xA; 0xD29; 0xD3F; 0xD38; 0xD4D; 0x200C; 0xA; 0xD29; 0xD3F; 0xD39; 0xD3F; 0xD24; 0xA; 0xD29; 0xD3F; 0xD03; 0xD36; 0xA; 0xD29; 0xD3F; 0xD03; 0xD37; 0xA; 0xD29; 0xD3F; 0xD03; 0xD38; 0xA; 0xD29; 0xD40; 0xD1A; 0xA; 0xD29; 0xD40; 0xD24; 0xD3F; 0xA; 0xD29; 0xD40; 0xD30; 0xA; 0xD29; 0xD40; 0xD32; 0xA; 0xD29; 0xD42; 0xD24; 0xD29; 0xA; 0xD29; 0xD42; 0xD2A; 0xD41; 0xD30; 0xA; 0xD29; 0xD47; 0xD24; 0xD4D; 0x200C; 0xD30; 0xA; 0xD29; 0xD47; 0xD2F; 0x2A; 0x2A; 0xA; 0xD29; 0xD48; 0xD2E; 0xD3F; 0xD24; 0xD4D; 0x200C; 0xD24; 0xA; 0xD29; 0xD48; 0xD2E; 0xD3F; 0xD37; 0xA; 0xD29; 0xD48; 0xD30; 0xD3E; 0xD36; 0xD4D; 0x200C; 0xD2F; 0xA; 0xD29; 0xD48; 0xD30; 0xD43; 0xD24; 0xA; 0xD29; 0xD48; 0xD35; 0xD47; 0xD26; 0xD4D; 0x200C; 0xD2F; 0xA; 0xD29; 0xD48; 0xD37; 0xD4D; 0x200C; 0xA; 0xD29; 0xD4D; 0x200C; 0xD2F; 0xD3E; 0xD2F; 0xA; 0xD29; 0xD4D; 0x200C; 0xD2F; 0xD3E; 0xD38; 0xA; 0xD29; 0xD4D; 0x200C; 0xD2F; 0xD42; 0xD29; 0xA; 0xD29; 0xD43]%N) in
  let! v1 := idx (attr "MainIndic"%u "Tamil"%u "ViramaMap"%u) (0)%Z in
  let vir := v1 in
  foreach listDentalNa (fun wordNna => 
    let! v2 := re_sub "^ഩ"%u "ന"%u wordNna in
  let wordNa := v2 in
  let! v5 := sidx wordNna (-1)%Z in
  let! v6 := sidx wordNna (-1)%Z in
  let! v7 := sidx wordNna (-1)%Z in
  (if (orb (contains "²"%u v5) (orb (contains "³"%u v6) (contains "⁴"%u v7))) then (let! v3 := sidx wordNna (-1)%Z in
  let number := v3 in
  let wordNnaN := (slice wordNna None (Some (-1)%Z)) in
  let wordNaN := (slice wordNa None (Some (-1)%Z)) in
  let! v4 := CrunchSymbols GM_VowelSigns "Tamil"%u in
  foreach v4 (fun vow => 
    [Replace ((wordNnaN ++ vow) ++ number) ((wordNaN ++ vow) ++ number)])) else ([]))
  ++ [Replace wordNna wordNa]
  ++ foreach ["ഩാമ"%u; "ഩര"%u] (fun wordNna => 
    let! v8 := re_sub "^ഩ"%u "ന"%u wordNna in
  let wordNa := v8 in
  [Replace (wordNa ++ vir) (wordNna ++ vir)])
  ++ [Replace [0xD29; 0xD4D; 0x200C; 0xD28]%N [0xD28; 0xD4D; 0x200C; 0xD28]%N]).

(** aksharamukha/PostProcess.py:1314-1491  def TamilpredictDentaNa(Strng) *)
Definition PP_TamilpredictDentaNa : prog :=
  let listDentalNa := (split [0xA]%N [0xBA9; 0xB95; 0xB2; 0xA; 0xBA9; 0xB95; 0xB3; 0xBB0; 0xA; 0xBA9; 0xB95; 0xBC1; 0xBB2; 0xA; 0xBA9; 0xB95; 0xBCD; 0xB3; 0xBA9; 0xA; 0xBA9; 0xB95; 0xBCD; 0xBB7; 0xBA4; 0xBCD; 0xBB0; 0xA; 0xBA9; 0xB9F; 0xBB0; 0xBBE; 0xB9C; 0xA; 0xBA9; 0xB9F; 0xBC0; 0xA; 0xBA9; 0xBA4; 0xBC0; 0xB3; 0xA; 0xBA9; 0xBA8; 0xBCD; 0xBA4; 0xB3; 0xBA9; 0xA; 0xBA9; 0xBAA; 0xBC1; 0xBAE; 0xBCD; 0x2BC; 0xBB8; 0xB95; 0xA; 0xBA9; 0xBAA; 0x2074; 0x2A; 0x2A; 0xA; 0xBA9; 0xBAE; 0x2A; 0x2A; 0xA; 0xBA9; 0xBAE; 0xBB6; 0xBCD; 0xA; 0xBA9; 0xBAE; 0xBB8; 0xBCD; 0xA; 0xBA9; 0xBAE; 0xBBE; 0xBAE; 0xA; 0xBA9; 0xBAE; 0xBBE; 0xBAE; 0xBBF; 0xA; 0xBA9; 0xBAE; 0xBBE; 0xBAE; 0xBCB; 0xA; 0xBA9; 0xBAE; 0xBC1; 0xB9A; 0xBBF; 0xA; 0xBA9; 0xBAE; 0xBCB; 0xA; 0xBA9; 0xBAE; 0xBCB; 0xBA8; 0xBAE; 0xA; 0xBA9; 0xBAE; 0xBCB; 0xBA8; 0xBAE; 0xBCB; 0xA; 0xBA9; 0xBAE; 0xBCB; 0xBB8; 0xBCD; 0xBA4; 0xBC1; 0xA; 0xBA9; 0xBAE; 0xBCB; 0xBB8; 0xBCD; 0xBA4; 0xBC1; 0xBA4; 0xBC7; 0xA; 0xBA9; 0xBAE; 0xA789; 0xA; 0xBA9; 0xBAF; 0xBA9; 0xA; 0xBA9; 0xBB0; 0x2A; 0x2A; 0xA; 0xBA9; 0xBB0; 0xB95; 0xA; 0xBA9; 0xBB0; 0xBCD; 0xBA4; 0xB95; 0xA; 0xBA9; 0xBB0; 0xBCD; 0xBA4; 0xBA9; 0xA; 0xBA9; 0xBB0; 0xBCD; 0xBAE; 0xBA4; 0xB3; 0xA; 0xBA9; 0xBB2; 0x2A; 0x2A; 0xA; 0xBA9; 0xBB2; 0xBBF; 0xBA9; 0xA; 0xBA9; 0xBB5; 0x2A; 0x2A; 0xA; 0xBA9; 0xBB5; 0xBC0; 0xBA9; 0xA; 0xBA9; 0xBB5; 0xBCD; 0xBAF; 0xA; 0xBA9; 0xBB6; 0xBCD; 0x2A; 0x2A; 0xA; 0xBA9; 0xBB7; 0xBCD; 0xB9F; 0xA; 0xBA9; 0xBBE; 0xBB0; 0xBBE; 0xBAF; 0xBA3; 0xA; 0xBA9; 0xBBE; 0xB95; 0xB3; 0xA; 0xBA9; 0xBBE; 0xB9F; 0xB95; 0xA; 0xBA9; 0xBBE; 0xB9F; 0xBC0; 0xB3; 0xA; 0xBA9; 0xBBE; 0xB9F; 0xBCD; 0xBAF; 0xA; 0xBA9; 0xBBE; 0xB9F; 0xBCD; 0xB3; 0xBAF; 0xA; 0xBA9; 0xBBE; 0xBA4; 0xB2; 0xA; 0xBA9; 0xBBE; 0xBA4; 0xB3; 0xA; 0xBA9; 0xBBE; 0xBB0; 0xBA4; 0xA; 0xBA9; 0xBBE; 0xBA9; 0xBBE; 0x2A; 0x2A; 0x2A; 0xA; 0xBA9; 0xBBE; 0xBA9; 0xBCD; 0xBAF; 0x2A; 0x2A; 0xA; 0xBA9; 0xBBE; 0xBA9; 0xBCD; 0xBB0; 0xBC1; 0x2BC; 0xBA4; 0xA; 0xBA9; 0xBBE; 0xBAA; 0x2074; 0xA; 0xBA9; 0xBBE; 0xBAE; 0xA; 0xBA9; 0xBBE; 0xBAF; 0xB95; 0xA; 0xBA9; 0xBBE; 0xBAF; 0xBBF; 0xB95; 0xBBE; 0xA; 0xBA9; 0xBBE; 0xBB0; 0xBA4; 0xB3; 0xA; 0xBA9; 0xBBE; 0xBB0; 0xBB8; 0xBBF; 0xBAE; 0xBCD; 0x2BC; 0xBB9; 0xA; 0xBA9; 0xBBE; 0xBB0; 0xBBF; 0xA; 0xBA9; 0xBBE; 0xBB0; 0xBC0; 0xA; 0xBA9; 0xBBE; 0xBB5; 0x2A; 0x2A; 0x2A; 0xA; 0xBA9; 0xBBE; 0xBB6; 0xA; 0xBA9; 0xBBE; 0xBB8; 0xBBF; 0xB95; 0xA; 0xBA9; 0xBBF; 0xB95; 0xB3; 0xBAE; 0xA; 0xBA9; 0xBBF; 0xB95; 0xB9F; 0xA; 0xBA9; 0xBBF; 0xB95; 0xBB0; 0xA; 0xBA9; 0xBBF; 0xB95; 0xBBE; 0xBAE; 0xA; 0xBA9; 0xBBF; 0xB95; 0xBBE; 0xBAF; 0xA; 0xBA9; 0xBBF; 0xB95; 0xBBF; 0xB2; 0xBB2; 0xA; 0xBA9; 0xBBF; 0xB95; 0xBC1; 0xB9E; 0xBCD; 0xB9C; 0xA; 0xBA9; 0xBBF; 0xB95; 0xBC2; 0x2074; 0xBA9; 0xA; 0xBA9; 0xBBF; 0xB95; 0xBC7; 0xBA4; 0xA; 0xBA9; 0xBBF; 0xB95; 0xBCD; 0xB3; 0xBB0; 0xBB9; 0xA; 0xBA9; 0xBBF; 0xB95; 0xBCD; 0xB3; 0xBB0; 0xBC1; 0x2BC; 0xBB9; 0xA; 0xBA9; 0xBBF; 0xB95; 0xBCD; 0xBB0; 0xBC1; 0x2BC; 0xBA8; 0xBCD; 0xBA4; 0xA; 0xBA9; 0xBBF; 0xB95; 0xBCD; 0xB3; 0xBB0; 0xBA8; 0xBCD; 0xBA4; 0xA; 0xBA9; 0xBBF; 0xB95; 0xBCD; 0xBB7; 0xBBF; 0xBAA; 0xA; 0xBA9; 0xBBF; 0xB95; 0xBCD; 0xBB7; 0xBC7; 0xBAA; 0xA; 0xBA9; 0xBBF; 0xB95; 0xBCD; 0x2074; 0xBA9; 0xA; 0xBA9; 0xBBF; 0xB9C; 0xA; 0xBA9; 0xBBF; 0xBA4; 0xB3; 0xBB0; 0xBCD; 0xBB6; 0xA; 0xBA9; 0xBBF; 0xBA4; 0xBAE; 0xBCD; 0xBAA; 0xB3; 0xA; 0xBA9; 0xBBF; 0xBA4; 0xBB0; 0xA; 0xBA9; 0xBBF; 0xBA4; 0xBBE; 0xB3; 0xB95; 0x2074; 0xA; 0xBA9; 0xBBF; 0xBA4; 0xBBE; 0xB3; 0xBA9; 0xA; 0xBA9; 0xBBF; 0xBA4; 0xBBE; 0xBA8; 0xBCD; 0xBA4; 0xA; 0xBA9; 0xBBF; 0xBA4; 0xBBE; 0x2074; 0xBA9; 0xA; 0xBA9; 0xBBF; 0xBA4; 0xBBE; 0x2074; 0xBAF; 0xA; 0xBA9; 0xBBF; 0xBA4; 0x2074; 0xA; 0xBA9; 0xBBF; 0xBA4; 0xBC7; 0x2074; 0xBB9; 0xBBF; 0xA; 0xBA9; 0xBBF; 0xBA4; 0xBCD; 0xB3; 0xBB0; 0xA; 0xBA9; 0xBBF; 0xBA4; 0xBCD; 0xBAF; 0xA; 0xBA9; 0xBBF; 0xBA8; 0xBCD; 0xBA4; 0xBBE; 0xB3; 0xA; 0xBA9; 0xBBF; 0xBAA; 0xB3; 0xBA4; 0xBCD; 0xB3; 0xBA4; 0x2074; 0xA; 0xBA9; 0xBBF; 0xBAA; 0xB3; 0xBA4; 0xBCD; 0x2074; 0xA; 0xBA9; 0xBBF; 0xBAA; 0xB3; 0xBA8; 0xBCD; 0xBA4; 0x2074; 0xBA9; 0xA; 0xBA9; 0xBBF; 0xBAA; 0xB9F; 0xA; 0xBA9; 0xBBF; 0xBAA; 0xBA4; 0xBBF; 0xBA4; 0xA; 0xBA9; 0xBBF; 0xBAA; 0xBA4; 0xBCD; 0xBAF; 0xA; 0xBA9; 0xBBF; 0xBAA; 0xBAA; 0xBBE; 0xBA4; 0xA; 0xBA9; 0xBBF; 0xBAA; 0xBBE; 0xBA4; 0xBBF; 0xBA4; 0xA; 0xBA9; 0xBBF; 0xBAA; 0xBBE; 0xBA4; 0xBCD; 0xBAF; 0xA; 0xBA9; 0xBBF; 0xBAA; 0xBC1; 0xBA3; 0xA; 0xBA9; 0xBBF; 0xBAA; 0xBCB; 0xB3; 0xBA4; 0x2074; 0xA; 0xBA9; 0xBBF; 0xBAA; 0xBCD; 0x2074; 0xBB0; 0xBC1; 0x2BC; 0xBA4; 0xA; 0xBA9; 0xBBF; 0xBAE; 0xB95; 0xBCD; 0xB3; 0xBA9; 0xA; 0xBA9; 0xBBF; 0xBAE; 0xBBF; 0xBA4; 0xBCD; 0xBA4; 0xA; 0xBA9; 0xBBF; 0xBAE; 0xBBF; 0xBB7; 0xA; 0xBA9; 0xBBF; 0xBAF; 0xBA4; 0xA; 0xBA9; 0xBBF; 0xBAF; 0xBA8; 0xBCD; 0xBA4; 0xA; 0xBA9; 0xBBF; 0xBAF; 0xBA8; 0xBCD; 0xBA4; 0xBCD; 0xBB0; 0xA; 0xBA9; 0xBBF; 0xBAF; 0xBAE; 0xA; 0xBA9; 0xBBF; 0xBAF; 0xBC1; 0xB95; 0xBCD; 0xBA4; 0xA; 0xBA9; 0xBBF; 0xBAF; 0xBC1; 0xB9C; 0xBCD; 0xBAF; 0xA; 0xBA9; 0xBBF; 0xBAF; 0xBCB; 0xA; 0xBA9; 0xBBF; 0xBB0; 0xA; 0xBA9; 0xBBF; 0xBB0; 0xBCD; 0xA; 0xBA9; 0xBBF; 0xBB2; 0xBAF; 0xA; 0xBA9; 0xBBF; 0xBB5; 0xBB0; 0xBCD; 0xA; 0xBA9; 0xBBF; 0xBB5; 0xBB8; 0xA; 0xBA9; 0xBBF; 0xBB5; 0xBBE; 0xBB0; 0xA; 0xBA9; 0xBBF; 0xBB5; 0xBBE; 0xBB8; 0xA; 0xBA9; 0xBBF; 0xBB5; 0xBBF; 0xBB7; 0xBCD; 0xB9F; 0xA; 0xBA9; 0xBBF; 0xBB5; 0xBC7; 0xBA4; 0xB3; 0xA; 0xBA9; 0xBBF; 0xBB5; 0xBC7; 0xBB6; 0xA; 0xBA9; 0xBBF; 0xBB5; 0xBCD; 0xBB0; 0xBC1; 0x2BC; 0xA; 0xBA9; 0xBBF; 0xBB6; 0xA; 0xBA9; 0xBBF; 0xBB6; 0xBCD; 0xA; 0xBA9; 0xBBF; 0xBB7; 0xA; 0xBA9; 0xBBF; 0xBB7; 0xBCD; 0xA; 0xBA9; 0xBBF; 0xBB8; 0xA; 0xBA9; 0xBBF; 0xBB8; 0xBCD; 0xA; 0xBA9; 0xBBF; 0xBB9; 0xBBF; 0xBA4; 0xA; 0xBA9; 0xBBF; 0xA789; 0xBB6; 0xA; 0xBA9; 0xBBF; 0xA789; 0xBB7; 0xA; 0xBA9; 0xBBF; 0xA789; 0xBB8; 0xA; 0xBA9; 0xBC0; 0xB9A; 0xA; 0xBA9; 0xBC0; 0xBA4; 0xBBF; 0xA; 0xBA9; 0xBC0; 0xBB0; 0xA; 0xBA9; 0xBC0; 0xBB2; 0xA; 0xBA9; 0xBC2; 0xBA4; 0xBA9; 0xA; 0xBA9; 0xBC2; 0xBAA; 0xBC1; 0xBB0; 0xA; 0xBA9; 0xBC7; 0xBA4; 0xBCD; 0xBB0; 0xA; 0xBA9; 0xBC7; 0xBAF; 0x2A; 0x2A; 0xA; 0xBA9; 0xBC8; 0xBAE; 0xBBF; 0xBA4; 0xBCD; 0xBA4; 0xA; 0xBA9; 0xBC8; 0xBAE; 0xBBF; 0xBB7; 0xA; 0xBA9; 0xBC8; 0xBB0; 0xBBE; 0xBB6; 0xBCD; 0xBAF; 0xA; 0xBA9; 0xBC8; 0xBB0; 0xBCD; 0xBB0; 0xBC1; 0x2BC; 0xBA4; 0xA; 0xBA9; 0xBC8; 0xBB5; 0xBC7; 0xBA4; 0xBCD; 0xB3; 0xBAF; 0xA; 0xBA9; 0xBC8; 0xBB7; 0xBCD; 0xA; 0xBA9; 0xBCD; 0xBAF; 0xBBE; 0xBAF; 0xA; 0xBA9; 0xBCD; 0xBAF; 0xBBE; 0xBB8; 0xA; 0xBA9; 0xBCD; 0xBAF; 0xBC2; 0xBA9; 0xA; 0xBA9; 0xBCD; 0xBB0; 0xBC1; 0x2BC]%N) in
  let! v1 := idx (attr "MainIndic"%u "Tamil"%u "ViramaMap"%u) (0)%Z in
  let vir := v1 in
  let Tamillist := "²³⁴ஃஅஆஇஈஉஊஎஏஐஒஓஔகஙசஜஞடணதநனபமயரறலளழவஷஸஹாிீுூெேைொோௌ்ௗ"%u in
  foreach listDentalNa (fun wordNna => 
    let! v2 := re_sub "^ன"%u "ந"%u wordNna in
  let wordNa := v2 in
  let! v5 := sidx wordNna (-1)%Z in
  let! v6 := sidx wordNna (-1)%Z in
  let! v7 := sidx wordNna (-1)%Z in
  (if (orb (contains "²"%u v5) (orb (contains "³"%u v6) (contains "⁴"%u v7))) then (let! v3 := sidx wordNna (-1)%Z in
  let number := v3 in
  let wordNnaN := (slice wordNna None (Some (-1)%Z)) in
  let wordNaN := (slice wordNa None (Some (-1)%Z)) in
  let! v4 := CrunchSymbols GM_VowelSigns "Tamil"%u in
  foreach v4 (fun vow => 
    [Replace ((wordNnaN ++ vow) ++ number) ((wordNaN ++ vow) ++ number)])) else ([]))
  ++ [Replace wordNna wordNa]
  ++ foreach ["னாம"%u; "னர"%u] (fun wordNna => 
    let! v8 := re_sub "^ன"%u "ந"%u wordNna in
  let wordNa := v8 in
  [ReSub ((((("(["%u ++ Tamillist) ++ "])("%u) ++ wordNa) ++ vir) ++ ")"%u) (("\1"%u ++ wordNna) ++ vir)])
  ++ [Replace "ன்ந"%u "ந்ந"%u]
  ++ [Replace "னாம்ன"%u "நாம்ன"%u]).

(** aksharamukha/PostProcess.py:1493-1515  def AhomClosed(Strng) *)
Definition PP_AhomClosed : prog :=
  let! v1 := idx (attr "MainIndic"%u "Ahom"%u "ViramaMap"%u) (0)%Z in
  let vir := v1 in
  let! v2 := idx (attr "MainIndic"%u "Ahom"%u "AyogavahaMap"%u) (1)%Z in
  let anu := v2 in
  [Replace [0x11722]%N [0x11723]%N]
  ++ [ReSub (("(𑜣)(.)("%u ++ vir) ++ ")"%u) ([0x11722]%N ++ "\2\3"%u)]
  ++ [Replace (anu ++ [0x11723]%N) (anu ++ [0x11722]%N)]
  ++ [Replace [0x11724]%N [0x11725]%N]
  ++ [ReSub (("(𑜥)(.)("%u ++ vir) ++ ")"%u) ([0x11724]%N ++ "\2\3"%u)]
  ++ [Replace (anu ++ [0x11725]%N) (anu ++ [0x11724]%N)]
  ++ [ReSub (("(𑜦𑜧)(.)("%u ++ vir) ++ ")"%u) ([0x11726]%N ++ "\2\3"%u)]
  ++ [Replace [0x11726; 0x1172A; 0x11727]%N (anu ++ [0x11727]%N)]
  ++ [ReSub (("(𑜦𑜡)(.)("%u ++ vir) ++ ")"%u) ([0x11728]%N ++ "\2\3"%u)]
  ++ [Replace [0x11726; 0x1172A; 0x11721]%N (anu ++ [0x11728]%N)].

(** aksharamukha/PostProcess.py:1517-1519  def TeluguTamilZha(Strng) *)
Definition PP_TeluguTamilZha : prog :=
  [].

(** aksharamukha/PostProcess.py:1521-1526  def TeluguTamilRra(Strng) *)
Definition PP_TeluguTamilRra : prog :=
  [Replace "ఱ్ఱ"%u "ౘ్ౘ"%u]
  ++ [Replace "ట్ర"%u "ౘ్ౘ"%u]
  ++ [Replace [0xC02; 0xC21; 0xC4D; 0xC30]%N "న్ఱ"%u].

(** aksharamukha/PostProcess.py:1562-1566  def KhamiShanMyanmarNumerals(Strng) *)
Definition PP_KhamiShanMyanmarNumerals : prog :=
  foreach (zip (attr "EastIndic"%u "KhamtiShan"%u "NumeralMap"%u) (attr "EastIndic"%u "Burmese"%u "NumeralMap"%u)) (fun '(x, y) => 
    [Replace x y]).

(** aksharamukha/PostProcess.py:1568-1572  def KhamtiShanRa(Strng) *)
Definition PP_KhamtiShanRa : prog :=
  [Replace "ရ"%u "ꩳ"%u].

(** aksharamukha/PostProcess.py:1574-1576  def granthafinal(Strng) *)
Definition PP_granthafinal : prog :=
  [].

(** aksharamukha/PostProcess.py:1578-1582  def Dot2Dandas(Strng) *)
Definition PP_Dot2Dandas : prog :=
  [Replace ".."%u "॥"%u]
  ++ [Replace "."%u "।"%u].

(** aksharamukha/PostProcess.py:1584-1588  def Dot2Pipes(Strng) *)
Definition PP_Dot2Pipes : prog :=
  [Replace ".."%u "||"%u]
  ++ [Replace "."%u "|"%u].

(** aksharamukha/PostProcess.py:1590-1603  def SaurastraHaaruColon(Strng) *)
Definition PP_SaurastraHaaruColon : prog :=
  let! v1 := idx (attr "MainIndic"%u "Tamil"%u "ViramaMap"%u) (0)%Z in
  let vir := v1 in
  let! v2 := idx (attr "MainIndic"%u "Tamil"%u "ConsonantMap"%u) (-1)%Z in
  let ha := v2 in
  [Replace (vir ++ ha) ":"%u]
  ++ (let! v3 := CrunchSymbols GM_VowelSigns "Tamil"%u in
  let ListVS := (join "|"%u v3) in
  [ReSub ((("(:)"%u ++ "("%u) ++ ListVS) ++ ")"%u) "\2\1"%u]
  ++ [ReSub "(\s)(ன)"%u ("\1"%u ++ "ந"%u)]
  ++ [ReSub "^ன"%u "ந"%u]).

(** aksharamukha/PostProcess.py:1605-1623  def TamilExtendedNNA(Strng) *)
Definition PP_TamilExtendedNNA : prog :=
  let! v1 := idx (attr "MainIndic"%u "TamilExtended"%u "ConsonantMap"%u) (19)%Z in
  let na := v1 in
  let! v2 := idx (attr "MainIndic"%u "TamilExtended"%u "SouthConsonantMap"%u) (3)%Z in
  let nna := v2 in
  let! v3 := idx (attr "MainIndic"%u "TamilExtended"%u "ViramaMap"%u) (0)%Z in
  let vir := v3 in
  let! v4 := idx (attr "MainIndic"%u "TamilExtended"%u "ConsonantMap"%u) (15)%Z in
  let ta := v4 in
  let! v5 := CrunchSymbols ((GM_Vowels ++ GM_VowelSigns) ++ GM_Consonants) "TamilExtended"%u in
  let! v6 := idx (attr "MainIndic"%u "TamilExtended"%u "SignMap"%u) (0)%Z in
  let ListV := (join "|"%u (v5 ++ [v6])) in
  [ReSub ((((((((("("%u ++ ListV) ++ ")"%u) ++ GM_VedicSvaras) ++ "("%u) ++ na) ++ ")"%u) ++ "(?!"%u) ++ vir) ++ ")"%u) ("\1\2"%u ++ nna)]
  ++ [ReSub ((((((((("("%u ++ ListV) ++ ")"%u) ++ GM_VedicSvaras) ++ "("%u) ++ na) ++ ")"%u) ++ "(?!"%u) ++ vir) ++ ")"%u) ("\1\2"%u ++ nna)]
  ++ [ReSub [0x28; 0xD28; 0xD4D; 0x200C; 0x29; 0x28; 0x3F; 0x21; 0x5B; 0xD24; 0xD25; 0xD26; 0xD27; 0x5D; 0x29]%N [0xD29; 0xD4D; 0x200C]%N]
  ++ [ReSub "(\s)ഩ്"%u ("\1"%u ++ [0xD28; 0xD4D; 0x200C]%N)]
  ++ [ReSub "^ഩ്"%u ([] ++ [0xD28; 0xD4D; 0x200C]%N)]
  ++ PP_TamilpredictDentaNaExtended.

(** aksharamukha/PostProcess.py:1625-1629  def TakriRemoveGemination(Strng) *)
Definition PP_TakriRemoveGemination : prog :=
  let! v1 := idx (attr "MainIndic"%u "Takri"%u "ViramaMap"%u) (0)%Z in
  [ReSub (("(.)"%u ++ v1) ++ "\1"%u) "\1"%u].

(** aksharamukha/PostProcess.py:1631-1644  def MongolianSyllabize(Strng) *)
Definition PP_MongolianSyllabize : prog :=
  let! v1 := CrunchSymbols GM_Vowels "Mongolian"%u in
  let vowels := (("("%u ++ (join "|"%u (v1 ++ ["ᠠ"%u]))) ++ ")"%u) in
  let! v2 := CrunchSymbols GM_Consonants "Mongolian"%u in
  let consonants := (("("%u ++ (join "|"%u v2)) ++ ")"%u) in
  [ReSub ((consonants ++ "?"%u) ++ vowels) ("\1\2"%u ++ " "%u)]
  ++ [ReSub ([0x28; 0x180E; 0x1820; 0x29]%N ++ consonants) "\1 \2"%u]
  ++ [ReSub "ᠠ "%u "ᠠ᠋ "%u]
  ++ [Replace "ᠣᠸᠠ᠋"%u "ᠣᠸᠠ"%u]
  ++ [Replace "ᠣᠸᠸᠠ᠋"%u "ᠣᠸᠸᠠ"%u]
  ++ [Replace [0x20; 0x180E]%N [0x180E]%N]
  ++ [Replace (" "%u ++ [0x200B]%N) []]
  ++ [Replace " ᢁ"%u "ᢁ"%u].

(** aksharamukha/PostProcess.py:1646-1663  def TibetanSyllabize(Strng) *)
Definition PP_TibetanSyllabize : prog :=
  let! v1 := CrunchSymbols GM_Vowels "Tibetan"%u in
  let vowels := (("("%u ++ (join "|"%u v1)) ++ ")"%u) in
  let! v2 := CrunchSymbols GM_Consonants "Tibetan"%u in
  let consonants := (("("%u ++ (join "|"%u (v2 ++ ["ཨ"%u; "ཅ"%u; "ཆ"%u; "ཇ"%u; "ཇྷ"%u]))) ++ ")"%u) in
  let! v3 := CrunchSymbols GM_VowelSigns "Tibetan"%u in
  let vowelsigns := (("("%u ++ (join "|"%u (v3 ++ [[0xF80]%N]))) ++ ")"%u) in
  let! v4 := CrunchSymbols GM_CombiningSigns "Tibetan"%u in
  let combiningSigns := (("("%u ++ (join "|"%u (v4 ++ [[0xF82]%N]))) ++ ")"%u) in
  let ListSubC := (("("%u ++ (join "|"%u ((map (fun x => [Z.to_N (x + (80)%Z)%Z]) (range (3904)%Z (3944)%Z)) ++ [[0xFBB]%N; [0xFBA]%N; [0xFBC]%N]))) ++ ")"%u) in
  [ReSub ((vowelsigns ++ combiningSigns) ++ "?"%u) "\1\2་"%u]
  ++ [ReSub consonants "\1་"%u]
  ++ [ReSub ListSubC "\1་"%u]
  ++ [ReSub ("་"%u ++ vowelsigns) "\1"%u]
  ++ [ReSub ("་"%u ++ ListSubC) "\1"%u]
  ++ [ReSub ("་"%u ++ combiningSigns) "\1"%u]
  ++ [ReSub combiningSigns "\1་"%u]
  ++ [Replace "་་"%u "་"%u].

(** aksharamukha/PostProcess.py:1665-1684  def SoyomboSyllabize(Strng) *)
Definition PP_SoyomboSyllabize : prog :=
  let! v1 := CrunchSymbols GM_Vowels "Soyombo"%u in
  let vowels := (("("%u ++ (join "|"%u v1)) ++ ")"%u) in
  let! v2 := CrunchSymbols GM_Consonants "Soyombo"%u in
  let consonants := (("("%u ++ (join "|"%u (v2 ++ ["𑩐"%u; "𑪃"%u]))) ++ ")"%u) in
  let! v3 := CrunchSymbols GM_VowelSigns "Soyombo"%u in
  let vowelsigns := (("("%u ++ (join "|"%u v3)) ++ ")"%u) in
  let! v4 := CrunchSymbols GM_CombiningSigns "Soyombo"%u in
  let combiningSigns := (("("%u ++ (join "|"%u v4)) ++ ")"%u) in
  let fin := (("("%u ++ (join "|"%u [[0x11A8A]%N; [0x11A8B]%N; [0x11A8C]%N; [0x11A8D]%N; [0x11A8E]%N; [0x11A8F]%N; [0x11A90]%N; [0x11A91]%N; [0x11A92]%N; [0x11A93]%N; [0x11A94]%N])) ++ ")"%u) in
  [ReSub ((vowelsigns ++ combiningSigns) ++ "?"%u) "\1\2 "%u]
  ++ [ReSub consonants "\1 "%u]
  ++ [ReSub (" "%u ++ vowelsigns) "\1"%u]
  ++ [ReSub (" "%u ++ combiningSigns) "\1"%u]
  ++ [ReSub ([0x11A99]%N ++ " "%u) [0x11A99]%N]
  ++ [ReSub combiningSigns "\1 "%u]
  ++ [ReSub " 𑪘"%u [0x11A98]%N]
  ++ [ReSub fin "\1 "%u]
  ++ [ReSub ("( )"%u ++ fin) "\2 "%u].

(** aksharamukha/PostProcess.py:1687-1689  def TakriArchaicKha(Strng) *)
Definition PP_TakriArchaicKha : prog :=
  [Replace "𑚸"%u "𑚋"%u].

(** aksharamukha/PostProcess.py:1691-1696  def TeluguReph(Strng) *)
Definition PP_TeluguReph : prog :=
  let! v1 := CrunchSymbols GM_Consonants "Telugu"%u in
  let consonants := (("("%u ++ (join "|"%u v1)) ++ ")"%u) in
  [ReSub ("ర్"%u ++ consonants) ([0xC30; 0xC4D; 0x200D]%N ++ "\1"%u)]
  ++ [Replace [0xC4D; 0xC30; 0xC4D; 0x200D]%N [0xC4D; 0xC30; 0xC4D]%N].

(** aksharamukha/PostProcess.py:1698-1700  def PhagsPaTib(Strng) *)
Definition PP_PhagsPaTib : prog :=
  [].

(** aksharamukha/PostProcess.py:1702-1704  def PhagsPaSeal(Strng) *)
Definition PP_PhagsPaSeal : prog :=
  [].

(** aksharamukha/PostProcess.py:2713-2733  def AnusvaraToNasal(Strng, Target) *)
Definition PP_AnusvaraToNasal (Target : str) : prog :=
  let! v1 := CrunchList "NuktaMap"%u Target in
  let! v2 := idx v1 (0)%Z in
  let nukta := v2 in
  let! v5 := mapR (fun x => do v3 <- CrunchSymbols GM_Consonants Target; do v4 <- idx v3 x; Ok v4) [(4)%Z; (9)%Z; (14)%Z; (19)%Z; (24)%Z] in
  let ListN := v5 in
  let! v6 := CrunchList "ConsonantMap"%u Target in
  let! v7 := CrunchList "ConsonantMap"%u Target in
  let! v8 := CrunchList "ConsonantMap"%u Target in
  let! v9 := CrunchList "ConsonantMap"%u Target in
  let! v10 := CrunchList "ConsonantMap"%u Target in
  let ListC := [(join "|"%u (slice v6 (Some (0)%Z) (Some (4)%Z))); (join "|"%u (slice v7 (Some (5)%Z) (Some (9)%Z))); (join "|"%u (slice v8 (Some (10)%Z) (Some (14)%Z))); (join "|"%u (slice v9 (Some (15)%Z) (Some (19)%Z))); (join "|"%u (slice v10 (Some (20)%Z) (Some (24)%Z)))] in
  let! v11 := CrunchSymbols GM_VowelSigns Target in
  let! v12 := idx v11 (0)%Z in
  let vir := v12 in
  let! v13 := CrunchSymbols GM_CombiningSigns Target in
  let! v14 := idx v13 (1)%Z in
  let Anu := v14 in
  foreach (range 0%Z (Z.of_nat (length ListN))) (fun i => 
    let! v15 := idx ListC i in
  let! v16 := idx ListN i in
  [ReSub (((((((("("%u ++ Anu) ++ ")"%u) ++ GM_VedicSvaras) ++ "("%u) ++ v15) ++ ")(?!"%u) ++ nukta) ++ ")"%u) ((v16 ++ vir) ++ "\2\3"%u)]
  ++ (if (str_eqb Target "Tamil"%u) then (let! v17 := idx ListC i in
  let! v18 := idx ListN i in
  [ReSub ((((("(ம்)"%u ++ GM_VedicSvaras) ++ "(ʼ)"%u) ++ "("%u) ++ v17) ++ ")"%u) ((v18 ++ vir) ++ "\2\4"%u)]) else ([]))).

(** aksharamukha/PostProcess.py:1706-1710  def TamilExtendedAnusvara(Strng) *)
Definition PP_TamilExtendedAnusvara : prog :=
  (PP_AnusvaraToNasal "TamilExtended"%u)
  ++ [Replace [0xD02]%N [0xD2E; 0xD4D; 0x200C]%N].

(** aksharamukha/PostProcess.py:1712-1723  def RomanReadableLongEO(Strng) *)
Definition PP_RomanReadableLongEO : prog :=
  [Replace "o"%u "oa"%u]
  ++ [Replace "oa'"%u "o"%u]
  ++ [Replace "e"%u "ae"%u]
  ++ [Replace "ae'"%u "e"%u]
  ++ [Replace "aeae"%u "ee"%u]
  ++ [Replace "oaoa"%u "oo"%u].

(** aksharamukha/PostProcess.py:1725-1728  def TeluguArasunnaChandrabindu(Strng) *)
Definition PP_TeluguArasunnaChandrabindu : prog :=
  [Replace [0xC00]%N [0xC01]%N].

(** aksharamukha/PostProcess.py:1730-1737  def MarchenSanskritPalatals(Strng) *)
Definition PP_MarchenSanskritPalatals : prog :=
  let tsaSeries := ["𑲂"%u; "𑲃"%u; "𑲄"%u] in
  let jaSereis := ["𑱶"%u; "𑱷"%u; "𑱸"%u] in
  foreach (zip tsaSeries jaSereis) (fun '(x, y) => 
    [Replace x y]).

(** aksharamukha/PostProcess.py:1740-1747  def SoyomboSanskritPalatals(Strng) *)
Definition PP_SoyomboSanskritPalatals : prog :=
  let tsaSeries := ["𑩵"%u; "𑩶"%u; "𑩷"%u] in
  let caSeries := ["𑩡"%u; "𑩢"%u; "𑩣"%u] in
  foreach (zip tsaSeries caSeries) (fun '(x, y) => 
    [Replace x y]).

(** aksharamukha/PostProcess.py:1749-1756  def TibetanSanskritPalatals(Strng) *)
Definition PP_TibetanSanskritPalatals : prog :=
  let caSeries := ["ཅ"%u; "ཆ"%u; "ཇ"%u; "ཇྷ"%u] in
  let tsaSeries := ["ཙ"%u; "ཚ"%u; "ཛ"%u; "ཛྷ"%u] in
  foreach (zip tsaSeries caSeries) (fun '(x, y) => 
    [Replace x y]).

(** aksharamukha/PostProcess.py:1758-1765  def ZanabazarSanskritPalatals(Strng) *)
Definition PP_ZanabazarSanskritPalatals : prog :=
  let tsaSeries := ["𑨣"%u; "𑨤"%u; "𑨥"%u] in
  let caSeries := ["𑨐"%u; "𑨑"%u; "𑨒"%u] in
  foreach (zip tsaSeries caSeries) (fun '(x, y) => 
    [Replace x y]).

(** aksharamukha/PostProcess.py:1767-1769  def SoyomboFinals(Strng) *)
Definition PP_SoyomboFinals : prog :=
  [].

(** aksharamukha/PostProcess.py:1771-1778  def SoyomboInitials(Strng) *)
Definition PP_SoyomboInitials : prog :=
  let viraCon := ["𑩼𑪙"%u; "𑩽𑪙"%u; "𑪁𑪙"%u] in
  let initial := ["𑪆"%u; "𑪇"%u; "𑪉"%u] in
  foreach (zip viraCon initial) (fun '(x, y) => 
    [Replace x y]).

(** aksharamukha/PostProcess.py:1780-1783  def ZanzabarSpaceTsheg(Strng) *)
Definition PP_ZanzabarSpaceTsheg : prog :=
  [Replace " "%u "𑩁"%u].

(** aksharamukha/PostProcess.py:1785-1788  def SoyomboSpaceTscheg(Strng) *)
Definition PP_SoyomboSpaceTscheg : prog :=
  [Replace " "%u "𑪚"%u].

(** aksharamukha/PostProcess.py:1790-1793  def KhandaTaRomanLoC(Strng) *)
Definition PP_KhandaTaRomanLoC : prog :=
  [Replace "ṯ"%u "ৎ"%u].

(** aksharamukha/PostProcess.py:1796-1798  def RomanLoCVaWa(Strng) *)
Definition PP_RomanLoCVaWa : prog :=
  [Replace "v"%u "w"%u].

(** aksharamukha/PostProcess.py:1800-1802  def RomanLoCSasha(Strng) *)
Definition PP_RomanLoCSasha : prog :=
  [Replace "ṣ"%u "sh"%u].

(** aksharamukha/PostProcess.py:1804-1808  def RomanLoCSLaDotLaUnderscore(Strng) *)
Definition PP_RomanLoCSLaDotLaUnderscore : prog :=
  [Replace "ḻ"%u "l̳"%u]
  ++ [Replace "l̤"%u "ḻ"%u].

(** aksharamukha/PostProcess.py:1810-1813  def RomanLoCLaUnderscoreDoubleDot(Strng) *)
Definition PP_RomanLoCLaUnderscoreDoubleDot : prog :=
  [Replace "ḻ"%u "l̤"%u].

(** aksharamukha/PostProcess.py:1815-1820  def HindiMarathiRomanLoCFix(Strng) *)
Definition PP_HindiMarathiRomanLoCFix : prog :=
  [Replace "ṣ"%u "sh"%u]
  ++ [Replace "ḻ"%u "ḷ"%u]
  ++ [Replace "l̳"%u "l̤"%u].

(** aksharamukha/PostProcess.py:1822-1832  def DivesAkuruHomoOrganNasal(Strng) *)
Definition PP_DivesAkuruHomoOrganNasal : prog :=
  let homoNasal := "𑤿"%u in
  [ReSub "(𑤐𑤾)(?=[𑤌𑤍𑤎𑤏])"%u homoNasal]
  ++ [ReSub "(𑤕𑤾)(?=[𑤑𑤒𑤓])"%u homoNasal]
  ++ [ReSub "(𑤚𑤾)(?=[𑤖𑤘𑤙])"%u homoNasal]
  ++ [ReSub "(𑤟𑤾)(?=[𑤛𑤜𑤝𑤞])"%u homoNasal]
  ++ [ReSub "(𑤤𑤾)(?=[𑤠𑤡𑤢𑤣])"%u homoNasal].

(** aksharamukha/PostProcess.py:1834-1846  def DivesAkuruAlternateIndVowels(Strng) *)
Definition PP_DivesAkuruAlternateIndVowels : prog :=
  [Replace "𑤥"%u "𑤦"%u]
  ++ (let vow := (split " "%u "𑤀 𑤁 𑤂 𑤃 𑤄 𑤅 𑤆 𑤆𑤵 𑤉"%u) in
  let vowy := (split " "%u "𑤥 𑤥𑤰 𑤥𑤱 𑤥𑤲 𑤥𑤳 𑤥𑤴 𑤥𑤵 𑤥𑤷 𑤥𑤸"%u) in
  foreach (zip vow vowy) (fun '(v, vy) => 
    [Replace v vy])).

(** aksharamukha/PostProcess.py:1848-1851  def UseAlternateYA(Strng) *)
Definition PP_UseAlternateYA : prog :=
  [Replace "𑤥"%u "𑤦"%u].

(** aksharamukha/PostProcess.py:1853-1863  def KawiMoveRepha(Strng) *)
Definition PP_KawiMoveRepha : prog :=
  let tgt := "Kawi"%u in
  let repha := [0x11F02]%N in
  let! v1 := CrunchSymbols (GM_Consonants ++ GM_Vowels) tgt in
  let cons_ := (("("%u ++ (join "|"%u v1)) ++ ")"%u) in
  let! v2 := CrunchSymbols GM_VowelSignsNV tgt in
  let vows := (("("%u ++ (join "|"%u v2)) ++ ")"%u) in
  let vir := [0x11F42]%N in
  [ReSub (((((((((("(("%u ++ cons_) ++ ")"%u) ++ "("%u) ++ vir) ++ cons_) ++ ")*"%u) ++ "("%u) ++ vows) ++ ")?)"%u) ++ repha) (repha ++ "\1"%u)].

(** aksharamukha/PostProcess.py:1865-1869  def KawiAltAiAU(Strng) *)
Definition PP_KawiAltAiAU : prog :=
  [Replace [0x11F3F]%N [0x11F3E; 0x11F3E]%N].

(** aksharamukha/PostProcess.py:1871-1874  def KawiDecomposedVowel(Strng) *)
Definition PP_KawiDecomposedVowel : prog :=
  [Replace [0x11F05]%N [0x11F04; 0x11F34]%N]
  ++ [Replace [0x11F07]%N [0x11F06; 0x11F34]%N]
  ++ [Replace [0x11F09]%N [0x11F08; 0x11F34]%N].

(** aksharamukha/PostProcess.py:1876-1878  def KawiArchaicJNA(Strng) *)
Definition PP_KawiArchaicJNA : prog :=
  [Replace [0x11F19; 0x11F42; 0x11F1B]%N [0x11F33]%N].

(** aksharamukha/PostProcess.py:1880-1882  def JavaneseArchaicJNA(Strng) *)
Definition PP_JavaneseArchaicJNA : prog :=
  [Replace "ꦗ꧀ꦚ"%u "ꦘ"%u].

(** aksharamukha/PostProcess.py:1884-1891  def JavaneseAvowels(Strng) *)
Definition PP_JavaneseAvowels : prog :=
  let vowelsA := ["ꦄꦶ"%u; "ꦄꦷ"%u; "ꦄꦸ"%u; "ꦄꦹ"%u; "ꦄꦽ"%u; "ꦄ꧀ꦉꦴ"%u; "ꦄ꧀ꦭꦼ"%u; "ꦄ꧀ꦭꦼꦴ"%u; "ꦄꦺ"%u; "ꦄꦻ"%u; "ꦄꦺꦴ"%u; "ꦄꦻꦴ"%u] in
  let vowels := ["ꦆ"%u; "ꦇ"%u; "ꦈ"%u; "ꦈꦴ"%u; "ꦉ"%u; "ꦉꦴ"%u; "ꦊ"%u; "ꦋ"%u; "ꦌ"%u; "ꦍ"%u; "ꦎ"%u; "ꦎꦴ"%u] in
  foreach (zip vowels vowelsA) (fun '(v, vA) => 
    [Replace v vA]).

(** aksharamukha/PostProcess.py:1893-1898  def TibetanLoCRomanLoCFix(Strng) *)
Definition PP_TibetanLoCRomanLoCFix : prog :=
  [ReSub "tʹ(?!s)"%u "t"%u]
  ++ [ReSub "nʹ(?!y)"%u "n"%u]
  ++ [ReSub "j_h"%u "jh"%u].

(** aksharamukha/PostProcess.py:1900-1902  def JavaneseSimplified(Strng) *)
Definition PP_JavaneseSimplified : prog :=
  [Replace "jny"%u "ny"%u].

(** aksharamukha/PostProcess.py:1904-1905  def BalineseSimplified(Strng) *)
Definition PP_BalineseSimplified : prog :=
  [].

(** aksharamukha/PostProcess.py:1907-1910  def BalineseRomanLoCFix(Strng) *)
Definition PP_BalineseRomanLoCFix : prog :=
  [Replace "ḧ"%u "h"%u]
  ++ [Replace "ng̈"%u "‘"%u].

(** aksharamukha/PostProcess.py:1912-1915  def JavaneseRomanLoCFix(Strng) *)
Definition PP_JavaneseRomanLoCFix : prog :=
  [Replace "ḧ"%u "h"%u]
  ++ [Replace "ng̈"%u "‘"%u].

(** aksharamukha/PostProcess.py:1917-1919  def BalineseArchaicJNA(Strng) *)
Definition PP_BalineseArchaicJNA : prog :=
  [Replace "ᬚ᭄ᬜ"%u "ᭌ"%u].

(** aksharamukha/PostProcess.py:1921-1933  def BalineseJavaneseMoveRepha(Strng, tgt, reph) *)
Definition PP_BalineseJavaneseMoveRepha (tgt : str) (reph : str) : prog :=
  let repha := (("("%u ++ reph) ++ ")"%u) in
  let! v1 := CrunchSymbols GM_Consonants tgt in
  let cons_ := (("("%u ++ (join "|"%u v1)) ++ ")"%u) in
  let! v2 := CrunchSymbols GM_VowelSignsNV tgt in
  let vows := (("("%u ++ (join "|"%u v2)) ++ ")"%u) in
  let! v3 := CrunchSymbols GM_virama tgt in
  let! v4 := idx v3 (0)%Z in
  let vir := v4 in
  [ReSub ((((((((((repha ++ "("%u) ++ cons_) ++ ")"%u) ++ "("%u) ++ vir) ++ cons_) ++ ")*"%u) ++ "("%u) ++ vows) ++ ")?"%u) "\2\4\6\1"%u]
  ++ (let! v5 := CrunchSymbols GM_CombiningSigns tgt in
  let candAnu := (("["%u ++ (join [] (slice v5 None (Some (2)%Z)))) ++ "]"%u) in
  [ReSub (((repha ++ "("%u) ++ candAnu) ++ ")"%u) "\2\1"%u]).

(** aksharamukha/PostProcess.py:1935-1936  def JavaneseMoveRepha(Strng) *)
Definition PP_JavaneseMoveRepha : prog :=
  (PP_BalineseJavaneseMoveRepha "Javanese"%u [0xA982]%N).

(** aksharamukha/PostProcess.py:1938-1939  def BalineseMoveRepha(Strng) *)
Definition PP_BalineseMoveRepha : prog :=
  (PP_BalineseJavaneseMoveRepha "Balinese"%u [0x1B03]%N).

(** aksharamukha/PostProcess.py:1941-1948  def BalineseAvowels(Strng) *)
Definition PP_BalineseAvowels : prog :=
  let vowelsA := ["ᬅᬶ"%u; "ᬅᬷ"%u; "ᬅᬸ"%u; "ᬅᬹ"%u; "ᬅᬺ"%u; "ᬅᬻ"%u; "ᬅ᭄ᬮᭂ"%u; "ᬅ᭄ᬮᭃ"%u; "ᬅᬾ"%u; "ᬅᬿ"%u; "ᬅᭀ"%u; "ᬅᭁ"%u] in
  let vowels := ["ᬇ"%u; "ᬈ"%u; "ᬉ"%u; "ᬊ"%u; "ᬋ"%u; "ᬌ"%u; "ᬍ"%u; "ᬎ"%u; "ᬏ"%u; "ᬐ"%u; "ᬑ"%u; "ᬒ"%u] in
  foreach (zip vowels vowelsA) (fun '(v, vA) => 
    [Replace v vA]).

(** aksharamukha/PostProcess.py:1950-1957  def GurmukhiRomanLoCFix(Strng) *)
Definition PP_GurmukhiRomanLoCFix : prog :=
  [ReSub "(m̆|ṃ)(k|g)"%u ("ṅ"%u ++ "\2"%u)]
  ++ [ReSub "(m̆|ṃ)(c|j)"%u ("ñ"%u ++ "\2"%u)]
  ++ [ReSub "(m̆|ṃ)(ṭ|ḍ)"%u ("ṇ"%u ++ "\2"%u)]
  ++ [ReSub "(m̆|ṃ)(t|d)"%u ("n"%u ++ "\2"%u)]
  ++ [ReSub "(m̆|ṃ)(p|b)"%u ("m"%u ++ "\2"%u)].

(** aksharamukha/PostProcess.py:1959-1963  def DevanagariRomanLoCFix(Strng) *)
Definition PP_DevanagariRomanLoCFix : prog :=
  [Replace "gḧ"%u "g̳h̳"%u]
  ++ [Replace "ṭ̈"%u "t̤"%u]
  ++ [Replace "s̈"%u "s̤"%u]
  ++ [Replace "ḧ"%u "h̤"%u].

(** aksharamukha/PostProcess.py:1965-1968  def MalayalamRomanLoCFix(Strng) *)
Definition PP_MalayalamRomanLoCFix : prog :=
  [Replace "ṟṟ"%u "ṯṯ"%u]
  ++ [Replace "ŭ"%u "ȧ"%u].

(** aksharamukha/PostProcess.py:1970-1972  def MalayalamNTA(Strng) *)
Definition PP_MalayalamNTA : prog :=
  [Replace "nṟ"%u "nṯ"%u].

(** aksharamukha/PostProcess.py:1974-1977  def MalayalamTTNTA(Strng) *)
Definition PP_MalayalamTTNTA : prog :=
  [Replace "ṟṟ"%u "ṯṯ"%u]
  ++ [Replace "nṟ"%u "nṯ"%u].

(** aksharamukha/PostProcess.py:1979-1988  def SinhalaSannakaNasalization(Strng) *)
Definition PP_SinhalaSannakaNasalization : prog :=
  [ReSub "(n̆)(k|g)"%u ("ṅ"%u ++ "\2"%u)]
  ++ [ReSub "(n̆)(c|j)"%u ("ñ"%u ++ "\2"%u)]
  ++ [ReSub "(n̆)(ṭ|ḍ)"%u ("ṇ"%u ++ "\2"%u)]
  ++ [ReSub "(n̆)(t|d)"%u ("n"%u ++ "\2"%u)]
  ++ [ReSub "(m̆)(p|b)"%u ("m"%u ++ "\2"%u)].

(** aksharamukha/PostProcess.py:1990-1999  def RomanLoCChandrabindu(Strng) *)
Definition PP_RomanLoCChandrabindu : prog :=
  [ReSub "(m̐)(k|g)"%u ("n̐"%u ++ "\2"%u)]
  ++ [ReSub "(m̐)(c|j)"%u ("n̐"%u ++ "\2"%u)]
  ++ [ReSub "(m̐)(ṭ|ḍ)"%u ("n̐"%u ++ "\2"%u)]
  ++ [ReSub "(m̐)(t|d)"%u ("n̐"%u ++ "\2"%u)]
  ++ [ReSub "(m̐)(p|b)"%u ("n̐"%u ++ "\2"%u)].

(** aksharamukha/PostProcess.py:2013-2025  def removeDiacritics(Strng) *)
Definition PP_removeDiacritics : prog :=
  let diacritics := [[0x331]%N; [0x306]%N; [0x323]%N; [0x35F]%N; [0x324]%N; [0x35F]%N; [0x307]%N; [0x301]%N; [0x303]%N; [0x310]%N; [0x306]%N; [0x302]%N; [0x304]%N] in
  foreach diacritics (fun dia => 
    [Replace dia []])
  ++ (let vowelDia := ["а̄"%u; "ӣ"%u; "ӯ"%u; "ӗ"%u] in
  let vowel := ["а"%u; "и"%u; "у"%u; "э"%u] in
  foreach (zip vowelDia vowel) (fun '(x, y) => 
    [Replace x y])).

(** aksharamukha/PostProcess.py:2027-2029  def ranjanalantsa(Strng) *)
Definition PP_ranjanalantsa : prog :=
  [Replace "་"%u " "%u].

(** aksharamukha/PostProcess.py:2031-2033  def ranjanawartu(Strng) *)
Definition PP_ranjanawartu : prog :=
  [Replace "་"%u "࿎ "%u].

(** aksharamukha/PostProcess.py:2035-2036  def TaiKuen(Strng) *)
Definition PP_TaiKuen : prog :=
  [].

(** aksharamukha/PostProcess.py:2038-2039  def TaiThamLao(Strng) *)
Definition PP_TaiThamLao : prog :=
  [].

(** aksharamukha/PostProcess.py:2041-2042  def egrantamil(Strng) *)
Definition PP_egrantamil : prog :=
  [].

(** aksharamukha/PostProcess.py:2044-2045  def tibetandbumed(Strng) *)
Definition PP_tibetandbumed : prog :=
  [].

(** aksharamukha/PostProcess.py:2047-2048  def oldtamilortho(Strng) *)
Definition PP_oldtamilortho : prog :=
  [].

(** aksharamukha/PostProcess.py:2050-2051  def nepaldevafont(Strng) *)
Definition PP_nepaldevafont : prog :=
  [].

(** aksharamukha/PostProcess.py:2053-2054  def granthaserif(Strng) *)
Definition PP_granthaserif : prog :=
  [].

(** aksharamukha/PostProcess.py:2184-2205  def ChakmaGemination(Strng, reverse=False) *)
Definition PP_ChakmaGemination (reverse : bool) : prog :=
  let! v1 := CrunchSymbols GM_Consonants "Chakma"%u in
  let ListC := (("("%u ++ (join "|"%u v1)) ++ ")"%u) in
  let virs := "([𑄴𑄳])"%u in
  let virExp := [0x11134]%N in
  let virDep := [0x11133]%N in
  let! v2 := CrunchSymbols GM_VowelSignsNV "Chakma"%u in
  let ListV := (("("%u ++ (join "|"%u (sort_len_desc v2))) ++ ")"%u) in
  (if (negb reverse) then ([ReSub (((ListC ++ virs) ++ "\1"%u) ++ ListV) (("\1"%u ++ virExp) ++ "\3"%u)]
  ++ [ReSub ((((ListC ++ virExp) ++ "\1"%u) ++ virDep) ++ ListC) ((("\1"%u ++ virExp) ++ virDep) ++ "\2"%u)]
  ++ [ReSub ((((ListC ++ virDep) ++ "\1"%u) ++ virDep) ++ ListC) ((("\1"%u ++ virExp) ++ virDep) ++ "\2"%u)]
  ++ [ReSub (((virDep ++ ListC) ++ virExp) ++ ListV) (((virExp ++ "\1"%u) ++ virExp) ++ "\2"%u)]) else ([ReSub ((ListC ++ virExp) ++ ListV) ((("\1"%u ++ virExp) ++ "\1"%u) ++ "\2"%u)]
  ++ [ReSub ((ListC ++ virExp) ++ virDep) ((("\1"%u ++ virExp) ++ "\1"%u) ++ virDep)])).

(** aksharamukha/PostProcess.py:2056-2079  def ChakmaPali(Strng) *)
Definition PP_ChakmaPali : prog :=
  let! v1 := CrunchSymbols GM_Consonants "Chakma"%u in
  let listC := (("("%u ++ (join "|"%u (sort_len_desc (v1 ++ (slice (attr "MainIndic"%u "Chakma"%u "VowelMap"%u) None (Some (1)%Z)))))) ++ ")"%u) in
  let! v2 := CrunchSymbols GM_VowelSigns "Chakma"%u in
  let listV := (("("%u ++ (join "|"%u (sort_len_desc ((v2 ++ (attr "MainIndic"%u "Chakma"%u "ViramaMap"%u)) ++ [[0x11133]%N])))) ++ ")"%u) in
  (PP_ChakmaGemination true)
  ++ [Replace "𑄤"%u "𑅇"%u]
  ++ [Replace "𑄡"%u "𑄠"%u]
  ++ [Replace [0x11127]%N "ʾ"%u]
  ++ [ReSub (((((("("%u ++ listC) ++ ")"%u) ++ "(?!"%u) ++ listV) ++ "|ʾ"%u) ++ ")"%u) "\1𑄧"%u]
  ++ [Replace "ʾ"%u []]
  ++ [Replace [0x11127]%N [0x11102]%N]
  ++ [Replace [0x11133]%N [0x11134]%N].

(** aksharamukha/PostProcess.py:2128-2131  def UseAlternateVSU(Strng) *)
Definition PP_UseAlternateVSU : prog :=
  [Replace [0x115B2]%N [0x115DC]%N].

(** aksharamukha/PostProcess.py:2133-2136  def UseAlternateVSUU(Strng) *)
Definition PP_UseAlternateVSUU : prog :=
  [Replace [0x115B3]%N [0x115DD]%N].

(** aksharamukha/PostProcess.py:2138-2141  def UseAlternateU(Strng) *)
Definition PP_UseAlternateU : prog :=
  [Replace "𑖄"%u "𑗛"%u].

(** aksharamukha/PostProcess.py:2143-2146  def UseAlternateI1(Strng) *)
Definition PP_UseAlternateI1 : prog :=
  [Replace "𑖂"%u "𑗘"%u].

(** aksharamukha/PostProcess.py:2148-2151  def UseAlternateI2(Strng) *)
Definition PP_UseAlternateI2 : prog :=
  [Replace "𑖂"%u "𑗙"%u].

(** aksharamukha/PostProcess.py:2153-2156  def UseAlternateII(Strng) *)
Definition PP_UseAlternateII : prog :=
  [Replace "𑖃"%u "𑗚"%u].

(** aksharamukha/PostProcess.py:2158-2161  def GranthaOldau(Strng) *)
Definition PP_GranthaOldau : prog :=
  [Replace [0x11357]%N [0x1134C]%N].

(** aksharamukha/PostProcess.py:2163-2166  def DevanagariACandra(Strng) *)
Definition PP_DevanagariACandra : prog :=
  [Replace "ऍ"%u "ॲ"%u].

(** aksharamukha/PostProcess.py:2168-2174  def WarangCitiModernOrthogaphy(Strng) *)
Definition PP_WarangCitiModernOrthogaphy : prog :=
  [ReSub [0x28; 0x5B; 0x118D4; 0x118D5; 0x118CC; 0x118CB; 0x118CF; 0x118CE; 0x118D2; 0x118D1; 0x118D5; 0x118D4; 0x118D8; 0x118D7; 0x118DB; 0x5D; 0x29; 0x28; 0x200D; 0x29; 0x28; 0x118D9; 0x29]%N "\1"%u]
  ++ [Replace "𑣝"%u "𑣞"%u]
  ++ [Replace [0x200D]%N []].

(** aksharamukha/PostProcess.py:2176-2182  def ChakmaEnableAllConjuncts(Strng) *)
Definition PP_ChakmaEnableAllConjuncts : prog :=
  let! v1 := CrunchSymbols GM_Consonants "Chakma"%u in
  let listC := (("("%u ++ (join "|"%u (sort_len_desc (v1 ++ (slice (attr "MainIndic"%u "Chakma"%u "VowelMap"%u) None (Some (1)%Z)))))) ++ ")"%u) in
  [ReSub ((([0x11134]%N ++ "("%u) ++ listC) ++ ")"%u) ([0x11133]%N ++ "\1"%u)]
  ++ (PP_ChakmaGemination false).

(** aksharamukha/PostProcess.py:2207-2214  def ChakmaVowelsIndependent(Strng) *)
Definition PP_ChakmaVowelsIndependent : prog :=
  let vowelDepA := ["𑄃𑄨"%u; "𑄃𑄪"%u; "𑄃𑄬"%u] in
  let vowelIndep := ["𑄄"%u; "𑄅"%u; "𑄆"%u] in
  foreach (zip vowelDepA vowelIndep) (fun '(x, y) => 
    [Replace x y]).

(** aksharamukha/PostProcess.py:2216-2226  def MultaniAbjad(Strng) *)
Definition PP_MultaniAbjad : prog :=
  let! v1 := CrunchSymbols GM_Characters "Multani"%u in
  let ListAll := (("("%u ++ (join "|"%u (v1 ++ ["𑊓"%u; "𑊍"%u]))) ++ ")"%u) in
  let! v2 := CrunchSymbols GM_Consonants "Multani"%u in
  let ListC := (("("%u ++ (join "|"%u (v2 ++ ["𑊓"%u; "𑊍"%u]))) ++ ")"%u) in
  let! v3 := CrunchSymbols GM_Vowels "Multani"%u in
  let ListV := (("("%u ++ (join "|"%u (v3 ++ ["𑊓"%u; "𑊍"%u]))) ++ ")"%u) in
  [ReSub ((ListC ++ ListV) ++ ListC) "\1\3"%u]
  ++ [ReSub ((("("%u ++ ListC) ++ "{2,})"%u) ++ ListV) "\1"%u]
  ++ [ReSub ((ListV ++ ListC) ++ ListV) "\1\2"%u].

(** aksharamukha/PostProcess.py:2228-2238  def LaoNative(Strng) *)
Definition PP_LaoNative : prog :=
  [ReSub "ຕ([ເແໂໄ]?)ຕ"%u (("ດ"%u ++ "\1"%u) ++ "ຕ"%u)]
  ++ [ReSub "ຕ([ເແໂໄ]?)ຖ"%u (("ດ"%u ++ "\1"%u) ++ "ຖ"%u)]
  ++ [ReSub "ທ([ເແໂໄ]?)ທ"%u (("ດ"%u ++ "\1"%u) ++ "ທ"%u)]
  ++ [ReSub "ສ([ເແໂໄ]?)ສ"%u (("ດ"%u ++ "\1"%u) ++ "ສ"%u)]
  ++ [ReSub "ປ([ເແໂໄ]?)ປ"%u (("ບ"%u ++ "\1"%u) ++ "ປ"%u)]
  ++ [ReSub "ພ([ເແໂໄ]?)ພ"%u (("ບ"%u ++ "\1"%u) ++ "ພ"%u)].

(** aksharamukha/PostProcess.py:2240-2257  def SundaneseHistoricConjuncts(Strng, reverse=False) *)
Definition PP_SundaneseHistoricConjuncts (reverse : bool) : prog :=
  let! v1 := CrunchSymbols ((GM_Consonants ++ GM_Vowels) ++ GM_VowelSignsNV) "Sundanese"%u in
  let ListC := (join "|"%u v1) in
  (if (negb reverse) then ([Replace [0x1BAA; 0x1B99]%N [0x1BAC]%N]
  ++ [Replace [0x1BAA; 0x1B9D]%N [0x1BAD]%N]
  ++ (let! v2 := CrunchSymbols ((GM_Consonants ++ GM_Vowels) ++ GM_VowelSignsNV) "Sundanese"%u in
  let ListC := (join "|"%u v2) in
  [ReSub ((("("%u ++ ListC) ++ ")"%u) ++ "ᮊ᮪"%u) ("\1"%u ++ "ᮾ"%u)]
  ++ [ReSub ((("("%u ++ ListC) ++ ")"%u) ++ "ᮙ᮪"%u) ("\1"%u ++ "ᮿ"%u)])) else ([Replace [0x1BAC]%N [0x1BAA; 0x1B99]%N]
  ++ [Replace [0x1BAD]%N [0x1BAA; 0x1B9D]%N]
  ++ [Replace "ᮾ"%u "ᮊ᮪"%u]
  ++ [Replace "ᮿ"%u "ᮙ᮪"%u])).

(** aksharamukha/PostProcess.py:2259-2269  def LimbuSpellingSaI(Strng) *)
Definition PP_LimbuSpellingSaI : prog :=
  let! v1 := idx (attr "MainIndic"%u "Limbu"%u "ViramaMap"%u) (0)%Z in
  let vir := v1 in
  let! v3 := mapR (fun x => do v2 <- idx (attr "MainIndic"%u "Limbu"%u "ConsonantMap"%u) x; Ok v2) [(0)%Z; (4)%Z; (15)%Z; (19)%Z; (20)%Z; (24)%Z; (26)%Z; (27)%Z] in
  let FCons := (map (fun x => (x ++ vir)) v3) in
  let FinalCons := [[0x1930]%N; [0x1931]%N; [0x1933]%N; [0x1934]%N; [0x1935]%N; [0x1936]%N; [0x1937]%N; [0x1938]%N] in
  foreach (zip FCons FinalCons) (fun '(x, y) => 
    [Replace ([0x193A]%N ++ y) x]
  ++ [Replace ([0x193A; 0x1922]%N ++ y) ([0x1922]%N ++ x)]).

(** aksharamukha/PostProcess.py:2271-2272  def siddhammukta(Strng) *)
Definition PP_siddhammukta : prog :=
  [].

(** aksharamukha/PostProcess.py:2274-2275  def tradOrtho(Strng) *)
Definition PP_tradOrtho : prog :=
  [].

(** aksharamukha/PostProcess.py:2277-2278  def siddhamap(Strng) *)
Definition PP_siddhamap : prog :=
  [].

(** aksharamukha/PostProcess.py:2280-2283  def KhojkiRetainSpace(Strng) *)
Definition PP_KhojkiRetainSpace : prog :=
  [Replace "𑈺"%u " "%u].

(** aksharamukha/PostProcess.py:2285-2288  def BhaiksukiRetainSpace(Strng) *)
Definition PP_BhaiksukiRetainSpace : prog :=
  [Replace "𑱃"%u " "%u].

(** aksharamukha/PostProcess.py:2290-2293  def KaithiRetainSpace(Strng) *)
Definition PP_KaithiRetainSpace : prog :=
  [Replace "⸱"%u " "%u].

(** aksharamukha/PostProcess.py:2295-2302  def MedievalTamilOrthography(Strng) *)
Definition PP_MedievalTamilOrthography : prog :=
  let OldEO := ["எ்"%u; [0xBC6; 0xBCD]%N; "ஒ்"%u; [0xBC6; 0xBCD; 0xBBE]%N; "எ"%u; [0xBC6]%N; "ஒ"%u; [0xBCA]%N] in
  let NewEO := ["எ"%u; [0xBC6]%N; "ஒ"%u; [0xBCA]%N; "ஏ"%u; [0xBC7]%N; "ஓ"%u; [0xBCB]%N] in
  foreach (zip NewEO OldEO) (fun '(x, y) => 
    [Replace x y]).

(** aksharamukha/PostProcess.py:2304-2306  def AmbigousTamilOrthography(Strng) *)
Definition PP_AmbigousTamilOrthography : prog :=
  [].

(** aksharamukha/PostProcess.py:2308-2315  def NewaMurmurConsonants(Strng) *)
Definition PP_NewaMurmurConsonants : prog :=
  let murmur := ["𑐓"%u; "𑐙"%u; "𑐤"%u; "𑐪"%u; "𑐭"%u; "𑐯"%u] in
  let connsh := ["𑐴𑑂𑐒"%u; "𑐴𑑂𑐘"%u; "𑐴𑑂𑐣"%u; "𑐴𑑂𑐩"%u; "𑐴𑑂𑐬"%u; "𑐴𑑂𑐮"%u] in
  foreach (zip murmur connsh) (fun '(x, y) => 
    [Replace y x]).

(** aksharamukha/PostProcess.py:2317-2333  def ModiRemoveLong(Strng) *)
Definition PP_ModiRemoveLong : prog :=
  [Replace "𑘂"%u "𑘃"%u]
  ++ [Replace "𑘅"%u "𑘄"%u]
  ++ [Replace [0x11631]%N [0x11632]%N]
  ++ [Replace [0x11634]%N [0x11633]%N]
  ++ [Replace "𑘆"%u "𑘨𑘲"%u]
  ++ [Replace "𑘇"%u "𑘨𑘲"%u]
  ++ [Replace "𑘈"%u "𑘩𑘲"%u]
  ++ [Replace "𑘉"%u "𑘩𑘲"%u]
  ++ [Replace [0x11635]%N [0x1163F; 0x11628; 0x11632]%N]
  ++ [Replace [0x11636]%N [0x1163F; 0x11628; 0x11632]%N]
  ++ [Replace [0x11637]%N [0x1163F; 0x11629; 0x11632]%N]
  ++ [Replace [0x11638]%N [0x1163F; 0x11629; 0x11632]%N].

(** aksharamukha/PostProcess.py:2335-2342  def LimbuDevanagariConvention(Strng) *)
Definition PP_LimbuDevanagariConvention : prog :=
  [Replace "ऎ"%u "ए़"%u]
  ++ [Replace "ऒ"%u "ओ़"%u]
  ++ [Replace [0x946]%N [0x947; 0x93C]%N]
  ++ [Replace [0x94A]%N [0x94B; 0x93C]%N]
  ++ [Replace "꞉"%u [0x903]%N].

(** aksharamukha/PostProcess.py:2344-2357  def NandinagariPrishtamatra(Strng, reverse=False) *)
Definition PP_NandinagariPrishtamatra (reverse : bool) : prog :=
  (if (negb reverse) then ([Replace [0x119DA]%N [0x119E4]%N]
  ++ [Replace [0x119DB]%N [0x119E4; 0x119DA]%N]
  ++ [Replace [0x119DC]%N [0x119E4; 0x119D1]%N]
  ++ [Replace [0x119DD]%N [0x119E4; 0x119DC]%N]) else ([Replace [0x119E4; 0x119DA]%N [0x119DB]%N]
  ++ [Replace [0x119E4; 0x119D1]%N [0x119DC]%N]
  ++ [Replace [0x119E4; 0x119DC]%N [0x119DD]%N]
  ++ [Replace [0x119E4]%N [0x119DA]%N])).

(** aksharamukha/PostProcess.py:2359-2371  def DevanagariPrishtamatra(Strng, reverse=False) *)
Definition PP_DevanagariPrishtamatra (reverse : bool) : prog :=
  (if (negb reverse) then ([Replace [0x947]%N [0x94E]%N]
  ++ [Replace [0x948]%N [0x94E; 0x947]%N]
  ++ [Replace [0x94B]%N [0x94E; 0x93E]%N]
  ++ [Replace [0x94C]%N [0x94E; 0x94B]%N]) else ([Replace [0x94E; 0x947]%N [0x948]%N]
  ++ [Replace [0x94E; 0x94B]%N [0x94C]%N]
  ++ [Replace [0x94E; 0x93E]%N [0x94B]%N]
  ++ [Replace [0x94E]%N [0x947]%N])).

(** aksharamukha/PostProcess.py:2373-2374  def ThaanaRemoveHistorical(Strng) *)
Definition PP_ThaanaRemoveHistorical : prog :=
  [Replace "ޱ"%u "ނ"%u].

(** aksharamukha/PostProcess.py:2376-2377  def OriyaVaAlt(Strng) *)
Definition PP_OriyaVaAlt : prog :=
  [Replace "ୱ"%u "ଵ"%u].

(** aksharamukha/PostProcess.py:2379-2385  def GurmukhiYakaash(Strng, reverse=False) *)
Definition PP_GurmukhiYakaash (reverse : bool) : prog :=
  (if (negb reverse) then ([Replace [0xA4D; 0xA2F]%N [0xA75]%N]) else ([Replace [0xA75]%N [0xA4D; 0xA2F]%N])).

(** aksharamukha/PostProcess.py:2387-2393  def dotReph(Strng) *)
Definition PP_dotReph : prog :=
  let! v1 := CrunchSymbols GM_Consonants "Malayalam"%u in
  let ListC := (("("%u ++ (join "|"%u (sort_str v1))) ++ ")"%u) in
  [ReSub (("(?<!്)"%u ++ "ർ"%u) ++ ListC) ("ൎ"%u ++ "\1"%u)]
  ++ [ReSub (("(?<!്)"%u ++ "ര്"%u) ++ ListC) ("ൎ"%u ++ "\1"%u)].

(** aksharamukha/PostProcess.py:2395-2398  def TamilGranthaVisarga(Strng) *)
Definition PP_TamilGranthaVisarga : prog :=
  [Replace "꞉"%u [0x11303]%N].

(** aksharamukha/PostProcess.py:2400-2404  def archaicAIAU(Strng) *)
Definition PP_archaicAIAU : prog :=
  [Replace [0xD57]%N [0xD4C]%N]
  ++ [Replace "ഈ"%u "ൟ"%u].

(** aksharamukha/PostProcess.py:2406-2410  def MalayalamremoveHistorical(Strng) *)
Definition PP_MalayalamremoveHistorical : prog :=
  [Replace "ഩ"%u "ന"%u]
  ++ [Replace [0xD28; 0x200D; 0xD4D]%N "ൻ"%u].

(** aksharamukha/PostProcess.py:2412-2418  def LimburemoveHistorical(Strng) *)
Definition PP_LimburemoveHistorical : prog :=
  let removePairs := [("ᤉ"%u, "ᤈ"%u); ("ᤊ"%u, "ᤏ"%u); ("ᤚ"%u, "ᤙ"%u); ([0x1932]%N, [0x1931]%N)] in
  foreach removePairs (fun '(x, y) => 
    [Replace x y]).

(** aksharamukha/PostProcess.py:2568-2581  def InsertGeminationSign(Strng, Target) *)
Definition PP_InsertGeminationSign (Target : str) : prog :=
  let! v1 := CrunchSymbols GM_VowelSigns Target in
  let! v2 := idx v1 (0)%Z in
  let vir := v2 in
  let! v5 := mapR (fun x => do v3 <- CrunchList "ConsonantMap"%u Target; do v4 <- idx v3 x; Ok v4) [(0)%Z; (2)%Z; (5)%Z; (7)%Z; (10)%Z; (12)%Z; (15)%Z; (17)%Z; (20)%Z; (22)%Z; (4)%Z; (9)%Z; (14)%Z; (19)%Z; (24)%Z; (25)%Z; (26)%Z; (27)%Z; (28)%Z; (29)%Z; (30)%Z; (31)%Z; (32)%Z] in
  let ConUnAsp := v5 in
  let! v6 := CrunchList "SouthConsonantMap"%u Target in
  let! v7 := CrunchList "NuktaConsonantMap"%u Target in
  let ConUnAsp := ((ConUnAsp ++ v6) ++ v7) in
  let! v10 := mapR (fun x => do v8 <- CrunchList "ConsonantMap"%u Target; do v9 <- idx v8 x; Ok v9) [(1)%Z; (3)%Z; (6)%Z; (8)%Z; (11)%Z; (13)%Z; (16)%Z; (18)%Z; (21)%Z; (23)%Z] in
  let ConAsp := v10 in
  let! v13 := mapR (fun x => do v11 <- CrunchList "ConsonantMap"%u Target; do v12 <- idx v11 x; Ok v12) [(0)%Z; (2)%Z; (5)%Z; (7)%Z; (10)%Z; (12)%Z; (15)%Z; (17)%Z; (20)%Z; (22)%Z; (4)%Z; (9)%Z; (14)%Z; (19)%Z; (24)%Z] in
  let ConOthrs := v13 in
  let! v14 := of_opt KeyError (lookup Target GM_Gemination) in
  [ReSub (((((("("%u ++ (join "|"%u ConUnAsp)) ++ ")"%u) ++ "("%u) ++ vir) ++ ")"%u) ++ "\1"%u) (v14 ++ "\1"%u)]
  ++ foreach (range 0%Z (Z.of_nat (length ConAsp))) (fun i => 
    let! v15 := idx ConUnAsp i in
  let! v16 := idx ConAsp i in
  let! v17 := of_opt KeyError (lookup Target GM_Gemination) in
  [ReSub (((((((("("%u ++ v15) ++ ")"%u) ++ "("%u) ++ vir) ++ ")"%u) ++ "("%u) ++ v16) ++ ")"%u) (v17 ++ "\3"%u)]).

(** aksharamukha/PostProcess.py:2420-2425  def MalayalamPrakrit(Strng) *)
Definition PP_MalayalamPrakrit : prog :=
  [Replace [0xD02]%N [0xD00]%N]
  ++ (PP_InsertGeminationSign "Malayalam"%u).

(** aksharamukha/PostProcess.py:2583-2599  def ReverseGeminationSign(Strng, Target) *)
Definition PP_ReverseGeminationSign (Target : str) : prog :=
  let! v1 := CrunchSymbols GM_VowelSigns Target in
  let! v2 := idx v1 (0)%Z in
  let vir := v2 in
  let! v5 := mapR (fun x => do v3 <- CrunchList "ConsonantMap"%u Target; do v4 <- idx v3 x; Ok v4) [(0)%Z; (2)%Z; (5)%Z; (7)%Z; (10)%Z; (12)%Z; (15)%Z; (17)%Z; (20)%Z; (22)%Z; (4)%Z; (9)%Z; (14)%Z; (19)%Z; (24)%Z; (25)%Z; (26)%Z; (27)%Z; (28)%Z; (29)%Z; (30)%Z; (31)%Z; (32)%Z] in
  let ConUnAsp := v5 in
  let! v6 := CrunchList "SouthConsonantMap"%u Target in
  let! v7 := CrunchList "NuktaConsonantMap"%u Target in
  let ConUnAsp := ((ConUnAsp ++ v6) ++ v7) in
  let! v10 := mapR (fun x => do v8 <- CrunchList "ConsonantMap"%u Target; do v9 <- idx v8 x; Ok v9) [(1)%Z; (3)%Z; (6)%Z; (8)%Z; (11)%Z; (13)%Z; (16)%Z; (18)%Z; (21)%Z; (23)%Z] in
  let ConAsp := v10 in
  let! v13 := mapR (fun x => do v11 <- CrunchList "ConsonantMap"%u Target; do v12 <- idx v11 x; Ok v12) [(0)%Z; (2)%Z; (5)%Z; (7)%Z; (10)%Z; (12)%Z; (15)%Z; (17)%Z; (20)%Z; (22)%Z; (4)%Z; (9)%Z; (14)%Z; (19)%Z; (24)%Z] in
  let ConOthrs := v13 in
  (if (str_eqb Target "Gurmukhi"%u) then ([Replace [0xA71; 0xA36; 0xA3C]%N "ਸ਼਼੍ਸ਼਼"%u]) else ([]))
  ++ (let! v14 := of_opt KeyError (lookup Target GM_Gemination) in
  [ReSub ((((("("%u ++ v14) ++ ")"%u) ++ "("%u) ++ (join "|"%u ConUnAsp)) ++ ")"%u) (("\2"%u ++ vir) ++ "\2"%u)]
  ++ foreach (range 0%Z (Z.of_nat (length ConAsp))) (fun i => 
    let! v15 := of_opt KeyError (lookup Target GM_Gemination) in
  let! v16 := idx ConAsp i in
  let! v17 := idx ConUnAsp i in
  [ReSub ((((("("%u ++ v15) ++ ")"%u) ++ "("%u) ++ v16) ++ ")"%u) ((v17 ++ vir) ++ "\2"%u)])).

(** aksharamukha/PostProcess.py:2427-2439  def GranthaPrakrit(Strng) *)
Definition PP_GranthaPrakrit : prog :=
  [Replace [0x11302]%N [0x11300]%N]
  ++ PP_InsertGeminationSign "Grantha"%u
  ++ [Fn (reduce_findall "\s𑌂."%u (run (PP_ReverseGeminationSign "Grantha"%u)));
      Fn (reduce_findall [0x1134D; 0x11302; 0x2E]%N (run (PP_ReverseGeminationSign "Grantha"%u)))].

(** aksharamukha/PostProcess.py:2442-2449  def MeeteiMayekremoveHistorical(Strng) *)
Definition PP_MeeteiMayekremoveHistorical : prog :=
  let removePairs := [("ꫢ"%u, "ꯆ"%u); ("ꫣ"%u, "ꯅ"%u); ("ꫤ"%u, "ꯇ"%u); ("ꫥ"%u, "ꯊ"%u); ("ꫦ"%u, "ꯗ"%u); ("ꫧ"%u, "ꯙ"%u); ("ꫨ"%u, "ꯅ"%u); ("ꫩ"%u, "ꯁ"%u); ("ꫪ"%u, "ꯁ"%u); ([0xAAF5]%N, "ꯍ꯭"%u); ("ꯑꫫ"%u, "ꯏ"%u); ("ꯑꫬ"%u, "ꯎ"%u); ([0xAAEB]%N, [0xABE4]%N); ([0xAAEC]%N, [0xABE8]%N)] in
  foreach removePairs (fun '(x, y) => 
    [Replace x y]).

(** aksharamukha/PostProcess.py:2451-2452  def TamilOmDisable(Strng) *)
Definition PP_TamilOmDisable : prog :=
  [Replace "ௐ"%u "ஓம்"%u].

(** aksharamukha/PostProcess.py:2454-2455  def TamilSHADisable(Strng) *)
Definition PP_TamilSHADisable : prog :=
  [Replace "ஶ"%u "ஸ²"%u].

(** aksharamukha/PostProcess.py:2457-2479  def TamilNaToNNa(Strng) *)
Definition PP_TamilNaToNNa : prog :=
  let! v1 := idx (attr "MainIndic"%u "Tamil"%u "ConsonantMap"%u) (19)%Z in
  let na := v1 in
  let! v2 := idx (attr "MainIndic"%u "Tamil"%u "SouthConsonantMap"%u) (3)%Z in
  let nna := v2 in
  let! v3 := idx (attr "MainIndic"%u "Tamil"%u "ViramaMap"%u) (0)%Z in
  let vir := v3 in
  let! v4 := idx (attr "MainIndic"%u "Tamil"%u "ConsonantMap"%u) (15)%Z in
  let ta := v4 in
  let! v5 := CrunchSymbols ((GM_Vowels ++ GM_VowelSigns) ++ GM_Consonants) "Tamil"%u in
  let! v6 := idx (attr "MainIndic"%u "Tamil"%u "SignMap"%u) (0)%Z in
  let ListV := (join "|"%u (v5 ++ [(replace ")"%u "\)"%u (replace "("%u "\("%u v6))])) in
  [ReSub (((((((((("("%u ++ ListV) ++ ")"%u) ++ GM_VedicSvaras) ++ "("%u) ++ na) ++ ")"%u) ++ "(?!"%u) ++ vir) ++ ta) ++ ")"%u) ("\1\2"%u ++ nna)]
  ++ [ReSub (((((((((("("%u ++ ListV) ++ ")"%u) ++ GM_VedicSvaras) ++ "("%u) ++ na) ++ ")"%u) ++ "(?!"%u) ++ vir) ++ ta) ++ ")"%u) ("\1\2"%u ++ nna)]
  ++ [ReSub (((((((("(²|³|⁴)"%u ++ GM_VedicSvaras) ++ "("%u) ++ na) ++ ")"%u) ++ "(?!"%u) ++ vir) ++ ta) ++ ")"%u) ("\1\2"%u ++ nna)]
  ++ [ReSub (((((((("(²|³|⁴)"%u ++ GM_VedicSvaras) ++ "("%u) ++ na) ++ ")"%u) ++ "(?!"%u) ++ vir) ++ ta) ++ ")"%u) ("\1\2"%u ++ nna)]
  ++ [ReSub (("(?<=ஶ்ரீ)(ன)(?!"%u ++ vir) ++ ")"%u) "ந"%u].

(** aksharamukha/PostProcess.py:2483-2526  def MalayalamChillu(Strng, reverse=False, preserve=False) *)
Definition PP_MalayalamChillu (reverse : bool) (preserve : bool) : prog :=
  let Chillus := ["ൺ"%u; "ൻ"%u; "ർ"%u; "ൽ"%u; "ൾ"%u; [0xD29; 0x200D; 0xD4D]%N] in
  let! v1 := CrunchSymbols GM_CharactersNV "Malayalam"%u in
  let ListC := (("("%u ++ (join "|"%u (v1 ++ ["ഽ"%u]))) ++ ")"%u) in
  let! v2 := idx (attr "MainIndic"%u "Malayalam"%u "ViramaMap"%u) (0)%Z in
  let vir := v2 in
  let! v3 := idx (attr "MainIndic"%u "Malayalam"%u "ConsonantMap"%u) (14)%Z in
  let! v4 := idx (attr "MainIndic"%u "Malayalam"%u "ConsonantMap"%u) (19)%Z in
  let! v5 := idx (attr "MainIndic"%u "Malayalam"%u "ConsonantMap"%u) (26)%Z in
  let! v6 := idx (attr "MainIndic"%u "Malayalam"%u "ConsonantMap"%u) (27)%Z in
  let! v7 := idx (attr "MainIndic"%u "Malayalam"%u "SouthConsonantMap"%u) (0)%Z in
  let ConVir := [(v3 ++ vir); (v4 ++ vir); (v5 ++ vir); (v6 ++ vir); (v7 ++ vir); "ഩ്"%u] in
  let CList := [(((slice (attr "MainIndic"%u "Malayalam"%u "ConsonantMap"%u) (Some (10)%Z) (Some (15)%Z)) ++ (slice (attr "MainIndic"%u "Malayalam"%u "ConsonantMap"%u) (Some (24)%Z) (Some (26)%Z))) ++ (slice (attr "MainIndic"%u "Malayalam"%u "ConsonantMap"%u) (Some (28)%Z) (Some (29)%Z))); ((((slice (attr "MainIndic"%u "Malayalam"%u "ConsonantMap"%u) (Some (15)%Z) (Some (20)%Z)) ++ (slice (attr "MainIndic"%u "Malayalam"%u "ConsonantMap"%u) (Some (24)%Z) (Some (27)%Z))) ++ (slice (attr "MainIndic"%u "Malayalam"%u "ConsonantMap"%u) (Some (28)%Z) (Some (29)%Z))) ++ ["റ"%u]); (slice (attr "MainIndic"%u "Malayalam"%u "ConsonantMap"%u) (Some (25)%Z) (Some (27)%Z)); (((slice (attr "MainIndic"%u "Malayalam"%u "ConsonantMap"%u) (Some (20)%Z) (Some (21)%Z)) ++ (slice (attr "MainIndic"%u "Malayalam"%u "ConsonantMap"%u) (Some (24)%Z) (Some (26)%Z))) ++ (slice (attr "MainIndic"%u "Malayalam"%u "ConsonantMap"%u) (Some (27)%Z) (Some (29)%Z))); ((slice (attr "MainIndic"%u "Malayalam"%u "SouthConsonantMap"%u) (Some (0)%Z) (Some (1)%Z)) ++ (slice (attr "MainIndic"%u "Malayalam"%u "ConsonantMap"%u) (Some (25)%Z) (Some (27)%Z))); ((((slice (attr "MainIndic"%u "Malayalam"%u "ConsonantMap"%u) (Some (15)%Z) (Some (20)%Z)) ++ (slice (attr "MainIndic"%u "Malayalam"%u "ConsonantMap"%u) (Some (24)%Z) (Some (27)%Z))) ++ (slice (attr "MainIndic"%u "Malayalam"%u "ConsonantMap"%u) (Some (28)%Z) (Some (29)%Z))) ++ ["റ"%u])] in
  (if (negb reverse) then (foreach (range 0%Z (Z.of_nat (length Chillus))) (fun i => 
    let! v8 := idx ConVir i in
  let! v9 := idx CList i in
  let! v10 := idx Chillus i in
  [ReSub (((((((ListC ++ GM_VedicSvaras) ++ "("%u) ++ v8) ++ ")"%u) ++ "(?!["%u) ++ (join [] v9)) ++ "])"%u) ("\1\2"%u ++ v10)]
  ++ (let! v11 := idx ConVir i in
  let! v12 := idx CList i in
  let! v13 := idx Chillus i in
  [ReSub ((((((((((ListC ++ GM_VedicSvaras) ++ "("%u) ++ v11) ++ ")"%u) ++ "(?=(["%u) ++ (join [] v12)) ++ "])"%u) ++ vir) ++ "\4"%u) ++ ")"%u) ("\1\2"%u ++ v13)]))
  ++ [ReSub "(?<!ത്)ˍ"%u []]) else ((if preserve then (foreach (zip Chillus ConVir) (fun '(x, y) => 
    [Replace x (y ++ "ˍ"%u)])) else (foreach (zip Chillus ConVir) (fun '(x, y) => 
    [Replace x y]))))).

(** aksharamukha/PostProcess.py:2528-2539  def historicChillu(Strng) *)
Definition PP_historicChillu : prog :=
  let chilluArch := ["ൔ"%u; "ൕ"%u; "ൖ"%u; "ൿ"%u] in
  let chilluArchhVir := ["മ്"%u; "യ്"%u; "ഴ്"%u; "ക്"%u] in
  let! v1 := CrunchSymbols GM_CharactersNV "Malayalam"%u in
  let ListC := (("("%u ++ (join "|"%u (v1 ++ ["ഽ"%u]))) ++ ")"%u) in
  let! v2 := idx (attr "MainIndic"%u "Malayalam"%u "ViramaMap"%u) (0)%Z in
  let vir := v2 in
  foreach (zip chilluArch chilluArchhVir) (fun '(ch, chvir) => 
    [ReSub (((((("(?<!"%u ++ vir) ++ ")"%u) ++ chvir) ++ "(?!"%u) ++ ListC) ++ ")"%u) ch]).

(** aksharamukha/PostProcess.py:2541-2546  def MalayalamLineVirama(Strng) *)
Definition PP_MalayalamLineVirama : prog :=
  [Replace [0xD4D]%N [0xD3B]%N].

(** aksharamukha/PostProcess.py:2548-2551  def MalayalamCircVirama(Strng) *)
Definition PP_MalayalamCircVirama : prog :=
  [Replace [0xD4D]%N [0xD3C]%N].

(** aksharamukha/PostProcess.py:2553-2566  def RemoveSchwa(Strng, Target) *)
Definition PP_RemoveSchwa (Target : str) : prog :=
  let! v1 := CrunchSymbols GM_VowelSigns Target in
  let! v2 := idx v1 (0)%Z in
  let! v3 := CrunchSymbols GM_VowelSigns Target in
  let! v4 := idx v3 (0)%Z in
  let vir := (v2 ++ v4) in
  let! v5 := CrunchSymbols GM_Consonants Target in
  let ListC := (join "|"%u v5) in
  let! v6 := CrunchSymbols GM_Vowels Target in
  let ListV := (join "|"%u v6) in
  let! v7 := CrunchSymbols GM_VowelSignsNV Target in
  let ListVS := (join "|"%u v7) in
  let! v8 := CrunchSymbols (((GM_Vowels ++ GM_VowelSigns) ++ GM_Consonants) ++ GM_CombiningSigns) Target in
  let ListAll := (join "|"%u v8) in
  [ReSub (((((((("("%u ++ ListAll) ++ ")"%u) ++ "("%u) ++ ListC) ++ ")"%u) ++ "(?!"%u) ++ ListAll) ++ ")"%u) ("\1\2"%u ++ vir)]
  ++ [ReSub (((((((((((((("("%u ++ ListAll) ++ ")"%u) ++ "(?<!"%u) ++ vir) ++ ")"%u) ++ "("%u) ++ ListC) ++ ")"%u) ++ "("%u) ++ ListC) ++ ")"%u) ++ "("%u) ++ ListVS) ++ ")"%u) (("\1\2"%u ++ vir) ++ "\3\4"%u)].

(** aksharamukha/PostProcess.py:2601-2615  def GurmukhiTippiBindu(Strng) *)
Definition PP_GurmukhiTippiBindu : prog :=
  let! v1 := idx (attr "MainIndic"%u "Gurmukhi"%u "AyogavahaMap"%u) (1)%Z in
  let Bindi := v1 in
  let Tippi := [0xA70]%N in
  let! v2 := CrunchSymbols GM_Consonants "Gurmukhi"%u in
  let! v4 := mapR (fun x => do v3 <- idx (attr "MainIndic"%u "Gurmukhi"%u "VowelMap"%u) x; Ok v3) [(0)%Z; (2)%Z; (4)%Z] in
  let! v5 := idx (attr "MainIndic"%u "Gurmukhi"%u "VowelSignMap"%u) (1)%Z in
  let! v6 := idx (attr "MainIndic"%u "Gurmukhi"%u "VowelSignMap"%u) (3)%Z in
  let! v7 := idx (attr "MainIndic"%u "Gurmukhi"%u "VowelSignMap"%u) (4)%Z in
  let ListTippi := (join "|"%u ((((v2 ++ v4) ++ [v5]) ++ [v6]) ++ [v7])) in
  let! v8 := CrunchSymbols GM_Consonants "Gurmukhi"%u in
  let! v9 := CrunchSymbols GM_Vowels "Gurmukhi"%u in
  let Char := (join "|"%u (v8 ++ v9)) in
  let! v10 := idx (attr "MainIndic"%u "Gurmukhi"%u "VowelSignMap"%u) (4)%Z in
  [ReSub (((((("("%u ++ v10) ++ ")"%u) ++ Bindi) ++ "(?!"%u) ++ Char) ++ ")"%u) ("\1"%u ++ Tippi)]
  ++ [ReSub ((((("("%u ++ ListTippi) ++ ")"%u) ++ "("%u) ++ Bindi) ++ ")"%u) ("\1"%u ++ Tippi)].

(** aksharamukha/PostProcess.py:2617-2631  def GurmukhiTippiGemination(Strng) *)
Definition PP_GurmukhiTippiGemination : prog :=
  let! v1 := idx (attr "MainIndic"%u "Gurmukhi"%u "ConsonantMap"%u) (19)%Z in
  let n := v1 in
  let! v2 := idx (attr "MainIndic"%u "Gurmukhi"%u "ConsonantMap"%u) (24)%Z in
  let m_ := v2 in
  let! v3 := idx (attr "MainIndic"%u "Gurmukhi"%u "ViramaMap"%u) (0)%Z in
  let vir := v3 in
  let Addak := [0xA71]%N in
  let Tippi := [0xA70]%N in
  [Replace (Addak ++ m_) (Tippi ++ m_)]
  ++ [Replace (Addak ++ n) (Tippi ++ n)].

(** aksharamukha/PostProcess.py:2640-2644  def khandatabatova(Strng) *)
Definition PP_khandatabatova : prog :=
  [Replace "ৎব"%u "ত্ব"%u]
  ++ [Replace [0x9CE; 0x200C; 0x9AC]%N "ত্ব"%u].

(** aksharamukha/PostProcess.py:2633-2638  def BengaliConjunctVB(Strng) *)
Definition PP_BengaliConjunctVB : prog :=
  [Replace [0x9CD; 0x200C; 0x9AC]%N [0x9CD; 0x9AC]%N]
  ++ PP_khandatabatova.

(** aksharamukha/PostProcess.py:2646-2659  def BengaliRaBa(Strng) *)
Definition PP_BengaliRaBa : prog :=
  [Replace "ৰু"%u [0x9F0; 0x200C; 0x9C1]%N]
  ++ [Replace "ৰূ"%u [0x9F0; 0x200C; 0x9C2]%N]
  ++ [Replace [0x9CD; 0x9F0]%N [0x9CD; 0x200C; 0x9F0]%N]
  ++ [ReSub "(ৰ)(্)([রয])"%u (("\1"%u ++ [0x200D]%N) ++ "\2\3"%u)]
  ++ [ReSub "(ৰ)(্)"%u ("\1\2"%u ++ [0x200C]%N)]
  ++ [Replace [0x9B0; 0x9CD; 0x200C; 0x9F0]%N "ৰ্ৰ"%u].

(** aksharamukha/PostProcess.py:2661-2671  def BengaliIntervocalicDDA(Strng) *)
Definition PP_BengaliIntervocalicDDA : prog :=
  let Target := "Bengali"%u in
  let! v1 := CrunchSymbols GM_Characters Target in
  let! v2 := CrunchList "SignMap"%u Target in
  let! v3 := idx v2 (0)%Z in
  let ListC := (join "|"%u ((v1 ++ [v3]) ++ ["ৰ"%u])) in
  let replacements := [("ড"%u, "ড়"%u); ("ঢ"%u, "ঢ়"%u)] in
  foreach replacements (fun '(x, y) => 
    [ReSub (((("("%u ++ ListC) ++ ")"%u) ++ GM_VedicSvaras) ++ x) ("\1\2"%u ++ y)]).

(** aksharamukha/PostProcess.py:2673-2686  def KhandaTa(Strng, Target, reverse=False) *)
Definition PP_KhandaTa (Target : str) (reverse : bool) : prog :=
  let! v1 := CrunchSymbols GM_Consonants Target in
  let! v2 := idx v1 (15)%Z in
  let ta := v2 in
  let khandata := "ৎ"%u in
  let! v3 := CrunchSymbols GM_VowelSigns Target in
  let! v4 := idx v3 (0)%Z in
  let vir := v4 in
  let! v7 := mapR (fun x => do v5 <- CrunchList "ConsonantMap"%u Target; do v6 <- idx v5 x; Ok v6) [(15)%Z; (16)%Z; (19)%Z; (27)%Z; (24)%Z; (25)%Z; (26)%Z; (28)%Z] in
  let ListC := (join "|"%u (v7 ++ ["ব"%u; "ৰ"%u; "য়"%u])) in
  (if (negb reverse) then ([ReSub ((((((((((("(?<!"%u ++ vir) ++ ")"%u) ++ "("%u) ++ ta) ++ ")"%u) ++ "("%u) ++ vir) ++ ")"%u) ++ "(?!"%u) ++ ListC) ++ ")"%u) khandata]
  ++ [Replace "ৎˍ"%u "ৎ"%u]) else ([Replace khandata (ta ++ vir)])).

(** aksharamukha/PostProcess.py:2735-2764  def MalayalamAnusvaraNasal(Strng) *)
Definition PP_MalayalamAnusvaraNasal : prog :=
  let! v1 := CrunchSymbols GM_Characters "Malayalam"%u in
  let ListCAll := (("("%u ++ (join "|"%u v1)) ++ ")"%u) in
  let! v3 := mapR (fun x => do v2 <- idx (attr "MainIndic"%u "Malayalam"%u "ConsonantMap"%u) x; Ok v2) [(4)%Z; (9)%Z; (14)%Z; (19)%Z; (24)%Z] in
  let ListNNasal := v3 in
  let ListCNasal := [(join "|"%u (slice (attr "MainIndic"%u "Malayalam"%u "ConsonantMap"%u) (Some (0)%Z) (Some (1)%Z))); (join "|"%u (slice (attr "MainIndic"%u "Malayalam"%u "ConsonantMap"%u) (Some (5)%Z) (Some (8)%Z))); (join "|"%u (slice (attr "MainIndic"%u "Malayalam"%u "ConsonantMap"%u) (Some (10)%Z) (Some (14)%Z))); (join "|"%u (slice (attr "MainIndic"%u "Malayalam"%u "ConsonantMap"%u) (Some (15)%Z) (Some (19)%Z))); (join "|"%u (slice (attr "MainIndic"%u "Malayalam"%u "ConsonantMap"%u) (Some (20)%Z) (Some (21)%Z)))] in
  let! v5 := mapR (fun x => do v4 <- idx (attr "MainIndic"%u "Malayalam"%u "ConsonantMap"%u) x; Ok v4) [(4)%Z; (24)%Z] in
  let ListNAnu := v5 in
  let ListCAnu := [(join "|"%u (slice (attr "MainIndic"%u "Malayalam"%u "ConsonantMap"%u) (Some (1)%Z) (Some (4)%Z))); (join "|"%u (slice (attr "MainIndic"%u "Malayalam"%u "ConsonantMap"%u) (Some (21)%Z) (Some (24)%Z)))] in
  let! v6 := idx (attr "MainIndic"%u "Malayalam"%u "ViramaMap"%u) (0)%Z in
  let vir := v6 in
  let! v7 := idx (attr "MainIndic"%u "Malayalam"%u "AyogavahaMap"%u) (1)%Z in
  let Anu := v7 in
  let Chillus := ["ൺ"%u; "ൻ"%u; "ർ"%u; "ൽ"%u; "ൾ"%u; [0xD29; 0x200D; 0xD4D]%N] in
  foreach (range 0%Z (Z.of_nat (length ListNNasal))) (fun i => 
    let! v8 := idx ListCNasal i in
  let! v9 := idx ListNNasal i in
  [ReSub ((((("("%u ++ Anu) ++ ")"%u) ++ "("%u) ++ v8) ++ ")"%u) ((v9 ++ vir) ++ "\2"%u)])
  ++ foreach (range 0%Z (Z.of_nat (length ListNAnu))) (fun i => 
    let! v10 := idx ListNAnu i in
  let! v11 := idx ListCAnu i in
  [ReSub ((((((((((((((((((ListCAll ++ GM_VedicSvaras) ++ "(?<!"%u) ++ vir) ++ ")"%u) ++ "(?<!["%u) ++ (join "."%u Chillus)) ++ "])(?<!"%u) ++ vir) ++ ")"%u) ++ "("%u) ++ v10) ++ ")"%u) ++ "("%u) ++ vir) ++ ")"%u) ++ "("%u) ++ v11) ++ ")"%u) (("\1\2"%u ++ Anu) ++ "\5"%u)]).

(** aksharamukha/PostProcess.py:2767-2785  def MToAnusvara(Strng, Target) *)
Definition PP_MToAnusvara (Target : str) : prog :=
  let! v1 := CrunchList "ConsonantMap"%u Target in
  let! v2 := idx v1 (24)%Z in
  let! v3 := CrunchList "ViramaMap"%u Target in
  let! v4 := idx v3 (0)%Z in
  let M := (v2 ++ v4) in
  let! v5 := CrunchList "ViramaMap"%u Target in
  let! v6 := idx v5 (0)%Z in
  let vir := v6 in
  let! v7 := CrunchList "AyogavahaMap"%u Target in
  let! v8 := idx v7 (1)%Z in
  let Anusvara := v8 in
  let! v9 := CrunchSymbols GM_Characters Target in
  let ListC := (join "|"%u v9) in
  let Chillus := (join "|"%u [vir; "ൺ"%u; "ൻ"%u; "ർ"%u; "ൽ"%u; "ൾ"%u]) in
  let! v10 := CrunchSymbols GM_Characters Target in
  let ListCAll := (("("%u ++ (join "|"%u v10)) ++ ")"%u) in
  [ReSub ((((((((((ListCAll ++ GM_VedicSvaras) ++ "(?<!"%u) ++ vir) ++ ")"%u) ++ "("%u) ++ M) ++ ")"%u) ++ "(?!"%u) ++ ListC) ++ ")"%u) ("\1\2"%u ++ Anusvara)]
  ++ foreach GM_VedicSvarasList (fun svara => 
    [Replace (svara ++ Anusvara) (Anusvara ++ svara)]).

(** aksharamukha/PostProcess.py:2793-2799  def YYAEverywhere(Strng, Target) *)
Definition PP_YYAEverywhere (Target : str) : prog :=
  let! v1 := CrunchList "ConsonantMap"%u Target in
  let! v2 := idx v1 (25)%Z in
  let Ya := v2 in
  let! v3 := CrunchList "NuktaConsonantMap"%u Target in
  let! v4 := idx v3 (7)%Z in
  let YYa := v4 in
  [Replace Ya YYa].

(** aksharamukha/PostProcess.py:2787-2788  def OriyaYYA(Strng) *)
Definition PP_OriyaYYA : prog :=
  (PP_YYAEverywhere "Oriya"%u).

(** aksharamukha/PostProcess.py:2790-2791  def BengaliYYA(Strng) *)
Definition PP_BengaliYYA : prog :=
  (PP_YYAEverywhere "Bengali"%u).

(** aksharamukha/PostProcess.py:2801-2834  def YaToYYa(Strng, Target) *)
Definition PP_YaToYYa (Target : str) : prog :=
  let! v1 := CrunchList "NuktaConsonantMap"%u Target in
  let! v2 := idx v1 (7)%Z in
  let YYa := v2 in
  let! v3 := CrunchSymbols GM_Characters Target in
  let! v4 := CrunchList "SignMap"%u Target in
  let! v5 := idx v4 (0)%Z in
  let ListC := (join "|"%u ((v3 ++ [v5]) ++ ["ৰ"%u])) in
  let! v6 := CrunchSymbols GM_VowelSignsNV Target in
  let ListS := (("("%u ++ (join "|"%u v6)) ++ ")"%u) in
  let! v7 := CrunchList "ConsonantMap"%u Target in
  let! v8 := idx v7 (25)%Z in
  let Ya := v8 in
  let! v9 := CrunchSymbols GM_VowelSigns Target in
  let! v10 := idx v9 (0)%Z in
  let vir := v10 in
  let! v11 := CrunchList "ConsonantMap"%u Target in
  let ListVarga := (join "|"%u (slice v11 (Some (0)%Z) (Some (25)%Z))) in
  (if (mem Target ["Assamese"%u; "Bengali"%u; "Oriya"%u; "Chakma"%u]) then ([ReSub (((("("%u ++ ListC) ++ ")"%u) ++ GM_VedicSvaras) ++ Ya) ("\1\2"%u ++ YYa)]
  ++ (if (mem Target ["Assamese"%u; "Bengali"%u]) then ([Replace (vir ++ YYa) (vir ++ Ya)]) else ([]))
  ++ (if (str_eqb Target "Chakma"%u) then ([Replace "𑄠𑄡"%u "𑄠𑄠"%u]
  ++ [Replace (vir ++ YYa) ([0x11133]%N ++ YYa)]) else ([]))) else ([])).

(** aksharamukha/PostProcess.py:2869-2880  def VaToBa(Strng, Target) *)
Definition PP_VaToBa (Target : str) : prog :=
  let! v1 := CrunchSymbols GM_Consonants Target in
  let! v2 := idx v1 (28)%Z in
  let va := v2 in
  let! v3 := CrunchSymbols GM_Consonants Target in
  let! v4 := idx v3 (22)%Z in
  let ba := v4 in
  (if (str_eqb Target "Bengali"%u) then ([]) else ([]))
  ++ [Replace va ba].

(** aksharamukha/PostProcess.py:2882-2886  def tbadiff(Strng, Target) *)
Definition PP_tbadiff (Target : str) : prog :=
  [Replace "ৎব"%u "ত্ব"%u].

(** aksharamukha/PostProcess.py:2913-2924  def RetainRomanNumerals(Strng, Target, reverse=False) *)
Definition PP_RetainRomanNumerals (Target : str) (reverse : bool) : prog :=
  let! v1 := CrunchList "NumeralMap"%u Target in
  let NativeNumerals := v1 in
  let! v2 := CrunchList "NumeralMap"%u "ISO"%u in
  let ArabicNumerals := v2 in
  (if (negb reverse) then (foreach (zip ArabicNumerals NativeNumerals) (fun '(y, x) => 
    [ReSub ("(?<!h)"%u ++ x) y])) else (foreach (zip NativeNumerals ArabicNumerals) (fun '(y, x) => 
    [Replace x y]))).

(** aksharamukha/PostProcess.py:2926-2927  def indicNumerals(Strng) *)
Definition PP_indicNumerals : prog :=
  [].

(** aksharamukha/PostProcess.py:2929-2930  def romanFullStop(Strng) *)
Definition PP_romanFullStop : prog :=
  [].

(** aksharamukha/PostProcess.py:2932-2933  def indicDandas(Strng) *)
Definition PP_indicDandas : prog :=
  [].

(** aksharamukha/PostProcess.py:2935-2936  def romanNumerals(Strng) *)
Definition PP_romanNumerals : prog :=
  [].

(** aksharamukha/PostProcess.py:2938-2939  def RetainTeluguDanda(Strng) *)
Definition PP_RetainTeluguDanda : prog :=
  (PP_RetainDandasIndic "Telugu"%u false).

(** aksharamukha/PostProcess.py:2941-2942  def RetainTeluguNumerals(Strng) *)
Definition PP_RetainTeluguNumerals : prog :=
  (PP_RetainIndicNumerals "Telugu"%u false).

(** aksharamukha/PostProcess.py:2944-2945  def RetainTamilDanda(Strng) *)
Definition PP_RetainTamilDanda : prog :=
  (PP_RetainDandasIndic "Tamil"%u false).

(** aksharamukha/PostProcess.py:2947-2948  def RetainTamilNumerals(Strng) *)
Definition PP_RetainTamilNumerals : prog :=
  (PP_RetainIndicNumerals "Tamil"%u false).

(** aksharamukha/PostProcess.py:2950-2951  def RetainKannadaDanda(Strng) *)
Definition PP_RetainKannadaDanda : prog :=
  (PP_RetainDandasIndic "Kannada"%u false).

(** aksharamukha/PostProcess.py:2953-2954  def RetainKannadaNumerals(Strng) *)
Definition PP_RetainKannadaNumerals : prog :=
  (PP_RetainIndicNumerals "Kannada"%u false).

(** aksharamukha/PostProcess.py:2956-2957  def RetainMalayalamDanda(Strng) *)
Definition PP_RetainMalayalamDanda : prog :=
  (PP_RetainDandasIndic "Malayalam"%u false).

(** aksharamukha/PostProcess.py:2959-2960  def RetainMalayalamNumerals(Strng) *)
Definition PP_RetainMalayalamNumerals : prog :=
  (PP_RetainIndicNumerals "Malayalam"%u false).

(** aksharamukha/PostProcess.py:2962-2963  def RetainGujaratiDanda(Strng) *)
Definition PP_RetainGujaratiDanda : prog :=
  (PP_RetainDandasIndic "Gujarati"%u false).

(** aksharamukha/PostProcess.py:2965-2966  def RetainGurmukhiNumerals(Strng) *)
Definition PP_RetainGurmukhiNumerals : prog :=
  (PP_RetainIndicNumerals "Gurmukhi"%u false).

(** aksharamukha/PostProcess.py:2968-2975  def SundaneseRemoveHistoric(Strng) *)
Definition PP_SundaneseRemoveHistoric : prog :=
  [Replace [0x1BAA; 0x1BBB]%N [0x1BA2; 0x1BA9]%N]
  ++ [Replace [0x1BAA; 0x1BBC]%N [0x1BA3; 0x1BA9]%N]
  ++ [Replace "ᮻ"%u "ᮛᮩ"%u]
  ++ [Replace "ᮼ"%u "ᮜᮩ"%u]
  ++ [Replace "ᮽ"%u "ᮘ"%u].

(** aksharamukha/PostProcess.py:2977-2984  def OriyaVa(Strng) *)
Definition PP_OriyaVa : prog :=
  let! v1 := idx (attr "MainIndic"%u "Oriya"%u "ConsonantMap"%u) (28)%Z in
  let va := v1 in
  let OriyaVa := "ବ"%u in
  [ReSub ("(?<!୍)"%u ++ va) OriyaVa].

(** aksharamukha/PostProcess.py:2986-2990  def RemoveDiacritics(Strng) *)
Definition PP_RemoveDiacritics : prog :=
  foreach GM_DiacriticsRemovable (fun x => 
    [Replace x []]).

(** aksharamukha/PostProcess.py:2992-2996  def RemoveDiacriticsTamil(Strng) *)
Definition PP_RemoveDiacriticsTamil : prog :=
  foreach GM_DiacriticsRemovableTamil (fun x => 
    [Replace x []]).

(** aksharamukha/PostProcess.py:2998-3006  def TamilSubScript(Strng) *)
Definition PP_TamilSubScript : prog :=
  let SuperScript := ["¹"%u; "²"%u; "³"%u; "⁴"%u] in
  let SubScript := ["₁"%u; "₂"%u; "₃"%u; "₄"%u] in
  foreach (zip SuperScript SubScript) (fun '(x, y) => 
    [Replace x y]).

(** aksharamukha/PostProcess.py:3022-3030  def SaurashtraHaru(Strng) *)
Definition PP_SaurashtraHaru : prog :=
  let! v2 := mapR (fun x => do v1 <- idx (attr "MainIndic"%u "Saurashtra"%u "ConsonantMap"%u) x; Ok v1) [(19)%Z; (24)%Z; (26)%Z; (27)%Z] in
  let ListC := (join "|"%u v2) in
  let! v3 := idx (attr "MainIndic"%u "Saurashtra"%u "ViramaMap"%u) (0)%Z in
  let vir := v3 in
  let! v4 := idx (attr "MainIndic"%u "Saurashtra"%u "ConsonantMap"%u) (32)%Z in
  let ha := v4 in
  [ReSub (((("("%u ++ ListC) ++ ")"%u) ++ vir) ++ ha) ("\1"%u ++ [0xA8B4]%N)].

(** aksharamukha/PostProcess.py:3032-3047  def SinhalaDefaultConjuncts(Strng) *)
Definition PP_SinhalaDefaultConjuncts : prog :=
  let! v1 := idx (attr "MainIndic"%u "Sinhala"%u "ViramaMap"%u) (0)%Z in
  let vir := v1 in
  let YR := (join "|"%u (slice (attr "MainIndic"%u "Sinhala"%u "ConsonantMap"%u) (Some (25)%Z) (Some (27)%Z))) in
  [ReSub ((((("("%u ++ vir) ++ ")"%u) ++ "("%u) ++ YR) ++ ")"%u) (("\1"%u ++ [0x200D]%N) ++ "\2"%u)]
  ++ (let! v2 := sidx YR (2)%Z in
  let! v3 := sidx YR (0)%Z in
  [ReSub ((((((((((("("%u ++ v2) ++ ")"%u) ++ "("%u) ++ vir) ++ ")"%u) ++ "("%u) ++ [0x200D]%N) ++ ")"%u) ++ "("%u) ++ v3) ++ ")"%u) "\1\3\2\3\4"%u]
  ++ (let! v4 := idx (attr "MainIndic"%u "Sinhala"%u "ConsonantMap"%u) (7)%Z in
  let! v5 := idx (attr "MainIndic"%u "Sinhala"%u "ViramaMap"%u) (0)%Z in
  let! v6 := idx (attr "MainIndic"%u "Sinhala"%u "ConsonantMap"%u) (9)%Z in
  [Replace ((v4 ++ v5) ++ v6) "ඥ"%u]
  ++ (let! v7 := idx (attr "MainIndic"%u "Sinhala"%u "ConsonantMap"%u) (0)%Z in
  let! v8 := idx (attr "MainIndic"%u "Sinhala"%u "ConsonantMap"%u) (30)%Z in
  let! v9 := idx (attr "MainIndic"%u "Sinhala"%u "ConsonantMap"%u) (0)%Z in
  let! v10 := idx (attr "MainIndic"%u "Sinhala"%u "ConsonantMap"%u) (30)%Z in
  [Replace ((v7 ++ vir) ++ v8) (((v9 ++ vir) ++ [0x200D]%N) ++ v10)]
  ++ [Replace [0xDBB; 0x200D; 0xDCA; 0x200D; 0xDBA]%N "ර්ය"%u]
  ++ [Replace [0xDBB; 0xDCA; 0x200D; 0xDBB]%N "ර්ර"%u]))).

(** aksharamukha/PostProcess.py:3049-3052  def IASTPali(Strng) *)
Definition PP_IASTPali : prog :=
  [Replace "l̤"%u "ḷ"%u].

(** aksharamukha/PostProcess.py:3054-3057  def CyrillicPali(Strng) *)
Definition PP_CyrillicPali : prog :=
  [Replace "л̤"%u "л̣"%u].

(** aksharamukha/PostProcess.py:3059-3078  def SinhalaConjuncts(Strng) *)
Definition PP_SinhalaConjuncts : prog :=
  let! v1 := idx (attr "MainIndic"%u "Sinhala"%u "SouthConsonantMap"%u) (0)%Z in
  let ListC := ((attr "MainIndic"%u "Sinhala"%u "ConsonantMap"%u) ++ [v1]) in
  let! v2 := idx (attr "MainIndic"%u "Sinhala"%u "ViramaMap"%u) (0)%Z in
  let vir := v2 in
  let ZWJ := [0x200D]%N in
  let conjoining := [((0)%Z, (28)%Z); ((2)%Z, (18)%Z); ((9)%Z, (5)%Z); ((10)%Z, (11)%Z); ((15)%Z, (16)%Z); ((15)%Z, (28)%Z); ((17)%Z, (18)%Z); ((17)%Z, (28)%Z); ((19)%Z, (16)%Z); ((19)%Z, (17)%Z); ((19)%Z, (18)%Z); ((19)%Z, (28)%Z)] in
  foreach conjoining (fun '(x, y) => 
    let! v3 := idx ListC x in
  let! v4 := idx ListC y in
  let! v5 := idx ListC x in
  let! v6 := idx ListC y in
  [Replace ((v3 ++ vir) ++ v4) (((v5 ++ vir) ++ ZWJ) ++ v6)])
  ++ foreach ListC (fun x => 
    let! v7 := idx ListC (26)%Z in
  let! v8 := idx ListC (26)%Z in
  [Replace ((v7 ++ vir) ++ x) (((v8 ++ vir) ++ ZWJ) ++ x)])
  ++ foreach ListC (fun x => 
    foreach ListC (fun y => 
    [Replace ((x ++ vir) ++ y) (((x ++ ZWJ) ++ vir) ++ y)]))
  ++ [Replace [0xDBB; 0x200D; 0xDCA; 0x200D; 0xDBA]%N [0xDBB; 0xDCA; 0x200D; 0xDBA]%N].

(** aksharamukha/PostProcess.py:3080-3090  def SinhalaPali(Strng, reverse=False) *)
Definition PP_SinhalaPali (reverse : bool) : prog :=
  let EOLong := ((((slice (attr "MainIndic"%u "Sinhala"%u "VowelMap"%u) (Some (10)%Z) (Some (11)%Z)) ++ (slice (attr "MainIndic"%u "Sinhala"%u "VowelMap"%u) (Some (12)%Z) (Some (13)%Z))) ++ (slice (attr "MainIndic"%u "Sinhala"%u "VowelSignMap"%u) (Some (9)%Z) (Some (10)%Z))) ++ (slice (attr "MainIndic"%u "Sinhala"%u "VowelSignMap"%u) (Some (11)%Z) (Some (12)%Z))) in
  let EOShort := ((attr "MainIndic"%u "Sinhala"%u "SouthVowelMap"%u) ++ (attr "MainIndic"%u "Sinhala"%u "SouthVowelSignMap"%u)) in
  foreach (zip EOLong EOShort) (fun '(x, y) => 
    (if (negb reverse) then ([Replace x y]) else ([Replace y x]))).

(** aksharamukha/PostProcess.py:3092-3095  def UrduAlternateUU(Strng) *)
Definition PP_UrduAlternateUU : prog :=
  [Replace "\u064F\u0648"%u "وٗ"%u].

(** aksharamukha/PostProcess.py:3097-3100  def TibetanNada(Strng) *)
Definition PP_TibetanNada : prog :=
  [Replace [0xF83]%N [0xF82]%N].

(** aksharamukha/PostProcess.py:3102-3105  def TibetanTsheg(Strng) *)
Definition PP_TibetanTsheg : prog :=
  [Replace "་"%u " "%u].

(** aksharamukha/PostProcess.py:3107-3110  def TibetanRemoveVirama(Strng) *)
Definition PP_TibetanRemoveVirama : prog :=
  let! v1 := idx (attr "EastIndic"%u "Tibetan"%u "ViramaMap"%u) (0)%Z in
  [Replace v1 []].

(** aksharamukha/PostProcess.py:3112-3119  def TibetanRemoveBa(Strng) *)
Definition PP_TibetanRemoveBa : prog :=
  (PP_VaToBa "Tibetan"%u)
  ++ [Replace "ཪྺ"%u "རྦ"%u]
  ++ [Replace "བྺ"%u "བྦ"%u]
  ++ [Replace [0xFA6; 0xFBA]%N [0xFA6; 0xFA6]%N].

(** aksharamukha/PostProcess.py:3121-3204  def ThaiLaoTranscription(Strng, Script, shortA, shortAconj, reverse=False, anusvaraChange=True) *)
Definition PP_ThaiLaoTranscription (Script : str) (shortA : str) (shortAconj : str) (reverse : bool) (anusvaraChange : bool) : prog :=
  [Replace "ʽ"%u []]
  ++ (let! v1 := CrunchSymbols GM_Consonants Script in
  let! v2 := CrunchList "VowelMap"%u Script in
  let cons_ := (join "|"%u (v1 ++ (slice v2 (Some (0)%Z) (Some (1)%Z)))) in
  (if (str_eqb Script "Thai"%u) then (let! v3 := CrunchSymbols GM_Consonants Script in
  let! v4 := CrunchList "VowelMap"%u Script in
  let cons_ := (join "|"%u ((v3 ++ (slice v4 (Some (0)%Z) (Some (1)%Z))) ++ ["ฮ"%u; "บ"%u; "ฝ"%u; "ด"%u])) in
  (if (str_eqb Script "Lao"%u) then (let! v5 := CrunchSymbols GM_Consonants Script in
  let! v6 := CrunchList "VowelMap"%u Script in
  let cons_ := (join "|"%u ((v5 ++ (slice v6 (Some (0)%Z) (Some (1)%Z))) ++ ["ດ"%u; "ບ"%u; "ຟ"%u])) in
  let consnA := (slice cons_ None (Some (-2)%Z)) in
  let! v7 := CrunchSymbols GM_VowelSignsNV Script in
  let listVS := (join "|"%u v7) in
  let! v8 := CrunchList "ViramaMap"%u Script in
  let! v9 := idx v8 (0)%Z in
  let vir := v9 in
  let! v10 := CrunchList "VowelSignMap"%u Script in
  let AIUVir := (join [] ((slice v10 (Some (0)%Z) (Some (5)%Z)) ++ [vir])) in
  let! v11 := CrunchList "VowelSignMap"%u Script in
  let! v12 := CrunchList "SinhalaVowelSignMap"%u Script in
  let EAIO := (join [] ((slice v11 (Some (9)%Z) (Some (12)%Z)) ++ (slice v12 None None))) in
  let! v13 := CrunchList "AyogavahaMap"%u Script in
  let! v14 := idx v13 (1)%Z in
  let Anu := v14 in
  let! v15 := CrunchList "ConsonantMap"%u Script in
  let! v16 := idx v15 (4)%Z in
  let ng := v16 in
  let! v17 := CrunchList "VowelMap"%u Script in
  let! v18 := idx v17 (0)%Z in
  let vowA := v18 in
  (if anusvaraChange then ((PP_AnusvaraToNasal Script)) else ([]))
  ++ (if (negb reverse) then ((if (str_eqb Script "Thai"%u) then ([ReSub (((((((("(["%u ++ EAIO) ++ "])"%u) ++ "("%u) ++ cons_) ++ ")"%u) ++ "("%u) ++ vir) ++ ")"%u) "\2\3\1"%u]
  ++ [Replace "ำ"%u "าํ"%u]
  ++ [Replace [0xE36]%N [0xE34; 0xE4D]%N]) else ([]))
  ++ (if (str_eqb Script "LaoPali"%u) then ([Replace "ຳ"%u "າໍ"%u]) else ([]))
  ++ (if anusvaraChange then ([Replace Anu (ng ++ vir)]) else ([]))
  ++ [ReSub (((((((("(?<!["%u ++ EAIO) ++ "])"%u) ++ "("%u) ++ cons_) ++ ")"%u) ++ "(?!["%u) ++ AIUVir) ++ "])"%u) ("\1"%u ++ shortA)]
  ++ [ReSub (((((((("("%u ++ shortA) ++ ")"%u) ++ "(?=("%u) ++ cons_) ++ ")"%u) ++ "("%u) ++ vir) ++ "))"%u) shortAconj]
  ++ [Replace ((shortAconj ++ "ห"%u) ++ vir) ((shortA ++ "ห"%u) ++ vir)]
  ++ [ReSub ((((("("%u ++ shortAconj) ++ ")"%u) ++ "(.)("%u) ++ vir) ++ ")([รล])"%u) (shortA ++ "\2\3\4"%u)]
  ++ (let! v19 := CrunchSymbols GM_Consonants "Thai"%u in
  let consswap := (join "|"%u v19) in
  [ReSub ((((((((("("%u ++ consswap) ++ ")"%u) ++ "("%u) ++ vir) ++ ")"%u) ++ "(["%u) ++ EAIO) ++ "])"%u) ++ "([รล])"%u) "\3\1\2\4"%u]
  ++ [ReSub (((shortAconj ++ "(["%u) ++ EAIO) ++ "])"%u) (shortA ++ "\1"%u)]
  ++ [Replace vir []]
  ++ [Replace (shortAconj ++ "ร"%u) "รร"%u])) else (let! v20 := CrunchSymbols GM_Consonants Script in
  let consOnly := (join "|"%u v20) in
  let! v21 := CrunchList "VowelMap"%u Script in
  let! v22 := idx v21 (0)%Z in
  let aVow := v22 in
  [ReSub ((((((((("("%u ++ consnA) ++ ")"%u) ++ "(?!"%u) ++ listVS) ++ "|"%u) ++ shortA) ++ "|"%u) ++ shortAconj) ++ ")"%u) ("\1"%u ++ vir)]
  ++ (if (str_eqb Script "Lao"%u) then ([ReSub ((((((((("(?<!ໂ)"%u ++ "(?<!ແ)"%u) ++ "(?<!ເ)"%u) ++ "("%u) ++ aVow) ++ ")"%u) ++ "(?<!ເ)"%u) ++ shortA) ++ "|"%u) ++ shortAconj) "\1"%u]
  ++ [ReSub (((((("("%u ++ consOnly) ++ ")"%u) ++ "(?<!າ|ໂ|ແ|ເ)"%u) ++ shortA) ++ "|"%u) ++ shortAconj) "\1"%u]
  ++ [Replace [0xEBA; 0xEB3]%N "ຳ"%u]) else ([ReSub ((((((((("(?<!โ)"%u ++ "(?<!แ)"%u) ++ "(?<!เ)"%u) ++ "("%u) ++ aVow) ++ ")"%u) ++ "(?<!เ)"%u) ++ shortA) ++ "|"%u) ++ shortAconj) "\1"%u]
  ++ [ReSub (((((("("%u ++ consOnly) ++ ")"%u) ++ "(?<!า|โ|แ|เ)"%u) ++ shortA) ++ "|"%u) ++ shortAconj) "\1"%u]
  ++ [ReSub (vir ++ "รฺรฺ"%u) "รฺ"%u]
  ++ [ReSub (vir ++ "หฺ"%u) "หฺ"%u]))))) else (let consnA := (slice cons_ None (Some (-2)%Z)) in
  let! v23 := CrunchSymbols GM_VowelSignsNV Script in
  let listVS := (join "|"%u v23) in
  let! v24 := CrunchList "ViramaMap"%u Script in
  let! v25 := idx v24 (0)%Z in
  let vir := v25 in
  let! v26 := CrunchList "VowelSignMap"%u Script in
  let AIUVir := (join [] ((slice v26 (Some (0)%Z) (Some (5)%Z)) ++ [vir])) in
  let! v27 := CrunchList "VowelSignMap"%u Script in
  let! v28 := CrunchList "SinhalaVowelSignMap"%u Script in
  let EAIO := (join [] ((slice v27 (Some (9)%Z) (Some (12)%Z)) ++ (slice v28 None None))) in
  let! v29 := CrunchList "AyogavahaMap"%u Script in
  let! v30 := idx v29 (1)%Z in
  let Anu := v30 in
  let! v31 := CrunchList "ConsonantMap"%u Script in
  let! v32 := idx v31 (4)%Z in
  let ng := v32 in
  let! v33 := CrunchList "VowelMap"%u Script in
  let! v34 := idx v33 (0)%Z in
  let vowA := v34 in
  (if anusvaraChange then ((PP_AnusvaraToNasal Script)) else ([]))
  ++ (if (negb reverse) then ((if (str_eqb Script "Thai"%u) then ([ReSub (((((((("(["%u ++ EAIO) ++ "])"%u) ++ "("%u) ++ cons_) ++ ")"%u) ++ "("%u) ++ vir) ++ ")"%u) "\2\3\1"%u]
  ++ [Replace "ำ"%u "าํ"%u]
  ++ [Replace [0xE36]%N [0xE34; 0xE4D]%N]) else ([]))
  ++ (if (str_eqb Script "LaoPali"%u) then ([Replace "ຳ"%u "າໍ"%u]) else ([]))
  ++ (if anusvaraChange then ([Replace Anu (ng ++ vir)]) else ([]))
  ++ [ReSub (((((((("(?<!["%u ++ EAIO) ++ "])"%u) ++ "("%u) ++ cons_) ++ ")"%u) ++ "(?!["%u) ++ AIUVir) ++ "])"%u) ("\1"%u ++ shortA)]
  ++ [ReSub (((((((("("%u ++ shortA) ++ ")"%u) ++ "(?=("%u) ++ cons_) ++ ")"%u) ++ "("%u) ++ vir) ++ "))"%u) shortAconj]
  ++ [Replace ((shortAconj ++ "ห"%u) ++ vir) ((shortA ++ "ห"%u) ++ vir)]
  ++ [ReSub ((((("("%u ++ shortAconj) ++ ")"%u) ++ "(.)("%u) ++ vir) ++ ")([รล])"%u) (shortA ++ "\2\3\4"%u)]
  ++ (let! v35 := CrunchSymbols GM_Consonants "Thai"%u in
  let consswap := (join "|"%u v35) in
  [ReSub ((((((((("("%u ++ consswap) ++ ")"%u) ++ "("%u) ++ vir) ++ ")"%u) ++ "(["%u) ++ EAIO) ++ "])"%u) ++ "([รล])"%u) "\3\1\2\4"%u]
  ++ [ReSub (((shortAconj ++ "(["%u) ++ EAIO) ++ "])"%u) (shortA ++ "\1"%u)]
  ++ [Replace vir []]
  ++ [Replace (shortAconj ++ "ร"%u) "รร"%u])) else (let! v36 := CrunchSymbols GM_Consonants Script in
  let consOnly := (join "|"%u v36) in
  let! v37 := CrunchList "VowelMap"%u Script in
  let! v38 := idx v37 (0)%Z in
  let aVow := v38 in
  [ReSub ((((((((("("%u ++ consnA) ++ ")"%u) ++ "(?!"%u) ++ listVS) ++ "|"%u) ++ shortA) ++ "|"%u) ++ shortAconj) ++ ")"%u) ("\1"%u ++ vir)]
  ++ (if (str_eqb Script "Lao"%u) then ([ReSub ((((((((("(?<!ໂ)"%u ++ "(?<!ແ)"%u) ++ "(?<!ເ)"%u) ++ "("%u) ++ aVow) ++ ")"%u) ++ "(?<!ເ)"%u) ++ shortA) ++ "|"%u) ++ shortAconj) "\1"%u]
  ++ [ReSub (((((("("%u ++ consOnly) ++ ")"%u) ++ "(?<!າ|ໂ|ແ|ເ)"%u) ++ shortA) ++ "|"%u) ++ shortAconj) "\1"%u]
  ++ [Replace [0xEBA; 0xEB3]%N "ຳ"%u]) else ([ReSub ((((((((("(?<!โ)"%u ++ "(?<!แ)"%u) ++ "(?<!เ)"%u) ++ "("%u) ++ aVow) ++ ")"%u) ++ "(?<!เ)"%u) ++ shortA) ++ "|"%u) ++ shortAconj) "\1"%u]
  ++ [ReSub (((((("("%u ++ consOnly) ++ ")"%u) ++ "(?<!า|โ|แ|เ)"%u) ++ shortA) ++ "|"%u) ++ shortAconj) "\1"%u]
  ++ [ReSub (vir ++ "รฺรฺ"%u) "รฺ"%u]
  ++ [ReSub (vir ++ "หฺ"%u) "หฺ"%u]))))))) else ((if (str_eqb Script "Lao"%u) then (let! v39 := CrunchSymbols GM_Consonants Script in
  let! v40 := CrunchList "VowelMap"%u Script in
  let cons_ := (join "|"%u ((v39 ++ (slice v40 (Some (0)%Z) (Some (1)%Z))) ++ ["ດ"%u; "ບ"%u; "ຟ"%u])) in
  let consnA := (slice cons_ None (Some (-2)%Z)) in
  let! v41 := CrunchSymbols GM_VowelSignsNV Script in
  let listVS := (join "|"%u v41) in
  let! v42 := CrunchList "ViramaMap"%u Script in
  let! v43 := idx v42 (0)%Z in
  let vir := v43 in
  let! v44 := CrunchList "VowelSignMap"%u Script in
  let AIUVir := (join [] ((slice v44 (Some (0)%Z) (Some (5)%Z)) ++ [vir])) in
  let! v45 := CrunchList "VowelSignMap"%u Script in
  let! v46 := CrunchList "SinhalaVowelSignMap"%u Script in
  let EAIO := (join [] ((slice v45 (Some (9)%Z) (Some (12)%Z)) ++ (slice v46 None None))) in
  let! v47 := CrunchList "AyogavahaMap"%u Script in
  let! v48 := idx v47 (1)%Z in
  let Anu := v48 in
  let! v49 := CrunchList "ConsonantMap"%u Script in
  let! v50 := idx v49 (4)%Z in
  let ng := v50 in
  let! v51 := CrunchList "VowelMap"%u Script in
  let! v52 := idx v51 (0)%Z in
  let vowA := v52 in
  (if anusvaraChange then ((PP_AnusvaraToNasal Script)) else ([]))
  ++ (if (negb reverse) then ((if (str_eqb Script "Thai"%u) then ([ReSub (((((((("(["%u ++ EAIO) ++ "])"%u) ++ "("%u) ++ cons_) ++ ")"%u) ++ "("%u) ++ vir) ++ ")"%u) "\2\3\1"%u]
  ++ [Replace "ำ"%u "าํ"%u]
  ++ [Replace [0xE36]%N [0xE34; 0xE4D]%N]) else ([]))
  ++ (if (str_eqb Script "LaoPali"%u) then ([Replace "ຳ"%u "າໍ"%u]) else ([]))
  ++ (if anusvaraChange then ([Replace Anu (ng ++ vir)]) else ([]))
  ++ [ReSub (((((((("(?<!["%u ++ EAIO) ++ "])"%u) ++ "("%u) ++ cons_) ++ ")"%u) ++ "(?!["%u) ++ AIUVir) ++ "])"%u) ("\1"%u ++ shortA)]
  ++ [ReSub (((((((("("%u ++ shortA) ++ ")"%u) ++ "(?=("%u) ++ cons_) ++ ")"%u) ++ "("%u) ++ vir) ++ "))"%u) shortAconj]
  ++ [Replace ((shortAconj ++ "ห"%u) ++ vir) ((shortA ++ "ห"%u) ++ vir)]
  ++ [ReSub ((((("("%u ++ shortAconj) ++ ")"%u) ++ "(.)("%u) ++ vir) ++ ")([รล])"%u) (shortA ++ "\2\3\4"%u)]
  ++ (let! v53 := CrunchSymbols GM_Consonants "Thai"%u in
  let consswap := (join "|"%u v53) in
  [ReSub ((((((((("("%u ++ consswap) ++ ")"%u) ++ "("%u) ++ vir) ++ ")"%u) ++ "(["%u) ++ EAIO) ++ "])"%u) ++ "([รล])"%u) "\3\1\2\4"%u]
  ++ [ReSub (((shortAconj ++ "(["%u) ++ EAIO) ++ "])"%u) (shortA ++ "\1"%u)]
  ++ [Replace vir []]
  ++ [Replace (shortAconj ++ "ร"%u) "รร"%u])) else (let! v54 := CrunchSymbols GM_Consonants Script in
  let consOnly := (join "|"%u v54) in
  let! v55 := CrunchList "VowelMap"%u Script in
  let! v56 := idx v55 (0)%Z in
  let aVow := v56 in
  [ReSub ((((((((("("%u ++ consnA) ++ ")"%u) ++ "(?!"%u) ++ listVS) ++ "|"%u) ++ shortA) ++ "|"%u) ++ shortAconj) ++ ")"%u) ("\1"%u ++ vir)]
  ++ (if (str_eqb Script "Lao"%u) then ([ReSub ((((((((("(?<!ໂ)"%u ++ "(?<!ແ)"%u) ++ "(?<!ເ)"%u) ++ "("%u) ++ aVow) ++ ")"%u) ++ "(?<!ເ)"%u) ++ shortA) ++ "|"%u) ++ shortAconj) "\1"%u]
  ++ [ReSub (((((("("%u ++ consOnly) ++ ")"%u) ++ "(?<!າ|ໂ|ແ|ເ)"%u) ++ shortA) ++ "|"%u) ++ shortAconj) "\1"%u]
  ++ [Replace [0xEBA; 0xEB3]%N "ຳ"%u]) else ([ReSub ((((((((("(?<!โ)"%u ++ "(?<!แ)"%u) ++ "(?<!เ)"%u) ++ "("%u) ++ aVow) ++ ")"%u) ++ "(?<!เ)"%u) ++ shortA) ++ "|"%u) ++ shortAconj) "\1"%u]
  ++ [ReSub (((((("("%u ++ consOnly) ++ ")"%u) ++ "(?<!า|โ|แ|เ)"%u) ++ shortA) ++ "|"%u) ++ shortAconj) "\1"%u]
  ++ [ReSub (vir ++ "รฺรฺ"%u) "รฺ"%u]
  ++ [ReSub (vir ++ "หฺ"%u) "หฺ"%u]))))) else (let consnA := (slice cons_ None (Some (-2)%Z)) in
  let! v57 := CrunchSymbols GM_VowelSignsNV Script in
  let listVS := (join "|"%u v57) in
  let! v58 := CrunchList "ViramaMap"%u Script in
  let! v59 := idx v58 (0)%Z in
  let vir := v59 in
  let! v60 := CrunchList "VowelSignMap"%u Script in
  let AIUVir := (join [] ((slice v60 (Some (0)%Z) (Some (5)%Z)) ++ [vir])) in
  let! v61 := CrunchList "VowelSignMap"%u Script in
  let! v62 := CrunchList "SinhalaVowelSignMap"%u Script in
  let EAIO := (join [] ((slice v61 (Some (9)%Z) (Some (12)%Z)) ++ (slice v62 None None))) in
  let! v63 := CrunchList "AyogavahaMap"%u Script in
  let! v64 := idx v63 (1)%Z in
  let Anu := v64 in
  let! v65 := CrunchList "ConsonantMap"%u Script in
  let! v66 := idx v65 (4)%Z in
  let ng := v66 in
  let! v67 := CrunchList "VowelMap"%u Script in
  let! v68 := idx v67 (0)%Z in
  let vowA := v68 in
  (if anusvaraChange then ((PP_AnusvaraToNasal Script)) else ([]))
  ++ (if (negb reverse) then ((if (str_eqb Script "Thai"%u) then ([ReSub (((((((("(["%u ++ EAIO) ++ "])"%u) ++ "("%u) ++ cons_) ++ ")"%u) ++ "("%u) ++ vir) ++ ")"%u) "\2\3\1"%u]
  ++ [Replace "ำ"%u "าํ"%u]
  ++ [Replace [0xE36]%N [0xE34; 0xE4D]%N]) else ([]))
  ++ (if (str_eqb Script "LaoPali"%u) then ([Replace "ຳ"%u "າໍ"%u]) else ([]))
  ++ (if anusvaraChange then ([Replace Anu (ng ++ vir)]) else ([]))
  ++ [ReSub (((((((("(?<!["%u ++ EAIO) ++ "])"%u) ++ "("%u) ++ cons_) ++ ")"%u) ++ "(?!["%u) ++ AIUVir) ++ "])"%u) ("\1"%u ++ shortA)]
  ++ [ReSub (((((((("("%u ++ shortA) ++ ")"%u) ++ "(?=("%u) ++ cons_) ++ ")"%u) ++ "("%u) ++ vir) ++ "))"%u) shortAconj]
  ++ [Replace ((shortAconj ++ "ห"%u) ++ vir) ((shortA ++ "ห"%u) ++ vir)]
  ++ [ReSub ((((("("%u ++ shortAconj) ++ ")"%u) ++ "(.)("%u) ++ vir) ++ ")([รล])"%u) (shortA ++ "\2\3\4"%u)]
  ++ (let! v69 := CrunchSymbols GM_Consonants "Thai"%u in
  let consswap := (join "|"%u v69) in
  [ReSub ((((((((("("%u ++ consswap) ++ ")"%u) ++ "("%u) ++ vir) ++ ")"%u) ++ "(["%u) ++ EAIO) ++ "])"%u) ++ "([รล])"%u) "\3\1\2\4"%u]
  ++ [ReSub (((shortAconj ++ "(["%u) ++ EAIO) ++ "])"%u) (shortA ++ "\1"%u)]
  ++ [Replace vir []]
  ++ [Replace (shortAconj ++ "ร"%u) "รร"%u])) else (let! v70 := CrunchSymbols GM_Consonants Script in
  let consOnly := (join "|"%u v70) in
  let! v71 := CrunchList "VowelMap"%u Script in
  let! v72 := idx v71 (0)%Z in
  let aVow := v72 in
  [ReSub ((((((((("("%u ++ consnA) ++ ")"%u) ++ "(?!"%u) ++ listVS) ++ "|"%u) ++ shortA) ++ "|"%u) ++ shortAconj) ++ ")"%u) ("\1"%u ++ vir)]
  ++ (if (str_eqb Script "Lao"%u) then ([ReSub ((((((((("(?<!ໂ)"%u ++ "(?<!ແ)"%u) ++ "(?<!ເ)"%u) ++ "("%u) ++ aVow) ++ ")"%u) ++ "(?<!ເ)"%u) ++ shortA) ++ "|"%u) ++ shortAconj) "\1"%u]
  ++ [ReSub (((((("("%u ++ consOnly) ++ ")"%u) ++ "(?<!າ|ໂ|ແ|ເ)"%u) ++ shortA) ++ "|"%u) ++ shortAconj) "\1"%u]
  ++ [Replace [0xEBA; 0xEB3]%N "ຳ"%u]) else ([ReSub ((((((((("(?<!โ)"%u ++ "(?<!แ)"%u) ++ "(?<!เ)"%u) ++ "("%u) ++ aVow) ++ ")"%u) ++ "(?<!เ)"%u) ++ shortA) ++ "|"%u) ++ shortAconj) "\1"%u]
  ++ [ReSub (((((("("%u ++ consOnly) ++ ")"%u) ++ "(?<!า|โ|แ|เ)"%u) ++ shortA) ++ "|"%u) ++ shortAconj) "\1"%u]
  ++ [ReSub (vir ++ "รฺรฺ"%u) "รฺ"%u]
  ++ [ReSub (vir ++ "หฺ"%u) "หฺ"%u]))))))))).

(** aksharamukha/PostProcess.py:3213-3216  def ThaiVisargaSaraA(Strng) *)
Definition PP_ThaiVisargaSaraA : prog :=
  [Replace "ห์"%u "ะ"%u].

(** aksharamukha/PostProcess.py:3218-3221  def ThamTallADisable(Strng) *)
Definition PP_ThamTallADisable : prog :=
  [Replace [0x1A64]%N [0x1A63]%N].

(** aksharamukha/PostProcess.py:3296-3318  def FixTallA(Strng, TallACons) *)
Definition PP_FixTallA (TallACons : str) : prog :=
  let! v1 := CrunchSymbols GM_Consonants "TaiTham"%u in
  let ListC := (join "|"%u v1) in
  let Sub := [[0x1A55]%N; [0x1A56]%N] in
  let E := [0x1A6E]%N in
  let AA := [0x1A63]%N in
  [ReSub (((((("(?<!᩠)("%u ++ TallACons) ++ ")"%u) ++ "("%u) ++ E) ++ "?)"%u) ++ AA) ("\1\2"%u ++ [0x1A64]%N)]
  ++ [ReSub (((((((("("%u ++ TallACons) ++ ")(᩠)("%u) ++ ListC) ++ ")"%u) ++ "("%u) ++ E) ++ "?)"%u) ++ AA) ("\1\2\3\4"%u ++ [0x1A64]%N)]
  ++ [ReSub ((((((((((("("%u ++ TallACons) ++ ")(᩠)("%u) ++ ListC) ++ ")"%u) ++ "(᩠)("%u) ++ ListC) ++ ")"%u) ++ "("%u) ++ E) ++ "?)"%u) ++ AA) ("\1\2\3\4\5\6"%u ++ [0x1A64]%N)]
  ++ [ReSub ((((((((("("%u ++ TallACons) ++ ")"%u) ++ "("%u) ++ (join "|"%u Sub)) ++ ")"%u) ++ "("%u) ++ E) ++ "?)"%u) ++ AA) ("\1\2\3"%u ++ [0x1A64]%N)]
  ++ (let reverseSub := (("(["%u ++ (join [] ["ᨥ"%u; "ᨫ"%u; "ᨬ"%u; "ᨰ"%u; "ᨸ"%u; "ᩈ"%u; "ᨿ"%u; "ᩇ"%u; "ᨹ"%u])) ++ "])"%u) in
  [ReSub (("(᩠)"%u ++ reverseSub) ++ "(ᩮᩤ)"%u) ("\1\2"%u ++ [0x1A6E; 0x1A63]%N)]
  ++ [ReSub (("(᩠)"%u ++ reverseSub) ++ "(ᩤ)"%u) ("\1\2"%u ++ [0x1A63]%N)]).

(** aksharamukha/PostProcess.py:3223-3228  def ThamTallAOthers(Strng) *)
Definition PP_ThamTallAOthers : prog :=
  let TallACons := (join "|"%u ["ᨧ"%u; "ᨻ"%u; "ᩁ"%u; "ᨽ"%u]) in
  (PP_FixTallA TallACons).

(** aksharamukha/PostProcess.py:3253-3275  def RephaDoubleMalayalam(Strng) *)
Definition PP_RephaDoubleMalayalam : prog :=
  let repha := "[ർൎ]"%u in
  let Target := "Malayalam"%u in
  let! v1 := CrunchSymbols GM_VowelSigns Target in
  let! v2 := idx v1 (0)%Z in
  let vir := v2 in
  let! v5 := mapR (fun x => do v3 <- CrunchList "ConsonantMap"%u Target; do v4 <- idx v3 x; Ok v4) [(0)%Z; (2)%Z; (5)%Z; (7)%Z; (10)%Z; (12)%Z; (15)%Z; (17)%Z; (20)%Z; (22)%Z; (4)%Z; (9)%Z; (14)%Z; (19)%Z; (24)%Z; (25)%Z; (28)%Z; (29)%Z; (31)%Z] in
  let ConUnAsp := v5 in
  let ConUnAsp := (ConUnAsp ++ ["ള"%u]) in
  let! v8 := mapR (fun x => do v6 <- CrunchList "ConsonantMap"%u Target; do v7 <- idx v6 x; Ok v7) [(1)%Z; (3)%Z; (6)%Z; (8)%Z; (11)%Z; (13)%Z; (16)%Z; (18)%Z; (21)%Z] in
  let ConAsp := v8 in
  [ReSub (((((((("("%u ++ repha) ++ ")"%u) ++ "("%u) ++ (join "|"%u ConUnAsp)) ++ ")"%u) ++ "(?!"%u) ++ vir) ++ ")"%u) (("\1\2"%u ++ vir) ++ "\2"%u)]
  ++ foreach (range 0%Z (Z.of_nat (length ConAsp))) (fun i => 
    let! v9 := idx ConAsp i in
  let! v10 := idx ConUnAsp i in
  [ReSub (((((((("("%u ++ repha) ++ ")"%u) ++ "("%u) ++ v9) ++ ")"%u) ++ "(?!"%u) ++ vir) ++ ")"%u) ((("\1"%u ++ v10) ++ vir) ++ "\2"%u)]).

(** aksharamukha/PostProcess.py:3277-3280  def DograShaKha(Strng) *)
Definition PP_DograShaKha : prog :=
  [Replace "𑠨"%u "𑠋"%u].

(** aksharamukha/PostProcess.py:3282-3293  def ThamShiftMaiKangLai(Strng) *)
Definition PP_ThamShiftMaiKangLai : prog :=
  [ReSub "(ᩘ)(.)"%u "\2\1"%u]
  ++ (let! v1 := CrunchSymbols GM_VowelSigns "TaiTham"%u in
  let ListV := (("("%u ++ (join "|"%u (v1 ++ [[0x1A64]%N]))) ++ ")"%u) in
  [ReSub "(ᩘ)([ᩕᩖ])"%u "\2\1"%u]
  ++ [ReSub "(ᩘ)(᩠.)"%u "\2\1"%u]
  ++ [ReSub ("(ᩘ)"%u ++ ListV) "\2\1"%u]
  ++ [ReSub ("(ᩘ)"%u ++ ListV) "\2\1"%u]).

(** aksharamukha/PostProcess.py:3407-3452  def AvestanConventions(Strng) *)
Definition PP_AvestanConventions : prog :=
  let extraCons := ["𐬳"%u; "𐬲"%u; "𐬝"%u; "𐬒"%u; "𐬣"%u; "𐬝"%u] in
  let! v1 := CrunchSymbols GM_Consonants "Avestan"%u in
  let ListC := (join "|"%u (v1 ++ extraCons)) in
  let! v2 := CrunchSymbols GM_Vowels "Avestan"%u in
  let ListV := (join "|"%u v2) in
  let! v3 := CrunchSymbols (GM_Vowels ++ GM_Consonants) "Avestan"%u in
  let ListA := (join "|"%u ((v3 ++ extraCons) ++ ["𐬄"%u; "𐬅"%u])) in
  let! v4 := idx (attr "Roman"%u "Avestan"%u "VowelMap"%u) (2)%Z in
  let ii := (repeat_list v4 (Z.to_nat (2)%Z)) in
  let! v5 := idx (attr "Roman"%u "Avestan"%u "VowelMap"%u) (4)%Z in
  let uu := (repeat_list v5 (Z.to_nat (2)%Z)) in
  let! v6 := idx (attr "Roman"%u "Avestan"%u "VowelMap"%u) (2)%Z in
  let i := v6 in
  let! v7 := idx (attr "Roman"%u "Avestan"%u "VowelMap"%u) (0)%Z in
  let a := v7 in
  let! v8 := idx (attr "Roman"%u "Avestan"%u "ConsonantMap"%u) (1)%Z in
  let kha := v8 in
  let! v9 := idx (attr "Roman"%u "Avestan"%u "ConsonantMap"%u) (4)%Z in
  let nga := v9 in
  let! v10 := idx (attr "Roman"%u "Avestan"%u "ConsonantMap"%u) (25)%Z in
  let ya := v10 in
  let! v11 := idx (attr "Roman"%u "Avestan"%u "ConsonantMap"%u) (28)%Z in
  let va := v11 in
  let! v12 := idx (attr "Roman"%u "Avestan"%u "ConsonantMap"%u) (15)%Z in
  let ta := v12 in
  let! v13 := idx (attr "Roman"%u "Avestan"%u "ConsonantMap"%u) (16)%Z in
  let tha := v13 in
  let! v14 := idx (attr "Roman"%u "Avestan"%u "ConsonantMap"%u) (18)%Z in
  let dha := v14 in
  let! v15 := idx (attr "Roman"%u "Avestan"%u "ConsonantMap"%u) (19)%Z in
  let na := v15 in
  let! v16 := idx (attr "Roman"%u "Avestan"%u "ConsonantMap"%u) (24)%Z in
  let ma := v16 in
  let! v17 := idx (attr "Roman"%u "Avestan"%u "ConsonantMap"%u) (0)%Z in
  let! v18 := idx (attr "Roman"%u "Avestan"%u "ConsonantMap"%u) (22)%Z in
  let kb := (join "|"%u [v17; v18]) in
  let! v19 := idx (attr "Roman"%u "Avestan"%u "ConsonantMap"%u) (14)%Z in
  let nna := v19 in
  let! v20 := idx (attr "Roman"%u "Avestan"%u "ConsonantMap"%u) (29)%Z in
  let sha := v20 in
  let VelarDental := (join "|"%u ((slice (attr "Roman"%u "Avestan"%u "ConsonantMap"%u) (Some (0)%Z) (Some (4)%Z)) ++ (slice (attr "Roman"%u "Avestan"%u "ConsonantMap"%u) (Some (15)%Z) (Some (19)%Z)))) in
  [Replace (nga ++ i) ("𐬣"%u ++ i)]
  ++ [ReSub (((((((a ++ "(["%u) ++ na) ++ ma) ++ "])"%u) ++ "(?!"%u) ++ ListA) ++ ")"%u) ("𐬆"%u ++ "\1"%u)]
  ++ [ReSub ((((("("%u ++ na) ++ ")"%u) ++ "("%u) ++ VelarDental) ++ ")"%u) (nna ++ "\2"%u)]
  ++ [ReSub ((((("("%u ++ kha) ++ ")"%u) ++ "(?="%u) ++ ii) ++ ")"%u) "𐬒"%u]
  ++ [ReSub ((((("("%u ++ sha) ++ ")"%u) ++ "(?="%u) ++ ii) ++ ")"%u) "𐬳"%u]
  ++ [ReSub ((((((("("%u ++ tha) ++ "|"%u) ++ dha) ++ ")"%u) ++ "("%u) ++ uu) ++ ")"%u) "\1𐬡"%u]
  ++ [ReSub ((((((((((("("%u ++ ta) ++ ")"%u) ++ "(?!"%u) ++ "(("%u) ++ ListV) ++ ")"%u) ++ "|"%u) ++ "("%u) ++ ListC) ++ "))"%u) ++ ")"%u) "𐬝"%u]
  ++ [ReSub ((((((("("%u ++ ta) ++ ")"%u) ++ "(?="%u) ++ "("%u) ++ kb) ++ ")"%u) ++ ")"%u) "𐬝"%u].

(** aksharamukha/PostProcess.py:3455-3458  def TaiThamO(Strng) *)
Definition PP_TaiThamO : prog :=
  [Replace [0x1A6E; 0x1A63]%N [0x1A70]%N].

(** aksharamukha/PostProcess.py:3461-3464  def TaiThamHighNga(Strng) *)
Definition PP_TaiThamHighNga : prog :=
  [Replace [0x1A58]%N [0x1A59]%N].

(** aksharamukha/PostProcess.py:3467-3470  def TaiThamMoveNnga(Strng) *)
Definition PP_TaiThamMoveNnga : prog :=
  [ReSub "(.)(ᩘ)"%u "\2\1"%u]
  ++ [Map (fun _ => "Vinodh"%u)].

(** aksharamukha/PostProcess.py:3472-3478  def UrduRemoveShortVowels(Strng) *)
Definition PP_UrduRemoveShortVowels : prog :=
  let ShortVowels := [[0x652]%N; [0x64E]%N; [0x650]%N; [0x64F]%N; [0x658]%N] in
  foreach ShortVowels (fun vow => 
    [Replace vow []]).

(** aksharamukha/PostProcess.py:3480-3483  def LatinPipes(Strng) *)
Definition PP_LatinPipes : prog :=
  [].

(** aksharamukha/PostProcess.py:3486-3496  def PhagsPaRearrange(Strng, Target) *)
Definition PP_PhagsPaRearrange (Target : str) : prog :=
  let! v1 := CrunchList "ViramaMap"%u Target in
  let! v2 := idx v1 (0)%Z in
  let vir := v2 in
  let! v3 := CrunchSymbols GM_Consonants Target in
  let ListC := (join "|"%u v3) in
  let! v4 := CrunchSymbols GM_Vowels Target in
  let ListV := (join "|"%u v4) in
  let! v5 := CrunchSymbols GM_VowelSignsNV Target in
  let ListVS := (join "|"%u v5) in
  [ReSub (((((("(?<!( |"%u ++ vir) ++ "))"%u) ++ "("%u) ++ ListC) ++ ")"%u) ++ "(?= )"%u) ("\2"%u ++ vir)]
  ++ [Replace " "%u []]
  ++ [Replace "᠂"%u " "%u]
  ++ [Replace "᠃"%u " "%u].

(** aksharamukha/PostProcess.py:3499-3507  def DevanagariAVowels(Strng) *)
Definition PP_DevanagariAVowels : prog :=
  let oldVowels := ((slice (attr "MainIndic"%u "Devanagari"%u "VowelMap"%u) (Some (2)%Z) (Some (12)%Z)) ++ (slice (attr "MainIndic"%u "Devanagari"%u "SouthVowelMap"%u) None (Some (1)%Z))) in
  let! v1 := idx (attr "MainIndic"%u "Devanagari"%u "VowelMap"%u) (0)%Z in
  let a := v1 in
  let newAVowels := (map (fun x => (a ++ x)) ((slice (attr "MainIndic"%u "Devanagari"%u "VowelSignMap"%u) (Some (1)%Z) (Some (11)%Z)) ++ (slice (attr "MainIndic"%u "Devanagari"%u "SouthVowelSignMap"%u) None (Some (1)%Z)))) in
  foreach (zip oldVowels newAVowels) (fun '(x, y) => 
    [Replace x y]).

(** aksharamukha/PostProcess.py:3510-3536  def AnusvaraToNasalIPA(Strng) *)
Definition PP_AnusvaraToNasalIPA : prog :=
  [Replace [0x303; 0x6B]%N "ŋk"%u]
  ++ [Replace [0x303; 0x67]%N "ŋg"%u]
  ++ [Replace [0x303; 0x63]%N "ɲc"%u]
  ++ [Replace [0x303; 0x6A]%N "ɲj"%u]
  ++ [Replace [0x303; 0x74; 0x32A]%N "n̪t̪"%u]
  ++ [Replace [0x303; 0x64; 0x32A]%N "n̪d̪"%u]
  ++ [Replace [0x303; 0x256]%N "ɳɖ"%u]
  ++ [Replace [0x303; 0x288]%N "ɳʈ"%u]
  ++ [Replace [0x303; 0x2D0; 0x6B]%N "ːŋk"%u]
  ++ [Replace [0x303; 0x2D0; 0x67]%N "ːŋg"%u]
  ++ [Replace [0x303; 0x2D0; 0x63]%N "ːɲc"%u]
  ++ [Replace [0x303; 0x2D0; 0x6A]%N "ːɲj"%u]
  ++ [Replace [0x303; 0x2D0; 0x74; 0x32A]%N "ːn̪t̪"%u]
  ++ [Replace [0x303; 0x2D0; 0x64; 0x32A]%N "ːn̪d̪"%u]
  ++ [Replace [0x303; 0x2D0; 0x256]%N "ːɳɖ"%u]
  ++ [Replace [0x303; 0x2D0; 0x288]%N "ːɳʈ"%u].

(** aksharamukha/PostProcess.py:3539-3543  def IPARemoveCross(Strng) *)
Definition PP_IPARemoveCross : prog :=
  [Replace "×"%u []].

(** aksharamukha/PostProcess.py:3546-3548  def ChakmaAVowels(Strng) *)
Definition PP_ChakmaAVowels : prog :=
  [].

(** aksharamukha/PostProcess.py:3550-3559  def ZanabazarSquareContextual(Strng) *)
Definition PP_ZanabazarSquareContextual : prog :=
  let yrlv := (slice (attr "EastIndic"%u "ZanabazarSquare"%u "ConsonantMap"%u) (Some (25)%Z) (Some (29)%Z)) in
  let yrlv_sub := [[0x11A3B]%N; [0x11A3C]%N; [0x11A3D]%N; [0x11A3E]%N] in
  foreach (zip yrlv yrlv_sub) (fun '(x, y) => 
    [Replace ([0x11A47]%N ++ x) y])
  ++ (let! v1 := idx yrlv (1)%Z in
  [ReSub (("(?<!𑩇)"%u ++ v1) ++ [0x11A47]%N) "𑨺"%u]).

(** aksharamukha/PostProcess.py:3561-3565  def ZanabazarSquareAiAu(Strng) *)
Definition PP_ZanabazarSquareAiAu : prog :=
  [Replace [0x11A04; 0x11A0A]%N [0x11A07]%N]
  ++ [Replace [0x11A06; 0x11A0A]%N [0x11A08]%N].

(** aksharamukha/PostProcess.py:3567-3570  def ZanabazarSquareMongolianFinal(Strng) *)
Definition PP_ZanabazarSquareMongolianFinal : prog :=
  let! v1 := idx (attr "EastIndic"%u "ZanabazarSquare"%u "ViramaMap"%u) (0)%Z in
  [Replace v1 [0x11A33]%N].

(** aksharamukha/PostProcess.py:3572-3575  def TamilRemoveApostrophe(Strng) *)
Definition PP_TamilRemoveApostrophe : prog :=
  [Replace "ʼ"%u []]
  ++ [Replace "ˮ"%u []].

(** aksharamukha/PostProcess.py:3577-3583  def TamilRemoveNumbers(Strng) *)
Definition PP_TamilRemoveNumbers : prog :=
  let numerals := ["²"%u; "³"%u; "⁴"%u; "₂"%u; "₃"%u; "₄"%u; "¹"%u; "₁"%u] in
  foreach numerals (fun num => 
    [Replace num []]).

(** aksharamukha/PostProcess.py:3585-3589  def NewaSpecialTa(Strng) *)
Definition PP_NewaSpecialTa : prog :=
  [Replace "𑐟𑑂"%u [0x1141F; 0x11442; 0x200D]%N].

(** aksharamukha/PostProcess.py:3599-3608  def swapEe(Strng) *)
Definition PP_swapEe : prog :=
  [Replace "E"%u "X@X@"%u]
  ++ [Replace "e"%u "E"%u]
  ++ [Replace "X@X@"%u "e"%u]
  ++ [Replace "O"%u "X@X@"%u]
  ++ [Replace "o"%u "O"%u]
  ++ [Replace "X@X@"%u "o"%u].

(** aksharamukha/PostProcess.py:3610-3619  def swapEeItrans(Strng) *)
Definition PP_swapEeItrans : prog :=
  [Replace "^e"%u "X@X@"%u]
  ++ [Replace "e"%u "E"%u]
  ++ [Replace "X@X@"%u "e"%u]
  ++ [Replace "^o"%u "X@X@"%u]
  ++ [Replace "o"%u "O"%u]
  ++ [Replace "X@X@"%u "o"%u].

(** aksharamukha/PostProcess.py:3621-3633  def capitalizeSentence(Strng) *)
Definition PP_capitalizeSentence : prog :=
  [Fn (re_sub_fun ((((("(\A\w)|"%u ++ "(?<!\.\w)([\.?!]\s*)\w|"%u) ++ "\w(?:\.\w)|"%u) ++ [0x28; 0xA; 0x29; 0x5C; 0x77; 0x7C]%N) ++ [0x28; 0xA; 0x28; 0x22; 0x7C; 0x5C; 0x201C; 0x7C; 0x27; 0x7C; 0x5C; 0x2018; 0x29; 0x29; 0x5C; 0x77; 0x7C]%N) ++ "(?<=\w\.)\w"%u) (fun x => py_upper (grp 0 x)))]
  ++ [Fn (re_sub_fun "(@)(.)"%u (fun x => py_upper (grp 2 x)))].

(** aksharamukha/PostProcess.py:3635-3638  def NewaDisableRepha(Strng) *)
Definition PP_NewaDisableRepha : prog :=
  [Replace "𑐬𑑂"%u [0x1142C; 0x11442; 0x200D]%N].

