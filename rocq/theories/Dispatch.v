(** * Dispatch by name (GENERATED by tools/py2coq.py; do not edit). *)
From Coq Require Import List NArith ZArith Bool.
From Verif Require Import PyStr Regex Unicode Prog GMLists GeneralMap FixNum PostProcess1 ConvertFix1 PreProcess1 PostProcess2.
Import ListNotations.
Local Open Scope list_scope.

(** inspect.getmembers(PreProcess, isfunction): the functions defined in aksharamukha/PreProcess.py, sorted by name (transliterate.py:574-577). *)
Definition PrP_names : list str :=
  ["AlephMaterLectionis"%u; "AnuChandraEq"%u; "AnuChandraEqDeva"%u; "ArabicGimelJa"%u; "ArabizePersian"%u; "ArchaicJnaSimplifyRomanLOC"%u; "BalineseJavaneseMoveRepha"%u; "BalineseMoveRepha"%u;
    "BalineseRomanLoCFix"%u; "BengaliSubojinedVa"%u; "BengaliSwitchYaYYa"%u; "BengaliTargetVa"%u; "BurmeseRomanLoCSource"%u; "BurmeseRomanLoCTarget"%u; "ChakmaPali"%u; "CyrillicPali"%u;
    "DevanagariRomanLoCFix"%u; "DivesAkuruAlternateIndVowels"%u; "FixSemiticRoman"%u; "GranthaPrakrit"%u; "HatrDalethResh"%u; "HebrewSBLSource"%u; "HebrewSBLTarget"%u; "HindiMarathiRomanLoCFix"%u;
    "IASTLDotRetroflex"%u; "IASTPali"%u; "IPAIndic"%u; "ISO233Source"%u; "ISO233Target"%u; "ISO259Source"%u; "ISO259Target"%u; "ItransLL"%u;
    "JapanesePreProcess"%u; "JavaneseMoveRepha"%u; "JavaneseRomanLoCFix"%u; "KawiMoveRepha"%u; "KhandaTaRomanLoC"%u; "KhmerLoCRomanLoCSource"%u; "KhmerLoCRomanLoCTarget"%u; "KhmerWordSplit"%u;
    "KhuenRaHaamKaren"%u; "LaoPhonetic"%u; "LaoSajhayaOrthography"%u; "LaoSajhayaOrthographywithA"%u; "LaoTranscription"%u; "LimbuDevanagariConvention"%u; "LimbuSpellingSaI"%u; "MalayalamHalfu"%u;
    "MalayalamPrakrit"%u; "MalayalamRomanLoCFix"%u; "MalayalamTranscribe"%u; "OriyaSubojinedVa"%u; "OriyaTargetVa"%u; "PersianDMGTarget"%u; "PhagsPaArrange"%u; "PhliWawAyinResh"%u;
    "PhlpMemQoph"%u; "PhlpWawAyinResh"%u; "PreProcess"%u; "RemoveFinal"%u; "RemoveJoiners"%u; "RemoveSchwaHindi"%u; "RetainDevangariDanda"%u; "RetainPipeDanda"%u;
    "RomanLoCChandrabindu"%u; "RomanLoCLaUnderscoreDoubleDot"%u; "RomanLoCSLaDotLaUnderscore"%u; "RomanLoCSasha"%u; "RomanLoCVaWa"%u; "RomanPreFix"%u; "SanskritLexicaizeHK"%u; "SaurastraHaaruColonTamil"%u;
    "SchwaFinalBengali"%u; "SchwaFinalGujarati"%u; "SchwaFinalGurmukhi"%u; "SchwaFinalKhmer"%u; "SchwaFinalKhmerLoC"%u; "SchwaFinalWarangCiti"%u; "ShanLoCRomanLoCSource"%u; "ShanLoCRomanLoCTarget"%u;
    "ShowChillus"%u; "ShowKhandaTa"%u; "SinhalaPali"%u; "SogdReshAyin"%u; "SogoReshAyinDaleth"%u; "TaiKuen"%u; "TaiThamLao"%u; "TakriArchaicKha"%u;
    "TamilNumeralSub"%u; "TamilTranscribe"%u; "TamilTranscribeCommon"%u; "TamilTranscribeDialect"%u; "ThaiOrthography"%u; "ThaiPhonetic"%u; "ThaiSajjhayaOrthography"%u; "ThaiSajjhayawithA"%u;
    "ThamLoCRomanLoCSource"%u; "ThamLoCRomanLoCTarget"%u; "TibetanLoCRomanLoCFix"%u; "UnSupThaana"%u; "UrduShortNotShown"%u; "default"%u; "egrantamil"%u; "eiaudipthongs"%u;
    "holamlong"%u; "insertViramaSyriac"%u; "joinVowelCons"%u; "joinVowelConsIAST"%u; "joinVowelConsISO"%u; "longEOISO"%u; "normalize"%u; "novowelshebrewIndic"%u;
    "novowelshebrewSemitic"%u; "paliTham"%u; "perisanizeArab"%u; "removeChillus"%u; "removeFinalSchwaArab"%u; "removeZW"%u; "retainLatin"%u; "segmentBurmeseSyllables"%u;
    "segmentShanSyllables"%u; "segmentThamSyllabes"%u; "semiticizeUrdu"%u; "shvanakhall"%u; "siddhamUnicode"%u; "siddhammukta"%u; "swapEe"%u; "swapEeItrans"%u;
    "wasvnukta"%u].

(** getattr(PreProcess, name)(Strng) *)
Definition PrP_call (name : str) : prog :=
  if str_eqb name "AlephMaterLectionis"%u then PrP_AlephMaterLectionis "semitic"%u else
  if str_eqb name "AnuChandraEq"%u then [Raise TypeError] else
  if str_eqb name "AnuChandraEqDeva"%u then PrP_AnuChandraEqDeva else
  if str_eqb name "ArabicGimelJa"%u then PrP_ArabicGimelJa else
  if str_eqb name "ArabizePersian"%u then PrP_ArabizePersian else
  if str_eqb name "ArchaicJnaSimplifyRomanLOC"%u then PrP_ArchaicJnaSimplifyRomanLOC else
  if str_eqb name "BalineseJavaneseMoveRepha"%u then [Raise TypeError] else
  if str_eqb name "BalineseMoveRepha"%u then PrP_BalineseMoveRepha else
  if str_eqb name "BalineseRomanLoCFix"%u then PrP_BalineseRomanLoCFix else
  if str_eqb name "BengaliSubojinedVa"%u then PrP_BengaliSubojinedVa else
  if str_eqb name "BengaliSwitchYaYYa"%u then PrP_BengaliSwitchYaYYa else
  if str_eqb name "BengaliTargetVa"%u then PrP_BengaliTargetVa else
  if str_eqb name "BurmeseRomanLoCSource"%u then PrP_BurmeseRomanLoCSource else
  if str_eqb name "BurmeseRomanLoCTarget"%u then PrP_BurmeseRomanLoCTarget else
  if str_eqb name "ChakmaPali"%u then PrP_ChakmaPali else
  if str_eqb name "CyrillicPali"%u then PrP_CyrillicPali else
  if str_eqb name "DevanagariRomanLoCFix"%u then PrP_DevanagariRomanLoCFix else
  if str_eqb name "DivesAkuruAlternateIndVowels"%u then PrP_DivesAkuruAlternateIndVowels else
  if str_eqb name "FixSemiticRoman"%u then [Raise TypeError] else
  if str_eqb name "GranthaPrakrit"%u then PrP_GranthaPrakrit else
  if str_eqb name "HatrDalethResh"%u then PrP_HatrDalethResh else
  if str_eqb name "HebrewSBLSource"%u then PrP_HebrewSBLSource else
  if str_eqb name "HebrewSBLTarget"%u then PrP_HebrewSBLTarget else
  if str_eqb name "HindiMarathiRomanLoCFix"%u then PrP_HindiMarathiRomanLoCFix else
  if str_eqb name "IASTLDotRetroflex"%u then PrP_IASTLDotRetroflex else
  if str_eqb name "IASTPali"%u then PrP_IASTPali else
  if str_eqb name "IPAIndic"%u then PrP_IPAIndic else
  if str_eqb name "ISO233Source"%u then PrP_ISO233Source else
  if str_eqb name "ISO233Target"%u then PrP_ISO233Target else
  if str_eqb name "ISO259Source"%u then PrP_ISO259Source else
  if str_eqb name "ISO259Target"%u then PrP_ISO259Target else
  if str_eqb name "ItransLL"%u then PrP_ItransLL else
  if str_eqb name "JavaneseMoveRepha"%u then PrP_JavaneseMoveRepha else
  if str_eqb name "JavaneseRomanLoCFix"%u then PrP_JavaneseRomanLoCFix else
  if str_eqb name "KawiMoveRepha"%u then PrP_KawiMoveRepha else
  if str_eqb name "KhandaTaRomanLoC"%u then PrP_KhandaTaRomanLoC else
  if str_eqb name "KhmerLoCRomanLoCSource"%u then PrP_KhmerLoCRomanLoCSource else
  if str_eqb name "KhmerLoCRomanLoCTarget"%u then PrP_KhmerLoCRomanLoCTarget else
  if str_eqb name "KhmerWordSplit"%u then PrP_KhmerWordSplit else
  if str_eqb name "KhuenRaHaamKaren"%u then PrP_KhuenRaHaamKaren else
  if str_eqb name "LaoPhonetic"%u then PrP_LaoPhonetic else
  if str_eqb name "LaoSajhayaOrthography"%u then PrP_LaoSajhayaOrthography else
  if str_eqb name "LaoSajhayaOrthographywithA"%u then PrP_LaoSajhayaOrthographywithA else
  if str_eqb name "LaoTranscription"%u then PrP_LaoTranscription else
  if str_eqb name "LimbuDevanagariConvention"%u then PrP_LimbuDevanagariConvention else
  if str_eqb name "LimbuSpellingSaI"%u then PrP_LimbuSpellingSaI else
  if str_eqb name "MalayalamHalfu"%u then PrP_MalayalamHalfu else
  if str_eqb name "MalayalamPrakrit"%u then PrP_MalayalamPrakrit else
  if str_eqb name "MalayalamRomanLoCFix"%u then PrP_MalayalamRomanLoCFix else
  if str_eqb name "MalayalamTranscribe"%u then PrP_MalayalamTranscribe else
  if str_eqb name "OriyaSubojinedVa"%u then PrP_OriyaSubojinedVa else
  if str_eqb name "OriyaTargetVa"%u then PrP_OriyaTargetVa else
  if str_eqb name "PersianDMGTarget"%u then PrP_PersianDMGTarget else
  if str_eqb name "PhagsPaArrange"%u then [Raise TypeError] else
  if str_eqb name "PhliWawAyinResh"%u then PrP_PhliWawAyinResh else
  if str_eqb name "PhlpMemQoph"%u then PrP_PhlpMemQoph else
  if str_eqb name "PhlpWawAyinResh"%u then PrP_PhlpWawAyinResh else
  if str_eqb name "PreProcess"%u then [Raise TypeError] else
  if str_eqb name "RemoveFinal"%u then [Raise TypeError] else
  if str_eqb name "RemoveJoiners"%u then PrP_RemoveJoiners else
  if str_eqb name "RemoveSchwaHindi"%u then PrP_RemoveSchwaHindi false else
  if str_eqb name "RetainDevangariDanda"%u then PrP_RetainDevangariDanda else
  if str_eqb name "RetainPipeDanda"%u then [Raise TypeError] else
  if str_eqb name "RomanLoCChandrabindu"%u then PrP_RomanLoCChandrabindu else
  if str_eqb name "RomanLoCLaUnderscoreDoubleDot"%u then PrP_RomanLoCLaUnderscoreDoubleDot else
  if str_eqb name "RomanLoCSLaDotLaUnderscore"%u then PrP_RomanLoCSLaDotLaUnderscore else
  if str_eqb name "RomanLoCSasha"%u then PrP_RomanLoCSasha else
  if str_eqb name "RomanLoCVaWa"%u then PrP_RomanLoCVaWa else
  if str_eqb name "RomanPreFix"%u then [Raise TypeError] else
  if str_eqb name "SanskritLexicaizeHK"%u then PrP_SanskritLexicaizeHK else
  if str_eqb name "SaurastraHaaruColonTamil"%u then PrP_SaurastraHaaruColonTamil else
  if str_eqb name "SchwaFinalBengali"%u then PrP_SchwaFinalBengali else
  if str_eqb name "SchwaFinalGujarati"%u then PrP_SchwaFinalGujarati else
  if str_eqb name "SchwaFinalGurmukhi"%u then PrP_SchwaFinalGurmukhi else
  if str_eqb name "SchwaFinalKhmer"%u then PrP_SchwaFinalKhmer else
  if str_eqb name "SchwaFinalKhmerLoC"%u then PrP_SchwaFinalKhmerLoC else
  if str_eqb name "SchwaFinalWarangCiti"%u then PrP_SchwaFinalWarangCiti else
  if str_eqb name "ShanLoCRomanLoCSource"%u then PrP_ShanLoCRomanLoCSource else
  if str_eqb name "ShanLoCRomanLoCTarget"%u then PrP_ShanLoCRomanLoCTarget else
  if str_eqb name "ShowChillus"%u then PrP_ShowChillus else
  if str_eqb name "ShowKhandaTa"%u then PrP_ShowKhandaTa else
  if str_eqb name "SinhalaPali"%u then PrP_SinhalaPali else
  if str_eqb name "SogdReshAyin"%u then PrP_SogdReshAyin else
  if str_eqb name "SogoReshAyinDaleth"%u then PrP_SogoReshAyinDaleth else
  if str_eqb name "TaiKuen"%u then PrP_TaiKuen else
  if str_eqb name "TaiThamLao"%u then PrP_TaiThamLao else
  if str_eqb name "TakriArchaicKha"%u then PrP_TakriArchaicKha else
  if str_eqb name "TamilNumeralSub"%u then PrP_TamilNumeralSub else
  if str_eqb name "TamilTranscribe"%u then PrP_TamilTranscribe else
  if str_eqb name "TamilTranscribeCommon"%u then PrP_TamilTranscribeCommon (31)%Z else
  if str_eqb name "TamilTranscribeDialect"%u then PrP_TamilTranscribeDialect else
  if str_eqb name "ThaiOrthography"%u then PrP_ThaiOrthography else
  if str_eqb name "ThaiPhonetic"%u then PrP_ThaiPhonetic else
  if str_eqb name "ThaiSajjhayaOrthography"%u then PrP_ThaiSajjhayaOrthography else
  if str_eqb name "ThaiSajjhayawithA"%u then PrP_ThaiSajjhayawithA else
  if str_eqb name "ThamLoCRomanLoCSource"%u then PrP_ThamLoCRomanLoCSource else
  if str_eqb name "ThamLoCRomanLoCTarget"%u then PrP_ThamLoCRomanLoCTarget else
  if str_eqb name "TibetanLoCRomanLoCFix"%u then PrP_TibetanLoCRomanLoCFix else
  if str_eqb name "UnSupThaana"%u then PrP_UnSupThaana else
  if str_eqb name "UrduShortNotShown"%u then PrP_UrduShortNotShown else
  if str_eqb name "default"%u then PrP_default else
  if str_eqb name "egrantamil"%u then PrP_egrantamil else
  if str_eqb name "eiaudipthongs"%u then PrP_eiaudipthongs else
  if str_eqb name "holamlong"%u then PrP_holamlong else
  if str_eqb name "insertViramaSyriac"%u then PrP_insertViramaSyriac else
  if str_eqb name "joinVowelCons"%u then [Raise TypeError] else
  if str_eqb name "joinVowelConsIAST"%u then PrP_joinVowelConsIAST else
  if str_eqb name "joinVowelConsISO"%u then PrP_joinVowelConsISO else
  if str_eqb name "longEOISO"%u then PrP_longEOISO else
  if str_eqb name "normalize"%u then [Raise TypeError] else
  if str_eqb name "novowelshebrewIndic"%u then PrP_novowelshebrewIndic else
  if str_eqb name "novowelshebrewSemitic"%u then PrP_novowelshebrewSemitic else
  if str_eqb name "paliTham"%u then PrP_paliTham else
  if str_eqb name "perisanizeArab"%u then PrP_perisanizeArab else
  if str_eqb name "removeChillus"%u then PrP_removeChillus else
  if str_eqb name "removeFinalSchwaArab"%u then PrP_removeFinalSchwaArab else
  if str_eqb name "removeZW"%u then PrP_removeZW else
  if str_eqb name "retainLatin"%u then PrP_retainLatin false else
  if str_eqb name "segmentBurmeseSyllables"%u then PrP_segmentBurmeseSyllables else
  if str_eqb name "segmentShanSyllables"%u then PrP_segmentShanSyllables else
  if str_eqb name "segmentThamSyllabes"%u then PrP_segmentThamSyllabes else
  if str_eqb name "semiticizeUrdu"%u then PrP_semiticizeUrdu else
  if str_eqb name "shvanakhall"%u then PrP_shvanakhall else
  if str_eqb name "siddhamUnicode"%u then PrP_siddhamUnicode else
  if str_eqb name "siddhammukta"%u then PrP_siddhammukta else
  if str_eqb name "swapEe"%u then PrP_swapEe else
  if str_eqb name "swapEeItrans"%u then PrP_swapEeItrans else
  if str_eqb name "wasvnukta"%u then PrP_wasvnukta else
  if str_eqb name "JapanesePreProcess"%u then [Raise TypeError] else
  [Raise AttributeError].

(** inspect.getmembers(PostProcess, isfunction): the functions defined in aksharamukha/PostProcess.py, sorted by name (transliterate.py:574-577). *)
Definition PP_names : list str :=
  ["AhomClosed"%u; "AlephMaterLectionis"%u; "AmbigousTamilOrthography"%u; "AnusvaraAsN"%u; "AnusvaraToNasal"%u; "AnusvaraToNasalIPA"%u; "AnusvaratoNasalASTISO"%u; "ArabAtoAleph"%u;
    "ArabRemoveAdditions"%u; "ArabicGimelGaGha"%u; "ArabicGimelPaBa"%u; "AvestanConventions"%u; "BalineseArchaicJNA"%u; "BalineseAvowels"%u; "BalineseJavaneseMoveRepha"%u; "BalineseMoveRepha"%u;
    "BalineseRomanLoCFix"%u; "BalineseSimplified"%u; "BengaliConjunctVB"%u; "BengaliIntervocalicDDA"%u; "BengaliOldRA"%u; "BengaliRaBa"%u; "BengaliSwitchYaYYa"%u; "BengaliYYA"%u;
    "BhaiksukiRetainSpace"%u; "BurmeseRomanLoCSource"%u; "BurmeseRomanLoCTarget"%u; "ChakmaAVowels"%u; "ChakmaEnableAllConjuncts"%u; "ChakmaGemination"%u; "ChakmaPali"%u; "ChakmaVowelsIndependent"%u;
    "ContextualLLa"%u; "CyrillicPali"%u; "DevanagariACandra"%u; "DevanagariAVowels"%u; "DevanagariAnusvara"%u; "DevanagariPrishtamatra"%u; "DevanagariRomanLoCFix"%u; "DivesAkuruAlternateIndVowels"%u;
    "DivesAkuruHomoOrganNasal"%u; "DograShaKha"%u; "Dot2Dandas"%u; "Dot2Pipes"%u; "FinalNNa"%u; "FixSemiticRoman"%u; "FixTallA"%u; "GranthaOldau"%u;
    "GranthaPrakrit"%u; "GurmukhiCandrabindu"%u; "GurmukhiRomanLoCFix"%u; "GurmukhiTippiBindu"%u; "GurmukhiTippiGemination"%u; "GurmukhiYakaash"%u; "HeberewQoph"%u; "HebewShortO"%u;
    "HebrewKatevMalei"%u; "HebrewSBLSource"%u; "HebrewSBLTarget"%u; "HebrewVetVav"%u; "HebrewnonFinalShort"%u; "HindiMarathiRomanLoCFix"%u; "HiraganaaunotDipthong"%u; "IASTISONasalTilde"%u;
    "IASTPali"%u; "IPARemoveCross"%u; "ISO233Source"%u; "ISO233Target"%u; "ISO259Source"%u; "ISO259Target"%u; "InsertGeminationSign"%u; "JapanesePostProcess"%u;
    "JavaneseArchaicJNA"%u; "JavaneseAvowels"%u; "JavaneseMoveRepha"%u; "JavaneseRomanLoCFix"%u; "JavaneseSimplified"%u; "KaithiRetainSpace"%u; "KannadaNakaraPollu"%u; "KannadaNotRepha"%u;
    "KannadaSpacingCandrabindu"%u; "KawiAltAiAU"%u; "KawiArchaicJNA"%u; "KawiDecomposedVowel"%u; "KawiMoveRepha"%u; "KhamiShanMyanmarNumerals"%u; "KhamtiShanRa"%u; "KhandaTa"%u;
    "KhandaTaRomanLoC"%u; "KhmerLoCRomanLoCSource"%u; "KhmerLoCRomanLoCTarget"%u; "KhojkiQa"%u; "KhojkiRRI"%u; "KhojkiRetainSpace"%u; "LaoNative"%u; "LaoPhonetic"%u;
    "LaoSajjhaya"%u; "LaoSajjhayawithA"%u; "LaoTranscription"%u; "LatinPipes"%u; "LatnInitialVowels"%u; "LimbuDevanagariConvention"%u; "LimbuSpellingSaI"%u; "LimburemoveHistorical"%u;
    "LoCMarc8"%u; "MToAnusvara"%u; "MalayalamAnusvaraNasal"%u; "MalayalamChillu"%u; "MalayalamCircVirama"%u; "MalayalamLineVirama"%u; "MalayalamNTA"%u; "MalayalamPrakrit"%u;
    "MalayalamRomanLoCFix"%u; "MalayalamTTNTA"%u; "MalayalamremoveHistorical"%u; "MarchenSanskritPalatals"%u; "MedievalTamilOrthography"%u; "MeeteiMayekremoveHistorical"%u; "ModiRemoveLong"%u; "MongolianSyllabize"%u;
    "MultaniAbjad"%u; "NandinagariPrishtamatra"%u; "NasalTilde"%u; "NasalToAnusvara"%u; "NewaDisableRepha"%u; "NewaMurmurConsonants"%u; "NewaSpecialTa"%u; "OriyaVa"%u;
    "OriyaVaAlt"%u; "OriyaYYA"%u; "PersianDMGSBLSource"%u; "PersianDMGTarget"%u; "PhagsPaRearrange"%u; "PhagsPaSeal"%u; "PhagsPaTib"%u; "PhoneticMapping"%u;
    "RemoveDiacritics"%u; "RemoveDiacriticsTamil"%u; "RemoveSchwa"%u; "RephaDoubleMalayalam"%u; "RetainDandasIndic"%u; "RetainGujaratiDanda"%u; "RetainGurmukhiNumerals"%u; "RetainIndicNumerals"%u;
    "RetainKannadaDanda"%u; "RetainKannadaNumerals"%u; "RetainMalayalamDanda"%u; "RetainMalayalamNumerals"%u; "RetainRomanNumerals"%u; "RetainTamilDanda"%u; "RetainTamilNumerals"%u; "RetainTeluguDanda"%u;
    "RetainTeluguNumerals"%u; "ReverseGeminationSign"%u; "RomanLoCChandrabindu"%u; "RomanLoCLaUnderscoreDoubleDot"%u; "RomanLoCSLaDotLaUnderscore"%u; "RomanLoCSasha"%u; "RomanLoCVaWa"%u; "RomanReadableLongEO"%u;
    "SaurashtraHaru"%u; "SaurastraHaaruColon"%u; "ShanLoCRomanLoCSource"%u; "ShanLoCRomanLoCTarget"%u; "ShowSchwaHindi"%u; "SinhalaChandrbinduAnusvara"%u; "SinhalaConjuncts"%u; "SinhalaDefaultConjuncts"%u;
    "SinhalaPali"%u; "SinhalaSannakaNasalization"%u; "SogdReshAyin"%u; "SogoReshAyinDaleth"%u; "SoyomboFinals"%u; "SoyomboInitials"%u; "SoyomboSanskritPalatals"%u; "SoyomboSpaceTscheg"%u;
    "SoyomboSyllabize"%u; "SundaneseHistoricConjuncts"%u; "SundaneseRemoveHistoric"%u; "TaiKuen"%u; "TaiThamHighNga"%u; "TaiThamLao"%u; "TaiThamMoveNnga"%u; "TaiThamO"%u;
    "TakriArchaicKha"%u; "TakriRemoveGemination"%u; "TamilAddFirstVarga"%u; "TamilDisableSHA"%u; "TamilExtendedAnusvara"%u; "TamilExtendedNNA"%u; "TamilGranthaVisarga"%u; "TamilNaToNNa"%u;
    "TamilOmDisable"%u; "TamilRemoveApostrophe"%u; "TamilRemoveNumbers"%u; "TamilSHADisable"%u; "TamilStyleUUCore"%u; "TamilStyleUUOther"%u; "TamilSubScript"%u; "TamilpredictDentaNa"%u;
    "TamilpredictDentaNaExtended"%u; "TeluguArasunnaChandrabindu"%u; "TeluguNakaraPollu"%u; "TeluguRemoveAeAo"%u; "TeluguRemoveNukta"%u; "TeluguReph"%u; "TeluguTamilRra"%u; "TeluguTamilZha"%u;
    "ThaanaRemoveHistorical"%u; "ThaiLaoTranscription"%u; "ThaiNativeConsonants"%u; "ThaiSajjhayaOrthography"%u; "ThaiSajjhayawithA"%u; "ThaiTranscription"%u; "ThaiVisargaSaraA"%u; "ThamLoCRomanLoCSource"%u;
    "ThamLoCRomanLoCTarget"%u; "ThamShiftMaiKangLai"%u; "ThamTallADisable"%u; "ThamTallAOthers"%u; "TibetanLoCRomanLoCFix"%u; "TibetanNada"%u; "TibetanRemoveBa"%u; "TibetanRemoveVirama"%u;
    "TibetanSanskritPalatals"%u; "TibetanSyllabize"%u; "TibetanTsheg"%u; "UrduAlternateUU"%u; "UrduRemoveShortVowels"%u; "UseAlternateI1"%u; "UseAlternateI2"%u; "UseAlternateII"%u;
    "UseAlternateU"%u; "UseAlternateVSU"%u; "UseAlternateVSUU"%u; "UseAlternateYA"%u; "UseAlternateo1"%u; "UseAlternateo2"%u; "VaToBa"%u; "WarangCitiModernOrthogaphy"%u;
    "YYAEverywhere"%u; "YaToYYa"%u; "ZanabazarSanskritPalatals"%u; "ZanabazarSquareAiAu"%u; "ZanabazarSquareContextual"%u; "ZanabazarSquareMongolianFinal"%u; "ZanzabarSpaceTsheg"%u; "alephAyinLatnAlternate"%u;
    "alephAyinLatnAlternate2"%u; "arabChaSa"%u; "arabPaFa"%u; "arabicRemoveAdditionsPhonetic"%u; "arabizeLatn"%u; "archaicAIAU"%u; "capitalizeSentence"%u; "default"%u;
    "defaultPost"%u; "devanagaribalbodh"%u; "devanagarijain"%u; "devanagarinepali"%u; "devanagariuttara"%u; "dotReph"%u; "easternsyriac"%u; "egrantamil"%u;
    "estrangelasyriac"%u; "gainGimel"%u; "granthafinal"%u; "granthaserif"%u; "hebraizeLatn"%u; "historicChillu"%u; "indicDandas"%u; "indicNumerals"%u;
    "inherentAO"%u; "insertARomanSemitic"%u; "jainomDevangari"%u; "kawitan"%u; "khandatabatova"%u; "mDotAboveToBelow"%u; "mDotBelowToAbove"%u; "nepaldevafont"%u;
    "noLongEO"%u; "olddogra"%u; "oldtamilortho"%u; "persianPaGaFaJa"%u; "ranjanalantsa"%u; "ranjanawartu"%u; "readableItrans"%u; "removeDiacritics"%u;
    "removeDiacriticsArabic"%u; "removeDiacriticsPersian"%u; "removeDiacriticsSyriac"%u; "removeMajliyana"%u; "removeNikkud"%u; "removePaliAhom"%u; "removeQussaya"%u; "removeRukkaka"%u;
    "removeSegmentSpacesBurmese"%u; "removeSemiticLetters"%u; "removeSukunEnd"%u; "removeVowelsSyriac"%u; "removetddash"%u; "romanFullStop"%u; "romanNumerals"%u; "siddhamBija"%u;
    "siddhamap"%u; "siddhammukta"%u; "sundapura"%u; "swapEe"%u; "swapEeItrans"%u; "syriacRoman"%u; "syriacVowelsBelow"%u; "syriacWesternOToU"%u;
    "syricizeLatn"%u; "tavThreedot"%u; "tavTwodot"%u; "tbadiff"%u; "tibetandbumed"%u; "tokushuon"%u; "tradOrtho"%u; "urduRemoveInherent"%u;
    "urduizeLatn"%u; "useKtivMale"%u; "verticalKana"%u; "verticalSiddham"%u; "vtobJapanese"%u; "westernsyriac"%u].

(** getattr(PostProcess, name)(Strng) *)
Definition PP_call (name : str) : prog :=
  if str_eqb name "AhomClosed"%u then PP_AhomClosed else
  if str_eqb name "AlephMaterLectionis"%u then PP_AlephMaterLectionis "semitic"%u else
  if str_eqb name "AmbigousTamilOrthography"%u then PP_AmbigousTamilOrthography else
  if str_eqb name "AnusvaraAsN"%u then PP_AnusvaraAsN else
  if str_eqb name "AnusvaraToNasal"%u then [Raise TypeError] else
  if str_eqb name "AnusvaraToNasalIPA"%u then PP_AnusvaraToNasalIPA else
  if str_eqb name "AnusvaratoNasalASTISO"%u then PP_AnusvaratoNasalASTISO else
  if str_eqb name "ArabAtoAleph"%u then PP_ArabAtoAleph else
  if str_eqb name "ArabRemoveAdditions"%u then PP_ArabRemoveAdditions else
  if str_eqb name "ArabicGimelGaGha"%u then PP_ArabicGimelGaGha else
  if str_eqb name "ArabicGimelPaBa"%u then PP_ArabicGimelPaBa else
  if str_eqb name "AvestanConventions"%u then PP_AvestanConventions else
  if str_eqb name "BalineseArchaicJNA"%u then PP_BalineseArchaicJNA else
  if str_eqb name "BalineseAvowels"%u then PP_BalineseAvowels else
  if str_eqb name "BalineseJavaneseMoveRepha"%u then [Raise TypeError] else
  if str_eqb name "BalineseMoveRepha"%u then PP_BalineseMoveRepha else
  if str_eqb name "BalineseRomanLoCFix"%u then PP_BalineseRomanLoCFix else
  if str_eqb name "BalineseSimplified"%u then PP_BalineseSimplified else
  if str_eqb name "BengaliConjunctVB"%u then PP_BengaliConjunctVB else
  if str_eqb name "BengaliIntervocalicDDA"%u then PP_BengaliIntervocalicDDA else
  if str_eqb name "BengaliOldRA"%u then PP_BengaliOldRA else
  if str_eqb name "BengaliRaBa"%u then PP_BengaliRaBa else
  if str_eqb name "BengaliSwitchYaYYa"%u then PP_BengaliSwitchYaYYa else
  if str_eqb name "BengaliYYA"%u then PP_BengaliYYA else
  if str_eqb name "BhaiksukiRetainSpace"%u then PP_BhaiksukiRetainSpace else
  if str_eqb name "BurmeseRomanLoCSource"%u then PP_BurmeseRomanLoCSource else
  if str_eqb name "BurmeseRomanLoCTarget"%u then PP_BurmeseRomanLoCTarget else
  if str_eqb name "ChakmaAVowels"%u then PP_ChakmaAVowels else
  if str_eqb name "ChakmaEnableAllConjuncts"%u then PP_ChakmaEnableAllConjuncts else
  if str_eqb name "ChakmaGemination"%u then PP_ChakmaGemination false else
  if str_eqb name "ChakmaPali"%u then PP_ChakmaPali else
  if str_eqb name "ChakmaVowelsIndependent"%u then PP_ChakmaVowelsIndependent else
  if str_eqb name "ContextualLLa"%u then PP_ContextualLLa else
  if str_eqb name "CyrillicPali"%u then PP_CyrillicPali else
  if str_eqb name "DevanagariACandra"%u then PP_DevanagariACandra else
  if str_eqb name "DevanagariAVowels"%u then PP_DevanagariAVowels else
  if str_eqb name "DevanagariAnusvara"%u then PP_DevanagariAnusvara else
  if str_eqb name "DevanagariPrishtamatra"%u then PP_DevanagariPrishtamatra false else
  if str_eqb name "DevanagariRomanLoCFix"%u then PP_DevanagariRomanLoCFix else
  if str_eqb name "DivesAkuruAlternateIndVowels"%u then PP_DivesAkuruAlternateIndVowels else
  if str_eqb name "DivesAkuruHomoOrganNasal"%u then PP_DivesAkuruHomoOrganNasal else
  if str_eqb name "DograShaKha"%u then PP_DograShaKha else
  if str_eqb name "Dot2Dandas"%u then PP_Dot2Dandas else
  if str_eqb name "Dot2Pipes"%u then PP_Dot2Pipes else
  if str_eqb name "FinalNNa"%u then PP_FinalNNa else
  if str_eqb name "FixSemiticRoman"%u then [Raise TypeError] else
  if str_eqb name "FixTallA"%u then [Raise TypeError] else
  if str_eqb name "GranthaOldau"%u then PP_GranthaOldau else
  if str_eqb name "GranthaPrakrit"%u then PP_GranthaPrakrit else
  if str_eqb name "GurmukhiCandrabindu"%u then PP_GurmukhiCandrabindu else
  if str_eqb name "GurmukhiRomanLoCFix"%u then PP_GurmukhiRomanLoCFix else
  if str_eqb name "GurmukhiTippiBindu"%u then PP_GurmukhiTippiBindu else
  if str_eqb name "GurmukhiTippiGemination"%u then PP_GurmukhiTippiGemination else
  if str_eqb name "GurmukhiYakaash"%u then PP_GurmukhiYakaash false else
  if str_eqb name "HeberewQoph"%u then PP_HeberewQoph else
  if str_eqb name "HebewShortO"%u then PP_HebewShortO else
  if str_eqb name "HebrewKatevMalei"%u then PP_HebrewKatevMalei else
  if str_eqb name "HebrewSBLSource"%u then PP_HebrewSBLSource else
  if str_eqb name "HebrewSBLTarget"%u then PP_HebrewSBLTarget else
  if str_eqb name "HebrewVetVav"%u then PP_HebrewVetVav else
  if str_eqb name "HebrewnonFinalShort"%u then PP_HebrewnonFinalShort else
  if str_eqb name "HindiMarathiRomanLoCFix"%u then PP_HindiMarathiRomanLoCFix else
  if str_eqb name "HiraganaaunotDipthong"%u then PP_HiraganaaunotDipthong else
  if str_eqb name "IASTISONasalTilde"%u then PP_IASTISONasalTilde else
  if str_eqb name "IASTPali"%u then PP_IASTPali else
  if str_eqb name "IPARemoveCross"%u then PP_IPARemoveCross else
  if str_eqb name "ISO233Source"%u then PP_ISO233Source else
  if str_eqb name "ISO233Target"%u then PP_ISO233Target else
  if str_eqb name "ISO259Source"%u then PP_ISO259Source else
  if str_eqb name "ISO259Target"%u then PP_ISO259Target else
  if str_eqb name "InsertGeminationSign"%u then [Raise TypeError] else
  if str_eqb name "JavaneseArchaicJNA"%u then PP_JavaneseArchaicJNA else
  if str_eqb name "JavaneseAvowels"%u then PP_JavaneseAvowels else
  if str_eqb name "JavaneseMoveRepha"%u then PP_JavaneseMoveRepha else
  if str_eqb name "JavaneseRomanLoCFix"%u then PP_JavaneseRomanLoCFix else
  if str_eqb name "JavaneseSimplified"%u then PP_JavaneseSimplified else
  if str_eqb name "KaithiRetainSpace"%u then PP_KaithiRetainSpace else
  if str_eqb name "KannadaNakaraPollu"%u then PP_KannadaNakaraPollu else
  if str_eqb name "KannadaNotRepha"%u then PP_KannadaNotRepha else
  if str_eqb name "KannadaSpacingCandrabindu"%u then PP_KannadaSpacingCandrabindu else
  if str_eqb name "KawiAltAiAU"%u then PP_KawiAltAiAU else
  if str_eqb name "KawiArchaicJNA"%u then PP_KawiArchaicJNA else
  if str_eqb name "KawiDecomposedVowel"%u then PP_KawiDecomposedVowel else
  if str_eqb name "KawiMoveRepha"%u then PP_KawiMoveRepha else
  if str_eqb name "KhamiShanMyanmarNumerals"%u then PP_KhamiShanMyanmarNumerals else
  if str_eqb name "KhamtiShanRa"%u then PP_KhamtiShanRa else
  if str_eqb name "KhandaTa"%u then [Raise TypeError] else
  if str_eqb name "KhandaTaRomanLoC"%u then PP_KhandaTaRomanLoC else
  if str_eqb name "KhmerLoCRomanLoCSource"%u then PP_KhmerLoCRomanLoCSource else
  if str_eqb name "KhmerLoCRomanLoCTarget"%u then PP_KhmerLoCRomanLoCTarget else
  if str_eqb name "KhojkiQa"%u then PP_KhojkiQa else
  if str_eqb name "KhojkiRRI"%u then PP_KhojkiRRI else
  if str_eqb name "KhojkiRetainSpace"%u then PP_KhojkiRetainSpace else
  if str_eqb name "LaoNative"%u then PP_LaoNative else
  if str_eqb name "LaoPhonetic"%u then PP_LaoPhonetic else
  if str_eqb name "LaoSajjhaya"%u then PP_LaoSajjhaya else
  if str_eqb name "LaoSajjhayawithA"%u then PP_LaoSajjhayawithA else
  if str_eqb name "LaoTranscription"%u then PP_LaoTranscription else
  if str_eqb name "LatinPipes"%u then PP_LatinPipes else
  if str_eqb name "LatnInitialVowels"%u then PP_LatnInitialVowels [] else
  if str_eqb name "LimbuDevanagariConvention"%u then PP_LimbuDevanagariConvention else
  if str_eqb name "LimbuSpellingSaI"%u then PP_LimbuSpellingSaI else
  if str_eqb name "LimburemoveHistorical"%u then PP_LimburemoveHistorical else
  if str_eqb name "LoCMarc8"%u then PP_LoCMarc8 else
  if str_eqb name "MToAnusvara"%u then [Raise TypeError] else
  if str_eqb name "MalayalamAnusvaraNasal"%u then PP_MalayalamAnusvaraNasal else
  if str_eqb name "MalayalamChillu"%u then PP_MalayalamChillu false false else
  if str_eqb name "MalayalamCircVirama"%u then PP_MalayalamCircVirama else
  if str_eqb name "MalayalamLineVirama"%u then PP_MalayalamLineVirama else
  if str_eqb name "MalayalamNTA"%u then PP_MalayalamNTA else
  if str_eqb name "MalayalamPrakrit"%u then PP_MalayalamPrakrit else
  if str_eqb name "MalayalamRomanLoCFix"%u then PP_MalayalamRomanLoCFix else
  if str_eqb name "MalayalamTTNTA"%u then PP_MalayalamTTNTA else
  if str_eqb name "MalayalamremoveHistorical"%u then PP_MalayalamremoveHistorical else
  if str_eqb name "MarchenSanskritPalatals"%u then PP_MarchenSanskritPalatals else
  if str_eqb name "MedievalTamilOrthography"%u then PP_MedievalTamilOrthography else
  if str_eqb name "MeeteiMayekremoveHistorical"%u then PP_MeeteiMayekremoveHistorical else
  if str_eqb name "ModiRemoveLong"%u then PP_ModiRemoveLong else
  if str_eqb name "MongolianSyllabize"%u then PP_MongolianSyllabize else
  if str_eqb name "MultaniAbjad"%u then PP_MultaniAbjad else
  if str_eqb name "NandinagariPrishtamatra"%u then PP_NandinagariPrishtamatra false else
  if str_eqb name "NasalTilde"%u then PP_NasalTilde else
  if str_eqb name "NasalToAnusvara"%u then [Raise TypeError] else
  if str_eqb name "NewaDisableRepha"%u then PP_NewaDisableRepha else
  if str_eqb name "NewaMurmurConsonants"%u then PP_NewaMurmurConsonants else
  if str_eqb name "NewaSpecialTa"%u then PP_NewaSpecialTa else
  if str_eqb name "OriyaVa"%u then PP_OriyaVa else
  if str_eqb name "OriyaVaAlt"%u then PP_OriyaVaAlt else
  if str_eqb name "OriyaYYA"%u then PP_OriyaYYA else
  if str_eqb name "PersianDMGSBLSource"%u then PP_PersianDMGSBLSource else
  if str_eqb name "PersianDMGTarget"%u then PP_PersianDMGTarget else
  if str_eqb name "PhagsPaRearrange"%u then [Raise TypeError] else
  if str_eqb name "PhagsPaSeal"%u then PP_PhagsPaSeal else
  if str_eqb name "PhagsPaTib"%u then PP_PhagsPaTib else
  if str_eqb name "PhoneticMapping"%u then PP_PhoneticMapping else
  if str_eqb name "RemoveDiacritics"%u then PP_RemoveDiacritics else
  if str_eqb name "RemoveDiacriticsTamil"%u then PP_RemoveDiacriticsTamil else
  if str_eqb name "RemoveSchwa"%u then [Raise TypeError] else
  if str_eqb name "RephaDoubleMalayalam"%u then PP_RephaDoubleMalayalam else
  if str_eqb name "RetainDandasIndic"%u then [Raise TypeError] else
  if str_eqb name "RetainGujaratiDanda"%u then PP_RetainGujaratiDanda else
  if str_eqb name "RetainGurmukhiNumerals"%u then PP_RetainGurmukhiNumerals else
  if str_eqb name "RetainIndicNumerals"%u then [Raise TypeError] else
  if str_eqb name "RetainKannadaDanda"%u then PP_RetainKannadaDanda else
  if str_eqb name "RetainKannadaNumerals"%u then PP_RetainKannadaNumerals else
  if str_eqb name "RetainMalayalamDanda"%u then PP_RetainMalayalamDanda else
  if str_eqb name "RetainMalayalamNumerals"%u then PP_RetainMalayalamNumerals else
  if str_eqb name "RetainRomanNumerals"%u then [Raise TypeError] else
  if str_eqb name "RetainTamilDanda"%u then PP_RetainTamilDanda else
  if str_eqb name "RetainTamilNumerals"%u then PP_RetainTamilNumerals else
  if str_eqb name "RetainTeluguDanda"%u then PP_RetainTeluguDanda else
  if str_eqb name "RetainTeluguNumerals"%u then PP_RetainTeluguNumerals else
  if str_eqb name "ReverseGeminationSign"%u then [Raise TypeError] else
  if str_eqb name "RomanLoCChandrabindu"%u then PP_RomanLoCChandrabindu else
  if str_eqb name "RomanLoCLaUnderscoreDoubleDot"%u then PP_RomanLoCLaUnderscoreDoubleDot else
  if str_eqb name "RomanLoCSLaDotLaUnderscore"%u then PP_RomanLoCSLaDotLaUnderscore else
  if str_eqb name "RomanLoCSasha"%u then PP_RomanLoCSasha else
  if str_eqb name "RomanLoCVaWa"%u then PP_RomanLoCVaWa else
  if str_eqb name "RomanReadableLongEO"%u then PP_RomanReadableLongEO else
  if str_eqb name "SaurashtraHaru"%u then PP_SaurashtraHaru else
  if str_eqb name "SaurastraHaaruColon"%u then PP_SaurastraHaaruColon else
  if str_eqb name "ShanLoCRomanLoCSource"%u then PP_ShanLoCRomanLoCSource else
  if str_eqb name "ShanLoCRomanLoCTarget"%u then PP_ShanLoCRomanLoCTarget else
  if str_eqb name "ShowSchwaHindi"%u then PP_ShowSchwaHindi else
  if str_eqb name "SinhalaChandrbinduAnusvara"%u then PP_SinhalaChandrbinduAnusvara else
  if str_eqb name "SinhalaConjuncts"%u then PP_SinhalaConjuncts else
  if str_eqb name "SinhalaDefaultConjuncts"%u then PP_SinhalaDefaultConjuncts else
  if str_eqb name "SinhalaPali"%u then PP_SinhalaPali false else
  if str_eqb name "SinhalaSannakaNasalization"%u then PP_SinhalaSannakaNasalization else
  if str_eqb name "SogdReshAyin"%u then PP_SogdReshAyin else
  if str_eqb name "SogoReshAyinDaleth"%u then PP_SogoReshAyinDaleth else
  if str_eqb name "SoyomboFinals"%u then PP_SoyomboFinals else
  if str_eqb name "SoyomboInitials"%u then PP_SoyomboInitials else
  if str_eqb name "SoyomboSanskritPalatals"%u then PP_SoyomboSanskritPalatals else
  if str_eqb name "SoyomboSpaceTscheg"%u then PP_SoyomboSpaceTscheg else
  if str_eqb name "SoyomboSyllabize"%u then PP_SoyomboSyllabize else
  if str_eqb name "SundaneseHistoricConjuncts"%u then PP_SundaneseHistoricConjuncts false else
  if str_eqb name "SundaneseRemoveHistoric"%u then PP_SundaneseRemoveHistoric else
  if str_eqb name "TaiKuen"%u then PP_TaiKuen else
  if str_eqb name "TaiThamHighNga"%u then PP_TaiThamHighNga else
  if str_eqb name "TaiThamLao"%u then PP_TaiThamLao else
  if str_eqb name "TaiThamMoveNnga"%u then PP_TaiThamMoveNnga else
  if str_eqb name "TaiThamO"%u then PP_TaiThamO else
  if str_eqb name "TakriArchaicKha"%u then PP_TakriArchaicKha else
  if str_eqb name "TakriRemoveGemination"%u then PP_TakriRemoveGemination else
  if str_eqb name "TamilAddFirstVarga"%u then PP_TamilAddFirstVarga else
  if str_eqb name "TamilDisableSHA"%u then PP_TamilDisableSHA else
  if str_eqb name "TamilExtendedAnusvara"%u then PP_TamilExtendedAnusvara else
  if str_eqb name "TamilExtendedNNA"%u then PP_TamilExtendedNNA else
  if str_eqb name "TamilGranthaVisarga"%u then PP_TamilGranthaVisarga else
  if str_eqb name "TamilNaToNNa"%u then PP_TamilNaToNNa else
  if str_eqb name "TamilOmDisable"%u then PP_TamilOmDisable else
  if str_eqb name "TamilRemoveApostrophe"%u then PP_TamilRemoveApostrophe else
  if str_eqb name "TamilRemoveNumbers"%u then PP_TamilRemoveNumbers else
  if str_eqb name "TamilSHADisable"%u then PP_TamilSHADisable else
  if str_eqb name "TamilStyleUUCore"%u then PP_TamilStyleUUCore else
  if str_eqb name "TamilStyleUUOther"%u then PP_TamilStyleUUOther else
  if str_eqb name "TamilSubScript"%u then PP_TamilSubScript else
  if str_eqb name "TamilpredictDentaNa"%u then PP_TamilpredictDentaNa else
  if str_eqb name "TamilpredictDentaNaExtended"%u then PP_TamilpredictDentaNaExtended else
  if str_eqb name "TeluguArasunnaChandrabindu"%u then PP_TeluguArasunnaChandrabindu else
  if str_eqb name "TeluguNakaraPollu"%u then PP_TeluguNakaraPollu else
  if str_eqb name "TeluguRemoveAeAo"%u then PP_TeluguRemoveAeAo else
  if str_eqb name "TeluguRemoveNukta"%u then PP_TeluguRemoveNukta else
  if str_eqb name "TeluguReph"%u then PP_TeluguReph else
  if str_eqb name "TeluguTamilRra"%u then PP_TeluguTamilRra else
  if str_eqb name "TeluguTamilZha"%u then PP_TeluguTamilZha else
  if str_eqb name "ThaanaRemoveHistorical"%u then PP_ThaanaRemoveHistorical else
  if str_eqb name "ThaiLaoTranscription"%u then [Raise TypeError] else
  if str_eqb name "ThaiNativeConsonants"%u then PP_ThaiNativeConsonants else
  if str_eqb name "ThaiSajjhayaOrthography"%u then PP_ThaiSajjhayaOrthography "Thai"%u else
  if str_eqb name "ThaiSajjhayawithA"%u then PP_ThaiSajjhayawithA else
  if str_eqb name "ThaiTranscription"%u then PP_ThaiTranscription true else
  if str_eqb name "ThaiVisargaSaraA"%u then PP_ThaiVisargaSaraA else
  if str_eqb name "ThamLoCRomanLoCSource"%u then PP_ThamLoCRomanLoCSource else
  if str_eqb name "ThamLoCRomanLoCTarget"%u then PP_ThamLoCRomanLoCTarget else
  if str_eqb name "ThamShiftMaiKangLai"%u then PP_ThamShiftMaiKangLai else
  if str_eqb name "ThamTallADisable"%u then PP_ThamTallADisable else
  if str_eqb name "ThamTallAOthers"%u then PP_ThamTallAOthers else
  if str_eqb name "TibetanLoCRomanLoCFix"%u then PP_TibetanLoCRomanLoCFix else
  if str_eqb name "TibetanNada"%u then PP_TibetanNada else
  if str_eqb name "TibetanRemoveBa"%u then PP_TibetanRemoveBa else
  if str_eqb name "TibetanRemoveVirama"%u then PP_TibetanRemoveVirama else
  if str_eqb name "TibetanSanskritPalatals"%u then PP_TibetanSanskritPalatals else
  if str_eqb name "TibetanSyllabize"%u then PP_TibetanSyllabize else
  if str_eqb name "TibetanTsheg"%u then PP_TibetanTsheg else
  if str_eqb name "UrduAlternateUU"%u then PP_UrduAlternateUU else
  if str_eqb name "UrduRemoveShortVowels"%u then PP_UrduRemoveShortVowels else
  if str_eqb name "UseAlternateI1"%u then PP_UseAlternateI1 else
  if str_eqb name "UseAlternateI2"%u then PP_UseAlternateI2 else
  if str_eqb name "UseAlternateII"%u then PP_UseAlternateII else
  if str_eqb name "UseAlternateU"%u then PP_UseAlternateU else
  if str_eqb name "UseAlternateVSU"%u then PP_UseAlternateVSU else
  if str_eqb name "UseAlternateVSUU"%u then PP_UseAlternateVSUU else
  if str_eqb name "UseAlternateYA"%u then PP_UseAlternateYA else
  if str_eqb name "UseAlternateo1"%u then PP_UseAlternateo1 else
  if str_eqb name "UseAlternateo2"%u then PP_UseAlternateo2 else
  if str_eqb name "VaToBa"%u then [Raise TypeError] else
  if str_eqb name "WarangCitiModernOrthogaphy"%u then PP_WarangCitiModernOrthogaphy else
  if str_eqb name "YYAEverywhere"%u then [Raise TypeError] else
  if str_eqb name "YaToYYa"%u then [Raise TypeError] else
  if str_eqb name "ZanabazarSanskritPalatals"%u then PP_ZanabazarSanskritPalatals else
  if str_eqb name "ZanabazarSquareAiAu"%u then PP_ZanabazarSquareAiAu else
  if str_eqb name "ZanabazarSquareContextual"%u then PP_ZanabazarSquareContextual else
  if str_eqb name "ZanabazarSquareMongolianFinal"%u then PP_ZanabazarSquareMongolianFinal else
  if str_eqb name "ZanzabarSpaceTsheg"%u then PP_ZanzabarSpaceTsheg else
  if str_eqb name "alephAyinLatnAlternate"%u then PP_alephAyinLatnAlternate else
  if str_eqb name "alephAyinLatnAlternate2"%u then PP_alephAyinLatnAlternate2 else
  if str_eqb name "arabChaSa"%u then PP_arabChaSa else
  if str_eqb name "arabPaFa"%u then PP_arabPaFa else
  if str_eqb name "arabicRemoveAdditionsPhonetic"%u then PP_arabicRemoveAdditionsPhonetic else
  if str_eqb name "arabizeLatn"%u then PP_arabizeLatn "semitic"%u else
  if str_eqb name "archaicAIAU"%u then PP_archaicAIAU else
  if str_eqb name "capitalizeSentence"%u then PP_capitalizeSentence else
  if str_eqb name "default"%u then PP_default [] else
  if str_eqb name "devanagaribalbodh"%u then PP_devanagaribalbodh else
  if str_eqb name "devanagarijain"%u then PP_devanagarijain else
  if str_eqb name "devanagarinepali"%u then PP_devanagarinepali else
  if str_eqb name "devanagariuttara"%u then PP_devanagariuttara else
  if str_eqb name "dotReph"%u then PP_dotReph else
  if str_eqb name "easternsyriac"%u then PP_easternsyriac else
  if str_eqb name "egrantamil"%u then PP_egrantamil else
  if str_eqb name "estrangelasyriac"%u then PP_estrangelasyriac else
  if str_eqb name "gainGimel"%u then PP_gainGimel else
  if str_eqb name "granthafinal"%u then PP_granthafinal else
  if str_eqb name "granthaserif"%u then PP_granthaserif else
  if str_eqb name "hebraizeLatn"%u then PP_hebraizeLatn "semitic"%u else
  if str_eqb name "historicChillu"%u then PP_historicChillu else
  if str_eqb name "indicDandas"%u then PP_indicDandas else
  if str_eqb name "indicNumerals"%u then PP_indicNumerals else
  if str_eqb name "inherentAO"%u then PP_inherentAO else
  if str_eqb name "insertARomanSemitic"%u then PP_insertARomanSemitic else
  if str_eqb name "jainomDevangari"%u then PP_jainomDevangari else
  if str_eqb name "kawitan"%u then PP_kawitan else
  if str_eqb name "khandatabatova"%u then PP_khandatabatova else
  if str_eqb name "mDotAboveToBelow"%u then PP_mDotAboveToBelow else
  if str_eqb name "mDotBelowToAbove"%u then PP_mDotBelowToAbove else
  if str_eqb name "nepaldevafont"%u then PP_nepaldevafont else
  if str_eqb name "noLongEO"%u then PP_noLongEO else
  if str_eqb name "olddogra"%u then PP_olddogra else
  if str_eqb name "oldtamilortho"%u then PP_oldtamilortho else
  if str_eqb name "persianPaGaFaJa"%u then PP_persianPaGaFaJa else
  if str_eqb name "ranjanalantsa"%u then PP_ranjanalantsa else
  if str_eqb name "ranjanawartu"%u then PP_ranjanawartu else
  if str_eqb name "readableItrans"%u then PP_readableItrans else
  if str_eqb name "removeDiacritics"%u then PP_removeDiacritics else
  if str_eqb name "removeDiacriticsArabic"%u then PP_removeDiacriticsArabic else
  if str_eqb name "removeDiacriticsPersian"%u then PP_removeDiacriticsPersian else
  if str_eqb name "removeDiacriticsSyriac"%u then PP_removeDiacriticsSyriac else
  if str_eqb name "removeMajliyana"%u then PP_removeMajliyana else
  if str_eqb name "removeNikkud"%u then PP_removeNikkud else
  if str_eqb name "removePaliAhom"%u then PP_removePaliAhom else
  if str_eqb name "removeQussaya"%u then PP_removeQussaya else
  if str_eqb name "removeRukkaka"%u then PP_removeRukkaka else
  if str_eqb name "removeSegmentSpacesBurmese"%u then PP_removeSegmentSpacesBurmese else
  if str_eqb name "removeSemiticLetters"%u then PP_removeSemiticLetters else
  if str_eqb name "removeSukunEnd"%u then PP_removeSukunEnd else
  if str_eqb name "removeVowelsSyriac"%u then PP_removeVowelsSyriac else
  if str_eqb name "removetddash"%u then PP_removetddash else
  if str_eqb name "romanFullStop"%u then PP_romanFullStop else
  if str_eqb name "romanNumerals"%u then PP_romanNumerals else
  if str_eqb name "siddhamBija"%u then PP_siddhamBija else
  if str_eqb name "siddhamap"%u then PP_siddhamap else
  if str_eqb name "siddhammukta"%u then PP_siddhammukta else
  if str_eqb name "sundapura"%u then PP_sundapura else
  if str_eqb name "swapEe"%u then PP_swapEe else
  if str_eqb name "swapEeItrans"%u then PP_swapEeItrans else
  if str_eqb name "syriacRoman"%u then PP_syriacRoman else
  if str_eqb name "syriacVowelsBelow"%u then PP_syriacVowelsBelow else
  if str_eqb name "syriacWesternOToU"%u then PP_syriacWesternOToU else
  if str_eqb name "syricizeLatn"%u then PP_syricizeLatn "semitic"%u else
  if str_eqb name "tavThreedot"%u then PP_tavThreedot else
  if str_eqb name "tavTwodot"%u then PP_tavTwodot else
  if str_eqb name "tbadiff"%u then [Raise TypeError] else
  if str_eqb name "tibetandbumed"%u then PP_tibetandbumed else
  if str_eqb name "tokushuon"%u then PP_tokushuon else
  if str_eqb name "tradOrtho"%u then PP_tradOrtho else
  if str_eqb name "urduRemoveInherent"%u then PP_urduRemoveInherent else
  if str_eqb name "urduizeLatn"%u then PP_urduizeLatn "semitic"%u else
  if str_eqb name "useKtivMale"%u then PP_useKtivMale else
  if str_eqb name "verticalKana"%u then PP_verticalKana else
  if str_eqb name "verticalSiddham"%u then PP_verticalSiddham else
  if str_eqb name "vtobJapanese"%u then PP_vtobJapanese else
  if str_eqb name "westernsyriac"%u then PP_westernsyriac else
  if str_eqb name "JapanesePostProcess"%u then [Raise TypeError] else
  if str_eqb name "defaultPost"%u then [Raise TypeError] else
  [Raise AttributeError].

(** PostOptions.py:114 getattr(PP, name)(Strng, Target) *)
Definition PP_call_Target (name : str) (Target : str) : prog :=
  if str_eqb name "NasalToAnusvara"%u then PP_NasalToAnusvara Target else
  if str_eqb name "MToAnusvara"%u then PP_MToAnusvara Target else
  if str_eqb name "AnusvaraToNasal"%u then PP_AnusvaraToNasal Target else
  if str_eqb name "YaToYYa"%u then PP_YaToYYa Target else
  if str_eqb name "VaToBa"%u then PP_VaToBa Target else
  [Raise AttributeError].
