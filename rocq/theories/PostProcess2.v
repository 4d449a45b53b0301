(** * PostProcess functions, part 2 (GENERATED by tools/py2coq.py from
    aksharamukha/PostProcess.py; do not edit). *)
From Coq Require Import List NArith ZArith Bool.
From Verif Require Import PyStr Regex Unicode Prog GMLists GeneralMap FixNum PostProcess1 ConvertFix1 PreProcess1.
Import ListNotations.
Local Open Scope list_scope.

(** aksharamukha/PostProcess.py:93-96  def ShowSchwaHindi(Strng) *)
Definition PP_ShowSchwaHindi : prog :=
  (PrP_RemoveSchwaHindi true).

(** aksharamukha/PostProcess.py:3372-3405  def ThaiTranscription(Strng, anusvaraChange=True) *)
Definition PP_ThaiTranscription (anusvaraChange : bool) : prog :=
  (CF_ThaiReverseVowelSigns true)
  ++ (CF_ThaiDigraphConjuncts true)
  ++ (CF_ThaiReverseVowelSigns false)
  ++ (PP_ThaiLaoTranscription "Thai"%u "ะ"%u [0xE31]%N false anusvaraChange)
  ++ [Replace "ะ์"%u [0xE4C]%N]
  ++ [Replace "ะงัง"%u [0xE31; 0xE07; 0xE4D]%N].

(** aksharamukha/PostProcess.py:1528-1560  def ThaiNativeConsonants(Strng) *)
Definition PP_ThaiNativeConsonants : prog :=
  [Replace "ท"%u "ด"%u]
  ++ [Replace "พ"%u "บ"%u]
  ++ [Replace [0xE36]%N [0xE34; 0xE4D]%N]
  ++ [Replace [0xE4D]%N "งฺ"%u]
  ++ [ReSub "(ฺ)([ยรลวห])"%u ([0x35C]%N ++ "\2"%u)]
  ++ [Replace "หฺ"%u "ห͜"%u]
  ++ [ReSub (("([ยรลวห])"%u ++ [0x35C]%N) ++ "\1"%u) (("\1"%u ++ [0xE3A]%N) ++ "\1"%u)]
  ++ [ReSub "(า)(.)(ฺ)"%u ([0xE47]%N ++ "\1\2\3"%u)]
  ++ [ReSub "([เโ])(.)(.)(ฺ)"%u (("\1\2"%u ++ [0xE47]%N) ++ "\3\4"%u)]
  ++ (PP_ThaiTranscription false)
  ++ [Replace "ะ͜"%u [0x35C]%N]
  ++ [Replace "ะ็"%u [0xE47]%N]
  ++ [ReSub "([เโไ])(.)(͜)(.)([ะั])"%u "\1\2\3\4"%u]
  ++ [Replace "ค"%u "ก̥"%u]
  ++ [Replace "ช"%u "จ̥"%u]
  ++ [Replace [0xE4D]%N "ง"%u]
  ++ [Replace "ง"%u "งํ"%u]
  ++ [Replace "ะงํ͜"%u [0xE31; 0xE07; 0xE4D]%N]
  ++ [ReSub "([เโไ])(งํ)([าัะ])"%u (("\1"%u ++ "ง"%u) ++ "\2"%u)]
  ++ [ReSub "([เโไ])(งํ)"%u ("\1"%u ++ "ง"%u)]
  ++ [ReSub "(งํ)([าัะ])"%u ("ง"%u ++ "\2"%u)].

(** aksharamukha/PostProcess.py:3320-3369  def ThaiSajjhayaOrthography(Strng, Script='Thai') *)
Definition PP_ThaiSajjhayaOrthography (Script : str) : prog :=
  (CF_ThaiReverseVowelSigns true)
  ++ (CF_ThaiDigraphConjuncts true)
  ++ (CF_ThaiReverseVowelSigns false)
  ++ (if (str_eqb Script "Thai"%u) then ([Replace [0xE3A]%N [0xE4C]%N]) else ([]))
  ++ (if (str_eqb Script "LaoPali"%u) then ([Replace [0xEBA]%N [0xE4C]%N]) else ([]))
  ++ (let! v1 := CrunchSymbols GM_Consonants Script in
  let! v2 := CrunchList "VowelMap"%u Script in
  let cons_ := (join "|"%u (v1 ++ (slice v2 (Some (0)%Z) (Some (1)%Z)))) in
  let! v3 := CrunchList "VowelSignMap"%u Script in
  let! v4 := CrunchList "SinhalaVowelSignMap"%u Script in
  let EAIO := (join [] ((slice v3 (Some (9)%Z) (Some (12)%Z)) ++ (slice v4 None None))) in
  [ReSub ((((((((("(?<!["%u ++ EAIO) ++ "])"%u) ++ "("%u) ++ cons_) ++ ")"%u) ++ "("%u) ++ cons_) ++ ")"%u) ++ "(์)"%u) (("\1"%u ++ [0xE31]%N) ++ "\2\3"%u)]
  ++ (if (str_eqb Script "Thai"%u) then (let cons_others := "([ยรลวศษสหฬ])"%u in
  (if (str_eqb Script "LaoPali"%u) then (let cons_others := "([ຍຣລວຨຩສຫຬ])"%u in
  [ReSub ((((((((("(?<!["%u ++ EAIO) ++ "])"%u) ++ "("%u) ++ cons_) ++ ")"%u) ++ "("%u) ++ cons_) ++ ")"%u) ++ "(์)"%u) (("\1"%u ++ [0xE31]%N) ++ "\2\3"%u)]
  ++ [ReSub ((((((("("%u ++ cons_) ++ ")"%u) ++ "(์)"%u) ++ "(["%u) ++ EAIO) ++ "]?)"%u) ++ cons_others) (("\1"%u ++ [0xE4E]%N) ++ "\3\4"%u)]
  ++ [ReSub (((((((cons_others ++ "(์)"%u) ++ "(["%u) ++ EAIO) ++ "]?)"%u) ++ "("%u) ++ cons_) ++ ")"%u) (("\1"%u ++ [0xE4E]%N) ++ "\3\4"%u)]
  ++ [ReSub (((((cons_others ++ "(๎)"%u) ++ "(["%u) ++ EAIO) ++ "]?)"%u) ++ "\1"%u) (("\1"%u ++ [0xE4C]%N) ++ "\3\1"%u)]
  ++ [ReSub ((((((((("("%u ++ cons_) ++ ")"%u) ++ "(๎)"%u) ++ "(["%u) ++ EAIO) ++ "])"%u) ++ "("%u) ++ cons_) ++ ")"%u) "\3\1\2\4"%u]
  ++ (if (str_eqb Script "Thai"%u) then ([Replace "ง์"%u "ง"%u]
  ++ [ReSub "(ั)(.)(๎)"%u "\2\3"%u]) else ([]))
  ++ (if (str_eqb Script "LaoPali"%u) then ([Replace [0xE31]%N [0xEB1]%N]
  ++ [Replace "ງ์"%u "ງ"%u]
  ++ [Replace [0xE4C]%N [0xECC]%N]
  ++ [ReSub "(ັ)(.)(๎)"%u "\2\3"%u]
  ++ [Replace [0xE4E]%N [0xECE]%N]) else ([]))) else ([ReSub ((((((((("(?<!["%u ++ EAIO) ++ "])"%u) ++ "("%u) ++ cons_) ++ ")"%u) ++ "("%u) ++ cons_) ++ ")"%u) ++ "(์)"%u) (("\1"%u ++ [0xE31]%N) ++ "\2\3"%u)]
  ++ [ReSub ((((((("("%u ++ cons_) ++ ")"%u) ++ "(์)"%u) ++ "(["%u) ++ EAIO) ++ "]?)"%u) ++ cons_others) (("\1"%u ++ [0xE4E]%N) ++ "\3\4"%u)]
  ++ [ReSub (((((((cons_others ++ "(์)"%u) ++ "(["%u) ++ EAIO) ++ "]?)"%u) ++ "("%u) ++ cons_) ++ ")"%u) (("\1"%u ++ [0xE4E]%N) ++ "\3\4"%u)]
  ++ [ReSub (((((cons_others ++ "(๎)"%u) ++ "(["%u) ++ EAIO) ++ "]?)"%u) ++ "\1"%u) (("\1"%u ++ [0xE4C]%N) ++ "\3\1"%u)]
  ++ [ReSub ((((((((("("%u ++ cons_) ++ ")"%u) ++ "(๎)"%u) ++ "(["%u) ++ EAIO) ++ "])"%u) ++ "("%u) ++ cons_) ++ ")"%u) "\3\1\2\4"%u]
  ++ (if (str_eqb Script "Thai"%u) then ([Replace "ง์"%u "ง"%u]
  ++ [ReSub "(ั)(.)(๎)"%u "\2\3"%u]) else ([]))
  ++ (if (str_eqb Script "LaoPali"%u) then ([Replace [0xE31]%N [0xEB1]%N]
  ++ [Replace "ງ์"%u "ງ"%u]
  ++ [Replace [0xE4C]%N [0xECC]%N]
  ++ [ReSub "(ັ)(.)(๎)"%u "\2\3"%u]
  ++ [Replace [0xE4E]%N [0xECE]%N]) else ([]))))) else ((if (str_eqb Script "LaoPali"%u) then (let cons_others := "([ຍຣລວຨຩສຫຬ])"%u in
  [ReSub ((((((((("(?<!["%u ++ EAIO) ++ "])"%u) ++ "("%u) ++ cons_) ++ ")"%u) ++ "("%u) ++ cons_) ++ ")"%u) ++ "(์)"%u) (("\1"%u ++ [0xE31]%N) ++ "\2\3"%u)]
  ++ [ReSub ((((((("("%u ++ cons_) ++ ")"%u) ++ "(์)"%u) ++ "(["%u) ++ EAIO) ++ "]?)"%u) ++ cons_others) (("\1"%u ++ [0xE4E]%N) ++ "\3\4"%u)]
  ++ [ReSub (((((((cons_others ++ "(์)"%u) ++ "(["%u) ++ EAIO) ++ "]?)"%u) ++ "("%u) ++ cons_) ++ ")"%u) (("\1"%u ++ [0xE4E]%N) ++ "\3\4"%u)]
  ++ [ReSub (((((cons_others ++ "(๎)"%u) ++ "(["%u) ++ EAIO) ++ "]?)"%u) ++ "\1"%u) (("\1"%u ++ [0xE4C]%N) ++ "\3\1"%u)]
  ++ [ReSub ((((((((("("%u ++ cons_) ++ ")"%u) ++ "(๎)"%u) ++ "(["%u) ++ EAIO) ++ "])"%u) ++ "("%u) ++ cons_) ++ ")"%u) "\3\1\2\4"%u]
  ++ (if (str_eqb Script "Thai"%u) then ([Replace "ง์"%u "ง"%u]
  ++ [ReSub "(ั)(.)(๎)"%u "\2\3"%u]) else ([]))
  ++ (if (str_eqb Script "LaoPali"%u) then ([Replace [0xE31]%N [0xEB1]%N]
  ++ [Replace "ງ์"%u "ງ"%u]
  ++ [Replace [0xE4C]%N [0xECC]%N]
  ++ [ReSub "(ັ)(.)(๎)"%u "\2\3"%u]
  ++ [Replace [0xE4E]%N [0xECE]%N]) else ([]))) else ([ReSub ((((((((("(?<!["%u ++ EAIO) ++ "])"%u) ++ "("%u) ++ cons_) ++ ")"%u) ++ "("%u) ++ cons_) ++ ")"%u) ++ "(์)"%u) (("\1"%u ++ [0xE31]%N) ++ "\2\3"%u)]
  ++ (let! v5 := Err NameError : res str in
  [ReSub ((((((("("%u ++ cons_) ++ ")"%u) ++ "(์)"%u) ++ "(["%u) ++ EAIO) ++ "]?)"%u) ++ v5) (("\1"%u ++ [0xE4E]%N) ++ "\3\4"%u)]
  ++ (let! v6 := Err NameError : res str in
  [ReSub (((((((v6 ++ "(์)"%u) ++ "(["%u) ++ EAIO) ++ "]?)"%u) ++ "("%u) ++ cons_) ++ ")"%u) (("\1"%u ++ [0xE4E]%N) ++ "\3\4"%u)]
  ++ (let! v7 := Err NameError : res str in
  [ReSub (((((v7 ++ "(๎)"%u) ++ "(["%u) ++ EAIO) ++ "]?)"%u) ++ "\1"%u) (("\1"%u ++ [0xE4C]%N) ++ "\3\1"%u)]
  ++ [ReSub ((((((((("("%u ++ cons_) ++ ")"%u) ++ "(๎)"%u) ++ "(["%u) ++ EAIO) ++ "])"%u) ++ "("%u) ++ cons_) ++ ")"%u) "\3\1\2\4"%u]
  ++ (if (str_eqb Script "Thai"%u) then ([Replace "ง์"%u "ง"%u]
  ++ [ReSub "(ั)(.)(๎)"%u "\2\3"%u]) else ([]))
  ++ (if (str_eqb Script "LaoPali"%u) then ([Replace [0xE31]%N [0xEB1]%N]
  ++ [Replace "ງ์"%u "ງ"%u]
  ++ [Replace [0xE4C]%N [0xECC]%N]
  ++ [ReSub "(ັ)(.)(๎)"%u "\2\3"%u]
  ++ [Replace [0xE4E]%N [0xECE]%N]) else ([])))))))))).

(** aksharamukha/PostProcess.py:2081-2094  def ThaiSajjhayawithA(Strng) *)
Definition PP_ThaiSajjhayawithA : prog :=
  (PP_ThaiSajjhayaOrthography "Thai"%u)
  ++ [Replace [0xE31; 0xE07]%N [0xE31; 0xE07; 0xE3A]%N]
  ++ (PP_ThaiTranscription true)
  ++ [Replace "ะํ"%u [0xE4D]%N]
  ++ [Replace "ะั"%u [0xE31]%N]
  ++ [Replace "ะ๎"%u [0xE4E]%N]
  ++ [ReSub "([เโไ])(.๎)([ยรลวศษสหฬ])ะ"%u "\1\2\3"%u]
  ++ [Replace "าํ"%u "ำ"%u]
  ++ [Replace [0xE34; 0xE4D]%N [0xE36]%N].

(** aksharamukha/PostProcess.py:2096-2101  def LaoSajjhaya(Strng) *)
Definition PP_LaoSajjhaya : prog :=
  (PP_ThaiSajjhayaOrthography "LaoPali"%u)
  ++ [ReSub [0x28; 0x5B; 0xEC0; 0xEC2; 0xEC4; 0x5D; 0x29; 0x28; 0x2E; 0x29; 0x28; 0xECE; 0x29]%N "\2\3\1"%u].

(** aksharamukha/PostProcess.py:2103-2126  def LaoSajjhayawithA(Strng) *)
Definition PP_LaoSajjhayawithA : prog :=
  PP_LaoSajjhaya
  ++ [Replace [0xECE]%N [0xE4E]%N]
  ++ [Replace [0xEB1; 0xE87]%N [0xEB1; 0xE87; 0xEBA]%N]
  ++ (CF_LaoPaliTranscribe false true)
  ++ [Replace "ະໍ"%u [0xECD]%N]
  ++ [Replace "ະັ"%u [0xEB1]%N]
  ++ [Replace "ະ๎"%u [0xE4E]%N]
  ++ [Replace "ະ໌"%u [0xECC]%N]
  ++ [Replace "ະົ"%u [0xEBB]%N]
  ++ [ReSub "([ເໂໄ])(.๎)([ຍຣລວຨຩສຫຬ])ະ"%u "\1\2\3"%u]
  ++ [Replace "າໍ"%u "ຳ"%u]
  ++ [Replace [0xE4E]%N [0xECE]%N].

(** aksharamukha/PostProcess.py:3008-3020  def TamilAddFirstVarga(Strng) *)
Definition PP_TamilAddFirstVarga : prog :=
  let! v1 := CrunchList "ConsonantMap"%u "Tamil"%u in
  let CM := v1 in
  let! v3 := mapR (fun x => do v2 <- idx CM x; Ok v2) [(0)%Z; (5)%Z; (10)%Z; (15)%Z; (20)%Z] in
  let ConUnVoiced := (join "|"%u v3) in
  let SuperSubScript := (join "|"%u ["²"%u; "³"%u; "⁴"%u; "₂"%u; "₃"%u; "₄"%u]) in
  [ReSub ((((("("%u ++ ConUnVoiced) ++ ")"%u) ++ "(?!"%u) ++ SuperSubScript) ++ ")"%u) ("\1"%u ++ "¹"%u)]
  ++ (CF_ShiftDiacritics "Tamil"%u false)
  ++ [ReSub ((("¹"%u ++ "(?="%u) ++ SuperSubScript) ++ ")"%u) []].

(** aksharamukha/PostProcess.py:3206-3211  def LaoTranscription(Strng) *)
Definition PP_LaoTranscription : prog :=
  (CF_LaoPaliTranscribe false true)
  ++ [Replace "ະ໌"%u [0xECC]%N].

(** aksharamukha/PostProcess.py:3231-3250  def LaoPhonetic(Strng) *)
Definition PP_LaoPhonetic : prog :=
  [ReSub "(຺)([ໂເໄ]?)([ຍຣລວຫ])"%u ([0x35C]%N ++ "\2\3"%u)]
  ++ [ReSub ((("([ຍຣລວຫ])"%u ++ [0x35C]%N) ++ "([ໂເໄ]?)"%u) ++ "\1"%u) (("\1"%u ++ [0xEBA]%N) ++ "\2\1"%u)]
  ++ [Replace "ຫ຺"%u "ຫ͜"%u]
  ++ [ReSub (("([ຍຣລວຫ])"%u ++ [0x35C]%N) ++ "\1"%u) (("\1"%u ++ [0xEBA]%N) ++ "\1"%u)]
  ++ PP_LaoTranscription
  ++ [Replace "ະ͜"%u [0x35C]%N]
  ++ [Replace "ງ"%u "ງໍ"%u]
  ++ [Replace "ທ"%u "ດ"%u]
  ++ [Replace "ພ"%u "ບ"%u].

(** aksharamukha/PostProcess.py:3591-3597  def TamilDisableSHA(Strng) *)
Definition PP_TamilDisableSHA : prog :=
  [Replace "ஶ"%u "ஷ²"%u]
  ++ (CF_ShiftDiacritics "Tamil"%u false)
  ++ [Replace "ஷ்²ரீ"%u "ஶ்ரீ"%u].

