(** * ConvertFix functions, part 1 (GENERATED by tools/py2coq.py from
    aksharamukha/ConvertFix.py; do not edit). *)
From Coq Require Import List NArith ZArith Bool.
From Verif Require Import PyStr Regex Unicode Prog GMLists GeneralMap FixNum PostProcess1.
Import ListNotations.
Local Open Scope list_scope.

(** aksharamukha/ConvertFix.py:20-24  def OriyaIPAFixPre(Strng) *)
Definition CF_OriyaIPAFixPre : prog :=
  [Replace [0xB02]%N "ଙ୍"%u]
  ++ [Replace [0xB03]%N "ହ୍"%u].

(** aksharamukha/ConvertFix.py:26-39  def SinhalaIPAFix(Strng) *)
Definition CF_SinhalaIPAFix : prog :=
  let! v1 := CrunchSymbols GM_Consonants "IPA"%u in
  let consonants := (("("%u ++ (join "|"%u v1)) ++ ")"%u) in
  [ReSub (("^"%u ++ consonants) ++ "(ə)"%u) "\1ʌ"%u]
  ++ [ReSub (("(\s)"%u ++ consonants) ++ "(ə)"%u) "\1\2ʌ"%u]
  ++ [ReSub ((("^"%u ++ consonants) ++ consonants) ++ "(ə)"%u) "\1ʌ"%u]
  ++ [ReSub ((("(\s)"%u ++ consonants) ++ consonants) ++ "(ə)"%u) "\1\2ʌ"%u]
  ++ [ReSub (((("^"%u ++ consonants) ++ consonants) ++ consonants) ++ "(ə)"%u) "\1ʌ"%u]
  ++ [ReSub (((("(\s)"%u ++ consonants) ++ consonants) ++ consonants) ++ "(ə)"%u) "\1\2ʌ"%u].

(** aksharamukha/ConvertFix.py:41-62  def OriyaIPAFix(Strng) *)
Definition CF_OriyaIPAFix : prog :=
  [Replace "ə"%u "ɔ"%u]
  ++ [Replace "j"%u "d͡ʒ"%u]
  ++ [Replace "ẏ"%u "j"%u]
  ++ [Replace "kʂ"%u "kʰ"%u]
  ++ [Replace "ʂ"%u "s̪"%u]
  ++ [Replace "ʃ"%u "s̪"%u]
  ++ [Replace "ʋ"%u "u̯"%u]
  ++ [Replace "t͡s"%u "t͡ʃ"%u]
  ++ [Replace "ɪ"%u "i"%u]
  ++ [Replace "iː"%u "i"%u]
  ++ [Replace "uː"%u "u"%u]
  ++ [Replace "eː"%u "e"%u]
  ++ [Replace "oː"%u "o"%u]
  ++ [Replace "ɾɨ"%u "ɾu"%u]
  ++ [Replace "ɾɨː"%u "ɾu"%u]
  ++ [Replace "lɨ"%u "lu"%u]
  ++ [Replace "lɨː"%u "lu"%u].

(** aksharamukha/ConvertFix.py:64-87  def VedicSvarasLatinIndic(Strng, Source) *)
Definition CF_VedicSvarasLatinIndic (Source : str) : prog :=
  [Replace "{\m+}"%u "ꣳ"%u]
  ++ [Replace "\m++"%u "ꣴ"%u]
  ++ [Replace "\m+"%u "ꣳ"%u]
  ++ [Replace "\`"%u "\_"%u]
  ++ [Replace "\''"%u "\"""%u]
  ++ (let! v1 := CrunchList "AyogavahaMap"%u Source in
  let Ayogavaha := v1 in
  let Svaras := ["\_"%u; "\"""%u; "\'"%u] in
  foreach Ayogavaha (fun x => 
    foreach Svaras (fun y => 
    [Replace (y ++ x) (x ++ y)]))
  ++ [Replace "\"""%u [0x1CDA]%N]
  ++ [Replace "\'"%u [0x951]%N]
  ++ [Replace "\_"%u [0x952]%N]).

(** aksharamukha/ConvertFix.py:89-96  def VedicSvarsIndicLatin(Strng) *)
Definition CF_VedicSvarsIndicLatin : prog :=
  [Replace [0x1CDA]%N "\"""%u]
  ++ [Replace [0x951]%N "\'"%u]
  ++ [Replace [0x952]%N "\_"%u]
  ++ [Replace "ꣳ"%u "\m+"%u]
  ++ [Replace "ꣴ"%u "\m++"%u].

(** aksharamukha/ConvertFix.py:98-106  def VedicSvarasOthers(Strng, Target) *)
Definition CF_VedicSvarasOthers (Target : str) : prog :=
  [Replace "\"""%u "↑↑"%u]
  ++ [Replace "\_"%u "↓"%u]
  ++ [Replace "\'"%u "↑"%u]
  ++ (let! v1 := CrunchList "AyogavahaMap"%u Target in
  let! v2 := idx v1 (1)%Z in
  let anu := v2 in
  [Replace "\m++"%u "ꣴ"%u]
  ++ [Replace "\m+"%u "ꣳ"%u]
  ++ (let! v3 := CrunchList "AyogavahaMap"%u Target in
  let Ayogavaha := v3 in
  [])).

(** aksharamukha/ConvertFix.py:108-129  def VedicSvarasDiacrtics(Strng, Target) *)
Definition CF_VedicSvarasDiacrtics (Target : str) : prog :=
  [Replace "\'"%u [0x30D]%N]
  ++ [Replace "\"""%u [0x30E]%N]
  ++ [Replace "\_"%u [0x331]%N]
  ++ [Replace "\m++"%u "gͫ̄"%u]
  ++ [Replace "\m+"%u "gͫ"%u]
  ++ (if (orb (str_eqb Target "ISO"%u) (str_eqb Target "ISOPali"%u)) then ([Replace "\’’"%u [0x30E]%N]
  ++ [Replace "\’"%u [0x30D]%N]) else ([]))
  ++ (let! v1 := CrunchList "AyogavahaMap"%u Target in
  let Ayogavaha := v1 in
  let Svaras := [[0x30D]%N; [0x30E]%N; [0x331]%N] in
  foreach Ayogavaha (fun x => 
    foreach Svaras (fun y => 
    [Replace (x ++ y) (y ++ x)]))).

(** aksharamukha/ConvertFix.py:131-148  def VedicSvarasCyrillic(Strng, Target) *)
Definition CF_VedicSvarasCyrillic (Target : str) : prog :=
  [Replace "\'"%u [0x30D]%N]
  ++ [Replace "\"""%u [0x30E]%N]
  ++ [Replace "\_"%u [0x331]%N]
  ++ [Replace "\м++"%u "г͡м"%u]
  ++ [Replace "\м+"%u "г͜м"%u]
  ++ [Replace "\m++"%u "г͡м"%u]
  ++ [Replace "\m+"%u "г͜м"%u]
  ++ (let! v1 := CrunchList "AyogavahaMap"%u Target in
  let Ayogavaha := v1 in
  let Svaras := [[0x30D]%N; [0x30E]%N; [0x331]%N] in
  foreach Ayogavaha (fun x => 
    foreach Svaras (fun y => 
    [Replace (x ++ y) (y ++ x)]))).

(** aksharamukha/ConvertFix.py:150-161  def VedicSvarasNonDiacritic(Strng) *)
Definition CF_VedicSvarasNonDiacritic : prog :=
  [Replace [0x30D]%N "\'"%u]
  ++ [Replace [0x30E]%N "\"""%u]
  ++ [Replace [0x331]%N "\_"%u]
  ++ [Replace "gͫ̄"%u "\m++"%u]
  ++ [Replace "gͫ"%u "\m+"%u]
  ++ [Replace "г͡м"%u "\m++"%u]
  ++ [Replace "г͜м"%u "\m+"%u].

(** aksharamukha/ConvertFix.py:163-227  def FixRomanOutput(Strng, Target) *)
Definition CF_FixRomanOutput (Target : str) : prog :=
  let Schwa := [0xF000]%N in
  let DepV := "ṿ"%u in
  let! v1 := CrunchSymbols GM_VowelSigns Target in
  let VowelSignList := (replace "."%u "\."%u (replace "^"%u "\^"%u (join "|"%u v1))) in
  let! v2 := CrunchSymbols GM_Vowels Target in
  let VowelList := (replace "."%u "\."%u (replace "^"%u "\^"%u (join "|"%u v2))) in
  let! v3 := CrunchSymbols ["ViramaMap"%u] Target in
  let Virama := (join [] v3) in
  let! v4 := CrunchSymbols ["NuktaMap"%u] Target in
  let Nukta := (join [] v4) in
  let! v5 := CrunchSymbols ["VowelMap"%u] Target in
  let! v6 := idx v5 (0)%Z in
  let VowelA := v6 in
  let! v7 := CrunchSymbols ["VowelMap"%u] Target in
  let! v8 := idx v7 (2)%Z in
  let! v9 := CrunchSymbols ["VowelMap"%u] Target in
  let! v10 := idx v9 (4)%Z in
  let VowelIU := (join "|"%u (chars (v8 ++ v10))) in
  let! v11 := CrunchSymbols ["ConsonantMap"%u] Target in
  let TargetCons := v11 in
  let! v12 := idx TargetCons (32)%Z in
  let ConsH := v12 in
  let! v14 := mapR (fun i => do v13 <- idx TargetCons i; Ok v13) [(0)%Z; (2)%Z; (5)%Z; (7)%Z; (10)%Z; (12)%Z; (15)%Z; (17)%Z; (20)%Z; (22)%Z] in
  let UnAspCons := (replace "."%u "\."%u (replace "^"%u "\^"%u (join "|"%u v14))) in
  (if (mem Target ["IAST"%u; "ISO"%u; "ISOPali"%u; "Titus"%u]) then ([Replace ("u"%u ++ Virama) (Virama ++ "ŭ"%u)]) else ([]))
  ++ [ReSub (((((("(?<="%u ++ Schwa) ++ DepV) ++ ")"%u) ++ "("%u) ++ VowelIU) ++ ")"%u) "_\1"%u]
  ++ [ReSub ((((("(?<=ṿ"%u ++ VowelA) ++ "ṿ)"%u) ++ "("%u) ++ VowelIU) ++ ")"%u) "_\1"%u]
  ++ [ReSub ((((((("("%u ++ UnAspCons) ++ ")("%u) ++ Schwa) ++ Virama) ++ ")("%u) ++ ConsH) ++ ")"%u) "\1_\3"%u]
  ++ [ReSub (((((("("%u ++ Schwa) ++ ")("%u) ++ Virama) ++ ")(?="%u) ++ VowelList) ++ ")"%u) "_\2"%u]
  ++ [ReSub (((("("%u ++ Schwa) ++ ")("%u) ++ Nukta) ++ ")"%u) "\2\1"%u]
  ++ [ReSub (((("("%u ++ Schwa) ++ ")(?="%u) ++ VowelSignList) ++ ")"%u) []]
  ++ [Replace Schwa VowelA]
  ++ [Replace DepV []]
  ++ [Replace Virama []].

(** aksharamukha/ConvertFix.py:229-263  def FixVedic(Strng, Target) *)
Definition CF_FixVedic (Target : str) : prog :=
  [Replace "{\m+}"%u "\m+"%u]
  ++ [Replace "\`"%u "\_"%u]
  ++ [Replace "\''"%u "\"""%u]
  ++ [Replace "\\м"%u "\м"%u]
  ++ [Replace "\\m"%u "\m"%u]
  ++ [Replace "\\'"%u "\'"%u]
  ++ [Replace "\\"""%u "\"""%u]
  ++ [Replace "\\_"%u "\_"%u]
  ++ (let vedicDiacRoman := ["IAST"%u; "IASTPali"%u; "ISO"%u; "Titus"%u; "ISOPali"%u] in
  let vedicnonDiacRoman := ["HK"%u; "Itrans"%u; "Velthuis"%u; "SLP1"%u; "WX"%u] in
  (if (mem Target vedicDiacRoman) then ((CF_VedicSvarasDiacrtics Target)) else ((if (str_eqb Target "IPA"%u) then ([Replace "\"""%u "↑↑"%u]
  ++ [Replace "\_"%u "↓"%u]
  ++ [Replace "\'"%u "↑"%u]
  ++ [Replace "\m++"%u "gͫ̄"%u]
  ++ [Replace "\m+"%u "gͫ"%u]) else ((if (orb (str_eqb Target "RomanReadable"%u) (str_eqb Target "RomanColloquial"%u)) then ([Replace "\"""%u []]
  ++ [Replace "\_"%u []]
  ++ [Replace "\'"%u []]
  ++ [Replace "\m++"%u "ggum"%u]
  ++ [Replace "\m+"%u "gum"%u]) else ((if (mem Target vedicnonDiacRoman) then ([]) else ((if (str_eqb Target "RussianCyrillic"%u) then ((CF_VedicSvarasCyrillic Target)) else ((CF_VedicSvarasOthers Target)))))))))))).

(** aksharamukha/ConvertFix.py:2873-2890  def FixIPA(Strng, reverse=False) *)
Definition CF_FixIPA (reverse : bool) : prog :=
  let colon_tilde := "ː̃"%u in
  let tilde_colon := [0x303; 0x2D0]%N in
  (if (negb reverse) then ([Replace colon_tilde tilde_colon]
  ++ [ReSub "(.)(ː?)(h)"%u ("\1\2\3\1"%u ++ [0x306]%N)]
  ++ [Replace "ə̸ə̸"%u "ɑ̷ː"%u]) else ([Replace "ɑ̷ː"%u "ə̸ə̸"%u]
  ++ [Replace tilde_colon colon_tilde]
  ++ [ReSub (("(.)(ː?)(h)"%u ++ "\1"%u) ++ [0x306]%N) "\1\2\3"%u])).

(** aksharamukha/ConvertFix.py:2385-2394  def FixSantali(Strng, reverse=False) *)
Definition CF_FixSantali (reverse : bool) : prog :=
  (if (negb reverse) then ([Replace "ᱹᱸ"%u "ᱺ"%u]
  ++ [Replace "ᱻᱸ"%u "ᱸᱻ"%u]) else ([Replace "ᱺ"%u "ᱹᱸ"%u]
  ++ [Replace "ᱽ"%u "’"%u]
  ++ [Replace "ᱸᱻ"%u "ᱻᱸ"%u])).

(** aksharamukha/ConvertFix.py:2078-2127  def FixAvestan(Strng, reverse=False) *)
Definition CF_FixAvestan (reverse : bool) : prog :=
  let extraCons := ["𐬳"%u; "𐬲"%u; "𐬝"%u; "𐬒"%u; "𐬣"%u; "𐬝"%u] in
  let! v1 := CrunchSymbols GM_Consonants "Avestan"%u in
  let ListC := (join "|"%u (v1 ++ extraCons)) in
  let! v2 := CrunchSymbols GM_Vowels "Avestan"%u in
  let ListV := (join "|"%u v2) in
  let! v3 := idx (attr "Roman"%u "Avestan"%u "ConsonantMap"%u) (25)%Z in
  let ya := v3 in
  let! v4 := idx (attr "Roman"%u "Avestan"%u "ConsonantMap"%u) (28)%Z in
  let va := v4 in
  let! v5 := idx (attr "Roman"%u "Avestan"%u "VowelMap"%u) (2)%Z in
  let ii := (repeat_list v5 (Z.to_nat (2)%Z)) in
  let! v6 := idx (attr "Roman"%u "Avestan"%u "VowelMap"%u) (4)%Z in
  let uu := (repeat_list v6 (Z.to_nat (2)%Z)) in
  (if (negb reverse) then ([Replace "𐬀𐬩"%u "𐬄"%u]
  ++ [Replace "𐬁𐬩"%u "𐬅"%u]
  ++ [ReSub ((((((((("(("%u ++ ListV) ++ ")"%u) ++ "|"%u) ++ "("%u) ++ ListC) ++ "))"%u) ++ "("%u) ++ ya) ++ ")"%u) ("\1"%u ++ ii)]
  ++ [ReSub ((((((((("(("%u ++ ListV) ++ ")"%u) ++ "|"%u) ++ "("%u) ++ ListC) ++ "))"%u) ++ "("%u) ++ va) ++ ")"%u) ("\1"%u ++ uu)]
  ++ (let! v7 := idx (attr "Roman"%u "Avestan"%u "ConsonantMap"%u) (15)%Z in
  [Replace (v7 ++ "ʿ"%u) "𐬝"%u]
  ++ [Replace (va ++ "ʿ"%u) "𐬡"%u]
  ++ [Replace "𐬰ʿ"%u "𐬲"%u]
  ++ [Replace "𐬱ʿ"%u "𐬲"%u]
  ++ [Replace "𐬢ʿ"%u "𐬤"%u]
  ++ [Replace "𐬁_𐬋"%u "𐬃"%u]
  ++ [Replace "ʿ"%u []])) else ([Replace "𐬄"%u "𐬀𐬩"%u]
  ++ [Replace "𐬅"%u "𐬁𐬩"%u]
  ++ [Replace ii ya]
  ++ [Replace uu va]
  ++ (let! v8 := idx (attr "Roman"%u "Avestan"%u "ConsonantMap"%u) (15)%Z in
  [Replace "𐬝"%u (v8 ++ "ʿ"%u)]
  ++ (let! v9 := idx (attr "Roman"%u "Avestan"%u "ConsonantMap"%u) (4)%Z in
  [Replace "𐬣"%u v9]
  ++ (let! v10 := idx (attr "Roman"%u "Avestan"%u "ConsonantMap"%u) (1)%Z in
  [Replace "𐬒"%u v10]
  ++ (let! v11 := idx (attr "Roman"%u "Avestan"%u "ConsonantMap"%u) (29)%Z in
  [Replace "𐬳"%u v11]
  ++ [Replace "𐬡"%u (va ++ "ʿ"%u)]
  ++ [Replace "𐬲"%u "𐬰ʿ"%u]
  ++ [Replace "𐬤"%u "𐬢ʿ"%u]
  ++ [Replace "𐬃"%u "𐬁_𐬋"%u])))))).

(** aksharamukha/ConvertFix.py:2396-2411  def FixSoraSompeng(Strng, reverse=False) *)
Definition CF_FixSoraSompeng (reverse : bool) : prog :=
  let! v1 := CrunchSymbols GM_Consonants "SoraSompeng"%u in
  let ListC := (("("%u ++ (join "|"%u v1)) ++ ")"%u) in
  (if (negb reverse) then ([ReSub (ListC ++ "(ə)"%u) "\1"%u]
  ++ [Replace "ə"%u "𑃦𑃨"%u]) else (let! v2 := CrunchSymbols GM_Vowels "SoraSompeng"%u in
  let ListV := (("("%u ++ (join "|"%u v2)) ++ ")"%u) in
  [ReSub (((ListC ++ "(?!"%u) ++ ListV) ++ ")"%u) ("\1"%u ++ "ə"%u)]
  ++ [Replace "𑃔ə𑃨"%u "𑃔𑃨ə"%u]
  ++ [Replace "𑃦𑃨"%u "ə"%u]
  ++ [Replace "ə𑃨"%u "𑃨"%u])).

(** aksharamukha/ConvertFix.py:2483-2535  def FixWarangCiti(Strng, reverse=False) *)
Definition CF_FixWarangCiti (reverse : bool) : prog :=
  let! v1 := CrunchSymbols GM_Consonants "WarangCiti"%u in
  let ListC := (("("%u ++ (join "|"%u v1)) ++ ")"%u) in
  let! v2 := CrunchSymbols GM_Vowels "WarangCiti"%u in
  let ListV := (("("%u ++ (join "|"%u (v2 ++ [[0x200D]%N]))) ++ ")"%u) in
  (if (negb reverse) then ([ReSub (ListC ++ ListC) (("\1"%u ++ [0x200D]%N) ++ "\2"%u)]
  ++ [ReSub (ListC ++ "(𑣁𑣙ʾ)"%u) ("\1"%u ++ "½"%u)]
  ++ [ReSub (ListC ++ "(𑣁)"%u) "\1"%u]
  ++ [ReSub (ListV ++ "(𑣀)"%u) (("\1"%u ++ [0x200D]%N) ++ "\2"%u)]
  ++ [Replace "ʾ"%u []]
  ++ [Replace "𑣟ʿ"%u "𑣙𑣗"%u]
  ++ [Replace "½"%u "𑣁"%u]
  ++ [Replace "ʿ"%u []]) else ([Lower]
  ++ [Replace "𑣙𑣗"%u "𑣟ʿ"%u]
  ++ [Replace "×"%u [0x200D]%N]
  ++ [ReSub (ListC ++ "(𑣁)"%u) ("\1"%u ++ "½"%u)]
  ++ [ReSub ("(ʿ)"%u ++ "(𑣁)"%u) ("\1"%u ++ "𑣁½"%u)]
  ++ [ReSub (((ListC ++ "(?!"%u) ++ ListV) ++ ")"%u) ("\1"%u ++ "𑣁"%u)]
  ++ [ReSub [0x28; 0x5B; 0x118D4; 0x118D5; 0x118CC; 0x118CB; 0x118CF; 0x118CE; 0x118D2; 0x118D1; 0x118D5; 0x118D4; 0x118D8; 0x118D7; 0x118DB; 0x5D; 0x29; 0x28; 0x200D; 0x29; 0x28; 0x118D9; 0x29]%N (("\1"%u ++ "Ö"%u) ++ "\3"%u)]
  ++ [Replace [0x200D]%N []]
  ++ [Replace "Ö"%u [0x200D]%N]
  ++ [ReSub (("(𑣁)"%u ++ "(ʿ)"%u) ++ ListV) "\2\3"%u]
  ++ [Replace ("𑣁"%u ++ "ʻ"%u) []]
  ++ [Replace "𑣁½"%u "𑣁𑣙ʾ"%u])).

(** aksharamukha/ConvertFix.py:819-865  def FixWancho(Strng, reverse=False) *)
Definition CF_FixWancho (reverse : bool) : prog :=
  let tonemarks := [[0x1E2EC]%N; [0x1E2ED]%N; [0x1E2EE]%N; [0x1E2EF]%N] in
  let tonewri := ["\_"%u; "\-"%u; "\!"%u; "\;"%u] in
  let nasalization := ["𞋦"%u; "𞋧"%u; "𞋨"%u; "𞋪"%u] in
  let nasvowels := ["𞋕"%u; "𞋛"%u; "𞋀"%u; "𞋞"%u] in
  let Anusvaras := ["𞋢"%u; "𞋣"%u; "𞋤"%u; "𞋥"%u] in
  let AnusvaraVowels := ["𞋕"%u; "𞋀"%u; "𞋁"%u; "𞋜"%u] in
  (if (negb reverse) then (foreach (zip tonemarks tonewri) (fun '(x, y) => 
    [Replace y x])
  ++ foreach (zip nasvowels nasalization) (fun '(x, y) => 
    [Replace (x ++ "ʿ"%u) y])
  ++ [Replace "ʿ"%u "𞋉"%u]
  ++ foreach (zip AnusvaraVowels Anusvaras) (fun '(x, y) => 
    [Replace (x ++ "ʾ"%u) y])
  ++ [Replace "ʾ"%u "𞋝"%u]
  ++ [Replace "𞋋𞋗"%u "𞋡"%u]
  ++ [Replace "𞋋𞋎"%u "𞋠"%u]
  ++ [Replace "𞋓Ø"%u "𞋒"%u]
  ++ [Replace "Ø"%u []]) else (foreach (zip tonemarks tonewri) (fun '(x, y) => 
    [Replace x y])
  ++ foreach (zip nasvowels nasalization) (fun '(x, y) => 
    [Replace y (x ++ "ʿ"%u)])
  ++ foreach (zip AnusvaraVowels Anusvaras) (fun '(x, y) => 
    [Replace y (x ++ "ʾ"%u)])
  ++ [Replace "𞋡"%u "𞋋𞋗"%u]
  ++ [Replace "𞋠"%u "𞋋𞋎"%u]
  ++ [Replace "𞋒"%u "𞋓Ø"%u])).

(** aksharamukha/ConvertFix.py:804-817  def FixMro(Strng, reverse=False) *)
Definition CF_FixMro (reverse : bool) : prog :=
  let extracons := ["𖩎"%u; "𖩙"%u; "𖩚"%u; "𖩛"%u; "𖩜"%u; "𖩞"%u] in
  let consnormaldig := ["𖩃𖩢"%u; "𖩌𖩢"%u; "𖩍𖩢"%u; "𖩍𖩣"%u; "𖩉𖩢"%u; "𖩀𖩢"%u] in
  let consnormal := ["𖩃"%u; "𖩌"%u; "𖩍"%u; "𖩍"%u; "𖩉"%u; "𖩀"%u] in
  (if (negb reverse) then (foreach (zip consnormaldig extracons) (fun '(x, y) => 
    [Replace x y])) else (foreach (zip extracons consnormal) (fun '(x, y) => 
    [Replace x y]))).

(** aksharamukha/ConvertFix.py:2414-2445  def FixRomanReadable(Strng, reverse=False) *)
Definition CF_FixRomanReadable (reverse : bool) : prog :=
  (if (negb reverse) then ([Replace "\n"%u [0xE001]%N]
  ++ [ReSub "([aiueo])nj([aeiou])"%u (("\1"%u ++ "ny"%u) ++ "\2"%u)]
  ++ [ReSub "(\W)nj([aeiou])"%u (("\1"%u ++ "ny"%u) ++ "\2"%u)]
  ++ [ReSub "^nj([aeiou])"%u ("ny"%u ++ "\1"%u)]
  ++ [Replace "njnj"%u "nny"%u]
  ++ [Replace "Mk"%u "ngk"%u]
  ++ [Replace "Mg"%u "ngg"%u]
  ++ [Replace "Mc"%u "njc"%u]
  ++ [Replace "Mj"%u "njj"%u]
  ++ [Replace "Md"%u "nd"%u]
  ++ [Replace "Mt"%u "nt"%u]
  ++ [Replace "Mb"%u "mb"%u]
  ++ [Replace "Mp"%u "mp"%u]
  ++ [Replace "M"%u "m͏'"%u]
  ++ [Replace "ngk"%u "nk"%u]
  ++ [Replace "ngg"%u "ng"%u]
  ++ [Replace "njc"%u "nc"%u]
  ++ [Replace "njj"%u "nj"%u]
  ++ [Replace "jnj"%u "jny"%u]
  ++ [Replace [0xE001]%N "\n"%u]) else ([])).

(** aksharamukha/ConvertFix.py:2447-2480  def FixRomanColloquial(Strng, reverse=False) *)
Definition CF_FixRomanColloquial (reverse : bool) : prog :=
  (if (negb reverse) then ([Replace "\n"%u [0xE001]%N]
  ++ [ReSub "([aiueo])nj([aeiou])"%u (("\1"%u ++ "ny"%u) ++ "\2"%u)]
  ++ [ReSub "(\W)nj([aeiou])"%u (("\1"%u ++ "ny"%u) ++ "\2"%u)]
  ++ [ReSub "^nj([aeiou])"%u ("ny"%u ++ "\1"%u)]
  ++ [Replace "njnj"%u "nny"%u]
  ++ [Replace "Mk"%u "ngk"%u]
  ++ [Replace "Mg"%u "ngg"%u]
  ++ [Replace "Mc"%u "njc"%u]
  ++ [Replace "Mj"%u "njj"%u]
  ++ [Replace "Md"%u "nd"%u]
  ++ [Replace "Mt"%u "nt"%u]
  ++ [Replace "Mb"%u "mb"%u]
  ++ [Replace "Mp"%u "mp"%u]
  ++ [Replace "M"%u "m͏"%u]
  ++ [Replace "ngk"%u "nk"%u]
  ++ [Replace "ngg"%u "ng"%u]
  ++ [Replace "njc"%u "nc"%u]
  ++ [Replace "njj"%u "nj"%u]
  ++ [Replace "jnj"%u "jny"%u]
  ++ [Replace [0xE001]%N "\n"%u]
  ++ [Replace "'"%u []]
  ++ [Replace "_"%u []]) else ([])).

(** aksharamukha/ConvertFix.py:630-683  def FixHanifiRohingya(Strng, reverse=False) *)
Definition CF_FixHanifiRohingya (reverse : bool) : prog :=
  let! v1 := CrunchSymbols GM_Consonants "HanifiRohingya"%u in
  let consList := (("("%u ++ (join "|"%u (v1 ++ ["𐴗"%u; "𐴙"%u]))) ++ ")"%u) in
  let! v2 := CrunchSymbols GM_Vowels "HanifiRohingya"%u in
  let vowList := (("("%u ++ (join "|"%u v2)) ++ ")"%u) in
  let! v3 := CrunchSymbols GM_Vowels "HanifiRohingya"%u in
  let vowListNotA := (("("%u ++ (join "|"%u (slice v3 (Some (1)%Z) None))) ++ ")"%u) in
  let! v4 := CrunchSymbols GM_Consonants "HanifiRohingya"%u in
  let consListLookBehind := (join [] (map (fun x => (("(?<!"%u ++ x) ++ ")"%u)) v4)) in
  (if (negb reverse) then ([ReSub (consListLookBehind ++ vowList) ("𐴀"%u ++ "\1"%u)]
  ++ [ReSub (consList ++ "\1"%u) ("\1"%u ++ [0x10D27]%N)]
  ++ [ReSub (vowListNotA ++ "𐴀𐴟"%u) ("\1"%u ++ "𐴗"%u)]
  ++ [ReSub (vowListNotA ++ "𐴀𐴞"%u) ("\1"%u ++ "𐴙"%u)]
  ++ [Replace [0x10D24; 0x5C]%N [0x10D25]%N]
  ++ [Replace [0x10D24; 0x2F]%N [0x10D26]%N]
  ++ [Replace "_"%u "𐴢"%u]) else (let tones := "([𐴤𐴥𐴦])"%u in
  [ReSub (("(𐴀)"%u ++ tones) ++ vowList) "\1\3\2"%u]
  ++ [ReSub ((consList ++ tones) ++ vowList) "\1\3\2"%u]
  ++ [ReSub ((replace "𐴀"%u [] vowListNotA) ++ "𐴗"%u) ("\1"%u ++ "𐴀𐴟"%u)]
  ++ [ReSub ((replace "𐴀"%u [] vowListNotA) ++ "𐴙"%u) ("\1"%u ++ "𐴀𐴞"%u)]
  ++ [Replace "𐴀"%u []]
  ++ [ReSub ("(.)"%u ++ [0x10D27]%N) "\1\1"%u]
  ++ [Replace [0x10D25]%N [0x10D24; 0x5C]%N]
  ++ [Replace [0x10D26]%N [0x10D24; 0x2F]%N]
  ++ [ReSub (consList ++ "𐴗"%u) ("\1"%u ++ "𐴖ʾ"%u)]
  ++ [ReSub (consList ++ "𐴙"%u) ("\1"%u ++ "𐴘ʾ"%u)]
  ++ [Replace "𐴢"%u "_"%u]
  ++ [Replace "𐴜"%u "𐴖"%u]))
  ++ (if (negb reverse) then (foreach (zip [","%u; "?"%u; ";"%u] ["،"%u; "؟"%u; "؛"%u]) (fun '(x, y) => 
    [Replace x y])) else (foreach (zip [","%u; "?"%u; ";"%u] ["،"%u; "؟"%u; "؛"%u]) (fun '(x, y) => 
    [Replace y x]))).

(** aksharamukha/ConvertFix.py:607-628  def FixMongolian(Strng, reverse=False) *)
Definition CF_FixMongolian (reverse : bool) : prog :=
  let! v1 := CrunchSymbols GM_Vowels "Mongolian"%u in
  let vowels := (("("%u ++ (join "|"%u v1)) ++ ")"%u) in
  let! v2 := CrunchSymbols GM_Consonants "Mongolian"%u in
  let consonants := (("("%u ++ (join "|"%u v2)) ++ ")"%u) in
  (if (negb reverse) then ([ReSub ("(᠋)"%u ++ consonants) "\2"%u]
  ++ [ReSub ("(᠋)"%u ++ vowels) "\2"%u]
  ++ [ReSub ((((consonants ++ consonants) ++ consonants) ++ vowels) ++ "(ᢀ)"%u) "\5\1\2\3\4"%u]
  ++ [ReSub (((consonants ++ consonants) ++ vowels) ++ "(ᢀ)"%u) "\4\1\2\3"%u]
  ++ [ReSub (((consonants ++ "?"%u) ++ vowels) ++ "(ᢀ)"%u) "\3\1\2"%u]
  ++ [Replace " ʼ"%u [0x200B]%N]
  ++ [Replace "ʼ"%u [0x200B]%N]) else ([ReSub "(ᠠ)(?!᠋)"%u ("\1"%u ++ [0x180B]%N)])).

(** aksharamukha/ConvertFix.py:266-353  def PostFixRomanOutput(Strng, Source, Target) *)
Definition CF_PostFixRomanOutput (Source : str) (Target : str) : prog :=
  [Replace "ʽ"%u []]
  ++ (CF_FixVedic Target)
  ++ (if (mem Target ["IAST"%u; "ISO"%u; "ISOPali"%u; "Titus"%u]) then ([Replace "uʼ"%u "ü"%u]
  ++ [Replace "ūʼ"%u "ǖ"%u]
  ++ [Replace "aʼ"%u "ö"%u]
  ++ [Replace "āʼ"%u "ȫ"%u]) else ([]))
  ++ (if (andb (str_eqb Source "Sinhala"%u) (str_eqb Target "IPA"%u)) then (CF_SinhalaIPAFix) else ([]))
  ++ (if (str_eqb Target "IPA"%u) then ((CF_FixIPA false)) else ([]))
  ++ (if (str_eqb Target "Santali"%u) then ((CF_FixSantali false)) else ([]))
  ++ (if (str_eqb Target "Avestan"%u) then ((CF_FixAvestan false)) else ([]))
  ++ (if (str_eqb Target "SoraSompeng"%u) then ((CF_FixSoraSompeng false)) else ([]))
  ++ (if (str_eqb Target "WarangCiti"%u) then ((CF_FixWarangCiti false)) else ([]))
  ++ (if (str_eqb Target "Wancho"%u) then ((CF_FixWancho false)) else ([]))
  ++ (if (str_eqb Target "Mro"%u) then ((CF_FixMro false)) else ([]))
  ++ (if (str_eqb Target "RomanReadable"%u) then ((CF_FixRomanReadable false)
  ++ (if (str_eqb Source "Tamil"%u) then ([Replace "t"%u "th"%u]
  ++ [Replace "d"%u "dh"%u]
  ++ [Replace "h'"%u []]) else ([]))) else ([]))
  ++ (if (str_eqb Target "RomanColloquial"%u) then ((if (str_eqb Source "Tamil"%u) then ([Replace "t"%u "th"%u]
  ++ [Replace "d"%u "dh"%u]
  ++ [Replace "h'"%u []]) else ([]))
  ++ (if (str_eqb Source "Oriya"%u) then ([Replace "ksh"%u "x"%u]
  ++ [ReSub "x(?=[aeiou])"%u "ksh"%u]
  ++ [Replace "jny"%u "gy"%u]
  ++ [Replace "sh"%u "s"%u]
  ++ [Replace "r'"%u "d"%u]) else ([]))
  ++ (if (str_eqb Source "Bengali"%u) then ([Replace "m'"%u "ng"%u]) else ([]))
  ++ (CF_FixRomanColloquial false)) else ([]))
  ++ (if (orb (str_eqb Target "IAST"%u) (str_eqb Target "IASTPali"%u)) then ([Replace "a_i"%u "aï"%u]
  ++ [Replace "a_u"%u "aü"%u]) else ([]))
  ++ (if (orb (str_eqb Target "ISO"%u) (str_eqb Target "ISOPali"%u)) then ([Replace "\’"%u "\'"%u]
  ++ [Replace "\’ʽ"%u "\'"%u]
  ++ [Replace "a_i"%u "a:i"%u]
  ++ [Replace "a_u"%u "a:u"%u]) else ([]))
  ++ (if (orb (str_eqb Target "Velthuis"%u) (str_eqb Target "Itrans"%u)) then ([Replace "\.a"%u "\'"%u]) else ([]))
  ++ (if (str_eqb Target "Aksharaa"%u) then ([Replace "\a;"%u "\'"%u]) else ([]))
  ++ (if (str_eqb Target "HanifiRohingya"%u) then ((CF_FixHanifiRohingya false)) else ([]))
  ++ (if (str_eqb Target "Mongolian"%u) then ((CF_FixMongolian false)) else ([]))
  ++ (if (str_eqb Target "Itrans"%u) then ([ReSub "([aAiIuUeo])(RR)(i|I)"%u (("\1"%u ++ "R_L"%u) ++ "\3"%u)]
  ++ [ReSub "([aAiIuUeo])(LL)(i|I)"%u (("\1"%u ++ "L_L"%u) ++ "\3"%u)]) else ([]))
  ++ (if (str_eqb Source "RomanSemitic"%u) then ([]) else ([]))
  ++ (if (andb (mem Source ["IAST"%u; "ISO"%u]) (str_eqb Target "Malayalam"%u)) then ([Replace "ṯ"%u "ṟ"%u]) else ([])).

(** aksharamukha/ConvertFix.py:393-417  def FixHebr(Strng, Source, reverse=False) *)
Definition CF_FixHebr (Source : str) (reverse : bool) : prog :=
  let! v1 := CrunchSymbols GM_VowelSigns "Hebrew"%u in
  let vowelsigns := (("("%u ++ (join "|"%u (v1 ++ [[0x5BC]%N]))) ++ ")"%u) in
  let! v2 := CrunchSymbols GM_VowelSigns "Hebrew"%u in
  let vowelsigns2 := (("("%u ++ (join "|"%u (v2 ++ [[0x5BC]%N]))) ++ ")?"%u) in
  (if (negb reverse) then ([ReSub (("(׳)"%u ++ vowelsigns) ++ vowelsigns2) "\3\2\1"%u]
  ++ [ReSub "(וֹ)(׳)"%u "\2\1"%u]
  ++ [ReSub "(וּ)(׳)"%u "\2\1"%u]
  ++ [ReSub "(׳)(ַ)"%u "\2\1"%u]
  ++ [ReSub "(׳)(ַ)"%u "\1"%u]) else (let vowels := [[0x5B0]%N; [0x5B1]%N; [0x5B2]%N; [0x5B3]%N; [0x5B4]%N; [0x5B5]%N; [0x5B6]%N; [0x5B7]%N; [0x5B8]%N; [0x5B9]%N; [0x5BA]%N; [0x5BB]%N; [0x5C7]%N; [0x5BC]%N] in
  let vowelsR := (("("%u ++ (join "|"%u (vowels ++ ["וֹ"%u; "וּ"%u]))) ++ ")"%u) in
  [ReSub (vowelsR ++ "(׳)"%u) "\2\1"%u]
  ++ [ReSub (vowelsR ++ "(׳)"%u) "\2\1"%u]
  ++ [ReSub (vowelsR ++ "(׳)"%u) "\2\1"%u]
  ++ [ReSub (vowelsR ++ "(׳)"%u) "\2\1"%u])).

(** aksharamukha/ConvertFix.py:419-604  def FixHebrew(Strng, reverse=False) *)
Definition CF_FixHebrew (reverse : bool) : prog :=
  let! v1 := CrunchSymbols GM_VowelSigns "Hebrew"%u in
  let vowelsigns := (("("%u ++ (join "|"%u v1)) ++ ")"%u) in
  let! v2 := CrunchSymbols GM_Consonants "Hebrew"%u in
  let consonants := (("("%u ++ (join "|"%u (v2 ++ ["צּ"%u; "גּ"%u]))) ++ ")"%u) in
  let! v3 := CrunchSymbols GM_VowelSigns "Hebrew"%u in
  let vowelsignsA := (("("%u ++ (join "|"%u (v3 ++ [[0x5B7]%N]))) ++ ")"%u) in
  let! v4 := CrunchSymbols GM_VowelSigns "Hebrew"%u in
  let vowelsignsAD := (("("%u ++ (join "|"%u (v4 ++ [[0x5B7]%N; [0x5BC]%N]))) ++ ")"%u) in
  let! v5 := CrunchSymbols GM_VowelSigns "Hebrew"%u in
  let vowelsignsADShin := (("("%u ++ (join "|"%u (v5 ++ [[0x5B7]%N; [0x5BC]%N; [0x5C1]%N]))) ++ ")"%u) in
  let! v6 := CrunchSymbols GM_VowelSigns "Hebrew"%u in
  let vowelsignsADShinG := (("("%u ++ (join "|"%u (v6 ++ [[0x5B7]%N; [0x5BC]%N; [0x5C1]%N; "׳"%u]))) ++ ")"%u) in
  let finalCons := ["כ"%u; "מ"%u; "נ"%u; "פ"%u; "צ"%u; "פּ"%u; "כּ"%u] in
  let finals := ["ך"%u; "ם"%u; "ן"%u; "ף"%u; "ץ"%u; "ףּ"%u; "ךּ"%u] in
  let otherCons := (split ","%u "ב,ח,ע,צ,ש,ת"%u) in
  let! v7 := CrunchSymbols GM_Consonants "Hebrew"%u in
  let consonantsAll := (("("%u ++ (join "|"%u (((v7 ++ finals) ++ otherCons) ++ ["׳"%u]))) ++ ")"%u) in
  (if (negb reverse) then ([Replace "ʽ"%u []]
  ++ [Replace "ʾ"%u []]
  ++ [Replace "ג׳ְג׳"%u "גּ׳"%u]
  ++ [Replace "צ׳ְצ׳"%u "צּ׳"%u]
  ++ [ReSub (("מְ"%u ++ "ʼ"%u) ++ "([גדזטכצקת])"%u) ("נְ"%u ++ "\1"%u)]
  ++ [ReSub ("מְ"%u ++ "ʼ"%u) "מְ"%u]
  ++ [ReSub (((consonants ++ "(?!"%u) ++ vowelsigns) ++ ")"%u) (("\1"%u ++ [0x5B7]%N) ++ "\2"%u)]
  ++ [Replace [0x5B7; 0x5BC]%N [0x5BC; 0x5B7]%N]
  ++ [Replace [0x5B7; 0x5B7]%N [0x5B7]%N]
  ++ [Replace [0x5B7; 0x5BC; 0x5B0]%N [0x5BC; 0x5B0]%N]
  ++ [ReSub ("(׳)"%u ++ vowelsigns) "\2\1"%u]
  ++ [ReSub "(וֹ)(׳)"%u "\2\1"%u]
  ++ [ReSub "(וּ)(׳)"%u "\2\1"%u]
  ++ [ReSub "(׳)(ַ)"%u "\2\1"%u]
  ++ [ReSub "(׳)(ַ)"%u "\1"%u]
  ++ [ReSub ("(ַ)"%u ++ vowelsigns) "\2"%u]
  ++ [ReSub (("(ַ)"%u ++ "(ּ)"%u) ++ vowelsigns) "\2\3"%u]
  ++ [ReSub (((("(["%u ++ "ושרקסנמליזטײ"%u) ++ "הגדת"%u) ++ "])(ְ)"%u) ++ "\1"%u) ("\1"%u ++ [0x5BC]%N)]
  ++ [ReSub ("(שׁ)(ְ)"%u ++ "\1"%u) ("\1"%u ++ [0x5BC]%N)]
  ++ [Replace "כְּכּ"%u "קּ"%u]
  ++ [Replace "פְּפּ"%u "פּ"%u]
  ++ [Replace "בְּבּ"%u "בּ"%u]
  ++ (let shortVowels := (("("%u ++ (join "|"%u [[0x5B7]%N; [0x5B8]%N; [0x5B4]%N; [0x5BB]%N; [0x5B5]%N; [0x5B6]%N; [0x5B9]%N; [0x5B0]%N])) ++ ")"%u) in
  let vowelsAll := (("("%u ++ (join "|"%u ([[0x5B7]%N; [0x5B8]%N; [0x5B4]%N; [0x5BB]%N; [0x5B5]%N; [0x5B6]%N; [0x5B9]%N; [0x5B0]%N; "י"%u; "וֹ"%u; "וּ"%u] ++ ["׳"%u]))) ++ ")"%u) in
  foreach (zip finalCons finals) (fun '(c, f) => 
    [ReSub ((((((((vowelsAll ++ "("%u) ++ c) ++ ")"%u) ++ shortVowels) ++ "(׳?)"%u) ++ "(?!"%u) ++ consonantsAll) ++ "|י|ו)"%u) ((("\1"%u ++ f) ++ "\3"%u) ++ "\4"%u)])
  ++ [ReSub ((("(?<!ה)(ְ)(׳?)"%u ++ "(?!"%u) ++ consonantsAll) ++ "|י|ו)"%u) "\2\3"%u]
  ++ [Replace ("װ"%u ++ [0x5B9]%N) "וֺ"%u]
  ++ [Replace "װ"%u "ו"%u]
  ++ [Replace "ײ"%u "י"%u]
  ++ [Replace "ʼ"%u []])) else (let vowels := [[0x5B0]%N; [0x5B1]%N; [0x5B2]%N; [0x5B3]%N; [0x5B4]%N; [0x5B5]%N; [0x5B6]%N; [0x5B7]%N; [0x5B8]%N; [0x5B9]%N; [0x5BA]%N; [0x5BB]%N; [0x5C7]%N] in
  let vowelsR := (("("%u ++ (join "|"%u (vowels ++ ["וֹ"%u; "וּ"%u]))) ++ ")"%u) in
  foreach (zip finals finalCons) (fun '(f, c) => 
    [Replace f c])
  ++ [ReSub (vowelsR ++ "([ּׁׂ])"%u) "\2\1"%u]
  ++ [Replace "אֲ"%u "אַ"%u]
  ++ [Replace "עֲ"%u "אַ"%u]
  ++ [Replace [0x5B1]%N [0x5B6]%N]
  ++ [Replace [0x5B3]%N [0x5B9]%N]
  ++ [Replace [0x5B2]%N [0x5B7]%N]
  ++ [ReSub ((("(?<=[ֵֶַָֹ])([א])"%u ++ "(?!"%u) ++ vowelsignsA) ++ ")"%u) []]
  ++ [ReSub ((("(?<=[ִֵֶַָֹֻ])([ה])"%u ++ "(?!"%u) ++ vowelsignsAD) ++ ")"%u) []]
  ++ [ReSub (((("(?<=[ֵֶ])([י])"%u ++ "(?!"%u) ++ vowelsR) ++ vowelsigns) ++ ")"%u) []]
  ++ [Replace "הּ"%u "ה"%u]
  ++ [ReSub (("(["%u ++ "שרקסנמליזט"%u) ++ "])(ּ)"%u) ((("\1"%u ++ [0x5B0]%N) ++ [0x5B0]%N) ++ "\1"%u)]
  ++ [ReSub "([דתצה])(ּ)"%u ((("\1"%u ++ [0x5B0]%N) ++ [0x5B0]%N) ++ "\1"%u)]
  ++ [Replace "ת"%u "ט"%u]
  ++ [Replace "ח"%u "כ"%u]
  ++ [Replace "ע"%u "א"%u]
  ++ [Replace "שׂ"%u "ס"%u]
  ++ [ReSub "ש(?![ׂׄ])"%u "שׁ"%u]
  ++ [Replace [0x5C1; 0x5C1]%N [0x5C1]%N]
  ++ [ReSub "ב(?!ּ)"%u "װ"%u]
  ++ [ReSub (vowelsR ++ "(׳)"%u) "\2\1"%u]
  ++ [Replace "גּ׳"%u "ג׳ְג׳"%u]
  ++ [Replace "צּ׳"%u "צ׳ְצ׳"%u]
  ++ [ReSub ("צ"%u ++ "(?!׳)"%u) "טְְס"%u]
  ++ [ReSub ("(\s|^|\.|,|א)"%u ++ "(וֹ|וּ)"%u) ("א"%u ++ "\1\2"%u)]
  ++ [ReSub ("(וּ)"%u ++ vowelsignsA) ("װְװ"%u ++ "\2"%u)]
  ++ [ReSub ((("י"%u ++ "(?="%u) ++ vowelsigns) ++ "|ַ)"%u) "ײ"%u]
  ++ [ReSub ((("ו"%u ++ "(?="%u) ++ "[ְִֵֶַָׇֺֻ]"%u) ++ "|ַ)"%u) "װ"%u]
  ++ [ReSub "(?<!ִ)(י)"%u "ײ"%u]
  ++ [ReSub "(ו)(?![ֹֺּ])"%u "װ"%u]
  ++ [Replace [0x5BA]%N [0x5B9]%N]
  ++ [ReSub (("[א](?!"%u ++ vowelsR) ++ ")"%u) []]
  ++ [ReSub (((consonantsAll ++ "(?!"%u) ++ vowelsignsADShinG) ++ ")"%u) (("\1"%u ++ [0x5B0]%N) ++ "\2"%u)]
  ++ [Replace "אְ"%u []]
  ++ [IfIn [0xBDE]%N ([Replace [0xBDE]%N []]
  ++ [Replace ([0x5B0]%N ++ [0x5B0]%N) [0x5B0]%N]) ([ReSub (("(\s|\.|,|^)"%u ++ consonantsAll) ++ "(ְ)"%u) ("\1\2"%u ++ [0x5B6]%N)]
  ++ [ReSub ("(ּ)"%u ++ "(ְ)"%u) ("\1"%u ++ [0x5B6]%N)]
  ++ [ReSub ((((((((consonantsAll ++ "(ְ"%u) ++ [0x5B0]%N) ++ ")"%u) ++ "("%u) ++ "\1"%u) ++ ")("%u) ++ [0x5B0]%N) ++ ")"%u) ("\1\2\3"%u ++ [0x5B6]%N)]
  ++ [ReSub (((((consonantsAll ++ "(ְ)"%u) ++ "("%u) ++ "\1"%u) ++ ")"%u) ++ [0x28; 0x3F; 0x21; 0x28; 0x5C; 0x73; 0x7C; 0x5C; 0x2E; 0x7C; 0xA; 0x7C; 0x2C; 0x7C; 0x24; 0x29; 0x29]%N) (("\1"%u ++ [0x5B6]%N) ++ "\3"%u)]
  ++ [ReSub ((((consonantsAll ++ "(ְ)"%u) ++ consonantsAll) ++ "(ְ)"%u) ++ [0x28; 0x3F; 0x21; 0x28; 0x5C; 0x73; 0x7C; 0x5C; 0x2E; 0x7C; 0xA; 0x7C; 0x2C; 0x7C; 0x24; 0x29; 0x29]%N) (("\1\2"%u ++ "\3"%u) ++ [0x5B6]%N)]
  ++ [Replace ([0x5B0]%N ++ [0x5B0]%N) [0x5B0]%N]
  ++ [Replace ([0x5B6]%N ++ [0x5B0]%N) [0x5B0]%N])]
  ++ [ReSub "(?<![אע])ַ"%u []]))
  ++ [Replace [0xBDE]%N []].

(** aksharamukha/ConvertFix.py:685-708  def FixMasaramGondi(Strng, reverse=False) *)
Definition CF_FixMasaramGondi (reverse : bool) : prog :=
  let! v1 := CrunchSymbols GM_Consonants "MasaramGondi"%u in
  let consList := (("("%u ++ (join "|"%u v1)) ++ ")"%u) in
  (if (negb reverse) then ([Replace "𑴌𑵅𑴪"%u "𑴮"%u]
  ++ [Replace "𑴓𑵅𑴕"%u "𑴯"%u]
  ++ [Replace "𑴛𑵅𑴦"%u "𑴰"%u]
  ++ [ReSub (consList ++ [0x11D45; 0x11D26]%N) ("\1"%u ++ [0x11D47]%N)]
  ++ [ReSub ("𑴦𑵅"%u ++ consList) ("𑵆"%u ++ "\1"%u)]
  ++ [ReSub (([0x11D45; 0x28; 0x3F; 0x21]%N ++ consList) ++ ")"%u) [0x11D44]%N]) else ([Replace "𑴮"%u "𑴌𑵅𑴪"%u]
  ++ [Replace "𑴯"%u "𑴓𑵅𑴕"%u]
  ++ [Replace "𑴰"%u "𑴛𑵅𑴦"%u]
  ++ [Replace [0x11D47]%N [0x11D45; 0x11D26]%N]
  ++ [Replace "𑵆"%u "𑴦𑵅"%u]
  ++ [Replace [0x11D44]%N [0x11D45]%N])).

(** aksharamukha/ConvertFix.py:711-726  def FixGunjalaGondi(Strng, reverse=False) *)
Definition CF_FixGunjalaGondi (reverse : bool) : prog :=
  let! v1 := CrunchSymbols GM_Consonants "GunjalaGondi"%u in
  let consList := (("("%u ++ (join "|"%u v1)) ++ ")"%u) in
  (if (negb reverse) then ([ReSub "(𑵺ʾ)([𑵻𑵼𑶀𑶁])"%u ([0x11D95]%N ++ "\1"%u)]
  ++ [ReSub "(𑵺ʿ)([𑵽𑵾𑶂𑶃])"%u ([0x11D95]%N ++ "\1"%u)]
  ++ [Replace "ʾ"%u []]
  ++ [Replace "ʿ"%u []]
  ++ [ReSub (([0x11D97; 0x28; 0x3F; 0x21]%N ++ consList) ++ ")"%u) []]) else ([])).

(** aksharamukha/ConvertFix.py:728-774  def FixSoyombo(Strng, reverse=False) *)
Definition CF_FixSoyombo (reverse : bool) : prog :=
  let finVir := ["𑩞𑪙"%u; "𑩜𑪙"%u; "𑩠𑪙"%u; "𑩭𑪙"%u; "𑩯𑪙"%u; "𑩲𑪙"%u; "𑩴𑪙"%u; "𑩼𑪙"%u; "𑩽𑪙"%u; "𑩿𑪙"%u; "𑪁𑪙"%u] in
  let fin := [[0x11A8A]%N; [0x11A8B]%N; [0x11A8C]%N; [0x11A8D]%N; [0x11A8E]%N; [0x11A8F]%N; [0x11A90]%N; [0x11A91]%N; [0x11A92]%N; [0x11A93]%N; [0x11A94]%N] in
  let! v1 := CrunchSymbols GM_Consonants "Soyombo"%u in
  let consList := (("("%u ++ (join "|"%u v1)) ++ ")"%u) in
  (if (negb reverse) then ([Replace "𑩜𑪙𑪀"%u "𑪃"%u]
  ++ [ReSub ((("𑩿𑪙"%u ++ "(?="%u) ++ consList) ++ ")"%u) "𑪈"%u]
  ++ [ReSub ("(?<!𑪙)(.)𑪙"%u ++ "\1"%u) ("\1"%u ++ [0x11A98]%N)]
  ++ [IfIn "ʾ"%u (foreach (zip finVir fin) (fun '(x, y) => 
    [ReSub (((x ++ "(?!"%u) ++ consList) ++ ")"%u) y])
  ++ [ReSub (("𑪈(?!"%u ++ consList) ++ ")"%u) [0x11A93]%N]
  ++ [Replace "ʾ"%u []]) ([])]
  ++ [ReSub (([0x11A99; 0x28; 0x3F; 0x21]%N ++ consList) ++ ")"%u) []]) else ([Replace "𑪚"%u " "%u]
  ++ [Replace "𑪃"%u "𑩜𑪙𑪀"%u]
  ++ [ReSub "(.)𑪘"%u (("\1"%u ++ [0x11A99]%N) ++ "\1"%u)]
  ++ (let viraCon := ["𑩼𑪙"%u; "𑩽𑪙"%u; "𑪁𑪙"%u; "𑩿𑪙"%u] in
  let initial := ["𑪆"%u; "𑪇"%u; "𑪉"%u; "𑪈"%u] in
  foreach (zip viraCon initial) (fun '(x, y) => 
    [Replace y x])
  ++ (let tsaSeries := ["𑩵"%u; "𑩶"%u; "𑩷"%u] in
  let caSeries := ["𑩡"%u; "𑩢"%u; "𑩣"%u] in
  foreach (zip tsaSeries caSeries) (fun '(x, y) => 
    [Replace y x])
  ++ foreach (zip finVir fin) (fun '(x, y) => 
    [Replace y x]))))).

(** aksharamukha/ConvertFix.py:2283-2309  def KharoshthiNumerals(Strng, reverse=False) *)
Definition CF_KharoshthiNumerals (reverse : bool) : prog :=
  [Fn (fun Strng =>
    match re_numbers Strng with
    | Err e => Err e
    | Ok Numbers =>
        if reverse then
          run [Replace "𐩀"%u "1#"%u; Replace "𐩁"%u "2#"%u; Replace "𐩂"%u "3#"%u; Replace "𐩃"%u "4#"%u; Replace "𐩄"%u "10#"%u; Replace "𐩅"%u "20#"%u; Replace "𐩆"%u "100#"%u; Replace "𐩇"%u "1000#"%u] Strng
        else fold_left (fun acc num => do s <- acc; do k <- kharoshthiNumber num; Ok (replace (str_of_Z num) k s)) Numbers (Ok Strng)
    end)].

(** aksharamukha/ConvertFix.py:776-779  def FixKharoshthi(Strng, reverse=False) *)
Definition CF_FixKharoshthi (reverse : bool) : prog :=
  (CF_KharoshthiNumerals reverse).

(** aksharamukha/ConvertFix.py:781-802  def FixMarchen(Strng, reverse=False) *)
Definition CF_FixMarchen (reverse : bool) : prog :=
  let subjoinCons := (split " "%u "𑱲 𑱳 𑱴 𑱵 𑱶 𑱷 𑱸 𑱹 𑱺 𑱻 𑱼 𑱽 𑱾 𑱿 𑲀 𑲁 𑲂 𑲃 𑲄 𑲅 𑲆 𑲇 𑲉 𑲊 𑲋 𑲌 𑲍 𑲎"%u) in
  let subjoined := (split " "%u [0x11C92; 0x20; 0x11C93; 0x20; 0x11C94; 0x20; 0x11C95; 0x20; 0x11C96; 0x20; 0x11C97; 0x20; 0x11C98; 0x20; 0x11C99; 0x20; 0x11C9A; 0x20; 0x11C9B; 0x20; 0x11C9C; 0x20; 0x11C9D; 0x20; 0x11C9E; 0x20; 0x11C9F; 0x20; 0x11CA0; 0x20; 0x11CA1; 0x20; 0x11CA2; 0x20; 0x11CA3; 0x20; 0x11CA4; 0x20; 0x11CA5; 0x20; 0x11CA6; 0x20; 0x11CA7; 0x20; 0x11CA9; 0x20; 0x11CAA; 0x20; 0x11CAB; 0x20; 0x11CAC; 0x20; 0x11CAD; 0x20; 0x11CAE]%N) in
  (if (negb reverse) then (foreach (zip subjoinCons subjoined) (fun '(x, y) => 
    [Replace ("ʾ"%u ++ x) y])
  ++ [Replace "ʾ"%u []]
  ++ [Replace "ʿ"%u []]) else (let tsaSeries := ["𑲂"%u; "𑲃"%u; "𑲄"%u] in
  let jaSereis := ["𑱶"%u; "𑱷"%u; "𑱸"%u] in
  foreach (zip tsaSeries jaSereis) (fun '(x, y) => 
    [Replace y x])
  ++ foreach (zip subjoinCons subjoined) (fun '(x, y) => 
    [Replace y ("ʾ"%u ++ x)]))).

(** aksharamukha/ConvertFix.py:867-879  def FixSiddham(Strng, reverse=False) *)
Definition CF_FixSiddham (reverse : bool) : prog :=
  (if (negb reverse) then ([]) else ([Replace [0x115DC]%N [0x115B2]%N]
  ++ [Replace [0x115DD]%N [0x115B3]%N]
  ++ [Replace "𑗛"%u "𑖄"%u]
  ++ [Replace "𑗘"%u "𑖂"%u]
  ++ [Replace "𑗙"%u "𑖂"%u]
  ++ [Replace "𑗚"%u "𑖃"%u])).

(** aksharamukha/ConvertFix.py:881-887  def FixBhaiksuki(Strng, reverse=False) *)
Definition CF_FixBhaiksuki (reverse : bool) : prog :=
  (if (negb reverse) then ([Replace " "%u "𑱃"%u]) else ([Replace "𑱃"%u " "%u])).

(** aksharamukha/ConvertFix.py:889-900  def FixKhudawadi(Strng, reverse=False) *)
Definition CF_FixKhudawadi (reverse : bool) : prog :=
  let sindhi := ["𑊽"%u; "𑋃"%u; "𑋉"%u; "𑋕"%u] in
  let sindhiapprox := ["ˍ𑊼"%u; "ˍ𑋂"%u; "ˍ𑋈"%u; "ˍ𑋔"%u] in
  (if (negb reverse) then (foreach (zip sindhi sindhiapprox) (fun '(x, y) => 
    [Replace y x])) else (foreach (zip sindhi sindhiapprox) (fun '(x, y) => 
    [Replace x y]))).

(** aksharamukha/ConvertFix.py:1003-1017  def CorrectRuLu(Strng, Target, reverse=False) *)
Definition CF_CorrectRuLu (Target : str) (reverse : bool) : prog :=
  let! v1 := CrunchList "ConsonantMap"%u Target in
  let! v2 := idx v1 (26)%Z in
  let ra := v2 in
  let! v3 := CrunchList "ConsonantMap"%u Target in
  let! v4 := idx v3 (27)%Z in
  let la := v4 in
  let! v5 := CrunchSymbols GM_VowelSigns Target in
  let uuu := (slice v5 (Some (4)%Z) (Some (6)%Z)) in
  let ap := "ʼ"%u in
  let ruCons := ((map (fun x => ((ra ++ x) ++ ap)) uuu) ++ (map (fun x => ((la ++ x) ++ ap)) uuu)) in
  let! v6 := CrunchSymbols GM_Vowels Target in
  foreach (zip ruCons (slice v6 (Some (6)%Z) (Some (10)%Z))) (fun '(x, y) => 
    (if (negb reverse) then ([Replace x y]) else ([Replace y x]))).

(** aksharamukha/ConvertFix.py:903-932  def FixTamil(Strng, reverse=False) *)
Definition CF_FixTamil (reverse : bool) : prog :=
  (CF_CorrectRuLu "Tamil"%u reverse)
  ++ (let! v1 := idx (attr "MainIndic"%u "Tamil"%u "SignMap"%u) (0)%Z in
  let ava := v1 in
  let avaA := "(ஆ)"%u in
  let VedicSign := [[0x951]%N; [0x952]%N; [0x1CDA]%N] in
  let TamilDiacritic := ["ʼ"%u; "ˮ"%u; "꞉"%u] in
  (if (negb reverse) then ([Replace (ava ++ ava) avaA]
  ++ (PP_RetainDandasIndic "Tamil"%u true)
  ++ (PP_RetainIndicNumerals "Tamil"%u true)
  ++ foreach TamilDiacritic (fun x => 
    foreach VedicSign (fun y => 
    [Replace (x ++ y) (y ++ x)]))) else ((PP_RetainDandasIndic "Tamil"%u false)
  ++ (PP_RetainIndicNumerals "Tamil"%u false)
  ++ [Replace avaA (ava ++ ava)]
  ++ [Replace "ஷ²"%u "ஶ"%u]
  ++ [Replace [0x11303]%N "꞉"%u]
  ++ foreach TamilDiacritic (fun x => 
    foreach VedicSign (fun y => 
    [Replace (y ++ x) (x ++ y)]))))).

(** aksharamukha/ConvertFix.py:934-940  def FixOriya(Strng, reverse=False) *)
Definition CF_FixOriya (reverse : bool) : prog :=
  (if (negb reverse) then ([]) else ([Replace "ଵ"%u "ୱ"%u])).

(** aksharamukha/ConvertFix.py:942-968  def FixGurmukhiLoC(Strng, reverse=False) *)
Definition CF_FixGurmukhiLoC (reverse : bool) : prog :=
  (CF_CorrectRuLu "Gurmukhi"%u reverse)
  ++ (let! v1 := idx (attr "MainIndic"%u "Gurmukhi"%u "SignMap"%u) (0)%Z in
  let ava := v1 in
  let avaA := "(ਆ)"%u in
  (if (negb reverse) then ([Replace (ava ++ ava) avaA]
  ++ (PP_InsertGeminationSign "Gurmukhi"%u)
  ++ (PP_RetainIndicNumerals "Gurmukhi"%u true)
  ++ (let Vedicomp := (("(["%u ++ (join [] GM_VedicSvarasList)) ++ "])"%u) in
  let! v2 := idx (attr "MainIndic"%u "Gurmukhi"%u "ViramaMap"%u) (0)%Z in
  [ReSub ((Vedicomp ++ [0xA71]%N) ++ "(.)"%u) ((("\1"%u ++ "\2"%u) ++ v2) ++ "\2"%u)])) else ((PP_RetainIndicNumerals "Gurmukhi"%u false)
  ++ [Replace avaA (ava ++ ava)]
  ++ (PP_ReverseGeminationSign "Gurmukhi"%u)))).

(** aksharamukha/ConvertFix.py:972-999  def FixGurmukhi(Strng, reverse=False) *)
Definition CF_FixGurmukhi (reverse : bool) : prog :=
  (CF_CorrectRuLu "Gurmukhi"%u reverse)
  ++ (let! v1 := idx (attr "MainIndic"%u "Gurmukhi"%u "SignMap"%u) (0)%Z in
  let ava := v1 in
  let avaA := "(ਆ)"%u in
  (if (negb reverse) then ([Replace (ava ++ ava) avaA]
  ++ (PP_InsertGeminationSign "Gurmukhi"%u)
  ++ (PP_RetainIndicNumerals "Gurmukhi"%u true)
  ++ (let Vedicomp := (("(["%u ++ (join [] GM_VedicSvarasList)) ++ "])"%u) in
  let! v2 := idx (attr "MainIndic"%u "Gurmukhi"%u "ViramaMap"%u) (0)%Z in
  [ReSub ((Vedicomp ++ [0xA71]%N) ++ "(.)"%u) ((("\1"%u ++ "\2"%u) ++ v2) ++ "\2"%u)])) else ((PP_RetainIndicNumerals "Gurmukhi"%u false)
  ++ [Replace avaA (ava ++ ava)]
  ++ (PP_ReverseGeminationSign "Gurmukhi"%u)
  ++ [Replace [0xA70; 0xA28]%N "ਨ੍ਨ"%u]
  ++ [Replace [0xA70; 0xA2E]%N "ਮ੍ਮ"%u]
  ++ [Replace [0xA70]%N [0xA02]%N]
  ++ (PP_GurmukhiYakaash true)))).

(** aksharamukha/ConvertFix.py:1039-1053  def FixTamilExtended(Strng, reverse=False) *)
Definition CF_FixTamilExtended (reverse : bool) : prog :=
  (if (negb reverse) then ([Replace [0xD15; 0xD4D; 0x200C; 0xD37]%N "ക്ഷ"%u]
  ++ [Replace [0xD36; 0xD4D; 0x200C; 0xD30]%N [0xD36; 0xD4D; 0x200D; 0xD30]%N]
  ++ [Replace [0xD57]%N [0xD4C]%N]
  ++ foreach GM_VedicSvarasList (fun svara => 
    [Replace ([0x200C]%N ++ svara) (svara ++ [0x200C]%N)])) else (foreach GM_VedicSvarasList (fun svara => 
    [Replace (svara ++ [0x200C]%N) ([0x200C]%N ++ svara)])
  ++ [Replace [0xD4D]%N [0xD4D; 0x200C]%N])).

(** aksharamukha/ConvertFix.py:1056-1081  def FixTamilGrantha(Strng, reverse=False) *)
Definition CF_FixTamilGrantha (reverse : bool) : prog :=
  let! v1 := CrunchSymbols GM_Consonants "TamilGrantha"%u in
  let ListC := (join "|"%u v1) in
  let ListEAI := (join "|"%u ((slice (attr "MainIndic"%u "TamilGrantha"%u "VowelSignMap"%u) (Some (9)%Z) (Some (11)%Z)) ++ (slice (attr "MainIndic"%u "TamilGrantha"%u "SouthVowelSignMap"%u) (Some (0)%Z) (Some (1)%Z)))) in
  let ListOAU := ((slice (attr "MainIndic"%u "TamilGrantha"%u "VowelSignMap"%u) (Some (11)%Z) (Some (13)%Z)) ++ (slice (attr "MainIndic"%u "TamilGrantha"%u "SouthVowelSignMap"%u) (Some (1)%Z) (Some (2)%Z))) in
  (if (negb reverse) then ([ReSub ((((("("%u ++ ListC) ++ ")"%u) ++ "("%u) ++ ListEAI) ++ ")"%u) ([0x200B; 0x200C; 0x200D; 0x200C]%N ++ "\2\1"%u)]
  ++ (let! v2 := idx ListOAU (0)%Z in
  let! v3 := idx (attr "MainIndic"%u "TamilGrantha"%u "VowelSignMap"%u) (9)%Z in
  let! v4 := idx (attr "MainIndic"%u "TamilGrantha"%u "VowelSignMap"%u) (0)%Z in
  [ReSub ((((("("%u ++ ListC) ++ ")"%u) ++ "("%u) ++ v2) ++ ")"%u) ((([0x200B; 0x200C; 0x200D; 0x200C]%N ++ v3) ++ "\1"%u) ++ v4)]
  ++ (let! v5 := idx ListOAU (2)%Z in
  let! v6 := idx (attr "MainIndic"%u "TamilGrantha"%u "SouthVowelSignMap"%u) (0)%Z in
  let! v7 := idx (attr "MainIndic"%u "TamilGrantha"%u "VowelSignMap"%u) (0)%Z in
  [ReSub ((((("("%u ++ ListC) ++ ")"%u) ++ "("%u) ++ v5) ++ ")"%u) ((([0x200B; 0x200C; 0x200D; 0x200C]%N ++ v6) ++ "\1"%u) ++ v7)]
  ++ (let! v8 := idx ListOAU (1)%Z in
  let! v9 := idx (attr "MainIndic"%u "TamilGrantha"%u "SouthVowelSignMap"%u) (0)%Z in
  let! v10 := idx (attr "MainIndic"%u "Tamil"%u "SouthConsonantMap"%u) (0)%Z in
  [ReSub ((((("("%u ++ ListC) ++ ")"%u) ++ "("%u) ++ v8) ++ ")"%u) ((([0x200B; 0x200C; 0x200D; 0x200C]%N ++ v9) ++ "\1"%u) ++ v10)]
  ++ [ReSub (((([0x28; 0x200B; 0x200C; 0x200D; 0x200C; 0x2E; 0x29]%N ++ "("%u) ++ ListC) ++ ")"%u) ++ "(்ˆ)"%u) "\2\3\1"%u])))) else (let! v11 := idx (attr "MainIndic"%u "TamilGrantha"%u "VowelSignMap"%u) (9)%Z in
  let! v12 := idx (attr "MainIndic"%u "TamilGrantha"%u "VowelSignMap"%u) (0)%Z in
  let! v13 := idx ListOAU (0)%Z in
  [ReSub ((((([0x200B]%N ++ v11) ++ "("%u) ++ ListC) ++ ")"%u) ++ v12) ("\1"%u ++ v13)]
  ++ (let! v14 := idx (attr "MainIndic"%u "TamilGrantha"%u "SouthVowelSignMap"%u) (0)%Z in
  let! v15 := idx (attr "MainIndic"%u "TamilGrantha"%u "VowelSignMap"%u) (0)%Z in
  let! v16 := idx ListOAU (2)%Z in
  [ReSub ((((([0x200B]%N ++ v14) ++ "("%u) ++ ListC) ++ ")"%u) ++ v15) ("\1"%u ++ v16)]
  ++ (let! v17 := idx (attr "MainIndic"%u "TamilGrantha"%u "SouthVowelSignMap"%u) (0)%Z in
  let! v18 := idx (attr "MainIndic"%u "Tamil"%u "SouthConsonantMap"%u) (0)%Z in
  let! v19 := idx ListOAU (1)%Z in
  [ReSub ((((([0x200B]%N ++ v17) ++ "("%u) ++ ListC) ++ ")"%u) ++ v18) ("\1"%u ++ v19)]
  ++ [ReSub (((((([0x200B]%N ++ "("%u) ++ ListEAI) ++ ")"%u) ++ "("%u) ++ ListC) ++ ")"%u) "\2\1"%u])))).

(** aksharamukha/ConvertFix.py:1087-1112  def FixKhmer(Strng, reverse=False, target='Khmer') *)
Definition CF_FixKhmer (reverse : bool) (target : str) : prog :=
  let! v1 := CrunchSymbols GM_Consonants target in
  let ListC := (join "|"%u v1) in
  let! v2 := CrunchSymbols GM_VowelSigns target in
  let ListV := (join "|"%u v2) in
  let! v3 := CrunchSymbols GM_CombiningSigns target in
  let ListA := (join "|"%u v3) in
  let! v4 := idx (attr "EastIndic"%u "Khmer"%u "ConsonantMap"%u) (26)%Z in
  let ra := v4 in
  let! v5 := idx (attr "EastIndic"%u "Khmer"%u "ViramaMap"%u) (0)%Z in
  let vir := v5 in
  (if (negb reverse) then ([ReSub (((vir ++ "("%u) ++ ListC) ++ ")"%u) ([0x17D2]%N ++ "\1"%u)]
  ++ [ReSub (((((("(?<!្)("%u ++ ra) ++ ")"%u) ++ [0x17D2]%N) ++ "("%u) ++ ListC) ++ ")"%u) ("\2"%u ++ [0x17CC]%N)]
  ++ [Replace [0x17B7; 0x17C6]%N [0x17B9]%N]) else ([Replace [0x17D2]%N vir]
  ++ [ReSub (vir ++ "(?=[ឫឬឭឮ])"%u) [0x17D2]%N]
  ++ [ReSub ((("("%u ++ ListC) ++ ")"%u) ++ [0x17CC]%N) ((ra ++ vir) ++ "\1"%u)]
  ++ [Replace [0x17B9]%N [0x17B7; 0x17C6]%N])).

(** aksharamukha/ConvertFix.py:1083-1084  def FixKhmerLoC(Strng, reverse=False) *)
Definition CF_FixKhmerLoC (reverse : bool) : prog :=
  (CF_FixKhmer reverse "KhmerLoC"%u).

(** aksharamukha/ConvertFix.py:1114-1135  def FixKhamtiShan(Strng, reverse=False) *)
Definition CF_FixKhamtiShan (reverse : bool) : prog :=
  (if (negb reverse) then ([Replace [0x103A; 0x101B]%N [0x103C]%N]
  ++ [Replace [0x103A; 0x101A]%N [0x103B]%N]
  ++ [Replace [0x103A; 0x101D]%N [0x103D]%N]
  ++ [Replace [0x103C; 0x103B]%N [0x103B; 0x103C]%N]
  ++ [Replace [0x103D; 0x103B]%N [0x103B; 0x103D]%N]
  ++ [Replace [0x1082; 0x103C]%N [0x103C; 0x103D]%N]) else ([Replace "ꩳ"%u "ရ"%u]
  ++ [Replace [0x103B; 0x103C]%N [0x103C; 0x103B]%N]
  ++ [Replace [0x103B; 0x103D]%N [0x103D; 0x103B]%N]
  ++ [Replace [0x103C; 0x1082]%N [0x1082; 0x103C]%N]
  ++ [Replace [0x103C]%N [0x103A; 0xAA73]%N]
  ++ [Replace "ꩳ"%u "ရ"%u]
  ++ [Replace [0x103B]%N [0x103A; 0x101A]%N]
  ++ [Replace [0x103D]%N [0x103A; 0x101D]%N])).

(** aksharamukha/ConvertFix.py:1137-1159  def FixTaiLaing(Strng, reverse=False) *)
Definition CF_FixTaiLaing (reverse : bool) : prog :=
  (if (negb reverse) then ([Replace [0x103A; 0xAA7A]%N [0x103C]%N]
  ++ [Replace [0x103A; 0x101A]%N [0x103B]%N]
  ++ [Replace [0x103A; 0x101D]%N [0x1082]%N]
  ++ [Replace [0x103C; 0x103B]%N [0x103B; 0x103C]%N]
  ++ [Replace [0x103D; 0x103B]%N [0x103B; 0x103D]%N]
  ++ [Replace [0x1082; 0x103C]%N [0x103C; 0x1082]%N]
  ++ [Replace [0x1082; 0x103B]%N [0x103A; 0x1040; 0x103B]%N]) else ([Replace [0x103B; 0x103C]%N [0x103C; 0x103B]%N]
  ++ [Replace [0x103B; 0x103D]%N [0x103D; 0x103B]%N]
  ++ [Replace [0x103C; 0x1082]%N [0x1082; 0x103C]%N]
  ++ [Replace [0x103C]%N [0x103A; 0xAA7A]%N]
  ++ [Replace [0x103B]%N [0x103A; 0x101A]%N]
  ++ [Replace [0x1082]%N [0x103A; 0x101D]%N])).

(** aksharamukha/ConvertFix.py:1161-1193  def FixShan(Strng, reverse=False) *)
Definition CF_FixShan (reverse : bool) : prog :=
  (if (negb reverse) then ([Replace [0x103A; 0x101B]%N [0x103C]%N]
  ++ [Replace [0x103A; 0x101A]%N [0x103B]%N]
  ++ [Replace [0x103A; 0x101D]%N [0x1082]%N]
  ++ [ReSub ("(ှ)"%u ++ "([ျြွ])"%u) "\2\1"%u]
  ++ [Replace [0x103C; 0x103B]%N [0x103B; 0x103C]%N]
  ++ [Replace [0x103D; 0x103B]%N [0x103B; 0x103D]%N]
  ++ [Replace [0x103D; 0x103C]%N [0x103C; 0x103D]%N]
  ++ [ReSub "သျʽ?ျ"%u "သျ်ယ"%u]) else ([ReSub ("([ျြွ])"%u ++ "(ှ)"%u) "\2\1"%u]
  ++ [Replace [0x103B; 0x103C]%N [0x103C; 0x103B]%N]
  ++ [Replace [0x103B; 0x103D]%N [0x103D; 0x103B]%N]
  ++ [Replace [0x103C; 0x103D]%N [0x103D; 0x103C]%N]
  ++ [Replace [0x103C]%N [0x103A; 0x101B]%N]
  ++ [Replace [0x103B]%N [0x103A; 0x101A]%N]
  ++ [Replace [0x103D]%N [0x103A; 0x101D]%N]
  ++ [Replace [0x1082]%N [0x103A; 0x101D]%N]
  ++ [Replace [0x103E]%N [0x103A; 0x1081]%N]
  ++ [Replace [0x1039]%N [0x103A]%N])).

(** aksharamukha/ConvertFix.py:1244-1344  def FixBurmese(Strng, reverse=False) *)
Definition CF_FixBurmese (reverse : bool) : prog :=
  let! v1 := CrunchSymbols GM_Consonants "Burmese"%u in
  let ListC := (join "|"%u v1) in
  let! v2 := idx (attr "EastIndic"%u "Burmese"%u "ViramaMap"%u) (0)%Z in
  let vir := v2 in
  let! v3 := idx (attr "EastIndic"%u "Burmese"%u "VowelSignMap"%u) (0)%Z in
  let AA := v3 in
  let! v4 := idx (attr "EastIndic"%u "Burmese"%u "VowelSignMap"%u) (9)%Z in
  let E := v4 in
  let yrvh := (((slice (attr "EastIndic"%u "Burmese"%u "ConsonantMap"%u) (Some (25)%Z) (Some (27)%Z)) ++ (slice (attr "EastIndic"%u "Burmese"%u "ConsonantMap"%u) (Some (28)%Z) (Some (29)%Z))) ++ (slice (attr "EastIndic"%u "Burmese"%u "ConsonantMap"%u) (Some (32)%Z) (Some (33)%Z))) in
  let yrvhsub := [[0x103B]%N; [0x103C]%N; [0x103D]%N; [0x103E]%N] in
  let! v6 := mapR (fun x => do v5 <- idx (attr "EastIndic"%u "Burmese"%u "ConsonantMap"%u) x; Ok v5) [(1)%Z; (2)%Z; (4)%Z; (17)%Z; (20)%Z; (28)%Z] in
  let TallACons := (join "|"%u v6) in
  (if (negb reverse) then ([ReSub (((("(?<!ာ)"%u ++ vir) ++ "("%u) ++ ListC) ++ ")"%u) ([0x1039]%N ++ "\1"%u)]
  ++ (let! v7 := idx (attr "EastIndic"%u "Burmese"%u "ConsonantMap"%u) (4)%Z in
  [ReSub ((((("("%u ++ v7) ++ ")"%u) ++ "("%u) ++ [0x1039]%N) ++ ")"%u) (("\1"%u ++ vir) ++ "\2"%u)]
  ++ [ReSub ((("(ရ)"%u ++ "("%u) ++ [0x1039]%N) ++ ")"%u) (("\1"%u ++ vir) ++ "\2"%u)]
  ++ [ReSub (((((("(?<!္)("%u ++ TallACons) ++ ")"%u) ++ "("%u) ++ E) ++ "?)"%u) ++ AA) ("\1\2"%u ++ [0x102B]%N)]
  ++ [ReSub (((((((("("%u ++ TallACons) ++ ")(္)("%u) ++ ListC) ++ ")"%u) ++ "("%u) ++ E) ++ "?)"%u) ++ AA) ("\1\2\3\4"%u ++ [0x102B]%N)]
  ++ [ReSub ((((((((((("("%u ++ TallACons) ++ ")(္)("%u) ++ ListC) ++ ")"%u) ++ "(္)("%u) ++ ListC) ++ ")"%u) ++ "("%u) ++ E) ++ "?)"%u) ++ AA) ("\1\2\3\4\5\6"%u ++ [0x102B]%N)]
  ++ [ReSub ((((((("(?<=်္)"%u ++ "("%u) ++ TallACons) ++ ")"%u) ++ "("%u) ++ E) ++ "?)"%u) ++ AA) ("\1\2"%u ++ [0x102B]%N)]
  ++ foreach (zip yrvh yrvhsub) (fun '(x, y) => 
    [ReSub ("(?<!်)္"%u ++ x) y])
  ++ [ReSub [0x103B; 0x102B]%N [0x103B; 0x102C]%N]
  ++ [ReSub "(?<!ဂ)ြါ"%u [0x103C; 0x102C]%N]
  ++ [ReSub [0x103B; 0x1031; 0x102B]%N [0x103B; 0x1031; 0x102C]%N]
  ++ [ReSub "(?<!ဂ)ြေါ"%u [0x103C; 0x1031; 0x102C]%N]
  ++ [Replace "သ္သ"%u "ဿ"%u]
  ++ [Replace "ဉ္ဉ"%u "ည"%u]
  ++ [Replace "˳"%u [0x1037]%N]
  ++ [Replace [0x103A; 0x1037]%N [0x1037; 0x103A]%N]
  ++ [Replace [0x102C; 0x1039]%N [0x102C; 0x103A]%N]
  ++ [ReSub ((("(ရ်္င်္)"%u ++ "("%u) ++ ListC) ++ ")"%u) ("ရ်္င္"%u ++ "\2"%u)]
  ++ [Replace [0x102B; 0x1039]%N [0x102B; 0x103A]%N]
  ++ [Replace [0x103A; 0x1039; 0x101A]%N [0x103B]%N]
  ++ [Replace [0x103C; 0x103A; 0x1039; 0x101D]%N [0x103C; 0x103D]%N]
  ++ [ReSub ("(ှ)"%u ++ "([ျြွ])"%u) "\2\1"%u]
  ++ [Replace [0x103C; 0x103B]%N [0x103B; 0x103C]%N]
  ++ [Replace [0x103D; 0x103B]%N [0x103B; 0x103D]%N]
  ++ [Replace [0x103D; 0x103C]%N [0x103C; 0x103D]%N]
  ++ [Replace "ရျ"%u "ရ်္ယ"%u]
  ++ [Replace "ငျ"%u "င်္ယ"%u])) else ([ReSub ("([ျြွ])"%u ++ "(ှ)"%u) "\2\1"%u]
  ++ [Replace [0x103B; 0x103C]%N [0x103C; 0x103B]%N]
  ++ [Replace [0x103B; 0x103D]%N [0x103D; 0x103B]%N]
  ++ [Replace [0x103C; 0x103D]%N [0x103D; 0x103C]%N]
  ++ [Replace "ဿ"%u "သ္သ"%u]
  ++ [Replace "ည"%u "ဉ္ဉ"%u]
  ++ [Replace [0x1037; 0x103A]%N [0x103A; 0x1037]%N]
  ++ [Replace [0x1037]%N "˳"%u]
  ++ [Replace [0x1039]%N vir]
  ++ [Replace [0x102B]%N AA]
  ++ (let! v8 := idx (attr "EastIndic"%u "Burmese"%u "ConsonantMap"%u) (4)%Z in
  let! v9 := idx (attr "EastIndic"%u "Burmese"%u "ConsonantMap"%u) (4)%Z in
  [Replace ((v8 ++ vir) ++ vir) (v9 ++ vir)]
  ++ [Replace (("ရ"%u ++ vir) ++ vir) ("ရ"%u ++ vir)]
  ++ foreach (zip yrvh yrvhsub) (fun '(x, y) => 
    [Replace y (vir ++ x)])))).

(** aksharamukha/ConvertFix.py:1195-1241  def FixMon(Strng, reverse=False) *)
Definition CF_FixMon (reverse : bool) : prog :=
  let pairs := [("င"%u, "ၚ"%u); ("ဉ"%u, "ည"%u); ("ဈ"%u, "ၛ"%u)] in
  foreach pairs (fun '(x, y) => 
    [Replace y x])
  ++ (CF_FixBurmese reverse)
  ++ [Replace "ည"%u [0xE001]%N]
  ++ foreach pairs (fun '(x, y) => 
    [Replace x y])
  ++ [Replace [0xE001]%N "ည္ည"%u]
  ++ (let medials_cons_mon := [[0x1039; 0x1014]%N; [0x1039; 0x1019]%N; [0x1039; 0x101C]%N] in
  let medials_mon := [[0x105E]%N; [0x105F]%N; [0x1060]%N] in
  (if (negb reverse) then (foreach (zip medials_cons_mon medials_mon) (fun '(x, y) => 
    [Replace x y])
  ++ [Replace [0x1060; 0x103C]%N [0x103C; 0x1060]%N]
  ++ foreach (enumerate medials_mon) (fun '(i, med1) => 
    foreach (enumerate medials_mon) (fun '(j, med2) => 
    let! v1 := idx medials_cons_mon i in
  let! v2 := idx medials_cons_mon j in
  [Replace (med1 ++ med2) (v1 ++ v2)]))
  ++ foreach (enumerate medials_mon) (fun '(i, med) => 
    let! v3 := idx medials_cons_mon i in
  [Replace (med ++ [0x103B]%N) (v3 ++ [0x103B]%N)]
  ++ (let! v4 := idx medials_cons_mon i in
  [Replace ("ရ်"%u ++ med) ("ရ်"%u ++ v4)]
  ++ (let! v5 := idx medials_cons_mon i in
  [Replace ("ၚ်"%u ++ med) ("ၚ်"%u ++ v5)])))) else ([Replace [0x103A; 0x101B; 0x1060]%N [0x1060; 0x103A; 0x101B]%N]
  ++ foreach (zip medials_cons_mon medials_mon) (fun '(x, y) => 
    [Replace y x])
  ++ [Replace [0x1039]%N [0x103A]%N]))).

(** aksharamukha/ConvertFix.py:1368-1374  def FixTagbanwa(Strng, reverse=False) *)
Definition CF_FixTagbanwa (reverse : bool) : prog :=
  (if (negb reverse) then ((PP_InsertGeminationSign "Tagbanwa"%u)) else ([])).

(** aksharamukha/ConvertFix.py:1376-1382  def FixBuhid(Strng, reverse=False) *)
Definition CF_FixBuhid (reverse : bool) : prog :=
  (if (negb reverse) then ((PP_InsertGeminationSign "Buhid"%u)) else ([])).

(** aksharamukha/ConvertFix.py:1384-1401  def FixBuginese(Strng, reverse=False) *)
Definition CF_FixBuginese (reverse : bool) : prog :=
  (if (negb reverse) then ([Replace "ᨂʾᨀ"%u "ᨃ"%u]
  ++ [Replace "ᨆʾᨄ"%u "ᨇ"%u]
  ++ [Replace "ᨊʾᨑ"%u "ᨋ"%u]
  ++ [Replace "ᨎʾᨌ"%u "ᨏ"%u]
  ++ (PP_InsertGeminationSign "Buginese"%u)
  ++ [Replace "ʾ"%u []]) else ([Replace "ᨃ"%u "ᨂʾᨀ"%u]
  ++ [Replace "ᨇ"%u "ᨆʾᨄ"%u]
  ++ [Replace "ᨋ"%u "ᨊʾᨑ"%u]
  ++ [Replace "ᨏ"%u "ᨎʾᨌ"%u])).

(** aksharamukha/ConvertFix.py:1349-1366  def AddRepha(Strng, Script, Repha, reverse=False) *)
Definition CF_AddRepha (Script : str) (Repha : str) (reverse : bool) : prog :=
  let! v1 := CrunchSymbols GM_VowelSigns Script in
  let! v2 := idx v1 (0)%Z in
  let vir := v2 in
  let! v3 := CrunchSymbols GM_Consonants Script in
  let! v4 := idx v3 (26)%Z in
  let ra := v4 in
  let! v5 := CrunchSymbols GM_Consonants Script in
  let ListC := (join "|"%u v5) in
  let! v6 := CrunchSymbols GM_Vowels Script in
  let ListV := (join "|"%u v6) in
  let! v7 := CrunchSymbols GM_VowelSignsNV Script in
  let ListVS := (join "|"%u v7) in
  (if (negb reverse) then ([ReSub (((((((((("("%u ++ ListC) ++ "|"%u) ++ ListV) ++ "|"%u) ++ ListVS) ++ ")"%u) ++ "("%u) ++ ra) ++ vir) ++ ")"%u) ("\1"%u ++ Repha)]) else ([Replace Repha (ra ++ vir)])).

(** aksharamukha/ConvertFix.py:1405-1422  def FixBalinese(Strng, reverse=False) *)
Definition CF_FixBalinese (reverse : bool) : prog :=
  let Repha := [0x1B03]%N in
  (CF_AddRepha "Balinese"%u Repha reverse)
  ++ (if (negb reverse) then ([]) else ([Replace "ᭌ"%u "ᬚ᭄ᬜ"%u]
  ++ (let vowelsA := ["ᬅᬶ"%u; "ᬅᬷ"%u; "ᬅᬸ"%u; "ᬅᬹ"%u; "ᬅᬺ"%u; "ᬅᬻ"%u; "ᬅ᭄ᬮᭂ"%u; "ᬅ᭄ᬮᭃ"%u; "ᬅᬾ"%u; "ᬅᬿ"%u; "ᬅᭀ"%u; "ᬅᭁ"%u] in
  let vowels := ["ᬇ"%u; "ᬈ"%u; "ᬉ"%u; "ᬊ"%u; "ᬋ"%u; "ᬌ"%u; "ᬍ"%u; "ᬎ"%u; "ᬏ"%u; "ᬐ"%u; "ᬑ"%u; "ᬒ"%u] in
  foreach (zip vowels vowelsA) (fun '(v, vA) => 
    [Replace vA v])))).

(** aksharamukha/ConvertFix.py:1425-1471  def FixDivesAkuru(Strng, reverse=False) *)
Definition CF_FixDivesAkuru (reverse : bool) : prog :=
  let target := "DivesAkuru"%u in
  let! v1 := CrunchSymbols GM_Consonants target in
  let ListC := (join "|"%u (v1 ++ ["𑤦"%u])) in
  let! v2 := CrunchSymbols GM_VowelSigns target in
  let ListV := (join "|"%u v2) in
  let! v3 := CrunchSymbols GM_CombiningSigns target in
  let ListA := (join "|"%u v3) in
  let! v4 := CrunchSymbols GM_Consonants target in
  let! v5 := idx v4 (26)%Z in
  let ra := v5 in
  let! v6 := CrunchSymbols GM_Consonants target in
  let! v7 := idx v6 (25)%Z in
  let ya := v7 in
  let! v8 := CrunchSymbols GM_virama target in
  let! v9 := idx v8 (0)%Z in
  let vir := v9 in
  let combVir := [0x1193E]%N in
  let aVS := [0x11F34]%N in
  (if (negb reverse) then ([ReSub (((vir ++ "("%u) ++ ListC) ++ ")"%u) (combVir ++ "\1"%u)]
  ++ [ReSub (combVir ++ ra) [0x11942]%N]
  ++ [ReSub (combVir ++ ya) [0x11940]%N]
  ++ [ReSub ((((("(?<!𑤾)"%u ++ ra) ++ [0x1193E]%N) ++ "("%u) ++ ListC) ++ ")"%u) ("𑥁"%u ++ "\1"%u)]) else (let homoNasal := "𑤿"%u in
  [ReSub (homoNasal ++ "(?=[𑤌𑤍𑤎𑤏])"%u) "𑤐𑤾"%u]
  ++ [ReSub (homoNasal ++ "(?=[𑤑𑤒𑤓])"%u) "𑤕𑤾"%u]
  ++ [ReSub (homoNasal ++ "(?=[𑤖𑤘𑤙])"%u) "𑤚𑤾"%u]
  ++ [ReSub (homoNasal ++ "(?=[𑤛𑤜𑤝𑤞])"%u) "𑤟𑤾"%u]
  ++ [ReSub (homoNasal ++ "(?=[𑤠𑤡𑤢𑤣])"%u) "𑤤𑤾"%u]
  ++ [Replace combVir vir]
  ++ [Replace "𑤦"%u "𑤥"%u]
  ++ [ReSub combVir vir]
  ++ [ReSub [0x11942]%N (vir ++ ra)]
  ++ [ReSub [0x11940]%N (vir ++ ya)]
  ++ [ReSub "𑥁"%u (vir ++ ra)])).

(** aksharamukha/ConvertFix.py:1474-1521  def FixKawi(Strng, reverse=False) *)
Definition CF_FixKawi (reverse : bool) : prog :=
  let target := "Kawi"%u in
  let! v1 := CrunchSymbols GM_Consonants target in
  let ListC := (join "|"%u v1) in
  let! v2 := CrunchSymbols GM_VowelSigns target in
  let ListV := (join "|"%u v2) in
  let! v3 := CrunchSymbols GM_CombiningSigns target in
  let ListA := (join "|"%u v3) in
  let! v4 := idx (attr "EastIndic"%u "Kawi"%u "ConsonantMap"%u) (26)%Z in
  let ra := v4 in
  let! v5 := idx (attr "EastIndic"%u "Kawi"%u "ViramaMap"%u) (0)%Z in
  let vir := v5 in
  let aVS := [0x11F34]%N in
  let aVSAlt := [0x11F35]%N in
  let E := [0x11F3E]%N in
  let AA := [0x11F34]%N in
  (if (negb reverse) then ([ReSub (((vir ++ "("%u) ++ ListC) ++ ")"%u) ([0x11F42]%N ++ "\1"%u)]
  ++ [ReSub ((((([0x28; 0x3F; 0x3C; 0x21; 0x11F42; 0x29]%N ++ ra) ++ [0x11F42]%N) ++ "("%u) ++ ListC) ++ ")"%u) ([0x11F02]%N ++ "\1"%u)]
  ++ (let TallACons := (join "|"%u [[0x11F26]%N; [0x11F16]%N; [0x11F1C]%N]) in
  [ReSub (((((([0x28; 0x3F; 0x3C; 0x21; 0x11F42; 0x29; 0x28]%N ++ TallACons) ++ ")"%u) ++ "("%u) ++ E) ++ "?)"%u) ++ AA) ("\1\2"%u ++ [0x11F35]%N)]
  ++ [ReSub (((((((("("%u ++ TallACons) ++ [0x29; 0x28; 0x11F42; 0x29; 0x28]%N) ++ ListC) ++ ")"%u) ++ "("%u) ++ E) ++ "?)"%u) ++ AA) ("\1\2\3\4"%u ++ [0x11F35]%N)]
  ++ [ReSub ((((((((((("("%u ++ TallACons) ++ [0x29; 0x28; 0x11F42; 0x29; 0x28]%N) ++ ListC) ++ ")"%u) ++ [0x28; 0x11F42; 0x29; 0x28]%N) ++ ListC) ++ ")"%u) ++ "("%u) ++ E) ++ "?)"%u) ++ AA) ("\1\2\3\4\5\6"%u ++ [0x11F35]%N)]
  ++ (let postBaseCons := (join "|"%u [[0x11F1A]%N; [0x11F26]%N; [0x11F27]%N; [0x11F2B]%N; [0x11F31]%N]) in
  [ReSub ((([0x28; 0x11F42; 0x29; 0x28]%N ++ postBaseCons) ++ ")"%u) ++ [0x28; 0x11F35; 0x29]%N) ("\1\2"%u ++ AA)]))) else ([Replace [0x11F42]%N vir]
  ++ [Replace [0x11F02]%N (ra ++ vir)]
  ++ [Replace aVSAlt aVS]
  ++ [Replace [0x11F33]%N [0x11F19; 0x11F42; 0x11F1B]%N]
  ++ [Replace [0x11F04; 0x11F34]%N [0x11F05]%N]
  ++ [Replace [0x11F06; 0x11F34]%N [0x11F07]%N]
  ++ [Replace [0x11F08; 0x11F34]%N [0x11F09]%N]
  ++ [Replace [0x11F3E; 0x11F3E]%N [0x11F3F]%N])).

(** aksharamukha/ConvertFix.py:1524-1552  def FixJavanese(Strng, reverse=False) *)
Definition CF_FixJavanese (reverse : bool) : prog :=
  let Repha := [0xA982]%N in
  let! v1 := idx (attr "EastIndic"%u "Javanese"%u "ViramaMap"%u) (0)%Z in
  let vir := v1 in
  let! v2 := idx (attr "EastIndic"%u "Javanese"%u "ConsonantMap"%u) (26)%Z in
  let! v3 := idx (attr "EastIndic"%u "Javanese"%u "ConsonantMap"%u) (25)%Z in
  let '(ra, ya) := (v2, v3) in
  let '(SubRa, SubYa) := ([0xA9BF]%N, [0xA9BE]%N) in
  (CF_AddRepha "Javanese"%u Repha reverse)
  ++ (if (negb reverse) then ([Replace (vir ++ ra) SubRa]
  ++ [Replace (vir ++ ya) SubYa]) else ([Replace "ꦘ"%u "ꦗ꧀ꦚ"%u]
  ++ [Replace "ꦬ"%u ra]
  ++ [Replace SubRa (vir ++ ra)]
  ++ [Replace SubYa (vir ++ ya)]
  ++ [Replace "ᭌ"%u "ᬚ᭄ᬜ"%u]
  ++ (let vowelsA := ["ꦄꦶ"%u; "ꦄꦷ"%u; "ꦄꦸ"%u; "ꦄꦹ"%u; "ꦄꦽ"%u; "ꦄ꧀ꦉꦴ"%u; "ꦄ꧀ꦭꦼ"%u; "ꦄ꧀ꦭꦼꦴ"%u; "ꦄꦺ"%u; "ꦄꦻ"%u; "ꦄꦺꦴ"%u; "ꦄꦻꦴ"%u] in
  let vowels := ["ꦆ"%u; "ꦇ"%u; "ꦈ"%u; "ꦈꦴ"%u; "ꦉ"%u; "ꦉꦴ"%u; "ꦊ"%u; "ꦋ"%u; "ꦌ"%u; "ꦍ"%u; "ꦎ"%u; "ꦎꦴ"%u] in
  foreach (zip vowels vowelsA) (fun '(v, vA) => 
    [Replace vA v])))).

(** aksharamukha/ConvertFix.py:1821-1834  def PersoArabicPuntuation(Strng, reverse=False) *)
Definition CF_PersoArabicPuntuation (reverse : bool) : prog :=
  (if (negb reverse) then (foreach (zip [","%u; "?"%u; ";"%u] ["،"%u; "؟"%u; "؛"%u]) (fun '(x, y) => 
    [Replace x y])
  ++ [Replace "."%u "۔"%u]) else (foreach (zip [","%u; "?"%u; ";"%u] ["،"%u; "؟"%u; "؛"%u]) (fun '(x, y) => 
    [Replace y x])
  ++ [Replace "۔"%u "."%u])).

(** aksharamukha/ConvertFix.py:1563-1818  def FixUrduShahmukhi(Target, Strng, reverse=False) *)
Definition CF_FixUrduShahmukhi (Target : str) (reverse : bool) : prog :=
  [Replace "ʽ"%u []]
  ++ (let! v1 := CrunchSymbols GM_VowelSigns Target in
  let! v2 := idx v1 (0)%Z in
  let vir := v2 in
  let! v5 := mapR (fun x => do v3 <- CrunchList "ConsonantMap"%u Target; do v4 <- idx v3 x; Ok v4) ([(0)%Z; (2)%Z; (5)%Z; (7)%Z; (10)%Z; (12)%Z; (15)%Z; (17)%Z; (20)%Z; (22)%Z; (4)%Z; (9)%Z; (14)%Z; (19)%Z; (24)%Z] ++ (range (25)%Z (33)%Z)) in
  let ConUnAsp := v5 in
  let! v6 := CrunchList "SouthConsonantMap"%u Target in
  let! v7 := CrunchList "NuktaConsonantMap"%u Target in
  let ConUnAsp := ((ConUnAsp ++ v6) ++ v7) in
  let ShortVowels := (join "|"%u [[0x652]%N; [0x64E]%N; [0x650]%N; [0x64F]%N]) in
  let a := [0x64E]%N in
  let ya := "ی"%u in
  let va := "و"%u in
  let yaBig := "ے"%u in
  let! v8 := idx (attr "MainIndic"%u "Urdu"%u "VowelSignMap"%u) (0)%Z in
  let Aa := v8 in
  (if (negb reverse) then (let! v9 := CrunchSymbols GM_VowelSigns Target in
  let ListVS := (("("%u ++ (join "|"%u v9)) ++ ")"%u) in
  let! v10 := CrunchSymbols GM_Vowels Target in
  let ListV := (("("%u ++ (join "|"%u v10)) ++ ")"%u) in
  let! v11 := CrunchSymbols GM_VowelSigns Target in
  let ListVSA := (("("%u ++ (join "|"%u (v11 ++ [a]))) ++ ")"%u) in
  let! v12 := CrunchSymbols GM_Consonants Target in
  let ListC := (("("%u ++ (join "|"%u v12)) ++ ")"%u) in
  [ReSub ("(ںʽ?)"%u ++ ListC) ("ن٘"%u ++ "\2"%u)]
  ++ (let hamzaFull := "ء"%u in
  let hamzaChair := "ئ"%u in
  [ReSub (ListVS ++ ListV) (("\1"%u ++ hamzaFull) ++ "\2"%u)]
  ++ [ReSub (ListV ++ ListV) (("\1"%u ++ hamzaFull) ++ "\2"%u)]
  ++ [ReSub (((((("("%u ++ a) ++ ")"%u) ++ ListV) ++ "(?!"%u) ++ ListVSA) ++ ")"%u) (("\1"%u ++ hamzaFull) ++ "\2"%u)]
  ++ [ReSub ((((("("%u ++ a) ++ ")"%u) ++ "("%u) ++ ShortVowels) ++ ")"%u) "\2"%u]
  ++ [ReSub ((((((((((((("(?<!"%u ++ Aa) ++ ")"%u) ++ "("%u) ++ a) ++ ")"%u) ++ "("%u) ++ va) ++ "|"%u) ++ ya) ++ ")"%u) ++ "(?!"%u) ++ ShortVowels) ++ ")"%u) "\2"%u]
  ++ (let! v13 := CrunchSymbols GM_Consonants Target in
  let ListC := (replace a [] (join "|"%u v13)) in
  let! v14 := idx (attr "MainIndic"%u "Urdu"%u "AyogavahaMap"%u) (0)%Z in
  let! v15 := idx (attr "MainIndic"%u "Urdu"%u "AyogavahaMap"%u) (1)%Z in
  let Ayoga := (join "|"%u (chars (v14 ++ v15))) in
  [Replace ya yaBig]
  ++ [ReSub (((((("("%u ++ yaBig) ++ ")"%u) ++ "(?="%u) ++ (join "|"%u ConUnAsp)) ++ ShortVowels) ++ ")"%u) ya]
  ++ [ReSub ((((("("%u ++ yaBig) ++ ")"%u) ++ "("%u) ++ ListC) ++ ")"%u) (ya ++ "\2"%u)]
  ++ [ReSub ((((("("%u ++ yaBig) ++ ")"%u) ++ "("%u) ++ Ayoga) ++ ")"%u) (ya ++ "\2"%u)]
  ++ [Replace ([0x650]%N ++ yaBig) ([0x650]%N ++ ya)]
  ++ (let! v18 := mapR (fun x => do v16 <- CrunchList "ConsonantMap"%u Target; do v17 <- idx v16 x; Ok v17) [(1)%Z; (3)%Z; (6)%Z; (8)%Z; (11)%Z; (13)%Z; (16)%Z; (18)%Z; (21)%Z; (23)%Z] in
  let ConAsp := v18 in
  let ConUnAsp_a := (map (fun x => (replace [0x64E]%N [] x)) ConUnAsp) in
  let! v19 := of_opt KeyError (lookup Target GM_Gemination) in
  [ReSub (((((("("%u ++ (join "|"%u ConUnAsp_a)) ++ ")"%u) ++ "("%u) ++ vir) ++ ")"%u) ++ "\1"%u) ("\1"%u ++ v19)]
  ++ [ReSub "(.)(ّ)(ھ)"%u "\1\3\2"%u]
  ++ [Replace "ےے"%u "یے"%u]
  ++ [Replace "ےی"%u "یی"%u]
  ++ [Replace "ےْ"%u "یْ"%u]
  ++ [Replace "ءاِی"%u "ئِی"%u]
  ++ [Replace "ءاے"%u "ئے"%u]
  ++ [Replace "ءای"%u "ئی"%u]
  ++ [Replace "ءاو"%u "ؤ"%u]
  ++ [Replace "ءاُو"%u "ؤُ"%u]
  ++ [Replace "ءاُ"%u "ؤُ"%u]
  ++ [ReSub (("("%u ++ hamzaFull) ++ ")(اُو)"%u) ("\1"%u ++ "ؤُ"%u)]
  ++ [ReSub (("("%u ++ hamzaFull) ++ ")(اُ)"%u) ("\1"%u ++ "ؤُ"%u)]
  ++ [ReSub (("("%u ++ hamzaFull) ++ ")(او)"%u) ("\1"%u ++ "ؤ"%u)]
  ++ [Replace "ءاِ"%u "ئِ"%u]
  ++ [Replace "ئِءآ"%u "ئِا"%u]
  ++ [ReSub (("("%u ++ hamzaFull) ++ ")(اِ)"%u) ("\1"%u ++ "ئِ"%u)]
  ++ [ReSub (("("%u ++ hamzaFull) ++ ")(ا)(ے|ی)"%u) (("\1"%u ++ "ئ"%u) ++ "\3"%u)]
  ++ [Replace "ئِئ"%u "ئِ"%u]
  ++ [Replace "ئِؤ"%u "ئِو"%u]
  ++ [Replace "ࣇ"%u "لؕ"%u]
  ++ (if (str_eqb Target "Shahmukhi"%u) then ([ReSub "(ن|م|ی|ر|ل|و)(ْ)(ہ)"%u ("\1"%u ++ "ھ"%u)]) else ([])))))) else ((if true then ([Replace "ن٘"%u "ں"%u]
  ++ [ReSub "(\s)ھ"%u ("\1"%u ++ "ہ"%u)]
  ++ [Replace "ۓ"%u "_ے"%u]
  ++ (if (str_eqb Target "Shahmukhi"%u) then ([ReSub "(ن|م|ی|ر|ل|و)(ھ)"%u ("\1"%u ++ [0x652; 0x6C1]%N)]) else ([]))
  ++ [Replace "لؕ"%u "ࣇ"%u]
  ++ (let! v20 := CrunchSymbols GM_Consonants Target in
  let ListC := v20 in
  [Replace "ص"%u "س"%u]
  ++ [Replace "ث"%u "س"%u]
  ++ [Replace "ح"%u "ہ"%u]
  ++ [Replace "ۃ"%u "ہ"%u]
  ++ [Replace "ذ"%u "ز"%u]
  ++ [Replace "ض"%u "ز"%u]
  ++ [Replace "ظ"%u "ز"%u]
  ++ [Replace "ط"%u "ت"%u]
  ++ [Replace "ژ"%u "ز"%u]
  ++ [Replace "ع"%u "اَ"%u]
  ++ [Replace [0x64B]%N "نْ"%u]
  ++ [Replace "ئ"%u ("_"%u ++ ya)]
  ++ [Replace "ؤ"%u (("_"%u ++ va) ++ a)]
  ++ [Replace "ء"%u "_"%u]
  ++ [Replace "یٰ"%u "ا"%u]
  ++ [Replace "ك"%u "ک"%u]
  ++ [Replace "ي"%u "ی"%u]
  ++ [ReSub "(ھ)(ّ)"%u "\2\1"%u]
  ++ [ReSub (("("%u ++ ShortVowels) ++ ")(ّ)"%u) ("\2"%u ++ "\1"%u)]
  ++ [ReSub "(.)(ّ)"%u (("\1"%u ++ [0x652]%N) ++ "\1"%u)]
  ++ [IfIn "ʻʻ"%u ([Replace "ا"%u "اَ"%u]
  ++ [Replace "لؕ"%u "لَؕ"%u]
  ++ foreach ListC (fun c => 
    [Replace (replace a [] c) c]
  ++ [Replace (c ++ "اَ"%u) (c ++ "ا"%u)]
  ++ [Replace ((c ++ "ا"%u) ++ "و"%u) (((c ++ "ا"%u) ++ [0x200B]%N) ++ "و"%u)]
  ++ [Replace ((c ++ "ا"%u) ++ "ی"%u) (((c ++ "ا"%u) ++ [0x200B]%N) ++ "ی"%u)])
  ++ [Replace (a ++ "ھ"%u) ("ھ"%u ++ a)]
  ++ [Replace (("ھ"%u ++ a) ++ "اَ"%u) (("ھ"%u ++ a) ++ "ا"%u)]
  ++ [Replace ((("ھ"%u ++ a) ++ "ا"%u) ++ "و"%u) (((("ھ"%u ++ a) ++ "ا"%u) ++ [0x200B]%N) ++ "و"%u)]
  ++ [Replace ((("ھ"%u ++ a) ++ "ا"%u) ++ "ی"%u) (((("ھ"%u ++ a) ++ "ا"%u) ++ [0x200B]%N) ++ "ی"%u)]
  ++ [Replace (a ++ a) a]
  ++ [Replace "اَے"%u "اے"%u]
  ++ [Replace yaBig ya]
  ++ [Replace "ʻʻ"%u []]) (let ShortVowelsR := (join "|"%u [[0x652]%N; [0x650]%N; [0x64F]%N]) in
  let longVowels := (join "|"%u ["و"%u; "ا"%u; ya]) in
  [Replace yaBig ya]
  ++ (let! v21 := CrunchSymbols GM_Consonants Target in
  let ListCR := (replace a [] (join "|"%u v21)) in
  [ReSub ((((("("%u ++ ListCR) ++ ")"%u) ++ "("%u) ++ ShortVowelsR) ++ ")"%u) (("\1"%u ++ a) ++ "\2"%u)]
  ++ [ReSub (((((((("("%u ++ ListCR) ++ ")"%u) ++ "("%u) ++ longVowels) ++ ")"%u) ++ "(?!"%u) ++ ShortVowels) ++ ")"%u) (("\1"%u ++ a) ++ "\2"%u)]
  ++ [ReSub ((("("%u ++ ListCR) ++ ")"%u) ++ "(_)"%u) (("\1"%u ++ a) ++ "\2"%u)]))]
  ++ (let! v22 := CrunchSymbols GM_VowelSigns Target in
  let VowelVS := (join "|"%u v22) in
  []))) else ([]))))
  ++ (if (negb reverse) then ([]) else ([]))
  ++ (CF_PersoArabicPuntuation reverse)).

(** aksharamukha/ConvertFix.py:1555-1556  def FixUrdu(Strng, reverse=False) *)
Definition CF_FixUrdu (reverse : bool) : prog :=
  (CF_FixUrduShahmukhi "Urdu"%u reverse).

(** aksharamukha/ConvertFix.py:1559-1560  def FixShahmukhi(Strng, reverse=False) *)
Definition CF_FixShahmukhi (reverse : bool) : prog :=
  (CF_FixUrduShahmukhi "Shahmukhi"%u reverse).

(** aksharamukha/ConvertFix.py:1838-1880  def FixThaana(Strng, reverse=False) *)
Definition CF_FixThaana (reverse : bool) : prog :=
  let! v1 := CrunchSymbols GM_Consonants "Thaana"%u in
  let ListC := (join "|"%u v1) in
  let! v2 := CrunchSymbols GM_VowelSigns "Thaana"%u in
  let VowelVS := (join "|"%u v2) in
  let aBase := "އ"%u in
  (if (negb reverse) then ((PP_InsertGeminationSign "Thaana"%u)
  ++ [ReSub ((("(ަ)"%u ++ "(?=("%u) ++ VowelVS) ++ "))"%u) []]
  ++ [Replace "ʾ"%u []]
  ++ foreach (zip [","%u; "?"%u; ";"%u] ["،"%u; "؟"%u; "؛"%u]) (fun '(x, y) => 
    [Replace x y])
  ++ [Replace "ʔ"%u "އް"%u]) else ([Replace "ޢ"%u "އ"%u]
  ++ [Replace "ޡ"%u "ތ"%u]
  ++ [Replace "ޥ"%u "ވ"%u]
  ++ [Replace "ޠ"%u "ތ"%u]
  ++ [Replace "ޟ"%u "ސ"%u]
  ++ [Replace "ޞ"%u "ސ"%u]
  ++ [Replace "ޜ"%u "ށ"%u]
  ++ [Replace "ޛ"%u "ދ"%u]
  ++ [Replace "ޘ"%u "ތ"%u]
  ++ [Replace "ޛ"%u "ދ"%u]
  ++ [Replace "ޙ"%u "ހ"%u]
  ++ [ReSub (((((("("%u ++ (replace [0x7A6]%N [] ListC)) ++ ")"%u) ++ "(?!"%u) ++ VowelVS) ++ "|ަ"%u) ++ ")"%u) ("\1"%u ++ [0x7B0]%N)]
  ++ [ReSub (((((("(?<!"%u ++ aBase) ++ ")(?<!"%u) ++ "ʽʽʽ"%u) ++ ")("%u) ++ VowelVS) ++ ")"%u) ([0x7A6]%N ++ "\1"%u)]
  ++ (PP_ReverseGeminationSign "Thaana"%u)
  ++ [Replace "އް"%u "ʔ"%u]
  ++ foreach (zip [","%u; "?"%u; ";"%u] ["،"%u; "؟"%u; "؛"%u]) (fun '(x, y) => 
    [Replace y x]))).

(** aksharamukha/ConvertFix.py:1882-1888  def FixSaurashtra(Strng, reverse=False) *)
Definition CF_FixSaurashtra (reverse : bool) : prog :=
  (if (negb reverse) then ([Replace "ꢒ꣄ꢰ"%u [0xA892; 0xA8C4; 0x200D; 0xA8B0]%N]) else ([Replace [0xA8B4]%N [0xA8C4; 0xA8B2]%N])).

(** aksharamukha/ConvertFix.py:1894-1959  def FixTibetan(Strng, reverse=False, swapNative=True) *)
Definition CF_FixTibetan (reverse : bool) (swapNative : bool) : prog :=
  let! v2 := mapR (fun x => do v1 <- idx (attr "EastIndic"%u "Tibetan"%u "ViramaMap"%u) (0)%Z; Ok (v1 ++ [Z.to_N x])) (range (3904)%Z (3944)%Z) in
  let ListC := v2 in
  let ListSubC := (map (fun x => [Z.to_N (x + (80)%Z)%Z]) (range (3904)%Z (3944)%Z)) in
  let SubC := ["ཝྭ"%u; "ཡྱ"%u; "རྱ"%u; "རྭ"%u; [0xFBA; 0xFAD]%N] in
  let SubMinC := ["ཝྺ"%u; "ཡྻ"%u; "ཪྻ"%u; "ཪྺ"%u; [0xFBA; 0xFBA]%N] in
  (if (negb reverse) then ([ReSub "([ྈྉ])"%u ("\1"%u ++ [0xF84]%N)]
  ++ foreach (zip ListC ListSubC) (fun '(x, y) => 
    [Replace x y])
  ++ foreach (zip SubC SubMinC) (fun '(x, y) => 
    [Replace x y])
  ++ [Replace " "%u "་"%u]
  ++ [Replace "ཛྷ༹"%u "ཞ"%u]
  ++ [Replace "("%u "༺"%u]
  ++ [Replace ")"%u "༻"%u]
  ++ [Replace "{"%u "༼"%u]
  ++ [Replace "}"%u "༽"%u]) else ([]))
  ++ (if reverse then (let AspirateDecom := ["གྷ"%u; "ཌྷ"%u; "དྷ"%u; "བྷ"%u; "ཛྷ"%u; [0xF92; 0xFB7]%N; [0xF9C; 0xFB7]%N; [0xFA1; 0xFB7]%N; [0xFA6; 0xFB7]%N; [0xFAB; 0xFB7]%N] in
  let AspirateAtomic := ["གྷ"%u; "ཌྷ"%u; "དྷ"%u; "བྷ"%u; "ཛྷ"%u; [0xF93]%N; [0xF9D]%N; [0xFA2]%N; [0xFA7]%N; [0xFAC]%N] in
  foreach (zip AspirateDecom AspirateAtomic) (fun '(x, y) => 
    [Replace x y])
  ++ foreach (zip SubC SubMinC) (fun '(x, y) => 
    [Replace y x])
  ++ foreach (zip ListC ListSubC) (fun '(x, y) => 
    [Replace y x])
  ++ foreach (zip [[0xF84; 0xF62; 0xF80]%N; [0xF84; 0xF62; 0xF71; 0xF80]%N; [0xF84; 0xF63; 0xF80]%N; [0xF84; 0xF63; 0xF71; 0xF80]%N] [[0xFB2; 0xF80]%N; [0xFB2; 0xF71; 0xF80]%N; [0xFB3; 0xF80]%N; [0xFB3; 0xF71; 0xF80]%N]) (fun '(x, y) => 
    [Replace x y])
  ++ [Replace "་"%u " "%u]
  ++ [Replace "༔"%u "།"%u]
  ++ [Replace "༈"%u "།"%u]
  ++ [Replace "༺"%u "("%u]
  ++ [Replace "༻"%u ")"%u]
  ++ [Replace "༼"%u "{"%u]
  ++ [Replace "༽"%u "}"%u]
  ++ [ReSub "([ྈྉ])(྄)"%u "\1"%u]
  ++ (if swapNative then ([Replace "ཇྷ"%u "ཛྷ"%u]
  ++ [Replace "ཇ"%u "ཛ"%u]
  ++ [Replace "ཅ"%u "ཙ"%u]
  ++ [Replace "ཆ"%u "ཚ"%u]
  ++ [Replace "ཞ"%u "ཛྷ༹"%u]
  ++ [Replace "འ"%u "ཨ"%u]) else ([]))) else ([])).

(** aksharamukha/ConvertFix.py:1890-1891  def FixTibetanLoC(Strng, reverse=False) *)
Definition CF_FixTibetanLoC (reverse : bool) : prog :=
  (CF_FixTibetan reverse false).

(** aksharamukha/ConvertFix.py:1964-1984  def ReverseVowelSigns(Strng, Script, reverse=False) *)
Definition CF_ReverseVowelSigns (Script : str) (reverse : bool) : prog :=
  let! v1 := CrunchSymbols GM_VowelSignsNV Script in
  let! v2 := CrunchSymbols GM_VowelSignsNV Script in
  let EAIO := (join "|"%u (sort_len_desc ((slice v1 (Some (9)%Z) (Some (12)%Z)) ++ (slice v2 (Some (17)%Z) None)))) in
  let! v3 := CrunchSymbols GM_Consonants Script in
  let cons_ := (join "|"%u v3) in
  let! v4 := CrunchSymbols GM_Vowels Script in
  let! v5 := idx v4 (0)%Z in
  let! v6 := idx (split_ws v5) (0)%Z in
  let a := v6 in
  let! v7 := CrunchSymbols GM_Consonants Script in
  let consa := (join "|"%u (v7 ++ [a])) in
  (if (str_eqb Script "Thai"%u) then (let EAIO := (EAIO ++ "|ใ"%u) in
  let! v8 := CrunchSymbols GM_Consonants Script in
  let cons_ := (join "|"%u (v8 ++ ["ฮ"%u; "บ"%u; "ฝ"%u; "ด"%u; "ฦ"%u; "ฤ"%u])) in
  (if (str_eqb Script "Lao"%u) then (let! v9 := CrunchSymbols GM_Consonants Script in
  let cons_ := (join "|"%u (v9 ++ ["ດ"%u; "ບ"%u; "ຟ"%u])) in
  []) else ([]))
  ++ (let! v10 := CrunchSymbols GM_Vowels Script in
  let! v11 := idx v10 (0)%Z in
  let a := v11 in
  (if (negb reverse) then ([ReSub (((("("%u ++ consa) ++ ")("%u) ++ EAIO) ++ ")"%u) "\2\1"%u]) else ([ReSub ((((("("%u ++ EAIO) ++ ")"%u) ++ "("%u) ++ consa) ++ ")"%u) "\2\1"%u])))) else ((if (str_eqb Script "Lao"%u) then (let! v12 := CrunchSymbols GM_Consonants Script in
  let cons_ := (join "|"%u (v12 ++ ["ດ"%u; "ບ"%u; "ຟ"%u])) in
  []) else ([]))
  ++ (let! v13 := CrunchSymbols GM_Vowels Script in
  let! v14 := idx v13 (0)%Z in
  let a := v14 in
  (if (negb reverse) then ([ReSub (((("("%u ++ consa) ++ ")("%u) ++ EAIO) ++ ")"%u) "\2\1"%u]) else ([ReSub ((((("("%u ++ EAIO) ++ ")"%u) ++ "("%u) ++ consa) ++ ")"%u) "\2\1"%u]))))).

(** aksharamukha/ConvertFix.py:2023-2038  def ThaiReverseVowelSigns(Strng, reverse=False) *)
Definition CF_ThaiReverseVowelSigns (reverse : bool) : prog :=
  (CF_ReverseVowelSigns "Thai"%u reverse)
  ++ (if (negb reverse) then ([Replace "าํ"%u "ำ"%u]
  ++ [Replace [0xE34; 0xE4D]%N [0xE36]%N]) else ([Replace "ำ"%u "าํ"%u]
  ++ [Replace [0xE36]%N [0xE34; 0xE4D]%N])).

(** aksharamukha/ConvertFix.py:1986-2009  def FixKhomThai(Strng, reverse=False) *)
Definition CF_FixKhomThai (reverse : bool) : prog :=
  (if (negb reverse) then ([Replace "โ"%u "เา"%u]
  ++ (CF_ThaiReverseVowelSigns reverse)
  ++ [ReSub "(.ฺ)(.ฺ)(ใ)"%u "\3\1\2"%u]
  ++ [ReSub "(.ฺ)(ใ)"%u "\2\1"%u]
  ++ [ReSub "((.ฺ)+)(เ)"%u "\3\1"%u]
  ++ [ReSub "(.ฺ)?(.)(ฺร)"%u "\3\1\2"%u]
  ++ [Replace "เอา"%u "โอ"%u]
  ++ [Replace "เอำ"%u "เาอํ"%u]
  ++ [Replace "เาอํ"%u "โอํ"%u]) else ([ReSub "(ใ)(.ฺ)(.ฺ)"%u "\2\3\1"%u]
  ++ [ReSub "(ใ)(.ฺ)"%u "\2\1"%u]
  ++ [ReSub "(ฺร)(.ฺ)?(.)"%u "\2\3\1"%u]
  ++ [ReSub "(เ)((.ฺ)+)"%u "\2\1"%u]
  ++ (CF_ThaiReverseVowelSigns reverse)
  ++ [Replace "เา"%u "โ"%u])).

(** aksharamukha/ConvertFix.py:2171-2188  def ThaiDigraphConjuncts(Strng, reverse=False) *)
Definition CF_ThaiDigraphConjuncts (reverse : bool) : prog :=
  let EAIO := (join [] (slice (attr "EastIndic"%u "Thai"%u "VowelSignMap"%u) (Some (9)%Z) (Some (12)%Z))) in
  let! v1 := CrunchSymbols GM_Consonants "Thai"%u in
  let cons_ := (join "|"%u v1) in
  let! v2 := CrunchSymbols GM_Consonants "Thai"%u in
  let! v3 := CrunchSymbols GM_Consonants "Thai"%u in
  let yrlvh := (join "|"%u ((slice v2 (Some (25)%Z) (Some (29)%Z)) ++ (slice v3 (Some (32)%Z) (Some (33)%Z)))) in
  let sh := (join "|"%u (slice (attr "EastIndic"%u "Thai"%u "ConsonantMap"%u) (Some (31)%Z) (Some (33)%Z))) in
  let! v4 := idx (attr "EastIndic"%u "Thai"%u "ViramaMap"%u) (0)%Z in
  let vir := v4 in
  (if (negb reverse) then ([ReSub ((((((((((("(?<=\s)("%u ++ cons_) ++ ")"%u) ++ "("%u) ++ vir) ++ ")"%u) ++ "(["%u) ++ EAIO) ++ "])"%u) ++ "("%u) ++ cons_) ++ ")"%u) "\3\1\2\4"%u]
  ++ [ReSub ((((((((((("("%u ++ cons_) ++ ")"%u) ++ "("%u) ++ vir) ++ ")"%u) ++ "(["%u) ++ EAIO) ++ "])"%u) ++ "("%u) ++ yrlvh) ++ ")"%u) "\3\1\2\4"%u]
  ++ [ReSub ((((((((((("("%u ++ sh) ++ ")"%u) ++ "("%u) ++ vir) ++ ")"%u) ++ "(["%u) ++ EAIO) ++ "])"%u) ++ "("%u) ++ cons_) ++ ")"%u) "\3\1\2\4"%u]) else ([ReSub (((((((("(["%u ++ EAIO) ++ "])"%u) ++ "("%u) ++ vir) ++ ")"%u) ++ "("%u) ++ cons_) ++ ")"%u) "\2\3\1"%u])).

(** aksharamukha/ConvertFix.py:2011-2021  def FixThai(Strng, reverse=False) *)
Definition CF_FixThai (reverse : bool) : prog :=
  (CF_ThaiReverseVowelSigns reverse)
  ++ (CF_ThaiDigraphConjuncts reverse)
  ++ [IfIn "ʻʻ"%u ((PP_ThaiLaoTranscription "Thai"%u "ะ"%u [0xE31]%N true true)
  ++ [Replace "ʻʻ"%u []]
  ++ [Replace "หฺ์"%u "ห์"%u]) ([])].

(** aksharamukha/ConvertFix.py:3386-3395  def LaoPaliTranscribe(Strng, reverse=False, anusvaraChange=True) *)
Definition CF_LaoPaliTranscribe (reverse : bool) (anusvaraChange : bool) : prog :=
  let '(shortA, conjA) := ("ະ"%u, [0xEB1]%N) in
  (if (negb reverse) then ((PP_ThaiLaoTranscription "LaoPali"%u shortA conjA false anusvaraChange)) else ((PP_ThaiLaoTranscription "LaoPali"%u shortA conjA true true))).

(** aksharamukha/ConvertFix.py:2040-2058  def FixLaoPali(Strng, reverse=False) *)
Definition CF_FixLaoPali (reverse : bool) : prog :=
  (CF_ReverseVowelSigns "LaoPali"%u reverse)
  ++ [IfIn "ʻʻ"%u ((CF_LaoPaliTranscribe true true)
  ++ [Replace "ʻʻ"%u []]
  ++ [Replace "ຫ຺໌"%u "ຫ໌"%u]) ([])]
  ++ (if (negb reverse) then ([Replace "າໍ"%u "ຳ"%u]) else ([Replace "ຳ"%u "າໍ"%u])).

(** aksharamukha/ConvertFix.py:2060-2076  def FixMakasar(Strng, reverse=False) *)
Definition CF_FixMakasar (reverse : bool) : prog :=
  let ListC := (join "|"%u (attr "EastIndic"%u "Makasar"%u "ConsonantMap"%u)) in
  let ListV := (join "|"%u [[0x11EF3]%N; [0x11EF4]%N; [0x11EF5]%N; [0x11EF6]%N]) in
  let Anka := "𑻲"%u in
  (if (negb reverse) then ((PP_InsertGeminationSign "Makasar"%u)
  ++ [Replace "ʾ"%u []]
  ++ [Replace "ʽ"%u []]
  ++ [ReSub (((((("("%u ++ ListC) ++ ")"%u) ++ "("%u) ++ ListV) ++ ")?"%u) ++ "\1"%u) (("\1"%u ++ "\2"%u) ++ Anka)]) else ([ReSub (((((("("%u ++ ListC) ++ ")"%u) ++ "("%u) ++ ListV) ++ ")?"%u) ++ Anka) (("\1"%u ++ "\2"%u) ++ "\1"%u)])).

(** aksharamukha/ConvertFix.py:3373-3383  def LaoTranscribe(Strng, reverse=False) *)
Definition CF_LaoTranscribe (reverse : bool) : prog :=
  let '(shortA, conjA) := ("ະ"%u, [0xEB1]%N) in
  (if (negb reverse) then ((PP_ThaiLaoTranscription "Lao"%u shortA conjA false true)) else ((PP_ThaiLaoTranscription "Lao"%u shortA conjA true true))).

(** aksharamukha/ConvertFix.py:2129-2167  def FixLao(Strng, reverse=False) *)
Definition CF_FixLao (reverse : bool) : prog :=
  (if reverse then ([Replace "ດ"%u [0xE97; 0xEB0A]%N]
  ++ [Replace "ບ"%u [0xE9B; 0xEB0A]%N]
  ++ [Replace "ຟ"%u [0xE9E; 0xEB0A]%N]
  ++ [Replace [0xE00A; 0xEB1]%N [0xE00A; 0xEB0]%N]) else ([]))
  ++ (if (negb reverse) then ([Replace [0xE97; 0xEB0A]%N "ດ"%u]
  ++ [Replace [0xE9B; 0xEB0A]%N "ບ"%u]
  ++ [Replace [0xE9E; 0xEB0A]%N "ຟ"%u]
  ++ [ReSub [0x28; 0x3F; 0x3C; 0x21; 0xE94; 0x29; 0x28; 0x3F; 0x3C; 0x21; 0xE9A; 0x29; 0x28; 0x3F; 0x3C; 0x21; 0xE9F; 0x29; 0xEB0A]%N []]) else ([]))
  ++ (CF_ReverseVowelSigns "Lao"%u reverse)
  ++ (CF_LaoTranscribe reverse)
  ++ (if (negb reverse) then ([Replace "າໍ"%u "ຳ"%u]
  ++ [Replace [0xEB0A]%N []]) else ([Replace "ຳ"%u "າໍ"%u]
  ++ [Replace [0xEBA; 0xEB0A]%N [0xEB0A; 0xEBA]%N]
  ++ [Replace [0xE00A; 0xEBA; 0xEB0]%N [0xE00A]%N]
  ++ [Replace "ອ຺ົ"%u "ອົ"%u])).

(** aksharamukha/ConvertFix.py:2199-2251  def OldPersianSyllable(Strng, reverse=True) *)
Definition CF_OldPersianSyllable (reverse : bool) : prog :=
  let ICons := (map (fun x => (x ++ "𐎡"%u)) ["𐎭"%u; "𐎶"%u; "𐎩"%u; "𐎺"%u; "𐎫"%u; "𐎴"%u; "𐎼"%u]) in
  let ICons_ := (map (fun x => (x ++ "_𐎡"%u)) ["𐎭"%u; "𐎶"%u; "𐎩"%u; "𐎺"%u; "𐎫"%u; "𐎴"%u; "𐎼"%u]) in
  let ISyll := (map (fun x => (x ++ "𐎡"%u)) ["𐎮"%u; "𐎷"%u; "𐎪"%u; "𐎻"%u; "𐎫"%u; "𐎴"%u; "𐎼"%u]) in
  let UCons := (map (fun x => (x ++ "𐎢"%u)) ["𐎭"%u; "𐎶"%u; "𐎣"%u; "𐎥"%u; "𐎫"%u; "𐎴"%u; "𐎼"%u]) in
  let UCons_ := (map (fun x => (x ++ "_𐎢"%u)) ["𐎭"%u; "𐎶"%u; "𐎣"%u; "𐎥"%u; "𐎫"%u; "𐎴"%u; "𐎼"%u]) in
  let USyll := (map (fun x => (x ++ "𐎢"%u)) ["𐎯"%u; "𐎸"%u; "𐎤"%u; "𐎦"%u; "𐎬"%u; "𐎵"%u; "𐎽"%u]) in
  let ACons := (map (fun x => (x ++ "<𐎠"%u)) ["𐎭"%u; "𐎶"%u; "𐎣"%u; "𐎥"%u; "𐎩"%u; "𐎺"%u; "𐎼"%u; "𐎴"%u; "𐎫"%u]) in
  let ASyll := ["𐎭"%u; "𐎶"%u; "𐎣"%u; "𐎥"%u; "𐎩"%u; "𐎺"%u; "𐎼"%u; "𐎴"%u; "𐎫"%u] in
  let SylAlpha := "([𐎧𐎨𐏂𐎰𐎱𐎳𐎲𐎹𐎾𐎿𐏀𐏁𐏃])"%u in
  let! v1 := CrunchSymbols GM_Consonants "OldPersian"%u in
  let ListC := (("("%u ++ (join "|"%u v1)) ++ ")"%u) in
  (if (negb reverse) then ([Replace " "%u "𐏐"%u]
  ++ [Replace "_"%u []]
  ++ [Replace "<"%u []]
  ++ foreach (zip ((ICons ++ UCons) ++ ACons) ((ISyll ++ USyll) ++ ASyll)) (fun '(x, y) => 
    [Replace x y])) else ([ReSub "𐎻(?!𐎡)"%u "𐎻𐎡"%u]
  ++ foreach (zip (ICons_ ++ UCons_) (ISyll ++ USyll)) (fun '(x, y) => 
    [Replace y x])
  ++ [ReSub (SylAlpha ++ "(𐎠𐎡)"%u) "\1<\2"%u]
  ++ [ReSub (SylAlpha ++ "(𐎠𐎢)"%u) "\1<\2"%u]
  ++ [ReSub (ListC ++ "𐎠"%u) ("\1"%u ++ "_𐎠"%u)]
  ++ [ReSub (SylAlpha ++ "([𐎡𐎢])"%u) "\1_\2"%u]
  ++ [ReSub ((("(["%u ++ (join [] ASyll)) ++ "])"%u) ++ "([𐎡𐎢])"%u) ((("\1"%u ++ "<"%u) ++ "𐎠"%u) ++ "\2"%u)]
  ++ [Replace "𐏐"%u " "%u]))
  ++ (if (negb reverse) then ([]) else ([])).

(** aksharamukha/ConvertFix.py:2254-2281  def OldPersianNumeral(Strng, reverse=False) *)
Definition CF_OldPersianNumeral (reverse : bool) : prog :=
  [Fn (fun Strng =>
    match re_numbers Strng with
    | Err e => Err e
    | Ok Numbers =>
        if reverse then
          run [Replace "𐏑"%u "1#"%u; Replace "𐏒"%u "2#"%u; Replace "𐏓"%u "10#"%u; Replace "𐏔"%u "20#"%u; Replace "𐏕"%u "100#"%u] Strng
        else fold_left (fun acc num => do s <- acc; do k <- oldPersianNumber num; Ok (replace (str_of_Z num) k s)) Numbers (Ok Strng)
    end)].

(** aksharamukha/ConvertFix.py:2190-2194  def FixOldPersian(Strng, reverse=False) *)
Definition CF_FixOldPersian (reverse : bool) : prog :=
  (CF_OldPersianSyllable reverse)
  ++ (CF_OldPersianNumeral reverse).

(** aksharamukha/ConvertFix.py:2364-2383  def FixSinhala(Strng, reverse=False) *)
Definition CF_FixSinhala (reverse : bool) : prog :=
  PP_SinhalaDefaultConjuncts
  ++ (if (negb reverse) then ((PP_RetainIndicNumerals "Sinhala"%u true)
  ++ [Replace "ජ්ඤ"%u "ඥ"%u]
  ++ [Replace "(අ)(අ)"%u "(ආ)"%u]) else ((PP_RetainIndicNumerals "Sinhala"%u false)
  ++ [Replace "ඥ"%u "ජ්ඤ"%u]
  ++ [Replace [0x200D]%N []]
  ++ [Replace "(ආ)"%u "(අ)(අ)"%u])).

(** aksharamukha/ConvertFix.py:2546-2596  def FixLimbu(Strng, reverse=False) *)
Definition CF_FixLimbu (reverse : bool) : prog :=
  let! v1 := idx (attr "MainIndic"%u "Limbu"%u "ViramaMap"%u) (0)%Z in
  let vir := v1 in
  let! v3 := mapR (fun x => do v2 <- idx (attr "MainIndic"%u "Limbu"%u "ConsonantMap"%u) x; Ok v2) [(25)%Z; (26)%Z; (28)%Z] in
  let SCons := (map (fun x => (vir ++ x)) v3) in
  let SubCons := [[0x1929]%N; [0x192A]%N; [0x192B]%N] in
  foreach (zip SCons SubCons) (fun '(x, y) => 
    (if (negb reverse) then ([Replace x y]) else ([Replace y x])))
  ++ (let! v4 := CrunchSymbols ((GM_Consonants ++ GM_Vowels) ++ GM_VowelSignsNV) "Limbu"%u in
  let signAll := (join "|"%u v4) in
  let! v6 := mapR (fun x => do v5 <- idx (attr "MainIndic"%u "Limbu"%u "ConsonantMap"%u) x; Ok v5) [(0)%Z; (4)%Z; (15)%Z; (19)%Z; (20)%Z; (24)%Z; (26)%Z; (27)%Z] in
  let FCons := (map (fun x => (x ++ vir)) v6) in
  let FinalCons := [[0x1930]%N; [0x1931]%N; [0x1933]%N; [0x1934]%N; [0x1935]%N; [0x1936]%N; [0x1937]%N; [0x1938]%N] in
  (if reverse then ([ReSub ((("("%u ++ (join "|"%u FinalCons)) ++ ")"%u) ++ "(?=[ᤕᤖᤘ])"%u) ("\1"%u ++ [0x200C]%N)]
  ++ [ReSub "([ᤀᤁᤂᤃᤄᤅᤆᤇᤈᤉᤊᤋᤌᤍᤎᤏᤐᤑᤒᤓᤔᤕᤖᤗᤘᤚᤛᤜᤠᤣᤥᤧᤨᤩᤪᤫ])᤺"%u ("\1"%u ++ "꞉"%u)]) else ([Replace "꞉"%u [0x193A]%N]))
  ++ foreach (zip FCons FinalCons) (fun '(x, y) => 
    (if (negb reverse) then ([ReSub (((((("("%u ++ signAll) ++ ")"%u) ++ "(᤺?)"%u) ++ "("%u) ++ x) ++ ")"%u) ("\1\2"%u ++ y)]) else ([Replace y x])))
  ++ (if (negb reverse) then ([Replace "ʔ"%u [0x1939]%N]
  ++ [Replace "!"%u "᥄"%u]
  ++ [Replace "?"%u "᥅"%u]) else ([Replace [0x1939]%N "ʔ"%u]
  ++ [Replace "᥄"%u "!"%u]
  ++ [Replace "᥅"%u "?"%u]))).

(** aksharamukha/ConvertFix.py:2537-2543  def FixLimbuLoC(Strng, reverse=False) *)
Definition CF_FixLimbuLoC (reverse : bool) : prog :=
  (CF_FixLimbu reverse)
  ++ (if reverse then ([Replace "ʔ"%u [0x1939]%N]
  ++ [Replace "꞉"%u "’"%u]) else ([])).

(** aksharamukha/ConvertFix.py:2599-2649  def FixDevanagari(Strng, reverse=False) *)
Definition CF_FixDevanagari (reverse : bool) : prog :=
  let Sindhi := ["ॻ"%u; "ॼ"%u; "ॾ"%u; "ॿ"%u] in
  let SindhiApprox := ["ˍग"%u; "ˍज"%u; "ˍड"%u; "ˍब"%u] in
  (if (negb reverse) then ([Replace "ʔ"%u "ॽ"%u]
  ++ foreach (zip Sindhi SindhiApprox) (fun '(x, y) => 
    [Replace y x])
  ++ [Replace "ज़़"%u "ॹ"%u]
  ++ [Replace "श़"%u "ॹ"%u]
  ++ [Replace "ऱ्"%u [0x931; 0x94D; 0x200C]%N]
  ++ [Replace [0x931; 0x94D; 0x200C; 0x92F]%N "ऱ्य"%u]
  ++ [Replace [0x931; 0x94D; 0x200C; 0x939]%N "ऱ्ह"%u]
  ++ (let! v1 := CrunchSymbols GM_Consonants "Devanagari"%u in
  let ListC := (join "|"%u v1) in
  [ReSub ((("("%u ++ ListC) ++ ")"%u) ++ "ʼ"%u) ("\1"%u ++ [0x93A]%N)]
  ++ [Replace [0x93E; 0x2BC]%N [0x93B]%N])) else ([Replace [0x954]%N []]
  ++ (PP_DevanagariPrishtamatra true)
  ++ [Replace "ॽ"%u "ʔ"%u]
  ++ [Replace "ॹ"%u "ज़़"%u]
  ++ foreach (zip Sindhi SindhiApprox) (fun '(x, y) => 
    [Replace x y]))).

(** aksharamukha/ConvertFix.py:2651-2658  def FixKaithi(Strng, reverse=False) *)
Definition CF_FixKaithi (reverse : bool) : prog :=
  (if (negb reverse) then ([Replace " "%u "⸱"%u]) else ([Replace "⸱"%u " "%u])).

(** aksharamukha/ConvertFix.py:2660-2661  def FixLao2(Strng, reverse=False) *)
Definition CF_FixLao2 (reverse : bool) : prog :=
  (CF_FixLao reverse).

(** aksharamukha/ConvertFix.py:2663-2669  def FixNandinagari(Strng, reverse=False) *)
Definition CF_FixNandinagari (reverse : bool) : prog :=
  (if (negb reverse) then ([]) else ((PP_NandinagariPrishtamatra true))).

(** aksharamukha/ConvertFix.py:2673-2755  def FixLepcha(Strng, reverse=False) *)
Definition CF_FixLepcha (reverse : bool) : prog :=
  let! v1 := idx (attr "MainIndic"%u "Lepcha"%u "ViramaMap"%u) (0)%Z in
  let vir := v1 in
  let! v2 := idx (attr "MainIndic"%u "Lepcha"%u "ConsonantMap"%u) (27)%Z in
  let la := v2 in
  let! v4 := mapR (fun c => do v3 <- idx (attr "MainIndic"%u "Lepcha"%u "ConsonantMap"%u) c; Ok v3) [(0)%Z; (2)%Z; (20)%Z; (22)%Z; (24)%Z; (32)%Z] in
  let! v5 := idx (attr "MainIndic"%u "Lepcha"%u "NuktaConsonantMap"%u) (6)%Z in
  let conLa := (map (fun x => ((x ++ vir) ++ la)) (v4 ++ [v5])) in
  let conL := ["ᰁ"%u; "ᰄ"%u; "ᰏ"%u; "ᰔ"%u; "ᰖ"%u; "ᰞ"%u; "ᰒ"%u] in
  foreach (zip conLa conL) (fun '(x, y) => 
    (if (negb reverse) then ([Replace x y]) else ([Replace y x])))
  ++ (let yr := (map (fun x => (vir ++ x)) (slice (attr "MainIndic"%u "Lepcha"%u "ConsonantMap"%u) (Some (25)%Z) (Some (27)%Z))) in
  let yrSub := [[0x1C24]%N; [0x1C25]%N] in
  foreach (zip yr yrSub) (fun '(x, y) => 
    (if (negb reverse) then ([Replace x y]) else ([Replace y x])))
  ++ (let! v7 := mapR (fun x => do v6 <- idx (attr "MainIndic"%u "Lepcha"%u "ConsonantMap"%u) x; Ok v6) [(1)%Z; (2)%Z; (3)%Z; (4)%Z; (5)%Z; (6)%Z; (7)%Z; (8)%Z; (9)%Z; (10)%Z; (11)%Z; (12)%Z; (13)%Z; (14)%Z; (16)%Z; (17)%Z; (18)%Z; (21)%Z; (22)%Z; (23)%Z; (29)%Z; (30)%Z; (31)%Z] in
  let listNF := v7 in
  let! v9 := mapR (fun x => do v8 <- idx ((slice (attr "MainIndic"%u "Lepcha"%u "ConsonantMap"%u) None (Some (33)%Z)) ++ (attr "MainIndic"%u "Lepcha"%u "AyogavahaMap"%u)) x; Ok v8) [(0)%Z; (0)%Z; (0)%Z; (34)%Z; (0)%Z; (0)%Z; (0)%Z; (0)%Z; (19)%Z; (15)%Z; (15)%Z; (15)%Z; (15)%Z; (19)%Z; (15)%Z; (15)%Z; (15)%Z; (20)%Z; (20)%Z; (20)%Z; (15)%Z; (15)%Z; (15)%Z] in
  let listF := v9 in
  let listNF := (listNF ++ ((slice (attr "MainIndic"%u "Lepcha"%u "ConsonantMap"%u) (Some (25)%Z) (Some (26)%Z)) ++ (slice (attr "MainIndic"%u "Lepcha"%u "ConsonantMap"%u) (Some (28)%Z) (Some (29)%Z)))) in
  let listF := (listF ++ ((slice (attr "MainIndic"%u "Lepcha"%u "VowelMap"%u) (Some (2)%Z) (Some (3)%Z)) ++ (slice (attr "MainIndic"%u "Lepcha"%u "VowelMap"%u) (Some (4)%Z) (Some (5)%Z)))) in
  (if (negb reverse) then (let! v10 := idx (attr "MainIndic"%u "Lepcha"%u "NuktaMap"%u) (0)%Z in
  [Replace (v10 ++ vir) vir]
  ++ (let! v11 := idx (attr "MainIndic"%u "Lepcha"%u "ConsonantMap"%u) (32)%Z in
  [Replace (v11 ++ vir) []]
  ++ (let consAll := (("("%u ++ (join "|"%u (((attr "MainIndic"%u "Lepcha"%u "ConsonantMap"%u) ++ (attr "MainIndic"%u "Lepcha"%u "VowelMap"%u)) ++ (attr "MainIndic"%u "Lepcha"%u "VowelSignMap"%u)))) ++ ")"%u) in
  foreach (zip listNF listF) (fun '(x, y) => 
    [ReSub ((((consAll ++ "("%u) ++ x) ++ vir) ++ ")"%u) (("\1"%u ++ y) ++ vir)])))) else ([]))
  ++ (let! v13 := mapR (fun c => do v12 <- idx (attr "MainIndic"%u "Lepcha"%u "ConsonantMap"%u) c; Ok v12) [(0)%Z; (15)%Z; (19)%Z; (20)%Z; (24)%Z; (26)%Z; (27)%Z] in
  let conFinal := (map (fun x => (x ++ vir)) v13) in
  let conF := [[0x1C2D]%N; [0x1C33]%N; [0x1C30]%N; [0x1C31]%N; [0x1C2E]%N; [0x1C32]%N; [0x1C2F]%N] in
  let finConsList := (join [] conF) in
  let! v14 := CrunchSymbols ((GM_Consonants ++ GM_Vowels) ++ GM_VowelSignsNV) "Lepcha"%u in
  let signAll := (join "|"%u v14) in
  foreach (zip conFinal conF) (fun '(x, y) => 
    (if (negb reverse) then ([ReSub ((((("("%u ++ signAll) ++ ")"%u) ++ "("%u) ++ x) ++ ")"%u) ("\1"%u ++ y)]) else ([ReSub ((("(["%u ++ finConsList) ++ "])"%u) ++ "(ᰶ)"%u) "\2\1"%u]
  ++ [Replace y x])))
  ++ (let! v15 := CrunchSymbols GM_VowelSignsNV "Lepcha"%u in
  let signVow := (join "|"%u v15) in
  (if (negb reverse) then ([Replace vir []]
  ++ (let! v16 := idx (attr "MainIndic"%u "Lepcha"%u "AyogavahaMap"%u) (1)%Z in
  [ReSub ((((("("%u ++ signVow) ++ ")"%u) ++ "("%u) ++ v16) ++ ")"%u) ("\1"%u ++ [0x1C35]%N)]
  ++ [Replace [0x1C27; 0x1C36; 0x1C35]%N [0x1C27; 0x1C35; 0x1C36]%N]
  ++ [ReSub ((("(ᰶ)"%u ++ "(["%u) ++ finConsList) ++ "])"%u) "\2\1"%u])) else (let! v17 := idx (attr "MainIndic"%u "Lepcha"%u "AyogavahaMap"%u) (1)%Z in
  [Replace [0x1C35]%N v17]
  ++ [Replace [0x1C34; 0x1C36]%N [0x1C36; 0x1C34]%N])))))).

(** aksharamukha/ConvertFix.py:2758-2785  def FixSundanese(Strng, reverse=False) *)
Definition CF_FixSundanese (reverse : bool) : prog :=
  let! v1 := idx (attr "EastIndic"%u "Sundanese"%u "ViramaMap"%u) (0)%Z in
  let vir := v1 in
  let! v2 := idx (attr "EastIndic"%u "Sundanese"%u "ConsonantMap"%u) (26)%Z in
  let r := (v2 ++ vir) in
  let! v3 := CrunchSymbols ((GM_Consonants ++ GM_Vowels) ++ GM_VowelSignsNV) "Sundanese"%u in
  let ListC := (join "|"%u v3) in
  (if (negb reverse) then ([ReSub ((("("%u ++ ListC) ++ ")"%u) ++ r) ("\1"%u ++ [0x1B81]%N)]) else ([Replace [0x1B81]%N r]
  ++ (PP_SundaneseHistoricConjuncts reverse)))
  ++ (let yrl := (map (fun x => (vir ++ x)) (slice (attr "EastIndic"%u "Sundanese"%u "ConsonantMap"%u) (Some (25)%Z) (Some (28)%Z))) in
  let yrlSub := [[0x1BA1]%N; [0x1BA2]%N; [0x1BA3]%N] in
  foreach (zip yrl yrlSub) (fun '(x, y) => 
    (if (negb reverse) then ([Replace x y]) else ([Replace y x])))).

(** aksharamukha/ConvertFix.py:2788-2804  def FixRejang(Strng, reverse=False) *)
Definition CF_FixRejang (reverse : bool) : prog :=
  let! v1 := idx (attr "EastIndic"%u "Rejang"%u "ViramaMap"%u) (0)%Z in
  let vir := v1 in
  let! v2 := idx (attr "EastIndic"%u "Rejang"%u "ConsonantMap"%u) (26)%Z in
  let r := (v2 ++ vir) in
  let! v3 := idx (attr "EastIndic"%u "Rejang"%u "ConsonantMap"%u) (19)%Z in
  let n := (v3 ++ vir) in
  let! v4 := CrunchSymbols ((GM_Consonants ++ GM_Vowels) ++ GM_VowelSignsNV) "Rejang"%u in
  let ListC := (join "|"%u v4) in
  (if (negb reverse) then ([ReSub ((("("%u ++ ListC) ++ ")"%u) ++ r) ("\1"%u ++ [0xA951]%N)]
  ++ [ReSub ((("("%u ++ ListC) ++ ")"%u) ++ n) ("\1"%u ++ [0xA950]%N)]) else ([Replace [0xA951]%N r]
  ++ [Replace [0xA950]%N n])).

(** aksharamukha/ConvertFix.py:2807-2864  def FixChakma(Strng, reverse=False) *)
Definition CF_FixChakma (reverse : bool) : prog :=
  let! v1 := CrunchSymbols GM_Consonants "Chakma"%u in
  let listC := (("("%u ++ (join "|"%u (sort_len_desc (v1 ++ (slice (attr "MainIndic"%u "Chakma"%u "VowelMap"%u) None (Some (1)%Z)))))) ++ ")"%u) in
  let! v2 := CrunchSymbols GM_VowelSigns "Chakma"%u in
  let listV := (("("%u ++ (join "|"%u (sort_len_desc ((v2 ++ (attr "MainIndic"%u "Chakma"%u "ViramaMap"%u)) ++ [[0x11133]%N])))) ++ ")"%u) in
  [Replace "ʽ"%u []]
  ++ (if (negb reverse) then ([ReSub ((((("("%u ++ listC) ++ ")"%u) ++ "(?!"%u) ++ listV) ++ ")"%u) "\1ʾ"%u]
  ++ [Replace [0x11127]%N []]
  ++ [Replace "ʾ"%u [0x11127]%N]
  ++ [Replace "𑄣𑄳𑄦"%u "𑅄"%u]
  ++ [Replace "𑄣𑄴𑄦"%u "𑅄"%u]
  ++ [ReSub ((("("%u ++ listC) ++ ")"%u) ++ "(𑄃𑄨)"%u) ("\1"%u ++ [0x1112D]%N)]
  ++ [Replace [0x1112C; 0x11103; 0x11128; 0x2BC]%N [0x11146]%N]) else ((PP_ChakmaGemination true)
  ++ [Replace "𑅄"%u "𑄣𑄳𑄦"%u]
  ++ [Replace [0x11133; 0x11103]%N [0x11145]%N]
  ++ [Replace [0x11133; 0x11104]%N [0x11146]%N]
  ++ [Replace [0x1112D]%N "𑄃𑄨"%u]
  ++ [Replace [0x11146]%N [0x1112C; 0x11103; 0x11128; 0x2BC]%N]
  ++ [Replace [0x11127]%N "ʾ"%u]
  ++ [ReSub (((((("("%u ++ listC) ++ ")"%u) ++ "(?!"%u) ++ listV) ++ "|ʾ"%u) ++ ")"%u) "\1𑄧"%u]
  ++ [Replace "ʾ"%u []]))
  ++ (let yrlvn := (("("%u ++ (join "|"%u ((slice (attr "MainIndic"%u "Chakma"%u "ConsonantMap"%u) (Some (19)%Z) (Some (20)%Z)) ++ (slice (attr "MainIndic"%u "Chakma"%u "ConsonantMap"%u) (Some (26)%Z) (Some (29)%Z))))) ++ ")"%u) in
  (if (negb reverse) then ([ReSub ((([0x11134]%N ++ "(?="%u) ++ yrlvn) ++ ")"%u) [0x11133]%N]
  ++ (PP_ChakmaGemination false)) else ([Replace [0x11133]%N [0x11134]%N]
  ++ (let vowelDepA := ["𑄃𑄨"%u; "𑄃𑄪"%u; "𑄃𑄬"%u] in
  let vowelIndep := ["𑄄"%u; "𑄅"%u; "𑄆"%u] in
  foreach (zip vowelDepA vowelIndep) (fun '(x, y) => 
    [Replace y x]))))).

(** aksharamukha/ConvertFix.py:2866-2871  def FixIAST(Strng, reverse=False) *)
Definition CF_FixIAST (reverse : bool) : prog :=
  (if reverse then (let! v1 := idx (attr "Roman"%u "IAST"%u "AyogavahaMap"%u) (1)%Z in
  [Replace "ṁ"%u v1]) else ([])).

(** aksharamukha/ConvertFix.py:2893-3034  def FixPhagsPa(Strng, reverse=False) *)
Definition CF_FixPhagsPa (reverse : bool) : prog :=
  let! v1 := idx (attr "EastIndic"%u "PhagsPa"%u "AyogavahaMap"%u) (0)%Z in
  let candraBindu := v1 in
  let ListC := (join "|"%u (sort_len_desc (attr "EastIndic"%u "PhagsPa"%u "ConsonantMap"%u))) in
  let ListV := (join "|"%u (sort_len_desc (attr "EastIndic"%u "PhagsPa"%u "VowelMap"%u))) in
  let ListVS := (join "|"%u (sort_len_desc (attr "EastIndic"%u "PhagsPa"%u "VowelSignMap"%u))) in
  let! v2 := idx (attr "EastIndic"%u "PhagsPa"%u "ViramaMap"%u) (0)%Z in
  let vir := v2 in
  let! v4 := mapR (fun c => do v3 <- idx (attr "EastIndic"%u "PhagsPa"%u "ConsonantMap"%u) c; Ok v3) [(25)%Z; (26)%Z; (28)%Z] in
  let Virrvy := (map (fun x => (vir ++ x)) v4) in
  let Subrvy := ["ꡨ"%u; "ꡱ"%u; "ꡧ"%u] in
  let SubrvyE := (["ꡱꡨ"%u] ++ Subrvy) in
  (if (negb reverse) then (foreach (zip Virrvy Subrvy) (fun '(x, y) => 
    [Replace x y])
  ++ [ReSub ((((("("%u ++ ListV) ++ ")"%u) ++ "("%u) ++ candraBindu) ++ ")"%u) "\2\1"%u]
  ++ [ReSub ((((((((((("("%u ++ ListC) ++ ")"%u) ++ "(("%u) ++ (join "|"%u SubrvyE)) ++ ")?)"%u) ++ "(("%u) ++ ListVS) ++ ")?)"%u) ++ "("%u) ++ candraBindu) ++ ")"%u) "\6\1\2\4"%u]
  ++ (if (negb reverse) then ([Replace " "%u "᠂"%u]
  ++ [Replace "ʽ"%u []]
  ++ [ReSub (((((((((((((((((((((((((("(("%u ++ candraBindu) ++ ")?"%u) ++ "("%u) ++ ListC) ++ ")"%u) ++ "(("%u) ++ (join "|"%u SubrvyE)) ++ ")?)"%u) ++ "(("%u) ++ ListVS) ++ ")?))"%u) ++ "(("%u) ++ candraBindu) ++ ")?"%u) ++ "("%u) ++ ListC) ++ ")"%u) ++ "(("%u) ++ (join "|"%u SubrvyE)) ++ ")?)"%u) ++ "(("%u) ++ ListVS) ++ ")?))"%u) ++ "(?!"%u) ++ vir) ++ ")"%u) "\1 \8"%u]
  ++ [ReSub (((((((((((((((((((((((((("(("%u ++ candraBindu) ++ ")?"%u) ++ "("%u) ++ ListC) ++ ")"%u) ++ "(("%u) ++ (join "|"%u SubrvyE)) ++ ")?)"%u) ++ "(("%u) ++ ListVS) ++ ")?))"%u) ++ "(("%u) ++ candraBindu) ++ ")?"%u) ++ "("%u) ++ ListC) ++ ")"%u) ++ "(("%u) ++ (join "|"%u SubrvyE)) ++ ")?)"%u) ++ "(("%u) ++ ListVS) ++ ")?))"%u) ++ "(?!"%u) ++ vir) ++ ")"%u) "\1 \8"%u]
  ++ [ReSub (((((((((((((((((((("(("%u ++ candraBindu) ++ ")?"%u) ++ "("%u) ++ ListV) ++ "))"%u) ++ "(("%u) ++ candraBindu) ++ ")?"%u) ++ "("%u) ++ ListC) ++ ")"%u) ++ "(("%u) ++ (join "|"%u SubrvyE)) ++ ")?)"%u) ++ "(("%u) ++ ListVS) ++ ")?))"%u) ++ "(?!"%u) ++ vir) ++ ")"%u) "\1 \4"%u]
  ++ [ReSub (((((((((((((((((((("(("%u ++ candraBindu) ++ ")?"%u) ++ "("%u) ++ ListV) ++ "))"%u) ++ "(("%u) ++ candraBindu) ++ ")?"%u) ++ "("%u) ++ ListC) ++ ")"%u) ++ "(("%u) ++ (join "|"%u SubrvyE)) ++ ")?)"%u) ++ "(("%u) ++ ListVS) ++ ")?))"%u) ++ "(?!"%u) ++ vir) ++ ")"%u) "\1 \4"%u]
  ++ [ReSub (((((((((((((((((((("(("%u ++ candraBindu) ++ ")?"%u) ++ "("%u) ++ ListC) ++ ")"%u) ++ "(("%u) ++ (join "|"%u SubrvyE)) ++ ")?)"%u) ++ "(("%u) ++ ListVS) ++ ")?))"%u) ++ "(("%u) ++ candraBindu) ++ ")?"%u) ++ "("%u) ++ ListV) ++ "))"%u) ++ "(?!"%u) ++ vir) ++ ")"%u) "\1 \8"%u]
  ++ [ReSub (((((((((((((((((((("(("%u ++ candraBindu) ++ ")?"%u) ++ "("%u) ++ ListC) ++ ")"%u) ++ "(("%u) ++ (join "|"%u SubrvyE)) ++ ")?)"%u) ++ "(("%u) ++ ListVS) ++ ")?))"%u) ++ "(("%u) ++ candraBindu) ++ ")?"%u) ++ "("%u) ++ ListV) ++ "))"%u) ++ "(?!"%u) ++ vir) ++ ")"%u) "\1 \8"%u]
  ++ [ReSub ((((((((((((((((("(("%u ++ candraBindu) ++ ")?"%u) ++ "("%u) ++ ListV) ++ "))"%u) ++ "(?!"%u) ++ vir) ++ ")"%u) ++ "(("%u) ++ candraBindu) ++ ")?"%u) ++ "("%u) ++ ListV) ++ "))"%u) ++ "(?!"%u) ++ vir) ++ ")"%u) "\1 \4"%u]
  ++ [ReSub ((((((((((((((((("(("%u ++ candraBindu) ++ ")?"%u) ++ "("%u) ++ ListV) ++ "))"%u) ++ "(?!"%u) ++ vir) ++ ")"%u) ++ "(("%u) ++ candraBindu) ++ ")?"%u) ++ "("%u) ++ ListV) ++ "))"%u) ++ "(?!"%u) ++ vir) ++ ")"%u) "\1 \4"%u]
  ++ [Replace [0xA]%N [0xA]%N]
  ++ [Prepend "ኺ᠂"%u]
  ++ (let ListCE := ((ListC ++ "|"%u) ++ (join "|"%u SubrvyE)) in
  [ReSub ((((((((((((([0x28; 0x3F; 0x3A; 0x28; 0x3F; 0x3C; 0x21; 0xA; 0x29; 0x28; 0x3F; 0x3C; 0x21; 0x1802; 0x29; 0x28; 0x3F; 0x3C; 0x21; 0x5B; 0x2C; 0x5C; 0x2E; 0x22; 0x5C; 0x3F; 0x5C; 0x26; 0x5C; 0x28; 0x5C; 0x29; 0x5D; 0x29; 0x29]%N ++ "(?<!"%u) ++ vir) ++ ")"%u) ++ "("%u) ++ ListC) ++ ")"%u) ++ vir) ++ "(("%u) ++ candraBindu) ++ ")?"%u) ++ "("%u) ++ ListC) ++ "))"%u) "\1 \2"%u]
  ++ [ReSub (((((((((("(?<!᠂)"%u ++ "("%u) ++ ListC) ++ ")"%u) ++ vir) ++ "(("%u) ++ candraBindu) ++ ")?"%u) ++ "("%u) ++ ListV) ++ "))"%u) " \1"%u]
  ++ [Replace vir []]
  ++ [Replace "ṿ"%u []]
  ++ [Replace "Ṿ"%u []]
  ++ [Replace "ኺ᠂"%u []]
  ++ [Replace "᠂"%u " ᠂ "%u])) else ([Replace "ꡆ"%u "ꡒ"%u]
  ++ foreach (zip Virrvy Subrvy) (fun '(x, y) => 
    [Replace x y])
  ++ [ReSub (((((((((((((((((((("(("%u ++ ListC) ++ ")"%u) ++ "(("%u) ++ (join "|"%u SubrvyE)) ++ ")?)"%u) ++ "(?!"%u) ++ ListVS) ++ "))"%u) ++ "((("%u) ++ ListC) ++ ")"%u) ++ "(("%u) ++ (join "|"%u SubrvyE)) ++ ")?)"%u) ++ "(("%u) ++ ListVS) ++ "))"%u) ++ "("%u) ++ candraBindu) ++ ")?))"%u) (("\1"%u ++ vir) ++ "\6"%u)]
  ++ [ReSub (((((((((((((((((((("((("%u ++ ListC) ++ ")"%u) ++ "(("%u) ++ (join "|"%u SubrvyE)) ++ ")?)"%u) ++ "(("%u) ++ ListVS) ++ ")?)"%u) ++ "("%u) ++ candraBindu) ++ ")?)"%u) ++ "(("%u) ++ ListC) ++ ")"%u) ++ "(("%u) ++ (join "|"%u SubrvyE)) ++ ")?)"%u) ++ "(?!"%u) ++ ListVS) ++ ")))"%u) ("\1"%u ++ vir)]
  ++ [ReSub (((((((((((((("((("%u ++ ListV) ++ ")"%u) ++ "("%u) ++ candraBindu) ++ ")?)"%u) ++ "(("%u) ++ ListC) ++ ")"%u) ++ "(("%u) ++ (join "|"%u SubrvyE)) ++ ")?)"%u) ++ "(?!"%u) ++ ListVS) ++ ")))"%u) ("\1"%u ++ vir)]
  ++ foreach (zip Virrvy Subrvy) (fun '(x, y) => 
    [Replace y x])
  ++ [Replace " "%u []]
  ++ [Replace "᠂"%u " "%u]
  ++ [Replace "᠃"%u " "%u]
  ++ [Replace (vir ++ vir) vir]))) else (let ListV := (replace "ṿ"%u [] ListV) in
  [Replace "ꡖꡘꡟ"%u "ꡱꡖꡟ"%u]
  ++ (let Aspirate := [("ꡂꡜ"%u, "ṾꡂṾꡜṾ"%u); ("ꡒꡜ"%u, "ṾꡒṾꡜṾ"%u); ("ꡫꡜ"%u, "ṾꡫṾꡜṾ"%u); ("ꡊꡜ"%u, "ṾꡊṾꡜṾ"%u); ("ꡎꡜ"%u, "ṾꡎṾꡜṾ"%u)] in
  foreach Aspirate (fun '(x, y) => 
    [Replace x y])
  ++ (let! v5 := idx (attr "EastIndic"%u "PhagsPa"%u "VowelSignMap"%u) (0)%Z in
  let! v6 := idx Subrvy (1)%Z in
  [ReSub ((((("("%u ++ v5) ++ ")"%u) ++ "(["%u) ++ (join [] (chars v6))) ++ "])"%u) "\2\1"%u]
  ++ [ReSub ((((((((((("("%u ++ candraBindu) ++ ")"%u) ++ "("%u) ++ ListC) ++ ")"%u) ++ "(("%u) ++ (join "|"%u SubrvyE)) ++ ")?)"%u) ++ "(("%u) ++ ListVS) ++ ")?)"%u) "\2\3\5\1"%u]
  ++ [ReSub ((((("("%u ++ candraBindu) ++ ")"%u) ++ "("%u) ++ ListV) ++ ")"%u) "\2\1"%u]
  ++ foreach (zip Virrvy Subrvy) (fun '(x, y) => 
    [Replace y x])
  ++ [ReSub (("("%u ++ ListV) ++ ")"%u) "ṿ\1"%u]
  ++ [ReSub ((((("("%u ++ ListC) ++ "|ꡖ)"%u) ++ "("%u) ++ "ṿ"%u) ++ ")"%u) "\1"%u]
  ++ (if (negb reverse) then ([Replace " "%u "᠂"%u]
  ++ [Replace "ʽ"%u []]
  ++ [ReSub (((((((((((((((((((((((((("(("%u ++ candraBindu) ++ ")?"%u) ++ "("%u) ++ ListC) ++ ")"%u) ++ "(("%u) ++ (join "|"%u SubrvyE)) ++ ")?)"%u) ++ "(("%u) ++ ListVS) ++ ")?))"%u) ++ "(("%u) ++ candraBindu) ++ ")?"%u) ++ "("%u) ++ ListC) ++ ")"%u) ++ "(("%u) ++ (join "|"%u SubrvyE)) ++ ")?)"%u) ++ "(("%u) ++ ListVS) ++ ")?))"%u) ++ "(?!"%u) ++ vir) ++ ")"%u) "\1 \8"%u]
  ++ [ReSub (((((((((((((((((((((((((("(("%u ++ candraBindu) ++ ")?"%u) ++ "("%u) ++ ListC) ++ ")"%u) ++ "(("%u) ++ (join "|"%u SubrvyE)) ++ ")?)"%u) ++ "(("%u) ++ ListVS) ++ ")?))"%u) ++ "(("%u) ++ candraBindu) ++ ")?"%u) ++ "("%u) ++ ListC) ++ ")"%u) ++ "(("%u) ++ (join "|"%u SubrvyE)) ++ ")?)"%u) ++ "(("%u) ++ ListVS) ++ ")?))"%u) ++ "(?!"%u) ++ vir) ++ ")"%u) "\1 \8"%u]
  ++ [ReSub (((((((((((((((((((("(("%u ++ candraBindu) ++ ")?"%u) ++ "("%u) ++ ListV) ++ "))"%u) ++ "(("%u) ++ candraBindu) ++ ")?"%u) ++ "("%u) ++ ListC) ++ ")"%u) ++ "(("%u) ++ (join "|"%u SubrvyE)) ++ ")?)"%u) ++ "(("%u) ++ ListVS) ++ ")?))"%u) ++ "(?!"%u) ++ vir) ++ ")"%u) "\1 \4"%u]
  ++ [ReSub (((((((((((((((((((("(("%u ++ candraBindu) ++ ")?"%u) ++ "("%u) ++ ListV) ++ "))"%u) ++ "(("%u) ++ candraBindu) ++ ")?"%u) ++ "("%u) ++ ListC) ++ ")"%u) ++ "(("%u) ++ (join "|"%u SubrvyE)) ++ ")?)"%u) ++ "(("%u) ++ ListVS) ++ ")?))"%u) ++ "(?!"%u) ++ vir) ++ ")"%u) "\1 \4"%u]
  ++ [ReSub (((((((((((((((((((("(("%u ++ candraBindu) ++ ")?"%u) ++ "("%u) ++ ListC) ++ ")"%u) ++ "(("%u) ++ (join "|"%u SubrvyE)) ++ ")?)"%u) ++ "(("%u) ++ ListVS) ++ ")?))"%u) ++ "(("%u) ++ candraBindu) ++ ")?"%u) ++ "("%u) ++ ListV) ++ "))"%u) ++ "(?!"%u) ++ vir) ++ ")"%u) "\1 \8"%u]
  ++ [ReSub (((((((((((((((((((("(("%u ++ candraBindu) ++ ")?"%u) ++ "("%u) ++ ListC) ++ ")"%u) ++ "(("%u) ++ (join "|"%u SubrvyE)) ++ ")?)"%u) ++ "(("%u) ++ ListVS) ++ ")?))"%u) ++ "(("%u) ++ candraBindu) ++ ")?"%u) ++ "("%u) ++ ListV) ++ "))"%u) ++ "(?!"%u) ++ vir) ++ ")"%u) "\1 \8"%u]
  ++ [ReSub ((((((((((((((((("(("%u ++ candraBindu) ++ ")?"%u) ++ "("%u) ++ ListV) ++ "))"%u) ++ "(?!"%u) ++ vir) ++ ")"%u) ++ "(("%u) ++ candraBindu) ++ ")?"%u) ++ "("%u) ++ ListV) ++ "))"%u) ++ "(?!"%u) ++ vir) ++ ")"%u) "\1 \4"%u]
  ++ [ReSub ((((((((((((((((("(("%u ++ candraBindu) ++ ")?"%u) ++ "("%u) ++ ListV) ++ "))"%u) ++ "(?!"%u) ++ vir) ++ ")"%u) ++ "(("%u) ++ candraBindu) ++ ")?"%u) ++ "("%u) ++ ListV) ++ "))"%u) ++ "(?!"%u) ++ vir) ++ ")"%u) "\1 \4"%u]
  ++ [Replace [0xA]%N [0xA]%N]
  ++ [Prepend "ኺ᠂"%u]
  ++ (let ListCE := ((ListC ++ "|"%u) ++ (join "|"%u SubrvyE)) in
  [ReSub ((((((((((((([0x28; 0x3F; 0x3A; 0x28; 0x3F; 0x3C; 0x21; 0xA; 0x29; 0x28; 0x3F; 0x3C; 0x21; 0x1802; 0x29; 0x28; 0x3F; 0x3C; 0x21; 0x5B; 0x2C; 0x5C; 0x2E; 0x22; 0x5C; 0x3F; 0x5C; 0x26; 0x5C; 0x28; 0x5C; 0x29; 0x5D; 0x29; 0x29]%N ++ "(?<!"%u) ++ vir) ++ ")"%u) ++ "("%u) ++ ListC) ++ ")"%u) ++ vir) ++ "(("%u) ++ candraBindu) ++ ")?"%u) ++ "("%u) ++ ListC) ++ "))"%u) "\1 \2"%u]
  ++ [ReSub (((((((((("(?<!᠂)"%u ++ "("%u) ++ ListC) ++ ")"%u) ++ vir) ++ "(("%u) ++ candraBindu) ++ ")?"%u) ++ "("%u) ++ ListV) ++ "))"%u) " \1"%u]
  ++ [Replace vir []]
  ++ [Replace "ṿ"%u []]
  ++ [Replace "Ṿ"%u []]
  ++ [Replace "ኺ᠂"%u []]
  ++ [Replace "᠂"%u " ᠂ "%u])) else ([Replace "ꡆ"%u "ꡒ"%u]
  ++ foreach (zip Virrvy Subrvy) (fun '(x, y) => 
    [Replace x y])
  ++ [ReSub (((((((((((((((((((("(("%u ++ ListC) ++ ")"%u) ++ "(("%u) ++ (join "|"%u SubrvyE)) ++ ")?)"%u) ++ "(?!"%u) ++ ListVS) ++ "))"%u) ++ "((("%u) ++ ListC) ++ ")"%u) ++ "(("%u) ++ (join "|"%u SubrvyE)) ++ ")?)"%u) ++ "(("%u) ++ ListVS) ++ "))"%u) ++ "("%u) ++ candraBindu) ++ ")?))"%u) (("\1"%u ++ vir) ++ "\6"%u)]
  ++ [ReSub (((((((((((((((((((("((("%u ++ ListC) ++ ")"%u) ++ "(("%u) ++ (join "|"%u SubrvyE)) ++ ")?)"%u) ++ "(("%u) ++ ListVS) ++ ")?)"%u) ++ "("%u) ++ candraBindu) ++ ")?)"%u) ++ "(("%u) ++ ListC) ++ ")"%u) ++ "(("%u) ++ (join "|"%u SubrvyE)) ++ ")?)"%u) ++ "(?!"%u) ++ ListVS) ++ ")))"%u) ("\1"%u ++ vir)]
  ++ [ReSub (((((((((((((("((("%u ++ ListV) ++ ")"%u) ++ "("%u) ++ candraBindu) ++ ")?)"%u) ++ "(("%u) ++ ListC) ++ ")"%u) ++ "(("%u) ++ (join "|"%u SubrvyE)) ++ ")?)"%u) ++ "(?!"%u) ++ ListVS) ++ ")))"%u) ("\1"%u ++ vir)]
  ++ foreach (zip Virrvy Subrvy) (fun '(x, y) => 
    [Replace y x])
  ++ [Replace " "%u []]
  ++ [Replace "᠂"%u " "%u]
  ++ [Replace "᠃"%u " "%u]
  ++ [Replace (vir ++ vir) vir])))))).

(** aksharamukha/ConvertFix.py:3040-3057  def FixLatn(Strng, Source, reverse=False) *)
Definition CF_FixLatn (Source : str) (reverse : bool) : prog :=
  let vir := [] in
  (if (negb reverse) then ([ReSub (("([aiuāīū"%u ++ vir) ++ "])(꞉)"%u) "\2\1"%u]
  ++ [ReSub "(꞉)(̽)"%u "\2\1"%u]
  ++ [Replace "aʰ"%u "ʰ"%u]) else ([ReSub (("([aiuāīū"%u ++ vir) ++ "])(꞉)"%u) "\2\1"%u]
  ++ [ReSub "(̽)(꞉)"%u "\2\1"%u])).

(** aksharamukha/ConvertFix.py:3059-3070  def FixArab(Strng, Source, reverse=False) *)
Definition CF_FixArab (Source : str) (reverse : bool) : prog :=
  (CF_PersoArabicPuntuation reverse)
  ++ (if (negb reverse) then ([]) else ([Replace "آ"%u "آ"%u]
  ++ [Replace "ـ"%u []]
  ++ [Replace [0x64E; 0x651]%N [0x651; 0x64E]%N])).

(** aksharamukha/ConvertFix.py:3072-3081  def FixThaa(Strng, Source, reverse=False) *)
Definition CF_FixThaa (Source : str) (reverse : bool) : prog :=
  (CF_PersoArabicPuntuation reverse)
  ++ (if (negb reverse) then ([]) else ([])).

(** aksharamukha/ConvertFix.py:3083-3084  def FixArab_Ph(Strng, Source, reverse=False) *)
Definition CF_FixArab_Ph (Source : str) (reverse : bool) : prog :=
  (CF_FixArab Source reverse).

(** aksharamukha/ConvertFix.py:3086-3089  def FixArab_Fa(Strng, Source, reverse=False) *)
Definition CF_FixArab_Fa (Source : str) (reverse : bool) : prog :=
  (CF_FixArab Source reverse).

(** aksharamukha/ConvertFix.py:3091-3101  def FixArab_Ur(Strng, Source, reverse=False) *)
Definition CF_FixArab_Ur (Source : str) (reverse : bool) : prog :=
  (CF_FixArab Source reverse)
  ++ (if (negb reverse) then ((if (negb (str_eqb Source "Type"%u)) then ([]) else ([]))) else ([])).

(** aksharamukha/ConvertFix.py:3103-3110  def FixUgar(Strng, Source, reverse=False) *)
Definition CF_FixUgar (Source : str) (reverse : bool) : prog :=
  (if (negb reverse) then ([Replace "𐎒²"%u "𐎝"%u]
  ++ [Replace " "%u "𐎟"%u]) else ([Replace "𐎟"%u []])).

(** aksharamukha/ConvertFix.py:3112-3118  def FixSogd(Strng, Source, reverse=False) *)
Definition CF_FixSogd (Source : str) (reverse : bool) : prog :=
  (if (negb reverse) then ([Replace "𐼹²"%u "𐽄"%u]) else ([])).

(** aksharamukha/ConvertFix.py:3120-3145  def FixMalayalam(Strng, reverse=False) *)
Definition CF_FixMalayalam (reverse : bool) : prog :=
  (PP_MalayalamChillu reverse false)
  ++ (if (negb reverse) then ((PP_RetainDandasIndic "Malayalam"%u true)
  ++ (PP_RetainIndicNumerals "Malayalam"%u true)) else ((PP_RetainIndicNumerals "Malayalam"%u false)
  ++ (PP_RetainDandasIndic "Malayalam"%u false)
  ++ (let chilluArch := ["ൔ"%u; "ൕ"%u; "ൖ"%u; "ൿ"%u] in
  let chilluArchhVir := ["മ്"%u; "യ്"%u; "ഴ്"%u; "ക്"%u] in
  foreach (zip chilluArch chilluArchhVir) (fun '(ch, chvir) => 
    [Replace ch chvir]))))
  ++ (let Chillus := ["ൺ"%u; "ൻ"%u; "ർ"%u; "ൽ"%u; "ൾ"%u; [0xD29; 0x200D; 0xD4D]%N] in
  let! v1 := CrunchSymbols GM_CombiningSigns "Malayalam"%u in
  let! v2 := idx v1 (1)%Z in
  let Anu := v2 in
  []).

(** aksharamukha/ConvertFix.py:3147-3156  def FixTelugu(Strng, reverse=False) *)
Definition CF_FixTelugu (reverse : bool) : prog :=
  (if (negb reverse) then ((PP_RetainDandasIndic "Telugu"%u true)
  ++ (PP_RetainIndicNumerals "Telugu"%u true)) else ((PP_RetainIndicNumerals "Telugu"%u false)
  ++ (PP_RetainDandasIndic "Telugu"%u false)
  ++ [Replace [0xC01]%N [0xC00]%N])).

(** aksharamukha/ConvertFix.py:3158-3169  def FixMeeteiMayek(Strng, reverse=False) *)
Definition CF_FixMeeteiMayek (reverse : bool) : prog :=
  let! v1 := idx (attr "MainIndic"%u "MeeteiMayek"%u "ViramaMap"%u) (0)%Z in
  let vir := v1 in
  let! v3 := mapR (fun x => do v2 <- idx (attr "MainIndic"%u "MeeteiMayek"%u "ConsonantMap"%u) x; Ok v2) [(0)%Z; (27)%Z; (24)%Z; (20)%Z; (19)%Z; (15)%Z; (4)%Z; (25)%Z] in
  let listC := (map (fun x => (x ++ vir)) v3) in
  let finalC := ["ꯛ"%u; "ꯜ"%u; "ꯝ"%u; "ꯞ"%u; "ꯟ"%u; "ꯠ"%u; "ꯡ"%u; "ꯢ"%u] in
  foreach (zip listC finalC) (fun '(x, y) => 
    (if (negb reverse) then ([ReSub x y]) else ([Replace y x]))).

(** aksharamukha/ConvertFix.py:3176-3182  def FixBatakSima(Strng, reverse=False) *)
Definition CF_FixBatakSima (reverse : bool) : prog :=
  (if (negb reverse) then ([Replace "ᯙᯮ"%u "ᯙᯯ"%u]) else ([Replace "ᯙᯯ"%u "ᯙᯮ"%u])).

(** aksharamukha/ConvertFix.py:3185-3256  def FixCham(Strng, reverse=False) *)
Definition CF_FixCham (reverse : bool) : prog :=
  [Replace "ʽ"%u []]
  ++ (let! v1 := CrunchSymbols GM_Consonants "Cham"%u in
  let ListCAll := (("("%u ++ (join "|"%u v1)) ++ ")"%u) in
  let! v2 := CrunchSymbols GM_Vowels "Cham"%u in
  let ListVow := (("("%u ++ (join "|"%u v2)) ++ ")"%u) in
  let! v3 := CrunchSymbols GM_VowelSignsNV "Cham"%u in
  let ListVowS := (("("%u ++ (join "|"%u v3)) ++ ")"%u) in
  let! v4 := idx (attr "EastIndic"%u "Cham"%u "ViramaMap"%u) (0)%Z in
  let vir := v4 in
  let! v5 := idx (attr "EastIndic"%u "Cham"%u "ConsonantMap"%u) (9)%Z in
  let! v6 := idx (attr "EastIndic"%u "Cham"%u "ConsonantMap"%u) (7)%Z in
  let nja := ((v5 ++ vir) ++ v6) in
  let listC := (map (fun x => (vir ++ x)) (slice (attr "EastIndic"%u "Cham"%u "ConsonantMap"%u) (Some (25)%Z) (Some (29)%Z))) in
  let SubC := [[0xAA33]%N; [0xAA34]%N; [0xAA35]%N; [0xAA36]%N] in
  foreach (zip listC SubC) (fun '(x, y) => 
    (if (negb reverse) then ([Replace x y]) else ([Replace y x])))
  ++ (let! v8 := mapR (fun x => do v7 <- idx (attr "EastIndic"%u "Cham"%u "ConsonantMap"%u) x; Ok v7) [(1)%Z; (3)%Z; (6)%Z; (7)%Z; (8)%Z; (9)%Z; (16)%Z; (17)%Z; (18)%Z; (21)%Z; (22)%Z; (23)%Z; (31)%Z; (29)%Z] in
  let listNF := v8 in
  let! v10 := mapR (fun x => do v9 <- idx (attr "EastIndic"%u "Cham"%u "ConsonantMap"%u) x; Ok v9) [(0)%Z; (2)%Z; (5)%Z; (5)%Z; (5)%Z; (19)%Z; (15)%Z; (15)%Z; (15)%Z; (20)%Z; (20)%Z; (20)%Z; (30)%Z; (30)%Z] in
  let listF := v10 in
  foreach (zip listNF listF) (fun '(x, y) => 
    (if (negb reverse) then ([Replace (x ++ vir) (y ++ vir)]) else ([])))
  ++ (let! v12 := mapR (fun x => do v11 <- idx (attr "EastIndic"%u "Cham"%u "ConsonantMap"%u) x; Ok v11) [(0)%Z; (2)%Z; (4)%Z; (5)%Z; (15)%Z; (19)%Z; (20)%Z; (25)%Z; (26)%Z; (27)%Z; (30)%Z; (24)%Z] in
  let listC := (map (fun x => (x ++ vir)) v12) in
  let finalC := ["ꩀ"%u; "ꩁ"%u; "ꩂ"%u; "ꩄ"%u; "ꩅ"%u; "ꩆ"%u; "ꩇ"%u; "ꩈ"%u; "ꩉ"%u; "ꩊ"%u; "ꩋ"%u; [0xAA4C]%N] in
  foreach (zip listC finalC) (fun '(x, y) => 
    (if (negb reverse) then ([Replace x y]
  ++ [ReSub (((((((("("%u ++ ListCAll) ++ "|"%u) ++ ListVow) ++ "|"%u) ++ ListVowS) ++ ")"%u) ++ "ꨨ"%u) ++ vir) ("\1"%u ++ [0xAA4D]%N)]) else ([Replace [0xAA4D]%N ("ꨨ"%u ++ vir)]
  ++ (if (negb (mem y (attr "EastIndic"%u "Cham"%u "AyogavahaMap"%u))) then ([Replace y x]) else ([])))))
  ++ (let! v13 := idx (attr "EastIndic"%u "Cham"%u "ConsonantMap"%u) (28)%Z in
  let va := v13 in
  (if (negb reverse) then ([Replace (va ++ vir) va]) else ([])))))).

(** aksharamukha/ConvertFix.py:3260-3311  def FixTaiTham(Strng, reverse=False) *)
Definition CF_FixTaiTham (reverse : bool) : prog :=
  let! v1 := idx (attr "EastIndic"%u "TaiTham"%u "ViramaMap"%u) (0)%Z in
  let vir := v1 in
  let! v3 := mapR (fun x => do v2 <- idx (attr "EastIndic"%u "TaiTham"%u "ConsonantMap"%u) x; Ok v2) [(26)%Z; (27)%Z] in
  let Cons := (map (fun x => (vir ++ x)) v3) in
  let Sub := [[0x1A55]%N; [0x1A56]%N] in
  foreach (zip Cons Sub) (fun '(x, y) => 
    (if (negb reverse) then ([Replace x y]) else ([Replace y x])))
  ++ (if (negb reverse) then ([]) else ([]))
  ++ (let! v4 := CrunchSymbols GM_Consonants "TaiTham"%u in
  let ListC := (join "|"%u v4) in
  let! v5 := idx (attr "EastIndic"%u "TaiTham"%u "ConsonantMap"%u) (4)%Z in
  let ng := (v5 ++ vir) in
  (if (negb reverse) then ([ReSub ((((("("%u ++ ng) ++ ")"%u) ++ "("%u) ++ ListC) ++ ")"%u) ([0x1A58]%N ++ "\2"%u)]
  ++ [ReSub (((vir ++ "("%u) ++ ListC) ++ ")"%u) ([0x1A60]%N ++ "\1"%u)]
  ++ [Replace "ᩈ᩠ᩈ"%u "ᩔ"%u]
  ++ (let TallACons := (join "|"%u ["ᩅ"%u; "ᨴ"%u; "ᨵ"%u; "ᨣ"%u]) in
  (PP_FixTallA TallACons)
  ++ [Replace [0x1A55; 0x1A60; 0x1A3F]%N [0x1A60; 0x1A3F; 0x1A55]%N]
  ++ [Replace [0x1A60; 0x1A47]%N (vir ++ "ᩇ"%u)])) else (let AA := [0x1A63]%N in
  [Replace "ᩔ"%u "ᩈ᩠ᩈ"%u]
  ++ [ReSub ((("("%u ++ ListC) ++ ")"%u) ++ [0x1A58]%N) ("\1"%u ++ ng)]
  ++ [Replace [0x1A60]%N vir]
  ++ [Replace [0x1A64]%N AA]
  ++ [Replace [0x1A60; 0x1A3F; 0x1A55]%N [0x1A55; 0x1A60; 0x1A3F]%N]))).

(** aksharamukha/ConvertFix.py:3313-3316  def FixLaoTham(Strng, reverse=False) *)
Definition CF_FixLaoTham (reverse : bool) : prog :=
  (CF_FixTaiTham reverse).

(** aksharamukha/ConvertFix.py:3318-3336  def FixThamLoC(Strng, reverse=False) *)
Definition CF_FixThamLoC (reverse : bool) : prog :=
  (CF_FixTaiTham reverse)
  ++ (let! v1 := CrunchSymbols GM_Consonants "TaiTham"%u in
  let ListC := (join "|"%u v1) in
  (if (negb reverse) then (let E := [0x1A6E]%N in
  let AA := [0x1A63]%N in
  let TallACons := (join "|"%u ["ᩅ"%u; "ᨴ"%u; "ᨵ"%u; "ᨣ"%u; "ᨷ"%u]) in
  [ReSub (((((((("("%u ++ TallACons) ++ ")(᩠)("%u) ++ ListC) ++ ")"%u) ++ "("%u) ++ E) ++ "?)"%u) ++ AA) ("\1\2\3\4"%u ++ [0x1A64]%N)]
  ++ [ReSub ((((((((((("("%u ++ TallACons) ++ ")(᩠)("%u) ++ ListC) ++ ")"%u) ++ "(᩠)("%u) ++ ListC) ++ ")"%u) ++ "("%u) ++ E) ++ "?)"%u) ++ AA) ("\1\2\3\4\5\6"%u ++ [0x1A64]%N)]
  ++ [IfIn "ʾ"%u ([Replace [0x1A7A]%N [0x1A7C]%N]
  ++ [Replace "ʾ"%u []]) ([])]) else ([Replace [0x1A5C]%N [0x1A7A; 0x1A3E]%N]
  ++ [Replace [0x1A5B]%N [0x1A7A; 0x1A3B]%N]))).

(** aksharamukha/ConvertFix.py:3338-3351  def FixLueTham(Strng, reverse=False) *)
Definition CF_FixLueTham (reverse : bool) : prog :=
  (CF_FixTaiTham reverse)
  ++ (let! v1 := CrunchSymbols GM_Consonants "TaiTham"%u in
  let ListC := (join "|"%u v1) in
  (if (negb reverse) then (let E := [0x1A6E]%N in
  let AA := [0x1A63]%N in
  let TallACons := (join "|"%u ["ᩅ"%u; "ᨴ"%u; "ᨵ"%u; "ᨣ"%u]) in
  [ReSub (((((((("("%u ++ TallACons) ++ ")(᩠)("%u) ++ ListC) ++ ")"%u) ++ "("%u) ++ E) ++ "?)"%u) ++ AA) ("\1\2\3\4"%u ++ [0x1A64]%N)]
  ++ [ReSub ((((((((((("("%u ++ TallACons) ++ ")(᩠)("%u) ++ ListC) ++ ")"%u) ++ "(᩠)("%u) ++ ListC) ++ ")"%u) ++ "("%u) ++ E) ++ "?)"%u) ++ AA) ("\1\2\3\4\5\6"%u ++ [0x1A64]%N)]) else ([]))).

(** aksharamukha/ConvertFix.py:3353-3370  def FixKhuenTham(Strng, reverse=False) *)
Definition CF_FixKhuenTham (reverse : bool) : prog :=
  (CF_FixTaiTham reverse)
  ++ (let! v1 := CrunchSymbols GM_Consonants "TaiTham"%u in
  let ListC := (join "|"%u v1) in
  (if (negb reverse) then (let E := [0x1A6E]%N in
  let AA := [0x1A63]%N in
  let TallACons := (join "|"%u ["ᩅ"%u; "ᨴ"%u; "ᨵ"%u; "ᨣ"%u]) in
  [ReSub (((((((("("%u ++ TallACons) ++ ")(᩠)("%u) ++ ListC) ++ ")"%u) ++ "("%u) ++ E) ++ "?)"%u) ++ AA) ("\1\2\3\4"%u ++ [0x1A64]%N)]
  ++ [ReSub ((((((((((("("%u ++ TallACons) ++ ")(᩠)("%u) ++ ListC) ++ ")"%u) ++ "(᩠)("%u) ++ ListC) ++ ")"%u) ++ "("%u) ++ E) ++ "?)"%u) ++ AA) ("\1\2\3\4\5\6"%u ++ [0x1A64]%N)]
  ++ [Replace [0x1A7A]%N [0x1A7C]%N]) else ([Replace [0x1A7C]%N [0x1A7A]%N]))).

(** aksharamukha/ConvertFix.py:3399-3415  def FixBengali(Strng, reverse=False) *)
Definition CF_FixBengali (reverse : bool) : prog :=
  let! v1 := CrunchSymbols ["ViramaMap"%u] "Bengali"%u in
  let Virama := (join [] v1) in
  let ba := "ব"%u in
  (if (negb reverse) then ([ReSub (("(?<![রবম])"%u ++ Virama) ++ ba) ((Virama ++ [0x200C]%N) ++ ba)]
  ++ [ReSub ("(?<![রবমভ়])"%u ++ "(্ভ়)"%u) [0x9CD; 0x9AC]%N]) else ([]))
  ++ (PP_KhandaTa "Bengali"%u reverse).

(** aksharamukha/ConvertFix.py:3417-3428  def FixAssamese(Strng, reverse=False) *)
Definition CF_FixAssamese (reverse : bool) : prog :=
  let Ra := "র"%u in
  let AssRa := "ৰ"%u in
  (PP_KhandaTa "Assamese"%u reverse)
  ++ (if (negb reverse) then ([Replace Ra AssRa]) else ([Replace AssRa Ra])).

(** aksharamukha/ConvertFix.py:3430-3466  def FixSharada(Strng, reverse=False) *)
Definition CF_FixSharada (reverse : bool) : prog :=
  (PP_KhandaTa "Assamese"%u reverse)
  ++ (let! v1 := CrunchSymbols GM_Consonants "Sharada"%u in
  let ListC := (join "|"%u v1) in
  let! v2 := CrunchSymbols GM_CombiningSigns "Sharada"%u in
  let! v3 := idx v2 (-1)%Z in
  let Nukta := (join "|"%u (chars v3)) in
  let! v4 := CrunchSymbols ["ViramaMap"%u] "Sharada"%u in
  let Virama := (join [] v4) in
  (if (negb reverse) then ([Replace (Nukta ++ Virama) ((Nukta ++ Virama) ++ [0x200C]%N)]
  ++ [ReSub (((((((("("%u ++ Virama) ++ ")"%u) ++ "("%u) ++ ListC) ++ ")"%u) ++ "("%u) ++ Nukta) ++ ")"%u) (("\1"%u ++ [0x200C]%N) ++ "\2\3"%u)]) else ([]))).

(** aksharamukha/ConvertFix.py:3468-3478  def FixKannada(Strng, reverse=False) *)
Definition CF_FixKannada (reverse : bool) : prog :=
  (if (negb reverse) then ((PP_RetainDandasIndic "Kannada"%u true)
  ++ [ReSub "(್)([^ಫಜ])(಼)"%u (("\1"%u ++ [0x200C]%N) ++ "\2\3"%u)]) else ((PP_RetainDandasIndic "Kannada"%u false))).

(** aksharamukha/ConvertFix.py:3480-3494  def FixGrantha(Strng, reverse=False) *)
Definition CF_FixGrantha (reverse : bool) : prog :=
  (if (negb reverse) then ([Replace [0x951]%N [0x1CF4]%N]
  ++ [Replace [0x1CDA]%N [0x951]%N]
  ++ [Replace "ꣳ"%u "𑍞"%u]
  ++ [Replace "ꣴ"%u "𑍟"%u]
  ++ [Replace [0x1133C; 0x1134D]%N [0x1133C; 0x1134D; 0x200C]%N]) else ([Replace [0x1133C; 0x1134D; 0x200C]%N [0x1133C; 0x1134D]%N]
  ++ [Replace [0x951]%N [0x1CDA]%N]
  ++ [Replace [0x1CF4]%N [0x951]%N]
  ++ [Replace "𑍞"%u "ꣳ"%u]
  ++ [Replace "𑍟"%u "ꣴ"%u])).

(** aksharamukha/ConvertFix.py:3496-3504  def FixMahajani(Strng, reverse=False) *)
Definition CF_FixMahajani (reverse : bool) : prog :=
  (if (negb reverse) then ([Replace "𑅰𑅳ʾ𑅭ʿ𑅑"%u "𑅶"%u]
  ++ [Replace "ʾ"%u []]
  ++ [Replace "ʿ"%u []]) else ([Replace "𑅶"%u "𑅰𑅳ʾ𑅭ʿ𑅑"%u])).

(** aksharamukha/ConvertFix.py:3506-3535  def FixAhom(Strng, reverse=False) *)
Definition CF_FixAhom (reverse : bool) : prog :=
  let! v1 := CrunchSymbols GM_VowelSignsNV "Ahom"%u in
  let ListVS := (("("%u ++ (join "|"%u v1)) ++ ")"%u) in
  let! v2 := CrunchList "AyogavahaMap"%u "Ahom"%u in
  let! v3 := idx v2 (1)%Z in
  let Anu := (("("%u ++ v3) ++ ")"%u) in
  (if (negb reverse) then ([Replace [0x1172B; 0x1170D]%N [0x1171E]%N]
  ++ [Replace [0x1172B; 0x1170E]%N [0x1171D]%N]
  ++ [ReSub (ListVS ++ Anu) "\2\1"%u]
  ++ [ReSub (Anu ++ "(𑜦)"%u) "\2\1"%u]) else ([Replace [0x1171E]%N [0x1172B; 0x1170D]%N]
  ++ [Replace [0x1171D]%N [0x1172B; 0x1170E]%N]
  ++ (let! v4 := idx (attr "MainIndic"%u "Ahom"%u "ViramaMap"%u) (0)%Z in
  let vir := v4 in
  let! v5 := idx (attr "MainIndic"%u "Ahom"%u "AyogavahaMap"%u) (1)%Z in
  let anu := v5 in
  [ReSub ((anu ++ [0x11727]%N) ++ "(?!𑜨)"%u) [0x11726; 0x11727; 0x1172A]%N]
  ++ [ReSub (("(𑜦)(.)("%u ++ vir) ++ ")"%u) ([0x11726; 0x11727]%N ++ "\2\3"%u)]
  ++ [ReSub (("(𑜨)(.)("%u ++ vir) ++ ")"%u) ([0x11726; 0x11721]%N ++ "\2\3"%u)]
  ++ [Replace (anu ++ [0x11728]%N) [0x11726; 0x11721; 0x1172A]%N]
  ++ [ReSub (Anu ++ ListVS) "\2\1"%u]))).

(** aksharamukha/ConvertFix.py:3537-3545  def FixMultani(Strng, reverse=False) *)
Definition CF_FixMultani (reverse : bool) : prog :=
  (if (negb reverse) then ([Replace "ʾ"%u []]
  ++ [Replace "ʿ"%u []]
  ++ [Replace "ˍ𑊌"%u "𑊍"%u]
  ++ [Replace "ˍ𑊂"%u "𑊓"%u]) else ([Replace "𑊍"%u "ˍ𑊌"%u]
  ++ [Replace "𑊓"%u "ˍ𑊒"%u])).

(** aksharamukha/ConvertFix.py:3548-3556  def FixGujarati(Strng, reverse=False) *)
Definition CF_FixGujarati (reverse : bool) : prog :=
  (if (negb reverse) then ((PP_RetainDandasIndic "Gujarati"%u true)
  ++ [Replace "જ઼઼"%u "ૹ"%u]
  ++ [Replace "શ઼"%u "ૹ"%u]) else ((PP_RetainDandasIndic "Gujarati"%u false)
  ++ [Replace "ૹ"%u "જ઼઼"%u]
  ++ [Replace "ૹ"%u "શ઼"%u])).

(** aksharamukha/ConvertFix.py:3558-3598  def FixZanabazarSquare(Strng, reverse=False) *)
Definition CF_FixZanabazarSquare (reverse : bool) : prog :=
  let! v1 := CrunchSymbols GM_Consonants "ZanabazarSquare"%u in
  let ListC := (join "|"%u v1) in
  let yrlv := (slice (attr "EastIndic"%u "ZanabazarSquare"%u "ConsonantMap"%u) (Some (25)%Z) (Some (29)%Z)) in
  let yrlv_sub := [[0x11A3B]%N; [0x11A3C]%N; [0x11A3D]%N; [0x11A3E]%N] in
  let! v2 := idx (attr "EastIndic"%u "ZanabazarSquare"%u "ViramaMap"%u) (0)%Z in
  let vir := v2 in
  (if (negb reverse) then ([ReSub (((vir ++ "("%u) ++ ListC) ++ ")"%u) ([0x11A47]%N ++ "\1"%u)]
  ++ [Replace "𑨋𑩇𑨯"%u "𑨲"%u]) else ([Replace "𑩁"%u " "%u]
  ++ (let tsaSeries := ["𑨣"%u; "𑨤"%u; "𑨥"%u] in
  let caSeries := ["𑨐"%u; "𑨑"%u; "𑨒"%u] in
  foreach (zip tsaSeries caSeries) (fun '(x, y) => 
    [Replace y x])
  ++ foreach (zip yrlv yrlv_sub) (fun '(x, y) => 
    [Replace y ([0x11A47]%N ++ x)])
  ++ (let! v3 := idx yrlv (1)%Z in
  [Replace "𑨺"%u (v3 ++ [0x11A47]%N)]
  ++ [Replace "𑨲"%u "𑨋𑩇𑨯"%u]
  ++ [Replace [0x11A07]%N [0x11A04; 0x11A0A]%N]
  ++ [Replace [0x11A08]%N [0x11A06; 0x11A0A]%N]
  ++ [Replace [0x11A33]%N vir]
  ++ [Replace [0x11A47]%N vir])))).

(** aksharamukha/ConvertFix.py:3600-3627  def FixKhojki(Strng, reverse=False) *)
Definition CF_FixKhojki (reverse : bool) : prog :=
  let sindhi := ["𑈋"%u; "𑈑"%u; "𑈜"%u; "𑈢"%u] in
  let sindhiapprox := ["ˍ𑈊"%u; "ˍ𑈐"%u; "ˍ𑈖"%u; "ˍ𑈡"%u] in
  (if (negb reverse) then (foreach (zip sindhi sindhiapprox) (fun '(x, y) => 
    [Replace y x])
  ++ (PP_InsertGeminationSign "Khojki"%u)
  ++ [ReSub "(𑈷)(.)"%u "\2\1"%u]
  ++ [Replace [0x11237; 0x11236]%N [0x11236; 0x11237]%N]
  ++ [Replace " "%u "𑈺"%u]) else ([Replace "𑈺"%u " "%u]
  ++ foreach (zip sindhi sindhiapprox) (fun '(x, y) => 
    [Replace x y])
  ++ [Replace [0x11236; 0x11237]%N [0x11237; 0x11236]%N]
  ++ [ReSub "(.)(𑈷)"%u "\2\1"%u]
  ++ (PP_ReverseGeminationSign "Khojki"%u))).

(** aksharamukha/ConvertFix.py:3629-3639  def FixNewa(Strng, reverse=False) *)
Definition CF_FixNewa (reverse : bool) : prog :=
  (if (negb reverse) then (let! v1 := CrunchSymbols GM_Consonants "Newa"%u in
  let ListC := (join "|"%u v1) in
  let! v2 := idx (attr "MainIndic"%u "Newa"%u "ConsonantMap"%u) (26)%Z in
  let ra := v2 in
  let! v3 := idx (attr "MainIndic"%u "Newa"%u "ViramaMap"%u) (0)%Z in
  let vir := v3 in
  []) else ([])).

(** aksharamukha/ConvertFix.py:1020-1036  def ShiftDiacritics(Strng, Target, reverse=False) *)
Definition CF_ShiftDiacritics (Target : str) (reverse : bool) : prog :=
  let! v1 := CrunchSymbols GM_VowelSigns Target in
  let VS := (join "|"%u v1) in
  let Diac := (join "|"%u GM_Diacritics) in
  (if (negb reverse) then ([ReSub ((((("("%u ++ Diac) ++ ")"%u) ++ "("%u) ++ VS) ++ ")"%u) "\2\1"%u]
  ++ (if (str_eqb Target "Tamil"%u) then ([Replace "³்"%u [0xBCD; 0xB3]%N]) else ([]))) else ((if (str_eqb Target "Tamil"%u) then ([Replace [0xBCD; 0xB3]%N "³்"%u]) else ([]))
  ++ [ReSub ((((("("%u ++ VS) ++ ")"%u) ++ "("%u) ++ Diac) ++ ")"%u) "\2\1"%u])).

(** ConvertFix.py:373 globals()[name](Strng), for the names "Fix..." of the module *)
Definition CF_globals_call (name : str) : prog :=
  if str_eqb name "FixVedic"%u then [Raise TypeError] else
  if str_eqb name "FixHebr"%u then [Raise TypeError] else
  if str_eqb name "FixHebrew"%u then CF_FixHebrew false else
  if str_eqb name "FixMongolian"%u then CF_FixMongolian false else
  if str_eqb name "FixHanifiRohingya"%u then CF_FixHanifiRohingya false else
  if str_eqb name "FixMasaramGondi"%u then CF_FixMasaramGondi false else
  if str_eqb name "FixGunjalaGondi"%u then CF_FixGunjalaGondi false else
  if str_eqb name "FixSoyombo"%u then CF_FixSoyombo false else
  if str_eqb name "FixKharoshthi"%u then CF_FixKharoshthi false else
  if str_eqb name "FixMarchen"%u then CF_FixMarchen false else
  if str_eqb name "FixMro"%u then CF_FixMro false else
  if str_eqb name "FixWancho"%u then CF_FixWancho false else
  if str_eqb name "FixSiddham"%u then CF_FixSiddham false else
  if str_eqb name "FixBhaiksuki"%u then CF_FixBhaiksuki false else
  if str_eqb name "FixKhudawadi"%u then CF_FixKhudawadi false else
  if str_eqb name "FixTamil"%u then CF_FixTamil false else
  if str_eqb name "FixOriya"%u then CF_FixOriya false else
  if str_eqb name "FixGurmukhiLoC"%u then CF_FixGurmukhiLoC false else
  if str_eqb name "FixGurmukhi"%u then CF_FixGurmukhi false else
  if str_eqb name "FixTamilExtended"%u then CF_FixTamilExtended false else
  if str_eqb name "FixTamilGrantha"%u then CF_FixTamilGrantha false else
  if str_eqb name "FixKhmerLoC"%u then CF_FixKhmerLoC false else
  if str_eqb name "FixKhmer"%u then CF_FixKhmer false "Khmer"%u else
  if str_eqb name "FixKhamtiShan"%u then CF_FixKhamtiShan false else
  if str_eqb name "FixTaiLaing"%u then CF_FixTaiLaing false else
  if str_eqb name "FixShan"%u then CF_FixShan false else
  if str_eqb name "FixMon"%u then CF_FixMon false else
  if str_eqb name "FixBurmese"%u then CF_FixBurmese false else
  if str_eqb name "FixTagbanwa"%u then CF_FixTagbanwa false else
  if str_eqb name "FixBuhid"%u then CF_FixBuhid false else
  if str_eqb name "FixBuginese"%u then CF_FixBuginese false else
  if str_eqb name "FixBalinese"%u then CF_FixBalinese false else
  if str_eqb name "FixDivesAkuru"%u then CF_FixDivesAkuru false else
  if str_eqb name "FixKawi"%u then CF_FixKawi false else
  if str_eqb name "FixJavanese"%u then CF_FixJavanese false else
  if str_eqb name "FixUrdu"%u then CF_FixUrdu false else
  if str_eqb name "FixShahmukhi"%u then CF_FixShahmukhi false else
  if str_eqb name "FixThaana"%u then CF_FixThaana false else
  if str_eqb name "FixSaurashtra"%u then CF_FixSaurashtra false else
  if str_eqb name "FixTibetanLoC"%u then CF_FixTibetanLoC false else
  if str_eqb name "FixTibetan"%u then CF_FixTibetan false true else
  if str_eqb name "FixKhomThai"%u then CF_FixKhomThai false else
  if str_eqb name "FixThai"%u then CF_FixThai false else
  if str_eqb name "FixLaoPali"%u then CF_FixLaoPali false else
  if str_eqb name "FixMakasar"%u then CF_FixMakasar false else
  if str_eqb name "FixAvestan"%u then CF_FixAvestan false else
  if str_eqb name "FixLao"%u then CF_FixLao false else
  if str_eqb name "FixOldPersian"%u then CF_FixOldPersian false else
  if str_eqb name "FixSinhala"%u then CF_FixSinhala false else
  if str_eqb name "FixSantali"%u then CF_FixSantali false else
  if str_eqb name "FixSoraSompeng"%u then CF_FixSoraSompeng false else
  if str_eqb name "FixRomanReadable"%u then CF_FixRomanReadable false else
  if str_eqb name "FixRomanColloquial"%u then CF_FixRomanColloquial false else
  if str_eqb name "FixWarangCiti"%u then CF_FixWarangCiti false else
  if str_eqb name "FixLimbuLoC"%u then CF_FixLimbuLoC false else
  if str_eqb name "FixLimbu"%u then CF_FixLimbu false else
  if str_eqb name "FixDevanagari"%u then CF_FixDevanagari false else
  if str_eqb name "FixKaithi"%u then CF_FixKaithi false else
  if str_eqb name "FixLao2"%u then CF_FixLao2 false else
  if str_eqb name "FixNandinagari"%u then CF_FixNandinagari false else
  if str_eqb name "FixLepcha"%u then CF_FixLepcha false else
  if str_eqb name "FixSundanese"%u then CF_FixSundanese false else
  if str_eqb name "FixRejang"%u then CF_FixRejang false else
  if str_eqb name "FixChakma"%u then CF_FixChakma false else
  if str_eqb name "FixIAST"%u then CF_FixIAST false else
  if str_eqb name "FixIPA"%u then CF_FixIPA false else
  if str_eqb name "FixPhagsPa"%u then CF_FixPhagsPa false else
  if str_eqb name "FixLatn"%u then [Raise TypeError] else
  if str_eqb name "FixArab"%u then [Raise TypeError] else
  if str_eqb name "FixThaa"%u then [Raise TypeError] else
  if str_eqb name "FixArab_Ph"%u then [Raise TypeError] else
  if str_eqb name "FixArab_Fa"%u then [Raise TypeError] else
  if str_eqb name "FixArab_Ur"%u then [Raise TypeError] else
  if str_eqb name "FixUgar"%u then [Raise TypeError] else
  if str_eqb name "FixSogd"%u then [Raise TypeError] else
  if str_eqb name "FixMalayalam"%u then CF_FixMalayalam false else
  if str_eqb name "FixTelugu"%u then CF_FixTelugu false else
  if str_eqb name "FixMeeteiMayek"%u then CF_FixMeeteiMayek false else
  if str_eqb name "FixBatakSima"%u then CF_FixBatakSima false else
  if str_eqb name "FixCham"%u then CF_FixCham false else
  if str_eqb name "FixTaiTham"%u then CF_FixTaiTham false else
  if str_eqb name "FixLaoTham"%u then CF_FixLaoTham false else
  if str_eqb name "FixThamLoC"%u then CF_FixThamLoC false else
  if str_eqb name "FixLueTham"%u then CF_FixLueTham false else
  if str_eqb name "FixKhuenTham"%u then CF_FixKhuenTham false else
  if str_eqb name "FixBengali"%u then CF_FixBengali false else
  if str_eqb name "FixAssamese"%u then CF_FixAssamese false else
  if str_eqb name "FixSharada"%u then CF_FixSharada false else
  if str_eqb name "FixKannada"%u then CF_FixKannada false else
  if str_eqb name "FixGrantha"%u then CF_FixGrantha false else
  if str_eqb name "FixMahajani"%u then CF_FixMahajani false else
  if str_eqb name "FixAhom"%u then CF_FixAhom false else
  if str_eqb name "FixMultani"%u then CF_FixMultani false else
  if str_eqb name "FixGujarati"%u then CF_FixGujarati false else
  if str_eqb name "FixZanabazarSquare"%u then CF_FixZanabazarSquare false else
  if str_eqb name "FixKhojki"%u then CF_FixKhojki false else
  if str_eqb name "FixNewa"%u then CF_FixNewa false else
  [Raise KeyError].

(** ConvertFix.py:358 globals()[name](Strng, Source); a string passed for a flag counts as true iff not empty *)
Definition CF_globals_call_Source (name : str) (Source : str) : prog :=
  if str_eqb name "FixVedic"%u then CF_FixVedic Source else
  if str_eqb name "FixHebr"%u then CF_FixHebr Source false else
  if str_eqb name "FixHebrew"%u then CF_FixHebrew (negb (Nat.eqb (length Source) 0)) else
  if str_eqb name "FixMongolian"%u then CF_FixMongolian (negb (Nat.eqb (length Source) 0)) else
  if str_eqb name "FixHanifiRohingya"%u then CF_FixHanifiRohingya (negb (Nat.eqb (length Source) 0)) else
  if str_eqb name "FixMasaramGondi"%u then CF_FixMasaramGondi (negb (Nat.eqb (length Source) 0)) else
  if str_eqb name "FixGunjalaGondi"%u then CF_FixGunjalaGondi (negb (Nat.eqb (length Source) 0)) else
  if str_eqb name "FixSoyombo"%u then CF_FixSoyombo (negb (Nat.eqb (length Source) 0)) else
  if str_eqb name "FixKharoshthi"%u then CF_FixKharoshthi (negb (Nat.eqb (length Source) 0)) else
  if str_eqb name "FixMarchen"%u then CF_FixMarchen (negb (Nat.eqb (length Source) 0)) else
  if str_eqb name "FixMro"%u then CF_FixMro (negb (Nat.eqb (length Source) 0)) else
  if str_eqb name "FixWancho"%u then CF_FixWancho (negb (Nat.eqb (length Source) 0)) else
  if str_eqb name "FixSiddham"%u then CF_FixSiddham (negb (Nat.eqb (length Source) 0)) else
  if str_eqb name "FixBhaiksuki"%u then CF_FixBhaiksuki (negb (Nat.eqb (length Source) 0)) else
  if str_eqb name "FixKhudawadi"%u then CF_FixKhudawadi (negb (Nat.eqb (length Source) 0)) else
  if str_eqb name "FixTamil"%u then CF_FixTamil (negb (Nat.eqb (length Source) 0)) else
  if str_eqb name "FixOriya"%u then CF_FixOriya (negb (Nat.eqb (length Source) 0)) else
  if str_eqb name "FixGurmukhiLoC"%u then CF_FixGurmukhiLoC (negb (Nat.eqb (length Source) 0)) else
  if str_eqb name "FixGurmukhi"%u then CF_FixGurmukhi (negb (Nat.eqb (length Source) 0)) else
  if str_eqb name "FixTamilExtended"%u then CF_FixTamilExtended (negb (Nat.eqb (length Source) 0)) else
  if str_eqb name "FixTamilGrantha"%u then CF_FixTamilGrantha (negb (Nat.eqb (length Source) 0)) else
  if str_eqb name "FixKhmerLoC"%u then CF_FixKhmerLoC (negb (Nat.eqb (length Source) 0)) else
  if str_eqb name "FixKhmer"%u then CF_FixKhmer (negb (Nat.eqb (length Source) 0)) "Khmer"%u else
  if str_eqb name "FixKhamtiShan"%u then CF_FixKhamtiShan (negb (Nat.eqb (length Source) 0)) else
  if str_eqb name "FixTaiLaing"%u then CF_FixTaiLaing (negb (Nat.eqb (length Source) 0)) else
  if str_eqb name "FixShan"%u then CF_FixShan (negb (Nat.eqb (length Source) 0)) else
  if str_eqb name "FixMon"%u then CF_FixMon (negb (Nat.eqb (length Source) 0)) else
  if str_eqb name "FixBurmese"%u then CF_FixBurmese (negb (Nat.eqb (length Source) 0)) else
  if str_eqb name "FixTagbanwa"%u then CF_FixTagbanwa (negb (Nat.eqb (length Source) 0)) else
  if str_eqb name "FixBuhid"%u then CF_FixBuhid (negb (Nat.eqb (length Source) 0)) else
  if str_eqb name "FixBuginese"%u then CF_FixBuginese (negb (Nat.eqb (length Source) 0)) else
  if str_eqb name "FixBalinese"%u then CF_FixBalinese (negb (Nat.eqb (length Source) 0)) else
  if str_eqb name "FixDivesAkuru"%u then CF_FixDivesAkuru (negb (Nat.eqb (length Source) 0)) else
  if str_eqb name "FixKawi"%u then CF_FixKawi (negb (Nat.eqb (length Source) 0)) else
  if str_eqb name "FixJavanese"%u then CF_FixJavanese (negb (Nat.eqb (length Source) 0)) else
  if str_eqb name "FixUrdu"%u then CF_FixUrdu (negb (Nat.eqb (length Source) 0)) else
  if str_eqb name "FixShahmukhi"%u then CF_FixShahmukhi (negb (Nat.eqb (length Source) 0)) else
  if str_eqb name "FixThaana"%u then CF_FixThaana (negb (Nat.eqb (length Source) 0)) else
  if str_eqb name "FixSaurashtra"%u then CF_FixSaurashtra (negb (Nat.eqb (length Source) 0)) else
  if str_eqb name "FixTibetanLoC"%u then CF_FixTibetanLoC (negb (Nat.eqb (length Source) 0)) else
  if str_eqb name "FixTibetan"%u then CF_FixTibetan (negb (Nat.eqb (length Source) 0)) true else
  if str_eqb name "FixKhomThai"%u then CF_FixKhomThai (negb (Nat.eqb (length Source) 0)) else
  if str_eqb name "FixThai"%u then CF_FixThai (negb (Nat.eqb (length Source) 0)) else
  if str_eqb name "FixLaoPali"%u then CF_FixLaoPali (negb (Nat.eqb (length Source) 0)) else
  if str_eqb name "FixMakasar"%u then CF_FixMakasar (negb (Nat.eqb (length Source) 0)) else
  if str_eqb name "FixAvestan"%u then CF_FixAvestan (negb (Nat.eqb (length Source) 0)) else
  if str_eqb name "FixLao"%u then CF_FixLao (negb (Nat.eqb (length Source) 0)) else
  if str_eqb name "FixOldPersian"%u then CF_FixOldPersian (negb (Nat.eqb (length Source) 0)) else
  if str_eqb name "FixSinhala"%u then CF_FixSinhala (negb (Nat.eqb (length Source) 0)) else
  if str_eqb name "FixSantali"%u then CF_FixSantali (negb (Nat.eqb (length Source) 0)) else
  if str_eqb name "FixSoraSompeng"%u then CF_FixSoraSompeng (negb (Nat.eqb (length Source) 0)) else
  if str_eqb name "FixRomanReadable"%u then CF_FixRomanReadable (negb (Nat.eqb (length Source) 0)) else
  if str_eqb name "FixRomanColloquial"%u then CF_FixRomanColloquial (negb (Nat.eqb (length Source) 0)) else
  if str_eqb name "FixWarangCiti"%u then CF_FixWarangCiti (negb (Nat.eqb (length Source) 0)) else
  if str_eqb name "FixLimbuLoC"%u then CF_FixLimbuLoC (negb (Nat.eqb (length Source) 0)) else
  if str_eqb name "FixLimbu"%u then CF_FixLimbu (negb (Nat.eqb (length Source) 0)) else
  if str_eqb name "FixDevanagari"%u then CF_FixDevanagari (negb (Nat.eqb (length Source) 0)) else
  if str_eqb name "FixKaithi"%u then CF_FixKaithi (negb (Nat.eqb (length Source) 0)) else
  if str_eqb name "FixLao2"%u then CF_FixLao2 (negb (Nat.eqb (length Source) 0)) else
  if str_eqb name "FixNandinagari"%u then CF_FixNandinagari (negb (Nat.eqb (length Source) 0)) else
  if str_eqb name "FixLepcha"%u then CF_FixLepcha (negb (Nat.eqb (length Source) 0)) else
  if str_eqb name "FixSundanese"%u then CF_FixSundanese (negb (Nat.eqb (length Source) 0)) else
  if str_eqb name "FixRejang"%u then CF_FixRejang (negb (Nat.eqb (length Source) 0)) else
  if str_eqb name "FixChakma"%u then CF_FixChakma (negb (Nat.eqb (length Source) 0)) else
  if str_eqb name "FixIAST"%u then CF_FixIAST (negb (Nat.eqb (length Source) 0)) else
  if str_eqb name "FixIPA"%u then CF_FixIPA (negb (Nat.eqb (length Source) 0)) else
  if str_eqb name "FixPhagsPa"%u then CF_FixPhagsPa (negb (Nat.eqb (length Source) 0)) else
  if str_eqb name "FixLatn"%u then CF_FixLatn Source false else
  if str_eqb name "FixArab"%u then CF_FixArab Source false else
  if str_eqb name "FixThaa"%u then CF_FixThaa Source false else
  if str_eqb name "FixArab_Ph"%u then CF_FixArab_Ph Source false else
  if str_eqb name "FixArab_Fa"%u then CF_FixArab_Fa Source false else
  if str_eqb name "FixArab_Ur"%u then CF_FixArab_Ur Source false else
  if str_eqb name "FixUgar"%u then CF_FixUgar Source false else
  if str_eqb name "FixSogd"%u then CF_FixSogd Source false else
  if str_eqb name "FixMalayalam"%u then CF_FixMalayalam (negb (Nat.eqb (length Source) 0)) else
  if str_eqb name "FixTelugu"%u then CF_FixTelugu (negb (Nat.eqb (length Source) 0)) else
  if str_eqb name "FixMeeteiMayek"%u then CF_FixMeeteiMayek (negb (Nat.eqb (length Source) 0)) else
  if str_eqb name "FixBatakSima"%u then CF_FixBatakSima (negb (Nat.eqb (length Source) 0)) else
  if str_eqb name "FixCham"%u then CF_FixCham (negb (Nat.eqb (length Source) 0)) else
  if str_eqb name "FixTaiTham"%u then CF_FixTaiTham (negb (Nat.eqb (length Source) 0)) else
  if str_eqb name "FixLaoTham"%u then CF_FixLaoTham (negb (Nat.eqb (length Source) 0)) else
  if str_eqb name "FixThamLoC"%u then CF_FixThamLoC (negb (Nat.eqb (length Source) 0)) else
  if str_eqb name "FixLueTham"%u then CF_FixLueTham (negb (Nat.eqb (length Source) 0)) else
  if str_eqb name "FixKhuenTham"%u then CF_FixKhuenTham (negb (Nat.eqb (length Source) 0)) else
  if str_eqb name "FixBengali"%u then CF_FixBengali (negb (Nat.eqb (length Source) 0)) else
  if str_eqb name "FixAssamese"%u then CF_FixAssamese (negb (Nat.eqb (length Source) 0)) else
  if str_eqb name "FixSharada"%u then CF_FixSharada (negb (Nat.eqb (length Source) 0)) else
  if str_eqb name "FixKannada"%u then CF_FixKannada (negb (Nat.eqb (length Source) 0)) else
  if str_eqb name "FixGrantha"%u then CF_FixGrantha (negb (Nat.eqb (length Source) 0)) else
  if str_eqb name "FixMahajani"%u then CF_FixMahajani (negb (Nat.eqb (length Source) 0)) else
  if str_eqb name "FixAhom"%u then CF_FixAhom (negb (Nat.eqb (length Source) 0)) else
  if str_eqb name "FixMultani"%u then CF_FixMultani (negb (Nat.eqb (length Source) 0)) else
  if str_eqb name "FixGujarati"%u then CF_FixGujarati (negb (Nat.eqb (length Source) 0)) else
  if str_eqb name "FixZanabazarSquare"%u then CF_FixZanabazarSquare (negb (Nat.eqb (length Source) 0)) else
  if str_eqb name "FixKhojki"%u then CF_FixKhojki (negb (Nat.eqb (length Source) 0)) else
  if str_eqb name "FixNewa"%u then CF_FixNewa (negb (Nat.eqb (length Source) 0)) else
  [Raise KeyError].

(** Convert.py:63 getattr(CF, name)(Strng, reverse=True) *)
Definition CF_getattr_reverse (name : str) : prog :=
  if str_eqb name "FixVedic"%u then [Raise TypeError] else
  if str_eqb name "FixHebr"%u then [Raise TypeError] else
  if str_eqb name "FixHebrew"%u then CF_FixHebrew true else
  if str_eqb name "FixMongolian"%u then CF_FixMongolian true else
  if str_eqb name "FixHanifiRohingya"%u then CF_FixHanifiRohingya true else
  if str_eqb name "FixMasaramGondi"%u then CF_FixMasaramGondi true else
  if str_eqb name "FixGunjalaGondi"%u then CF_FixGunjalaGondi true else
  if str_eqb name "FixSoyombo"%u then CF_FixSoyombo true else
  if str_eqb name "FixKharoshthi"%u then CF_FixKharoshthi true else
  if str_eqb name "FixMarchen"%u then CF_FixMarchen true else
  if str_eqb name "FixMro"%u then CF_FixMro true else
  if str_eqb name "FixWancho"%u then CF_FixWancho true else
  if str_eqb name "FixSiddham"%u then CF_FixSiddham true else
  if str_eqb name "FixBhaiksuki"%u then CF_FixBhaiksuki true else
  if str_eqb name "FixKhudawadi"%u then CF_FixKhudawadi true else
  if str_eqb name "FixTamil"%u then CF_FixTamil true else
  if str_eqb name "FixOriya"%u then CF_FixOriya true else
  if str_eqb name "FixGurmukhiLoC"%u then CF_FixGurmukhiLoC true else
  if str_eqb name "FixGurmukhi"%u then CF_FixGurmukhi true else
  if str_eqb name "FixTamilExtended"%u then CF_FixTamilExtended true else
  if str_eqb name "FixTamilGrantha"%u then CF_FixTamilGrantha true else
  if str_eqb name "FixKhmerLoC"%u then CF_FixKhmerLoC true else
  if str_eqb name "FixKhmer"%u then CF_FixKhmer true "Khmer"%u else
  if str_eqb name "FixKhamtiShan"%u then CF_FixKhamtiShan true else
  if str_eqb name "FixTaiLaing"%u then CF_FixTaiLaing true else
  if str_eqb name "FixShan"%u then CF_FixShan true else
  if str_eqb name "FixMon"%u then CF_FixMon true else
  if str_eqb name "FixBurmese"%u then CF_FixBurmese true else
  if str_eqb name "FixTagbanwa"%u then CF_FixTagbanwa true else
  if str_eqb name "FixBuhid"%u then CF_FixBuhid true else
  if str_eqb name "FixBuginese"%u then CF_FixBuginese true else
  if str_eqb name "FixBalinese"%u then CF_FixBalinese true else
  if str_eqb name "FixDivesAkuru"%u then CF_FixDivesAkuru true else
  if str_eqb name "FixKawi"%u then CF_FixKawi true else
  if str_eqb name "FixJavanese"%u then CF_FixJavanese true else
  if str_eqb name "FixUrdu"%u then CF_FixUrdu true else
  if str_eqb name "FixShahmukhi"%u then CF_FixShahmukhi true else
  if str_eqb name "FixThaana"%u then CF_FixThaana true else
  if str_eqb name "FixSaurashtra"%u then CF_FixSaurashtra true else
  if str_eqb name "FixTibetanLoC"%u then CF_FixTibetanLoC true else
  if str_eqb name "FixTibetan"%u then CF_FixTibetan true true else
  if str_eqb name "FixKhomThai"%u then CF_FixKhomThai true else
  if str_eqb name "FixThai"%u then CF_FixThai true else
  if str_eqb name "FixLaoPali"%u then CF_FixLaoPali true else
  if str_eqb name "FixMakasar"%u then CF_FixMakasar true else
  if str_eqb name "FixAvestan"%u then CF_FixAvestan true else
  if str_eqb name "FixLao"%u then CF_FixLao true else
  if str_eqb name "FixOldPersian"%u then CF_FixOldPersian true else
  if str_eqb name "FixSinhala"%u then CF_FixSinhala true else
  if str_eqb name "FixSantali"%u then CF_FixSantali true else
  if str_eqb name "FixSoraSompeng"%u then CF_FixSoraSompeng true else
  if str_eqb name "FixRomanReadable"%u then CF_FixRomanReadable true else
  if str_eqb name "FixRomanColloquial"%u then CF_FixRomanColloquial true else
  if str_eqb name "FixWarangCiti"%u then CF_FixWarangCiti true else
  if str_eqb name "FixLimbuLoC"%u then CF_FixLimbuLoC true else
  if str_eqb name "FixLimbu"%u then CF_FixLimbu true else
  if str_eqb name "FixDevanagari"%u then CF_FixDevanagari true else
  if str_eqb name "FixKaithi"%u then CF_FixKaithi true else
  if str_eqb name "FixLao2"%u then CF_FixLao2 true else
  if str_eqb name "FixNandinagari"%u then CF_FixNandinagari true else
  if str_eqb name "FixLepcha"%u then CF_FixLepcha true else
  if str_eqb name "FixSundanese"%u then CF_FixSundanese true else
  if str_eqb name "FixRejang"%u then CF_FixRejang true else
  if str_eqb name "FixChakma"%u then CF_FixChakma true else
  if str_eqb name "FixIAST"%u then CF_FixIAST true else
  if str_eqb name "FixIPA"%u then CF_FixIPA true else
  if str_eqb name "FixPhagsPa"%u then CF_FixPhagsPa true else
  if str_eqb name "FixLatn"%u then [Raise TypeError] else
  if str_eqb name "FixArab"%u then [Raise TypeError] else
  if str_eqb name "FixThaa"%u then [Raise TypeError] else
  if str_eqb name "FixArab_Ph"%u then [Raise TypeError] else
  if str_eqb name "FixArab_Fa"%u then [Raise TypeError] else
  if str_eqb name "FixArab_Ur"%u then [Raise TypeError] else
  if str_eqb name "FixUgar"%u then [Raise TypeError] else
  if str_eqb name "FixSogd"%u then [Raise TypeError] else
  if str_eqb name "FixMalayalam"%u then CF_FixMalayalam true else
  if str_eqb name "FixTelugu"%u then CF_FixTelugu true else
  if str_eqb name "FixMeeteiMayek"%u then CF_FixMeeteiMayek true else
  if str_eqb name "FixBatakSima"%u then CF_FixBatakSima true else
  if str_eqb name "FixCham"%u then CF_FixCham true else
  if str_eqb name "FixTaiTham"%u then CF_FixTaiTham true else
  if str_eqb name "FixLaoTham"%u then CF_FixLaoTham true else
  if str_eqb name "FixThamLoC"%u then CF_FixThamLoC true else
  if str_eqb name "FixLueTham"%u then CF_FixLueTham true else
  if str_eqb name "FixKhuenTham"%u then CF_FixKhuenTham true else
  if str_eqb name "FixBengali"%u then CF_FixBengali true else
  if str_eqb name "FixAssamese"%u then CF_FixAssamese true else
  if str_eqb name "FixSharada"%u then CF_FixSharada true else
  if str_eqb name "FixKannada"%u then CF_FixKannada true else
  if str_eqb name "FixGrantha"%u then CF_FixGrantha true else
  if str_eqb name "FixMahajani"%u then CF_FixMahajani true else
  if str_eqb name "FixAhom"%u then CF_FixAhom true else
  if str_eqb name "FixMultani"%u then CF_FixMultani true else
  if str_eqb name "FixGujarati"%u then CF_FixGujarati true else
  if str_eqb name "FixZanabazarSquare"%u then CF_FixZanabazarSquare true else
  if str_eqb name "FixKhojki"%u then CF_FixKhojki true else
  if str_eqb name "FixNewa"%u then CF_FixNewa true else
  [Raise AttributeError].

(** Convert.py:290 getattr(CF, name)(Strng, Source, reverse=True) *)
Definition CF_getattr_Source_reverse (name : str) (Source : str) : prog :=
  if str_eqb name "FixVedic"%u then [Raise TypeError] else
  if str_eqb name "FixHebr"%u then CF_FixHebr Source true else
  if str_eqb name "FixHebrew"%u then [Raise TypeError] else
  if str_eqb name "FixMongolian"%u then [Raise TypeError] else
  if str_eqb name "FixHanifiRohingya"%u then [Raise TypeError] else
  if str_eqb name "FixMasaramGondi"%u then [Raise TypeError] else
  if str_eqb name "FixGunjalaGondi"%u then [Raise TypeError] else
  if str_eqb name "FixSoyombo"%u then [Raise TypeError] else
  if str_eqb name "FixKharoshthi"%u then [Raise TypeError] else
  if str_eqb name "FixMarchen"%u then [Raise TypeError] else
  if str_eqb name "FixMro"%u then [Raise TypeError] else
  if str_eqb name "FixWancho"%u then [Raise TypeError] else
  if str_eqb name "FixSiddham"%u then [Raise TypeError] else
  if str_eqb name "FixBhaiksuki"%u then [Raise TypeError] else
  if str_eqb name "FixKhudawadi"%u then [Raise TypeError] else
  if str_eqb name "FixTamil"%u then [Raise TypeError] else
  if str_eqb name "FixOriya"%u then [Raise TypeError] else
  if str_eqb name "FixGurmukhiLoC"%u then [Raise TypeError] else
  if str_eqb name "FixGurmukhi"%u then [Raise TypeError] else
  if str_eqb name "FixTamilExtended"%u then [Raise TypeError] else
  if str_eqb name "FixTamilGrantha"%u then [Raise TypeError] else
  if str_eqb name "FixKhmerLoC"%u then [Raise TypeError] else
  if str_eqb name "FixKhmer"%u then [Raise TypeError] else
  if str_eqb name "FixKhamtiShan"%u then [Raise TypeError] else
  if str_eqb name "FixTaiLaing"%u then [Raise TypeError] else
  if str_eqb name "FixShan"%u then [Raise TypeError] else
  if str_eqb name "FixMon"%u then [Raise TypeError] else
  if str_eqb name "FixBurmese"%u then [Raise TypeError] else
  if str_eqb name "FixTagbanwa"%u then [Raise TypeError] else
  if str_eqb name "FixBuhid"%u then [Raise TypeError] else
  if str_eqb name "FixBuginese"%u then [Raise TypeError] else
  if str_eqb name "FixBalinese"%u then [Raise TypeError] else
  if str_eqb name "FixDivesAkuru"%u then [Raise TypeError] else
  if str_eqb name "FixKawi"%u then [Raise TypeError] else
  if str_eqb name "FixJavanese"%u then [Raise TypeError] else
  if str_eqb name "FixUrdu"%u then [Raise TypeError] else
  if str_eqb name "FixShahmukhi"%u then [Raise TypeError] else
  if str_eqb name "FixThaana"%u then [Raise TypeError] else
  if str_eqb name "FixSaurashtra"%u then [Raise TypeError] else
  if str_eqb name "FixTibetanLoC"%u then [Raise TypeError] else
  if str_eqb name "FixTibetan"%u then [Raise TypeError] else
  if str_eqb name "FixKhomThai"%u then [Raise TypeError] else
  if str_eqb name "FixThai"%u then [Raise TypeError] else
  if str_eqb name "FixLaoPali"%u then [Raise TypeError] else
  if str_eqb name "FixMakasar"%u then [Raise TypeError] else
  if str_eqb name "FixAvestan"%u then [Raise TypeError] else
  if str_eqb name "FixLao"%u then [Raise TypeError] else
  if str_eqb name "FixOldPersian"%u then [Raise TypeError] else
  if str_eqb name "FixSinhala"%u then [Raise TypeError] else
  if str_eqb name "FixSantali"%u then [Raise TypeError] else
  if str_eqb name "FixSoraSompeng"%u then [Raise TypeError] else
  if str_eqb name "FixRomanReadable"%u then [Raise TypeError] else
  if str_eqb name "FixRomanColloquial"%u then [Raise TypeError] else
  if str_eqb name "FixWarangCiti"%u then [Raise TypeError] else
  if str_eqb name "FixLimbuLoC"%u then [Raise TypeError] else
  if str_eqb name "FixLimbu"%u then [Raise TypeError] else
  if str_eqb name "FixDevanagari"%u then [Raise TypeError] else
  if str_eqb name "FixKaithi"%u then [Raise TypeError] else
  if str_eqb name "FixLao2"%u then [Raise TypeError] else
  if str_eqb name "FixNandinagari"%u then [Raise TypeError] else
  if str_eqb name "FixLepcha"%u then [Raise TypeError] else
  if str_eqb name "FixSundanese"%u then [Raise TypeError] else
  if str_eqb name "FixRejang"%u then [Raise TypeError] else
  if str_eqb name "FixChakma"%u then [Raise TypeError] else
  if str_eqb name "FixIAST"%u then [Raise TypeError] else
  if str_eqb name "FixIPA"%u then [Raise TypeError] else
  if str_eqb name "FixPhagsPa"%u then [Raise TypeError] else
  if str_eqb name "FixLatn"%u then CF_FixLatn Source true else
  if str_eqb name "FixArab"%u then CF_FixArab Source true else
  if str_eqb name "FixThaa"%u then CF_FixThaa Source true else
  if str_eqb name "FixArab_Ph"%u then CF_FixArab_Ph Source true else
  if str_eqb name "FixArab_Fa"%u then CF_FixArab_Fa Source true else
  if str_eqb name "FixArab_Ur"%u then CF_FixArab_Ur Source true else
  if str_eqb name "FixUgar"%u then CF_FixUgar Source true else
  if str_eqb name "FixSogd"%u then CF_FixSogd Source true else
  if str_eqb name "FixMalayalam"%u then [Raise TypeError] else
  if str_eqb name "FixTelugu"%u then [Raise TypeError] else
  if str_eqb name "FixMeeteiMayek"%u then [Raise TypeError] else
  if str_eqb name "FixBatakSima"%u then [Raise TypeError] else
  if str_eqb name "FixCham"%u then [Raise TypeError] else
  if str_eqb name "FixTaiTham"%u then [Raise TypeError] else
  if str_eqb name "FixLaoTham"%u then [Raise TypeError] else
  if str_eqb name "FixThamLoC"%u then [Raise TypeError] else
  if str_eqb name "FixLueTham"%u then [Raise TypeError] else
  if str_eqb name "FixKhuenTham"%u then [Raise TypeError] else
  if str_eqb name "FixBengali"%u then [Raise TypeError] else
  if str_eqb name "FixAssamese"%u then [Raise TypeError] else
  if str_eqb name "FixSharada"%u then [Raise TypeError] else
  if str_eqb name "FixKannada"%u then [Raise TypeError] else
  if str_eqb name "FixGrantha"%u then [Raise TypeError] else
  if str_eqb name "FixMahajani"%u then [Raise TypeError] else
  if str_eqb name "FixAhom"%u then [Raise TypeError] else
  if str_eqb name "FixMultani"%u then [Raise TypeError] else
  if str_eqb name "FixGujarati"%u then [Raise TypeError] else
  if str_eqb name "FixZanabazarSquare"%u then [Raise TypeError] else
  if str_eqb name "FixKhojki"%u then [Raise TypeError] else
  if str_eqb name "FixNewa"%u then [Raise TypeError] else
  [Raise AttributeError].

(** aksharamukha/ConvertFix.py:355-363  def FixSemiticOutput(Strng, Source, Target) *)
Definition CF_FixSemiticOutput (Source Target : str) : prog :=
  [Replace "˞"%u []; Try is_KeyError (CF_globals_call_Source ("Fix"%u ++ replace "-"%u "_"%u Target) Source)].

(** aksharamukha/ConvertFix.py:367-391  def FixIndicOutput(Strng, Source, Target) *)
Definition CF_FixIndicOutput (Source Target : str) : prog :=
  let! vm := CrunchList "ViramaMap"%u Target in
  let! vir := idx vm 0%Z in
  [Replace (vir ++ "_"%u) vir; Try is_KeyError (CF_globals_call ("Fix"%u ++ Target)); Replace "ʽ"%u []]
  ++ CF_ShiftDiacritics Target false
  ++ (if mem Target ["Assamese"%u; "Bengali"%u; "Devanagari"%u; "Gujarati"%u; "Kannada"%u; "Malayalam"%u; "Oriya"%u; "Gurmukhi"%u; "Tamil"%u; "Telugu"%u; "TamilExtended"%u; "Grantha"%u; "Sharada"%u] then [] else
      [Replace [0x952]%N "↓"%u; Replace [0x1CDA]%N "↑↑"%u; Replace [0x951]%N "↑"%u]).

(** aksharamukha/ConvertFix.py:2311-2362  def kharoshthiNumber(Strng) *)
(** The function takes and returns numbers and text; see FixNum.v. *)
Definition CF_kharoshthiNumber := kharoshthiNumber.

