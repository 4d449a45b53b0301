(** * Convert.py: conversion between two scripts. *)
From Coq Require Import List NArith ZArith Bool.
From Verif Require Import PyStr Regex Unicode Prog GMLists GeneralMap FixNum
  PostProcess1 ConvertFix1 PreProcess1 PostProcess2 Gimeltra.
Import ListNotations.

(** [for x, y in pairs: Strng = Strng.replace(x, y)] *)
Definition replace_all (pairs : list (str * str)) : prog := map (fun '(x, y) => Replace x y) pairs.

(** aksharamukha/Convert.py:30-34 lenSort through cmp_to_key: sorting uses only
    "cmp < 0", i.e. longer first components come first, stably. *)
Definition lenSort (l : list (str * str)) : list (str * str) :=
  ssort (fun a b => longer (fst a) (fst b)) l.

(** aksharamukha/Convert.py:37, 160 ScriptAll *)
Definition ScriptAllParts : list str :=
  GM_Vowels ++ GM_Consonants ++ GM_CombiningSigns ++ GM_Numerals ++ GM_Signs ++ GM_Aytham.

(** aksharamukha/Convert.py:36-47 convertInter *)
Definition convertInter (Source : str) : prog :=
  let! SourceScript := CrunchSymbols ScriptAllParts Source in
  let! TargetScript := CrunchSymbols ScriptAllParts GM_Inter in
  replace_all (lenSort (zip SourceScript TargetScript)).

(** aksharamukha/Convert.py:74-75, 182-183: the alternatives for punctuation *)
Definition om_punc (signs : list str) : str :=
  ("("%u ++ join "|"%u (map (fun x => "\"%u ++ x) (chars punctuation) ++ ["\s"%u]
     ++ map (replace "."%u "\."%u) (slice signs (Some 1%Z) (Some 3%Z))) ++ ")"%u).

(** aksharamukha/Convert.py:79-82: the four replacements of om *)
Definition om_subs (punc sOm tOm : str) : prog :=
  [ReSub (punc ++ sOm ++ punc) ("\1"%u ++ tOm ++ "\2"%u);
   ReSub ("^"%u ++ sOm ++ punc) (tOm ++ "\1"%u);
   ReSub (punc ++ sOm ++ "$"%u) ("\1"%u ++ tOm);
   ReSub ("^"%u ++ sOm ++ "$"%u) tOm].

Definition first_of (List Script : str) : res str :=
  do l <- CrunchList List Script; idx l 0%Z.

Definition DepV : str := [0x1E7F%N].
Definition Schwa : str := [0xF000%N].

(** aksharamukha/Convert.py:103-120, 196-208, 236-254: the pairs of one
    character group, sorted descending; [fs]/[ft] adjust the two sides. *)
Definition group_pairs (fs ft : str -> str -> str) (Source Target : str) (charList : str)
  : res (list (str * str)) :=
  do parts <- retCharList charList;
  do s <- CrunchSymbols parts Source;
  do t <- CrunchSymbols parts Target;
  Ok (sort_pairs_rev (zip (map (fs charList) s) (map (ft charList) t))).

Definition charPairs (fs ft : str -> str -> str) (Source Target : str) : res (list (str * str)) :=
  do gs <- mapR (group_pairs fs ft Source Target) GM_ScriptAll;
  Ok (lenSort (concat gs)).

Definition id_side (charList x : str) : str := x.

(** aksharamukha/Convert.py:61-150, source Latin, target Indic *)
Definition latin_indic (Source Target : str) : prog :=
  [Try is_AttributeError (CF_getattr_reverse ("Fix"%u ++ Source))]
  ++ (if mem Source ["IAST"%u; "ISO"%u; "ISOPali"%u; "Titus"%u]
      then [Replace [0x16D%N] [0x75%N; 0xD7%N]] else [])
  ++ [Replace "{}"%u [0x200C%N]; Replace "()"%u [0x200D%N]]
  ++ CF_VedicSvarasLatinIndic Source
  ++ (let! signs := CrunchSymbols GM_Signs Source in
      let! sOm := first_of "OmMap"%u Source in
      let! tOm := first_of "OmMap"%u Target in
      om_subs (om_punc signs) sOm tOm ++ om_subs "(\s)"%u sOm tOm)
  ++ convertInter Source
  ++ PrP_RomanPreFix GM_Inter
  ++ [Replace [0xE51B; 0x1E7F; 0xD7; 0x5F; 0xE006]%N [0xE51B; 0x1E7F; 0xE006]%N;
      Replace [0xE51B; 0x1E7F; 0xD7; 0x5F; 0xE007]%N [0xE51B; 0x1E7F; 0xE007]%N]
  ++ (let! _ := (do c <- CrunchSymbols GM_Consonants GM_Inter; idx c 32%Z) in
      let! pairs := charPairs (fun g x => if str_eqb g "VowelSigns"%u then DepV ++ x else x)
                              id_side GM_Inter Target in
      replace_all pairs)
  ++ (let! vowels := CrunchSymbols GM_Vowels Target in
      let! v2 := idx vowels 2%Z in
      let! v4 := idx vowels 4%Z in
      [Replace ("_"%u ++ v2) v2; Replace ("_"%u ++ v4) v4])
  ++ (let! vir := first_of "ViramaMap"%u Target in
      [Replace (vir ++ "[]"%u) (0x200D%N :: vir); Replace [0xD7%N] vir])
  ++ CF_FixIndicOutput GM_Inter Target.

(** aksharamukha/Convert.py:152-173, source Latin, target Latin *)
Definition latin_latin (Source Target : str) : prog :=
  [Try is_AttributeError (CF_getattr_reverse ("Fix"%u ++ Source))]
  ++ convertInter Source
  ++ (let! s := CrunchSymbols ScriptAllParts GM_Inter in
      let! t := CrunchSymbols ScriptAllParts Target in
      replace_all (zip s t))
  ++ CF_PostFixRomanOutput Source Target.

(** aksharamukha/Convert.py:175-223, source Indic, target Indic *)
Definition indic_indic (Source Target : str) : prog :=
  PrP_RemoveJoiners
  ++ CF_ShiftDiacritics Source true
  ++ [Try is_AttributeError (CF_getattr_reverse ("Fix"%u ++ Source))]
  ++ (let! signs := CrunchSymbols GM_Signs Source in
      let! sOm := first_of "OmMap"%u Source in
      let! tOm := first_of "OmMap"%u Target in
      if Nat.eqb (length sOm) 1 then [Replace sOm tOm] else om_subs (om_punc signs) sOm tOm)
  ++ (let! pairs := charPairs id_side id_side Source Target in replace_all pairs)
  ++ CF_FixIndicOutput Source Target.

(** aksharamukha/Convert.py:225-285, source Indic, target Latin *)
Definition indic_latin (Source Target : str) : prog :=
  PrP_RemoveJoiners
  ++ CF_ShiftDiacritics Source true
  ++ [Try is_AttributeError (CF_getattr_reverse ("Fix"%u ++ Source))]
  ++ (let! sOm := first_of "OmMap"%u Source in
      let! tOm := first_of "OmMap"%u Target in
      [Replace sOm tOm])
  ++ (let! pairs := charPairs id_side
         (fun g x => if str_eqb g "Consonants"%u then x ++ Schwa
                     else if str_eqb g "Vowels"%u then DepV ++ x else x) Source Target in
      if str_eqb Source "RomanSemitic"%u then
        let unasp := ["k"%u; "g"%u; "c"%u; "j"%u; "t"%u; "d"%u; "p"%u; "b"%u; "ɽ"%u; "ʈ"%u; "ɖ"%u; "r"%u] in
        let hasH := fun p : str * str => contains "ʰ"%u (fst p) in
        foreach (filter (fun p => negb (hasH p)) pairs ++ filter hasH pairs) (fun '(x, y) =>
          if mem x unasp then [ReSub (x ++ "(?!(ʰ|"%u ++ [0x324%N] ++ "))"%u) y] else [Replace x y])
      else replace_all pairs)
  ++ CF_FixRomanOutput Target
  ++ CF_VedicSvarsIndicLatin
  ++ CF_PostFixRomanOutput Source Target.

(** aksharamukha/Convert.py:61-285: the branches that involve no Semitic script *)
Definition convert_branch (Source Target : str) : option prog :=
  if mem Source GM_LatinScripts && mem Target GM_IndicScripts then Some (latin_indic Source Target)
  else if mem Source GM_LatinScripts && mem Target GM_LatinScripts then Some (latin_latin Source Target)
  else if mem Source GM_IndicScripts && mem Target GM_IndicScripts then Some (indic_indic Source Target)
  else if mem Source GM_IndicScripts && mem Target GM_LatinScripts then Some (indic_latin Source Target)
  else None.

(** The recursive call from the Semitic branches, where one side is
    RomanSemitic (not a Semitic script, so one of the branches above, or
    nothing); followed by PP.default as in every call. *)
Definition convertScript_RomanSemitic (Source Target : str) : prog :=
  match convert_branch Source Target with Some p => p | None => [] end ++ PP_default [].

(** aksharamukha/Convert.py:287-305 *)
Definition semitic_semitic (Source Target : str) : prog :=
  [Try is_AttributeError (CF_getattr_Source_reverse ("Fix"%u ++ replace "-"%u "_"%u Source) Source)]
  ++ (if str_eqb Source "Ugar"%u then [Replace "𐎟"%u " "%u] else [])
  ++ gim_tr Source Target
  ++ CF_FixSemiticOutput Source Target.

(** aksharamukha/Convert.py:307-338 *)
Definition other_semitic (Source Target : str) : prog :=
  convertScript_RomanSemitic Source "RomanSemitic"%u
  ++ [Replace "QQ"%u []; Replace "mQ"%u []]
  ++ (if negb (contains "Arab"%u Target) && negb (contains "Hebr"%u Target) && negb (contains "Latn"%u Target)
      then [ReSub ("(.)"%u ++ [0x33D%N] ++ "\1"%u) "\1"%u] else [])
  ++ PP_FixSemiticRoman Target
  ++ (if contains "Arab"%u Target || mem Target ["Hebr"%u; "Syre"%u; "Syrj"%u; "Syrn"%u; "Thaa"%u]
      then PP_insertARomanSemitic else [])
  ++ gim_tr "Latn"%u Target
  ++ CF_FixSemiticOutput Source Target.

(** aksharamukha/Convert.py:340-359 *)
Definition semitic_other (Source Target : str) : prog :=
  [Try is_AttributeError (CF_getattr_Source_reverse ("Fix"%u ++ replace "-"%u "_"%u Source) Source)]
  ++ gim_tr Source "Latn"%u
  ++ CF_FixSemiticOutput Source Target
  ++ PrP_FixSemiticRoman Source
  ++ convertScript_RomanSemitic "RomanSemitic"%u Target
  ++ (if str_eqb Source "Ugar"%u then [Replace "𐎟"%u " "%u] else []).

(** aksharamukha/Convert.py:50-366 convertScript *)
Definition convertScript (Source Target : str) : prog :=
  (match convert_branch Source Target with
   | Some p => p
   | None =>
       if mem Source GM_SemiticScripts && mem Target GM_SemiticScripts then semitic_semitic Source Target
       else if mem Source (GM_IndicScripts ++ GM_LatinScripts) && mem Target GM_SemiticScripts
       then other_semitic Source Target
       else if mem Source GM_SemiticScripts && mem Target (GM_IndicScripts ++ GM_LatinScripts)
       then semitic_other Source Target
       else []
   end)
  ++ PP_default [].
