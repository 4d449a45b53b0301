(** * transliterate.py and PostOptions.py: the public API.

    [convert] is a program over the text given its static arguments.  The
    [process] family is modelled as functions to [outcome]: the warnings issued
    (in order) and the value returned or the exception raised. *)
From Coq Require Import List NArith ZArith Bool.
From Verif Require Import PyStr Unicode Prog GMLists GeneralMap PostProcess1 PostProcess2
  ConvertFix1 PreProcess1 Dispatch YamlData Convert.
Import ListNotations.
Open Scope N_scope.

(* ------------------------------------------------------------------ *)
(** ** PostOptions.py *)

(** aksharamukha/PostOptions.py:10-101: the options chosen for a target. *)
Definition default_options (Source Target : str) (PostOptions : list str) : list str :=
  if str_eqb Target "Telugu"%u then ["NasalToAnusvara"%u; "MToAnusvara"%u; "TeluguRemoveNukta"%u; "TeluguRemoveAeAo"%u]
  else if str_eqb Target "Kannada"%u then ["NasalToAnusvara"%u; "MToAnusvara"%u]
  else if str_eqb Target "Sinhala"%u then ["SinhalaChandrbinduAnusvara"%u]
  else if str_eqb Target "Khojki"%u then ["KhojkiRRI"%u]
  else if str_eqb Target "Nandinagari"%u then ["NasalToAnusvara"%u]
  else if str_eqb Target "Hebrew"%u then ["HebrewVetVav"%u; "HebrewnonFinalShort"%u]
  else if str_eqb Target "Malayalam"%u then ["MalayalamAnusvaraNasal"%u; "MToAnusvara"%u; "MalayalamremoveHistorical"%u]
  else if str_eqb Target "Tamil"%u then ["TamilNaToNNa"%u; "AnusvaraToNasal"%u; "TamilpredictDentaNa"%u]
  else if str_eqb Target "Bengali"%u then
    if mem "BengaliRaBa"%u PostOptions then ["YaToYYa"%u; "AnusvaraToNasal"%u; "BengaliConjunctVB"%u]
    else ["AnusvaraToNasal"%u; "VaToBa"%u; "YaToYYa"%u; "BengaliConjunctVB"%u]
  else if str_eqb Target "MeeteiMayek"%u then ["MeeteiMayekremoveHistorical"%u]
  else if str_eqb Target "Limbu"%u then ["LimburemoveHistorical"%u]
  else if str_eqb Target "Assamese"%u then ["YaToYYa"%u; "AnusvaraToNasal"%u]
  else if str_eqb Target "Oriya"%u then ["AnusvaraToNasal"%u; "OriyaVa"%u; "YaToYYa"%u]
  else if str_eqb Target "Chakma"%u then ["YaToYYa"%u]
  else if str_eqb Target "Gurmukhi"%u then ["GurmukhiCandrabindu"%u; "GurmukhiTippiBindu"%u; "GurmukhiTippiGemination"%u]
  else if str_eqb Target "Saurashtra"%u then ["SaurashtraHaru"%u]
  else if str_eqb Target "Ahom"%u then ["AhomClosed"%u]
  else if str_eqb Target "Tibetan"%u then ["TibetanRemoveVirama"%u; "TibetanRemoveBa"%u]
  else if str_eqb Target "Thaana"%u then ["ThaanaRemoveHistorical"%u]
  else if str_eqb Target "Avestan"%u then ["AvestanConventions"%u]
  else if str_eqb Target "Sundanese"%u then ["SundaneseRemoveHistoric"%u]
  else if str_eqb Target "Multani"%u then ["MultaniAbjad"%u]
  else if str_eqb Target "Modi"%u then ["ModiRemoveLong"%u]
  else if str_eqb Target "WarangCiti"%u then ["WarangCitiModernOrthogaphy"%u]
  else if str_eqb Target "Latn"%u then
    if str_eqb Source "Arab"%u then ["arabizeLatn"%u]
    else if mem Source ["Arab-Ur"%u; "Arab-Pa"%u; "Arab-Fa"%u] then ["urduizeLatn"%u]
    else if str_eqb Source "Syrn"%u then ["syricizeLatn"%u]
    else if mem Source ["Syrj"%u; "Hebr"%u] then ["hebraizeLatn"%u]
    else []
  else if str_eqb Target "Arab"%u then ["ArabRemoveAdditions"%u]
  else [].

(** aksharamukha/PostOptions.py:10-109 ApplyScriptDefaults *)
Definition ApplyScriptDefaults (Source Target : str) (PostOptions : list str) : prog :=
  foreach (default_options Source Target PostOptions) (fun Option =>
    if contains Target Option then PP_call Option else PP_call_Target Option Target).

(* ------------------------------------------------------------------ *)
(** ** convert: transliterate.py:226-543 *)

(** What [convert] keeps in its local variables besides the text. *)
Record args := Args
  { a_src : str; a_tgt : str; a_nat : bool; a_pre : list str; a_post : list str }.

Definition dict_list (k : str) (d : list (str * list str)) : list str :=
  match lookup k d with Some l => l | None => [] end.

(** aksharamukha/transliterate.py:231-256: RomanLoC as a target. *)
Definition loc_target (a : args) : args :=
  let '(Args src tgt nat pre post) := a in
  if str_eqb tgt "RomanLoC"%u && mem src GM_LoCScripts then
    let src := if mem src GM_LoCSrcMap then src ++ "LoC"%u
               else if contains "Tham"%u src then "ThamLoC"%u else src in
    let tgt := if mem src GM_LoCTgtMap then src ++ tgt
               else if mem src GM_LoCTgtISO then "ISO"%u else tgt in
    if mem src GM_LocPostPre then
      let pre := pre ++ [tgt ++ "Target"%u] in
      let post := [tgt ++ "Target"%u] ++ post in
      let pre := if mem src ["KhmerLoC"%u] then pre ++ ["SchwaFinalKhmerLoC"%u] else pre in
      Args src tgt false pre post
    else
      Args src tgt nat (pre ++ dict_list src GM_LoCTgtPreOptions)
           (dict_list src GM_LoCTgtPostOptions ++ post)
  else a.

(** aksharamukha/transliterate.py:258-263 *)
Definition loc_target_other (a : args) : args :=
  let '(Args src tgt nat pre post) := a in
  if str_eqb tgt "RomanLoC"%u && negb (mem src GM_LoCScripts) then
    Args src (if mem src GM_SemiticScripts then "ISO233"%u else "ISO"%u) nat pre post
  else a.

(** aksharamukha/transliterate.py:265-287: RomanLoC as a source. *)
Definition loc_source (a : args) : args :=
  let '(Args src tgt nat pre post) := a in
  if str_eqb src "RomanLoC"%u && mem tgt GM_LoCScripts then
    let tgt := if mem tgt GM_LoCSrcMap then tgt ++ "LoC"%u
               else if contains "Tham"%u tgt then "ThamLoC"%u else tgt in
    let src := if mem tgt GM_LoCTgtMap then tgt ++ src
               else if mem tgt GM_LoCTgtISO then "ISO"%u else src in
    if mem tgt GM_LocPostPre then
      Args src tgt false ([src ++ "Source"%u] ++ pre) ([src ++ "Source"%u] ++ post)
    else
      Args src tgt nat (pre ++ dict_list tgt GM_LoCSrcPreOptions)
           (dict_list tgt GM_LoCSrcPostOptions ++ post)
  else a.

(** aksharamukha/transliterate.py:271-272: the marker appended for Khuen. *)
Definition loc_source_mark (a : args) : prog :=
  let '(Args src tgt nat pre post) := a in
  if str_eqb src "RomanLoC"%u && mem tgt GM_LoCScripts
     && negb (mem tgt GM_LoCSrcMap) && contains "Tham"%u tgt && contains "Khuen"%u tgt
  then [Append [0x2BE]] else [].

(** aksharamukha/transliterate.py:289-294 *)
Definition loc_source_other (a : args) : args :=
  let '(Args src tgt nat pre post) := a in
  if str_eqb src "RomanLoC"%u && negb (mem tgt GM_LoCScripts) then
    Args (if mem tgt GM_SemiticScripts then "ISO233"%u else "ISO"%u) tgt nat pre post
  else a.

(** aksharamukha/transliterate.py:340 *)
Definition IndicSemiticMapping : list (str * str) :=
  [("Hebrew"%u, "Hebr"%u); ("Thaana"%u, "Thaa"%u); ("Urdu"%u, "Arab-Ur"%u); ("Shahmukhi"%u, "Arab-Pa"%u)].

Definition has_key {A} (k : str) (d : list (str * A)) : bool :=
  match lookup k d with Some _ => true | None => false end.
Definition get {A} (k : str) (d : list (str * A)) (dflt : A) : A :=
  match lookup k d with Some v => v | None => dflt end.

(** aksharamukha/transliterate.py:342-359: names of the Semitic scripts. *)
Definition semitic_switch (src tgt : str) (nativize : bool) : str * str :=
  let semOrIso x := mem x GM_SemiticScripts || has_key x GM_semiticISO in
  let src := if semOrIso tgt then get src IndicSemiticMapping src else src in
  let tgt := if semOrIso src then get tgt IndicSemiticMapping tgt else tgt in
  let '(src, tgt) :=
    if has_key src IndicSemiticMapping && has_key tgt IndicSemiticMapping
    then (get src IndicSemiticMapping src, get tgt IndicSemiticMapping tgt) else (src, tgt) in
  (if nativize then src else get src IndicSemiticMapping src, tgt).

(** aksharamukha/transliterate.py:421-448: names of the script variants chosen
    by options. *)
Definition variant_switch (src tgt : str) (nativize : bool) (pre post : list str)
    : str * str * bool :=
  let tgt := if mem "siddhammukta"%u post && str_eqb tgt "Siddham"%u then "SiddhamDevanagari"%u else tgt in
  let tgt := if mem "siddhamap"%u post && str_eqb tgt "Siddham"%u then "SiddhamDevanagari"%u else tgt in
  let src := if mem "siddhammukta"%u pre && str_eqb src "Siddham"%u then "SiddhamDevanagari"%u else src in
  let tgt := if mem "LaoNative"%u post && str_eqb tgt "Lao"%u then "Lao2"%u else tgt in
  let src := if mem "egrantamil"%u pre && str_eqb src "Grantha"%u then "GranthaGrantamil"%u else src in
  let tgt := if mem "egrantamil"%u post && str_eqb tgt "Grantha"%u then "GranthaGrantamil"%u else tgt in
  let tgt := if mem "nepaldevafont"%u post && str_eqb tgt "Newa"%u then "Devanagari"%u else tgt in
  let '(tgt, nativize) := if mem "ranjanalantsa"%u post && str_eqb tgt "Ranjana"%u
                          then ("Tibetan"%u, false) else (tgt, nativize) in
  let '(tgt, nativize) := if mem "ranjanawartu"%u post && str_eqb tgt "Ranjana"%u
                          then ("Tibetan"%u, false) else (tgt, nativize) in
  let '(tgt, nativize) := if mem "BengaliRaBa"%u post && str_eqb tgt "Bengali"%u
                          then ("BengaliRaBa"%u, false) else (tgt, nativize) in
  let tgt := if mem "BalineseSimplified"%u post && str_eqb src "Balinese"%u then "BalineseSimpleRomanLoC"%u else tgt in
  let tgt := if mem "JavaneseSimplified"%u post && str_eqb src "Javanese"%u then "JavaneseSimpleRomanLoC"%u else tgt in
  (src, tgt, nativize).

(** aksharamukha/transliterate.py:442-443.  The test sees [tgt] after the
    switches above it, none of which produces or removes "Soyombo". *)
Definition soyombo_mark (tgt : str) (post : list str) : prog :=
  if mem "SoyomboFinals"%u post && str_eqb tgt "Soyombo"%u then [Prepend [0x2BE]] else [].

(** aksharamukha/transliterate.py:478-489: convertScript, with the text between
    pairs of ## left alone for Itrans. *)
Definition convert_text (src tgt : str) : prog :=
  if str_eqb src "Itrans"%u
  then [IfIn "##"%u [EvenParts "##"%u (convertScript src tgt)] (convertScript src tgt)]
  else convertScript src tgt.

(** aksharamukha/transliterate.py:453-543: from the user's pre-options on. *)
Definition convert_tail (src tgt tgtOld : str) (nativize : bool) (pre post : list str) : prog :=
  foreach pre PrP_call
  ++ (if mem "novowelshebrew"%u pre && str_eqb src "Hebr"%u then [Replace [0x5B7] []] else [])
  ++ (if (negb (str_eqb src "Latn"%u) && negb (str_eqb src "Type"%u) && mem src GM_SemiticScripts)
         || (mem src GM_IndicScripts && mem tgt GM_SemiticScripts && negb (mem src GM_LatinScripts))
         || mem src ["Hiragana"%u; "Katakana"%u]
      then PrP_retainLatin false else [])
  ++ (let japanese := mem src ["Hiragana"%u; "Katakana"%u] in
      (if japanese then PrP_JapanesePreProcess src pre else [])
      ++ (let src := if japanese then "ISO"%u else src in
      (if mem tgt ["Hiragana"%u; "Katakana"%u]
       then PP_JapanesePostProcess src tgt nativize post else [])
      ++ (if str_eqb src "Oriya"%u && str_eqb tgt "IPA"%u then CF_OriyaIPAFixPre else [])
      ++ convert_text src tgt
      ++ (if japanese && negb (str_eqb tgt "Devanagari"%u) && negb (mem "siddhammukta"%u post)
          then convertScript "Devanagari"%u "ISO"%u else [])
      ++ (let back := str_eqb src tgtOld in
          let tgt := if back then tgtOld else tgt in
      (if back then convertScript "Devanagari"%u tgt else [])
      ++ (if (negb (mem src GM_SemiticScripts) && str_eqb tgt "Arab"%u && nativize)
             || mem "arabicRemoveAdditionsPhonetic"%u post
          then PP_arabicRemoveAdditionsPhonetic else [])
      ++ (if nativize then
            ApplyScriptDefaults src tgt post
            ++ (if str_eqb tgt "Latn"%u then []
                else if str_eqb tgt "Tamil"%u then PP_RemoveDiacriticsTamil else PP_RemoveDiacritics)
          else [])
      ++ (* l.515-517: [map] makes [postoptions] an iterator, empty after the loop of l.519 *)
         (let mapped := mem "RemoveDiacritics"%u post && str_eqb tgt "Tamil"%u in
          let post1 := if mapped
            then map (fun x => if str_eqb x "RemoveDiacritics"%u then "RemoveDiacriticsTamil"%u else x) post
            else post in
          let post2 := if mapped then [] else post in
      foreach post1 PP_call
      ++ (* l.522-525: an HTTP request *)
         (if str_eqb src "Tamil"%u && str_eqb tgt "IPA"%u then [Raise (External "requests.get"%u)] else [])
      ++ (if str_eqb src "Oriya"%u && str_eqb tgt "IPA"%u then CF_OriyaIPAFix else [])
      ++ PrP_retainLatin true
      ++ PP_defaultPost src tgt nativize pre post2)))).

(** aksharamukha/transliterate.py:419-543: from PreProcess.PreProcess on. *)
Definition convert_rest (src tgt tgtOld : str) (nativize : bool) (pre post : list str) : prog :=
  PrP_PreProcess src tgt post pre
  ++ (let '(src', tgt', nativize') := variant_switch src tgt nativize pre post in
      soyombo_mark tgt post ++ convert_tail src' tgt' tgtOld nativize' pre post).

(** aksharamukha/transliterate.py:334-543: from the early returns on. *)
Definition convert_main (a : args) : prog :=
  let '(Args src tgt nativize pre post) := a in
  if str_eqb tgt []  || str_eqb tgt "Ignore"%u then []
  else if (match pre, post with [], [] => true | _, _ => false end)
          && negb nativize && str_eqb src tgt then []
  else
    let '(src, tgt) := semitic_switch src tgt nativize in
    (if mem src ["Arab-Ur"%u; "Arab-Pa"%u] && mem tgt GM_IndicScripts then [Append [0x5CD]] else [])
    ++ (if nativize && mem src GM_SemiticScripts && mem tgt GM_IndicScripts then [Append [0x5CC]] else [])
    ++ (let same := str_eqb src tgt && negb (str_eqb src "Hiragana"%u) && negb (str_eqb src "Katakana"%u)
                    && negb (mem src GM_SemiticScripts) in
        let tgtOld := if same then tgt else [] in
        let tgt := if same then "Devanagari"%u else tgt in
        if mem "indicDandas"%u post then
          let other :=
            let! signs := CrunchList "SignMap"%u src in
            let! danda := idx signs 1 in
            if str_eqb danda "।"%u then convert_rest src tgt tgtOld nativize (pre ++ ["RetainDevangariDanda"%u]) post
            else convert_rest src tgt tgtOld nativize pre
                   (post ++ [if mem tgt GM_Transliteration then "Dot2Pipes"%u else "Dot2Dandas"%u]) in
          if mem src GM_pipeScripts
          then [IfIn "|"%u (PrP_RetainPipeDanda src ++ convert_rest src tgt tgtOld nativize pre post) other]
          else other
        else convert_rest src tgt tgtOld nativize pre post).

(** aksharamukha/transliterate.py:226-543 with its recursive calls (l.307, 323)
    passed as [rec]. *)
Definition convert_step (rec : args -> prog) (a0 : args) : prog :=
  let a := loc_target_other (loc_target a0) in
  loc_source_mark a
  ++ (let a := loc_source_other (loc_source a) in
      let '(Args src tgt nativize pre post) := a in
      let '(p, Args src tgt nativize pre post) :=
        match lookup tgt GM_semiticISO with
        | Some via =>
            (if str_eqb via src then [] else rec (Args src via nativize pre post),
             Args via "Latn"%u false ([tgt ++ "Target"%u] ++ pre) ([tgt ++ "Target"%u] ++ post))
        | None => ([], Args src tgt nativize pre post)
        end in
      p ++
      let '(p, a) :=
        match lookup src GM_semiticISO with
        | Some via =>
            if str_eqb via tgt
            then ([], Args "Latn"%u tgt nativize ([src ++ "Source"%u] ++ pre) ([src ++ "Source"%u] ++ post))
            else (rec (Args src via nativize pre post), Args via tgt nativize pre post)
        | None => ([], Args src tgt nativize pre post)
        end in
      p ++ convert_main a).

(** The calls nest at most three deep ([convert_unfold] in ConvertFacts.v). *)
Fixpoint convert_n (n : nat) (a : args) : prog :=
  match n with
  | O => [Raise (External "RecursionError"%u)]
  | S k => convert_step (convert_n k) a
  end.

(** aksharamukha/transliterate.py:226 convert, as a program over [txt]. *)
Definition convert_prog (src tgt : str) (nativize : bool) (pre post : list str) : prog :=
  convert_n 3 (Args src tgt nativize pre post).

(** aksharamukha/transliterate.py:226 convert *)
Definition convert (src tgt txt : str) (nativize : bool) (pre post : list str) : res str :=
  run (convert_prog src tgt nativize pre post) txt.

(* ------------------------------------------------------------------ *)
(** ** Script detection: transliterate.py:42-223 *)

Section Detect.
  (** unicodedata.name (None: ValueError) and fontTools.unicodedata.script: the
      results of these libraries are parameters, every theorem holds for all of
      them. *)
  Variable uname : N -> option str.
  Variable uscript : N -> str.

  (** aksharamukha/transliterate.py:45-54 *)
  Fixpoint scripts_of (text : str) : res (list str) :=
    match text with
    | [] => Ok []
    | c :: t =>
        match uname c with
        | None => scripts_of t
        | Some nm =>
            let words := split " "%u nm in
            do w <- idx words 0;
            do s <- (if str_eqb (py_lower w) "old"%u then do w1 <- idx words 1; Ok (py_lower w1)
                     else Ok (py_lower w));
            do rest <- scripts_of t;
            Ok (s :: rest)
        end
    end.

  (** collections.Counter: entries in order of first occurrence. *)
  Fixpoint bump (k : str) (l : list (str * nat)) : list (str * nat) :=
    match l with
    | [] => [(k, 1%nat)]
    | (k', n) :: t => if str_eqb k k' then (k', S n) :: t else (k', n) :: bump k t
    end.
  Definition counter (l : list str) : list (str * nat) := fold_left (fun acc k => bump k acc) l [].

  (** Order of the pairs (percent, script) of l.61-63.  The percentages
      count/len*100 are compared through the counts: they have the same order
      (for texts of less than 2^40 characters, where the floats do not
      collapse). *)
  Definition count_ltb (a b : nat * str) : bool :=
    if Nat.eqb (fst a) (fst b) then str_ltb (snd a) (snd b) else Nat.ltb (fst a) (fst b).

  (** aksharamukha/transliterate.py:57-79: the prevailing first word. *)
  Definition main_script (scripts : list str) (plugin : bool) : res str :=
    let percent := ssort count_ltb (map (fun '(s, n) => (n, s)) (counter scripts)) in
    match percent with
    | [] => Ok []
    | _ => do top <- idx percent (-1);
           if plugin && str_eqb (snd top) "latin"%u
           then do second <- idx percent (-2); Ok (snd second)
           else Ok (snd top)
    end.

  Definition any_in (l : list str) (text : str) : bool := existsb (fun c => contains c text) l.

  (** aksharamukha/transliterate.py:99-121.  [char] keeps its previous value when
      unicodedata.name fails; [None]: not yet bound. *)
  Fixpoint myanmar_counts (char : option str) (text : str) (n : nat * nat * nat)
      : res (nat * nat * nat) :=
    match text with
    | [] => Ok n
    | c :: t =>
        let char := match uname c with Some nm => Some (py_lower nm) | None => char end in
        match char with
        | None => Err NameError
        | Some nm =>
            let '(shan, laing, khamti) := n in
            myanmar_counts char t
              (if contains "shan"%u nm then (S shan, laing, khamti)
               else if contains "tai laing"%u nm then (shan, S laing, khamti)
               else if contains "khamti"%u nm then (shan, laing, S khamti)
               else n)
        end
    end.

  (** sorted by count (stable), last entry. *)
  Definition myanmar_variant (n : nat * nat * nat) : str :=
    let '(shan, laing, khamti) := n in
    let m := Nat.max shan (Nat.max laing khamti) in
    if Nat.eqb khamti m then "KhamtiShan"%u
    else if Nat.eqb laing m then "TaiLaing"%u else "Shan"%u.

  (** gimeltra.py:31-36 auto_script: most_common(1) gives the first of the most
      frequent values. *)
  Definition auto_script (text : str) : res str :=
    match counter (map uscript text) with
    | [] => Err IndexError
    | h :: t =>
        let best := fold_left (fun b x => if Nat.ltb (snd b) (snd x) then x else b) t h in
        Ok (match fst best with [] => "Zyyy"%u | s => s end)
    end.

  (** aksharamukha/transliterate.py:81-197: from the name to the script. *)
  Definition refine_script (inputScript text : str) : res str :=
    let is s := str_eqb inputScript s in
    if is "Bengali"%u then
      Ok (if contains [0x9F0] text || contains [0x9F1] text then "Assamese"%u else inputScript)
    else if is "Lao"%u then
      Ok (if any_in (chars [0xE86; 0xE89; 0xE8C; 0xE8E; 0xE8F; 0xE90; 0xE91; 0xE92; 0xE93; 0xE98;
                            0xEA0; 0xEA8; 0xEA9; 0xEAC; 0xEBA]) text then "LaoPali"%u else inputScript)
    else if is "Batak"%u then Ok "BatakKaro"%u
    else if is "Myanmar"%u then
      let inputScript :=
        if any_in [[0x105A]; [0x105B]; [0x1039; 0x100A]; [0x105E]; [0x105F]; [0x1060]; [0x1033]; [0x1028]] text
        then "Mon"%u else "Burmese"%u in
      do n <- myanmar_counts None (replace [0x1083] [] text) (0, 0, 0)%nat;
      Ok (match n with (O, O, O) => inputScript | _ => myanmar_variant n end)
    else if is "Meetei"%u then Ok "MeeteiMayek"%u
    else if is "Dives"%u then Ok "DivesAkuru"%u
    else if is "Persian"%u then Ok "OldPersian"%u
    else if is "Phags-pa"%u then Ok "PhagsPa"%u
    else if is "Ol"%u then Ok "Santali"%u
    else if is "Sora"%u then Ok "SoraSompeng"%u
    else if is "Syloti"%u then Ok "SylotiNagri"%u
    else if is "Tai"%u then Ok "TaiTham"%u
    else if is "Warang"%u then Ok "WarangCiti"%u
    else if is "Siddham"%u then Ok inputScript
    else if is "Cyrillic"%u then Ok "RussianCyrillic"%u
    else if is "Zanabazar"%u then Ok "ZanabazarSquare"%u
    else if is "Syriac"%u then
      let s := if any_in [[0x732]; [0x735]; [0x71D; 0x73C]; [0x718; 0x73C]; [0x738]; [0x739]; [0x718; 0x73F]] text
               then "Syrn"%u else "Syre"%u in
      Ok (if any_in (chars [0x730; 0x73A; 0x736; 0x651; 0x73D]) text then "Syrj"%u else s)
    else if is "Arabic"%u then
      let s := if any_in [[0x686]; [0x6AF]; [0x698]; [0x67E]; [0x647; 0x654]] text then "Arab-Fa"%u else "Arab"%u in
      let s := if any_in (chars [0x688; 0x679; 0x691; 0x6BE]) text then "Urdu"%u else s in
      Ok (if any_in [[0x768]; [0x644; 0x615]; [0x645; 0x6BE]; [0x646; 0x6BE]; [0x6CC; 0x6BE]; [0x631; 0x6BE];
                     [0x644; 0x6BE]; [0x648; 0x6BE]] text then "Shahmukhi"%u else s)
    else if is "Latin"%u then
      Ok (if contains [0x2B0] text then "Titus"%u
          else if any_in ["ʾ"%u; "ʿ"%u; "š"%u; "w"%u] text then "Latn"%u
          else if any_in (chars [0xB4; 0x2DD; 0x2BB]) text then "BurmeseRomanLoC"%u
          else if any_in (chars [0x101; 0x12B; 0x16B; 0x1E43; 0x1E25; 0x15B; 0x1E63; 0x1E47; 0x1E5B; 0x1E5D; 0x1E37;
                                 0x1E39; 0x1E3B; 0x1E49; 0x1E5F; 0x1E6D; 0x1E0D; 0x1E45; 0xF1]) text
          then if contains [0x113] text || contains [0x14D] text || contains [0x72; 0x325] text
               then "ISO"%u else "IAST"%u
          else if any_in ["R^i"%u; "R^I"%u; "L^i"%u; "L^I"%u; ".N"%u; "~N"%u; "~n"%u; "Ch"%u; "sh"%u; "Sh"%u] text
          then "Itrans"%u else "HK"%u)
    else if mem inputScript GM_IndicScripts || mem inputScript GM_LatinScripts
            || mem inputScript ["Hiragana"%u; "Katakana"%u] then Ok inputScript
    else auto_script text.

  (** aksharamukha/transliterate.py:42-197 auto_detect *)
  Definition auto_detect (text : str) (plugin : bool) : res str :=
    do scripts <- scripts_of text;
    do script <- main_script scripts plugin;
    match script with
    | [] => Err IndexError
    | c :: rest => refine_script (py_upper [c] ++ rest) text
    end.

  (** aksharamukha/transliterate.py:201-223 detect_preoptions *)
  Definition detect_preoptions (text inputScript : str) : list str :=
    if str_eqb inputScript "Thai"%u then
      let textNew := replace [0xE2B; 0xE4C] [] text in
      if contains [0x35C] text || contains [0x325] text || contains [0xE07; 0xE4D] text || contains [0xE47] text
      then ["ThaiPhonetic"%u]
      else if contains [0xE4C] textNew && contains [0xE30] text then ["ThaiSajjhayawithA"%u]
      else if contains [0xE4C] textNew then ["ThaiSajjhayaOrthography"%u]
      else if contains [0xE30] text || contains [0xE31] text then ["ThaiOrthography"%u]
      else []
    else if str_eqb inputScript "Lao"%u || str_eqb inputScript "LaoPali"%u then
      let textNew := replace [0xEAB; 0xECC] [] text in
      if contains [0xECC] textNew && contains [0xEB0] text then ["LaoSajhayaOrthographywithA"%u]
      else if contains [0xECC] textNew then ["LaoSajhayaOrthography"%u]
      else if contains [0xEB0] text || contains [0xEB1] text then ["LaoTranscription"%u]
      else []
    else if str_eqb inputScript "Urdu"%u then ["UrduShortNotShown"%u]
    else [].

  (* ---------------------------------------------------------------- *)
  (** ** The process functions: transliterate.py:545-859 *)

  (** Warnings issued, in order, and the value or exception. *)
  Definition outcome : Type := list str * res str.
  Definition warn_if (b : bool) (w : str) (o : outcome) : outcome :=
    if b then (w :: fst o, snd o) else o.

  (** aksharamukha/transliterate.py:580-581: names matched case-insensitively
      against the functions of a module; unknown ones are dropped. *)
  Definition resolve_options (names opts : list str) : list str :=
    flat_map (fun o => filter (fun i => str_eqb (py_lower o) (py_lower i)) names) opts.

  (** aksharamukha/transliterate.py:569-608 convert_default *)
  Definition convert_default (src tgt txt : str) (nativize : bool) (post pre : list str) : outcome :=
    let scriptList := GM_IndicScripts ++ GM_LatinScripts ++ GM_SemiticScripts in
    let post := resolve_options PP_names post in
    let pre := resolve_options PrP_names pre in
    warn_if (match lookup tgt yaml_scripts with Some y => y_font_hack y | None => false end)
      (tgt ++ " uses an hacked font to display the script. In the absence of this font, you text may appear different. "%u
       ++ [10] ++ " See: https://www.aksharamukha.com/describe/"%u ++ tgt ++ " for the font used"%u)
    (warn_if (negb (mem src scriptList))
      ("Source script: "%u ++ src ++ " not found in the list of scripts supported. The text will not be transliterated."%u)
    (warn_if (negb (mem tgt scriptList))
      ("Target script: "%u ++ tgt ++ " not found in the list of scripts supported. The text will not be transliterated."%u)
    (warn_if (str_eqb tgt "RomanLoC"%u && negb (mem src GM_LoCScripts))
      ("The LoC romanization of "%u ++ src ++ " is not yet supported. The output text will be rendered using ISO 233 if Semitic else ISO 15919. See: https://www.aksharamukha.com/loc"%u)
    (warn_if (str_eqb src "RomanLoC"%u && negb (mem tgt GM_LoCScripts))
      ("The LoC romanization of "%u ++ tgt ++ " is not yet supported. The input text will be treated as if it was ISO 233 if Semitic else ISO 15919.. See: https://www.aksharamukha.com/loc"%u)
    ([], convert src tgt txt nativize pre post))))).

  (** aksharamukha/transliterate.py:619-623: first name that is equal up to case. *)
  Definition canonical_name (s : str) : str :=
    match find (fun i => str_eqb (py_lower s) (py_lower i)) (GM_IndicScripts ++ GM_LatinScripts) with
    | Some i => i
    | None => s
    end.

  (** aksharamukha/transliterate.py:610-625 process_default *)
  Definition process_default (src tgt txt : str) (nativize : bool) (post pre : list str) : outcome :=
    if str_eqb src "autodetect"%u then
      match auto_detect txt false with
      | Err e => ([], Err e)
      | Ok s => convert_default s (canonical_name tgt) txt nativize post (detect_preoptions txt s)
      end
    else convert_default (canonical_name src) (canonical_name tgt) txt nativize post pre.

  (** Order of the pairs (population, script) for [sorted(..., reverse=True)]. *)
  Definition pop_ltb (a b : Z * str) : bool :=
    if (fst a =? fst b)%Z then str_ltb (snd a) (snd b) else (fst a <? fst b)%Z.
  Definition most_popular (l : list (Z * str)) : option str :=
    match ssort (fun a b => pop_ltb b a) l with [] => None | (_, s) :: _ => Some s end.

  Definition part (n : nat) (tag : str) : str := nth n (split "-"%u tag) [].
  Definition langs_of (y : yscript) : option (list str) :=
    option_map (fun l => map py_lower (split ","%u l)) (y_lang y).

  (** aksharamukha/transliterate.py:643-681: the loop over the script list.
      [lang_tag] keeps its previous value when an entry has no language. *)
  Fixpoint script_loop (src_tag tgt_tag : str) (entries : list (str * yscript)) (lang_tag : option str)
      (src tgt : list (Z * str)) : res (list (Z * str) * list (Z * str)) :=
    match entries with
    | [] => Ok (src, tgt)
    | (scrpt, y) :: rest =>
        let lang_tag := match y_lang y with Some l => Some (nth 0 (split ","%u l) []) | None => lang_tag end in
        do population <-
          match lookup (y_script y) yaml_wiki with
          | None => Ok 0%Z
          | Some langs => match lang_tag with
                          | None => Err NameError
                          | Some t => Ok (get t langs 0%Z)
                          end
          end;
        let plain tag := negb (contains "-"%u tag) && str_eqb (py_lower (y_script y)) (py_lower tag) in
        let exact tag :=
          contains "-"%u tag
          && str_eqb (py_lower (y_script y)) (py_lower (py_lower (part 1 tag)))
          && match langs_of y with
             | Some lang => mem (py_lower (py_lower (part 0 tag))) lang
             | None => false
             end in
        let hit tag := (if plain tag then [(population, scrpt)] else [])
                       ++ (if exact tag then [(0%Z, scrpt)] else []) in
        script_loop src_tag tgt_tag rest lang_tag (src ++ hit src_tag) (tgt ++ hit tgt_tag)
    end.

  (** aksharamukha/transliterate.py:629-731 process_script_tag *)
  Definition process_script_tag (src_tag tgt_tag txt : str) (nativize : bool) (post pre : list str) : outcome :=
    let syr_s := str_eqb src_tag "Syrc"%u in
    let syr_t := str_eqb tgt_tag "Syrc"%u in
    let src_tag := if syr_s then "Syre"%u else src_tag in
    let tgt_tag := if syr_t then "Syre"%u else tgt_tag in
    warn_if syr_s "Please specify the variety of Syriac script for the source: Estrangelo (Syre), Eastern (Syrn) or Wester (Syrj). Defaulting to Syre"%u
    (warn_if syr_t "Please specify the variety of Syriac script for the target: Estrangelo (Syre), Eastern (Syrn) or Wester (Syrj). Defaulting to Syre"%u
    (match script_loop src_tag tgt_tag yaml_scripts None [] [] with
     | Err e => ([], Err e)
     | Ok (src, tgt) =>
         let latin := ["latn"%u; "en"%u; "eng"%u] in
         let lat tag := mem (py_lower tag) latin in
         let latw := "Latin has multiple transcription schemes. 'ISO 15919' has been selected by default"%u ++ [10]
                     ++ " Please use a transcription format e.g. la-IAST or la-HK to select a particular scheme"%u in
         let scheme tag l :=
           let l := if lat tag then [(0%Z, "ISO"%u)] else l in
           if contains "-"%u tag && mem (py_lower (part 0 tag)) latin then [(0%Z, part 1 tag)] else l in
         let src := scheme src_tag src in
         let tgt := scheme tgt_tag tgt in
         warn_if (lat src_tag) latw (warn_if (lat tgt_tag) latw
         (let auto := str_eqb src_tag "autodetect"%u in
          match (if auto then do s <- auto_detect txt false; Ok [(0%Z, s)] else Ok src) with
          | Err e => ([], Err e)
          | Ok src =>
              (* l.701: detect_preoptions receives a list and so returns [] *)
              let pre := if auto then [] else pre in
              let pick l tag msg :=
                match most_popular l with
                | Some s => Ok s
                | None => if mem tag GM_SemiticScripts then Ok tag
                          else Err (UserException (msg ++ tag ++ " not found"%u))
                end in
              match pick src src_tag "Source script code: "%u with
              | Err e => ([], Err e)
              | Ok src_pop =>
                  match pick tgt tgt_tag "Target script code: "%u with
                  | Err e => ([], Err e)
                  | Ok tgt_pop =>
                      let hint := [10] ++ " Please use the format lang_code-script_code e.g. ur-Arab or pa-Arab to select a particular orthography"%u in
                      warn_if (Nat.ltb 1 (length src))
                        ("Multiple orthographies, "%u ++ join ","%u (map snd src)
                         ++ ", are associated with the input script. The most popular '"%u ++ src_pop
                         ++ "' has been selected"%u ++ hint)
                      (warn_if (Nat.ltb 1 (length tgt))
                        ("Multiple orthographies: "%u ++ join ", "%u (map snd tgt)
                         ++ " are associated with the target script. The most popular '"%u ++ tgt_pop
                         ++ "' has been selected"%u ++ hint)
                      (process_default src_pop tgt_pop txt nativize post pre))
                  end
              end
          end))
     end)).

  (** [x in lang], where [lang] is '' for a script without languages. *)
  Definition in_lang (x : str) (lang : option (list str)) : bool :=
    match lang with Some l => mem x l | None => str_eqb x [] end.

  (** aksharamukha/transliterate.py:744-777, one tag: the scripts it matches. *)
  Definition lang_loop (tag : str) : list (Z * str) :=
    flat_map (fun '(scrpt, y) =>
      let lang := langs_of y in
      let script_count := match lookup (y_script y) yaml_wiki with
                          | Some l => Z.of_nat (length l) | None => 1%Z end in
      (if in_lang (py_lower tag) lang then [(script_count, scrpt)] else [])
      ++ (if contains "-"%u tag && str_eqb (py_lower (y_script y)) (py_lower (part 1 tag))
             && in_lang (py_lower (part 0 tag)) lang then [(0%Z, scrpt)] else []))
      yaml_scripts.

  (** aksharamukha/transliterate.py:779-826, one tag: Sanskrit, Pali, Latin. *)
  Definition agnostic : list str := ["sa"%u; "san"%u; "pi"%u; "pli"%u].
  Definition latin_langs : list str := ["la"%u; "en"%u; "eng"%u].
  Definition lang_special (tag : str) (l : list (Z * str)) : list (Z * str) :=
    let l := if mem (py_lower tag) agnostic then [(0%Z, "Devanagari"%u)] else l in
    let l := if contains "-"%u tag && mem (py_lower (part 0 tag)) agnostic then
               fold_left (fun acc '(scrpt, y) =>
                 if str_eqb (py_lower (y_script y)) (py_lower (part 1 tag)) then [(0%Z, scrpt)] else acc)
                 yaml_scripts l
             else l in
    let l := if mem (py_lower tag) latin_langs then [(0%Z, "ISO"%u)] else l in
    if contains "-"%u tag && mem (py_lower (part 0 tag)) latin_langs then [(0%Z, part 1 tag)] else l.

  (** aksharamukha/transliterate.py:733-848 process_lang_tag *)
  Definition process_lang_tag (src_tag tgt_tag txt : str) (nativize : bool) (post pre : list str) : outcome :=
    let agn tag := mem (py_lower tag) agnostic in
    let lat tag := mem (py_lower tag) latin_langs in
    let agnw what tag :=
      what ++ tag ++ " is script-agnostic and can be written in multiple scripts. The most popular 'Devanagari' has been selected"%u
      ++ [10] ++ " Please use the format lang_code-script_code e.g. sa-Gran or sa-Sidd to select a particular script"%u in
    let latw := "Latin has multiple transcription schemes. 'ISO 15919' has been selected by default"%u ++ [10]
                ++ " Please use a transcription format e.g. Latn-IAST or Latn-HK to select a particular scheme"%u in
    warn_if (agn src_tag) (agnw "The input language: "%u src_tag)
    (warn_if (agn tgt_tag) (agnw "The ouptput language: "%u tgt_tag)
    (warn_if (lat src_tag) latw (warn_if (lat tgt_tag) latw
    (let src := lang_special src_tag (lang_loop src_tag) in
     let tgt := lang_special tgt_tag (lang_loop tgt_tag) in
     let auto := str_eqb src_tag "autodetect"%u in
     match (if auto then do s <- auto_detect txt false; Ok [(0%Z, s)] else Ok src) with
     | Err e => ([], Err e)
     | Ok src =>
         let pre := if auto then [] else pre in
         match most_popular src with
         | None => ([], Err (UserException ("Source language code: "%u ++ src_tag ++ " not found"%u)))
         | Some src_pop =>
             match most_popular tgt with
             | None => ([], Err (UserException ("Target language code: "%u ++ tgt_tag ++ " not found"%u)))
             | Some tgt_pop =>
                 let multi what l pop :=
                   "Multiple scripts "%u ++ join ","%u (map snd l) ++ " associated with the "%u ++ what
                   ++ " language. The most popular '"%u ++ pop ++ "' has been selected"%u
                   ++ [10] ++ " Please use the format lang_code-script_code e.g. pa-Guru or pa-Arab to select a particular script"%u in
                 warn_if (Nat.ltb 1 (length src)) (multi "input"%u src src_pop)
                 (warn_if (Nat.ltb 1 (length tgt)) (multi "target"%u tgt tgt_pop)
                 (process_default src_pop tgt_pop txt nativize post pre))
             end
         end
     end)))).

  (** langcodes.find followed by str: a parameter. *)
  Variable langcodes_find : str -> res str.

  (** aksharamukha/transliterate.py:850-859 process_lang_name *)
  Definition process_lang_name (src_name tgt_name txt : str) (nativize : bool) (post pre : list str) : outcome :=
    let auto := str_eqb src_name "autodetect"%u in
    match (if auto then auto_detect txt false else langcodes_find src_name) with
    | Err e => ([], Err e)
    | Ok src =>
        let pre := if auto then detect_preoptions txt src else pre in
        match langcodes_find tgt_name with
        | Err e => ([], Err e)
        | Ok tgt => process_lang_tag src tgt txt nativize post pre
        end
    end.

  (** aksharamukha/transliterate.py:545-556 process *)
  Definition process (src tgt txt : str) (nativize : bool) (post pre : list str) (param : str) : outcome :=
    if str_eqb param "default"%u then process_default src tgt txt nativize post pre
    else if str_eqb param "script_code"%u then process_script_tag src tgt txt nativize post pre
    else if str_eqb param "lang_code"%u then process_lang_tag src tgt txt nativize post pre
    else if str_eqb param "lang_name"%u then process_lang_name src tgt txt nativize post pre
    else ([], Err NoneResult).
End Detect.
