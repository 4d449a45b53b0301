(** * Conversions to and from the Roman schemes in stages (for C02, C03, C35).

    As Stages.v for two Indic scripts: the stages of [convert] that depend only on
    the source, only on the target, and on both. *)
From Coq Require Import List NArith ZArith Bool Lia Arith.
From Verif Require Import PyStr Regex Unicode Prog GMLists GeneralMap PostProcess1 ConvertFix1 PreProcess1 Convert
  Transliterate StrFacts AbsRegex Lang Tokenise Analyze IndicText IndicRT IndicFine Stages RomanText.
Import ListNotations.
Local Open Scope nat_scope.

(** GeneralMap.py:297 (RomanReversible) *)
Definition roman_names : list str :=
  ["IAST"%u; "ISO"%u; "Titus"%u; "WX"%u; "RussianCyrillic"%u; "HK"%u; "Velthuis"%u; "Itrans"%u].

(* ------------------------------------------------------------------ *)
(** ** Indic to Roman *)

(** aksharamukha/Convert.py:235-275 *)
Definition mid_il (S R : str) : prog :=
  (let! sOm := first_of "OmMap"%u S in
   let! tOm := first_of "OmMap"%u R in
   [Replace sOm tOm])
  ++ (let! pairs := charPairs id_side
         (fun g x => if str_eqb g "Consonants"%u then x ++ Schwa
                     else if str_eqb g "Vowels"%u then DepV ++ x else x) S R in
      replace_all pairs).
(** aksharamukha/Convert.py:278-366, transliterate.py:528-541, no options *)
Definition back_il (R : str) : prog :=
  CF_FixRomanOutput R ++ CF_VedicSvarsIndicLatin ++ CF_PostFixRomanOutput [] R ++ PP_default []
  ++ PrP_retainLatin true ++ PP_defaultPost [] R false [] [].

(** The scheme with which [R] shares its preparation (transliterate.py:419): whether
    avagraha is an apostrophe. *)
Definition rep (R : str) : str := if mem R ["IAST"%u; "Titus"%u; "RussianCyrillic"%u; "HK"%u] then "IAST"%u else "ISO"%u.

Lemma names_cases : forall R (P : str -> Prop), In R roman_names ->
  P "IAST"%u -> P "ISO"%u -> P "Titus"%u -> P "WX"%u -> P "RussianCyrillic"%u -> P "HK"%u -> P "Velthuis"%u -> P "Itrans"%u -> P R.
Proof. intros R P H. repeat (destruct H as [<-|H]; [intros; assumption|]). destruct H. Qed.

Ltac each_name H := match type of H with In ?R _ => pattern R; apply (names_cases R _ H) end.

Lemma names_spec : forall R, In R roman_names ->
  simple R = true /\ mem R GM_IndicScripts = false /\ mem R GM_LatinScripts = true.
Proof. intros R H. each_name H; vm_compute; now repeat split. Qed.

Lemma pre_rep : forall R, In R roman_names -> forall S, pre S R = pre S (rep R).
Proof. intros R H. each_name H; intros S; reflexivity. Qed.
Lemma rep_in : forall R, In (rep R) ["Devanagari"%u; "IAST"%u; "ISO"%u].
Proof. intros R. unfold rep. destruct (mem R _); [now right; left|now right; right; left]. Qed.

Lemma post_source : forall R, In R roman_names -> forall S, CF_PostFixRomanOutput S R = CF_PostFixRomanOutput [] R.
Proof.
  assert (L : forall R, str_eqb R "IPA"%u = false -> str_eqb R "RomanReadable"%u = false -> str_eqb R "RomanColloquial"%u = false ->
    str_eqb R "Malayalam"%u = false -> forall S, CF_PostFixRomanOutput S R = CF_PostFixRomanOutput [] R).
  { intros R H1 H2 H3 H4 S. unfold CF_PostFixRomanOutput. rewrite H1, H2, H3, H4, ?andb_false_r.
    destruct (str_eqb S "RomanSemitic"%u); reflexivity. }
  intros R H. apply L; each_name H; reflexivity.
Qed.
Lemma post_any : forall S T, PP_defaultPost S T false [] [] = PP_defaultPost [] T false [] [].
Proof. intros S T. unfold PP_defaultPost. reflexivity. Qed.

Lemma staged_name : forall S R, staged S = true -> In R roman_names -> S <> R.
Proof.
  intros S R HS HR ->. apply staged_spec in HS as (_ & H & _). apply names_spec in HR as (_ & H' & _). congruence.
Qed.

Theorem convert_il : forall S R, staged S = true -> In R roman_names ->
  convert_prog S R false [] [] = pre S (rep R) ++ rev_fix S ++ mid_il S R ++ back_il R.
Proof.
  intros S R HS HR. pose proof (names_spec R HR) as (R1 & R2 & R3). pose proof (staged_name S R HS HR) as Hne.
  rewrite (convert_simple S R) by (assumption || now apply staged_spec). rewrite (pre_rep R HR).
  rewrite (post_any S R). apply staged_spec in HS as (S0 & S1 & S2 & _). apply simple_spec in S0 as (_ & _ & _ & _ & Z).
  assert (I : str_eqb S "Itrans"%u = false).
  { destruct (str_eqb S "Itrans"%u) eqn:Q; [|reflexivity]. apply str_eqb_eq in Q. subst S. vm_compute in S2. discriminate. }
  unfold convert_text. rewrite I. unfold convertScript, convert_branch. rewrite S2, S1, R2, R3. cbn [andb].
  unfold indic_latin, rev_fix, mid_il, back_il. rewrite (post_source R HR S), Z. rewrite <- !app_assoc. reflexivity.
Qed.

(* ------------------------------------------------------------------ *)
(** ** Roman to Indic *)

(** aksharamukha/Convert.py:62-65 *)
Definition fix_in (R : str) : prog := [Try is_AttributeError (CF_getattr_reverse ("Fix"%u ++ R))].
(** aksharamukha/Convert.py:67-76 *)
Definition plain_li (R : str) : prog :=
  (if mem R ["IAST"%u; "ISO"%u; "ISOPali"%u; "Titus"%u] then [Replace [0x16D%N] [0x75%N; 0xD7%N]] else [])
  ++ [Replace "{}"%u [0x200C%N]; Replace "()"%u [0x200D%N]]
  ++ CF_VedicSvarasLatinIndic R.
Definition front_li (R : str) : prog := fix_in R ++ plain_li R.
(** aksharamukha/Convert.py:78-93 *)
Definition om_li (R T : str) : prog :=
  let! signs := CrunchSymbols GM_Signs R in
  let! sOm := first_of "OmMap"%u R in
  let! tOm := first_of "OmMap"%u T in
  om_subs (om_punc signs) sOm tOm ++ om_subs "(\s)"%u sOm tOm.
(** aksharamukha/Convert.py:95-105 *)
Definition rest_li : prog :=
  PrP_RomanPreFix GM_Inter
  ++ [Replace [0xE51B; 0x1E7F; 0xD7; 0x5F; 0xE006]%N [0xE51B; 0x1E7F; 0xE006]%N;
      Replace [0xE51B; 0x1E7F; 0xD7; 0x5F; 0xE007]%N [0xE51B; 0x1E7F; 0xE007]%N].
Definition inter_li (R : str) : prog := convertInter R ++ rest_li.
(** aksharamukha/Convert.py:107-141 *)
Definition letters_li (T : str) : prog :=
  (let! _ := (do c <- CrunchSymbols GM_Consonants GM_Inter; idx c 32%Z) in
   let! pairs := charPairs (fun g x => if str_eqb g "VowelSigns"%u then DepV ++ x else x)
                           id_side GM_Inter T in
   replace_all pairs)
  ++ (let! vowels := CrunchSymbols GM_Vowels T in
      let! v2 := idx vowels 2%Z in
      let! v4 := idx vowels 4%Z in
      [Replace ("_"%u ++ v2) v2; Replace ("_"%u ++ v4) v4])
  ++ (let! vir := first_of "ViramaMap"%u T in
      [Replace (vir ++ "[]"%u) (0x200D%N :: vir); Replace [0xD7%N] vir]).
(** The first step of FixIndicOutput (aksharamukha/ConvertFix.py) and the rest. *)
Definition joined (T : str) : prog := let! vir := first_of "ViramaMap"%u T in [Replace (vir ++ "_"%u) vir].
Definition back' (T : str) : prog :=
  let! vir := first_of "ViramaMap"%u T in
  ([Try is_KeyError (CF_globals_call ("Fix"%u ++ T)); Replace "ʽ"%u []]
   ++ CF_ShiftDiacritics T false
   ++ (if mem T ["Assamese"%u; "Bengali"%u; "Devanagari"%u; "Gujarati"%u; "Kannada"%u; "Malayalam"%u; "Oriya"%u; "Gurmukhi"%u; "Tamil"%u; "Telugu"%u; "TamilExtended"%u; "Grantha"%u; "Sharada"%u] then [] else
      [Replace [0x952]%N "↓"%u; Replace [0x1CDA]%N "↑↑"%u; Replace [0x951]%N "↑"%u]))
  ++ PP_default [] ++ PrP_retainLatin true ++ PP_defaultPost [] T false [] [].
Lemma back_split : forall T vir, first_of "ViramaMap"%u T = Ok vir -> back T = joined T ++ back' T.
Proof.
  intros T vir E. unfold back, joined, back', CF_FixIndicOutput, first_of in *.
  destruct (CrunchList "ViramaMap"%u T) as [l|e]; [|discriminate]. cbn [rbind] in *. unfold withS. rewrite E. cbn [app]. reflexivity.
Qed.

(** Roman to Indic, without what Itrans leaves alone. *)
Definition body_li (R T : str) : prog :=
  front_li R ++ om_li R T ++ inter_li R ++ letters_li T ++ CF_FixIndicOutput [] T ++ PP_default [].
Lemma script_li : forall R T, In R roman_names -> staged T = true -> convertScript R T = body_li R T.
Proof.
  intros R T HR HT. apply names_spec in HR as (_ & _ & R3). apply staged_spec in HT as (_ & T1 & _ & _).
  unfold convertScript, convert_branch. rewrite R3, T1. cbn [andb]. unfold latin_indic, body_li, front_li, fix_in, plain_li, om_li, inter_li, rest_li, letters_li.
  assert (E : CF_FixIndicOutput GM_Inter T = CF_FixIndicOutput [] T) by reflexivity. rewrite E.
  rewrite <- !app_assoc. reflexivity.
Qed.

(** Text between pairs of ## is left alone, in Itrans only. *)
Lemma text_no_hash : forall R T s, contains "##"%u s = false -> run (convert_text R T) s = run (convertScript R T) s.
Proof.
  intros R T s H. unfold convert_text. destruct (str_eqb R "Itrans"%u); [|reflexivity].
  generalize (convertScript R T) as p. intros p. cbn [run]. rewrite run_op_IfIn, H. now destruct (run p s).
Qed.

Lemma pre_roman : forall R T, In R roman_names -> staged T = true -> pre R T = pre R "Devanagari"%u.
Proof.
  intros R T HR HT. apply names_spec in HR as (R1 & R2 & R3). apply staged_spec in HT as (_ & A1 & A2 & A3).
  apply simple_spec in R1. destruct R1 as ((_ & _ & _ & _ & _ & S6 & _) & _ & S8 & S9 & _).
  unfold pre, PrP_PreProcess. rewrite S6, S8, S9, R2, A1, A2. reflexivity.
Qed.

Theorem convert_li : forall R T s t, In R roman_names -> staged T = true ->
  run (pre R "Devanagari"%u) s = Ok t -> contains "##"%u t = false ->
  run (convert_prog R T false [] []) s = run (front_li R ++ om_li R T ++ inter_li R ++ letters_li T ++ back T) t.
Proof.
  intros R T s t HR HT P Hh. pose proof (staged_name T R HT HR) as Hne.
  rewrite (convert_simple R T) by (try (now apply names_spec); try (now apply staged_spec); congruence).
  rewrite (pre_roman R T HR HT), run_app, P. cbn [rbind]. rewrite run_app, (text_no_hash R T t Hh), (script_li R T HR HT).
  rewrite <- run_app. rewrite (post_any R T). unfold body_li, back. rewrite <- !app_assoc. reflexivity.
Qed.

(* ------------------------------------------------------------------ *)
(** ** Roman to Roman *)

(** aksharamukha/Convert.py:152-164 *)
Definition front_ll (R : str) : prog := fix_in R ++ convertInter R.
(** aksharamukha/Convert.py:165-173, transliterate.py:528-541, no options *)
Definition back_ll (R : str) : prog :=
  (let! s := CrunchSymbols ScriptAllParts GM_Inter in
   let! t := CrunchSymbols ScriptAllParts R in
   replace_all (zip s t))
  ++ CF_PostFixRomanOutput [] R ++ PP_default [] ++ PrP_retainLatin true ++ PP_defaultPost [] R false [] [].

Lemma script_ll : forall R R', In R roman_names -> In R' roman_names ->
  convertScript R R' = front_ll R ++ (let! s := CrunchSymbols ScriptAllParts GM_Inter in
   let! t := CrunchSymbols ScriptAllParts R' in
   replace_all (zip s t)) ++ CF_PostFixRomanOutput [] R' ++ PP_default [].
Proof.
  intros R R' HR HR'. pose proof (post_source R' HR' R) as E. apply names_spec in HR as (_ & _ & R3). apply names_spec in HR' as (_ & T1 & T2).
  unfold convertScript, convert_branch. rewrite R3, T1, T2. cbn [andb]. unfold latin_latin, front_ll, fix_in. rewrite E.
  rewrite <- !app_assoc. reflexivity.
Qed.
Lemma pre_latin : forall R R', In R roman_names -> In R' roman_names -> pre R R' = pre R "IAST"%u.
Proof.
  intros R R' HR HR'. apply names_spec in HR as (R1 & R2 & R3). apply names_spec in HR' as (_ & T1 & T2).
  apply simple_spec in R1. destruct R1 as ((_ & _ & _ & _ & _ & S6 & _) & _ & S8 & S9 & _).
  unfold pre, PrP_PreProcess. rewrite S6, S8, S9, R2, T1, T2. reflexivity.
Qed.
Theorem convert_ll : forall R R' s t, In R roman_names -> In R' roman_names -> R <> R' ->
  run (pre R "IAST"%u) s = Ok t -> contains "##"%u t = false ->
  run (convert_prog R R' false [] []) s = run (front_ll R ++ back_ll R') t.
Proof.
  intros R R' s t HR HR' Hne P Hh.
  rewrite (convert_simple R R') by (try (now apply names_spec); congruence).
  rewrite (pre_latin R R' HR HR'), run_app, P. cbn [rbind]. rewrite run_app, (text_no_hash R R' t Hh), (script_ll R R' HR HR').
  rewrite <- run_app. rewrite (post_any R R'). unfold back_ll. rewrite <- !app_assoc. reflexivity.
Qed.

(** The preparation depends on the target only for arrows. *)
Definition is_arrow (o : op) : bool := match o with IfIn x _ _ => str_eqb x "↓"%u | _ => false end.
Fixpoint before_arrow (p : prog) : prog := match p with [] => [] | o :: p' => if is_arrow o then [] else o :: before_arrow p' end.
Fixpoint from_arrow (p : prog) : prog := match p with [] => [] | o :: p' => if is_arrow o then o :: p' else from_arrow p' end.
Definition pre_a (R : str) : prog := before_arrow (pre R "Devanagari"%u).
Definition pre_b (R : str) : prog := skipn 2 (from_arrow (pre R "Devanagari"%u)).
Definition arrows (T : str) : prog := firstn 2 (from_arrow (pre "IAST"%u T)).
Lemma pre_arrows : forall R, In R roman_names -> forall T, pre R T = pre_a R ++ arrows T ++ pre_b R.
Proof. intros R H. each_name H; intros T; reflexivity. Qed.

Definition lacking (l : list str) : prog := map (fun x => IfIn x [Raise KeyError] []) l.
Lemma lacking_ok : forall l s u, run (lacking l) s = Ok u -> u = s /\ forall x, In x l -> contains x s = false.
Proof.
  induction l as [|x l IH]; intros s u H; cbn [lacking map run] in H; [injection H as <-; now split|].
  rewrite run_op_IfIn in H. destruct (contains x s) eqn:E; [discriminate|]. cbn [run rbind] in H.
  apply IH in H as [-> H]. split; [reflexivity|]. intros y [<-|Hy]; [exact E|now apply H].
Qed.
Definition prepared (R : str) : prog := pre_a R ++ lacking ["↓"%u; "↑"%u] ++ pre_b R ++ lacking ["##"%u].
Lemma arrows_none : forall T s, contains "↓"%u s = false -> contains "↑"%u s = false -> run (arrows T) s = Ok s.
Proof.
  intros T s H1 H2.
  assert (E : exists p q, arrows T = [IfIn "↓"%u p [IfIn "↑"%u p []]; IfIn "↓"%u q [IfIn "↑"%u q []]]) by (eexists; eexists; reflexivity).
  destruct E as (p & q & ->). cbn [run]. rewrite run_op_IfIn, H1. cbn [run]. rewrite run_op_IfIn, H2. cbn [run rbind].
  rewrite run_op_IfIn, H1. cbn [run]. rewrite run_op_IfIn, H2. reflexivity.
Qed.
Lemma prepared_ok : forall R, In R roman_names -> forall s u, run (prepared R) s = Ok u ->
  (forall T, run (pre R T) s = Ok u) /\ contains "##"%u u = false.
Proof.
  intros R HR s u H. unfold prepared in H. rewrite run_app in H. destruct (run (pre_a R) s) as [v|] eqn:Ea; [|discriminate]. cbn [rbind] in H.
  rewrite run_app in H. destruct (run (lacking ["↓"%u; "↑"%u]) v) as [v'|] eqn:El; [|discriminate]. apply lacking_ok in El as [-> El]. cbn [rbind] in H.
  rewrite run_app in H. destruct (run (pre_b R) v) as [w|] eqn:Eb; [|discriminate]. cbn [rbind] in H.
  apply lacking_ok in H as [-> H]. split; [|apply H; now left]. intros T. rewrite (pre_arrows R HR T), run_app, Ea. cbn [rbind].
  rewrite run_app, arrows_none by (apply El; vm_compute; tauto). cbn [rbind]. exact Eb.
Qed.

(* ------------------------------------------------------------------ *)
(** ** Substitutions that find nothing *)

Lemma sub_go_found : forall r c f, (forall l, In c (f l)) -> forall s b,
  In c (sub_go r f b 0 s) \/ forall f', sub_go r f' b 0 s = s.
Proof.
  intros r c f Hf. induction s as [|d s IH]; intros b; cbn [sub_go].
  - destruct (attempt r false (St b [] [])); [left; apply Hf|now right].
  - destruct (attempt r false (St b (d :: s) [])) as [s'|].
    + left. destruct (length (consumed _ s')) as [|n]; apply in_or_app; left; apply Hf.
    + destruct (IH (d :: b)) as [H|H]; [left; now right|]. right. intros f'. now rewrite H.
Qed.

(** A substitution that would leave a character behind, and does not, finds nothing
    whatever the template. *)
Definition leaves (c : N) (pat tmpl : str) : bool :=
  match compile pat with
  | None => false
  | Some (_, g) => match parse_template (S (length tmpl)) g tmpl with
                   | None => false
                   | Some tm => any (fun i => match i with TLit d => N.eqb c d | _ => false end) tm
                   end
  end.
Definition template_ok (pat tmpl : str) : bool :=
  match compile pat with
  | None => false
  | Some (_, g) => match parse_template (S (length tmpl)) g tmpl with None => false | Some _ => true end
  end.
Lemma finds_nothing : forall c pat tmpl tmpl' s, leaves c pat tmpl = true -> template_ok pat tmpl' = true ->
  run_op (ReSub pat tmpl) s = Ok s -> ~ In c s -> run_op (ReSub pat tmpl') s = Ok s.
Proof.
  intros c pat tmpl tmpl' s HL HT H Hn. unfold leaves, template_ok in *. cbn [run_op] in *. unfold re_sub in *.
  destruct (compile pat) as [[r g]|]; [|discriminate].
  destruct (parse_template (S (length tmpl)) g tmpl) as [tm|]; [|discriminate].
  destruct (parse_template (S (length tmpl')) g tmpl') as [tm'|]; [|discriminate].
  injection H as H. unfold sub, sub_with in *.
  destruct (sub_go_found r c (expand tm)) with (s := s) (b := @nil N) as [F|F].
  - intros l. apply any_exists in HL as (i & Hi & E). unfold expand. apply in_flat_map. exists i. split; [exact Hi|].
    destruct i as [d|n]; [|discriminate]. apply N.eqb_eq in E. now left.
  - rewrite H in F. contradiction.
  - now rewrite F.
Qed.

(** Two lists of substitutions alike but for the templates. *)
Fixpoint alike (c : N) (p q : prog) : bool :=
  match p, q with
  | [], [] => true
  | ReSub a t :: p', ReSub a' t' :: q' => str_eqb a a' <&> leaves c a t <&> template_ok a t' <&> alike c p' q'
  | _, _ => false
  end.
Lemma alike_ok : forall c p q s, alike c p q = true -> ~ In c s -> (forall o, In o p -> run_op o s = Ok s) -> run q s = Ok s.
Proof.
  intros c. induction p as [|o p IH]; intros q s H Hn Hp.
  - now destruct q.
  - destruct o; try (now destruct q). destruct q as [|o' q]; [discriminate|]. destruct o'; try discriminate. cbn [alike] in H.
    apply andb_true_iff in H as [H H4]. apply andb_true_iff in H as [H H3]. apply andb_true_iff in H as [H1 H2].
    apply str_eqb_eq in H1. subst. cbn [run].
    rewrite (finds_nothing c _ _ _ s H2 H3 (Hp _ (or_introl eq_refl)) Hn). apply (IH q s H4 Hn). intros o Ho. apply Hp. now right.
Qed.
