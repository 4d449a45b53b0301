(** * C40: what [nativize], the default of [transliterate.process], does when the
    target has no conventions of its own.

    Then it only deletes the marks of GM.DiacriticsRemovable (GeneralMap.py:87)
    from the result, whatever the text and the pre-options. *)
From Coq Require Import List NArith ZArith Bool Lia Arith.
From Verif Require Import PyStr Regex Unicode Prog GMLists GeneralMap PostProcess1 ConvertFix1 PreProcess1 PostProcess2 Convert Dispatch
  Transliterate StrFacts AbsRegex TextFacts ApiFacts TotalFacts.
Import ListNotations.
Local Open Scope nat_scope.

(** The targets with conventions of their own (PostOptions.py:10-101). *)
Definition conventional : list str :=
  ["Telugu"%u; "Kannada"%u; "Sinhala"%u; "Khojki"%u; "Nandinagari"%u; "Hebrew"%u; "Malayalam"%u; "Tamil"%u; "Bengali"%u; "MeeteiMayek"%u;
   "Limbu"%u; "Assamese"%u; "Oriya"%u; "Chakma"%u; "Gurmukhi"%u; "Saurashtra"%u; "Ahom"%u; "Tibetan"%u; "Thaana"%u; "Avestan"%u;
   "Sundanese"%u; "Multani"%u; "Modi"%u; "WarangCiti"%u; "Latn"%u; "Arab"%u].

(** The names that [convert] treats specially: those that stand for another name,
    the Semitic scripts, and the scripts that need other packages. *)
Definition special : list str :=
  ["RomanLoC"%u; "Hiragana"%u; "Katakana"%u; "IPA"%u; "Hebrew"%u; "Thaana"%u; "Urdu"%u; "Shahmukhi"%u] ++ GM_SemiticScripts ++ map fst GM_semiticISO.
Definition names : list str := GM_IndicScripts ++ GM_LatinScripts.
Definition plain (S : str) : Prop := In S names /\ ~ In S special.

Definition marks : str := "ʼˇˆ˘·"%u.
Definition unmarked (s : str) : str := filter (fun c => negb (existsb (N.eqb c) marks)) s.

Definition plain_check (S : str) : bool :=
  mem S special || (negb (mem S ["RomanLoC"%u; []; "Ignore"%u; "Hiragana"%u; "Katakana"%u; "Latn"%u; "IPA"%u])
  && match lookup S GM_semiticISO with None => true | _ => false end
  && match lookup S IndicSemiticMapping with None => true | _ => false end && negb (mem S GM_SemiticScripts)).
Lemma plain_checked : forallb plain_check names = true.
Proof. vm_compute. reflexivity. Qed.
Lemma plain_spec : forall S, plain S ->
  (str_eqb S "RomanLoC"%u = false /\ str_eqb S [] = false /\ str_eqb S "Ignore"%u = false /\ str_eqb S "Hiragana"%u = false /\
   str_eqb S "Katakana"%u = false /\ str_eqb S "Latn"%u = false /\ str_eqb S "IPA"%u = false) /\
  (lookup S GM_semiticISO = None /\ lookup S IndicSemiticMapping = None /\ mem S GM_SemiticScripts = false).
Proof.
  intros S [HS HN]. pose proof plain_checked as C. rewrite forallb_forall in C. specialize (C S HS). unfold plain_check in C.
  apply orb_true_iff in C as [C|C]; [apply mem_In in C; contradiction|].
  apply andb_true_iff in C as [H H4]. apply andb_true_iff in H as [H H3]. apply andb_true_iff in H as [H1 H2].
  rewrite negb_true_iff in H1, H4. cbn [mem existsb] in H1.
  repeat match goal with H : (_ || _)%bool = false |- _ => apply orb_false_iff in H as [? H] end.
  destruct (lookup S GM_semiticISO); [discriminate|]. destruct (lookup S IndicSemiticMapping); [discriminate|]. repeat split; assumption.
Qed.

(* ------------------------------------------------------------------ *)
(** ** Where [nativize] comes in *)

Lemma no_defaults : forall S T, ~ In T conventional -> default_options S T [] = [].
Proof.
  intros S T H. unfold default_options. unfold conventional in H.
  repeat match goal with |- (if str_eqb T ?x then _ else _) = [] =>
    let Q := fresh in destruct (str_eqb T x) eqn:Q; [exfalso; apply H; apply str_eqb_eq in Q; subst T; clear; apply mem_In; vm_compute; reflexivity|clear Q] end.
  reflexivity.
Qed.

(** transliterate.py:453-513 without the options *)
Definition before (S T : str) (pre : list str) : prog :=
  foreach pre PrP_call
  ++ (if mem "novowelshebrew"%u pre && str_eqb S "Hebr"%u then [Replace [0x5B7]%N []] else [])
  ++ (if str_eqb S "Oriya"%u && str_eqb T "IPA"%u then CF_OriyaIPAFixPre else [])
  ++ convert_text S T.

Lemma tail_plain : forall S T nat pre,
  (mem S GM_SemiticScripts = false /\ str_eqb S "Hiragana"%u = false /\ str_eqb S "Katakana"%u = false /\ str_eqb S [] = false) ->
  plain T -> ~ In T conventional ->
  convert_tail S T [] nat pre [] = before S T pre ++ (if nat then PP_RemoveDiacritics else []) ++ PrP_retainLatin true ++ PP_defaultPost S T nat pre [].
Proof.
  intros S T nat pre (S10 & S4 & S5 & S2) HT HD. pose proof (no_defaults S T HD) as D.
  apply plain_spec in HT as ((T1 & T2 & T3 & T4 & T5 & T6 & T7) & (T8 & T9 & T10)).
  assert (Ar : str_eqb T "Arab"%u = false).
  { destruct (str_eqb T "Arab"%u) eqn:Q; [|reflexivity]. apply str_eqb_eq in Q. subst T. vm_compute in T10. discriminate. }
  assert (Ta : str_eqb T "Tamil"%u = false).
  { destruct (str_eqb T "Tamil"%u) eqn:Q; [|reflexivity]. apply str_eqb_eq in Q. subst T. exfalso. apply HD. clear. apply mem_In. vm_compute. reflexivity. }
  unfold convert_tail, ApplyScriptDefaults, before. cbn [mem existsb]. rewrite S10, T10, S4, S5, T4, T5, T7, !andb_false_r.
  cbn [andb orb negb foreach flat_map]. rewrite S2. rewrite D, T6, Ta, T7, Ar, !andb_false_r. cbn [andb orb negb foreach flat_map].
  rewrite <- !app_assoc. rewrite !app_nil_l. destruct nat; rewrite ?app_nil_l; reflexivity.
Qed.

Lemma main_plain : forall S T pre, plain S -> plain T -> ~ In T conventional -> S <> T ->
  exists S', forall nat, convert_main (Args S T nat pre [])
    = (PrP_PreProcess S T [] pre ++ before S' T pre) ++ (if nat then PP_RemoveDiacritics else []) ++ PrP_retainLatin true ++ PP_defaultPost S' T nat pre [].
Proof.
  intros S T pre HS HT HD Hne.
  assert (E : str_eqb S T = false) by (destruct (str_eqb S T) eqn:E; [apply str_eqb_eq in E; contradiction|reflexivity]).
  pose proof HT as HT'.
  apply plain_spec in HS as ((S1 & S2 & S3 & S4 & S5 & S6 & S7) & (S8 & S9 & S10)).
  apply plain_spec in HT as ((T1 & T2 & T3 & T4 & T5 & T6 & T7) & (T8 & T9 & T10)).
  assert (W : forall nat, semitic_switch S T nat = (S, T)).
  { intros nat. unfold semitic_switch, has_key, get. rewrite T10, T8. cbn [orb]. rewrite S10, S8. cbn [orb]. rewrite S9. cbn [andb]. rewrite S9. now destruct nat. }
  assert (A : mem S ["Arab-Ur"%u; "Arab-Pa"%u] = false).
  { destruct (mem S ["Arab-Ur"%u; "Arab-Pa"%u]) eqn:Q; [|reflexivity]. apply mem_In in Q. destruct Q as [<-|[<-|[]]]; vm_compute in S10; discriminate. }
  assert (V : exists S', (forall nat, variant_switch S T nat pre [] = (S', T, nat)) /\
    (mem S' GM_SemiticScripts = false /\ str_eqb S' "Hiragana"%u = false /\ str_eqb S' "Katakana"%u = false /\ str_eqb S' [] = false)).
  { unfold variant_switch. cbn [mem existsb andb]. eexists. split; [intros nat; reflexivity|].
    destruct (mem "siddhammukta"%u pre && str_eqb S "Siddham"%u); destruct (mem "egrantamil"%u pre); cbn [andb];
      try (destruct (str_eqb _ "Grantha"%u)); repeat split; solve [assumption|vm_compute; reflexivity]. }
  destruct V as (S' & V & F). exists S'. intros nat.
  assert (Y : soyombo_mark T [] = []) by (unfold soyombo_mark; cbn [mem existsb]; rewrite ?andb_false_r; reflexivity).
  unfold convert_main. rewrite T2, T3, E, !andb_false_r. cbn [orb]. rewrite W. cbv beta iota. rewrite A, E, S10, andb_false_r. cbn [andb].
  rewrite !app_nil_l. cbn [mem existsb]. unfold convert_rest. rewrite V. cbv beta iota. rewrite Y, app_nil_l.
  rewrite (tail_plain S' T nat pre F HT' HD). now rewrite <- !app_assoc.
Qed.

Lemma prog_plain : forall S T pre, plain S -> plain T -> ~ In T conventional -> S <> T ->
  exists front S', forall nat, convert_prog S T nat pre []
    = front ++ (if nat then PP_RemoveDiacritics else []) ++ PrP_retainLatin true ++ PP_defaultPost S' T nat pre [].
Proof.
  intros S T pre HS HT HD Hne. destruct (main_plain S T pre HS HT HD Hne) as [S' M]. exists (PrP_PreProcess S T [] pre ++ before S' T pre), S'.
  intros nat. rewrite <- M. clear M.
  apply plain_spec in HS as ((S1 & _) & (S8 & _)). apply plain_spec in HT as ((T1 & _) & (T8 & _)).
  change (convert_prog S T nat pre []) with (convert_step (convert_n 2) (Args S T nat pre [])). generalize (convert_n 2). intros rec.
  unfold convert_step. generalize convert_main. intros m.
  unfold loc_target. rewrite T1. cbn [andb]. unfold loc_target_other. rewrite T1.
  cbn [andb]. unfold loc_source_mark, loc_source. rewrite S1. cbn [andb]. unfold loc_source_other. rewrite S1. cbn [andb].
  rewrite T8, S8. rewrite !app_nil_l. reflexivity.
Qed.

(* ------------------------------------------------------------------ *)
(** ** What follows it does not concern the marks *)

Definition marked (c : N) : bool := existsb (N.eqb c) marks.
Definition apart (o : op) : bool :=
  match o with Replace [c] y => negb (marked c) && forallb (fun d => negb (marked d)) y | _ => false end.

Lemma filter_all : forall (f : N -> bool) l, forallb f l = true -> filter f l = l.
Proof. intros f. induction l as [|a l IH]; intros H; [reflexivity|]. cbn in H |- *. apply andb_true_iff in H as [-> H]. now rewrite IH. Qed.
Lemma apart_op : forall o s, apart o = true -> exists t, run_op o s = Ok t /\ run_op o (unmarked s) = Ok (unmarked t).
Proof.
  intros o s H. destruct o; try discriminate H. cbn [apart] in H. destruct x as [|c [|]]; try discriminate H.
  apply andb_true_iff in H as [H1 H2]. exists (replace [c] y s). cbn [run_op]. split; [reflexivity|]. f_equal. rewrite !replace_char.
  induction s as [|d s IH]; [reflexivity|]. unfold unmarked. cbn [filter flat_map]. fold (marked d). rewrite filter_app.
  destruct (N.eqb_spec c d) as [->|Hn].
  - rewrite H1. cbn [flat_map]. rewrite N.eqb_refl. fold (unmarked s). rewrite IH.
    f_equal. symmetry. apply filter_all. exact H2.
  - cbn [filter]. fold (marked d). destruct (marked d); cbn [negb]; fold (unmarked s); [rewrite IH; reflexivity|].
    cbn [flat_map]. rewrite (proj2 (N.eqb_neq c d) Hn), IH. reflexivity.
Qed.
Lemma apart_run : forall p s, forallb apart p = true -> run p (unmarked s) = rbind (run p s) (fun t => Ok (unmarked t)).
Proof.
  induction p as [|o p IH]; intros s H; [reflexivity|]. cbn [forallb] in H. apply andb_true_iff in H as [H1 H2].
  destruct (apart_op o s H1) as (t & E1 & E2). cbn [run]. rewrite E1, E2. now apply IH.
Qed.

(** C40. *)
Theorem nativize_deletes : forall S T pre s, plain S -> plain T -> ~ In T conventional -> S <> T ->
  convert S T s true pre [] = rbind (convert S T s false pre []) (fun t => Ok (unmarked t)).
Proof.
  intros S T pre s HS HT HD Hne. destruct (prog_plain S T pre HS HT HD Hne) as (front & S' & P). unfold convert. rewrite !P.
  assert (D : forall nat, PP_defaultPost S' T nat pre [] = PP_defaultPost [] T false [] []) by (intros nat; unfold PP_defaultPost; reflexivity).
  rewrite !D. rewrite app_nil_l. rewrite !(run_app front). destruct (run front s) as [u|e]; [|reflexivity]. cbn [rbind].
  rewrite run_app, remove_diacritics_deletes. cbn [rbind]. fold marks. fold (unmarked u). apply apart_run.
  rewrite forallb_app. apply andb_true_iff. split; [vm_compute; reflexivity|]. unfold PP_defaultPost. cbn [mem existsb].
  destruct (mem T GM_Transliteration); vm_compute; reflexivity.
Qed.

Section Public.
Variable uname : N -> option str.
Variable uscript : N -> str.
Variable lfind : str -> res str.
(** C40 for [transliterate.process]: names and pre-options in any case. *)
Theorem process_nativize_deletes : forall src tgt pre s, src <> "autodetect"%u ->
  let S := canonical_name src in let T := canonical_name tgt in
  plain S -> plain T -> ~ In T conventional -> S <> T ->
  snd (process uname uscript lfind src tgt s true [] pre "default"%u)
  = rbind (snd (process uname uscript lfind src tgt s false [] pre "default"%u)) (fun t => Ok (unmarked t)).
Proof.
  intros src tgt pre s Ha S T HS HT HD Hne. unfold process. rewrite str_eqb_refl. rewrite !process_default_known by assumption.
  rewrite !convert_default_value. cbn [resolve_options flat_map]. now apply nativize_deletes.
Qed.
End Public.

(** ** The hypotheses can be met, and are needed *)
Lemma plain_name : forall S, mem S names && negb (mem S special) = true -> plain S.
Proof.
  intros S H. apply andb_true_iff in H as [H1 H2]. split; [now apply mem_In|]. intros Q. apply mem_In in Q. rewrite Q in H2. discriminate.
Qed.
(** 141 sources and 119 targets. *)
Example nativize_case :
  plain "Tamil"%u /\ plain "Gujarati"%u /\ ~ In "Gujarati"%u conventional /\
  convert "Tamil"%u "Gujarati"%u "கʼ க"%u false [] [] = Ok "કʼ ક"%u /\ convert "Tamil"%u "Gujarati"%u "கʼ க"%u true [] [] = Ok "ક ક"%u.
Proof.
  split; [apply plain_name; vm_compute; reflexivity|]. split; [apply plain_name; vm_compute; reflexivity|].
  split; [intros Q; apply mem_In in Q; vm_compute in Q; discriminate Q|]. split; vm_compute; reflexivity.
Qed.
(** Without the exclusion of [conventional]: each of its targets that is [plain]
    changes more of this text. *)
Theorem nativize_deletes_refuted : forall T, In T conventional -> plain T ->
  let s := "संस्कृतम् अंक नयन यव म्ह न्ह र्ह अङ्क टँ"%u in
  exists t u, convert "Devanagari"%u T s false [] [] = Ok t /\ convert "Devanagari"%u T s true [] [] = Ok u /\ u <> unmarked t.
Proof.
  intros T HT [_ HP] s.
  assert (C : forallb (fun T => mem T special || match convert "Devanagari"%u T s false [] [], convert "Devanagari"%u T s true [] [] with
    | Ok t, Ok u => negb (str_eqb u (unmarked t)) | _, _ => false end) conventional = true) by (vm_compute; reflexivity).
  rewrite forallb_forall in C. specialize (C T HT). apply orb_true_iff in C as [C|C]; [apply mem_In in C; contradiction|].
  destruct (convert _ _ _ false _ _) as [t|]; [|discriminate C]. destruct (convert _ _ _ true _ _) as [u|]; [|discriminate C].
  exists t, u. split; [reflexivity|]. split; [reflexivity|]. intros ->. now rewrite str_eqb_refl in C.
Qed.
