(** * C12-C15, C18, C22, C23, C31: names, options and warnings of the public API. *)
From Coq Require Import List NArith ZArith Bool Lia.
From Verif Require Import PyStr Regex Unicode Prog GMLists GeneralMap PostProcess1 PostProcess2 PreProcess1
  Dispatch YamlData Transliterate StrFacts ConvertFacts.
Import ListNotations.
Local Open Scope list_scope.

(** [uname]: unicodedata.name; [uscript]: fontTools.unicodedata.script;
    [find]: langcodes.find.  Everything here holds for all of them. *)
Section Api.
Variable uname : N -> option str.
Variable uscript : N -> str.
Variable lfind : str -> res str.
Notation process := (process uname uscript lfind).

(* ------------------------------------------------------------------ *)
(** ** C12: script names are matched without regard to case *)

(** A name of an Indic or Latin script up to case. *)
Definition known_name (s : str) : Prop :=
  exists i, In i (GM_IndicScripts ++ GM_LatinScripts) /\ py_lower i = py_lower s.

Lemma canonical_ext : forall s s', py_lower s = py_lower s' -> known_name s -> canonical_name s = canonical_name s'.
Proof.
  intros s s' H (i & Hi & E). unfold canonical_name. rewrite <- H.
  destruct (find _ _) eqn:F; [reflexivity|]. exfalso.
  eapply find_none in F; [|exact Hi]. cbv beta in F. rewrite E, str_eqb_refl in F. discriminate.
Qed.

Lemma known_not_auto : forall s, known_name s -> s <> "autodetect"%u.
Proof.
  intros s (i & Hi & E) ->.
  assert (C : forallb (fun i => negb (str_eqb (py_lower i) (py_lower "autodetect"%u)))
                (GM_IndicScripts ++ GM_LatinScripts) = true) by (vm_compute; reflexivity).
  rewrite forallb_forall in C. specialize (C i Hi). rewrite E, str_eqb_refl in C. discriminate.
Qed.

Lemma process_default_known : forall src tgt txt nativize post pre, src <> "autodetect"%u ->
  process_default uname uscript src tgt txt nativize post pre
  = convert_default (canonical_name src) (canonical_name tgt) txt nativize post pre.
Proof.
  intros. unfold process_default. now rewrite (proj2 (str_eqb_neq src "autodetect"%u)).
Qed.

(** Spellings that differ only in case are interchangeable: same result, same
    warnings, same exceptions. *)
Theorem names_case_insensitive : forall src src' tgt tgt' txt nativize post pre,
  py_lower src = py_lower src' -> py_lower tgt = py_lower tgt' -> known_name src -> known_name tgt ->
  process src tgt txt nativize post pre "default"%u = process src' tgt' txt nativize post pre "default"%u.
Proof.
  intros src src' tgt tgt' txt nativize post pre H1 H2 K1 K2.
  assert (K1' : known_name src') by (destruct K1 as (i & Hi & E); exists i; now rewrite <- H1).
  unfold Transliterate.process. rewrite str_eqb_refl.
  rewrite !process_default_known by (now apply known_not_auto).
  now rewrite (canonical_ext src src'), (canonical_ext tgt tgt').
Qed.

(** A name that is spelled as in the list stands for itself. *)
Theorem canonical_listed : forall s, In s (GM_IndicScripts ++ GM_LatinScripts) -> canonical_name s = s.
Proof.
  intros s H.
  assert (C : forallb (fun s => str_eqb (canonical_name s) s) (GM_IndicScripts ++ GM_LatinScripts) = true)
    by (vm_compute; reflexivity).
  rewrite forallb_forall in C. now apply str_eqb_eq, C.
Qed.

Example names_case_insensitive_case :
  py_lower "dEVANAGARI"%u = py_lower "Devanagari"%u /\ "dEVANAGARI"%u <> "Devanagari"%u /\
  known_name "dEVANAGARI"%u /\
  process "dEVANAGARI"%u "iast"%u "धर्म"%u false [] [] "default"%u = ([], Ok "dharma"%u).
Proof.
  refine (conj _ (conj _ (conj _ _))).
  - vm_compute. reflexivity.
  - discriminate.
  - exists "Devanagari"%u. split; [apply mem_In|]; vm_compute; reflexivity.
  - vm_compute. reflexivity.
Qed.

(** Names of the Semitic group are not folded. *)
Theorem semitic_names_case_sensitive : exists s s', In s GM_SemiticScripts /\ py_lower s' = py_lower s /\
  process s "Latn"%u "אב"%u false [] [] "default"%u <> process s' "Latn"%u "אב"%u false [] [] "default"%u.
Proof.
  exists "Hebr"%u, "hebr"%u. split; [apply mem_In; vm_compute; reflexivity|].
  split; [vm_compute; reflexivity|]. vm_compute. discriminate.
Qed.

(* ------------------------------------------------------------------ *)
(** ** C13: names of options *)

(** What [process] does with the options goes through [resolve_options]. *)
Lemma warn_if_ext : forall b w o o', o = o' -> warn_if b w o = warn_if b w o'.
Proof. now intros b w o o' ->. Qed.

Lemma convert_default_ext : forall src tgt txt n post post' pre pre',
  resolve_options PP_names post = resolve_options PP_names post' ->
  resolve_options PrP_names pre = resolve_options PrP_names pre' ->
  convert_default src tgt txt n post pre = convert_default src tgt txt n post' pre'.
Proof. intros src tgt txt n post post' pre pre' H1 H2. unfold convert_default. now rewrite H1, H2. Qed.

Lemma process_default_ext : forall src tgt txt n post post' pre pre',
  resolve_options PP_names post = resolve_options PP_names post' ->
  resolve_options PrP_names pre = resolve_options PrP_names pre' ->
  process_default uname uscript src tgt txt n post pre = process_default uname uscript src tgt txt n post' pre'.
Proof.
  intros src tgt txt n post post' pre pre' H1 H2. unfold process_default.
  destruct (str_eqb src _); [destruct (auto_detect _ _ _ _); [|reflexivity]|]; now apply convert_default_ext.
Qed.

Lemma process_script_tag_ext : forall src tgt txt n post post' pre pre',
  resolve_options PP_names post = resolve_options PP_names post' ->
  resolve_options PrP_names pre = resolve_options PrP_names pre' ->
  process_script_tag uname uscript src tgt txt n post pre = process_script_tag uname uscript src tgt txt n post' pre'.
Proof.
  intros src tgt txt n post post' pre pre' H1 H2. unfold process_script_tag. cbv zeta.
  do 2 apply warn_if_ext. destruct (script_loop _ _ _ _ _ _) as [[a b]|]; [|reflexivity].
  do 2 apply warn_if_ext.
  match goal with |- match ?x with _ => _ end = _ => destruct x as [l|]; [|reflexivity] end.
  match goal with |- match ?x with _ => _ end = _ => destruct x; [|reflexivity] end.
  match goal with |- match ?x with _ => _ end = _ => destruct x; [|reflexivity] end.
  do 2 apply warn_if_ext. apply process_default_ext; [assumption|]. now destruct (str_eqb _ "autodetect"%u).
Qed.

Lemma process_lang_tag_ext : forall src tgt txt n post post' pre pre',
  resolve_options PP_names post = resolve_options PP_names post' ->
  resolve_options PrP_names pre = resolve_options PrP_names pre' ->
  process_lang_tag uname uscript src tgt txt n post pre = process_lang_tag uname uscript src tgt txt n post' pre'.
Proof.
  intros src tgt txt n post post' pre pre' H1 H2. unfold process_lang_tag. cbv zeta.
  do 4 apply warn_if_ext.
  match goal with |- match ?x with _ => _ end = _ => destruct x as [l|]; [|reflexivity] end.
  match goal with |- match ?x with _ => _ end = _ => destruct x; [|reflexivity] end.
  match goal with |- match ?x with _ => _ end = _ => destruct x; [|reflexivity] end.
  do 2 apply warn_if_ext. apply process_default_ext; [assumption|]. now destruct (str_eqb src "autodetect"%u).
Qed.

Lemma process_ext : forall src tgt txt n post post' pre pre' param,
  resolve_options PP_names post = resolve_options PP_names post' ->
  resolve_options PrP_names pre = resolve_options PrP_names pre' ->
  process src tgt txt n post pre param = process src tgt txt n post' pre' param.
Proof.
  intros src tgt txt n post post' pre pre' param H1 H2. unfold Transliterate.process.
  destruct (str_eqb param _); [now apply process_default_ext|].
  destruct (str_eqb param _); [now apply process_script_tag_ext|].
  destruct (str_eqb param _); [now apply process_lang_tag_ext|].
  destruct (str_eqb param _); [|reflexivity]. unfold process_lang_name.
  match goal with |- match ?x with _ => _ end = _ => destruct x as [l|]; [|reflexivity] end.
  destruct (lfind tgt); [|reflexivity]. apply process_lang_tag_ext; [assumption|].
  now destruct (str_eqb src "autodetect"%u).
Qed.

Definition unknown_option (names : list str) (o : str) : Prop :=
  forall i, In i names -> py_lower i <> py_lower o.

Lemma resolve_app : forall names a b, resolve_options names (a ++ b) = resolve_options names a ++ resolve_options names b.
Proof. intros. unfold resolve_options. apply flat_map_app. Qed.

Lemma resolve_one : forall names o,
  resolve_options names [o] = filter (fun i => str_eqb (py_lower o) (py_lower i)) names.
Proof. intros. unfold resolve_options. cbn [flat_map]. apply app_nil_r. Qed.

Lemma resolve_unknown : forall names o, unknown_option names o -> resolve_options names [o] = [].
Proof.
  intros names o H. rewrite resolve_one.
  induction names as [|i names IH]; simpl; [reflexivity|].
  rewrite (proj2 (str_eqb_neq (py_lower o) (py_lower i))).
  - apply IH. intros j Hj. apply H. now right.
  - intros E. apply (H i); [now left|now symmetry].
Qed.

(** An unknown name changes neither the result nor the warnings, wherever it
    stands in the lists. *)
Theorem unknown_post_option_ignored : forall src tgt txt n o p1 p2 pre param, unknown_option PP_names o ->
  process src tgt txt n (p1 ++ o :: p2) pre param = process src tgt txt n (p1 ++ p2) pre param.
Proof.
  intros. apply process_ext; [|reflexivity].
  change (o :: p2) with ([o] ++ p2). rewrite !resolve_app, resolve_unknown by assumption. reflexivity.
Qed.
Theorem unknown_pre_option_ignored : forall src tgt txt n post o p1 p2 param, unknown_option PrP_names o ->
  process src tgt txt n post (p1 ++ o :: p2) param = process src tgt txt n post (p1 ++ p2) param.
Proof.
  intros. apply process_ext; [reflexivity|].
  change (o :: p2) with ([o] ++ p2). rewrite !resolve_app, resolve_unknown by assumption. reflexivity.
Qed.

(** Spellings that differ only in case are interchangeable. *)
Theorem options_case_insensitive : forall src tgt txt n post post' pre pre' param,
  Forall2 (fun a b => py_lower a = py_lower b) post post' ->
  Forall2 (fun a b => py_lower a = py_lower b) pre pre' ->
  process src tgt txt n post pre param = process src tgt txt n post' pre' param.
Proof.
  intros src tgt txt n post post' pre pre' param H1 H2.
  assert (R : forall names l l', Forall2 (fun a b => py_lower a = py_lower b) l l' ->
    resolve_options names l = resolve_options names l').
  { intros names l l' H. induction H as [|a b l l' E _ IH]; [reflexivity|].
    unfold resolve_options in *. simpl. now rewrite IH, E. }
  apply process_ext; now apply R.
Qed.

(** A known name stands for the one function of that name; only
    "RemoveDiacritics" stands for two functions, since there are two of that name
    up to case. *)
Theorem pre_option_unique : forall o i, In i PrP_names -> py_lower o = py_lower i -> resolve_options PrP_names [o] = [i].
Proof.
  intros o i Hi E. rewrite resolve_one, E.
  assert (C : forallb (fun i => match filter (fun j => str_eqb (py_lower i) (py_lower j)) PrP_names with
                                | [j] => str_eqb i j | _ => false end) PrP_names = true) by (vm_compute; reflexivity).
  rewrite forallb_forall in C. specialize (C i Hi).
  destruct (filter _ _) as [|j [|]]; try discriminate. apply str_eqb_eq in C. now subst.
Qed.
Theorem post_option_unique : forall o i, In i PP_names -> py_lower o = py_lower i ->
  py_lower i <> "removediacritics"%u -> resolve_options PP_names [o] = [i].
Proof.
  intros o i Hi E Hn. rewrite resolve_one, E.
  assert (C : forallb (fun i => if str_eqb (py_lower i) "removediacritics"%u then true else
                                match filter (fun j => str_eqb (py_lower i) (py_lower j)) PP_names with
                                | [j] => str_eqb i j | _ => false end) PP_names = true) by (vm_compute; reflexivity).
  rewrite forallb_forall in C. specialize (C i Hi). rewrite (proj2 (str_eqb_neq _ _) Hn) in C.
  destruct (filter _ _) as [|j [|]]; try discriminate. apply str_eqb_eq in C. now subst.
Qed.
Theorem post_option_two : forall o, py_lower o = "removediacritics"%u ->
  resolve_options PP_names [o] = ["RemoveDiacritics"%u; "removeDiacritics"%u].
Proof. intros o E. rewrite resolve_one, E. vm_compute. reflexivity. Qed.

Example unknown_option_case : unknown_option PP_names "noSuchOption"%u /\ ~ unknown_option PP_names "tamilsubscript"%u.
Proof.
  split.
  - intros i Hi E.
    assert (C : forallb (fun i => negb (str_eqb (py_lower i) (py_lower "noSuchOption"%u))) PP_names = true)
      by (vm_compute; reflexivity).
    rewrite forallb_forall in C. specialize (C i Hi). rewrite E, str_eqb_refl in C. discriminate.
  - intros H. apply (H "TamilSubScript"%u); [apply mem_In|]; vm_compute; reflexivity.
Qed.

(* ------------------------------------------------------------------ *)
(** ** C14: warnings *)

Definition source_warning (s : str) : str :=
  "Source script: "%u ++ s ++ " not found in the list of scripts supported. The text will not be transliterated."%u.
Definition target_warning (s : str) : str :=
  "Target script: "%u ++ s ++ " not found in the list of scripts supported. The text will not be transliterated."%u.
Definition font_warning (s : str) : str :=
  s ++ " uses an hacked font to display the script. In the absence of this font, you text may appear different. "%u
  ++ [10%N] ++ " See: https://www.aksharamukha.com/describe/"%u ++ s ++ " for the font used"%u.
Definition supported (s : str) : Prop := In s GM_IndicScripts \/ In s GM_LatinScripts \/ In s GM_SemiticScripts.

Lemma supported_mem : forall s, mem s (GM_IndicScripts ++ GM_LatinScripts ++ GM_SemiticScripts) = true <-> supported s.
Proof. intros s. rewrite mem_In, !in_app_iff. reflexivity. Qed.

(** The scripts flagged font_hack. *)
Definition hacked : list str := ["Ariyaka"%u; "GranthaPandya"%u; "TamilExtended"%u; "Vatteluttu"%u].
Lemma hacked_spec : forall s,
  match lookup s yaml_scripts with Some y => y_font_hack y | None => false end = true <-> In s hacked.
Proof.
  intros s. split.
  - destruct (lookup s yaml_scripts) as [y|] eqn:E; [|discriminate]. intros H. apply lookup_In in E.
    assert (C : forallb (fun p => negb (y_font_hack (snd p)) || mem (fst p) hacked) yaml_scripts = true)
      by (vm_compute; reflexivity).
    rewrite forallb_forall in C. specialize (C _ E). cbn [fst snd] in C. rewrite H in C. now apply mem_In.
  - intros H. repeat (destruct H as [<-|H]; [vm_compute; reflexivity|]). destruct H.
Qed.

Lemma warn_In : forall b w o x, In x (fst (warn_if b w o)) <-> (b = true /\ x = w) \/ In x (fst o).
Proof. intros [] w o x; simpl; intuition congruence. Qed.

Lemma warn_fst : forall b w o, fst (warn_if b w o) = (if b then [w] else []) ++ fst o.
Proof. now intros []. Qed.

Lemma warn_snd : forall b w o, snd (warn_if b w o) = snd o.
Proof. now intros []. Qed.


Lemma last_app : forall (a b : str) d, b <> [] -> last (a ++ b) d = last b d.
Proof.
  induction a as [|x a IH]; intros b d H; [reflexivity|]. simpl. rewrite IH by assumption.
  destruct (a ++ b) eqn:E; [|reflexivity]. apply app_eq_nil in E. now destruct E.
Qed.

Definition loc_out_warning (s : str) : str :=
  "The LoC romanization of "%u ++ s ++ " is not yet supported. The output text will be rendered using ISO 233 if Semitic else ISO 15919. See: https://www.aksharamukha.com/loc"%u.
Definition loc_in_warning (s : str) : str :=
  "The LoC romanization of "%u ++ s ++ " is not yet supported. The input text will be treated as if it was ISO 233 if Semitic else ISO 15919.. See: https://www.aksharamukha.com/loc"%u.

Lemma app_nonnil : forall a b : str, b <> [] -> a ++ b <> [].
Proof. intros [|x a] b H; [assumption|discriminate]. Qed.
Ltac nonnil := solve [discriminate | apply app_nonnil; nonnil].
Ltac lasts E := rewrite !last_app in E by nonnil.

(** All warnings of [convert_default]. *)
Lemma warnings_In : forall src tgt txt n post pre w,
  In w (fst (convert_default src tgt txt n post pre)) <->
  (In tgt hacked /\ w = font_warning tgt) \/ (~ supported src /\ w = source_warning src) \/
  (~ supported tgt /\ w = target_warning tgt) \/
  ((tgt = "RomanLoC"%u /\ ~ In src GM_LoCScripts) /\ w = loc_out_warning src) \/
  ((src = "RomanLoC"%u /\ ~ In tgt GM_LoCScripts) /\ w = loc_in_warning tgt).
Proof.
  intros. unfold convert_default. rewrite !warn_In. cbn [fst In].
  assert (N : forall b P, (b = true <-> P) -> (negb b = true <-> ~ P)).
  { intros [] P H; simpl; intuition congruence. }
  rewrite hacked_spec, !andb_true_iff, !str_eqb_eq.
  rewrite !(N _ _ (supported_mem _)), !(N _ _ (mem_In _ _)).
  unfold font_warning, source_warning, target_warning, loc_out_warning, loc_in_warning. intuition.
Qed.

Lemma last_font : forall s, last (font_warning s) 0%N = 100%N.
Proof. intros. unfold font_warning. rewrite !last_app by nonnil. reflexivity. Qed.

Theorem source_warning_iff : forall src tgt txt n post pre, src <> "autodetect"%u ->
  In (source_warning (canonical_name src)) (fst (process src tgt txt n post pre "default"%u))
  <-> ~ supported (canonical_name src).
Proof.
  intros src tgt txt n post pre H. unfold Transliterate.process. rewrite str_eqb_refl.
  rewrite process_default_known by assumption. rewrite warnings_In.
  split; [|intros K; right; left; now split].
  intros [[_ E]|[[K _]|[[_ E]|[[_ E]|[_ E]]]]]; try discriminate E; [|assumption].
  exfalso. apply (f_equal (fun w => last w 0%N)) in E. rewrite last_font in E.
  unfold source_warning in E. lasts E. discriminate.
Qed.

Theorem target_warning_iff : forall src tgt txt n post pre, src <> "autodetect"%u ->
  In (target_warning (canonical_name tgt)) (fst (process src tgt txt n post pre "default"%u))
  <-> ~ supported (canonical_name tgt).
Proof.
  intros src tgt txt n post pre H. unfold Transliterate.process. rewrite str_eqb_refl.
  rewrite process_default_known by assumption. rewrite warnings_In.
  split; [|intros K; right; right; left; now split].
  intros [[_ E]|[[_ E]|[[K _]|[[_ E]|[_ E]]]]]; try discriminate E; [|assumption].
  exfalso. apply (f_equal (fun w => last w 0%N)) in E. rewrite last_font in E.
  unfold target_warning in E. lasts E. discriminate.
Qed.

Theorem font_warning_iff : forall src tgt txt n post pre, src <> "autodetect"%u ->
  In (font_warning (canonical_name tgt)) (fst (process src tgt txt n post pre "default"%u))
  <-> In (canonical_name tgt) hacked.
Proof.
  intros src tgt txt n post pre H. unfold Transliterate.process. rewrite str_eqb_refl.
  rewrite process_default_known by assumption. rewrite warnings_In.
  split; [|intros K; left; now split].
  intros [[K _]|[[_ E]|[[_ E]|[[_ E]|[_ E]]]]]; [assumption| | | |];
    exfalso; apply (f_equal (fun w => last w 0%N)) in E; rewrite last_font in E;
    unfold source_warning, target_warning, loc_out_warning, loc_in_warning in E;
    lasts E; discriminate.
Qed.

(** Between supported scripts without a hacked font, and without RomanLoC, there is
    no warning at all. *)
Theorem no_warning : forall src tgt txt n post pre, src <> "autodetect"%u ->
  supported (canonical_name src) -> supported (canonical_name tgt) -> ~ In (canonical_name tgt) hacked ->
  canonical_name src <> "RomanLoC"%u -> canonical_name tgt <> "RomanLoC"%u ->
  fst (process src tgt txt n post pre "default"%u) = [].
Proof.
  intros src tgt txt n post pre H K1 K2 K3 K4 K5.
  destruct (fst _) as [|w l] eqn:E; [reflexivity|]. exfalso.
  unfold Transliterate.process in E. rewrite str_eqb_refl, process_default_known in E by assumption.
  assert (I : In w (w :: l)) by now left. rewrite <- E in I. apply warnings_In in I. intuition.
Qed.

(** Warnings never depend on the text or the options. *)
Theorem warnings_static : forall src tgt txt txt' n n' post post' pre pre', src <> "autodetect"%u ->
  fst (process src tgt txt n post pre "default"%u) = fst (process src tgt txt' n' post' pre' "default"%u).
Proof.
  intros. unfold Transliterate.process. rewrite str_eqb_refl, !process_default_known by assumption.
  unfold convert_default. now rewrite !warn_fst.
Qed.

Example warnings_case :
  process "Foo"%u "vatteluttu"%u "क"%u false [] [] "default"%u
    = ([font_warning "Vatteluttu"%u; source_warning "Foo"%u], Ok "क"%u) /\ ~ supported "Foo"%u.
Proof. split; [vm_compute; reflexivity|]. rewrite <- supported_mem. vm_compute. discriminate. Qed.

(* ------------------------------------------------------------------ *)
(** ** C15: "The text will not be transliterated" *)

(** Both scripts are unknown, the warnings say that the text will not be
    transliterated, yet the text is changed: two dandas become a double danda. *)
Theorem unsupported_unchanged_refuted : exists src tgt txt,
  ~ supported src /\ ~ supported tgt /\
  In (source_warning src) (fst (process src tgt txt true [] [] "default"%u)) /\
  snd (process src tgt txt true [] [] "default"%u) <> Ok txt.
Proof.
  exists "Foo"%u, "Bar"%u, "।।"%u. rewrite <- !supported_mem.
  split; [vm_compute; discriminate|]. split; [vm_compute; discriminate|].
  split; [apply mem_In; vm_compute; reflexivity|vm_compute; discriminate].
Qed.

(* ------------------------------------------------------------------ *)
(** ** C22: detected options exist *)

Theorem detected_options_exist : forall text script o, In o (detect_preoptions text script) -> In o PrP_names.
Proof.
  intros text script o H. unfold detect_preoptions in H. cbv zeta in H.
  repeat match goal with H : In _ (if ?b then _ else _) |- _ => destruct b end;
    repeat (destruct H as [<-|H]; [apply mem_In; vm_compute; reflexivity|]); destruct H.
Qed.

(** So the detected options are what is applied: none is dropped or replaced. *)
Corollary detected_options_applied : forall text script,
  resolve_options PrP_names (detect_preoptions text script) = detect_preoptions text script.
Proof.
  intros text script. pose proof (detected_options_exist text script) as H.
  induction (detect_preoptions text script) as [|o l IH]; [reflexivity|].
  change (o :: l) with ([o] ++ l). rewrite resolve_app, IH by (intros x Hx; apply H; now right).
  rewrite (pre_option_unique o o); [reflexivity| |reflexivity]. apply H. now left.
Qed.

Example detected_options_case : detect_preoptions "พุทฺโธะ"%u "Thai"%u = ["ThaiOrthography"%u].
Proof. vm_compute. reflexivity. Qed.

(* ------------------------------------------------------------------ *)
(** ** C23: autodetection and pre-options *)

(** With source 'autodetect' the user's pre-options have no influence. *)
Theorem autodetect_ignores_pre : forall tgt txt n post pre pre' param, In param ["default"%u; "script_code"%u; "lang_code"%u; "lang_name"%u] ->
  process "autodetect"%u tgt txt n post pre param = process "autodetect"%u tgt txt n post pre' param.
Proof.
  intros tgt txt n post pre pre' param H. repeat (destruct H as [<-|H]); [reflexivity..|destruct H].
Qed.

(** For [default] they are the detected ones.  (For codes: [autodetect_codes] in CodeFacts.v.) *)
Theorem autodetect_default : forall tgt txt n post pre s, auto_detect uname uscript txt false = Ok s ->
  process "autodetect"%u tgt txt n post pre "default"%u
  = convert_default s (canonical_name tgt) txt n post (detect_preoptions txt s).
Proof.
  intros tgt txt n post pre s H. unfold Transliterate.process. rewrite str_eqb_refl. unfold process_default.
  now rewrite str_eqb_refl, H.
Qed.

End Api.
