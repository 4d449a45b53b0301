(** * The whole of [convert] treats the two sides of a separator apart (for property C38, see LineByLine.v).

    Proof machinery; no code of /repo is modelled here. *)
From Coq Require Import List NArith ZArith Bool Lia Permutation.
From Verif Require Import PyStr StrFacts UnicodeTables Regex Unicode Prog GMLists GeneralMap FixNum
  PostProcess1 ConvertFix1 PreProcess1 PostProcess2 GimelData Gimeltra Convert Dispatch YamlData Transliterate
  AbsRegex NormCut ReLits SortFacts TableFacts SafeFacts ApiFacts TotalFacts Marks MarkFacts MarkLeak Keeps KeepFacts Foreign LineFacts
  Apart ApartFacts ApartConv.
Import ListNotations.
Local Open Scope N_scope.

(** ** The checks *)
Definition indic (S : str) : bool := mem S GM_IndicScripts.
Definition latin (S : str) : bool := mem S GM_LatinScripts.
Definition av_ok (g : guard) (S : str) : bool :=
  match CrunchList "SignMap"%u S with Ok l => match idx l 0%Z with Ok x => hushed g (0x951 :: x) | Err _ => true end | Err _ => true end.
Definition sep_source (g : guard) (S : str) : bool :=
  (if indic S then src_i g S && av_ok g S else latin S && src_l g S && parts g (fix_reverse S))
  && negb (mem S ("RomanLoC"%u :: swapped)).
Definition tail_ok (g : guard) (U : str) : bool :=
  parts g (ApplyScriptDefaults [] U []) && parts g (ApplyScriptDefaults [] U ["BengaliRaBa"%u])
  && parts g (PP_RetainIndicNumerals U true) && parts g (PP_RetainIndicNumerals U false) && parts g (PP_RetainDandasIndic U true).
Definition sep_target (g : guard) (T : str) : bool :=
  (if indic T then tgt_i g T && hushed_in g (first_of "ViramaMap"%u T) else latin T && tgt_l g T) && tail_ok g T
  && negb (mem T ["RomanLoC"%u; "Soyombo"%u]).
(** The check of the characters that the text has to lack. *)
Definition lack_ok (g : guard) (L : list N) (S : str) : bool :=
  if indic S then om_i L S && mints (closed L) L (ind_prefix S) else om_l L S && mints (closed L) L (lat_prefix S).
Definition pre_class (T : str) : str := if indic T then (if str_eqb T "Tamil"%u then "Tamil"%u else "Devanagari"%u) else "SLP1"%u.
Definition pre_ok (g : guard) (L : list N) (S R : str) : bool := apts g (closed L) L (PrP_PreProcess S R [] []).
Definition pipe_ok (L : list N) (S : str) : bool := if mem S GM_pipeScripts then existsb (fun c => negb (okc L c)) "|"%u else true.
Definition glob2 (g : guard) : bool :=
  parts g PP_arabicRemoveAdditionsPhonetic && parts g PP_RemoveDiacriticsTamil && parts g PP_RemoveDiacritics && parts g (PrP_retainLatin true)
  && parts g [Replace [0x34F]%N []] && parts g ([Replace "│"%u "।"%u] ++ [Replace "┃"%u "॥"%u]) && parts g ([Replace "│"%u "|"%u] ++ [Replace "┃"%u "||"%u])
  && parts g [Replace "●"%u "."%u] && parts g [Replace [0x5B7] []]
  && parts g (PP_call "RemoveDiacriticsTamil"%u) && parts g (PP_call "Dot2Pipes"%u) && parts g (PP_call "Dot2Dandas"%u)
  && parts g (PrP_call "RetainDevangariDanda"%u).
(** The target scripts that options choose; Tibetan, which two options for Ranjana choose, only if wanted. *)
Definition some_variants (tib : bool) : list str :=
  ["GranthaGrantamil"%u; "SiddhamDevanagari"%u; "Devanagari"%u; "BengaliRaBa"%u; "BalineseSimpleRomanLoC"%u; "JavaneseSimpleRomanLoC"%u] ++ (if tib then ["Tibetan"%u] else []).
Definition variants_ok (tib : bool) (g : guard) : bool := forallb (sep_target g) (some_variants tib).
Definition tib_ok (tib : bool) (post : list str) : Prop := tib = true \/ ~ In "ranjanalantsa"%u post /\ ~ In "ranjanawartu"%u post.

(** ** Lists of scripts *)
Lemma ind_not_lat : forall S, indic S = true -> latin S = false.
Proof. intros S H. apply mem_In in H. revert S H. apply (all_not latin). vm_compute. reflexivity. Qed.
Lemma ind_not_translit : forall S, indic S = true -> mem S GM_Transliteration = false.
Proof. intros S H. apply mem_In in H. revert S H. apply (all_not (fun s => mem s GM_Transliteration)). vm_compute. reflexivity. Qed.
Lemma not_syriac : forall S, indic S = true \/ latin S = true -> str_eqb S "Latn"%u = false.
Proof.
  assert (F : forall S, In S (GM_IndicScripts ++ GM_LatinScripts) -> str_eqb S "Latn"%u = false) by (apply (all_not (fun s => str_eqb s "Latn"%u)); vm_compute; reflexivity).
  intros S H. apply F. apply in_or_app. destruct H as [H|H]; apply mem_In in H; [now left|now right].
Qed.
Definition listed (S : str) : Prop := indic S = true \/ latin S = true.
Lemma listed_In : forall S, listed S -> In S (GM_IndicScripts ++ GM_LatinScripts).
Proof. intros S [H|H]; apply mem_In in H; apply in_or_app; [now left|now right]. Qed.
Lemma listed_known : forall S, listed S -> In S known.
Proof. intros S H. apply mem_In. apply known_app. apply mem_In. now apply listed_In. Qed.
Lemma source_listed : forall g S, sep_source g S = true -> listed S.
Proof. intros g S H. unfold sep_source in H. unfold listed. destruct (indic S); [now left|]. bools. now right. Qed.
Lemma target_listed : forall g S, sep_target g S = true -> listed S.
Proof. intros g S H. unfold sep_target in H. unfold listed. destruct (indic S); [now left|]. bools. now right. Qed.

(** ** Preprocessing *)
Definition avag (S T : str) : prog :=
  if (andb (mem S GM_IndicScripts) (mem T GM_Transliteration)) then (let udatta := [0x951]%N in
  let! v10 := CrunchList "SignMap"%u S in
  let! v11 := idx v10 (0)%Z in
  let avagrahaSrc := v11 in
  let! v12 := CrunchList "SignMap"%u T in
  let! v13 := idx v12 (0)%Z in
  let avagrahaTgt := v13 in
  (if (str_eqb avagrahaTgt "'"%u) then ([Replace (udatta ++ avagrahaSrc) ((udatta ++ [0x200B]%N) ++ avagrahaSrc)]) else ([]))) else ([]).
Lemma pre_split : forall S T post pre, listed S -> listed T -> PrP_PreProcess S T post pre = PrP_PreProcess S (pre_class T) [] [] ++ avag S T.
Proof.
  intros S T post pre HS HT. pose proof (not_syriac S HS) as NS. unfold pre_class. destruct (indic T) eqn:IT.
  - assert (M0 : mem T GM_IndicScripts = true) by exact IT.
    assert (M1 : mem T GM_LatinScripts = false) by exact (ind_not_lat T IT). pose proof (ind_not_translit T IT) as M2.
    assert (EA : avag S T = []) by (unfold avag; now rewrite M2, andb_false_r). rewrite EA, app_nil_r.
    destruct (str_eqb T "Tamil"%u) eqn:ET; [apply str_eqb_eq in ET; now rewrite ET|].
    unfold PrP_PreProcess. rewrite M0, M1, M2, ET, NS.
    change (mem "Devanagari"%u GM_IndicScripts) with true. change (mem "Devanagari"%u GM_LatinScripts) with false. change (mem "Devanagari"%u GM_Transliteration) with false.
    change (str_eqb "Devanagari"%u "Tamil"%u) with false. rewrite !andb_false_r. reflexivity.
  - assert (M1 : mem T GM_LatinScripts = true) by (destruct HT as [HT|HT]; [congruence|exact HT]).
    assert (M0 : mem T GM_IndicScripts = false) by exact IT.
    assert (ET : str_eqb T "Tamil"%u = false) by (apply str_eqb_neq; intros ->; discriminate IT).
    unfold PrP_PreProcess. rewrite M0, M1, ET, NS.
    change (mem "SLP1"%u GM_IndicScripts) with false. change (mem "SLP1"%u GM_LatinScripts) with true. change (mem "SLP1"%u GM_Transliteration) with false.
    change (str_eqb "SLP1"%u "Tamil"%u) with false. rewrite !andb_false_r, !app_nil_r. cbn [andb]. unfold avag. rewrite <- !app_assoc. reflexivity.
Qed.

(** ** Variants of scripts *)
Definition var_i (tib : bool) (T T' : str) : Prop := T' = T \/ In T' (some_variants tib) /\ (indic T' = true -> indic T = true) /\ T' <> "IPA"%u.
Definition var_ib (tib : bool) (S T : str) (r : str * str * bool) : Prop := let '(S', T', _) := r in S' = S /\ var_i tib T T'.
Lemma variant_indic : forall tib S T nat pre post, ~ In "siddhammukta"%u pre -> ~ In "egrantamil"%u pre -> ~ In "LaoNative"%u post -> tib_ok tib post ->
  var_ib tib S T (variant_switch S T nat pre post).
Proof.
  intros tib S T nat pre post N1 N2 N3 N4. apply mem_false in N1, N2, N3. cbv beta delta [variant_switch].
  assert (V : forall X o x v, var_i tib T X -> indic x = true -> mem v (some_variants tib) = true -> str_eqb v "IPA"%u = false -> o && str_eqb X x = true -> var_i tib T v).
  { intros X o x v HX Hx Hv HI E. apply andb_true_iff in E as [_ E]. apply str_eqb_eq in E. right. split; [now apply mem_In|]. split; [|now apply str_eqb_neq].
    intros _. rewrite <- E in Hx. destruct HX as [-> | (_ & HX & _)]; [exact Hx|now apply HX]. }
  assert (V2 : forall v, mem v (some_variants tib) = true -> indic v = false -> str_eqb v "IPA"%u = false -> var_i tib T v).
  { intros v Hv Hi HI. right. split; [now apply mem_In|]. split; [|now apply str_eqb_neq]. intros Q. congruence. }
  ltstep (var_i tib T); [eapply V; [now left|reflexivity..]|now left|]; cbv beta; intros t1 H1.
  ltstep (var_i tib T); [eapply V; [exact H1|reflexivity..]|exact H1|]; clear t1 H1; cbv beta; intros t2 H2.
  ltstep (fun s => s = S); [rewrite N1; discriminate|reflexivity|]; cbv beta; intros s1 G1.
  ltstep (var_i tib T); [rewrite N3; discriminate|exact H2|]; clear t2 H2; cbv beta; intros t3 H3.
  ltstep (fun s => s = S); [rewrite N2; discriminate|exact G1|]; clear s1 G1; cbv beta; intros s2 G2.
  ltstep (var_i tib T); [eapply V; [exact H3|reflexivity..]|exact H3|]; clear t3 H3; cbv beta; intros t4 H4.
  ltstep (var_i tib T); [eapply V; [exact H4|reflexivity..]|exact H4|]; clear t4 H4; cbv beta; intros t5 H5.
  assert (P : forall o x v nat0 t, var_i tib T t -> indic x = true -> mem v (some_variants tib) = true -> str_eqb v "IPA"%u = false ->
    var_i tib T (fst (if o && str_eqb t x then (v, false) else (t, nat0)))).
  { intros o x v nat0 t Ht Hx Hv HI. destruct (o && str_eqb t x) eqn:E; [exact (V t o x v Ht Hx Hv HI E)|exact Ht]. }
  assert (PT : forall o x nat0 t, var_i tib T t -> indic x = true -> In o ["ranjanalantsa"%u; "ranjanawartu"%u] ->
    var_i tib T (fst (if mem o post && str_eqb t x then ("Tibetan"%u, false) else (t, nat0)))).
  { intros o x nat0 t Ht Hx Ho. destruct N4 as [N4|[N4 N5]].
    - apply P; [exact Ht|exact Hx|rewrite N4; reflexivity|reflexivity].
    - apply mem_false in N4, N5. assert (E : mem o post = false) by (destruct Ho as [<-|[<-|[]]]; assumption). rewrite E. exact Ht. }
  match goal with |- context [let '(a, b) := ?e in _] => assert (H6 : var_i tib T (fst e)) by (apply PT; [exact H5|reflexivity|now left]); revert H6; destruct e as [t6 n6]; cbn [fst]; intros H6 end.
  match goal with |- context [let '(a, b) := ?e in _] => assert (H7 : var_i tib T (fst e)) by (apply PT; [exact H6|reflexivity|right; now left]); revert H7; destruct e as [t7 n7]; cbn [fst]; intros H7 end.
  match goal with |- context [let '(a, b) := ?e in _] => assert (H8 : var_i tib T (fst e)) by (apply P; [exact H7|reflexivity..]); revert H8; destruct e as [t8 n8]; cbn [fst]; intros H8 end.
  split; [exact G2|]. destruct (mem "JavaneseSimplified"%u post && str_eqb s2 "Javanese"%u); [apply V2; reflexivity|].
  destruct (mem "BalineseSimplified"%u post && str_eqb s2 "Balinese"%u); [apply V2; reflexivity|exact H8].
Qed.
Lemma defaults_same : forall S T post, listed T ->
  ApplyScriptDefaults S T post = ApplyScriptDefaults [] T [] \/ ApplyScriptDefaults S T post = ApplyScriptDefaults [] T ["BengaliRaBa"%u].
Proof.
  intros S T post HT. pose proof (not_syriac T HT) as N.
  assert (E : forall X Y l l', mem "BengaliRaBa"%u l = mem "BengaliRaBa"%u l' -> ApplyScriptDefaults X T l = ApplyScriptDefaults Y T l').
  { intros X Y l l' E. unfold ApplyScriptDefaults, default_options. rewrite N, E. reflexivity. }
  destruct (mem "BengaliRaBa"%u post) eqn:M; [right|left]; now apply E.
Qed.

Section Main.
Variable g : guard.
Hypothesis Hg : sound g.
Variable w : N.
Hypothesis Hw : hush g w = false.
Hypothesis Iw : inert w.
Hypothesis HG : glob g = true.
Hypothesis HG2 : glob2 g = true.
Variable tib : bool.
Hypothesis HV : variants_ok tib g = true.
Hypothesis HD1 : sep_source g "Devanagari"%u = true.
Hypothesis HD2 : lack_ok g [] "Devanagari"%u = true.
Hypothesis HD3 : sep_target g "Devanagari"%u = true.
Local Notation chk := (parted_check g Hg w Hw Iw).

Definition plain_ipa (S T : str) : Prop := S = "Sinhala"%u \/ S = "Oriya"%u -> T <> "IPA"%u.

(** What is needed of the replacement of om. *)
Definition om_apart (J : rel) (S : str) : Prop :=
  if indic S then nvq J (ind_prefix S) /\ (forall T, listed T -> aptq w J (om_prog_i S T)) else nvq J (lat_prefix S) /\ (forall T, listed T -> aptq w J (om_prog_l S T)).
Lemma HL : forall L, closed L = true -> closed L = true.
Proof. exact (fun L x => x). Qed.
Lemma om_apart_lacks : forall L S, okc L w = true -> sep_source g S = true -> lack_ok g L S = true -> om_apart (lacks L) S.
Proof.
  intros L S Lw HS HO. unfold om_apart. unfold lack_ok in HO. unfold sep_source in HS. apply andb_true_iff in HS as [HS _]. destruct (indic S) eqn:IS.
  - assert (MS : In S GM_IndicScripts) by (now apply mem_In). apply andb_true_iff in HS as [HS _]. apply andb_true_iff in HO as [O1 O2]. split.
    + apply nvq_lacks. exact (mints_nv (closed L) L _ (HL L) O2).
    + intros T _. exact (om_lacking_i g w Hw L Lw S T MS HS O1).
  - apply andb_true_iff in HO as [O1 O2]. split; [apply nvq_lacks; exact (mints_nv (closed L) L _ (HL L) O2)|].
    intros T _. exact (om_lacking_l w L Lw S T O1).
Qed.

Section Text.
Variable J : rel.
Lemma apt_convertScript : forall S T, sep_source g S = true -> sep_target g T = true -> (indic T = true -> om_apart J S) -> plain_ipa S T -> aptq w J (convertScript S T).
Proof.
  intros S T HS HT HO HI. unfold convertScript. apply aptq_then; [|pose proof HG as G; unfold glob in G; bools; now apply chk].
  pose proof (target_listed g T HT) as LT0. unfold sep_source in HS. apply andb_true_iff in HS as [HS _]. unfold sep_target in HT. apply andb_true_iff in HT as [HT _]. apply andb_true_iff in HT as [HT _].
  unfold convert_branch. fold (indic S) (indic T) (latin S) (latin T). unfold om_apart in HO. destruct (indic S) eqn:IS.
  - rewrite (ind_not_lat S IS). cbn [andb]. assert (MS : In S GM_IndicScripts) by (now apply mem_In). apply andb_true_iff in HS as [HS _]. destruct (indic T) eqn:IT.
    + destruct (HO eq_refl) as [O1 O2]. apply andb_true_iff in HT as [HT _].
      exact (apt_indic_indic g Hg w Hw Iw J S T MS HS HT O1 (O2 T LT0)).
    + apply andb_true_iff in HT as [LT HT]. rewrite LT. assert (MT : In T GM_LatinScripts) by (now apply mem_In). apply aptq_of.
      apply (parted_indic_latin g Hg w Hw Iw HG S T MS MT HS HT). intros E. apply HI. now left.
  - apply andb_true_iff in HS as [HS F]. apply andb_true_iff in HS as [LS HS]. rewrite LS. cbn [andb]. assert (MS : In S GM_LatinScripts) by (now apply mem_In). destruct (indic T) eqn:IT.
    + destruct (HO eq_refl) as [O1 O2]. apply andb_true_iff in HT as [HT V].
      exact (apt_latin_indic g Hg w Hw Iw HG J S T MS HS HT O1 (O2 T LT0) V).
    + apply andb_true_iff in HT as [LT HT]. rewrite LT. assert (MT : In T GM_LatinScripts) by (now apply mem_In). apply aptq_of.
      exact (parted_latin_latin g Hg w Hw Iw S T MS MT HS HT F).
Qed.
End Text.
Lemma parted_back : forall T, sep_target g T = true -> parted w (convertScript "Devanagari"%u T).
Proof.
  intros T HT. apply aptq_nil.
  apply (apt_convertScript (lacks [])); [exact HD1|exact HT|intros _; exact (om_apart_lacks [] _ (okc_nil w) HD1 HD2)|]. intros [E|E]; vm_compute in E; discriminate E.
Qed.

Section Rest.
Variable J : rel.
Definition sep_pre (o : str) : Prop := parted w (PrP_call o) /\ nvq J (PrP_call o).
Definition sep_post (o : str) : Prop := parted w (PP_call o).

Lemma apt_pres : forall pre, Forall sep_pre pre -> aptq w J (foreach pre PrP_call) /\ nvq J (foreach pre PrP_call).
Proof.
  intros pre H. rewrite Forall_forall in H. split.
  - apply aptq_of. apply parted_foreach. intros o Ho. exact (proj1 (H o Ho)).
  - apply nvq_foreach. intros o Ho. exact (proj2 (H o Ho)).
Qed.

Lemma parted_defaultPost : forall S U nat pre post, tail_ok g U = true -> parted w (PP_defaultPost S U nat pre post).
Proof.
  intros S U nat pre post HU. unfold tail_ok in HU. pose proof HG2 as G2. unfold glob2 in G2. bools. unfold PP_defaultPost.
  apply parted_app; [now apply chk|]. apply parted_app; [apply parted_if; [now apply chk|apply parted_nil]|].
  apply parted_app; [apply parted_if; [now apply chk|apply parted_nil]|]. apply parted_app; [apply parted_if; [now apply chk|apply parted_nil]|].
  apply parted_app; [apply parted_if; now apply chk|now apply chk].
Qed.
Lemma parted_after : forall S U nat pre post back, sep_target g U = true -> str_eqb S "Oriya"%u && str_eqb U "IPA"%u = false ->
  Forall sep_post post -> parted w back ->
  parted w (back
      ++ (if (negb (mem S GM_SemiticScripts) && str_eqb U "Arab"%u && nat)
             || mem "arabicRemoveAdditionsPhonetic"%u post
          then PP_arabicRemoveAdditionsPhonetic else [])
      ++ (if nat then
            ApplyScriptDefaults S U post
            ++ (if str_eqb U "Latn"%u then []
                else if str_eqb U "Tamil"%u then PP_RemoveDiacriticsTamil else PP_RemoveDiacritics)
          else [])
      ++ (let mapped := mem "RemoveDiacritics"%u post && str_eqb U "Tamil"%u in
          let post1 := if mapped
            then map (fun x => if str_eqb x "RemoveDiacritics"%u then "RemoveDiacriticsTamil"%u else x) post
            else post in
          let post2 := if mapped then [] else post in
      foreach post1 PP_call
      ++ (if str_eqb S "Tamil"%u && str_eqb U "IPA"%u then [Raise (External "requests.get"%u)] else [])
      ++ (if str_eqb S "Oriya"%u && str_eqb U "IPA"%u then CF_OriyaIPAFix else [])
      ++ PrP_retainLatin true
      ++ PP_defaultPost S U nat pre post2)).
Proof.
  intros S U nat pre post back HU NO Hpost Hback. rewrite Forall_forall in Hpost. pose proof HG2 as G2. unfold glob2 in G2. bools.
  pose proof (target_listed g U HU) as LU. unfold sep_target in HU. apply andb_true_iff in HU as [HU _]. apply andb_true_iff in HU as [_ HU].
    pose proof HU as HU'. unfold tail_ok in HU'. bools. apply parted_app; [exact Hback|].
    apply parted_app; [apply parted_if; [now apply chk|apply parted_nil]|].
    apply parted_app.
    { apply parted_if; [|apply parted_nil]. apply parted_app.
      - destruct (defaults_same S U post LU) as [-> | ->]; now apply chk.
      - rewrite (not_syriac U LU). apply parted_if; now apply chk. }
    cbv zeta. apply parted_app.
    { apply parted_foreach. intros o Ho. change (sep_post o).
      destruct (mem "RemoveDiacritics"%u post && str_eqb U "Tamil"%u); [|now apply Hpost].
      apply in_map_iff in Ho as (x & <- & Hx). destruct (str_eqb x "RemoveDiacritics"%u); [unfold sep_post; now apply chk|now apply Hpost]. }
    apply parted_app; [apply parted_if; [apply parted_raise|apply parted_nil]|].
    rewrite NO. apply (parted_app w []); [exact (parted_nil w)|]. apply parted_app; [now apply chk|]. now apply parted_defaultPost.
Qed.
(** Pairs of ## in Itrans texts (transliterate.py:478-489). *)
Definition hash_apart (S : str) : Prop := str_eqb S "Itrans"%u = true ->
  forall a b, J a b -> contains "##"%u a = false /\ contains "##"%u b = false /\ contains "##"%u (a ++ w :: b) = false.
Lemma apt_text : forall S T, sep_source g S = true -> sep_target g T = true -> (indic T = true -> om_apart J S) -> plain_ipa S T -> hash_apart S ->
  aptq w J (convert_text S T).
Proof.
  intros S T HS HT HO HI HH. pose proof (apt_convertScript J S T HS HT HO HI) as C. unfold convert_text, hash_apart in *. destruct (str_eqb S "Itrans"%u); [|exact C].
  apply aptq_dead; [exact (HH eq_refl)|exact C].
Qed.
Theorem apt_tail : forall S T old nat pre post, sep_source g S = true -> sep_target g T = true -> (old = [] \/ sep_target g old = true) ->
  (indic T = true -> om_apart J S) -> plain_ipa S T -> hash_apart S -> Forall sep_pre pre -> Forall sep_post post -> aptq w J (convert_tail S T old nat pre post).
Proof.
  intros S T old nat pre post HS HT Hold HO HI HH Hpre Hpost. pose proof (source_listed g S HS) as LS. pose proof (target_listed g T HT) as LT.
  unfold convert_tail.
  rewrite (not_kanas S (listed_known S LS)), (not_kanas T (listed_known T LT)). cbv zeta.
  destruct (apt_pres pre Hpre) as [P1 P2].
  pose proof (semitic_apart S (listed_In S LS)) as SA. pose proof (semitic_apart T (listed_In T LT)) as TA.
  assert (E1 : str_eqb S "Hebr"%u = false).
  { apply str_eqb_neq. intros ->. vm_compute in SA. discriminate SA. }
  assert (E2 : str_eqb S "Oriya"%u && str_eqb T "IPA"%u = false).
  { destruct (str_eqb S "Oriya"%u) eqn:E; [|reflexivity]. cbn [andb]. apply str_eqb_neq. apply HI. right. now apply str_eqb_eq. }
  assert (E4 : str_eqb S [] = false).
  { apply str_eqb_neq. intros ->. destruct LS as [LS|LS]; vm_compute in LS; discriminate LS. }
  assert (C1 : mem "novowelshebrew"%u pre && str_eqb S "Hebr"%u = false) by (rewrite E1; apply andb_false_r).
  assert (C2 : (negb (str_eqb S "Latn"%u) && negb (str_eqb S "Type"%u) && mem S GM_SemiticScripts)
         || (mem S GM_IndicScripts && mem T GM_SemiticScripts && negb (mem S GM_LatinScripts)) || false = false)
    by (rewrite SA, TA, !andb_false_r; reflexivity).
  assert (N : forall b p q, b = false -> aptq w J q -> aptq w J ((if b then p else []) ++ q)) by (intros b p q -> Hq; exact Hq).
  apply aptq_app; [exact P1|exact P2|]. apply N; [exact C1|]. apply N; [exact C2|]. apply (N false (PrP_JapanesePreProcess S pre)); [reflexivity|]. apply (N false (PP_JapanesePostProcess S T nat post)); [reflexivity|]. apply N; [exact E2|].
  apply aptq_then; [now apply apt_text|]. apply (parted_app w []); [apply parted_nil|].
  destruct (str_eqb S old) eqn:E.
  - apply str_eqb_eq in E. destruct Hold as [Hold|Ho]; [exfalso; rewrite Hold in E; rewrite E in E4; discriminate E4|].
    apply parted_after; [exact Ho| |exact Hpost|exact (parted_back old Ho)]. rewrite <- E. destruct (str_eqb S "Oriya"%u) eqn:EO; [|reflexivity]. apply str_eqb_eq in EO. rewrite EO. vm_compute. reflexivity.
  - apply parted_after; [exact HT|exact E2|exact Hpost|exact (parted_nil w)].
Qed.

Definition opts_ok (pre post : list str) : Prop :=
  Forall sep_pre pre /\ Forall sep_post post /\ ~ In "siddhammukta"%u pre /\ ~ In "egrantamil"%u pre /\ ~ In "LaoNative"%u post /\ tib_ok tib post.
Lemma apt_pre : forall S T post pre, sep_source g S = true -> listed T ->
  aptq w J (PrP_PreProcess S (pre_class T) [] []) -> nvq J (PrP_PreProcess S (pre_class T) [] []) -> (indic S = true -> indic T = false -> forall p, nvq J p) ->
  aptq w J (PrP_PreProcess S T post pre) /\ nvq J (PrP_PreProcess S T post pre).
Proof.
  intros S T post pre HS LT P1 P2 HN. pose proof (source_listed g S HS) as LS. rewrite (pre_split S T post pre LS LT).
  assert (Q : parted w (avag S T) /\ nvq J (avag S T)).
  { unfold avag. fold (indic S). destruct (indic S) eqn:IS; [|split; [apply parted_nil|apply nvq_nil]]. cbn [andb].
    destruct (mem T GM_Transliteration) eqn:MT; [|split; [apply parted_nil|apply nvq_nil]].
    assert (IT : indic T = false) by (destruct (indic T) eqn:IT; [rewrite (ind_not_translit T IT) in MT; discriminate MT|reflexivity]).
    split; [|apply (HN eq_refl IT)]. cbv zeta.
    unfold sep_source in HS. rewrite IS in HS. apply andb_true_iff in HS as [HS _]. apply andb_true_iff in HS as [_ HA]. unfold av_ok in HA.
    apply parted_withS. intros l El. apply parted_withS. intros x Ex. apply parted_withS. intros l' _. apply parted_withS. intros x' _.
    apply parted_if; [|apply parted_nil]. rewrite El, Ex in HA. apply (parted_rep g w Hw); [reflexivity|]. unfold hushed. cbn [app forallb]. exact HA. }
  destruct Q as [Q1 Q2]. split; [now apply aptq_then|now apply nvq_app].
Qed.
(** What is needed of a source and the script that the text is converted to. *)
Definition pair_apart (S T : str) : Prop :=
  (aptq w J (PrP_PreProcess S (pre_class T) [] []) /\ nvq J (PrP_PreProcess S (pre_class T) [] []))
  /\ (indic T = true -> om_apart J S) /\ (indic S = true -> indic T = false -> forall p, nvq J p).
Definition pipe_apart (S : str) : Prop := mem S GM_pipeScripts = true ->
  forall a b, J a b -> contains "|"%u a = false /\ contains "|"%u b = false /\ contains "|"%u (a ++ w :: b) = false.
Theorem apt_rest : forall S T old nat pre post, sep_source g S = true -> sep_target g T = true -> (old = [] \/ sep_target g old = true) ->
  pair_apart S T -> plain_ipa S T -> hash_apart S -> opts_ok pre post -> aptq w J (convert_rest S T old nat pre post).
Proof.
  intros S T old nat pre post HS HT Hold ((H0 & H1) & H2 & H3) HI HH (O1 & O2 & O3 & O4 & O5 & O6).
  unfold convert_rest. destruct (apt_pre S T post pre HS (target_listed g T HT) H0 H1 H3) as [P1 P2].
  apply aptq_app; [exact P1|exact P2|]. pose proof (variant_indic tib S T nat pre post O3 O4 O5 O6) as V. unfold var_ib in V.
  destruct (variant_switch S T nat pre post) as [[S' T'] nat']. destruct V as [-> VT].
  assert (ES : str_eqb T "Soyombo"%u = false).
  { unfold sep_target in HT. apply andb_true_iff in HT as [_ HT]. apply negb_true_iff in HT. cbn [mem existsb] in HT. apply orb_false_iff in HT as [_ HT]. now apply orb_false_iff in HT as [HT _]. }
  unfold soyombo_mark. rewrite ES, andb_false_r. cbn [app]. apply apt_tail; try assumption.
  - destruct VT as [-> | (VT & _)]; [exact HT|]. unfold variants_ok in HV. rewrite forallb_forall in HV. exact (HV T' VT).
  - intros IT. assert (IT0 : indic T = true) by (destruct VT as [<- | (_ & VT & _)]; [exact IT|exact (VT IT)]).
    exact (H2 IT0).
  - destruct VT as [-> | (_ & _ & VT)]; [exact HI|]. intros _. exact VT.
Qed.
Theorem apt_main : forall S T nat pre post, sep_source g S = true -> sep_target g T = true -> pair_apart S (if str_eqb S T then "Devanagari"%u else T) ->
  pipe_apart S -> hash_apart S -> nvq J (PrP_call "RetainDevangariDanda"%u) -> plain_ipa S T -> opts_ok pre post ->
  aptq w J (convert_main (Args S T nat pre post)).
Proof.
  intros S T nat pre post HS HT HP HB HH HM HI HO. pose proof (source_listed g S HS) as LS. pose proof (target_listed g T HT) as LT.
  pose proof HG2 as G2. unfold glob2 in G2. bools.
  pose proof (semitic_apart S (listed_In S LS)) as SA. pose proof (semitic_apart T (listed_In T LT)) as TA.
  assert (NI : has_key S GM_semiticISO = false).
  { pose proof (known_no_iso S (listed_known S LS)) as K. unfold no_iso in K. unfold has_key. now rewrite K. }
  assert (NW : mem S swapped = false).
  { unfold sep_source in HS. apply andb_true_iff in HS as [_ HS]. apply negb_true_iff in HS. cbn [mem existsb] in HS. now apply orb_false_iff in HS as [_ HS]. }
  assert (ES : semitic_switch S T nat = (S, T)).
  { destruct (unswapped S NW) as [G1 G2]. unfold semitic_switch. rewrite G1. rewrite (tauto_if (mem T GM_SemiticScripts || has_key T GM_semiticISO) S).
    rewrite SA, NI. cbn [orb]. rewrite G2. cbn [andb]. now rewrite G1, (tauto_if nat S). }
  assert (EA : mem S ["Arab-Ur"%u; "Arab-Pa"%u] = false).
  { apply mem_false. intros [E|[E|[]]]; rewrite <- E in SA; vm_compute in SA; discriminate SA. }
  unfold convert_main. apply aptq_if; [apply aptq_of, parted_nil|]. apply aptq_if; [apply aptq_of, parted_nil|]. rewrite ES, EA, SA, andb_false_r. cbn [andb app]. cbv zeta.
  assert (K : negb (str_eqb S "Hiragana"%u) = true /\ negb (str_eqb S "Katakana"%u) = true).
  { split; apply negb_true_iff, str_eqb_neq; intros ->; destruct LS as [LS|LS]; vm_compute in LS; discriminate LS. }
  destruct K as [K1 K2]. rewrite K1, K2. cbn [negb]. rewrite !andb_true_r.
  set (old := if str_eqb S T then T else []) in *. set (U := if str_eqb S T then "Devanagari"%u else T) in *.
  assert (Hold : old = [] \/ sep_target g old = true) by (subst old; destruct (str_eqb S T); [now right|now left]).
  assert (HU : sep_target g U = true) by (subst U; destruct (str_eqb S T); [exact HD3|exact HT]).
  assert (HIU : plain_ipa S U) by (subst U; destruct (str_eqb S T); [intros _; vm_compute; discriminate|exact HI]).
  assert (HPU : pair_apart S U) by exact HP. clear HP. clearbody U old.
  assert (Rest : forall pre post, opts_ok pre post -> aptq w J (convert_rest S U old nat pre post)) by (intros p q O; exact (apt_rest S U old nat p q HS HU Hold HPU HIU HH O)).
  destruct HO as (O1 & O2 & O3 & O4 & O5 & O6).
  apply aptq_if; [|apply Rest; repeat (split; [assumption|]); assumption].
  assert (Other : aptq w J
    (let! signs := CrunchList "SignMap"%u S in
     let! danda := idx signs 1 in
     if str_eqb danda "।"%u then convert_rest S U old nat (pre ++ ["RetainDevangariDanda"%u]) post
     else convert_rest S U old nat pre (post ++ [if mem U GM_Transliteration then "Dot2Pipes"%u else "Dot2Dandas"%u]))).
  { apply aptq_withS. intros signs _. apply aptq_withS. intros d _. apply aptq_if; apply Rest.
    - split; [|split; [exact O2|split; [|split; [|exact (conj O5 O6)]]]].
      + apply Forall_app. split; [exact O1|]. constructor; [|constructor]. split; [now apply chk|exact HM].
      + intros Ha. apply in_app_or in Ha as [Ha|[Ha|[]]]; [exact (O3 Ha)|vm_compute in Ha; discriminate Ha].
      + intros Ha. apply in_app_or in Ha as [Ha|[Ha|[]]]; [exact (O4 Ha)|vm_compute in Ha; discriminate Ha].
    - split; [exact O1|split; [|split; [exact O3|split; [exact O4|split]]]].
      + apply Forall_app. split; [exact O2|]. constructor; [|constructor]. unfold sep_post. destruct (mem U GM_Transliteration); now apply chk.
      + intros Ha. apply in_app_or in Ha as [Ha|[Ha|[]]]; [exact (O5 Ha)|]. destruct (mem U GM_Transliteration); vm_compute in Ha; discriminate Ha.
      + destruct O6 as [O6|[O6 O7]]; [now left|right]. split; intros Ha; apply in_app_or in Ha as [Ha|[Ha|[]]]; first [exact (O6 Ha)|exact (O7 Ha)|destruct (mem U GM_Transliteration); vm_compute in Ha; discriminate Ha]. }
  unfold pipe_apart in HB. destruct (mem S GM_pipeScripts); [|exact Other]. apply aptq_dead; [exact (HB eq_refl)|exact Other].
Qed.
Theorem apt_convert : forall S T nat pre post, sep_source g S = true -> sep_target g T = true -> pair_apart S (if str_eqb S T then "Devanagari"%u else T) ->
  pipe_apart S -> hash_apart S -> nvq J (PrP_call "RetainDevangariDanda"%u) -> plain_ipa S T -> opts_ok pre post ->
  aptq w J (convert_prog S T nat pre post).
Proof.
  intros S T nat pre post HS HT HP HB HH HM HI HO. unfold convert_prog.
  change (aptq w J (convert_step (convert_n 2) (Args S T nat pre post))). rewrite step_no_loc.
  - unfold iso_part. rewrite (known_no_iso T (listed_known T (target_listed g T HT))), (known_no_iso S (listed_known S (source_listed g S HS))). cbn [app]. now apply apt_main.
  - unfold sep_source in HS. apply andb_true_iff in HS as [_ HS]. apply negb_true_iff in HS. cbn [mem existsb] in HS.
    apply orb_false_iff in HS as [HS _]. now apply str_eqb_neq.
  - unfold sep_target in HT. apply andb_true_iff in HT as [_ HT]. apply negb_true_iff in HT. cbn [mem existsb] in HT. apply orb_false_iff in HT as [HT _]. now apply str_eqb_neq.
Qed.
End Rest.
End Main.
