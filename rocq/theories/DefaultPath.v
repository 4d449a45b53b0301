(** * C44, C45: with [nativize], the default, and with any post-options but two, the
    result does not depend on the script the text comes from.

    [nativize] applies the conventions of the target (PostOptions.py:10-101) to
    the converted text; they look at the target only, and what they are applied to
    is the same text whatever the source.  No check beyond those of PathFacts.v and
    RomanPairs.v is needed. *)
From Coq Require Import List NArith ZArith Bool Lia Arith.
From Verif Require Import PyStr Regex Unicode Prog GMLists GeneralMap PostProcess1 ConvertFix1 PreProcess1 PostProcess2 Convert Dispatch
  Transliterate StrFacts AbsRegex Lang Tokenise Analyze ApiFacts TotalFacts IndicText IndicRT IndicFine Stages PathFacts FineRT RomanText RomanStages
  RomanRT RomanPairs Nativize Defaults.
Import ListNotations.
Local Open Scope nat_scope.

(** transliterate.py:501-541, no pre-options *)
Definition natural (T : str) (nat : bool) (post : list str) : prog :=
  (if mem "arabicRemoveAdditionsPhonetic"%u post then PP_arabicRemoveAdditionsPhonetic else [])
  ++ (if nat then ApplyScriptDefaults [] T post ++ (if str_eqb T "Tamil"%u then PP_RemoveDiacriticsTamil else PP_RemoveDiacritics) else [])
  ++ (let mapped := mem "RemoveDiacritics"%u post && str_eqb T "Tamil"%u in
      let post1 := if mapped then map (fun x => if str_eqb x "RemoveDiacritics"%u then "RemoveDiacriticsTamil"%u else x) post else post in
      let post2 := if mapped then [] else post in
      foreach post1 PP_call ++ PrP_retainLatin true ++ PP_defaultPost [] T false [] post2).

Lemma defaults_target : forall S T post, str_eqb T "Latn"%u = false -> ApplyScriptDefaults S T post = ApplyScriptDefaults [] T post.
Proof. intros S T post H. unfold ApplyScriptDefaults, default_options. rewrite H. reflexivity. Qed.

Lemma tail_natural : forall S T nat post, simple S = true -> simple T = true ->
  convert_tail S T [] nat [] post = convert_text S T ++ natural T nat post.
Proof.
  intros S T nat post HS HT. apply simple_spec in HS, HT.
  destruct HS as ((S1 & S2 & S3 & S4 & S5 & S6 & S7 & S7') & (S8 & S9 & S10) & _).
  destruct HT as ((T1 & T2 & T3 & T4 & T5 & T6 & T7 & T7') & (T8 & T9 & T10) & _).
  pose proof (defaults_target S T post T6) as D.
  assert (P : forall post2, PP_defaultPost S T nat [] post2 = PP_defaultPost [] T false [] post2) by (intros post2; unfold PP_defaultPost; reflexivity).
  unfold convert_tail. cbv zeta. change (mem "novowelshebrew"%u []) with false. 
  replace (mem S ["Hiragana"%u; "Katakana"%u]) with false by (cbn [mem existsb]; rewrite S4, S5; reflexivity).
  replace (mem T ["Hiragana"%u; "Katakana"%u]) with false by (cbn [mem existsb]; rewrite T4, T5; reflexivity).
  rewrite S10, T10, T7, !andb_false_r. cbn [andb orb negb]. rewrite S2, D, T6, T7, T7', P, !andb_false_r. cbn [andb orb negb].
  unfold natural. cbv zeta. change (foreach [] PrP_call) with (@nil op). rewrite ?app_nil_l, <- ?app_assoc. reflexivity.
Qed.

(** The options do not choose another script than [S] and [T] (transliterate.py:421-443). *)
Definition steady (S T : str) (post : list str) : Prop :=
  mem "indicDandas"%u post = false /\ (forall nat, variant_switch S T nat [] post = (S, T, nat)) /\ soyombo_mark T post = [].

Lemma main_natural : forall S T nat post, simple S = true -> simple T = true -> S <> T -> steady S T post ->
  convert_main (Args S T nat [] post) = pre S T ++ convert_tail S T [] nat [] post.
Proof.
  intros S T nat post HS HT Hne (Hi & V & Y).
  assert (E : str_eqb S T = false) by (destruct (str_eqb S T) eqn:E; [apply str_eqb_eq in E; contradiction|reflexivity]).
  apply simple_spec in HS, HT.
  destruct HS as ((S1 & S2 & S3 & S4 & S5 & S6 & S7 & S7') & (S8 & S9 & S10) & _).
  destruct HT as ((T1 & T2 & T3 & T4 & T5 & T6 & T7 & T7') & (T8 & T9 & T10) & _).
  assert (W : semitic_switch S T nat = (S, T)).
  { unfold semitic_switch, has_key, get. rewrite T10, T8. cbn [orb andb]. rewrite S10, S8. cbn [orb andb]. rewrite S9. cbn [andb]. cbv beta iota. rewrite ?S9. destruct nat; reflexivity. }
  assert (A : mem S ["Arab-Ur"%u; "Arab-Pa"%u] = false).
  { destruct (mem S ["Arab-Ur"%u; "Arab-Pa"%u]) eqn:Q; [|reflexivity]. apply mem_In in Q. destruct Q as [<-|[<-|[]]]; vm_compute in S10; discriminate. }
  assert (PR : PrP_PreProcess S T post [] = pre S T) by reflexivity.
  unfold convert_main. rewrite T2, T3, E, !andb_false_r. cbn [orb]. rewrite W. cbv beta iota. rewrite A, E, S10, !andb_false_r. cbn [andb].
  rewrite Hi, !app_nil_l. unfold convert_rest. rewrite V. cbv beta iota. rewrite Y, app_nil_l, PR. reflexivity.
Qed.

Theorem convert_natural : forall S T nat post, simple S = true -> simple T = true -> S <> T -> steady S T post ->
  convert_prog S T nat [] post = pre S T ++ convert_text S T ++ natural T nat post.
Proof.
  intros S T nat post HS HT Hne Hp.
  change (convert_prog S T nat [] post) with (convert_step (convert_n 2) (Args S T nat [] post)).
  assert (St : forall rec, convert_step rec (Args S T nat [] post) = convert_main (Args S T nat [] post)).
  { intros rec. pose proof HS as HS'. pose proof HT as HT'. apply simple_spec in HS', HT'.
    destruct HS' as ((S1 & _) & (S8 & _) & _). destruct HT' as ((T1 & _) & (T8 & _) & _).
    unfold convert_step. generalize convert_main. intros m.
    unfold loc_target. rewrite T1. cbn [andb]. unfold loc_target_other. rewrite T1.
    cbn [andb]. unfold loc_source_mark, loc_source. rewrite S1. cbn [andb]. unfold loc_source_other. rewrite S1. cbn [andb].
    rewrite T8, S8. rewrite !app_nil_l. reflexivity. }
  now rewrite St, (main_natural S T nat post HS HT Hne Hp), (tail_natural S T nat post HS HT).
Qed.

(** What follows the replacement of the letters. *)
Definition finish (T : str) (nat : bool) (post : list str) : prog := CF_FixIndicOutput [] T ++ PP_default [] ++ natural T nat post.
Lemma natural_indic : forall S T nat post, staged S = true -> staged T = true -> S <> T -> steady S T post ->
  convert_prog S T nat [] post = (pre S "Devanagari"%u ++ rev_fix S) ++ mid S T ++ finish T nat post.
Proof.
  intros S T nat post HS HT Hne Hp. rewrite convert_natural by (assumption || now apply staged_spec).
  rewrite (pre_indic S T "Devanagari"%u HS HT) by (vm_compute; reflexivity). rewrite (text_staged S T HS HT).
  assert (P2 : CF_FixIndicOutput S T = CF_FixIndicOutput [] T) by (unfold CF_FixIndicOutput; reflexivity).
  unfold indic_indic, rev_fix, mid, finish. rewrite P2. rewrite <- !app_assoc. reflexivity.
Qed.

(** From an Indic script. *)
Lemma finish_indic : forall A bada B badb Ga Gb, In (A, bada) scripts -> In (B, badb) scripts -> A <> B -> together A B = true ->
  image A bada (letters_of (A, bada)) Ga -> image B badb (letters_of (B, badb)) Gb ->
  forall s nat post, fits bada s -> fits badb s -> steady A B post ->
  convert A B (Ga s) nat [] post = run (finish B nat post) (spelled (letters_of (B, badb)) s).
Proof.
  intros A bada B badb Ga Gb HA HB Hne Ht IA IB s nat post Fa Fb Hp. unfold convert.
  rewrite (natural_indic A B nat post (im_staged _ _ _ _ IA) (im_staged _ _ _ _ IB) Hne Hp), run_app.
  rewrite (im_front _ _ _ _ IA _ s (or_introl eq_refl) Fa). cbn [rbind]. rewrite run_app.
  assert (F : fits (bada ++ badb) s).
  { split; [apply Fa|]. intros y Hy. apply in_app_or in Hy as [Hy|Hy]; [now apply Fa|now apply Fb]. }
  rewrite (pair_check_ok mids A bada B badb _ _ mids_tok (pairs_check_ok mids letters_of _ A bada B badb pairs_checked HA HB Hne Ht)
       (im_map _ _ _ _ IA) (im_map _ _ _ _ IB) s F). reflexivity.
Qed.
Lemma finish_devanagari : forall B badb Gb, In (B, badb) scripts -> B <> "Devanagari"%u -> image B badb (letters_of (B, badb)) Gb ->
  forall s nat post, fits badb s -> steady "Devanagari"%u B post ->
  convert "Devanagari"%u B s nat [] post = run (finish B nat post) (spelled (letters_of (B, badb)) s).
Proof.
  intros B badb Gb HB Hne IB s nat post F Hp. destruct dev_own as [D ID]. destruct (dev_together B badb HB) as [T1 _].
  assert (H : D s = s) by (apply (dev_image D ID); apply F). assert (Fd : fits [] s) by (split; [apply F|easy]).
  pose proof (finish_indic "Devanagari"%u [] B badb D Gb dev_script HB (not_eq_sym Hne) T1 ID IB s nat post Fd F Hp) as C. now rewrite H in C.
Qed.

(** From a Roman scheme. *)
Lemma fix_split : forall B nat post, has_virama B = true -> exists p, finish B nat post = joined B ++ p.
Proof.
  intros B nat post H. unfold has_virama in H. destruct (first_of "ViramaMap"%u B) as [vir|] eqn:E; [|discriminate].
  unfold finish. generalize (natural B nat post). intros n. unfold joined, CF_FixIndicOutput, first_of in *.
  destruct (CrunchList "ViramaMap"%u B) as [l|e]; [|discriminate]. cbn [rbind] in *. unfold withS. rewrite E. rewrite <- !app_assoc. eexists. reflexivity.
Qed.
Lemma lis_finish : forall x bad names I0 g ps, lis_check x bad names I0 (map (fun p => (p, g p)) ps) = true -> In x prohibitions ->
  rstage x bad (latin_prog ++ rest_li) (rtable x bad) = Some I0 ->
  forall B badb, In (B, badb) ps -> forall s j nat post, roman_text x s = true -> avoids bad s = true -> run latin_prog s = Ok j ->
    run (rest_li ++ letters_li B ++ finish B nat post) j = run (finish B nat post) (spelled (g (B, badb)) s).
Proof.
  intros x bad names I0 g ps H Hx EI B badb HB s j nat post Hs Ha E. unfold lis_check in H.
  rewrite all_forall in H. specialize (H _ (in_map (fun p => (p, g p)) _ _ HB)). unfold li_check in H. cbn [fst snd] in H.
  apply andb_true_iff in H as [H H5]. apply andb_true_iff in H as [H H4]. apply andb_true_iff in H as [H H3]. apply andb_true_iff in H as [H1 H2].
  apply is_table_eq in H3, H4. destruct (roman_tokens x bad s Hx Hs Ha) as [Hr Hv].
  pose proof (from_inter x bad I0 s j EI Hx Hs Ha E _ _ H3) as P1. pose proof (rstage_ok _ _ _ _ _ H4 _ Hv) as P2.
  rewrite (rrender_spelled x bad _ H2 _ 0 Hv), Hr in P1, P2. destruct (fix_split B nat post H1) as [p ->].
  rewrite (app_assoc (letters_li B)), (app_assoc rest_li), run_app, P1, run_app, P2. reflexivity.
Qed.
Lemma finish_roman : forall R x bad s t j, In (R, (x, bad)) roman_schemes -> roman_image R s t j -> roman_text x s = true ->
  forall B nat post, In B GM_ReversibleScripts -> staged B = true -> steady R B post ->
  convert R B t nat [] post = run (finish B nat post) (spelled (letters_of (B, lost_in B)) s).
Proof.
  intros R x bad s t j Hin RI Hs B nat post HB St Hp. pose proof (scheme_name _ _ Hin) as HR.
  destruct (again_ok _ _ _ _ again_checked) as [[C0 _] _].
  pose proof (in_map (fun X => (X, lost_in X)) _ _ HB) as HB'.
  destruct (lis_check_ok _ _ _ _ letters_of _ lis_checked (or_introl eq_refl) C0 B (lost_in B) HB') as [C2 _]. specialize (C2 R HR).
  pose proof (lis_finish _ _ _ _ letters_of _ lis_checked (or_introl eq_refl) C0 B (lost_in B) HB' s j nat post (roman_text_none x s Hs) eq_refl (ri_latin _ _ _ _ RI)) as C1.
  rewrite <- C1. destruct RI as [_ _ (t0 & t1 & P0 & P1 & P2 & P3 & P4 & P5) _]. apply (prepared_ok R HR) in P0 as [P0 Ph].
  unfold convert. rewrite (convert_natural R B nat post (proj1 (names_spec R HR)) (proj1 (staged_spec B St)) (not_eq_sym (staged_name B R St HR)) Hp).
  rewrite run_app, P0. cbn [rbind]. rewrite run_app, (text_no_hash R B t0 Ph), (script_li R B HR St), <- run_app. unfold body_li, front_li, inter_li.
  rewrite <- !app_assoc. rewrite run_app, P1. cbn [rbind]. rewrite run_app, P2. cbn [rbind].
  rewrite run_app, (alike_ok om _ _ t1 C2 P4 P3). cbn [rbind].
  rewrite run_app, P5. cbn [rbind]. reflexivity.
Qed.

(** Between the scripts and schemes declared reversible, one option chooses another
    script, and one depends on the source. *)
Definition switching : list str := ["indicDandas"%u; "BengaliRaBa"%u].
Lemma steady_options : forall A B s post, carried A s -> In B GM_ReversibleScripts -> (forall o, In o switching -> ~ In o post) -> steady A B post.
Proof.
  intros A B s post HA HB Ho.
  assert (M : forall o, mem o switching = true -> mem o post = false).
  { intros o Q. apply mem_In in Q. specialize (Ho o Q). destruct (mem o post) eqn:E; [|reflexivity]. apply mem_In in E. contradiction. }
  assert (CB : forallb (fun B => negb (mem B ["Siddham"%u; "Lao"%u; "Grantha"%u; "Newa"%u; "Ranjana"%u; "Soyombo"%u])) GM_ReversibleScripts = true) by (vm_compute; reflexivity).
  rewrite forallb_forall in CB. specialize (CB B HB). apply negb_true_iff in CB. cbn [mem existsb] in CB.
  repeat match goal with H : (_ || _)%bool = false |- _ => apply orb_false_iff in H as [? H] end.
  assert (CA : forallb (fun A => negb (mem A ["Balinese"%u; "Javanese"%u])) (GM_ReversibleScripts ++ map fst roman_schemes) = true) by (vm_compute; reflexivity).
  rewrite forallb_forall in CA.
  assert (HA' : In A (GM_ReversibleScripts ++ map fst roman_schemes)).
  { apply in_or_app. destruct HA as [A s HA _ _|A x bad s HA _ _]; [now left|right]. apply in_map_iff. now exists (A, (x, bad)). }
  specialize (CA A HA'). apply negb_true_iff in CA. cbn [mem existsb] in CA.
  repeat match goal with H : (_ || _)%bool = false |- _ => apply orb_false_iff in H as [? H] end.
  split; [apply M; vm_compute; reflexivity|]. split.
  - intros nat. unfold variant_switch. rewrite (M "BengaliRaBa"%u) by (vm_compute; reflexivity).
    assert (N : forall o, mem o [] = false) by reflexivity. cbv zeta. rewrite !N. clear N. cbn [andb].
    repeat (match goal with H : str_eqb ?x _ = false |- _ => rewrite H end; rewrite ?andb_false_r; cbv beta iota). reflexivity.
  - unfold soyombo_mark. repeat match goal with H : str_eqb _ _ = false |- _ => rewrite H; clear H end. rewrite ?andb_false_r. reflexivity.
Qed.

(** C45: any list of post-options without those two.  The targets are the scripts
    declared reversible. *)
Theorem options_independent : forall A B s post, carried A s -> carried B s -> In B GM_ReversibleScripts -> A <> B -> B <> "Devanagari"%u ->
  (forall o, In o switching -> ~ In o post) ->
  exists a, conv "Devanagari"%u A s = Ok a /\ forall nat, convert A B a nat [] post = convert "Devanagari"%u B s nat [] post.
Proof.
  intros A B s post HA HB HR Hne Hd Ho. pose proof (steady_options A B s post HA HR Ho) as Hp.
  assert (Hq : steady "Devanagari"%u B post).
  { apply (steady_options _ B [] post); [|exact HR|exact Ho]. apply carried_indic; [apply mem_In; vm_compute; reflexivity|reflexivity|].
    intros y Hy. assert (L : lost_in "Devanagari"%u = []) by (vm_compute; reflexivity). rewrite L in Hy. destruct Hy. }
  assert (FB : fits (lost_in B) s).
  { inversion HB as [B' s' HB' Db Lb|B' x' bad' s' HB' Rb Lb]; subst B' s'; [now split|]. exfalso.
    assert (C : forallb (fun X => negb (mem X (map fst roman_schemes))) GM_ReversibleScripts = true) by (vm_compute; reflexivity).
    rewrite forallb_forall in C. specialize (C B HR). apply negb_true_iff in C.
    assert (M : mem B (map fst roman_schemes) = true) by (apply mem_In, in_map_iff; now exists (B, (x', bad'))). congruence. }
  destruct (script_image B _ (reversible_script B HR)) as [Gb IB].
  pose proof (fun nat => finish_devanagari B _ Gb (reversible_script B HR) Hd IB s nat post FB Hq) as FD.
  destruct HA as [A s HA Da La|A x bad s HA Ra La].
  - destruct (script_image A _ (reversible_script A HA)) as [Ga IA]. exists (Ga s).
    split; [exact (proj1 (from_devanagari A _ Ga (reversible_script A HA) IA s (conj Da La)))|].
    intros nat. rewrite FD. exact (finish_indic A _ B _ Ga Gb (reversible_script A HA) (reversible_script B HR) Hne (reversible_together A B HA HR) IA IB s nat post (conj Da La) FB Hp).
  - destruct (scheme_image A x bad HA s Ra (avoids_spec _ _ La)) as (t & j & RI). exists t.
    split; [exact (ri_conv _ _ _ _ RI)|]. intros nat. rewrite FD. exact (finish_roman A x bad s t j HA RI Ra B nat post HR (im_staged _ _ _ _ IB) Hp).
Qed.
(** C44: no options. *)
Theorem default_independent : forall A B s, carried A s -> carried B s -> In B GM_ReversibleScripts -> A <> B -> B <> "Devanagari"%u ->
  exists a, conv "Devanagari"%u A s = Ok a /\ convert A B a true [] [] = convert "Devanagari"%u B s true [] [].
Proof.
  intros A B s HA HB HR Hne Hd. destruct (options_independent A B s [] HA HB HR Hne Hd (fun o _ q => q)) as (a & C1 & C2). now exists a.
Qed.
(** And for the 28 scripts of C35. *)
Theorem default_independent_scripts : forall A bada B badb, In (A, bada) scripts -> In (B, badb) scripts -> A <> B -> B <> "Devanagari"%u -> together A B = true ->
  forall s, dev_text s = true -> (forall x, In x bada -> contains x s = false) -> (forall x, In x badb -> contains x s = false) ->
  exists a, conv "Devanagari"%u A s = Ok a /\ convert A B a true [] [] = convert "Devanagari"%u B s true [] [].
Proof.
  intros A bada B badb HA HB Hne Hd Ht s Ds Wa Wb. destruct (script_image A bada HA) as [Ga IA]. destruct (script_image B badb HB) as [Gb IB].
  exists (Ga s). split; [exact (proj1 (from_devanagari A bada Ga HA IA s (conj Ds Wa)))|].
  assert (P : forall S, steady S B []) by (intros S; repeat split).
  rewrite (finish_devanagari B badb Gb HB Hd IB s true [] (conj Ds Wb) (P _)).
  exact (finish_indic A bada B badb Ga Gb HA HB Hne Ht IA IB s true [] (conj Ds Wa) (conj Ds Wb) (P _)).
Qed.

(** A chain of conversions with [nativize] through scripts without conventions ends
    where the last one alone would. *)
Fixpoint default_chain (X : str) (l : list str) (s : str) : res str :=
  match l with [] => Ok s | Y :: l' => rbind (if str_eqb X Y then Ok s else convert X Y s true [] []) (default_chain Y l') end.
Definition unmarked_in (s Y : str) : Prop := forall b, conv "Devanagari"%u Y s = Ok b -> forall c, In c marks -> ~ In c b.
Lemma last_skip : forall l (Y X : str), last (Y :: l) X = last l Y.
Proof. induction l as [|Z l IH]; intros Y X; [reflexivity|]. change (last (Z :: l) X = last (Z :: l) Y). now rewrite !IH. Qed.
Theorem default_chain_independent : forall s l X a, carried X s -> conv "Devanagari"%u X s = Ok a ->
  (forall Y, In Y l -> carried Y s /\ In Y unconventional /\ unmarked_in s Y) ->
  default_chain X l a = conv "Devanagari"%u (last l X) s.
Proof.
  intros s. induction l as [|Y l IH]; intros X a HX Ca H; [cbn [last default_chain]; now rewrite Ca|].
  destruct (H Y (or_introl eq_refl)) as (HY & UY & MY). assert (H' : forall Z, In Z l -> carried Z s /\ In Z unconventional /\ unmarked_in s Z) by (intros Z HZ; apply H; now right).
  pose proof (last_skip l Y X) as L.
  rewrite L. cbn [default_chain]. destruct (str_eqb X Y) eqn:E.
  - apply str_eqb_eq in E. subst Y. cbn [rbind]. now apply IH.
  - apply str_eqb_neq in E. destruct (default_carried X Y s HX HY E UY) as (a' & b & C1 & C2 & C3). rewrite Ca in C1. injection C1 as <-.
    rewrite (unmarked_same b (MY b C2)) in C3. rewrite C3. cbn [rbind]. now apply IH.
Qed.
(** And a last step to a script that may have conventions. *)
Theorem default_chain_last : forall s l X a B, carried X s -> conv "Devanagari"%u X s = Ok a ->
  (forall Y, In Y l -> carried Y s /\ In Y unconventional /\ unmarked_in s Y) ->
  carried B s -> In B GM_ReversibleScripts -> last l X <> B -> B <> "Devanagari"%u ->
  rbind (default_chain X l a) (fun t => convert (last l X) B t true [] []) = convert "Devanagari"%u B s true [] [].
Proof.
  intros s l X a B HX Ca H HB HR Hne Hd. rewrite (default_chain_independent s l X a HX Ca H).
  assert (HL : carried (last l X) s).
  { clear - HX H. revert X HX. induction l as [|Y l IH]; intros X HX; [exact HX|].
    pose proof (last_skip l Y X) as L.
    rewrite L. apply IH; [intros Z HZ; apply H; now right|]. now apply H; left. }
  destruct (default_independent (last l X) B s HL HB HR Hne Hd) as (t & C1 & C2). rewrite C1. exact C2.
Qed.

Section Public.
Variable uname : N -> option str.
Variable uscript : N -> str.
Variable lfind : str -> res str.
(** C44 for [transliterate.process] with its defaults: two sources give the same. *)
Theorem process_independent : forall src src' tgt s, let A := canonical_name src in let A' := canonical_name src' in let B := canonical_name tgt in
  carried A s -> carried A' s -> carried B s -> In B GM_ReversibleScripts -> A <> B -> A' <> B -> B <> "Devanagari"%u ->
  let go S txt := snd (process uname uscript lfind S tgt txt true [] [] "default"%u) in
  exists a a', conv "Devanagari"%u A s = Ok a /\ conv "Devanagari"%u A' s = Ok a' /\ go src a = go src' a'.
Proof.
  intros src src' tgt s A A' B HA HA' HB HR N1 N2 Hd go.
  destruct (default_independent A B s HA HB HR N1 Hd) as (a & C1 & C2). destruct (default_independent A' B s HA' HB HR N2 Hd) as (a' & D1 & D2).
  exists a, a'. split; [exact C1|]. split; [exact D1|]. subst go. cbv beta.
  rewrite !process_plain by (eapply carried_name; eassumption). fold A A' B. now rewrite C2, D2.
Qed.
End Public.

(** ** The hypotheses can be met *)
Example default_independent_case : let s := "संस्कृतम् अङ्क धर्म"%u in
  carried "IAST"%u s /\ carried "Gujarati"%u s /\ carried "Telugu"%u s /\ In "Telugu"%u GM_ReversibleScripts /\
  conv "Devanagari"%u "Gujarati"%u s = Ok "સંસ્કૃતમ્ અઙ્ક ધર્મ"%u /\
  convert "Gujarati"%u "Telugu"%u "સંસ્કૃતમ્ અઙ્ક ધર્મ"%u true [] [] = Ok "సంస్కృతం అంక ధర్మ"%u /\
  convert "IAST"%u "Telugu"%u "saṃskṛtam aṅka dharma"%u true [] [] = Ok "సంస్కృతం అంక ధర్మ"%u.
Proof.
  intros s.
  assert (G : forall X, mem X GM_ReversibleScripts = true -> forallb (fun y => negb (contains y s)) (lost_in X) = true -> carried X s).
  { intros X HX L. apply carried_indic; [now apply mem_In|vm_compute; reflexivity|]. intros y Hy. rewrite forallb_forall in L. apply negb_true_iff. now apply L. }
  split; [apply (carried_roman _ [] []); [apply (in_eq ("IAST"%u, ([], [])))|vm_compute; reflexivity|intros y []]|].
  split; [apply G; vm_compute; reflexivity|]. split; [apply G; vm_compute; reflexivity|]. split; [apply mem_In; vm_compute; reflexivity|].
  split; [vm_compute; reflexivity|]. split; vm_compute; reflexivity.
Qed.
(** From IAST through HK and Gujarati to Telugu. *)
Example default_chain_case : let s := "संस्कृतम् अङ्क धर्म"%u in
  (forall Y, In Y ["HK"%u; "Gujarati"%u] -> In Y unconventional /\ unmarked_in s Y) /\
  default_chain "IAST"%u ["HK"%u; "Gujarati"%u] "saṃskṛtam aṅka dharma"%u = Ok "સંસ્કૃતમ્ અઙ્ક ધર્મ"%u.
Proof.
  intros s. split; [|vm_compute; reflexivity].
  assert (C : forallb (fun Y => mem Y unconventional && match conv "Devanagari"%u Y s with Ok b => forallb (fun c => negb (existsb (N.eqb c) b)) marks | _ => true end)
    ["HK"%u; "Gujarati"%u] = true) by (vm_compute; reflexivity).
  intros Y HY. rewrite forallb_forall in C. specialize (C Y HY). apply andb_true_iff in C as [C1 C2]. split; [now apply mem_In|].
  intros b E c Hc Hb. rewrite E in C2. rewrite forallb_forall in C2. specialize (C2 c Hc). apply negb_true_iff in C2.
  assert (X : existsb (N.eqb c) b = true) by (apply existsb_exists; exists c; split; [exact Hb|apply N.eqb_refl]). congruence.
Qed.
(** An option that rewrites the result: the reph of Telugu. *)
Example options_independent_case : (forall o, In o switching -> ~ In o ["TeluguReph"%u]) /\
  convert "Gujarati"%u "Telugu"%u "અર્ક ધર્મ"%u false [] ["TeluguReph"%u] = Ok [3077; 3120; 3149; 8205; 3093; 32; 3111; 3120; 3149; 8205; 3118]%N /\
  convert "IAST"%u "Telugu"%u "arka dharma"%u false [] ["TeluguReph"%u] = Ok [3077; 3120; 3149; 8205; 3093; 32; 3111; 3120; 3149; 8205; 3118]%N /\
  conv "IAST"%u "Telugu"%u "arka dharma"%u = Ok "అర్క ధర్మ"%u.
Proof.
  split; [intros o [<-|[<-|[]]] [H|[]]; apply str_eqb_eq in H; vm_compute in H; discriminate H|].
  split; [vm_compute; reflexivity|]. split; vm_compute; reflexivity.
Qed.
