(** * C16, C17, C18, C23: script codes and language codes. *)
From Coq Require Import List NArith ZArith Bool Lia Permutation.
From Verif Require Import PyStr Regex Unicode Prog GMLists GeneralMap Dispatch YamlData Transliterate
  StrFacts SortFacts ConvertFacts ApiFacts.
Import ListNotations.
Local Open Scope list_scope.

(* ------------------------------------------------------------------ *)
(** ** Specification: what a code means *)

(** The script list of the metadata file, the codes of a script. *)
Definition script (name code : str) (lang : option str) : Prop :=
  exists f, In (name, YScript code lang f) yaml_scripts.

(** The population figure of a script: that of its first language, for its code,
    in the second metadata file; 0 if there is none. *)
Definition population (code : str) (lang : option str) : Z :=
  match lang with
  | None => 0
  | Some l => match lookup code yaml_wiki with
              | None => 0
              | Some langs => match lookup (hd [] (split ","%u l)) langs with Some p => p | None => 0 end
              end
  end.

Definition eq_fold (a b : str) : Prop := py_lower a = py_lower b.
Definition latin_code (t : str) : Prop := In (py_lower t) ["latn"%u; "en"%u; "eng"%u].
Definition latin_lang (t : str) : Prop := In (py_lower t) ["la"%u; "en"%u; "eng"%u].
Definition indic_lang (t : str) : Prop := In (py_lower t) ["sa"%u; "san"%u; "pi"%u; "pli"%u].
Definition no_hyphen (t : str) : Prop := contains "-"%u t = false.

(** A script carries a (plain) code. *)
Definition carries (tag name : str) (pop : Z) : Prop :=
  exists code lang, script name code lang /\ eq_fold code tag /\ pop = population code lang.

(** The languages of a script, as listed. *)
Definition listed (t l : str) : Prop := In t (map py_lower (split ","%u l)).

(** The scripts that a script code without (with) a hyphen matches. *)
Definition matches_code (tag name : str) (pop : Z) : Prop :=
  (no_hyphen tag /\ carries tag name pop) \/
  (~ no_hyphen tag /\ pop = 0%Z /\ exists code l, script name code (Some l) /\
     eq_fold code (py_lower (part 1 tag)) /\ listed (py_lower (py_lower (part 0 tag))) l).

(** The greatest figure; among equal figures the greatest name. *)
Definition beats (p : Z * str) (q : Z * str) : Prop :=
  (fst q < fst p)%Z \/ (fst q = fst p /\ (snd p = snd q \/ str_ltb (snd q) (snd p) = true)).
Definition best (has : str -> Z -> Prop) (name : str) : Prop :=
  exists pop, has name pop /\ forall name' pop', has name' pop' -> beats (pop, name) (pop', name').

(** What a script code means: a Latin code stands for ISO, a Latin code with a
    scheme for the scheme; otherwise the most popular script with that code, or,
    with a hyphen, the script with that language and code; otherwise a Semitic
    script of that name. *)
Definition means_script (tag name : str) : Prop :=
  (~ no_hyphen tag /\ latin_code (part 0 tag) /\ name = part 1 tag) \/
  (~ (~ no_hyphen tag /\ latin_code (part 0 tag)) /\
   ((latin_code tag /\ name = "ISO"%u) \/
    (~ latin_code tag /\
     (best (matches_code tag) name \/
      ((forall n p, ~ matches_code tag n p) /\ In tag GM_SemiticScripts /\ name = tag))))).

Definition syre (tag : str) : str := if str_eqb tag "Syrc"%u then "Syre"%u else tag.

(* ------------------------------------------------------------------ *)
(** ** The order *)

Lemma pop_asym : forall a b, pop_ltb a b = true -> pop_ltb b a = false.
Proof.
  intros [x a] [y b]. unfold pop_ltb. cbn [fst snd]. rewrite (Z.eqb_sym y x).
  destruct (Z.eqb_spec x y) as [->|H]; [apply str_ltb_asym|]. rewrite Z.ltb_lt, Z.ltb_ge. lia.
Qed.
Lemma pop_beats : forall a b, pop_ltb a b = false <-> beats a b.
Proof.
  intros [x a] [y b]. unfold pop_ltb, beats. cbn [fst snd].
  destruct (Z.eqb_spec x y) as [->|H].
  - split.
    + intros L. right. split; [reflexivity|]. destruct (str_ltb b a) eqn:E; [now right|left]. now apply str_ltb_total.
    + intros [L|[_ [->|L]]]; [lia|apply str_ltb_irrefl|now apply str_ltb_asym].
  - rewrite Z.ltb_ge. split; [intros; left; lia|]. intros [L|[L _]]; lia.
Qed.
Lemma beats_trans : forall a b c, beats a b -> beats b c -> beats a c.
Proof.
  intros [x a] [y b] [z c]. unfold beats. cbn [fst snd].
  intros [H|[H H']] [K|[K K']]; try (left; lia). right. split; [lia|].
  destruct H' as [->|H'], K' as [->|K']; auto. right. now apply str_ltb_trans with b.
Qed.

Lemma most_popular_spec : forall l,
  match most_popular l with
  | None => l = []
  | Some s => exists p, In (p, s) l /\ forall q, In q l -> beats (p, s) q
  end.
Proof.
  intros l. unfold most_popular.
  set (lt := fun a b => pop_ltb b a).
  assert (A : forall a b, lt a b = true -> lt b a = false) by (intros a b; apply pop_asym).
  assert (T : forall a b c, le lt a b -> le lt b c -> le lt a c).
  { intros a b c. unfold le, lt. rewrite !pop_beats. apply beats_trans. }
  destruct (ssort lt l) as [|[p s] r] eqn:E.
  - apply Permutation_nil. rewrite <- E. apply ssort_perm.
  - destruct (ssort_head lt A T _ _ _ E) as [I M]. exists p. split; [assumption|].
    intros q Hq. destruct (M q Hq) as [H| ->]; [|right; auto]. apply pop_beats. exact H.
Qed.

(* ------------------------------------------------------------------ *)
(** ** Script codes *)

(** The loop, with the language carried over from entry to entry, computes the
    population of the specification for every entry. *)
Fixpoint pops (entries : list (str * yscript)) (lang_tag : option str) : res (list Z) :=
  match entries with
  | [] => Ok []
  | (scrpt, y) :: rest =>
      let lang_tag := match y_lang y with Some l => Some (nth 0 (split ","%u l) []) | None => lang_tag end in
      do population <-
        match lookup (y_script y) yaml_wiki with
        | None => Ok 0%Z
        | Some langs => match lang_tag with None => Err NameError | Some t => Ok (get t langs 0%Z) end
        end;
      do r <- pops rest lang_tag; Ok (population :: r)
  end.

Definition hits (tag : str) (e : str * yscript * Z) : list (Z * str) :=
  let '(scrpt, y, population) := e in
  (if negb (contains "-"%u tag) && str_eqb (py_lower (y_script y)) (py_lower tag) then [(population, scrpt)] else [])
  ++ (if contains "-"%u tag
          && str_eqb (py_lower (y_script y)) (py_lower (py_lower (part 1 tag)))
          && match langs_of y with
             | Some lang => mem (py_lower (py_lower (part 0 tag))) lang
             | None => false
             end then [(0%Z, scrpt)] else []).

Lemma script_loop_eq : forall s t entries lt l src tgt, pops entries lt = Ok l ->
  script_loop s t entries lt src tgt
  = Ok (src ++ flat_map (hits s) (combine entries l), tgt ++ flat_map (hits t) (combine entries l)).
Proof.
  intros s t. induction entries as [|[scrpt y] rest IH]; intros lt l src tgt H.
  - simpl. now rewrite !app_nil_r.
  - cbn [pops] in H. cbn [script_loop].
    set (lt' := match y_lang y with Some l0 => Some (nth 0 (split ","%u l0) []) | None => lt end) in *.
    match type of H with rbind ?x _ = _ => destruct x as [p|]; [|discriminate] end. cbn [rbind] in H |- *.
    destruct (pops rest lt') as [r|] eqn:E; [|discriminate]. cbn [rbind] in H. injection H as <-.
    rewrite (IH lt' r _ _ E). cbn [combine flat_map hits]. now rewrite <- !app_assoc.
Qed.

Definition entry_pops : list Z := map (fun e => population (y_script (snd e)) (y_lang (snd e))) yaml_scripts.
Lemma pops_yaml : pops yaml_scripts None = Ok entry_pops.
Proof. vm_compute. reflexivity. Qed.

Definition script_hits (tag : str) : list (Z * str) := flat_map (hits tag) (combine yaml_scripts entry_pops).

Lemma combine_map : forall A B (f : A -> B) l, combine l (map f l) = map (fun x => (x, f x)) l.
Proof. intros A B f. induction l; simpl; [reflexivity|now f_equal]. Qed.

Lemma script_hits_In : forall tag p s, In (p, s) (script_hits tag) <-> matches_code tag s p.
Proof.
  intros tag p s. unfold script_hits. unfold entry_pops. rewrite combine_map, in_flat_map. unfold matches_code, listed, no_hyphen, carries, script, eq_fold.
  split.
  - intros ([[n y] p0] & I & H). apply in_map_iff in I. destruct I as ([n' y'] & E & I). injection E as -> -> <-.
    unfold hits in H. apply in_app_iff in H. destruct H as [H|H].
    + destruct (contains "-"%u tag) eqn:C; [destruct H|]. destruct (str_eqb _ _) eqn:E; [|destruct H].
      cbn [negb andb] in H. destruct H as [[= <- <-]|[]]. left. split; [reflexivity|].
      apply str_eqb_eq in E. destruct y as [c l f]. exists c, l. split; [now exists f|]. now split.
    + destruct (contains "-"%u tag) eqn:C; [|destruct H]. cbn [andb] in H.
      destruct (str_eqb _ _) eqn:E; [|destruct H]. cbn [andb] in H. apply str_eqb_eq in E.
      destruct y as [c [l|] f]; [|destruct H]. cbn [langs_of y_lang option_map] in H.
      destruct (mem _ _) eqn:M; [|destruct H]. destruct H as [[= <- <-]|[]]. right. split; [discriminate|].
      split; [reflexivity|]. exists c, l. split; [now exists f|]. split; [assumption|]. now apply mem_In.
  - intros [(C & c & l & (f & I) & E & ->)|(C & -> & c & l & (f & I) & E & M)].
    + exists (s, YScript c l f, population c l). split.
      * apply in_map_iff. exists (s, YScript c l f). now split.
      * unfold hits. apply in_or_app. left. cbn [y_script]. rewrite C, E, str_eqb_refl. now left.
    + exists (s, YScript c (Some l) f, population c (Some l)). split.
      * apply in_map_iff. exists (s, YScript c (Some l) f). now split.
      * unfold hits. apply in_or_app. right. cbn [y_script y_lang langs_of option_map].
        rewrite (proj2 (mem_In _ _) M), E, str_eqb_refl. apply not_false_is_true in C. rewrite C. now left.
Qed.

(** The choice made by the code. *)
Definition script_list (tag : str) : list (Z * str) :=
  let latin := ["latn"%u; "en"%u; "eng"%u] in
  let l := if mem (py_lower tag) latin then [(0%Z, "ISO"%u)] else script_hits tag in
  if contains "-"%u tag && mem (py_lower (part 0 tag)) latin then [(0%Z, part 1 tag)] else l.
Definition script_pick (tag msg : str) : res str :=
  match most_popular (script_list tag) with
  | Some s => Ok s
  | None => if mem tag GM_SemiticScripts then Ok tag else Err (UserException (msg ++ tag ++ " not found"%u))
  end.

Section Api.
Variable uname : N -> option str.
Variable uscript : N -> str.
Variable lfind : str -> res str.
Notation process := (process uname uscript lfind).

Lemma process_script_eq : forall src tgt txt n post pre, src <> "autodetect"%u ->
  snd (process src tgt txt n post pre "script_code"%u)
  = rbind (script_pick (syre src) "Source script code: "%u) (fun s =>
    rbind (script_pick (syre tgt) "Target script code: "%u) (fun t =>
    snd (process s t txt n post pre "default"%u))).
Proof.
  intros src tgt txt n post pre H.
  change (process src tgt txt n post pre "script_code"%u) with (process_script_tag uname uscript src tgt txt n post pre).
  unfold process_script_tag. cbv zeta. rewrite !warn_snd.
  match goal with |- context [script_loop ?a ?b _ _ _ _] => set (s' := a); set (t' := b) end.
  assert (A : str_eqb s' "autodetect"%u = false).
  { unfold s'. destruct (str_eqb src "Syrc"%u); [reflexivity|now apply str_eqb_neq]. }
  change (syre src) with s'. change (syre tgt) with t'. clearbody s' t'.
  rewrite (script_loop_eq _ _ _ _ _ _ _ pops_yaml). cbn [app].
  rewrite !warn_snd, A. unfold script_pick, script_list, script_hits.
  match goal with |- snd (match ?a with _ => _ end) = rbind ?b _ => change b with a; destruct a as [s|]; [|reflexivity] end.
  cbn [rbind].
  match goal with |- snd (match ?a with _ => _ end) = rbind ?b _ => change b with a; destruct a as [t|]; [|reflexivity] end.
  cbn [rbind]. now rewrite !warn_snd.
Qed.

End Api.

Lemma latin_mem : forall t, mem (py_lower t) ["latn"%u; "en"%u; "eng"%u] = true <-> latin_code t.
Proof. intros. apply mem_In. Qed.

Lemma best_unique : forall has a b, best has a -> best has b -> a = b.
Proof.
  intros has a b (p & H1 & H2) (q & K1 & K2). specialize (H2 b q K1). specialize (K2 a p H1).
  unfold beats in *. cbn [fst snd] in *. destruct H2 as [H|[H [E|H']]]; [destruct K2 as [K|[K _]]; lia|assumption|].
  destruct K2 as [K|[K [E|K']]]; [lia|now symmetry|]. rewrite (str_ltb_asym _ _ H') in K'. discriminate.
Qed.

Lemma means_unique : forall tag a b, means_script tag a -> means_script tag b -> a = b.
Proof.
  intros tag a b [(H1 & H2 & ->)|(H & H')] [(K1 & K2 & ->)|(K & K')]; try tauto.
  destruct H' as [[L ->]|[L H']], K' as [[M ->]|[M K']]; try tauto.
  destruct H' as [H'|(H1 & H2 & ->)], K' as [K'|(K1 & K2 & ->)]; try reflexivity.
  - eapply best_unique; eassumption.
  - destruct H' as (p & I & _). exfalso. now apply (K1 a p).
  - destruct K' as (p & I & _). exfalso. now apply (H1 b p).
Qed.

Lemma script_pick_spec : forall tag msg,
  match script_pick tag msg with
  | Ok s => means_script tag s
  | Err e => e = UserException (msg ++ tag ++ " not found"%u) /\ ~ exists s, means_script tag s
  end.
Proof.
  intros tag msg. unfold script_pick, script_list. cbv zeta.
  destruct (contains "-"%u tag && mem (py_lower (part 0 tag)) _) eqn:E1.
  - apply andb_true_iff in E1. destruct E1 as [C L]. apply latin_mem in L.
    change (most_popular [(0%Z, part 1 tag)]) with (Some (part 1 tag)). left. unfold no_hyphen. rewrite C. now split.
  - assert (N : ~ (~ no_hyphen tag /\ latin_code (part 0 tag))).
    { intros [C L]. apply not_false_is_true in C. apply latin_mem in L. rewrite C, L in E1. discriminate. }
    destruct (mem (py_lower tag) _) eqn:E2.
    + apply latin_mem in E2. change (most_popular [(0%Z, "ISO"%u)]) with (Some "ISO"%u). right. split; [assumption|].
      now left.
    + assert (L : ~ latin_code tag) by (rewrite <- latin_mem; congruence).
      pose proof (most_popular_spec (script_hits tag)) as M. destruct (most_popular (script_hits tag)) as [s|].
      * right. split; [assumption|]. right. split; [assumption|]. left. destruct M as (p & I & M). exists p.
        split; [now apply script_hits_In|]. intros n' p' H. apply M. now apply script_hits_In.
      * assert (Z : forall n p, ~ matches_code tag n p).
        { intros n p H. apply script_hits_In in H. rewrite M in H. destruct H. }
        destruct (mem tag GM_SemiticScripts) eqn:S.
        -- right. split; [assumption|]. right. split; [assumption|]. right. apply mem_In in S. now split.
        -- split; [reflexivity|]. intros (s & [H|(_ & [H|(_ & [(p & H & _)|(_ & H & _)])])]); try tauto.
           ++ now apply (Z s p).
           ++ apply mem_In in H. congruence.
Qed.

Section Api2.
Variable uname : N -> option str.
Variable uscript : N -> str.
Variable lfind : str -> res str.
Notation process := (process uname uscript lfind).

(** C16: source and target are the scripts that the codes mean. *)
Theorem script_code_resolves : forall src tgt s t txt n post pre, src <> "autodetect"%u ->
  means_script (syre src) s -> means_script (syre tgt) t ->
  snd (process src tgt txt n post pre "script_code"%u) = snd (process s t txt n post pre "default"%u).
Proof.
  intros src tgt s t txt n post pre H S T. rewrite process_script_eq by assumption.
  pose proof (script_pick_spec (syre src) "Source script code: "%u) as PS. destruct (script_pick _ _) as [s'|];
    [|exfalso; apply (proj2 PS); now exists s].
  cbn [rbind]. rewrite (means_unique _ _ _ PS S).
  pose proof (script_pick_spec (syre tgt) "Target script code: "%u) as PT. destruct (script_pick _ _) as [t'|];
    [|exfalso; apply (proj2 PT); now exists t].
  cbn [rbind]. now rewrite (means_unique _ _ _ PT T).
Qed.

(** A code that means nothing raises the 'not found' exception, whatever the text. *)
Theorem script_code_source_not_found : forall src tgt txt n post pre, src <> "autodetect"%u ->
  (~ exists s, means_script (syre src) s) ->
  snd (process src tgt txt n post pre "script_code"%u)
  = Err (UserException ("Source script code: "%u ++ syre src ++ " not found"%u)).
Proof.
  intros src tgt txt n post pre H S. rewrite process_script_eq by assumption.
  pose proof (script_pick_spec (syre src) "Source script code: "%u) as PS. destruct (script_pick _ _) as [s'|e];
    [exfalso; apply S; now exists s'|]. cbn [rbind]. now rewrite (proj1 PS).
Qed.
Theorem script_code_target_not_found : forall src tgt s txt n post pre, src <> "autodetect"%u ->
  means_script (syre src) s -> (~ exists t, means_script (syre tgt) t) ->
  snd (process src tgt txt n post pre "script_code"%u)
  = Err (UserException ("Target script code: "%u ++ syre tgt ++ " not found"%u)).
Proof.
  intros src tgt s txt n post pre H S T. rewrite process_script_eq by assumption.
  pose proof (script_pick_spec (syre src) "Source script code: "%u) as PS. destruct (script_pick _ _) as [s'|];
    [|exfalso; apply (proj2 PS); now exists s]. cbn [rbind].
  pose proof (script_pick_spec (syre tgt) "Target script code: "%u) as PT. destruct (script_pick _ _) as [t'|e];
    [exfalso; apply T; now exists t'|]. cbn [rbind]. now rewrite (proj1 PT).
Qed.

(** C18 for script codes. *)
Corollary latin_code_means_iso : forall t, latin_code t -> no_hyphen t -> means_script t "ISO"%u.
Proof. intros t H C. right. split; [tauto|]. left. now split. Qed.
Corollary latin_scheme : forall t, ~ no_hyphen t -> latin_code (part 0 t) -> means_script t (part 1 t).
Proof. intros t H L. left. now split. Qed.
End Api2.

(** Non-vacuity: 'beng' means Bengali (more speakers than Assamese), 'ur-Arab' Urdu,
    'Ugar' itself, 'xxxx' nothing; 'LATN' and 'en' mean ISO, 'latn-HK' HK. *)
Lemma pick_means : forall tag s, script_pick tag [] = Ok s -> means_script tag s.
Proof. intros tag s H. pose proof (script_pick_spec tag []) as P. now rewrite H in P. Qed.
Example means_script_case :
  means_script "beng"%u "Bengali"%u /\ means_script "ur-Arab"%u "Urdu"%u /\ means_script "Ugar"%u "Ugar"%u /\
  means_script "LATN"%u "ISO"%u /\ means_script "latn-HK"%u "HK"%u /\ (~ exists s, means_script "xxxx"%u s) /\
  carries "beng"%u "Assamese"%u 17239170%Z /\ carries "beng"%u "Bengali"%u 267280377%Z.
Proof.
  do 5 (split; [apply pick_means; vm_compute; reflexivity|]).
  split.
  { pose proof (script_pick_spec "xxxx"%u []) as P.
    assert (E : script_pick "xxxx"%u [] = Err (UserException ("xxxx"%u ++ " not found"%u))) by (vm_compute; reflexivity).
    rewrite E in P. exact (proj2 P). }
  assert (In (17239170%Z, "Assamese"%u) (script_hits "beng"%u) /\ In (267280377%Z, "Bengali"%u) (script_hits "beng"%u)) as [A B].
  { assert (E : script_hits "beng"%u = [(17239170%Z, "Assamese"%u); (267280377%Z, "Bengali"%u)]) by (vm_compute; reflexivity).
    rewrite E. split; [now left|right; now left]. }
  apply script_hits_In in A, B. destruct A as [[_ A]|[A _]]; [|exfalso; apply A; vm_compute; reflexivity].
  destruct B as [[_ B]|[B _]]; [|exfalso; apply B; vm_compute; reflexivity]. now split.
Qed.

(* ------------------------------------------------------------------ *)
(** ** C17: language codes *)

(** The weight of a script for the choice between the scripts of a language: the
    number of languages the second metadata file lists for its code. *)
Definition weight (code : str) : Z :=
  match lookup code yaml_wiki with Some l => Z.of_nat (length l) | None => 1 end.

(** The scripts that a language code matches: those that list it, and, with a
    hyphen, those with that script code that list the part before the hyphen. *)
Definition lists (t : str) (lang : option str) : Prop :=
  match lang with Some l => listed t l | None => t = [] end.
Definition matches_lang (tag name : str) (w : Z) : Prop :=
  exists code lang, script name code lang /\
  ((lists (py_lower tag) lang /\ w = weight code) \/
   (~ no_hyphen tag /\ eq_fold code (part 1 tag) /\ lists (py_lower (part 0 tag)) lang /\ w = 0%Z)).

(** The last script of the metadata file with a code. *)
Definition last_with_code (code name : str) : Prop :=
  exists l1 y l2, yaml_scripts = l1 ++ (name, y) :: l2 /\ eq_fold (y_script y) code /\
  forall n y', In (n, y') l2 -> ~ eq_fold (y_script y') code.

Definition means_lang (tag name : str) : Prop :=
  let h := ~ no_hyphen tag in
  (h /\ latin_lang (part 0 tag) /\ name = part 1 tag) \/
  (~ (h /\ latin_lang (part 0 tag)) /\
   ((latin_lang tag /\ name = "ISO"%u) \/
    (~ latin_lang tag /\
     ((h /\ indic_lang (part 0 tag) /\ last_with_code (part 1 tag) name) \/
      (~ (h /\ indic_lang (part 0 tag) /\ exists n, last_with_code (part 1 tag) n) /\
       ((indic_lang tag /\ name = "Devanagari"%u) \/
        (~ indic_lang tag /\ best (matches_lang tag) name))))))).

Lemma in_lang_lists : forall t y, in_lang t (langs_of y) = true <-> lists t (y_lang y).
Proof.
  intros t [c [l|] f]; unfold in_lang, langs_of, lists; cbn [y_lang option_map]; [apply mem_In|apply str_eqb_eq].
Qed.

Lemma lang_loop_In : forall tag w s, In (w, s) (lang_loop tag) <-> matches_lang tag s w.
Proof.
  intros tag w s. unfold lang_loop. rewrite in_flat_map. unfold matches_lang, script, eq_fold, no_hyphen, weight. split.
  - intros ([n y] & I & H). apply in_app_iff in H. destruct H as [H|H].
    + destruct (in_lang _ _) eqn:E; [|destruct H]. destruct H as [[= <- <-]|[]]. apply in_lang_lists in E.
      destruct y as [c l f]. exists c, l. split; [now exists f|]. left. now split.
    + destruct (contains _ _) eqn:C; [|destruct H]. destruct (str_eqb _ _) eqn:E; [|destruct H].
      destruct (in_lang _ _) eqn:L; [|destruct H]. destruct H as [[= <- <-]|[]]. apply in_lang_lists in L.
      apply str_eqb_eq in E. destruct y as [c l f]. exists c, l. split; [now exists f|]. right.
      split; [discriminate|]. now split.
  - intros (c & l & (f & I) & H). exists (s, YScript c l f). split; [assumption|]. apply in_app_iff.
    destruct H as [[H ->]|(C & E & L & ->)].
    + left. rewrite (proj2 (in_lang_lists _ (YScript c l f)) H). now left.
    + right. apply not_false_is_true in C. rewrite C. cbn [y_script]. rewrite E, str_eqb_refl.
      rewrite (proj2 (in_lang_lists _ (YScript c l f)) L). now left.
Qed.

(** The loop that takes the last entry with a code. *)
Lemma last_loop : forall (code : str) (entries : list (str * yscript)) (acc : list (Z * str)),
  let r := fold_left (fun acc '(scrpt, y) => if str_eqb (py_lower (y_script y)) code then [(0%Z, scrpt)] else acc)
             entries acc in
  (exists l1 n y l2, entries = l1 ++ (n, y) :: l2 /\ py_lower (y_script y) = code /\
     (forall n' y', In (n', y') l2 -> py_lower (y_script y') <> code) /\ r = [(0%Z, n)]) \/
  ((forall n y, In (n, y) entries -> py_lower (y_script y) <> code) /\ r = acc).
Proof.
  intros code. induction entries as [|[n y] rest IH]; intros acc; [right; now split|].
  cbn [fold_left]. specialize (IH (if str_eqb (py_lower (y_script y)) code then [(0%Z, n)] else acc)).
  destruct IH as [(l1 & n1 & y1 & l2 & E & H)|[H H']].
  - left. exists ((n, y) :: l1), n1, y1, l2. subst rest. now split.
  - destruct (str_eqb (py_lower (y_script y)) code) eqn:E.
    + apply str_eqb_eq in E. left. exists [], n, y, rest. split; [reflexivity|]. now split.
    + apply str_eqb_neq in E. right. split; [|assumption]. intros n' y' [[= <- <-]|I]; [assumption|]. now apply (H n').
Qed.

Lemma last_code_unique : forall code a b, last_with_code code a -> last_with_code code b -> a = b.
Proof.
  intros code a b (l1 & y & l2 & E & C & N) (m1 & z & m2 & F & D & M). rewrite E in F. clear E.
  revert m1 F. induction l1 as [|[n x] l1 IH]; intros [|[n' x'] m1] F; cbn [app] in F.
  - congruence.
  - injection F as -> -> F. exfalso. apply (N b z); [|assumption]. rewrite F. apply in_or_app. right. now left.
  - injection F as -> -> F. exfalso. apply (M a y); [|assumption]. rewrite <- F. apply in_or_app. right. now left.
  - injection F as -> -> F. now apply IH with m1.
Qed.

Lemma means_lang_unique : forall tag a b, means_lang tag a -> means_lang tag b -> a = b.
Proof.
  intros tag a b. unfold means_lang. cbv zeta.
  intros [(H1 & H2 & ->)|(H & H')] [(K1 & K2 & ->)|(K & K')]; try tauto.
  destruct H' as [[L ->]|[L H']], K' as [[M ->]|[M K']]; try tauto.
  destruct H' as [(H1 & H2 & H3)|(HN & H')], K' as [(K1 & K2 & K3)|(KN & K')].
  - eapply last_code_unique; eassumption.
  - exfalso. apply KN. split; [assumption|]. split; [assumption|]. now exists a.
  - exfalso. apply HN. split; [assumption|]. split; [assumption|]. now exists b.
  - destruct H' as [[I ->]|[I H']], K' as [[J ->]|[J K']]; try tauto. eapply best_unique; eassumption.
Qed.

Lemma mem_iff : forall t l, mem t l = true <-> In t l. Proof. exact mem_In. Qed.

Lemma lang_pick_spec : forall tag,
  match most_popular (lang_special tag (lang_loop tag)) with
  | Some s => means_lang tag s
  | None => ~ exists s, means_lang tag s
  end.
Proof.
  intros tag. unfold lang_special. cbv zeta.
  destruct (contains "-"%u tag && mem (py_lower (part 0 tag)) latin_langs) eqn:E1.
  { apply andb_true_iff in E1. destruct E1 as [C L]. apply mem_In in L.
    change (most_popular [(0%Z, part 1 tag)]) with (Some (part 1 tag)). left. unfold no_hyphen. rewrite C. now split. }
  assert (N1 : ~ (~ no_hyphen tag /\ latin_lang (part 0 tag))).
  { intros [C L]. apply not_false_is_true in C. apply mem_In in L. unfold latin_langs in E1. rewrite C, L in E1. discriminate. }
  destruct (mem (py_lower tag) latin_langs) eqn:E2.
  { apply mem_In in E2. change (most_popular [(0%Z, "ISO"%u)]) with (Some "ISO"%u). right. split; [assumption|]. now left. }
  assert (N2 : ~ latin_lang tag) by (unfold latin_lang; rewrite <- mem_iff; unfold latin_langs in E2; congruence).
  set (l := if mem (py_lower tag) agnostic then [(0%Z, "Devanagari"%u)] else lang_loop tag).
  assert (F : ~ (~ no_hyphen tag /\ indic_lang (part 0 tag) /\ exists n, last_with_code (part 1 tag) n) ->
    match most_popular l with Some s => means_lang tag s | None => ~ exists s, means_lang tag s end).
  { intros N3. unfold l. destruct (mem (py_lower tag) agnostic) eqn:E3.
    - apply mem_In in E3. change (most_popular [(0%Z, "Devanagari"%u)]) with (Some "Devanagari"%u).
      right. split; [assumption|]. right. split; [assumption|]. right. split; [assumption|]. now left.
    - assert (N4 : ~ indic_lang tag) by (unfold indic_lang; rewrite <- mem_iff; unfold agnostic in E3; congruence).
      pose proof (most_popular_spec (lang_loop tag)) as M. destruct (most_popular (lang_loop tag)) as [s|].
      + right. split; [assumption|]. right. split; [assumption|]. right. split; [assumption|]. right.
        split; [assumption|]. destruct M as (p & I & M). exists p.
        split; [now apply lang_loop_In|]. intros n' p' H. apply M. now apply lang_loop_In.
      + unfold means_lang. cbv zeta.
        intros (s & [H|(_ & [H|(_ & [(H1 & H2 & H3)|(_ & [H|(_ & (p & H & _))])])])]); try tauto.
        * apply N3. split; [assumption|]. split; [assumption|]. now exists s.
        * apply lang_loop_In in H. rewrite M in H. destruct H. }
  destruct (contains "-"%u tag && mem (py_lower (part 0 tag)) agnostic) eqn:E3.
  - apply andb_true_iff in E3. destruct E3 as [C A]. apply mem_In in A.
    pose proof (last_loop (py_lower (part 1 tag)) yaml_scripts l) as LL. cbv zeta in LL.
    destruct LL as [(l1 & n & y & l2 & E & D & D' & R)|[D R]]; rewrite R.
    + change (most_popular [(0%Z, n)]) with (Some n). right. split; [assumption|]. right. split; [assumption|]. left.
      unfold no_hyphen. rewrite C. split; [discriminate|]. split; [assumption|]. exists l1, y, l2. now split.
    + apply F. intros (_ & _ & n & l1 & y & l2 & E & H & _). apply (D n y); [|assumption].
      rewrite E. apply in_or_app. right. now left.
  - apply F. intros (C & A & _). apply not_false_is_true in C. apply mem_In in A. unfold agnostic in E3.
    rewrite C, A in E3. discriminate.
Qed.

Section Api3.
Variable uname : N -> option str.
Variable uscript : N -> str.
Variable lfind : str -> res str.
Notation process := (process uname uscript lfind).

Lemma process_lang_eq : forall src tgt txt n post pre, src <> "autodetect"%u ->
  snd (process src tgt txt n post pre "lang_code"%u)
  = match most_popular (lang_special src (lang_loop src)) with
    | None => Err (UserException ("Source language code: "%u ++ src ++ " not found"%u))
    | Some s =>
        match most_popular (lang_special tgt (lang_loop tgt)) with
        | None => Err (UserException ("Target language code: "%u ++ tgt ++ " not found"%u))
        | Some t => snd (process s t txt n post pre "default"%u)
        end
    end.
Proof.
  intros src tgt txt n post pre H.
  change (process src tgt txt n post pre "lang_code"%u) with (process_lang_tag uname uscript src tgt txt n post pre).
  unfold process_lang_tag. cbv zeta. rewrite !warn_snd, (proj2 (str_eqb_neq _ _) H).
  destruct (most_popular _); [|reflexivity]. destruct (most_popular _); [|reflexivity]. now rewrite !warn_snd.
Qed.

Theorem lang_code_resolves : forall src tgt s t txt n post pre, src <> "autodetect"%u ->
  means_lang src s -> means_lang tgt t ->
  snd (process src tgt txt n post pre "lang_code"%u) = snd (process s t txt n post pre "default"%u).
Proof.
  intros src tgt s t txt n post pre H S T. rewrite process_lang_eq by assumption.
  pose proof (lang_pick_spec src) as PS. destruct (most_popular _) as [s'|]; [|exfalso; apply PS; now exists s].
  rewrite (means_lang_unique _ _ _ PS S).
  pose proof (lang_pick_spec tgt) as PT. destruct (most_popular _) as [t'|]; [|exfalso; apply PT; now exists t].
  now rewrite (means_lang_unique _ _ _ PT T).
Qed.
Theorem lang_code_source_not_found : forall src tgt txt n post pre, src <> "autodetect"%u ->
  (~ exists s, means_lang src s) ->
  snd (process src tgt txt n post pre "lang_code"%u)
  = Err (UserException ("Source language code: "%u ++ src ++ " not found"%u)).
Proof.
  intros src tgt txt n post pre H S. rewrite process_lang_eq by assumption.
  pose proof (lang_pick_spec src) as PS. destruct (most_popular _) as [s'|]; [exfalso; apply S; now exists s'|reflexivity].
Qed.
Theorem lang_code_target_not_found : forall src tgt s txt n post pre, src <> "autodetect"%u ->
  means_lang src s -> (~ exists t, means_lang tgt t) ->
  snd (process src tgt txt n post pre "lang_code"%u)
  = Err (UserException ("Target language code: "%u ++ tgt ++ " not found"%u)).
Proof.
  intros src tgt s txt n post pre H S T. rewrite process_lang_eq by assumption.
  pose proof (lang_pick_spec src) as PS. destruct (most_popular _) as [s'|]; [|exfalso; apply PS; now exists s].
  pose proof (lang_pick_spec tgt) as PT. destruct (most_popular _) as [t'|]; [exfalso; apply T; now exists t'|reflexivity].
Qed.

(** A code that a script lists is found, and what it means is a script that lists
    it, or, for Latin and the script-agnostic languages, the default. *)
Theorem listed_lang_found : forall tag name code l, script name code (Some l) -> listed (py_lower tag) l ->
  no_hyphen tag -> ~ latin_lang tag -> ~ indic_lang tag ->
  exists s c k, means_lang tag s /\ script s c (Some k) /\ listed (py_lower tag) k.
Proof.
  intros tag name code l S L H N1 N2.
  assert (I : In (weight code, name) (lang_loop tag)).
  { apply lang_loop_In. exists code, (Some l). split; [assumption|]. left. now split. }
  pose proof (most_popular_spec (lang_loop tag)) as M. destruct (most_popular (lang_loop tag)) as [s|];
    [|rewrite M in I; destruct I].
  destruct M as (p & J & M). pose proof J as J'. apply lang_loop_In in J'.
  destruct J' as (c & k & Sc & [[K _]|[K _]]); [|now elim K].
  destruct k as [k|].
  - exists s, c, k. split; [|now split]. unfold means_lang. cbv zeta. right. split; [tauto|]. right. split; [assumption|].
    right. split; [tauto|]. right. split; [assumption|]. exists p. split; [now apply lang_loop_In|].
    intros n' p' Q. apply M. now apply lang_loop_In.
  - cbn [lists] in K. exfalso. rewrite K in L. unfold listed in L.
    assert (Z : forallb (fun e => match y_lang (snd e) with
       | Some l => negb (mem [] (map py_lower (split ","%u l))) | None => true end) yaml_scripts = true) by (vm_compute; reflexivity).
    rewrite forallb_forall in Z. destruct S as [f S]. specialize (Z _ S). cbn [snd y_lang] in Z.
    apply mem_In in L. rewrite L in Z. discriminate.
Qed.

(** C23 for codes: the detected script, and no pre-option at all. *)
Theorem autodetect_script_code : forall tgt t txt n post pre s, auto_detect uname uscript txt false = Ok s ->
  means_script (syre tgt) t ->
  snd (process "autodetect"%u tgt txt n post pre "script_code"%u)
  = snd (process_default uname uscript s t txt n post []).
Proof.
  intros tgt t txt n post pre s D T.
  change (process "autodetect"%u tgt txt n post pre "script_code"%u)
    with (process_script_tag uname uscript "autodetect"%u tgt txt n post pre).
  unfold process_script_tag. cbv zeta. rewrite !warn_snd.
  match goal with |- context [script_loop ?a ?b _ _ _ _] => change a with "autodetect"%u; set (t' := b) end.
  change (syre tgt) with t' in T. clearbody t'.
  rewrite (script_loop_eq _ _ _ _ _ _ _ pops_yaml). cbn [app]. rewrite !warn_snd.
  rewrite str_eqb_refl, D. cbn [rbind]. change (most_popular [(0%Z, s)]) with (Some s). cbv beta iota.
  pose proof (script_pick_spec t' "Target script code: "%u) as PT. unfold script_pick, script_list, script_hits in PT.
  match goal with |- snd (match ?a with _ => _ end) = _ =>
    match type of PT with match ?b with _ => _ end => change b with a in PT; destruct a as [t2|] end end;
    [|exfalso; apply (proj2 PT); now exists t].
  rewrite !warn_snd. now rewrite (means_unique _ _ _ PT T).
Qed.
Theorem autodetect_lang_code : forall tgt t txt n post pre s, auto_detect uname uscript txt false = Ok s ->
  means_lang tgt t ->
  snd (process "autodetect"%u tgt txt n post pre "lang_code"%u)
  = snd (process_default uname uscript s t txt n post []).
Proof.
  intros tgt t txt n post pre s D T.
  change (process "autodetect"%u tgt txt n post pre "lang_code"%u)
    with (process_lang_tag uname uscript "autodetect"%u tgt txt n post pre).
  unfold process_lang_tag. cbv zeta. rewrite !warn_snd. rewrite str_eqb_refl, D. cbn [rbind].
  change (most_popular [(0%Z, s)]) with (Some s). cbv beta iota.
  pose proof (lang_pick_spec tgt) as PT. destruct (most_popular _) as [t'|]; [|exfalso; apply PT; now exists t].
  rewrite !warn_snd. now rewrite (means_lang_unique _ _ _ PT T).
Qed.
End Api3.

(** C17 as stated is false: Tamil lists "ta, tam"; the blank after the comma makes
    the second code unknown. *)
Theorem lang_code_listed_refuted : exists name code l tag,
  script name code (Some l) /\ l = "ta, "%u ++ tag /\ ~ exists s, means_lang tag s.
Proof.
  exists "Tamil"%u, "Taml"%u, "ta, tam"%u, "tam"%u. split; [|split; [reflexivity|]].
  - exists false.
    assert (E : lookup "Tamil"%u yaml_scripts = Some (YScript "Taml"%u (Some "ta, tam"%u) false)) by (vm_compute; reflexivity).
    now apply lookup_In in E.
  - pose proof (lang_pick_spec "tam"%u) as P.
    assert (E : most_popular (lang_special "tam"%u (lang_loop "tam"%u)) = None) by (vm_compute; reflexivity).
    now rewrite E in P.
Qed.

Lemma lang_pick_means : forall tag s, most_popular (lang_special tag (lang_loop tag)) = Some s -> means_lang tag s.
Proof. intros tag s H. pose proof (lang_pick_spec tag) as P. now rewrite H in P. Qed.
Example means_lang_case :
  means_lang "TA"%u "Tamil"%u /\ means_lang "sa"%u "Devanagari"%u /\ means_lang "sa-Gran"%u "Grantha"%u /\
  means_lang "la-HK"%u "HK"%u /\ means_lang "en"%u "ISO"%u /\ means_lang "pa-Guru"%u "Gurmukhi"%u.
Proof. repeat match goal with |- _ /\ _ => split end; apply lang_pick_means; vm_compute; reflexivity. Qed.

(** C18 for language codes, in all spellings of case. *)
Corollary latin_lang_means_iso : forall t, latin_lang t -> no_hyphen t -> means_lang t "ISO"%u.
Proof. intros t H C. right. split; [tauto|]. left. now split. Qed.
Corollary latin_lang_scheme : forall t, ~ no_hyphen t -> latin_lang (part 0 t) -> means_lang t (part 1 t).
Proof. intros t H L. left. now split. Qed.
Corollary sanskrit_means_devanagari : forall t, indic_lang t -> no_hyphen t -> means_lang t "Devanagari"%u.
Proof.
  intros t H C.
  assert (L : ~ latin_lang t).
  { unfold latin_lang. unfold indic_lang in H. repeat (destruct H as [<-|H]; [intros K; apply mem_In in K; discriminate|]).
    destruct H. }
  right. split; [tauto|]. right. split; [assumption|]. right. split; [tauto|]. now left.
Qed.

(** An empty language code is taken for every script without languages: it does
    not raise. *)
Theorem empty_lang_code_refuted : exists s, means_lang [] s.
Proof.
  destruct (most_popular (lang_special [] (lang_loop []))) as [s|] eqn:E.
  - exists s. now apply lang_pick_means.
  - vm_compute in E. discriminate.
Qed.
