(** * No exception escapes a conversion between listed scripts (property C08). *)
From Coq Require Import List NArith ZArith Bool Lia.
From Verif Require Import PyStr StrFacts Regex Unicode Prog GMLists GeneralMap FixNum
  PostProcess1 ConvertFix1 PreProcess1 PostProcess2 GimelData Gimeltra Convert Dispatch YamlData Transliterate Safe TableFacts.
Import ListNotations.

Definition is_ok {A} (r : res A) : bool := match r with Ok _ => true | Err _ => false end.

(** ** Composing *)
Lemma ro_foreach : forall (A : Type) k (l : list A) f, (forall x, In x l -> raises_only k (f x)) -> raises_only k (foreach l f).
Proof.
  intros A k l f H. unfold foreach. induction l as [|x l IH]; cbn [flat_map]; [apply ro_nil|].
  apply ro_app; [apply H; now left|apply IH; intros y Hy; apply H; now right].
Qed.
Lemma ro_withS : forall (A : Type) k (r : res A) f a, r = Ok a -> raises_only k (f a) -> raises_only k (withS r f).
Proof. intros A k r f a -> H. exact H. Qed.
Lemma ro_withS_all : forall (A : Type) k (r : res A) f, is_ok r = true -> (forall a, r = Ok a -> raises_only k (f a)) -> raises_only k (withS r f).
Proof. intros A k [a|e] f H G; [now apply G|discriminate]. Qed.
Lemma ro_replaces : forall k l, raises_only k (replace_all l).
Proof.
  intros k l s e H. exfalso. revert s H. unfold replace_all. induction l as [|[x y] l IH]; intros s H; [discriminate|].
  cbn [map run run_op] in H. eauto.
Qed.
Lemma ro_Replace : forall k x y, raises_only k [Replace x y].
Proof. intros k x y s e H. discriminate. Qed.
Lemma ro_withS_any : forall (A : Type) k (r : res A) f, is_ok r = true -> (forall a, raises_only k (f a)) -> raises_only k (withS r f).
Proof. intros A k [a|e] f H G; [now apply G|discriminate]. Qed.

(** A closed program. *)
Ltac leaf := apply safe_sound; vm_compute; reflexivity.
Ltac in_list H := revert H; apply forallb_forall; vm_compute; reflexivity.
Ltac by_script H f := apply safe_sound; let E := fresh in
  assert (E : f = true) by (in_list H); exact E.

(** The scripts: everything in the lists except the two whose numerals are computed, and the
    name RomanLoC, which stands for a scheme chosen by the other script. *)
Definition ind : list str := filter (fun s => negb (mem s ["Kharoshthi"%u; "OldPersian"%u])) GM_IndicScripts.
Definition lat : list str := filter (fun s => negb (str_eqb s "RomanLoC"%u)) GM_LatinScripts.

(** ** om *)
Definition has_groups (p : str) (g : nat) : bool := match compile p with Some (_, g') => Nat.eqb g g' | None => false end.
Definition fits (g : nat) (t : str) : bool := match parse_template (S (length t)) g t with Some _ => true | None => false end.
Lemma ro_ReSub_fits : forall k p t g, has_groups p g = true -> fits g t = true -> raises_only k [ReSub p t].
Proof.
  intros k p t g Hg Ht. apply ro_ReSub. unfold re_sub, has_groups, fits in *. destruct (compile p) as [[r g']|]; [|discriminate].
  apply Nat.eqb_eq in Hg as <-. now destruct (parse_template _ g t).
Qed.
Definition om_source (punc sOm : str) : bool :=
  has_groups (punc ++ sOm ++ punc) 2 && has_groups ("^"%u ++ sOm ++ punc) 1
  && has_groups (punc ++ sOm ++ "$"%u) 1 && has_groups ("^"%u ++ sOm ++ "$"%u) 0.
Definition om_target (tOm : str) : bool :=
  fits 2 ("\1"%u ++ tOm ++ "\2"%u) && fits 1 (tOm ++ "\1"%u) && fits 1 ("\1"%u ++ tOm) && fits 0 tOm.
Lemma ro_om : forall k punc sOm tOm, om_source punc sOm = true -> om_target tOm = true -> raises_only k (om_subs punc sOm tOm).
Proof.
  intros k punc sOm tOm HS HT. unfold om_source, om_target in *. rewrite !andb_true_iff in *.
  destruct HS as [[[S1 S2] S3] S4], HT as [[[T1 T2] T3] T4]. unfold om_subs.
  repeat (apply ro_cons; [eapply ro_ReSub_fits; eassumption|]). apply ro_nil.
Qed.

(** ** The four conversions between Brahmic scripts and romanizations *)
Definition ind_source (s : str) : bool :=
  safe no_exn (CF_ShiftDiacritics s true) && safe no_exn [Try is_AttributeError (CF_getattr_reverse ("Fix"%u ++ s))]
  && match CrunchSymbols GM_Signs s, first_of "OmMap"%u s with
     | Ok signs, Ok sOm => om_source (om_punc signs) sOm
     | _, _ => false
     end.
Definition lat_source (s : str) : bool :=
  safe no_exn [Try is_AttributeError (CF_getattr_reverse ("Fix"%u ++ s))]
  && safe no_exn (CF_VedicSvarasLatinIndic s)
  && is_ok (CrunchSymbols ScriptAllParts s)
  && match CrunchSymbols GM_Signs s, first_of "OmMap"%u s with
     | Ok signs, Ok sOm => om_source (om_punc signs) sOm && om_source "(\s)"%u sOm
     | _, _ => false
     end.
Definition ind_target (t : str) : bool :=
  match first_of "OmMap"%u t with Ok tOm => om_target tOm | _ => false end
  && is_ok (first_of "ViramaMap"%u t)
  && match CrunchSymbols GM_Vowels t with Ok vowels => is_ok (idx vowels 2%Z) && is_ok (idx vowels 4%Z) | _ => false end
  && safe no_exn (CF_FixIndicOutput [] t).
Definition lat_target (t : str) : bool :=
  is_ok (first_of "OmMap"%u t) && is_ok (CrunchSymbols ScriptAllParts t) && safe no_exn (CF_FixRomanOutput t) && safe no_exn (CF_FixVedic t).

Lemma ind_sources : forall s, In s ind -> ind_source s = true.
Proof. apply forallb_forall. vm_compute. reflexivity. Qed.
Lemma lat_sources : forall s, In s lat -> lat_source s = true.
Proof. apply forallb_forall. vm_compute. reflexivity. Qed.
Lemma ind_targets : forall s, In s ind -> ind_target s = true.
Proof. apply forallb_forall. vm_compute. reflexivity. Qed.
Lemma lat_targets : forall s, In s lat -> lat_target s = true.
Proof. apply forallb_forall. vm_compute. reflexivity. Qed.

Lemma in_ind : forall s, In s ind -> In s GM_IndicScripts.
Proof. unfold ind. intros s H. apply filter_In in H as [H _]. exact H. Qed.
Lemma in_lat : forall s, In s lat -> In s GM_LatinScripts /\ s <> "RomanLoC"%u.
Proof.
  unfold lat. intros s H. apply filter_In in H as [H N]. split; [exact H|]. intros ->. now rewrite str_eqb_refl in N.
Qed.
Lemma ind_or_lat : forall s, In s (ind ++ lat) -> In s (GM_IndicScripts ++ GM_LatinScripts) /\ s <> "RomanLoC"%u.
Proof.
  intros s H. split.
  - apply in_or_app. apply in_app_or in H as [H|H]; [left; now apply in_ind|right; now apply in_lat].
  - intros ->. revert H. assert (C : mem "RomanLoC"%u (ind ++ lat) = false) by (vm_compute; reflexivity).
    rewrite <- mem_In, C. discriminate.
Qed.

Lemma ro_pairs : forall k fs ft S T f, In S (ind ++ lat) -> In T (ind ++ lat) ->
  (forall pairs, raises_only k (f pairs)) -> raises_only k (withS (charPairs fs ft S T) f).
Proof.
  intros k fs ft S T f HS HT H. apply ind_or_lat in HS as [HS HS'], HT as [HT HT'].
  destruct (zipped_defined S T fs ft HS HS' HT HT') as [z Z]. destruct (charPairs_ok _ _ _ _ _ Z) as (pairs & E & _).
  now apply ro_withS with pairs.
Qed.

Lemma ro_inter : forall k S, is_ok (CrunchSymbols ScriptAllParts S) = true -> raises_only k (convertInter S).
Proof.
  intros k S H. unfold convertInter. apply ro_withS_any; [assumption|]. intros s.
  apply ro_withS_any; [vm_compute; reflexivity|]. intros t. apply ro_replaces.
Qed.

Ltac bools := repeat match goal with H : _ && _ = true |- _ => apply andb_true_iff in H as [? ?] end.
Ltac oks := repeat match goal with
  | H : match ?r with Ok _ => _ | Err _ => false end = true |- _ =>
      let E := fresh "E" in destruct r eqn:E; [|discriminate H]
  end.

Theorem ro_indic_indic : forall S T, In S ind -> In T ind -> raises_only no_exn (indic_indic S T).
Proof.
  intros S T HS HT. pose proof (ind_sources S HS) as A. pose proof (ind_targets T HT) as B.
  unfold indic_indic. unfold ind_source, ind_target in *. bools. oks.
  apply ro_app; [leaf|]. apply ro_app; [now apply safe_sound|]. apply ro_app; [now apply safe_sound|].
  apply ro_app.
  { cbn [withS]. apply ro_if; [apply ro_Replace|now apply ro_om]. }
  apply ro_app; [apply ro_pairs; try (apply in_or_app; now left); intros; apply ro_replaces|].
  now apply safe_sound.
Qed.

Theorem ro_latin_indic : forall S T, In S lat -> In T ind -> raises_only no_exn (latin_indic S T).
Proof.
  intros S T HS HT. pose proof (lat_sources S HS) as A. pose proof (ind_targets T HT) as B.
  unfold latin_indic. unfold lat_source, ind_target in *. bools. oks. bools.
  apply ro_app; [now apply safe_sound|]. apply ro_app; [apply ro_if; leaf|]. apply ro_app; [leaf|].
  apply ro_app; [now apply safe_sound|].
  apply ro_app; [cbn [withS]; apply ro_app; now apply ro_om|].
  apply ro_app; [now apply ro_inter|].
  apply ro_app; [leaf|]. apply ro_app; [leaf|].
  apply ro_app.
  { apply ro_withS_any; [vm_compute; reflexivity|]. intros _. apply ro_pairs.
    - apply mem_In. vm_compute. reflexivity.
    - apply in_or_app. now left.
    - intros. apply ro_replaces. }
  apply ro_app.
  { cbn [withS]. apply ro_withS_any; [assumption|]. intros v2. apply ro_withS_any; [assumption|]. intros v4.
    apply ro_cons; apply ro_Replace. }
  apply ro_app.
  { apply ro_withS_any; [assumption|]. intros vir. apply ro_cons; apply ro_Replace. }
  now apply safe_sound.
Qed.

Ltac pieces := repeat lazymatch goal with
  | |- raises_only _ (_ ++ _) => apply ro_app
  | |- raises_only _ (if _ then _ else _) => apply ro_if
  | |- raises_only _ [IfIn _ _ _] => apply ro_IfIn
  end.

Lemma ro_PostFixRoman : forall S T, In T lat -> raises_only no_exn (CF_PostFixRomanOutput S T).
Proof.
  intros S T HT. pose proof (lat_targets T HT) as B. unfold lat_target in B. bools.
  unfold CF_PostFixRomanOutput. pieces; lazymatch goal with |- raises_only _ (CF_FixVedic _) => now apply safe_sound | |- _ => leaf end.
Qed.

Theorem ro_latin_latin : forall S T, In S lat -> In T lat -> raises_only no_exn (latin_latin S T).
Proof.
  intros S T HS HT. pose proof (lat_sources S HS) as A. pose proof (lat_targets T HT) as B.
  unfold lat_source, lat_target in *. bools. unfold latin_latin.
  apply ro_app; [now apply safe_sound|]. apply ro_app; [now apply ro_inter|].
  apply ro_app; [|now apply ro_PostFixRoman].
  apply ro_withS_any; [vm_compute; reflexivity|]. intros s. apply ro_withS_any; [assumption|]. intros t. apply ro_replaces.
Qed.

(** The consonants of RomanSemitic are replaced through regular expressions. *)
Definition semitic_pairs (T : str) : prog :=
  let! pairs := charPairs id_side
    (fun g x => if str_eqb g "Consonants"%u then x ++ Schwa
                else if str_eqb g "Vowels"%u then DepV ++ x else x) "RomanSemitic"%u T in
  let unasp := ["k"%u; "g"%u; "c"%u; "j"%u; "t"%u; "d"%u; "p"%u; "b"%u; "ɽ"%u; "ʈ"%u; "ɖ"%u; "r"%u] in
  let hasH := fun p : str * str => contains "ʰ"%u (fst p) in
  foreach (filter (fun p => negb (hasH p)) pairs ++ filter hasH pairs) (fun '(x, y) =>
    if mem x unasp then [ReSub (x ++ "(?!(ʰ|"%u ++ [0x324%N] ++ "))"%u) y] else [Replace x y]).
Lemma semitic_pairs_safe : forall T, In T lat -> safe no_exn (semitic_pairs T) = true.
Proof. apply forallb_forall. vm_compute. reflexivity. Qed.

Theorem ro_indic_latin : forall S T, In S ind -> In T lat -> raises_only no_exn (indic_latin S T).
Proof.
  intros S T HS HT. pose proof (ind_sources S HS) as A. pose proof (lat_targets T HT) as B.
  unfold indic_latin. unfold ind_source, lat_target in *. bools. oks. bools.
  apply ro_app; [leaf|]. apply ro_app; [now apply safe_sound|]. apply ro_app; [now apply safe_sound|].
  apply ro_app.
  { cbn [withS]. apply ro_withS_any; [assumption|]. intros tOm. apply ro_Replace. }
  apply ro_app.
  { destruct (str_eqb S "RomanSemitic"%u) eqn:E1.
    - apply str_eqb_eq in E1 as ->. apply safe_sound. exact (semitic_pairs_safe T HT).
    - apply ro_pairs; [apply in_or_app; now left|apply in_or_app; now right|]. intros. apply ro_replaces. }
  apply ro_app; [now apply safe_sound|]. apply ro_app; [leaf|]. now apply ro_PostFixRoman.
Qed.

Lemma ro_default : raises_only no_exn (PP_default []).
Proof. leaf. Qed.

Lemma list_imp : forall (l A B : list str), forallb (fun s => implb (mem s A) (mem s B)) l = true ->
  forall s, In s l -> mem s A = true -> In s B.
Proof.
  intros l A B C s H M. rewrite forallb_forall in C. specialize (C s H). rewrite M in C. apply mem_In. exact C.
Qed.
Definition listed : list str := ind ++ lat ++ GM_SemiticScripts.
Lemma listed_ind : forall s, In s listed -> mem s GM_IndicScripts = true -> In s ind.
Proof. apply list_imp. vm_compute. reflexivity. Qed.
Lemma listed_lat : forall s, In s listed -> mem s GM_LatinScripts = true -> In s lat.
Proof. apply list_imp. vm_compute. reflexivity. Qed.

Lemma ro_branch : forall S T p, In S listed -> In T listed ->
  convert_branch S T = Some p -> raises_only no_exn p.
Proof.
  intros S T p HS HT. unfold convert_branch.
  pose proof (listed_ind S HS) as SI. pose proof (listed_lat S HS) as SL. pose proof (listed_ind T HT) as TI. pose proof (listed_lat T HT) as TL.
  destruct (mem S GM_LatinScripts && mem T GM_IndicScripts) eqn:E1.
  { apply andb_true_iff in E1 as [? ?]. intros E. assert (p = latin_indic S T) as -> by congruence. apply ro_latin_indic; [apply SL|apply TI]; assumption. }
  destruct (mem S GM_LatinScripts && mem T GM_LatinScripts) eqn:E2.
  { apply andb_true_iff in E2 as [? ?]. intros E. assert (p = latin_latin S T) as -> by congruence. apply ro_latin_latin; [apply SL|apply TL]; assumption. }
  destruct (mem S GM_IndicScripts && mem T GM_IndicScripts) eqn:E3.
  { apply andb_true_iff in E3 as [? ?]. intros E. assert (p = indic_indic S T) as -> by congruence. apply ro_indic_indic; [apply SI|apply TI]; assumption. }
  destruct (mem S GM_IndicScripts && mem T GM_LatinScripts) eqn:E4.
  { apply andb_true_iff in E4 as [? ?]. intros E. assert (p = indic_latin S T) as -> by congruence. apply ro_indic_latin; [apply SI|apply TL]; assumption. }
  discriminate.
Qed.

(** ** Semitic scripts *)
Definition sem_source (s : str) : bool :=
  safe no_exn [Try is_AttributeError (CF_getattr_Source_reverse ("Fix"%u ++ replace "-"%u "_"%u s) s)]
  && is_ok (gim_db s "Latn"%u) && safe no_exn (PrP_FixSemiticRoman s).
Definition sem_target (t : str) : bool :=
  (str_eqb t "Latn"%u || is_ok (gim_db "Latn"%u t)) && safe no_exn (PP_FixSemiticRoman t) && safe no_exn (gim_postprocess t).
Lemma sem_sources : forall s, In s GM_SemiticScripts -> s <> "Latn"%u -> sem_source s = true.
Proof.
  intros s H N. assert (C : forallb (fun s => str_eqb s "Latn"%u || sem_source s) GM_SemiticScripts = true) by (vm_compute; reflexivity).
  rewrite forallb_forall in C. specialize (C s H). apply str_eqb_neq in N. now rewrite N in C.
Qed.
Lemma sem_targets : forall s, In s GM_SemiticScripts -> sem_target s = true.
Proof. apply forallb_forall. vm_compute. reflexivity. Qed.

Lemma ro_map_replace : forall k (l : list (str * str)), raises_only k (map (fun '(c, o) => Replace c o) l).
Proof. intros. apply ro_replaces. Qed.

Lemma ro_to_latin : forall k s, is_ok (gim_db s "Latn"%u) = true -> raises_only k (gim_to_latin s).
Proof. intros k s H. unfold gim_to_latin. apply ro_withS_any; [assumption|]. intros. apply ro_map_replace. Qed.
Lemma ro_from_latin : forall k s, is_ok (gim_db "Latn"%u s) = true -> raises_only k (gim_from_latin s).
Proof.
  intros k s H. unfold gim_from_latin. apply ro_withS_any; [assumption|]. intros d. generalize gimel_simplify. intros simp.
  cbv zeta. apply ro_app; [|apply ro_map_replace].
  apply ro_foreach. intros [c y] _.
  apply ro_if; [apply ro_cons|]; apply ro_Replace.
Qed.
Lemma ro_preprocess : forall k s t, raises_only k (gim_preprocess s t).
Proof. intros. unfold gim_preprocess. apply ro_app; [apply ro_map_replace|]. apply ro_if; [|apply ro_nil]. apply ro_cons; intros x e H; discriminate. Qed.

Lemma ro_gim_tr : forall s t, In s GM_SemiticScripts -> In t GM_SemiticScripts -> raises_only no_exn (gim_tr s t).
Proof.
  intros s t Hs Ht. pose proof (sem_targets t Ht) as B. unfold sem_target in B. bools. unfold gim_tr.
  destruct (str_eqb s t) eqn:E0; [apply ro_nil|]. apply str_eqb_neq in E0.
  apply ro_app; [apply ro_if; [apply ro_nil|apply ro_preprocess]|].
  apply ro_app; [|now apply safe_sound]. unfold gim_convert.
  assert (F : t <> "Latn"%u -> raises_only no_exn (gim_from_latin t)).
  { intros N. apply str_eqb_neq in N. apply ro_from_latin.
    match goal with O : _ || _ = true |- _ => rewrite N in O; exact O end. }
  assert (G : s <> "Latn"%u -> raises_only no_exn (gim_to_latin s)).
  { intros N. pose proof (sem_sources s Hs N) as A. unfold sem_source in A. bools. now apply ro_to_latin. }
  destruct (str_eqb t "Latn"%u) eqn:E1.
  - apply str_eqb_eq in E1 as ->. now apply G.
  - apply str_eqb_neq in E1. destruct (str_eqb s "Latn"%u) eqn:E2; [now apply F|]. apply str_eqb_neq in E2.
    apply ro_app; [now apply G|now apply F].
Qed.

(** [CF_FixSemiticOutput]: functions that take the source script look at its name only when the
    target is Semitic; the others take any nonempty name as "reverse". *)
Definition by_source : list str :=
  ["FixVedic"%u; "FixHebr"%u; "FixLatn"%u; "FixArab"%u; "FixThaa"%u; "FixArab_Ph"%u; "FixArab_Fa"%u; "FixArab_Ur"%u; "FixUgar"%u; "FixSogd"%u].
Lemma globals_call_any_source : forall name S, S <> [] -> mem name by_source = false ->
  CF_globals_call_Source name S = CF_globals_call_Source name "x"%u.
Proof.
  intros name S HS H. unfold by_source in H. cbn [mem existsb] in H. 
  repeat (apply orb_false_iff in H as [? H]). unfold CF_globals_call_Source.
  assert (N : Nat.eqb (length S) 0 = false) by (destruct S; [easy|reflexivity]). rewrite N.
  repeat match goal with E : str_eqb name ?x = false |- _ => rewrite E; clear E end.
  reflexivity.
Qed.
Lemma forallb_pairs : forall (f : str -> str -> bool) l l', forallb (fun t => forallb (fun s => f s t) l) l' = true ->
  forall s t, In s l -> In t l' -> f s t = true.
Proof. intros f l l' H s t Hs Ht. rewrite forallb_forall in H. specialize (H t Ht). cbv beta in H. rewrite forallb_forall in H. now apply H. Qed.
Definition fix_semitic_safe (S T : str) : bool := safe no_exn (CF_FixSemiticOutput S T).
Lemma fix_semitic_targets : forall S T, In S listed -> In T GM_SemiticScripts -> fix_semitic_safe S T = true.
Proof. apply forallb_pairs. vm_compute. reflexivity. Qed.
Definition fix_other (T : str) : prog :=
  [Replace "˞"%u []; Try is_KeyError (CF_globals_call_Source ("Fix"%u ++ replace "-"%u "_"%u T) "x"%u)].
Definition fix_other_safe (T : str) : bool :=
  if mem T GM_SemiticScripts then true
  else if mem ("Fix"%u ++ replace "-"%u "_"%u T) by_source then false else safe no_exn (fix_other T).
Lemma fix_other_targets : forall T, In T listed -> fix_other_safe T = true.
Proof. apply forallb_forall. vm_compute. reflexivity. Qed.
Definition named (s : str) : bool := match s with [] => false | _ => true end.
Lemma listed_named : forall s, In s listed -> named s = true.
Proof. apply forallb_forall. vm_compute. reflexivity. Qed.

Lemma ro_FixSemiticOutput : forall S T, In S listed -> In T listed -> raises_only no_exn (CF_FixSemiticOutput S T).
Proof.
  intros S T HS HT. destruct (mem T GM_SemiticScripts) eqn:M.
  - apply mem_In in M. exact (safe_sound _ _ (fix_semitic_targets S T HS M)).
  - pose proof (fix_other_targets T HT) as C. unfold fix_other_safe in C. rewrite M in C.
    destruct (mem ("Fix"%u ++ replace "-"%u "_"%u T) by_source) eqn:E; [discriminate|].
    assert (G : raises_only no_exn (fix_other T)) by exact (safe_sound _ _ C).
    assert (N : S <> []) by now intros ->; discriminate (listed_named [] HS).
    unfold CF_FixSemiticOutput. rewrite (globals_call_any_source _ S N E). exact G.
Qed.

Lemma listed_sem : forall s, In s GM_SemiticScripts -> In s listed.
Proof. intros s H. unfold listed. apply in_or_app. right. apply in_or_app. now right. Qed.
Lemma romanSemitic_listed : In "RomanSemitic"%u listed.
Proof. apply mem_In. vm_compute. reflexivity. Qed.

Lemma ro_via_RomanSemitic : forall S T, In S listed -> In T listed -> raises_only no_exn (convertScript_RomanSemitic S T).
Proof.
  intros S T HS HT. unfold convertScript_RomanSemitic. apply ro_app; [|exact ro_default].
  destruct (convert_branch S T) eqn:E; [|apply ro_nil]. exact (ro_branch S T _ HS HT E).
Qed.

Lemma ro_sem_source : forall s, In s GM_SemiticScripts ->
  raises_only no_exn [Try is_AttributeError (CF_getattr_Source_reverse ("Fix"%u ++ replace "-"%u "_"%u s) s)]
  /\ raises_only no_exn (PrP_FixSemiticRoman s).
Proof.
  intros s Hs. destruct (str_eqb s "Latn"%u) eqn:E.
  - apply str_eqb_eq in E as ->. split; leaf.
  - apply str_eqb_neq in E. pose proof (sem_sources s Hs E) as A. unfold sem_source in A. bools. split; now apply safe_sound.
Qed.

Theorem ro_convertScript : forall S T, In S listed -> In T listed -> raises_only no_exn (convertScript S T).
Proof.
  intros S T HS HT. unfold convertScript. apply ro_app; [|exact ro_default].
  destruct (convert_branch S T) as [p|] eqn:E; [exact (ro_branch S T _ HS HT E)|].
  destruct (mem S GM_SemiticScripts && mem T GM_SemiticScripts) eqn:E1.
  { apply andb_true_iff in E1 as [MS MT]. apply mem_In in MS, MT. destruct (ro_sem_source S MS) as [A _].
    unfold semitic_semitic. apply ro_app; [exact A|]. apply ro_app; [apply ro_if; leaf|].
    apply ro_app; [now apply ro_gim_tr|]. apply ro_FixSemiticOutput; assumption. }
  destruct (mem S (GM_IndicScripts ++ GM_LatinScripts) && mem T GM_SemiticScripts) eqn:E2.
  { apply andb_true_iff in E2 as [_ MT]. apply mem_In in MT. pose proof (sem_targets T MT) as B. unfold sem_target in B. bools.
    unfold other_semitic. apply ro_app; [apply ro_via_RomanSemitic; [assumption|exact romanSemitic_listed]|].
    apply ro_app; [leaf|]. apply ro_app; [apply ro_if; leaf|]. apply ro_app; [now apply safe_sound|].
    apply ro_app; [apply ro_if; leaf|]. apply ro_app; [apply ro_gim_tr; [apply mem_In; vm_compute; reflexivity|assumption]|].
    apply ro_FixSemiticOutput; assumption. }
  destruct (mem S GM_SemiticScripts && mem T (GM_IndicScripts ++ GM_LatinScripts)) eqn:E3; [|apply ro_nil].
  apply andb_true_iff in E3 as [MS _]. apply mem_In in MS. destruct (ro_sem_source S MS) as [A B].
  unfold semitic_other. apply ro_app; [exact A|].
  apply ro_app; [apply ro_gim_tr; [assumption|apply mem_In; vm_compute; reflexivity]|].
  apply ro_app; [now apply ro_FixSemiticOutput|].
  apply ro_app; [exact B|]. apply ro_app; [apply ro_via_RomanSemitic; [exact romanSemitic_listed|assumption]|].
  apply ro_if; leaf.
Qed.

(** ** Preprocessing *)
Definition sign_ok (s : str) : bool := match CrunchList "SignMap"%u s with Ok l => is_ok (idx l 0%Z) && is_ok (idx l 1%Z) && is_ok (idx l 2%Z) | Err _ => false end.
Definition pre_source (s : str) : bool := if mem s GM_IndicScripts then sign_ok s else true.
Definition pre_target (s : str) : bool := if mem s GM_Transliteration then sign_ok s else true.
Lemma pre_sources : forall s, In s listed -> pre_source s = true.
Proof. apply forallb_forall. vm_compute. reflexivity. Qed.
Lemma pre_targets : forall s, In s listed -> pre_target s = true.
Proof. apply forallb_forall. vm_compute. reflexivity. Qed.

Lemma ro_normalize : forall S, raises_only no_exn (PrP_normalize S).
Proof. intros S. unfold PrP_normalize. cbv zeta. pieces; leaf. Qed.

Lemma ro_avagraha : forall S T f, In S listed -> In T listed -> (forall a b, raises_only no_exn (f a b)) ->
  raises_only no_exn (if mem S GM_IndicScripts && mem T GM_Transliteration then
    (let! v10 := CrunchList "SignMap"%u S in let! v11 := idx v10 0%Z in
     let! v12 := CrunchList "SignMap"%u T in let! v13 := idx v12 0%Z in f v11 v13) else []).
Proof.
  intros S T f HS HT F. pose proof (pre_sources S HS) as A. pose proof (pre_targets T HT) as B.
  unfold pre_source, pre_target, sign_ok in *.
  destruct (mem S GM_IndicScripts); [|apply ro_nil]. destruct (mem T GM_Transliteration); [|apply ro_nil]. cbn [andb].
  oks. bools. cbn [withS]. apply ro_withS_any; [assumption|]. intros x. apply ro_withS_any; [assumption|]. intros y. apply F.
Qed.

Lemma ro_PreProcess : forall S T post pre, In S listed -> In T listed -> raises_only no_exn (PrP_PreProcess S T post pre).
Proof.
  intros S T post pre HS HT. unfold PrP_PreProcess.
  repeat lazymatch goal with |- raises_only _ (_ ++ _) => apply ro_app; [lazymatch goal with
    | |- raises_only _ (PrP_normalize _) => apply ro_normalize
    | |- raises_only _ (if str_eqb S "Itrans"%u then _ else _) =>
        let E := fresh in destruct (str_eqb S "Itrans"%u) eqn:E; [apply str_eqb_eq in E; rewrite E; leaf|apply ro_nil]
    | |- _ => cbv zeta; pieces; leaf
    end|] end.
  apply ro_avagraha; [assumption..|]. intros a b. apply ro_if; [apply ro_Replace|apply ro_nil].
Qed.

(** ** Options *)
(** Functions of PreProcess.py and PostProcess.py that cannot be used as options: they take further
    arguments, or need libraries that are not modelled, or raise. *)
Definition pre_unusable : list str :=
  ["AnuChandraEq"%u; "BalineseJavaneseMoveRepha"%u; "FixSemiticRoman"%u; "IPAIndic"%u; "JapanesePreProcess"%u; "KhmerWordSplit"%u;
   "OriyaSubojinedVa"%u; "PhagsPaArrange"%u; "PreProcess"%u; "RemoveFinal"%u; "RetainPipeDanda"%u; "RomanPreFix"%u; "joinVowelCons"%u;
   "normalize"%u; "removeZW"%u].
Definition post_unusable : list str :=
  ["AnusvaraToNasal"%u; "BalineseJavaneseMoveRepha"%u; "FixSemiticRoman"%u; "FixTallA"%u; "GranthaPrakrit"%u; "InsertGeminationSign"%u;
   "JapanesePostProcess"%u; "KhandaTa"%u; "MToAnusvara"%u; "NasalToAnusvara"%u; "PhagsPaRearrange"%u; "RemoveSchwa"%u; "RetainDandasIndic"%u;
   "RetainIndicNumerals"%u; "RetainRomanNumerals"%u; "ReverseGeminationSign"%u; "ThaiLaoTranscription"%u; "VaToBa"%u; "YYAEverywhere"%u;
   "YaToYYa"%u; "defaultPost"%u; "tbadiff"%u].
Definition pre_usable (o : str) : Prop := In o PrP_names /\ ~ In o pre_unusable.
Definition post_usable (o : str) : Prop := In o PP_names /\ ~ In o post_unusable.

Definition pre_check (o : str) : bool := if mem o pre_unusable then true else safe no_exn (PrP_call o).
Definition post_check (o : str) : bool :=
  if mem o post_unusable then true else if str_eqb o "capitalizeSentence"%u then true else safe no_exn (PP_call o).
Lemma pre_checks : forall o, In o PrP_names -> pre_check o = true.
Proof. apply forallb_forall. vm_compute. reflexivity. Qed.
Lemma post_checks : forall o, In o PP_names -> post_check o = true.
Proof. apply forallb_forall. vm_compute. reflexivity. Qed.

Lemma ro_pre_option : forall o, pre_usable o -> raises_only no_exn (PrP_call o).
Proof.
  intros o [H N]. pose proof (pre_checks o H) as C. unfold pre_check in C. apply mem_false in N. rewrite N in C. now apply safe_sound.
Qed.
Lemma ro_re_sub_fun : forall p f, match compile p with Some _ => true | None => false end = true -> raises_only no_exn [Fn (re_sub_fun p f)].
Proof. intros p f H s e E. cbn [run run_op] in E. unfold re_sub_fun in E. destruct (compile p) as [[r g]|]; discriminate. Qed.
Lemma ro_post_option : forall o, post_usable o -> raises_only no_exn (PP_call o).
Proof.
  intros o [H N]. pose proof (post_checks o H) as C. unfold post_check in C. apply mem_false in N. rewrite N in C.
  destruct (str_eqb o "capitalizeSentence"%u) eqn:E; [|now apply safe_sound].
  apply str_eqb_eq in E as ->. change (raises_only no_exn PP_capitalizeSentence). unfold PP_capitalizeSentence.
  apply ro_app; apply ro_re_sub_fun; vm_compute; reflexivity.
Qed.

Lemma ro_defaults : forall S T post, raises_only no_exn (ApplyScriptDefaults S T post).
Proof.
  intros S T post. unfold ApplyScriptDefaults, default_options.
  repeat lazymatch goal with
  | |- raises_only _ (foreach (if str_eqb T ?x then _ else _) _) =>
      let E := fresh in destruct (str_eqb T x) eqn:E;
      [apply str_eqb_eq in E; rewrite E;
       repeat lazymatch goal with |- raises_only _ (foreach (if ?b then _ else _) _) => destruct b end; leaf
      |clear E]
  | |- raises_only _ (foreach [] _) => apply ro_nil
  end.
Qed.

(** ** convert *)
(** Options that read the tables of the source or of the target, which Semitic scripts do not have. *)
Definition table_options : list str := ["romanNumerals"%u; "indicNumerals"%u; "romanFullStop"%u; "indicDandas"%u].
Definition no_tables (post : list str) : Prop := forall o, In o table_options -> ~ In o post.
(** The scripts with tables; Hebrew, Thaana, Urdu and Shahmukhi have another name as Semitic scripts. *)
Definition tabled : list str := filter (fun s => negb (mem s ["Hebrew"%u; "Thaana"%u; "Urdu"%u; "Shahmukhi"%u])) (ind ++ lat).

Definition table_check (s : str) : bool :=
  sign_ok s && safe no_exn (PP_RetainIndicNumerals s true) && safe no_exn (PP_RetainIndicNumerals s false) && safe no_exn (PP_RetainDandasIndic s true).
Lemma table_checks : forall s, In s (ind ++ lat) -> table_check s = true.
Proof. apply forallb_forall. vm_compute. reflexivity. Qed.

Lemma ro_defaultPost : forall S T nat pre post, (In T (ind ++ lat) \/ no_tables post) -> raises_only no_exn (PP_defaultPost S T nat pre post).
Proof.
  intros S T nat pre post H. unfold PP_defaultPost. apply ro_app; [leaf|].
  assert (D : forall o p, In o table_options -> (In T (ind ++ lat) -> raises_only no_exn p) -> raises_only no_exn (if mem o post then p else [])).
  { intros o p Ho Hp. destruct H as [H|H]; [apply ro_if; [auto|apply ro_nil]|].
    specialize (H o Ho). apply mem_false in H. rewrite H. apply ro_nil. }
  apply ro_app; [apply D; [now left|]; intros HT; pose proof (table_checks T HT) as C; unfold table_check in C; bools; now apply safe_sound|].
  apply ro_app; [apply D; [right; now left|]; intros HT; pose proof (table_checks T HT) as C; unfold table_check in C; bools; now apply safe_sound|].
  apply ro_app; [apply D; [right; right; now left|]; intros HT; pose proof (table_checks T HT) as C; unfold table_check in C; bools; now apply safe_sound|].
  pieces; leaf.
Qed.

Lemma ro_convert_text : forall S T, In S listed -> In T listed -> raises_only no_exn (convert_text S T).
Proof.
  intros S T HS HT. unfold convert_text. apply ro_if; [|now apply ro_convertScript].
  apply ro_IfIn; [apply ro_EvenParts|]; now apply ro_convertScript.
Qed.

Definition not_kana (s : str) : bool := if mem s ["Hiragana"%u; "Katakana"%u] then false else true.
Lemma listed_not_kana : forall s, In s listed -> not_kana s = true.
Proof. apply forallb_forall. vm_compute. reflexivity. Qed.

Lemma post_names_tamil : post_usable "RemoveDiacriticsTamil"%u.
Proof. split; [apply mem_In; vm_compute; reflexivity|apply mem_false; vm_compute; reflexivity]. Qed.

Theorem ro_tail : forall S T old nat pre post,
  In S listed -> In T listed -> (old = [] \/ In old listed) -> ~ (S = "Tamil"%u /\ T = "IPA"%u) ->
  Forall pre_usable pre -> Forall post_usable post ->
  (In T (ind ++ lat) /\ (old = [] \/ In old (ind ++ lat)) \/ no_tables post) ->
  raises_only no_exn (convert_tail S T old nat pre post).
Proof.
  intros S T old nat pre post HS HT Hold HX Hpre Hpost Htab. unfold convert_tail.
  pose proof (listed_not_kana S HS) as KS. pose proof (listed_not_kana T HT) as KT. unfold not_kana in KS, KT.
  destruct (mem S ["Hiragana"%u; "Katakana"%u]); [discriminate|]. destruct (mem T ["Hiragana"%u; "Katakana"%u]); [discriminate|]. clear KS KT.
  rewrite Forall_forall in Hpre, Hpost.
  apply ro_app; [apply ro_foreach; intros o Ho; apply ro_pre_option; auto|].
  apply ro_app; [apply ro_if; leaf|]. apply ro_app; [apply ro_if; leaf|].
  cbv zeta. apply ro_app; [apply ro_nil|]. apply ro_app; [apply ro_nil|].
  apply ro_app; [apply ro_if; leaf|]. apply ro_app; [now apply ro_convert_text|]. apply ro_app; [apply ro_nil|].
  assert (Dev : In "Devanagari"%u listed) by (apply mem_In; vm_compute; reflexivity).
  assert (After : forall U back, (In U (ind ++ lat) \/ no_tables post) -> ~ (S = "Tamil"%u /\ U = "IPA"%u) -> raises_only no_exn back ->
    raises_only no_exn (back
      ++ (if (negb (mem S GM_SemiticScripts) && str_eqb U "Arab"%u && nat)
             || mem "arabicRemoveAdditionsPhonetic"%u post
          then PP_arabicRemoveAdditionsPhonetic else [])
      ++ (if nat then
            ApplyScriptDefaults S U post
            ++ (if str_eqb U "Latn"%u then []
                else if str_eqb U "Tamil"%u then PP_RemoveDiacriticsTamil else PP_RemoveDiacritics)
          else [])
      ++ (let mapped := mem "RemoveDiacritics"%u post && str_eqb U "Tamil"%u in
          let post1 := if mapped
            then map (fun x => if str_eqb x "RemoveDiacritics"%u then "RemoveDiacriticsTamil"%u else x) post
            else post in
          let post2 := if mapped then [] else post in
      foreach post1 PP_call
      ++ (if str_eqb S "Tamil"%u && str_eqb U "IPA"%u then [Raise (External "requests.get"%u)] else [])
      ++ (if str_eqb S "Oriya"%u && str_eqb U "IPA"%u then CF_OriyaIPAFix else [])
      ++ PrP_retainLatin true
      ++ PP_defaultPost S U nat pre post2))).
  { intros U back HU HUX Hback. apply ro_app; [exact Hback|]. apply ro_app; [apply ro_if; leaf|].
    apply ro_app; [apply ro_if; [|apply ro_nil]; apply ro_app; [apply ro_defaults|pieces; leaf]|].
    cbv zeta. apply ro_app.
    { apply ro_foreach. intros o Ho. apply ro_post_option.
      destruct (mem "RemoveDiacritics"%u post && str_eqb U "Tamil"%u); [|auto].
      apply in_map_iff in Ho as (x & <- & Hx). destruct (str_eqb x "RemoveDiacritics"%u); [exact post_names_tamil|auto]. }
    apply ro_app.
    { destruct (str_eqb S "Tamil"%u && str_eqb U "IPA"%u) eqn:E; [|apply ro_nil]. exfalso. apply HUX.
      apply andb_true_iff in E as [E1 E2]. apply str_eqb_eq in E1, E2. now split. }
    apply ro_app; [apply ro_if; leaf|]. apply ro_app; [leaf|]. apply ro_defaultPost.
    destruct HU as [HU|HU]; [now left|right]. destruct (mem "RemoveDiacritics"%u post && str_eqb U "Tamil"%u); [|exact HU].
    intros o _ F. exact F. }
  destruct (str_eqb S old) eqn:E.
  - apply str_eqb_eq in E. assert (Ho : In old listed) by (now rewrite <- E).
    assert (Ht : In old (ind ++ lat) \/ no_tables post).
    { destruct Htab as [[_ [O|O]]|N]; [|now left|now right]. exfalso. rewrite O in E. rewrite E in HS. discriminate (listed_named [] HS). }
    apply After; [exact Ht| |now apply ro_convertScript]. rewrite <- E. intros [E1 E2]. rewrite E1 in E2. discriminate.
  - apply After; [destruct Htab as [[A _]|A]; [now left|now right]|exact HX|apply ro_nil].
Qed.

(** The names of variants chosen by options. *)
Definition variants : list str :=
  ["SiddhamDevanagari"%u; "Lao2"%u; "GranthaGrantamil"%u; "Devanagari"%u; "Tibetan"%u; "BengaliRaBa"%u; "BalineseSimpleRomanLoC"%u; "JavaneseSimpleRomanLoC"%u].
Lemma sublist : forall (l B : list str), forallb (fun s => mem s B) l = true -> forall s, In s l -> In s B.
Proof. intros l B C s H. rewrite forallb_forall in C. apply mem_In. now apply C. Qed.
Lemma differs : forall x (l : list str), mem x l = false -> forall s, In s l -> s <> x.
Proof. intros x l M s H ->. apply mem_In in H. congruence. Qed.
Lemma variants_tabled : forall v, In v variants -> In v (ind ++ lat).
Proof. apply sublist. vm_compute. reflexivity. Qed.
Lemma variants_not_ipa : forall v, In v variants -> v <> "IPA"%u.
Proof. apply differs. vm_compute. reflexivity. Qed.
Lemma variants_not_tamil : forall v, In v variants -> v <> "Tamil"%u.
Proof. apply differs. vm_compute. reflexivity. Qed.
Lemma let_step : forall (A : Type) (P : str -> Prop) (R : A -> Prop) (b : bool) v x (k : str -> A),
  P v -> P x -> (forall y, P y -> R (k y)) -> R (k (if b then v else x)).
Proof. intros A P R [|] v x k Hv Hx H; auto. Qed.
Ltac lstep P := lazymatch goal with |- ?R (let y := (if ?b then ?v else ?x) in @?k y) =>
  change (R (k (if b then v else x))); apply (let_step _ P R b v x k) end.
Definition variant_cases (S T : str) (r : str * str * bool) : Prop :=
  let '(S', T', _) := r in (S' = S \/ In S' variants) /\ (T' = T \/ In T' variants).
Lemma variant_switch_cases : forall S T nat pre post, variant_cases S T (variant_switch S T nat pre post).
Proof.
  intros S T nat pre post. cbv beta delta [variant_switch].
  assert (V : forall X v, mem v variants = true -> v = X \/ In v variants) by (intros X v H; right; now apply mem_In).
  lstep (fun y => y = T \/ In y variants); [apply V; reflexivity|now left|]; cbv beta; intros t1 H1.
  lstep (fun y => y = T \/ In y variants); [apply V; reflexivity|exact H1|]; clear t1 H1; cbv beta; intros t2 H2.
  lstep (fun y => y = S \/ In y variants); [apply V; reflexivity|now left|]; cbv beta; intros s1 G1.
  lstep (fun y => y = T \/ In y variants); [apply V; reflexivity|exact H2|]; clear t2 H2; cbv beta; intros t3 H3.
  lstep (fun y => y = S \/ In y variants); [apply V; reflexivity|exact G1|]; clear s1 G1; cbv beta; intros s2 G2.
  lstep (fun y => y = T \/ In y variants); [apply V; reflexivity|exact H3|]; clear t3 H3; cbv beta; intros t4 H4.
  lstep (fun y => y = T \/ In y variants); [apply V; reflexivity|exact H4|]; clear t4 H4; cbv beta; intros t5 H5.
  repeat lazymatch goal with |- variant_cases S T (let '(_, _) := if ?b then _ else _ in _) => destruct b end;
  (lstep (fun y => y = T \/ In y variants); [apply V; reflexivity|first [exact H5|apply V; reflexivity]|]; clear t5 H5; cbv beta; intros t6 H6;
   lstep (fun y => y = T \/ In y variants); [apply V; reflexivity|exact H6|]; clear t6 H6; cbv beta; intros t7 H7;
   split; assumption).
Qed.

Definition plain_pair (S T : str) : Prop := In S listed /\ In T listed /\ ~ (S = "Tamil"%u /\ T = "IPA"%u).

Lemma tabled_listed : forall s, In s (ind ++ lat) -> In s listed.
Proof.
  intros s H. unfold listed. apply in_app_or in H as [H|H]; apply in_or_app; [now left|right; apply in_or_app; now left].
Qed.
Lemma variant_listed : forall v, In v variants -> In v (ind ++ lat) /\ In v listed /\ v <> "IPA"%u /\ v <> "Tamil"%u.
Proof.
  intros v H. pose proof (variants_tabled v H). split; [assumption|]. split; [now apply tabled_listed|].
  split; [now apply variants_not_ipa|now apply variants_not_tamil].
Qed.

Theorem ro_rest : forall S T old nat pre post,
  plain_pair S T -> (old = [] \/ In old listed) -> Forall pre_usable pre -> Forall post_usable post ->
  (In T (ind ++ lat) /\ (old = [] \/ In old (ind ++ lat)) \/ no_tables post) ->
  raises_only no_exn (convert_rest S T old nat pre post).
Proof.
  intros S T old nat pre post (HS & HT & HX) Hold Hpre Hpost Htab. unfold convert_rest.
  apply ro_app; [now apply ro_PreProcess|].
  pose proof (variant_switch_cases S T nat pre post) as V. unfold variant_cases in V.
  destruct (variant_switch S T nat pre post) as [[S' T'] nat'] eqn:EV. clear EV. destruct V as [VS VT].
  apply ro_app; [unfold soyombo_mark; apply ro_if; leaf|].
  apply ro_tail; try assumption.
  - destruct VS as [E|H]; [rewrite E; exact HS|]. apply variant_listed in H as (_ & H & _). exact H.
  - destruct VT as [E|H]; [rewrite E; exact HT|]. apply variant_listed in H as (_ & H & _). exact H.
  - intros [E1 E2]. destruct VS as [ES|H]; [|apply variants_not_tamil in H; exact (H E1)].
    destruct VT as [ET|H]; [|apply variants_not_ipa in H; exact (H E2)]. apply HX. split; congruence.
  - destruct Htab as [[A B]|N]; [left|right; exact N]. split; [|exact B]. destruct VT as [E|H]; [rewrite E; exact A|].
    exact (variants_tabled _ H).
Qed.

Definition sem_names : list str := ["Hebr"%u; "Thaa"%u; "Arab-Ur"%u; "Arab-Pa"%u].
Lemma get_semitic : forall s, get s IndicSemiticMapping s = s \/ In (get s IndicSemiticMapping s) sem_names.
Proof.
  intros s. unfold get, IndicSemiticMapping, sem_names. cbn [lookup].
  destruct (str_eqb s "Hebrew"%u); [right; now left|]. destruct (str_eqb s "Thaana"%u); [right; right; now left|].
  destruct (str_eqb s "Urdu"%u); [right; right; right; now left|]. destruct (str_eqb s "Shahmukhi"%u); [right; right; right; right; now left|]. now left.
Qed.
Definition switched (S S' : str) : Prop := S' = S \/ In S' sem_names.
Lemma switched_get : forall S x, switched S x -> switched S (get x IndicSemiticMapping x).
Proof.
  intros S x H. destruct (get_semitic x) as [E|E]; [|now right]. rewrite E. exact H.
Qed.
Lemma semitic_switch_cases : forall S T nat, switched S (fst (semitic_switch S T nat)) /\ switched T (snd (semitic_switch S T nat)).
Proof.
  intros S T nat. unfold semitic_switch.
  assert (A : forall X (b : bool) x, switched X x -> switched X (if b then get x IndicSemiticMapping x else x)).
  { intros X [|] x H; [now apply switched_get|exact H]. }
  assert (S0 : switched S S) by now left. assert (T0 : switched T T) by now left.
  match goal with |- context [if ?b then get S IndicSemiticMapping S else S] => pose proof (A S b S S0) as S1; revert S1; generalize (if b then get S IndicSemiticMapping S else S) end.
  intros s1 S1.
  match goal with |- context [if ?b then get T IndicSemiticMapping T else T] => pose proof (A T b T T0) as T1; revert T1; generalize (if b then get T IndicSemiticMapping T else T) end.
  intros t1 T1.
  destruct (has_key s1 IndicSemiticMapping && has_key t1 IndicSemiticMapping); cbn [fst snd].
  - split; [destruct nat; repeat apply switched_get; exact S1|now apply switched_get].
  - split; [destruct nat; repeat apply switched_get; exact S1|exact T1].
Qed.

Lemma all_not : forall (f : str -> bool) l, forallb (fun s => negb (f s)) l = true -> forall s, In s l -> f s = false.
Proof. intros f l C s H. rewrite forallb_forall in C. apply negb_true_iff. now apply C. Qed.
Lemma tabled_not_semitic : forall s, In s tabled -> mem s GM_SemiticScripts = false.
Proof. apply (all_not (fun s => mem s GM_SemiticScripts)). vm_compute. reflexivity. Qed.
Lemma tabled_not_iso : forall s, In s tabled -> has_key s GM_semiticISO = false.
Proof. apply (all_not (fun s => has_key s GM_semiticISO)). vm_compute. reflexivity. Qed.
Lemma tabled_not_named : forall s, In s tabled -> has_key s IndicSemiticMapping = false.
Proof. apply (all_not (fun s => has_key s IndicSemiticMapping)). vm_compute. reflexivity. Qed.
Lemma get_absent : forall s, has_key s IndicSemiticMapping = false -> get s IndicSemiticMapping s = s.
Proof. intros s. unfold has_key, get. now destruct (lookup s IndicSemiticMapping). Qed.
Lemma semitic_switch_tabled : forall S T nat, In S tabled -> In T tabled -> semitic_switch S T nat = (S, T).
Proof.
  intros S T nat HS HT. unfold semitic_switch.
  rewrite (tabled_not_semitic T HT), (tabled_not_iso T HT). cbn [orb].
  rewrite (tabled_not_semitic S HS), (tabled_not_iso S HS). cbn [orb].
  rewrite (tabled_not_named S HS). cbn [andb]. rewrite (get_absent S (tabled_not_named S HS)). now destruct nat.
Qed.

Lemma sem_names_semitic : forall s, In s sem_names -> In s GM_SemiticScripts.
Proof. apply sublist. vm_compute. reflexivity. Qed.
Lemma sem_names_listed : forall s, In s sem_names -> In s listed.
Proof. intros s H. apply listed_sem. now apply sem_names_semitic. Qed.
Lemma tabled_tables : forall s, In s tabled -> In s (ind ++ lat).
Proof. unfold tabled. intros s H. apply filter_In in H as [H _]. exact H. Qed.

Definition tables_fit (S T : str) (post : list str) : Prop := (In S tabled /\ In T tabled) \/ no_tables post.

Lemma pipe_safe : forall s, In s GM_pipeScripts -> safe no_exn (PrP_RetainPipeDanda s) = true.
Proof. apply forallb_forall. vm_compute. reflexivity. Qed.
Lemma usable_danda : pre_usable "RetainDevangariDanda"%u.
Proof. split; [apply mem_In; vm_compute; reflexivity|apply mem_false; vm_compute; reflexivity]. Qed.
Lemma usable_pipes : post_usable "Dot2Pipes"%u.
Proof. split; [apply mem_In; vm_compute; reflexivity|apply mem_false; vm_compute; reflexivity]. Qed.
Lemma usable_dandas : post_usable "Dot2Dandas"%u.
Proof. split; [apply mem_In; vm_compute; reflexivity|apply mem_false; vm_compute; reflexivity]. Qed.
Lemma devanagari_tables : In "Devanagari"%u (ind ++ lat).
Proof. apply mem_In; vm_compute; reflexivity. Qed.

Theorem ro_main : forall S T nat pre post, plain_pair S T -> Forall pre_usable pre -> Forall post_usable post -> tables_fit S T post ->
  raises_only no_exn (convert_main (Args S T nat pre post)).
Proof.
  intros S T nat pre post (HS & HT & HX) Hpre Hpost Htab. unfold convert_main.
  apply ro_if; [apply ro_nil|]. apply ro_if; [apply ro_nil|].
  assert (Sw : exists S' T', semitic_switch S T nat = (S', T') /\ plain_pair S' T' /\ ((In S' (ind ++ lat) /\ In T' (ind ++ lat)) \/ no_tables post)).
  { destruct Htab as [[TS TT]|N].
    - exists S, T. split; [now apply semitic_switch_tabled|]. split; [exact (conj HS (conj HT HX))|]. left. split; now apply tabled_tables.
    - destruct (semitic_switch_cases S T nat) as [A B]. destruct (semitic_switch S T nat) as [S' T']. cbn [fst snd] in A, B.
      exists S', T'. split; [reflexivity|]. split; [|right; exact N]. split; [|split].
      + destruct A as [E|E]; [rewrite E; exact HS|exact (sem_names_listed _ E)].
      + destruct B as [E|E]; [rewrite E; exact HT|exact (sem_names_listed _ E)].
      + intros [E1 E2]. destruct A as [A|A]; [|rewrite E1 in A; cbn [sem_names In] in A; intuition discriminate].
        destruct B as [B|B]; [|rewrite E2 in B; cbn [sem_names In] in B; intuition discriminate]. apply HX. split; congruence. }
  destruct Sw as (S' & T' & -> & HP & Ht). clear HS HT HX Htab S T. destruct HP as (HS & HT & HX).
  apply ro_app; [apply ro_if; leaf|]. apply ro_app; [apply ro_if; leaf|]. cbv zeta.
  set (same := str_eqb S' T' && negb (str_eqb S' "Hiragana"%u) && negb (str_eqb S' "Katakana"%u) && negb (mem S' GM_SemiticScripts)).
  set (old := if same then T' else []). set (T := if same then "Devanagari"%u else T').
  assert (HP : plain_pair S' T).
  { split; [exact HS|]. subst T. destruct same; [split; [apply tabled_listed; exact devanagari_tables|]|split; [exact HT|exact HX]].
    intros [_ E]. discriminate. }
  assert (Hold : old = [] \/ In old listed) by (subst old; destruct same; [right; exact HT|left; reflexivity]).
  assert (HT' : (In S' (ind ++ lat) /\ In T (ind ++ lat) /\ (old = [] \/ In old (ind ++ lat))) \/ no_tables post).
  { destruct Ht as [[A B]|N]; [left|right; exact N]. split; [exact A|]. subst T old. destruct same.
    - split; [exact devanagari_tables|right; exact B].
    - split; [exact B|left; reflexivity]. }
  clearbody T old. clear same.
  assert (Rest : forall pre post, Forall pre_usable pre -> Forall post_usable post ->
    (In T (ind ++ lat) /\ (old = [] \/ In old (ind ++ lat)) \/ no_tables post) ->
    raises_only no_exn (convert_rest S' T old nat pre post)).
  { intros. now apply ro_rest. }
  destruct (mem "indicDandas"%u post) eqn:Ei.
  - destruct HT' as [(A & B & C)|N].
    2: { exfalso. apply mem_In in Ei. apply (N "indicDandas"%u); [right; right; right; now left|exact Ei]. }
    pose proof (table_checks S' A) as K. unfold table_check, sign_ok in K. apply andb_true_iff in K as [K _]. apply andb_true_iff in K as [K _].
    apply andb_true_iff in K as [K _]. oks. apply andb_true_iff in K as [K _]. apply andb_true_iff in K as [_ K].
    assert (Other : raises_only no_exn
      (let! danda := idx a 1 in
       if str_eqb danda "।"%u then convert_rest S' T old nat (pre ++ ["RetainDevangariDanda"%u]) post
       else convert_rest S' T old nat pre (post ++ [if mem T GM_Transliteration then "Dot2Pipes"%u else "Dot2Dandas"%u]))).
    { apply ro_withS_any; [exact K|]. intros d. apply ro_if; apply Rest; try assumption; try (left; split; assumption).
      - apply Forall_app. split; [assumption|]. constructor; [exact usable_danda|constructor].
      - apply Forall_app. split; [assumption|]. constructor; [|constructor]. destruct (mem T GM_Transliteration); [exact usable_pipes|exact usable_dandas]. }
    destruct (mem S' GM_pipeScripts) eqn:Ep; [|exact Other]. apply ro_IfIn; [|exact Other].
    apply ro_app; [apply safe_sound; apply pipe_safe; now apply mem_In|]. apply Rest; try assumption. left. split; assumption.
  - apply Rest; try assumption. destruct HT' as [(A & B & C)|N]; [left; split; assumption|right; exact N].
Qed.

(** *** The names of romanizations that are resolved first: RomanLoC, and the Semitic romanizations *)
Definition iso_keys : list str := map fst GM_semiticISO.
Definition iso_part (rec : args -> prog) (a : args) : prog :=
  let '(Args src tgt nativize pre post) := a in
  let '(p, Args src tgt nativize pre post) :=
    match lookup tgt GM_semiticISO with
    | Some via =>
        (if str_eqb via src then [] else rec (Args src via nativize pre post),
         Args via "Latn"%u false ([tgt ++ "Target"%u] ++ pre) ([tgt ++ "Target"%u] ++ post))
    | None => ([], Args src tgt nativize pre post)
    end in
  p ++
  let '(p, a) :=
    match lookup src GM_semiticISO with
    | Some via =>
        if str_eqb via tgt
        then ([], Args "Latn"%u tgt nativize ([src ++ "Source"%u] ++ pre) ([src ++ "Source"%u] ++ post))
        else (rec (Args src via nativize pre post), Args via tgt nativize pre post)
    | None => ([], Args src tgt nativize pre post)
    end in
  p ++ convert_main a.
Lemma convert_step_parts : forall rec a0, convert_step rec a0 =
  loc_source_mark (loc_target_other (loc_target a0)) ++ iso_part rec (loc_source_other (loc_source (loc_target_other (loc_target a0)))).
Proof. reflexivity. Qed.

Definition no_iso (s : str) : Prop := lookup s GM_semiticISO = None.
Lemma not_iso : forall s, mem s iso_keys = false -> no_iso s.
Proof.
  intros s H. unfold no_iso. unfold iso_keys in H. revert H. generalize GM_semiticISO. induction l as [|[k v] l IH]; [reflexivity|].
  cbn [map fst lookup]. unfold mem. cbn [existsb]. intros H. apply orb_false_iff in H as [H1 H2]. rewrite H1. apply IH. exact H2.
Qed.
Lemma listed_no_iso : forall s, In s listed -> no_iso s.
Proof. intros s H. apply not_iso. revert s H. apply (all_not (fun s => mem s iso_keys)). vm_compute. reflexivity. Qed.
Lemma listed_no_loc : forall s, In s listed -> str_eqb s "RomanLoC"%u = false.
Proof. intros s H. apply str_eqb_neq. revert s H. apply differs. vm_compute. reflexivity. Qed.
Lemma iso_no_loc : forall s, In s iso_keys -> str_eqb s "RomanLoC"%u = false.
Proof. intros s H. apply str_eqb_neq. revert s H. apply differs. vm_compute. reflexivity. Qed.

(** What is known of the names once RomanLoC is resolved. *)
Definition resolved (S T : str) (post : list str) : Prop :=
  (In S listed \/ In S iso_keys) /\ (In T listed \/ In T iso_keys) /\ ~ (S = "Tamil"%u /\ T = "IPA"%u) /\ S <> "PersianDMG"%u /\ tables_fit S T post.

Lemma resolved_no_loc : forall s, In s listed \/ In s iso_keys -> str_eqb s "RomanLoC"%u = false.
Proof. intros s [H|H]; [now apply listed_no_loc|now apply iso_no_loc]. Qed.

Lemma step_resolved : forall rec S T nat pre post, (In S listed \/ In S iso_keys) -> (In T listed \/ In T iso_keys) ->
  convert_step rec (Args S T nat pre post) = iso_part rec (Args S T nat pre post).
Proof.
  intros rec S T nat pre post HS HT. apply resolved_no_loc in HS, HT. rewrite convert_step_parts.
  assert (E : loc_target_other (loc_target (Args S T nat pre post)) = Args S T nat pre post).
  { unfold loc_target. rewrite HT. cbn [andb]. unfold loc_target_other. rewrite HT. reflexivity. }
  rewrite E. unfold loc_source_mark. rewrite HS. cbn [andb app].
  unfold loc_source. rewrite HS. cbn [andb]. unfold loc_source_other. rewrite HS. reflexivity.
Qed.

Lemma iso_cases : forall s, In s iso_keys -> s = "ISO259"%u \/ s = "HebrewSBL"%u \/ s = "ISO233"%u \/ s = "PersianDMG"%u.
Proof. intros s H. unfold iso_keys, GM_semiticISO in H. cbn [map fst In] in H. intuition. Qed.
Ltac listed_name := apply mem_In; vm_compute; reflexivity.
Ltac usable_name := split; [apply mem_In; vm_compute; reflexivity|apply mem_false; vm_compute; reflexivity].

Lemma iso_via : forall s, In s iso_keys -> exists v, lookup s GM_semiticISO = Some v /\ In v listed /\ v <> "Tamil"%u /\ v <> "IPA"%u.
Proof.
  intros s H. destruct (iso_cases s H) as [-> | [-> | [-> | ->]]]; eexists; (split; [vm_compute; reflexivity|]);
    (split; [listed_name|split; discriminate]).
Qed.
Definition extra_option (o : str) : Prop := pre_usable o /\ post_usable o /\ ~ In o table_options.
Lemma iso_target_option : forall s, In s iso_keys -> extra_option (s ++ "Target"%u).
Proof.
  intros s H. destruct (iso_cases s H) as [-> | [-> | [-> | ->]]];
    (split; [usable_name|split; [usable_name|apply mem_false; vm_compute; reflexivity]]).
Qed.
Lemma iso_source_option : forall s, In s iso_keys -> s <> "PersianDMG"%u -> extra_option (s ++ "Source"%u).
Proof.
  intros s H N. destruct (iso_cases s H) as [-> | [-> | [-> | ->]]]; [| | |now elim N];
    (split; [usable_name|split; [usable_name|apply mem_false; vm_compute; reflexivity]]).
Qed.

Lemma no_tables_cons : forall o post, ~ In o table_options -> no_tables post -> no_tables ([o] ++ post).
Proof. intros o post H N x Hx [E|Hi]; [apply H; now rewrite E|now apply (N x)]. Qed.
Lemma no_tables_app : forall l post, Forall extra_option l -> no_tables post -> no_tables (l ++ post).
Proof.
  induction l as [|o l IH]; intros post H N; [exact N|]. inversion H as [|? ? (_ & _ & Ho) Hl]; subst.
  apply (no_tables_cons o (l ++ post) Ho). now apply IH.
Qed.
Lemma extra_pre : forall l, Forall extra_option l -> Forall pre_usable l.
Proof. intros l. apply Forall_impl. now intros o (H & _). Qed.
Lemma extra_post : forall l, Forall extra_option l -> Forall post_usable l.
Proof. intros l. apply Forall_impl. now intros o (_ & H & _). Qed.

Lemma latn_listed : In "Latn"%u listed.
Proof. listed_name. Qed.

Lemma ro_n_listed : forall n S T nat pre post, plain_pair S T -> tables_fit S T post -> Forall pre_usable pre -> Forall post_usable post ->
  raises_only no_exn (convert_n (Datatypes.S n) (Args S T nat pre post)).
Proof.
  intros n S T nat pre post (HS & HT & HX) Ht Hpre Hpost. cbn [convert_n].
  rewrite step_resolved; [|now left|now left]. unfold iso_part.
  rewrite (listed_no_iso T HT), (listed_no_iso S HS).
  apply ro_app; [apply ro_nil|]. apply ro_app; [apply ro_nil|]. exact (ro_main S T nat pre post (conj HS (conj HT HX)) Hpre Hpost Ht).
Qed.

Lemma tables_iso : forall S T post, In S iso_keys \/ In T iso_keys -> tables_fit S T post -> no_tables post.
Proof.
  intros S T post H [[A B]|N]; [exfalso|exact N].
  assert (K : forall s, In s iso_keys -> In s tabled -> False).
  { intros s H1 H2. apply tabled_not_iso in H2. destruct (iso_via s H1) as (v & E & _). unfold has_key in H2. now rewrite E in H2. }
  destruct H as [H|H]; [now apply (K S)|now apply (K T)].
Qed.

(** Source a Semitic romanization, target its own script. *)
Lemma ro_n_iso_own : forall n S T nat pre post, In S iso_keys -> S <> "PersianDMG"%u -> lookup S GM_semiticISO = Some T -> In T listed ->
  no_tables post -> Forall pre_usable pre -> Forall post_usable post ->
  raises_only no_exn (convert_n (Datatypes.S n) (Args S T nat pre post)).
Proof.
  intros n S T nat pre post HS HN E HT Ht Hpre Hpost. cbn [convert_n].
  rewrite step_resolved; [|now right|now left]. unfold iso_part. rewrite (listed_no_iso T HT), E, str_eqb_refl.
  apply ro_app; [apply ro_nil|]. apply ro_app; [apply ro_nil|].
  destruct (iso_source_option S HS HN) as (O1 & O2 & O3). apply ro_main.
  - split; [exact latn_listed|]. split; [exact HT|]. intros [F _]. discriminate.
  - constructor; [exact O1|exact Hpre].
  - constructor; [exact O2|exact Hpost].
  - right. apply no_tables_cons; assumption.
Qed.

(** Source a Semitic romanization, target any script. *)
Lemma ro_n_iso_source : forall n S T nat pre post, In S iso_keys -> S <> "PersianDMG"%u -> In T listed ->
  no_tables post -> Forall pre_usable pre -> Forall post_usable post ->
  raises_only no_exn (convert_n (Datatypes.S (Datatypes.S n)) (Args S T nat pre post)).
Proof.
  intros n S T nat pre post HS HN HT Ht Hpre Hpost. destruct (iso_via S HS) as (v & E & Hv & N1 & N2).
  destruct (str_eqb v T) eqn:EV.
  { apply str_eqb_eq in EV. rewrite EV in E. exact (ro_n_iso_own _ S T nat pre post HS HN E HT Ht Hpre Hpost). }
  change (convert_n (Datatypes.S (Datatypes.S n)) (Args S T nat pre post)) with (convert_step (convert_n (Datatypes.S n)) (Args S T nat pre post)).
  rewrite step_resolved; [|now right|now left]. unfold iso_part. rewrite (listed_no_iso T HT), E, EV.
  apply ro_app; [apply ro_nil|]. apply ro_app; [exact (ro_n_iso_own n S v nat pre post HS HN E Hv Ht Hpre Hpost)|].
  apply ro_main; [|exact Hpre|exact Hpost|right; exact Ht].
  split; [exact Hv|]. split; [exact HT|]. intros [F _]. exact (N1 F).
Qed.

(** Any target. *)
Theorem ro_n_resolved : forall n S T nat pre post, resolved S T post -> Forall pre_usable pre -> Forall post_usable post ->
  raises_only no_exn (convert_n (Datatypes.S (Datatypes.S (Datatypes.S n))) (Args S T nat pre post)).
Proof.
  intros n S T nat pre post (HS & HT & HX & HN & Ht) Hpre Hpost.
  destruct HT as [HT|HT].
  { destruct HS as [HS|HS]; [exact (ro_n_listed _ S T nat pre post (conj HS (conj HT HX)) Ht Hpre Hpost)|].
    exact (ro_n_iso_source _ S T nat pre post HS HN HT (tables_iso S T post (or_introl HS) Ht) Hpre Hpost). }
  pose proof (tables_iso S T post (or_intror HT) Ht) as Hno. destruct (iso_via T HT) as (v & E & Hv & N1 & N2).
  change (convert_n (Datatypes.S (Datatypes.S (Datatypes.S n))) (Args S T nat pre post)) with (convert_step (convert_n (Datatypes.S (Datatypes.S n))) (Args S T nat pre post)).
  rewrite step_resolved; [|exact HS|now right]. unfold iso_part. rewrite E.
  destruct (iso_target_option T HT) as (O1 & O2 & O3).
  apply ro_app.
  { apply ro_if; [apply ro_nil|]. destruct HS as [HS|HS].
    - apply ro_n_listed; [|right; exact Hno|exact Hpre|exact Hpost]. split; [exact HS|]. split; [exact Hv|]. intros [_ F]. exact (N2 F).
    - exact (ro_n_iso_source _ S v nat pre post HS HN Hv Hno Hpre Hpost). }
  rewrite (listed_no_iso v Hv). apply ro_app; [apply ro_nil|]. apply ro_main.
  - split; [exact Hv|]. split; [exact latn_listed|]. intros [F _]. exact (N1 F).
  - constructor; [exact O1|exact Hpre].
  - constructor; [exact O2|exact Hpost].
  - right. apply no_tables_cons; assumption.
Qed.

(** *** RomanLoC *)
Definition pre_extra (o : str) : bool := mem o PrP_names && negb (mem o pre_unusable).
Definition post_extra (o : str) : bool := mem o PP_names && negb (mem o post_unusable) && negb (mem o table_options).
Lemma pre_extras : forall l, forallb pre_extra l = true -> Forall pre_usable l.
Proof.
  intros l. induction l as [|o l IH]; intros H; [constructor|]. cbn [forallb] in H. apply andb_true_iff in H as [H1 H2].
  constructor; [|now apply IH]. clear -H1. unfold pre_extra in H1. apply andb_true_iff in H1 as [A B]. apply negb_true_iff in B.
  split; [now apply mem_In|now apply mem_false].
Qed.
Lemma post_extras : forall l, forallb post_extra l = true -> Forall post_usable l /\ (forall post, no_tables post -> no_tables (l ++ post)).
Proof.
  intros l. induction l as [|o l IH]; intros H; [split; [constructor|easy]|]. cbn [forallb] in H. apply andb_true_iff in H as [H1 H2].
  destruct (IH H2) as [I1 I2]. clear -H1 I1 I2. unfold post_extra in H1. apply andb_true_iff in H1 as [H1 C]. apply andb_true_iff in H1 as [A B].
  apply negb_true_iff in B, C. split.
  - constructor; [|exact I1]. split; [now apply mem_In|now apply mem_false].
  - intros post N. apply (no_tables_cons o (l ++ post)); [now apply mem_false|now apply I2].
Qed.

Definition batak : list str := ["BatakKaro"%u; "BatakManda"%u; "BatakPakpak"%u; "BatakSima"%u; "BatakToba"%u].
Definition loc : list str := filter (fun s => negb (mem s batak)) GM_LoCScripts.

Lemma loc_target_frame : forall S nat pre post, let a := loc_target (Args S "RomanLoC"%u nat [] []) in
  loc_target (Args S "RomanLoC"%u nat pre post) = Args (a_src a) (a_tgt a) (a_nat a) (pre ++ a_pre a) (a_post a ++ post).
Proof.
  intros S nat pre post. cbv zeta. unfold loc_target. destruct (str_eqb "RomanLoC"%u "RomanLoC"%u && mem S GM_LoCScripts).
  - set (S' := if mem S GM_LoCSrcMap then S ++ "LoC"%u else if contains "Tham"%u S then "ThamLoC"%u else S). clearbody S'.
    set (T' := if mem S' GM_LoCTgtMap then S' ++ "RomanLoC"%u else if mem S' GM_LoCTgtISO then "ISO"%u else "RomanLoC"%u). clearbody T'.
    destruct (mem S' GM_LocPostPre).
    + destruct (mem S' ["KhmerLoC"%u]); cbn [a_src a_tgt a_nat a_pre a_post]; rewrite <- ?app_assoc; reflexivity.
    + cbn [a_src a_tgt a_nat a_pre a_post]. now rewrite app_nil_r.
  - cbn [a_src a_tgt a_nat a_pre a_post]. now rewrite app_nil_r.
Qed.

Definition args_check (a : args) : bool :=
  mem (a_src a) listed && mem (a_tgt a) listed && negb (str_eqb (a_tgt a) "IPA"%u) && forallb pre_extra (a_pre a) && forallb post_extra (a_post a).
Lemma args_checked : forall a, args_check a = true ->
  In (a_src a) listed /\ In (a_tgt a) listed /\ a_tgt a <> "IPA"%u /\ Forall pre_usable (a_pre a) /\ Forall post_usable (a_post a)
  /\ (forall post, no_tables post -> no_tables (a_post a ++ post)).
Proof.
  intros [S T nat pre post]. unfold args_check. cbn [a_src a_tgt a_nat a_pre a_post]. generalize listed. intros l.
  intros H. apply andb_true_iff in H as [H C5]. apply andb_true_iff in H as [H C4]. apply andb_true_iff in H as [H C3]. apply andb_true_iff in H as [C1 C2].
  apply mem_In in C1, C2. apply negb_true_iff in C3. apply str_eqb_neq in C3. apply pre_extras in C4. destruct (post_extras _ C5) as [C6 C7].
  exact (conj C1 (conj C2 (conj C3 (conj C4 (conj C6 C7))))).
Qed.
Lemma loc_targets : forall S nat, In S loc -> args_check (loc_target (Args S "RomanLoC"%u nat [] [])) = true.
Proof.
  intros S [|]; revert S.
  - apply (proj1 (forallb_forall (fun S => args_check (loc_target (Args S "RomanLoC"%u true [] []))) loc)). vm_compute. reflexivity.
  - apply (proj1 (forallb_forall (fun S => args_check (loc_target (Args S "RomanLoC"%u false [] []))) loc)). vm_compute. reflexivity.
Qed.
Lemma loc_sources : forall T nat, In T loc -> args_check (loc_source (Args "RomanLoC"%u T nat [] [])) = true.
Proof.
  intros S [|]; revert S.
  - apply (proj1 (forallb_forall (fun T => args_check (loc_source (Args "RomanLoC"%u T true [] []))) loc)). vm_compute. reflexivity.
  - apply (proj1 (forallb_forall (fun T => args_check (loc_source (Args "RomanLoC"%u T false [] []))) loc)). vm_compute. reflexivity.
Qed.
Lemma loc_source_frame : forall T nat pre post, let a := loc_source (Args "RomanLoC"%u T nat [] []) in
  exists pre', (pre' = pre ++ a_pre a \/ pre' = a_pre a ++ pre)
    /\ loc_source (Args "RomanLoC"%u T nat pre post) = Args (a_src a) (a_tgt a) (a_nat a) pre' (a_post a ++ post).
Proof.
  intros T nat pre post. cbv zeta. unfold loc_source. destruct (str_eqb "RomanLoC"%u "RomanLoC"%u && mem T GM_LoCScripts).
  - set (T' := if mem T GM_LoCSrcMap then T ++ "LoC"%u else if contains "Tham"%u T then "ThamLoC"%u else T). clearbody T'.
    set (S' := if mem T' GM_LoCTgtMap then T' ++ "RomanLoC"%u else if mem T' GM_LoCTgtISO then "ISO"%u else "RomanLoC"%u). clearbody S'.
    destruct (mem T' GM_LocPostPre); cbn [a_src a_tgt a_nat a_pre a_post]; eexists.
    + split; [right; reflexivity|]. rewrite <- ?app_assoc. reflexivity.
    + split; [left; reflexivity|]. now rewrite app_nil_r.
  - cbn [a_src a_tgt a_nat a_pre a_post]. exists pre. split; [left; now rewrite app_nil_r|reflexivity].
Qed.

Lemma loc_no_tables : forall S T post, S = "RomanLoC"%u \/ T = "RomanLoC"%u -> tables_fit S T post -> no_tables post.
Proof.
  intros S T post H [[A B]|N]; [exfalso|exact N].
  apply tabled_tables in A. apply tabled_tables in B. apply tabled_listed in A. apply tabled_listed in B.
  apply listed_no_loc in A. apply listed_no_loc in B. destruct H as [-> | ->]; rewrite str_eqb_refl in *; discriminate.
Qed.

Lemma resolve_done : forall S T nat pre post, (In S listed \/ In S iso_keys) -> (In T listed \/ In T iso_keys) ->
  let a := Args S T nat pre post in
  loc_source_mark a ++ iso_part (convert_n 2) (loc_source_other (loc_source a)) = convert_n 3 a.
Proof.
  intros S T nat pre post HS HT. cbv zeta. change (convert_n 3 (Args S T nat pre post)) with (convert_step (convert_n 2) (Args S T nat pre post)).
  rewrite (step_resolved _ S T nat pre post HS HT). apply resolved_no_loc in HS.
  unfold loc_source_mark, loc_source. rewrite HS. cbn [andb app]. unfold loc_source_other. rewrite HS. reflexivity.
Qed.

Definition names : list str := listed ++ ["RomanLoC"%u] ++ iso_keys.
Lemma in_middle : forall (x s : str) l k, In s (l ++ [x] ++ k) -> s = x \/ (In s l \/ In s k).
Proof.
  intros x s l k H. apply in_app_or in H as [H|[H|H]]; [right; left; exact H|left; now symmetry|right; right; exact H].
Qed.
Lemma names_cases : forall s, In s names -> s = "RomanLoC"%u \/ (In s listed \/ In s iso_keys).
Proof. exact (fun s => in_middle "RomanLoC"%u s listed iso_keys). Qed.
Lemma loc_listed : forall s, In s GM_LoCScripts -> In s listed.
Proof. apply sublist. vm_compute. reflexivity. Qed.
Lemma in_loc : forall s, In s GM_LoCScripts -> ~ In s batak -> In s loc.
Proof. intros s H N. unfold loc. apply filter_In. split; [exact H|]. apply negb_true_iff. now apply mem_false. Qed.
Lemma iso_listed : In "ISO"%u listed.
Proof. listed_name. Qed.
Lemma iso233_key : In "ISO233"%u iso_keys.
Proof. listed_name. Qed.

Theorem ro_convert : forall S T nat pre post, In S names -> In T names ->
  ~ (S = "Tamil"%u /\ T = "IPA"%u) -> S <> "PersianDMG"%u ->
  ~ (In S batak /\ T = "RomanLoC"%u) -> ~ (S = "RomanLoC"%u /\ In T batak) ->
  Forall pre_usable pre -> Forall post_usable post -> tables_fit S T post ->
  raises_only no_exn (convert_prog S T nat pre post).
Proof.
  intros S T nat pre post HS HT HX HN HB HB' Hpre Hpost Ht. unfold convert_prog.
  apply names_cases in HS, HT.
  destruct HT as [HT|HT].
  - (* target RomanLoC *)
    pose proof (loc_no_tables S T post (or_intror HT) Ht) as Hno. rewrite HT in *. clear HT Ht T.
    change (convert_n 3 (Args S "RomanLoC"%u nat pre post)) with (convert_step (convert_n 2) (Args S "RomanLoC"%u nat pre post)).
    rewrite convert_step_parts.
    destruct (mem S GM_LoCScripts) eqn:ML.
    + apply mem_In in ML. assert (HL : In S loc) by (apply in_loc; [exact ML|intros B; exact (HB (conj B eq_refl))]).
      destruct (args_checked _ (loc_targets S nat HL)) as (A1 & A2 & A3 & A4 & A5 & A6).
      rewrite (loc_target_frame S nat pre post). cbv zeta.
      destruct (loc_target (Args S "RomanLoC"%u nat [] [])) as [S' T' nat' P Q]. cbn [a_src a_tgt a_nat a_pre a_post] in *.
      assert (E : loc_target_other (Args S' T' nat' (pre ++ P) (Q ++ post)) = Args S' T' nat' (pre ++ P) (Q ++ post)).
      { unfold loc_target_other. rewrite (listed_no_loc T' A2). reflexivity. }
      rewrite E. rewrite (resolve_done S' T' nat' (pre ++ P) (Q ++ post) (or_introl A1) (or_introl A2)).
      apply ro_n_resolved.
      * split; [left; exact A1|]. split; [left; exact A2|]. split; [intros [_ F]; exact (A3 F)|]. split.
        { intros F. rewrite F in A1. apply listed_no_iso in A1. discriminate. }
        right. now apply A6.
      * apply Forall_app. split; assumption.
      * apply Forall_app. split; assumption.
    + assert (E : loc_target (Args S "RomanLoC"%u nat pre post) = Args S "RomanLoC"%u nat pre post).
      { unfold loc_target. rewrite ML, andb_false_r. reflexivity. }
      rewrite E. unfold loc_target_other. rewrite ML, str_eqb_refl. cbn [andb negb].
      destruct HS as [HS|HS].
      * rewrite HS. assert (M : mem "RomanLoC"%u GM_SemiticScripts = false) by (vm_compute; reflexivity). rewrite M.
        assert (E1 : loc_source_mark (Args "RomanLoC"%u "ISO"%u nat pre post) = []) by (vm_compute; reflexivity).
        assert (E2 : loc_source_other (loc_source (Args "RomanLoC"%u "ISO"%u nat pre post)) = Args "ISO"%u "ISO"%u nat pre post)
          by (vm_compute; reflexivity).
        rewrite E1, E2. cbn [app]. rewrite <- (step_resolved (convert_n 2) "ISO"%u "ISO"%u nat pre post (or_introl iso_listed) (or_introl iso_listed)).
        apply (ro_n_listed 2 "ISO"%u "ISO"%u nat pre post); [|right; exact Hno|exact Hpre|exact Hpost].
        split; [exact iso_listed|]. split; [exact iso_listed|]. intros [F _]. discriminate.
      * destruct (mem S GM_SemiticScripts);
          [rewrite (resolve_done S "ISO233"%u nat pre post HS (or_intror iso233_key))
          |rewrite (resolve_done S "ISO"%u nat pre post HS (or_introl iso_listed))];
          (apply ro_n_resolved; [|exact Hpre|exact Hpost]);
          (split; [exact HS|split; [|split; [|split; [exact HN|right; exact Hno]]]]);
          [right; exact iso233_key|intros [_ F]; discriminate|left; exact iso_listed|intros [_ F]; discriminate].
  - destruct HS as [HS|HS].
    + (* source RomanLoC *)
      pose proof (loc_no_tables S T post (or_introl HS) Ht) as Hno. rewrite HS in *. clear HS Ht S.
      change (convert_n 3 (Args "RomanLoC"%u T nat pre post)) with (convert_step (convert_n 2) (Args "RomanLoC"%u T nat pre post)).
      rewrite convert_step_parts.
      assert (E : loc_target_other (loc_target (Args "RomanLoC"%u T nat pre post)) = Args "RomanLoC"%u T nat pre post).
      { unfold loc_target. rewrite (resolved_no_loc T HT). cbn [andb]. unfold loc_target_other. rewrite (resolved_no_loc T HT). reflexivity. }
      rewrite E. apply ro_app; [unfold loc_source_mark; apply ro_if; leaf|].
      destruct (mem T GM_LoCScripts) eqn:ML.
      * apply mem_In in ML. assert (HL : In T loc) by (apply in_loc; [exact ML|intros B; exact (HB' (conj eq_refl B))]).
        destruct (args_checked _ (loc_sources T nat HL)) as (A1 & A2 & A3 & A4 & A5 & A6).
        destruct (loc_source_frame T nat pre post) as (pre' & Hpre' & ->).
        destruct (loc_source (Args "RomanLoC"%u T nat [] [])) as [S' T' nat' P Q]. cbn [a_src a_tgt a_nat a_pre a_post] in *.
        unfold loc_source_other. rewrite (listed_no_loc S' A1). cbn [andb].
        rewrite <- (step_resolved (convert_n 2) S' T' nat' pre' (Q ++ post) (or_introl A1) (or_introl A2)).
        apply (ro_n_listed 2 S' T' nat' pre' (Q ++ post)).
        { split; [exact A1|]. split; [exact A2|]. intros [_ F]. exact (A3 F). }
        { right. now apply A6. }
        { destruct Hpre' as [-> | ->]; apply Forall_app; split; assumption. }
        { apply Forall_app. split; assumption. }
      * assert (E1 : loc_source (Args "RomanLoC"%u T nat pre post) = Args "RomanLoC"%u T nat pre post).
        { unfold loc_source. rewrite ML, andb_false_r. reflexivity. }
        rewrite E1. unfold loc_source_other. rewrite ML, str_eqb_refl. cbn [andb negb].
        destruct (mem T GM_SemiticScripts);
          [rewrite <- (step_resolved (convert_n 2) "ISO233"%u T nat pre post (or_intror iso233_key) HT);
           apply (ro_n_resolved 0 "ISO233"%u T nat pre post); [|exact Hpre|exact Hpost]
          |rewrite <- (step_resolved (convert_n 2) "ISO"%u T nat pre post (or_introl iso_listed) HT);
           apply (ro_n_resolved 0 "ISO"%u T nat pre post); [|exact Hpre|exact Hpost]];
          (split; [|split; [exact HT|split; [|split; [|right; exact Hno]]]]);
          [right; exact iso233_key|intros [F _]; discriminate|discriminate|left; exact iso_listed|intros [F _]; discriminate|discriminate].
    + apply ro_n_resolved; [|exact Hpre|exact Hpost]. exact (conj HS (conj HT (conj HX (conj HN Ht)))).
Qed.
