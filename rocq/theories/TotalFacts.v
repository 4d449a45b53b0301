(** Conversions return a string whatever the text (C08). *)
From Coq Require Import List NArith Bool Lia.
From Verif Require Import PyStr Unicode Prog GMLists Dispatch GimelData Convert Transliterate StrFacts SortFacts ConvertFacts ApiFacts OptionFacts Safe SafeFacts.
Import ListNotations.

(** ** Specification *)

(** The names convert_default knows (transliterate.py:571) and the four Semitic romanizations that
    have tables of their own (GeneralMap.py semiticISO). *)
Definition supported : list str := GM_IndicScripts ++ GM_LatinScripts ++ GM_SemiticScripts ++ map fst GM_semiticISO.

(** The exceptions. Each is discussed below. *)
Definition Bataks : list str := ["BatakKaro"%u; "BatakManda"%u; "BatakPakpak"%u; "BatakSima"%u; "BatakToba"%u].
Record good_pair (S T : str) : Prop := {
  gp_src : In S supported;
  gp_tgt : In T supported;
  gp_src_num : S <> "Kharoshthi"%u /\ S <> "OldPersian"%u;
  gp_tgt_num : T <> "Kharoshthi"%u /\ T <> "OldPersian"%u;
  gp_dmg : S <> "PersianDMG"%u;
  gp_ipa : ~ (S = "Tamil"%u /\ T = "IPA"%u);
  gp_batak : ~ (In S Bataks /\ T = "RomanLoC"%u);
  gp_batak' : ~ (S = "RomanLoC"%u /\ In T Bataks) }.

(** Options that are functions of PreProcess.py / PostProcess.py and can be called with the text
    alone; the four that use tables want two scripts that have tables. *)
Definition table_option (o : str) : Prop :=
  o = "romanNumerals"%u \/ o = "indicNumerals"%u \/ o = "romanFullStop"%u \/ o = "indicDandas"%u.
Definition has_tables (s : str) : Prop :=
  (In s GM_IndicScripts \/ In s GM_LatinScripts)
  /\ s <> "RomanLoC"%u /\ s <> "Hebrew"%u /\ s <> "Thaana"%u /\ s <> "Urdu"%u /\ s <> "Shahmukhi"%u.
Definition good_post (S T : str) (post : list str) : Prop :=
  Forall (fun o => In o PP_names /\ ~ In o post_unusable) post
  /\ ((has_tables S /\ has_tables T) \/ forall o, table_option o -> ~ In o post).
Definition good_pre (pre : list str) : Prop := Forall (fun o => In o PrP_names /\ ~ In o pre_unusable) pre.

(** ** Proof *)
Lemma list_if : forall (f : str -> bool) (l B : list str), forallb (fun s => implb (f s) (mem s B)) l = true ->
  forall s, In s l -> f s = true -> In s B.
Proof. intros f l B C s H M. rewrite forallb_forall in C. specialize (C s H). cbv beta in C. rewrite M in C. apply mem_In. exact C. Qed.
Lemma supported_names : forall s, In s supported -> negb (str_eqb s "Kharoshthi"%u) && negb (str_eqb s "OldPersian"%u) = true -> In s names.
Proof. apply (list_if (fun s => negb (str_eqb s "Kharoshthi"%u) && negb (str_eqb s "OldPersian"%u)) supported names). vm_compute. reflexivity. Qed.
Lemma in_names : forall s, In s supported -> s <> "Kharoshthi"%u /\ s <> "OldPersian"%u -> In s names.
Proof.
  intros s H [A B]. apply supported_names; [exact H|]. apply str_eqb_neq in A. apply str_eqb_neq in B. rewrite A, B. reflexivity.
Qed.
Definition tables_check (s : str) : bool :=
  negb (str_eqb s "Kharoshthi"%u) && negb (str_eqb s "OldPersian"%u) && negb (str_eqb s "RomanLoC"%u) && negb (str_eqb s "Hebrew"%u)
  && negb (str_eqb s "Thaana"%u) && negb (str_eqb s "Urdu"%u) && negb (str_eqb s "Shahmukhi"%u).
Lemma tables_tabled : forall s, In s (GM_IndicScripts ++ GM_LatinScripts) -> tables_check s = true -> In s tabled.
Proof. apply (list_if tables_check (GM_IndicScripts ++ GM_LatinScripts) tabled). vm_compute. reflexivity. Qed.
Lemma has_tables_tabled : forall s, has_tables s -> s <> "Kharoshthi"%u /\ s <> "OldPersian"%u -> In s tabled.
Proof.
  intros s (H & A1 & A2 & A3 & A4 & A5) [B1 B2]. apply tables_tabled; [apply in_or_app; exact H|].
  unfold tables_check. apply str_eqb_neq in A1, A2, A3, A4, A5, B1, B2. rewrite A1, A2, A3, A4, A5, B1, B2. reflexivity.
Qed.
Lemma good_tables : forall S T post, good_pair S T -> good_post S T post -> tables_fit S T post.
Proof.
  intros S T post P [_ [[A B]|N]].
  - left. split; [exact (has_tables_tabled S A (gp_src_num _ _ P))|exact (has_tables_tabled T B (gp_tgt_num _ _ P))].
  - right. intros o H. apply N. destruct H as [<-|[<-|[<-|[<-|[]]]]].
    + left. reflexivity.
    + right. left. reflexivity.
    + right. right. left. reflexivity.
    + right. right. right. reflexivity.
Qed.

(** C08 for [transliterate.convert]: for supported scripts and options, a string results from every
    text, whatever its characters. *)
Theorem convert_total : forall S T, good_pair S T -> forall pre post, good_pre pre -> good_post S T post ->
  forall nativize txt, exists r, convert S T txt nativize pre post = Ok r.
Proof.
  intros S T P pre post Hpre Hpost nat txt. unfold convert. apply raises_nothing.
  pose proof (in_names S (gp_src _ _ P) (gp_src_num _ _ P)) as HS. pose proof (in_names T (gp_tgt _ _ P) (gp_tgt_num _ _ P)) as HT.
  exact (ro_convert S T nat pre post HS HT (gp_ipa _ _ P) (gp_dmg _ _ P) (gp_batak _ _ P) (gp_batak' _ _ P) Hpre (proj1 Hpost)
           (good_tables S T post P Hpost)).
Qed.

Lemma convert_default_value : forall S T txt nat post pre,
  snd (convert_default S T txt nat post pre) = convert S T txt nat (resolve_options PrP_names pre) (resolve_options PP_names post).
Proof. intros. unfold convert_default. rewrite !warn_snd. reflexivity. Qed.
Lemma resolve_in : forall l opts o, In o (resolve_options l opts) -> In o l /\ exists p, In p opts /\ py_lower p = py_lower o.
Proof.
  intros l opts o H. unfold resolve_options in H. apply in_flat_map in H as (p & Hp & H). apply filter_In in H as [H E].
  split; [exact H|]. exists p. split; [exact Hp|]. now apply str_eqb_eq.
Qed.

Section Public.
Variable uname : N -> option str.
Variable uscript : N -> str.
Variable lfind : str -> res str.

(** C08 for [transliterate.process]: the same through the public function, the names and the options
    in any case; unknown options do not matter. *)
Theorem process_total : forall src tgt post pre, src <> "autodetect"%u -> good_pair (canonical_name src) (canonical_name tgt) ->
  (forall o p, In o pre -> In p pre_unusable -> py_lower o <> py_lower p) ->
  (forall o p, In o post -> In p post_unusable -> py_lower o <> py_lower p) ->
  (forall o p, In o post -> table_option p -> py_lower o <> py_lower p) ->
  forall nativize txt, exists r, snd (process uname uscript lfind src tgt txt nativize post pre "default"%u) = Ok r.
Proof.
  intros src tgt post pre Ha P H1 H2 H3 nat txt. unfold process. rewrite str_eqb_refl. rewrite process_default_known by assumption. rewrite convert_default_value.
  apply convert_total; [exact P| |].
  - apply Forall_forall. intros o H. apply resolve_in in H as [H (p & Hp & E)]. split; [exact H|]. intros F. exact (H1 p o Hp F E).
  - split.
    + apply Forall_forall. intros o H. apply resolve_in in H as [H (p & Hp & E)]. split; [exact H|]. intros F. exact (H2 p o Hp F E).
    + right. intros o Ho H. apply resolve_in in H as [_ (p & Hp & E)]. exact (H3 p o Hp Ho E).
Qed.
(** Without options, as C08 says. *)
Corollary process_total_plain : forall src tgt, src <> "autodetect"%u -> good_pair (canonical_name src) (canonical_name tgt) ->
  forall nativize txt, exists r, snd (process uname uscript lfind src tgt txt nativize [] [] "default"%u) = Ok r.
Proof.
  intros src tgt Ha P. apply process_total; [exact Ha|exact P| | |]; intros o p [].
Qed.

End Public.

(** ** The hypotheses can be met *)
Definition good_restb (S T : str) : bool :=
  negb (mem S ["Kharoshthi"%u; "OldPersian"%u; "PersianDMG"%u])
  && negb (mem T ["Kharoshthi"%u; "OldPersian"%u]) && negb (str_eqb S "Tamil"%u && str_eqb T "IPA"%u)
  && negb (mem S Bataks && str_eqb T "RomanLoC"%u) && negb (str_eqb S "RomanLoC"%u && mem T Bataks).
Definition good_pairb (S T : str) : bool := mem S supported && mem T supported && good_restb S T.
Lemma good_pair_check : forall S T, good_pairb S T = true -> good_pair S T.
Proof.
  intros S T. unfold good_pairb, good_restb. rewrite !andb_assoc. intros H. repeat (apply andb_true_iff in H as [H ?]).
  repeat match goal with H : negb _ = true |- _ => apply negb_true_iff in H end.
  constructor.
  - now apply mem_In.
  - now apply mem_In.
  - match goal with H : mem S _ = false |- _ => apply mem_false in H; split; intros E; apply H; rewrite E end; [left|right; left]; reflexivity.
  - match goal with H : mem T [_;_] = false |- _ => apply mem_false in H; split; intros E; apply H; rewrite E end; [left|right; left]; reflexivity.
  - match goal with H : mem S _ = false |- _ => apply mem_false in H; intros E; apply H; rewrite E end. right; right; left; reflexivity.
  - intros [E1 E2]. rewrite E1, E2, !str_eqb_refl in *. discriminate.
  - intros [E1 E2]. apply mem_In in E1. rewrite E1, E2, !str_eqb_refl in *. discriminate.
  - intros [E1 E2]. apply mem_In in E2. rewrite E1, E2, !str_eqb_refl in *. discriminate.
Qed.
Example devanagari_thai : good_pair "Devanagari"%u "Thai"%u.
Proof. apply good_pair_check. vm_compute. reflexivity. Qed.
Example loc_gurmukhi : good_pair "RomanLoC"%u "Gurmukhi"%u.
Proof. apply good_pair_check. vm_compute. reflexivity. Qed.
Example hebrew_names : good_pair (canonical_name "ISO259"%u) (canonical_name "devaNAGARI"%u).
Proof. apply good_pair_check. vm_compute. reflexivity. Qed.

(** 32931 of the 33856 ordered pairs of supported names are good. *)
Definition pairs_covered : N :=
  fold_left (fun n S => fold_left (fun n T => if good_restb S T then N.succ n else n) supported n) supported 0%N.
Example most_pairs : pairs_covered = 32931%N /\ N.of_nat (length supported * length supported) = 33856%N.
Proof. split; vm_compute; reflexivity. Qed.
Example good_options : good_pre ["ThaiPhonetic"%u] /\ good_post "Tamil"%u "Malayalam"%u ["indicNumerals"%u; "capitalizeSentence"%u].
Proof.
  assert (U : forall o l l', mem o l && negb (mem o l') = true -> In o l /\ ~ In o l').
  { intros o l l' H. apply andb_true_iff in H as [A B]. apply negb_true_iff in B. split; [exact (proj1 (mem_In _ _) A)|exact (proj1 (mem_false _ _) B)]. }
  assert (I : In "Tamil"%u GM_IndicScripts /\ In "Malayalam"%u GM_IndicScripts).
  { split; apply mem_In; vm_compute; reflexivity. }
  split; [|split; [|left; split; (split; [left; first [exact (proj1 I)|exact (proj2 I)]|]); do 4 (split; [discriminate|]); discriminate]].
  - apply Forall_cons; [apply U; vm_compute; reflexivity|apply Forall_nil].
  - apply Forall_cons; [apply U; vm_compute; reflexivity|]. apply Forall_cons; [apply U; vm_compute; reflexivity|apply Forall_nil].
Qed.

(** ** The exceptions are real *)

(** Without them the claim is false: a supported pair, no options, and an exception. PersianDMG has
    no function for itself as a source; the five Batak scripts go by the name Batak in the tables of
    RomanLoC; 22 digits are too many for the Old Persian numerals. (Tamil to IPA asks a web site.) *)
Theorem always_a_string_refuted :
  In "PersianDMG"%u supported /\ In "BatakKaro"%u supported /\ In "RomanLoC"%u supported /\ In "OldPersian"%u supported
  /\ In "Devanagari"%u supported
  /\ convert "PersianDMG"%u "Devanagari"%u "a"%u true [] [] = Err AttributeError
  /\ convert "BatakKaro"%u "RomanLoC"%u [] true [] [] = Err IndexError
  /\ convert "RomanLoC"%u "BatakKaro"%u [] true [] [] = Err ModuleNotFound
  /\ convert "Devanagari"%u "OldPersian"%u "9999999999999999999999"%u true [] [] = Err OverflowError
  /\ convert "Tamil"%u "IPA"%u "a"%u true [] [] = Err (External "requests.get"%u).
Proof.
  split; [apply mem_In; vm_compute; reflexivity|]. split; [apply mem_In; vm_compute; reflexivity|].
  split; [apply mem_In; vm_compute; reflexivity|]. split; [apply mem_In; vm_compute; reflexivity|].
  split; [apply mem_In; vm_compute; reflexivity|].
  split; [vm_compute; reflexivity|]. split; [vm_compute; reflexivity|]. split; [vm_compute; reflexivity|].
  split; vm_compute; reflexivity.
Qed.
(** The options with tables fail for scripts without: romanFullStop towards Arab, indicDandas from it. *)
Theorem table_options_refuted :
  convert "Devanagari"%u "Arab"%u "a"%u true [] ["romanFullStop"%u] = Err IndexError
  /\ convert "Arab"%u "Devanagari"%u "a"%u true [] ["indicDandas"%u] = Err IndexError.
Proof. split; vm_compute; reflexivity. Qed.
(** The options that are left out: those of OptionFacts.v, that raise whatever the text, and two
    more, one of which needs a library that is not modelled. *)
Theorem unusable_options : forall o, (In o post_unusable <-> In o unusable_post \/ o = "GranthaPrakrit"%u)
  /\ (In o pre_unusable <-> In o unusable_pre \/ o = "KhmerWordSplit"%u).
Proof.
  assert (X : forall (x : str) l l', forallb (fun s => mem s (x :: l')) l && forallb (fun s => mem s l) (x :: l') = true ->
    forall o, In o l <-> In o l' \/ o = x).
  { intros x l l' H o. apply andb_true_iff in H as [A B]. rewrite forallb_forall in A, B. split; intros K.
    - apply A in K. apply mem_In in K. destruct K as [<-|K]; [now right|now left].
    - apply mem_In. apply B. destruct K as [K| ->]; [now right|now left]. }
  intros o. split; apply X; vm_compute; reflexivity.
Qed.
