(** * Texts with a separator between them: what holds for every separator that the checks allow (properties C06, C07 and C38).

    Proof machinery, and the conditions that the theorems of LineByLine.v and ForeignApart.v share; no code of /repo is modelled here. *)
From Coq Require Import List NArith ZArith Bool Lia Permutation.
From Verif Require Import PyStr StrFacts UnicodeTables Regex Unicode Prog GMLists GeneralMap FixNum
  PostProcess1 ConvertFix1 PreProcess1 PostProcess2 GimelData Gimeltra Convert Dispatch YamlData Transliterate
  AbsRegex NormCut ReLits SortFacts TableFacts SafeFacts ApiFacts TotalFacts Marks MarkFacts MarkLeak Keeps KeepFacts Foreign LineFacts Lines
  Apart ApartFacts ApartConv ApartMain OmEdges EdgeFacts.
Import ListNotations.
Local Open Scope N_scope.

(** ** Scripts and letters *)
(** Options that are left out where om matters: they join words, or write letters of om. *)
Definition om_pre : list str :=
  [
   "KhmerLoCRomanLoCTarget"%u; "LaoSajhayaOrthography"%u; "LaoSajhayaOrthographywithA"%u; "RemoveSchwaHindi"%u; "joinVowelConsIAST"%u;
   "joinVowelConsISO"%u; "BurmeseRomanLoCSource"%u; "BurmeseRomanLoCTarget"%u; "DivesAkuruAlternateIndVowels"%u; "HebrewSBLSource"%u;
   "ISO259Source"%u; "KhmerLoCRomanLoCSource"%u; "ShanLoCRomanLoCTarget"%u; "SinhalaPali"%u; "longEOISO"%u; "swapEe"%u; "swapEeItrans"%u].

(** For Itrans texts these are left out as well: they write [#], [u] or [U]. *)
Definition itrans_pre : list str := ["IPAIndic"%u; "ISO233Source"%u; "MalayalamRomanLoCFix"%u; "BengaliSwitchYaYYa"%u].

(** Source scripts whose om is one character: it is replaced everywhere. *)
Definition one_om : list str :=
  [
   "TibetanLoC"%u; "GurmukhiLoC"%u; "TamilExtended"%u; "GunjalaGondi"%u; "Ranjana"%u; "Devanagari"%u; "SiddhamDevanagari"%u; "Newa"%u; "Tirhuta"%u;
   "Gujarati"%u; "Gurmukhi"%u; "Tamil"%u; "Grantha"%u; "TamilGrantha"%u; "Tibetan"%u].

(** A letter of om (in both cases, for cased scripts) of the source scripts whose om is a word, replaced only between blanks, punctuation and the ends of the text
    (Convert.py:79-87, 205-212). *)
Definition om_words : list (str * str) :=
  [
   ("DivesAkuru"%u, "𑤉"%u); ("LimbuLoC"%u, "ᤀ"%u); ("ThamLoC"%u, "ᩒ"%u); ("KhmerLoC"%u, "ឱ"%u); ("ShanLoC"%u, "ဢ"%u); ("BengaliRaBa"%u, "ও"%u);
   ("Makasar"%u, "𑻱"%u); ("Nandinagari"%u, "𑦬"%u); ("Kawi"%u, "𑼐"%u); ("Pallava"%u, "ꦎ"%u); ("LaoTham"%u, "ᩒ"%u); ("LueTham"%u, "ᩒ"%u);
   ("KhuenTham"%u, "ᩒ"%u); ("Marchen"%u, "𑲏"%u); ("MasaramGondi"%u, "𑴉"%u); ("Dogra"%u, "𑠈"%u); ("KhamtiShan"%u, "ဢ"%u); ("TaiLaing"%u, "အ"%u);
   ("Mon"%u, "ဥ"%u); ("Shan"%u, "ဢ"%u); ("ZanabazarSquare"%u, "𑨀"%u); ("Rejang"%u, "ꥆ"%u); ("GranthaGrantamil"%u, "ও"%u); ("Multani"%u, "𑊂"%u);
   ("Mahajani"%u, "𑅔"%u); ("Lao2"%u, "ໂ"%u); ("Hanunoo"%u, "ᜢ"%u); ("Buhid"%u, "ᝂ"%u); ("Siddham"%u, "𑖌"%u); ("GranthaPandya"%u, "ഓ"%u);
   ("Vatteluttu"%u, "ஓ"%u); ("Khudawadi"%u, "𑊸"%u); ("Bhaiksuki"%u, "𑰌"%u); ("Sharada"%u, "𑆏"%u); ("Takri"%u, "𑚈"%u); ("SylotiNagri"%u, "ꠅ"%u);
   ("Modi"%u, "𑘌"%u); ("Kaithi"%u, "𑂋"%u); ("Telugu"%u, "ఓ"%u); ("Kannada"%u, "ಓ"%u); ("Malayalam"%u, "ഓ"%u); ("Bengali"%u, "ও"%u);
   ("Oriya"%u, "ଓ"%u); ("Assamese"%u, "ও"%u); ("Saurashtra"%u, "ꢐ"%u); ("TamilBrahmi"%u, "𑀑"%u); ("Sinhala"%u, "ඕ"%u); ("Khmer"%u, "ឱ"%u);
   ("Burmese"%u, "ဥ"%u); ("Balinese"%u, "ᬁ"%u); ("Javanese"%u, "ꦀ"%u); ("Limbu"%u, "ᤀ"%u); ("Lepcha"%u, "ᰣ"%u); ("Sundanese"%u, "ᮇ"%u);
   ("Tagalog"%u, "ᜂ"%u); ("Tagbanwa"%u, "ᝢ"%u); ("Buginese"%u, "ᨕ"%u); ("Chakma"%u, "𑄀"%u); ("MeeteiMayek"%u, "ꯑ"%u); ("BatakKaro"%u, "ᯥ"%u);
   ("BatakPakpak"%u, "ᯥ"%u); ("BatakSima"%u, "ᯥ"%u); ("BatakToba"%u, "ᯥ"%u); ("BatakManda"%u, "ᯥ"%u); ("Cham"%u, "ꨅ"%u); ("TaiTham"%u, "ᩒ"%u);
   ("Lao"%u, "ໂ"%u); ("Brahmi"%u, "𑀑"%u); ("GurmukhiLoCRomanLoC"%u, "Oo"%u); ("TibetanLoCRomanLoC"%u, "Oo"%u); ("LimbuLoCRomanLoC"%u, "Oo"%u);
   ("BalineseSimpleRomanLoC"%u, "Oo"%u); ("BalineseRomanLoC"%u, "Oo"%u); ("JavaneseSimpleRomanLoC"%u, "Oo"%u); ("JavaneseRomanLoC"%u, "Oo"%u);
   ("KannadaRomanLoC"%u, "Oo"%u); ("TeluguRomanLoC"%u, "Oo"%u); ("SinhalaRomanLoC"%u, "Oo"%u); ("OriyaRomanLoC"%u, "Oo"%u);
   ("AssameseRomanLoC"%u, "Oo"%u); ("BengaliRomanLoC"%u, "Oo"%u); ("GujaratiRomanLoC"%u, "Oo"%u); ("DevanagariRomanLoC"%u, "Oo"%u);
   ("ThamLoCRomanLoC"%u, "Oo"%u); ("KhmerLoCRomanLoC"%u, "Oo"%u); ("ShanLoCRomanLoC"%u, "Oo"%u); ("BurmeseRomanLoC"%u, "Oo"%u);
   ("RomanColloquial"%u, "Oo"%u); ("ISOPali"%u, "Oo"%u); ("RomanKana"%u, "Oo"%u); ("Mongolian"%u, "ᠣ"%u); ("SLP1"%u, "Oo"%u); ("Wancho"%u, "𞋦"%u);
   ("Mro"%u, "𖩑"%u); ("IASTPali"%u, "Oo"%u); ("Ariyaka"%u, "Oo"%u); ("RomanReadable"%u, "Oo"%u); ("Aksharaa"%u, "Oo"%u); ("WarangCiti"%u, "𑣿"%u);
   ("SoraSompeng"%u, "𑃦"%u); ("WX-kok"%u, "Oo"%u); ("Avestan"%u, "𐬨"%u); ("Itrans"%u, "OoUu"%u); ("ISO"%u, "Oo"%u); ("IAST"%u, "Oo"%u); ("HK"%u, "Oo"%u);
   ("Titus"%u, "Oo"%u); ("WX"%u, "Oo"%u); ("TolongSiki"%u, "Oo"%u); ("Santali"%u, "ᱳ"%u); ("RussianCyrillic"%u, "Оо"%u)].

(** The same for source scripts where no part of a text may contain the letter. *)
Definition om_texts : list (str * str) :=
  [
   ("Soyombo"%u, "𑩐"%u); ("KhomThai"%u, "อ"%u); ("Khojki"%u, "𑈆"%u); ("Ahom"%u, "𑜒"%u); ("PhagsPa"%u, "ꡡ"%u); ("HanifiRohingya"%u, "𐴡"%u);
   ("Velthuis"%u, "Oo"%u); ("IPA"%u, "Oo"%u)].

(** ** Conditions *)
(** The part of a text before the first blank or line break. *)
Fixpoint first_word (s : str) : str := match s with [] => [] | c :: s => if (c =? 32) || (c =? 10) then [] else c :: first_word s end.
(** The part of a text after the last blank. *)
Fixpoint up_to_blank (s : str) : str := match s with [] => [] | c :: s => if c =? 32 then [] else c :: up_to_blank s end.
Definition last_word (s : str) : str := rev (up_to_blank (rev s)).
(** No character of [s] is one of [l] or has one of them in its canonical decomposition. *)
Definition free_of (l s : str) : Prop := forall c, In c s -> ~ In c l /\ forall d, In d (decomp c) -> ~ In d l.
(** The scripts that the code lists as Indic, and the source as its own target, are reached by way of the replacement of om. *)
Definition om_matters (S T : str) : Prop := In T GM_IndicScripts \/ S = T.
(** What two texts [a] and [b] have to satisfy at the separator between them. *)
Definition may_meet (S T a b : str) : Prop :=
  (In S GM_pipeScripts -> ~ In 124 a /\ ~ In 124 b) /\ (S = "Itrans"%u -> free_of "#O"%u a /\ free_of "#O"%u b)
  /\ (om_matters S T -> forall l, In (S, l) om_words -> free_of l (last_word a) /\ free_of l (first_word b))
  /\ (om_matters S T -> forall l, In (S, l) om_texts -> free_of l a /\ free_of l b).
Definition itr (S : str) : bool := str_eqb S "Itrans"%u.
Definition om_pre_for (i : bool) : list str := if i then om_pre ++ itrans_pre else om_pre.
(** Two scripts, with lists of scripts that are left out. *)
Definition apart_pair (osrc otgt : list str) (S T : str) : Prop :=
  In S (GM_IndicScripts ++ GM_LatinScripts) /\ ~ In S osrc /\ In T (GM_IndicScripts ++ GM_LatinScripts) /\ ~ In T otgt
  /\ ~ (T = "IPA"%u /\ (S = "Sinhala"%u \/ S = "Oriya"%u)) /\ (om_matters S T -> ~ In S ["BarahaNorth"%u; "BarahaSouth"%u; "Inter"%u]).
(** Options, with lists of options that are left out. *)
Definition apart_options (cpre cpost : list str) (S T : str) (pre post : list str) : Prop :=
  (forall o, In o pre -> In o PrP_names /\ ~ In o cpre /\ (om_matters S T \/ S = "Itrans"%u -> ~ In S one_om -> ~ In o (om_pre_for (itr S))))
  /\ (forall o, In o post -> In o PP_names /\ ~ In o cpost).

(** ** The guard that watches line feeds and blanks *)
Definition SP : guard := Guard (fun c => negb (wall c)) (fun neg l => negb (in_set neg l 10) && negb (in_set neg l 32)) false.
Lemma SP_sound : sound SP.
Proof.
  split; [|discriminate]. intros neg l c H Q. cbn [g_set SP] in H. cbn [hush SP]. apply andb_true_iff in H as [H1 H2]. unfold wall.
  destruct (N.eqb_spec c 10) as [->|]; [now rewrite Q in H1|]. destruct (N.eqb_spec c 32) as [->|]; [now rewrite Q in H2|reflexivity].
Qed.
Lemma inert_feed : inert 10.
Proof. split; [vm_compute; reflexivity|]. split; [vm_compute; reflexivity|]. split; [intros b; vm_compute; reflexivity|vm_compute; reflexivity]. Qed.
Lemma inert_blank : inert 32.
Proof. split; [vm_compute; reflexivity|]. split; [vm_compute; reflexivity|]. split; [intros b; vm_compute; reflexivity|vm_compute; reflexivity]. Qed.

(** ** The checks *)
Definition all_scripts : list str := GM_IndicScripts ++ GM_LatinScripts.
Definition bars (S : str) : list N := if str_eqb S "Itrans"%u then [124; 35; 79] else if mem S GM_pipeScripts then [124] else [].
Definition om_letters (i : bool) : list N :=
  if i then [124; 35] ++ "OoUu"%u else flat_map snd (filter (fun e => negb (itr (fst e))) om_words) ++ flat_map snd om_texts.
Definition pre_sep (g : guard) (L : list N) (S R : str) : bool := apts g true L (PrP_PreProcess S R [] []).
Definition edge_ok (e : str * str) : bool :=
  let '(X, l) := e in
  edge_source SP true true (bars X) l X && pre_sep SP (bars X) X "Devanagari"%u && pre_sep SP (bars X) X "Tamil"%u
  && mint true l (PrP_PreProcess X "Devanagari"%u [] []) && mint true l (PrP_PreProcess X "Tamil"%u [] [])
  && among l (om_letters (itr X)) && okc l 10 && okc l 32.
Definition word_ok (g : guard) (X : str) : bool := pre_sep g (bars X) X "Devanagari"%u && pre_sep g (bars X) X "Tamil"%u.
Definition no_bars (X : str) : bool := negb (mem X GM_pipeScripts) && negb (str_eqb X "Itrans"%u).
Definition text_ok (g : guard) (e : str * str) : bool :=
  let '(X, l) := e in lack_ok g l X && pre_sep g l X "Devanagari"%u && pre_sep g l X "Tamil"%u && among l (om_letters false) && no_bars X.
Definition one_ok (g : guard) (S : str) : bool := lack_ok g [] S && pre_sep g [] S "Devanagari"%u && pre_sep g [] S "Tamil"%u && no_bars S.
Definition source_ok (g : guard) (S : str) : bool := sep_source g S && pre_sep g (bars S) S "SLP1"%u.
Definition pre_opt_ok (g : guard) (o : str) : bool := parts g (PrP_call o) && put [124] (PrP_call o).
Definition om_opt_ok (i : bool) (o : str) : bool := parts SP (PrP_call o) && put (om_letters i) (PrP_call o).
Definition unless (l : list str) (f : str -> bool) (x : str) : bool := if mem x l then true else f x.
Lemma unless_ok : forall l f L, forallb (unless l f) L = true -> forall x, In x L -> ~ In x l -> f x = true.
Proof.
  intros l f L H x Hx N. rewrite forallb_forall in H. specialize (H x Hx). unfold unless in H. apply mem_false in N. now rewrite N in H.
Qed.
Lemma closed_checked : forallb closed (nodup (list_eq_dec N.eq_dec) (map snd om_words ++ map snd om_texts)) = true.
Proof. vm_cast_no_check (eq_refl true). Qed.
Lemma bars_closed : forall S, closed (bars S) = true.
Proof. intros S. unfold bars. destruct (str_eqb S "Itrans"%u); [|destruct (mem S GM_pipeScripts)]; vm_compute; reflexivity. Qed.
Lemma letters_closed : forall S l, In (S, l) om_words \/ In (S, l) om_texts -> closed l = true.
Proof.
  intros S l H. pose proof closed_checked as Q. rewrite forallb_forall in Q. apply Q. apply nodup_In. apply in_or_app.
  destruct H as [H|H]; [left|right]; exact (in_map snd _ _ H).
Qed.
Lemma words_checked : forallb edge_ok om_words = true.
Proof. vm_cast_no_check (eq_refl true). Qed.
Lemma om_targets_checked : forallb om_target all_scripts = true.
Proof. vm_cast_no_check (eq_refl true). Qed.

(** ** Words and letters *)
Lemma free_clean : forall l s, free_of l s -> clean l s.
Proof.
  intros l s H. apply Forall_forall. intros c Hc. destruct (H c Hc) as [H1 H2]. unfold okc.
  assert (M : forall d, ~ In d l -> negb (memN d l) = true).
  { intros d Hd. apply negb_true_iff. destruct (memN d l) eqn:E; [|reflexivity]. apply memN_In in E. contradiction. }
  rewrite (M c H1). cbn [andb]. apply forallb_forall. intros d Hd. apply M. now apply H2.
Qed.
Lemma first_word_split : forall b, exists y, b = first_word b ++ y /\ walled y.
Proof.
  induction b as [|c b (y & E & W)]; [exists []; now split|]. cbn [first_word]. destruct ((c =? 32) || (c =? 10)) eqn:H.
  - exists (c :: b). split; [reflexivity|]. cbn [walled]. unfold wall. now rewrite orb_comm.
  - exists y. split; [cbn [app]; now f_equal|exact W].
Qed.
Lemma up_to_blank_split : forall b, exists y, b = up_to_blank b ++ y /\ match y with [] => True | c :: _ => c = 32 end.
Proof.
  induction b as [|c b (y & E & W)]; [exists []; now split|]. cbn [up_to_blank]. destruct (N.eqb_spec c 32) as [->|H].
  - exists (32 :: b). now split.
  - exists y. split; [cbn [app]; now f_equal|exact W].
Qed.
Lemma last_word_split : forall a, exists x, a = x ++ last_word a /\ blank x.
Proof.
  intros a. destruct (up_to_blank_split (rev a)) as (y & E & W). exists (rev y). unfold last_word. split.
  - rewrite <- rev_app_distr, <- E. symmetry. apply rev_involutive.
  - destruct y as [|c y]; [now left|]. subst c. right. exists (rev y). reflexivity.
Qed.
Lemma bar_table : forallb (fun p => forallb (fun d => negb (d =? 124)) (snd p)) decomp_table = true.
Proof. vm_compute. reflexivity. Qed.
Lemma no_bar_free : forall s, ~ In 124 s -> free_of [124] s.
Proof.
  intros s H c Hc. split; [intros [E|[]]; subst c; contradiction|]. intros d Hd [E|[]]. subst d.
  destruct ((0xAC00 <=? c) && (c <=? 0xD7A3)) eqn:R; [pose proof (hangul_bounds c R 124 Hd); lia|].
  unfold decomp in Hd. rewrite R, decomp_trie_eq in Hd. destruct (tfind c (tbuild decomp_table)) as [l|] eqn:E; [|destruct Hd as [Hd|[]]; subst c; contradiction].
  apply tfind_In in E. pose proof bar_table as Q. rewrite forallb_forall in Q. specialize (Q _ E). cbn [snd] in Q. rewrite forallb_forall in Q. specialize (Q 124 Hd).
  discriminate Q.
Qed.
Lemma bars_clean : forall S s, (In S GM_pipeScripts -> ~ In 124 s) -> (S = "Itrans"%u -> free_of "#O"%u s) -> clean (bars S) s.
Proof.
  intros S s H1 H2. unfold bars. destruct (str_eqb S "Itrans"%u) eqn:E.
  - apply str_eqb_eq in E. subst S. assert (B : In "Itrans"%u GM_pipeScripts) by listed_name. specialize (H1 B). specialize (H2 eq_refl). apply no_bar_free in H1.
    apply free_clean. intros c Hc. destruct (H1 c Hc) as [A1 A2]. destruct (H2 c Hc) as [B1 B2]. 
    assert (K : forall d, ~ In d [124] -> ~ In d "#O"%u -> ~ In d [124; 35; 79]) by (intros d N1 N2 [Q|Q]; [apply N1; now left|exact (N2 Q)]).
    split; [now apply K|]. intros d Hd. apply K; [now apply A2|now apply B2].
  - destruct (mem S GM_pipeScripts) eqn:F; [|apply clean_nil]. apply mem_In in F. apply free_clean. apply no_bar_free. now apply H1.
Qed.
Lemma bars_okc : forall S c, okc [124; 35; 79] c = true -> okc (bars S) c = true.
Proof.
  intros S c H. unfold bars. destruct (str_eqb S "Itrans"%u); [exact H|]. destruct (mem S GM_pipeScripts); [|apply okc_nil].
  revert H. apply okc_among. reflexivity.
Qed.
Lemma bars_none : forall S, no_bars S = true -> bars S = [].
Proof. intros S H. unfold no_bars in H. apply andb_true_iff in H as [H1 H2]. apply negb_true_iff in H1, H2. unfold bars. now rewrite H1, H2. Qed.

(** ** The conversion *)
Lemma put_nv : forall U L p, closed L = true -> among L U = true -> put U p = true -> nv L p.
Proof. intros U L p C M P. exact (nv_check true L (fun _ => C) p (put_mint L U M p P)). Qed.
Lemma put_bars : forall S p, put [124] p = true -> (itr S = true -> put (om_letters true) p = true) -> nv (bars S) p.
Proof.
  intros S p H1 H2. pose proof (bars_closed S) as C. unfold bars, itr in *. destruct (str_eqb S "Itrans"%u) eqn:E.
  - apply (put_nv (om_letters true)); [exact C|vm_compute; reflexivity|now apply H2].
  - apply (put_nv [124]); [exact C|now destruct (mem S GM_pipeScripts)|exact H1].
Qed.
Lemma scripts_listed : forall S, In S all_scripts -> listed S.
Proof. intros S H. unfold listed, indic, latin. apply in_app_or in H as [H|H]; apply mem_In in H; [now left|now right]. Qed.
Lemma not_meant : forall S T, ~ om_matters S T -> S <> T /\ indic T = false.
Proof.
  intros S T H. split; [intros E; apply H; now right|]. unfold indic. apply mem_false. intros Q. apply H. now left.
Qed.
Lemma class_cases : forall T, indic T = true -> pre_class T = "Devanagari"%u \/ pre_class T = "Tamil"%u.
Proof. intros T H. unfold pre_class. rewrite H. destruct (str_eqb T "Tamil"%u); [now right|now left]. Qed.
Lemma target_indic : forall S T, om_matters S T -> indic (if str_eqb S T then "Devanagari"%u else T) = true.
Proof.
  intros S T H. destruct (str_eqb S T) eqn:E; [reflexivity|]. apply str_eqb_neq in E. destruct H as [H|H]; [|contradiction]. now apply mem_In.
Qed.

Lemma hush_okc : forall g w l, inert w -> hush g w = false -> hushed g l = true -> okc l w = true.
Proof.
  intros g w l Iw Hw H. destruct Iw as (D & _). unfold okc. rewrite D. cbn [forallb]. rewrite andb_true_r.
  assert (N : negb (memN w l) = true).
  { apply negb_true_iff. destruct (memN w l) eqn:E; [|reflexivity]. apply memN_In in E. unfold hushed in H. rewrite forallb_forall in H. specialize (H w E). rewrite H in Hw. discriminate Hw. }
  now rewrite N.
Qed.
Section Sep.
Variable g : guard.
Hypothesis Hg : sound g.
Variable w : N.
Hypothesis Hw : hush g w = false.
Hypothesis Iw : inert w.
Variables osrc otgt cpre cpost : list str.
Variable tib : bool.
Hypothesis letters_checked : forallb (fun i => hushed g (om_letters i)) [true; false] = true.
Hypothesis bars_checked : hushed g [124; 35; 79] = true.
Hypothesis sources_checked : forallb (unless osrc (source_ok g)) all_scripts = true.
Hypothesis targets_checked : forallb (unless otgt (sep_target g)) all_scripts = true.
Hypothesis pres_checked : forallb (fun e => unless osrc (word_ok g) (fst e)) om_words = true.
Hypothesis texts_checked : forallb (fun e => unless osrc (fun _ => text_ok g e) (fst e)) om_texts = true.
Hypothesis ones_checked : forallb (unless osrc (one_ok g)) one_om = true.
Hypothesis pre_checked : forallb (unless cpre (pre_opt_ok g)) PrP_names = true.
Hypothesis om_pre_checked : forallb (fun i => forallb (unless (cpre ++ om_pre_for i) (om_opt_ok i)) PrP_names) [true; false] = true.
Hypothesis post_checked : forallb (unless cpost (fun o => parts g (PP_call o))) PP_names = true.
Hypothesis danda_checked : pre_opt_ok g "RetainDevangariDanda"%u && om_opt_ok true "RetainDevangariDanda"%u && om_opt_ok false "RetainDevangariDanda"%u = true.
Hypothesis glob_checked : glob g && glob2 g && variants_ok tib g && sep_source g "Devanagari"%u && lack_ok g [] "Devanagari"%u && sep_target g "Devanagari"%u = true.
Hypothesis om_covered : forallb (unless (osrc ++ ["BarahaNorth"%u; "BarahaSouth"%u; "Inter"%u])
  (fun S => mem S one_om || mem S (map fst om_words) || mem S (map fst om_texts))) all_scripts = true.
Hypothesis left_out : mem "siddhammukta"%u cpre && mem "egrantamil"%u cpre && mem "LaoNative"%u cpost = true.
Hypothesis tib_out : tib || (mem "ranjanalantsa"%u cpost && mem "ranjanawartu"%u cpost) = true.

Lemma both : forall (f : bool -> bool) i, forallb f [true; false] = true -> f i = true.
Proof. intros f i H. rewrite forallb_forall in H. apply H. destruct i; [now left|right; now left]. Qed.
Lemma letters_okc : forall l i, among l (om_letters i) = true -> okc l w = true.
Proof. intros l i H. exact (okc_among l (om_letters i) w H (hush_okc g w (om_letters i) Iw Hw (both (fun i => hushed g (om_letters i)) i letters_checked))). Qed.
Lemma w_bars : okc [124; 35; 79] w = true.
Proof. exact (hush_okc g w [124; 35; 79] Iw Hw bars_checked). Qed.
Lemma clean_sep : forall l a b, okc l w = true -> clean l a -> clean l b -> clean l (a ++ w :: b).
Proof. intros l a b H Ha Hb. apply Forall_app. split; [exact Ha|]. now constructor. Qed.
Lemma bars_pipe : forall (J : rel) S, (forall a b, J a b -> clean (bars S) a /\ clean (bars S) b) -> pipe_apart w J S.
Proof.
  intros J S H M a b Hab. destruct (H a b Hab) as [Ha Hb]. pose proof (clean_sep _ a b (bars_okc S w w_bars) Ha Hb) as Hc.
  assert (N : forall s, clean (bars S) s -> contains "|"%u s = false).
  { intros s. apply clean_lacks. unfold bars. rewrite M. destruct (str_eqb S "Itrans"%u); vm_compute; reflexivity. }
  split; [now apply N|]. split; now apply N.
Qed.
Lemma bars_hash : forall (J : rel) S, (forall a b, J a b -> clean (bars S) a /\ clean (bars S) b) -> hash_apart w J S.
Proof.
  intros J S H M a b Hab. destruct (H a b Hab) as [Ha Hb]. pose proof (clean_sep _ a b (bars_okc S w w_bars) Ha Hb) as Hc.
  assert (N : forall s, clean (bars S) s -> contains "##"%u s = false).
  { intros s. apply clean_lacks. unfold bars. rewrite M. vm_compute. reflexivity. }
  split; [now apply N|]. split; now apply N.
Qed.
Lemma pre_parted : forall o, In o PrP_names -> ~ In o cpre -> parted w (PrP_call o) /\ put [124] (PrP_call o) = true.
Proof.
  intros o H N. pose proof (unless_ok _ _ _ pre_checked o H N) as Q. unfold pre_opt_ok in Q. apply andb_true_iff in Q as [Q1 Q2].
  split; [exact (parted_check g Hg w Hw Iw _ Q1)|exact Q2].
Qed.
Lemma pre_om : forall i o, In o PrP_names -> ~ In o cpre -> ~ In o (om_pre_for i) -> parts SP (PrP_call o) = true /\ put (om_letters i) (PrP_call o) = true.
Proof.
  intros i o H N M. assert (N' : ~ In o (cpre ++ om_pre_for i)) by (intros Q; apply in_app_or in Q as [Q|Q]; contradiction).
  pose proof (unless_ok _ _ _ (both (fun i => forallb (unless (cpre ++ om_pre_for i) (om_opt_ok i)) PrP_names) i om_pre_checked) o H N') as Q. unfold om_opt_ok in Q. now apply andb_true_iff in Q.
Qed.
Lemma post_parted : forall o, In o PP_names -> ~ In o cpost -> parted w (PP_call o).
Proof. intros o H N. exact (parted_check g Hg w Hw Iw _ (unless_ok _ _ _ post_checked o H N)). Qed.
Lemma danda_pre : (parts g (PrP_call "RetainDevangariDanda"%u) = true /\ put [124] (PrP_call "RetainDevangariDanda"%u) = true)
  /\ parts SP (PrP_call "RetainDevangariDanda"%u) = true /\ forall i, put (om_letters i) (PrP_call "RetainDevangariDanda"%u) = true.
Proof.
  pose proof danda_checked as D. apply andb_true_iff in D as [D D3]. apply andb_true_iff in D as [D1 D2]. unfold pre_opt_ok in D1. unfold om_opt_ok in D2, D3.
  apply andb_true_iff in D1 as [D1 D4]. apply andb_true_iff in D2 as [D2 D5]. apply andb_true_iff in D3 as [_ D6]. split; [exact (conj D1 D4)|]. split; [exact D2|].
  intros [|]; [exact D5|exact D6].
Qed.
Definition main := apt_convert g Hg w Hw Iw.

Section Pair.
Variable J : rel.
Variables S T : str.
Hypothesis HP : apart_pair osrc otgt S T.
Hypothesis JB : forall a b, J a b -> clean (bars S) a /\ clean (bars S) b.
Hypothesis JD : nvq J (PrP_call "RetainDevangariDanda"%u).
Hypothesis JA : pair_apart w J S (if str_eqb S T then "Devanagari"%u else T).
Lemma pair_convert : forall nat pre post, (forall o, In o pre -> sep_pre w J o /\ ~ In o cpre) -> (forall o, In o post -> In o PP_names /\ ~ In o cpost) ->
  aptq w J (convert_prog S T nat pre post).
Proof.
  intros nat pre post Hpre Hpost. destruct HP as (S1 & S2 & T1 & T2 & HI & _). pose proof glob_checked as G.
  apply andb_true_iff in G as [G G6]. apply andb_true_iff in G as [G G5]. apply andb_true_iff in G as [G G4]. apply andb_true_iff in G as [G G3]. apply andb_true_iff in G as [G1 G2].
  assert (HS : sep_source g S = true).
  { pose proof (unless_ok _ _ _ sources_checked S S1 S2) as Q. unfold source_ok in Q. now apply andb_true_iff in Q as [Q _]. }
  apply (main G1 G2 tib G3 G4 G5 G6 J S T nat pre post HS (unless_ok _ _ _ targets_checked T T1 T2) JA (bars_pipe J S JB) (bars_hash J S JB) JD).
  - intros [E|E] F; apply HI; split; auto.
  - split; [apply Forall_forall; intros o Ho; exact (proj1 (Hpre o Ho))|]. split; [apply Forall_forall; intros o Ho; destruct (Hpost o Ho) as [P1 P2]; exact (post_parted o P1 P2)|].
    pose proof left_out as K. apply andb_true_iff in K as [K K3]. apply andb_true_iff in K as [K1 K2].
    split; [intros Q; apply (proj2 (Hpre _ Q)); now apply mem_In|]. split; [intros Q; apply (proj2 (Hpre _ Q)); now apply mem_In|].
    split; [intros Q; apply (proj2 (Hpost _ Q)); now apply mem_In|]. pose proof tib_out as R. apply orb_true_iff in R as [R|R]; [now left|right].
    apply andb_true_iff in R as [R1 R2]. split; intros Q; apply (proj2 (Hpost _ Q)); now apply mem_In.
Qed.
End Pair.
Lemma pre_apart_of : forall L S R, okc L w = true -> closed L = true -> pre_sep g L S R = true ->
  aptq w (lacks L) (PrP_PreProcess S R [] []) /\ nvq (lacks L) (PrP_PreProcess S R [] []).
Proof.
  intros L S R Lw Cl H. destruct (apts_sound g true L Hg w Hw Iw (fun _ => Cl) Lw _ H) as [P1 P2]. split; [now apply aptq_lacks|now apply nvq_lacks].
Qed.
Lemma source_sep : forall S T, apart_pair osrc otgt S T -> sep_source g S = true /\ pre_sep g (bars S) S "SLP1"%u = true.
Proof.
  intros S T (S1 & S2 & _). pose proof (unless_ok _ _ _ sources_checked S S1 S2) as Q. unfold source_ok in Q. now apply andb_true_iff in Q.
Qed.

(** *** Targets for which om does not matter *)
Lemma apart_plain : forall S T nat pre post, apart_pair osrc otgt S T -> ~ om_matters S T -> apart_options cpre cpost S T pre post ->
  aptq w (lacks (bars S)) (convert_prog S T nat pre post).
Proof.
  intros S T nat pre post HP HM [Hpre Hpost]. destruct (not_meant S T HM) as [NE NI]. apply pair_convert.
  - exact HP.
  - intros a b [H1 H2]. now split.
  - apply nvq_lacks. apply put_bars; [exact (proj2 (proj1 danda_pre))|intros _; exact (proj2 (proj2 danda_pre) true)].
  - apply str_eqb_neq in NE. rewrite NE. destruct (source_sep S T HP) as [_ Q2].
    assert (C : pre_class T = "SLP1"%u) by (unfold pre_class; now rewrite NI).
    split; [rewrite C; exact (pre_apart_of (bars S) S _ (bars_okc S w w_bars) (bars_closed S) Q2)|].
    split; [intros Q; congruence|]. intros IS _ p.
    assert (B : bars S = []).
    { assert (F : forall X, In X GM_IndicScripts -> negb (no_bars X) = false) by (apply (all_not (fun s => negb (no_bars s))); vm_compute; reflexivity).
      apply bars_none. apply negb_false_iff. apply F. now apply mem_In. }
    rewrite B. apply nvq_empty.
  - intros o Ho. destruct (Hpre o Ho) as (P1 & P2 & P5). destruct (pre_parted o P1 P2) as [P3 P4]. split; [|exact P2]. split; [exact P3|]. apply nvq_lacks. apply put_bars; [exact P4|].
    intros E. assert (N1 : ~ In S one_om) by (rewrite (proj1 (str_eqb_eq S "Itrans"%u) E); intros Q; apply mem_In in Q; vm_compute in Q; discriminate Q). rewrite E in P5. exact (proj2 (pre_om true o P1 P2 (P5 (or_intror (proj1 (str_eqb_eq S "Itrans"%u) E)) N1))).
  - exact Hpost.
Qed.
(** *** Om of one character *)
Lemma apart_one : forall S T nat pre post, apart_pair osrc otgt S T -> om_matters S T -> In S one_om -> apart_options cpre cpost S T pre post ->
  aptq w (lacks []) (convert_prog S T nat pre post).
Proof.
  intros S T nat pre post HP HM H1 [Hpre Hpost]. pose proof ones_checked as O. rewrite forallb_forall in O. specialize (O S H1). unfold unless in O.
  pose proof HP as (S1 & S2 & _). apply mem_false in S2. rewrite S2 in O. unfold one_ok in O.
  apply andb_true_iff in O as [O NB]. apply andb_true_iff in O as [O O3]. apply andb_true_iff in O as [O1 O2]. apply bars_none in NB.
  assert (Cn : closed [] = true) by (vm_cast_no_check (eq_refl true)).
  apply pair_convert.
  - exact HP.
  - intros a b _. rewrite NB. split; apply clean_nil.
  - apply nvq_empty.
  - match goal with |- pair_apart ?w ?J ?X _ => cut (forall U, indic U = true -> pair_apart w J X U); [intros K; apply K; exact (target_indic S T HM)|intros U TI] end.
    split; [destruct (class_cases U TI) as [-> | ->]; [exact (pre_apart_of [] S _ (okc_nil w) Cn O2)|exact (pre_apart_of [] S _ (okc_nil w) Cn O3)]|].
    split; [|intros _ Q; congruence]. intros _. apply (om_apart_lacks g w Hw); [apply okc_nil| |exact O1].
    exact (proj1 (source_sep S T HP)).
  - intros o Ho. destruct (Hpre o Ho) as (P1 & P2 & _). destruct (pre_parted o P1 P2) as [P3 _]. split; [|exact P2]. split; [exact P3|apply nvq_empty].
  - exact Hpost.
Qed.
(** *** Texts without om *)
Lemma apart_text : forall S T l nat pre post, apart_pair osrc otgt S T -> om_matters S T -> ~ In S one_om -> In (S, l) om_texts -> apart_options cpre cpost S T pre post ->
  aptq w (lacks l) (convert_prog S T nat pre post).
Proof.
  intros S T l nat pre post HP HM N1 HT [Hpre Hpost]. pose proof texts_checked as O. rewrite forallb_forall in O. specialize (O _ HT). unfold unless in O. cbn [fst] in O.
  pose proof HP as (S1 & S2 & _). apply mem_false in S2. rewrite S2 in O. unfold text_ok in O.
  apply andb_true_iff in O as [O NB]. apply andb_true_iff in O as [O Am]. pose proof (letters_closed S l (or_intror HT)) as Cl. pose proof (letters_okc l false Am) as Lw.
  assert (EI : itr S = false) by (unfold no_bars in NB; apply andb_true_iff in NB as [_ NB]; now apply negb_true_iff in NB).
  apply andb_true_iff in O as [O O3]. apply andb_true_iff in O as [O1 O2]. apply bars_none in NB.
  apply pair_convert.
  - exact HP.
  - intros a b _. rewrite NB. split; apply clean_nil.
  - apply nvq_lacks. exact (put_nv (om_letters false) l _ Cl Am (proj2 (proj2 danda_pre) false)).
  - match goal with |- pair_apart ?w ?J ?X _ => cut (forall U, indic U = true -> pair_apart w J X U); [intros K; apply K; exact (target_indic S T HM)|intros U TI] end.
    split; [destruct (class_cases U TI) as [-> | ->]; [exact (pre_apart_of l S _ Lw Cl O2)|exact (pre_apart_of l S _ Lw Cl O3)]|].
    split; [|intros _ Q; congruence]. intros _. apply (om_apart_lacks g w Hw); [exact Lw| |exact O1].
    exact (proj1 (source_sep S T HP)).
  - intros o Ho. destruct (Hpre o Ho) as (P1 & P2 & P3). destruct (pre_parted o P1 P2) as [P4 _]. split; [|exact P2]. split; [exact P4|].
    apply nvq_lacks. rewrite EI in P3. exact (put_nv (om_letters false) l _ Cl Am (proj2 (pre_om false o P1 P2 (P3 (or_introl HM) N1)))).
  - exact Hpost.
Qed.
(** *** Words without om at the line break *)
Lemma apart_words : forall S T l nat pre post, apart_pair osrc otgt S T -> om_matters S T -> ~ In S one_om -> In (S, l) om_words -> apart_options cpre cpost S T pre post ->
  aptq w (edge (bars S) l) (convert_prog S T nat pre post).
Proof.
  intros S T l nat pre post HP HM N1 HT [Hpre Hpost]. pose proof words_checked as O. rewrite forallb_forall in O. specialize (O _ HT). unfold edge_ok in O.
  apply andb_true_iff in O as [O L32]. apply andb_true_iff in O as [O L10]. apply andb_true_iff in O as [O Am]. pose proof (letters_closed S l (or_introl HT)) as Cl.
  apply andb_true_iff in O as [O M2]. apply andb_true_iff in O as [O M1]. apply andb_true_iff in O as [O O3]. apply andb_true_iff in O as [O1 O2].
  pose proof pres_checked as V. rewrite forallb_forall in V. specialize (V _ HT). unfold unless in V. cbn [fst] in V. pose proof HP as (_ & S2 & _). apply mem_false in S2. rewrite S2 in V.
  unfold word_ok in V. apply andb_true_iff in V as [V2 V3].
  assert (N : forall p, parts SP p = true -> nv (bars S) p -> put (om_letters (itr S)) p = true -> nvq (edge (bars S) l) p).
  { intros p P1 P2 P3. exact (nvq_checked SP SP_sound eq_refl eq_refl inert_feed inert_blank (bars S) l p P1 P2 (put_nv (om_letters (itr S)) l p Cl Am P3)). }
  apply pair_convert.
  - exact HP.
  - intros a b (H & _). exact H.
  - apply N; [exact (proj1 (proj2 danda_pre))|apply put_bars; [exact (proj2 (proj1 danda_pre))|intros _; exact (proj2 (proj2 danda_pre) true)]|exact (proj2 (proj2 danda_pre) (itr S))].
  - match goal with |- pair_apart ?w ?J ?X _ => cut (forall U, indic U = true -> pair_apart w J X U); [intros K; apply K; exact (target_indic S T HM)|intros U TI] end.
    assert (P : forall R, pre_sep g (bars S) S R = true -> pre_sep SP (bars S) S R = true -> mint true l (PrP_PreProcess S R [] []) = true ->
      aptq w (edge (bars S) l) (PrP_PreProcess S R [] []) /\ nvq (edge (bars S) l) (PrP_PreProcess S R [] [])).
    { intros R P0 P1 P2. pose proof (bars_okc S 10 eq_refl) as B10. pose proof (bars_okc S 32 eq_refl) as B32. split.
      - apply aptq_edge. exact (proj1 (apts_sound g true (bars S) Hg w Hw Iw (fun _ => bars_closed S) (bars_okc S w w_bars) _ P0)).
      - exact (nvq_pre SP SP_sound eq_refl eq_refl inert_feed inert_blank true (bars S) l _ (fun _ => bars_closed S) B10 B32 P1 (nv_check true l (fun _ => Cl) _ P2)). }
    split; [destruct (class_cases U TI) as [-> | ->]; [exact (P _ V2 O2 M1)|exact (P _ V3 O3 M2)]|].
    split; [|intros _ Q; congruence]. intros _.
    refine (om_apart_edge SP SP_sound eq_refl eq_refl inert_feed inert_blank _ true true w (bars S) l S (fun _ => bars_closed S) (fun _ => Cl) (letters_okc l (itr S) Am) O1).
    intros V HV. pose proof om_targets_checked as Q. rewrite forallb_forall in Q. apply Q. unfold all_scripts. now apply listed_In.
  - intros o Ho. destruct (Hpre o Ho) as (P1 & P2 & P3). destruct (pre_parted o P1 P2) as [P4 P5]. split; [|exact P2]. split; [exact P4|].
    destruct (pre_om (itr S) o P1 P2 (P3 (or_introl HM) N1)) as [P6 P7]. apply N; [exact P6|apply put_bars; [exact P5|intros E; rewrite E in P7; exact P7]|exact P7].
  - exact Hpost.
Qed.

(** Two texts with the separator between them are converted one by one. *)
Theorem separate_convert : forall S T nat pre post a b x y, apart_pair osrc otgt S T -> apart_options cpre cpost S T pre post -> may_meet S T a b ->
  convert S T a nat pre post = Ok x -> convert S T b nat pre post = Ok y ->
  convert S T (a ++ w :: b) nat pre post = Ok (x ++ w :: y).
Proof.
  intros S T nat pre post a b x y HP HO (M1 & M0 & M2 & M3). unfold convert.
  assert (B : clean (bars S) a /\ clean (bars S) b) by (split; apply bars_clean; intros Q; first [apply (M1 Q)|apply (M0 Q)]).
  assert (D : om_matters S T \/ ~ om_matters S T).
  { unfold om_matters. destruct (mem T GM_IndicScripts) eqn:E1; [left; left; now apply mem_In|]. destruct (str_eqb S T) eqn:E2; [left; right; now apply str_eqb_eq|].
    right. apply mem_false in E1. apply str_eqb_neq in E2. intros [Q|Q]; contradiction. }
  destruct D as [HM|HM]; [|apply (apart_plain S T nat pre post HP HM HO); exact B].
  destruct (mem S one_om) eqn:E1; [apply mem_In in E1; apply (apart_one S T nat pre post HP HM E1 HO); apply lacks_nil|]. apply mem_false in E1.
  pose proof HP as (S1 & S2 & _ & _ & _ & S3). specialize (S3 HM).
  assert (N : ~ In S (osrc ++ ["BarahaNorth"%u; "BarahaSouth"%u; "Inter"%u])) by (intros Q; apply in_app_or in Q as [Q|Q]; contradiction).
  pose proof (unless_ok _ _ _ om_covered S S1 N) as C. cbv beta in C. apply mem_false in E1. rewrite E1 in C. apply mem_false in E1. cbn [orb] in C.
  apply orb_true_iff in C as [C|C]; apply mem_In in C; apply in_map_iff in C as ((S' & l) & E & C); cbn [fst] in E; subst S'.
  - apply (apart_words S T l nat pre post HP HM E1 C HO). split; [exact B|]. destruct (M2 HM l C) as [F1 F2]. split.
    + destruct (last_word_split a) as (z & E & Z). exists z, (last_word a). split; [exact E|]. split; [exact Z|now apply free_clean].
    + destruct (first_word_split b) as (z & E & Z). exists (first_word b), z. split; [exact E|]. split; [now apply free_clean|exact Z].
  - apply (apart_text S T l nat pre post HP HM E1 C HO). destruct (M3 HM l C) as [F1 F2]. split; now apply free_clean.
Qed.
End Sep.

(** ** For examples *)
Lemma clean_free : forall k s, forallb (okc k) s = true -> free_of k s.
Proof.
  intros k s H c Hc. rewrite forallb_forall in H. specialize (H c Hc). unfold okc in H. apply andb_true_iff in H as [H1 H2].
  assert (M : forall d, negb (memN d k) = true -> ~ In d k) by (intros d Hd Q; apply memN_In in Q; rewrite Q in Hd; discriminate Hd).
  split; [now apply M|]. intros d Hd. rewrite forallb_forall in H2. apply M. now apply H2.
Qed.
Ltac not_listed := let Q := fresh in intros Q; apply mem_In in Q; vm_compute in Q; discriminate Q.
