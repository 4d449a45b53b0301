(** * Word by word: white space and marks separate what is converted (properties C06 and C39). *)
From Coq Require Import List NArith ZArith Bool Lia Permutation.
From Verif Require Import PyStr StrFacts UnicodeTables Regex Unicode Prog GMLists GeneralMap FixNum
  PostProcess1 ConvertFix1 PreProcess1 PostProcess2 GimelData Gimeltra Convert Dispatch YamlData Transliterate
  AbsRegex NormCut ReLits SortFacts TableFacts SafeFacts ApiFacts TotalFacts Marks MarkFacts MarkLeak Keeps KeepFacts Foreign LineFacts Lines
  Apart ApartFacts ApartConv ApartMain OmEdges EdgeFacts Separate.
Import ListNotations.
Local Open Scope N_scope.

(** ** Separators *)
(** White space, but the line feed (see LineByLine.v). *)
Definition blanks : list N := [9; 11; 12; 13; 28; 29; 30; 31; 32; 0x85; 0xA0; 0x2028; 0x2029].
(** Punctuation that hardly any script has a use of its own for: , - / ; ? *)
Definition marks : list N := [44; 45; 47; 59; 63].

(** ** A guard that watches the characters of a list *)
Definition watch (l : list N) : guard := Guard (fun c => negb (memN c l)) (fun neg k => forallb (fun c => negb (in_set neg k c)) l) false.
Lemma watch_sound : forall l, sound (watch l).
Proof.
  intros l. split; [|discriminate]. intros neg k c H Q. cbn [g_set watch] in H. cbn [hush watch]. apply negb_true_iff. destruct (memN c l) eqn:E; [|reflexivity]. exfalso.
  apply memN_In in E. rewrite forallb_forall in H. specialize (H c E). rewrite Q in H. discriminate H.
Qed.
Lemma watched : forall l w, In w l -> hush (watch l) w = false.
Proof. intros l w H. cbn [hush watch]. apply memN_In in H. now rewrite H. Qed.
Lemma separators_inert : forall w, In w (blanks ++ marks) -> inert w.
Proof.
  intros w H. assert (C : forall w, In w (blanks ++ marks) -> decomp w = [w] /\ cut_here w = true /\ py_lower [w] = [w] /\ tfind w comp_trie = None
    /\ (0x1100 <=? w) && (w <=? 0x1112) = false /\ (0xAC00 <=? w) && (w <=? 0xD7A3) = false).
  { cbn [app blanks marks In]. intros v Hv. repeat (destruct Hv as [<-|Hv]; [repeat split; vm_compute; reflexivity|]). destruct Hv. }
  destruct (C w H) as (H1 & H2 & H3 & H4 & H5 & H6). split; [exact H1|]. split; [exact H2|]. split; [|exact H3]. intros b. unfold compose2. rewrite H5, H6, H4. reflexivity.
Qed.

(** ** White space *)
(** Source scripts that are left out: rules that look across white space, or rules outside the analysis. *)
Definition word_sources : list str :=
  [
   "RomanSemitic"%u; "Shahmukhi"%u; "Hebrew"%u; "Soyombo"%u; "KhomThai"%u; "Khojki"%u; "Ahom"%u; "Kharoshthi"%u; "Urdu"%u; "Thaana"%u; "Thai"%u;
   "OldPersian"%u; "PhagsPa"%u; "LaoPali"%u; "RomanLoC"%u; "HanifiRohingya"%u; "IPA"%u].

(** Target scripts that are left out. *)
Definition word_targets : list str :=
  [
   "TibetanLoC"%u; "GurmukhiLoC"%u; "ThamLoC"%u; "Shahmukhi"%u; "Soyombo"%u; "KhomThai"%u; "Khojki"%u; "Ahom"%u; "Lao2"%u; "Bhaiksuki"%u; "Kaithi"%u;
   "Kharoshthi"%u; "Kannada"%u; "Gurmukhi"%u; "TamilGrantha"%u; "Urdu"%u; "Tibetan"%u; "Thai"%u; "OldPersian"%u; "PhagsPa"%u; "LaoPali"%u; "Lao"%u;
   "RomanLoC"%u; "RomanColloquial"%u; "Mongolian"%u; "RomanReadable"%u; "IPA"%u].

(** Options that are left out. *)
Definition word_pre : list str :=
  [
   "AlephMaterLectionis"%u; "KhmerLoCRomanLoCTarget"%u; "LaoPhonetic"%u; "LaoSajhayaOrthography"%u; "LaoSajhayaOrthographywithA"%u;
   "LaoTranscription"%u; "RemoveSchwaHindi"%u; "SchwaFinalKhmer"%u; "SchwaFinalKhmerLoC"%u; "TamilTranscribe"%u; "TamilTranscribeCommon"%u;
   "TamilTranscribeDialect"%u; "ThaiOrthography"%u; "ThaiPhonetic"%u; "UrduShortNotShown"%u; "insertViramaSyriac"%u; "joinVowelConsIAST"%u;
   "joinVowelConsISO"%u; "removeFinalSchwaArab"%u; "segmentBurmeseSyllables"%u; "segmentShanSyllables"%u; "segmentThamSyllabes"%u; "shvanakhall"%u;
   "siddhammukta"%u; "egrantamil"%u].

(** Likewise. *)
Definition word_post : list str :=
  [
   "AhomClosed"%u; "ContextualLLa"%u; "FinalNNa"%u; "GranthaPrakrit"%u; "HebrewSBLTarget"%u; "KhmerLoCRomanLoCSource"%u; "KhmerLoCRomanLoCTarget"%u;
   "LaoPhonetic"%u; "LaoSajjhaya"%u; "LaoSajjhayawithA"%u; "LaoTranscription"%u; "MongolianSyllabize"%u; "SaurastraHaaruColon"%u; "ShowSchwaHindi"%u;
   "SoyomboSpaceTscheg"%u; "SoyomboSyllabize"%u; "TaiThamMoveNnga"%u; "TakriRemoveGemination"%u; "TamilExtendedNNA"%u; "ThaiNativeConsonants"%u;
   "ThaiSajjhayaOrthography"%u; "ThaiSajjhayawithA"%u; "ThaiTranscription"%u; "ThamShiftMaiKangLai"%u; "ZanzabarSpaceTsheg"%u;
   "capitalizeSentence"%u; "readableItrans"%u; "removeSegmentSpacesBurmese"%u; "removeSukunEnd"%u; "removetddash"%u; "urduRemoveInherent"%u;
   "LaoNative"%u; "ranjanalantsa"%u; "ranjanawartu"%u].
Definition word_pair : str -> str -> Prop := apart_pair word_sources word_targets.
Definition word_options : str -> str -> list str -> list str -> Prop := apart_options word_pre word_post.

Lemma word_letters_ok : forallb (fun i => hushed (watch blanks) (om_letters i)) [true; false] = true.
Proof. vm_cast_no_check (eq_refl true). Qed.
Lemma word_bars_ok : hushed (watch blanks) [124; 35; 79] = true.
Proof. vm_cast_no_check (eq_refl true). Qed.
Lemma word_sources_ok : forallb (unless word_sources (source_ok (watch blanks))) all_scripts = true.
Proof. vm_cast_no_check (eq_refl true). Qed.
Lemma word_targets_ok : forallb (unless word_targets (sep_target (watch blanks))) all_scripts = true.
Proof. vm_cast_no_check (eq_refl true). Qed.
Lemma word_words_ok : forallb (fun e => unless word_sources (word_ok (watch blanks)) (fst e)) om_words = true.
Proof. vm_cast_no_check (eq_refl true). Qed.
Lemma word_texts_ok : forallb (fun e => unless word_sources (fun _ => text_ok (watch blanks) e) (fst e)) om_texts = true.
Proof. vm_cast_no_check (eq_refl true). Qed.
Lemma word_ones_ok : forallb (unless word_sources (one_ok (watch blanks))) one_om = true.
Proof. vm_cast_no_check (eq_refl true). Qed.
Lemma word_pre_ok : forallb (unless word_pre (pre_opt_ok (watch blanks))) PrP_names = true.
Proof. vm_cast_no_check (eq_refl true). Qed.
Lemma word_om_pre_ok : forallb (fun i => forallb (unless (word_pre ++ om_pre_for i) (om_opt_ok i)) PrP_names) [true; false] = true.
Proof. vm_cast_no_check (eq_refl true). Qed.
Lemma word_post_ok : forallb (unless word_post (fun o => parts (watch blanks) (PP_call o))) PP_names = true.
Proof. vm_cast_no_check (eq_refl true). Qed.
Lemma word_danda_ok : pre_opt_ok (watch blanks) "RetainDevangariDanda"%u && om_opt_ok true "RetainDevangariDanda"%u && om_opt_ok false "RetainDevangariDanda"%u = true.
Proof. vm_cast_no_check (eq_refl true). Qed.
Lemma word_glob_ok : glob (watch blanks) && glob2 (watch blanks) && variants_ok false (watch blanks) && sep_source (watch blanks) "Devanagari"%u && lack_ok (watch blanks) [] "Devanagari"%u && sep_target (watch blanks) "Devanagari"%u = true.
Proof. vm_cast_no_check (eq_refl true). Qed.
Lemma word_om_covered_ok : forallb (unless (word_sources ++ ["BarahaNorth"%u; "BarahaSouth"%u; "Inter"%u])
  (fun S => mem S one_om || mem S (map fst om_words) || mem S (map fst om_texts))) all_scripts = true.
Proof. vm_cast_no_check (eq_refl true). Qed.
(** C39, C06: white space stays in place, and what is before and after it is converted as if it stood alone. *)
Theorem word_apart : forall S T nat pre post w a b x y, In w blanks -> word_pair S T -> word_options S T pre post -> may_meet S T a b ->
  convert S T a nat pre post = Ok x -> convert S T b nat pre post = Ok y ->
  convert S T (a ++ w :: b) nat pre post = Ok (x ++ w :: y).
Proof.
  intros S T nat pre post w a b x y Hw.
  assert (L : forall c, In c blanks -> In c (blanks ++ marks)) by (intros c Hc; apply in_or_app; tauto).
  exact (separate_convert (watch blanks) (watch_sound blanks) w (watched blanks w Hw) (separators_inert w (L w Hw)) word_sources word_targets word_pre word_post false
    word_letters_ok word_bars_ok word_sources_ok word_targets_ok word_words_ok word_texts_ok word_ones_ok word_pre_ok word_om_pre_ok word_post_ok word_danda_ok word_glob_ok word_om_covered_ok eq_refl eq_refl S T nat pre post a b x y).
Qed.

(** ** Marks *)
(** Source scripts that are left out. *)
Definition mark_sources : list str :=
  [
   "RomanSemitic"%u; "Shahmukhi"%u; "Hebrew"%u; "Soyombo"%u; "KhomThai"%u; "Khojki"%u; "Ahom"%u; "Kharoshthi"%u; "Urdu"%u; "Thaana"%u; "Thai"%u;
   "OldPersian"%u; "LaoPali"%u; "RomanLoC"%u; "ShanLoCRomanLoC"%u; "HanifiRohingya"%u; "Aksharaa"%u; "IPA"%u].

(** Target scripts that are left out. *)
Definition mark_targets : list str :=
  [
   "GurmukhiLoC"%u; "LimbuLoC"%u; "ThamLoC"%u; "Shahmukhi"%u; "Soyombo"%u; "KhomThai"%u; "Khojki"%u; "Ahom"%u; "Lao2"%u; "Kharoshthi"%u; "Kannada"%u;
   "Gurmukhi"%u; "TamilGrantha"%u; "Urdu"%u; "Thaana"%u; "Thai"%u; "OldPersian"%u; "Limbu"%u; "PhagsPa"%u; "LaoPali"%u; "Lao"%u; "RomanLoC"%u;
   "ShanLoCRomanLoC"%u; "RomanColloquial"%u; "Wancho"%u; "HanifiRohingya"%u; "RomanReadable"%u; "Aksharaa"%u; "IPA"%u].

(** Options that are left out. *)
Definition mark_pre : list str :=
  [
   "AlephMaterLectionis"%u; "BurmeseRomanLoCSource"%u; "KhmerLoCRomanLoCTarget"%u; "LaoPhonetic"%u; "LaoSajhayaOrthography"%u;
   "LaoSajhayaOrthographywithA"%u; "LaoTranscription"%u; "SchwaFinalKhmer"%u; "SchwaFinalKhmerLoC"%u; "TamilTranscribe"%u; "TamilTranscribeCommon"%u;
   "TamilTranscribeDialect"%u; "ThaiOrthography"%u; "ThaiPhonetic"%u; "UrduShortNotShown"%u; "insertViramaSyriac"%u; "removeFinalSchwaArab"%u;
   "segmentBurmeseSyllables"%u; "segmentShanSyllables"%u; "segmentThamSyllabes"%u; "shvanakhall"%u; "siddhammukta"%u; "egrantamil"%u].

(** Likewise. *)
Definition mark_post : list str :=
  [
   "AhomClosed"%u; "FinalNNa"%u; "GranthaPrakrit"%u; "HebrewSBLTarget"%u; "KhmerLoCRomanLoCSource"%u; "LaoPhonetic"%u; "LaoSajjhaya"%u;
   "LaoSajjhayawithA"%u; "LaoTranscription"%u; "SaurastraHaaruColon"%u; "TaiThamMoveNnga"%u; "TakriRemoveGemination"%u; "TamilExtendedNNA"%u;
   "ThaiNativeConsonants"%u; "ThaiSajjhayaOrthography"%u; "ThaiSajjhayawithA"%u; "ThaiTranscription"%u; "ThamShiftMaiKangLai"%u;
   "capitalizeSentence"%u; "readableItrans"%u; "removeSukunEnd"%u; "removetddash"%u; "urduRemoveInherent"%u; "LaoNative"%u].
Definition mark_pair : str -> str -> Prop := apart_pair mark_sources mark_targets.
Definition mark_options : str -> str -> list str -> list str -> Prop := apart_options mark_pre mark_post.

Lemma mark_letters_ok : forallb (fun i => hushed (watch marks) (om_letters i)) [true; false] = true.
Proof. vm_cast_no_check (eq_refl true). Qed.
Lemma mark_bars_ok : hushed (watch marks) [124; 35; 79] = true.
Proof. vm_cast_no_check (eq_refl true). Qed.
Lemma mark_sources_ok : forallb (unless mark_sources (source_ok (watch marks))) all_scripts = true.
Proof. vm_cast_no_check (eq_refl true). Qed.
Lemma mark_targets_ok : forallb (unless mark_targets (sep_target (watch marks))) all_scripts = true.
Proof. vm_cast_no_check (eq_refl true). Qed.
Lemma mark_words_ok : forallb (fun e => unless mark_sources (word_ok (watch marks)) (fst e)) om_words = true.
Proof. vm_cast_no_check (eq_refl true). Qed.
Lemma mark_texts_ok : forallb (fun e => unless mark_sources (fun _ => text_ok (watch marks) e) (fst e)) om_texts = true.
Proof. vm_cast_no_check (eq_refl true). Qed.
Lemma mark_ones_ok : forallb (unless mark_sources (one_ok (watch marks))) one_om = true.
Proof. vm_cast_no_check (eq_refl true). Qed.
Lemma mark_pre_ok : forallb (unless mark_pre (pre_opt_ok (watch marks))) PrP_names = true.
Proof. vm_cast_no_check (eq_refl true). Qed.
Lemma mark_om_pre_ok : forallb (fun i => forallb (unless (mark_pre ++ om_pre_for i) (om_opt_ok i)) PrP_names) [true; false] = true.
Proof. vm_cast_no_check (eq_refl true). Qed.
Lemma mark_post_ok : forallb (unless mark_post (fun o => parts (watch marks) (PP_call o))) PP_names = true.
Proof. vm_cast_no_check (eq_refl true). Qed.
Lemma mark_danda_ok : pre_opt_ok (watch marks) "RetainDevangariDanda"%u && om_opt_ok true "RetainDevangariDanda"%u && om_opt_ok false "RetainDevangariDanda"%u = true.
Proof. vm_cast_no_check (eq_refl true). Qed.
Lemma mark_glob_ok : glob (watch marks) && glob2 (watch marks) && variants_ok true (watch marks) && sep_source (watch marks) "Devanagari"%u && lack_ok (watch marks) [] "Devanagari"%u && sep_target (watch marks) "Devanagari"%u = true.
Proof. vm_cast_no_check (eq_refl true). Qed.
Lemma mark_om_covered_ok : forallb (unless (mark_sources ++ ["BarahaNorth"%u; "BarahaSouth"%u; "Inter"%u])
  (fun S => mem S one_om || mem S (map fst om_words) || mem S (map fst om_texts))) all_scripts = true.
Proof. vm_cast_no_check (eq_refl true). Qed.
(** C39, C06: a mark stays in place, and what is before and after it is converted as if it stood alone. *)
Theorem mark_apart : forall S T nat pre post w a b x y, In w marks -> mark_pair S T -> mark_options S T pre post -> may_meet S T a b ->
  convert S T a nat pre post = Ok x -> convert S T b nat pre post = Ok y ->
  convert S T (a ++ w :: b) nat pre post = Ok (x ++ w :: y).
Proof.
  intros S T nat pre post w a b x y Hw.
  assert (L : forall c, In c marks -> In c (blanks ++ marks)) by (intros c Hc; apply in_or_app; tauto).
  exact (separate_convert (watch marks) (watch_sound marks) w (watched marks w Hw) (separators_inert w (L w Hw)) mark_sources mark_targets mark_pre mark_post true
    mark_letters_ok mark_bars_ok mark_sources_ok mark_targets_ok mark_words_ok mark_texts_ok mark_ones_ok mark_pre_ok mark_om_pre_ok mark_post_ok mark_danda_ok mark_glob_ok mark_om_covered_ok eq_refl eq_refl S T nat pre post a b x y).
Qed.

