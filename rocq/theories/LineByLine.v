(** * Line by line: a line break separates what is converted (properties C06 and C38). *)
From Coq Require Import List NArith ZArith Bool Lia Permutation.
From Verif Require Import PyStr StrFacts UnicodeTables Regex Unicode Prog GMLists GeneralMap FixNum
  PostProcess1 ConvertFix1 PreProcess1 PostProcess2 GimelData Gimeltra Convert Dispatch YamlData Transliterate
  AbsRegex NormCut ReLits SortFacts TableFacts SafeFacts ApiFacts TotalFacts Marks MarkFacts MarkLeak Keeps KeepFacts Foreign LineFacts Lines
  Apart ApartFacts ApartConv ApartMain OmEdges EdgeFacts Separate.
Import ListNotations.
Local Open Scope N_scope.

(** ** Scripts and options *)
(** Source scripts that are left out: rules that look across a line break, or rules outside the analysis. *)
Definition other_sources : list str :=
  [
   "RomanSemitic"%u; "Shahmukhi"%u; "Hebrew"%u; "Kharoshthi"%u; "Urdu"%u; "Thaana"%u; "Thai"%u; "OldPersian"%u; "LaoPali"%u; "RomanLoC"%u].

(** Target scripts that are left out. *)
Definition other_targets : list str :=
  [
   "ThamLoC"%u; "Soyombo"%u; "Kharoshthi"%u; "Kannada"%u; "Thai"%u; "OldPersian"%u; "PhagsPa"%u; "LaoPali"%u; "RomanLoC"%u; "RomanColloquial"%u;
   "RomanReadable"%u].

(** Options that are left out. *)
Definition crossing_pre : list str :=
  [
   "AlephMaterLectionis"%u; "LaoPhonetic"%u; "LaoTranscription"%u; "SchwaFinalKhmer"%u; "SchwaFinalKhmerLoC"%u; "TamilTranscribe"%u;
   "TamilTranscribeCommon"%u; "TamilTranscribeDialect"%u; "ThaiOrthography"%u; "ThaiPhonetic"%u; "UrduShortNotShown"%u; "insertViramaSyriac"%u;
   "removeFinalSchwaArab"%u; "segmentBurmeseSyllables"%u; "segmentShanSyllables"%u; "segmentThamSyllabes"%u; "shvanakhall"%u; "siddhammukta"%u;
   "egrantamil"%u].

(** Likewise. *)
Definition crossing_post : list str :=
  [
   "ContextualLLa"%u; "FinalNNa"%u; "GranthaPrakrit"%u; "HebrewSBLTarget"%u; "SaurastraHaaruColon"%u; "TaiThamMoveNnga"%u; "TamilExtendedNNA"%u;
   "capitalizeSentence"%u; "readableItrans"%u; "removeSukunEnd"%u; "removetddash"%u; "urduRemoveInherent"%u; "LaoNative"%u].

Definition line_pair : str -> str -> Prop := apart_pair other_sources other_targets.
Definition line_options : str -> str -> list str -> list str -> Prop := apart_options crossing_pre crossing_post.

(** ** The checks *)
Lemma letters_checked : forallb (fun i => hushed NL (om_letters i)) [true; false] = true.
Proof. vm_cast_no_check (eq_refl true). Qed.
Lemma sources_checked : forallb (unless other_sources (source_ok NL)) all_scripts = true.
Proof. vm_cast_no_check (eq_refl true). Qed.
Lemma targets_checked : forallb (unless other_targets (sep_target NL)) all_scripts = true.
Proof. vm_cast_no_check (eq_refl true). Qed.
Lemma pres_checked : forallb (fun e => unless other_sources (word_ok NL) (fst e)) om_words = true.
Proof. vm_cast_no_check (eq_refl true). Qed.
Lemma texts_checked : forallb (fun e => unless other_sources (fun _ => text_ok NL e) (fst e)) om_texts = true.
Proof. vm_cast_no_check (eq_refl true). Qed.
Lemma ones_checked : forallb (unless other_sources (one_ok NL)) one_om = true.
Proof. vm_cast_no_check (eq_refl true). Qed.
Lemma pre_checked : forallb (unless crossing_pre (pre_opt_ok NL)) PrP_names = true.
Proof. vm_cast_no_check (eq_refl true). Qed.
Lemma om_pre_checked : forallb (fun i => forallb (unless (crossing_pre ++ om_pre_for i) (om_opt_ok i)) PrP_names) [true; false] = true.
Proof. vm_cast_no_check (eq_refl true). Qed.
Lemma post_checked : forallb (unless crossing_post (fun o => parts NL (PP_call o))) PP_names = true.
Proof. vm_cast_no_check (eq_refl true). Qed.
Lemma danda_checked : pre_opt_ok NL "RetainDevangariDanda"%u && om_opt_ok true "RetainDevangariDanda"%u && om_opt_ok false "RetainDevangariDanda"%u = true.
Proof. vm_cast_no_check (eq_refl true). Qed.
Lemma glob_checked : glob NL && glob2 NL && variants_ok true NL && sep_source NL "Devanagari"%u && lack_ok NL [] "Devanagari"%u && sep_target NL "Devanagari"%u = true.
Proof. vm_cast_no_check (eq_refl true). Qed.
Lemma om_covered : forallb (unless (other_sources ++ ["BarahaNorth"%u; "BarahaSouth"%u; "Inter"%u])
  (fun S => mem S one_om || mem S (map fst om_words) || mem S (map fst om_texts))) all_scripts = true.
Proof. vm_cast_no_check (eq_refl true). Qed.

(** ** The theorems *)
(** C38: a text of two parts with a line break between them is converted part by part. *)
Theorem line_by_line : forall S T nat pre post a b x y, line_pair S T -> line_options S T pre post -> may_meet S T a b ->
  convert S T a nat pre post = Ok x -> convert S T b nat pre post = Ok y ->
  convert S T (a ++ 10 :: b) nat pre post = Ok (x ++ 10 :: y).
Proof.
  exact (separate_convert NL NL_sound 10 eq_refl inert_feed other_sources other_targets crossing_pre crossing_post true letters_checked eq_refl sources_checked
    targets_checked pres_checked texts_checked ones_checked pre_checked om_pre_checked post_checked danda_checked glob_checked om_covered eq_refl eq_refl).
Qed.

(** *** Texts of many lines *)
(** What a single line has to satisfy. *)
Definition line_ok (S T l : str) : Prop :=
  (In S GM_pipeScripts -> ~ In 124 l) /\ (S = "Itrans"%u -> free_of "#O"%u l)
  /\ (om_matters S T -> forall k, In (S, k) om_words -> free_of k (first_word l) /\ free_of k (last_word l))
  /\ (om_matters S T -> forall k, In (S, k) om_texts -> free_of k l).
Lemma first_word_line : forall l z, first_word (l ++ 10 :: z) = first_word l.
Proof. induction l as [|c l IH]; intros z; [reflexivity|]. cbn [app first_word]. destruct ((c =? 32) || (c =? 10)); [reflexivity|now rewrite IH]. Qed.
Lemma feed_free : forallb (fun e => negb (memN 10 (snd e))) (om_texts ++ [([], "#O"%u)]) = true.
Proof. vm_compute. reflexivity. Qed.
Lemma free_feed : forall S k l z, In (S, k) (om_texts ++ [([], "#O"%u)]) -> free_of k l -> free_of k z -> free_of k (l ++ 10 :: z).
Proof.
  intros S k l z HK Hl Hz c Hc. apply in_app_or in Hc as [Hc|[Hc|Hc]]; [now apply Hl| |now apply Hz]. subst c. pose proof feed_free as F. rewrite forallb_forall in F. specialize (F _ HK).
  apply negb_true_iff in F. assert (N : ~ In 10 k) by (intros Q; apply memN_In in Q; cbn [snd] in F; rewrite F in Q; discriminate Q).
  split; [exact N|]. intros d Hd. destruct Hd as [<-|[]]. exact N.
Qed.
Theorem lines_by_line : forall S T nat pre post ls rs, line_pair S T -> line_options S T pre post -> ls <> [] -> Forall (line_ok S T) ls ->
  Forall2 (fun l r => convert S T l nat pre post = Ok r) ls rs ->
  convert S T (join [10] ls) nat pre post = Ok (join [10] rs).
Proof.
  intros S T nat pre post ls rs HP HO NE HL HC.
  assert (G : (convert S T (join [10] ls) nat pre post = Ok (join [10] rs))
    /\ (In S GM_pipeScripts -> ~ In 124 (join [10] ls)) /\ (S = "Itrans"%u -> free_of "#O"%u (join [10] ls)) /\ (exists l ls', ls = l :: ls' /\ first_word (join [10] ls) = first_word l)
    /\ (om_matters S T -> forall k, In (S, k) om_texts -> free_of k (join [10] ls))); [|exact (proj1 G)].
  induction HC as [|l r ls rs E HC IH]; [contradiction|]. inversion HL as [|? ? Hl HL']; subst. destruct HC as [|l2 r2 ls rs E2 HC].
  - cbn [join]. destruct Hl as (H1 & H0 & H2 & H3). split; [exact E|]. split; [exact H1|]. split; [exact H0|]. split; [now exists l, []|exact H3].
  - destruct (IH ltac:(discriminate) HL') as (I1 & I2 & I0 & (l' & ls' & E' & I3) & I4). injection E' as <- <-. clear IH.
    change (join [10] (l :: l2 :: ls)) with (l ++ [10] ++ join [10] (l2 :: ls)). change (join [10] (r :: r2 :: rs)) with (r ++ [10] ++ join [10] (r2 :: rs)).
    change ([10] ++ join [10] (l2 :: ls)) with (10 :: join [10] (l2 :: ls)). change ([10] ++ join [10] (r2 :: rs)) with (10 :: join [10] (r2 :: rs)).
    inversion HL' as [|? ? Hl2 _]; subst. pose proof Hl as (H1 & H0 & H2 & H3). pose proof Hl2 as (K1 & K0 & K2 & K3).
    split.
    + apply line_by_line; [exact HP|exact HO| |exact E|exact I1]. split; [intros Q; split; [now apply H1|now apply I2]|]. split; [intros Q; split; [now apply H0|now apply I0]|]. split.
      * intros HM k Hk. split; [exact (proj2 (H2 HM k Hk))|]. rewrite I3. exact (proj1 (K2 HM k Hk)).
      * intros HM k Hk. split; [now apply H3|now apply I4].
    + split; [intros Q F; apply in_app_or in F as [F|[F|F]]; [now apply (H1 Q)|discriminate F|now apply (I2 Q)]|]. split.
      { intros Q. apply (free_feed [] "#O"%u); [apply in_or_app; right; now left|now apply H0|now apply I0]. }
      split.
      * exists l, (l2 :: ls). split; [reflexivity|apply first_word_line].
      * intros HM k Hk. apply (free_feed S k); [apply in_or_app; now left|now apply H3|now apply I4].
Qed.
Lemma join_lines : forall s, join [10] (lines s) = s.
Proof.
  induction s as [|c s IH]; [reflexivity|]. cbn [lines]. pose proof (lines_length s) as Len. destruct (lines s) as [|l ls]; [discriminate|]. destruct (N.eqb_spec c 10) as [->|_].
  - change (join [10] ([] :: l :: ls)) with ([] ++ [10] ++ join [10] (l :: ls)). now rewrite IH.
  - rewrite <- IH. destruct ls; reflexivity.
Qed.
(** Every line can be converted on its own, and the whole is what the lines give. *)
Theorem text_by_lines : forall S T nat pre post txt, line_pair S T -> line_options S T pre post -> Forall (line_ok S T) (lines txt) ->
  good_pair S T -> TotalFacts.good_pre pre -> TotalFacts.good_post S T post ->
  exists rs, Forall2 (fun l r => convert S T l nat pre post = Ok r) (lines txt) rs /\ convert S T txt nat pre post = Ok (join [10] rs).
Proof.
  intros S T nat pre post txt HP HO HL G1 G2 G3.
  assert (E : exists rs, Forall2 (fun l r => convert S T l nat pre post = Ok r) (lines txt) rs).
  { clear HL. induction (lines txt) as [|l ls (rs & IH)]; [exists []; constructor|]. destruct (convert_total S T G1 pre post G2 G3 nat l) as [r Er]. exists (r :: rs). now constructor. }
  destruct E as [rs E]. exists rs. split; [exact E|]. rewrite <- (join_lines txt) at 1. apply lines_by_line; try assumption.
  intros Q. pose proof (lines_length txt) as Len. rewrite Q in Len. discriminate.
Qed.

Section Public.
Variable uname : N -> option str.
Variable uscript : N -> str.
Variable lfind : str -> res str.
(** C38 for [transliterate.process]: names and options in any case, unknown options do not matter. *)
Theorem process_line_by_line : forall src tgt nat pre post a b x y, src <> "autodetect"%u ->
  let S := canonical_name src in let T := canonical_name tgt in
  let conv txt := snd (process uname uscript lfind src tgt txt nat post pre "default"%u) in
  line_pair S T -> line_options S T (resolve_options PrP_names pre) (resolve_options PP_names post) -> may_meet S T a b ->
  conv a = Ok x -> conv b = Ok y -> conv (a ++ 10 :: b) = Ok (x ++ 10 :: y).
Proof.
  intros src tgt nat pre post a b x y Ha S T conv HP HO HM.
  assert (C : forall txt, conv txt = convert S T txt nat (resolve_options PrP_names pre) (resolve_options PP_names post)).
  { intros txt. subst conv. cbv beta. unfold process. rewrite str_eqb_refl. rewrite process_default_known by assumption. now rewrite convert_default_value. }
  rewrite !C. now apply line_by_line.
Qed.
End Public.

(** ** The hypotheses can be met, and are needed *)
Example line_by_line_case :
  line_pair "IAST"%u "Telugu"%u /\ line_options "IAST"%u "Telugu"%u ["removeChillus"%u] ["TeluguReph"%u]
  /\ may_meet "IAST"%u "Telugu"%u "oṃ rāmo gacchati"%u "vanaṃ so oṃ"%u
  /\ convert "IAST"%u "Telugu"%u "oṃ rāmo gacchati"%u true ["removeChillus"%u] ["TeluguReph"%u] = Ok "ఓం రామో గచ్ఛతి"%u
  /\ convert "IAST"%u "Telugu"%u "vanaṃ so oṃ"%u true ["removeChillus"%u] ["TeluguReph"%u] = Ok "వనం సో ఓం"%u.
Proof.
  split; [|split; [|split]].
  - split; [listed_name|]. split; [not_listed|]. split; [listed_name|]. split; [not_listed|]. split; [intros [Q _]; discriminate Q|]. intros _. not_listed.
  - split; intros o [<-|[]]; (split; [listed_name|]); [split; [not_listed|intros _ _; not_listed]|not_listed].
  - split; [intros _; split; intros Q; apply memN_In in Q; vm_compute in Q; discriminate Q|]. split; [intros Q; discriminate Q|].
    assert (W : forall f : str -> bool, (forall l, In ("IAST"%u, l) om_words -> l = "Oo"%u)).
    { intros f. assert (F : forallb (fun e => if str_eqb (fst e) "IAST"%u then str_eqb (snd e) "Oo"%u else true) om_words = true) by (vm_compute; reflexivity).
      intros l Hl. rewrite forallb_forall in F. specialize (F _ Hl). cbn [fst snd] in F. rewrite str_eqb_refl in F. now apply str_eqb_eq. }
    split.
    + intros _ l Hl. rewrite (W (fun _ => true) l Hl). split; apply clean_free; vm_compute; reflexivity.
    + intros _ l Hl. exfalso. assert (F : existsb (fun e => str_eqb (fst e) "IAST"%u) om_texts = true) by (apply existsb_exists; exists ("IAST"%u, l); split; [exact Hl|apply str_eqb_refl]).
      vm_compute in F. discriminate F.
  - split; vm_compute; reflexivity.
Qed.
(** Om at the line break: the punctuation that ends one om cannot begin the next, and the line feed counts as punctuation. *)
Theorem line_by_line_om_refuted : exists a b x y r, line_pair "Telugu"%u "Devanagari"%u
  /\ convert "Telugu"%u "Devanagari"%u a true [] [] = Ok x /\ convert "Telugu"%u "Devanagari"%u b true [] [] = Ok y
  /\ convert "Telugu"%u "Devanagari"%u (a ++ 10 :: b) true [] [] = Ok r /\ r <> x ++ 10 :: y.
Proof.
  exists "ఓం ఓం"%u, "ఓం ఓం"%u, "ॐ ॐ"%u, "ॐ ॐ"%u, ("ॐ ॐ"%u ++ 10 :: "ओं ॐ"%u). split.
  - split; [listed_name|]. split; [not_listed|]. split; [listed_name|]. split; [not_listed|]. split; [intros [Q _]; discriminate Q|]. intros _. not_listed.
  - split; [vm_compute; reflexivity|]. split; [vm_compute; reflexivity|]. split; [vm_compute; reflexivity|discriminate].
Qed.
(** A bar in one line of a text of one of the schemes of [pipeScripts] decides about the full stops of the other lines. *)
Theorem line_by_line_bar_refuted : exists a b x y r, line_pair "HK"%u "Devanagari"%u
  /\ convert "HK"%u "Devanagari"%u a true [] [] = Ok x /\ convert "HK"%u "Devanagari"%u b true [] [] = Ok y
  /\ convert "HK"%u "Devanagari"%u (a ++ 10 :: b) true [] [] = Ok r /\ r <> x ++ 10 :: y.
Proof.
  exists "rAma."%u, "sItA|"%u, "राम।"%u, "सीता।"%u, ("राम."%u ++ 10 :: "सीता।"%u). split.
  - split; [listed_name|]. split; [not_listed|]. split; [listed_name|]. split; [not_listed|]. split; [intros [Q _]; discriminate Q|]. intros _. not_listed.
  - split; [vm_compute; reflexivity|]. split; [vm_compute; reflexivity|]. split; [vm_compute; reflexivity|discriminate].
Qed.
(** A target that is left out: a nukta at the beginning of a line changes the virama at the end of the line before (ConvertFix.py:3474). *)
Theorem line_by_line_kannada_refuted : exists a b x y r, In "Kannada"%u other_targets
  /\ convert "Devanagari"%u "Kannada"%u a true [] [] = Ok x /\ convert "Devanagari"%u "Kannada"%u b true [] [] = Ok y
  /\ convert "Devanagari"%u "Kannada"%u (a ++ 10 :: b) true [] [] = Ok r /\ r <> x ++ 10 :: y.
Proof.
  exists "क्"%u, [0x93C], "ಕ್"%u, [0xCBC], ("ಕ್"%u ++ [0x200C; 10; 0xCBC]). split; [listed_name|].
  split; [vm_compute; reflexivity|]. split; [vm_compute; reflexivity|]. split; [vm_compute; reflexivity|discriminate].
Qed.
(** A pair of ## in an Itrans text marks a passage that is not converted, across line feeds. *)
Theorem line_by_line_itrans_refuted : exists a b x y r, line_pair "Itrans"%u "Devanagari"%u
  /\ convert "Itrans"%u "Devanagari"%u a true [] [] = Ok x /\ convert "Itrans"%u "Devanagari"%u b true [] [] = Ok y
  /\ convert "Itrans"%u "Devanagari"%u (a ++ 10 :: b) true [] [] = Ok r /\ r <> x ++ 10 :: y.
Proof.
  exists "##rAma"%u, "rAma##"%u, "rAma"%u, "राम"%u, ("rAma"%u ++ 10 :: "rAma"%u). split.
  - split; [listed_name|]. split; [not_listed|]. split; [listed_name|]. split; [not_listed|]. split; [intros [Q _]; discriminate Q|]. intros _. not_listed.
  - split; [vm_compute; reflexivity|]. split; [vm_compute; reflexivity|]. split; [vm_compute; reflexivity|discriminate].
Qed.
