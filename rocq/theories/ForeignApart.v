(** * Foreign symbols do not disturb their neighbours (properties C06 and C07). *)
From Coq Require Import List NArith ZArith Bool Lia Permutation.
From Verif Require Import PyStr StrFacts UnicodeTables Regex Unicode Prog GMLists GeneralMap FixNum
  PostProcess1 ConvertFix1 PreProcess1 PostProcess2 GimelData Gimeltra Convert Dispatch YamlData Transliterate
  AbsRegex NormCut ReLits SortFacts TableFacts SafeFacts ApiFacts TotalFacts Marks MarkFacts MarkLeak Keeps KeepFacts Foreign LineFacts Lines
  Apart ApartFacts ApartConv ApartMain OmEdges EdgeFacts Separate LineByLine.
Import ListNotations.
Local Open Scope N_scope.

(** ** Symbols, scripts and options *)
(** White space: it can begin and end words, and line feeds are not matched by a dot; see LineByLine.v for line feeds. *)
Definition spaces : list N := [9; 10; 11; 12; 13; 28; 29; 30; 31; 0x85; 0xA0; 0x2028; 0x2029].
(** A character that is foreign to every script (see Foreign.v) and no white space. *)
Definition symbol (w : N) : Prop := Foreign.foreign w = true /\ ~ In w spaces.

(** Source scripts that are left out: their rules look at any character next to a letter, or are outside the analysis. *)
Definition wide_sources : list str :=
  [
   "RomanSemitic"%u; "Shahmukhi"%u; "Hebrew"%u; "Soyombo"%u; "KhomThai"%u; "Khojki"%u; "Ahom"%u; "Kharoshthi"%u; "Urdu"%u;
   "Thaana"%u; "Thai"%u; "OldPersian"%u; "LaoPali"%u; "RomanLoC"%u; "HanifiRohingya"%u; "IPA"%u].

(** Target scripts that are left out. *)
Definition wide_targets : list str :=
  [
   "GurmukhiLoC"%u; "ThamLoC"%u; "Shahmukhi"%u; "Soyombo"%u; "KhomThai"%u; "Khojki"%u; "Ahom"%u; "Lao2"%u; "Kharoshthi"%u;
   "Kannada"%u; "Gurmukhi"%u; "TamilGrantha"%u; "Urdu"%u; "Thai"%u; "OldPersian"%u; "PhagsPa"%u; "LaoPali"%u; "Lao"%u; "RomanLoC"%u;
   "RomanColloquial"%u; "RomanReadable"%u; "IPA"%u].

(** Options that are left out. *)
Definition wide_pre : list str :=
  [
   "AlephMaterLectionis"%u; "KhmerLoCRomanLoCTarget"%u; "LaoPhonetic"%u; "LaoSajhayaOrthography"%u; "LaoSajhayaOrthographywithA"%u;
   "LaoTranscription"%u; "SchwaFinalKhmer"%u; "SchwaFinalKhmerLoC"%u; "TamilTranscribe"%u; "TamilTranscribeCommon"%u; "TamilTranscribeDialect"%u;
   "ThaiOrthography"%u; "ThaiPhonetic"%u; "UrduShortNotShown"%u; "insertViramaSyriac"%u; "removeFinalSchwaArab"%u; "segmentBurmeseSyllables"%u;
   "segmentShanSyllables"%u; "segmentThamSyllabes"%u; "shvanakhall"%u; "siddhammukta"%u; "egrantamil"%u].

(** Likewise. *)
Definition wide_post : list str :=
  [
   "AhomClosed"%u; "FinalNNa"%u; "GranthaPrakrit"%u; "HebrewSBLTarget"%u; "KhmerLoCRomanLoCSource"%u; "LaoPhonetic"%u; "LaoSajjhaya"%u;
   "LaoSajjhayawithA"%u; "LaoTranscription"%u; "SaurastraHaaruColon"%u; "TaiThamMoveNnga"%u; "TakriRemoveGemination"%u; "TamilExtendedNNA"%u;
   "ThaiNativeConsonants"%u; "ThaiSajjhayaOrthography"%u; "ThaiSajjhayawithA"%u; "ThaiTranscription"%u; "ThamShiftMaiKangLai"%u;
   "capitalizeSentence"%u; "readableItrans"%u; "removeSegmentSpacesBurmese"%u; "removeSukunEnd"%u; "removetddash"%u; "urduRemoveInherent"%u;
   "LaoNative"%u].
Definition symbol_pair : str -> str -> Prop := apart_pair wide_sources wide_targets.
Definition symbol_options : str -> str -> list str -> list str -> Prop := apart_options wide_pre wide_post.

(** ** The guard that watches symbols *)
Definition W : ranges :=
  [(9,13); (28,36); (38,126); (0x85,0x85); (0xA0,0xAA); (0xAC,0xB5); (0xB7,0xBA); (0xBC,0x13FF); (0x1680,0x200F); (0x2016,0x201B); (0x2028,0x209F);
   (0x20D0,0x22FF); (0x2329,0x232A); (0x24B6,0x24E9); (0x2502,0x2503); (0x25CF,0x25CF); (0x2ADC,0x2ADD); (0x2C00,0x2E31); (0x3000,0x30FF);
   (0xA640,0xD7FF); (0xE000,0xF8FF); (0xFB00,0xFB4F); (0xFE20,0xFE2F); (0xFF21,0xFF5A);
   (0x10000,0x11FFF); (0x13000,0x133FF); (0x16A40,0x16FFF); (0x1BC9E,0x1BC9E); (0x1D100,0x1D2FF); (0x1E000,0x1E95F); (0xF0000,0xFFFFF)].
Definition compats : list (N * N) := [(0xF900,0xFAFF); (0x2F800,0x2FA1F)].
Lemma W_sorted : sorted W 0 = true.
Proof. vm_compute. reflexivity. Qed.
Definition W_sound : sound W := ranges_sound W W_sorted.
Lemma W_cases : forall w p, In p (W ++ compats) -> fst p <= w <= snd p -> In w spaces \/ exists q, In q (handled ++ compats) /\ fst q <= w <= snd q.
Proof.
  intros w p Hp Q. destruct (existsb (fun q => (fst q =? fst p) && (snd q =? snd p)) (handled ++ compats)) eqn:E.
  - right. apply existsb_exists in E as (q & Hq & E). apply andb_true_iff in E as [E1 E2]. apply N.eqb_eq in E1, E2. exists q. split; [exact Hq|]. now rewrite E1, E2.
  - assert (C : In p [(9,13); (28,36); (0x85,0x85); (0xA0,0xAA); (0x2028,0x209F)]).
    { clear Q. revert p Hp E. assert (F : forallb (fun p => existsb (fun q => (fst q =? fst p) && (snd q =? snd p)) (handled ++ compats)
        || existsb (fun q => (fst q =? fst p) && (snd q =? snd p)) [(9,13); (28,36); (0x85,0x85); (0xA0,0xAA); (0x2028,0x209F)]) (W ++ compats) = true) by (vm_compute; reflexivity).
      intros [a b] Hp E. rewrite forallb_forall in F. specialize (F _ Hp). rewrite E in F. cbn [orb] in F. apply existsb_exists in F as ([c d] & Hq & E').
      cbn [fst snd] in E'. apply andb_true_iff in E' as [E1 E2]. apply N.eqb_eq in E1, E2. now subst. }
    assert (D : forall a b, fst p = a -> snd p = b -> a <= w <= b) by (intros a b <- <-; exact Q). clear Q E Hp.
    assert (M : forall l r, forallb (fun c => memN c spaces) l = true -> In r (handled ++ compats) -> (forall c, fst p <= c <= snd p -> In c l \/ fst r <= c <= snd r) ->
      In w spaces \/ exists q, In q (handled ++ compats) /\ fst q <= w <= snd q).
    { intros l r Hl Hr H. destruct (H w (D _ _ eq_refl eq_refl)) as [K|K]; [left|right; now exists r]. rewrite forallb_forall in Hl. apply memN_In. now apply Hl. }
    destruct C as [<-|[<-|[<-|[<-|[<-|[]]]]]].
    + apply (M [9; 10; 11; 12; 13] (32, 36)); [reflexivity|now left|]. cbn [fst snd In]. intros c Hc. lia.
    + apply (M [28; 29; 30; 31] (32, 36)); [reflexivity|now left|]. cbn [fst snd In]. intros c Hc. lia.
    + apply (M [0x85] (32, 36)); [reflexivity|now left|]. cbn [fst snd In]. intros c Hc. lia.
    + apply (M [0xA0] (0xA1, 0xAA)); [reflexivity|right; right; now left|]. cbn [fst snd In]. intros c Hc. lia.
    + apply (M [0x2028; 0x2029] (0x202A, 0x209F)); [reflexivity|do 8 right; now left|]. cbn [fst snd In]. intros c Hc. lia.
Qed.
Lemma W_foreign : forall w, symbol w -> AbsRegex.foreign (W ++ compats) w = true.
Proof.
  intros w [Hf Hs]. unfold Foreign.foreign in Hf. apply negb_true_iff in Hf. unfold AbsRegex.foreign. apply negb_true_iff. destruct (any _ (W ++ compats)) eqn:E; [|reflexivity]. exfalso.
  apply any_exists in E as (p & Hp & Q). apply andb_true_iff in Q as [Q1 Q2]. apply N.leb_le in Q1, Q2. destruct (W_cases w p Hp (conj Q1 Q2)) as [K|(q & Hq & K1 & K2)]; [contradiction|].
  assert (X : existsb (fun p => (fst p <=? w) && (w <=? snd p)) (handled ++ compats) = true).
  { apply existsb_exists. exists q. split; [exact Hq|]. apply andb_true_iff. split; now apply N.leb_le. }
  unfold compats in X. congruence.
Qed.
Lemma W_watched : forall w, symbol w -> hush W w = false.
Proof.
  intros w H. apply W_foreign in H. destruct (hush W w) eqn:E; [|reflexivity]. exfalso. apply (hush_cases W W_sorted) in E as (p & Hp & Q). unfold AbsRegex.foreign in H.
  apply negb_true_iff in H. assert (X : any (fun p => (fst p <=? w) <&> (w <=? snd p)) (W ++ compats) = true).
  { apply any_exists. exists p. split; [apply in_or_app; now left|]. apply andb_true_iff. split; apply N.leb_le; apply Q. }
  congruence.
Qed.
Lemma covers : covers_norm (W ++ compats) && covers_lower (W ++ compats) && forallb (fun p => negb (AbsRegex.foreign (W ++ compats) (fst p))) comp_table
  && in_M (W ++ compats) 0x1100 0x1112 && in_M (W ++ compats) 0xAC00 0xD7A3 = true.
Proof. vm_cast_no_check (eq_refl true). Qed.
Lemma symbol_inert : forall w, symbol w -> inert w.
Proof.
  intros w H. apply W_foreign in H. pose proof covers as C. apply andb_true_iff in C as [C C5]. apply andb_true_iff in C as [C C4]. apply andb_true_iff in C as [C C3].
  apply andb_true_iff in C as [C1 C2]. split; [exact (inert_decomp _ C1 w H)|]. split; [exact (inert_cut _ C1 w H)|]. split; [|exact (lower_inert _ C2 w H)].
  intros b. unfold compose2. rewrite (foreign_not_M _ w _ _ H C4), (foreign_not_M _ w _ _ H C5). cbn [andb]. destruct (tfind w comp_trie) as [l|] eqn:E; [|reflexivity]. exfalso.
  rewrite comp_trie_eq in E. apply tfind_In in E. rewrite forallb_forall in C3. specialize (C3 _ E). cbn [fst] in C3. rewrite H in C3. discriminate C3.
Qed.
(** ** The checks *)
Lemma letters_checked : forallb (fun i => hushed W (om_letters i)) [true; false] = true.
Proof. vm_cast_no_check (eq_refl true). Qed.
Lemma sources_checked : forallb (unless wide_sources (source_ok W)) all_scripts = true.
Proof. vm_cast_no_check (eq_refl true). Qed.
Lemma targets_checked : forallb (unless wide_targets (sep_target W)) all_scripts = true.
Proof. vm_cast_no_check (eq_refl true). Qed.
Lemma pres_checked : forallb (fun e => unless wide_sources (word_ok W) (fst e)) om_words = true.
Proof. vm_cast_no_check (eq_refl true). Qed.
Lemma texts_checked : forallb (fun e => unless wide_sources (fun _ => text_ok W e) (fst e)) om_texts = true.
Proof. vm_cast_no_check (eq_refl true). Qed.
Lemma ones_checked : forallb (unless wide_sources (one_ok W)) one_om = true.
Proof. vm_cast_no_check (eq_refl true). Qed.
Lemma pre_checked : forallb (unless wide_pre (pre_opt_ok W)) PrP_names = true.
Proof. vm_cast_no_check (eq_refl true). Qed.
Lemma om_pre_checked : forallb (fun i => forallb (unless (wide_pre ++ om_pre_for i) (om_opt_ok i)) PrP_names) [true; false] = true.
Proof. vm_cast_no_check (eq_refl true). Qed.
Lemma post_checked : forallb (unless wide_post (fun o => parts W (PP_call o))) PP_names = true.
Proof. vm_cast_no_check (eq_refl true). Qed.
Lemma danda_checked : pre_opt_ok W "RetainDevangariDanda"%u && om_opt_ok true "RetainDevangariDanda"%u && om_opt_ok false "RetainDevangariDanda"%u = true.
Proof. vm_cast_no_check (eq_refl true). Qed.
Lemma glob_checked : glob W && glob2 W && variants_ok true W && sep_source W "Devanagari"%u && lack_ok W [] "Devanagari"%u && sep_target W "Devanagari"%u = true.
Proof. vm_cast_no_check (eq_refl true). Qed.
Lemma om_covered : forallb (unless (wide_sources ++ ["BarahaNorth"%u; "BarahaSouth"%u; "Inter"%u])
  (fun S => mem S one_om || mem S (map fst om_words) || mem S (map fst om_texts))) all_scripts = true.
Proof. vm_cast_no_check (eq_refl true). Qed.

(** ** The theorem *)
(** C07, C06: a symbol stays in place, and what is before and after it is converted as if it stood alone. *)
Theorem symbol_apart : forall S T nat pre post w a b x y, symbol w -> symbol_pair S T -> symbol_options S T pre post -> may_meet S T a b ->
  convert S T a nat pre post = Ok x -> convert S T b nat pre post = Ok y ->
  convert S T (a ++ w :: b) nat pre post = Ok (x ++ w :: y).
Proof.
  intros S T nat pre post w a b x y Hw.
  exact (separate_convert W W_sound w (W_watched w Hw) (symbol_inert w Hw) wide_sources wide_targets wide_pre wide_post true letters_checked eq_refl sources_checked
    targets_checked pres_checked texts_checked ones_checked pre_checked om_pre_checked post_checked danda_checked glob_checked om_covered eq_refl eq_refl S T nat pre post a b x y).
Qed.

(** ** The hypotheses can be met, and are needed *)
Lemma no_text_letters : forall S, mem S (map fst om_texts) = false -> forall k, ~ In (S, k) om_texts.
Proof. intros S H k Q. apply mem_false in H. apply H. exact (in_map fst _ _ Q). Qed.
Lemma word_letters : forall S l k, forallb (fun e => if str_eqb (fst e) S then str_eqb (snd e) l else true) om_words = true -> In (S, k) om_words -> k = l.
Proof.
  intros S l k F Hk. rewrite forallb_forall in F. specialize (F _ Hk). cbn [fst snd] in F. rewrite str_eqb_refl in F. now apply str_eqb_eq.
Qed.
(** An ideograph between a Bengali word and a Bengali number, and an emoji in Itrans. *)
Example symbol_apart_case :
  (symbol 0x5B57 /\ symbol_pair "Bengali"%u "Tamil"%u /\ symbol_options "Bengali"%u "Tamil"%u [] ["TamilOmDisable"%u]
   /\ may_meet "Bengali"%u "Tamil"%u "ও ধর্ম"%u "১২ ফল"%u
   /\ convert "Bengali"%u "Tamil"%u "ও ধর্ম"%u true [] ["TamilOmDisable"%u] = Ok "ஓ த⁴ர்ம"%u
   /\ convert "Bengali"%u "Tamil"%u "১২ ফল"%u true [] ["TamilOmDisable"%u] = Ok "12 ப²ல"%u)
  /\ symbol 0x1F600 /\ symbol_pair "Itrans"%u "Telugu"%u /\ symbol_options "Itrans"%u "Telugu"%u [] []
  /\ may_meet "Itrans"%u "Telugu"%u "oM shrI"%u "rAmaH"%u
  /\ convert "Itrans"%u "Telugu"%u "oM shrI"%u true [] [] = Ok "ఓం శ్రీ"%u /\ convert "Itrans"%u "Telugu"%u "rAmaH"%u true [] [] = Ok "రామః"%u.
Proof.
  assert (Sy : forall w, Foreign.foreign w = true -> memN w spaces = false -> symbol w) by (intros w H1 H2; split; [exact H1|]; intros Q; apply memN_In in Q; congruence).
  split; [|split; [|split; [|split; [|split]]]].
  - split; [apply Sy; vm_compute; reflexivity|]. split; [|split; [|split; [|split; vm_compute; reflexivity]]].
    + split; [listed_name|]. split; [not_listed|]. split; [listed_name|]. split; [not_listed|]. split; [intros [Q _]; discriminate Q|]. intros _. not_listed.
    + split; intros o Ho; [destruct Ho|]. destruct Ho as [<-|[]]. split; [listed_name|not_listed].
    + split; [intros Q; apply mem_In in Q; vm_compute in Q; discriminate Q|]. split; [intros Q; discriminate Q|]. split.
      * intros _ k Hk. rewrite (word_letters "Bengali"%u "ও"%u k ltac:(vm_compute; reflexivity) Hk). split; apply clean_free; vm_compute; reflexivity.
      * intros _ k Hk. exfalso. revert Hk. apply no_text_letters. vm_compute. reflexivity.
  - apply Sy; vm_compute; reflexivity.
  - split; [listed_name|]. split; [not_listed|]. split; [listed_name|]. split; [not_listed|]. split; [intros [Q _]; discriminate Q|]. intros _. not_listed.
  - split; intros o [].
  - split; [intros _; split; intros Q; apply memN_In in Q; vm_compute in Q; discriminate Q|]. split; [intros _; split; apply clean_free; vm_compute; reflexivity|]. split.
    + intros _ k Hk. rewrite (word_letters "Itrans"%u "OoUu"%u k ltac:(vm_compute; reflexivity) Hk). split; apply clean_free; vm_compute; reflexivity.
    + intros _ k Hk. exfalso. revert Hk. apply no_text_letters. vm_compute. reflexivity.
  - split; vm_compute; reflexivity.
Qed.
(** Om next to a symbol is spelt out, om alone becomes the sign. *)
Theorem symbol_apart_om_refuted : exists w a b x y r, symbol w /\ symbol_pair "Telugu"%u "Devanagari"%u
  /\ convert "Telugu"%u "Devanagari"%u a true [] [] = Ok x /\ convert "Telugu"%u "Devanagari"%u b true [] [] = Ok y
  /\ convert "Telugu"%u "Devanagari"%u (a ++ w :: b) true [] [] = Ok r /\ r <> x ++ w :: y.
Proof.
  exists 0x5B57, "ఓం"%u, "ఓం"%u, "ॐ"%u, "ॐ"%u, ("ओं"%u ++ 0x5B57 :: "ओं"%u). split; [|split].
  - split; [vm_compute; reflexivity|]. intros Q. apply memN_In in Q. vm_compute in Q. discriminate Q.
  - split; [listed_name|]. split; [not_listed|]. split; [listed_name|]. split; [not_listed|]. split; [intros [Q _]; discriminate Q|]. intros _. not_listed.
  - split; [vm_compute; reflexivity|]. split; [vm_compute; reflexivity|]. split; [vm_compute; reflexivity|discriminate].
Qed.
(** Likewise OM in Itrans, where even a stray mark appears after the symbol. *)
Theorem symbol_apart_itrans_refuted : exists w a b x y r, symbol w /\ symbol_pair "Itrans"%u "Telugu"%u
  /\ convert "Itrans"%u "Telugu"%u a true [] [] = Ok x /\ convert "Itrans"%u "Telugu"%u b true [] [] = Ok y
  /\ convert "Itrans"%u "Telugu"%u (a ++ w :: b) true [] [] = Ok r /\ r <> x ++ w :: y.
Proof.
  exists 0x5B57, "OM"%u, "OM"%u, "ఓం"%u, "ఓం"%u, ("ఒం"%u ++ 0x5B57 :: 94 :: "ఓం"%u). split; [|split].
  - split; [vm_compute; reflexivity|]. intros Q. apply memN_In in Q. vm_compute in Q. discriminate Q.
  - split; [listed_name|]. split; [not_listed|]. split; [listed_name|]. split; [not_listed|]. split; [intros [Q _]; discriminate Q|]. intros _. not_listed.
  - split; [vm_compute; reflexivity|]. split; [vm_compute; reflexivity|]. split; [vm_compute; reflexivity|discriminate].
Qed.
