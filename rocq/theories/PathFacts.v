(** * Conversions between two Indic scripts (C03, C35).

    Converting between two scripts gives what converting from Devanagari would
    have given.  The theorems are about [convert] (transliterate.py:226) without
    nativization and options.  Stages.v explains the method; the token tables of the
    scripts whose conversion looks at neighbouring letters are in the RT files. *)
From Coq Require Import List NArith ZArith Bool Lia Arith.
From Verif Require Import PyStr Regex Unicode Prog GMLists Transliterate StrFacts AbsRegex Lang Tokenise Analyze IndicText IndicRT
  IndicFine Stages RTAssamese RTBengali RTSinhala RTTamil RTGurmukhi RTMalayalam RTTelugu.
Import ListNotations.
Local Open Scope nat_scope.

(** ** The strings that must not occur

    Losses that are real: each of these strings is itself a text that does not
    come back, see [excluded_lost] below. *)

(** The vowels अ आ in brackets are read as ऽ; a digit after the Latin letter h is
    read as a superscript. *)
Definition h_digit : list str :=
  ["h०"%u; "h१"%u; "h२"%u; "h३"%u; "h४"%u; "h५"%u; "h६"%u; "h७"%u; "h८"%u; "h९"%u].
Definition brackets_and_h : list str := ["(अ)"%u; "(आ)"%u] ++ h_digit.
(** व after these consonants is written like ब. *)
Definition lost_va : list str :=
  map (fun c => c :: "्व"%u) ("कखगघङचछजझञटठडढणतथदधनपफयलशषसह"%u ++ [0x95C; 0x95D; 0x95F]%N).
(** Conjuncts that Gurmukhi writes like others. *)
Definition lost_geminates : list str :=
  [[0x958; virama; 0x958]; [0x929; virama; 0x929]; [0x95F; virama; 0x95F]; "ऴ्ऴ"%u; [0x95D; virama; 0x95D];
   "श्ष"%u; [0x95C; virama; 0x939];
   "क्क्ख"%u; "ग्ग्घ"%u; "च्च्छ"%u; "ज्ज्झ"%u; "ट्ट्ठ"%u; "ड्ड्ढ"%u; "त्त्थ"%u; "द्द्ध"%u; "प्प्फ"%u; "ब्ब्भ"%u]%N.

Definition contextual : list (str * list str) :=
  [("Assamese"%u, []);
   ("Bengali"%u, lost_va);
   ("Sinhala"%u, brackets_and_h);
   ("Tamil"%u, brackets_and_h ++ ["स्री"%u]);
   ("Gurmukhi"%u, brackets_and_h ++ lost_geminates);
   ("Malayalam"%u, h_digit); ("Telugu"%u, h_digit)].

(** The scripts converted letter by letter, with the letters they cannot represent. *)
Definition by_letter : list (str * list str) :=
  map (fun p => (fst p, map (fun c => [c]) (snd p))) (filter (fun p => negb (str_eqb (fst p) "Telugu"%u)) lossless).
Notation scripts := (by_letter ++ contextual).

(** Pairs that do not go together: BengaliRaBa and Bengali or Assamese, where व is
    lost, BengaliRaBa and GranthaGrantamil, Takri and other scripts than Devanagari. *)
Definition apart1 (A B : str) : bool :=
  (str_eqb A "BengaliRaBa"%u <&> any (str_eqb B) ["Bengali"%u; "Assamese"%u; "GranthaGrantamil"%u])
  <|> (str_eqb A "Takri"%u <&> negb (str_eqb B "Devanagari"%u)).
Definition together (A B : str) : bool := negb (apart1 A B) <&> negb (apart1 B A).

(* ------------------------------------------------------------------ *)
(** ** The checks *)

Definition letters_of (p : str * list str) : list (N * str) :=
  if str_eqb (fst p) "Devanagari"%u then [] else letters (snd p) (fst p).

Lemma by_letter_undone : all (fun p => undone (plain (snd p)) (fst p) (letters_of p)) by_letter = true.
Proof. vm_cast_no_check (eq_refl true). Qed.

Lemma contextual_image : forall X bad, In (X, bad) contextual -> exists G, image X bad (letters bad X) G.
Proof.
  assert (C : forall t X bad, undone t X (letters (f_bad t) X) = true -> f_bad t = bad -> exists G, image X bad (letters bad X) G).
  { intros t X bad H <-. exact (undone_image _ _ _ H). }
  intros X bad H. destruct H as [H|[H|[H|[H|[H|[H|[H|[]]]]]]]]; injection H as <- <-.
  - apply (C assamese); [exact assamese_checked|vm_compute; reflexivity].
  - apply (C bengali); [exact bengali_checked|vm_compute; reflexivity].
  - apply (C sinhala); [exact sinhala_checked|vm_compute; reflexivity].
  - apply (C tamil); [exact tamil_checked|vm_compute; reflexivity].
  - apply (C gurmukhi); [exact gurmukhi_checked|vm_compute; reflexivity].
  - apply (C malayalam); [exact malayalam_checked|vm_compute; reflexivity].
  - apply (C telugu); [exact telugu_checked|vm_compute; reflexivity].
Qed.

Lemma by_letter_image : forall X bad, In (X, bad) by_letter -> exists G, image X bad (letters_of (X, bad)) G.
Proof.
  intros X bad H. pose proof by_letter_undone as U. rewrite all_forall in U. specialize (U _ H).
  exact (undone_image (plain bad) X (letters_of (X, bad)) U).
Qed.
Lemma letters_other : forall X bad, str_eqb X "Devanagari"%u = false -> letters_of (X, bad) = letters bad X.
Proof. intros X bad E. unfold letters_of. cbn [fst snd]. rewrite E. reflexivity. Qed.
Lemma contextual_other : forall X bad, In (X, bad) contextual -> str_eqb X "Devanagari"%u = false.
Proof.
  assert (D : all (fun p => negb (str_eqb (fst p) "Devanagari"%u)) contextual = true) by (vm_compute; reflexivity).
  rewrite all_forall in D. intros X bad H. specialize (D _ H). now apply negb_true_iff in D.
Qed.

Lemma script_cases : forall p, In p scripts -> In p by_letter \/ In p contextual.
Proof. intros p H. apply in_app_or. exact H. Qed.
Lemma other_image : forall X bad, In (X, bad) contextual -> exists G, image X bad (letters_of (X, bad)) G.
Proof.
 intros X bad H. 
 pose proof (letters_other X bad (contextual_other X bad H)) as E. revert E. generalize (letters_of (X,bad)). intros l ->. exact (contextual_image X bad H).
Qed.
Lemma script_image : forall X bad, In (X, bad) scripts -> exists G, image X bad (letters_of (X, bad)) G.
Proof.
  intros X bad H. destruct (script_cases _ H) as [I|I].
  - exact (by_letter_image X bad I).
  - exact (other_image X bad I).
Qed.

(** The text of Devanagari is the text. *)
Definition kept_back : bool :=
  match f_stage (plain []) (back "Devanagari"%u) (f_table (plain [])) with None => false | Some L => table_eqb L (f_table (plain [])) end.
Lemma dev_kept : kept_back = true.
Proof. vm_compute. reflexivity. Qed.
Lemma plain_tok : f_tok (plain []) = true.
Proof. vm_compute. reflexivity. Qed.
Lemma dev_image : forall G, image "Devanagari"%u [] [] G -> forall s, dev_text s = true -> G s = s.
Proof.
  intros G I s Hs. assert (F : fits [] s) by (split; [exact Hs|easy]). pose proof (im_back _ _ _ _ I s F) as H.
  pose proof dev_kept as K. unfold kept_back in K. destruct (f_stage _ _ _) as [L|] eqn:E; [|discriminate].
  apply table_eqb_eq in K. subst L.
  assert (C : f_check (plain []) = true) by (unfold f_check; rewrite plain_tok; vm_compute; reflexivity).
  destruct (f_tokens (plain []) C s Hs eq_refl) as [Hr Hv].
  pose proof (f_stage_ok (plain []) C _ _ _ E _ Hv) as R. rewrite Hr in R. rewrite spelled_none, R in H. now injection H as <-.
Qed.

(** The token table for the replacement of the letters. *)
Definition mids : fine := Fine own_common coarse_common 20 46
  (vowels_common
   ++ map (fun c => Entry [c] all20 4 4) (minus consonants [0x95C%N])
   ++ map (fun c => Entry [virama; c] all20 6 4) (minus consonants [0x95C%N; ch "ह"%u])
   ++ [Entry [virama; ch "ह"%u] all20 33 4;
       Entry_no [0x95C%N] all20 4 32 ["्ह"%u]; Entry ([0x95C%N] ++ "्ह"%u) all20 4 4;
       Entry_no [virama; 0x95C%N] all20 6 32 ["्ह"%u]; Entry ([virama; 0x95C%N] ++ "्ह"%u) all20 6 4;
       Entry [rra] all20 4 12; Entry [virama; rra] all20 6 12]
   ++ map (fun c => Entry [c] all20 5 5) signs
   ++ [Entry [virama] [0; 1; 9; 10; 14; 15; 16; 17; 18] 6 6]
   ++ rest_common)
  (fun a b => match b with
    | 5 => memb a [4; 12; 32]
    | 6 => memb a [4; 32]
    | 33 => memb a [4]
    | 7 => memb a [2; 42; 4; 5; 12; 32]
    | 8 => memb a [2; 3; 42; 4; 5; 12; 32]
    | 10 => negb (memb a [10])
    | 2 | 3 | 4 => negb (memb a [6])
    | 31 => negb (memb a [6; 41])
    | 27 => negb (memb a [39])
    | 28 => negb (memb a [40])
    | 30 => negb (memb a [42])
    | _ => true
    end) [].
Lemma mids_tok : f_tok mids = true.
Proof. vm_cast_no_check (eq_refl true). Qed.

Definition pair_check (t : fine) (a b : (str * list str) * list (N * str)) : bool :=
  let t' := with_bad t (snd (fst a) ++ snd (fst b)) in
  shape_ok (f_classes t') (f_k t') <&> changed t' (fst (fst a)) (fst (fst b)) (snd a) (snd b).
Definition pairs_check (t : fine) (m : list ((str * list str) * list (N * str))) : bool :=
  all (fun a => all (fun b =>
    str_eqb (fst (fst a)) (fst (fst b)) <|> negb (together (fst (fst a)) (fst (fst b))) <|> pair_check t a b) m) m.

Lemma pair_check_ok : forall t A bada B badb ma mb, f_tok t = true -> pair_check t ((A, bada), ma) ((B, badb), mb) = true ->
  map_ok ma = true -> map_ok mb = true ->
  forall s, fits (bada ++ badb) s -> run (mid A B) (spelled ma s) = Ok (spelled mb s).
Proof.
  intros t A bada B badb ma mb Ht P Ma Mb. unfold pair_check in P. cbn [fst snd] in P. apply andb_true_iff in P as [P1 P2].
  assert (K : f_check (with_bad t (bada ++ badb)) = true) by (unfold f_check; rewrite with_bad_tok, Ht; exact P1).
  exact (changed_ok _ A B _ _ K Ma Mb P2).
Qed.
Lemma pairs_check_ok : forall t g m A bada B badb, pairs_check t (map (fun p => (p, g p)) m) = true ->
  In (A, bada) m -> In (B, badb) m -> A <> B -> together A B = true ->
  pair_check t ((A, bada), g (A, bada)) ((B, badb), g (B, badb)) = true.
Proof.
  intros t g m A bada B badb P HA HB Hne Ht. unfold pairs_check in P. rewrite all_forall in P.
  specialize (P _ (in_map (fun p => (p, g p)) _ _ HA)). rewrite all_forall in P.
  specialize (P _ (in_map (fun p => (p, g p)) _ _ HB)). cbn [fst snd] in P.
  destruct (str_eqb A B) eqn:E; [apply str_eqb_eq in E; contradiction|]. rewrite Ht in P. exact P.
Qed.

Lemma pairs_checked : pairs_check mids (map (fun p => (p, letters_of p)) scripts) = true.
Proof. vm_cast_no_check (eq_refl true). Qed.

Lemma convert_texts : forall A bada B badb Ga Gb, In (A, bada) scripts -> In (B, badb) scripts -> A <> B -> together A B = true ->
  image A bada (letters_of (A, bada)) Ga -> image B badb (letters_of (B, badb)) Gb ->
  forall s, fits bada s -> fits badb s -> conv A B (Ga s) = Ok (Gb s).
Proof.
  intros A bada B badb Ga Gb HA HB Hne Ht IA IB.
  exact (stages A B bada badb _ _ Ga Gb IA IB Hne
    (pair_check_ok mids A bada B badb _ _ mids_tok (pairs_check_ok mids letters_of _ A bada B badb pairs_checked HA HB Hne Ht)
       (im_map _ _ _ _ IA) (im_map _ _ _ _ IB))).
Qed.

Lemma in_scripts : forall A l, any (fun p => str_eqb (fst p) A <&> table_eqb (snd p) l) scripts = true -> In (A, l) scripts.
Proof.
  intros A l H. apply any_exists in H as ([B k] & H & E). cbn [fst snd] in E. apply andb_true_iff in E as [E1 E2].
  apply str_eqb_eq in E1. apply table_eqb_eq in E2. now subst B k.
Qed.

Lemma dev_script : In ("Devanagari"%u, []) scripts.
Proof. apply in_scripts. vm_compute. reflexivity. Qed.
Lemma dev_own : exists G, image "Devanagari"%u [] [] G.
Proof. exact (script_image _ _ dev_script). Qed.
Lemma dev_together : forall X bad, In (X, bad) scripts -> together "Devanagari"%u X = true /\ together X "Devanagari"%u = true.
Proof.
  assert (D : all (fun p => together "Devanagari"%u (fst p) <&> together (fst p) "Devanagari"%u) scripts = true) by (vm_compute; reflexivity).
  rewrite all_forall in D. intros X bad H. specialize (D _ H). cbn [fst] in D. now apply andb_true_iff in D.
Qed.
Lemma dev_dev : convert_prog "Devanagari"%u "Devanagari"%u false [] [] = [].
Proof. vm_compute. reflexivity. Qed.
Lemma dev_alone : forall X bad, In (X, bad) scripts -> X = "Devanagari"%u -> bad = [].
Proof.
  assert (D : all (fun p => negb (str_eqb (fst p) "Devanagari"%u) <|> match snd p with [] => true | _ => false end) scripts = true)
    by (vm_compute; reflexivity).
  rewrite all_forall in D. intros X bad H ->. specialize (D _ H). cbn [fst snd] in D. destruct bad; [reflexivity|].
  rewrite str_eqb_refl in D. discriminate.
Qed.

(** The text of [A] is what [convert] makes of the Devanagari text, and back. *)
Lemma from_devanagari : forall A bad G, In (A, bad) scripts -> image A bad (letters_of (A, bad)) G ->
  forall s, fits bad s -> conv "Devanagari"%u A s = Ok (G s) /\ conv A "Devanagari"%u (G s) = Ok s.
Proof.
  intros A bad G HA I s F. destruct (str_eqb A "Devanagari"%u) eqn:E.
  - apply str_eqb_eq in E. pose proof (dev_alone A bad HA E) as Eb. subst A bad.
    assert (H : G s = s) by (apply (dev_image G I); apply F). rewrite H.
    unfold conv, convert. rewrite dev_dev. now split.
  - apply str_eqb_neq in E. destruct dev_own as [D ID]. destruct (dev_together A bad HA) as [T1 T2].
    assert (H : D s = s) by (apply (dev_image D ID); apply F).
    assert (Fd : fits [] s) by (split; [apply F|easy]).
    pose proof (convert_texts "Devanagari"%u [] A bad D G dev_script HA (not_eq_sym E) T1 ID I s Fd F) as C1.
    pose proof (convert_texts A bad "Devanagari"%u [] G D HA dev_script E T2 I ID s F Fd) as C2.
    rewrite H in C1, C2. now split.
Qed.

(* ------------------------------------------------------------------ *)
(** ** C35 and C03 *)

(** C35: from [A] to [B] is the same as from Devanagari to [B]. *)
Theorem path_independent : forall A bada B badb, In (A, bada) scripts -> In (B, badb) scripts -> A <> B -> together A B = true ->
  forall s, dev_text s = true -> (forall x, In x bada -> contains x s = false) -> (forall x, In x badb -> contains x s = false) ->
  exists a b, conv "Devanagari"%u A s = Ok a /\ conv "Devanagari"%u B s = Ok b /\ conv A B a = Ok b.
Proof.
  intros A bada B badb HA HB Hne Ht s Hd Wa Wb. destruct (script_image A bada HA) as [Ga IA]. destruct (script_image B badb HB) as [Gb IB].
  assert (Fa : fits bada s) by now split. assert (Fb : fits badb s) by now split.
  exists (Ga s), (Gb s). split; [exact (proj1 (from_devanagari A bada Ga HA IA s Fa))|].
  split; [exact (proj1 (from_devanagari B badb Gb HB IB s Fb))|].
  exact (convert_texts A bada B badb Ga Gb HA HB Hne Ht IA IB s Fa Fb).
Qed.

Lemma together_sym : forall A B, together A B = together B A.
Proof. intros A B. unfold together. now destruct (apart1 A B), (apart1 B A). Qed.

(** C03: from [A] to [B] and back. *)
Theorem roundtrip_between_indic : forall A bada B badb, In (A, bada) scripts -> In (B, badb) scripts -> A <> B -> together A B = true ->
  forall s, dev_text s = true -> (forall x, In x bada -> contains x s = false) -> (forall x, In x badb -> contains x s = false) ->
  exists a b, conv "Devanagari"%u A s = Ok a /\ conv A B a = Ok b /\ conv B A b = Ok a.
Proof.
  intros A bada B badb HA HB Hne Ht s Hd Wa Wb. destruct (script_image A bada HA) as [Ga IA]. destruct (script_image B badb HB) as [Gb IB].
  assert (Fa : fits bada s) by now split. assert (Fb : fits badb s) by now split.
  exists (Ga s), (Gb s). split; [exact (proj1 (from_devanagari A bada Ga HA IA s Fa))|].
  split; [exact (convert_texts A bada B badb Ga Gb HA HB Hne Ht IA IB s Fa Fb)|].
  rewrite together_sym in Ht.
  exact (convert_texts B badb A bada Gb Ga HB HA (not_eq_sym Hne) Ht IB IA s Fb Fa).
Qed.

(** C06, C07: a foreign character is kept in place, and what stands before and
    after it is converted as if it stood alone, between any two of the scripts. *)
Theorem foreign_kept_between : forall A bada B badb, In (A, bada) scripts -> In (B, badb) scripts -> A <> B -> together A B = true ->
  forall s s' c, foreign ranges c = true -> dev_text s = true -> dev_text s' = true ->
  (forall x, In x (bada ++ badb) -> contains x s = false) -> (forall x, In x (bada ++ badb) -> contains x s' = false) ->
  exists a a' b b', conv "Devanagari"%u A s = Ok a /\ conv "Devanagari"%u A s' = Ok a' /\
    conv A B a = Ok b /\ conv A B a' = Ok b' /\ conv A B (a ++ c :: a') = Ok (b ++ c :: b').
Proof.
  intros A bada B badb HA HB Hne Ht s s' c Hc Hd Hd' W W'.
  destruct (script_image A bada HA) as [Ga IA]. destruct (script_image B badb HB) as [Gb IB].
  assert (Fa : fits bada s) by (split; [exact Hd|intros x Hx; apply W, in_or_app; now left]).
  assert (Fb : fits badb s) by (split; [exact Hd|intros x Hx; apply W, in_or_app; now right]).
  assert (Fa' : fits bada s') by (split; [exact Hd'|intros x Hx; apply W', in_or_app; now left]).
  assert (Fb' : fits badb s') by (split; [exact Hd'|intros x Hx; apply W', in_or_app; now right]).
  pose proof (convert_texts A bada B badb Ga Gb HA HB Hne Ht IA IB) as C.
  exists (Ga s), (Ga s'), (Gb s), (Gb s').
  split; [exact (proj1 (from_devanagari A bada Ga HA IA s Fa))|].
  split; [exact (proj1 (from_devanagari A bada Ga HA IA s' Fa'))|].
  split; [now apply C|]. split; [now apply C|].
  rewrite <- (im_cut _ _ _ _ IA s s' c Hc Fa Fa'), <- (im_cut _ _ _ _ IB s s' c Hc Fb Fb').
  apply C; apply fits_cut; try assumption; [exact (im_own _ _ _ _ IA)|exact (im_own _ _ _ _ IB)].
Qed.

Example path_case :
  In ("Tamil"%u, brackets_and_h ++ ["स्री"%u]) scripts /\ In ("Bengali"%u, lost_va) scripts /\ together "Tamil"%u "Bengali"%u = true /\
  let s := "सत्यं धर्मक्षेत्रे 漢字"%u in
  dev_text s = true /\ forallb (fun x => negb (contains x s)) (brackets_and_h ++ ["स्री"%u] ++ lost_va) = true /\
  conv "Devanagari"%u "Tamil"%u s = Ok "ஸத்யம்ʼ த⁴ர்மக்ஷேத்ரே 漢字"%u /\
  conv "Tamil"%u "Bengali"%u "ஸத்யம்ʼ த⁴ர்மக்ஷேத்ரே 漢字"%u = conv "Devanagari"%u "Bengali"%u s.
Proof. split; [apply in_scripts; vm_compute; reflexivity|]. split; [apply in_scripts; vm_compute; reflexivity|]. vm_compute. repeat split. Qed.

(** The pairs with BengaliRaBa are left out for a reason: व does not survive them. *)
Theorem roundtrip_between_refuted : exists a b c d,
  conv "Devanagari"%u "BengaliRaBa"%u "भव"%u = Ok a /\
  conv "BengaliRaBa"%u "Bengali"%u a = Ok b /\ conv "Bengali"%u "BengaliRaBa"%u b <> Ok a /\
  conv "BengaliRaBa"%u "Assamese"%u a = Ok c /\ conv "Assamese"%u "BengaliRaBa"%u c <> Ok a /\
  conv "Devanagari"%u "Bengali"%u "भव"%u = Ok d /\ conv "Bengali"%u "BengaliRaBa"%u d <> Ok a.
Proof.
  exists "ভব"%u, "ভভ়"%u, "ভৱ"%u, "ভভ়"%u. repeat split; vm_compute; solve [reflexivity|discriminate].
Qed.
