(** * C01, C06, C07 for the scripts whose conversion looks at neighbouring letters.

    Together with [roundtrip_indic_partial] (IndicRT.v) these are all the Indic
    scripts that GeneralMap.py:295 declares reversible. *)
From Coq Require Import List NArith ZArith Bool Lia Arith.
From Verif Require Import PyStr GMLists StrFacts AbsRegex Lang Tokenise Analyze IndicText IndicRT IndicFine Stages PathFacts.
Import ListNotations.
Local Open Scope nat_scope.

(** C01: a Devanagari text without the strings listed in [contextual] (PathFacts.v),
    converted and converted back, is unchanged. *)
Theorem roundtrip_contextual_partial : forall X bad, In (X, bad) contextual ->
  forall s, dev_text s = true -> (forall x, In x bad -> contains x s = false) ->
  exists t, conv "Devanagari"%u X s = Ok t /\ conv X "Devanagari"%u t = Ok s.
Proof.
  intros X bad Hin s Hd Ha. assert (HX : In (X, bad) scripts) by (apply in_or_app; now right).
  destruct (script_image X bad HX) as [G I]. exists (G s). exact (from_devanagari X bad G HX I s (conj Hd Ha)).
Qed.

(** C06, C07: a foreign character is kept in place, in both directions, and what
    stands before and after it is converted as if it stood alone. *)
Theorem foreign_kept_contextual : forall X bad, In (X, bad) contextual ->
  forall s s' c, foreign ranges c = true -> dev_text s = true -> dev_text s' = true ->
  (forall x, In x bad -> contains x s = false) -> (forall x, In x bad -> contains x s' = false) ->
  exists u u', conv "Devanagari"%u X s = Ok u /\ conv "Devanagari"%u X s' = Ok u' /\
    conv "Devanagari"%u X (s ++ c :: s') = Ok (u ++ c :: u') /\
    conv X "Devanagari"%u (u ++ c :: u') = Ok (s ++ c :: s').
Proof.
  intros X bad Hin s s' c Hc Hd Hd' Ha Ha'. assert (HX : In (X, bad) scripts) by (apply in_or_app; now right).
  destruct (script_image X bad HX) as [G I]. pose proof (from_devanagari X bad G HX I) as C.
  assert (F : fits bad s) by now split. assert (F' : fits bad s') by now split. exists (G s), (G s').
  split; [exact (proj1 (C s F))|]. split; [exact (proj1 (C s' F'))|].
  rewrite <- (im_cut _ _ _ _ I s s' c Hc F F'). exact (C _ (fits_cut bad (im_own _ _ _ _ I) s s' c Hc F F')).
Qed.

(** Texts to which the theorems apply. *)
Example roundtrip_contextual_case :
  let s := "सत्यमेव जयते। धर्मक्षेत्रे कुरुक्षेत्रे 漢字 १२"%u in
  dev_text s = true /\
  Forall (fun p => forallb (fun x => negb (contains x s)) (snd p) = true) contextual /\
  conv "Devanagari"%u "Tamil"%u "सत्यमेव जयते"%u = Ok "ஸத்யமேவ ஜயதே"%u /\
  conv "Devanagari"%u "Bengali"%u "सत्यं जयते"%u = Ok "সত্যং জযতে"%u /\
  conv "Devanagari"%u "Malayalam"%u "अर्जुन कर्म"%u = Ok "അർജുന കർമ"%u.
Proof. split; [vm_compute; reflexivity|]. split; [|split; [|split]; vm_compute; reflexivity].
  unfold contextual. repeat (apply Forall_cons; [vm_compute; reflexivity|]). apply Forall_nil.
Qed.

(** ** Losses

    Texts that do not come back. *)
Definition lossy (X s : str) : bool :=
  match conv "Devanagari"%u X s with
  | Ok t => match conv X "Devanagari"%u t with Ok s' => negb (str_eqb s' s) | Err _ => true end
  | Err _ => true
  end.

(** Each excluded string is itself lost, so none is excluded for the proof only. *)
Theorem excluded_lost : forall X bad, In (X, bad) contextual -> forall x, In x bad ->
  dev_text x = true /\ lossy X x = true.
Proof.
  assert (H : forallb (fun p => forallb (fun x => andb (dev_text x) (lossy (fst p) x)) (snd p)) contextual = true)
    by (vm_cast_no_check (eq_refl true)).
  rewrite forallb_forall in H. intros X bad Hin x Hx. specialize (H _ Hin). cbn [fst snd] in H.
  rewrite forallb_forall in H. specialize (H _ Hx). now apply andb_true_iff in H.
Qed.

(** C01 for all the Indic scripts declared reversible (GeneralMap.py:295). *)
Definition lost_in (X : str) : list str :=
  match find (fun p => str_eqb (fst p) X) contextual with Some p => snd p | None => [] end.

Lemma reversible_script : forall X, In X GM_ReversibleScripts -> In (X, lost_in X) scripts.
Proof.
  assert (D : all (fun X => any (fun p => str_eqb (fst p) X <&> table_eqb (snd p) (lost_in X)) scripts) GM_ReversibleScripts = true)
    by (vm_compute; reflexivity).
  rewrite all_forall in D. intros X H. apply in_scripts. exact (D X H).
Qed.
Lemma reversible_together : forall A B, In A GM_ReversibleScripts -> In B GM_ReversibleScripts -> together A B = true.
Proof.
  assert (D : all (fun A => all (together A) GM_ReversibleScripts) GM_ReversibleScripts = true) by (vm_compute; reflexivity).
  rewrite all_forall in D. intros A B HA HB. specialize (D A HA). rewrite all_forall in D. exact (D B HB).
Qed.

Theorem roundtrip_reversible : forall X, In X GM_ReversibleScripts ->
  forall s, dev_text s = true -> (forall x, In x (lost_in X) -> contains x s = false) ->
  exists t, conv "Devanagari"%u X s = Ok t /\ conv X "Devanagari"%u t = Ok s.
Proof.
  intros X HX s Hd Ha. pose proof (reversible_script X HX) as HX'.
  destruct (script_image X _ HX') as [G I]. exists (G s). exact (from_devanagari X _ G HX' I s (conj Hd Ha)).
Qed.

(** C03: between any two of them, and back. *)
Theorem roundtrip_between_reversible : forall A B, In A GM_ReversibleScripts -> In B GM_ReversibleScripts -> A <> B ->
  forall s, dev_text s = true -> (forall x, In x (lost_in A) -> contains x s = false) -> (forall x, In x (lost_in B) -> contains x s = false) ->
  exists a b, conv "Devanagari"%u A s = Ok a /\ conv A B a = Ok b /\ conv B A b = Ok a.
Proof.
  intros A B HA HB Hne.
  exact (roundtrip_between_indic A _ B _ (reversible_script A HA) (reversible_script B HB) Hne (reversible_together A B HA HB)).
Qed.

(** Nothing is excluded needlessly: each string of [lost_in X] is itself a text that
    does not come back. *)
Theorem lost_in_lost : forall X x, In x (lost_in X) -> dev_text x = true /\ lossy X x = true.
Proof.
  intros X x Hx. unfold lost_in in Hx. destruct (find _ contextual) as [[Y bad]|] eqn:F; [|easy].
  apply find_some in F as [F1 F2]. cbn [fst snd] in *. apply str_eqb_eq in F2. subst Y. exact (excluded_lost X bad F1 x Hx).
Qed.

Example roundtrip_reversible_case :
  let s := "सत्यमेव जयते। धर्मक्षेत्रे कुरुक्षेत्रे 漢字 १२"%u in
  length GM_ReversibleScripts = 11 /\ dev_text s = true /\
  forallb (fun X => forallb (fun x => negb (contains x s)) (lost_in X)) GM_ReversibleScripts = true.
Proof. repeat split; vm_compute; reflexivity. Qed.

Theorem roundtrip_contextual_refuted :
  Forall (fun p => dev_text (snd p) = true /\ lossy (fst p) (snd p) = true)
    [("Bengali"%u, "स्वर"%u); ("Tamil"%u, "मिस्री"%u); ("Tamil"%u, "(अ)"%u); ("Tamil"%u, "h२"%u);
     ("Sinhala"%u, "(अ)"%u); ("Sinhala"%u, "h२"%u); ("Gurmukhi"%u, "(अ)"%u); ("Gurmukhi"%u, "h२"%u); ("Malayalam"%u, "h२"%u);
     ("Gurmukhi"%u, [0x958; virama; 0x958]%N); ("Gurmukhi"%u, "श्ष"%u); ("Gurmukhi"%u, "क्क्ख"%u)].
Proof. repeat (apply Forall_cons; [split; vm_compute; reflexivity|]). apply Forall_nil. Qed.
