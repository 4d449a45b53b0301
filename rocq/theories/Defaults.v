(** * C01, C02, C03, C35 for [transliterate.process] as it is called: with names in
    any case, and with [nativize], its default. *)
From Coq Require Import List NArith ZArith Bool Lia Arith.
From Verif Require Import PyStr Regex Unicode Prog GMLists GeneralMap Convert Transliterate StrFacts ApiFacts TotalFacts IndicText
  IndicRT PathFacts FineRT RomanText RomanRT RomanPairs Nativize.
Import ListNotations.
Local Open Scope nat_scope.

(** The scripts and schemes declared reversible that have no conventions of their
    own. *)
Definition unconventional : list str := ["Devanagari"%u; "Gujarati"%u] ++ map fst roman_schemes.
Lemma carried_plain : forall A s, carried A s -> plain A.
Proof.
  intros A s H.
  assert (C : forallb (fun S => mem S names && negb (mem S special)) (GM_ReversibleScripts ++ map fst roman_schemes) = true) by (vm_compute; reflexivity).
  rewrite forallb_forall in C. apply plain_name, C. apply in_or_app.
  destruct H as [A s HA _ _|A x bad s HA _ _]; [now left|right]. apply in_map_iff. now exists (A, (x, bad)).
Qed.
Lemma unconventional_spec : forall B, In B unconventional -> ~ In B conventional.
Proof.
  assert (C : forallb (fun B => negb (mem B conventional)) unconventional = true) by (vm_compute; reflexivity).
  intros B HB Q. rewrite forallb_forall in C. specialize (C B HB). apply mem_In in Q. rewrite Q in C. discriminate.
Qed.
Lemma unmarked_same : forall s, (forall c, In c marks -> ~ In c s) -> unmarked s = s.
Proof.
  intros s H. unfold unmarked. apply filter_all. apply forallb_forall. intros c Hc. apply negb_true_iff.
  destruct (existsb (N.eqb c) marks) eqn:E; [|reflexivity]. apply existsb_exists in E as (d & Hd & Q). apply N.eqb_eq in Q. subst d. now destruct (H c Hd).
Qed.

(** C35 with [nativize]: the result is that of converting [s] directly, without marks. *)
Theorem default_carried : forall A B s, carried A s -> carried B s -> A <> B -> In B unconventional ->
  exists a b, conv "Devanagari"%u A s = Ok a /\ conv "Devanagari"%u B s = Ok b /\ convert A B a true [] [] = Ok (unmarked b).
Proof.
  intros A B s HA HB Hne HU. destruct (convert_carried A B s HA HB Hne) as (a & b & C1 & C2 & C3). exists a, b. split; [exact C1|]. split; [exact C2|].
  rewrite (nativize_deletes A B [] a (carried_plain A s HA) (carried_plain B s HB) (unconventional_spec B HU) Hne).
  unfold conv in C3. now rewrite C3.
Qed.

(** C03 with [nativize]. *)
Theorem default_roundtrip : forall A B s a b, carried A s -> carried B s -> A <> B -> In A unconventional -> In B unconventional ->
  conv "Devanagari"%u A s = Ok a -> conv "Devanagari"%u B s = Ok b -> (forall c, In c marks -> ~ In c a /\ ~ In c b) ->
  convert A B a true [] [] = Ok b /\ convert B A b true [] [] = Ok a.
Proof.
  intros A B s a b HA HB Hne UA UB Ca Cb HM.
  destruct (default_carried A B s HA HB Hne UB) as (a' & b' & C1 & C2 & C3). rewrite Ca in C1. rewrite Cb in C2. injection C1 as <-. injection C2 as <-.
  destruct (default_carried B A s HB HA (not_eq_sym Hne) UA) as (b' & a' & D1 & D2 & D3). rewrite Cb in D1. rewrite Ca in D2. injection D1 as <-. injection D2 as <-.
  rewrite unmarked_same in C3 by (intros c Hc; now apply HM). rewrite unmarked_same in D3 by (intros c Hc; now apply HM). now split.
Qed.

(** C41: different texts stay different. *)
Theorem carried_injective : forall X s s', carried X s -> carried X s' -> conv "Devanagari"%u X s = conv "Devanagari"%u X s' -> s = s'.
Proof.
  intros X s s' H H' E.
  assert (R : forall t, carried X t -> exists u, conv "Devanagari"%u X t = Ok u /\ conv X "Devanagari"%u u = Ok t).
  { intros t [Y t0 HY D L|Y x bad t0 HY D L].
    - exact (roundtrip_reversible Y HY t0 D L).
    - exact (roundtrip_roman_partial Y x bad HY t0 D (avoids_spec _ _ L)). }
  destruct (R s H) as (u & C1 & C2). destruct (R s' H') as (u' & C1' & C2'). rewrite C1, C1' in E. injection E as <-. congruence.
Qed.
Theorem carried_distinct : forall A B s s' a a', carried A s -> carried B s -> carried A s' -> carried B s' -> A <> B ->
  conv "Devanagari"%u A s = Ok a -> conv "Devanagari"%u A s' = Ok a' -> a <> a' -> conv A B a <> conv A B a'.
Proof.
  intros A B s s' a a' HA HB HA' HB' Hne Ca Ca' Hd E. apply Hd.
  destruct (roundtrip_between A B s HA HB Hne) as (x & b & C1 & C2 & C3). rewrite Ca in C1. injection C1 as <-.
  destruct (roundtrip_between A B s' HA' HB' Hne) as (x & b' & D1 & D2 & D3). rewrite Ca' in D1. injection D1 as <-.
  rewrite C2, D2 in E. injection E as <-. congruence.
Qed.

Section Public.
Variable uname : N -> option str.
Variable uscript : N -> str.
Variable lfind : str -> res str.
Lemma process_plain : forall src tgt txt nat, src <> "autodetect"%u ->
  snd (process uname uscript lfind src tgt txt nat [] [] "default"%u) = convert (canonical_name src) (canonical_name tgt) txt nat [] [].
Proof.
  intros src tgt txt nat Ha. unfold process. rewrite str_eqb_refl. rewrite process_default_known by assumption. now rewrite convert_default_value.
Qed.
Lemma carried_name : forall src s, carried (canonical_name src) s -> src <> "autodetect"%u.
Proof.
  intros src s H ->. apply carried_plain in H as [H _]. apply mem_In in H. vm_compute in H. discriminate.
Qed.

(** C03, C35, C40 for [transliterate.process]. *)
Theorem process_roundtrip : forall src tgt s, let A := canonical_name src in let B := canonical_name tgt in
  carried A s -> carried B s -> A <> B ->
  let conv S T txt nat := snd (process uname uscript lfind S T txt nat [] [] "default"%u) in
  exists a b, IndicRT.conv "Devanagari"%u A s = Ok a /\ IndicRT.conv "Devanagari"%u B s = Ok b /\
    conv src tgt a false = Ok b /\ conv tgt src b false = Ok a /\
    (In B unconventional -> conv src tgt a true = Ok (unmarked b)).
Proof.
  intros src tgt s A B HA HB Hne conv. destruct (roundtrip_between A B s HA HB Hne) as (a & b & C1 & C2 & C3).
  destruct (convert_carried A B s HA HB Hne) as (a' & b' & D1 & D2 & D3). rewrite C1 in D1. injection D1 as <-. rewrite C2 in D3. injection D3 as <-.
  exists a, b. subst conv. cbv beta. rewrite !process_plain by (eapply carried_name; eassumption). fold A B.
  split; [exact C1|]. split; [exact D2|]. split; [exact C2|]. split; [exact C3|]. intros HU.
  destruct (default_carried A B s HA HB Hne HU) as (a' & b' & E1 & E2 & E3). rewrite C1 in E1. injection E1 as <-. rewrite D2 in E2. injection E2 as <-. exact E3.
Qed.
End Public.

(** ** The hypotheses can be met, and are needed *)
Example default_case : let s := "धर्मक्षेत्रे कुरुक्षेत्रे"%u in
  canonical_name "iast"%u = "IAST"%u /\ canonical_name "GUJARATI"%u = "Gujarati"%u /\ carried "IAST"%u s /\ carried "Gujarati"%u s /\
  In "IAST"%u unconventional /\ In "Gujarati"%u unconventional /\
  convert "IAST"%u "Gujarati"%u "dharmakṣetre kurukṣetre"%u true [] [] = Ok "ધર્મક્ષેત્રે કુરુક્ષેત્રે"%u /\
  convert "Gujarati"%u "IAST"%u "ધર્મક્ષેત્રે કુરુક્ષેત્રે"%u true [] [] = Ok "dharmakṣetre kurukṣetre"%u.
Proof.
  intros s. split; [vm_compute; reflexivity|]. split; [vm_compute; reflexivity|].
  split; [apply (carried_roman _ [] []); [apply (in_eq ("IAST"%u, ([], [])))|vm_compute; reflexivity|intros y []]|].
  split; [apply carried_indic; [apply mem_In; vm_compute; reflexivity|vm_compute; reflexivity|]|].
  { intros y Hy. assert (L : forallb (fun y => negb (contains y s)) (lost_in "Gujarati"%u) = true) by (vm_compute; reflexivity).
    rewrite forallb_forall in L. apply negb_true_iff. now apply L. }
  split; [apply mem_In; vm_compute; reflexivity|]. split; [apply mem_In; vm_compute; reflexivity|]. split; vm_compute; reflexivity.
Qed.
(** With [nativize] the round trip is lost for targets with conventions, and for marks. *)
Theorem default_roundtrip_refuted :
  (exists a b, conv "Devanagari"%u "Telugu"%u "अङ्क"%u = Ok a /\ convert "Devanagari"%u "Telugu"%u "अङ्क"%u true [] [] = Ok b /\ a <> b /\
     convert "Telugu"%u "Devanagari"%u b true [] [] <> Ok "अङ्क"%u) /\
  convert "Devanagari"%u "Gujarati"%u "कʼ"%u true [] [] = Ok "ક"%u.
Proof. split; [|vm_compute; reflexivity]. eexists _, _. split; [vm_compute; reflexivity|]. split; [vm_compute; reflexivity|]. split; vm_compute; discriminate. Qed.
