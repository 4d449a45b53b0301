(** * C03, C35 with the Roman schemes declared reversible.

    Pairs of an Indic script (GeneralMap.py:295) and a Roman scheme
    (GeneralMap.py:297), and of two Roman schemes.  Stages.v and RomanStages.v
    explain the method. *)
From Coq Require Import List NArith ZArith Bool Lia Arith.
From Verif Require Import PyStr Regex Unicode Prog GMLists GeneralMap Convert Transliterate StrFacts AbsRegex Lang Tokenise Analyze IndicText
  IndicRT IndicFine Stages PathFacts FineRT RomanText RomanStages RomanRT.
Import ListNotations.
Local Open Scope nat_scope.

(** Letters of Devanagari texts that the Roman schemes cannot represent. *)
Definition not_roman : list N := filter (fun c => negb (memN c (map fst rletter_class))) (map fst letter_class).
Lemma not_roman_own : all (fun c => negb (foreign rranges c) <&> negb (memN c (map fst rletter_class))) not_roman = true.
Proof. vm_compute. reflexivity. Qed.
Lemma roman_only : forall x s, roman_text x s = true -> forall c, In c not_roman -> ~ In c s.
Proof.
  intros x s H c Hc. pose proof not_roman_own as O. rewrite all_forall in O. specialize (O c Hc).
  apply andb_true_iff in O as [O1 O2]. rewrite negb_true_iff in O1, O2.
  unfold roman_text in H. revert H. generalize 0 as k. induction s as [|d s IH]; intros k H Hin; [easy|]. cbn [wf_text] in H.
  apply andb_true_iff in H as [H H3]. apply andb_true_iff in H as [H1 _]. destruct Hin as [->|Hin]; [|exact (IH _ H3 Hin)].
  unfold alph in H1. rewrite O1, O2 in H1. discriminate.
Qed.
Lemma contains_char : forall c s, ~ In c s -> contains [c] s = false.
Proof.
  intros c s H. destruct (contains [c] s) eqn:E; [|reflexivity]. apply contains_spec in E as (a & b & ->).
  exfalso. apply H. apply in_or_app. right. now left.
Qed.

(* ------------------------------------------------------------------ *)
(** ** Indic to Roman *)

(** The replacement of the letters gives what it gives from Devanagari. *)
Definition il_check (t : fine) (p : (str * list str) * list (N * str)) (R : str) : bool :=
  let t' := with_bad t (snd (fst p) ++ map (fun c => [c]) not_roman) in
  shape_ok (f_classes t') (f_k t') <&> map_ok (snd p) <&>
  match f_stage t' (mid_il "Devanagari"%u R) (f_table t') with
  | None => false
  | Some L => is_table (f_stage t' (mid_il (fst (fst p)) R) (map (spelled (snd p)) (f_table t'))) L
  end.
Lemma il_check_ok : forall t A bad m R, f_tok t = true -> il_check t ((A, bad), m) R = true ->
  forall s x, fits bad s -> roman_text x s = true -> run (mid_il A R) (spelled m s) = run (mid_il "Devanagari"%u R) s.
Proof.
  intros t A bad m R Ht H s x [Hd Hb] Hr. unfold il_check in H. cbn [fst snd] in H.
  set (bad' := bad ++ map (fun c => [c]) not_roman) in H.
  apply andb_true_iff in H as [H H3]. apply andb_true_iff in H as [H1 H2].
  assert (K : f_check (with_bad t bad') = true) by (unfold f_check; rewrite with_bad_tok, Ht; exact H1).
  assert (Ha : avoids bad' s = true).
  { apply (fits_avoids bad' s). split; [exact Hd|]. intros y Hy. apply in_app_or in Hy as [Hy|Hy]; [now apply Hb|].
    apply in_map_iff in Hy as (c & <- & Hc). apply contains_char. exact (roman_only x s Hr c Hc). }
  destruct (f_tokens _ K s Hd Ha) as [Hs Hv].
  destruct (f_stage (with_bad t bad') (mid_il "Devanagari"%u R) (f_table (with_bad t bad'))) as [L|] eqn:E; [|discriminate].
  apply is_table_eq in H3. pose proof (f_stage_ok _ K _ _ _ E _ Hv) as D. pose proof (f_stage_ok _ K _ _ _ H3 _ Hv) as D'.
  rewrite (render_spelled _ _ H2 _ 0 Hv), Hs in D'. rewrite Hs in D. now rewrite D, D'.
Qed.

Definition ils_check (t : fine) (ps : list ((str * list str) * list (N * str))) (names : list str) : bool :=
  all (fun p => all (il_check t p) names) ps.
Notation reversible := (map (fun X => (X, lost_in X)) GM_ReversibleScripts).
Lemma ils_checked : ils_check mids (map (fun p => (p, letters_of p)) reversible) roman_names = true.
Proof. vm_cast_no_check (eq_refl true). Qed.
Lemma ils_check_ok : forall t g ps names, ils_check t (map (fun p => (p, g p)) ps) names = true ->
  forall p R, In p ps -> In R names -> il_check t (p, g p) R = true.
Proof.
  intros t g ps names H p R Hp HR. unfold ils_check in H. rewrite all_forall in H.
  specialize (H _ (in_map (fun p => (p, g p)) _ _ Hp)). rewrite all_forall in H. exact (H R HR).
Qed.

(** Two Indic scripts, the second Devanagari. *)
Lemma to_roman : forall A B bada badb ma mb Ga Gb R, image A bada ma Ga -> image B badb mb Gb -> In R roman_names ->
  forall s, fits bada s -> fits badb s -> run (mid_il A R) (spelled ma s) = run (mid_il B R) (spelled mb s) ->
  conv A R (Ga s) = conv B R (Gb s).
Proof.
  intros A B bada badb ma mb Ga Gb R IA IB HR s Fa Fb E. unfold conv, convert.
  rewrite (convert_il A R (im_staged _ _ _ _ IA) HR), (convert_il B R (im_staged _ _ _ _ IB) HR).
  rewrite !(app_assoc (pre _ _)), !(run_app (pre _ _ ++ _)).
  rewrite (im_front _ _ _ _ IA _ s (rep_in R) Fa), (im_front _ _ _ _ IB _ s (rep_in R) Fb). cbn [rbind].
  now rewrite !run_app, E.
Qed.
Theorem indic_roman : forall A G, In A GM_ReversibleScripts -> image A (lost_in A) (letters_of (A, lost_in A)) G ->
  forall R x s, In R roman_names -> fits (lost_in A) s -> roman_text x s = true ->
  conv A R (G s) = conv "Devanagari"%u R s.
Proof.
  intros A G HA IA R x s HR F Hr. destruct dev_own as [D ID].
  assert (Fd : fits [] s) by (split; [apply F|easy]).
  assert (HD : D s = s) by (apply (dev_image D ID); apply F).
  pose proof (ils_check_ok mids letters_of _ _ ils_checked (A, lost_in A) R (in_map (fun X => (X, lost_in X)) _ _ HA) HR) as C.
  pose proof (il_check_ok mids A (lost_in A) _ R mids_tok C s x F Hr) as E.
  rewrite <- (spelled_none s) in E at 2. pose proof (to_roman _ _ _ _ _ _ _ _ R IA ID HR s F Fd E) as T. now rewrite HD in T.
Qed.

(* ------------------------------------------------------------------ *)
(** ** Roman to Indic *)

Definition rmap_ok (m : list (N * str)) : bool := all (fun q => negb (foreign rranges (fst q))) m.
Lemma look_rforeign : forall f c, rmap_ok f = true -> foreign rranges c = true -> look f c = [c].
Proof.
  intros f c H Hc. induction f as [|[d s] f IH]; [reflexivity|]. unfold rmap_ok in H. cbn [all fst] in H.
  apply andb_true_iff in H as [H1 H2]. simpl. destruct (N.eqb_spec c d) as [->|]; [|now apply IH].
  rewrite Hc in H1. discriminate.
Qed.
Lemma rrender_spelled : forall x bad m, rmap_ok m = true -> forall ts r, valid rranges (rclasses x bad) (rokx x) r ts = true ->
  forall L, render (map (spelled m) L) ts = spelled m (render L ts).
Proof.
  intros x bad m Hm ts r Hv L. unfold spelled. apply render_flat. intros c Hc. apply look_rforeign; [exact Hm|].
  exact (valid_foreign _ _ _ _ _ _ Hv Hc).
Qed.

Definition has_virama (B : str) : bool := match first_of "ViramaMap"%u B with Ok _ => true | Err _ => false end.
Lemma back_virama : forall B, has_virama B = true -> back B = joined B ++ back' B.
Proof.
  intros B H. unfold has_virama in H. pose proof (back_split B) as P. destruct (first_of "ViramaMap"%u B) as [vir|]; [|discriminate].
  exact (P vir eq_refl).
Qed.
Definition li_check (x : list nat) (bad : list str) (names : list str) (I0 : list str) (p : (str * list str) * list (N * str)) : bool :=
  let B := fst (fst p) in let T := map (spelled (snd p)) (rtable x bad) in
  has_virama B <&> rmap_ok (snd p) <&> is_table (rstage x bad (letters_li B ++ joined B) I0) T
  <&> is_table (rstage x bad (joined B) T) T <&> all (fun R => alike om (om_li R "Devanagari"%u) (om_li R B)) names.
Definition lis_check (x : list nat) (bad : list str) (names : list str) (I0 : list str) (ps : list ((str * list str) * list (N * str))) : bool :=
  all (li_check x bad names I0) ps.
Lemma lis_check_ok : forall x bad names I0 g ps, lis_check x bad names I0 (map (fun p => (p, g p)) ps) = true -> In x prohibitions ->
  rstage x bad (latin_prog ++ rest_li) (rtable x bad) = Some I0 ->
  forall B badb, In (B, badb) ps ->
  (forall R, In R names -> alike om (om_li R "Devanagari"%u) (om_li R B) = true) /\
  forall s j, roman_text x s = true -> avoids bad s = true -> run latin_prog s = Ok j ->
    run (rest_li ++ letters_li B ++ back B) j = run (back B) (spelled (g (B, badb)) s).
Proof.
  intros x bad names I0 g ps H Hx EI B badb HB. unfold lis_check in H.
  rewrite all_forall in H. specialize (H _ (in_map (fun p => (p, g p)) _ _ HB)). unfold li_check in H. cbn [fst snd] in H.
  apply andb_true_iff in H as [H H5]. apply andb_true_iff in H as [H H4]. apply andb_true_iff in H as [H H3]. apply andb_true_iff in H as [H1 H2].
  rewrite all_forall in H5. split; [exact H5|]. intros s j Hs Ha E. apply is_table_eq in H3, H4.
  destruct (roman_tokens x bad s Hx Hs Ha) as [Hr Hv].
  pose proof (from_inter x bad I0 s j EI Hx Hs Ha E _ _ H3) as P1. pose proof (rstage_ok _ _ _ _ _ H4 _ Hv) as P2.
  rewrite (rrender_spelled x bad _ H2 _ 0 Hv), Hr in P1, P2.
  rewrite (back_virama B H1). rewrite (app_assoc (letters_li B)), (app_assoc rest_li), run_app, P1, run_app, P2. reflexivity.
Qed.
Lemma lis_checked : lis_check [] [] roman_names inter_table (map (fun p => (p, letters_of p)) reversible) = true.
Proof. vm_cast_no_check (eq_refl true). Qed.

Theorem roman_indic : forall R x bad s t j, In (R, (x, bad)) roman_schemes -> roman_image R s t j -> roman_text x s = true ->
  forall B G, In B GM_ReversibleScripts -> image B (lost_in B) (letters_of (B, lost_in B)) G ->
  fits (lost_in B) s -> conv R B t = Ok (G s).
Proof.
  intros R x bad s t j Hin RI Hs B G HB IB F. pose proof (scheme_name _ _ Hin) as HR.
  destruct (again_ok _ _ _ _ again_checked) as [[C0 _] _].
  destruct (lis_check_ok _ _ _ _ letters_of _ lis_checked (or_introl eq_refl) C0 B (lost_in B) (in_map (fun X => (X, lost_in X)) _ _ HB)) as [C2 C1].
  rewrite (image_li R s t j HR RI B (im_staged _ _ _ _ IB) (C2 R HR)).
  rewrite (C1 s j (roman_text_none x s Hs) eq_refl (ri_latin _ _ _ _ RI)). exact (im_back _ _ _ _ IB s F).
Qed.

(* ------------------------------------------------------------------ *)
(** ** Any two of the scripts and schemes declared reversible *)

(** [carried X s]: the Devanagari text [s] is one that [X] represents. *)
Inductive carried : str -> str -> Prop :=
| carried_indic : forall X s, In X GM_ReversibleScripts -> dev_text s = true ->
    (forall y, In y (lost_in X) -> contains y s = false) -> carried X s
| carried_roman : forall X x bad s, In (X, (x, bad)) roman_schemes -> roman_text x s = true ->
    (forall y, In y bad -> contains y s = false) -> carried X s.

Lemma avoids_spec : forall bad s, (forall y, In y bad -> contains y s = false) -> avoids bad s = true.
Proof. intros bad s H. unfold avoids. rewrite forallb_forall. intros y Hy. apply negb_true_iff. now apply H. Qed.

Theorem convert_carried : forall A B s, carried A s -> carried B s -> A <> B ->
  exists a b, conv "Devanagari"%u A s = Ok a /\ conv "Devanagari"%u B s = Ok b /\ conv A B a = Ok b.
Proof.
  intros A B s HA HB Hne. destruct HA as [A s HA Da La|A x bad s HA Ra La]; inversion HB as [B' s' HB' Db Lb|B' x' bad' s' HB' Rb Lb]; subst B' s'.
  - exact (path_independent A _ B _ (reversible_script A HA) (reversible_script B HB') Hne (reversible_together A B HA HB') s Da La Lb).
  - destruct (script_image A _ (reversible_script A HA)) as [G IA].
    destruct (scheme_image B x' bad' HB' s Rb (avoids_spec _ _ Lb)) as (t & j & RI).
    exists (G s), t. split; [exact (proj1 (from_devanagari A _ G (reversible_script A HA) IA s (conj Da La)))|].
    split; [exact (ri_conv _ _ _ _ RI)|].
    rewrite (indic_roman A G HA IA B x' s (scheme_name _ _ HB') (conj Da La) Rb). exact (ri_conv _ _ _ _ RI).
  - destruct (script_image B _ (reversible_script B HB')) as [G IB].
    destruct (scheme_image A x bad HA s Ra (avoids_spec _ _ La)) as (t & j & RI).
    exists t, (G s). split; [exact (ri_conv _ _ _ _ RI)|].
    split; [exact (proj1 (from_devanagari B _ G (reversible_script B HB') IB s (conj Db Lb)))|].
    exact (roman_indic A x bad s t j HA RI Ra B G HB' IB (conj Db Lb)).
  - destruct (scheme_image A x bad HA s Ra (avoids_spec _ _ La)) as (t & j & RI).
    destruct (scheme_image B x' bad' HB' s Rb (avoids_spec _ _ Lb)) as (t' & j' & RI').
    exists t, t'. split; [exact (ri_conv _ _ _ _ RI)|]. split; [exact (ri_conv _ _ _ _ RI')|].
    exact (image_ll A B s t j t' j' (scheme_name _ _ HA) (scheme_name _ _ HB') Hne RI RI').
Qed.

(** C03: from [A] to [B] and back. *)
Theorem roundtrip_between : forall A B s, carried A s -> carried B s -> A <> B ->
  exists a b, conv "Devanagari"%u A s = Ok a /\ conv A B a = Ok b /\ conv B A b = Ok a.
Proof.
  intros A B s HA HB Hne. destruct (convert_carried A B s HA HB Hne) as (a & b & C1 & C2 & C3).
  destruct (convert_carried B A s HB HA (not_eq_sym Hne)) as (b' & a' & D1 & D2 & D3).
  rewrite C2 in D1. injection D1 as <-. rewrite C1 in D2. injection D2 as <-. exists a, b. now split.
Qed.

(** C35: a chain of conversions ends where the last one alone would, whatever
    scripts and schemes it passes through. *)
Fixpoint chain (X : str) (l : list str) (s : str) : res str :=
  match l with [] => Ok s | Y :: l' => rbind (if str_eqb X Y then Ok s else conv X Y s) (chain Y l') end.
Theorem chain_independent : forall s l X a, carried X s -> conv "Devanagari"%u X s = Ok a -> (forall Y, In Y l -> carried Y s) ->
  chain X l a = conv "Devanagari"%u (last l X) s.
Proof.
  intros s. induction l as [|Y l IH]; intros X a HX Ca H; [cbn [chain last]; now rewrite Ca|].
  assert (E : last (Y :: l) X = last l Y).
  { clear. destruct l as [|Z l]; [reflexivity|]. cbn [last]. revert Z. induction l as [|W l IH]; intros Z; [reflexivity|]. exact (IH W). }
  rewrite E. cbn [chain]. destruct (str_eqb X Y) eqn:Q.
  - apply str_eqb_eq in Q. subst Y. cbn [rbind]. apply IH; [exact HX|exact Ca|]. intros Z HZ. apply H. now right.
  - apply str_eqb_neq in Q. destruct (convert_carried X Y s HX (H Y (or_introl eq_refl)) Q) as (a' & b & C1 & C2 & C3).
    rewrite Ca in C1. injection C1 as <-. rewrite C3. cbn [rbind]. apply IH; [exact (H Y (or_introl eq_refl))|exact C2|].
    intros Z HZ. apply H. now right.
Qed.

(** A text that all nineteen represent. *)
Example carried_case : let s := "धर्मक्षेत्रे कुरुक्षेत्रे। 漢字 १२"%u in
  (forall X, In X (GM_ReversibleScripts ++ map fst roman_schemes) -> carried X s) /\
  conv "Tamil"%u "Itrans"%u "த⁴ர்மக்ஷேத்ரே 漢字"%u = Ok "dharmakShetre 漢字"%u /\
  conv "Itrans"%u "HK"%u "dharmakShetre 漢字"%u = Ok "dharmakSetre 漢字"%u /\
  conv "HK"%u "Bengali"%u "dharmakSetre"%u = Ok "ধর্মক্ষেত্রে"%u.
Proof.
  intros s. split; [|repeat split; vm_compute; reflexivity].
  assert (D : dev_text s <&> all (fun X => all (fun y => negb (contains y s)) (lost_in X)) GM_ReversibleScripts
    <&> all (fun p => roman_text (fst (snd p)) s <&> all (fun y => negb (contains y s)) (snd (snd p))) roman_schemes = true) by (vm_compute; reflexivity).
  apply andb_true_iff in D as [D D3]. apply andb_true_iff in D as [D1 D2]. rewrite all_forall in D2, D3.
  intros X HX. apply in_app_or in HX as [HX|HX].
  - apply carried_indic; [exact HX|exact D1|]. specialize (D2 X HX). rewrite all_forall in D2. intros y Hy. apply negb_true_iff. now apply D2.
  - apply in_map_iff in HX as ([Y [x bad]] & <- & HX). specialize (D3 _ HX). cbn [fst snd] in D3. apply andb_true_iff in D3 as [E1 E2].
    rewrite all_forall in E2. apply (carried_roman _ x bad); [exact HX|exact E1|]. intros y Hy. apply negb_true_iff. now apply E2.
Qed.
