(** * C01, C03, C04, C06, C07 for scripts whose conversion is letter by letter.

    The checks run the analyser of Analyze.v on the programs that [convert]
    builds; [analyze_ok] turns each into a statement about all texts. *)
From Coq Require Import List NArith ZArith Bool Lia Arith.
From Verif Require Import PyStr Regex Unicode Prog Transliterate StrFacts AbsRegex Lang Tokenise Analyze IndicText.
Import ListNotations.
Local Open Scope nat_scope.

(** [convert] without options and nativization (transliterate.py:226). *)
Definition conv (src tgt txt : str) : res str := convert src tgt txt false [] [].


(** The table after conversion, if the conversion treats every token alike in
    all contexts. *)
Definition after (bad : str) (src tgt : str) (L : list str) : option (list str) :=
  if shape_ok (classes bad) 13 then
    if Nat.eqb (length L) (length (classes bad))
    then analyze ranges (classes bad) okx 13 3 4 (convert_prog src tgt false [] []) L
    else None
  else None.

Lemma after_ok : forall bad src tgt L L', after bad src tgt L = Some L' ->
  forall ts, valid ranges (classes bad) okx 0 ts = true -> conv src tgt (render L ts) = Ok (render L' ts).
Proof.
  intros bad src tgt L L' H ts Hv. unfold after in H.
  destruct (shape_ok (classes bad) 13) eqn:Hs; [|discriminate].
  destruct (Nat.eqb_spec (length L) (length (classes bad))) as [Hl|]; [|discriminate].
  unfold conv, convert. now apply (analyze_ok _ _ _ _ _ _ Hs _ _ _ Hl H).
Qed.

(* ------------------------------------------------------------------ *)
(** ** C01: round trip *)

Definition nukta_letters : str := [0x929; 0x958; 0x959; 0x95A; 0x95B; 0x95C; 0x95D; 0x95E; 0x95F]%N.
Definition e_o_short : str := "ऎऒॆॊ"%u.
Definition candra : str := "ऍऑॅॉ"%u.
Definition tamil_letters : str := "ऴऱ"%u.
Definition extra_letters : str := nukta_letters ++ e_o_short ++ candra ++ tamil_letters.

(** Scripts with the letters they cannot represent. *)
Definition lossless : list (str * str) :=
  [("Devanagari"%u, []); ("Gujarati"%u, []); ("Kannada"%u, []); ("Telugu"%u, "h"%u); ("Oriya"%u, []);
   ("BengaliRaBa"%u, []);
   ("Newa"%u, e_o_short ++ candra); ("SiddhamDevanagari"%u, e_o_short ++ candra);
   ("Tirhuta"%u, candra ++ "ऱ"%u);
   ("GranthaGrantamil"%u, [0x95C; 0x95D; 0x95F]%N);
   ("Grantha"%u, nukta_letters ++ tamil_letters ++ candra);
   ("Sharada"%u, nukta_letters ++ tamil_letters);
   ("Ranjana"%u, extra_letters ++ "ळ"%u);
   ("GranthaPandya"%u, extra_letters ++ "ँ"%u);
   ("Modi"%u, nukta_letters ++ e_o_short ++ tamil_letters ++ "ऑॉँ"%u);
   ("Siddham"%u, extra_letters ++ "ऽॢॣ"%u);
   ("Brahmi"%u, extra_letters ++ "ऽ"%u);
   ("Nandinagari"%u, extra_letters ++ "ऌॡळॢॣँ"%u);
   ("Dogra"%u, extra_letters ++ "ऋॠऌॡॢॣँ"%u);
   ("Takri"%u, extra_letters ++ "ऋॠऌॡृॄॢॣँ"%u);
   ("Khudawadi"%u, extra_letters ++ "ऋॠऌॡृॄॢॣँः"%u);
   ("Pallava"%u, extra_letters ++ "ऽऋॠऌॡळृॄॢॣँ'"%u)].

Definition rt_check (p : str * str) : bool :=
  match after (snd p) "Devanagari"%u (fst p) (table (snd p)) with
  | None => false
  | Some L => match after (snd p) (fst p) "Devanagari"%u L with
              | None => false
              | Some L' => table_eqb L' (table (snd p))
              end
  end.

Lemma rt_checked : all rt_check lossless = true.
Proof. vm_compute. reflexivity. Qed.

(** A Devanagari text converted to one of the scripts and back is unchanged. *)
Theorem roundtrip_indic_partial : forall X bad, In (X, bad) lossless ->
  forall s, dev_text s = true -> without bad s = true ->
  exists t, conv "Devanagari"%u X s = Ok t /\ conv X "Devanagari"%u t = Ok s.
Proof.
  intros X bad Hin s Hd Hw. pose proof rt_checked as Hc. rewrite all_forall in Hc.
  specialize (Hc _ Hin). unfold rt_check in Hc. cbn [fst snd] in Hc.
  destruct (after bad _ X _) as [L|] eqn:E1; [|discriminate].
  destruct (after bad X _ L) as [L'|] eqn:E2; [|discriminate].
  apply table_eqb_eq in Hc. subst L'.
  destruct (dev_tokens bad s Hd Hw) as [Hr Hv].
  exists (render L (toks s)). split.
  - rewrite <- Hr at 1. now apply (after_ok _ _ _ _ _ E1).
  - rewrite <- Hr at 2. now apply (after_ok _ _ _ _ _ E2).
Qed.

(** A text to which the theorem applies, and its image in Telugu. *)
Example roundtrip_indic_partial_case :
  let s := "धर्मक्षेत्रे कुरुक्षेत्रे। 漢字 x=१२"%u in
  In ("Telugu"%u, "h"%u) lossless /\ dev_text s = true /\ without "h"%u s = true
  /\ conv "Devanagari"%u "Telugu"%u s = Ok "ధర్మక్షేత్రే కురుక్షేత్రే. 漢字 x=12"%u.
Proof. repeat split; [right; right; right; now left|..]; vm_compute; reflexivity. Qed.

(* ------------------------------------------------------------------ *)
(** ** C06, C07: letter by letter *)

(** Scripts and the letters excluded: as above, and for Kannada the letters with
    nukta, before which the virama is followed by a joiner. *)
Definition letterwise : list (str * str) :=
  map (fun p => if str_eqb (fst p) "Kannada"%u then (fst p, nukta_letters) else p) lossless.

(** The spelling a table gives to a single letter. *)
Definition letter_map (L0 L : list str) (c : N) : str :=
  match find (fun p => str_eqb (fst p) [c]) (combine L0 L) with Some p => snd p | None => [c] end.

Definition lw_check (p : str * str) : bool :=
  let T := table (snd p) in
  match after (snd p) "Devanagari"%u (fst p) T with
  | None => false
  | Some L => Nat.eqb (length L) (length T)
              <&> all (fun q => str_eqb (flat_map (letter_map T L) (fst q)) (snd q)) (combine T L)
  end.

Lemma lw_checked : all lw_check letterwise = true.
Proof. vm_compute. reflexivity. Qed.

(** No token begins with a foreign character. *)
Definition token_chars : cset := charset (spell entries).
Lemma tokens_not_foreign : all (fun e => all (fun c => negb (foreign ranges c)) (e_str e)) entries = true.
Proof. vm_compute. reflexivity. Qed.

Lemma letter_map_foreign : forall bad L c, foreign ranges c = true -> letter_map (table bad) L c = [c].
Proof.
  intros bad L c Hf. unfold letter_map. destruct (find _ _) as [[s t]|] eqn:E; [|reflexivity].
  apply find_some in E as [Hin E]. cbn [fst] in E. apply str_eqb_eq in E. subst s.
  apply in_combine_l in Hin. unfold table, spell', E' in Hin. rewrite map_map in Hin.
  apply in_map_iff in Hin as (e & He & Hin). pose proof tokens_not_foreign as Hn.
  rewrite all_forall in Hn. specialize (Hn e Hin). destruct (banned _ _); [discriminate|].
  rewrite He in Hn. simpl in Hn. rewrite Hf in Hn. discriminate.
Qed.

Lemma render_letterwise : forall (f : N -> str) L0 L, length L0 = length L ->
  (forall c, foreign ranges c = true -> f c = [c]) ->
  (forall q, In q (combine L0 L) -> flat_map f (fst q) = snd q) ->
  forall cl ok ts prev, length cl = length L -> valid ranges cl ok prev ts = true ->
  render L ts = flat_map f (render L0 ts).
Proof.
  intros f L0 L Hl Hf Hq cl ok ts. induction ts as [|it ts IH]; intros prev Hc Hv; [reflexivity|].
  simpl in Hv. apply andb_true_iff in Hv as [Hv1 Hv]. apply andb_true_iff in Hv1 as [Hg _].
  rewrite !render_cons, flat_map_app, (IH _ Hc Hv). f_equal. destruct it as [i|c]; simpl in *.
  - apply Nat.ltb_lt in Hg. symmetry. apply (Hq (nth i L0 [], nth i L [])).
    rewrite <- combine_nth by assumption. apply nth_In. rewrite combine_length. lia.
  - now rewrite Hf.
Qed.

(** The conversion spells every letter by itself, wherever it stands, and keeps
    every foreign character. *)
Theorem letter_by_letter : forall X bad, In (X, bad) letterwise -> exists f : N -> str,
  (forall c, foreign ranges c = true -> f c = [c]) /\
  forall s, dev_text s = true -> without bad s = true -> conv "Devanagari"%u X s = Ok (flat_map f s).
Proof.
  intros X bad Hin. pose proof lw_checked as Hc. rewrite all_forall in Hc. specialize (Hc _ Hin).
  unfold lw_check in Hc. cbn [fst snd] in Hc. destruct (after bad _ X _) as [L|] eqn:E; [|discriminate].
  apply andb_true_iff in Hc as [Hl Hq]. apply Nat.eqb_eq in Hl. rewrite all_forall in Hq.
  exists (letter_map (table bad) L). split; [intros c; apply letter_map_foreign|].
  intros s Hd Hw. destruct (dev_tokens bad s Hd Hw) as [Hr Hv]. rewrite <- Hr.
  rewrite (after_ok _ _ _ _ _ E _ Hv). f_equal.
  apply (render_letterwise _ _ _ (eq_sym Hl)) with (cl := classes bad) (ok := okx) (prev := 0).
  - intros c. apply letter_map_foreign.
  - intros q Hin'. apply str_eqb_eq. now apply Hq.
  - transitivity (length (table bad)); [|symmetry; exact Hl].
    unfold classes, cls', table, spell'. now rewrite !map_length.
  - exact Hv.
Qed.

(** C06: texts may be cut anywhere (as long as the parts are well-formed). *)
Theorem piecewise_indic : forall X bad, In (X, bad) letterwise -> forall s t,
  dev_text s = true -> dev_text t = true -> dev_text (s ++ t) = true ->
  without bad s = true -> without bad t = true ->
  exists s' t', conv "Devanagari"%u X s = Ok s' /\ conv "Devanagari"%u X t = Ok t' /\
    conv "Devanagari"%u X (s ++ t) = Ok (s' ++ t').
Proof.
  intros X bad Hin s t H1 H2 H3 W1 W2. destruct (letter_by_letter X bad Hin) as (f & _ & Hf).
  exists (flat_map f s), (flat_map f t). repeat split; try (now apply Hf).
  rewrite Hf, flat_map_app; [reflexivity|assumption|].
  unfold without in *. rewrite forallb_app, W1, W2. reflexivity.
Qed.

(** C07: a foreign character is kept in place and does not change the
    conversion of what surrounds it. *)
Lemma wf_foreign : forall M ctab P k s c t, foreign M c = true ->
  (forall a, P a 1 = true) ->
  wf_text M ctab P k s = true -> wf_text M ctab P 1 t = true -> wf_text M ctab P k (s ++ c :: t) = true.
Proof.
  intros M ctab P k s c t Hf HP. revert k. induction s as [|d s IH]; intros k Hs Ht; simpl in *.
  - assert (E : kc M ctab c = 1) by (unfold kc; now rewrite Hf). now rewrite E, Hf, HP.
  - apply andb_true_iff in Hs as [H1 H2]. rewrite H1. simpl. now apply IH.
Qed.

Lemma letterwise_not_foreign :
  all (fun p => all (fun c => negb (foreign ranges c)) (snd p)) letterwise = true.
Proof. vm_compute. reflexivity. Qed.

Theorem foreign_kept : forall X bad, In (X, bad) letterwise -> forall s t c, foreign ranges c = true ->
  dev_text s = true -> dev_text t = true -> without bad s = true -> without bad t = true ->
  exists s' t', conv "Devanagari"%u X s = Ok s' /\ conv "Devanagari"%u X t = Ok t' /\
    conv "Devanagari"%u X (s ++ c :: t) = Ok (s' ++ c :: t').
Proof.
  intros X bad Hin s t c Hf H1 H2 W1 W2. destruct (letter_by_letter X bad Hin) as (f & Hff & Hfm).
  exists (flat_map f s), (flat_map f t). repeat split; try (now apply Hfm).
  rewrite Hfm.
  - rewrite flat_map_app. simpl. now rewrite Hff.
  - apply wf_foreign; [assumption|reflexivity|assumption|].
    unfold dev_text in H2. destruct t as [|d t]; [reflexivity|]. simpl in *.
    apply andb_true_iff in H2 as [H2 H3]. apply andb_true_iff in H2 as [H2 H4]. rewrite H2, H3.
    rewrite andb_true_r. simpl. revert H4. generalize (kc ranges letter_class d) as k. intros k.
    do 11 (destruct k as [|k]; [easy|]). easy.
  - unfold without in *. rewrite forallb_app, W1. simpl. rewrite W2, andb_true_r.
    apply negb_true_iff. destruct (memN c bad) eqn:E; [|reflexivity]. exfalso.
    apply memN_In in E. pose proof letterwise_not_foreign as Hn. rewrite all_forall in Hn.
    specialize (Hn _ Hin). cbn [snd] in Hn. rewrite all_forall in Hn. specialize (Hn c E).
    rewrite Hf in Hn. discriminate.
Qed.

Example foreign_kept_case :
  In ("Grantha"%u, nukta_letters ++ tamil_letters ++ candra) letterwise /\ foreign ranges 0x6F22%N = true /\
  conv "Devanagari"%u "Grantha"%u "कर्म漢धर्म"%u = Ok ("𑌕𑌰𑍍𑌮"%u ++ [0x6F22%N] ++ "𑌧𑌰𑍍𑌮"%u).
Proof. repeat split; [vm_compute; tauto|..]; vm_compute; reflexivity. Qed.
