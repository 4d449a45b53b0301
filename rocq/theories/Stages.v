(** * A conversion between two Indic scripts in stages (for C01, C03, C06, C07, C35).

    [convert] undoes the peculiarities of the source, replaces the letters and
    applies the peculiarities of the target.  Only the replacement of the letters
    depends on both scripts, so that pairs of scripts need little checking. *)
From Coq Require Import List NArith ZArith Bool Lia Arith.
From Verif Require Import PyStr Regex Unicode Prog GMLists GeneralMap PostProcess1 ConvertFix1 PreProcess1 Convert
  Transliterate StrFacts AbsRegex Lang Tokenise Analyze IndicText IndicRT IndicFine.
Import ListNotations.
Local Open Scope nat_scope.

(** aksharamukha/transliterate.py:419 PreProcess.PreProcess, no options *)
Definition pre (S T : str) : prog := PrP_PreProcess S T [] [].
(** aksharamukha/Convert.py:176-183 *)
Definition rev_fix (S : str) : prog :=
  PrP_RemoveJoiners ++ CF_ShiftDiacritics S true ++ [Try is_AttributeError (CF_getattr_reverse ("Fix"%u ++ S))].
(** aksharamukha/Convert.py:185-218 *)
Definition mid (S T : str) : prog :=
  (let! signs := CrunchSymbols GM_Signs S in
   let! sOm := first_of "OmMap"%u S in
   let! tOm := first_of "OmMap"%u T in
   if Nat.eqb (length sOm) 1 then [Replace sOm tOm] else om_subs (om_punc signs) sOm tOm)
  ++ (let! pairs := charPairs id_side id_side S T in replace_all pairs).
(** aksharamukha/Convert.py:220-366, transliterate.py:528-541, no options *)
Definition back (T : str) : prog :=
  CF_FixIndicOutput [] T ++ PP_default [] ++ PrP_retainLatin true ++ PP_defaultPost [] T false [] [].

(** The names that [convert] does not treat specially, and the Indic scripts among
    them. *)
Definition simple (S : str) : bool :=
  negb (mem S ["RomanLoC"%u; []; "Ignore"%u; "Hiragana"%u; "Katakana"%u; "Latn"%u; "IPA"%u; "Arab"%u])
  <&> match lookup S GM_semiticISO with None => true | _ => false end
  <&> negb (has_key S IndicSemiticMapping) <&> negb (mem S GM_SemiticScripts)
  <&> negb (mem S ["BarahaNorth"%u; "BarahaSouth"%u; "RomanSemitic"%u]).
Definition staged (S : str) : bool :=
  simple S <&> mem S GM_IndicScripts <&> negb (mem S GM_LatinScripts) <&> negb (mem S GM_Transliteration).

Lemma simple_spec : forall S, simple S = true ->
  (str_eqb S "RomanLoC"%u = false /\ str_eqb S [] = false /\ str_eqb S "Ignore"%u = false /\ str_eqb S "Hiragana"%u = false /\
   str_eqb S "Katakana"%u = false /\ str_eqb S "Latn"%u = false /\ str_eqb S "IPA"%u = false /\ str_eqb S "Arab"%u = false) /\
  (lookup S GM_semiticISO = None /\ lookup S IndicSemiticMapping = None /\ mem S GM_SemiticScripts = false) /\
  (str_eqb S "BarahaNorth"%u = false /\ str_eqb S "BarahaSouth"%u = false /\ str_eqb S "RomanSemitic"%u = false).
Proof.
  intros S H. unfold simple in H.
  apply andb_true_iff in H as [H H8].
  apply andb_true_iff in H as [H H4]. apply andb_true_iff in H as [H H3]. apply andb_true_iff in H as [H1 H2].
  rewrite negb_true_iff in H1, H3, H4, H8. cbn [mem existsb] in H1, H8.
  repeat match goal with H : (_ || _)%bool = false |- _ => apply orb_false_iff in H as [? H] end.
  unfold has_key in H3. destruct (lookup S GM_semiticISO); [discriminate|]. repeat split; try assumption.
  now destruct (lookup S IndicSemiticMapping).
Qed.
Lemma staged_spec : forall S, staged S = true ->
  simple S = true /\ mem S GM_IndicScripts = true /\ mem S GM_LatinScripts = false /\ mem S GM_Transliteration = false.
Proof.
  intros S H. unfold staged in H. apply andb_true_iff in H as [H H4]. apply andb_true_iff in H as [H H3]. apply andb_true_iff in H as [H1 H2].
  rewrite negb_true_iff in H3, H4. now repeat split.
Qed.

Lemma pre_indic : forall S T T', staged S = true -> staged T = true -> staged T' = true -> pre S T = pre S T'.
Proof.
  intros S T T' HS HT HT'. apply staged_spec in HS as [HS _], HT, HT'. apply simple_spec in HS.
  destruct HS as ((_ & _ & _ & _ & _ & S6 & _) & _ & S8 & S9 & _).
  destruct HT as (_ & A1 & A2 & A3). destruct HT' as (_ & B1 & B2 & B3).
  unfold pre, PrP_PreProcess. rewrite S6, S8, S9, A1, A2, A3, B1, B2, B3, !andb_false_r. reflexivity.
Qed.

Lemma tail_staged : forall S T, simple S = true -> simple T = true ->
  convert_tail S T [] false [] [] = convert_text S T ++ PrP_retainLatin true ++ PP_defaultPost S T false [] [].
Proof.
  intros S T HS HT. apply simple_spec in HS, HT.
  destruct HS as ((S1 & S2 & S3 & S4 & S5 & S6 & S7 & S7') & (S8 & S9 & S10) & _).
  destruct HT as ((T1 & T2 & T3 & T4 & T5 & T6 & T7 & T7') & (T8 & T9 & T10) & _).
  unfold convert_tail. cbn [mem existsb]. rewrite S10, T10, S4, S5, T4, T5, T7, !andb_false_r.
  cbn [andb orb negb foreach flat_map]. rewrite S2, T7, !andb_false_r. cbn [andb orb negb foreach flat_map].
  rewrite !app_nil_l. reflexivity.
Qed.

Lemma text_staged : forall S T, staged S = true -> staged T = true -> convert_text S T = indic_indic S T ++ PP_default [].
Proof.
  intros S T HS HT. apply staged_spec in HS, HT.
  destruct HS as (_ & S11 & S12 & _). destruct HT as (_ & T11 & _).
  assert (I : str_eqb S "Itrans"%u = false).
  { destruct (str_eqb S "Itrans"%u) eqn:Q; [|reflexivity]. apply str_eqb_eq in Q. subst S. vm_compute in S12. discriminate. }
  unfold convert_text. rewrite I. unfold convertScript, convert_branch. rewrite S12, S11, T11. reflexivity.
Qed.

Lemma stages_join : forall S T, pre S T ++ (indic_indic S T ++ PP_default []) ++ PrP_retainLatin true ++ PP_defaultPost S T false [] []
  = pre S T ++ rev_fix S ++ mid S T ++ back T.
Proof.
  intros S T.
  assert (P1 : PP_defaultPost S T false [] [] = PP_defaultPost [] T false [] []) by (unfold PP_defaultPost; reflexivity).
  assert (P2 : CF_FixIndicOutput S T = CF_FixIndicOutput [] T) by (unfold CF_FixIndicOutput; reflexivity).
  rewrite P1. unfold indic_indic, rev_fix, mid, back. rewrite P2. rewrite <- !app_assoc. reflexivity.
Qed.
Lemma main_staged : forall S T, simple S = true -> simple T = true -> S <> T ->
  convert_main (Args S T false [] []) = pre S T ++ convert_tail S T [] false [] [].
Proof.
  intros S T HS HT Hne.
  assert (E : str_eqb S T = false) by (destruct (str_eqb S T) eqn:E; [apply str_eqb_eq in E; contradiction|reflexivity]).
  apply simple_spec in HS, HT.
  destruct HS as ((S1 & S2 & S3 & S4 & S5 & S6 & S7 & S7') & (S8 & S9 & S10) & _).
  destruct HT as ((T1 & T2 & T3 & T4 & T5 & T6 & T7 & T7') & (T8 & T9 & T10) & _).
  assert (W : semitic_switch S T false = (S, T)).
  { unfold semitic_switch, has_key, get. rewrite T10, T8. cbn [orb]. rewrite S10, S8. cbn [orb]. rewrite S9. cbn [andb]. rewrite S9. reflexivity. }
  assert (A : mem S ["Arab-Ur"%u; "Arab-Pa"%u] = false).
  { destruct (mem S ["Arab-Ur"%u; "Arab-Pa"%u]) eqn:Q; [|reflexivity]. apply mem_In in Q. destruct Q as [<-|[<-|[]]]; vm_compute in S10; discriminate. }
  assert (V : variant_switch S T false [] [] = (S, T, false)) by reflexivity.
  assert (Y : soyombo_mark T [] = []) by (unfold soyombo_mark; cbn [mem existsb]; rewrite ?andb_false_r; reflexivity).
  unfold convert_main. rewrite T2, T3, E. cbn [orb andb negb]. rewrite W. cbv beta iota. rewrite A, E. cbn [andb].
  rewrite !app_nil_l. cbn [mem existsb]. unfold convert_rest. rewrite V. cbv beta iota. rewrite Y, app_nil_l. reflexivity.
Qed.
Lemma step_staged : forall rec S T, simple S = true -> simple T = true ->
  convert_step rec (Args S T false [] []) = convert_main (Args S T false [] []).
Proof.
  intros rec S T HS HT. apply simple_spec in HS, HT.
  destruct HS as ((S1 & _) & (S8 & _) & _). destruct HT as ((T1 & _) & (T8 & _) & _).
  unfold convert_step. generalize convert_main. intros m.
  unfold loc_target. rewrite T1. cbn [andb]. unfold loc_target_other. rewrite T1.
  cbn [andb]. unfold loc_source_mark, loc_source. rewrite S1. cbn [andb]. unfold loc_source_other. rewrite S1. cbn [andb].
  rewrite T8, S8. rewrite !app_nil_l. reflexivity.
Qed.

Theorem convert_simple : forall S T, simple S = true -> simple T = true -> S <> T ->
  convert_prog S T false [] [] = pre S T ++ convert_text S T ++ PrP_retainLatin true ++ PP_defaultPost S T false [] [].
Proof.
  intros S T HS HT Hne.
  change (convert_prog S T false [] []) with (convert_step (convert_n 2) (Args S T false [] [])).
  now rewrite (step_staged _ S T HS HT), (main_staged S T HS HT Hne), (tail_staged S T HS HT).
Qed.
Theorem convert_stages : forall S T, staged S = true -> staged T = true -> S <> T ->
  convert_prog S T false [] [] = pre S "Devanagari"%u ++ rev_fix S ++ mid S T ++ back T.
Proof.
  intros S T HS HT Hne.
  rewrite convert_simple by (assumption || now apply staged_spec). rewrite (text_staged S T HS HT), stages_join.
  rewrite (pre_indic S T "Devanagari"%u HS HT) by (vm_compute; reflexivity). reflexivity.
Qed.

(* ------------------------------------------------------------------ *)
(** ** Letter maps *)

Fixpoint look (f : list (N * str)) (c : N) : str :=
  match f with [] => [c] | (d, s) :: f' => if N.eqb c d then s else look f' c end.
Definition spelled (m : list (N * str)) : str -> str := flat_map (look m).
Definition map_ok (m : list (N * str)) : bool := all (fun q => negb (foreign ranges (fst q))) m.

Lemma look_foreign : forall f c, map_ok f = true -> foreign ranges c = true -> look f c = [c].
Proof.
  intros f c H Hc. induction f as [|[d s] f IH]; [reflexivity|]. unfold map_ok in H. cbn [all fst] in H.
  apply andb_true_iff in H as [H1 H2]. simpl. destruct (N.eqb_spec c d) as [->|]; [|now apply IH].
  rewrite Hc in H1. discriminate.
Qed.

Lemma render_flat : forall (f : N -> str) L ts, (forall c, In (X c) ts -> f c = [c]) ->
  render (map (flat_map f) L) ts = flat_map f (render L ts).
Proof.
  intros f L ts. induction ts as [|it ts IH]; intros H; [reflexivity|].
  rewrite !render_cons, flat_map_app, IH by (intros c Hc; apply H; now right). f_equal.
  destruct it as [i|c]; cbn [str_of].
  - change (@nil N) with (flat_map f []) at 1. apply map_nth.
  - simpl. now rewrite (H c) by now left.
Qed.

Lemma valid_foreign : forall M cl ok ts r c, valid M cl ok r ts = true -> In (X c) ts -> foreign M c = true.
Proof.
  intros M cl ok. induction ts as [|it ts IH]; intros r c Hv Hin; [easy|]. simpl in Hv.
  apply andb_true_iff in Hv as [Hv Hv2]. apply andb_true_iff in Hv as [Hv1 _].
  destruct Hin as [->|Hin]; [exact Hv1|]. now apply (IH _ _ Hv2).
Qed.

Lemma spelled_none : forall s, spelled [] s = s.
Proof. induction s as [|c s IH]; [reflexivity|]. change (spelled [] (c :: s)) with (c :: spelled [] s). now rewrite IH. Qed.

(** Texts without the strings [bad]. *)
Definition fits (bad : list str) (s : str) : Prop := dev_text s = true /\ forall x, In x bad -> contains x s = false.
Lemma fits_avoids : forall bad s, fits bad s <-> dev_text s = true /\ avoids bad s = true.
Proof.
  intros bad s. unfold fits, avoids. rewrite forallb_forall. split; intros [H1 H2]; (split; [exact H1|]); intros x Hx.
  - apply negb_true_iff. now apply H2.
  - apply negb_true_iff. now apply H2.
Qed.
Lemma fits_app : forall a b s, fits a s -> fits b s -> fits (a ++ b) s.
Proof. intros a b s [H1 H2] [_ H3]. split; [exact H1|]. intros x Hx. apply in_app_or in Hx as [Hx|Hx]; auto. Qed.

Lemma text_foreign : forall s t c, foreign ranges c = true -> dev_text s = true -> dev_text t = true -> dev_text (s ++ c :: t) = true.
Proof.
  intros s t c Hf H1 H2. apply wf_foreign; [assumption|reflexivity|assumption|].
  unfold dev_text in H2. destruct t as [|d t]; [reflexivity|]. simpl in *.
  apply andb_true_iff in H2 as [H2 H3]. apply andb_true_iff in H2 as [H2 H4]. rewrite H2, H3.
  rewrite andb_true_r. simpl. revert H4. generalize (kc ranges letter_class d) as k. intros k.
  do 11 (destruct k as [|k]; [easy|]). easy.
Qed.
Lemma contains_cut : forall x s t c, ~ In c x -> contains x (s ++ c :: t) = true -> contains x s = true \/ contains x t = true.
Proof.
  intros x s t c Hc H. apply contains_spec in H as (a & b & E). rewrite !contains_spec.
  apply app_eq_app in E as (l & [[Es E]|[Ea E]]).
  - apply app_eq_app in E as (l' & [[Ex E]|[El E]]).
    + destruct l' as [|d l'].
      * rewrite app_nil_r in Ex. subst x. left. exists a, []. now rewrite app_nil_r.
      * exfalso. apply Hc. cbn [app] in E. injection E as -> _. rewrite Ex. apply in_or_app. right. now left.
    + left. exists a, l'. now rewrite <- El.
  - destruct l as [|d l].
    + cbn [app] in E. destruct x as [|d x]; [left; now exists [], s|]. exfalso. apply Hc. cbn [app] in E. injection E as -> _. now left.
    + right. cbn [app] in E. injection E as _ ->. now exists l, b.
Qed.
Definition own_strings (bad : list str) : bool := all (all (fun c => negb (foreign ranges c))) bad.
Lemma fits_cut : forall bad, own_strings bad = true -> forall s t c, foreign ranges c = true -> fits bad s -> fits bad t -> fits bad (s ++ c :: t).
Proof.
  intros bad Ho s t c Hc [D1 A1] [D2 A2]. split; [now apply text_foreign|]. intros x Hx.
  destruct (contains x (s ++ c :: t)) eqn:E; [|reflexivity]. apply contains_cut in E.
  - destruct E as [E|E]; [now rewrite (A1 x Hx) in E|now rewrite (A2 x Hx) in E].
  - intros Hin. unfold own_strings in Ho. rewrite all_forall in Ho. specialize (Ho x Hx). rewrite all_forall in Ho.
    specialize (Ho c Hin). now rewrite Hc in Ho.
Qed.

(* ------------------------------------------------------------------ *)
(** ** The text of a script between the stages *)

(** With [m] the letters of [X], the last stage gives the text of [X] and the
    first one, when [X] is the source, undoes it. *)
Definition undone (t : fine) (X : str) (m : list (N * str)) : bool :=
  let T := map (spelled m) (f_table t) in
  f_check t <&> f_edges t <&> own_strings (f_bad t) <&> map_ok m <&> staged X <&>
  match f_stage t (back X) T with
  | None => false
  | Some L => match f_stage t (pre X "Devanagari"%u) L with
              | None => false
              | Some L1 => match f_stage t (rev_fix X) L1 with None => false | Some L' => table_eqb L' T end
                  <&> all (fun R => match f_stage t (pre X R) L with None => false | Some L' => table_eqb L' L1 end)
                        ["IAST"%u; "ISO"%u]
              end
  end.

(** [G] gives the text of [X]. *)
Record image (X : str) (bad : list str) (m : list (N * str)) (G : str -> str) : Prop := Image {
  im_staged : staged X = true;
  im_map : map_ok m = true;
  im_own : own_strings bad = true;
  im_back : forall s, fits bad s -> run (back X) (spelled m s) = Ok (G s);
  im_front : forall T s, In T ["Devanagari"%u; "IAST"%u; "ISO"%u] -> fits bad s -> run (pre X T ++ rev_fix X) (G s) = Ok (spelled m s);
  im_cut : forall s s' c, foreign ranges c = true -> fits bad s -> fits bad s' -> G (s ++ c :: s') = G s ++ c :: G s' }.

Lemma render_spelled : forall t m, map_ok m = true -> forall ts r, valid ranges (f_classes t) (f_ok t) r ts = true ->
  render (map (spelled m) (f_table t)) ts = spelled m (render (f_table t) ts).
Proof.
  intros t m Hm ts r Hv. unfold spelled. apply render_flat. intros c Hc. apply look_foreign; [exact Hm|].
  exact (valid_foreign _ _ _ _ _ _ Hv Hc).
Qed.

Theorem undone_image : forall t X m, undone t X m = true -> exists G, image X (f_bad t) m G.
Proof.
  intros t X m H. unfold undone in H. apply andb_true_iff in H as [H HL]. apply andb_true_iff in H as [H HX].
  apply andb_true_iff in H as [H Hm]. apply andb_true_iff in H as [H Ho]. apply andb_true_iff in H as [Hk He].
  destruct (f_stage t (back X) _) as [L|] eqn:E1; [|discriminate].
  destruct (f_stage t (pre X _) L) as [L1|] eqn:E2; [|discriminate]. apply andb_true_iff in HL as [HL HR].
  destruct (f_stage t (rev_fix X) L1) as [L'|] eqn:E3; [|discriminate]. apply table_eqb_eq in HL. subst L'.
  pose proof (f_stage_ok t Hk _ _ _ E1) as B.
  assert (F : forall T, In T ["Devanagari"%u; "IAST"%u; "ISO"%u] -> forall ts, valid ranges (f_classes t) (f_ok t) 0 ts = true ->
    run (pre X T ++ rev_fix X) (render L ts) = Ok (render (map (spelled m) (f_table t)) ts)).
  { intros T HT ts Hv. rewrite run_app. assert (P : f_stage t (pre X T) L = Some L1).
    { destruct HT as [<-|HT]; [exact E2|]. rewrite all_forall in HR. specialize (HR T HT).
      destruct (f_stage t (pre X T) L) as [L'|]; [|discriminate]. apply table_eqb_eq in HR. now subst L'. }
    rewrite (f_stage_ok t Hk _ _ _ P ts Hv). cbn [rbind]. exact (f_stage_ok t Hk _ _ _ E3 ts Hv). }
  assert (K0 : 0 < f_k t).
  { assert (Hs : shape_ok (f_classes t) (f_k t) = true) by apply (f_check_spec t Hk). pose proof (shape_K t Hs). lia. }
  assert (W : forall s, fits (f_bad t) s -> render (f_table t) (f_toks t s) = s /\ valid ranges (f_classes t) (f_ok t) 0 (f_toks t s) = true).
  { intros s Hs. apply fits_avoids in Hs as [H1 H2]. now apply f_tokens. }
  assert (B' : forall s, fits (f_bad t) s -> run (back X) (spelled m s) = Ok (render L (f_toks t s))).
  { intros s Hs. destruct (W s Hs) as [Hr Hv]. rewrite <- Hr at 1. rewrite <- (render_spelled t m Hm _ 0 Hv). now apply B. }
  exists (fun s => render L (f_toks t s)). split; try assumption.
  - intros T s HT Hs. destruct (W s Hs) as [Hr Hv]. rewrite (F T HT _ Hv). f_equal. rewrite (render_spelled t m Hm _ 0 Hv). now rewrite Hr.
  - intros s s' c Hc Hs Hs'. pose proof (B' _ (fits_cut _ Ho s s' c Hc Hs Hs')) as B1.
    destruct (W s Hs) as [Hr Hv]. destruct (W s' Hs') as [Hr' Hv'].
    pose proof (valid_join t Hk He c Hc _ _ 0 K0 Hv Hv') as V.
    assert (R : forall L, render L (f_toks t s ++ Lang.X c :: f_toks t s') = render L (f_toks t s) ++ c :: render L (f_toks t s')).
    { intros L0. unfold render. rewrite flat_map_app. reflexivity. }
    pose proof (B _ V) as B2. rewrite (render_spelled t m Hm _ 0 V), R, Hr, Hr' in B2. rewrite B1 in B2. injection B2 as B2. now rewrite B2, R.
Qed.

(** The middle stage takes the letters of [A] to those of [B]. *)
Definition changed (t : fine) (A B : str) (ma mb : list (N * str)) : bool :=
  match f_stage t (mid A B) (map (spelled ma) (f_table t)) with
  | None => false
  | Some L => table_eqb L (map (spelled mb) (f_table t))
  end.
Lemma changed_ok : forall t A B ma mb, f_check t = true -> map_ok ma = true -> map_ok mb = true -> changed t A B ma mb = true ->
  forall s, fits (f_bad t) s -> run (mid A B) (spelled ma s) = Ok (spelled mb s).
Proof.
  intros t A B ma mb Hk Ha Hb H s Hs. unfold changed in H. destruct (f_stage t _ _) as [L|] eqn:E; [|discriminate].
  apply table_eqb_eq in H. subst L. apply fits_avoids in Hs as [H1 H2]. destruct (f_tokens t Hk s H1 H2) as [Hr Hv].
  pose proof (f_stage_ok t Hk _ _ _ E _ Hv) as R. rewrite !(render_spelled t _) with (r := 0) in R by assumption. now rewrite Hr in R.
Qed.

(** The three stages together. *)
Theorem stages : forall A B bada badb ma mb Ga Gb, image A bada ma Ga -> image B badb mb Gb -> A <> B ->
  (forall s, fits (bada ++ badb) s -> run (mid A B) (spelled ma s) = Ok (spelled mb s)) ->
  forall s, fits bada s -> fits badb s -> conv A B (Ga s) = Ok (Gb s).
Proof.
  intros A B bada badb ma mb Ga Gb IA IB Hne M s Fa Fb. unfold conv, convert.
  rewrite (convert_stages A B (im_staged _ _ _ _ IA) (im_staged _ _ _ _ IB) Hne).
  rewrite app_assoc, run_app, (im_front _ _ _ _ IA _ s (or_introl eq_refl) Fa). cbn [rbind]. rewrite run_app, (M s (fits_app _ _ _ Fa Fb)). cbn [rbind].
  exact (im_back _ _ _ _ IB s Fb).
Qed.

(** A table with other strings excluded. *)
Definition with_bad (t : fine) (bad : list str) : fine :=
  Fine (f_own t) (f_coarse t) (f_nc t) (f_k t) (f_entries t) (f_follows t) bad.
Lemma with_bad_tok : forall t bad, f_tok (with_bad t bad) = f_tok t.
Proof. intros [o c n k e f b] bad. reflexivity. Qed.

(** The letters of [X], from the replacements Devanagari to [X]. *)
Definition plain (bad : list str) : fine := Fine [] (fun k => k) 13 13 entries follows bad.
Definition letters (bad : list str) (X : str) : list (N * str) :=
  let T := f_table (plain bad) in
  match f_stage (plain bad) (mid "Devanagari"%u X) T with
  | None => []
  | Some L => flat_map (fun q => match fst q with [c] => [(c, snd q)] | _ => [] end) (combine T L)
  end.
