(** * C43: a text converted into its own script.

    With [nativize], the default of [transliterate.process], equal source and
    target are not returned unchanged (transliterate.py:335) but converted to
    Devanagari and back (transliterate.py:403-405, 497-499).  For scripts without
    conventions of their own the text comes back, less the marks of
    GM.DiacriticsRemovable. *)
From Coq Require Import List NArith ZArith Bool Lia Arith.
From Verif Require Import PyStr Regex Unicode Prog GMLists GeneralMap PostProcess1 ConvertFix1 PreProcess1 PostProcess2 Convert Dispatch
  Transliterate StrFacts ConvertFacts AbsRegex Lang Tokenise Analyze TextFacts ApiFacts TotalFacts IndicText IndicRT IndicFine Stages RomanText RomanStages
  RomanRT Nativize Defaults.
Import ListNotations.
Local Open Scope nat_scope.

(** transliterate.py:528-541, no options *)
Definition last_steps (X : str) : prog := PrP_retainLatin true ++ PP_defaultPost [] X false [] [].
(** transliterate.py:419-499 when source and target are [X] *)
Definition there_and_back (X : str) : prog := pre X "Devanagari"%u ++ convert_text X "Devanagari"%u ++ convertScript "Devanagari"%u X.

Lemma own_prog : forall X, plain X -> ~ In X conventional ->
  convert_prog X X true [] [] = there_and_back X ++ PP_RemoveDiacritics ++ last_steps X.
Proof.
  intros X HX HC. pose proof (no_defaults X X HC) as D. pose proof HX as HX'. apply plain_spec in HX as ((S1 & S2 & S3 & S4 & S5 & S6 & S7) & (S8 & S9 & S10)).
  assert (W : semitic_switch X X true = (X, X)).
  { unfold semitic_switch, has_key, get. rewrite S10, S8. cbn [orb andb]. rewrite S10, S8. cbn [orb andb]. rewrite S9. reflexivity. }
  assert (A : mem X ["Arab-Ur"%u; "Arab-Pa"%u] = false).
  { destruct (mem X ["Arab-Ur"%u; "Arab-Pa"%u]) eqn:Q; [|reflexivity]. apply mem_In in Q. destruct Q as [<-|[<-|[]]]; vm_compute in S10; discriminate. }
  assert (Ar : str_eqb X "Arab"%u = false).
  { destruct (str_eqb X "Arab"%u) eqn:Q; [|reflexivity]. apply str_eqb_eq in Q. subst X. vm_compute in S10. discriminate. }
  assert (Ta : str_eqb X "Tamil"%u = false).
  { destruct (str_eqb X "Tamil"%u) eqn:Q; [|reflexivity]. apply str_eqb_eq in Q. subst X. exfalso. apply HC. clear. apply mem_In. vm_compute. reflexivity. }
  assert (V : variant_switch X "Devanagari"%u true [] [] = (X, "Devanagari"%u, true)) by (unfold variant_switch; cbn [mem existsb andb]; rewrite ?andb_false_r; reflexivity).
  assert (Y : soyombo_mark "Devanagari"%u [] = []) by (vm_compute; reflexivity).
  assert (P : PP_defaultPost X X true [] [] = PP_defaultPost [] X false [] []) by (unfold PP_defaultPost; reflexivity).
  assert (M : convert_main (Args X X true [] []) = there_and_back X ++ PP_RemoveDiacritics ++ last_steps X).
  { unfold convert_main. rewrite S2, S3. cbn [orb andb negb]. rewrite W. cbv beta iota. rewrite A, S10, str_eqb_refl, S4, S5. cbn [andb negb orb].
    rewrite !app_nil_l. cbn [mem existsb]. unfold convert_rest. rewrite V. cbv beta iota. rewrite Y, app_nil_l.
    unfold convert_tail, ApplyScriptDefaults. cbn [mem existsb]. rewrite S10, S4, S5. 
    replace (str_eqb "Devanagari"%u "IPA"%u) with false by (vm_compute; reflexivity).
    replace (str_eqb "Devanagari"%u "Hiragana"%u) with false by (vm_compute; reflexivity).
    replace (str_eqb "Devanagari"%u "Katakana"%u) with false by (vm_compute; reflexivity).
    replace (mem "Devanagari"%u GM_SemiticScripts) with false by (vm_compute; reflexivity).
    rewrite !str_eqb_refl, !andb_false_r. cbn [andb orb negb foreach flat_map]. rewrite D, S6, Ta, S7, Ar, !andb_false_r. cbn [andb orb negb foreach flat_map].
    rewrite !app_nil_l, P. unfold there_and_back, last_steps, pre. rewrite <- !app_assoc. reflexivity. }
  rewrite <- M. clear - S1 S8.
  change (convert_prog X X true [] []) with (convert_step (convert_n 2) (Args X X true [] [])). generalize (convert_n 2). intros rec.
  unfold convert_step. generalize convert_main. intros m.
  unfold loc_target. rewrite S1. cbn [andb]. unfold loc_target_other. rewrite S1.
  cbn [andb]. unfold loc_source_mark, loc_source. rewrite S1. cbn [andb]. unfold loc_source_other. rewrite S1. cbn [andb].
  rewrite S8. cbv beta iota. rewrite S8. rewrite !app_nil_l. reflexivity.
Qed.

(** The marks are deleted at the end. *)
Lemma own_ok : forall X, plain X -> ~ In X conventional -> forall a, run (there_and_back X ++ last_steps X) a = Ok a ->
  convert X X a true [] [] = Ok (unmarked a).
Proof.
  intros X HX HC a H. unfold convert. rewrite (own_prog X HX HC). rewrite run_app in H |- *.
  destruct (run (there_and_back X) a) as [u|e]; [|discriminate]. cbn [rbind] in H |- *.
  rewrite run_app, remove_diacritics_deletes. cbn [rbind]. fold marks. fold (unmarked u).
  rewrite (apart_run (last_steps X) u), H; [reflexivity|].
  unfold last_steps. rewrite forallb_app. apply andb_true_iff. split; [vm_compute; reflexivity|]. unfold PP_defaultPost. cbn [mem existsb].
  destruct (mem X GM_Transliteration); vm_compute; reflexivity.
Qed.

(* ------------------------------------------------------------------ *)
(** ** Indic scripts *)

Definition own_stage (bad : str) (p : prog) (L : list str) : option (list str) :=
  if shape_ok (classes bad) 13 then
    if Nat.eqb (length L) (length (classes bad)) then analyze ranges (classes bad) okx 13 3 4 p L else None
  else None.
Definition own_check (p : str * str) : bool :=
  mem (fst p) conventional ||
  ((mem (fst p) names && negb (mem (fst p) special)) <&>
   match after (snd p) "Devanagari"%u (fst p) (table (snd p)) with
   | None => false
   | Some L => match own_stage (snd p) (there_and_back (fst p) ++ last_steps (fst p)) L with
               | None => false
               | Some L' => table_eqb L' L
               end
   end).
Lemma own_checked : all own_check lossless = true.
Proof. vm_cast_no_check (eq_refl true). Qed.

(** C43 for 17 Indic scripts. *)
Theorem own_script : forall X bad, In (X, bad) lossless -> ~ In X conventional ->
  forall s, dev_text s = true -> without bad s = true ->
  exists a, conv "Devanagari"%u X s = Ok a /\ convert X X a true [] [] = Ok (unmarked a).
Proof.
  intros X bad Hin HC s Hd Hw. pose proof own_checked as C. rewrite all_forall in C. specialize (C _ Hin). unfold own_check in C. cbn [fst snd] in C.
  apply orb_true_iff in C as [C|C]; [apply mem_In in C; contradiction|]. apply andb_true_iff in C as [HP C]. apply plain_name in HP.
  destruct (after bad _ X _) as [L|] eqn:E; [|discriminate]. destruct (own_stage bad _ L) as [L'|] eqn:E'; [|discriminate].
  apply table_eqb_eq in C. subst L'. destruct (dev_tokens bad s Hd Hw) as [Hr Hv]. exists (render L (toks s)). split.
  - rewrite <- Hr at 1. now apply (after_ok _ _ _ _ _ E).
  - apply (own_ok X HP HC). unfold own_stage in E'. destruct (shape_ok (classes bad) 13) eqn:Hs; [|discriminate].
    destruct (Nat.eqb_spec (length L) (length (classes bad))) as [Hl|]; [|discriminate]. now apply (analyze_ok _ _ _ _ _ _ Hs _ _ _ Hl E').
Qed.

(* ------------------------------------------------------------------ *)
(** ** Roman schemes *)

Definition dev_in : prog := letters_li "Devanagari"%u ++ CF_FixIndicOutput [] "Devanagari"%u ++ PP_default [].
Definition schemes_check (x : list nat) (bad : list str) (d : prog) (I0 : list str) (Rs : list str) : bool :=
  is_table (rstage x bad d I0) (rtable x bad)
  <&> all (fun R => (mem R names && negb (mem R special) && negb (mem R conventional))
                    <&> is_table (rstage x bad (pre "Devanagari"%u R) (rtable x bad)) (rtable x bad)) Rs.
Lemma schemes_check_ok : forall x bad d I0 Rs, schemes_check x bad d I0 Rs = true ->
  rstage x bad d I0 = Some (rtable x bad) /\ forall R, In R Rs -> plain R /\ ~ In R conventional /\ rstage x bad (pre "Devanagari"%u R) (rtable x bad) = Some (rtable x bad).
Proof.
  intros x bad d I0 Rs C. unfold schemes_check in C. apply andb_true_iff in C as [C1 C]. apply is_table_eq in C1. split; [exact C1|]. intros R HR.
  rewrite all_forall in C. specialize (C R HR). apply andb_true_iff in C as [HP C2]. apply andb_true_iff in HP as [HP HC]. apply is_table_eq in C2.
  split; [now apply plain_name|]. split; [|exact C2]. intros Q. apply mem_In in Q. rewrite Q in HC. discriminate.
Qed.
Lemma schemes_checked : schemes_check [] [] dev_in inter_table roman_names = true.
Proof. vm_cast_no_check (eq_refl true). Qed.

Lemma dev_text_script : forall R, convert_text "Devanagari"%u R = convertScript "Devanagari"%u R.
Proof. intros R. reflexivity. Qed.

(** C43 for the Roman schemes declared reversible. *)
Theorem own_scheme : forall R x bad, In (R, (x, bad)) roman_schemes ->
  forall s, roman_text x s = true -> avoids bad s = true ->
  exists t, conv "Devanagari"%u R s = Ok t /\ convert R R t true [] [] = Ok (unmarked t).
Proof.
  intros R x bad Hin s Hs Ha. pose proof (scheme_name _ _ Hin) as HR. destruct (scheme_image R x bad Hin s Hs Ha) as (t & j & RI).
  exists t. split; [exact (ri_conv _ _ _ _ RI)|]. destruct (schemes_check_ok _ _ _ _ _ schemes_checked) as [C1 C].
  destruct (C R HR) as (HP & HC' & C2).
  pose proof (roman_text_none x s Hs) as Hs0. destruct (roman_tokens [] [] s (or_introl eq_refl) Hs0 eq_refl) as [Hr Hv].
  destruct (again_ok _ _ _ _ again_checked) as [[C0 _] CA].
  pose proof (from_inter _ _ _ s j C0 (or_introl eq_refl) Hs0 eq_refl (ri_latin _ _ _ _ RI) _ _ C1) as PJ. rewrite Hr in PJ.
  pose proof (rstage_ok _ _ _ _ _ C2 _ Hv) as PP. rewrite Hr in PP.
  apply (own_ok R HP HC'). unfold there_and_back. rewrite run_app.
  (* to Devanagari *)
  assert (T : run (pre R "Devanagari"%u ++ convert_text R "Devanagari"%u) t = Ok s).
  { destruct RI as [_ _ (t0 & t1 & P0 & P1 & P2 & P3 & P4 & P5) _]. apply (prepared_ok R HR) in P0 as [P0 Ph].
    rewrite run_app, P0. cbn [rbind]. rewrite (text_no_hash R _ t0 Ph), (script_li R "Devanagari"%u HR eq_refl). unfold body_li, front_li, inter_li.
    rewrite run_app, (run_app (fix_in R)), P1. cbn [rbind]. rewrite P2. cbn [rbind].
    rewrite run_app, (alike_ok om _ _ t1 (CA R HR) P4 P3). cbn [rbind].
    rewrite run_app, (run_app (convertInter R)), P5. cbn [rbind]. unfold dev_in in PJ. rewrite run_app in PJ. exact PJ. }
  rewrite app_assoc, run_app, T. cbn [rbind]. rewrite <- run_app.
  (* and back *)
  pose proof (ri_conv _ _ _ _ RI) as B. unfold conv, convert in B.
  rewrite (convert_simple "Devanagari"%u R) in B.
  - rewrite run_app, PP in B. cbn [rbind] in B. rewrite (post_any "Devanagari"%u R), dev_text_script in B. unfold last_steps. exact B.
  - vm_compute. reflexivity.
  - exact (proj1 (names_spec R HR)).
  - intros <-. revert HR. clear. intros HR. apply mem_In in HR. vm_compute in HR. discriminate.
Qed.

(** Without marks, nothing changes; for [transliterate.process]. *)
Section Public.
Variable uname : N -> option str.
Variable uscript : N -> str.
Variable lfind : str -> res str.
Theorem process_own : forall name s a, let X := canonical_name name in
  (exists bad, In (X, bad) lossless /\ ~ In X conventional /\ dev_text s = true /\ without bad s = true) \/
  (exists x bad, In (X, (x, bad)) roman_schemes /\ roman_text x s = true /\ avoids bad s = true) ->
  conv "Devanagari"%u X s = Ok a -> (forall c, In c marks -> ~ In c a) ->
  forall nat, snd (process uname uscript lfind name name a nat [] [] "default"%u) = Ok a.
Proof.
  intros name s a X H Ca HM nat.
  assert (HT : convert X X a true [] [] = Ok (unmarked a) /\ plain X).
  { destruct H as [(bad & H1 & H2 & H3 & H4)|(x & bad & H1 & H2 & H3)].
    - split; [destruct (own_script X bad H1 H2 s H3 H4) as (a' & C1 & C2); rewrite Ca in C1; injection C1 as <-; exact C2|].
      pose proof own_checked as C. rewrite all_forall in C. specialize (C _ H1). unfold own_check in C. cbn [fst snd] in C.
      apply orb_true_iff in C as [C|C]; [apply mem_In in C; contradiction|]. apply andb_true_iff in C as [HP C]. now apply plain_name.
    - split; [destruct (own_scheme X x bad H1 s H2 H3) as (a' & C1 & C2); rewrite Ca in C1; injection C1 as <-; exact C2|].
      exact (proj1 (proj2 (schemes_check_ok _ _ _ _ _ schemes_checked) X (scheme_name _ _ H1))). }
  destruct HT as [HT HP].
  assert (Ha : name <> "autodetect"%u).
  { intros E. subst X. rewrite E in HP. clear - HP. destruct HP as [HP _]. apply mem_In in HP. vm_compute in HP. discriminate HP. }
  rewrite process_plain by assumption. fold X. destruct nat; [rewrite HT; f_equal; now apply unmarked_same|]. apply same_script. intros Q. destruct HP as [_ HP]. apply HP. apply in_or_app. right. apply in_or_app. right. revert Q. clear. generalize X. clear. intros X Q. cbn in Q |- *. tauto.
Qed.
End Public.

(** ** The hypotheses can be met, and are needed *)
Example own_case : let s := "धर्मक्षेत्रे कुरुक्षेत्रे। प्रउग १२ 漢"%u in
  In ("Sharada"%u, nukta_letters ++ tamil_letters) lossless /\ ~ In "Sharada"%u conventional /\ dev_text s = true /\
  without (nukta_letters ++ tamil_letters) s = true /\
  conv "Devanagari"%u "Sharada"%u s = Ok "𑆣𑆫𑇀𑆩𑆑𑇀𑆰𑆼𑆠𑇀𑆫𑆼 𑆑𑆶𑆫𑆶𑆑𑇀𑆰𑆼𑆠𑇀𑆫𑆼𑇅 𑆥𑇀𑆫𑆇𑆓 𑇑𑇒 漢"%u /\
  In ("IAST"%u, ([], [])) roman_schemes /\ roman_text [] s = true /\ avoids [] s = true /\
  conv "Devanagari"%u "IAST"%u s = Ok "dharmakṣetre kurukṣetre. praüga 12 漢"%u.
Proof.
  intros s. split; [vm_compute; tauto|]. split; [intros Q; apply mem_In in Q; vm_compute in Q; discriminate Q|].
  repeat (split; [vm_compute; tauto|]). vm_compute. reflexivity.
Qed.
(** Scripts with conventions, texts that are not images of Devanagari texts, and
    marks. *)
Theorem own_refuted :
  convert "Telugu"%u "Telugu"%u "సంస్కృతమ్"%u true [] [] = Ok "సంస్కృతం"%u /\
  convert "IAST"%u "IAST"%u "ख kha"%u true [] [] = Ok "kha kha"%u /\
  convert "Gujarati"%u "Gujarati"%u "ક˘"%u true [] [] = Ok "ક"%u.
Proof. split; [vm_compute; reflexivity|]. split; vm_compute; reflexivity. Qed.
