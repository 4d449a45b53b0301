(** * C13 (order of the options) and C31 (options that cannot be used). *)
From Coq Require Import List NArith ZArith Bool Lia.
From Verif Require Import PyStr Regex Unicode Prog GMLists GeneralMap PostProcess1 PostProcess2 ConvertFix1 PreProcess1
  Dispatch YamlData Convert Transliterate StrFacts ConvertFacts ApiFacts.
Import ListNotations.
Local Open Scope list_scope.

(* ------------------------------------------------------------------ *)
(** ** C13: the options are applied in the order given *)

(** Names without a Library of Congress or Semitic ISO detour. *)
Definition direct (s : str) : Prop := s <> "RomanLoC"%u /\ ~ In s iso_schemes.

Lemma direct_main : forall src tgt n pre post, direct src -> direct tgt ->
  convert_prog src tgt n pre post = convert_main (Args src tgt n pre post).
Proof.
  intros src tgt n pre post [S1 S2] [T1 T2]. apply not_iso in S2, T2. apply str_eqb_neq in S1, T1.
  rewrite convert_unfold. unfold convert_step.
  assert (E1 : loc_target_other (loc_target (Args src tgt n pre post)) = Args src tgt n pre post).
  { unfold loc_target. rewrite T1. cbn [andb]. unfold loc_target_other. now rewrite T1. }
  rewrite E1. unfold loc_source_mark, loc_source. rewrite S1. cbn [andb]. unfold loc_source_other. rewrite S1.
  cbn [andb app]. rewrite T2. cbn [app]. rewrite S2. reflexivity.
Qed.

(** The parts of [convert_tail] around the two loops. *)
Definition tail_mid (src tgt tgtOld : str) (nativize : bool) (pre post : list str) : prog :=
  (if mem "novowelshebrew"%u pre && str_eqb src "Hebr"%u then [Replace [0x5B7%N] []] else [])
  ++ (if (negb (str_eqb src "Latn"%u) && negb (str_eqb src "Type"%u) && mem src GM_SemiticScripts)
         || (mem src GM_IndicScripts && mem tgt GM_SemiticScripts && negb (mem src GM_LatinScripts))
         || mem src ["Hiragana"%u; "Katakana"%u]
      then PrP_retainLatin false else [])
  ++ (let japanese := mem src ["Hiragana"%u; "Katakana"%u] in
      (if japanese then PrP_JapanesePreProcess src pre else [])
      ++ (let src := if japanese then "ISO"%u else src in
      (if mem tgt ["Hiragana"%u; "Katakana"%u]
       then PP_JapanesePostProcess src tgt nativize post else [])
      ++ (if str_eqb src "Oriya"%u && str_eqb tgt "IPA"%u then CF_OriyaIPAFixPre else [])
      ++ convert_text src tgt
      ++ (if japanese && negb (str_eqb tgt "Devanagari"%u) && negb (mem "siddhammukta"%u post)
          then convertScript "Devanagari"%u "ISO"%u else [])
      ++ (let back := str_eqb src tgtOld in
          let tgt := if back then tgtOld else tgt in
      (if back then convertScript "Devanagari"%u tgt else [])
      ++ (if (negb (mem src GM_SemiticScripts) && str_eqb tgt "Arab"%u && nativize)
             || mem "arabicRemoveAdditionsPhonetic"%u post
          then PP_arabicRemoveAdditionsPhonetic else [])
      ++ (if nativize then
            ApplyScriptDefaults src tgt post
            ++ (if str_eqb tgt "Latn"%u then []
                else if str_eqb tgt "Tamil"%u then PP_RemoveDiacriticsTamil else PP_RemoveDiacritics)
          else [])))).
Definition tail_after (src tgt tgtOld : str) (nativize : bool) (pre post : list str) : prog :=
  (let japanese := mem src ["Hiragana"%u; "Katakana"%u] in
   let src := if japanese then "ISO"%u else src in
   let back := str_eqb src tgtOld in
   let tgt := if back then tgtOld else tgt in
      (if str_eqb src "Tamil"%u && str_eqb tgt "IPA"%u then [Raise (External "requests.get"%u)] else [])
      ++ (if str_eqb src "Oriya"%u && str_eqb tgt "IPA"%u then CF_OriyaIPAFix else [])
      ++ PrP_retainLatin true
      ++ PP_defaultPost src tgt nativize pre post).

Lemma tail_shape : forall src tgt old n pre post, mem "RemoveDiacritics"%u post = false ->
  convert_tail src tgt old n pre post
  = foreach pre PrP_call ++ tail_mid src tgt old n pre post ++ foreach post PP_call
    ++ tail_after src tgt old n pre post.
Proof.
  intros src tgt old n pre post H. unfold convert_tail, tail_mid, tail_after. cbv zeta. rewrite H. cbn [andb].
  now rewrite !app_assoc.
Qed.

(** Same options, in any order and number. *)
Definition same (l l' : list str) : Prop := forall o, In o l <-> In o l'.

Lemma same_mem : forall l l', same l l' -> forall o, mem o l = mem o l'.
Proof.
  intros l l' H o. destruct (mem o l) eqn:E; symmetry.
  - apply mem_In. now apply H, mem_In.
  - apply not_true_iff_false. rewrite mem_In, <- (H o), <- mem_In. congruence.
Qed.

Lemma mid_ext : forall src tgt old n pre pre' post post', same pre pre' -> same post post' ->
  tail_mid src tgt old n pre post = tail_mid src tgt old n pre' post'.
Proof.
  intros src tgt old n pre pre' post post' H1 H2. pose proof (same_mem _ _ H1) as M1. pose proof (same_mem _ _ H2) as M2.
  unfold tail_mid, ApplyScriptDefaults, default_options. rewrite !M1, !M2. reflexivity.
Qed.
Lemma after_ext : forall src tgt old n pre pre' post post', same pre pre' -> same post post' ->
  tail_after src tgt old n pre post = tail_after src tgt old n pre' post'.
Proof.
  intros src tgt old n pre pre' post post' H1 H2. pose proof (same_mem _ _ H2) as M2.
  unfold tail_after, PP_defaultPost. rewrite !M2. reflexivity.
Qed.

Lemma rest_shape : forall src tgt old n pre post, mem "RemoveDiacritics"%u post = false ->
  exists before middle after, forall pre' post', same pre pre' -> same post post' ->
  convert_rest src tgt old n pre' post'
  = before ++ foreach pre' PrP_call ++ middle ++ foreach post' PP_call ++ after.
Proof.
  intros src tgt old n pre post H. unfold convert_rest.
  destruct (variant_switch src tgt n pre post) as [[src2 tgt2] n2] eqn:V.
  exists (PrP_PreProcess src tgt post pre ++ soyombo_mark tgt post),
    (tail_mid src2 tgt2 old n2 pre post), (tail_after src2 tgt2 old n2 pre post).
  intros pre' post' H1 H2. pose proof (same_mem _ _ H1) as M1. pose proof (same_mem _ _ H2) as M2.
  assert (V' : variant_switch src tgt n pre' post' = (src2, tgt2, n2)).
  { rewrite <- V. unfold variant_switch. rewrite !M1, !M2. reflexivity. }
  rewrite V', tail_shape by now rewrite <- M2.
  rewrite <- (mid_ext _ _ _ _ _ _ _ _ H1 H2), <- (after_ext _ _ _ _ _ _ _ _ H1 H2).
  unfold soyombo_mark at 1. rewrite <- M2. rewrite <- !app_assoc. reflexivity.
Qed.

(** [o1(o2(...))]: the functions named by a list applied one after the other. *)
Fixpoint apply_all (call : str -> prog) (opts : list str) (s : str) : res str :=
  match opts with
  | [] => Ok s
  | o :: t => match run (call o) s with Ok s' => apply_all call t s' | Err e => Err e end
  end.
Lemma run_foreach : forall call opts s, run (foreach opts call) s = apply_all call opts s.
Proof.
  intros call. induction opts as [|o t IH]; intros s; [reflexivity|].
  unfold foreach in *. cbn [flat_map apply_all]. rewrite run_app. destruct (run (call o) s); [apply IH|reflexivity].
Qed.

(** For fixed scripts and a fixed set of options there are three fixed programs
    such that the conversion runs the first, the pre-options one after the other
    as listed, the second, the post-options as listed, the third. *)
Theorem options_in_order : forall src tgt n pre post, direct src -> direct tgt ->
  ~ In "RemoveDiacritics"%u post -> ~ In "indicDandas"%u post -> tgt <> [] -> tgt <> "Ignore"%u ->
  exists before middle after, forall pre' post', same pre pre' -> same post post' -> forall txt,
  convert src tgt txt n pre' post'
  = rbind (run before txt) (fun s => rbind (apply_all PrP_call pre' s) (fun s =>
    rbind (run middle s) (fun s => rbind (apply_all PP_call post' s) (run after)))).
Proof.
  intros src tgt n pre post S T R D T1 T2.
  assert (G : exists before middle after, forall pre' post', same pre pre' -> same post post' ->
    convert_main (Args src tgt n pre' post')
    = before ++ foreach pre' PrP_call ++ middle ++ foreach post' PP_call ++ after).
  { unfold convert_main. apply str_eqb_neq in T1, T2. rewrite T1, T2. cbn [orb].
    assert (R' : mem "RemoveDiacritics"%u post = false) by (apply not_true_iff_false; now rewrite mem_In).
    destruct (semitic_switch src tgt n) as [src' tgt'].
    set (same_ := str_eqb src' tgt' && _ && _ && _). clearbody same_.
    set (tgt2 := if same_ then "Devanagari"%u else tgt'). set (old := if same_ then tgt' else []).
    destruct (rest_shape src' tgt2 old n pre post R') as (b & m & a & H).
    destruct ((match pre, post with [], [] => true | _, _ => false end) && negb n && str_eqb src tgt) eqn:E.
    - exists [], [], []. intros pre' post' H1 H2. destruct pre as [|x pre], post as [|y post]; try discriminate E.
      destruct pre' as [|x pre']; [|exfalso; apply (H1 x); now left].
      destruct post' as [|y post']; [|exfalso; apply (H2 y); now left].
      now rewrite E.
    - match goal with |- exists _ _ _, forall _ _, _ -> _ -> (if _ then [] else ?p ++ ?q ++ _) = _ =>
        exists (p ++ q ++ b), m, a end.
      intros pre' post' H1 H2.
      assert (E' : (match pre', post' with [], [] => true | _, _ => false end) && negb n && str_eqb src tgt = false).
      { rewrite <- E. do 2 f_equal. destruct pre as [|x pre], pre' as [|x' pre']; try reflexivity;
        try (exfalso; apply (H1 x); now left); try (exfalso; apply (H1 x'); now left).
        destruct post as [|y post], post' as [|y' post']; try reflexivity;
        try (exfalso; apply (H2 y); now left); try (exfalso; apply (H2 y'); now left). }
      rewrite E'. assert (D' : mem "indicDandas"%u post' = false).
      { rewrite <- (same_mem _ _ H2). apply not_true_iff_false. now rewrite mem_In. }
      rewrite D', H by assumption. now rewrite <- !app_assoc. }
  destruct G as (b & m & a & G). exists b, m, a. intros pre' post' H1 H2 txt. unfold convert.
  rewrite direct_main, G, run_app by assumption. destruct (run b txt); [|reflexivity]. cbn [rbind].
  rewrite run_app, run_foreach. destruct (apply_all _ _ _); [|reflexivity]. cbn [rbind].
  rewrite run_app. destruct (run m _); [|reflexivity]. cbn [rbind]. rewrite run_app, run_foreach. reflexivity.
Qed.

(** The hypotheses are met, and the order matters: the same two options give different texts. *)
Example options_in_order_case : direct "Devanagari"%u /\ direct "Kannada"%u /\
  same ["Dot2Dandas"%u; "Dot2Pipes"%u] ["Dot2Pipes"%u; "Dot2Dandas"%u] /\
  convert "Devanagari"%u "Kannada"%u "क।"%u true [] ["Dot2Dandas"%u; "Dot2Pipes"%u] = Ok "ಕ।"%u /\
  convert "Devanagari"%u "Kannada"%u "क।"%u true [] ["Dot2Pipes"%u; "Dot2Dandas"%u] = Ok "ಕ|"%u.
Proof.
  assert (D : forall s, mem s ("RomanLoC"%u :: iso_schemes) = false -> direct s).
  { intros s H. apply not_true_iff_false in H. rewrite mem_In in H. split; [intros ->; apply H; now left|].
    intros K. apply H. now right. }
  refine (conj _ (conj _ (conj _ (conj _ _)))); try (apply D; vm_compute; reflexivity).
  - intros o. simpl. tauto.
  - vm_compute. reflexivity.
  - vm_compute. reflexivity.
Qed.

(* ------------------------------------------------------------------ *)
(** ** C31: options that cannot be used *)

Definition fails (p : prog) : Prop := forall s, exists e, run p s = Err e.

Lemma fails_app_l : forall p q, fails p -> fails (p ++ q).
Proof. intros p q H s. rewrite run_app. destruct (H s) as [e ->]. now exists e. Qed.
Lemma fails_app_r : forall p q, fails q -> fails (p ++ q).
Proof. intros p q H s. rewrite run_app. destruct (run p s) as [s'|e]; [apply H|now exists e]. Qed.
Lemma fails_raise : forall e, fails [Raise e].
Proof. intros e s. now exists e. Qed.
Lemma fails_ifin : forall x p q, fails p -> fails q -> fails [IfIn x p q].
Proof.
  intros x p q H1 H2 s. cbn [run]. rewrite run_op_IfIn.
  destruct (contains x s); [destruct (H1 s) as [e ->]|destruct (H2 s) as [e ->]]; now exists e.
Qed.
Lemma fails_foreach : forall A (l : list A) f x, In x l -> fails (f x) -> fails (foreach l f).
Proof.
  intros A l f x H F. induction l as [|y l IH]; [destruct H|]. unfold foreach in *. cbn [flat_map].
  destruct H as [->|H]; [now apply fails_app_l|]. apply fails_app_r. auto.
Qed.

Lemma tail_fails : forall src tgt old n pre post,
  (exists o, In o pre /\ fails (PrP_call o)) \/
  (exists o, In o post /\ o <> "RemoveDiacritics"%u /\ fails (PP_call o)) ->
  fails (convert_tail src tgt old n pre post).
Proof.
  intros src tgt old n pre post [(o & I & F)|(o & I & N & F)]; unfold convert_tail; cbv zeta.
  - apply fails_app_l. now apply fails_foreach with o.
  - do 11 apply fails_app_r. apply fails_app_l. apply fails_foreach with o; [|assumption].
    destruct (_ && _); [|assumption]. apply in_map_iff. exists o. split; [|assumption].
    now rewrite (proj2 (str_eqb_neq _ _) N).
Qed.

Lemma rest_fails : forall src tgt old n pre post,
  (exists o, In o pre /\ fails (PrP_call o)) \/
  (exists o, In o post /\ o <> "RemoveDiacritics"%u /\ fails (PP_call o)) ->
  fails (convert_rest src tgt old n pre post).
Proof.
  intros. unfold convert_rest. apply fails_app_r. destruct (variant_switch _ _ _ _ _) as [[? ?] ?].
  apply fails_app_r. now apply tail_fails.
Qed.

Definition bad_args (a : args) : Prop :=
  ((exists o, In o (a_pre a) /\ fails (PrP_call o)) \/
   (exists o, In o (a_post a) /\ o <> "RemoveDiacritics"%u /\ fails (PP_call o))) /\
  a_tgt a <> [] /\ a_tgt a <> "Ignore"%u.

Lemma main_fails : forall a, bad_args a -> fails (convert_main a).
Proof.
  intros [src tgt n pre post] (B & T1 & T2). cbn [a_pre a_post a_tgt] in *. unfold convert_main.
  apply str_eqb_neq in T1, T2. rewrite T1, T2. cbn [orb].
  assert (E : match pre, post with [], [] => true | _, _ => false end = false).
  { destruct pre, post; try reflexivity. destruct B as [(o & [] & _)|(o & [] & _)]. }
  rewrite E. cbn [andb]. destruct (semitic_switch src tgt n) as [src' tgt'].
  apply fails_app_r, fails_app_r.
  destruct (mem "indicDandas"%u post); [|now apply rest_fails].
  match goal with |- fails (if _ then [IfIn _ (_ ++ ?r) ?o] else _) => assert (O : fails o) end.
  { unfold withS. destruct (CrunchList _ _) as [signs|]; [|apply fails_raise].
    destruct (idx signs 1) as [danda|]; [|apply fails_raise].
    destruct (str_eqb danda _); apply rest_fails.
    - destruct B as [(o & I & F)|B]; [left|right; assumption]. exists o. split; [apply in_or_app; now left|assumption].
    - destruct B as [B|(o & I & N & F)]; [left; assumption|right]. exists o. split; [apply in_or_app; now left|now split]. }
  destruct (mem src' GM_pipeScripts); [|assumption].
  apply fails_ifin; [|assumption]. apply fails_app_r. now apply rest_fails.
Qed.

Definition more (a a' : args) : Prop := bad_args a -> bad_args a'.

Lemma app_tgt : forall a b : str, b <> [] -> a ++ b <> [].
Proof. intros [|x a] b H; [assumption|discriminate]. Qed.

Lemma len_neq : forall a b : str, length a <> length b -> a <> b.
Proof. congruence. Qed.

Lemma more_intro : forall src tgt n pre post src' tgt' n' pre' post',
  incl pre pre' -> incl post post' ->
  (tgt <> [] -> tgt <> "Ignore"%u -> tgt' <> [] /\ tgt' <> "Ignore"%u) ->
  more (Args src tgt n pre post) (Args src' tgt' n' pre' post').
Proof.
  intros src tgt n pre post src' tgt' n' pre' post' I1 I2 T (B & T1 & T2). cbn [a_pre a_post a_tgt] in *.
  split; [|now apply T]. cbn [a_pre a_post a_tgt].
  destruct B as [(o & I & F)|(o & I & F)]; [left|right]; exists o; (split; [now auto|assumption]).
Qed.

Lemma incl_right : forall (a b : list str), incl a (b ++ a).
Proof. intros a b x H. apply in_or_app. now right. Qed.
Lemma incl_left : forall (a b : list str), incl a (a ++ b).
Proof. intros a b x H. apply in_or_app. now left. Qed.

Lemma roman_tgt : forall a : str, a ++ "RomanLoC"%u <> [] /\ a ++ "RomanLoC"%u <> "Ignore"%u.
Proof.
  intros a. split; [apply app_tgt; discriminate|]. apply len_neq. rewrite app_length. change (length "RomanLoC"%u) with 8%nat. change (length "Ignore"%u) with 6%nat. lia.
Qed.

Lemma loc_target_more : forall a, more a (loc_target a).
Proof.
  intros [src tgt n pre post]. unfold loc_target.
  destruct (str_eqb tgt "RomanLoC"%u) eqn:E; [|now intros H]. apply str_eqb_eq in E. subst tgt. cbn [andb].
  destruct (mem src GM_LoCScripts); [|now intros H].
  set (src' := if mem src GM_LoCSrcMap then _ else _). clearbody src'.
  set (tgt' := if mem src' GM_LoCTgtMap then _ else _).
  assert (T : tgt' <> [] /\ tgt' <> "Ignore"%u).
  { unfold tgt'. destruct (mem src' GM_LoCTgtMap); [apply roman_tgt|].
    destruct (mem src' GM_LoCTgtISO); split; discriminate. }
  clearbody tgt'. destruct (mem src' GM_LocPostPre).
  - destruct (mem src' _); apply more_intro; auto using incl_right, incl_left.
    intros x H. rewrite <- app_assoc. now apply incl_left.
  - apply more_intro; auto using incl_right, incl_left.
Qed.

Lemma loc_target_other_more : forall a, more a (loc_target_other a).
Proof.
  intros [src tgt n pre post]. unfold loc_target_other.
  destruct (_ && _); [|now intros H]. apply more_intro; auto using incl_refl.
  intros _ _. destruct (mem src GM_SemiticScripts); split; discriminate.
Qed.

Lemma loc_source_more : forall a, more a (loc_source a).
Proof.
  intros [src tgt n pre post]. unfold loc_source.
  destruct (str_eqb src "RomanLoC"%u && mem tgt GM_LoCScripts); [|now intros H].
  set (tgt' := if mem tgt GM_LoCSrcMap then _ else _).
  assert (T : tgt <> [] -> tgt <> "Ignore"%u -> tgt' <> [] /\ tgt' <> "Ignore"%u).
  { intros H1 H2. unfold tgt'. destruct (mem tgt GM_LoCSrcMap).
    - split; [apply app_tgt; discriminate|]. intros K. apply (f_equal (fun w => last w 0%N)) in K.
      rewrite last_app in K by discriminate. discriminate.
    - destruct (contains _ tgt); [split; discriminate|now split]. }
  clearbody tgt'. destruct (mem tgt' GM_LocPostPre); apply more_intro; auto using incl_right, incl_left.
Qed.

Lemma loc_source_other_more : forall a, more a (loc_source_other a).
Proof.
  intros [src tgt n pre post]. unfold loc_source_other.
  destruct (_ && _); [|now intros H]. apply more_intro; auto using incl_refl.
Qed.

Lemma latn_tgt : forall t : str, t <> [] -> t <> "Ignore"%u -> "Latn"%u <> []%list /\ "Latn"%u <> "Ignore"%u.
Proof. intros. split; discriminate. Qed.

Lemma step_fails : forall rec a, bad_args a -> fails (convert_step rec a).
Proof.
  intros rec a H. apply loc_target_more, loc_target_other_more in H. unfold convert_step.
  set (a1 := loc_target_other (loc_target a)) in *. clearbody a1. apply fails_app_r.
  apply loc_source_more, loc_source_other_more in H.
  destruct (loc_source_other (loc_source a1)) as [src tgt n pre post].
  destruct (lookup tgt GM_semiticISO) as [via|].
  - assert (H' : bad_args (Args via "Latn"%u false ([tgt ++ "Target"%u] ++ pre) ([tgt ++ "Target"%u] ++ post))).
    { revert H. apply more_intro; auto using incl_right. apply latn_tgt. }
    apply fails_app_r. destruct (lookup via GM_semiticISO) as [via2|]; [destruct (str_eqb via2 _)|];
      apply fails_app_r, main_fails; revert H'; apply more_intro; auto using incl_right, incl_refl.
  - apply fails_app_r. destruct (lookup src GM_semiticISO) as [via2|]; [destruct (str_eqb via2 _)|];
      apply fails_app_r, main_fails; revert H; apply more_intro; auto using incl_right, incl_refl.
Qed.

(** What makes an operation fail on every text. *)
Definition op_fails (o : op) : bool :=
  match o with
  | Raise _ => true
  | ReSub p t => match compile p with None => true | Some _ => false end
  | _ => false
  end.
Lemma op_fails_sound : forall p, existsb op_fails p = true -> fails p.
Proof.
  induction p as [|o p IH]; intros H; [discriminate|]. cbn [existsb] in H. apply orb_true_iff in H.
  change (o :: p) with ([o] ++ p). destruct H as [H|H]; [|apply fails_app_r; auto]. apply fails_app_l. intros s.
  destruct o; try discriminate H; cbn [run run_op]; [|now eexists].
  unfold re_sub. cbn [op_fails] in H. destruct (compile pat); [discriminate|]. now eexists.
Qed.

(** The advertised post-options (functions of PostProcess) and pre-options
    (functions of PreProcess) that raise on every text. *)
Definition unusable_post : list str :=
  ["AnusvaraToNasal"%u; "BalineseJavaneseMoveRepha"%u; "FixSemiticRoman"%u; "FixTallA"%u; "InsertGeminationSign"%u;
   "JapanesePostProcess"%u; "KhandaTa"%u; "MToAnusvara"%u; "NasalToAnusvara"%u; "PhagsPaRearrange"%u; "RemoveSchwa"%u;
   "RetainDandasIndic"%u; "RetainIndicNumerals"%u; "RetainRomanNumerals"%u; "ReverseGeminationSign"%u;
   "ThaiLaoTranscription"%u; "VaToBa"%u; "YYAEverywhere"%u; "YaToYYa"%u; "defaultPost"%u; "tbadiff"%u].
Definition unusable_pre : list str :=
  ["AnuChandraEq"%u; "BalineseJavaneseMoveRepha"%u; "FixSemiticRoman"%u; "IPAIndic"%u; "JapanesePreProcess"%u;
   "OriyaSubojinedVa"%u; "PhagsPaArrange"%u; "PreProcess"%u; "RemoveFinal"%u; "RetainPipeDanda"%u; "RomanPreFix"%u;
   "joinVowelCons"%u; "normalize"%u; "removeZW"%u].

(** They are advertised: matched against the functions of the modules ... *)
Theorem unusable_listed : incl unusable_post PP_names /\ incl unusable_pre PrP_names.
Proof.
  assert (C : forallb (fun o => mem o PP_names) unusable_post = true) by (vm_compute; reflexivity).
  assert (D : forallb (fun o => mem o PrP_names) unusable_pre = true) by (vm_compute; reflexivity).
  rewrite forallb_forall in C, D. split; intros o H; apply mem_In; auto.
Qed.

(** ... and fail when called, for every text: the post-options with TypeError
    (missing arguments). *)
Theorem unusable_post_fails : forall o s, In o unusable_post -> run (PP_call o) s = Err TypeError.
Proof.
  intros o s H.
  assert (C : forallb (fun o => match PP_call o with Raise TypeError :: _ => true | _ => false end) unusable_post = true)
    by (vm_compute; reflexivity).
  rewrite forallb_forall in C. specialize (C o H). destruct (PP_call o) as [|[] ?]; try discriminate.
  destruct e; try discriminate. reflexivity.
Qed.
Theorem unusable_pre_fails : forall o s, In o unusable_pre -> exists e, run (PrP_call o) s = Err e.
Proof.
  intros o s H.
  assert (C : forallb (fun o => existsb op_fails (PrP_call o)) unusable_pre = true) by (vm_compute; reflexivity).
  rewrite forallb_forall in C. revert s. apply op_fails_sound. auto.
Qed.

(** So a conversion with one of them raises, for all scripts, texts and other
    options. *)
Theorem unusable_options_raise : forall src tgt txt n pre post,
  (exists o, In o pre /\ In o unusable_pre) \/ (exists o, In o post /\ In o unusable_post) ->
  tgt <> [] -> tgt <> "Ignore"%u ->
  exists e, convert src tgt txt n pre post = Err e.
Proof.
  intros src tgt txt n pre post H T1 T2. unfold convert. rewrite convert_unfold. revert txt.
  apply step_fails. split; [|now split]. cbn [a_pre a_post].
  destruct H as [(o & I & U)|(o & I & U)]; [left|right]; exists o; (split; [assumption|]).
  - intros s. now apply unusable_pre_fails.
  - split; [|intros s; exists TypeError; now apply unusable_post_fails].
    intros ->. assert (C : mem "RemoveDiacritics"%u unusable_post = false) by (vm_compute; reflexivity).
    apply mem_In in U. congruence.
Qed.

(** Through the public function, for any spelling of the option. *)
Section P.
Variable uname : N -> option str.
Variable uscript : N -> str.
Variable lfind : str -> res str.

Theorem unusable_post_option_raises : forall src tgt txt n pre post o o', src <> "autodetect"%u ->
  In o unusable_post -> py_lower o' = py_lower o -> In o' post ->
  canonical_name tgt <> [] -> canonical_name tgt <> "Ignore"%u ->
  exists e, snd (process uname uscript lfind src tgt txt n post pre "default"%u) = Err e.
Proof.
  intros src tgt txt n pre post o o' Hs U E I T1 T2. unfold process. rewrite str_eqb_refl.
  rewrite process_default_known by assumption. unfold convert_default. rewrite !warn_snd. cbn [snd].
  apply unusable_options_raise; [|assumption..]. right. exists o. split; [|assumption].
  unfold resolve_options. apply in_flat_map. exists o'. split; [assumption|]. apply filter_In.
  split; [now apply (proj1 unusable_listed)|]. now rewrite E, str_eqb_refl.
Qed.
Theorem unusable_pre_option_raises : forall src tgt txt n pre post o o', src <> "autodetect"%u ->
  In o unusable_pre -> py_lower o' = py_lower o -> In o' pre ->
  canonical_name tgt <> [] -> canonical_name tgt <> "Ignore"%u ->
  exists e, snd (process uname uscript lfind src tgt txt n post pre "default"%u) = Err e.
Proof.
  intros src tgt txt n pre post o o' Hs U E I T1 T2. unfold process. rewrite str_eqb_refl.
  rewrite process_default_known by assumption. unfold convert_default. rewrite !warn_snd. cbn [snd].
  apply unusable_options_raise; [|assumption..]. left. exists o. split; [|assumption].
  unfold resolve_options. apply in_flat_map. exists o'. split; [assumption|]. apply filter_In.
  split; [now apply (proj2 unusable_listed)|]. now rewrite E, str_eqb_refl.
Qed.
End P.

Example unusable_case : process (fun _ => None) (fun _ => []) (fun _ => Err KeyError)
   "Devanagari"%u "Bengali"%u "क"%u true ["KHANDATA"%u] [] "default"%u = ([], Err TypeError).
Proof. vm_compute. reflexivity. Qed.
