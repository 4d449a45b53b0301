(** * Internal markers never leak (property C27). *)
From Coq Require Import List NArith ZArith Bool Lia Permutation.
From Verif Require Import PyStr StrFacts UnicodeTables Regex Unicode Prog GMLists GeneralMap FixNum
  PostProcess1 ConvertFix1 PreProcess1 PostProcess2 GimelData Gimeltra Convert Dispatch YamlData Transliterate
  AbsRegex NormCut SortFacts TableFacts SafeFacts ApiFacts TotalFacts Marks MarkFacts.
Import ListNotations.
Local Open Scope N_scope.

(** ** The property *)

(** A character that the conversion uses for itself (aksharamukha/ConvertFix.py, PreProcess.py,
    transliterate.py: private use characters, the unassigned U+05CC..U+05CE, and the sign × for an
    explicit virama). *)
Definition internal (c : N) : Prop := 0xE000 <= c <= 0xF8FF \/ 0x5CC <= c <= 0x5CE \/ c = 0xD7.

(** The targets whose own letters contain private use characters. *)
Definition private_alphabet (T : str) (post : list str) : Prop :=
  T = "Inter"%u \/ T = "GranthaGrantamil"%u \/ (T = "Grantha"%u /\ In "egrantamil"%u post).

(** Pre-options that mark letters of a Semitic script (PreProcess.py:675-733) and those that append or
    insert a marker (PreProcess.py:643-657). *)
Definition letter_options : list str :=
  ["HatrDalethResh"%u; "PhliWawAyinResh"%u; "PhlpMemQoph"%u; "PhlpWawAyinResh"%u; "SogdReshAyin"%u; "SogoReshAyinDaleth"%u].
Definition marking_options : list str := ["AlephMaterLectionis"%u; "insertViramaSyriac"%u].
Definition fitting (S : str) (pre : list str) : Prop :=
  (forall o, In o letter_options -> In o pre -> In S GM_SemiticScripts /\ S <> "Latn"%u /\ S <> "Type"%u)
  /\ (forall o, In o marking_options -> In o pre -> S <> "Itrans"%u).

Lemma internal_marker : forall c, internal c -> marker c = true.
Proof.
  intros c H. unfold marker. destruct H as [[A B]|[[A B]| ->]]; [| |reflexivity].
  - apply N.leb_le in A, B. now rewrite A, B.
  - apply N.leb_le in A, B. rewrite A, B. now rewrite orb_true_r.
Qed.


(** ** Options *)
(** The characters that stand for Latin letters (PrP_retainLatin), and those of the letter options. *)
Definition kept : list N := map (fun n => 0xEE01 + N.of_nat n) (seq 0 73).
Definition letters : list N := [0xEA01; 0xEA02; 0xEA03; 0xEA04; 0xEA05; 0xEA06].
Lemma mv_retain : moves (kept ++ letters) kept (PrP_retainLatin false).
Proof. fleaf. Qed.
Lemma mv_retained : moves kept [] (PrP_retainLatin true).
Proof. fleaf. Qed.

Definition semit (S : str) : bool := mem S GM_SemiticScripts && negb (str_eqb S "Latn"%u) && negb (str_eqb S "Type"%u).
(** The marks that [convertScript] removes; with Itrans, text between ## is not converted. *)
Definition settled (S : str) : list N := if str_eqb S "Itrans"%u then [] else default_marks.
Definition removed (S : str) : list N := warang S ++ settled S.
Definition waits (S : str) : list N := kept ++ settled S ++ (if semit S then letters else []).
Definition good_pre (S o : str) : Prop := moves [] (waits S) (PrP_call o).
Definition good_post (o : str) : Prop := clean (PP_call o).

Definition plain_pre (o : str) : bool := flows [] kept (PrP_call o).
Definition pre_kind (o : str) : bool :=
  if mem o letter_options then flows [] letters (PrP_call o)
  else if mem o marking_options then flows [] default_marks (PrP_call o) else plain_pre o.
Lemma pre_kinds : forall o, In o PrP_names -> pre_kind o = true.
Proof. apply forallb_forall. vm_compute. reflexivity. Qed.
Definition post_fn : list str := ["GranthaPrakrit"%u; "capitalizeSentence"%u; "TaiThamMoveNnga"%u].
Definition post_kind (o : str) : bool := if mem o post_fn then true else flows [] [] (PP_call o).
Lemma post_kinds : forall o, In o PP_names -> post_kind o = true.
Proof. apply forallb_forall. vm_compute. reflexivity. Qed.

Lemma plain_pre_good : forall S o, plain_pre o = true -> good_pre S o.
Proof.
  intros S o H. unfold good_pre, waits. apply mv_weak with [] kept; [auto| |exact (flows_sound _ _ _ H)].
  intros c Hc. apply in_or_app. now left.
Qed.
Lemma pre_good : forall S o, In o PrP_names -> (In o letter_options -> semit S = true) -> (In o marking_options -> S <> "Itrans"%u) -> good_pre S o.
Proof.
  intros S o H HL HM. pose proof (pre_kinds o H) as K. unfold pre_kind in K.
  destruct (mem o letter_options) eqn:E1.
  { apply mem_In in E1. specialize (HL E1). unfold good_pre, waits. rewrite HL. apply mv_weak with [] letters; [auto| |exact (flows_sound _ _ _ K)].
    intros c Hc. apply in_or_app. right. apply in_or_app. now right. }
  destruct (mem o marking_options) eqn:E2; [|now apply plain_pre_good].
  apply mem_In in E2. specialize (HM E2). apply str_eqb_neq in HM. unfold good_pre, waits, settled. rewrite HM.
  apply mv_weak with [] default_marks; [auto| |exact (flows_sound _ _ _ K)].
  intros c Hc. rewrite !in_app_iff. tauto.
Qed.
Lemma post_good : forall o, In o PP_names -> good_post o.
Proof.
  intros o H. pose proof (post_kinds o H) as K. unfold post_kind in K. destruct (mem o post_fn) eqn:E; [|exact (flows_sound _ _ _ K)].
  apply mem_In in E as [<-|[<-|[<-|[]]]].
  - change (clean PP_GranthaPrakrit). unfold PP_GranthaPrakrit. apply mv_app with []; [fleaf|]. apply mv_app with []; [fleaf|].
    assert (R : clean (PP_ReverseGeminationSign "Grantha"%u)) by fleaf.
    apply mv_cons with []; now apply clean_reduce.
  - change (clean PP_capitalizeSentence). unfold PP_capitalizeSentence. apply mv_app with [].
    + exact (clean_upper _ 0%nat).
    + exact (clean_upper _ 2%nat).
  - change (clean PP_TaiThamMoveNnga). unfold PP_TaiThamMoveNnga. apply mv_app with []; [fleaf|].
    apply mv_one. intros s0 s r W E. cbn [run_op] in E. assert (r = "Vinodh"%u) as -> by congruence.
    apply Forall_forall. intros c Hc M. exfalso. exact (unmarked_In "Vinodh"%u c eq_refl Hc M).
Qed.

Lemma clean_IfIn : forall x p q, clean p -> clean q -> clean [IfIn x p q].
Proof. intros x p q Hp Hq. exact (mv_IfIn [] [] [] x p q Hp Hq). Qed.
Lemma clean_app : forall p q, clean p -> clean q -> clean (p ++ q).
Proof. intros p q. exact (mv_app [] [] [] p q). Qed.
Lemma clean_if : forall (b : bool) p q, clean p -> clean q -> clean (if b then p else q).
Proof. intros [|] p q; auto. Qed.
Ltac cpieces := repeat lazymatch goal with
  | |- clean (_ ++ _) => apply clean_app
  | |- clean (if _ then _ else _) => apply clean_if
  | |- clean [IfIn _ _ _] => apply clean_IfIn
  end.
Ltac cfleaf := unfold clean; fleaf.

Lemma clean_defaults : forall S T post, clean (ApplyScriptDefaults S T post).
Proof.
  intros S T post. unfold ApplyScriptDefaults, default_options.
  repeat lazymatch goal with
  | |- clean (foreach (if str_eqb T ?x then _ else _) _) =>
      let E := fresh in destruct (str_eqb T x) eqn:E;
      [apply str_eqb_eq in E; rewrite E;
       repeat lazymatch goal with |- clean (foreach (if ?b then _ else _) _) => destruct b end; cfleaf
      |clear E]
  | |- clean (foreach [] _) => apply mv_nil
  end.
Qed.

(** ** Preprocessing *)
Lemma clean_normalize : forall S, clean (PrP_normalize S).
Proof. intros S. unfold PrP_normalize. cbv zeta. cpieces; cfleaf. Qed.
Lemma mv_PreProcess : forall S T post pre, moves [] (warang S) (PrP_PreProcess S T post pre).
Proof.
  intros S T post pre. apply mv_weak with (warang S) (warang S); [intros c []|auto|]. unfold PrP_PreProcess.
  repeat lazymatch goal with |- moves _ _ (_ ++ _) => apply mv_app with (warang S); [lazymatch goal with
    | |- moves _ _ (PrP_normalize _) => apply mv_keep; apply clean_normalize
    | |- moves _ _ (if str_eqb S "Itrans"%u then _ else _) =>
        let E := fresh in destruct (str_eqb S "Itrans"%u) eqn:E; [apply str_eqb_eq in E; rewrite E; apply mv_keep; cfleaf|apply mv_nil]
    | |- moves _ _ (if str_eqb S "WarangCiti"%u then _ else _) =>
        unfold warang; destruct (str_eqb S "WarangCiti"%u); [fleaf|apply mv_nil]
    | |- _ => apply mv_keep; cbv zeta; cpieces; cfleaf
    end|] end.
  apply mv_if; [|apply mv_nil]. cbv zeta. apply mv_withS. intros a _. apply mv_withS. intros b _.
  apply mv_withS. intros x _. apply mv_withS. intros y _. apply mv_if; [|apply mv_nil].
  apply mv_Replace_clean. intros c Hc. rewrite !marks_app in Hc. cbn [app] in Hc. 
  apply in_or_app. right. apply in_app_or in Hc as [Hc|Hc]; [destruct Hc|]. now apply marks_In in Hc as [Hc _].
Qed.

(** ** convert *)
Definition num_flow (T : str) : bool :=
  if mem T banned then true
  else flows [] [] (PP_RetainIndicNumerals T true) && flows [] [] (PP_RetainIndicNumerals T false) && flows [] [] (PP_RetainDandasIndic T true).
Lemma num_flows : forall T, In T known -> num_flow T = true.
Proof. apply forallb_forall. vm_compute. reflexivity. Qed.
Lemma clean_defaultPost : forall S T nat pre post, In T known -> okay T -> clean (PP_defaultPost S T nat pre post).
Proof.
  intros S T nat pre post HT OT. pose proof (num_flows T HT) as C. unfold num_flow in C. rewrite (okay_mem T OT) in C. bools.
  unfold PP_defaultPost. cpieces; first [apply flows_sound; assumption|cfleaf].
Qed.

Lemma clean_convertScript : forall S T, In S known -> In T known -> okay T -> clean (convertScript S T).
Proof. intros S T HS HT OT. apply mv_weak with (warang S ++ default_marks) []; [intros c []|auto|]. now apply mv_convertScript. Qed.
Lemma mv_text : forall S T, In S known -> In T known -> okay T ->
  moves (removed S) [] (convert_text S T).
Proof.
  intros S T HS HT OT. unfold convert_text, removed, settled.
  destruct (str_eqb S "Itrans"%u) eqn:E; [|now apply mv_convertScript]. apply str_eqb_eq in E. subst S. change (warang "Itrans"%u) with (@nil N). cbn [app]. set (S := "Itrans"%u) in *.
  apply (clean_IfIn _ _ _); [|now apply clean_convertScript].
  exact (mv_EvenParts [] [] _ _ (clean_convertScript S T HS HT OT)).
Qed.

Definition not_kanas : forall s, In s known -> mem s ["Hiragana"%u; "Katakana"%u] = false.
Proof. apply (all_not (fun s => mem s ["Hiragana"%u; "Katakana"%u])). vm_compute. reflexivity. Qed.
Lemma devanagari_known : In "Devanagari"%u known.
Proof. apply mem_In. vm_compute. reflexivity. Qed.
Lemma tamil_good : good_post "RemoveDiacriticsTamil"%u.
Proof. apply post_good. apply mem_In. vm_compute. reflexivity. Qed.

Theorem mv_tail : forall S T old nat pre post, In S known -> In T known -> okay T -> (old = [] \/ In old known /\ okay old) ->
  Forall (good_pre S) pre -> Forall good_post post ->
  moves (removed S) [] (convert_tail S T old nat pre post).
Proof.
  intros S T old nat pre post HS HT OT Hold Hpre Hpost. unfold convert_tail.
  rewrite (not_kanas S HS), (not_kanas T HT). rewrite Forall_forall in Hpre, Hpost. cbv zeta.
  set (D := removed S). set (room := kept ++ D ++ (if semit S then letters else [])).
  apply mv_app with room.
  { apply mv_weak with room room; [intros c Hc; unfold room; rewrite !in_app_iff; tauto|auto|]. apply mv_foreach. intros o Ho.
    apply (mv_gen _ (waits S)); [exact (Hpre o Ho)|auto|]. intros c. unfold room, waits, D, removed. rewrite !in_app_iff. tauto. }
  apply mv_app with room; [apply mv_keep; apply clean_if; cfleaf|].
  apply mv_app with (kept ++ D).
  { unfold room. destruct (semit S) eqn:ES.
    - unfold semit in ES. apply andb_true_iff in ES as [ES E3]. apply andb_true_iff in ES as [E1 E2]. rewrite E1, E2, E3. cbn [andb orb].
      apply (mv_sub (kept ++ letters) kept); [exact mv_retain| |intros c Hc; apply in_or_app; now left].
      intros c Hc. rewrite !in_app_iff in *. tauto.
    - rewrite app_nil_r. apply mv_if; [|apply mv_nil]. apply (mv_sub (kept ++ letters) kept); [exact mv_retain| |intros c Hc; apply in_or_app; now left].
      intros c Hc. rewrite !in_app_iff in *. tauto. }
  apply mv_app with (kept ++ D); [apply mv_nil|]. apply mv_app with (kept ++ D); [apply mv_nil|].
  apply mv_app with (kept ++ D); [apply mv_keep; apply clean_if; cfleaf|].
  apply mv_app with kept.
  { apply (mv_sub D []); [now apply mv_text|auto|intros c []]. }
  apply mv_app with kept; [apply mv_nil|].
  assert (After : forall U back, In U known -> okay U -> clean back ->
    moves kept [] (back
      ++ (if (negb (mem S GM_SemiticScripts) && str_eqb U "Arab"%u && nat)
             || mem "arabicRemoveAdditionsPhonetic"%u post
          then PP_arabicRemoveAdditionsPhonetic else [])
      ++ (if nat then
            ApplyScriptDefaults S U post
            ++ (if str_eqb U "Latn"%u then []
                else if str_eqb U "Tamil"%u then PP_RemoveDiacriticsTamil else PP_RemoveDiacritics)
          else [])
      ++ (let mapped := mem "RemoveDiacritics"%u post && str_eqb U "Tamil"%u in
          let post1 := if mapped
            then map (fun x => if str_eqb x "RemoveDiacritics"%u then "RemoveDiacriticsTamil"%u else x) post
            else post in
          let post2 := if mapped then [] else post in
      foreach post1 PP_call
      ++ (if str_eqb S "Tamil"%u && str_eqb U "IPA"%u then [Raise (External "requests.get"%u)] else [])
      ++ (if str_eqb S "Oriya"%u && str_eqb U "IPA"%u then CF_OriyaIPAFix else [])
      ++ PrP_retainLatin true
      ++ PP_defaultPost S U nat pre post2))).
  { intros U back HU OU Hback. apply mv_app with kept; [now apply mv_keep|].
    apply mv_app with kept; [apply mv_keep; apply clean_if; cfleaf|].
    apply mv_app with kept; [apply mv_keep; apply clean_if; [|apply mv_nil]; apply clean_app; [apply clean_defaults|cpieces; cfleaf]|].
    cbv zeta. apply mv_app with kept.
    { apply mv_keep. apply mv_foreach. intros o Ho. change (good_post o).
      destruct (mem "RemoveDiacritics"%u post && str_eqb U "Tamil"%u); [|now apply Hpost].
      apply in_map_iff in Ho as (x & <- & Hx). destruct (str_eqb x "RemoveDiacritics"%u); [exact tamil_good|now apply Hpost]. }
    apply mv_app with kept; [apply mv_if; [apply mv_raise|apply mv_nil]|].
    apply mv_app with kept; [apply mv_keep; apply clean_if; cfleaf|].
    apply mv_app with []; [exact mv_retained|now apply clean_defaultPost]. }
  destruct (str_eqb S old) eqn:E.
  - apply str_eqb_eq in E. destruct Hold as [Hold|[Ho Oo]].
    { exfalso. rewrite Hold in E. rewrite E in HS. discriminate (known_named [] HS). }
    apply After; [exact Ho|exact Oo|]. apply clean_convertScript; [exact devanagari_known|exact Ho|exact Oo].
  - apply After; [exact HT|exact OT|apply mv_nil].
Qed.

(** *** The variants of scripts that options choose *)
Definition fine_variants : list str :=
  ["SiddhamDevanagari"%u; "Lao2"%u; "Devanagari"%u; "Tibetan"%u; "BengaliRaBa"%u; "BalineseSimpleRomanLoC"%u; "JavaneseSimpleRomanLoC"%u].
Lemma fine_variant : forall v, In v fine_variants -> In v known /\ okay v.
Proof.
  intros v H. split; [revert v H; apply sublist; vm_compute; reflexivity|].
  intros B. assert (C : mem v fine_variants = false) by (destruct B as [<-|[<-|[]]]; reflexivity). apply mem_In in H. congruence.
Qed.
Definition var_src (S S' : str) : Prop :=
  S' = S \/ (In S ["Siddham"%u; "Grantha"%u] /\ In S' ["SiddhamDevanagari"%u; "GranthaGrantamil"%u]).
Definition var_tgt (T T' : str) : Prop := T' = T \/ In T' fine_variants.
Lemma let_step_if : forall (A : Type) (P : str -> Prop) (R : A -> Prop) (b : bool) v x (k : str -> A),
  (b = true -> P v) -> P x -> (forall y, P y -> R (k y)) -> R (k (if b then v else x)).
Proof. intros A P R [|] v x k Hv Hx H; auto. Qed.
Ltac ltstep P := lazymatch goal with |- ?R (let y := (if ?b then ?v else ?x) in @?k y) =>
  change (R (k (if b then v else x))); apply (let_step_if _ P R b v x k) end.
Definition var_cases (S T : str) (r : str * str * bool) : Prop := let '(S', T', _) := r in var_src S S' /\ var_tgt T T'.
Lemma var_switch_cases : forall S T nat pre post, ~ (T = "Grantha"%u /\ In "egrantamil"%u post) ->
  var_cases S T (variant_switch S T nat pre post).
Proof.
  intros S T nat pre post NG. cbv beta delta [variant_switch].
  assert (V : forall v, mem v fine_variants = true -> var_tgt T v) by (intros v H; right; now apply mem_In).
  assert (VS : forall o x v y, mem x ["Siddham"%u; "Grantha"%u] = true -> mem v ["SiddhamDevanagari"%u; "GranthaGrantamil"%u] = true ->
    var_src S y -> mem o pre && str_eqb y x = true -> var_src S v).
  { intros o x v y Mx Mv Hy E. apply andb_true_iff in E as [_ E]. apply str_eqb_eq in E. apply mem_In in Mx, Mv.
    destruct Hy as [Hy|[_ Hy]].
    - right. split; [rewrite <- Hy, E; exact Mx|exact Mv].
    - exfalso. rewrite E in Hy. destruct Mx as [<-|[<-|[]]]; apply mem_In in Hy; discriminate Hy. }
  ltstep (var_tgt T); [intros _; apply V; reflexivity|now left|]; cbv beta; intros t1 H1.
  ltstep (var_tgt T); [intros _; apply V; reflexivity|exact H1|]; clear t1 H1; cbv beta; intros t2 H2.
  ltstep (var_src S); [eapply VS; [reflexivity|reflexivity|now left]|now left|]; cbv beta; intros s1 G1.
  ltstep (var_tgt T); [intros _; apply V; reflexivity|exact H2|]; clear t2 H2; cbv beta; intros t3 H3.
  ltstep (var_src S); [eapply VS; [reflexivity|reflexivity|exact G1]|exact G1|]; clear s1 G1; cbv beta; intros s2 G2.
  ltstep (var_tgt T); [|exact H3|].
  { intros E. exfalso. apply andb_true_iff in E as [E1 E2]. apply mem_In in E1. apply str_eqb_eq in E2.
    destruct H3 as [H3|H3]; [apply NG; split; [congruence|exact E1]|]. rewrite E2 in H3. apply mem_In in H3. discriminate H3. }
  clear t3 H3; cbv beta; intros t4 H4.
  ltstep (var_tgt T); [intros _; apply V; reflexivity|exact H4|]; clear t4 H4; cbv beta; intros t5 H5.
  repeat lazymatch goal with |- var_cases S T (let '(_, _) := if ?b then _ else _ in _) => destruct b end;
  (ltstep (var_tgt T); [intros _; apply V; reflexivity|first [exact H5|apply V; reflexivity]|]; clear t5 H5; cbv beta; intros t6 H6;
   ltstep (var_tgt T); [intros _; apply V; reflexivity|exact H6|]; clear t6 H6; cbv beta; intros t7 H7;
   split; assumption).
Qed.
Lemma var_src_fits : forall S S', var_src S S' -> In S known -> In S' known /\ waits S' = waits S /\ removed S' = removed S.
Proof.
  intros S S' [-> | [H H']] HS; [repeat split; exact HS|]. destruct H as [<-|[<-|[]]]; destruct H' as [<-|[<-|[]]];
    (split; [apply mem_In; vm_compute; reflexivity|split; reflexivity]).
Qed.
Lemma good_pre_waits : forall S S' pre, waits S' = waits S -> Forall (good_pre S) pre -> Forall (good_pre S') pre.
Proof. intros S S' pre E. apply Forall_impl. intros o. unfold good_pre. now rewrite E. Qed.

Theorem mv_rest : forall S T old nat pre post, In S known -> In T known -> okay T -> ~ (T = "Grantha"%u /\ In "egrantamil"%u post) ->
  (old = [] \/ In old known /\ okay old) -> Forall (good_pre S) pre -> Forall good_post post ->
  moves (removed S) [] (convert_rest S T old nat pre post).
Proof.
  intros S T old nat pre post HS HT OT NG Hold Hpre Hpost. unfold convert_rest.
  apply mv_app with (removed S).
  { apply (mv_gen _ (warang S)); [apply mv_PreProcess|auto|]. intros c Hc. apply in_or_app. now left. }
  pose proof (var_switch_cases S T nat pre post NG) as V. unfold var_cases in V.
  destruct (variant_switch S T nat pre post) as [[S' T'] nat']. destruct V as [VS VT].
  destruct (var_src_fits S S' VS HS) as (HS' & W & R).
  assert (HT' : In T' known /\ okay T') by (destruct VT as [-> | VT]; [now split|now apply fine_variant]). destruct HT' as [HT' OT'].
  apply mv_app with (removed S); [apply mv_keep; unfold soyombo_mark; apply clean_if; cfleaf|].
  rewrite <- R. apply mv_tail; try assumption. now apply good_pre_waits with S.
Qed.

Lemma danda_good : forall S, good_pre S "RetainDevangariDanda"%u.
Proof. intros S. apply plain_pre_good. vm_compute. reflexivity. Qed.
Lemma pipes_good : good_post "Dot2Pipes"%u.
Proof. apply post_good. apply mem_In. vm_compute. reflexivity. Qed.
Lemma dandas_good : good_post "Dot2Dandas"%u.
Proof. apply post_good. apply mem_In. vm_compute. reflexivity. Qed.
Lemma pipe_flows : forall s, In s GM_pipeScripts -> flows [] [] (PrP_RetainPipeDanda s) = true.
Proof. apply forallb_forall. vm_compute. reflexivity. Qed.

(** What [convert_main] needs of the options, with the names of the scripts as it uses them. *)
Definition ready (S T : str) (nat : bool) (pre post : list str) : Prop :=
  In S known /\ In T known /\ okay T /\ ~ (T = "Grantha"%u /\ In "egrantamil"%u post)
  /\ Forall (good_pre (fst (semitic_switch S T nat))) pre /\ Forall good_post post.
Lemma sem_names_known : forall s, In s sem_names -> In s known /\ okay s /\ s <> "Grantha"%u /\ s <> "WarangCiti"%u /\ s <> "Itrans"%u.
Proof.
  intros s H. split; [revert s H; apply sublist; vm_compute; reflexivity|]. split.
  - intros B. assert (C : mem s sem_names = false) by (destruct B as [<-|[<-|[]]]; reflexivity). apply mem_In in H. congruence.
  - repeat split; intros ->; apply mem_In in H; discriminate H.
Qed.

Theorem mv_main : forall S T nat pre post, ready S T nat pre post -> clean (convert_main (Args S T nat pre post)).
Proof.
  intros S T nat pre post (HS & HT & OT & NG & Hpre & Hpost). unfold convert_main.
  apply clean_if; [apply mv_nil|]. apply clean_if; [apply mv_nil|].
  destruct (semitic_switch_cases S T nat) as [A B]. destruct (semitic_switch S T nat) as [S' T']. cbn [fst snd] in *.
  assert (HS' : In S' known) by (destruct A as [-> | A]; [exact HS|exact (proj1 (sem_names_known _ A))]).
  assert (HT' : In T' known /\ okay T' /\ ~ (T' = "Grantha"%u /\ In "egrantamil"%u post)).
  { destruct B as [-> | B]; [now split|]. apply sem_names_known in B as (B1 & B2 & B3 & _). split; [exact B1|]. split; [exact B2|]. intros [F _]. exact (B3 F). }
  destruct HT' as (HT' & OT' & NG').
  clear A B HS HT OT NG S T.
  assert (Sem : mem S' GM_SemiticScripts = true -> removed S' = default_marks).
  { intros M. unfold removed, settled. destruct (str_eqb S' "Itrans"%u) eqn:E; [apply str_eqb_eq in E; rewrite E in M; discriminate M|].
    unfold warang. destruct (str_eqb S' "WarangCiti"%u) eqn:E'; [apply str_eqb_eq in E'; rewrite E' in M; discriminate M|]. reflexivity. }
  assert (Ap : forall b x, (b = true -> mem S' GM_SemiticScripts = true) -> In x default_marks -> moves (removed S') (removed S') (if b : bool then [Append [x]] else [])).
  { intros [|] x Hb Hx; [|apply mv_nil]. rewrite (Sem (Hb eq_refl)). eapply mv_weak; [intros c Hc; exact Hc| |apply mv_Append].
    intros c Hc. apply add_In in Hc as [Hc|Hc]; [|exact Hc]. apply marks_In in Hc as [[<-|[]] _]. exact Hx. }
  apply mv_weak with (removed S') []; [intros c []|auto|].
  apply mv_app with (removed S').
  { apply Ap; [|right; now left]. intros E. apply andb_true_iff in E as [E _]. apply mem_In in E as [<-|[<-|[]]]; reflexivity. }
  apply mv_app with (removed S').
  { apply Ap; [|now left]. intros E. apply andb_true_iff in E as [E _]. now apply andb_true_iff in E as [_ E]. }
  cbv zeta. clear Ap Sem.
  set (same := str_eqb S' T' && negb (str_eqb S' "Hiragana"%u) && negb (str_eqb S' "Katakana"%u) && negb (mem S' GM_SemiticScripts)).
  set (old := if same then T' else []). set (T := if same then "Devanagari"%u else T').
  assert (Hold : old = [] \/ In old known /\ okay old) by (subst old; destruct same; [right; now split|left; reflexivity]).
  assert (HT : In T known /\ okay T /\ ~ (T = "Grantha"%u /\ In "egrantamil"%u post)).
  { subst T. destruct same; [|now split]. split; [exact devanagari_known|]. split; [|intros [F _]; discriminate F].
    intros F. apply mem_In in F. discriminate F. }
  destruct HT as (HT & OT & NG). clearbody T old. clear same HT' OT' NG'.
  assert (Rest : forall pre post', Forall (good_pre S') pre -> Forall good_post post' -> (In "egrantamil"%u post' -> In "egrantamil"%u post) ->
    moves (removed S') [] (convert_rest S' T old nat pre post')).
  { intros pre1 post1 P1 P2 P3. apply mv_rest; try assumption. intros [F1 F2]. apply NG. split; [exact F1|now apply P3]. }
  apply mv_if; [|now apply Rest].
  assert (Other : moves (removed S') []
    (let! signs := CrunchList "SignMap"%u S' in
     let! danda := idx signs 1 in
     if str_eqb danda "।"%u then convert_rest S' T old nat (pre ++ ["RetainDevangariDanda"%u]) post
     else convert_rest S' T old nat pre (post ++ [if mem T GM_Transliteration then "Dot2Pipes"%u else "Dot2Dandas"%u]))).
  { apply mv_withS. intros signs _. apply mv_withS. intros d _. apply mv_if; apply Rest; try assumption; try auto.
    - apply Forall_app. split; [assumption|]. constructor; [apply danda_good|constructor].
    - apply Forall_app. split; [assumption|]. constructor; [|constructor]. destruct (mem T GM_Transliteration); [exact pipes_good|exact dandas_good].
    - intros F. apply in_app_or in F as [F|[F|[]]]; [exact F|]. destruct (mem T GM_Transliteration); discriminate F. }
  destruct (mem S' GM_pipeScripts) eqn:Ep; [|exact Other].
  eapply mv_weak; [intros c Hc; exact Hc| |apply mv_IfIn; [|exact Other]].
  - intros c Hc. apply add_In in Hc as [Hc|Hc]; exact Hc.
  - apply mv_app with (removed S'); [apply mv_keep; apply (flows_sound [] []); apply pipe_flows; now apply mem_In|].
    apply Rest; auto.
Qed.

(** *** The names of romanizations that are resolved first *)
Definition wider (S S' : str) : Prop := forall c, In c (waits S) -> In c (waits S').
Lemma wider_pre : forall S S' pre, wider S S' -> Forall (good_pre S) pre -> Forall (good_pre S') pre.
Proof. intros S S' pre H. apply Forall_impl. intros o Ho. exact (mv_weak [] [] _ _ _ (fun c Hc => Hc) H Ho). Qed.
Lemma wider_check : forall S S', subset (waits S) (waits S') = true -> wider S S'.
Proof. intros S S' H. exact (subset_In _ _ H). Qed.
Definition widest (S : str) : Prop := semit S = true /\ S <> "Itrans"%u.
Lemma widest_wider : forall S S', widest S' -> wider S S'.
Proof.
  intros S S' [A B] c. apply str_eqb_neq in B. unfold waits, settled. rewrite A, B. rewrite !in_app_iff.
  destruct (str_eqb S "Itrans"%u), (semit S); cbn [In]; tauto.
Qed.
Lemma sem_names_widest : forall s, In s sem_names -> widest s.
Proof. intros s H. destruct H as [<-|[<-|[<-|[<-|[]]]]]; (split; [vm_compute; reflexivity|discriminate]). Qed.
Lemma switch_wider : forall S T nat, wider S (fst (semitic_switch S T nat)).
Proof.
  intros S T nat. destruct (semitic_switch_cases S T nat) as [[-> | A] _]; [intros c Hc; exact Hc|].
  apply widest_wider. now apply sem_names_widest.
Qed.

Definition target_ok (T : str) (post : list str) : Prop := okay T /\ ~ (T = "Grantha"%u /\ In "egrantamil"%u post).
Lemma main_known : forall S T nat pre post, In S known -> In T known -> target_ok T post -> Forall (good_pre S) pre -> Forall good_post post ->
  clean (convert_main (Args S T nat pre post)).
Proof.
  intros S T nat pre post HS HT [OT NG] Hpre Hpost. apply mv_main. unfold ready.
  split; [exact HS|]. split; [exact HT|]. split; [exact OT|]. split; [exact NG|]. split; [|exact Hpost].
  exact (wider_pre _ _ _ (switch_wider S T nat) Hpre).
Qed.

Lemma known_no_iso : forall s, In s known -> no_iso s.
Proof. intros s H. apply not_iso. revert s H. apply (all_not (fun s => mem s iso_keys)). vm_compute. reflexivity. Qed.
Lemma step_no_loc : forall rec S T nat pre post, S <> "RomanLoC"%u -> T <> "RomanLoC"%u ->
  convert_step rec (Args S T nat pre post) = iso_part rec (Args S T nat pre post).
Proof.
  intros rec S T nat pre post HS HT. apply str_eqb_neq in HS, HT. rewrite convert_step_parts.
  assert (E : loc_target_other (loc_target (Args S T nat pre post)) = Args S T nat pre post).
  { unfold loc_target. rewrite HT. cbn [andb]. unfold loc_target_other. rewrite HT. reflexivity. }
  rewrite E. unfold loc_source_mark. rewrite HS. cbn [andb app].
  unfold loc_source. rewrite HS. cbn [andb]. unfold loc_source_other. rewrite HS. reflexivity.
Qed.
Lemma mv_none : forall Y, moves [] Y [].
Proof. intros Y. apply mv_weak with [] []; [auto|intros c []|apply mv_nil]. Qed.

(** No name is a Semitic romanization. *)
Lemma part_known : forall rec S T nat pre post, In S known -> In T known -> target_ok T post -> Forall (good_pre S) pre -> Forall good_post post ->
  clean (iso_part rec (Args S T nat pre post)).
Proof.
  intros rec S T nat pre post HS HT OT Hpre Hpost. unfold iso_part. rewrite (known_no_iso T HT), (known_no_iso S HS).
  cbn [app]. now apply main_known.
Qed.
Lemma n_known : forall n S T nat pre post, In S known -> In T known -> S <> "RomanLoC"%u -> T <> "RomanLoC"%u ->
  target_ok T post -> Forall (good_pre S) pre -> Forall good_post post ->
  clean (convert_n (Datatypes.S n) (Args S T nat pre post)).
Proof. intros. cbn [convert_n]. rewrite step_no_loc; [|assumption|assumption]. now apply part_known. Qed.

Definition vias : list str := ["Hebrew"%u; "Arab"%u; "Arab-Fa"%u].
Lemma iso_vias : forall s, In s iso_keys -> exists v, lookup s GM_semiticISO = Some v /\ In v vias.
Proof.
  intros s H. destruct (iso_cases s H) as [-> | [-> | [-> | ->]]]; eexists; (split; [vm_compute; reflexivity|]); apply mem_In; reflexivity.
Qed.
Lemma via_fits : forall v, In v vias -> In v known /\ v <> "RomanLoC"%u /\ (forall post, target_ok v post)
  /\ widest (fst (semitic_switch v "Latn"%u false)).
Proof.
  intros v H. assert (C : v = "Hebrew"%u \/ v = "Arab"%u \/ v = "Arab-Fa"%u) by (destruct H as [<-|[<-|[<-|[]]]]; tauto).
  split; [revert v H C; intros v H _; revert v H; apply sublist; vm_compute; reflexivity|].
  destruct C as [-> | [-> | ->]]; (split; [discriminate|]; split;
    [intros post; split; [intros F; apply mem_In in F; discriminate F|intros [F _]; discriminate F]|];
    split; [vm_compute; reflexivity|discriminate]).
Qed.
Lemma iso_plain : forall s, In s iso_keys -> s <> "RomanLoC"%u /\ (forall S, S <> "Itrans"%u -> wider s S).
Proof.
  intros s H. assert (W : waits s = kept ++ default_marks).
  { destruct (iso_cases s H) as [-> | [-> | [-> | ->]]]; vm_compute; reflexivity. }
  split; [destruct (iso_cases s H) as [-> | [-> | [-> | ->]]]; discriminate|].
  intros S N c. rewrite W. unfold waits, settled. apply str_eqb_neq in N. rewrite N, !in_app_iff. tauto.
Qed.
Lemma via_not_itrans : forall v, In v vias -> v <> "Itrans"%u.
Proof. apply differs. reflexivity. Qed.
Definition iso_option (o : str) : bool := plain_pre o && flows [] [] (PP_call o) && negb (str_eqb o "egrantamil"%u).
Lemma iso_options : forall s, In s iso_keys -> iso_option (s ++ "Target"%u) = true /\ iso_option (s ++ "Source"%u) = true.
Proof. intros s H. destruct (iso_cases s H) as [-> | [-> | [-> | ->]]]; split; vm_compute; reflexivity. Qed.
Lemma iso_option_good : forall o, iso_option o = true -> (forall S, good_pre S o) /\ good_post o /\ o <> "egrantamil"%u.
Proof.
  intros o H. unfold iso_option in H. apply andb_true_iff in H as [H C]. apply andb_true_iff in H as [A B].
  split; [intros S; now apply plain_pre_good|]. split; [exact (flows_sound _ _ _ B)|]. apply negb_true_iff in C. now apply str_eqb_neq.
Qed.
Lemma target_ok_cons : forall T o post, o <> "egrantamil"%u -> target_ok T post -> target_ok T ([o] ++ post).
Proof.
  intros T o post N [A B]. split; [exact A|]. intros [F [G|G]]; [exact (N G)|]. apply B. now split.
Qed.
Lemma latn_known : In "Latn"%u known.
Proof. apply mem_In. vm_compute. reflexivity. Qed.
Lemma latn_ok : forall post, target_ok "Latn"%u post.
Proof. intros post. split; [intros F; apply mem_In in F; discriminate F|intros [F _]; discriminate F]. Qed.

Lemma part_own : forall rec S T nat pre post, In S iso_keys -> lookup S GM_semiticISO = Some T -> In T vias ->
  Forall (good_pre S) pre -> Forall good_post post -> clean (iso_part rec (Args S T nat pre post)).
Proof.
  intros rec S T nat pre post HS E HT Hpre Hpost. destruct (via_fits T HT) as (KT & _ & OT & _). destruct (iso_plain S HS) as (_ & HW).
  unfold iso_part. rewrite (known_no_iso T KT), E, str_eqb_refl. cbn [app].
  destruct (iso_option_good _ (proj2 (iso_options S HS))) as (O1 & O2 & O3).
  refine (main_known "Latn"%u T nat _ _ latn_known KT (OT _) _ _).
  - constructor; [apply O1|]. apply (wider_pre S); [apply HW; discriminate|exact Hpre].
  - now constructor.
Qed.
Lemma n_own : forall n S T nat pre post, In S iso_keys -> lookup S GM_semiticISO = Some T -> In T vias ->
  Forall (good_pre S) pre -> Forall good_post post -> clean (convert_n (Datatypes.S n) (Args S T nat pre post)).
Proof.
  intros. cbn [convert_n]. rewrite step_no_loc; [now apply part_own|now apply iso_plain|now apply via_fits].
Qed.
Lemma part_iso_source : forall n S T nat pre post, In S iso_keys -> In T known -> target_ok T post ->
  Forall (good_pre S) pre -> Forall good_post post -> clean (iso_part (convert_n (Datatypes.S n)) (Args S T nat pre post)).
Proof.
  intros n S T nat pre post HS HT OT Hpre Hpost. destruct (iso_vias S HS) as (v & E & Hv).
  destruct (str_eqb v T) eqn:EV.
  { apply str_eqb_eq in EV. rewrite <- EV. now apply part_own. }
  destruct (via_fits v Hv) as (Kv & Nv & _ & _). destruct (iso_plain S HS) as (_ & HW).
  unfold iso_part. rewrite (known_no_iso T HT), E, EV. cbn [app]. apply mv_app with []; [now apply n_own|].
  apply main_known; try assumption. apply (wider_pre S); [apply HW; now apply via_not_itrans|exact Hpre].
Qed.
Lemma n_iso_source : forall n S T nat pre post, In S iso_keys -> In T known -> T <> "RomanLoC"%u -> target_ok T post ->
  Forall (good_pre S) pre -> Forall good_post post -> clean (convert_n (Datatypes.S (Datatypes.S n)) (Args S T nat pre post)).
Proof.
  intros n S T nat pre post HS HT NT OT Hpre Hpost.
  change (clean (convert_step (convert_n (Datatypes.S n)) (Args S T nat pre post))).
  rewrite step_no_loc; [now apply part_iso_source|now apply iso_plain|exact NT].
Qed.
Lemma part_iso_target : forall n S T nat pre post, (In S known /\ S <> "RomanLoC"%u) \/ In S iso_keys -> In T iso_keys ->
  Forall (good_pre S) pre -> Forall good_post post ->
  clean (iso_part (convert_n (Datatypes.S (Datatypes.S n))) (Args S T nat pre post)).
Proof.
  intros n S T nat pre post HS HT Hpre Hpost. destruct (iso_vias T HT) as (v & E & Hv).
  destruct (via_fits v Hv) as (Kv & Nv & Ov & Fv). unfold iso_part. rewrite E, (known_no_iso v Kv). cbn [app].
  destruct (iso_option_good _ (proj1 (iso_options T HT))) as (O1 & O2 & O3).
  apply clean_app.
  { apply mv_if; [apply mv_none|]. destruct HS as [[HS NS]|HS].
    - apply n_known; try assumption. apply Ov.
    - apply n_iso_source; try assumption. apply Ov. }
  apply mv_main. unfold ready.
  split; [exact Kv|]. split; [exact latn_known|]. destruct (latn_ok ([T ++ "Target"%u] ++ post)) as [L1 L2].
  split; [exact L1|]. split; [exact L2|]. split.
  - constructor; [apply O1|]. exact (wider_pre S _ _ (widest_wider _ _ Fv) Hpre).
  - now constructor.
Qed.

Definition named_ok (S : str) : Prop := In S known \/ In S iso_keys.
(** Once RomanLoC is resolved; it can only remain as the other name of a Batak script. *)
Theorem part_all : forall S T nat pre post, named_ok S -> named_ok T -> target_ok T post ->
  (In S iso_keys \/ In T iso_keys -> S <> "RomanLoC"%u) -> Forall (good_pre S) pre -> Forall good_post post ->
  clean (iso_part (convert_n 2) (Args S T nat pre post)).
Proof.
  intros S T nat pre post HS HT OT HN Hpre Hpost. destruct HT as [HT|HT].
  - destruct HS as [HS|HS]; [now apply part_known|]. now apply part_iso_source.
  - apply part_iso_target; try assumption. destruct HS as [HS|HS]; [left; split; [exact HS|apply HN; now right]|now right].
Qed.

(** *** RomanLoC *)
Definition clean_post (o : str) : bool := flows [] [] (PP_call o) && negb (str_eqb o "egrantamil"%u).
Definition loc_fit (S T : str) (a : args) : bool :=
  mem (a_src a) known && mem (a_tgt a) known && negb (mem (a_tgt a) banned)
  && (negb (str_eqb (a_tgt a) "Grantha"%u) || str_eqb T "Grantha"%u)
  && subset (waits S) (waits (a_src a))
  && forallb plain_pre (a_pre a) && forallb clean_post (a_post a).
Lemma loc_fits : forall S T a, loc_fit S T a = true ->
  In (a_src a) known /\ In (a_tgt a) known /\ wider S (a_src a)
  /\ (forall U, Forall (good_pre U) (a_pre a)) /\ Forall good_post (a_post a)
  /\ (forall post, ~ (T = "Grantha"%u /\ In "egrantamil"%u post) -> target_ok (a_tgt a) (a_post a ++ post)).
Proof.
  intros S T [S' T' nat pre post]. unfold loc_fit. cbn [a_src a_tgt a_nat a_pre a_post]. generalize known. intros l H.
  repeat (apply andb_true_iff in H as [H ?]). repeat match goal with Q : mem _ l = true |- _ => apply mem_In in Q end.
  split; [assumption|]. split; [assumption|]. split; [now apply wider_check|].
  split; [intros U; apply Forall_forall; intros o Ho; apply plain_pre_good; match goal with Q : forallb plain_pre _ = true |- _ => rewrite forallb_forall in Q; now apply Q end|].
  match goal with Q : forallb clean_post _ = true |- _ => rewrite forallb_forall in Q; rename Q into C end.
  split.
  - apply Forall_forall. intros o Ho. specialize (C o Ho). unfold clean_post in C. apply andb_true_iff in C as [C _]. exact (flows_sound _ _ _ C).
  - intros post' N. split; [apply mem_false; now apply negb_true_iff|]. intros [E F]. apply in_app_or in F as [F|F].
    + specialize (C _ F). discriminate C || (unfold clean_post in C; rewrite str_eqb_refl, andb_false_r in C; discriminate).
    + apply N. split; [|exact F]. match goal with Q : negb (str_eqb T' _) || _ = true |- _ => rewrite E, str_eqb_refl in Q; now apply str_eqb_eq in Q end.
Qed.
Definition tgt_fit (nat : bool) (S : str) : bool :=
  let a := loc_target (Args S "RomanLoC"%u nat [] []) in
  loc_fit S "RomanLoC"%u a && negb (str_eqb (a_src a) "RomanLoC"%u)
  && negb (str_eqb (a_tgt a) "RomanLoC"%u && negb (mem (a_src a) GM_LoCScripts)).
Definition src_fit (nat : bool) (T : str) : bool :=
  let a := loc_source (Args "RomanLoC"%u T nat [] []) in
  loc_fit "RomanLoC"%u T a && negb (str_eqb (a_src a) "RomanLoC"%u && negb (mem (a_tgt a) GM_LoCScripts)).
Lemma tgt_fits : forall nat S, In S GM_LoCScripts -> tgt_fit nat S = true.
Proof.
  intros [|].
  - apply (proj1 (forallb_forall (tgt_fit true) GM_LoCScripts)). vm_compute. reflexivity.
  - apply (proj1 (forallb_forall (tgt_fit false) GM_LoCScripts)). vm_compute. reflexivity.
Qed.
Lemma src_fits : forall nat S, In S GM_LoCScripts -> src_fit nat S = true.
Proof.
  intros [|].
  - apply (proj1 (forallb_forall (src_fit true) GM_LoCScripts)). vm_compute. reflexivity.
  - apply (proj1 (forallb_forall (src_fit false) GM_LoCScripts)). vm_compute. reflexivity.
Qed.
Lemma loc_known : forall s, In s GM_LoCScripts -> In s known.
Proof. apply sublist. vm_compute. reflexivity. Qed.
Lemma iso_known : In "ISO"%u known.
Proof. apply mem_In. vm_compute. reflexivity. Qed.
Lemma romanloc_known : In "RomanLoC"%u known.
Proof. apply mem_In. vm_compute. reflexivity. Qed.
Lemma iso_ok : forall post, target_ok "ISO"%u post.
Proof. intros post. split; [intros F; apply mem_In in F; discriminate F|intros [F _]; discriminate F]. Qed.
Lemma iso233_ok : forall post, target_ok "ISO233"%u post.
Proof. intros post. split; [intros F; apply mem_In in F; discriminate F|intros [F _]; discriminate F]. Qed.
Lemma romanloc_wider : wider "RomanLoC"%u "ISO"%u /\ wider "RomanLoC"%u "ISO233"%u.
Proof. split; apply wider_check; vm_compute; reflexivity. Qed.

Lemma source_done : forall rec S T nat pre post, S <> "RomanLoC"%u ->
  let a := Args S T nat pre post in loc_source_mark a ++ iso_part rec (loc_source_other (loc_source a)) = iso_part rec a.
Proof.
  intros rec S T nat pre post N. cbv zeta. apply str_eqb_neq in N. unfold loc_source_mark, loc_source. rewrite N. cbn [andb app].
  unfold loc_source_other. rewrite N. reflexivity.
Qed.

Theorem mv_convert : forall S T nat pre post, named_ok S -> named_ok T -> target_ok T post ->
  Forall (good_pre S) pre -> Forall good_post post -> clean (convert_prog S T nat pre post).
Proof.
  intros S T nat pre post HS HT OT Hpre Hpost. unfold convert_prog.
  change (clean (convert_step (convert_n 2) (Args S T nat pre post))). rewrite convert_step_parts.
  destruct (str_eqb T "RomanLoC"%u) eqn:ET.
  - apply str_eqb_eq in ET. rewrite ET in *. clear ET T. destruct (mem S GM_LoCScripts) eqn:ML.
    + apply mem_In in ML. pose proof (tgt_fits nat S ML) as C. unfold tgt_fit in C. cbv zeta in C.
      rewrite (loc_target_frame S nat pre post). cbv zeta. revert C. generalize (loc_target (Args S "RomanLoC"%u nat [] [])). intros a C.
      apply andb_true_iff in C as [C C2]. apply andb_true_iff in C as [C C1]. apply loc_fits in C as (A1 & A2 & A3 & A5 & A6 & A7).
      apply negb_true_iff in C1, C2. apply str_eqb_neq in C1. destruct a as [S' T' nat' P Q]. cbn [a_src a_tgt a_nat a_pre a_post] in *.
      unfold loc_target_other. rewrite C2. rewrite (source_done _ S' T' nat' (pre ++ P) (Q ++ post) C1).
      apply part_all; [now left|now left| |auto| |].
      * apply A7. intros [F _]. discriminate F.
      * apply Forall_app. split; [exact (wider_pre _ _ _ A3 Hpre)|apply A5].
      * apply Forall_app. now split.
    + assert (E : loc_target (Args S "RomanLoC"%u nat pre post) = Args S "RomanLoC"%u nat pre post).
      { unfold loc_target. rewrite ML, andb_false_r. reflexivity. }
      rewrite E. unfold loc_target_other. rewrite ML, str_eqb_refl. cbn [andb negb]. clear E.
      destruct (str_eqb S "RomanLoC"%u) eqn:ES.
      * apply str_eqb_eq in ES. rewrite ES in *. assert (M : mem "RomanLoC"%u GM_SemiticScripts = false) by (vm_compute; reflexivity). rewrite M.
        assert (E1 : loc_source_mark (Args "RomanLoC"%u "ISO"%u nat pre post) = []) by (vm_compute; reflexivity).
        assert (E2 : loc_source_other (loc_source (Args "RomanLoC"%u "ISO"%u nat pre post)) = Args "ISO"%u "ISO"%u nat pre post)
          by (vm_compute; reflexivity).
        rewrite E1, E2. cbn [app]. apply (part_all "ISO"%u "ISO"%u nat pre post); [left; exact iso_known|left; exact iso_known|apply iso_ok|discriminate| |exact Hpost].
        exact (wider_pre _ _ _ (proj1 romanloc_wider) Hpre).
      * apply str_eqb_neq in ES. destruct (mem S GM_SemiticScripts).
        { rewrite (source_done _ S "ISO233"%u nat pre post ES). apply part_all; auto; [right; exact iso233_key|apply iso233_ok]. }
        { rewrite (source_done _ S "ISO"%u nat pre post ES). apply part_all; auto; [left; exact iso_known|apply iso_ok]. }
  - assert (E : loc_target_other (loc_target (Args S T nat pre post)) = Args S T nat pre post).
    { unfold loc_target. rewrite ET. cbn [andb]. unfold loc_target_other. rewrite ET. reflexivity. }
    rewrite E. clear E. destruct (str_eqb S "RomanLoC"%u) eqn:ES.
    + apply str_eqb_eq in ES. rewrite ES in *. clear ES S.
      apply mv_app with []; [unfold loc_source_mark; apply mv_if; fleaf|].
      destruct (mem T GM_LoCScripts) eqn:ML.
      * apply mem_In in ML. pose proof (src_fits nat T ML) as C. unfold src_fit in C. cbv zeta in C.
        destruct (loc_source_frame T nat pre post) as (pre' & Hpre' & ->). revert Hpre' C.
        generalize (loc_source (Args "RomanLoC"%u T nat [] [])). intros a Hpre' C.
        apply andb_true_iff in C as [C C2]. apply loc_fits in C as (A1 & A2 & A3 & A5 & A6 & A7). apply negb_true_iff in C2.
        destruct a as [S' T' nat' P Q]. cbn [a_src a_tgt a_nat a_pre a_post] in *. unfold loc_source_other. rewrite C2.
        apply part_all; [now left|now left| | | |].
        { apply A7. exact (proj2 OT). }
        { intros [F|F]; [apply known_no_iso in A1|apply known_no_iso in A2];
            destruct (iso_vias _ F) as (v & E & _); unfold no_iso in *; congruence. }
        { destruct Hpre' as [-> | ->]; apply Forall_app; split; first [exact (wider_pre _ _ _ A3 Hpre)|apply A5]. }
        { apply Forall_app. now split. }
      * assert (E1 : loc_source (Args "RomanLoC"%u T nat pre post) = Args "RomanLoC"%u T nat pre post).
        { unfold loc_source. rewrite ML, andb_false_r. reflexivity. }
        rewrite E1. unfold loc_source_other. rewrite ML, str_eqb_refl. cbn [andb negb].
        destruct (mem T GM_SemiticScripts).
        { apply (part_all "ISO233"%u T nat pre post); [right; exact iso233_key|exact HT|exact OT|discriminate|exact (wider_pre _ _ _ (proj2 romanloc_wider) Hpre)|exact Hpost]. }
        { apply (part_all "ISO"%u T nat pre post); [left; exact iso_known|exact HT|exact OT|discriminate|exact (wider_pre _ _ _ (proj1 romanloc_wider) Hpre)|exact Hpost]. }
    + apply str_eqb_neq in ES. rewrite (source_done _ S T nat pre post ES). now apply part_all.
Qed.

(** ** The theorem *)
Lemma supported_named : forall s, In s supported -> named_ok s.
Proof.
  intros s H. unfold supported in H. apply in_app_or in H as [H|H]; [left; apply in_or_app; now left|].
  apply in_app_or in H as [H|H]; [left; apply in_or_app; right; apply in_or_app; now left|].
  apply in_app_or in H as [H|H]; [left; apply in_or_app; right; apply in_or_app; now right|]. now right.
Qed.
Lemma fitting_good : forall S pre, (forall o, In o pre -> In o PrP_names) -> fitting S pre -> Forall (good_pre S) pre.
Proof.
  intros S pre N [F1 F2]. apply Forall_forall. intros o Ho. apply pre_good; [now apply N| |].
  - intros L. destruct (F1 o L Ho) as (A & B & C). unfold semit. apply mem_In in A. apply str_eqb_neq in B, C. now rewrite A, B, C.
  - intros M. now apply (F2 o).
Qed.

(** C27: whatever the text, a character of the result that the conversion uses for itself was in the
    text already. *)
Theorem no_marker_leaks : forall S T txt nat pre post r,
  In S supported -> In T supported -> ~ private_alphabet T post ->
  (forall o, In o pre -> In o PrP_names) -> (forall o, In o post -> In o PP_names) -> fitting S pre ->
  convert S T txt nat pre post = Ok r ->
  forall c, In c r -> internal c -> In c txt.
Proof.
  intros S T txt nat pre post r HS HT NP Npre Npost F E c Hc I.
  assert (OT : target_ok T post).
  { split; [|intros H; apply NP; right; now right]. intros B. apply NP. destruct B as [<-|[<-|[]]]; [now left|right; now left]. }
  assert (M : clean (convert_prog S T nat pre post)).
  { apply mv_convert; [now apply supported_named|now apply supported_named|exact OT|now apply fitting_good|].
    apply Forall_forall. intros o Ho. apply post_good. now apply Npost. }
  assert (W : Forall (within txt []) txt) by (apply Forall_forall; intros d Hd _; now left).
  specialize (M txt txt r W E). rewrite Forall_forall in M. destruct (M c Hc (internal_marker c I)) as [Q|[]]. exact Q.
Qed.

Section Public.
Variable uname : N -> option str.
Variable uscript : N -> str.
Variable lfind : str -> res str.

(** C27 for [transliterate.process]: names and options in any case, unknown options do not matter. *)
Theorem process_no_marker_leaks : forall src tgt txt nat pre post r,
  src <> "autodetect"%u -> In (canonical_name src) supported -> In (canonical_name tgt) supported ->
  ~ private_alphabet (canonical_name tgt) (resolve_options PP_names post) ->
  fitting (canonical_name src) (resolve_options PrP_names pre) ->
  snd (process uname uscript lfind src tgt txt nat post pre "default"%u) = Ok r ->
  forall c, In c r -> internal c -> In c txt.
Proof.
  intros src tgt txt nat pre post r Ha HS HT NP F E. unfold process in E. rewrite str_eqb_refl in E.
  rewrite process_default_known in E by assumption. rewrite convert_default_value in E.
  refine (no_marker_leaks _ _ txt nat _ _ r HS HT NP _ _ F E); intros o Ho; now apply resolve_in in Ho as [Ho _].
Qed.
(** Without options. *)
Corollary process_no_marker_leaks_plain : forall src tgt txt nat r,
  src <> "autodetect"%u -> In (canonical_name src) supported -> In (canonical_name tgt) supported ->
  canonical_name tgt <> "Inter"%u -> canonical_name tgt <> "GranthaGrantamil"%u ->
  snd (process uname uscript lfind src tgt txt nat [] [] "default"%u) = Ok r ->
  forall c, In c r -> internal c -> In c txt.
Proof.
  intros src tgt txt nat r Ha HS HT N1 N2 E c Hc I.
  apply (process_no_marker_leaks src tgt txt nat [] [] r Ha HS HT) with (c := c); try assumption.
  - intros [H|[H|[_ []]]]; [exact (N1 H)|exact (N2 H)].
  - split; intros o _ [].
Qed.
End Public.

(** ** The hypotheses can be met, and are needed *)
Example leak_case : In "SogdReshAyin"%u letter_options /\ In "SogdReshAyin"%u PrP_names
  /\ In "Sogd"%u supported /\ In "Devanagari"%u supported
  /\ ~ private_alphabet "Devanagari"%u [] /\ fitting "Sogd"%u ["SogdReshAyin"%u]
  /\ exists r, convert "Sogd"%u "Devanagari"%u "𐼰𐽀𐼹"%u true ["SogdReshAyin"%u] [] = Ok r /\ r <> [].
Proof.
  split; [apply mem_In; vm_compute; reflexivity|]. split; [apply mem_In; vm_compute; reflexivity|].
  split; [apply mem_In; vm_compute; reflexivity|]. split; [apply mem_In; vm_compute; reflexivity|].
  split; [intros [H|[H|[H _]]]; discriminate H|]. split.
  - split; [intros o _ _; split; [apply mem_In; vm_compute; reflexivity|split; discriminate]|intros o _ _; discriminate].
  - eexists. split; [vm_compute; reflexivity|discriminate].
Qed.
(** The conversion does use markers on the way: the text is taken apart into them and put together
    again, e.g. from IAST. *)
Example marks_inside : exists s, run (convertInter "IAST"%u) "ka"%u = Ok s /\ exists c, In c s /\ internal c.
Proof. eexists. split; [vm_compute; reflexivity|]. eexists. split; [left; reflexivity|]. left. split; vm_compute; discriminate. Qed.

Definition leaks (S T txt : str) (nat : bool) (pre post : list str) : Prop :=
  exists r c, convert S T txt nat pre post = Ok r /\ In c r /\ internal c /\ ~ In c txt.
Lemma leaks_check : forall S T txt nat pre post c,
  (match convert S T txt nat pre post with Ok r => memN c r && negb (memN c txt) | Err _ => false end) = true ->
  internal c -> leaks S T txt nat pre post.
Proof.
  intros S T txt nat pre post c H I. destruct (convert S T txt nat pre post) as [r|] eqn:E; [|discriminate].
  apply andb_true_iff in H as [A B]. apply memN_In in A. apply negb_true_iff in B. exists r, c. split; [exact E|]. split; [exact A|]. split; [exact I|].
  intros F. apply memN_In in F. congruence.
Qed.
(** A letter option with a source script that is not Semitic. *)
Theorem letter_option_leaks_refuted : leaks "Devanagari"%u "IAST"%u "𐽀"%u false ["SogdReshAyin"%u] [].
Proof. apply (leaks_check _ _ _ _ _ _ 0xEA01); [vm_compute; reflexivity|]. left. split; vm_compute; discriminate. Qed.
(** A marking option with Itrans, whose text between ## is not converted. *)
Theorem marking_option_leaks_refuted : leaks "Itrans"%u "IAST"%u "a##a"%u false ["AlephMaterLectionis"%u] [].
Proof. apply (leaks_check _ _ _ _ _ _ 0x5CD); [vm_compute; reflexivity|]. right. left. split; vm_compute; discriminate. Qed.
(** The Grantamil variant of Grantha writes short e with a private use character. *)
Theorem private_alphabet_leaks_refuted : leaks "Devanagari"%u "Grantha"%u "ऎ"%u false [] ["egrantamil"%u].
Proof. apply (leaks_check _ _ _ _ _ _ 0xE014); [vm_compute; reflexivity|]. left. split; vm_compute; discriminate. Qed.
