(** * Foreign characters survive every conversion (property C07). *)
From Coq Require Import List NArith ZArith Bool Lia Permutation.
From Verif Require Import PyStr StrFacts UnicodeTables Regex Unicode Prog GMLists GeneralMap FixNum
  PostProcess1 ConvertFix1 PreProcess1 PostProcess2 GimelData Gimeltra Convert Dispatch YamlData Transliterate
  AbsRegex NormCut SortFacts TableFacts SafeFacts ApiFacts TotalFacts Marks MarkFacts MarkLeak Keeps KeepFacts.
Import ListNotations.
Local Open Scope N_scope.

(** ** The other stages *)
Definition kb : prog -> Prop := keeps barred.
Lemma kb_check : forall p, keep barred p = true -> kb p.
Proof. exact (keep_sound barred fits_barred). Qed.
Lemma kb_nil : kb [].
Proof. apply keeps_nil. Qed.
Lemma kb_app : forall p q, kb p -> kb q -> kb (p ++ q).
Proof. exact (keeps_app barred). Qed.
Lemma kb_if : forall (b : bool) p q, kb p -> kb q -> kb (if b then p else q).
Proof. exact (keeps_if barred). Qed.
Lemma kb_withS : forall (X : Type) (r : res X) f, (forall a, r = Ok a -> kb (f a)) -> kb (withS r f).
Proof. exact (keeps_withS barred). Qed.
Lemma kb_foreach : forall (X : Type) (l : list X) f, (forall x, In x l -> kb (f x)) -> kb (foreach l f).
Proof. exact (keeps_foreach barred). Qed.
Lemma kb_IfIn : forall x p q, kb p -> kb q -> kb [IfIn x p q].
Proof. exact (keeps_IfIn barred). Qed.
Ltac bleaf := apply kb_check; vm_compute; reflexivity.
Ltac bpieces := repeat lazymatch goal with
  | |- kb (_ ++ _) => apply kb_app
  | |- kb (if _ then _ else _) => apply kb_if
  | |- kb [IfIn _ _ _] => apply kb_IfIn
  end.

(** The options that lose or move characters next to certain signs (PostProcess.py:1625, 3467). *)
Definition lossy_post : list str := ["TaiThamMoveNnga"%u; "TakriRemoveGemination"%u].
Definition by_hand : list str := ["capitalizeSentence"%u; "GranthaPrakrit"%u].
Definition b_pre (o : str) : bool := keep barred (PrP_call o).
Definition b_post (o : str) : bool := if mem o (lossy_post ++ by_hand) then true else keep barred (PP_call o).
Lemma b_pres : forall o, In o PrP_names -> b_pre o = true.
Proof. apply forallb_forall. vm_compute. reflexivity. Qed.
Lemma b_posts : forall o, In o PP_names -> b_post o = true.
Proof. apply forallb_forall. vm_compute. reflexivity. Qed.
Lemma barred_upper : forallb (fun p => hush barred (fst p) && hushed barred (snd p)) upper_table = true.
Proof. vm_compute. reflexivity. Qed.
Lemma kb_fun : forall p f, (forall pr, (forall c, hush barred c = true -> pr c = []) -> forall r g, compile p = Some (r, g) -> faithful pr r f) ->
  kb [Fn (re_sub_fun p f)].
Proof.
  intros p f H. apply (keeps_one barred). intros s r E. cbn [run_op] in E. unfold re_sub_fun in E.
  destruct (compile p) as [[q g]|] eqn:C; [|discriminate]. match type of E with Ok ?x = Ok _ => assert (r = x) as -> by congruence end.
  apply (both barred fits_barred). intros pr Hpr. unfold sub_with. exact (sub_go_faithful barred (fits_sound barred fits_barred) pr Hpr q f (H pr Hpr q g eq_refl) s [] 0%nat).
Qed.
Lemma kb_capitalize : kb PP_capitalizeSentence.
Proof.
  assert (U : forall pr, (forall c, hush barred c = true -> pr c = []) -> forall x, pj pr (py_upper x) = pj pr x)
    by (intros pr Hpr; exact (upper_keeps barred pr Hpr barred_upper)).
  unfold PP_capitalizeSentence. apply kb_app; apply kb_fun; intros pr Hpr r g C.
  - apply (then_faithful pr r (grp 0) py_upper); [|now apply U]. exact (whole_faithful barred (fits_sound barred fits_barred) pr Hpr r).
  - intros must b s s' H.
    assert (K : match compile "(@)(.)"%u with Some (r, _) => keeps_re barred r [TGroup 2] | None => true end = true) by (vm_compute; reflexivity).
    rewrite C in K. destruct (expand_keeps barred (fits_sound barred fits_barred) pr Hpr r [TGroup 2] K must b s s' H) as (u & A & E).
    exists u. split; [exact A|]. rewrite U by exact Hpr. rewrite <- E. unfold expand, grp. cbn [flat_map]. now rewrite app_nil_r.
Qed.
Lemma kb_reduce : forall pat p, kb p -> kb [Fn (reduce_findall pat (run p))].
Proof.
  intros pat p Hp. apply (keeps_one barred). intros s r E. cbn [run_op] in E. unfold reduce_findall in E.
  destruct (compile pat) as [[q g]|]; [|discriminate].
  assert (Er : forall l e r, fold_left (fun acc m => do s <- acc; do y <- run p m; Ok (replace m y s)) l (Err e) = Ok r -> False).
  { induction l as [|n l IH]; intros e r' H; cbn [fold_left rbind] in H; [discriminate|exact (IH e r' H)]. }
  split.
  - revert E. generalize (findall_go q [] 0 s) as l. intros l. revert s.
    induction l as [|m l IH]; intros s E; cbn [fold_left] in E; [now assert (s = r) as <- by congruence|].
    cbn [rbind] in E. destruct (run p m) as [y|e] eqn:Ey; cbn [rbind] in E; [|destruct (Er _ _ _ E)].
    rewrite (IH _ E). apply replace_keeps. exact (proj1 (Hp m y Ey)).
  - intros Hs. apply pj2_nil in Hs. apply pj2_nil.
    assert (F : Forall (Forall (fun c => compat c = false)) (findall_go q [] 0 s)) by (apply findall_good; [constructor|exact Hs]).
    revert E F. generalize (findall_go q [] 0 s) as l. intros l. revert s Hs.
    induction l as [|m l IH]; intros s W E F; cbn [fold_left] in E; [assert (s = r) as <- by congruence; exact W|].
    inversion F as [|? ? Fm Fl]; subst. cbn [rbind] in E. destruct (run p m) as [y|e] eqn:Ey; cbn [rbind] in E; [|destruct (Er _ _ _ E)].
    refine (IH _ _ E Fl). clear IH E. apply pj2_nil in Fm. apply (proj2 (Hp m y Ey)) in Fm. apply pj2_nil in Fm.
    rewrite Forall_forall in *. intros c Hc. apply replace_chars in Hc as [Hc|Hc]; [exact (W c Hc)|exact (Fm c Hc)].
Qed.
Lemma kb_Prakrit : kb PP_GranthaPrakrit.
Proof.
  unfold PP_GranthaPrakrit. assert (R : kb (PP_ReverseGeminationSign "Grantha"%u)) by bleaf.
  apply kb_app; [bleaf|]. apply kb_app; [bleaf|]. apply (keeps_cons barred); now apply kb_reduce.
Qed.
Definition good_pre (o : str) : Prop := kb (PrP_call o).
Definition good_post (o : str) : Prop := kb (PP_call o).
Lemma pre_good : forall o, In o PrP_names -> good_pre o.
Proof. intros o H. exact (kb_check _ (b_pres o H)). Qed.
Lemma post_good : forall o, In o PP_names -> ~ In o lossy_post -> good_post o.
Proof.
  intros o H N. pose proof (b_posts o H) as K. unfold b_post in K. destruct (mem o (lossy_post ++ by_hand)) eqn:E; [|exact (kb_check _ K)].
  apply mem_In in E. apply in_app_or in E as [E|E]; [contradiction|]. destruct E as [<-|[<-|[]]]; [exact kb_capitalize|exact kb_Prakrit].
Qed.

Lemma kb_defaults : forall S T post, kb (ApplyScriptDefaults S T post).
Proof.
  intros S T post. unfold ApplyScriptDefaults, default_options.
  repeat lazymatch goal with
  | |- kb (foreach (if str_eqb T ?x then _ else _) _) =>
      let E := fresh in destruct (str_eqb T x) eqn:E;
      [apply str_eqb_eq in E; rewrite E;
       repeat lazymatch goal with |- kb (foreach (if ?b then _ else _) _) => destruct b end; bleaf
      |clear E]
  | |- kb (foreach [] _) => apply kb_nil
  end.
Qed.
Lemma kb_normalize : forall S, kb (PrP_normalize S).
Proof. intros S. unfold PrP_normalize. cbv zeta. bpieces; bleaf. Qed.
Lemma kb_PreProcess : forall S T post pre, kb (PrP_PreProcess S T post pre).
Proof.
  intros S T post pre. unfold PrP_PreProcess.
  repeat lazymatch goal with |- kb (_ ++ _) => apply kb_app; [lazymatch goal with
    | |- kb (PrP_normalize _) => apply kb_normalize
    | |- kb (if str_eqb S "Itrans"%u then _ else _) =>
        let E := fresh in destruct (str_eqb S "Itrans"%u) eqn:E; [apply str_eqb_eq in E; rewrite E; bleaf|apply kb_nil]
    | |- _ => cbv zeta; bpieces; bleaf
    end|] end.
  apply kb_if; [|apply kb_nil]. cbv zeta. apply kb_withS. intros a Ea. apply kb_withS. intros b Eb.
  apply kb_withS. intros x Ex. apply kb_withS. intros y Ey. apply kb_if; [|apply kb_nil].
  apply (keeps_Replace barred fits_barred). intros pr Hpr. rewrite !pj_app. cbn [pj flat_map app]. rewrite (Hpr 0x200B eq_refl). now rewrite app_nil_r.
Qed.
Definition num_b (T : str) : bool :=
  keep barred (PP_RetainIndicNumerals T true) && keep barred (PP_RetainIndicNumerals T false) && keep barred (PP_RetainDandasIndic T true).
Lemma num_bs : forall T, In T known -> num_b T = true.
Proof. apply forallb_forall. vm_compute. reflexivity. Qed.
Lemma kb_defaultPost : forall S T nat pre post, In T known -> kb (PP_defaultPost S T nat pre post).
Proof.
  intros S T nat pre post HT. pose proof (num_bs T HT) as C. unfold num_b in C. bools.
  unfold PP_defaultPost. bpieces; first [apply kb_check; assumption|bleaf].
Qed.

Lemma kb_convertScript : forall S T, gentle S T = true -> In S known -> kb (convertScript S T).
Proof. intros S T G HS. apply A_barred. now apply kp_convertScript. Qed.
Lemma kb_text : forall S T, gentle S T = true -> In S known -> kb (convert_text S T).
Proof.
  intros S T G HS. unfold convert_text. apply kb_if; [|now apply kb_convertScript].
  apply kb_IfIn; [|now apply kb_convertScript]. apply (keeps_EvenParts barred fits_barred); [reflexivity|discriminate|now apply kb_convertScript].
Qed.

Lemma tamil_good : good_post "RemoveDiacriticsTamil"%u.
Proof. unfold good_post. bleaf. Qed.
Theorem kb_tail : forall S T old nat pre post, In S known -> In T known -> gentle S T = true ->
  (old = [] \/ In old known /\ gentle "Devanagari"%u old = true) ->
  Forall good_pre pre -> Forall good_post post -> kb (convert_tail S T old nat pre post).
Proof.
  intros S T old nat pre post HS HT G Hold Hpre Hpost. unfold convert_tail.
  rewrite (not_kanas S HS), (not_kanas T HT). rewrite Forall_forall in Hpre, Hpost. cbv zeta.
  apply kb_app; [now apply kb_foreach|]. apply kb_app; [apply kb_if; bleaf|]. apply kb_app; [apply kb_if; bleaf|].
  apply kb_app; [apply kb_nil|]. apply kb_app; [apply kb_nil|]. apply kb_app; [apply kb_if; bleaf|].
  apply kb_app; [now apply kb_text|]. apply kb_app; [apply kb_nil|].
  assert (After : forall U back, In U known -> kb back ->
    kb (back
      ++ (if (negb (mem S GM_SemiticScripts) && str_eqb U "Arab"%u && nat)
             || mem "arabicRemoveAdditionsPhonetic"%u post
          then PP_arabicRemoveAdditionsPhonetic else [])
      ++ (if nat then
            ApplyScriptDefaults S U post
            ++ (if str_eqb U "Latn"%u then []
                else if str_eqb U "Tamil"%u then PP_RemoveDiacriticsTamil else PP_RemoveDiacritics)
          else [])
      ++ (let mapped := mem "RemoveDiacritics"%u post && str_eqb U "Tamil"%u in
          let post1 := if mapped
            then map (fun x => if str_eqb x "RemoveDiacritics"%u then "RemoveDiacriticsTamil"%u else x) post
            else post in
          let post2 := if mapped then [] else post in
      foreach post1 PP_call
      ++ (if str_eqb S "Tamil"%u && str_eqb U "IPA"%u then [Raise (External "requests.get"%u)] else [])
      ++ (if str_eqb S "Oriya"%u && str_eqb U "IPA"%u then CF_OriyaIPAFix else [])
      ++ PrP_retainLatin true
      ++ PP_defaultPost S U nat pre post2))).
  { intros U back HU Hback. apply kb_app; [exact Hback|].
    apply kb_app; [apply kb_if; bleaf|].
    apply kb_app; [apply kb_if; [|apply kb_nil]; apply kb_app; [apply kb_defaults|bpieces; bleaf]|].
    cbv zeta. apply kb_app.
    { apply kb_foreach. intros o Ho. change (good_post o).
      destruct (mem "RemoveDiacritics"%u post && str_eqb U "Tamil"%u); [|now apply Hpost].
      apply in_map_iff in Ho as (x & <- & Hx). destruct (str_eqb x "RemoveDiacritics"%u); [exact tamil_good|now apply Hpost]. }
    apply kb_app; [apply kb_if; [apply keeps_raise|apply kb_nil]|].
    apply kb_app; [apply kb_if; bleaf|].
    apply kb_app; [bleaf|now apply kb_defaultPost]. }
  destruct (str_eqb S old) eqn:E.
  - apply str_eqb_eq in E. destruct Hold as [Hold|[Ho Go]].
    { exfalso. rewrite Hold in E. rewrite E in HS. discriminate (known_named [] HS). }
    apply After; [exact Ho|]. apply kb_convertScript; [exact Go|exact devanagari_known].
  - apply After; [exact HT|apply kb_nil].
Qed.

(** *** The variants of scripts that options choose *)
Definition variants : list str := "GranthaGrantamil"%u :: fine_variants.
Definition var_t (T T' : str) : Prop := T' = T \/ In T' variants.
Definition var_both (S T : str) (r : str * str * bool) : Prop := let '(S', T', _) := r in var_src S S' /\ var_t T T'.
Lemma var_switch_both : forall S T nat pre post, var_both S T (variant_switch S T nat pre post).
Proof.
  intros S T nat pre post. cbv beta delta [variant_switch].
  assert (V : forall v, mem v variants = true -> var_t T v) by (intros v H; right; now apply mem_In).
  assert (VS : forall o x v y, mem x ["Siddham"%u; "Grantha"%u] = true -> mem v ["SiddhamDevanagari"%u; "GranthaGrantamil"%u] = true ->
    var_src S y -> mem o pre && str_eqb y x = true -> var_src S v).
  { intros o x v y Mx Mv Hy E. apply andb_true_iff in E as [_ E]. apply str_eqb_eq in E. apply mem_In in Mx, Mv.
    destruct Hy as [Hy|[_ Hy]].
    - right. split; [rewrite <- Hy, E; exact Mx|exact Mv].
    - exfalso. rewrite E in Hy. destruct Mx as [<-|[<-|[]]]; apply mem_In in Hy; discriminate Hy. }
  ltstep (var_t T); [intros _; apply V; reflexivity|now left|]; cbv beta; intros t1 H1.
  ltstep (var_t T); [intros _; apply V; reflexivity|exact H1|]; clear t1 H1; cbv beta; intros t2 H2.
  ltstep (var_src S); [eapply VS; [reflexivity|reflexivity|now left]|now left|]; cbv beta; intros s1 G1.
  ltstep (var_t T); [intros _; apply V; reflexivity|exact H2|]; clear t2 H2; cbv beta; intros t3 H3.
  ltstep (var_src S); [eapply VS; [reflexivity|reflexivity|exact G1]|exact G1|]; clear s1 G1; cbv beta; intros s2 G2.
  ltstep (var_t T); [intros _; apply V; reflexivity|exact H3|]; clear t3 H3; cbv beta; intros t4 H4.
  ltstep (var_t T); [intros _; apply V; reflexivity|exact H4|]; clear t4 H4; cbv beta; intros t5 H5.
  repeat lazymatch goal with |- var_both S T (let '(_, _) := if ?b then _ else _ in _) => destruct b end;
  (ltstep (var_t T); [intros _; apply V; reflexivity|first [exact H5|apply V; reflexivity]|]; clear t5 H5; cbv beta; intros t6 H6;
   ltstep (var_t T); [intros _; apply V; reflexivity|exact H6|]; clear t6 H6; cbv beta; intros t7 H7;
   split; assumption).
Qed.
Lemma variant_fits : forall v, In v variants -> In v known /\ mem v GM_SemiticScripts = false /\ mem v lossy_targets = false.
Proof.
  assert (F : forallb (fun v => mem v known && negb (mem v GM_SemiticScripts) && negb (mem v lossy_targets)) variants = true) by (vm_compute; reflexivity).
  intros v H. rewrite forallb_forall in F. specialize (F v H). bools. split; [now apply mem_In|]. split; now apply negb_true_iff.
Qed.
Lemma semitic_fixed : forall S T nat pre post, mem S GM_SemiticScripts = true -> mem T GM_SemiticScripts = true ->
  variant_switch S T nat pre post = (S, T, nat).
Proof.
  assert (N : forall X y, mem X GM_SemiticScripts = true -> mem y GM_SemiticScripts = false -> str_eqb X y = false).
  { intros X y HX Hy. destruct (str_eqb X y) eqn:E; [|reflexivity]. apply str_eqb_eq in E. rewrite E in HX. congruence. }
  intros S T nat pre post HS HT. unfold variant_switch.
  repeat (rewrite (N T _ HT) by reflexivity; rewrite ?andb_false_r). repeat (rewrite (N S _ HS) by reflexivity; rewrite ?andb_false_r).
  repeat (rewrite (N T _ HT) by reflexivity; rewrite ?andb_false_r). reflexivity.
Qed.
Lemma gentle_variant : forall S T nat pre post, In S known -> In T known -> gentle S T = true ->
  let '(S', T', _) := variant_switch S T nat pre post in In S' known /\ In T' known /\ gentle S' T' = true.
Proof.
  intros S T nat pre post HS HT G. destruct (mem S GM_SemiticScripts) eqn:MS.
  - assert (MT : mem T GM_SemiticScripts = true) by (unfold gentle in G; rewrite MS in G; now bools).
    rewrite (semitic_fixed S T nat pre post MS MT). now split.
  - pose proof (var_switch_both S T nat pre post) as V. unfold var_both in V.
    destruct (variant_switch S T nat pre post) as [[S' T'] nat']. destruct V as [VS VT].
    assert (HS' : In S' known) by exact (proj1 (var_src_fits S S' VS HS)). split; [exact HS'|].
    unfold gentle in G. rewrite MS in G. apply andb_true_iff in G as [G1 G2].
    assert (Q : mem S' GM_SemiticScripts = false /\ negb (mem S' lossy_sources) = true).
    { destruct VS as [-> | [_ [<-|[<-|[]]]]]; [now split|split; vm_compute; reflexivity..]. }
    destruct Q as [Q1 Q2]. unfold gentle. rewrite Q1, Q2. destruct VT as [-> | VT]; [now split|].
    apply variant_fits in VT as (V1 & V2 & V3). split; [exact V1|]. now rewrite V2, V3.
Qed.
Theorem kb_rest : forall S T old nat pre post, In S known -> In T known -> gentle S T = true ->
  (old = [] \/ In old known /\ gentle "Devanagari"%u old = true) ->
  Forall good_pre pre -> Forall good_post post -> kb (convert_rest S T old nat pre post).
Proof.
  intros S T old nat pre post HS HT G Hold Hpre Hpost. unfold convert_rest. apply kb_app; [apply kb_PreProcess|].
  pose proof (gentle_variant S T nat pre post HS HT G) as V. destruct (variant_switch S T nat pre post) as [[S' T'] nat'].
  destruct V as (HS' & HT' & G'). apply kb_app; [unfold soyombo_mark; apply kb_if; bleaf|]. now apply kb_tail.
Qed.

Definition b_pipe (s : str) : bool := keep barred (PrP_RetainPipeDanda s).
Lemma b_pipes : forall s, In s GM_pipeScripts -> b_pipe s = true.
Proof. apply forallb_forall. vm_compute. reflexivity. Qed.
Lemma danda_good : good_pre "RetainDevangariDanda"%u.
Proof. unfold good_pre. bleaf. Qed.
Lemma pipes_good : good_post "Dot2Pipes"%u.
Proof. unfold good_post. bleaf. Qed.
Lemma dandas_good : good_post "Dot2Dandas"%u.
Proof. unfold good_post. bleaf. Qed.

(** From the early returns on, with the names of the scripts as they are used then. *)
Definition smooth (S T : str) (nat : bool) : bool :=
  let '(S', T') := semitic_switch S T nat in mem S' known && mem T' known && gentle S' T'.
Theorem kb_main : forall S0 T0 nat pre post, smooth S0 T0 nat = true ->
  Forall good_pre pre -> Forall good_post post -> kb (convert_main (Args S0 T0 nat pre post)).
Proof.
  intros S0 T0 nat pre post Sm Hpre Hpost. unfold smooth in Sm. destruct (semitic_switch S0 T0 nat) as [S T] eqn:Sw.
  apply andb_true_iff in Sm as [Sm G]. apply andb_true_iff in Sm as [HS HT]. apply mem_In in HS, HT. unfold convert_main.
  apply kb_if; [apply kb_nil|]. apply kb_if; [apply kb_nil|]. rewrite Sw.
  apply kb_app; [apply kb_if; bleaf|]. apply kb_app; [apply kb_if; bleaf|]. cbv zeta.
  set (same := str_eqb S T && negb (str_eqb S "Hiragana"%u) && negb (str_eqb S "Katakana"%u) && negb (mem S GM_SemiticScripts)).
  set (old := if same then T else []). set (U := if same then "Devanagari"%u else T).
  assert (Q : (old = [] \/ In old known /\ gentle "Devanagari"%u old = true) /\ In U known /\ gentle S U = true).
  { subst old U. destruct same eqn:E; [|now split; [left|]]. subst same. bools. match goal with H : str_eqb S T = true |- _ => apply str_eqb_eq in H; subst T end.
    match goal with M : negb (mem S GM_SemiticScripts) = true |- _ => apply negb_true_iff in M; rename M into MS end.
    unfold gentle in *. rewrite MS in *. bools. split; [right; split; [exact HS|]|split; [exact devanagari_known|]].
    - change (mem "Devanagari"%u GM_SemiticScripts) with false. cbn [andb]. assumption.
    - match goal with M : negb (mem S lossy_sources) = true |- _ => rewrite M end. reflexivity. }
  destruct Q as (Hold & HU & GU). clearbody U old. clear same.
  assert (Rest : forall pre post, Forall good_pre pre -> Forall good_post post -> kb (convert_rest S U old nat pre post))
    by (intros; now apply kb_rest).
  apply kb_if; [|now apply Rest].
  assert (Other : kb
    (let! signs := CrunchList "SignMap"%u S in
     let! danda := idx signs 1 in
     if str_eqb danda "।"%u then convert_rest S U old nat (pre ++ ["RetainDevangariDanda"%u]) post
     else convert_rest S U old nat pre (post ++ [if mem U GM_Transliteration then "Dot2Pipes"%u else "Dot2Dandas"%u]))).
  { apply kb_withS. intros signs _. apply kb_withS. intros d _. apply kb_if; apply Rest; try assumption.
    - apply Forall_app. split; [assumption|]. constructor; [exact danda_good|constructor].
    - apply Forall_app. split; [assumption|]. constructor; [|constructor]. destruct (mem U GM_Transliteration); [exact pipes_good|exact dandas_good]. }
  destruct (mem S GM_pipeScripts) eqn:Ep; [|exact Other].
  apply kb_IfIn; [|exact Other]. apply mem_In in Ep. apply kb_app; [exact (kb_check _ (b_pipes S Ep))|]. now apply Rest.
Qed.

(** ** The names of scripts *)
Definition swapped : list str := ["Hebrew"%u; "Thaana"%u; "Urdu"%u; "Shahmukhi"%u].
Definition fair (S : str) : bool := mem S (GM_IndicScripts ++ GM_LatinScripts) && negb (mem S (lossy_sources ++ swapped)).
Definition fit (T : str) : bool :=
  (mem T (GM_IndicScripts ++ GM_LatinScripts) && negb (mem T lossy_targets))
  || (mem T GM_SemiticScripts && (contains "Arab"%u T || contains "Hebr"%u T || contains "Latn"%u T)).
Definition voiced : list str :=
  ["Arab-Pa"%u; "Syrj"%u; "Syrn"%u; "Thaa"%u; "Arab-Ur"%u; "Type"%u; "Hebr-Ar"%u; "Arab-Fa"%u; "Latn"%u; "Arab"%u; "Hebr"%u].
Lemma unswapped : forall S, mem S swapped = false -> get S IndicSemiticMapping S = S /\ has_key S IndicSemiticMapping = false.
Proof.
  intros S H. unfold swapped, mem in H. cbn [existsb] in H. repeat (apply orb_false_iff in H as [? H]).
  unfold has_key, get, IndicSemiticMapping. cbn [lookup]. repeat match goal with Q : str_eqb S _ = false |- _ => rewrite Q end. now split.
Qed.
Lemma known_app : forall S, mem S (GM_IndicScripts ++ GM_LatinScripts) = true -> mem S known = true.
Proof.
  intros S H. apply mem_In in H. apply mem_In. unfold known. rewrite app_assoc. apply in_or_app. now left.
Qed.
Lemma known_semitic : forall S, mem S GM_SemiticScripts = true -> mem S known = true.
Proof. intros S H. apply mem_In in H. apply mem_In. unfold known. rewrite app_assoc. apply in_or_app. now right. Qed.
Lemma fit_known : forall T, fit T = true -> mem T known = true.
Proof.
  intros T H. unfold fit in H. apply orb_true_iff in H as [H|H]; apply andb_true_iff in H as [H _]; [now apply known_app|now apply known_semitic].
Qed.
Lemma tauto_if : forall (b : bool) (x : str), (if b then x else x) = x.
Proof. now intros [|] x. Qed.
Lemma fair_smooth : forall S T nat, fair S = true -> fit T = true -> smooth S T nat = true.
Proof.
  intros S T nat FS FT. pose proof (fit_known T FT) as KT. unfold fair in FS. apply andb_true_iff in FS as [HS NS]. apply negb_true_iff in NS.
  assert (NL : mem S lossy_sources = false) by (destruct (mem S lossy_sources) eqn:E; [|reflexivity]; apply mem_In in E; exfalso; assert (Q : mem S (lossy_sources ++ swapped) = true) by (apply mem_In; apply in_or_app; now left); congruence).
  assert (NW : mem S swapped = false) by (destruct (mem S swapped) eqn:E; [|reflexivity]; apply mem_In in E; exfalso; assert (Q : mem S (lossy_sources ++ swapped) = true) by (apply mem_In; apply in_or_app; now right); congruence).
  pose proof HS as HA. apply mem_In in HA. apply semitic_apart in HA.
  assert (NI : has_key S GM_semiticISO = false).
  { pose proof HS as K. apply known_app, mem_In, known_no_iso in K. unfold no_iso in K. unfold has_key. now rewrite K. }
  destruct (unswapped S NW) as [G1 G2]. unfold smooth, semitic_switch. rewrite G1. rewrite (tauto_if (mem T GM_SemiticScripts || has_key T GM_semiticISO) S).
  rewrite HA, NI. cbn [orb]. rewrite G2. cbn [andb]. rewrite G1, (tauto_if nat S). rewrite (known_app S HS), KT. cbn [andb].
  unfold gentle. rewrite HA, NL. cbn [negb andb]. unfold fit in FT. destruct (mem T GM_SemiticScripts) eqn:E.
  - apply orb_true_iff in FT as [FT|FT]; [|exact FT]. apply andb_true_iff in FT as [FT _]. apply mem_In in FT. apply semitic_apart in FT. congruence.
  - rewrite andb_false_l, orb_false_r in FT. now apply andb_true_iff in FT as [_ FT].
Qed.

Definition vias3 : list str := ["Hebrew"%u; "Arab"%u; "Arab-Fa"%u].
Definition pair_smooth (S T : str) : bool := smooth S T true && smooth S T false.
Lemma pair_both : forall S T nat, pair_smooth S T = true -> smooth S T nat = true.
Proof. intros S T nat H. unfold pair_smooth in H. apply andb_true_iff in H as [A B]. now destruct nat. Qed.
Lemma voiced_smooth : forall S T, In S (voiced ++ vias3) -> In T (voiced ++ vias3) -> pair_smooth S T = true.
Proof. apply forallb_pairs. vm_compute. reflexivity. Qed.
Lemma vias_fit : forall v, In v vias3 -> fit v = true.
Proof. apply forallb_forall. vm_compute. reflexivity. Qed.

Definition iso_good (o : str) : bool := keep barred (PrP_call o) && keep barred (PP_call o).
Lemma iso_goods : forall s, In s iso_keys -> iso_good (s ++ "Target"%u) = true /\ iso_good (s ++ "Source"%u) = true.
Proof. intros s H. destruct (iso_cases s H) as [-> | [-> | [-> | ->]]]; split; vm_compute; reflexivity. Qed.
Lemma iso_good_opt : forall o, iso_good o = true -> good_pre o /\ good_post o.
Proof. intros o H. unfold iso_good in H. apply andb_true_iff in H as [P Q]. split; [exact (kb_check _ P)|exact (kb_check _ Q)]. Qed.

Definition opts (pre post : list str) : Prop := Forall good_pre pre /\ Forall good_post post.
Lemma part_smooth : forall rec S T nat pre post, no_iso S -> no_iso T -> smooth S T nat = true -> opts pre post ->
  kb (iso_part rec (Args S T nat pre post)).
Proof. intros rec S T nat pre post NS NT Sm [P Q]. unfold iso_part. rewrite NT, NS. cbn [app]. now apply kb_main. Qed.
Lemma n_smooth : forall n S T nat pre post, no_iso S -> no_iso T -> S <> "RomanLoC"%u -> T <> "RomanLoC"%u -> smooth S T nat = true -> opts pre post ->
  kb (convert_n (Datatypes.S n) (Args S T nat pre post)).
Proof. intros. cbn [convert_n]. rewrite step_no_loc; [|assumption|assumption]. now apply part_smooth. Qed.
Lemma iso_via : forall s, In s iso_keys -> exists v, lookup s GM_semiticISO = Some v /\ In v vias3.
Proof. exact iso_vias. Qed.
Lemma via_plain : forall v, In v vias3 -> no_iso v /\ v <> "RomanLoC"%u /\ In v (voiced ++ vias3).
Proof.
  intros v H. split; [|split].
  - apply known_no_iso. apply mem_In. apply fit_known. now apply vias_fit.
  - intros ->. apply mem_In in H. discriminate H.
  - apply in_or_app. now right.
Qed.
Lemma latn_voiced : In "Latn"%u (voiced ++ vias3).
Proof. apply mem_In. vm_compute. reflexivity. Qed.
Lemma part_own_b : forall rec S T nat pre post, In S iso_keys -> lookup S GM_semiticISO = Some T -> In T vias3 -> opts pre post ->
  kb (iso_part rec (Args S T nat pre post)).
Proof.
  intros rec S T nat pre post HS E HT [P Q]. destruct (via_plain T HT) as (NT & _ & VT).
  unfold iso_part. rewrite NT, E, str_eqb_refl. cbn [app]. destruct (iso_good_opt _ (proj2 (iso_goods S HS))) as [O1 O2].
  apply kb_main; [apply pair_both; apply voiced_smooth; [exact latn_voiced|exact VT]|now constructor|now constructor].
Qed.
Lemma part_iso_source_b : forall n S T nat pre post, In S iso_keys -> no_iso T -> In T (voiced ++ vias3) -> opts pre post ->
  kb (iso_part (convert_n (Datatypes.S n)) (Args S T nat pre post)).
Proof.
  intros n S T nat pre post HS NT HT O. destruct (iso_via S HS) as (v & E & Hv). destruct (str_eqb v T) eqn:EV.
  { apply str_eqb_eq in EV. subst v. now apply part_own_b. }
  destruct (via_plain v Hv) as (Nv & Lv & Vv). unfold iso_part. rewrite NT, E, EV. cbn [app]. apply kb_app.
  - cbn [convert_n]. rewrite step_no_loc; [now apply part_own_b|now apply iso_plain|exact Lv].
  - destruct O as [P Q]. apply kb_main; [apply pair_both; now apply voiced_smooth|exact P|exact Q].
Qed.
(** What is needed of a source for a target that is an ISO romanization: it goes through the three scripts. *)
Lemma part_iso_target_b : forall n S T nat pre post, In T iso_keys -> opts pre post ->
  (forall v, In v vias3 -> kb (convert_n (Datatypes.S n) (Args S v nat pre post))) ->
  kb (iso_part (convert_n (Datatypes.S n)) (Args S T nat pre post)).
Proof.
  intros n S T nat pre post HT [P Q] HV. destruct (iso_via T HT) as (v & E & Hv). destruct (via_plain v Hv) as (Nv & Lv & Vv).
  unfold iso_part. rewrite E. cbn [app]. rewrite Nv. cbn [app]. destruct (iso_good_opt _ (proj1 (iso_goods T HT))) as [O1 O2].
  apply kb_app; [apply kb_if; [apply kb_nil|now apply HV]|].
  apply kb_main; [apply pair_both; apply voiced_smooth; [exact Vv|exact latn_voiced]|now constructor|now constructor].
Qed.

(** The pairs of names. *)
Definition from_plain (S T : str) : Prop := fair S = true /\ (fit T = true \/ In T iso_keys).
Definition from_voiced (S T : str) : Prop := In S (voiced ++ iso_keys) /\ In T (voiced ++ iso_keys).
Lemma voiced_no_iso : forall s, In s voiced -> no_iso s /\ s <> "RomanLoC"%u.
Proof.
  intros s H. split; [|intros ->; apply mem_In in H; discriminate H].
  apply not_iso. revert s H. apply (all_not (fun s => mem s iso_keys)). vm_compute. reflexivity.
Qed.
Lemma fair_no_iso : forall S, fair S = true -> no_iso S.
Proof. intros S H. unfold fair in H. apply andb_true_iff in H as [H _]. apply known_no_iso. apply mem_In. now apply known_app. Qed.
Lemma fit_no_iso : forall T, fit T = true -> no_iso T.
Proof. intros T H. apply known_no_iso. apply mem_In. now apply fit_known. Qed.
Lemma part_plain : forall S T nat pre post, S <> "RomanLoC"%u \/ ~ In T iso_keys -> from_plain S T -> opts pre post ->
  kb (iso_part (convert_n 2) (Args S T nat pre post)).
Proof.
  intros S T nat pre post NL [FS [FT|FT]] O.
  - apply part_smooth; [now apply fair_no_iso|now apply fit_no_iso|now apply fair_smooth|exact O].
  - apply part_iso_target_b; [exact FT|exact O|]. intros v Hv. destruct (via_plain v Hv) as (Nv & Lv & Vv). destruct NL as [NL|NL]; [|contradiction].
    apply n_smooth; [now apply fair_no_iso|exact Nv|exact NL|exact Lv| |exact O]. apply fair_smooth; [exact FS|now apply vias_fit].
Qed.
Lemma part_voiced : forall S T nat pre post, from_voiced S T -> opts pre post -> kb (iso_part (convert_n 2) (Args S T nat pre post)).
Proof.
  intros S T nat pre post [HS HT] O. apply in_app_or in HS, HT. destruct HT as [HT|HT].
  - destruct (voiced_no_iso T HT) as [NT _]. assert (VT : In T (voiced ++ vias3)) by (apply in_or_app; now left). destruct HS as [HS|HS].
    + destruct (voiced_no_iso S HS) as [NS _]. apply part_smooth; [exact NS|exact NT| |exact O].
      apply pair_both. apply voiced_smooth; [apply in_or_app; now left|exact VT].
    + now apply part_iso_source_b.
  - apply part_iso_target_b; [exact HT|exact O|]. intros v Hv. destruct (via_plain v Hv) as (Nv & Lv & Vv). destruct HS as [HS|HS].
    + destruct (voiced_no_iso S HS) as [NS LS]. apply n_smooth; [exact NS|exact Nv|exact LS|exact Lv| |exact O].
      apply pair_both. apply voiced_smooth; [apply in_or_app; now left|exact Vv].
    + change (kb (convert_step (convert_n 1) (Args S v nat pre post))).
      rewrite step_no_loc; [now apply part_iso_source_b|now apply iso_plain|exact Lv].
Qed.

(** *** RomanLoC *)
Definition loc_b (a : args) : bool :=
  fair (a_src a) && fit (a_tgt a) && forallb (fun o => keep barred (PrP_call o)) (a_pre a) && forallb (fun o => keep barred (PP_call o)) (a_post a).
Definition tgt_b (nat : bool) (S : str) : bool :=
  if negb (fair S) then true else
  let a := loc_target (Args S "RomanLoC"%u nat [] []) in
  loc_b a && negb (str_eqb (a_src a) "RomanLoC"%u) && negb (str_eqb (a_tgt a) "RomanLoC"%u && negb (mem (a_src a) GM_LoCScripts)).
Definition src_b (nat : bool) (T : str) : bool :=
  if negb (fit T) then true else
  let a := loc_source (Args "RomanLoC"%u T nat [] []) in
  loc_b a && negb (str_eqb (a_src a) "RomanLoC"%u && negb (mem (a_tgt a) GM_LoCScripts)).
Lemma tgt_bs : forall S, In S GM_LoCScripts -> tgt_b true S && tgt_b false S = true.
Proof. apply forallb_forall. vm_compute. reflexivity. Qed.
Lemma src_bs : forall T, In T GM_LoCScripts -> src_b true T && src_b false T = true.
Proof. apply forallb_forall. vm_compute. reflexivity. Qed.
Lemma loc_b_opts : forall a, loc_b a = true -> fair (a_src a) = true /\ fit (a_tgt a) = true /\ opts (a_pre a) (a_post a).
Proof.
  intros a H. unfold loc_b in H. apply andb_true_iff in H as [H H4]. apply andb_true_iff in H as [H H3]. apply andb_true_iff in H as [H1 H2].
  rewrite forallb_forall in H3, H4. split; [exact H1|]. split; [exact H2|].
  split; apply Forall_forall; intros o Ho; [exact (kb_check _ (H3 o Ho))|exact (kb_check _ (H4 o Ho))].
Qed.
Lemma opts_app : forall p q p' q', opts p q -> opts p' q' -> opts (p ++ p') (q ++ q').
Proof. intros p q p' q' [A B] [C D]. split; apply Forall_app; now split. Qed.
Lemma fair_apart : forall S, fair S = true -> mem S GM_SemiticScripts = false.
Proof.
  intros S H. unfold fair in H. apply andb_true_iff in H as [H _]. apply mem_In in H. revert S H.
  apply (all_not (fun s => mem s GM_SemiticScripts)). vm_compute. reflexivity.
Qed.
Lemma semitic_voiced : forall T, In T GM_SemiticScripts -> negb (fit T) || mem T voiced = true.
Proof. apply forallb_forall. vm_compute. reflexivity. Qed.
Lemma iso_fair : fair "ISO"%u = true /\ fit "ISO"%u = true.
Proof. split; vm_compute; reflexivity. Qed.
Lemma romanloc_not_iso : ~ In "RomanLoC"%u iso_keys.
Proof. intros F. apply mem_In in F. discriminate F. Qed.
Lemma iso_not_semitic : forall T, In T iso_keys -> mem T GM_SemiticScripts = false.
Proof. intros T H. destruct (iso_cases T H) as [-> | [-> | [-> | ->]]]; vm_compute; reflexivity. Qed.
Theorem kb_plain : forall S T nat pre post, from_plain S T -> opts pre post -> kb (convert_prog S T nat pre post).
Proof.
  intros S T nat pre post [FS FT] O. unfold convert_prog.
  change (kb (convert_step (convert_n 2) (Args S T nat pre post))). rewrite convert_step_parts.
  destruct (str_eqb T "RomanLoC"%u) eqn:ET.
  - apply str_eqb_eq in ET. rewrite ET in *. clear ET T. destruct (mem S GM_LoCScripts) eqn:ML.
    + apply mem_In in ML. pose proof (tgt_bs S ML) as C. apply andb_true_iff in C as [Ct Cf].
      assert (C : tgt_b nat S = true) by (destruct nat; assumption). clear Ct Cf. unfold tgt_b in C. rewrite FS in C. cbn [negb] in C. cbv zeta in C.
      rewrite (loc_target_frame S nat pre post). cbv zeta. revert C. generalize (loc_target (Args S "RomanLoC"%u nat [] [])). intros a C.
      apply andb_true_iff in C as [C C2]. apply andb_true_iff in C as [C C1]. apply loc_b_opts in C as (A0 & A1 & A2).
      apply negb_true_iff in C1, C2. apply str_eqb_neq in C1. destruct a as [S' T' nat' P Q]. cbn [a_src a_tgt a_nat a_pre a_post] in *.
      unfold loc_target_other. rewrite C2. rewrite (source_done _ S' T' nat' (pre ++ P) (Q ++ post) C1).
      apply part_plain; [now left|split; [exact A0|now left]|]. destruct O as [O1 O2], A2 as [P1 P2]. split; apply Forall_app; now split.
    + assert (E : loc_target (Args S "RomanLoC"%u nat pre post) = Args S "RomanLoC"%u nat pre post).
      { unfold loc_target. rewrite ML, andb_false_r. reflexivity. }
      rewrite E. unfold loc_target_other. rewrite ML, str_eqb_refl. cbn [andb negb]. clear E. rewrite (fair_apart S FS).
      destruct iso_fair as [I1 I2]. destruct (str_eqb S "RomanLoC"%u) eqn:ES.
      * apply str_eqb_eq in ES. rewrite ES in *.
        assert (E1 : loc_source_mark (Args "RomanLoC"%u "ISO"%u nat pre post) = []) by (vm_compute; reflexivity).
        assert (E2 : loc_source_other (loc_source (Args "RomanLoC"%u "ISO"%u nat pre post)) = Args "ISO"%u "ISO"%u nat pre post)
          by (vm_compute; reflexivity).
        rewrite E1, E2. cbn [app]. apply (part_plain "ISO"%u "ISO"%u nat pre post); [left; discriminate|split; [exact I1|left; exact I2]|exact O].
      * apply str_eqb_neq in ES. rewrite (source_done _ S "ISO"%u nat pre post ES).
        apply part_plain; [now left|split; [exact FS|left; exact I2]|exact O].
  - assert (E : loc_target_other (loc_target (Args S T nat pre post)) = Args S T nat pre post).
    { unfold loc_target. rewrite ET. cbn [andb]. unfold loc_target_other. rewrite ET. reflexivity. }
    rewrite E. clear E. destruct (str_eqb S "RomanLoC"%u) eqn:ES.
    + apply str_eqb_eq in ES. rewrite ES in *. clear ES S.
      apply kb_app; [unfold loc_source_mark; apply kb_if; bleaf|].
      destruct (mem T GM_LoCScripts) eqn:ML.
      * apply mem_In in ML. pose proof (src_bs T ML) as C. apply andb_true_iff in C as [Ct Cf].
        assert (C : src_b nat T = true) by (destruct nat; assumption). clear Ct Cf. unfold src_b in C.
        assert (FT' : fit T = true).
        { destruct FT as [FT|FT]; [exact FT|]. exfalso. destruct (iso_cases T FT) as [-> | [-> | [-> | ->]]]; apply mem_In in ML; discriminate ML. }
        rewrite FT' in C. cbn [negb] in C. cbv zeta in C.
        destruct (loc_source_frame T nat pre post) as (pre' & Hpre' & ->). revert Hpre' C.
        generalize (loc_source (Args "RomanLoC"%u T nat [] [])). intros a Hpre' C.
        apply andb_true_iff in C as [C C2]. apply loc_b_opts in C as (A0 & A1 & A2). apply negb_true_iff in C2.
        destruct a as [S' T' nat' P Q]. cbn [a_src a_tgt a_nat a_pre a_post] in *. unfold loc_source_other. rewrite C2.
        apply part_plain; [|split; [exact A0|now left]|].
        { right. intros F. apply fit_no_iso in A1. destruct (iso_vias _ F) as (v & E & _). unfold no_iso in A1. congruence. }
        { destruct O as [O1 O2], A2 as [P1 P2]. split; [destruct Hpre' as [-> | ->]; apply Forall_app; now split|apply Forall_app; now split]. }
      * assert (E1 : loc_source (Args "RomanLoC"%u T nat pre post) = Args "RomanLoC"%u T nat pre post).
        { unfold loc_source. rewrite ML, andb_false_r. reflexivity. }
        rewrite E1. unfold loc_source_other. rewrite ML, str_eqb_refl. cbn [andb negb].
        destruct (mem T GM_SemiticScripts) eqn:SM.
        { apply (part_voiced "ISO233"%u T nat pre post); [|exact O]. split; [apply in_or_app; right; exact iso233_key|].
          apply mem_In in SM. pose proof (semitic_voiced T SM) as V. destruct FT as [FT|FT].
          - rewrite FT in V. cbn [negb orb] in V. apply mem_In in V. apply in_or_app. now left.
          - apply in_or_app. now right. }
        { apply (part_plain "ISO"%u T nat pre post); [left; discriminate|split; [apply iso_fair|exact FT]|exact O]. }
    + apply str_eqb_neq in ES. rewrite (source_done _ S T nat pre post ES). apply part_plain; [now left|now split|exact O].
Qed.

Theorem kb_voiced : forall S T nat pre post, from_voiced S T -> opts pre post -> kb (convert_prog S T nat pre post).
Proof.
  intros S T nat pre post F O. unfold convert_prog.
  change (kb (convert_step (convert_n 2) (Args S T nat pre post))).
  assert (N : forall s, In s (voiced ++ iso_keys) -> s <> "RomanLoC"%u).
  { intros s H ->. apply mem_In in H. discriminate H. }
  rewrite step_no_loc; [now apply part_voiced|apply N; apply F|apply N; apply F].
Qed.

(** ** The theorem *)

(** The characters the library itself may deal with, by Unicode ranges: Latin, Greek, Cyrillic, Hebrew, Arabic, Syriac,
    the scripts of South and South-East Asia, Tibetan, Hangul, kana, the blank and the ASCII punctuation, symbols of the
    Latin ranges, the bars U+2502 and U+2503 that stand for dandas, combining marks, private use, ...  Everything else is
    foreign to every script: line breaks, tabs and other control characters, the percent sign, guillemets, dashes,
    curly double quotation marks, daggers, bullets, the ellipsis, currency signs, ideographs, emoji, Yi, Canadian
    syllabics, dingbats, mathematical letters, ...  *)
Definition handled : list (N * N) :=
  [(32,36); (38,126); (0xA1,0xAA); (0xAC,0xB5); (0xB7,0xBA); (0xBC,0x13FF); (0x1680,0x200F); (0x2016,0x201B); (0x202A,0x209F);
   (0x20D0,0x22FF); (0x2329,0x232A); (0x24B6,0x24E9); (0x2502,0x2503); (0x25CF,0x25CF); (0x2ADC,0x2ADD); (0x2C00,0x2E31); (0x3000,0x30FF);
   (0xA640,0xD7FF); (0xE000,0xF8FF); (0xFB00,0xFB4F); (0xFE20,0xFE2F); (0xFF21,0xFF5A);
   (0x10000,0x11FFF); (0x13000,0x133FF); (0x16A40,0x16FFF); (0x1BC9E,0x1BC9E); (0x1D100,0x1D2FF); (0x1E000,0x1E95F); (0xF0000,0xFFFFF)].
(** The CJK compatibility ideographs, which Unicode normalization replaces by ordinary ideographs. *)
Definition ideograph_variant (c : N) : Prop := 0xF900 <= c <= 0xFAFF \/ 0x2F800 <= c <= 0x2FA1F.
Definition foreign (c : N) : bool :=
  negb (existsb (fun p => (fst p <=? c) && (c <=? snd p)) (handled ++ [(0xF900,0xFAFF); (0x2F800,0x2FA1F)])).

Lemma variant_compat : forall c, ~ ideograph_variant c -> compat c = false.
Proof.
  intros c H. unfold compat. apply orb_false_iff. split; apply andb_false_iff; rewrite !N.leb_gt; unfold ideograph_variant in H; lia.
Qed.
Lemma handled_hush : forall c, existsb (fun p => (fst p <=? c) && (c <=? snd p)) handled = hush barred c.
Proof.
  intros c. change handled with barred. apply eq_true_iff_eq. rewrite (hush_cases barred (fits_sorted barred fits_barred)). rewrite existsb_exists.
  split; intros (p & Hp & Q); exists p; (split; [exact Hp|]); rewrite andb_true_iff, !N.leb_le in *; exact Q.
Qed.
Lemma foreign_other : forall c, foreign c = other barred c.
Proof.
  intros c. unfold foreign, other. rewrite existsb_app, handled_hush, negb_orb. f_equal. f_equal. cbn [existsb fst snd]. unfold compat. now rewrite orb_false_r.
Qed.
Lemma filter_foreign : forall s, filter foreign s = filter (other barred) s.
Proof. intros s. apply filter_ext. exact foreign_other. Qed.

(** Names.  A script or romanization other than the six sources and four targets (below) where the code does
    lose or double characters; and the Semitic scripts and romanizations among themselves. *)
Definition carried (S T : str) : Prop :=
  (In S (GM_IndicScripts ++ GM_LatinScripts) /\ ~ In S (lossy_sources ++ swapped) /\
     (In T (GM_IndicScripts ++ GM_LatinScripts) /\ ~ In T lossy_targets
      \/ In T ["Arab"%u; "Arab-Fa"%u; "Arab-Ur"%u; "Arab-Pa"%u; "Hebr"%u; "Hebr-Ar"%u; "Latn"%u]
      \/ In T ["ISO259"%u; "HebrewSBL"%u; "ISO233"%u; "PersianDMG"%u]))
  \/ (let semitic := ["Arab"%u; "Arab-Fa"%u; "Arab-Ur"%u; "Arab-Pa"%u; "Hebr"%u; "Hebr-Ar"%u; "Latn"%u; "Syrj"%u; "Syrn"%u; "Thaa"%u; "Type"%u;
                      "ISO259"%u; "HebrewSBL"%u; "ISO233"%u; "PersianDMG"%u] in
      In S semitic /\ In T semitic).
Lemma carried_names : forall S T, carried S T -> from_plain S T \/ from_voiced S T.
Proof.
  intros S T [(A & B & C)|(A & B)].
  - left. split.
    + unfold fair. apply andb_true_iff. split; [now apply mem_In|]. apply negb_true_iff. now apply mem_false.
    + destruct C as [(C & D)|[C|C]].
      * left. unfold fit. apply orb_true_iff. left. apply andb_true_iff. split; [now apply mem_In|]. apply negb_true_iff. now apply mem_false.
      * left. revert T C. apply (proj1 (forallb_forall fit ["Arab"%u; "Arab-Fa"%u; "Arab-Ur"%u; "Arab-Pa"%u; "Hebr"%u; "Hebr-Ar"%u; "Latn"%u])). vm_compute. reflexivity.
      * right. revert T C. apply sublist. vm_compute. reflexivity.
  - right. assert (L : forall x, In x ["Arab"%u; "Arab-Fa"%u; "Arab-Ur"%u; "Arab-Pa"%u; "Hebr"%u; "Hebr-Ar"%u; "Latn"%u; "Syrj"%u; "Syrn"%u; "Thaa"%u; "Type"%u;
                      "ISO259"%u; "HebrewSBL"%u; "ISO233"%u; "PersianDMG"%u] -> In x (voiced ++ iso_keys)) by (apply sublist; vm_compute; reflexivity).
    split; now apply L.
Qed.
(** Two options of the library lose characters by themselves (below). *)
Definition known_options (pre post : list str) : Prop :=
  (forall o, In o pre -> In o PrP_names) /\ (forall o, In o post -> In o PP_names /\ ~ In o lossy_post).
Lemma known_opts : forall pre post, known_options pre post -> opts pre post.
Proof.
  intros pre post [A B]. split; apply Forall_forall; intros o Ho; [apply pre_good; now apply A|]. destruct (B o Ho). now apply post_good.
Qed.

(** C07, for all texts and all known options: the foreign characters of the result are those of the text, each as many times, in the same order. *)
Theorem foreign_survive : forall S T txt nat pre post r, carried S T -> known_options pre post ->
  (forall c, In c txt -> ~ ideograph_variant c) ->
  convert S T txt nat pre post = Ok r ->
  filter foreign r = filter foreign txt.
Proof.
  intros S T txt nat pre post r HN HO HV E. rewrite !filter_foreign. apply known_opts in HO.
  assert (K : kb (convert_prog S T nat pre post)).
  { destruct (carried_names S T HN) as [F|F]; [now apply kb_plain|now apply kb_voiced]. }
  apply (keeps_filter barred fits_barred _ K txt r E). apply Forall_forall. intros c Hc. apply variant_compat. now apply HV.
Qed.
(** With compatibility ideographs in the text: the same of the canonical decompositions. *)
Theorem foreign_survive_decomposed : forall S T txt nat pre post r, carried S T -> known_options pre post ->
  convert S T txt nat pre post = Ok r ->
  filter foreign (flat_map decomp r) = filter foreign (flat_map decomp txt).
Proof.
  intros S T txt nat pre post r HN HO E. rewrite !filter_foreign. apply known_opts in HO.
  assert (K : kb (convert_prog S T nat pre post)).
  { destruct (carried_names S T HN) as [F|F]; [now apply kb_plain|now apply kb_voiced]. }
  destruct (K txt r E) as [P _]. now rewrite <- !pj1_NFD.
Qed.

Section Public.
Variable uname : N -> option str.
Variable uscript : N -> str.
Variable lfind : str -> res str.
(** The same of [transliterate.process]: names and options in any case, unknown options do not matter. *)
Theorem process_foreign_survive : forall src tgt txt nat pre post r, src <> "autodetect"%u ->
  carried (canonical_name src) (canonical_name tgt) ->
  (forall o, In o (resolve_options PP_names post) -> ~ In o lossy_post) ->
  (forall c, In c txt -> ~ ideograph_variant c) ->
  snd (process uname uscript lfind src tgt txt nat post pre "default"%u) = Ok r ->
  filter foreign r = filter foreign txt.
Proof.
  intros src tgt txt nat pre post r Ha HN HO HV E. unfold process in E. rewrite str_eqb_refl in E.
  assert (S2 : forall S T, carried S T -> In S supported /\ In T supported).
  { intros S T [(A & B & C)|(A & B)].
    - split; [apply in_app_or in A; unfold supported; rewrite !in_app_iff; tauto|].
      destruct C as [(C & D)|[C|C]]; [apply in_app_or in C; unfold supported; rewrite !in_app_iff; tauto| |]; revert T C; apply sublist; vm_compute; reflexivity.
    - split; [revert S A|revert T B]; apply sublist; vm_compute; reflexivity. }
  destruct (S2 _ _ HN) as [HS HT].
  rewrite process_default_known in E by assumption. rewrite convert_default_value in E.
  refine (foreign_survive _ _ txt nat _ _ r HN _ HV E). split; intros o Ho; [now apply resolve_in in Ho as [Ho _]|].
  split; [now apply resolve_in in Ho as [Ho _]|now apply HO].
Qed.
End Public.

(** ** The hypotheses can be met, and are needed *)
Example foreign_chars : map foreign [0x5B57; 0x1F600; 0x1D11E; 0x915; 0x61] = [true; true; false; false; false].
Proof. vm_compute. reflexivity. Qed.
Example survive_case : carried "Devanagari"%u "Tamil"%u /\ carried "Arab"%u "Hebr"%u /\ carried "IAST"%u "ISO259"%u
  /\ known_options ["RemoveSchwaHindi"%u] ["TamilSubScript"%u]
  /\ exists r, convert "Devanagari"%u "Tamil"%u ("क字म"%u ++ [0x1F600] ++ "ला字"%u) true ["RemoveSchwaHindi"%u] ["TamilSubScript"%u] = Ok r
       /\ filter foreign r = "字"%u ++ [0x1F600] ++ "字"%u.
Proof.
  split; [left; split; [listed_name|split; [intros F; apply mem_In in F; discriminate F|left; split; [listed_name|intros F; apply mem_In in F; discriminate F]]]|].
  split; [right; split; listed_name|].
  split; [left; split; [listed_name|split; [intros F; apply mem_In in F; discriminate F|right; right; listed_name]]|].
  split; [split; intros o [<-|[]]; [listed_name|split; [listed_name|intros F; apply mem_In in F; discriminate F]]|].
  eexists. split; [vm_compute; reflexivity|vm_compute; reflexivity].
Qed.

(** Characters are lost or doubled: *)
Definition disturbs (S T txt : str) (nat : bool) (pre post : list str) : Prop :=
  exists r, convert S T txt nat pre post = Ok r /\ filter foreign r <> filter foreign txt.
Ltac witness := eexists; split; [vm_compute; reflexivity|vm_compute; discriminate].
(** each excluded source; *)
Theorem velthuis_foreign_refuted : disturbs "Velthuis"%u "Devanagari"%u " o字m "%u true [] [].
Proof. witness. Qed.
Theorem urdu_foreign_refuted : disturbs "Urdu"%u "Devanagari"%u [0x5B57; 0x651] true [] [].
Proof. witness. Qed.
Theorem shahmukhi_foreign_refuted : disturbs "Shahmukhi"%u "Devanagari"%u [0x5B57; 0x651] true [] [].
Proof. witness. Qed.
Theorem soyombo_foreign_refuted : disturbs "Soyombo"%u "Devanagari"%u [0x5B57; 0x11A98] true [] [].
Proof. witness. Qed.
Theorem rohingya_foreign_refuted : disturbs "HanifiRohingya"%u "Devanagari"%u [0x5B57; 0x10D27] true [] [].
Proof. witness. Qed.
Theorem ipa_source_foreign_refuted : disturbs "IPA"%u "Devanagari"%u [0x5B57; 0x68; 0x5B57; 0x306] true [] [].
Proof. witness. Qed.
Theorem hebrew_foreign_refuted : disturbs "Hebrew"%u "Devanagari"%u [0x5B57; 0xA789] false [] [].
Proof. witness. Qed.
Theorem thaana_foreign_refuted : disturbs "Thaana"%u "Devanagari"%u [0x5B57; 0xA789] false [] [].
Proof. witness. Qed.
Theorem semitic_source_foreign_refuted : disturbs "Syrj"%u "Devanagari"%u [0x5B57; 0xA789] true [] [].
Proof. witness. Qed.
(** each excluded target; *)
Theorem gurmukhi_foreign_refuted : disturbs "Devanagari"%u "Gurmukhi"%u [0x951; 0xA71; 0x5B57] true [] [].
Proof. witness. Qed.
Theorem gurmukhi_loc_foreign_refuted : disturbs "Devanagari"%u "GurmukhiLoC"%u [0x951; 0xA71; 0x5B57] true [] [].
Proof. witness. Qed.
Theorem soyombo_target_foreign_refuted : disturbs "Devanagari"%u "Soyombo"%u [0x5B57; 0x94D; 0x5B57] true [] [].
Proof. witness. Qed.
Theorem ipa_target_foreign_refuted : disturbs "Devanagari"%u "IPA"%u [0x5B57; 0x68] true [] [].
Proof. witness. Qed.
Theorem semitic_target_foreign_refuted : disturbs "Devanagari"%u "Syrj"%u [0x5B57; 0x33D; 0x5B57] true [] [].
Proof. witness. Qed.
(** each excluded option; *)
Theorem takri_gemination_foreign_refuted : disturbs "Devanagari"%u "Takri"%u [0x5B57; 0x94D; 0x5B57] true [] ["TakriRemoveGemination"%u].
Proof. witness. Qed.
Theorem tai_tham_nnga_foreign_refuted : disturbs "Devanagari"%u "TaiTham"%u [0x5B57] true [] ["TaiThamMoveNnga"%u].
Proof. witness. Qed.
(** and a compatibility ideograph may become another ideograph. *)
Theorem variant_foreign_refuted : disturbs "LimbuLoCRomanLoC"%u "Devanagari"%u [0xF900] true [] [].
Proof. witness. Qed.
