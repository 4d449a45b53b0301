(** * Line breaks survive every conversion (property C37). *)
From Coq Require Import List NArith ZArith Bool Lia Permutation.
From Verif Require Import PyStr StrFacts UnicodeTables Regex Unicode Prog GMLists GeneralMap FixNum
  PostProcess1 ConvertFix1 PreProcess1 PostProcess2 GimelData Gimeltra Convert Dispatch YamlData Transliterate
  AbsRegex NormCut SortFacts TableFacts SafeFacts ApiFacts TotalFacts Marks MarkFacts MarkLeak Keeps KeepFacts Foreign LineFacts.
Import ListNotations.
Local Open Scope N_scope.

(** ** Options *)
(** The option that replaces the whole text by a name (PostProcess.py:3467). *)
Definition overwriting : list str := ["TaiThamMoveNnga"%u].
Definition line_pre (o : str) : Prop := ln (PrP_call o).
Definition line_post (o : str) : Prop := ln (PP_call o).
Lemma kb_line : forall p, kb p -> ln p.
Proof. exact kb_ln. Qed.
Lemma pre_line : forall o, In o PrP_names -> line_pre o.
Proof. intros o H. exact (kb_line _ (pre_good o H)). Qed.
Lemma post_line : forall o, In o PP_names -> ~ In o overwriting -> line_post o.
Proof.
  intros o H N. destruct (mem o lossy_post) eqn:E.
  - apply mem_In in E. destruct E as [<-|[<-|[]]]; [exfalso; apply N; now left|]. unfold line_post. lleaf.
  - apply kb_line. apply post_good; [exact H|]. now apply mem_false.
Qed.
Lemma danda_line : line_pre "RetainDevangariDanda"%u.
Proof. exact (kb_line _ danda_good). Qed.
Lemma pipes_line : line_post "Dot2Pipes"%u.
Proof. exact (kb_line _ pipes_good). Qed.
Lemma dandas_line : line_post "Dot2Dandas"%u.
Proof. exact (kb_line _ dandas_good). Qed.
Lemma tamil_line : line_post "RemoveDiacriticsTamil"%u.
Proof. exact (kb_line _ tamil_good). Qed.

(** ** The stages of [convert] *)
Lemma ln_text : forall S T, In S known -> In T known -> ln (convert_text S T).
Proof.
  intros S T HS HT. unfold convert_text. apply ln_if; [|now apply ln_convertScript].
  apply ln_IfIn; [|now apply ln_convertScript]. apply ln_EvenParts; [reflexivity|discriminate|now apply ln_convertScript].
Qed.
Theorem ln_tail : forall S T old nat pre post, In S known -> In T known -> (old = [] \/ In old known) ->
  Forall line_pre pre -> Forall line_post post -> ln (convert_tail S T old nat pre post).
Proof.
  intros S T old nat pre post HS HT Hold Hpre Hpost. unfold convert_tail.
  rewrite (not_kanas S HS), (not_kanas T HT). rewrite Forall_forall in Hpre, Hpost. cbv zeta.
  apply ln_app; [now apply ln_foreach|]. apply ln_app; [apply ln_if; lleaf|]. apply ln_app; [apply ln_if; lleaf|].
  apply ln_app; [apply ln_nil|]. apply ln_app; [apply ln_nil|]. apply ln_app; [apply ln_if; lleaf|].
  apply ln_app; [now apply ln_text|]. apply ln_app; [apply ln_nil|].
  assert (After : forall U back, In U known -> ln back ->
    ln (back
      ++ (if (negb (mem S GM_SemiticScripts) && str_eqb U "Arab"%u && nat)
             || mem "arabicRemoveAdditionsPhonetic"%u post
          then PP_arabicRemoveAdditionsPhonetic else [])
      ++ (if nat then
            ApplyScriptDefaults S U post
            ++ (if str_eqb U "Latn"%u then []
                else if str_eqb U "Tamil"%u then PP_RemoveDiacriticsTamil else PP_RemoveDiacritics)
          else [])
      ++ (let mapped := mem "RemoveDiacritics"%u post && str_eqb U "Tamil"%u in
          let post1 := if mapped
            then map (fun x => if str_eqb x "RemoveDiacritics"%u then "RemoveDiacriticsTamil"%u else x) post
            else post in
          let post2 := if mapped then [] else post in
      foreach post1 PP_call
      ++ (if str_eqb S "Tamil"%u && str_eqb U "IPA"%u then [Raise (External "requests.get"%u)] else [])
      ++ (if str_eqb S "Oriya"%u && str_eqb U "IPA"%u then CF_OriyaIPAFix else [])
      ++ PrP_retainLatin true
      ++ PP_defaultPost S U nat pre post2))).
  { intros U back HU Hback. apply ln_app; [exact Hback|].
    apply ln_app; [apply ln_if; lleaf|].
    apply ln_app; [apply ln_if; [|apply ln_nil]; apply ln_app; [apply kb_line; apply kb_defaults|lpieces; lleaf]|].
    cbv zeta. apply ln_app.
    { apply ln_foreach. intros o Ho. change (line_post o).
      destruct (mem "RemoveDiacritics"%u post && str_eqb U "Tamil"%u); [|now apply Hpost].
      apply in_map_iff in Ho as (x & <- & Hx). destruct (str_eqb x "RemoveDiacritics"%u); [exact tamil_line|now apply Hpost]. }
    apply ln_app; [apply ln_if; [apply ln_raise|apply ln_nil]|].
    apply ln_app; [apply ln_if; lleaf|].
    apply ln_app; [lleaf|]. apply kb_line. now apply kb_defaultPost. }
  destruct (str_eqb S old) eqn:E.
  - apply str_eqb_eq in E. destruct Hold as [Hold|Ho].
    { exfalso. rewrite Hold in E. rewrite E in HS. discriminate (known_named [] HS). }
    apply After; [exact Ho|]. apply ln_convertScript; [exact devanagari_known|exact Ho].
  - apply After; [exact HT|apply ln_nil].
Qed.
Theorem ln_rest : forall S T old nat pre post, In S known -> In T known -> (old = [] \/ In old known) ->
  Forall line_pre pre -> Forall line_post post -> ln (convert_rest S T old nat pre post).
Proof.
  intros S T old nat pre post HS HT Hold Hpre Hpost. unfold convert_rest. apply ln_app; [apply kb_line; apply kb_PreProcess|].
  pose proof (var_switch_both S T nat pre post) as V. unfold var_both in V.
  destruct (variant_switch S T nat pre post) as [[S' T'] nat']. destruct V as [VS VT].
  assert (HS' : In S' known) by exact (proj1 (var_src_fits S S' VS HS)).
  assert (HT' : In T' known) by (destruct VT as [-> | VT]; [exact HT|exact (proj1 (variant_fits T' VT))]).
  apply ln_app; [apply kb_line; unfold soyombo_mark; apply kb_if; bleaf|]. now apply ln_tail.
Qed.
Theorem ln_main : forall S0 T0 nat pre post, In S0 known -> In T0 known ->
  Forall line_pre pre -> Forall line_post post -> ln (convert_main (Args S0 T0 nat pre post)).
Proof.
  intros S0 T0 nat pre post HS0 HT0 Hpre Hpost. unfold convert_main.
  apply ln_if; [apply ln_nil|]. apply ln_if; [apply ln_nil|].
  destruct (semitic_switch_cases S0 T0 nat) as [P Q]. destruct (semitic_switch S0 T0 nat) as [S T]. cbn [fst snd] in *.
  assert (HS : In S known) by (destruct P as [-> | P]; [exact HS0|exact (proj1 (sem_names_known _ P))]).
  assert (HT : In T known) by (destruct Q as [-> | Q]; [exact HT0|exact (proj1 (sem_names_known _ Q))]).
  clear P Q HS0 HT0 S0 T0.
  apply ln_app; [apply ln_if; lleaf|]. apply ln_app; [apply ln_if; lleaf|]. cbv zeta.
  set (same := str_eqb S T && negb (str_eqb S "Hiragana"%u) && negb (str_eqb S "Katakana"%u) && negb (mem S GM_SemiticScripts)).
  set (old := if same then T else []). set (U := if same then "Devanagari"%u else T).
  assert (Hold : old = [] \/ In old known) by (subst old; destruct same; [now right|now left]).
  assert (HU : In U known) by (subst U; destruct same; [exact devanagari_known|exact HT]).
  clearbody U old. clear same.
  assert (Rest : forall pre post, Forall line_pre pre -> Forall line_post post -> ln (convert_rest S U old nat pre post))
    by (intros; now apply ln_rest).
  apply ln_if; [|now apply Rest].
  assert (Other : ln
    (let! signs := CrunchList "SignMap"%u S in
     let! danda := idx signs 1 in
     if str_eqb danda "।"%u then convert_rest S U old nat (pre ++ ["RetainDevangariDanda"%u]) post
     else convert_rest S U old nat pre (post ++ [if mem U GM_Transliteration then "Dot2Pipes"%u else "Dot2Dandas"%u]))).
  { apply ln_withS. intros signs _. apply ln_withS. intros d _. apply ln_if; apply Rest; try assumption.
    - apply Forall_app. split; [assumption|]. constructor; [exact danda_line|constructor].
    - apply Forall_app. split; [assumption|]. constructor; [|constructor]. destruct (mem U GM_Transliteration); [exact pipes_line|exact dandas_line]. }
  destruct (mem S GM_pipeScripts) eqn:Ep; [|exact Other].
  apply ln_IfIn; [|exact Other]. apply mem_In in Ep. apply ln_app; [exact (kb_line _ (kb_check _ (b_pipes S Ep)))|]. now apply Rest.
Qed.

(** ** The names that are resolved first *)
Definition lopts (pre post : list str) : Prop := Forall line_pre pre /\ Forall line_post post.
Lemma iso_line : forall o, iso_good o = true -> line_pre o /\ line_post o.
Proof. intros o H. destruct (iso_good_opt o H) as [P Q]. split; [exact (kb_line _ P)|exact (kb_line _ Q)]. Qed.
Lemma lpart_known : forall rec S T nat pre post, In S known -> In T known -> lopts pre post -> ln (iso_part rec (Args S T nat pre post)).
Proof.
  intros rec S T nat pre post HS HT [P Q]. unfold iso_part. rewrite (known_no_iso T HT), (known_no_iso S HS). cbn [app]. now apply ln_main.
Qed.
Lemma ln_n_known : forall n S T nat pre post, In S known -> In T known -> S <> "RomanLoC"%u -> T <> "RomanLoC"%u -> lopts pre post ->
  ln (convert_n (Datatypes.S n) (Args S T nat pre post)).
Proof. intros. cbn [convert_n]. rewrite step_no_loc; [|assumption|assumption]. now apply lpart_known. Qed.
Lemma lpart_own : forall rec S T nat pre post, In S iso_keys -> lookup S GM_semiticISO = Some T -> In T vias -> lopts pre post ->
  ln (iso_part rec (Args S T nat pre post)).
Proof.
  intros rec S T nat pre post HS E HT [P Q]. destruct (via_fits T HT) as (KT & _ & _ & _).
  unfold iso_part. rewrite (known_no_iso T KT), E, str_eqb_refl. cbn [app]. destruct (iso_line _ (proj2 (iso_goods S HS))) as [O1 O2].
  apply ln_main; [exact latn_known|exact KT|now constructor|now constructor].
Qed.
Lemma lpart_iso_source : forall n S T nat pre post, In S iso_keys -> In T known -> lopts pre post ->
  ln (iso_part (convert_n (Datatypes.S n)) (Args S T nat pre post)).
Proof.
  intros n S T nat pre post HS HT O. destruct (iso_vias S HS) as (v & E & Hv). destruct (str_eqb v T) eqn:EV.
  { apply str_eqb_eq in EV. rewrite <- EV. now apply lpart_own. }
  destruct (via_fits v Hv) as (Kv & Nv & _ & _). unfold iso_part. rewrite (known_no_iso T HT), E, EV. cbn [app]. apply ln_app.
  - cbn [convert_n]. rewrite step_no_loc; [now apply lpart_own|now apply iso_plain|exact Nv].
  - destruct O as [P Q]. now apply ln_main.
Qed.
Lemma lpart_iso_target : forall n S T nat pre post, (In S known /\ S <> "RomanLoC"%u) \/ In S iso_keys -> In T iso_keys -> lopts pre post ->
  ln (iso_part (convert_n (Datatypes.S (Datatypes.S n))) (Args S T nat pre post)).
Proof.
  intros n S T nat pre post HS HT O. destruct (iso_vias T HT) as (v & E & Hv). destruct (via_fits v Hv) as (Kv & Nv & _ & _).
  unfold iso_part. rewrite E, (known_no_iso v Kv). cbn [app]. destruct (iso_line _ (proj1 (iso_goods T HT))) as [O1 O2].
  apply ln_app; [apply ln_if; [apply ln_nil|]|destruct O as [P Q]; apply ln_main; [exact Kv|exact latn_known|now constructor|now constructor]].
  destruct HS as [[HS NS]|HS]; [now apply ln_n_known|].
  change (ln (convert_step (convert_n (Datatypes.S n)) (Args S v nat pre post))).
  rewrite step_no_loc; [now apply lpart_iso_source|now apply iso_plain|exact Nv].
Qed.
Theorem lpart_all : forall S T nat pre post, named_ok S -> named_ok T -> (In S iso_keys \/ In T iso_keys -> S <> "RomanLoC"%u) -> lopts pre post ->
  ln (iso_part (convert_n 2) (Args S T nat pre post)).
Proof.
  intros S T nat pre post HS HT HN O. destruct HT as [HT|HT].
  - destruct HS as [HS|HS]; [now apply lpart_known|]. now apply lpart_iso_source.
  - apply lpart_iso_target; try assumption. destruct HS as [HS|HS]; [left; split; [exact HS|apply HN; now right]|now right].
Qed.

(** *** RomanLoC *)
Definition loc_l (a : args) : bool :=
  mem (a_src a) known && mem (a_tgt a) known && forallb (fun o => keep NL (PrP_call o)) (a_pre a) && forallb (fun o => keep NL (PP_call o)) (a_post a).
Definition tgt_l (nat : bool) (S : str) : bool :=
  let a := loc_target (Args S "RomanLoC"%u nat [] []) in
  loc_l a && negb (str_eqb (a_src a) "RomanLoC"%u) && negb (str_eqb (a_tgt a) "RomanLoC"%u && negb (mem (a_src a) GM_LoCScripts)).
Definition src_l (nat : bool) (T : str) : bool :=
  let a := loc_source (Args "RomanLoC"%u T nat [] []) in
  loc_l a && negb (str_eqb (a_src a) "RomanLoC"%u && negb (mem (a_tgt a) GM_LoCScripts)).
Lemma tgt_ls : forall S, In S GM_LoCScripts -> tgt_l true S && tgt_l false S = true.
Proof. apply forallb_forall. vm_compute. reflexivity. Qed.
Lemma src_ls : forall T, In T GM_LoCScripts -> src_l true T && src_l false T = true.
Proof. apply forallb_forall. vm_compute. reflexivity. Qed.
Lemma loc_l_opts : forall a, loc_l a = true -> In (a_src a) known /\ In (a_tgt a) known /\ lopts (a_pre a) (a_post a).
Proof.
  intros a H. unfold loc_l in H. apply andb_true_iff in H as [H H4]. apply andb_true_iff in H as [H H3]. apply andb_true_iff in H as [H1 H2].
  rewrite forallb_forall in H3, H4. split; [now apply mem_In|]. split; [now apply mem_In|].
  split; apply Forall_forall; intros o Ho; [exact (ln_check _ (H3 o Ho))|exact (ln_check _ (H4 o Ho))].
Qed.
Theorem ln_convert : forall S T nat pre post, named_ok S -> named_ok T -> lopts pre post -> ln (convert_prog S T nat pre post).
Proof.
  intros S T nat pre post HS HT O. unfold convert_prog.
  change (ln (convert_step (convert_n 2) (Args S T nat pre post))). rewrite convert_step_parts.
  destruct (str_eqb T "RomanLoC"%u) eqn:ET.
  - apply str_eqb_eq in ET. rewrite ET in *. clear ET T. destruct (mem S GM_LoCScripts) eqn:ML.
    + apply mem_In in ML. pose proof (tgt_ls S ML) as C. apply andb_true_iff in C as [Ct Cf].
      assert (C : tgt_l nat S = true) by (destruct nat; assumption). clear Ct Cf. unfold tgt_l in C. cbv zeta in C.
      rewrite (loc_target_frame S nat pre post). cbv zeta. revert C. generalize (loc_target (Args S "RomanLoC"%u nat [] [])). intros a C.
      apply andb_true_iff in C as [C C2]. apply andb_true_iff in C as [C C1]. apply loc_l_opts in C as (A0 & A1 & A2).
      apply negb_true_iff in C1, C2. apply str_eqb_neq in C1. destruct a as [S' T' nat' P Q]. cbn [a_src a_tgt a_nat a_pre a_post] in *.
      unfold loc_target_other. rewrite C2. rewrite (source_done _ S' T' nat' (pre ++ P) (Q ++ post) C1).
      apply lpart_all; [now left|now left|auto|]. destruct O as [O1 O2], A2 as [P1 P2]. split; apply Forall_app; now split.
    + assert (E : loc_target (Args S "RomanLoC"%u nat pre post) = Args S "RomanLoC"%u nat pre post).
      { unfold loc_target. rewrite ML, andb_false_r. reflexivity. }
      rewrite E. unfold loc_target_other. rewrite ML, str_eqb_refl. cbn [andb negb]. clear E.
      destruct (str_eqb S "RomanLoC"%u) eqn:ES.
      * apply str_eqb_eq in ES. rewrite ES in *. assert (M : mem "RomanLoC"%u GM_SemiticScripts = false) by (vm_compute; reflexivity). rewrite M.
        assert (E1 : loc_source_mark (Args "RomanLoC"%u "ISO"%u nat pre post) = []) by (vm_compute; reflexivity).
        assert (E2 : loc_source_other (loc_source (Args "RomanLoC"%u "ISO"%u nat pre post)) = Args "ISO"%u "ISO"%u nat pre post)
          by (vm_compute; reflexivity).
        rewrite E1, E2. cbn [app]. apply (lpart_all "ISO"%u "ISO"%u nat pre post); [left; exact iso_known|left; exact iso_known|discriminate|exact O].
      * apply str_eqb_neq in ES. destruct (mem S GM_SemiticScripts).
        { rewrite (source_done _ S "ISO233"%u nat pre post ES). apply lpart_all; auto; right; exact iso233_key. }
        { rewrite (source_done _ S "ISO"%u nat pre post ES). apply lpart_all; auto; left; exact iso_known. }
  - assert (E : loc_target_other (loc_target (Args S T nat pre post)) = Args S T nat pre post).
    { unfold loc_target. rewrite ET. cbn [andb]. unfold loc_target_other. rewrite ET. reflexivity. }
    rewrite E. clear E. destruct (str_eqb S "RomanLoC"%u) eqn:ES.
    + apply str_eqb_eq in ES. rewrite ES in *. clear ES S.
      apply ln_app; [unfold loc_source_mark; apply ln_if; lleaf|].
      destruct (mem T GM_LoCScripts) eqn:ML.
      * apply mem_In in ML. pose proof (src_ls T ML) as C. apply andb_true_iff in C as [Ct Cf].
        assert (C : src_l nat T = true) by (destruct nat; assumption). clear Ct Cf. unfold src_l in C. cbv zeta in C.
        destruct (loc_source_frame T nat pre post) as (pre' & Hpre' & ->). revert Hpre' C.
        generalize (loc_source (Args "RomanLoC"%u T nat [] [])). intros a Hpre' C.
        apply andb_true_iff in C as [C C2]. apply loc_l_opts in C as (A0 & A1 & A2). apply negb_true_iff in C2.
        destruct a as [S' T' nat' P Q]. cbn [a_src a_tgt a_nat a_pre a_post] in *. unfold loc_source_other. rewrite C2.
        apply lpart_all; [now left|now left| |].
        { intros [F|F]; [apply known_no_iso in A0|apply known_no_iso in A1];
            destruct (iso_vias _ F) as (v & E & _); unfold no_iso in *; congruence. }
        { destruct O as [O1 O2], A2 as [P1 P2]. split; [destruct Hpre' as [-> | ->]; apply Forall_app; now split|apply Forall_app; now split]. }
      * assert (E1 : loc_source (Args "RomanLoC"%u T nat pre post) = Args "RomanLoC"%u T nat pre post).
        { unfold loc_source. rewrite ML, andb_false_r. reflexivity. }
        rewrite E1. unfold loc_source_other. rewrite ML, str_eqb_refl. cbn [andb negb].
        destruct (mem T GM_SemiticScripts).
        { apply (lpart_all "ISO233"%u T nat pre post); [right; exact iso233_key|exact HT|discriminate|exact O]. }
        { apply (lpart_all "ISO"%u T nat pre post); [left; exact iso_known|exact HT|discriminate|exact O]. }
    + apply str_eqb_neq in ES. rewrite (source_done _ S T nat pre post ES). now apply lpart_all.
Qed.

(** ** The theorem *)
Lemma brks_count : forall s, length (brks s) = count_occ N.eq_dec s 10.
Proof.
  induction s as [|c s IH]; [reflexivity|]. change (brks (c :: s)) with (brk c ++ brks s). rewrite app_length, IH. cbn [count_occ]. unfold brk.
  destruct (N.eqb_spec c 10) as [->|E]; destruct (N.eq_dec _ 10) as [E'|E']; congruence || reflexivity.
Qed.
Lemma lines_opts : forall pre post, (forall o, In o pre -> In o PrP_names) -> (forall o, In o post -> In o PP_names) -> ~ In "TaiThamMoveNnga"%u post -> lopts pre post.
Proof.
  intros pre post P Q N. split; apply Forall_forall; intros o Ho; [apply pre_line; now apply P|]. apply post_line; [now apply Q|].
  intros [<-|[]]. exact (N Ho).
Qed.

(** C37: the result has as many line feeds as the text, for all supported scripts and all known options but one. *)
Theorem lines_survive : forall S T txt nat pre post r, In S supported -> In T supported ->
  (forall o, In o pre -> In o PrP_names) -> (forall o, In o post -> In o PP_names) -> ~ In "TaiThamMoveNnga"%u post ->
  convert S T txt nat pre post = Ok r ->
  count_occ N.eq_dec r 10 = count_occ N.eq_dec txt 10.
Proof.
  intros S T txt nat pre post r HS HT P Q N E. rewrite <- !brks_count. f_equal.
  apply (ln_convert S T nat pre post); [now apply supported_named|now apply supported_named|now apply lines_opts|exact E].
Qed.

(** The lines of a text. *)
Fixpoint lines (s : str) : list str :=
  match s with
  | [] => [[]]
  | c :: s => if c =? 10 then [] :: lines s else match lines s with l :: ls => (c :: l) :: ls | [] => [[c]] end
  end.
Lemma lines_length : forall s, length (lines s) = Datatypes.S (count_occ N.eq_dec s 10).
Proof.
  induction s as [|c s IH]; [reflexivity|]. cbn [lines count_occ]. destruct (N.eqb_spec c 10) as [->|E]; destruct (N.eq_dec _ 10) as [E'|E']; try congruence.
  - cbn [length]. now rewrite IH.
  - destruct (lines s) as [|l ls]; [discriminate|]. exact IH.
Qed.
Corollary lines_kept : forall S T txt nat pre post r, In S supported -> In T supported ->
  (forall o, In o pre -> In o PrP_names) -> (forall o, In o post -> In o PP_names) -> ~ In "TaiThamMoveNnga"%u post ->
  convert S T txt nat pre post = Ok r ->
  length (lines r) = length (lines txt).
Proof. intros S T txt nat pre post r HS HT P Q N E. rewrite !lines_length. f_equal. exact (lines_survive S T txt nat pre post r HS HT P Q N E). Qed.
Lemma lines_filter : forall f s, f 10 = true -> lines (filter f s) = map (filter f) (lines s).
Proof.
  intros f s H. induction s as [|c s IH]; [reflexivity|]. cbn [filter lines]. destruct (N.eqb_spec c 10) as [->|E].
  - rewrite H. cbn [lines N.eqb Pos.eqb map filter]. now rewrite IH.
  - destruct (f c) eqn:F.
    + cbn [lines]. apply N.eqb_neq in E. rewrite E, IH. destruct (lines s) as [|l ls]; cbn [map filter]; now rewrite F.
    + rewrite IH. destruct (lines s) as [|l ls] eqn:L; [exfalso; apply (f_equal (@length str)) in L; rewrite lines_length in L; discriminate|].
      cbn [map filter]. now rewrite F.
Qed.
(** Foreign characters stay on their line. *)
Theorem foreign_lines : forall S T txt nat pre post r, carried S T -> known_options pre post ->
  (forall c, In c txt -> ~ ideograph_variant c) ->
  convert S T txt nat pre post = Ok r ->
  map (filter foreign) (lines r) = map (filter foreign) (lines txt).
Proof.
  intros S T txt nat pre post r HN HO HV E. rewrite <- !lines_filter by (vm_compute; reflexivity). f_equal.
  exact (foreign_survive S T txt nat pre post r HN HO HV E).
Qed.

Section Public.
Variable uname : N -> option str.
Variable uscript : N -> str.
Variable lfind : str -> res str.
(** C37 for [transliterate.process]: names and options in any case, unknown options do not matter. *)
Theorem process_lines_survive : forall src tgt txt nat pre post r, src <> "autodetect"%u ->
  In (canonical_name src) supported -> In (canonical_name tgt) supported ->
  ~ In "TaiThamMoveNnga"%u (resolve_options PP_names post) ->
  snd (process uname uscript lfind src tgt txt nat post pre "default"%u) = Ok r ->
  length (lines r) = length (lines txt).
Proof.
  intros src tgt txt nat pre post r Ha HS HT N E. unfold process in E. rewrite str_eqb_refl in E.
  rewrite process_default_known in E by assumption. rewrite convert_default_value in E.
  refine (lines_kept _ _ txt nat _ _ r HS HT _ _ N E); intros o Ho; now apply resolve_in in Ho as [Ho _].
Qed.
End Public.

(** ** The hypotheses can be met, and are needed *)
Example lines_case : In "Urdu"%u supported /\ In "Syrj"%u supported /\ In "IPA"%u supported /\ In "TakriRemoveGemination"%u PP_names
  /\ exists r, convert "Devanagari"%u "IPA"%u ("धर्म"%u ++ [10; 10] ++ "ॐ"%u ++ [10]) true [] ["TakriRemoveGemination"%u] = Ok r
       /\ length (lines r) = 4%nat /\ r <> [].
Proof.
  split; [listed_name|]. split; [listed_name|]. split; [listed_name|]. split; [listed_name|]. eexists. split; [vm_compute; reflexivity|]. split; [vm_compute; reflexivity|discriminate].
Qed.
(** The excluded option drops all lines. *)
Theorem tai_tham_nnga_lines_refuted : exists r, In "TaiThamMoveNnga"%u PP_names
  /\ convert "Devanagari"%u "TaiTham"%u ("क"%u ++ [10] ++ "ख"%u) true [] ["TaiThamMoveNnga"%u] = Ok r /\ length (lines r) = 1%nat.
Proof. eexists. split; [listed_name|]. split; [vm_compute; reflexivity|vm_compute; reflexivity]. Qed.
