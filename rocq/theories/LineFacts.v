(** * Line breaks survive: the programs keep the number of line feeds (for property C37, see Lines.v).

    Proof machinery and the traversal of the conversion between two scripts; no code of /repo is
    modelled here. *)
From Coq Require Import List NArith ZArith Bool Lia Permutation.
From Verif Require Import PyStr StrFacts UnicodeTables Regex Unicode Prog GMLists GeneralMap FixNum
  PostProcess1 ConvertFix1 PreProcess1 PostProcess2 GimelData Gimeltra Convert Dispatch YamlData Transliterate
  AbsRegex NormCut SortFacts TableFacts SafeFacts TotalFacts Marks MarkFacts Keeps KeepFacts.
Import ListNotations.
Local Open Scope N_scope.

(** ** The guard that watches line feeds only *)
Definition NL : guard := Guard (fun c => negb (c =? 10)) (fun neg l => negb (in_set neg l 10)) true.
Lemma NL_sound : sound NL.
Proof.
  split.
  - intros neg l c H Q. cbn [g_set NL] in H. cbn [hush NL]. destruct (N.eqb_spec c 10) as [->|]; [|reflexivity]. now rewrite Q in H.
  - intros _ c H. cbn [hush NL]. apply N.eqb_neq in H. now rewrite H.
Qed.
(** The line feeds of a text. *)
Definition brk (c : N) : str := if c =? 10 then [10] else [].
Definition brks (s : str) : str := pj brk s.
Lemma brk_hush : forall c, hush NL c = true -> brk c = [].
Proof. intros c H. cbn [hush NL] in H. unfold brk. now destruct (c =? 10). Qed.
Lemma brks_hushed : forall s, hushed NL s = true -> brks s = [].
Proof. exact (pj_hushed NL brk brk_hush). Qed.
Lemma brks_filter : forall s, brks s = filter (N.eqb 10) s.
Proof. induction s as [|c s IH]; [reflexivity|]. cbn [brks pj flat_map filter]. unfold brk at 1. rewrite (N.eqb_sym 10 c). destruct (N.eqb_spec c 10) as [->|]; cbn [app]; [f_equal|]; exact IH. Qed.

Definition ln (p : prog) : Prop := forall s r, run p s = Ok r -> brks r = brks s.
(** A program that keeps foreign characters keeps line feeds. *)
Lemma decomp_feed : forall c, In 10 (decomp c) -> c = 10.
Proof.
  intros c H. destruct ((0xAC00 <=? c) && (c <=? 0xD7A3)) eqn:E.
  { exfalso. apply andb_true_iff in E as [E1 E2]. apply N.leb_le in E1, E2. destruct (hangul A fits_A c (conj E1 E2)) as [_ D].
    unfold hushed in D. rewrite forallb_forall in D. specialize (D 10 H). discriminate D. }
  unfold decomp in H. rewrite E, decomp_trie_eq in H. destruct (tfind c (tbuild decomp_table)) as [l|] eqn:T; [|destruct H as [H|[]]; exact H].
  apply tfind_In in T. assert (F : forallb (fun p => hushed NL (snd p)) decomp_table = true) by (vm_compute; reflexivity).
  rewrite forallb_forall in F. specialize (F _ T). cbn [snd] in F. unfold hushed in F. rewrite forallb_forall in F. specialize (F 10 H). discriminate F.
Qed.
Lemma keeps_ln : forall (al : ranges) p, fits al = true -> hush al 10 = false -> keeps al p -> ln p.
Proof.
  intros al p F H K s r E. destruct (K s r E) as [P _].
  assert (D10 : decomp 10 = [10]) by (vm_compute; reflexivity).
  assert (Q : forall t, brks t = filter (N.eqb 10) (pj (pr1 al) t)).
  { induction t as [|c t IH]; [reflexivity|]. change (brk c ++ brks t = filter (N.eqb 10) (pr1 al c ++ pj (pr1 al) t)). rewrite filter_app, IH. f_equal.
    unfold brk, pr1. destruct (N.eqb_spec c 10) as [->|N].
    - rewrite D10. cbn [filter]. unfold other. rewrite H. reflexivity.
    - symmetry. assert (G : ~ In 10 (decomp c)) by (intros I; exact (N (decomp_feed c I))). revert G. generalize (decomp c) as l.
      induction l as [|d l IHl]; intros G; [reflexivity|]. cbn [filter]. destruct (other al d); cbn [filter].
      + destruct (N.eqb_spec 10 d) as [<-|]; [exfalso; apply G; now left|]. apply IHl. intros I. apply G. now right.
      + apply IHl. intros I. apply G. now right. }
  now rewrite !Q, P.
Qed.
Lemma kp_ln : forall p, kp p -> ln p.
Proof. intros p. exact (keeps_ln A p fits_A eq_refl). Qed.
Lemma kb_ln : forall p, keeps barred p -> ln p.
Proof. intros p. exact (keeps_ln barred p fits_barred eq_refl). Qed.

(** ** Programs *)
Lemma ln_nil : ln [].
Proof. intros s r H. cbn [run] in H. congruence. Qed.
Lemma ln_raise : forall e, ln [Raise e].
Proof. intros e s r H. discriminate. Qed.
Lemma ln_app : forall p q, ln p -> ln q -> ln (p ++ q).
Proof.
  intros p q Hp Hq s r H. rewrite run_app in H. destruct (run p s) as [s'|] eqn:E; [|discriminate]. cbn [rbind] in H.
  rewrite (Hq _ _ H). now apply Hp.
Qed.
Lemma ln_cons : forall o p, ln [o] -> ln p -> ln (o :: p).
Proof. intros o p. exact (ln_app [o] p). Qed.
Lemma ln_if : forall (b : bool) p q, ln p -> ln q -> ln (if b then p else q).
Proof. intros [|]; auto. Qed.
Lemma ln_withS : forall (X : Type) (r : res X) f, (forall a, r = Ok a -> ln (f a)) -> ln (withS r f).
Proof. intros X [a|e] f H; [now apply H|apply ln_raise]. Qed.
Lemma ln_foreach : forall (X : Type) (l : list X) f, (forall x, In x l -> ln (f x)) -> ln (foreach l f).
Proof.
  intros X l f H. unfold foreach. induction l as [|x l IH]; cbn [flat_map]; [apply ln_nil|].
  apply ln_app; [apply H; now left|apply IH; intros y Hy; apply H; now right].
Qed.
Lemma ln_one : forall o, (forall s r, run_op o s = Ok r -> brks r = brks s) -> ln [o].
Proof. intros o H s r E. cbn [run] in E. destruct (run_op o s) as [s'|] eqn:R; [|discriminate]. assert (s' = r) as -> by congruence. now apply H. Qed.
Lemma ln_Replace : forall x y, brks y = brks x -> ln [Replace x y].
Proof.
  intros x y H. apply ln_one. intros s r E. cbn [run_op] in E. assert (r = replace x y s) as -> by congruence. exact (replace_keeps brk x y s H).
Qed.
Lemma ln_IfIn : forall x p q, ln p -> ln q -> ln [IfIn x p q].
Proof. intros x p q Hp Hq. apply ln_one. intros s r E. rewrite run_op_IfIn in E. destruct (contains x s); [now apply Hp|now apply Hq]. Qed.
Lemma ln_Try : forall h p, ln p -> ln [Try h p].
Proof.
  intros h p Hp. apply ln_one. intros s r E. rewrite run_op_Try in E. destruct (run p s) as [s'|e] eqn:R.
  - assert (s' = r) as -> by congruence. now apply Hp.
  - destruct (h e); [|discriminate]. congruence.
Qed.
Lemma ln_EvenParts : forall sep p, hushed NL sep = true -> sep <> [] -> ln p -> ln [EvenParts sep p].
Proof.
  intros sep p Hs N Hp. apply ln_one. intros s r E. rewrite run_op_EvenParts in E.
  assert (P : forall l b r, alt_parts (run p) b l = Ok r -> brks r = brks (concat l)).
  { induction l as [|w l IH]; intros b r0 Q; cbn [alt_parts] in Q; [assert (r0 = []) as -> by congruence; reflexivity|].
    destruct (if b then run p w else Ok w) as [w'|] eqn:Ew; [|discriminate].
    destruct (alt_parts (run p) (negb b) l) as [r'|] eqn:El; [|discriminate]. assert (r0 = w' ++ r') as -> by congruence.
    assert (W : brks w' = brks w) by (destruct b; [now apply Hp|congruence]).
    cbn [concat]. unfold brks in *. rewrite !pj_app, W. f_equal. exact (IH _ _ El). }
  rewrite (P _ _ _ E). unfold split, brks. rewrite (split_go_keeps brk sep (brks_hushed _ Hs) N). reflexivity.
Qed.
Lemma ln_op : forall o, keep_op NL o = true -> ln [o].
Proof.
  assert (G : forall p, Forall (fun o => keep_op NL o = true -> ln [o]) p -> keep NL p = true -> ln p).
  { induction 1 as [|o p Ho _ IH]; intros H; [apply ln_nil|]. cbn [keep] in H. destruct (keep_op NL o) eqn:E; [|discriminate].
    apply ln_cons; [now apply Ho|now apply IH]. }
  assert (Go : forall p, (fix go (p : list op) : bool := match p with [] => true | o' :: p' => if keep_op NL o' then go p' else false end) p = keep NL p).
  { induction p as [|o p IH]; [reflexivity|]. cbn [keep]. destruct (keep_op NL o); [exact IH|reflexivity]. }
  induction o as [x y|p t|x p q Hp Hq|t|t| |c|h p Hp|sep p Hp|r t|f|f|e] using op_ind'; intros H.
  - cbn [keep_op] in H. apply ln_Replace. apply orb_true_iff in H as [H|H]; [now apply str_eqb_eq in H as ->|].
    apply andb_true_iff in H as [Hx Hy]. now rewrite (brks_hushed x Hx), (brks_hushed y Hy).
  - cbn [keep_op] in H. apply ln_one. intros s r E. cbn [run_op] in E. exact (re_sub_keeps NL NL_sound brk brk_hush _ _ _ _ H E).
  - cbn [keep_op] in H. rewrite !Go in H. destruct (keep NL p) eqn:Ep; [|discriminate]. apply ln_IfIn; now apply G.
  - cbn [keep_op] in H. apply ln_one. intros s r E. cbn [run_op] in E. assert (r = s ++ t) as -> by congruence.
    unfold brks. rewrite pj_app. fold (brks t). rewrite (brks_hushed t H). apply app_nil_r.
  - cbn [keep_op] in H. apply ln_one. intros s r E. cbn [run_op] in E. assert (r = t ++ s) as -> by congruence.
    unfold brks. rewrite pj_app. fold (brks t). now rewrite (brks_hushed t H).
  - apply kp_ln. now apply (keep_op_sound A fits_A).
  - apply kp_ln. now apply (keep_op_sound A fits_A).
  - cbn [keep_op] in H. rewrite Go in H. apply ln_Try. now apply G.
  - cbn [keep_op] in H. rewrite Go in H. destruct (hushed NL sep) eqn:Es; [|discriminate]. cbn [andb] in H.
    destruct (str_eqb sep []) eqn:En; [discriminate|]. cbn [negb] in H. apply ln_EvenParts; [exact Es|now apply str_eqb_neq|now apply G].
  - cbn [keep_op] in H. apply ln_one. intros s r0 E. cbn [run_op] in E. assert (r0 = sub r t s) as -> by congruence.
    exact (sub_keeps NL NL_sound brk brk_hush _ _ _ H).
  - discriminate.
  - discriminate.
  - apply ln_raise.
Qed.
Theorem ln_check : forall p, keep NL p = true -> ln p.
Proof.
  induction p as [|o p IH]; intros H; [apply ln_nil|]. cbn [keep] in H. destruct (keep_op NL o) eqn:E; [|discriminate].
  apply ln_cons; [now apply ln_op|now apply IH].
Qed.
Lemma ln_replace : forall x y, hushed A x = true -> hushed A y = true -> ln [Replace x y].
Proof. intros x y Hx Hy. apply kp_ln. now apply kp_replace. Qed.
Lemma ln_replaces : forall l : list (str * str), (forall x y, In (x, y) l -> hushed A x = true /\ hushed A y = true) -> ln (replace_all l).
Proof. intros l H. apply kp_ln. now apply kp_replaces. Qed.
Ltac lleaf := apply ln_check; vm_compute; reflexivity.
Ltac lpieces := repeat lazymatch goal with
  | |- ln (_ ++ _) => apply ln_app
  | |- ln (if _ then _ else _) => apply ln_if
  | |- ln [IfIn _ _ _] => apply ln_IfIn
  end.
Lemma A_NL : forall s, hushed A s = true -> hushed NL s = true.
Proof.
  intros s H. unfold hushed in *. rewrite forallb_forall in *. intros c Hc. specialize (H c Hc). cbn [hush NL].
  destruct (N.eqb_spec c 10) as [->|]; [discriminate H|reflexivity].
Qed.

(** ** The sign om *)
Lemma feedless_lits : forall o, hushed NL o = true -> forallb (fun i => match i with TLit c => hush NL c | TGroup n => negb (Nat.eqb n 0) end) (map TLit o) = true.
Proof. induction o as [|c o IH]; intros H; [reflexivity|]. cbn [hushed forallb] in H. apply andb_true_iff in H as [H1 H2]. cbn [map forallb]. rewrite H1. now apply IH. Qed.
(** The literal characters of a template do not matter. *)
Lemma feedless_re : forall r a o b, hushed NL o = true -> keeps_re NL r (a ++ b) = true -> keeps_re NL r (a ++ map TLit o ++ b) = true.
Proof.
  intros r a o b Ho H. unfold keeps_re in *. cbv zeta in *. rewrite !forallb_app, (feedless_lits o Ho), !tgroups_app, tgroups_map in *. exact H.
Qed.
Definition om_lines (p : str) (n : nat) (t : list titem) : bool :=
  match compile p with None => true | Some (r, g) => Nat.leb n g && Nat.leb g 9 && keeps_re NL r t end.
Definition om_lined (punc sOm : str) : bool :=
  om_lines (punc ++ sOm ++ punc) 2 [TGroup 1; TGroup 2] && om_lines ("^"%u ++ sOm ++ punc) 1 [TGroup 1]
  && om_lines (punc ++ sOm ++ "$"%u) 1 [TGroup 1] && om_lines ("^"%u ++ sOm ++ "$"%u) 0 [].
Lemma ln_om : forall punc sOm tOm, om_lined punc sOm = true -> hushed A tOm = true -> om_plain tOm = true -> ln (om_subs punc sOm tOm).
Proof.
  intros punc sOm tOm H Ht Hp. apply A_NL in Ht. pose proof Hp as Hu. unfold om_plain in Hu. apply andb_true_iff in Hu as [Hu _]. unfold om_lined in H. bools. unfold om_subs.
  assert (Op : forall p t n pt, om_lines p n pt = true -> (forall r g l, compile p = Some (r, g) -> Nat.leb n g = true -> parse_template (S (length t)) g t = Some l ->
    keeps_re NL r pt = true -> keeps_re NL r l = true) -> ln [ReSub p t]).
  { intros p t n pt K P. apply (ln_op). cbn [keep_op]. unfold keeps_sub. unfold om_lines in K. destruct (compile p) as [[r g]|]; [|reflexivity].
    bools. destruct (parse_template (S (length t)) g t) as [l|] eqn:E; [|reflexivity]. now apply (P r g l eq_refl). }
  apply ln_cons; [|apply ln_cons; [|apply ln_cons]].
  - match goal with K : om_lines ?p ?n ?pt = true |- ln [ReSub ?p ?t] => refine (Op p t n pt K _) end. intros r g l _ Hg E K.
    destruct (parse_back _ g 0 49 (tOm ++ "\2"%u) l eq_refl ltac:(destruct g as [|[|g]]; [discriminate..|reflexivity]) (om_head tOm "\2"%u Hp eq_refl) E) as (l1 & E1 & ->).
    replace (length ("\1"%u ++ tOm ++ "\2"%u)) with (length tOm + 4)%nat in E1 by (rewrite !app_length; cbn; lia).
    apply parse_plain in E1 as (l2 & E2 & ->); [|exact Hu].
    destruct (parse_back 3 g 1 50 [] l2 eq_refl Hg eq_refl E2) as (l3 & E3 & ->).
    assert (l3 = []) as -> by (cbn [parse_template] in E3; congruence). exact (feedless_re r [TGroup 1] tOm [TGroup 2] Ht K).
  - match goal with K : om_lines ?p ?n ?pt = true |- ln [ReSub ?p ?t] => refine (Op p t n pt K _) end. intros r g l _ Hg E K.
    replace (S (length (tOm ++ "\1"%u))) with (length tOm + 3)%nat in E by (rewrite !app_length; cbn; lia).
    apply parse_plain in E as (l2 & E2 & ->); [|exact Hu].
    destruct (parse_back 2 g 0 49 [] l2 eq_refl Hg eq_refl E2) as (l3 & E3 & ->).
    assert (l3 = []) as -> by (cbn [parse_template] in E3; congruence). exact (feedless_re r [] tOm [TGroup 1] Ht K).
  - match goal with K : om_lines ?p ?n ?pt = true |- ln [ReSub ?p ?t] => refine (Op p t n pt K _) end. intros r g l _ Hg E K.
    assert (Hd : match tOm with c :: _ => match digit_val c with None => true | _ => false end | [] => true end = true)
      by (unfold om_plain in Hp; now apply andb_true_iff in Hp as [_ Hp]).
    destruct (parse_back _ g 0 49 tOm l eq_refl Hg Hd E) as (l1 & E1 & ->).
    replace (length ("\1"%u ++ tOm)) with (S (length tOm) + 1)%nat in E1 by (rewrite !app_length; cbn; lia).
    apply parse_all in E1 as ->; [|exact Hu]. pose proof (feedless_re r [TGroup 1] tOm [] Ht K) as Q. now rewrite app_nil_r in Q.
  - match goal with K : om_lines ?p ?n ?pt = true |- ln [ReSub ?p ?t] => refine (Op p t n pt K _) end. intros r g l _ Hg E K. rewrite <- (Nat.add_0_r (S (length tOm))) in E.
    apply parse_all in E as ->; [|exact Hu]. pose proof (feedless_re r [] tOm [] Ht K) as Q. now rewrite app_nil_r in Q.
Qed.
Definition om_src (S : str) : bool :=
  match CrunchSymbols GM_Signs S, first_of "OmMap"%u S with
  | Ok signs, Ok sOm => hushed A sOm && om_lined (om_punc signs) sOm && om_lined "(\s)"%u sOm
  | _, _ => true
  end.

(** ** The conversions between Brahmic scripts and romanizations *)
Definition l_ind_src (S : str) : bool :=
  om_src S && hushed_ok (first_of "OmMap"%u S) && (if mem S computed then true else keep NL (ind_prefix S)).
Definition l_lat_src (S : str) : bool :=
  om_src S && keep NL [Try is_AttributeError (CF_getattr_reverse ("Fix"%u ++ S))] && keep NL (CF_VedicSvarasLatinIndic S) && keep NL (convertInter S).
Definition l_ind_tgt (T : str) : bool :=
  plain_ok (first_of "OmMap"%u T) && hushed_ok (first_of "ViramaMap"%u T)
  && keep NL (let! vowels := CrunchSymbols GM_Vowels T in
      let! v2 := idx vowels 2%Z in
      let! v4 := idx vowels 4%Z in
      [Replace ("_"%u ++ v2) v2; Replace ("_"%u ++ v4) v4])
  && (if mem T computed then true else keep NL (CF_FixIndicOutput [] T)).
Definition l_lat_tgt (T : str) : bool :=
  hushed_ok (first_of "OmMap"%u T)
  && keep NL (CF_FixRomanOutput T) && keep NL (CF_FixVedic T)
  && keep NL (let! s := CrunchSymbols ScriptAllParts GM_Inter in
      let! t := CrunchSymbols ScriptAllParts T in
      replace_all (zip s t)).
Lemma l_ind_srcs : forall s, In s GM_IndicScripts -> l_ind_src s = true.
Proof. apply forallb_forall. vm_compute. reflexivity. Qed.
Lemma l_lat_srcs : forall s, In s GM_LatinScripts -> l_lat_src s = true.
Proof. apply forallb_forall. vm_compute. reflexivity. Qed.
Lemma l_ind_tgts : forall s, In s GM_IndicScripts -> l_ind_tgt s = true.
Proof. apply forallb_forall. vm_compute. reflexivity. Qed.
Lemma l_lat_tgts : forall s, In s GM_LatinScripts -> l_lat_tgt s = true.
Proof. apply forallb_forall. vm_compute. reflexivity. Qed.

Lemma ln_ind_prefix : forall S, In S GM_IndicScripts -> ln (ind_prefix S).
Proof.
  intros S HS. pose proof (l_ind_srcs S HS) as H. unfold l_ind_src in H. apply andb_true_iff in H as [_ H].
  destruct (mem S computed) eqn:E; [|now apply ln_check]. clear H. unfold ind_prefix.
  assert (C : ln (CF_getattr_reverse ("Fix"%u ++ S))).
  { destruct (computed_cases S E) as [-> | ->].
    - change (ln (CF_KharoshthiNumerals true)). apply kp_ln; apply kp_khar.
    - change (ln (CF_FixOldPersian true)). apply kp_ln; apply kp_FixOldPersian. }
  apply ln_app; [lleaf|]. apply ln_app.
  - destruct (computed_cases S E) as [-> | ->]; lleaf.
  - exact (ln_Try _ _ C).
Qed.
Lemma ln_FixIndicOutput : forall S T, In T GM_IndicScripts -> ln (CF_FixIndicOutput S T).
Proof.
  intros S T HT. pose proof (l_ind_tgts T HT) as B. unfold l_ind_tgt in B.
  apply andb_true_iff in B as [_ B]. destruct (mem T computed) eqn:E.
  - clear B. assert (C : ln (CF_globals_call ("Fix"%u ++ T))).
    { destruct (computed_cases T E) as [-> | ->]; [change (ln (CF_KharoshthiNumerals false)); apply kp_ln; apply kp_khar|change (ln (CF_FixOldPersian false)); apply kp_ln; apply kp_FixOldPersian]. }
    unfold CF_FixIndicOutput. apply ln_withS. intros vm Ev. apply ln_withS. intros vir Er.
    apply ln_app.
    + apply ln_cons.
      * assert (Hv : hushed A vir = true).
        { assert (F : first_of "ViramaMap"%u T = Ok vir) by (unfold first_of; rewrite Ev; exact Er).
          change (hushed_ok (Ok vir) = true). rewrite <- F. destruct (computed_cases T E) as [-> | ->]; vm_compute; reflexivity. }
        apply ln_replace; [now apply hushed_app|exact Hv].
      * apply ln_cons; [exact (ln_Try _ _ C)|]. lleaf.
    + destruct (computed_cases T E) as [-> | ->]; lleaf.
  - assert (G : ln (CF_FixIndicOutput [] T)) by (now apply ln_check). exact G.
Qed.

Theorem ln_indic_indic : forall S T, In S GM_IndicScripts -> In T GM_IndicScripts ->
  ln (indic_indic S T).
Proof.
  intros S T HS HT. pose proof (l_ind_tgts T HT) as B. unfold l_ind_tgt in B. bools.
  pose proof (l_ind_srcs S HS) as Q. unfold l_ind_src in Q. apply andb_true_iff in Q as [Q _]. apply andb_true_iff in Q as [Q _].
  assert (E : indic_indic S T = ind_prefix S
    ++ (let! signs := CrunchSymbols GM_Signs S in
      let! sOm := first_of "OmMap"%u S in
      let! tOm := first_of "OmMap"%u T in
      if Nat.eqb (length sOm) 1 then [Replace sOm tOm] else om_subs (om_punc signs) sOm tOm)
    ++ (let! pairs := charPairs id_side id_side S T in replace_all pairs)
    ++ CF_FixIndicOutput S T) by (unfold indic_indic, ind_prefix; now rewrite <- !app_assoc).
  rewrite E. clear E. apply ln_app; [now apply ln_ind_prefix|]. apply ln_app.
  { apply ln_withS. intros signs E1. apply ln_withS. intros sOm E2. apply ln_withS. intros tOm E3. unfold om_src in Q. rewrite E1, E2 in Q.
    match goal with R : plain_ok (first_of "OmMap"%u T) = true |- _ => rewrite E3 in R; cbn [plain_ok] in R end. bools.
    apply ln_if; [now apply ln_replace|now apply ln_om]. }
  apply ln_app; [|now apply ln_FixIndicOutput]. apply kp_ln; apply kp_pairs; try apply mild_id; apply lat_or_ind; now left.
Qed.

Lemma ln_RomanPreFix : ln (PrP_RomanPreFix GM_Inter).
Proof. lleaf. Qed.
Theorem ln_latin_indic : forall S T, In S GM_LatinScripts -> In T GM_IndicScripts ->
  ln (latin_indic S T).
Proof.
  intros S T HS HT. pose proof (l_ind_tgts T HT) as B. unfold l_ind_tgt in B. bools.
  pose proof (l_lat_srcs S HS) as Q. unfold l_lat_src in Q. bools. unfold latin_indic.
  apply ln_app; [now apply ln_check|]. apply ln_app; [apply ln_if; lleaf|]. apply ln_app; [lleaf|]. apply ln_app; [now apply ln_check|].
  apply ln_app.
  { apply ln_withS. intros signs E1. apply ln_withS. intros sOm E2. apply ln_withS. intros tOm E3.
    match goal with R : om_src S = true |- _ => unfold om_src in R; rewrite E1, E2 in R end.
    match goal with R : plain_ok (first_of "OmMap"%u T) = true |- _ => rewrite E3 in R; cbn [plain_ok] in R end. bools.
    apply ln_app; now apply ln_om. }
  apply ln_app; [now apply ln_check|]. apply ln_app; [exact ln_RomanPreFix|]. apply ln_app; [lleaf|].
  apply ln_app.
  { apply ln_withS. intros _ _. apply kp_ln; apply kp_pairs; [exact mild_inter|exact mild_id| |apply lat_or_ind; now left]. apply mem_In. exact inter_listed. }
  apply ln_app; [now apply ln_check|].
  apply ln_app; [|now apply ln_FixIndicOutput].
  apply ln_withS. intros vir EV. match goal with R : hushed_ok (first_of "ViramaMap"%u T) = true |- _ => rewrite EV in R; cbn [hushed_ok] in R end.
  apply ln_cons.
  - apply ln_replace; [now apply hushed_app|]. change (0x200D :: vir) with ([0x200D] ++ vir). now apply hushed_app.
  - now apply ln_replace.
Qed.

Lemma ln_PostFixRoman : forall S T, In T GM_LatinScripts -> ln (CF_PostFixRomanOutput S T).
Proof.
  intros S T HT. pose proof (l_lat_tgts T HT) as B. unfold l_lat_tgt in B. bools.
  unfold CF_PostFixRomanOutput. lpieces; lazymatch goal with |- ln (CF_FixVedic _) => now apply ln_check | |- _ => lleaf end.
Qed.
Theorem ln_latin_latin : forall S T, In S GM_LatinScripts -> In T GM_LatinScripts ->
  ln (latin_latin S T).
Proof.
  intros S T HS HT. pose proof (l_lat_tgts T HT) as B. unfold l_lat_tgt in B. bools.
  pose proof (l_lat_srcs S HS) as Q. unfold l_lat_src in Q. bools. unfold latin_latin.
  apply ln_app; [now apply ln_check|]. apply ln_app; [now apply ln_check|]. apply ln_app; [now apply ln_check|]. now apply ln_PostFixRoman.
Qed.
Definition unaspirated : list str := ["k"%u; "g"%u; "c"%u; "j"%u; "t"%u; "d"%u; "p"%u; "b"%u; "ɽ"%u; "ʈ"%u; "ɖ"%u; "r"%u].
Lemma unaspirated_silent : forall x, In x unaspirated -> silent (x ++ "(?!(ʰ|"%u ++ [0x324%N] ++ "))"%u) = true.
Proof. apply forallb_forall. vm_compute. reflexivity. Qed.
Theorem ln_indic_latin : forall S T, In S GM_IndicScripts -> In T GM_LatinScripts ->
  ln (indic_latin S T).
Proof.
  intros S T HS HT. pose proof (l_lat_tgts T HT) as B. unfold l_lat_tgt in B. bools.
  pose proof (l_ind_srcs S HS) as Q. unfold l_ind_src in Q. apply andb_true_iff in Q as [Q _]. apply andb_true_iff in Q as [_ Q].
  assert (O : forall sOm, first_of "OmMap"%u S = Ok sOm -> hushed A sOm = true).
  { intros sOm E. rewrite E in Q. exact Q. }
  assert (E : indic_latin S T = ind_prefix S
    ++ (let! sOm := first_of "OmMap"%u S in
      let! tOm := first_of "OmMap"%u T in
      [Replace sOm tOm])
    ++ (let! pairs := charPairs id_side roman_side S T in
      if str_eqb S "RomanSemitic"%u then
        let unasp := ["k"%u; "g"%u; "c"%u; "j"%u; "t"%u; "d"%u; "p"%u; "b"%u; "ɽ"%u; "ʈ"%u; "ɖ"%u; "r"%u] in
        let hasH := fun p : str * str => contains "ʰ"%u (fst p) in
        foreach (filter (fun p => negb (hasH p)) pairs ++ filter hasH pairs) (fun '(x, y) =>
          if mem x unasp then [ReSub (x ++ "(?!(ʰ|"%u ++ [0x324%N] ++ "))"%u) y] else [Replace x y])
      else replace_all pairs)
    ++ CF_FixRomanOutput T
    ++ CF_VedicSvarsIndicLatin
    ++ CF_PostFixRomanOutput S T) by (unfold indic_latin, ind_prefix, roman_side; now rewrite <- !app_assoc).
  rewrite E. clear E. apply ln_app; [now apply ln_ind_prefix|].
  apply ln_app.
  { apply ln_withS. intros sOm E2. apply ln_withS. intros tOm E3. apply ln_replace; [now apply O|].
    match goal with R : hushed_ok (first_of "OmMap"%u T) = true |- _ => rewrite E3 in R; exact R end. }
  apply ln_app.
  { apply ln_withS. intros pairs EP.
    assert (HP : forall x y, In (x, y) pairs -> tame x = true /\ tame y = true)
      by (apply (pairs_tame id_side roman_side S T mild_id mild_roman); [apply lat_or_ind; now left|apply lat_or_ind; now right|exact EP]).
    apply ln_if; [|apply ln_replaces; intros x y Hq; destruct (HP x y Hq); split; now apply tame_hushed]. cbv zeta. apply ln_foreach. intros [x y] Hxy.
    assert (Hp : In (x, y) pairs) by (apply in_app_or in Hxy as [Hxy|Hxy]; now apply filter_In in Hxy as [Hxy _]).
    destruct (HP x y Hp) as [Hx Hy]. match goal with |- ln (if mem x ?l then _ else _) => destruct (mem x l) eqn:U end; [|apply ln_replace; now apply tame_hushed].
    apply mem_In in U. apply kp_ln; apply kp_silent; [exact (unaspirated_silent x U)|now apply tame_hushed|now apply tame_unescaped]. }
  apply ln_app; [now apply ln_check|]. apply ln_app; [lleaf|]. now apply ln_PostFixRoman.
Qed.

Theorem ln_branch : forall S T p, convert_branch S T = Some p -> ln p.
Proof.
  intros S T p. unfold convert_branch.
  destruct (mem S GM_LatinScripts && mem T GM_IndicScripts) eqn:E1.
  { apply andb_true_iff in E1 as [P Q]. apply mem_In in P, Q. intros E. assert (p = latin_indic S T) as -> by congruence. now apply ln_latin_indic. }
  destruct (mem S GM_LatinScripts && mem T GM_LatinScripts) eqn:E2.
  { apply andb_true_iff in E2 as [P Q]. apply mem_In in P, Q. intros E. assert (p = latin_latin S T) as -> by congruence. now apply ln_latin_latin. }
  destruct (mem S GM_IndicScripts && mem T GM_IndicScripts) eqn:E3.
  { apply andb_true_iff in E3 as [P Q]. apply mem_In in P, Q. intros E. assert (p = indic_indic S T) as -> by congruence. now apply ln_indic_indic. }
  destruct (mem S GM_IndicScripts && mem T GM_LatinScripts) eqn:E4.
  { apply andb_true_iff in E4 as [P Q]. apply mem_In in P, Q. intros E. assert (p = indic_latin S T) as -> by congruence. now apply ln_indic_latin. }
  discriminate.
Qed.

(** ** Semitic scripts *)
Lemma ln_gim_final : forall i o, hushed NL i = true -> hushed NL o = true -> ln (gim_final i o).
Proof.
  intros i o Hi Ho. destruct (final_keep NL (map (fun '(a, b) => CRange a b) letter_ranges) (map (fun '(a, b) => CRange a b) mark_ranges) i o Hi Ho) as (H1 & H2 & H3).
  apply ln_cons; [exact (ln_op (Sub _ _) H1)|]. apply ln_cons; [exact (ln_op (Sub _ _) H2)|]. exact (ln_op (Sub _ _) H3).
Qed.
Definition l_sem (s : str) : bool :=
  keep NL [Try is_AttributeError (CF_getattr_Source_reverse ("Fix"%u ++ replace "-"%u "_"%u s) s)]
  && keep NL (PP_FixSemiticRoman s) && keep NL (PrP_FixSemiticRoman s) && keep NL (map (fun '(i, o) => Replace i o) (get_dict s gimel_ccmp))
  && forallb (fun p => hushed NL (fst p) && hushed NL (snd p)) (get_dict s gimel_fina ++ get_dict s gimel_liga)
  && keep NL (gim_to_latin s) && keep NL (gim_from_latin s).
Lemma l_sems : forall s, In s GM_SemiticScripts -> l_sem s = true.
Proof. apply forallb_forall. vm_compute. reflexivity. Qed.
Lemma ln_gim_pre : forall s t, In s GM_SemiticScripts -> ln (gim_preprocess s t).
Proof.
  intros s t Hs. pose proof (l_sems s Hs) as Q. unfold l_sem in Q. bools. unfold gim_preprocess.
  apply ln_app; [now apply ln_check|apply ln_if; [lleaf|apply ln_nil]].
Qed.
Lemma ln_gim_post : forall s, In s GM_SemiticScripts -> ln (gim_postprocess s).
Proof.
  intros s Hs. pose proof (l_sems s Hs) as Q. unfold l_sem in Q. bools.
  match goal with H : forallb _ (_ ++ _) = true |- _ => rewrite forallb_app in H end. bools.
  unfold gim_postprocess. apply ln_app.
  - match goal with H : forallb _ (get_dict s gimel_fina) = true |- _ => revert H end. induction (get_dict s gimel_fina) as [|[i o] l IH]; intros F; [apply ln_nil|].
    cbn [forallb fst snd] in F. cbn [flat_map]. bools. apply ln_app; [now apply ln_gim_final|now apply IH].
  - match goal with H : forallb _ (get_dict s gimel_liga) = true |- _ => revert H end. induction (get_dict s gimel_liga) as [|[i o] l IH]; intros F; [apply ln_nil|].
    cbn [forallb fst snd] in F. bools. change (ln ([Replace i o] ++ replace_all l)). apply ln_app; [|now apply IH].
    apply ln_Replace. now rewrite !brks_hushed.
Qed.
Lemma ln_gim_tr : forall s t, In s GM_SemiticScripts -> In t GM_SemiticScripts -> ln (gim_tr s t).
Proof.
  intros s t Hs Ht. pose proof (l_sems s Hs) as Q. pose proof (l_sems t Ht) as B. unfold l_sem in Q, B. bools.
  unfold gim_tr, gim_convert. lpieces; try apply ln_nil; try (now apply ln_gim_pre); try (now apply ln_gim_post); now apply ln_check.
Qed.
Lemma l_fix_semitics : forall S T, In S known -> In T GM_SemiticScripts -> keep NL (CF_FixSemiticOutput S T) = true.
Proof. apply (forallb_pairs (fun S T => keep NL (CF_FixSemiticOutput S T))). vm_compute. reflexivity. Qed.
Definition l_fix_other (T : str) : bool :=
  if mem T GM_SemiticScripts || mem T computed then true else negb (mem ("Fix"%u ++ replace "-"%u "_"%u T) by_source) && keep NL (fix_other T).
Lemma l_fix_others : forall T, In T known -> l_fix_other T = true.
Proof. apply forallb_forall. vm_compute. reflexivity. Qed.
Lemma ln_FixSemitic : forall S T, In S known -> In T known -> ln (CF_FixSemiticOutput S T).
Proof.
  intros S T HS HT. pose proof (l_fix_others T HT) as C. unfold l_fix_other in C.
  destruct (mem T GM_SemiticScripts) eqn:M; [apply mem_In in M; exact (ln_check _ (l_fix_semitics S T HS M))|]. cbn [orb] in C.
  assert (N : S <> []) by now intros ->; discriminate (known_named [] HS). unfold CF_FixSemiticOutput. destruct (mem T computed) eqn:K.
  - assert (B : mem ("Fix"%u ++ replace "-"%u "_"%u T) by_source = false) by (destruct (computed_cases T K) as [-> | ->]; vm_compute; reflexivity).
    rewrite (globals_call_any_source _ S N B). apply ln_cons; [lleaf|]. apply ln_Try. apply kp_ln. clear - K.
    destruct (computed_cases T K) as [-> | ->].
    + change (kp (CF_KharoshthiNumerals true)). apply kp_khar.
    + change (kp (CF_FixOldPersian true)). apply kp_FixOldPersian.
  - apply andb_true_iff in C as [C1 C2]. apply negb_true_iff in C1. rewrite (globals_call_any_source _ S N C1). exact (ln_check _ C2).
Qed.
Lemma ln_default : ln (PP_default []).
Proof. lleaf. Qed.
Lemma latn_semitic : In "Latn"%u GM_SemiticScripts.
Proof. apply mem_In. vm_compute. reflexivity. Qed.
Lemma ln_RomanSemitic : forall S T, ln (convertScript_RomanSemitic S T).
Proof.
  intros S T. unfold convertScript_RomanSemitic. apply ln_app; [|exact ln_default].
  destruct (convert_branch S T) as [p|] eqn:E; [exact (ln_branch S T p E)|apply ln_nil].
Qed.
Theorem ln_convertScript : forall S T, In S known -> In T known -> ln (convertScript S T).
Proof.
  intros S T HS HT. unfold convertScript. apply ln_app; [|exact ln_default].
  destruct (convert_branch S T) as [p|] eqn:E; [exact (ln_branch S T p E)|].
  destruct (mem S GM_SemiticScripts && mem T GM_SemiticScripts) eqn:E1.
  { apply andb_true_iff in E1 as [MS MT]. apply mem_In in MS, MT. pose proof (l_sems S MS) as Q. unfold l_sem in Q. bools.
    unfold semitic_semitic. apply ln_app; [now apply ln_check|]. apply ln_app; [apply ln_if; lleaf|].
    apply ln_app; [now apply ln_gim_tr|]. now apply ln_FixSemitic. }
  destruct (mem S (GM_IndicScripts ++ GM_LatinScripts) && mem T GM_SemiticScripts) eqn:E2.
  { apply andb_true_iff in E2 as [MS MT]. apply mem_In in MT. pose proof (l_sems T MT) as Q. unfold l_sem in Q. bools. unfold other_semitic.
    apply ln_app; [apply ln_RomanSemitic|]. apply ln_app; [lleaf|]. apply ln_app; [apply ln_if; lleaf|].
    apply ln_app; [now apply ln_check|]. apply ln_app; [apply ln_if; lleaf|].
    apply ln_app; [apply ln_gim_tr; [exact latn_semitic|assumption]|]. now apply ln_FixSemitic. }
  destruct (mem S GM_SemiticScripts && mem T (GM_IndicScripts ++ GM_LatinScripts)) eqn:E3; [|apply ln_nil].
  apply andb_true_iff in E3 as [MS MT]. apply mem_In in MS. pose proof (l_sems S MS) as Q. unfold l_sem in Q. bools. unfold semitic_other.
  apply ln_app; [now apply ln_check|]. apply ln_app; [apply ln_gim_tr; [assumption|exact latn_semitic]|].
  apply ln_app; [now apply ln_FixSemitic|]. apply ln_app; [now apply ln_check|].
  apply ln_app; [apply ln_RomanSemitic|apply ln_if; lleaf].
Qed.
