(** * Options that keep dandas (property C33). *)
From Coq Require Import List NArith ZArith Bool Lia Permutation.
From Verif Require Import PyStr StrFacts UnicodeTables Regex Unicode Prog GMLists GeneralMap FixNum
  PostProcess1 ConvertFix1 PreProcess1 PostProcess2 GimelData Gimeltra Convert Dispatch YamlData Transliterate
  AbsRegex NormCut SortFacts TableFacts SafeFacts ApiFacts TotalFacts Marks MarkFacts MarkLeak Keeps KeepFacts Foreign TextFacts.
Import ListNotations.
Local Open Scope N_scope.

(** ** What a program that keeps an alphabet's complement does to characters outside *)
Lemma filter_filter : forall (f g : N -> bool) l, (forall c, f c = true -> g c = true) -> filter f (filter g l) = filter f l.
Proof.
  intros f g l H. induction l as [|c l IH]; [reflexivity|]. cbn [filter]. destruct (g c) eqn:G; cbn [filter]; destruct (f c) eqn:F; try (now rewrite IH).
  rewrite (H c F) in G. discriminate.
Qed.
Lemma keeps_watched : forall al (D : N -> bool), fits al = true -> (forall c, D c = true -> other al c = true) ->
  forallb (fun p => negb (existsb D (snd p))) decomp_table = true ->
  forall p, keeps al p -> forall s r, run p s = Ok r -> filter D r = filter D s.
Proof.
  intros al D F HD HT p K s r E. destruct (K s r E) as [P _].
  assert (Q : forall t, filter D t = filter D (pj (pr1 al) t)); [|now rewrite (Q r), (Q s), P].
  clear s r E P K p. induction t as [|c t IH]; [reflexivity|]. cbn [pj flat_map]. rewrite filter_app. fold (pj (pr1 al) t). rewrite <- IH.
  change (c :: t) with ([c] ++ t). rewrite filter_app. f_equal. unfold pr1. rewrite (filter_filter _ _ _ HD).
  assert (None : forall l, forallb (fun d => negb (D d)) l = true -> filter D l = []).
  { induction l as [|d l IHl]; [reflexivity|]. cbn [forallb filter]. intros H. apply andb_true_iff in H as [H1 H2]. apply negb_true_iff in H1. rewrite H1. now apply IHl. }
  assert (Hush : forall d, hush al d = true -> D d = false).
  { intros d H. destruct (D d) eqn:Dd; [|reflexivity]. apply HD in Dd. unfold other in Dd. rewrite H in Dd. discriminate. }
  destruct (decomp_cases al F c) as [->|([C|[H1 H2]] & _)]; [reflexivity| |].
  - assert (Dc : D c = false). { destruct (D c) eqn:Dd; [|reflexivity]. apply HD in Dd. unfold other in Dd. rewrite C, andb_false_r in Dd. discriminate. }
    rewrite (None [c]) by (cbn [forallb]; now rewrite Dc). symmetry. unfold decomp. destruct ((0xAC00 <=? c) && (c <=? 0xD7A3)) eqn:E.
    { exfalso. apply andb_true_iff in E as [E1 E2]. apply N.leb_le in E1, E2. unfold compat in C.
      apply orb_true_iff in C. rewrite !andb_true_iff, !N.leb_le in C. lia. }
    rewrite decomp_trie_eq. destruct (tfind c (tbuild decomp_table)) as [l|] eqn:T; [|apply None; cbn [forallb]; now rewrite Dc].
    apply tfind_In in T. rewrite forallb_forall in HT. specialize (HT _ T). cbn [snd] in HT. apply negb_true_iff in HT.
    apply None. apply forallb_forall. intros d Hd. apply negb_true_iff. destruct (D d) eqn:Dd; [|reflexivity].
    assert (existsb D l = true) by (apply existsb_exists; now exists d). congruence.
  - rewrite (None [c]) by (cbn [forallb]; now rewrite (Hush c H1)). symmetry. apply None. apply forallb_forall. intros d Hd. unfold hushed in H2. rewrite forallb_forall in H2.
    now rewrite (Hush d (H2 d Hd)).
Qed.

Lemma kp_IfIn : forall x p q, kp p -> kp q -> kp [IfIn x p q].
Proof. exact (keeps_IfIn A). Qed.
Ltac kpieces2 := repeat lazymatch goal with
  | |- kp (_ ++ _) => apply kp_app
  | |- kp (if _ then _ else _) => apply kp_if
  | |- kp [IfIn _ _ _] => apply kp_IfIn
  end.

(** ** Dandas and bars *)
Definition danda (c : N) : bool := (c =? 0x964) || (c =? 0x965).
Definition bar (c : N) : bool := (c =? 0x2502) || (c =? 0x2503).
(** A danda or its bar, written in the target: as a danda, or with pipes. *)
Definition stroke (roman : bool) (c : N) : str :=
  if (c =? 0x964) || (c =? 0x2502) then (if roman then "|"%u else "।"%u)
  else if (c =? 0x965) || (c =? 0x2503) then (if roman then "||"%u else "॥"%u) else [].
Definition strokes (roman : bool) (s : str) : str := flat_map (stroke roman) s.
Definition is_stroke (roman : bool) (c : N) : bool := if roman then c =? 0x7C else danda c.
(** [a] is what is left of [b] when some characters are dropped. *)
Inductive within_order : str -> str -> Prop :=
| wo_nil : forall b, within_order [] b
| wo_take : forall c a b, within_order a b -> within_order (c :: a) (c :: b)
| wo_skip : forall c a b, within_order a b -> within_order a (c :: b).

Lemma watch_bars : forall p, kp p -> forall s r, run p s = Ok r -> filter bar r = filter bar s.
Proof.
  apply (keeps_watched A bar fits_A); [|vm_compute; reflexivity].
  intros c H. unfold bar in H. apply orb_true_iff in H as [H|H]; apply N.eqb_eq in H; subst c; reflexivity.
Qed.
Definition kd : prog -> Prop := keeps undanda.
Definition mark (c : N) : bool := danda c || bar c.
Lemma watch_marks : forall p, kd p -> forall s r, run p s = Ok r -> filter mark r = filter mark s.
Proof.
  apply (keeps_watched undanda mark fits_undanda); [|vm_compute; reflexivity].
  intros c H. unfold mark, danda, bar in H. apply orb_true_iff in H as [H|H]; apply orb_true_iff in H as [H|H]; apply N.eqb_eq in H; subst c; reflexivity.
Qed.

Definition final (roman : bool) (p : prog) : Prop := forall s r, run p s = Ok r -> within_order (strokes roman (filter bar s)) (filter (is_stroke roman) r).
Definition kept (roman : bool) (p : prog) : Prop := forall s r, run p s = Ok r -> within_order (strokes roman (filter mark s)) (filter (is_stroke roman) r).
Lemma split_run : forall p q s r, run (p ++ q) s = Ok r -> exists t, run p s = Ok t /\ run q t = Ok r.
Proof. intros p q s r H. rewrite run_app in H. destruct (run p s) as [t|]; [|discriminate]. exists t. now split. Qed.
Lemma final_app : forall b p q, kp p -> final b q -> final b (p ++ q).
Proof. intros b p q Hp Hq s r E. apply split_run in E as (t & E1 & E2). rewrite <- (watch_bars p Hp _ _ E1). exact (Hq t r E2). Qed.
Lemma kept_app : forall b p q, kd p -> kept b q -> kept b (p ++ q).
Proof. intros b p q Hp Hq s r E. apply split_run in E as (t & E1 & E2). rewrite <- (watch_marks p Hp _ _ E1). exact (Hq t r E2). Qed.
Lemma final_withS : forall b (X : Type) (r : res X) f, (forall a, r = Ok a -> final b (f a)) -> final b (withS r f).
Proof. intros b X r f H. unfold withS. destruct r as [a|e]; [now apply H|]. intros s t E. discriminate. Qed.
Lemma kept_withS : forall b (X : Type) (r : res X) f, (forall a, r = Ok a -> kept b (f a)) -> kept b (withS r f).
Proof. intros b X r f H. unfold withS. destruct r as [a|e]; [now apply H|]. intros s t E. discriminate. Qed.


Lemma wo_refl : forall a, within_order a a.
Proof. induction a; [constructor|now constructor]. Qed.
Lemma wo_app : forall a b a' b', within_order a b -> within_order a' b' -> within_order (a ++ a') (b ++ b').
Proof.
  intros a b a' b' H. revert a' b'. induction H as [b|c a b H IH|c a b H IH]; intros a' b' H'; cbn [app].
  - induction b as [|c b IH]; cbn [app]; [exact H'|now constructor].
  - constructor. now apply IH.
  - apply wo_skip. now apply IH.
Qed.
Lemma replace_one : forall x y s, replace [x] y s = flat_map (fun d => if d =? x then y else [d]) s.
Proof. intros x y s. rewrite replace_char. apply flat_map_ext. intros d. now rewrite N.eqb_sym. Qed.
Lemma run_replaces2 : forall x y x' y' s, run ([Replace [x] y] ++ [Replace [x'] y']) s
  = Ok (flat_map (fun d => if d =? x' then y' else [d]) (flat_map (fun d => if d =? x then y else [d]) s)).
Proof. intros. cbn [app run run_op rbind]. now rewrite !replace_one. Qed.
Lemma flat_app : forall (f : N -> str) c s, flat_map f (c :: s) = f c ++ flat_map f s.
Proof. reflexivity. Qed.

(** The option turns dandas into bars, *)
Lemma kept_retain : forall b q, final b q -> kept b (PrP_RetainDevangariDanda ++ q).
Proof.
  intros b q Hq s r E. apply split_run in E as (t & E1 & E2). specialize (Hq t r E2). clear E2.
  unfold PrP_RetainDevangariDanda in E1. rewrite (run_replaces2 0x964 "│"%u 0x965 "┃"%u) in E1.
  match type of E1 with Ok ?x = Ok _ => assert (t = x) as -> by congruence end. clear E1.
  match type of Hq with within_order ?x _ => assert (Q : strokes b (filter mark s) = x) end; [|now rewrite Q].
  clear. induction s as [|c s IH]; [reflexivity|]. rewrite !flat_app. rewrite flat_map_app, filter_app. unfold strokes in *. rewrite flat_map_app, <- IH.
  change (c :: s) with ([c] ++ s). rewrite filter_app, flat_map_app. f_equal.
  cbn [filter]. unfold mark, danda, bar. destruct (c =? 0x964) eqn:E1; [apply N.eqb_eq in E1; subst c; reflexivity|].
  cbn [flat_map app]. destruct (c =? 0x965) eqn:E2; [apply N.eqb_eq in E2; subst c; reflexivity|]. cbn [orb filter app]. unfold bar.
  destruct ((c =? 0x2502) || (c =? 0x2503)); reflexivity.
Qed.
(** and the last stage turns bars into what the target has. *)
Definition unbar (T : str) : prog :=
  (if negb (mem T GM_Transliteration) then [Replace "│"%u "।"%u] ++ [Replace "┃"%u "॥"%u] else [Replace "│"%u "|"%u] ++ [Replace "┃"%u "||"%u])
  ++ [Replace "●"%u "."%u].
Lemma final_unbar : forall T, final (mem T GM_Transliteration) (unbar T).
Proof.
  intros T s r E. unfold unbar in E. apply split_run in E as (t & E1 & E2).
  assert (r = flat_map (fun d => if d =? 0x25CF then "."%u else [d]) t) as -> by (cbn [run run_op rbind] in E2; rewrite replace_one in E2; congruence).
  clear E2. destruct (mem T GM_Transliteration); cbn [negb] in E1;
  [rewrite (run_replaces2 0x2502 "|"%u 0x2503 "||"%u) in E1|rewrite (run_replaces2 0x2502 "।"%u 0x2503 "॥"%u) in E1];
  (match type of E1 with Ok ?x = Ok _ => assert (t = x) as -> by congruence end); clear E1;
  (induction s as [|c s IH]; [constructor|]; rewrite !flat_app, !flat_map_app, filter_app;
   change (c :: s) with ([c] ++ s); rewrite filter_app; unfold strokes; rewrite flat_map_app; apply wo_app; [|exact IH]; clear IH;
   cbn [filter]; unfold bar; destruct (c =? 0x2502) eqn:E1; [apply N.eqb_eq in E1; subst c; apply wo_refl|]; cbn [orb];
   destruct (c =? 0x2503) eqn:E2; [apply N.eqb_eq in E2; subst c; apply wo_refl|constructor]).
Qed.

(** ** The stages *)
Lemma kd_check : forall p, keep undanda p = true -> kd p.
Proof. exact (keep_sound undanda fits_undanda). Qed.
Lemma kd_app : forall p q, kd p -> kd q -> kd (p ++ q).
Proof. exact (keeps_app undanda). Qed.
Lemma kd_if : forall (b : bool) p q, kd p -> kd q -> kd (if b then p else q).
Proof. exact (keeps_if undanda). Qed.
Lemma kd_nil : kd [].
Proof. apply keeps_nil. Qed.
Lemma kd_IfIn : forall x p q, kd p -> kd q -> kd [IfIn x p q].
Proof. exact (keeps_IfIn undanda). Qed.
Ltac dleaf := apply kd_check; vm_compute; reflexivity.
Ltac dpieces := repeat lazymatch goal with
  | |- kd (_ ++ _) => apply kd_app
  | |- kd (if _ then _ else _) => apply kd_if
  | |- kd [IfIn _ _ _] => apply kd_IfIn
  end.
Definition retain : str := "RetainDevangariDanda"%u.
Lemma d_pres : forall o, In o PrP_names -> str_eqb o retain || keep undanda (PrP_call o) = true.
Proof. apply forallb_forall. vm_compute. reflexivity. Qed.
Lemma kd_pre : forall o, In o PrP_names -> o <> retain -> kd (PrP_call o).
Proof. intros o H N. pose proof (d_pres o H) as K. apply str_eqb_neq in N. rewrite N in K. exact (kd_check _ K). Qed.
Definition p_post (o : str) : bool := mem o (lossy_post ++ by_hand) || keep A (PP_call o).
Lemma p_posts : forall o, In o PP_names -> p_post o = true.
Proof. apply forallb_forall. vm_compute. reflexivity. Qed.
Definition calm_post (o : str) : Prop := In o PP_names /\ ~ In o (lossy_post ++ by_hand).
Lemma kp_post : forall o, calm_post o -> kp (PP_call o).
Proof.
  intros o [H N]. pose proof (p_posts o H) as K. unfold p_post in K. apply mem_false in N. rewrite N in K. exact (kp_check _ K).
Qed.

(** The normalization (PreProcess.py:1606) writes two dandas in a row as a double danda. *)
Inductive merges : str -> str -> Prop :=
| m_nil : merges [] []
| m_take : forall c a b, merges a b -> merges (c :: a) (c :: b)
| m_pair : forall a b, merges a b -> merges (0x964 :: 0x964 :: a) (0x965 :: b).
Lemma merges_refl : forall a, merges a a.
Proof. induction a; now constructor. Qed.
Lemma merges_trans : forall b c, merges b c -> forall a, merges a b -> merges a c.
Proof.
  intros b c H. induction H as [|x b c H IH|b c H IH]; intros a Ha.
  - exact Ha.
  - inversion Ha as [|y a' b' Ha'|a' b' Ha']; subst; constructor; now apply IH.
  - inversion Ha as [|y a' b' Ha'|]; subst. inversion Ha' as [|y a2 b2 Ha2|]; subst. apply m_pair. now apply IH.
Qed.
Definition md (p : prog) : Prop := forall s r, run p s = Ok r -> merges (filter mark s) (filter mark r).
Lemma md_kd : forall p, kd p -> md p.
Proof. intros p H s r E. rewrite (watch_marks p H s r E). apply merges_refl. Qed.
Lemma md_app : forall p q, md p -> md q -> md (p ++ q).
Proof. intros p q Hp Hq s r E. apply split_run in E as (t & E1 & E2). exact (merges_trans _ _ (Hq t r E2) _ (Hp s t E1)). Qed.
Lemma md_if : forall (b : bool) p q, md p -> md q -> md (if b then p else q).
Proof. now intros []. Qed.
Lemma md_nil : md [].
Proof. apply md_kd, kd_nil. Qed.
Lemma filter_cons : forall (f : N -> bool) c s, filter f (c :: s) = (if f c then [c] else []) ++ filter f s.
Proof. intros f c s. cbn [filter]. now destruct (f c). Qed.
Lemma md_pair : md [Replace "।।"%u "॥"%u].
Proof.
  intros s r E. cbn [run run_op rbind] in E. unfold replace in E. match type of E with Ok ?x = Ok _ => assert (r = x) as -> by congruence end. clear E.
  remember (length s) as n eqn:L. assert (H : (length s <= n)%nat) by lia. clear L. revert s H.
  induction n as [|n IH]; intros s H; [destruct s; [constructor|cbn in H; lia]|].
  destruct s as [|c s]; [constructor|]. cbn [length] in H. rewrite filter_cons.
  destruct s as [|d s].
  { cbn [replace_go]. change (prefixb "।।"%u [c]) with ((0x964 =? c) && false). rewrite andb_false_r. cbn [filter]. destruct (mark c); [|constructor]. cbn [app]. apply merges_refl. }
  assert (St : (0x964 =? c) && (0x964 =? d) = false -> replace_go "।।"%u "॥"%u 0 (c :: d :: s) = c :: replace_go "।।"%u "॥"%u 0 (d :: s)).
  { intros Q. cbn [replace_go]. change (prefixb "।।"%u (c :: d :: s)) with ((0x964 =? c) && ((0x964 =? d) && true)). rewrite andb_true_r, Q. reflexivity. }
  assert (No : (0x964 =? c) && (0x964 =? d) = false ->
    merges ((if mark c then [c] else []) ++ filter mark (d :: s)) (filter mark (replace_go "।।"%u "॥"%u 0 (c :: d :: s)))).
  { intros Q. rewrite (St Q), (filter_cons mark c). assert (L : (length (d :: s) <= n)%nat) by lia. specialize (IH _ L).
    destruct (mark c); cbn [app]; [now constructor|exact IH]. }
  destruct (0x964 =? c) eqn:E1; [|now apply No]. destruct (0x964 =? d) eqn:E2; [|now apply No].
  apply N.eqb_eq in E1, E2. subst c d. apply m_pair. apply IH. cbn [length] in H. lia.
Qed.
Ltac mpieces := repeat lazymatch goal with
  | |- md (_ ++ _) => apply md_app
  | |- md (if _ then _ else _) => apply md_if
  | |- md [Replace "।।"%u "॥"%u] => exact md_pair
  end.
Ltac mleaf := apply md_kd; dpieces; dleaf.
Lemma md_normalize : forall S, md (PrP_normalize S).
Proof. intros S. unfold PrP_normalize. cbv zeta. mpieces; mleaf. Qed.
Lemma md_PreProcess : forall S T post pre, mem S GM_pipeScripts = false -> md (PrP_PreProcess S T post pre).
Proof.
  intros S T post pre NP. unfold PrP_PreProcess. rewrite NP.
  repeat lazymatch goal with |- md (_ ++ _) => apply md_app; [lazymatch goal with
    | |- md (PrP_normalize _) => apply md_normalize
    | |- md (if str_eqb S "Itrans"%u then _ else _) =>
        let E := fresh in destruct (str_eqb S "Itrans"%u) eqn:E; [apply str_eqb_eq in E; rewrite E in NP; discriminate NP|apply md_nil]
    | |- _ => cbv zeta; mpieces; mleaf
    end|] end.
  apply md_kd. apply kd_if; [|apply kd_nil]. cbv zeta. apply (keeps_withS undanda). intros a Ea. apply (keeps_withS undanda). intros b Eb.
  apply (keeps_withS undanda). intros x Ex. apply (keeps_withS undanda). intros y Ey. apply kd_if; [|apply kd_nil].
  apply (keeps_Replace undanda fits_undanda). intros pr Hpr. rewrite !pj_app. cbn [pj flat_map app]. rewrite (Hpr 0x200B eq_refl). now rewrite app_nil_r.
Qed.
Lemma kp_defaults : forall S T post, kp (ApplyScriptDefaults S T post).
Proof.
  intros S T post. unfold ApplyScriptDefaults, default_options.
  repeat lazymatch goal with
  | |- kp (foreach (if str_eqb T ?x then _ else _) _) =>
      let E := fresh in destruct (str_eqb T x) eqn:E;
      [apply str_eqb_eq in E; rewrite E;
       repeat lazymatch goal with |- kp (foreach (if ?b then _ else _) _) => destruct b end; kleaf
      |clear E]
  | |- kp (foreach [] _) => apply kp_nil
  end.
Qed.
Definition num_p (T : str) : bool :=
  keep A (PP_RetainIndicNumerals T true) && keep A (PP_RetainIndicNumerals T false) && keep A (PP_RetainDandasIndic T true).
Lemma num_ps : forall T, In T known -> num_p T = true.
Proof. apply forallb_forall. vm_compute. reflexivity. Qed.
Lemma final_defaultPost : forall S T nat pre post, In T known -> final (mem T GM_Transliteration) (PP_defaultPost S T nat pre post).
Proof.
  intros S T nat pre post HT. pose proof (num_ps T HT) as C. unfold num_p in C. bools. unfold PP_defaultPost.
  do 4 (apply final_app; [kpieces; first [apply kp_check; assumption|kleaf]|]). exact (final_unbar T).
Qed.
Lemma kp_text : forall S T, gentle S T = true -> In S known -> kp (convert_text S T).
Proof.
  intros S T G HS. unfold convert_text. apply kp_if; [|now apply kp_convertScript].
  apply (keeps_IfIn A); [|now apply kp_convertScript]. apply (keeps_EvenParts A fits_A); [reflexivity|discriminate|now apply kp_convertScript].
Qed.
Lemma foreach_app : forall (X : Type) (l l' : list X) f, foreach (l ++ l') f = foreach l f ++ foreach l' f.
Proof. intros X l l' f. unfold foreach. apply flat_map_app. Qed.
Lemma call_retain : PrP_call retain = PrP_RetainDevangariDanda.
Proof. reflexivity. Qed.

Definition calm (post : list str) : Prop := forall o, In o post -> calm_post o.
(** [pre]: the option among other ones. *)
Definition retaining (pre : list str) : Prop := exists p q, pre = p ++ retain :: q
  /\ (forall o, In o p -> In o PrP_names /\ o <> retain) /\ (forall o, In o q -> In o PrP_names /\ o <> retain).
Lemma tamil_calm : calm_post "RemoveDiacriticsTamil"%u.
Proof. split; [listed_name|intros F; apply mem_In in F; discriminate F]. Qed.

(** After the user's pre-options. *)
Theorem tail_split : forall S T old nat pre post, In S known -> In T known -> gentle S T = true ->
  (old = [] \/ In old known /\ gentle "Devanagari"%u old = true) -> calm post ->
  exists p, convert_tail S T old nat pre post = foreach pre PrP_call ++ p
    /\ final (mem (if str_eqb S old then old else T) GM_Transliteration) p.
Proof.
  intros S T old nat pre post HS HT G Hold Hpost. unfold convert_tail.
  rewrite (not_kanas S HS), (not_kanas T HT). cbv zeta.
  set (V := if str_eqb S old then old else T). eexists. split; [reflexivity|].
  assert (Rest : final (mem V GM_Transliteration)
    ((if mem "novowelshebrew"%u pre && str_eqb S "Hebr"%u then [Replace [0x5B7] []] else [])
  ++ (if (negb (str_eqb S "Latn"%u) && negb (str_eqb S "Type"%u) && mem S GM_SemiticScripts)
         || (mem S GM_IndicScripts && mem T GM_SemiticScripts && negb (mem S GM_LatinScripts))
         || false
      then PrP_retainLatin false else [])
  ++ [] ++ [] ++ (if str_eqb S "Oriya"%u && str_eqb T "IPA"%u then CF_OriyaIPAFixPre else [])
      ++ convert_text S T
      ++ (if false && negb (str_eqb T "Devanagari"%u) && negb (mem "siddhammukta"%u post)
          then convertScript "Devanagari"%u "ISO"%u else [])
      ++ (if str_eqb S old then convertScript "Devanagari"%u V else [])
      ++ (if (negb (mem S GM_SemiticScripts) && str_eqb V "Arab"%u && nat)
             || mem "arabicRemoveAdditionsPhonetic"%u post
          then PP_arabicRemoveAdditionsPhonetic else [])
      ++ (if nat then
            ApplyScriptDefaults S V post
            ++ (if str_eqb V "Latn"%u then []
                else if str_eqb V "Tamil"%u then PP_RemoveDiacriticsTamil else PP_RemoveDiacritics)
          else [])
      ++ foreach (if mem "RemoveDiacritics"%u post && str_eqb V "Tamil"%u
            then map (fun x => if str_eqb x "RemoveDiacritics"%u then "RemoveDiacriticsTamil"%u else x) post
            else post) PP_call
      ++ (if str_eqb S "Tamil"%u && str_eqb V "IPA"%u then [Raise (External "requests.get"%u)] else [])
      ++ (if str_eqb S "Oriya"%u && str_eqb V "IPA"%u then CF_OriyaIPAFix else [])
      ++ PrP_retainLatin true
      ++ PP_defaultPost S V nat pre (if mem "RemoveDiacritics"%u post && str_eqb V "Tamil"%u then [] else post))).
  { assert (HV : In V known /\ kp (if str_eqb S old then convertScript "Devanagari"%u V else [])).
    { subst V. destruct (str_eqb S old) eqn:E; [|split; [exact HT|apply kp_nil]]. apply str_eqb_eq in E. destruct Hold as [Hold|[Ho Go]].
      { exfalso. rewrite Hold in E. rewrite E in HS. discriminate (known_named [] HS). }
      split; [exact Ho|]. apply kp_convertScript; [exact Go|exact devanagari_known]. }
    destruct HV as [HV KV]. clearbody V.
    apply final_app; [apply kp_if; kleaf|]. apply final_app; [apply kp_if; kleaf|].
    apply final_app; [apply kp_nil|]. apply final_app; [apply kp_nil|]. apply final_app; [apply kp_if; kleaf|].
    apply final_app; [now apply kp_text|]. apply final_app; [apply kp_nil|]. apply final_app; [exact KV|].
    apply final_app; [apply kp_if; kleaf|].
    apply final_app; [apply kp_if; [|apply kp_nil]; apply kp_app; [apply kp_defaults|kpieces; kleaf]|].
    apply final_app.
    { apply kp_foreach. intros o Ho. apply kp_post.
      destruct (mem "RemoveDiacritics"%u post && str_eqb V "Tamil"%u); [|now apply Hpost].
      apply in_map_iff in Ho as (x & <- & Hx). destruct (str_eqb x "RemoveDiacritics"%u); [exact tamil_calm|now apply Hpost]. }
    apply final_app; [apply kp_if; [apply keeps_raise|apply kp_nil]|].
    apply final_app; [apply kp_if; kleaf|].
    apply final_app; [kleaf|now apply final_defaultPost]. }
  exact Rest.
Qed.
Theorem kept_tail : forall S T old nat pre post, In S known -> In T known -> gentle S T = true ->
  (old = [] \/ In old known /\ gentle "Devanagari"%u old = true) -> retaining pre -> calm post ->
  kept (mem (if str_eqb S old then old else T) GM_Transliteration) (convert_tail S T old nat pre post).
Proof.
  intros S T old nat pre post HS HT G Hold (p & q & Epre & Hp & Hq) Hpost.
  destruct (tail_split S T old nat pre post HS HT G Hold Hpost) as (x & -> & Fx).
  rewrite Epre. rewrite foreach_app. change (foreach (retain :: q) PrP_call) with (PrP_RetainDevangariDanda ++ foreach q PrP_call).
  rewrite <- !app_assoc. apply kept_app.
  { apply (keeps_foreach undanda). intros o Ho. destruct (Hp o Ho). now apply kd_pre. }
  apply kept_retain. apply final_app; [|exact Fx]. apply kp_foreach. intros o Ho. destruct (Hq o Ho). apply undanda_A. now apply kd_pre.
Qed.
Definition unbarred_pre (pre : list str) : Prop := forall o, In o pre -> In o PrP_names /\ o <> retain.
Theorem final_tail : forall S T old nat pre post, In S known -> In T known -> gentle S T = true ->
  (old = [] \/ In old known /\ gentle "Devanagari"%u old = true) -> unbarred_pre pre -> calm post ->
  final (mem (if str_eqb S old then old else T) GM_Transliteration) (convert_tail S T old nat pre post).
Proof.
  intros S T old nat pre post HS HT G Hold Hpre Hpost.
  destruct (tail_split S T old nat pre post HS HT G Hold Hpost) as (x & -> & Fx).
  apply final_app; [|exact Fx]. apply kp_foreach. intros o Ho. destruct (Hpre o Ho). apply undanda_A. now apply kd_pre.
Qed.

(** The variants that options choose write dandas alike, but for two. *)
Definition same_strokes (T : str) (r : str * str * bool) : Prop := let '(_, T', _) := r in mem T' GM_Transliteration = mem T GM_Transliteration.
Lemma variant_strokes : forall S T nat pre post, ~ In "BalineseSimplified"%u post -> ~ In "JavaneseSimplified"%u post ->
  same_strokes T (variant_switch S T nat pre post).
Proof.
  intros S T nat pre post N1 N2. apply mem_false in N1, N2. cbv beta delta [variant_switch].
  set (P := fun t => mem t GM_Transliteration = mem T GM_Transliteration).
  assert (V : forall o x v t, P t -> mem x GM_Transliteration = false -> mem v GM_Transliteration = false -> mem o post && str_eqb t x = true -> P v).
  { intros o x v t Ht Mx Mv E. apply andb_true_iff in E as [_ E]. apply str_eqb_eq in E. subst t. unfold P in *. congruence. }
  assert (P0 : P T) by reflexivity.
  ltstep P; [eapply V; [exact P0|reflexivity|reflexivity]|exact P0|]; cbv beta; intros t1 H1.
  ltstep P; [eapply V; [exact H1|reflexivity|reflexivity]|exact H1|]; clear t1 H1; cbv beta; intros t2 H2.
  ltstep (fun _ : str => True); [exact (fun _ => I)|exact I|]; cbv beta; intros s1 _.
  ltstep P; [eapply V; [exact H2|reflexivity|reflexivity]|exact H2|]; clear t2 H2; cbv beta; intros t3 H3.
  ltstep (fun _ : str => True); [exact (fun _ => I)|exact I|]; cbv beta; intros s2 _.
  ltstep P; [eapply V; [exact H3|reflexivity|reflexivity]|exact H3|]; clear t3 H3; cbv beta; intros t4 H4.
  ltstep P; [eapply V; [exact H4|reflexivity|reflexivity]|exact H4|]; clear t4 H4; cbv beta; intros t5 H5.
  repeat lazymatch goal with |- same_strokes T (let '(_, _) := if ?b then _ else _ in _) => let E := fresh "E" in destruct b eqn:E end;
  (ltstep P; [intros E'; rewrite N1 in E'; discriminate E'|first [exact H5|eapply V; [exact H5| | |eassumption]; reflexivity|eapply V; [| | |eassumption]; reflexivity]|]; cbv beta; intros t6 H6;
   ltstep P; [intros E'; rewrite N2 in E'; discriminate E'|exact H6|]; clear t6 H6; cbv beta; intros t7 H7; exact H7).
Qed.

Definition brought (roman : bool) (p : prog) : Prop := forall s r, run p s = Ok r ->
  exists m, merges (filter mark s) m /\ within_order (strokes roman m) (filter (is_stroke roman) r).
Lemma brought_kept : forall b p q, md p -> kept b q -> brought b (p ++ q).
Proof. intros b p q Hp Hq s r E. apply split_run in E as (t & E1 & E2). exists (filter mark t). split; [exact (Hp s t E1)|exact (Hq t r E2)]. Qed.
Lemma brought_app : forall b p q, md p -> brought b q -> brought b (p ++ q).
Proof.
  intros b p q Hp Hq s r E. apply split_run in E as (t & E1 & E2). destruct (Hq t r E2) as (m & M & W). exists m. split; [|exact W].
  exact (merges_trans _ _ M _ (Hp s t E1)).
Qed.
Lemma brought_withS : forall b (X : Type) (r : res X) f, (forall a, r = Ok a -> brought b (f a)) -> brought b (withS r f).
Proof. intros b X r f H. unfold withS. destruct r as [a|e]; [now apply H|]. intros s t E. discriminate. Qed.

Definition plain_post (post : list str) : Prop := calm post /\ ~ In "BalineseSimplified"%u post /\ ~ In "JavaneseSimplified"%u post.
Theorem brought_rest : forall S T nat pre post, In S known -> In T known -> gentle S T = true -> mem S GM_pipeScripts = false ->
  retaining pre -> plain_post post -> brought (mem T GM_Transliteration) (convert_rest S T [] nat pre post).
Proof.
  intros S T nat pre post HS HT G NP Hpre (Hpost & N1 & N2). unfold convert_rest. apply brought_app; [now apply md_PreProcess|].
  pose proof (gentle_variant S T nat pre post HS HT G) as V. pose proof (variant_strokes S T nat pre post N1 N2) as W. unfold same_strokes in W.
  destruct (variant_switch S T nat pre post) as [[S' T'] nat'].
  destruct V as (HS' & HT' & G'). apply brought_kept; [apply md_kd; unfold soyombo_mark; apply kd_if; dleaf|]. rewrite <- W.
  pose proof (kept_tail S' T' [] nat' pre post HS' HT' G' (or_introl eq_refl) Hpre Hpost) as K.
  assert (N : str_eqb S' [] = false). { apply str_eqb_neq. intros ->. discriminate (known_named [] HS'). }
  rewrite N in K. exact K.
Qed.
(** The same script on both sides. *)
Theorem brought_rest_same : forall S nat pre post, In S known -> gentle S "Devanagari"%u = true -> gentle "Devanagari"%u S = true -> mem S GM_pipeScripts = false ->
  retaining pre -> plain_post post -> brought (mem S GM_Transliteration) (convert_rest S "Devanagari"%u S nat pre post).
Proof.
  intros S nat pre post HS G Go NP Hpre (Hpost & N1 & N2). unfold convert_rest. apply brought_app; [now apply md_PreProcess|].
  pose proof (gentle_variant S "Devanagari"%u nat pre post HS devanagari_known G) as V.
  pose proof (variant_strokes S "Devanagari"%u nat pre post N1 N2) as W. unfold same_strokes in W.
  pose proof (var_switch_both S "Devanagari"%u nat pre post) as B. unfold var_both in B.
  destruct (variant_switch S "Devanagari"%u nat pre post) as [[S' T'] nat'].
  destruct V as (HS' & HT' & G'). apply brought_kept; [apply md_kd; unfold soyombo_mark; apply kd_if; dleaf|].
  pose proof (kept_tail S' T' S nat' pre post HS' HT' G' (or_intror (conj HS Go)) Hpre Hpost) as K.
  destruct (str_eqb S' S) eqn:E; [exact K|]. rewrite W in K. change (mem "Devanagari"%u GM_Transliteration) with false in K.
  destruct B as [[B|[B _]] _]; [rewrite B, str_eqb_refl in E; discriminate|].
  assert (Q : mem S GM_Transliteration = false) by (destruct B as [<-|[<-|[]]]; reflexivity). now rewrite Q.
Qed.

(** ** The theorems *)

(** The scripts: any but the few that disturb foreign characters (see Foreign.v), and the romanizations that have their own signs for
    dandas and spell "|" for them. *)
Definition danda_source (S : str) : Prop :=
  In S (GM_IndicScripts ++ GM_LatinScripts) /\ ~ In S (lossy_sources ++ swapped ++ GM_pipeScripts ++ ["RomanLoC"%u]).
Definition danda_target (T : str) : Prop :=
  In T (GM_IndicScripts ++ GM_LatinScripts) /\ ~ In T (lossy_targets ++ swapped ++ ["RomanLoC"%u]).
Lemma danda_sides : forall S T nat, danda_source S -> danda_target T ->
  semitic_switch S T nat = (S, T) /\ In S known /\ In T known /\ gentle S T = true /\ mem S GM_pipeScripts = false
  /\ no_iso S /\ no_iso T /\ S <> "RomanLoC"%u /\ T <> "RomanLoC"%u
  /\ (S = T -> gentle S "Devanagari"%u = true /\ gentle "Devanagari"%u S = true) /\ mem S GM_SemiticScripts = false.
Proof.
  intros S T nat [A1 A2] [B1 B2]. rewrite !in_app_iff in A2, B2. 
  assert (HS : mem S swapped = false) by (apply mem_false; tauto). assert (HT : mem T swapped = false) by (apply mem_false; tauto).
  assert (LS : mem S lossy_sources = false) by (apply mem_false; tauto). assert (LT : mem T lossy_targets = false) by (apply mem_false; tauto).
  assert (KS : In S known) by (apply mem_In; apply known_app; now apply mem_In).
  assert (KT : In T known) by (apply mem_In; apply known_app; now apply mem_In).
  assert (PS : mem S GM_pipeScripts = false) by (apply mem_false; intros F; apply A2; right; right; apply in_or_app; left; exact F).
  assert (Ap : forall X, In X (GM_IndicScripts ++ GM_LatinScripts) -> mem X GM_SemiticScripts = false)
    by (apply (all_not (fun s => mem s GM_SemiticScripts)); vm_compute; reflexivity).
  assert (NS : S <> "RomanLoC"%u) by (intros ->; apply A2; right; right; apply in_or_app; right; now left).
  assert (NT : T <> "RomanLoC"%u) by (intros ->; apply B2; right; right; now left).
  split; [|split; [exact KS|split; [exact KT|split]]].
  - assert (NI : has_key S GM_semiticISO = false).
    { pose proof KS as K. apply known_no_iso in K. unfold no_iso in K. unfold has_key. now rewrite K. }
    destruct (unswapped S HS) as [G1 G2]. unfold semitic_switch. rewrite G1. rewrite (tauto_if (mem T GM_SemiticScripts || has_key T GM_semiticISO) S).
    rewrite (Ap S A1), NI. cbn [orb]. rewrite G2. cbn [andb]. now rewrite G1, (tauto_if nat S).
  - unfold gentle. rewrite (Ap S A1), LS, (Ap T B1), LT. reflexivity.
  - split; [exact PS|]. split; [now apply known_no_iso|]. split; [now apply known_no_iso|]. split; [exact NS|]. split; [exact NT|]. split; [|now apply Ap].
    intros E. subst T. unfold gentle. rewrite (Ap S A1), LS, LT. split; vm_compute; reflexivity.
Qed.
Lemma retaining_some : forall pre, retaining pre -> pre <> [].
Proof. intros pre (p & q & -> & _) E. destruct p; discriminate E. Qed.

Lemma not_kanas_eqb : forall S, In S known -> str_eqb S "Hiragana"%u = false /\ str_eqb S "Katakana"%u = false.
Proof.
  intros S H. pose proof (not_kanas S H) as K. unfold mem in K. cbn [existsb] in K. apply orb_false_iff in K as [K1 K2]. apply orb_false_iff in K2 as [K2 _]. now split.
Qed.
(** The whole conversion from the dandas options on. *)
Definition from_rest (S T : str) (nat : bool) (pre post : list str) : prog :=
  if str_eqb S T then convert_rest S "Devanagari"%u S nat pre post else convert_rest S T [] nat pre post.
Definition from_dandas (S T : str) (nat : bool) (pre post : list str) : prog :=
  let other :=
    let! signs := CrunchList "SignMap"%u S in
    let! danda := idx signs 1 in
    if str_eqb danda "।"%u then from_rest S T nat (pre ++ ["RetainDevangariDanda"%u]) post
    else from_rest S T nat pre (post ++ [if mem (if str_eqb S T then "Devanagari"%u else T) GM_Transliteration then "Dot2Pipes"%u else "Dot2Dandas"%u]) in
  if mem S GM_pipeScripts then [IfIn "|"%u (PrP_RetainPipeDanda S ++ from_rest S T nat pre post) other] else other.
Definition script_pair (S T : str) : Prop :=
  (forall nat, semitic_switch S T nat = (S, T)) /\ In S known /\ In T known /\ gentle S T = true
  /\ no_iso S /\ no_iso T /\ S <> "RomanLoC"%u /\ T <> "RomanLoC"%u
  /\ (S = T -> gentle S "Devanagari"%u = true /\ gentle "Devanagari"%u S = true) /\ mem S GM_SemiticScripts = false.
Lemma prog_from : forall S T nat pre post, script_pair S T -> pre <> [] \/ post <> [] ->
  convert_prog S T nat pre post = if mem "indicDandas"%u post then from_dandas S T nat pre post else from_rest S T nat pre post.
Proof.
  intros S T nat pre post (Sw & KS & KT & G & IS & IT & LS & LT & Gs & MS) NE.
  unfold convert_prog. change (convert_n 3 (Args S T nat pre post)) with (convert_step (convert_n 2) (Args S T nat pre post)).
  rewrite step_no_loc by assumption. unfold iso_part. rewrite IT, IS. cbn [app]. unfold convert_main.
  assert (E0 : str_eqb T [] || str_eqb T "Ignore"%u = false).
  { apply orb_false_iff. split; apply str_eqb_neq; intros ->; apply mem_In in KT; discriminate KT. }
  rewrite E0. assert (E1 : (match pre, post with [], [] => true | _, _ => false end) = false).
  { destruct pre; [destruct post; [destruct NE as [NE|NE]; now destruct NE|reflexivity]|reflexivity]. }
  rewrite E1. cbn [andb]. rewrite Sw. rewrite MS, andb_false_r. cbn [negb andb]. rewrite ?andb_true_r.
  assert (E2 : mem S ["Arab-Ur"%u; "Arab-Pa"%u] && mem T GM_IndicScripts = false).
  { apply andb_false_iff. left. apply mem_false. intros [<-|[<-|[]]]; discriminate MS. }
  rewrite E2. cbn [app]. unfold from_dandas, from_rest. destruct (not_kanas_eqb S KS) as [-> ->]. cbn [negb]. rewrite !andb_true_r.
  destruct (str_eqb S T) eqn:ES; [|reflexivity]. apply str_eqb_eq in ES. subst T. reflexivity.
Qed.
Lemma brought_from : forall S T nat pre post, script_pair S T -> mem S GM_pipeScripts = false ->
  retaining pre -> plain_post post -> brought (mem T GM_Transliteration) (from_rest S T nat pre post).
Proof.
  intros S T nat pre post (Sw & KS & KT & G & IS & IT & LS & LT & Gs & MS) PS Hpre Hpost. unfold from_rest. destruct (str_eqb S T) eqn:ES.
  - apply str_eqb_eq in ES. rewrite <- ES in *. destruct (Gs eq_refl) as [G1 G2]. now apply brought_rest_same.
  - now apply brought_rest.
Qed.
Lemma danda_pair : forall S T, danda_source S -> danda_target T -> script_pair S T /\ mem S GM_pipeScripts = false.
Proof.
  intros S T HS HT. destruct (danda_sides S T true HS HT) as (_ & KS & KT & G & PS & R).
  split; [|exact PS]. split; [|now split; [|split; [|split]]]. intros nat. exact (proj1 (danda_sides S T nat HS HT)).
Qed.

(** C33, the option RetainDevangariDanda: the dandas of the text, two single ones in a row possibly written as a double one, are in the result, in the same
    order; as dandas, or as "|" and "||" if the target is a romanization of GM.Transliteration. *)
Theorem dandas_retained : forall S T txt nat pre post r, danda_source S -> danda_target T ->
  retaining pre -> plain_post post -> ~ In "indicDandas"%u post ->
  convert S T txt nat pre post = Ok r ->
  let roman := mem T GM_Transliteration in
  exists m, merges (filter mark txt) m /\ within_order (strokes roman m) (filter (is_stroke roman) r).
Proof.
  intros S T txt nat pre post r HS HT Hpre Hpost Nd E. cbv zeta. revert txt r E.
  change (brought (mem T GM_Transliteration) (convert_prog S T nat pre post)). destruct (danda_pair S T HS HT) as [HP PS].
  rewrite prog_from; [|exact HP|left; now apply retaining_some]. apply mem_false in Nd. rewrite Nd. now apply brought_from.
Qed.

(** C33, the option indicDandas, for scripts that write dandas. *)
Definition writes_dandas (S : str) : Prop := exists signs, CrunchList "SignMap"%u S = Ok signs /\ idx signs 1 = Ok "।"%u.
Theorem indic_dandas_retained : forall S T txt nat pre post r, danda_source S -> danda_target T -> writes_dandas S ->
  unbarred_pre pre -> plain_post post -> In "indicDandas"%u post ->
  convert S T txt nat pre post = Ok r ->
  let roman := mem T GM_Transliteration in
  exists m, merges (filter mark txt) m /\ within_order (strokes roman m) (filter (is_stroke roman) r).
Proof.
  intros S T txt nat pre post r HS HT (signs & W1 & W2) Hpre Hpost Nd E. cbv zeta. revert txt r E.
  change (brought (mem T GM_Transliteration) (convert_prog S T nat pre post)). destruct (danda_pair S T HS HT) as [HP PS].
  rewrite prog_from; [|exact HP|right; intros ->; destruct Nd]. apply mem_In in Nd. rewrite Nd. unfold from_dandas. rewrite PS, W1. cbn [withS]. rewrite W2. cbn [withS].
  rewrite str_eqb_refl. apply brought_from; [exact HP|exact PS| |exact Hpost].
  exists pre, []. split; [reflexivity|]. split; [exact Hpre|intros o []].
Qed.

(** The number of strokes: a danda, pipe or single bar has one, a double danda or double bar two. *)
Definition weight (c : N) : str :=
  if (c =? 0x7C) || (c =? 0x964) || (c =? 0x2502) then [0x7C] else if (c =? 0x965) || (c =? 0x2503) then [0x7C; 0x7C] else [].
Definition stroke_count (s : str) : nat := length (flat_map weight s).
Lemma weight_filter : forall (f : N -> bool) s, (forall c, f c = false -> weight c = []) -> flat_map weight (filter f s) = flat_map weight s.
Proof.
  intros f s H. induction s as [|c s IH]; [reflexivity|]. cbn [filter flat_map]. destruct (f c) eqn:E; cbn [flat_map]; rewrite IH; [reflexivity|]. now rewrite (H c E).
Qed.
Lemma wo_weight : forall a b, within_order a b -> (stroke_count a <= stroke_count b)%nat.
Proof.
  intros a b H. unfold stroke_count. induction H as [b|c a b H IH|c a b H IH]; cbn [flat_map length]; [lia| |]; rewrite ?app_length; lia.
Qed.
Lemma weight_part : forall (f : N -> bool) s, (stroke_count (filter f s) <= stroke_count s)%nat.
Proof.
  intros f s. apply wo_weight. induction s as [|c s IH]; [constructor|]. cbn [filter]. destruct (f c); now constructor.
Qed.
Lemma weight_strokes : forall b s, stroke_count (strokes b (filter mark s)) = stroke_count (filter mark s).
Proof.
  intros b s. unfold stroke_count. f_equal. induction s as [|c s IH]; [reflexivity|]. cbn [filter]. destruct (mark c) eqn:E; [|exact IH].
  unfold strokes in *. cbn [flat_map]. rewrite flat_map_app, IH. f_equal. clear IH s. unfold mark, danda, bar in E.
  repeat (apply orb_true_iff in E as [E|E]); apply N.eqb_eq in E; subst c; now destruct b.
Qed.
Lemma bar_mark : forall s, filter bar s = filter mark (filter bar s).
Proof.
  intros s. induction s as [|c s IH]; [reflexivity|]. cbn [filter]. destruct (bar c) eqn:E; [|exact IH]. cbn [filter]. unfold mark at 1. rewrite E, orb_true_r. now rewrite <- IH.
Qed.
Lemma weight_merges : forall a b, merges a b -> stroke_count a = stroke_count b.
Proof.
  intros a b H. unfold stroke_count. induction H as [|c a b H IH|a b H IH]; [reflexivity| |].
  - cbn [flat_map]. rewrite !app_length. lia.
  - cbn [flat_map]. change (weight 0x964) with [0x7C]. change (weight 0x965) with [0x7C; 0x7C]. cbn [app length]. lia.
Qed.
Lemma kp_PreProcess : forall S T post pre, kp (PrP_PreProcess S T post pre).
Proof.
  intros S T post pre. unfold PrP_PreProcess.
  assert (KN : kp (PrP_normalize S)) by (unfold PrP_normalize; cbv zeta; kpieces; kleaf).
  repeat lazymatch goal with |- kp (_ ++ _) => apply kp_app; [lazymatch goal with
    | |- kp (PrP_normalize _) => exact KN
    | |- kp (if str_eqb S "Itrans"%u then _ else _) =>
        let E := fresh in destruct (str_eqb S "Itrans"%u) eqn:E; [apply str_eqb_eq in E; rewrite E; kleaf|apply kp_nil]
    | |- _ => cbv zeta; kpieces2; kleaf
    end|] end.
  apply kp_if; [|apply kp_nil]. cbv zeta. apply kp_withS. intros a Ea. apply kp_withS. intros b Eb.
  apply kp_withS. intros x Ex. apply kp_withS. intros y Ey. apply kp_if; [|apply kp_nil].
  apply (keeps_Replace A fits_A). intros pr Hpr. rewrite !pj_app. cbn [pj flat_map app]. rewrite (Hpr 0x200B eq_refl). now rewrite app_nil_r.
Qed.
Lemma final_from : forall S T nat pre post, script_pair S T -> unbarred_pre pre -> plain_post post ->
  final (mem T GM_Transliteration) (from_rest S T nat pre post).
Proof.
  intros S T nat pre post (Sw & KS & KT & G & IS & IT & LS & LT & Gs & MS) Hpre (Hpost & N1 & N2). unfold from_rest. destruct (str_eqb S T) eqn:ES.
  - apply str_eqb_eq in ES. rewrite <- ES in *. destruct (Gs eq_refl) as [G1 G2]. clear ES T. unfold convert_rest. apply final_app; [apply kp_PreProcess|].
    pose proof (gentle_variant S "Devanagari"%u nat pre post KS devanagari_known G1) as V.
    pose proof (variant_strokes S "Devanagari"%u nat pre post N1 N2) as W. unfold same_strokes in W.
    pose proof (var_switch_both S "Devanagari"%u nat pre post) as B. unfold var_both in B.
    destruct (variant_switch S "Devanagari"%u nat pre post) as [[S' T'] nat'].
    destruct V as (HS' & HT' & G'). apply final_app; [unfold soyombo_mark; apply kp_if; kleaf|].
    pose proof (final_tail S' T' S nat' pre post HS' HT' G' (or_intror (conj KS G2)) Hpre Hpost) as K.
    destruct (str_eqb S' S) eqn:E; [exact K|]. rewrite W in K. change (mem "Devanagari"%u GM_Transliteration) with false in K.
    destruct B as [[B|[B _]] _]; [rewrite B, str_eqb_refl in E; discriminate|].
    assert (Q : mem S GM_Transliteration = false) by (destruct B as [<-|[<-|[]]]; reflexivity). now rewrite Q.
  - unfold convert_rest. apply final_app; [apply kp_PreProcess|].
    pose proof (gentle_variant S T nat pre post KS KT G) as V. pose proof (variant_strokes S T nat pre post N1 N2) as W. unfold same_strokes in W.
    destruct (variant_switch S T nat pre post) as [[S' T'] nat'].
    destruct V as (HS' & HT' & G'). apply final_app; [unfold soyombo_mark; apply kp_if; kleaf|]. rewrite <- W.
    pose proof (final_tail S' T' [] nat' pre post HS' HT' G' (or_introl eq_refl) Hpre Hpost) as K.
    assert (N : str_eqb S' [] = false). { apply str_eqb_neq. intros ->. discriminate (known_named [] HS'). }
    rewrite N in K. exact K.
Qed.
Lemma mem_yes : forall (c : N) l, In c l -> existsb (N.eqb c) l = true.
Proof. intros c l H. apply existsb_exists. exists c. split; [exact H|apply N.eqb_refl]. Qed.
Lemma pipe_weight : forall S s t, run (PrP_RetainPipeDanda S) s = Ok t -> stroke_count s = stroke_count (filter bar t).
Proof.
  intros S s t E. unfold PrP_RetainPipeDanda in E. cbn [app run run_op rbind] in E.
  match type of E with Ok ?x = Ok _ => assert (t = x) as -> by congruence end. clear E.
  set (u := replace "||"%u _ _). unfold stroke_count. f_equal.
  assert (W : flat_map weight s = flat_map weight u) by (unfold u; rewrite !replace_hom by first [discriminate|reflexivity]; reflexivity).
  rewrite W. clear W. assert (N : Forall (fun c => danda c = false) u).
  { apply Forall_forall. intros c Hc. unfold u in Hc. clear u. unfold danda.
    assert (Gone : forall x y l, In x (replace [x] y l) -> In x y).
    { intros x y l H. rewrite replace_one in H. apply in_flat_map in H as (d & _ & H). destruct (d =? x) eqn:E; [exact H|].
      destruct H as [H|[]]. subst d. now rewrite N.eqb_refl in E. }
    apply orb_false_iff. split; apply N.eqb_neq; intros ->.
    - apply replace_chars in Hc as [Hc|Hc]; [|apply mem_yes in Hc; discriminate Hc].
      apply replace_chars in Hc as [Hc|Hc]; [|apply mem_yes in Hc; discriminate Hc].
      apply replace_chars in Hc as [Hc|Hc]; [|apply mem_yes in Hc; discriminate Hc].
      apply Gone, mem_yes in Hc. discriminate Hc.
    - apply replace_chars in Hc as [Hc|Hc]; [|apply mem_yes in Hc; discriminate Hc].
      apply replace_chars in Hc as [Hc|Hc]; [|apply mem_yes in Hc; discriminate Hc].
      apply Gone, mem_yes in Hc. discriminate Hc. }
  clearbody u. rewrite replace_one. induction N as [|c u Hc N IH]; [reflexivity|]. cbn [flat_map]. rewrite filter_app, flat_map_app, IH. f_equal. clear IH N u.
  destruct (c =? 0x7C) eqn:E; [apply N.eqb_eq in E; subst c; reflexivity|].
  cbn [filter]. unfold bar. unfold danda in Hc. apply orb_false_iff in Hc as [H1 H2]. unfold weight. rewrite E, H1, H2. cbn [orb].
  destruct (c =? 0x2502) eqn:E1; [apply N.eqb_eq in E1; subst c; reflexivity|]. destruct (c =? 0x2503) eqn:E2; [apply N.eqb_eq in E2; subst c; reflexivity|reflexivity].
Qed.

Lemma pipe_target : forall S T, In S GM_pipeScripts -> danda_target T -> script_pair S T.
Proof.
  intros S T HS HT.
  assert (C : mem S (GM_IndicScripts ++ GM_LatinScripts) && negb (mem S lossy_sources) && negb (mem S swapped) && negb (str_eqb S "RomanLoC"%u)
    && negb (mem S GM_SemiticScripts) && negb (mem S lossy_targets) = true).
  { revert S HS. apply forallb_forall. vm_compute. reflexivity. }
  repeat (apply andb_true_iff in C as [C ?]). repeat match goal with Q : negb _ = true |- _ => apply negb_true_iff in Q end. apply mem_In in C.
  destruct HT as [B1 B2]. rewrite !in_app_iff in B2.
  assert (LT : mem T lossy_targets = false) by (apply mem_false; tauto).
  assert (KS : In S known) by (apply mem_In; apply known_app; now apply mem_In).
  assert (KT : In T known) by (apply mem_In; apply known_app; now apply mem_In).
  assert (Ap : forall X, In X (GM_IndicScripts ++ GM_LatinScripts) -> mem X GM_SemiticScripts = false)
    by (apply (all_not (fun s => mem s GM_SemiticScripts)); vm_compute; reflexivity).
  assert (NT : T <> "RomanLoC"%u) by (intros ->; apply B2; right; right; now left).
  assert (NS : S <> "RomanLoC"%u) by now apply str_eqb_neq.
  assert (NI : has_key S GM_semiticISO = false).
  { pose proof KS as K. apply known_no_iso in K. unfold no_iso in K. unfold has_key. now rewrite K. }
  split; [|split; [exact KS|split; [exact KT|split; [|split; [now apply known_no_iso|split; [now apply known_no_iso|split; [exact NS|split; [exact NT|split; [|assumption]]]]]]]]].
  - intros nat. match goal with Q : mem S swapped = false |- _ => destruct (unswapped S Q) as [G1 G2] end.
    unfold semitic_switch. rewrite G1. rewrite (tauto_if (mem T GM_SemiticScripts || has_key T GM_semiticISO) S).
    rewrite (Ap S C), NI. cbn [orb]. rewrite G2. cbn [andb]. now rewrite G1, (tauto_if nat S).
  - unfold gentle. rewrite (Ap S C), (Ap T B1), LT. match goal with Q : mem S lossy_sources = false |- _ => rewrite Q end. reflexivity.
  - intros E. subst T. unfold gentle. rewrite (Ap S C), LT. match goal with Q : mem S lossy_sources = false |- _ => rewrite Q end. split; vm_compute; reflexivity.
Qed.
(** C33, the option indicDandas, for the romanizations that write "|" and "||" for dandas, when the text does: no stroke is lost. *)
Theorem pipe_dandas_retained : forall S T txt nat pre post r, In S GM_pipeScripts -> danda_target T ->
  unbarred_pre pre -> plain_post post -> In "indicDandas"%u post -> In 0x7C txt ->
  convert S T txt nat pre post = Ok r ->
  (stroke_count txt <= stroke_count (filter (is_stroke (mem T GM_Transliteration)) r))%nat.
Proof.
  intros S T txt nat pre post r HS HT Hpre Hpost Nd HC E. pose proof (pipe_target S T HS HT) as HP. change (run (convert_prog S T nat pre post) txt = Ok r) in E.
  rewrite prog_from in E; [|exact HP|right; intros ->; destruct Nd]. apply mem_In in Nd. rewrite Nd in E. unfold from_dandas in E. apply mem_In in HS. rewrite HS in E.
  cbv zeta in E. cbn [run] in E. rewrite run_op_IfIn in E.
  assert (C : contains "|"%u txt = true). { apply contains_spec. apply in_split in HC as (a & b & ->). now exists a, b. }
  rewrite C in E. destruct (run (PrP_RetainPipeDanda S ++ from_rest S T nat pre post) txt) as [y|] eqn:E'; [|discriminate]. assert (y = r) as -> by congruence. clear E.
  apply split_run in E' as (t & E1 & E2). rewrite (pipe_weight S txt t E1).
  pose proof (final_from S T nat pre post HP Hpre Hpost t r E2) as W. apply wo_weight in W.
  rewrite bar_mark in W. rewrite weight_strokes in W. rewrite <- bar_mark in W. exact W.
Qed.

(** ** The hypotheses can be met, and are needed *)
Ltac out_of := intros F; apply mem_In in F; discriminate F.
Example dandas_case : danda_source "Devanagari"%u /\ danda_target "Telugu"%u /\ danda_target "Titus"%u /\ retaining [retain] /\ plain_post ["TeluguArasunnaChandrabindu"%u]
  /\ convert "Devanagari"%u "Telugu"%u "कमल। फलम्॥"%u false [retain] [] = Ok "కమల। ఫలమ్॥"%u
  /\ convert "Devanagari"%u "Telugu"%u "कमल। फलम्॥"%u false [] [] = Ok "కమల. ఫలమ్.."%u
  /\ convert "Devanagari"%u "Titus"%u "कमल। फलम्॥"%u false [retain] [] = Ok "kamala| pʰalam||"%u
  /\ convert "IAST"%u "Telugu"%u "kamala | phalam ||"%u false [] ["indicDandas"%u] = Ok "కమల । ఫలమ్ ॥"%u.
Proof.
  split; [split; [listed_name|out_of]|]. split; [split; [listed_name|out_of]|]. split; [split; [listed_name|out_of]|].
  split; [exists [], []; split; [reflexivity|split; intros o []]|].
  split; [split; [intros o [<-|[]]; split; [listed_name|out_of]|split; intros [F|[]]; discriminate F]|].
  repeat split; vm_compute; reflexivity.
Qed.
Example writes_case : writes_dandas "Bengali"%u.
Proof. eexists. split; vm_compute; reflexivity. Qed.
(** Two dandas in a row become a double one. *)
Theorem dandas_merge_refuted : exists r, convert "Devanagari"%u "Telugu"%u "क।।"%u true [retain] [] = Ok r /\ filter danda r <> filter danda "क।।"%u.
Proof. eexists. split; [vm_compute; reflexivity|vm_compute; discriminate]. Qed.
(** The option does not keep the dandas of a text in a romanization that also has pipes. *)
Theorem pipe_script_dandas_refuted : exists r, convert "IAST"%u "Telugu"%u "ka। ma |"%u true [retain] [] = Ok r
  /\ (stroke_count (filter danda r) < stroke_count (filter danda "ka। ma |"%u))%nat.
Proof. eexists. split; [vm_compute; reflexivity|vm_compute; repeat constructor]. Qed.
