(** * Foreign characters: the conversion between two scripts keeps them, in order (for property C07,
    see Foreign.v). *)
From Coq Require Import List NArith ZArith Bool Lia Permutation.
From Verif Require Import PyStr StrFacts UnicodeTables Regex Unicode Prog GMLists GeneralMap FixNum
  PostProcess1 ConvertFix1 PreProcess1 PostProcess2 GimelData Gimeltra Convert Dispatch YamlData Transliterate
  AbsRegex NormCut SortFacts TableFacts SafeFacts TotalFacts Marks MarkFacts Keeps.
Import ListNotations.
Local Open Scope N_scope.

(** The alphabets; the same without dandas; the same with the bars that stand for dandas
    (PreProcess.py RetainDevangariDanda). *)
Definition A : ranges := alphabets.
Definition undanda : ranges := firstn 5 alphabets ++ (0xBC, 0x963) :: (0x966, 0x13FF) :: skipn 6 alphabets.
Definition barred : ranges := firstn 12 alphabets ++ (0x2502, 0x2503) :: skipn 12 alphabets.
Lemma fits_A : fits A = true.
Proof. vm_compute. reflexivity. Qed.
Lemma fits_undanda : fits undanda = true.
Proof. vm_compute. reflexivity. Qed.
Lemma fits_barred : fits barred = true.
Proof. vm_compute. reflexivity. Qed.
Lemma widen : forall al al' : ranges, sorted al' 0 = true -> forallb (fun p => hush_range al' (fst p) (snd p)) al = true ->
  forall c, hush al c = true -> hush al' c = true.
Proof.
  intros al al' S H c Hc. apply in_ranges_In in Hc as (p & Hp & Q). rewrite forallb_forall in H. exact (hush_range_In al' S _ _ c (H p Hp) Q).
Qed.
Lemma A_barred : forall p, keeps A p -> keeps barred p.
Proof. intros p. apply keeps_more. apply widen; vm_compute; reflexivity. Qed.
Lemma undanda_A : forall p, keeps undanda p -> keeps A p.
Proof. intros p. apply keeps_more. apply widen; vm_compute; reflexivity. Qed.

Definition kp : prog -> Prop := keeps A.
Lemma kp_check : forall p, keep A p = true -> kp p.
Proof. exact (keep_sound A fits_A). Qed.
Lemma kp_nil : kp [].
Proof. apply keeps_nil. Qed.
Lemma kp_app : forall p q, kp p -> kp q -> kp (p ++ q).
Proof. exact (keeps_app A). Qed.
Lemma kp_if : forall (b : bool) p q, kp p -> kp q -> kp (if b then p else q).
Proof. exact (keeps_if A). Qed.
Lemma kp_withS : forall (X : Type) (r : res X) f, (forall a, r = Ok a -> kp (f a)) -> kp (withS r f).
Proof. exact (keeps_withS A). Qed.
Lemma kp_foreach : forall (X : Type) (l : list X) f, (forall x, In x l -> kp (f x)) -> kp (foreach l f).
Proof. exact (keeps_foreach A). Qed.
Lemma kp_replace : forall x y, hushed A x = true -> hushed A y = true -> kp [Replace x y].
Proof. exact (keeps_Replace_hushed A fits_A). Qed.
Ltac kleaf := apply kp_check; vm_compute; reflexivity.
Ltac kpieces := repeat lazymatch goal with
  | |- kp (_ ++ _) => apply kp_app
  | |- kp (if _ then _ else _) => apply kp_if
  | |- kp [IfIn _ _ _] => apply (keeps_IfIn A)
  end.

(** ** Lists of replacements *)
Lemma hushed_app : forall x y, hushed A x = true -> hushed A y = true -> hushed A (x ++ y) = true.
Proof. intros x y Hx Hy. unfold hushed in *. now rewrite forallb_app, Hx, Hy. Qed.
Lemma kp_replaces : forall l : list (str * str), (forall x y, In (x, y) l -> hushed A x = true /\ hushed A y = true) -> kp (replace_all l).
Proof.
  induction l as [|[x y] l IH]; intros H; [apply kp_nil|]. change (replace_all ((x, y) :: l)) with ([Replace x y] ++ replace_all l). apply kp_app.
  - destruct (H x y (or_introl eq_refl)). now apply kp_replace.
  - apply IH. intros x' y' Q. apply H. now right.
Qed.
(** Texts that mean themselves in a template. *)
Definition unescaped (s : str) : bool := forallb (fun c => negb (c =? 92)) s.
Definition tame (x : str) : bool := hushed A x && unescaped x.
Lemma tame_app : forall x y, tame x = true -> tame y = true -> tame (x ++ y) = true.
Proof.
  intros x y Hx Hy. unfold tame, hushed, unescaped in *. rewrite !forallb_app. bools. apply andb_true_iff. split; apply andb_true_iff; now split.
Qed.
Lemma tame_hushed : forall x, tame x = true -> hushed A x = true.
Proof. intros x H. unfold tame in H. now apply andb_true_iff in H as [H _]. Qed.
Lemma tame_unescaped : forall x, tame x = true -> unescaped x = true.
Proof. intros x H. unfold tame in H. now apply andb_true_iff in H as [_ H]. Qed.
Definition own (S : str) : bool := forallb (fun g => forallb tame (symbols g S)) GM_ScriptAll.
Lemma owns : forall S, In S (GM_IndicScripts ++ GM_LatinScripts) -> own S = true.
Proof. apply forallb_forall. vm_compute. reflexivity. Qed.
Lemma zipped_both : forall fs ft S T gs z x y, zipped fs ft S T gs = Ok z -> In (x, y) z ->
  exists g, In g gs /\ (exists v, In v (symbols g S) /\ x = fs g v) /\ exists w, In w (symbols g T) /\ y = ft g w.
Proof.
  induction gs as [|g gs IH]; intros z x y E H; cbn [zipped] in E; [assert (z = []) as -> by congruence; destruct H|].
  destruct (retCharList g) as [parts|] eqn:Eg; [|discriminate]. cbn [rbind] in E.
  destruct (CrunchSymbols parts S) as [s|] eqn:Es; [|discriminate]. cbn [rbind] in E.
  destruct (CrunchSymbols parts T) as [t|] eqn:Et; [|discriminate]. cbn [rbind] in E.
  destruct (zipped fs ft S T gs) as [z'|]; [|discriminate]. cbn [rbind] in E.
  assert (z = zip (map (fs g) s) (map (ft g) t) ++ z') as -> by congruence. apply in_app_or in H as [H|H].
  - exists g. split; [now left|]. apply zip_In in H as [H1 H2]. apply in_map_iff in H1 as (v & <- & Hv). apply in_map_iff in H2 as (w & <- & Hw).
    split; [exists v|exists w]; (split; [|reflexivity]); unfold symbols; rewrite Eg; [now rewrite Es|now rewrite Et].
  - destruct (IH z' x y eq_refl H) as (g' & Hg & Q). exists g'. split; [now right|exact Q].
Qed.
Definition mild (f : str -> str -> str) : Prop := forall g x, tame x = true -> tame (f g x) = true.
Lemma mild_id : mild id_side.
Proof. intros g x H. exact H. Qed.
Lemma mild_roman : mild roman_side.
Proof.
  intros g x H. unfold roman_side. destruct (str_eqb g "Consonants"%u); [now apply tame_app|].
  destruct (str_eqb g "Vowels"%u); [now apply tame_app|exact H].
Qed.
Lemma mild_inter : mild inter_side.
Proof. intros g x H. unfold inter_side. destruct (str_eqb g "VowelSigns"%u); [now apply tame_app|exact H]. Qed.
Lemma pairs_tame : forall fs ft S T, mild fs -> mild ft -> In S (GM_IndicScripts ++ GM_LatinScripts) -> In T (GM_IndicScripts ++ GM_LatinScripts) ->
  forall pairs, charPairs fs ft S T = Ok pairs -> forall x y, In (x, y) pairs -> tame x = true /\ tame y = true.
Proof.
  intros fs ft S T Mf Mt HS HT pairs E x y Hp. apply charPairs_zipped in E as (z & Z & P). apply (Permutation_in _ P) in Hp.
  destruct (zipped_both fs ft S T _ z x y Z Hp) as (g & Hg & (v & Hv & ->) & w & Hw & ->).
  pose proof (owns S HS) as O1. pose proof (owns T HT) as O2. unfold own in O1, O2. rewrite forallb_forall in O1, O2.
  specialize (O1 g Hg). specialize (O2 g Hg). rewrite forallb_forall in O1, O2. split; [apply Mf; now apply O1|apply Mt; now apply O2].
Qed.
Lemma kp_pairs : forall fs ft S T, mild fs -> mild ft -> In S (GM_IndicScripts ++ GM_LatinScripts) -> In T (GM_IndicScripts ++ GM_LatinScripts) ->
  kp (let! pairs := charPairs fs ft S T in replace_all pairs).
Proof. intros fs ft S T Mf Mt HS HT. apply kp_withS. intros pairs E. apply kp_replaces. intros x y H.
  destruct (pairs_tame fs ft S T Mf Mt HS HT pairs E x y H). split; now apply tame_hushed. Qed.

(** ** Functions that compute with numbers *)
Lemma small : forall c, 48 <= c <= 57 -> hush A c = true.
Proof. intros c H. apply (hush_range_In A eq_refl 48 57 c eq_refl). lia. Qed.
Lemma digits_hushed : forall f n acc, hushed A acc = true -> hushed A (digits_go f n acc) = true.
Proof.
  induction f as [|f IH]; intros n acc H; cbn [digits_go]; [exact H|]. cbv zeta.
  assert (D : hushed A ((48 + Z.to_N (n mod 10))%N :: acc) = true).
  { unfold hushed. cbn [forallb]. rewrite small; [exact H|]. pose proof (Z.mod_pos_bound n 10). lia. }
  destruct (n <? 10)%Z; [exact D|now apply IH].
Qed.
Lemma str_of_Z_hushed : forall n, hushed A (str_of_Z n) = true.
Proof. intros n. unfold str_of_Z. now apply digits_hushed. Qed.
Lemma repeat_hushed : forall c n, hush A c = true -> hushed A (repeat c n) = true.
Proof. intros c n H. unfold hushed. apply forallb_forall. intros d Hd. apply repeat_spec in Hd. now subst d. Qed.
Lemma khar_hushed : forall fuel n, hushed A (khar_go fuel n) = true.
Proof.
  induction fuel as [|f IH]; intros n; cbn [khar_go]; [reflexivity|]. cbv zeta.
  assert (O : forall k, hushed A (khar_ones k) = true).
  { intros k. unfold khar_ones. repeat match goal with |- hushed _ (if ?b then _ else _) = true => destruct b end; reflexivity. }
  repeat match goal with
    | |- hushed _ (_ ++ _) = true => apply hushed_app
    | |- hushed _ (if ?b then _ else _) = true => destruct b
    | |- hushed _ [] = true => reflexivity
    | |- hushed _ (repeat _ _) = true => apply repeat_hushed; reflexivity
    | |- hushed _ (khar_ones _) = true => apply O
    | |- hushed _ (khar_go _ _) = true => apply IH
    | |- hushed _ [_] = true => reflexivity
  end.
Qed.
Lemma kharoshthi_hushed : forall n y, kharoshthiNumber n = Ok y -> hushed A y = true.
Proof.
  intros n y H. unfold kharoshthiNumber in H. destruct (n <? 2 ^ 53)%Z; [|destruct (_ <=? n)%Z; discriminate].
  assert (y = khar_go 20 n) as -> by congruence. apply khar_hushed.
Qed.
Lemma oldPersian_hushed : forall n y, oldPersianNumber n = Ok y -> hushed A y = true.
Proof.
  intros n y H. unfold oldPersianNumber in H. destruct (n <? 2 ^ 53)%Z; [|destruct (_ <=? n)%Z; discriminate].
  cbv zeta in H. match type of H with Ok ?x = Ok _ => assert (y = x) as -> by congruence end. clear H.
  repeat apply hushed_app; apply repeat_hushed; reflexivity.
Qed.
Lemma numbers_keep : forall (k : Z -> res str), (forall n y, k n = Ok y -> hushed A y = true) ->
  forall l s r, fold_left (fun acc num => do s <- acc; do k <- k num; Ok (replace (str_of_Z num) k s)) l (Ok s) = Ok r ->
  exists q, kp q /\ run q s = Ok r.
Proof.
  intros k Hk. assert (E : forall l e r, fold_left (fun acc num => do s <- acc; do k <- k num; Ok (replace (str_of_Z num) k s)) l (Err e) = Ok r -> False).
  { induction l as [|n l IH]; intros e r H; cbn [fold_left rbind] in H; [discriminate|exact (IH e r H)]. }
  induction l as [|n l IH]; intros s r H; cbn [fold_left] in H; [exists []; split; [apply kp_nil|exact H]|].
  cbn [rbind] in H. destruct (k n) as [y|e] eqn:Ek; cbn [rbind] in H; [|destruct (E _ _ _ H)].
  destruct (IH _ _ H) as (q & Kq & R). exists ([Replace (str_of_Z n) y] ++ q). split.
  - apply kp_app; [|exact Kq]. apply kp_replace; [apply str_of_Z_hushed|exact (Hk n y Ek)].
  - exact R.
Qed.
Lemma kp_khar : forall b, kp (CF_KharoshthiNumerals b).
Proof.
  intros b. unfold CF_KharoshthiNumerals. apply (keeps_one A). intros s r R. cbn [run_op] in R.
  destruct (re_numbers s) as [ns|]; [|discriminate]. destruct b.
  - assert (F : kp [Replace "𐩀"%u "1#"%u; Replace "𐩁"%u "2#"%u; Replace "𐩂"%u "3#"%u; Replace "𐩃"%u "4#"%u; Replace "𐩄"%u "10#"%u;
      Replace "𐩅"%u "20#"%u; Replace "𐩆"%u "100#"%u; Replace "𐩇"%u "1000#"%u]) by kleaf.
    exact (F s r R).
  - destruct (numbers_keep _ kharoshthi_hushed ns s r R) as (q & K & E). exact (K s r E).
Qed.
Lemma kp_oldPersian : forall b, kp (CF_OldPersianNumeral b).
Proof.
  intros b. unfold CF_OldPersianNumeral. apply (keeps_one A). intros s r R. cbn [run_op] in R.
  destruct (re_numbers s) as [ns|]; [|discriminate]. destruct b.
  - assert (F : kp [Replace "𐏑"%u "1#"%u; Replace "𐏒"%u "2#"%u; Replace "𐏓"%u "10#"%u; Replace "𐏔"%u "20#"%u; Replace "𐏕"%u "100#"%u]) by kleaf.
    exact (F s r R).
  - destruct (numbers_keep _ oldPersian_hushed ns s r R) as (q & K & E). exact (K s r E).
Qed.
Lemma kp_FixOldPersian : forall b, kp (CF_FixOldPersian b).
Proof. intros b. unfold CF_FixOldPersian. apply kp_app; [destruct b; kleaf|apply kp_oldPersian]. Qed.

(** ** Patterns that match characters of the alphabets only: om *)
Definition silent (p : str) : bool :=
  match compile p with
  | None => true
  | Some (r, _) => quiet A (fun n => memn n []) r
      && match loud A (fun _ => true) r, loud A (fun n => memn n []) r with [], [] => true | _, _ => false end
  end.
Lemma parse_plain : forall x f g y l, unescaped x = true -> parse_template (length x + f) g (x ++ y) = Some l ->
  exists l', parse_template f g y = Some l' /\ l = map TLit x ++ l'.
Proof.
  induction x as [|c x IH]; intros f g y l H E; [exists l; now split|]. cbn [unescaped forallb] in H. apply andb_true_iff in H as [Hc Hx].
  apply negb_true_iff in Hc. cbn [length Nat.add app] in E. cbn [parse_template] in E. rewrite Hc in E.
  destruct (parse_template (length x + f) g (x ++ y)) as [l0|] eqn:P; [|discriminate]. cbn [option_map] in E.
  destruct (IH f g y l0 Hx P) as (l' & Q & ->). exists l'. split; [exact Q|]. cbn [map app]. congruence.
Qed.
Lemma parse_all : forall x f g l, unescaped x = true -> parse_template (S (length x) + f) g x = Some l -> l = map TLit x.
Proof.
  intros x f g l H E. replace (S (length x) + f)%nat with (length x + S f)%nat in E by lia. rewrite <- (app_nil_r x) in E at 2.
  destruct (parse_plain x (S f) g [] l H E) as (l' & Q & ->). cbn [parse_template] in Q. assert (l' = []) as -> by congruence. apply app_nil_r.
Qed.
Lemma hushed_lits : forall o, hushed A o = true -> forallb (fun i => match i with TLit c => hush A c | TGroup n => negb (Nat.eqb n 0) end) (map TLit o) = true.
Proof. induction o as [|c o IH]; intros H; [reflexivity|]. cbn [hushed forallb] in H. apply andb_true_iff in H as [H1 H2]. cbn [map forallb]. rewrite H1. now apply IH. Qed.
Lemma tgroups_app : forall a b, tgroups (a ++ b) = tgroups a ++ tgroups b.
Proof. induction a as [|[c|n] a IH]; intros b; cbn [app tgroups]; [reflexivity|apply IH|now rewrite IH]. Qed.
Lemma tgroups_map : forall o, tgroups (map TLit o) = [].
Proof. induction o as [|c o IH]; [reflexivity|exact IH]. Qed.
(** The literal characters of a template do not matter. *)
Lemma keeps_re_lits : forall r a o b, hushed A o = true -> keeps_re A r (a ++ b) = true -> keeps_re A r (a ++ map TLit o ++ b) = true.
Proof.
  intros r a o b Ho H. unfold keeps_re in *. cbv zeta in *. rewrite !forallb_app, (hushed_lits o Ho), !tgroups_app, tgroups_map in *. exact H.
Qed.
Lemma kp_silent : forall p t, silent p = true -> hushed A t = true -> unescaped t = true -> kp [ReSub p t].
Proof.
  intros p t H Ht Hu. apply (keep_op_sound A fits_A). cbn [keep_op]. unfold keeps_sub. unfold silent in H. destruct (compile p) as [[r g]|]; [|reflexivity].
  destruct (parse_template (S (length t)) g t) as [l|] eqn:P; [|reflexivity]. rewrite <- (Nat.add_0_r (S (length t))) in P.
  apply parse_all in P as ->; [|exact Hu]. apply andb_true_iff in H as [Q H].
  destruct (loud A (fun _ => true) r) eqn:E0; [|discriminate]. destruct (loud A (fun n => memn n []) r) eqn:E1; [|discriminate].
  unfold keeps_re. cbv zeta. rewrite E0, E1, E1, (hushed_lits t Ht), tgroups_map. cbn [forallb andb filter].
  destruct r; cbn [tops]; rewrite Q; reflexivity.
Qed.
Definition om_keeps (p : str) (n : nat) (t : list titem) : bool :=
  match compile p with None => true | Some (r, g) => Nat.leb n g && Nat.leb g 9 && keeps_re A r t end.
Definition om_kept (punc sOm : str) : bool :=
  om_keeps (punc ++ sOm ++ punc) 2 [TGroup 1; TGroup 2] && om_keeps ("^"%u ++ sOm ++ punc) 1 [TGroup 1]
  && om_keeps (punc ++ sOm ++ "$"%u) 1 [TGroup 1] && om_keeps ("^"%u ++ sOm ++ "$"%u) 0 [].
Definition om_plain (tOm : str) : bool :=
  unescaped tOm && match tOm with c :: _ => match digit_val c with None => true | _ => false end | [] => true end.
Lemma parse_back : forall f g n d t l, digit_val d = Some (S n) -> Nat.leb (S n) g = true ->
  match t with c :: _ => match digit_val c with None => true | _ => false end | [] => true end = true ->
  parse_template (S f) g (92 :: d :: t) = Some l -> exists l', parse_template f g t = Some l' /\ l = TGroup (S n) :: l'.
Proof.
  intros f g n d t l D Hn Ht E. cbn [parse_template N.eqb Pos.eqb] in E. rewrite D in E.
  assert (E' : option_map (cons (TGroup (S n))) (parse_template f g t) = Some l).
  { destruct t as [|c t]; [|destruct (digit_val c); [discriminate|]]; cbv zeta in E; rewrite Hn in E; exact E. }
  destruct (parse_template f g t) as [l'|]; [|discriminate]. exists l'. split; [reflexivity|]. cbn [option_map] in E'. congruence.
Qed.
Lemma om_head : forall tOm u, om_plain tOm = true -> match u with c :: _ => match digit_val c with None => true | _ => false end | [] => true end = true ->
  match tOm ++ u with c :: _ => match digit_val c with None => true | _ => false end | [] => true end = true.
Proof. intros [|c tOm] u H Hu; [exact Hu|]. unfold om_plain in H. apply andb_true_iff in H as [_ H]. exact H. Qed.
Lemma kp_om : forall punc sOm tOm, om_kept punc sOm = true -> hushed A tOm = true -> om_plain tOm = true -> kp (om_subs punc sOm tOm).
Proof.
  intros punc sOm tOm H Ht Hp. pose proof Hp as Hu. unfold om_plain in Hu. apply andb_true_iff in Hu as [Hu _]. unfold om_kept in H. bools. unfold om_subs.
  assert (Op : forall p t n pt, om_keeps p n pt = true -> (forall r g l, compile p = Some (r, g) -> Nat.leb n g = true -> parse_template (S (length t)) g t = Some l ->
    keeps_re A r pt = true -> keeps_re A r l = true) -> kp [ReSub p t]).
  { intros p t n pt K P. apply (keep_op_sound A fits_A). cbn [keep_op]. unfold keeps_sub. unfold om_keeps in K. destruct (compile p) as [[r g]|]; [|reflexivity].
    bools. destruct (parse_template (S (length t)) g t) as [l|] eqn:E; [|reflexivity]. now apply (P r g l eq_refl). }
  apply (keeps_cons A); [|apply (keeps_cons A); [|apply (keeps_cons A)]].
  - match goal with K : om_keeps ?p ?n ?pt = true |- keeps A [ReSub ?p ?t] => refine (Op p t n pt K _) end. intros r g l _ Hg E K.
    destruct (parse_back _ g 0 49 (tOm ++ "\2"%u) l eq_refl ltac:(destruct g as [|[|g]]; [discriminate..|reflexivity]) (om_head tOm "\2"%u Hp eq_refl) E) as (l1 & E1 & ->).
    replace (length ("\1"%u ++ tOm ++ "\2"%u)) with (length tOm + 4)%nat in E1 by (rewrite !app_length; cbn; lia).
    apply parse_plain in E1 as (l2 & E2 & ->); [|exact Hu].
    destruct (parse_back 3 g 1 50 [] l2 eq_refl Hg eq_refl E2) as (l3 & E3 & ->).
    assert (l3 = []) as -> by (cbn [parse_template] in E3; congruence). exact (keeps_re_lits r [TGroup 1] tOm [TGroup 2] Ht K).
  - match goal with K : om_keeps ?p ?n ?pt = true |- keeps A [ReSub ?p ?t] => refine (Op p t n pt K _) end. intros r g l _ Hg E K.
    replace (S (length (tOm ++ "\1"%u))) with (length tOm + 3)%nat in E by (rewrite !app_length; cbn; lia).
    apply parse_plain in E as (l2 & E2 & ->); [|exact Hu].
    destruct (parse_back 2 g 0 49 [] l2 eq_refl Hg eq_refl E2) as (l3 & E3 & ->).
    assert (l3 = []) as -> by (cbn [parse_template] in E3; congruence). exact (keeps_re_lits r [] tOm [TGroup 1] Ht K).
  - match goal with K : om_keeps ?p ?n ?pt = true |- keeps A [ReSub ?p ?t] => refine (Op p t n pt K _) end. intros r g l _ Hg E K.
    assert (Hd : match tOm with c :: _ => match digit_val c with None => true | _ => false end | [] => true end = true)
      by (unfold om_plain in Hp; now apply andb_true_iff in Hp as [_ Hp]).
    destruct (parse_back _ g 0 49 tOm l eq_refl Hg Hd E) as (l1 & E1 & ->).
    replace (length ("\1"%u ++ tOm)) with (S (length tOm) + 1)%nat in E1 by (rewrite !app_length; cbn; lia).
    apply parse_all in E1 as ->; [|exact Hu]. pose proof (keeps_re_lits r [TGroup 1] tOm [] Ht K) as Q. now rewrite app_nil_r in Q.
  - match goal with K : om_keeps ?p ?n ?pt = true |- keeps A [ReSub ?p ?t] => refine (Op p t n pt K _) end. intros r g l _ Hg E K. rewrite <- (Nat.add_0_r (S (length tOm))) in E.
    apply parse_all in E as ->; [|exact Hu]. pose proof (keeps_re_lits r [] tOm [] Ht K) as Q. now rewrite app_nil_r in Q.
Qed.
Definition om_source (S : str) : bool :=
  match CrunchSymbols GM_Signs S, first_of "OmMap"%u S with
  | Ok signs, Ok sOm => hushed A sOm && om_kept (om_punc signs) sOm && om_kept "(\s)"%u sOm
  | _, _ => true
  end.
Definition hushed_ok (r : res str) : bool := match r with Ok s => hushed A s | Err _ => true end.
Definition plain_ok (r : res str) : bool := match r with Ok s => hushed A s && om_plain s | Err _ => true end.

(** ** The conversions between Brahmic scripts and romanizations *)

(** The scripts whose conversions double, merge or lose a character next to certain signs. *)
Definition lossy_sources : list str := ["Shahmukhi"%u; "Urdu"%u; "Soyombo"%u; "HanifiRohingya"%u; "IPA"%u; "Velthuis"%u].
Definition lossy_targets : list str := ["Gurmukhi"%u; "GurmukhiLoC"%u; "Soyombo"%u; "IPA"%u].

Definition k_ind_src (S : str) : bool :=
  if mem S lossy_sources then true else
  om_source S && hushed_ok (first_of "OmMap"%u S) && (if mem S computed then true else keep A (ind_prefix S)).
Definition k_lat_src (S : str) : bool :=
  if mem S lossy_sources then true else
  om_source S && keep A [Try is_AttributeError (CF_getattr_reverse ("Fix"%u ++ S))] && keep A (CF_VedicSvarasLatinIndic S) && keep A (convertInter S).
Definition k_ind_tgt (T : str) : bool :=
  if mem T lossy_targets then true else
  plain_ok (first_of "OmMap"%u T) && hushed_ok (first_of "ViramaMap"%u T)
  && keep A (let! vowels := CrunchSymbols GM_Vowels T in
      let! v2 := idx vowels 2%Z in
      let! v4 := idx vowels 4%Z in
      [Replace ("_"%u ++ v2) v2; Replace ("_"%u ++ v4) v4])
  && (if mem T computed then true else keep A (CF_FixIndicOutput [] T)).
Definition k_lat_tgt (T : str) : bool :=
  if mem T lossy_targets then true else
  hushed_ok (first_of "OmMap"%u T)
  && keep A (CF_FixRomanOutput T) && keep A (CF_FixVedic T)
  && keep A (let! s := CrunchSymbols ScriptAllParts GM_Inter in
      let! t := CrunchSymbols ScriptAllParts T in
      replace_all (zip s t)).
Lemma k_ind_srcs : forall s, In s GM_IndicScripts -> k_ind_src s = true.
Proof. apply forallb_forall. vm_compute. reflexivity. Qed.
Lemma k_lat_srcs : forall s, In s GM_LatinScripts -> k_lat_src s = true.
Proof. apply forallb_forall. vm_compute. reflexivity. Qed.
Lemma k_ind_tgts : forall s, In s GM_IndicScripts -> k_ind_tgt s = true.
Proof. apply forallb_forall. vm_compute. reflexivity. Qed.
Lemma k_lat_tgts : forall s, In s GM_LatinScripts -> k_lat_tgt s = true.
Proof. apply forallb_forall. vm_compute. reflexivity. Qed.

Lemma kp_ind_prefix : forall S, In S GM_IndicScripts -> mem S lossy_sources = false -> kp (ind_prefix S).
Proof.
  intros S HS L. pose proof (k_ind_srcs S HS) as H. unfold k_ind_src in H. rewrite L in H. apply andb_true_iff in H as [_ H].
  destruct (mem S computed) eqn:E; [|now apply kp_check]. clear H. unfold ind_prefix.
  assert (C : kp (CF_getattr_reverse ("Fix"%u ++ S))).
  { destruct (computed_cases S E) as [-> | ->].
    - change (kp (CF_KharoshthiNumerals true)). apply kp_khar.
    - change (kp (CF_FixOldPersian true)). apply kp_FixOldPersian. }
  apply kp_app; [kleaf|]. apply kp_app.
  - destruct (computed_cases S E) as [-> | ->]; kleaf.
  - exact (keeps_Try A _ _ C).
Qed.
Lemma kp_FixIndicOutput : forall S T, In T GM_IndicScripts -> mem T lossy_targets = false -> kp (CF_FixIndicOutput S T).
Proof.
  intros S T HT L. pose proof (k_ind_tgts T HT) as B. unfold k_ind_tgt in B. rewrite L in B.
  apply andb_true_iff in B as [_ B]. destruct (mem T computed) eqn:E.
  - clear B. assert (C : kp (CF_globals_call ("Fix"%u ++ T))).
    { destruct (computed_cases T E) as [-> | ->]; [change (kp (CF_KharoshthiNumerals false)); apply kp_khar|change (kp (CF_FixOldPersian false)); apply kp_FixOldPersian]. }
    unfold CF_FixIndicOutput. apply kp_withS. intros vm Ev. apply kp_withS. intros vir Er.
    apply kp_app.
    + apply (keeps_cons A).
      * assert (Hv : hushed A vir = true).
        { assert (F : first_of "ViramaMap"%u T = Ok vir) by (unfold first_of; rewrite Ev; exact Er).
          change (hushed_ok (Ok vir) = true). rewrite <- F. destruct (computed_cases T E) as [-> | ->]; vm_compute; reflexivity. }
        apply kp_replace; [now apply hushed_app|exact Hv].
      * apply (keeps_cons A); [exact (keeps_Try A _ _ C)|]. kleaf.
    + destruct (computed_cases T E) as [-> | ->]; kleaf.
  - assert (G : kp (CF_FixIndicOutput [] T)) by (now apply kp_check). exact G.
Qed.

Theorem kp_indic_indic : forall S T, In S GM_IndicScripts -> In T GM_IndicScripts -> mem S lossy_sources = false -> mem T lossy_targets = false ->
  kp (indic_indic S T).
Proof.
  intros S T HS HT LS LT. pose proof (k_ind_tgts T HT) as B. unfold k_ind_tgt in B. rewrite LT in B. bools.
  pose proof (k_ind_srcs S HS) as Q. unfold k_ind_src in Q. rewrite LS in Q. apply andb_true_iff in Q as [Q _]. apply andb_true_iff in Q as [Q _].
  assert (E : indic_indic S T = ind_prefix S
    ++ (let! signs := CrunchSymbols GM_Signs S in
      let! sOm := first_of "OmMap"%u S in
      let! tOm := first_of "OmMap"%u T in
      if Nat.eqb (length sOm) 1 then [Replace sOm tOm] else om_subs (om_punc signs) sOm tOm)
    ++ (let! pairs := charPairs id_side id_side S T in replace_all pairs)
    ++ CF_FixIndicOutput S T) by (unfold indic_indic, ind_prefix; now rewrite <- !app_assoc).
  rewrite E. clear E. apply kp_app; [now apply kp_ind_prefix|]. apply kp_app.
  { apply kp_withS. intros signs E1. apply kp_withS. intros sOm E2. apply kp_withS. intros tOm E3. unfold om_source in Q. rewrite E1, E2 in Q.
    match goal with R : plain_ok (first_of "OmMap"%u T) = true |- _ => rewrite E3 in R; cbn [plain_ok] in R end. bools.
    apply kp_if; [now apply kp_replace|now apply kp_om]. }
  apply kp_app; [|now apply kp_FixIndicOutput]. apply kp_pairs; try apply mild_id; apply lat_or_ind; now left.
Qed.

Lemma kp_RomanPreFix : kp (PrP_RomanPreFix GM_Inter).
Proof. kleaf. Qed.
Theorem kp_latin_indic : forall S T, In S GM_LatinScripts -> In T GM_IndicScripts -> mem S lossy_sources = false -> mem T lossy_targets = false ->
  kp (latin_indic S T).
Proof.
  intros S T HS HT LS LT. pose proof (k_ind_tgts T HT) as B. unfold k_ind_tgt in B. rewrite LT in B. bools.
  pose proof (k_lat_srcs S HS) as Q. unfold k_lat_src in Q. rewrite LS in Q. bools. unfold latin_indic.
  apply kp_app; [now apply kp_check|]. apply kp_app; [apply kp_if; kleaf|]. apply kp_app; [kleaf|]. apply kp_app; [now apply kp_check|].
  apply kp_app.
  { apply kp_withS. intros signs E1. apply kp_withS. intros sOm E2. apply kp_withS. intros tOm E3.
    match goal with R : om_source S = true |- _ => unfold om_source in R; rewrite E1, E2 in R end.
    match goal with R : plain_ok (first_of "OmMap"%u T) = true |- _ => rewrite E3 in R; cbn [plain_ok] in R end. bools.
    apply kp_app; now apply kp_om. }
  apply kp_app; [now apply kp_check|]. apply kp_app; [exact kp_RomanPreFix|]. apply kp_app; [kleaf|].
  apply kp_app.
  { apply kp_withS. intros _ _. apply kp_pairs; [exact mild_inter|exact mild_id| |apply lat_or_ind; now left]. apply mem_In. exact inter_listed. }
  apply kp_app; [now apply kp_check|].
  apply kp_app; [|now apply kp_FixIndicOutput].
  apply kp_withS. intros vir EV. match goal with R : hushed_ok (first_of "ViramaMap"%u T) = true |- _ => rewrite EV in R; cbn [hushed_ok] in R end.
  apply (keeps_cons A).
  - apply kp_replace; [now apply hushed_app|]. change (0x200D :: vir) with ([0x200D] ++ vir). now apply hushed_app.
  - now apply kp_replace.
Qed.

Lemma kp_PostFixRoman : forall S T, In T GM_LatinScripts -> mem T lossy_targets = false -> kp (CF_PostFixRomanOutput S T).
Proof.
  intros S T HT LT. pose proof (k_lat_tgts T HT) as B. unfold k_lat_tgt in B. rewrite LT in B. bools.
  assert (NI : str_eqb T "IPA"%u = false) by (destruct (str_eqb T "IPA"%u) eqn:E; [apply str_eqb_eq in E as ->; discriminate LT|reflexivity]).
  unfold CF_PostFixRomanOutput. rewrite NI. kpieces; lazymatch goal with |- kp (CF_FixVedic _) => now apply kp_check | |- _ => kleaf end.
Qed.
Theorem kp_latin_latin : forall S T, In S GM_LatinScripts -> In T GM_LatinScripts -> mem S lossy_sources = false -> mem T lossy_targets = false ->
  kp (latin_latin S T).
Proof.
  intros S T HS HT LS LT. pose proof (k_lat_tgts T HT) as B. unfold k_lat_tgt in B. rewrite LT in B. bools.
  pose proof (k_lat_srcs S HS) as Q. unfold k_lat_src in Q. rewrite LS in Q. bools. unfold latin_latin.
  apply kp_app; [now apply kp_check|]. apply kp_app; [now apply kp_check|]. apply kp_app; [now apply kp_check|]. now apply kp_PostFixRoman.
Qed.
Definition unaspirated : list str := ["k"%u; "g"%u; "c"%u; "j"%u; "t"%u; "d"%u; "p"%u; "b"%u; "ɽ"%u; "ʈ"%u; "ɖ"%u; "r"%u].
Lemma unaspirated_silent : forall x, In x unaspirated -> silent (x ++ "(?!(ʰ|"%u ++ [0x324%N] ++ "))"%u) = true.
Proof. apply forallb_forall. vm_compute. reflexivity. Qed.
Theorem kp_indic_latin : forall S T, In S GM_IndicScripts -> In T GM_LatinScripts -> mem S lossy_sources = false -> mem T lossy_targets = false ->
  kp (indic_latin S T).
Proof.
  intros S T HS HT LS LT. pose proof (k_lat_tgts T HT) as B. unfold k_lat_tgt in B. rewrite LT in B. bools.
  pose proof (k_ind_srcs S HS) as Q. unfold k_ind_src in Q. rewrite LS in Q. apply andb_true_iff in Q as [Q _]. apply andb_true_iff in Q as [_ Q].
  assert (O : forall sOm, first_of "OmMap"%u S = Ok sOm -> hushed A sOm = true).
  { intros sOm E. rewrite E in Q. exact Q. }
  assert (E : indic_latin S T = ind_prefix S
    ++ (let! sOm := first_of "OmMap"%u S in
      let! tOm := first_of "OmMap"%u T in
      [Replace sOm tOm])
    ++ (let! pairs := charPairs id_side roman_side S T in
      if str_eqb S "RomanSemitic"%u then
        let unasp := ["k"%u; "g"%u; "c"%u; "j"%u; "t"%u; "d"%u; "p"%u; "b"%u; "ɽ"%u; "ʈ"%u; "ɖ"%u; "r"%u] in
        let hasH := fun p : str * str => contains "ʰ"%u (fst p) in
        foreach (filter (fun p => negb (hasH p)) pairs ++ filter hasH pairs) (fun '(x, y) =>
          if mem x unasp then [ReSub (x ++ "(?!(ʰ|"%u ++ [0x324%N] ++ "))"%u) y] else [Replace x y])
      else replace_all pairs)
    ++ CF_FixRomanOutput T
    ++ CF_VedicSvarsIndicLatin
    ++ CF_PostFixRomanOutput S T) by (unfold indic_latin, ind_prefix, roman_side; now rewrite <- !app_assoc).
  rewrite E. clear E. apply kp_app; [now apply kp_ind_prefix|].
  apply kp_app.
  { apply kp_withS. intros sOm E2. apply kp_withS. intros tOm E3. apply kp_replace; [now apply O|].
    match goal with R : hushed_ok (first_of "OmMap"%u T) = true |- _ => rewrite E3 in R; exact R end. }
  apply kp_app.
  { apply kp_withS. intros pairs EP.
    assert (HP : forall x y, In (x, y) pairs -> tame x = true /\ tame y = true)
      by (apply (pairs_tame id_side roman_side S T mild_id mild_roman); [apply lat_or_ind; now left|apply lat_or_ind; now right|exact EP]).
    apply kp_if; [|apply kp_replaces; intros x y Hq; destruct (HP x y Hq); split; now apply tame_hushed]. cbv zeta. apply kp_foreach. intros [x y] Hxy.
    assert (Hp : In (x, y) pairs) by (apply in_app_or in Hxy as [Hxy|Hxy]; now apply filter_In in Hxy as [Hxy _]).
    destruct (HP x y Hp) as [Hx Hy]. match goal with |- kp (if mem x ?l then _ else _) => destruct (mem x l) eqn:U end; [|apply kp_replace; now apply tame_hushed].
    apply mem_In in U. apply kp_silent; [exact (unaspirated_silent x U)|now apply tame_hushed|now apply tame_unescaped]. }
  apply kp_app; [now apply kp_check|]. apply kp_app; [kleaf|]. now apply kp_PostFixRoman.
Qed.

Theorem kp_branch : forall S T p, mem S lossy_sources = false -> mem T lossy_targets = false -> convert_branch S T = Some p -> kp p.
Proof.
  intros S T p LS LT. unfold convert_branch.
  destruct (mem S GM_LatinScripts && mem T GM_IndicScripts) eqn:E1.
  { apply andb_true_iff in E1 as [P Q]. apply mem_In in P, Q. intros E. assert (p = latin_indic S T) as -> by congruence. now apply kp_latin_indic. }
  destruct (mem S GM_LatinScripts && mem T GM_LatinScripts) eqn:E2.
  { apply andb_true_iff in E2 as [P Q]. apply mem_In in P, Q. intros E. assert (p = latin_latin S T) as -> by congruence. now apply kp_latin_latin. }
  destruct (mem S GM_IndicScripts && mem T GM_IndicScripts) eqn:E3.
  { apply andb_true_iff in E3 as [P Q]. apply mem_In in P, Q. intros E. assert (p = indic_indic S T) as -> by congruence. now apply kp_indic_indic. }
  destruct (mem S GM_IndicScripts && mem T GM_LatinScripts) eqn:E4.
  { apply andb_true_iff in E4 as [P Q]. apply mem_In in P, Q. intros E. assert (p = indic_latin S T) as -> by congruence. now apply kp_indic_latin. }
  discriminate.
Qed.

(** ** Semitic scripts *)
Section Final.
Variable g : guard.
Lemma quiet_lit : forall L i, hushed g i = true -> quiet g L (lit_re i) = true.
Proof. intros L i. induction i as [|c i IH]; intros H; [reflexivity|]. cbn [hushed forallb] in H. apply andb_true_iff in H as [H1 H2]. cbn [lit_re fold_right quiet]. rewrite H1. now apply IH. Qed.
Lemma loud_lit : forall L i, loud g L (lit_re i) = [].
Proof. intros L i. induction i as [|c i IH]; [reflexivity|exact IH]. Qed.
Lemma groups_lit : forall i, groups (lit_re i) = [].
Proof. intros i. induction i as [|c i IH]; [reflexivity|exact IH]. Qed.
Lemma lits_hushed : forall o, hushed g o = true -> forallb (fun i => match i with TLit c => hush g c | TGroup n => negb (Nat.eqb n 0) end) (map TLit o) = true.
Proof. induction o as [|c o IH]; intros H; [reflexivity|]. cbn [hushed forallb] in H. apply andb_true_iff in H as [H1 H2]. cbn [map forallb]. rewrite H1. now apply IH. Qed.
Lemma tgroups_lits : forall o t, tgroups (map TLit o ++ t) = tgroups t.
Proof. induction o as [|c o IH]; intros t; [reflexivity|exact (IH t)]. Qed.
Lemma final_keep : forall ll mm i o, hushed g i = true -> hushed g o = true ->
  let le := RSet false ll in let mk := RSet false mm in let ml := RRep false O None mk in
  keeps_re g (RSeq (RGroup 1 le) (RSeq (RGroup 2 ml) (RSeq (RGroup 3 (lit_re i)) (RSeq (RGroup 4 ml) (RGroup 5 (RSet true ll))))))
     ([TGroup 1; TGroup 2] ++ map TLit o ++ [TGroup 4; TGroup 5]) = true /\
  keeps_re g (RSeq (RGroup 1 le) (RSeq (RGroup 2 ml) (RSeq (RGroup 3 (lit_re i)) (RSeq (RGroup 4 ml) REndLine))))
     ([TGroup 1; TGroup 2] ++ map TLit o ++ [TGroup 4]) = true /\
  keeps_re g (RSeq (RGroup 1 (lit_re o)) (RSeq (RGroup 2 (RRep true 1 None mk)) (RGroup 3 le))) (map TLit i ++ [TGroup 2; TGroup 3]) = true.
Proof.
  intros ll mm i o Hi Ho. cbv zeta. unfold keeps_re. cbv zeta.
  destruct (g_set g false ll) eqn:E1; destruct (g_set g false mm) eqn:E2; destruct (g_set g true ll) eqn:E3;
  repeat split; repeat (cbn [loud quiet tops groups app negb andb apart forallb memn existsb Nat.eqb orb tgroups filter];
    rewrite ?(quiet_lit _ i Hi), ?(quiet_lit _ o Ho), ?loud_lit, ?groups_lit, ?E1, ?E2, ?E3, ?forallb_app, ?(lits_hushed o Ho), ?(lits_hushed i Hi), ?tgroups_lits);
    reflexivity.
Qed.
End Final.
Lemma kp_gim_final : forall i o, hushed A i = true -> hushed A o = true -> kp (gim_final i o).
Proof.
  intros i o Hi Ho. destruct (final_keep A (map (fun '(a, b) => CRange a b) letter_ranges) (map (fun '(a, b) => CRange a b) mark_ranges) i o Hi Ho) as (H1 & H2 & H3).
  apply (keeps_cons A); [exact (keep_op_sound A fits_A (Sub _ _) H1)|]. apply (keeps_cons A); [exact (keep_op_sound A fits_A (Sub _ _) H2)|].
  exact (keep_op_sound A fits_A (Sub _ _) H3).
Qed.
Definition k_sem (s : str) : bool :=
  keep A [Try is_AttributeError (CF_getattr_Source_reverse ("Fix"%u ++ replace "-"%u "_"%u s) s)]
  && keep A (PP_FixSemiticRoman s) && keep A (map (fun '(i, o) => Replace i o) (get_dict s gimel_ccmp))
  && forallb (fun p => hushed A (fst p) && hushed A (snd p)) (get_dict s gimel_fina ++ get_dict s gimel_liga)
  && keep A (gim_to_latin s) && keep A (gim_from_latin s).
Lemma k_sems : forall s, In s GM_SemiticScripts -> k_sem s = true.
Proof. apply forallb_forall. vm_compute. reflexivity. Qed.
Lemma kp_gim_pre : forall s t, In s GM_SemiticScripts -> mem s vocalized = true -> mem t vocalized = true -> kp (gim_preprocess s t).
Proof.
  intros s t Hs Vs Vt. pose proof (k_sems s Hs) as Q. unfold k_sem in Q. bools. unfold gim_preprocess. rewrite Vs, Vt.
  apply kp_app; [now apply kp_check|apply kp_nil].
Qed.
Lemma kp_gim_post : forall s, In s GM_SemiticScripts -> kp (gim_postprocess s).
Proof.
  intros s Hs. pose proof (k_sems s Hs) as Q. unfold k_sem in Q. bools.
  match goal with H : forallb _ (_ ++ _) = true |- _ => rewrite forallb_app in H end. bools.
  unfold gim_postprocess. apply kp_app.
  - match goal with H : forallb _ (get_dict s gimel_fina) = true |- _ => revert H end. induction (get_dict s gimel_fina) as [|[i o] l IH]; intros F; [apply kp_nil|].
    cbn [forallb fst snd] in F. cbn [flat_map]. bools. apply kp_app; [now apply kp_gim_final|now apply IH].
  - apply kp_replaces. intros x y Hxy. match goal with H : forallb _ (get_dict s gimel_liga) = true |- _ => rewrite forallb_forall in H; specialize (H _ Hxy) end.
    cbn [fst snd] in *. bools. now split.
Qed.
Lemma kp_gim_tr : forall s t, In s GM_SemiticScripts -> In t GM_SemiticScripts -> mem s vocalized = true -> mem t vocalized = true -> kp (gim_tr s t).
Proof.
  intros s t Hs Ht Vs Vt. pose proof (k_sems s Hs) as Q. pose proof (k_sems t Ht) as B. unfold k_sem in Q, B. bools.
  unfold gim_tr, gim_convert. kpieces; try apply kp_nil; try (now apply kp_gim_pre); try (now apply kp_gim_post); now apply kp_check.
Qed.
Definition k_fix_semitic (S T : str) : bool := keep A (CF_FixSemiticOutput S T).
Lemma k_fix_semitics : forall S T, In S known -> In T GM_SemiticScripts -> k_fix_semitic S T = true.
Proof. apply forallb_pairs. vm_compute. reflexivity. Qed.
Lemma kp_default : kp (PP_default []).
Proof. kleaf. Qed.

(** The pairs of scripts whose conversion keeps foreign characters whatever surrounds them. *)
Definition gentle (S T : str) : bool :=
  if mem S GM_SemiticScripts then mem T GM_SemiticScripts && mem S vocalized && mem T vocalized
  else negb (mem S lossy_sources)
    && (if mem T GM_SemiticScripts then contains "Arab"%u T || contains "Hebr"%u T || contains "Latn"%u T else negb (mem T lossy_targets)).
Lemma speaking : forall T, In T GM_SemiticScripts -> contains "Arab"%u T || contains "Hebr"%u T || contains "Latn"%u T = true -> mem T vocalized = true.
Proof.
  assert (F : forallb (fun T => implb (contains "Arab"%u T || contains "Hebr"%u T || contains "Latn"%u T) (mem T vocalized)) GM_SemiticScripts = true)
    by (vm_compute; reflexivity).
  intros T HT H. rewrite forallb_forall in F. specialize (F T HT). rewrite H in F. exact F.
Qed.
Lemma semitic_apart : forall S, In S (GM_IndicScripts ++ GM_LatinScripts) -> mem S GM_SemiticScripts = false.
Proof.
  intros S HS. apply negb_true_iff. revert S HS. apply forallb_forall. vm_compute. reflexivity.
Qed.
Theorem kp_convertScript : forall S T, gentle S T = true -> In S known -> kp (convertScript S T).
Proof.
  intros S T G HS. unfold convertScript. apply kp_app; [|exact kp_default].
  destruct (convert_branch S T) as [p|] eqn:E.
  { assert (B : In S (GM_IndicScripts ++ GM_LatinScripts) /\ In T (GM_IndicScripts ++ GM_LatinScripts)).
    { revert E. clear. unfold convert_branch. intros E.
      destruct (mem S GM_LatinScripts) eqn:E1; destruct (mem S GM_IndicScripts) eqn:E2; destruct (mem T GM_LatinScripts) eqn:E3; destruct (mem T GM_IndicScripts) eqn:E4;
        cbn [andb] in E; try discriminate; rewrite ?mem_In in *; split; apply in_or_app; tauto. }
    destruct B as [B1 B2]. apply semitic_apart in B1, B2. unfold gentle in G. rewrite B1, B2 in G. apply andb_true_iff in G as [G1 G2].
    apply negb_true_iff in G1, G2. exact (kp_branch S T p G1 G2 E). }
  unfold gentle in G. destruct (mem S GM_SemiticScripts && mem T GM_SemiticScripts) eqn:E1.
  { apply andb_true_iff in E1 as [MS MT]. apply mem_In in MS, MT. pose proof (k_sems S MS) as Q. unfold k_sem in Q. bools.
    unfold semitic_semitic. apply kp_app; [now apply kp_check|]. apply kp_app; [apply kp_if; kleaf|].
    assert (MS' := MS). apply mem_In in MS'. rewrite MS' in G. bools. apply kp_app; [now apply kp_gim_tr|]. exact (kp_check _ (k_fix_semitics S T HS MT)). }
  destruct (mem S (GM_IndicScripts ++ GM_LatinScripts) && mem T GM_SemiticScripts) eqn:E2.
  { apply andb_true_iff in E2 as [MS MT]. apply mem_In in MS. pose proof MS as M2. apply semitic_apart in M2. rewrite M2, MT in G.
    apply mem_In in MT. pose proof (k_sems T MT) as Q. unfold k_sem in Q. bools.
    match goal with H : negb (mem S lossy_sources) = true |- _ => apply negb_true_iff in H end. unfold other_semitic.
    apply kp_app.
    { unfold convertScript_RomanSemitic. apply kp_app; [|exact kp_default].
      destruct (convert_branch S "RomanSemitic"%u) as [p|] eqn:E3; [|apply kp_nil]. apply (kp_branch S "RomanSemitic"%u p); [assumption|reflexivity|exact E3]. }
    apply kp_app; [kleaf|]. apply kp_app.
    { match goal with |- kp (if ?b then _ else _) => replace b with false; [apply kp_nil|] end.
      destruct (contains "Arab"%u T), (contains "Hebr"%u T), (contains "Latn"%u T); reflexivity || discriminate. }
    apply kp_app; [now apply kp_check|]. apply kp_app; [apply kp_if; kleaf|].
    apply kp_app; [apply kp_gim_tr; [apply mem_In; vm_compute; reflexivity|assumption|reflexivity|now apply speaking]|]. exact (kp_check _ (k_fix_semitics S T HS MT)). }
  destruct (mem S GM_SemiticScripts && mem T (GM_IndicScripts ++ GM_LatinScripts)) eqn:E3; [exfalso|apply kp_nil].
  apply andb_true_iff in E3 as [MS MT]. rewrite MS in G. apply mem_In in MT. apply semitic_apart in MT. rewrite MT in G. discriminate.
Qed.
