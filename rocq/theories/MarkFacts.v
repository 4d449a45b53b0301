(** * Internal markers: the conversion between two scripts puts none into its result (for property
    C27, see MarkLeak.v). *)
From Coq Require Import List NArith ZArith Bool Lia Permutation.
From Verif Require Import PyStr StrFacts UnicodeTables Regex Unicode Prog GMLists GeneralMap FixNum
  PostProcess1 ConvertFix1 PreProcess1 PostProcess2 GimelData Gimeltra Convert Dispatch YamlData Transliterate
  AbsRegex NormCut SortFacts TableFacts SafeFacts TotalFacts Marks.
Import ListNotations.
Local Open Scope N_scope.

(** ** Composing *)
Definition clean (p : prog) : Prop := moves [] [] p.
Lemma mv_frame : forall A X Y p, moves X Y p -> moves (A ++ X) (A ++ Y) p.
Proof.
  intros A X Y p H s0 s r W E.
  assert (F : forall Z l, Forall (within s0 (A ++ Z)) l <-> Forall (within (s0 ++ A) Z) l).
  { intros Z l. split; apply Forall_impl; intros c Q M; specialize (Q M); rewrite in_app_iff in *; tauto. }
  apply F. apply F in W. exact (H (s0 ++ A) s r W E).
Qed.
Lemma mv_sub : forall X Y A B p, moves X Y p -> (forall c, In c A -> In c (B ++ X)) -> (forall c, In c Y -> In c B) -> moves A B p.
Proof.
  intros X Y A B p H HA HB. apply (mv_weak A (B ++ X) B (B ++ Y)); [exact HA| |now apply mv_frame].
  intros c Hc. apply in_app_or in Hc as [Hc|Hc]; [exact Hc|now apply HB].
Qed.
Lemma mv_keep : forall X p, clean p -> moves X X p.
Proof. intros X p H. apply (mv_sub [] [] X X p H); [intros c Hc; now rewrite app_nil_r|intros c []]. Qed.
Lemma mv_gen : forall X Y Z p, moves [] Y p -> (forall c, In c X -> In c Z) -> (forall c, In c Y -> In c Z) -> moves X Z p.
Proof. intros X Y Z p H HX HY. apply (mv_sub [] Y X Z p H); [intros c Hc; rewrite app_nil_r; auto|exact HY]. Qed.
Lemma mv_foreach : forall (A : Type) X (l : list A) f, (forall x, In x l -> moves X X (f x)) -> moves X X (foreach l f).
Proof.
  intros A X l f H. unfold foreach. induction l as [|x l IH]; cbn [flat_map]; [apply mv_nil|].
  apply mv_app with X; [apply H; now left|apply IH; intros y Hy; apply H; now right].
Qed.
Lemma mv_withS : forall (A : Type) X Y (r : res A) f, (forall a, r = Ok a -> moves X Y (f a)) -> moves X Y (withS r f).
Proof. intros A X Y [a|e] f H; [now apply H|apply mv_raise]. Qed.

Lemma marks_app : forall a b, marks (a ++ b) = marks a ++ marks b.
Proof. intros a b. apply filter_app. Qed.
Lemma mv_Replace_adds : forall X Y x y, (forall c, In c X -> In c Y) -> (forall c, In c (marks y) -> In c x \/ In c Y) -> moves X Y [Replace x y].
Proof.
  intros X Y x y HX HY. eapply mv_weak; [intros c H; exact H| |apply mv_Replace].
  intros c Hc. apply add_In in Hc as [Hc|Hc].
  - apply minusN_In in Hc as [Hc N]. destruct (HY c Hc); [contradiction|assumption].
  - apply HX. destruct x as [|a [|b x]]; try exact Hc. destruct (memN a y); [exact Hc|]. now apply minusN_In in Hc as [Hc _].
Qed.
Lemma mv_Replace_clean : forall X x y, (forall c, In c (marks y) -> In c x) -> moves X X [Replace x y].
Proof. intros X x y H. apply mv_Replace_adds; [auto|]. intros c Hc. left. now apply H. Qed.
Lemma mv_Replace_kills : forall X c y, marker c = true -> marks y = [] -> moves (c :: X) X [Replace [c] y].
Proof.
  intros X c y M Hy. eapply mv_weak; [intros d H; exact H| |apply mv_Replace].
  intros d Hd. apply add_In in Hd as [Hd|Hd]; [rewrite Hy in Hd; destruct Hd|]. destruct (memN c y) eqn:E.
  - exfalso. apply memN_In in E. assert (Q : In c (marks y)) by now apply marks_In. rewrite Hy in Q. exact Q.
  - apply minusN_In in Hd as [[Hd|Hd] N]; [exfalso; apply N; now left|exact Hd].
Qed.

(** A closed program. *)
Ltac fleaf := apply flows_sound; vm_compute; reflexivity.
Ltac cleaf := first [apply mv_nil | apply mv_raise | apply mv_keep; fleaf].

(** ** Lists of replacements *)
Lemma replace_chars : forall x y s c, In c (replace x y s) -> In c s \/ In c y.
Proof.
  intros x y s c H. assert (G : Forall (fun c => In c s \/ In c y) (replace x y s)).
  { apply replace_good; [intros d Hd; left; now right|]. apply Forall_forall. intros d Hd. now left. }
  rewrite Forall_forall in G. now apply G.
Qed.
Lemma mv_replaces : forall (l : list (str * str)) X Y,
  (forall p c, In p l -> In c (marks (snd p)) -> In c Y) ->
  (forall c, In c X -> In c Y \/ exists y, In ([c], y) l) ->
  moves X Y (replace_all l).
Proof.
  intros l X Y HY HX s0 s r W E.
  assert (R : forall l s r, run (replace_all l) s = Ok r -> forall c, In c r ->
    In c s \/ exists p, In p l /\ In c (snd p)).
  { clear. induction l as [|[x y] l IH]; intros s r E c Hc; [injection E as <-; now left|].
    cbn [replace_all map run run_op] in E. destruct (IH _ _ E c Hc) as [Q|(p & Hp & Q)].
    - apply replace_chars in Q as [Q|Q]; [now left|right; exists (x, y); split; [now left|exact Q]].
    - right. exists p. split; [now right|exact Q]. }
  assert (K : forall l s r c y, run (replace_all l) s = Ok r -> In ([c], y) l -> In c r -> exists p, In p l /\ In c (snd p)).
  { clear -R. induction l as [|[x y] l IH]; intros s r c z E Hp Hc; [destruct Hp|].
    cbn [replace_all map run run_op] in E. destruct Hp as [Hp|Hp].
    - assert (x = [c] /\ y = z) as [-> ->] by (split; congruence). destruct (R _ _ _ E c Hc) as [Q|(p & Hp' & Q)].
      + apply replaced_gone in Q. exists ([c], z). split; [now left|exact Q].
      + exists p. split; [now right|exact Q].
    - destruct (IH _ _ _ _ E Hp Hc) as (p & Hp' & Q). exists p. split; [now right|exact Q]. }
  apply Forall_forall. intros c Hc M. rewrite Forall_forall in W.
  assert (In' : forall p, In p l -> In c (snd p) -> In c Y).
  { intros p Hp Q. apply (HY p c Hp). now apply marks_In. }
  destruct (R l s r E c Hc) as [Q|(p & Hp & Q)]; [|right; now apply (In' p)].
  destruct (W c Q M) as [Q'|Q']; [now left|right]. destruct (HX c Q') as [H|[y Hy]]; [exact H|].
  destruct (K l s r c y E Hy Hc) as (p & Hp & Qp). now apply (In' p).
Qed.

(** *** The tables of two scripts *)
Definition symbols (g S : str) : list str :=
  match retCharList g with Ok parts => match CrunchSymbols parts S with Ok l => l | Err _ => [] end | Err _ => [] end.
Definition tab_marks (ft : str -> str -> str) (T : str) : list N :=
  marks (concat (flat_map (fun g => map (ft g) (symbols g T)) GM_ScriptAll)).
Definition has_symbol (fs : str -> str -> str) (S : str) (c : N) : bool :=
  existsb (fun g => existsb (fun x => str_eqb x [c] && str_eqb (fs g x) [c]) (symbols g S)) GM_ScriptAll.

Lemma zip_In : forall (A B : Type) (l : list A) (l' : list B) x y, In (x, y) (zip l l') -> In x l /\ In y l'.
Proof.
  induction l as [|a l IH]; intros [|b l'] x y; cbn [zip]; try now intros [].
  intros [H|H]; [injection H as -> ->; split; now left|]. destruct (IH l' x y H). split; now right.
Qed.
Lemma In_zip : forall (A B : Type) (l : list A) (l' : list B) x, length l = length l' -> In x l -> exists y, In (x, y) (zip l l').
Proof.
  induction l as [|a l IH]; intros l' x L H; [destruct H|]. destruct l' as [|b l']; [discriminate|]. cbn [zip].
  destruct H as [->|H]; [exists b; now left|]. destruct (IH l' x) as [y Hy]; [now injection L|exact H|]. exists y. now right.
Qed.

Lemma zipped_to : forall fs ft S T gs z x y, zipped fs ft S T gs = Ok z -> In (x, y) z ->
  exists g, In g gs /\ exists w, In w (symbols g T) /\ y = ft g w.
Proof.
  induction gs as [|g gs IH]; intros z x y E H; cbn [zipped] in E; [assert (z = []) as -> by congruence; destruct H|].
  destruct (retCharList g) as [parts|] eqn:Eg; [|discriminate]. cbn [rbind] in E.
  destruct (CrunchSymbols parts S) as [s|]; [|discriminate]. cbn [rbind] in E.
  destruct (CrunchSymbols parts T) as [t|] eqn:Et; [|discriminate]. cbn [rbind] in E.
  destruct (zipped fs ft S T gs) as [z'|]; [|discriminate]. cbn [rbind] in E.
  assert (z = zip (map (fs g) s) (map (ft g) t) ++ z') as -> by congruence. apply in_app_or in H as [H|H].
  - exists g. split; [now left|]. apply zip_In in H as [_ H]. apply in_map_iff in H as (w & <- & Hw).
    exists w. split; [|reflexivity]. unfold symbols. rewrite Eg, Et. exact Hw.
  - destruct (IH z' x y eq_refl H) as (g' & Hg & Q). exists g'. split; [now right|exact Q].
Qed.
Lemma zipped_from : forall fs ft S T gs z g x, zipped fs ft S T gs = Ok z -> In g gs -> In x (symbols g S) ->
  length (symbols g S) = length (symbols g T) -> exists y, In (fs g x, y) z.
Proof.
  induction gs as [|h gs IH]; intros z g x E Hg Hx L; [destruct Hg|]. cbn [zipped] in E.
  destruct (retCharList h) as [parts|] eqn:Eg; [|discriminate]. cbn [rbind] in E.
  destruct (CrunchSymbols parts S) as [s|] eqn:Es; [|discriminate]. cbn [rbind] in E.
  destruct (CrunchSymbols parts T) as [t|] eqn:Et; [|discriminate]. cbn [rbind] in E.
  destruct (zipped fs ft S T gs) as [z'|]; [|discriminate]. cbn [rbind] in E.
  assert (z = zip (map (fs h) s) (map (ft h) t) ++ z') as -> by congruence. destruct Hg as [->|Hg].
  - unfold symbols in Hx, L. rewrite Eg, Es in Hx. rewrite Eg, Es, Et in L.
    destruct (In_zip _ _ (map (fs g) s) (map (ft g) t) (fs g x)) as [y Hy]; [now rewrite !map_length|now apply in_map|].
    exists y. apply in_or_app. now left.
  - destruct (IH z' g x eq_refl Hg Hx L) as [y Hy]. exists y. apply in_or_app. now right.
Qed.
Lemma symbols_length : forall g S T, In S (GM_IndicScripts ++ GM_LatinScripts) -> S <> "RomanLoC"%u ->
  In T (GM_IndicScripts ++ GM_LatinScripts) -> T <> "RomanLoC"%u -> In g GM_ScriptAll ->
  length (symbols g S) = length (symbols g T).
Proof.
  intros g S T HS NS HT NT Hg. unfold symbols. destruct (retCharList g) as [parts|] eqn:E; [|reflexivity].
  destruct (groups_correspond S g parts HS NS Hg E) as (l & l' & -> & E1 & L1).
  destruct (groups_correspond T g parts HT NT Hg E) as (m & m' & -> & E2 & L2). congruence.
Qed.

Lemma mv_pairs : forall fs ft S T X Y,
  In S (GM_IndicScripts ++ GM_LatinScripts) -> S <> "RomanLoC"%u ->
  In T (GM_IndicScripts ++ GM_LatinScripts) -> T <> "RomanLoC"%u ->
  (forall c, In c (tab_marks ft T) -> In c Y) ->
  (forall c, In c X -> In c Y \/ has_symbol fs S c = true) ->
  forall pairs, charPairs fs ft S T = Ok pairs -> moves X Y (replace_all pairs).
Proof.
  intros fs ft S T X Y HS NS HT NT HY HX pairs E. apply charPairs_zipped in E as (z & Z & P). apply mv_replaces.
  - intros [x y] c Hp Hc. apply (Permutation_in _ P) in Hp. destruct (zipped_to fs ft S T _ z x y Z Hp) as (g & Hg & w & Hw & ->).
    apply HY. unfold tab_marks. apply marks_In in Hc as [Hc M]. apply marks_In. split; [|exact M]. apply in_concat.
    exists (ft g w). split; [|exact Hc]. apply in_flat_map. exists g. split; [exact Hg|]. now apply in_map.
  - intros c Hc. destruct (HX c Hc) as [H|H]; [now left|right]. unfold has_symbol in H.
    apply existsb_exists in H as (g & Hg & H). apply existsb_exists in H as (x & Hx & H). apply andb_true_iff in H as [H1 H2].
    apply str_eqb_eq in H1, H2. destruct (zipped_from fs ft S T _ z g x Z Hg Hx) as [y Hy]; [now apply symbols_length|].
    exists y. apply (Permutation_in _ (Permutation_sym P)). now rewrite H2 in Hy.
Qed.

(** ** Functions that compute with numbers, and others outside the programs *)
Definition plain (s : str) : Prop := Forall (fun c => marker c = false) s.
Lemma plain_repeat : forall c n, marker c = false -> plain (repeat c n).
Proof. intros c n H. apply Forall_forall. intros d Hd. apply repeat_spec in Hd. now subst d. Qed.
Lemma plain_app : forall a b, plain a -> plain b -> plain (a ++ b).
Proof. intros a b Ha Hb. apply Forall_app. now split. Qed.
Lemma plain_khar : forall fuel n, plain (khar_go fuel n).
Proof.
  induction fuel as [|f IH]; intros n; cbn [khar_go]; [constructor|]. cbv zeta.
  assert (C : forall c, marker c = false -> plain [c]) by (intros c H; now constructor).
  assert (O : forall k, plain (khar_ones k)).
  { intros k. unfold khar_ones. repeat match goal with |- plain (if ?b then _ else _) => destruct b end;
      repeat (constructor; [reflexivity|]); constructor. }
  repeat match goal with
    | |- plain (_ ++ _) => apply plain_app
    | |- plain (if ?b then _ else _) => destruct b
    | |- plain [] => constructor
    | |- plain (repeat _ _) => now apply plain_repeat
    | |- plain (khar_ones _) => apply O
    | |- plain (khar_go _ _) => apply IH
    | |- plain [_] => now apply C
  end.
Qed.
Lemma plain_kharoshthi : forall n y, kharoshthiNumber n = Ok y -> plain y.
Proof.
  intros n y H. unfold kharoshthiNumber in H. destruct (n <? 2 ^ 53)%Z; [|destruct (_ <=? n)%Z; discriminate].
  assert (y = khar_go 20 n) as -> by congruence. apply plain_khar.
Qed.
Lemma plain_oldPersian : forall n y, oldPersianNumber n = Ok y -> plain y.
Proof.
  intros n y H. unfold oldPersianNumber in H. destruct (n <? 2 ^ 53)%Z; [|destruct (_ <=? n)%Z; discriminate].
  cbv zeta in H. match type of H with Ok ?x = Ok _ => assert (y = x) as -> by congruence end. clear H.
  repeat apply plain_app; now apply plain_repeat.
Qed.
Lemma numbers_clean : forall (k : Z -> res str), (forall n y, k n = Ok y -> plain y) ->
  forall l s r, fold_left (fun acc num => do s <- acc; do k <- k num; Ok (replace (str_of_Z num) k s)) l (Ok s) = Ok r ->
  forall c, In c r -> marker c = true -> In c s.
Proof.
  intros k Hk. assert (E : forall l e r, fold_left (fun acc num => do s <- acc; do k <- k num; Ok (replace (str_of_Z num) k s)) l (Err e) = Ok r -> False).
  { induction l as [|n l IH]; intros e r H; cbn [fold_left rbind] in H; [discriminate|exact (IH e r H)]. }
  induction l as [|n l IH]; intros s r H c Hc M; cbn [fold_left] in H; [assert (s = r) as -> by congruence; exact Hc|].
  cbn [rbind] in H. destruct (k n) as [y|e] eqn:Ek; cbn [rbind] in H; [|destruct (E _ _ _ H)].
  specialize (IH _ _ H c Hc M). apply replace_chars in IH as [Q|Q]; [exact Q|].
  specialize (Hk n y Ek). unfold plain in Hk. rewrite Forall_forall in Hk. specialize (Hk c Q). congruence.
Qed.
Lemma clean_khar : forall b, clean (CF_KharoshthiNumerals b).
Proof.
  intros b. unfold CF_KharoshthiNumerals. apply mv_subset. intros s r R c Hc M. cbn [run_op] in R.
  destruct (re_numbers s) as [ns|]; [|discriminate]. destruct b; [|exact (numbers_clean _ plain_kharoshthi ns s r R c Hc M)].
  assert (F : clean [Replace "𐩀"%u "1#"%u; Replace "𐩁"%u "2#"%u; Replace "𐩂"%u "3#"%u; Replace "𐩃"%u "4#"%u; Replace "𐩄"%u "10#"%u;
    Replace "𐩅"%u "20#"%u; Replace "𐩆"%u "100#"%u; Replace "𐩇"%u "1000#"%u]) by fleaf.
  assert (W : Forall (within s []) s) by (apply Forall_forall; intros d Hd _; now left).
  specialize (F s s r W R). rewrite Forall_forall in F. now destruct (F c Hc M) as [Q|[]].
Qed.
Lemma clean_oldPersian : forall b, clean (CF_OldPersianNumeral b).
Proof.
  intros b. unfold CF_OldPersianNumeral. apply mv_subset. intros s r R c Hc M. cbn [run_op] in R.
  destruct (re_numbers s) as [ns|]; [|discriminate]. destruct b; [|exact (numbers_clean _ plain_oldPersian ns s r R c Hc M)].
  assert (F : clean [Replace "𐏑"%u "1#"%u; Replace "𐏒"%u "2#"%u; Replace "𐏓"%u "10#"%u; Replace "𐏔"%u "20#"%u; Replace "𐏕"%u "100#"%u]) by fleaf.
  assert (W : Forall (within s []) s) by (apply Forall_forall; intros d Hd _; now left).
  specialize (F s s r W R). rewrite Forall_forall in F. now destruct (F c Hc M) as [Q|[]].
Qed.
Lemma clean_FixOldPersian : forall b, clean (CF_FixOldPersian b).
Proof. intros b. unfold CF_FixOldPersian. apply mv_app with []; [destruct b; fleaf|apply clean_oldPersian]. Qed.

Lemma upper_unmarked : forallb (fun p => unmarked (snd p)) upper_table = true.
Proof. vm_compute. reflexivity. Qed.
Lemma upper_trie_eq : upper_trie = tbuild upper_table.
Proof. vm_compute. reflexivity. Qed.
Lemma upper_marks : forall s c, In c (py_upper s) -> marker c = true -> In c s.
Proof.
  intros s c H M. unfold py_upper in H. apply in_flat_map in H as (d & Hd & Hc). rewrite upper_trie_eq in Hc.
  destruct (tfind d (tbuild upper_table)) as [l|] eqn:E; [|destruct Hc as [<-|[]]; exact Hd].
  exfalso. apply tfind_In in E. pose proof upper_unmarked as Q. rewrite forallb_forall in Q. specialize (Q _ E).
  exact (unmarked_In l c Q Hc M).
Qed.
Lemma clean_upper : forall p n, clean [Fn (re_sub_fun p (fun x => py_upper (grp n x)))].
Proof.
  intros p n. apply mv_one. intros s0 s r W E. cbn [run_op] in E. unfold re_sub_fun in E.
  destruct (compile p) as [[q g]|]; [|discriminate]. match type of E with Ok ?x = Ok _ => assert (r = x) as -> by congruence end.
  apply sub_go_good; [|constructor|exact W]. intros l Hl. apply Forall_forall. intros c Hc M. apply upper_marks in Hc; [|exact M].
  unfold grp in Hc. destruct (cap n l) as [x|] eqn:C; [|destruct Hc]. pose proof (cap_good _ n l x Hl C) as G.
  rewrite Forall_forall in G. exact (G c Hc M).
Qed.
Lemma findall_good : forall (P : N -> Prop) r s b skip, Forall P b -> Forall P s -> Forall (Forall P) (findall_go r b skip s).
Proof.
  intros P r. induction s as [|c t IH]; intros b skip B S; cbn [findall_go]; [constructor|].
  inversion S as [|? ? Hc Ht]; subst. assert (B' : Forall P (c :: b)) by now constructor.
  assert (G : good P (St b (c :: t) [])) by (split; [exact B|]; split; [exact S|constructor]).
  destruct skip as [|k]; [|now apply IH].
  destruct (attempt r false (St b (c :: t) [])) as [s'|]; [|now apply IH]. cbv zeta.
  constructor; [now apply consumed_good|now apply IH].
Qed.
Lemma clean_reduce : forall pat p, clean p -> clean [Fn (reduce_findall pat (run p))].
Proof.
  intros pat p Hp. apply mv_one. intros s0 s r W E. cbn [run_op] in E. unfold reduce_findall in E.
  destruct (compile pat) as [[q g]|]; [|discriminate].
  assert (F : Forall (Forall (within s0 [])) (findall_go q [] 0 s)) by (apply findall_good; [constructor|exact W]).
  revert E F. generalize (findall_go q [] 0 s) as l. intros l. revert s W.
  assert (Er : forall l e r, fold_left (fun acc m => do s <- acc; do y <- run p m; Ok (replace m y s)) l (Err e) = Ok r -> False).
  { induction l0 as [|n l0 IH]; intros e r' H; cbn [fold_left rbind] in H; [discriminate|exact (IH e r' H)]. }
  induction l as [|m l IH]; intros s W E F; cbn [fold_left] in E; [assert (s = r) as <- by congruence; exact W|].
  inversion F as [|? ? Fm Fl]; subst. cbn [rbind] in E. destruct (run p m) as [y|e] eqn:Ey; cbn [rbind] in E; [|destruct (Er _ _ _ E)].
  refine (IH _ _ E Fl). clear IH E.
  assert (Y : Forall (within s0 []) y) by exact (Hp s0 m y Fm Ey).
  rewrite Forall_forall in *. intros c Hc M. apply replace_chars in Hc as [Hc|Hc]; [exact (W c Hc M)|exact (Y c Hc M)].
Qed.

(** ** The conversions between Brahmic scripts and romanizations *)
Definition lao (T : str) : list N := if mem T ["Lao"%u; "Lao2"%u] then [0xEB0A] else [].
Definition banned : list str := ["Inter"%u; "GranthaGrantamil"%u].
Definition computed : list str := ["Kharoshthi"%u; "OldPersian"%u].
Definition subset (a b : list N) : bool := forallb (fun c => memN c b) a.
Lemma subset_In : forall a b, subset a b = true -> forall c, In c a -> In c b.
Proof. intros a b H c Hc. unfold subset in H. rewrite forallb_forall in H. apply memN_In. now apply H. Qed.
Definition unmarked_ok (r : res str) : bool := match r with Ok s => unmarked s | Err _ => true end.
Lemma unmarked_marks : forall s, unmarked s = true -> marks s = [].
Proof.
  intros s H. destruct (marks s) as [|c l] eqn:E; [reflexivity|exfalso].
  assert (Q : In c (marks s)) by (rewrite E; now left). apply marks_In in Q as [Q M]. exact (unmarked_In s c H Q M).
Qed.

Definition ind_prefix (S : str) : prog :=
  PrP_RemoveJoiners ++ CF_ShiftDiacritics S true ++ [Try is_AttributeError (CF_getattr_reverse ("Fix"%u ++ S))].
Definition ind_src (S : str) : bool :=
  (if mem S computed then true else flows [] (lao S) (ind_prefix S)) && forallb (has_symbol id_side S) (lao S).
(** PreProcess.py:1376 puts × into texts in Warang Citi. *)
Definition warang (S : str) : list N := if str_eqb S "WarangCiti"%u then [0xD7] else [].
Definition lat_src (S : str) : bool :=
  flows (warang S) [] [Try is_AttributeError (CF_getattr_reverse ("Fix"%u ++ S))] && flows [] [] (CF_VedicSvarasLatinIndic S).
Definition ind_tgt (T : str) : bool :=
  if mem T banned then true else
  subset (tab_marks id_side T) (lao T) && unmarked_ok (first_of "OmMap"%u T) && unmarked_ok (first_of "ViramaMap"%u T)
  && (if mem T computed then true else flows (lao T) [] (CF_FixIndicOutput [] T)).
(** The marks of an Indic text in Roman script: the inherent vowel, and the virama. *)
Definition roman_marks : list N := [0xF000; 0xD7].
Definition roman_side : str -> str -> str :=
  fun g x => if str_eqb g "Consonants"%u then x ++ Schwa else if str_eqb g "Vowels"%u then DepV ++ x else x.
Definition inter_marks : list N :=
  match CrunchSymbols ScriptAllParts GM_Inter with Ok l => marks (concat l) | Err _ => [] end.
Definition inter_side : str -> str -> str := fun g x => if str_eqb g "VowelSigns"%u then DepV ++ x else x.
Definition lat_tgt (T : str) : bool :=
  if mem T banned then true else
  subset (tab_marks roman_side T) roman_marks && unmarked_ok (first_of "OmMap"%u T)
  && flows roman_marks [] (CF_FixRomanOutput T) && flows [] [] (CF_FixVedic T)
  && flows inter_marks [] (let! s := CrunchSymbols ScriptAllParts GM_Inter in
      let! t := CrunchSymbols ScriptAllParts T in
      replace_all (zip s t)).

Lemma ind_srcs : forall s, In s GM_IndicScripts -> ind_src s = true.
Proof. apply forallb_forall. vm_compute. reflexivity. Qed.
Lemma lat_srcs : forall s, In s GM_LatinScripts -> lat_src s = true.
Proof. apply forallb_forall. vm_compute. reflexivity. Qed.
Lemma ind_tgts : forall s, In s GM_IndicScripts -> ind_tgt s = true.
Proof. apply forallb_forall. vm_compute. reflexivity. Qed.
Lemma lat_tgts : forall s, In s GM_LatinScripts -> lat_tgt s = true.
Proof. apply forallb_forall. vm_compute. reflexivity. Qed.

Definition okay (T : str) : Prop := ~ In T banned.
Lemma okay_mem : forall T, okay T -> mem T banned = false.
Proof. intros T H. now apply mem_false. Qed.

(** *** om *)
Lemma mv_om : forall punc sOm tOm, marks tOm = [] -> clean (om_subs punc sOm tOm).
Proof.
  intros punc sOm tOm H. unfold om_subs.
  assert (R : forall p t, marks t = [] -> clean [ReSub p t]).
  { intros p t Ht. unfold clean. pose proof (mv_ReSub [] p t) as Q. rewrite Ht in Q. exact Q. }
  apply mv_cons with []; [apply R; now rewrite !marks_app, H|].
  apply mv_cons with []; [apply R; now rewrite !marks_app, H|].
  apply mv_cons with []; [apply R; now rewrite !marks_app, H|]. now apply R.
Qed.
Lemma om_plain : forall T tOm, unmarked_ok (first_of "OmMap"%u T) = true -> first_of "OmMap"%u T = Ok tOm -> marks tOm = [].
Proof. intros T tOm H E. rewrite E in H. now apply unmarked_marks. Qed.

(** *** The computed numerals *)
Lemma clean_khar_call : clean (CF_globals_call "FixKharoshthi"%u).
Proof. change (clean (CF_KharoshthiNumerals false)). apply clean_khar. Qed.
Lemma clean_persian_call : clean (CF_globals_call "FixOldPersian"%u).
Proof. change (clean (CF_FixOldPersian false)). apply clean_FixOldPersian. Qed.
Lemma computed_cases : forall S, mem S computed = true -> S = "Kharoshthi"%u \/ S = "OldPersian"%u.
Proof. intros S H. apply mem_In in H as [<-|[<-|[]]]; [now left|now right]. Qed.
Lemma mv_ind_prefix_computed : forall S, mem S computed = true -> moves [] (lao S) (ind_prefix S).
Proof.
  intros S H. unfold ind_prefix.
  assert (C : clean (CF_getattr_reverse ("Fix"%u ++ S))).
  { destruct (computed_cases S H) as [-> | ->].
    - change (clean (CF_KharoshthiNumerals true)). apply clean_khar.
    - change (clean (CF_FixOldPersian true)). apply clean_FixOldPersian. }
  assert (L : lao S = []) by (destruct (computed_cases S H) as [-> | ->]; reflexivity). rewrite L.
  apply mv_app with []; [fleaf|]. apply mv_app with [].
  - destruct (computed_cases S H) as [-> | ->]; fleaf.
  - exact (mv_Try [] [] _ _ C).
Qed.
Lemma mv_ind_prefix : forall S, In S GM_IndicScripts -> moves [] (lao S) (ind_prefix S).
Proof.
  intros S HS. pose proof (ind_srcs S HS) as A. unfold ind_src in A. apply andb_true_iff in A as [A _].
  destruct (mem S computed) eqn:E; [now apply mv_ind_prefix_computed|now apply flows_sound].
Qed.
Lemma mv_FixIndicOutput : forall S T, In T GM_IndicScripts -> okay T -> moves (lao T) [] (CF_FixIndicOutput S T).
Proof.
  intros S T HT OT. pose proof (ind_tgts T HT) as B. unfold ind_tgt in B. rewrite (okay_mem T OT) in B.
  apply andb_true_iff in B as [_ B]. destruct (mem T computed) eqn:E.
  - assert (C : clean (CF_globals_call ("Fix"%u ++ T))) by (destruct (computed_cases T E) as [-> | ->]; [exact clean_khar_call|exact clean_persian_call]).
    assert (L : lao T = []) by (destruct (computed_cases T E) as [-> | ->]; reflexivity). rewrite L.
    unfold CF_FixIndicOutput. apply mv_withS. intros vm _. apply mv_withS. intros vir _.
    apply mv_app with [].
    + apply mv_cons with []; [apply mv_Replace_clean; intros c Hc; apply marks_In in Hc as [Hc _]; apply in_or_app; now left|].
      apply mv_cons with []; [exact (mv_Try [] [] _ _ C)|]. fleaf.
    + destruct (computed_cases T E) as [-> | ->]; fleaf.
  - assert (G : moves (lao T) [] (CF_FixIndicOutput [] T)) by (now apply flows_sound). exact G.
Qed.

Lemma lat_or_ind : forall S, In S GM_IndicScripts \/ In S GM_LatinScripts -> In S (GM_IndicScripts ++ GM_LatinScripts).
Proof. intros S H. apply in_or_app. exact H. Qed.
Lemma ind_not_loc : forall S, In S GM_IndicScripts -> S <> "RomanLoC"%u.
Proof. apply differs. vm_compute. reflexivity. Qed.

Theorem mv_indic_indic : forall S T, In S GM_IndicScripts -> In T GM_IndicScripts -> okay T ->
  moves (lao T) [] (indic_indic S T).
Proof.
  intros S T HS HT OT. pose proof (ind_tgts T HT) as B. unfold ind_tgt in B. rewrite (okay_mem T OT) in B. bools.
  pose proof (ind_srcs S HS) as A. unfold ind_src in A. bools.
  assert (E : indic_indic S T = ind_prefix S
    ++ (let! signs := CrunchSymbols GM_Signs S in
      let! sOm := first_of "OmMap"%u S in
      let! tOm := first_of "OmMap"%u T in
      if Nat.eqb (length sOm) 1 then [Replace sOm tOm] else om_subs (om_punc signs) sOm tOm)
    ++ (let! pairs := charPairs id_side id_side S T in replace_all pairs)
    ++ CF_FixIndicOutput S T) by (unfold indic_indic, ind_prefix; now rewrite <- !app_assoc).
  rewrite E. clear E. apply mv_app with (lao S ++ lao T).
  { apply (mv_gen _ (lao S)); [now apply mv_ind_prefix|..]; intros c Hc; apply in_or_app; [now right|now left]. }
  apply mv_app with (lao S ++ lao T).
  { apply mv_withS. intros signs _. apply mv_withS. intros sOm _. apply mv_withS. intros tOm EO.
    assert (M : marks tOm = []) by (eapply om_plain; eassumption). apply mv_if.
    - apply mv_Replace_clean. intros c Hc. rewrite M in Hc. destruct Hc.
    - apply mv_keep. now apply mv_om. }
  apply mv_app with (lao T); [|now apply mv_FixIndicOutput].
  apply mv_withS. apply mv_pairs; try (apply lat_or_ind; now left); try now apply ind_not_loc.
  - now apply subset_In.
  - intros c Hc. apply in_app_or in Hc as [Hc|Hc]; [right|now left].
    match goal with Q : forallb (has_symbol _ _) _ = true |- _ => rewrite forallb_forall in Q; exact (Q c Hc) end.
Qed.

(** *** Roman sources *)
Lemma mv_convertInter : forall X S, moves X (inter_marks ++ X) (convertInter S).
Proof.
  intros X S. unfold convertInter. apply mv_withS. intros s _. apply mv_withS. intros t Et. apply mv_replaces.
  - intros [x y] c Hp Hc. apply (Permutation_in _ (lenSort_perm _)) in Hp. apply zip_In in Hp as [_ Hp].
    apply in_or_app. left. unfold inter_marks. rewrite Et. apply marks_In in Hc as [Hc M]. apply marks_In. split; [|exact M].
    apply in_concat. exists y. now split.
  - intros c Hc. left. apply in_or_app. now right.
Qed.
Lemma inter_symbols : forallb (has_symbol inter_side GM_Inter) inter_marks = true.
Proof. vm_compute. reflexivity. Qed.
Lemma inter_listed : mem GM_Inter (GM_IndicScripts ++ GM_LatinScripts) = true.
Proof. vm_compute. reflexivity. Qed.
Lemma inter_not_loc : GM_Inter <> "RomanLoC"%u.
Proof. discriminate. Qed.

Lemma mv_widen : forall I d X p, moves [] (I ++ [d]) p -> moves (I ++ d :: X) (I ++ d :: X) p.
Proof.
  intros I d X p H. apply (mv_gen _ (I ++ [d])); [exact H|auto|]. intros c Hc. apply in_or_app.
  apply in_app_or in Hc as [Hc|[<-|[]]]; [now left|right; now left].
Qed.
Lemma mv_RomanPreFix : moves [] (inter_marks ++ [0xD7]) (PrP_RomanPreFix GM_Inter).
Proof. fleaf. Qed.

Theorem mv_latin_indic : forall S T, In S GM_LatinScripts -> In T GM_IndicScripts -> okay T ->
  moves (lao T ++ warang S) [] (latin_indic S T).
Proof.
  intros S T HS HT OT. pose proof (ind_tgts T HT) as B. unfold ind_tgt in B. rewrite (okay_mem T OT) in B. bools.
  pose proof (lat_srcs S HS) as A. unfold lat_src in A. bools. unfold latin_indic.
  apply mv_app with (lao T); [apply (mv_sub (warang S) []); [now apply flows_sound|auto|intros c []]|].
  apply mv_app with (0xD7 :: lao T).
  { apply mv_if; [|apply mv_weak with (lao T) (lao T); [auto|intros c Hc; now right|apply mv_nil]].
    apply (mv_gen _ [0xD7]); [fleaf|intros c Hc; now right|intros c [<-|[]]; now left]. }
  apply mv_app with (0xD7 :: lao T); [apply mv_keep; fleaf|].
  apply mv_app with (0xD7 :: lao T); [apply mv_keep; now apply flows_sound|].
  apply mv_app with (0xD7 :: lao T).
  { apply mv_keep. apply mv_withS. intros signs _. apply mv_withS. intros sOm _. apply mv_withS. intros tOm EO.
    assert (M : marks tOm = []) by (eapply om_plain; eassumption). apply mv_app with []; now apply mv_om. }
  apply mv_app with (inter_marks ++ 0xD7 :: lao T); [apply mv_convertInter|].
  apply mv_app with (inter_marks ++ 0xD7 :: lao T).
  { exact (mv_widen _ _ _ _ mv_RomanPreFix). }
  apply mv_app with (inter_marks ++ 0xD7 :: lao T); [apply mv_keep; fleaf|].
  apply mv_app with (0xD7 :: lao T).
  { apply mv_withS. intros _ _. apply mv_withS. apply mv_pairs; try (apply lat_or_ind; now left); try now apply ind_not_loc.
    - apply mem_In. exact inter_listed.
    - exact inter_not_loc.
    - intros c Hc. right. now apply (subset_In (tab_marks id_side T)).
    - intros c Hc. apply in_app_or in Hc as [Hc|Hc]; [right|now left]. pose proof inter_symbols as Q. rewrite forallb_forall in Q. exact (Q c Hc). }
  apply mv_app with (0xD7 :: lao T).
  { apply mv_withS. intros vowels _. apply mv_withS. intros v2 _. apply mv_withS. intros v4 _.
    assert (R : forall v, moves (0xD7 :: lao T) (0xD7 :: lao T) [Replace ("_"%u ++ v) v]).
    { intros v. apply mv_Replace_clean. intros c Hc. apply marks_In in Hc as [Hc _]. apply in_or_app. now right. }
    apply mv_cons with (0xD7 :: lao T); apply R. }
  apply mv_app with (lao T); [|now apply mv_FixIndicOutput].
  apply mv_withS. intros vir EV.
  assert (M : marks vir = []) by (match goal with Q : unmarked_ok (first_of "ViramaMap"%u T) = true |- _ => rewrite EV in Q; now apply unmarked_marks end).
  apply mv_cons with (0xD7 :: lao T).
  - apply mv_Replace_clean. intros c Hc. change (0x200D :: vir) with ([0x200D] ++ vir) in Hc. rewrite marks_app, M in Hc. destruct Hc.
  - now apply mv_Replace_kills.
Qed.

Ltac mpieces X := repeat lazymatch goal with
  | |- moves _ _ (_ ++ _) => apply mv_app with X
  | |- moves _ _ (if _ then _ else _) => apply mv_if
  end.
Lemma clean_PostFixRoman : forall S T, In T GM_LatinScripts -> okay T -> clean (CF_PostFixRomanOutput S T).
Proof.
  intros S T HT OT. pose proof (lat_tgts T HT) as B. unfold lat_tgt in B. rewrite (okay_mem T OT) in B. bools.
  unfold CF_PostFixRomanOutput, clean. mpieces (@nil N); lazymatch goal with |- moves _ _ (CF_FixVedic _) => now apply flows_sound | |- _ => fleaf end.
Qed.

Theorem mv_latin_latin : forall S T, In S GM_LatinScripts -> In T GM_LatinScripts -> okay T -> moves (warang S) [] (latin_latin S T).
Proof.
  intros S T HS HT OT. pose proof (lat_tgts T HT) as B. unfold lat_tgt in B. rewrite (okay_mem T OT) in B. bools.
  pose proof (lat_srcs S HS) as A. unfold lat_src in A. bools. unfold latin_latin.
  apply mv_app with []; [now apply flows_sound|]. apply mv_app with (inter_marks ++ []); [apply mv_convertInter|].
  rewrite app_nil_r. apply mv_app with []; [now apply flows_sound|]. now apply clean_PostFixRoman.
Qed.

Lemma zipped_fails : forall fs ft S T g gs z l, retCharList g = Ok l -> is_ok (CrunchSymbols l T) = false ->
  zipped fs ft S T (g :: gs) = Ok z -> False.
Proof.
  intros fs ft S T g gs z l Q N Z. cbn [zipped] in Z. rewrite Q in Z. cbn [rbind] in Z.
  destruct (CrunchSymbols l S); [|discriminate]. cbn [rbind] in Z. destruct (CrunchSymbols l T); discriminate.
Qed.
Lemma charPairs_loc : forall fs ft S pairs, charPairs fs ft S "RomanLoC"%u = Ok pairs -> False.
Proof.
  intros fs ft S pairs E. apply charPairs_zipped in E as (z & Z & _).
  refine (zipped_fails fs ft S "RomanLoC"%u "Aytham"%u _ z GM_Aytham _ _ Z); vm_compute; reflexivity.
Qed.

Theorem mv_indic_latin : forall S T, In S GM_IndicScripts -> In T GM_LatinScripts -> okay T -> clean (indic_latin S T).
Proof.
  intros S T HS HT OT. pose proof (lat_tgts T HT) as B. unfold lat_tgt in B. rewrite (okay_mem T OT) in B. bools.
  pose proof (ind_srcs S HS) as A. unfold ind_src in A. bools. unfold clean.
  assert (E : indic_latin S T = ind_prefix S
    ++ (let! sOm := first_of "OmMap"%u S in
      let! tOm := first_of "OmMap"%u T in
      [Replace sOm tOm])
    ++ (let! pairs := charPairs id_side roman_side S T in
      if str_eqb S "RomanSemitic"%u then
        let unasp := ["k"%u; "g"%u; "c"%u; "j"%u; "t"%u; "d"%u; "p"%u; "b"%u; "ɽ"%u; "ʈ"%u; "ɖ"%u; "r"%u] in
        let hasH := fun p : str * str => contains "ʰ"%u (fst p) in
        foreach (filter (fun p => negb (hasH p)) pairs ++ filter hasH pairs) (fun '(x, y) =>
          if mem x unasp then [ReSub (x ++ "(?!(ʰ|"%u ++ [0x324%N] ++ "))"%u) y] else [Replace x y])
      else replace_all pairs)
    ++ CF_FixRomanOutput T
    ++ CF_VedicSvarsIndicLatin
    ++ CF_PostFixRomanOutput S T) by (unfold indic_latin, ind_prefix, roman_side; now rewrite <- !app_assoc).
  rewrite E. clear E. apply mv_app with (lao S); [now apply mv_ind_prefix|].
  apply mv_app with (lao S).
  { apply mv_withS. intros sOm _. apply mv_withS. intros tOm EO. assert (M : marks tOm = []) by (eapply om_plain; eassumption).
    apply mv_Replace_clean. intros c Hc. rewrite M in Hc. destruct Hc. }
  apply mv_app with roman_marks.
  { apply mv_withS. intros pairs EP. destruct (str_eqb T "RomanLoC"%u) eqn:EL.
    { exfalso. apply str_eqb_eq in EL as ->. revert EP. apply charPairs_loc. }
    apply str_eqb_neq in EL. destruct (str_eqb S "RomanSemitic"%u) eqn:ES.
    - apply str_eqb_eq in ES as ->. cbv zeta.
      assert (Y : forall p c, In p pairs -> In c (marks (snd p)) -> In c roman_marks).
      { intros [x y] c Hp Hc. apply charPairs_zipped in EP as (z & Z & P). apply (Permutation_in _ P) in Hp.
        destruct (zipped_to _ _ _ _ _ z x y Z Hp) as (g & Hg & w & Hw & ->). cbn [snd] in Hc.
        apply (subset_In (tab_marks roman_side T)); [assumption|]. unfold tab_marks.
        apply marks_In in Hc as [Hc M]. apply marks_In. split; [|exact M]. apply in_concat.
        exists (roman_side g w). split; [|exact Hc]. apply in_flat_map. exists g. split; [exact Hg|]. now apply in_map. }
      apply mv_weak with roman_marks roman_marks; [intros c []|auto|]. apply mv_foreach. intros [x y] Hxy.
      assert (Hp : In (x, y) pairs) by (apply in_app_or in Hxy as [Hxy|Hxy]; now apply filter_In in Hxy as [Hxy _]).
      apply mv_if.
      + eapply mv_weak; [intros c Hc; exact Hc| |apply mv_ReSub]. intros c Hc. apply add_In in Hc as [Hc|Hc]; [exact (Y _ c Hp Hc)|exact Hc].
      + apply mv_Replace_adds; [auto|]. intros c Hc. right. exact (Y _ c Hp Hc).
    - revert pairs EP. apply mv_pairs.
      + apply lat_or_ind; now left.
      + now apply ind_not_loc.
      + apply lat_or_ind; now right.
      + exact EL.
      + now apply subset_In.
      + intros c Hc. right. match goal with Q : forallb (has_symbol _ _) _ = true |- _ => rewrite forallb_forall in Q; exact (Q c Hc) end. }
  apply mv_app with []; [now apply flows_sound|]. apply mv_app with []; [fleaf|]. now apply clean_PostFixRoman.
Qed.

Theorem mv_branch : forall S T p, okay T -> convert_branch S T = Some p -> moves (lao T ++ warang S) [] p.
Proof.
  intros S T p OT. unfold convert_branch.
  assert (L : mem T GM_LatinScripts = true -> lao T = []).
  { intros H. unfold lao. destruct (mem T ["Lao"%u; "Lao2"%u]) eqn:E; [|reflexivity].
    apply mem_In in E as [<-|[<-|[]]]; discriminate H. }
  assert (W : mem S GM_IndicScripts = true -> warang S = []).
  { intros H. unfold warang. destruct (str_eqb S "WarangCiti"%u) eqn:E; [|reflexivity].
    apply str_eqb_eq in E as ->. discriminate H. }
  destruct (mem S GM_LatinScripts && mem T GM_IndicScripts) eqn:E1.
  { apply andb_true_iff in E1 as [A B]. apply mem_In in A, B. intros E. assert (p = latin_indic S T) as -> by congruence. now apply mv_latin_indic. }
  destruct (mem S GM_LatinScripts && mem T GM_LatinScripts) eqn:E2.
  { apply andb_true_iff in E2 as [A B]. rewrite (L B). apply mem_In in A, B. intros E. assert (p = latin_latin S T) as -> by congruence. now apply mv_latin_latin. }
  destruct (mem S GM_IndicScripts && mem T GM_IndicScripts) eqn:E3.
  { apply andb_true_iff in E3 as [A B]. rewrite (W A), app_nil_r. apply mem_In in A, B. intros E. assert (p = indic_indic S T) as -> by congruence. now apply mv_indic_indic. }
  destruct (mem S GM_IndicScripts && mem T GM_LatinScripts) eqn:E4.
  { apply andb_true_iff in E4 as [A B]. rewrite (L B), (W A). apply mem_In in A, B. intros E. assert (p = indic_latin S T) as -> by congruence. now apply mv_indic_latin. }
  discriminate.
Qed.

(** ** Semitic scripts *)
(** The marks the options and [convert] itself put in, which [PP_default] removes. *)
Definition default_marks : list N := [0x5CC; 0x5CD; 0xF001].
Lemma mv_default : moves default_marks [] (PP_default []).
Proof. fleaf. Qed.
Lemma mv_default_keep : forall X, moves (default_marks ++ X) X (PP_default []).
Proof.
  intros X. apply (mv_sub default_marks []); [exact mv_default| |intros c []].
  intros c Hc. apply in_or_app. apply in_app_or in Hc as [Hc|Hc]; [now right|now left].
Qed.

Definition sem_flow (s : str) : bool :=
  flows [] [] [Try is_AttributeError (CF_getattr_Source_reverse ("Fix"%u ++ replace "-"%u "_"%u s) s)]
  && flows [] [] (PrP_FixSemiticRoman s) && flows [] [] (PP_FixSemiticRoman s) && flows [] [] (gim_postprocess s)
  && flows [] [] (gim_to_latin s) && flows [] [] (gim_from_latin s).
Lemma sem_flows : forall s, In s GM_SemiticScripts -> sem_flow s = true.
Proof. apply forallb_forall. vm_compute. reflexivity. Qed.


Definition pre_flow (s : str) : bool := flows [] [] (map (fun '(i, o) => Replace i o) (get_dict s gimel_ccmp)).
Lemma pre_flows : forall s, In s GM_SemiticScripts -> pre_flow s = true.
Proof. apply forallb_forall. vm_compute. reflexivity. Qed.
Lemma clean_gim_pre : forall s t, In s GM_SemiticScripts -> clean (gim_preprocess s t).
Proof.
  intros s t Hs. unfold gim_preprocess, clean. apply mv_app with []; [exact (flows_sound _ _ _ (pre_flows s Hs))|].
  apply mv_if; fleaf.
Qed.
Lemma clean_gim_tr : forall s t, In s GM_SemiticScripts -> In t GM_SemiticScripts -> clean (gim_tr s t).
Proof.
  intros s t Hs Ht. pose proof (sem_flows s Hs) as A. pose proof (sem_flows t Ht) as B. unfold sem_flow in A, B. bools.
  unfold gim_tr, gim_convert, clean. mpieces (@nil N); try apply mv_nil; try (now apply clean_gim_pre); now apply flows_sound.
Qed.

Definition known : list str := GM_IndicScripts ++ GM_LatinScripts ++ GM_SemiticScripts.
Definition fix_semitic_clean (S T : str) : bool := flows [] [] (CF_FixSemiticOutput S T).
Lemma fix_semitic_cleans : forall S T, In S known -> In T GM_SemiticScripts -> fix_semitic_clean S T = true.
Proof. apply forallb_pairs. vm_compute. reflexivity. Qed.
Definition fix_other_clean (T : str) : bool :=
  if mem T GM_SemiticScripts then true
  else if mem ("Fix"%u ++ replace "-"%u "_"%u T) by_source then false
  else if mem T computed then true else flows [] (lao T) (fix_other T).
Lemma fix_other_cleans : forall T, In T known -> fix_other_clean T = true.
Proof. apply forallb_forall. vm_compute. reflexivity. Qed.
Lemma known_named : forall s, In s known -> named s = true.
Proof. apply forallb_forall. vm_compute. reflexivity. Qed.
Lemma mv_FixSemiticOutput : forall S T, In S known -> In T known -> moves [] (lao T) (CF_FixSemiticOutput S T).
Proof.
  intros S T HS HT. destruct (mem T GM_SemiticScripts) eqn:M.
  - apply mem_In in M. apply mv_weak with [] []; [auto|intros c []|]. exact (flows_sound _ _ _ (fix_semitic_cleans S T HS M)).
  - pose proof (fix_other_cleans T HT) as C. unfold fix_other_clean in C. rewrite M in C.
    destruct (mem ("Fix"%u ++ replace "-"%u "_"%u T) by_source) eqn:E; [discriminate|].
    assert (N : S <> []) by now intros ->; discriminate (known_named [] HS).
    assert (G : moves [] (lao T) (fix_other T)).
    { destruct (mem T computed) eqn:K; [|now apply flows_sound]. destruct (computed_cases T K) as [-> | ->].
      - apply mv_cons with []; [fleaf|]. refine (mv_Try [] [] _ _ _).
        change (clean (CF_KharoshthiNumerals true)). apply clean_khar.
      - apply mv_cons with []; [fleaf|]. refine (mv_Try [] [] _ _ _).
        change (clean (CF_FixOldPersian true)). apply clean_FixOldPersian. }
    unfold CF_FixSemiticOutput. rewrite (globals_call_any_source _ S N E). exact G.
Qed.
Lemma clean_FixSemitic : forall S T, In S known -> In T GM_SemiticScripts -> clean (CF_FixSemiticOutput S T).
Proof. intros S T HS HT. exact (flows_sound _ _ _ (fix_semitic_cleans S T HS HT)). Qed.
Lemma romanSemitic_okay : okay "RomanSemitic"%u.
Proof. intros H. apply mem_In in H. discriminate H. Qed.

Lemma mv_via_RomanSemitic : forall S T, okay T ->
  (exists p, convert_branch S T = Some p) \/ lao T ++ warang S = [] -> moves (lao T ++ warang S) [] (convertScript_RomanSemitic S T).
Proof.
  intros S T OT H. unfold convertScript_RomanSemitic. apply mv_app with []; [|fleaf].
  destruct (convert_branch S T) as [p|] eqn:E; [exact (mv_branch S T p OT E)|]. destruct H as [[p H]| ->]; [discriminate|apply mv_nil].
Qed.
Lemma branch_RomanSemitic : forall T, In T (GM_IndicScripts ++ GM_LatinScripts) -> exists p, convert_branch "RomanSemitic"%u T = Some p.
Proof.
  intros T H. unfold convert_branch. apply in_app_or in H as [H|H]; apply mem_In in H; rewrite H.
  all: repeat match goal with |- context [mem "RomanSemitic"%u ?l] => let b := eval vm_compute in (mem "RomanSemitic"%u l) in change (mem "RomanSemitic"%u l) with b; cbn [andb] end; eauto.
  all: destruct (mem T GM_IndicScripts); eauto.
Qed.

Lemma mv_other_RomanSemitic : forall S, In S (GM_IndicScripts ++ GM_LatinScripts) ->
  moves (warang S) [] (convertScript_RomanSemitic S "RomanSemitic"%u).
Proof.
  intros S H. apply (mv_via_RomanSemitic S "RomanSemitic"%u romanSemitic_okay). left. unfold convert_branch.
  apply in_app_or in H as [H|H]; apply mem_In in H; rewrite H; cbn [andb].
  all: repeat match goal with |- context [mem "RomanSemitic"%u ?l] => let b := eval vm_compute in (mem "RomanSemitic"%u l) in change (mem "RomanSemitic"%u l) with b; cbn [andb] end; eauto.
  all: rewrite ?andb_false_r, ?andb_true_r; destruct (mem S GM_LatinScripts); eauto.
Qed.

Theorem mv_convertScript : forall S T, In S known -> In T known -> okay T -> moves (warang S ++ default_marks) [] (convertScript S T).
Proof.
  intros S T HS HT OT. unfold convertScript. apply mv_app with default_marks; [|exact mv_default].
  apply (mv_sub (warang S) []); [|intros c Hc; apply in_or_app; apply in_app_or in Hc; tauto|intros c []].
  assert (W : forall p, moves (lao T ++ warang S) [] p -> moves (warang S) [] p)
    by (intros p; apply mv_weak; [intros c Hc; apply in_or_app; now right|auto]).
  assert (SW : In S GM_SemiticScripts -> warang S = []).
  { intros H. unfold warang. destruct (str_eqb S "WarangCiti"%u) eqn:Q; [|reflexivity].
    apply str_eqb_eq in Q as ->. apply mem_In in H. discriminate H. }
  destruct (convert_branch S T) as [p|] eqn:E; [apply W; exact (mv_branch S T p OT E)|].
  destruct (mem S GM_SemiticScripts && mem T GM_SemiticScripts) eqn:E1.
  { apply andb_true_iff in E1 as [MS MT]. apply mem_In in MS, MT. pose proof (sem_flows S MS) as A. unfold sem_flow in A. bools.
    rewrite (SW MS). unfold semitic_semitic. apply mv_app with []; [now apply flows_sound|]. apply mv_app with []; [apply mv_if; fleaf|].
    apply mv_app with []; [now apply clean_gim_tr|]. now apply clean_FixSemitic. }
  destruct (mem S (GM_IndicScripts ++ GM_LatinScripts) && mem T GM_SemiticScripts) eqn:E2.
  { apply andb_true_iff in E2 as [MS MT]. apply mem_In in MS. apply mem_In in MT. pose proof (sem_flows T MT) as A. unfold sem_flow in A. bools.
    unfold other_semitic.
    apply mv_app with []; [now apply mv_other_RomanSemitic|].
    apply mv_app with []; [fleaf|]. apply mv_app with []; [apply mv_if; fleaf|].
    apply mv_app with []; [now apply flows_sound|]. apply mv_app with []; [apply mv_if; fleaf|].
    apply mv_app with []; [apply clean_gim_tr; [apply mem_In; vm_compute; reflexivity|assumption]|]. now apply clean_FixSemitic. }
  destruct (mem S GM_SemiticScripts && mem T (GM_IndicScripts ++ GM_LatinScripts)) eqn:E3.
  2: { unfold warang. destruct (str_eqb S "WarangCiti"%u) eqn:Q; [exfalso|apply mv_nil]. apply str_eqb_eq in Q as ->.
       assert (ML : mem "WarangCiti"%u GM_LatinScripts = true) by (vm_compute; reflexivity). unfold convert_branch in E. rewrite ML in E. cbn [andb] in E.
       assert (MA : mem "WarangCiti"%u (GM_IndicScripts ++ GM_LatinScripts) = true) by (vm_compute; reflexivity). rewrite MA in E2. cbn [andb] in E2.
       apply in_app_or in HT as [HT|HT]; [apply mem_In in HT; rewrite HT in E; discriminate|].
       destruct (mem T GM_IndicScripts); [discriminate|].
       apply in_app_or in HT as [HT|HT]; apply mem_In in HT; [rewrite HT in E; discriminate|congruence]. }
  apply andb_true_iff in E3 as [MS MT]. apply mem_In in MS, MT. pose proof (sem_flows S MS) as A. unfold sem_flow in A. bools.
  rewrite (SW MS). unfold semitic_other. apply mv_app with []; [now apply flows_sound|].
  apply mv_app with []; [apply clean_gim_tr; [assumption|apply mem_In; vm_compute; reflexivity]|].
  apply mv_app with (lao T); [now apply mv_FixSemiticOutput|].
  apply mv_app with (lao T); [apply mv_keep; now apply flows_sound|].
  apply mv_app with []; [rewrite <- (app_nil_r (lao T)); apply (mv_via_RomanSemitic "RomanSemitic"%u T OT); left; now apply branch_RomanSemitic|].
  apply mv_if; fleaf.
Qed.
