(** * C21: script detection is decided by the majority. *)
From Coq Require Import List NArith ZArith Bool Lia Permutation.
From Verif Require Import PyStr Regex Unicode Prog GMLists GeneralMap Dispatch YamlData Transliterate
  StrFacts SortFacts ConvertFacts ApiFacts.
Import ListNotations.
Local Open Scope nat_scope.

(** ** Specification *)

(** The script word of a character name: its first word in lower case, or the
    second one after OLD. *)
Definition script_word (name : str) : str :=
  match split " "%u name with
  | w :: rest => if str_eqb (py_lower w) "old"%u then py_lower (hd [] rest) else py_lower w
  | [] => []
  end.

(** Number of occurrences. *)
Definition occurrences (w : str) (l : list str) : nat := length (filter (str_eqb w) l).

(** The most frequent word, the greatest one of several. *)
Definition majority (l : list str) (w : str) : Prop :=
  In w l /\ forall w', In w' l -> occurrences w' l < occurrences w l \/
    (occurrences w' l = occurrences w l /\ (w' = w \/ str_ltb w' w = true)).

(** First letter in upper case. *)
Definition capitalise (w : str) : str := match w with [] => [] | c :: r => py_upper [c] ++ r end.

(** ** Counting *)

Lemma bump_In : forall k l, NoDup (map fst l) -> forall k' n,
  In (k', n) (bump k l) <->
  (k' <> k /\ In (k', n) l) \/ (k' = k /\ ((exists m, In (k, m) l /\ n = S m) \/ ((forall m, ~ In (k, m) l) /\ n = 1))).
Proof.
  intros k. induction l as [|[k0 n0] l IH]; intros D k' n.
  - cbn [bump In]. split.
    + intros [[= <- <-]|[]]. right. split; [reflexivity|]. right. now split; [intros m []|].
    + intros [[_ []]|[-> [(m & [] & _)|[_ ->]]]]. now left.
  - cbn [map fst] in D. inversion D as [|? ? D1 D2]; subst. cbn [bump]. destruct (str_eqb k k0) eqn:E.
    + apply str_eqb_eq in E. subst k0. cbn [In]. split.
      * intros [[= <- <-]|H].
        -- right. split; [reflexivity|]. left. exists n0. now split; [left|].
        -- left. split; [|now right]. intros ->. apply D1. now apply (in_map fst) in H.
      * intros [[Hn [[= -> ->]|H]]|[-> [(m & [[= ->]|H] & ->)|[H _]]]].
        -- now elim Hn.
        -- now right.
        -- now left.
        -- exfalso. apply D1. now apply (in_map fst) in H.
        -- exfalso. apply (H n0). now left.
    + apply str_eqb_neq in E. cbn [In]. rewrite (IH D2). split.
      * intros [[= <- <-]|[[Hn H]|[-> [(m & H & ->)|[H ->]]]]].
        -- left. split; [congruence|now left].
        -- left. split; [assumption|now right].
        -- right. split; [reflexivity|]. left. exists m. split; [now right|reflexivity].
        -- right. split; [reflexivity|]. right. split; [|reflexivity]. intros m [[= -> ->]|K]; [congruence|now apply (H m)].
      * intros [[Hn [[= -> ->]|H]]|[-> [(m & [[= -> ->]|H] & ->)|[H ->]]]].
        -- now left.
        -- right. left. now split.
        -- congruence.
        -- right. right. split; [reflexivity|]. left. now exists m.
        -- right. right. split; [reflexivity|]. right. split; [|reflexivity]. intros m K. apply (H m). now right.
Qed.

Lemma bump_keys : forall k l, NoDup (map fst l) -> NoDup (map fst (bump k l)) /\
  forall k', In k' (map fst (bump k l)) -> k' = k \/ In k' (map fst l).
Proof.
  intros k. induction l as [|[k0 n0] l IH]; intros D; cbn [bump map fst].
  - split; [constructor; [easy|constructor]|]. intros k' [<-|[]]. now left.
  - cbn [map fst] in D. inversion D as [|? ? D1 D2]; subst. destruct (str_eqb k k0) eqn:E; cbn [map fst].
    + split; [assumption|]. intros k' H. now right.
    + destruct (IH D2) as [N K]. split.
      * constructor; [|assumption]. intros H. destruct (K _ H) as [->|H']; [|now apply D1].
        rewrite str_eqb_refl in E. discriminate.
      * intros k' [<-|H]; [right; now left|]. destruct (K _ H) as [->|H']; [now left|right; now right].
Qed.

Lemma counter_snoc : forall l k, counter (l ++ [k]) = bump k (counter l).
Proof. intros. unfold counter. rewrite fold_left_app. reflexivity. Qed.

Lemma occurrences_app : forall w a b, occurrences w (a ++ b) = occurrences w a + occurrences w b.
Proof. intros. unfold occurrences. rewrite filter_app, app_length. reflexivity. Qed.

Lemma occurrences_In : forall w l, 0 < occurrences w l <-> In w l.
Proof.
  intros w l. unfold occurrences. induction l as [|x l IH]; cbn [filter length In]; [lia|].
  destruct (str_eqb w x) eqn:E; cbn [length].
  - apply str_eqb_eq in E. split; [now left|lia].
  - apply str_eqb_neq in E. rewrite IH. split; [now right|]. intros [->|H]; [congruence|assumption].
Qed.

Lemma counter_spec : forall l, NoDup (map fst (counter l)) /\
  forall w n, In (w, n) (counter l) <-> In w l /\ n = occurrences w l.
Proof.
  intros l. induction l as [|k l IH] using rev_ind.
  - split; [constructor|]. intros w n. cbn. tauto.
  - destruct IH as [D H]. rewrite counter_snoc. split; [now apply bump_keys|].
    intros w n. rewrite (bump_In k _ D). rewrite occurrences_app, in_app_iff. cbn [In].
    assert (O : occurrences w [k] = if str_eqb w k then 1 else 0).
    { unfold occurrences. cbn [filter]. now destruct (str_eqb w k). }
    rewrite O. destruct (str_eqb w k) eqn:E.
    + apply str_eqb_eq in E. subst w. split.
      * intros [[K _]|[_ [(m & I & ->)|[K ->]]]]; [now elim K| |].
        -- apply H in I. destruct I as [I ->]. split; [now left|lia].
        -- split; [right; now left|]. destruct (occurrences k l) eqn:Z; [reflexivity|]. exfalso.
           apply (K (S n)). apply H. split; [|now symmetry]. apply occurrences_In. lia.
      * intros [_ ->]. right. split; [reflexivity|].
        destruct (occurrences k l) eqn:Z.
        -- right. split; [|reflexivity]. intros m I. apply H in I. destruct I as [I _]. apply occurrences_In in I. lia.
        -- left. exists (occurrences k l). split; [|lia]. apply H. split; [apply occurrences_In; lia|reflexivity].
    + apply str_eqb_neq in E. rewrite Nat.add_0_r. split.
      * intros [[_ I]|[K _]]; [|contradiction]. apply H in I. destruct I as [I ->]. auto.
      * intros [[I|[K|[]]] ->]; [|congruence]. left. split; [assumption|]. now apply H.
Qed.

(** ** The winner *)

Definition cle (a b : nat * str) : Prop := le count_ltb a b.

Lemma count_asym : forall a b, count_ltb a b = true -> count_ltb b a = false.
Proof.
  intros [x a] [y b]. unfold count_ltb. cbn [fst snd]. rewrite (Nat.eqb_sym y x).
  destruct (Nat.eqb_spec x y) as [->|H]; [apply str_ltb_asym|]. rewrite Nat.ltb_lt, Nat.ltb_ge. lia.
Qed.
Lemma cle_spec : forall a b, cle a b <-> fst a < fst b \/ (fst a = fst b /\ (snd a = snd b \/ str_ltb (snd a) (snd b) = true)).
Proof.
  intros [x a] [y b]. unfold cle, le, count_ltb. cbn [fst snd].
  destruct (Nat.eqb_spec y x) as [->|H].
  - split.
    + intros L. right. split; [reflexivity|]. destruct (str_ltb a b) eqn:E; [now right|left]. now apply str_ltb_total.
    + intros [L|[_ [->|L]]]; [lia|apply str_ltb_irrefl|now apply str_ltb_asym].
  - rewrite Nat.ltb_ge. split; [intros; left; lia|]. intros [L|[L _]]; lia.
Qed.
Lemma cle_trans : forall a b c, cle a b -> cle b c -> cle a c.
Proof.
  intros a b c. rewrite !cle_spec. intros [H|[H H']] [K|[K K']]; try (left; lia). right. split; [lia|].
  destruct H' as [H'|H'], K' as [K'|K']; [left; congruence|rewrite H'; auto|rewrite <- K'; auto|].
  right. now apply str_ltb_trans with (snd b).
Qed.

Lemma idx_last : forall A (l : list A) x, idx (l ++ [x]) (-1) = Ok x.
Proof.
  intros A l x. unfold idx. rewrite app_length. cbn [length].
  change (-1 <? 0)%Z with true. cbv iota.
  replace (Z.of_nat (length l + 1) + -1)%Z with (Z.of_nat (length l)) by lia.
  replace (Z.of_nat (length l) <? 0)%Z with false by (symmetry; apply Z.ltb_ge; lia).
  rewrite Nat2Z.id, nth_error_app2, Nat.sub_diag by lia. reflexivity.
Qed.

Lemma main_script_spec : forall ws, ws <> [] -> exists w, main_script ws false = Ok w /\ majority ws w.
Proof.
  intros ws Hne. unfold main_script.
  set (pairs := map (fun '(s, n) => (n, s)) (counter ws)).
  assert (I : forall n s, In (n, s) pairs <-> In s ws /\ n = occurrences s ws).
  { intros n s. unfold pairs. rewrite in_map_iff, <- (proj2 (counter_spec ws)). split.
    - intros ([s' n'] & E & H). injection E as -> ->. assumption.
    - intros H. now exists (s, n). }
  pose proof (ssort_In count_ltb) as SI.
  pose proof (ssort_sorted count_ltb count_asym cle_trans pairs) as S.
  destruct (ssort count_ltb pairs) as [|x0 r0] eqn:E.
  { exfalso. destruct ws as [|w ws]; [now apply Hne|].
    assert (K : In (occurrences w (w :: ws), w) pairs) by (apply I; split; [now left|reflexivity]).
    apply SI in K. rewrite E in K. destruct K. }
  destruct (exists_last (l := x0 :: r0)) as (l & [n w] & El); [discriminate|]. rewrite El in *.
  exists w. split.
  { transitivity (do top <- idx (l ++ [(n, w)]) (-1); Ok (snd top)); [now destruct l|]. now rewrite idx_last. }
  assert (T : In (n, w) pairs) by (apply SI; rewrite E; apply in_or_app; right; now left).
  apply I in T. destruct T as [T ->]. split; [assumption|]. intros w' Hw'.
  assert (K : In (occurrences w' ws, w') pairs) by now apply I.
  apply SI in K. rewrite E in K. apply in_app_or in K. destruct K as [K|[[= K <-]|[]]].
  - apply (sorted_last count_ltb _ _ S) in K. apply cle_spec in K. cbn [fst snd] in K. tauto.
  - right. auto.
Qed.

Lemma majority_unique : forall l a b, majority l a -> majority l b -> a = b.
Proof.
  intros l a b [I M] [J N]. specialize (M b J). specialize (N a I).
  destruct M as [M|[M [E|M']]]; [destruct N as [N|[N _]]; lia|now symmetry|].
  destruct N as [N|[N [E|N']]]; [lia|assumption|]. rewrite (str_ltb_asym _ _ M') in N'. discriminate.
Qed.

(** Depends on the number of occurrences only. *)
Lemma occurrences_perm : forall w l l', Permutation l l' -> occurrences w l = occurrences w l'.
Proof.
  intros w l l' H. unfold occurrences. induction H; cbn [filter]; try congruence.
  - destruct (str_eqb w x); cbn [length]; congruence.
  - destruct (str_eqb w x), (str_eqb w y); reflexivity.
Qed.
Lemma majority_perm : forall l l' w, Permutation l l' -> majority l w -> majority l' w.
Proof.
  intros l l' w P [I M]. split; [now apply (Permutation_in _ P)|]. intros w' H.
  rewrite <- !(occurrences_perm _ _ _ P). apply M. now apply (Permutation_in _ (Permutation_sym P)).
Qed.

Section Detect.
Variable uname : N -> option str.
Variable uscript : N -> str.
(** Names that begin with OLD have a second word (true of Unicode names). *)
Hypothesis old_names : forall c nm, uname c = Some nm ->
  forall w, split " "%u nm = [w] -> py_lower w <> "old"%u.

(** The script words of a text; characters without a name do not count. *)
Definition words (text : str) : list str :=
  flat_map (fun c => match uname c with Some nm => [script_word nm] | None => [] end) text.

Lemma split_nonnil : forall sep s, split sep s <> [].
Proof.
  intros sep s. unfold split.
  assert (G : forall s k cur, split_go sep k cur s <> []); [|apply G]. clear s.
  induction s as [|c t IH]; intros k cur; cbn [split_go]; [discriminate|].
  destruct k; [|apply IH]. destruct (prefixb sep (c :: t)); [discriminate|apply IH].
Qed.

Lemma scripts_words : forall text, scripts_of uname text = Ok (words text).
Proof.
  induction text as [|c t IH]; [reflexivity|]. cbn [scripts_of words flat_map]. fold (words t).
  destruct (uname c) as [nm|] eqn:E; [|assumption]. unfold script_word.
  pose proof (old_names c nm E) as O. pose proof (split_nonnil " "%u nm) as Z.
  destruct (split " "%u nm) as [|w rest]; [now elim Z|].
  change (idx (w :: rest) 0) with (Ok w). cbn [rbind].
  destruct (str_eqb (py_lower w) "old"%u) eqn:Old.
  - destruct rest as [|w1 rest]; [exfalso; apply (O w); [reflexivity|now apply str_eqb_eq]|].
    change (idx (w :: w1 :: rest) 1) with (Ok w1). cbn [rbind hd]. rewrite IH. reflexivity.
  - cbn [rbind]. rewrite IH. reflexivity.
Qed.

(** The script is determined by the most frequent script word and, for scripts
    with variants, by the presence of letters typical of the variant. *)
Theorem detect_majority : forall text w, majority (words text) w -> w <> [] ->
  auto_detect uname uscript text false = refine_script uname uscript (capitalise w) text.
Proof.
  intros text w M Hw. unfold auto_detect. rewrite scripts_words. cbn [rbind].
  destruct (main_script_spec (words text)) as (w' & E & M').
  { destruct M as [I _]. intros H. rewrite H in I. destruct I. }
  rewrite E. cbn [rbind]. rewrite (majority_unique _ _ _ M' M). destruct w as [|c r]; [now elim Hw|reflexivity].
Qed.

(** The words that name a script without special treatment. *)
Definition special : list str :=
  ["Bengali"%u; "Lao"%u; "Batak"%u; "Myanmar"%u; "Meetei"%u; "Dives"%u; "Persian"%u; "Phags-pa"%u; "Ol"%u; "Sora"%u;
   "Syloti"%u; "Tai"%u; "Warang"%u; "Cyrillic"%u; "Zanabazar"%u; "Syriac"%u; "Arabic"%u; "Latin"%u].

Theorem detect_plain : forall text w, majority (words text) w ->
  In (capitalise w) (GM_IndicScripts ++ GM_LatinScripts ++ ["Hiragana"%u; "Katakana"%u]) ->
  ~ In (capitalise w) special ->
  auto_detect uname uscript text false = Ok (capitalise w).
Proof.
  intros text w M L N. rewrite (detect_majority text w M).
  - set (s := capitalise w) in *. clearbody s.
    assert (D : forall x, In x special -> str_eqb s x = false).
    { intros x I. apply str_eqb_neq. intros ->. contradiction. }
    unfold refine_script. cbv zeta.
    repeat match goal with |- (if str_eqb s ?x then _ else _) = _ =>
      first [rewrite (D x) by (apply mem_In; reflexivity) | destruct (str_eqb s x); [reflexivity|]] end.
    rewrite !in_app_iff, <- !mem_In in L.
    destruct (mem s GM_IndicScripts), (mem s GM_LatinScripts), (mem s _); try reflexivity.
    cbn [orb]. exfalso. destruct L as [L|[L|L]]; discriminate L.
  - intros ->. cbn [capitalise] in L. apply mem_In in L. vm_compute in L. discriminate.
Qed.

(** Order and position of the characters are irrelevant. *)
Corollary detect_permutation : forall text text' w, Permutation text text' -> majority (words text) w ->
  In (capitalise w) (GM_IndicScripts ++ GM_LatinScripts ++ ["Hiragana"%u; "Katakana"%u]) ->
  ~ In (capitalise w) special ->
  auto_detect uname uscript text' false = auto_detect uname uscript text false.
Proof.
  intros text text' w P M L N. rewrite (detect_plain text w M L N). apply detect_plain; auto.
  apply majority_perm with (words text); [|assumption]. unfold words. now apply Permutation_flat_map.
Qed.

(** A text without any named character, such as the empty text, fails. *)
Theorem detect_empty : forall text plugin, (forall c, In c text -> uname c = None) ->
  auto_detect uname uscript text plugin = Err IndexError.
Proof.
  intros text plugin H. unfold auto_detect. rewrite scripts_words. cbn [rbind].
  assert (E : words text = []).
  { unfold words. induction text as [|c t IH]; [reflexivity|]. cbn [flat_map]. rewrite (H c) by now left. cbn [app].
    apply IH. intros x Hx. apply H. now right. }
  rewrite E. destruct plugin; reflexivity.
Qed.

(** With [plugin], a text whose named characters are all Latin fails as well. *)
Theorem detect_plugin_latin_only : forall text, words text <> [] -> (forall w, In w (words text) -> w = "latin"%u) ->
  auto_detect uname uscript text true = Err IndexError.
Proof.
  intros text Hne H. unfold auto_detect. rewrite scripts_words. cbn [rbind].
  assert (E : exists n, counter (words text) = [("latin"%u, n)]).
  { destruct (counter_spec (words text)) as [D S].
    assert (A : forall k n, In (k, n) (counter (words text)) -> k = "latin"%u).
    { intros k n I. apply S in I. now apply H. }
    destruct (counter (words text)) as [|[k n] [|[k2 n2] r]] eqn:C.
    - exfalso. destruct (words text) as [|w ws]; [now apply Hne|].
      destruct (proj2 (S w (occurrences w (w :: ws)))). split; [now left|reflexivity].
    - exists n. rewrite (A k n); [reflexivity|now left].
    - exfalso. cbn [map fst] in D. inversion D as [|? ? D1 _]. apply D1. left.
      rewrite (A k n), (A k2 n2); [reflexivity|right; now left|now left]. }
  destruct E as [n E]. unfold main_script. rewrite E. reflexivity.
Qed.
End Detect.

(** Non-vacuity: a name table for a few letters. *)
Definition demo_name (c : N) : option str :=
  if ((0x905 <=? c) && (c <=? 0x939))%N then Some "DEVANAGARI LETTER"%u
  else if ((0x61 <=? c) && (c <=? 0x7A))%N then Some "LATIN SMALL LETTER"%u
  else if ((0x10380 <=? c) && (c <=? 0x103C3))%N then Some "OLD PERSIAN SIGN"%u else None.
Example detect_case :
  (forall c nm, demo_name c = Some nm -> forall w, split " "%u nm = [w] -> py_lower w <> "old"%u) /\
  majority (words demo_name "aकखगb"%u) "devanagari"%u /\
  auto_detect demo_name (fun _ => []) "aकखगb"%u false = Ok "Devanagari"%u.
Proof.
  split; [|split; [|vm_compute; reflexivity]].
  - intros c nm H w. unfold demo_name in H.
    repeat match type of H with (if ?b then _ else _) = _ => destruct b end; try discriminate; injection H as <-;
      vm_compute; discriminate.
  - split; [right; now left|]. intros w' H. 
    assert (E : words demo_name "aकखगb"%u = ["latin"%u; "devanagari"%u; "devanagari"%u; "devanagari"%u; "latin"%u])
      by (vm_compute; reflexivity).
    rewrite E in *. destruct H as [<-|[<-|[<-|[<-|[<-|[]]]]]]; vm_compute; auto.
Qed.
