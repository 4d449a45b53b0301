(** * Which marker characters a program can put into a text.

    [flow p X] computes, without looking at the text, the markers that the result of [p] may contain
    although the text at the start of the conversion did not, when the text before [p] may contain
    those of [X].  Proof machinery; no code of /repo is modelled here, except for the list [marker]. *)
From Coq Require Import List NArith ZArith Bool Lia.
From Verif Require Import PyStr StrFacts UnicodeTables Regex Unicode Prog AbsRegex NormCut.
Import ListNotations.
Local Open Scope N_scope.

(** The characters that the conversion uses for itself between its stages: the private use area (the
    intermediate notation of Roman texts, the mark for the inherent vowel, protected Latin letters,
    ...), three unassigned code points (appended to Semitic texts), and the sign of an explicit
    virama.  aksharamukha/Convert.py:55-141, PreProcess.py:643-745, 1377, transliterate.py:362-366,
    ScriptMap/Roman/Inter.py. *)
Definition marker (c : N) : bool :=
  ((0xE000 <=? c) && (c <=? 0xF8FF)) || ((0x5CC <=? c) && (c <=? 0x5CE)) || (c =? 0xD7).

(** ** What a match captures comes from the text *)
Section Good.
  Variable P : N -> Prop.
  Definition good (s : st) : Prop :=
    Forall P (bef s) /\ Forall P (aft s) /\ Forall (fun p => Forall P (snd p)) (caps s).

  Lemma cap_good : forall n l x, Forall (fun p : nat * str => Forall P (snd p)) l -> cap n l = Some x -> Forall P x.
  Proof.
    intros n l x H. induction H as [|[k y] l Hy H IH]; cbn [cap]; [discriminate|].
    destruct (Nat.eqb k n); [|exact IH]. intros [= <-]. exact Hy.
  Qed.

  Lemma step1_good : forall f s k v, good s -> step1 f s k = Some v -> exists s', good s' /\ k s' = Some v.
  Proof.
    intros f s k v (B & A & C) H. unfold step1 in H. destruct (aft s) as [|c t] eqn:E; [discriminate|].
    destruct (f c); [|discriminate]. eexists. split; [|exact H]. inversion A; subst.
    split; [now constructor|]. split; assumption.
  Qed.
  Lemma step_lit_good : forall x s k v, good s -> step_lit x s k = Some v -> exists s', good s' /\ k s' = Some v.
  Proof.
    induction x as [|c x IH]; intros s k v G H; cbn [step_lit] in H; [now exists s|].
    apply step1_good in H as (s' & G' & H); [|exact G]. exact (IH s' k v G' H).
  Qed.
  Lemma Forall_firstn : forall n (l : str), Forall P l -> Forall P (firstn n l).
  Proof.
    intros n l H. rewrite <- (firstn_skipn n l) in H. now apply Forall_app in H as [H _].
  Qed.
  Lemma consumed_good : forall s s', good s -> Forall P (consumed s s').
  Proof. intros s s' (_ & A & _). unfold consumed. now apply Forall_firstn. Qed.
  Lemma back_good : forall w s s', good s -> back w s = Some s' -> good s'.
  Proof.
    induction w as [|w IH]; intros s s' G H; cbn [back] in H; [congruence|].
    destruct (bef s) as [|c b] eqn:E; [discriminate|]. apply IH in H; [exact H|].
    destruct G as (B & A & C). rewrite E in B. inversion B; subst. split; [assumption|]. split; [now constructor|assumption].
  Qed.

  Lemma m_good : forall r s k v, good s -> m r s k = Some v -> exists s', good s' /\ k s' = Some v.
  Proof.
    induction r as [|c| |neg l|a IHa b IHb|a IHa b IHb|n a IHa|n|greedy lo hi a IHa|ahead neg w a IHa| | | |neg];
      intros s k v G H.
    - now exists s.
    - now apply step1_good in H.
    - now apply step1_good in H.
    - now apply step1_good in H.
    - simpl in H. apply IHa in H as (s' & G' & H); [|exact G]. exact (IHb s' k v G' H).
    - simpl in H. destruct (m a s k) eqn:Ea; [injection H as ->; exact (IHa s k v G Ea)|exact (IHb s k v G H)].
    - simpl in H. apply IHa in H as (s' & G' & H); [|exact G]. eexists. split; [|exact H].
      pose proof (consumed_good s s' G) as Q. destruct G' as (B & A & C). split; [exact B|]. split; [exact A|].
      constructor; assumption.
    - simpl in H. destruct (cap n (caps s)) as [x|]; [|discriminate]. exact (step_lit_good x s k v G H).
    - rewrite m_rep in H.
      assert (Opt : forall fuel left s v, good s -> copt (m a) greedy k fuel left s = Some v -> exists s', good s' /\ k s' = Some v).
      { clear s v G H. induction fuel as [|fuel IHf]; intros left s v G H; [now exists s|].
        cbn [copt] in H. cbv zeta in H.
        assert (It : forall x, (if match left with Some O => false | _ => true end then
                m a s (fun s' =>
                  if Nat.eqb (length (aft s')) (length (aft s)) then None
                  else copt (m a) greedy k fuel (option_map pred left) s')
              else None) = Some x -> exists s', good s' /\ k s' = Some x).
        { intros x Hx. destruct (match left with Some O => false | _ => true end); [|discriminate].
          apply IHa in Hx as (s' & G' & Hx); [|exact G]. destruct (Nat.eqb _ _); [discriminate|]. exact (IHf _ s' x G' Hx). }
        destruct greedy.
        - match type of H with match ?x with _ => _ end = _ => destruct x eqn:Ei end.
          + injection H as ->. now apply It.
          + now exists s.
        - destruct (k s) eqn:Ek.
          + injection H as ->. now exists s.
          + now apply It. }
      revert s v G H. generalize (option_map (fun h => (h - lo)%nat) hi) as left. intros left.
      induction lo as [|n IHn]; intros s v G H; cbn [cmand] in H; [exact (Opt _ _ s v G H)|].
      apply IHa in H as (s' & G' & H); [|exact G]. exact (IHn s' v G' H).
    - simpl in H.
      assert (Keep : forall s', good s' -> good (St (bef s) (aft s) (caps s'))).
      { intros s' (_ & _ & C). destruct G as (B & A & _). split; [exact B|]. split; assumption. }
      destruct ahead.
      + destruct (m a s _) as [s'|] eqn:E; destruct neg; try discriminate; [|now exists s].
        apply IHa in E as (s2 & G2 & E); [|exact G]. injection E as ->. eexists. split; [|exact H]. now apply Keep.
      + destruct (back w s) as [sb|] eqn:Eb; [|destruct neg; [now exists s|discriminate]].
        apply back_good in Eb; [|exact G].
        destruct (m a sb _) as [s'|] eqn:E; destruct neg; try discriminate; [|now exists s].
        apply IHa in E as (s2 & G2 & E); [|exact Eb]. destruct (Nat.eqb _ _); [|discriminate]. injection E as ->.
        eexists. split; [|exact H]. now apply Keep.
    - simpl in H. destruct (bef s); [now exists s|discriminate].
    - simpl in H. destruct (aft s); [now exists s|discriminate].
    - exists s. split; [exact G|]. simpl in H. destruct (aft s) as [|c [|d t]]; [assumption| |].
      + destruct c as [|p]; [discriminate|]. repeat (destruct p as [p|p|]; try discriminate; try assumption).
      + destruct c as [|p]; [discriminate|]. repeat (destruct p as [p|p|]; try discriminate; try assumption).
    - simpl in H. destruct (xorb neg (wordb s)); [now exists s|discriminate].
  Qed.

  Lemma attempt_good : forall r must s s', good s -> attempt r must s = Some s' -> good s'.
  Proof.
    intros r must s s' G H. unfold attempt in H. apply m_good in H as (s2 & G2 & H); [|exact G].
    destruct (must && _); [discriminate|]. now injection H as ->.
  Qed.

  Section Sub.
    Variable r : re.
    Variable f : list (nat * str) -> str.
    Hypothesis Hf : forall l, Forall (fun p => Forall P (snd p)) l -> Forall P (f l).

    Lemma final_good : forall b s must s', Forall P b -> Forall P s -> attempt r must (St b s []) = Some s' ->
      Forall P (f (final_caps (St b s []) s')).
    Proof.
      intros b s must s' B S E. assert (G : good (St b s [])) by (split; [exact B|]; split; [exact S|constructor]).
      apply Hf. constructor; [now apply consumed_good|]. now apply (attempt_good _ _ _ _ G) in E as (_ & _ & C).
    Qed.

    Lemma sub_go_good : forall s b skip, Forall P b -> Forall P s -> Forall P (sub_go r f b skip s).
    Proof.
      induction s as [|c t IH]; intros b skip B S; cbn [sub_go].
      - destruct skip; [|constructor]. destruct (attempt r false (St b [] [])) eqn:E; [|constructor].
        now apply final_good with (must := false).
      - inversion S as [|? ? Hc Ht]; subst. assert (B' : Forall P (c :: b)) by now constructor.
        destruct skip as [|k]; [|now apply IH].
        destruct (attempt r false (St b (c :: t) [])) as [s'|] eqn:E; [|constructor; [exact Hc|now apply IH]].
        pose proof (final_good b (c :: t) false s' B S E) as F. cbv zeta.
        destruct (length (consumed (St b (c :: t) []) s')).
        + apply Forall_app. split; [exact F|].
          destruct (attempt r true (St b (c :: t) [])) as [s''|] eqn:E2; [|constructor; [exact Hc|now apply IH]].
          apply Forall_app. split; [exact (final_good b (c :: t) true s'' B S E2)|now apply IH].
        + apply Forall_app. split; [exact F|now apply IH].
    Qed.
  End Sub.

  Lemma expand_good : forall t l, (forall c, In (TLit c) t -> P c) -> Forall (fun p => Forall P (snd p)) l -> Forall P (expand t l).
  Proof.
    intros t l Ht Hl. unfold expand. induction t as [|i t IH]; cbn [flat_map]; [constructor|].
    apply Forall_app. split; [|apply IH; intros c Hc; apply Ht; now right].
    destruct i as [c|n].
    - constructor; [apply Ht; now left|constructor].
    - destruct (cap n l) as [x|] eqn:E; [exact (cap_good n l x Hl E)|constructor].
  Qed.

  Lemma sub_good : forall r t s, (forall c, In (TLit c) t -> P c) -> Forall P s -> Forall P (sub r t s).
  Proof.
    intros r t s Ht Hs. unfold sub, sub_with. apply sub_go_good; [|constructor|exact Hs].
    intros l Hl. now apply expand_good.
  Qed.

  Lemma replace_go_good : forall x y, (forall c, In c y -> P c \/ In c x) ->
    forall s skip, Forall P s -> Forall P (replace_go x y skip s).
  Proof.
    intros x y H. induction s as [|c t IH]; intros skip S; cbn [replace_go]; [constructor|].
    inversion S as [|? ? Hc Ht]; subst. destruct skip as [|k]; [|now apply IH].
    destruct (prefixb x (c :: t)) eqn:E.
    - apply Forall_app. split; [|now apply IH]. apply prefixb_spec in E as [w E].
      apply Forall_forall. intros d Hd. destruct (H d Hd) as [Q|Q]; [exact Q|].
      rewrite Forall_forall in S. apply S. rewrite E. apply in_or_app. now left.
    - constructor; [exact Hc|now apply IH].
  Qed.
  Lemma replace_good : forall x y s, (forall c, In c y -> P c \/ In c x) -> Forall P s -> Forall P (replace x y s).
  Proof.
    intros x y s H S. unfold replace. destruct x as [|a x]; [|now apply replace_go_good].
    assert (Y : Forall P y) by (apply Forall_forall; intros c Hc; now destruct (H c Hc) as [|[]]).
    clear H. induction s as [|c t IH]; cbn [interleave]; [exact Y|]. inversion S; subst.
    apply Forall_app. split; [exact Y|]. constructor; [assumption|now apply IH].
  Qed.

  Lemma split_go_good : forall sep s skip cur, Forall P s -> Forall P cur -> Forall (Forall P) (split_go sep skip cur s).
  Proof.
    induction s as [|c t IH]; intros skip cur S C; cbn [split_go].
    - constructor; [now apply Forall_rev|constructor].
    - inversion S; subst. destruct skip; [|now apply IH]. destruct (prefixb sep (c :: t)).
      + constructor; [now apply Forall_rev|]. apply IH; [assumption|constructor].
      + apply IH; [assumption|now constructor].
  Qed.
  Lemma split_good : forall sep s, Forall P s -> Forall (Forall P) (split sep s).
  Proof. intros sep s S. unfold split. apply split_go_good; [exact S|constructor]. Qed.
End Good.

(** A character that is replaced does not remain. *)
Lemma replaced_gone : forall c y s, In c (replace [c] y s) -> In c y.
Proof.
  intros c y s. unfold replace. induction s as [|d t IH]; [intros []|]. cbn [replace_go prefixb length pred].
  destruct (N.eqb c d) eqn:E; cbn [andb].
  - rewrite in_app_iff. intros [H|H]; [exact H|now apply IH].
  - intros [H|H]; [subst d; rewrite N.eqb_refl in E; discriminate|now apply IH].
Qed.

(** ** Templates *)
Lemma template_chars : forall fuel g t l c, parse_template fuel g t = Some l -> In (TLit c) l ->
  In c t \/ c = 92 \/ c = 10 \/ c = 9 \/ c = 13.
Proof.
  induction fuel as [|fuel IH]; intros g t l c H Hc; [discriminate|]. cbn [parse_template] in H.
  destruct t as [|a t]; [injection H as <-; destruct Hc|].
  assert (G : forall u i, (forall x, In x u -> In x t) -> option_map (cons (TGroup i)) (parse_template fuel g u) = Some l ->
    In c (a :: t) \/ c = 92 \/ c = 10 \/ c = 9 \/ c = 13).
  { intros u i Hu Q. destruct (parse_template fuel g u) as [l'|] eqn:E; [|discriminate]. injection Q as <-.
    destruct Hc as [Hc|Hc]; [discriminate|]. destruct (IH g u l' c E Hc) as [Q|Q]; [left; right; now apply Hu|now right]. }
  assert (L : forall u x, (forall z, In z u -> In z t) -> option_map (cons (TLit x)) (parse_template fuel g u) = Some l ->
    (In c (a :: t) \/ c = 92 \/ c = 10 \/ c = 9 \/ c = 13) \/ c = x).
  { intros u i Hu Q. destruct (parse_template fuel g u) as [l'|] eqn:E; [|discriminate]. injection Q as <-.
    destruct Hc as [Hc|Hc]; [injection Hc as ->; now right|]. left.
    destruct (IH g u l' c E Hc) as [Q|Q]; [left; right; now apply Hu|now right]. }
  destruct (a =? 92).
  - destruct t as [|d t1]; [discriminate|].
    assert (I1 : forall x, In x t1 -> In x (d :: t1)) by (intros; now right).
    destruct (digit_val d) as [[|n]|].
    + discriminate.
    + assert (One : (if Nat.leb (S n) g then option_map (cons (TGroup (S n))) (parse_template fuel g t1) else None) = Some l ->
        In c (a :: d :: t1) \/ c = 92 \/ c = 10 \/ c = 9 \/ c = 13).
      { destruct (Nat.leb (S n) g); [|discriminate]. now apply G. }
      destruct t1 as [|e t2]; [exact (One H)|]. destruct (digit_val e) as [n2|]; [|exact (One H)].
      cbv zeta in H. destruct (match t2 with [] => false | h :: _ => is_octal d && is_octal e && is_octal h end); [discriminate|].
      destruct (Nat.leb (10 * S n + n2) g); [|discriminate]. apply (G t2 _) in H; [exact H|]. intros x Hx. right. now right.
    + destruct (d =? 92); [apply L in H; [destruct H as [H|H]; [exact H|right; now left]|exact I1]|].
      destruct (d =? 110); [apply L in H; [destruct H as [H|H]; [exact H|right; right; now left]|exact I1]|].
      destruct (d =? 116); [apply L in H; [destruct H as [H|H]; [exact H|right; right; right; now left]|exact I1]|].
      destruct (d =? 114); [apply L in H; [destruct H as [H|H]; [exact H|right; right; right; now right]|exact I1]|].
      destruct (is_ascii_letter d); [discriminate|].
      destruct (parse_template fuel g t1) as [l'|] eqn:E; [|discriminate]. injection H as <-.
      destruct Hc as [Hc|[Hc|Hc]]; [injection Hc as <-; right; now left|injection Hc as <-; left; right; now left|].
      destruct (IH g t1 l' c E Hc) as [Q|Q]; [left; right; now right|now right].
  - apply L in H; [|auto]. destruct H as [H|H]; [exact H|]. subst c.
    left. now left.
Qed.

(** ** Case and normalization produce no markers *)
Definition unmarked (s : str) : bool := forallb (fun c => negb (marker c)) s.
Lemma unmarked_In : forall s c, unmarked s = true -> In c s -> marker c = true -> False.
Proof.
  intros s c H Hc M. unfold unmarked in H. rewrite forallb_forall in H. specialize (H c Hc). rewrite M in H. discriminate.
Qed.
Lemma lower_unmarked : forallb (fun p => unmarked (snd p)) lower_table = true.
Proof. vm_compute. reflexivity. Qed.
Lemma decomp_unmarked : forallb (fun p => unmarked (snd p)) decomp_table = true.
Proof. vm_compute. reflexivity. Qed.
Lemma comp_unmarked : forallb (fun p => unmarked (map snd (snd p))) comp_table = true.
Proof. vm_compute. reflexivity. Qed.

Lemma marker_cases : forall c, marker c = true -> 0xE000 <= c <= 0xF8FF \/ 0x5CC <= c <= 0x5CE \/ c = 0xD7.
Proof.
  intros c H. unfold marker in H. apply orb_true_iff in H as [H|H]; [apply orb_true_iff in H as [H|H]|].
  - apply andb_true_iff in H as [A B]. apply N.leb_le in A, B. now left.
  - apply andb_true_iff in H as [A B]. apply N.leb_le in A, B. right. now left.
  - apply N.eqb_eq in H. right. now right.
Qed.

Lemma lower_marks : forall s c, In c (py_lower s) -> marker c = true -> In c s.
Proof.
  intros s c H M. unfold py_lower in H. apply in_flat_map in H as (d & Hd & Hc). rewrite lower_trie_eq in Hc.
  destruct (tfind d (tbuild lower_table)) as [l|] eqn:E; [|destruct Hc as [<-|[]]; exact Hd].
  exfalso. apply tfind_In in E. pose proof lower_unmarked as Q. rewrite forallb_forall in Q. specialize (Q _ E).
  exact (unmarked_In l c Q Hc M).
Qed.
Lemma decomp_marks : forall d c, In c (decomp d) -> marker c = true -> c = d.
Proof.
  intros d c H M. unfold decomp in H. destruct ((0xAC00 <=? d) && (d <=? 0xD7A3)) eqn:R.
  - exfalso. apply andb_true_iff in R as [R1 R2]. apply N.leb_le in R1, R2. apply marker_cases in M. cbv zeta in H.
    assert (Q1 : (d - 44032) / 588 < 20) by (apply N.div_lt_upper_bound; lia).
    assert (Q2 : ((d - 44032) mod 588) / 28 < 21).
    { apply N.div_lt_upper_bound; [lia|]. pose proof (N.mod_upper_bound (d - 44032) 588). lia. }
    assert (Q3 : (d - 44032) mod 28 < 28) by (apply N.mod_upper_bound; lia).
    revert H. generalize dependent ((d - 44032) / 588). generalize dependent (((d - 44032) mod 588) / 28).
    generalize dependent ((d - 44032) mod 28). intros a Qa b Qb e Qe H.
    destruct (4519 + a =? 4519); cbn [In] in H; lia.
  - rewrite decomp_trie_eq in H. destruct (tfind d (tbuild decomp_table)) as [l|] eqn:E; [|destruct H as [<-|[]]; reflexivity].
    exfalso. apply tfind_In in E. pose proof decomp_unmarked as Q. rewrite forallb_forall in Q. specialize (Q _ E).
    exact (unmarked_In l c Q H M).
Qed.
Lemma reorder_in_In : forall l c k x, In x (reorder_in c k l) -> x = c \/ In x l.
Proof.
  induction l as [|d l IH]; intros c k x; cbn [reorder_in]; cbv zeta.
  - intros [<-|[]]. now left.
  - destruct ((0 <? ccc d) && (ccc d <? k)).
    + intros [<-|H]; [right; now left|]. destruct (IH c k x H); [now left|right; now right].
    + intros [<-|H]; [now left|now right].
Qed.
Lemma reorder_In : forall s x, In x (reorder s) -> In x s.
Proof.
  induction s as [|c s IH]; intros x; [intros []|]. cbn [reorder]. cbv zeta. destruct (ccc c =? 0).
  - intros [<-|H]; [now left|right; now apply IH].
  - intros H. apply reorder_in_In in H as [->|H]; [now left|right; now apply IH].
Qed.
Lemma NFD_marks : forall s c, In c (normalize_NFD s) -> marker c = true -> In c s.
Proof.
  intros s c H M. unfold normalize_NFD in H. apply reorder_In in H. apply in_flat_map in H as (d & Hd & Hc).
  now rewrite (decomp_marks d c Hc M).
Qed.
Lemma compose2_unmarked : forall a b p, compose2 a b = Some p -> marker p = false.
Proof.
  intros a b p H. destruct (marker p) eqn:M; [exfalso|reflexivity]. pose proof (marker_cases p M) as R. unfold compose2 in H.
  destruct ((0x1100 <=? a) && (a <=? 0x1112) && (0x1161 <=? b) && (b <=? 0x1175)) eqn:E1.
  { rewrite !andb_true_iff, !N.leb_le in E1. assert (Q : 0xAC00 + ((a - 0x1100) * 21 + (b - 0x1161)) * 28 = p) by congruence.
    clear - E1 Q R. lia. }
  destruct ((0xAC00 <=? a) && (a <=? 0xD7A3) && (0x11A8 <=? b) && (b <=? 0x11C2)) eqn:E2.
  { rewrite !andb_true_iff, !N.leb_le in E2. destruct ((a - 0xAC00) mod 28 =? 0); [|discriminate].
    assert (Q : a + (b - 0x11A7) = p) by congruence. clear - E2 Q R. lia. }
  rewrite comp_trie_eq in H. destruct (tfind a (tbuild comp_table)) as [l|] eqn:E; [|discriminate]. apply tfind_In in E.
  pose proof comp_unmarked as Q. rewrite forallb_forall in Q. specialize (Q _ E). apply assocN_In in H.
  apply (unmarked_In _ p Q); [|exact M]. apply in_map_iff. now exists (b, p).
Qed.
Lemma compose_marks : forall s st mid last c, In c (compose st mid last s) -> marker c = true ->
  In c s \/ In c mid \/ st = Some c.
Proof.
  assert (Fl : forall (st : option N) (mid : str) (c : N), In c (match st with Some a => a :: rev mid | None => rev mid end) -> In c mid \/ st = Some c).
  { intros [a|] mid c H; [destruct H as [<-|H]; [now right|]|]; left; now apply in_rev. }
  induction s as [|d s IH]; intros st mid last c H M; cbn [compose] in H; cbv zeta in H; [apply Fl in H; now right|].
  destruct (match st with Some a => if match mid with [] => false | _ => ccc d <=? last end then None else compose2 a d | None => None end)
    as [p|] eqn:E.
  - apply IH in H as [H|[H|H]]; [left; now right|right; now left| |exact M]. injection H as ->. exfalso.
    destruct st as [a|]; [|discriminate]. destruct (match mid with [] => false | _ => ccc d <=? last end); [discriminate|].
    apply compose2_unmarked in E. congruence.
  - destruct (ccc d =? 0).
    + apply in_app_or in H as [H|H]; [apply Fl in H; now right|].
      apply IH in H as [H|[[]|H]]; [left; now right| |exact M]. injection H as ->. left. now left.
    + apply IH in H as [H|[[<-|H]|H]]; [left; now right|left; now left|right; now left|right; now right|exact M].
Qed.
Lemma NFC_marks : forall s c, In c (normalize_NFC s) -> marker c = true -> In c s.
Proof.
  intros s c H M. unfold normalize_NFC in H. apply compose_marks in H as [H|[[]|H]]; [now apply NFD_marks|discriminate|exact M].
Qed.

(** ** The analysis *)
Definition marks (s : str) : list N := filter marker s.
Definition minusN (a b : list N) : list N := filter (fun c => negb (memN c b)) a.
Definition add (a b : list N) : list N := match a with [] => b | _ => a ++ minusN b a end.

(** No exception that [h] catches can be raised: seen from the form of the program. *)
Fixpoint uncaught_op (h : exn -> bool) (o : op) {struct o} : bool :=
  let fix go (p : list op) {struct p} : bool :=
    match p with [] => true | o' :: p' => if uncaught_op h o' then go p' else false end in
  match o with
  | Replace _ _ | Append _ | Prepend _ | Lower | Norm _ | Sub _ _ | Map _ => true
  | ReSub _ _ => negb (h ReError)
  | IfIn _ p q => if go p then go q else false
  | Try _ p => go p
  | EvenParts _ p => go p
  | Fn _ => false
  | Raise e => negb (h e)
  end.
Definition uncaught (h : exn -> bool) : prog -> bool :=
  fix go (p : list op) {struct p} : bool :=
    match p with [] => true | o' :: p' => if uncaught_op h o' then go p' else false end.

Fixpoint flow_op (o : op) (X : list N) {struct o} : option (list N) :=
  let fix go (p : list op) (X : list N) {struct p} : option (list N) :=
    match p with
    | [] => Some X
    | o' :: p' => match flow_op o' X with Some X' => go p' X' | None => None end
    end in
  match o with
  | Replace x y =>
      Some (add (minusN (marks y) x) (match x with [c] => if memN c y then X else minusN X [c] | _ => X end))
  | ReSub p t => Some (add (marks t) X)
  | IfIn x p q => match go p X, go q X with Some Y, Some Z => Some (add Y Z) | _, _ => None end
  | Append t | Prepend t => Some (add (marks t) X)
  | Lower | Norm _ => Some X
  | Try h p => match go p X with Some Y => Some (if uncaught h p then Y else add X Y) | None => None end
  | EvenParts sep p => match go p X with Some Y => Some (add X Y) | None => None end
  | Sub r t => Some (add (flat_map (fun i => match i with TLit c => marks [c] | TGroup _ => [] end) t) X)
  | Map f => None
  | Fn f => None
  | Raise e => Some []
  end.
Fixpoint flow (p : prog) (X : list N) {struct p} : option (list N) :=
  match p with
  | [] => Some X
  | o :: p' => match flow_op o X with Some X' => flow p' X' | None => None end
  end.

(** What it means: relative to any text [s0], the markers of the text are in [s0] or in the set. *)
Definition within (s0 : str) (X : list N) (c : N) : Prop := marker c = true -> In c s0 \/ In c X.
Definition moves (X Y : list N) (p : prog) : Prop :=
  forall s0 s r, Forall (within s0 X) s -> run p s = Ok r -> Forall (within s0 Y) r.

Lemma within_weak : forall s0 X Y, (forall c, In c X -> In c Y) -> forall s, Forall (within s0 X) s -> Forall (within s0 Y) s.
Proof. intros s0 X Y H s. apply Forall_impl. intros c W M. destruct (W M); [now left|right; auto]. Qed.
Lemma add_In : forall a b c, In c (add a b) <-> In c a \/ In c b.
Proof.
  intros a b c. unfold add. destruct a as [|x a]; [now split; [right|intros [[]|]]|].
  rewrite in_app_iff. unfold minusN. rewrite filter_In, negb_true_iff. split; [tauto|].
  intros [H|H]; [now left|]. destruct (memN c (x :: a)) eqn:E; [left; now apply memN_In|right; now split].
Qed.
Lemma minusN_In : forall a b c, In c (minusN a b) <-> In c a /\ ~ In c b.
Proof.
  intros a b c. unfold minusN. rewrite filter_In, negb_true_iff. split; intros [A B]; (split; [exact A|]).
  - intros Q. apply memN_In in Q. congruence.
  - destruct (memN c b) eqn:E; [exfalso; now apply B, memN_In|reflexivity].
Qed.
Lemma marks_In : forall s c, In c (marks s) <-> In c s /\ marker c = true.
Proof. intros s c. unfold marks. apply filter_In. Qed.

Lemma mv_nil : forall X, moves X X [].
Proof. intros X s0 s r H E. injection E as <-. exact H. Qed.
Lemma mv_app : forall X Y Z p q, moves X Y p -> moves Y Z q -> moves X Z (p ++ q).
Proof.
  intros X Y Z p q Hp Hq s0 s r H E. rewrite run_app in E. destruct (run p s) as [s'|] eqn:E1; [|discriminate].
  cbn [rbind] in E. apply (Hq s0 s' r); [|exact E]. exact (Hp s0 s s' H E1).
Qed.
Lemma mv_cons : forall X Y Z o p, moves X Y [o] -> moves Y Z p -> moves X Z (o :: p).
Proof. intros X Y Z o p Ho Hp. exact (mv_app X Y Z [o] p Ho Hp). Qed.
Lemma mv_weak : forall X X' Y Y' p, (forall c, In c X -> In c X') -> (forall c, In c Y' -> In c Y) -> moves X' Y' p -> moves X Y p.
Proof.
  intros X X' Y Y' p HX HY Hp s0 s r H E. apply (within_weak s0 Y' Y HY). apply (Hp s0 s r); [|exact E].
  exact (within_weak s0 X X' HX s H).
Qed.
Lemma mv_one : forall X Y o, (forall s0 s r, Forall (within s0 X) s -> run_op o s = Ok r -> Forall (within s0 Y) r) -> moves X Y [o].
Proof.
  intros X Y o H s0 s r W E. cbn [run] in E. destruct (run_op o s) as [s'|] eqn:E1; [|discriminate]. injection E as <-.
  exact (H s0 s s' W E1).
Qed.
Lemma mv_raise : forall X Y e, moves X Y [Raise e].
Proof. intros X Y e. apply mv_one. intros s0 s r _ E. discriminate. Qed.
Lemma mv_if : forall X Y (b : bool) p q, moves X Y p -> moves X Y q -> moves X Y (if b then p else q).
Proof. intros X Y [|] p q; auto. Qed.

Lemma mv_Replace : forall X x y,
  moves X (add (minusN (marks y) x) (match x with [c] => if memN c y then X else minusN X [c] | _ => X end)) [Replace x y].
Proof.
  intros X x y. apply mv_one. intros s0 s r W E. injection E as <-.
  assert (A : Forall (within s0 (add (minusN (marks y) x) X)) (replace x y s)).
  { apply replace_good.
    - intros c Hc. destruct (memN c x) eqn:M; [right; now apply memN_In|left]. intros Hm. right. apply add_In. left.
      apply minusN_In. split; [now apply marks_In|]. intros Q. apply memN_In in Q. congruence.
    - revert W. apply within_weak. intros c Hc. apply add_In. now right. }
  destruct x as [|c [|d x]]; try exact A. destruct (memN c y) eqn:M; [exact A|].
  apply Forall_forall. intros d Hd Hm. rewrite Forall_forall in A. destruct (A d Hd Hm) as [Q|Q]; [now left|right].
  apply add_In in Q. apply add_In. destruct Q as [Q|Q]; [now left|right]. apply minusN_In. split; [exact Q|].
  intros [F|[]]. subst d. apply replaced_gone in Hd. apply memN_In in Hd. congruence.
Qed.

Lemma mv_ReSub : forall X p t, moves X (add (marks t) X) [ReSub p t].
Proof.
  intros X p t. apply mv_one. intros s0 s r W E. cbn [run_op] in E. unfold re_sub in E.
  destruct (compile p) as [[q g]|]; [|discriminate]. destruct (parse_template (S (length t)) g t) as [l|] eqn:T; [|discriminate].
  injection E as <-. apply sub_good.
  - intros c Hc M. right. apply add_In. left. apply marks_In. split; [|exact M].
    destruct (template_chars _ _ _ _ _ T Hc) as [Q|[Q|[Q|[Q|Q]]]]; [exact Q|..]; subst c; discriminate.
  - revert W. apply within_weak. intros c Hc. apply add_In. now right.
Qed.

Lemma mv_Sub : forall X r t,
  moves X (add (flat_map (fun i => match i with TLit c => marks [c] | TGroup _ => [] end) t) X) [Sub r t].
Proof.
  intros X q t. apply mv_one. intros s0 s r W E. injection E as <-. apply sub_good.
  - intros c Hc M. right. apply add_In. left. apply in_flat_map. exists (TLit c). split; [exact Hc|]. apply marks_In. split; [now left|exact M].
  - revert W. apply within_weak. intros c Hc. apply add_In. now right.
Qed.

Lemma mv_Append : forall X t, moves X (add (marks t) X) [Append t].
Proof.
  intros X t. apply mv_one. intros s0 s r W E. injection E as <-. apply Forall_app. split.
  - revert W. apply within_weak. intros c Hc. apply add_In. now right.
  - apply Forall_forall. intros c Hc M. right. apply add_In. left. now apply marks_In.
Qed.
Lemma mv_Prepend : forall X t, moves X (add (marks t) X) [Prepend t].
Proof.
  intros X t. apply mv_one. intros s0 s r W E. injection E as <-. apply Forall_app. split.
  - apply Forall_forall. intros c Hc M. right. apply add_In. left. now apply marks_In.
  - revert W. apply within_weak. intros c Hc. apply add_In. now right.
Qed.
Lemma mv_subset : forall X o, (forall s r, run_op o s = Ok r -> forall c, In c r -> marker c = true -> In c s) -> moves X X [o].
Proof.
  intros X o H. apply mv_one. intros s0 s r W E. apply Forall_forall. intros c Hc M. rewrite Forall_forall in W.
  apply W; [exact (H s r E c Hc M)|exact M].
Qed.
Lemma mv_IfIn : forall X Y Z x p q, moves X Y p -> moves X Z q -> moves X (add Y Z) [IfIn x p q].
Proof.
  intros X Y Z x p q Hp Hq. apply mv_one. intros s0 s r W E. rewrite run_op_IfIn in E. destruct (contains x s).
  - apply (within_weak s0 Y); [intros c Hc; apply add_In; now left|]. exact (Hp s0 s r W E).
  - apply (within_weak s0 Z); [intros c Hc; apply add_In; now right|]. exact (Hq s0 s r W E).
Qed.
Lemma mv_Try : forall X Y h p, moves X Y p -> moves X (add X Y) [Try h p].
Proof.
  intros X Y h p Hp. apply mv_one. intros s0 s r W E. rewrite run_op_Try in E. destruct (run p s) as [s'|e] eqn:R.
  - injection E as <-. apply (within_weak s0 Y); [intros c Hc; apply add_In; now right|]. exact (Hp s0 s s' W R).
  - destruct (h e); [|discriminate]. injection E as <-. revert W. apply within_weak. intros c Hc. apply add_In. now left.
Qed.
Lemma mv_EvenParts : forall X Y sep p, moves X Y p -> moves X (add X Y) [EvenParts sep p].
Proof.
  intros X Y sep p Hp. apply mv_one. intros s0 s r W E. rewrite run_op_EvenParts in E.
  apply split_good with (sep := sep) in W. revert r E. generalize true as b. revert W. generalize (split sep s) as l.
  induction l as [|w l IH]; intros W b r E; cbn [alt_parts] in E; [injection E as <-; constructor|].
  inversion W as [|? ? Ww Wl]; subst.
  destruct (if b then run p w else Ok w) as [w'|] eqn:R; [|discriminate].
  destruct (alt_parts (run p) (negb b) l) as [r'|] eqn:R'; [|discriminate]. injection E as <-. apply Forall_app. split.
  - destruct b.
    + apply (within_weak s0 Y); [intros c Hc; apply add_In; now right|]. exact (Hp s0 w w' Ww R).
    + injection R as <-. revert Ww. apply within_weak. intros c Hc. apply add_In. now left.
  - exact (IH Wl (negb b) r' R').
Qed.

(** *** Exceptions *)
Definition unraised (h : exn -> bool) (p : prog) : Prop := forall s e, run p s = Err e -> h e = false.
Lemma uncaught_ops : forall h p, (forall o, In o p -> uncaught_op h o = true -> unraised h [o]) -> uncaught h p = true -> unraised h p.
Proof.
  intros h. induction p as [|o p IH]; intros H U s e E; [discriminate|]. cbn in U.
  destruct (uncaught_op h o) eqn:Uo; [|discriminate]. cbn [run] in E. destruct (run_op o s) as [s'|e'] eqn:R.
  - apply (IH (fun o' Ho' => H o' (or_intror Ho')) U s' e E).
  - apply (H o (or_introl eq_refl) Uo s e). cbn [run]. rewrite R. exact E.
Qed.
Lemma uncaught_op_sound : forall h o, uncaught_op h o = true -> unraised h [o].
Proof.
  intros h. induction o using op_ind'; intros U s e' E; try discriminate E.
  - cbn [run run_op] in E. destruct (re_sub p t s) as [|e1] eqn:R; [discriminate|]. injection E as <-. unfold re_sub in R.
    cbn [uncaught_op] in U. apply negb_true_iff in U.
    destruct (compile p) as [[q g]|]; [destruct (parse_template _ g t); [discriminate|]|]; injection R as <-; exact U.
  - rewrite Forall_forall in H, H0. change ((if uncaught h p then uncaught h q else false) = true) in U.
    destruct (uncaught h p) eqn:Up; [|discriminate]. cbn [run] in E. rewrite run_op_IfIn in E.
    pose proof (uncaught_ops h p H Up) as Sp. pose proof (uncaught_ops h q H0 U) as Sq.
    destruct (contains x s).
    + destruct (run p s) as [|e1] eqn:R; [discriminate|]. injection E as <-. exact (Sp s e1 R).
    + destruct (run q s) as [|e1] eqn:R; [discriminate|]. injection E as <-. exact (Sq s e1 R).
  - rewrite Forall_forall in H. change (uncaught h p = true) in U. pose proof (uncaught_ops h p H U) as Sp.
    cbn [run] in E. rewrite run_op_Try in E. destruct (run p s) as [|e1] eqn:R; [discriminate|].
    match type of E with match (if ?b then _ else _) with _ => _ end = _ => destruct b end; [discriminate|]. injection E as <-. exact (Sp s e1 R).
  - rewrite Forall_forall in H. change (uncaught h p = true) in U. pose proof (uncaught_ops h p H U) as Sp.
    cbn [run] in E. rewrite run_op_EvenParts in E. destruct (alt_parts (run p) true (split sep s)) as [|e1] eqn:R; [discriminate|].
    injection E as <-. revert R. generalize true as b. induction (split sep s) as [|w l IH]; intros b R; [discriminate|].
    cbn [alt_parts] in R. destruct b; cbn [negb] in R.
    + destruct (run p w) as [|e2] eqn:Rw; [|injection R as <-; exact (Sp w e2 Rw)].
      destruct (alt_parts (run p) false l) as [|e2] eqn:Rl; [discriminate|]. injection R as ->. exact (IH false Rl).
    + destruct (alt_parts (run p) true l) as [|e2] eqn:Rl; [discriminate|]. injection R as ->. exact (IH true Rl).
  - discriminate.
  - cbn [run run_op] in E. injection E as <-. cbn [uncaught_op] in U. now apply negb_true_iff.
Qed.
Lemma uncaught_sound : forall h p, uncaught h p = true -> unraised h p.
Proof. intros h p. apply uncaught_ops. intros o _. apply uncaught_op_sound. Qed.
Lemma mv_Try_uncaught : forall X Y h p, uncaught h p = true -> moves X Y p -> moves X Y [Try h p].
Proof.
  intros X Y h p U Hp. apply mv_one. intros s0 s r W E. rewrite run_op_Try in E. destruct (run p s) as [s'|e] eqn:R.
  - injection E as <-. exact (Hp s0 s s' W R).
  - rewrite (uncaught_sound h p U s e R) in E. discriminate.
Qed.

(** *** Soundness *)
Lemma flow_ops : forall p, (forall o, In o p -> forall X Y, flow_op o X = Some Y -> moves X Y [o]) ->
  forall X Y, flow p X = Some Y -> moves X Y p.
Proof.
  induction p as [|o p IH]; intros H X Y E; cbn [flow] in E; [injection E as <-; apply mv_nil|].
  destruct (flow_op o X) as [Z|] eqn:Eo; [|discriminate].
  apply (mv_cons X Z Y); [exact (H o (or_introl eq_refl) X Z Eo)|]. apply IH; [|exact E]. intros o' Ho'. apply H. now right.
Qed.
Theorem flow_op_sound : forall o X Y, flow_op o X = Some Y -> moves X Y [o].
Proof.
  induction o using op_ind'; intros X Y E.
  - cbn [flow_op] in E. injection E as <-. apply mv_Replace.
  - cbn [flow_op] in E. injection E as <-. apply mv_ReSub.
  - rewrite Forall_forall in H, H0.
    change (match flow p X, flow q X with Some Y, Some Z => Some (add Y Z) | _, _ => None end = Some Y) in E.
    destruct (flow p X) as [A|] eqn:Ep; [|discriminate]. destruct (flow q X) as [B|] eqn:Eq; [|discriminate]. injection E as <-.
    apply mv_IfIn; [exact (flow_ops p H X A Ep)|exact (flow_ops q H0 X B Eq)].
  - cbn [flow_op] in E. injection E as <-. apply mv_Append.
  - cbn [flow_op] in E. injection E as <-. apply mv_Prepend.
  - cbn [flow_op] in E. injection E as <-. apply mv_subset. intros s r R c Hc M. injection R as <-. now apply lower_marks.
  - cbn [flow_op] in E. injection E as <-. apply mv_subset. intros s r R c0 Hc M. injection R as <-.
    destruct c; [now apply NFC_marks|now apply NFD_marks].
  - rewrite Forall_forall in H.
    change (match flow p X with Some Y => Some (if uncaught h p then Y else add X Y) | None => None end = Some Y) in E.
    destruct (flow p X) as [A|] eqn:Ep; [|discriminate]. injection E as <-. pose proof (flow_ops p H X A Ep) as Q.
    destruct (uncaught h p) eqn:U; [now apply mv_Try_uncaught|now apply mv_Try].
  - rewrite Forall_forall in H. change (match flow p X with Some Y => Some (add X Y) | None => None end = Some Y) in E.
    destruct (flow p X) as [A|] eqn:Ep; [|discriminate]. injection E as <-. apply mv_EvenParts. exact (flow_ops p H X A Ep).
  - cbn [flow_op] in E. injection E as <-. apply mv_Sub.
  - discriminate.
  - discriminate.
  - apply mv_raise.
Qed.
Theorem flow_sound : forall p X Y, flow p X = Some Y -> moves X Y p.
Proof. intros p. apply flow_ops. intros o _. apply flow_op_sound. Qed.

(** The form in which it is used. *)
Definition flows (X Y : list N) (p : prog) : bool := match flow p X with Some Z => forallb (fun c => memN c Y) Z | None => false end.
Theorem flows_sound : forall X Y p, flows X Y p = true -> moves X Y p.
Proof.
  intros X Y p H. unfold flows in H. destruct (flow p X) as [Z|] eqn:E; [|discriminate].
  apply (mv_weak X X Y Z); [auto| |now apply flow_sound]. intros c Hc. rewrite forallb_forall in H. apply memN_In. now apply H.
Qed.
