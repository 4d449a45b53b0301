(** * Facts about sorting and the order of strings. Proof machinery; no code of
    /repo is modelled here. *)
From Coq Require Import List NArith ZArith Bool Lia Permutation Sorted.
From Verif Require Import PyStr StrFacts.
Import ListNotations.
Local Open Scope nat_scope.

Section Sort.
  Context {A : Type} (lt : A -> A -> bool).
  Definition le (a b : A) : Prop := lt b a = false.

  Lemma insert_perm : forall x l, Permutation (insert lt x l) (x :: l).
  Proof.
    intros x l. induction l as [|y l IH]; simpl; [reflexivity|].
    destruct (lt y x); [|reflexivity]. rewrite IH. apply perm_swap.
  Qed.
  Lemma ssort_perm : forall l, Permutation (ssort lt l) l.
  Proof.
    induction l as [|x l IH]; simpl; [reflexivity|]. rewrite insert_perm. now constructor.
  Qed.
  Lemma ssort_In : forall x l, In x (ssort lt l) <-> In x l.
  Proof. intros. split; apply Permutation_in; [|symmetry]; apply ssort_perm. Qed.

  Hypothesis lt_asym : forall a b, lt a b = true -> lt b a = false.
  Hypothesis le_trans : forall a b c, le a b -> le b c -> le a c.

  Lemma insert_sorted : forall x l, StronglySorted le l -> StronglySorted le (insert lt x l).
  Proof.
    intros x l H. induction H as [|y l Hs IH Hy]; simpl; [repeat constructor|].
    destruct (lt y x) eqn:E.
    - constructor; [assumption|]. rewrite Forall_forall in *. intros z Hz.
      apply (Permutation_in _ (insert_perm x l)) in Hz. destruct Hz as [<-|Hz]; [|now apply Hy].
      unfold le. now apply lt_asym.
    - constructor; [now constructor|]. constructor; [exact E|].
      rewrite Forall_forall in *. intros z Hz. apply le_trans with y; [exact E|now apply Hy].
  Qed.
  Lemma ssort_sorted : forall l, StronglySorted le (ssort lt l).
  Proof. induction l; simpl; [constructor|now apply insert_sorted]. Qed.

  (** The first element of the sorted list is minimal. *)
  Lemma ssort_head : forall l x r, ssort lt l = x :: r -> In x l /\ forall y, In y l -> le x y \/ y = x.
  Proof.
    intros l x r H. split; [apply ssort_In; rewrite H; now left|].
    intros y Hy. apply ssort_In in Hy. rewrite H in Hy. destruct Hy as [->|Hy]; [now right|].
    left. pose proof (ssort_sorted l) as S. rewrite H in S. inversion S as [|? ? _ F]; subst.
    rewrite Forall_forall in F. now apply F.
  Qed.

  (** The last one is maximal. *)
  Lemma sorted_last : forall l x, StronglySorted le (l ++ [x]) -> forall y, In y l -> le y x.
  Proof.
    induction l as [|z l IH]; intros x H y Hy; [easy|]. simpl in H. inversion H as [|? ? H1 F]; subst.
    rewrite Forall_forall in F. destruct Hy as [->|Hy]; [|now apply IH].
    apply F. apply in_or_app. right. now left.
  Qed.
End Sort.

Lemma str_ltb_irrefl : forall a, str_ltb a a = false.
Proof. induction a; simpl; [reflexivity|]. now rewrite N.eqb_refl. Qed.

Lemma str_ltb_asym : forall a b, str_ltb a b = true -> str_ltb b a = false.
Proof.
  induction a as [|x a IH]; intros [|y b] H; simpl in *; try easy.
  destruct (N.eqb_spec x y) as [->|Hn].
  - rewrite N.eqb_refl. now apply IH.
  - rewrite (proj2 (N.eqb_neq y x)) by congruence. apply N.ltb_lt in H. apply N.ltb_ge. lia.
Qed.

Lemma str_ltb_total : forall a b, str_ltb a b = false -> str_ltb b a = false -> a = b.
Proof.
  induction a as [|x a IH]; intros [|y b] H H'; simpl in *; try easy.
  destruct (N.eqb_spec x y) as [->|Hn].
  - rewrite N.eqb_refl in H'. f_equal. now apply IH.
  - rewrite (proj2 (N.eqb_neq y x)) in H' by congruence. apply N.ltb_ge in H, H'. lia.
Qed.

Lemma str_ltb_trans : forall a b c, str_ltb a b = true -> str_ltb b c = true -> str_ltb a c = true.
Proof.
  induction a as [|x a IH]; intros [|y b] [|z c] H H'; simpl in *; try easy.
  destruct (N.eqb_spec x y) as [->|Hn]; destruct (N.eqb_spec y z) as [->|Hn'].
  - rewrite ?N.eqb_refl. now apply IH with b.
  - rewrite ?(proj2 (N.eqb_neq _ _) Hn'). assumption.
  - rewrite ?(proj2 (N.eqb_neq _ _) Hn). assumption.
  - apply N.ltb_lt in H, H'. rewrite (proj2 (N.eqb_neq x z)) by lia. apply N.ltb_lt. lia.
Qed.

Lemma str_geb_trans : forall a b c, str_ltb b a = false -> str_ltb c b = false -> str_ltb c a = false.
Proof.
  intros a b c H1 H2. destruct (str_ltb c a) eqn:E; [|reflexivity]. exfalso.
  destruct (str_ltb a b) eqn:E1.
  - rewrite (str_ltb_trans c a b E E1) in H2. discriminate.
  - assert (a = b) by now apply str_ltb_total. subst. congruence.
Qed.
