(** * Facts about the string functions of PyStr.v *)
From Coq Require Import List NArith ZArith Bool Lia Arith.
From Verif Require Import PyStr.
Import ListNotations.
Local Open Scope nat_scope.

Lemma str_eqb_refl : forall s, str_eqb s s = true.
Proof. induction s as [|c s IH]; simpl; [reflexivity|]. now rewrite N.eqb_refl. Qed.

Lemma str_eqb_eq : forall a b, str_eqb a b = true <-> a = b.
Proof.
  induction a as [|x a IH]; intros [|y b]; simpl; split; intro H; try easy.
  - destruct (N.eqb_spec x y); [|easy]. apply IH in H. now subst.
  - injection H as <- <-. rewrite N.eqb_refl. now apply IH.
Qed.

Lemma str_eqb_neq : forall a b, str_eqb a b = false <-> a <> b.
Proof.
  intros a b. destruct (str_eqb a b) eqn:E.
  - apply str_eqb_eq in E. split; [discriminate|now intros []].
  - split; [|reflexivity]. intros _ ->. now rewrite str_eqb_refl in E.
Qed.

Lemma str_eqb_sym : forall a b, str_eqb a b = str_eqb b a.
Proof.
  intros a b. destruct (str_eqb a b) eqn:E.
  - apply str_eqb_eq in E as ->. now rewrite str_eqb_refl.
  - symmetry. apply str_eqb_neq. apply str_eqb_neq in E. congruence.
Qed.

Lemma mem_In : forall x l, mem x l = true <-> In x l.
Proof.
  intros x l. unfold mem. rewrite existsb_exists. split.
  - intros (y & Hy & E). apply str_eqb_eq in E. now subst.
  - intros H. exists x. now rewrite str_eqb_refl.
Qed.

Lemma mem_false : forall x l, mem x l = false <-> ~ In x l.
Proof.
  intros x l. rewrite <- mem_In. destruct (mem x l); split; congruence.
Qed.

Lemma prefixb_spec : forall x s, prefixb x s = true <-> exists r, s = x ++ r.
Proof.
  induction x as [|a x IH]; intros s; simpl.
  - split; [intros _; now exists s|easy].
  - destruct s as [|b s]; [split; [easy|intros [r H]; discriminate]|].
    destruct (N.eqb_spec a b) as [->|Hn].
    + rewrite IH. split; intros [r H]; exists r; [now subst|simpl in H; congruence].
    + split; [easy|]. intros [r H]. simpl in H. congruence.
Qed.

Lemma prefixb_app : forall x s t, prefixb x s = true -> prefixb x (s ++ t) = true.
Proof.
  intros x s t H. apply prefixb_spec in H as [r ->]. apply prefixb_spec.
  exists (r ++ t). now rewrite app_assoc.
Qed.

Lemma prefixb_app_same : forall x y s, prefixb (x ++ y) (x ++ s) = prefixb y s.
Proof. induction x as [|c x IH]; intros y s; simpl; [reflexivity|]. now rewrite N.eqb_refl. Qed.

Lemma prefixb_length : forall x s, prefixb x s = true -> length x <= length s.
Proof. intros x s H. apply prefixb_spec in H as [r ->]. rewrite app_length. lia. Qed.

(** Occurrences. *)
Lemma contains_spec : forall x s, contains x s = true <-> exists a b, s = a ++ x ++ b.
Proof.
  intros x. induction s as [|c s IH]; simpl.
  - destruct (prefixb x []) eqn:E.
    + split; [|reflexivity]. intros _. apply prefixb_spec in E as [r E]. exists [], r. exact E.
    + split; [easy|]. intros (a & b & E'). symmetry in E'. apply app_eq_nil in E' as [-> E'].
      apply app_eq_nil in E' as [-> ->]. discriminate.
  - destruct (prefixb x (c :: s)) eqn:E.
    + split; [|reflexivity]. intros _. apply prefixb_spec in E as [r E]. exists [], r. exact E.
    + rewrite IH. split.
      * intros (a & b & ->). now exists (c :: a), b.
      * intros (a & b & H). destruct a as [|d a].
        -- simpl in H. assert (prefixb x (c :: s) = true) by (apply prefixb_spec; now exists b). congruence.
        -- injection H as -> ->. now exists a, b.
Qed.

Lemma contains_nil : forall s, contains [] s = true.
Proof. intros s. apply contains_spec. now exists [], s. Qed.

Lemma contains_app_l : forall x s t, contains x s = true -> contains x (s ++ t) = true.
Proof.
  intros x s t H. apply contains_spec in H as (a & b & ->). apply contains_spec.
  exists a, (b ++ t). now rewrite <- !app_assoc.
Qed.

Lemma contains_app_r : forall x s t, contains x t = true -> contains x (s ++ t) = true.
Proof.
  intros x s t H. apply contains_spec in H as (a & b & ->). apply contains_spec.
  exists (s ++ a), b. now rewrite <- !app_assoc.
Qed.

(** A string with a character that does not occur in [s] does not occur in [s]. *)
Lemma contains_char : forall x s c, In c x -> ~ In c s -> contains x s = false.
Proof.
  intros x s c Hx Hs. destruct (contains x s) eqn:E; [|reflexivity].
  apply contains_spec in E as (a & b & ->). exfalso. apply Hs.
  apply in_or_app. right. apply in_or_app. now left.
Qed.

(** Replacement. *)
Lemma replace_go_none : forall x y s, contains x s = false -> x <> [] -> replace_go x y 0 s = s.
Proof.
  intros x y s. induction s as [|c s IH]; intros H Hx; [reflexivity|].
  cbn [contains] in H. cbn [replace_go].
  destruct (prefixb x (c :: s)) eqn:E; [discriminate|]. now rewrite IH.
Qed.

Lemma replace_none : forall x y s, contains x s = false -> replace x y s = s.
Proof.
  intros x y s H. destruct x as [|a x].
  - now rewrite contains_nil in H.
  - simpl. apply replace_go_none; [assumption|discriminate].
Qed.

(** No occurrence of [x] starts inside [u] and ends inside [v]. *)
Definition no_straddle (x u v : str) : Prop :=
  forall u1 u2, u = u1 ++ u2 -> u2 <> [] -> prefixb x u2 = false -> prefixb x (u2 ++ v) = false.

Lemma replace_go_app : forall x y v u n, x <> [] -> no_straddle x u v -> n <= length u ->
  replace_go x y n (u ++ v) = replace_go x y n u ++ replace_go x y 0 v.
Proof.
  intros x y v u. induction u as [|c u IH]; intros n Hx Hs Hn.
  - simpl in Hn. assert (n = 0) as -> by lia. reflexivity.
  - assert (Hs' : no_straddle x u v).
    { intros u1 u2 E. apply (Hs (c :: u1) u2). simpl. now rewrite E. }
    destruct n as [|n].
    + change ((c :: u) ++ v) with (c :: (u ++ v)). cbn [replace_go].
      destruct (prefixb x (c :: u)) eqn:E.
      * change (c :: u ++ v) with ((c :: u) ++ v). rewrite (prefixb_app x (c :: u) v E).
        apply prefixb_length in E. simpl in E. rewrite <- app_assoc. f_equal.
        apply IH; [assumption|assumption|lia].
      * change (c :: u ++ v) with ((c :: u) ++ v). rewrite (Hs [] (c :: u) eq_refl); [|discriminate|assumption].
        rewrite IH; [reflexivity|assumption|assumption|lia].
    + change ((c :: u) ++ v) with (c :: (u ++ v)). cbn [replace_go].
      apply IH; [assumption|assumption|simpl in Hn; lia].
Qed.

Lemma replace_app : forall x y u v, x <> [] -> no_straddle x u v ->
  replace x y (u ++ v) = replace x y u ++ replace x y v.
Proof.
  intros x y u v Hx Hs. destruct x as [|a x]; [easy|].
  unfold replace. apply replace_go_app; [assumption|assumption|lia].
Qed.

Lemma contains_app_no_straddle : forall x u v, x <> [] -> no_straddle x u v ->
  contains x (u ++ v) = contains x u || contains x v.
Proof.
  intros x u v Hx. induction u as [|c u IH]; intros Hs.
  - simpl. destruct x as [|a x]; [easy|reflexivity].
  - assert (Hs' : no_straddle x u v).
    { intros u1 u2 E. apply (Hs (c :: u1) u2). simpl. now rewrite E. }
    change ((c :: u) ++ v) with (c :: (u ++ v)). cbn [contains].
    destruct (prefixb x (c :: u)) eqn:E.
    + change (c :: u ++ v) with ((c :: u) ++ v). now rewrite (prefixb_app _ _ _ E).
    + change (c :: u ++ v) with ((c :: u) ++ v).
      rewrite (Hs [] (c :: u) eq_refl); [|discriminate|assumption]. now apply IH.
Qed.

(** Replacing one character by a string is a homomorphism. *)
Lemma replace_char : forall c y s,
  replace [c] y s = flat_map (fun d => if N.eqb c d then y else [d]) s.
Proof.
  intros c y. unfold replace. induction s as [|d s IH]; [reflexivity|].
  cbn [replace_go prefixb flat_map]. destruct (N.eqb c d).
  - cbn [length pred]. now rewrite IH.
  - simpl. now rewrite IH.
Qed.

Lemma replace_go_chars : forall x y s n c, In c (replace_go x y n s) -> In c s \/ In c y.
Proof.
  intros x y. induction s as [|d s IH]; intros n c H; [now left|].
  cbn [replace_go] in H. destruct n as [|n].
  - destruct (prefixb x (d :: s)).
    + apply in_app_or in H as [H|H]; [now right|]. apply IH in H as [H|H]; [left; now right|now right].
    + destruct H as [->|H]; [left; now left|]. apply IH in H as [H|H]; [left; now right|now right].
  - apply IH in H as [H|H]; [left; now right|now right].
Qed.

Lemma interleave_chars : forall y s c, In c (interleave y s) -> In c s \/ In c y.
Proof.
  intros y. induction s as [|d s IH]; intros c H; simpl in H; [now right|].
  apply in_app_or in H as [H|[->|H]]; [now right|left; now left|].
  apply IH in H as [H|H]; [left; now right|now right].
Qed.

Lemma replace_chars : forall x y s c, In c (replace x y s) -> In c s \/ In c y.
Proof.
  intros x y s c. destruct x as [|a x]; simpl.
  - apply interleave_chars.
  - apply replace_go_chars.
Qed.

(** [split] and [join]. *)
Lemma split_go_none : forall sep s cur, contains sep s = false -> sep <> [] ->
  split_go sep 0 cur s = [rev cur ++ s].
Proof.
  intros sep. induction s as [|c s IH]; intros cur H Hs.
  - simpl. now rewrite app_nil_r.
  - cbn [contains] in H. cbn [split_go]. destruct (prefixb sep (c :: s)) eqn:E; [discriminate|].
    rewrite IH by assumption. simpl. now rewrite <- app_assoc.
Qed.

Lemma split_none : forall sep s, contains sep s = false -> sep <> [] -> split sep s = [s].
Proof. intros sep s H Hs. unfold split. now rewrite split_go_none. Qed.
