(** * Replacing behind a fixed character.

    [s.replace(c + x, c + y)] is a substitution of [x] with a look-behind for [c],
    when [c] does not occur in [x].  Proof machinery; no code of /repo is
    modelled here. *)
From Coq Require Import List NArith ZArith Bool Lia Arith.
From Verif Require Import PyStr Regex StrFacts.
Import ListNotations.
Local Open Scope nat_scope.

Definition lits (x : str) : re := fold_right (fun d r => RSeq (RChar d) r) REps x.
Definition behind (c : N) (x : str) : re := RSeq (RLook false false 1 (RChar c)) (lits x).

Lemma m_lits : forall x b s cs k, m (lits x) (St b s cs) k =
  if prefixb x s then k (St (rev x ++ b) (skipn (length x) s) cs) else None.
Proof.
  induction x as [|d x IH]; intros b s cs k; [reflexivity|].
  cbn [lits fold_right m]. fold (lits x). unfold step1. cbn [aft bef caps].
  destruct s as [|e s]; [reflexivity|]. cbn [prefixb]. destruct (N.eqb d e) eqn:E; [|reflexivity].
  apply N.eqb_eq in E. subst e. rewrite IH. simpl andb. destruct (prefixb x s); [|reflexivity].
  cbn [rev length skipn]. now rewrite <- app_assoc.
Qed.

Lemma m_behind : forall c x b s, attempt (behind c x) false (St b s []) =
  match b with
  | d :: _ => if N.eqb c d then
                if prefixb x s then Some (St (rev x ++ b) (skipn (length x) s) []) else None
              else None
  | [] => None
  end.
Proof.
  intros c x b s. unfold attempt, behind. cbn [m back bef aft caps andb].
  destruct b as [|d b]; [reflexivity|]. cbn [back bef aft caps]. unfold step1. cbn [bef aft caps].
  destruct (N.eqb c d); [|reflexivity]. rewrite Nat.eqb_refl. apply m_lits.
Qed.

Lemma sub_go_skip : forall r f n s b, n <= length s ->
  sub_go r f b n s = sub_go r f (rev (firstn n s) ++ b) 0 (skipn n s).
Proof.
  intros r f. induction n as [|n IH]; intros s b H; [reflexivity|].
  destruct s as [|c s]; [simpl in H; lia|].
  transitivity (sub_go r f (c :: b) n s); [reflexivity|]. rewrite IH by (simpl in H; lia).
  simpl. now rewrite <- app_assoc.
Qed.

Lemma replace_go_skip : forall x y n s, replace_go x y n s = replace_go x y 0 (skipn n s).
Proof.
  intros x y. induction n as [|n IH]; intros s; [reflexivity|]. destruct s as [|c s]; [reflexivity|]. apply IH.
Qed.

Lemma expand_lits : forall y l, expand (map TLit y) l = y.
Proof. intros y l. unfold expand. induction y as [|c y IH]; [reflexivity|]. simpl. now rewrite IH. Qed.

Definition head_is (c : N) (b : str) : bool := match b with d :: _ => N.eqb c d | [] => false end.

Lemma sub_behind_go : forall c x y, x <> [] -> ~ In c x -> forall n s b, length s <= n ->
  sub_go (behind c x) (expand (map TLit y)) b 0 s =
  if head_is c b then
    if prefixb x s then y ++ replace_go (c :: x) (c :: y) 0 (skipn (length x) s)
    else replace_go (c :: x) (c :: y) 0 s
  else replace_go (c :: x) (c :: y) 0 s.
Proof.
  intros c x y Hx Hc. induction n as [|n IH]; intros s b Hn.
  - destruct s; [|simpl in Hn; lia]. cbn [sub_go]. rewrite m_behind. unfold head_is.
    destruct b as [|d b]; [reflexivity|]. destruct (N.eqb c d); [|reflexivity].
    destruct x; [congruence|reflexivity].
  - destruct s as [|d s].
    { cbn [sub_go]. rewrite m_behind. unfold head_is. destruct b as [|e b]; [reflexivity|].
      destruct (N.eqb c e); [|reflexivity]. destruct x; [congruence|reflexivity]. }
    assert (Hs : length s <= n) by (simpl in Hn; lia).
    assert (Step : d :: sub_go (behind c x) (expand (map TLit y)) (d :: b) 0 s
                   = replace_go (c :: x) (c :: y) 0 (d :: s)).
    { rewrite (IH s (d :: b) Hs). cbn [head_is replace_go prefixb].
      destruct (N.eqb_spec c d) as [->|Hcd]; [|reflexivity].
      destruct (prefixb x s) eqn:Ep; [|reflexivity].
      cbn [length pred]. now rewrite (replace_go_skip _ _ (length x) s). }
    destruct (head_is c b) eqn:Eh.
    + destruct b as [|e b]; [discriminate|]. cbn [head_is] in Eh.
      destruct (prefixb x (d :: s)) eqn:Ep.
      * cbn [sub_go]. rewrite m_behind, Eh, Ep. unfold consumed. cbn [aft].
        pose proof Ep as Ep'. apply prefixb_spec in Ep' as [t Et].
        assert (Hl : length (d :: s) = length x + length t) by (rewrite Et; now rewrite app_length).
        assert (Hsk : skipn (length x) (d :: s) = t)
          by (rewrite Et, skipn_app, skipn_all, Nat.sub_diag; reflexivity).
        rewrite Hsk. rewrite firstn_length.
        replace (Nat.min (length (d :: s) - length t) (length (d :: s))) with (length x) by lia.
        rewrite expand_lits. destruct x as [|x0 x1]; [congruence|]. cbn [length]. f_equal.
        assert (Hlt : length x1 <= length s) by (simpl in Hl; lia).
        rewrite sub_go_skip by assumption.
        assert (Es : d :: s = x0 :: x1 ++ t) by exact Et. injection Es as -> ->.
        rewrite skipn_app, skipn_all, Nat.sub_diag, firstn_app, firstn_all, Nat.sub_diag. cbn [skipn firstn app].
        rewrite app_nil_r. rewrite IH by (simpl in Hl, Hs; rewrite app_length in Hs; lia).
        assert (Hh : head_is c (rev x1 ++ x0 :: e :: b) = false); [|now rewrite Hh].
        destruct (rev x1) as [|z w] eqn:Er; cbn [app head_is]; apply N.eqb_neq; intros ->; apply Hc; [now left|].
        right. apply in_rev. rewrite Er. now left.
      * cbn [sub_go]. rewrite m_behind, Eh, Ep. exact Step.
    + cbn [sub_go]. rewrite m_behind. unfold head_is in Eh. destruct b as [|e b]; [exact Step|].
      rewrite Eh. exact Step.
Qed.

Lemma replace_behind : forall c x y s, x <> [] -> ~ In c x ->
  replace (c :: x) (c :: y) s = sub (behind c x) (map TLit y) s.
Proof.
  intros c x y s Hx Hc. unfold sub, sub_with.
  rewrite (sub_behind_go c x y Hx Hc (length s) s [] (le_n _)). reflexivity.
Qed.
