(** * Literal text every match of a pattern contains.

    Proof machinery; no code of /repo is modelled here. *)
From Coq Require Import List NArith ZArith Bool Lia Arith.
From Verif Require Import PyStr Regex StrFacts AbsRegex.
Import ListNotations.
Local Open Scope nat_scope.

(** What is known of the matched text: all of it, or how it begins, texts it
    contains, and how it ends. *)
Inductive lits := Exact (s : str) | Parts (p : str) (i : list str) (q : str).

Definition den (l : lits) (w : str) : Prop :=
  match l with
  | Exact s => w = s
  | Parts p i q => (exists u, w = p ++ u) /\ (exists u, w = u ++ q) /\ forall x, In x i -> contains x w = true
  end.

Definition lit_seq (a b : lits) : lits :=
  match a, b with
  | Exact s, Exact t => Exact (s ++ t)
  | Exact s, Parts p i q => Parts (s ++ p) i q
  | Parts p i q, Exact t => Parts p i (q ++ t)
  | Parts p i q, Parts p' i' q' => Parts p (i ++ [q ++ p'] ++ i') q'
  end.

Definition no_lits : lits := Parts [] [] [].

Fixpoint lits_of (r : re) : lits :=
  match r with
  | REps | RLook _ _ _ _ | RBeg | REndStr | REndLine | RWordB _ => Exact []
  | RChar c => Exact [c]
  | RSeq a b => lit_seq (lits_of a) (lits_of b)
  | RGroup _ a => lits_of a
  | RAny | RSet _ _ | RAlt _ _ | RBack _ | RRep _ _ _ _ => no_lits
  end.

(** The texts contained in every match. *)
Definition factors (r : re) : list str :=
  match lits_of r with Exact s => [s] | Parts p i q => p :: q :: i end.

Lemma den_no : forall w, den no_lits w.
Proof. intros w. repeat split; [now exists w|exists w; now rewrite app_nil_r|easy]. Qed.

Lemma den_seq : forall a b u v, den a u -> den b v -> den (lit_seq a b) (u ++ v).
Proof.
  intros [s|p i q] [t|p' i' q'] u v; simpl.
  - now intros -> ->.
  - intros -> ((x & ->) & (y & E) & H). repeat split.
    + exists x. now rewrite app_assoc.
    + exists (s ++ y). now rewrite E, app_assoc.
    + intros z Hz. apply contains_app_r. now apply H.
  - intros ((x & E) & (y & ->) & H) ->. repeat split.
    + exists (x ++ t). now rewrite E, app_assoc.
    + exists y. now rewrite app_assoc.
    + intros z Hz. apply contains_app_l. now apply H.
  - intros ((x & Ex) & (y & Ey) & H) ((x' & Ex') & (y' & Ey') & H'). repeat split.
    + exists (x ++ v). now rewrite Ex, app_assoc.
    + exists (u ++ y'). now rewrite Ey', app_assoc.
    + intros z Hz. rewrite in_app_iff in Hz. destruct Hz as [Hz|[<-|Hz]].
      * apply contains_app_l. now apply H.
      * apply contains_spec. exists y, x'. now rewrite Ey, Ex', <- !app_assoc.
      * apply contains_app_r. now apply H'.
Qed.

Lemma den_factors : forall r w x, den (lits_of r) w -> In x (factors r) -> contains x w = true.
Proof.
  intros r w x. unfold factors. destruct (lits_of r) as [s|p i q]; simpl.
  - intros -> [->|[]]. apply contains_spec. exists [], []. now rewrite app_nil_r.
  - intros ((u & Eu) & (v & Ev) & H) [<-|[<-|Hx]]; [| |now apply H]; apply contains_spec.
    + exists [], u. exact Eu.
    + exists v, []. now rewrite app_nil_r.
Qed.

(** A match moves over a piece of the text in front of it. *)
Definition moves (l : lits) (s : st) (k : st -> option st) (v : st) : Prop :=
  exists w s', aft s = w ++ aft s' /\ k s' = Some v /\ den l w.

Lemma step1_moves : forall f l s k v, (forall c, f c = true -> den l [c]) ->
  step1 f s k = Some v -> moves l s k v.
Proof.
  intros f l s k v Hf H. unfold step1 in H. destruct (aft s) as [|c t] eqn:E; [discriminate|].
  destruct (f c) eqn:Ec; [|discriminate]. exists [c], (St (c :: bef s) t (caps s)).
  repeat split; auto.
Qed.

Lemma step_lit_moves : forall x s k v, step_lit x s k = Some v -> moves no_lits s k v.
Proof.
  induction x as [|c x IH]; intros s k v H; simpl in H.
  - exists [], s. repeat split; [assumption|now exists []|now exists []|easy].
  - unfold step1 in H. destruct (aft s) as [|d t] eqn:E; [discriminate|].
    destruct (N.eqb c d); [|discriminate]. apply IH in H as (w & s' & E' & H & _). simpl in E'.
    exists (d :: w), s'. repeat split; [now rewrite E, E'|assumption|now exists (d :: w)| |easy].
    exists (d :: w). now rewrite app_nil_r.
Qed.

Lemma stay : forall s k v, k s = Some v -> moves (Exact []) s k v.
Proof. intros s k v H. exists [], s. now repeat split. Qed.

Lemma moves_weak : forall l s k v, moves l s k v -> moves no_lits s k v.
Proof. intros l s k v (w & s' & E & H & _). exists w, s'. repeat split; auto; apply den_no. Qed.

Lemma m_moves : forall r s k v, m r s k = Some v -> moves (lits_of r) s k v.
Proof.
  induction r as [|c| |neg l|a IHa b IHb|a IHa b IHb|n a IHa|n|greedy lo hi a IHa|ahead neg w a IHa| | | |neg];
    intros s k v H.
  - now apply stay.
  - simpl in H. apply step1_moves with (2 := H). intros d E. apply N.eqb_eq in E. now subst.
  - simpl in H. apply step1_moves with (2 := H). intros; apply den_no.
  - simpl in H. apply step1_moves with (2 := H). intros; apply den_no.
  - simpl in H. apply IHa in H as (w & s' & E & H & D). apply IHb in H as (w' & s'' & E' & H & D').
    exists (w ++ w'), s''. repeat split; [now rewrite E, E', app_assoc|assumption|now apply den_seq].
  - simpl in H. destruct (m a s k) eqn:Ea.
    + injection H as ->. now apply moves_weak with (l := lits_of a), IHa.
    + now apply moves_weak with (l := lits_of b), IHb.
  - simpl in H. apply IHa in H as (w & s' & E & H & D).
    exists w. eexists. repeat split; [|exact H|exact D]. exact E.
  - simpl in H. destruct (cap n (caps s)) as [x|]; [|discriminate]. now apply step_lit_moves with (x := x).
  - rewrite m_rep in H. cbn [lits_of].
    assert (Opt : forall fuel left s v, copt (m a) greedy k fuel left s = Some v -> moves no_lits s k v).
    { clear H. induction fuel as [|fuel IHf]; intros left s0 v0 H0.
      - apply moves_weak with (l := Exact []). now apply stay.
      - cbn [copt] in H0. cbv zeta in H0.
        assert (It : forall x, (if match left with Some O => false | _ => true end then
                m a s0 (fun s' =>
                  if Nat.eqb (length (aft s')) (length (aft s0)) then None
                  else copt (m a) greedy k fuel (option_map pred left) s')
              else None) = Some x -> moves no_lits s0 k x).
        { intros x Hx. destruct (match left with Some O => false | _ => true end); [|discriminate].
          apply IHa in Hx as (w & s' & E & Hx & _).
          destruct (Nat.eqb _ _); [discriminate|]. apply IHf in Hx as (w' & s'' & E' & Hx & _).
          exists (w ++ w'), s''. repeat split; [now rewrite E, E', app_assoc|assumption| | |easy];
            eexists; [reflexivity|now rewrite app_nil_r]. }
        destruct greedy.
        + match type of H0 with match ?x with _ => _ end = _ => destruct x eqn:Ei end.
          * injection H0 as ->. now apply It.
          * apply moves_weak with (l := Exact []). now apply stay.
        + destruct (k s0) eqn:Ek.
          * injection H0 as ->. apply moves_weak with (l := Exact []). now apply stay.
          * now apply It. }
    revert s v H. generalize (option_map (fun h => (h - lo)%nat) hi) as left. intros left.
    induction lo as [|n IHn]; intros s v H; cbn [cmand] in H.
    + now apply Opt in H.
    + apply IHa in H as (w & s' & E & H & _). apply IHn in H as (w' & s'' & E' & H & _).
      exists (w ++ w'), s''. repeat split; [now rewrite E, E', app_assoc|assumption| | |easy];
        eexists; [reflexivity|now rewrite app_nil_r].
  - simpl in H. cbn [lits_of]. destruct ahead.
    + destruct (m a s _) as [s'|]; destruct neg; try discriminate; [|now apply stay].
      exists [], (St (bef s) (aft s) (caps s')). now repeat split.
    + destruct (back w s) as [sb|]; [|destruct neg; [now apply stay|discriminate]].
      destruct (m a sb _) as [s'|]; destruct neg; try discriminate; [|now apply stay].
      exists [], (St (bef s) (aft s) (caps s')). now repeat split.
  - simpl in H. destruct (bef s); [now apply stay|discriminate].
  - simpl in H. destruct (aft s); [now apply stay|discriminate].
  - apply stay. simpl in H. destruct (aft s) as [|c [|d t]]; [assumption| |].
    + destruct c as [|p]; [discriminate|]. repeat (destruct p as [p|p|]; try discriminate; try assumption).
    + destruct c as [|p]; [discriminate|]. repeat (destruct p as [p|p|]; try discriminate; try assumption).
  - simpl in H. destruct (xorb neg (wordb s)); [now apply stay|discriminate].
Qed.

(** A pattern with a factor that does not occur changes nothing. *)
Lemma sub_factor : forall r f x, In x (factors r) -> forall s b, contains x s = false ->
  sub_go r f b 0 s = s.
Proof.
  intros r f x Hx.
  assert (A : forall s b, contains x s = false -> forall must, attempt r must (St b s []) = None).
  { intros s b Hc must. destruct (attempt r must (St b s [])) eqn:E; [|reflexivity]. exfalso.
    unfold attempt in E. apply m_moves in E as (w & s' & E & _ & D). simpl in E.
    apply (den_factors r w x) in D; [|assumption]. rewrite E, contains_app_l in Hc; [discriminate|assumption]. }
  induction s as [|c s IH]; intros b Hc; cbn [sub_go]; rewrite A by assumption; [reflexivity|].
  f_equal. apply IH. destruct (contains x s) eqn:E; [|reflexivity].
  rewrite <- Hc. symmetry. change (c :: s) with ([c] ++ s). now apply contains_app_r.
Qed.
