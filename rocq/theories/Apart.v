(** * Programs that treat the two sides of a separating character apart.

    [parted w p]: the program [p] works on [a ++ w :: b] as on [a] and on [b], and keeps [w] in between.
    [parts al p] checks this for all characters [w] watched by the guard [al]: no pattern can match [w], and
    none asks for the beginning or the end of the text.  Proof machinery; no code of /repo is modelled here. *)
From Coq Require Import List NArith ZArith Bool Lia Arith.
From Verif Require Import PyStr StrFacts UnicodeTables Regex Unicode Prog AbsRegex NormCut Keeps.
Import ListNotations.
Local Open Scope N_scope.

Definition parted (w : N) (p : prog) : Prop :=
  forall a b x y, run p a = Ok x -> run p b = Ok y -> run p (a ++ w :: b) = Ok (x ++ w :: y).

Section Guarded.
Variable al : guard.
Local Notation hush := (hush al).
Local Notation hushed := (hushed al).

(** ** The check *)
Fixpoint tight (r : re) : bool :=
  match r with
  | REps | RBack _ => true
  | RBeg | REndStr | REndLine | RWordB _ => false
  | RChar c => hush c
  | RAny => g_any al
  | RSet neg l => g_set al neg l
  | RSeq a b | RAlt a b => tight a && tight b
  | RGroup _ a | RRep _ _ _ a | RLook _ _ _ a => tight a
  end.
(** Programs that cannot fail. *)
Definition fits_re (p t : str) : bool :=
  match compile p with
  | Some (_, g) => match parse_template (S (length t)) g t with Some _ => true | None => false end
  | None => false
  end.
Fixpoint sure_op (o : op) {struct o} : bool :=
  let fix go (p : list op) {struct p} : bool := match p with [] => true | o' :: p' => if sure_op o' then go p' else false end in
  match o with
  | ReSub p t => fits_re p t
  | IfIn _ p q => if go p then go q else false
  | Try _ p => go p
  | Replace _ _ | Append _ | Prepend _ | Lower | Norm _ | Sub _ _ | Map _ => true
  | EvenParts _ _ | Fn _ | Raise _ => false
  end.
Fixpoint sure (p : prog) {struct p} : bool := match p with [] => true | o' :: p' => if sure_op o' then sure p' else false end.
Definition tight_sub (p : str) : bool := match compile p with None => true | Some (r, _) => tight r end.
Fixpoint parts_op (o : op) {struct o} : bool :=
  let fix go (p : list op) {struct p} : bool := match p with [] => true | o' :: p' => if parts_op o' then go p' else false end in
  match o with
  | Replace x y => negb (str_eqb x []) && hushed x
  | ReSub p t => tight_sub p
  | Sub r t => tight r
  | Lower | Norm _ | Raise _ => true
  | Try h p => match p with [Raise _] => true | _ => if sure p then go p else false end
  | IfIn _ _ _ | Append _ | Prepend _ | EvenParts _ _ | Map _ | Fn _ => false
  end.
Fixpoint parts (p : prog) {struct p} : bool := match p with [] => true | o' :: p' => if parts_op o' then parts p' else false end.
Hypothesis Hal : sound al.

(** ** Matching stays on its side *)
Definition capsok (l : list (nat * str)) : Prop := forall n x, cap n l = Some x -> hushed x = true.
Lemma capsok_nil : capsok [].
Proof. intros n x H. discriminate. Qed.
Lemma capsok_cons : forall n x l, hushed x = true -> capsok l -> capsok ((n, x) :: l).
Proof. intros n x l Hx Hl k y. cbn [cap]. destruct (Nat.eqb n k); [congruence|apply Hl]. Qed.
Lemma hushed_app2 : forall x y, hushed (x ++ y) = hushed x && hushed y.
Proof. intros. apply forallb_app. Qed.

(** [s'] is reached from [s] over watched-free text. *)
Definition reach (s s' : st) : Prop :=
  exists u, aft s = u ++ aft s' /\ bef s' = rev u ++ bef s /\ hushed u = true /\ capsok (caps s').
Lemma reach_refl : forall s, capsok (caps s) -> reach s s.
Proof. intros s H. exists []. repeat split; assumption. Qed.
Lemma reach_trans : forall a b c, reach a b -> reach b c -> reach a c.
Proof.
  intros a b c (u & A & B & C & D) (v & A' & B' & C' & D'). exists (u ++ v). split; [now rewrite A, A', app_assoc|].
  split; [now rewrite B', B, rev_app_distr, app_assoc|]. split; [now rewrite hushed_app2, C, C'|exact D'].
Qed.
Lemma reach_caps : forall s s', reach s s' -> capsok (caps s').
Proof. intros s s' (u & _ & _ & _ & H). exact H. Qed.
Lemma reach_len : forall s s', reach s s' -> (length (aft s') <= length (aft s))%nat.
Proof. intros s s' (u & H & _). rewrite H, app_length. lia. Qed.
Lemma reach_consumed : forall s s', reach s s' -> hushed (consumed s s') = true.
Proof.
  intros s s' (u & H & _ & C & _). unfold consumed. rewrite H, app_length.
  replace (length u + length (aft s') - length (aft s'))%nat with (length u) by lia.
  now rewrite firstn_app, Nat.sub_diag, firstn_O, app_nil_r, firstn_all.
Qed.
Lemma reach_step : forall s c t, aft s = c :: t -> hush c = true -> capsok (caps s) -> reach s (St (c :: bef s) t (caps s)).
Proof. intros s c t E H K. exists [c]. cbn [aft bef caps rev app hushed forallb]. rewrite E, H. repeat split; assumption. Qed.
Lemma reach_new_caps : forall s s' l, reach s s' -> capsok l -> reach s (St (bef s') (aft s') l).
Proof. intros s s' l (u & A & B & C & D) H. exists u. repeat split; assumption. Qed.

Lemma any_hush : g_any al = true -> forall c, negb (c =? 10) = true -> hush c = true.
Proof. intros H c N. apply (proj2 Hal H). apply negb_true_iff in N. now apply N.eqb_neq in N. Qed.
Lemma set_hush : forall neg l c, g_set al neg l = true -> in_set neg l c = true -> hush c = true.
Proof. exact (proj1 Hal). Qed.

(** *** Two runs side by side: [k] on the text of one side, [k'] on the whole text *)
Section Sides.
Variables B F : str.
Hypothesis HB : match B with [] => True | c :: _ => hush c = false end.
Hypothesis HF : match F with [] => True | c :: _ => hush c = false end.
Definition wide (s : st) : st := St (bef s ++ B) (aft s ++ F) (caps s).
Definition linked (s : st) (k k' : st -> option st) : Prop :=
  forall s', reach s s' -> k' (wide s') = option_map wide (k s').
Lemma linked_reach : forall s s' k k', reach s s' -> linked s k k' -> linked s' k k'.
Proof. intros s s' k k' R H t Ht. apply H. exact (reach_trans _ _ _ R Ht). Qed.

Lemma step1_ext : forall ok s k k', (forall c, ok c = true -> hush c = true) -> capsok (caps s) -> linked s k k' ->
  step1 ok (wide s) k' = option_map wide (step1 ok s k).
Proof.
  intros ok s k k' H K L. unfold step1. destruct s as [b a cs]. cbn [wide aft bef caps] in *. destruct a as [|c t]; cbn [app].
  - destruct F as [|c t]; [reflexivity|]. destruct (ok c) eqn:E; [|reflexivity]. rewrite (H c E) in HF. discriminate.
  - destruct (ok c) eqn:E; [|reflexivity].
    refine (L (St (c :: b) t cs) _). exact (reach_step (St b (c :: t) cs) c t eq_refl (H c E) K).
Qed.
Lemma lit_ext : forall x s k k', hushed x = true -> capsok (caps s) -> linked s k k' ->
  step_lit x (wide s) k' = option_map wide (step_lit x s k).
Proof.
  induction x as [|c x IH]; intros s k k' H K L; cbn [step_lit].
  - apply L. now apply reach_refl.
  - cbn [Keeps.hushed forallb] in H. apply andb_true_iff in H as [H1 H2]. apply step1_ext; [|exact K|].
    + intros d E. apply N.eqb_eq in E. now subst d.
    + intros t Ht. apply IH; [exact H2|exact (reach_caps _ _ Ht)|exact (linked_reach _ _ _ _ Ht L)].
Qed.
Lemma consumed_ext : forall s s', consumed (wide s) (wide s') = consumed s s'.
Proof.
  intros s s'. unfold consumed. cbn [wide aft]. rewrite !app_length.
  replace (length (aft s) + length F - (length (aft s') + length F))%nat with (length (aft s) - length (aft s'))%nat by lia.
  rewrite firstn_app. replace (length (aft s) - length (aft s') - length (aft s))%nat with 0%nat by lia.
  now rewrite firstn_O, app_nil_r.
Qed.
Lemma len_ext : forall s s', Nat.eqb (length (aft (wide s))) (length (aft (wide s'))) = Nat.eqb (length (aft s)) (length (aft s')).
Proof.
  intros s s'. cbn [wide aft]. rewrite !app_length. destruct (Nat.eqb_spec (length (aft s)) (length (aft s'))) as [E|E].
  - rewrite E. apply Nat.eqb_refl.
  - apply Nat.eqb_neq. lia.
Qed.
End Sides.

(** *** What a match reaches *)
Lemma step1_reach : forall ok s k v, (forall c, ok c = true -> hush c = true) -> capsok (caps s) -> step1 ok s k = Some v ->
  exists s', reach s s' /\ k s' = Some v.
Proof.
  intros ok s k v H K E. unfold step1 in E. destruct (aft s) as [|c t] eqn:A; [discriminate|]. destruct (ok c) eqn:O; [|discriminate].
  eexists. split; [|exact E]. now apply reach_step; [|apply H|].
Qed.
Lemma lit_reach : forall x s k v, hushed x = true -> capsok (caps s) -> step_lit x s k = Some v -> exists s', reach s s' /\ k s' = Some v.
Proof.
  induction x as [|c x IH]; intros s k v H K E; cbn [step_lit] in E; [exists s; split; [now apply reach_refl|exact E]|].
  cbn [Keeps.hushed forallb] in H. apply andb_true_iff in H as [H1 H2].
  apply step1_reach in E as (s' & R & E); [|intros d D; apply N.eqb_eq in D; now subst d|exact K].
  apply IH in E as (s2 & R2 & E); [|exact H2|exact (reach_caps _ _ R)]. exists s2. split; [exact (reach_trans _ _ _ R R2)|exact E].
Qed.
Lemma m_reach : forall r, tight r = true -> forall s k v, capsok (caps s) -> m r s k = Some v -> exists s', reach s s' /\ k s' = Some v.
Proof.
  induction r as [|c| |neg l|a IHa b IHb|a IHa b IHb|n a IHa|n|greedy lo hi a IHa|ahead neg w a IHa| | | |neg];
    intros T s k v K H; cbn [tight] in T; try discriminate.
  - exists s. split; [now apply reach_refl|exact H].
  - apply step1_reach in H; [exact H| |exact K]. intros d D. apply N.eqb_eq in D. now subst d.
  - apply step1_reach in H; [exact H| |exact K]. now apply any_hush.
  - apply step1_reach in H; [exact H| |exact K]. intros d D. now apply (set_hush neg l).
  - apply andb_true_iff in T as [Ta Tb]. cbn [m] in H. apply (IHa Ta) in H as (s' & R & H); [|exact K].
    apply (IHb Tb) in H as (s2 & R2 & H); [|exact (reach_caps _ _ R)]. exists s2. split; [exact (reach_trans _ _ _ R R2)|exact H].
  - apply andb_true_iff in T as [Ta Tb]. cbn [m] in H. destruct (m a s k) eqn:Ea; [injection H as ->; exact (IHa Ta s k v K Ea)|exact (IHb Tb s k v K H)].
  - cbn [m] in H. apply (IHa T) in H as (s' & R & H); [|exact K]. eexists. split; [|exact H].
    apply reach_new_caps; [exact R|]. apply capsok_cons; [now apply reach_consumed|exact (reach_caps _ _ R)].
  - cbn [m] in H. destruct (cap n (caps s)) as [x|] eqn:E; [|discriminate]. exact (lit_reach x s k v (K n x E) K H).
  - rewrite m_rep in H.
    assert (Opt : forall fuel left s v, capsok (caps s) -> copt (m a) greedy k fuel left s = Some v -> exists s', reach s s' /\ k s' = Some v).
    { clear s v K H. induction fuel as [|fuel IHf]; intros left s v K H; [exists s; split; [now apply reach_refl|exact H]|].
      cbn [copt] in H. cbv zeta in H.
      assert (It : forall x, (if match left with Some O => false | _ => true end then
              m a s (fun s' =>
                if Nat.eqb (length (aft s')) (length (aft s)) then None
                else copt (m a) greedy k fuel (option_map pred left) s')
            else None) = Some x -> exists s', reach s s' /\ k s' = Some x).
      { intros x Hx. destruct (match left with Some O => false | _ => true end); [|discriminate].
        apply (IHa T) in Hx as (s' & R & Hx); [|exact K]. destruct (Nat.eqb _ _); [discriminate|].
        apply IHf in Hx as (s2 & R2 & Hx); [|exact (reach_caps _ _ R)]. exists s2. split; [exact (reach_trans _ _ _ R R2)|exact Hx]. }
      destruct greedy.
      - match type of H with match ?x with _ => _ end = _ => destruct x eqn:Ei end.
        + injection H as ->. now apply It.
        + exists s. split; [now apply reach_refl|exact H].
      - destruct (k s) eqn:Ek.
        + injection H as ->. exists s. split; [now apply reach_refl|exact Ek].
        + now apply It. }
    revert s v K H. generalize (option_map (fun h => (h - lo)%nat) hi) as left. intros left.
    induction lo as [|n IHn]; intros s v K H; cbn [cmand] in H; [exact (Opt _ _ s v K H)|].
    apply (IHa T) in H as (s' & R & H); [|exact K]. apply IHn in H as (s2 & R2 & H); [|exact (reach_caps _ _ R)].
    exists s2. split; [exact (reach_trans _ _ _ R R2)|exact H].
  - cbn [m] in H. destruct ahead.
    + destruct (m a s _) as [s'|] eqn:E; destruct neg; try discriminate; [|exists s; split; [now apply reach_refl|exact H]].
      apply (IHa T) in E as (s2 & R2 & E); [|exact K]. injection E as ->. eexists. split; [|exact H].
      exact (reach_new_caps s s (caps s') (reach_refl s K) (reach_caps _ _ R2)).
    + destruct (back w s) as [sb|] eqn:Eb; [|destruct neg; [exists s; split; [now apply reach_refl|exact H]|discriminate]].
      assert (Kb : capsok (caps sb)).
      { clear - Eb K. revert s sb Eb K. induction w as [|w IH]; intros s sb E K; cbn [back] in E; [injection E as <-; exact K|].
        destruct (bef s) as [|c b]; [discriminate|]. exact (IH _ _ E K). }
      destruct (m a sb _) as [s'|] eqn:E; destruct neg; try discriminate; [|exists s; split; [now apply reach_refl|exact H]].
      apply (IHa T) in E as (s2 & R2 & E); [|exact Kb]. destruct (Nat.eqb _ _); [|discriminate]. injection E as ->. eexists. split; [|exact H].
      exact (reach_new_caps s s (caps s') (reach_refl s K) (reach_caps _ _ R2)).
Qed.

(** *** A match sees its own side only *)
Section Sides2.
Variables B F : str.
Hypothesis HB : match B with [] => True | c :: _ => hush c = false end.
Hypothesis HF : match F with [] => True | c :: _ => hush c = false end.
Local Notation ext := (wide B F).
Local Notation linked := (linked B F).

Lemma back_ext : forall w s sb, back w s = Some sb -> back w (ext s) = Some (ext sb).
Proof.
  induction w as [|w IH]; intros s sb E; cbn [back] in *; [congruence|]. destruct s as [b a cs]. cbn [wide bef aft caps] in *.
  destruct b as [|c b]; [discriminate|]. cbn [app]. exact (IH (St b (c :: a) cs) sb E).
Qed.
(** Going back over the watched character. *)
Lemma back_over : forall w s sb, back w s = None -> back w (ext s) = Some sb ->
  exists u c t, aft sb = u ++ c :: t ++ aft (ext s) /\ hush c = false.
Proof.
  induction w as [|w IH]; intros s sb N E; cbn [back] in N, E; [discriminate|]. destruct s as [b a cs]. cbn [wide bef aft caps] in *.
  destruct b as [|c b].
  - cbn [app] in E. destruct B as [|c B']; [discriminate|].
    assert (G : forall w s sb, back w s = Some sb -> exists u, aft sb = u ++ aft s).
    { clear. induction w as [|w IH]; intros s sb E; cbn [back] in E; [exists []; cbn [app]; congruence|].
      destruct (bef s) as [|c b]; [discriminate|]. apply IH in E as (u & E). cbn [aft] in E. exists (u ++ [c]). now rewrite <- app_assoc. }
    apply G in E as (u & E). cbn [aft] in E. exists u, c, []. split; [exact E|exact HB].
  - cbn [app] in E. destruct (IH (St b (c :: a) cs) sb N E) as (u & d & t & A & H). exists u, d, (t ++ [c]).
    cbn [aft] in A. rewrite <- app_assoc. split; [exact A|exact H].
Qed.
Lemma not_over : forall s s' u c t z, aft s = u ++ c :: t ++ z -> hush c = false -> reach s s' -> length (aft s') <> length z.
Proof.
  intros s s' u c t z A H (v & E & _ & Q & _) L. rewrite A in E.
  assert (I : In c v).
  { assert (J : length (u ++ c :: t) = length v).
    { apply (f_equal (@length N)) in E. rewrite !app_length in E. rewrite app_length. cbn [length] in *. rewrite app_length in E. lia. }
    replace (u ++ c :: t ++ z) with ((u ++ c :: t) ++ z) in E by now rewrite <- app_assoc.
    assert (v = u ++ c :: t) as ->.
    { transitivity (firstn (length v) (v ++ aft s')); [now rewrite firstn_app, Nat.sub_diag, firstn_O, app_nil_r, firstn_all|].
      rewrite <- E, <- J. now rewrite firstn_app, Nat.sub_diag, firstn_O, app_nil_r, firstn_all. }
    apply in_or_app. right. now left. }
  unfold Keeps.hushed in Q. rewrite forallb_forall in Q. specialize (Q c I). congruence.
Qed.

Theorem m_sides : forall r, tight r = true -> forall s k k', capsok (caps s) -> linked s k k' ->
  m r (ext s) k' = option_map ext (m r s k).
Proof.
  induction r as [|c| |neg l|a IHa b IHb|a IHa b IHb|n a IHa|n|greedy lo hi a IHa|ahead neg w a IHa| | | |neg];
    intros T s k k' K L; cbn [tight] in T; try discriminate.
  - cbn [m]. apply L. now apply reach_refl.
  - apply (step1_ext B F HF); [|exact K|exact L]. intros d D. apply N.eqb_eq in D. now subst d.
  - apply (step1_ext B F HF); [|exact K|exact L]. now apply any_hush.
  - apply (step1_ext B F HF); [|exact K|exact L]. intros d D. now apply (set_hush neg l).
  - apply andb_true_iff in T as [Ta Tb]. cbn [m]. apply (IHa Ta); [exact K|]. intros s' R. apply (IHb Tb); [exact (reach_caps _ _ R)|].
    exact (linked_reach B F _ _ _ _ R L).
  - apply andb_true_iff in T as [Ta Tb]. cbn [m]. rewrite (IHa Ta s k k' K L). destruct (m a s k); cbn [option_map]; [reflexivity|]. exact (IHb Tb s k k' K L).
  - cbn [m]. apply (IHa T); [exact K|]. intros s' R. rewrite (consumed_ext B F). cbn [wide bef aft caps].
    refine (L (St (bef s') (aft s') ((n, consumed s s') :: caps s')) _).
    apply reach_new_caps; [exact R|]. apply capsok_cons; [now apply reach_consumed|exact (reach_caps _ _ R)].
  - cbn [m]. cbn [wide caps]. destruct (cap n (caps s)) as [x|] eqn:E; [|reflexivity]. exact (lit_ext B F HF x s k k' (K n x E) K L).
  - rewrite !m_rep.
    assert (Opt : forall f1 f2 left t, reach s t -> (length (aft t) < f1)%nat -> (length (aft t) < f2)%nat ->
      copt (m a) greedy k' f2 left (ext t) = option_map ext (copt (m a) greedy k f1 left t)).
    { induction f1 as [|f1 IHf]; intros f2 left t R H1 H2; [lia|]. destruct f2 as [|f2]; [lia|]. cbn [copt]. cbv zeta.
      pose proof (reach_caps _ _ R) as Kt.
      assert (It : (if match left with Some O => false | _ => true end then
              m a (ext t) (fun s' => if Nat.eqb (length (aft s')) (length (aft (ext t))) then None
                else copt (m a) greedy k' f2 (option_map pred left) s') else None)
        = option_map ext (if match left with Some O => false | _ => true end then
              m a t (fun s' => if Nat.eqb (length (aft s')) (length (aft t)) then None
                else copt (m a) greedy k f1 (option_map pred left) s') else None)).
      { destruct (match left with Some O => false | _ => true end); [|reflexivity]. apply (IHa T); [exact Kt|]. intros s' R'.
        rewrite (len_ext B F). destruct (Nat.eqb_spec (length (aft s')) (length (aft t))) as [|D]; [reflexivity|].
        pose proof (reach_len _ _ R'). apply IHf; [exact (reach_trans _ _ _ R R')|lia|lia]. }
      rewrite It. rewrite (L t R). destruct greedy.
      - match goal with |- match option_map ext ?x with _ => _ end = _ => destruct x end; reflexivity.
      - destruct (k t); reflexivity. }
    generalize (option_map (fun h => (h - lo)%nat) hi) as left. intros left.
    assert (Mand : forall n t, reach s t -> cmand (m a) (copt (m a) greedy k') left n (ext t) = option_map ext (cmand (m a) (copt (m a) greedy k) left n t)).
    { induction n as [|n IHn]; intros t R; cbn [cmand].
      - apply Opt; [exact R|lia|]. cbn [wide aft]. rewrite app_length. lia.
      - apply (IHa T); [exact (reach_caps _ _ R)|]. intros s' R'. apply IHn. exact (reach_trans _ _ _ R R'). }
    apply Mand. now apply reach_refl.
  - cbn [m]. destruct ahead.
    + rewrite (IHa T s (fun s' => Some s') (fun s' => Some s') K) by (intros s' _; reflexivity).
      destruct (m a s (fun s' => Some s')) as [s'|] eqn:E; cbn [option_map].
      * destruct neg; [reflexivity|]. apply (m_reach a T) in E as (s2 & R & E); [|exact K]. injection E as ->.
        refine (L (St (bef s) (aft s) (caps s')) _). exact (reach_new_caps s s (caps s') (reach_refl s K) (reach_caps _ _ R)).
      * destruct neg; [|reflexivity]. apply L. now apply reach_refl.
    + destruct (back w s) as [sb|] eqn:Eb.
      * rewrite (back_ext w s sb Eb).
        assert (Kb : capsok (caps sb)).
        { clear - Eb K. revert s sb Eb K. induction w as [|w IH]; intros s sb E K; cbn [back] in E; [injection E as <-; exact K|].
          destruct (bef s) as [|c b]; [discriminate|]. exact (IH _ _ E K). }
        rewrite (IHa T sb (fun s' => if Nat.eqb (length (aft s')) (length (aft s)) then Some s' else None)
          (fun s' => if Nat.eqb (length (aft s')) (length (aft (ext s))) then Some s' else None) Kb).
        2:{ intros s' _. rewrite (len_ext B F). now destruct (Nat.eqb _ _). }
        destruct (m a sb _) as [s'|] eqn:E; cbn [option_map].
        -- destruct neg; [reflexivity|]. apply (m_reach a T) in E as (s2 & R & E); [|exact Kb].
           destruct (Nat.eqb _ _); [|discriminate]. injection E as ->.
           refine (L (St (bef s) (aft s) (caps s')) _). exact (reach_new_caps s s (caps s') (reach_refl s K) (reach_caps _ _ R)).
        -- destruct neg; [|reflexivity]. apply L. now apply reach_refl.
      * destruct (back w (ext s)) as [sb|] eqn:Eb2; [|destruct neg; [apply L; now apply reach_refl|reflexivity]].
        destruct (back_over w s sb Eb Eb2) as (u & c & t & A & Hc).
        assert (Kb : capsok (caps sb)).
        { assert (Ke : capsok (caps (ext s))) by exact K. clear - Eb2 Ke. revert Eb2 Ke. generalize (ext s). clear s. revert sb.
          induction w as [|w IH]; intros sb s E K; cbn [back] in E; [injection E as <-; exact K|].
          destruct (bef s) as [|c b]; [discriminate|]. exact (IH _ _ E K). }
        destruct (m a sb _) as [s'|] eqn:E.
        -- exfalso. apply (m_reach a T) in E as (s2 & R & E); [|exact Kb]. destruct (Nat.eqb_spec (length (aft s2)) (length (aft (ext s)))) as [Q|]; [|discriminate].
           exact (not_over sb s2 u c t _ A Hc R Q).
        -- destruct neg; [|reflexivity]. apply L. now apply reach_refl.
Qed.
Lemma attempt_sides : forall r, tight r = true -> forall must s, capsok (caps s) -> attempt r must (ext s) = option_map ext (attempt r must s).
Proof.
  intros r T must s K. unfold attempt. apply (m_sides r T); [exact K|]. intros s' _. rewrite (len_ext B F). now destruct (must && _).
Qed.
End Sides2.

(** ** Substitution *)
Section Subst.
Variable r : re.
Hypothesis T : tight r = true.
Variable f : list (nat * str) -> str.

Lemma final_ext : forall B F s s', final_caps (wide B F s) (wide B F s') = final_caps s s'.
Proof. intros. unfold final_caps. rewrite (consumed_ext B F). reflexivity. Qed.
Lemma sub_right : forall w e, hush w = false -> forall s b n, sub_go r f (b ++ w :: e) n s = sub_go r f b n s.
Proof.
  intros w e Hw. assert (E : forall b s, St (b ++ w :: e) s [] = wide (w :: e) [] (St b s [])) by (intros b s; unfold wide; cbn [bef aft caps]; now rewrite app_nil_r).
  assert (A : forall must b s, attempt r must (St (b ++ w :: e) s []) = option_map (wide (w :: e) []) (attempt r must (St b s []))).
  { intros must b s. rewrite E. apply attempt_sides; [exact Hw|exact I|exact T|exact capsok_nil]. }
  induction s as [|c t IH]; intros b n; cbn [sub_go].
  - destruct n; [|reflexivity]. rewrite A. destruct (attempt r false (St b [] [])) as [s'|]; cbn [option_map]; [|reflexivity]. now rewrite E, final_ext.
  - destruct n as [|n]; [|exact (IH (c :: b) n)]. rewrite !A. destruct (attempt r false (St b (c :: t) [])) as [s'|]; cbn [option_map].
    2:{ apply (f_equal (cons c)). exact (IH (c :: b) 0%nat). }
    rewrite E, final_ext, (consumed_ext (w :: e) []). destruct (length (consumed (St b (c :: t) []) s')) as [|k]; apply (f_equal (app _)).
    + destruct (attempt r true (St b (c :: t) [])) as [s2|]; cbn [option_map].
      * rewrite final_ext, (consumed_ext (w :: e) []). apply (f_equal (app _)). exact (IH (c :: b) _).
      * apply (f_equal (cons c)). exact (IH (c :: b) 0%nat).
    + exact (IH (c :: b) k).
Qed.
Lemma sub_left : forall w t, hush w = false -> forall s b n, (n <= length s)%nat ->
  sub_go r f b n (s ++ w :: t) = sub_go r f b n s ++ w :: sub_go r f (w :: rev s ++ b) 0 t.
Proof.
  intros w t Hw. assert (E : forall b s, St b (s ++ w :: t) [] = wide [] (w :: t) (St b s [])) by (intros b s; unfold wide; cbn [bef aft caps]; now rewrite app_nil_r).
  assert (A : forall must b s, attempt r must (St b (s ++ w :: t) []) = option_map (wide [] (w :: t)) (attempt r must (St b s []))).
  { intros must b s. rewrite E. apply attempt_sides; [exact I|exact Hw|exact T|exact capsok_nil]. }
  induction s as [|c s IH]; intros b n Hn.
  - assert (n = 0%nat) as -> by (cbn [length] in Hn; lia). cbn [app rev]. pose proof (A false b []) as A1. pose proof (A true b []) as A2. cbn [app] in A1, A2.
    cbn [sub_go]. rewrite A1, A2. clear A1 A2. destruct (attempt r false (St b [] [])) as [s'|]; cbn [option_map]; [|reflexivity].
    pose proof (E b []) as E1. cbn [app] in E1. rewrite E1, final_ext, (consumed_ext [] (w :: t)).
    assert (N : attempt r true (St b [] []) = None).
    { destruct (attempt r true (St b [] [])) as [s2|] eqn:Q; [|reflexivity]. unfold attempt in Q.
      apply (m_reach r T) in Q as (s3 & R & Q); [|exact capsok_nil]. pose proof (reach_len _ _ R) as Le. cbn [aft length] in Le, Q.
      replace (length (aft s3)) with 0%nat in Q by lia. discriminate. }
    rewrite N. cbn [option_map]. unfold consumed. cbn [aft length Nat.sub firstn]. reflexivity.
  - change ((c :: s) ++ w :: t) with (c :: (s ++ w :: t)). cbn [rev]. rewrite <- app_assoc. cbn [app].
    destruct n as [|n]; [|cbn [sub_go]; apply IH; cbn [length] in Hn; lia].
    pose proof (A false b (c :: s)) as A1. pose proof (A true b (c :: s)) as A2. pose proof (E b (c :: s)) as E1. cbn [app] in A1, A2, E1.
    cbn [sub_go]. rewrite A1, A2, E1. clear A1 A2. destruct (attempt r false (St b (c :: s) [])) as [s'|] eqn:Q; cbn [option_map].
    2:{ cbn [app]. apply (f_equal (cons c)). apply IH. lia. }
    rewrite final_ext, (consumed_ext [] (w :: t)).
    assert (Le : forall x, (length (consumed (St b (c :: s) []) x) <= S (length s))%nat).
    { intros x. unfold consumed. rewrite firstn_length. cbn [aft length]. lia. }
    pose proof (Le s') as Le1. destruct (length (consumed (St b (c :: s) []) s')) as [|k].
    + rewrite <- app_assoc. apply (f_equal (app _)). destruct (attempt r true (St b (c :: s) [])) as [s2|]; cbn [option_map].
      * rewrite final_ext, (consumed_ext [] (w :: t)), <- app_assoc. apply (f_equal (app _)). apply IH. specialize (Le s2). lia.
      * cbn [app]. apply (f_equal (cons c)). apply IH. lia.
    + rewrite <- app_assoc. apply (f_equal (app _)). apply IH. lia.
Qed.
Theorem sub_sides : forall w a b, hush w = false -> sub_with r f (a ++ w :: b) = sub_with r f a ++ w :: sub_with r f b.
Proof.
  intros w a b Hw. unfold sub_with. rewrite sub_left; [|exact Hw|lia]. do 2 f_equal. rewrite app_nil_r.
  exact (sub_right w (rev a) Hw b [] 0%nat).
Qed.
End Subst.

(** ** Programs *)
(** Characters that [str.lower] and normalisation leave alone and keep apart. *)
Definition inert (w : N) : Prop :=
  decomp w = [w] /\ cut_here w = true /\ (forall b, compose2 w b = None) /\ py_lower [w] = [w].
Variable w : N.
Hypothesis Hw : hush w = false.
Hypothesis Iw : inert w.

Lemma parted_nil : parted w [].
Proof. intros a b x y Ha Hb. cbn [run] in *. injection Ha as <-. injection Hb as <-. reflexivity. Qed.
Lemma parted_app : forall p q, parted w p -> parted w q -> parted w (p ++ q).
Proof.
  intros p q P Q a b x y Ha Hb. rewrite run_app in *.
  destruct (run p a) as [a'|] eqn:Ea; [|discriminate]. destruct (run p b) as [b'|] eqn:Eb; [|discriminate]. cbn [rbind] in *.
  rewrite (P a b a' b' Ea Eb). cbn [rbind]. now apply Q.
Qed.
Lemma parted_cons : forall o p, parted w [o] -> parted w p -> parted w (o :: p).
Proof. intros o p H. exact (parted_app [o] p H). Qed.
Lemma parted_fun : forall o f, (forall s, run_op o s = Ok (f s)) -> (forall a b, f (a ++ w :: b) = f a ++ w :: f b) -> parted w [o].
Proof.
  intros o f R F a b x y Ha Hb. cbn [run] in *. rewrite !R in *. assert (x = f a) as -> by congruence. assert (y = f b) as -> by congruence. now rewrite F.
Qed.
Lemma parted_raise : forall e p, parted w (Raise e :: p).
Proof. intros e p a b x y Ha. discriminate. Qed.
Lemma parted_if : forall (c : bool) p q, parted w p -> parted w q -> parted w (if c then p else q).
Proof. intros [|] p q P Q; assumption. Qed.
Lemma parted_withS : forall (A : Type) (r : res A) f, (forall a, r = Ok a -> parted w (f a)) -> parted w (withS r f).
Proof. intros A [a|e] f H; cbn [withS]; [now apply H|apply parted_raise]. Qed.
Lemma parted_foreach : forall (A : Type) (l : list A) f, (forall x, In x l -> parted w (f x)) -> parted w (foreach l f).
Proof.
  induction l as [|a l IH]; intros f H; [apply parted_nil|]. cbn [foreach flat_map].
  apply parted_app; [apply H; now left|]. apply IH. intros x Hx. apply H. now right.
Qed.
Lemma no_straddle_wall : forall x u v, hushed x = true -> no_straddle x u (w :: v).
Proof.
  intros x u v Hx u1 u2 _ Hn P. clear u u1 Hn. revert x Hx P. induction u2 as [|c u IH]; intros x Hx P; destruct x as [|d x]; try discriminate.
  - cbn [Keeps.hushed forallb] in Hx. apply andb_true_iff in Hx as [Hd _]. cbn [app prefixb]. destruct (N.eqb_spec d w) as [->|]; [congruence|reflexivity].
  - cbn [Keeps.hushed forallb] in Hx. apply andb_true_iff in Hx as [_ Hx]. cbn [app prefixb] in *. destruct (d =? c); [|reflexivity]. now apply IH.
Qed.
Lemma replace_wall : forall x y a b, x <> [] -> hushed x = true -> replace x y (a ++ w :: b) = replace x y a ++ w :: replace x y b.
Proof.
  intros x y a b Hx Hh. rewrite replace_app; [|exact Hx|now apply no_straddle_wall]. f_equal.
  destruct x as [|c x]; [congruence|]. cbn [Keeps.hushed forallb] in Hh. apply andb_true_iff in Hh as [Hc _]. unfold replace. cbn [replace_go prefixb].
  destruct (N.eqb_spec c w) as [->|]; [congruence|]. reflexivity.
Qed.
Lemma parted_replace : forall x y, x <> [] -> hushed x = true -> parted w [Replace x y].
Proof. intros x y Hx Hh. apply (parted_fun _ (replace x y)); [reflexivity|]. intros a b. now apply replace_wall. Qed.
Lemma contains_wall : forall x a b, x <> [] -> hushed x = true -> contains x (a ++ w :: b) = contains x a || contains x b.
Proof.
  intros x a b Hx Hh. rewrite contains_app_no_straddle; [|exact Hx|now apply no_straddle_wall]. f_equal.
  destruct x as [|c x]; [congruence|]. cbn [Keeps.hushed forallb] in Hh. apply andb_true_iff in Hh as [Hc _]. cbn [contains prefixb].
  destruct (N.eqb_spec c w) as [->|]; [congruence|]. reflexivity.
Qed.
Lemma parted_sub : forall r t, tight r = true -> parted w [Sub r t].
Proof. intros r t T. apply (parted_fun _ (sub r t)); [reflexivity|]. intros a b. now apply sub_sides. Qed.
Lemma parted_re_sub : forall p t, tight_sub p = true -> parted w [ReSub p t].
Proof.
  intros p t T a b x y Ha Hb. cbn [run run_op] in *. unfold re_sub, tight_sub in *. destruct (compile p) as [[r g]|]; [|discriminate].
  destruct (parse_template (S (length t)) g t) as [l|]; [|discriminate]. assert (x = sub r l a) as -> by congruence. assert (y = sub r l b) as -> by congruence.
  f_equal. now apply sub_sides.
Qed.
Lemma parted_fn : forall p f, tight_sub p = true -> parted w [Fn (re_sub_fun p f)].
Proof.
  intros p f T a b x y Ha Hb. cbn [run run_op] in *. unfold re_sub_fun, tight_sub in *. destruct (compile p) as [[r g]|]; [|discriminate].
  assert (x = sub_with r f a) as -> by congruence. assert (y = sub_with r f b) as -> by congruence. f_equal. now apply sub_sides.
Qed.
Lemma lower_wall : forall a b, py_lower (a ++ w :: b) = py_lower a ++ w :: py_lower b.
Proof.
  intros a b. destruct Iw as (_ & _ & _ & L). unfold py_lower in *. rewrite flat_map_app. f_equal. cbn [flat_map] in *. rewrite app_nil_r in L. now rewrite L.
Qed.
Lemma compose_wall : forall v mid last, compose (Some w) mid last v = w :: compose None mid last v.
Proof.
  destruct Iw as (_ & _ & C & _). induction v as [|c v IH]; intros mid last; cbn [compose]; [reflexivity|].
  rewrite C. replace (if match mid with [] => false | _ :: _ => ccc c <=? last end then @None N else None) with (@None N) by now destruct (match mid with [] => false | _ => _ end).
  destruct (ccc c =? 0); [reflexivity|apply IH].
Qed.
Lemma nfd_wall : forall b, normalize_NFD (w :: b) = w :: normalize_NFD b.
Proof.
  intros b. destruct Iw as (D & H & _). apply andb_true_iff in H as [H _]. unfold normalize_NFD. cbn [flat_map]. rewrite D. cbn [app reorder].
  unfold starter in H. now rewrite H.
Qed.
Lemma norm_wall : forall (c : bool) a b, (if c then normalize_NFC (a ++ w :: b) else normalize_NFD (a ++ w :: b))
  = (if c then normalize_NFC a else normalize_NFD a) ++ w :: (if c then normalize_NFC b else normalize_NFD b).
Proof.
  intros c a b. destruct Iw as (D & H & _). pose proof H as H0. apply andb_true_iff in H0 as [H0 _]. destruct c.
  - rewrite NFC_app; [|unfold cut_ok; cbn [flat_map]; now rewrite D]. f_equal. unfold normalize_NFC. rewrite nfd_wall. cbn [compose].
    unfold starter in H0. rewrite H0. cbn [rev app]. apply compose_wall.
  - unfold normalize_NFD. rewrite flat_map_app. cbn [flat_map]. rewrite D. cbn [app]. rewrite reorder_app; [|now apply N.eqb_eq]. f_equal.
    pose proof (nfd_wall b) as Q. unfold normalize_NFD in Q. cbn [flat_map] in Q. rewrite D in Q. exact Q.
Qed.
Lemma sure_sound : forall p, sure p = true -> forall s, exists r, run p s = Ok r.
Proof.
  assert (G : forall p, Forall (fun o => sure_op o = true -> forall s, exists r, run_op o s = Ok r) p -> sure p = true -> forall s, exists r, run p s = Ok r).
  { induction 1 as [|o p Ho _ IH]; intros H s; [now exists s|]. cbn [sure] in H. destruct (sure_op o) eqn:E; [|discriminate].
    destruct (Ho eq_refl s) as (r & R). cbn [run]. rewrite R. now apply IH. }
  assert (Go : forall p, (fix go (p : list op) : bool := match p with [] => true | o' :: p' => if sure_op o' then go p' else false end) p = sure p).
  { induction p as [|o p IH]; [reflexivity|]. cbn [sure]. destruct (sure_op o); [exact IH|reflexivity]. }
  assert (O : forall o, sure_op o = true -> forall s, exists r, run_op o s = Ok r).
  { induction o as [x y|p t|x p q Hp Hq|t|t| |c|h p Hp|sep p Hp|r t|f|f|e] using op_ind'; intros H s; cbn [sure_op] in H; try discriminate; try (eexists; reflexivity).
    - cbn [run_op]. unfold fits_re, re_sub in *. destruct (compile p) as [[r g]|]; [|discriminate].
      destruct (parse_template (S (length t)) g t); [eexists; reflexivity|discriminate].
    - rewrite !Go in H. destruct (sure p) eqn:Ep; [|discriminate]. rewrite run_op_IfIn. destruct (contains x s); now apply G.
    - rewrite Go in H. rewrite run_op_Try. destruct (G p Hp H s) as (r & ->). now exists r. }
  intros p. apply G. apply Forall_forall. intros o _. apply O.
Qed.
Lemma parted_try : forall h p, sure p = true -> parted w p -> parted w [Try h p].
Proof.
  intros h p S P a b x y Ha Hb. cbn [run] in *. rewrite !run_op_Try in *.
  destruct (sure_sound p S a) as (a' & Ea). destruct (sure_sound p S b) as (b' & Eb). rewrite Ea in Ha. rewrite Eb in Hb.
  assert (x = a') as -> by congruence. assert (y = b') as -> by congruence. now rewrite (P a b a' b' Ea Eb).
Qed.
Lemma parted_op : forall o, parts_op o = true -> parted w [o].
Proof.
  assert (G : forall p, Forall (fun o => parts_op o = true -> parted w [o]) p -> parts p = true -> parted w p).
  { induction 1 as [|o p Ho _ IH]; intros H; [apply parted_nil|]. cbn [parts] in H. destruct (parts_op o) eqn:E; [|discriminate].
    apply parted_cons; [now apply Ho|now apply IH]. }
  assert (Go : forall p, (fix go (p : list op) : bool := match p with [] => true | o' :: p' => if parts_op o' then go p' else false end) p = parts p).
  { induction p as [|o p IH]; [reflexivity|]. cbn [parts]. destruct (parts_op o); [exact IH|reflexivity]. }
  induction o as [x y|p t|x p q Hp Hq|t|t| |c|h p Hp|sep p Hp|r t|f|f|e] using op_ind'; intros H; try discriminate.
  - cbn [parts_op] in H. apply andb_true_iff in H as [H1 H2]. apply negb_true_iff in H1. apply str_eqb_neq in H1. now apply parted_replace.
  - now apply parted_re_sub.
  - apply (parted_fun _ py_lower); [reflexivity|exact lower_wall].
  - apply (parted_fun _ (fun s => if c then normalize_NFC s else normalize_NFD s)); [reflexivity|]. intros a b. apply norm_wall.
  - assert (R : match p with [Raise _] => true | _ => if sure p then parts p else false end = true).
    { cbn [parts_op] in H. rewrite Go in H. exact H. }
    clear H. assert (C : (exists e, p = [Raise e]) \/ (sure p = true /\ parts p = true)).
    { destruct (sure p) eqn:E; [|destruct p as [|[] [|]]; try discriminate; left; eexists; reflexivity].
      destruct (parts p) eqn:E2; [now right|]. destruct p as [|[] [|]]; try discriminate; left; eexists; reflexivity. }
    destruct C as [(e & ->)|[S P]].
    + intros a b x y Ha Hb. cbn [run] in *. rewrite !run_op_Try in *. cbn [run run_op] in *. destruct (h e); [|discriminate]. injection Ha as <-. injection Hb as <-. reflexivity.
    + apply parted_try; [exact S|now apply G].
  - now apply parted_sub.
Qed.
Theorem parted_check : forall p, parts p = true -> parted w p.
Proof.
  induction p as [|o p IH]; intros H; [apply parted_nil|]. cbn [parts] in H. destruct (parts_op o) eqn:E; [|discriminate].
  apply parted_cons; [now apply parted_op|now apply IH].
Qed.
(** A test whose answer does not matter. *)
Lemma parted_same : forall p q, (forall s, run p s = run q s) -> parted w q -> parted w p.
Proof. intros p q E Q a b x y Ha Hb. rewrite E in *. now apply Q. Qed.
End Guarded.
