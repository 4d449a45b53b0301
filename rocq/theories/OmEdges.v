(** * The patterns for om, around a stretch of text that cannot contain om (for property C38, see LineByLine.v).

    The replacements of om of Convert.py look for om between two separators, and both separators belong to the match.
    They therefore do not treat the two sides of a line break apart; but they do if the words next to the line break
    lack a letter of om.  Proof machinery; no code of /repo is modelled here. *)
From Coq Require Import List NArith ZArith Bool Lia Arith.
From Verif Require Import PyStr StrFacts UnicodeTables Regex Unicode Prog AbsRegex NormCut ReLits SafeFacts Marks Keeps Apart ApartFacts Convert.
Import ListNotations.
Local Open Scope N_scope.

(** ** All the ways to match *)
Fixpoint flat (r : re) : bool :=
  match r with
  | REps | RChar _ | RSet _ _ | RBeg | REndLine => true
  | RSeq a b | RAlt a b => flat a && flat b
  | RGroup _ a => flat a
  | _ => false
  end.
Definition one_step (ok : N -> bool) (s : st) : list st :=
  match aft s with c :: t => if ok c then [St (c :: bef s) t (caps s)] else [] | [] => [] end.
Definition at_end (a : str) : bool := match a with [] => true | [c] => c =? 10 | _ => false end.
Fixpoint ways (r : re) (s : st) : list st :=
  match r with
  | REps => [s]
  | RChar c => one_step (N.eqb c) s
  | RSet neg l => one_step (in_set neg l) s
  | RSeq a b => flat_map (ways b) (ways a s)
  | RAlt a b => ways a s ++ ways b s
  | RGroup n a => map (fun s' => St (bef s') (aft s') ((n, consumed s s') :: caps s')) (ways a s)
  | RBeg => match bef s with [] => [s] | _ => [] end
  | REndLine => if at_end (aft s) then [s] else []
  | _ => []
  end.
Fixpoint pick (k : st -> option st) (l : list st) : option st :=
  match l with [] => None | s :: l => match k s with Some x => Some x | None => pick k l end end.
Lemma pick_app : forall k l l', pick k (l ++ l') = match pick k l with Some x => Some x | None => pick k l' end.
Proof. induction l as [|s l IH]; intros l'; [reflexivity|]. cbn [app pick]. destruct (k s); [reflexivity|apply IH]. Qed.
Lemma pick_flat : forall k f l, pick k (flat_map f l) = pick (fun s => pick k (f s)) l.
Proof. induction l as [|s l IH]; [reflexivity|]. cbn [flat_map pick]. rewrite pick_app, IH. reflexivity. Qed.
Lemma pick_map : forall k f l, pick k (map f l) = pick (fun s => k (f s)) l.
Proof. induction l as [|s l IH]; [reflexivity|]. cbn [map pick]. now rewrite IH. Qed.
Lemma pick_ext : forall k k' l, (forall s, k s = k' s) -> pick k l = pick k' l.
Proof. intros k k' l H. induction l as [|s l IH]; [reflexivity|]. cbn [pick]. now rewrite H, IH. Qed.
Lemma pick_In : forall k l x, pick k l = Some x -> exists s, In s l /\ k s = Some x.
Proof.
  induction l as [|s l IH]; intros x H; [discriminate|]. cbn [pick] in H. destruct (k s) as [y|] eqn:E.
  - exists s. split; [now left|congruence].
  - destruct (IH x H) as (s' & I & E'). exists s'. split; [now right|exact E'].
Qed.
Lemma m_ways : forall r, flat r = true -> forall s k, m r s k = pick k (ways r s).
Proof.
  assert (O : forall ok s k, step1 ok s k = pick k (one_step ok s)).
  { intros ok s k. unfold step1, one_step. destruct (aft s) as [|c t]; [reflexivity|]. destruct (ok c); [cbn [pick]; now destruct (k _)|reflexivity]. }
  induction r as [|c| |neg l|a IHa b IHb|a IHa b IHb|n a IHa|n|greedy lo hi a IHa|ahead neg w a IHa| | | |neg];
    intros T s k; cbn [flat] in T; try discriminate; cbn [m ways].
  - cbn [pick]. now destruct (k s).
  - apply O.
  - apply O.
  - apply andb_true_iff in T as [Ta Tb]. rewrite (IHa Ta), pick_flat. apply pick_ext. intros s'. apply (IHb Tb).
  - apply andb_true_iff in T as [Ta Tb]. now rewrite (IHa Ta), (IHb Tb), pick_app.
  - now rewrite (IHa T), pick_map.
  - destruct (bef s); [cbn [pick]; now destruct (k s)|reflexivity].
  - assert (Q : match aft s with [] | [10] => k s | _ => None end = if at_end (aft s) then k s else None).
    { destruct (aft s) as [|c [|d t]]; [reflexivity| |]; (destruct c as [|p]; [reflexivity|]); repeat (destruct p as [p|p|]; try reflexivity). }
    rewrite Q. destruct (at_end (aft s)); [cbn [pick]; now destruct (k s)|reflexivity].
Qed.
Definition enough (must : bool) (s s' : st) : option st := if must && Nat.eqb (length (aft s')) (length (aft s)) then None else Some s'.
Lemma attempt_ways : forall r must s, flat r = true -> attempt r must s = pick (enough must s) (ways r s).
Proof. intros r must s T. unfold attempt. now rewrite (m_ways r T). Qed.

(** ** The shape of the patterns *)
Definition wall (c : N) : bool := (c =? 10) || (c =? 32).
Fixpoint solid (r : re) : bool :=
  match r with
  | REps => true
  | RChar c => negb (wall c)
  | RSet neg l => negb (in_set neg l 10) && negb (in_set neg l 32)
  | RSeq a b | RAlt a b => solid a && solid b
  | _ => false
  end.
Fixpoint one (r : re) : bool := match r with RChar _ | RSet _ _ => true | RSeq REps a => one a | _ => false end.
Fixpoint piece (r : re) : bool := match r with RAlt a b => piece a && piece b | _ => one r || solid r end.
Fixpoint lit (x : str) (s : st) : list st := match x with [] => [s] | c :: x => flat_map (lit x) (one_step (N.eqb c) s) end.
Fixpoint mids (q : re) (acc : str) : option (re * str) :=
  match q with
  | RSeq a (RChar c) => mids a (c :: acc)
  | RSeq REps h => Some (h, acc)
  | _ => None
  end.
Definition parse_om (r : re) : option (re * str * re) :=
  match r with RSeq q l => match mids q [] with Some (h, om) => Some (h, om, l) | None => None end | _ => None end.
Definition front_ok (h : re) (t : list titem) : bool :=
  match h, t with
  | RBeg, _ => true
  | RGroup n p, TGroup k :: _ => piece p && Nat.eqb n k && negb (Nat.eqb n 0)
  | _, _ => false
  end.
Definition rear_ok (l : re) (t : list titem) : bool :=
  match l, rev t with
  | REndLine, _ => true
  | RGroup n p, TGroup k :: _ => piece p && Nat.eqb n k && negb (Nat.eqb n 0)
  | _, _ => false
  end.
Definition distinct (h l : re) : bool := match h, l with RGroup n _, RGroup k _ => negb (Nat.eqb n k) | _, _ => true end.
Definition om_word (L : list N) (om : str) : bool := existsb (fun c => negb (okc L c)) om && forallb (fun c => negb (wall c)) om.
Definition om_shape (L : list N) (r : re) (t : list titem) : bool :=
  flat r && match parse_om r with Some (h, om, l) => front_ok h t && rear_ok l t && distinct h l && om_word L om | None => false end.

Lemma ways_parse : forall r h om l, parse_om r = Some (h, om, l) -> forall s, ways r s = flat_map (ways l) (flat_map (lit om) (ways h s)).
Proof.
  assert (Fl : forall (f g : st -> list st) l, flat_map f (flat_map g l) = flat_map (fun s => flat_map f (g s)) l).
  { intros f g l. induction l as [|s l IH]; [reflexivity|]. cbn [flat_map]. now rewrite flat_map_app, IH. }
  assert (Id : forall l, flat_map (lit []) l = l).
  { induction l as [|s l IH]; [reflexivity|]. exact (f_equal (cons s) IH). }
  assert (M : forall q acc h om, mids q acc = Some (h, om) -> forall s, flat_map (lit acc) (ways q s) = flat_map (lit om) (ways h s)).
  { induction q as [| | | |a IHa b _| | | | | | | | |]; intros acc h om H s; try discriminate.
    assert (Z : forall b0, (forall c, b0 <> RChar c) -> mids (RSeq a b0) acc = Some (h, om) -> a = REps /\ b0 = h /\ acc = om).
    { intros b0 N E. destruct b0; try (destruct a; cbn [mids] in E; try discriminate; repeat split; congruence). exfalso. now apply (N c). }
    destruct b as [|c| | | | | | | | | | | |].
    2:{ cbn [mids] in H. assert (H' : mids a (c :: acc) = Some (h, om)) by (destruct a; exact H). clear H.
        rewrite <- (IHa _ _ _ H' s). cbn [ways]. rewrite Fl. reflexivity. }
    all: apply Z in H as (-> & <- & <-); [|discriminate]; cbn [ways flat_map]; now rewrite app_nil_r. }
  intros r h om l H s. destruct r; try discriminate. cbn [parse_om] in H. destruct (mids r1 []) as [[h' om']|] eqn:E; [|discriminate].
  assert (h' = h /\ om' = om /\ r2 = l) as (-> & -> & ->) by (repeat split; congruence). cbn [ways]. rewrite <- (M _ _ _ _ E s). now rewrite Id.
Qed.

(** ** Facts about single parts *)
Lemma wall_not : forall c, wall c = true -> c = 10 \/ c = 32.
Proof. intros c H. unfold wall in H. apply orb_true_iff in H as [H|H]; apply N.eqb_eq in H; auto. Qed.
Lemma solid_char : forall r c, solid r = true -> wall c = true ->
  match r with RChar d => d =? c | RSet neg l => in_set neg l c | _ => false end = false.
Proof.
  intros r c H W. apply wall_not in W. destruct r; try reflexivity; cbn [solid] in H.
  - destruct (N.eqb_spec c0 c) as [->|]; [|reflexivity]. destruct W as [-> | ->]; discriminate.
  - apply andb_true_iff in H as [H1 H2]. apply negb_true_iff in H1, H2. now destruct W as [-> | ->].
Qed.
Lemma consumed_tail : forall s u s', aft s = u ++ aft s' -> consumed s s' = u.
Proof.
  intros s u s' H. unfold consumed. rewrite H, app_length. replace (length u + length (aft s') - length (aft s'))%nat with (length u) by lia.
  now rewrite firstn_app, Nat.sub_diag, firstn_O, app_nil_r, firstn_all.
Qed.
Definition walled (y : str) : Prop := match y with [] => True | c :: _ => wall c = true end.
Definition along (M y : str) (s s' : st) : Prop := exists M1 M2, M = M1 ++ M2 /\ aft s' = M2 ++ y /\ caps s' = caps s.
Lemma step_along : forall ok s M y, aft s = M ++ y -> (M = [] -> forall c t, y = c :: t -> ok c = false) -> Forall (along M y s) (one_step ok s).
Proof.
  intros ok s M y E H. unfold one_step. rewrite E. destruct M as [|c M].
  - cbn [app]. destruct y as [|c t]; [constructor|]. rewrite (H eq_refl c t eq_refl). constructor.
  - cbn [app]. destruct (ok c); [|constructor]. constructor; [|constructor]. exists [c], M. now repeat split.
Qed.
Lemma solid_along : forall r, solid r = true -> forall s M y, aft s = M ++ y -> walled y -> Forall (along M y s) (ways r s).
Proof.
  induction r as [|c| |neg l|a IHa b IHb|a IHa b IHb|n a IHa|n|greedy lo hi a IHa|ahead neg w a IHa| | | |neg];
    intros T s M y E W; try discriminate; cbn [ways].
  - constructor; [|constructor]. exists [], M. now repeat split.
  - apply step_along; [exact E|]. intros _ d t ->. cbn [walled] in W. pose proof (solid_char _ d T W) as Q. exact Q.
  - apply step_along; [exact E|]. intros _ d t ->. cbn [walled] in W. pose proof (solid_char _ d T W) as Q. exact Q.
  - cbn [solid] in T. apply andb_true_iff in T as [Ta Tb]. apply Forall_forall. intros s' H. apply in_flat_map in H as (s1 & H1 & H2).
    pose proof (IHa Ta s M y E W) as Q. rewrite Forall_forall in Q. destruct (Q s1 H1) as (M1 & M2 & EM & EA & EC).
    pose proof (IHb Tb s1 M2 y EA W) as Q2. rewrite Forall_forall in Q2. destruct (Q2 s' H2) as (M3 & M4 & EM2 & EA2 & EC2).
    exists (M1 ++ M3), M4. split; [now rewrite EM, EM2, app_assoc|]. split; [exact EA2|congruence].
  - cbn [solid] in T. apply andb_true_iff in T as [Ta Tb]. apply Forall_app. split; [now apply IHa|now apply IHb].
Qed.
Lemma one_ways : forall r, one r = true -> exists ok, forall s, ways r s = one_step ok s.
Proof.
  induction r as [|c| |neg l|a IHa b IHb|a IHa b IHb|n a IHa|n|greedy lo hi a IHa|ahead neg w a IHa| | | |neg]; intros T; try discriminate.
  - exists (N.eqb c). reflexivity.
  - exists (in_set neg l). reflexivity.
  - destruct a; try discriminate. destruct (IHb T) as (ok & H). exists ok. intros s. cbn [ways flat_map]. now rewrite app_nil_r.
Qed.
Definition is_alt (r : re) : bool := match r with RAlt _ _ => true | _ => false end.
Lemma piece_ind : forall P : re -> Prop, (forall r, one r = true -> P r) -> (forall r, solid r = true -> P r) ->
  (forall a b, P a -> P b -> P (RAlt a b)) -> forall r, piece r = true -> P r.
Proof.
  intros P H1 H2 H3. assert (Q : forall r, is_alt r = false -> piece r = true -> P r).
  { intros r N H. assert (E : piece r = one r || solid r) by (destruct r; try reflexivity; discriminate).
    rewrite E in H. apply orb_true_iff in H as [H|H]; auto. }
  induction r as [|c| |neg l|a IHa b IHb|a IHa b IHb|n a IHa|n|greedy lo hi a IHa|ahead neg w a IHa| | | |neg]; intros T; try (apply Q; [reflexivity|exact T]).
  cbn [piece] in T. apply andb_true_iff in T as [Ta Tb]. auto.
Qed.
Lemma piece_along : forall r, piece r = true -> forall s M y, aft s = M ++ y -> M <> [] -> walled y -> Forall (along M y s) (ways r s).
Proof.
  refine (piece_ind _ _ _ _).
  - intros r O s M y E N W. destruct (one_ways r O) as (ok & ->). apply step_along; [exact E|congruence].
  - intros r T s M y E _ W. now apply solid_along.
  - intros a b Ha Hb s M y E N W. cbn [ways]. apply Forall_app. split; auto.
Qed.
(** At a wall. *)
Lemma piece_wall : forall r, piece r = true -> forall s c y, aft s = c :: y -> wall c = true ->
  Forall (fun s' => (aft s' = c :: y \/ aft s' = y) /\ caps s' = caps s) (ways r s).
Proof.
  refine (piece_ind _ _ _ _).
  - intros r O s c y E W. destruct (one_ways r O) as (ok & ->). unfold one_step. rewrite E. destruct (ok c); [|constructor]. constructor; [|constructor]. split; [now right|reflexivity].
  - intros r T s c y E W. eapply Forall_impl; [|exact (solid_along r T s [] (c :: y) E W)].
    intros s' (M1 & M2 & EM & EA & EC). symmetry in EM. apply app_eq_nil in EM as [_ ->]. split; [now left|exact EC].
  - intros a b Ha Hb s c y E W. cbn [ways]. apply Forall_app. split; auto.
Qed.
Lemma lit_prefix : forall x s s', In s' (lit x s) -> aft s = x ++ aft s' /\ caps s' = caps s.
Proof.
  induction x as [|c x IH]; intros s s' H; cbn [lit] in H; [destruct H as [<-|[]]; split; reflexivity|].
  apply in_flat_map in H as (s1 & H1 & H2). unfold one_step in H1. destruct (aft s) as [|d t] eqn:A; [destruct H1|].
  destruct (N.eqb_spec c d) as [->|]; [|destruct H1]. destruct H1 as [<-|[]]. apply IH in H2 as [H2 H3]. cbn [aft caps] in H2, H3. split; [now rewrite H2|exact H3].
Qed.
(** No om in a stretch that lacks a letter of it. *)
Lemma lit_none : forall L om M y s, om_word L om = true -> clean L M -> walled y -> aft s = M ++ y -> lit om s = [].
Proof.
  intros L om M y s H C W E. destruct (lit om s) as [|s' l] eqn:Q; [reflexivity|]. exfalso.
  destruct (lit_prefix om s s') as [A _]; [rewrite Q; now left|]. rewrite E in A. unfold om_word in H. apply andb_true_iff in H as [H1 H2].
  apply existsb_exists in H1 as (c & Hc & N). rewrite forallb_forall in H2. unfold clean in C. rewrite Forall_forall in C.
  assert (D : (exists r, M = om ++ r) \/ exists r, om = M ++ r /\ r <> []).
  { clear - A. revert om A. induction M as [|c M IH]; intros om A; cbn [app] in A.
    - destruct om as [|d om]; [left; now exists []|right; exists (d :: om); split; [reflexivity|discriminate]].
    - destruct om as [|d om]; [left; now exists (c :: M)|]. cbn [app] in A. injection A as -> A. apply IH in A as [(r & ->)|(r & -> & Hr)]; [left|right]; exists r; [reflexivity|now split]. }
  destruct D as [(r & ->)|(r & -> & Hr)].
  - rewrite (C c) in N; [discriminate|]. apply in_or_app. now left.
  - rewrite <- app_assoc in A. apply app_inv_head in A. destruct r as [|d r]; [congruence|]. destruct y as [|e y]; [discriminate|]. cbn [app] in A.
    injection A as -> _. cbn [walled] in W. specialize (H2 d). rewrite W in H2. discriminate H2. apply in_or_app. right. now left.
Qed.

(** ** Side by side *)
Lemma consumed_wide : forall B F s s', consumed (wide B F s) (wide B F s') = consumed s s'.
Proof. exact consumed_ext. Qed.
Lemma flat_map_map : forall (f g : st -> list st) (h : st -> st) l, (forall s, In s l -> g (h s) = map h (f s)) -> flat_map g (map h l) = map h (flat_map f l).
Proof.
  intros f g h l. induction l as [|s l IH]; intros H; [reflexivity|]. cbn [map flat_map]. rewrite map_app, H by now left. f_equal. apply IH. intros s' Hs. apply H. now right.
Qed.
Lemma one_step_wide : forall B F ok s, (aft s = [] -> match F with [] => True | c :: _ => ok c = false end) -> one_step ok (wide B F s) = map (wide B F) (one_step ok s).
Proof.
  intros B F ok s H. unfold one_step. cbn [wide aft bef caps]. destruct (aft s) as [|c t]; cbn [app].
  - specialize (H eq_refl). destruct F as [|c t]; [reflexivity|]. now rewrite H.
  - now destruct (ok c).
Qed.
(** The text before the place does not matter. *)
Lemma solid_before : forall B r, solid r = true -> forall s, ways r (wide B [] s) = map (wide B []) (ways r s).
Proof.
  intros B. induction r as [|c| |neg l|a IHa b IHb|a IHa b IHb|n a IHa|n|greedy lo hi a IHa|ahead neg w a IHa| | | |neg];
    intros T s; try discriminate; cbn [ways].
  - reflexivity.
  - now apply one_step_wide.
  - now apply one_step_wide.
  - cbn [solid] in T. apply andb_true_iff in T as [Ta Tb]. rewrite (IHa Ta). apply flat_map_map. intros s' _. apply (IHb Tb).
  - cbn [solid] in T. apply andb_true_iff in T as [Ta Tb]. now rewrite map_app, (IHa Ta), (IHb Tb).
Qed.
Lemma piece_before : forall B r, piece r = true -> forall s, ways r (wide B [] s) = map (wide B []) (ways r s).
Proof.
  intros B. refine (piece_ind _ _ _ _).
  - intros r O s. destruct (one_ways r O) as (ok & H). rewrite !H. now apply one_step_wide.
  - intros r T s. now apply solid_before.
  - intros a b Ha Hb s. cbn [ways]. now rewrite map_app, Ha, Hb.
Qed.
Lemma group_wide : forall B F n a s, ways a (wide B F s) = map (wide B F) (ways a s) -> ways (RGroup n a) (wide B F s) = map (wide B F) (ways (RGroup n a) s).
Proof.
  intros B F n a s H. cbn [ways]. rewrite H, !map_map. apply map_ext. intros s'. rewrite consumed_wide. reflexivity.
Qed.
(** [near]: a blank is ahead. *)
Definition near (s : st) : Prop := exists u, aft s = u ++ [32].
Lemma near_walled : walled [32].
Proof. reflexivity. Qed.
Lemma along_near : forall u s s', along u [32] s s' -> near s'.
Proof. intros u s s' (M1 & M2 & _ & E & _). now exists M2. Qed.
Lemma near_nonempty : forall s, near s -> aft s <> [].
Proof. intros s (u & ->) H. now apply app_eq_nil in H as [_ H]. Qed.
Lemma solid_near : forall R r, solid r = true -> forall s, near s -> ways r (wide [] R s) = map (wide [] R) (ways r s) /\ Forall near (ways r s).
Proof.
  intros R r T s Hn. split.
  - revert s Hn. induction r as [|c| |neg l|a IHa b IHb|a IHa b IHb|n a IHa|n|greedy lo hi a IHa|ahead neg w a IHa| | | |neg]; intros s Hn; try discriminate; cbn [ways].
    + reflexivity.
    + apply one_step_wide. intros E. exfalso. exact (near_nonempty s Hn E).
    + apply one_step_wide. intros E. exfalso. exact (near_nonempty s Hn E).
    + cbn [solid] in T. apply andb_true_iff in T as [Ta Tb]. rewrite (IHa Ta s Hn). apply flat_map_map. intros s' Hs. apply (IHb Tb).
      destruct Hn as (u & Hn). pose proof (solid_along a Ta s u [32] Hn near_walled) as Q. rewrite Forall_forall in Q. exact (along_near u s s' (Q s' Hs)).
    + cbn [solid] in T. apply andb_true_iff in T as [Ta Tb]. now rewrite map_app, (IHa Ta s Hn), (IHb Tb s Hn).
  - destruct Hn as (u & Hn). eapply Forall_impl; [|exact (solid_along r T s u [32] Hn near_walled)]. intros s' Q. exact (along_near u s s' Q).
Qed.
Lemma piece_near : forall R r, piece r = true -> forall s, near s -> ways r (wide [] R s) = map (wide [] R) (ways r s).
Proof.
  intros R. refine (piece_ind _ _ _ _).
  - intros r O s Hn. destruct (one_ways r O) as (ok & H). rewrite !H. apply one_step_wide. intros E. exfalso. exact (near_nonempty s Hn E).
  - intros r T s Hn. now apply solid_near.
  - intros a b Ha Hb s Hn. cbn [ways]. now rewrite map_app, Ha, Hb.
Qed.
Lemma piece_after : forall r, piece r = true -> forall s u, aft s = u ++ [32] ->
  Forall (fun s' => (near s' \/ u = [] /\ aft s' = []) /\ caps s' = caps s) (ways r s).
Proof.
  intros r T s u E. destruct u as [|c u].
  - eapply Forall_impl; [|exact (piece_wall r T s 32 [] E eq_refl)]. intros s' [[H|H] C]; (split; [|exact C]); [left; now exists []|right; now split].
  - eapply Forall_impl; [|exact (piece_along r T s (c :: u) [32] E ltac:(discriminate) near_walled)]. intros s' Q. split; [left; exact (along_near _ s s' Q)|].
    now destruct Q as (? & ? & _ & _ & Q).
Qed.

(** ** Substitution *)
Lemma ways_len : forall r s s', In s' (ways r s) -> (length (aft s') <= length (aft s))%nat.
Proof.
  assert (O : forall ok s s', In s' (one_step ok s) -> (length (aft s') <= length (aft s))%nat).
  { intros ok s s' H. unfold one_step in H. destruct (aft s) as [|c t]; [destruct H|]. destruct (ok c); [|destruct H]. destruct H as [<-|[]]. cbn [aft length]. lia. }
  induction r as [|c| |neg l|a IHa b IHb|a IHa b IHb|n a IHa|n|greedy lo hi a IHa|ahead neg w a IHa| | | |neg]; intros s s' H; cbn [ways] in H; try (now destruct H).
  - destruct H as [<-|[]]. lia.
  - now apply O in H.
  - now apply O in H.
  - apply in_flat_map in H as (s1 & H1 & H2). apply IHa in H1. apply IHb in H2. lia.
  - apply in_app_or in H as [H|H]; auto.
  - apply in_map_iff in H as (s1 & <- & H1). now apply IHa in H1.
  - destruct (bef s); [|destruct H]. destruct H as [<-|[]]. lia.
  - destruct (at_end (aft s)); [|destruct H]. destruct H as [<-|[]]. lia.
Qed.
Lemma lit_near : forall R x s, forallb (fun c => negb (wall c)) x = true -> near s -> lit x (wide [] R s) = map (wide [] R) (lit x s) /\ Forall near (lit x s).
Proof.
  intros R. induction x as [|c x IH]; intros s H Hn; [split; [reflexivity|now constructor]|]. cbn [forallb] in H. apply andb_true_iff in H as [H1 H2].
  destruct (solid_near R (RChar c) H1 s Hn) as [E F]. cbn [ways] in E, F. cbn [lit]. rewrite E. rewrite Forall_forall in F. split.
  - apply flat_map_map. intros s' Hs. exact (proj1 (IH s' H2 (F s' Hs))).
  - apply Forall_forall. intros s' Hs. apply in_flat_map in Hs as (s1 & Hs1 & Hs). pose proof (proj2 (IH s1 H2 (F s1 Hs1))) as Q. rewrite Forall_forall in Q. exact (Q s' Hs).
Qed.
Lemma lit_before : forall B x s, lit x (wide B [] s) = map (wide B []) (lit x s).
Proof.
  intros B. induction x as [|c x IH]; intros s; [reflexivity|]. cbn [lit]. rewrite one_step_wide by (intros _; exact I). apply flat_map_map. intros s' _. apply IH.
Qed.
Lemma pick_wide : forall B F must s l, pick (enough must (wide B F s)) (map (wide B F) l) = option_map (wide B F) (pick (enough must s) l).
Proof.
  intros B F must s l. induction l as [|s' l IH]; [reflexivity|]. cbn [map pick]. unfold enough at 1 3. rewrite (len_ext B F).
  destruct (must && Nat.eqb (length (aft s')) (length (aft s))); [exact IH|reflexivity].
Qed.
Lemma flat_none : forall (f : st -> list st) l, (forall s, In s l -> f s = []) -> flat_map f l = [].
Proof. intros f l. induction l as [|s l IH]; intros H; [reflexivity|]. cbn [flat_map]. rewrite H by now left. apply IH. intros s' Hs. apply H. now right. Qed.
Lemma not_end : forall u v, at_end (u ++ 32 :: v) = false.
Proof. intros [|c [|d u]] v; destruct v; reflexivity. Qed.
Lemma end_wide : forall s, near s -> ways REndLine s = [].
Proof. intros s (u & E). cbn [ways]. now rewrite E, not_end. Qed.
Lemma near_wide : forall R s, near s -> ways REndLine (wide [] R s) = [].
Proof. intros R s (u & E). cbn [ways wide aft]. rewrite E, <- app_assoc. cbn [app]. now rewrite not_end. Qed.

Section Pattern.
Variable L : list N.
Variables r h l : re.
Variable om : str.
Variable t : list titem.
Hypothesis Fr : flat r = true.
Hypothesis Pr : parse_om r = Some (h, om, l).
Hypothesis Fh : front_ok h t = true.
Hypothesis Rl : rear_ok l t = true.
Hypothesis Dl : distinct h l = true.
Hypothesis Om : om_word L om = true.

Lemma rear_cases : l = REndLine \/ exists n p t', l = RGroup n p /\ piece p = true /\ t = t' ++ [TGroup n] /\ n <> 0%nat.
Proof.
  clear - Rl. unfold rear_ok in Rl. destruct l as [| | | | | |n p| | | | | | |]; try discriminate; [right|now left].
  destruct (rev t) as [|[c|k] t'] eqn:E; try discriminate. apply andb_true_iff in Rl as [R1 R2]. apply andb_true_iff in R1 as [R1 R3].
  apply Nat.eqb_eq in R3. subst k. apply negb_true_iff, Nat.eqb_neq in R2. exists n, p, (rev t'). repeat split; try assumption.
  apply (f_equal (@rev titem)) in E. rewrite rev_involutive in E. exact E.
Qed.
Lemma front_cases : h = RBeg \/ exists n p t', h = RGroup n p /\ piece p = true /\ t = TGroup n :: t' /\ n <> 0%nat.
Proof.
  clear - Fh. unfold front_ok in Fh. destruct h as [| | | | | |n p| | | | | | |]; try discriminate; [right|now left].
  destruct t as [|[c|k] t']; try discriminate. apply andb_true_iff in Fh as [R1 R2]. apply andb_true_iff in R1 as [R1 R3].
  apply Nat.eqb_eq in R3. subst k. apply negb_true_iff, Nat.eqb_neq in R2. exists n, p, t'. now repeat split.
Qed.
Lemma om_plain_word : forallb (fun c => negb (wall c)) om = true.
Proof. unfold om_word in Om. now apply andb_true_iff in Om as [_ H]. Qed.
Lemma om_some : om <> [].
Proof. intros E. rewrite E in Om. discriminate. Qed.
Lemma ways_none : forall s, (forall s1, In s1 (ways h s) -> lit om s1 = []) -> ways r s = [].
Proof. intros s H. rewrite (ways_parse r h om l Pr). now rewrite (flat_none (lit om) _ H). Qed.

(** *** No match in a stretch without om *)
Lemma ways_clean : forall s M y, aft s = M ++ y -> M <> [] -> clean L M -> walled y -> ways r s = [].
Proof.
  intros s M y E N C W. apply ways_none. intros s1 H.
  assert (Q : exists M1 M2, M = M1 ++ M2 /\ aft s1 = M2 ++ y).
  { destruct front_cases as [EH|(n & p & t' & EH & Pp & _)]; rewrite EH in H; cbn [ways] in H.
    - destruct (bef s); [|destruct H]. destruct H as [<-|[]]. exists [], M. now split.
    - apply in_map_iff in H as (s2 & <- & H). cbn [aft]. pose proof (piece_along p Pp s M y E N W) as Q. rewrite Forall_forall in Q.
      destruct (Q s2 H) as (M1 & M2 & EM & EA & _). now exists M1, M2. }
  destruct Q as (M1 & M2 & EM & EA). rewrite EM in C. apply Forall_app in C as [_ C]. exact (lit_none L om M2 y s1 Om C W EA).
Qed.
Lemma ways_empty : forall s, aft s = [] -> ways r s = [].
Proof.
  intros s E. apply ways_none. intros s1 H. apply ways_len in H. rewrite E in H. cbn [length] in H.
  apply (lit_none L om [] [] s1 Om); [constructor|exact I|]. destruct (aft s1); [reflexivity|cbn [length] in H; lia].
Qed.
Lemma ways_shorter : forall s s', In s' (ways r s) -> (length (aft s') < length (aft s))%nat.
Proof.
  intros s s' H. rewrite (ways_parse r h om l Pr) in H. apply in_flat_map in H as (s2 & H2 & H). apply in_flat_map in H2 as (s1 & H1 & H2).
  apply ways_len in H, H1. apply lit_prefix in H2 as [H2 _]. apply (f_equal (@length N)) in H2. rewrite app_length in H2.
  pose proof om_some as No. destruct om as [|c o]; [congruence|]. cbn [length] in H2. lia.
Qed.
(** *** Before a blank *)
Lemma front_near : forall R s c u, aft s = c :: u ++ [32] -> ways h (wide [] R s) = map (wide [] R) (ways h s) /\ Forall near (ways h s).
Proof.
  intros R s c u E. assert (Ns : near s) by (exists (c :: u); exact E).
  destruct front_cases as [-> | (n & p & t' & -> & Pp & _)].
  - cbn [ways]. cbn [wide bef]. destruct (bef s) as [|d b] eqn:EB; cbn [app map]; split; try constructor; try constructor; try assumption; reflexivity.
  - split; [apply group_wide; now apply piece_near|]. cbn [ways]. apply Forall_forall. intros s' H. apply in_map_iff in H as (s1 & <- & H).
    pose proof (piece_along p Pp s (c :: u) [32] E ltac:(discriminate) near_walled) as Q. rewrite Forall_forall in Q. exact (along_near _ s s1 (Q s1 H)).
Qed.
Lemma ways_near : forall R s c u, aft s = c :: u ++ [32] -> ways r (wide [] R s) = map (wide [] R) (ways r s).
Proof.
  intros R s c u E. rewrite !(ways_parse r h om l Pr). destruct (front_near R s c u E) as [E1 F1]. rewrite Forall_forall in F1. rewrite E1.
  rewrite (flat_map_map (lit om) (lit om)) by (intros s1 H1; exact (proj1 (lit_near R om s1 om_plain_word (F1 s1 H1)))).
  apply flat_map_map. intros s2 H2. apply in_flat_map in H2 as (s1 & H1 & H2).
  pose proof (proj2 (lit_near R om s1 om_plain_word (F1 s1 H1))) as Q. rewrite Forall_forall in Q. specialize (Q s2 H2).
  destruct rear_cases as [-> | (n & p & t' & -> & Pp & _)].
  - now rewrite (end_wide s2 Q), (near_wide R s2 Q).
  - apply group_wide. now apply piece_near.
Qed.
Lemma ways_after : forall s c u s', aft s = c :: u ++ [32] -> In s' (ways r s) ->
  near s' \/ exists n t', aft s' = [] /\ t = t' ++ [TGroup n] /\ n <> 0%nat /\ cap n (caps s') = Some [32].
Proof.
  intros s c u s' E H. rewrite (ways_parse r h om l Pr) in H. destruct (front_near [] s c u E) as [_ F1]. rewrite Forall_forall in F1.
  apply in_flat_map in H as (s2 & H2 & H). apply in_flat_map in H2 as (s1 & H1 & H2).
  pose proof (proj2 (lit_near [] om s1 om_plain_word (F1 s1 H1))) as Q. rewrite Forall_forall in Q. specialize (Q s2 H2).
  destruct rear_cases as [EL | (n & p & t' & EL & Pp & Et & Nn)]; rewrite EL in H.
  - rewrite (end_wide s2 Q) in H. destruct H.
  - cbn [ways] in H. apply in_map_iff in H as (s3 & <- & H). destruct Q as (v & Q).
    pose proof (piece_after p Pp s2 v Q) as A. rewrite Forall_forall in A. destruct (A s3 H) as [[A1|[A1 A2]] A3].
    + left. exact A1.
    + right. exists n, t'. cbn [aft caps cap]. rewrite Nat.eqb_refl. repeat split; try assumption. f_equal. rewrite A1 in Q. cbn [app] in Q.
      rewrite (consumed_tail s2 [32] s3); [reflexivity|]. now rewrite Q, A2.
Qed.
(** *** After a blank or a line break *)
Lemma rear_before : forall B s, ways l (wide B [] s) = map (wide B []) (ways l s).
Proof.
  intros B s. destruct rear_cases as [-> | (n & p & t' & -> & Pp & _)].
  - cbn [ways wide aft]. rewrite app_nil_r. destruct (at_end (aft s)); [|reflexivity]. cbn [map]. unfold wide. now rewrite app_nil_r.
  - apply group_wide. now apply piece_before.
Qed.
Lemma ways_before : forall B s, (bef s <> [] \/ match aft s with c :: _ => wall c = true | [] => False end) -> ways r (wide B [] s) = map (wide B []) (ways r s).
Proof.
  intros B s Hs.
  assert (G : ways h (wide B [] s) = map (wide B []) (ways h s) -> ways r (wide B [] s) = map (wide B []) (ways r s)).
  { intros G. rewrite !(ways_parse r h om l Pr), G. rewrite (flat_map_map (lit om) (lit om)) by (intros s1 _; apply lit_before).
    apply flat_map_map. intros s2 _. apply rear_before. }
  destruct front_cases as [EH | (n & p & t' & EH & Pp & _)].
  - destruct Hs as [Hs|Hs].
    + apply G. rewrite EH. cbn [ways wide bef]. destruct (bef s) as [|d b]; [congruence|reflexivity].
    + destruct (aft s) as [|c y] eqn:E; [destruct Hs|].
      rewrite !ways_none; [reflexivity| |].
      * intros s1 H. rewrite EH in H. cbn [ways] in H. destruct (bef s); [|destruct H]. destruct H as [<-|[]].
        apply (lit_none L om [] (c :: y) s Om); [constructor|exact Hs|exact E].
      * intros s1 H. rewrite EH in H. cbn [ways] in H. destruct (bef (wide B [] s)); [|destruct H]. destruct H as [<-|[]].
        apply (lit_none L om [] (c :: y) _ Om); [constructor|exact Hs|]. cbn [wide aft]. now rewrite E, app_nil_r.
  - apply G. rewrite EH. apply group_wide. now apply piece_before.
Qed.
Lemma ways_wall : forall s c y s', aft s = c :: y -> wall c = true -> In s' (ways r s) ->
  exists n t', t = TGroup n :: t' /\ n <> 0%nat /\ cap n (caps s') = Some [c].
Proof.
  intros s c y s' E W H. rewrite (ways_parse r h om l Pr) in H. apply in_flat_map in H as (s2 & H2 & H). apply in_flat_map in H2 as (s1 & H1 & H2).
  assert (Nl : forall s0, aft s0 = c :: y -> In s2 (lit om s0) -> False).
  { intros s0 E0 H0. rewrite (lit_none L om [] (c :: y) s0 Om (Forall_nil _) W E0) in H0. destruct H0. }
  destruct front_cases as [EH | (n & p & t' & EH & Pp & Et & Nn)]; rewrite EH in H1; cbn [ways] in H1.
  - exfalso. destruct (bef s); [|destruct H1]. destruct H1 as [<-|[]]. exact (Nl s E H2).
  - apply in_map_iff in H1 as (s0 & <- & H1). pose proof (piece_wall p Pp s c y E W) as Q. rewrite Forall_forall in Q. destruct (Q s0 H1) as [[A|A] C0].
    + exfalso. refine (Nl _ _ H2). exact A.
    + exists n, t'. split; [exact Et|]. split; [exact Nn|]. apply lit_prefix in H2 as [_ C2]. cbn [caps] in C2.
      assert (Ec : consumed s s0 = [c]) by (apply consumed_tail; now rewrite E, A).
      assert (Cn : cap n (caps s2) = Some [c]) by (rewrite C2; cbn [cap]; rewrite Nat.eqb_refl; now rewrite Ec).
      destruct rear_cases as [EL | (k & q & t2 & EL & Pq & _)].
      * rewrite EL in H. cbn [ways] in H. assert (s' = s2) as ->; [|exact Cn].
        destruct (at_end (aft s2)); [|destruct H]. now destruct H as [<-|[]].
      * rewrite EL in H. cbn [ways] in H. apply in_map_iff in H as (s3 & <- & H).
        assert (C3 : caps s3 = caps s2).
        { destruct (aft s2) as [|d w] eqn:E2.
          - pose proof (solid_along) as _. clear - H Pq E2. revert s3 H. apply (piece_ind (fun q => forall s3, In s3 (ways q s2) -> caps s3 = caps s2)); [| | |exact Pq].
            + intros x O s3 H. destruct (one_ways x O) as (ok & Q). rewrite Q in H. unfold one_step in H. rewrite E2 in H. destruct H.
            + intros x T s3 H. pose proof (solid_along x T s2 [] [] E2 I) as Q. rewrite Forall_forall in Q. now destruct (Q s3 H) as (? & ? & _ & _ & Q').
            + intros x z Hx Hz s3 H. cbn [ways] in H. apply in_app_or in H as [H|H]; auto.
          - pose proof (piece_along q Pq s2 (d :: w) [] ltac:(now rewrite E2, app_nil_r) ltac:(discriminate) I) as Q'. rewrite Forall_forall in Q'.
            now destruct (Q' s3 H) as (? & ? & _ & _ & Q2). }
        cbn [caps cap]. rewrite EH, EL in Dl. cbn [distinct] in Dl. apply negb_true_iff, Nat.eqb_neq in Dl.
        destruct (Nat.eqb_spec k n) as [->|]; [congruence|]. now rewrite C3.
Qed.

(** *** The substitution itself *)
Local Notation f := (expand t).
Local Notation go := (sub_go r f).
Lemma sub_step : forall b c w, go b 0 (c :: w) = match attempt r false (St b (c :: w) []) with
  | None => c :: go (c :: b) 0 w
  | Some s' => f (final_caps (St b (c :: w) []) s') ++ go (c :: b) (pred (length (consumed (St b (c :: w) []) s'))) w end.
Proof.
  intros b c w. cbn [sub_go]. destruct (attempt r false (St b (c :: w) [])) as [s'|] eqn:A; [|reflexivity].
  rewrite (attempt_ways r _ _ Fr) in A. apply pick_In in A as (s2 & I2 & A). apply ways_shorter in I2.
  assert (s2 = s') as -> by (unfold enough in A; cbn [andb] in A; congruence).
  unfold consumed. cbn [aft] in *. rewrite firstn_length.
  destruct (Nat.min (length (c :: w) - length (aft s')) (length (c :: w))) as [|k] eqn:E; [cbn [length] in *; lia|reflexivity].
Qed.
Lemma attempt_in : forall must s s', attempt r must s = Some s' -> In s' (ways r s).
Proof.
  intros must s s' A. rewrite (attempt_ways r _ _ Fr) in A. apply pick_In in A as (s2 & I2 & A). unfold enough in A. destruct (must && _); congruence.
Qed.
Lemma attempt_none : forall must s, ways r s = [] -> attempt r must s = None.
Proof. intros must s H. rewrite (attempt_ways r _ _ Fr), H. reflexivity. Qed.
Lemma go_nil : forall b n, go b n [] = [].
Proof. intros b [|n]; [|reflexivity]. cbn [sub_go]. now rewrite attempt_none by now apply ways_empty. Qed.
Lemma go_mid : forall M b y, clean L M -> walled y -> go b 0 (M ++ y) = M ++ go (rev M ++ b) 0 y.
Proof.
  induction M as [|c M IH]; intros b y C W; [reflexivity|]. cbn [app]. rewrite sub_step, attempt_none.
  - inversion C; subst. rewrite IH by assumption. cbn [rev]. now rewrite <- app_assoc.
  - apply (ways_clean _ (c :: M) y); [reflexivity|discriminate|exact C|exact W].
Qed.
Lemma consumed_len : forall s s', (length (consumed s s') <= length (aft s))%nat.
Proof. intros s s'. unfold consumed. rewrite firstn_length. lia. Qed.
Lemma go_front : forall R, (forall b, ways r (St b (32 :: R) []) = []) -> (forall b, ways r (St b [32] []) = []) ->
  forall u b n, (n <= S (length u))%nat -> go b n (u ++ 32 :: R) = go b n (u ++ [32]) ++ go (32 :: rev u ++ b) 0 R.
Proof.
  intros R HR H1. induction u as [|c u IH]; intros b n Hn.
  - cbn [app rev length] in *. destruct n as [|[|n]]; [|change (go (32 :: b) 0 R = go (32 :: b) 0 [] ++ go (32 :: b) 0 R); now rewrite go_nil|lia].
    rewrite !sub_step, !attempt_none by auto. now rewrite go_nil.
  - cbn [app rev]. rewrite <- app_assoc. cbn [app]. destruct n as [|n]; [|cbn [sub_go]; apply IH; cbn [length] in Hn; lia].
    rewrite !sub_step. set (s := St b (c :: u ++ [32]) []).
    assert (E : St b (c :: u ++ 32 :: R) [] = wide [] R s).
    { unfold s, wide. cbn [bef aft caps]. rewrite app_nil_r. cbn [app]. now rewrite <- app_assoc. }
    rewrite E. rewrite !(attempt_ways r _ _ Fr), (ways_near R s c u eq_refl), pick_wide.
    destruct (pick (enough false s) (ways r s)) as [s'|] eqn:A; cbn [option_map].
    2:{ cbn [app]. apply (f_equal (cons c)). apply IH. lia. }
    rewrite (final_ext), consumed_wide. rewrite <- app_assoc. apply (f_equal (app _)). apply IH.
    pose proof (consumed_len s s') as Q. unfold s at 2 in Q. cbn [aft length] in Q. rewrite app_length in Q. cbn [length] in Q. lia.
Qed.
Lemma go_ends : (forall b, ways r (St b [32] []) = []) -> forall u b n, (n <= length u)%nat -> exists z, go b n (u ++ [32]) = z ++ [32].
Proof.
  intros H1. induction u as [|c u IH]; intros b n Hn.
  - assert (n = 0%nat) as -> by (cbn [length] in Hn; lia). cbn [app]. rewrite sub_step, attempt_none by auto. rewrite go_nil. now exists [].
  - cbn [app]. destruct n as [|n]; [|cbn [sub_go]; apply IH; cbn [length] in Hn; lia]. rewrite sub_step. set (s := St b (c :: u ++ [32]) []).
    destruct (attempt r false s) as [s'|] eqn:A.
    2:{ destruct (IH (c :: b) 0%nat ltac:(lia)) as (z & ->). now exists (c :: z). }
    apply attempt_in in A. pose proof (ways_shorter _ _ A) as Sh. destruct (ways_after s c u s' eq_refl A) as [N|(n & t' & E & Et & Nn & Cn)].
    + assert (Q : (pred (length (consumed s s')) <= length u)%nat).
      { unfold consumed. rewrite firstn_length. destruct N as (v & Ev). rewrite Ev, app_length. unfold s. cbn [aft length]. rewrite app_length. cbn [length]. lia. }
      destruct (IH (c :: b) _ Q) as (z & ->). eexists. now rewrite app_assoc.
    + assert (Q : pred (length (consumed s s')) = S (length u)).
      { unfold consumed. rewrite firstn_length, E. unfold s. cbn [aft length]. rewrite app_length. cbn [length]. lia. }
      rewrite Q. assert (G : go (c :: b) (S (length u)) (u ++ [32]) = []).
      { assert (G : forall u0 b0, go b0 (S (length u0)) (u0 ++ [32]) = []).
        { induction u0 as [|d u0 IH0]; intros b0; [exact (go_nil (32 :: b0) 0)|]. cbn [app length]. exact (IH0 (d :: b0)). }
        apply G. }
      rewrite G, app_nil_r. unfold expand at 1. rewrite Et, flat_map_app. cbn [flat_map]. unfold final_caps. cbn [cap].
      destruct (Nat.eqb_spec 0 n) as [E0|_]; [congruence|]. rewrite Cn. cbn [app]. eexists. reflexivity.
Qed.
Lemma go_before : forall B s b n, b <> [] -> go (b ++ B) n s = go b n s.
Proof.
  intros B. induction s as [|c s IH]; intros b n Nb; [now rewrite !go_nil|]. destruct n as [|n]; [|cbn [sub_go]; exact (IH (c :: b) n ltac:(discriminate))].
  rewrite !sub_step. assert (E : St (b ++ B) (c :: s) [] = wide B [] (St b (c :: s) [])) by (unfold wide; cbn [bef aft caps]; now rewrite app_nil_r).
  rewrite E, !(attempt_ways r _ _ Fr), (ways_before B (St b (c :: s) []) (or_introl Nb)), pick_wide.
  destruct (pick _ (ways r (St b (c :: s) []))) as [s'|]; cbn [option_map].
  - rewrite final_ext, consumed_wide. apply (f_equal (app _)). exact (IH (c :: b) _ ltac:(discriminate)).
  - apply (f_equal (cons c)). exact (IH (c :: b) _ ltac:(discriminate)).
Qed.
Lemma go_rear : forall B y, walled y -> go B 0 y = go [] 0 y.
Proof.
  intros B [|c y] W; [now rewrite !go_nil|]. cbn [walled] in W. rewrite !sub_step.
  assert (E : St B (c :: y) [] = wide B [] (St [] (c :: y) [])) by (unfold wide; cbn [bef aft caps]; now rewrite app_nil_r).
  rewrite E, !(attempt_ways r _ _ Fr), (ways_before B (St [] (c :: y) []) (or_intror W)), pick_wide.
  destruct (pick _ (ways r (St [] (c :: y) []))) as [s'|]; cbn [option_map].
  - rewrite final_ext, consumed_wide. apply (f_equal (app _)). exact (go_before B y [c] _ ltac:(discriminate)).
  - apply (f_equal (cons c)). exact (go_before B y [c] _ ltac:(discriminate)).
Qed.
Lemma go_begins : forall y, walled y -> walled (go [] 0 y) /\ (y = [] -> go [] 0 y = []).
Proof.
  intros [|c y] W; [rewrite go_nil; split; [exact I|reflexivity]|]. cbn [walled] in W. split; [|discriminate]. rewrite sub_step.
  destruct (attempt r false (St [] (c :: y) [])) as [s'|] eqn:A; [|exact W]. apply attempt_in in A.
  destruct (ways_wall (St [] (c :: y) []) c y s' eq_refl W A) as (n & t' & Et & Nn & Cn). unfold expand at 1. rewrite Et. cbn [flat_map]. unfold final_caps. cbn [cap].
  destruct (Nat.eqb_spec 0 n) as [E0|_]; [congruence|]. rewrite Cn. exact W.
Qed.

Definition blank (x : str) : Prop := x = [] \/ exists z, x = z ++ [32].
Hypothesis L32 : okc L 32 = true.
Theorem om_around : forall x M y, blank x -> clean L M -> walled y -> sub r t (x ++ M ++ y) = sub r t x ++ M ++ sub r t y.
Proof.
  intros x M y Bx C W. unfold sub, sub_with. assert (Tail : forall b, go b 0 (M ++ y) = M ++ go [] 0 y) by (intros b; rewrite go_mid by assumption; now rewrite go_rear).
  destruct Bx as [-> | (z & ->)].
  - cbn [app]. now rewrite Tail, go_nil.
  - rewrite <- app_assoc. cbn [app]. rewrite go_front; [now rewrite Tail| | |lia].
    + intros b. apply (ways_clean _ (32 :: M) y); [reflexivity|discriminate|now constructor|exact W].
    + intros b. apply (ways_clean _ [32] []); [reflexivity|discriminate|now repeat constructor|exact I].
Qed.
Theorem om_blank : forall x, blank x -> blank (sub r t x).
Proof.
  intros x [-> | (z & ->)]; unfold sub, sub_with; [left; apply go_nil|]. right. apply go_ends; [|lia].
  intros b. apply (ways_clean _ [32] []); [reflexivity|discriminate|now repeat constructor|exact I].
Qed.
Theorem om_walled : forall y, walled y -> walled (sub r t y).
Proof. intros y W. exact (proj1 (go_begins y W)). Qed.
End Pattern.
