(** * A substitution that keeps what it begins with.

    [re.sub('(a|b)(c)?(xv)(?!d)', r'\1\2y', s)] is a substitution of [xv] with a
    look-behind for [a|b], when no [c] occurs and [v] is in none of [a], [b].
    Proof machinery; no code of /repo is modelled here. *)
From Coq Require Import List NArith ZArith Bool Lia Arith.
From Verif Require Import PyStr Regex StrFacts AbsRegex Between.
Import ListNotations.
Local Open Scope nat_scope.

(** The literal that an expression is, and the literals of an alternation. *)
Fixpoint lits (r : re) : option str :=
  match r with
  | REps => Some []
  | RChar c => Some [c]
  | RSeq x y => match lits x, lits y with Some a, Some b => Some (a ++ b) | _, _ => None end
  | _ => None
  end.
Fixpoint alts (r : re) : option (list str) :=
  match r with
  | RAlt x y => match alts x, alts y with Some a, Some b => Some (a ++ b) | _, _ => None end
  | _ => match lits r with Some a => Some [a] | None => None end
  end.
Fixpoint word_re (x : str) : re :=
  match x with [] => REps | [c] => RChar c | c :: x' => RSeq (RChar c) (word_re x') end.
Fixpoint words_re (l : list str) : re :=
  match l with [] => RSet false [] | [x] => word_re x | x :: l' => RAlt (word_re x) (words_re l') end.

(** Look-behind for one of these strings (none of them empty), collected by what
    follows the first character. *)
Definition heads (t : str) (l : list str) : list N :=
  map (hd 0%N) (filter (fun w => str_eqb (tl w) t) l).
Fixpoint behinds (ts : list str) (l : list str) : re :=
  match ts with
  | [] => RSet false []
  | t :: ts' => RAlt (RLook false false (S (length t)) (RSeq (oneset (heads t l)) (word_re t))) (behinds ts' l)
  end.
Fixpoint uniq (l seen : list str) : list str :=
  match l with
  | [] => []
  | x :: l' => if mem x seen then uniq l' seen else x :: uniq l' (x :: seen)
  end.
(** Leaving out the strings that end in another one. *)
Definition minimal (l : list str) : list str :=
  filter (fun w => negb (any (fun n => mem (skipn n w) l) (seq 1 (pred (length w))))) l.

Fixpoint singles (l : list citem) : option (list N) :=
  match l with
  | [] => Some []
  | CRange a b :: l' => if N.eqb a b then match singles l' with Some x => Some (a :: x) | None => None end else None
  | _ => None
  end.

(** A look-ahead for a set, or for a character of a set twice with [v] between. *)
Definition twice (l : list N) (v : N) : list str := map (fun c => [c; v; c]) l.
Definition look_like (r : re) : option re :=
  match r with
  | RLook true neg 0 (RSeq REps (RSet false l)) => Some (RLook true neg 0 (RSet false l))
  | RLook true false 0 (RSeq (RSeq (RSeq REps (RGroup 4 (RSeq REps (RSet false l)))) (RChar v)) (RBack 4)) =>
      match singles l with Some x => Some (RLook true false 0 (words_re (twice x v))) | None => None end
  | _ => None
  end.

Definition lead (no : str -> bool) (r : re) (tm : list titem) : option (re * list titem) :=
  match r, tm with
  | RSeq (RSeq (RSeq (RSeq REps (RGroup 1 A)) (RRep true 0 (Some 1) (RGroup 2 B))) (RGroup 3 Y)) Z,
    TGroup 1 :: TGroup 2 :: tm' =>
      match alts A, alts B, lits Y, look_like Z with
      | Some a, Some b, Some [x; v], Some z =>
          let w := filter (fun u => negb (no u)) a in
          let w' := minimal w in
          if all no b <&> negb (N.eqb x v)
             <&> all (fun u => negb (memN v u) <&> match u with [] => false | _ => true end) w
             <&> all (fun i => match i with TLit _ => true | _ => false end) tm'
          then Some (RSeq (RSeq (behinds (uniq (map (@tl N) w') []) w') (word_re [x; v])) z, tm')
          else None
      | _, _, _, _ => None
      end
  | _, _ => None
  end.

(* ------------------------------------------------------------------ *)
(** ** Literals *)

Lemma step_lit_spec : forall x s k,
  step_lit x s k = if prefixb x (aft s) then k (St (rev x ++ bef s) (skipn (length x) (aft s)) (caps s)) else None.
Proof.
  induction x as [|c x IH]; intros s k; cbn [step_lit prefixb length skipn rev app].
  - now destruct s.
  - unfold step1. destruct (aft s) as [|d t]; [reflexivity|].
    destruct (N.eqb_spec c d) as [->|Hn].
    + rewrite IH. cbn [aft bef caps prefixb]. rewrite <- app_assoc. reflexivity.
    + reflexivity.
Qed.

Lemma step_lit_ext : forall x s k k', (forall t, k t = k' t) -> step_lit x s k = step_lit x s k'.
Proof. intros x s k k' H. rewrite !step_lit_spec. destruct (prefixb x (aft s)); [apply H|reflexivity]. Qed.

Lemma step_lit_app : forall a b s k, step_lit (a ++ b) s k = step_lit a s (fun s' => step_lit b s' k).
Proof.
  induction a as [|c a IH]; intros b s k; cbn [app step_lit]; [reflexivity|].
  unfold step1. destruct (aft s) as [|d t]; [reflexivity|]. destruct (N.eqb c d); [apply IH|reflexivity].
Qed.

Lemma m_lits : forall r x, lits r = Some x -> forall s k, m r s k = step_lit x s k.
Proof.
  induction r as [|c| | |r1 IHr1 r2 IHr2| | | | | | | | |]; intros x H s k; try discriminate.
  - injection H as <-. reflexivity.
  - injection H as <-. cbn [m step_lit]. unfold step1. destruct (aft s) as [|d t]; [reflexivity|].
    destruct (N.eqb c d); reflexivity.
  - cbn [lits] in H. destruct (lits r1) as [a|]; [|discriminate]. destruct (lits r2) as [b|]; [|discriminate].
    injection H as <-. cbn [m]. rewrite step_lit_app, (IHr1 a eq_refl). apply step_lit_ext.
    intros t. now apply IHr2.
Qed.

Fixpoint mw (ws : list str) (s : st) (k : st -> option st) : option st :=
  match ws with
  | [] => None
  | w :: ws' => match step_lit w s k with Some x => Some x | None => mw ws' s k end
  end.

Lemma mw_app : forall a b s k, mw (a ++ b) s k = match mw a s k with Some x => Some x | None => mw b s k end.
Proof.
  induction a as [|w a IH]; intros b s k; [reflexivity|]. cbn [app mw]. rewrite IH.
  now destruct (step_lit w s k).
Qed.

Lemma m_alts : forall r ws, alts r = Some ws -> forall s k, m r s k = mw ws s k.
Proof.
  assert (L : forall r ws, match lits r with Some a => Some [a] | None => None end = Some ws ->
              forall s k, m r s k = mw ws s k).
  { intros r ws H s k. destruct (lits r) as [x|] eqn:E; [|discriminate]. injection H as <-. cbn [mw].
    rewrite (m_lits _ _ E). now destruct (step_lit x s k). }
  induction r as [| | | | |r1 IHr1 r2 IHr2| | | | | | | |]; intros ws H s k; try (now apply L).
  cbn [alts] in H. destruct (alts r1) as [a|]; [|discriminate]. destruct (alts r2) as [b|]; [|discriminate].
  injection H as <-. cbn [m]. rewrite mw_app, (IHr1 a eq_refl), (IHr2 b eq_refl). reflexivity.
Qed.

Lemma m_word : forall x s k, m (word_re x) s k = step_lit x s k.
Proof.
  intros x. apply m_lits. induction x as [|c x IH]; [reflexivity|]. destruct x as [|d x]; [reflexivity|].
  change (lits (word_re (c :: d :: x)))
    with (match lits (word_re (d :: x)) with Some b => Some ([c] ++ b) | None => None end).
  now rewrite IH.
Qed.

Lemma m_words : forall l s k, m (words_re l) s k = mw l s k.
Proof.
  induction l as [|x l IH]; intros s k.
  - cbn. unfold step1. now destruct (aft s).
  - destruct l as [|y l].
    + cbn [words_re mw]. rewrite m_word. now destruct (step_lit x s k).
    + change (m (words_re (x :: y :: l)) s k)
        with (match m (word_re x) s k with Some z => Some z | None => m (words_re (y :: l)) s k end).
      rewrite m_word, IH. reflexivity.
Qed.

Lemma mw_filter : forall (no : str -> bool) ws s k,
  (forall w, In w ws -> no w = true -> prefixb w (aft s) = false) ->
  mw ws s k = mw (filter (fun u => negb (no u)) ws) s k.
Proof.
  intros no. induction ws as [|w ws IH]; intros s k H; [reflexivity|]. cbn [filter].
  assert (IH' : mw ws s k = mw (filter (fun u => negb (no u)) ws) s k)
    by (apply IH; intros u Hu; apply H; now right).
  destruct (no w) eqn:E; cbn [negb mw].
  - rewrite step_lit_spec, (H w (or_introl eq_refl) E). exact IH'.
  - now rewrite IH'.
Qed.

Lemma mw_none : forall ws s k, (forall w, In w ws -> prefixb w (aft s) = false) -> mw ws s k = None.
Proof.
  induction ws as [|w ws IH]; intros s k H; [reflexivity|]. cbn [mw].
  rewrite step_lit_spec, (H w (or_introl eq_refl)). apply IH. intros u Hu. apply H. now right.
Qed.

Lemma mw_some : forall ws s k x, mw ws s k = Some x -> exists w, In w ws /\ step_lit w s k = Some x.
Proof.
  induction ws as [|w ws IH]; intros s k x H; [discriminate|]. cbn [mw] in H.
  destruct (step_lit w s k) as [y|] eqn:E.
  - injection H as ->. exists w. split; [now left|exact E].
  - destruct (IH _ _ _ H) as (u & Hu & Eu). exists u. split; [now right|exact Eu].
Qed.

Lemma mw_all_none : forall ws s k, mw ws s k = None -> forall w, In w ws -> step_lit w s k = None.
Proof.
  induction ws as [|w ws IH]; intros s k H u Hu; [easy|]. cbn [mw] in H.
  destruct (step_lit w s k) as [y|] eqn:E; [discriminate|]. destruct Hu as [<-|Hu]; [exact E|now apply (IH s k)].
Qed.

(* ------------------------------------------------------------------ *)
(** ** The look-ahead *)

Lemma singles_ok : forall l x, singles l = Some x -> forall c, in_set false l c = memN c x.
Proof.
  assert (X : forall b, xorb false b = b) by (now intros [|]).
  induction l as [|i l IH]; intros x H c; cbn [singles] in H.
  - injection H as <-. reflexivity.
  - destruct i as [a b|]; [|discriminate]. destruct (N.eqb_spec a b) as [<-|]; [|discriminate].
    destruct (singles l) as [y|]; [|discriminate]. injection H as <-. unfold in_set in *. rewrite X in *.
    cbn [existsb in_item]. unfold memN in *. cbn [any]. specialize (IH y eq_refl c). rewrite X in IH. rewrite IH.
    replace ((a <=? c) && (c <=? a))%N with (N.eqb c a); [destruct (N.eqb c a); reflexivity|].
    destruct (N.eqb_spec c a) as [->|Hn]; [now rewrite N.leb_refl|].
    symmetry. apply andb_false_iff. destruct (N.leb_spec a c); [right; apply N.leb_gt; lia|now left].
Qed.

Definition at4 (l : list (nat * str)) : Prop := forall p, In p l -> fst p = 4.

Lemma look_like_ok : forall Z z, look_like Z = Some z -> exists (f : str -> bool) (e : str -> list (nat * str)),
  (forall t, at4 (e t)) /\
  (forall s k, m Z s k = if f (aft s) then k (St (bef s) (aft s) (e (aft s) ++ caps s)) else None) /\
  (forall s k, m z s k = if f (aft s) then k s else None).
Proof.
  intros Z z H. unfold look_like in H.
  destruct Z as [| | | | | | | | |a neg w r| | | |]; try discriminate. destruct a; [|discriminate].
  assert (H1 : forall l, exists (f : str -> bool) (e : str -> list (nat * str)),
    (forall t, at4 (e t)) /\
    (forall s k, m (RLook true neg w (RSeq REps (RSet false l))) s k
                 = if f (aft s) then k (St (bef s) (aft s) (e (aft s) ++ caps s)) else None) /\
    (forall s k, m (RLook true neg w (RSet false l)) s k = if f (aft s) then k s else None)).
  { intros l. exists (fun t => match t with c :: _ => xorb neg (in_set false l c) | [] => neg end), (fun _ => []).
    split; [intros t p Hp; easy|].
    split; intros [b t cs] k; cbn [m]; unfold step1; cbn [aft bef caps app];
      destruct t as [|c t]; try (destruct neg; reflexivity);
      destruct (in_set false l c), neg; reflexivity. }
  destruct w as [|w]; [|now destruct neg]. destruct r as [| | | |r1 r2| | | | | | | | |]; try (now destruct neg).
  destruct r1 as [| | | |r3 r4| | | | | | | | |]; try (now destruct neg).
  - destruct r2 as [| | |n l| | | | | | | | | |]; try (now destruct neg). destruct n; [now destruct neg|].
    assert (z = RLook true neg 0 (RSet false l)) as -> by (destruct neg; congruence).
    exact (H1 l).
  - destruct neg; [discriminate|]. destruct r3 as [| | | |r5 r6| | | | | | | | |]; try discriminate.
    destruct r5; try discriminate. destruct r6 as [| | | | | |g r7| | | | | | |]; try discriminate.
    do 5 (destruct g as [|g]; try discriminate).
    destruct r7 as [| | | |r8 r9| | | | | | | | |]; try discriminate. destruct r8; try discriminate.
    destruct r9 as [| | |n l| | | | | | | | | |]; try discriminate. destruct n; [discriminate|].
    destruct r4 as [|v| | | | | | | | | | | |]; try discriminate.
    destruct r2 as [| | | | | | |g| | | | | |]; try discriminate.
    do 5 (destruct g as [|g]; try discriminate).
    destruct (singles l) as [x|] eqn:Ex; [|discriminate]. injection H as <-.
    exists (fun t => match t with
                     | c :: d :: e :: _ => memN c x && N.eqb v d && N.eqb c e
                     | _ => false
                     end), (fun t => match t with c :: _ => [(4, [c])] | [] => [] end).
    split; [intros [|c t] p Hp; [easy|destruct Hp as [<-|[]]; reflexivity]|].
    split; intros [b t cs] k.
    + cbn [m]. unfold step1. cbn [aft bef caps]. destruct t as [|c [|d [|e t]]]; try reflexivity.
      * rewrite (singles_ok _ _ Ex). destruct (memN c x); reflexivity.
      * rewrite (singles_ok _ _ Ex). destruct (memN c x); [|reflexivity]. cbn [andb].
        destruct (N.eqb v d); [|reflexivity]. unfold consumed. cbn [cap aft length caps bef].
        replace (2 - 1) with 1 by lia. cbn [firstn step_lit]. reflexivity.
      * rewrite (singles_ok _ _ Ex). destruct (memN c x); [|reflexivity]. cbn [andb].
        destruct (N.eqb v d); [|reflexivity]. unfold consumed. cbn [cap aft length caps bef].
        replace (S (S (S (length t))) - S (S (length t))) with 1 by lia. cbn [firstn step_lit Nat.eqb].
        unfold step1. cbn [aft]. destruct (N.eqb c e); reflexivity.
    + cbn [m]. rewrite m_words. cbn [aft bef caps]. match goal with |- _ = (if ?g then _ else _) => set (f := g) end.
      destruct (mw (twice x v) _ _) as [s'|] eqn:E.
      * apply mw_some in E as (w & Hw & E). unfold twice in Hw. apply in_map_iff in Hw as (c & <- & Hc).
        rewrite step_lit_spec in E. cbn [aft] in E. destruct (prefixb _ t) eqn:Ep; [|discriminate].
        injection E as <-. cbn [caps]. apply prefixb_spec in Ep as [r ->].
        assert (f = true) as ->; [|reflexivity].
        subst f. cbn [app]. rewrite !N.eqb_refl. apply memN_In in Hc. now rewrite Hc.
      * destruct f eqn:Ef; [|reflexivity]. exfalso. subst f.
        destruct t as [|c [|d [|e t]]]; try discriminate. apply andb_true_iff in Ef as [Ef E3].
        apply andb_true_iff in Ef as [E1 E2]. apply N.eqb_eq in E2, E3. subst d e. apply memN_In in E1.
        pose proof (mw_all_none _ _ _ E [c; v; c]) as N. rewrite step_lit_spec in N. cbn [aft prefixb] in N.
        rewrite !N.eqb_refl in N. discriminate N. unfold twice. apply in_map_iff. now exists c.
Qed.

(* ------------------------------------------------------------------ *)
(** ** The look-behind *)

Definition ends (l : list str) (b : str) : bool := any (fun w => prefixb (rev w) b) l.

Lemma back_spec : forall w b t cs,
  back w (St b t cs) = if w <=? length b then Some (St (skipn w b) (rev (firstn w b) ++ t) cs) else None.
Proof.
  induction w as [|w IH]; intros b t cs; cbn [back]; [reflexivity|]. cbn [bef aft caps].
  destruct b as [|c b]; [reflexivity|]. rewrite IH. cbn [length Nat.leb skipn firstn rev].
  destruct (w <=? length b); [|reflexivity]. now rewrite <- app_assoc.
Qed.

Lemma same_front : forall a b c d : str, a ++ b = c ++ d -> length a = length c -> a = c.
Proof.
  induction a as [|x a IH]; intros b c d E L; destruct c as [|z c]; try discriminate; [reflexivity|].
  cbn [app] in E. injection E as -> E. injection L as L. f_equal. exact (IH _ _ _ E L).
Qed.

Lemma m_behind1 : forall a t s k, m (RLook false false (S (length t)) (RSeq (oneset a) (word_re t))) s k =
  if ends (map (fun c => c :: t) a) (bef s) then k s else None.
Proof.
  intros a t [b u cs] k. remember (oneset a) as oa eqn:Eoa. cbn [m]. rewrite back_spec. cbn [bef aft caps].
  assert (Hend : forall c, prefixb (rev (c :: t)) b = true -> exists r, b = rev (c :: t) ++ r) by (intros c; apply prefixb_spec).
  destruct (S (length t) <=? length b) eqn:El.
  - apply Nat.leb_le in El. subst oa. rewrite m_oneset.
    set (x := firstn (S (length t)) b). assert (Lx : length x = S (length t)) by (subst x; rewrite firstn_length; lia).
    assert (Eb : b = x ++ skipn (S (length t)) b) by (subst x; now rewrite firstn_skipn).
    unfold step1. cbn [aft bef caps]. destruct (rev x ++ u) as [|c y] eqn:Ex.
    { apply (f_equal (@length N)) in Ex. rewrite app_length, rev_length in Ex. simpl in Ex. lia. }
    rewrite m_word, step_lit_spec. cbn [aft bef caps].
    assert (X : exists c' y', rev x = c' :: y' /\ length y' = length t).
    { destruct (rev x) as [|c' y'] eqn:E; [apply (f_equal (@length N)) in E; rewrite rev_length in E; simpl in E; lia|].
      exists c', y'. split; [reflexivity|]. apply (f_equal (@length N)) in E. rewrite rev_length in E. simpl in E. lia. }
    destruct X as (c' & y' & Er & Ly). rewrite Er in Ex. cbn [app] in Ex. injection Ex as -> <-.
    assert (Ex : x = rev y' ++ [c]) by (rewrite <- (rev_involutive x), Er; reflexivity).
    assert (G : ends (map (fun c => c :: t) a) b = memN c a && str_eqb y' t).
    { apply eq_true_iff_eq. unfold ends. rewrite any_exists, andb_true_iff, memN_In, str_eqb_eq. split.
      - intros (w & Hw & Hp). apply in_map_iff in Hw as (d & <- & Hd). apply prefixb_spec in Hp as [r Hp].
        rewrite Eb in Hp. 
        assert (E1 : x = rev (d :: t)).
        { apply (same_front _ _ _ _ Hp). rewrite Lx, rev_length. reflexivity. }
        rewrite E1 in Er. rewrite rev_involutive in Er. injection Er as -> ->. now split.
      - intros [Hc ->]. exists (c :: t). split; [apply in_map_iff; now exists c|]. apply prefixb_spec.
        exists (skipn (S (length t)) b). rewrite Eb at 1. now rewrite Ex. }
    rewrite G. destruct (memN c a); [|reflexivity]. cbn [andb].
    replace (prefixb t (y' ++ u)) with (str_eqb y' t).
    + destruct (str_eqb y' t) eqn:Ey; [|reflexivity]. apply str_eqb_eq in Ey. subst y'.
      rewrite skipn_app, skipn_all2, Nat.sub_diag by lia. cbn [skipn app]. now rewrite Nat.eqb_refl.
    + apply eq_true_iff_eq. rewrite str_eqb_eq, prefixb_spec. split.
      * intros ->. now exists u.
      * intros [r Hr]. exact (same_front _ _ _ _ Hr Ly).
  - apply Nat.leb_gt in El. destruct (ends _ b) eqn:E; [|reflexivity].
    unfold ends in E. apply any_exists in E as (w & Hw & Hp). apply in_map_iff in Hw as (c & <- & _).
    apply Hend in Hp as [r ->]. rewrite app_length, rev_length in El. simpl in El. lia.
Qed.

Lemma m_behinds : forall l ts s k, m (behinds ts l) s k =
  if any (fun t => ends (map (fun c => c :: t) (heads t l)) (bef s)) ts then k s else None.
Proof.
  intros l. induction ts as [|t ts IH]; intros s k.
  - cbn. unfold step1. now destruct (aft s).
  - change (m (behinds (t :: ts) l) s k) with
      (match m (RLook false false (S (length t)) (RSeq (oneset (heads t l)) (word_re t))) s k with
       | Some x => Some x | None => m (behinds ts l) s k end).
    rewrite m_behind1, IH. cbn [any]. destruct (ends _ (bef s)); cbn [orb].
    + destruct (k s); [reflexivity|]. match goal with |- (if ?g then _ else _) = _ => now destruct g end.
    + reflexivity.
Qed.

Lemma uniq_In : forall l seen x, In x l -> In x seen \/ In x (uniq l seen).
Proof.
  induction l as [|y l IH]; intros seen x H; [easy|]. cbn [uniq]. destruct (mem y seen) eqn:E.
  - destruct H as [<-|H]; [left; now apply mem_In|now apply IH].
  - destruct H as [<-|H]; [right; now left|]. destruct (IH (y :: seen) x H) as [[<-|K]|K]; [right; now left|now left|].
    right. now right.
Qed.

Lemma minimal_In : forall l w, In w l -> (forall x, In x l -> x <> []) ->
  exists u, In u (minimal l) /\ exists v, w = v ++ u.
Proof.
  intros l w Hw Hne. remember (length w) as n eqn:En. revert w Hw En.
  induction n as [n IH] using lt_wf_ind. intros w Hw En.
  destruct (any (fun n => mem (skipn n w) l) (seq 1 (pred (length w)))) eqn:E.
  - apply any_exists in E as (i & Hi & Hm). apply in_seq in Hi. apply mem_In in Hm.
    assert (L : length (skipn i w) = length w - i) by apply skipn_length.
    destruct (IH (length (skipn i w))) with (w := skipn i w) as (u & Hu & v & Ev); [lia|exact Hm|reflexivity|].
    exists u. split; [exact Hu|]. exists (firstn i w ++ v). rewrite <- app_assoc, <- Ev. now rewrite firstn_skipn.
  - exists w. split; [|now exists []]. unfold minimal. apply filter_In. split; [exact Hw|]. now rewrite E.
Qed.

Lemma m_behinds_all : forall l s k, (forall x, In x l -> x <> []) ->
  m (behinds (uniq (map (@tl N) (minimal l)) []) (minimal l)) s k = if ends l (bef s) then k s else None.
Proof.
  intros l s k Hne. rewrite m_behinds.
  match goal with |- (if ?g then _ else _) = _ => assert (G : g = ends l (bef s)); [|now rewrite G] end.
  symmetry. apply eq_true_iff_eq. unfold ends at 1. rewrite !any_exists. split.
  - intros (w & Hw & Hp). destruct (minimal_In l w Hw Hne) as (u & Hu & v & ->).
    assert (Hl : In u l) by (unfold minimal in Hu; now apply filter_In in Hu).
    destruct u as [|c t]; [now apply Hne in Hl|].
    exists t. split.
    + destruct (uniq_In (map (@tl N) (minimal l)) [] t) as [[]|H]; [|exact H].
      apply in_map_iff. now exists (c :: t).
    + unfold ends. apply any_exists. exists (c :: t). split.
      * apply in_map_iff. exists c. split; [reflexivity|]. unfold heads. apply in_map_iff. exists (c :: t).
        split; [reflexivity|]. apply filter_In. split; [exact Hu|]. now apply str_eqb_eq.
      * rewrite rev_app_distr in Hp. apply prefixb_spec in Hp as [r Hp]. apply prefixb_spec.
        exists (rev v ++ r). now rewrite app_assoc.
  - intros (t & _ & Ht). unfold ends in Ht. apply any_exists in Ht as (w & Hw & Hp).
    apply in_map_iff in Hw as (c & <- & Hc). unfold heads in Hc. apply in_map_iff in Hc as (x & <- & Hx).
    apply filter_In in Hx as [Hx E]. apply str_eqb_eq in E. unfold minimal in Hx. apply filter_In in Hx as [Hx _].
    exists x. split; [exact Hx|]. destruct x as [|d x]; [now apply Hne in Hx|]. cbn [tl hd] in *. now subst.
Qed.

(* ------------------------------------------------------------------ *)
(** ** The two substitutions *)

Section Two.
  Variables (X V : N) (W : list str) (f : str -> bool) (y : str).
  Hypothesis XV : X <> V.
  Hypothesis noV : forall w, In w W -> ~ In V w.
  Variables (r r' : re) (F F' : list (nat * str) -> str).
  Variable good : str -> Prop.
  Hypothesis good_tl : forall c s, good (c :: s) -> good s.
  Hypothesis A1 : forall b s st', good s -> attempt r false (St b s []) = Some st' ->
    exists w, In w W /\ s = w ++ X :: V :: aft st' /\ f (aft st') = true /\
      F (final_caps (St b s []) st') = w ++ y.
  Hypothesis A2 : forall b s, good s -> attempt r false (St b s []) = None ->
    forall w t, In w W -> s = w ++ X :: V :: t -> f t = true -> False.
  Hypothesis B1 : forall b s, attempt r' false (St b s []) =
    match s with
    | c :: d :: t => if ends W b && N.eqb X c && N.eqb V d && f t then Some (St (d :: c :: b) t []) else None
    | _ => None
    end.
  Hypothesis B2 : forall cs, F' cs = y.

  Definition hit (b s : str) : bool :=
    match s with c :: d :: t => ends W b && N.eqb X c && N.eqb V d && f t | _ => false end.

  Fixpoint first (b s : str) : option (str * str) :=
    match s with
    | [] => None
    | c :: s' => if hit b s then Some ([], s)
                 else match first (c :: b) s' with Some (u, t) => Some (c :: u, t) | None => None end
    end.

  Lemma first_some : forall s b u t, first b s = Some (u, t) ->
    s = u ++ t /\ hit (rev u ++ b) t = true /\
    (forall u1 u2, u = u1 ++ u2 -> u2 <> [] -> hit (rev u1 ++ b) (u2 ++ t) = false).
  Proof.
    induction s as [|c s IH]; intros b u t H; [discriminate|]. cbn [first] in H.
    destruct (hit b (c :: s)) eqn:E.
    - injection H as <- <-. split; [reflexivity|]. split; [exact E|]. intros u1 u2 Eu Hne.
      destruct u1, u2; easy.
    - destruct (first (c :: b) s) as [[u0 t0]|] eqn:E1; [|discriminate]. injection H as <- <-.
      destruct (IH _ _ _ E1) as (-> & H2 & H3). split; [reflexivity|]. split.
      + cbn [rev]. rewrite <- app_assoc. exact H2.
      + intros u1 u2 Eu Hne. destruct u1 as [|d u1].
        * cbn [app] in Eu. subst u2. exact E.
        * cbn [app] in Eu. injection Eu as -> ->. cbn [rev]. rewrite <- app_assoc. cbn [app]. now apply H3.
  Qed.

  Lemma first_none : forall s b, first b s = None ->
    forall u1 u2, s = u1 ++ u2 -> hit (rev u1 ++ b) u2 = false.
  Proof.
    induction s as [|c s IH]; intros b H u1 u2 E.
    - destruct u1, u2; easy.
    - cbn [first] in H. destruct (hit b (c :: s)) eqn:Eh; [discriminate|].
      destruct (first (c :: b) s) as [[? ?]|] eqn:E1; [discriminate|]. destruct u1 as [|d u1].
      + cbn [app] in E. subst u2. exact Eh.
      + cbn [app] in E. injection E as -> ->. cbn [rev]. rewrite <- app_assoc. cbn [app]. now apply (IH (d :: b) E1).
  Qed.

  Lemma pass : forall R G u b t,
    (forall u1 u2, u = u1 ++ u2 -> u2 <> [] -> attempt R false (St (rev u1 ++ b) (u2 ++ t) []) = None) ->
    sub_go R G b 0 (u ++ t) = u ++ sub_go R G (rev u ++ b) 0 t.
  Proof.
    intros R G. induction u as [|c u IH]; intros b t H; [reflexivity|]. cbn [app sub_go].
    pose proof (H [] (c :: u) eq_refl ltac:(discriminate)) as H0. cbn [rev app] in H0. rewrite H0. f_equal.
    rewrite IH; [cbn [rev]; now rewrite <- app_assoc|].
    intros u1 u2 E Hne. specialize (H (c :: u1) u2). cbn [rev app] in H. rewrite <- app_assoc in H.
    apply H; [now rewrite E|assumption].
  Qed.

  Lemma good_app : forall u s, good (u ++ s) -> good s.
  Proof. induction u as [|c u IH]; intros s H; [exact H|]. apply IH. now apply good_tl with (c := c). Qed.

  Lemma sub_go_end : forall R G b, attempt R false (St b [] []) = None -> sub_go R G b 0 [] = [].
  Proof. intros R G b H. cbn [sub_go]. now rewrite H. Qed.

  (** A match of [r] is one of [r'], further on. *)
  Lemma r_hit : forall b s st', good s -> attempt r false (St b s []) = Some st' ->
    exists w, In w W /\ s = w ++ X :: V :: aft st' /\ hit (rev w ++ b) (X :: V :: aft st') = true.
  Proof.
    intros b s st' Hg H. destruct (A1 _ _ _ Hg H) as (w & Hw & Es & Hf & _). exists w.
    split; [exact Hw|]. split; [exact Es|]. cbn [hit]. rewrite !N.eqb_refl, Hf.
    assert (E : ends W (rev w ++ b) = true).
    { unfold ends. apply any_exists. exists w. split; [exact Hw|]. apply prefixb_spec. now exists b. }
    now rewrite E.
  Qed.

  Lemma skip_over : forall R G v b t, sub_go R G b (length v) (v ++ t) = sub_go R G (rev v ++ b) 0 t.
  Proof.
    intros R G. induction v as [|c v IH]; intros b t; [reflexivity|]. cbn [length app sub_go].
    rewrite IH. cbn [rev]. now rewrite <- app_assoc.
  Qed.

  Lemma found : forall R G b v t st', v <> [] -> attempt R false (St b (v ++ t) []) = Some st' -> aft st' = t ->
    sub_go R G b 0 (v ++ t) = G (final_caps (St b (v ++ t) []) st') ++ sub_go R G (rev v ++ b) 0 t.
  Proof.
    intros R G b v t st' Hv H E. destruct v as [|c v]; [easy|]. cbn [app sub_go] in *. rewrite H.
    assert (C : length (consumed (St b (c :: v ++ t) []) st') = S (length v)).
    { unfold consumed. cbn [aft]. rewrite E, firstn_length. cbn [length]. rewrite app_length. lia. }
    rewrite C. f_equal. rewrite skip_over. cbn [rev]. now rewrite <- app_assoc.
  Qed.

  Lemma same_end : forall (a b c d : str), a ++ b = c ++ d ->
    (exists z, z <> [] /\ a = c ++ z /\ d = z ++ b) \/ (a = c /\ b = d) \/
    (exists z, z <> [] /\ c = a ++ z /\ b = z ++ d).
  Proof.
    induction a as [|x a IH]; intros b c d E; destruct c as [|w c]; cbn [app] in E.
    - right. left. now split.
    - right. right. exists (w :: c). now repeat split.
    - left. exists (x :: a). now repeat split.
    - injection E as -> E. destruct (IH _ _ _ E) as [(z & H1 & -> & H3)|[[-> ->]|(z & H1 & -> & H3)]].
      + left. now exists z.
      + right. left. now split.
      + right. right. now exists z.
  Qed.

  Lemma two_go : forall n s b, length s <= n -> good s -> (b = [] \/ exists b', b = V :: b') ->
    sub_go r F b 0 s = sub_go r' F' b 0 s.
  Proof.
    induction n as [n IH] using lt_wf_ind. intros s b Hn Hg Hb.
    destruct (first b s) as [[u t0]|] eqn:Ef.
    - destruct (first_some _ _ _ _ Ef) as (Es & Hh & Hbefore).
      destruct t0 as [|c [|d t]]; try discriminate. pose proof Hh as Hh0. cbn [hit] in Hh.
      apply andb_true_iff in Hh as [Hh Hft]. apply andb_true_iff in Hh as [Hh E2].
      apply andb_true_iff in Hh as [He E1]. apply N.eqb_eq in E1, E2. subst c d.
      (* the right side *)
      assert (Right : sub_go r' F' b 0 s = u ++ y ++ sub_go r' F' (V :: X :: rev u ++ b) 0 t).
      { rewrite Es. rewrite pass.
        - f_equal.
          assert (At : attempt r' false (St (rev u ++ b) (X :: V :: t) []) = Some (St (V :: X :: rev u ++ b) t []))
            by (rewrite B1, He, !N.eqb_refl, Hft; reflexivity).
          cbn [sub_go]. rewrite At. unfold consumed. cbn [aft length].
          replace (S (S (length t)) - length t) with 2 by lia. cbn [firstn length sub_go]. now rewrite B2.
        - intros u1 u2 Eu Hne. specialize (Hbefore u1 u2 Eu Hne). rewrite B1.
          destruct (u2 ++ X :: V :: t) as [|c [|d t']]; try reflexivity. cbn [hit] in Hbefore.
          now rewrite Hbefore. }
      (* the word before the hit lies in u *)
      assert (Word : exists u1 w, In w W /\ u = u1 ++ w).
      { unfold ends in He. apply any_exists in He as (w & Hw & Hp). apply prefixb_spec in Hp as [q Hq].
        destruct (Nat.le_gt_cases (length w) (length u)) as [Hle|Hgt].
        - apply (f_equal (@rev N)) in Hq. rewrite !rev_app_distr, !rev_involutive in Hq.
          exists (firstn (length u - length w) u), w. split; [exact Hw|].
          assert (E : skipn (length (rev b ++ u) - length w) (rev b ++ u) = w).
          { rewrite Hq. rewrite app_length. replace (length (rev q) + length w - length w) with (length (rev q)) by lia.
            rewrite skipn_app, skipn_all2, Nat.sub_diag by lia. reflexivity. }
          rewrite app_length, skipn_app, skipn_all2 in E by lia. cbn [app] in E.
          replace (length (rev b) + length u - length w - length (rev b)) with (length u - length w) in E by lia.
          rewrite <- E at 2. now rewrite firstn_skipn.
        - exfalso. destruct Hb as [->|[b' ->]].
          + rewrite app_nil_r in Hq. apply (f_equal (@length N)) in Hq. rewrite app_length, !rev_length in Hq. lia.
          + apply (noV w Hw). apply in_rev.
            assert (E : nth_error (rev w) (length u) = Some V).
            { assert (E : nth_error (rev w ++ q) (length u) = Some V).
              { rewrite <- Hq. rewrite nth_error_app2 by (rewrite rev_length; lia). now rewrite rev_length, Nat.sub_diag. }
              rewrite nth_error_app1 in E by (rewrite rev_length; lia). exact E. }
            now apply nth_error_In in E. }
      (* the left side: the first attempt that succeeds *)
      assert (Left : exists u1 u2 st', u = u1 ++ u2 /\
                (forall v1 v2, u1 = v1 ++ v2 -> v2 <> [] -> attempt r false (St (rev v1 ++ b) (v2 ++ u2 ++ X :: V :: t) []) = None) /\
                attempt r false (St (rev u1 ++ b) (u2 ++ X :: V :: t) []) = Some st').
      { destruct Word as (p1 & w & Hw & Eu).
        assert (Hs : attempt r false (St (rev p1 ++ b) (w ++ X :: V :: t) []) <> None).
        { intros Hnone. apply (A2 _ _) with (w := w) (t := t) in Hnone; try easy.
          apply good_app with (u := p1). rewrite app_assoc, <- Eu, <- Es. exact Hg. }
        clear - Eu Hs. subst u. revert b w Hs. induction p1 as [|c p1 IHp]; intros b w Hs.
        - exists [], w. destruct (attempt r false _) as [st'|] eqn:E in Hs; [|easy]. exists st'.
          split; [reflexivity|]. split; [|exact E]. intros v1 v2 Ev Hne. destruct v1, v2; easy.
        - destruct (attempt r false (St b ((c :: p1) ++ w ++ X :: V :: t) [])) as [st'|] eqn:E.
          + exists [], ((c :: p1) ++ w), st'. split; [reflexivity|]. split.
            * intros v1 v2 Ev Hne. destruct v1, v2; easy.
            * cbn [rev app]. rewrite <- app_assoc. exact E.
          + destruct (IHp (c :: b) w) as (u1 & u2 & st' & E1 & E2 & E3).
            { cbn [rev] in Hs. rewrite <- app_assoc in Hs. exact Hs. }
            exists (c :: u1), u2, st'. split; [cbn [app]; now rewrite E1|]. split.
            * intros v1 v2 Ev Hne. destruct v1 as [|d v1].
              -- cbn [app] in Ev. subst v2. cbn [rev app]. cbn [app] in E.
                 replace (u1 ++ u2 ++ X :: V :: t) with (p1 ++ w ++ X :: V :: t); [exact E|].
                 rewrite !app_assoc. now rewrite E1.
              -- cbn [app] in Ev. injection Ev as <- ->. cbn [rev]. rewrite <- app_assoc. cbn [app]. now apply E2.
            * cbn [rev]. rewrite <- app_assoc. exact E3. }
      destruct Left as (u1 & u2 & st' & Eu & Hfail & Hok).
      assert (Hg2 : good (u2 ++ X :: V :: t)) by (apply good_app with (u := u1); rewrite app_assoc, <- Eu, <- Es; exact Hg).
      destruct (r_hit _ _ _ Hg2 Hok) as (w & Hw & Ew & Hhit).
      assert (U : u2 = w /\ t = aft st').
      { destruct (same_end _ _ _ _ Ew) as [(z & Hz & E1 & E2)|[[E1 E2]|(z & Hz & E1 & E2)]].
        - exfalso. specialize (Hbefore (u1 ++ w) z). rewrite rev_app_distr, <- E2, <- (app_assoc (rev w)), Hhit in Hbefore.
          assert (true = false); [|discriminate]. apply Hbefore; [|exact Hz]. now rewrite <- app_assoc, <- E1.
        - injection E2 as E2. now split.
        - exfalso. destruct z as [|c [|d z]]; [easy| |].
          + cbn [app] in E2. injection E2 as _ E2 _. now apply XV.
          + cbn [app] in E2. injection E2 as _ E2 _. apply (noV w Hw). rewrite E1, E2.
            apply in_app_iff. right. right. now left. }
      destruct U as [-> Et].
      assert (Hfin : F (final_caps (St (rev u1 ++ b) (w ++ X :: V :: t) []) st') = w ++ y).
      { destruct (A1 _ _ _ Hg2 Hok) as (w' & Hw' & Ew' & _ & Hfin). rewrite Hfin. f_equal.
        rewrite <- Et in Ew'. now apply app_inv_tail in Ew'. }
      rewrite Right, Es, Eu, <- !app_assoc. rewrite pass by exact Hfail. f_equal.
      assert (Eq : forall q, w ++ X :: V :: q = (w ++ [X; V]) ++ q) by (intros q; now rewrite <- app_assoc).
      rewrite Eq. rewrite (found _ _ _ (w ++ [X; V]) t st').
      + rewrite <- Eq, Hfin, <- app_assoc. f_equal. f_equal.
        replace (rev (w ++ [X; V]) ++ rev u1 ++ b) with (V :: X :: rev (u1 ++ w) ++ b)
          by (rewrite !rev_app_distr; cbn [rev app]; now rewrite <- app_assoc).
        assert (Lt : length t < n).
        { rewrite Es, app_length in Hn. cbn [length] in Hn. lia. }
        apply (IH (length t) Lt); [lia| |right; eauto].
        apply good_app with (u := w ++ [X; V]). now rewrite <- Eq.
      + now destruct w.
      + now rewrite <- Eq.
      + now symmetry.
    - pose proof (first_none _ _ Ef) as Hno.
      assert (Aend : forall b0, attempt r false (St b0 [] []) = None).
      { intros b0. destruct (attempt r false (St b0 [] [])) as [st'|] eqn:E; [|reflexivity].
        assert (G0 : good []) by (apply good_app with (u := s); now rewrite app_nil_r).
        destruct (A1 _ _ _ G0 E) as (w & _ & E1 & _). now destruct w. }
      rewrite <- (app_nil_r s). rewrite (pass r), (pass r').
      + f_equal. rewrite !sub_go_end; [reflexivity| |apply Aend]. now rewrite B1.
      + intros u1 u2 Eu _. specialize (Hno u1 u2 Eu). rewrite app_nil_r, B1.
        destruct u2 as [|c [|d t]]; try reflexivity. cbn [hit] in Hno. now rewrite Hno.
      + intros u1 u2 Eu _. rewrite app_nil_r.
        destruct (attempt r false (St (rev u1 ++ b) u2 [])) as [st'|] eqn:E; [|reflexivity].
        assert (G2 : good u2) by (apply good_app with (u := u1); now rewrite <- Eu).
        destruct (r_hit _ _ _ G2 E) as (w & _ & Ew & Hhit).
        specialize (Hno (u1 ++ w) (X :: V :: aft st')). rewrite rev_app_distr, <- (app_assoc (rev w)), Hhit in Hno.
        assert (true = false); [|discriminate]. apply Hno. now rewrite <- app_assoc, <- Ew.
  Qed.
End Two.

Lemma m_optional : forall B b, alts B = Some b -> forall s k,
  (forall w, In w b -> prefixb w (aft s) = false) ->
  m (RRep true 0 (Some 1) (RGroup 2 B)) s k = k s.
Proof.
  intros B b HB s k H.
  change (m (RRep true 0 (Some 1) (RGroup 2 B)) s k) with
    (match m (RGroup 2 B) s (fun s' => if Nat.eqb (length (aft s')) (length (aft s)) then None
             else (fix opt (fuel : nat) (left : option nat) (s : st) {struct fuel} : option st :=
        let more := match left with Some O => false | _ => true end in
        match fuel with
        | O => k s
        | S fuel' =>
            let iter (_ : unit) :=
              if more then
                m (RGroup 2 B) s (fun s' =>
                  if Nat.eqb (length (aft s')) (length (aft s)) then None
                  else opt fuel' (option_map pred left) s')
              else None in
            match iter tt with Some x => Some x | None => k s end
        end) (length (aft s)) (Some 0) s') with Some x => Some x | None => k s end).
  cbn [m]. rewrite (m_alts _ _ HB), mw_none; [reflexivity|exact H].
Qed.

Lemma cap_at4 : forall l r n, at4 l -> n <> 4 -> cap n (l ++ r) = cap n r.
Proof.
  induction l as [|[i x] l IH]; intros r n H Hn; [reflexivity|]. cbn [app cap].
  assert (i = 4) as -> by (now apply (H (i, x)); left).
  destruct (Nat.eqb_spec 4 n) as [<-|_]; [easy|]. apply IH; [|exact Hn]. intros p Hp. apply H. now right.
Qed.

Lemma expand_lits : forall tm cs, all (fun i => match i with TLit _ => true | _ => false end) tm = true ->
  expand tm cs = expand tm [].
Proof.
  induction tm as [|i tm IH]; intros cs H; [reflexivity|]. cbn [all] in H. apply andb_true_iff in H as [H1 H2].
  unfold expand in *. cbn [flat_map]. rewrite (IH cs H2). now destruct i.
Qed.

Lemma expand_group : forall n tm cs,
  expand (TGroup n :: tm) cs = match cap n cs with Some s => s | None => [] end ++ expand tm cs.
Proof. reflexivity. Qed.

Theorem lead_ok : forall no r tm r' tm', lead no r tm = Some (r', tm') ->
  forall s, (forall x, no x = true -> contains x s = false) -> sub r tm s = sub r' tm' s.
Proof.
  intros no r tm r' tm' H s Hs. unfold lead in H.
  destruct r as [| | | |r1 Z| | | | | | | | |]; try discriminate.
  destruct r1 as [| | | |r1 r2| | | | | | | | |]; try discriminate.
  destruct r1 as [| | | |r1 r3| | | | | | | | |]; try discriminate.
  destruct r1 as [| | | |r1 r4| | | | | | | | |]; try discriminate.
  destruct r1; try discriminate.
  destruct r4 as [| | | | | |g A| | | | | | |]; try discriminate. do 2 (destruct g as [|g]; try discriminate).
  destruct r3 as [| | | | | | | |gr lo hi rb| | | | |]; try discriminate. destruct gr; [|discriminate].
  destruct lo; [|discriminate]. destruct hi as [hi|]; [|discriminate]. do 2 (destruct hi as [|hi]; try discriminate).
  destruct rb as [| | | | | |g B| | | | | | |]; try discriminate. do 3 (destruct g as [|g]; try discriminate).
  destruct r2 as [| | | | | |g Y| | | | | | |]; try discriminate. do 4 (destruct g as [|g]; try discriminate).
  destruct tm as [|i1 tm]; try discriminate. destruct i1 as [|g]; [discriminate|].
  do 2 (destruct g as [|g]; try discriminate).
  destruct tm as [|i2 tm]; try discriminate. destruct i2 as [|g]; [discriminate|].
  do 3 (destruct g as [|g]; try discriminate).
  destruct (alts A) as [a|] eqn:EA; [|discriminate]. destruct (alts B) as [b|] eqn:EB; [|discriminate].
  destruct (lits Y) as [[|x [|v [|? ?]]]|] eqn:EY; try discriminate.
  destruct (look_like Z) as [z|] eqn:EZ; [|discriminate].
  set (W := filter (fun u => negb (no u)) a) in H. cbv zeta in H.
  match type of H with (if ?g then _ else _) = _ => destruct g eqn:Eg; [|discriminate] end.
  injection H as <- <-.
  apply andb_true_iff in Eg as [Eg E4]. apply andb_true_iff in Eg as [Eg E3]. apply andb_true_iff in Eg as [E1 E2].
  assert (E3' : forall w, In w W -> ~ In v w /\ w <> []).
  { intros w Hw. rewrite all_forall in E3. specialize (E3 w Hw). apply andb_true_iff in E3 as [K1 K2]. split.
    - intros Hv. apply memN_In in Hv. now rewrite Hv in K1.
    - intros ->. discriminate. }
  clear E3. rewrite all_forall in E1. apply negb_true_iff, N.eqb_neq in E2.
  destruct (look_like_ok _ _ EZ) as (f & e & He & HZ & Hz).
  assert (Wa : forall w, In w W -> In w a /\ no w = false).
  { intros w Hw. apply filter_In in Hw as [Hw1 Hw2]. split; [exact Hw1|]. now apply negb_true_iff. }
  set (good := fun s : str => forall x, no x = true -> prefixb x s = false /\ contains x s = false).
  assert (Gtl : forall c s, good (c :: s) -> good s).
  { intros c s0 Hg u Hu. destruct (Hg u Hu) as [_ K].
    assert (C : contains u s0 = false).
    { destruct (contains u s0) eqn:E; [|reflexivity]. apply contains_spec in E as (p & q & E).
      assert (contains u (c :: s0) = true); [|congruence]. apply contains_spec. exists (c :: p), q. now rewrite E. }
    split; [|exact C]. destruct (prefixb u s0) eqn:E; [|reflexivity]. apply prefixb_spec in E as [q E].
    assert (contains u s0 = true); [|congruence]. apply contains_spec. now exists [], q. }
  assert (Gs : good s).
  { intros u Hu. split; [|now apply Hs]. destruct (prefixb u s) eqn:E; [|reflexivity]. apply prefixb_spec in E as [q E].
    assert (contains u s = true); [|now rewrite Hs in *]. apply contains_spec. now exists [], q. }
  assert (Gskip : forall n s, good s -> good (skipn n s)).
  { induction n as [|n IHn]; intros s0 Hg; [exact Hg|]. destruct s0 as [|c s0]; [exact Hg|]. apply IHn. now apply Gtl with (c := c). }
  set (R := RSeq (RSeq (RSeq (RSeq REps (RGroup 1 A)) (RRep true 0 (Some 1) (RGroup 2 B))) (RGroup 3 Y)) Z).
  set (K := fun s1 : st => fun w : str => 
    if prefixb [x; v] (aft s1) then
      let t := skipn 2 (aft s1) in
      if f t then Some (St (v :: x :: bef s1) t (e t ++ (3, [x; v]) :: (1, w) :: caps s1)) else None
    else None).
  assert (AT : forall b0 s0, good s0 -> attempt R false (St b0 s0 []) =
    mw W (St b0 s0 []) (fun s1 => K s1 (consumed (St b0 s0 []) s1))).
  { intros b0 s0 Hg. unfold attempt, R. cbn [m]. rewrite (m_alts _ _ EA).
    rewrite (mw_filter no) by (intros u _ Hu; now apply Hg). fold W.
    clear - Wa EB E1 Hg Gskip EY HZ. generalize (fun w Hw => proj2 (Wa w Hw)). clear Wa.
    induction W as [|w W' IH]; intros Hno; [reflexivity|]. cbn [mw]. rewrite IH by (intros u Hu; apply Hno; now right).
    rewrite !step_lit_spec. cbn [aft bef caps]. destruct (prefixb w s0) eqn:Ep; [|reflexivity].
    match goal with |- (match ?p with _ => _ end) = (match ?q with _ => _ end) => assert (PQ : p = q); [|now rewrite PQ] end.
    change (m (RRep true 0 (Some 1) (RGroup 2 B)) (St (rev w ++ b0) (skipn (length w) s0) [(1, consumed (St b0 s0 []) (St (rev w ++ b0) (skipn (length w) s0) []))])
              (fun s' => m Y s' (fun s'0 => m Z (St (bef s'0) (aft s'0) ((3, consumed s' s'0) :: caps s'0)) (fun s'1 => Some s'1)))
            = K (St (rev w ++ b0) (skipn (length w) s0) []) (consumed (St b0 s0 []) (St (rev w ++ b0) (skipn (length w) s0) []))).
    rewrite (m_optional _ _ EB) by (intros u Hu; cbn [aft]; apply Gskip; [exact Hg|now apply E1]).
    rewrite (m_lits _ _ EY), step_lit_spec. unfold K. cbn [aft bef caps].
    destruct (prefixb [x; v] (skipn (length w) s0)) eqn:Ex; [|reflexivity].
    rewrite HZ. cbn [aft bef caps rev app length]. cbv zeta.
    destruct (f (skipn 2 (skipn (length w) s0))); [|reflexivity]. do 3 f_equal.
    apply prefixb_spec in Ex as [t Et]. unfold consumed. cbn [aft]. rewrite Et. cbn [skipn app length].
    replace (S (S (length t)) - length t) with 2 by lia. reflexivity. }
  unfold sub, sub_with.
  assert (Cw : forall b0 w q, consumed (St b0 (w ++ q) []) (St (rev w ++ b0) (skipn (length w) (w ++ q)) []) = w).
  { intros b0 w q. unfold consumed. cbn [aft]. rewrite skipn_app, skipn_all2, Nat.sub_diag by lia. cbn [skipn app].
    rewrite app_length. replace (length w + length q - length q) with (length w) by lia.
    now rewrite firstn_app, firstn_all, Nat.sub_diag, app_nil_r. }
  apply (two_go x v W f (expand tm [])) with (good := good) (n := length s); try assumption; try (now left); try lia.
  - intros w Hw. now apply E3'.
  - intros b0 s0 st' Hg Ha. rewrite (AT _ _ Hg) in Ha. apply mw_some in Ha as (w & Hw & Ha).
    rewrite step_lit_spec in Ha. cbn [aft bef caps] in Ha. destruct (prefixb w s0) eqn:Ep; [|discriminate].
    apply prefixb_spec in Ep as [q ->]. rewrite Cw in Ha. rewrite skipn_app, skipn_all2, Nat.sub_diag in Ha by lia.
    cbn [skipn app] in Ha. unfold K in Ha. cbn [aft bef caps] in Ha. destruct (prefixb [x; v] q) eqn:Ex; [|discriminate].
    apply prefixb_spec in Ex as [t ->]. cbn [skipn app] in Ha. cbv zeta in Ha. destruct (f t) eqn:Ef; [|discriminate].
    injection Ha as <-. cbn [aft]. exists w. split; [exact Hw|]. split; [reflexivity|]. split; [exact Ef|].
    unfold final_caps. cbn [caps]. rewrite !expand_group, (expand_lits _ _ E4). cbn [cap Nat.eqb].
    rewrite !cap_at4 by (apply He || lia). cbn [cap Nat.eqb]. reflexivity.
  - intros b0 s0 Hg Ha w t Hw -> Hf. rewrite (AT _ _ Hg) in Ha. pose proof (mw_all_none _ _ _ Ha w Hw) as N.
    rewrite step_lit_spec in N. cbn [aft bef caps] in N.
    assert (Pw : prefixb w (w ++ x :: v :: t) = true) by (apply prefixb_spec; now exists (x :: v :: t)).
    rewrite Pw in N.
    rewrite Cw in N. rewrite skipn_app, skipn_all2, Nat.sub_diag in N by lia. cbn [skipn app] in N.
    unfold K in N. cbn [aft bef caps prefixb skipn] in N. rewrite !N.eqb_refl in N. cbn [andb] in N. cbv zeta in N.
    rewrite Hf in N. discriminate.
  - intros b0 s0. unfold attempt.
    change (m (RSeq (RSeq (behinds (uniq (map (@tl N) (minimal W)) []) (minimal W)) (word_re [x; v])) z) (St b0 s0 [])
             (fun s' => Some s') = match s0 with c :: d :: t => if ends W b0 && N.eqb x c && N.eqb v d && f t then Some (St (d :: c :: b0) t []) else None | _ => None end).
    change (m (RSeq (RSeq (behinds (uniq (map (@tl N) (minimal W)) []) (minimal W)) (word_re [x; v])) z) (St b0 s0 []) (fun s' => Some s'))
      with (m (behinds (uniq (map (@tl N) (minimal W)) []) (minimal W)) (St b0 s0 []) (fun s1 => m (word_re [x; v]) s1 (fun s2 => m z s2 (fun s' => Some s')))).
    rewrite m_behinds_all by (intros u Hu; now apply E3'). cbn [bef]. 
    destruct (ends W b0); [|now destruct s0 as [|? [|? ?]]]. rewrite m_word. cbn [step_lit]. unfold step1. cbn [aft bef caps].
    destruct s0 as [|c [|d t]]; [reflexivity|now destruct (N.eqb x c)|]. cbn [andb].
    destruct (N.eqb x c); [|reflexivity]. cbn [aft bef caps andb]. destruct (N.eqb v d); [|reflexivity]. cbn [andb].
    rewrite Hz. reflexivity.
  - intros cs. now apply expand_lits.
Qed.

(** [s.replace(x, y)] is the substitution of the literal. *)
Lemma replace_word : forall x y s, x <> [] -> replace x y s = sub (word_re x) (map TLit y) s.
Proof.
  intros x y s0 Hx. unfold sub, sub_with, replace.
  assert (At : forall b s, attempt (word_re x) false (St b s []) =
    if prefixb x s then Some (St (rev x ++ b) (skipn (length x) s) []) else None).
  { intros b s. unfold attempt. rewrite m_word, step_lit_spec. reflexivity. }
  assert (Y : forall cs, expand (map TLit y) cs = y).
  { intros cs. induction y as [|c y0 IH]; [reflexivity|]. unfold expand in *. cbn [map flat_map app]. now rewrite IH. }
  destruct x as [|c0 x]; [easy|].
  assert (G : forall s b skip, replace_go (c0 :: x) y skip s = sub_go (word_re (c0 :: x)) (expand (map TLit y)) b skip s);
    [|apply G].
  induction s as [|c s IH]; intros b skip.
  - destruct skip; [|reflexivity]. cbn [replace_go sub_go]. now rewrite At.
  - destruct skip as [|k]; cbn [replace_go sub_go]; [|apply IH]. rewrite At.
    destruct (prefixb (c0 :: x) (c :: s)) eqn:Ep; [|f_equal; apply IH].
    assert (C : length (consumed (St b (c :: s) []) (St (rev (c0 :: x) ++ b) (skipn (length (c0 :: x)) (c :: s)) []))
                = S (length x)).
    { apply prefixb_length in Ep. unfold consumed. cbn [aft]. rewrite firstn_length, skipn_length. cbn [length] in *. lia. }
    rewrite C, Y. f_equal. apply IH.
Qed.
