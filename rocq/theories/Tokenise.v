(** * Cutting a text into tokens.

    A text whose neighbouring characters are allowed next to each other (a
    relation on classes of characters) is cut into tokens of a table, each token
    being allowed only before certain characters and after certain tokens.
    [check] decides, for a table, that this always succeeds.  Proof machinery;
    no code of /repo is modelled here. *)
From Coq Require Import List NArith ZArith Bool Lia Arith.
From Verif Require Import PyStr StrFacts AbsRegex Lang.
Import ListNotations.
Local Open Scope nat_scope.

(** A token: its spelling, the classes of characters allowed after it, its own
    left and right class as a token, and strings that must not follow it. *)
Record entry := Entry_no { e_str : str; e_la : list nat; e_l : nat; e_r : nat; e_no : list str }.
Definition Entry (s : str) (la : list nat) (l r : nat) : entry := Entry_no s la l r [].

Definition memb (n : nat) (l : list nat) : bool := any (Nat.eqb n) l.

Lemma memb_In : forall n l, memb n l = true <-> In n l.
Proof.
  intros n l. unfold memb. rewrite any_exists. split.
  - intros (x & Hx & E). apply Nat.eqb_eq in E. now subst.
  - intros H. exists n. now rewrite Nat.eqb_refl.
Qed.

Fixpoint strs_eqb (a b : list str) : bool :=
  match a, b with
  | [], [] => true
  | x :: a', y :: b' => str_eqb x y <&> strs_eqb a' b'
  | _, _ => false
  end.
Lemma strs_eqb_eq : forall a b, strs_eqb a b = true -> a = b.
Proof.
  induction a as [|x a IH]; intros [|y b] H; try easy. simpl in H.
  apply andb_true_iff in H as [H1 H2]. apply str_eqb_eq in H1. subst. f_equal. now apply IH.
Qed.

Fixpoint assoc (c : N) (l : list (N * nat)) : nat :=
  match l with [] => 1 | (d, k) :: l' => if N.eqb c d then k else assoc c l' end.

Section Tokenise.
  Variable M : list (N * N).
  (** The alphabet, with the class (at least 2) of each letter. *)
  Variable ctab : list (N * nat).
  (** Which classes may stand next to each other: 0 is the boundary of the text
      and 1 a foreign character. *)
  Variable P : nat -> nat -> bool.
  Variable NC : nat.
  Variable E : list entry.
  Variable ok : nat -> nat -> bool.

  Definition kc (c : N) : nat := if foreign M c then 1 else assoc c ctab.
  Definition alph : list N := map fst ctab.

  Fixpoint wf_text (k : nat) (s : str) : bool :=
    match s with
    | [] => P k 0
    | c :: s' => (foreign M c || memN c alph) && P k (kc c) && wf_text (kc c) s'
    end.

  Definition nextc (s : str) : nat := match s with [] => 0 | c :: _ => kc c end.

  Definition free (no : list str) (s : str) : bool := negb (any (fun x => prefixb x s) no).

  Fixpoint find_entry (r : nat) (s : str) (i : nat) (l : list entry) : option (nat * entry) :=
    match l with
    | [] => None
    | e :: l' =>
        if prefixb (e_str e) s && memb (nextc (skipn (length (e_str e)) s)) (e_la e) && ok r (e_l e)
           && free (e_no e) (skipn (length (e_str e)) s) && negb (Nat.eqb (length (e_str e)) 0)
        then Some (i, e) else find_entry r s (S i) l'
    end.

  Fixpoint tok (fuel : nat) (r : nat) (s : str) : list item :=
    match fuel, s with
    | S n, c :: s' =>
        if foreign M c then X c :: tok n 1 s'
        else match find_entry r s 0 E with
             | Some (i, e) => T i :: tok n (e_r e) (skipn (length (e_str e)) s)
             | None => []
             end
    | _, _ => []
    end.

  Definition cls : list (nat * nat) := map (fun e => (e_l e, e_r e)) E.
  Definition spell : list str := map e_str E.

  (* ---------------------------------------------------------------- *)
  (** ** The check *)

  Definition letters (q : nat) : list N := map fst (filter (fun p => Nat.eqb (snd p) q) ctab).

  (** [x] is not a prefix of a text that continues [w] with a letter of class [q]. *)
  Fixpoint apart (x w : str) (q : nat) : bool :=
    match x, w with
    | [], _ => false
    | c :: _, [] => negb (Nat.eqb (kc c) q)
    | c :: x', d :: w' => if N.eqb c d then apart x' w' q else true
    end.

  (** The entry applies to every text that continues [w] with a letter of class [q]. *)
  Definition applies (w : str) (q : nat) (e : entry) : bool :=
    if prefixb (e_str e) w then
      let rest := skipn (length (e_str e)) w in
      memb (match rest with [] => q | c :: _ => kc c end) (e_la e)
      <&> all (fun x => apart x rest q) (e_no e)
    else false.

  Definition starts (d : N) : list entry :=
    filter (fun e => match e_str e with c :: _ => N.eqb c d | [] => false end) E.

  (** The letters of each class, with the tokens beginning with each. *)
  Definition by_class : list (list (N * list entry)) :=
    map (fun q => map (fun d => (d, starts d)) (letters q)) (seq 0 NC).

  (** Agree as far as both go. *)
  Fixpoint agree (x y : str) : bool :=
    match x, y with
    | c :: x', d :: y' => if N.eqb c d then agree x' y' else false
    | _, _ => true
    end.

  (** Some token of [sub] applies to every text that begins with [w], the last
      letter of which is of class [k], unless it begins with a string of [no]. *)
  Fixpoint fits (bc : list (list (N * list entry))) (fuel : nat) (w : str) (k : nat) (sub : list entry) (no : list str) : bool :=
    if any (fun x => prefixb x w) no then true
    else all (fun q =>
      negb (P k q)
      <|> any (applies w q) sub
      <|> match fuel with
         | O => false
         | S f => (2 <=? q)
                  <&> all (fun p => fits bc f (w ++ [fst p]) q (filter (fun e => agree (e_str e) (w ++ [fst p])) sub) no) (nth q bc [])
         end) (seq 0 NC).

  Definition lastc (s : str) : nat := kc (last s 0%N).

  (** Which left classes may follow the right class [r]. *)
  Definition n_left : nat := S (fold_right (fun e n => Nat.max (e_l e) n) 1 E).
  Definition row (r : nat) : list bool := map (ok r) (seq 0 n_left).

  (** The ways a part of a text can end: the row of its last token, the class of
      its last character, and what must not and what may follow. *)
  Definition ends : list (list bool * nat * list str * list nat) :=
    (row 0, 0, [], seq 0 NC) :: (row 1, 1, [], seq 0 NC) :: map (fun e => (row (e_r e), lastc (e_str e), e_no e, e_la e)) E.

  Fixpoint bools_eqb (a b : list bool) : bool :=
    match a, b with
    | [], [] => true
    | x :: a', y :: b' => if Bool.eqb x y then bools_eqb a' b' else false
    | _, _ => false
    end.

  Definition add3 (x : list bool * list str * nat) (l : list (list bool * list str * nat)) :=
    if any (fun y => Nat.eqb (snd x) (snd y) <&> strs_eqb (snd (fst x)) (snd (fst y)) <&> bools_eqb (fst (fst x)) (fst (fst y))) l
    then l else x :: l.

  (** Row, forbidden strings, and class of the next character. *)
  Definition triples : list (list bool * list str * nat) :=
    fold_right (fun x l => let '(w, k, no, la) := x in
      fold_right (fun q l => if P k q then add3 (w, no, q) l else l) l la) [] ends.

  Definition depth : nat :=
    fold_right (fun e n => Nat.max (length (e_str e) + fold_right (fun x n => Nat.max (length x) n) 0 (e_no e)) n) 0 E.

  (** The strings of [no] that matter before the letter [d], and the tokens of a
      list marked [true]. *)
  Definition heads (d : N) (no : list str) : list str :=
    filter (fun x => match x with c :: _ => N.eqb c d | [] => true end) no.
  Fixpoint select (bs : list bool) (l : list entry) : list entry :=
    match bs, l with
    | b :: bs', e :: l' => if b then e :: select bs' l' else select bs' l'
    | _, _ => []
    end.

  Definition add2 (x : list bool * list str) (l : list (list bool * list str)) :=
    if any (fun y => strs_eqb (snd x) (snd y) <&> bools_eqb (fst x) (fst y)) l then l else x :: l.
  Definition cases (p : N * list entry) (ts : list (list bool * list str * nat)) : list (list bool * list str) :=
    fold_right (fun t l => let w := fst (fst t) in
      add2 (map (fun e => nth (e_l e) w false) (snd p), heads (fst p) (snd (fst t))) l) [] ts.

  Definition check_q (bc : list (list (N * list entry))) (n : nat) (q : nat) (ts : list (list bool * list str * nat)) : bool :=
    match q with
    | 0 => forallb (fun t => nth 0 (fst (fst t)) false) ts
    | 1 => forallb (fun t => nth 1 (fst (fst t)) false) ts
    | _ => forallb (fun p => forallb (fun x => fits bc n [fst p] q (select (fst x) (snd p)) (snd x)) (cases p ts)) (nth q bc [])
    end.

  Definition check : bool :=
    forallb (fun p => (2 <=? snd p) && (snd p <? NC)) ctab && (2 <=? NC)
    && (let bc := by_class in let n := depth in let ts := triples in
        forallb (fun q => check_q bc n q (filter (fun t => Nat.eqb (snd t) q) ts)) (seq 0 NC)).

  (* ---------------------------------------------------------------- *)
  (** ** The check is sufficient *)

  Lemma bools_eqb_eq : forall a b, bools_eqb a b = true -> a = b.
  Proof.
    induction a as [|x a IH]; intros [|y b] H; try easy. simpl in H. destruct (Bool.eqb x y) eqn:E'; [|discriminate].
    apply Bool.eqb_prop in E'. subst. f_equal. now apply IH.
  Qed.

  Lemma add3_In : forall x l y, In y (add3 x l) <-> y = x \/ In y l.
  Proof.
    intros [[w n] c] l y. unfold add3. destruct any eqn:Ex; simpl; [|intuition].
    apply any_exists in Ex as ([[w' n'] c'] & Hin & H). cbn [fst snd] in H.
    apply andb_true_iff in H as [H H3]. apply andb_true_iff in H as [H1 H2].
    apply Nat.eqb_eq in H1. apply strs_eqb_eq in H2. apply bools_eqb_eq in H3. subst.
    split; [auto|]. intros [->|]; auto.
  Qed.

  Lemma triples_In : forall w k no la q, In (w, k, no, la) ends -> In q la -> P k q = true -> In (w, no, q) triples.
  Proof.
    intros w k no la q He Hq HP. unfold triples. induction ends as [|x l IH]; [easy|]. cbn [fold_right].
    assert (G : forall w' k' no' (l1 : list nat) l0, In (w, no, q) l0 ->
      In (w, no, q) (fold_right (fun q l => if P k' q then add3 (w', no', q) l else l) l0 l1)).
    { intros w' k' no'. induction l1 as [|q' l1 IH1]; intros l0 H; simpl; [assumption|].
      destruct (P _ q'); [apply add3_In; right|]; now apply IH1. }
    destruct He as [->|He]; [|destruct x as [[[w' k'] no'] la']; apply G; auto]. clear IH G.
    match goal with |- In _ (fold_right _ ?z la) => generalize z end.
    intros l0. induction la as [|q' la IH]; [easy|]. simpl. destruct Hq as [->|Hq].
    - rewrite HP. apply add3_In. now left.
    - destruct (P k q'); [apply add3_In; right|]; now apply IH.
  Qed.

  Lemma row_nth : forall r l, l < n_left -> nth l (row r) false = ok r l.
  Proof.
    intros r l H. unfold row. rewrite nth_indep with (d' := ok r 0) by (now rewrite map_length, seq_length).
    now rewrite (map_nth (ok r)), seq_nth.
  Qed.

  Lemma left_lt : forall e, In e E -> e_l e < n_left.
  Proof.
    intros e He. unfold n_left. apply Nat.lt_succ_r. induction E as [|a l IH]; [easy|]. cbn [fold_right].
    destruct He as [->|He]; [lia|]. specialize (IH He). lia.
  Qed.
  Lemma two_left : 1 < n_left.
  Proof. unfold n_left. induction E as [|a l IH]; cbn [fold_right]; lia. Qed.

  Lemma add2_In : forall x l y, In y (add2 x l) <-> y = x \/ In y l.
  Proof.
    intros [w n] l y. unfold add2. destruct any eqn:Ex; simpl; [|intuition].
    apply any_exists in Ex as ([w' n'] & Hin & H). cbn [fst snd] in H.
    apply andb_true_iff in H as [H2 H3]. apply strs_eqb_eq in H2. apply bools_eqb_eq in H3. subst.
    split; [auto|]. intros [->|]; auto.
  Qed.

  Lemma select_map : forall f l, select (map f l) l = filter f l.
  Proof. intros f. induction l as [|a l IH]; [reflexivity|]. simpl. now rewrite IH. Qed.

  Lemma check_parts : check = true -> forall w no q, In (w, no, q) triples -> q < NC ->
    match q with
    | 0 => nth 0 w false = true
    | 1 => nth 1 w false = true
    | _ => forall p, In p (nth q by_class []) ->
             fits by_class depth [fst p] q (filter (fun e => nth (e_l e) w false) (snd p)) (heads (fst p) no) = true
    end.
  Proof.
    intros H w no q Ht Hq. unfold check in H. apply andb_true_iff in H as [_ H]. cbv zeta in H.
    rewrite forallb_forall in H. specialize (H q ltac:(apply in_seq; lia)).
    assert (Hin : In (w, no, q) (filter (fun t => Nat.eqb (snd t) q) triples))
      by (apply filter_In; split; [assumption|apply Nat.eqb_refl]).
    revert Hin H. generalize (filter (fun t => Nat.eqb (snd t) q) triples) as ts. intros ts Hin H. unfold check_q in H.
    destruct q as [|[|q]]; rewrite forallb_forall in H; [exact (H _ Hin)|exact (H _ Hin)|].
    intros p Hp. specialize (H p Hp). rewrite forallb_forall in H. rewrite <- select_map.
    apply (H (map (fun e => nth (e_l e) w false) (snd p), heads (fst p) no)). clear H.
    unfold cases. induction ts as [|t ts IH]; [easy|]. cbn [fold_right]. apply add2_In.
    destruct Hin as [->|Hin]; [now left|right; now apply IH].
  Qed.

  Lemma free_heads : forall d no s, free no s = true -> free (heads d no) s = true.
  Proof.
    intros d no s H. unfold free in *. apply negb_true_iff in H. apply negb_true_iff.
    destruct (any _ (heads d no)) eqn:Ea; [|reflexivity]. apply any_exists in Ea as (x & Hx & Hp).
    apply filter_In in Hx as [Hx _].
    assert (Hy : any (fun x => prefixb x s) no = true) by (apply any_exists; now exists x). congruence.
  Qed.

  Lemma assoc_In : forall c, In c alph -> In (c, assoc c ctab) ctab.
  Proof.
    intros c. unfold alph. induction ctab as [|[d k] l IH]; [easy|]. intros H. simpl in *.
    destruct (N.eqb_spec c d) as [->|Hn]; [now left|]. right. apply IH. destruct H; [congruence|assumption].
  Qed.

  Lemma letters_kc : forall c q, foreign M c || memN c alph = true -> kc c = S (S q) -> In c (letters (S (S q))).
  Proof.
    intros c q H Hk. unfold kc in Hk. destruct (foreign M c) eqn:Ef; [discriminate|]. simpl in H.
    apply memN_In in H. apply assoc_In in H. rewrite Hk in H. unfold letters.
    apply in_map_iff. exists (c, S (S q)). split; [reflexivity|]. apply filter_In. split; [assumption|].
    simpl. apply Nat.eqb_refl.
  Qed.

  Lemma kc_lt : check = true -> forall c, foreign M c || memN c alph = true -> kc c < NC.
  Proof.
    intros Hc c H. unfold check in Hc. apply andb_true_iff in Hc as [Hc _].
    apply andb_true_iff in Hc as [Hf Hn]. apply Nat.leb_le in Hn. unfold kc.
    destruct (foreign M c); [lia|]. simpl in H. apply memN_In, assoc_In in H.
    rewrite forallb_forall in Hf. specialize (Hf _ H). simpl in Hf.
    apply andb_true_iff in Hf as [_ Hf]. now apply Nat.ltb_lt in Hf.
  Qed.

  Lemma wf_next : check = true -> forall k s, wf_text k s = true -> P k (nextc s) = true /\ nextc s < NC.
  Proof.
    intros Hc k s H. destruct s as [|c s]; simpl in *.
    - split; [assumption|]. unfold check in Hc. apply andb_true_iff in Hc as [Hc _].
      apply andb_true_iff in Hc as [_ Hn]. apply Nat.leb_le in Hn. lia.
    - apply andb_true_iff in H as [H _]. apply andb_true_iff in H as [H1 H2].
      split; [assumption|]. now apply kc_lt.
  Qed.

  Lemma apart_ok : forall x w rest, apart x w (nextc rest) = true -> prefixb x (w ++ rest) = false.
  Proof.
    induction x as [|c x IH]; intros w rest H; [discriminate|]. destruct w as [|d w]; cbn [apart app prefixb] in *.
    - destruct rest as [|e rest]; [reflexivity|]. cbn [nextc] in H. apply negb_true_iff, Nat.eqb_neq in H.
      destruct (N.eqb_spec c e) as [->|]; [congruence|reflexivity].
    - destruct (N.eqb c d); [now apply IH|reflexivity].
  Qed.

  Lemma prefixb_app : forall x w rest, prefixb x w = true -> prefixb x (w ++ rest) = true.
  Proof.
    intros x w rest H. apply prefixb_spec in H as [t ->]. apply prefixb_spec. exists (t ++ rest). now rewrite app_assoc.
  Qed.

  Lemma applies_ok : forall w rest e, applies w (nextc rest) e = true ->
    prefixb (e_str e) (w ++ rest) = true /\
    memb (nextc (skipn (length (e_str e)) (w ++ rest))) (e_la e) = true /\
    free (e_no e) (skipn (length (e_str e)) (w ++ rest)) = true.
  Proof.
    intros w rest e H. unfold applies in H. destruct (prefixb (e_str e) w) eqn:Ep; [|discriminate]. cbv zeta in H.
    apply andb_true_iff in H as [H1 H3].
    apply prefixb_spec in Ep as [t ->].
    assert (E1 : skipn (length (e_str e)) (e_str e ++ t) = t) by now rewrite skipn_app, skipn_all, Nat.sub_diag.
    assert (E2 : skipn (length (e_str e)) ((e_str e ++ t) ++ rest) = t ++ rest)
      by (now rewrite <- app_assoc, skipn_app, skipn_all, Nat.sub_diag).
    rewrite E1 in H1, H3. rewrite E2. repeat split; try assumption.
    - apply prefixb_app. apply prefixb_spec. now exists t.
    - destruct t; assumption.
    - unfold free. apply negb_true_iff. destruct (any _ (e_no e)) eqn:Ea; [|reflexivity].
      apply any_exists in Ea as (x & Hx & Hp). rewrite all_forall in H3. now rewrite (apart_ok _ _ _ (H3 x Hx)) in Hp.
  Qed.

  Lemma by_class_In : forall c q, q < NC -> In c (letters q) -> In (c, starts c) (nth q by_class []).
  Proof.
    intros c q Hq Hc. unfold by_class.
    rewrite nth_indep with (d' := map (fun d => (d, starts d)) (letters 0))
      by (now rewrite map_length, seq_length).
    rewrite (map_nth (fun q => map (fun d => (d, starts d)) (letters q))), seq_nth by assumption.
    apply in_map_iff. now exists c.
  Qed.

  Lemma fits_ok : check = true -> forall fuel w k sub no rest,
    fits by_class fuel w k sub no = true -> wf_text k rest = true -> free no (w ++ rest) = true ->
    exists e, In e sub /\ prefixb (e_str e) (w ++ rest) = true /\
      memb (nextc (skipn (length (e_str e)) (w ++ rest))) (e_la e) = true /\
      free (e_no e) (skipn (length (e_str e)) (w ++ rest)) = true.
  Proof.
    intros Hc. induction fuel as [|f IH]; intros w k sub no rest Hf Hw Hno;
      destruct (wf_next Hc _ _ Hw) as [HP Hlt]; cbn [fits] in Hf;
      (destruct (any _ no) eqn:Ea;
       [ exfalso; apply any_exists in Ea as (x & Hx & Hp); apply (prefixb_app _ _ rest) in Hp;
         unfold free in Hno; apply negb_true_iff in Hno;
         assert (Hy : any (fun x => prefixb x (w ++ rest)) no = true) by (apply any_exists; now exists x); congruence |]);
      rewrite all_forall in Hf;
      specialize (Hf (nextc rest) ltac:(apply in_seq; lia)); rewrite HP in Hf; cbn [negb orb] in Hf;
      apply orb_true_iff in Hf; destruct Hf as [Hf|Hf]; try discriminate.
    1, 2: apply any_exists in Hf as (e & He & H); exists e; split; [assumption|]; now apply applies_ok.
    apply andb_true_iff in Hf as [Hq Hf]. change ((2 <=? nextc rest) = true) in Hq. apply Nat.leb_le in Hq.
    destruct rest as [|d rest]; simpl in Hq; [lia|]. cbn [nextc wf_text] in Hf, Hw.
    apply andb_true_iff in Hw as [Hw Hr]. apply andb_true_iff in Hw as [Ha _].
    rewrite all_forall in Hf. destruct (kc d) as [|[|q]] eqn:Ek; try lia.
    cbn [nextc] in Hlt. rewrite Ek in Hlt.
    specialize (Hf _ (by_class_In _ _ Hlt (letters_kc _ _ Ha Ek))). cbn [fst] in Hf.
    assert (Hno' : free no ((w ++ [d]) ++ rest) = true) by now rewrite <- app_assoc.
    destruct (IH _ _ _ _ rest Hf Hr Hno') as (e & H1 & H2 & H3 & H5).
    apply filter_In in H1 as [H1 _].
    rewrite <- app_assoc in H2, H3, H5. exists e. now repeat split.
  Qed.

  Lemma find_entry_ok : forall r s l i, (exists e, In e l /\ prefixb (e_str e) s = true /\
      memb (nextc (skipn (length (e_str e)) s)) (e_la e) = true /\ ok r (e_l e) = true /\
      free (e_no e) (skipn (length (e_str e)) s) = true /\ e_str e <> []) ->
    exists j e, find_entry r s i l = Some (i + j, e) /\ nth_error l j = Some e /\ prefixb (e_str e) s = true /\
      memb (nextc (skipn (length (e_str e)) s)) (e_la e) = true /\ ok r (e_l e) = true /\
      free (e_no e) (skipn (length (e_str e)) s) = true /\ e_str e <> [].
  Proof.
    intros r s. induction l as [|a l IH]; intros i (e & Hin & H1 & H2 & H3 & H5 & H4); [easy|]. simpl.
    destruct (prefixb (e_str a) s && _ && _ && _ && _) eqn:Eb.
    - apply andb_true_iff in Eb as [Eb B4]. apply andb_true_iff in Eb as [Eb B5]. apply andb_true_iff in Eb as [Eb B3].
      apply andb_true_iff in Eb as [B1 B2]. exists 0, a. rewrite Nat.add_0_r. repeat split; try assumption.
      intros Es. rewrite Es in B4. discriminate.
    - destruct Hin as [->|Hin].
      + rewrite H1, H2, H3, H5 in Eb. simpl in Eb. destruct (e_str e); [congruence|discriminate].
      + destruct (IH (S i)) as (j & e' & G & G'); [exists e; now repeat split|].
        exists (S j), e'. rewrite Nat.add_succ_r. simpl in G. now split.
  Qed.

  Lemma wf_text_app : forall u k v, u <> [] -> wf_text k (u ++ v) = true -> wf_text (lastc u) v = true.
  Proof.
    unfold lastc. induction u as [|c u IH]; intros k v Hn H; [congruence|].
    simpl in H. apply andb_true_iff in H as [_ H].
    destruct u as [|d u]; [exact H|]. change (last (c :: d :: u) 0%N) with (last (d :: u) 0%N).
    apply IH with (k := kc c); [discriminate|assumption].
  Qed.

  Lemma tok_step : check = true -> forall fuel r k no la s,
    In (row r, k, no, la) ends -> wf_text k s = true -> In (nextc s) la -> free no s = true -> length s <= fuel ->
    render spell (tok fuel r s) = s /\ valid M cls ok r (tok fuel r s) = true.
  Proof.
    intros Hc. induction fuel as [|f IH]; intros r k no la s He Hw Hn Hno Hl.
    - destruct s; [|simpl in Hl; lia]. split; [reflexivity|]. simpl in *.
      pose proof (triples_In _ _ _ _ _ He Hn Hw) as Ht. destruct (wf_next Hc k [] Hw) as [_ Hlt].
      pose proof (check_parts Hc _ _ _ Ht Hlt) as Hc'. cbn beta iota in Hc'.
      now rewrite row_nth in Hc' by (pose proof two_left; lia).
    - destruct (wf_next Hc _ _ Hw) as [HP Hlt].
      pose proof (triples_In _ _ _ _ _ He Hn HP) as Ht. pose proof Hc as Hc0. unfold check in Hc0.
      apply andb_true_iff in Hc0 as [Hc1 Hc0]. apply andb_true_iff in Hc1 as [_ HNC]. apply Nat.leb_le in HNC.
      clear Hc0. pose proof (check_parts Hc _ _ _ Ht Hlt) as Hc0.
      destruct s as [|c s]; [split; [reflexivity|cbn [nextc] in Hc0; rewrite row_nth in Hc0 by (pose proof two_left; lia); exact Hc0]|].
      cbn [wf_text] in Hw. cbn [nextc] in *.
      apply andb_true_iff in Hw as [Hw Hw3]. apply andb_true_iff in Hw as [Hw1 Hw2].
      cbn [tok]. destruct (foreign M c) eqn:Ef.
      + assert (Ek : kc c = 1) by (unfold kc; now rewrite Ef). rewrite Ek in *.
        destruct (IH 1 1 [] (seq 0 NC) s) as [I1 I2].
        * right; left; reflexivity.
        * assumption.
        * apply in_seq. destruct (wf_next Hc _ _ Hw3). lia.
        * reflexivity.
        * simpl in Hl. lia.
        * split; [rewrite render_cons, I1; reflexivity|]. cbn [valid good lc rc].
          rewrite row_nth in Hc0 by exact two_left. now rewrite Ef, Hc0, I2.
      + assert (Hk2 : exists q, kc c = S (S q)).
        { unfold kc. rewrite Ef. simpl in Hw1. apply memN_In, assoc_In in Hw1.
          unfold check in Hc. apply andb_true_iff in Hc as [Hc _]. apply andb_true_iff in Hc as [Hc _].
          rewrite forallb_forall in Hc. specialize (Hc _ Hw1). simpl in Hc.
          apply andb_true_iff in Hc as [Hc _]. change ((2 <=? assoc c ctab) = true) in Hc. apply Nat.leb_le in Hc.
          destruct (assoc c ctab) as [|[|q]]; try lia. now exists q. }
        destruct Hk2 as [q Ek]. rewrite Ek in Hc0.
        assert (Hin : In c (letters (S (S q)))).
        { apply letters_kc; [|assumption]. rewrite Ef. exact Hw1. }
        rewrite Ek in Hlt. specialize (Hc0 _ (by_class_In _ _ Hlt Hin)). cbn [fst snd] in Hc0. rewrite Ek in Hw3.
        destruct (fits_ok Hc _ _ _ _ _ s Hc0 Hw3 (free_heads _ _ _ Hno)) as (e & G1 & G2 & G3 & G5).
        apply filter_In in G1 as [G1 G4]. unfold starts in G1. apply filter_In in G1 as [G1 G1'].
        rewrite row_nth in G4 by now apply left_lt.
        assert (Hw0 : wf_text k (c :: s) = true)
          by (cbn [wf_text]; now rewrite Ef, Hw1, Hw2, Ek, Hw3).
        destruct (find_entry_ok r (c :: s) E 0) as (j & e' & F1 & F2 & F3 & F4 & F5 & F7 & F6).
        { exists e. repeat split; try assumption. intros Es. now rewrite Es in G1'. }
        simpl in F1. rewrite F1. set (rest := skipn (length (e_str e')) (c :: s)) in *.
        assert (Es : c :: s = e_str e' ++ rest).
        { apply prefixb_spec in F3 as [t Et]. unfold rest. rewrite Et at 2.
          rewrite skipn_app, skipn_all, Nat.sub_diag. exact Et. }
        assert (Hrest : wf_text (lastc (e_str e')) rest = true).
        { apply wf_text_app with (k := k); [assumption|]. now rewrite <- Es. }
        destruct (IH (e_r e') (lastc (e_str e')) (e_no e') (e_la e') rest) as [I1 I2].
        * right; right. apply in_map_iff. exists e'. split; [reflexivity|]. now apply nth_error_In with (n := j).
        * assumption.
        * now apply memb_In.
        * assumption.
        * assert (length (c :: s) = length (e_str e') + length rest) by (now rewrite Es, app_length).
          destruct (e_str e'); [congruence|]. simpl in *. lia.
        * split.
          -- rewrite render_cons, I1. cbn [str_of]. unfold spell.
             rewrite nth_error_nth with (x := e_str e'); [now symmetry|]. now rewrite nth_error_map, F2.
          -- assert (Hj : j < length E) by (apply nth_error_Some; now rewrite F2).
             assert (Nj : nth j cls (0, 0) = (e_l e', e_r e'))
               by (apply nth_error_nth; unfold cls; now rewrite nth_error_map, F2).
             cbn [valid good lc rc]. rewrite Nj. cbn [fst snd].
             assert (Lj : j <? length cls = true) by (apply Nat.ltb_lt; unfold cls; now rewrite map_length).
             now rewrite Lj, F5, I2.
  Qed.

  Definition tokens (s : str) : list item := tok (length s) 0 s.

  Theorem tokens_ok : check = true -> forall s, wf_text 0 s = true ->
    render spell (tokens s) = s /\ valid M cls ok 0 (tokens s) = true.
  Proof.
    intros Hc s Hw. apply tok_step with (k := 0) (no := []) (la := seq 0 NC); auto.
    - now left.
    - apply in_seq. destruct (wf_next Hc _ _ Hw). lia.
  Qed.

  (* ---------------------------------------------------------------- *)
  (** ** Leaving out some tokens

      In a text without the strings [bad], the tokens containing one of them do
      not occur: they are given a class nothing may stand next to. *)

  Variable bad : list str.
  Variable Z : nat.

  Definition banned (s : str) : bool := existsb (fun x => contains x s) bad.
  Definition E' : list entry :=
    map (fun e => if banned (e_str e) then Entry [] [] Z Z else e) E.
  Definition ok' (a b : nat) : bool := negb (Nat.eqb a Z) <&> negb (Nat.eqb b Z) <&> ok a b.
  Definition cls' : list (nat * nat) := map (fun e => (e_l e, e_r e)) E'.
  Definition spell' : list str := map e_str E'.
  Definition avoids (s : str) : bool := forallb (fun x => negb (contains x s)) bad.

  Definition no_Z : bool :=
    (2 <=? Z) && forallb (fun e => negb (Nat.eqb (e_l e) Z) && negb (Nat.eqb (e_r e) Z)) E.

  Lemma render_factor : forall L ts i, In (T i) ts -> exists u v, render L ts = u ++ nth i L [] ++ v.
  Proof.
    induction ts as [|it ts IH]; intros i H; [easy|]. destruct H as [->|H].
    - exists [], (render L ts). reflexivity.
    - destruct (IH _ H) as (u & v & Eq). exists (str_of L it ++ u), v.
      rewrite render_cons, Eq. now rewrite <- app_assoc.
  Qed.

  Lemma banned_factor : forall u w v, avoids (u ++ w ++ v) = true -> banned w = false.
  Proof.
    intros u w v H. destruct (banned w) eqn:Eb; [|reflexivity]. exfalso.
    unfold banned in Eb. apply existsb_exists in Eb as (x & Hx & Hc).
    unfold avoids in H. rewrite forallb_forall in H. specialize (H x Hx).
    apply contains_spec in Hc as (a & b & ->).
    assert (C : contains x (u ++ (a ++ x ++ b) ++ v) = true).
    { apply contains_spec. exists (u ++ a), (b ++ v). now rewrite <- !app_assoc. }
    rewrite C in H. discriminate.
  Qed.

  Lemma nth_E' : forall i e, nth_error E i = Some e -> banned (e_str e) = false -> nth_error E' i = Some e.
  Proof. intros i e H Hb. unfold E'. rewrite nth_error_map, H. simpl. now rewrite Hb. Qed.

  Lemma valid_E' : no_Z = true -> forall ts r,
    (forall i, In (T i) ts -> exists e, nth_error E i = Some e /\ banned (e_str e) = false) ->
    Nat.eqb r Z = false -> valid M cls ok r ts = true ->
    render spell' ts = render spell ts /\ valid M cls' ok' r ts = true.
  Proof.
    intros HZ. unfold no_Z in HZ. apply andb_true_iff in HZ as [HZ0 HZ]. apply Nat.leb_le in HZ0.
    rewrite forallb_forall in HZ.
    induction ts as [|it ts IH]; intros r Hb Hr Hv.
    - split; [reflexivity|]. cbn [valid] in *. unfold ok'. rewrite Hr, Hv.
      destruct (Nat.eqb_spec 0 Z); [lia|reflexivity].
    - cbn [valid] in Hv. apply andb_true_iff in Hv as [Hv Hv3]. apply andb_true_iff in Hv as [Hv1 Hv2].
      assert (HbT : forall i, In (T i) ts -> exists e, nth_error E i = Some e /\ banned (e_str e) = false)
        by (intros; apply Hb; now right).
      destruct it as [i|c].
      + destruct (Hb i (or_introl eq_refl)) as (e & He & Hbe).
        pose proof (nth_E' i e He Hbe) as He'.
        pose proof (HZ e (nth_error_In _ _ He)) as HZe. apply andb_true_iff in HZe as [Z1 Z2].
        apply negb_true_iff in Z1, Z2.
        assert (N1 : nth i cls (0, 0) = (e_l e, e_r e))
          by (apply nth_error_nth; unfold cls; now rewrite nth_error_map, He).
        assert (N2 : nth i cls' (0, 0) = (e_l e, e_r e))
          by (apply nth_error_nth; unfold cls'; now rewrite nth_error_map, He').
        cbn [lc rc] in Hv2, Hv3. rewrite N1 in Hv2, Hv3. cbn [fst snd] in Hv2, Hv3.
        destruct (IH (e_r e) HbT Z2 Hv3) as [I1 I2]. split.
        * rewrite !render_cons, I1. f_equal. cbn [str_of]. unfold spell, spell'.
          rewrite !nth_error_nth with (x := e_str e); [reflexivity| |]; now rewrite nth_error_map, ?He, ?He'.
        * cbn [valid lc rc good]. rewrite N2. cbn [fst snd]. rewrite I2.
          assert (Hi : i <? length cls' = true).
          { apply Nat.ltb_lt. unfold cls'. rewrite map_length. apply nth_error_Some. now rewrite He'. }
          rewrite Hi. unfold ok'. now rewrite Hr, Z1, Hv2.
      + cbn [lc rc good] in *. assert (Z2 : Nat.eqb 1 Z = false) by (apply Nat.eqb_neq; lia).
        destruct (IH 1 HbT Z2 Hv3) as [I1 I2]. split; [now rewrite !render_cons, I1|].
        cbn [valid lc rc good]. rewrite Hv1, I2. unfold ok'. now rewrite Hr, Z2, Hv2.
  Qed.

  Lemma valid_T : forall ts r, valid M cls ok r ts = true -> forall i, In (T i) ts -> exists e, nth_error E i = Some e.
  Proof.
    induction ts as [|it ts IH]; intros r H i Hi; [easy|]. cbn [valid] in H.
    apply andb_true_iff in H as [H H3]. apply andb_true_iff in H as [H1 H2].
    destruct Hi as [->|Hi]; [|now apply (IH _ H3)].
    cbn [good] in H1. apply Nat.ltb_lt in H1. unfold cls in H1. rewrite map_length in H1.
    apply nth_error_Some in H1. destruct (nth_error E i); [eauto|congruence].
  Qed.

  Theorem tokens_ok' : check = true -> no_Z = true -> forall s, wf_text 0 s = true -> avoids s = true ->
    render spell' (tokens s) = s /\ valid M cls' ok' 0 (tokens s) = true.
  Proof.
    intros Hc HZ s Hw Ha. destruct (tokens_ok Hc s Hw) as [H1 H2].
    destruct (valid_E' HZ (tokens s) 0) as [G1 G2].
    - intros i Hi. destruct (valid_T _ _ H2 i Hi) as [e He]. exists e. split; [assumption|].
      destruct (render_factor spell _ _ Hi) as (u & v & Eq).
      assert (En : nth i spell [] = e_str e)
        by (apply nth_error_nth; unfold spell; now rewrite nth_error_map, He).
      rewrite En, H1 in Eq. apply banned_factor with (u := u) (v := v). now rewrite <- Eq.
    - unfold no_Z in HZ. apply andb_true_iff in HZ as [HZ _]. apply Nat.leb_le in HZ. apply Nat.eqb_neq. lia.
    - assumption.
    - split; [now rewrite G1|assumption].
  Qed.
End Tokenise.
