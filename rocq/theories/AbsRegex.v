(** * Abstract regular-expression matching.

    The matcher [m] of Regex.v run on texts of which only part is known: each
    known position carries a finite set of possible characters, perhaps "some
    foreign character" (any character outside the ranges [M]) and perhaps "the
    text ends here".  [m_abs] answers "yes" or "no" only if every concrete text
    agrees.  This file does not model code of /repo; it is proof machinery. *)
From Coq Require Import List NArith ZArith Bool Lia Arith.
From Verif Require Import PyStr Regex.
Import ListNotations.
Local Open Scope nat_scope.

(** Boolean connectives that do not compute their second argument needlessly
    (the virtual machine evaluates the arguments of [andb] and [orb]). *)
Notation "a <&> b" := (if a then b else false) (at level 40, left associativity).
Notation "a <|> b" := (if a then true else b) (at level 50, left associativity).
Definition any {A} (f : A -> bool) : list A -> bool :=
  fix any (l : list A) : bool := match l with [] => false | a :: l' => f a <|> any l' end.
Definition all {A} (f : A -> bool) : list A -> bool :=
  fix all (l : list A) : bool := match l with [] => true | a :: l' => f a <&> all l' end.
Lemma any_existsb : forall A (f : A -> bool) l, any f l = existsb f l.
Proof. reflexivity. Qed.
Lemma all_forallb : forall A (f : A -> bool) l, all f l = forallb f l.
Proof. reflexivity. Qed.
Lemma any_exists : forall A (f : A -> bool) l, any f l = true <-> exists x, In x l /\ f x = true.
Proof. intros A f l. rewrite any_existsb. apply existsb_exists. Qed.
Lemma all_forall : forall A (f : A -> bool) l, all f l = true <-> forall x, In x l -> f x = true.
Proof. intros A f l. rewrite all_forallb. apply forallb_forall. Qed.

Definition memN (c : N) (l : list N) : bool := any (N.eqb c) l.

Lemma memN_In : forall c l, memN c l = true <-> In c l.
Proof.
  intros c l. unfold memN. rewrite any_exists. split.
  - intros (d & Hd & E). apply N.eqb_eq in E. now subst.
  - intros H. exists c. now rewrite N.eqb_refl.
Qed.

(** Sets of characters. *)
Inductive cset := CE | CN (l : cset) (b : bool) (r : cset).

Fixpoint cs_mem_p (p : positive) (t : cset) : bool :=
  match t with
  | CE => false
  | CN l b r => match p with xH => b | xO q => cs_mem_p q l | xI q => cs_mem_p q r end
  end.
Fixpoint cs_add_p (p : positive) (t : cset) : cset :=
  match p with
  | xH => match t with CE => CN CE true CE | CN l _ r => CN l true r end
  | xO q => match t with CE => CN (cs_add_p q CE) false CE | CN l b r => CN (cs_add_p q l) b r end
  | xI q => match t with CE => CN CE false (cs_add_p q CE) | CN l b r => CN l b (cs_add_p q r) end
  end.
Definition cs_mem (c : N) (t : cset) : bool := cs_mem_p (N.succ_pos c) t.
Definition cs_add (c : N) (t : cset) : cset := cs_add_p (N.succ_pos c) t.

Lemma cs_mem_add_p : forall p q t, cs_mem_p q (cs_add_p p t) = Pos.eqb q p || cs_mem_p q t.
Proof.
  assert (E : forall q, cs_mem_p q CE = false) by (now intros []).
  induction p as [p IH|p IH|]; intros [q|q|] [|l b r]; simpl; try reflexivity;
    rewrite ?IH, ?E; reflexivity.
Qed.

Lemma cs_mem_add : forall c d t, cs_mem d (cs_add c t) = N.eqb d c || cs_mem d t.
Proof.
  intros c d t. unfold cs_mem, cs_add. rewrite cs_mem_add_p. f_equal.
  destruct (N.eqb_spec d c) as [->|H]; [apply Pos.eqb_refl|].
  apply Pos.eqb_neq. intros E. apply H. apply N.succ_inj.
  rewrite <- !N.succ_pos_spec. now rewrite E.
Qed.

Record aelt := AE { cs : list N; fo : bool; en : bool }.

Inductive tri := TY | TN | TU.

Section M.
  (** The code points that are *not* foreign, as closed ranges. *)
  Variable M : list (N * N).

  Definition foreign (c : N) : bool :=
    negb (any (fun p => (fst p <=? c)%N <&> (c <=? snd p)%N) M).

  Definition inset (e : aelt) (c : N) : Prop :=
    In c (cs e) \/ (fo e = true /\ foreign c = true).

  (** [arel l s]: the text [s] is described by [l] as far as [l] goes. *)
  Fixpoint arel (l : list aelt) (s : str) : Prop :=
    match l with
    | [] => True
    | e :: l' => match s with
                 | [] => en e = true
                 | c :: s' => inset e c /\ arel l' s'
                 end
    end.

  (** Character tests. *)
  Inductive cpred := PChar (c : N) | PAny | PSet (neg : bool) (l : list citem).
  Definition ceval (p : cpred) (c : N) : bool :=
    match p with
    | PChar d => N.eqb d c
    | PAny => negb (c =? 10)%N
    | PSet neg l => in_set neg l c
    end.

  (** The answer for all foreign characters at once, if it is the same. *)
  Definition in_M (lo hi : N) : bool :=
    any (fun p => (fst p <=? lo)%N <&> (hi <=? snd p)%N) M.
  Definition ftest (p : cpred) : tri :=
    match p with
    | PChar d => if foreign d then TU else TN
    | PAny => if foreign 10 then TU else TY
    | PSet neg l =>
        if all (fun i => match i with CRange lo hi => in_M lo hi | CCls _ _ => false end) l
        then if neg then TY else TN
        else TU
    end.

  (** [ceval p], computed with a set if there are many characters to test. *)
  Definition singles (l : list citem) : cset :=
    fold_left (fun t i => match i with CRange lo hi => if N.eqb lo hi then cs_add lo t else t | _ => t end) l CE.
  Definition ranges_of (l : list citem) : list citem :=
    filter (fun i => match i with CRange lo hi => negb (N.eqb lo hi) | _ => true end) l.
  Definition cfast (p : cpred) (l : list N) : N -> bool :=
    match p, l with
    | PSet neg items, _ :: _ :: _ =>
        let t := singles items in
        let r := ranges_of items in
        fun c => xorb neg (cs_mem c t <|> any (fun i => in_item i c) r)
    | _, _ => ceval p
    end.

  Lemma cfast_ok : forall p l c, cfast p l c = ceval p c.
  Proof.
    intros [d| |neg items] [|a [|b l]] c; try reflexivity. cbn [cfast ceval]. cbv zeta. unfold in_set. f_equal.
    unfold singles, ranges_of. rewrite any_existsb.
    assert (G : forall its t, (if cs_mem c (fold_left (fun t i => match i with CRange lo hi => if N.eqb lo hi then cs_add lo t else t | _ => t end) its t)
                  then true else existsb (fun i => in_item i c)
                    (filter (fun i => match i with CRange lo hi => negb (N.eqb lo hi) | _ => true end) its))
                = (cs_mem c t || existsb (fun i => in_item i c) its)).
    { clear. induction its as [|i its IH]; intros t; cbn [fold_left filter existsb].
      - now destruct (cs_mem c t).
      - destruct i as [lo hi|k n].
        + destruct (N.eqb_spec lo hi) as [<-|Hn]; cbn [negb existsb].
          * rewrite IH, cs_mem_add. cbn [in_item].
            replace ((lo <=? c) && (c <=? lo))%N with (N.eqb c lo); [destruct (N.eqb c lo), (cs_mem c t); reflexivity|].
            destruct (N.eqb_spec c lo) as [->|H]; [now rewrite N.leb_refl|].
            destruct (N.leb_spec lo c), (N.leb_spec c lo); try reflexivity. lia.
          * specialize (IH t). destruct (cs_mem c (fold_left _ its t)).
            -- destruct (cs_mem c t), (in_item (CRange lo hi) c); try reflexivity; exact IH.
            -- rewrite IH. destruct (cs_mem c t), (in_item (CRange lo hi) c); reflexivity.
        + specialize (IH t). destruct (cs_mem c (fold_left _ its t)).
          * destruct (cs_mem c t), (in_item (CCls k n) c); try reflexivity; exact IH.
          * cbn [existsb]. rewrite IH. destruct (cs_mem c t), (in_item (CCls k n) c); reflexivity. }
    rewrite G. unfold cs_mem. now destruct (N.succ_pos c).
  Qed.

  Definition test (p : cpred) (e : aelt) : tri :=
    let f := cfast p (cs e) in
    let yes := any f (cs e) <|> (fo e <&> match ftest p with TN => false | _ => true end) in
    if negb yes then TN
    else
      let no := any (fun c => negb (f c)) (cs e) <|> (fo e <&> match ftest p with TY => false | _ => true end) <|> en e in
      if no then TU else TY.

  Lemma any_ext : forall A (f g : A -> bool) l, (forall x, f x = g x) -> any f l = any g l.
  Proof. intros A f g l H. induction l as [|x l IH]; [reflexivity|]. cbn [any]. now rewrite H, IH. Qed.

  Lemma test_eq : forall p e, test p e =
    let fy := match ftest p with TN => false | _ => true end in
    let fn := match ftest p with TY => false | _ => true end in
    let yes := existsb (ceval p) (cs e) || (fo e && fy) in
    if negb yes then TN
    else
      let no := existsb (fun c => negb (ceval p c)) (cs e) || (fo e && fn) || en e in
      if no then TU else TY.
  Proof.
    intros p e. unfold test. cbv zeta. rewrite (any_ext _ _ _ _ (cfast_ok p (cs e))).
    rewrite (any_ext _ (fun c => negb (cfast p (cs e) c)) (fun c => negb (ceval p c))) by (intros c; now rewrite cfast_ok).
    rewrite !any_existsb. reflexivity.
  Qed.

  Lemma foreign_not_M : forall c lo hi, foreign c = true -> in_M lo hi = true ->
    (lo <=? c)%N && (c <=? hi)%N = false.
  Proof.
    intros c lo hi Hf HM.
    change (negb (existsb (fun p => (fst p <=? c)%N && (c <=? snd p)%N) M) = true) in Hf. apply negb_true_iff in Hf.
    unfold in_M in HM. apply any_exists in HM as ([a b] & Hin & E).
    apply andb_true_iff in E as [E1 E2]. simpl in *.
    apply andb_false_iff.
    destruct (N.leb_spec lo c); [right|now left].
    destruct (N.leb_spec c hi); [|reflexivity].
    exfalso. assert (X : existsb (fun p => (fst p <=? c)%N && (c <=? snd p)%N) M = true).
    { apply existsb_exists. exists (a, b). split; [assumption|]. simpl.
      apply N.leb_le in E1, E2. apply andb_true_iff. split; apply N.leb_le; lia. }
    congruence.
  Qed.

  Lemma ftest_ok : forall p c, foreign c = true ->
    match ftest p with TY => ceval p c = true | TN => ceval p c = false | TU => True end.
  Proof.
    intros [d| |neg l] c Hf; simpl.
    - destruct (foreign d) eqn:E; [exact I|]. apply N.eqb_neq. congruence.
    - destruct (foreign 10) eqn:E; [exact I|]. apply negb_true_iff, N.eqb_neq. congruence.
    - rewrite all_forallb. destruct (forallb _ l) eqn:E; [|exact I].
      assert (X : existsb (fun i => in_item i c) l = false).
      { destruct (existsb _ l) eqn:X; [|reflexivity]. apply existsb_exists in X as (i & Hi & Hc).
        rewrite forallb_forall in E. specialize (E i Hi). destruct i as [lo hi|k n]; [|discriminate].
        simpl in Hc. now rewrite (foreign_not_M c lo hi Hf E) in Hc. }
      unfold in_set. rewrite X. now destruct neg.
  Qed.

  Lemma test_yes : forall p e c, inset e c -> test p e = TY -> ceval p c = true.
  Proof.
    intros p e c Hc H. rewrite test_eq in H. cbv zeta in H.
    destruct (existsb (ceval p) (cs e) || _) eqn:Ey; simpl in H; [|discriminate].
    destruct (existsb (fun c => negb (ceval p c)) (cs e) || _ || en e) eqn:En; [discriminate|].
    apply orb_false_iff in En as [En _]. apply orb_false_iff in En as [En1 En2].
    destruct Hc as [Hc|[Hf Hc]].
    - destruct (ceval p c) eqn:E; [reflexivity|].
      assert (existsb (fun c => negb (ceval p c)) (cs e) = true)
        by (apply existsb_exists; exists c; now rewrite E). congruence.
    - rewrite Hf in En2. simpl in En2. pose proof (ftest_ok p c Hc) as X.
      destruct (ftest p); congruence.
  Qed.

  Lemma test_yes_en : forall p e, test p e = TY -> en e = false.
  Proof.
    intros p e H. rewrite test_eq in H. cbv zeta in H.
    destruct (existsb (ceval p) (cs e) || _); simpl in H; [|discriminate].
    destruct (en e); [|reflexivity]. rewrite orb_true_r in H. discriminate.
  Qed.

  Lemma test_no : forall p e c, inset e c -> test p e = TN -> ceval p c = false.
  Proof.
    intros p e c Hc H. rewrite test_eq in H. cbv zeta in H.
    destruct (existsb (ceval p) (cs e) || _) eqn:Ey; simpl in H.
    - destruct (existsb (fun c => negb (ceval p c)) (cs e) || _ || en e); discriminate.
    - apply orb_false_iff in Ey as [E1 E2]. destruct Hc as [Hc|[Hf Hc]].
      + destruct (ceval p c) eqn:E; [|reflexivity].
        assert (existsb (ceval p) (cs e) = true) by (apply existsb_exists; now exists c). congruence.
      + rewrite Hf in E2. simpl in E2. pose proof (ftest_ok p c Hc) as X.
        destruct (ftest p); congruence.
  Qed.

  (* ---------------------------------------------------------------- *)
  (** ** Abstract positions *)

  Record ast := ASt { abef : list aelt; aaft : list aelt; acaps : list (nat * option str) }.
  Inductive ares := AYes (a : ast) | ANo | AUnk.

  Definition cap_rel (x : nat * option str) (y : nat * str) : Prop :=
    fst x = fst y /\ match snd x with Some t => snd y = t | None => True end.

  (** [d]: how much longer the text after the position is than its description. *)
  Definition Rel (d : Z) (a : ast) (s : st) : Prop :=
    arel (abef a) (bef s) /\ arel (aaft a) (aft s) /\ Forall2 cap_rel (acaps a) (caps s)
    /\ (Z.of_nat (length (aft s)) - Z.of_nat (length (aaft a)) = d)%Z.

  (** If the test might fail, only a failure of what follows is known. *)
  Definition soft (x : ares) : ares := match x with ANo => ANo | _ => AUnk end.

  Definition astep (p : cpred) (a : ast) (k : ast -> ares) : ares :=
    match aaft a with
    | [] => AUnk
    | e :: l => match test p e with
                | TY => k (ASt (e :: abef a) l (acaps a))
                | TN => ANo
                | TU => soft (k (ASt (AE (filter (cfast p (cs e)) (cs e)) (fo e) false :: abef a) l (acaps a)))
                end
    end.

  Fixpoint astep_lit (x : str) (a : ast) (k : ast -> ares) : ares :=
    match x with
    | [] => k a
    | c :: x' => astep (PChar c) a (fun a' => astep_lit x' a' k)
    end.

  (** The text of a list of elements that admit one text only. *)
  Fixpoint conc (l : list aelt) : option str :=
    match l with
    | [] => Some []
    | AE [c] false _ :: l' => option_map (cons c) (conc l')
    | _ => None
    end.

  Definition aconsumed (a a' : ast) : option str :=
    conc (firstn (length (aaft a) - length (aaft a')) (aaft a)).

  Fixpoint acap (n : nat) (l : list (nat * option str)) : option (option str) :=
    match l with
    | [] => None
    | (m, s) :: t => if Nat.eqb m n then Some s else acap n t
    end.

  Definition no_end (e : aelt) : aelt := AE (cs e) (fo e) false.
  Definition only_end (e : aelt) : bool :=
    match cs e with [] => negb (fo e) && en e | _ => false end.

  (** [back] on descriptions: [BNone] cannot go back that far, [BSome may a]:
      the position reached, unless ([may]) the text begins earlier. *)
  Inductive bres := BNone | BSome (may : bool) (a : ast) | BUnk.
  Fixpoint aback (w : nat) (may : bool) (a : ast) : bres :=
    match w with
    | O => BSome may a
    | S w' => match abef a with
              | [] => BUnk
              | e :: b => if only_end e then BNone
                          else aback w' (may || en e) (ASt b (no_end e :: aaft a) (acaps a))
              end
    end.

  (** Is the neighbouring character a word character (TN at the ends)? *)
  Definition aword (l : list aelt) : tri :=
    match l with
    | [] => TU
    | e :: _ =>
        if only_end e then TN
        else if fo e then TU
        else if forallb is_word (cs e) then (if en e then TU else TY)
        else if forallb (fun c => negb (is_word c)) (cs e) then TN
        else TU
    end.

  (** Patterns that capture nothing. *)
  Fixpoint plain (r : re) : bool :=
    match r with
    | REps | RChar _ | RAny | RSet _ _ => true
    | RSeq x y | RAlt x y => plain x <&> plain y
    | _ => false
    end.

  Fixpoint m_abs (r : re) (a : ast) (k : ast -> ares) {struct r} : ares :=
    match r with
    | REps => k a
    | RChar c => astep (PChar c) a k
    | RAny => astep PAny a k
    | RSet neg l => astep (PSet neg l) a k
    | RSeq x y => m_abs x a (fun a' => m_abs y a' k)
    | RAlt x y => match m_abs x a k with
                  | AYes b => AYes b
                  | ANo => m_abs y a k
                  | AUnk => AUnk
                  end
    | RGroup n x => m_abs x a (fun a' => k (ASt (abef a') (aaft a') ((n, aconsumed a a') :: acaps a')))
    | RBack n => match acap n (acaps a) with
                 | Some (Some x) => astep_lit x a k
                 | Some None => AUnk
                 | None => ANo
                 end
    | RRep greedy lo hi x =>
        let fix opt (fuel : nat) (left : option nat) (a : ast) {struct fuel} : ares :=
          let more := match left with Some O => false | _ => true end in
          match fuel with
          | O => AUnk
          | S fuel' =>
              let iter (_ : unit) :=
                if more then
                  m_abs x a (fun a' =>
                    if Nat.eqb (length (aaft a')) (length (aaft a)) then ANo
                    else opt fuel' (option_map pred left) a')
                else ANo in
              if greedy then
                match iter tt with AYes b => AYes b | ANo => k a | AUnk => AUnk end
              else
                match k a with AYes b => AYes b | ANo => iter tt | AUnk => AUnk end
          end in
        let fix mand (n : nat) (a : ast) {struct n} : ares :=
          match n with
          | O => opt (S (length (aaft a))) (option_map (fun h => (h - lo)%nat) hi) a
          | S n' => m_abs x a (fun a' => mand n' a')
          end in
        mand lo a
    | RLook true neg _ x =>
        match m_abs x a AYes with
        | AYes a' => if neg then ANo else k (ASt (abef a) (aaft a) (acaps a'))
        | ANo => if neg then k a else ANo
        | AUnk => if plain x then soft (k a) else AUnk
        end
    | RLook false neg w x =>
        match aback w false a with
        | BUnk => if plain x then soft (k a) else AUnk
        | BNone => if neg then k a else ANo
        | BSome may ab =>
            match m_abs x ab (fun a' => if Nat.eqb (length (aaft a')) (length (aaft a))
                                        then AYes a' else ANo) with
            | AYes a' => if may then (if plain x then soft (k a) else AUnk)
                         else if neg then ANo else k (ASt (abef a) (aaft a) (acaps a'))
            | ANo => if neg then k a else ANo
            | AUnk => if plain x then soft (k a) else AUnk
            end
        end
    | RBeg => match abef a with
              | [] => AUnk
              | e :: _ => if only_end e then k a else if en e then soft (k a) else ANo
              end
    | REndStr => match aaft a with
                 | [] => AUnk
                 | e :: _ => if only_end e then k a else if en e then soft (k a) else ANo
                 end
    | REndLine => match aaft a with
                  | [] => AUnk
                  | e :: _ => if only_end e then k a
                              else if en e || memN 10 (cs e) || (fo e && foreign 10) then soft (k a) else ANo
                  end
    | RWordB neg => match aword (abef a), aword (aaft a) with
                    | TU, _ | _, TU => soft (k a)
                    | p, n =>
                        let b := match p, n with TY, TN | TN, TY => true | _, _ => false end in
                        if xorb neg b then k a else ANo
                    end
    end.

  (* ---------------------------------------------------------------- *)
  (** ** Soundness *)

  Definition res_ok (d : Z) (x : ares) (y : option st) : Prop :=
    match x with
    | AYes b => exists t, y = Some t /\ Rel d b t
    | ANo => y = None
    | AUnk => True
    end.

  Definition k_ok (d : Z) (lim : nat) (ka : ast -> ares) (k : st -> option st) : Prop :=
    forall a' s', Rel d a' s' -> length (aft s') <= lim -> res_ok d (ka a') (k s').

  Lemma soft_ok : forall d x y, res_ok d x y -> res_ok d (soft x) y.
  Proof. intros d [b| |] y H; simpl; easy. Qed.
  Lemma soft_ok_None : forall d x, res_ok d (soft x) None.
  Proof. intros d [b| |]; simpl; easy. Qed.

  Lemma only_end_inset : forall e c, only_end e = true -> inset e c -> False.
  Proof.
    intros [l f n] c H [Hc|[Hf _]]; unfold only_end in H; simpl in *.
    - now destruct l.
    - subst. now destruct l.
  Qed.

  Lemma astep_ok : forall p d a s ka k lim,
    Rel d a s -> length (aft s) <= lim -> k_ok d lim ka k ->
    res_ok d (astep p a ka) (step1 (ceval p) s k).
  Proof.
    intros p d [ab aa ac] [b f c] ka k lim (Hb & Ha & Hc & Hd) Hl Hk. unfold astep, step1. simpl in *.
    destruct aa as [|e l]; [exact I|].
    destruct (test p e) eqn:E.
    3:{ destruct f as [|x f]; [apply soft_ok_None|]. destruct Ha as [Hx Ha].
        destruct (ceval p x) eqn:Ex; [|apply soft_ok_None].
        apply soft_ok, Hk; simpl.
        - repeat split; simpl; try assumption.
          + destruct Hx as [Hx|Hx]; [left|now right]. simpl. apply filter_In. split; [assumption|now rewrite cfast_ok].
          + rewrite <- Hd. simpl length. lia.
        - simpl in Hl. lia. }
    - destruct f as [|x f]; simpl in Ha.
      + rewrite (test_yes_en _ _ E) in Ha. discriminate.
      + destruct Ha as [Hx Ha]. rewrite (test_yes _ _ _ Hx E). apply Hk; simpl.
        * repeat split; simpl; try assumption. rewrite <- Hd. simpl length. lia.
        * simpl in Hl. lia.
    - destruct f as [|x f]; simpl in Ha; [reflexivity|].
      destruct Ha as [Hx Ha]. rewrite (test_no _ _ _ Hx E). reflexivity.
  Qed.

  Lemma astep_lit_ok : forall x d a s ka k lim,
    Rel d a s -> length (aft s) <= lim -> k_ok d lim ka k ->
    res_ok d (astep_lit x a ka) (step_lit x s k).
  Proof.
    induction x as [|c x IH]; intros d a s ka k lim HR Hl Hk; simpl; [now apply Hk|].
    change (step1 (N.eqb c)) with (step1 (ceval (PChar c))).
    apply astep_ok with (lim := lim); try assumption.
    intros a' s' HR' Hl'. now apply IH with (lim := lim).
  Qed.

  Lemma acap_ok : forall n l l', Forall2 cap_rel l l' ->
    match acap n l with
    | None => cap n l' = None
    | Some x => exists t, cap n l' = Some t /\ match x with Some u => t = u | None => True end
    end.
  Proof.
    intros n l l' H. induction H as [|[m x] [m' x'] l l' [E1 E2] H IH]; simpl; [reflexivity|].
    simpl in E1, E2. subst m'. destruct (Nat.eqb m n); [|exact IH].
    exists x'. split; [reflexivity|]. now destruct x.
  Qed.

  Lemma conc_ok : forall l s t, arel l s -> length l <= length s -> conc l = Some t ->
    firstn (length l) s = t.
  Proof.
    induction l as [|e l IH]; intros s t H Hl E; simpl in E.
    - injection E as <-. reflexivity.
    - destruct s as [|c s]; [simpl in Hl; lia|]. destruct H as [Hc H].
      destruct e as [[|x [|y xs]] [|] n]; try discriminate.
      destruct (conc l) as [u|] eqn:Eu; [|discriminate]. injection E as <-.
      simpl. f_equal.
      + destruct Hc as [[->|[]]|[F _]]; [reflexivity|discriminate].
      + apply IH; [assumption|simpl in Hl; lia|reflexivity].
  Qed.

  Lemma arel_firstn : forall n l s, arel l s -> arel (firstn n l) s.
  Proof.
    induction n as [|n IH]; intros [|e l] s H; simpl; try exact I.
    destruct s as [|c s]; simpl in H; [exact H|]. destruct H as [H1 H2]. split; [assumption|now apply IH].
  Qed.

  (** Text between two positions. *)
  Lemma aconsumed_ok : forall d a s a' s', Rel d a s -> Rel d a' s' ->
    length (aft s') <= length (aft s) ->
    match aconsumed a a' with Some u => consumed s s' = u | None => True end.
  Proof.
    intros d a s a' s' (_ & Ha & _ & Hd) (_ & _ & _ & Hd') Hl.
    unfold aconsumed, consumed.
    assert (E : length (aft s) - length (aft s') = length (aaft a) - length (aaft a')) by lia.
    rewrite E. set (n := length (aaft a) - length (aaft a')) in *.
    destruct (conc (firstn n (aaft a))) as [u|] eqn:Eu; [|exact I].
    assert (Hn : length (firstn n (aaft a)) = n) by (rewrite firstn_length; lia).
    rewrite <- Hn at 1. apply conc_ok; [now apply arel_firstn| |assumption].
    rewrite Hn. lia.
  Qed.

  Lemma aback_ok : forall w may d a s, Rel d a s ->
    match aback w may a with
    | BUnk => True
    | BNone => back w s = None
    | BSome may' ab =>
        match back w s with
        | Some sb => Rel d ab sb /\ caps sb = caps s
        | None => may' = true
        end
    end.
  Proof.
    induction w as [|w IH]; intros may d a s HR; simpl; [now split|].
    destruct a as [ab aa ac], s as [b f c]. destruct HR as (Hb & Ha & Hc & Hd). simpl in *.
    destruct ab as [|e ab]; [exact I|].
    destruct (only_end e) eqn:Eo.
    - destruct b as [|x b]; [reflexivity|]. simpl in Hb. destruct Hb as [Hx _].
      exfalso. now apply (only_end_inset e x).
    - destruct b as [|x b]; simpl in Hb.
      + (* the text begins here *)
        rewrite Hb, orb_true_r. clear - Hb. 
        assert (X : forall w a, match aback w true a with BUnk => True | BNone => True | BSome m _ => m = true end).
        { clear. induction w as [|w IH]; intros a; simpl; [reflexivity|].
          destruct (abef a) as [|e b]; [exact I|]. destruct (only_end e); [exact I|].
          simpl. apply IH. }
        specialize (X w {| abef := ab; aaft := no_end e :: aa; acaps := ac |}).
        destruct (aback w true _); [reflexivity|assumption|exact I].
      + destruct Hb as [Hx Hb].
        specialize (IH (may || en e) d {| abef := ab; aaft := no_end e :: aa; acaps := ac |}
                      {| bef := b; aft := x :: f; caps := c |}).
        apply IH. split; [assumption|]. split; [now split|]. split; [assumption|].
        cbn [aft aaft length]. lia.
  Qed.

  (** Whether a position can be gone back to does not depend on the characters. *)
  Lemma aword_ok : forall l s, arel l s ->
    let b := match s with c :: _ => is_word c | [] => false end in
    match aword l with TY => b = true | TN => b = false | TU => True end.
  Proof.
    intros [|e l] s H; simpl; [exact I|].
    destruct (only_end e) eqn:Eo.
    - destruct s as [|c s]; [reflexivity|]. simpl in H. destruct H as [Hx _].
      exfalso. now apply (only_end_inset e c).
    - destruct (fo e) eqn:Ef; [exact I|].
      destruct (forallb is_word (cs e)) eqn:E1.
      + destruct (en e) eqn:Ee; [exact I|]. destruct s as [|c s]; simpl in H; [congruence|].
        destruct H as [[Hx|[F _]] _]; [|congruence]. rewrite forallb_forall in E1. now apply E1.
      + destruct (forallb (fun c => negb (is_word c)) (cs e)) eqn:E2; [|exact I].
        destruct s as [|c s]; [reflexivity|]. simpl in H.
        destruct H as [[Hx|[F _]] _]; [|congruence]. rewrite forallb_forall in E2.
        apply negb_true_iff. now apply E2.
  Qed.

  (** The two loops of a repetition, named. *)
  Definition copt (mx : st -> (st -> option st) -> option st) (greedy : bool) (k : st -> option st) :=
    fix opt (fuel : nat) (left : option nat) (s : st) {struct fuel} : option st :=
        let more := match left with Some O => false | _ => true end in
        match fuel with
        | O => k s
        | S fuel' =>
            let iter (_ : unit) :=
              if more then
                mx s (fun s' =>
                  if Nat.eqb (length (aft s')) (length (aft s)) then None
                  else opt fuel' (option_map pred left) s')
              else None in
            if greedy then
              match iter tt with Some x => Some x | None => k s end
            else
              match k s with Some x => Some x | None => iter tt end
        end.
  Definition cmand (mx : st -> (st -> option st) -> option st)
      (opt : nat -> option nat -> st -> option st) (left : option nat) :=
    fix mand (n : nat) (s : st) {struct n} : option st :=
        match n with
        | O => opt (S (length (aft s))) left s
        | S n' => mx s (fun s' => mand n' s')
        end.
  Definition aopt (mx : ast -> (ast -> ares) -> ares) (greedy : bool) (k : ast -> ares) :=
    fix opt (fuel : nat) (left : option nat) (a : ast) {struct fuel} : ares :=
          let more := match left with Some O => false | _ => true end in
          match fuel with
          | O => AUnk
          | S fuel' =>
              let iter (_ : unit) :=
                if more then
                  mx a (fun a' =>
                    if Nat.eqb (length (aaft a')) (length (aaft a)) then ANo
                    else opt fuel' (option_map pred left) a')
                else ANo in
              if greedy then
                match iter tt with AYes b => AYes b | ANo => k a | AUnk => AUnk end
              else
                match k a with AYes b => AYes b | ANo => iter tt | AUnk => AUnk end
          end.
  Definition amand (mx : ast -> (ast -> ares) -> ares)
      (opt : nat -> option nat -> ast -> ares) (left : option nat) :=
    fix mand (n : nat) (a : ast) {struct n} : ares :=
          match n with
          | O => opt (S (length (aaft a))) left a
          | S n' => mx a (fun a' => mand n' a')
          end.

  Lemma m_rep : forall g lo hi x s k,
    m (RRep g lo hi x) s k = cmand (m x) (copt (m x) g k) (option_map (fun h => (h - lo)%nat) hi) lo s.
  Proof. reflexivity. Qed.
  Lemma m_abs_rep : forall g lo hi x a k,
    m_abs (RRep g lo hi x) a k = amand (m_abs x) (aopt (m_abs x) g k) (option_map (fun h => (h - lo)%nat) hi) lo a.
  Proof. reflexivity. Qed.

  Definition mx_ok (mxa : ast -> (ast -> ares) -> ares) (mx : st -> (st -> option st) -> option st) : Prop :=
    forall d a s ka k, Rel d a s -> k_ok d (length (aft s)) ka k -> res_ok d (mxa a ka) (mx s k).

  Lemma k_ok_le : forall d n n' ka k, n' <= n -> k_ok d n ka k -> k_ok d n' ka k.
  Proof. intros d n n' ka k Hl Hk a s HR H. apply Hk; [assumption|lia]. Qed.

  Lemma aopt_ok : forall mxa mx g ka k d lim, mx_ok mxa mx -> k_ok d lim ka k ->
    forall fa fc left a s, Rel d a s -> length (aft s) <= lim -> length (aft s) < fc ->
    res_ok d (aopt mxa g ka fa left a) (copt mx g k fc left s).
  Proof.
    intros mxa mx g ka k d lim Hmx Hk. induction fa as [|fa IH]; intros fc left a s HR Hl Hf; [exact I|].
    destruct fc as [|fc]; [lia|]. simpl.
    set (more := match left with Some 0 => false | _ => true end).
    assert (Hiter : res_ok d
      (if more then mxa a (fun a' => if length (aaft a') =? length (aaft a) then ANo
                                     else aopt mxa g ka fa (option_map pred left) a') else ANo)
      (if more then mx s (fun s' => if length (aft s') =? length (aft s) then None
                                    else copt mx g k fc (option_map pred left) s') else None)).
    { destruct more; [|reflexivity]. apply (Hmx d); [assumption|].
      intros a' s' HR' Hl'.
      assert (E : (length (aaft a') =? length (aaft a)) = (length (aft s') =? length (aft s))).
      { destruct HR as (_ & _ & _ & H1), HR' as (_ & _ & _ & H2).
        destruct (Nat.eqb_spec (length (aaft a')) (length (aaft a)));
        destruct (Nat.eqb_spec (length (aft s')) (length (aft s))); lia || reflexivity. }
      rewrite E. destruct (Nat.eqb_spec (length (aft s')) (length (aft s))); [reflexivity|].
      apply IH; [assumption|lia|lia]. }
    pose proof (Hk a s HR Hl) as Hka.
    destruct g.
    - destruct (if more then mxa a _ else ANo) as [b| |].
      + destruct Hiter as (t & -> & Ht). now exists t.
      + rewrite Hiter. exact Hka.
      + exact I.
    - destruct (ka a) as [b| |].
      + destruct Hka as (t & -> & Ht). now exists t.
      + rewrite Hka. exact Hiter.
      + exact I.
  Qed.

  Lemma amand_ok : forall mxa mx g ka k d lim left, mx_ok mxa mx -> k_ok d lim ka k ->
    forall n a s, Rel d a s -> length (aft s) <= lim ->
    res_ok d (amand mxa (aopt mxa g ka) left n a) (cmand mx (copt mx g k) left n s).
  Proof.
    intros mxa mx g ka k d lim left Hmx Hk. induction n as [|n IH]; intros a s HR Hl; simpl.
    - apply (aopt_ok mxa mx g ka k d lim Hmx Hk (S (length (aaft a))) (S (length (aft s)))); auto.
    - apply Hmx; [assumption|]. intros a' s' HR' Hl'. apply IH; [assumption|lia].
  Qed.

  Lemma back_caps : forall w s sb, back w s = Some sb -> caps sb = caps s.
  Proof.
    induction w as [|w IH]; intros s sb H; cbn [back] in H; [now injection H as <-|].
    destruct (bef s) as [|c b]; [discriminate|]. now apply IH in H.
  Qed.

  Lemma m_plain : forall r, plain r = true -> forall s k t, m r s k = Some t ->
    exists s', caps s' = caps s /\ k s' = Some t.
  Proof.
    assert (step1_caps : forall f s k t, step1 f s k = Some t -> exists s', caps s' = caps s /\ k s' = Some t).
    { intros f s k t H. unfold step1 in H. destruct (aft s) as [|c u]; [discriminate|].
      destruct (f c); [|discriminate]. eexists. split; [|exact H]. reflexivity. }
    induction r as [ | c | | neg l | x IHx y IHy | x IHx y IHy | n x IHx | n | g lo hi x IHx
                   | ahead neg w x IHx | | | | neg ]; intros Hp s k t H; try discriminate;
      try (now apply step1_caps in H).
    - now exists s.
    - cbn [plain] in Hp. apply andb_true_iff in Hp as [Hx Hy]. cbn [m] in H.
      destruct (IHx Hx _ _ _ H) as (s1 & E1 & H1). destruct (IHy Hy _ _ _ H1) as (s2 & E2 & H2).
      exists s2. split; [congruence|assumption].
    - cbn [plain] in Hp. apply andb_true_iff in Hp as [Hx Hy]. cbn [m] in H.
      destruct (m x s k) as [u|] eqn:E; [injection H as E0; subst u; now apply IHx in E|now apply IHy in H].
  Qed.

  Lemma look_soft : forall d a s ka k n, Rel d a s -> k_ok d n ka k -> length (aft s) <= n ->
    forall t, (t = None \/ t = k s) -> res_ok d (soft (ka a)) t.
  Proof.
    intros d a s ka k n HR Hk Hl t [-> | ->]; [apply soft_ok_None|]. apply soft_ok. now apply Hk.
  Qed.

  Lemma st_eta : forall s, St (bef s) (aft s) (caps s) = s.
  Proof. now intros []. Qed.

  Lemma m_abs_ok : forall r, mx_ok (m_abs r) (m r).
  Proof.
    induction r as [ | c | | neg l | x IHx y IHy | x IHx y IHy | n x IHx | n | g lo hi x IHx
                   | ahead neg w x IHx | | | | neg ]; intros d a s ka k HR Hk.
    - now apply Hk.
    - change (res_ok d (astep (PChar c) a ka) (step1 (ceval (PChar c)) s k)).
      now apply astep_ok with (lim := length (aft s)).
    - change (res_ok d (astep PAny a ka) (step1 (ceval PAny) s k)).
      now apply astep_ok with (lim := length (aft s)).
    - change (res_ok d (astep (PSet neg l) a ka) (step1 (ceval (PSet neg l)) s k)).
      now apply astep_ok with (lim := length (aft s)).
    - simpl. apply IHx; [assumption|]. intros a' s' HR' Hl'. apply IHy; [assumption|].
      now apply k_ok_le with (n := length (aft s)).
    - simpl. pose proof (IHx d a s ka k HR Hk) as Hx. pose proof (IHy d a s ka k HR Hk) as Hy.
      destruct (m_abs x a ka).
      + destruct Hx as (t & -> & Ht). now exists t.
      + rewrite Hx. exact Hy.
      + exact I.
    - simpl. apply IHx; [assumption|]. intros a' s' HR' Hl'. apply Hk; [|assumption].
      pose proof (aconsumed_ok d a s a' s' HR HR' Hl') as Hc.
      destruct HR' as (Hb & Ha & Hcap & Hd). repeat split; simpl; try assumption.
      constructor; [|assumption]. split; [reflexivity|]. simpl.
      now destruct (aconsumed a a').
    - simpl. pose proof HR as (_ & _ & Hc & _). apply (acap_ok n) in Hc.
      destruct (acap n (acaps a)) as [[x|]|].
      + destruct Hc as (t & -> & ->). now apply astep_lit_ok with (lim := length (aft s)).
      + exact I.
      + now rewrite Hc.
    - rewrite m_rep, m_abs_rep. apply amand_ok with (lim := length (aft s)); auto.
    - destruct ahead; simpl.
      + assert (Hx : res_ok d (m_abs x a AYes) (m x s (fun s' => Some s'))).
        { apply IHx; [assumption|]. intros a' s' HR' _. now exists s'. }
        destruct (m_abs x a AYes) as [a'| |].
        * destruct Hx as (t & -> & Ht). destruct neg; [reflexivity|].
          apply Hk; [|simpl; lia]. destruct HR as (Hb & Ha & _ & Hd), Ht as (_ & _ & Hc & _).
          repeat split; simpl; assumption.
        * rewrite Hx. destruct neg; [|reflexivity]. apply Hk; [assumption|lia].
        * destruct (plain x) eqn:Ep; [|exact I]. apply (look_soft _ _ _ _ _ _ HR Hk (le_n _)).
          destruct (m x s _) as [s'|] eqn:E; [|destruct neg; auto].
          apply (m_plain x Ep) in E as (s1 & E1 & E2). injection E2 as ->. rewrite E1, st_eta.
          destruct neg; auto.
      + pose proof (aback_ok w false d a s HR) as Hback.
        assert (Hsoft : plain x = true -> res_ok d (soft (ka a))
          match back w s with
          | None => if neg then k s else None
          | Some sb =>
              match m x sb (fun s' => if length (aft s') =? length (aft s) then Some s' else None) with
              | Some s' => if neg then None else k (St (bef s) (aft s) (caps s'))
              | None => if neg then k s else None
              end
          end).
        { intros Ep. apply (look_soft _ _ _ _ _ _ HR Hk (le_n _)).
          destruct (back w s) as [sb|] eqn:Eb; [|destruct neg; auto].
          destruct (m x sb _) as [s'|] eqn:E; [|destruct neg; auto].
          apply (m_plain x Ep) in E as (s1 & E1 & E2).
          destruct (length (aft s1) =? length (aft s)); [|discriminate]. injection E2 as ->.
          rewrite E1, (back_caps _ _ _ Eb), st_eta. destruct neg; auto. }
        destruct (aback w false a) as [|may ab|];
          [| |destruct (plain x); [now apply Hsoft|exact I]].
        * rewrite Hback. destruct neg; [|reflexivity]. apply Hk; [assumption|lia].
        * destruct (back w s) as [sb|] eqn:Eb.
          -- destruct Hback as [HRb Hcb].
             assert (Hx : res_ok d
               (m_abs x ab (fun a' => if length (aaft a') =? length (aaft a) then AYes a' else ANo))
               (m x sb (fun s' => if length (aft s') =? length (aft s) then Some s' else None))).
             { apply IHx; [assumption|]. intros a' s' HR' _.
               assert (E : (length (aaft a') =? length (aaft a)) = (length (aft s') =? length (aft s))).
               { destruct HR as (_ & _ & _ & H1), HR' as (_ & _ & _ & H2).
                 destruct (Nat.eqb_spec (length (aaft a')) (length (aaft a)));
                 destruct (Nat.eqb_spec (length (aft s')) (length (aft s))); lia || reflexivity. }
               rewrite E. destruct (length (aft s') =? length (aft s)); [|reflexivity]. now exists s'. }
             destruct (m_abs x ab _) as [a'| |];
               [| |destruct (plain x); [now apply Hsoft|exact I]].
             ++ destruct may; [destruct (plain x); [now apply Hsoft|exact I]|].
                destruct Hx as (t & -> & Ht).
                destruct neg; [reflexivity|]. apply Hk; [|simpl; lia].
                destruct HR as (Hb & Ha & _ & Hd), Ht as (_ & _ & Hc & _).
                repeat split; simpl; assumption.
             ++ rewrite Hx. destruct neg; [|reflexivity]. apply Hk; [assumption|lia].
          -- destruct (m_abs x ab _) as [a'| |];
               [| |destruct (plain x); [now apply Hsoft|exact I]].
             ++ rewrite Hback in *. destruct (plain x); [now apply Hsoft|exact I].
             ++ destruct neg; [|reflexivity]. apply Hk; [assumption|lia].
    - simpl. pose proof HR as (Hb & _). pose proof (Hk a s HR (le_n _)) as Hka.
      destruct (abef a) as [|e b]; [exact I|].
      destruct (only_end e) eqn:Eo.
      + destruct (bef s) as [|c t]; [apply Hk; [assumption|lia]|].
        simpl in Hb. destruct Hb as [Hx _]. exfalso. now apply (only_end_inset e c).
      + destruct (en e) eqn:Ee; [destruct (bef s); [now apply soft_ok|now apply soft_ok_None]|]. destruct (bef s) as [|c t]; [|reflexivity].
        simpl in Hb. congruence.
    - simpl. pose proof HR as (_ & Hb & _). pose proof (Hk a s HR (le_n _)) as Hka.
      destruct (aaft a) as [|e b]; [exact I|].
      destruct (only_end e) eqn:Eo.
      + destruct (aft s) as [|c t] eqn:Es; [apply Hk; [assumption|rewrite Es; simpl; lia]|].
        simpl in Hb. destruct Hb as [Hx _]. exfalso. now apply (only_end_inset e c).
      + destruct (en e) eqn:Ee; [destruct (aft s); [now apply soft_ok|now apply soft_ok_None]|].
        destruct (aft s) as [|c t]; [|reflexivity].
        simpl in Hb. congruence.
    - simpl. pose proof HR as (_ & Hb & _). pose proof (Hk a s HR (le_n _)) as Hka.
      destruct (aaft a) as [|e b]; [exact I|].
      destruct (only_end e) eqn:Eo.
      + destruct (aft s) as [|c t] eqn:Es; [apply Hk; [assumption|rewrite Es; simpl; lia]|].
        simpl in Hb. destruct Hb as [Hx _]. exfalso. now apply (only_end_inset e c).
      + destruct (en e || memN 10 (cs e) || (fo e && foreign 10)) eqn:Ee.
        { destruct (aft s) as [|c [|c' t]]; [now apply soft_ok| |].
          - destruct (N.eqb_spec c 10) as [->|Hc]; [now apply soft_ok|].
            destruct c as [|p]; [now apply soft_ok_None|].
            repeat (destruct p as [p|p|]; try now apply soft_ok_None). congruence.
          - destruct c as [|p]; [now apply soft_ok_None|].
            repeat (destruct p as [p|p|]; try now apply soft_ok_None). }
        apply orb_false_iff in Ee as [Ee E3]. apply orb_false_iff in Ee as [E1 E2].
        destruct (aft s) as [|c t]; simpl in Hb; [congruence|].
        destruct Hb as [Hx _].
        assert (c <> 10%N).
        { intros ->. destruct Hx as [Hx|[Hf Hx]].
          - apply memN_In in Hx. congruence.
          - rewrite Hf, Hx in E3. discriminate. }
        destruct c as [|p]; [reflexivity|].
        repeat (destruct p as [p|p|]; try reflexivity). congruence.
    - simpl. pose proof HR as (Hb & Ha & _). apply aword_ok in Hb, Ha. simpl in Hb, Ha.
      pose proof (Hk a s HR (le_n _)) as Hka.
      assert (Hs : res_ok d (soft (ka a)) (if xorb neg (wordb s) then k s else None))
        by (destruct (xorb neg (wordb s)); [now apply soft_ok|now apply soft_ok_None]).
      destruct (aword (abef a)); [| |exact Hs]; destruct (aword (aaft a)); try exact Hs;
        unfold wordb; rewrite Hb, Ha; simpl; destruct neg; simpl; try reflexivity; apply Hk; (assumption || lia).
  Qed.
End M.
