(** * Static analysis of string programs.

    [analyze p L] computes how the program [p] changes the spelling of each
    token when that change is the same in every valid text; [analyze_ok] says
    that the whole text is then changed token by token, foreign characters
    being kept.  Proof machinery; no code of /repo is modelled here. *)
From Coq Require Import FMapPositive List NArith ZArith Bool Lia Arith.
From Verif Require Import PyStr Regex Unicode Prog StrFacts AbsRegex Behind Between Lead NormCut ReLits Lang.
Import ListNotations.
Local Open Scope nat_scope.

Section Analyze.
  Variable M : list (N * N).
  Variable cl : list (nat * nat).
  Variable ok : nat -> nat -> bool.
  Variable K : nat.
  (** Length of the contexts, and rounds used to compute them. *)
  Variable D rounds : nat.

  Notation valid := (valid M cl ok).
  Notation lc := (lc cl).
  Notation rc := (rc cl).

  (** The mirrored language: texts read backwards. *)
  Definition mcl : list (nat * nat) := map (fun p => (snd p, fst p)) cl.
  Definition mok (a b : nat) : bool := ok b a.
  Definition mL (L : list str) : list str := map (@rev N) L.

  Definition shape_ok : bool := classes_ok cl K && classes_ok mcl K.

  (** [ok] tabulated. *)
  Variables rows mrows : list (option (list bool)).
  Hypothesis rows_ok : rows = okrows cl ok K.
  Hypothesis mrows_ok : mrows = okrows mcl mok K.

  (* ---------------------------------------------------------------- *)
  (** ** Which characters can occur *)

  Definition chars_in (S : cset) (s : str) : Prop :=
    forall c, In c s -> cs_mem c S = true \/ foreign M c = true.

  Definition absent (S : cset) (c : N) : bool := negb (cs_mem c S) <&> negb (foreign M c).

  Lemma chars_in_render : forall S L ts prev, length L = length cl ->
    (forall s c, In s L -> In c s -> cs_mem c S = true) -> valid prev ts = true ->
    chars_in S (render L ts).
  Proof.
    intros S L ts prev HL HS. revert prev. induction ts as [|it ts IH]; intros prev H c Hc; [easy|].
    simpl in H. apply andb_true_iff in H as [H Hv]. apply andb_true_iff in H as [Hg _].
    apply in_app_or in Hc as [Hc|Hc]; [|now apply (IH (rc it))].
    destruct it as [i|d]; simpl in *.
    - left. apply HS with (s := nth i L []); [|assumption].
      apply nth_In. apply Nat.ltb_lt in Hg. lia.
    - destruct Hc as [->|[]]. now right.
  Qed.

  (** The set may be larger than needed. *)
  Definition has_chars (S : cset) (L : list str) : Prop :=
    forall s c, In s L -> In c s -> cs_mem c S = true.

  Lemma has_charset : forall L, has_chars (charset L) L.
  Proof. intros L s c Hs Hc. now apply charset_In with (s := s). Qed.

  Lemma absent_ok : forall S s c, chars_in S s -> absent S c = true -> ~ In c s.
  Proof.
    intros S s c H Ha Hc. apply andb_true_iff in Ha as [H1 H2].
    apply negb_true_iff in H1, H2. destruct (H c Hc); congruence.
  Qed.

  Definition dead (S : cset) (x : str) : bool := any (absent S) x.

  Lemma dead_ok : forall S s x, chars_in S s -> dead S x = true -> contains x s = false.
  Proof.
    intros S s x H Hd. apply any_exists in Hd as (c & Hc & Ha).
    apply contains_char with (c := c); [assumption|]. now apply absent_ok with (S := S).
  Qed.

  (** Could the expression match somewhere in a text over these characters? *)
  Fixpoint can (S : cset) (r : re) : bool :=
    match r with
    | RChar c => negb (absent S c)
    | RSet false l =>
        existsb (fun i => match i with
                          | CRange lo hi => if (lo =? hi)%N then negb (absent S lo)
                                            else negb (in_M M lo hi) || (hi - lo <? 300)%N
                                                 && existsb (fun n => cs_mem (lo + N.of_nat n)%N S)
                                                      (seq 0 (Datatypes.S (N.to_nat (hi - lo))))
                                                 || negb (hi - lo <? 300)%N
                          | CCls _ _ => true
                          end) l
    | RSeq x y => can S x <&> can S y
    | RAlt x y => can S x <|> can S y
    | RGroup _ x => can S x
    | RRep _ lo _ x => match lo with O => true | _ => can S x end
    | RLook _ neg _ x => neg <|> can S x
    | _ => true
    end.

  Definition wf_st (S : cset) (s : st) : Prop := chars_in S (bef s) /\ chars_in S (aft s).

  Lemma back_wf : forall S w s s', wf_st S s -> back w s = Some s' -> wf_st S s'.
  Proof.
    induction w as [|w IH]; intros s s' [Hb Ha] E; simpl in E; [injection E as <-; now split|].
    destruct (bef s) as [|c b] eqn:Eb; [discriminate|]. apply IH in E; [assumption|]. split; simpl.
    - intros d Hd. apply Hb. now right.
    - intros d [->|Hd]; [apply Hb; now left|now apply Ha].
  Qed.

  Lemma step1_can : forall S f s k, wf_st S s -> (forall c, In c (aft s) -> f c = false) -> step1 f s k = None.
  Proof.
    intros S f s k _ H. unfold step1. destruct (aft s) as [|c t]; [reflexivity|].
    now rewrite H by now left.
  Qed.

  Lemma can_None : forall S r, can S r = false -> forall s k, wf_st S s -> m r s k = None.
  Proof.
    (* the continuation may be anything: the failure occurs whatever follows; a
       position reached by a sub-match is again over the same characters *)
    assert (Main : forall S r s k, wf_st S s ->
      (forall s', wf_st S s' -> k s' = None) \/ can S r = false -> m r s k = None).
    { intros S r. induction r as [ | c | | neg l | x IHx y IHy | x IHx y IHy | n x IHx | n | g lo hi x IHx
                   | ahead neg w x IHx | | | | neg ]; intros s k Hw H.
      - destruct H as [H|H]; [now apply H|discriminate].
      - destruct H as [H|H]; simpl.
        + unfold step1. destruct (aft s) as [|d t] eqn:E; [reflexivity|].
          destruct (N.eqb c d); [|reflexivity]. apply H. destruct Hw as [H1 H2]. rewrite E in H2.
          split; simpl; intros e He; [destruct He as [->|He]; [apply H2; now left|now apply H1]|apply H2; now right].
        + simpl in H. apply negb_false_iff in H. apply step1_can with (S := S); [assumption|].
          intros d Hd. apply N.eqb_neq. intros <-. destruct Hw as [_ H2]. now apply (absent_ok S (aft s) c).
      - destruct H as [H|H]; [|discriminate]. simpl. unfold step1. destruct (aft s) as [|d t] eqn:E; [reflexivity|].
        destruct (negb (d =? 10)%N); [|reflexivity]. apply H. destruct Hw as [H1 H2]. rewrite E in H2.
        split; simpl; intros e He; [destruct He as [->|He]; [apply H2; now left|now apply H1]|apply H2; now right].
      - destruct H as [H|H]; simpl.
        + unfold step1. destruct (aft s) as [|d t] eqn:E; [reflexivity|].
          destruct (in_set neg l d); [|reflexivity]. apply H. destruct Hw as [H1 H2]. rewrite E in H2.
          split; simpl; intros e He; [destruct He as [->|He]; [apply H2; now left|now apply H1]|apply H2; now right].
        + simpl in H. destruct neg; [discriminate|]. apply step1_can with (S := S); [assumption|].
          intros d Hd. unfold in_set. simpl.
          destruct (existsb (fun i => in_item i d) l) eqn:E; [|reflexivity].
          apply existsb_exists in E as (i & Hi & Hc).
          assert (F : (match i with
                       | CRange lo hi => if (lo =? hi)%N then negb (absent S lo)
                                            else negb (in_M M lo hi) || (hi - lo <? 300)%N
                                                 && existsb (fun n => cs_mem (lo + N.of_nat n)%N S)
                                                      (seq 0 (Datatypes.S (N.to_nat (hi - lo))))
                                                 || negb (hi - lo <? 300)%N
                       | CCls _ _ => true end) = false).
          { destruct (match i with CRange _ _ => _ | CCls _ _ => _ end) eqn:F; [|reflexivity].
            rewrite <- H. symmetry. apply existsb_exists. now exists i. }
          destruct i as [lo hi|]; [|discriminate]. simpl in Hc. apply andb_true_iff in Hc as [C1 C2].
          apply N.leb_le in C1, C2. destruct (N.eqb_spec lo hi) as [->|Hne].
          * apply negb_false_iff in F. assert (d = hi) by lia. subst d.
            exfalso. destruct Hw as [_ H2]. now apply (absent_ok S (aft s) hi).
          * apply orb_false_iff in F as [F F3]. apply orb_false_iff in F as [F1 F2].
            apply negb_false_iff in F1. apply negb_false_iff in F3. rewrite F3 in F2. simpl in F2.
            destruct Hw as [_ H2]. destruct (H2 d Hd) as [Hm|Hf].
            -- rewrite <- F2. symmetry. apply orb_true_iff.
               assert (X : cs_mem (lo + N.of_nat (N.to_nat (d - lo))) S = true)
                 by (rewrite N2Nat.id; replace (lo + (d - lo))%N with d by lia; assumption).
               assert (Y : In (N.to_nat (d - lo)) (seq 0 (Datatypes.S (N.to_nat (hi - lo)))))
                 by (apply in_seq; lia).
               destruct Y as [Y|Y]; [left; now rewrite <- Y in X|right].
               apply existsb_exists. now exists (N.to_nat (d - lo)).
            -- exfalso. pose proof (foreign_not_M M d lo hi Hf F1) as G.
               apply andb_false_iff in G as [G|G]; apply N.leb_gt in G; lia.
      - simpl. apply IHx; [assumption|]. destruct H as [H|H].
        + left. intros s' Hs'. apply IHy; [assumption|now left].
        + simpl in H. apply andb_false_iff in H as [H|H]; [now right|left].
          intros s' Hs'. apply IHy; [assumption|now right].
      - simpl. destruct H as [H|H].
        + rewrite IHx by (assumption || now left). apply IHy; [assumption|now left].
        + simpl in H. apply orb_false_iff in H as [H1 H2].
          rewrite IHx by (assumption || now right). apply IHy; [assumption|now right].
      - simpl. apply IHx; [assumption|]. destruct H as [H|H]; [left|now right].
        intros s' [H1 H2]. apply H. now split.
      - destruct H as [H|H]; [|discriminate]. simpl. destruct (cap n (caps s)) as [x|]; [|reflexivity].
        revert s Hw. induction x as [|c x IH]; intros s Hw; [now apply H|]. simpl. unfold step1.
        destruct (aft s) as [|d t] eqn:E; [reflexivity|]. destruct (N.eqb c d); [|reflexivity].
        apply IH. destruct Hw as [H1 H2]. rewrite E in H2.
        split; simpl; intros e He; [destruct He as [->|He]; [apply H2; now left|now apply H1]|apply H2; now right].
      - rewrite m_rep. destruct H as [H|H].
        + assert (Ho : forall f left s, wf_st S s -> copt (m x) g k f left s = None).
          { induction f as [|f IHf]; intros left s' Hw'; [now apply H|]. cbn [copt].
            set (more := match left with Some 0 => false | _ => true end).
            assert (E : (if more then m x s' (fun s'0 => if length (aft s'0) =? length (aft s') then None
                            else copt (m x) g k f (option_map pred left) s'0) else None) = None).
            { destruct more; [|reflexivity]. apply IHx; [assumption|left]. intros s'' Hw''.
              destruct (length (aft s'') =? length (aft s')); [reflexivity|now apply IHf]. }
            cbv zeta. rewrite E. rewrite H by assumption. now destruct g. }
          generalize (option_map (fun h => h - lo) hi) as left. intros left.
          revert s Hw. induction lo as [|lo IHlo]; intros s Hw; cbn [cmand]; [now apply Ho|].
          apply IHx; [assumption|left]. intros s' Hs'. now apply IHlo.
        + destruct lo as [|lo]; [discriminate|]. cbn [cmand]. apply IHx; [assumption|now right].
      - destruct ahead; simpl.
        + destruct H as [H|H].
          * destruct (m x s _) as [s'|]; [destruct neg; [reflexivity|]; apply H; now destruct Hw|].
            destruct neg; [now apply H|reflexivity].
          * simpl in H. apply orb_false_iff in H as [-> H]. now rewrite IHx by (assumption || now right).
        + destruct (back w s) as [sb|] eqn:Eb.
          * apply (back_wf S) in Eb; [|assumption]. destruct H as [H|H].
            -- destruct (m x sb _) as [s'|]; [destruct neg; [reflexivity|]; apply H; now destruct Hw|].
               destruct neg; [now apply H|reflexivity].
            -- simpl in H. apply orb_false_iff in H as [-> H]. now rewrite IHx by (assumption || now right).
          * destruct neg; [|reflexivity]. destruct H as [H|H]; [now apply H|discriminate].
      - destruct H as [H|H]; [|discriminate]. simpl. destruct (bef s); [now apply H|reflexivity].
      - destruct H as [H|H]; [|discriminate]. simpl. destruct (aft s) eqn:E; [now apply H|reflexivity].
      - destruct H as [H|H]; [|discriminate]. apply H in Hw. simpl.
        destruct (aft s) as [|c [|d t]]; [assumption| |];
          (destruct c as [|p]; [reflexivity|]; repeat (destruct p as [p|p|]; try reflexivity; try assumption)).
      - destruct H as [H|H]; [|discriminate]. simpl. destruct (xorb neg (wordb s)); [now apply H|reflexivity]. }
    intros S r H s k Hw. apply Main with (S := S); [assumption|now right].
  Qed.

  (** The same expression for texts over these characters: alternatives that
      cannot match and characters that do not occur are left out. *)
  Fixpoint trim (S : cset) (r : re) : re :=
    match r with
    | RSet neg l => RSet neg (filter (fun i => match i with
                                               | CRange lo hi => negb ((lo =? hi)%N <&> absent S lo)
                                               | CCls _ _ => true
                                               end) l)
    | RSeq x y => RSeq (trim S x) (trim S y)
    | RAlt x y => if can S x then if can S y then RAlt (trim S x) (trim S y) else trim S x else trim S y
    | RGroup n x => RGroup n (trim S x)
    | RLook a neg w x => RLook a neg w (trim S x)
    | _ => r
    end.

  Lemma step1_wf : forall S f f' s k k', wf_st S s -> (forall t, wf_st S t -> k t = k' t) ->
    (forall c, In c (aft s) -> f c = f' c) -> step1 f s k = step1 f' s k'.
  Proof.
    intros S f f' s k k' [H1 H2] Hk Hf. unfold step1. destruct (aft s) as [|c t]; [reflexivity|].
    rewrite Hf by now left. destruct (f' c); [|reflexivity]. apply Hk. split; simpl.
    - intros e [<-|He]; [apply H2; now left|now apply H1].
    - intros e He. apply H2. now right.
  Qed.

  Lemma m_ext_wf : forall S r s k k', wf_st S s -> (forall t, wf_st S t -> k t = k' t) -> m r s k = m r s k'.
  Proof.
    intros S. induction r as [ | c | | neg l | x IHx y IHy | x IHx y IHy | n x IHx | n | g lo hi x IHx
                   | ahead neg w x IHx | | | | neg ]; intros s k k' Hw H; try (cbn [m]; now apply (step1_wf S)).
    - now apply H.
    - cbn [m]. apply IHx; [assumption|]. intros t Ht. now apply IHy.
    - cbn [m]. now rewrite (IHx s k k' Hw H), (IHy s k k' Hw H).
    - cbn [m]. apply IHx; [assumption|]. intros t [H1 H2]. apply H. now split.
    - cbn [m]. destruct (cap n (caps s)) as [x|]; [|reflexivity].
      revert s Hw. induction x as [|c x IH]; intros s Hw; [now apply H|]. cbn [step_lit].
      apply (step1_wf S); [assumption| |reflexivity]. intros t Ht. now apply IH.
    - rewrite !m_rep.
      assert (Ho : forall f left s, wf_st S s -> copt (m x) g k f left s = copt (m x) g k' f left s).
      { induction f as [|f IHf]; intros left t Ht; [now apply H|]. cbn [copt]. cbv zeta.
        set (more := match left with Some 0 => false | _ => true end). rewrite (H t Ht).
        assert (E : (if more then m x t (fun s'0 => if length (aft s'0) =? length (aft t) then None
                       else copt (m x) g k f (option_map pred left) s'0) else None)
                  = (if more then m x t (fun s'0 => if length (aft s'0) =? length (aft t) then None
                       else copt (m x) g k' f (option_map pred left) s'0) else None)).
        { destruct more; [|reflexivity]. apply IHx; [assumption|]. intros u Hu.
          destruct (length (aft u) =? length (aft t)); [reflexivity|now apply IHf]. }
        now rewrite E. }
      generalize (option_map (fun h => h - lo) hi) as left. intros left.
      revert s Hw. induction lo as [|lo IHlo]; intros s Hw; cbn [cmand]; [now apply Ho|].
      apply IHx; [assumption|]. intros t Ht. now apply IHlo.
    - destruct ahead; cbn [m].
      + destruct (m x s _); destruct neg; try reflexivity; apply H; now destruct Hw.
      + destruct (back w s) as [sb|]; [destruct (m x sb _)|]; destruct neg; try reflexivity; apply H; now destruct Hw.
    - cbn [m]. destruct (bef s); [now apply H|reflexivity].
    - cbn [m]. destruct (aft s); [now apply H|reflexivity].
    - cbn [m]. now rewrite H.
    - cbn [m]. now rewrite H.
  Qed.

  Lemma in_set_trim : forall S neg l d, ~ (absent S d = true) ->
    in_set neg (filter (fun i => match i with
                                 | CRange lo hi => negb ((lo =? hi)%N <&> absent S lo)
                                 | CCls _ _ => true
                                 end) l) d = in_set neg l d.
  Proof.
    intros S neg l d Hd. unfold in_set. f_equal. induction l as [|i l IH]; [reflexivity|].
    cbn [filter existsb]. destruct i as [lo hi|a b]; [|cbn [existsb]; now rewrite IH].
    destruct (N.eqb_spec lo hi) as [<-|Hne]; cbn [andb negb]; [|cbn [existsb]; now rewrite IH].
    destruct (absent S lo) eqn:Ea; cbn [negb]; [|cbn [existsb]; now rewrite IH].
    rewrite IH. cbn [in_item]. destruct (N.leb_spec lo d), (N.leb_spec d lo); try reflexivity.
    assert (d = lo) by lia. subst. congruence.
  Qed.

  Lemma m_trim : forall S r s k, wf_st S s -> m (trim S r) s k = m r s k.
  Proof.
    intros S. induction r as [ | c | | neg l | x IHx y IHy | x IHx y IHy | n x IHx | n | g lo hi x IHx
                   | ahead neg w x IHx | | | | neg ]; intros s k Hw; try reflexivity.
    - cbn [trim m]. apply (step1_wf S); [assumption|reflexivity|]. intros c Hc. apply in_set_trim.
      intros Ha. destruct Hw as [_ H2]. now apply (absent_ok S (aft s) c).
    - cbn [trim m]. rewrite IHx by assumption. apply (m_ext_wf S); [assumption|]. intros t Ht. now apply IHy.
    - cbn [trim]. destruct (can S x) eqn:Ex; [destruct (can S y) eqn:Ey|]; cbn [m].
      + now rewrite IHx, IHy.
      + rewrite IHx by assumption. rewrite (can_None S y Ey) by assumption. now destruct (m x s k).
      + rewrite IHy by assumption. now rewrite (can_None S x Ex) by assumption.
    - cbn [trim m]. now apply IHx.
    - destruct ahead; cbn [trim m]; [now rewrite IHx|].
      destruct (back w s) as [sb|] eqn:Eb; [|reflexivity]. apply (back_wf S) in Eb; [|assumption]. now rewrite IHx.
  Qed.

  Lemma trim_ok : forall S r tm s, chars_in S s -> sub (trim S r) tm s = sub r tm s.
  Proof.
    intros S r tm s Hs. unfold sub, sub_with. assert (Hb : chars_in S (@nil N)) by easy. revert Hb.
    generalize (@nil N) as b, 0 as skip. revert Hs.
    assert (A : forall t p, wf_st S p -> attempt (trim S r) t p = attempt r t p) by (intros t p; apply m_trim).
    induction s as [|c s IH]; intros Hs b skip Hb; cbn [sub_go]; rewrite !A by (now split); [reflexivity|].
    assert (Hs' : chars_in S s) by (intros d Hd; apply Hs; now right).
    assert (Hb' : chars_in S (c :: b)) by (intros d [<-|Hd]; [apply Hs; now left|now apply Hb]).
    specialize (IH Hs' (c :: b)).
    destruct skip as [|skip]; [|now apply IH]. destruct (attempt r false _) as [s'|]; [|now rewrite IH].
    cbv zeta. destruct (length _); [|now rewrite IH]. f_equal.
    destruct (attempt r true _) as [s''|]; now rewrite IH.
  Qed.

  Lemma sub_never : forall S r f, can S r = false -> forall s b, chars_in S b -> chars_in S s ->
    sub_go r f b 0 s = s.
  Proof.
    intros S r f Hc. induction s as [|c s IH]; intros b Hb Hs; simpl.
    - unfold attempt. rewrite (can_None S r Hc); [reflexivity|]. split; [exact Hb|exact Hs].
    - unfold attempt. rewrite (can_None S r Hc) by (split; [exact Hb|exact Hs]).
      f_equal. apply IH.
      + intros d [->|Hd]; [apply Hs; now left|now apply Hb].
      + intros d Hd. apply Hs. now right.
  Qed.

  (* ---------------------------------------------------------------- *)
  (** ** Replacement *)

  (** May the text after right class [r] begin with [x]? *)
  Fixpoint cont (fuel : nat) (L : list (str * (nat * nat))) (x : str) (r : nat) : bool :=
    match fuel with
    | O => true
    | S fuel' =>
        match x with
        | [] => true
        | h :: _ =>
            (ok r 1 <&> foreign M h)
            <|> any (fun t =>
                 (prefixb x (fst t) <&> ok r (fst (snd t)))
                 <|> (prefixb (fst t) x <&> (ok r (fst (snd t)) <&> cont fuel' L (skipn (length (fst t)) x) (snd (snd t))))) L
        end
    end.

  Lemma prefixb_app_split : forall x u v, prefixb x (u ++ v) = true ->
    prefixb x u = true \/ (prefixb u x = true /\ prefixb (skipn (length u) x) v = true).
  Proof.
    induction x as [|c x IH]; intros [|d u] v H; simpl in *; auto.
    destruct (N.eqb_spec c d) as [->|Hc]; [|discriminate].
    rewrite N.eqb_refl. now apply IH.
  Qed.

  Lemma cont_ok : forall L, length L = length cl -> forall fuel x r ts,
    valid r ts = true -> prefixb x (render L ts) = true -> cont fuel (combine L cl) x r = true.
  Proof.
    intros L HL. induction fuel as [|fuel IH]; intros x r ts Hv Hp; [reflexivity|]. simpl.
    destruct x as [|h x]; [reflexivity|]. apply orb_true_iff.
    destruct ts as [|it ts]; [discriminate|].
    simpl in Hv. apply andb_true_iff in Hv as [Hv1 Hv]. apply andb_true_iff in Hv1 as [Hg Ho].
    rewrite render_cons in Hp. destruct it as [i|c].
    - right. apply existsb_exists. exists (nth i L [], nth i cl (0, 0)). split.
      + apply (toks_nth cl L HL). now apply Nat.ltb_lt in Hg.
      + cbn [fst snd]. change (fst (nth i cl (0, 0))) with (lc (T i)). rewrite Ho. simpl andb.
        apply orb_true_iff. apply prefixb_app_split in Hp as [Hp|[Hp1 Hp2]]; [left; cbn [str_of] in Hp; now rewrite Hp|right].
        cbn [str_of] in Hp1, Hp2. rewrite Hp1. simpl andb. change (snd (nth i cl (0, 0))) with (rc (T i)).
        now apply IH with (ts := ts).
    - left. simpl in Hp. destruct (N.eqb_spec h c) as [->|Hc]; [|discriminate].
      simpl in Ho, Hg. now rewrite Ho, Hg.
  Qed.

  (** No occurrence of [x] starts in [s] and ends behind it. *)
  Fixpoint no_cross (tk : list (str * (nat * nat))) (x s : str) (r : nat) : bool :=
    match s with
    | [] => true
    | _ :: s' =>
        (negb (prefixb s x) <|> prefixb x s <|> negb (cont 8 tk (skipn (length s) x) r))
        <&> no_cross tk x s' r
    end.

  Lemma no_cross_ok : forall L, length L = length cl -> forall x r ts, valid r ts = true ->
    forall s, no_cross (combine L cl) x s r = true -> no_straddle x s (render L ts).
  Proof.
    intros L HL x r ts Hv. induction s as [|c s IH]; intros H u1 u2 E Hne Hp.
    - destruct u1; [|discriminate]. simpl in E. now subst.
    - cbn [no_cross] in H. apply andb_true_iff in H as [H1 H2]. destruct u1 as [|d u1].
      + simpl in E. subst u2. rewrite Hp in H1.
        destruct (prefixb x ((c :: s) ++ render L ts)) eqn:F; [|reflexivity].
        apply prefixb_app_split in F as [F|[F1 F2]]; [congruence|].
        rewrite F1 in H1. cbn [orb negb] in H1. apply negb_true_iff in H1.
        rewrite (cont_ok L HL 8 _ _ _ Hv F2) in H1. discriminate.
      + injection E as -> E. now apply (IH H2 u1 u2).
  Qed.

  Definition replace_ok (L : list str) (x : str) : bool :=
    match x with
    | [] => false
    | [c] => negb (foreign M c)
    | c :: _ => negb (foreign M c)
                <&> (let tk := combine L cl in
                    all (fun t => no_cross tk x (fst t) (snd (snd t))) tk)
    end.

  Lemma replace_ok_cons : forall L c x, replace_ok L (c :: x) = true -> forall t,
    In t (combine L cl) -> no_cross (combine L cl) (c :: x) (fst t) (snd (snd t)) = true.
  Proof.
    intros L c [|d x] H t Ht.
    - generalize (combine L cl). intros tk. generalize (fst t). intros s.
      induction s as [|e s IH]; [reflexivity|]. cbn [no_cross]. rewrite IH. cbn [prefixb].
      destruct (N.eqb c e) eqn:E; [now destruct (negb _)|]. rewrite N.eqb_sym in E. now rewrite E.
    - unfold replace_ok in H. apply andb_true_iff in H as [_ H]. cbv zeta in H. rewrite all_forall in H. now apply H.
  Qed.

  Lemma replace_table : forall L x y, length L = length cl -> replace_ok L x = true ->
    forall ts prev, valid prev ts = true ->
    replace x y (render L ts) = render (map (replace x y) L) ts.
  Proof.
    intros L x y HL Hx. destruct x as [|c x]; [discriminate|].
    assert (Hf : foreign M c = false).
    { destruct x; simpl in Hx; [now apply negb_true_iff in Hx|].
      apply andb_true_iff in Hx as [Hx _]. now apply negb_true_iff in Hx. }
    pose proof (replace_ok_cons L c x Hx) as Hn.
    induction ts as [|it ts IH]; intros prev Hv; [reflexivity|].
    simpl in Hv. apply andb_true_iff in Hv as [Hv1 Hv]. apply andb_true_iff in Hv1 as [Hg Ho].
    rewrite !render_cons. rewrite replace_app; [|discriminate|].
    - rewrite (IH _ Hv). f_equal. destruct it as [i|d]; simpl in Hg.
      + cbn [str_of]. symmetry. exact (map_nth (replace (c :: x) y) L [] i).
      + cbn [str_of]. apply replace_none. apply contains_char with (c := c); [now left|].
        intros [->|[]]. congruence.
    - destruct it as [i|d]; simpl in Hg; cbn [str_of].
      + apply Nat.ltb_lt in Hg. apply no_cross_ok with (r := rc (T i)); [assumption|assumption|].
        apply (Hn (nth i L [], nth i cl (0, 0))). now apply toks_nth.
      + intros u1 u2 E Hne Hp. assert (u2 = [d]) as ->.
        { destruct u1 as [|e [|]]; destruct u2 as [|f u2]; try discriminate; try easy. }
        simpl. destruct (N.eqb_spec c d) as [->|_]; [congruence|reflexivity].
  Qed.

  (** A text that no token contains and that does not straddle tokens. *)
  Definition never (L : list str) (x : str) : bool :=
    replace_ok L x <&> all (fun t => negb (contains x t)) L.

  Lemma never_ok : forall L x, length L = length cl -> never L x = true ->
    forall ts prev, valid prev ts = true -> contains x (render L ts) = false.
  Proof.
    intros L x HL Hx. unfold never in Hx. apply andb_true_iff in Hx as [Hx Hc].
    rewrite all_forall in Hc. destruct x as [|c x]; [discriminate|].
    assert (Hf : foreign M c = false).
    { destruct x; simpl in Hx; [now apply negb_true_iff in Hx|].
      apply andb_true_iff in Hx as [Hx _]. now apply negb_true_iff in Hx. }
    pose proof (replace_ok_cons L c x Hx) as Hn.
    induction ts as [|it ts IH]; intros prev Hv; [reflexivity|].
    simpl in Hv. apply andb_true_iff in Hv as [Hv1 Hv]. apply andb_true_iff in Hv1 as [Hg Ho].
    rewrite render_cons. rewrite contains_app_no_straddle; [|discriminate|].
    - rewrite (IH _ Hv), orb_false_r. destruct it as [i|d]; simpl in Hg; cbn [str_of].
      + apply Nat.ltb_lt in Hg. apply negb_true_iff. apply Hc. apply nth_In. lia.
      + apply contains_char with (c := c); [now left|]. intros [->|[]]. congruence.
    - destruct it as [i|d]; simpl in Hg; cbn [str_of].
      + apply Nat.ltb_lt in Hg. apply no_cross_ok with (r := rc (T i)); [assumption|assumption|].
        apply (Hn (nth i L [], nth i cl (0, 0))). now apply toks_nth.
      + intros u1 u2 E Hne Hp. assert (u2 = [d]) as ->.
        { destruct u1 as [|e [|]]; destruct u2 as [|f u2]; try discriminate; try easy. }
        simpl. destruct (N.eqb_spec c d) as [->|_]; [congruence|reflexivity].
  Qed.

  (* ---------------------------------------------------------------- *)
  (** ** Substitution *)

  Fixpoint expand_abs (t : list titem) (l : list (nat * option str)) : option str :=
    match t with
    | [] => Some []
    | TLit c :: t' => option_map (cons c) (expand_abs t' l)
    | TGroup n :: t' =>
        match (match acap n l with None => Some [] | Some x => x end), expand_abs t' l with
        | Some x, Some y => Some (x ++ y)
        | _, _ => None
        end
    end.

  Lemma expand_abs_ok : forall t l l' u, Forall2 cap_rel l l' -> expand_abs t l = Some u -> expand t l' = u.
  Proof.
    induction t as [|[c|n] t IH]; intros l l' u H E; simpl in *.
    - now injection E as <-.
    - destruct (expand_abs t l) as [v|] eqn:Ev; [|discriminate]. injection E as <-.
      f_equal. now apply (IH l).
    - pose proof (acap_ok n l l' H) as Hc. destruct (acap n l) as [[x|]|].
      + destruct Hc as (t' & -> & ->). destruct (expand_abs t l) as [v|] eqn:Ev; [|discriminate].
        injection E as <-. f_equal. now apply (IH l).
      + discriminate.
      + rewrite Hc. destruct (expand_abs t l) as [v|] eqn:Ev; [|discriminate].
        injection E as <-. now apply (IH l).
  Qed.

  (** What [re.sub] makes of the token [s] between the contexts [b] and [rest]. *)
  Fixpoint tok_sub (r : re) (tm : list titem) (b : list aelt) (skip : nat) (s : str) (rest : list aelt)
      : option str :=
    match s with
    | [] => match skip with O => Some [] | S _ => None end
    | c :: t =>
        match skip with
        | S k => tok_sub r tm (lit c :: b) k t rest
        | O =>
            let p := ASt b (map lit s ++ rest) [] in
            match m_abs M r p AYes with
            | AUnk => None
            | ANo => option_map (cons c) (tok_sub r tm (lit c :: b) O t rest)
            | AYes a' =>
                match length (aaft p) - length (aaft a') with
                | O => None
                | S n =>
                    match expand_abs tm ((O, aconsumed p a') :: acaps a'), tok_sub r tm (lit c :: b) n t rest with
                    | Some o, Some o' => Some (o ++ o')
                    | _, _ => None
                    end
                end
            end
        end
    end.

  Lemma tok_sub_ok : forall r tm rest rc, arel M rc rest -> forall s b bc skip out,
    arel M bc b -> tok_sub r tm bc skip s rc = Some out ->
    sub_go r (expand tm) b skip (s ++ rest) = out ++ sub_go r (expand tm) (rev s ++ b) 0 rest.
  Proof.
    intros r tm rest rc Hrest. induction s as [|c s IH]; intros b bc skip out Hb E.
    - simpl in E. destruct skip; [|discriminate]. now injection E as <-.
    - assert (Hb' : arel M (lit c :: bc) (c :: b)) by (split; [left; now left|assumption]).
      assert (Er : forall v, rev (c :: s) ++ v = rev s ++ c :: v) by (intros v; simpl; now rewrite <- app_assoc).
      rewrite Er. cbn [tok_sub] in E. change ((c :: s) ++ rest) with (c :: (s ++ rest)). cbn [sub_go].
      destruct skip as [|k]; [|now apply IH with (bc := lit c :: bc)].
      cbv zeta in *. unfold attempt. cbn [andb].
      set (p := ASt bc (map lit (c :: s) ++ rc) []) in *.
      set (q := St b (c :: s ++ rest) []).
      assert (HR : Rel M (Z.of_nat (length (aft q)) - Z.of_nat (length (aaft p))) p q).
      { split; [exact Hb|]. split; [|split; [constructor|reflexivity]].
        change (aft q) with ((c :: s) ++ rest). now apply arel_lits. }
      pose proof (m_abs_ok M r _ p q AYes (fun s' => Some s') HR) as Hm.
      assert (Hk : k_ok M (Z.of_nat (length (aft q)) - Z.of_nat (length (aaft p))) (length (aft q)) AYes (fun s' => Some s'))
        by (intros a' s' H _; now exists s').
      specialize (Hm Hk). destruct (m_abs M r p AYes) as [a'| |]; [| |discriminate].
      + destruct Hm as (t & -> & HRt).
        destruct (length (aaft p) - length (aaft a')) as [|n] eqn:En; [discriminate|].
        destruct (expand_abs tm _) as [o|] eqn:Eo; [|discriminate].
        destruct (tok_sub r tm (lit c :: bc) n s rc) as [o'|] eqn:Eo'; [|discriminate].
        injection E as <-.
        assert (Hd : length (aft q) - length (aft t) = S n).
        { destruct HRt as (_ & _ & _ & Hd). lia. }
        assert (Hc : length (consumed q t) = S n).
        { unfold consumed. rewrite firstn_length, Hd. lia. }
        rewrite Hc. rewrite <- app_assoc. f_equal.
        * apply (expand_abs_ok tm _ _ _) with (2 := Eo). constructor; [|now destruct HRt as (_ & _ & Hcap & _)].
          split; [reflexivity|]. cbn [snd fst].
          assert (Hl : length (aft t) <= length (aft q)) by lia.
          pose proof (aconsumed_ok M _ p q a' t HR HRt Hl) as Ha. now destruct (aconsumed p a').
        * now apply IH with (bc := lit c :: bc).
      + rewrite Hm. destruct (tok_sub r tm (lit c :: bc) 0 s rc) as [o'|] eqn:Eo'; [|discriminate].
        injection E as <-. simpl. f_equal. now apply IH with (bc := lit c :: bc).
  Qed.

  (** No match at a foreign character, or at the end of the text. *)
  Definition no_match (r : re) (p : ast) : bool :=
    match m_abs M r p AYes with ANo => true | _ => false end.

  Lemma no_match_ok : forall r p q, no_match r p = true ->
    arel M (abef p) (bef q) -> arel M (aaft p) (aft q) -> acaps p = [] -> caps q = [] ->
    attempt r false q = None.
  Proof.
    intros r p q H Hb Ha Hp Hq. unfold attempt. cbn [andb].
    assert (HR : Rel M (Z.of_nat (length (aft q)) - Z.of_nat (length (aaft p))) p q).
    { repeat split; try assumption. rewrite Hp, Hq. constructor. }
    pose proof (m_abs_ok M r _ p q AYes (fun s' => Some s') HR) as Hm.
    unfold no_match in H. destruct (m_abs M r p AYes); try discriminate.
    apply Hm. intros a' s' H' _. now exists s'.
  Qed.

  (** Contexts as one description, or split by the class of the neighbour. *)
  Definition whole (o : option (list aelt)) : list (list aelt) :=
    match o with Some l => [l] | None => [] end.
  Definition parts (okf : nat -> bool) (u : list (option (list aelt))) : list (list aelt) :=
    flat_map (fun cu => if okf (fst cu) then whole (snd cu) else []) (combine (seq 0 K) u).

  (** The same, from the rows of [ok]. *)
  Definition parts_row (rows : list (option (list bool))) (okf : nat -> nat -> bool) (c : nat)
      (u : list (option (list aelt))) : list (list aelt) :=
    match nth c rows None with
    | Some bs => flat_map (fun cu => if fst cu : bool then whole (snd cu) else []) (combine bs u)
    | None => parts (okf c) u
    end.

  Lemma parts_row_eq : forall cl' okf c u, parts_row (okrows cl' okf K) okf c u = parts (okf c) u.
  Proof.
    intros cl' okf c u. unfold parts_row, okrows. destruct (Nat.lt_ge_cases c K) as [Hc|Hc];
      [|now rewrite nth_overflow by (now rewrite map_length, seq_length)].
    rewrite nth_indep with (d' := okrow cl' okf K 0) by (now rewrite map_length, seq_length).
    rewrite (map_nth (okrow cl' okf K)), seq_nth by assumption. cbn [Nat.add]. unfold okrow.
    destruct (_ : bool); [|reflexivity]. unfold parts. generalize (seq 0 K) as l. intros l. revert u.
    induction l as [|a l IH]; intros u; [reflexivity|]. destruct u as [|b u]; [reflexivity|].
    cbn [map combine flat_map fst snd]. now rewrite IH.
  Qed.

  Definition agree {A} (f : A -> option str) (l : list A) : option str :=
    match l with
    | [] => Some []
    | x :: l' =>
        match f x with
        | None => None
        | Some a => if all (fun y => match f y with Some b => str_eqb a b | None => false end) l'
                    then Some a else None
        end
    end.

  Lemma agree_ok : forall A (f : A -> option str) l x u, agree f l = Some u -> In x l -> f x = Some u.
  Proof.
    intros A f [|y l] x u H Hx; [easy|]. simpl in H. destruct (f y) as [a|] eqn:E; [|discriminate].
    destruct (all _ l) eqn:Ea; [|discriminate]. injection H as <-. destruct Hx as [<-|Hx]; [assumption|].
    rewrite all_forall in Ea. specialize (Ea x Hx). destruct (f x) as [b|]; [|discriminate].
    apply str_eqb_eq in Ea. now subst.
  Qed.

  Definition sub_token (r : re) (tm : list titem) (s : str) (l1 r1 : list (list aelt))
      (l2 r2 : unit -> list (list aelt)) : option str :=
    let f p := tok_sub r tm (fst p) 0 s (snd p) in
    match agree f (list_prod l1 r1) with
    | Some x => Some x
    | None => match agree f (list_prod l1 (r2 tt)) with
              | Some x => Some x
              | None => match agree f (list_prod (l2 tt) r1) with
                        | Some x => Some x
                        | None => agree f (list_prod (l2 tt) (r2 tt))
                        end
              end
    end.

  Definition sub_none (p : list aelt * list aelt -> bool) (l1 r1 l2 r2 : list (list aelt)) : bool :=
    all p (list_prod l1 r1) <|> all p (list_prod l1 r2) <|> all p (list_prod l2 r1) <|> all p (list_prod l2 r2).

  Fixpoint map_some {A B} (f : A -> option B) (l : list A) : option (list B) :=
    match l with
    | [] => Some []
    | a :: t => match f a with
                | Some b => match map_some f t with Some u => Some (b :: u) | None => None end
                | None => None
                end
    end.

  (** The table after the substitution, given descriptions of what may stand to
      the left ([l]) and right ([r]) of a token, coarse ([1]) and fine ([2]). *)
  Definition sub_ctx (r : re) (tm : list titem) (L : list str)
      (l1 r1 l2 r2 : nat -> list (list aelt)) : option (list str) :=
    if sub_none (fun p => no_match r (ASt (fst p) (forl :: snd p) [])) (l1 1) (r1 1) (l2 1) (r2 1)
       <&> all (fun b => no_match r (ASt b (endl 1) [])) (l1 0)
    then map_some (fun t => let '(s, (a, b)) := t in
                            sub_token r tm s (l1 a) (r1 b) (fun _ => l2 a) (fun _ => r2 b)) (combine L cl)
    else None.

  (** The coarsest context: any character of the table, foreign or the end. *)
  Definition letters_of (L : list str) : list N :=
    snd (fold_left (fun tl c => if cs_mem c (fst tl) then tl else (cs_add c (fst tl), c :: snd tl))
           (concat L) (CE, [])).
  Definition top (L : list str) : list aelt := repeat (AE (letters_of L) true true) D.

  (** The contexts of a table; they are kept as long as the table is the same. *)
  Record ctxs := Ctx { cR : list (option (list aelt)); cB : list (option (list aelt));
                       cRU : list (option (list aelt)); cBU : list (option (list aelt)) }.
  Definition build (L : list str) : ctxs :=
    let ml := mL L in
    let R := ctx_tbl cl K L rows D rounds in
    let B := ctx_tbl mcl K ml mrows D rounds in
    Ctx R B (lefts cl K L D R) (lefts mcl K ml D B).

  Definition sub_fine (r : re) (tm : list titem) (L : list str) (x : ctxs) : option (list str) :=
    sub_ctx r tm L
      (fun c => whole (nth c (cB x) (Some []))) (fun c => whole (nth c (cR x) (Some [])))
      (fun c => parts_row mrows mok c (cBU x)) (fun c => parts_row rows ok c (cRU x)).

  Definition sub_coarse (r : re) (tm : list titem) (L : list str) : option (list str) :=
    let t := [top L] in
    sub_ctx r tm L (fun _ => t) (fun _ => t) (fun _ => t) (fun _ => t).

  Fixpoint table_eqb (a b : list str) : bool :=
    match a, b with
    | [], [] => true
    | x :: a', y :: b' => str_eqb x y <&> table_eqb a' b'
    | _, _ => false
    end.

  Lemma table_eqb_eq : forall a b, table_eqb a b = true -> a = b.
  Proof.
    induction a as [|x a IH]; intros [|y b] H; try easy. simpl in H.
    apply andb_true_iff in H as [H1 H2]. apply str_eqb_eq in H1. now rewrite H1, (IH b H2).
  Qed.

  Lemma map_some_nth : forall A B (f : A -> option B) l l' d d', map_some f l = Some l' ->
    length l' = length l /\ forall i, i < length l -> f (nth i l d) = Some (nth i l' d').
  Proof.
    intros A B f. induction l as [|a l IH]; intros l' d d' H; simpl in H.
    - injection H as <-. split; [reflexivity|]. intros i Hi. simpl in Hi. lia.
    - destruct (f a) as [b|] eqn:E; [|discriminate].
      destruct (map_some f l) as [m|] eqn:Em; [|discriminate]. injection H as <-.
      destruct (IH m d d' eq_refl) as [H1 H2]. split; [simpl; now rewrite H1|].
      intros [|i] Hi; simpl; [assumption|]. apply H2. simpl in Hi. lia.
  Qed.

  Lemma whole_ok : forall cl' ok' L tbl r ts, tbl_ok M cl' ok' L tbl -> Lang.valid M cl' ok' r ts = true ->
    exists l, In l (whole (nth r tbl (Some []))) /\ arel M l (render L ts).
  Proof.
    intros cl' ok' L tbl r ts Ht Hv. specialize (Ht r ts Hv).
    destruct (nth r tbl (Some [])) as [l|]; [|easy]. exists l. split; [now left|assumption].
  Qed.

  Lemma combine_seq_In : forall A (u : list A) c d a, c < length u -> In (a + c, nth c u d) (combine (seq a (length u)) u).
  Proof.
    intros A. induction u as [|x u IH]; intros [|c] d a H; simpl in *; try lia.
    - left. now rewrite Nat.add_0_r.
    - right. rewrite Nat.add_succ_r. apply (IH c d (S a)). lia.
  Qed.

  Lemma parts_ok : forall cl' ok' L tbl r ts, length L = length cl' -> classes_ok cl' K = true ->
    tbl_ok M cl' ok' L tbl -> Lang.valid M cl' ok' r ts = true ->
    exists l, In l (parts (ok' r) (lefts cl' K L D tbl)) /\ arel M l (render L ts).
  Proof.
    intros cl' ok' L tbl r ts HL HK Ht Hv.
    assert (H1 : 1 < K) by (apply andb_true_iff in HK as [H _]; now apply Nat.ltb_lt in H).
    assert (X : forall c s, c < K -> ok' r c = true -> orel M (nth c (lefts cl' K L D tbl) None) s ->
      exists l, In l (parts (ok' r) (lefts cl' K L D tbl)) /\ arel M l s).
    { intros c s Hc Ho H. pose proof (combine_seq_In _ (lefts cl' K L D tbl) c None 0) as Hin.
      rewrite lefts_len in Hin. specialize (Hin Hc).
      destruct (nth c (lefts cl' K L D tbl) None) as [l|] eqn:E; [|easy].
      exists l. split; [|assumption]. unfold parts. apply in_flat_map. exists (c, Some l). split; [exact Hin|].
      simpl. rewrite Ho. now left. }
    destruct ts as [|it ts].
    - simpl in Hv. apply (X 0); [lia|assumption|now apply lefts_end].
    - simpl in Hv. apply andb_true_iff in Hv as [Hv1 Hv]. apply andb_true_iff in Hv1 as [Hg Ho].
      pose proof (lc_K M cl' K HK it Hg) as Hl.
      apply (X (Lang.lc cl' it)); [exact Hl|assumption|].
      now apply (lefts_item M cl' ok').
  Qed.

  Lemma mcl_len : length mcl = length cl.
  Proof. apply map_length. Qed.
  Lemma mL_len : forall L, length (mL L) = length L.
  Proof. intros L. apply map_length. Qed.
  Lemma m_lc : forall it, Lang.lc mcl it = rc it.
  Proof.
    intros [i|c]; [|reflexivity]. simpl. unfold mcl.
    change (0, 0) with ((fun p : nat * nat => (snd p, fst p)) (0, 0)) at 1. now rewrite map_nth.
  Qed.
  Lemma m_rc : forall it, Lang.rc mcl it = lc it.
  Proof.
    intros [i|c]; [|reflexivity]. simpl. unfold mcl.
    change (0, 0) with ((fun p : nat * nat => (snd p, fst p)) (0, 0)) at 1. now rewrite map_nth.
  Qed.
  Lemma m_str : forall L it, str_of (mL L) it = rev (str_of L it).
  Proof. intros L [i|c]; [|reflexivity]. simpl. exact (map_nth (@rev N) L [] i). Qed.
  Lemma m_good : forall it, good M mcl it = good M cl it.
  Proof. intros [i|c]; [|reflexivity]. simpl. now rewrite mcl_len. Qed.

  Lemma sub_ctx_len : forall r tm L l1 r1 l2 r2 L', length L = length cl ->
    sub_ctx r tm L l1 r1 l2 r2 = Some L' -> length L' = length cl.
  Proof.
    intros r tm L l1 r1 l2 r2 L' HL H. unfold sub_ctx in H.
    match type of H with (if ?b then _ else _) = _ => destruct b; [|discriminate] end.
    apply (map_some_nth _ _ _ _ _ ([], (0, 0)) []) in H as [H _]. etransitivity; [exact H|]. rewrite combine_length. lia.
  Qed.

  (** [f c] covers what may stand behind a token of right class [c]. *)
  Definition covers (cl' : list (nat * nat)) (ok' : nat -> nat -> bool) (L : list str)
      (f : nat -> list (list aelt)) : Prop :=
    forall c ts, Lang.valid M cl' ok' c ts = true -> exists l, In l (f c) /\ arel M l (render L ts).

  Lemma sub_ctx_ok : forall r tm L L' l1 r1 l2 r2, length L = length cl ->
    covers mcl mok (mL L) l1 -> covers cl ok L r1 -> covers mcl mok (mL L) l2 -> covers cl ok L r2 ->
    sub_ctx r tm L l1 r1 l2 r2 = Some L' -> forall ts, valid 0 ts = true ->
    sub r tm (render L ts) = render L' ts.
  Proof.
    intros r tm L L' l1 r1 l2 r2 HL Cl1 Cr1 Cl2 Cr2 H. unfold sub_ctx in H.
    match type of H with (if ?b then _ else _) = _ => destruct b eqn:E; [|discriminate] end.
    apply andb_true_iff in E as [Ef Ee].
    apply (map_some_nth _ _ _ _ _ ([], (0, 0)) []) in H as [_ Htok].
    rewrite combine_length, HL, Nat.min_id in Htok.
    assert (Go : forall ts prev done, valid prev ts = true ->
      (forall c, ok prev c = true -> Lang.valid M mcl mok c done = true) ->
      sub_go r (expand tm) (render (mL L) done) 0 (render L ts) = render L' ts).
    { induction ts as [|it ts IH]; intros prev done Hv Hd.
      - simpl in Hv. specialize (Hd 0 Hv). cbn [render flat_map sub_go].
        destruct (Cl1 _ _ Hd) as (b & Hb1 & Hb2).
        rewrite all_forall in Ee. specialize (Ee b Hb1).
        rewrite (no_match_ok r _ (St (render (mL L) done) [] []) Ee); try reflexivity; try assumption.
      - simpl in Hv. apply andb_true_iff in Hv as [Hv1 Hv]. apply andb_true_iff in Hv1 as [Hg Ho].
        pose proof (Hd _ Ho) as Hdn.
        assert (Hd' : forall c, ok (rc it) c = true -> Lang.valid M mcl mok c (it :: done) = true).
        { intros c Hc. simpl. rewrite m_good, Hg. unfold mok at 1. rewrite m_lc, Hc. simpl. now rewrite m_rc. }
        rewrite !render_cons. specialize (IH (rc it) (it :: done) Hv Hd').
        rewrite render_cons, m_str in IH.
        destruct (Cl1 _ _ Hdn) as (b1 & Hb1 & Ab1).
        destruct (Cr1 _ _ Hv) as (q1 & Hr1 & Ar1).
        destruct (Cl2 _ _ Hdn) as (b2 & Hb2 & Ab2).
        destruct (Cr2 _ _ Hv) as (q2 & Hr2 & Ar2).
        destruct it as [i|c].
        + simpl in Hg. apply Nat.ltb_lt in Hg. specialize (Htok i Hg).
          rewrite combine_nth in Htok by assumption.
          change (Lang.lc cl (T i)) with (fst (nth i cl (0, 0))) in *.
          change (Lang.rc cl (T i)) with (snd (nth i cl (0, 0))) in *.
          destruct (nth i cl (0, 0)) as [ca cb]. cbn [fst snd] in *.
          cbn [str_of] in *. unfold sub_token in Htok.
          rewrite <- IH.
          cbv zeta in Htok. destruct (agree _ (list_prod (l1 _) (r1 _))) as [o|] eqn:Ea;
            [|destruct (agree _ (list_prod (l1 _) (r2 _))) as [o|] eqn:Eb;
              [|destruct (agree _ (list_prod (l2 _) (r1 _))) as [o|] eqn:Ec]].
          * injection Htok as ->. apply (agree_ok _ _ _ (b1, q1)) in Ea; [|now apply in_prod].
            now apply (tok_sub_ok r tm (render L ts) q1 Ar1 (nth i L []) _ b1).
          * injection Htok as ->. apply (agree_ok _ _ _ (b1, q2)) in Eb; [|now apply in_prod].
            now apply (tok_sub_ok r tm (render L ts) q2 Ar2 (nth i L []) _ b1).
          * injection Htok as ->. apply (agree_ok _ _ _ (b2, q1)) in Ec; [|now apply in_prod].
            now apply (tok_sub_ok r tm (render L ts) q1 Ar1 (nth i L []) _ b2).
          * apply (agree_ok _ _ _ (b2, q2)) in Htok; [|now apply in_prod].
            now apply (tok_sub_ok r tm (render L ts) q2 Ar2 (nth i L []) _ b2).
        + cbn [str_of app] in *. simpl in Hg. cbn [sub_go].
          assert (Ha : attempt r false (St (render (mL L) done) (c :: render L ts) []) = None).
          { assert (X : forall b q, arel M b (render (mL L) done) -> arel M q (render L ts) ->
              no_match r (ASt b (forl :: q) []) = true ->
              attempt r false (St (render (mL L) done) (c :: render L ts) []) = None).
            { intros b q Hb Hq Hn. apply no_match_ok with (p := ASt b (forl :: q) []); try reflexivity; try assumption.
              split; [now right|assumption]. }
            unfold sub_none in Ef. apply orb_true_iff in Ef as [Ef|Ef]; rewrite ?all_forall in Ef;
              [apply orb_true_iff in Ef as [Ef|Ef]; rewrite ?all_forall in Ef;
               [apply orb_true_iff in Ef as [Ef|Ef]; rewrite ?all_forall in Ef|]|].
            - apply (X b1 q1); [assumption|assumption|]. apply (Ef (b1, q1)). now apply in_prod.
            - apply (X b1 q2); [assumption|assumption|]. apply (Ef (b1, q2)). now apply in_prod.
            - apply (X b2 q1); [assumption|assumption|]. apply (Ef (b2, q1)). now apply in_prod.
            - apply (X b2 q2); [assumption|assumption|]. apply (Ef (b2, q2)). now apply in_prod. }
          rewrite Ha. simpl in IH. now rewrite IH. }
    intros ts Hv. unfold sub, sub_with. change (@nil N) with (render (mL L) []) at 1.
    apply (Go ts 0 []); [assumption|]. intros c Hc. simpl. exact Hc.
  Qed.

  Lemma letters_of_In : forall L s c, In s L -> In c s -> In c (letters_of L).
  Proof.
    intros L s c Hs Hc. unfold letters_of.
    assert (G : forall l t acc, (forall d, cs_mem d t = true -> In d acc) -> In c l \/ In c acc ->
      In c (snd (fold_left (fun tl c => if cs_mem c (fst tl) then tl else (cs_add c (fst tl), c :: snd tl))
             l (t, acc)))).
    { induction l as [|d l IH]; intros t acc Ht H; simpl; [destruct H; easy|].
      destruct (cs_mem d t) eqn:E.
      - apply IH; [assumption|]. destruct H as [[->|H]|H]; auto.
      - apply IH.
        + intros e He. rewrite cs_mem_add in He. apply orb_true_iff in He as [He|He].
          * apply N.eqb_eq in He. subst. now left.
          * right. now apply Ht.
        + destruct H as [[->|H]|H]; [right; now left|now left|right; now right]. }
    apply G; [|left; apply in_concat; now exists s].
    intros d Hd. unfold cs_mem in Hd. now destruct (N.succ_pos d).
  Qed.

  Lemma top_ok : forall L s, (forall c, In c s -> In c (letters_of L) \/ foreign M c = true) ->
    arel M (top L) s.
  Proof.
    intros L. unfold top. induction D as [|d IH]; intros s H; [exact I|]. simpl.
    destruct s as [|c s]; [reflexivity|]. split.
    - destruct (H c) as [Hc|Hc]; [now left|now left|right; now split].
    - apply IH. intros e He. apply H. now right.
  Qed.

  Lemma top_covers : forall cl' ok' L L0, length L = length cl' ->
    (forall s c, In s L -> In c s -> In c (letters_of L0)) -> covers cl' ok' L (fun _ => [top L0]).
  Proof.
    intros cl' ok' L L0 HL Hs c ts Hv. exists (top L0). split; [now left|]. apply top_ok.
    revert c Hv. induction ts as [|it ts IH]; intros p Hv c Hc; [easy|].
    simpl in Hv. apply andb_true_iff in Hv as [Hv1 Hv]. apply andb_true_iff in Hv1 as [Hg _].
    rewrite render_cons in Hc. apply in_app_or in Hc as [Hc|Hc]; [|now apply (IH _ Hv)].
    destruct it as [i|d]; simpl in Hg, Hc.
    - left. apply Nat.ltb_lt in Hg. apply (Hs (nth i L [])); [|assumption]. apply nth_In. lia.
    - destruct Hc as [->|[]]. now right.
  Qed.

  Lemma sub_coarse_ok : forall r tm L L', length L = length cl ->
    sub_coarse r tm L = Some L' -> forall ts, valid 0 ts = true ->
    sub r tm (render L ts) = render L' ts.
  Proof.
    intros r tm L L' HL H. unfold sub_coarse in H. cbv zeta in H.
    assert (HLm : length (mL L) = length mcl) by (now rewrite mL_len, mcl_len).
    assert (C1 : covers mcl mok (mL L) (fun _ => [top L])).
    { apply top_covers; [assumption|]. intros s c Hs Hc. unfold mL in Hs.
      apply in_map_iff in Hs as (s' & <- & Hs'). apply in_rev in Hc. now apply letters_of_In with (s := s'). }
    assert (C2 : covers cl ok L (fun _ => [top L])).
    { apply top_covers; [assumption|]. intros s c Hs Hc. now apply letters_of_In with (s := s). }
    now apply (sub_ctx_ok r tm L _ _ _ _ _ HL C1 C2 C1 C2 H).
  Qed.

  Definition ctxs_ok (L : list str) (x : ctxs) : Prop :=
    covers mcl mok (mL L) (fun c => whole (nth c (cB x) (Some []))) /\
    covers cl ok L (fun c => whole (nth c (cR x) (Some []))) /\
    covers mcl mok (mL L) (fun c => parts_row mrows mok c (cBU x)) /\
    covers cl ok L (fun c => parts_row rows ok c (cRU x)).

  Lemma build_ok : shape_ok = true -> forall L, length L = length cl -> ctxs_ok L (build L).
  Proof.
    intros Hsh L HL. apply andb_true_iff in Hsh as [HK HKm].
    assert (HLm : length (mL L) = length mcl) by (now rewrite mL_len, mcl_len).
    pose proof (ctx_tbl_ok M cl ok K L HL HK D rounds) as HR.
    pose proof (ctx_tbl_ok M mcl mok K (mL L) HLm HKm D rounds) as HB.
    rewrite <- rows_ok in HR. rewrite <- mrows_ok in HB.
    unfold build, ctxs_ok. cbn [cR cB cRU cBU]. repeat split; intros c ts Hv.
    - now apply whole_ok with (1 := HB).
    - now apply whole_ok with (1 := HR).
    - assert (E : forall u, parts_row mrows mok c u = parts (mok c) u) by (intros u; rewrite mrows_ok; apply parts_row_eq).
      rewrite E. now apply (parts_ok mcl mok).
    - assert (E : forall u, parts_row rows ok c u = parts (ok c) u) by (intros u; rewrite rows_ok; apply parts_row_eq).
      rewrite E. now apply (parts_ok cl ok).
  Qed.

  Lemma sub_fine_ok : forall r tm L x L', length L = length cl -> ctxs_ok L x ->
    sub_fine r tm L x = Some L' -> forall ts, valid 0 ts = true ->
    sub r tm (render L ts) = render L' ts.
  Proof.
    intros r tm L x L' HL (C1 & C2 & C3 & C4) H. unfold sub_fine in H.
    now apply (sub_ctx_ok r tm L _ _ _ _ _ HL C1 C2 C3 C4 H).
  Qed.

  (* ---------------------------------------------------------------- *)
  (** ** Programs *)

  (** The table, characters occurring in it, and its contexts if they are known. *)
  Record state := State { tab : list str; chs : cset; ctx : option ctxs }.
  Definition mk (L : list str) : state := State L (charset L) None.

  (** Result of the analysis: the new table, an exception raised for every
      text, or no answer. *)
  Inductive anres := AnOk (st : state) | AnErr (e : exn) | AnNo.

  Definition an_re0 (r : re) (tm : list titem) (st : state) : anres :=
    if any (never (tab st)) (factors r) then AnOk st
    else match sub_coarse r tm (tab st) with
         | Some L => AnOk (if table_eqb L (tab st) then st else mk L)
         | None =>
             let x := match ctx st with Some x => x | None => build (tab st) end in
             match sub_fine r tm (tab st) x with
             | Some L => AnOk (if table_eqb L (tab st) then State (tab st) (chs st) (Some x) else mk L)
             | None => AnNo
             end
         end.
  Definition an_re (r : re) (tm : list titem) (st : state) : anres :=
    if can (chs st) r then
      match lead (fun x => dead (chs st) x <|> never (tab st) x) r tm with
      | Some (r', tm') => an_re0 (squash (trim (chs st) r')) tm' st
      | None =>
          match between r tm with
          | Some (r', tm') => an_re0 (squash (trim (chs st) r')) tm' st
          | None => an_re0 (squash (trim (chs st) r)) tm st
          end
      end
    else AnOk st.

  Definition an_sub (pat tmpl : str) (st : state) : anres :=
    match compile pat with
    | None => AnErr ReError
    | Some (r, g) =>
        match parse_template (S (length tmpl)) g tmpl with
        | None => AnErr ReError
        | Some tm => an_re r tm st
        end
    end.

  (** [replace] as a substitution: with the first character in a look-behind when
      it stays, or of the whole literal. *)
  Definition an_replace0 (x y : str) (st : state) : anres :=
    match (match x, y with
           | c :: ((_ :: _) as x'), d :: y' =>
               if N.eqb c d <&> negb (memN c x') then an_re (behind c x') (map TLit y') st else AnNo
           | _, _ => AnNo
           end) with
    | AnNo => match x with [] => AnNo | _ => an_re (word_re x) (map TLit y) st end
    | r => r
    end.
  Definition an_replace (x y : str) (st : state) : anres :=
    if str_eqb x y <&> negb (str_eqb x []) then AnOk st else an_replace0 x y st.

  (** Replacements of single characters wait, the last first, and are carried out
      together. *)
  Definition cmap := PositiveMap.t str.
  Definition cget (t : cmap) (c : N) : str :=
    match PositiveMap.find (N.succ_pos c) t with Some y => y | None => [c] end.
  Definition cput (t : cmap) (p : N * str) : cmap :=
    PositiveMap.add (N.succ_pos (fst p)) (flat_map (cget t) (snd p)) t.
  Definition flush (st : state) (pd : list (N * str)) : state :=
    match pd with
    | [] => st
    | _ => let t := fold_left cput pd (PositiveMap.empty str) in mk (map (flat_map (cget t)) (tab st))
    end.
  Definition more (st : state) (c : N) (y : str) : state :=
    State (tab st) (fold_left (fun t c => cs_add c t) y (cs_del c (chs st))) None.

  Fixpoint an_op (o : op) (st : state) {struct o} : anres :=
    let fix go (p : list op) (st : state) (pd : list (N * str)) {struct p} : anres :=
      match p with
      | [] => AnOk (flush st pd)
      | o' :: p' =>
          let other := match an_op o' (flush st pd) with AnOk st' => go p' st' [] | r => r end in
          match o' with
          | Replace [c] y =>
              if foreign M c then other
              else if cs_mem c (chs st) then go p' (more st c y) ((c, y) :: pd) else go p' st pd
          | _ => other
          end
      end in
    match o with
    | Replace x y =>
        if dead (chs st) x then AnOk st
        else if replace_ok (tab st) x then
          if all (fun s => negb (contains x s)) (tab st) then AnOk st
          else AnOk (mk (map (fun s => if contains x s then replace x y s else s) (tab st)))
        else an_replace x y st
    | ReSub p t => an_sub p t st
    | IfIn x p q =>
        if dead (chs st) x <|> never (tab st) x then go q st []
        else match go p st [], go q st [] with
             | AnOk a, AnOk b => if table_eqb (tab a) (tab b) then AnOk a else AnNo
             | _, _ => AnNo
             end
    | Try h p => match go p st [] with
                 | AnErr e => if h e then AnOk st else AnErr e
                 | r => r
                 end
    | EvenParts sep p =>
        match sep with
        | [] => AnNo
        | _ => if dead (chs st) sep then go p st [] else AnNo
        end
    | Sub r t => an_re r t st
    | Lower => if covers_lower M then AnOk (mk (map py_lower (tab st))) else AnNo
    | Norm true =>
        if covers_norm M <&> all cut_ok (tab st) then AnOk (mk (map normalize_NFC (tab st))) else AnNo
    | Raise e => AnErr e
    | _ => AnNo
    end.

  Fixpoint an_go (p : prog) (st : state) (pd : list (N * str)) {struct p} : anres :=
    match p with
    | [] => AnOk (flush st pd)
    | o' :: p' =>
        let other := match an_op o' (flush st pd) with AnOk st' => an_go p' st' [] | r => r end in
        match o' with
        | Replace [c] y =>
            if foreign M c then other
            else if cs_mem c (chs st) then an_go p' (more st c y) ((c, y) :: pd) else an_go p' st pd
        | _ => other
        end
    end.
  Definition an (p : prog) (st : state) : anres := an_go p st [].

  Definition analyze_with (p : prog) (L : list str) : option (list str) :=
    match an p (mk L) with AnOk st => Some (tab st) | _ => None end.

  Definition inv (st : state) : Prop :=
    length (tab st) = length cl /\ has_chars (chs st) (tab st) /\
    match ctx st with Some x => ctxs_ok (tab st) x | None => True end.

  Lemma inv_mk : forall L, length L = length cl -> inv (mk L).
  Proof. intros L HL. repeat split; [exact HL|apply has_charset]. Qed.

  Definition sound (f : state -> anres) (g : str -> res str) : Prop :=
    forall st, inv st ->
    match f st with
    | AnOk st' =>
        inv st' /\ forall ts, valid 0 ts = true -> g (render (tab st) ts) = Ok (render (tab st') ts)
    | AnErr e => forall ts, valid 0 ts = true -> g (render (tab st) ts) = Err e
    | AnNo => True
    end.

  (** What the waiting replacements do, one after the other. *)
  Definition after_all (pd : list (N * str)) (s : str) : str := fold_right (fun p u => replace [fst p] (snd p) u) s pd.

  Lemma cget_put : forall t c y d, cget (cput t (c, y)) d = if N.eqb c d then flat_map (cget t) y else cget t d.
  Proof.
    intros t c y d. unfold cget at 1, cput. cbn [fst snd]. destruct (N.eqb_spec c d) as [->|Hn].
    - now rewrite PositiveMap.gss.
    - rewrite PositiveMap.gso; [reflexivity|]. intros E. apply Hn. apply (f_equal Npos) in E. rewrite !N.succ_pos_spec in E. now apply N.succ_inj in E.
  Qed.
  Lemma cget_all : forall pd t s, flat_map (cget (fold_left cput pd t)) s = flat_map (cget t) (after_all pd s).
  Proof.
    induction pd as [|[c y] pd IH]; intros t s; [reflexivity|]. cbn [fold_left after_all fold_right fst snd].
    rewrite IH. change (fold_right _ s pd) with (after_all pd s). rewrite replace_char.
    generalize (after_all pd s) as u. induction u as [|d u IHu]; [reflexivity|]. cbn [flat_map].
    rewrite flat_map_app, <- IHu, cget_put. f_equal. destruct (N.eqb c d); [reflexivity|]. cbn [flat_map]. now rewrite app_nil_r.
  Qed.
  Lemma cget_empty : forall s, flat_map (cget (PositiveMap.empty str)) s = s.
  Proof.
    induction s as [|c s IH]; [reflexivity|]. cbn [flat_map]. rewrite IH. unfold cget. now rewrite PositiveMap.gempty.
  Qed.

  Lemma flush_sound : forall st pd, length (tab st) = length cl -> (pd = [] -> inv st) -> Forall (fun p => foreign M (fst p) = false) pd ->
    inv (flush st pd) /\ forall ts, valid 0 ts = true -> render (tab (flush st pd)) ts = after_all pd (render (tab st) ts).
  Proof.
    intros st pd HL HI Hf. destruct pd as [|p pd]; [split; [now apply HI|reflexivity]|]. cbn [flush]. remember (p :: pd) as q. cbv zeta.
    split; [apply inv_mk; now rewrite map_length|]. cbn [tab mk]. generalize 0 as prev. intros prev ts. revert prev.
    assert (G : forall s, flat_map (cget (fold_left cput q (PositiveMap.empty str))) s = after_all q s).
    { intros s. now rewrite cget_all, cget_empty. }
    assert (A : forall u v, after_all q (u ++ v) = after_all q u ++ after_all q v).
    { intros u v. now rewrite <- !G, flat_map_app. }
    assert (F : forall c, foreign M c = true -> after_all q [c] = [c]).
    { intros c Hc. clear HI Heqq G A. induction Hf as [|[d y] q Hd Hq IH]; [reflexivity|]. cbn [after_all fold_right fst snd] in *.
      change (fold_right _ [c] q) with (after_all q [c]). rewrite IH, replace_char. cbn [flat_map].
      destruct (N.eqb_spec d c) as [->|]; [congruence|reflexivity]. }
    induction ts as [|it ts IH]; intros prev Hv; [exact (G [])|]. simpl in Hv.
    apply andb_true_iff in Hv as [Hv Hv2]. apply andb_true_iff in Hv as [Hg _].
    rewrite !render_cons, A, (IH _ Hv2). f_equal. destruct it as [i|c]; cbn [str_of].
    - rewrite <- G. change (@nil N) with (flat_map (cget (fold_left cput q (PositiveMap.empty str))) []) at 1. apply map_nth.
    - symmetry. now apply F.
  Qed.

  Definition soundp (f : state -> list (N * str) -> anres) (g : str -> res str) : Prop :=
    forall st pd, length (tab st) = length cl -> (pd = [] -> inv st) -> Forall (fun p => foreign M (fst p) = false) pd ->
    (forall ts, valid 0 ts = true -> chars_in (chs st) (after_all pd (render (tab st) ts))) ->
    match f st pd with
    | AnOk st' =>
        inv st' /\ forall ts, valid 0 ts = true -> g (after_all pd (render (tab st) ts)) = Ok (render (tab st') ts)
    | AnErr e => forall ts, valid 0 ts = true -> g (after_all pd (render (tab st) ts)) = Err e
    | AnNo => True
    end.

  Lemma an_go_sound : forall p, Forall (fun o => sound (an_op o) (run_op o)) p -> soundp (an_go p) (run p).
  Proof.
    induction p as [|o p IH]; intros HF st pd HL HI Hf Hc.
    - cbn [an_go run]. destruct (flush_sound st pd HL HI Hf) as [H1 H2]. split; [exact H1|]. intros ts Hv. now rewrite H2.
    - inversion HF as [|? ? Ho Hp]; subst. specialize (IH Hp).
      assert (Other : match (match an_op o (flush st pd) with AnOk st' => an_go p st' [] | r => r end) with
        | AnOk st' => inv st' /\ forall ts, valid 0 ts = true -> run (o :: p) (after_all pd (render (tab st) ts)) = Ok (render (tab st') ts)
        | AnErr e => forall ts, valid 0 ts = true -> run (o :: p) (after_all pd (render (tab st) ts)) = Err e
        | AnNo => True
        end).
      { destruct (flush_sound st pd HL HI Hf) as [H1 H2]. specialize (Ho (flush st pd) H1).
        destruct (an_op o (flush st pd)) as [st1|e|]; [| |exact I].
        - destruct Ho as (I1 & R1).
          assert (C1 : forall ts, valid 0 ts = true -> chars_in (chs st1) (after_all [] (render (tab st1) ts))).
          { intros ts Hv. apply chars_in_render with (prev := 0); [apply I1|apply I1|exact Hv]. }
          specialize (IH st1 [] (proj1 I1) (fun _ => I1) (Forall_nil _) C1). cbn [after_all fold_right] in IH.
          destruct (an_go p st1 []) as [st2|e|]; [| |exact I].
          + destruct IH as (I2 & R2). split; [assumption|]. intros ts Hv. cbn [run]. now rewrite <- H2, R1, R2.
          + intros ts Hv. cbn [run]. now rewrite <- H2, R1, IH.
        - intros ts Hv. cbn [run]. now rewrite <- H2, Ho. }
      cbn [an_go]. cbv zeta. destruct o as [[|c [|c1 x]] y| | | | | | | | | | | |]; try exact Other.
      destruct (foreign M c) eqn:Ef; [exact Other|]. clear Other. destruct (cs_mem c (chs st)) eqn:Em.
      + specialize (IH (more st c y) ((c, y) :: pd) HL (fun E => match E with end) (Forall_cons (c, y) Ef Hf)).
        assert (C1 : forall ts, valid 0 ts = true -> chars_in (chs (more st c y)) (after_all ((c, y) :: pd) (render (tab (more st c y)) ts))).
        { intros ts Hv e He. cbn [after_all fold_right fst snd more tab] in He.
          change (fold_right _ (render (tab st) ts) pd) with (after_all pd (render (tab st) ts)) in He.
          destruct (in_dec N.eq_dec e y) as [Hy|Hy]; [left; now apply charset_str|].
          rewrite replace_char in He. apply in_flat_map in He as (d & Hd & He).
          destruct (N.eqb_spec c d) as [->|Hn]; [easy|]. destruct He as [->|[]].
          destruct (Hc ts Hv e Hd) as [H|H]; [|now right]. left. apply charset_mono. now rewrite cs_mem_del by congruence. }
        specialize (IH C1). exact IH.
      + specialize (IH st pd HL HI Hf Hc).
        assert (R : forall ts, valid 0 ts = true -> replace [c] y (after_all pd (render (tab st) ts)) = after_all pd (render (tab st) ts)).
        { intros ts Hv. apply replace_none. apply dead_ok with (S := chs st); [now apply Hc|].
          unfold dead, absent. cbn [any existsb]. now rewrite Em, Ef. }
        destruct (an_go p st pd) as [st2|e|]; [| |exact I].
        * destruct IH as (I2 & R2). split; [assumption|]. intros ts Hv. cbn [run run_op]. rewrite R by assumption. now apply R2.
        * intros ts Hv. cbn [run run_op]. rewrite R by assumption. now apply IH.
  Qed.

  Lemma an_list_sound : forall p, Forall (fun o => sound (an_op o) (run_op o)) p -> sound (an p) (run p).
  Proof.
    intros p HF st HI.
    assert (C : forall ts, valid 0 ts = true -> chars_in (chs st) (after_all [] (render (tab st) ts))).
    { intros ts Hv. apply chars_in_render with (prev := 0); [apply HI|apply HI|exact Hv]. }
    exact (an_go_sound p HF st [] (proj1 HI) (fun _ => HI) (Forall_nil _) C).
  Qed.

  Lemma an_re0_sound : shape_ok = true -> forall r tm, sound (an_re0 r tm) (fun s => Ok (sub r tm s)).
  Proof.
    intros Hsh r tm st HI. pose proof HI as (HL & HS & HC). unfold an_re0.
    destruct (any (never (tab st)) (factors r)) eqn:Ef.
      { split; [assumption|]. intros ts Hv. f_equal. unfold sub, sub_with.
        apply any_exists in Ef as (x & Hx & Hn). apply sub_factor with (x := x); [assumption|].
        now apply never_ok with (prev := 0). }
      destruct (sub_coarse r tm (tab st)) as [L'|] eqn:Es.
      { pose proof (sub_coarse_ok r tm _ _ HL Es) as Hok. destruct (table_eqb L' (tab st)) eqn:Et.
        - apply table_eqb_eq in Et. subst L'. split; [assumption|]. intros ts Hv. f_equal. now apply Hok.
        - split; [apply inv_mk; exact (sub_ctx_len _ _ _ _ _ _ _ _ HL Es)|].
          intros ts Hv. f_equal. now apply Hok. }
      set (x := match ctx st with Some x => x | None => build (tab st) end).
      assert (Hx : ctxs_ok (tab st) x).
      { subst x. destruct (ctx st) as [x|]; [exact HC|now apply build_ok]. }
      cbv zeta. destruct (sub_fine r tm (tab st) x) as [L'|] eqn:Ex; [|exact I].
      pose proof (sub_fine_ok r tm _ _ _ HL Hx Ex) as Hok. destruct (table_eqb L' (tab st)) eqn:Et.
      * apply table_eqb_eq in Et. subst L'. split; [|intros ts Hv; f_equal; now apply Hok].
        repeat split; assumption || exact (proj1 Hx) || apply Hx.
      * split; [apply inv_mk; exact (sub_ctx_len _ _ _ _ _ _ _ _ HL Ex)|].
        intros ts Hv. f_equal. now apply Hok.
  Qed.

  Lemma an_re_sound : shape_ok = true -> forall r tm, sound (an_re r tm) (fun s => Ok (sub r tm s)).
  Proof.
    intros Hsh r tm st HI. pose proof HI as (HL & HS & _). unfold an_re.
    assert (X : forall r' tm', (forall ts, valid 0 ts = true ->
        sub r' tm' (render (tab st) ts) = sub r tm (render (tab st) ts)) ->
      match an_re0 (squash (trim (chs st) r')) tm' st with
      | AnOk st' => inv st' /\ forall ts, valid 0 ts = true -> Ok (sub r tm (render (tab st) ts)) = Ok (render (tab st') ts)
      | AnErr e => forall ts, valid 0 ts = true -> Ok (sub r tm (render (tab st) ts)) = Err e
      | AnNo => True
      end).
    { intros r' tm' E. pose proof (an_re0_sound Hsh (squash (trim (chs st) r')) tm' st HI) as H.
      assert (F : forall ts, valid 0 ts = true ->
        sub (squash (trim (chs st) r')) tm' (render (tab st) ts) = sub r tm (render (tab st) ts)).
      { intros ts Hv. rewrite squash_ok, trim_ok; [now apply E|]. now apply chars_in_render with (prev := 0). }
      destruct (an_re0 _ _ st) as [st'|e|]; [| |exact I].
      - destruct H as [H1 H2]. split; [assumption|]. intros ts Hv. rewrite <- F by assumption. now apply H2.
      - intros ts Hv. rewrite <- F by assumption. now apply H. }
    destruct (can (chs st) r) eqn:En.
    - destruct (lead _ r tm) as [[r' tm']|] eqn:El.
      { apply X. intros ts Hv. symmetry. apply (lead_ok _ _ _ _ _ El). intros x Hx.
        apply orb_true_iff in Hx as [Hx|Hx].
        - apply dead_ok with (S := chs st); [|exact Hx]. now apply chars_in_render with (prev := 0).
        - now apply never_ok with (prev := 0). }
      destruct (between r tm) as [[r' tm']|] eqn:Eb; [|now apply X].
      apply X. intros ts Hv. now rewrite (between_ok _ _ _ _ Eb).
    - split; [assumption|]. intros ts Hv.
      f_equal. unfold sub, sub_with. apply sub_never with (S := chs st); [assumption|easy|].
      now apply chars_in_render with (prev := 0).
  Qed.

  Lemma an_behind_sound : shape_ok = true -> forall x y st, inv st ->
    match (match x, y with
           | c :: ((_ :: _) as x'), d :: y' =>
               if N.eqb c d <&> negb (memN c x') then an_re (behind c x') (map TLit y') st else AnNo
           | _, _ => AnNo
           end) with
    | AnOk st' =>
        inv st' /\ forall ts, valid 0 ts = true -> Ok (replace x y (render (tab st) ts)) = Ok (render (tab st') ts)
    | AnErr e => forall ts, valid 0 ts = true -> Ok (replace x y (render (tab st) ts)) = Err e
    | AnNo => True
    end.
  Proof.
    intros Hsh x y st HI. destruct x as [|c [|c1 x]]; try exact I. destruct y as [|d y]; try exact I.
    destruct (N.eqb_spec c d) as [<-|]; [|exact I]. cbn [andb].
    destruct (memN c (c1 :: x)) eqn:Em; [exact I|]. cbn [negb].
    assert (Hc : ~ In c (c1 :: x)) by (intros Hc; apply memN_In in Hc; congruence).
    pose proof (an_re_sound Hsh (behind c (c1 :: x)) (map TLit y) st HI) as H.
    destruct (an_re _ _ st) as [st'|e|]; [| |exact I].
    - destruct H as (H1 & H3). split; [assumption|]. intros ts Hv.
      rewrite replace_behind; [now apply H3|discriminate|assumption].
    - intros ts Hv. rewrite replace_behind; [now apply H|discriminate|assumption].
  Qed.

  Lemma an_replace0_sound : shape_ok = true -> forall x y, sound (an_replace0 x y) (fun s => Ok (replace x y s)).
  Proof.
    intros Hsh x y st HI. unfold an_replace0. pose proof (an_behind_sound Hsh x y st HI) as H.
    destruct (match x with [] => AnNo | _ => _ end) as [st'|e|] in H |- *; [exact H|exact H|].
    destruct x as [|c x]; [exact I|]. pose proof (an_re_sound Hsh (word_re (c :: x)) (map TLit y) st HI) as H1.
    destruct (an_re _ _ st) as [st'|e|]; [| |exact I].
    - destruct H1 as (H1 & H3). split; [exact H1|]. intros ts Hv. rewrite replace_word by discriminate. now apply H3.
    - intros ts Hv. rewrite replace_word by discriminate. now apply H1.
  Qed.

  Lemma replace_same : forall x s, x <> [] -> replace x x s = s.
  Proof.
    intros x s Hx. destruct x as [|a x]; [easy|]. unfold replace.
    assert (H : forall s k, replace_go (a :: x) (a :: x) k s = skipn k s).
    { clear s Hx. induction s as [|c s IH]; intros k; [now destruct k|]. destruct k as [|k]; cbn [replace_go skipn]; [|apply IH].
      destruct (prefixb (a :: x) (c :: s)) eqn:P; [|now rewrite IH]. rewrite IH. apply prefixb_spec in P as [r E].
      injection E as -> ->. cbn [app length pred]. f_equal. now rewrite skipn_app, skipn_all, Nat.sub_diag. }
    apply H.
  Qed.
  Lemma an_replace_sound : shape_ok = true -> forall x y, sound (an_replace x y) (fun s => Ok (replace x y s)).
  Proof.
    intros Hsh x y st HI. unfold an_replace. destruct (str_eqb x y <&> negb (str_eqb x [])) eqn:E; [|now apply an_replace0_sound].
    apply andb_true_iff in E as [E1 E2]. apply str_eqb_eq in E1. subst y. rewrite negb_true_iff in E2. apply str_eqb_neq in E2.
    split; [exact HI|]. intros ts _. now rewrite replace_same.
  Qed.

  Lemma render_cut : covers_norm M = true -> forall L, all cut_ok L = true -> forall ts prev,
    length L = length cl -> valid prev ts = true -> cut_ok (render L ts) = true.
  Proof.
    intros HM L HL ts. rewrite all_forall in HL.
    assert (App : forall u v, cut_ok u = true -> cut_ok v = true -> cut_ok (u ++ v) = true).
    { intros u v Hu Hv. unfold cut_ok in *. rewrite flat_map_app.
      now destruct (flat_map decomp u) as [|c w]. }
    induction ts as [|it ts IH]; intros prev Hl Hv; [reflexivity|].
    cbn [Lang.valid] in Hv. apply andb_true_iff in Hv as [Hv1 Hv]. apply andb_true_iff in Hv1 as [Hg _].
    rewrite render_cons. apply App; [|now apply (IH _ Hl Hv)]. destruct it as [i|c]; cbn [str_of good] in *.
    - apply HL, nth_In. apply Nat.ltb_lt in Hg. lia.
    - now apply (cut_ok_inert M HM).
  Qed.

  Lemma norm_table : covers_norm M = true -> forall L, all cut_ok L = true -> forall ts prev,
    length L = length cl -> valid prev ts = true ->
    normalize_NFC (render L ts) = render (map normalize_NFC L) ts.
  Proof.
    intros HM L HL. induction ts as [|it ts IH]; intros prev Hl Hv; [reflexivity|].
    cbn [Lang.valid] in Hv. apply andb_true_iff in Hv as [Hv1 Hv]. apply andb_true_iff in Hv1 as [Hg _].
    pose proof (render_cut HM L HL _ _ Hl Hv) as Hc.
    rewrite !render_cons. destruct it as [i|c]; cbn [str_of good] in *.
    - rewrite NFC_app by assumption. rewrite (IH _ Hl Hv). f_equal. symmetry. exact (map_nth normalize_NFC L [] i).
    - change ([c] ++ render L ts) with (c :: render L ts). rewrite (NFC_inert M HM) by assumption.
      now rewrite (IH _ Hl Hv).
  Qed.

  Lemma lower_table_ok : covers_lower M = true -> forall L ts prev,
    length L = length cl -> valid prev ts = true ->
    py_lower (render L ts) = render (map py_lower L) ts.
  Proof.
    intros HM L. induction ts as [|it ts IH]; intros prev Hl Hv; [reflexivity|].
    cbn [Lang.valid] in Hv. apply andb_true_iff in Hv as [Hv1 Hv]. apply andb_true_iff in Hv1 as [Hg _].
    rewrite !render_cons. unfold py_lower at 1. rewrite flat_map_app. fold py_lower.
    change (flat_map _ (render L ts)) with (py_lower (render L ts)). rewrite (IH _ Hl Hv). f_equal.
    destruct it as [i|c]; cbn [str_of good] in *.
    - symmetry. exact (map_nth py_lower L [] i).
    - exact (lower_inert M HM c Hg).
  Qed.

  Lemma an_op_sound : shape_ok = true -> forall o, sound (an_op o) (run_op o).
  Proof.
    intros Hsh. induction o as [x y|p t|x p q Hp Hq|t|t| |c|h p Hp|sep p Hp|r tm|f|f|e] using op_ind';
      intros st HI; try exact I; pose proof HI as (HL & HS & _).
    - simpl. destruct (dead (chs st) x) eqn:Ed.
      + split; [assumption|]. intros ts Hv. f_equal.
        apply replace_none. apply dead_ok with (S := chs st); [|assumption].
        now apply chars_in_render with (prev := 0).
      + destruct (replace_ok (tab st) x) eqn:Er; [|now apply an_replace_sound].
        assert (R : forall ts, valid 0 ts = true -> replace x y (render (tab st) ts) = render (map (replace x y) (tab st)) ts).
        { intros ts Hv. now apply replace_table with (prev := 0). }
        assert (E : map (fun s => if contains x s then replace x y s else s) (tab st) = map (replace x y) (tab st)).
        { apply map_ext. intros s. destruct (contains x s) eqn:Ec; [reflexivity|]. symmetry. now apply replace_none. }
        destruct (all _ (tab st)) eqn:Ea.
        * split; [assumption|]. intros ts Hv. rewrite R, <- E by assumption. do 2 f_equal. rewrite <- map_id.
          apply map_ext_in. intros s Hs. rewrite all_forall in Ea. apply Ea, negb_true_iff in Hs. now rewrite Hs.
        * rewrite E. split; [apply inv_mk; now rewrite map_length|]. intros ts Hv. f_equal. now apply R.
    - simpl. unfold an_sub, re_sub. destruct (compile p) as [[r g]|] eqn:Ec; [|reflexivity].
      destruct (parse_template _ g t) as [tm|] eqn:Et; [|reflexivity]. now apply an_re_sound.
    - apply an_list_sound in Hp, Hq. specialize (Hp st HI). specialize (Hq st HI).
      change (an_op (IfIn x p q) st) with
        (if dead (chs st) x <|> never (tab st) x then an q st
         else match an p st, an q st with
              | AnOk a, AnOk b => if table_eqb (tab a) (tab b) then AnOk a else AnNo
              | _, _ => AnNo end).
      destruct (dead (chs st) x <|> never (tab st) x) eqn:Ed.
      + assert (E : forall ts, valid 0 ts = true -> contains x (render (tab st) ts) = false).
        { intros ts Hv. apply orb_true_iff in Ed as [Ed|Ed]; [|now apply never_ok with (prev := 0)].
          apply (dead_ok (chs st)); [|assumption].
          now apply chars_in_render with (prev := 0). }
        destruct (an q st) as [st'|e|]; [| |exact I].
        * destruct Hq as (I2 & R2). split; [assumption|].
          intros ts Hv. rewrite run_op_IfIn, E by assumption. now apply R2.
        * intros ts Hv. rewrite run_op_IfIn, E by assumption. now apply Hq.
      + destruct (an p st) as [a|e|] eqn:Ea; [|exact I|exact I].
        destruct (an q st) as [b|e|] eqn:Eb; [|exact I|exact I].
        destruct (table_eqb (tab a) (tab b)) eqn:E; [|exact I].
        apply table_eqb_eq in E.
        destruct Hp as (I1 & R1). destruct Hq as (I2 & R2).
        split; [assumption|]. intros ts Hv. rewrite run_op_IfIn.
        destruct (contains x _); [now apply R1|]. rewrite E. now apply R2.
    - cbn [an_op]. destruct (covers_lower M) eqn:HM; [|exact I].
      split; [apply inv_mk; now rewrite map_length|].
      intros ts Hv. cbn [run_op]. f_equal. now apply lower_table_ok with (prev := 0).
    - destruct c; [|exact I]. cbn [an_op]. destruct (covers_norm M) eqn:HM; [|exact I].
      destruct (all cut_ok (tab st)) eqn:Hcut; [|exact I]. cbn [andb].
      split; [apply inv_mk; now rewrite map_length|].
      intros ts Hv. cbn [run_op]. f_equal. now apply norm_table with (prev := 0).
    - apply an_list_sound in Hp. specialize (Hp st HI).
      change (an_op (Try h p) st) with
        (match an p st with AnErr e => if h e then AnOk st else AnErr e | r => r end).
      destruct (an p st) as [st'|e|]; [| |exact I].
      + destruct Hp as (I2 & R2). split; [assumption|].
        intros ts Hv. rewrite run_op_Try. now rewrite R2.
      + destruct (h e) eqn:Eh.
        * split; [assumption|]. intros ts Hv. rewrite run_op_Try, Hp by assumption. now rewrite Eh.
        * intros ts Hv. rewrite run_op_Try, Hp by assumption. now rewrite Eh.
    - apply an_list_sound in Hp. specialize (Hp st HI).
      change (an_op (EvenParts sep p) st) with
        (match sep with [] => AnNo | _ => if dead (chs st) sep then an p st else AnNo end).
      destruct sep as [|s0 sep]; [exact I|].
      destruct (dead (chs st) (s0 :: sep)) eqn:Ed; [|exact I].
      assert (E : forall ts, valid 0 ts = true -> split (s0 :: sep) (render (tab st) ts) = [render (tab st) ts]).
      { intros ts Hv. apply split_none; [|discriminate]. apply (dead_ok (chs st)); [|assumption].
        now apply chars_in_render with (prev := 0). }
      destruct (an p st) as [st'|e|]; [| |exact I].
      + destruct Hp as (I2 & R2). split; [assumption|].
        intros ts Hv. rewrite run_op_EvenParts, E by assumption. cbn [alt_parts]. rewrite R2 by assumption.
        now rewrite app_nil_r.
      + intros ts Hv. rewrite run_op_EvenParts, E by assumption. cbn [alt_parts]. now rewrite Hp.
    - now apply an_re_sound.
    - intros ts Hv. reflexivity.
  Qed.

  Theorem analyze_with_ok : shape_ok = true -> forall p L L', length L = length cl ->
    analyze_with p L = Some L' ->
    length L' = length cl /\
    forall ts, valid 0 ts = true -> run p (render L ts) = Ok (render L' ts).
  Proof.
    intros Hsh p L L' HL H. unfold analyze_with in H.
    assert (HF : Forall (fun o => sound (an_op o) (run_op o)) p)
      by (apply Forall_forall; intros o _; now apply an_op_sound).
    pose proof (an_list_sound p HF (mk L) (inv_mk L HL)) as X.
    destruct (an p (mk L)) as [st'|e|]; try discriminate. injection H as <-.
    destruct X as ((H1 & _) & H2). now split.
  Qed.

  (** No operation of the program changes anything. *)
  Fixpoint quiet_go (p : prog) (st : state) : bool :=
    match p with
    | [] => true
    | o :: p' => match an_op o st with AnOk st' => table_eqb (tab st') (tab st) <&> quiet_go p' st' | _ => false end
    end.
  Lemma quiet_go_ok : shape_ok = true -> forall p st, inv st -> quiet_go p st = true -> forall o, In o p ->
    forall ts, valid 0 ts = true -> run_op o (render (tab st) ts) = Ok (render (tab st) ts).
  Proof.
    intros Hsh. induction p as [|o p IH]; intros st HI H o' Ho ts Hv; [easy|]. cbn [quiet_go] in H.
    pose proof (an_op_sound Hsh o st HI) as X. destruct (an_op o st) as [st'|e|]; try discriminate. destruct X as [I' R].
    apply andb_true_iff in H as [H1 H2]. apply table_eqb_eq in H1. destruct Ho as [<-|Ho].
    - rewrite <- H1 at 2. now apply R.
    - rewrite <- H1. now apply (IH st' I' H2).
  Qed.
  Definition quiet_with (p : prog) (L : list str) : bool := quiet_go p (mk L).
  Lemma quiet_with_ok : shape_ok = true -> forall p L, length L = length cl -> quiet_with p L = true -> forall o, In o p ->
    forall ts, valid 0 ts = true -> run_op o (render L ts) = Ok (render L ts).
  Proof. intros Hsh p L HL. exact (quiet_go_ok Hsh p (mk L) (inv_mk L HL)). Qed.
End Analyze.

Definition quiet (M : list (N * N)) (cl : list (nat * nat)) (ok : nat -> nat -> bool) (K D rounds : nat)
    (p : prog) (L : list str) : bool :=
  quiet_with M cl ok K D rounds (okrows cl ok K) (okrows (mcl cl) (mok ok) K) p L.
Theorem quiet_ok : forall M cl ok K D rounds, shape_ok cl K = true -> forall p L, length L = length cl ->
  quiet M cl ok K D rounds p L = true -> forall o, In o p ->
  forall ts, valid M cl ok 0 ts = true -> run_op o (render L ts) = Ok (render L ts).
Proof.
  intros M cl ok K D rounds Hs p L HL H.
  exact (quiet_with_ok M cl ok K D rounds _ _ eq_refl eq_refl Hs p L HL H).
Qed.

Definition analyze (M : list (N * N)) (cl : list (nat * nat)) (ok : nat -> nat -> bool) (K D rounds : nat)
    (p : prog) (L : list str) : option (list str) :=
  analyze_with M cl ok K D rounds (okrows cl ok K) (okrows (mcl cl) (mok ok) K) p L.

Theorem analyze_ok : forall M cl ok K D rounds, shape_ok cl K = true -> forall p L L', length L = length cl ->
  analyze M cl ok K D rounds p L = Some L' ->
  length L' = length cl /\
  forall ts, valid M cl ok 0 ts = true -> run p (render L ts) = Ok (render L' ts).
Proof.
  intros M cl ok K D rounds Hs p L L' HL H.
  exact (analyze_with_ok M cl ok K D rounds _ _ eq_refl eq_refl Hs p L L' HL H).
Qed.
