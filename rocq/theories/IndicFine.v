(** * Token tables for scripts whose conversion looks at neighbouring letters.

    A [fine] table refines the classes of IndicText.v: some letters get a class
    of their own, and tokens may be longer.  The texts are still the [dev_text]
    of IndicText.v, less the strings listed in [f_bad].  Proof machinery; no code
    of /repo is modelled here. *)
From Coq Require Import List NArith ZArith Bool Lia Arith.
From Verif Require Import PyStr Regex Unicode Prog Transliterate StrFacts AbsRegex Lang Tokenise Analyze IndicText IndicRT.
Import ListNotations.
Local Open Scope nat_scope.

(** The letters with a class of their own, the class of IndicText.v each class
    refines, the number of letter classes and of token classes, the tokens, which
    token class may follow which, and the strings that must not occur. *)
Record fine := Fine {
  f_own : list (list N * nat);
  f_coarse : nat -> nat;
  f_nc : nat;
  f_k : nat;
  f_entries : list entry;
  f_follows : nat -> nat -> bool;
  f_bad : list str }.

Fixpoint own (g : list (list N * nat)) (c : N) (q : nat) : nat :=
  match g with
  | [] => q
  | (l, n) :: g' => if memN c l then n else own g' c q
  end.

Section Fine.
  Variable t : fine.

  Definition f_ctab : list (N * nat) := map (fun p => (fst p, own (f_own t) (fst p) (snd p))) letter_class.
  Definition f_adj (a b : nat) : bool := adjacent (f_coarse t a) (f_coarse t b).
  Definition f_toks : str -> list item := tokens ranges f_ctab (f_entries t) (f_follows t).
  Definition f_table : list str := spell' (f_entries t) (f_bad t) 11.
  Definition f_classes : list (nat * nat) := cls' (f_entries t) (f_bad t) 11.
  Definition f_ok : nat -> nat -> bool := ok' (f_follows t) 11.

  (** What does not depend on [f_bad]. *)
  Definition f_tok : bool :=
    check ranges f_ctab f_adj (f_nc t) (f_entries t) (f_follows t)
    <&> all (fun p => Nat.eqb (f_coarse t (own (f_own t) (fst p) (snd p))) (snd p)) letter_class
    <&> Nat.eqb (f_coarse t 0) 0 <&> Nat.eqb (f_coarse t 1) 1
    <&> no_Z (f_entries t) 11.
  Definition f_check : bool := f_tok <&> shape_ok f_classes (f_k t).

  (** The end of the text and a foreign character are alike to their neighbours. *)
  Definition f_edges : bool :=
    all (fun k => (negb (f_ok k 0) <|> f_ok k 1) <&> (negb (f_ok 0 k) <|> f_ok 1 k)) (seq 0 (f_k t)) <&> f_ok 1 1.

  Lemma f_check_spec : f_check = true ->
    check ranges f_ctab f_adj (f_nc t) (f_entries t) (f_follows t) = true /\
    (forall p, In p letter_class -> f_coarse t (own (f_own t) (fst p) (snd p)) = snd p) /\
    f_coarse t 0 = 0 /\ f_coarse t 1 = 1 /\ no_Z (f_entries t) 11 = true /\ shape_ok f_classes (f_k t) = true.
  Proof.
    unfold f_check, f_tok. generalize (check ranges f_ctab f_adj (f_nc t) (f_entries t) (f_follows t)) as b1.
    generalize (no_Z (f_entries t) 11) as b2. generalize (shape_ok f_classes (f_k t)) as b3. intros b3 b2 b1 H.
    apply andb_true_iff in H as [H H6]. apply andb_true_iff in H as [H H5]. apply andb_true_iff in H as [H H4].
    apply andb_true_iff in H as [H H3]. apply andb_true_iff in H as [H1 H2].
    rewrite all_forall in H2. apply Nat.eqb_eq in H3, H4.
    split; [exact H1|]. split; [intros p Hp; apply Nat.eqb_eq; now apply H2|]. now repeat split.
  Qed.

  Lemma assoc_own : forall g c l, assoc c (map (fun p => (fst p, own g (fst p) (snd p))) l) =
    if memN c (map fst l) then own g c (assoc c l) else 1.
  Proof.
    intros g c. induction l as [|[d k] l IH]; [reflexivity|]. cbn [map assoc fst snd].
    destruct (N.eqb_spec c d) as [<-|Hne].
    - replace (memN c (c :: map fst l)) with true; [reflexivity|]. symmetry. apply memN_In. now left.
    - rewrite IH. destruct (memN c (map fst l)) eqn:E.
      + replace (memN c (d :: map fst l)) with true; [reflexivity|]. symmetry. apply memN_In. right. now apply memN_In.
      + destruct (memN c (d :: map fst l)) eqn:E'; [|reflexivity]. apply memN_In in E' as [->|H]; [congruence|].
        apply memN_In in H. congruence.
  Qed.

  Lemma f_alph : alph f_ctab = alph letter_class.
  Proof. unfold alph, f_ctab. rewrite map_map. now apply map_ext. Qed.

  Lemma f_kc : f_check = true -> forall c, foreign ranges c || memN c (alph letter_class) = true ->
    f_coarse t (kc ranges f_ctab c) = kc ranges letter_class c.
  Proof.
    intros H c Hc. apply f_check_spec in H as (_ & H2 & _ & H4 & _).
    unfold kc. destruct (foreign ranges c); [exact H4|]. cbn [orb] in Hc.
    unfold f_ctab. rewrite assoc_own. change (map fst letter_class) with (alph letter_class). rewrite Hc.
    apply memN_In in Hc. apply assoc_In in Hc. exact (H2 _ Hc).
  Qed.

  Lemma f_text : f_check = true -> forall s k,
    wf_text ranges f_ctab f_adj k s = wf_text ranges letter_class adjacent (f_coarse t k) s.
  Proof.
    intros H. assert (H0 : f_coarse t 0 = 0) by apply (f_check_spec H).
    induction s as [|c s IH]; intros k; cbn [wf_text].
    - unfold f_adj. now rewrite H0.
    - rewrite f_alph, IH. unfold f_adj. destruct (foreign ranges c || memN c (alph letter_class)) eqn:E; [|reflexivity].
      now rewrite (f_kc H c E).
  Qed.

  Lemma f_tokens : f_check = true -> forall s, dev_text s = true -> avoids (f_bad t) s = true ->
    render f_table (f_toks s) = s /\ valid ranges f_classes f_ok 0 (f_toks s) = true.
  Proof.
    intros H s Hd Ha. pose proof (f_text H s 0) as E. 
    apply f_check_spec in H as (H1 & _ & H3 & _ & H5 & _). rewrite H3 in E.
    apply tokens_ok' with (P := f_adj) (NC := f_nc t); [exact H1|exact H5| |exact Ha].
    unfold f_adj in E |- *. rewrite E. exact Hd.
  Qed.

  (** The table after a part of a conversion. *)
  Definition f_stage (p : prog) (L : list str) : option (list str) :=
    if Nat.eqb (length L) (length f_classes) then analyze ranges f_classes f_ok (f_k t) 3 4 p L else None.

  Lemma f_stage_ok : f_check = true -> forall p L L', f_stage p L = Some L' ->
    forall ts, valid ranges f_classes f_ok 0 ts = true -> run p (render L ts) = Ok (render L' ts).
  Proof.
    intros Hk p L L' H ts Hv. unfold f_stage in H.
    assert (Hs : shape_ok f_classes (f_k t) = true) by apply (f_check_spec Hk).
    destruct (Nat.eqb_spec (length L) (length f_classes)) as [Hl|]; [|discriminate].
    now apply (analyze_ok _ _ _ _ _ _ Hs _ _ _ Hl H).
  Qed.

  Lemma shape_K : shape_ok f_classes (f_k t) = true -> 2 <= f_k t.
  Proof.
    unfold shape_ok, classes_ok. intros H. apply andb_true_iff in H as [H _]. apply andb_true_iff in H as [H _].
    now apply Nat.ltb_lt in H.
  Qed.
  Lemma shape_cl : shape_ok f_classes (f_k t) = true -> forall p, In p f_classes -> fst p < f_k t /\ snd p < f_k t.
  Proof.
    unfold shape_ok, classes_ok. intros H p Hp. apply andb_true_iff in H as [H1 H2].
    apply andb_true_iff in H1 as [_ H1]. apply andb_true_iff in H2 as [_ H2]. rewrite forallb_forall in H1, H2.
    split; [now apply Nat.ltb_lt, H1|]. unfold mcl in H2. specialize (H2 (snd p, fst p)). cbn [fst] in H2.
    apply Nat.ltb_lt, H2. apply in_map_iff. now exists p.
  Qed.

  (** Two token sequences with a foreign character between them. *)
  Lemma valid_join : f_check = true -> f_edges = true -> forall c, foreign ranges c = true -> forall ts ts' r,
    r < f_k t -> valid ranges f_classes f_ok r ts = true -> valid ranges f_classes f_ok 0 ts' = true ->
    valid ranges f_classes f_ok r (ts ++ X c :: ts') = true.
  Proof.
    intros Hk He c Hc ts ts' r Hr Hv Hv'. unfold f_edges in He. apply andb_true_iff in He as [He H11].
    rewrite all_forall in He.
    assert (Hs : shape_ok f_classes (f_k t) = true) by apply (f_check_spec Hk).
    pose proof (shape_K Hs) as HK. pose proof (shape_cl Hs) as Hcl. assert (Hin : forall i, i < length f_classes -> fst (nth i f_classes (0,0)) < f_k t /\ snd (nth i f_classes (0,0)) < f_k t).
    { intros i Hi. assert (Hn : In (nth i f_classes (0,0)) f_classes) by now apply nth_In.
      exact (Hcl _ Hn). }
    assert (Ae : forall k, k < f_k t -> f_ok k 0 = true -> f_ok k 1 = true).
    { intros k Hlt H0. specialize (He k). rewrite in_seq in He. specialize (He ltac:(lia)).
      apply andb_true_iff in He as [H _]. rewrite H0 in H. exact H. }
    assert (Ab : forall k, k < f_k t -> f_ok 0 k = true -> f_ok 1 k = true).
    { intros k Hlt H0. specialize (He k). rewrite in_seq in He. specialize (He ltac:(lia)).
      apply andb_true_iff in He as [_ H]. rewrite H0 in H. exact H. }
    assert (V' : valid ranges f_classes f_ok 1 ts' = true).
    { destruct ts' as [|it ts']; cbn [valid] in *; [apply Ab; [lia|exact Hv']|].
      apply andb_true_iff in Hv' as [Hv' H3]. apply andb_true_iff in Hv' as [H1 H2].
      rewrite H1, H3. destruct it as [i|d]; cbn [lc] in *.
      - rewrite Ab; [reflexivity| |exact H2]. cbn [good] in H1. apply Nat.ltb_lt in H1. now apply Hin.
      - rewrite Ab; [reflexivity|lia|exact H2]. }
    revert r Hr Hv. induction ts as [|it ts IH]; intros r Hr Hv; cbn [app valid] in *.
    - cbn [lc rc good]. rewrite Hc, V', Ae; [reflexivity|assumption|assumption].
    - apply andb_true_iff in Hv as [Hv H3]. rewrite Hv. cbn [andb]. apply andb_true_iff in Hv as [H1 _].
      apply IH; [|exact H3]. destruct it as [i|d]; cbn [rc]; [|lia].
      cbn [good] in H1. apply Nat.ltb_lt in H1. now apply Hin.
  Qed.
End Fine.

(* ------------------------------------------------------------------ *)
(** ** Pieces of tables *)

Definition minus (a b : str) : str := filter (fun c => negb (memN c b)) a.
Definition but (a b : list nat) : list nat := filter (fun c => negb (memb c b)) a.
Definition digits : str := "०१२३४५६७८९"%u.
Definition ch (s : str) : N := hd 0%N s.
Definition avagraha : N := ch "ऽ"%u.

(** Scripts which write the candra vowels with ʼ, the long vowels with brackets
    or superscript digits: strings that are lost on the way back. *)
Definition lost_common : list str := ["(अ)"%u; "(आ)"%u] ++ map (fun d => [ch "h"%u; d]) digits.

(** Letter classes 13: of the script's choice, 14 h, 15 digits, 16 ऽ, 17 and 18
    brackets, 19 अ आ. *)
Definition own_common : list (list N * nat) :=
  [("h"%u, 14); (digits, 15); ([avagraha], 16); ("("%u, 17); (")"%u, 18); ("अआ"%u, 19)].
Definition coarse_common (k : nat) : nat :=
  match k with 13 => 4 | 14 | 15 | 16 | 17 | 18 => 9 | 19 => 2 | _ => k end.
Definition all20 : list nat := seq 0 20.

(** Tokens other than consonants. *)
Definition vowels_common : list entry :=
  map (fun c => Entry [c] all20 2 2) (minus vowels "अआ"%u)
  ++ map (fun c => Entry [c] all20 31 2) "अआ"%u
  ++ map (fun c => Entry [c] all20 3 3) vowels_o.
Definition rest_common : list entry :=
  map (fun c => Entry [c] all20 7 7) nasals
  ++ [Entry [visarga] all20 8 8;
      Entry "ऽऽ"%u all20 28 9; Entry "ऽ"%u (but all20 [16]) 28 40;
      Entry "(अ)"%u all20 9 9; Entry "(आ)"%u all20 9 9;
      Entry "(अ"%u (but all20 [18]) 44 42; Entry "(आ"%u (but all20 [18]) 44 42;
      Entry "("%u (but all20 [19]) 29 41; Entry ")"%u all20 30 9]
  ++ map (fun d => Entry [ch "h"%u; d] all20 9 9) digits
  ++ [Entry "h"%u (but all20 [15]) 9 39]
  ++ map (fun d => Entry [d] all20 27 9) digits
  ++ map (fun c => Entry [c] all20 9 9) (minus others (digits ++ "hऽ()"%u))
  ++ map (fun c => Entry [c] all20 10 10) dandas.
