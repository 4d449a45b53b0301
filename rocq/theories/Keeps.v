(** * Programs that keep the characters of no alphabet.

    [keep al p] checks, without looking at the text, that the program [p] neither loses nor adds nor
    rearranges characters outside the ranges [al].  Proof machinery; no code of /repo is modelled here,
    except that [alphabets] covers the code points the conversion programs talk about. *)
From Coq Require Import List NArith ZArith Bool Lia.
From Verif Require Import PyStr StrFacts UnicodeTables Regex Unicode Prog AbsRegex NormCut.
Import ListNotations.
Local Open Scope N_scope.

(** Blocks of the scripts that take part in conversions, of letters with case, of combining marks
    and of characters with canonical decompositions. *)
Definition alphabets : list (N * N) :=
  [(32,36); (38,126); (0xA1,0xAA); (0xAC,0xB5); (0xB7,0xBA); (0xBC,0x13FF); (0x1680,0x200F); (0x2016,0x201B); (0x202A,0x209F);
   (0x20D0,0x22FF); (0x2329,0x232A); (0x24B6,0x24E9); (0x25CF,0x25CF); (0x2ADC,0x2ADD); (0x2C00,0x2E31); (0x3000,0x30FF);
   (0xA640,0xD7FF); (0xE000,0xF8FF); (0xFB00,0xFB4F); (0xFE20,0xFE2F); (0xFF21,0xFF5A);
   (0x10000,0x11FFF); (0x13000,0x133FF); (0x16A40,0x16FFF); (0x1BC9E,0x1BC9E); (0x1D100,0x1D2FF); (0x1E000,0x1E95F); (0xF0000,0xFFFFF)].
(** What is watched: [hush] is true of the characters that do not matter; a pattern item for which [g_set] or
    [g_any] answers true matches such characters only. *)
Record guard := Guard { hush : N -> bool; g_set : bool -> list citem -> bool; g_any : bool }.
Definition sound (al : guard) : Prop :=
  (forall neg l c, g_set al neg l = true -> in_set neg l c = true -> hush al c = true)
  /\ (g_any al = true -> forall c, c <> 10 -> hush al c = true).
Definition hushed (al : guard) (s : str) : bool := forallb (hush al) s.

(** Given by ranges *)
Definition ranges : Set := list (N * N).
Definition hush_range (al : ranges) (a b : N) : bool := existsb (fun p => (fst p <=? a) && (b <=? snd p)) al.
Definition hush_item (al : ranges) (i : citem) : bool :=
  match i with
  | CRange a b => hush_range al a b
  | CCls CSpace false => forallb (fun p => hush_range al (fst p) (snd p)) space_ranges
  | CCls _ _ => false
  end.
Definition of_ranges (al : ranges) : guard := Guard (in_ranges al) (fun neg l => negb neg && forallb (hush_item al) l) false.
Coercion of_ranges : ranges >-> guard.
Lemma in_ranges_In : forall l c, in_ranges l c = true -> exists p, In p l /\ fst p <= c <= snd p.
Proof.
  induction l as [|[a b] l IH]; intros c H; [discriminate|]. cbn [in_ranges] in H.
  destruct (c <? a) eqn:E1; [discriminate|]. apply N.ltb_ge in E1. destruct (c <=? b) eqn:E2.
  - apply N.leb_le in E2. exists (a, b). split; [now left|]. now split.
  - destruct (IH c H) as (p & Hp & Q). exists p. split; [now right|exact Q].
Qed.
Fixpoint sorted (l : list (N * N)) (k : N) : bool :=
  match l with [] => true | (a, b) :: l => (k <=? a) && (a <=? b) && sorted l (b + 1) end.
Lemma in_ranges_intro : forall l k, sorted l k = true -> forall p c, In p l -> fst p <= c <= snd p -> k <= c /\ in_ranges l c = true.
Proof.
  induction l as [|[a b] l IH]; intros k H p c Hp Q; [destruct Hp|]. cbn [sorted] in H.
  apply andb_true_iff in H as [H H3]. apply andb_true_iff in H as [H1 H2]. apply N.leb_le in H1, H2. cbn [in_ranges].
  destruct Hp as [<-|Hp].
  - cbn [fst snd] in Q. split; [lia|]. destruct (N.ltb_spec c a); [lia|]. destruct (N.leb_spec c b); [reflexivity|lia].
  - destruct (IH _ H3 p c Hp Q) as [A B]. split; [lia|]. destruct (N.ltb_spec c a); [lia|]. destruct (N.leb_spec c b); [reflexivity|exact B].
Qed.
Lemma hush_cases : forall (al : ranges), sorted al 0 = true -> forall c, hush al c = true <-> exists p, In p al /\ fst p <= c <= snd p.
Proof.
  intros al Hal c. split; [apply in_ranges_In|]. intros (p & Hp & Q). exact (proj2 (in_ranges_intro al 0 Hal p c Hp Q)).
Qed.
Lemma hush_range_In : forall (al : ranges), sorted al 0 = true -> forall a b c, hush_range al a b = true -> a <= c <= b -> hush al c = true.
Proof.
  intros al Hal a b c H Q. apply existsb_exists in H as (p & Hp & H). apply andb_true_iff in H as [H1 H2].
  apply N.leb_le in H1, H2. apply (hush_cases al Hal). exists p. split; [exact Hp|]. lia.
Qed.
Lemma ranges_sound : forall (al : ranges), sorted al 0 = true -> sound al.
Proof.
  intros al Hal. split; [|discriminate]. intros neg l c H E. cbn [g_set of_ranges] in H. apply andb_true_iff in H as [N H]. destruct neg; [discriminate|].
  unfold in_set in E. cbn [xorb] in E. destruct (existsb (fun i => in_item i c) l) eqn:E'; [|discriminate].
  apply existsb_exists in E' as (i & Hi & Ei). rewrite forallb_forall in H. specialize (H i Hi).
  destruct i as [a b|[| |] [|]]; cbn [in_item hush_item in_class] in *; try discriminate.
  - apply andb_true_iff in Ei as [A B]. apply N.leb_le in A, B. now apply (hush_range_In al Hal a b).
  - cbn [xorb] in Ei. destruct (is_space c) eqn:Es; [|discriminate]. apply in_ranges_In in Es as (p & Hp & Q).
    rewrite forallb_forall in H. exact (hush_range_In al Hal _ _ c (H p Hp) Q).
Qed.

Section Alphabet.
Variable al : guard.
Local Notation hush := (hush al).
Local Notation hushed := (hushed al).

(** ** The check *)
(** [r] consumes characters of [al] only; [L]: groups not known to do so. *)
Fixpoint quiet (L : nat -> bool) (r : re) : bool :=
  match r with
  | REps | RLook _ _ _ _ | RBeg | REndStr | REndLine | RWordB _ => true
  | RChar c => hush c
  | RAny => g_any al
  | RSet neg l => g_set al neg l
  | RSeq a b | RAlt a b => quiet L a && quiet L b
  | RGroup _ a | RRep _ _ _ a => quiet L a
  | RBack n => negb (L n)
  end.
Fixpoint groups (r : re) : list nat :=
  match r with
  | RSeq a b | RAlt a b => groups a ++ groups b
  | RGroup n a => n :: groups a
  | RRep _ _ _ a | RLook _ _ _ a => groups a
  | _ => []
  end.
Fixpoint loud (L : nat -> bool) (r : re) : list nat :=
  match r with
  | RSeq a b | RAlt a b => loud L a ++ loud L b
  | RGroup n a => if quiet L a then loud L a else n :: loud L a
  | RRep _ _ _ a | RLook _ _ _ a => loud L a
  | _ => []
  end.
Definition memn (n : nat) (l : list nat) : bool := existsb (Nat.eqb n) l.
Definition apart (a b : list nat) : bool := forallb (fun n => negb (memn n b)) a.
(** The groups that take up all other characters, in the order of the text. *)
Fixpoint tops (L : nat -> bool) (r : re) : option (list nat) :=
  if quiet L r then Some [] else
  match r with
  | RSeq a b => match tops L a, tops L b with
      | Some x, Some y => if apart x (groups b) && apart y (groups a) then Some (x ++ y) else None
      | _, _ => None end
  | RGroup n a => Some [n]
  | RRep _ O (Some 1%nat) (RGroup n a) => Some [n]
  | _ => None
  end.
Fixpoint tgroups (t : list titem) : list nat :=
  match t with [] => [] | TLit _ :: t => tgroups t | TGroup n :: t => n :: tgroups t end.
Fixpoint same (a b : list nat) : bool :=
  match a, b with [], [] => true | x :: a, y :: b => Nat.eqb x y && same a b | _, _ => false end.
Definition keeps_re (r : re) (t : list titem) : bool :=
  let L0 := loud (fun _ => true) r in
  let L := loud (fun n => memn n L0) r in
  forallb (fun n => memn n L) (loud (fun n => memn n L) r) &&
  forallb (fun i => match i with TLit c => hush c | TGroup n => negb (Nat.eqb n 0) end) t &&
  match tops (fun n => memn n L) r with
  | Some l => same (filter (fun n => memn n L) (tgroups t)) l
  | None => false
  end.
Definition keeps_sub (p t : str) : bool :=
  match compile p with
  | None => true
  | Some (r, g) => match parse_template (S (length t)) g t with None => true | Some l => keeps_re r l end
  end.
Fixpoint keep_op (o : op) {struct o} : bool :=
  let fix go (p : list op) {struct p} : bool := match p with [] => true | o' :: p' => if keep_op o' then go p' else false end in
  match o with
  | Replace x y => str_eqb x y || hushed x && hushed y
  | ReSub p t => keeps_sub p t
  | IfIn x p q => if go p then go q else false
  | Append t | Prepend t => hushed t
  | Lower | Norm _ => true
  | Try h p => go p
  | EvenParts sep p => if hushed sep && negb (str_eqb sep []) then go p else false
  | Sub r t => keeps_re r t
  | Map f => false
  | Fn f => false
  | Raise e => true
  end.
Fixpoint keep (p : prog) {struct p} : bool := match p with [] => true | o' :: p' => if keep_op o' then keep p' else false end.

(** ** Soundness, for any projection that forgets the characters of [al] *)
Hypothesis Hal : sound al.
Lemma memn_In : forall n l, memn n l = true <-> In n l.
Proof.
  intros n l. unfold memn. rewrite existsb_exists. split.
  - intros (x & Hx & E). apply Nat.eqb_eq in E. now subst x.
  - intros H. exists n. split; [exact H|apply Nat.eqb_refl].
Qed.
Lemma apart_In : forall a b n, apart a b = true -> In n a -> ~ In n b.
Proof.
  intros a b n H Hn Q. unfold apart in H. rewrite forallb_forall in H. specialize (H n Hn).
  apply memn_In in Q. rewrite Q in H. discriminate.
Qed.
Lemma same_eq : forall a b, same a b = true -> a = b.
Proof.
  induction a as [|x a IH]; intros [|y b] H; try discriminate; [reflexivity|]. cbn [same] in H.
  apply andb_true_iff in H as [H1 H2]. apply Nat.eqb_eq in H1 as ->. f_equal. now apply IH.
Qed.
Section Proj.
  Variable pr : N -> str.
  Hypothesis Hpr : forall c, hush c = true -> pr c = [].
  Definition pj (s : str) : str := flat_map pr s.

  Lemma pj_app : forall a b, pj (a ++ b) = pj a ++ pj b.
  Proof. intros a b. apply flat_map_app. Qed.
  Lemma pj_hushed : forall s, hushed s = true -> pj s = [].
  Proof.
    induction s as [|c s IH]; intros H; [reflexivity|]. cbn [hushed forallb] in H. apply andb_true_iff in H as [H1 H2].
    cbn [pj flat_map]. rewrite (Hpr c H1). exact (IH H2).
  Qed.

  Lemma cap_app : forall n a b, cap n (a ++ b) = match cap n a with Some x => Some x | None => cap n b end.
  Proof. induction a as [|[k x] a IH]; intros b; [reflexivity|]. cbn [cap app]. destruct (Nat.eqb k n); [reflexivity|apply IH]. Qed.
  Lemma cap_In : forall n l x, cap n l = Some x -> In (n, x) l.
  Proof.
    induction l as [|[k y] l IH]; intros x H; cbn [cap] in H; [discriminate|]. destruct (Nat.eqb k n) eqn:E.
    - apply Nat.eqb_eq in E as ->. injection H as ->. now left.
    - right. now apply IH.
  Qed.

  Section Match.
    Variable L : nat -> bool.
    Definition calm (cs : list (nat * str)) : Prop := forall n x, In (n, x) cs -> L n = false -> pj x = [].
    (** From [s] to [s'] with the text [u] consumed and the captures [cs] added. *)
    Definition went (r : re) (s s' : st) (u : str) (cs : list (nat * str)) : Prop :=
      aft s = u ++ aft s' /\ caps s' = cs ++ caps s /\ calm cs /\ (forall n x, In (n, x) cs -> In n (groups r)).

    Lemma calm_nil : calm [].
    Proof. intros n x []. Qed.
    Lemma calm_app : forall a b, calm a -> calm b -> calm (a ++ b).
    Proof. intros a b Ha Hb n x H. apply in_app_or in H as [H|H]; [now apply Ha|now apply Hb]. Qed.
    Lemma calm_caps : forall r s s' u cs, went r s s' u cs -> calm (caps s) -> calm (caps s').
    Proof. intros r s s' u cs (_ & E & C & _) H. rewrite E. now apply calm_app. Qed.

    Lemma step1_went : forall f s k v, step1 f s k = Some v -> exists c s', k s' = Some v /\ aft s = [c] ++ aft s' /\ caps s' = caps s /\ f c = true.
    Proof.
      intros f s k v H. unfold step1 in H. destruct (aft s) as [|c t] eqn:E; [discriminate|]. destruct (f c) eqn:F; [|discriminate].
      exists c. eexists. split; [exact H|]. split; [reflexivity|]. now split.
    Qed.
    Lemma step_lit_went : forall x s k v, step_lit x s k = Some v -> exists s', k s' = Some v /\ aft s = x ++ aft s' /\ caps s' = caps s.
    Proof.
      induction x as [|c x IH]; intros s k v H; cbn [step_lit] in H; [now exists s|].
      apply step1_went in H as (d & s1 & H & A & C & F). apply N.eqb_eq in F as <-. apply IH in H as (s' & H & A' & C').
      exists s'. split; [exact H|]. split; [rewrite A, A'; reflexivity|congruence].
    Qed.

    Lemma m_went : forall r, (forall n, In n (loud L r) -> L n = true) -> forall s k v, calm (caps s) -> m r s k = Some v ->
      exists s' u cs, k s' = Some v /\ went r s s' u cs /\ (quiet L r = true -> pj u = []).
    Proof.
      assert (Stay : forall r s, went r s s [] []) by (intros r s; split; [reflexivity|]; split; [reflexivity|]; split; [apply calm_nil|intros n x []]).
      assert (One : forall r f s k v, (quiet L r = true -> forall c, f c = true -> hush c = true) -> step1 f s k = Some v ->
        exists s' u cs, k s' = Some v /\ went r s s' u cs /\ (quiet L r = true -> pj u = [])).
      { intros r f s k v Q H. apply step1_went in H as (c & s' & H & A & C & F). exists s', [c], [].
        split; [exact H|]. split; [split; [exact A|]; split; [now rewrite C|]; split; [apply calm_nil|intros n x []]|].
        intros Hq. cbn [pj flat_map]. now rewrite (Hpr c (Q Hq c F)). }
      induction r as [|c| |neg l|a IHa b IHb|a IHa b IHb|n a IHa|n|greedy lo hi a IHa|ahead neg w a IHa| | | |neg];
        intros HL s k v G H.
      - exists s, [], []. split; [exact H|]. split; [apply Stay|reflexivity].
      - refine (One _ _ s k v _ H). intros Hq d Ed. apply N.eqb_eq in Ed as <-. exact Hq.
      - refine (One _ _ s k v _ H). intros Hq d Ed. apply (proj2 Hal); [exact Hq|]. now apply negb_true_iff, N.eqb_neq in Ed.
      - refine (One _ _ s k v _ H). intros Hq d Ed. exact (proj1 Hal neg l d Hq Ed).
      - cbn [loud] in HL. simpl in H. apply IHa in H as (s1 & u1 & c1 & H & W1 & Q1); [|intros n Hn; apply HL, in_or_app; now left|exact G].
        apply IHb in H as (s2 & u2 & c2 & H & W2 & Q2); [|intros n Hn; apply HL, in_or_app; now right|now apply (calm_caps _ _ _ _ _ W1)].
        exists s2, (u1 ++ u2), (c2 ++ c1). split; [exact H|]. destruct W1 as (A1 & C1 & K1 & G1), W2 as (A2 & C2 & K2 & G2). split.
        + split; [rewrite A1, A2; apply app_assoc|]. split; [rewrite C2, C1; apply app_assoc|]. split; [now apply calm_app|].
          intros n x Hx. cbn [groups]. apply in_or_app. apply in_app_or in Hx as [Hx|Hx]; [right; eauto|left; eauto].
        + intros Hq. cbn [quiet] in Hq. apply andb_true_iff in Hq as [Ha Hb]. rewrite pj_app, (Q1 Ha), (Q2 Hb). reflexivity.
      - cbn [loud] in HL. simpl in H. destruct (m a s k) as [x|] eqn:E.
        + injection H as ->. apply IHa in E as (s1 & u1 & c1 & H & W1 & Q1); [|intros n Hn; apply HL, in_or_app; now left|exact G].
          exists s1, u1, c1. split; [exact H|]. destruct W1 as (A1 & C1 & K1 & G1). split.
          * split; [exact A1|]. split; [exact C1|]. split; [exact K1|]. intros n x Hx. cbn [groups]. apply in_or_app. left. eauto.
          * intros Hq. cbn [quiet] in Hq. apply andb_true_iff in Hq as [Ha Hb]. auto.
        + apply IHb in H as (s1 & u1 & c1 & H & W1 & Q1); [|intros n Hn; apply HL, in_or_app; now right|exact G].
          exists s1, u1, c1. split; [exact H|]. destruct W1 as (A1 & C1 & K1 & G1). split.
          * split; [exact A1|]. split; [exact C1|]. split; [exact K1|]. intros n x Hx. cbn [groups]. apply in_or_app. right. eauto.
          * intros Hq. cbn [quiet] in Hq. apply andb_true_iff in Hq as [Ha Hb]. auto.
      - cbn [loud] in HL. simpl in H.
        assert (La : forall x, In x (loud L a) -> L x = true) by (intros x Hx; apply HL; destruct (quiet L a); [exact Hx|now right]).
        apply IHa in H as (s1 & u1 & c1 & H & W1 & Q1); [|exact La|exact G]. destruct W1 as (A1 & C1 & K1 & G1).
        assert (Cn : consumed s s1 = u1).
        { unfold consumed. rewrite A1, app_length, Nat.add_sub, firstn_app, Nat.sub_diag, firstn_all. cbn [firstn]. apply app_nil_r. }
        rewrite Cn in H. eexists _, u1, ((n, u1) :: c1). split; [exact H|]. split.
        + split; [exact A1|]. split; [cbn [caps]; rewrite C1; reflexivity|]. split.
          * intros k' x [Hx|Hx] Lk; [injection Hx as <- <-|exact (K1 k' x Hx Lk)]. apply Q1.
            destruct (quiet L a) eqn:Eq; [reflexivity|]. exfalso.
            rewrite (HL n (or_introl eq_refl)) in Lk. discriminate.
          * intros k' x [Hx|Hx]; cbn [groups]; [injection Hx as <- <-; now left|right; eauto].
        + exact Q1.
      - simpl in H. destruct (cap n (caps s)) as [x|] eqn:E; [|discriminate]. apply step_lit_went in H as (s1 & H & A1 & C1).
        exists s1, x, []. split; [exact H|]. split; [split; [exact A1|]; split; [exact C1|]; split; [apply calm_nil|intros ? ? []]|].
        intros Hq. cbn [quiet] in Hq. apply negb_true_iff in Hq. apply cap_In in E. exact (G n x E Hq).
      - rewrite m_rep in H. cbn [loud] in HL.
        assert (Opt : forall fuel left s v, calm (caps s) -> copt (m a) greedy k fuel left s = Some v ->
          exists s' u cs, k s' = Some v /\ went (RRep greedy lo hi a) s s' u cs /\ (quiet L a = true -> pj u = [])).
        { clear s v G H. induction fuel as [|fuel IHf]; intros left s v G H; [exists s, [], []; split; [exact H|]; split; [apply Stay|reflexivity]|].
          cbn [copt] in H. cbv zeta in H.
          assert (It : forall x, (if match left with Some O => false | _ => true end then
                  m a s (fun s' =>
                    if Nat.eqb (length (aft s')) (length (aft s)) then None
                    else copt (m a) greedy k fuel (option_map pred left) s')
                else None) = Some x -> exists s' u cs, k s' = Some x /\ went (RRep greedy lo hi a) s s' u cs /\ (quiet L a = true -> pj u = [])).
          { intros x Hx. destruct (match left with Some O => false | _ => true end); [|discriminate].
            apply IHa in Hx as (s1 & u1 & c1 & Hx & W1 & Q1); [|exact HL|exact G]. destruct (Nat.eqb _ _); [discriminate|].
            apply IHf in Hx as (s2 & u2 & c2 & Hx & W2 & Q2); [|now apply (calm_caps _ _ _ _ _ W1)].
            exists s2, (u1 ++ u2), (c2 ++ c1). split; [exact Hx|]. destruct W1 as (A1 & C1 & K1 & G1), W2 as (A2 & C2 & K2 & G2). split.
            - split; [rewrite A1, A2; apply app_assoc|]. split; [rewrite C2, C1; apply app_assoc|]. split; [now apply calm_app|].
              intros n y Hy. apply in_app_or in Hy as [Hy|Hy]; [eauto|cbn [groups]; eauto].
            - intros Hq. rewrite pj_app, (Q1 Hq), (Q2 Hq). reflexivity. }
          assert (Here : k s = Some v -> exists s' u cs, k s' = Some v /\ went (RRep greedy lo hi a) s s' u cs /\ (quiet L a = true -> pj u = []))
            by (intros Hk; exists s, [], []; split; [exact Hk|]; split; [apply Stay|reflexivity]).
          destruct greedy.
          - match type of H with match ?x with _ => _ end = _ => destruct x eqn:Ei end.
            + injection H as ->. now apply It.
            + now apply Here.
          - destruct (k s) eqn:Ek.
            + injection H as ->. now apply Here.
            + now apply It. }
        cbn [quiet]. revert s v G H. generalize (option_map (fun h => (h - lo)%nat) hi) as left. intros left.
        assert (Q : forall lo' s v, calm (caps s) -> cmand (m a) (copt (m a) greedy k) left lo' s = Some v ->
          exists s' u cs, k s' = Some v /\ went (RRep greedy lo hi a) s s' u cs /\ (quiet L a = true -> pj u = [])).
        { induction lo' as [|n IHn]; intros s v G H; cbn [cmand] in H; [exact (Opt _ _ s v G H)|].
          apply IHa in H as (s1 & u1 & c1 & H & W1 & Q1); [|exact HL|exact G].
          apply IHn in H as (s2 & u2 & c2 & H & W2 & Q2); [|now apply (calm_caps _ _ _ _ _ W1)].
          exists s2, (u1 ++ u2), (c2 ++ c1). split; [exact H|]. destruct W1 as (A1 & C1 & K1 & G1), W2 as (A2 & C2 & K2 & G2). split.
          - split; [rewrite A1, A2; apply app_assoc|]. split; [rewrite C2, C1; apply app_assoc|]. split; [now apply calm_app|].
            intros n' y Hy. apply in_app_or in Hy as [Hy|Hy]; [eauto|cbn [groups]; eauto].
          - intros Hq. rewrite pj_app, (Q1 Hq), (Q2 Hq). reflexivity. }
        exact (Q lo).
      - cbn [loud] in HL. simpl in H.
        assert (Back : forall w s sb, back w s = Some sb -> caps sb = caps s).
        { clear. induction w as [|w IH]; intros s sb E; cbn [back] in E; [congruence|]. destruct (bef s); [discriminate|]. now apply IH in E. }
        assert (Keep : forall sb s1, caps sb = caps s -> (exists u1 c1, went a sb s1 u1 c1) -> k (St (bef s) (aft s) (caps s1)) = Some v ->
          exists s' u cs, k s' = Some v /\ went (RLook ahead neg w a) s s' u cs /\ (quiet L (RLook ahead neg w a) = true -> pj u = [])).
        { intros sb s1 Eb (u1 & c1 & A1 & C1 & K1 & G1) Hk. eexists _, [], c1. split; [exact Hk|]. split; [|reflexivity].
          split; [reflexivity|]. split; [cbn [caps]; now rewrite C1, Eb|]. split; [exact K1|exact G1]. }
        assert (Here : k s = Some v -> exists s' u cs, k s' = Some v /\ went (RLook ahead neg w a) s s' u cs /\ (quiet L (RLook ahead neg w a) = true -> pj u = []))
          by (intros Hk; exists s, [], []; split; [exact Hk|]; split; [apply Stay|reflexivity]).
        destruct ahead.
        + destruct (m a s _) as [s'|] eqn:E; destruct neg; try discriminate; [|now apply Here].
          apply IHa in E as (s1 & u1 & c1 & E & W1 & _); [|exact HL|exact G]. injection E as ->. apply (Keep s s'); eauto.
        + destruct (back w s) as [sb|] eqn:Eb; [|destruct neg; [now apply Here|discriminate]]. apply Back in Eb.
          destruct (m a sb _) as [s'|] eqn:E; destruct neg; try discriminate; [|now apply Here].
          apply IHa in E as (s1 & u1 & c1 & E & W1 & _); [|exact HL|now rewrite Eb]. destruct (Nat.eqb _ _); [|discriminate]. injection E as ->.
          apply (Keep sb s'); eauto.
      - simpl in H. destruct (bef s); [|discriminate]. exists s, [], []. split; [exact H|]. split; [apply Stay|reflexivity].
      - simpl in H. destruct (aft s); [|discriminate]. exists s, [], []. split; [exact H|]. split; [apply Stay|reflexivity].
      - exists s, [], []. split; [|split; [apply Stay|reflexivity]]. simpl in H. destruct (aft s) as [|c [|d t]]; [assumption| |].
        + destruct c as [|p]; [discriminate|]. repeat (destruct p as [p|p|]; try discriminate; try assumption).
        + destruct c as [|p]; [discriminate|]. repeat (destruct p as [p|p|]; try discriminate; try assumption).
      - simpl in H. destruct (xorb neg (wordb s)); [|discriminate]. exists s, [], []. split; [exact H|]. split; [apply Stay|reflexivity].
    Qed.

    Definition val (cs : list (nat * str)) (n : nat) : str := match cap n cs with Some x => pj x | None => [] end.
    Lemma val_left : forall a b n, (forall x, ~ In (n, x) a) -> val (a ++ b) n = val b n.
    Proof.
      intros a b n H. unfold val. rewrite cap_app. destruct (cap n a) as [x|] eqn:E; [|reflexivity]. apply cap_In in E. destruct (H x E).
    Qed.
    Lemma val_right : forall a b n, (forall x, ~ In (n, x) b) -> val (a ++ b) n = val a n.
    Proof.
      intros a b n H. unfold val. rewrite cap_app. destruct (cap n a) as [x|] eqn:E; [reflexivity|].
      destruct (cap n b) as [x|] eqn:F; [|reflexivity]. apply cap_In in F. destruct (H x F).
    Qed.
    Lemma vals_eq : forall l f g, (forall n : nat, In n l -> f n = g n) -> flat_map f l = @flat_map nat N g l.
    Proof.
      induction l as [|n l IH]; intros f g H; [reflexivity|]. cbn [flat_map]. rewrite (H n (or_introl eq_refl)). f_equal.
      apply IH. intros k Hk. apply H. now right.
    Qed.

    Lemma group_tops : forall n a, (forall x, In x (loud L (RGroup n a)) -> L x = true) -> forall s k v, calm (caps s) -> m (RGroup n a) s k = Some v ->
      exists s' u cs, k s' = Some v /\ went (RGroup n a) s s' u cs /\ pj u = val cs n.
    Proof.
      intros n a HL s k v G H. cbn [loud] in HL. simpl in H.
      assert (La : forall x, In x (loud L a) -> L x = true) by (intros x Hx; apply HL; destruct (quiet L a); [exact Hx|now right]).
      apply m_went in H as (s1 & u1 & c1 & H & W1 & Q1); [|exact La|exact G]. destruct W1 as (A1 & C1 & K1 & G1).
      assert (Cn : consumed s s1 = u1).
      { unfold consumed. rewrite A1, app_length, Nat.add_sub, firstn_app, Nat.sub_diag, firstn_all. cbn [firstn]. apply app_nil_r. }
      rewrite Cn in H. eexists _, u1, ((n, u1) :: c1). split; [exact H|]. split.
      - split; [exact A1|]. split; [cbn [caps]; rewrite C1; reflexivity|]. split.
        * intros k' x [Hx|Hx] Lk; [injection Hx as <- <-|exact (K1 k' x Hx Lk)]. apply Q1.
          destruct (quiet L a) eqn:Eq; [reflexivity|]. exfalso.
          rewrite (HL n (or_introl eq_refl)) in Lk. discriminate.
        * intros k' x [Hx|Hx]; cbn [groups]; [injection Hx as <- <-; now left|right; eauto].
      - unfold val. cbn [cap]. now rewrite Nat.eqb_refl.
    Qed.

    Lemma m_tops : forall r l, tops L r = Some l -> (forall n, In n (loud L r) -> L n = true) -> forall s k v, calm (caps s) -> m r s k = Some v ->
      exists s' u cs, k s' = Some v /\ went r s s' u cs /\ pj u = flat_map (val cs) l.
    Proof.
      assert (Qu : forall r, quiet L r = true -> (forall n, In n (loud L r) -> L n = true) -> forall s k v, calm (caps s) -> m r s k = Some v ->
        exists s' u cs, k s' = Some v /\ went r s s' u cs /\ pj u = flat_map (val cs) []).
      { intros r Hq HL s k v G H. apply m_went in H as (s' & u & cs & H & W & Q); [|exact HL|exact G].
        exists s', u, cs. split; [exact H|]. split; [exact W|]. exact (Q Hq). }
      induction r as [|c| |neg l0|a IHa b IHb|a IHa b IHb|n a IHa|n|greedy lo hi a IHa|ahead neg w a IHa| | | |neg]; intros l T HL s k v G H;
        cbn [tops] in T; match type of T with (if ?q then _ else _) = _ => destruct q eqn:Q end;
        try (injection T as <-; now apply (Qu _ Q HL)); try discriminate.
      - destruct (tops L a) as [x|] eqn:Ta; [|discriminate]. destruct (tops L b) as [y|] eqn:Tb; [|discriminate].
        destruct (apart x (groups b) && apart y (groups a)) eqn:Ap; [|discriminate]. injection T as <-. apply andb_true_iff in Ap as [Ax Ay].
        cbn [loud] in HL. simpl in H.
        apply (IHa x eq_refl) in H as (s1 & u1 & c1 & H & W1 & Q1); [|intros n Hn; apply HL, in_or_app; now left|exact G].
        apply (IHb y eq_refl) in H as (s2 & u2 & c2 & H & W2 & Q2); [|intros n Hn; apply HL, in_or_app; now right|now apply (calm_caps _ _ _ _ _ W1)].
        exists s2, (u1 ++ u2), (c2 ++ c1). split; [exact H|]. destruct W1 as (A1 & C1 & K1 & G1), W2 as (A2 & C2 & K2 & G2). split.
        + split; [rewrite A1, A2; apply app_assoc|]. split; [rewrite C2, C1; apply app_assoc|]. split; [now apply calm_app|].
          intros n z Hz. cbn [groups]. apply in_or_app. apply in_app_or in Hz as [Hz|Hz]; [right; eauto|left; eauto].
        + rewrite pj_app, flat_map_app, Q1, Q2. f_equal; apply vals_eq; intros n Hn; symmetry.
          * apply val_left. intros z Hz. exact (apart_In _ _ n Ax Hn (G2 n z Hz)).
          * apply val_right. intros z Hz. exact (apart_In _ _ n Ay Hn (G1 n z Hz)).
      - injection T as <-. apply group_tops in H as (s' & u & cs & H & W & E); [|exact HL|exact G].
        exists s', u, cs. split; [exact H|]. split; [exact W|]. cbn [flat_map]. now rewrite app_nil_r.
      - destruct lo; [|discriminate]. destruct hi as [[|[|?]]|]; try discriminate. destruct a as [| | | | | |n a| | | | | | |]; try discriminate.
        injection T as <-. rewrite m_rep in H. cbn [option_map Nat.sub cmand] in H.
        assert (Here : forall s v, k s = Some v -> exists s' u cs, k s' = Some v /\ went (RRep greedy 0 (Some 1%nat) (RGroup n a)) s s' u cs /\ pj u = flat_map (val cs) [n]).
        { intros s1 v1 Hk. exists s1, [], []. split; [exact Hk|]. split; [|reflexivity].
          split; [reflexivity|]. split; [reflexivity|]. split; [apply calm_nil|intros ? ? []]. }
        assert (Last : forall fuel s, copt (m (RGroup n a)) greedy k fuel (Some 0%nat) s = k s).
        { intros [|fuel] s1; cbn [copt]; [reflexivity|]. cbv zeta. destruct greedy; [reflexivity|]. now destruct (k s1). }
        cbn [copt] in H. cbv zeta in H.
        assert (It : forall x, m (RGroup n a) s (fun s' => if Nat.eqb (length (aft s')) (length (aft s)) then None
            else copt (m (RGroup n a)) greedy k (length (aft s)) (option_map pred (Some 1%nat)) s') = Some x ->
          exists s' u cs, k s' = Some x /\ went (RRep greedy 0 (Some 1%nat) (RGroup n a)) s s' u cs /\ pj u = flat_map (val cs) [n]).
        { intros x Hx. apply group_tops in Hx as (s' & u & cs & Hx & W & E); [|exact HL|exact G].
          destruct (Nat.eqb _ _); [discriminate|]. cbn [option_map pred] in Hx. rewrite Last in Hx.
          exists s', u, cs. split; [exact Hx|]. split; [exact W|]. cbn [flat_map]. now rewrite app_nil_r. }
        destruct greedy.
        + match type of H with match ?x with _ => _ end = _ => destruct x eqn:Ei end.
          * injection H as ->. now apply It.
          * now apply Here.
        + destruct (k s) eqn:Ek; [injection H as ->; now apply Here|now apply It].
    Qed.
  End Match.

  (** The text of a match and what replaces it. *)
  Lemma expand_keeps : forall r t, keeps_re r t = true -> forall must b s s', attempt r must (St b s []) = Some s' ->
    exists u, s = u ++ aft s' /\ pj (expand t (final_caps (St b s []) s')) = pj u.
  Proof.
    intros r t K must b s s' H. unfold keeps_re in K. cbv zeta in K. apply andb_true_iff in K as [K0 K]. apply andb_true_iff in K0 as [Kl Kt].
    set (L := fun n => memn n (loud (fun n => memn n (loud (fun _ => true) r)) r)) in *. rewrite forallb_forall in Kl. destruct (tops L r) as [l|] eqn:T; [|discriminate]. apply same_eq in K.
    unfold attempt in H. apply (m_tops L r l T) in H as (s1 & u & cs & H & W & E);
      [|exact Kl|intros n x []].
    destruct (must && _); [discriminate|]. injection H as ->. destruct W as (A & C & Cm & _). cbn [aft caps] in A, C. rewrite app_nil_r in C.
    exists u. split; [exact A|]. rewrite E, <- K. clear E K T. unfold final_caps. rewrite C. generalize (consumed (St b s []) s') as u0. intros u0.
    induction t as [|i t IH]; [reflexivity|]. cbn [forallb] in Kt. apply andb_true_iff in Kt as [Ki Kt]. specialize (IH Kt).
    unfold expand in *. cbn [flat_map]. rewrite pj_app, IH. clear IH. destruct i as [c|n]; cbn [tgroups].
    - cbn [pj flat_map]. now rewrite (Hpr c Ki).
    - cbn [filter]. apply negb_true_iff in Ki. cbn [cap]. rewrite Nat.eqb_sym, Ki.
      destruct (L n) eqn:En; cbn [flat_map].
      + f_equal. unfold val. now destruct (cap n cs).
      + destruct (cap n cs) as [x|] eqn:Ec; [|reflexivity]. now rewrite (Cm n x (cap_In _ _ _ Ec) En).
  Qed.

  Lemma consumed_eq : forall (s : st) s' u, aft s = u ++ aft s' -> consumed s s' = u.
  Proof.
    intros s s' u A. unfold consumed. rewrite A, app_length, Nat.add_sub, firstn_app, Nat.sub_diag, firstn_all. cbn [firstn]. apply app_nil_r.
  Qed.
  Definition faithful (r : re) (f : list (nat * str) -> str) : Prop := forall must b s s', attempt r must (St b s []) = Some s' ->
    exists u, s = u ++ aft s' /\ pj (f (final_caps (St b s []) s')) = pj u.
  Lemma sub_go_faithful : forall r f, faithful r f -> forall s b skip,
    pj (sub_go r f b skip s) = pj (skipn skip s).
  Proof.
    intros r f K. induction s as [|c s IH]; intros b skip.
    - cbn [sub_go]. destruct skip; [|reflexivity]. destruct (attempt r false (St b [] [])) as [s'|] eqn:E; [|reflexivity].
      apply (K) in E as (u & A & ->). destruct u; [reflexivity|discriminate].
    - cbn [sub_go]. destruct skip as [|k]; [|apply IH]. cbn [skipn]. cbv zeta.
      destruct (attempt r false (St b (c :: s) [])) as [s'|] eqn:E; [|cbn [pj flat_map]; f_equal; exact (IH (c :: b) 0%nat)].
      pose proof (K _ _ _ _ E) as (u & A & P). rewrite (consumed_eq (St b (c :: s) []) s' u A).
      destruct u as [|d u]; cbn [length].
      + rewrite pj_app, P. cbn [pj flat_map app]. destruct (attempt r true (St b (c :: s) [])) as [s2|] eqn:E2.
        * pose proof (K _ _ _ _ E2) as (u2 & A2 & P2). fold (pj (f (final_caps (St b (c :: s) []) s2) ++ sub_go r f (c :: b) (Nat.pred (length (consumed (St b (c :: s) []) s2))) s)).
          rewrite pj_app, P2, IH, (consumed_eq (St b (c :: s) []) s2 u2 A2).
          destruct u2 as [|d2 u2].
          { exfalso. unfold attempt in E2. clear - E2 A2 Hpr Hal.
            apply (m_went (fun _ => true)) in E2 as (s1 & u & cs & H & W & _); [|reflexivity|intros n x []].
            cbn [andb] in H. destruct (Nat.eqb (length (aft s1)) (length (aft (St b (c :: s) [])))) eqn:Q; [discriminate|].
            injection H as ->. cbn [aft app] in Q, A2. rewrite <- A2, Nat.eqb_refl in Q. discriminate. }
          cbn [app length Nat.pred] in *. injection A2 as <- A2. rewrite A2, skipn_app, skipn_all, Nat.sub_diag. cbn [skipn app].
          cbn [pj flat_map]. rewrite <- app_assoc. f_equal. fold (pj u2) (pj (aft s2)) (pj (u2 ++ aft s2)). now rewrite pj_app.
        * cbn [pj flat_map]. f_equal. exact (IH (c :: b) 0%nat).
      + rewrite pj_app, P, IH. cbn [app] in A. injection A as <- A. rewrite A, skipn_app, skipn_all, Nat.sub_diag. cbn [skipn app].
        cbn [pj flat_map]. rewrite <- app_assoc. f_equal. fold (pj u) (pj (aft s')) (pj (u ++ aft s')). now rewrite pj_app.
  Qed.
  Lemma sub_go_keeps : forall r t, keeps_re r t = true -> forall s b skip,
    pj (sub_go r (expand t) b skip s) = pj (skipn skip s).
  Proof. intros r t K. apply sub_go_faithful. exact (expand_keeps r t K). Qed.
  (** Functions of the groups: the whole match, or the groups the template names. *)
  Lemma whole_faithful : forall r, faithful r (grp 0).
  Proof.
    intros r must b s s' H. unfold attempt in H. apply (m_went (fun _ => true)) in H as (s1 & u & cs & H & W & _); [|reflexivity|intros n x []].
    destruct (must && _); [discriminate|]. injection H as ->. destruct W as (A & _). cbn [aft] in A. exists u. split; [exact A|].
    unfold final_caps, grp. cbn [cap Nat.eqb]. now rewrite (consumed_eq (St b s []) s' u A).
  Qed.
  Lemma then_faithful : forall r f g, faithful r f -> (forall x, pj (g x) = pj x) -> faithful r (fun l => g (f l)).
  Proof. intros r f g K G must b s s' H. destruct (K must b s s' H) as (u & A & E). exists u. split; [exact A|]. now rewrite G. Qed.
  Lemma sub_keeps : forall r t s, keeps_re r t = true -> pj (sub r t s) = pj s.
  Proof. intros r t s K. unfold sub, sub_with. now rewrite sub_go_keeps. Qed.
  Lemma re_sub_keeps : forall p t s x, keeps_sub p t = true -> re_sub p t s = Ok x -> pj x = pj s.
  Proof.
    intros p t s x K H. unfold keeps_sub in K. unfold re_sub in H. destruct (compile p) as [[r g]|]; [|discriminate].
    destruct (parse_template _ g t) as [l|]; [|discriminate]. injection H as <-. now apply sub_keeps.
  Qed.

  Lemma replace_keeps : forall x y s, pj y = pj x -> pj (replace x y s) = pj s.
  Proof.
    intros x y s Hy. unfold replace. destruct x as [|a x].
    - induction s as [|c t IH]; cbn [interleave]; [exact Hy|]. rewrite pj_app, Hy. cbn [app pj flat_map]. f_equal. exact IH.
    - assert (G : forall s skip, pj (replace_go (a :: x) y skip s) = pj (skipn skip s)).
      { clear s. induction s as [|c t IH]; intros skip; cbn [replace_go]; [now destruct skip|].
        destruct skip as [|k]; [|apply IH]. cbn [skipn]. destruct (prefixb (a :: x) (c :: t)) eqn:E.
        - rewrite pj_app, Hy, IH. apply prefixb_spec in E as [w E]. cbn [app] in E. injection E as -> ->.
          change (pred (length (a :: x))) with (length x). rewrite skipn_app, skipn_all, Nat.sub_diag. cbn [skipn app].
          change (a :: x ++ w) with ((a :: x) ++ w). now rewrite pj_app.
        - cbn [pj flat_map]. f_equal. exact (IH 0%nat). }
      exact (G s 0%nat).
  Qed.

  Lemma split_go_keeps : forall sep, pj sep = [] -> sep <> [] -> forall s skip cur, pj (concat (split_go sep skip cur s)) = pj (rev cur) ++ pj (skipn skip s).
  Proof.
    intros sep Hs N. induction s as [|c t IH]; intros skip cur; cbn [split_go].
    - cbn [concat]. rewrite app_nil_r. destruct skip; cbn [skipn]; cbn [pj flat_map]; now rewrite app_nil_r.
    - destruct skip as [|k]; [|apply IH]. cbn [skipn]. destruct (prefixb sep (c :: t)) eqn:E.
      + cbn [concat]. rewrite pj_app, IH. f_equal. cbn [rev pj flat_map app]. apply prefixb_spec in E as [w E].
        destruct sep as [|a sep]; [now destruct N|]. cbn [app] in E. injection E as -> ->.
        change (pred (length (a :: sep))) with (length sep). rewrite skipn_app, skipn_all, Nat.sub_diag. cbn [skipn app].
        cbn [pj flat_map] in Hs. destruct (pr a) as [|z l] eqn:Ea; [|discriminate]. cbn [app] in Hs. fold (pj sep) in Hs. cbn [app].
        fold (pj w) (pj (sep ++ w)). now rewrite pj_app, Hs.
      + rewrite IH. cbn [rev]. rewrite pj_app, <- app_assoc. f_equal. change (c :: t) with ([c] ++ t). now rewrite pj_app.
  Qed.

  Lemma lower_keeps : forallb (fun p => hush (fst p) && hushed (snd p)) lower_table = true -> forall s, pj (py_lower s) = pj s.
  Proof.
    intros T. induction s as [|c s IH]; [reflexivity|]. unfold py_lower in *. cbn [flat_map]. rewrite pj_app, IH. cbn [pj flat_map]. f_equal.
    rewrite lower_trie_eq. destruct (tfind c (tbuild lower_table)) as [l|] eqn:E; [|apply app_nil_r].
    apply tfind_In in E. rewrite forallb_forall in T. specialize (T _ E). cbn [fst snd] in T. apply andb_true_iff in T as [A B].
    rewrite (Hpr c A). now apply pj_hushed.
  Qed.
  Lemma upper_keeps : forallb (fun p => hush (fst p) && hushed (snd p)) upper_table = true -> forall s, pj (py_upper s) = pj s.
  Proof.
    intros T. induction s as [|c s IH]; [reflexivity|]. unfold py_upper in *. cbn [flat_map]. rewrite pj_app, IH. cbn [pj flat_map]. f_equal.
    assert (U : upper_trie = tbuild upper_table) by (vm_compute; reflexivity). rewrite U. clear U. destruct (tfind c (tbuild upper_table)) as [l|] eqn:E; [|apply app_nil_r].
    apply tfind_In in E. rewrite forallb_forall in T. specialize (T _ E). cbn [fst snd] in T. apply andb_true_iff in T as [A B].
    rewrite (Hpr c A). now apply pj_hushed.
  Qed.

  Hypothesis Hccc : forall c, ccc c <> 0 -> pr c = [].
  Lemma reorder_keeps : forall s, pj (reorder s) = pj s.
  Proof.
    assert (R : forall l c k, pr c = [] -> pj (reorder_in c k l) = pj l).
    { induction l as [|d l IH]; intros c k Hc; cbn [reorder_in]; cbv zeta; [cbn [pj flat_map]; now rewrite Hc|].
      destruct ((0 <? ccc d) && (ccc d <? k)); cbn [pj flat_map]; [f_equal; now apply IH|now rewrite Hc]. }
    induction s as [|c s IH]; [reflexivity|]. cbn [reorder]. cbv zeta. destruct (ccc c =? 0) eqn:E; cbn [pj flat_map].
    - f_equal. exact IH.
    - apply N.eqb_neq in E. rewrite (Hccc c E). fold (pj (reorder_in c (ccc c) (reorder s))). rewrite R; [exact IH|now apply Hccc].
  Qed.
  Hypothesis Hcomp : forall a b p, compose2 a b = Some p -> pr a = [] /\ pr b = [] /\ pr p = [].
  Lemma compose_keeps : forall s st mid last,
    pj (compose st mid last s) = match st with Some a => pr a | None => [] end ++ pj (rev mid) ++ pj s.
  Proof.
    assert (Fl : forall st mid, pj (match st with Some a => a :: rev mid | None => rev mid end) = match st with Some a => pr a | None => [] end ++ pj (rev mid)).
    { intros [a|] mid; reflexivity. }
    induction s as [|d s IH]; intros st mid last; cbn [compose]; cbv zeta.
    - rewrite Fl. cbn [pj flat_map]. now rewrite app_nil_r.
    - destruct (match st with Some a => if match mid with [] => false | _ => ccc d <=? last end then None else compose2 a d | None => None end) as [p|] eqn:E.
      + rewrite IH. destruct st as [a|]; [|discriminate]. destruct (match mid with [] => false | _ => ccc d <=? last end); [discriminate|].
        apply Hcomp in E as (Ea & Ed & Ep). cbn [pj flat_map]. now rewrite Ea, Ed, Ep.
      + destruct (ccc d =? 0) eqn:Ec.
        * rewrite pj_app, Fl, IH, <- app_assoc. reflexivity.
        * rewrite IH. apply N.eqb_neq in Ec. cbn [rev]. rewrite pj_app. cbn [pj flat_map]. rewrite (Hccc d Ec). cbn [app]. now rewrite app_nil_r.
  Qed.
End Proj.
End Alphabet.

(** ** The characters kept *)

(** CJK compatibility ideographs: normalization replaces them by other ideographs. *)
Definition compat (c : N) : bool := ((0xF900 <=? c) && (c <=? 0xFAFF)) || ((0x2F800 <=? c) && (c <=? 0x2FA1F)).

Section Programs.
  Variable al : ranges.
  Definition other (c : N) : bool := negb (hush al c) && negb (compat c).
  Definition pr1 (c : N) : str := filter other (decomp c).
  Definition pr2 (c : N) : str := if compat c then [c] else [].
  (** None lost, none added, none out of order; and no compatibility ideographs appear. *)
  Definition keeps (p : prog) : Prop := forall s r, run p s = Ok r ->
    pj pr1 r = pj pr1 s /\ (pj pr2 s = [] -> pj pr2 r = []).

  Definition fits : bool :=
    sorted al 0
    && forallb (fun p => (snd p <? 0xF900) || ((0xFAFF <? fst p) && (snd p <? 0x2F800)) || (0x2FA1F <? fst p)) al
    && forallb (fun p => hush al (fst p) && hushed al (snd p)) lower_table
    && forallb (fun p => hush al (fst p) && hushed al (snd p)) upper_table
    && forallb (fun p => hush al (fst p)) ccc_table
    && forallb (fun p => hush al (fst p) && forallb (fun q => hush al (fst q) && hush al (snd q)) (snd p)) comp_table
    && forallb (fun p => (compat (fst p) || hushed al (snd p)) && (compat (fst p) || hush al (fst p))
         && forallb (fun d => negb (compat d) && str_eqb (decomp d) [d]) (snd p)) decomp_table
    && hush_range al 0x1100 0x11FF && hush_range al 0xAC00 0xD7A3.
  Hypothesis Hfits : fits = true.

  Lemma fits_sorted : sorted al 0 = true.
  Proof. pose proof Hfits as F. unfold fits in F. repeat (apply andb_true_iff in F as [F ?]). assumption. Qed.
  Lemma fits_sound : sound al.
  Proof. exact (ranges_sound al fits_sorted). Qed.
  Lemma hush_compat : forall c, hush al c = true -> compat c = false.
  Proof.
    intros c H. apply (hush_cases al fits_sorted) in H as (p & Hp & Q). pose proof Hfits as F. unfold fits in F. repeat (apply andb_true_iff in F as [F ?]).
    match goal with A : forallb (fun p => (snd p <? 0xF900) || _ || _) al = true |- _ => rewrite forallb_forall in A; specialize (A p Hp); rename A into B end.
    unfold compat. rewrite !orb_true_iff, andb_true_iff, !N.ltb_lt in B.
    apply orb_false_iff. split; apply andb_false_iff; rewrite !N.leb_gt; lia.
  Qed.
  Lemma hangul : forall c, 0xAC00 <= c <= 0xD7A3 -> hush al c = true /\ hushed al (decomp c) = true.
  Proof.
    intros c Q. pose proof Hfits as F. unfold fits in F. apply andb_true_iff in F as [F HB]. apply andb_true_iff in F as [_ HA].
    split; [exact (hush_range_In al fits_sorted _ _ c HB Q)|]. unfold decomp.
    destruct (N.leb_spec 0xAC00 c); [|lia]. destruct (N.leb_spec c 0xD7A3); [|lia]. cbn [andb]. cbv zeta.
    assert (D : forall d, 0x1100 <= d <= 0x11FF -> hush al d = true) by (intros d; exact (hush_range_In al fits_sorted _ _ d HA)).
    assert (L1 : (c - 0xAC00) / 588 < 19) by (apply N.div_lt_upper_bound; lia).
    assert (L2 : (c - 0xAC00) mod 588 / 28 < 21) by (apply N.div_lt_upper_bound; [lia|]; pose proof (N.mod_lt (c - 0xAC00) 588); lia).
    assert (L3 : (c - 0xAC00) mod 28 < 28) by (apply N.mod_lt; lia).
    revert L1 L2 L3. generalize ((c - 0xAC00) / 588) ((c - 0xAC00) mod 588 / 28) ((c - 0xAC00) mod 28). intros x y z L1 L2 L3.
    destruct (0x11A7 + z =? 0x11A7); unfold hushed; cbn [forallb]; rewrite ?(D (0x1100 + x)), ?(D (0x1161 + y)), ?(D (0x11A7 + z)) by lia; reflexivity.
  Qed.
  Lemma hush_decomp : forall c, hush al c = true -> hushed al (decomp c) = true.
  Proof.
    intros c H. destruct ((0xAC00 <=? c) && (c <=? 0xD7A3)) eqn:E.
    { apply andb_true_iff in E as [A B]. apply N.leb_le in A, B. now apply hangul. }
    unfold decomp. rewrite E, decomp_trie_eq. destruct (tfind c (tbuild decomp_table)) as [l|] eqn:T; [|cbn [hushed forallb]; now rewrite H].
    apply tfind_In in T. pose proof Hfits as F. unfold fits in F. repeat (apply andb_true_iff in F as [F ?]).
    match goal with A : forallb _ decomp_table = true |- _ => rewrite forallb_forall in A; specialize (A _ T); rename A into B end.
    cbn [fst snd] in B. rewrite (hush_compat c H) in B. cbn [orb] in B. apply andb_true_iff in B as [B _]. now apply andb_true_iff in B as [B _].
  Qed.
  Lemma filter_hushed : forall l, hushed al l = true -> filter other l = [].
  Proof.
    induction l as [|c l IH]; intros H; [reflexivity|]. cbn [hushed forallb] in H. apply andb_true_iff in H as [H1 H2].
    cbn [filter]. unfold other at 1. rewrite H1. cbn [negb andb]. exact (IH H2).
  Qed.
  Lemma pr1_hush : forall c, hush al c = true -> pr1 c = [].
  Proof. intros c H. unfold pr1. apply filter_hushed. now apply hush_decomp. Qed.
  Lemma pr2_hush : forall c, hush al c = true -> pr2 c = [].
  Proof. intros c H. unfold pr2. now rewrite (hush_compat c H). Qed.
  Lemma ccc_hush : forall c, ccc c <> 0 -> hush al c = true.
  Proof.
    intros c H. unfold ccc in H. rewrite ccc_trie_eq in H. destruct (tfind c (tbuild ccc_table)) as [k|] eqn:T; [|now destruct H].
    apply tfind_In in T. pose proof Hfits as F. unfold fits in F. repeat (apply andb_true_iff in F as [F ?]).
    match goal with A : forallb _ ccc_table = true |- _ => rewrite forallb_forall in A; exact (A _ T) end.
  Qed.
  Lemma comp_hush : forall a b p, compose2 a b = Some p -> hush al a = true /\ hush al b = true /\ hush al p = true.
  Proof.
    intros a b p H. unfold compose2 in H. pose proof Hfits as F. unfold fits in F. apply andb_true_iff in F as [F HB]. apply andb_true_iff in F as [F HA].
    assert (D : forall d, 0x1100 <= d <= 0x11FF -> hush al d = true) by (intros d; exact (hush_range_In al fits_sorted _ _ d HA)).
    assert (D' : forall d, 0xAC00 <= d <= 0xD7A3 -> hush al d = true) by (intros d; exact (hush_range_In al fits_sorted _ _ d HB)).
    destruct ((0x1100 <=? a) && (a <=? 0x1112) && (0x1161 <=? b) && (b <=? 0x1175)) eqn:E1.
    { rewrite !andb_true_iff, !N.leb_le in E1. assert (Ep : p = 0xAC00 + ((a - 0x1100) * 21 + (b - 0x1161)) * 28) by congruence.
      split; [apply D; lia|]. split; [apply D; lia|apply D'; lia]. }
    destruct ((0xAC00 <=? a) && (a <=? 0xD7A3) && (0x11A8 <=? b) && (b <=? 0x11C2)) eqn:E2.
    { rewrite !andb_true_iff, !N.leb_le in E2. destruct ((a - 0xAC00) mod 28 =? 0) eqn:E3; [|discriminate]. apply N.eqb_eq in E3.
      assert (Ep : p = a + (b - 0x11A7)) by congruence. split; [apply D'; lia|]. split; [apply D; lia|apply D'].
      pose proof (N.div_mod (a - 0xAC00) 28). assert ((a - 0xAC00) / 28 < 399) by (apply N.div_lt_upper_bound; lia). lia. }
    rewrite comp_trie_eq in H. destruct (tfind a (tbuild comp_table)) as [l|] eqn:T; [|discriminate].
    apply tfind_In in T. repeat (apply andb_true_iff in F as [F ?]).
    match goal with A : forallb _ comp_table = true |- _ => rewrite forallb_forall in A; specialize (A _ T); rename A into B end.
    cbn [fst snd] in B. apply andb_true_iff in B as [B1 B2]. apply assocN_In in H. rewrite forallb_forall in B2. specialize (B2 _ H).
    cbn [fst snd] in B2. apply andb_true_iff in B2 as [B2 B3]. split; [exact B1|]. split; [exact B2|exact B3].
  Qed.
  Lemma decomp_cases : forall c, decomp c = [c]
    \/ ((compat c = true \/ (hush al c = true /\ hushed al (decomp c) = true)) /\ forallb (fun d => negb (compat d)) (decomp c) = true
        /\ (compat c = true -> forall d, In d (decomp c) -> decomp d = [d])).
  Proof.
    intros c. destruct ((0xAC00 <=? c) && (c <=? 0xD7A3)) eqn:E.
    { apply andb_true_iff in E as [A B]. apply N.leb_le in A, B. destruct (hangul c (conj A B)) as [H1 H2]. right.
      split; [right; now split|]. split.
      - apply forallb_forall. intros d Hd. unfold hushed in H2. rewrite forallb_forall in H2. now rewrite (hush_compat d (H2 d Hd)).
      - intros C. rewrite (hush_compat c H1) in C. discriminate. }
    unfold decomp. rewrite E, decomp_trie_eq. destruct (tfind c (tbuild decomp_table)) as [l|] eqn:T; [|now left]. right.
    apply tfind_In in T. pose proof Hfits as F. unfold fits in F. repeat (apply andb_true_iff in F as [F ?]).
    match goal with A : forallb _ decomp_table = true |- _ => rewrite forallb_forall in A; specialize (A _ T); rename A into B end.
    cbn [fst snd] in B. apply andb_true_iff in B as [B B3]. apply andb_true_iff in B as [B1 B2]. rewrite forallb_forall in B3. split; [|split].
    - destruct (compat c); [now left|right; now split].
    - apply forallb_forall. intros d Hd. specialize (B3 d Hd). now apply andb_true_iff in B3 as [B3 _].
    - intros _ d Hd. specialize (B3 d Hd). apply andb_true_iff in B3 as [_ B3]. apply str_eqb_eq in B3. revert B3. unfold decomp. rewrite decomp_trie_eq. intros B3. exact B3.
  Qed.
  Lemma pr1_decomp : forall c, pj pr1 (decomp c) = pr1 c.
  Proof.
    intros c. destruct (decomp_cases c) as [E|([C|[H D]] & _ & F)].
    - rewrite E. cbn [pj flat_map]. apply app_nil_r.
    - specialize (F C). unfold pr1 at 2. revert F. generalize (decomp c) as l. induction l as [|d l IH]; intros F; [reflexivity|].
      cbn [pj flat_map]. unfold pr1 at 1. rewrite (F d (or_introl eq_refl)). fold (pj pr1 l). rewrite IH; [|intros x Hx; apply F; now right].
      change (d :: l) with ([d] ++ l). now rewrite filter_app.
    - rewrite (pr1_hush c H). exact (pj_hushed al pr1 pr1_hush _ D).
  Qed.
  Lemma pr2_decomp : forall c, pr2 c = [] -> pj pr2 (decomp c) = [].
  Proof.
    intros c H. destruct (decomp_cases c) as [E|(_ & C & _)]; [rewrite E; cbn [pj flat_map]; now rewrite H|].
    induction (decomp c) as [|d l IH]; [reflexivity|]. cbn [forallb] in C. apply andb_true_iff in C as [C1 C2]. cbn [pj flat_map].
    unfold pr2 at 1. apply negb_true_iff in C1. rewrite C1. exact (IH C2).
  Qed.
  Lemma ccc1 : forall c, ccc c <> 0 -> pr1 c = [].
  Proof. intros c H. now apply pr1_hush, ccc_hush. Qed.
  Lemma ccc2 : forall c, ccc c <> 0 -> pr2 c = [].
  Proof. intros c H. now apply pr2_hush, ccc_hush. Qed.
  Lemma norm_keeps : forall b s, let r := if b : bool then normalize_NFC s else normalize_NFD s in
    pj pr1 r = pj pr1 s /\ (pj pr2 s = [] -> pj pr2 r = []).
  Proof.
    intros b s. cbv zeta.
    assert (D : pj pr1 (normalize_NFD s) = pj pr1 s /\ (pj pr2 s = [] -> pj pr2 (normalize_NFD s) = [])).
    { unfold normalize_NFD. rewrite (reorder_keeps pr1 ccc1), (reorder_keeps pr2 ccc2). split.
      - induction s as [|c s IH]; [reflexivity|]. cbn [flat_map]. rewrite pj_app, pr1_decomp, IH. reflexivity.
      - induction s as [|c s IH]; [reflexivity|]. cbn [flat_map]. rewrite pj_app. intros H. cbn [pj flat_map] in H.
        apply app_eq_nil in H as [H1 H2]. now rewrite (pr2_decomp c H1), (IH H2). }
    destruct b; [|exact D]. unfold normalize_NFC. rewrite (compose_keeps pr1 ccc1), (compose_keeps pr2 ccc2).
    - exact D.
    - intros a c p H. apply comp_hush in H as (A & B & C). split; [now apply pr2_hush|]. split; now apply pr2_hush.
    - intros a c p H. apply comp_hush in H as (A & B & C). split; [now apply pr1_hush|]. split; now apply pr1_hush.
  Qed.

  (** *** Programs *)
  Lemma keeps_nil : keeps [].
  Proof. intros s r H. assert (r = s) as -> by (cbn [run] in H; congruence). now split. Qed.
  Lemma keeps_raise : forall e, keeps [Raise e].
  Proof. intros e s r H. discriminate. Qed.
  Lemma keeps_app : forall p q, keeps p -> keeps q -> keeps (p ++ q).
  Proof.
    intros p q Hp Hq s r H. rewrite run_app in H. destruct (run p s) as [s'|] eqn:E; [|discriminate]. cbn [rbind] in H.
    destruct (Hp _ _ E) as [A B], (Hq _ _ H) as [C D]. split; [congruence|auto].
  Qed.
  Lemma keeps_cons : forall o p, keeps [o] -> keeps p -> keeps (o :: p).
  Proof. intros o p. exact (keeps_app [o] p). Qed.
  Lemma keeps_if : forall (b : bool) p q, keeps p -> keeps q -> keeps (if b then p else q).
  Proof. intros [|]; auto. Qed.
  Lemma keeps_withS : forall (A : Type) (r : res A) f, (forall a, r = Ok a -> keeps (f a)) -> keeps (withS r f).
  Proof. intros A [a|e] f H; [now apply H|apply keeps_raise]. Qed.
  Lemma keeps_foreach : forall (A : Type) (l : list A) f, (forall x, In x l -> keeps (f x)) -> keeps (foreach l f).
  Proof.
    intros A l f H. unfold foreach. induction l as [|x l IH]; cbn [flat_map]; [apply keeps_nil|].
    apply keeps_app; [apply H; now left|apply IH; intros y Hy; apply H; now right].
  Qed.
  Lemma keeps_one : forall o, (forall s r, run_op o s = Ok r -> pj pr1 r = pj pr1 s /\ (pj pr2 s = [] -> pj pr2 r = [])) -> keeps [o].
  Proof. intros o H s r E. cbn [run] in E. destruct (run_op o s) as [s'|] eqn:R; [|discriminate]. assert (s' = r) as -> by congruence. now apply H. Qed.
  Lemma both : forall s r, (forall pr, (forall c, hush al c = true -> pr c = []) -> pj pr r = pj pr s) ->
    pj pr1 r = pj pr1 s /\ (pj pr2 s = [] -> pj pr2 r = []).
  Proof. intros s r H. split; [apply H; exact pr1_hush|]. intros E. rewrite H; [exact E|exact pr2_hush]. Qed.
  Lemma keeps_Replace : forall x y, (forall pr, (forall c, hush al c = true -> pr c = []) -> pj pr y = pj pr x) -> keeps [Replace x y].
  Proof.
    intros x y H. apply keeps_one. intros s r E. cbn [run_op] in E. assert (r = replace x y s) as -> by congruence.
    apply both. intros pr Hpr. apply replace_keeps. now apply H.
  Qed.
  Lemma keeps_Replace_hushed : forall x y, hushed al x = true -> hushed al y = true -> keeps [Replace x y].
  Proof. intros x y Hx Hy. apply keeps_Replace. intros pr Hpr. now rewrite (pj_hushed al pr Hpr x Hx), (pj_hushed al pr Hpr y Hy). Qed.
  Lemma keeps_IfIn : forall x p q, keeps p -> keeps q -> keeps [IfIn x p q].
  Proof. intros x p q Hp Hq. apply keeps_one. intros s r E. rewrite run_op_IfIn in E. destruct (contains x s); [now apply Hp|now apply Hq]. Qed.
  Lemma keeps_Try : forall h p, keeps p -> keeps [Try h p].
  Proof.
    intros h p Hp. apply keeps_one. intros s r E. rewrite run_op_Try in E. destruct (run p s) as [s'|e] eqn:R.
    - assert (s' = r) as -> by congruence. now apply Hp.
    - destruct (h e); [|discriminate]. assert (r = s) as -> by congruence. now split.
  Qed.
  Lemma keeps_EvenParts : forall sep p, hushed al sep = true -> sep <> [] -> keeps p -> keeps [EvenParts sep p].
  Proof.
    intros sep p Hs N Hp. apply keeps_one. intros s r E. rewrite run_op_EvenParts in E.
    assert (P : forall l b r, alt_parts (run p) b l = Ok r -> pj pr1 r = pj pr1 (concat l) /\ (pj pr2 (concat l) = [] -> pj pr2 r = [])).
    { induction l as [|w l IH]; intros b r0 A; cbn [alt_parts] in A; [assert (r0 = []) as -> by congruence; now split|].
      destruct (if b then run p w else Ok w) as [w'|] eqn:Ew; [|discriminate].
      destruct (alt_parts (run p) (negb b) l) as [r'|] eqn:El; [|discriminate]. assert (r0 = w' ++ r') as -> by congruence.
      destruct (IH _ _ El) as [I1 I2].
      assert (W : pj pr1 w' = pj pr1 w /\ (pj pr2 w = [] -> pj pr2 w' = [])).
      { destruct b; [now apply Hp|]. assert (w' = w) as -> by congruence. now split. }
      destruct W as [W1 W2]. cbn [concat]. rewrite !pj_app, W1, I1. split; [reflexivity|].
      intros Z. apply app_eq_nil in Z as [Z1 Z2]. now rewrite (W2 Z1), (I2 Z2). }
    destruct (P _ _ _ E) as [P1 P2]. unfold split in P1, P2.
    rewrite (split_go_keeps pr1 sep (pj_hushed al pr1 pr1_hush _ Hs) N) in P1.
    rewrite (split_go_keeps pr2 sep (pj_hushed al pr2 pr2_hush _ Hs) N) in P2. now split.
  Qed.
  Lemma keep_op_go : forall p, (fix go (p : list op) : bool := match p with [] => true | o' :: p' => if keep_op al o' then go p' else false end) p = keep al p.
  Proof. induction p as [|o p IH]; [reflexivity|]. cbn [keep]. destruct (keep_op al o); [exact IH|reflexivity]. Qed.
  Lemma keep_op_sound : forall o, keep_op al o = true -> keeps [o].
  Proof.
    assert (G : forall p, Forall (fun o => keep_op al o = true -> keeps [o]) p -> keep al p = true -> keeps p).
    { induction 1 as [|o p Ho _ IH]; intros H; [apply keeps_nil|]. cbn [keep] in H. destruct (keep_op al o) eqn:E; [|discriminate].
      apply keeps_cons; [now apply Ho|now apply IH]. }
    induction o as [x y|p t|x p q Hp Hq|t|t| |c|h p Hp|sep p Hp|r t|f|f|e] using op_ind'; intros H.
    - cbn [keep_op] in H. apply orb_true_iff in H as [H|H].
      + apply str_eqb_eq in H as ->. now apply keeps_Replace.
      + apply andb_true_iff in H as [Hx Hy]. now apply keeps_Replace_hushed.
    - cbn [keep_op] in H. apply keeps_one. intros s r E. cbn [run_op] in E. apply both. intros pr Hpr.
      exact (re_sub_keeps al fits_sound pr Hpr _ _ _ _ H E).
    - cbn [keep_op] in H. rewrite !keep_op_go in H. destruct (keep al p) eqn:Ep; [|discriminate]. apply keeps_IfIn; now apply G.
    - cbn [keep_op] in H. apply keeps_one. intros s r E. cbn [run_op] in E. assert (r = s ++ t) as -> by congruence.
      apply both. intros pr Hpr. rewrite pj_app, (pj_hushed al pr Hpr t H). apply app_nil_r.
    - cbn [keep_op] in H. apply keeps_one. intros s r E. cbn [run_op] in E. assert (r = t ++ s) as -> by congruence.
      apply both. intros pr Hpr. rewrite pj_app, (pj_hushed al pr Hpr t H). reflexivity.
    - apply keeps_one. intros s r E. cbn [run_op] in E. assert (r = py_lower s) as -> by congruence.
      apply both. intros pr Hpr. apply (lower_keeps al pr Hpr).
      pose proof Hfits as F. unfold fits in F. repeat (apply andb_true_iff in F as [F ?]). assumption.
    - apply keeps_one. intros s r E. cbn [run_op] in E.
      assert (r = if c then normalize_NFC s else normalize_NFD s) as -> by congruence. apply norm_keeps.
    - cbn [keep_op] in H. rewrite keep_op_go in H. apply keeps_Try. now apply G.
    - cbn [keep_op] in H. rewrite keep_op_go in H. destruct (hushed al sep) eqn:Es; [|discriminate]. cbn [andb] in H.
      destruct (str_eqb sep []) eqn:En; [discriminate|]. cbn [negb] in H. apply keeps_EvenParts; [exact Es|now apply str_eqb_neq|now apply G].
    - cbn [keep_op] in H. apply keeps_one. intros s r0 E. cbn [run_op] in E. assert (r0 = sub r t s) as -> by congruence.
      apply both. intros pr Hpr. exact (sub_keeps al fits_sound pr Hpr _ _ _ H).
    - discriminate.
    - discriminate.
    - apply keeps_raise.
  Qed.
  Theorem keep_sound : forall p, keep al p = true -> keeps p.
  Proof.
    induction p as [|o p IH]; intros H; [apply keeps_nil|]. cbn [keep] in H. destruct (keep_op al o) eqn:E; [|discriminate].
    apply keeps_cons; [now apply keep_op_sound|now apply IH].
  Qed.
  (** What the projections mean for a text without compatibility ideographs. *)
  Lemma pj2_nil : forall s, pj pr2 s = [] <-> Forall (fun c => compat c = false) s.
  Proof.
    induction s as [|c s IH]; [split; constructor|]. cbn [pj flat_map]. unfold pr2 at 1. destruct (compat c) eqn:E.
    - split; [discriminate|]. intros H. inversion H; congruence.
    - cbn [app]. split; [intros H; constructor; [exact E|now apply IH]|]. intros H. inversion H; subst. now apply IH.
  Qed.
  Lemma pj1_filter : forall s, Forall (fun c => compat c = false) s -> pj pr1 s = filter other s.
  Proof.
    induction s as [|c s IH]; intros H; [reflexivity|]. inversion H as [|? ? Hc Hs]; subst. cbn [pj flat_map].
    fold (pj pr1 s). rewrite (IH Hs). change (c :: s) with ([c] ++ s). rewrite filter_app. f_equal. unfold pr1.
    destruct (decomp_cases c) as [->|([C|[Hh D]] & _)]; [reflexivity|congruence|].
    rewrite (filter_hushed _ D). cbn [filter]. unfold other. now rewrite Hh.
  Qed.
  Lemma pj1_NFD : forall s, pj pr1 s = filter other (flat_map decomp s).
  Proof. induction s as [|c s IH]; [reflexivity|]. cbn [pj flat_map]. rewrite filter_app, <- IH. reflexivity. Qed.
  Theorem keeps_filter : forall p, keeps p -> forall s r, run p s = Ok r -> Forall (fun c => compat c = false) s ->
    filter other r = filter other s /\ Forall (fun c => compat c = false) r.
  Proof.
    intros p Hp s r E Hs. destruct (Hp s r E) as [A B]. assert (C : Forall (fun c => compat c = false) r) by now apply pj2_nil, B, pj2_nil.
    split; [|exact C]. now rewrite <- !pj1_filter.
  Qed.
End Programs.

(** Keeping more characters. *)
Lemma keeps_more : forall (al al' : ranges) p, (forall c, hush al c = true -> hush al' c = true) -> keeps al p -> keeps al' p.
Proof.
  intros al al' p H K s r E. destruct (K s r E) as [A B]. split; [|exact B].
  assert (Q : forall t, pj (pr1 al') t = filter (other al') (pj (pr1 al) t)).
  { intros t. rewrite !pj1_NFD. induction (flat_map decomp t) as [|c l IH]; [reflexivity|]. cbn [filter].
    destruct (other al c) eqn:E1; cbn [filter]; destruct (other al' c) eqn:E2; try (now rewrite IH).
    exfalso. unfold other in *. specialize (H c). destruct (hush al c); [now rewrite H in E2|]. cbn [negb andb] in E1. rewrite E1, andb_false_r in E2. discriminate. }
  now rewrite !Q, A.
Qed.
