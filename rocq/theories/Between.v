(** * Inserting between two characters.

    [re.sub('(a|b)(c|d)', r'\1x\2', s)] is a substitution of [(c|d)] with a
    look-behind for [a|b], when the two sets of characters are disjoint.  Proof
    machinery; no code of /repo is modelled here. *)
From Coq Require Import List NArith ZArith Bool Lia Arith.
From Verif Require Import PyStr Regex StrFacts AbsRegex Behind.
Import ListNotations.
Local Open Scope nat_scope.

(** The characters of an alternation of single characters. *)
Fixpoint one (r : re) : option (list N) :=
  match r with
  | RChar c => Some [c]
  | RSeq REps x => one x
  | RAlt x y => match one x, one y with Some a, Some b => Some (a ++ b) | _, _ => None end
  | _ => None
  end.

Fixpoint tlits (tm : list titem) (g : nat) : option str :=
  match tm with
  | [TGroup h] => if Nat.eqb h g then Some [] else None
  | TLit c :: t => match tlits t g with Some l => Some (c :: l) | None => None end
  | _ => None
  end.

Definition oneset (l : list N) : re := RSet false (map (fun c => CRange c c) l).

Definition between (r : re) (tm : list titem) : option (re * list titem) :=
  match r, tm with
  | RSeq (RSeq REps (RGroup g x)) (RGroup h y), TGroup g' :: tm' =>
      match one x, one y, tlits tm' h with
      | Some a, Some b, Some _ =>
          if Nat.eqb g g' <&> negb (Nat.eqb g h) <&> negb (Nat.eqb g 0) <&> negb (Nat.eqb h 0) <&> all (fun c => negb (memN c b)) a
          then Some (RSeq (RLook false false 1 (oneset a)) (RGroup h y), tm')
          else None
      | _, _, _ => None
      end
  | _, _ => None
  end.

Lemma memN_app : forall c a b, memN c (a ++ b) = (memN c a || memN c b)%bool.
Proof.
  intros c a b. unfold memN. induction a as [|d a IH]; [reflexivity|]. cbn [app any]. rewrite IH.
  destruct (N.eqb c d); reflexivity.
Qed.

Lemma m_one : forall r l, one r = Some l -> forall s k, m r s k = step1 (fun c => memN c l) s k.
Proof.
  induction r as [|c| | |r1 IHr1 r2 IHr2|r1 IHr1 r2 IHr2| | | | | | | |]; intros l0 Hl s k; try discriminate.
  - injection Hl as <-. cbn [m]. unfold step1. destruct (aft s) as [|d t]; [reflexivity|].
    unfold memN. cbn [any]. rewrite (N.eqb_sym d c). destruct (N.eqb c d); reflexivity.
  - destruct r1; try discriminate. cbn [one] in Hl. cbn [m]. now apply IHr2.
  - cbn [one] in Hl. destruct (one r1) as [a|]; [|discriminate]. destruct (one r2) as [b|]; [|discriminate].
    injection Hl as <-. cbn [m]. rewrite (IHr1 _ eq_refl), (IHr2 _ eq_refl). unfold step1.
    destruct (aft s) as [|d t]; [reflexivity|]. rewrite memN_app.
    destruct (memN d a); [|reflexivity]. cbn [orb]. destruct (k _); [reflexivity|].
    destruct (memN d b); reflexivity.
Qed.

Lemma m_oneset : forall l s k, m (oneset l) s k = step1 (fun c => memN c l) s k.
Proof.
  intros l s k. cbn [m oneset]. unfold step1. destruct (aft s) as [|c t]; [reflexivity|].
  replace (in_set false (map (fun c => CRange c c) l) c) with (memN c l); [reflexivity|].
  assert (E : forall b, xorb false b = b) by (now intros [|]). unfold in_set. rewrite E. clear E. unfold memN.
  induction l as [|d l IH]; [reflexivity|]. cbn [map existsb any in_item]. rewrite <- IH.
  replace ((d <=? c) && (c <=? d))%N with (N.eqb c d); [destruct (N.eqb c d); reflexivity|].
  destruct (N.eqb_spec c d) as [->|H].
  - now rewrite N.leb_refl.
  - symmetry. apply andb_false_iff. destruct (N.leb_spec d c); [right|now left]. apply N.leb_gt. lia.
Qed.

Section Ins.
  Variables (P Q : N -> bool) (ins : str).

  Fixpoint insert (s : str) : str :=
    match s with
    | [] => []
    | c :: t => match t with
                | d :: t' => if P c && Q d then c :: ins ++ d :: insert t' else c :: insert t
                | [] => [c]
                end
    end.

  Definition headP (b : str) : bool := match b with c :: _ => P c | [] => false end.

  Lemma sub_insert : forall r f,
    (forall b s, attempt r false (St b s []) =
       match s with
       | c :: d :: t => if P c then if Q d then Some (St (d :: c :: b) t (caps (match attempt r false (St b s []) with Some x => x | None => St [] [] [] end))) else None else None
       | _ => None
       end) ->
    (forall b c d t s', attempt r false (St b (c :: d :: t) []) = Some s' -> 
       f (final_caps (St b (c :: d :: t) []) s') = c :: ins ++ [d]) ->
    forall n s b, length s <= n -> sub_go r f b 0 s = insert s.
  Proof.
    intros r f Ha Hf. induction n as [|n IH]; intros s b Hn.
    - destruct s; [|simpl in Hn; lia]. cbn [sub_go]. now rewrite Ha.
    - destruct s as [|c [|d t]].
      + cbn [sub_go]. now rewrite Ha.
      + cbn [sub_go]. rewrite Ha. now rewrite Ha.
      + assert (Step : P c && Q d = false -> sub_go r f b 0 (c :: d :: t) = c :: insert (d :: t)).
        { intros E. cbn [sub_go]. rewrite Ha. destruct (P c); [destruct (Q d); [discriminate|]|];
          (f_equal; apply (IH (d :: t)); simpl in *; lia). }
        cbn [insert]. destruct (P c && Q d) eqn:E; [|now apply Step].
        apply andb_true_iff in E as [Ep Eq].
        destruct (attempt r false (St b (c :: d :: t) [])) as [s'|] eqn:Es.
        * pose proof (Ha b (c :: d :: t)) as Ha'. rewrite Es, Ep, Eq in Ha'. injection Ha' as Hs'.
          assert (Hout := Hf _ _ _ _ _ Es).
          transitivity (f (final_caps (St b (c :: d :: t) []) s') ++ sub_go r f (c :: b) 1 (d :: t)).
          { cbn [sub_go]. rewrite Es.
            replace (length (consumed (St b (c :: d :: t) []) s')) with 2; [reflexivity|].
            rewrite Hs'. unfold consumed. cbn [aft length]. rewrite firstn_length. cbn [length]. lia. }
          rewrite Hout. cbn [app]. f_equal. rewrite <- app_assoc. f_equal. cbn [app]. f_equal.
          cbn [sub_go]. apply IH. simpl in Hn. lia.
        * pose proof (Ha b (c :: d :: t)) as Ha'. rewrite Es, Ep, Eq in Ha'. discriminate.
  Qed.

  Lemma sub_insert_behind : forall r f, (forall c, P c = true -> Q c = false) ->
    (forall b s, attempt r false (St b s []) =
       match s with
       | d :: t => if headP b then if Q d then Some (St (d :: b) t (caps (match attempt r false (St b s []) with Some x => x | None => St [] [] [] end))) else None else None
       | _ => None
       end) ->
    (forall b d t s', attempt r false (St b (d :: t) []) = Some s' -> 
       f (final_caps (St b (d :: t) []) s') = ins ++ [d]) ->
    forall n s b, length s <= n ->
    sub_go r f b 0 s =
      match s with
      | d :: t => if headP b && Q d then ins ++ d :: insert t else insert s
      | [] => []
      end.
  Proof.
    intros r f Hpq Ha Hf. induction n as [|n IH]; intros s b Hn.
    - destruct s; [|simpl in Hn; lia]. cbn [sub_go]. now rewrite Ha.
    - destruct s as [|d t]; [cbn [sub_go]; now rewrite Ha|].
      assert (Ht : length t <= n) by (simpl in Hn; lia).
      destruct (headP b && Q d) eqn:E.
      + apply andb_true_iff in E as [Eb Ed].
        destruct (attempt r false (St b (d :: t) [])) as [s'|] eqn:Es.
        * pose proof (Ha b (d :: t)) as Ha'. rewrite Es, Eb, Ed in Ha'. injection Ha' as Hs'.
          assert (Hout := Hf _ _ _ _ Es).
          transitivity (f (final_caps (St b (d :: t) []) s') ++ sub_go r f (d :: b) 0 t).
          { cbn [sub_go]. rewrite Es.
            replace (length (consumed (St b (d :: t) []) s')) with 1; [reflexivity|].
            rewrite Hs'. unfold consumed. cbn [aft length]. rewrite firstn_length. cbn [length]. lia. }
          rewrite Hout, <- app_assoc. f_equal. cbn [app]. f_equal. rewrite IH by assumption.
          destruct t as [|e t]; [reflexivity|]. cbn [headP].
          destruct (P d) eqn:Ep; [|reflexivity]. now rewrite (Hpq d Ep) in Ed.
        * pose proof (Ha b (d :: t)) as Ha'. rewrite Es, Eb, Ed in Ha'. discriminate.
      + transitivity (d :: sub_go r f (d :: b) 0 t).
        { cbn [sub_go]. rewrite Ha. destruct (headP b); [destruct (Q d); [discriminate|]|]; reflexivity. }
        rewrite IH by assumption. cbn [insert headP]. destruct t as [|e t]; [reflexivity|].
        destruct (P d && Q e); reflexivity.
  Qed.
End Ins.

Lemma expand_tlits : forall tm g l, tlits tm g = Some l -> forall cs, expand tm cs = l ++ match cap g cs with Some x => x | None => [] end.
Proof.
  induction tm as [|i tm IH]; intros g l H cs; [discriminate|]. destruct i as [c|h].
  - cbn [tlits] in H. destruct (tlits tm g) as [l'|] eqn:E; [|discriminate]. injection H as <-.
    cbn [expand flat_map app]. f_equal. apply (IH g l' E).
  - cbn [tlits] in H. destruct tm; [|discriminate]. destruct (Nat.eqb_spec h g) as [->|]; [|discriminate].
    injection H as <-. cbn [expand flat_map app]. now rewrite app_nil_r.
Qed.

Lemma between_ok : forall r tm r' tm', between r tm = Some (r', tm') -> forall s, sub r tm s = sub r' tm' s.
Proof.
  intros r tm r' tm' H s. unfold between in H.
  destruct r as [| | | |r1 r2| | | | | | | | |]; try discriminate. destruct r1 as [| | | |r3 r4| | | | | | | | |]; try discriminate.
  destruct r3; try discriminate. destruct r4 as [| | | | | |g x| | | | | | |]; try discriminate.
  destruct r2 as [| | | | | |h y| | | | | | |]; try discriminate.
  destruct tm as [|[c|g'] tm0]; try discriminate.
  destruct (one x) as [a|] eqn:Ex; [|discriminate]. destruct (one y) as [b|] eqn:Ey; [|discriminate].
  destruct (tlits tm0 h) as [ins|] eqn:El; [|discriminate].
  destruct (Nat.eqb_spec g g') as [<-|]; [|discriminate]. destruct (Nat.eqb_spec g h) as [|Hgh]; [discriminate|].
  destruct (Nat.eqb_spec g 0) as [|Hg0]; [discriminate|]. destruct (Nat.eqb_spec h 0) as [|Hh0]; [discriminate|].
  destruct (all _ a) eqn:Ea; [|discriminate]. simpl in H. injection H as <- <-.
  rewrite all_forall in Ea.
  assert (Ha : forall c, memN c a = true -> memN c b = false).
  { intros c Hc. apply memN_In in Hc. apply Ea in Hc. now apply negb_true_iff in Hc. }
  set (P := fun c => memN c a). set (Q := fun c => memN c b).
  unfold sub, sub_with.
  assert (A1 : forall b0 s0, attempt (RSeq (RSeq REps (RGroup g x)) (RGroup h y)) false (St b0 s0 []) =
     match s0 with
     | c :: d :: t => if P c then if Q d then Some (St (d :: c :: b0) t [(h, [d]); (g, [c])]) else None else None
     | _ => None end).
  { intros b0 s0. unfold attempt. cbn [m andb]. rewrite (m_one x a Ex). unfold step1. cbn [aft bef caps].
    destruct s0 as [|c s0]; [reflexivity|]. fold (P c). destruct (P c) eqn:Ep; [|now destruct s0].
    rewrite (m_one y b Ey). unfold step1. cbn [aft bef caps]. destruct s0 as [|d t]; [reflexivity|].
    fold (Q d). destruct (Q d); [|reflexivity]. unfold consumed. cbn [aft length].
    replace (S (length t) - length t) with 1 by lia.
    replace (S (S (length t)) - S (length t)) with 1 by lia. reflexivity. }
  assert (A2 : forall b0 s0, attempt (RSeq (RLook false false 1 (oneset a)) (RGroup h y)) false (St b0 s0 []) =
     match s0 with
     | d :: t => if headP P b0 then if Q d then Some (St (d :: b0) t [(h, [d])]) else None else None
     | _ => None end).
  { intros b0 s0. unfold attempt. remember (oneset a) as oa eqn:Eoa. cbn [m andb back bef]. destruct b0 as [|c b0]; [now destruct s0|].
    cbn [headP back]. rewrite Eoa, m_oneset. unfold step1. cbn [aft bef caps].
    fold (P c). destruct (P c) eqn:Ep; [|now destruct s0]. rewrite Nat.eqb_refl. cbn [caps].
    rewrite (m_one y b Ey). unfold step1. cbn [aft bef caps]. destruct s0 as [|d t]; [reflexivity|].
    fold (Q d). destruct (Q d); [|reflexivity]. unfold consumed. cbn [aft length].
    replace (S (length t) - length t) with 1 by lia. reflexivity. }
  rewrite (sub_insert P Q ins) with (n := length s); [|..|lia].
  - rewrite (sub_insert_behind P Q ins) with (n := length s); [|exact Ha|..|lia].
    + now destruct s.
    + intros b0 s0. rewrite !A2. destruct s0 as [|d t]; [reflexivity|]. destruct (headP P b0); [|reflexivity].
      destruct (Q d); reflexivity.
    + intros b0 d t s' E. rewrite A2 in E. destruct (headP P b0); [|discriminate]. destruct (Q d); [|discriminate].
      injection E as <-. rewrite (expand_tlits _ _ _ El). unfold final_caps. cbn [caps cap].
      destruct h; [congruence|rewrite Nat.eqb_refl; reflexivity].
  - intros b0 s0. rewrite !A1. destruct s0 as [|c [|d t]]; try reflexivity. destruct (P c); [|reflexivity].
    destruct (Q d); reflexivity.
  - intros b0 c d t s' E. rewrite A1 in E. destruct (P c); [|discriminate]. destruct (Q d); [|discriminate].
    injection E as <-. cbn [expand flat_map]. fold (expand tm0).
    change (flat_map _ tm0) with (expand tm0 (final_caps (St b0 (c :: d :: t) []) (St (d :: c :: b0) t [(h, [d]); (g, [c])]))).
    rewrite (expand_tlits _ _ _ El). unfold final_caps. cbn [caps cap].
    destruct g as [|g]; [congruence|]. destruct h as [|h]; [congruence|]. cbn [Nat.eqb].
    rewrite !Nat.eqb_refl. destruct (Nat.eqb_spec h g) as [->|]; [congruence|]. reflexivity.
Qed.

(* ------------------------------------------------------------------ *)
(** ** Alternations of characters as sets *)

Lemma m_ext : forall r s k k', (forall t, k t = k' t) -> m r s k = m r s k'.
Proof.
  assert (St1 : forall f s k k', (forall t, k t = k' t) -> step1 f s k = step1 f s k').
  { intros f s k k' H. unfold step1. destruct (aft s) as [|c t]; [reflexivity|]. now rewrite H. }
  induction r as [ | c | | neg l | x IHx y IHy | x IHx y IHy | n x IHx | n | g lo hi x IHx
                 | ahead neg w x IHx | | | | neg ]; intros s k k' H; try (cbn [m]; now apply St1).
  - apply H.
  - cbn [m]. apply IHx. intros t. now apply IHy.
  - cbn [m]. rewrite (IHx s k k' H), (IHy s k k' H). reflexivity.
  - cbn [m]. apply IHx. intros t. apply H.
  - cbn [m]. destruct (cap n (caps s)) as [x|]; [|reflexivity].
    revert s. induction x as [|c x IH]; intros s; [apply H|]. cbn [step_lit]. unfold step1.
    destruct (aft s) as [|d t]; [reflexivity|]. destruct (N.eqb c d); [apply IH|reflexivity].
  - rewrite !m_rep.
    assert (Ho : forall f left s, copt (m x) g k f left s = copt (m x) g k' f left s).
    { induction f as [|f IHf]; intros left t; [apply H|]. cbn [copt]. cbv zeta.
      set (more := match left with Some 0 => false | _ => true end). rewrite H.
      assert (E : (if more then m x t (fun s'0 => if length (aft s'0) =? length (aft t) then None
                     else copt (m x) g k f (option_map pred left) s'0) else None)
                = (if more then m x t (fun s'0 => if length (aft s'0) =? length (aft t) then None
                     else copt (m x) g k' f (option_map pred left) s'0) else None)).
      { destruct more; [|reflexivity]. apply IHx. intros u.
        destruct (length (aft u) =? length (aft t)); [reflexivity|apply IHf]. }
      now rewrite E. }
    generalize (option_map (fun h => h - lo) hi) as left. intros left.
    revert s. induction lo as [|lo IHlo]; intros s; cbn [cmand]; [apply Ho|].
    apply IHx. intros t. apply IHlo.
  - destruct ahead; cbn [m].
    + now rewrite !H; destruct (m x s _); [destruct neg; [reflexivity|apply H]|].
    + destruct (back w s) as [sb|]; [|now rewrite H].
      rewrite H. destruct (m x sb _); [destruct neg; [reflexivity|apply H]|reflexivity].
  - cbn [m]. now rewrite H.
  - cbn [m]. now rewrite H.
  - cbn [m]. now rewrite H.
  - cbn [m]. now rewrite H.
Qed.

Definition as_set (r : re) : option (list citem) :=
  match r with
  | RChar c => Some [CRange c c]
  | RSet false l => Some l
  | _ => None
  end.

Lemma as_set_ok : forall r l, as_set r = Some l -> forall s k, m r s k = step1 (in_set false l) s k.
Proof.
  intros r l H s k. destruct r as [|c| |neg l'| | | | | | | | | |]; try discriminate.
  - injection H as <-. cbn [m]. unfold step1. destruct (aft s) as [|d t]; [reflexivity|].
    replace (in_set false [CRange c c] d) with (N.eqb c d); [reflexivity|].
    unfold in_set. cbn [existsb in_item]. destruct (N.eqb_spec c d) as [->|Hc].
    + now rewrite N.leb_refl.
    + destruct (N.leb_spec c d), (N.leb_spec d c); try reflexivity. lia.
  - destruct neg; [discriminate|]. injection H as <-. reflexivity.
Qed.

(** Equivalent expression with fewer alternatives. *)
Fixpoint squash (r : re) : re :=
  match r with
  | RSeq REps y => squash y
  | RSeq x y => RSeq (squash x) (squash y)
  | RAlt x y =>
      let x' := squash x in let y' := squash y in
      match as_set x' with
      | Some a =>
          match as_set y' with
          | Some b => RSet false (a ++ b)
          | None => match y' with
                    | RAlt u v => match as_set u with
                                  | Some b => RAlt (RSet false (a ++ b)) v
                                  | None => RAlt x' y'
                                  end
                    | _ => RAlt x' y'
                    end
          end
      | None => RAlt x' y'
      end
  | RGroup n x => RGroup n (squash x)
  | RLook a neg w x => RLook a neg w (squash x)
  | _ => r
  end.

Lemma in_set_app : forall a b c, in_set false (a ++ b) c = in_set false a c || in_set false b c.
Proof.
  intros a b c. unfold in_set. rewrite existsb_app.
  destruct (existsb _ a), (existsb _ b); reflexivity.
Qed.

Lemma step1_app : forall a b s k,
  step1 (in_set false (a ++ b)) s k
  = match step1 (in_set false a) s k with Some x => Some x | None => step1 (in_set false b) s k end.
Proof.
  intros a b s k. unfold step1. destruct (aft s) as [|c t]; [reflexivity|].
  rewrite in_set_app. destruct (in_set false a c); [|reflexivity]. cbn [orb].
  destruct (k _); [reflexivity|]. now destruct (in_set false b c).
Qed.

Lemma m_squash : forall r s k, m (squash r) s k = m r s k.
Proof.
  induction r as [ | c | | neg l | x IHx y IHy | x IHx y IHy | n x IHx | n | g lo hi x IHx
                 | ahead neg w x IHx | | | | neg ]; intros s k; try reflexivity.
  - assert (G : m (RSeq (squash x) (squash y)) s k = m (RSeq x y) s k).
    { cbn [m]. rewrite IHx. apply m_ext. intros t. apply IHy. }
    destruct x; exact G.
  - assert (G : m (RAlt (squash x) (squash y)) s k = m (RAlt x y) s k).
    { cbn [m]. now rewrite IHx, IHy. }
    cbn [squash]. cbv zeta. destruct (as_set (squash x)) as [a|] eqn:Ea; [|exact G].
    rewrite <- G. cbn [m]. rewrite (as_set_ok _ _ Ea).
    destruct (as_set (squash y)) as [b|] eqn:Eb.
    + cbn [m]. rewrite step1_app, (as_set_ok _ _ Eb). reflexivity.
    + destruct (squash y) as [ | c | | neg l | x1 y1 | u v | n x1 | n | g lo hi x1
                 | ahead neg w x1 | | | | neg ]; try (cbn [m]; now rewrite (as_set_ok _ _ Ea)).
      destruct (as_set u) as [b|] eqn:Eu; [|cbn [m]; now rewrite (as_set_ok _ _ Ea)].
      cbn [m]. rewrite step1_app, (as_set_ok _ _ Eu). now destruct (step1 (in_set false a) s k).
  - cbn [squash m]. apply IHx.
  - destruct ahead; cbn [squash m]; [now rewrite IHx|].
    destruct (back w s); [now rewrite IHx|reflexivity].
Qed.

Lemma squash_ok : forall r tm s, sub (squash r) tm s = sub r tm s.
Proof.
  intros r tm s. unfold sub, sub_with. generalize (@nil N) as b, 0 as skip.
  assert (A : forall t p, attempt (squash r) t p = attempt r t p) by (intros t p; apply m_squash).
  induction s as [|c s IH]; intros b skip; cbn [sub_go]; rewrite !A; [reflexivity|].
  destruct skip as [|skip]; [|apply IH]. destruct (attempt r false _) as [s'|]; [|now rewrite IH].
  cbv zeta. destruct (length _); [|now rewrite IH]. f_equal.
  destruct (attempt r true _) as [s''|]; now rewrite IH.
Qed.
