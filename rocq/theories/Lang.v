(** * Texts as sequences of tokens.

    A text is described as a sequence of items: tokens (whose spelling comes
    from a table) and foreign characters (characters outside the ranges [M]).
    Which items may follow each other is given by classes.  Proof machinery; no
    code of /repo is modelled here. *)
From Coq Require Import List NArith ZArith Bool Lia Arith.
From Verif Require Import PyStr Regex StrFacts AbsRegex.
Import ListNotations.
Local Open Scope nat_scope.

(* ------------------------------------------------------------------ *)
(** ** Sets of characters *)

Fixpoint cs_del_p (p : positive) (t : cset) : cset :=
  match t with
  | CE => CE
  | CN l b r => match p with
                | xH => CN l false r
                | xO q => CN (cs_del_p q l) b r
                | xI q => CN l b (cs_del_p q r)
                end
  end.
Definition cs_del (c : N) (t : cset) : cset := cs_del_p (N.succ_pos c) t.

Lemma cs_mem_del_p : forall p q t, q <> p -> cs_mem_p q (cs_del_p p t) = cs_mem_p q t.
Proof.
  induction p as [p IH|p IH|]; intros [q|q|] [|l b r] H; simpl; try reflexivity; try congruence;
    apply IH; congruence.
Qed.
Lemma cs_mem_del : forall c d t, d <> c -> cs_mem d (cs_del c t) = cs_mem d t.
Proof.
  intros c d t H. apply cs_mem_del_p. intros E. apply H. apply N.succ_inj.
  rewrite <- !N.succ_pos_spec. now rewrite E.
Qed.

Definition charset (L : list str) : cset :=
  fold_left (fun t s => fold_left (fun t c => cs_add c t) s t) L CE.

Lemma charset_mono : forall s t c, cs_mem c t = true -> cs_mem c (fold_left (fun t c => cs_add c t) s t) = true.
Proof.
  induction s as [|d s IH]; intros t c H; simpl; [assumption|].
  apply IH. now rewrite cs_mem_add, H, orb_true_r.
Qed.
Lemma charset_str : forall s t c, In c s -> cs_mem c (fold_left (fun t c => cs_add c t) s t) = true.
Proof.
  induction s as [|d s IH]; intros t c H; simpl; [easy|]. destruct H as [->|H].
  - apply charset_mono. now rewrite cs_mem_add, N.eqb_refl.
  - now apply IH.
Qed.
Lemma charset_In : forall L s c, In s L -> In c s -> cs_mem c (charset L) = true.
Proof.
  intros L s c. unfold charset. generalize CE as t.
  assert (Mono : forall L t c, cs_mem c t = true ->
    cs_mem c (fold_left (fun t s => fold_left (fun t c => cs_add c t) s t) L t) = true).
  { clear. induction L as [|s L IH]; intros t c H; simpl; [assumption|].
    apply IH. now apply charset_mono. }
  induction L as [|u L IH]; intros t Hs Hc; [easy|]. simpl. destruct Hs as [->|Hs].
  - apply Mono. now apply charset_str.
  - now apply IH.
Qed.

(* ------------------------------------------------------------------ *)
(** ** Items and validity *)

Inductive item := T (i : nat) | X (c : N).

(** Class 0 is the boundary of the text, class 1 that of foreign characters. *)
Section Lang.
  Variable M : list (N * N).
  Variable cl : list (nat * nat).       (* left and right class of each token *)
  Variable ok : nat -> nat -> bool.     (* right class, next left class *)
  Variable K : nat.                     (* number of classes *)

  Definition lc (it : item) : nat := match it with T i => fst (nth i cl (0, 0)) | X _ => 1 end.
  Definition rc (it : item) : nat := match it with T i => snd (nth i cl (0, 0)) | X _ => 1 end.
  Definition good (it : item) : bool :=
    match it with T i => i <? length cl | X c => foreign M c end.

  Fixpoint valid (prev : nat) (ts : list item) : bool :=
    match ts with
    | [] => ok prev 0
    | it :: ts' => good it && ok prev (lc it) && valid (rc it) ts'
    end.

  Definition classes_ok : bool := (1 <? K) && forallb (fun p => fst p <? K) cl.

  Section Table.
    Variable L : list str.

    Definition str_of (it : item) : str := match it with T i => nth i L [] | X c => [c] end.
    Definition render (ts : list item) : str := flat_map str_of ts.

    Lemma render_cons : forall it ts, render (it :: ts) = str_of it ++ render ts.
    Proof. reflexivity. Qed.

    (** *** What can follow: contexts of length [D] *)

    Definition lit (c : N) : aelt := AE [c] false false.
    Definition bot : aelt := AE [] false false.
    Definition forl : aelt := AE [] true false.
    Definition endl (D : nat) : list aelt :=
      match D with O => [] | S n => AE [] false true :: repeat bot n end.

    (** Merge of sorted lists (only the elements matter for soundness). *)
    Fixpoint nunion (a : list N) : list N -> list N :=
      fix go (b : list N) : list N :=
        match a, b with
        | [], _ => b
        | _, [] => a
        | x :: a', y :: b' =>
            match N.compare x y with
            | Lt => x :: nunion a' b
            | Eq => x :: nunion a' b'
            | Gt => y :: go b'
            end
        end.
    Definition ae_union (x y : aelt) : aelt :=
      AE (nunion (cs x) (cs y)) (fo x || fo y) (en x || en y).
    Fixpoint uni (a b : list aelt) : list aelt :=
      match a, b with
      | x :: a', y :: b' => ae_union x y :: uni a' b'
      | _, _ => []
      end.
    (** [None]: impossible. *)
    Definition ouni (a b : option (list aelt)) : option (list aelt) :=
      match a, b with
      | None, o | o, None => o
      | Some x, Some y => Some (uni x y)
      end.

    Definition ctx_item (D : nat) (tbl : list (option (list aelt))) (s : list aelt) (r : nat)
        : option (list aelt) :=
      if D <=? length s then Some (firstn D s)
      else option_map (fun l => firstn D (s ++ l)) (nth r tbl (Some [])).

    Definition toks : list (str * (nat * nat)) := combine L cl.

    (** Texts beginning with an item of left class [c] are described by entry [c]. *)
    Fixpoint put (c : nat) (o : option (list aelt)) (u : list (option (list aelt))) : list (option (list aelt)) :=
      match u with
      | [] => []
      | x :: u' => match c with O => ouni o x :: u' | S c' => x :: put c' o u' end
      end.

    Definition lefts (D : nat) (tbl : list (option (list aelt))) : list (option (list aelt)) :=
      fold_right (fun t acc => put (fst (snd t)) (ctx_item D tbl (map lit (fst t)) (snd (snd t))) acc)
        (put 0 (Some (endl D)) (put 1 (ctx_item D tbl [forl] 1) (repeat None K))) toks.

    (** Row [r] of [ok]; only for the right classes in use. *)
    Definition okrow (r : nat) : option (list bool) :=
      if (r <=? 1) <|> any (fun p => Nat.eqb r (snd p)) cl then Some (map (ok r) (seq 0 K)) else None.
    Definition okrows : list (option (list bool)) := map okrow (seq 0 K).

    (** Unions over the classes of a row, with the unions of neighbouring classes
        computed once: classes and rows as binary trees of the same shape. *)
    Inductive utree := Uleaf (o : option (list aelt)) | Unode (o : option (list aelt)) (x y : utree).
    Inductive rtree := Rnone | Rall | Rnode (a b : rtree).
    Definition uval (u : utree) : option (list aelt) := match u with Uleaf o | Unode o _ _ => o end.
    Definition mku (x y : utree) : utree := Unode (ouni (uval x) (uval y)) x y.
    Definition mkr (a b : rtree) : rtree :=
      match a, b with
      | Rnone, Rnone => Rnone
      | Rall, Rall => Rall
      | _, _ => Rnode a b
      end.
    Fixpoint pairup {A} (f : A -> A -> A) (l : list A) : list A :=
      match l with
      | a :: b :: l' => f a b :: pairup f l'
      | _ => l
      end.
    Fixpoint times {A} (n : nat) (f : A -> A) (x : A) : A := match n with O => x | S n' => times n' f (f x) end.
    Fixpoint sel (r : rtree) (u : utree) (acc : option (list aelt)) : option (list aelt) :=
      match r with
      | Rnone => acc
      | Rall => ouni (uval u) acc
      | Rnode a b => match u with
                     | Unode _ x y => sel a x (sel b y acc)
                     | Uleaf o => ouni o acc
                     end
      end.
    Definition utrees (u : list (option (list aelt))) : list utree := times 7 (pairup mku) (map Uleaf u).
    Definition rtrees (bs : list bool) : list rtree := times 7 (pairup mkr) (map (fun b : bool => if b then Rall else Rnone) bs).

    Definition ctx_step (rows : list (option (list bool))) (D : nat) (tbl : list (option (list aelt)))
        : list (option (list aelt)) :=
      let u := utrees (lefts D tbl) in
      map (fun row => match row with
                      | None => Some []
                      | Some bs => fold_right (fun cu acc => sel (fst cu) (snd cu) acc) None (combine (rtrees bs) u)
                      end) rows.

    Fixpoint ctx_tbl (rows : list (option (list bool))) (D k : nat) : list (option (list aelt)) :=
      match k with
      | O => []
      | S k' => ctx_step rows D (ctx_tbl rows D k')
      end.

    (** Soundness *)
    Definition orel (o : option (list aelt)) (s : str) : Prop :=
      match o with Some l => arel M l s | None => False end.

    Lemma nunion_In : forall a b c, In c a \/ In c b -> In c (nunion a b).
    Proof.
      induction a as [|x a IH]; [intros [|y b] c [H|H]; (easy || exact H)|].
      induction b as [|y b IHb]; intros c H; [destruct H as [H|[]]; exact H|].
      simpl. destruct (N.compare_spec x y) as [->|Hlt|Hgt].
      - destruct H as [[->|H]|[->|H]]; [now left|right; apply IH; auto|now left|right; apply IH; auto].
      - destruct H as [[->|H]|H]; [now left|right; apply IH; auto|right; apply IH; auto].
      - destruct H as [H|[->|H]]; [right; apply IHb; auto|now left|right; apply IHb; auto].
    Qed.
    Lemma nunion_l : forall b a c, In c a -> In c (nunion a b).
    Proof. intros. apply nunion_In. auto. Qed.
    Lemma nunion_r : forall b a c, In c b -> In c (nunion a b).
    Proof. intros. apply nunion_In. auto. Qed.

    Lemma inset_union_l : forall x y c, inset M x c -> inset M (ae_union x y) c.
    Proof.
      intros x y c [H|[H1 H2]]; [left|right]; simpl; [now apply nunion_l|now rewrite H1].
    Qed.
    Lemma inset_union_r : forall x y c, inset M y c -> inset M (ae_union x y) c.
    Proof.
      intros x y c [H|[H1 H2]]; [left|right]; simpl; [now apply nunion_r|now rewrite H1, orb_true_r].
    Qed.

    Lemma uni_l : forall a b s, arel M a s -> arel M (uni a b) s.
    Proof.
      induction a as [|x a IH]; intros [|y b] s H; simpl; try exact I.
      destruct s as [|c s]; simpl in *; [now rewrite H|].
      destruct H as [H1 H2]. split; [now apply inset_union_l|now apply IH].
    Qed.
    Lemma uni_r : forall a b s, arel M b s -> arel M (uni a b) s.
    Proof.
      induction a as [|x a IH]; intros [|y b] s H; simpl; try exact I.
      destruct s as [|c s]; simpl in *; [now rewrite H, orb_true_r|].
      destruct H as [H1 H2]. split; [now apply inset_union_r|now apply IH].
    Qed.
    Lemma ouni_l : forall a b s, orel a s -> orel (ouni a b) s.
    Proof. intros [a|] [b|] s H; simpl in *; try easy. now apply uni_l. Qed.
    Lemma ouni_r : forall a b s, orel b s -> orel (ouni a b) s.
    Proof. intros [a|] [b|] s H; simpl in *; try easy. now apply uni_r. Qed.

    Lemma arel_lits : forall s l t, arel M l t -> arel M (map lit s ++ l) (s ++ t).
    Proof.
      induction s as [|c s IH]; intros l t H; simpl; [assumption|].
      split; [left; now left|now apply IH].
    Qed.

    Lemma arel_endl : forall D, arel M (endl D) [].
    Proof. now intros [|D]. Qed.

    Lemma ctx_item_ok : forall D tbl s t t' r,
      (forall l, arel M l t' -> arel M (s ++ l) t) ->
      orel (nth r tbl (Some [])) t' -> orel (ctx_item D tbl s r) t.
    Proof.
      intros D tbl s t t' r Hs Ht. unfold ctx_item. destruct (D <=? length s) eqn:E.
      - simpl. apply arel_firstn. rewrite <- (app_nil_r s). now apply Hs.
      - destruct (nth r tbl (Some [])) as [l|]; [|easy]. simpl. now apply arel_firstn, Hs.
    Qed.

    Hypothesis Hlen : length L = length cl.

    Lemma toks_nth : forall i, i < length cl -> In (nth i L [], nth i cl (0, 0)) toks.
    Proof.
      intros i Hi. unfold toks. rewrite <- combine_nth by assumption.
      apply nth_In. rewrite combine_length. lia.
    Qed.

    Definition tbl_ok (tbl : list (option (list aelt))) : Prop :=
      forall r ts, valid r ts = true -> orel (nth r tbl (Some [])) (render ts).

    Lemma put_len : forall o u c, length (put c o u) = length u.
    Proof. induction u as [|x u IH]; intros [|c]; simpl; auto. Qed.

    Lemma put_here : forall o s u c, c < length u -> orel o s -> orel (nth c (put c o u) None) s.
    Proof.
      induction u as [|x u IH]; intros [|c] Hc Ho; simpl in *; try lia; [now apply ouni_l|].
      apply IH; [lia|assumption].
    Qed.

    Lemma put_keep : forall o s u c d, orel (nth d u None) s -> orel (nth d (put c o u) None) s.
    Proof.
      induction u as [|x u IH]; intros [|c] [|d] Ho; simpl in *; auto. now apply ouni_r.
    Qed.

    Definition lefts_base (D : nat) tbl := put 0 (Some (endl D)) (put 1 (ctx_item D tbl [forl] 1) (repeat None K)).

    Lemma lefts_keep : forall D tbl l s d, orel (nth d (lefts_base D tbl) None) s ->
      orel (nth d (fold_right (fun t acc => put (fst (snd t)) (ctx_item D tbl (map lit (fst t)) (snd (snd t))) acc)
        (lefts_base D tbl) l) None) s.
    Proof. induction l as [|t l IH]; intros s d H; simpl; [assumption|]. apply put_keep. now apply IH. Qed.

    Lemma lefts_len_gen : forall D tbl (l : list (str * (nat * nat))),
      length (fold_right (fun t acc => put (fst (snd t)) (ctx_item D tbl (map lit (fst t)) (snd (snd t))) acc)
        (lefts_base D tbl) l) = K.
    Proof.
      induction l as [|t l IH]; simpl; [|now rewrite put_len]. unfold lefts_base.
      now rewrite !put_len, repeat_length.
    Qed.
    Lemma lefts_len : forall D tbl, length (lefts D tbl) = K.
    Proof. intros D tbl. apply lefts_len_gen. Qed.

    Lemma lefts_end : forall D tbl, 1 < K -> orel (nth 0 (lefts D tbl) None) [].
    Proof.
      intros D tbl HK. apply lefts_keep. apply put_here; [rewrite put_len, repeat_length; lia|].
      apply arel_endl.
    Qed.

    Lemma lefts_item : forall D tbl it ts, 1 < K -> lc it < K -> tbl_ok tbl -> good it = true ->
      valid (rc it) ts = true -> orel (nth (lc it) (lefts D tbl) None) (render (it :: ts)).
    Proof.
      intros D tbl it ts HK Hlc Htbl Hg Hv. pose proof (Htbl _ _ Hv) as Hr.
      destruct it as [i|c].
      - simpl in Hg. apply Nat.ltb_lt in Hg. unfold lefts. fold (lefts_base D tbl).
        pose proof (toks_nth i Hg) as Hin. induction toks as [|t l IH]; [easy|].
        cbn [fold_right]. destruct Hin as [->|Hin].
        + cbn [fst snd lc]. apply put_here; [rewrite lefts_len_gen; exact Hlc|]. simpl in Hr.
          apply ctx_item_ok with (t' := render ts); [|assumption].
          intros l' Hl'. now apply arel_lits.
        + apply put_keep. now apply IH.
      - apply lefts_keep. apply put_keep. apply put_here; [rewrite repeat_length; exact HK|].
        apply ctx_item_ok with (t' := render ts); [|assumption].
        intros l' Hl'. simpl. split; [right; now split|assumption].
    Qed.

    (** A class of both trees is in the row and describes the text. *)
    Inductive within (s : str) : rtree -> utree -> Prop :=
    | within_leaf : forall o, orel o s -> within s Rall (Uleaf o)
    | within_l : forall a b x y, within s a x -> within s (mkr a b) (mku x y)
    | within_r : forall a b x y, within s b y -> within s (mkr a b) (mku x y).

    Lemma sel_acc : forall s r u acc, orel acc s -> orel (sel r u acc) s.
    Proof.
      intros s. induction r as [| |a IHa b IHb]; intros u acc H; simpl; [assumption|now apply ouni_r|].
      destruct u as [o|o x y]; [now apply ouni_r|]. now apply IHa, IHb.
    Qed.

    Lemma sel_ok : forall s r u, within s r u -> orel (uval u) s /\ forall acc, orel (sel r u acc) s.
    Proof.
      intros s r u H. induction H as [o Ho|a b x y H [IH1 IH2]|a b x y H [IH1 IH2]].
      - split; [assumption|]. intros acc. now apply ouni_l.
      - assert (V : orel (uval (mku x y)) s) by (now apply ouni_l). split; [assumption|]. intros acc.
        assert (N : orel (sel (Rnode a b) (mku x y) acc) s)
          by (change (orel (sel a x (sel b y acc)) s); apply IH2).
        destruct a, b; first [exact N | exact (IH2 acc) | now apply ouni_l].
      - assert (V : orel (uval (mku x y)) s) by (now apply ouni_r). split; [assumption|]. intros acc.
        assert (N : orel (sel (Rnode a b) (mku x y) acc) s)
          by (change (orel (sel a x (sel b y acc)) s); apply sel_acc, IH2).
        destruct a, b; first [exact N | exact (IH2 acc) | now apply ouni_l].
    Qed.

    Lemma pairup_len : forall A B (f : A -> A -> A) (g : B -> B -> B) n (l : list A) (l' : list B), length l <= n ->
      length l = length l' -> length (pairup f l) = length (pairup g l').
    Proof.
      intros A B f g. induction n as [|n IH]; intros [|a [|b l]] [|a' [|b' l']] Hn H; simpl in *; try lia.
      f_equal. apply IH; lia.
    Qed.

    Lemma pairup_within : forall s n R U, length R <= n -> length R = length U ->
      (exists p, In p (combine R U) /\ within s (fst p) (snd p)) ->
      exists p, In p (combine (pairup mkr R) (pairup mku U)) /\ within s (fst p) (snd p).
    Proof.
      intros s. induction n as [|n IH]; intros [|a [|b R]] [|x [|y U]] Hn H (p & Hp & Hw);
        cbn [length] in *; try lia; try easy; try (exists p; now split).
      cbn [combine pairup] in *. destruct Hp as [<-|[<-|Hp]].
      - exists (mkr a b, mku x y). split; [now left|]. now apply within_l.
      - exists (mkr a b, mku x y). split; [now left|]. now apply within_r.
      - destruct (IH R U) as (q & Hq & Hq'); [lia|lia|now exists p|]. exists q. split; [now right|assumption].
    Qed.

    Lemma times_within : forall s n R U, length R = length U ->
      (exists p, In p (combine R U) /\ within s (fst p) (snd p)) ->
      exists p, In p (combine (times n (pairup mkr) R) (times n (pairup mku) U)) /\ within s (fst p) (snd p).
    Proof.
      intros s. induction n as [|n IH]; intros R U H Hp; [assumption|]. simpl. apply IH.
      - now apply pairup_len with (n := length R).
      - now apply pairup_within with (n := length R).
    Qed.

    Lemma fold_ok_classes : forall s c bs u, length bs = length u -> nth c bs false = true -> orel (nth c u None) s ->
      orel (fold_right (fun cu acc => sel (fst cu) (snd cu) acc) None (combine (rtrees bs) (utrees u))) s.
    Proof.
      intros s c bs u Hl Hb Hs. destruct (times_within s 7 (map (fun b : bool => if b then Rall else Rnone) bs) (map Uleaf u))
        as (p & Hp & Hw).
      - now rewrite !map_length.
      - exists (Rall, Uleaf (nth c u None)). split; [|now constructor].
        clear Hs. revert c u Hl Hb. induction bs as [|b bs IH]; intros [|c] [|x u] Hl Hb; simpl in *; try easy.
        + subst b. now left.
        + right. apply IH; [lia|assumption].
      - fold (rtrees bs) in Hp. fold (utrees u) in Hp. induction (combine (rtrees bs) (utrees u)) as [|q l IH]; [easy|].
        cbn [fold_right]. destruct Hp as [->|Hp]; [now apply sel_ok|]. now apply sel_acc, IH.
    Qed.

    Lemma lc_K : classes_ok = true -> forall it, good it = true -> lc it < K.
    Proof.
      intros H. unfold classes_ok in H. apply andb_true_iff in H as [H1 H2].
      apply Nat.ltb_lt in H1. rewrite forallb_forall in H2.
      intros [i|c] Hg; simpl in *; [|assumption].
      apply Nat.ltb_lt. apply H2. apply nth_In. now apply Nat.ltb_lt.
    Qed.

    Lemma nth_map_seq : forall A (f : nat -> A) n r d, r < n -> nth r (map f (seq 0 n)) d = f r.
    Proof.
      intros A f n r d H. rewrite nth_indep with (d' := f 0) by (now rewrite map_length, seq_length).
      now rewrite map_nth, seq_nth.
    Qed.

    Lemma ctx_step_ok : classes_ok = true -> forall D tbl, tbl_ok tbl -> tbl_ok (ctx_step okrows D tbl).
    Proof.
      intros HK D tbl Htbl r ts Hv. unfold ctx_step, okrows. rewrite map_map.
      assert (H1 : 1 < K) by (apply andb_true_iff in HK as [HK _]; now apply Nat.ltb_lt in HK).
      destruct (Nat.ltb_spec r K) as [Hr|Hr].
      2:{ rewrite nth_overflow; [exact I|]. now rewrite map_length, seq_length. }
      rewrite nth_map_seq by assumption. unfold okrow.
      destruct ((r <=? 1) <|> any (fun p => Nat.eqb r (snd p)) cl); [|exact I].
      destruct ts as [|it ts].
      - simpl in Hv. apply fold_ok_classes with (c := 0); [now rewrite lefts_len, map_length, seq_length| |now apply lefts_end].
        rewrite nth_map_seq by lia. exact Hv.
      - simpl in Hv. apply andb_true_iff in Hv as [Hv1 Hv2]. apply andb_true_iff in Hv1 as [Hg Ho].
        pose proof (lc_K HK it Hg) as Hl.
        apply fold_ok_classes with (c := lc it); [now rewrite lefts_len, map_length, seq_length| |now apply lefts_item].
        rewrite nth_map_seq by exact Hl. exact Ho.
    Qed.

    Lemma ctx_tbl_ok : classes_ok = true -> forall D k, tbl_ok (ctx_tbl okrows D k).
    Proof.
      intros HK D. induction k as [|k IH]; [|now apply ctx_step_ok].
      intros r ts _. simpl. now destruct r.
    Qed.
  End Table.
End Lang.
