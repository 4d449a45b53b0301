(** * Texts that lack certain characters, and programs that treat the two sides of a separator apart on them
    (for property C38, see LineByLine.v).

    Proof machinery; no code of /repo is modelled here. *)
From Coq Require Import List NArith ZArith Bool Lia.
From Verif Require Import PyStr StrFacts UnicodeTables Regex Unicode Prog AbsRegex NormCut ReLits SafeFacts Marks Keeps Apart Convert.
Import ListNotations.
Local Open Scope N_scope.

(** ** Texts that lack certain characters *)
(** Neither the character nor its canonical decomposition has a character of [L]. *)
Definition okc (L : list N) (c : N) : bool := negb (memN c L) && forallb (fun d => negb (memN d L)) (decomp c).
Definition clean (L : list N) (s : str) : Prop := Forall (fun c => okc L c = true) s.
Lemma okc_nil : forall c, okc [] c = true.
Proof. intros c. unfold okc. cbn [memN any negb andb]. apply forallb_forall. reflexivity. Qed.
Lemma clean_nil : forall s, clean [] s.
Proof. intros s. apply Forall_forall. intros c _. apply okc_nil. Qed.

(** *** The check that lower-casing and normalisation produce no such character *)
Definition impl_ok (L : list N) (c : N) (l : str) : bool := if okc L c then forallb (okc L) l else true.
Definition jamo (c : N) : bool := ((0x1100 <=? c) && (c <=? 0x11FF)) || ((0xAC00 <=? c) && (c <=? 0xD7A3)).
Definition closed (L : list N) : bool :=
  forallb (fun c => negb (jamo c)) L
  && forallb (fun p => impl_ok L (fst p) (snd p)) lower_table
  && forallb (fun p => impl_ok L (fst p) (snd p)) decomp_table
  && forallb (fun p => if okc L (fst p) then forallb (fun q => okc L (snd q)) (snd p) else true) comp_table.
Lemma jamo_table : forallb (fun p => negb ((0x1100 <=? fst p) && (fst p <=? 0x11FF))) decomp_table = true.
Proof. vm_compute. reflexivity. Qed.

Lemma hangul_bounds : forall d, (0xAC00 <=? d) && (d <=? 0xD7A3) = true -> forall c, In c (decomp d) -> 0x1100 <= c <= 0x11FF.
Proof.
  intros d R c H. unfold decomp in H. rewrite R in H. apply andb_true_iff in R as [R1 R2]. apply N.leb_le in R1, R2. cbv zeta in H.
  assert (Q1 : (d - 44032) / 588 < 20) by (apply N.div_lt_upper_bound; lia).
  assert (Q2 : ((d - 44032) mod 588) / 28 < 21).
  { apply N.div_lt_upper_bound; [lia|]. pose proof (N.mod_upper_bound (d - 44032) 588). lia. }
  assert (Q3 : (d - 44032) mod 28 < 28) by (apply N.mod_upper_bound; lia).
  revert H. generalize dependent ((d - 44032) / 588). generalize dependent (((d - 44032) mod 588) / 28).
  generalize dependent ((d - 44032) mod 28). intros a Qa b Qb e Qe H.
  destruct (4519 + a =? 4519); cbn [In] in H; lia.
Qed.
Lemma jamo_self : forall c, 0x1100 <= c <= 0x11FF -> decomp c = [c].
Proof.
  intros c H. unfold decomp. replace ((0xAC00 <=? c) && (c <=? 0xD7A3)) with false.
  - rewrite decomp_trie_eq. destruct (tfind c (tbuild decomp_table)) as [l|] eqn:E; [|reflexivity]. exfalso. apply tfind_In in E.
    pose proof jamo_table as Q. rewrite forallb_forall in Q. specialize (Q _ E). cbn [fst] in Q. apply negb_true_iff in Q.
    apply andb_false_iff in Q as [Q|Q]; apply N.leb_gt in Q; lia.
  - symmetry. apply andb_false_iff. left. apply N.leb_gt. lia.
Qed.

Section Lacking.
Variable L : list N.
Lemma jamo_ok : forallb (fun c => negb (jamo c)) L = true -> forall c, jamo c = true -> okc L c = true.
Proof.
  intros HL c Hc. assert (Out : forall d, jamo d = true -> memN d L = false).
  { intros d Hd. destruct (memN d L) eqn:E; [|reflexivity]. exfalso. apply memN_In in E. rewrite forallb_forall in HL. specialize (HL d E). rewrite Hd in HL. discriminate. }
  unfold okc. rewrite (Out c Hc). cbn [negb andb]. apply forallb_forall. intros d Hd. rewrite Out; [reflexivity|].
  unfold jamo in Hc. apply orb_true_iff in Hc as [Hc|Hc].
  - apply andb_true_iff in Hc as [A B]. apply N.leb_le in A, B. rewrite (jamo_self c (conj A B)) in Hd. destruct Hd as [<-|[]].
    unfold jamo. apply orb_true_iff. left. apply andb_true_iff. split; now apply N.leb_le.
  - pose proof (hangul_bounds c Hc d Hd) as [A B]. unfold jamo. apply orb_true_iff. left. apply andb_true_iff. split; now apply N.leb_le.
Qed.
Hypothesis HL : closed L = true.
Lemma lower_clean : forall s, clean L s -> clean L (py_lower s).
Proof.
  intros s H. unfold closed in HL. bools. unfold py_lower. apply Forall_flat_map. unfold clean in H. rewrite Forall_forall in *. intros c Hc. specialize (H c Hc).
  rewrite lower_trie_eq. destruct (tfind c (tbuild lower_table)) as [l|] eqn:E; [|now constructor].
  apply tfind_In in E. match goal with Q : forallb _ lower_table = true |- _ => rewrite forallb_forall in Q; specialize (Q _ E) end.
  unfold impl_ok in *. cbn [fst snd] in *. rewrite H in *. apply Forall_forall. now apply forallb_forall.
Qed.
Lemma decomp_clean : forall c, okc L c = true -> clean L (decomp c).
Proof.
  intros c H. unfold closed in HL. bools. destruct ((0xAC00 <=? c) && (c <=? 0xD7A3)) eqn:R.
  - apply Forall_forall. intros d Hd. apply jamo_ok; [assumption|]. pose proof (hangul_bounds c R d Hd) as [A B]. unfold jamo. apply orb_true_iff. left.
    apply andb_true_iff. split; now apply N.leb_le.
  - unfold decomp. rewrite R, decomp_trie_eq. destruct (tfind c (tbuild decomp_table)) as [l|] eqn:E; [|now constructor].
    apply tfind_In in E. match goal with Q : forallb _ decomp_table = true |- _ => rewrite forallb_forall in Q; specialize (Q _ E) end.
    unfold impl_ok in *. cbn [fst snd] in *. rewrite H in *. apply Forall_forall. now apply forallb_forall.
Qed.
Lemma NFD_clean : forall s, clean L s -> clean L (normalize_NFD s).
Proof.
  intros s H. unfold normalize_NFD. apply Forall_forall. intros x Hx. apply reorder_In in Hx. apply in_flat_map in Hx as (c & Hc & Hx).
  unfold clean in H. rewrite Forall_forall in H. pose proof (decomp_clean c (H c Hc)) as Q. unfold clean in Q. rewrite Forall_forall in Q. now apply Q.
Qed.
Lemma compose2_clean : forall a b p, okc L a = true -> compose2 a b = Some p -> okc L p = true.
Proof.
  intros a b p Ha H. unfold closed in HL. bools. unfold compose2 in H.
  destruct ((0x1100 <=? a) && (a <=? 0x1112) && (0x1161 <=? b) && (b <=? 0x1175)) eqn:E1.
  { rewrite !andb_true_iff, !N.leb_le in E1. assert (Q : 0xAC00 + ((a - 0x1100) * 21 + (b - 0x1161)) * 28 = p) by congruence.
    apply jamo_ok; [assumption|]. clear - E1 Q. unfold jamo. apply orb_true_iff. right. apply andb_true_iff. split; apply N.leb_le; lia. }
  destruct ((0xAC00 <=? a) && (a <=? 0xD7A3) && (0x11A8 <=? b) && (b <=? 0x11C2)) eqn:E2.
  { rewrite !andb_true_iff, !N.leb_le in E2. destruct ((a - 0xAC00) mod 28 =? 0) eqn:M; [|discriminate]. apply N.eqb_eq in M.
    assert (Q : a + (b - 0x11A7) = p) by congruence. apply jamo_ok; [assumption|]. clear - E2 Q M. unfold jamo. apply orb_true_iff. right.
    pose proof (N.div_mod (a - 0xAC00) 28). assert ((a - 0xAC00) / 28 < 399) by (apply N.div_lt_upper_bound; lia).
    apply andb_true_iff. split; apply N.leb_le; lia. }
  rewrite comp_trie_eq in H. destruct (tfind a (tbuild comp_table)) as [l|] eqn:E; [|discriminate]. apply tfind_In in E.
  match goal with Q : forallb _ comp_table = true |- _ => rewrite forallb_forall in Q; specialize (Q _ E); cbn [fst snd] in Q; rewrite Ha, forallb_forall in Q; rename Q into Q0 end.
  apply assocN_In in H. exact (Q0 _ H).
Qed.
Lemma compose_clean : forall s st mid last, clean L s -> clean L mid -> (forall a, st = Some a -> okc L a = true) -> clean L (compose st mid last s).
Proof.
  assert (Fl : forall (st : option N) (mid : str), clean L mid -> (forall a, st = Some a -> okc L a = true) -> clean L (match st with Some a => a :: rev mid | None => rev mid end)).
  { intros [a|] mid Hm Ha; [constructor; [now apply Ha|]|]; now apply Forall_rev. }
  induction s as [|d s IH]; intros st mid last Hs Hm Ha; cbn [compose]; cbv zeta; [now apply Fl|]. inversion Hs as [|? ? Hd Ht]; subst.
  destruct (match st with Some a => if match mid with [] => false | _ => ccc d <=? last end then None else compose2 a d | None => None end)
    as [p|] eqn:E.
  - apply IH; [exact Ht|exact Hm|]. intros a [= <-]. destruct st as [a|]; [|discriminate].
    destruct (match mid with [] => false | _ => ccc d <=? last end); [discriminate|]. exact (compose2_clean a d p (Ha a eq_refl) E).
  - destruct (ccc d =? 0).
    + apply Forall_app. split; [now apply Fl|]. apply IH; [exact Ht|constructor|]. intros a [= <-]. exact Hd.
    + apply IH; [exact Ht|now constructor|exact Ha].
Qed.
Lemma NFC_clean : forall s, clean L s -> clean L (normalize_NFC s).
Proof. intros s H. unfold normalize_NFC. apply compose_clean; [now apply NFD_clean|constructor|discriminate]. Qed.
End Lacking.

(** ** Programs that produce no character of [L] *)
Definition nv (L : list N) (p : prog) : Prop := forall a x, clean L a -> run p a = Ok x -> clean L x.
(** The pattern needs a character of [L]. *)
Definition needs (L : list N) (p : str) : bool :=
  match compile p with None => true | Some (r, _) => existsb (existsb (fun c => negb (okc L c))) (factors r) end.
Definition titem_ok (L : list N) (i : titem) : bool := match i with TLit d => okc L d | TGroup _ => true end.
(** [cl]: whether lower-casing and normalisation were checked. *)
Fixpoint mint_op (cl : bool) (L : list N) (o : op) {struct o} : bool :=
  let fix go (p : list op) {struct p} : bool := match p with [] => true | o' :: p' => if mint_op cl L o' then go p' else false end in
  match o with
  | Replace x y => if existsb (fun c => negb (okc L c)) x then true else forallb (okc L) y
  | ReSub p t => match compile p with
      | None => true
      | Some (_, g) => match parse_template (S (length t)) g t with None => true | Some l => if forallb (titem_ok L) l then true else needs L p end
      end
  | Sub r l => forallb (titem_ok L) l
  | IfIn x p q => (if existsb (fun c => negb (okc L c)) x then true else go p) && go q
  | Append t | Prepend t => forallb (okc L) t
  | Lower | Norm _ => cl
  | Try h p => go p
  | EvenParts _ _ | Map _ | Fn _ => false
  | Raise _ => true
  end.
Fixpoint mint (cl : bool) (L : list N) (p : prog) {struct p} : bool :=
  match p with [] => true | o' :: p' => if mint_op cl L o' then mint cl L p' else false end.
Lemma nv_empty : forall p, nv [] p.
Proof. intros p a x _ _. apply clean_nil. Qed.
Section Minting.
Variable cl : bool.
Variable L : list N.
Hypothesis HL : cl = true -> closed L = true.
Lemma nv_nil : nv L [].
Proof. intros a x H E. cbn [run] in E. congruence. Qed.
Lemma nv_app : forall p q, nv L p -> nv L q -> nv L (p ++ q).
Proof.
  intros p q Hp Hq a x H E. rewrite run_app in E. destruct (run p a) as [z|] eqn:R; [|discriminate]. cbn [rbind] in E. exact (Hq z x (Hp a z H R) E).
Qed.
Lemma nv_cons : forall o p, nv L [o] -> nv L p -> nv L (o :: p).
Proof. intros o p. exact (nv_app [o] p). Qed.
Lemma nv_one : forall o, (forall a x, clean L a -> run_op o a = Ok x -> clean L x) -> nv L [o].
Proof. intros o H a x Ha E. cbn [run] in E. destruct (run_op o a) as [z|] eqn:R; [|discriminate]. assert (z = x) as -> by congruence. exact (H a x Ha R). Qed.
Lemma ok_all : forall y, forallb (okc L) y = true -> clean L y.
Proof. intros y H. apply Forall_forall. now apply forallb_forall. Qed.
Lemma clean_lacks : forall x s, existsb (fun c => negb (okc L c)) x = true -> clean L s -> contains x s = false.
Proof.
  intros x s H Hs. destruct (contains x s) eqn:E; [|reflexivity]. exfalso. apply contains_spec in E as (a & b & ->).
  apply existsb_exists in H as (c & Hc & N). unfold clean in Hs. rewrite Forall_forall in Hs.
  rewrite (Hs c) in N; [discriminate|]. apply in_or_app. right. apply in_or_app. now left.
Qed.
Lemma template_clean : forall (r : re) l s, forallb (titem_ok L) l = true -> clean L s -> clean L (sub r l s).
Proof.
  intros r l s H Hs. apply sub_good; [|exact Hs]. intros c Hc. rewrite forallb_forall in H. exact (H _ Hc).
Qed.
Lemma needs_idle : forall p t s x, needs L p = true -> clean L s -> re_sub p t s = Ok x -> x = s.
Proof.
  intros p t s x H Hs E. unfold needs in H. unfold re_sub in E. destruct (compile p) as [[r g]|]; [|discriminate].
  destruct (parse_template (S (length t)) g t) as [l|]; [|discriminate]. apply existsb_exists in H as (z & Hz & X).
  assert (Q : sub r l s = s) by (unfold sub, sub_with; apply (sub_factor r _ z Hz); exact (clean_lacks z s X Hs)). congruence.
Qed.
Lemma nv_op : forall o, mint_op cl L o = true -> nv L [o].
Proof.
  assert (G : forall p, Forall (fun o => mint_op cl L o = true -> nv L [o]) p -> mint cl L p = true -> nv L p).
  { induction 1 as [|o p Ho _ IH]; intros H; [apply nv_nil|]. cbn [mint] in H. destruct (mint_op cl L o) eqn:E; [|discriminate].
    apply nv_cons; [now apply Ho|now apply IH]. }
  assert (Go : forall p, (fix go (p : list op) : bool := match p with [] => true | o' :: p' => if mint_op cl L o' then go p' else false end) p = mint cl L p).
  { induction p as [|o p IH]; [reflexivity|]. cbn [mint]. destruct (mint_op cl L o); [exact IH|reflexivity]. }
  induction o as [x y|p t|x p q Hp Hq|t|t| |c|h p Hp|sep p Hp|r t|f|f|e] using op_ind'; intros H; cbn [mint_op] in H.
  - apply nv_one. intros a z Ha E. cbn [run_op] in E. assert (z = replace x y a) as -> by congruence.
    destruct (existsb (fun c => negb (okc L c)) x) eqn:X; [rewrite replace_none; [exact Ha|now apply clean_lacks]|].
    apply replace_good; [|exact Ha]. intros c Hc. left. rewrite forallb_forall in H. now apply H.
  - apply nv_one. intros a z Ha E. cbn [run_op] in E. pose proof (fun N => needs_idle p t a z N Ha E) as I. unfold re_sub in E. destruct (compile p) as [[r g]|]; [|discriminate].
    destruct (parse_template (S (length t)) g t) as [l|]; [|discriminate]. destruct (forallb (titem_ok L) l) eqn:F; [|now rewrite (I H)].
    assert (z = sub r l a) as -> by congruence. now apply template_clean.
  - rewrite !Go in H. apply andb_true_iff in H as [H1 H2]. apply nv_one. intros a z Ha E. rewrite run_op_IfIn in E.
    destruct (existsb (fun c => negb (okc L c)) x) eqn:X.
    + rewrite (clean_lacks x a X Ha) in E. exact (G q Hq H2 a z Ha E).
    + destruct (contains x a); [exact (G p Hp H1 a z Ha E)|exact (G q Hq H2 a z Ha E)].
  - apply nv_one. intros a z Ha E. cbn [run_op] in E. assert (z = a ++ t) as -> by congruence. apply Forall_app. split; [exact Ha|now apply ok_all].
  - apply nv_one. intros a z Ha E. cbn [run_op] in E. assert (z = t ++ a) as -> by congruence. apply Forall_app. split; [now apply ok_all|exact Ha].
  - apply nv_one. intros a z Ha E. cbn [run_op] in E. assert (z = py_lower a) as -> by congruence. apply lower_clean; auto.
  - apply nv_one. intros a z Ha E. cbn [run_op] in E. destruct c.
    + assert (z = normalize_NFC a) as -> by congruence. apply NFC_clean; auto.
    + assert (z = normalize_NFD a) as -> by congruence. apply NFD_clean; auto.
  - rewrite Go in H. apply nv_one. intros a z Ha E. rewrite run_op_Try in E. destruct (run p a) as [v|e] eqn:R.
    + assert (v = z) as -> by congruence. exact (G p Hp H a z Ha R).
    + destruct (h e); [|discriminate]. assert (z = a) as -> by congruence. exact Ha.
  - discriminate.
  - apply nv_one. intros a z Ha E. cbn [run_op] in E. assert (z = sub r t a) as -> by congruence. now apply template_clean.
  - discriminate.
  - discriminate.
  - intros a x _ E. discriminate.
Qed.
Theorem nv_check : forall p, mint cl L p = true -> nv L p.
Proof.
  induction p as [|o p IH]; intros H; [apply nv_nil|]. cbn [mint] in H. destruct (mint_op cl L o) eqn:E; [|discriminate].
  apply nv_cons; [now apply nv_op|now apply IH].
Qed.
Lemma nv_foreach : forall (X : Type) (l : list X) f, (forall x, In x l -> nv L (f x)) -> nv L (foreach l f).
Proof.
  intros X l f H. unfold foreach. induction l as [|x l IH]; cbn [flat_map]; [apply nv_nil|].
  apply nv_app; [apply H; now left|apply IH; intros y Hy; apply H; now right].
Qed.
Lemma nv_if : forall (b : bool) p q, nv L p -> nv L q -> nv L (if b then p else q).
Proof. intros [|]; auto. Qed.
End Minting.

(** ** Programs that treat the two sides apart, on texts that lack [L] *)
Definition apt (w : N) (L : list N) (p : prog) : Prop :=
  forall a b x y, clean L a -> clean L b -> run p a = Ok x -> run p b = Ok y -> run p (a ++ w :: b) = Ok (x ++ w :: y).
Lemma apt_of : forall w L p, parted w p -> apt w L p.
Proof. intros w L p H a b x y _ _. apply H. Qed.
Lemma apt_empty : forall w p, apt w [] p -> parted w p.
Proof. intros w p H a b x y. apply H; apply clean_nil. Qed.
Lemma apt_app : forall w L p q, apt w L p -> nv L p -> apt w L q -> apt w L (p ++ q).
Proof.
  intros w L p q Hp Np Hq a b x y Ca Cb Ha Hb. rewrite run_app in *. destruct (run p a) as [a'|] eqn:Ea; [|discriminate]. destruct (run p b) as [b'|] eqn:Eb; [|discriminate].
  cbn [rbind] in *. rewrite (Hp a b a' b' Ca Cb Ea Eb). cbn [rbind]. apply Hq; try assumption; [exact (Np a a' Ca Ea)|exact (Np b b' Cb Eb)].
Qed.
Lemma apt_then : forall w L p q, apt w L p -> parted w q -> apt w L (p ++ q).
Proof.
  intros w L p q Hp Hq a b x y Ca Cb Ha Hb. rewrite run_app in *. destruct (run p a) as [a'|] eqn:Ea; [|discriminate]. destruct (run p b) as [b'|] eqn:Eb; [|discriminate].
  cbn [rbind] in *. rewrite (Hp a b a' b' Ca Cb Ea Eb). cbn [rbind]. now apply Hq.
Qed.
Lemma apt_if : forall w L (b : bool) p q, apt w L p -> apt w L q -> apt w L (if b then p else q).
Proof. intros w L [|]; auto. Qed.
Lemma apt_withS : forall w L (X : Type) (r : res X) f, (forall a, r = Ok a -> apt w L (f a)) -> apt w L (withS r f).
Proof. intros w L X [a|e] f H; [now apply H|]. apply apt_of. exact (parted_raise w e []). Qed.
Lemma apt_dead : forall w L x p q, okc L w = true -> existsb (fun c => negb (okc L c)) x = true -> apt w L q -> apt w L [IfIn x p q].
Proof.
  intros w L x p q Hw X Hq a b u v Ca Cb Ha Hb. cbn [run] in *. rewrite run_op_IfIn in *. rewrite (clean_lacks L x a X Ca) in Ha. rewrite (clean_lacks L x b X Cb) in Hb.
  rewrite (clean_lacks L x (a ++ w :: b) X); [|apply Forall_app; split; [exact Ca|now constructor]].
  assert (One : forall s r, match run q s with Ok s' => run [] s' | Err e => Err e end = Ok r -> run q s = Ok r) by (intros s r; destruct (run q s); auto).
  rewrite (Hq a b u v Ca Cb (One a u Ha) (One b v Hb)). reflexivity.
Qed.
Lemma apt_lit : forall w L p t, okc L w = true -> needs L p = true -> apt w L [ReSub p t] /\ nv L [ReSub p t].
Proof.
  intros w L p t Hw H.
  assert (I : forall s x, clean L s -> run [ReSub p t] s = Ok x -> x = s).
  { intros s x Hs E. cbn [run run_op] in E. apply (needs_idle L p t s x H Hs). destruct (re_sub p t s); [exact E|discriminate]. }
  split; [|intros a x Ca E; now rewrite (I a x Ca E)].
  intros a b x y Ca Cb Ha Hb. rewrite (I a x Ca Ha), (I b y Cb Hb).
  assert (Cw : clean L (a ++ w :: b)) by (apply Forall_app; split; [exact Ca|now constructor]).
  destruct (run [ReSub p t] (a ++ w :: b)) as [z|e] eqn:E; [now rewrite (I _ z Cw E)|]. exfalso.
  cbn [run run_op] in E, Ha. unfold re_sub in E, Ha. destruct (compile p) as [[r g]|]; [|discriminate].
  destruct (parse_template (S (length t)) g t) as [l|]; discriminate.
Qed.

(** *** The combined check *)
(** [IfIn x p [IfIn y p []]] does the same as [p] if [p] only replaces texts that have [x] or [y]. *)
Fixpoint same_reps (p q : prog) : bool :=
  match p, q with
  | [], [] => true
  | Replace x y :: p, Replace x' y' :: q => str_eqb x x' && str_eqb y y' && same_reps p q
  | _, _ => false
  end.
Fixpoint only_with (x y : str) (p : prog) : bool :=
  match p with [] => true | Replace u _ :: p => negb (str_eqb u []) && (contains x u || contains y u) && only_with x y p | _ => false end.
Lemma same_reps_eq : forall p q, same_reps p q = true -> p = q.
Proof.
  induction p as [|o p IH]; intros [|o' q] H; try discriminate; try reflexivity; destruct o; try discriminate; cbn [same_reps] in H; destruct o'; try discriminate.
  bools. match goal with A : str_eqb _ _ = true, B : str_eqb _ _ = true |- _ => apply str_eqb_eq in A, B; subst end. f_equal. now apply IH.
Qed.
Lemma contains_trans : forall x u s, contains x u = true -> contains u s = true -> contains x s = true.
Proof.
  intros x u s H G. apply contains_spec in H as (a & b & ->). apply contains_spec in G as (c & d & ->). apply contains_spec.
  exists (c ++ a), (b ++ d). now rewrite <- !app_assoc.
Qed.
Lemma replace_lacking : forall x y s, x <> [] -> contains x s = false -> replace x y s = s.
Proof.
  intros x y s N H. unfold replace. destruct x as [|c x]; [congruence|]. revert H. generalize (c :: x) as z. clear. intros z.
  induction s as [|d s IH]; intros H; [reflexivity|]. cbn [replace_go]. destruct (prefixb z (d :: s)) eqn:E.
  - exfalso. apply prefixb_spec in E as (t & E). assert (Q : contains z (d :: s) = true) by (apply contains_spec; exists [], t; exact E). congruence.
  - f_equal. apply IH. destruct (contains z s) eqn:C; [|reflexivity]. exfalso. apply contains_spec in C as (a & b & ->).
    assert (Q : contains z (d :: a ++ z ++ b) = true) by (apply contains_spec; now exists (d :: a), b). congruence.
Qed.
Lemma only_with_idle : forall x y p s, only_with x y p = true -> contains x s = false -> contains y s = false -> run p s = Ok s.
Proof.
  intros x y p s. induction p as [|o p IH]; intros H Hx Hy; [reflexivity|]. destruct o as [u v| | | | | | | | | | | | ]; try discriminate. cbn [only_with] in H. bools.
  cbn [run run_op]. rewrite replace_lacking; [now apply IH|match goal with Q : negb (str_eqb _ _) = true |- _ => apply negb_true_iff, str_eqb_neq in Q; exact Q end|].
  destruct (contains u s) eqn:C; [exfalso|reflexivity]. match goal with Q : _ || _ = true |- _ => apply orb_true_iff in Q as [Q|Q] end.
  - rewrite (contains_trans x u s ltac:(assumption) C) in Hx. discriminate.
  - rewrite (contains_trans y u s ltac:(assumption) C) in Hy. discriminate.
Qed.

Section Checked.
Variable g : guard.
Variable cl : bool.
Variable L : list N.
(** The dead branch of an [IfIn] is left out, the arrows are dissolved. *)
Definition apt_op (o : op) : bool :=
  match o with
  | IfIn x p q =>
      if existsb (fun c => negb (okc L c)) x then parts g q && mint cl L q
      else match q with
           | [IfIn y p' []] => same_reps p p' && only_with x y p && parts g p && mint cl L p
           | _ => false
           end
  | ReSub p t => if parts_op g o && mint_op cl L o then true else needs L p
  | _ => parts_op g o && mint_op cl L o
  end.
Definition apts (p : prog) : bool := forallb apt_op p.
Hypothesis Hg : sound g.
Variable w : N.
Hypothesis Hw : hush g w = false.
Hypothesis Iw : inert w.
Hypothesis HL : cl = true -> closed L = true.
Hypothesis Lw : okc L w = true.
Lemma apt_op_sound : forall o, apt_op o = true -> apt w L [o] /\ nv L [o].
Proof.
  intros o. assert (D : parts_op g o && mint_op cl L o = true -> apt w L [o] /\ nv L [o]).
  { intros H. apply andb_true_iff in H as [H1 H2]. split; [apply apt_of; now apply (parted_op g Hg w Hw Iw)|now apply (nv_op cl L HL)]. }
  destruct o as [x y|p t|x p q|t|t| |c|h p|sep p|r t|f|f|e]; try exact D; cbn [apt_op].
  { intros H. destruct (parts_op g (ReSub p t) && mint_op cl L (ReSub p t)); [now apply D|now apply apt_lit]. }
  clear D. destruct (existsb (fun c => negb (okc L c)) x) eqn:X.
  - intros H. apply andb_true_iff in H as [H1 H2]. split; [apply apt_dead; [exact Lw|exact X|]; apply apt_of; now apply (parted_check g Hg w Hw Iw)|].
    intros a z Ha E. cbn [run] in E. rewrite run_op_IfIn, (clean_lacks L x a X Ha) in E. apply (nv_check cl L HL q H2 a z Ha). destruct (run q a); [exact E|discriminate].
  - destruct q as [|o [|]]; try discriminate; destruct o as [| |y p' [|]| | | | | | | | | | ]; try discriminate. intros H. bools.
    match goal with Q : same_reps p p' = true |- _ => apply same_reps_eq in Q; subst p' end.
    assert (R : forall s, run [IfIn x p [IfIn y p []]] s = run p s).
    { intros s. cbn [run]. rewrite run_op_IfIn. destruct (contains x s) eqn:Cx; [now destruct (run p s)|]. cbn [run]. rewrite run_op_IfIn.
      destruct (contains y s) eqn:Cy; [now destruct (run p s)|]. cbn [run]. symmetry. now apply (only_with_idle x y). }
    split; [apply apt_of; apply (parted_same w _ _ R); now apply (parted_check g Hg w Hw Iw)|].
    intros a z Ha E. rewrite R in E. exact (nv_check cl L HL p ltac:(assumption) a z Ha E).
Qed.
Theorem apts_sound : forall p, apts p = true -> apt w L p /\ nv L p.
Proof.
  induction p as [|o p IH]; intros H; [split; [apply apt_of; apply parted_nil|apply nv_nil]|]. cbn [apts forallb] in H. apply andb_true_iff in H as [H1 H2].
  destruct (apt_op_sound o H1) as [A N]. destruct (IH H2) as [A' N']. split; [exact (apt_app w L [o] p A N A')|exact (nv_cons L o p N N')].
Qed.
End Checked.

(** ** Programs that treat the two sides apart, for pairs of texts in a relation *)
Definition rel : Type := str -> str -> Prop.
Definition aptq (w : N) (Q : rel) (p : prog) : Prop :=
  forall a b x y, Q a b -> run p a = Ok x -> run p b = Ok y -> run p (a ++ w :: b) = Ok (x ++ w :: y).
Definition nvq (Q : rel) (p : prog) : Prop := forall a b x y, Q a b -> run p a = Ok x -> run p b = Ok y -> Q x y.
(** The relation of texts that lack certain characters. *)
Definition lacks (L : list N) : rel := fun a b => clean L a /\ clean L b.
Lemma aptq_lacks : forall w L p, apt w L p -> aptq w (lacks L) p.
Proof. intros w L p H a b x y [Ca Cb]. now apply H. Qed.
Lemma nvq_lacks : forall L p, nv L p -> nvq (lacks L) p.
Proof. intros L p H a b x y [Ca Cb] Ea Eb. split; [exact (H a x Ca Ea)|exact (H b y Cb Eb)]. Qed.
Lemma lacks_nil : forall a b, lacks [] a b.
Proof. intros a b. split; apply clean_nil. Qed.
Lemma aptq_nil : forall w p, aptq w (lacks []) p -> parted w p.
Proof. intros w p H a b x y. apply H. apply lacks_nil. Qed.
Lemma nvq_empty : forall p, nvq (lacks []) p.
Proof. intros p a b x y _ _ _. apply lacks_nil. Qed.
Section Related.
Variable w : N.
Variable Q : rel.
Lemma aptq_of : forall p, parted w p -> aptq w Q p.
Proof. intros p H a b x y _. apply H. Qed.
Lemma aptq_app : forall p q, aptq w Q p -> nvq Q p -> aptq w Q q -> aptq w Q (p ++ q).
Proof.
  intros p q Hp Np Hq a b x y Hab Ha Hb. rewrite run_app in *. destruct (run p a) as [a'|] eqn:Ea; [|discriminate]. destruct (run p b) as [b'|] eqn:Eb; [|discriminate].
  cbn [rbind] in *. rewrite (Hp a b a' b' Hab Ea Eb). cbn [rbind]. apply Hq; try assumption. exact (Np a b a' b' Hab Ea Eb).
Qed.
Lemma aptq_then : forall p q, aptq w Q p -> parted w q -> aptq w Q (p ++ q).
Proof.
  intros p q Hp Hq a b x y Hab Ha Hb. rewrite run_app in *. destruct (run p a) as [a'|] eqn:Ea; [|discriminate]. destruct (run p b) as [b'|] eqn:Eb; [|discriminate].
  cbn [rbind] in *. rewrite (Hp a b a' b' Hab Ea Eb). cbn [rbind]. now apply Hq.
Qed.
Lemma aptq_if : forall (b : bool) p q, aptq w Q p -> aptq w Q q -> aptq w Q (if b then p else q).
Proof. intros [|]; auto. Qed.
Lemma aptq_withS : forall (X : Type) (r : res X) f, (forall a, r = Ok a -> aptq w Q (f a)) -> aptq w Q (withS r f).
Proof. intros X [a|e] f H; [now apply H|]. apply aptq_of. exact (parted_raise w e []). Qed.
Lemma aptq_dead : forall x p q, (forall a b, Q a b -> contains x a = false /\ contains x b = false /\ contains x (a ++ w :: b) = false) ->
  aptq w Q q -> aptq w Q [IfIn x p q].
Proof.
  intros x p q X Hq a b u v Hab Ha Hb. destruct (X a b Hab) as (X1 & X2 & X3). cbn [run] in *. rewrite run_op_IfIn in *. rewrite X1 in Ha. rewrite X2 in Hb. rewrite X3.
  assert (One : forall s r, match run q s with Ok s' => run [] s' | Err e => Err e end = Ok r -> run q s = Ok r) by (intros s r; destruct (run q s); auto).
  rewrite (Hq a b u v Hab (One a u Ha) (One b v Hb)). reflexivity.
Qed.
Lemma nvq_nil : nvq Q [].
Proof. intros a b x y H Ea Eb. cbn [run] in *. congruence. Qed.
Lemma nvq_app : forall p q, nvq Q p -> nvq Q q -> nvq Q (p ++ q).
Proof.
  intros p q Hp Hq a b x y Hab Ha Hb. rewrite run_app in *. destruct (run p a) as [a'|] eqn:Ea; [|discriminate]. destruct (run p b) as [b'|] eqn:Eb; [|discriminate].
  cbn [rbind] in *. exact (Hq a' b' x y (Hp a b a' b' Hab Ea Eb) Ha Hb).
Qed.
Lemma nvq_foreach : forall (X : Type) (l : list X) f, (forall x, In x l -> nvq Q (f x)) -> nvq Q (foreach l f).
Proof.
  intros X l f H. unfold foreach. induction l as [|x l IH]; cbn [flat_map]; [apply nvq_nil|].
  apply nvq_app; [apply H; now left|apply IH; intros y Hy; apply H; now right].
Qed.
End Related.
