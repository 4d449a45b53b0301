(** * Texts whose words next to the line break lack a letter of om (for property C38, see LineByLine.v).

    Proof machinery; no code of /repo is modelled here. *)
From Coq Require Import List NArith ZArith Bool Lia Arith.
From Verif Require Import PyStr StrFacts UnicodeTables Regex Unicode Prog AbsRegex NormCut ReLits SafeFacts Marks Keeps GMLists GeneralMap Convert
  MarkFacts KeepFacts Foreign LineFacts Apart ApartFacts ApartConv ApartMain OmEdges.
Import ListNotations.
Local Open Scope N_scope.

(** ** The check of the patterns and templates for om *)
Definition side_re (h other : re) (f : option nat) : bool :=
  match f, h with
  | None, RBeg => match other with RBeg => true | _ => false end
  | None, REndLine => match other with REndLine => true | _ => false end
  | Some n, RGroup k p => piece p && Nat.eqb n k && negb (Nat.eqb k 0)
  | _, _ => false
  end.
Definition om_re (L : list N) (p : str) (g : nat) (f b : option nat) : bool :=
  match compile p with
  | Some (r, g') => Nat.eqb g' g && flat r && match parse_om r with
      | Some (h, om, l) => side_re h RBeg f && side_re l REndLine b && distinct h l && om_word L om
      | None => false
      end
  | None => false
  end.
Definition first_item (f : option nat) (t : list titem) : bool :=
  match f, t with None, _ => true | Some n, TGroup k :: _ => Nat.eqb n k | _, _ => false end.
Definition om_t (t : str) (g : nat) (f b : option nat) : bool :=
  match parse_template (S (length t)) g t with Some l => first_item f l && first_item b (rev l) | None => false end.
Definition om_res (L : list N) (punc sOm : str) : bool :=
  om_re L (punc ++ sOm ++ punc) 2 (Some 1%nat) (Some 2%nat) && om_re L ("^"%u ++ sOm ++ punc) 1 None (Some 1%nat)
  && om_re L (punc ++ sOm ++ "$"%u) 1 (Some 1%nat) None && om_re L ("^"%u ++ sOm ++ "$"%u) 0 None None.
Definition om_ts (tOm : str) : bool :=
  om_t ("\1"%u ++ tOm ++ "\2"%u) 2 (Some 1%nat) (Some 2%nat) && om_t (tOm ++ "\1"%u) 1 None (Some 1%nat)
  && om_t ("\1"%u ++ tOm) 1 (Some 1%nat) None && om_t tOm 0 None None.
Definition om_source_i (L : list N) (S : str) : bool :=
  match CrunchSymbols GM_Signs S, first_of "OmMap"%u S with
  | Ok signs, Ok sOm => negb (Nat.eqb (length sOm) 1) && om_res L (om_punc signs) sOm
  | _, _ => false
  end.
Definition om_source_l (L : list N) (S : str) : bool :=
  match CrunchSymbols GM_Signs S, first_of "OmMap"%u S with
  | Ok signs, Ok sOm => om_res L (om_punc signs) sOm && om_res L "(\s)"%u sOm
  | _, _ => false
  end.
Definition om_target (T : str) : bool := match first_of "OmMap"%u T with Ok tOm => om_ts tOm | Err _ => true end.

(** ** Programs that fail for no text or for every text *)
Definition decided (L : list N) (p : prog) : Prop := (forall s, clean L s -> exists r, run p s = Ok r) \/ (forall s, clean L s -> exists e, run p s = Err e).
Lemma decided_weak : forall L p, decided [] p -> decided L p.
Proof. intros L p [H|H]; [left|right]; intros s _; apply H; apply clean_nil. Qed.
Lemma decided_nil : forall L, decided L [].
Proof. intros L. left. intros s _. now exists s. Qed.
Lemma decided_app : forall L p q, decided L p -> nv L p -> decided L q -> decided L (p ++ q).
Proof.
  intros L p q [H|H] N Q.
  - destruct Q as [Q|Q]; [left|right]; intros s Hs; rewrite run_app; destruct (H s Hs) as [r E]; rewrite E; cbn [rbind]; apply Q; exact (N s r Hs E).
  - right. intros s Hs. rewrite run_app. destruct (H s Hs) as [e E]. rewrite E. cbn [rbind]. now exists e.
Qed.
Lemma decided_cons : forall L o p, decided L [o] -> nv L [o] -> decided L p -> decided L (o :: p).
Proof. intros L o p. exact (decided_app L [o] p). Qed.
Lemma decided_fun : forall L o f, (forall s, run_op o s = Ok (f s)) -> decided L [o].
Proof. intros L o f H. left. intros s _. cbn [run]. rewrite H. now exists (f s). Qed.
Lemma decided_sub : forall L p t, decided L [ReSub p t].
Proof.
  intros L p t. destruct (compile p) as [[r k]|] eqn:C; [|right; intros s _; exists ReError; cbn [run run_op]; unfold re_sub; now rewrite C].
  destruct (parse_template (S (length t)) k t) as [l|] eqn:E.
  - apply (decided_fun _ _ (sub r l)). intros s. cbn [run_op]. unfold re_sub. now rewrite C, E.
  - right. intros s _. exists ReError. cbn [run run_op]. unfold re_sub. now rewrite C, E.
Qed.
Lemma decided_op : forall g o, parts_op g o = true -> decided [] [o].
Proof.
  intros g o H. destruct o as [x y|p t|x p q|t|t| |c|h p|sep p|r t|f|f|e]; try discriminate H.
  - now apply (decided_fun _ _ (replace x y)).
  - apply decided_sub.
  - now apply (decided_fun _ _ py_lower).
  - now apply (decided_fun _ _ (fun s => if c then normalize_NFC s else normalize_NFD s)).
  - assert (D : (exists e, p = [Raise e]) \/ sure p = true).
    { cbn [parts_op] in H. destruct (sure p); [now right|]. left. destruct p as [|[] [|]]; try discriminate. eexists; reflexivity. }
    destruct D as [[e ->] | D].
    + destruct (h e) eqn:E; [left|right]; intros s _; cbn [run]; rewrite run_op_Try; cbn [run run_op]; rewrite E; eexists; reflexivity.
    + left. intros s _. cbn [run]. rewrite run_op_Try. destruct (sure_sound p D s) as [r E]. rewrite E. now exists r.
  - now apply (decided_fun _ _ (sub r t)).
  - right. intros s _. exists e. reflexivity.
Qed.
Lemma decided_check : forall g p, parts g p = true -> decided [] p.
Proof.
  intros g. induction p as [|o p IH]; intros H; [apply decided_nil|]. cbn [parts] in H. destruct (parts_op g o) eqn:E; [|discriminate].
  apply decided_cons; [now apply (decided_op g)|apply nv_empty|now apply IH].
Qed.
Lemma decided_same : forall L p q, (forall s, clean L s -> run p s = run q s) -> decided L q -> decided L p.
Proof. intros L p q E [H|H]; [left|right]; intros s Hs; rewrite E by exact Hs; now apply H. Qed.
Lemma decided_apts : forall g cl L, (cl = true -> closed L = true) -> forall p, apts g cl L p = true -> nv L p /\ decided L p.
Proof.
  intros g cl L HL. assert (O : forall o, apt_op g cl L o = true -> nv L [o] /\ decided L [o]).
  { intros o. assert (D : parts_op g o && mint_op cl L o = true -> nv L [o] /\ decided L [o]).
    { intros H. apply andb_true_iff in H as [H1 H2]. split; [now apply (nv_op cl L HL)|apply decided_weak; now apply (decided_op g)]. }
    destruct o as [x y|p t|x p q|t|t| |c|h p|sep p|r t|f|f|e]; try exact D; cbn [apt_op].
    { intros H. destruct (parts_op g (ReSub p t) && mint_op cl L (ReSub p t)); [now apply D|]. split.
      - intros a z Ha E. cbn [run run_op] in E. assert (z = a) as ->; [|exact Ha]. apply (needs_idle L p t a z H Ha). destruct (re_sub p t a); [exact E|discriminate].
      - exact (decided_sub L p t). }
    clear D. destruct (existsb (fun c => negb (okc L c)) x) eqn:X.
    - intros H. apply andb_true_iff in H as [H1 H2].
      assert (R : forall s, clean L s -> run [IfIn x p q] s = run q s).
      { intros s Hs. cbn [run]. rewrite run_op_IfIn, (clean_lacks L x s X Hs). now destruct (run q s). }
      split; [intros a z Ha E; rewrite R in E by exact Ha; exact (nv_check cl L HL q H2 a z Ha E)|].
      apply (decided_same L _ q R). apply decided_weak. now apply (decided_check g).
    - destruct q as [|o [|]]; try discriminate; destruct o as [| |y p' [|]| | | | | | | | | | ]; try discriminate. intros H. bools.
      match goal with Q : same_reps p p' = true |- _ => apply same_reps_eq in Q; subst p' end.
      assert (R : forall s, run [IfIn x p [IfIn y p []]] s = run p s).
      { intros s. cbn [run]. rewrite run_op_IfIn. destruct (contains x s) eqn:Cx; [now destruct (run p s)|]. cbn [run]. rewrite run_op_IfIn.
        destruct (contains y s) eqn:Cy; [now destruct (run p s)|]. cbn [run]. symmetry. now apply (only_with_idle x y). }
      split; [intros a z Ha E; rewrite R in E; exact (nv_check cl L HL p ltac:(assumption) a z Ha E)|].
      apply (decided_same L _ p (fun s _ => R s)). apply decided_weak. now apply (decided_check g). }
  induction p as [|o p IH]; intros H; [split; [apply nv_nil|apply decided_nil]|]. cbn [apts forallb] in H. apply andb_true_iff in H as [H1 H2].
  destruct (O o H1) as [N D]. destruct (IH H2) as [N' D']. split; [now apply nv_cons|now apply decided_cons].
Qed.

(** ** The relation *)
Definition ends_free (L : list N) (a : str) : Prop := exists x v, a = x ++ v /\ blank x /\ clean L v.
Definition begins_free (L : list N) (b : str) : Prop := exists v y, b = v ++ y /\ clean L v /\ walled y.
Definition edge (L0 L1 : list N) : rel := fun a b => (clean L0 a /\ clean L0 b) /\ ends_free L1 a /\ begins_free L1 b.
Lemma clean_split : forall L x y, clean L (x ++ y) -> clean L x /\ clean L y.
Proof. intros L x y H. now apply Forall_app in H. Qed.
Lemma nvq_edge : forall L0 L1 p, apt 10 L0 p -> apt 32 L0 p -> nv L0 p -> nv L1 p -> decided L0 p -> nvq (edge L0 L1) p.
Proof.
  intros L0 L1 p H10 H32 N0 N1 D a b X Y ((Ca & Cb) & (x & v & -> & Bx & Cv) & (v' & y & -> & Cv' & Wy)) Ea Eb.
  split; [split; [exact (N0 _ _ Ca Ea)|exact (N0 _ _ Cb Eb)]|].
  assert (S : forall s, clean L0 s -> exists r, run p s = Ok r).
  { destruct D as [D|D]; [exact D|]. destruct (D _ Ca) as [e E]. congruence. }
  split.
  - destruct Bx as [-> | [z ->]].
    + exists [], X. split; [reflexivity|]. split; [now left|]. exact (N1 _ _ Cv Ea).
    + rewrite <- app_assoc in Ea, Ca. cbn [app] in Ea, Ca. destruct (clean_split _ _ _ Ca) as [Cz Cw].
      assert (Cv0 : clean L0 v) by (now inversion Cw). destruct (S z Cz) as [z' Ez]. destruct (S v Cv0) as [v1 Ev].
      pose proof (H32 z v z' v1 Cz Cv0 Ez Ev) as E. rewrite Ea in E. injection E as ->. exists (z' ++ [32]), v1.
      split; [now rewrite <- app_assoc|]. split; [right; now exists z'|]. exact (N1 _ _ Cv Ev).
  - destruct y as [|c y].
    + exists Y, []. rewrite app_nil_r in Eb. split; [now rewrite app_nil_r|]. split; [exact (N1 _ _ Cv' Eb)|exact I].
    + destruct (clean_split _ _ _ Cb) as [Cz Cw]. assert (Cy : clean L0 y) by (now inversion Cw).
      destruct (S v' Cz) as [z' Ez]. destruct (S y Cy) as [y' Ey]. exists z', (c :: y'). cbn [walled] in Wy.
      assert (E : run p (v' ++ c :: y) = Ok (z' ++ c :: y')).
      { destruct (wall_not c Wy) as [-> | ->]; [exact (H10 v' y z' y' Cz Cy Ez Ey)|exact (H32 v' y z' y' Cz Cy Ez Ey)]. }
      rewrite Eb in E. injection E as ->. split; [reflexivity|]. split; [exact (N1 _ _ Cv' Ez)|exact Wy].
Qed.
Lemma aptq_edge : forall w L0 L1 p, apt w L0 p -> aptq w (edge L0 L1) p.
Proof. intros w L0 L1 p H a b x y ((Ca & Cb) & _). now apply H. Qed.
Lemma edge_weak : forall L0 L1 a b, edge L0 L1 a b -> edge [] L1 a b.
Proof. intros L0 L1 a b (_ & E). split; [split; apply clean_nil|exact E]. Qed.
Lemma aptq_weak : forall w L0 L1 p, aptq w (edge [] L1) p -> aptq w (edge L0 L1) p.
Proof. intros w L0 L1 p H a b x y E. apply H. exact (edge_weak _ _ _ _ E). Qed.

(** ** The replacement of om *)
Section Replacing.
Variable L : list N.
Variable w : N.
Hypothesis Lw : okc L w = true.
Hypothesis L32 : okc L 32 = true.
Lemma om_op : forall p t g f b, om_re L p g f b = true -> om_t t g f b = true -> aptq w (edge [] L) [ReSub p t] /\ nvq (edge [] L) [ReSub p t].
Proof.
  intros p t g f b HR HT. unfold om_re in HR. unfold om_t in HT. destruct (compile p) as [[r k]|] eqn:C; [|discriminate].
  apply andb_true_iff in HR as [HR HP]. apply andb_true_iff in HR as [HK Fr]. apply Nat.eqb_eq in HK. subst k.
  destruct (parse_template (S (length t)) g t) as [l|] eqn:E; [|discriminate]. apply andb_true_iff in HT as [T1 T2].
  destruct (parse_om r) as [[[h om] q]|] eqn:P; [|discriminate]. apply andb_true_iff in HP as [HP Om]. apply andb_true_iff in HP as [HP Dl]. apply andb_true_iff in HP as [Hh Hq].
  assert (Fh : front_ok h l = true).
  { clear - Hh T1. unfold side_re in Hh. destruct f as [n|].
    - destruct h; try discriminate. cbn [first_item] in T1. destruct l as [|[|k] l]; try discriminate. cbn [front_ok].
      apply andb_true_iff in Hh as [Hh H3]. apply andb_true_iff in Hh as [H1 H2]. apply Nat.eqb_eq in H2, T1. subst. rewrite H1, H3, Nat.eqb_refl. reflexivity.
    - destruct h; try discriminate. reflexivity. }
  assert (Rl : rear_ok q l = true).
  { clear - Hq T2. unfold side_re in Hq. unfold rear_ok. destruct b as [n|].
    - destruct q; try discriminate. cbn [first_item] in T2. destruct (rev l) as [|[|k] l']; try discriminate.
      apply andb_true_iff in Hq as [Hh H3]. apply andb_true_iff in Hh as [H1 H2]. apply Nat.eqb_eq in H2, T2. subst. rewrite H1, H3, Nat.eqb_refl. reflexivity.
    - destruct q; try discriminate. reflexivity. }
  assert (R : forall s, run [ReSub p t] s = Ok (sub r l s)) by (intros s; cbn [run run_op]; unfold re_sub; now rewrite C, E).
  pose proof (om_around L r h q om l Fr P Fh Rl Dl Om L32) as A. pose proof (om_blank L r h q om l Fr P Fh Rl Dl Om L32) as B.
  pose proof (om_walled L r h q om l Fr P Fh Rl Dl Om) as W.
  assert (Side1 : forall x v, blank x -> clean L v -> sub r l (x ++ v) = sub r l x ++ v).
  { intros x v Bx Cv. pose proof (A x v [] Bx Cv I) as Q. rewrite !app_nil_r in Q. rewrite Q. 
    pose proof (A [] [] [] (or_introl eq_refl) (Forall_nil _) I) as Z. cbn [app] in Z.
    assert (Z0 : sub r l [] = []) by (destruct (sub r l []); [reflexivity|exfalso; apply (f_equal (@length N)) in Z; rewrite app_length in Z; cbn [length] in Z; lia]).
    now rewrite Z0, app_nil_r. }
  assert (Side2 : forall v y, clean L v -> walled y -> sub r l (v ++ y) = v ++ sub r l y).
  { intros v y Cv Wy. pose proof (A [] v y (or_introl eq_refl) Cv Wy) as Q. cbn [app] in Q. rewrite Q.
    pose proof (A [] [] [] (or_introl eq_refl) (Forall_nil _) I) as Z. cbn [app] in Z.
    assert (Z0 : sub r l [] = []) by (destruct (sub r l []); [reflexivity|exfalso; apply (f_equal (@length N)) in Z; rewrite app_length in Z; cbn [length] in Z; lia]).
    now rewrite Z0. }
  split.
  - intros a c X Y (_ & (x & v & -> & Bx & Cv) & (v' & y & -> & Cv' & Wy)) Ea Eb. rewrite R in *. injection Ea as <-. injection Eb as <-. f_equal.
    assert (CM : clean L (v ++ w :: v')) by (apply Forall_app; split; [exact Cv|constructor; [exact Lw|exact Cv']]).
    pose proof (A x (v ++ w :: v') y Bx CM Wy) as Q. rewrite (Side1 x v Bx Cv), (Side2 v' y Cv' Wy).
    rewrite <- app_assoc in Q. cbn [app] in Q. rewrite <- app_assoc. rewrite Q. rewrite <- !app_assoc. reflexivity.
  - intros a c X Y (_ & (x & v & -> & Bx & Cv) & (v' & y & -> & Cv' & Wy)) Ea Eb. rewrite R in *. injection Ea as <-. injection Eb as <-.
    split; [split; apply clean_nil|]. split.
    + exists (sub r l x), v. split; [exact (Side1 x v Bx Cv)|]. split; [exact (B x Bx)|exact Cv].
    + exists v', (sub r l y). split; [exact (Side2 v' y Cv' Wy)|]. split; [exact Cv'|exact (W y Wy)].
Qed.
Lemma om_chain : forall punc sOm tOm, om_res L punc sOm = true -> om_ts tOm = true ->
  aptq w (edge [] L) (om_subs punc sOm tOm) /\ nvq (edge [] L) (om_subs punc sOm tOm).
Proof.
  intros punc sOm tOm H1 H2. unfold om_res in H1. unfold om_ts in H2. 
  apply andb_true_iff in H1 as [H1 R4]. apply andb_true_iff in H1 as [H1 R3]. apply andb_true_iff in H1 as [R1 R2].
  apply andb_true_iff in H2 as [H2 T4]. apply andb_true_iff in H2 as [H2 T3]. apply andb_true_iff in H2 as [T1 T2].
  unfold om_subs.
  assert (C : forall o p, aptq w (edge [] L) [o] /\ nvq (edge [] L) [o] -> aptq w (edge [] L) p /\ nvq (edge [] L) p -> aptq w (edge [] L) (o :: p) /\ nvq (edge [] L) (o :: p)).
  { intros o p [A1 N1] [A2 N2]. split; [exact (aptq_app w _ [o] p A1 N1 A2)|exact (nvq_app _ [o] p N1 N2)]. }
  apply C; [exact (om_op _ _ _ _ _ R1 T1)|]. apply C; [exact (om_op _ _ _ _ _ R2 T2)|]. apply C; [exact (om_op _ _ _ _ _ R3 T3)|].
  exact (om_op _ _ _ _ _ R4 T4).
Qed.
Lemma om_edge_i : forall S T, om_source_i L S = true -> om_target T = true -> aptq w (edge [] L) (om_prog_i S T).
Proof.
  intros S T HS HT. apply aptq_withS. intros signs E1. apply aptq_withS. intros sOm E2. apply aptq_withS. intros tOm E3.
  unfold om_source_i in HS. unfold om_target in HT. rewrite E1, E2 in HS. rewrite E3 in HT. apply andb_true_iff in HS as [N O]. apply negb_true_iff in N. rewrite N.
  exact (proj1 (om_chain _ _ _ O HT)).
Qed.
Lemma om_edge_l : forall S T, om_source_l L S = true -> om_target T = true -> aptq w (edge [] L) (om_prog_l S T).
Proof.
  intros S T HS HT. apply aptq_withS. intros signs E1. apply aptq_withS. intros sOm E2. apply aptq_withS. intros tOm E3.
  unfold om_source_l in HS. unfold om_target in HT. rewrite E1, E2 in HS. rewrite E3 in HT. apply andb_true_iff in HS as [O1 O2].
  destruct (om_chain _ _ _ O1 HT) as [A1 N1]. destruct (om_chain _ _ _ O2 HT) as [A2 _]. exact (aptq_app w _ _ _ A1 N1 A2).
Qed.
End Replacing.

(** ** The check of a source script *)
Definition edge_source (g : guard) (c0 c1 : bool) (L0 L1 : list N) (S : str) : bool :=
  (if indic S then om_source_i L1 S && parts g (ind_prefix S) && mints c0 L0 (ind_prefix S) && mint c1 L1 (ind_prefix S)
   else om_source_l L1 S && parts g (lat_prefix S) && mints c0 L0 (lat_prefix S) && mint c1 L1 (lat_prefix S))
  && okc L1 32.
Section Sources.
Variable g : guard.
Hypothesis Hg : sound g.
Hypothesis H10 : hush g 10 = false.
Hypothesis H32 : hush g 32 = false.
Hypothesis I10 : inert 10.
Hypothesis I32 : inert 32.
Hypothesis HT : forall T, listed T -> om_target T = true.
Lemma nvq_checked : forall L0 L1 p, parts g p = true -> nv L0 p -> nv L1 p -> nvq (edge L0 L1) p.
Proof.
  intros L0 L1 p HP N0 N1. apply nvq_edge; [apply apt_of; now apply (parted_check g Hg 10 H10 I10)|apply apt_of; now apply (parted_check g Hg 32 H32 I32)|exact N0|exact N1|].
  apply decided_weak. exact (decided_check g p HP).
Qed.
Lemma nvq_pre : forall cl L0 L1 p, (cl = true -> closed L0 = true) -> okc L0 10 = true -> okc L0 32 = true -> apts g cl L0 p = true -> nv L1 p -> nvq (edge L0 L1) p.
Proof.
  intros cl L0 L1 p C O10 O32 HP N1. destruct (decided_apts g cl L0 C p HP) as [N0 D].
  apply nvq_edge; [exact (proj1 (apts_sound g cl L0 Hg 10 H10 I10 C O10 p HP))|exact (proj1 (apts_sound g cl L0 Hg 32 H32 I32 C O32 p HP))|exact N0|exact N1|exact D].
Qed.
Lemma om_apart_edge : forall c0 c1 w L0 L1 S, (c0 = true -> closed L0 = true) -> (c1 = true -> closed L1 = true) ->
  okc L1 w = true -> edge_source g c0 c1 L0 L1 S = true -> om_apart w (edge L0 L1) S.
Proof.
  intros c0 c1 w L0 L1 S C0 C1 Lw H. unfold edge_source in H. apply andb_true_iff in H as [H L32]. unfold om_apart. destruct (indic S) eqn:IS.
  - apply andb_true_iff in H as [H M1]. apply andb_true_iff in H as [H M0]. apply andb_true_iff in H as [O P]. split.
    + apply nvq_checked; [exact P|exact (mints_nv _ L0 _ C0 M0)|exact (nv_check _ L1 C1 _ M1)].
    + intros T LT. apply aptq_weak. exact (om_edge_i L1 w Lw L32 S T O (HT T LT)).
  - apply andb_true_iff in H as [H M1]. apply andb_true_iff in H as [H M0]. apply andb_true_iff in H as [O P]. split.
    + apply nvq_checked; [exact P|exact (mints_nv _ L0 _ C0 M0)|exact (nv_check _ L1 C1 _ M1)].
    + intros T LT. apply aptq_weak. exact (om_edge_l L1 w Lw L32 S T O (HT T LT)).
Qed.
End Sources.

(** ** Programs that write no letter of om of any script *)
Fixpoint put_op (L : list N) (o : op) {struct o} : bool :=
  let fix go (p : list op) {struct p} : bool := match p with [] => true | o' :: p' => if put_op L o' then go p' else false end in
  match o with
  | Replace x y => forallb (okc L) y
  | ReSub p t => match compile p with
      | None => true
      | Some (_, g) => match parse_template (S (length t)) g t with None => true | Some l => forallb (titem_ok L) l end
      end
  | Sub r l => forallb (titem_ok L) l
  | IfIn x p q => go p && go q
  | Append t | Prepend t => forallb (okc L) t
  | Lower | Norm _ => true
  | Try h p => go p
  | EvenParts _ _ | Map _ | Fn _ => false
  | Raise _ => true
  end.
Fixpoint put (L : list N) (p : prog) {struct p} : bool :=
  match p with [] => true | o' :: p' => if put_op L o' then put L p' else false end.
Definition among (L U : list N) : bool := forallb (fun c => memN c U) L.
Lemma okc_among : forall L U c, among L U = true -> okc U c = true -> okc L c = true.
Proof.
  intros L U c H O. unfold okc in *. apply andb_true_iff in O as [O1 O2]. unfold among in H. rewrite forallb_forall in H.
  assert (M : forall d, negb (memN d U) = true -> negb (memN d L) = true).
  { intros d Hd. apply negb_true_iff in Hd. apply negb_true_iff. destruct (memN d L) eqn:E; [|reflexivity]. apply memN_In in E. apply H in E. congruence. }
  rewrite (M c O1). cbn [andb]. apply forallb_forall. intros d Hd. rewrite forallb_forall in O2. apply M. now apply O2.
Qed.
Lemma put_mint : forall L U, among L U = true -> forall p, put U p = true -> mint true L p = true.
Proof.
  intros L U HU. assert (K : forall y, forallb (okc U) y = true -> forallb (okc L) y = true).
  { intros y H. rewrite forallb_forall in *. intros c Hc. apply (okc_among L U c HU). now apply H. }
  assert (KT : forall l, forallb (titem_ok U) l = true -> forallb (titem_ok L) l = true).
  { intros l H. rewrite forallb_forall in *. intros [d|k] Hc; [|reflexivity]. cbn [titem_ok]. apply (okc_among L U d HU). exact (H (TLit d) Hc). }
  assert (GoP : forall p, (fix go (p : list op) : bool := match p with [] => true | o' :: p' => if put_op U o' then go p' else false end) p = put U p).
  { induction p as [|o p IH]; [reflexivity|]. cbn [put]. destruct (put_op U o); [exact IH|reflexivity]. }
  assert (GoM : forall p, (fix go (p : list op) : bool := match p with [] => true | o' :: p' => if mint_op true L o' then go p' else false end) p = mint true L p).
  { induction p as [|o p IH]; [reflexivity|]. cbn [mint]. destruct (mint_op true L o); [exact IH|reflexivity]. }
  assert (G : forall p, Forall (fun o => put_op U o = true -> mint_op true L o = true) p -> put U p = true -> mint true L p = true).
  { induction 1 as [|o p Ho _ IH]; intros H; [reflexivity|]. cbn [put] in H. cbn [mint]. destruct (put_op U o) eqn:E; [|discriminate]. rewrite (Ho eq_refl). now apply IH. }
  assert (O : forall o, put_op U o = true -> mint_op true L o = true).
  { induction o as [x y|p t|x p q Hp Hq|t|t| |c|h p Hp|sep p Hp|r t|f|f|e] using op_ind'; intros H; cbn [put_op] in H; cbn [mint_op]; rewrite ?GoP in H; rewrite ?GoM; auto.
    - destruct (existsb (fun c => negb (okc L c)) x); [reflexivity|now apply K].
    - destruct (compile p) as [[r k]|]; [|reflexivity]. destruct (parse_template (S (length t)) k t); [now rewrite KT|reflexivity].
    - apply andb_true_iff in H as [H1 H2]. rewrite (G q Hq H2), andb_true_r. destruct (existsb (fun c => negb (okc L c)) x); [reflexivity|now apply G]. }
  intros p. apply G. apply Forall_forall. intros o _. apply O.
Qed.
