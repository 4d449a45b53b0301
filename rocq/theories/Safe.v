(** * Which exceptions a program can raise.

    [safe k p] computes, without looking at the text, that every exception that [p] can raise is one
    for which [k] holds; with [k] constantly false, [p] returns a text for every text. *)
From Coq Require Import List NArith ZArith Bool.
From Verif Require Import PyStr Regex Unicode Prog.
Import ListNotations.

Definition no_exn (e : exn) : bool := false.

Fixpoint safe_op (k : exn -> bool) (o : op) {struct o} : bool :=
  let fix go (k : exn -> bool) (p : list op) {struct p} : bool :=
    match p with
    | [] => true
    | o' :: p' => if safe_op k o' then go k p' else false
    end in
  match o with
  | Replace _ _ | Append _ | Prepend _ | Lower | Norm _ | Sub _ _ | Map _ => true
  | ReSub p t => match re_sub p t [] with Ok _ => true | Err e => k e end
  | IfIn _ p q => if go k p then go k q else false
  | Try h p => go (fun e => if h e then true else k e) p
  | EvenParts _ p => go k p
  | Fn _ => false
  | Raise e => k e
  end.

Fixpoint safe (k : exn -> bool) (p : prog) {struct p} : bool :=
  match p with [] => true | o :: p' => if safe_op k o then safe k p' else false end.

(** What [safe] means. *)
Definition raises_only (k : exn -> bool) (p : prog) : Prop := forall s e, run p s = Err e -> k e = true.

Lemma ro_nil : forall k, raises_only k [].
Proof. intros k s e H. discriminate. Qed.
Lemma ro_app : forall k p q, raises_only k p -> raises_only k q -> raises_only k (p ++ q).
Proof.
  intros k p q Hp Hq s e H. rewrite run_app in H. destruct (run p s) as [s'|e'] eqn:E; cbn [rbind] in H.
  - now apply (Hq s').
  - apply (Hp s). congruence.
Qed.
Lemma ro_cons : forall k o p, raises_only k [o] -> raises_only k p -> raises_only k (o :: p).
Proof. intros k o p Ho Hp. apply (ro_app k [o] p Ho Hp). Qed.
Lemma ro_if : forall k (b : bool) p q, raises_only k p -> raises_only k q -> raises_only k (if b then p else q).
Proof. intros k [|] p q; auto. Qed.
Lemma ro_weaken : forall k k' p, (forall e, k e = true -> k' e = true) -> raises_only k p -> raises_only k' p.
Proof. intros k k' p H Hp s e E. apply H. now apply (Hp s). Qed.

(** Whether [re.sub] fails does not depend on the text. *)
Lemma re_sub_static : forall p t s s', match re_sub p t s with Ok _ => exists r, re_sub p t s' = Ok r | Err e => re_sub p t s' = Err e end.
Proof.
  intros p t s s'. unfold re_sub. destruct (compile p) as [[r g]|]; [|reflexivity].
  destruct (parse_template _ g t); [|reflexivity]. eauto.
Qed.

Lemma ro_IfIn : forall k x p q, raises_only k p -> raises_only k q -> raises_only k [IfIn x p q].
Proof.
  intros k x p q Hp Hq s e H. cbn [run] in H. rewrite run_op_IfIn in H.
  destruct (contains x s); [destruct (run p s) eqn:E|destruct (run q s) eqn:E]; try discriminate;
    injection H as <-; [now apply (Hp s)|now apply (Hq s)].
Qed.
Lemma ro_Try : forall (k h : exn -> bool) p, raises_only (fun e => if h e then true else k e) p -> raises_only k [Try h p].
Proof.
  intros k h p Hp s e H. cbn [run] in H. rewrite run_op_Try in H. destruct (run p s) as [s'|e'] eqn:E; [discriminate|].
  specialize (Hp s e' E). cbv beta in Hp. destruct (h e'); [discriminate|]. injection H as <-. exact Hp.
Qed.
Lemma ro_EvenParts : forall k sep p, raises_only k p -> raises_only k [EvenParts sep p].
Proof.
  intros k sep p Hp s e H. cbn [run] in H. rewrite run_op_EvenParts in H.
  destruct (alt_parts (run p) true (split sep s)) as [|e'] eqn:E; [discriminate|]. injection H as ->.
  enough (G : forall l b, alt_parts (run p) b l = Err e -> k e = true) by now apply (G (split sep s) true).
  clear E. induction l as [|w l IH]; intros b E; [discriminate|]. cbn [alt_parts] in E.
  destruct b.
  - destruct (run p w) as [w'|e1] eqn:R; [|injection E as ->; now apply (Hp w)].
    cbn [negb] in E. destruct (alt_parts (run p) false l) as [|e2] eqn:A; [discriminate|]. injection E as ->. now apply (IH false).
  - cbn [negb] in E. destruct (alt_parts (run p) true l) as [|e2] eqn:A; [discriminate|]. injection E as ->. now apply (IH true).
Qed.
Lemma ro_ReSub : forall k p t, (match re_sub p t [] with Ok _ => true | Err e => k e end) = true -> raises_only k [ReSub p t].
Proof.
  intros k p t H s e E. cbn [run run_op] in E. destruct (re_sub p t s) as [|e'] eqn:R; [discriminate|]. injection E as <-.
  pose proof (re_sub_static p t s []) as S. rewrite R in S. rewrite S in H. exact H.
Qed.

Lemma safe_ops : forall p, (forall o, In o p -> forall k, safe_op k o = true -> raises_only k [o]) ->
  forall k, safe k p = true -> raises_only k p.
Proof.
  induction p as [|o p IH]; intros H k Hs; [apply ro_nil|]. cbn [safe] in Hs.
  destruct (safe_op k o) eqn:E; [|discriminate]. apply ro_cons; [apply H; [now left|assumption]|].
  apply IH; [|assumption]. intros o' Ho'. apply H. now right.
Qed.

Theorem safe_op_sound : forall o k, safe_op k o = true -> raises_only k [o].
Proof.
  induction o using op_ind'; intros k Hs; try (intros s e' E; discriminate E).
  - now apply ro_ReSub.
  - cbn [safe_op] in Hs. change (if safe k p then safe k q else false) with (if safe k p then safe k q else false) in Hs.
    rewrite Forall_forall in H, H0.
    assert (Hp : safe k p = true) by (clear -Hs; change ((if safe k p then safe k q else false) = true) in Hs; now destruct (safe k p)).
    assert (Hq : safe k q = true) by (change ((if safe k p then safe k q else false) = true) in Hs; now rewrite Hp in Hs).
    apply ro_IfIn; apply safe_ops; auto.
  - rewrite Forall_forall in H. apply ro_Try. apply safe_ops; auto.
  - rewrite Forall_forall in H. apply ro_EvenParts. apply safe_ops; auto.
  - discriminate.
  - intros s e' E. cbn [run run_op] in E. injection E as <-. exact Hs.
Qed.

Theorem safe_sound : forall k p, safe k p = true -> raises_only k p.
Proof. intros k p. apply safe_ops. intros o _. apply safe_op_sound. Qed.

Lemma raises_nothing : forall p, raises_only no_exn p -> forall s, exists r, run p s = Ok r.
Proof. intros p H s. destruct (run p s) as [r|e] eqn:E; [now exists r|]. specialize (H s e E). discriminate. Qed.
