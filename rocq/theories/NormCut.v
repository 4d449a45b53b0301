(** * Canonical composition of a text, piece by piece.

    [unicodedata.normalize('NFC', s)] (Unicode.v) can be computed separately on
    two parts of a text when the second begins with a starter that never
    combines with what precedes it.  Proof machinery; no code of /repo is
    modelled here. *)
From Coq Require Import List NArith Bool Lia Arith.
From Verif Require Import PyStr UnicodeTables Unicode StrFacts AbsRegex.
Import ListNotations.
Local Open Scope N_scope.

(* ------------------------------------------------------------------ *)
(** ** Lookup in the tables *)

Lemma tget_leaf : forall A (p : positive), tget p (@TLeaf A) = None.
Proof. intros A p. now destruct p. Qed.

Lemma tget_tset : forall A (v : A) q p t, tget p (tset q v t) = if Pos.eqb p q then Some v else tget p t.
Proof.
  intros A v. induction q as [q IH|q IH|]; intros p t; destruct t as [|o l r]; destruct p as [p|p|]; simpl;
    try reflexivity; rewrite ?IH; try reflexivity; now rewrite tget_leaf.
Qed.

Lemma tfind_In : forall A (l : list (N * A)) c v, tfind c (tbuild l) = Some v -> In (c, v) l.
Proof.
  intros A l c v. unfold tfind. induction l as [|[d w] l IH]; cbn [tbuild fold_right In]; intros H.
  { rewrite tget_leaf in H. discriminate. }
  rewrite tget_tset in H. fold (tbuild l) in H. destruct (Pos.eqb_spec (N.succ_pos c) (N.succ_pos d)) as [E|E].
  - injection H as ->. left. f_equal. rewrite <- (N.pos_pred_succ c), <- (N.pos_pred_succ d). now rewrite E.
  - right. now apply IH.
Qed.

Lemma decomp_trie_eq : decomp_trie = tbuild decomp_table.
Proof. vm_compute. reflexivity. Qed.
Lemma ccc_trie_eq : ccc_trie = tbuild ccc_table.
Proof. vm_compute. reflexivity. Qed.
Lemma comp_trie_eq : comp_trie = tbuild comp_table.
Proof. vm_compute. reflexivity. Qed.

(* ------------------------------------------------------------------ *)
(** ** Cutting *)

(** Characters that combine with a preceding one. *)
Definition second (c : N) : bool :=
  (0x1161 <=? c) && (c <=? 0x1175) || (0x11A8 <=? c) && (c <=? 0x11C2)
  || any (fun p => any (fun q => fst q =? c) (snd p)) comp_table.
Definition starter (c : N) : bool := ccc c =? 0.
Definition cut_here (c : N) : bool := starter c <&> negb (second c).

Lemma assocN_In : forall c l v, assocN c l = Some v -> In (c, v) l.
Proof.
  intros c l v. induction l as [|[a b] l IH]; simpl; intros H; [discriminate|].
  destruct (N.eqb_spec a c) as [->|]; [injection H as ->; now left|right; now apply IH].
Qed.

Lemma compose2_second : forall a c, second c = false -> compose2 a c = None.
Proof.
  intros a c H. unfold second in H. apply orb_false_iff in H as [H H3]. apply orb_false_iff in H as [H1 H2].
  unfold compose2. rewrite <- !andb_assoc, H1, H2, !andb_false_r.
  destruct (tfind a comp_trie) as [l|] eqn:E; [|reflexivity].
  destruct (assocN c l) as [v|] eqn:Ea; [|reflexivity]. exfalso.
  rewrite comp_trie_eq in E. apply tfind_In in E. apply assocN_In in Ea.
  assert (X : any (fun p => any (fun q => fst q =? c) (snd p)) comp_table = true); [|congruence].
  apply any_exists. exists (a, l). split; [assumption|]. apply any_exists. exists (c, v).
  split; [assumption|apply N.eqb_refl].
Qed.

Lemma reorder_in_app : forall c k u d v, ccc d = 0 -> reorder_in c k (u ++ d :: v) = reorder_in c k u ++ d :: v.
Proof.
  intros c k. induction u as [|e u IH]; intros d v H; simpl.
  - now rewrite H.
  - destruct ((0 <? ccc e) && (ccc e <? k)); [|reflexivity]. now rewrite IH.
Qed.

Lemma reorder_app : forall u d v, ccc d = 0 -> reorder (u ++ d :: v) = reorder u ++ reorder (d :: v).
Proof.
  induction u as [|c u IH]; intros d v H; [reflexivity|].
  change ((c :: u) ++ d :: v) with (c :: (u ++ d :: v)). cbn [reorder]. rewrite (IH d v H).
  destruct (ccc c =? 0) eqn:E; [reflexivity|]. cbn [reorder]. rewrite H. cbn [N.eqb].
  now apply reorder_in_app.
Qed.

Lemma compose_app : forall u st mid last d v, cut_here d = true ->
  compose st mid last (u ++ d :: v) = compose st mid last u ++ compose None [] 0 (d :: v).
Proof.
  intros u. induction u as [|c u IH]; intros st mid last d v H.
  - apply andb_true_iff in H as [H1 H2]. apply negb_true_iff in H2. apply N.eqb_eq in H1.
    cbn [app compose]. rewrite H1. cbn [N.eqb].
    destruct st as [a|]; [|reflexivity]. rewrite (compose2_second a d H2).
    destruct mid; [reflexivity|]. destruct (0 <=? last); reflexivity.
  - change ((c :: u) ++ d :: v) with (c :: (u ++ d :: v)). cbn [compose].
    match goal with |- match ?x with _ => _ end = _ => destruct x end; [now apply IH|].
    destruct (ccc c =? 0); [|now apply IH]. rewrite (IH _ _ _ _ _ H). now rewrite app_assoc.
Qed.

(** The decomposed text begins with such a character (or is empty). *)
Definition cut_ok (s : str) : bool :=
  match flat_map decomp s with [] => true | c :: _ => cut_here c end.

Lemma reorder_head : forall d v, ccc d = 0 -> exists w, reorder (d :: v) = d :: w.
Proof. intros d v H. cbn [reorder]. rewrite H. cbn [N.eqb]. now exists (reorder v). Qed.

Theorem NFC_app : forall u v, cut_ok v = true ->
  normalize_NFC (u ++ v) = normalize_NFC u ++ normalize_NFC v.
Proof.
  intros u v H. unfold normalize_NFC, normalize_NFD, cut_ok in *. rewrite flat_map_app.
  destruct (flat_map decomp v) as [|d w]; [now rewrite !app_nil_r|].
  pose proof H as H'. apply andb_true_iff in H' as [H1 _]. apply N.eqb_eq in H1.
  rewrite reorder_app by assumption. destruct (reorder_head d w H1) as [w' E]. rewrite E.
  now apply compose_app.
Qed.

(* ------------------------------------------------------------------ *)
(** ** Characters that normalisation leaves alone *)

(** All characters that decompose, that are no starters or that combine with a
    preceding character lie in the ranges [M]. *)
Definition covers_norm (M : list (N * N)) : bool :=
  let f := foreign M in
  in_M M 0xAC00 0xD7A3 <&> in_M M 0x1161 0x1175 <&> in_M M 0x11A8 0x11C2
  <&> all (fun p => negb (f (fst p))) decomp_table
  <&> all (fun p => negb (f (fst p))) ccc_table
  <&> all (fun p => all (fun q => negb (f (fst q))) (snd p)) comp_table.

(** All characters that [str.lower] changes lie in the ranges [M]. *)
Definition covers_lower (M : list (N * N)) : bool :=
  let f := foreign M in all (fun p => negb (f (fst p))) lower_table.

Lemma lower_trie_eq : lower_trie = tbuild lower_table.
Proof. vm_compute. reflexivity. Qed.

Lemma lower_inert : forall M, covers_lower M = true -> forall c, foreign M c = true -> py_lower [c] = [c].
Proof.
  intros M HM c Hf. unfold py_lower. cbn [flat_map]. rewrite app_nil_r.
  destruct (tfind c lower_trie) as [l|] eqn:E; [|reflexivity]. exfalso.
  rewrite lower_trie_eq in E. apply tfind_In in E. unfold covers_lower in HM. cbv zeta in HM.
  rewrite all_forall in HM. specialize (HM _ E). cbn [fst] in HM. rewrite Hf in HM. discriminate.
Qed.

Section Inert.
  Variable M : list (N * N).
  Hypothesis HM : covers_norm M = true.

  Lemma covers_parts :
    in_M M 0xAC00 0xD7A3 = true /\ in_M M 0x1161 0x1175 = true /\ in_M M 0x11A8 0x11C2 = true
    /\ all (fun p => negb (foreign M (fst p))) decomp_table = true
    /\ all (fun p => negb (foreign M (fst p))) ccc_table = true
    /\ all (fun p => all (fun q => negb (foreign M (fst q))) (snd p)) comp_table = true.
  Proof.
    pose proof HM as H. unfold covers_norm in H. cbv zeta in H.
    apply andb_true_iff in H as [H H6]. apply andb_true_iff in H as [H H5]. apply andb_true_iff in H as [H H4].
    apply andb_true_iff in H as [H H3]. apply andb_true_iff in H as [H1 H2].
    exact (conj H1 (conj H2 (conj H3 (conj H4 (conj H5 H6))))).
  Qed.

  Lemma inert_decomp : forall c, foreign M c = true -> decomp c = [c].
  Proof.
    intros c Hf. destruct covers_parts as (H1 & _ & _ & H4 & _). unfold decomp.
    rewrite (foreign_not_M M c _ _ Hf H1).
    destruct (tfind c decomp_trie) as [l|] eqn:E; [|reflexivity]. exfalso.
    rewrite decomp_trie_eq in E. apply tfind_In in E. rewrite all_forall in H4. specialize (H4 _ E).
    cbn [fst] in H4. rewrite Hf in H4. discriminate.
  Qed.

  Lemma inert_cut : forall c, foreign M c = true -> cut_here c = true.
  Proof.
    intros c Hf. destruct covers_parts as (_ & H2 & H3 & _ & H5 & H6).
    unfold cut_here, starter, second, ccc.
    rewrite (foreign_not_M M c _ _ Hf H2), (foreign_not_M M c _ _ Hf H3).
    destruct (tfind c ccc_trie) as [k|] eqn:E.
    { exfalso. rewrite ccc_trie_eq in E. apply tfind_In in E. rewrite all_forall in H5. specialize (H5 _ E).
      cbn [fst] in H5. rewrite Hf in H5. discriminate. }
    cbn [N.eqb andb orb]. apply negb_true_iff.
    destruct (any _ comp_table) eqn:Ea; [|reflexivity]. exfalso.
    apply any_exists in Ea as (p & Hp & Hq). apply any_exists in Hq as (q & Hq & E').
    apply N.eqb_eq in E'. rewrite all_forall in H6. specialize (H6 p Hp). rewrite all_forall in H6.
    specialize (H6 q Hq). rewrite E', Hf in H6. discriminate.
  Qed.

  Lemma NFC_inert : forall c v, foreign M c = true -> cut_ok v = true ->
    normalize_NFC (c :: v) = c :: normalize_NFC v.
  Proof.
    intros c v Hf Hv. change (c :: v) with ([c] ++ v). rewrite NFC_app by assumption.
    change (c :: normalize_NFC v) with ([c] ++ normalize_NFC v). f_equal.
    unfold normalize_NFC, normalize_NFD. cbn [flat_map]. rewrite (inert_decomp c Hf). cbn [app reorder].
    pose proof (inert_cut c Hf) as Hc. apply andb_true_iff in Hc as [Hc _]. unfold starter in Hc.
    rewrite Hc. cbn [compose]. now rewrite Hc.
  Qed.

  Lemma cut_ok_inert : forall c v, foreign M c = true -> cut_ok (c :: v) = true.
  Proof.
    intros c v Hf. unfold cut_ok. cbn [flat_map]. rewrite (inert_decomp c Hf). now apply inert_cut.
  Qed.
End Inert.
