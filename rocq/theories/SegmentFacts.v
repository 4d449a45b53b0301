(** * Itrans text between pairs of ## (C19). *)
From Coq Require Import List NArith ZArith Bool Lia.
From Verif Require Import PyStr Prog GMLists GeneralMap Convert Transliterate StrFacts.
Import ListNotations.
Open Scope nat_scope.

(** [segments parts r b]: [r] is the concatenation of the parts, where those in even position have
    been converted by [conv] and those in odd position are copied ([b]: the first one is even). *)
Inductive segments (conv : str -> res str) : bool -> list str -> str -> Prop :=
| seg_nil : forall b, segments conv b [] []
| seg_conv : forall w w' ps r, conv w = Ok w' -> segments conv false ps r -> segments conv true (w :: ps) (w' ++ r)
| seg_copy : forall w ps r, segments conv true ps r -> segments conv false (w :: ps) (w ++ r).

Lemma alt_parts_segments : forall f ps b r, alt_parts f b ps = Ok r <-> segments f b ps r.
Proof.
  intros f. induction ps as [|w ps IH]; intros b r; cbn [alt_parts].
  - split; intros H; [injection H as <-; constructor|inversion H; reflexivity].
  - destruct b; cbn [negb].
    + split.
      * intros H. destruct (f w) as [w'|] eqn:E; [|discriminate].
        destruct (alt_parts f false ps) as [r'|] eqn:A; [|discriminate]. injection H as <-.
        apply IH in A. now constructor.
      * intros H. inversion H as [|? ? ? ? Q S|]; subst. apply IH in S. now rewrite Q, S.
    + split.
      * intros H. destruct (alt_parts f true ps) as [r'|] eqn:A; [|discriminate]. injection H as <-.
        apply IH in A. now constructor.
      * intros H. inversion H as [| |? ? ? S]; subst. apply IH in S. now rewrite S.
Qed.

(** *** split *)
Fixpoint glue (sep : str) (l : list str) : str :=
  match l with [] => [] | [w] => w | w :: t => w ++ sep ++ glue sep t end.

Lemma split_go_nonnil : forall sep s n cur, split_go sep n cur s <> [].
Proof.
  intros sep. induction s as [|c s IH]; intros n cur; cbn [split_go]; [discriminate|].
  destruct n; [|apply IH]. destruct (prefixb sep (c :: s)); [discriminate|apply IH].
Qed.

Lemma glue_cons : forall sep w l, l <> [] -> glue sep (w :: l) = w ++ sep ++ glue sep l.
Proof. intros sep w [|a l] H; [easy|reflexivity]. Qed.

Lemma split_go_skip : forall sep u cur t, split_go sep (length u) cur (u ++ t) = split_go sep 0 cur t.
Proof. intros sep. induction u as [|c u IH]; intros cur t; [reflexivity|]. cbn [length app split_go]. apply IH. Qed.

Lemma split_glue : forall sep s cur, sep <> [] -> glue sep (split_go sep 0 cur s) = rev cur ++ s.
Proof.
  intros sep s cur Hs. remember (length s) as n eqn:L. revert s cur L.
  induction n as [n IH] using (well_founded_induction Wf_nat.lt_wf). intros s cur ->.
  destruct s as [|c s]; [cbn; now rewrite app_nil_r|]. cbn [split_go].
  destruct (prefixb sep (c :: s)) eqn:P.
  - apply prefixb_spec in P as (r & P). destruct sep as [|a sep]; [easy|]. injection P as <- ->.
    cbn [length pred]. rewrite split_go_skip. rewrite glue_cons by apply split_go_nonnil.
    rewrite (IH (length r)); [|simpl; rewrite app_length; lia|reflexivity]. reflexivity.
  - rewrite (IH (length s)); [|simpl; lia|reflexivity]. cbn [rev]. now rewrite <- app_assoc.
Qed.

(** The parts produced by a split by ## contain no ##. *)
Lemma split_go_parts : forall s cur, contains "##"%u (rev cur) = false ->
  prefixb "#"%u cur && prefixb "#"%u s = false ->
  forall w, In w (split_go "##"%u 0 cur s) -> contains "##"%u w = false.
Proof.
  intros s. remember (length s) as n eqn:L. revert s L.
  induction n as [n IH] using (well_founded_induction Wf_nat.lt_wf). intros s -> cur C P w Hw.
  destruct s as [|c s]; [destruct Hw as [<-|[]]; exact C|]. cbn [split_go] in Hw.
  destruct (prefixb "##"%u (c :: s)) eqn:Q.
  - destruct Hw as [<-|Hw]; [exact C|]. cbn [length pred] in Hw.
    destruct s as [|d s]; [cbn [prefixb] in Q; now destruct (N.eqb 35 c)|]. cbn [split_go] in Hw.
    apply (IH (length s)) with (s := s) (cur := []); simpl; auto.
  - apply (IH (length s)) with (s := s) (cur := c :: cur); [simpl; lia|reflexivity| | |exact Hw].
    + cbn [rev]. rewrite contains_app_no_straddle; [rewrite C; cbn [orb contains prefixb]; destruct (N.eqb 35 c); reflexivity|discriminate|].
      intros u1 u2 E Hn F. destruct u2 as [|x [|y u2]]; [easy| |].
      * cbn [app prefixb]. cbn [prefixb] in P. destruct (N.eqb_spec 35 x) as [<-|]; [|reflexivity].
        apply (f_equal (@rev N)) in E. rewrite rev_involutive, rev_app_distr in E. cbn [rev app] in E.
        subst cur. cbn [prefixb] in P. rewrite N.eqb_refl in P. cbn [andb] in P.
        destruct (N.eqb 35 c); [discriminate P|reflexivity].
      * exact F.
    + cbn [prefixb] in Q |- *. destruct s as [|d s]; [now destruct (N.eqb 35 c)|].
      destruct (N.eqb 35 c); [|reflexivity]. cbn [andb] in *. exact Q.
Qed.

(** C19.  For every target and every text with ##: the text is cut at the ##, the parts in even
    position are converted on their own exactly as texts without ## are, those in odd position are
    copied, and the results are put together. *)
Theorem itrans_segments : forall tgt s r, contains "##"%u s = true ->
  exists parts, glue "##"%u parts = s /\ (forall w, In w parts -> contains "##"%u w = false)
    /\ (run (convert_text "Itrans"%u tgt) s = Ok r
        <-> segments (run (convert_text "Itrans"%u tgt)) true parts r).
Proof.
  intros tgt s r H. exists (split "##"%u s).
  assert (Pt : forall w, In w (split "##"%u s) -> contains "##"%u w = false)
    by (apply split_go_parts; reflexivity).
  split; [apply split_glue; discriminate|]. split; [exact Pt|].
  unfold convert_text. rewrite str_eqb_refl. cbn [run].
  rewrite run_op_IfIn, H. cbn [run]. rewrite run_op_EvenParts.
  set (f := fun s0 => match run_op (IfIn "##"%u [EvenParts "##"%u (convertScript "Itrans"%u tgt)]
    (convertScript "Itrans"%u tgt)) s0 with Ok s' => Ok s' | Err e => Err e end).
  assert (E : forall l b, (forall w, In w l -> contains "##"%u w = false) ->
     alt_parts (run (convertScript "Itrans"%u tgt)) b l = alt_parts f b l).
  { induction l as [|w l IH]; intros b I; [reflexivity|]. cbn [alt_parts].
    rewrite IH by (intros x Hx; apply I; now right).
    assert (run (convertScript "Itrans"%u tgt) w = f w) as ->; [|reflexivity].
    unfold f. rewrite run_op_IfIn, I by now left. now destruct (run (convertScript "Itrans"%u tgt) w). }
  rewrite E by exact Pt. rewrite <- alt_parts_segments.
  destruct (alt_parts f true (split "##"%u s)); reflexivity.
Qed.

(** If the parts contain no # at all they are determined by the text. *)
Theorem itrans_parts : forall parts, parts <> [] -> (forall w, In w parts -> ~ In 35%N w) ->
  split "##"%u (glue "##"%u parts) = parts.
Proof.
  assert (G : forall w t cur, ~ In 35%N w -> split_go "##"%u 0 cur (w ++ t) = split_go "##"%u 0 (rev w ++ cur) t).
  { induction w as [|c w IH]; intros t cur H; [reflexivity|]. cbn [app split_go prefixb].
    destruct (N.eqb_spec 35 c) as [e|]; [destruct H; left; now symmetry|]. cbn [andb].
    rewrite IH by (intros X; apply H; now right). cbn [rev]. now rewrite <- app_assoc. }
  unfold split. induction parts as [|w parts IH]; intros H I; [easy|].
  destruct parts as [|v parts].
  - cbn [glue]. rewrite <- (app_nil_r w) at 1. rewrite G by (apply I; now left). cbn.
    now rewrite app_nil_r, rev_involutive.
  - rewrite glue_cons by discriminate. rewrite G by (apply I; now left). rewrite app_nil_r.
    change ("##"%u ++ glue "##"%u (v :: parts)) with (35%N :: 35%N :: glue "##"%u (v :: parts)).
    cbn [split_go prefixb N.eqb Pos.eqb andb length pred]. rewrite rev_involutive, IH;
      [reflexivity|discriminate|]. intros x Hx. apply I. now right.
Qed.

Example itrans_segments_case :
  contains "##"%u "ka##ka##ka"%u = true
  /\ run (convert_text "Itrans"%u "Devanagari"%u) "ka##ka##ka"%u = Ok "कkaक"%u.
Proof. split; vm_compute; reflexivity. Qed.

(** For the whole function the copied part is not verbatim: the steps before the script conversion do
    not know about ## and rewrite it. *)
Theorem itrans_verbatim_refuted : exists w, ~ In 35%N w
  /\ convert "Itrans"%u "Devanagari"%u ("##"%u ++ w ++ "##"%u) true [] [] <> Ok w.
Proof.
  exists "x"%u. split; [intros [H|[]]; discriminate|]. vm_compute. discriminate.
Qed.
