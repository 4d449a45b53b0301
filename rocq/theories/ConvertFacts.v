(** * C09, C10, C11: the shape of [convert]: recursion and early returns. *)
From Coq Require Import List NArith ZArith Bool Lia.
From Verif Require Import PyStr Prog GMLists GeneralMap Transliterate StrFacts.
Import ListNotations.

(* ------------------------------------------------------------------ *)
(** ** C11: the recursion is bounded *)

Lemma lookup_In : forall {A} k (d : list (str * A)) v, lookup k d = Some v -> In (k, v) d.
Proof.
  intros A k d v. induction d as [|[k' v'] d IH]; simpl; [discriminate|].
  destruct (str_eqb k k') eqn:E; [|intros H; right; now apply IH].
  intros [= <-]. apply str_eqb_eq in E. subst. now left.
Qed.

Definition via_names : list str := map snd GM_semiticISO.

Lemma lookup_via : forall k v, lookup k GM_semiticISO = Some v -> In v via_names.
Proof. intros k v H. apply lookup_In in H. now apply (in_map snd) in H. Qed.

(** The scripts between which a Semitic ISO scheme mediates: neither such a
    scheme themselves, nor RomanLoC, nor covered by the LoC romanizations. *)
Lemma via_plain : forall v, In v via_names ->
  lookup v GM_semiticISO = None /\ mem v GM_LoCScripts = false /\ str_eqb v "RomanLoC"%u = false.
Proof.
  intros v H. assert (C : forallb (fun v => match lookup v GM_semiticISO with None => true | _ => false end
    && negb (mem v GM_LoCScripts) && negb (str_eqb v "RomanLoC"%u)) via_names = true) by (vm_compute; reflexivity).
  rewrite forallb_forall in C. specialize (C v H). rewrite !andb_true_iff, !negb_true_iff in C.
  destruct C as [[C1 C2] C3]. destruct (lookup v GM_semiticISO); [discriminate|]. auto.
Qed.

Lemma key_plain : forall k v, lookup k GM_semiticISO = Some v -> str_eqb k "RomanLoC"%u = false.
Proof.
  intros k v H. destruct (str_eqb k "RomanLoC"%u) eqn:E; [|reflexivity].
  apply str_eqb_eq in E. subst k. vm_compute in H. discriminate.
Qed.

Lemma step_ext : forall f g a,
  (forall src via n pre post, In via via_names -> f (Args src via n pre post) = g (Args src via n pre post)) ->
  convert_step f a = convert_step g a.
Proof.
  intros f g a H. unfold convert_step. f_equal.
  destruct (loc_source_other _) as [src tgt n pre post].
  destruct (lookup tgt GM_semiticISO) as [via|] eqn:E.
  - rewrite (H src via n pre post (lookup_via _ _ E)).
    destruct (via_plain via (lookup_via _ _ E)) as (-> & _ & _). reflexivity.
  - destruct (lookup src GM_semiticISO) as [via|] eqn:E2; [|reflexivity].
    rewrite (H src via n pre post (lookup_via _ _ E2)). reflexivity.
Qed.

(** Effect of the LoC switches when the target is not concerned. *)
Lemma loc_plain : forall src tgt n pre post, str_eqb tgt "RomanLoC"%u = false -> mem tgt GM_LoCScripts = false ->
  loc_source_other (loc_source (loc_target_other (loc_target (Args src tgt n pre post))))
  = Args (if str_eqb src "RomanLoC"%u then (if mem tgt GM_SemiticScripts then "ISO233"%u else "ISO"%u) else src)
         tgt n pre post.
Proof.
  intros src tgt n pre post H1 H2.
  assert (E1 : loc_target (Args src tgt n pre post) = Args src tgt n pre post)
    by (unfold loc_target; now rewrite H1).
  assert (E2 : loc_target_other (Args src tgt n pre post) = Args src tgt n pre post)
    by (unfold loc_target_other; now rewrite H1).
  assert (E3 : loc_source (Args src tgt n pre post) = Args src tgt n pre post)
    by (unfold loc_source; now rewrite H2, andb_false_r).
  rewrite E1, E2, E3. unfold loc_source_other. rewrite H2. cbn [negb]. rewrite andb_true_r.
  now destruct (str_eqb src "RomanLoC"%u).
Qed.

Lemma step_ext1 : forall f g src via n pre post, In via via_names ->
  (forall k v n pre post, lookup k GM_semiticISO = Some v -> f (Args k v n pre post) = g (Args k v n pre post)) ->
  convert_step f (Args src via n pre post) = convert_step g (Args src via n pre post).
Proof.
  intros f g src via n pre post Hv H. destruct (via_plain via Hv) as (H1 & H2 & H3).
  unfold convert_step. f_equal. rewrite loc_plain by assumption. rewrite H1.
  match goal with |- context [lookup ?s GM_semiticISO] =>
      destruct (lookup s GM_semiticISO) as [v|] eqn:E; [|reflexivity];
      now rewrite (H s v n pre post E) end.
Qed.

Lemma step_ext2 : forall f g k v n pre post, lookup k GM_semiticISO = Some v ->
  convert_step f (Args k v n pre post) = convert_step g (Args k v n pre post).
Proof.
  intros f g k v n pre post H. destruct (via_plain v (lookup_via _ _ H)) as (H1 & H2 & H3).
  pose proof (key_plain k v H) as H4.
  unfold convert_step. f_equal. rewrite loc_plain by assumption.
  rewrite H4, H1, H, str_eqb_refl. reflexivity.
Qed.

(** A call of [convert] nests at most two further calls: whatever a call at the
    fourth level would do is irrelevant, for all names and options. *)
Theorem recursion_bounded : forall rec a,
  convert_step (convert_step (convert_step rec)) a
  = convert_prog (a_src a) (a_tgt a) (a_nat a) (a_pre a) (a_post a).
Proof.
  intros rec [src tgt n pre post]. unfold convert_prog. cbn [convert_n a_src a_tgt a_nat a_pre a_post].
  apply step_ext. intros src' via n' pre' post' Hv. apply step_ext1; [assumption|].
  intros k v n'' pre'' post'' Hk. now apply step_ext2.
Qed.

(** [convert] satisfies the recursive equation of the Python function. *)
Theorem convert_unfold : forall src tgt n pre post,
  convert_prog src tgt n pre post
  = convert_step (fun a => convert_prog (a_src a) (a_tgt a) (a_nat a) (a_pre a) (a_post a))
                 (Args src tgt n pre post).
Proof.
  intros. pose proof (recursion_bounded (convert_n 1) (Args src tgt n pre post)) as H.
  cbn [a_src a_tgt a_nat a_pre a_post] in H. rewrite <- H. apply step_ext. intros src' via n' pre' post' Hv.
  cbn [a_src a_tgt a_nat a_pre a_post]. unfold convert_prog. cbn [convert_n].
  apply step_ext1; [assumption|]. intros k v n'' pre'' post'' Hk. now apply step_ext2.
Qed.

(** Three levels are needed: from one Semitic ISO scheme to another. *)
Example recursion_depth_reached : exists a rec rec',
  convert_step (convert_step rec) a <> convert_step (convert_step rec') a.
Proof.
  exists (Args "PersianDMG"%u "ISO233"%u false [] []), (fun _ => [Raise KeyError]), (fun _ => [Raise TypeError]).
  intros H. assert (E : forall p q : prog, p = q -> run p [] = run q []) by (now intros ? ? ->).
  apply E in H. vm_compute in H. discriminate.
Qed.

(* ------------------------------------------------------------------ *)
(** ** C09, C10: early returns *)

(** The Semitic ISO schemes. *)
Definition iso_schemes : list str := ["ISO259"%u; "HebrewSBL"%u; "ISO233"%u; "PersianDMG"%u].

Lemma not_iso : forall s, ~ In s iso_schemes -> lookup s GM_semiticISO = None.
Proof.
  intros s H. destruct (lookup s GM_semiticISO) eqn:E; [|reflexivity]. exfalso. apply H.
  apply lookup_In in E. apply (in_map fst) in E. vm_compute in E. vm_compute. tauto.
Qed.

Theorem empty_target : forall src tgt txt nativize pre post,
  tgt = []%list \/ tgt = "Ignore"%u -> ~ In src iso_schemes ->
  convert src tgt txt nativize pre post = Ok txt.
Proof.
  intros src tgt txt nativize pre post Ht Hs. apply not_iso in Hs.
  assert (E : str_eqb tgt "RomanLoC"%u = false /\ mem tgt GM_LoCScripts = false /\ lookup tgt GM_semiticISO = None
    /\ str_eqb tgt [] || str_eqb tgt "Ignore"%u = true /\ mem tgt GM_SemiticScripts = false)
    by (destruct Ht; subst; repeat split; vm_compute; reflexivity).
  destruct E as (E1 & E2 & E3 & E4 & E5).
  unfold convert. rewrite convert_unfold. unfold convert_step. rewrite loc_plain by assumption.
  assert (M : loc_source_mark (loc_target_other (loc_target (Args src tgt nativize pre post))) = []).
  { unfold loc_target. rewrite E1. cbn [andb]. unfold loc_target_other. rewrite E1. cbn [andb].
    unfold loc_source_mark. now rewrite E2, andb_false_r. }
  rewrite M, E3, E5. cbn [app].
  assert (I : lookup (if str_eqb src "RomanLoC"%u then "ISO"%u else src) GM_semiticISO = None)
    by (destruct (str_eqb src "RomanLoC"%u); [vm_compute; reflexivity|assumption]).
  rewrite I. cbn [app]. unfold convert_main. now rewrite E4.
Qed.

Example empty_target_case : exists src txt nativize pre post, ~ In src iso_schemes /\
  convert src [] txt nativize pre post = Ok txt.
Proof.
  exists "Devanagari"%u, "धर्म"%u, true, [], []. split; [|vm_compute; reflexivity].
  intros H. vm_compute in H. decompose [or] H; try discriminate; assumption.
Qed.

(** The exception is needed: with a Semitic ISO source the text is converted. *)
Theorem empty_target_iso_refuted : exists src txt txt', convert src []%list txt false [] [] = Ok txt' /\ txt' <> txt.
Proof. exists "ISO233"%u, "shalom"%u. eexists. split; [vm_compute; reflexivity|discriminate]. Qed.

Theorem same_script : forall s txt, ~ In s iso_schemes -> convert s s txt false [] [] = Ok txt.
Proof.
  intros s txt Hs. apply not_iso in Hs. unfold convert. rewrite convert_unfold. unfold convert_step.
  destruct (str_eqb s "RomanLoC"%u) eqn:E.
  - apply str_eqb_eq in E. subst s. vm_compute. reflexivity.
  - assert (E1 : loc_target_other (loc_target (Args s s false [] [])) = Args s s false [] []).
    { unfold loc_target. rewrite E. cbn [andb]. unfold loc_target_other. now rewrite E. }
    rewrite E1. unfold loc_source_mark, loc_source. rewrite E. cbn [andb]. unfold loc_source_other. rewrite E.
    cbn [andb app]. rewrite Hs. cbn [app]. rewrite Hs. cbn [app].
    unfold convert_main. cbn [negb andb]. rewrite str_eqb_refl. now destruct (str_eqb s [] || str_eqb s "Ignore"%u).
Qed.

Example same_script_case : ~ In "RomanLoC"%u iso_schemes /\ convert "RomanLoC"%u "RomanLoC"%u "ka"%u false [] [] = Ok "ka"%u.
Proof.
  split; [|vm_compute; reflexivity].
  intros H. vm_compute in H. decompose [or] H; try discriminate; assumption.
Qed.

(** The exception is needed. *)
Theorem same_script_iso_refuted : exists s txt txt', convert s s txt false [] [] = Ok txt' /\ txt' <> txt.
Proof. exists "ISO233"%u, "shalom"%u, "shalum"%u. split; [vm_compute; reflexivity|discriminate]. Qed.
