(** * Options and steps that replace single characters: diacritics, dandas,
    protection of Latin letters (C20, C30, C33). *)
From Coq Require Import List NArith ZArith Bool Lia.
From Verif Require Import PyStr Unicode Prog GMLists GeneralMap ConvertFix1 PreProcess1 PostProcess1
  PostProcess2 Dispatch Transliterate StrFacts.
Import ListNotations.
Open Scope nat_scope.

(* ------------------------------------------------------------------ *)
(** ** Replacing characters one at a time *)

(** A program that only replaces single characters. *)
Definition chars_only (p : prog) : bool :=
  forallb (fun o => match o with Replace [_] _ => true | _ => false end) p.

(** What such a program does to one character. *)
Fixpoint char_image (p : prog) (c : N) : str :=
  match p with
  | Replace [a] y :: q => flat_map (char_image q) (if N.eqb a c then y else [c])
  | _ => [c]
  end.

Lemma flat_map_flat_map : forall (A B C : Type) (f : A -> list B) (g : B -> list C) l,
  flat_map g (flat_map f l) = flat_map (fun a => flat_map g (f a)) l.
Proof. induction l as [|a l IH]; [reflexivity|]. simpl. now rewrite flat_map_app, IH. Qed.

Lemma flat_map_single : forall (A : Type) (l : list A), flat_map (fun a => [a]) l = l.
Proof. induction l as [|a l IH]; simpl; congruence. Qed.

Lemma chars_only_run : forall p s, chars_only p = true -> run p s = Ok (flat_map (char_image p) s).
Proof.
  induction p as [|o p IH]; intros s H.
  - simpl. now rewrite flat_map_single.
  - cbn [chars_only forallb] in H. apply andb_true_iff in H as [Ho Hp].
    destruct o; try discriminate. destruct x as [|a [|b x]]; try discriminate.
    cbn [run run_op]. rewrite IH by assumption.
    rewrite replace_char, flat_map_flat_map. reflexivity.
Qed.

(** If a character-wise map sends both sides of a replacement to the same
    string, it does not see the replacement. *)
Lemma replace_go_hom : forall (g : N -> str) x y, x <> [] -> flat_map g x = flat_map g y ->
  forall s n u, length u = n -> (exists r, u ++ r = s) ->
  flat_map g u ++ flat_map g (replace_go x y n s) = flat_map g s.
Proof.
  intros g x y Hx E. induction s as [|c s IH]; intros n u Hn (r & Hu).
  - apply app_eq_nil in Hu as [-> ->]. reflexivity.
  - destruct n as [|n].
    + apply length_zero_iff_nil in Hn as ->. simpl (flat_map g []). cbn [app].
      cbn [replace_go]. destruct (prefixb x (c :: s)) eqn:P.
      * apply prefixb_spec in P as (q & P). rewrite flat_map_app, <- E.
        destruct x as [|a x]; [easy|]. injection P as <- P. cbn [length pred flat_map].
        rewrite <- app_assoc. f_equal. apply IH; [reflexivity|]. exists q. now rewrite P.
      * cbn [flat_map]. f_equal. apply (IH 0 []); [reflexivity|]. now exists s.
    + destruct u as [|d u]; [discriminate|]. injection Hn as Hn. injection Hu as -> Hu.
      cbn [replace_go flat_map]. rewrite <- app_assoc. f_equal. apply IH; [assumption|].
      now exists r.
Qed.

Lemma replace_hom : forall (g : N -> str) x y s, x <> [] -> flat_map g x = flat_map g y ->
  flat_map g (replace x y s) = flat_map g s.
Proof.
  intros g x y s Hx E. destruct x as [|a x]; [easy|]. unfold replace.
  apply (replace_go_hom g (a :: x) y Hx E s 0 []); [reflexivity|]. now exists s.
Qed.

(* ------------------------------------------------------------------ *)
(** ** C30: removing diacritics *)

Definition delete (marks : str) (s : str) : str :=
  filter (fun c => negb (existsb (N.eqb c) marks)) s.

Lemma delete_run : forall marks s,
  run (map (fun c => Replace [c] []) marks) s = Ok (delete marks s).
Proof.
  induction marks as [|m marks IH]; intros s.
  - simpl. unfold delete. simpl. f_equal.
    induction s as [|c s IH]; [reflexivity|]. simpl. now rewrite <- IH.
  - cbn [map run run_op]. rewrite IH, replace_char. f_equal.
    unfold delete. induction s as [|c s IHs]; [reflexivity|]. cbn [flat_map filter existsb].
    rewrite (N.eqb_sym c m). destruct (N.eqb m c); [exact IHs|].
    cbn [app filter]. destruct (existsb (N.eqb c) marks); cbn [negb orb]; [exact IHs|]. now rewrite IHs.
Qed.

Lemma delete_idempotent : forall marks s, delete marks (delete marks s) = delete marks s.
Proof.
  intros marks s. unfold delete. induction s as [|c s IH]; [reflexivity|]. simpl.
  destruct (negb (existsb (N.eqb c) marks)) eqn:E; simpl; [rewrite E; now rewrite IH|assumption].
Qed.

(** C30, first option: exactly the five marks ʼ ˇ ˆ ˘ · are deleted, everything else is kept in
    order, for every text. *)
Theorem remove_diacritics_deletes : forall s,
  run PP_RemoveDiacritics s = Ok (filter (fun c => negb (existsb (N.eqb c) "ʼˇˆ˘·"%u)) s).
Proof. intros s. exact (delete_run "ʼˇˆ˘·"%u s). Qed.

(** C30, second option: the four marks ˇ ˆ ˘ ·. *)
Theorem remove_diacritics_tamil_deletes : forall s,
  run PP_RemoveDiacriticsTamil s = Ok (filter (fun c => negb (existsb (N.eqb c) "ˇˆ˘·"%u)) s).
Proof. intros s. exact (delete_run "ˇˆ˘·"%u s). Qed.

(** C30: applying them twice is applying them once. *)
Theorem remove_diacritics_idempotent : forall p s, In p [PP_RemoveDiacritics; PP_RemoveDiacriticsTamil] ->
  exists s', run p s = Ok s' /\ run p s' = Ok s'.
Proof.
  intros p s [<-|[<-|[]]]; eexists; (split; [|shelve]).
  - apply remove_diacritics_deletes.
  - apply remove_diacritics_tamil_deletes.
  Unshelve.
  all: [> rewrite remove_diacritics_deletes | rewrite remove_diacritics_tamil_deletes];
    f_equal; apply (delete_idempotent).
Qed.

Example remove_diacritics_case :
  run PP_RemoveDiacritics "अʼॴˇkˆ·x"%u = Ok "अॴkx"%u
  /\ run PP_RemoveDiacriticsTamil "अʼॴˇkˆ·x"%u = Ok "अʼॴkx"%u.
Proof. split; vm_compute; reflexivity. Qed.

(** The Roman option removeDiacritics: the combining marks below are deleted and the three precomposed
    Cyrillic letters lose their mark; every other character is kept. *)
Definition combining_marks : str :=
  [0x331; 0x306; 0x323; 0x35F; 0x324; 0x307; 0x301; 0x303; 0x310; 0x302; 0x304]%N.
Definition plain_letter (c : N) : str :=
  if existsb (N.eqb c) combining_marks then []
  else if N.eqb c 0x4E3 then [0x438%N] (* ӣ, и *)
  else if N.eqb c 0x4EF then [0x443%N] (* ӯ, у *)
  else if N.eqb c 0x4D7 then [0x44D%N] (* ӗ, э *)
  else [c].

Lemma delete_not_In : forall marks s c, In c marks -> ~ In c (delete marks s).
Proof.
  intros marks s c Hc H. apply filter_In in H as [_ H]. rewrite negb_true_iff in H.
  assert (existsb (N.eqb c) marks = true); [|congruence].
  apply existsb_exists. exists c. split; [assumption|apply N.eqb_refl].
Qed.

Theorem removeDiacritics_strips : forall s,
  run PP_removeDiacritics s = Ok (flat_map plain_letter s).
Proof.
  intros s.
  pose (marks := [0x331; 0x306; 0x323; 0x35F; 0x324; 0x35F; 0x307; 0x301; 0x303; 0x310; 0x306; 0x302; 0x304]%N).
  change PP_removeDiacritics with
    (map (fun c => Replace [c] []) marks
     ++ [Replace [0x430; 0x304]%N [0x430%N]; Replace [0x4E3%N] [0x438%N];
         Replace [0x4EF%N] [0x443%N]; Replace [0x4D7%N] [0x44D%N]]).
  rewrite run_app, delete_run. cbn [rbind run run_op].
  rewrite (replace_none [0x430; 0x304]%N).
  2:{ apply contains_char with (c := 0x304%N); [right; now left|]. apply delete_not_In.
      apply (nth_In marks 0%N (n := 12)). simpl. lia. }
  rewrite !replace_char, !flat_map_flat_map. f_equal. unfold delete.
  induction s as [|c s IH]; [reflexivity|]. cbn [filter flat_map]. rewrite <- IH. clear IH.
  assert (E : existsb (N.eqb c) marks = existsb (N.eqb c) combining_marks).
  { apply eq_true_iff_eq. rewrite !existsb_exists.
    split; intros (d & Hd & Hc); exists d; (split; [|assumption]); revert Hd; clear;
      intros H; simpl in H; decompose [or] H; subst; simpl; tauto. }
  rewrite E. unfold plain_letter. destruct (existsb (N.eqb c) combining_marks) eqn:M; [reflexivity|].
  cbn [negb flat_map]. f_equal.
  rewrite (N.eqb_sym c 0x4E3), (N.eqb_sym c 0x4EF), (N.eqb_sym c 0x4D7).
  destruct (N.eqb_spec 0x4E3 c) as [<-|]; [reflexivity|].
  destruct (N.eqb_spec 0x4EF c) as [<-|]; [reflexivity|].
  cbn [flat_map app]. destruct (N.eqb_spec 0x4EF c); [easy|].
  cbn [flat_map app]. destruct (N.eqb_spec 0x4D7 c); reflexivity.
Qed.

Theorem removeDiacritics_idempotent : forall s,
  exists s', run PP_removeDiacritics s = Ok s' /\ run PP_removeDiacritics s' = Ok s'.
Proof.
  intros s. exists (flat_map plain_letter s). split; rewrite removeDiacritics_strips; [reflexivity|].
  f_equal. rewrite flat_map_flat_map. apply flat_map_ext. intros c. unfold plain_letter.
  destruct (existsb (N.eqb c) combining_marks) eqn:M; [reflexivity|].
  destruct (N.eqb c 0x4E3) eqn:E1; [reflexivity|]. destruct (N.eqb c 0x4EF) eqn:E2; [reflexivity|].
  destruct (N.eqb c 0x4D7) eqn:E3; [reflexivity|]. cbn [flat_map]. now rewrite M, E1, E2, E3.
Qed.

Example removeDiacritics_case :
  run PP_removeDiacritics [0x61; 0x304; 0x74; 0x323; 0x4E3; 0x915]%N = Ok [0x61; 0x74; 0x438; 0x915]%N.
Proof. vm_compute. reflexivity. Qed.

(** The Arabic one deletes the four vowel marks; the Persian and Syriac options do nothing at all. *)
Theorem removeDiacriticsArabic_deletes : forall s,
  run PP_removeDiacriticsArabic s
  = Ok (filter (fun c => negb (existsb (N.eqb c) [0x652; 0x64E; 0x650; 0x64F]%N)) s).
Proof. intros s. exact (delete_run [0x652; 0x64E; 0x650; 0x64F]%N s). Qed.

(** C30 is false of removeDiacriticsPersian and removeDiacriticsSyriac read as diacritic removal: they keep
    every text as it is. *)
Theorem removeDiacritics_noop : forall o s,
  In o ["removeDiacriticsPersian"%u; "removeDiacriticsSyriac"%u] -> run (PP_call o) s = Ok s.
Proof. intros o s [<-|[<-|[]]]; reflexivity. Qed.

(* ------------------------------------------------------------------ *)
(** ** C33: dandas and dots *)

Definition undot (c : N) : str := (* danda, double danda to dots *)
  if N.eqb c 0x964 then "."%u else if N.eqb c 0x965 then ".."%u else [c].

Lemma dot2dandas_hom : forall s, exists s',
  run PP_Dot2Dandas s = Ok s' /\ flat_map undot s' = flat_map undot s.
Proof.
  intros s. eexists. split; [reflexivity|].
  rewrite !replace_hom; [reflexivity|discriminate|reflexivity|discriminate|reflexivity].
Qed.

(** The step that turns dandas into dots (RetainDandasIndic with reverse=True, PostProcess.py:2888-2896). *)
Theorem dandas_to_dots : forall s,
  run (PP_RetainDandasIndic "Devanagari"%u true) s = Ok (flat_map undot s).
Proof.
  intros s.
  change (PP_RetainDandasIndic "Devanagari"%u true)
    with [Replace [0x964%N] "."%u; Replace [0x965%N] ".."%u].
  rewrite chars_only_run by reflexivity. f_equal. apply flat_map_ext. intros c. unfold undot.
  cbn [char_image flat_map]. rewrite (N.eqb_sym c 0x964), (N.eqb_sym c 0x965).
  destruct (N.eqb_spec 0x964 c) as [<-|]; [reflexivity|].
  cbn [flat_map app]. destruct (N.eqb 0x965 c); reflexivity.
Qed.

Lemma undot_id : forall s, ~ In 0x964%N s -> ~ In 0x965%N s -> flat_map undot s = s.
Proof.
  induction s as [|c s IH]; intros H1 H2; [reflexivity|]. cbn [flat_map]. unfold undot at 1.
  destruct (N.eqb_spec c 0x964) as [->|]; [destruct H1; now left|].
  destruct (N.eqb_spec c 0x965) as [->|]; [destruct H2; now left|].
  simpl. f_equal. apply IH; intros H; [apply H1|apply H2]; now right.
Qed.

(** C33: dots to dandas and back is the identity on every text without dandas. *)
Theorem dots_dandas_dots : forall s, ~ In 0x964%N s -> ~ In 0x965%N s ->
  exists s', run PP_Dot2Dandas s = Ok s' /\ run (PP_RetainDandasIndic "Devanagari"%u true) s' = Ok s
             /\ ~ In 46%N s'.
Proof.
  intros s H1 H2. destruct (dot2dandas_hom s) as (s' & E & G). exists s'.
  split; [assumption|]. rewrite dandas_to_dots, G, undot_id by assumption. split; [reflexivity|].
  assert (E' : run PP_Dot2Dandas s = Ok (replace "."%u "।"%u (replace ".."%u "॥"%u s))) by reflexivity.
  rewrite E' in E. assert (Q : s' = replace "."%u "।"%u (replace ".."%u "॥"%u s)) by congruence.
  clear - Q. rewrite (replace_char 46%N) in Q. subst s'. intros X. apply in_flat_map in X as (c & _ & X).
  destruct (N.eqb_spec 46 c) as [e|n]; simpl in X; destruct X as [X|[]]; [discriminate|congruence].
Qed.

(** The other way round: dandas to dots and back is the identity on texts without dots in which no
    two dandas are adjacent ... *)
Fixpoint lone_dandas (s : str) : bool :=
  match s with
  | c :: t => (negb (existsb (N.eqb c) [0x964; 0x965]%N)
               || match t with d :: _ => negb (existsb (N.eqb d) [0x964; 0x965]%N) | [] => true end)
              && lone_dandas t
  | [] => true
  end.

Definition single_only (c : N) : str := if N.eqb c 0x964 then "."%u else [c].

Lemma undot_step : forall s, ~ In 46%N s -> lone_dandas s = true ->
  replace_go ".."%u [0x965%N] 0 (flat_map undot s) = flat_map single_only s.
Proof.
  assert (Hd : forall c s, c <> 46%N -> replace_go ".."%u [0x965%N] 0 (c :: s)
    = c :: replace_go ".."%u [0x965%N] 0 s).
  { intros c s H. cbn [replace_go prefixb]. destruct (N.eqb_spec 46 c); [congruence|reflexivity]. }
  induction s as [|c s IH]; intros H L; [reflexivity|].
  cbn [lone_dandas] in L. apply andb_true_iff in L as [L1 L2].
  assert (H' : ~ In 46%N s) by (intros X; apply H; now right).
  specialize (IH H' L2). cbn [flat_map]. unfold undot at 1, single_only at 1.
  destruct (N.eqb_spec c 0x964) as [->|N1].
  - assert (T : prefixb ".."%u (46%N :: flat_map undot s) = false).
    { cbn [prefixb]. destruct s as [|d s]; [reflexivity|]. cbn [flat_map].
      simpl in L1. unfold undot at 1.
      destruct (N.eqb_spec d 0x964) as [->|]; [discriminate L1|].
      destruct (N.eqb_spec d 0x965) as [->|]; [discriminate L1|].
      cbn [app]. destruct (N.eqb_spec 46 d) as [<-|]; [destruct H'; now left|reflexivity]. }
    change ("."%u ++ flat_map undot s) with (46%N :: flat_map undot s).
    cbn [replace_go]. rewrite T, IH. reflexivity.
  - destruct (N.eqb_spec c 0x965) as [->|N2].
    + change (".."%u ++ flat_map undot s) with (46%N :: 46%N :: flat_map undot s).
      cbn [replace_go prefixb]. cbn. now rewrite IH.
    + simpl app. rewrite Hd, IH; [reflexivity|]. intros ->. apply H. now left.
Qed.

Theorem dandas_dots_dandas : forall s, ~ In 46%N s -> lone_dandas s = true ->
  exists s', run (PP_RetainDandasIndic "Devanagari"%u true) s = Ok s' /\ run PP_Dot2Dandas s' = Ok s.
Proof.
  intros s H L. exists (flat_map undot s). split; [apply dandas_to_dots|].
  change PP_Dot2Dandas with [Replace ".."%u [0x965%N]; Replace "."%u [0x964%N]].
  cbn [run run_op]. f_equal. rewrite replace_char. unfold replace. rewrite undot_step by assumption.
  rewrite flat_map_flat_map. clear L. induction s as [|c s IH]; [reflexivity|]. cbn [flat_map].
  rewrite IH by (intros X; apply H; now right). unfold single_only.
  destruct (N.eqb_spec c 0x964) as [->|]; [reflexivity|].
  cbn [flat_map]. destruct (N.eqb_spec 46 c) as [<-|]; [destruct H; now left|reflexivity].
Qed.

(** ... and not in general: two dandas become one double danda. *)
Theorem dandas_dots_dandas_refuted : exists s, ~ In 46%N s /\
  forall s', run (PP_RetainDandasIndic "Devanagari"%u true) s = Ok s' -> run PP_Dot2Dandas s' <> Ok s.
Proof.
  exists [0x964; 0x964]%N. split; [intros [H|[H|[]]]; discriminate|].
  intros s' H. rewrite dandas_to_dots in H. injection H as <-. vm_compute. discriminate.
Qed.

Example dandas_case :
  lone_dandas "नमः। शिवाय॥ ओम्"%u = true
  /\ run (PP_RetainDandasIndic "Devanagari"%u true) "नमः। शिवाय॥ ओम्"%u = Ok "नमः. शिवाय.. ओम्"%u
  /\ run PP_Dot2Dandas "नमः. शिवाय.. ओम्"%u = Ok "नमः। शिवाय॥ ओम्"%u.
Proof. vm_compute. repeat split. Qed.

(** Pipes: the same for Dot2Pipes; going back is replacing every pipe by a dot. *)
Theorem dots_pipes_dots : forall s, ~ In 124%N s -> exists s',
  run PP_Dot2Pipes s = Ok s' /\ replace "|"%u "."%u s' = s /\ ~ In 46%N s'.
Proof.
  intros s H. eexists. split; [reflexivity|]. split.
  - rewrite (replace_char 124%N).
    rewrite !replace_hom; [|discriminate|reflexivity|discriminate|reflexivity].
    induction s as [|c s IH]; [reflexivity|]. cbn [flat_map].
    destruct (N.eqb_spec 124 c) as [<-|]; [destruct H; now left|].
    simpl. f_equal. apply IH. intros X. apply H. now right.
  - rewrite (replace_char 46%N). intros X. apply in_flat_map in X as (c & _ & X).
    destruct (N.eqb_spec 46 c) as [e|n]; simpl in X; destruct X as [X|[]]; [discriminate|congruence].
Qed.

Example dots_pipes_case : run PP_Dot2Pipes "a. b.. c..."%u = Ok "a| b|| c|||"%u.
Proof. vm_compute. reflexivity. Qed.

(* ------------------------------------------------------------------ *)
(** ** C20: protection of Latin letters in Semitic conversions *)

(** The characters used as markers, and the six that the protection step rewrites. *)
Definition reserved (c : N) : bool :=
  ((0xEE01 <=? c) && (c <=? 0xEE49) || (0xEA01 <=? c) && (c <=? 0xEA06))%N.

Definition back (c : N) : str := char_image (PrP_retainLatin true) c.

Lemma retain_back_run : forall s, run (PrP_retainLatin true) s = Ok (flat_map back s).
Proof. intros s. apply chars_only_run. vm_compute. reflexivity. Qed.

Lemma char_image_other : forall p c,
  forallb (fun o => match o with Replace [a] _ => negb (N.eqb a c) | _ => true end) p = true ->
  char_image p c = [c].
Proof.
  induction p as [|o p IH]; intros c H; [reflexivity|].
  cbn [forallb] in H. apply andb_true_iff in H as [Ho H]. cbn [char_image].
  destruct o; try reflexivity. destruct x as [|a [|b x]]; try reflexivity.
  apply negb_true_iff in Ho. rewrite Ho. cbn [flat_map]. rewrite IH by assumption. reflexivity.
Qed.

Lemma back_id : forall c, reserved c = false -> back c = [c].
Proof.
  intros c H. apply char_image_other. apply forallb_forall. intros o Ho.
  assert (R : forallb (fun o => match o with Replace [a] _ => reserved a | _ => true end)
                (PrP_retainLatin true) = true) by (vm_compute; reflexivity).
  rewrite forallb_forall in R. specialize (R o Ho). destruct o; try reflexivity.
  destruct x as [|a [|b x]]; try reflexivity. apply negb_true_iff. destruct (N.eqb_spec a c) as [->|]; congruence.
Qed.

(** Every replacement of the program is one that [back] undoes, except those on a character that the
    text does not contain. *)
Definition undone (o : op) : bool :=
  match o with
  | Replace x y => negb (str_eqb x []) && str_eqb (flat_map back x) (flat_map back y)
  | _ => false
  end.
Definition idle (bad : N -> bool) (o : op) : bool :=
  match o with Replace [a] _ => bad a | _ => false end.

Lemma hom_run : forall (bad : N -> bool) p s,
  forallb (fun o => match o with Replace x y => negb (existsb bad y) && (undone o || idle bad o)
                                | _ => false end) p = true ->
  existsb bad s = false ->
  exists s', run p s = Ok s' /\ flat_map back s' = flat_map back s.
Proof.
  intros bad. induction p as [|o p IH]; intros s H B; [now exists s|].
  cbn [forallb] in H. apply andb_true_iff in H as [Ho Hp]. destruct o; try discriminate.
  apply andb_true_iff in Ho as [By Ho]. apply negb_true_iff in By.
  cbn [run run_op].
  assert (B' : existsb bad (replace x y s) = false).
  { destruct (existsb bad (replace x y s)) eqn:E; [|reflexivity]. apply existsb_exists in E as (c & Hc & Bc).
    apply replace_chars in Hc as [Hc|Hc].
    - assert (existsb bad s = true) by (apply existsb_exists; now exists c). congruence.
    - assert (existsb bad y = true) by (apply existsb_exists; now exists c). congruence. }
  destruct (IH _ Hp B') as (s' & R & G). exists s'. split; [assumption|]. rewrite G.
  apply orb_true_iff in Ho as [Ho|Ho].
  - cbn [undone] in Ho. apply andb_true_iff in Ho as [Hx He]. apply str_eqb_eq in He.
    apply replace_hom; [|assumption]. intros ->. discriminate.
  - destruct x as [|a [|b x]]; try discriminate. cbn [idle] in Ho.
    rewrite replace_none; [reflexivity|]. apply contains_char with (c := a); [now left|].
    intros Ha. assert (existsb bad s = true) by (apply existsb_exists; now exists a). congruence.
Qed.

(** C20: protecting and unprotecting gives the text back, for every text without the reserved
    private-use characters. *)
Theorem retain_latin_roundtrip : forall s, existsb reserved s = false ->
  exists s', run (PrP_retainLatin false) s = Ok s' /\ run (PrP_retainLatin true) s' = Ok s.
Proof.
  intros s H. pose (bad := fun c : N => ((0xEA01 <=? c) && (c <=? 0xEA06))%N).
  assert (B : existsb bad s = false).
  { destruct (existsb bad s) eqn:E; [|reflexivity]. apply existsb_exists in E as (c & Hc & Bc).
    assert (existsb reserved s = true); [|congruence]. apply existsb_exists. exists c. split; [assumption|].
    unfold reserved. apply orb_true_iff. now right. }
  destruct (hom_run bad (PrP_retainLatin false) s) as (s' & R & G); [vm_compute; reflexivity|assumption|].
  exists s'. split; [assumption|]. rewrite retain_back_run, G. f_equal.
  clear - H. induction s as [|c s IH]; [reflexivity|]. cbn [existsb] in H. apply orb_false_iff in H as [H1 H2].
  cbn [flat_map]. now rewrite back_id, IH.
Qed.

(** Without the condition it is false. *)
Theorem retain_latin_roundtrip_refuted : exists s s',
  run (PrP_retainLatin false) s = Ok s' /\ run (PrP_retainLatin true) s' <> Ok s.
Proof. exists [0xEE01%N], [0xEE01%N]. split; [vm_compute; reflexivity|vm_compute; discriminate]. Qed.

Example retain_latin_case :
  existsb reserved "Shalom שלום ḥōAŌ"%u = false
  /\ run (PrP_retainLatin false) "Shalom"%u = Ok [0xEE37; 0xEE08; 0xEE01; 0xEE0C; 0xEE0F; 0xEE0D]%N.
Proof. split; vm_compute; reflexivity. Qed.

(** Which letters are protected: none of these is left between the two steps, so no conversion rule
    for them can fire. *)
Definition protected_letters : str :=
  "abcdefghijklmnopqrstuvwxyzḥṭṣʾʿšāīūēBCDEFGHIJKLMNOPQRSTUVWXYZḤṬṢŠĀĪŪĒŌ"%u.

Definition all_replaced (letters : str) (p : prog) : bool :=
  forallb (fun c => existsb (fun o => match o with Replace [a] _ => N.eqb a c | _ => false end) p) letters
  && forallb (fun o => match o with Replace _ y => negb (existsb (fun c => existsb (N.eqb c) letters) y)
                                  | _ => false end) p.

Lemma replaced_stays_out : forall letters p s s', 
  forallb (fun o => match o with Replace _ y => negb (existsb (fun c => existsb (N.eqb c) letters) y)
                                  | _ => false end) p = true ->
  run p s = Ok s' -> forall c, In c letters -> In c s' ->
  In c s /\ forallb (fun o => match o with Replace [a] _ => negb (N.eqb a c) | _ => true end) p = true.
Proof.
  intros letters. induction p as [|o p IH]; intros s s' H R c Hc Hs.
  - injection R as <-. now split.
  - cbn [forallb] in H. apply andb_true_iff in H as [Ho Hp]. destruct o; try discriminate.
    apply negb_true_iff in Ho. cbn [run run_op] in R.
    destruct (IH _ _ Hp R c Hc Hs) as [Hi Hn].
    assert (Hy : ~ In c y).
    { intros Hy. assert (existsb (fun c => existsb (N.eqb c) letters) y = true); [|congruence].
      apply existsb_exists. exists c. split; [assumption|]. apply existsb_exists. exists c.
      split; [assumption|apply N.eqb_refl]. }
    assert (Hin : In c s) by (apply replace_chars in Hi as [?|?]; [assumption|contradiction]).
    split; [assumption|]. cbn [forallb]. rewrite Hn, andb_true_r.
    destruct x as [|a [|b x]]; try reflexivity. apply negb_true_iff. apply N.eqb_neq. intros ->.
    rewrite replace_char in Hi. apply in_flat_map in Hi as (d & _ & Hd).
    destruct (N.eqb_spec c d) as [e|n]; [contradiction|]. destruct Hd as [e|[]]. congruence.
Qed.

Theorem latin_letters_protected : forall s s' c,
  (forall d, In d s -> ~ (0xEA01 <= d <= 0xEA06)%N) ->
  run (PrP_retainLatin false) s = Ok s' -> In c protected_letters -> ~ In c s'.
Proof.
  intros s s' c Hd R Hc Hs.
  pose (p1 := firstn 73 (PrP_retainLatin false)).
  pose (p2 := skipn 73 (PrP_retainLatin false)).
  assert (E : PrP_retainLatin false = p1 ++ p2) by (vm_compute; reflexivity).
  rewrite E, run_app in R. unfold rbind in R. destruct (run p1 s) as [s1|e] eqn:R1; [|discriminate].
  assert (S1 : forall d, In d s1 -> ~ (0xEA01 <= d <= 0xEA06)%N).
  { assert (P1 : forallb (fun o => match o with Replace _ [d] => N.leb 0xEE01 d | _ => false end) p1 = true)
      by (vm_compute; reflexivity).
    clearbody p1. clear E R. revert s Hd R1. induction p1 as [|o p IH]; intros s Hd R1.
    - injection R1 as <-. assumption.
    - cbn [forallb] in P1. apply andb_true_iff in P1 as [Po Pp]. destruct o; try discriminate.
      destruct y as [|d [|d' y]]; try discriminate. cbn [run run_op] in R1.
      refine (IH Pp _ _ R1). intros e He. apply replace_chars in He as [He|[<-|[]]]; [now apply Hd|].
      apply N.leb_le in Po. lia. }
  assert (Hs1 : s' = s1).
  { assert (P2 : forallb (fun o => match o with Replace [d] _ => N.leb 0xEA01 d && N.leb d 0xEA06 | _ => false end) p2 = true)
      by (vm_compute; reflexivity).
    clearbody p2. clear E. revert R. induction p2 as [|o p IH]; intros R; [now injection R|].
    cbn [forallb] in P2. apply andb_true_iff in P2 as [Po Pp]. destruct o; try discriminate.
    destruct x as [|d [|d' x]]; try discriminate. cbn [run run_op] in R.
    rewrite replace_none in R; [now apply IH|]. apply contains_char with (c := d); [now left|].
    intros X. apply S1 in X. apply andb_true_iff in Po as [A B]. apply N.leb_le in A, B. lia. }
  subst s1. destruct (replaced_stays_out protected_letters p1 s s') with (c := c) as [_ F];
    [vm_compute; reflexivity|assumption|assumption|assumption|].
  assert (G : forallb (fun c => existsb (fun o => match o with Replace [a] _ => N.eqb a c | _ => false end) p1)
                protected_letters = true) by (vm_compute; reflexivity).
  rewrite forallb_forall in G. specialize (G c Hc). apply existsb_exists in G as (o & Ho & G).
  rewrite forallb_forall in F. specialize (F o Ho). destruct o; try discriminate.
  destruct x as [|a [|b x]]; try discriminate. rewrite G in F. discriminate.
Qed.

(** Letters that are not protected: the lower-case list and the upper-case list are joined without a
    space, so the entries for ō and A are one entry for the pair; each alone is left in the text, and
    ō is then converted (Hebrew to IAST turns it into ŏ). *)
Theorem latin_letters_protected_refuted : exists c s',
  In c ["ō"%u; "A"%u] /\ run (PrP_retainLatin false) c = Ok s' /\ s' = c.
Proof. exists "ō"%u, "ō"%u. split; [now left|]. split; vm_compute; reflexivity. Qed.

Theorem latin_o_macron_converted :
  convert "Hebr"%u "IAST"%u "ō x"%u false [] [] = Ok "ŏ x"%u.
Proof. vm_compute. reflexivity. Qed.
