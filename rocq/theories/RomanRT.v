(** * Round trips between Devanagari and the reversible Roman schemes (C02).

    The conversions are the modelled [convert] of transliterate.py with
    [nativize=False] and without options (Convert.v, Transliterate.v). *)
From Coq Require Import List NArith ZArith Bool Lia Arith.
From Verif Require Import PyStr Regex Unicode Prog GMLists GeneralMap Convert Transliterate StrFacts AbsRegex Lang Tokenise Analyze IndicRT RomanText
  IndicText IndicFine Stages RomanStages.
Import ListNotations.
Local Open Scope nat_scope.

(** The table after a program, if every token is treated alike in all contexts. *)
Definition rstage (x : list nat) (bad : list str) (p : prog) (L : list str) : option (list str) :=
  if shape_ok (rclasses x bad) 65 then
    if Nat.eqb (length L) (length (rclasses x bad))
    then analyze rranges (rclasses x bad) (rokx x) 65 3 3 p L
    else None
  else None.
Definition rafter (x : list nat) (bad : list str) (src tgt : str) : list str -> option (list str) :=
  rstage x bad (convert_prog src tgt false [] []).
Definition rquiet (x : list nat) (bad : list str) (p : prog) (L : list str) : bool :=
  shape_ok (rclasses x bad) 65 <&> Nat.eqb (length L) (length (rclasses x bad))
  <&> quiet rranges (rclasses x bad) (rokx x) 65 3 3 p L.

Lemma rstage_ok : forall x bad p L L', rstage x bad p L = Some L' ->
  forall ts, valid rranges (rclasses x bad) (rokx x) 0 ts = true -> run p (render L ts) = Ok (render L' ts).
Proof.
  intros x bad p L L' H ts Hv. unfold rstage in H.
  destruct (shape_ok (rclasses x bad) 65) eqn:Hs; [|discriminate].
  destruct (Nat.eqb_spec (length L) (length (rclasses x bad))) as [Hl|]; [|discriminate].
  now apply (analyze_ok _ _ _ _ _ _ Hs _ _ _ Hl H).
Qed.
Lemma rafter_ok : forall x bad src tgt L L', rafter x bad src tgt L = Some L' ->
  forall ts, valid rranges (rclasses x bad) (rokx x) 0 ts = true -> conv src tgt (render L ts) = Ok (render L' ts).
Proof. intros x bad src tgt L L'. exact (rstage_ok x bad _ L L'). Qed.
Lemma rquiet_ok : forall x bad p L, rquiet x bad p L = true -> forall o, In o p ->
  forall ts, valid rranges (rclasses x bad) (rokx x) 0 ts = true -> run_op o (render L ts) = Ok (render L ts).
Proof.
  intros x bad p L H. unfold rquiet in H. apply andb_true_iff in H as [H H3]. apply andb_true_iff in H as [H1 H2].
  apply Nat.eqb_eq in H2. exact (quiet_ok _ _ _ _ _ _ H1 p L H2 H3).
Qed.

(** GeneralMap.py:297 (RomanReversible): the schemes, the prohibited
    neighbourhoods (RomanText.radjacent) and the excluded sequences. *)
Definition roman_schemes : list (str * (list nat * list str)) :=
  [("IAST"%u, ([], [])); ("ISO"%u, ([], [])); ("Titus"%u, ([], [])); ("WX"%u, ([], []));
   ("RussianCyrillic"%u, ([], [])); ("HK"%u, ([2], ["ग्२"%u; "न्२"%u; "र्२"%u; "र्३"%u; "श्२"%u]));
   ("Velthuis"%u, ([1; 3], ["ओ"%u])); ("Itrans"%u, ([4], ["स्ह"%u; "श्ह"%u; "ळ्ळ"%u; "द्न्य"%u]))].

(** The same by neighbourhoods and sequences. *)
Definition groups : list ((list nat * list str) * list str) :=
  [(([], []), ["IAST"%u; "ISO"%u; "Titus"%u; "WX"%u; "RussianCyrillic"%u]);
   (([2], ["ग्२"%u; "न्२"%u; "र्२"%u; "र्३"%u; "श्२"%u]), ["HK"%u]);
   (([1; 3], ["ओ"%u]), ["Velthuis"%u]);
   (([4], ["स्ह"%u; "श्ह"%u; "ळ्ळ"%u; "द्न्य"%u]), ["Itrans"%u])].
Lemma scheme_group : forall R c, In (R, c) roman_schemes -> exists Rs, In (c, Rs) groups /\ In R Rs.
Proof.
  intros R c H. repeat (destruct H as [H|H]; [injection H as <- <-; eexists; split; [|]; [vm_compute; tauto|vm_compute; tauto]|]).
  destruct H.
Qed.

(** *** The intermediate spelling

    The text in the intermediate alphabet.  It does not depend on the scheme; IAST
    serves to name it. *)
Definition latin_prog : prog :=
  convert_prog "Devanagari"%u "IAST"%u false [] [] ++ pre "IAST"%u "IAST"%u ++ fix_in "IAST"%u ++ convertInter "IAST"%u.

Definition is_table (a : option (list str)) (L : list str) : bool := match a with None => false | Some L' => table_eqb L' L end.
Lemma is_table_eq : forall a L, is_table a L = true -> a = Some L.
Proof. intros [L'|] L H; [|discriminate]. apply table_eqb_eq in H. now subst. Qed.
Definition om : N := 0x950%N.

Definition scheme_check (x : list nat) (bad : list str) (J0 : list str) (R : str) : bool :=
  match rafter x bad "Devanagari"%u R (rtable x bad) with
  | None => false
  | Some L =>
      match rstage x bad (prepared R ++ fix_in R) L with
      | None => false
      | Some L1 => is_table (rstage x bad (plain_li R) L1) L1
                   <&> rquiet x bad (om_li R "Devanagari"%u) L1 <&> all (fun s => negb (memN om s)) L1
                   <&> is_table (rstage x bad (convertInter R) L1) J0
      end
      <&> is_table (rstage x bad (back_ll R) J0) L
  end.
Definition group_check (g : (list nat * list str) * list str) : bool :=
  let x := fst (fst g) in let bad := snd (fst g) in
  match rstage x bad latin_prog (rtable x bad) with
  | Some J0 => all (scheme_check x bad J0) (snd g)
  | _ => false
  end.
Lemma groups_checked : all group_check groups = true.
Proof. vm_cast_no_check (eq_refl true). Qed.

Lemma schemes_prohibitions : forall p, In p roman_schemes -> In (fst (snd p)) prohibitions.
Proof. intros p H. repeat (destruct H as [<- | H]; [vm_compute; tauto|]). destruct H. Qed.

(** The texts of scheme [R]: what the stages make of them. *)
Record roman_image (R s t j : str) : Prop := RomanImage {
  ri_conv : conv "Devanagari"%u R s = Ok t;
  ri_latin : run latin_prog s = Ok j;
  ri_in : exists t0 t1, run (prepared R) t = Ok t0 /\ run (fix_in R) t0 = Ok t1 /\ run (plain_li R) t1 = Ok t1 /\
    (forall o, In o (om_li R "Devanagari"%u) -> run_op o t1 = Ok t1) /\ ~ In om t1 /\ run (convertInter R) t1 = Ok j;
  ri_back : run (back_ll R) j = Ok t }.

Lemma lacks_render : forall c x bad L, foreign rranges c = false -> all (fun s => negb (memN c s)) L = true ->
  forall ts r, valid rranges (rclasses x bad) (rokx x) r ts = true -> ~ In c (render L ts).
Proof.
  intros c x bad L Hf H. induction ts as [|it ts IH]; intros r Hv Hin; [easy|]. simpl in Hv.
  apply andb_true_iff in Hv as [Hv Hv2]. apply andb_true_iff in Hv as [Hv1 _].
  rewrite render_cons in Hin. apply in_app_or in Hin as [Hin|Hin]; [|exact (IH _ Hv2 Hin)].
  destruct it as [k|d].
  - assert (Hk : In (nth k L []) L \/ nth k L [] = []) by (destruct (nth_in_or_default k L []); auto).
    change (In c (nth k L [])) in Hin. destruct Hk as [Hk|Hk]; [|rewrite Hk in Hin; easy].
    rewrite all_forall in H. specialize (H _ Hk). apply memN_In in Hin. rewrite Hin in H. discriminate.
  - destruct Hin as [->|[]]. change (foreign rranges c = true) in Hv1. congruence.
Qed.

Theorem scheme_image : forall R x bad, In (R, (x, bad)) roman_schemes ->
  forall s, roman_text x s = true -> avoids bad s = true -> exists t j, roman_image R s t j.
Proof.
  intros R x bad Hin s Hs Ha. destruct (roman_tokens x bad s (schemes_prohibitions _ Hin) Hs Ha) as [Hr Hv].
  destruct (scheme_group _ _ Hin) as (Rs & Hg & HR). pose proof groups_checked as C. rewrite all_forall in C.
  specialize (C _ Hg). clear Hg Hin. unfold group_check in C. cbn [fst snd] in C.
  destruct (rstage x bad latin_prog _) as [J|] eqn:EJ; [|discriminate].
  rewrite all_forall in C. specialize (C _ HR). unfold scheme_check in C.
  destruct (rafter x bad _ R _) as [L|] eqn:EL; [|discriminate].
  apply andb_true_iff in C as [C C3].
  destruct (rstage x bad (prepared R ++ fix_in R) L) as [L1|] eqn:E0; [|discriminate].
  apply andb_true_iff in C as [C C2]. apply andb_true_iff in C as [C C12]. apply andb_true_iff in C as [C1 C11].
  apply is_table_eq in C1, C2, C3.
  exists (render L (rtoks x s)), (render J (rtoks x s)). split.
  - rewrite <- Hr at 1. now apply (rafter_ok _ _ _ _ _ _ EL).
  - rewrite <- Hr at 1. now apply (rstage_ok _ _ _ _ _ EJ).
  - pose proof (rstage_ok _ _ _ _ _ E0 _ Hv) as P. rewrite run_app in P.
    destruct (run (prepared R) _) as [t0|] eqn:P0; [|discriminate]. cbn [rbind] in P.
    exists t0, (render L1 (rtoks x s)). split; [reflexivity|]. split; [exact P|].
    split; [now apply (rstage_ok _ _ _ _ _ C1)|].
    split; [intros o Ho; now apply (rquiet_ok _ _ _ _ C11)|].
    split; [now apply (lacks_render om x bad L1) with (r := 0)|]. now apply (rstage_ok _ _ _ _ _ C2).
  - now apply (rstage_ok _ _ _ _ _ C3).
Qed.

Lemma scheme_name : forall R c, In (R, c) roman_schemes -> In R roman_names.
Proof. intros R c H. repeat (destruct H as [H|H]; [injection H as <- _; vm_compute; tauto|]). destruct H. Qed.

(** From a scheme to an Indic script, and to another scheme. *)
Theorem image_li : forall R s t j, In R roman_names -> roman_image R s t j ->
  forall B, staged B = true -> alike om (om_li R "Devanagari"%u) (om_li R B) = true ->
  conv R B t = run (rest_li ++ letters_li B ++ back B) j.
Proof.
  intros R s t j HR [_ _ (t0 & t1 & P0 & P1 & P2 & P3 & P4 & P5) _] B HB Ha. unfold conv, convert.
  apply (prepared_ok R HR) in P0 as [P0 Ph].
  rewrite (convert_li R B t t0 HR HB (P0 _) Ph). unfold front_li, inter_li.
  rewrite run_app, (run_app (fix_in R)), P1. cbn [rbind]. rewrite P2. cbn [rbind].
  rewrite run_app, (alike_ok om _ _ t1 Ha P4 P3). cbn [rbind].
  rewrite run_app, (run_app (convertInter R)), P5. cbn [rbind]. now rewrite <- run_app.
Qed.
Theorem image_ll : forall R R' s t j t' j', In R roman_names -> In R' roman_names -> R <> R' ->
  roman_image R s t j -> roman_image R' s t' j' -> conv R R' t = Ok t'.
Proof.
  intros R R' s t j t' j' HR HR' Hne [_ J (t0 & t1 & P0 & P1 & _ & _ & _ & P5) _] [_ J' _ B]. unfold conv, convert.
  apply (prepared_ok R HR) in P0 as [P0 Ph].
  rewrite (convert_ll R R' t t0 HR HR' Hne (P0 _) Ph), run_app. unfold front_ll. rewrite run_app, P1. cbn [rbind]. rewrite P5. cbn [rbind].
  rewrite J in J'. injection J' as <-. exact B.
Qed.

(** With fewer prohibitions there are more texts. *)
Lemma memb_incl : forall l l' a, all (fun k => memb k l') l = true -> memb a l = true -> memb a l' = true.
Proof.
  intros l l' a H Hm. unfold memb in Hm. apply existsb_exists in Hm as (k & Hk & E). apply Nat.eqb_eq in E. subst k.
  rewrite all_forall in H. now apply H.
Qed.
Lemma radjacent_none : forall x a b, radjacent x a b = true -> radjacent [] a b = true.
Proof.
  intros x a b. unfold radjacent. change (memb 1 []) with false; change (memb 2 []) with false;
    change (memb 3 []) with false; change (memb 4 []) with false. 
  do 30 (destruct b as [|b]; [lazy iota beta delta [orb andb negb];
    first [exact (fun h => h)|exact (fun _ => eq_refl)
          |match goal with |- (if ?c then memb a ?l else memb a ?l') = true -> _ =>
             destruct c; [exact (memb_incl l l' a eq_refl)|exact (fun h => h)] end]|]).
  exact (fun h => h).
Qed.
Lemma wf_text_mono : forall M ct (P Q : nat -> nat -> bool), (forall a b, P a b = true -> Q a b = true) ->
  forall s k, wf_text M ct P k s = true -> wf_text M ct Q k s = true.
Proof.
  intros M ct P Q H. induction s as [|c s IH]; intros k; cbn [wf_text].
  - apply H.
  - intros W. apply andb_true_iff in W as [W W3]. apply andb_true_iff in W as [W1 W2].
    now rewrite W1, (H _ _ W2), (IH _ W3).
Qed.
Lemma roman_text_none : forall x s, roman_text x s = true -> roman_text [] s = true.
Proof. intros x s. apply wf_text_mono. exact (radjacent_none x). Qed.

(** The texts on the way to an Indic script, token by token. *)
Definition given (a : option (list str)) : list str := match a with Some L => L | None => [] end.
Definition inter_table : list str := Eval vm_compute in given (rstage [] [] (latin_prog ++ rest_li) (rtable [] [])).

(** Devanagari again. *)
Definition again_check (x : list nat) (bad : list str) (I0 : list str) (names : list str) : bool :=
  is_table (rstage x bad (latin_prog ++ rest_li) (rtable x bad)) I0
  <&> is_table (rstage x bad (letters_li "Devanagari"%u ++ back "Devanagari"%u) I0) (rtable x bad)
  <&> all (fun R => alike om (om_li R "Devanagari"%u) (om_li R "Devanagari"%u)) names.
Lemma again_ok : forall x bad I0 names, again_check x bad I0 names = true ->
  (rstage x bad (latin_prog ++ rest_li) (rtable x bad) = Some I0 /\
   rstage x bad (letters_li "Devanagari"%u ++ back "Devanagari"%u) I0 = Some (rtable x bad)) /\
  (forall R, In R names -> alike om (om_li R "Devanagari"%u) (om_li R "Devanagari"%u) = true).
Proof.
  intros x bad I0 names C. unfold again_check in C. apply andb_true_iff in C as [C C3]. apply andb_true_iff in C as [C1 C2].
  apply is_table_eq in C1, C2. rewrite all_forall in C3. now repeat split.
Qed.
Lemma again_checked : again_check [] [] inter_table roman_names = true.
Proof. vm_cast_no_check (eq_refl true). Qed.

(** What comes after the intermediate alphabet. *)
Lemma from_inter : forall x bad I0 s j, rstage x bad (latin_prog ++ rest_li) (rtable x bad) = Some I0 -> In x prohibitions ->
  roman_text x s = true -> avoids bad s = true -> run latin_prog s = Ok j ->
  forall p L, rstage x bad p I0 = Some L -> run (rest_li ++ p) j = Ok (render L (rtoks x s)).
Proof.
  intros x bad I0 s j EI Hx Hs Ha E p L EL. destruct (roman_tokens x bad s Hx Hs Ha) as [Hr Hv].
  pose proof (rstage_ok _ _ _ _ _ EI _ Hv) as P. rewrite Hr, run_app, E in P. cbn [rbind] in P.
  rewrite run_app, P. cbn [rbind]. exact (rstage_ok _ _ _ _ _ EL _ Hv).
Qed.

(** A Devanagari text converted to one of the schemes and back is unchanged. *)
Theorem roundtrip_roman_partial : forall X x bad, In (X, (x, bad)) roman_schemes ->
  forall s, roman_text x s = true -> avoids bad s = true ->
  exists t, conv "Devanagari"%u X s = Ok t /\ conv X "Devanagari"%u t = Ok s.
Proof.
  intros X x bad Hin s Hs Ha. destruct (scheme_image X x bad Hin s Hs Ha) as (t & j & RI).
  destruct (again_ok _ _ _ _ again_checked) as [[C0 C1] C2]. pose proof (scheme_name _ _ Hin) as HX.
  exists t. split; [exact (ri_conv _ _ _ _ RI)|].
  rewrite (image_li X s t j HX RI "Devanagari"%u eq_refl (C2 X HX)).
  rewrite (from_inter _ _ _ s j C0 (or_introl eq_refl) (roman_text_none x s Hs) eq_refl (ri_latin _ _ _ _ RI) _ _ C1).
  f_equal. apply (roman_tokens [] [] s); [now left|exact (roman_text_none x s Hs)|reflexivity].
Qed.

(** A text to which the theorem applies, with hiatus (प्रउग), a stop before ह
    (वाग्हरि), a final consonant, digits and foreign characters. *)
Definition verse : str := "धर्मक्षेत्रे कुरुक्षेत्रे समवेता युयुत्सवः। वाग्हरि प्रउग वाक् १२ 漢"%u.
Example roundtrip_roman_partial_case :
  In ("Itrans"%u, ([4], ["स्ह"%u; "श्ह"%u; "ळ्ळ"%u; "द्न्य"%u])) roman_schemes
  /\ roman_text [4] verse = true /\ avoids ["स्ह"%u; "श्ह"%u; "ळ्ळ"%u; "द्न्य"%u] verse = true
  /\ conv "Devanagari"%u "Itrans"%u verse
     = Ok "dharmakShetre kurukShetre samavetA yuyutsavaH. vAg_hari pra_uga vAk 12 漢"%u.
Proof. repeat split; [vm_compute; tauto|..]; vm_compute; reflexivity. Qed.

(* ------------------------------------------------------------------ *)
(** ** What is excluded is lossy *)

(** A text is lost in scheme [X]. *)
Definition lost (X s : str) : bool :=
  match conv "Devanagari"%u X s with
  | Ok t => match conv X "Devanagari"%u t with Ok u => negb (str_eqb u s) | Err _ => true end
  | Err _ => true
  end.

(** Without the prohibitions and the excluded sequences the claim is false: लृ and ऌ
    are both "lR" in HK; Velthuis spells कई with a mark it does not read, reads
    " o m " as ॐ and swallows the vowel before a danda and र; Itrans spells स्ह as
    श, श्ह as ष, द्न्य as ज्ञ. *)
Theorem roundtrip_roman_refuted :
  exists X s, In X (map fst roman_schemes) /\ roman_text [] s = true /\
    exists t u, conv "Devanagari"%u X s = Ok t /\ conv X "Devanagari"%u t = Ok u /\ u <> s.
Proof.
  exists "HK"%u, "लृ"%u. split; [vm_compute; tauto|]. split; [vm_compute; reflexivity|].
  exists "lR"%u, "ऌ"%u. repeat split; try (vm_compute; reflexivity). discriminate.
Qed.

(** Witnesses for every exclusion: all the pairs excluded for HK, hiatuses and all
    the dandas for Velthuis, the dandas for Itrans (after e where that matters).
    ळ्ळ in Itrans and ओ in Velthuis are excluded as a whole, though only lost before
    i and before a single-letter consonant or a gap and म् respectively. *)
Definition danda_before (pre : str) (ds cs : str) : list str := flat_map (fun d => map (fun c => pre ++ [d; c]) cs) ds.
Definition lost_texts : list (str * list str) :=
  [("HK"%u, ["लृ"%u; "लॄ"%u; "ग्२"%u; "न्२"%u; "र्२"%u; "र्३"%u; "श्२"%u]);
   ("Velthuis"%u, flat_map (fun d => map (fun c => [c; d]) "अकमह"%u) ii_uu);
   ("Velthuis"%u, danda_before "क"%u rdandas "हगतथदधनमयरलस"%u);
   ("Velthuis"%u, [" ओ म् "%u; "ओक्म्"%u]);
   ("Itrans"%u, ["स्ह"%u; "श्ह"%u; "ळ्ळि"%u; "ळ्ळी"%u; "द्न्य"%u]);
   ("Itrans"%u, danda_before "क"%u rdandas "हडढणनम"%u ++ ["क।छ"%u; "के।च"%u])].
Definition losses : list (str * str) := flat_map (fun p => map (fun s => (fst p, s)) (snd p)) lost_texts.
Theorem losses_lost : forall X s, In (X, s) losses -> roman_text [] s = true /\ lost X s = true.
Proof.
  assert (H : all (fun p => roman_text [] (snd p) <&> lost (fst p) (snd p)) losses = true)
    by (vm_compute; reflexivity).
  intros X s Hin. rewrite all_forall in H. specialize (H _ Hin). cbn [fst snd] in H.
  now apply andb_true_iff in H.
Qed.
