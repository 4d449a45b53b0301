(** * Script tables: order of the replacement pairs (C28), extension on import (C34), the Semitic
    engine on equal scripts (C32). *)
From Coq Require Import List NArith ZArith Bool Lia Permutation Sorted.
From Verif Require Import PyStr Prog ScriptData FallBackData GMLists GeneralMap ConvertFix1 Gimeltra Convert
  Transliterate StrFacts SortFacts.
Import ListNotations.
Open Scope nat_scope.

(* ------------------------------------------------------------------ *)
(** ** C28 *)

Definition proper_prefix (x y : str) : Prop := exists r, r <> [] /\ y = x ++ r.

(** No pair comes after a pair whose source is a proper prefix of its own. *)
Definition longest_first (l : list (str * str)) : Prop :=
  forall l1 p l2 q l3, l = l1 ++ p :: l2 ++ q :: l3 -> ~ proper_prefix (fst p) (fst q).

Lemma sorted_app : forall (A : Type) (R : A -> A -> Prop) l1 p l2 q l3,
  StronglySorted R (l1 ++ p :: l2 ++ q :: l3) -> R p q.
Proof.
  induction l1 as [|a l1 IH]; intros p l2 q l3 H; cbn [app] in H; inversion H; subst.
  - rewrite Forall_forall in *. match goal with F : forall x, _ -> R p x |- _ => apply F end.
    apply in_or_app. right. now left.
  - eauto.
Qed.

Lemma lenSort_longest_first : forall l, longest_first (lenSort l).
Proof.
  intros l l1 p l2 q l3 E (r & Hr & Q).
  assert (S : StronglySorted (fun a b : str * str => longer (fst b) (fst a) = false) (lenSort l)).
  { apply ssort_sorted; [intros a b|intros a b c]; unfold SortFacts.le, longer; rewrite ?Nat.ltb_lt, ?Nat.ltb_ge; lia. }
  rewrite E in S. apply sorted_app in S. unfold longer in S. apply Nat.ltb_ge in S.
  rewrite Q, app_length in S. destruct r; [easy|]. simpl in S. lia.
Qed.

Lemma lenSort_perm : forall l, Permutation (lenSort l) l.
Proof. intros. apply ssort_perm. Qed.

(** The pairs of one conversion: zip of the two scripts' symbol lists, group by group. *)
Fixpoint zipped (fs ft : str -> str -> str) (Source Target : str) (groups : list str) : res (list (str * str)) :=
  match groups with
  | [] => Ok []
  | g :: gs =>
      do parts <- retCharList g;
      do s <- CrunchSymbols parts Source;
      do t <- CrunchSymbols parts Target;
      do rest <- zipped fs ft Source Target gs;
      Ok (zip (map (fs g) s) (map (ft g) t) ++ rest)
  end.

Lemma charPairs_zipped : forall fs ft S T pairs, charPairs fs ft S T = Ok pairs ->
  exists z, zipped fs ft S T GM_ScriptAll = Ok z /\ Permutation pairs z.
Proof.
  intros fs ft S T pairs. unfold charPairs. destruct (mapR (group_pairs fs ft S T) GM_ScriptAll) as [gs|e] eqn:E; [|discriminate].
  cbn [rbind]. intros H. assert (pairs = lenSort (concat gs)) as -> by congruence. clear H.
  assert (G : forall groups gs, mapR (group_pairs fs ft S T) groups = Ok gs ->
    exists z, zipped fs ft S T groups = Ok z /\ Permutation (concat gs) z).
  { clear. induction groups as [|g groups IH]; intros gs H; cbn [mapR zipped] in *.
    - exists []. split; [reflexivity|]. injection H as <-. reflexivity.
    - unfold group_pairs at 1 in H.
      destruct (retCharList g) as [parts|e]; [|discriminate]. cbn [rbind] in *.
      destruct (CrunchSymbols parts S) as [s|e]; [|discriminate]. cbn [rbind] in *.
      destruct (CrunchSymbols parts T) as [t|e]; [|discriminate]. cbn [rbind] in *.
      destruct (mapR (group_pairs fs ft S T) groups) as [r|e] eqn:R; [|discriminate]. cbn [rbind] in *.
      destruct (IH r eq_refl) as (z & -> & P). eexists. split; [reflexivity|].
      injection H as <-. cbn [concat]. apply Permutation_app; [|assumption]. apply ssort_perm. }
  destruct (G _ _ E) as (z & Z & P). exists z. split; [assumption|].
  etransitivity; [apply lenSort_perm|assumption].
Qed.

Lemma charPairs_ok : forall fs ft S T z, zipped fs ft S T GM_ScriptAll = Ok z ->
  exists pairs, charPairs fs ft S T = Ok pairs /\ Permutation pairs z /\ longest_first pairs.
Proof.
  intros fs ft S T z Z.
  assert (G : forall groups z, zipped fs ft S T groups = Ok z ->
      exists gs, mapR (group_pairs fs ft S T) groups = Ok gs).
  { clear. induction groups as [|g groups IH]; intros z H; cbn [mapR zipped] in *; [now exists []|].
    unfold group_pairs at 1.
    destruct (retCharList g) as [parts|e]; [|discriminate]. cbn [rbind] in *.
    destruct (CrunchSymbols parts S) as [s|e]; [|discriminate]. cbn [rbind] in *.
    destruct (CrunchSymbols parts T) as [t|e]; [|discriminate]. cbn [rbind] in *.
    destruct (zipped fs ft S T groups) as [r|e] eqn:R; [|discriminate].
    destruct (IH r eq_refl) as (gs & ->). cbn [rbind]. eauto. }
  destruct (G _ _ Z) as (gs & Q).
  assert (E : charPairs fs ft S T = Ok (lenSort (concat gs))) by (unfold charPairs; now rewrite Q).
  exists (lenSort (concat gs)). split; [assumption|]. split; [|apply lenSort_longest_first].
  destruct (charPairs_zipped _ _ _ _ _ E) as (z' & Z' & P). rewrite Z in Z'.
  assert (z = z') as -> by congruence. assumption.
Qed.

(** A program has a table step with these pairs: the replacements are done one after the other, in the
    order given, on the whole text. *)
Definition table_step (p : prog) (z : list (str * str)) : Prop :=
  exists before pairs after,
    p = before ++ map (fun '(x, y) => Replace x y) pairs ++ after /\ Permutation pairs z /\ longest_first pairs.

Lemma ts_here : forall pairs z, Permutation pairs z -> longest_first pairs -> table_step (replace_all pairs) z.
Proof.
  intros pairs z P L. exists [], pairs, []. split; [|split; assumption]. cbn [app]. now rewrite app_nil_r.
Qed.
Lemma ts_l : forall p q z, table_step p z -> table_step (p ++ q) z.
Proof.
  intros p q z (b & pairs & a & -> & P & L). exists b, pairs, (a ++ q).
  split; [now rewrite <- !app_assoc|split; assumption].
Qed.
Lemma ts_r : forall p q z, table_step q z -> table_step (p ++ q) z.
Proof.
  intros p q z (b & pairs & a & -> & P & L). exists (p ++ b), pairs, a.
  split; [now rewrite <- !app_assoc|split; assumption].
Qed.
Ltac find_step :=
  lazymatch goal with
  | |- table_step (replace_all _ ++ _) _ => apply ts_l, ts_here; assumption
  | |- table_step (replace_all _) _ => apply ts_here; assumption
  | |- table_step (_ ++ _) _ => apply ts_r; find_step
  end.

(** C28 for Indic to Indic. *)
Theorem indic_pairs_longest_first : forall S T z, zipped id_side id_side S T GM_ScriptAll = Ok z ->
  table_step (indic_indic S T) z.
Proof.
  intros S T z Z. destruct (charPairs_ok _ _ _ _ _ Z) as (pairs & E & P & L).
  unfold indic_indic. rewrite E. cbn [withS]. find_step.
Qed.

(** Roman to Indic: from the intermediate notation, vowel signs marked. *)
Theorem latin_indic_longest_first : forall S T z,
  zipped (fun g x => if str_eqb g "VowelSigns"%u then DepV ++ x else x) id_side GM_Inter T GM_ScriptAll = Ok z ->
  table_step (latin_indic S T) z.
Proof.
  intros S T z Z. destruct (charPairs_ok _ _ _ _ _ Z) as (pairs & E & P & L).
  unfold latin_indic. rewrite E. cbn [withS].
  assert (C : exists u, (do c <- CrunchSymbols GM_Consonants GM_Inter; idx c 32%Z) = Ok u)
    by (eexists; vm_compute; reflexivity).
  destruct C as [u ->]. cbn [withS]. find_step.
Qed.

(** Roman to the intermediate notation. *)
Theorem to_inter_longest_first : forall S s t,
  CrunchSymbols ScriptAllParts S = Ok s -> CrunchSymbols ScriptAllParts GM_Inter = Ok t ->
  table_step (convertInter S) (zip s t).
Proof.
  intros S s t E1 E2. unfold convertInter. rewrite E1, E2. cbn [withS].
  apply ts_here; [apply lenSort_perm|apply lenSort_longest_first].
Qed.

(** Indic to Roman: schwas and vowel marks are added on the right-hand sides. *)
Theorem indic_latin_longest_first : forall S T z, S <> "RomanSemitic"%u ->
  zipped id_side (fun g x => if str_eqb g "Consonants"%u then x ++ Schwa
                             else if str_eqb g "Vowels"%u then DepV ++ x else x) S T GM_ScriptAll = Ok z ->
  table_step (indic_latin S T) z.
Proof.
  intros S T z N Z. destruct (charPairs_ok _ _ _ _ _ Z) as (pairs & E & P & L).
  unfold indic_latin. rewrite E. cbn [withS]. apply str_eqb_neq in N. rewrite N. find_step.
Qed.

(** The hypotheses hold for all listed Indic and Roman scripts but RomanLoC, and the lists of any two
    scripts have the same length in every group, so that zipping them loses no symbol. *)
Theorem groups_correspond : forall s g parts, In s (GM_IndicScripts ++ GM_LatinScripts) -> s <> "RomanLoC"%u ->
  In g GM_ScriptAll -> retCharList g = Ok parts ->
  exists l l', CrunchSymbols parts s = Ok l /\ CrunchSymbols parts GM_Inter = Ok l' /\ length l = length l'.
Proof.
  intros s g parts Hs Hr Hg E.
  assert (C : forallb (fun s => str_eqb s "RomanLoC"%u || forallb (fun g =>
    match retCharList g with
    | Ok parts => match CrunchSymbols parts s, CrunchSymbols parts GM_Inter with
                  | Ok l, Ok l' => Nat.eqb (length l) (length l') | _, _ => false end
    | Err _ => false end) GM_ScriptAll) (GM_IndicScripts ++ GM_LatinScripts) = true) by (vm_compute; reflexivity).
  rewrite forallb_forall in C. specialize (C s Hs). apply orb_true_iff in C as [C|C];
    [apply str_eqb_eq in C; contradiction|].
  rewrite forallb_forall in C. specialize (C g Hg). rewrite E in C.
  destruct (CrunchSymbols parts s) as [l|]; [|discriminate].
  destruct (CrunchSymbols parts GM_Inter) as [l'|]; [|discriminate].
  exists l, l'. apply Nat.eqb_eq in C. auto.
Qed.

Theorem zipped_defined : forall S T fs ft,
  In S (GM_IndicScripts ++ GM_LatinScripts) -> S <> "RomanLoC"%u ->
  In T (GM_IndicScripts ++ GM_LatinScripts) -> T <> "RomanLoC"%u ->
  exists z, zipped fs ft S T GM_ScriptAll = Ok z.
Proof.
  intros S T fs ft HS HS' HT HT'.
  assert (I : forall g, In g GM_ScriptAll -> exists parts, retCharList g = Ok parts).
  { intros g Hg. assert (C : forallb (fun g => match retCharList g with Ok _ => true | _ => false end) GM_ScriptAll = true)
      by (vm_compute; reflexivity).
    rewrite forallb_forall in C. specialize (C g Hg). destruct (retCharList g) as [p|]; [now exists p|discriminate]. }
  assert (G : forall gs, (forall g, In g gs -> In g GM_ScriptAll) -> exists z, zipped fs ft S T gs = Ok z).
  { induction gs as [|g gs IH]; intros H; [now exists []|]. cbn [zipped].
    destruct (I g) as [parts E]; [apply H; now left|]. rewrite E. cbn [rbind].
    destruct (groups_correspond S g parts) as (l & _ & -> & _); try assumption; [apply H; now left|]. cbn [rbind].
    destruct (groups_correspond T g parts) as (l' & _ & -> & _); try assumption; [apply H; now left|]. cbn [rbind].
    destruct IH as [z ->]; [intros x Hx; apply H; now right|]. cbn [rbind]. eauto. }
  apply G. auto.
Qed.

(** C28 in one statement, for the scripts of the package. *)
Corollary conversions_longest_first : forall S T,
  In S GM_IndicScripts -> In T GM_IndicScripts -> S <> "RomanLoC"%u -> T <> "RomanLoC"%u ->
  exists z, zipped id_side id_side S T GM_ScriptAll = Ok z /\ table_step (indic_indic S T) z.
Proof.
  intros S T HS HT NS NT. destruct (zipped_defined S T id_side id_side) as [z Z];
    try assumption; try (apply in_or_app; now left).
  exists z. split; [assumption|]. now apply indic_pairs_longest_first.
Qed.

Example longest_first_case : exists z, zipped id_side id_side "Devanagari"%u "Tamil"%u GM_ScriptAll = Ok z /\ length z = 224.
Proof. eexists. split; vm_compute; reflexivity. Qed.

(* ------------------------------------------------------------------ *)
(** ** C34 *)

Lemma lookup_update : forall (A : Type) k k' (v : A) l, 
  lookup k (update k' v l) = if str_eqb k k' then match lookup k l with Some _ => Some v | None => None end else lookup k l.
Proof.
  intros A k k' v. induction l as [|[a x] l IH]; cbn [update lookup].
  - now destruct (str_eqb k k').
  - destruct (str_eqb k' a) eqn:E; cbn [lookup].
    + apply str_eqb_eq in E as ->. destruct (str_eqb k a); reflexivity.
    + rewrite IH. destruct (str_eqb k a) eqn:F; [|reflexivity].
      apply str_eqb_eq in F as ->. rewrite (str_eqb_sym a k'), E. reflexivity.
Qed.

Lemma add_entries_prefix : forall n base nukta es num cur r,
  add_entries n base nukta num es cur = Ok r -> exists extra, r = cur ++ extra /\ length extra = length es.
Proof.
  intros n base nukta. induction es as [|[k m] es IH]; intros num cur r H; cbn [add_entries] in H.
  - injection H as <-. exists []. split; [now rewrite app_nil_r|reflexivity].
  - destruct (additional_char _ _ _ _ _ _) as [c|]; [|discriminate]. cbn [rbind] in H.
    apply IH in H as (extra & -> & L). exists (c :: extra). split; [now rewrite <- app_assoc|cbn; now rewrite L].
Qed.

(** C34: the tables of a module after import. *)
Theorem import_extends : forall n t t', add_additional_chars n t = Ok t' ->
  (forall list, In list GM_CharmapLists -> exists old extra fb,
     lookup list t = Some old /\ lookup list t' = Some (old ++ extra)
     /\ lookup list fb_dicts = Some fb /\ length extra = length fb)
  /\ (forall list, ~ In list GM_CharmapLists -> lookup list t' = lookup list t).
Proof.
  intros n t t' H. unfold add_additional_chars in H.
  pose (stepf := fun (acc : res table) charlist =>
       do t <- acc;
       do fb <- of_opt AttributeError (lookup charlist fb_dicts);
       do _ <- of_opt AttributeError (ScriptPath n);
       do b <- of_opt KeyError (lookup charlist GM_InterAdd);
       do cur <- of_opt KeyError (lookup charlist t);
       let nukta := match lookup "NuktaMap"%u t with Some l => l | None => [] end in
       do new <- add_entries n (hd 0%N b) nukta 0 fb cur;
       Ok (update charlist new t)).
  change (fold_left stepf GM_CharmapLists (Ok t) = Ok t') in H.
  assert (Herr : forall ls e, fold_left stepf ls (Err e) = Err e) by (induction ls as [|l ls IH]; intros e; [reflexivity|exact (IH e)]).
  assert (ND : NoDup GM_CharmapLists).
  { unfold GM_CharmapLists. repeat (constructor; [cbn; intros X; decompose [or] X; try discriminate; assumption|]). constructor. }
  revert t t' H ND. generalize GM_CharmapLists as ls. induction ls as [|l ls IH]; intros t t' H ND.
  - cbn in H. injection H as <-. split; [intros ? []|reflexivity].
  - cbn [fold_left] in H. destruct (stepf (Ok t) l) as [t1|e] eqn:S1; [|rewrite Herr in H; discriminate].
    inversion ND as [|? ? N1 N2]; subst. destruct (IH _ _ H N2) as [I1 I2]. clear IH H.
    unfold stepf in S1. cbn [rbind] in S1.
    destruct (lookup l fb_dicts) as [fb|] eqn:F; [|discriminate]. cbn [of_opt rbind] in S1.
    destruct (ScriptPath n); [|discriminate]. cbn [of_opt rbind] in S1.
    destruct (lookup l GM_InterAdd) as [b|]; [|discriminate]. cbn [of_opt rbind] in S1.
    destruct (lookup l t) as [cur|] eqn:C; [|discriminate]. cbn [of_opt rbind] in S1.
    destruct (add_entries _ _ _ _ _ _) as [new|] eqn:A; [|discriminate]. cbn [rbind] in S1.
    assert (t1 = update l new t) as -> by congruence.
    apply add_entries_prefix in A as (extra & -> & Le).
    assert (Same : forall k, k <> l -> lookup k (update l (cur ++ extra) t) = lookup k t).
    { intros k Hk. rewrite lookup_update. apply str_eqb_neq in Hk. now rewrite Hk. }
    split.
    + intros k [<-|Hk].
      * exists cur, extra, fb. split; [assumption|]. split; [|split; assumption].
        rewrite I2 by assumption. rewrite lookup_update, str_eqb_refl, C. reflexivity.
      * destruct (I1 k Hk) as (old & ex & fb' & L1 & L2 & L3). exists old, ex, fb'.
        rewrite Same in L1 by (intros ->; contradiction). auto.
    + intros k Hk. rewrite I2 by (intros X; apply Hk; now right). apply Same. intros ->. apply Hk. now left.
Qed.

(** Importing the modules of the package: every module of a listed script is extended without an error,
    and afterwards the seven lists have the same lengths in all of them, so that positions in the
    tables of different scripts correspond. *)
Theorem modules_extended : forall d n t, In (d, n, t, true) raw_modules -> ScriptPath n <> None ->
  exists t', add_additional_chars n t = Ok t'
    /\ map (fun list => option_map (@length str) (lookup list t')) 
         ["VowelMap"%u; "VowelSignMap"%u; "ConsonantMap"%u; "SignMap"%u; "AyogavahaMap"%u; "ModernVowelMap"%u; "ModernVowelSignMap"%u]
       = [Some 48; Some 47; Some 53; Some 8; Some 20; Some 6; Some 6].
Proof.
  intros d n t H P.
  assert (C : forallb (fun m : str * str * table * bool => let '(d, n, t, b) := m in
    match ScriptPath n with None => true | Some _ =>
      match add_additional_chars n t with Err _ => false | Ok t' =>
        forallb (fun '(list, k) => match lookup list t' with Some l => Nat.eqb (length l) k | None => false end)
          [("VowelMap"%u, 48); ("VowelSignMap"%u, 47); ("ConsonantMap"%u, 53); ("SignMap"%u, 8);
           ("AyogavahaMap"%u, 20); ("ModernVowelMap"%u, 6); ("ModernVowelSignMap"%u, 6)]
      end end) raw_modules = true) by (vm_compute; reflexivity).
  rewrite forallb_forall in C. specialize (C _ H). cbv beta iota in C.
  destruct (ScriptPath n); [|easy]. destruct (add_additional_chars n t) as [t'|]; [|discriminate].
  exists t'. split; [reflexivity|].
  cbn [forallb] in C. repeat (apply andb_true_iff in C as [?Hk C]). cbn [map].
  repeat match goal with X : (match ?o with Some _ => _ | None => false end) = true |- _ =>
    destruct o; [apply Nat.eqb_eq in X; cbn [option_map]; rewrite X; clear X|discriminate X] end.
  reflexivity.
Qed.

Example modules_extended_case : exists d n t, In (d, n, t, true) raw_modules /\ n = "Tamil"%u /\ ScriptPath n <> None.
Proof.
  assert (C : existsb (fun m : str * str * table * bool => let '(d, n, t, b) := m in b && str_eqb n "Tamil"%u) raw_modules = true)
    by (vm_compute; reflexivity).
  apply existsb_exists in C as ([[[d n] t] b] & H & C). apply andb_true_iff in C as [-> C]. apply str_eqb_eq in C as ->.
  exists d, "Tamil"%u, t. split; [assumption|]. split; [reflexivity|vm_compute; discriminate].
Qed.

(** All modules extend their tables on import (the flag in [raw_modules]: the call at the end of the
    module is there). *)
Theorem all_modules_extend : forall d n t b, In (d, n, t, b) raw_modules -> b = true.
Proof.
  intros d n t b H.
  assert (C : forallb (fun m : str * str * table * bool => snd m) raw_modules = true) by (vm_compute; reflexivity).
  rewrite forallb_forall in C. exact (C _ H).
Qed.

(* ------------------------------------------------------------------ *)
(** ** C32 *)

(** The engine on equal scripts returns the text, whatever the code (also for codes it does not know). *)
Theorem gimeltra_same_script : forall sc s, run (gim_tr sc sc) s = Ok s.
Proof. intros sc s. unfold gim_tr. now rewrite str_eqb_refl. Qed.

(** On different scripts it does not. *)
Example gimeltra_case : run (gim_tr "Hebr"%u "Latn"%u) "שלום"%u = Ok "šlwm"%u
  /\ run (gim_tr "Hebr"%u "Hebr"%u) "שלום"%u = Ok "שלום"%u.
Proof. split; vm_compute; reflexivity. Qed.
