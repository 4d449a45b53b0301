(** * The conversions treat the two sides of a separator apart (for property C38, see LineByLine.v).

    The checks are stated for any guard; they are evaluated in LineByLine.v.
    Proof machinery; no code of /repo is modelled here. *)
From Coq Require Import List NArith ZArith Bool Lia Permutation.
From Verif Require Import PyStr StrFacts UnicodeTables Regex Unicode Prog GMLists GeneralMap FixNum
  PostProcess1 ConvertFix1 PreProcess1 PostProcess2 GimelData Gimeltra Convert Dispatch YamlData Transliterate
  AbsRegex NormCut ReLits SortFacts TableFacts SafeFacts ApiFacts TotalFacts Marks MarkFacts MarkLeak Keeps KeepFacts Foreign LineFacts
  Apart ApartFacts.
Import ListNotations.
Local Open Scope N_scope.

(** ** The checks *)
Definition nonempty (x : str) : bool := negb (str_eqb x []).
Definition nonempty_ok (r : res str) : bool := match r with Ok x => nonempty x | Err _ => true end.
Definition hushed_in (g : guard) (r : res str) : bool := match r with Ok x => hushed g x | Err _ => true end.
Definition named (g : guard) (fs : str -> str -> str) (S : str) : bool :=
  forallb (fun gr => forallb (fun x => nonempty x && hushed g (fs gr x)) (symbols gr S)) GM_ScriptAll.
Definition fix_reverse (S : str) : prog := [Try is_AttributeError (CF_getattr_reverse ("Fix"%u ++ S))].
Definition vowel_piece (T : str) : prog :=
  let! vowels := CrunchSymbols GM_Vowels T in
  let! v2 := idx vowels 2%Z in
  let! v4 := idx vowels 4%Z in
  [Replace ("_"%u ++ v2) v2; Replace ("_"%u ++ v4) v4].
Definition zip_piece (T : str) : prog :=
  let! s := CrunchSymbols ScriptAllParts GM_Inter in
  let! t := CrunchSymbols ScriptAllParts T in
  replace_all (zip s t).
Definition lat_prefix (S : str) : prog :=
  fix_reverse S
  ++ (if mem S ["IAST"%u; "ISO"%u; "ISOPali"%u; "Titus"%u] then [Replace [0x16D%N] [0x75%N; 0xD7%N]] else [])
  ++ [Replace "{}"%u [0x200C%N]; Replace "()"%u [0x200D%N]]
  ++ CF_VedicSvarasLatinIndic S.
Definition src_i (g : guard) (S : str) : bool :=
  negb (str_eqb S "RomanSemitic"%u) && parts g (ind_prefix S) && named g id_side S && nonempty_ok (first_of "OmMap"%u S)
  && hushed_in g (first_of "OmMap"%u S).
Definition src_l (g : guard) (S : str) : bool := parts g (lat_prefix S) && parts g (convertInter S).
Definition loose : list str := ["RomanReadable"%u; "RomanColloquial"%u].
Definition tgt_i (g : guard) (T : str) : bool :=
  parts g (CF_FixIndicOutput [] T) && parts g (vowel_piece T) && nonempty_ok (first_of "ViramaMap"%u T).
Definition tgt_l (g : guard) (T : str) : bool :=
  parts g (CF_FixRomanOutput T) && parts g (zip_piece T) && parts g (CF_PostFixRomanOutput [] T) && negb (mem T loose).
Definition glob (g : guard) : bool :=
  parts g (PP_default []) && parts g CF_VedicSvarsIndicLatin && parts g (PrP_RomanPreFix GM_Inter)
  && parts g [Replace [0xE51B; 0x1E7F; 0xD7; 0x5F; 0xE006]%N [0xE51B; 0x1E7F; 0xE006]%N;
      Replace [0xE51B; 0x1E7F; 0xD7; 0x5F; 0xE007]%N [0xE51B; 0x1E7F; 0xE007]%N]
  && hush g 0xD7 && hushed g "[]"%u && named g inter_side GM_Inter.
(** Every pattern for om needs a character of [L]. *)
Definition om_needs (L : list N) (punc sOm : str) : bool :=
  needs L (punc ++ sOm ++ punc) && needs L ("^"%u ++ sOm ++ punc) && needs L (punc ++ sOm ++ "$"%u) && needs L ("^"%u ++ sOm ++ "$"%u).
Definition om_i (L : list N) (S : str) : bool :=
  match CrunchSymbols GM_Signs S, first_of "OmMap"%u S with
  | Ok signs, Ok sOm => Nat.eqb (length sOm) 1 || om_needs L (om_punc signs) sOm
  | _, _ => true
  end.
Definition om_l (L : list N) (S : str) : bool :=
  match CrunchSymbols GM_Signs S, first_of "OmMap"%u S with
  | Ok signs, Ok sOm => om_needs L (om_punc signs) sOm && om_needs L "(\s)"%u sOm
  | _, _ => true
  end.
Definition mints (cl : bool) (L : list N) (p : prog) : bool := match L with [] => true | _ => mint cl L p end.
Lemma mints_nv : forall cl L p, (cl = true -> closed L = true) -> mints cl L p = true -> nv L p.
Proof. intros cl [|c L] p H M; [apply nv_empty|exact (nv_check cl (c :: L) H p M)]. Qed.

(** The replacement of om. *)
Definition om_prog_i (S T : str) : prog :=
  let! signs := CrunchSymbols GM_Signs S in
  let! sOm := first_of "OmMap"%u S in
  let! tOm := first_of "OmMap"%u T in
  if Nat.eqb (length sOm) 1 then [Replace sOm tOm] else om_subs (om_punc signs) sOm tOm.
Definition om_prog_l (S T : str) : prog :=
  let! signs := CrunchSymbols GM_Signs S in
  let! sOm := first_of "OmMap"%u S in
  let! tOm := first_of "OmMap"%u T in
  om_subs (om_punc signs) sOm tOm ++ om_subs "(\s)"%u sOm tOm.

Lemma post_same : forall S T, mem T loose = false -> mem T GM_LatinScripts = true -> (S = "Sinhala"%u -> T <> "IPA"%u) -> CF_PostFixRomanOutput S T = CF_PostFixRomanOutput [] T.
Proof.
  intros S T HT ML HS. cbn [mem existsb loose] in HT. apply orb_false_iff in HT as [H1 HT]. apply orb_false_iff in HT as [H2 _].
  assert (E1 : str_eqb S "Sinhala"%u && str_eqb T "IPA"%u = false).
  { destruct (str_eqb S "Sinhala"%u) eqn:E; [|reflexivity]. cbn [andb]. apply str_eqb_neq. apply HS. now apply str_eqb_eq. }
  assert (E2 : str_eqb T "Malayalam"%u = false).
  { apply str_eqb_neq. intros ->. discriminate. }
  unfold CF_PostFixRomanOutput. rewrite E1, E2, H1, H2, !andb_false_r. destruct (str_eqb S "RomanSemitic"%u); reflexivity.
Qed.

Section Conv.
Variable g : guard.
Hypothesis Hg : sound g.
Variable w : N.
Hypothesis Hw : hush g w = false.
Hypothesis Iw : inert w.
Hypothesis HG : glob g = true.
Local Notation chk := (parted_check g Hg w Hw Iw).

Lemma parted_rep : forall x y, nonempty x = true -> hushed g x = true -> parted w [Replace x y].
Proof. intros x y N H. apply (parted_replace g w Hw); [apply negb_true_iff, str_eqb_neq in N; exact N|exact H]. Qed.
Lemma parted_reps : forall l : list (str * str), (forall x y, In (x, y) l -> nonempty x = true /\ hushed g x = true) -> parted w (replace_all l).
Proof.
  induction l as [|[x y] l IH]; intros H; [apply parted_nil|]. change (replace_all ((x, y) :: l)) with ([Replace x y] ++ replace_all l). apply parted_app.
  - destruct (H x y (or_introl eq_refl)). now apply parted_rep.
  - apply IH. intros x' y' Q. apply (H x' y'). now right.
Qed.
Definition filled (f : str -> str -> str) : Prop := forall gr x, nonempty x = true -> nonempty (f gr x) = true.
Lemma nonempty_app : forall x y, nonempty x = true -> nonempty (x ++ y) = true.
Proof. intros [|c x] y H; [discriminate|reflexivity]. Qed.
Lemma filled_id : filled id_side.
Proof. intros gr x H. exact H. Qed.
Lemma filled_inter : filled inter_side.
Proof. intros gr x H. unfold inter_side. destruct (str_eqb gr "VowelSigns"%u); [reflexivity|exact H]. Qed.
Lemma parted_pairs : forall fs ft S T, filled fs -> named g fs S = true ->
  parted w (let! pairs := charPairs fs ft S T in replace_all pairs).
Proof.
  intros fs ft S T Ff NS. apply parted_withS. intros pairs E. apply parted_reps. intros x y Hp.
  apply charPairs_zipped in E as (z & Z & P). apply (Permutation_in _ P) in Hp.
  destruct (zipped_both fs ft S T _ z x y Z Hp) as (gr & Hgr & (v & Hv & ->) & _).
  unfold named in NS. rewrite forallb_forall in NS. specialize (NS gr Hgr). rewrite forallb_forall in NS. specialize (NS v Hv).
  apply andb_true_iff in NS as [N1 N2]. split; [now apply Ff|exact N2].
Qed.

Section Related.
Variable J : rel.

Lemma parted_FixIndic : forall S T, tgt_i g T = true -> parted w (CF_FixIndicOutput S T).
Proof. intros S T H. unfold tgt_i in H. bools. assert (Q : parted w (CF_FixIndicOutput [] T)) by (now apply chk). exact Q. Qed.

Theorem apt_indic_indic : forall S T, In S GM_IndicScripts -> src_i g S = true -> tgt_i g T = true -> nvq J (ind_prefix S) -> aptq w J (om_prog_i S T) ->
  aptq w J (indic_indic S T).
Proof.
  intros S T HS HQ B HM HO. unfold src_i in HQ. bools.
  assert (E : indic_indic S T = ind_prefix S ++ om_prog_i S T
    ++ (let! pairs := charPairs id_side id_side S T in replace_all pairs)
    ++ CF_FixIndicOutput S T) by (unfold indic_indic, ind_prefix, om_prog_i; now rewrite <- !app_assoc).
  rewrite E. clear E. apply aptq_app; [apply aptq_of; now apply chk|exact HM|]. apply aptq_then; [exact HO|].
  apply parted_app; [|now apply parted_FixIndic]. apply parted_pairs; [exact filled_id|assumption].
Qed.

Theorem apt_latin_indic : forall S T, In S GM_LatinScripts -> src_l g S = true -> tgt_i g T = true -> nvq J (lat_prefix S) -> aptq w J (om_prog_l S T) ->
  hushed_in g (first_of "ViramaMap"%u T) = true -> aptq w J (latin_indic S T).
Proof.
  intros S T HS HQ B HM HO HV. unfold src_l in HQ. pose proof HG as G. unfold glob in G. bools.
  assert (E : latin_indic S T = lat_prefix S ++ om_prog_l S T
    ++ convertInter S
    ++ PrP_RomanPreFix GM_Inter
    ++ [Replace [0xE51B; 0x1E7F; 0xD7; 0x5F; 0xE006]%N [0xE51B; 0x1E7F; 0xE006]%N;
      Replace [0xE51B; 0x1E7F; 0xD7; 0x5F; 0xE007]%N [0xE51B; 0x1E7F; 0xE007]%N]
    ++ (let! _ := (do c <- CrunchSymbols GM_Consonants GM_Inter; idx c 32%Z) in
      let! pairs := charPairs inter_side id_side GM_Inter T in replace_all pairs)
    ++ vowel_piece T
    ++ (let! vir := first_of "ViramaMap"%u T in
      [Replace (vir ++ "[]"%u) (0x200D%N :: vir); Replace [0xD7%N] vir])
    ++ CF_FixIndicOutput GM_Inter T) by (unfold latin_indic, lat_prefix, fix_reverse, vowel_piece, inter_side, om_prog_l; now rewrite <- !app_assoc).
  rewrite E. clear E. apply aptq_app; [apply aptq_of; now apply chk|exact HM|]. apply aptq_then; [exact HO|].
  apply parted_app; [now apply chk|]. apply parted_app; [now apply chk|]. apply parted_app; [now apply chk|].
  apply parted_app. { apply parted_withS. intros _ _. apply parted_pairs; [exact filled_inter|assumption]. }
  unfold tgt_i in B. bools.
  apply parted_app; [now apply chk|]. apply parted_app; [|apply parted_FixIndic; unfold tgt_i; now repeat (apply andb_true_iff; split)].
  apply parted_withS. intros vir EV. rewrite EV in *. cbn [hushed_in nonempty_ok] in *. apply parted_cons.
  - apply parted_rep; [now apply nonempty_app|]. unfold hushed in *. rewrite forallb_app. apply andb_true_iff. now split.
  - apply (parted_replace g w Hw); [discriminate|]. unfold hushed. cbn [forallb]. match goal with Q : hush g 0xD7 = true |- _ => rewrite Q end. reflexivity.
Qed.

Lemma parted_Post : forall S T, In T GM_LatinScripts -> tgt_l g T = true -> (S = "Sinhala"%u -> T <> "IPA"%u) -> parted w (CF_PostFixRomanOutput S T).
Proof.
  intros S T HT B HS. unfold tgt_l in B. bools. rewrite post_same; [now apply chk|now apply negb_true_iff|now apply mem_In|exact HS].
Qed.
Theorem parted_latin_latin : forall S T, In S GM_LatinScripts -> In T GM_LatinScripts -> src_l g S = true -> tgt_l g T = true -> parts g (fix_reverse S) = true -> parted w (latin_latin S T).
Proof.
  intros S T HS HT Q B F. unfold src_l in Q. bools. unfold latin_latin. apply parted_app; [now apply chk|]. apply parted_app; [now apply chk|].
  apply parted_app; [|apply (parted_Post S T HT B); intros E; exfalso; rewrite E in HS; apply mem_In in HS; vm_compute in HS; discriminate HS].
  unfold tgt_l in B. bools. now apply chk.
Qed.
Theorem parted_indic_latin : forall S T, In S GM_IndicScripts -> In T GM_LatinScripts -> src_i g S = true -> tgt_l g T = true ->
  (S = "Sinhala"%u -> T <> "IPA"%u) -> parted w (indic_latin S T).
Proof.
  intros S T HS HT Q B HI. unfold src_i in Q. pose proof HG as G. unfold glob in G. bools.
  match goal with N : negb (str_eqb S "RomanSemitic"%u) = true |- _ => apply negb_true_iff in N; rename N into NS end.
  unfold indic_latin. rewrite NS.
  assert (E : forall q, PrP_RemoveJoiners ++ CF_ShiftDiacritics S true ++ [Try is_AttributeError (CF_getattr_reverse ("Fix"%u ++ S))] ++ q = ind_prefix S ++ q)
    by (intros q; unfold ind_prefix; now rewrite <- !app_assoc).
  rewrite E. clear E. apply parted_app; [now apply chk|].
  apply parted_app.
  { apply parted_withS. intros sOm E2. apply parted_withS. intros tOm E3. rewrite E2 in *. now apply parted_rep. }
  apply parted_app. { change (parted w (let! pairs := charPairs id_side roman_side S T in replace_all pairs)).
    apply parted_pairs; [exact filled_id|assumption]. }
  pose proof B as B'. unfold tgt_l in B'. bools. apply parted_app; [now apply chk|]. apply parted_app; [now apply chk|]. now apply parted_Post.
Qed.
End Related.

(** *** Om of one letter; texts that lack a letter of om *)
Section Lacks.
Variable cl : bool.
Variable L : list N.
Hypothesis HL : cl = true -> closed L = true.
Hypothesis Lw : okc L w = true.
Lemma apt_om : forall punc sOm tOm, om_needs L punc sOm = true -> apt w L (om_subs punc sOm tOm) /\ nv L (om_subs punc sOm tOm).
Proof.
  intros punc sOm tOm H. unfold om_needs in H. bools. unfold om_subs.
  assert (C : forall o p, apt w L [o] /\ nv L [o] -> apt w L p /\ nv L p -> apt w L (o :: p) /\ nv L (o :: p)).
  { intros o p [A1 N1] [A2 N2]. split; [exact (apt_app w L [o] p A1 N1 A2)|exact (nv_cons L o p N1 N2)]. }
  repeat (apply C; [now apply apt_lit|]). split; [apply apt_of; apply parted_nil|apply nv_nil].
Qed.
Lemma om_lacking_i : forall S T, In S GM_IndicScripts -> src_i g S = true -> om_i L S = true -> aptq w (lacks L) (om_prog_i S T).
Proof.
  intros S T HS HQ HO. unfold src_i in HQ. bools. apply aptq_withS. intros signs E1. apply aptq_withS. intros sOm E2. apply aptq_withS. intros tOm E3.
  unfold om_i in HO. rewrite E1, E2 in HO.
  match goal with N : nonempty_ok (first_of "OmMap"%u S) = true |- _ => rewrite E2 in N; cbn [nonempty_ok] in N end.
  match goal with N : hushed_in g (first_of "OmMap"%u S) = true |- _ => rewrite E2 in N; cbn [hushed_in] in N end.
  destruct (Nat.eqb (length sOm) 1) eqn:E4; [clear HO|apply orb_true_iff in HO as [HO|HO]; [discriminate HO|]].
  - apply aptq_of. now apply parted_rep.
  - exact (aptq_lacks w L _ (proj1 (apt_om _ _ tOm HO))).
Qed.
Lemma om_lacking_l : forall S T, om_l L S = true -> aptq w (lacks L) (om_prog_l S T).
Proof.
  intros S T HO. apply aptq_withS. intros signs E1. apply aptq_withS. intros sOm E2. apply aptq_withS. intros tOm E3.
  unfold om_l in HO. rewrite E1, E2 in HO. apply andb_true_iff in HO as [O1 O2].
  destruct (apt_om _ _ tOm O1) as [A1 N1]. destruct (apt_om _ _ tOm O2) as [A2 _]. exact (aptq_lacks w L _ (apt_app w L _ _ A1 N1 A2)).
Qed.
End Lacks.
End Conv.
