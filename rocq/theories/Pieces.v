(** * Texts are converted piece by piece, and word by word (properties C06, C07, C38 and C39). *)
From Coq Require Import List NArith ZArith Bool Lia Permutation.
From Verif Require Import PyStr StrFacts UnicodeTables Regex Unicode Prog GMLists GeneralMap FixNum
  PostProcess1 ConvertFix1 PreProcess1 PostProcess2 GimelData Gimeltra Convert Dispatch YamlData Transliterate
  AbsRegex NormCut ReLits SortFacts TableFacts SafeFacts ApiFacts TotalFacts Marks MarkFacts MarkLeak Keeps KeepFacts Foreign LineFacts Lines
  Apart ApartFacts ApartConv ApartMain OmEdges EdgeFacts Separate LineByLine ForeignApart WordByWord.
Import ListNotations.
Local Open Scope N_scope.

(** ** Texts of many pieces *)
(** Where a text may be cut: at a symbol (ForeignApart.v), at a line feed (LineByLine.v), at white space and at certain marks (WordByWord.v). *)
Definition cut_at (S T : str) (pre post : list str) (w : N) : Prop :=
  (symbol w /\ symbol_pair S T /\ symbol_options S T pre post) \/ (w = 10 /\ line_pair S T /\ line_options S T pre post)
  \/ (In w blanks /\ word_pair S T /\ word_options S T pre post) \/ (In w marks /\ mark_pair S T /\ mark_options S T pre post).
(** A first piece, and pieces with the separator before them. *)
Fixpoint weave (p : str) (ps : list (N * str)) : str := match ps with [] => p | (w, q) :: ps => p ++ w :: weave q ps end.
Theorem cut_apart : forall S T nat pre post w a b x y, cut_at S T pre post w -> may_meet S T a b ->
  convert S T a nat pre post = Ok x -> convert S T b nat pre post = Ok y ->
  convert S T (a ++ w :: b) nat pre post = Ok (x ++ w :: y).
Proof.
  intros S T nat pre post w a b x y [(H1 & H2 & H3) | [(-> & H2 & H3) | [(H1 & H2 & H3) | (H1 & H2 & H3)]]];
    [now apply symbol_apart|now apply line_by_line|now apply word_apart|now apply mark_apart].
Qed.
(** The letters that are looked for are no separators. *)
Definition looked_for : list str := "#O"%u :: [124] :: map snd om_words ++ map snd om_texts.
Lemma letters_watched : forallb (fun k => hushed W k && forallb (fun w => negb (memN w k)) (10 :: blanks ++ marks)) looked_for = true.
Proof. vm_cast_no_check (eq_refl true). Qed.
Lemma cut_watched : forall S T pre post w, cut_at S T pre post w -> hush W w = false /\ inert w \/ In w (10 :: blanks ++ marks) /\ inert w.
Proof.
  intros S T pre post w [(H & _) | [(-> & _) | [(H & _) | (H & _)]]].
  - left. split; [now apply W_watched|now apply symbol_inert].
  - right. split; [now left|exact inert_feed].
  - assert (Q : In w (blanks ++ marks)) by (apply in_or_app; now left). right. split; [now right|now apply separators_inert].
  - assert (Q : In w (blanks ++ marks)) by (apply in_or_app; now right). right. split; [now right|now apply separators_inert].
Qed.
Lemma free_cut : forall S T pre post w k a b, cut_at S T pre post w -> In k looked_for -> free_of k a -> free_of k b -> free_of k (a ++ w :: b).
Proof.
  intros S T pre post w k a b Hw Hk Ha Hb c Hc. apply in_app_or in Hc as [Hc|[Hc|Hc]]; [now apply Ha| |now apply Hb]. subst c.
  pose proof letters_watched as F. rewrite forallb_forall in F. specialize (F k Hk). apply andb_true_iff in F as [F1 F2].
  assert (N : decomp w = [w] /\ ~ In w k).
  { destruct (cut_watched S T pre post w Hw) as [[Q I]|[Q I]]; (split; [exact (proj1 I)|]); intros K.
    - unfold hushed in F1. rewrite forallb_forall in F1. rewrite (F1 w K) in Q. discriminate Q.
    - rewrite forallb_forall in F2. specialize (F2 w Q). apply memN_In in K. rewrite K in F2. discriminate F2. }
  destruct N as [D N]. split; [exact N|]. rewrite D. intros d [<-|[]]. exact N.
Qed.
Lemma first_word_cut : forall l w z c, In c (first_word (l ++ w :: z)) -> In c (first_word l ++ w :: first_word z).
Proof.
  induction l as [|d l IH]; intros w z c H; cbn [app first_word] in *.
  - destruct ((w =? 32) || (w =? 10)); [destruct H|exact H].
  - destruct ((d =? 32) || (d =? 10)); [destruct H|]. destruct H as [H|H]; [now left|right; now apply IH].
Qed.
Lemma free_sub : forall k s t, (forall c, In c s -> In c t) -> free_of k t -> free_of k s.
Proof. intros k s t H F c Hc. apply F. now apply H. Qed.
Lemma in_words : forall (S k : str), In (S, k) om_words -> In k looked_for.
Proof. intros S k H. right. right. apply in_or_app. left. exact (in_map snd _ _ H). Qed.
Lemma in_texts : forall (S k : str), In (S, k) om_texts -> In k looked_for.
Proof. intros S k H. right. right. apply in_or_app. right. exact (in_map snd _ _ H). Qed.
(** C06: cut at symbols, line feeds, white space and marks, a text is converted piece by piece. *)
Theorem pieces_apart : forall S T nat pre post p r ps rs, Forall (fun e => cut_at S T pre post (fst e)) ps -> line_ok S T p -> Forall (fun e => line_ok S T (snd e)) ps ->
  convert S T p nat pre post = Ok r ->
  Forall2 (fun e d => fst d = fst e /\ convert S T (snd e) nat pre post = Ok (snd d)) ps rs ->
  convert S T (weave p ps) nat pre post = Ok (weave r rs).
Proof.
  intros S T nat pre post p r ps rs HW Hp HP E HC.
  assert (G : convert S T (weave p ps) nat pre post = Ok (weave r rs)
    /\ (In S GM_pipeScripts -> ~ In 124 (weave p ps)) /\ (S = "Itrans"%u -> free_of "#O"%u (weave p ps))
    /\ (om_matters S T -> forall k, In (S, k) om_words -> free_of k (first_word (weave p ps)))
    /\ (om_matters S T -> forall k, In (S, k) om_texts -> free_of k (weave p ps))); [|exact (proj1 G)].
  revert p r Hp E. induction HC as [|[w q] [v t] ps rs [E1 E2] HC IH]; intros p r Hp E; cbn [weave].
  - destruct Hp as (H1 & H0 & H2 & H3). split; [exact E|]. split; [exact H1|]. split; [exact H0|]. split; [|exact H3]. intros HM k Hk. exact (proj1 (H2 HM k Hk)).
  - cbn [fst snd] in E1, E2. subst v. inversion HW as [|? ? Hw HW']; subst. inversion HP as [|? ? Hq HP']; subst. cbn [fst snd] in Hw, Hq.
    destruct (IH HW' HP' q t Hq E2) as (I1 & I2 & I0 & I3 & I4). clear IH. pose proof Hp as (H1 & H0 & H2 & H3).
    split; [apply cut_apart; [exact Hw| |exact E|exact I1]; split; [intros Q; split; [now apply H1|now apply I2]|]; split; [intros Q; split; [now apply H0|now apply I0]|]; split|].
    { intros HM k Hk. split; [exact (proj2 (H2 HM k Hk))|exact (I3 HM k Hk)]. }
    { intros HM k Hk. split; [exact (H3 HM k Hk)|exact (I4 HM k Hk)]. }
    split.
    { intros Q F. assert (Fr : free_of [124] (p ++ w :: weave q ps)).
      { apply (free_cut S T pre post); [exact Hw|right; now left|apply no_bar_free; now apply H1|apply no_bar_free; now apply I2]. }
      destruct (Fr 124 F) as [N _]. apply N. now left. }
    split; [intros Q; apply (free_cut S T pre post); [exact Hw|now left|now apply H0|now apply I0]|]. split.
    + intros HM k Hk. apply (free_sub k _ (first_word p ++ w :: first_word (weave q ps))); [intros c; apply first_word_cut|].
      apply (free_cut S T pre post); [exact Hw|exact (in_words S k Hk)|exact (proj1 (H2 HM k Hk))|now apply I3].
    + intros HM k Hk. apply (free_cut S T pre post); [exact Hw|exact (in_texts S k Hk)|now apply H3|now apply I4].
Qed.
(** Every piece can be converted on its own, and the whole is what the pieces give. *)
Theorem text_by_pieces : forall S T nat pre post p ps, Forall (fun e => cut_at S T pre post (fst e)) ps -> line_ok S T p -> Forall (fun e => line_ok S T (snd e)) ps ->
  good_pair S T -> TotalFacts.good_pre pre -> TotalFacts.good_post S T post ->
  exists r rs, convert S T p nat pre post = Ok r /\ Forall2 (fun e d => fst d = fst e /\ convert S T (snd e) nat pre post = Ok (snd d)) ps rs
    /\ convert S T (weave p ps) nat pre post = Ok (weave r rs).
Proof.
  intros S T nat pre post p ps HW Hp HP G1 G2 G3. destruct (convert_total S T G1 pre post G2 G3 nat p) as [r E].
  assert (Q : exists rs, Forall2 (fun e d => fst d = fst e /\ convert S T (snd e) nat pre post = Ok (snd d)) ps rs).
  { clear HW HP. induction ps as [|[w q] ps (rs & IH)]; [exists []; constructor|]. destruct (convert_total S T G1 pre post G2 G3 nat q) as [t Et]. exists ((w, t) :: rs). now constructor. }
  destruct Q as [rs Q]. exists r, rs. split; [exact E|]. split; [exact Q|]. exact (pieces_apart S T nat pre post p r ps rs HW Hp HP E Q).
Qed.

(** ** Word by word *)
(** The words of a text: what is between its blanks. *)
Fixpoint words (s : str) : list str :=
  match s with
  | [] => [[]]
  | c :: s => if c =? 32 then [] :: words s else match words s with [] => [[c]] | w :: ws => (c :: w) :: ws end
  end.
Lemma join_words : forall s, join [32] (words s) = s /\ words s <> [].
Proof.
  induction s as [|c s [IH NE]]; [split; [reflexivity|discriminate]|]. cbn [words]. destruct (words s) as [|l ls]; [contradiction|]. destruct (N.eqb_spec c 32) as [->|_]; (split; [|discriminate]).
  - change (join [32] ([] :: l :: ls)) with ([] ++ [32] ++ join [32] (l :: ls)). now rewrite IH.
  - rewrite <- IH. destruct ls; reflexivity.
Qed.
Lemma join_weave : forall p ls, join [32] (p :: ls) = weave p (map (fun l => (32, l)) ls).
Proof.
  intros p ls. revert p. induction ls as [|l ls IH]; intros p; [reflexivity|]. change (join [32] (p :: l :: ls)) with (p ++ [32] ++ join [32] (l :: ls)). cbn [map weave]. now rewrite IH.
Qed.
(** C39: words with blanks between them are converted word by word. *)
Theorem words_by_word : forall S T nat pre post ls rs, word_pair S T -> word_options S T pre post -> ls <> [] -> Forall (line_ok S T) ls ->
  Forall2 (fun l r => convert S T l nat pre post = Ok r) ls rs ->
  convert S T (join [32] ls) nat pre post = Ok (join [32] rs).
Proof.
  intros S T nat pre post ls rs HP HO NE HL HC. destruct HC as [|l r ls rs E HC]; [contradiction|]. inversion HL as [|? ? Hl HL']; subst. rewrite !join_weave.
  apply pieces_apart; [|exact Hl| |exact E|].
  - apply Forall_forall. intros e He. apply in_map_iff in He as (x & <- & _). cbn [fst]. right. right. left. split; [|now split]. apply memN_In. reflexivity.
  - apply Forall_forall. intros e He. apply in_map_iff in He as (x & <- & Hx). cbn [snd]. rewrite Forall_forall in HL'. now apply HL'.
  - clear NE HL HL' Hl E. induction HC as [|a b ls rs E HC IH]; cbn [map]; constructor; [now split|exact IH].
Qed.
(** Every word can be converted on its own, and the whole is what the words give. *)
Theorem text_by_words : forall S T nat pre post txt, word_pair S T -> word_options S T pre post -> Forall (line_ok S T) (words txt) ->
  good_pair S T -> TotalFacts.good_pre pre -> TotalFacts.good_post S T post ->
  exists rs, Forall2 (fun l r => convert S T l nat pre post = Ok r) (words txt) rs /\ convert S T txt nat pre post = Ok (join [32] rs).
Proof.
  intros S T nat pre post txt HP HO HL G1 G2 G3. destruct (join_words txt) as [EJ NE].
  assert (E : exists rs, Forall2 (fun l r => convert S T l nat pre post = Ok r) (words txt) rs).
  { clear HL NE EJ. induction (words txt) as [|l ls (rs & IH)]; [exists []; constructor|]. destruct (convert_total S T G1 pre post G2 G3 nat l) as [r Er]. exists (r :: rs). now constructor. }
  destruct E as [rs E]. exists rs. split; [exact E|]. rewrite <- EJ at 1. now apply words_by_word.
Qed.

Section Public.
Variable uname : N -> option str.
Variable uscript : N -> str.
Variable lfind : str -> res str.
(** C07, C38, C39 for [transliterate.process]: names and options in any case, unknown options do not matter. *)
Theorem process_cut_apart : forall src tgt nat pre post w a b x y, src <> "autodetect"%u ->
  let S := canonical_name src in let T := canonical_name tgt in
  let conv txt := snd (process uname uscript lfind src tgt txt nat post pre "default"%u) in
  cut_at S T (resolve_options PrP_names pre) (resolve_options PP_names post) w -> may_meet S T a b ->
  conv a = Ok x -> conv b = Ok y -> conv (a ++ w :: b) = Ok (x ++ w :: y).
Proof.
  intros src tgt nat pre post w a b x y Ha S T conv HC HM.
  assert (C : forall txt, conv txt = convert S T txt nat (resolve_options PrP_names pre) (resolve_options PP_names post)).
  { intros txt. subst conv. cbv beta. unfold process. rewrite str_eqb_refl. rewrite process_default_known by assumption. now rewrite convert_default_value. }
  rewrite !C. now apply cut_apart.
Qed.
End Public.

(** ** The hypotheses can be met, and are needed *)
(** Three words, in two scripts. *)
Example words_by_word_case :
  (word_pair "HK"%u "Tamil"%u /\ word_options "HK"%u "Tamil"%u [] [] /\ Forall (line_ok "HK"%u "Tamil"%u) ["zrIH"%u; "namas"%u; "te"%u]
   /\ Forall2 (fun l r => convert "HK"%u "Tamil"%u l true [] [] = Ok r) ["zrIH"%u; "namas"%u; "te"%u] ["ஶ்ரீ꞉"%u; "நமஸ்"%u; "தே"%u])
  /\ convert "HK"%u "Tamil"%u "zrIH namas te"%u true [] [] = Ok "ஶ்ரீ꞉ நமஸ் தே"%u.
Proof.
  split; [|vm_compute; reflexivity]. split; [|split; [|split]].
  - split; [listed_name|]. split; [not_listed|]. split; [listed_name|]. split; [not_listed|]. split; [intros [Q _]; discriminate Q|]. intros _. not_listed.
  - split; intros o [].
  - assert (K : forall l, forallb (okc "Oo"%u) (first_word l) && forallb (okc "Oo"%u) (last_word l) && negb (memN 124 l) = true -> line_ok "HK"%u "Tamil"%u l).
    { intros l H. apply andb_true_iff in H as [H H3]. apply andb_true_iff in H as [H1 H2]. split; [intros _ Q; apply memN_In in Q; rewrite Q in H3; discriminate H3|]. split; [intros Q; discriminate Q|]. split.
      - intros _ k Hk. rewrite (word_letters "HK"%u "Oo"%u k ltac:(vm_compute; reflexivity) Hk). split; apply clean_free; assumption.
      - intros _ k Hk. exfalso. revert Hk. apply no_text_letters. vm_compute. reflexivity. }
    constructor; [|constructor; [|constructor; [|constructor]]]; apply K; vm_compute; reflexivity.
  - constructor; [|constructor; [|constructor; [|constructor]]]; vm_compute; reflexivity.
Qed.
(** Of four oms in a row, one stays a word. *)
Theorem words_by_word_om_refuted : exists l r x, word_pair "Telugu"%u "Devanagari"%u /\ convert "Telugu"%u "Devanagari"%u l true [] [] = Ok r
  /\ convert "Telugu"%u "Devanagari"%u (join [32] [l; l; l; l]) true [] [] = Ok x /\ x <> join [32] [r; r; r; r].
Proof.
  exists "ఓం"%u, "ॐ"%u, "ॐ ॐ ओं ॐ"%u. split.
  - split; [listed_name|]. split; [not_listed|]. split; [listed_name|]. split; [not_listed|]. split; [intros [Q _]; discriminate Q|]. intros _. not_listed.
  - split; [vm_compute; reflexivity|]. split; [vm_compute; reflexivity|discriminate].
Qed.
(** Blanks are not kept apart by Tibetan. *)
Theorem words_by_word_tibetan_refuted : exists a b x y r, convert "Devanagari"%u "Tibetan"%u a true [] [] = Ok x /\ convert "Devanagari"%u "Tibetan"%u b true [] [] = Ok y
  /\ convert "Devanagari"%u "Tibetan"%u (a ++ 32 :: b) true [] [] = Ok r /\ r <> x ++ 32 :: y.
Proof.
  exists "क"%u, "ख"%u, "ཀ"%u, "ཁ"%u, "ཀ་ཁ"%u. split; [vm_compute; reflexivity|]. split; [vm_compute; reflexivity|]. split; [vm_compute; reflexivity|discriminate].
Qed.
(** Piece by piece: two symbols and a line feed. *)
Example pieces_apart_case :
  let ps := [(0x5B57, "धर्म"%u); (10, "क्षेत्रे"%u); (0x1F600, "॥"%u)] in
  Forall (fun e => cut_at "Devanagari"%u "Telugu"%u [] [] (fst e)) ps /\ line_ok "Devanagari"%u "Telugu"%u "ॐ"%u /\ Forall (fun e => line_ok "Devanagari"%u "Telugu"%u (snd e)) ps
  /\ convert "Devanagari"%u "Telugu"%u (weave "ॐ"%u ps) true [] [] = Ok (weave "ఓం"%u [(0x5B57, "ధర్మ"%u); (10, "క్షేత్రే"%u); (0x1F600, ".."%u)]).
Proof.
  intros ps.
  assert (Sy : forall w, Foreign.foreign w = true -> memN w spaces = false -> symbol w) by (intros w H1 H2; split; [exact H1|]; intros Q; apply memN_In in Q; congruence).
  assert (P1 : symbol_pair "Devanagari"%u "Telugu"%u).
  { split; [listed_name|]. split; [not_listed|]. split; [listed_name|]. split; [not_listed|]. split; [intros [Q _]; discriminate Q|]. intros _. not_listed. }
  assert (P2 : line_pair "Devanagari"%u "Telugu"%u).
  { split; [listed_name|]. split; [not_listed|]. split; [listed_name|]. split; [not_listed|]. split; [intros [Q _]; discriminate Q|]. intros _. not_listed. }
  assert (O : forall l m, apart_options l m "Devanagari"%u "Telugu"%u [] []) by (intros l m; split; intros o []).
  assert (K : forall s, line_ok "Devanagari"%u "Telugu"%u s).
  { intros s. split; [intros Q; apply mem_In in Q; vm_compute in Q; discriminate Q|]. split; [intros Q; discriminate Q|]. split; intros _ k Hk; exfalso.
    - assert (F : mem "Devanagari"%u (map fst om_words) = false) by (vm_compute; reflexivity). apply mem_false in F. apply F. exact (in_map fst _ _ Hk).
    - revert Hk. apply no_text_letters. vm_compute. reflexivity. }
  split; [|split; [apply K|split; [|vm_compute; reflexivity]]].
  - constructor; [left; split; [apply Sy; vm_compute; reflexivity|split; [exact P1|apply O]]|]. constructor; [right; left; split; [reflexivity|split; [exact P2|apply O]]|].
    constructor; [left; split; [apply Sy; vm_compute; reflexivity|split; [exact P1|apply O]]|constructor].
  - apply Forall_forall. intros e _. apply K.
Qed.
