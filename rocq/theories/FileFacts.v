(** * The file interface (C24, C25, C26). *)
From Coq Require Import List NArith ZArith Bool Lia.
From Verif Require Import PyStr Prog Transliterate StrFacts NumFacts FileApi.
Import ListNotations.
Open Scope nat_scope.

(* ------------------------------------------------------------------ *)
(** ** Encoding: what is written can be read back *)

Local Ltac tests :=
  repeat match goal with
  | |- context [N.ltb ?a ?b] => destruct (N.ltb_spec a b); try (exfalso; lia); cbn [andb negb]
  | |- context [N.leb ?a ?b] => destruct (N.leb_spec a b); try (exfalso; lia); cbn [andb negb]
  | |- context [N.eqb ?a ?b] => destruct (N.eqb_spec a b); try (exfalso; lia); cbn [andb negb]
  end.

Lemma utf8_char_read : forall c l, scalar c = true ->
  utf8_read (utf8_char c ++ l) = option_map (cons c) (utf8_read l).
Proof.
  intros c l H. unfold scalar in H. apply andb_true_iff in H as [H1 H2]. apply N.ltb_lt in H1.
  assert (H3 : (c < 0xD800 \/ 0xE000 <= c)%N).
  { apply negb_true_iff, andb_false_iff in H2 as [H2|H2]; [apply N.leb_gt in H2|apply N.ltb_ge in H2]; lia. }
  clear H2. unfold utf8_char.
  pose proof (N.div_mod c 64 ltac:(discriminate)) as D1. pose proof (N.mod_lt c 64 ltac:(discriminate)) as M1.
  assert (E2 : (c / 4096 = c / 64 / 64)%N) by (rewrite N.div_div by discriminate; reflexivity).
  assert (E3 : (c / 262144 = c / 64 / 64 / 64)%N) by (rewrite !N.div_div by discriminate; reflexivity).
  rewrite E2, E3.
  pose proof (N.div_mod (c / 64) 64 ltac:(discriminate)) as D2. pose proof (N.mod_lt (c / 64) 64 ltac:(discriminate)) as M2.
  pose proof (N.div_mod (c / 64 / 64) 64 ltac:(discriminate)) as D3. pose proof (N.mod_lt (c / 64 / 64) 64 ltac:(discriminate)) as M3.
  set (q1 := (c / 64)%N) in *. set (q2 := (q1 / 64)%N) in *. set (q3 := (q2 / 64)%N) in *.
  set (r1 := (c mod 64)%N) in *. set (r2 := (q1 mod 64)%N) in *. set (r3 := (q2 mod 64)%N) in *.
  clearbody q1 q2 q3 r1 r2 r3. clear E2 E3.
  destruct (N.ltb_spec c 128) as [L1|L1]; [cbn [app utf8_read]; tests; reflexivity|].
  destruct (N.ltb_spec c 2048) as [L2|L2].
  { assert (B : (2 <= q1 < 32)%N) by lia.
    assert (Ec : ((192 + q1 - 192) * 64 + (128 + r1 - 128) = c)%N) by lia.
    clear D1 D2 D3 M2 M3 H1 H3 L1 L2. cbn [app utf8_read]. unfold cont. tests; rewrite Ec; reflexivity. }
  destruct (N.ltb_spec c 65536) as [L3|L3].
  - assert (B : (q2 < 16 /\ (q2 = 0 -> 32 <= r2) /\ (q2 = 13 -> r2 < 32))%N) by lia. destruct B as (B1 & B2 & B3).
    assert (Ec : ((224 + q2 - 224) * 4096 + (128 + r2 - 128) * 64 + (128 + r1 - 128) = c)%N) by lia.
    clear D1 D2 D3 M3 H1 H3 L1 L2 L3. cbn [app utf8_read]. unfold cont. tests; rewrite Ec; reflexivity.
  - assert (B : (q3 < 5 /\ (q3 = 0 -> 16 <= r3) /\ (q3 = 4 -> r3 < 16))%N) by lia. destruct B as (B1 & B2 & B3).
    assert (Ec : ((240 + q3 - 240) * 262144 + (128 + r3 - 128) * 4096 + (128 + r2 - 128) * 64 + (128 + r1 - 128) = c)%N) by lia.
    clear D1 D2 D3 H1 H3 L1 L2 L3. cbn [app utf8_read]. unfold cont. tests; rewrite Ec; reflexivity.
Qed.

Theorem utf8_roundtrip : forall s d, utf8_write s = Some d -> utf8_read d = Some s.
Proof.
  unfold utf8_write. intros s d H. destruct (forallb scalar s) eqn:E; [|discriminate]. injection H as <-.
  induction s as [|c s IH]; [reflexivity|]. cbn [forallb] in E. apply andb_true_iff in E as [E1 E2].
  cbn [flat_map]. rewrite utf8_char_read by assumption. now rewrite IH.
Qed.
Example utf8_roundtrip_case : utf8_write "aक𑌕"%u = Some [97; 224; 164; 149; 240; 145; 140; 149]%N.
Proof. reflexivity. Qed.

(* ------------------------------------------------------------------ *)
(** ** Names *)

Lemma span_app : forall A (f : A -> bool) l, fst (span f l) ++ snd (span f l) = l.
Proof.
  intros A f. induction l as [|x l IH]; [reflexivity|]. cbn [span].
  destruct (f x); [|reflexivity]. destruct (span f l) as [a b]. cbn [fst snd app] in *. now rewrite IH.
Qed.
Lemma span_all : forall A (f : A -> bool) l, forallb f (fst (span f l)) = true.
Proof.
  intros A f. induction l as [|x l IH]; [reflexivity|]. cbn [span].
  destruct (f x) eqn:E; [|reflexivity]. destruct (span f l) as [a b]. cbn [fst forallb] in *. now rewrite E.
Qed.

(** The extension is a suffix that starts with a dot and has no other dot and no slash, or is empty. *)
Theorem splitext_parts : forall p, fst (splitext p) ++ snd (splitext p) = p
  /\ (snd (splitext p) = [] \/ exists e, snd (splitext p) = 46%N :: e /\ ~ In 46%N e /\ ~ In 47%N e).
Proof.
  intros p. unfold splitext.
  pose proof (span_app _ (fun c => negb ((c =? 46) || (c =? 47)))%N (rev p)) as A.
  pose proof (span_all _ (fun c => negb ((c =? 46) || (c =? 47)))%N (rev p)) as B.
  destruct (span (fun c => negb ((c =? 46) || (c =? 47)))%N (rev p)) as [ext rest]. cbn [fst snd] in *.
  assert (D : fst (p, @nil N) ++ snd (p, @nil N) = p /\ (snd (p, @nil N) = [] \/ exists e, snd (p, @nil N) = 46%N :: e /\ ~ In 46%N e /\ ~ In 47%N e))
    by (cbn; rewrite app_nil_r; auto).
  destruct rest as [|c root]; [exact D|].
  destruct (N.eqb_spec c 46) as [->|n]; [|exact D].
  destruct (existsb _ _); [|exact D]. cbn [andb fst snd]. split.
  - apply (f_equal (@rev N)) in A. rewrite rev_involutive in A. rewrite <- A, rev_app_distr. cbn [rev].
    now rewrite <- app_assoc.
  - right. exists (rev ext). split; [reflexivity|]. rewrite forallb_forall in B.
    split; intros H; rewrite <- in_rev in H; specialize (B _ H); discriminate.
Qed.
Example splitext_case : splitext "a.d/x.tar.txt"%u = ("a.d/x.tar"%u, ".txt"%u) /\ splitext "a.d/.txt"%u = ("a.d/.txt"%u, []).
Proof. split; reflexivity. Qed.

Lemma txt_name_ne : forall src tgt file, txt_name src tgt file <> file.
Proof.
  intros src tgt file H. unfold txt_name in H. destruct (splitext_parts file) as [A _].
  destruct (splitext file) as [r e]. cbn [fst snd] in A. rewrite <- A in H.
  apply (f_equal (@length N)) in H. rewrite !app_length in H. cbn in H. lia.
Qed.
Lemma docx_name_ne : forall src tgt file, docx_name src tgt file <> file.
Proof.
  intros src tgt file H. unfold docx_name in H. destruct (splitext_parts file) as [A _].
  destruct (splitext file) as [r e]. cbn [fst snd] in A. rewrite <- A in H.
  apply (f_equal (@length N)) in H. rewrite !app_length in H. cbn in H. lia.
Qed.

(* ------------------------------------------------------------------ *)
(** ** The three formats *)

Section Files.
  Variable writable : str -> bool.
  Variable soup : Type.
  Variable parse_html : str -> soup.
  Variable strings : soup -> list str.
  Variable set_strings : soup -> list str -> soup.
  Variable prettify : soup -> str.
  Variable info : Type.
  Variable zip_open : list N -> res (list (member info)).
  Variable zip_bytes : list (member info) -> list N.
  Variable b64decode : str -> res (list N).
  Variable skeleton : Type.
  Variable parse_xml : list N -> res (xml skeleton).
  Variable tostring : xml skeleton -> list N.
  Variable set_text : str -> res str.
  Variable convert_none : str -> str -> bool -> list str -> list str -> res (option str).

  Let txt := convert_txt writable.
  Let html := convert_html writable soup parse_html strings set_strings prettify.
  Let docx := convert_docx writable info zip_open zip_bytes b64decode skeleton parse_xml tostring set_text convert_none.
  Let proc := process_file writable soup parse_html strings set_strings prettify info zip_open zip_bytes b64decode
    skeleton parse_xml tostring set_text convert_none.

  (** Only the path [p] can differ between two states of the file system. *)
  Definition only (p : str) (w w' : world) : Prop := forall q, q <> p -> w_fs w' q = w_fs w q.

  Lemma upd_only : forall fs p d q, q <> p -> upd fs p d q = fs q.
  Proof. intros fs p d q H. unfold upd. apply str_eqb_neq in H. now rewrite H. Qed.
  Lemma upd_same : forall fs p d, upd fs p d p = Some d.
  Proof. intros. unfold upd. now rewrite str_eqb_refl. Qed.

  Lemma read_text_world : forall f w r w', read_text f w = (r, w') -> w' = w.
  Proof.
    unfold read_text, bindM, read_bytes. intros f w r w' H. destruct (w_fs w f); [|congruence].
    destruct (utf8_read l); unfold ret, fail in H; congruence.
  Qed.

  Lemma txt_only : forall src tgt file nat_ pre post w r w',
    txt src tgt file nat_ pre post w = (r, w') -> only (txt_name src tgt file) w w'.
  Proof.
    intros src tgt file nat_ pre post w r w' H q Hq. unfold txt, convert_txt, bindM in H.
    destruct (read_text file w) as [[t|e] w1] eqn:R; apply read_text_world in R; subst w1; [|congruence].
    unfold open_write in H. destruct (writable _); [|congruence].
    unfold lift in H. destruct (convert _ _ _ _ _ _); [|injection H as <- <-; now apply upd_only].
    destruct (encode a); [|injection H as <- <-; now apply upd_only].
    unfold put, created, print_line in H. injection H as <- <-. cbn [w_fs]. now rewrite !upd_only.
  Qed.

  Lemma html_only : forall src tgt file nat_ pre post api w r w',
    html src tgt file nat_ pre post api w = (r, w') -> only (txt_name src tgt file) w w'.
  Proof.
    intros src tgt file nat_ pre post api w r w' H q Hq. unfold html, convert_html, bindM in H.
    assert (exists t, (if api then ret file else read_text file) w = (t, w)) as (t & R).
    { destruct api; [eexists; reflexivity|]. destruct (read_text file w) as [t w1] eqn:R.
      pose proof (read_text_world _ _ _ _ R). subst w1. now exists t. }
    rewrite R in H. destruct t as [t|e]; [|congruence]. unfold lift in H.
    destruct (mapR _ _); [|congruence]. destruct api; [unfold ret in H; congruence|].
    unfold open_write in H. destruct (writable _); [|congruence].
    destruct (encode _); [|injection H as <- <-; now apply upd_only].
    unfold put, created, print_line, ret in H. injection H as <- <-. cbn [w_fs]. now rewrite !upd_only.
  Qed.

  Lemma docx_only : forall src tgt file nat_ pre post api w r w',
    docx src tgt file nat_ pre post api w = (r, w') -> only (docx_name src tgt file) w w'.
  Proof.
    intros src tgt file nat_ pre post api w r w' H q Hq. unfold docx, convert_docx, bindM in H.
    assert (exists t, (if api then lift (b64decode file) else read_bytes file) w = (t, w)) as (t & R)
      by (destruct api; eexists; reflexivity).
    rewrite R in H. destruct t as [t|e]; [|congruence]. unfold lift in H.
    destruct (zip_open t); [|congruence]. destruct (mapR _ _); [|congruence].
    destruct api; [unfold ret in H; congruence|].
    unfold open_write in H. destruct (writable _); [|congruence].
    unfold put, created, print_line, ret in H. injection H as <- <-. cbn [w_fs]. now rewrite !upd_only.
  Qed.

  (** The name of the output of [process] for a file name. *)
  Definition out_name (src tgt file : str) : str :=
    if contains ".txt"%u file then txt_name src tgt file
    else if contains ".docx"%u file then docx_name src tgt file else txt_name src tgt file.

  (** C24, first half: whatever happens, error or not, at most the one output file is touched. *)
  Theorem only_output_touched : forall src tgt file nat_ pre post api w r w',
    proc src tgt file nat_ pre post api w = (r, w') -> only (out_name src tgt file) w w'.
  Proof.
    intros src tgt file nat_ pre post api w r w' H. unfold proc, process_file, bindM, isfile in H. unfold out_name.
    destruct (w_fs w file); cycle 1.
    { unfold warn in H. injection H as <- <-. intros q _. reflexivity. }
    destruct (contains ".txt"%u file); [now apply txt_only in H|].
    destruct (contains ".docx"%u file).
    - destruct (convert_docx _ _ _ _ _ _ _ _ _ _ _ _ _ _ _ _ _ w) as [x w1] eqn:E. apply docx_only in E.
      destruct x; unfold ret in H; injection H as <- <-; exact E.
    - destruct (contains ".htm"%u file).
      + destruct (convert_html _ _ _ _ _ _ _ _ _ _ _ _ _ w) as [x w1] eqn:E. apply html_only in E.
        destruct x; unfold ret in H; injection H as <- <-; exact E.
      + unfold warn in H. injection H as <- <-. intros q _. reflexivity.
  Qed.

  Lemma out_name_ne : forall src tgt file, out_name src tgt file <> file.
  Proof.
    intros. unfold out_name. destruct (contains ".txt"%u file); [apply txt_name_ne|].
    destruct (contains ".docx"%u file); [apply docx_name_ne|apply txt_name_ne].
  Qed.

  Theorem input_file_untouched : forall src tgt file nat_ pre post api w r w',
    proc src tgt file nat_ pre post api w = (r, w') -> w_fs w' file = w_fs w file.
  Proof.
    intros src tgt file nat_ pre post api w r w' H. apply only_output_touched in H. apply H.
    intros E. symmetry in E. now apply out_name_ne in E.
  Qed.

  (** C24, second half, for text files: the output holds the conversion of the input. *)
  Theorem txt_output : forall src tgt file nat_ pre post api w w',
    contains ".txt"%u file = true -> w_fs w file <> None ->
    proc src tgt file nat_ pre post api w = (Ok tt, w') ->
    exists bytes s out, w_fs w file = Some bytes /\ utf8_read bytes = Some s
      /\ convert src tgt (newlines s) nat_ pre post = Ok out
      /\ w_fs w' (txt_name src tgt file) = Some (flat_map utf8_char out)
      /\ utf8_read (flat_map utf8_char out) = Some out
      /\ w_printed w' = ("The following file has been created: "%u ++ txt_name src tgt file) :: w_printed w.
  Proof.
    intros src tgt file nat_ pre post api w w' C I H. unfold proc, process_file, bindM, isfile in H.
    destruct (w_fs w file) as [bytes|] eqn:F; [|easy]. rewrite C in H.
    unfold convert_txt, bindM, read_text, bindM, read_bytes in H. rewrite F in H.
    destruct (utf8_read bytes) as [s|] eqn:U; [|discriminate]. cbn [ret] in H. unfold open_write in H.
    destruct (writable _); [|discriminate]. unfold lift in H.
    destruct (convert src tgt (newlines s) nat_ pre post) as [out|] eqn:V; [|discriminate].
    unfold encode in H. destruct (utf8_write out) as [d|] eqn:W; [|discriminate].
    unfold put, created, print_line in H. injection H as <-. exists bytes, s, out.
    repeat (split; [first [reflexivity|assumption]|]).
    assert (d = flat_map utf8_char out) as -> by (unfold utf8_write in W; destruct (forallb scalar out); congruence).
    cbn [w_fs w_printed]. split; [apply upd_same|]. split; [now apply utf8_roundtrip|reflexivity].
  Qed.

  (** It succeeds whenever the input is UTF-8, the conversion succeeds with a string that can be
      encoded and the output may be written. *)
  Theorem txt_succeeds : forall src tgt file nat_ pre post api w bytes s out,
    contains ".txt"%u file = true -> w_fs w file = Some bytes -> utf8_read bytes = Some s ->
    writable (txt_name src tgt file) = true ->
    convert src tgt (newlines s) nat_ pre post = Ok out -> forallb scalar out = true ->
    exists w', proc src tgt file nat_ pre post api w = (Ok tt, w').
  Proof.
    intros src tgt file nat_ pre post api w bytes s out C F U Wr V Sc.
    unfold proc, process_file, bindM, isfile. rewrite F, C.
    unfold convert_txt, bindM, read_text, bindM, read_bytes. rewrite F, U. cbn [ret].
    unfold open_write. rewrite Wr. unfold lift. rewrite V. unfold encode, utf8_write. rewrite Sc.
    eexists. reflexivity.
  Qed.

  (** HTML: every string of the document is replaced by its conversion. *)
  Theorem html_output : forall src tgt file nat_ pre post w w',
    contains ".txt"%u file = false -> contains ".docx"%u file = false -> contains ".htm"%u file = true ->
    w_fs w file <> None ->
    (forall s, In [] (strings (parse_html s)) -> False) ->
    proc src tgt file nat_ pre post false w = (Ok tt, w') ->
    exists bytes s news out, w_fs w file = Some bytes /\ utf8_read bytes = Some s
      /\ Forall2 (fun old new => convert src tgt old nat_ pre post = Ok new) (strings (parse_html (newlines s))) news
      /\ out = prettify (set_strings (parse_html (newlines s)) news)
      /\ w_fs w' (txt_name src tgt file) = Some (flat_map utf8_char out)
      /\ utf8_read (flat_map utf8_char out) = Some out.
  Proof.
    intros src tgt file nat_ pre post w w' C1 C2 C3 I Ne H. unfold proc, process_file, bindM, isfile in H.
    destruct (w_fs w file) as [bytes|] eqn:F; [|easy]. rewrite C1, C2, C3 in H.
    unfold convert_html, bindM, read_text, bindM, read_bytes in H. rewrite F in H.
    destruct (utf8_read bytes) as [s|] eqn:U; [|discriminate]. cbn [ret] in H. unfold lift in H.
    set (sp := parse_html (newlines s)) in *.
    destruct (mapR _ (strings sp)) as [news|] eqn:Mp; [|discriminate].
    unfold open_write in H. destruct (writable _); [|discriminate].
    unfold encode in H. destruct (utf8_write _) as [d|] eqn:W; [|discriminate].
    unfold put, created, print_line, ret in H. injection H as <-.
    exists bytes, s, news, (prettify (set_strings sp news)).
    split; [reflexivity|]. split; [assumption|]. split.
    - specialize (Ne (newlines s)). fold sp. fold sp in Ne. clear -Mp Ne. revert news Mp Ne.
      induction (strings sp) as [|x l IH]; intros news Mp Ne.
      + injection Mp as <-. constructor.
      + cbn [mapR] in Mp. destruct (convert src tgt x nat_ pre post) as [c|] eqn:V; [|discriminate].
        cbn [rbind] in Mp. destruct (mapR _ l) as [r|] eqn:R; [|discriminate]. cbn [rbind] in Mp.
        assert (E : news = replace x c x :: r) by congruence. subst news. constructor.
        * rewrite replace_self; [assumption|]. intros ->. apply Ne. now left.
        * apply IH; [reflexivity|]. intros Y. apply Ne. now right.
    - split; [reflexivity|].
      assert (d = flat_map utf8_char (prettify (set_strings sp news))) as ->
        by (unfold utf8_write in W; destruct (forallb scalar _); congruence).
      cbn [w_fs]. split; [apply upd_same|now apply utf8_roundtrip].
  Qed.

  Lemma mapR_Forall2 : forall (A B : Type) (f : A -> res B) l r, mapR f l = Ok r -> Forall2 (fun x y => f x = Ok y) l r.
  Proof.
    intros A B f. induction l as [|x l IH]; intros r H; cbn [mapR] in H; [injection H as <-; constructor|].
    destruct (f x) as [y|] eqn:E; [|discriminate]. cbn [rbind] in H. destruct (mapR f l) as [r'|]; [|discriminate].
    cbn [rbind] in H. assert (r = y :: r') as -> by congruence. constructor; auto.
  Qed.

  (** Word: members in the same order under the same names; those that are not word/*.xml keep their
      content; in the others exactly the texts of the text elements change, and are converted with
      the two option lists exchanged (C26). *)
  Definition text_changed (src tgt : str) (nat_ : bool) (pre post : list str) (e e' : str * option str) : Prop :=
    fst e' = fst e /\
    (fst e <> WORD_TEXT -> e' = e) /\
    (fst e = WORD_TEXT -> forall t, snd e = Some t ->
       exists c c', convert src tgt t nat_ post pre = Ok c /\ set_text c = Ok c' /\ snd e' = Some c').

  Definition member_changed (src tgt : str) (nat_ : bool) (pre post : list str) (m m' : member info) : Prop :=
    m_name _ m' = m_name _ m /\ m_info _ m' = m_info _ m /\
    (if startswith "word/"%u (m_name _ m) && endswith ".xml"%u (m_name _ m) then
       exists x es, parse_xml (m_data _ m) = Ok x /\ m_data _ m' = tostring (Xml _ (x_skel _ x) es)
         /\ Forall2 (text_changed src tgt nat_ pre post) (x_elems _ x) es
     else m_data _ m' = m_data _ m).

  Lemma member_named_self : forall ms m, NoDup (map (m_name info) ms) -> In m ms ->
    member_named _ ms (m_name _ m) = Ok (m_data _ m).
  Proof.
    intros ms m ND I. unfold member_named.
    destruct (find _ (rev ms)) as [m1|] eqn:F.
    - apply find_some in F as [F1 F2]. apply str_eqb_eq in F2. apply in_rev in F1.
      assert (m1 = m) as ->; [|reflexivity]. clear -ND I F1 F2. induction ms as [|a ms IH]; [easy|].
      cbn [map] in ND. inversion ND as [|? ? N1 N2]; subst. destruct I as [<-|I], F1 as [<-|F1]; auto.
      + exfalso. apply N1. rewrite <- F2. now apply in_map.
      + exfalso. apply N1. rewrite F2. now apply in_map.
    - exfalso. apply in_rev in I. apply (find_none _ _ F) in I. rewrite str_eqb_refl in I. discriminate.
  Qed.

  Lemma Forall2_weaken : forall (A B : Type) (P Q : A -> B -> Prop) l l',
    (forall x y, In x l -> P x y -> Q x y) -> Forall2 P l l' -> Forall2 Q l l'.
  Proof.
    intros A B P Q l l' H F. induction F as [|x y l l' Hx F IH]; constructor; [apply H; [now left|assumption]|].
    apply IH. intros u v Hu. apply H. now right.
  Qed.

  Theorem docx_output : forall src tgt file nat_ pre post w w',
    contains ".txt"%u file = false -> contains ".docx"%u file = true -> w_fs w file <> None ->
    (forall d ms, zip_open d = Ok ms -> NoDup (map (m_name _) ms)) ->
    proc src tgt file nat_ pre post false w = (Ok tt, w') ->
    exists bytes ms news, w_fs w file = Some bytes /\ zip_open bytes = Ok ms
      /\ Forall2 (member_changed src tgt nat_ pre post) ms news
      /\ w_fs w' (docx_name src tgt file) = Some (zip_bytes news).
  Proof.
    intros src tgt file nat_ pre post w w' C1 C2 I ND H. unfold proc, process_file, bindM, isfile in H.
    destruct (w_fs w file) as [bytes|] eqn:F; [|easy]. rewrite C1, C2 in H.
    unfold convert_docx, bindM, read_bytes in H. rewrite F in H. unfold lift in H.
    destruct (zip_open bytes) as [ms|] eqn:Z; [|discriminate].
    destruct (mapR _ ms) as [news|] eqn:Mp; [|discriminate].
    unfold open_write in H. destruct (writable _); [|discriminate].
    unfold put, created, print_line, ret in H. injection H as <-.
    exists bytes, ms, news. split; [reflexivity|]. split; [assumption|]. split; [|cbn [w_fs]; apply upd_same].
    apply ND in Z. apply mapR_Forall2 in Mp.
    assert (G : forall m m', In m ms -> convert_member _ _ parse_xml tostring set_text convert_none src tgt nat_ pre post ms m = Ok m' ->
                member_changed src tgt nat_ pre post m m').
    { intros m m' Im E. unfold convert_member in E. unfold member_changed.
      destruct (startswith _ _ && endswith _ _).
      - destruct (parse_xml (m_data _ m)) as [x|] eqn:X; [|discriminate]. cbn [rbind] in E.
        destruct (mapR _ (x_elems _ x)) as [es|] eqn:Es; [|discriminate]. cbn [rbind] in E. injection E as <-.
        cbn [m_name m_info m_data]. repeat split. exists x, es. repeat split. apply mapR_Forall2 in Es.
        eapply Forall2_weaken; [|exact Es]. intros e e' _ Ee. unfold convert_elem in Ee. unfold text_changed.
        destruct (str_eqb (fst e) WORD_TEXT) eqn:T.
        + apply str_eqb_eq in T. destruct e as [tag [t|]]; cbn [fst snd] in *.
          * destruct (convert src tgt t nat_ post pre) as [c|] eqn:V; [|discriminate]. cbn [rbind] in Ee.
            destruct (set_text c) as [c'|] eqn:S; [|discriminate]. cbn [rbind] in Ee.
            assert (e' = (tag, Some c')) as -> by congruence. split; [reflexivity|]. split; [easy|].
            intros _ t' Ht. injection Ht as <-. exists c, c'. auto.
          * split; [|split; [easy|intros _ t' Ht; discriminate]].
            destruct (convert_none _ _ _ _ _) as [[c|]|]; cbn [rbind] in Ee;
              [|assert (e' = (tag, None)) as -> by congruence; reflexivity|discriminate].
            destruct (set_text c) as [c'|]; [|discriminate]. cbn [rbind] in Ee.
            assert (e' = (tag, Some c')) as -> by congruence. reflexivity.
        + assert (e' = e) as -> by congruence. split; [reflexivity|]. split; [reflexivity|].
          intros Q. apply str_eqb_neq in T. contradiction.
      - rewrite (member_named_self ms m Z Im) in E. cbn [rbind] in E. injection E as <-. repeat split. }
    eapply Forall2_weaken; [|exact Mp]. intros m m' Im Hm. now apply G.
  Qed.

  (** C25.  A text file whose conversion fails leaves an empty output file, also in place of one that
      was there before. *)
  Theorem txt_failure : forall src tgt file nat_ pre post api w bytes s e,
    contains ".txt"%u file = true -> w_fs w file = Some bytes -> utf8_read bytes = Some s ->
    writable (txt_name src tgt file) = true ->
    convert src tgt (newlines s) nat_ pre post = Err e ->
    exists w', proc src tgt file nat_ pre post api w = (Err e, w') /\ w_fs w' (txt_name src tgt file) = Some [].
  Proof.
    intros src tgt file nat_ pre post api w bytes s e C F U Wr V.
    unfold proc, process_file, bindM, isfile. rewrite F, C.
    unfold convert_txt, bindM, read_text, bindM, read_bytes. rewrite F, U. cbn [ret].
    unfold open_write. rewrite Wr. unfold lift. rewrite V.
    eexists. split; [reflexivity|]. cbn [w_fs]. apply upd_same.
  Qed.

  (** A file that is not UTF-8 is refused before the output is opened. *)
  Theorem txt_not_utf8 : forall src tgt file nat_ pre post api w bytes,
    contains ".txt"%u file = true -> w_fs w file = Some bytes -> utf8_read bytes = None ->
    proc src tgt file nat_ pre post api w = (Err DecodeError, w).
  Proof.
    intros src tgt file nat_ pre post api w bytes C F U.
    unfold proc, process_file, bindM, isfile. rewrite F, C.
    unfold convert_txt, bindM, read_text, bindM, read_bytes. now rewrite F, U.
  Qed.

  (** For Word documents a failure of any kind leaves everything as it was ... *)
  Theorem docx_failure : forall src tgt file nat_ pre post api w w' e,
    contains ".txt"%u file = false -> contains ".docx"%u file = true ->
    proc src tgt file nat_ pre post api w = (Err e, w') -> w' = w.
  Proof.
    intros src tgt file nat_ pre post api w w' e C1 C2 H. unfold proc, process_file, bindM, isfile in H.
    destruct (w_fs w file) as [bytes|] eqn:F; [|discriminate]. rewrite C1, C2 in H.
    unfold convert_docx, bindM in H.
    assert (exists t, (if api then lift (b64decode file) else read_bytes file) w = (t, w)) as (t & R)
      by (destruct api; eexists; reflexivity).
    rewrite R in H. destruct t as [t|]; [|congruence]. unfold lift in H.
    destruct (zip_open t); [|congruence]. destruct (mapR _ _); [|congruence].
    destruct api; [discriminate|]. unfold open_write in H. destruct (writable _); [discriminate|congruence].
  Qed.

  (** ... and for HTML as well, unless the document cannot be encoded. *)
  Theorem html_failure : forall src tgt file nat_ pre post api w w' e,
    contains ".txt"%u file = false -> contains ".docx"%u file = false ->
    proc src tgt file nat_ pre post api w = (Err e, w') -> e <> EncodeError -> w' = w.
  Proof.
    intros src tgt file nat_ pre post api w w' e C1 C2 H Ne. unfold proc, process_file, bindM, isfile in H.
    destruct (w_fs w file) as [bytes|] eqn:F; [|discriminate]. rewrite C1, C2 in H.
    destruct (contains ".htm"%u file); [|discriminate]. unfold convert_html, bindM in H.
    assert (exists t, (if api then ret file else read_text file) w = (t, w)) as (t & R).
    { destruct api; [eexists; reflexivity|]. destruct (read_text file w) as [t w1] eqn:R.
      pose proof (read_text_world _ _ _ _ R). subst w1. now exists t. }
    rewrite R in H. destruct t as [t|]; [|congruence]. unfold lift in H.
    destruct (mapR _ _); [|congruence]. destruct api; [discriminate|].
    unfold open_write in H. destruct (writable _); [|congruence].
    unfold encode in H. destruct (utf8_write _); [discriminate|congruence].
  Qed.

  (** Anything that is not a file, or not of a supported kind, only causes a warning. *)
  Theorem nothing_done : forall src tgt file nat_ pre post api w,
    w_fs w file = None
    \/ (contains ".txt"%u file = false /\ contains ".docx"%u file = false /\ contains ".htm"%u file = false) ->
    exists m w', proc src tgt file nat_ pre post api w = (Ok tt, w') /\ w_fs w' = w_fs w
      /\ w_printed w' = w_printed w /\ w_warned w' = m :: w_warned w.
  Proof.
    intros src tgt file nat_ pre post api w H. unfold proc, process_file, bindM, isfile.
    destruct H as [->|(C1 & C2 & C3)]; [|rewrite C1, C2, C3; destruct (w_fs w file)]; unfold warn;
      (eexists; eexists; split; [reflexivity|]; cbn [w_fs w_printed w_warned]; auto).
  Qed.

  (** In API mode nothing is written, and what [process] returns is lost. *)
  Theorem api_mode_no_output : forall src tgt file nat_ pre post w r w',
    contains ".txt"%u file = false ->
    proc src tgt file nat_ pre post true w = (r, w') -> w_fs w' = w_fs w.
  Proof.
    intros src tgt file nat_ pre post w r w' C1 H. unfold proc, process_file, bindM, isfile in H.
    destruct (w_fs w file) as [bytes|] eqn:F; [|unfold warn in H; now injection H as <- <-]. rewrite C1 in H.
    destruct (contains ".docx"%u file).
    - unfold convert_docx, bindM, lift in H. destruct (b64decode file); [|congruence].
      destruct (zip_open a); [|congruence]. destruct (mapR _ _); unfold ret in H; congruence.
    - destruct (contains ".htm"%u file); [|unfold warn in H; now injection H as <- <-].
      unfold convert_html, bindM, lift, ret in H. destruct (mapR _ _); congruence.
  Qed.
End Files.

(* ------------------------------------------------------------------ *)
(** ** Instances *)

(** A file system with a single file. *)
Definition single (p : str) (d : list N) : world := World (upd (fun _ => None) p d) [] [].

(** Trivial documents: one string per HTML file; archives with one member, XML with one text. *)
Definition t_proc (src tgt file : str) (pre post : list str) (w : world) : res unit * world :=
  process_file (fun _ => true) str (fun s => s) (fun s => [s]) (fun _ l => concat l) (fun s => s)
    unit (fun d => Ok [Member unit "word/document.xml"%u tt d]) (fun ms => concat (map (m_data unit) ms))
    (fun _ => Err ValueError)
    unit (fun d => Ok (Xml unit tt [(WORD_TEXT, utf8_read d)]))
    (fun x => match x_elems unit x with [(_, Some s)] => flat_map utf8_char s | _ => [] end)
    (fun s => Ok s) (fun _ _ _ _ _ => Err AttributeError)
    src tgt file false pre post false w.

(** The three kinds of files: the hypotheses of [txt_output], [html_output] and [docx_output] are met. *)
Example process_file_cases :
  let bytes := flat_map utf8_char "क"%u in
  let run file := t_proc "Devanagari"%u "Tamil"%u file [] [] (single file bytes) in
  fst (run "d/a.txt"%u) = Ok tt /\ w_fs (snd (run "d/a.txt"%u)) "d/a_DevanagariTamil.txt"%u = Some (flat_map utf8_char "க"%u)
  /\ fst (run "a.html"%u) = Ok tt /\ w_fs (snd (run "a.html"%u)) "a_DevanagariTamil.html"%u = Some (flat_map utf8_char "க"%u)
  /\ fst (run "a.docx"%u) = Ok tt /\ w_fs (snd (run "a.docx"%u)) "a_Devanagari_Tamil.docx"%u = Some (flat_map utf8_char "க"%u).
Proof. cbv zeta. repeat split; vm_compute; reflexivity. Qed.

(** C25 is false: the failing conversion of a text file destroys an older output. *)
Theorem no_output_on_failure_refuted : exists src tgt file w old,
  w_fs w (txt_name src tgt file) = Some old /\ old <> []
  /\ fst (t_proc src tgt file [] [] w) = Err AttributeError
  /\ w_fs (snd (t_proc src tgt file [] [] w)) (txt_name src tgt file) = Some [].
Proof.
  exists "PersianDMG"%u, "Arab-Fa"%u, "a.txt"%u,
    (World (upd (upd (fun _ => None) "a.txt"%u [97]%N) (txt_name "PersianDMG"%u "Arab-Fa"%u "a.txt"%u) [98]%N) [] []), [98]%N.
  split; [vm_compute; reflexivity|]. split; [discriminate|]. split; vm_compute; reflexivity.
Qed.

(** C26 is false: the same options and the same text give different results in a text file and in a
    Word document. *)
Theorem options_same_stage_refuted : exists pre post bytes,
  w_fs (snd (t_proc "Devanagari"%u "Tamil"%u "a.txt"%u pre post (single "a.txt"%u bytes))) "a_DevanagariTamil.txt"%u
  <> w_fs (snd (t_proc "Devanagari"%u "Tamil"%u "a.docx"%u pre post (single "a.docx"%u bytes))) "a_Devanagari_Tamil.docx"%u.
Proof.
  exists [], ["TamilRemoveNumbers"%u], (flat_map utf8_char "ख"%u). vm_compute. discriminate.
Qed.
