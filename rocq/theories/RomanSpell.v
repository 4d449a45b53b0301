(** * Devanagari spelled in Roman schemes (C05), and what follows from it (C06, C07).

    First the specification: a scheme is a list of spellings for the vowels and
    the consonants, and [spell] writes a text letter by letter.  Then the
    theorem that [convert] (transliterate.py:226) computes it.  The first part
    models no code of /repo; it is what the theorem says about the code. *)
From Coq Require Import List NArith ZArith Bool Lia Arith.
From Verif Require Import PyStr Regex Unicode Prog GMLists Transliterate StrFacts AbsRegex Lang Tokenise Analyze IndicRT RomanText RomanRT.
Import ListNotations.
Local Open Scope nat_scope.

(* ------------------------------------------------------------------ *)
(** ** The specification *)

(** Words separated by blanks. *)
Fixpoint words (s : str) : list str :=
  match s with
  | [] => [[]]
  | c :: t => if N.eqb c 0x20 then [] :: words t
              else match words t with w :: l => (c :: w) :: l | [] => [[c]] end
  end.

Definition VOWELS : str := "अआइईउऊऋॠऌॡएऐओऔ"%u.
(** The signs of the vowels from आ on. *)
Definition SIGNS : str := "ािीुूृॄॢॣेैोौ"%u.
Definition CONSONANTS : str := "कखगघङचछजझञटठडढणतथदधनपफबभमयरलवशषसहळ"%u.
Definition MARKS : str := "ंँःऽ"%u.
Definition DIGITS : str := "०१२३४५६७८९"%u.
Definition STOPS : str := "कगचजटडतदपब"%u.
Definition VIRAMA : N := 0x94D%N.
Definition HA : N := 0x939%N.

(** Spellings of VOWELS, CONSONANTS and MARKS, and of इ and उ after a. *)
Record scheme := Scheme { vs : list str; co : list str; ms : list str; hi : str; hu : str }.

(** The spelling of [c], if it is one of [keys]. *)
Fixpoint spelling (c : N) (keys : str) (values : list str) : option str :=
  match keys, values with
  | k :: keys', v :: values' => if N.eqb c k then Some v else spelling c keys' values'
  | _, _ => None
  end.

(** What matters of the letter before: a stop without aspiration, अ or another
    consonant (that is, a is heard unless a sign follows), or something else. *)
Inductive before := Stop | HasA | Elsewhere.
Definition kind_before (c : N) : before :=
  if memN c STOPS then Stop else if memN c (0x905%N :: CONSONANTS) then HasA else Elsewhere.
(** And of the letter behind: a vowel sign or virama, ह, or something else. *)
Inductive behind := Dependent | Ha | Otherwise.
Definition kind_behind (c : N) : behind :=
  if memN c (VIRAMA :: SIGNS) then Dependent else if N.eqb c HA then Ha else Otherwise.

(** The spelling of a letter between its neighbours. *)
Definition letter (S : scheme) (p : before) (c : N) (n : behind) : str :=
  match spelling c CONSONANTS (co S) with
  | Some k => match n with Dependent => k | _ => k ++ hd [] (vs S) end
  | None =>
  match spelling c SIGNS (tl (vs S)) with
  | Some v => v
  | None =>
  if N.eqb c VIRAMA then match p, n with Stop, Ha => "_"%u | _, _ => [] end
  else if N.eqb c 0x907 then match p with Elsewhere => nth 2 (vs S) [] | _ => hi S end
  else if N.eqb c 0x909 then match p with Elsewhere => nth 4 (vs S) [] | _ => hu S end
  else match spelling c VOWELS (vs S) with
  | Some v => v
  | None =>
  match spelling c MARKS (ms S) with
  | Some m => m
  | None =>
  match spelling c DIGITS (map (fun d => [d]) "0123456789"%u) with
  | Some d => d
  | None => if N.eqb c 0x964 then "."%u else if N.eqb c 0x965 then ".."%u else [c]
  end end end end end.

(** A text after a letter of kind [p] and before one of kind [n]. *)
Fixpoint spell_in (S : scheme) (p : before) (s : str) (n : behind) : str :=
  match s with
  | [] => []
  | c :: t => letter S p c (match t with [] => n | d :: _ => kind_behind d end) ++ spell_in S (kind_before c) t n
  end.
Definition spell (S : scheme) (s : str) : str := spell_in S Elsewhere s Otherwise.

(** The spellings of the schemes. *)
Definition iast : scheme := Scheme
  (words "a ā i ī u ū ṛ ṝ ḷ ḹ e ai o au"%u)
  (words "k kh g gh ṅ c ch j jh ñ ṭ ṭh ḍ ḍh ṇ t th d dh n p ph b bh m y r l v ś ṣ s h l̤"%u)
  (words "ṃ m̐ ḥ '"%u) "ï"%u "ü"%u.
Definition iso : scheme := Scheme
  (words "a ā i ī u ū r̥ r̥̄ l̥ l̥̄ ē ai ō au"%u)
  (words "k kh g gh ṅ c ch j jh ñ ṭ ṭh ḍ ḍh ṇ t th d dh n p ph b bh m y r l v ś ṣ s h ḷ"%u)
  (words "ṁ m̐ ḥ ’"%u) ":i"%u ":u"%u.
Definition titus : scheme := Scheme
  (words "a ā i ī u ū r̥ r̥̄ l̥ l̥̄ e ai o au"%u)
  (words "k kʰ g gʰ ṅ c cʰ j jʰ ñ ṭ ṭʰ ḍ ḍʰ ṇ t tʰ d dʰ n p pʰ b bʰ m y r l v ś ṣ s h ḷ"%u)
  (words "ṃ m̐ ḥ '"%u) "_i"%u "_u"%u.
Definition wx : scheme := Scheme
  (words "a A i I u U q qV L LV e E o O"%u)
  (words "k K g G f c C j J F t T d D N w W x X n p P b B m y r l v S R s h lY"%u)
  (words "M z H Z"%u) "_i"%u "_u"%u.
Definition cyrillic : scheme := Scheme
  (words "а а̄ и ӣ у ӯ р̣ р̣̄ л̣ л̣̄ э аи о ау"%u)
  (words "к кх г гх н̇ ч чх дж джх н̃ т̣ т̣х д̣ д̣х н̣ т тх д дх н п пх б бх м й р л в ш́ ш с х л̤"%u)
  (words "м̣ м̐ х̣ '"%u) "_и"%u "_у"%u.
Definition hk : scheme := Scheme
  (words "a A i I u U R RR lR lRR e ai o au"%u)
  (words "k kh g gh G c ch j jh J T Th D Dh N t th d dh n p ph b bh m y r l v z S s h L"%u)
  (words "M ~ H '"%u) "_i"%u "_u"%u.
Definition velthuis : scheme := Scheme
  (words "a aa i ii u uu .r .R .l .L e ai o au"%u)
  (words "k kh g gh ""n c ch j jh ~n .t .th .d .dh .n t th d dh n p ph b bh m y r l v ""s .s s h ..l"%u)
  (words ".m ~m .h .a"%u) "_i"%u "_u"%u.
Definition itrans : scheme := Scheme
  (words "a A i I u U R^i R^I L^i L^I e ai o au"%u)
  (words "k kh g gh ~N ch Ch j jh ~n T Th D Dh N t th d dh n p ph b bh m y r l v sh Sh s h L"%u)
  (words "M .N H .a"%u) "_i"%u "_u"%u.
(** Pali: ḷ is the consonant ळ. *)
Definition iastpali : scheme := Scheme
  (words "a ā i ī u ū ṛ ṝ l̤ l̤̄ e ai o au"%u) (firstn 33 (co iast) ++ ["ḷ"%u]) (ms iast) "ï"%u "ü"%u.
Definition isopali : scheme := Scheme
  (words "a ā i ī u ū r̥ r̥̄ l̥ l̥̄ e ai o au"%u) (co iso) (ms iso) ":i"%u ":u"%u.


(** The schemes by the names of the API, with the prohibited neighbourhoods and
    excluded sequences (RomanText.radjacent). *)
Definition spelled : list (str * (scheme * (list nat * list str))) :=
  [("IAST"%u, (iast, ([], []))); ("ISO"%u, (iso, ([], []))); ("Titus"%u, (titus, ([], [])));
   ("WX"%u, (wx, ([], []))); ("HK"%u, (hk, ([], []))); ("RussianCyrillic"%u, (cyrillic, ([], [])));
   ("IASTPali"%u, (iastpali, ([], []))); ("ISOPali"%u, (isopali, ([], [])));
   ("Velthuis"%u, (velthuis, ([1; 3], []))); ("Itrans"%u, (itrans, ([], ["ळ्ळ"%u])))].

(* ------------------------------------------------------------------ *)
(** ** From tokens to letters *)

Definition befores := [Stop; HasA; Elsewhere].
Definition behinds := [Dependent; Ha; Otherwise].
Definition beq (a b : before) : bool :=
  match a, b with Stop, Stop | HasA, HasA | Elsewhere, Elsewhere => true | _, _ => false end.
Definition neq (a b : behind) : bool :=
  match a, b with Dependent, Dependent | Ha, Ha | Otherwise, Otherwise => true | _, _ => false end.
Lemma beq_refl : forall a, beq a a = true. Proof. now intros []. Qed.
Lemma neq_refl : forall a, neq a a = true. Proof. now intros []. Qed.
Lemma all_befores : forall a, In a befores. Proof. intros []; simpl; tauto. Qed.
Lemma all_behinds : forall a, In a behinds. Proof. intros []; simpl; tauto. Qed.

Definition kb (s : str) (d : behind) : behind := match s with [] => d | c :: _ => kind_behind c end.
Definition ka (p : before) (s : str) : before := fold_left (fun _ c => kind_before c) s p.

Lemma spell_in_app : forall S s t p n, spell_in S p (s ++ t) n = spell_in S p s (kb t n) ++ spell_in S (ka p s) t n.
Proof.
  intros S s t. induction s as [|c s IH]; intros p n; [reflexivity|]. simpl. rewrite IH, app_assoc.
  do 2 f_equal. destruct s; [|reflexivity]. now destruct t.
Qed.

Section Check.
  Variable M : list (N * N).
  Variable cl : list (nat * nat).
  Variable ok : nat -> nat -> bool.
  Variable L L' : list str.
  Variable S : scheme.
  Variable K : nat.

  Definition toks2 : list (str * (nat * nat)) := combine L cl.
  (** The kinds of letters before a token of left class [l]. *)
  Definition before_ok (k : before) (l : nat) : bool :=
    (beq k Elsewhere <&> (ok 0 l <|> ok 1 l))
    <|> any (fun t => beq k (ka Elsewhere (fst t)) <&> ok (snd (snd t)) l) toks2.
  Definition before_tab : list (list before) :=
    map (fun l => filter (fun k => before_ok k l) befores) (seq 0 K).
  (** And behind a token of right class [r]. *)
  Definition behind_ok (k : behind) (r : nat) : bool :=
    (neq k Otherwise <&> (ok r 0 <|> ok r 1))
    <|> any (fun t => neq k (kb (fst t) Otherwise) <&> ok r (fst (snd t))) toks2.
  Definition behind_tab : list (list behind) :=
    map (fun r => filter (fun k => behind_ok k r) behinds) (seq 0 K).

  (** Empty tokens do not occur. *)
  Definition nonempty : bool :=
    all (fun t => match fst t with [] => Nat.eqb (fst (snd t)) Z | _ :: _ => true end) toks2.

  Definition spell_check : bool :=
    let B := before_tab in let A := behind_tab in
    Nat.eqb (length L) (length cl) <&> Nat.eqb (length L') (length cl) <&> nonempty <&>
    all (fun t => all (fun p => all (fun n => str_eqb (spell_in S p (fst (fst t)) n) (snd (fst t)))
                                    (nth (snd (snd t)) A behinds))
                      (nth (fst (snd t)) B befores))
        (combine (combine L L') cl).

  Hypothesis Hcheck : spell_check = true.
  Hypothesis ok_Z : forall r, ok r Z = false.
  Hypothesis Hforeign : forall c, foreign M c = true ->
    kind_before c = Elsewhere /\ kind_behind c = Otherwise /\ forall p n, letter S p c n = [c].

  Lemma filter_tab : forall (A : Type) (f : A -> nat -> bool) (l : list A) k i,
    (forall a, In a l) -> f k i = true -> In k (nth i (map (fun i => filter (fun k => f k i) l) (seq 0 K)) l).
  Proof.
    intros A f l k i Hl Hf. destruct (Nat.lt_ge_cases i K) as [H|H].
    - rewrite nth_indep with (d' := filter (fun k => f k 0) l) by (now rewrite map_length, seq_length).
      rewrite (map_nth (fun i => filter (fun k => f k i) l)), seq_nth by assumption.
      apply filter_In. now split.
    - rewrite nth_overflow; [apply Hl|]. now rewrite map_length, seq_length.
  Qed.

  Lemma checks : length L = length cl /\ length L' = length cl /\ nonempty = true /\
    forall i p n, i < length cl -> before_ok p (fst (nth i cl (0, 0))) = true ->
      behind_ok n (snd (nth i cl (0, 0))) = true -> spell_in S p (nth i L []) n = nth i L' [].
  Proof.
    pose proof Hcheck as H. unfold spell_check in H.
    apply andb_true_iff in H as [H H4]. apply andb_true_iff in H as [H H3].
    apply andb_true_iff in H as [H1 H2]. apply Nat.eqb_eq in H1, H2.
    repeat split; try assumption. intros i p n Hi Hp Hn. rewrite all_forall in H4.
    specialize (H4 (nth i L [], nth i L' [], nth i cl (0, 0))).
    assert (Hin : In (nth i L [], nth i L' [], nth i cl (0, 0)) (combine (combine L L') cl)).
    { rewrite <- combine_nth by congruence. rewrite <- combine_nth.
      - apply nth_In. rewrite !combine_length. lia.
      - rewrite combine_length. lia. }
    specialize (H4 Hin). cbn [fst snd] in H4. rewrite all_forall in H4.
    specialize (H4 p (filter_tab _ before_ok befores p _ all_befores Hp)). rewrite all_forall in H4.
    specialize (H4 n (filter_tab _ behind_ok behinds n _ all_behinds Hn)). now apply str_eqb_eq.
  Qed.

  (** What is known of the letter before, given the class before. *)
  Definition known (r : nat) (p : before) : Prop :=
    (r <= 1 /\ p = Elsewhere) \/
    exists i, i < length cl /\ r = snd (nth i cl (0, 0)) /\ p = ka Elsewhere (nth i L []).

  Lemma In_toks2 : forall i, i < length cl -> length L = length cl -> In (nth i L [], nth i cl (0, 0)) toks2.
  Proof.
    intros i Hi Hl. unfold toks2. rewrite <- combine_nth by assumption. apply nth_In. rewrite combine_length. lia.
  Qed.

  Lemma known_ok : forall r p l, length L = length cl -> known r p -> ok r l = true -> before_ok p l = true.
  Proof.
    intros r p l Hl [[Hr ->] | (i & Hi & -> & ->)] Ho; unfold before_ok; apply orb_true_iff.
    - left. cbn [beq]. destruct r as [|[|r]]; [now rewrite Ho|rewrite Ho; now destruct (ok 0 l)|lia].
    - right. apply any_exists. exists (nth i L [], nth i cl (0, 0)). split; [now apply In_toks2|].
      cbn [fst snd]. now rewrite beq_refl, Ho.
  Qed.

  Lemma not_empty : forall i, i < length cl -> length L = length cl -> nonempty = true ->
    forall r, ok r (fst (nth i cl (0, 0))) = true -> nth i L [] <> [].
  Proof.
    intros i Hi Hl Hn r Ho E. unfold nonempty in Hn. rewrite all_forall in Hn.
    specialize (Hn _ (In_toks2 i Hi Hl)). cbn [fst snd] in Hn. rewrite E in Hn.
    apply Nat.eqb_eq in Hn. rewrite Hn, ok_Z in Ho. discriminate.
  Qed.

  Lemma ka_nonempty : forall s p q, s <> [] -> ka p s = ka q s.
  Proof. intros [|c s] p q H; [congruence|reflexivity]. Qed.

  Lemma next_ok : forall ts r, valid M cl ok r ts = true -> behind_ok (kb (render L ts) Otherwise) r = true.
  Proof.
    destruct checks as (Hl & Hl' & Hn & _). intros [|[i|c] ts] r Hv; unfold behind_ok; apply orb_true_iff; simpl in Hv.
    - left. simpl. now rewrite Hv.
    - apply andb_true_iff in Hv as [Hv _]. apply andb_true_iff in Hv as [Hi Ho]. apply Nat.ltb_lt in Hi.
      right. apply any_exists. exists (nth i L [], nth i cl (0, 0)). split; [now apply In_toks2|].
      cbn [fst snd]. pose proof (not_empty i Hi Hl Hn r Ho) as Hne. rewrite render_cons. cbn [str_of].
      destruct (nth i L []); [congruence|]. simpl. now rewrite neq_refl, Ho.
    - apply andb_true_iff in Hv as [Hv _]. apply andb_true_iff in Hv as [Hf Ho].
      left. simpl. destruct (Hforeign c Hf) as (_ & -> & _). rewrite Ho. simpl. now destruct (ok r 0).
  Qed.

  Lemma render_spelled : forall ts r p, valid M cl ok r ts = true -> known r p ->
    render L' ts = spell_in S p (render L ts) Otherwise.
  Proof.
    destruct checks as (Hl & Hl' & Hn & Hc).
    induction ts as [|it ts IH]; intros r p Hv Hk; [reflexivity|].
    simpl in Hv. apply andb_true_iff in Hv as [Hv Hv3]. apply andb_true_iff in Hv as [Hv1 Hv2].
    rewrite !render_cons, spell_in_app. pose proof (next_ok _ _ Hv3) as Hnx.
    destruct it as [i|c]; cbn [str_of good lc rc] in *.
    - apply Nat.ltb_lt in Hv1. rewrite (Hc i p _ Hv1 (known_ok _ _ _ Hl Hk Hv2) Hnx). f_equal.
      apply IH with (r := snd (nth i cl (0, 0))); [assumption|]. right. exists i. repeat split; [assumption|].
      apply ka_nonempty. now apply (not_empty i Hv1 Hl Hn r).
    - destruct (Hforeign c Hv1) as (E1 & E2 & E3). simpl. rewrite E3, E1. simpl. f_equal.
      apply IH with (r := 1); [assumption|]. left. split; [lia|reflexivity].
  Qed.
End Check.

(** Letters with a spelling of their own are not foreign. *)
Definition special : str :=
  CONSONANTS ++ SIGNS ++ [VIRAMA] ++ VOWELS ++ MARKS ++ DIGITS ++ [0x964; 0x965]%N.
Lemma special_not_foreign : all (fun c => negb (foreign rranges c)) special = true.
Proof. vm_compute. reflexivity. Qed.

Lemma spelling_None : forall c keys values, memN c keys = false -> spelling c keys values = None.
Proof.
  intros c. induction keys as [|k keys IH]; intros values H; [reflexivity|].
  destruct values as [|v values]; [reflexivity|]. unfold memN in *. cbn [any] in H. simpl.
  destruct (N.eqb c k); [discriminate|]. now apply IH.
Qed.

Lemma memN_false : forall c l, ~ In c l -> memN c l = false.
Proof. intros c l H. destruct (memN c l) eqn:E; [|reflexivity]. apply memN_In in E. contradiction. Qed.

Lemma foreign_kinds : forall S c, foreign rranges c = true ->
  kind_before c = Elsewhere /\ kind_behind c = Otherwise /\ forall p n, letter S p c n = [c].
Proof.
  intros S c Hf. assert (H : forall d, In d special -> c <> d).
  { intros d Hd ->. pose proof special_not_foreign as Hs. rewrite all_forall in Hs. specialize (Hs d Hd).
    rewrite Hf in Hs. discriminate. }
  assert (E : forall l, all (fun d => memN d special) l = true -> memN c l = false).
  { intros l Hl. apply memN_false. intros Hin. rewrite all_forall in Hl. specialize (Hl c Hin).
    apply memN_In in Hl. now apply (H c). }
  assert (E1 : forall d, memN d special = true -> N.eqb c d = false)
    by (intros d Hd; now apply N.eqb_neq, H, memN_In).
  assert (I : forall l, all (fun d => memN d special) l = true -> forall v, spelling c l v = None)
    by (intros l Hl v; now apply spelling_None, E).
  clear H Hf. unfold kind_before, kind_behind, letter.
  rewrite (E STOPS), (E (0x905%N :: CONSONANTS)), (E (VIRAMA :: SIGNS)), (E1 HA), (E1 VIRAMA), (E1 0x907%N),
    (E1 0x909%N), (E1 0x964%N), (E1 0x965%N) by (vm_compute; reflexivity).
  assert (I1 : forall v, spelling c CONSONANTS v = None) by (apply I; vm_compute; reflexivity).
  assert (I2 : forall v, spelling c SIGNS v = None) by (apply I; vm_compute; reflexivity).
  assert (I3 : forall v, spelling c VOWELS v = None) by (apply I; vm_compute; reflexivity).
  assert (I4 : forall v, spelling c MARKS v = None) by (apply I; vm_compute; reflexivity).
  assert (I5 : forall v, spelling c DIGITS v = None) by (apply I; vm_compute; reflexivity).
  repeat split. intros p n. now rewrite I1, I2, I3, I4, I5.
Qed.

(* ------------------------------------------------------------------ *)
(** ** C05 *)

Definition spelled_check (p : str * (scheme * (list nat * list str))) : bool :=
  let x := fst (snd (snd p)) in let bad := snd (snd (snd p)) in
  let L := rtable x bad in
  match rafter x bad "Devanagari"%u (fst p) L with
  | None => false
  | Some L' => spell_check (rclasses x bad) (rokx x) L L' (fst (snd p)) 65
  end.

Lemma spelled_checked : all spelled_check spelled = true.
Proof. vm_cast_no_check (eq_refl true). Qed.

Lemma spelled_prohibitions : forall p, In p spelled -> In (fst (snd (snd p))) prohibitions.
Proof. intros p H. repeat (destruct H as [<- | H]; [vm_compute; tauto|]). destruct H. Qed.

(** The conversion of a text is its spelling in the scheme. *)
Theorem roman_spelling : forall X S x bad, In (X, (S, (x, bad))) spelled ->
  forall s, roman_text x s = true -> avoids bad s = true -> conv "Devanagari"%u X s = Ok (spell S s).
Proof.
  intros X S x bad Hin s Hs Ha. pose proof spelled_checked as Hc. rewrite all_forall in Hc.
  specialize (Hc _ Hin). unfold spelled_check in Hc. cbn [fst snd] in Hc.
  destruct (rafter x bad _ X _) as [L|] eqn:E; [|discriminate].
  destruct (roman_tokens x bad s (spelled_prohibitions _ Hin) Hs Ha) as [Hr Hv].
  rewrite <- Hr at 1. rewrite (rafter_ok _ _ _ _ _ _ E _ Hv). f_equal.
  rewrite <- Hr at 2. unfold spell.
  apply (render_spelled rranges _ _ _ _ _ _ Hc) with (r := 0).
  - intros r. unfold rokx, ok'. rewrite Nat.eqb_refl. now destruct (Nat.eqb r Z).
  - apply foreign_kinds.
  - exact Hv.
  - left. split; [lia|reflexivity].
Qed.

(** A text to which the theorem applies, and its spellings. *)
Example roman_spelling_case :
  In ("IAST"%u, (iast, ([], []))) spelled /\ roman_text [] verse = true /\
  map (fun S => spell S verse) [iast; iso; hk; wx; velthuis]
  = ["dharmakṣetre kurukṣetre samavetā yuyutsavaḥ. vāg_hari praüga vāk 12 漢"%u;
     "dharmakṣētrē kurukṣētrē samavētā yuyutsavaḥ. vāg_hari pra:uga vāk 12 漢"%u;
     "dharmakSetre kurukSetre samavetA yuyutsavaH. vAg_hari pra_uga vAk 12 漢"%u;
     "XarmakRewre kurukRewre samavewA yuyuwsavaH. vAg_hari pra_uga vAk 12 漢"%u;
     "dharmak.setre kuruk.setre samavetaa yuyutsava.h. vaag_hari pra_uga vaak 12 漢"%u].
Proof. repeat split; [now left|..]; vm_compute; reflexivity. Qed.

(** Outside the conditions the claim fails: Velthuis marks ई after a as well, and
    swallows the vowel before a danda and a consonant. *)
Theorem roman_spelling_refuted : exists s, roman_text [] s = true /\
  exists t, conv "Devanagari"%u "Velthuis"%u s = Ok t /\ t <> spell velthuis s.
Proof.
  exists "क।र"%u. split; [vm_compute; reflexivity|]. exists "k.ra"%u.
  split; [vm_compute; reflexivity|]. vm_compute. discriminate.
Qed.

(* ------------------------------------------------------------------ *)
(** ** C06, C07: piece by piece *)

(** The letters at a cut do not depend on each other: the second text does not
    begin with a sign, a virama or ह, and not with इ or उ when the first one
    ends in a consonant or अ. *)
Definition clean_cut (s t : str) : bool :=
  match t with
  | [] => true
  | d :: _ =>
      negb (memN d (HA :: VIRAMA :: SIGNS))
      && (negb (memN d "इउ"%u) || match rev s with [] => true | c :: _ => negb (memN c (0x905%N :: CONSONANTS)) end)
  end.

Lemma letter_elsewhere : forall S p d n, memN d (HA :: VIRAMA :: SIGNS) = false ->
  memN d "इउ"%u = false \/ p = Elsewhere -> letter S p d n = letter S Elsewhere d n.
Proof.
  intros S p d n H1 H2. unfold letter. destruct (spelling d CONSONANTS _); [reflexivity|].
  destruct (spelling d SIGNS _); [reflexivity|].
  assert (Ev : N.eqb d VIRAMA = false).
  { apply N.eqb_neq. intros ->. vm_compute in H1. discriminate. }
  rewrite Ev. destruct H2 as [H2 | ->]; [|reflexivity].
  assert (E1 : N.eqb d 0x907 = false) by (apply N.eqb_neq; intros ->; vm_compute in H2; discriminate).
  assert (E2 : N.eqb d 0x909 = false) by (apply N.eqb_neq; intros ->; vm_compute in H2; discriminate).
  now rewrite E1, E2.
Qed.

Lemma ka_last : forall s p, ka p s = match rev s with [] => p | c :: _ => kind_before c end.
Proof.
  intros s. induction s as [|c s IH] using rev_ind; intros p; [reflexivity|].
  unfold ka. now rewrite fold_left_app, rev_app_distr.
Qed.

Lemma spell_app : forall S s t, clean_cut s t = true -> spell S (s ++ t) = spell S s ++ spell S t.
Proof.
  intros S s t H. unfold spell. rewrite spell_in_app. destruct t as [|d t]; [reflexivity|].
  unfold clean_cut in H. apply andb_true_iff in H as [H1 H2]. apply negb_true_iff in H1.
  assert (Ek : kind_behind d = Otherwise).
  { unfold kind_behind. unfold memN in *. cbn [any] in *. destruct (N.eqb d HA); [discriminate|].
    destruct (N.eqb d VIRAMA); [discriminate|]. now rewrite H1. }
  simpl kb. rewrite Ek. f_equal. simpl. f_equal. apply letter_elsewhere; [assumption|].
  apply orb_true_iff in H2 as [H2|H2]; [left; now apply negb_true_iff|]. right.
  rewrite ka_last. destruct (rev s) as [|c r]; [reflexivity|]. apply negb_true_iff in H2.
  unfold kind_before. rewrite H2.
  assert (Es : memN c STOPS = false); [|now rewrite Es].
  apply memN_false. intros Hin. assert (Hc : memN c (0x905%N :: CONSONANTS) = true); [|congruence].
  assert (Hi : all (fun c => memN c (0x905%N :: CONSONANTS)) STOPS = true) by (vm_compute; reflexivity).
  rewrite all_forall in Hi. now apply Hi.
Qed.

(** C06: texts may be cut where the letters do not depend on each other. *)
Theorem piecewise_roman : forall X S x bad, In (X, (S, (x, bad))) spelled -> forall s t,
  roman_text x s = true -> roman_text x t = true -> roman_text x (s ++ t) = true ->
  avoids bad s = true -> avoids bad t = true -> avoids bad (s ++ t) = true -> clean_cut s t = true ->
  exists s' t', conv "Devanagari"%u X s = Ok s' /\ conv "Devanagari"%u X t = Ok t' /\
    conv "Devanagari"%u X (s ++ t) = Ok (s' ++ t').
Proof.
  intros X S x bad Hin s t H1 H2 H3 A1 A2 A3 Hc. pose proof (roman_spelling X S x bad Hin) as H.
  exists (spell S s), (spell S t). rewrite !H by assumption. repeat split. now rewrite spell_app.
Qed.

(** C07: a foreign character is kept in place and does not change the
    conversion of what surrounds it; so a document may be converted line by line. *)
Lemma contains_foreign : forall x s t c, ~ In c x -> contains x s = false -> contains x t = false ->
  contains x (s ++ c :: t) = false.
Proof.
  intros x s t c Hc Hs Ht. destruct (contains x (s ++ c :: t)) eqn:E; [|reflexivity]. exfalso.
  apply contains_spec in E as (a & b & E).
  destruct (Nat.le_gt_cases (length (a ++ x)) (length s)) as [H|H].
  - assert (contains x s = true); [|congruence]. apply contains_spec. exists a.
    exists (firstn (length s - length (a ++ x)) b).
    assert (F : firstn (length s) (s ++ c :: t) = firstn (length s) (a ++ x ++ b)) by now rewrite E.
    rewrite firstn_app, firstn_all, Nat.sub_diag in F. simpl in F. rewrite app_nil_r in F.
    rewrite F at 1. rewrite app_assoc, firstn_app, firstn_all2 by assumption. now rewrite <- app_assoc.
  - destruct (Nat.le_gt_cases (length a) (length s)) as [H2|H2].
    + apply Hc. assert (F : nth (length s) (s ++ c :: t) 0%N = nth (length s) (a ++ x ++ b) 0%N) by now rewrite E.
      rewrite app_nth2, Nat.sub_diag in F by lia. simpl in F. rewrite app_length in H.
      rewrite app_nth2, app_nth1 in F by lia. rewrite F. apply nth_In. lia.
    + assert (contains x t = true); [|congruence]. apply contains_spec.
      assert (Hm : exists m, m = length s + 1) by now eexists. destruct Hm as [m Hm].
      exists (skipn m a), b.
      assert (F : skipn m (s ++ c :: t) = skipn m (a ++ x ++ b)) by now rewrite E.
      rewrite !skipn_app in F. rewrite (skipn_all2 s) in F by lia.
      replace (m - length s) with 1 in F by lia. replace (m - length a) with 0 in F by lia.
      exact F.
Qed.

Lemma spelled_bad_not_foreign :
  all (fun p => all (all (fun c => negb (foreign rranges c))) (snd (snd (snd p)))) spelled = true.
Proof. vm_compute. reflexivity. Qed.

Lemma radjacent_boundary : forall x k, radjacent x 1 k = radjacent x 0 k.
Proof.
  intros x k. do 30 (destruct k as [|k]; [unfold radjacent; repeat (destruct (memb _ x)); reflexivity|]). reflexivity.
Qed.

Theorem foreign_kept_roman : forall X S x bad, In (X, (S, (x, bad))) spelled -> forall s t c,
  foreign rranges c = true -> roman_text x s = true -> roman_text x t = true ->
  avoids bad s = true -> avoids bad t = true ->
  exists s' t', conv "Devanagari"%u X s = Ok s' /\ conv "Devanagari"%u X t = Ok t' /\
    conv "Devanagari"%u X (s ++ c :: t) = Ok (s' ++ c :: t').
Proof.
  intros X S x bad Hin s t c Hf H1 H2 A1 A2. pose proof (roman_spelling X S x bad Hin) as H.
  exists (spell S s), (spell S t). rewrite !H; try assumption.
  - repeat split. destruct (foreign_kinds S c Hf) as (K1 & K2 & K3).
    unfold spell. rewrite spell_in_app. simpl. now rewrite K1, K2, K3.
  - apply wf_foreign; [assumption|reflexivity|assumption|]. unfold roman_text in H2.
    destruct t as [|d t]; [reflexivity|]. cbn [wf_text] in *. now rewrite radjacent_boundary.
  - unfold avoids in *. rewrite forallb_forall in *. intros b Hb. apply negb_true_iff.
    apply contains_foreign.
    + intros Hc. pose proof spelled_bad_not_foreign as Hn. rewrite all_forall in Hn. specialize (Hn _ Hin).
      cbn [snd] in Hn. rewrite all_forall in Hn. specialize (Hn b Hb). rewrite all_forall in Hn.
      specialize (Hn c Hc). rewrite Hf in Hn. discriminate.
    + apply negb_true_iff. now apply A1.
    + apply negb_true_iff. now apply A2.
Qed.

Example foreign_kept_roman_case :
  In ("Itrans"%u, (itrans, ([], ["ळ्ळ"%u]))) spelled /\ foreign rranges 0xA%N = true /\ roman_text [] "कर्म"%u = true
  /\ conv "Devanagari"%u "Itrans"%u ("कर्म"%u ++ 0xA%N :: "इति"%u) = Ok ("karma"%u ++ 0xA%N :: "iti"%u).
Proof. repeat split; [vm_compute; tauto|..]; vm_compute; reflexivity. Qed.
