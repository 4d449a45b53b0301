(** * Conversion between parallel Unicode blocks (C04).

    The Indic blocks of Unicode follow the layout of ISCII: a letter has the same
    offset in every block.  Specification and theorem about [convert]
    (transliterate.py:226) without nativization and options. *)
From Coq Require Import List NArith ZArith Bool Lia Arith.
From Verif Require Import PyStr Regex Unicode Prog Transliterate StrFacts AbsRegex Lang Tokenise Analyze IndicText IndicRT IndicFine Stages.
Import ListNotations.
Local Open Scope nat_scope.

(** The first code point of the block. *)
Definition blocks : list (str * N) :=
  [("Devanagari"%u, 0x900%N); ("Gujarati"%u, 0xA80%N); ("Oriya"%u, 0xB00%N); ("Telugu"%u, 0xC00%N); ("Kannada"%u, 0xC80%N);
   ("BengaliRaBa"%u, 0x980%N); ("Grantha"%u, 0x11300%N)].

(** The same offset in the block that begins at [b]; the dandas, which the Indic
    scripts share, and all that is not Devanagari stay. *)
Definition shift (b c : N) : N :=
  if ((0x900 <=? c) && (c <=? 0x97F) && negb (c =? 0x964) && negb (c =? 0x965))%N then (c - 0x900 + b)%N else c.

(** Letters not in every block, or not kept by the library at their offset. *)
Definition uncommon (A : str) : str :=
  (if str_eqb A "Devanagari"%u then [] else [0x929; 0x958; 0x959; 0x95A; 0x95B; 0x95C; 0x95D; 0x95E; 0x95F]%N)
  ++ (if str_eqb A "Devanagari"%u then [] else "।॥"%u)
  ++ (if str_eqb A "Telugu"%u then "ऍऑॅॉँh०१२३४५६७८९"%u
      else if str_eqb A "Kannada"%u then "ऍऑॅॉऴ"%u
      else if str_eqb A "Gujarati"%u then "ऎऒॆॊऴऱ"%u
      else if str_eqb A "Oriya"%u then "ऎऍऑऒॆॊॅॉवऴऱ"%u
      else if str_eqb A "BengaliRaBa"%u then "ऎऍऑऒॆॊॅॉबवळऴऱ"%u
      else if str_eqb A "Grantha"%u then "ऎऒॆॊऍऑॅॉौऴऱ०१२३४५६७८९"%u else []).

Definition pairs : list ((str * N) * (str * N)) :=
  filter (fun p => negb (str_eqb (fst (fst p)) (fst (snd p)))) (list_prod blocks blocks).

Definition block_check (p : (str * N) * (str * N)) : bool :=
  let bad := uncommon (fst (fst p)) ++ uncommon (fst (snd p)) in
  let T := table bad in
  match after bad (fst (fst p)) (fst (snd p)) (map (map (shift (snd (fst p)))) T) with
  | None => false
  | Some L => table_eqb L (map (map (shift (snd (snd p)))) T)
  end.

Lemma blocks_checked : all block_check pairs = true.
Proof. vm_compute. reflexivity. Qed.

Lemma render_map : forall (f : N -> N) L ts, (forall c, In (X c) ts -> f c = c) ->
  render (map (map f) L) ts = map f (render L ts).
Proof.
  intros f L ts. induction ts as [|it ts IH]; intros H; [reflexivity|].
  rewrite !render_cons, map_app, IH by (intros c Hc; apply H; now right). f_equal.
  destruct it as [i|c]; cbn [str_of].
  - change (@nil N) with (map f []) at 1. apply map_nth.
  - simpl. now rewrite (H c) by now left.
Qed.

(** The Devanagari block is not foreign. *)
Lemma shift_foreign : forall b c, foreign ranges c = true -> shift b c = c.
Proof.
  intros b c H. unfold shift. destruct ((0x900 <=? c) && (c <=? 0x97F))%N eqn:E; [|reflexivity].
  exfalso. apply andb_true_iff in E as [E1 E2]. unfold foreign in H. apply negb_true_iff in H.
  assert (G : any (fun p => (fst p <=? c)%N <&> (c <=? snd p)%N) ranges = true); [|congruence].
  apply any_exists. exists (0x900, 0x109F)%N. split; [vm_compute; tauto|]. cbn [fst snd].
  rewrite E1. apply N.leb_le in E2. apply N.leb_le. lia.
Qed.

(** Every letter goes to the same offset in the other block; everything else is kept. *)
Theorem block_mapping : forall A a B b, In ((A, a), (B, b)) pairs ->
  forall s, dev_text s = true -> without (uncommon A ++ uncommon B) s = true ->
  conv A B (map (shift a) s) = Ok (map (shift b) s).
Proof.
  intros A a B b Hin s Hd Hw. pose proof blocks_checked as Hc. rewrite all_forall in Hc.
  specialize (Hc _ Hin). unfold block_check in Hc. cbn [fst snd] in Hc.
  destruct (after _ A B _) as [L|] eqn:E; [|discriminate]. apply table_eqb_eq in Hc. subst L.
  destruct (dev_tokens _ s Hd Hw) as [Hr Hv].
  assert (Hs : forall k, map (shift k) s = render (map (map (shift k)) (table (uncommon A ++ uncommon B))) (toks s)).
  { intros k. rewrite render_map, Hr; [reflexivity|]. intros c Hc. apply shift_foreign.
    exact (valid_foreign _ _ _ _ _ _ Hv Hc). }
  rewrite !Hs. exact (after_ok _ _ _ _ _ E _ Hv).
Qed.

(** All ordered pairs of different blocks are covered. *)
Theorem pairs_complete : forall p q, In p blocks -> In q blocks -> p <> q -> In (p, q) pairs.
Proof.
  intros p q Hp Hq Hn. apply filter_In. split; [now apply in_prod|]. cbn [fst snd].
  destruct (str_eqb (fst p) (fst q)) eqn:E; [|reflexivity]. exfalso. apply Hn. apply str_eqb_eq in E. clear Hn.
  repeat (destruct Hp as [<- | Hp]; [repeat (destruct Hq as [<- | Hq]; [first [reflexivity | discriminate E]|]); destruct Hq|]).
  destruct Hp.
Qed.

Example block_mapping_case :
  In (("Telugu"%u, 0xC00%N), ("Kannada"%u, 0xC80%N)) pairs /\
  let s := "धर्मक्षेत्रे कुरुक्षेत्रे 漢字, कॢप्तम्"%u in
  dev_text s = true /\ without (uncommon "Telugu"%u ++ uncommon "Kannada"%u) s = true /\
  conv "Telugu"%u "Kannada"%u "ధర్మక్షేత్రే కురుక్షేత్రే 漢字, కౢప్తమ్"%u = Ok "ಧರ್ಮಕ್ಷೇತ್ರೇ ಕುರುಕ್ಷೇತ್ರೇ 漢字, ಕೢಪ್ತಮ್"%u /\
  map (shift 0xC00%N) s = "ధర్మక్షేత్రే కురుక్షేత్రే 漢字, కౢప్తమ్"%u.
Proof. split; [vm_compute; tauto|]. vm_compute. repeat split. Qed.

(** Letters outside the common repertoire need not keep their offset. *)
Theorem block_mapping_refuted : exists s, dev_text s = true /\
  exists t, conv "Devanagari"%u "Oriya"%u s = Ok t /\ t <> map (shift 0xB00%N) s.
Proof.
  exists "व"%u. split; [vm_compute; reflexivity|]. exists [0xB71%N].
  split; [vm_compute; reflexivity|]. vm_compute. discriminate.
Qed.
