(** * C42: the options romanNumerals and indicNumerals.

    The first writes the digits 0 to 9 for those of the target, the second those
    of the target for 0 to 9 (except after the letter h, which a digit may
    follow as part of a letter); nothing else in the result changes. *)
From Coq Require Import List NArith ZArith Bool Lia Arith.
From Verif Require Import PyStr Regex Unicode Prog GMLists GeneralMap PostProcess1 ConvertFix1 PreProcess1 PostProcess2 Convert Dispatch
  Transliterate StrFacts AbsRegex ApiFacts TotalFacts Nativize.
Import ListNotations.
Local Open Scope nat_scope.

(** The digit zero of each target; the others follow it in Unicode. *)
Definition zeros : list (N * list str) :=
  [(0x30, ["RomanSemitic"%u; "Pallava"%u; "TamilExtended"%u; "Soyombo"%u; "ZanabazarSquare"%u; "Rejang"%u; "Hanunoo"%u; "Buhid"%u; "Siddham"%u;
      "GranthaPandya"%u; "Vatteluttu"%u; "Kharoshthi"%u; "TamilBrahmi"%u; "OldPersian"%u; "Tagalog"%u; "Tagbanwa"%u; "Buginese"%u; "PhagsPa"%u;
      "BatakKaro"%u; "BatakPakpak"%u; "BatakSima"%u; "BatakToba"%u; "BatakManda"%u; "GurmukhiLoCRomanLoC"%u; "TibetanLoCRomanLoC"%u;
      "LimbuLoCRomanLoC"%u; "BalineseSimpleRomanLoC"%u; "BalineseRomanLoC"%u; "JavaneseSimpleRomanLoC"%u; "JavaneseRomanLoC"%u; "KannadaRomanLoC"%u;
      "TeluguRomanLoC"%u; "SinhalaRomanLoC"%u; "OriyaRomanLoC"%u; "AssameseRomanLoC"%u; "BengaliRomanLoC"%u; "GujaratiRomanLoC"%u;
      "DevanagariRomanLoC"%u; "ThamLoCRomanLoC"%u; "KhmerLoCRomanLoC"%u; "ShanLoCRomanLoC"%u; "BurmeseRomanLoC"%u; "RomanColloquial"%u; "ISOPali"%u;
      "RomanKana"%u; "BarahaNorth"%u; "BarahaSouth"%u; "SLP1"%u; "IASTPali"%u; "Ariyaka"%u; "RomanReadable"%u; "Aksharaa"%u; "WX-kok"%u; "Avestan"%u;
      "ISO"%u; "IAST"%u; "HK"%u; "Titus"%u; "Itrans"%u; "Velthuis"%u; "WX"%u; "RussianCyrillic"%u]);
   (0x6F0, ["Makasar"%u]);
   (0x966, ["Dogra"%u; "Ranjana"%u; "Devanagari"%u; "Mahajani"%u; "SiddhamDevanagari"%u; "Kaithi"%u]);
   (0x9E6, ["BengaliRaBa"%u; "GranthaGrantamil"%u; "SylotiNagri"%u; "Bengali"%u; "Assamese"%u; "TamilGrantha"%u]);
   (0xA66, ["GurmukhiLoC"%u; "Multani"%u; "Gurmukhi"%u]);
   (0xAE6, ["Khojki"%u; "Gujarati"%u]);
   (0xB66, ["Oriya"%u]);
   (0xBE6, ["Tamil"%u; "Grantha"%u]);
   (0xC66, ["Telugu"%u]);
   (0xCE6, ["Nandinagari"%u; "Kannada"%u]);
   (0xD66, ["Malayalam"%u]);
   (0xDE6, ["Sinhala"%u]);
   (0xE50, ["KhomThai"%u; "Thai"%u]);
   (0xED0, ["Lao2"%u; "LaoPali"%u; "Lao"%u]);
   (0xF20, ["TibetanLoC"%u; "Marchen"%u; "Tibetan"%u]);
   (0x1040, ["Mon"%u; "Burmese"%u]);
   (0x1090, ["ShanLoC"%u; "KhamtiShan"%u; "Shan"%u]);
   (0x17E0, ["KhmerLoC"%u; "Khmer"%u]);
   (0x1810, ["Mongolian"%u]);
   (0x1946, ["LimbuLoC"%u; "Limbu"%u]);
   (0x1A90, ["ThamLoC"%u; "LaoTham"%u; "LueTham"%u; "KhuenTham"%u; "TaiTham"%u]);
   (0x1B50, ["Balinese"%u]);
   (0x1BB0, ["Sundanese"%u]);
   (0x1C40, ["Lepcha"%u]);
   (0x1C50, ["Santali"%u]);
   (0xA8D0, ["Saurashtra"%u]);
   (0xA9D0, ["Javanese"%u]);
   (0xA9F0, ["TaiLaing"%u]);
   (0xAA50, ["Cham"%u]);
   (0xABF0, ["MeeteiMayek"%u]);
   (0xED00, ["Inter"%u]);
   (0x10D30, ["HanifiRohingya"%u]);
   (0x11066, ["Brahmi"%u]);
   (0x110F0, ["SoraSompeng"%u]);
   (0x11136, ["Chakma"%u]);
   (0x111D0, ["Sharada"%u]);
   (0x112F0, ["Khudawadi"%u]);
   (0x11450, ["Newa"%u]);
   (0x114D0, ["Tirhuta"%u]);
   (0x11650, ["Modi"%u]);
   (0x116C0, ["Takri"%u]);
   (0x11730, ["Ahom"%u]);
   (0x118E0, ["WarangCiti"%u]);
   (0x11950, ["DivesAkuru"%u]);
   (0x11C50, ["Bhaiksuki"%u]);
   (0x11D50, ["MasaramGondi"%u]);
   (0x11DA0, ["GunjalaGondi"%u]);
   (0x11F50, ["Kawi"%u]);
   (0x16A60, ["Mro"%u]);
   (0x1E2F0, ["Wancho"%u])]%N.

Local Open Scope N_scope.
Definition western (z c : N) : N := if (z <=? c) && (c <=? z + 9) then c - z + 48 else c.
Definition eastern (z c : N) : N := if (48 <=? c) && (c <=? 57) then c - 48 + z else c.
(** Every character that does not follow an h. *)
Fixpoint unless_h (g : N -> N) (h : bool) (s : str) : str :=
  match s with [] => [] | c :: t => (if h then c else g c) :: unless_h g (c =? 104) t end.

(* ------------------------------------------------------------------ *)
(** ** The replacements *)
Definition ten : list N := [0; 1; 2; 3; 4; 5; 6; 7; 8; 9].
Definition western_prog (z : N) : prog := map (fun i => Replace [z + i] [48 + i]) ten.
Definition eastern_prog (z : N) : prog := map (fun i => ReSub ("(?<!h)"%u ++ [48 + i]) [z + i]) ten.
Fixpoint same_prog (p q : prog) : bool :=
  match p, q with
  | [], [] => true
  | Replace x y :: p', Replace x' y' :: q' => str_eqb x x' && str_eqb y y' && same_prog p' q'
  | ReSub x y :: p', ReSub x' y' :: q' => str_eqb x x' && str_eqb y y' && same_prog p' q'
  | _, _ => false
  end.
Lemma same_prog_eq : forall p q, same_prog p q = true -> p = q.
Proof.
  induction p as [|o p IH]; intros [|o' q] H; try discriminate H; [reflexivity|destruct o; discriminate H|].
  destruct o; destruct o'; try discriminate H; cbn [same_prog] in H; apply andb_true_iff in H as [H H3]; apply andb_true_iff in H as [H1 H2];
    apply str_eqb_eq in H1, H2; subst; f_equal; now apply IH.
Qed.

Definition zero_check (e : N * list str) : bool :=
  let '(z, Ts) := e in ((z =? 48) || ((57 <? z) && negb ((z <=? 104) && (104 <=? z + 9)))) && forallb (fun c => negb ((z <=? c) && (c <=? z + 9))) "│┃●।॥|."%u
  && negb ((z <=? 92) && (92 <=? z + 9))
  && forallb (fun T => same_prog (PP_RetainIndicNumerals T true) (western_prog z) && same_prog (PP_RetainIndicNumerals T false) (eastern_prog z)) Ts.
Lemma zeros_checked : forallb zero_check zeros = true.
Proof. vm_compute. reflexivity. Qed.

Lemma zeros_spec : forall z Ts T, In (z, Ts) zeros -> In T Ts ->
  (z = 48 \/ 57 < z /\ ~ (z <= 104 <= z + 9)) /\ (forall c, In c "│┃●।॥|."%u -> ~ (z <= c <= z + 9)) /\ ~ (z <= 92 <= z + 9) /\
  PP_RetainIndicNumerals T true = western_prog z /\ PP_RetainIndicNumerals T false = eastern_prog z.
Proof.
  intros z Ts T H HT. pose proof zeros_checked as C. rewrite forallb_forall in C. specialize (C _ H). unfold zero_check in C.
  apply andb_true_iff in C as [C C4]. apply andb_true_iff in C as [C C3]. apply andb_true_iff in C as [C1 C2].
  rewrite forallb_forall in C2, C4. specialize (C4 T HT). apply andb_true_iff in C4 as [C4 C5]. apply same_prog_eq in C4, C5.
  split; [|split; [|split; [|split; assumption]]].
  - apply orb_true_iff in C1 as [Q|Q]; [left; now apply N.eqb_eq|right]. apply andb_true_iff in Q as [Q1 Q2]. apply N.ltb_lt in Q1. split; [exact Q1|].
    intros [A B]. apply N.leb_le in A, B. rewrite A, B in Q2. discriminate.
  - intros c Hc [A B]. specialize (C2 c Hc). apply N.leb_le in A, B. rewrite A, B in C2. discriminate.
  - intros [A B]. apply N.leb_le in A, B. rewrite A, B in C3. discriminate.
Qed.

(** *** One character at a time *)
Definition sub1 (a b c : N) : N := if a =? c then b else c.
Lemma replace_one : forall a b s, replace [a] [b] s = map (sub1 a b) s.
Proof.
  intros a b s. rewrite replace_char. induction s as [|c s IH]; [reflexivity|]. cbn [flat_map map]. unfold sub1 at 1. destruct (a =? c); cbn [app]; now rewrite IH.
Qed.
Fixpoint step (f : N -> N -> N) (l : list N) (c : N) : N := match l with [] => c | i :: l' => step f l' (f i c) end.
Lemma run_replaces : forall a b l s, run (map (fun i => Replace [a + i] [b + i]) l) s = Ok (map (step (fun i => sub1 (a + i) (b + i)) l) s).
Proof.
  intros a b. induction l as [|i l IH]; intros s; [cbn [run step map]; f_equal; now rewrite map_id|].
  cbn [map run run_op]. rewrite IH, replace_one, map_map. reflexivity.
Qed.
(** Ten codes from [a] to ten codes from [b]. *)
Lemma ten_spec : forall a c, a <= c -> c <= a + 9 -> exists i, In i ten /\ c = a + i.
Proof.
  intros a c A B. exists (c - a). split; [|lia]. assert (D : c - a <= 9) by lia. revert D. generalize (c - a). intros i D. unfold ten. cbn [In].
  destruct i as [|p]; [now left|]. do 4 (destruct p as [p|p|]; try lia); tauto.
Qed.
Lemma ten_small : forall i, In i ten -> i <= 9.
Proof. intros i H. cbn [ten In] in H. decompose [or] H; subst; lia || contradiction. Qed.
Lemma sub1_hit : forall a b, sub1 a b a = b.
Proof. intros a b. unfold sub1. now rewrite N.eqb_refl. Qed.
Lemma sub1_miss : forall a b c, a <> c -> sub1 a b c = c.
Proof. intros a b c H. unfold sub1. now rewrite (proj2 (N.eqb_neq a c) H). Qed.
Lemma step_away : forall a b l c, (forall i, In i l -> a + i <> c) -> step (fun i => sub1 (a + i) (b + i)) l c = c.
Proof.
  intros a b. induction l as [|i l IH]; intros c H; [reflexivity|]. cbn [step].
  rewrite sub1_miss by (apply H; now left). apply IH. intros j Hj. apply H. now right.
Qed.
Lemma step_hit : forall a b l i, (forall j k, In j ten -> In k ten -> a + j <> b + k) -> (forall j, In j l -> In j ten) -> In i ten -> In i l ->
  step (fun i => sub1 (a + i) (b + i)) l (a + i) = b + i.
Proof.
  intros a b. induction l as [|j l IH]; intros i H Hl Ht Hi; [easy|]. cbn [step].
  destruct (N.eq_dec (a + j) (a + i)) as [E|E].
  - replace j with i by lia. rewrite sub1_hit. apply step_away. intros k Hk. apply H; [apply Hl; now right|exact Ht].
  - rewrite sub1_miss by exact E. destruct Hi as [->|Hi]; [now destruct E|]. apply IH; try assumption. intros k Hk. apply Hl. now right.
Qed.
Lemma step_same : forall a l c, step (fun i => sub1 (a + i) (a + i)) l c = c.
Proof. intros a. induction l as [|i l IH]; intros c; [reflexivity|]. cbn [step]. destruct (N.eq_dec (a + i) c) as [<-|]; [rewrite sub1_hit|rewrite sub1_miss by assumption]; apply IH. Qed.
Lemma step_ten : forall a b c, a = b \/ (forall j k, In j ten -> In k ten -> a + j <> b + k) ->
  step (fun i => sub1 (a + i) (b + i)) ten c = if (a <=? c) && (c <=? a + 9) then c - a + b else c.
Proof.
  intros a b c [->|H].
  - rewrite step_same. destruct (N.leb_spec b c); cbn [andb]; [destruct (c <=? b + 9)|]; lia.
  - destruct (N.leb_spec a c) as [A|A]; cbn [andb]; [destruct (N.leb_spec c (a + 9)) as [B|B]|].
    + destruct (ten_spec a c A B) as (i & Hi & ->). rewrite step_hit by auto. lia.
    + apply step_away. intros i Hi. apply ten_small in Hi. lia.
    + apply step_away. intros i Hi. lia.
Qed.
Lemma ten_apart : forall a b, 57 < a -> b = 48 -> forall j k, In j ten -> In k ten -> a + j <> b + k.
Proof. intros a b Ha Hb j k Hj Hk. apply ten_small in Hj, Hk. lia. Qed.
Lemma western_run : forall z s, (z = 48 \/ 57 < z) -> run (western_prog z) s = Ok (map (western z) s).
Proof.
  intros z s Hz. unfold western_prog. rewrite run_replaces. f_equal. apply map_ext. intros c. apply step_ten.
  destruct Hz as [->|Hz]; [now left|right]. now apply ten_apart.
Qed.

(** *** The digits not after h *)
Definition hre (d : N) : re := RSeq (RSeq REps (RLook false true 1 (RSeq REps (RChar 104)))) (RChar d).
Definition after_h (b : str) : bool := match b with c :: _ => c =? 104 | [] => false end.
Lemma hre_sub : forall d y s b, sub_go (hre d) (expand [TLit y]) b 0 s = unless_h (sub1 d y) (after_h b) s.
Proof.
  intros d y. induction s as [|c s IH]; intros b.
  - cbn [sub_go unless_h]. unfold attempt, hre. cbn [m]. destruct b as [|e b]; cbn [back bef aft caps m step1]; [reflexivity|].
    destruct (104 =? e); cbn [length Nat.eqb]; reflexivity.
  - cbn [sub_go unless_h]. unfold attempt, hre. cbn [m].
    unfold after_h. destruct b as [|e b]; cbn [back bef aft caps m step1].
    + unfold sub1. destruct (d =? c) eqn:E.
      * cbn [andb]. unfold consumed. cbn [aft]. replace (length (c :: s) - length s)%nat with 1%nat by (cbn [length]; lia).
        cbn [firstn length]. change (expand [TLit y] _) with [y]. cbn [app]. rewrite IH. reflexivity.
      * rewrite IH. reflexivity.
    + rewrite (N.eqb_sym 104 e). destruct (e =? 104) eqn:F; cbn [length].
      * rewrite Nat.eqb_refl. rewrite IH. reflexivity.
      * unfold sub1. destruct (d =? c) eqn:E.
        -- cbn [andb]. unfold consumed. cbn [aft length]. assert (L1 : forall n, (S n - n)%nat = 1%nat) by (intros; lia). rewrite !L1.
           cbn [firstn length]. change (expand [TLit y] _) with [y]. cbn [app]. rewrite IH. reflexivity.
        -- rewrite IH. reflexivity.
Qed.
Lemma unless_id : forall s h, unless_h (fun c => c) h s = s.
Proof. induction s as [|c s IH]; intros h; [reflexivity|]. cbn [unless_h]. rewrite IH. now destruct h. Qed.
Lemma unless_ext : forall f g, (forall c, f c = g c) -> forall s h, unless_h f h s = unless_h g h s.
Proof. intros f g E. induction s as [|c s IH]; intros h; [reflexivity|]. cbn [unless_h]. now rewrite IH, E. Qed.
Lemma unless_comp : forall f g, (forall c, g c = 104 <-> c = 104) -> forall s h, unless_h f h (unless_h g h s) = unless_h (fun c => f (g c)) h s.
Proof.
  intros f g H. induction s as [|c s IH]; intros h; [reflexivity|]. cbn [unless_h].
  assert (E : ((if h then c else g c) =? 104) = (c =? 104)).
  { destruct h; [reflexivity|]. destruct (N.eqb_spec c 104) as [Q|Q]; [apply N.eqb_eq; now apply H|apply N.eqb_neq; intros Q'; now apply Q, H]. }
  rewrite E, IH. now destruct h.
Qed.
Lemma hre_compiled : forall i, In i ten -> compile ("(?<!h)"%u ++ [48 + i]) = Some (hre (48 + i), 0%nat).
Proof. intros i H. cbn [ten In] in H. decompose [or] H; subst; contradiction || (vm_compute; reflexivity). Qed.
Lemma eastern_op : forall z i s, In i ten -> z + i <> 92 -> run_op (ReSub ("(?<!h)"%u ++ [48 + i]) [z + i]) s = Ok (unless_h (sub1 (48 + i) (z + i)) false s).
Proof.
  intros z i s Hi Hz. cbn [run_op]. unfold re_sub. rewrite (hre_compiled i Hi). cbn [length].
  assert (P : parse_template 2 0 [z + i] = Some [TLit (z + i)]).
  { cbn [parse_template]. rewrite (proj2 (N.eqb_neq (z + i) 92) Hz). reflexivity. }
  rewrite P. unfold sub, sub_with. rewrite hre_sub. reflexivity.
Qed.
Lemma eastern_runs : forall z l s, (forall i, In i l -> In i ten /\ z + i <> 92 /\ z + i <> 104) ->
  run (map (fun i => ReSub ("(?<!h)"%u ++ [48 + i]) [z + i]) l) s = Ok (unless_h (step (fun i => sub1 (48 + i) (z + i)) l) false s).
Proof.
  intros z. induction l as [|i l IH]; intros s H; [cbn [map run]; change (step _ []) with (fun c : N => c); now rewrite unless_id|].
  destruct (H i (or_introl eq_refl)) as (H1 & H2 & H3). cbn [map run]. rewrite (eastern_op z i s H1 H2). rewrite IH by (intros j Hj; apply H; now right).
  f_equal. rewrite unless_comp; [reflexivity|]. intros c. apply ten_small in H1. unfold sub1. destruct (N.eqb_spec (48 + i) c); split; intros; lia.
Qed.
Lemma eastern_run : forall z s, (z = 48 \/ 57 < z /\ ~ (z <= 104 <= z + 9)) -> ~ (z <= 92 <= z + 9) ->
  run (eastern_prog z) s = Ok (unless_h (eastern z) false s).
Proof.
  intros z s Hz Hb. unfold eastern_prog. rewrite eastern_runs.
  - f_equal. apply unless_ext. intros c. unfold eastern. rewrite step_ten; [reflexivity|].
    destruct Hz as [->|[Hz _]]; [now left|right]. intros j k Hj Hk Q. exact (ten_apart z 48 Hz eq_refl k j Hk Hj (eq_sym Q)).
  - intros i Hi. split; [exact Hi|]. apply ten_small in Hi. split; [lia|]. destruct Hz as [->|[_ Hz]]; lia.
Qed.

(** *** The steps after them do not concern digits *)
Definition spared (g : N -> N) (c : N) (y : str) : Prop :=
  c <> 104 /\ (forall d, g d = c <-> d = c) /\ (forall d, In d y -> g d = d /\ d <> 104) /\ y <> [].
Lemma map_replace : forall g c y, spared g c y -> forall s, map g (replace [c] y s) = replace [c] y (map g s).
Proof.
  intros g c y (_ & H1 & H2 & _) s. rewrite !replace_char. induction s as [|d s IH]; [reflexivity|]. cbn [flat_map map]. rewrite map_app, IH.
  destruct (N.eqb_spec c d) as [<-|E].
  - rewrite (proj2 (H1 c) eq_refl), N.eqb_refl. f_equal. rewrite <- (map_id y) at 2. apply map_ext_in. intros d Hd. now apply H2.
  - rewrite (proj2 (N.eqb_neq c (g d))); [reflexivity|]. intros Q. apply E. symmetry. now apply H1.
Qed.
Lemma unless_fixed : forall g y t, (forall d, In d y -> g d = d /\ d <> 104) -> y <> [] -> forall h, unless_h g h (y ++ t) = y ++ unless_h g false t.
Proof.
  intros g. induction y as [|d y IH]; intros t H Hn h; [easy|]. cbn [app unless_h]. destruct (H d (or_introl eq_refl)) as [G D].
  rewrite G, (proj2 (N.eqb_neq d 104) D). destruct y as [|e y]; [now destruct h|].
  rewrite IH; [now destruct h|intros x Hx; apply H; now right|discriminate].
Qed.
Lemma unless_replace : forall g c y, spared g c y -> forall s h, unless_h g h (replace [c] y s) = replace [c] y (unless_h g h s).
Proof.
  intros g c y (H0 & H1 & H2 & H3) s h. rewrite !replace_char. revert h. induction s as [|d s IH]; intros h; [reflexivity|]. cbn [flat_map unless_h].
  destruct (N.eqb_spec c d) as [<-|E].
  - rewrite unless_fixed by assumption. rewrite (proj2 (H1 c) eq_refl), (proj2 (N.eqb_neq c 104) H0), IH. destruct h; now rewrite N.eqb_refl.
  - cbn [app unless_h]. rewrite IH. assert (E' : c =? (if h then d else g d) = false).
    { apply N.eqb_neq. destruct h; [exact E|]. intros Q. apply E. symmetry. now apply H1. }
    now rewrite E'.
Qed.
Definition spared_prog (g : N -> N) (p : prog) : Prop := Forall (fun o => match o with Replace [c] y => spared g c y | _ => False end) p.
Lemma map_prog : forall g p, spared_prog g p -> forall s, run p (map g s) = rbind (run p s) (fun t => Ok (map g t)).
Proof.
  intros g p H. induction H as [|o p H _ IH]; intros s; [reflexivity|]. destruct o; try contradiction. destruct x as [|c [|]]; try contradiction.
  cbn [run run_op]. now rewrite <- map_replace, IH.
Qed.
Lemma unless_prog : forall g p, spared_prog g p -> forall s, run p (unless_h g false s) = rbind (run p s) (fun t => Ok (unless_h g false t)).
Proof.
  intros g p H. induction H as [|o p H _ IH]; intros s; [reflexivity|]. destruct o; try contradiction. destruct x as [|c [|]]; try contradiction.
  cbn [run run_op]. now rewrite <- unless_replace, IH.
Qed.

Definition rest (T : str) : prog :=
  (if negb (mem T GM_Transliteration) then [Replace "│"%u "।"%u] ++ [Replace "┃"%u "॥"%u] else [Replace "│"%u "|"%u] ++ [Replace "┃"%u "||"%u])
  ++ [Replace "●"%u "."%u].
Lemma western_spares : forall z c y, (forall d, In d (c :: y) -> ~ (z <= d <= z + 9)) -> c <> 104 -> ~ (48 <= c <= 57) -> ~ In 104 y -> y <> [] -> spared (western z) c y.
Proof.
  intros z c y H H1 H2 H3 H4. split; [exact H1|]. split; [|split; [|exact H4]].
  - intros d. assert (Hc := H c (or_introl eq_refl)). unfold western. destruct (N.leb_spec z d), (N.leb_spec d (z + 9)); cbn [andb]; split; intros; lia.
  - intros d Hd. assert (Hc := H d (or_intror Hd)). split; [|intros ->; contradiction]. unfold western. destruct (N.leb_spec z d), (N.leb_spec d (z + 9)); cbn [andb]; lia.
Qed.
Lemma eastern_spares : forall z c y, (forall d, In d (c :: y) -> ~ (z <= d <= z + 9) /\ ~ (48 <= d <= 57)) -> c <> 104 -> ~ In 104 y -> y <> [] -> spared (eastern z) c y.
Proof.
  intros z c y H H1 H3 H4. split; [exact H1|]. split; [|split; [|exact H4]].
  - intros d. destruct (H c (or_introl eq_refl)) as [Hc Hc']. unfold eastern. destruct (N.leb_spec 48 d), (N.leb_spec d 57); cbn [andb]; split; intros; lia.
  - intros d Hd. destruct (H d (or_intror Hd)) as [Hc Hc']. split; [|intros ->; contradiction]. unfold eastern. destruct (N.leb_spec 48 d), (N.leb_spec d 57); cbn [andb]; lia.
Qed.
Lemma rest_spared : forall z T, (forall c, In c "│┃●।॥|."%u -> ~ (z <= c <= z + 9)) -> spared_prog (western z) (rest T) /\ spared_prog (eastern z) (rest T).
Proof.
  intros z T H.
  assert (K : forall c y, forallb (fun d => memN d "│┃●।॥|."%u) (c :: y) = true -> y <> [] -> spared (western z) c y /\ spared (eastern z) c y).
  { intros c y Hs Hn. rewrite forallb_forall in Hs.
    assert (L : forall d, In d (c :: y) -> In d "│┃●।॥|."%u) by (intros d Hd; apply memN_In; now apply Hs).
    assert (L' : forall d, In d "│┃●।॥|."%u -> d <> 104 /\ ~ (48 <= d <= 57)).
    { intros d Hd. assert (F : forallb (fun d => negb (d =? 104) && negb ((48 <=? d) && (d <=? 57))) "│┃●।॥|."%u = true) by (vm_compute; reflexivity).
      rewrite forallb_forall in F. specialize (F d Hd). apply andb_true_iff in F as [F1 F2]. rewrite negb_true_iff in F1, F2. apply N.eqb_neq in F1. split; [exact F1|].
      intros [A B]. apply N.leb_le in A, B. rewrite A, B in F2. discriminate. }
    assert (N : ~ In 104 y) by (intros Q; destruct (L' 104 (L 104 (or_intror Q))) as [Q' _]; now apply Q').
    destruct (L' c (L c (or_introl eq_refl))) as [C1 C2].
    split; [apply western_spares|apply eastern_spares]; try assumption; intros d Hd; [apply H; now apply L|]. split; [apply H; now apply L|]. now apply L', L. }
  assert (Q : forall c y, forallb (fun d => memN d "│┃●।॥|."%u) (c :: y) = true -> y <> [] -> spared (western z) c y) by (intros; now apply K).
  assert (Q' : forall c y, forallb (fun d => memN d "│┃●।॥|."%u) (c :: y) = true -> y <> [] -> spared (eastern z) c y) by (intros; now apply K).
  unfold rest. split; destruct (negb (mem T GM_Transliteration)); cbn [app]; repeat (apply Forall_cons; [(apply Q || apply Q'); [vm_compute; reflexivity|discriminate]|]); apply Forall_nil.
Qed.

(* ------------------------------------------------------------------ *)
(** ** The options in [convert] *)
Definition numerals_option (o : str) : Prop := o = "romanNumerals"%u \/ o = "indicNumerals"%u.
Lemma pre_option : forall S T pre o, numerals_option o -> PrP_PreProcess S T [o] pre = PrP_PreProcess S T [] pre.
Proof. intros S T pre o [->| ->]; reflexivity. Qed.
Lemma call_option : forall o, numerals_option o -> foreach [o] PP_call = [].
Proof. intros o [->| ->]; vm_compute; reflexivity. Qed.

Lemma tail_option : forall S T nat pre o, numerals_option o ->
  (mem S GM_SemiticScripts = false /\ str_eqb S "Hiragana"%u = false /\ str_eqb S "Katakana"%u = false /\ str_eqb S [] = false) -> plain T ->
  exists F, convert_tail S T [] nat pre [o] = F ++ PP_defaultPost S T nat pre [o] /\ convert_tail S T [] nat pre [] = F ++ PP_defaultPost S T nat pre [].
Proof.
  intros S T nat pre o Ho (S10 & S4 & S5 & S2) HT.
  assert (D : default_options S T [o] = default_options S T []) by (destruct Ho as [->| ->]; reflexivity).
  assert (Q : forall x, In x ["siddhammukta"%u; "RemoveDiacritics"%u; "arabicRemoveAdditionsPhonetic"%u] -> mem x [o] = false).
  { intros x Hx. destruct Ho as [->| ->]; cbn [In] in Hx; decompose [or] Hx; subst; contradiction || (vm_compute; reflexivity). }
  pose proof (call_option o Ho) as C.
  apply plain_spec in HT as ((T1 & T2 & T3 & T4 & T5 & T6 & T7) & (T8 & T9 & T10)).
  assert (Q1 := Q "siddhammukta"%u ltac:(simpl; tauto)). assert (Q2 := Q "RemoveDiacritics"%u ltac:(simpl; tauto)). assert (Q3 := Q "arabicRemoveAdditionsPhonetic"%u ltac:(simpl; tauto)).
  unfold convert_tail, ApplyScriptDefaults. rewrite Q1, Q2, Q3. change (mem "RemoveDiacritics"%u []) with false. change (mem "siddhammukta"%u []) with false.
  change (mem "arabicRemoveAdditionsPhonetic"%u []) with false.
  cbn [andb orb negb mem existsb]. rewrite S10, T10, S4, S5, T4, T5, T7, !andb_false_r. cbn [andb orb negb]. rewrite S2. rewrite D, T7, !andb_false_r.
  match goal with |- context [@foreach ?A [o] PP_call] => replace (@foreach A [o] PP_call) with (@nil op) by (symmetry; exact C) end.
  change (foreach [] PP_call) with (@nil op). rewrite !app_nil_l.
  eexists. split; rewrite !app_assoc; reflexivity.
Qed.
Lemma main_option : forall S T nat pre o, numerals_option o -> plain S -> plain T -> S <> T ->
  exists F S', convert_main (Args S T nat pre [o]) = F ++ PP_defaultPost S' T nat pre [o] /\ convert_main (Args S T nat pre []) = F ++ PP_defaultPost S' T nat pre [].
Proof.
  intros S T nat pre o Ho HS HT Hne.
  assert (E : str_eqb S T = false) by (destruct (str_eqb S T) eqn:E; [apply str_eqb_eq in E; contradiction|reflexivity]).
  pose proof HT as HT'.
  apply plain_spec in HS as ((S1 & S2 & S3 & S4 & S5 & S6 & S7) & (S8 & S9 & S10)).
  apply plain_spec in HT as ((T1 & T2 & T3 & T4 & T5 & T6 & T7) & (T8 & T9 & T10)).
  assert (W : semitic_switch S T nat = (S, T)).
  { unfold semitic_switch, has_key, get. rewrite T10, T8. cbn [orb]. rewrite S10, S8. cbn [orb]. rewrite S9. cbn [andb]. rewrite S9. now destruct nat. }
  assert (A : mem S ["Arab-Ur"%u; "Arab-Pa"%u] = false).
  { destruct (mem S ["Arab-Ur"%u; "Arab-Pa"%u]) eqn:Q; [|reflexivity]. apply mem_In in Q. destruct Q as [<-|[<-|[]]]; vm_compute in S10; discriminate. }
  assert (V : exists S', variant_switch S T nat pre [o] = (S', T, nat) /\ variant_switch S T nat pre [] = (S', T, nat) /\
    (mem S' GM_SemiticScripts = false /\ str_eqb S' "Hiragana"%u = false /\ str_eqb S' "Katakana"%u = false /\ str_eqb S' [] = false)).
  { eexists. split; [destruct Ho as [->| ->]; reflexivity|]. split; [reflexivity|].
    destruct (mem "siddhammukta"%u pre && str_eqb S "Siddham"%u); destruct (mem "egrantamil"%u pre); cbn [andb];
      try (destruct (str_eqb _ "Grantha"%u)); repeat split; solve [assumption|vm_compute; reflexivity]. }
  destruct V as (S' & V & V' & F).
  assert (Y : soyombo_mark T [o] = soyombo_mark T []) by (destruct Ho as [->| ->]; reflexivity).
  assert (J : mem "indicDandas"%u [o] = false) by (destruct Ho as [->| ->]; vm_compute; reflexivity).
  destruct (tail_option S' T nat pre o Ho F HT') as (G & G1 & G2).
  exists (PrP_PreProcess S T [] pre ++ soyombo_mark T [] ++ G), S'.
  unfold convert_main. rewrite T2, T3, E, !andb_false_r. cbn [orb]. rewrite W. cbv beta iota. rewrite A, E, S10, andb_false_r. cbn [andb].
  rewrite !app_nil_l, J. change (mem "indicDandas"%u []) with false. unfold convert_rest. rewrite V, V'. cbv beta iota. rewrite Y, (pre_option S T pre o Ho), G1, G2.
  rewrite <- !app_assoc. split; reflexivity.
Qed.
Lemma prog_option : forall S T nat pre o, numerals_option o -> plain S -> plain T -> S <> T ->
  exists F S', convert_prog S T nat pre [o] = F ++ PP_defaultPost S' T nat pre [o] /\ convert_prog S T nat pre [] = F ++ PP_defaultPost S' T nat pre [].
Proof.
  intros S T nat pre o Ho HS HT Hne. destruct (main_option S T nat pre o Ho HS HT Hne) as (F & S' & M1 & M2). exists F, S'. rewrite <- M1, <- M2. clear M1 M2.
  apply plain_spec in HS as ((S1 & _) & (S8 & _)). apply plain_spec in HT as ((T1 & _) & (T8 & _)).
  assert (K : forall post, convert_step (convert_n 2) (Args S T nat pre post) = convert_main (Args S T nat pre post)).
  { intros post. generalize (convert_n 2). intros rec. unfold convert_step. generalize convert_main. intros m.
    unfold loc_target. rewrite T1. cbn [andb]. unfold loc_target_other. rewrite T1.
    cbn [andb]. unfold loc_source_mark, loc_source. rewrite S1. cbn [andb]. unfold loc_source_other. rewrite S1. cbn [andb].
    rewrite T8, S8. rewrite !app_nil_l. reflexivity. }
  split; [exact (K [o])|exact (K [])].
Qed.

Lemma post_shape : forall S T nat pre o, numerals_option o ->
  PP_defaultPost S T nat pre [o] = [Replace [0x34F] []] ++ PP_RetainIndicNumerals T (str_eqb o "romanNumerals"%u) ++ rest T.
Proof. intros S T nat pre o [->| ->]; unfold PP_defaultPost, rest; cbn [mem existsb]; [|]; rewrite ?app_nil_l; reflexivity. Qed.
Lemma post_none : forall S T nat pre, PP_defaultPost S T nat pre [] = [Replace [0x34F] []] ++ rest T.
Proof. intros. unfold PP_defaultPost, rest. reflexivity. Qed.

(** C42. *)
Theorem roman_numerals : forall S T z Ts nat pre s, plain S -> plain T -> S <> T -> In (z, Ts) zeros -> In T Ts ->
  convert S T s nat pre ["romanNumerals"%u] = rbind (convert S T s nat pre []) (fun t => Ok (map (western z) t)).
Proof.
  intros S T z Ts nat pre s HS HT Hne Hz HTs. destruct (zeros_spec z Ts T Hz HTs) as (Z1 & Z2 & _ & Z4 & _).
  destruct (prog_option S T nat pre _ (or_introl eq_refl) HS HT Hne) as (F & S' & P1 & P2).
  rewrite (post_shape S' T nat pre _ (or_introl eq_refl)) in P1. rewrite post_none in P2.
  assert (P1' : convert_prog S T nat pre ["romanNumerals"%u] = _) by exact P1. clear P1. unfold convert. rewrite P1', P2. rewrite str_eqb_refl, Z4. rewrite !(run_app F).
  destruct (run F s) as [u|e]; [|reflexivity]. cbn [rbind]. rewrite !(run_app [Replace [0x34F] []]). cbn [run run_op rbind].
  rewrite run_app, western_run by (destruct Z1 as [Q|[Q _]]; tauto). cbn [rbind]. apply map_prog. now apply rest_spared.
Qed.
Theorem indic_numerals : forall S T z Ts nat pre s, plain S -> plain T -> S <> T -> In (z, Ts) zeros -> In T Ts ->
  convert S T s nat pre ["indicNumerals"%u] = rbind (convert S T s nat pre []) (fun t => Ok (unless_h (eastern z) false t)).
Proof.
  intros S T z Ts nat pre s HS HT Hne Hz HTs. destruct (zeros_spec z Ts T Hz HTs) as (Z1 & Z2 & Z3 & _ & Z5).
  destruct (prog_option S T nat pre _ (or_intror eq_refl) HS HT Hne) as (F & S' & P1 & P2).
  rewrite (post_shape S' T nat pre _ (or_intror eq_refl)) in P1. rewrite post_none in P2.
  assert (P1' : convert_prog S T nat pre ["indicNumerals"%u] = _) by exact P1. clear P1. unfold convert. rewrite P1', P2.
  change (str_eqb "indicNumerals"%u "romanNumerals"%u) with false. rewrite Z5. rewrite !(run_app F).
  destruct (run F s) as [u|e]; [|reflexivity]. cbn [rbind]. rewrite !(run_app [Replace [0x34F] []]). cbn [run run_op rbind].
  rewrite run_app, eastern_run by assumption. cbn [rbind]. apply unless_prog. now apply rest_spared.
Qed.

(** Afterwards no digit of the target is left, and the text is as long as before. *)
Corollary roman_numerals_only : forall S T z Ts nat pre s t, plain S -> plain T -> S <> T -> In (z, Ts) zeros -> In T Ts -> z <> 48 ->
  convert S T s nat pre ["romanNumerals"%u] = Ok t -> forall c, In c t -> ~ (z <= c <= z + 9).
Proof.
  intros S T z Ts nat pre s t HS HT Hne Hz HTs H48 H c Hc. rewrite (roman_numerals S T z Ts nat pre s HS HT Hne Hz HTs) in H.
  destruct (zeros_spec z Ts T Hz HTs) as ([Q|[Q _]] & _); [contradiction|].
  destruct (convert S T s nat pre []) as [u|]; [|discriminate H]. injection H as <-. apply in_map_iff in Hc as (d & <- & _). unfold western.
  destruct (N.leb_spec z d), (N.leb_spec d (z + 9)); cbn [andb]; lia.
Qed.

Section Public.
Variable uname : N -> option str.
Variable uscript : N -> str.
Variable lfind : str -> res str.
(** C42 for [transliterate.process]. *)
Theorem process_numerals : forall src tgt z Ts nat pre s, src <> "autodetect"%u ->
  let S := canonical_name src in let T := canonical_name tgt in
  plain S -> plain T -> S <> T -> In (z, Ts) zeros -> In T Ts ->
  let conv post := snd (process uname uscript lfind src tgt s nat post pre "default"%u) in
  conv ["romanNumerals"%u] = rbind (conv []) (fun t => Ok (map (western z) t)) /\
  conv ["indicNumerals"%u] = rbind (conv []) (fun t => Ok (unless_h (eastern z) false t)).
Proof.
  intros src tgt z Ts nat pre s Ha S T HS HT Hne Hz HTs conv. subst conv. cbv beta. unfold process. rewrite str_eqb_refl.
  rewrite !process_default_known by assumption. rewrite !convert_default_value.
  assert (R1 : resolve_options PP_names ["romanNumerals"%u] = ["romanNumerals"%u]) by (vm_compute; reflexivity).
  assert (R2 : resolve_options PP_names ["indicNumerals"%u] = ["indicNumerals"%u]) by (vm_compute; reflexivity).
  rewrite R1, R2. split; [exact (roman_numerals S T z Ts nat _ s HS HT Hne Hz HTs)|exact (indic_numerals S T z Ts nat _ s HS HT Hne Hz HTs)].
Qed.
End Public.

(** ** The hypotheses can be met, and are needed *)
Example numerals_case :
  plain "HK"%u /\ plain "Tamil"%u /\ (exists Ts, In (0xBE6, Ts) zeros /\ In "Tamil"%u Ts) /\
  convert "HK"%u "Tamil"%u "ka 12"%u true [] [] = Ok "க 12"%u /\
  convert "HK"%u "Tamil"%u "ka 12"%u true [] ["romanNumerals"%u] = Ok "க 12"%u /\
  convert "HK"%u "Tamil"%u "ka 12"%u true [] ["indicNumerals"%u] = Ok "க ௧௨"%u.
Proof.
  split; [apply plain_name; vm_compute; reflexivity|]. split; [apply plain_name; vm_compute; reflexivity|].
  split; [|repeat split; vm_compute; reflexivity].
  assert (K : exists e, In e zeros /\ (fst e =? 0xBE6) && mem "Tamil"%u (snd e) = true).
  { apply existsb_exists. vm_compute. reflexivity. }
  destruct K as ([z Ts] & H1 & H2). cbn [fst snd] in H2. apply andb_true_iff in H2 as [H2 H3]. apply N.eqb_eq in H2. subst z. exists Ts. split; [exact H1|]. now apply mem_In.
Qed.
(** A digit after h stays. *)
Theorem indic_numerals_h_refuted : exists t, convert "Devanagari"%u "Tamil"%u "h2 २ 2"%u false [] ["indicNumerals"%u] = Ok t /\ In 50 t.
Proof. eexists. split; [vm_compute; reflexivity|]. vm_compute. tauto. Qed.
