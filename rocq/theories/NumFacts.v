(** * Numerals: the Kharoshthi and Old Persian numerals denote the number (C29). *)
From Coq Require Import List NArith ZArith Bool Lia Sorted Permutation.
From Verif Require Import PyStr UnicodeTables Regex Unicode Prog FixNum ConvertFix1 StrFacts SortFacts.
Import ListNotations.
Open Scope Z_scope.

(* ------------------------------------------------------------------ *)
(** ** What the signs mean *)

(** Reading a Kharoshthi numeral from left to right.  The state is the part
    already multiplied by a thousand and the rest; 1, 2, 3, 4, 10, 20 add; 100
    multiplies the rest and 1000 multiplies everything read so far (by itself each
    of them means one hundred, one thousand). *)
Definition kharoshthi_sign (st : Z * Z) (c : N) : Z * Z :=
  let '(t, r) := st in
  match c with
  | 0x10A40%N => (t, r + 1)
  | 0x10A41%N => (t, r + 2)
  | 0x10A42%N => (t, r + 3)
  | 0x10A43%N => (t, r + 4)
  | 0x10A44%N => (t, r + 10)
  | 0x10A45%N => (t, r + 20)
  | 0x10A46%N => (t, Z.max r 1 * 100)
  | 0x10A47%N => (Z.max (t + r) 1 * 1000, 0)
  | _ => (t, r)
  end.
Definition kharoshthi_value (s : str) : Z :=
  let '(t, r) := fold_left kharoshthi_sign s (0, 0) in t + r.

(** Old Persian numerals just add. *)
Definition persian_sign (c : N) : Z :=
  match c with
  | 0x103D1%N => 1 | 0x103D2%N => 2 | 0x103D3%N => 10 | 0x103D4%N => 20 | 0x103D5%N => 100
  | _ => 0
  end.
Definition persian_value (s : str) : Z := fold_right (fun c a => persian_sign c + a) 0 s.

Example values :
  kharoshthi_value "𐩀𐩇𐩃𐩃𐩀𐩆𐩅𐩅𐩅𐩅𐩄𐩃𐩂"%u = 1997 /\ persian_value "𐏕𐏔𐏓𐏒𐏑"%u = 133.
Proof. vm_compute. split; reflexivity. Qed.

(* ------------------------------------------------------------------ *)
(** ** One number *)

Lemma khar_digit : forall f n t, 0 <= n < 10 ->
  fold_left kharoshthi_sign (khar_go (S f) n) (t, 0) = (t, n).
Proof.
  intros f n t H.
  assert (n = 0 \/ n = 1 \/ n = 2 \/ n = 3 \/ n = 4 \/ n = 5 \/ n = 6 \/ n = 7 \/ n = 8 \/ n = 9) as C by lia.
  repeat (destruct C as [->|C]; [reflexivity|]). subst n. reflexivity.
Qed.

Lemma khar_ones_fold : forall n st, 0 <= n < 10 ->
  fold_left kharoshthi_sign (khar_ones n) st = (fst st, snd st + n).
Proof.
  intros n [t r] H.
  assert (n = 0 \/ n = 1 \/ n = 2 \/ n = 3 \/ n = 4 \/ n = 5 \/ n = 6 \/ n = 7 \/ n = 8 \/ n = 9) as C by lia.
  repeat (destruct C as [->|C]; [cbn; f_equal; lia|]). subst n. cbn; f_equal; lia.
Qed.

Lemma khar_twenties : forall k t r,
  fold_left kharoshthi_sign (repeat 0x10A45%N k) (t, r) = (t, r + 20 * Z.of_nat k).
Proof.
  induction k as [|k IH]; intros t r; [cbn; f_equal; lia|].
  cbn [repeat fold_left kharoshthi_sign]. rewrite IH. f_equal. lia.
Qed.

Lemma khar_fold : forall f n, 0 <= n < 1000 ^ Z.of_nat f ->
  exists t r, fold_left kharoshthi_sign (khar_go (S f) n) (0, 0) = (t, r) /\ t + r = n.
Proof.
  induction f as [|f IH]; intros n H.
  - assert (n = 0) as -> by (cbn in H; lia). exists 0, 0. split; reflexivity.
  - assert (P : 1000 ^ Z.of_nat (S f) = 1000 * 1000 ^ Z.of_nat f)
      by (rewrite Nat2Z.inj_succ, Z.pow_succ_r; lia).
    remember (S f) as f1 eqn:F1. cbn [khar_go].
    set (thou := n / 1000). set (hund := (n - thou * 1000) / 100).
    set (twen := (n - thou * 1000 - hund * 100) / 20).
    set (tenn := (n - thou * 1000 - hund * 100 - twen * 20) / 10).
    set (ones := n - thou * 1000 - hund * 100 - twen * 20 - tenn * 10).
    assert (T : 0 <= thou < 1000 ^ Z.of_nat f).
    { unfold thou. split; [apply Z.div_pos; lia|]. apply Z.div_lt_upper_bound; lia. }
    assert (T' : 1000 * thou <= n < 1000 * thou + 1000).
    { unfold thou. pose proof (Z.div_mod n 1000). pose proof (Z.mod_pos_bound n 1000). lia. }
    assert (Hu : 100 * hund <= n - thou * 1000 < 100 * hund + 100).
    { unfold hund. pose proof (Z.div_mod (n - thou * 1000) 100).
      pose proof (Z.mod_pos_bound (n - thou * 1000) 100). lia. }
    assert (Tw : 20 * twen <= n - thou * 1000 - hund * 100 < 20 * twen + 20).
    { unfold twen. pose proof (Z.div_mod (n - thou * 1000 - hund * 100) 20).
      pose proof (Z.mod_pos_bound (n - thou * 1000 - hund * 100) 20). lia. }
    assert (Te : 10 * tenn <= n - thou * 1000 - hund * 100 - twen * 20 < 10 * tenn + 10).
    { unfold tenn. pose proof (Z.div_mod (n - thou * 1000 - hund * 100 - twen * 20) 10).
      pose proof (Z.mod_pos_bound (n - thou * 1000 - hund * 100 - twen * 20) 10). lia. }
    assert (O : ones = n - thou * 1000 - hund * 100 - twen * 20 - tenn * 10) by reflexivity.
    clearbody thou hund twen tenn ones.
    rewrite !fold_left_app.
    assert (S1 : fold_left kharoshthi_sign
      (if 0 <? thou then (if 1 <? thou then khar_go f1 thou else []) ++ [0x10A47%N] else []) (0, 0)
      = (thou * 1000, 0)).
    { destruct (Z.ltb_spec 0 thou); [|assert (thou = 0) as -> by lia; reflexivity].
      destruct (Z.ltb_spec 1 thou).
      - rewrite fold_left_app. subst f1. destruct (IH thou T) as (t & r & -> & E).
        cbn [fold_left kharoshthi_sign]. f_equal. lia.
      - assert (thou = 1) as -> by lia. reflexivity. }
    rewrite S1.
    assert (S2 : fold_left kharoshthi_sign
      (if 0 <? hund then (if 1 <? hund then khar_go f1 hund else []) ++ [0x10A46%N] else []) (thou * 1000, 0)
      = (thou * 1000, hund * 100)).
    { destruct (Z.ltb_spec 0 hund); [|assert (hund = 0) as -> by lia; reflexivity].
      destruct (Z.ltb_spec 1 hund).
      - rewrite fold_left_app. subst f1. rewrite khar_digit by lia.
        cbn [fold_left kharoshthi_sign]. f_equal. lia.
      - assert (hund = 1) as -> by lia. reflexivity. }
    rewrite S2.
    assert (S3 : fold_left kharoshthi_sign (if 0 <? twen then repeat 0x10A45%N (Z.to_nat twen) else [])
        (thou * 1000, hund * 100) = (thou * 1000, hund * 100 + 20 * twen)).
    { destruct (Z.ltb_spec 0 twen); [|assert (twen = 0) as -> by lia; cbn; f_equal; lia].
      rewrite khar_twenties. f_equal. lia. }
    rewrite S3.
    assert (S4 : fold_left kharoshthi_sign
      (if 0 <? tenn then (if 1 <? tenn then khar_go f1 tenn else []) ++ [0x10A44%N] else [])
      (thou * 1000, hund * 100 + 20 * twen) = (thou * 1000, hund * 100 + 20 * twen + 10 * tenn)).
    { destruct (Z.ltb_spec 0 tenn); [|assert (tenn = 0) as -> by lia; cbn; f_equal; lia].
      assert (tenn = 1) as -> by lia. reflexivity. }
    rewrite S4.
    exists (thou * 1000), (hund * 100 + 20 * twen + 10 * tenn + ones). split; [|lia].
    destruct (Z.ltb_spec 0 ones); [|cbn; f_equal; lia].
    rewrite khar_ones_fold by lia. reflexivity.
Qed.

(** C29: the Kharoshthi numeral of every number below 2^53 is read as that number. *)
Theorem kharoshthi_denotes : forall n, 0 <= n < 2 ^ 53 ->
  exists s, kharoshthiNumber n = Ok s /\ kharoshthi_value s = n.
Proof.
  intros n H. unfold kharoshthiNumber. destruct (Z.ltb_spec n (2 ^ 53)); [|lia].
  eexists. split; [reflexivity|]. destruct (khar_fold 19 n) as (t & r & E & S).
  { change (1000 ^ Z.of_nat 19) with 1000000000000000000000000000000000000000000000000000000000.
    change (2 ^ 53) with 9007199254740992 in H. lia. }
  unfold kharoshthi_value. rewrite E. exact S.
Qed.

Lemma persian_value_app : forall a b, persian_value (a ++ b) = persian_value a + persian_value b.
Proof. induction a as [|c a IH]; intros b; cbn [app persian_value fold_right]; [reflexivity|].
  change (persian_sign c + persian_value (a ++ b) = persian_sign c + persian_value a + persian_value b).
  rewrite IH. lia. Qed.
Lemma persian_value_repeat : forall c k, persian_value (repeat c k) = persian_sign c * Z.of_nat k.
Proof.
  intros c. induction k as [|k IH]; [cbn; lia|]. cbn [repeat].
  change (persian_sign c + persian_value (repeat c k) = persian_sign c * Z.of_nat (S k)). rewrite IH. lia.
Qed.

Theorem old_persian_denotes : forall n, 0 <= n < 2 ^ 53 ->
  exists s, oldPersianNumber n = Ok s /\ persian_value s = n.
Proof.
  intros n H. unfold oldPersianNumber. destruct (Z.ltb_spec n (2 ^ 53)); [|lia].
  eexists. split; [reflexivity|]. cbv zeta.
  set (hN := n / 100). set (tW := (n - hN * 100) / 20). set (tN := (n - hN * 100 - tW * 20) / 10).
  set (t2 := (n - hN * 100 - tW * 20 - tN * 10) / 2).
  assert (0 <= hN /\ 100 * hN <= n < 100 * hN + 100).
  { unfold hN. pose proof (Z.div_mod n 100). pose proof (Z.mod_pos_bound n 100).
    pose proof (Z.div_pos n 100). lia. }
  assert (20 * tW <= n - hN * 100 < 20 * tW + 20).
  { unfold tW. pose proof (Z.div_mod (n - hN * 100) 20). pose proof (Z.mod_pos_bound (n - hN * 100) 20). lia. }
  assert (10 * tN <= n - hN * 100 - tW * 20 < 10 * tN + 10).
  { unfold tN. pose proof (Z.div_mod (n - hN * 100 - tW * 20) 10).
    pose proof (Z.mod_pos_bound (n - hN * 100 - tW * 20) 10). lia. }
  assert (2 * t2 <= n - hN * 100 - tW * 20 - tN * 10 < 2 * t2 + 2).
  { unfold t2. pose proof (Z.div_mod (n - hN * 100 - tW * 20 - tN * 10) 2).
    pose proof (Z.mod_pos_bound (n - hN * 100 - tW * 20 - tN * 10) 2). lia. }
  clearbody hN tW tN t2. rewrite !persian_value_app, !persian_value_repeat. cbn [persian_sign]. lia.
Qed.

Example denotes_case :
  kharoshthiNumber 1997 = Ok "𐩇𐩃𐩃𐩀𐩆𐩅𐩅𐩅𐩅𐩄𐩃𐩂"%u /\ oldPersianNumber 133 = Ok "𐏕𐏔𐏓𐏒𐏑"%u
  /\ kharoshthiNumber 1000000 = Ok "𐩇𐩇"%u.
Proof. vm_compute. repeat split. Qed.

(** Zero has no sign: it is written as nothing. *)
Theorem zero_vanishes : kharoshthiNumber 0 = Ok [] /\ oldPersianNumber 0 = Ok [].
Proof. vm_compute. split; reflexivity. Qed.

(* ------------------------------------------------------------------ *)
(** ** Numbers in a text *)

(** A text as a sequence of other characters and decimal numbers. *)
Inductive item := Lit (c : N) | Num (ds : str).

Definition ascii_digit (c : N) : Prop := (48 <= c <= 57)%N.
Definition decimal_val (ds : str) : Z := fold_left (fun a c => 10 * a + (Z.of_N c - 48)) ds 0.
(** a number written in ASCII digits without leading zeros *)
Definition plain_number (ds : str) : Prop :=
  Forall ascii_digit ds /\ (ds = [48%N] \/ exists d r, ds = d :: r /\ d <> 48%N).

Definition text (its : list item) : str := flat_map (fun i => match i with Lit c => [c] | Num ds => ds end) its.
Definition spell (numeral : Z -> str) (its : list item) : str :=
  flat_map (fun i => match i with Lit c => [c] | Num ds => numeral (decimal_val ds) end) its.

Fixpoint separated (its : list item) : Prop :=
  match its with
  | Num _ :: t => match t with Num _ :: _ => False | _ => True end /\ separated t
  | _ :: t => separated t
  | [] => True
  end.

(** *** decimal notation *)
Lemma decimal_val_snoc : forall ds d, decimal_val (ds ++ [d]) = 10 * decimal_val ds + (Z.of_N d - 48).
Proof. intros. unfold decimal_val. rewrite fold_left_app. reflexivity. Qed.

Lemma decimal_val_nonneg : forall ds, Forall ascii_digit ds -> 0 <= decimal_val ds.
Proof.
  induction ds as [|d ds IH] using rev_ind; intros H; [cbn; lia|].
  apply Forall_app in H as [H1 H2]. rewrite decimal_val_snoc. inversion H2; subst. unfold ascii_digit in *.
  specialize (IH H1). lia.
Qed.

Lemma decimal_val_head : forall ds d, Forall ascii_digit (d :: ds) -> d <> 48%N ->
  10 ^ Z.of_nat (length ds) <= decimal_val (d :: ds).
Proof.
  induction ds as [|e ds IH] using rev_ind; intros d H Hd.
  - inversion H; subst. unfold ascii_digit in *. cbn. lia.
  - change (d :: ds ++ [e]) with ((d :: ds) ++ [e]) in *. apply Forall_app in H as [H1 H2].
    rewrite decimal_val_snoc, app_length, Nat2Z.inj_add. change (Z.of_nat (length [e])) with 1.
    rewrite Z.pow_add_r by lia. inversion H2; subst. unfold ascii_digit in *. specialize (IH d H1 Hd). lia.
Qed.

Lemma digits_go_spec : forall ds acc f, Forall ascii_digit ds -> plain_number ds -> (length ds <= f)%nat ->
  digits_go f (decimal_val ds) acc = ds ++ acc.
Proof.
  induction ds as [|d ds IH] using rev_ind; intros acc f H P L.
  - destruct P as [_ [P|(d & r & P & _)]]; discriminate.
  - apply Forall_app in H as [H1 H2]. inversion H2 as [|? ? Hd _]; subst. unfold ascii_digit in Hd.
    rewrite app_length in L. simpl in L. destruct f as [|f]; [lia|]. cbn [digits_go].
    rewrite decimal_val_snoc.
    assert (M : (10 * decimal_val ds + (Z.of_N d - 48)) mod 10 = Z.of_N d - 48).
    { rewrite Z.mul_comm, Z.add_comm, Z.mod_add by lia. apply Z.mod_small. lia. }
    assert (D : (10 * decimal_val ds + (Z.of_N d - 48)) / 10 = decimal_val ds).
    { rewrite Z.mul_comm, Z.div_add_l by lia. rewrite Z.div_small; lia. }
    rewrite M, D. replace (48 + Z.to_N (Z.of_N d - 48))%N with d by lia.
    destruct ds as [|e ds].
    + cbn [decimal_val fold_left]. destruct (Z.ltb_spec (10 * 0 + (Z.of_N d - 48)) 10); [reflexivity|lia].
    + destruct P as [_ [P|(a & r & P & Ha)]]; [destruct ds; discriminate|]. injection P as -> P.
      pose proof (decimal_val_head ds a H1 Ha) as Hh.
      assert (1 <= 10 ^ Z.of_nat (length ds)) by (apply (Z.pow_le_mono_r 10 0); lia).
      destruct (Z.ltb_spec (10 * decimal_val (a :: ds) + (Z.of_N d - 48)) 10); [lia|].
      rewrite IH; [now rewrite <- app_assoc|assumption| |cbn in *; lia].
      split; [assumption|]. right. now exists a, ds.
Qed.

Lemma plain_length : forall ds, plain_number ds -> (length ds <= S (Z.to_nat (Z.log2 (decimal_val ds))))%nat.
Proof.
  intros ds [H [->|(d & r & -> & Hd)]]; [cbn; lia|].
  pose proof (decimal_val_head r d H Hd) as P. cbn [length]. apply le_n_S.
  assert (2 ^ Z.of_nat (length r) <= 10 ^ Z.of_nat (length r)) by (apply Z.pow_le_mono_l; lia).
  assert (Z.of_nat (length r) <= Z.log2 (decimal_val (d :: r))); [|lia].
  apply Z.log2_le_pow2; [|lia]. assert (0 < 2 ^ Z.of_nat (length r)) by (apply Z.pow_pos_nonneg; lia). lia.
Qed.

Lemma str_of_decimal : forall ds, plain_number ds -> str_of_Z (decimal_val ds) = ds.
Proof.
  intros ds P. unfold str_of_Z. rewrite digits_go_spec; [apply app_nil_r|apply P|assumption|].
  now apply plain_length.
Qed.

Lemma decimal_val_app : forall a b, decimal_val (a ++ b) = decimal_val a * 10 ^ Z.of_nat (length b) + decimal_val b.
Proof.
  intros a. induction b as [|d b IH] using rev_ind.
  - rewrite app_nil_r. cbn. lia.
  - rewrite app_assoc, !decimal_val_snoc, IH, app_length, Nat2Z.inj_add. change (Z.of_nat (length [d])) with 1.
    rewrite Z.pow_add_r by lia. lia.
Qed.

(** A number whose notation occurs inside another one is not larger. *)
Lemma contains_le : forall d ds, Forall ascii_digit ds -> contains d ds = true -> decimal_val d <= decimal_val ds.
Proof.
  intros d ds H C. apply contains_spec in C as (a & b & ->).
  apply Forall_app in H as [Ha H]. apply Forall_app in H as [Hd Hb].
  rewrite !decimal_val_app.
  pose proof (decimal_val_nonneg a Ha). pose proof (decimal_val_nonneg b Hb). pose proof (decimal_val_nonneg d Hd).
  assert (1 <= 10 ^ Z.of_nat (length b)) by (apply (Z.pow_le_mono_r 10 0); lia).
  assert (0 <= 10 ^ Z.of_nat (length (d ++ b))) by (apply Z.pow_nonneg; lia).
  nia.
Qed.

(** *** replacing one number *)
Lemma replace_sep : forall x y u v c, x <> [] -> ~ In c x ->
  replace x y (u ++ c :: v) = replace x y u ++ c :: replace x y v.
Proof.
  intros x y u v c Hx Hc. rewrite replace_app; [f_equal|assumption|].
  - destruct x as [|a x]; [easy|]. unfold replace. cbn [replace_go prefixb].
    destruct (N.eqb_spec a c) as [->|]; [destruct Hc; now left|reflexivity].
  - intros u1 u2 _ _ P. destruct (prefixb x (u2 ++ c :: v)) eqn:E; [|reflexivity].
    apply prefixb_spec in E as (r & E). exfalso.
    assert (G : forall x u2, u2 ++ c :: v = x ++ r -> ~ In c x -> exists q, u2 = x ++ q).
    { clear. induction x as [|a x IH]; intros u2 E Hc; [now exists u2|].
      destruct u2 as [|b u2]; injection E as -> E; [destruct Hc; now left|].
      destruct (IH u2 E) as [q ->]; [intros X; apply Hc; now right|]. now exists q. }
    destruct (G x u2 E Hc) as [q ->].
    assert (prefixb x (x ++ q) = true) by (apply prefixb_spec; now exists q). congruence.
Qed.

Lemma replace_self : forall x y, x <> [] -> replace x y x = y.
Proof.
  intros x y Hx. destruct x as [|a x]; [easy|]. unfold replace.
  change (replace_go (a :: x) y 0 (a :: x)) with
    (if prefixb (a :: x) (a :: x) then y ++ replace_go (a :: x) y (length x) x
     else a :: replace_go (a :: x) y 0 x).
  assert (prefixb (a :: x) (a :: x) = true) as -> by (apply prefixb_spec; exists []; now rewrite app_nil_r).
  assert (G : forall z y s n, (length s <= n)%nat -> replace_go z y n s = []).
  { clear. intros z y. induction s as [|c s IH]; intros n H; [reflexivity|]. destruct n as [|n]; [simpl in H; lia|].
    cbn [replace_go]. apply IH. simpl in H. lia. }
  rewrite G by lia. apply app_nil_r.
Qed.

Definition put (d y : str) (i : item) : list item :=
  match i with Num ds => if str_eqb ds d then map Lit y else [Num ds] | Lit c => [Lit c] end.

Definition not_ascii_digit (c : N) : Prop := ~ ascii_digit c.
Definition good (its : list item) : Prop :=
  separated its /\ forall i, In i its -> match i with Lit c => ~ ascii_digit c | Num ds => plain_number ds end.

Lemma text_app : forall a b, text (a ++ b) = text a ++ text b.
Proof. intros. apply flat_map_app. Qed.
Lemma text_lits : forall y, text (map Lit y) = y.
Proof. induction y as [|c y IH]; [reflexivity|]. cbn. now f_equal. Qed.

Lemma put_text : forall d y its, plain_number d -> good its ->
  (forall ds, In (Num ds) its -> ds = d \/ contains d ds = false) ->
  replace d y (text its) = text (flat_map (put d y) its).
Proof.
  intros d y its P G C.
  assert (Hd : d <> []) by (intros ->; destruct P as [_ [P|(? & ? & P & _)]]; discriminate).
  assert (Hc : forall c, ~ ascii_digit c -> ~ In c d).
  { intros c H X. destruct P as [P _]. rewrite Forall_forall in P. now apply H, P. }
  assert (One : forall ds, In (Num ds) its -> replace d y ds = text (put d y (Num ds))).
  { intros ds H. cbn [put]. destruct (str_eqb ds d) eqn:E.
    - apply str_eqb_eq in E as ->. rewrite text_lits. now apply replace_self.
    - destruct (C ds H) as [->|N]; [now rewrite str_eqb_refl in E|]. rewrite replace_none by assumption.
      cbn. now rewrite app_nil_r. }
  assert (S : forall l, (forall i, In i l -> In i its) -> separated l -> replace d y (text l) = text (flat_map (put d y) l)).
  { assert (Hn : replace d y [] = []) by (destruct d; [easy|reflexivity]).
    fix S 1. intros [|[c|ds] l] I Sep; [exact Hn| |].
    - change (text (Lit c :: l)) with ([] ++ c :: text l). rewrite replace_sep; [|assumption|].
      + rewrite S; [rewrite Hn; reflexivity|intros i Hi; apply I; now right|exact Sep].
      + apply Hc. apply (proj2 G (Lit c)). apply I. now left.
    - destruct l as [|[c|ds'] l].
      + cbn [flat_map]. rewrite app_nil_r. change (text [Num ds]) with (ds ++ []). rewrite app_nil_r.
        apply One, I. now left.
      + change (text (Num ds :: Lit c :: l)) with (ds ++ c :: text l). rewrite replace_sep; [|assumption|].
        * rewrite S; [|intros i Hi; apply I; right; now right|exact (proj2 Sep)].
          rewrite One by (apply I; now left). cbn [flat_map]. rewrite text_app. reflexivity.
        * apply Hc. apply (proj2 G (Lit c)). apply I. right; now left.
      + destruct Sep as [[] _]. }
  apply S; [auto|apply G].
Qed.

Lemma separated_lits : forall y l, separated l -> separated (map Lit y ++ l).
Proof. induction y as [|c y IH]; intros l H; [exact H|]. cbn. now apply IH. Qed.

Lemma separated_put : forall d y l, separated l -> separated (flat_map (put d y) l).
Proof.
  intros d y. fix IH 1. intros [|[c|ds] l] H; [exact I| |].
  - cbn [flat_map put app separated]. apply IH. exact H.
  - cbn [flat_map put]. destruct (str_eqb ds d).
    + apply separated_lits. apply IH. exact (proj2 H).
    + destruct l as [|[c|ds'] l].
      * cbn. tauto.
      * cbn [flat_map put app separated]. split; [exact I|]. apply IH. exact (proj2 H).
      * destruct H as [[] _].
Qed.

Lemma put_good : forall d y its, Forall not_ascii_digit y -> good its -> good (flat_map (put d y) its).
Proof.
  intros d y its Hy [S G]. split; [now apply separated_put|].
  intros i Hi. apply in_flat_map in Hi as (j & Hj & Hi). specialize (G j Hj). destruct j as [c|ds]; cbn [put] in Hi.
  - destruct Hi as [<-|[]]. exact G.
  - destruct (str_eqb ds d).
    + apply in_map_iff in Hi as (c & <- & Hc). rewrite Forall_forall in Hy. now apply Hy.
    + destruct Hi as [<-|[]]. exact G.
Qed.

(** *** finding the numbers *)
Definition numbers (its : list item) : list str :=
  flat_map (fun i => match i with Lit _ => [] | Num ds => [ds] end) its.

Definition plus_re : re := RSeq REps (RRep true 1 None (RSet false [CCls CDigit false])).

Fixpoint opt_run (fuel : nat) (s : st) : option st :=
  match fuel with
  | O => Some s
  | S f => match aft s with
           | c :: t => if is_digit c then opt_run f (St (c :: bef s) t (caps s)) else Some s
           | [] => Some s
           end
  end.

Lemma in_digit : forall c, in_set false [CCls CDigit false] c = is_digit c.
Proof. intros c. unfold in_set. cbn [existsb in_item in_class]. now destruct (is_digit c). Qed.

Lemma opt_run_some : forall f s, exists s', opt_run f s = Some s'.
Proof.
  induction f as [|f IH]; intros s; [now exists s|]. cbn [opt_run]. destruct (aft s); [now exists s|].
  destruct (is_digit n); [apply IH|now exists s].
Qed.

Definition opt_fix (a : re) (k : st -> option st) :=
  fix opt (fuel : nat) (left : option nat) (s : st) {struct fuel} : option st :=
    match fuel with
    | O => k s
    | S fuel' =>
        match (if match left with Some O => false | _ => true end then
                 m a s (fun s' => if Nat.eqb (length (aft s')) (length (aft s)) then None
                                  else opt fuel' (option_map pred left) s')
               else None)
        with Some x => Some x | None => k s end
    end.

Lemma m_plus : forall a s k,
  m (RRep true 1 None a) s k = m a s (fun s' => opt_fix a k (S (length (aft s'))) None s').
Proof. reflexivity. Qed.

Lemma opt_fix_run : forall f s k, (forall s, k s = Some s) ->
  opt_fix (RSet false [CCls CDigit false]) k f None s = opt_run f s.
Proof.
  intros f s k K. revert s. induction f as [|f IH]; intros s; [apply K|].
  cbn [opt_fix opt_run m]. fold (opt_fix (RSet false [CCls CDigit false]) k). unfold step1.
  destruct s as [bb [|d u] cc]; cbn [aft bef caps]; [apply K|].
  rewrite in_digit. destruct (is_digit d) eqn:D; [|apply K].
  assert (Nat.eqb (length u) (length (d :: u)) = false) as -> by (apply Nat.eqb_neq; simpl; lia).
  cbn [option_map]. rewrite IH. destruct (opt_run_some f (St (d :: bb) u cc)) as [s' ->]. reflexivity.
Qed.

Lemma attempt_plus : forall b c t, attempt plus_re false (St b (c :: t) []) =
  if is_digit c then opt_run (S (length t)) (St (c :: b) t []) else None.
Proof.
  intros b c t. unfold attempt, plus_re.
  change (m (RSeq REps ?r) ?s ?k) with (m r s k).
  rewrite m_plus. change (m (RSet ?n ?l) ?s ?k) with (step1 (in_set n l) s k). unfold step1. cbn [aft bef caps].
  rewrite in_digit. destruct (is_digit c); [|reflexivity]. apply opt_fix_run. reflexivity.
Qed.

Lemma opt_run_digits : forall ds t b cs f, Forall (fun c => is_digit c = true) ds ->
  match t with c :: _ => is_digit c = false | [] => True end -> (length ds <= f)%nat ->
  opt_run f (St b (ds ++ t) cs) = Some (St (rev ds ++ b) t cs).
Proof.
  induction ds as [|d ds IH]; intros t b cs f H T L.
  - destruct f as [|f]; [reflexivity|]. cbn [opt_run app aft]. destruct t as [|c t]; [reflexivity|]. now rewrite T.
  - inversion H as [|? ? Hd Hr]; subst. destruct f as [|f]; [simpl in L; lia|].
    cbn [opt_run app aft bef caps]. rewrite Hd, IH; [|assumption|assumption|simpl in L; lia].
    cbn [rev]. now rewrite <- app_assoc.
Qed.

Lemma findall_skip : forall r x b t, findall_go r b (length x) (x ++ t) = findall_go r (rev x ++ b) 0 t.
Proof.
  intros r. induction x as [|c x IH]; intros b t; [reflexivity|]. cbn [length app findall_go].
  rewrite IH. cbn [rev]. now rewrite <- app_assoc.
Qed.

Lemma findall_numbers : forall its b, separated its ->
  (forall i, In i its -> match i with Lit c => is_digit c = false
                          | Num ds => ds <> [] /\ Forall (fun c => is_digit c = true) ds end) ->
  findall_go plus_re b 0 (text its) = numbers its.
Proof.
  fix IH 1. intros [|[c|ds] its] b S H; [reflexivity| |].
  - change (text (Lit c :: its)) with (c :: text its). cbn [findall_go]. rewrite attempt_plus.
    rewrite (H (Lit c)) by now left. change (numbers (Lit c :: its)) with (numbers its). apply IH; [exact S|]. intros i Hi. apply H. now right.
  - destruct (H (Num ds)) as [Hn Hd]; [now left|]. destruct ds as [|d ds]; [easy|].
    inversion Hd as [|? ? H1 H2]; subst.
    change (text (Num (d :: ds) :: its)) with (d :: ds ++ text its). cbn [findall_go].
    rewrite attempt_plus, H1.
    rewrite opt_run_digits; [|assumption| |rewrite app_length; lia].
    + cbn [numbers flat_map]. assert (E : consumed (St b (d :: ds ++ text its) []) (St (rev ds ++ d :: b) (text its) []) = d :: ds).
      { unfold consumed. cbn [aft]. change (d :: ds ++ text its) with ((d :: ds) ++ text its).
        rewrite app_length. replace (length (d :: ds) + length (text its) - length (text its))%nat with (length (d :: ds)) by lia.
        rewrite firstn_app, Nat.sub_diag, firstn_O, firstn_all, app_nil_r. reflexivity. }
      rewrite E. cbn [app]. f_equal. cbn [length pred]. rewrite findall_skip.
      apply IH; [exact (proj2 S)|]. intros i Hi. apply H. now right.
    + destruct its as [|[c|ds'] its]; [exact I| |destruct S as [[] _]].
      change (text (Lit c :: its)) with (c :: text its). apply (H (Lit c)). right; now left.
Qed.

(** *** the whole substitution *)
Section Numerals.
  Variable number : Z -> res str.
  Variable numeral : Z -> str.
  Variable dom : Z -> Prop.
  Hypothesis number_ok : forall n, dom n -> number n = Ok (numeral n).
  Hypothesis numeral_digits : forall n, dom n -> Forall not_ascii_digit (numeral n).

  Definition subst_all (ns : list Z) (s : str) : res str :=
    fold_left (fun acc num => do s <- acc; do k <- number num; Ok (replace (str_of_Z num) k s)) ns (Ok s).

  Lemma spell_put : forall d its, plain_number d -> 
    spell numeral (flat_map (put d (numeral (decimal_val d))) its) = spell numeral its.
  Proof.
    intros d its P. unfold spell. induction its as [|[c|ds] its IH]; [reflexivity| |].
    - cbn [flat_map put app]. now rewrite IH.
    - cbn [flat_map put]. rewrite flat_map_app, IH. f_equal. destruct (str_eqb ds d) eqn:E.
      + apply str_eqb_eq in E as ->. generalize (numeral (decimal_val d)). clear.
        induction s as [|c s IH]; [reflexivity|]. cbn. now f_equal.
      + cbn. apply app_nil_r.
  Qed.

  Lemma subst_all_spell : forall ns its, StronglySorted (fun a b => b <= a) ns -> good its ->
    (forall ds, In (Num ds) its -> In (decimal_val ds) ns) ->
    (forall n, In n ns -> dom n /\ exists d, plain_number d /\ n = decimal_val d) ->
    subst_all ns (text its) = Ok (spell numeral its).
  Proof.
    induction ns as [|n ns IH]; intros its So G I P.
    - cbn. f_equal. assert (forall ds, ~ In (Num ds) its) as N by (intros ds H; exact (I ds H)).
      clear - N. induction its as [|[c|ds] its IH]; [reflexivity| |destruct (N ds); now left].
      cbn. f_equal. apply IH. intros ds H. apply (N ds). now right.
    - destruct (P n) as (D & d & Pd & ->); [now left|].
      unfold subst_all. cbn [fold_left rbind]. rewrite number_ok by assumption. cbn [rbind].
      rewrite str_of_decimal by assumption.
      inversion So as [|? ? So' Fa]; subst. rewrite Forall_forall in Fa.
      assert (Max : forall ds, In (Num ds) its -> decimal_val ds <= decimal_val d).
      { intros ds H. destruct (I ds H) as [E|E]; [lia|]. now apply Fa. }
      assert (Inj : forall ds, In (Num ds) its -> decimal_val ds = decimal_val d -> ds = d).
      { intros ds H E. rewrite <- (str_of_decimal ds), <- (str_of_decimal d), E; [reflexivity|assumption|].
        exact (proj2 G (Num ds) H). }
      rewrite put_text; [|assumption|assumption|].
      + change (subst_all ns (text (flat_map (put d (numeral (decimal_val d))) its)) = Ok (spell numeral its)).
        rewrite IH; [f_equal; now apply spell_put|assumption|apply put_good; [now apply numeral_digits|assumption]| |].
        * intros ds H. apply in_flat_map in H as (j & Hj & H). destruct j as [c|ds']; cbn [put] in H.
          -- destruct H as [H|[]]. discriminate.
          -- destruct (str_eqb ds' d) eqn:E.
             ++ apply in_map_iff in H as (c & H & _). discriminate.
             ++ destruct H as [H|[]]. injection H as ->. destruct (I ds Hj) as [Q|Q]; [|assumption].
                rewrite (Inj ds) in E by (assumption || now symmetry). now rewrite str_eqb_refl in E.
        * intros m H. apply P. now right.
      + intros ds H. destruct (contains d ds) eqn:C; [left|now right].
        apply Inj; [assumption|]. pose proof (Max ds H).
        pose proof (contains_le d ds (proj1 (proj2 G (Num ds) H)) C). lia.
  Qed.
End Numerals.

Lemma ascii_is_digit : forall c, ascii_digit c -> is_digit c = true.
Proof.
  intros c [A B]. unfold is_digit. change digit_ranges with ((48, 57)%N :: tl digit_ranges).
  cbn [in_ranges]. destruct (N.ltb_spec c 48); [lia|]. destruct (N.leb_spec c 57); [reflexivity|lia].
Qed.

Lemma ascii_value : forall c, ascii_digit c -> decimal_value digit_ranges c = Z.of_N c - 48.
Proof.
  intros c [A B]. change digit_ranges with ((48, 57)%N :: tl digit_ranges).
  cbn [decimal_value]. destruct (N.ltb_spec c 48); [lia|]. destruct (N.leb_spec c 57); [|lia].
  rewrite Z.mod_small; lia.
Qed.

Lemma int_of_plain : forall ds, plain_number ds -> decimal_val ds < 2 ^ 53 -> int_of_digits ds = Ok (decimal_val ds).
Proof.
  intros ds P H. unfold int_of_digits.
  assert (L : Z.of_nat (length ds) <= 17).
  { destruct P as [F [->|(d & r & -> & Hd)]]; [cbn; lia|].
    pose proof (decimal_val_head r d F Hd) as Q. cbn [length].
    destruct (Z.le_gt_cases (Z.of_nat (length r)) 16); [lia|].
    assert (10 ^ 17 <= 10 ^ Z.of_nat (length r)) by (apply Z.pow_le_mono_r; lia).
    change (10 ^ 17) with 100000000000000000 in *. change (2 ^ 53) with 9007199254740992 in *. lia. }
  destruct (Z.ltb_spec 4300 (Z.of_nat (length ds))); [lia|]. f_equal. unfold decimal_val.
  destruct P as [F _]. clear - F. generalize 0. induction F as [|c ds Hc F IH]; intros a; [reflexivity|].
  cbn [fold_left]. rewrite ascii_value by assumption. apply IH.
Qed.

(** A text whose numbers are written in ASCII digits without leading zeros, are below 2^53 and are
    separated by other characters, none of which is a digit of any script. *)
Definition number_text (its : list item) : Prop :=
  separated its /\ forall i, In i its ->
    match i with Lit c => is_digit c = false | Num ds => plain_number ds /\ decimal_val ds < 2 ^ 53 end.

Lemma re_numbers_text : forall its, number_text its ->
  re_numbers (text its) = Ok (ssort desc_ltb (map decimal_val (numbers its))).
Proof.
  intros its [S H]. unfold re_numbers. change (compile "\d+"%u) with (Some (plus_re, O)). cbv iota beta.
  rewrite findall_numbers; [|assumption|].
  - assert (M : mapR int_of_digits (numbers its) = Ok (map decimal_val (numbers its))).
    { clear S. induction its as [|[c|ds] its IH]; [reflexivity| |].
      - apply IH. intros i Hi. apply H. now right.
      - destruct (H (Num ds)) as [P L]; [now left|].
        change (numbers (Num ds :: its)) with (ds :: numbers its). cbn [mapR map].
        rewrite int_of_plain by assumption. rewrite IH; [reflexivity|]. intros i Hi. apply H. now right. }
    rewrite M. reflexivity.
  - intros i Hi. specialize (H i Hi). destruct i as [c|ds]; [assumption|]. destruct H as [[F P] _]. split.
    + intros ->. destruct P as [P|(? & ? & P & _)]; discriminate.
    + rewrite Forall_forall in *. intros c Hc. now apply ascii_is_digit, F.
Qed.

Lemma in_numbers : forall ds its, In ds (numbers its) <-> In (Num ds) its.
Proof.
  intros ds its. unfold numbers. rewrite in_flat_map. split.
  - intros ([c|d] & H & E); [destruct E|]. destruct E as [->|[]]. assumption.
  - intros H. exists (Num ds). split; [assumption|now left].
Qed.

Lemma all_numbers : forall number numeral its,
  (forall n, 0 <= n < 2 ^ 53 -> number n = Ok (numeral n)) ->
  (forall n, 0 <= n < 2 ^ 53 -> Forall not_ascii_digit (numeral n)) ->
  number_text its ->
  subst_all number (ssort desc_ltb (map decimal_val (numbers its))) (text its) = Ok (spell numeral its).
Proof.
  intros number numeral its H1 H2 [S H].
  apply subst_all_spell with (dom := fun n => 0 <= n < 2 ^ 53); try assumption.
  - assert (SS : StronglySorted (fun a b => desc_ltb b a = false) (ssort desc_ltb (map decimal_val (numbers its)))).
    { apply ssort_sorted; [intros a b|intros a b c]; unfold SortFacts.le, desc_ltb; rewrite ?Z.ltb_lt, ?Z.ltb_ge; lia. }
    revert SS. generalize (ssort desc_ltb (map decimal_val (numbers its))). induction 1 as [|a l SS IH F]; constructor; [assumption|].
    rewrite Forall_forall in *. intros b Hb. specialize (F b Hb). unfold desc_ltb in F. apply Z.ltb_ge in F. lia.
  - split; [assumption|]. intros i Hi. specialize (H i Hi). destruct i as [c|ds]; [|apply H].
    intros A. apply ascii_is_digit in A. congruence.
  - intros ds Hd. apply ssort_In. apply in_map. now apply in_numbers.
  - intros n Hn. apply ssort_In in Hn. apply in_map_iff in Hn as (ds & <- & Hd). apply in_numbers in Hd.
    destruct (H _ Hd) as [P L]. split; [split; [apply decimal_val_nonneg, P|assumption]|]. now exists ds.
Qed.

Lemma khar_ones_chars : forall n, Forall (fun c => 0x10A40 <= c <= 0x10A47)%N (khar_ones n).
Proof.
  intros n. unfold khar_ones. cbv zeta.
  repeat (match goal with |- context[if ?b then _ else _] => destruct b end;
          [repeat constructor; cbv; discriminate|]). constructor.
Qed.

Lemma khar_go_chars : forall f n, Forall (fun c => 0x10A40 <= c <= 0x10A47)%N (khar_go f n).
Proof.
  assert (Q : forall c, (0x10A40 <=? c)%N && (c <=? 0x10A47)%N = true -> (0x10A40 <= c <= 0x10A47)%N).
  { intros c H. apply andb_true_iff in H as [A B]. apply N.leb_le in A, B. lia. }
  induction f as [|f IH]; intros n; [constructor|]. cbn [khar_go]. cbv zeta.
  repeat (apply Forall_app; split);
    repeat match goal with |- context[if ?b then _ else _] => destruct b end;
    try (apply Forall_app; split); try apply IH; try apply khar_ones_chars;
    try (apply Forall_forall; intros c Hc; apply repeat_spec in Hc as ->); try (repeat constructor);
    try (apply Q; reflexivity); try (cbv; discriminate).
Qed.

(** C29 for whole texts: every number of the text is replaced by its numeral and nothing else
    changes. *)
Theorem kharoshthi_numbers_in_text : forall its, number_text its ->
  exists numeral, run (CF_KharoshthiNumerals false) (text its) = Ok (spell numeral its)
    /\ forall n, 0 <= n < 2 ^ 53 -> kharoshthi_value (numeral n) = n
                 /\ Forall (fun c => 0x10A40 <= c <= 0x10A47)%N (numeral n).
Proof.
  intros its H. exists (khar_go 20).
  assert (K : forall n, 0 <= n < 2 ^ 53 -> kharoshthiNumber n = Ok (khar_go 20 n)).
  { intros n Hn. unfold kharoshthiNumber. destruct (Z.ltb_spec n (2 ^ 53)); [reflexivity|lia]. }
  split.
  - unfold CF_KharoshthiNumerals. cbn [run run_op]. rewrite re_numbers_text by assumption.
    change (match subst_all kharoshthiNumber (ssort desc_ltb (map decimal_val (numbers its))) (text its)
            with Ok s' => Ok s' | Err e => Err e end = Ok (spell (khar_go 20) its)).
    rewrite all_numbers with (numeral := khar_go 20); [reflexivity|assumption| |assumption].
    intros n _. eapply Forall_impl; [|apply khar_go_chars]. intros c Hc [A B]. cbv beta in Hc. lia.
  - intros n Hn. split; [|apply khar_go_chars]. destruct (kharoshthi_denotes n Hn) as (s & E & V).
    rewrite K in E by assumption. assert (R : forall a b : str, Ok a = Ok b -> a = b) by (intros a b Q; now injection Q).
    apply R in E. rewrite E. exact V.
Qed.

Theorem old_persian_numbers_in_text : forall its, number_text its ->
  exists numeral, run (CF_OldPersianNumeral false) (text its) = Ok (spell numeral its)
    /\ forall n, 0 <= n < 2 ^ 53 -> persian_value (numeral n) = n.
Proof.
  intros its H. pose (numeral := fun n => match oldPersianNumber n with Ok s => s | Err _ => [] end).
  exists numeral.
  assert (K : forall n, 0 <= n < 2 ^ 53 -> oldPersianNumber n = Ok (numeral n)).
  { intros n Hn. unfold numeral. destruct (old_persian_denotes n Hn) as (s & -> & _). reflexivity. }
  split.
  - unfold CF_OldPersianNumeral. cbn [run run_op]. rewrite re_numbers_text by assumption.
    change (match subst_all oldPersianNumber (ssort desc_ltb (map decimal_val (numbers its))) (text its)
            with Ok s' => Ok s' | Err e => Err e end = Ok (spell numeral its)).
    rewrite all_numbers with (numeral := numeral); [reflexivity|assumption| |assumption].
    intros n Hn. specialize (K n Hn). unfold oldPersianNumber in K.
    destruct (Z.ltb_spec n (2 ^ 53)); [|lia]. assert (R : forall a, Ok a = Ok (numeral n) -> a = numeral n) by (intros a E; congruence).
    apply R in K. rewrite <- K. unfold not_ascii_digit, ascii_digit.
    repeat (apply Forall_app; split); apply Forall_forall; intros c Hc; apply repeat_spec in Hc as ->; intros [A B]; now apply B.
  - intros n Hn. destruct (old_persian_denotes n Hn) as (s & E & V). unfold numeral. now rewrite E.
Qed.

Definition sample : list item :=
  [Lit 0x10A00; Num "1997"%u; Lit 32; Num "19"%u; Lit 32; Num "0"%u; Lit 0x10A01; Num "9"%u]%N.
Example number_text_case : number_text sample
  /\ run (CF_KharoshthiNumerals false) (text sample) = Ok "𐨀𐩇𐩃𐩃𐩀𐩆𐩅𐩅𐩅𐩅𐩄𐩃𐩂 𐩄𐩃𐩃𐩀 𐨁𐩃𐩃𐩀"%u.
Proof.
  assert (D : forall ds, forallb (fun c => (48 <=? c) && (c <=? 57))%N ds = true -> Forall ascii_digit ds).
  { intros ds H. apply Forall_forall. intros c Hc. rewrite forallb_forall in H. specialize (H c Hc).
    apply andb_true_iff in H as [A B]. apply N.leb_le in A, B. split; assumption. }
  split; [|vm_compute; reflexivity]. split; [cbn; tauto|].
  intros i [<-|[<-|[<-|[<-|[<-|[<-|[<-|[<-|[]]]]]]]]]; try (vm_compute; reflexivity);
    (split; [split; [apply D; vm_compute; reflexivity|]|vm_compute; reflexivity]).
  - right. eexists _, _. split; [reflexivity|discriminate].
  - right. eexists _, _. split; [reflexivity|discriminate].
  - now left.
  - right. eexists _, _. split; [reflexivity|discriminate].
Qed.

(** With leading zeros it is false: the zeros stay in the text. *)
Theorem leading_zeros_refuted : exists ds, Forall ascii_digit ds /\ decimal_val ds = 7
  /\ run (CF_KharoshthiNumerals false) ds = Ok ("00"%u ++ "𐩃𐩂"%u).
Proof.
  exists "007"%u. split; [repeat constructor; cbv; discriminate|]. split; vm_compute; reflexivity.
Qed.
