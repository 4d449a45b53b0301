(** * Token table for Malayalam (C01).

    In Malayalam ण् न् र् ल् ळ् are chillus, except before the consonants they form a
    conjunct letter with (PostProcess.py:2483-2526); so these consonants, their half
    forms and their conjuncts are tokens of their own. *)
From Coq Require Import List NArith ZArith Bool Lia Arith.
From Verif Require Import PyStr StrFacts AbsRegex Lang Tokenise IndicText IndicFine Stages.
Import ListNotations.
Local Open Scope nat_scope.

(** The consonants with a chillu. *)
Definition ml_chillu : str := "णनरलळ"%u ++ [0x929%N].
(** What follows, when it is not a chillu. *)
Definition ml_next (c : N) : str :=
  match (c - 0x900)%N with
  | 0x23%N => "टठडढणमयव"%u
  | 0x28%N => "तथदधनमयरव"%u ++ [rra]
  | 0x30%N => "यर"%u
  | 0x32%N => "पमयलव"%u
  | 0x33%N => "ळयर"%u
  | 0x29%N => "तथदधनमयरव"%u ++ [rra]
  | _ => []
  end.
Definition ml_seconds : str := "टठडढणमयवतथदधनरपलळ"%u ++ [0x95C%N; 0x95D%N; 0x95F%N; rra].
Fixpoint ml_index (l : str) (c : N) : nat := match l with [] => 0 | d :: l' => if N.eqb c d then 0 else S (ml_index l' c) end.
Definition ml_l (c : N) : nat := 70 + ml_index ml_seconds c.
Definition ml_na (c : N) : nat := 95 + ml_index ml_chillu c.
Definition ml_vd (d : N) : nat := 101 + ml_index ml_seconds d.
Definition ml_ch (c : N) : nat := 125 + ml_index ml_chillu c.
Definition ml_nukta (c : N) : str :=
  map snd (filter (fun p => N.eqb (fst p) c) (combine "डढय"%u [0x95C; 0x95D; 0x95F]%N)).
Definition ml_after (c : N) : str := flat_map (fun d => d :: ml_nukta d) (ml_next c).
Definition ml_A : list nat := [2; 3; 4; 5; 7; 8; 12; 35; 40; 62; 63; 64; 65].
Definition ml_vir (a : nat) : bool := Nat.eqb a 6 <|> (101 <=? a).
Definition ml_candra : str := [0x90D; 0x911; 0x945; 0x949]%N.
Definition all22 : list nat := seq 0 22.
Definition ml_wide (e : entry) : entry := Entry_no (e_str e) (e_la e ++ [20; 21]) (e_l e) (e_r e) (e_no e).
Definition ml_vowels : list entry :=
  map (fun e => if memN (hd 0%N (e_str e)) ml_candra then Entry (e_str e) (e_la e) (e_l e) 63 else e) vowels_common.
Definition ml_sign (s : N) : nat := if memN s ml_candra then 64 else 5.
Definition ml_nuktas : str := [0x958; 0x959; 0x95A; 0x95B; 0x95C; 0x95D; 0x95E; 0x95F]%N.
(** The letter class of a letter with nukta. *)
Definition ml_own (n : N) : nat := match n with 0x95C%N => 13 | 0x95D%N => 20 | _ => 21 end.
Definition ml_pn (c : N) : nat := 131 + ml_index ml_chillu c.
Definition ml_tn (d : N) : nat := 137 + ml_index "डढय"%u d.
Definition ml_rest : list entry :=
  map (fun c => Entry [c] all22 7 7) nasals
  ++ [Entry [visarga] all22 8 8; Entry [avagraha] all22 9 40]
  ++ map (fun d => Entry [ch "h"%u; d] all22 9 9) digits
  ++ [Entry "h"%u (but all22 [15]) 9 39]
  ++ map (fun d => Entry [d] all22 27 9) digits
  ++ map (fun c => Entry [c] all22 9 9) (minus others (digits ++ "hऽ"%u))
  ++ map (fun c => Entry [c] all22 10 10) dandas.
Definition ml_entries : list entry :=
  map ml_wide ml_vowels
  ++ flat_map (fun c =>
      flat_map (fun d =>
         if N.eqb d rra then [Entry [c; virama; d] all22 58 12]
         else map (fun n => Entry [c; virama; d; virama] [ml_own n] 58 (ml_tn d)) (ml_nukta d)
         ++ [Entry [c; virama; d; virama; d] all22 58 62;
             Entry_no [c; virama; d; virama] all22 58 (ml_vd d) (map (fun n => [n]) (d :: ml_nukta d));
             Entry [c; virama; d] (but all22 [6]) 58 35]) (ml_next c)
      ++ [Entry [c; virama] (map ml_own (flat_map ml_nukta (ml_next c))) 58 (ml_pn c);
          Entry_no [c; virama] all22 58 (ml_ch c) (map (fun n => [n]) (ml_after c));
          Entry [c; virama] all22 (ml_na c) 6;
          Entry [c] (but all22 [6]) (ml_l c) 35]) ml_chillu
  ++ flat_map (fun c => Entry [c] (but all22 [5; 6]) (ml_l c) 65 :: Entry [c; virama] all22 (ml_l c) 6
                        :: map (fun s => Entry [c; s] all22 (ml_l c) (ml_sign s)) signs) ml_nuktas
  ++ map (fun c => Entry [c] all22 (ml_l c) 4) (minus consonants (ml_chillu ++ ml_nuktas))
  ++ [Entry [rra] all22 (ml_l rra) 12; Entry [virama] all22 6 6]
  ++ map (fun c => Entry [c] all22 5 (ml_sign c)) signs
  ++ ml_rest.
Definition ml_pairs : list (list nat) :=
  map (fun d => concat (map (fun n => [ml_l n; ml_na n]) (d :: ml_nukta d))) ml_seconds.
Definition ml_chs : list (list nat) :=
  map (fun c => concat (map (fun n => [ml_l n; ml_na n]) (ml_after c))) ml_chillu.
Definition ml_pns : list (list nat) := map (fun c => map ml_l (flat_map ml_nukta (ml_next c))) ml_chillu.
Definition ml_tns : list (list nat) := map (fun c => map ml_l (ml_nukta c)) "डढय"%u.
Definition ml_follows (a b : nat) : bool :=
  if 137 <=? a then memb b (nth (a - 137) ml_tns [])
  else if 131 <=? a then memb b (nth (a - 131) ml_pns [])
  else match b with
  | 5 => memb a [4; 12; 35; 62]
  | 6 => memb a [4; 62]
  | 7 => memb a [2; 5; 35; 4; 12; 62; 63; 64; 65]
  | 8 => memb a [2; 3; 5; 35; 4; 12; 62; 63; 64; 65]
  | 10 => negb (memb a [10])
  | 2 | 3 | 31 => negb (ml_vir a)
  | 27 => negb (memb a [39])
  | 58 => memb a ml_A
  | _ => if 70 <=? b then
         (if 95 <=? b then negb (memb a ml_A) else true) <&>
          (if 125 <=? a then negb (memb b (nth (a - 125) ml_chs []))
         else if 101 <=? a then negb (memb b (nth (a - 101) ml_pairs []))
         else true)
         else true
  end.
Definition ml_coarse (k : nat) : nat := match k with 20 | 21 => 4 | _ => coarse_common k end.
Definition malayalam : fine := Fine
  ([([0x95C%N], 13); ([0x95D%N], 20); ([0x95F%N], 21)] ++ own_common) ml_coarse 22 140 ml_entries ml_follows
  (map (fun d => [ch "h"%u; d]) digits).

Lemma malayalam_checked : undone malayalam "Malayalam"%u (letters (f_bad malayalam) "Malayalam"%u) = true.
Proof. vm_cast_no_check (eq_refl true). Qed.
