(** * Token table for Bengali (C01). *)
From Coq Require Import List NArith ZArith Bool Lia Arith.
From Verif Require Import PyStr StrFacts AbsRegex Lang Tokenise IndicText IndicFine Stages.
Import ListNotations.
Local Open Scope nat_scope.

(** त् is written with a letter of its own (ৎ) except before these, ब and व. *)
Definition bn_after_t : str := "थनलमयरळ"%u ++ [0x929; 0x95F]%N.
Definition bn_all : list nat := seq 0 15.
(** After these a conjoined ब and व stay apart; after the others व becomes ব
    and so ब on the way back. *)
Definition bn_rbm : str := "रबम"%u.
Definition bn_nuk : str := "भवळऴ"%u ++ [0x929; 0x958; 0x959; 0x95A; 0x95B; 0x95E]%N.
Definition bn_lost : str := minus consonants (bn_rbm ++ bn_nuk).
Definition bn_r (c : N) : nat :=
  if N.eqb c rra then 12 else if memN c bn_rbm then 17 else if memN c bn_nuk then 18 else 4.
Definition bn_no (c : N) : list str := if memN c bn_lost then ["्व"%u] else [].
Definition bn_l (c : N) : nat := if N.eqb c (ch "भ"%u) then 22 else if memN c bn_after_t then 14 else 4.
Definition bn_cons : list nat := [4; 17; 18].
Definition bn_syl : list nat := bn_cons ++ [12; 16].

Definition bengali : fine := Fine
  [("तबव"%u, 13); (bn_after_t, 14)]
  (fun k => match k with 13 | 14 => 4 | _ => k end)
  15 23
  (map (fun c => Entry [c] bn_all 2 2) vowels
   ++ map (fun c => Entry [c] bn_all 3 3) vowels_o
   ++ [Entry "त्व"%u bn_all 14 18; Entry "त"%u (but bn_all [6]) 14 16; Entry "त्ब"%u bn_all 14 17;
       Entry "त्"%u [0; 1; 9; 10; 4] 14 15; Entry_no "त्त"%u bn_all 14 4 ["्व"%u]; Entry "त्त्व"%u bn_all 14 18;
       Entry ("त्"%u ++ [rra]) bn_all 14 12]
   ++ map (fun c => Entry_no ("त्"%u ++ [c]) bn_all 14 (bn_r c) (bn_no c)) bn_after_t
   ++ flat_map (fun c => if memN c bn_lost then [Entry ("त्"%u ++ c :: "्व"%u) bn_all 14 18] else []) bn_after_t
   ++ flat_map (fun c => if memN c bn_lost then [Entry (c :: "्व"%u) bn_all (bn_l c) 18] else []) (minus consonants "त"%u)
   ++ flat_map (fun c => if memN c bn_lost then [Entry (virama :: c :: "्व"%u) bn_all 6 18] else []) consonants
   ++ map (fun c => Entry_no [c] bn_all (if memN c "बव"%u then 14 else bn_l c) (bn_r c) (bn_no c)) (minus consonants "त"%u)
   ++ map (fun c => Entry_no [virama; c] bn_all 6 (bn_r c) (bn_no c)) (minus consonants "बव"%u)
   ++ [Entry "्ब"%u bn_all 19 17; Entry "्ब"%u bn_all 20 17; Entry "्व"%u bn_all 21 18]
   ++ [Entry [rra] bn_all 14 12; Entry [virama; rra] bn_all 6 12]
   ++ map (fun c => Entry [c] bn_all 5 5) signs
   ++ [Entry [virama] [0; 1; 9; 10] 6 6]
   ++ map (fun c => Entry [c] bn_all 7 7) nasals
   ++ [Entry [visarga] bn_all 8 8]
   ++ map (fun c => Entry [c] bn_all 9 9) others
   ++ map (fun c => Entry [c] bn_all 10 10) dandas)
  (fun a b => match b with
    | 5 => memb a bn_syl
    | 6 => memb a bn_cons
    | 7 => memb a ([2; 5] ++ bn_syl)
    | 8 => memb a ([2; 3; 5] ++ bn_syl)
    | 19 => memb a [17]
    | 20 => memb a [4; 18]
    | 21 => memb a [17; 18]
    | 10 => negb (memb a [10])
    | 2 | 3 | 14 => negb (memb a [6; 15])
    | 4 | 22 => negb (memb a [6])
    | _ => true
    end)
  (map (fun c => c :: "्व"%u) bn_lost).

Lemma bengali_checked : undone bengali "Bengali"%u (letters (f_bad bengali) "Bengali"%u) = true.
Proof. vm_cast_no_check (eq_refl true). Qed.
