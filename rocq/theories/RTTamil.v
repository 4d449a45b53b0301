(** * Token table for Tamil (C01). *)
From Coq Require Import List NArith ZArith Bool Lia Arith.
From Verif Require Import PyStr StrFacts AbsRegex Lang Tokenise IndicText IndicFine Stages.
Import ListNotations.
Local Open Scope nat_scope.

(** Letters written with a superscript digit, which goes after the vowel sign. *)
Definition ta_super : str := "खगघछझठडढथदधफबभ"%u ++ [0x959; 0x95A; 0x95C; 0x95D]%N.
Definition ta_dot (c : N) : list entry :=
  Entry [c] (but all20 [5; 6]) 4 35 :: Entry [c; virama] all20 4 6 :: map (fun s => Entry [c; s] all20 4 5) signs.
Definition ta_cons : list nat := [4; 12; 50; 52; 58].

Definition tamil : fine := Fine
  ((ta_super, 13) :: own_common) coarse_common 20 61
  (vowels_common
   ++ flat_map ta_dot ta_super
   ++ [Entry "स्री"%u all20 4 5; Entry_no "स्र"%u all20 4 50 ["ी"%u; "ु"%u; "ू"%u]; Entry_no "स"%u all20 4 52 ["्र"%u];
       Entry "स्रु"%u all20 4 5; Entry "स्रू"%u all20 4 5;
       Entry_no "र"%u all20 55 58 ["ु"%u; "ू"%u]; Entry_no "ल"%u all20 56 58 ["ु"%u; "ू"%u];
       Entry "ु"%u all20 57 5; Entry "ू"%u all20 57 5; Entry "रु"%u all20 60 5; Entry "रू"%u all20 60 5;
       Entry "लु"%u all20 59 5; Entry "लू"%u all20 59 5; Entry "ी"%u all20 51 5; Entry_no [virama] all20 53 54 ["र"%u]]
   ++ map (fun c => Entry [c] all20 4 4) (minus consonants (ta_super ++ "सरल"%u))
   ++ [Entry [rra] all20 4 12; Entry [virama] all20 6 6]
   ++ map (fun c => Entry [c] all20 5 5) (minus signs "ीुू"%u)
   ++ rest_common)
  (fun a b => match b with
    | 5 => memb a ta_cons
    | 57 => memb a [4; 12; 52]
    | 51 => memb a [4; 12; 52; 58]
    | 6 => memb a [4; 50; 58]
    | 53 => memb a [52]
    | 55 | 60 => negb (memb a [54])
    | 7 => memb a ([2; 42; 5; 35] ++ ta_cons)
    | 8 => memb a ([2; 42; 3; 5; 35] ++ ta_cons)
    | 10 => negb (memb a [10])
    | 2 | 3 => negb (memb a [6; 54])
    | 31 => negb (memb a [41; 6; 54])
    | 27 => negb (memb a [39])
    | 28 => negb (memb a [40])
    | 30 => negb (memb a [42])
    | _ => true
    end)
  (lost_common ++ ["स्री"%u]).

Lemma tamil_checked : undone tamil "Tamil"%u (letters (f_bad tamil) "Tamil"%u) = true.
Proof. vm_cast_no_check (eq_refl true). Qed.
