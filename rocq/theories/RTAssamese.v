(** * Token table for Assamese (C01). *)
From Coq Require Import List NArith ZArith Bool Lia Arith.
From Verif Require Import PyStr StrFacts AbsRegex Lang Tokenise IndicText IndicFine Stages.
Import ListNotations.
Local Open Scope nat_scope.

(** त् is written with a letter of its own (ৎ) except before these. *)
Definition as_after_t : str := "थनलमयरवबळ"%u ++ [0x929; 0x95F]%N.
Definition as_all : list nat := seq 0 15.

Definition assamese : fine := Fine
  [("त"%u, 13); (as_after_t, 14)]
  (fun k => match k with 13 | 14 => 4 | _ => k end)
  15 17
  (map (fun c => Entry [c] as_all 2 2) vowels
   ++ map (fun c => Entry [c] as_all 3 3) vowels_o
   ++ [Entry "त"%u (but as_all [6]) 14 16; Entry "त्"%u [0; 1; 9; 10; 4] 14 15; Entry "त्त"%u as_all 14 4;
       Entry ("त्"%u ++ [rra]) as_all 14 12]
   ++ map (fun c => Entry ("त्"%u ++ [c]) as_all 14 4) as_after_t
   ++ map (fun c => Entry [c] as_all (if memN c as_after_t then 14 else 4) 4) (minus consonants "त"%u)
   ++ map (fun c => Entry [virama; c] as_all 6 4) consonants
   ++ [Entry [rra] as_all 14 12; Entry [virama; rra] as_all 6 12]
   ++ map (fun c => Entry [c] as_all 5 5) signs
   ++ [Entry [virama] [0; 1; 9; 10] 6 6]
   ++ map (fun c => Entry [c] as_all 7 7) nasals
   ++ [Entry [visarga] as_all 8 8]
   ++ map (fun c => Entry [c] as_all 9 9) others
   ++ map (fun c => Entry [c] as_all 10 10) dandas)
  (fun a b => match b with
    | 5 => memb a [4; 12; 16]
    | 6 => memb a [4]
    | 7 => memb a [2; 4; 5; 12; 16]
    | 8 => memb a [2; 3; 4; 5; 12; 16]
    | 10 => negb (memb a [10])
    | 2 | 3 | 14 => negb (memb a [6; 15])
    | 4 => negb (memb a [6])
    | _ => true
    end)
  [].

Lemma assamese_checked : undone assamese "Assamese"%u (letters (f_bad assamese) "Assamese"%u) = true.
Proof. vm_cast_no_check (eq_refl true). Qed.
