(** * Token table for Telugu (C01): a digit after the Latin letter h is read as a
    superscript, nothing else depends on its neighbours. *)
From Coq Require Import List NArith ZArith Bool Lia Arith.
From Verif Require Import PyStr StrFacts AbsRegex Lang Tokenise IndicText IndicFine Stages.
Import ListNotations.
Local Open Scope nat_scope.

Definition telugu : fine := Fine
  own_common coarse_common 20 40
  (vowels_common
   ++ map (fun c => Entry [c] all20 4 4) consonants
   ++ [Entry [rra] all20 4 12; Entry [virama] all20 6 6]
   ++ map (fun c => Entry [c] all20 5 5) signs
   ++ map (fun c => Entry [c] all20 7 7) nasals
   ++ [Entry [visarga] all20 8 8]
   ++ map (fun d => Entry [ch "h"%u; d] all20 9 9) digits
   ++ [Entry "h"%u (but all20 [15]) 9 39]
   ++ map (fun d => Entry [d] all20 27 9) digits
   ++ map (fun c => Entry [c] all20 9 9) (minus others (digits ++ "h"%u))
   ++ map (fun c => Entry [c] all20 10 10) dandas)
  (fun a b => match b with
    | 5 => memb a [4; 12]
    | 6 => memb a [4]
    | 7 => memb a [2; 5; 4; 12]
    | 8 => memb a [2; 3; 5; 4; 12]
    | 10 => negb (memb a [10])
    | 2 | 3 | 31 => negb (memb a [6])
    | 27 => negb (memb a [39])
    | _ => true
    end)
  (map (fun d => [ch "h"%u; d]) digits).

Lemma telugu_checked : undone telugu "Telugu"%u (letters (f_bad telugu) "Telugu"%u) = true.
Proof. vm_cast_no_check (eq_refl true). Qed.
