(** * Token table for Sinhala (C01). *)
From Coq Require Import List NArith ZArith Bool Lia Arith.
From Verif Require Import PyStr StrFacts AbsRegex Lang Tokenise IndicText IndicFine Stages.
Import ListNotations.
Local Open Scope nat_scope.

(** Letters written with a dot, which goes after the vowel sign. *)
Definition si_dotted : str := "ऴ"%u ++ [0x929; 0x958; 0x959; 0x95A; 0x95B; 0x95C; 0x95D; 0x95F]%N.
(** Letters joined after र्. *)
Definition si_ry : str := "रय"%u ++ [rra; 0x95F%N].
Definition si_l (c : N) : list nat :=
  if memN c si_ry then [20; 21] else if N.eqb c (ch "ष"%u) then [22] else if N.eqb c (ch "ञ"%u) then [23] else [4].
Definition si_r (c : N) : nat :=
  if N.eqb c (ch "क"%u) then 32 else if N.eqb c (ch "ज"%u) then 33 else if N.eqb c (ch "र"%u) then 34 else 4.
Definition si_no (c : N) : list str :=
  if N.eqb c (ch "क"%u) then ["्ष"%u] else if N.eqb c (ch "ज"%u) then ["्ञ"%u]
  else if N.eqb c (ch "र"%u) then map (fun d => [virama; d]) si_ry else [].
Definition many (s : str) (la ls : list nat) (r : nat) (no : list str) : list entry :=
  map (fun l => Entry_no s la l r no) ls.
(** The tokens of a dotted letter after the letters [p]. *)
Definition si_dot (p : str) (ls : list nat) (c : N) : list entry :=
  (if N.eqb c rra then many (p ++ [c]) (but all20 [5]) ls 43 []
   else many (p ++ [c]) (but all20 [5; 6]) ls 35 [] ++ many (p ++ [c; virama]) all20 ls 6 [])
  ++ flat_map (fun s => many (p ++ [c; s]) all20 ls 5 []) signs.
Definition si_vir : list nat := [6; 36; 37; 38].
Definition si_syl : list nat := [5; 4; 32; 33; 34; 35; 43; 45].

(** Two र and what follows them, after the letters [p]; in a row of them the joiner
    stays between the pairs. *)
Definition si_run (p : str) (ls : list nat) : list entry :=
  many (p ++ "र्य"%u) all20 ls 4 []
  ++ many (p ++ "र्र्य"%u) all20 ls 4 []
  ++ si_dot (p ++ "र्र्"%u) ls 0x95F%N
  ++ many (p ++ "र्र"%u) all20 ls 45 (map (fun d => virama :: d) ["य"%u; [0x95F%N]])
  ++ flat_map (si_dot (p ++ "र्"%u) ls) [rra; 0x95F%N].

Definition sinhala : fine := Fine
  ((si_dotted, 13) :: own_common) coarse_common 20 46
  (vowels_common
   ++ [Entry "क्ष"%u all20 4 4; Entry "ज्ञ"%u all20 4 4]
   ++ si_run [] [20; 21] ++ si_run [virama] [45]
   ++ many "्र"%u all20 [45] 34 (si_no (ch "र"%u))
   ++ si_dot [virama] [45] rra
   ++ flat_map (fun c => si_dot [] (si_l c) c) (rra :: si_dotted)
   ++ flat_map (fun c => many [c] all20 (si_l c) (si_r c) (si_no c)) (minus consonants si_dotted)
   ++ [Entry [virama] all20 6 6; Entry_no [virama] all20 24 36 ["ष"%u]; Entry_no [virama] all20 25 37 ["ञ"%u];
       Entry_no [virama] all20 26 38 (map (fun d => [d]) si_ry)]
   ++ map (fun c => Entry [c] all20 5 5) signs
   ++ rest_common)
  (fun a b => match b with
    | 5 => memb a [4; 32; 33; 34; 45]
    | 6 => memb a [4]
    | 24 => memb a [32]
    | 25 => memb a [33]
    | 26 => memb a [34; 45]
    | 45 => memb a [45]
    | 7 => memb a ([2; 42] ++ si_syl)
    | 8 => memb a ([2; 42; 3] ++ si_syl)
    | 10 => negb (memb a [10])
    | 2 | 3 => negb (memb a si_vir)
    | 31 => negb (memb a (41 :: si_vir))
    | 20 => negb (memb a si_vir)
    | 21 => memb a [6; 36; 37]
    | 22 => negb (memb a [36])
    | 23 => negb (memb a [37])
    | 27 => negb (memb a [39])
    | 28 => negb (memb a [40])
    | 30 => negb (memb a [42])
    | _ => true
    end)
  lost_common.

Lemma sinhala_checked : undone sinhala "Sinhala"%u (letters (f_bad sinhala) "Sinhala"%u) = true.
Proof. vm_cast_no_check (eq_refl true). Qed.
