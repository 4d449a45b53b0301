(** * Token table for Gurmukhi (C01). *)
From Coq Require Import List NArith ZArith Bool Lia Arith.
From Verif Require Import PyStr StrFacts AbsRegex Lang Tokenise IndicText IndicFine Stages.
Import ListNotations.
Local Open Scope nat_scope.

(** A doubled letter, and a stop before its aspirate, are written with the sign
    of gemination. *)
Definition pa_double : str := "कगचजटडतदपबङञणनमयरलवशसहळष"%u ++ [0x959; 0x95A; 0x95B; 0x95C; 0x95E]%N.
Definition pa_aspirates : list (N * N) :=
  combine "कगचजटडतदपब"%u "खघछझठढथधफभ"%u.
Definition pa_good : list (N * N) :=
  pa_aspirates ++ map (fun c => (c, c)) pa_double
  ++ [(ch "क"%u, 0x958%N); (ch "न"%u, 0x929%N); (ch "य"%u, 0x95F%N); (ch "ळ"%u, ch "ऴ"%u); (0x95C%N, 0x95D%N);
      (0x95D%N, ch "ह"%u); (ch "र"%u, rra)].
(** Pairs that are written like others. *)
Definition pa_lossy : list (N * N) :=
  [(0x958%N, 0x958%N); (0x929%N, 0x929%N); (0x95F%N, 0x95F%N); (ch "ऴ"%u, ch "ऴ"%u); (0x95D%N, 0x95D%N);
   (ch "श"%u, ch "ष"%u); (0x95C%N, ch "ह"%u)].

Fixpoint index (c : N) (l : str) : nat :=
  match l with [] => 0 | d :: l' => if N.eqb c d then 0 else S (index c l') end.
(** Second members of the pairs beginning with [c]. *)
Definition pa_after (c : N) : str := map snd (filter (fun p => N.eqb (fst p) c) (pa_good ++ pa_lossy)).
Definition pa_aspirate (c : N) : option N := option_map snd (find (fun p => N.eqb (fst p) c) pa_aspirates).

(** Classes: 60 + i the i-th consonant, 104 + i the same with virama, 148 + i the
    doubled i-th consonant with virama. *)
Definition pa_n : nat := 44.
Definition pa_l (c : N) : nat := if N.eqb c rra then 59 else 60 + index c consonants.
(** ड़ with virama, in a pair, and with a sign that is written with virama. *)
Definition pa_l1 (c : N) : nat := if N.eqb c 0x95C then 60 + 3 * pa_n else pa_l c.
Definition pa_l2 (c : N) : nat := if N.eqb c 0x95C then 61 + 3 * pa_n else pa_l c.
Definition pa_l3 (c : N) : nat := if N.eqb c 0x95C then 62 + 3 * pa_n else pa_l c.
Definition pa_ls (c : N) : list nat := [pa_l c; pa_l1 c; pa_l2 c; pa_l3 c].
Definition pa_v (c : N) : nat := match pa_after c with [] => 6 | _ => 60 + pa_n + index c consonants end.
Definition pa_rha (c d : N) : bool := N.eqb c 0x95C && (N.eqb d 0x95D || N.eqb d 0x95C).
Definition pa_third (c d : N) : option N :=
  match (if N.eqb c d then pa_aspirate c else None) with
  | Some x => Some x
  | None => if pa_rha c d then Some (ch "ह"%u) else None
  end.
Definition pa_v2 (c d : N) : nat :=
  match (if N.eqb c d then pa_aspirate c else None) with
  | Some _ => 60 + 2 * pa_n + index c consonants
  | None => if pa_rha c d then 58 else 6
  end.
Definition pa_no2 (c d : N) : list str := match pa_third c d with Some x => [[x]] | None => [] end.
Definition pa_rsigns : str := "ृॄ"%u.
Definition pa_lsigns : str := "ॢॣ"%u.

Definition pa_entries : list entry :=
  vowels_common
  ++ flat_map (fun p => [Entry [fst p; virama; snd p; virama] all20 (pa_l2 (fst p)) 6;
                         Entry [fst p; virama; snd p] (but all20 [6]) (pa_l2 (fst p)) 4]) pa_lossy
  ++ flat_map (fun p => match pa_third (fst p) (snd p) with
                        | Some x => [Entry [fst p; virama; snd p; virama; x; virama] all20 (pa_l2 (fst p)) 6;
                                     Entry [fst p; virama; snd p; virama; x] (but all20 [6]) (pa_l2 (fst p)) 4]
                        | None => []
                        end) pa_good
  ++ flat_map (fun p => if N.eqb (snd p) rra then [Entry [fst p; virama; snd p] all20 (pa_l2 (fst p)) 12]
                        else [Entry_no [fst p; virama; snd p; virama] all20 (pa_l2 (fst p)) (pa_v2 (fst p) (snd p))
                                       (pa_no2 (fst p) (snd p));
                              Entry [fst p; virama; snd p] (but all20 [6]) (pa_l2 (fst p)) 4]) pa_good
  ++ map (fun c => Entry_no [c; virama] all20 (pa_l1 c) (pa_v c) (map (fun d => [d]) (pa_after c))) consonants
  ++ map (fun s => Entry [ch "र"%u; s] all20 (pa_l (ch "र"%u)) 5) pa_rsigns
  ++ map (fun s => Entry [ch "ल"%u; s] all20 (pa_l (ch "ल"%u)) 5) pa_lsigns
  ++ map (fun s => Entry [0x95C%N; s] all20 (pa_l3 0x95C) 5) (pa_rsigns ++ pa_lsigns)
  ++ map (fun c => if N.eqb c 0x95C then Entry_no [c] (but all20 [6]) (pa_l c) 54 (map (fun s => [s]) (pa_rsigns ++ pa_lsigns))
                   else if N.eqb c (ch "र"%u) then Entry_no [c] (but all20 [6]) (pa_l c) 50 (map (fun s => [s]) pa_rsigns)
                   else if N.eqb c (ch "ल"%u) then Entry_no [c] (but all20 [6]) (pa_l c) 51 (map (fun s => [s]) pa_lsigns)
                   else Entry [c] (but all20 [6]) (pa_l c) 4) consonants
  ++ [Entry [rra] all20 (pa_l rra) 12]
  ++ map (fun c => Entry [c] all20 (if memN c pa_rsigns then 52 else if memN c pa_lsigns then 53 else 5) 5) signs
  ++ rest_common.

(** After a letter with virama. *)
Definition pa_vir (a : nat) : bool := Nat.eqb a 6 <|> Nat.eqb a 58 <|> (60 + pa_n <=? a).
(** Pairs of classes [pa_v c], [pa_l d] and so on that are tokens of their own. *)
Definition pa_pairs : list (list nat) :=
  map (fun c => flat_map pa_ls (pa_after c)) consonants
  ++ map (fun c => match pa_aspirate c with Some d => [pa_l d] | None => [] end) consonants.
Definition pa_syl : list nat := [4; 12; 50; 51; 54].

Definition pa_follows (pairs : list (list nat)) (a b : nat) : bool :=
  match b with
  | 5 => memb a pa_syl
  | 52 => memb a [4; 12; 51]
  | 53 => memb a [4; 12; 50]
  | 6 => false
  | 7 => memb a ([2; 42; 5] ++ pa_syl)
  | 8 => memb a ([2; 42; 3; 5] ++ pa_syl)
  | 10 => negb (memb a [10])
  | 2 | 3 => negb (pa_vir a)
  | 31 => negb (pa_vir a <|> memb a [41])
  | 27 => negb (memb a [39])
  | 28 => negb (memb a [40])
  | 30 => negb (memb a [42])
  | _ => if 59 <=? b then
           if 60 + pa_n <=? a then negb (memb b (nth (a - (60 + pa_n)) pairs []))
           else if Nat.eqb a 58 then negb (Nat.eqb b (pa_l (ch "ह"%u))) else true
         else true
  end.

Definition gurmukhi : fine := Fine own_common coarse_common 20 (63 + 3 * pa_n) pa_entries (pa_follows pa_pairs)
  (lost_common ++ map (fun p => [fst p; virama; snd p]) pa_lossy
   ++ map (fun p => [fst p; virama; fst p; virama; snd p]) pa_aspirates).

Lemma gurmukhi_checked : undone gurmukhi "Gurmukhi"%u (letters (f_bad gurmukhi) "Gurmukhi"%u) = true.
Proof. vm_cast_no_check (eq_refl true). Qed.
