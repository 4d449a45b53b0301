(** * The Devanagari texts of the theorems about Roman schemes.

    The alphabet: the letters of Sanskrit, signs, digits, dandas, avagraha and
    some ASCII punctuation; everything outside [rranges] is a foreign character
    and may occur anywhere.  [roman_text] is the well-formedness the theorems ask
    for.  Specification only; no code of /repo is modelled here. *)
From Coq Require Import List NArith ZArith Bool Lia Arith.
From Verif Require Import PyStr StrFacts AbsRegex Lang Tokenise.
Import ListNotations.
Local Open Scope nat_scope.

(** The code points the conversion programs talk about; all others are foreign
    characters: white space, CJK, Arabic presentation forms, emoji, ... *)
Definition rranges : list (N * N) :=
  [(0x21,0x7E); (0xA1,0x11FF); (0x135D,0x135F); (0x13A0,0x13FF); (0x1700,0x1CFF); (0x1DC0,0x200D); (0x2018,0x2019);
   (0x2070,0x25FF); (0x2ADC,0x2ADC); (0x2C00,0x2DFF); (0x302A,0x30FF); (0xA640,0xD7FF); (0xE000,0xFB4F);
   (0xFE20,0xFE2F); (0xFF21,0xFF3A); (0x101FD,0x11FFF); (0x16AF0,0x16FF1);
   (0x1BC9E,0x1BC9E); (0x1D15E,0x1D244); (0x1E000,0x1E94A); (0x2F800,0x2FA1D); (0xF0000,0xFFFFF)]%N.

Definition short_a : N := 0x905%N.
Definition i_u : str := "इउ"%u.
Definition ii_uu : str := "ईऊ"%u.
Definition other_vowels : str := "आऋॠऌॡएऐऔ"%u.
Definition ha : N := 0x939%N.
Definition rconsonants : str := "कखगघङचछजझञटठडढणतथदधनपफबभमयरलवशषसळ"%u.
Definition rsigns : str := "ािीुूृॄॢॣेैोौ"%u.
Definition rvirama : N := 0x94D%N.
Definition ayogavaha : str := "ंँः"%u.
Definition rdigits : str := "०१२३४५६७८९"%u.
Definition rdandas : str := "।॥"%u.
Definition avagraha : str := "ऽ"%u.
Definition rothers : str := ",!?;-/=+@%<>"%u.

(** Letter classes: 0 boundary, 1 foreign, 2 अ, 3 इउ, 4 other vowels, 5 consonants,
    6 ह, 7 signs, 8 virama, 9 ंँः, 10 digits, 11 dandas, 12 avagraha, 13 others,
    14 ओ, 15 ईऊ, 16 ल, 17 ृॄ, 18 ळ, 19 ॢॣ, 20 ष, 21 न,
    22 (, 23 ), 24 म, 25 २, 26 ३, 27 य, 28 गतथदधरस, 29 चछडढण. *)
Definition rclass_of_consonant (c : N) : nat :=
  if N.eqb c 0x932 then 16 else if N.eqb c 0x933 then 18 else if N.eqb c 0x937 then 20 else if N.eqb c 0x928 then 21
  else if N.eqb c 0x92E then 24 else if N.eqb c 0x92F then 27
  else if memN c "गतथदधरस"%u then 28 else if memN c "चछडढण"%u then 29 else 5.
Definition rclass_of_sign (c : N) : nat :=
  if memN c [0x943; 0x944]%N then 17 else if memN c [0x962; 0x963]%N then 19 else 7.
Definition rclass_of_digit (c : N) : nat :=
  if N.eqb c 0x968 then 25 else if N.eqb c 0x969 then 26 else 10.
Definition rletter_class : list (N * nat) :=
  [(short_a, 2)] ++ map (fun c => (c, 3)) i_u ++ map (fun c => (c, 15)) ii_uu ++ map (fun c => (c, 4)) other_vowels
  ++ map (fun c => (c, rclass_of_consonant c)) rconsonants ++ [(ha, 6)] ++ map (fun c => (c, rclass_of_sign c)) rsigns
  ++ [(rvirama, 8)] ++ map (fun c => (c, 9)) ayogavaha ++ map (fun c => (c, rclass_of_digit c)) rdigits
  ++ map (fun c => (c, 11)) rdandas ++ [(0x913%N, 14)] ++ map (fun c => (c, 12)) avagraha ++ map (fun c => (c, 13)) rothers ++ [(0x28%N, 22); (0x29%N, 23)].

(** Which letters may follow which.  Vowel letters stand at the beginning, after a
    foreign character, ं ँ ः, a digit or punctuation; इ ई उ ऊ also after अ and after
    a consonant (with its inherent a).  [x] lists extra prohibitions: 1: no ई or ऊ
    after अ or a consonant; 2: no ृ or ॄ after ल; 3: none of
    हगतथदधनमयरलस after a danda; 4: none of हचछडढणनम after a danda. *)
Definition rcons : list nat := [5; 6; 16; 18; 20; 21; 24; 27; 28; 29].
Definition radjacent (x : list nat) (a b : nat) : bool :=
  match b with
  | 2 | 4 | 14 => memb a [0; 1; 9; 10; 25; 26; 13; 22; 23]
  | 3 => memb a [0; 1; 2; 5; 6; 9; 10; 25; 26; 13; 22; 23; 16; 18; 20; 21; 24; 27; 28; 29]
  | 15 => if memb 1 x then memb a [0; 1; 9; 10; 25; 26; 13; 22; 23] else memb a [0; 1; 2; 5; 6; 9; 10; 25; 26; 13; 22; 23; 16; 18; 20; 21; 24; 27; 28; 29]
  | 6 | 21 | 24 => negb ((memb 3 x <|> memb 4 x) <&> Nat.eqb a 11)
  | 16 | 27 | 28 => negb (memb 3 x <&> Nat.eqb a 11)
  | 29 => negb (memb 4 x <&> Nat.eqb a 11)
  | 7 | 8 | 19 => memb a rcons
  | 17 => if memb 2 x then memb a [5; 6; 18; 20; 21; 24; 27; 28; 29] else memb a rcons
  | 9 => memb a ([2; 3; 4; 7; 15; 17; 19] ++ rcons)
  | 11 => negb (Nat.eqb a 11)
  | 23 => negb (Nat.eqb a 22)
  | _ => true
  end.

Definition roman_text (x : list nat) (s : str) : bool := wf_text rranges rletter_class (radjacent x) 0 s.

Definition ac : list nat := seq 0 30.
Definition sign : list nat := [7; 17; 19].
Definition but (l : list nat) : list nat := filter (fun k => negb (memb k l)) ac.
Definition not_sign : list nat := but [7; 8; 17; 19].
(** The consonants and three clusters, with the classes that do not follow their
    virama because a longer token begins so. *)
Definition before_digit (c : str) : list nat :=
  if mem c ["ग"%u; "न"%u; "श"%u; "द्न"%u] then [25] else if str_eqb c [0x930]%N then [25; 26] else [].
Definition units : list (str * list nat) :=
  map (fun c => ([c], (if N.eqb c 0x915 then [6; 20] else if N.eqb c 0x926 then [6; 21]
                       else if N.eqb c 0x933 then [6; 18] else [6]) ++ before_digit [c])) rconsonants
  ++ [("क्ष"%u, [6]); ("द्न"%u, 6 :: 27 :: before_digit "द्न"%u); ("द्न्य"%u, [6]); ("ळ्ळ"%u, [6])].
(** Token classes, left: as the letters, except that इ उ (ई ऊ) are 16 (42) after an
    inherent a and 18 (43) after अ, र ल ळ म are 36 37 38 39, ओ is 35 (50 before म), the signs
    21-33, २ ३ 55 56, ळ before ॢॣ 57,
    य 60, गतथदधस 61, चछ 62, डढण 63, टठ 64.  Right: 14 ends in inherent a, 17 अ, 15 bare consonant (40 bare ल, 41
    bare ळ, 58 before ॢॣ), 8 virama, 19 virama after ह, 44 46 52 53 54 59
    virama of द, क, ळ, of ग न श, of र, of द्न, 34 ओ (51 before म). *)
Definition rentries (x : list nat) : list entry :=
  [Entry [short_a] ac 2 17]
  ++ map (fun c => Entry [c] ac 3 4) (i_u ++ ii_uu)
  ++ map (fun c => Entry [c] ac 16 4) i_u ++ map (fun c => Entry [c] ac 18 4) i_u
  ++ (if memb 1 x then [] else map (fun c => Entry [c] ac 42 4) ii_uu ++ map (fun c => Entry [c] ac 43 4) ii_uu)
  ++ map (fun c => Entry [c] ac 4 4) other_vowels ++ [Entry [0x913%N] (but [24]) 35 34; Entry [0x913%N] [24] 50 51]
  ++ flat_map (fun p => let c := fst p in
                        let k := if str_eqb c [0x930]%N then 36 else if str_eqb c [0x932]%N then 37
                                 else if mem c [[0x933%N]; "ळ्ळ"%u] then 38 else if str_eqb c [0x92E]%N then 39
                                 else if str_eqb c [0x928]%N then 45 else if str_eqb c [0x937]%N then 47
                                 else if str_eqb c [0x92F]%N then 60
                                 else if mem c (["द्न"%u; "द्न्य"%u] ++ map (fun c => [c]) "गतथदधस"%u) then 61
                                 else if mem c (map (fun c => [c]) "चछ"%u) then 62
                                 else if mem c (map (fun c => [c]) "डढण"%u) then 63
                                 else if mem c (map (fun c => [c]) "टठ"%u) then 64 else 5 in
                        let v := if str_eqb c "द्न"%u then 59 else if str_eqb c [0x926]%N then 44 else if str_eqb c [0x915]%N then 46
                                 else if str_eqb c [0x933]%N then 52 else if memb 26 (snd p) then 54 else if memb 25 (snd p) then 53 else 8 in
                        let b := if str_eqb c [0x932]%N then 40 else if str_eqb c [0x933]%N then 41 else 15 in
                        (if memb 25 (snd p) then [Entry (c ++ [rvirama; 0x968%N]) ac k 10] else [])
                        ++ (if memb 26 (snd p) then [Entry (c ++ [rvirama; 0x969%N]) ac k 10] else [])
                        ++ [Entry c not_sign k 14; Entry c (if Nat.eqb b 41 then [7; 17] else sign) k b; Entry (c ++ [rvirama]) (but (snd p)) k v;
                         Entry (c ++ [rvirama; ha]) not_sign k 14; Entry (c ++ [rvirama; ha]) sign k 15;
                         Entry (c ++ [rvirama; ha; rvirama]) ac k 19]) units
  ++ [Entry [0x933%N] [19] 57 58]
  ++ [Entry [ha] not_sign 6 14; Entry [ha] sign 6 15; Entry [ha; rvirama] ac 6 19]
  ++ map (fun p => Entry [fst p] ac (snd p) 7) (combine rsigns (seq 21 13))
  ++ map (fun c => Entry [c] ac 9 9) ayogavaha
  ++ map (fun c => Entry [c] ac (if N.eqb c 0x968 then 55 else if N.eqb c 0x969 then 56 else 10) 10) rdigits
  ++ map (fun c => Entry [c] ac 11 11) rdandas
  ++ map (fun c => Entry [c] ac 12 12) avagraha
  ++ map (fun c => Entry [c] ac 13 13) rothers
  ++ [Entry [0x28%N] ac 13 48; Entry [0x29%N] ac 49 13].

Definition rfollows (x : list nat) (a b : nat) : bool :=
  match b with
  | 2 | 4 | 35 | 50 => memb a [0; 1; 9; 10; 13; 48]
  | 3 => memb a [0; 1; 9; 10; 13; 48]
  | 16 => memb a [14]
  | 18 => memb a [17]
  | 42 => if memb 1 x then false else memb a [14]
  | 43 => if memb 1 x then false else memb a [17]
  | 5 | 64 => negb (memb a [15; 40; 41; 58; 51])
  | 62 | 63 => negb (memb 4 x <&> Nat.eqb a 11) <&> negb (memb a [15; 40; 41; 58; 51])
  | 36 | 37 | 61 => negb (memb 3 x <&> Nat.eqb a 11) <&> negb (memb a [15; 40; 41; 58; 51])
  | 60 => negb (memb 3 x <&> Nat.eqb a 11) <&> negb (memb a [15; 40; 41; 58; 51; 59])
  | 38 | 57 => negb (memb a [15; 40; 41; 58; 51; 52])
  | 39 => negb ((memb 3 x <|> memb 4 x) <&> Nat.eqb a 11) <&> negb (memb a [15; 40; 41; 58; 34])
  | 45 => negb ((memb 3 x <|> memb 4 x) <&> Nat.eqb a 11) <&> negb (memb a [15; 40; 41; 58; 51; 44])
  | 47 => negb (memb a [15; 40; 41; 58; 51; 46])
  | 6 => negb ((memb 3 x <|> memb 4 x) <&> Nat.eqb a 11) <&> negb (memb a [15; 40; 41; 58; 51; 8; 44; 46; 52; 53; 54; 59])
  | 9 => memb a [4; 7; 14; 17]
  | 11 => negb (memb a [11; 15; 40; 41; 58; 51])
  | 49 => negb (memb a [15; 40; 41; 58; 48; 51])
  | 0 | 1 | 12 | 13 | 10 => negb (memb a [15; 40; 41; 58; 51])
  | 55 => negb (memb a [15; 40; 41; 58; 51; 53; 54; 59])
  | 56 => negb (memb a [15; 40; 41; 58; 51; 54])
  | 26 | 27 => if memb 2 x then memb a [15; 41] else memb a [15; 40; 41]
  | 28 | 29 => memb a [15; 40; 58]
  | 21 | 22 | 23 | 24 | 25 | 30 | 31 | 32 | 33 => memb a [15; 40; 41]
  | _ => false
  end.
Definition rk := 30.

(** The tokens of a text. *)
Definition rtoks (x : list nat) : str -> list item := tokens rranges rletter_class (rentries x) (rfollows x).

(** The combinations of prohibitions used by the theorems. *)
Definition prohibitions : list (list nat) := [[]; [1; 3]; [2]; [4]].

Lemma rentries_check :
  all (fun x => check rranges rletter_class (radjacent x) rk (rentries x) (rfollows x)) prohibitions = true.
Proof. vm_cast_no_check (eq_refl true). Qed.
Lemma rentries_check_Z : all (fun x => no_Z (rentries x) 20) prohibitions = true.
Proof. vm_cast_no_check (eq_refl true). Qed.

(** Tables with the tokens that contain a sequence of [bad] switched off. *)
Definition Z := 20.
Definition rtable (x : list nat) (bad : list str) : list str := spell' (rentries x) bad Z.
Definition rclasses (x : list nat) (bad : list str) : list (nat * nat) := cls' (rentries x) bad Z.
Definition rokx (x : list nat) : nat -> nat -> bool := ok' (rfollows x) Z.

Lemma roman_tokens : forall x bad s, In x prohibitions -> roman_text x s = true -> avoids bad s = true ->
  render (rtable x bad) (rtoks x s) = s /\ valid rranges (rclasses x bad) (rokx x) 0 (rtoks x s) = true.
Proof.
  intros x bad s Hx Hs Ha. pose proof rentries_check as H1. rewrite all_forall in H1.
  pose proof rentries_check_Z as H2. rewrite all_forall in H2.
  exact (tokens_ok' _ _ _ _ _ _ _ _ (H1 x Hx) (H2 x Hx) s Hs Ha).
Qed.
