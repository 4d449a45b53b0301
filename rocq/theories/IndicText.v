(** * The Devanagari texts of the theorems.

    The alphabet: Devanagari letters, signs, digits and dandas, the ASCII
    letters and most ASCII punctuation; everything outside [ranges] is a foreign
    character and may occur anywhere.  [dev_text] is the well-formedness the
    theorems ask for.  Specification only; no code of /repo is modelled here. *)
From Coq Require Import List NArith ZArith Bool Lia Arith.
From Verif Require Import PyStr StrFacts AbsRegex Lang Tokenise.
Import ListNotations.
Local Open Scope nat_scope.

(** The code points the conversion programs talk about; all others are foreign
    characters: white space, CJK, Greek, emoji, ... *)
Definition ranges : list (N * N) :=
  [(0x21,0x7E); (0xA1,0x36F); (0x400,0x52F); (0x590,0x7FF); (0x900,0x109F); (0x1900,0x1AFF); (0x1B00,0x1CFF);
   (0x1E00,0x1EFF); (0x200B,0x200D); (0x2070,0x209F); (0x2190,0x21FF); (0x2500,0x25FF); (0xA780,0xA78F); (0xA800,0xABFF);
   (0xE000,0xF8FF); (0x11000,0x11FFF); (0xF0000,0xFFFFF)]%N.

Definition vowels : str := "अआइईउऊऋॠऌॡएऐऔऎऍऑ"%u.
Definition vowels_o : str := "ओऒ"%u.
(** Consonants; the last nine are the precomposed letters with nukta. *)
Definition consonants : str :=
  ("कखगघङचछजझञटठडढणतथदधनपफबभमयरलवशषसहळऴ"%u
   ++ [0x929; 0x958; 0x959; 0x95A; 0x95B; 0x95C; 0x95D; 0x95E; 0x95F]%N)%list.
Definition rra : N := 0x931%N.
Definition signs : str := "ािीुूृॄॢॣेैोौॆॊॅॉ"%u.
Definition virama : N := 0x94D%N.
Definition nasals : str := "ंँ"%u.
Definition visarga : N := 0x903%N.
Definition dandas : str := "।॥"%u.
Definition others : str :=
  "ऽ०१२३४५६७८९,!?;:()-abcdefghijklmnopqrstuvwxyzABCDEFGHIJKLMNOPQRSTUVWXYZ@&%$*+/<=>[]{}~^`\'"%u.

(** Classes: 0 boundary of the text, 1 foreign character, 2 vowel, 3 ओ ऒ,
    4 consonant, 5 vowel sign, 6 virama, 7 anusvara and candrabindu, 8 visarga,
    9 others, 10 danda, 12 ऱ (11 is not used). *)
Definition letter_class : list (N * nat) :=
  map (fun c => (c, 2)) vowels ++ map (fun c => (c, 3)) vowels_o ++ map (fun c => (c, 4)) consonants
  ++ [(rra, 12)] ++ map (fun c => (c, 5)) signs ++ [(virama, 6)] ++ map (fun c => (c, 7)) nasals
  ++ [(visarga, 8)] ++ map (fun c => (c, 9)) others ++ map (fun c => (c, 10)) dandas.

(** Which class may follow which. *)
Definition adjacent (a b : nat) : bool :=
  match b with
  | 5 => memb a [4; 12]                (* vowel signs follow a consonant *)
  | 6 => memb a [4]                    (* so does the virama; not after ऱ *)
  | 7 => memb a [2; 4; 5; 12]          (* nasal signs follow a syllable; not ओ *)
  | 8 => memb a [2; 3; 4; 5; 12]       (* visarga follows a syllable *)
  | 10 => negb (Nat.eqb a 10)          (* no two dandas side by side *)
  | 2 | 3 => negb (Nat.eqb a 6)        (* no vowel letter after a virama *)
  | _ => true
  end.

Definition dev_text (s : str) : bool := wf_text ranges letter_class adjacent 0 s.

(** Some of the letters are lossy for some scripts. *)
Definition without (bad : str) (s : str) : bool := forallb (fun c => negb (memN c bad)) s.

(** The tokens: single letters, and virama with the following consonant. *)
Definition all_classes : list nat := seq 0 13.
Definition entries : list entry :=
  map (fun c => Entry [c] all_classes 2 2) vowels
  ++ map (fun c => Entry [c] all_classes 3 3) vowels_o
  ++ map (fun c => Entry [c] all_classes 4 4) consonants
  ++ map (fun c => Entry [virama; c] all_classes 6 4) consonants
  ++ [Entry [rra] all_classes 4 12; Entry [virama; rra] all_classes 6 12]
  ++ map (fun c => Entry [c] all_classes 5 5) signs
  ++ [Entry [virama] [0; 1; 9; 10] 6 6]
  ++ map (fun c => Entry [c] all_classes 7 7) nasals
  ++ [Entry [visarga] all_classes 8 8]
  ++ map (fun c => Entry [c] all_classes 9 9) others
  ++ map (fun c => Entry [c] all_classes 10 10) dandas.

(** Which token may follow which (by right and left class). *)
Definition follows (a b : nat) : bool :=
  match b with
  | 5 => memb a [4; 12]
  | 6 => memb a [4]
  | 7 => memb a [2; 4; 5; 12]
  | 8 => memb a [2; 3; 4; 5; 12]
  | 10 => negb (Nat.eqb a 10)
  | 2 | 3 | 4 => negb (Nat.eqb a 6)
  | _ => true
  end.

Definition toks : str -> list item := tokens ranges letter_class entries follows.

Lemma entries_check : check ranges letter_class adjacent 13 entries follows = true.
Proof. vm_compute. reflexivity. Qed.

(** Tables with the tokens that contain a letter of [bad] switched off. *)
Definition table (bad : str) : list str := spell' entries (map (fun c => [c]) bad) 11.
Definition classes (bad : str) : list (nat * nat) := cls' entries (map (fun c => [c]) bad) 11.
Definition okx : nat -> nat -> bool := ok' follows 11.

Lemma dev_tokens : forall bad s, dev_text s = true -> without bad s = true ->
  render (table bad) (toks s) = s /\ valid ranges (classes bad) okx 0 (toks s) = true.
Proof.
  intros bad s Hd Hw. apply tokens_ok' with (P := adjacent) (NC := 13).
  - exact entries_check.
  - vm_compute. reflexivity.
  - exact Hd.
  - unfold avoids. rewrite forallb_forall. intros x Hx. apply in_map_iff in Hx as (c & <- & Hc).
    apply negb_true_iff. apply contains_char with (c := c); [now left|].
    intros Hin. unfold without in Hw. rewrite forallb_forall in Hw. specialize (Hw c Hin).
    apply negb_true_iff in Hw. apply memN_In in Hc. congruence.
Qed.
