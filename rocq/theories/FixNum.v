(** * Hand-written parts of ConvertFix.py and PostProcess.py: numerals, and the
    few helpers that do not fit the translator. *)
From Coq Require Import List NArith ZArith Bool.
From Verif Require Import PyStr UnicodeTables Regex Unicode Prog.
Import ListNotations.
Open Scope Z_scope.

(* ------------------------------------------------------------------ *)
(** ** int(text), str(number), re.findall("\d+", text) *)

(** Value of a decimal digit character: the runs of [digit_ranges] consist of
    consecutive blocks of ten. *)
Fixpoint decimal_value (l : list (N * N)) (c : N) : Z :=
  match l with
  | [] => 0
  | (a, b) :: t => if (c <? a)%N then 0
                   else if (c <=? b)%N then Z.of_N (c - a) mod 10
                   else decimal_value t c
  end.

(** CPython [int(s)] for a string of decimal digits; more than 4300 digits is
    a ValueError (sys.int_max_str_digits). *)
Definition int_of_digits (s : str) : res Z :=
  if (4300 <? Z.of_nat (length s)) then Err ValueError
  else Ok (fold_left (fun a c => 10 * a + decimal_value digit_ranges c) s 0).

Fixpoint digits_go (fuel : nat) (n : Z) (acc : str) : str :=
  match fuel with
  | O => acc
  | S f => let acc := (48 + Z.to_N (n mod 10))%N :: acc in
           if n <? 10 then acc else digits_go f (n / 10) acc
  end.
(** CPython [str(n)] for n >= 0. *)
Definition str_of_Z (n : Z) : str := digits_go (S (Z.to_nat (Z.log2 n))) n [].

Definition desc_ltb (a b : Z) : bool := b <? a.

(** aksharamukha/ConvertFix.py:2261 and 2284:
    sorted(map(int, re.findall("\d+", Strng)), reverse=True) *)
Definition re_numbers (s : str) : res (list Z) :=
  match compile "\d+"%u with
  | None => Err ReError
  | Some (r, _) =>
      do ns <- mapR int_of_digits (findall_go r [] O s);
      Ok (ssort desc_ltb ns)
  end.

(* ------------------------------------------------------------------ *)
(** ** Kharoshthi numerals *)

(** aksharamukha/ConvertFix.py:2339-2357: the digit part 0..9. *)
Definition khar_ones (n : Z) : str :=
  let one := [0x10A40%N] in let two := [0x10A41%N] in
  let three := [0x10A42%N] in let four := [0x10A43%N] in
  if n =? 1 then one else if n =? 2 then two else if n =? 3 then three
  else if n =? 4 then four else if n =? 5 then four ++ one
  else if n =? 6 then four ++ two else if n =? 7 then four ++ three
  else if n =? 8 then four ++ four else if n =? 9 then four ++ four ++ one
  else [].

(** aksharamukha/ConvertFix.py:2311-2359 kharoshthiNumber on a number.  Python
    computes int(num/1000) in floating point, which is the exact quotient for
    num < 2^53; see [kharoshthiNumber].  [fuel] bounds the recursion on the
    number of thousands and hundreds. *)
Fixpoint khar_go (fuel : nat) (num : Z) : str :=
  match fuel with
  | O => []
  | S f =>
      let thou := num / 1000 in
      let hund := (num - thou * 1000) / 100 in
      let twen := (num - thou * 1000 - hund * 100) / 20 in
      let tenn := (num - thou * 1000 - hund * 100 - twen * 20) / 10 in
      let ones := num - thou * 1000 - hund * 100 - twen * 20 - tenn * 10 in
      (if 0 <? thou then (if 1 <? thou then khar_go f thou else []) ++ [0x10A47%N] else [])
      ++ (if 0 <? hund then (if 1 <? hund then khar_go f hund else []) ++ [0x10A46%N] else [])
      ++ (if 0 <? twen then repeat 0x10A45%N (Z.to_nat twen) else [])
      ++ (if 0 <? tenn then (if 1 <? tenn then khar_go f tenn else []) ++ [0x10A44%N] else [])
      ++ (if 0 <? ones then khar_ones ones else [])
  end.

(** Numbers of 2^53 and more go through inexact floats in Python: not modelled,
    except that num/1000 raises OverflowError when it is beyond the floats. *)
Definition kharoshthiNumber (num : Z) : res str :=
  if num <? 2 ^ 53 then Ok (khar_go 20 num)
  else if 1000 * 2 ^ 1024 <=? num then Err OverflowError else Err (External "float"%u).

(* ------------------------------------------------------------------ *)
(** ** Old Persian numerals *)

(** aksharamukha/ConvertFix.py:2264-2271, one number (same remark on floats);
    Hundred*hN raises OverflowError when hN is not below 2^63. *)
Definition oldPersianNumber (num : Z) : res str :=
  if num <? 2 ^ 53 then
    let hN := num / 100 in
    let tW := (num - hN * 100) / 20 in
    let tN := (num - hN * 100 - tW * 20) / 10 in
    let t2 := (num - hN * 100 - tW * 20 - tN * 10) / 2 in
    let n1 := num - hN * 100 - tW * 20 - tN * 10 - t2 * 2 in
    Ok (repeat 0x103D5%N (Z.to_nat hN) ++ repeat 0x103D4%N (Z.to_nat tW)
        ++ repeat 0x103D3%N (Z.to_nat tN) ++ repeat 0x103D2%N (Z.to_nat t2)
        ++ repeat 0x103D1%N (Z.to_nat n1))
  else if 100 * 2 ^ 63 <=? num then Err OverflowError
  else Err (External "float"%u).

(* ------------------------------------------------------------------ *)
(** ** Other helpers *)

(** aksharamukha/PostProcess.py:2434: functools.reduce(lambda s, m:
    s.replace(m, f(m)), re.findall(pat, Strng), Strng), pat without groups. *)
Definition reduce_findall (pat : str) (f : str -> res str) (s : str) : res str :=
  match compile pat with
  | None => Err ReError
  | Some (r, _) =>
      fold_left (fun acc m => do s <- acc; do y <- f m; Ok (replace m y s))
                (findall_go r [] O s) (Ok s)
  end.

(** aksharamukha/PostProcess.py:543 the pattern of removeSegmentSpacesBurmese,
    a letter with its marks, a space, a letter, written with explicit category ranges (the third-
    party [regex] module is taken to agree with [re] on it). *)
Definition ranges_set (l : list (N * N)) : re := RSet false (map (fun '(a, b) => CRange a b) l).
Definition burmese_space_re : re :=
  RSeq (RSeq (RGroup 1 (RSeq (ranges_set letter_ranges) (RRep true O None (ranges_set mark_ranges))))
             (RChar 32%N))
       (RGroup 2 (ranges_set letter_ranges)).
