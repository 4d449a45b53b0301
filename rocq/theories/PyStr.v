(** * Python strings and lists, as far as the modelled code uses them.

    A Python [str] is a sequence of Unicode code points; the model is [list N].
    Every definition cites what it stands for: either a place in /repo or, for
    this file, the CPython built-in that /repo calls. *)
From Coq Require Import List NArith ZArith Bool Lia.
From Coq Require Import Strings.Byte.
Import ListNotations.
Open Scope N_scope.

(** CPython [str]: sequence of code points. *)
Definition str := list N.

(* ------------------------------------------------------------------ *)
(** ** Literals.  ["देव"%u] is parsed from UTF-8 into code points.       *)

Inductive lit := LNil | LCons (n : N) (l : lit).

Fixpoint lit_of (l : list N) : lit :=
  match l with [] => LNil | x :: t => LCons x (lit_of t) end.
Fixpoint of_lit (i : lit) : list N :=
  match i with LNil => [] | LCons x t => x :: of_lit t end.

Fixpoint utf8_decode (l : list byte) (need : nat) (acc : N) : option (list N) :=
  match l with
  | [] => match need with O => Some [] | _ => None end
  | b :: t =>
      let n := Byte.to_N b in
      match need with
      | S k =>
          if (n <? 128) || (192 <=? n) then None else
          let acc := N.lor (N.shiftl acc 6) (N.land n 63) in
          match k with
          | O => option_map (cons acc) (utf8_decode t O 0)
          | _ => utf8_decode t k acc
          end
      | O =>
          if n <? 128 then option_map (cons n) (utf8_decode t O 0)
          else if n <? 192 then None
          else if n <? 224 then utf8_decode t 1%nat (N.land n 31)
          else if n <? 240 then utf8_decode t 2%nat (N.land n 15)
          else utf8_decode t 3%nat (N.land n 7)
      end
  end.

Definition utf8_encode1 (n : N) : list byte :=
  let mk x := match Byte.of_N x with Some b => [b] | None => [] end in
  if n <? 128 then mk n
  else if n <? 2048 then mk (192 + N.shiftr n 6) ++ mk (128 + N.land n 63)
  else if n <? 65536 then
    mk (224 + N.shiftr n 12) ++ mk (128 + N.land (N.shiftr n 6) 63)
       ++ mk (128 + N.land n 63)
  else
    mk (240 + N.shiftr n 18) ++ mk (128 + N.land (N.shiftr n 12) 63)
       ++ mk (128 + N.land (N.shiftr n 6) 63) ++ mk (128 + N.land n 63).

Definition lit_parse (l : list byte) : option lit :=
  option_map lit_of (utf8_decode l 0 0).
Definition lit_print (i : lit) : option (list byte) :=
  Some (concat (map utf8_encode1 (of_lit i))).

Declare Scope u_scope.
Delimit Scope u_scope with u.
Local Set Warnings "-via-type-mismatch".
String Notation list lit_parse lit_print
  (via lit mapping [[nil] => LNil, [cons] => LCons]) : u_scope.
Bind Scope u_scope with str.

(* ------------------------------------------------------------------ *)
(** ** Exceptions as values *)

(** The Python exceptions the modelled code can raise.  [NoneResult] stands
    for "the function fell off its end and returned None". *)
Inductive exn :=
| IndexError | KeyError | AttributeError | TypeError | ValueError | NameError
| OverflowError | ReError | ModuleNotFound | NoneResult | External (what : str)
| UserException (what : str).

Inductive res (A : Type) := Ok (a : A) | Err (e : exn).
Arguments Ok {A}. Arguments Err {A}.

Definition rbind {A B} (r : res A) (f : A -> res B) : res B :=
  match r with Ok a => f a | Err e => Err e end.
Notation "'do' x <- e ; f" := (rbind e (fun x => f))
  (at level 200, x pattern, e at level 100, f at level 200).

Fixpoint mapR {A B} (f : A -> res B) (l : list A) : res (list B) :=
  match l with
  | [] => Ok []
  | x :: t => do y <- f x; do r <- mapR f t; Ok (y :: r)
  end.

(* ------------------------------------------------------------------ *)
(** ** str methods *)

(** CPython [str.__eq__]. *)
Fixpoint str_eqb (a b : str) : bool :=
  match a, b with
  | [], [] => true
  | x :: a', y :: b' => if x =? y then str_eqb a' b' else false
  | _, _ => false
  end.

(** CPython [s.startswith(x)]. *)
Fixpoint prefixb (x s : str) : bool :=
  match x, s with
  | [], _ => true
  | a :: x', b :: s' => if a =? b then prefixb x' s' else false
  | _ :: _, [] => false
  end.

(** CPython [x in s]. *)
Fixpoint contains (x s : str) : bool :=
  if prefixb x s then true
  else match s with [] => false | _ :: t => contains x t end.

(** CPython [s.replace(x, y)], x non-empty: leftmost non-overlapping
    occurrences.  [skip] counts the characters of the current occurrence that
    are still to be dropped (this makes the recursion structural). *)
Fixpoint replace_go (x y : str) (skip : nat) (s : str) : str :=
  match s with
  | [] => []
  | c :: t =>
      match skip with
      | S k => replace_go x y k t
      | O => if prefixb x s then y ++ replace_go x y (pred (length x)) t
             else c :: replace_go x y O t
      end
  end.

(** CPython [s.replace('', y)]: y before every character and at the end. *)
Fixpoint interleave (y s : str) : str :=
  match s with [] => y | c :: t => y ++ c :: interleave y t end.

(** CPython [s.replace(x, y)]. *)
Definition replace (x y s : str) : str :=
  match x with [] => interleave y s | _ => replace_go x y O s end.

(** CPython [sep.join(l)]. *)
Fixpoint join (sep : str) (l : list str) : str :=
  match l with
  | [] => []
  | [x] => x
  | x :: t => x ++ sep ++ join sep t
  end.

(** Iterating over a str yields one-character strings. *)
Definition chars (s : str) : list str := map (fun c => [c]) s.

(** CPython [s.split(sep)] for a non-empty separator. *)
Fixpoint split_go (sep : str) (skip : nat) (cur : str) (s : str) : list str :=
  match s with
  | [] => [rev cur]
  | c :: t =>
      match skip with
      | S k => split_go sep k cur t
      | O => if prefixb sep s then rev cur :: split_go sep (pred (length sep)) [] t
             else split_go sep O (c :: cur) t
      end
  end.
Definition split (sep s : str) : list str := split_go sep O [] s.

(** CPython [x in l] for a list of strings. *)
Definition mem (x : str) (l : list str) : bool := existsb (str_eqb x) l.

(** CPython [s * n] and [l * n]. *)
Fixpoint repeat_list {A} (l : list A) (n : nat) : list A :=
  match n with O => [] | S k => l ++ repeat_list l k end.

(* ------------------------------------------------------------------ *)
(** ** Indexing and slicing (lists and strings), with negative indices *)

(** CPython [l[i]]. *)
Definition idx {A} (l : list A) (i : Z) : res A :=
  let n := Z.of_nat (length l) in
  let j := (if i <? 0 then n + i else i)%Z in
  if (j <? 0)%Z then Err IndexError
  else match nth_error l (Z.to_nat j) with Some a => Ok a | None => Err IndexError end.

(** CPython [s[i]] on a str: a one-character str. *)
Definition sidx (s : str) (i : Z) : res str := do c <- idx s i; Ok [c].

Definition clampi (n i : Z) : Z :=
  let j := (if i <? 0 then n + i else i)%Z in Z.max 0 (Z.min n j).

(** CPython [l[a:b]]; [None] is an omitted bound. *)
Definition slice {A} (l : list A) (a b : option Z) : list A :=
  let n := Z.of_nat (length l) in
  let lo := match a with Some i => clampi n i | None => 0%Z end in
  let hi := match b with Some i => clampi n i | None => n end in
  firstn (Z.to_nat (hi - lo)) (skipn (Z.to_nat lo) l).

(** CPython [l[a::2]]-style extended slice, positive step. *)
Fixpoint every {A} (step : nat) (k : nat) (l : list A) : list A :=
  match l with
  | [] => []
  | x :: t => match k with O => x :: every step (pred step) t | S k' => every step k' t end
  end.
Definition slice_step {A} (l : list A) (a b : option Z) (step : nat) : list A :=
  every step O (slice l a b).

(** CPython [zip(a, b)]. *)
Fixpoint zip {A B} (a : list A) (b : list B) : list (A * B) :=
  match a, b with x :: a', y :: b' => (x, y) :: zip a' b' | _, _ => [] end.

(** CPython [range(a, b)]. *)
Definition range (a b : Z) : list Z :=
  map (fun k => (a + Z.of_nat k)%Z) (seq 0 (Z.to_nat (b - a))).

(** CPython [enumerate(l)]. *)
Definition enumerate {A} (l : list A) : list (Z * A) :=
  zip (map Z.of_nat (seq 0 (length l))) l.

(* ------------------------------------------------------------------ *)
(** ** Stable sorting *)

(** Insertion that keeps equal elements in order: CPython's sort is stable.
    [lt a b] is the "strictly less" test Python's sort uses. *)
Fixpoint insert {A} (lt : A -> A -> bool) (x : A) (l : list A) : list A :=
  match l with
  | [] => [x]
  | y :: t => if lt y x then y :: insert lt x t else x :: l
  end.
Fixpoint ssort {A} (lt : A -> A -> bool) (l : list A) : list A :=
  match l with [] => [] | x :: t => insert lt x (ssort lt t) end.

(** CPython [sorted(l, key=len, reverse=True)] on strings: stable, longest first. *)
Definition longer (a b : str) : bool := Nat.ltb (length b) (length a).
Definition sort_len_desc (l : list str) : list str := ssort longer l.

(** Code-point order of CPython's [str.__lt__]. *)
Fixpoint str_ltb (a b : str) : bool :=
  match a, b with
  | _, [] => false
  | [], _ :: _ => true
  | x :: a', y :: b' => if x =? y then str_ltb a' b' else x <? y
  end.
Definition sort_str (l : list str) : list str := ssort str_ltb l.

(** Order of CPython tuples of two strings. *)
Definition pair_ltb (a b : str * str) : bool :=
  if str_eqb (fst a) (fst b) then str_ltb (snd a) (snd b) else str_ltb (fst a) (fst b).

(** CPython [l.sort(reverse=True)]: stable with respect to equal elements. *)
Definition sort_pairs_rev (l : list (str * str)) : list (str * str) :=
  ssort (fun a b => pair_ltb b a) l.
