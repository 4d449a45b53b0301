(** * Python's [re]: pattern parser, backtracking matcher, [re.sub].

    This models the part of CPython's [re]/[sre] that /repo calls: [re.sub]
    with a pattern string and a template string.  Semantics: leftmost match,
    alternatives in order, greedy/lazy repetition, capture groups, back
    references, look-ahead, fixed-width look-behind, [\A \Z ^ $ \b \B], and
    the empty-match rule of Python >= 3.7. *)
From Coq Require Import List NArith ZArith Bool.
From Verif Require Import PyStr UnicodeTables.
Import ListNotations.
Open Scope N_scope.

(* ------------------------------------------------------------------ *)
(** ** Syntax *)

Inductive cclass := CDigit | CSpace | CWord.

Inductive citem :=
| CRange (lo hi : N)
| CCls (c : cclass) (neg : bool).

Inductive re :=
| REps
| RChar (c : N)
| RAny
| RSet (neg : bool) (l : list citem)
| RSeq (a b : re)
| RAlt (a b : re)
| RGroup (n : nat) (r : re)
| RBack (n : nat)
| RRep (greedy : bool) (lo : nat) (hi : option nat) (r : re)
| RLook (ahead : bool) (neg : bool) (w : nat) (r : re)
| RBeg                      (* \A, and ^ without MULTILINE *)
| REndStr                   (* \Z *)
| REndLine                  (* $ without MULTILINE *)
| RWordB (neg : bool).

(* ------------------------------------------------------------------ *)
(** ** Character classes *)

(** Membership in a sorted list of disjoint ranges. *)
Fixpoint in_ranges (l : list (N * N)) (c : N) : bool :=
  match l with
  | [] => false
  | (a, b) :: t => if c <? a then false else if c <=? b then true else in_ranges t c
  end.

Definition is_space (c : N) : bool := in_ranges space_ranges c.
Definition is_digit (c : N) : bool := in_ranges digit_ranges c.
(** sre's UNICODE word test: [ch.isalnum() or ch == '_']. *)
Definition is_word (c : N) : bool := (c =? 95) || in_ranges alnum_ranges c.

Definition in_class (k : cclass) (c : N) : bool :=
  match k with CDigit => is_digit c | CSpace => is_space c | CWord => is_word c end.

Definition in_item (i : citem) (c : N) : bool :=
  match i with
  | CRange a b => (a <=? c) && (c <=? b)
  | CCls k n => xorb n (in_class k c)
  end.

Definition in_set (neg : bool) (l : list citem) (c : N) : bool :=
  xorb neg (existsb (fun i => in_item i c) l).

(* ------------------------------------------------------------------ *)
(** ** Matching *)

(** A position in the subject: what precedes it (nearest character first) and
    what follows, plus the texts captured so far (newest first). *)
Record st := St { bef : str; aft : str; caps : list (nat * str) }.

Fixpoint cap (n : nat) (l : list (nat * str)) : option str :=
  match l with
  | [] => None
  | (m, s) :: t => if Nat.eqb m n then Some s else cap n t
  end.

(** Move [s] one character forward. *)
Definition step1 (ok : N -> bool) (s : st) (k : st -> option st) : option st :=
  match aft s with
  | c :: t => if ok c then k (St (c :: bef s) t (caps s)) else None
  | [] => None
  end.

(** Match the literal text [x] (used for back references). *)
Fixpoint step_lit (x : str) (s : st) (k : st -> option st) : option st :=
  match x with
  | [] => k s
  | c :: x' => step1 (N.eqb c) s (fun s' => step_lit x' s' k)
  end.

(** The text between two positions of the same subject. *)
Definition consumed (s s' : st) : str := firstn (length (aft s) - length (aft s')) (aft s).

(** Step [w] characters back. *)
Fixpoint back (w : nat) (s : st) : option st :=
  match w with
  | O => Some s
  | S w' => match bef s with
            | c :: b => back w' (St b (c :: aft s) (caps s))
            | [] => None
            end
  end.

Definition wordb (s : st) : bool :=
  let p := match bef s with c :: _ => is_word c | [] => false end in
  let n := match aft s with c :: _ => is_word c | [] => false end in
  xorb p n.

(** sre's backtracking matcher: the first success in priority order that the
    continuation [k] accepts. *)
Fixpoint m (r : re) (s : st) (k : st -> option st) {struct r} : option st :=
  match r with
  | REps => k s
  | RChar c => step1 (N.eqb c) s k
  | RAny => step1 (fun c => negb (c =? 10)) s k
  | RSet neg l => step1 (in_set neg l) s k
  | RSeq a b => m a s (fun s' => m b s' k)
  | RAlt a b => match m a s k with Some x => Some x | None => m b s k end
  | RGroup n a => m a s (fun s' => k (St (bef s') (aft s') ((n, consumed s s') :: caps s')))
  | RBack n => match cap n (caps s) with Some x => step_lit x s k | None => None end
  | RRep greedy lo hi a =>
      (* [lo] mandatory iterations, then up to [hi - lo] optional ones; an
         optional iteration that consumes nothing is not taken. *)
      let fix opt (fuel : nat) (left : option nat) (s : st) {struct fuel} : option st :=
        let more := match left with Some O => false | _ => true end in
        match fuel with
        | O => k s
        | S fuel' =>
            let iter (_ : unit) :=
              if more then
                m a s (fun s' =>
                  if Nat.eqb (length (aft s')) (length (aft s)) then None
                  else opt fuel' (option_map pred left) s')
              else None in
            if greedy then
              match iter tt with Some x => Some x | None => k s end
            else
              match k s with Some x => Some x | None => iter tt end
        end in
      let fix mand (n : nat) (s : st) {struct n} : option st :=
        match n with
        | O => opt (S (length (aft s))) (option_map (fun h => (h - lo)%nat) hi) s
        | S n' => m a s (fun s' => mand n' s')
        end in
      mand lo s
  | RLook true neg _ a =>
      match m a s (fun s' => Some s') with
      | Some s' => if neg then None else k (St (bef s) (aft s) (caps s'))
      | None => if neg then k s else None
      end
  | RLook false neg w a =>
      match back w s with
      | None => if neg then k s else None
      | Some sb =>
          match m a sb (fun s' => if Nat.eqb (length (aft s')) (length (aft s))
                                  then Some s' else None) with
          | Some s' => if neg then None else k (St (bef s) (aft s) (caps s'))
          | None => if neg then k s else None
          end
      end
  | RBeg => match bef s with [] => k s | _ => None end
  | REndStr => match aft s with [] => k s | _ => None end
  | REndLine => match aft s with [] | [10] => k s | _ => None end
  | RWordB neg => if xorb neg (wordb s) then k s else None
  end.

(* ------------------------------------------------------------------ *)
(** ** Templates and substitution *)

Inductive titem := TLit (c : N) | TGroup (n : nat).

(** Expansion of a template: unmatched groups are empty (Python >= 3.5). *)
Definition expand (t : list titem) (l : list (nat * str)) : str :=
  flat_map (fun i => match i with
                     | TLit c => [c]
                     | TGroup n => match cap n l with Some s => s | None => [] end
                     end) t.

(** The capture list of a finished match, with group 0 the whole match. *)
Definition final_caps (s s' : st) : list (nat * str) := (O, consumed s s') :: caps s'.

(** One attempt at a position; [must] forbids the empty match. *)
Definition attempt (r : re) (must : bool) (s : st) : option st :=
  m r s (fun s' => if must && Nat.eqb (length (aft s')) (length (aft s)) then None else Some s').

(** [pattern.sub]: [b] is the text already passed, nearest first; [skip] the
    characters of the current match still to be passed over. *)
Fixpoint sub_go (r : re) (f : list (nat * str) -> str) (b : str) (skip : nat) (s : str) : str :=
  match s with
  | [] =>
      match skip with
      | S _ => []
      | O => match attempt r false (St b [] []) with
             | Some s' => f (final_caps (St b [] []) s')
             | None => []
             end
      end
  | c :: t =>
      match skip with
      | S k => sub_go r f (c :: b) k t
      | O =>
          let p := St b s [] in
          match attempt r false p with
          | None => c :: sub_go r f (c :: b) O t
          | Some s' =>
              let out := f (final_caps p s') in
              match length (consumed p s') with
              | S n => out ++ sub_go r f (c :: b) n t
              | O =>
                  out ++
                  match attempt r true p with
                  | None => c :: sub_go r f (c :: b) O t
                  | Some s'' =>
                      f (final_caps p s'')
                        ++ sub_go r f (c :: b) (pred (length (consumed p s''))) t
                  end
              end
          end
      end
  end.

Definition sub_with (r : re) (f : list (nat * str) -> str) (s : str) : str := sub_go r f [] O s.
Definition sub (r : re) (t : list titem) (s : str) : str := sub_with r (expand t) s.

(** [re.search(p, s) is not None], [re.findall] for patterns without groups. *)
Fixpoint search_from (r : re) (b s : str) : bool :=
  match attempt r false (St b s []) with
  | Some _ => true
  | None => match s with [] => false | c :: t => search_from r (c :: b) t end
  end.

Fixpoint findall_go (r : re) (b : str) (skip : nat) (s : str) : list str :=
  match s with
  | [] => []
  | c :: t =>
      match skip with
      | S k => findall_go r (c :: b) k t
      | O =>
          match attempt r false (St b s []) with
          | None => findall_go r (c :: b) O t
          | Some s' =>
              let x := consumed (St b s []) s' in
              x :: findall_go r (c :: b) (pred (length x)) t
          end
      end
  end.

(* ------------------------------------------------------------------ *)
(** ** Width (look-behind needs a fixed one) *)

Fixpoint width (r : re) : option nat :=
  match r with
  | REps | RLook _ _ _ _ | RBeg | REndStr | REndLine | RWordB _ => Some O
  | RChar _ | RAny | RSet _ _ => Some 1%nat
  | RSeq a b =>
      match width a, width b with Some x, Some y => Some (x + y)%nat | _, _ => None end
  | RAlt a b =>
      match width a, width b with
      | Some x, Some y => if Nat.eqb x y then Some x else None
      | _, _ => None
      end
  | RGroup _ a => width a
  | RBack _ => None
  | RRep _ lo hi a =>
      match width a with
      | Some O => Some O
      | Some w => match hi with
                  | Some h => if Nat.eqb lo h then Some (w * lo)%nat else None
                  | None => None
                  end
      | None => None
      end
  end.

(* ------------------------------------------------------------------ *)
(** ** Pattern parser (sre_parse) *)

Definition digit_val (c : N) : option nat :=
  if (48 <=? c) && (c <=? 57) then Some (N.to_nat (c - 48)) else None.

Definition hex_val (c : N) : option N :=
  if (48 <=? c) && (c <=? 57) then Some (c - 48)
  else if (97 <=? c) && (c <=? 102) then Some (c - 87)
  else if (65 <=? c) && (c <=? 70) then Some (c - 55)
  else None.

Fixpoint hex_n (n : nat) (acc : N) (s : str) : option (N * str) :=
  match n with
  | O => Some (acc, s)
  | S n' => match s with
            | c :: t => match hex_val c with Some v => hex_n n' (16 * acc + v) t | None => None end
            | [] => None
            end
  end.

Definition is_ascii_letter (c : N) : bool :=
  ((65 <=? c) && (c <=? 90)) || ((97 <=? c) && (c <=? 122)).

(** Simple escapes common to sets and patterns; input is what follows the
    backslash. [None] = error or not a single character. *)
Definition char_escape (s : str) : option (N * str) :=
  match s with
  | [] => None
  | c :: t =>
      if c =? 110 then Some (10, t)        (* \n *)
      else if c =? 116 then Some (9, t)    (* \t *)
      else if c =? 114 then Some (13, t)   (* \r *)
      else if c =? 102 then Some (12, t)   (* \f *)
      else if c =? 118 then Some (11, t)   (* \v *)
      else if c =? 97 then Some (7, t)     (* \a *)
      else if c =? 120 then hex_n 2 0 t    (* \xHH *)
      else if c =? 117 then hex_n 4 0 t    (* \uHHHH *)
      else if c =? 85 then hex_n 8 0 t     (* \UHHHHHHHH *)
      else if is_ascii_letter c then None
      else match digit_val c with Some _ => None | None => Some (c, t) end
  end.

Definition class_escape (c : N) : option (cclass * bool) :=
  if c =? 100 then Some (CDigit, false)
  else if c =? 68 then Some (CDigit, true)
  else if c =? 115 then Some (CSpace, false)
  else if c =? 83 then Some (CSpace, true)
  else if c =? 119 then Some (CWord, false)
  else if c =? 87 then Some (CWord, true)
  else None.

(** One set member: a class or a character. *)
Definition set_atom (s : str) : option ((N + (cclass * bool)) * str) :=
  match s with
  | [] => None
  | c :: t =>
      if c =? 92 then
        match t with
        | d :: t' => match class_escape d with
                     | Some k => Some (inr k, t')
                     | None => match char_escape t with
                               | Some (x, r) => Some (inl x, r)
                               | None => None
                               end
                     end
        | [] => None
        end
      else Some (inl c, t)
  end.

(** Members of a set up to the closing bracket; a bracket in first position
    is a member.  Ranges as in sre_parse. *)
Fixpoint parse_set (fuel : nat) (first : bool) (acc : list citem) (s : str)
  : option (list citem * str) :=
  match fuel with
  | O => None
  | S f =>
      match s with
      | [] => None
      | c :: t =>
          if (c =? 93) && negb first then Some (rev acc, t)
          else
            match set_atom s with
            | None => None
            | Some (inr (k, n), r) => parse_set f false (CCls k n :: acc) r
            | Some (inl lo, r) =>
                match r with
                | h :: r' =>
                    if h =? 45 then
                      match r' with
                      | q :: r'' =>
                          if q =? 93 then
                            Some (rev (CRange 45 45 :: CRange lo lo :: acc), r'')
                          else
                            match set_atom r' with
                            | Some (inl hi, r3) =>
                                if hi <? lo then None
                                else parse_set f false (CRange lo hi :: acc) r3
                            | _ => None
                            end
                      | [] => None
                      end
                    else parse_set f false (CRange lo lo :: acc) r
                | [] => None
                end
            end
      end
  end.

Fixpoint parse_nat (s : str) (acc : option nat) : option nat * str :=
  match s with
  | c :: t => match digit_val c with
              | Some d => parse_nat t (Some (match acc with Some a => 10 * a + d | None => d end)%nat)
              | None => (acc, s)
              end
  | [] => (acc, [])
  end.

(** A quantifier at the head of [s], if any: bounds and remaining input. *)
Definition parse_quant (s : str) : option (nat * option nat * str) :=
  match s with
  | [] => None
  | c :: t =>
      if c =? 42 then Some (O, None, t)
      else if c =? 43 then Some (1%nat, None, t)
      else if c =? 63 then Some (O, Some 1%nat, t)
      else if c =? 123 then
        match t with
        | d :: _ =>
            if d =? 125 then None else
            let '(lo, r) := parse_nat t None in
            match r with
            | e :: r' =>
                if e =? 44 then
                  let '(hi, r2) := parse_nat r' None in
                  match r2 with
                  | g :: r3 => if g =? 125 then
                                 Some (match lo with Some a => a | None => O end, hi, r3)
                               else None
                  | [] => None
                  end
                else if e =? 125 then
                  match lo with Some a => Some (a, Some a, r') | None => None end
                else None
            | [] => None
            end
        | [] => None
        end
      else None
  end.

Definition can_repeat (r : re) : bool :=
  match r with RBeg | REndStr | REndLine | RWordB _ => false | _ => true end.

(** [parse_alt]: alternatives up to ')' or the end; [g] is the number of
    groups opened so far.  [None] is [re.error]. *)
Fixpoint parse_alt (fuel : nat) (g : nat) (s : str) {struct fuel} : option (re * nat * str) :=
  match fuel with
  | O => None
  | S f =>
      match parse_seq f g REps s with
      | None => None
      | Some (a, g', r) =>
          match r with
          | c :: t =>
              if c =? 124 then
                match parse_alt f g' t with
                | Some (b, g'', r') => Some (RAlt a b, g'', r')
                | None => None
                end
              else Some (a, g', r)
          | [] => Some (a, g', r)
          end
      end
  end
with parse_seq (fuel : nat) (g : nat) (acc : re) (s : str) {struct fuel} : option (re * nat * str) :=
  match fuel with
  | O => None
  | S f =>
      match s with
      | [] => Some (acc, g, [])
      | c :: t =>
          if (c =? 124) || (c =? 41) then Some (acc, g, s)
          else
            match parse_atom f g s with
            | None => None
            | Some (a, g', r) =>
                match parse_quant r with
                | None => parse_seq f g' (RSeq acc a) r
                | Some (lo, hi, r') =>
                    if negb (can_repeat a) then None
                    else if match hi with Some h => Nat.ltb h lo | None => false end then None
                    else
                      match r' with
                      | q :: r2 =>
                          if q =? 63 then
                            match parse_quant r2 with
                            | Some _ => None
                            | None => parse_seq f g' (RSeq acc (RRep false lo hi a)) r2
                            end
                          else
                            match parse_quant r' with
                            | Some _ => None      (* multiple repeat *)
                            | None => parse_seq f g' (RSeq acc (RRep true lo hi a)) r'
                            end
                      | [] => parse_seq f g' (RSeq acc (RRep true lo hi a)) r'
                      end
                end
            end
      end
  end
with parse_atom (fuel : nat) (g : nat) (s : str) {struct fuel} : option (re * nat * str) :=
  match fuel with
  | O => None
  | S f =>
      let close (x : option (re * nat * str)) (w : re -> option re) :=
        match x with
        | Some (a, g', c :: r) =>
            if c =? 41 then
              match w a with Some a' => Some (a', g', r) | None => None end
            else None
        | _ => None
        end in
      match s with
      | [] => None
      | c :: t =>
          if c =? 40 then                                     (* ( *)
            match t with
            | q :: t1 =>
                if q =? 63 then                               (* (? *)
                  match t1 with
                  | e :: t2 =>
                      if e =? 58 then close (parse_alt f g t2) Some
                      else if e =? 61 then
                        close (parse_alt f g t2) (fun a => Some (RLook true false O a))
                      else if e =? 33 then
                        close (parse_alt f g t2) (fun a => Some (RLook true true O a))
                      else if e =? 60 then
                        match t2 with
                        | d :: t3 =>
                            if (d =? 61) || (d =? 33) then
                              close (parse_alt f g t3)
                                (fun a => match width a with
                                          | Some w => Some (RLook false (d =? 33) w a)
                                          | None => None
                                          end)
                            else None
                        | [] => None
                        end
                      else None
                  | [] => None
                  end
                else close (parse_alt f (S g) t) (fun a => Some (RGroup (S g) a))
            | [] => None
            end
          else if c =? 91 then                                (* [ *)
            match t with
            | h :: t1 =>
                if h =? 94 then
                  match parse_set (length t1) true [] t1 with
                  | Some (l, r) => Some (RSet true l, g, r)
                  | None => None
                  end
                else
                  match parse_set (length t) true [] t with
                  | Some (l, r) => Some (RSet false l, g, r)
                  | None => None
                  end
            | [] => None
            end
          else if c =? 46 then Some (RAny, g, t)
          else if c =? 94 then Some (RBeg, g, t)
          else if c =? 36 then Some (REndLine, g, t)
          else if (c =? 42) || (c =? 43) || (c =? 63) then None  (* nothing to repeat *)
          else if c =? 123 then
            match parse_quant s with Some _ => None | None => Some (RChar c, g, t) end
          else if c =? 92 then                                (* \ *)
            match t with
            | d :: t1 =>
                if d =? 65 then Some (RBeg, g, t1)
                else if d =? 90 then Some (REndStr, g, t1)
                else if d =? 98 then Some (RWordB false, g, t1)
                else if d =? 66 then Some (RWordB true, g, t1)
                else
                  match class_escape d with
                  | Some (k, n) => Some (RSet false [CCls k n], g, t1)
                  | None =>
                      match digit_val d with
                      | Some (S n) =>
                          (* one-digit back reference; two digits unused in /repo *)
                          match t1 with
                          | e :: _ => match digit_val e with
                                      | Some _ => None
                                      | None => if Nat.leb (S n) g then Some (RBack (S n), g, t1) else None
                                      end
                          | [] => if Nat.leb (S n) g then Some (RBack (S n), g, t1) else None
                          end
                      | _ =>
                          match char_escape t with
                          | Some (x, r) => Some (RChar x, g, r)
                          | None => None
                          end
                      end
                  end
            | [] => None
            end
          else Some (RChar c, g, t)
      end
  end.

(** [re.compile]: the parsed pattern and its number of groups. *)
Definition compile (p : str) : option (re * nat) :=
  match parse_alt (3 * length p + 3) O p with
  | Some (r, g, []) => Some (r, g)
  | _ => None
  end.

(* ------------------------------------------------------------------ *)
(** ** Template parser (sre_parse.parse_template) *)

Definition is_octal (c : N) : bool := (48 <=? c) && (c <=? 55).

Fixpoint parse_template (fuel : nat) (g : nat) (s : str) : option (list titem) :=
  match fuel with
  | O => None
  | S f =>
      match s with
      | [] => Some []
      | c :: t =>
          if c =? 92 then
            match t with
            | [] => None
            | d :: t1 =>
                match digit_val d with
                | Some O => None          (* octal escape: unused in /repo *)
                | Some n =>
                    let one := if Nat.leb n g then
                                 option_map (cons (TGroup n)) (parse_template f g t1) else None in
                    match t1 with
                    | e :: t2 =>
                        match digit_val e with
                        | Some n2 =>
                            let oct3 := match t2 with
                                        | h :: _ => is_octal d && is_octal e && is_octal h
                                        | [] => false end in
                            if oct3 then None
                            else if Nat.leb (10 * n + n2) g then
                              option_map (cons (TGroup (10 * n + n2))) (parse_template f g t2)
                            else None
                        | None => one
                        end
                    | [] => one
                    end
                | None =>
                    if d =? 92 then option_map (cons (TLit 92)) (parse_template f g t1)
                    else if d =? 110 then option_map (cons (TLit 10)) (parse_template f g t1)
                    else if d =? 116 then option_map (cons (TLit 9)) (parse_template f g t1)
                    else if d =? 114 then option_map (cons (TLit 13)) (parse_template f g t1)
                    else if is_ascii_letter d then None    (* bad escape; \g<..> unused *)
                    else option_map (fun r => TLit 92 :: TLit d :: r) (parse_template f g t1)
                end
            end
          else option_map (cons (TLit c)) (parse_template f g t)
      end
  end.

(** [re.sub(p, t, s)]. *)
Definition re_sub (p t s : str) : res str :=
  match compile p with
  | None => Err ReError
  | Some (r, g) =>
      match parse_template (S (length t)) g t with
      | None => Err ReError
      | Some items => Ok (sub r items s)
      end
  end.
