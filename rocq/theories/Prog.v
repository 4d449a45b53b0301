(** * The language of string fixes.

    Nearly every function of ConvertFix.py, PreProcess.py and PostProcess.py
    has the shape

<<
      def f(Strng, <static arguments>):
          Strng = Strng.replace(..., ...)
          Strng = re.sub(..., ..., Strng)
          ...
          return Strng
>>
    where everything that is not [Strng] (script tables, patterns, loops over
    lists, tests on script names and options) does not depend on [Strng].  The
    model of such a function is a Gallina function from the static arguments to
    a [prog]: the list of string operations it performs, in order.  [run] gives
    the effect on [Strng]. *)
From Coq Require Import List NArith ZArith Bool.
From Verif Require Import PyStr Regex Unicode.
Import ListNotations.

Inductive op :=
| Replace (x y : str)                 (* Strng = Strng.replace(x, y) *)
| ReSub (pat tmpl : str)              (* Strng = re.sub(pat, tmpl, Strng) *)
| IfIn (x : str) (p q : list op)      (* if x in Strng: p  else: q *)
| Append (t : str)                    (* Strng = Strng + t *)
| Prepend (t : str)                   (* Strng = t + Strng *)
| Lower                               (* Strng = Strng.lower() *)
| Norm (compose : bool)               (* Strng = unicodedata.normalize('NFC'|'NFD', Strng) *)
| Try (catch : exn -> bool) (p : list op)
                                      (* try: Strng = p(Strng)  except ...: pass *)
| EvenParts (sep : str) (p : list op) (* Strng = concatenation of the pieces of Strng.split(sep),
                                         those with even index changed by p *)
| Sub (r : re) (t : list titem)       (* regex.sub, the expression and the template given parsed *)
| Map (f : str -> str)                (* any other total computation on Strng *)
| Fn (f : str -> res str)             (* any other computation on Strng *)
| Raise (e : exn).                    (* raise *)

Definition prog := list op.

(** The loop of transliterate.py:483-487 over the pieces; [b]: even index. *)
Fixpoint alt_parts (f : str -> res str) (b : bool) (l : list str) : res str :=
  match l with
  | [] => Ok []
  | w :: t =>
      match (if b then f w else Ok w) with
      | Err e => Err e
      | Ok w' => match alt_parts f (negb b) t with Ok r => Ok (w' ++ r) | Err e => Err e end
      end
  end.

(** Effect of an operation on the current text. *)
Fixpoint run_op (o : op) (s : str) {struct o} : res str :=
  let fix go (p : list op) (s : str) {struct p} : res str :=
    match p with
    | [] => Ok s
    | o' :: p' => match run_op o' s with Ok s' => go p' s' | Err e => Err e end
    end in
  match o with
  | Replace x y => Ok (replace x y s)
  | ReSub p t => re_sub p t s
  | IfIn x p q => if contains x s then go p s else go q s
  | Append t => Ok (s ++ t)
  | Prepend t => Ok (t ++ s)
  | Lower => Ok (py_lower s)
  | Norm c => Ok (if c then normalize_NFC s else normalize_NFD s)
  | Try h p => match go p s with
               | Ok s' => Ok s'
               | Err e => if h e then Ok s else Err e
               end
  | EvenParts sep p => alt_parts (fun w => go p w) true (split sep s)
  | Sub r t => Ok (sub r t s)
  | Map f => Ok (f s)
  | Fn f => f s
  | Raise e => Err e
  end.

Fixpoint run (p : prog) (s : str) {struct p} : res str :=
  match p with
  | [] => Ok s
  | o :: p' => match run_op o s with Ok s' => run p' s' | Err e => Err e end
  end.

Lemma run_op_IfIn : forall x p q s,
  run_op (IfIn x p q) s = if contains x s then run p s else run q s.
Proof. intros. simpl. reflexivity. Qed.

Lemma run_op_Try : forall h p s,
  run_op (Try h p) s = match run p s with
                       | Ok s' => Ok s'
                       | Err e => if h e then Ok s else Err e
                       end.
Proof. intros. simpl. reflexivity. Qed.

Lemma run_op_EvenParts : forall sep p s,
  run_op (EvenParts sep p) s = alt_parts (run p) true (split sep s).
Proof. intros. simpl. reflexivity. Qed.

Lemma run_app : forall p q s, run (p ++ q) s = rbind (run p s) (run q).
Proof.
  induction p as [|o p IH]; intros q s; simpl; [reflexivity|].
  destruct (run_op o s); simpl; auto.
Qed.

(** Induction on operations, through the branches of [IfIn]. *)
Section op_ind'.
  Variable P : op -> Prop.
  Hypothesis HR : forall x y, P (Replace x y).
  Hypothesis HS : forall p t, P (ReSub p t).
  Hypothesis HI : forall x p q, Forall P p -> Forall P q -> P (IfIn x p q).
  Hypothesis HA : forall t, P (Append t).
  Hypothesis HP : forall t, P (Prepend t).
  Hypothesis HL : P Lower.
  Hypothesis HN : forall c, P (Norm c).
  Hypothesis HT : forall h p, Forall P p -> P (Try h p).
  Hypothesis HV : forall sep p, Forall P p -> P (EvenParts sep p).
  Hypothesis HB : forall r t, P (Sub r t).
  Hypothesis HM : forall f, P (Map f).
  Hypothesis HF : forall f, P (Fn f).
  Hypothesis HE : forall e, P (Raise e).
  Fixpoint op_ind' (o : op) : P o :=
    let fix go (l : list op) : Forall P l :=
      match l with [] => Forall_nil P | o :: l' => Forall_cons o (op_ind' o) (go l') end in
    match o with
    | Replace x y => HR x y
    | ReSub p t => HS p t
    | IfIn x p q => HI x p q (go p) (go q)
    | Append t => HA t
    | Prepend t => HP t
    | Lower => HL
    | Norm c => HN c
    | Try h p => HT h p (go p)
    | EvenParts sep p => HV sep p (go p)
    | Sub r t => HB r t
    | Map f => HM f
    | Fn f => HF f
    | Raise e => HE e
    end.
End op_ind'.

(** Static computations can fail (index errors, unknown names); a failure at
    this point of the function is a [Raise]. *)
Definition withS {A} (r : res A) (f : A -> prog) : prog :=
  match r with Ok a => f a | Err e => [Raise e] end.
Notation "'let!' x := e 'in' f" := (withS e (fun x => f))
  (at level 200, x pattern, e at level 100, f at level 200).

(** [for x in l: body]. *)
Definition foreach {A} (l : list A) (body : A -> prog) : prog := flat_map body l.

(** Exceptions caught by the [try] statements of /repo. *)
Definition is_KeyError (e : exn) : bool := match e with KeyError => true | _ => false end.
Definition is_AttributeError (e : exn) : bool := match e with AttributeError => true | _ => false end.

(** [re.sub(p, lambda x: f(groups of x), s)]. *)
Definition re_sub_fun (p : str) (f : list (nat * str) -> str) (s : str) : res str :=
  match compile p with Some (r, _) => Ok (sub_with r f s) | None => Err ReError end.

(** Text of group [n] in a finished match. *)
Definition grp (n : nat) (l : list (nat * str)) : str :=
  match cap n l with Some x => x | None => [] end.

(** CPython [s.split()]: maximal runs of non-space characters. *)
Fixpoint split_ws_go (cur : str) (s : str) : list str :=
  match s with
  | [] => match cur with [] => [] | _ => [rev cur] end
  | c :: t =>
      if is_space c then
        match cur with [] => split_ws_go [] t | _ => rev cur :: split_ws_go [] t end
      else split_ws_go (c :: cur) t
  end.
Definition split_ws (s : str) : list str := split_ws_go [] s.

(** string.punctuation *)
Definition punctuation : str := "!""#$%&'()*+,-./:;<=>?@[\]^_`{|}~"%u.
