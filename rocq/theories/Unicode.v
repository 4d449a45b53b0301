(** * CPython's str.lower, str.upper and unicodedata.normalize. *)
From Coq Require Import List NArith Bool.
From Verif Require Import PyStr UnicodeTables.
Import ListNotations.
Open Scope N_scope.

(** A binary trie on code points, for lookup in the tables. *)
Inductive trie (A : Type) := TLeaf | TNode (o : option A) (l r : trie A).
Arguments TLeaf {A}. Arguments TNode {A}.

Fixpoint tset {A} (p : positive) (v : A) (t : trie A) : trie A :=
  match p with
  | xH => match t with TLeaf => TNode (Some v) TLeaf TLeaf | TNode _ l r => TNode (Some v) l r end
  | xO q => match t with TLeaf => TNode None (tset q v TLeaf) TLeaf
                       | TNode o l r => TNode o (tset q v l) r end
  | xI q => match t with TLeaf => TNode None TLeaf (tset q v TLeaf)
                       | TNode o l r => TNode o l (tset q v r) end
  end.

Fixpoint tget {A} (p : positive) (t : trie A) : option A :=
  match t with
  | TLeaf => None
  | TNode o l r => match p with xH => o | xO q => tget q l | xI q => tget q r end
  end.

Definition tbuild {A} (l : list (N * A)) : trie A :=
  fold_right (fun '(c, v) t => tset (N.succ_pos c) v t) TLeaf l.
Definition tfind {A} (c : N) (t : trie A) : option A := tget (N.succ_pos c) t.

Definition lower_trie := Eval vm_compute in tbuild lower_table.
Definition upper_trie := Eval vm_compute in tbuild upper_table.
Definition decomp_trie := Eval vm_compute in tbuild decomp_table.
Definition ccc_trie := Eval vm_compute in tbuild ccc_table.
Definition comp_trie := Eval vm_compute in tbuild comp_table.

(** CPython [s.lower()].  Simplification: the final-sigma rule is left out
    (U+03A3 always becomes U+03C3). *)
Definition py_lower (s : str) : str :=
  flat_map (fun c => match tfind c lower_trie with Some l => l | None => [c] end) s.

(** CPython [s.upper()]. *)
Definition py_upper (s : str) : str :=
  flat_map (fun c => match tfind c upper_trie with Some l => l | None => [c] end) s.

Definition ccc (c : N) : N := match tfind c ccc_trie with Some k => k | None => 0 end.

(** Canonical decomposition of a character, Hangul by arithmetic. *)
Definition decomp (c : N) : str :=
  if (0xAC00 <=? c) && (c <=? 0xD7A3) then
    let s := c - 0xAC00 in
    let l := 0x1100 + s / 588 in
    let v := 0x1161 + (s mod 588) / 28 in
    let t := 0x11A7 + s mod 28 in
    if t =? 0x11A7 then [l; v] else [l; v; t]
  else match tfind c decomp_trie with Some l => l | None => [c] end.

(** Canonical ordering: stable by combining class inside runs of non-starters. *)
Fixpoint reorder_in (c k : N) (l : str) : str :=
  match l with
  | [] => [c]
  | d :: t => let j := ccc d in
              if (0 <? j) && (j <? k) then d :: reorder_in c k t else c :: l
  end.
Fixpoint reorder (s : str) : str :=
  match s with
  | [] => []
  | c :: t => let k := ccc c in
              if k =? 0 then c :: reorder t else reorder_in c k (reorder t)
  end.

Fixpoint assocN (c : N) (l : list (N * N)) : option N :=
  match l with [] => None | (a, b) :: t => if a =? c then Some b else assocN c t end.

(** Primary composite of two characters, Hangul by arithmetic. *)
Definition compose2 (a b : N) : option N :=
  if (0x1100 <=? a) && (a <=? 0x1112) && (0x1161 <=? b) && (b <=? 0x1175) then
    Some (0xAC00 + ((a - 0x1100) * 21 + (b - 0x1161)) * 28)
  else if (0xAC00 <=? a) && (a <=? 0xD7A3) && (0x11A8 <=? b) && (b <=? 0x11C2) then
    if (a - 0xAC00) mod 28 =? 0 then Some (a + (b - 0x11A7)) else None
  else match tfind a comp_trie with Some l => assocN b l | None => None end.

(** Canonical composition: [st] is the last starter, [mid] the characters after
    it that did not compose (nearest first), [last] the class of the nearest. *)
Fixpoint compose (st : option N) (mid : str) (last : N) (s : str) : str :=
  let flush := match st with Some a => a :: rev mid | None => rev mid end in
  match s with
  | [] => flush
  | c :: t =>
      let k := ccc c in
      let blocked := match mid with [] => false | _ => k <=? last end in
      let comp := match st with
                  | Some a => if blocked then None else compose2 a c
                  | None => None
                  end in
      match comp with
      | Some p => compose (Some p) mid last t
      | None =>
          if k =? 0 then flush ++ compose (Some c) [] 0 t
          else compose st (c :: mid) k t
      end
  end.

(** unicodedata.normalize('NFD', s) and ('NFC', s). *)
Definition normalize_NFD (s : str) : str := reorder (flat_map decomp s).
Definition normalize_NFC (s : str) : str := compose None [] 0 (normalize_NFD s).
