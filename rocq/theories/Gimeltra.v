(** * gimeltra.py: transliteration between Semitic scripts. *)
From Coq Require Import List NArith ZArith Bool.
From Verif Require Import PyStr UnicodeTables Regex Unicode Prog GMLists GeneralMap FixNum GimelData.
Import ListNotations.

(** aksharamukha/gimeltra.py:31 *)
Definition vocalized : list str :=
  ["Hebr"%u; "Hebr-Ar"%u; "Syrj"%u; "Syrn"%u; "Arab-Fa"%u; "Arab-Pa"%u; "Latn"%u;
   "Latn-No"%u; "Type"%u; "Arab"%u; "Arab-Ur"%u; "Thaa"%u].

Definition get_dict {A} (k : str) (d : list (str * list A)) : list A :=
  match lookup k d with Some x => x | None => [] end.

Definition letter_re : re := ranges_set letter_ranges.
Definition mark_re : re := ranges_set mark_ranges.
Definition marks_lazy : re := RRep false O None mark_re.
Definition lit_re (x : str) : re := fold_right (fun c r => RSeq (RChar c) r) REps x.

(** aksharamukha/gimeltra.py:56 re.sub("(?![ׄ̈])\p{M}", "", t); here and below
    the third-party [regex] module is taken to agree with [re]. *)
Definition strip_marks_re : re :=
  RSeq (RLook true true O (RSet false [CRange 0x5C4 0x5C4; CRange 0x308 0x308])) mark_re.

(** aksharamukha/gimeltra.py:49-59 _preprocess *)
Definition gim_preprocess (sc to_sc : str) : prog :=
  map (fun '(i, o) => Replace i o) (get_dict sc gimel_ccmp)
  ++ (if negb (mem sc vocalized) || negb (mem to_sc vocalized)
      then [Norm false; Sub strip_marks_re []]
      else []).

(** aksharamukha/gimeltra.py:61-76 _postprocess: the three regex.subf calls for
    one rule (the rules contain no regex syntax), then the ligatures. *)
Definition gim_final (i o : str) : prog :=
  [Sub
     (RSeq (RGroup 1 letter_re) (RSeq (RGroup 2 marks_lazy) (RSeq (RGroup 3 (lit_re i))
        (RSeq (RGroup 4 marks_lazy) (RGroup 5 (RSet true (map (fun '(a, b) => CRange a b) letter_ranges)))))))
     ([TGroup 1; TGroup 2] ++ map TLit o ++ [TGroup 4; TGroup 5]);
   Sub
     (RSeq (RGroup 1 letter_re) (RSeq (RGroup 2 marks_lazy) (RSeq (RGroup 3 (lit_re i))
        (RSeq (RGroup 4 marks_lazy) REndLine))))
     ([TGroup 1; TGroup 2] ++ map TLit o ++ [TGroup 4]);
   Sub
     (RSeq (RGroup 1 (lit_re o)) (RSeq (RGroup 2 (RRep true 1 None mark_re)) (RGroup 3 letter_re)))
     (map TLit i ++ [TGroup 2; TGroup 3])].

Definition gim_postprocess (sc : str) : prog :=
  flat_map (fun '(i, o) => gim_final i o) (get_dict sc gimel_fina)
  ++ map (fun '(i, o) => Replace i o) (get_dict sc gimel_liga).

Definition longer_fst (a b : str * str) : bool := longer (fst a) (fst b).

(** self.db[a][b], KeyError if absent *)
Definition gim_db (a b : str) : res (list (str * str)) :=
  do d <- of_opt KeyError (lookup a gimel_ssub);
  of_opt KeyError (lookup b d).

(** aksharamukha/gimeltra.py:78-88 _to_latin *)
Definition gim_to_latin (sc : str) : prog :=
  let! d := gim_db sc "Latn"%u in
  map (fun '(c, o) => Replace c o) (ssort longer_fst d).

(** aksharamukha/gimeltra.py:90-124 _from_latin *)
Definition gim_from_latin (to_sc : str) : prog :=
  let! d := gim_db "Latn"%u to_sc in
  let chars := map fst d in
  let missing := filter (fun '(x, _) => negb (mem x chars)) gimel_simplify in
  let vir := [0x33D%N] in
  let vir_missing := mem vir (map fst missing) in
  flat_map (fun '(c, y) =>
      if vir_missing && contains vir y
      then [Replace c y; Replace vir (match lookup vir gimel_simplify with Some v => v | None => [] end)]
      else [Replace c y]) missing
  ++ map (fun '(c, o) => Replace c o) (ssort longer_fst d).

(** aksharamukha/gimeltra.py:126-134 _convert *)
Definition gim_convert (sc to_sc : str) : prog :=
  if str_eqb to_sc "Latn"%u then gim_to_latin sc
  else if str_eqb sc "Latn"%u then gim_from_latin to_sc
  else gim_to_latin sc ++ gim_from_latin to_sc.

(** aksharamukha/gimeltra.py:41-47, 136-150 tr with both scripts given *)
Definition gim_tr (sc to_sc : str) : prog :=
  if str_eqb sc to_sc then []
  else (if str_eqb sc "Latn"%u then [] else gim_preprocess sc to_sc)
       ++ gim_convert sc to_sc ++ gim_postprocess to_sc.
