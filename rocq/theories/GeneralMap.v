(** * GeneralMap.py: script tables and how they are looked up. *)
From Coq Require Import List NArith ZArith Bool.
From Verif Require Import PyStr ScriptData FallBackData GMLists.
Import ListNotations.
Open Scope N_scope.

(** Python dict / module attribute lookup in an association list. *)
Fixpoint lookup {A} (k : str) (l : list (str * A)) : option A :=
  match l with
  | [] => None
  | (k', v) :: t => if str_eqb k k' then Some v else lookup k t
  end.

Fixpoint update {A} (k : str) (v : A) (l : list (str * A)) : list (str * A) :=
  match l with
  | [] => []
  | (k', v') :: t => if str_eqb k k' then (k', v) :: t else (k', v') :: update k v t
  end.

Definition of_opt {A} (e : exn) (o : option A) : res A :=
  match o with Some a => Ok a | None => Err e end.

(** aksharamukha/GeneralMap.py:12-20 ScriptPath.  The path is modelled by its
    last two components; [None] is Python's implicit None. *)
Definition ScriptPath (Script : str) : option (str * str) :=
  if mem Script GM_MainIndic then Some ("MainIndic"%u, Script)
  else if mem Script GM_EastIndic then Some ("EastIndic"%u, Script)
  else if mem Script GM_Roman then Some ("Roman"%u, Script)
  else if mem Script GM_NonIndic then Some ("NonIndic"%u, Script)
  else None.

(** aksharamukha/FallBack.py dictionaries by name ([getattr(fb, charlist)],
    GeneralMap.py:304). *)
Definition fb_dicts : list (str * fbdict) :=
  [("VowelMap"%u, FB_VowelMap); ("VowelSignMap"%u, FB_VowelSignMap);
   ("ConsonantMap"%u, FB_ConsonantMap); ("SignMap"%u, FB_SignMap);
   ("AyogavahaMap"%u, FB_AyogavahaMap); ("ModernVowelMap"%u, FB_ModernVowelMap);
   ("ModernVowelSignMap"%u, FB_ModernVowelSignMap)].

(** aksharamukha/GeneralMap.py:310-337, one fall-back entry: the string that is
    appended to [cur] (the list being extended).  [num] is the entry's number,
    [base] is ord(InterAdd[charlist]), [nukta] is ModScript.NuktaMap. *)
Definition additional_char (file_script : str) (base : N) (nukta : list str)
    (cur : list str) (num : N) (mapping : list (str * fbval)) : res str :=
  match lookup file_script mapping with
  | Some (FChar s) => Ok s
  | Some (FBase _ _) => Err TypeError
  | None =>
      if str_eqb file_script "Inter"%u then Ok [base + num]
      else
        let mapchar := if mem file_script GM_ReversibleScripts
                       then "OthersRev"%u else "OthersNonRev"%u in
        match lookup mapchar mapping with
        | None => Err KeyError
        | Some (FChar _) => Err TypeError
        | Some (FBase i rest) =>
            do first <- (if (i =? -1)%Z then Ok [] else idx cur i);
            match rest with
            | [] => Ok first
            | x :: _ =>
                do second <- (if mem "nukta"%u rest then idx nukta 0%Z else Ok x);
                Ok (first ++ second)
            end
        end
  end.

(** aksharamukha/GeneralMap.py:308-337, the loop over one charlist. *)
Fixpoint add_entries (file_script : str) (base : N) (nukta : list str)
    (num : N) (entries : fbdict) (cur : list str) : res (list str) :=
  match entries with
  | [] => Ok cur
  | (_, mapping) :: t =>
      do c <- additional_char file_script base nukta cur num mapping;
      add_entries file_script base nukta (num + 1) t (cur ++ [c])
  end.

(** aksharamukha/GeneralMap.py:302-337 add_additional_chars: extends the seven
    lists of CharmapLists in place; returns the module's tables afterwards. *)
Definition add_additional_chars (file_script : str) (t : table) : res table :=
  fold_left
    (fun (acc : res table) charlist =>
       do t <- acc;
       do fb <- of_opt AttributeError (lookup charlist fb_dicts);
       do _ <- of_opt AttributeError (ScriptPath file_script);
       do b <- of_opt KeyError (lookup charlist GM_InterAdd);
       do cur <- of_opt KeyError (lookup charlist t);
       let nukta := match lookup "NuktaMap"%u t with Some l => l | None => [] end in
       do new <- add_entries file_script (hd 0 b) nukta 0 fb cur;
       Ok (update charlist new t))
    GM_CharmapLists (Ok t).

(** Importing a table module: its own lists, then the call at its end. *)
Definition import_module (m : str * str * table * bool) : str * str * res table :=
  let '(d, n, t, adds) := m in
  (d, n, if adds then add_additional_chars n t else Ok t).

(** All modules as they stand after import (computed once here; the lemma below
    says what it is). *)
Definition modules : list (str * str * res table) :=
  Eval vm_compute in map import_module raw_modules.

Lemma modules_def : modules = map import_module raw_modules.
Proof. vm_compute. reflexivity. Qed.

Fixpoint find_module (d n : str) (l : list (str * str * res table)) : res table :=
  match l with
  | [] => Err ModuleNotFound
  | (d', n', t) :: rest =>
      if str_eqb n n' then if str_eqb d d' then t else find_module d n rest
      else find_module d n rest
  end.

(** importlib.import_module(ScriptPath(Script)); import_module(None) raises
    AttributeError. *)
Definition script_module (Script : str) : res table :=
  match ScriptPath Script with
  | None => Err AttributeError
  | Some (d, n) => find_module d n modules
  end.

(** aksharamukha/GeneralMap.py:25-27 CrunchSymbols: concatenation of the named
    lists.  ([reduce] on an empty Part raises TypeError.) *)
Definition CrunchSymbols (Part : list str) (Script : str) : res (list str) :=
  do t <- script_module Script;
  do ls <- mapR (fun v => of_opt AttributeError (lookup v t)) Part;
  match ls with [] => Err TypeError | _ => Ok (concat ls) end.

(** aksharamukha/GeneralMap.py:29-37 CrunchList.  If the module cannot be
    imported the function logs and returns '', which is modelled by the empty
    list (the callers only index, slice, zip or join it). *)
Definition CrunchList (List : str) (Script : str) : res (list str) :=
  match script_module Script with
  | Err _ => Ok []
  | Ok t => of_opt AttributeError (lookup List t)
  end.

(** Attribute of a table module imported by name, e.g. [Tamil.SignMap]. *)
Definition attr (d n a : str) : list str :=
  match find_module d n modules with
  | Ok t => match lookup a t with Some l => l | None => [] end
  | Err _ => []
  end.

(** aksharamukha/GeneralMap.py:22-23 retCharList, for the names in ScriptAll. *)
Definition retCharList (n : str) : res (list str) :=
  of_opt KeyError
    (lookup n [("Aytham"%u, GM_Aytham); ("Signs"%u, GM_Signs);
               ("CombiningSigns"%u, GM_CombiningSigns); ("VowelSigns"%u, GM_VowelSigns);
               ("VowelSignsNV"%u, GM_VowelSignsNV); ("Vowels"%u, GM_Vowels);
               ("Consonants"%u, GM_Consonants); ("Numerals"%u, GM_Numerals)]).
