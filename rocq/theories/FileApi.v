(** * Model of aksharamukha/transliterate_file.py.

    The file system is a map from paths to contents (no directories, no links); [writable] says which
    paths may be opened for writing.  bs4, lxml and zipfile are parameters: what they do with a
    document is not modelled, only what is handed to them and taken from them. *)
From Coq Require Import List NArith ZArith Bool.
From Verif Require Import PyStr Prog Transliterate.
Import ListNotations.
Open Scope N_scope.

(* ------------------------------------------------------------------ *)
(** ** Encoding of text files *)

Definition cont (b : N) : bool := (128 <=? b) && (b <? 192).

(** CPython's strict UTF-8 decoder; [None]: UnicodeDecodeError. *)
Fixpoint utf8_read (l : list N) : option str :=
  match l with
  | [] => Some []
  | a :: t1 =>
    if a <? 128 then option_map (cons a) (utf8_read t1)
    else match t1 with
    | [] => None
    | b :: t2 =>
      if (194 <=? a) && (a <? 224) && cont b
      then option_map (cons ((a - 192) * 64 + (b - 128))) (utf8_read t2)
      else match t2 with
      | [] => None
      | c :: t3 =>
        if (224 <=? a) && (a <? 240) && cont b && cont c
           && negb ((a =? 224) && (b <? 160)) && negb ((a =? 237) && (160 <=? b))
        then option_map (cons ((a - 224) * 4096 + (b - 128) * 64 + (c - 128))) (utf8_read t3)
        else match t3 with
        | [] => None
        | d :: t4 =>
          if (240 <=? a) && (a <? 245) && cont b && cont c && cont d
             && negb ((a =? 240) && (b <? 144)) && negb ((a =? 244) && (144 <=? b))
          then option_map (cons ((a - 240) * 262144 + (b - 128) * 4096 + (c - 128) * 64 + (d - 128))) (utf8_read t4)
          else None
        end
      end
    end
  end.

Definition scalar (c : N) : bool := (c <? 0x110000) && negb ((0xD800 <=? c) && (c <? 0xE000)).

Definition utf8_char (c : N) : list N :=
  if c <? 128 then [c]
  else if c <? 2048 then [192 + c / 64; 128 + c mod 64]
  else if c <? 65536 then [224 + c / 4096; 128 + (c / 64) mod 64; 128 + c mod 64]
  else [240 + c / 262144; 128 + (c / 4096) mod 64; 128 + (c / 64) mod 64; 128 + c mod 64].

(** CPython's strict UTF-8 encoder; [None]: UnicodeEncodeError. *)
Definition utf8_write (s : str) : option (list N) :=
  if forallb scalar s then Some (flat_map utf8_char s) else None.

(** Universal newlines of text files opened for reading. *)
Fixpoint newlines (s : str) : str :=
  match s with
  | [] => []
  | 13 :: t => 10 :: newlines (match t with 10 :: t' => t' | _ => t end)
  | c :: t => c :: newlines t
  end.

(* ------------------------------------------------------------------ *)
(** ** File names *)

Fixpoint span {A} (f : A -> bool) (l : list A) : list A * list A :=
  match l with
  | [] => ([], [])
  | x :: t => if f x then let (a, b) := span f t in (x :: a, b) else ([], l)
  end.

(** os.path.splitext on POSIX: the last dot of the last component, unless only dots stand before it. *)
Definition splitext (p : str) : str * str :=
  let (ext, rest) := span (fun c => negb ((c =? 46) || (c =? 47))) (rev p) in
  match rest with
  | dot :: root =>
      if (dot =? 46) && existsb (fun c => negb (c =? 46)) (fst (span (fun c => negb (c =? 47)) root))
      then (rev root, dot :: rev ext) else (p, [])
  | [] => (p, [])
  end.

(** aksharamukha/transliterate_file.py:28-29, 52-53 *)
Definition txt_name (src tgt file : str) : str :=
  let (root, ext) := splitext file in root ++ "_"%u ++ src ++ tgt ++ ext.
(** aksharamukha/transliterate_file.py:121-122 *)
Definition docx_name (src tgt file : str) : str :=
  let (root, ext) := splitext file in root ++ "_"%u ++ src ++ "_"%u ++ tgt ++ ext.

(* ------------------------------------------------------------------ *)
(** ** Effects *)

Record world := World {
  w_fs : str -> option (list N);   (* regular files and their contents *)
  w_printed : list str;            (* lines printed, last first *)
  w_warned : list str              (* warnings, last first *)
}.

Definition M (A : Type) := world -> res A * world.
Definition ret {A} (a : A) : M A := fun w => (Ok a, w).
Definition fail {A} (e : exn) : M A := fun w => (Err e, w).
Definition bindM {A B} (m : M A) (f : A -> M B) : M B :=
  fun w => match m w with (Ok a, w') => f a w' | (Err e, w') => (Err e, w') end.
Notation "'let*' x := m 'in' f" := (bindM m (fun x => f)) (at level 200, x pattern, m at level 100, f at level 200).
Definition lift {A} (r : res A) : M A := fun w => (r, w).

Definition upd (fs : str -> option (list N)) (p : str) (d : list N) : str -> option (list N) :=
  fun q => if str_eqb q p then Some d else fs q.

Definition print_line (s : str) : M unit := fun w => (Ok tt, World (w_fs w) (s :: w_printed w) (w_warned w)).
Definition warn (s : str) : M unit := fun w => (Ok tt, World (w_fs w) (w_printed w) (s :: w_warned w)).
Definition isfile (p : str) : M bool := fun w => (Ok (match w_fs w p with Some _ => true | None => false end), w).

Definition FileNotFound := External "FileNotFoundError"%u.
Definition PermissionError := External "PermissionError"%u.
Definition DecodeError := External "UnicodeDecodeError"%u.
Definition EncodeError := External "UnicodeEncodeError"%u.

(** open(p, 'rb').read() *)
Definition read_bytes (p : str) : M (list N) :=
  fun w => (match w_fs w p with Some d => Ok d | None => Err FileNotFound end, w).
(** open(p, 'r', encoding='utf8').read() *)
Definition read_text (p : str) : M str :=
  let* d := read_bytes p in
  match utf8_read d with Some s => ret (newlines s) | None => fail DecodeError end.

(** The bytes of [s], if it can be encoded. *)
Definition encode (s : str) : res (list N) :=
  match utf8_write s with Some d => Ok d | None => Err EncodeError end.

Section Files.
  (** Paths that may be opened for writing. *)
  Variable writable : str -> bool.

  (** open(p, 'w'): the file exists and is empty from now on. *)
  Definition open_write (p : str) : M unit :=
    fun w => if writable p then (Ok tt, World (upd (w_fs w) p []) (w_printed w) (w_warned w))
             else (Err PermissionError, w).
  (** f.write(d) followed by closing. *)
  Definition put (p : str) (d : list N) : M unit :=
    fun w => (Ok tt, World (upd (w_fs w) p d) (w_printed w) (w_warned w)).

  Definition created (new : str) : M unit := print_line ("The following file has been created: "%u ++ new).

  (** aksharamukha/transliterate_file.py:24-34.  The output file is opened before [convert] is called. *)
  Definition convert_txt (src tgt file : str) (nativize : bool) (pre post : list str) : M unit :=
    let* txt := read_text file in
    let new := txt_name src tgt file in
    let* _ := open_write new in
    let* out := lift (convert src tgt txt nativize pre post) in
    let* d := lift (encode out) in
    let* _ := put new d in
    created new.

  (** *** HTML *)
  (** BeautifulSoup(html), the strings of soup.findAll(text=True), the soup in which they have been
      replaced in order, soup.prettify(). *)
  Variable soup : Type.
  Variable parse_html : str -> soup.
  Variable strings : soup -> list str.
  Variable set_strings : soup -> list str -> soup.
  Variable prettify : soup -> str.

  (** aksharamukha/transliterate_file.py:36-58.  All conversions take place before the first
      replacement here, while the code alternates them; the soup is lost if one of them fails, so
      the difference cannot be observed.  The result is what is returned in API mode. *)
  Definition convert_html (src tgt file : str) (nativize : bool) (pre post : list str) (api : bool) : M (option str) :=
    let* html := (if api then ret file else read_text file) in
    let sp := parse_html html in
    let* news := lift (mapR (fun s => do c <- convert src tgt s nativize pre post; Ok (replace s c s)) (strings sp)) in
    let out := prettify (set_strings sp news) in
    if api then ret (Some out)
    else
      let new := txt_name src tgt file in
      let* _ := open_write new in
      let* d := lift (encode out) in
      let* _ := put new d in
      let* _ := created new in
      ret None.

  (** *** Word documents *)
  (** Archives are lists of members with name, remaining data of the directory entry, and content. *)
  Variable info : Type.
  Record member := Member { m_name : str; m_info : info; m_data : list N }.
  Variable zip_open : list N -> res (list member).
  Variable zip_bytes : list member -> list N.
  Variable b64decode : str -> res (list N).
  (** etree.parse; an XML document is what remains unchanged and its elements in order, each with its
      tag and text ([None]: no text). *)
  Variable skeleton : Type.
  Record xml := Xml { x_skel : skeleton; x_elems : list (str * option str) }.
  Variable parse_xml : list N -> res xml.
  Variable tostring : xml -> list N.
  (** element.text = s refuses strings that XML cannot hold. *)
  Variable set_text : str -> res str.
  (** convert with None for the text. *)
  Variable convert_none : str -> str -> bool -> list str -> list str -> res (option str).

  Definition WORD_TEXT : str := "{http://schemas.openxmlformats.org/wordprocessingml/2006/main}t"%u.

  Definition startswith (p s : str) : bool := prefixb p s.
  Definition endswith (p s : str) : bool := prefixb (rev p) (rev s).

  (** aksharamukha/transliterate_file.py:97-104 for one element.  The options are passed in the order
      post, pre, while [convert] expects pre, post. *)
  Definition convert_elem (src tgt : str) (nativize : bool) (pre post : list str) (e : str * option str)
    : res (str * option str) :=
    if str_eqb (fst e) WORD_TEXT then
      match snd e with
      | Some t => do c <- convert src tgt t nativize post pre; do c' <- set_text c; Ok (fst e, Some c')
      | None => do c <- convert_none src tgt nativize post pre;
                match c with Some c => do c' <- set_text c; Ok (fst e, Some c') | None => Ok e end
      end
    else Ok e.

  (** ZipFile.read(name): the last member of that name. *)
  Definition member_named (ms : list member) (n : str) : res (list N) :=
    match find (fun m => str_eqb (m_name m) n) (rev ms) with Some m => Ok (m_data m) | None => Err KeyError end.

  (** aksharamukha/transliterate_file.py:86-111 *)
  Definition convert_member (src tgt : str) (nativize : bool) (pre post : list str) (ms : list member) (m : member)
    : res member :=
    if startswith "word/"%u (m_name m) && endswith ".xml"%u (m_name m) then
      do x <- parse_xml (m_data m);
      do es <- mapR (convert_elem src tgt nativize pre post) (x_elems x);
      Ok (Member (m_name m) (m_info m) (tostring (Xml (x_skel x) es)))
    else
      do d <- member_named ms (m_name m);
      Ok (Member (m_name m) (m_info m) d).

  (** aksharamukha/transliterate_file.py:60-83, 114-127.  The result is what is returned in API mode. *)
  Definition convert_docx (src tgt file : str) (nativize : bool) (pre post : list str) (api : bool) : M (option (list N)) :=
    let* data := (if api then lift (b64decode file) else read_bytes file) in
    let* ms := lift (zip_open data) in
    let* news := lift (mapR (convert_member src tgt nativize pre post ms) ms) in
    let out := zip_bytes news in
    if api then ret (Some out)
    else
      let new := docx_name src tgt file in
      let* _ := open_write new in
      let* _ := put new out in
      let* _ := created new in
      ret None.

  (** aksharamukha/transliterate_file.py:11-22 *)
  Definition process_file (src tgt file : str) (nativize : bool) (pre post : list str) (api : bool) : M unit :=
    let* f := isfile file in
    if f then
      if contains ".txt"%u file then convert_txt src tgt file nativize pre post
      else if contains ".docx"%u file then let* _ := convert_docx src tgt file nativize pre post api in ret tt
      else if contains ".htm"%u file then let* _ := convert_html src tgt file nativize pre post api in ret tt
      else warn "Only .txt, .html, .docx formats are supported for file conversion. Input file not processed."%u
    else warn "Not a file. Please pass a file as an argument"%u.
End Files.
