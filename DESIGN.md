# Design

## What is modelled

`rocq/theories` models aksharamukha-python function by function.

| File | Models | How obtained |
|---|---|---|
| PyStr.v | Python str/list built-ins that the code uses | by hand |
| UnicodeTables.v, Unicode.v | character classes, lower/upper, NFC/NFD | tables generated by tools/gen_unicode.py from CPython's unicodedata; functions by hand |
| Regex.v | `re.compile` / `re.sub` (pattern parser, backtracking matcher, templates) | by hand |
| Prog.v | the shape "Strng = Strng.replace(..); Strng = re.sub(..)" as a list of operations with an interpreter `run` | by hand |
| ScriptData.v, FallBackData.v, GMLists.v, YamlData.v, GimelData.v | the data of ScriptMap/*, FallBack.py, GeneralMap.py, yaml/*, json/gimeltra_data.json | generated by tools/gen_tables.py, tools/gen_data.py (text processing of /repo) |
| GeneralMap.v | GeneralMap.py | by hand |
| FixNum.v | numeral functions of ConvertFix.py | by hand |
| ConvertFix1.v, PreProcess1.v, PostProcess1.v, PostProcess2.v, Dispatch.v | ConvertFix.py, PreProcess.py, PostProcess.py and `getattr` dispatch on them | generated by tools/py2coq.py, statement by statement |
| Gimeltra.v | gimeltra.py | by hand |
| Convert.v | Convert.py | by hand |
| Transliterate.v | transliterate.py, PostOptions.py | by hand |
| FileApi.v | transliterate_file.py over a file system that is a map from paths to contents | by hand |

Every definition cites the lines it models; simplifications are stated there.

### Not modelled
- pykakasi (Hiragana/Katakana), khmernltk, the HTTP request for Tamil to IPA, langcodes,
  lxml/BeautifulSoup/zip: they are opaque (`Raise (External ..)`) or parameters of the theorems.
- `unicodedata.name` and `fontTools.unicodedata.script` are parameters.
- str.lower's final-sigma rule; logging and print.
- Floats: percentages in script detection are compared as exact counts (equal to the floats for
  texts of less than 2^40 characters); Kharoshthi and Old Persian numbers of 2^53 and more, which go
  through inexact floats, are opaque.
- Files: directories, links, permissions other than "may be opened for writing", and newline
  translation on Windows. bs4, lxml and zipfile are parameters of the theorems: what they do with a
  document is not modelled, only what is handed to them and taken from them.
- Functions written as Python loops that no operation of Prog.v expresses are kept as Coq functions
  (`Fn`, `Map` operations): the numerals of Kharoshthi and Old Persian, GranthaPrakrit,
  capitalizeSentence.

## How the properties are proved

1. **Programs.** `convert_prog src tgt nativize pre post` is the list of string operations that
   `convert` performs. Structural facts (C09–C14, C16–C26, C31, C32) are proved by case analysis on
   the functions, for all names, options and texts.
2. **Verified analyser.** For facts about all texts of a pair of scripts (C01–C07) a static
   analyser, written in Gallina and proved sound against `run`, follows a whole pipeline on
   *token texts*: a finite set of tokens, a rendering of each token as a string and an adjacency
   relation. If `analyze p L = Some L'` then for every token sequence of any length
   `run p (render L ts) = Ok (render L' ts)`. The theorem for a pair of scripts is then the
   soundness theorem plus one computation of `analyze` (the analyser, not the text, is what is
   computed; the text is universally quantified). The specification side is a separate small
   table in the theorem file.
3. **No-raise analysis** (C08), **marker analysis** (C27), **keeping analysis** (C36, C37): syntactic checks on programs proved
   sound for all strings.
4. **Inductions** on lists and numbers for C19–C21, C28–C30, C33, C34.

## Where each property is proved

| Files | Content |
|---|---|
| StrFacts, SortFacts | facts about strings and sorting |
| AbsRegex, ReLits, Behind, Between, NormCut, Lang, Tokenise, Analyze | the verified analyser: abstract matching, literals in every match, look-behind forms of replacements, piecewise normalization, languages of tokens, unique tokenisation, the analysis |
| IndicText, IndicRT | alphabet and letter tables; Devanagari to an Indic script and back for 22 scripts (C01, C06, C07) |
| Lead, IndicFine, RTAssamese, RTBengali, RTSinhala, RTTamil, RTGurmukhi, RTMalayalam, RTTelugu, FineRT | the scripts whose conversion depends on the neighbours of a letter (C01, C06, C07) |
| Stages, PathFacts | a conversion between two Indic scripts as undoing the first script's spelling, exchanging letters and applying the second's; pairs of Indic scripts (C03, C35) |
| BlockFacts | parallel Unicode blocks (C04) |
| Marks, MarkFacts, MarkLeak | a data-flow analysis of marker characters (which characters a stage may add or must remove), proved sound; internal markers never leak (C27) |
| RomanText, RomanStages, RomanRT, RomanSpell | Roman schemes; their conversions as stages that depend on the source or the target only (C02, C05, C06, C07) |
| RomanPairs | pairs with a Roman scheme, chains of conversions (C03, C35) |
| Nativize | nativize only deletes marks, for targets without conventions (C40) |
| Numerals | the options romanNumerals and indicNumerals (C42) |
| OwnScript | equal source and target with nativize (C43) |
| DefaultPath | conversions with nativize do not depend on the source (C44), nor with any post-options but two (C45) |
| Defaults | C03, C35, C41 for `process`, names in any case, with and without nativize |
| Keeps, KeepFacts, Foreign | a static check that a program neither loses nor copies characters outside an alphabet; foreign characters survive for all scripts and options (C07, C36) |
| LineFacts, Lines | the same check with a guard that watches line feeds only; the number of lines is kept for all supported scripts and options (C37) |
| Apart, ApartFacts, ApartConv, ApartMain | a static check that a program treats the two sides of a separator character apart; the stages of `convert` |
| OmEdges, EdgeFacts | the replacement of om next to a separator |
| Separate | conversion of texts with a separator between them, for every separator that the checks allow |
| LineByLine, ForeignApart, WordByWord, Pieces | a document is converted line by line (C06, C38), word by word (C06, C39), and piece by piece between foreign symbols (C06, C07) |
| Dandas | options that keep dandas (C33) |
| Safe, SafeFacts, TotalFacts | no exception escapes (C08) |
| ConvertFacts, ApiFacts, OptionFacts, CodeFacts, DetectFacts | names, options, codes, detection (C09-C18, C21-C23, C31) |
| SegmentFacts, TextFacts, NumFacts, TableFacts | C19; C20, C30, C33; C29; C28, C32, C34 |
| FileFacts | C24-C26 |

A theorem `.._partial` says in its comment what is missing, and MANIFEST.json repeats it. A theorem
`.._refuted` gives a witness against the stronger reading of a property.

## Trusted base

- Coq's kernel (with its virtual machine: the computations of the analyser are checked with
  `vm_compute` casts; coqchk re-checks them without the machine).
- Axioms: `Print Assumptions` answers "Closed under the global context" for every theorem named in
  MANIFEST.json. coqchk also lists seven `Coq.ssr.ssrunder.Under_rel.*` entries: they belong to a
  standard-library module that is loaded, and no theorem uses them.
- The generators in tools/ and the hand-written model as a rendering of the Python code.
- CPython's `re`, `str`, `unicodedata` behave as Regex.v, PyStr.v, Unicode.v say. The model was
  compared with the expected outputs shipped in aksharamukha/test/test_texts (see "Validation").

## Seeded bugs

`seeded/mutate.py` applies an edit from `seeded/mutants.json` to a scratch copy, rebuilds it and
reports the statements that no longer prove; `seeded/LOG.jsonl` has one line per attempt.

## Validation

`tools/validate.py` compares the model (`vm_compute` of `process_default`) with the expected outputs
shipped in aksharamukha/test/test_texts: two passages into all scripts, post-option cases, sanity
cases. Result of the last complete run: 672 of 685 outputs equal ("heart" 302 of 308, "lalitavistara"
302 of 308, post-options 54 of 54, sanity 14 of 15). The 13 others are all cases in which the expected
file is older than the code: the removed script IASTLOC (4), the rules for the tall AA of Kawi (4; the
lines ConvertFix.py:1496-1504 say the opposite of the file), the virama of KhuenTham (4), and one
Malayalam reverse case with an explicit virama. They were checked against the source by hand.
