{"id": "C01", "title": "Indic scripts round trip", "statement": "For each Indic script X among the ones the project declares reversible, converting a Devanagari text to X with nativize=False and converting the result back with nativize=False returns exactly the original text, for every text written with the Sanskrit letters, signs, digits and ordinary separators (excluding only the listed sequences on which the library is known to be lossy).", "quantifier": "all texts of any length over the stated Devanagari alphabet, for each reversible Indic script", "why_tests_cant": "The test suite round-trips two fixed passages; a loss on some other letter sequence is invisible to it, and there are infinitely many texts.", "anchors": ["aksharamukha/transliterate.py:convert", "aksharamukha/Convert.py:convertScript", "aksharamukha/GeneralMap.py:ReversibleScripts"]}
{"id": "C02", "title": "Indic/Roman round trip", "statement": "For each Roman scheme declared reversible (IAST, HK, Itrans, Velthuis, Titus, WX, ISO, Cyrillic), converting a well-formed Devanagari text to the scheme and back with nativize=False returns the original text, including vowel hiatus (a+i, a+u) and stop+h sequences.", "quantifier": "all well-formed Devanagari texts of any length over the stated alphabet, each scheme", "why_tests_cant": "Ambiguity between digraphs (kh vs k+h, ai vs a+i) only appears for particular neighbouring letters; samples cannot cover every neighbourhood in every position of unbounded texts.", "anchors": ["aksharamukha/transliterate.py:convert", "aksharamukha/ConvertFix.py:FixRomanOutput", "aksharamukha/GeneralMap.py:RomanReversible"]}
{"id": "C03", "title": "Round trip between any two reversible scripts", "statement": "For texts that arise from Devanagari, converting between two reversible scripts or Roman schemes A and B and back (nativize=False) gives back the A text.", "quantifier": "all texts over the stated alphabets, all ordered pairs (A,B) of the 11 Indic scripts and 8 Roman schemes declared reversible", "why_tests_cant": "Quadratically many pairs and infinitely many texts.", "anchors": ["aksharamukha/transliterate.py:convert", "aksharamukha/test/testsuite.py:TestOverallReversible2"]}
{"id": "C04", "title": "Indic to Indic is the Unicode block mapping", "statement": "Between scripts whose Unicode blocks are laid out in parallel (the ISCII-derived blocks), conversion with nativize=False maps every letter and sign of the common repertoire to the code point at the same offset in the target block and keeps separators.", "quantifier": "all texts over the common repertoire", "why_tests_cant": "Equality with an independent specification for all texts is not a finite check.", "anchors": ["aksharamukha/transliterate.py:convert", "aksharamukha/Convert.py:convertScript", "aksharamukha/ScriptMap/MainIndic"]}
{"id": "C05", "title": "Devanagari to Roman follows the phonemic specification", "statement": "Conversion of a well-formed Devanagari text to a Roman scheme spells each consonant with an inherent 'a' unless a vowel sign or virama follows, each vowel by the scheme's vowel letter, with the documented disambiguation marks for hiatus and for stop+h.", "quantifier": "all well-formed Devanagari texts", "why_tests_cant": "Schwa insertion depends on context; tests sample contexts.", "anchors": ["aksharamukha/transliterate.py:convert", "aksharamukha/ConvertFix.py:FixRomanOutput"]}
{"id": "C06", "title": "Conversion works piece by piece", "statement": "For texts over the stated alphabets, converting the concatenation of two texts separated at a token boundary equals the concatenation of the two conversions, so a document may be converted line by line.", "quantifier": "all pairs of texts over the alphabet", "why_tests_cant": "A property of all splits of all texts.", "anchors": ["aksharamukha/transliterate.py:convert"]}
{"id": "C07", "title": "Foreign characters pass through", "statement": "Characters that belong to neither script (Latin-unrelated symbols, CJK, emoji, ...) and that the pipeline does not mention are kept, in place, by conversion, and do not disturb the conversion of their neighbours.", "quantifier": "all code points outside a finite explicit list, at all positions of all texts", "why_tests_cant": "More than a million code points in unbounded contexts.", "anchors": ["aksharamukha/transliterate.py:convert"]}
{"id": "C08", "title": "Conversion never raises", "statement": "For supported source and target scripts and usable options, convert and process return a string for every input text: no IndexError, KeyError, AttributeError, re.error, ... depending on the text. Exceptions, which do raise: PersianDMG as a source, the Batak scripts from or to RomanLoC, long numbers to OldPersian (and Kharoshthi), Tamil to IPA (web request).", "quantifier": "all input strings (arbitrary code points), all listed script pairs", "why_tests_cant": "An exception may depend on rare characters; no finite test set covers all strings.", "anchors": ["aksharamukha/transliterate.py:convert", "aksharamukha/transliterate.py:process_default", "aksharamukha/ConvertFix.py", "aksharamukha/PostProcess.py", "aksharamukha/PreProcess.py"]}
{"id": "C09", "title": "Empty or Ignore target returns the text", "statement": "convert with target '' or 'Ignore' returns the input text unchanged, whatever the options; the only sources for which this may fail are the Semitic ISO schemes.", "quantifier": "all sources, texts, options", "why_tests_cant": "Ranges over all strings and option lists.", "anchors": ["aksharamukha/transliterate.py:convert"]}
{"id": "C10", "title": "Same script, no options, no nativization is the identity", "statement": "convert(s, s, txt, nativize=False, [], []) returns txt, except when s is a Semitic ISO scheme.", "quantifier": "all script names and texts", "why_tests_cant": "Ranges over all strings.", "anchors": ["aksharamukha/transliterate.py:convert"]}
{"id": "C11", "title": "Recursion is bounded", "statement": "convert calls itself at most three levels deep for any script names and options and never raises RecursionError.", "quantifier": "all script names (including unknown ones), options and texts", "why_tests_cant": "Names are arbitrary strings.", "anchors": ["aksharamukha/transliterate.py:convert", "aksharamukha/GeneralMap.py:semiticISO"]}
{"id": "C12", "title": "Script names are case-insensitive", "statement": "process with two spellings of an Indic or Latin-group script name that differ only in case gives the same result and the same warnings; names of the Semitic group are not folded.", "quantifier": "all names, texts and options", "why_tests_cant": "Ranges over all strings and case variants.", "anchors": ["aksharamukha/transliterate.py:process_default"]}
{"id": "C13", "title": "Option names: case-insensitive, unknown ones dropped, order kept", "statement": "Pre- and post-options are applied in the order given; names are matched case-insensitively against the existing functions; unknown names have no effect; adding an unknown name never changes result or warnings.", "quantifier": "all option lists", "why_tests_cant": "Lists of arbitrary strings.", "anchors": ["aksharamukha/transliterate.py:convert_default"]}
{"id": "C14", "title": "Warnings about unsupported scripts", "statement": "A 'not found' warning for source (target) is issued exactly when the canonical name is in none of the three script lists, and a font warning exactly when the target's metadata has the font_hack flag.", "quantifier": "all names, texts and options", "why_tests_cant": "Ranges over all strings.", "anchors": ["aksharamukha/transliterate.py:convert_default", "aksharamukha/yaml/aksharamukha-scripts.yaml"]}
{"id": "C15", "title": "Unsupported scripts leave the text unchanged", "statement": "The warning promises that the text 'will not be transliterated' when the source or target is unknown.", "quantifier": "all unknown names and all texts", "why_tests_cant": "Ranges over all strings; the claim is refuted by the model with a witness.", "anchors": ["aksharamukha/transliterate.py:convert_default", "aksharamukha/transliterate.py:convert"]}
{"id": "C16", "title": "script_code picks the most popular matching script", "statement": "process(..., param='script_code') selects, among the scripts whose ISO 15924 code equals the given code up to case, the one with the greatest population figure; unknown codes that are not Semitic script names raise the 'not found' exception before any conversion.", "quantifier": "all code strings, texts and options", "why_tests_cant": "Codes are arbitrary strings.", "anchors": ["aksharamukha/transliterate.py:process_script_tag"]}
{"id": "C17", "title": "lang_code lookup", "statement": "process(..., param='lang_code') resolves every language code listed in the metadata of a script, and raises 'not found' for codes that no script lists.", "quantifier": "all code strings", "why_tests_cant": "Codes are arbitrary strings; for the second and further codes of a script the claim is refuted.", "anchors": ["aksharamukha/transliterate.py:process_lang_tag", "aksharamukha/yaml/aksharamukha-scripts.yaml"]}
{"id": "C18", "title": "Latin and Sanskrit defaults", "statement": "Code 'Latn'/'en'/'eng' (script) or 'la'/'en'/'eng' (language) means ISO 15919 unless a scheme is named after a hyphen; 'sa','san','pi','pli' mean Devanagari.", "quantifier": "all texts, case variants and options", "why_tests_cant": "Ranges over all strings.", "anchors": ["aksharamukha/transliterate.py:process_script_tag", "aksharamukha/transliterate.py:process_lang_tag"]}
{"id": "C19", "title": "Itrans ## segments are verbatim", "statement": "With source Itrans, text between pairs of ## is copied unchanged by the script conversion and the parts outside are converted independently.", "quantifier": "all texts with any number of ## markers", "why_tests_cant": "Unbounded number of segments and contents.", "anchors": ["aksharamukha/transliterate.py:convert"]}
{"id": "C20", "title": "Latin letters survive Semitic conversions", "statement": "The protection of Latin text (retainLatin) applied and undone returns the original text for every text; letters that are not protected are named.", "quantifier": "all texts", "why_tests_cant": "Ranges over all strings.", "anchors": ["aksharamukha/PreProcess.py:retainLatin"]}
{"id": "C21", "title": "auto_detect is decided by the majority script", "statement": "auto_detect depends on the text's code points only through the number of characters of each script (for scripts without special treatment): it returns the script with the largest count, ties broken by name; it fails on the empty text.", "quantifier": "all texts, any Unicode name database", "why_tests_cant": "All multisets of characters.", "anchors": ["aksharamukha/transliterate.py:auto_detect"]}
{"id": "C22", "title": "detect_preoptions returns only existing options", "statement": "Every option returned by detect_preoptions is a function of PreProcess, so autodetection never introduces an unknown option.", "quantifier": "all texts and script names", "why_tests_cant": "Ranges over all strings.", "anchors": ["aksharamukha/transliterate.py:detect_preoptions", "aksharamukha/PreProcess.py"]}
{"id": "C23", "title": "Autodetection and user pre-options", "statement": "With source 'autodetect' the user's pre-options have no influence on the result (they are replaced by the detected ones); for script_code and lang_code no detected option is applied.", "quantifier": "all texts, options", "why_tests_cant": "Ranges over all strings and lists.", "anchors": ["aksharamukha/transliterate.py:process_default", "aksharamukha/transliterate.py:process_script_tag", "aksharamukha/transliterate.py:process_lang_tag"]}
{"id": "C24", "title": "File API leaves the input file alone", "statement": "transliterate_file.process never changes the input file; it creates exactly one file, named after the input with source and target inserted before the extension, whose content is the conversion of the input.", "quantifier": "all file systems, file names, contents", "why_tests_cant": "All file system states and names.", "anchors": ["aksharamukha/transliterate_file.py"]}
{"id": "C25", "title": "File API: failure leaves no output", "statement": "If conversion of a .txt file raises, no output file appears. (Refuted: an empty output file is left, and an existing one is truncated.)", "quantifier": "all file systems and contents", "why_tests_cant": "Crash points within the call.", "anchors": ["aksharamukha/transliterate_file.py:convert_txt"]}
{"id": "C26", "title": "File API: options reach the right stage", "statement": "Pre- and post-options given for a .docx file are used like those for a .txt file. (Refuted: they are swapped.)", "quantifier": "all documents and options", "why_tests_cant": "All documents.", "anchors": ["aksharamukha/transliterate_file.py:xml_file_to_convert"]}
{"id": "C27", "title": "Internal markers never leak", "statement": "The private-use and marker characters used between the stages of a conversion never appear in the output unless they were in the input.", "quantifier": "all input texts, listed script pairs", "why_tests_cant": "Ranges over all strings.", "anchors": ["aksharamukha/Convert.py:convertScript", "aksharamukha/ConvertFix.py"]}
{"id": "C28", "title": "Longest match first", "statement": "The replacement pairs used by a conversion are ordered so that no pair is preceded by a pair whose source is a proper prefix of its own source, and the order is a permutation of the zipped tables.", "quantifier": "all source/target scripts", "why_tests_cant": "Holds by the sorting algorithm for all tables, not for sampled ones.", "anchors": ["aksharamukha/Convert.py:lenSort", "aksharamukha/Convert.py:convertScript"]}
{"id": "C29", "title": "Kharoshthi numerals denote the number", "statement": "The numeral substituted for a decimal number in Kharoshthi and Old Persian output denotes the same number in the additive-multiplicative system.", "quantifier": "all natural numbers below 2^53", "why_tests_cant": "Infinitely many numbers.", "anchors": ["aksharamukha/ConvertFix.py:kharoshthiNumber", "aksharamukha/ConvertFix.py:oldPersianNumber"]}
{"id": "C30", "title": "Removing diacritics is idempotent and only deletes", "statement": "The diacritic-removal post-options delete only the listed marks, keep the order of everything else, and applying them twice equals applying them once.", "quantifier": "all texts", "why_tests_cant": "Ranges over all strings.", "anchors": ["aksharamukha/PostProcess.py:RemoveDiacritics", "aksharamukha/PostProcess.py:RemoveDiacriticsTamil"]}
{"id": "C31", "title": "Unusable options raise for every text", "statement": "Some advertised option names cannot be used at all: they raise the same exception for every text.", "quantifier": "all texts", "why_tests_cant": "That no text works is a universal statement.", "anchors": ["aksharamukha/PreProcess.py", "aksharamukha/PostProcess.py"]}
{"id": "C32", "title": "Semitic engine: same script is the identity", "statement": "Transliterating between equal Semitic scripts in the gimeltra engine returns the text unchanged.", "quantifier": "all texts and script codes", "why_tests_cant": "Ranges over all strings.", "anchors": ["aksharamukha/gimeltra.py:tr"]}
{"id": "C33", "title": "Danda options", "statement": "The options that turn dots into dandas/pipes and back are inverse on texts without the other convention. The option RetainDevangariDanda, and indicDandas for scripts that write dandas, keep every danda of the text in order (two single ones in a row may become a double one), as dandas or, in romanizations, as pipes; indicDandas loses no stroke of a romanized text with pipes. Left out: RomanLoC, Semitic scripts, and the few scripts that disturb foreign characters (C36).", "quantifier": "all texts", "why_tests_cant": "Ranges over all strings.", "anchors": ["aksharamukha/PostProcess.py", "aksharamukha/PreProcess.py:RetainDevangariDanda"]}
{"id": "C34", "title": "Table extension on import is deterministic", "statement": "Importing any script module extends each of its seven character lists by exactly the fall-back entries, keeping the original entries as a prefix, so that positions in tables of different scripts correspond.", "quantifier": "all script modules", "why_tests_cant": "Correspondence of positions across all tables is a relational invariant.", "anchors": ["aksharamukha/GeneralMap.py:add_additional_chars", "aksharamukha/FallBack.py"]}
{"id": "C35", "title": "The path does not matter", "statement": "For scripts A and B that represent a Devanagari text, converting the text to A and the result to B gives the same as converting the text to B directly (nativize=False); so does any chain of conversions that ends in B.", "quantifier": "all well-formed Devanagari texts that the scripts represent, chains of any length of the 19 scripts and schemes declared reversible, and all ordered pairs of 28 Indic scripts with few exceptions (BengaliRaBa with three others, Takri)", "why_tests_cant": "Compares two composed conversions for infinitely many texts and quadratically many pairs.", "anchors": ["aksharamukha/transliterate.py:convert", "aksharamukha/Convert.py:convertScript"]}
{"id": "C36", "title": "Foreign characters are never lost, doubled or reordered", "statement": "For every supported pair of scripts and all known options, the characters of the result that belong to no script the library handles (line breaks, tabs, the percent sign, dashes, guillemets, curly double quotes, bullets, currency signs, ideographs, emoji, dingbats, ...) are exactly those of the text: the same ones, each as many times, in the same order. Named exceptions, each with a witness: sources Velthuis, Urdu, Shahmukhi, Soyombo, HanifiRohingya, IPA, Hebrew, Thaana and Semitic sources to non-Semitic targets; targets Gurmukhi, GurmukhiLoC, Soyombo, IPA and Semitic targets that are neither Arabic nor Hebrew nor Latin; the options TakriRemoveGemination and TaiThamMoveNnga; CJK compatibility ideographs, which Unicode normalization replaces.", "quantifier": "all texts, all option lists, both values of nativize, about 139 sources and 150 targets", "why_tests_cant": "Any of some thousand regular expressions with a dot or a negated class can swallow or copy a neighbour; over a million code points, unbounded contexts, all option combinations.", "anchors": ["aksharamukha/transliterate.py:convert", "aksharamukha/ConvertFix.py", "aksharamukha/PostProcess.py", "aksharamukha/PreProcess.py"]}
{"id": "C37", "title": "Line breaks survive", "statement": "For every supported pair of scripts and all known options, a conversion that returns gives a text with exactly as many line feeds, hence as many lines, as the input; nothing joins, splits, drops or duplicates lines. Foreign characters moreover stay on their line. The one exception, with a witness, is the option TaiThamMoveNnga, which returns a fixed word whatever the text.", "quantifier": "all texts, all supported pairs of names, all option lists without that option, both values of nativize", "why_tests_cant": "Thousands of regular expressions with white space classes, dots, negated classes and anchors; unbounded texts; all option combinations.", "anchors": ["aksharamukha/transliterate.py:convert", "aksharamukha/ConvertFix.py", "aksharamukha/PostProcess.py", "aksharamukha/PreProcess.py", "aksharamukha/Convert.py"]}
{"id": "C38", "title": "A document may be converted line by line", "statement": "Converting two texts with a line feed between them gives the two conversions with a line feed between them: nothing on one line influences the next. So the conversion of a document is the conversion of its lines. This holds for the scripts the code lists as Indic or Latin but for ten sources and eleven targets named in the specification, for nearly all options, any texts, with provisos that are refuted without: with a source whose om is a word, and an Indic target, the words next to the line feed do not contain a certain letter of om; in the Roman schemes that use bars for dandas, the text has no bar, and in Itrans no # (text between ## is left alone) and no O.", "quantifier": "all pairs of texts meeting the provisos, all pairs of the scripts named, all lists of the options named, both values of nativize", "why_tests_cant": "Hundreds of regular expressions with white space classes, negated classes and look-arounds per pair, anchors, global switches (if X in text), normalization; unbounded texts; thousands of pairs.", "anchors": ["aksharamukha/transliterate.py:convert", "aksharamukha/Convert.py:convertScript", "aksharamukha/ConvertFix.py", "aksharamukha/PreProcess.py", "aksharamukha/PostProcess.py"]}
{"id": "C39", "title": "A text may be converted word by word", "statement": "Converting words with blanks between them gives the converted words with blanks between them: no word influences its neighbours. The same holds for other white space, and for the marks , - / ; and ?. This holds for the scripts the code lists as Indic or Latin but for 17 sources and 27 targets named in the specification (Tibetan, for which it is refuted, writes its own mark for a blank), for nearly all options, and any words, with the provisos of C38: with a source whose om is a word and an Indic target, the words do not contain a certain letter of om (refuted without: of four oms in a row the third stays a word); in the Roman schemes that use bars for dandas no bar, in Itrans no # and no O.", "quantifier": "all lists of words meeting the provisos, all pairs of the scripts named, all lists of the options named, both values of nativize", "why_tests_cant": "Rules with white space classes, word boundaries, negated classes and look-arounds may look across a blank; unbounded texts, thousands of pairs.", "anchors": ["aksharamukha/transliterate.py:convert", "aksharamukha/Convert.py:convertScript", "aksharamukha/ConvertFix.py", "aksharamukha/PreProcess.py", "aksharamukha/PostProcess.py"]}
{"id": "C40", "title": "What nativize does when the target has no conventions", "statement": "nativize is on by default. For a target without conventions of its own in PostOptions.py, it changes the result in one way: the five marks ʼ ˇ ˆ ˘ · are deleted from it. Hence it changes nothing if the result without it has none of them. This holds for any text and any pre-options, no post-options, 141 sources and 119 targets: all names the code lists as Indic or Latin but the Semitic ones, RomanLoC, IPA and the Japanese syllabaries, and the targets with conventions, each of which is shown to change more.", "quantifier": "all texts, all lists of pre-options, all pairs of the scripts named", "why_tests_cant": "The steps after nativize could restore, split or join marks; unbounded texts, 16000 pairs.", "anchors": ["aksharamukha/transliterate.py:convert", "aksharamukha/PostOptions.py:ApplyScriptDefaults", "aksharamukha/PostProcess.py:RemoveDiacritics", "aksharamukha/PostProcess.py:defaultPost"]}
{"id": "C41", "title": "Different texts stay different", "statement": "No two texts that a script or scheme declared reversible carries (as in C01, C02) have the same conversion into it; and converting from one of the 19 to another never makes two such texts equal.", "quantifier": "all pairs of texts, of any length, all ordered pairs of the 19 scripts and schemes", "why_tests_cant": "A collision concerns two unbounded texts; tests compare single words with expected output.", "anchors": ["aksharamukha/transliterate.py:convert", "aksharamukha/Convert.py:convertScript", "aksharamukha/GeneralMap.py:ReversibleScripts"]}
{"id": "C42", "title": "The numeral options change digits and nothing else", "statement": "With the option romanNumerals the result is that without it, with each digit of the target replaced by 0 to 9; with indicNumerals, each of 0 to 9 replaced by the digit of the target unless it follows the letter h. Everything else stays, so after romanNumerals no digit of the target is left. The digits of a target are ten consecutive characters of Unicode, given with the specification. This holds for any text, pre-options and nativize, 141 sources and 140 targets (all names listed as Indic or Latin but the Semitic ones, RomanLoC, IPA, the Japanese syllabaries, and TolongSiki as a target).", "quantifier": "all texts, all lists of pre-options, both values of nativize, all pairs of the scripts named", "why_tests_cant": "Twenty substitutions in sequence, ten with a look-behind, before further substitutions; 140 tables of digits; unbounded texts.", "anchors": ["aksharamukha/PostProcess.py:RetainIndicNumerals", "aksharamukha/PostProcess.py:defaultPost", "aksharamukha/transliterate.py:convert"]}
{"id": "C43", "title": "A text converted into its own script comes back, less removable marks", "statement": "With nativize, the default, equal source and target are converted to Devanagari and back instead of being returned unchanged. For 17 Indic scripts and the 8 reversible Roman schemes, all without conventions of their own, a text that is the image of a Devanagari text (of the letters the script represents) comes back unchanged except that the characters ʼˇˆ˘· are deleted; without those nothing changes, for transliterate.process with the name in any case and either value of nativize. False for scripts with conventions (Telugu), and for Devanagari letters inside a Roman text, which are transliterated.", "quantifier": "all Devanagari texts of the letters the script represents, all scripts named, any case of the name", "why_tests_cant": "The conversion runs two full pipelines, without the final steps between them; unbounded texts.", "anchors": ["aksharamukha/transliterate.py:convert", "aksharamukha/transliterate.py:process", "aksharamukha/Convert.py:convertScript"]}
{"id": "C44", "title": "With nativize the result does not depend on the script the text comes from", "statement": "With the default settings, conversion applies the conventions of the target (assimilation of nasals in Telugu, Kannada and Malayalam, b for v in Bengali, and so on). For a text given in any of the 11 reversible Indic scripts or 8 reversible Roman schemes, as the image of a Devanagari text, and a target among the reversible Indic scripts, the result is that of converting the Devanagari text with the same settings: two sources give the same. The same for the 28 Indic scripts of C35 as sources and targets. A chain of such conversions through scripts without conventions, with texts free of removable marks, ends where the last conversion alone would.", "quantifier": "all Devanagari texts of the letters that source and target represent, all pairs of the scripts named, any case of the names", "why_tests_cant": "Hundreds of pairs, each with substitutions depending on unbounded context; the conventions are further substitutions on top.", "anchors": ["aksharamukha/transliterate.py:convert", "aksharamukha/transliterate.py:process", "aksharamukha/PostOptions.py:ApplyScriptDefaults", "aksharamukha/Convert.py:convertScript"]}
{"id": "C45", "title": "With post-options the result does not depend on the script the text comes from", "statement": "For any list of post-options, known or unknown, repeated or not, other than indicDandas (whose effect is chosen by the source) and BengaliRaBa (which replaces the target), with or without nativize and without pre-options: a text given in any of the 11 reversible Indic scripts or 8 reversible Roman schemes, as the image of a Devanagari text, converts to a reversible Indic script other than its own and Devanagari exactly as the Devanagari text does with the same options, including which exception is raised if one is.", "quantifier": "all lists of post-options without the two named, both values of nativize, all Devanagari texts of the letters that source and target represent, all pairs of the scripts named", "why_tests_cant": "Lists of options are unbounded, and combine with every pair of scripts and unbounded texts.", "anchors": ["aksharamukha/transliterate.py:convert", "aksharamukha/PostOptions.py:ApplyScriptDefaults", "aksharamukha/PostProcess.py:defaultPost", "aksharamukha/Convert.py:convertScript"]}
