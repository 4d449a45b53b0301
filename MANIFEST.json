{
 "claims": [
  {
   "property": "C01",
   "status": "proved",
   "theorems": [
    "roundtrip_reversible",
    "lost_in_lost",
    "roundtrip_indic_partial",
    "roundtrip_contextual_partial",
    "roundtrip_contextual_refuted"
   ],
   "note": "All 11 scripts declared reversible; the excluded strings are each proved lost (lost_in_lost). 19 further scripts over the letters they have (roundtrip_indic_partial)."
  },
  {
   "property": "C02",
   "status": "partial",
   "theorems": [
    "roundtrip_roman_partial",
    "roundtrip_roman_refuted",
    "losses_lost"
   ],
   "note": "All 8 schemes, texts of any length with hiatus and stop+h. No exclusions for IAST, ISO, Titus, WX and Cyrillic; exactly the lossy pairs for HK; for Itrans and Velthuis lossy pairs (each shown lost), and two exclusions wider than the loss: a doubled retroflex l (Itrans; lost before i), the letter o (Velthuis; lost before a single consonant or gap and final m)."
  },
  {
   "property": "C03",
   "status": "proved",
   "theorems": [
    "roundtrip_between",
    "process_roundtrip",
    "roundtrip_between_reversible",
    "roundtrip_between_indic",
    "roundtrip_between_refuted",
    "lost_in_lost"
   ],
   "note": "All ordered pairs of the 19 scripts and schemes declared reversible (11 Indic, 8 Roman), for texts that both carry: the exclusions are those of C01 and C02 (roundtrip_between). Also the pairs among 17 other Indic scripts (roundtrip_between_indic)."
  },
  {
   "property": "C04",
   "status": "proved",
   "theorems": [
    "block_mapping",
    "pairs_complete",
    "block_mapping_refuted"
   ],
   "note": "All ordered pairs of 7 parallel blocks, over the common repertoire; refuted outside it."
  },
  {
   "property": "C05",
   "status": "proved",
   "theorems": [
    "roman_spelling",
    "roman_spelling_refuted"
   ],
   "note": "Ten schemes (the eight reversible ones, IASTPali, ISOPali); refuted outside the conditions for Velthuis."
  },
  {
   "property": "C06",
   "status": "partial",
   "theorems": [
    "letter_by_letter",
    "piecewise_indic",
    "piecewise_roman",
    "foreign_kept_contextual",
    "foreign_kept_between",
    "line_by_line",
    "symbol_apart",
    "word_apart",
    "mark_apart",
    "pieces_apart",
    "text_by_pieces",
    "process_cut_apart"
   ],
   "note": "Devanagari to 22 Indic scripts and 10 Roman schemes, cut anywhere; Devanagari to and from 7 further scripts and between any two of 28 scripts (few pairs excepted), cut at a foreign character. Cut at line feeds, white space, certain marks and foreign symbols, for nearly all Indic and Latin scripts and options (Pieces.v; conditions on om, refuted without them). Missing: cuts between letters for other sources."
  },
  {
   "property": "C07",
   "status": "partial",
   "theorems": [
    "letter_by_letter",
    "foreign_kept",
    "foreign_kept_roman",
    "foreign_kept_contextual",
    "foreign_kept_between",
    "foreign_survive",
    "symbol_apart",
    "pieces_apart",
    "text_by_pieces",
    "process_cut_apart",
    "symbol_apart_om_refuted",
    "symbol_apart_itrans_refuted"
   ],
   "note": "In place and without effect on the neighbours: Devanagari to 22 Indic scripts and 10 Roman schemes, to and from 7 further scripts, and between any two of 28 Indic scripts (few pairs excepted). Nearly all pairs of Indic and Latin scripts and options, for symbols that are no white space (symbol_apart; om must not stand next to the symbol, refuted without it). Never lost, doubled or reordered: see C36. Missing: 16 sources and 22 targets, most of them refuted in C36, and the Semitic scripts."
  },
  {
   "property": "C08",
   "status": "proved",
   "theorems": [
    "convert_total",
    "process_total",
    "process_total_plain",
    "always_a_string_refuted",
    "table_options_refuted",
    "unusable_options"
   ],
   "note": "32931 of the 33856 ordered pairs of names; Kharoshthi and OldPersian are left out (numbers beyond 2^53 go through floats), the other exceptions raise."
  },
  {
   "property": "C09",
   "status": "proved",
   "theorems": [
    "empty_target",
    "empty_target_iso_refuted"
   ],
   "note": "With the exception named in the statement."
  },
  {
   "property": "C10",
   "status": "proved",
   "theorems": [
    "same_script",
    "same_script_iso_refuted"
   ],
   "note": "With the exception named in the statement."
  },
  {
   "property": "C11",
   "status": "proved",
   "theorems": [
    "recursion_bounded",
    "convert_unfold"
   ],
   "note": ""
  },
  {
   "property": "C12",
   "status": "proved",
   "theorems": [
    "names_case_insensitive",
    "canonical_listed",
    "semitic_names_case_sensitive"
   ],
   "note": ""
  },
  {
   "property": "C13",
   "status": "proved",
   "theorems": [
    "unknown_post_option_ignored",
    "unknown_pre_option_ignored",
    "options_case_insensitive",
    "pre_option_unique",
    "post_option_unique",
    "post_option_two",
    "options_in_order"
   ],
   "note": ""
  },
  {
   "property": "C14",
   "status": "proved",
   "theorems": [
    "source_warning_iff",
    "target_warning_iff",
    "font_warning_iff",
    "no_warning",
    "warnings_static"
   ],
   "note": ""
  },
  {
   "property": "C15",
   "status": "proved",
   "theorems": [
    "unsupported_unchanged_refuted"
   ],
   "note": "Refuted: the text may be changed although the warning says it will not."
  },
  {
   "property": "C16",
   "status": "proved",
   "theorems": [
    "script_code_resolves",
    "script_code_source_not_found",
    "script_code_target_not_found"
   ],
   "note": ""
  },
  {
   "property": "C17",
   "status": "proved",
   "theorems": [
    "lang_code_resolves",
    "lang_code_source_not_found",
    "lang_code_target_not_found",
    "listed_lang_found",
    "lang_code_listed_refuted",
    "empty_lang_code_refuted"
   ],
   "note": "Proved for the codes that survive the lookup; refuted for codes listed with upper-case letters or blanks."
  },
  {
   "property": "C18",
   "status": "proved",
   "theorems": [
    "latin_code_means_iso",
    "latin_scheme",
    "latin_lang_means_iso",
    "latin_lang_scheme",
    "sanskrit_means_devanagari"
   ],
   "note": ""
  },
  {
   "property": "C19",
   "status": "proved",
   "theorems": [
    "itrans_segments",
    "itrans_parts",
    "itrans_verbatim_refuted"
   ],
   "note": "Proved for the script conversion, as stated; the steps before it do change text between the markers (refutation)."
  },
  {
   "property": "C20",
   "status": "proved",
   "theorems": [
    "retain_latin_roundtrip",
    "retain_latin_roundtrip_refuted",
    "latin_letters_protected",
    "latin_letters_protected_refuted",
    "latin_o_macron_converted"
   ],
   "note": "Proved for texts without the marker characters; refuted with them."
  },
  {
   "property": "C21",
   "status": "proved",
   "theorems": [
    "detect_majority",
    "detect_plain",
    "detect_permutation",
    "detect_empty",
    "detect_plugin_latin_only"
   ],
   "note": ""
  },
  {
   "property": "C22",
   "status": "proved",
   "theorems": [
    "detected_options_exist",
    "detected_options_applied"
   ],
   "note": ""
  },
  {
   "property": "C23",
   "status": "proved",
   "theorems": [
    "autodetect_ignores_pre",
    "autodetect_default",
    "autodetect_script_code",
    "autodetect_lang_code"
   ],
   "note": ""
  },
  {
   "property": "C24",
   "status": "proved",
   "theorems": [
    "only_output_touched",
    "input_file_untouched",
    "txt_output",
    "txt_succeeds",
    "html_output",
    "docx_output",
    "utf8_roundtrip",
    "splitext_parts",
    "nothing_done",
    "api_mode_no_output"
   ],
   "note": "bs4, lxml and zipfile are parameters. The name has the form stem_SourceTarget.ext, for .docx stem_Source_Target.ext."
  },
  {
   "property": "C25",
   "status": "proved",
   "theorems": [
    "txt_failure",
    "no_output_on_failure_refuted",
    "txt_not_utf8",
    "docx_failure",
    "html_failure"
   ],
   "note": "Refuted for .txt, as announced in the statement; proved for .docx and .html."
  },
  {
   "property": "C26",
   "status": "proved",
   "theorems": [
    "docx_output",
    "options_same_stage_refuted"
   ],
   "note": "Refuted, as announced in the statement; docx_output says what is done instead."
  },
  {
   "property": "C27",
   "status": "proved",
   "theorems": [
    "no_marker_leaks",
    "process_no_marker_leaks",
    "process_no_marker_leaks_plain",
    "letter_option_leaks_refuted",
    "marking_option_leaks_refuted",
    "private_alphabet_leaks_refuted"
   ],
   "note": "All texts and options, all supported scripts; the targets whose own alphabet is private use, letter options with a non-Semitic source, and marking options with Itrans are excluded, and shown to leak."
  },
  {
   "property": "C28",
   "status": "proved",
   "theorems": [
    "indic_pairs_longest_first",
    "latin_indic_longest_first",
    "to_inter_longest_first",
    "indic_latin_longest_first",
    "groups_correspond",
    "zipped_defined",
    "conversions_longest_first"
   ],
   "note": ""
  },
  {
   "property": "C29",
   "status": "proved",
   "theorems": [
    "kharoshthi_denotes",
    "old_persian_denotes",
    "zero_vanishes",
    "kharoshthi_numbers_in_text",
    "old_persian_numbers_in_text",
    "leading_zeros_refuted"
   ],
   "note": ""
  },
  {
   "property": "C30",
   "status": "proved",
   "theorems": [
    "remove_diacritics_deletes",
    "remove_diacritics_tamil_deletes",
    "remove_diacritics_idempotent",
    "removeDiacritics_strips",
    "removeDiacritics_idempotent",
    "removeDiacriticsArabic_deletes",
    "removeDiacritics_noop"
   ],
   "note": ""
  },
  {
   "property": "C31",
   "status": "proved",
   "theorems": [
    "unusable_listed",
    "unusable_post_fails",
    "unusable_pre_fails",
    "unusable_options_raise",
    "unusable_post_option_raises",
    "unusable_pre_option_raises"
   ],
   "note": ""
  },
  {
   "property": "C32",
   "status": "proved",
   "theorems": [
    "gimeltra_same_script"
   ],
   "note": ""
  },
  {
   "property": "C33",
   "status": "proved",
   "theorems": [
    "dandas_to_dots",
    "dots_dandas_dots",
    "dandas_dots_dandas",
    "dandas_dots_dandas_refuted",
    "dots_pipes_dots",
    "dandas_retained",
    "indic_dandas_retained",
    "pipe_dandas_retained",
    "dandas_merge_refuted",
    "pipe_script_dandas_refuted"
   ],
   "note": "The refutations show why the exceptions in the statement are needed."
  },
  {
   "property": "C34",
   "status": "proved",
   "theorems": [
    "import_extends",
    "modules_extended",
    "all_modules_extend"
   ],
   "note": ""
  },
  {
   "property": "C35",
   "status": "proved",
   "theorems": [
    "convert_carried",
    "chain_independent",
    "path_independent",
    "roundtrip_between_refuted"
   ],
   "note": "All ordered pairs, and chains of any length, of the 19 scripts and schemes declared reversible. All ordered pairs of 28 Indic scripts, but BengaliRaBa with Bengali and Assamese (refuted) or GranthaGrantamil, and Takri with any but Devanagari."
  },
  {
   "property": "C36",
   "status": "proved",
   "theorems": [
    "foreign_survive",
    "foreign_survive_decomposed",
    "process_foreign_survive",
    "velthuis_foreign_refuted",
    "urdu_foreign_refuted",
    "shahmukhi_foreign_refuted",
    "soyombo_foreign_refuted",
    "rohingya_foreign_refuted",
    "ipa_source_foreign_refuted",
    "hebrew_foreign_refuted",
    "thaana_foreign_refuted",
    "semitic_source_foreign_refuted",
    "gurmukhi_foreign_refuted",
    "gurmukhi_loc_foreign_refuted",
    "soyombo_target_foreign_refuted",
    "ipa_target_foreign_refuted",
    "semitic_target_foreign_refuted",
    "takri_gemination_foreign_refuted",
    "tai_tham_nnga_foreign_refuted",
    "variant_foreign_refuted"
   ],
   "note": "All supported pairs outside the named exceptions; the refutations show that the exceptions are needed."
  },
  {
   "property": "C37",
   "status": "proved",
   "theorems": [
    "lines_survive",
    "lines_kept",
    "foreign_lines",
    "process_lines_survive",
    "tai_tham_nnga_lines_refuted"
   ],
   "note": "All supported pairs and all known options but TaiThamMoveNnga, which is refuted with a witness."
  },
  {
   "property": "C38",
   "status": "proved",
   "theorems": [
    "line_by_line",
    "lines_by_line",
    "text_by_lines",
    "process_line_by_line",
    "line_by_line_om_refuted",
    "line_by_line_bar_refuted",
    "line_by_line_itrans_refuted",
    "line_by_line_kannada_refuted"
   ],
   "note": "All Indic and Latin scripts of the code but 10 sources and 11 targets (LineByLine.other_sources, other_targets). The provisos about om and bars are refuted without."
  },
  {
   "property": "C39",
   "status": "proved",
   "theorems": [
    "word_apart",
    "mark_apart",
    "words_by_word",
    "text_by_words",
    "pieces_apart",
    "process_cut_apart",
    "words_by_word_om_refuted",
    "words_by_word_tibetan_refuted"
   ],
   "note": "All Indic and Latin scripts of the code but 17 sources and 27 targets (WordByWord.word_sources, word_targets); other lists for marks. The proviso about om is refuted without."
  },
  {
   "property": "C40",
   "status": "proved",
   "theorems": [
    "nativize_deletes",
    "process_nativize_deletes",
    "nativize_deletes_refuted",
    "default_carried",
    "default_roundtrip",
    "default_roundtrip_refuted"
   ],
   "note": "141 sources, 119 targets, all texts and pre-options. The targets excluded for their conventions are each shown to change more."
  },
  {
   "property": "C41",
   "status": "proved",
   "theorems": [
    "carried_injective",
    "carried_distinct"
   ],
   "note": "All 19 scripts and schemes declared reversible, over the texts of C01 and C02."
  },
  {
   "property": "C42",
   "status": "proved",
   "theorems": [
    "roman_numerals",
    "indic_numerals",
    "roman_numerals_only",
    "process_numerals",
    "indic_numerals_h_refuted"
   ],
   "note": "141 sources, 140 targets, all texts and pre-options, with and without nativize."
  },
  {
   "property": "C43",
   "status": "proved",
   "theorems": [
    "own_script",
    "own_scheme",
    "process_own",
    "own_refuted"
   ],
   "note": "17 Indic scripts and 8 Roman schemes; the exceptions are shown in own_refuted."
  },
  {
   "property": "C44",
   "status": "proved",
   "theorems": [
    "default_independent",
    "default_independent_scripts",
    "default_chain_independent",
    "default_chain_last",
    "process_independent"
   ],
   "note": "19 sources, 10 targets; 28 Indic scripts both ways."
  },
  {
   "property": "C45",
   "status": "proved",
   "theorems": [
    "options_independent"
   ],
   "note": "19 sources, 10 targets, either nativize, every list of post-options but two."
  }
 ]
}