{
 "claims": [
  {
   "property": "C01",
   "status": "proved",
   "theorems": [
    "C01_rectangular"
   ],
   "note": "for well-formed designs (C28) and analysed input; indentation without unexpanded tabs"
  },
  {
   "property": "C02",
   "status": "proved",
   "theorems": [
    "C02_text_survives",
    "C02_verbatim"
   ],
   "note": ""
  },
  {
   "property": "C03",
   "status": "proved",
   "theorems": [
    "C03_row_count"
   ],
   "note": ""
  },
  {
   "property": "C04",
   "status": "proved",
   "theorems": [
    "C04_sides_agree"
   ],
   "note": ""
  },
  {
   "property": "C05",
   "status": "proved",
   "theorems": [
    "C05_shape_usage"
   ],
   "note": ""
  },
  {
   "property": "C06",
   "status": "proved",
   "theorems": [
    "C06_terminates_iff",
    "C06_single_elastic",
    "C06_always_terminates_refuted"
   ],
   "note": "exact condition; unconditional termination is refuted"
  },
  {
   "property": "C07",
   "status": "proved",
   "theorems": [
    "C07_at_least",
    "C07_exact_width",
    "C07_exact_height"
   ],
   "note": ""
  },
  {
   "property": "C08",
   "status": "proved",
   "theorems": [
    "C08_effective_padding",
    "C08_padding_honoured",
    "C08_right_padding_refuted"
   ],
   "note": "one exception (right aligned, one spare column) is exhibited"
  },
  {
   "property": "C09",
   "status": "proved",
   "theorems": [
    "C09_alignment"
   ],
   "note": ""
  },
  {
   "property": "C10",
   "status": "proved",
   "theorems": [
    "C10_justification"
   ],
   "note": ""
  },
  {
   "property": "C11",
   "status": "proved",
   "theorems": [
    "C11_no_internal_failure",
    "C11_tab_indent_refuted"
   ],
   "note": "fails formally when tabs are put into the box indentation (-t Nu / -t Nk)"
  },
  {
   "property": "C12",
   "status": "proved",
   "theorems": [
    "C12_line_terminators"
   ],
   "note": ""
  },
  {
   "property": "C13",
   "status": "proved",
   "theorems": [
    "C13_no_trailing_blanks",
    "C13_blank_rows_refuted"
   ],
   "note": ""
  },
  {
   "property": "C14",
   "status": "proved",
   "theorems": [
    "C14_char_accounting",
    "C14_accounting_gap",
    "C14_unconditional_refuted"
   ],
   "note": "exact gap: one character per unknown ESC sequence"
  },
  {
   "property": "C15",
   "status": "proved",
   "theorems": [
    "C15_column_width"
   ],
   "note": ""
  },
  {
   "property": "C16",
   "status": "proved",
   "theorems": [
    "C16_colour_stripping",
    "C16_unknown_sequences_refuted"
   ],
   "note": ""
  },
  {
   "property": "C17",
   "status": "proved",
   "theorems": [
    "C17_visible_index"
   ],
   "note": ""
  },
  {
   "property": "C18",
   "status": "proved",
   "theorems": [
    "C18_buffers",
    "C18_only_bad_chars_fail",
    "C18_tabs_refuted"
   ],
   "note": ""
  },
  {
   "property": "C19",
   "status": "proved",
   "theorems": [
    "C19_rtrim",
    "C19_trim",
    "C19_blank_line_refuted",
    "C19_wide_blank_refuted"
   ],
   "note": "strings without tabs and unknown sequences"
  },
  {
   "property": "C21",
   "status": "proved",
   "theorems": [
    "C21_prepend_rebuild",
    "C21_append_rebuild",
    "C21_append_blank_refuted",
    "C21_substr"
   ],
   "note": "concatenation is a rebuild by definition of the code"
  },
  {
   "property": "C20",
   "status": "proved",
   "theorems": [
    "C20_unindent",
    "C20_wide_blank_refuted",
    "C20_colour_lost_refuted"
   ],
   "note": "narrow leading blanks; the unconditional claim is refuted for double-width blanks, and escape sequences in front of removed blanks are lost"
  },
  {
   "property": "C22",
   "status": "proved",
   "theorems": [
    "C22_expand_tabs",
    "C22_no_truncation",
    "C22_tab_stops",
    "C22_wide_text_refuted",
    "C22_long_line_refuted"
   ],
   "note": "tab stops are counted in characters, so wide text before a tab is refuted; lines over the limit are cut"
  },
  {
   "property": "C23",
   "status": "proved",
   "theorems": [
    "C23_unexpand"
   ],
   "note": ""
  },
  {
   "property": "C24",
   "status": "proved",
   "theorems": [
    "C24_keep_one_tab",
    "C24_two_tabs_refuted"
   ],
   "note": "two or more tabs in the indentation: refuted"
  },
  {
   "property": "C25",
   "status": "proved",
   "theorems": [
    "C25_common_indent",
    "C25_indent_of_input"
   ],
   "note": ""
  },
  {
   "property": "C26",
   "status": "proved",
   "theorems": [
    "C26_trim",
    "C26_no_text_lost",
    "C26_reset_lost_refuted"
   ],
   "note": "complete, known escape sequences"
  },
  {
   "property": "C27",
   "status": "proved",
   "theorems": [
    "C27_remove_mode",
    "C27_empty_line_refuted"
   ],
   "note": "exact: only the line consisting of a line feed fails"
  },
  {
   "property": "C50",
   "status": "proved",
   "theorems": [
    "C50_input_stage"
   ],
   "note": "without substitution rules"
  },
  {
   "property": "C51",
   "status": "proved",
   "theorems": [
    "C51_never_fails",
    "C51_never_fails_rules",
    "C51_end_to_end",
    "C51_drawn"
   ],
   "note": "tabs expanded (the default); verbatim statement without justification"
  },
  {
   "property": "C52",
   "status": "proved",
   "theorems": [
    "C52_substitutions",
    "C52_width_refuted"
   ],
   "note": "Rules are arbitrary functions from text to text that keep text well-behaved; the regular expression engine is not modelled. The recorded width is an upper bound only (refuted as equality)."
  },
  {
   "property": "C53",
   "status": "proved",
   "theorems": [
    "C53_splitting",
    "C53_no_loss",
    "C53_short_lines"
   ],
   "note": "One-byte characters or lines shorter than the buffer."
  },
  {
   "property": "C35",
   "status": "proved",
   "theorems": [
    "C35_sound",
    "C35_no_failure",
    "C35_whole_corner_refuted",
    "C35_wide_indent_refuted"
   ],
   "note": "input lines with narrow indentation; with wide blanks in the indentation an array is read out of bounds (refuted), and a non-blank first corner character may be missing (refuted)"
  },
  {
   "property": "C36",
   "status": "proved",
   "theorems": [
    "C36_line",
    "C36_top",
    "C36_bottom"
   ],
   "note": "designs and lines without escape sequences, blanks in shapes being spaces; corners included"
  },
  {
   "property": "C37",
   "status": "proved",
   "theorems": [
    "C37_terminates"
   ],
   "note": "the whole removal, not only the matcher"
  },
  {
   "property": "C33",
   "status": "proved",
   "theorems": [
    "C33_no_failure",
    "C33_open_designs",
    "C33_overlap_refuted",
    "C33_crossing_refuted"
   ],
   "note": "input without escape sequences; a line taken for top and bottom, or left and right border sharing a character, make the program fail (both refuted)"
  },
  {
   "property": "C34",
   "status": "proved",
   "theorems": [
    "C34_kept",
    "C34_kept_tall",
    "C34_text_before_border_refuted",
    "C34_indentation_refuted"
   ],
   "note": "input without escape sequences; which lines count as border is bounded by C35/C36"
  },
  {
   "property": "C39",
   "status": "proved",
   "theorems": [
    "C39_killed",
    "C39_kept_blank_refuted"
   ],
   "note": "strings may contain escape sequences; -k 0 does not keep all blank lines (refuted)"
  },
  {
   "property": "C38",
   "status": "proved",
   "theorems": [
    "C38_round_trip",
    "C38_identity",
    "C38_command_line",
    "C38_empty_line_refuted",
    "C38_leading_blank_refuted"
   ],
   "note": "texts without tabs and escape sequences, tabs expanded in the output (-t e); no requested size, no justification"
  },
  {
   "property": "C40",
   "status": "proved",
   "theorems": [
    "C40_remove_then_draw",
    "C40_too_small",
    "C40_detected_size_refuted",
    "C40_padding_refuted"
   ],
   "note": "design chosen by the user; the wrap-around with detected designs is exhibited, and the loss of padding with a requested size"
  },
  {
   "property": "C41",
   "status": "proved",
   "theorems": [
    "C41_best_match",
    "C54_detection_total"
   ],
   "note": "score of each design as computed by the full model of the comparison; that it exists is C54"
  },
  {
   "property": "C54",
   "status": "proved",
   "theorems": [
    "C54_score_exists",
    "C54_detection_total",
    "C54_plain_calm",
    "C54_coloured_shape_refuted"
   ],
   "note": "designs without escape sequences, and coloured ones without leading blanks (calm_design); beyond that a heap write out of bounds is exhibited"
  },
  {
   "property": "C42",
   "status": "proved",
   "theorems": [
    "C42_selection",
    "C42_order",
    "C42_by_text",
    "C42_all_refuted"
   ],
   "note": "queries without restriction; -(all) selects every design (refuted)"
  },
  {
   "property": "C43",
   "status": "proved",
   "theorems": [
    "C43_accepted",
    "C43_tag_pattern",
    "C43_name_pattern",
    "C43_line_feed_refuted"
   ],
   "note": "the regular expressions are matched by a model of PCRE matching restricted to the constructs used; a line feed at the end of a tag is accepted (refuted)"
  },
  {
   "property": "C44",
   "status": "proved",
   "theorems": [
    "C44_sorted",
    "C44_query_output",
    "C44_tag_counts",
    "C44_names"
   ],
   "note": "qsort is a parameter with the contract of the C standard (sorter); isort_sorter shows the contract can be met"
  },
  {
   "property": "C45",
   "status": "proved",
   "theorems": [
    "C45_tabs",
    "C45_ordinary",
    "C45_safe",
    "C45_total",
    "C45_limit_refuted"
   ],
   "note": "numbers beyond 32 bits are cut: 4294967300 is accepted as 4 (refuted)"
  },
  {
   "property": "C46",
   "status": "proved",
   "theorems": [
    "C46_padding",
    "C46_total",
    "C46_in_range",
    "C46_documented",
    "C46_documented_only_refuted"
   ],
   "note": "more than the documented form is accepted: ab3 (refuted)"
  },
  {
   "property": "C47",
   "status": "proved",
   "theorems": [
    "C47_alignment",
    "C47_alignment_total",
    "C47_alignment_range",
    "C47_size",
    "C47_size_range",
    "C47_garbage_refuted"
   ],
   "note": ""
  },
  {
   "property": "C48",
   "status": "proved",
   "theorems": [
    "C48_yes",
    "C48_no",
    "C48_disjoint",
    "C48_second_refuted"
   ],
   "note": "the argument of a second -k is not checked (refuted)"
  },
  {
   "property": "C55",
   "status": "proved",
   "theorems": [
    "C55_in_range",
    "C55_total",
    "C55_order",
    "C55_mend",
    "C55_draw"
   ],
   "note": "what getopt_long returns is a parameter, any sequence of options; fopen succeeding is a parameter"
  },
  {
   "property": "C49",
   "status": "proved",
   "theorems": [
    "C49_plain",
    "C49_said",
    "C49_search",
    "C49_global",
    "C49_said_refuted"
   ],
   "note": "file system and environment are parameters; paths are code points, decoding UTF-8 is not modelled; paths the program can make a string of (printable ASCII suffices), otherwise refuted"
  },
  {
   "property": "C28",
   "status": "proved",
   "theorems": [
    "C28_accepted_designs",
    "C28_built",
    "C28_whole_configuration",
    "C28_reads_behind_array_refuted",
    "C28_sample_not_needed_refuted",
    "C28_control_character_refuted"
   ],
   "note": "statements as the grammar finds them, any of them; strings of shapes are well-behaved text; whatever is found behind the end of the shape array"
  },
  {
   "property": "C29",
   "status": "proved",
   "theorems": [
    "C29_keeps_and_adds_blanks",
    "C29_fits",
    "C29_left_side_refuted"
   ],
   "note": "fits together unless the upper left corner alone tells the width of the left side (refuted then)"
  },
  {
   "property": "C30",
   "status": "proved",
   "theorems": [
    "C30_terminates",
    "C30_order",
    "C30_names_in_a_file",
    "C30_chosen_design",
    "C30_alias_and_name_refuted"
   ],
   "note": "finitely many files that can be opened; the first file is read a second time if it is one of the parents"
  },
  {
   "property": "C56",
   "status": "proved",
   "theorems": [
    "C56_tag_list",
    "C56_all_tags"
   ],
   "note": "tags without escape sequences, tabs and line feeds"
  },
  {
   "property": "C57",
   "status": "proved",
   "theorems": [
    "C57_indent_mode",
    "C57_upper_case_refuted"
   ],
   "note": "upper case is accepted but has no effect (refuted)"
  },
  {
   "property": "C31",
   "status": "proved",
   "theorems": [
    "C31_literals",
    "C31_delimiters",
    "C31_every_text",
    "C31_listing",
    "C31_quote_in_sequence_refuted"
   ],
   "note": "the string rule of the lexer and the listing of a shape line; the exception for escape sequences is exhibited"
  },
  {
   "property": "C32",
   "status": "proved",
   "theorems": [
    "C32_design",
    "C32_ascii_only",
    "C32_control_character",
    "C32_blank",
    "C32_output"
   ],
   "note": "arguments in UTF-8 that occupy 1 to 16382 columns; output for the default alignment and tab expansion"
  },
  {
   "property": "C58",
   "status": "proved",
   "theorems": [
    "C58_round_trip",
    "C58_empty_line_refuted",
    "C58_outer_lines_refuted",
    "C58_centred_refuted"
   ],
   "note": "closed designs without escape sequences, walls of constant length; text block not centred, not aligned right, no justification, no width given; -k true or not given; the drawn lines are shorter than the line limit; what does not come back is exhibited"
  },
  {
   "property": "C59",
   "status": "proved",
   "theorems": [
    "C59_score",
    "C59_detection",
    "C59_colours"
   ],
   "note": "designs without escape sequences; lines as they are built by reading, indented by one-column blanks"
  },
  {
   "property": "C60",
   "status": "proved",
   "theorems": [
    "C60_chosen",
    "C60_detected",
    "C60_foreign",
    "C60_padding_refuted",
    "C60_blank_lines_refuted"
   ],
   "note": "hypotheses of C58 for the design; no left padding on the command line; -k true, or not given and the default design has a top or bottom; the other designs without escape sequences"
  },
  {
   "property": "C61",
   "status": "proved",
   "theorems": [
    "C61_config_read",
    "C61_designs",
    "C61_unambiguous",
    "C61_wellformed",
    "C61_byte_order_mark",
    "C61_byte_order_mark_refuted",
    "C61_last_line_refuted",
    "C61_sample_refuted",
    "C61_names_refuted"
   ],
   "note": "flex and bison are trusted to implement rules and grammar; well-formedness for texts without escape sequences and tabs; deviations exhibited"
  },
  {
   "property": "C62",
   "status": "proved",
   "theorems": [
    "C62_total",
    "C62_recovery",
    "C62_no_parent",
    "C62_accepted",
    "C62_isolated",
    "C62_written_out",
    "C62_together",
    "C62_chosen",
    "C62_not_there",
    "C62_brace_refuted"
   ],
   "note": "the faulty part ends with a line feed and leaves the scanner outside of a design"
  },
  {
   "property": "C63",
   "status": "proved",
   "theorems": [
    "C63_loaded",
    "C63_drawn",
    "C63_closed",
    "C63_comments",
    "C63_chosen",
    "C63_chosen_safe",
    "C63_array_end",
    "C63_array_end_refuted",
    "C63_detection",
    "C63_open",
    "C63_described",
    "C63_remove_refuted"
   ],
   "note": "Shipped.v is the text of boxes-config (tools/mkshipped.py); character table arbitrary outside of ASCII and U+2500-U+259F; round trips under the hypotheses of C58 and C38; reading behind the end of the array exhibited, assumed to find something empty (numbers that are 0) for the designs right and dragon"
  },
  {
   "property": "C64",
   "status": "proved",
   "theorems": [
    "C64_meaning",
    "C64_stop",
    "C64_unique",
    "C64_refused",
    "C64_question"
   ],
   "note": "what getopt_long returns is a parameter, any sequence of options; fopen succeeding is a parameter"
  },
  {
   "property": "C65",
   "status": "proved",
   "theorems": [
    "C65_described",
    "C65_unique",
    "C65_indent_refuted"
   ],
   "note": "texts of tags and shapes tidy, shapes at least one column wide, indentation mode in ASCII, sample ends with something visible; the line feed is not a blank in the character table; which statements are accepted: C28, C56, C62"
  },
  {
   "property": "C66",
   "status": "proved",
   "theorems": [
    "C66_exact",
    "C66_first",
    "C66_parent",
    "C66_fatal_refuted"
   ],
   "note": "a statement alone is the parser model applied to it; what that gives is the subject of C28, C56, C57, C65; C66_parent for texts without escape sequences and tabs"
  },
  {
   "property": "C67",
   "status": "proved",
   "theorems": [
    "C67_statements",
    "C67_text",
    "C67_files",
    "C67_shipped",
    "C67_tabs_refuted",
    "C67_wide_blanks_refuted"
   ],
   "note": "reading behind the end of the array of shapes is assumed to find a shape entry (C63); texts are code points"
  },
  {
   "property": "C68",
   "status": "proved",
   "theorems": [
    "C68_help",
    "C68_refused",
    "C68_files",
    "C68_no_input",
    "C68_total",
    "C68_drawn",
    "C68_shipped",
    "C68_unknown",
    "C68_comments",
    "C68_closed"
   ],
   "note": "composition of C49, C51, C53, C55, C60, C63, C64, C67; drawing without -c, with expanded tabs and no justification; round trips with line feeds, without -i and under the hypotheses of C38 and C58; the world is a record that does not change during a run"
  },
  {
   "property": "C69",
   "status": "proved",
   "theorems": [
    "C69_details",
    "C69_faithful",
    "C69_overview",
    "C69_loaded",
    "C69_program",
    "C69_none_refuted",
    "C69_rules_refuted"
   ],
   "note": "C69_faithful for designs whose strings have no line feeds and whose only alias is not none, which C69_loaded gives for designs read from a file; texts without escape characters; without -c; qsort is any sorting function"
  },
  {
   "property": "C70",
   "status": "proved",
   "theorems": [
    "C70_replaced",
    "C70_memory",
    "C70_refused"
   ],
   "note": "pcre2_substitute is a parameter with the contract of its manual page (Spec_Regulex.v): in particular a lack of memory inside the library is not reported as a buffer that is too small"
  },
  {
   "property": "C71",
   "status": "proved",
   "theorems": [
    "C71_module",
    "C71_areas",
    "C71_quiet",
    "C71_long_refuted"
   ],
   "note": "what vsprintf makes of a format is a parameter; texts are bytes; the undefined behaviour for long messages is C71_long_refuted"
  },
  {
   "property": "C72",
   "status": "proved",
   "theorems": [
    "C72_removed",
    "C72_open",
    "C72_empty_line_refuted",
    "C72_shipped",
    "C72_shipped_open",
    "C72_shipped_empty_line_refuted"
   ],
   "note": "expanded tabs (-t ...e), no escape sequences; the program without -i and with line feeds; the reversion rules are parameters that keep the text free of escape sequences"
  },
  {
   "property": "C73",
   "status": "proved",
   "theorems": [
    "C73_output",
    "C73_contents",
    "C73_no_file",
    "C73_not_ascii_refuted",
    "C73_round_trip"
   ],
   "note": "expanded tabs (-t ...e), no requested size, alignment or justification; the string takes at most LINE_MAX_BYTES columns; the round trip for neat texts as in C38, with -i box or without -i"
  },
  {
   "property": "C74",
   "status": "proved",
   "theorems": [
    "C74_pipeline",
    "C74_shipped",
    "C74_comment",
    "C74_lost_lines_refuted"
   ],
   "note": "expanded tabs (-t ...e), no escape sequences; with a requested size the padding has to be given too; the reversion rules are parameters that keep the text free of escape sequences; the shipped designs without -i and with line feeds, -c with any -i and -e"
  },
  {
   "property": "C75",
   "status": "proved",
   "theorems": [
    "C75_program",
    "C75_shipped",
    "C75_undoc_refuted"
   ],
   "note": "the sorting function (qsort) is a parameter that sorts; the shipped file with line feeds and without -x (undoc)"
  },
  {
   "property": "C76",
   "status": "proved",
   "theorems": [
    "C76_default",
    "C76_shipped",
    "C76_fatal_refuted"
   ],
   "note": "the shipped file without -i and with line feeds"
  },
  {
   "property": "C77",
   "status": "proved",
   "theorems": [
    "C77_loaded",
    "C77_unique",
    "C77_apart",
    "C77_query",
    "C77_list"
   ],
   "note": "what a statement alone amounts to is the parser model applied to it (C66); -l for files without escape characters"
  },
  {
   "property": "C78",
   "status": "proved",
   "theorems": [
    "C78_detected",
    "C78_undetected",
    "C78_shipped",
    "C78_blank_lines_refuted",
    "C78_padding_refuted"
   ],
   "note": "composition of C41, C60, C63, C64 and C72; expanded tabs (-t ...e), line feeds; the score of a design is the model of match_design (C41), which C59 describes independently for designs without escape sequences"
  },
  {
   "property": "C79",
   "status": "proved",
   "theorems": [
    "C79_mended",
    "C79_roomy",
    "C79_too_small",
    "C79_shipped",
    "C79_shipped_too_small",
    "C79_spring",
    "C79_minimum_size_refuted"
   ],
   "note": "composition of C40, C41, C54, C63, C64 and C78; expanded tabs (-t ...e), line feeds; the wrong minimum size is the finding of C40_too_small, here as a run of the whole program"
  }
 ]
}