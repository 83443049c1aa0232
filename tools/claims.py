c("C01","proved","C01_rectangular","for well-formed designs (C28) and analysed input; indentation without unexpanded tabs")
c("C02","proved","C02_text_survives C02_verbatim")
c("C03","proved","C03_row_count")
c("C04","proved","C04_sides_agree")
c("C05","proved","C05_shape_usage")
c("C06","proved","C06_terminates_iff C06_single_elastic C06_always_terminates_refuted","exact condition; unconditional termination is refuted")
c("C07","proved","C07_at_least C07_exact_width C07_exact_height")
c("C08","proved","C08_effective_padding C08_padding_honoured C08_right_padding_refuted","one exception (right aligned, one spare column) is exhibited")
c("C09","proved","C09_alignment")
c("C10","proved","C10_justification")
c("C11","proved","C11_no_internal_failure C11_tab_indent_refuted","fails formally when tabs are put into the box indentation (-t Nu / -t Nk)")
c("C12","proved","C12_line_terminators")
c("C13","proved","C13_no_trailing_blanks C13_blank_rows_refuted")
c("C14","proved","C14_char_accounting C14_accounting_gap C14_unconditional_refuted","exact gap: one character per unknown ESC sequence")
c("C15","proved","C15_column_width")
c("C16","proved","C16_colour_stripping C16_unknown_sequences_refuted")
c("C17","proved","C17_visible_index")
c("C18","proved","C18_buffers C18_only_bad_chars_fail C18_tabs_refuted")
c("C19","proved","C19_rtrim C19_trim C19_blank_line_refuted C19_wide_blank_refuted","strings without tabs and unknown sequences")
c("C21","proved","C21_prepend_rebuild C21_append_rebuild C21_append_blank_refuted C21_substr","concatenation is a rebuild by definition of the code")
c("C20","proved","C20_unindent C20_wide_blank_refuted C20_colour_lost_refuted","narrow leading blanks; the unconditional claim is refuted for double-width blanks, and escape sequences in front of removed blanks are lost")
c("C22","proved","C22_expand_tabs C22_no_truncation C22_tab_stops C22_wide_text_refuted C22_long_line_refuted","tab stops are counted in characters, so wide text before a tab is refuted; lines over the limit are cut")
c("C23","proved","C23_unexpand")
c("C24","proved","C24_keep_one_tab C24_two_tabs_refuted","two or more tabs in the indentation: refuted")
c("C25","proved","C25_common_indent C25_indent_of_input")
c("C26","proved","C26_trim C26_no_text_lost C26_reset_lost_refuted","complete, known escape sequences")
c("C27","proved","C27_remove_mode C27_empty_line_refuted","exact: only the line consisting of a line feed fails")
c("C50","proved","C50_input_stage","without substitution rules")
c("C51","proved","C51_never_fails C51_never_fails_rules C51_end_to_end C51_drawn","tabs expanded (the default); verbatim statement without justification")
c("C52","proved","C52_substitutions C52_width_refuted","Rules are arbitrary functions from text to text that keep text well-behaved; the regular expression engine is not modelled. The recorded width is an upper bound only (refuted as equality).")
c("C53","proved","C53_splitting C53_no_loss C53_short_lines","One-byte characters or lines shorter than the buffer.")
c("C35","proved","C35_sound C35_no_failure C35_whole_corner_refuted C35_wide_indent_refuted","input lines with narrow indentation; with wide blanks in the indentation an array is read out of bounds (refuted), and a non-blank first corner character may be missing (refuted)")
c("C36","proved","C36_line C36_top C36_bottom","designs and lines without escape sequences, blanks in shapes being spaces; corners included")
c("C37","proved","C37_terminates","the whole removal, not only the matcher")
c("C33","proved","C33_no_failure C33_open_designs C33_overlap_refuted C33_crossing_refuted","input without escape sequences; a line taken for top and bottom, or left and right border sharing a character, make the program fail (both refuted)")
c("C34","proved","C34_kept C34_kept_tall C34_text_before_border_refuted C34_indentation_refuted","input without escape sequences; which lines count as border is bounded by C35/C36")
c("C39","proved","C39_killed C39_kept_blank_refuted","strings may contain escape sequences; -k 0 does not keep all blank lines (refuted)")
c("C38","proved","C38_round_trip C38_identity C38_command_line C38_empty_line_refuted C38_leading_blank_refuted","texts without tabs and escape sequences, tabs expanded in the output (-t e); no requested size, no justification")
c("C40","proved","C40_remove_then_draw C40_too_small C40_detected_size_refuted C40_padding_refuted","design chosen by the user; the wrap-around with detected designs is exhibited, and the loss of padding with a requested size")
c("C41","proved","C41_best_match C54_detection_total","score of each design as computed by the full model of the comparison; that it exists is C54")
c("C54","proved","C54_score_exists C54_detection_total C54_plain_calm C54_coloured_shape_refuted","designs without escape sequences, and coloured ones without leading blanks (calm_design); beyond that a heap write out of bounds is exhibited")
c("C42","proved","C42_selection C42_order C42_by_text C42_all_refuted","queries without restriction; -(all) selects every design (refuted)")
c("C43","proved","C43_accepted C43_tag_pattern C43_name_pattern C43_line_feed_refuted","the regular expressions are matched by a model of PCRE matching restricted to the constructs used; a line feed at the end of a tag is accepted (refuted)")
c("C44","proved","C44_sorted C44_query_output C44_tag_counts C44_names","qsort is a parameter with the contract of the C standard (sorter); isort_sorter shows the contract can be met")
c("C45","proved","C45_tabs C45_ordinary C45_safe C45_total C45_limit_refuted","numbers beyond 32 bits are cut: 4294967300 is accepted as 4 (refuted)")
c("C46","proved","C46_padding C46_total C46_in_range C46_documented C46_documented_only_refuted","more than the documented form is accepted: ab3 (refuted)")
c("C47","proved","C47_alignment C47_alignment_total C47_alignment_range C47_size C47_size_range C47_garbage_refuted","")
c("C48","proved","C48_yes C48_no C48_disjoint C48_second_refuted","the argument of a second -k is not checked (refuted)")
c("C55","proved","C55_in_range C55_total C55_order C55_mend C55_draw","what getopt_long returns is a parameter, any sequence of options; fopen succeeding is a parameter")
c("C49","proved","C49_plain C49_said C49_search C49_global C49_said_refuted","file system and environment are parameters; paths are code points, decoding UTF-8 is not modelled; paths the program can make a string of (printable ASCII suffices), otherwise refuted")
c("C28","proved","C28_accepted_designs C28_built C28_whole_configuration C28_reads_behind_array_refuted C28_sample_not_needed_refuted C28_control_character_refuted","statements as the grammar finds them, any of them; strings of shapes are well-behaved text; whatever is found behind the end of the shape array")
c("C29","proved","C29_keeps_and_adds_blanks C29_fits C29_left_side_refuted","fits together unless the upper left corner alone tells the width of the left side (refuted then)")
c("C30","proved","C30_terminates C30_order C30_names_in_a_file C30_chosen_design C30_alias_and_name_refuted","finitely many files that can be opened; the first file is read a second time if it is one of the parents")
c("C56","proved","C56_tag_list C56_all_tags","tags without escape sequences, tabs and line feeds")
c("C57","proved","C57_indent_mode C57_upper_case_refuted","upper case is accepted but has no effect (refuted)")
c("C31","proved","C31_literals C31_delimiters C31_every_text C31_listing C31_quote_in_sequence_refuted","the string rule of the lexer and the listing of a shape line; the exception for escape sequences is exhibited")
c("C32","proved","C32_design C32_ascii_only C32_control_character C32_blank C32_output","arguments in UTF-8 that occupy 1 to 16382 columns; output for the default alignment and tab expansion")
c("C58","proved","C58_round_trip C58_empty_line_refuted C58_outer_lines_refuted C58_centred_refuted","closed designs without escape sequences, walls of constant length; text block not centred, not aligned right, no justification, no width given; -k true or not given; the drawn lines are shorter than the line limit; what does not come back is exhibited")
c("C59","proved","C59_score C59_detection C59_colours","designs without escape sequences; lines as they are built by reading, indented by one-column blanks")
c("C60","proved","C60_chosen C60_detected C60_foreign C60_padding_refuted C60_blank_lines_refuted","hypotheses of C58 for the design; no left padding on the command line; -k true, or not given and the default design has a top or bottom; the other designs without escape sequences")
c("C61","proved","C61_config_read C61_designs C61_unambiguous C61_wellformed C61_byte_order_mark C61_byte_order_mark_refuted C61_last_line_refuted C61_sample_refuted C61_names_refuted","flex and bison are trusted to implement rules and grammar; well-formedness for texts without escape sequences and tabs; deviations exhibited")
c("C62","proved","C62_total C62_recovery C62_no_parent C62_accepted C62_isolated C62_written_out C62_together C62_chosen C62_not_there C62_brace_refuted","the faulty part ends with a line feed and leaves the scanner outside of a design")
c("C63","proved","C63_loaded C63_drawn C63_closed C63_comments C63_chosen C63_chosen_safe C63_array_end C63_array_end_refuted C63_detection C63_open C63_described C63_remove_refuted","Shipped.v is the text of boxes-config (tools/mkshipped.py); character table arbitrary outside of ASCII and U+2500-U+259F; round trips under the hypotheses of C58 and C38; reading behind the end of the array exhibited, assumed to find something empty (numbers that are 0) for the designs right and dragon")
c("C64","proved","C64_meaning C64_stop C64_unique C64_refused C64_question","what getopt_long returns is a parameter, any sequence of options; fopen succeeding is a parameter")
c("C65","proved","C65_described C65_unique C65_indent_refuted","texts of tags and shapes tidy, shapes at least one column wide, indentation mode in ASCII, sample ends with something visible; the line feed is not a blank in the character table; which statements are accepted: C28, C56, C62")
c("C66","proved","C66_exact C66_first C66_parent C66_fatal_refuted","a statement alone is the parser model applied to it; what that gives is the subject of C28, C56, C57, C65; C66_parent for texts without escape sequences and tabs")
c("C67","proved","C67_statements C67_text C67_files C67_shipped C67_tabs_refuted C67_wide_blanks_refuted","reading behind the end of the array of shapes is assumed to find a shape entry (C63); texts are code points")
c("C68","proved","C68_help C68_refused C68_files C68_no_input C68_total C68_drawn C68_shipped C68_unknown C68_comments C68_closed","composition of C49, C51, C53, C55, C60, C63, C64, C67; drawing without -c, with expanded tabs and no justification; round trips with line feeds, without -i and under the hypotheses of C38 and C58; the world is a record that does not change during a run")
c("C69","proved","C69_details C69_faithful C69_overview C69_loaded C69_program C69_none_refuted C69_rules_refuted","C69_faithful for designs whose strings have no line feeds and whose only alias is not none, which C69_loaded gives for designs read from a file; texts without escape characters; without -c; qsort is any sorting function")
c("C70","proved","C70_replaced C70_memory C70_refused","pcre2_substitute is a parameter with the contract of its manual page (Spec_Regulex.v): in particular a lack of memory inside the library is not reported as a buffer that is too small")
c("C71","proved","C71_module C71_areas C71_quiet C71_long_refuted","what vsprintf makes of a format is a parameter; texts are bytes; the undefined behaviour for long messages is C71_long_refuted")
c("C72","proved","C72_removed C72_open C72_empty_line_refuted C72_shipped C72_shipped_open C72_shipped_empty_line_refuted","expanded tabs (-t ...e), no escape sequences; the program without -i and with line feeds; the reversion rules are parameters that keep the text free of escape sequences")
c("C73","proved","C73_output C73_contents C73_no_file C73_not_ascii_refuted C73_round_trip","expanded tabs (-t ...e), no requested size, alignment or justification; the string takes at most LINE_MAX_BYTES columns; the round trip for neat texts as in C38, with -i box or without -i")
c("C74","proved","C74_pipeline C74_shipped C74_comment C74_lost_lines_refuted","expanded tabs (-t ...e), no escape sequences; with a requested size the padding has to be given too; the reversion rules are parameters that keep the text free of escape sequences; the shipped designs without -i and with line feeds, -c with any -i and -e")
c("C75","proved","C75_program C75_shipped C75_undoc_refuted","the sorting function (qsort) is a parameter that sorts; the shipped file with line feeds and without -x (undoc)")
c("C76","proved","C76_default C76_shipped C76_fatal_refuted","the shipped file without -i and with line feeds")
c("C77","proved","C77_loaded C77_unique C77_apart C77_query C77_list","what a statement alone amounts to is the parser model applied to it (C66); -l for files without escape characters")
c("C78","proved","C78_detected C78_undetected C78_shipped C78_blank_lines_refuted C78_padding_refuted","composition of C41, C60, C63, C64 and C72; expanded tabs (-t ...e), line feeds; the score of a design is the model of match_design (C41), which C59 describes independently for designs without escape sequences")
c("C79","proved","C79_mended C79_roomy C79_too_small C79_shipped C79_shipped_too_small C79_spring C79_minimum_size_refuted","composition of C40, C41, C54, C63, C64 and C78; expanded tabs (-t ...e), line feeds; the wrong minimum size is the finding of C40_too_small, here as a run of the whole program")
