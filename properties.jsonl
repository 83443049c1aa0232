{"id": "C01", "title": "Drawn box is rectangular", "statement": "For every accepted design, every text and every combination of padding, alignment, size and indentation settings for which drawing completes, all rows of the drawn box (before trailing blanks are trimmed) occupy exactly the same number of terminal columns: indentation + left border + inner width + right border.", "quantifier": "all accepted designs, all input texts, all option values", "why_tests_cant": "The row widths depend on elastic repetition counts, padding and justification jointly; unit tests only see finitely many sizes.", "anchors": ["src/generate.c:output_box", "src/generate.c:horiz_assemble", "src/generate.c:vert_assemble", "src/generate.c:justify_line"]}
{"id": "C02", "title": "Text survives boxing", "statement": "The rows of the drawn box contain every input line exactly once, in input order, on consecutive rows, with the line's visible characters verbatim; everything between the borders that is not input text is a blank.", "quantifier": "all accepted designs, all texts, all options", "why_tests_cant": "Universal over texts, designs and option values.", "anchors": ["src/generate.c:output_box", "src/generate.c:justify_line", "src/bxstring.c:bxs_cut_front"]}
{"id": "C03", "title": "Row count of the drawn box", "statement": "The number of rows printed is top border height + top fill + number of text lines + bottom fill + bottom border height, and equals the height both vertical sides were computed for (minus border rows suppressed because the top or bottom border is blank).", "quantifier": "all accepted designs, texts, options", "why_tests_cant": "Depends on unbounded heights.", "anchors": ["src/generate.c:output_box", "src/generate.c:vert_precalc"]}
{"id": "C04", "title": "Opposite sides agree and are large enough", "statement": "Whenever drawing completes, the top and bottom side have the same width, the left and right side have the same height, and both are at least as large as the text and as the design's minimum size requires.", "quantifier": "all accepted designs, texts, minimum sizes", "why_tests_cant": "The growth loop runs an unbounded number of rounds.", "anchors": ["src/generate.c:horiz_precalc", "src/generate.c:vert_precalc"]}
{"id": "C05", "title": "Shape usage on each side", "statement": "On every drawn side the middle shapes appear in their fixed order, every defined non-elastic shape appears exactly once, every defined elastic shape appears a whole number of times and at least once, and nothing else appears. Where two shapes of a side are elastic, they share the length: the first appears as often as the second or once more.", "quantifier": "all accepted designs and box sizes", "why_tests_cant": "Repetition counts are unbounded.", "anchors": ["src/generate.c:horiz_precalc", "src/generate.c:horiz_assemble", "src/generate.c:vert_precalc", "src/generate.c:vert_assemble"]}
{"id": "C06", "title": "Drawing terminates exactly when the sides can be equalised", "statement": "For an accepted design with one elastic shape per side, computing the box size terminates if and only if the two opposite fixed parts are congruent modulo the gcd of the two elastic widths; the unconditional claim 'drawing terminates for every accepted design' is false.", "quantifier": "all accepted designs, all sizes", "why_tests_cant": "Non-termination can never be observed by a test, and termination is a claim about all inputs.", "anchors": ["src/generate.c:horiz_precalc", "src/generate.c:vert_precalc", "src/parsecode.c:perform_se_check"]}
{"id": "C07", "title": "Requested size honoured", "statement": "The box is never smaller than the size requested with -s; if the text plus minimal border fits and the elastic shapes are one cell wide/high it is exactly the requested size.", "quantifier": "all accepted designs, texts, requested sizes", "why_tests_cant": "Universal over sizes and designs.", "anchors": ["src/boxes.c:apply_expected_size", "src/boxes.c:adjust_size_and_padding", "src/generate.c:horiz_precalc"]}
{"id": "C08", "title": "Padding is honoured and never drives a size negative", "statement": "After the size/padding adjustment the space between text and border is at least the effective padding on all four sides, and no unsigned subtraction in the drawing code wraps around. Honouring the right padding fails when exactly one spare column exists and the alignment is 'right'. When a requested size forces padding to be reduced, it is reduced only as far as needed: down to nothing, or until text, padding and borders take exactly the requested size.", "quantifier": "all designs, texts, paddings, sizes", "why_tests_cant": "Wrap-around happens only for particular combinations of sizes.", "anchors": ["src/boxes.c:adjust_size_and_padding", "src/generate.c:output_box"]}
{"id": "C09", "title": "Alignment of the text block", "statement": "With left/top alignment the spare space goes to the right/bottom, with right/bottom alignment to the left/top, with centre alignment the two sides differ by at most one (beyond the padding); the shares always add up to the available space.", "quantifier": "all sizes, paddings and alignments", "why_tests_cant": "Arithmetic over unbounded sizes.", "anchors": ["src/generate.c:output_box"]}
{"id": "C10", "title": "Justification stays inside the text block", "statement": "For every justification setting, each non-blank line is placed wholly inside the text block: left-justified lines start at the block start, right-justified lines end at the block end, centred lines have left and right gaps differing by at most one; no subtraction wraps.", "quantifier": "all lines, block widths, justifications, indentation modes", "why_tests_cant": "Universal over line widths and indentations.", "anchors": ["src/generate.c:justify_line", "src/generate.c:output_box"]}
{"id": "C11", "title": "Drawing an accepted design never fails internally", "statement": "For every design accepted by the configuration parser the drawing code never reports an internal error, never indexes outside a shape or side and never divides by zero.", "quantifier": "all accepted designs, all inputs", "why_tests_cant": "Needs the invariant linking configuration validation to drawing.", "anchors": ["src/generate.c:horiz_precalc", "src/generate.c:horiz_assemble", "src/parsecode.c:action_finalize_shapes"]}
{"id": "C12", "title": "Line terminators", "statement": "Every output row except the last is followed by the line terminator; the last one is followed by it exactly when the input ended with a line break.", "quantifier": "all row counts and inputs", "why_tests_cant": "Universal over output sizes.", "anchors": ["src/generate.c:output_box", "src/remove.c:output_input", "src/input.c:read_all_input"]}
{"id": "C13", "title": "Output rows carry no trailing blanks", "statement": "A printed row that contains a non-blank visible character ends with a non-blank visible character (invisible sequences aside); rows consisting only of blanks are printed untrimmed, so the unconditional claim is false.", "quantifier": "all rows", "why_tests_cant": "Universal over strings.", "anchors": ["src/bxstring.c:bxs_rtrim", "src/generate.c:output_box"]}
{"id": "C14", "title": "Character accounting", "statement": "For every string whose escape sequences all belong to the recognised families, visible plus invisible characters equal all characters; for an ESC followed by any other character the accounting loses one character.", "quantifier": "all strings", "why_tests_cant": "Universal over strings incl. malformed escape sequences.", "anchors": ["src/unicode.c:advance_next32", "src/bxstring.c:bxs_from_unicode"]}
{"id": "C15", "title": "Column width", "statement": "The recorded column width of a string is the sum of the column widths of its visible characters, and the recorded ASCII shadow has exactly that many characters.", "quantifier": "all strings, all width tables", "why_tests_cant": "Universal over strings.", "anchors": ["src/bxstring.c:bxs_from_unicode"]}
{"id": "C16", "title": "Colour stripping", "statement": "With colour output disabled the printed text is exactly the text with all escape sequences deleted: no escape character is printed and no other character is lost or reordered. This fails when the text contains an escape character outside the recognised families.", "quantifier": "all strings", "why_tests_cant": "Universal over strings and escape sequences.", "anchors": ["src/bxstring.c:bxs_filter_visible", "src/bxstring.c:bxs_to_output"]}
{"id": "C17", "title": "Visible-character index", "statement": "The index from visible characters to positions is strictly increasing, in bounds, points to the visible characters in order, and the start position of a visible character is its own position, or that of the escape sequence directly in front of it, exactly when there is one that does not switch attributes off.", "quantifier": "all strings", "why_tests_cant": "Universal over strings.", "anchors": ["src/bxstring.c:bxs_from_unicode", "src/bxstring.c:bxs_first_char_ptr", "src/bxstring.c:bxs_last_char_ptr"]}
{"id": "C18", "title": "String construction stays inside its buffers", "statement": "Building a string never writes past the buffers allocated for the ASCII shadow and the index maps, provided the text has no tab characters; with tab characters the ASCII shadow is overrun.", "quantifier": "all strings", "why_tests_cant": "Memory safety for all inputs.", "anchors": ["src/bxstring.c:bxs_from_unicode"]}
{"id": "C19", "title": "Trimming laws", "statement": "Trimming blanks at the right end yields a prefix of the string, keeps every non-blank visible character and is idempotent; trimming both ends keeps exactly the text from the first to the last non-blank visible character.", "quantifier": "all strings", "why_tests_cant": "Universal over strings.", "anchors": ["src/bxstring.c:bxs_rtrim", "src/bxstring.c:bxs_trim", "src/bxstring.c:bxs_ltrim"]}
{"id": "C20", "title": "Removing common indentation", "statement": "Removing the common indentation deletes exactly that many leading blanks from each line and nothing else, and keeps the escape sequence directly in front of the first kept character unless it switches attributes off, provided leading blanks are one column wide; with double-width blanks (U+3000) non-blank text is deleted.", "quantifier": "all texts", "why_tests_cant": "Universal over texts and blank characters.", "anchors": ["src/input.c:analyze_input", "src/input.c:get_indent", "src/bxstring.c:bxs_cut_front"]}
{"id": "C21", "title": "Derived strings equal rebuilt strings", "statement": "Concatenating, taking substrings and prepending spaces yields the same counts, widths and indexes as building the resulting text from scratch.", "quantifier": "all strings, all lengths", "why_tests_cant": "Universal over strings.", "anchors": ["src/bxstring.c:bxs_prepend_spaces", "src/bxstring.c:bxs_append_spaces", "src/bxstring.c:bxs_concat", "src/bxstring.c:bxs_substr"]}
{"id": "C22", "title": "Tab expansion", "statement": "Expanding tabs leaves no tab, keeps all other characters in order, makes every tab end at the next multiple of the tab stop, and never writes beyond the work buffer, for every line length and tab stop 1..16; lines shorter than the limit are never truncated.", "quantifier": "all lines, all tab stops 1..16", "why_tests_cant": "Universal over lines; buffer bound matters only near 16 K.", "anchors": ["src/tools.c:expand_tabs_into", "src/cmdline.c:tab_handling"]}
{"id": "C23", "title": "Unexpanding leading blanks to tabs keeps the width", "statement": "With tab mode 'u' the emitted leading tabs and spaces span exactly the original indentation for every indentation and tab stop, using fewer spaces than one tab stop.", "quantifier": "all indentations and tab stops", "why_tests_cant": "Universal over numbers.", "anchors": ["src/generate.c:output_box"]}
{"id": "C24", "title": "Keeping tabs keeps the width", "statement": "With tab mode 'k' the restored indentation spans the original number of columns. True for at most one tab in the indentation; false with two or more.", "quantifier": "all lines and tab positions", "why_tests_cant": "Existing tests use a single tab only.", "anchors": ["src/tools.c:tabbify_indent"]}
{"id": "C25", "title": "Common indentation is the minimum", "statement": "The detected indentation is the smallest indentation of the non-empty lines (0 if there is none).", "quantifier": "all texts", "why_tests_cant": "Universal over texts.", "anchors": ["src/input.c:get_indent"]}
{"id": "C26", "title": "Input line trimming", "statement": "Trailing white space removal from input lines yields a prefix that contains every non-white-space visible character and ends with one (followed by at most one escape sequence); white-space-only lines become empty.", "quantifier": "all lines", "why_tests_cant": "Universal over lines and escape sequences.", "anchors": ["src/tools.c:btrim32", "src/input.c:read_all_input"]}
{"id": "C27", "title": "Reading input in remove mode stays inside the line buffer", "statement": "Stripping the line terminator reads only inside the line. True when the line has at least one character besides the line feed, false for an empty line in remove or mend mode.", "quantifier": "all lines, draw and remove mode", "why_tests_cant": "Memory safety for all inputs.", "anchors": ["src/input.c:trim_trailing_ws_carefully"]}
{"id": "C28", "title": "Accepted designs are well formed", "statement": "Every design that survives the configuration parser has four non-empty corners, one to three non-empty shapes on each side, one or two elastic shapes per side never adjoining each other and never at a corner, equal heights along horizontal and equal widths along vertical sides, and minimum sizes at least the sum of the shapes on each side. This holds for every sequence of statements in every file. A sample is not always needed, a design with only a top shape makes the program read behind its array of shapes, and a control character in a shape makes it dereference NULL.", "quantifier": "all sequences of configuration blocks", "why_tests_cant": "Universal over all configuration files.", "anchors": ["src/parsecode.c:action_finalize_shapes", "src/parsecode.c:check_sizes", "src/parsecode.c:perform_se_check", "src/parser.y"]}
{"id": "C29", "title": "Missing shapes are filled with blanks", "statement": "Completing a partially specified design never changes a specified shape, all shapes it adds are blank, and every corner exists afterwards. If the specified shapes fit together, so do all shapes afterwards, unless the upper left corner is wider than one column and the only specified shape of the left side.", "quantifier": "all partial designs", "why_tests_cant": "Universal over designs.", "anchors": ["src/parsecode.c:action_finalize_shapes", "src/shape.c:genshape"]}
{"id": "C30", "title": "Configuration inheritance", "statement": "Loading a configuration with parent files terminates even if the files include each other, parses each parent file exactly once, keeps designs in file order, never yields two designs with the same name, and a design of an earlier file always wins over one of the same name in a later file. Within a file names and aliases are all different; with -d only designs of that name or alias are loaded. Across files an alias can equal the name of another design.", "quantifier": "all finite configuration file graphs", "why_tests_cant": "Universal over include graphs incl. cycles.", "anchors": ["src/parsing.c:parse_config_files", "src/parsing.c:copy_designs", "src/parsing.c:record_parent_config_files"]}
{"id": "C31", "title": "String literals and listings round-trip", "statement": "The lexer reads a string literal between the delimiters in force as the text obtained by removing the escape characters, and reports it unterminated exactly when no unescaped closing delimiter precedes the end of the line; every text without line feed has a literal for every accepted pair of delimiter and escape character. A shape line as printed by the design listing, read back by the configuration lexer, is the original line (its visible characters when colours are off), provided no quote or backslash is part of an escape sequence; otherwise it can be a different or an unterminated string.", "quantifier": "all texts without NUL and line feed, all delimiter pairs, all lines accepted by bxs_from_unicode", "why_tests_cant": "Universal over strings.", "anchors": ["src/list.c:escape", "src/lexer.l"]}
{"id": "C32", "title": "Ad-hoc comment design (-c)", "statement": "The design built for -c has a left border showing exactly the given string, blank top/bottom/right, and satisfies the same well-formedness conditions as configured designs. Drawing with it terminates and puts the string and one space in front of every line, behind the common indentation; a blank string is left out. For strings with more bytes than columns building the design overruns a heap buffer: with real width tables these are exactly the strings that are not printable ASCII. Control characters make it read through a null pointer.", "quantifier": "all -c strings", "why_tests_cant": "Universal over strings; memory safety.", "anchors": ["src/boxes.c:build_design"]}
{"id": "C33", "title": "Removal touches only valid line ranges", "statement": "Removing a box only ever moves or frees existing lines, provided the detected top and bottom parts do not overlap; when a line is recognised as both top and bottom the line array is corrupted.", "quantifier": "all inputs, all designs", "why_tests_cant": "Memory safety for all inputs.", "anchors": ["src/remove.c:remove_box", "src/remove.c:remove_top_from_input", "src/remove.c:remove_bottom_from_input"]}
{"id": "C34", "title": "Removal keeps the body", "statement": "After removal the remaining lines are exactly the lines between top and bottom part in order, each a contiguous piece of the original line, minus leading/trailing blank lines as requested.", "quantifier": "all inputs, all designs", "why_tests_cant": "Universal over inputs.", "anchors": ["src/remove.c:apply_results_to_input", "src/remove.c:remove_vertical_from_input", "src/remove.c:killblank"]}
{"id": "C35", "title": "Border matching is sound", "statement": "If a horizontal border is recognised in a line, the recognised part is a concatenation of the design's shape lines in side order, elastic shapes repeated, each up to blanks cut from its ends.", "quantifier": "all lines, all designs", "why_tests_cant": "Backtracking search; universal over lines.", "anchors": ["src/remove.c:hmm", "src/remove.c:hmm_shiftable", "src/remove.c:shorten"]}
{"id": "C36", "title": "Border matching recognises what drawing produces", "statement": "The middle part of a horizontal border drawn by the program is recognised by the matcher for every repetition count of the elastic shapes.", "quantifier": "all designs with non-blank shapes, all widths", "why_tests_cant": "Unbounded repetition counts and backtracking.", "anchors": ["src/remove.c:hmm", "src/generate.c:horiz_assemble"]}
{"id": "C37", "title": "Border matching terminates", "statement": "The backtracking matcher terminates for every line and every design.", "quantifier": "all lines and designs", "why_tests_cant": "Termination is a universal claim.", "anchors": ["src/remove.c:hmm"]}
{"id": "C38", "title": "Draw then remove gives back the text", "statement": "For designs that only have a left border (the string given with -c among them) which starts with a character that is not blank: drawing a box around a text and removing it again with the same design and options gives back the text, line by line, with the same line terminators and the same final line. The one exception is an empty line of a text whose lines are all indented: it comes back as the common indentation, if the indentation is put outside the box. A border that starts with a blank does not come off completely.", "quantifier": "all comment designs, all texts of acceptable characters without tabs, trailing white space and escape sequences, with lines up to the length limit, any common indentation, LF or CR LF, final line terminated or not", "why_tests_cant": "Universal over texts.", "anchors": ["src/generate.c:output_box", "src/remove.c:remove_box"]}
{"id": "C39", "title": "Blank line removal", "statement": "Killing blank lines during removal deletes only blank lines adjacent to the box border, never a non-blank line or a blank line between non-blank lines, and at most the requested number.", "quantifier": "all inputs and limits", "why_tests_cant": "Universal over inputs.", "anchors": ["src/remove.c:killblank"]}
{"id": "C40", "title": "Mending keeps minimum sizes sane", "statement": "Mending a box with an explicitly chosen design is removing it and drawing the remaining text with that same design, its own minimum size included, unless a requested box size took padding off during removal (that padding then stays lost). With an auto-detected design the minimum size of the initially selected design is used instead; whenever that is less than the two upper corners need, the size computation wraps around.", "quantifier": "all configurations, design choices, options, substitution rules and inputs", "why_tests_cant": "Depends on interplay of two passes and configuration order.", "anchors": ["src/boxes.c:main", "src/remove.c:detect_design_if_needed", "src/generate.c:horiz_precalc"]}
{"id": "C41", "title": "Design auto-detection picks a best match", "statement": "The auto-detected design is the first one with the highest number of hits in the first comparison mode with enough hits (or the best over all modes), and none is reported exactly when no design scores.", "quantifier": "all inputs and design lists", "why_tests_cant": "Universal over score tables.", "anchors": ["src/detect.c:autodetect_design"]}
{"id": "C42", "title": "Tag query semantics", "statement": "A design is selected by a tag query iff it carries no excluded tag, carries every required tag, and either some tag is required, or it carries one of the plain tags, or the query contains (all), or the query as written consists of exclusions only; tags are compared regardless of case and the order of the query terms is irrelevant.", "quantifier": "all queries and tag sets", "why_tests_cant": "Universal over queries.", "anchors": ["src/query.c:filter_by_tag"]}
{"id": "C43", "title": "Tag query validation", "statement": "A tag query is accepted iff, cut at commas, trimmed and with empty terms left out, it has at least one term, every term without its + or - sign is a valid tag or the word (all), and no two terms name the same tag regardless of case; the accepted query is the list of these terms in order, with (all) added when all of them are exclusions. Every query is either accepted as a whole or rejected.", "quantifier": "all query strings", "why_tests_cant": "Universal over strings.", "anchors": ["src/query.c:parse_query", "src/tools.c:tag_is_valid", "src/tools.c:is_ascii_id"]}
{"id": "C44", "title": "Design listing is a sorted permutation", "statement": "The listing order is a permutation of the loaded designs sorted case-insensitively by name; the answer to a query shows exactly the selected designs in that order, each followed by its aliases; tag statistics name each tag once, regardless of case, with the number of its occurrences; the line of names of a design is written without leaving its buffer.", "quantifier": "all design lists", "why_tests_cant": "Universal over lists.", "anchors": ["src/list.c:sort_designs_by_name", "src/list.c:count_tag", "src/list.c:names"]}
{"id": "C45", "title": "Accepted tab options are safe", "statement": "A -t argument is accepted iff it starts with a number whose 32-bit value is between 1 and 16, followed by nothing or by one of the letters e, k, u; then that value is the tab stop and the letter, or else the previous mode, the tab mode. Reading the argument never goes past its end.", "quantifier": "all argument strings", "why_tests_cant": "Universal over strings.", "anchors": ["src/cmdline.c:tab_handling"]}
{"id": "C46", "title": "Padding option grammar", "statement": "Parsing a padding argument terminates for every string, never reads past its end, sets only paddings between 0 and the largest int, and the last group that concerns a side decides its padding; an argument is accepted iff it is a non-empty sequence of groups of a letter and a number, where the number may be missing except at the end.", "quantifier": "all argument strings", "why_tests_cant": "Universal over strings.", "anchors": ["src/cmdline.c:padding"]}
{"id": "C47", "title": "Alignment and size option grammar", "statement": "Parsing alignment and size arguments never reads past the end of the argument; an alignment is accepted iff it is a non-empty sequence of the directives h[lcr], v[tcb], j[lcr], l, c, r in any case, the last one deciding for each direction; a size is accepted iff the numbers at the start of the parts before and after the x are non-negative, in range and not both zero; accepted values are within range.", "quantifier": "all argument strings", "why_tests_cant": "Universal over strings.", "anchors": ["src/cmdline.c:alignment", "src/cmdline.c:size_of_box"]}
{"id": "C48", "title": "Yes/no words are disjoint", "statement": "The words for yes are exactly on, yes, true, t, 1, those for no exactly off, no, false, f, 0, in any letter case; no string is understood both as yes and as no.", "quantifier": "all strings", "why_tests_cant": "Universal over strings.", "anchors": ["src/tools.c:strisyes", "src/tools.c:strisno"]}
{"id": "C49", "title": "Configuration file discovery order", "statement": "An explicit -f argument always decides; else BOXES if set; else the first of the documented places that has a readable file, in the documented order, each directory standing for the first of the four well-known names in it; a failing explicit choice never falls through to another file. The global search ignores -f, BOXES, HOME and XDG_CONFIG_HOME. This fails for file names with control characters: an existing file named with -f is passed over and another one is used.", "quantifier": "all file system states and environments", "why_tests_cant": "Universal over file system states.", "anchors": ["src/discovery.c:discover_config_file"]}
{"id": "C50", "title": "Raw lines become well-formed input", "statement": "For every non-empty sequence of acceptable raw lines (valid characters, complete escape sequences, below the length limit, leading blanks one column wide) reading and analysing the input succeeds; each resulting line is the raw line without trailing white space, with tabs expanded and without the common indentation; the widest line is recorded exactly; the positions of the tabs are recorded exactly in 'keep' mode and only then; and the end-of-input line break is recorded exactly when present.", "quantifier": "all sequences of raw lines, tab stops 1..16, designs and options", "why_tests_cant": "Unbounded numbers and lengths of lines with arbitrary mixtures of tabs, blanks, wide characters and escape sequences.", "anchors": ["src/input.c:216-420", "src/tools.c:300-345", "src/boxes.c:270-296"]}
{"id": "C51", "title": "From raw text to printed box", "statement": "For every well-formed design and every acceptable raw input the program (with expanded tabs) draws without internal failure; the output is one rectangular box with exactly one row per input line in order carrying that line's text, rewritten by the design's substitution rules, at a common start column, and ends with a line terminator exactly when the input did.", "quantifier": "all designs, options without justification, substitution rules, raw inputs", "why_tests_cant": "Composition of the reading, analysis, sizing, drawing and printing stages for unbounded inputs and designs.", "anchors": ["src/boxes.c:412-488", "src/input.c:216-420", "src/generate.c:90-860"]}
{"id": "C52", "title": "Substitution rules", "statement": "Every line is rewritten by all rules of the design in their order; number and order of lines, tab positions, and the final line break stay, and the recorded width suffices for every rewritten line. The recorded width is not always that of the widest line: it is never reduced when rules shorten lines.", "quantifier": "all rules that turn well-behaved text into well-behaved text, all raw inputs, all designs", "why_tests_cant": "Quantifies over arbitrary rules (functions on text) and unbounded input.", "anchors": ["src/input.c:95-191"]}
{"id": "C53", "title": "Splitting input into lines loses nothing", "statement": "The pieces in which the input is read concatenate to the input; no piece is empty; a line feed occurs only as last character of a piece; a piece not ending in a line feed is the last one or fills the buffer; a line that fits into the buffer is exactly one piece.", "quantifier": "all inputs", "why_tests_cant": "Unbounded input, pieces around the buffer size of 16 KiB and more.", "anchors": ["src/input.c:216-272"]}
{"id": "C54", "title": "Comparing input with designs never fails", "statement": "For well-formed designs and every well-behaved input (escape sequences allowed) the number of hits of every design is computed without any access outside of strings, arrays or shapes, so auto-detection always ends with an answer. This covers all designs without escape sequences, and those with them whose shape lines, where they end in blanks, begin at once with a visible character. With escape sequences in a shape line that starts and ends with blanks it is false: a character is written behind the end of a string.", "quantifier": "all designs, all inputs, all four ways to compare", "why_tests_cant": "Universal over designs and inputs; the failing case needs a coloured shape with blanks on both ends and is silent heap corruption.", "anchors": ["src/detect.c:140-240", "src/detect.c:257-590", "src/shape.c:330-459"]}
{"id": "C55", "title": "Accepted command lines are in range", "statement": "Whatever sequence of options is given, processing it ends in an error or in settings that are all within their documented ranges, never in undefined behaviour; -m always ends up with removal, redrawing and retained blank lines whatever -k says; options that concern different things can be swapped without changing the outcome; drawing with the settings of an accepted command line satisfies the conditions under which drawing is proved not to fail.", "quantifier": "all sequences of options and arguments", "why_tests_cant": "Sequences of options and argument strings are unbounded.", "anchors": ["src/cmdline.c:process_commandline", "src/cmdline.c:create_new_opt", "src/cmdline.c:undocumented_options", "src/cmdline.c:input_output_files"]}
{"id": "C56", "title": "Tags of designs", "statement": "The tags of a design are exactly the comma-separated entries of its tag lists, without surrounding blanks, that are well-formed tags; others are left out. No tag occurs twice.", "quantifier": "all lists of tag strings, all sequences of statements", "why_tests_cant": "Universal over strings and configurations.", "anchors": ["src/parsecode.c:tag_record", "src/parsecode.c:tag_add", "src/parsecode.c:tag_split_add"]}
{"id": "C57", "title": "Indentation mode in configurations", "statement": "The indentation mode of a design is box, text or none, upper or lower case. Lower case has the documented effect. A word that starts with a capital letter is accepted but always means none.", "quantifier": "all values of the keyword", "why_tests_cant": "Universal over strings; combines parser and drawing.", "anchors": ["src/parsecode.c:action_record_keyword", "src/generate.c:output_box", "src/input.c"]}
{"id": "C58", "title": "Round trip of closed boxes", "statement": "A text framed with a closed box (all four sides show something, the left wall starts and the right wall ends with a character that is not blank) comes back when the box is removed with the same design. This holds for any text of acceptable characters, also if it contains the border, for any padding, minimum size and vertical alignment. Empty lines inside the text may come back as blanks.", "quantifier": "all texts whose lines do not end in white space and that start and end with a line that is not empty, all closed designs without escape sequences, LF and CRLF", "why_tests_cant": "Universal over texts and designs; composition of reading, drawing, printing, reading, recognising and removing.", "anchors": ["src/generate.c:output_box", "src/remove.c:remove_box", "src/remove.c:find_vertical_shapes", "src/remove.c:killblank", "src/input.c:read_all_input"]}
{"id": "C59", "title": "What the score of design detection counts", "statement": "The score by which a design is detected is exactly the number of these matches: lines of the four corners at the beginning or end of the first or last lines of the text; lines of the shapes between the corners anywhere in these lines (elastic ones twice in a row); lines of the body that begin with a line of the left side; lines of the right side with which some line of the body ends. Blank shape lines never count, outer blanks do not matter. The design found is the first one with the highest score of the visible text, so colours in the text do not change it.", "quantifier": "all texts, all lists of designs without escape sequences", "why_tests_cant": "Universal over texts and designs; the count is compared with an independent declarative definition.", "anchors": ["src/detect.c:match_design", "src/detect.c:find_west_corner", "src/detect.c:find_east_corner", "src/detect.c:find_horizontal_shape", "src/detect.c:find_vertical_west", "src/detect.c:find_vertical_east", "src/shape.c:is_blankward", "src/detect.c:autodetect_design"]}
{"id": "C60", "title": "Removing a box whose design is not named", "statement": "If the design is not given, the design of a closed box is detected and the text comes back as in C58, whatever the default design, provided the box scores highest (C59) with the design it was drawn with. This is certain if each line of the other designs has a character that occurs neither in the design nor in the text. It fails if a left padding is given, since that is applied to the default design only; and blank lines may stay if the default design has no top and bottom.", "quantifier": "all texts and closed designs as in C58, all lists of designs, every default design", "why_tests_cant": "Universal over texts, designs and lists of designs; composition of drawing, printing, reading, detection and removal.", "anchors": ["src/remove.c:remove_box", "src/detect.c:autodetect_design", "src/detect.c:match_design", "src/boxes.c:main", "src/generate.c:output_box"]}
{"id": "C61", "title": "The text of a configuration file means what it says", "statement": "A configuration file written according to the documented language (words in any case, comments, white space, names and aliases, strings in the current delimiters, DELIMITER, SAMPLE, TAGS, SHAPES, ELASTIC, REPLACE, REVERSE, PADDING, PARENT) is read into exactly the designs, entries and parent files that are written there; no text has two readings; a byte order mark before white space or a comment is ignored. For any text of ordinary characters, correct or not, all designs accepted are well formed. The file must end with a line feed. Deviations: a byte order mark in front of a word, a comment in a last line without line feed, a sample line that ends with the letters ENDS, and a design named BOX.", "quantifier": "all texts derivable in the declarative grammar of Spec_Config; for well-formedness, all texts of displayable characters", "why_tests_cant": "Universal over texts; agreement of an independently stated language with scanner and parser.", "anchors": ["src/lexer.l:rules", "src/lexer.l:change_string_delimiters", "src/parser.y:config_file", "src/parser.y:design", "src/parser.y:entry", "src/parser.y:block", "src/parsing.c:parse_config_file", "src/tools.c:btrim"]}
{"id": "C62", "title": "Any text can be read as a configuration, and errors do not spread", "statement": "Reading terminates for every text without NUL and ends with a list of statements, except if a number does not fit an int (undefined in atoi) or a carriage return that is not followed by a line feed comes directly after the word PARENT (the scanner has no rule). What follows a faulty part that leaves no design or block open is read as if it stood alone. Inside a design, no word begins another design or names a parent file. An unclosed SHAPES block is different: the following design is lost as well. The statements account for the whole token sequence: one that is not marked as faulty is written out in accordance with the grammar, and a faulty one ends where the next statement begins. Every accepted design comes from such a statement, in the order of the file, and is exactly the design that this statement makes when it is alone in a file. Conversely, designs that are accepted alone and share no name or alias are all accepted together; with -d, the first design of that name is loaded if it is accepted alone, whatever the designs before and behind it are, and nothing is loaded if no design has that name (files without parents).", "quantifier": "all texts without NUL", "why_tests_cant": "Universal over texts, in particular over malformed ones.", "anchors": ["src/lexer.l:rules", "src/parser.y:config_file", "src/parser.y:design_or_error"]}
{"id": "C63", "title": "The shipped configuration file", "statement": "All 72 designs of the file boxes-config that comes with the program are accepted, in the order of the file, and satisfy all that the other properties demand of designs; each is what its statement in the file says (as in C65); opposite sides of each can be given the same length, so every text with acceptable characters can be put into every shipped box, with any effect of the regular expressions. For 30 closed designs without regular expressions and 7 comment designs, any text comes back when the drawn box is removed (as in C58 and C38). Two designs (right, dragon) make the program read behind the end of the shape array; the other 70 are accepted whatever is found there. With -d and any name or alias of a shipped design, in upper or lower case, exactly this design is loaded, and none with any other name. Auto-detection among the shipped designs (three of them coloured) ends with an answer on every well-behaved input. Removing one of the eight shipped designs without top and bottom never fails on input without escape sequences; removing others can: with \"stone\" an input consisting of one edge makes a size wrap around, and a line with a single wall is cut outside of the string.", "quantifier": "all texts, options, effects of regular expressions; all character tables that agree with libunistring on ASCII and on the box drawing and block characters", "why_tests_cant": "Universal over texts and options for each shipped design; tests try a few texts per design.", "anchors": ["boxes-config", "src/parsing.c:parse_config_file", "src/parsecode.c:action_finalize_shapes", "src/parsecode.c:action_add_design", "src/shape.c:findshape", "src/generate.c:horiz_precalc", "src/generate.c:vert_precalc", "src/remove.c:remove_box"]}
{"id": "C64", "title": "What the options mean", "statement": "A command line is accepted exactly if each of its options is well-formed on its own (-x also needs something to be switched on by the first one) and its at most two files can be opened. The settings are then determined: of several -a, -p, -s, -t the last one that says something about a place, side, dimension or the expansion decides; of several -c, -d, -e, -f, -i, -n, -q, --color the last one as a whole; of several -k only the first one counts, and -m overrides it; -e means CR LF, LF or CR by its word, -i any beginning of box, text, none (nothing stands for box), a query with nothing but exclusions includes all the rest; -x switches on the undocumented designs and the named log areas. A dash stands for standard input or output. -h and -v end the reading: the options before them count, the options and files after them are not even looked at; -? as the first argument is like -h. Every other command line is refused with a message.", "quantifier": "all sequences of options and arguments, all outcomes of opening files", "why_tests_cant": "Sequences of options and argument strings are unbounded, and each option interacts with earlier ones.", "anchors": ["src/cmdline.c:process_commandline", "src/cmdline.c:killblank", "src/cmdline.c:indentation_mode", "src/cmdline.c:eol_override", "src/cmdline.c:undocumented_options", "src/cmdline.c:command_line_design", "src/cmdline.c:query", "src/cmdline.c:debug_areas", "src/cmdline.c:input_output_files", "src/logging.c:activate_debug_logging"]}
{"id": "C65", "title": "A loaded design is what its text says", "statement": "Every design that is loaded from a configuration file is described by one of the statements of the file, in the order of the file: its name and aliases (without the aliases that a file read before has used), the author, designer and indentation mode named last, exactly the tags that are named anywhere, the padding given last for each side (areas can be abbreviated, unknown areas and negative numbers have no effect), the substitutions in the order of the file, the sample without blank lines in front and with the line terminators of the output, the lines of each shape as written, everything else missing or blank, elastic exactly those shapes that are declared so after they were given, and the smallest size that results. The description leaves none of these open. A capitalised indentation mode is accepted and stored as a letter that the rest of the program does not know; words with other characters are taken for \"box\".", "quantifier": "all sequences of statements with usable texts, all designs read from other files, all line terminators", "why_tests_cant": "Blocks are unbounded sequences of entries in any order with any repetition; tests only look at a few.", "anchors": ["src/parsecode.c:action_record_keyword", "src/parsecode.c:action_padding_entry", "src/parsecode.c:action_sample_block", "src/parsecode.c:action_add_regex_rule", "src/parsecode.c:action_finalize_shapes", "src/parser.y:elist_entry", "src/parsecode.c:adjust_eols", "src/parsecode.c:tag_record", "src/parsecode.c:action_add_alias"]}
{"id": "C66", "title": "What a configuration file amounts to, statement by statement", "statement": "The designs and the names of other files that reading a configuration file gives are exactly those that its statements give when each of them stands alone in a file, gathered in the order of the file, each name of a file once, without the designs that are not asked for (with -d those of another name and without such an alias, aliases used by a file read before not counting) and without those whose name or one of whose aliases is a name or alias of an earlier design. Unless all designs are asked for, reading ends with the first design that counts, and references to other files after it are not seen. A PARENT statement names the file whose name is its text without blanks at its ends if this can be opened and has no line ends in it; \":global:\" in any case of letters names the first file found in the global places. A statement that cannot be processed (such as a substitution with a control character) discards everything in the file.", "quantifier": "all sequences of statements, good or faulty; all ways to ask for designs; all designs of files read before; all file systems", "why_tests_cant": "The state that the parser carries from one statement to the next (flags, current design, counters, aliases) could leak between any two of arbitrarily many statements; tests see a few sequences.", "anchors": ["src/parser.y:config_file", "src/parsecode.c:action_parent_config", "src/parsecode.c:design_needed", "src/parsecode.c:action_start_parsing_design", "src/parsecode.c:action_add_design", "src/parsecode.c:action_add_alias", "src/parsecode.c:recover", "src/parsing.c:parse_config_file"]}
{"id": "C67", "title": "Reading configuration files cannot go wrong in memory", "statement": "Whatever a configuration file contains, however malformed its designs are: if its characters are acceptable ones (no NUL, no tab, no forbidden control character, no blank of a width other than 1; escape characters anywhere), reading it never accesses memory out of bounds or subtracts below zero and always comes to an end. The only two texts that do not simply yield a list of designs are a number that does not fit an int (undefined in C) and the word PARENT followed by a carriage return alone (the scanner gives up). The same holds for a file with all its parents, however they refer to each other: the result is an error message (no design at all) or a non-empty list of designs, well formed if there are no escape characters. The file that comes with the program fulfils the conditions. A tab in a string and several wide blanks before the name of a parent do lead to undefined behaviour.", "quantifier": "all texts of acceptable characters, all file systems with finitely many such files, all ways to ask for designs", "why_tests_cant": "Malformed texts are unbounded in number and kind; fuzzing sees few of them and memory errors need not show.", "anchors": ["src/parsing.c:parse_config_files", "src/parsing.c:parse_config_file", "src/parsecode.c", "src/parser.y", "src/lexer.l", "src/shape.c:genshape", "src/bxstring.c:bxs_trim", "src/bxstring.c:bxs_rtrim", "src/query.c:tag_is_valid"]}
{"id": "C68", "title": "The program as a whole", "statement": "From the command line and the files to what is printed: -h, -v and -? print their text without looking at anything else, and a command line that is not accepted ends the program with a failure. Reading the text from a file is the same as reading it from standard input, and naming an output file changes nothing about the text written; listings and queries do not look at the text. When a box is to be drawn, with any options, any configuration files of legal characters without escape characters that are found where the manual says and refer to each other in any way, and any acceptable text, the program ends with a failure message or a drawn text (or searches for a size of the box for ever), without undefined behaviour; the drawn text is a rectangle of rows in which the lines of the input stand in order, rewritten by the replacement rules of the design that was loaded. With the shipped configuration file every design can be drawn by any of its names, a name that no design has is a failure, and for the shipped comment and box designs 'boxes OPTIONS -d NAME' followed by 'boxes OPTIONS -d NAME -r' gives back the text.", "quantifier": "all command lines, all configuration files and texts of legal characters, all surroundings with printable paths", "why_tests_cant": "The combinations of options, configuration files and texts are unbounded; tests run a few of them end to end.", "anchors": ["src/boxes.c:main", "src/boxes.c:handle_config_parsing", "src/boxes.c:handle_generate_box", "src/boxes.c:handle_remove_box", "src/boxes.c:check_color_support", "src/cmdline.c:process_commandline", "src/parsing.c:parse_config_files", "src/discovery.c:discover_config_file", "src/input.c:read_all_input"]}
{"id": "C69", "title": "Listings tell the truth", "statement": "boxes -l -d NAME prints, line by line, what the design is: name, aliases, author, designer, origin, indentation mode, every replacement and reversion rule with its number, the minimum size, the sides with padding, the default for empty lines, the tags, the elastic shapes and the lines of every shape that is defined. Nothing else determines the text: two designs with the same listing have the same name, aliases, tags, sizes, padding, indentation mode and shapes that look the same. boxes -l prints a heading with the number of designs and the files they came from, underlined to its width, then every design exactly once in the order of the names with its aliases, its credits and its sample, then every tag once in alphabetical order with the number of designs that have it. Every design read from a text of legal characters can be listed, so that the program with -l, given any such files, prints the listing or fails with a message, without undefined behaviour. An alias 'none' cannot be told from having no alias, and because quotes in rules are not escaped, two different rules can be listed in the same way.", "quantifier": "all designs read from texts of legal characters without escape characters, all orders of files and ways to sort", "why_tests_cant": "A test compares the listing of a few designs with a fixed text; that nothing is lost, doubled or misplaced holds for all designs and all numbers of designs, tags, rules and shape lines.", "anchors": ["src/list.c:list_designs", "src/list.c:print_design_details", "src/list.c:print_tags", "src/parsing.c:print_design_list_header", "src/boxes.c:main"]}
{"id": "C70", "title": "Replacing text never overruns its buffer", "statement": "When a replacement or reversion rule is applied to a line, the new text is what the substitution yields (up to a NUL, if the replacement makes one), however much longer than the line it is and whatever its length: the first buffer is used if it suffices, otherwise one of exactly the size that is needed, so that two attempts are always enough and nothing is read or written outside of a buffer. A rule that the regular expression library refuses makes the program fail, and so does a lack of memory; a shortened text never results.", "quantifier": "all lines, new texts and initial contents of memory, all substitution functions that keep the promise of pcre2_substitute", "why_tests_cant": "An error by one in the size of the buffer shows only for one length of the new text in relation to the old one, and then perhaps not visibly.", "anchors": ["src/regulex.c:u32_regex_replace", "src/input.c:apply_substitutions"]}
{"id": "C71", "title": "Debug output", "statement": "Exactly the areas named in -x debug:... write debug messages; without it none is ever written. A message of up to 1023 bytes is written unchanged behind the name of its module in a column of nine characters, where the name of a module is that of its source file without directories and extension. Longer messages are written beyond the end of a buffer: with -x debug:regexp, a line of which a rule makes 1021 bytes or more leads to undefined behaviour.", "quantifier": "all command lines, paths and messages", "why_tests_cant": "All lengths of messages and all forms of paths; an overrun of a heap buffer need not show.", "anchors": ["src/logging.c:shorten_module", "src/logging.c:activate_debug_logging", "src/logging.c:is_area_active", "src/logging.c:log_debug", "src/logging.c:log_debug_cont"]}
{"id": "C72", "title": "Removing a box from any text, from the lines given to the text printed", "statement": "'boxes -r' on a text: each line is taken without its line feed and carriage return and with expanded tabs; what is left after the box has been removed (C34), rewritten by the reversion rules of the design and without blanks at the end of lines that are not blank, is printed line by line, with a line terminator at the end exactly if the text had one. This holds for every design and every text of acceptable characters without escape sequences and without empty lines for which the borders can be told apart (see C33), and without that condition for designs without top and bottom side and with at most one of the other sides, such as the eight shipped line comments, also if the text has never been in a box. A text with an empty line (a line feed alone) is undefined behaviour, whatever the design.", "quantifier": "all designs, all texts, all reversion rules that keep text free of escape sequences, all options with -t ...e", "why_tests_cant": "Texts that are not boxes, or damaged ones, are unbounded; tests remove a few boxes that were drawn before.", "anchors": ["src/boxes.c:handle_remove_box", "src/input.c:read_all_input", "src/input.c:trim_trailing_ws_carefully", "src/input.c:apply_substitutions", "src/remove.c:remove_box", "src/remove.c:output_input"]}
{"id": "C73", "title": "Ad-hoc comments (-c), from the command line to the text printed", "statement": "'boxes -c STRING' with a string of printable ASCII characters always prints, for every line of the text, the string, a space (or the padding asked for with -p) and the line without blanks at its end; a string of nothing but spaces is left out. With -i box (the default) the smallest indentation of the text comes first and is taken off the lines, with -i text it stays behind the string, with -i none it is dropped. The last line printed has a line terminator exactly if the text had one. Neither -d nor the contents of any configuration file matter, but without any configuration file the program fails. Calling the program again with -r added gives back the text (with the exception of C38). With a string that is not printable ASCII the program overruns a buffer, whatever the text.", "quantifier": "all strings, all texts of acceptable characters, all option lists without listing, query, requested size, justification or alignment, all contents of configuration files", "why_tests_cant": "The property joins the command line, the search for a configuration file, the construction of a design, reading, sizing and drawing, for unboundedly many texts and strings.", "anchors": ["src/boxes.c:main", "src/boxes.c:build_design", "src/boxes.c:handle_config_parsing", "src/boxes.c:handle_generate_box", "src/boxes.c:handle_remove_box", "src/cmdline.c:process_commandline", "src/generate.c:output_box"]}
{"id": "C74", "title": "Mending is removing and drawing again", "statement": "'boxes OPTIONS -m' prints exactly what 'boxes OPTIONS -r | boxes OPTIONS' prints, when the design is named by -d or given by -c and '-k no' is among the options: for every text without escape sequences and empty lines from which the removal succeeds, whichever lines look like a border. This needs that the lines printed by the removal survive being read again: none is longer than the limit or contains a line feed, each is empty or ends in something other than white space, and the last one is not both empty and unterminated. Without that the claim is false: a line of nothing but blanks stays as it is when mending and takes part in the indentation and width of the new box, and an empty unterminated last line is boxed by -m but not by the pipeline.", "quantifier": "all shipped designs and all strings given by -c, all texts, all options that leave the padding alone (no -s, or the padding given by -p), all reversion rules that keep texts plain", "why_tests_cant": "An equality between one run and the composition of two runs for unboundedly many texts, designs and option lists; the differing cases are rare texts.", "anchors": ["src/boxes.c:main", "src/boxes.c:handle_remove_box", "src/remove.c:apply_results_to_input", "src/remove.c:output_input", "src/input.c:read_all_input", "src/input.c:analyze_input"]}
{"id": "C75", "title": "The program with -q", "statement": "'boxes -q TERMS' prints the name of every loaded design which the terms of the last -q select (in the sense of C42), each one exactly once, in alphabetical order, each followed by its aliases, and nothing else; or it fails, which happens only when the configuration cannot be found or loaded. With the shipped configuration file it never fails and all of its designs are looked at. That all designs of the file are looked at is false when -x '(undoc)' is given as well: then only the first design of each file is.", "quantifier": "all command lines with -q (without -l and -c), all sets of configuration files, all queries, all sorting functions that sort", "why_tests_cant": "Unboundedly many queries, tag sets and configuration files; the order and multiplicity of the answer are claimed for all of them.", "anchors": ["src/boxes.c:main", "src/boxes.c:handle_config_parsing", "src/query.c:query_by_tag", "src/query.c:filter_by_tag", "src/query.c:parse_query", "src/cmdline.c:process_commandline", "src/parsecode.c:full_parse_required"]}
{"id": "C76", "title": "The default design", "statement": "Without -d, the program draws exactly what it draws with -d and any name or alias of the first accepted design: the first one in the configuration file, or, if that file has none, in the first of the files named as parents that has one (they are read one after the other, those named last by a file first, each one once). With the shipped file this is the design 'c'. The equality needs that no design of the files ends the reading of its file (as one with a forbidden character in a replacement rule does): such a design is passed over when another name is asked for, so that with -d another design of the same name may be found.", "quantifier": "all command lines that ask to draw without -d and -c, all sets of configuration files of legal characters that refer to each other in any way, all texts", "why_tests_cant": "An equality between two runs of the program for unboundedly many configuration files, command lines and texts.", "anchors": ["src/boxes.c:main", "src/boxes.c:handle_config_parsing", "src/parsing.c:parse_config_files", "src/parsecode.c:design_needed", "src/parsecode.c:full_parse_required", "src/parsecode.c:action_add_design", "src/cmdline.c:process_commandline"]}
{"id": "C77", "title": "Which designs -q and -l look at", "statement": "Without -d, 'boxes -q' and 'boxes -l' (the former without -x '(undoc)') look at exactly these designs: the accepted ones of the configuration file in their order, then those of each file it names as a parent, directly or through other files, each file read once and of the files named by one file those named last first; a design with the name of one that was found before (whatever the case of its letters) is left out, so that no two have the same name. This set of designs is unambiguous. The program fails exactly if there is no configuration file or no such design; otherwise it prints the answer to the query (C75) or the overview (C69) of these designs. With other options too the designs loaded are those that the files amount to.", "quantifier": "all command lines with -q or -l and without -c and -d, all sets of configuration files of legal characters that refer to each other in any way", "why_tests_cant": "The number of files, the way they refer to each other and the designs in them are unbounded.", "anchors": ["src/boxes.c:main", "src/boxes.c:handle_config_parsing", "src/parsing.c:parse_config_files", "src/parsing.c:copy_designs", "src/parsing.c:record_parent_config_files", "src/parsing.c:designs_contain", "src/parsecode.c:design_needed", "src/query.c:query_by_tag", "src/list.c:list_designs"]}
{"id": "C78", "title": "Removing a box without naming its design", "statement": "For any text without escape sequences and empty lines, 'boxes -r' without -d and with the shipped configuration file compares the text with all the designs of the file. If none of them has anything in common with it, the program fails. Otherwise the first of the best matching designs is taken, and the outcome is that of the same command line with -d and any name of this design, in any case of letters, provided that neither -p nor -s is given and that -k is given or the design has a top or a bottom side. Both provisos are needed: whether blank lines are deleted depends on the first design of the file, and -p applies to a design that is named, not to one that is detected.", "quantifier": "all texts without escape sequences and empty lines, all command lines that ask to remove a box without -d, -c, -i, -p, -s and -m, all names of the design", "why_tests_cant": "The texts and option values are unbounded, and the 72 designs have several names each in any case of letters.", "anchors": ["src/boxes.c:main", "src/boxes.c:handle_config_parsing", "src/remove.c:remove_box", "src/remove.c:detect_design_if_needed", "src/detect.c:autodetect_design", "src/boxes.c:adjust_size_and_padding", "src/cmdline.c:process_commandline"]}
{"id": "C79", "title": "Mending a box without naming its design", "statement": "For any text without escape sequences and empty lines, 'boxes -m' without -d and with the shipped configuration file compares the text with all the designs of the file. If none of them has anything in common with it, the program fails. Otherwise the first of the best matching designs is taken, and the outcome is that of the same command line with -d and any name of this design, in any case of letters, provided that neither -p nor -s is given and that the design has the same minimum size as the first design of the file. For any list of designs, different minimum sizes do no harm if the remaining text is large enough for both of them and they are large enough for the corners or there is padding. Some such proviso is needed: there is a configuration file with which the size of the box becomes negative without -d, while the same box is mended with -d. This happens with the shipped file too, for every text that is mended with -d, if its design has no padding at the sides and corners wider than the first design's minimum width, as the design 'spring'.", "quantifier": "all texts without escape sequences and empty lines, all command lines that ask to mend a box without -d, -c, -i, -p and -s, all names of the design; for the comparison of the two ways of selecting a design also all lists of designs", "why_tests_cant": "The texts and option values are unbounded, and the 72 designs have several names each in any case of letters.", "anchors": ["src/boxes.c:main", "src/boxes.c:handle_config_parsing", "src/remove.c:remove_box", "src/remove.c:detect_design_if_needed", "src/detect.c:autodetect_design", "src/boxes.c:adjust_size_and_padding", "src/generate.c:generate_box"]}
