# Machine-checked model of `boxes`

Rocq/Coq 8.16.1, sources in `rocq/theories` (logical root `Verif`).
The C sources in `/repo/src` were read as text; nothing was compiled or run.

## Trusted base

* The Coq kernel (`coqc`, and `coqchk` as a second check).
* Assumptions: `Print Assumptions` follows every property theorem in the `Prop_*.v` files; each prints
  "Closed under the global context", i.e. no theorem depends on any axiom. (A checker that lists the axioms of all
  loaded library modules also shows `Coq.ssr.ssrunder.Under_rel.*`: these come from the standard library module loaded
  by the `lia` tactic; no theorem here depends on them.)
* The hand translation from C to Gallina. Every definition carries a comment with file and lines; deviations are
  noted there and summarised below.
* External code is represented by explicit parameters (records of functions), never by axioms:
  libunistring character tables (`uc_width`, blank, control, white-space), PCRE2 substitutions, the file system
  and environment for configuration discovery, `strtol`-free parts of libc. Theorems quantify over all
  such parameters or state the hypotheses they need on them.

## Modelling conventions

* Characters are code points in `N`; strings are `list N` without NUL; an index equal to the length reads NUL.
* `size_t` and lengths are `nat`. Code whose unsigned subtraction could wrap uses a checked subtraction with the
  distinct outcome `Wrap`; theorems then show this outcome is unreachable (or exhibit it). Overflow past 2^64 by
  addition is not modelled (objects of that size do not exist). Signed values are `Z`.
* Outcomes: `Ok v`, `Err` (the program reports an error), `UB` (out-of-bounds access, NULL dereference,
  division by zero), `Wrap` (an unsigned subtraction below zero), `Fuel` (loop bound of the model exhausted). Theorems exclude or exhibit them.
* Allocation failure is not modelled. Memory release is modelled only where it matters (line array in removal).
* Logging, help texts and progress messages are not modelled.

## Files

`Base.v` outcomes and checked access; `Model_*.v` translation of the C code (no proofs); `Spec_*.v` specifications
that do not use the model's helper functions; `Proof_*.v` lemmas; `Prop_*.v` the property theorems `Cnn_...`, each with
`Print Assumptions` and a concrete `Example` meeting its hypotheses; `Demo.v` designs and inputs for the examples.
Names ending in `_refuted` prove that a plausible claim is false of the code.

`seeded/LOG.jsonl`: wrong programs. For each, the first failing item per file as reported by the build, and instances
of theorems evaluated on the mutant without proofs (`tools/seed.py`): a broken helper lemma alone does not show that
the property theorem excludes the mutant, a false instance does.

## Properties: what is modelled and how it is proved

C01-C05, C07-C12 — `boxes.c` size/padding adjustment and all of `generate.c` (precalc, assemble, output_box,
justify_line), translated function by function. Invariant of the growth loop (sum of repetition counts times shape
width = side width), induction over the assembly loops, then a row-by-row lemma for `output_box`.
Rectangularity is stated with an independent column-width function on the printed rows.

C06 — the growth loop is run on fuel. Termination: number theory over arithmetic progressions (gcd), divergence:
parity-style invariant showing `Fuel` for every amount of fuel.

C13-C19, C21 — `bxstring.c`, `unicode.c`: `bxs_from_unicode` with its three output maps; specification by an
independent segmentation of a string into escape sequences and visible characters.

C20, C22-C27 — `input.c`, `tools.c`: tab expansion, trimming, indentation. Regular-expression substitution is an
oracle parameter.

C28-C30, C56, C57 — `parsecode.c`, the actions of `parser.y`, `parsing.c` (`Model_Parser.v`). A file is the sequence of
statements that the grammar finds in it (`stmt`, `item`), including ones it does not accept; for the way from the text to
these statements see C61. After an error the rest of the design is skipped. What is
found behind the end of the array of shapes (`findshape`) is a parameter. Proof: invariants over items, statements, files;
`Spec_Parser.v` has the meaning of names, order of files (`read_in_order`, `first_named`), blank shapes and tags.

C31 — `list.c:escape` and the string rule of `lexer.l` (`Model_Lexer.v`: `change_string_delimiters`, the `memmove` loop of the
string rule with its lengths, `bxs_is_visible_char`, `escape`, the quoted line of `list_design`). Text is a list of code points
without NUL; the rule's pattern `.*$` only matches when a line feed follows; the escape character is taken to be one code point
(in the program one byte). The other rules: C61.

C61, C62 — the rules of `lexer.l` and the grammar of `parser.y` (`Model_Scan.v`). The scanner is a step function on the text left
and the start condition, following the rules by hand (longest match, then first rule); trusted are flex and bison, i.e. that
they implement rules and grammar, including bison's recovery at the `error` productions. The text is a list of code points
without NUL; [.] in the rule for unknown characters matches one byte of its UTF-8 form. `Spec_Config.v` describes the language
as relations between text and meaning, without tokens or states. Proof: each form is scanned into its tokens in any context
(`runs`), the recursive descent inverts the tokens; locality of the scanner at line ends for C62. `Spec_Grammar.v` gives the token
grammar as a relation; the recursive descent accepts nothing else (`Proof_Grammar.v`), and the state that one statement leaves
behind has no influence on the next design (`Proof_Isolated.v`). 
C63 — the shipped `boxes-config` as data: `Shipped.v` is its text, line by line, written by `tools/mkshipped.py` (one list of
lines per design; non-ASCII characters are decoded from the UTF-8 bytes of the literals by `utf8`). The text is read
part by part (C62's locality of the scanner at line ends joins the parts). `Proof_Fast.v` makes this cheap enough for the kernel without
its virtual machine: `fast_statement` is a scanner of one part that is proved to agree with `read_statements`, and `together` says that statements with unrelated
names that are accepted alone are accepted together, so that the designs are checked one by one. `Proof_Chosen.v` is loading by name: what `-d` passes over has no influence. The character table is
libunistring's on ASCII and U+2500-U+259F and arbitrary elsewhere (`drawing_tab`). Decidable versions of the classes of designs with proofs
of their soundness (`Proof_Decide.v`) carry the general theorems over. Trusted: that `Shipped.v` is the file (rerun the script), and the
values of the table for these characters. `findshape` reads behind the array of shapes for two of the designs: in the C structure the
next fields are numbers that are 0 then; the theorem assumes an empty shape there.

C32 — `boxes.c:build_design` (`Model_Cld.v`). The argument is a list of code points; the bytes copied by `strcpy` are its UTF-8
encoding. `Spec_Comment.v` says what a design with only a left border is; `Proof_Comment.v` has the exact rows drawn with any
such design, used for the output of -c.

C33-C39 — `remove.c` and the comparison preparation of `detect.c`, function by function (`Model_Detect.v`,
`Model_Remove.v`). `Spec_Remove.v` says what a border line is (`border_line`: corners up to cut blanks, shape lines in
side order, elastic ones repeated) and what is drawn (`border_row`). The backtracking matcher `hmm` has the fuel
`6 * (length + 1) + 2`; C37 shows it is never exhausted. C35 soundness holds for all comparison modes; C36 completeness
for designs without escape sequences, by following the drawn line through the search (a wrong early choice is excluded
because shortened shapes only match at blanks). C33/C34: the relation `removed` says which lines and which parts of lines
may be missing in the output and in which order; it is proved for all inputs without escape sequences, for the whole of
`remove_box`. It leaves open whether a border line is found (C36 says so for drawn ones). C39 covers `killblank`.

C38 — the whole program twice (`boxes_draw`, then `boxes_remove` on its output read back through `raw_lines`), for designs with
      only a left border. `Spec_Round.v` has the class of texts (`neat`, `common_indent`) and what becomes of a line (`restored`).
      Proof: exact rows (C32's `comment_rows`) and printing (C12), exact computation of the removal on these lines. An empty
      line in an indented text comes back as blanks, and a border starting with a blank is not taken off completely: refuted
      claims beside the theorem.

C58 — the same composition for boxes with four sides (`Spec_Closed.v`: `closed_design`). The walls have lines of constant
length whose outer character is not blank, every line of the horizontal borders shows something, no escape sequences. The
text is arbitrary (`neat` lines) and may contain pieces of the border: the proof shows that the outermost occurrence of a
wall line wins in `vert_try` and that the recognised borders are the drawn ones (C36). Blank lines at the start and end of
the text are indistinguishable from padding and get lost, a centred block keeps its blanks (`…_refuted`).

C40 — two-pass loop of `main` (`Model_Mend.v`, boxes.c:534-563). The design is a member of the list of configured designs; the
      first pass stores the adjusted padding and size in the selected design, removes the (chosen or detected) design, trims;
      the second pass writes the saved minimum size into the design selected by then and draws. Proved: equal to removal
      followed by drawing for a chosen design if the padding stays; `Wrap` if the saved minimum width is less than the corners
      of the removed design; the deviations for detected designs and for requested sizes are exhibited.

C41, C54 — `detect.c:autodetect_design` (two nested loops, invariant over the state "best so far") with the full scoring of
`match_design`; C54 shows the scores exist (`calm_design`: no escape sequences, or no blanks in front of the first character of coloured
lines that end in blanks). The caches of `is_blankward` and of the visible text are left out.

C59 — the value of the score. `Spec_Score.v` says what is counted without indices or loops (`counts` over pairs of shape line
and text line, `starts`, `ends_in`, `holds`); the proof goes through each of the five scoring functions. Together with C41 it
describes the result of the detection (`best_scored`), which depends on the visible text only.

C60 — `boxes_remove_from` (`Model_Mend.v`): -r with the design chosen or detected. C58 composed with C59; `foreign`
(`Spec_Score.v`) is a condition on the other designs that implies the highest score.

C42-C44 — `query.c`, `list.c` (`Model_Query.v`): `strtok` with a single comma, trimming, the two identifier patterns with a
small backtracking matcher (`Model_Regex.v`, including PCRE's `$` before a final line feed), `strcasecmp` in the C locale,
`qsort` as a parameter with its contract. Byte strings are lists of characters; the memory of `names` is a bounded buffer.
`Spec_Query.v` has the meaning: `terms` (cut, trimmed), `well_formed`, `selected`, `not_after`.

C45-C48, C55 — `cmdline.c`, `tools.c` (`Model_Cmdline.v`), with a model of `strtol` (64-bit `long`, C locale, glibc's
behaviour without digits) and of the conversion to a 32-bit `int`. A pointer into an argument is the rest of the
argument; stepping over its end is `UB`. `getopt_long` and `fopen` are parameters. Lack of memory is left out.
C64 — `Spec_Options.v` says for each option on its own what it contributes, and for each setting which contribution counts (`meant`);
only the types of options and settings come from the model. Proof: `do_items` is split into one fold per setting (`items_split`).

C65 — `Spec_Layout.v` says what each entry of a design contributes and how the design results (`described`, `stands_for`); only the
types of statements and designs come from the model of the parser. Hypotheses (`legible_stmt`): indentation modes in printable ASCII
(otherwise `C65_indent_refuted`), tags without escape sequences, tabs and line feeds, shape lines tidy and at least one column wide,
the sample without broken escape sequences and ending with something visible (the scanner cuts off everything else).
`C65_unique` shows that the description determines the design. `C63_described` applies it to the shipped file.

C66 — `Spec_File.v` defines inductively (`file_says`) how the results of the single statements of a file combine; a single statement is
judged by the parser model applied to a file with this statement only (`alone_in_file`), so that the theorem says that nothing leaks
from one statement to another. "Fatal" is told from "without effect" by a reference to another file in front. `means_file` says
without the model which file a PARENT statement means.

C67 — all of `parsecode.c`, `lexer.l`, `parser.y`, `parsing.c` on arbitrary texts of legal characters (`Spec_Safe.v`). `Proof_Safe.v`
goes through the actions one by one, for statements of any shape; `Proof_SafeText.v` shows that what the scanner hands over consists of
characters of the text. `Model_Program.v` (the `main` function, with everything outside in a record `world`) and `Model_List.v`
(`list.c`) put the parts together; `C67_files` is about its `load_designs`.

C68 — `main` of `boxes.c` (`Model_Program.v`): command line, discovery, configuration files, listing, query, drawing, removal, repair, each
by its model, with the exits of the program in between. A `world` contains the files, standard input, the environment, and the external
functions. `Prop_Program.v` composes the theorems about the parts; `Spec_Program.v` has the vocabulary of the statements.

C69 — `list.c` and the heading in `parsing.c` (`Model_List.v`). `Spec_List.v` describes the printed lines: `sheet` for one design,
`overview` for all of them, in terms of the record of the design (`cdesign`) and of what a string looks like (`looks`). `Proof_List.v`
and `Proof_ListAll.v` show that the program prints these lines, `Proof_ListBack.v` that they determine what they tell,
`Proof_ListLoaded.v` and `Proof_ListText.v` that designs read from a text can be listed. Names, tags and file names are printed as they
are; numbers by `dec`, of which only the value is used.

C70 — `regulex.c` (`Model_Regulex.v`): the loop around `pcre2_substitute` with its output buffer. The library function is a parameter;
`Spec_Regulex.v` has its contract. The models of drawing and removing take what `C70_replaced` yields as a function of the line.

C71 — `logging.c` (`Model_Logging.v`), with the message as a parameter instead of a format and its arguments.

C72 — removal end to end. `Spec_Undo.v` says what a line given contains (`content`), which lines are left (`removed`, C34), and what is
printed of them (`rewrites`, `rtrimmed`). `removed` also says that the text structure of every remaining line is the one
`bxs_from_unicode` builds for its text, which is why they can be trimmed and printed.

C73 — the program with -c. `Spec_Adhoc.v` says what the row of a line is (`commented`) and what the indentation of a text is (`indented`);
`Prop_Adhoc.v` composes C32, C25, C50, C55, C64 and C49. New over C32: the whole of `main`, all indentation modes, that the outcome
does not depend on the fuel other than by being `Fuel`, and that the configuration files are not read.

C74 — mending as a pipeline. `Spec_Pipe.v` says which lines survive being printed and read again (`steady`). `Proof_Pipe.v` shows that
any successful `remove_box` turns lines made from plain text into such lines, without the hypotheses of C72 about borders; `Prop_Pipe.v`
compares `boxes_mend` with `boxes_remove` followed by `boxes_draw`, and `Prop_PipeMain.v` does this for `main` with a shipped design and
with -c. `C74_lost_lines_refuted` shows two texts where the condition on the lines fails and the outputs differ.

C75 — the program with -q. `Spec_Ask.v` says which query counts (`last_query`), what is printed for a design (`answer`) and which designs,
in which order (`picked`, on top of the meaning of queries in `Spec_Query.v`). `Prop_Ask.v`: `C75_program` for any configuration files,
`C75_shipped` for the shipped one (all 72 designs are looked at, no failure), `C75_undoc_refuted`: with -x '(undoc)' the parser stops after
the first design (`full_parse_required`).

C76 — the design that is taken when none is named. `Spec_Default.v` says which one it is, file by file (`first_in`, `none_in`, `finds`), in terms
of what a statement amounts to when it is alone (`Spec_File.v`). `Prop_Default.v`: `C76_default` (drawing without -d equals drawing with -d and
any of its names), `C76_shipped`, and `C76_fatal_refuted` for files with a design that ends the reading.

C77 — the designs that -q and -l look at. `Spec_All.v` says which ones a set of files amounts to (`in_file`, `joins`, `collects`), again in terms
of statements that are alone. `Prop_All.v`: `C77_loaded` (what is loaded, for any options), `C77_unique` and `C77_apart` (the result is
unambiguous, its names are different), `C77_query` and `C77_list` (the whole program, with the exact reasons for a failure).

C78 — removing a box whose design is not named. `Prop_Detected.v`: `C78_detected` (any list of designs: the outcome without -d is that of the
detected design being named), `C78_undetected` (no design: failure), `C78_shipped` (the whole program with the shipped file, any text without
escape sequences and empty lines). What the detection and the removal depend on is only the shapes and three of the paddings (section `Same`).
`C78_blank_lines_refuted` and `C78_padding_refuted` show by runs of the program that the two provisos cannot be left out.

C79 — mending a box whose design is not named, in the same file. `C79_mended` (any list of designs), `C79_roomy`
(instead of equal minimum sizes: the remaining text with padding and corners is at least as large as both, and without padding both are at least as
large as the corners), `C79_shipped` (the whole program with the
shipped file; the lemma `looked_at` describes the text and the detection for both C78 and C79), `C79_minimum_size_refuted` (a run of the program in
which the minimum size of the first design makes the size of the box wrap around, although the box is mended with -d).
`C79_too_small` and `C79_shipped_too_small` say that this happens for every text that is mended with -d, if the detected design has no padding at the
sides and corners wider than the minimum width of the first design; `C79_spring`: the shipped file has such a design (first design: width 5).

C49 — `discovery.c` (`Model_Discovery.v`, Unix variant) with the file system and the environment as a parameter. `Spec_Discovery.v`
transcribes the list of places of the manual page.

Not modelled: UTF-8 conversion (inputs are code points), terminal capability detection, writing to
files (the text written is the result of the model), the text of messages, the OS-specific `#ifdef` branches.
