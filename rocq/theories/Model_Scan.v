(** * Model of the scanner (src/lexer.l) and of the grammar (src/parser.y): from the text of a configuration file to statements

    The scanner is the one that flex generates from the rules of src/lexer.l: of all rules that apply in the current start
    condition, the one that matches most text wins, and the first one among equals (src/lexer.l:126-130). All rules ignore
    case (line 87). The parser never influences the scanner, so the tokens depend on the text only.

    The text is the sequence of its code points, without NUL and correctly encoded; see Model_Lexer for the delimiters.
    Left out: messages and their limits (yyerrcnt), line numbers, lack of memory, debug output, the size of the input buffer.

    The parser is the one that bison generates. The grammar is unambiguous and needs one token of lookahead, so that it is
    given here as a recursive descent. The values of the tokens are turned into [bxstr] by Model_Parser. *)
From Coq Require Import Ascii String List Arith NArith ZArith Bool.
From Verif Require Import Base Model_Unicode Model_Bxs Model_Shape Model_Regex Model_Query Model_Discovery Model_Parser Model_Lexer.
Import ListNotations.
Local Open Scope nat_scope.
Local Open Scope list_scope.

(** src/parser.y:122-132; the characters [,(){}] are tokens as well *)
Inductive token : Type :=
| T_PARENT | T_SHAPES | T_ELASTIC | T_PADDING | T_SAMPLE | T_ENDSAMPLE | T_BOX | T_END | T_UNREC
| T_REPLACE | T_REVERSE | T_TO | T_WITH | T_CHGDEL | T_TAGS | T_DELIMSPEC
| T_KEYWORD (s : list N) | T_BXWORD (s : list N) | T_ASCII_ID (s : list N) | T_STRING (s : list N) | T_FILENAME (s : list N)
| T_SHAPE (i : nat) | T_NUMBER (z : Z) | T_RXPFLAG (c : N)
| T_COMMA | T_LPAR | T_RPAR | T_LBRACE | T_RBRACE.

(** ** The scanner *)

(** src/lexer.l:98-103: the start conditions. In SAMPLE, [bol] tells whether the scanner is at the beginning of a line
    (yy_at_bol) and [acc] is the text kept by yymore(). *)
Inductive mode : Type :=
| q_INITIAL | q_BOX | q_SHAPES | q_ELASTIC | q_DELIMSPEC | q_PARENT
| q_SAMPLE (bol : bool) (acc : list N).

(** character classes: src/lexer.l:114-117 *)
Definition is_white (c : N) : bool := existsb (N.eqb c) [32; 9; 13; 10]%N.
Definition is_letter (c : N) : bool := ((65 <=? c) && (c <=? 90) || (97 <=? c) && (c <=? 122))%N.
Definition is_digit (c : N) : bool := ((48 <=? c) && (c <=? 57))%N.
Definition is_ascii (c : N) : bool := (c <? 128)%N.
Definition word_start (c : N) : bool := is_letter c || negb (is_ascii c).
Definition word_char (c : N) : bool := is_letter c || is_digit c || N.eqb c 95 || N.eqb c 45 || negb (is_ascii c).
Definition bom : N := 65279.

(** a maximal run of characters of a class *)
Fixpoint span (f : N -> bool) (s : list N) : list N * list N :=
  match s with
  | [] => ([], [])
  | c :: r => if f c then let '(a, b) := span f r in (c :: a, b) else ([], s)
  end.

(** How many times the rule for unrecognised characters applies (src/lexer.l:427-431): the pattern [.] is one byte *)
Definition utf8_len (c : N) : nat := if (c <? 128)%N then 1 else if (c <? 2048)%N then 2 else if (c <? 65536)%N then 3 else 4.
Definition unrec (c : N) : list token := repeat T_UNREC (utf8_len c).

(** atoi (src/lexer.l:408): the value of the digits; a value that is not an int is undefined behaviour *)
Definition digits_value (s : list N) : Z := fold_left (fun a c => 10 * a + (Z.of_N c - 48))%Z s 0%Z.
Definition atoi (neg : bool) (digits : list N) : res Z :=
  let v := if neg then (- digits_value digits)%Z else digits_value digits in
  if ((-2147483648 <=? v) && (v <=? 2147483647))%Z then Ok v else UB.

(** src/lexer.l:412-415 *)
Definition symbol (c : N) : option token :=
  if N.eqb c 44 then Some T_COMMA else if N.eqb c 40 then Some T_LPAR else if N.eqb c 41 then Some T_RPAR
  else if N.eqb c 123 then Some T_LBRACE else if N.eqb c 125 then Some T_RBRACE else None.

(** src/lexer.l:204-208, 310-318, 371-382: a word made of ASCII characters, in INITIAL *)
Definition word_initial (w : list N) (d : delims) : token * mode * delims :=
  if same_nocase w (lit "parent") then (T_PARENT, q_PARENT, d)
  else if same_nocase w (lit "box") then (T_BOX, q_BOX, default_delims)
  else (T_ASCII_ID w, q_INITIAL, d).
(** src/lexer.l:231-235, 291-308, 320-331, 351-382: the same in BOX. The two calls of change_string_delimiters restore
    the default. *)
Definition word_box (w : list N) (d : delims) : token * mode * delims :=
  let is k := same_nocase w (lit k) in
  if is "sample"%string then (T_SAMPLE, q_SAMPLE false [], d)
  else if is "tags"%string then (T_TAGS, q_BOX, d)
  else if is "elastic"%string then (T_ELASTIC, q_ELASTIC, d)
  else if is "shapes"%string then (T_SHAPES, q_SHAPES, d)
  else if is "replace"%string then (T_REPLACE, q_BOX, d)
  else if is "reverse"%string then (T_REVERSE, q_BOX, d)
  else if is "padding"%string then (T_PADDING, q_BOX, d)
  else if is "to"%string then (T_TO, q_BOX, d)
  else if is "with"%string then (T_WITH, q_BOX, d)
  else if is "global"%string then (T_RXPFLAG 103, q_BOX, d)
  else if is "once"%string then (T_RXPFLAG 111, q_BOX, d)
  else if is "end"%string then (T_END, q_INITIAL, default_delims)
  else if is "author"%string || is "designer"%string || is "indent"%string then (T_KEYWORD w, q_BOX, d)
  else if is "delimiter"%string || is "delim"%string then (T_CHGDEL, q_DELIMSPEC, d)
  else (T_ASCII_ID w, q_BOX, d).

(** src/lexer.l:334-349: the names of the shapes in the order of [shape_t]. The longest one that fits is taken, whatever
    follows. *)
Definition shape_spellings : list (list N) :=
  map lit ["nw"; "nnw"; "n"; "nne"; "ne"; "ene"; "e"; "ese"; "se"; "sse"; "s"; "ssw"; "sw"; "wsw"; "w"; "wnw"]%string.
Fixpoint index_of (w : list N) (l : list (list N)) (i : nat) : option nat :=
  match l with
  | [] => None
  | x :: r => if same_nocase w x then Some i else index_of w r (S i)
  end.
Fixpoint shape_at (k : nat) (s : list N) : option (nat * list N) :=
  match k with
  | O => None
  | S k' => match (if length s <? k then None else index_of (firstn k s) shape_spellings 0) with
            | Some i => Some (i, skipn k s)
            | None => shape_at k' s
            end
  end.

(** src/tools.c:280-294 *)
Definition trailing_white (c : N) : bool := existsb (N.eqb c) [10; 13; 9; 32]%N.
Definition btrim (s : list N) : list N := rev (snd (span trailing_white (rev s))).

(** [ends[ \t\r]*$], the text after it if it matches at the beginning of [s]; the line feed belongs to the rest *)
Definition ends_at (s : list N) : option (list N) :=
  if length s <? 4 then None
  else if same_nocase (firstn 4 s) (lit "ends") then
    let '(_, r) := span (fun c => existsb (N.eqb c) [32; 9; 13]%N) (skipn 4 s) in
    match r with c :: _ => if N.eqb c 10 then Some r else None | [] => None end
  else None.

(** src/lexer.l:237-289. [yyless (len)] leaves the scanner inside a line, in front of the word, so that the rule without
    the anchor is next. [yyleng] includes the text kept by yymore(). *)
Definition step_sample (d : delims) (bol : bool) (acc : list N) (c : N) (r : list N) : list token * mode * list N :=
  let text := c :: r in
  let '(blanks, text1) := span (fun c => existsb (N.eqb c) [32; 9]%N) text in
  if bol && match ends_at text1 with Some _ => true | None => false end then
    let sample := btrim (acc ++ blanks) in
    ([if is_nil sample then T_UNREC else T_STRING sample], q_SAMPLE false [], text1)
  else match ends_at text with
       | Some rest => ([T_ENDSAMPLE], q_BOX, rest)
       | None => if N.eqb c 10 then ([], q_SAMPLE true (if is_nil acc then [] else acc ++ [c]), r)
                 else ([], q_SAMPLE false (acc ++ [c]), r)
       end.

(** src/lexer.l:132-152: the specification of delimiters. [strlen] counts bytes, so that both must be ASCII characters. *)
Definition step_delimspec (d : delims) (c : N) (r : list N) : list token * mode * delims * list N :=
  if is_white c then ([], q_DELIMSPEC, d, r)
  else
    let '(w, rest) := span (fun c => negb (is_white c)) (c :: r) in
    if Neq_list w [bom] then ([], q_DELIMSPEC, d, rest)
    else match (if forallb is_ascii w then change_string_delimiters w else None) with
         | Some d' => ([T_DELIMSPEC], q_BOX, d', rest)
         | None => ([T_UNREC], q_BOX, d, rest)
         end.

(** src/lexer.l:210-228; [Err]: no rule matches, and the program ends with "flex scanner jammed" *)
Definition step_parent (d : delims) (c : N) (r : list N) : res (list token * mode * delims * list N) :=
  let '(f, rest) := span (fun c => negb (N.eqb c 13 || N.eqb c 10)) (c :: r) in
  if negb (is_nil f) then Ok ([T_FILENAME f], q_INITIAL, d, rest)
  else if N.eqb c 10 then Ok ([], q_INITIAL, d, r)
  else match r with
       | c2 :: r2 => if N.eqb c2 10 then Ok ([], q_INITIAL, d, r2) else Err
       | [] => Err
       end.

(** src/lexer.l:420-431: a comment, which must be followed by a line feed, or else any character *)
Definition step_other (q : mode) (d : delims) (c : N) (r : list N) : list token * mode * delims * list N :=
  if N.eqb c 35 then
    match up_to_newline r with
    | Some s => ([], q, d, skipn (length s) r)
    | None => (unrec c, q, d, r)
    end
  else (unrec c, q, d, r).

(** src/lexer.l:371-401: words. A word may consist of a byte order mark only, in which case it is ignored (line 132). *)
Definition step_word (q : mode) (d : delims) (c : N) (r : list N) : list token * mode * delims * list N :=
  let '(w, rest) := span word_char (c :: r) in
  if Neq_list w [bom] then ([], q, d, rest)
  else if forallb is_ascii w then
    let '(t, q', d') := match q with q_INITIAL => word_initial w d | _ => word_box w d end in ([t], q', d', rest)
  else ([T_BXWORD w], q, d, rest).

(** src/lexer.l:404-410 *)
Definition step_number (q : mode) (d : delims) (c : N) (r : list N) : res (list token * mode * delims * list N) :=
  let signed := N.eqb c 43 || N.eqb c 45 in
  let '(digits, rest) := span is_digit (if signed then r else c :: r) in
  if is_nil digits then Ok (step_other q d c r)
  else z <- atoi (N.eqb c 45) digits ;; Ok ([T_NUMBER z], q, d, rest).

(** src/lexer.l:154-202 with the rules that apply after REJECT *)
Definition step_string (q : mode) (d : delims) (c : N) (r : list N) : res (list token * mode * delims * list N) :=
  l <- lex_string d (c :: r) ;;
  match l with
  | Reject => Ok (step_other q d c r)
  | STRING s rest => Ok ([T_STRING s], q, d, rest)
  | YUNREC rest => Ok ([T_UNREC], q, d, rest)
  end.

(** One rule of src/lexer.l. The text left is [c :: r]. *)
Definition step (q : mode) (d : delims) (c : N) (r : list N) : res (list token * mode * delims * list N) :=
  match q with
  | q_SAMPLE bol acc => let '(t, q', rest) := step_sample d bol acc c r in Ok (t, q', d, rest)
  | q_DELIMSPEC => Ok (step_delimspec d c r)
  | q_PARENT => step_parent d c r
  | q_INITIAL =>
      if is_white c then Ok ([], q, d, r) else if word_start c then Ok (step_word q d c r) else Ok (step_other q d c r)
  | q_BOX =>
      if is_white c then Ok ([], q, d, r)
      else if word_start c then Ok (step_word q d c r)
      else if is_digit c || N.eqb c 43 || N.eqb c 45 then step_number q d c r
      else match symbol c with Some t => Ok ([t], q, d, r) | None => step_string q d c r end
  | q_SHAPES =>
      if is_white c || N.eqb c bom then Ok ([], q, d, r)
      else match symbol c with
           | Some t => Ok ([t], if N.eqb c 125 then q_BOX else q, d, r)
           | None => match shape_at 3 (c :: r) with
                     | Some (i, rest) => Ok ([T_SHAPE i], q, d, rest)
                     | None => step_string q d c r
                     end
           end
  | q_ELASTIC =>
      if is_white c || N.eqb c bom then Ok ([], q, d, r)
      else match symbol c with
           | Some t => Ok ([t], if N.eqb c 41 then q_BOX else q, d, r)
           | None => match shape_at 3 (c :: r) with
                     | Some (i, rest) => Ok ([T_SHAPE i], q, d, rest)
                     | None => Ok (step_other q d c r)
                     end
           end
  end.

(** yylex() until the end of the text. A step that consumes nothing leaves a mode in which the next one does. *)
Fixpoint scan_from (fuel : nat) (q : mode) (d : delims) (text : list N) : res (list token) :=
  match text with
  | [] => Ok []
  | c :: r =>
      match fuel with
      | O => Fuel
      | S f =>
          x <- step q d c r ;;
          let '(t, q', d', rest) := x in
          ts <- scan_from f q' d' rest ;; Ok (t ++ ts)
      end
  end.
Definition scan (text : list N) : res (list token) := scan_from (2 * length text + 1) q_INITIAL default_delims text.

(** the start condition in which a text leaves the scanner *)
Fixpoint condition_from (fuel : nat) (q : mode) (d : delims) (text : list N) : res mode :=
  match text with
  | [] => Ok q
  | c :: r =>
      match fuel with
      | O => Fuel
      | S f => x <- step q d c r ;; let '(_, q', d', rest) := x in condition_from f q' d' rest
      end
  end.
Definition condition_after (text : list N) : res mode := condition_from (2 * length text + 1) q_INITIAL default_delims text.

(** ** The grammar *)

(** src/parser.y:248 [tag_list], and [shape_lines] (src/parser.y:391-404), with the parenthesis *)
Fixpoint string_list (ts : list token) : option (list (list N) * list token) :=
  match ts with
  | T_STRING s :: T_RPAR :: r => Some ([s], r)
  | T_STRING s :: T_COMMA :: r => match string_list r with Some (l, r') => Some (s :: l, r') | None => None end
  | _ => None
  end.
(** src/parser.y:343-350 *)
Fixpoint elist (ts : list token) : option (list nat * list token) :=
  match ts with
  | T_SHAPE i :: T_RPAR :: r => Some ([i], r)
  | T_SHAPE i :: T_COMMA :: r => match elist r with Some (l, r') => Some (i :: l, r') | None => None end
  | _ => None
  end.
(** src/parser.y:375-388 *)
Definition shape_def_of (ts : list token) : option (shape_def * list token) :=
  match ts with
  | T_LPAR :: T_RPAR :: r => Some (no_lines, r)
  | T_LPAR :: r => match string_list r with Some (s :: l, r') => Some (lines s l, r') | _ => None end
  | _ => None
  end.
(** src/parser.y:353-372, with the brace *)
Fixpoint slist (fuel : nat) (ts : list token) : option (list (nat * shape_def) * list token) :=
  match fuel with
  | O => None
  | S f =>
      match ts with
      | T_SHAPE i :: r =>
          match shape_def_of r with
          | Some (sd, T_RBRACE :: r') => Some ([(i, sd)], r')
          | Some (sd, r') => match slist f r' with Some (l, r'') => Some ((i, sd) :: l, r'') | None => None end
          | None => None
          end
      | _ => None
      end
  end.
(** src/parser.y:407-413, with the brace *)
Fixpoint wlist (ts : list token) : option (list (list N * Z) * list token) :=
  match ts with
  | T_ASCII_ID a :: T_NUMBER z :: T_RBRACE :: r => Some ([(a, z)], r)
  | T_ASCII_ID a :: T_NUMBER z :: r => match wlist r with Some (l, r') => Some ((a, z) :: l, r') | None => None end
  | _ => None
  end.
(** src/parser.y:331-340 *)
Definition rflag (ts : list token) : N * list token :=
  match ts with T_RXPFLAG c :: r => (c, r) | _ => (103%N, ts) end.

(** src/parser.y:251-328: an entry or a block. [YPARENT FILENAME] (line 256) is left out: the scanner does not produce it
    here, see [C62_no_parent]. *)
Definition item_of (ts : list token) : option (item * list token) :=
  match ts with
  | T_KEYWORD k :: T_STRING s :: r => Some (i_keyword k s, r)
  | T_CHGDEL :: T_DELIMSPEC :: r => Some (i_ignored, r)
  | T_TAGS :: T_LPAR :: r => match string_list r with Some (l, r') => Some (i_tags l, r') | None => None end
  | T_TAGS :: T_STRING s :: r => Some (i_tags [s], r)
  | T_BXWORD _ :: T_STRING _ :: r => Some (i_ignored, r)
  | T_ASCII_ID _ :: T_STRING _ :: r => Some (i_ignored, r)
  | T_SAMPLE :: T_STRING s :: T_ENDSAMPLE :: r => Some (i_sample s, r)
  | T_SHAPES :: T_LBRACE :: r => match slist (length r) r with Some (l, r') => Some (i_shapes l, r') | None => None end
  | T_ELASTIC :: T_LPAR :: r => match elist r with Some (l, r') => Some (i_elastic l, r') | None => None end
  | T_REPLACE :: r =>
      match rflag r with
      | (m, T_STRING s :: T_WITH :: T_STRING t :: r') => Some (i_replace s t m, r')
      | _ => None
      end
  | T_REVERSE :: r =>
      match rflag r with
      | (m, T_STRING s :: T_TO :: T_STRING t :: r') => Some (i_reverse s t m, r')
      | _ => None
      end
  | T_PADDING :: T_LBRACE :: r => match wlist r with Some (l, r') => Some (i_padding l, r') | None => None end
  | _ => None
  end.

(** What follows an error (src/parser.y:194-208): bison drops what it has of the current statement and then one token after
    the other until one fits, which is YBOX or YPARENT. *)
Fixpoint recovered (ts : list token) : list token :=
  match ts with
  | [] => []
  | T_BOX :: _ => ts
  | T_PARENT :: _ => ts
  | _ :: r => recovered r
  end.

(** src/parser.y:211-215, 217-233: what follows the name: the aliases, and whether the list is complete *)
Fixpoint alias_list (ts : list token) : list (list N) * bool * list token :=
  match ts with
  | T_COMMA :: T_ASCII_ID a :: r => let '(l, ok, r') := alias_list r in (a :: l, ok, r')
  | T_COMMA :: r => ([], false, r)
  | _ => ([], true, ts)
  end.

(** src/parser.y:225-236, from the layout on: the items, and the name at the end. [None]: the grammar does not accept what
    follows the items. *)
Fixpoint layout (fuel : nat) (ts : list token) : list item * option (list N) * list token :=
  match fuel with
  | O => ([], None, ts)
  | S f =>
      match ts with
      | T_END :: T_ASCII_ID e :: r => ([], Some e, r)
      | T_END :: r => ([], None, r)
      | _ =>
          match item_of ts with
          | Some (i, r) => let '(l, e, r') := layout f r in (i :: l, e, r')
          | None => ([], None, ts)
          end
      end
  end.
(** src/parser.y:217-236: after YBOX. A layout that has no item is refused by Model_Parser. *)
Definition design_of (ts : list token) : stmt * list token :=
  match ts with
  | T_ASCII_ID n :: r =>
      match alias_list r with
      | (al, true, r1) =>
          match layout (S (length r1)) r1 with
          | (l, Some e, r2) => (s_box n al l e, if is_nil l then recovered r2 else r2)
          | (l, None, r2) => (s_box n al (l ++ [i_bad]) [], recovered r2)
          end
      | (al, false, r1) => (s_bad_id al, recovered r1)
      end
  | _ => (s_bad_id [], recovered ts)
  end.

(** src/parser.y:187-192 *)
Fixpoint config_file (fuel : nat) (ts : list token) : list stmt :=
  match fuel with
  | O => []
  | S f =>
      match ts with
      | [] => []
      | T_BOX :: r => let '(s, r') := design_of r in s :: config_file f r'
      | T_PARENT :: T_FILENAME n :: r => s_parent n :: config_file f r
      | T_PARENT :: r => s_junk :: config_file f (recovered r)
      | _ :: r => s_junk :: config_file f (recovered r)
      end
  end.
Definition statements (ts : list token) : list stmt := config_file (length ts) ts.

(** The statements of a text. A text without any token counts as one wrong statement (the grammar wants at least one). *)
Definition read_statements (text : list N) : res (list stmt) :=
  ts <- scan text ;; Ok (if is_nil ts then [s_junk] else statements ts).

(** src/parsing.c:163-197 with the text of the file *)
Definition parse_config_text (U : uctab) (beyond : res sentry) (po : popts) (eol : list N) (children : list cdesign)
  (fopen_ok : list N -> bool) (sur : surroundings) (contents : option (list N)) : res (list cdesign * list (list N)) :=
  match contents with
  | None => parse_config_file U beyond po eol children fopen_ok sur None
  | Some text => l <- read_statements text ;; parse_config_file U beyond po eol children fopen_ok sur (Some l)
  end.
