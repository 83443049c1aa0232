(** * Model of the listings of src/list.c and of src/parsing.c:77-107: options -l, and -l with -d or -c

    The text written to [opt.outfile]. Numbers are printed as [int]: sizes are below 2^31. The name of the file a design comes
    from ([defined_in]) is a parameter, as a string ready for output. *)
From Coq Require Import Ascii String List Arith NArith ZArith Bool.
From Verif Require Import Base Model_Unicode Model_Bxs Model_Shape Model_Query Model_Discovery Model_Lexer Model_Parser.
Import ListNotations.
Local Open Scope nat_scope.
Local Open Scope list_scope.

Notation lit := Model_Discovery.lit.

(** [printf ("%d")] of a number that is not negative *)
Fixpoint digits_of (u : Decimal.uint) : list N :=
  (match u with
   | Decimal.Nil => []
   | Decimal.D0 r => 48 :: digits_of r | Decimal.D1 r => 49 :: digits_of r | Decimal.D2 r => 50 :: digits_of r
   | Decimal.D3 r => 51 :: digits_of r | Decimal.D4 r => 52 :: digits_of r | Decimal.D5 r => 53 :: digits_of r
   | Decimal.D6 r => 54 :: digits_of r | Decimal.D7 r => 55 :: digits_of r | Decimal.D8 r => 56 :: digits_of r
   | Decimal.D9 r => 57 :: digits_of r
   end)%N.
Definition dec (n : nat) : list N := digits_of (Nat.to_uint n).

(** src/shape.c:35-38 *)
Definition shape_name : list (list N) :=
  map lit ["NW"; "NNW"; "N"; "NNE"; "NE"; "ENE"; "E"; "ESE"; "SE"; "SSE"; "S"; "SSW"; "SW"; "WSW"; "W"; "WNW"]%string.
Definition NUM_SHAPES := 16.

(** [printf ("%s%s", idx > 0 ? ", " : "", element)] for every element of an array *)
Fixpoint with_commas (idx : nat) (l : list (list N)) : list N :=
  match l with [] => [] | x :: r => (if 0 <? idx then lit ", " else []) ++ x ++ with_commas (S idx) r end.
(** src/list.c:203-212, 297-306 *)
Definition list_or_none (l : list (list N)) : list N := with_commas 0 l ++ (if is_nil l then lit "none" else []).

Section Listing.
Variable U : uctab.
(** color_output_enabled, opt.eol *)
Variable color : bool.
Variable eol : list N.

(** src/bxstring.c:551-565 with a null pointer *)
Definition output_or (dflt : list N) (b : option bxstr) : res (list N) :=
  match b with Some x => bxs_to_output color x | None => Ok dflt end.
Definition NULL_text : list N := lit "NULL".

(** src/list.c:233-260; [sep] is WITH or TO *)
Fixpoint rule_lines (sep : list N) (total i : nat) (l : list rule) : res (list N) :=
  match l with
  | [] => Ok []
  | r :: rest =>
      s <- bxs_to_output color (r_search r) ;;
      t <- bxs_to_output color (r_repstr r) ;;
      m <- rule_lines sep total (S i) rest ;;
      Ok (dec (S i) ++ lit ". (" ++ (if N.eqb (r_mode r) 103 then lit "glob" else lit "once") ++ lit ") """ ++ s ++ lit """ " ++ sep ++
          lit " """ ++ t ++ lit """" ++ eol ++ (if S i <? total then lit "                        " else []) ++ m)
  end.
Definition rules_text (sep : list N) (l : list rule) : res (list N) :=
  if 0 <? length l then rule_lines sep (length l) 0 l else Ok (lit "none" ++ eol).

(** src/list.c:265-292 *)
Definition padding_text (p : bside -> nat) : list N :=
  let t := 0 <? p BTOP in
  let r := 0 <? p BRIG in
  let b := 0 <? p BBOT in
  let l := 0 <? p BLEF in
  (if t || r || b || l then
     (if l then lit "left " ++ dec (p BLEF) ++ (if t || r || b then lit ", " else []) else []) ++
     (if t then lit "top " ++ dec (p BTOP) ++ (if r || b then lit ", " else []) else []) ++
     (if r then lit "right " ++ dec (p BRIG) ++ (if b then lit ", " else []) else []) ++
     (if b then lit "bottom " ++ dec (p BBOT) else [])
   else lit "none") ++ eol.

(** src/list.c:308-319; the flag is [sstart] *)
Fixpoint elastic_text (sh : nat -> sentry) (start : bool) (l : list nat) : res (list N) :=
  match l with
  | [] => Ok []
  | i :: r =>
      if isempty (sh i) then elastic_text sh start r
      else if s_elastic (sh i) then
        n <- rd shape_name i ;;
        m <- elastic_text sh true r ;;
        Ok ((if start then lit ", " else []) ++ n ++ m)
      else elastic_text sh start r
  end.

(** ["%-24s"] and ["%3s"] *)
Definition pad_right (n : nat) (s : list N) : list N := s ++ repeat 32%N (n - length s).
Definition pad_left (n : nat) (s : list N) : list N := repeat 32%N (n - length s) ++ s.
(** src/list.c:333-341: line [w] of shape [i] *)
Definition shape_line (first : bool) (i w : nat) (s : sentry) : res (list N) :=
  n <- rd shape_name i ;;
  b <- rd (s_mbcs s) w ;;
  quoted <- listed_line U color b ;;
  Ok (pad_right 24 (if first && (w =? 0) then lit "Defined Shapes:" else []) ++
      pad_left 3 (if w =? 0 then n else []) ++ [if w =? 0 then 58%N else 32%N] ++ lit " " ++ quoted ++
      [if w <? s_height s - 1 then 44%N else 32%N] ++ eol).
(** src/list.c:327-345 *)
Fixpoint shapes_text (sh : nat -> sentry) (first : bool) (l : list nat) : res (list N) :=
  match l with
  | [] => Ok []
  | i :: r =>
      if isdeepempty (sh i) then shapes_text sh first r
      else
        ls <- mapM (fun w => shape_line first i w (sh i)) (seq 0 (s_height (sh i))) ;;
        m <- shapes_text sh false r ;;
        Ok (concat ls ++ m)
  end.

(** src/list.c:194-347; [undoc] is [opt.qundoc]. [opt.design] is [d] here. The name is never NULL (src/parsecode.c:607-624). *)
Definition print_design_details (undoc : bool) (defined_in : list N) (d : cdesign) : res (list N) :=
  name <- must (match c_name d with Some n => Ok n | None => Err end) ;;
  author <- output_or (lit "(unknown author)") (c_author d) ;;
  designer <- output_or (lit "(unknown artist)") (c_designer d) ;;
  reps <- rules_text (lit "WITH") (c_reprules d) ;;
  revs <- rules_text (lit "TO") (c_revrules d) ;;
  el <- elastic_text (c_shape d) false (seq 0 NUM_SHAPES) ;;
  tail <- (if undoc then s <- output_or NULL_text (c_sample d) ;; Ok (lit "Sample:" ++ eol ++ s ++ eol)
           else shapes_text (c_shape d) true (seq 0 NUM_SHAPES)) ;;
  Ok (lit "Complete Design Information for """ ++ name ++ lit """:" ++ eol ++
      lit "-----------------------------------" ++ repeat 45%N (length name) ++ eol ++
      lit "Alias Names:            " ++ list_or_none (c_aliases d) ++ eol ++
      lit "Author:                 " ++ author ++ eol ++
      lit "Original Designer:      " ++ designer ++ eol ++
      lit "Configuration File:     " ++ defined_in ++ eol ++
      lit "Indentation Mode:       " ++
        (if N.eqb (c_indentmode d) 98 then lit "box (indent box)"
         else if N.eqb (c_indentmode d) 116 then lit "text (retain indentation inside of box)"
         else lit "none (discard indentation)") ++ eol ++
      lit "Replacement Rules:      " ++ reps ++
      lit "Reversion Rules:        " ++ revs ++
      lit "Minimum Box Dimensions: " ++ dec (c_minwidth d) ++ lit " x " ++ dec (c_minheight d) ++ lit "  (width x height)" ++ eol ++
      lit "Default Padding:        " ++ padding_text (c_padding d) ++
      lit "Default Killblank:      " ++
        (if empty_side (c_shape d) BTOP && empty_side (c_shape d) BBOT then lit "no" else lit "yes") ++ eol ++
      lit "Tags:                   " ++ list_or_none (c_tags d) ++ eol ++
      lit "Elastic Shapes:         " ++ el ++ eol ++ tail).

(** src/parsing.c:77-107: [file] is the first configuration file, [parents] the others *)
Definition print_design_list_header (num_designs : nat) (file : bxstr) (parents : list bxstr) : res (list N) :=
  let s := if num_designs =? 1 then [] else lit "s" in
  let dash := if num_designs =? 1 then [] else lit "-" in
  f <- bxs_to_output color file ;;
  if 0 <? length parents then
    ps <- mapM (fun p => t <- bxs_to_output color p ;; Ok (lit "    - " ++ t ++ lit " (parent)" ++ eol)) parents ;;
    Ok (dec num_designs ++ lit " Available Style" ++ s ++ lit ":" ++ eol ++
        lit "-----------------" ++ dash ++ repeat 45%N (length (dec num_designs)) ++ eol ++ eol ++
        lit "Configuration Files:" ++ eol ++ lit "    - " ++ f ++ eol ++ concat ps ++ eol ++ eol)
  else
    Ok (dec num_designs ++ lit " Available Style" ++ s ++ lit " in """ ++ f ++ lit """:" ++ eol ++
        lit "-----------------------" ++ dash ++ repeat 45%N (num_columns file + length (dec num_designs)) ++ eol ++ eol).

(** src/bxstring.c:634-648 for strings that are not NULL *)
Definition bxs_differ (a b : bxstr) : bool := negb (Neq_list (memory a) (memory b)).

(** What the lists need to know of a design; its name is never NULL *)
Definition entry_of (d : cdesign) : entry :=
  mkEntry (match c_name d with Some n => n | None => [] end) (c_aliases d) (c_tags d).

(** src/list.c:366-387: one design of the list *)
Definition design_block (d : cdesign) : res (list N) :=
  all_names <- names (entry_of d) ;;
  s <- output_or NULL_text (c_sample d) ;;
  match c_designer d, c_author d with
  | Some de, Some au =>
      dt <- bxs_to_output color de ;;
      at_ <- bxs_to_output color au ;;
      Ok (if bxs_differ au de then all_names ++ eol ++ dt ++ lit ", coded by " ++ at_ ++ lit ":" ++ eol ++ eol ++ s ++ eol ++ eol
          else all_names ++ eol ++ dt ++ lit ":" ++ eol ++ eol ++ s ++ eol ++ eol)
  | Some de, None => dt <- bxs_to_output color de ;; Ok (all_names ++ eol ++ dt ++ lit ":" ++ eol ++ eol ++ s ++ eol ++ eol)
  | None, Some au =>
      at_ <- bxs_to_output color au ;; Ok (all_names ++ eol ++ lit "unknown artist, coded by " ++ at_ ++ lit ":" ++ eol ++ eol ++ s ++ eol ++ eol)
  | None, None => Ok (all_names ++ lit ":" ++ eol ++ eol ++ s ++ eol ++ eol)
  end.

(** src/list.c:154-166; the statistics are never allocated if there are no tags *)
Fixpoint tags_text (tidx : nat) (l : list (list N * nat)) : list N :=
  match l with
  | [] => []
  | (t, n) :: r => (if 0 <? tidx then lit " | " else []) ++ t ++ lit " (" ++ dec n ++ lit ")" ++ tags_text (S tidx) r
  end.
Definition print_tags (stats : list (list N * nat)) : list N := if is_nil stats then [] else tags_text 0 stats ++ eol.

(** src/list.c:351-400 without a design chosen by the user; qsort is a parameter *)
Definition list_all (qs : forall A : Type, (A -> A -> Z) -> list A -> list A) (file : bxstr) (parents : list bxstr)
    (designs : list cdesign) : res (list N) :=
  let sorted := qs cdesign (fun a b => style_sort (entry_of a) (entry_of b)) designs in
  h <- print_design_list_header (length designs) file parents ;;
  bs <- mapM design_block sorted ;;
  let stats := fold_left (fun st t => count_tag t st) (flat_map c_tags sorted) [] in
  Ok (h ++ concat bs ++ print_tags (qs _ tagstats_sort stats)).
End Listing.
