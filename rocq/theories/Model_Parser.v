(** * Model of src/parsecode.c, of the actions of src/parser.y and of src/parsing.c: from configuration files to designs

    The automata generated by flex and bison are left out. A configuration file is the sequence of the statements that the
    grammar finds in it ([stmt], [item]); strings are given as the lexer has cut them out, and are turned into [bxstr] here.
    What the parser does after an error is modelled by its effect: the rest of the design is skipped. *)
From Coq Require Import Ascii String List Arith NArith ZArith Bool.
From Verif Require Import Base Model_Unicode Model_Bxs Model_Shape Model_Regex Model_Query Model_Discovery.
Import ListNotations.
Local Open Scope nat_scope.
Local Open Scope list_scope.

(** src/parsecode.h: return codes of the actions. [RC_ERROR] becomes YYERROR, [RC_ABORT] YYABORT, [RC_ACCEPT] YYACCEPT. *)
Inductive rc (A : Type) : Type := RC_SUCCESS (a : A) | RC_ERROR | RC_ABORT | RC_ACCEPT (a : A).
Arguments RC_SUCCESS {A} a.
Arguments RC_ERROR {A}.
Arguments RC_ABORT {A}.
Arguments RC_ACCEPT {A} a.

(** src/parser.y:92-101 [invoke_action]: go on after success only *)
Definition then_ {A B : Type} (r : res (rc A)) (k : A -> res (rc B)) : res (rc B) :=
  x <- r ;; match x with RC_SUCCESS a => k a | RC_ACCEPT a => k a | RC_ERROR => Ok RC_ERROR | RC_ABORT => Ok RC_ABORT end.
Notation "x <~ e ;; k" := (then_ e (fun x => k)) (at level 61, e at next level, right associativity).

(** the contents of a [reprule_t], without the compiled pattern *)
Record rule : Type := mkRule { r_search : bxstr; r_repstr : bxstr; r_mode : N }.

(** src/boxes.in.h:103-123 [design_t]; [None] is NULL. [defined_in] and [current_rule] are left out. *)
Record cdesign : Type := mkCd {
  c_name : option (list N);
  c_aliases : list (list N);
  c_author : option bxstr;
  c_designer : option bxstr;
  c_sample : option bxstr;
  c_indentmode : N;
  c_shape : nat -> sentry;
  c_maxshapeheight : nat;
  c_minwidth : nat;
  c_minheight : nat;
  c_padding : bside -> nat;
  c_tags : list (list N);
  c_reprules : list rule;
  c_revrules : list rule
}.
(** the part used for drawing and removing *)
Definition to_design (c : cdesign) : design :=
  mkDesign (c_shape c) (c_indentmode c) (c_padding c BTOP) (c_padding c BRIG) (c_padding c BBOT) (c_padding c BLEF)
    (c_minwidth c) (c_minheight c).

Definition set_name n c := mkCd n (c_aliases c) (c_author c) (c_designer c) (c_sample c) (c_indentmode c) (c_shape c)
  (c_maxshapeheight c) (c_minwidth c) (c_minheight c) (c_padding c) (c_tags c) (c_reprules c) (c_revrules c).
Definition set_aliases x c := mkCd (c_name c) x (c_author c) (c_designer c) (c_sample c) (c_indentmode c) (c_shape c)
  (c_maxshapeheight c) (c_minwidth c) (c_minheight c) (c_padding c) (c_tags c) (c_reprules c) (c_revrules c).
Definition set_author x c := mkCd (c_name c) (c_aliases c) x (c_designer c) (c_sample c) (c_indentmode c) (c_shape c)
  (c_maxshapeheight c) (c_minwidth c) (c_minheight c) (c_padding c) (c_tags c) (c_reprules c) (c_revrules c).
Definition set_designer x c := mkCd (c_name c) (c_aliases c) (c_author c) x (c_sample c) (c_indentmode c) (c_shape c)
  (c_maxshapeheight c) (c_minwidth c) (c_minheight c) (c_padding c) (c_tags c) (c_reprules c) (c_revrules c).
Definition set_sample x c := mkCd (c_name c) (c_aliases c) (c_author c) (c_designer c) x (c_indentmode c) (c_shape c)
  (c_maxshapeheight c) (c_minwidth c) (c_minheight c) (c_padding c) (c_tags c) (c_reprules c) (c_revrules c).
Definition set_indentmode x c := mkCd (c_name c) (c_aliases c) (c_author c) (c_designer c) (c_sample c) x (c_shape c)
  (c_maxshapeheight c) (c_minwidth c) (c_minheight c) (c_padding c) (c_tags c) (c_reprules c) (c_revrules c).
Definition set_shape x c := mkCd (c_name c) (c_aliases c) (c_author c) (c_designer c) (c_sample c) (c_indentmode c) x
  (c_maxshapeheight c) (c_minwidth c) (c_minheight c) (c_padding c) (c_tags c) (c_reprules c) (c_revrules c).
Definition set_sizes mh w h c := mkCd (c_name c) (c_aliases c) (c_author c) (c_designer c) (c_sample c) (c_indentmode c)
  (c_shape c) mh w h (c_padding c) (c_tags c) (c_reprules c) (c_revrules c).
Definition set_padding x c := mkCd (c_name c) (c_aliases c) (c_author c) (c_designer c) (c_sample c) (c_indentmode c)
  (c_shape c) (c_maxshapeheight c) (c_minwidth c) (c_minheight c) x (c_tags c) (c_reprules c) (c_revrules c).
Definition set_tags x c := mkCd (c_name c) (c_aliases c) (c_author c) (c_designer c) (c_sample c) (c_indentmode c)
  (c_shape c) (c_maxshapeheight c) (c_minwidth c) (c_minheight c) (c_padding c) x (c_reprules c) (c_revrules c).
Definition set_rules x y c := mkCd (c_name c) (c_aliases c) (c_author c) (c_designer c) (c_sample c) (c_indentmode c)
  (c_shape c) (c_maxshapeheight c) (c_minwidth c) (c_minheight c) (c_padding c) (c_tags c) x y.

(** src/parsecode.c:244-251 [init_design]; DEF_INDENTMODE is 'b' (src/boxes.in.h:36) *)
Definition init_design : cdesign :=
  mkCd None [] None None None 98 (fun _ => sentry0) 0 0 0 (fun _ => 0) [] [] [].

(** One design block. The layout of a block, as the grammar has it (src/parser.y:218-415): *)
Inductive shape_def : Type :=
| no_lines                                        (* "( )" *)
| lines (first : list N) (more : list (list N)).  (* "( STRING, STRING, ... )" *)
Inductive item : Type :=
| i_keyword (keyword value : list N)              (* KEYWORD STRING *)
| i_tags (l : list (list N))                      (* YTAGS tag_entry, YTAGS '(' tag_list ')' *)
| i_sample (s : list N)                           (* YSAMPLE STRING YENDSAMPLE *)
| i_shapes (l : list (nat * shape_def))           (* YSHAPES '{' slist '}' *)
| i_elastic (l : list nat)                        (* YELASTIC '(' elist ')' *)
| i_replace (search repl : list N) (mode : N)     (* YREPLACE rflag STRING YWITH STRING *)
| i_reverse (search repl : list N) (mode : N)     (* YREVERSE rflag STRING YTO STRING *)
| i_padding (l : list (list N * Z))               (* YPADDING '{' wlist '}' *)
| i_ignored                                       (* delimiter specification, unknown key *)
| i_bad.                                          (* anything the grammar does not accept *)
Inductive stmt : Type :=
| s_parent (filename : list N)                    (* YPARENT FILENAME; the text as in the file *)
| s_box (name : list N) (aliases : list (list N)) (layout : list item) (name_at_end : list N)
| s_bad_id (aliases : list (list N))              (* a design whose first line is wrong; aliases accepted before that *)
| s_junk.                                         (* anything else *)

(** the options that the parser looks at: [opt.design_choice_by_user] with the name, and
    [opt.r || opt.l || (opt.query != NULL && !opt.qundoc)] *)
Record popts : Type := mkPopts { choice : option (list N); wants_all : bool }.

(** src/parser.y:33-67 [pass_to_bison], the fields that matter. [b_designs] are the finished designs, without [curdes]. *)
Record pstate : Type := mkPs {
  b_designs : list cdesign;
  curdes : cdesign;
  num_mandatory : nat;
  time_for_se_check : nat;
  num_shapespec : nat;
  skipping : bool;
  speeding : bool;
  b_parents : list (list N)
}.
Definition with_cur c st := mkPs (b_designs st) c (num_mandatory st) (time_for_se_check st) (num_shapespec st)
  (skipping st) (speeding st) (b_parents st).
Definition with_counts m t n st := mkPs (b_designs st) (curdes st) m t n (skipping st) (speeding st) (b_parents st).
Definition with_flags sk sp st := mkPs (b_designs st) (curdes st) (num_mandatory st) (time_for_se_check st)
  (num_shapespec st) sk sp (b_parents st).

(** write to an array *)
Definition upd (sh : nat -> sentry) (i : nat) (s : sentry) : nat -> sentry := fun j => if j =? i then s else sh j.

(** src/parsing.c:132-148, src/parsecode.c:830-839 *)
Definition pstate0 : pstate := mkPs [] init_design 0 0 0 false false [].

Section Parser.
Variable U : uctab.
(** what the program gets when it reads the entry after the last one of the array [shape]; see [findshape] *)
Variable beyond : res sentry.
Variable po : popts.
(** opt.eol *)
Variable eol : list N.
(** designs of the files read before *)
Variable children : list cdesign.
(** [bx_fopens (p, "r") != NULL] and the surroundings of the search for the global configuration *)
Variable fopen_ok : list N -> bool.
Variable sur : surroundings.

(** src/lexer.l:187-188: the value of a STRING token; NULL if there is a character that is never allowed *)
Definition string_tok (s : list N) : res (option bxstr) := utf8_to_bxs U (Some s).

(** src/bxstring.c:652-671 *)
Definition valid_in_context (b : bxstr) (p : N -> bool) : bool := forallb p (memory b).
(** src/bxstring.c:682-707; the first three dereference their argument *)
Definition valid_in_shape (b : bxstr) : bool := (0 <? num_chars_visible b) && valid_in_context b (is_allowed_in_shape U).
Definition valid_in_sample (b : bxstr) : bool := (0 <? num_chars_visible b) && valid_in_context b (is_allowed_in_sample U).
Definition valid_in_filename (b : bxstr) : bool :=
  (0 <? num_chars_visible b) && (num_chars_invisible b =? 0) && valid_in_context b (is_allowed_in_filename U).
Definition valid_in_kv_string (b : option bxstr) : bool :=
  match b with None => false | Some b' => valid_in_context b' (is_allowed_in_filename U) end.

(** *** shapes *)

(** src/parsecode.c:962-1001 *)
Definition action_first_shape_line (line : option bxstr) : res (rc sentry) :=
  match line with
  | None => UB
  | Some b => if valid_in_shape b then Ok (RC_SUCCESS (mkSentry [ascii b] [b] 1 (num_columns b) false)) else Ok RC_ERROR
  end.
(** src/parsecode.c:1005-1048 *)
Definition action_add_shape_line (shape : sentry) (line : option bxstr) : res (rc sentry) :=
  match line with
  | None => UB
  | Some b =>
      if negb (num_columns b =? s_width shape) then Ok RC_ERROR
      else if negb (valid_in_shape b) then Ok RC_ERROR
      else Ok (RC_SUCCESS (mkSentry (s_chars shape ++ [ascii b]) (s_mbcs shape ++ [b]) (S (s_height shape)) (s_width shape)
                 (s_elastic shape)))
  end.
(** src/parser.y:391-407 *)
Fixpoint shape_lines (shape : sentry) (l : list (list N)) : res (rc sentry) :=
  match l with
  | [] => Ok (RC_SUCCESS shape)
  | s :: r => b <- string_tok s ;; shape' <~ action_add_shape_line shape b ;; shape_lines shape' r
  end.
(** src/parser.y:374-388 *)
Definition parse_shape_def (d : shape_def) : res (rc sentry) :=
  match d with
  | no_lines => Ok (RC_SUCCESS sentry0)
  | lines f more =>
      b <- string_tok f ;; s <~ action_first_shape_line b ;; s' <~ shape_lines s more ;;
      Ok (RC_SUCCESS (if (s_width s' =? 0) || (s_height s' =? 0) then sentry0 else s'))
  end.
(** src/parser.y:350-371 *)
Fixpoint shapes_list (st : pstate) (l : list (nat * shape_def)) : res (rc pstate) :=
  match l with
  | [] => Ok (RC_SUCCESS st)
  | (i, d) :: r =>
      s <~ parse_shape_def d ;;
      if isempty (c_shape (curdes st) i) then
        let st' := with_cur (set_shape (upd (c_shape (curdes st)) i s) (curdes st)) st in
        let n := num_shapespec st in
        shapes_list (with_counts (num_mandatory st) (time_for_se_check st) (if isdeepempty s then n else S n) st') r
      else Ok RC_ERROR
  end.

(** src/parsecode.c:48-111 *)
Definition equal_nonzero (dim : sentry -> nat) (sh : nat -> sentry) (l : list nat) : bool :=
  forallb (fun i => (dim (sh i) =? 0) || forallb (fun j => (dim (sh j) =? 0) || (dim (sh i) =? dim (sh j))) l) l.
Definition check_sizes (sh : nat -> sentry) : bool :=
  equal_nonzero s_height sh north_side && equal_nonzero s_width sh east_side &&
  equal_nonzero s_height sh south_side && equal_nonzero s_width sh west_side.

(** src/parsecode.c:115-139; true if there is no elastic corner *)
Definition corner_check (sh : nat -> sentry) : bool := forallb (fun c => negb (s_elastic (sh c))) corners.
(** src/parsecode.c:143-156; true if all elastic shapes exist *)
Definition elastics_exist (sh : nat -> sentry) : bool :=
  forallb (fun i => negb (s_elastic (sh i) && isempty (sh i))) (seq 0 16).
Definition all_sides : list bside := [BTOP; BRIG; BBOT; BLEF].
Definition middle (s : bside) : list nat := firstn 3 (skipn 1 (side_of s)).
(** src/parsecode.c:160-180; true if there are one or two per side *)
Definition sufficient_elasticity (sh : nat -> sentry) : bool :=
  forallb (fun s => let ef := List.length (filter (fun i => s_elastic (sh i)) (middle s)) in (ef =? 1) || (ef =? 2)) all_sides.
(** src/parsecode.c:184-207: the inner loop; true if no two adjoin *)
Fixpoint not_adjoining (sh : nat -> sentry) (ef : bool) (l : list nat) : bool :=
  match l with
  | [] => true
  | i :: r => if isempty (sh i) then not_adjoining sh ef r
              else if s_elastic (sh i) then negb ef && not_adjoining sh true r
              else not_adjoining sh false r
  end.
(** src/parsecode.c:211-240; true if everything is in order *)
Definition perform_se_check (sh : nat -> sentry) : bool :=
  elastics_exist sh && corner_check sh && sufficient_elasticity sh &&
  forallb (fun s => not_adjoining sh false (middle s)) all_sides.

(** src/shape.c:55-79 for [sarr = sh + start]. Entry 16 does not exist. *)
Definition shape_at (sh : nat -> sentry) (i : nat) : res sentry := if i <? 16 then Ok (sh i) else beyond.
Fixpoint findshape (sh : nat -> sentry) (start i k : nat) : res nat :=
  match k with
  | O => Ok i
  | S k' => s <- shape_at sh (start + i) ;; if isempty s then findshape sh start (S i) k' else Ok i
  end.

(** src/shape.c:83-113 for [idx = 0] *)
Definition on_side (s : nat) : option bside := find (fun b => existsb (Nat.eqb s) (side_of b)) all_sides.
(** [side, side + 1, ...] modulo 4, src/parsecode.c:467 *)
Definition sides_from (s : bside) : list bside :=
  match s with
  | BTOP => [BTOP; BRIG; BBOT; BLEF]
  | BRIG => [BRIG; BBOT; BLEF; BTOP]
  | BBOT => [BBOT; BLEF; BTOP; BRIG]
  | BLEF => [BLEF; BTOP; BRIG; BBOT]
  end.
Definition vertical_side (s : bside) : bool := match s with BLEF | BRIG => true | _ => false end.
Definition corner_of (s : bside) : nat := nth 4 (side_of s) 0.

(** src/parsecode.c:482-496: width and height of a missing corner; [next] is the height or width of the next shape, if any *)
Definition corner_size (sh : nat -> sentry) (side : bside) (fshape : nat) (next : option sentry) : nat * nat :=
  if vertical_side side then (s_width (sh fshape), match next with None => 1 | Some n => s_height n end)
  else (match next with None => 1 | Some n => s_width n end, s_height (sh fshape)).
(** src/parsecode.c:467-507: the corners *)
Fixpoint make_corners (sh : nat -> sentry) (fshape : nat) (l : list bside) : res (rc (nat -> sentry)) :=
  match l with
  | [] => Ok (RC_SUCCESS sh)
  | side :: r =>
      let c := corner_of side in
      if isempty (sh c) then
        nshape <- findshape sh c 0 5 ;;
        next <- (if nshape =? 5 then Ok None else s <- shape_at sh (c + nshape) ;; Ok (Some s)) ;;
        let '(w, h) := corner_size sh side fshape next in
        match genshape U w h with
        | Ok (chars, mbcs) => make_corners (upd sh c (mkSentry chars mbcs h w false)) c r
        | Err => Ok RC_ABORT
        | UB => UB | Wrap => Wrap | Fuel => Fuel
        end
      else make_corners sh c r
  end.
(** src/parsecode.c:513-541: an elastic shape for each side that has none *)
Fixpoint make_middles (sh : nat -> sentry) (l : list bside) : res (rc (nat -> sentry)) :=
  match l with
  | [] => Ok (RC_SUCCESS sh)
  | side :: r =>
      if forallb (fun i => isempty (sh i)) (middle side) then
        let c0 := nth 0 (side_of side) 0 in
        let c := nth 2 (side_of side) 0 in
        let '(w, h) := if vertical_side side then (s_width (sh c0), 1) else (1, s_height (sh c0)) in
        match genshape U w h with
        | Ok (chars, mbcs) => make_middles (upd sh c (mkSentry chars mbcs h w true)) r
        | Err => Ok RC_ABORT
        | UB => UB | Wrap => Wrap | Fuel => Fuel
        end
      else make_middles sh r
  end.
(** src/parsecode.c:449-541: the shapes after completion *)
Definition complete_shapes (sh : nat -> sentry) : res (rc (nat -> sentry)) :=
  f <- findshape sh 0 0 16 ;;
  if f =? 16 then Ok RC_ABORT
  else match on_side f with
       | None => Ok RC_ABORT
       | Some fside => sh' <~ make_corners sh f (sides_from fside) ;; make_middles sh' all_sides
       end.
(** src/parsecode.c:557-578 *)
Definition min_size (dim : sentry -> nat) (sh : nat -> sentry) (s : bside) : nat :=
  sum (map (fun i => if isempty (sh i) then 0 else dim (sh i)) (side_of s)).
(** src/parsecode.c:436-596 *)
Definition action_finalize_shapes (st : pstate) : res (rc pstate) :=
  if num_shapespec st <? 1 then Ok RC_ERROR
  else
    sh <~ complete_shapes (c_shape (curdes st)) ;;
    if negb (check_sizes sh) then Ok RC_ERROR
    else
      let t := S (time_for_se_check st) in
      if (1 <? t) && negb (perform_se_check sh) then Ok RC_ERROR
      else
        let c := set_shape sh (curdes st) in
        let mw := Nat.max (c_minwidth c) (Nat.max (min_size s_width sh BTOP) (min_size s_width sh BBOT)) in
        let mh := Nat.max (c_minheight c) (Nat.max (min_size s_height sh BRIG) (min_size s_height sh BLEF)) in
        let hi := Nat.max (c_maxshapeheight c) (highest sh (seq 0 16)) in
        Ok (RC_SUCCESS (with_counts (S (num_mandatory st)) t (num_shapespec st) (with_cur (set_sizes hi mw mh c) st))).

(** src/parser.y:291-299, 338-347 *)
Definition mark_elastic (sh : nat -> sentry) (i : nat) : nat -> sentry :=
  upd sh i (mkSentry (s_chars (sh i)) (s_mbcs (sh i)) (s_height (sh i)) (s_width (sh i)) true).
Definition action_elastic (st : pstate) (l : list nat) : res (rc pstate) :=
  let sh := fold_left mark_elastic l (c_shape (curdes st)) in
  let t := S (time_for_se_check st) in
  if (1 <? t) && negb (perform_se_check sh) then Ok RC_ERROR
  else Ok (RC_SUCCESS (with_counts (S (num_mandatory st)) t (num_shapespec st) (with_cur (set_shape sh (curdes st)) st))).

(** *** tags *)

(** src/bxstring.c:344-360 for a non-NULL cursor, at position [i] of the visible characters: the position found *)
Fixpoint bxs_strchr (b : bxstr) (c : N) (i k : nat) : res (option nat) :=
  match k with
  | O => Ok None
  | S k' => p <- rd (visible_char b) i ;; x <- rdc (memory b) p ;; if N.eqb x c then Ok (Some i) else bxs_strchr b c (S i) k'
  end.
Definition strchr_from (b : bxstr) (c : N) (start : nat) : res (option nat) :=
  bxs_strchr b c start (num_chars_visible b - start).

(** src/parsecode.c:363-384; only messages depend on the return code *)
Definition tag_add (tags : list (list N)) (tag : option bxstr) : list (list N) :=
  match tag with
  | None => tags
  | Some b => if is_ascii_id true (memory b) then (if array_contains0 tags (ascii b) then tags else tags ++ [ascii b]) else tags
  end.
Definition trim_tag (b : bxstr) (s e : nat) : res (option bxstr) :=
  match bxs_trimdup U b s e with Ok x => Ok (Some x) | Err => Ok None | UB => UB | Wrap => Wrap | Fuel => Fuel end.
(** src/parsecode.c:388-406: the loop *)
Fixpoint tag_split_add (fuel : nat) (tags : list (list N)) (b : bxstr) (vis_start : nat) : res (list (list N)) :=
  match fuel with
  | O => Fuel
  | S f =>
      c <- strchr_from b 44 vis_start ;;
      t <- trim_tag b vis_start (match c with Some p => p | None => num_chars_visible b end) ;;
      let tags' := tag_add tags t in
      match c with Some p => tag_split_add f tags' b (S p) | None => Ok tags' end
  end.
(** src/parsecode.c:410-427; the argument is dereferenced *)
Definition tag_record (tags : list (list N)) (tag : option bxstr) : res (list (list N)) :=
  match tag with
  | None => UB
  | Some b =>
      if 0 <? num_chars_invisible b then Ok tags
      else
        c <- strchr_from b 44 0 ;;
        match c with
        | Some _ => tag_split_add (S (num_chars_visible b)) tags b 0
        | None => t <- trim_tag b 0 (num_chars_visible b) ;; Ok (tag_add tags t)
        end
  end.
(** src/parser.y:222-227 *)
Fixpoint tag_list (tags : list (list N)) (l : list (list N)) : res (list (list N)) :=
  match l with
  | [] => Ok tags
  | s :: r => b <- string_tok s ;; t <- tag_record tags b ;; tag_list t r
  end.

(** *** other entries *)

(** src/parsecode.c:733-785 *)
Definition action_record_keyword (c : cdesign) (keyword : list N) (value : option bxstr) : res (rc cdesign) :=
  if negb (valid_in_kv_string value) then Ok RC_ERROR
  else
    match value with
    | None => Ok RC_ERROR
    | Some v =>
        if same_nocase keyword (Model_Discovery.lit "author") then Ok (RC_SUCCESS (set_author (Some v) c))
        else if same_nocase keyword (Model_Discovery.lit "designer") then Ok (RC_SUCCESS (set_designer (Some v) c))
        else if same_nocase keyword (Model_Discovery.lit "tags") then t <- tag_record (c_tags c) (Some v) ;; Ok (RC_SUCCESS (set_tags t c))
        else if same_nocase keyword (Model_Discovery.lit "indent") then
          if existsb (same_nocase (ascii v)) (map Model_Discovery.lit ["text"; "box"; "none"]%string)
          then Ok (RC_SUCCESS (set_indentmode (hd 0%N (ascii v)) c)) else Ok RC_ERROR
        else Ok RC_ERROR
    end.

(** src/parsecode.c:789-827: [len1 <= strlen (word) && strncasecmp (word, area, len1) == 0] *)
Definition abbreviates (word : string) (area : list N) : bool :=
  (List.length area <=? List.length (Model_Discovery.lit word)) &&
  same_nocase (firstn (List.length area) (Model_Discovery.lit word)) area.
Definition pad_set (p : bside -> nat) (l : list bside) (v : nat) : bside -> nat :=
  fun s => if existsb (fun x => match x, s with BTOP, BTOP | BRIG, BRIG | BBOT, BBOT | BLEF, BLEF => true | _, _ => false end) l
           then v else p s.
Definition action_padding_entry (p : bside -> nat) (e : list N * Z) : bside -> nat :=
  let '(area, value) := e in
  if (value <? 0)%Z then p
  else
    let v := Z.to_nat value in
    if abbreviates "all" area then pad_set p [BTOP; BBOT; BLEF; BRIG] v
    else if abbreviates "horizontal" area then pad_set p [BRIG; BLEF] v
    else if abbreviates "vertical" area then pad_set p [BTOP; BBOT] v
    else if abbreviates "top" area then pad_set p [BTOP] v
    else if abbreviates "right" area then pad_set p [BRIG] v
    else if abbreviates "left" area then pad_set p [BLEF] v
    else if abbreviates "bottom" area then pad_set p [BBOT] v
    else p.

(** src/parsecode.c:876-892: [cand] is the candidate for the result; the rest of the string from there *)
Fixpoint skip_blank_cr (s : list N) : list N :=
  match s with c :: r => if uc_is_blank U c || N.eqb c char_cr then skip_blank_cr r else s | [] => [] end.
Fixpoint first_nonblank_line (fuel : nat) (s : list N) : list N :=
  match fuel with
  | O => s
  | S f => match skip_blank_cr s with
           | c :: r => if N.eqb c char_newline then first_nonblank_line f r else s
           | [] => s
           end
  end.
(** src/parsecode.c:862-872: the pattern (?:(\r\n?)|(\n)), replaced everywhere *)
Fixpoint adjust_eols (s : list N) : list N :=
  match s with
  | [] => []
  | c :: r =>
      if N.eqb c char_cr then eol ++ match r with d :: r' => if N.eqb d char_newline then adjust_eols r' else adjust_eols r | [] => [] end
      else if N.eqb c char_newline then eol ++ adjust_eols r
      else c :: adjust_eols r
  end.
(** src/parsecode.c:896-925; the argument is dereferenced *)
Definition action_sample_block (st : pstate) (sample : option bxstr) : res (rc pstate) :=
  match c_sample (curdes st) with
  | Some _ => Ok RC_ERROR
  | None =>
      match sample with
      | None => UB
      | Some b =>
          l <- utf8_to_bxs U (Some (adjust_eols (first_nonblank_line (List.length (memory b)) (memory b)))) ;;
          match l with
          | None => Ok RC_ABORT
          | Some line =>
              if num_chars line =? 0 then Ok RC_ERROR
              else if negb (valid_in_sample line) then Ok RC_ERROR
              else Ok (RC_SUCCESS (with_counts (S (num_mandatory st)) (time_for_se_check st) (num_shapespec st)
                         (with_cur (set_sample (Some line) (curdes st)) st)))
          end
      end
  end.
(** src/lexer.l:262-272: the value of the STRING token in a sample. The item carries the text up to the last character that is
    not a blank or line end ([btrim], line 260); there is one, or the lexer returns YUNREC instead. *)
Definition nullable {A : Type} (r : res A) : res (option A) :=
  match r with Ok x => Ok (Some x) | Err => Ok None | UB => UB | Wrap => Wrap | Fuel => Fuel end.
Definition sample_tok (s : list N) : res (option bxstr) :=
  b <- string_tok s ;;
  t <- match b with None => Ok None | Some x => nullable (bxs_rtrim U x) end ;;
  match t with None => string_tok [char_newline] | Some y => nullable (bxs_strcat U y [char_newline]) end.

(** src/parsecode.c:929-958 *)
Definition action_add_regex_rule (l : list rule) (search repl : option bxstr) (mode : N) : rc (list rule) :=
  match search, repl with
  | Some s, Some r => RC_SUCCESS (l ++ [mkRule s r mode])
  | _, _ => RC_ABORT
  end.

(** src/parser.y:218-330: one entry or block *)
Definition do_item (st : pstate) (i : item) : res (rc pstate) :=
  match i with
  | i_keyword k v => b <- string_tok v ;; c <~ action_record_keyword (curdes st) k b ;; Ok (RC_SUCCESS (with_cur c st))
  | i_tags l => t <- tag_list (c_tags (curdes st)) l ;; Ok (RC_SUCCESS (with_cur (set_tags t (curdes st)) st))
  | i_sample s => b <- sample_tok s ;; action_sample_block st b
  | i_shapes l => st' <~ shapes_list st l ;; action_finalize_shapes st'
  | i_elastic l => action_elastic st l
  | i_replace s r m =>
      bs <- string_tok s ;; br <- string_tok r ;;
      x <~ Ok (action_add_regex_rule (c_reprules (curdes st)) bs br m) ;;
      Ok (RC_SUCCESS (with_cur (set_rules x (c_revrules (curdes st)) (curdes st)) st))
  | i_reverse s r m =>
      bs <- string_tok s ;; br <- string_tok r ;;
      x <~ Ok (action_add_regex_rule (c_revrules (curdes st)) bs br m) ;;
      Ok (RC_SUCCESS (with_cur (set_rules (c_reprules (curdes st)) x (curdes st)) st))
  | i_padding l => Ok (RC_SUCCESS (with_cur (set_padding (fold_left action_padding_entry l (c_padding (curdes st))) (curdes st)) st))
  | i_ignored => Ok (RC_SUCCESS st)
  | i_bad => Ok RC_ERROR
  end.
Fixpoint do_items (st : pstate) (l : list item) : res (rc pstate) :=
  match l with [] => Ok (RC_SUCCESS st) | i :: r => st' <~ do_item st i ;; do_items st' r end.

(** *** designs *)

(** src/parsecode.c:281-306 *)
Definition design_has_alias (d : cdesign) (alias : list N) : bool := existsb (same_nocase alias) (c_aliases d).
Definition design_has_name (d : cdesign) (name : list N) : bool :=
  match c_name d with Some n => same_nocase name n | None => false end || design_has_alias d name.
(** src/parsecode.c:310-318 *)
Definition full_parse_required : bool := match choice po with Some _ => false | None => wants_all po end.
(** src/parsecode.c:327-338 *)
Definition design_needed (st : pstate) : bool :=
  match choice po with
  | Some n => design_has_name (curdes st) n
  | None => full_parse_required || is_nil (b_designs st)
  end.
(** src/parsecode.c:342-352; the finished designs have a name *)
Definition design_name_exists (st : pstate) (name : list N) : bool := existsb (fun d => design_has_name d name) (b_designs st).
(** src/parsecode.c:356-366 *)
Definition alias_exists_in_child_configs (alias : list N) : bool := existsb (fun d => design_has_alias d alias) children.

(** src/parsecode.c:843-858 *)
Definition action_add_alias (st : pstate) (alias : list N) : rc pstate :=
  if design_name_exists st alias then RC_ERROR
  else if alias_exists_in_child_configs alias then RC_SUCCESS st
  else RC_SUCCESS (with_cur (set_aliases (c_aliases (curdes st) ++ [alias]) (curdes st)) st).
(** A list of aliases. The state is kept when an alias is refused. *)
Fixpoint add_aliases (st : pstate) (l : list (list N)) : pstate * bool :=
  match l with
  | [] => (st, true)
  | a :: r => match action_add_alias st a with RC_SUCCESS st' => add_aliases st' r | _ => (st, false) end
  end.

(** src/parsecode.c:607-624; the state is kept when the design is to be skipped *)
Definition action_start_parsing_design (st : pstate) (name : list N) : pstate * bool :=
  let st1 := with_cur (set_name (Some name) (curdes st)) (with_flags false false st) in
  if design_needed st1 then (st1, true) else (with_flags false true st1, false).

(** src/parsecode.c:687-729. On success the current design becomes a finished one. *)
Definition action_add_design (st : pstate) (name name_at_end : list N) : rc pstate :=
  if negb (same_nocase name name_at_end) then RC_ERROR
  else if num_mandatory st <? 3 then RC_ERROR
  else if design_name_exists st name then RC_ERROR
  else
    let st' := mkPs (b_designs st ++ [curdes st]) init_design 0 0 0 (skipping st) (speeding st) (b_parents st) in
    if full_parse_required then RC_SUCCESS st' else RC_ACCEPT st'.

(** src/parsecode.c:259-277 and src/parser.y:194-208: the rule for errors. It is executed once per skipped token, which makes
    no difference. *)
Definition after_error (st : pstate) : pstate :=
  let st1 := with_cur (set_aliases [] (curdes st)) st in
  if negb (speeding st1) && negb (skipping st1)
  then mkPs (b_designs st1) init_design 0 0 0 true false (b_parents st1)
  else st1.

(** src/parsecode.c:628-683. [None] for the name: the text is not acceptable to [bxs_from_unicode]. The order of the checks
    is that of the code. *)
Definition add_parent (st : pstate) (path : list N) : pstate :=
  if existsb (Neq_list path) (b_parents st) then st
  else mkPs (b_designs st) (curdes st) (num_mandatory st) (time_for_se_check st) (num_shapespec st) (skipping st)
         (speeding st) (b_parents st ++ [path]).
Definition action_parent_config (st : pstate) (filepath : option bxstr) : res pstate :=
  match filepath with
  | None => Ok (after_error (with_flags true (speeding st) st))
  | Some b =>
      if num_chars b =? 0 then Ok (after_error (with_flags true (speeding st) st))
      else if same_nocase (ascii b) (Model_Discovery.lit ":global:") then
        g <- discover_config_file U sur true ;;
        match g with
        | None => Ok (after_error (with_flags true (speeding st) st))
        | Some p => Ok (add_parent st (memory p))
        end
      else if negb (valid_in_filename b) then Ok (after_error st)
      else if fopen_ok (memory b) then Ok (add_parent st (memory b))
      else Ok (after_error (with_flags true (speeding st) st))
  end.
(** src/lexer.l:211-213 *)
Definition filename_tok (s : list N) : res (option bxstr) :=
  b <- string_tok s ;;
  match b with
  | None => Ok None
  | Some x => match bxs_trim U x with Ok y => Ok (Some y) | Err => Ok None | UB => UB | Wrap => Wrap | Fuel => Fuel end
  end.

(** src/parser.y:187-215: one statement. A design that is refused for any reason is skipped. *)
Definition do_stmt (st : pstate) (s : stmt) : res (rc pstate) :=
  match s with
  | s_parent f => b <- filename_tok f ;; st' <- action_parent_config st b ;; Ok (RC_SUCCESS st')
  | s_junk => Ok (RC_SUCCESS (after_error st))
  | s_bad_id al => Ok (RC_SUCCESS (after_error (fst (add_aliases st al))))
  | s_box name al layout name_at_end =>
      let '(st1, ok1) := add_aliases st al in
      if negb ok1 then Ok (RC_SUCCESS (after_error st1))
      else
        let '(st2, ok2) := action_start_parsing_design st1 name in
        if negb ok2 then Ok (RC_SUCCESS (after_error st2))
        else if is_nil layout then Ok (RC_SUCCESS (after_error st2))
        else
          r <- do_items st2 layout ;;
          match r with
          | RC_SUCCESS st3 =>
              match action_add_design st3 name name_at_end with
              | RC_ERROR => Ok (RC_SUCCESS (after_error st3))
              | r' => Ok r'
              end
          | RC_ERROR => Ok (RC_SUCCESS (after_error st2))
          | RC_ABORT => Ok RC_ABORT
          | RC_ACCEPT st3 => Ok (RC_ACCEPT st3)
          end
  end.
Fixpoint do_stmts (st : pstate) (l : list stmt) : res (rc pstate) :=
  match l with
  | [] => Ok (RC_SUCCESS st)
  | s :: r => x <- do_stmt st s ;; match x with RC_SUCCESS st' => do_stmts st' r | _ => Ok x end
  end.

(** src/parsing.c:163-197 with src/parser.y:150-180: designs and parents of one file. [None]: the file cannot be opened. *)
Definition parse_config_file (contents : option (list stmt)) : res (list cdesign * list (list N)) :=
  match contents with
  | None => Ok ([], [])
  | Some l =>
      x <- do_stmts pstate0 l ;;
      match x with
      | RC_SUCCESS st =>
          if is_nil (b_designs st) && match choice po with None => is_nil (b_parents st) | Some _ => false end then Ok ([], [])
          else Ok (b_designs st, b_parents st)
      | RC_ACCEPT st => Ok (b_designs st, b_parents st)
      | _ => Ok ([], [])
      end
  end.
End Parser.

(** *** several files *)

(** src/parsing.c:201-214; finished designs have a name (strcasecmp with NULL is not modelled) *)
Definition designs_contain (l : list cdesign) (d : cdesign) : bool :=
  match c_name d with
  | None => true
  | Some n => existsb (fun x => match c_name x with Some m => same_nocase m n | None => false end) l
  end.
(** src/parsing.c:218-237: the parents of a file are visited from the last to the first *)
Definition record_parent_config_files (known parents : list (list N)) : list (list N) :=
  fold_left (fun k p => if existsb (Neq_list p) k then k else k ++ [p]) (rev parents) known.
(** src/parsing.c:241-263 *)
Definition copy_designs (result new : list cdesign) : list cdesign :=
  match result with
  | [] => new
  | _ => fold_left (fun r d => if designs_contain r d then r else r ++ [d]) new result
  end.

Section Files.
(** the designs and the parents found in one file, given the designs found so far: [parse_config_file] of the contents of the
    file of that name *)
Variable parse : list N -> list cdesign -> res (list cdesign * list (list N)).

(** src/parsing.c:276-301: the loop; [k] is [parents_parsed] after its increment *)
Fixpoint parse_loop (fuel : nat) (file : list N) (k : nat) (known : list (list N)) (result : list cdesign)
  : res (list cdesign * list (list N)) :=
  match fuel with
  | O => Fuel
  | S f =>
      '(ds, ps) <- parse file result ;;
      let known' := record_parent_config_files known ps in
      let result' := copy_designs result ds in
      match nth_error known' k with
      | Some next => parse_loop f next (S k) known' result'
      | None => Ok (result', known')
      end
  end.
(** src/parsing.c:267-316; [Err] is NULL *)
Definition parse_config_files (fuel : nat) (first : list N) : res (list cdesign) :=
  '(r, _) <- parse_loop fuel first 0 [] [] ;;
  match r with [] => Err | _ => Ok r end.
End Files.

(** src/parsing.c:163-316: a configuration with its parents; [contents f] is [None] if the file [f] cannot be opened *)
Definition load_config (U : uctab) (beyond : res sentry) (po : popts) (eol : list N) (fopen_ok : list N -> bool) (sur : surroundings)
  (contents : list N -> option (list stmt)) (fuel : nat) (first : list N) : res (list cdesign) :=
  parse_config_files (fun f before => parse_config_file U beyond po eol before fopen_ok sur (contents f)) fuel first.
