(** * Model of src/input.c and of the line handling in src/tools.c *)
From Coq Require Import List Arith NArith ZArith Bool.
From Verif Require Import Base Model_Unicode Model_Bxs Model_Shape.
Import ListNotations.

(** src/input.c:43-52 *)
Definition has_linebreak (s : list N) : bool :=
  match rev s with
  | c :: _ => N.eqb c char_cr || N.eqb c char_newline
  | [] => false
  end.

(** [fgets (buf, LINE_MAX_BYTES + 2, f)] until end of file: pieces that end behind a line feed or hold [room]
    characters. The buffer size is counted in bytes; the model's input is the decoded text of one-byte
    characters, or text whose lines are all shorter than the buffer. *)
Fixpoint fgets_all (room left : N) (cur : list N) (s : list N) : list (list N) :=
  match s with
  | [] => if is_nil cur then [] else [rev cur]
  | c :: r =>
      if N.eqb c char_newline || N.eqb left 1 then rev (c :: cur) :: fgets_all room room [] r
      else fgets_all room (N.pred left) (c :: cur) r
  end.
Definition raw_lines (s : list N) : list (list N) :=
  fgets_all (LINE_MAX_BYTES + 1) (LINE_MAX_BYTES + 1) [] s.

Section WithTables.
Variable U : uctab.

(** src/tools.c:317-324: position of the last character that is not white space, escape sequences aside *)
Fixpoint last_char (fuel : nat) (pos : nat) (best : option nat) (s : list N) : option nat :=
  match s, fuel with
  | [], _ => best
  | _, O => best
  | c :: _, S f =>
      let best' := if negb (N.eqb c char_esc) && negb (uc_ws U c) then Some pos else best in
      let moved := fst (advance_next32 s) in
      last_char f (pos + moved) best' (skipn moved s)
  end.

(** src/tools.c:298-339; the result is the new contents of the buffer *)
Definition btrim32 (s : list N) : list N :=
  match last_char (length s) 0 None s with
  | None => []
  | Some p =>
      match skipn (S p) s with
      | c :: r => if N.eqb c char_esc then firstn (S p + snd (advance_next32 (c :: r))) s else firstn (S p) s
      | [] => firstn (S p) s
      end
  end.
End WithTables.

(** [is_char_at (s, len - 1, c)], then removal of that character; [s[-1]] is undefined *)
Definition chop (c : N) (s : list N) : res (list N) :=
  match rev s with
  | [] => UB
  | x :: r => Ok (if N.eqb x c then rev r else s)
  end.

(** src/input.c:195-212 *)
Definition trim_trailing_ws_carefully (U : uctab) (remove : bool) (s : list N) : res (list N) :=
  if remove then s1 <- chop char_newline s ;; chop char_cr s1
  else Ok (btrim32 U s).

(** src/tools.c:253-269. Work buffer of LINE_MAX_BYTES + 100 characters; [acc] is its contents in reverse,
    [io] its length. Result: contents, positions of the tabs met, in reverse. *)
Fixpoint expand_loop (tabstop : nat) (acc : list N) (io : nat) (tabs : list nat) (s : list N)
  : res (list N * list nat) :=
  match s with
  | [] => Ok (acc, tabs)
  | c :: r =>
      if N.ltb (N.of_nat io) (LINE_MAX_BYTES - 12) then
        if N.eqb c char_tab then
          if tabstop =? 0 then UB else
          let n := tabstop - io mod tabstop in
          if N.ltb (LINE_MAX_BYTES + 100) (N.of_nat (io + n)) then UB
          else expand_loop tabstop (repeat 32%N n ++ acc) (io + n) (io :: tabs) r
        else if N.leb (LINE_MAX_BYTES + 100) (N.of_nat io) then UB
        else expand_loop tabstop (c :: acc) (S io) tabs r
      else Ok (acc, tabs)
  end.

(** src/tools.c:221-276. [keep] is [opt.tabexp == 'k']; only then the tab positions are recorded (the array
    has one zeroed entry per tab of the whole line). *)
Definition expand_tabs_into (tabstop : nat) (keep : bool) (s : list N) : res (list N * list nat) :=
  ' r <- expand_loop tabstop [] 0 [] s ;;
  if N.leb (LINE_MAX_BYTES + 100) (N.of_nat (length (fst r))) then UB   (* the terminating NUL *)
  else
    let ntabs := length (filter (N.eqb char_tab) s) in
    Ok (rev (fst r), if keep then rev (snd r) ++ repeat 0 (ntabs - length (snd r)) else []).

Section Read.
Variable U : uctab.
Variable remove : bool.          (* opt.r *)

(** src/input.c:237-263: one line. A NULL result of [bxs_from_unicode] is dereferenced later by
    [analyze_line_ascii]. *)
Definition read_line (o : opts) (raw : list N) : res line :=
  s <- trim_trailing_ws_carefully U remove raw ;;
  if is_nil s then Ok (mkLine bxs_new_empty_string [])
  else
    ' t <- expand_tabs_into (o_tabstop o) (N.eqb (o_tabexp o) 107) s ;;
    if is_nil (fst t) then Err
    else b <- must (bxs_from_unicode U (fst t)) ;; Ok (mkLine b (snd t)).

(** src/input.c:216-272: the lines and [final_newline] *)
Definition read_all_input (o : opts) (raws : list (list N)) : res (list line * bool) :=
  ls <- mapM (read_line o) raws ;;
  Ok (ls, has_linebreak (last raws [])).

(** src/input.c:62-91. [res] is an [int] that starts at LINE_MAX_BYTES. *)
Definition get_indent (ls : list line) : nat :=
  if existsb (fun l => 0 <? num_columns (l_text l)) ls then
    N.to_nat (fold_left (fun r l => if (0 <? num_columns (l_text l)) && N.ltb (N.of_nat (indent (l_text l))) r
                                    then N.of_nat (indent (l_text l)) else r) ls LINE_MAX_BYTES)
  else 0.

(** src/tools.c:590-595 *)
Definition analyze_line_ascii (m : nat) (b : bxstr) : nat := if m <? num_columns b then num_columns b else m.

(** src/input.c:139-175: all substitutions on one line. A rule is what [u32_regex_replace] does for its pattern
    and replacement ([None] is a failure); regular expressions themselves are not modelled. *)
Fixpoint subst_line (rules : list (list N -> option (list N))) (m : nat) (b : bxstr) : res (nat * bxstr) :=
  match rules with
  | [] => Ok (m, b)
  | f :: rest =>
      match f (memory b) with
      | None => Err
      | Some t => b' <- must (bxs_from_unicode U t) ;; subst_line rest (analyze_line_ascii m b') b'
      end
  end.
Fixpoint subst_lines (rules : list (list N -> option (list N))) (m : nat) (ls : list line) : res (nat * list line) :=
  match ls with
  | [] => Ok (m, [])
  | l :: r =>
      ' x <- subst_line rules m (l_text l) ;;
      ' y <- subst_lines rules (fst x) r ;;
      Ok (fst y, mkLine (snd x) (l_tabpos l) :: snd y)
  end.

(** src/input.c:95-191 (mode is selected by the choice of [rules]) *)
Definition apply_substitutions (d : design) (rules : list (list N -> option (list N))) (i : input) : res input :=
  ' r <- subst_lines rules (i_maxline i) (i_lines i) ;;
  Ok (mkInput (snd r) (fst r) (if N.eqb (d_indentmode d) 116 then get_indent (snd r) else i_indent i)
        (i_final_newline i)).

(** src/input.c:308-318 *)
Definition unindent (n : nat) (l : line) : res line :=
  if n <=? num_columns (l_text l) then
    b <- must (bxs_cut_front U (l_text l) n) ;; Ok (mkLine b (l_tabpos l))
  else Ok l.

(** src/input.c:276-344 *)
Definition analyze_input (d : design) (rules : list (list N -> option (list N))) (ls : list line) (fin : bool)
  : res input :=
  let m := fold_left (fun m l => analyze_line_ascii m (l_text l)) ls 0 in
  if is_nil ls then Ok (mkInput [] m (N.to_nat LINE_MAX_BYTES) fin)
  else
    let ind := get_indent ls in
    i <- (if negb (N.eqb (d_indentmode d) 116) && negb remove then
            ls' <- mapM (unindent ind) ls ;; m' <- subz m ind ;; Ok (mkInput ls' m' ind fin)
          else Ok (mkInput ls m ind fin)) ;;
    if remove then Ok i else apply_substitutions d rules i.

(** src/boxes.c:270-296 with src/input.c: from raw lines to analysed input *)
Definition handle_input (o : opts) (d : design) (rules : list (list N -> option (list N))) (raws : list (list N))
  : res input :=
  ' r <- read_all_input o raws ;; analyze_input d rules (fst r) (snd r).
End Read.
