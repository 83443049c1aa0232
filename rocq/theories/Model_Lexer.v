(** * Model of the string literals of the configuration language (src/lexer.l) and of their listing (src/list.c) *)
From Coq Require Import Ascii String List Arith NArith ZArith Bool.
From Verif Require Import Base Model_Unicode Model_Bxs Model_Discovery.
Import ListNotations.
Local Open Scope nat_scope.
Local Open Scope list_scope.

(** src/parsing.h [pass_to_flex]: the string delimiter and the escape character. The lexer works on UTF-8 bytes; text is
    represented by its code points, so both are taken to be ASCII characters (a delimiter always is, see below). *)
Record delims : Type := mkDelims { sdel : N; sesc : N }.
(** src/parsing.c:156-157, and src/lexer.l:316, 329 *)
Definition default_delims : delims := mkDelims 34 92.

(** src/lexer.l:39, and the pattern [SDELIM] (line 118) *)
Definition LEX_SDELIM : list N := lit """~'`!@%&*=:;<>?/|.\".

(** src/lexer.l:493-515; [None] is the return value 1 *)
Definition change_string_delimiters (delim_expr : list N) : option delims :=
  match delim_expr with
  | [e; d] => if N.eqb e d then None else if existsb (N.eqb d) LEX_SDELIM then Some (mkDelims d e) else None
  | _ => None
  end.

(** [memmove (p, p+1, n)]; [mem] is the memory from [p] on, as far as it was allocated *)
Definition memmove1 (mem : list N) (n : nat) : res (list N) :=
  if length mem <? S n then UB else Ok (firstn n (tl mem) ++ skipn n mem).

(** src/lexer.l:173-200: [done] is the memory from [str] to [p], [mem] the memory from [p] on *)
Inductive lexed : Type :=
| Complete (content : list N) (used : nat)      (* src/lexer.l:182-192 *)
| Unterminated.                                 (* src/lexer.l:197-201 *)
Fixpoint string_loop (d : delims) (fuel : nat) (done mem : list N) (rest_len qcnt : nat) : res lexed :=
  match fuel with
  | O => Fuel
  | S f =>
      match mem with
      | [] => UB
      | c :: mem1 =>
          if N.eqb c 0 then Ok Unterminated
          else if N.eqb c (sesc d) then
            mem2 <- memmove1 mem rest_len ;;
            rest1 <- subz rest_len 1 ;;
            match mem2 with
            | [] => UB
            | c2 :: mem3 =>
                if N.eqb c2 0 then Ok Unterminated
                else rest2 <- subz rest1 1 ;; string_loop d f (done ++ [c2]) mem3 rest2 (S qcnt)
            end
          else if N.eqb c (sdel d) then Ok (Complete done (length done + 2 + qcnt))
          else rest1 <- subz rest_len 1 ;; string_loop d f (done ++ [c]) mem1 rest1 qcnt
      end
  end.

(** the text up to the next line feed, if there is one: the pattern [.*$] only matches in front of a line feed *)
Fixpoint up_to_newline (s : list N) : option (list N) :=
  match s with
  | [] => None
  | c :: r => if N.eqb c 10 then Some [] else match up_to_newline r with Some l => Some (c :: l) | None => None end
  end.

(** src/lexer.l:154-202. The text contains no NUL. [Reject]: other rules apply. The rest of the text is what the lexer
    sees next; [yyless] with more characters than the token has would be an error of the program. *)
Inductive literal : Type :=
| Reject
| STRING (content rest : list N)
| YUNREC (rest : list N).
Definition lex_string (d : delims) (text : list N) : res literal :=
  match text with
  | [] => Ok Reject
  | c :: _ =>
      if negb (existsb (N.eqb c) LEX_SDELIM) then Ok Reject else
      match up_to_newline text with
      | None => Ok Reject
      | Some yytext =>
          if negb (N.eqb c (sdel d)) then Ok Reject else
          let str := tl yytext in
          r <- string_loop d (S (length str)) [] (str ++ [0%N]) (length str) 0 ;;
          match r with
          | Complete content used => if length yytext <? used then UB else Ok (STRING content (skipn used text))
          | Unterminated => Ok (YUNREC (skipn (length yytext) text))
          end
      end
  end.

(** src/bxstring.c:595-610; [n] visible positions are left, [k] steps are left *)
Fixpoint visible_scan (l : list nat) (n k idx : nat) : res bool :=
  match n, k with
  | S n', S k' =>
      match l with
      | [] => UB
      | p :: r => if p =? idx then Ok true else if idx <? p then Ok false else visible_scan r n' k' idx
      end
  | _, _ => Ok false
  end.
Definition bxs_is_visible_char (b : bxstr) (idx : nat) : res bool :=
  visible_scan (visible_char b) (num_chars_visible b) (S idx) idx.

(** src/list.c:170-191; the buffer has room for two characters per character *)
Definition escape (U : uctab) (org : bxstr) : res bxstr :=
  parts <- mapM (fun i =>
      c <- rd (memory org) i ;;
      v <- (if N.eqb c 92 || N.eqb c 34 then bxs_is_visible_char org i else Ok false) ;;
      Ok (if v then [92%N; c] else [c])) (seq 0 (num_chars org)) ;;
  bxs_from_unicode U (concat parts).

(** src/list.c:334-341: a line of a shape between quotes; [bxs_to_output] makes "NULL" of a null pointer *)
Definition listed_line (U : uctab) (color : bool) (org : bxstr) : res (list N) :=
  match escape U org with
  | Ok e => s <- bxs_to_output color e ;; Ok ([34%N] ++ s ++ [34%N])
  | Err => Ok ([34%N] ++ lit "NULL" ++ [34%N])
  | UB => UB
  | Wrap => Wrap
  | Fuel => Fuel
  end.
