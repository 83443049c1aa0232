(** * Model of src/regulex.c:107-163: replacing with a regular expression, as far as the output buffer is concerned

    [pcre2_substitute] is a parameter, for a fixed pattern, replacement, subject and set of options: it is given the output buffer, of
    whose size it is told, and returns a code, a new length and the buffer. Memory is a list of code points; what a fresh block
    contains is a parameter too. Sizes are below 2^61. *)
From Coq Require Import List Arith NArith ZArith Bool.
From Verif Require Import Base.
Import ListNotations.
Local Open Scope nat_scope.

(** what a call of [pcre2_substitute] leaves behind: its value, [*outlengthptr], the output buffer *)
Record substituted : Type := mkSubst { sub_rc : Z; sub_len : nat; sub_buf : list N }.
(** pcre2.h *)
Definition PCRE2_ERROR_NOMEMORY : Z := (-48)%Z.

Section Replace.
Variable pcre2_substitute : list N -> substituted.
(** what a block of memory of this size contains at first; [None]: there is not enough memory *)
Variable fresh : nat -> option (list N).

(** [realloc] keeps what fits *)
Definition realloc (b : list N) (n : nat) : option (list N) :=
  match fresh n with Some j => Some (firstn n b ++ skipn (length b) j) | None => None end.

(** src/regulex.c:118-143: the loop; [None] is the null pointer *)
Fixpoint replace_loop (fuel : nat) (output : option (list N)) : res (option (Z * list N)) :=
  match fuel with
  | O => Fuel
  | S fuel' =>
      match output with
      | None => Ok None
      | Some b =>
          let r := pcre2_substitute b in
          if negb (sub_rc r =? PCRE2_ERROR_NOMEMORY)%Z || (sub_len r <=? length b) then Ok (Some (sub_rc r, sub_buf r))
          else replace_loop fuel' (realloc (sub_buf r) (sub_len r))
      end
  end.
(** src/regulex.c:107-163; the result is the block of memory, or null *)
Definition u32_regex_replace (fuel : nat) (input_len : nat) : res (option (list N)) :=
  let bufsize := if input_len <? 8 then 16 else input_len * 2 in
  r <- replace_loop fuel (fresh bufsize) ;;
  match r with
  | None => Ok None
  | Some (rc, b) => if (rc <? 0)%Z then Ok None else Ok (Some b)
  end.
End Replace.

(** reading a string from a block of memory: up to the NUL; reading on behind the block is undefined *)
Fixpoint u32_string (b : list N) : res (list N) :=
  match b with
  | [] => UB
  | c :: r => if N.eqb c 0 then Ok [] else s <- u32_string r ;; Ok (c :: s)
  end.
(** src/input.c:149-164: what becomes of the text of a line ([bxs_from_unicode] reads a string); [None]: the program fails *)
Definition replaced_text (sub : list N -> substituted) (fresh : nat -> option (list N)) (fuel : nat) (input_len : nat) : res (option (list N)) :=
  o <- u32_regex_replace sub fresh fuel input_len ;;
  match o with
  | None => Ok None
  | Some b => s <- u32_string b ;; Ok (Some s)
  end.
