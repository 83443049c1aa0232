(** * Specification of the treatment of input text *)
From Coq Require Import List Arith NArith ZArith Bool.
From Verif Require Import Base Model_Unicode Model_Bxs Model_Shape Spec_Str.
Import ListNotations.

(** [expands t p s r]: [r] is [s], starting at position [p], with every tab replaced by the blanks that lead to
    the next multiple of [t] *)
Inductive expands (t : nat) : nat -> list N -> list N -> Prop :=
| ex_nil : forall p, expands t p [] []
| ex_tab : forall p n s r, 1 <= n <= t -> (p + n) mod t = 0 -> expands t (p + n) s r ->
    expands t p (9%N :: s) (repeat 32%N n ++ r)
| ex_chr : forall p c s r, c <> 9%N -> expands t (S p) s r -> expands t p (c :: s) (c :: r).

(** positions, in the expanded text, of the tabs *)
Inductive tab_positions (t : nat) : nat -> list N -> list nat -> Prop :=
| tp_nil : forall p, tab_positions t p [] []
| tp_tab : forall p n s l, 1 <= n <= t -> (p + n) mod t = 0 -> tab_positions t (p + n) s l ->
    tab_positions t p (9%N :: s) (p :: l)
| tp_chr : forall p c s l, c <> 9%N -> tab_positions t (S p) s l -> tab_positions t p (c :: s) l.

(** [trimmed ws s r]: [r] is [s] up to its last visible character that is not white space, plus at most one escape
    sequence directly behind it *)
Definition next_seq (ts : list tok) : list tok :=
  match ts with
  | Vis _ :: _ => []
  | t :: _ => [t]
  | [] => []
  end.
Definition trimmed (ws : N -> bool) (s r : list N) : Prop :=
  exists ts, reads s ts /\
    ((forallb ws (visible ts) = true /\ r = []) \/
     (exists a c b, ts = a ++ Vis c :: b /\ ws c = false /\ forallb ws (visible b) = true /\
        r = render (a ++ Vis c :: next_seq b))).

(** the longest line the program takes without cutting it *)
Definition line_limit : N := (LINE_MAX_BYTES - 12)%N.

(** [raw_ok U t s]: a line of input (with its terminator) of acceptable characters whose escape sequences are
    complete and known, not too long after tab expansion, and whose leading blanks are one column wide *)
Definition raw_ok (U : uctab) (t : nat) (s : list N) : Prop :=
  exists ts, reads s ts /\ known ts /\ Forall (fun x => is_cut x = false) ts /\ allowed U ts /\
    narrow_indent (is_blank U) (term_width U) (visible ts) /\
    exists r, expands t 0 s r /\ (N.of_nat (length r) <= line_limit)%N.

(** the last character is a carriage return or a line feed *)
Definition ends_with_break (s : list N) : Prop := exists r c, s = r ++ [c] /\ (c = 13%N \/ c = 10%N).

(** [l'] is [l] with every tab replaced by one or more spaces *)
Inductive detab : list N -> list N -> Prop :=
| dt_nil : detab [] []
| dt_tab : forall n l l', 1 <= n -> detab l l' -> detab (9%N :: l) (repeat 32%N n ++ l')
| dt_chr : forall c l l', c <> 9%N -> detab l l' -> detab (c :: l) (c :: l').

(** a line with visible text occupies at least one column *)
Definition solid (U : uctab) (s : list N) : Prop :=
  forall ts, reads s ts -> forallb (uc_ws U) (visible ts) = true \/
    exists c, In c (visible ts) /\ uc_ws U c = false /\ 0 < term_width U c.

(** [text] is the input line [raw] without trailing white space, tabs expanded, and without [k] leading blanks *)
Definition taken_from (U : uctab) (t : nat) (raw text : list N) (k : nat) : Prop :=
  exists s r tr tx, trimmed (uc_ws U) raw s /\ expands t 0 s r /\ reads r tr /\ reads text tx /\
    k <= lead (is_blank U) (visible tr) /\ visible tx = skipn k (visible tr) /\ (k = 0 -> text = r).

(** a substitution rule that takes well-behaved text to well-behaved text *)
Definition rule_ok (U : uctab) (f : list N -> option (list N)) : Prop :=
  forall s w, shows U w s -> exists s' w', f s = Some s' /\ shows U w' s'.

(** [r] is what the rules make of [s], one after the other *)
Fixpoint rewrites (rules : list (list N -> option (list N))) (s r : list N) : Prop :=
  match rules with
  | [] => r = s
  | f :: rest => exists t, f s = Some t /\ rewrites rest t r
  end.

(** [ps] are the raw lines of [s]: nothing is lost, a line feed occurs only at the end of a piece, a piece is at
    most [room] characters long, and a piece that does not end in a line feed is full or the last one *)
Definition ends_lf (p : list N) : Prop := exists a, p = a ++ [10%N].
Inductive pieces (room : nat) : list (list N) -> list N -> Prop :=
| pc_nil : pieces room [] []
| pc_last : forall p, p <> [] -> length p < room -> ~ In 10%N p -> pieces room [p] p
| pc_cons : forall a c ps s, length (a ++ [c]) <= room -> ~ In 10%N a -> (c = 10%N \/ length (a ++ [c]) = room) ->
    pieces room ps s -> pieces room ((a ++ [c]) :: ps) (a ++ c :: s).
