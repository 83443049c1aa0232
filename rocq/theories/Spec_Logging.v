(** * What debug output should be *)
From Coq Require Import List Arith NArith Bool.
From Verif Require Import Base Model_Logging.
Import ListNotations.
Local Open Scope nat_scope.

(** [base] is the last part of a path: behind the last slash, or if there is none, behind the last backslash *)
Inductive last_part : list N -> list N -> Prop :=
| lp_slash : forall dir base, ~ In 47%N base -> last_part (dir ++ 47%N :: base) base
| lp_backslash : forall dir base, ~ In 47%N dir -> ~ In 47%N base -> ~ In 92%N base -> last_part (dir ++ 92%N :: base) base
| lp_all : forall base, ~ In 47%N base -> ~ In 92%N base -> last_part base base.
(** a file name without its extension; a name that begins with its only full stop has none *)
Inductive stem_of : list N -> list N -> Prop :=
| st_extension : forall stem ext, stem <> [] -> ~ In 46%N ext -> stem_of (stem ++ 46%N :: ext) stem
| st_hidden : forall ext, ~ In 46%N ext -> stem_of (46%N :: ext) (46%N :: ext)
| st_plain : forall name, ~ In 46%N name -> stem_of name name.
(** the areas in the order in which the command line numbers them *)
Definition area_place (a : log_area) : option nat :=
  match a with MAIN => Some 0 | REGEXP => Some 1 | PARSER => Some 2 | LEXER => Some 3 | DISCOVERY => Some 4 | RESERVED | ALL => None end.
(** a column of nine characters *)
Definition nine (s t : list N) : Prop := exists k, t = s ++ repeat 32%N k /\ (length s <= 9 -> length t = 9) /\ (9 <= length s -> k = 0).
