(** * Specification of string literals *)
From Coq Require Import List NArith.
Import ListNotations.

(** [unescaped esc del body s]: [s] is what is written as [body] between delimiters *)
Inductive unescaped (esc del : N) : list N -> list N -> Prop :=
| un_nil : unescaped esc del [] []
| un_esc : forall c b s, unescaped esc del b s -> unescaped esc del (esc :: c :: b) (c :: s)
| un_chr : forall c b s, c <> esc -> c <> del -> unescaped esc del b s -> unescaped esc del (c :: b) (c :: s).

(** the literal for [s]: delimiter and escape character are escaped *)
Definition quote_char (esc del c : N) : list N := if (N.eqb c esc || N.eqb c del)%bool then [esc; c] else [c].
Definition quoted (esc del : N) (s : list N) : list N := del :: flat_map (quote_char esc del) s ++ [del].
