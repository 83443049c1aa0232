(** * Lines that survive being printed by one run of the program and read by the next *)
From Coq Require Import List Arith NArith ZArith Bool.
From Verif Require Import Base Model_Unicode Model_Bxs Spec_Input.
Import ListNotations.
Local Open Scope nat_scope.

Section WithTables.
Variable U : uctab.
(** one line: no line feed in it, not too long, and empty or with something other than white space at its end *)
Definition steady (r : list N) : Prop :=
  ~ In 10%N r /\ (N.of_nat (length r) <= line_limit)%N /\
  (r = [] \/ exists a c, r = a ++ [c] /\ uc_ws U c = false /\ c <> 13%N).
(** the lines of a text; [fin]: its last line is terminated too *)
Definition steady_lines (fin : bool) (ls : list (list N)) : Prop :=
  Forall steady ls /\ (fin = false -> last ls [] <> []).
End WithTables.
