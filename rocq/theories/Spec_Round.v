(** * Drawing a comment box and removing it again: the class of texts *)
From Coq Require Import List Arith NArith ZArith Bool.
From Verif Require Import Base Model_Unicode Spec_Str Spec_Box.
Import ListNotations.

(** acceptable characters other than escape, tab, carriage return and line feed *)
Definition text_char (U : uctab) (c : N) : Prop :=
  is_allowed_anywhere U c = true /\ c <> 27%N /\ c <> 9%N /\ c <> 13%N /\ c <> 10%N.

(** A line is empty, or it is indented by spaces, its text starts with a character that is not blank and ends with one that
    is neither blank nor white space; it takes at least one column. *)
Definition neat (U : uctab) (t : list N) : Prop :=
  Forall (text_char U) t /\
  (t = [] \/ (exists k c r, t = spaces k ++ c :: r /\ is_blank U c = false) /\
             (exists a c, t = a ++ [c] /\ is_blank U c = false /\ uc_ws U c = false) /\
             (exists c, In c t /\ 0 < term_width U c)).

(** [n] is the indentation common to all lines that are not empty (0 if there is none) *)
Definition common_indent (lines : list (list N)) (n : nat) : Prop :=
  (Forall (fun t => t = []) lines /\ n = 0) \/
  (Forall (fun t => t = [] \/ exists r, t = spaces n ++ r) lines /\
   Exists (fun t => exists c r, t = spaces n ++ c :: r /\ c <> 32%N) lines).

(** what becomes of a line: an empty one may come back with the common indentation *)
Definition restored (n : nat) (t : list N) : list N := match t with [] => spaces n | _ => t end.
