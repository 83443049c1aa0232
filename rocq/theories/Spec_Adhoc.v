(** * A run of the program with -c: C73 *)
From Coq Require Import List Arith NArith ZArith Bool.
From Verif Require Import Base Model_Unicode Model_Bxs Spec_Str Spec_Box Spec_Input Model_Cmdline.
Import ListNotations.
Local Open Scope list_scope.

(** neither a listing nor a query, removal or repair is asked for *)
Definition asks_to_draw_any (items : list item) : Prop :=
  forall i, In i items -> match i with ItL | ItQ _ | ItR | ItM => False | _ => True end.

(** the number of leading blanks of a line of the input that is not blank, after trimming and tab expansion *)
Definition leading (U : uctab) (t : nat) (raw : list N) (n : nat) : Prop :=
  exists s r tr, trimmed (uc_ws U) raw s /\ expands t 0 s r /\ reads r tr /\ 0 < columns (term_width U) tr /\ n = lead (is_blank U) (visible tr).
(** [n] is the smallest of these numbers, 0 if there is none *)
Definition indented (U : uctab) (t : nat) (raws : list (list N)) (n : nat) : Prop :=
  ((forall raw k, In raw raws -> ~ leading U t raw k) -> n = 0) /\
  ((exists raw k, In raw raws /\ leading U t raw k) -> least (fun k => exists raw, In raw raws /\ leading U t raw k) n).

(** The row of a line: indentation [out], the string [lead], [gap] spaces, and the text of the line without its first [cut]
    columns and without blanks at its end. Rows are filled with blanks, which are not printed. *)
Definition commented (U : uctab) (t out : nat) (lead : list N) (gap cut : nat) (raw row : list N) : Prop :=
  exists text txt k r, taken_from U t raw text k /\ row = spaces out ++ lead ++ spaces gap ++ txt ++ spaces (S r) /\
    (txt = text \/ txt = [] /\ forall ts, reads text ts -> visible ts = []) /\ (k = cut \/ k = 0 /\ shows U 0 text).
