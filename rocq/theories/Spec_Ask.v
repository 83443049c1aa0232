(** * Answers to tag queries *)
From Coq Require Import List Arith NArith Bool Sorting.Permutation Sorting.Sorted.
From Verif Require Import Base Model_Query Spec_Query Model_Parser Model_Cmdline.
Import ListNotations.
Local Open Scope list_scope.

(** the query that counts is the last one *)
Definition last_query (items : list item) (arg : list N) : Prop :=
  exists l1 l2, items = l1 ++ ItQ arg :: l2 /\ forall a, ~ In (ItQ a) l2.
Definition title (d : cdesign) : list N := match c_name d with Some n => n | None => [] end.
(** the lines for a design: its name, then its other names *)
Definition answer (eol : list N) (d : cdesign) : list N :=
  title d ++ eol ++ concat (map (fun a => a ++ [32; 40; 97; 108; 105; 97; 115; 41]%N ++ eol) (c_aliases d)).
(** [l]: those of the designs [ds] that a query with the terms [ts] selects, in alphabetical order *)
Definition picked (ts : list (list N)) (ds l : list cdesign) : Prop :=
  (exists others, Permutation ds (l ++ others) /\ Forall (fun d => ~ selected_by_text ts (c_tags d)) others) /\
  Forall (fun d => selected_by_text ts (c_tags d)) l /\
  StronglySorted (fun a b => not_after (title a) (title b)) l.
