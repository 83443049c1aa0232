(** * Texts for which the reading of configuration files is safe: C67 *)
From Coq Require Import String List Arith NArith ZArith Bool.
From Verif Require Import Base Model_Unicode Model_Bxs Model_Shape Model_Parser.
Import ListNotations.

(** a character that is not a tab, not one of the control characters the program never accepts, and not a blank that is wider
    or narrower than one column. The escape character is legal, in any place. *)
Definition legal (U : uctab) (c : N) : Prop :=
  c <> 9%N /\ is_allowed_anywhere U c = true /\ (uc_is_blank U c = true -> uc_width U c = 1%Z).
(** the same within a line *)
Definition legal_line (U : uctab) (s : list N) : Prop := Forall (fun c => legal U c /\ c <> 10%N) s.

(** the strings of a configuration file *)
Definition legal_shape (U : uctab) (d : shape_def) : Prop :=
  match d with no_lines => True | lines a l => Forall (legal_line U) (a :: l) end.
Definition legal_item (U : uctab) (i : item) : Prop :=
  match i with
  | i_keyword _ v => legal_line U v
  | i_tags l => Forall (legal_line U) l
  | i_sample s => Forall (legal U) s
  | i_shapes l => Forall (fun p => legal_shape U (snd p)) l
  | i_replace s r _ | i_reverse s r _ => legal_line U s /\ legal_line U r
  | i_elastic _ | i_padding _ | i_ignored | i_bad => True
  end.
Definition legal_stmt (U : uctab) (s : stmt) : Prop :=
  match s with
  | s_parent f => legal_line U f
  | s_box _ _ l _ => Forall (legal_item U) l
  | s_bad_id _ | s_junk => True
  end.

From Verif Require Import Spec_Config.
(** the text of a file: no NUL, no number that does not fit an int, and a "parent" is not followed by a carriage return that
    stands alone (on which the scanner gives up) *)
Definition sound_text (U : uctab) (text : list N) : Prop :=
  ~ In 0%N text /\ Forall (legal U) text /\ (forall a b, text = a ++ b -> ~ big_number b) /\
  (forall a k b, text = a ++ k ++ b -> spells "parent"%string k -> ~ lone_cr b).
