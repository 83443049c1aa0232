(** * Specification of design detection *)
From Coq Require Import List Arith NArith Bool.
From Verif Require Import Base Model_Unicode Model_Bxs Model_Shape Model_Detect Spec_Str Spec_Design Spec_Input.
Import ListNotations.

(** the ways to compare, in the order in which they are tried *)
Definition rank (ct : comparison_t) : nat :=
  match ct with literal => 0 | ignore_invisible_input => 1 | ignore_invisible_shape => 2 | ignore_invisible_all => 3 end.

(** shapes that do not exist have no lines (a shape without columns is cleared when the configuration is read,
    src/parser.y:377-383) *)
Definition tidy (d : design) : Prop :=
  forall i, i < 16 -> isempty (d_shape d i) = true -> s_height (d_shape d i) = 0 /\ s_mbcs (d_shape d i) = [].

(** Escape sequences in the lines of the shapes: a line that has some and ends with a blank begins with a character that is not blank, possibly
    behind one sequence that does not switch attributes off. Blanks at the beginning of a line are one column wide. *)
Definition begins_at_once (U : uctab) (ts : list tok) : Prop :=
  exists c r, is_blank U c = false /\ (ts = Vis c :: r \/ exists b, ts = Esc b :: Vis c :: r /\ ~ switch_off b).
Definition calm_row (U : uctab) (m : bxstr) : Prop :=
  exists ts, reads (memory m) ts /\ narrow_indent (is_blank U) (term_width U) (visible ts) /\
    (~ In 27%N (memory m) \/ (forall v c, visible ts = v ++ [c] -> is_blank U c = false) \/ begins_at_once U ts).
Definition calm_design (U : uctab) (d : design) : Prop := forall i m, i < 16 -> In m (s_mbcs (d_shape d i)) -> calm_row U m.

Section Scores.
(** [scored ct i s]: design number [i] is applicable for the way [ct] to compare and has [s] hits *)
Variable scored : comparison_t -> nat -> nat -> Prop.
Definition before (ct' : comparison_t) (i' : nat) (ct : comparison_t) (i : nat) : Prop :=
  rank ct' < rank ct \/ ct' = ct /\ i' < i.
(** the first one with the highest number of hits among the ways up to number [last] *)
Definition first_best (last : nat) (r : option nat) : Prop :=
  match r with
  | None => forall ct i s, rank ct <= last -> scored ct i s -> s = 0
  | Some i => exists ct s, rank ct <= last /\ scored ct i s /\ 0 < s /\
      forall ct' i' s', rank ct' <= last -> scored ct' i' s' -> s' <= s /\ (before ct' i' ct i -> s' < s)
  end.
(** [last] is the first way for which some design has more than two hits, or the last one *)
Definition enough (last : nat) : Prop :=
  (forall ct i s, rank ct < last -> scored ct i s -> s <= 2) /\
  (last = 3 \/ exists ct i s, rank ct = last /\ scored ct i s /\ 2 < s).
End Scores.

Definition hits (U : uctab) (inp : input) (ds : list design) (ct : comparison_t) (i s : nat) : Prop :=
  exists d, nth_error ds i = Some d /\ comp_type_is_viable ct (input_is_mono inp) (design_is_mono d) = true /\
            match_design U d inp ct = Ok s.
