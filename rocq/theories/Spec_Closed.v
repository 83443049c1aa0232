(** * Closed boxes: the class of designs for the round trip, and what comes back *)
From Coq Require Import List Arith NArith ZArith Bool.
From Verif Require Import Base Model_Unicode Model_Bxs Model_Shape Model_Generate Spec_Str Spec_Design Spec_Box Spec_Remove Spec_Round.
Import ListNotations.

(** The shapes between the corners of the left or right side. All their lines have [q] characters; those of the left wall
    start and those of the right wall end with a character that is not blank. *)
Definition wall_shapes (left : bool) : list nat := if left then [WNW; W_; WSW] else [ENE; E_; ESE].
Definition wall (U : uctab) (d : design) (left : bool) (q : nat) : Prop :=
  forall i, In i (wall_shapes left) -> isempty (d_shape d i) = false ->
    isdeepempty (d_shape d i) = false /\
    forall m, In m (s_mbcs (d_shape d i)) -> length (memory m) = q /\
      exists c r, is_blank U c = false /\ memory m = if left then c :: r else r ++ [c].

(** All four sides show something, and so does every line of the top and the bottom border. *)
Record closed_design (U : uctab) (d : design) (ql qr : nat) : Prop := {
  cl_sides : forall s, blank_side d s = false;
  cl_left : wall U d true ql;
  cl_right : wall U d false qr;
  cl_chars : forall i m, i < 16 -> In m (s_mbcs (d_shape d i)) -> Forall (text_char U) (memory m);
  cl_top : forall cn k, usage (at_side (d_shape d) BTOP) cn -> k < top_h d ->
           exists c, In c (border_row d true 0 cn k) /\ is_blank U c = false;
  cl_bottom : forall cn k, usage (at_side (d_shape d) BBOT) cn -> k < bottom_h d ->
           exists c, In c (border_row d false 0 cn k) /\ is_blank U c = false
}.

(** the text starts at the left padding *)
Definition left_aligned (o : opts) : Prop := o_justify o = 0%N /\ o_halign o <> 99%N /\ o_halign o <> 114%N /\ o_reqwidth o = 0.

(** what comes back of a line: the line itself, or spaces for an empty line *)
Definition comes_back (t p : list N) : Prop := p = t \/ t = [] /\ exists n, p = spaces n.
