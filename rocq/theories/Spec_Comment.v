(** * Designs that only have a left border, as used for comments *)
From Coq Require Import List Arith NArith ZArith Bool.
From Verif Require Import Base Model_Unicode Model_Bxs Model_Shape Model_Generate Spec_Str Spec_Design Spec_Box Spec_Parser.
Import ListNotations.

(** The left border shows [s] in front of every line; everything else is blank, and one column wide on the right. *)
Record comment_design (d : design) (s : list N) : Prop := {
  cd_left : map memory (s_mbcs (d_shape d W_)) = [s] /\ s_height (d_shape d W_) = 1 /\ s_elastic (d_shape d W_) = true /\
            isempty (d_shape d W_) = false;
  cd_blank : forall i, i < 16 -> i <> W_ -> isempty (d_shape d i) = true \/ blank_shape (d_shape d i);
  cd_there : forall i, In i [NW; NE; SE; SW; N_; E_; S_] -> isempty (d_shape d i) = false;
  cd_gone : forall i, In i [NNW; NNE; ENE; ESE; SSE; SSW; WSW; WNW] -> isempty (d_shape d i) = true /\ s_elastic (d_shape d i) = false;
  cd_one : forall i, In i [NE; SE; N_; E_; S_] -> s_width (d_shape d i) = 1 /\ s_height (d_shape d i) = 1;
  cd_wide : forall i, In i [NW; SW] -> s_width (d_shape d i) = s_width (d_shape d W_) /\ s_height (d_shape d i) = 1;
  cd_elastic : forall i, In i [N_; E_; S_] -> s_elastic (d_shape d i) = true
}.

(** Options that leave the text where it is: no size, no justification, no alignment to the right or the centre, no blank
    lines above or below. *)
Definition plain_options (o : opts) (pad_top pad_bottom : nat) : Prop :=
  o_justify o = 0%N /\ o_halign o <> 99%N /\ o_halign o <> 114%N /\ o_reqwidth o = 0 /\ o_reqheight o = 0 /\
  over (o_pad_top o) pad_top = 0 /\ over (o_pad_bottom o) pad_bottom = 0.
