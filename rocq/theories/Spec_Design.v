(** * Specification of well-formed designs and of what a side of a box is made of *)
From Coq Require Import List Arith NArith ZArith Bool.
From Verif Require Import Base Model_Unicode Model_Bxs Model_Shape Spec_Str.
Import ListNotations.

(** The shapes between the corners: [side 1], [side 2], [side 3]. *)
(** exactly one elastic shape, the others rigid or missing *)
Definition single_elastic (side : nat -> sentry) : Prop :=
  exists e, In e [1; 2; 3] /\ isempty (side e) = false /\ s_elastic (side e) = true /\
    forall j, In j [1; 2; 3] -> j <> e -> s_elastic (side j) = false.
(** three shapes, the outer ones elastic *)
Definition double_elastic (side : nat -> sentry) : Prop :=
  (forall j, In j [1; 2; 3] -> isempty (side j) = false) /\
  s_elastic (side 1) = true /\ s_elastic (side 2) = false /\ s_elastic (side 3) = true.
Definition side_ok (side : nat -> sentry) : Prop := single_elastic side \/ double_elastic side.

(** length of the rigid shapes, of the first, and of the second elastic shape *)
Definition size (dim : sentry -> nat) (s : sentry) : nat := if isempty s then 0 else dim s.

Section Reach.
Variable dim : sentry -> nat.
Variable side : nat -> sentry.

Definition rigid_len : nat :=
  sum (map (fun i => if s_elastic (side i) then 0 else size dim (side i)) [1; 2; 3]).

(** lengths a side can be given by repeating its elastic shapes: with two of them the outer shapes grow
    in turn, the first one first *)
Definition reachable (n : nat) : Prop :=
  (single_elastic side /\ exists e k, In e [1; 2; 3] /\ s_elastic (side e) = true /\ 1 <= k /\
     n = rigid_len + k * dim (side e)) \/
  (double_elastic side /\ exists k1 k3, 1 <= k1 /\ (k1 = k3 \/ k1 = S k3) /\
     n = rigid_len + k1 * dim (side 1) + k3 * dim (side 3)).
End Reach.

Section Wf.
Variable U : uctab.

(** a line of a shape: well-behaved text of the given width *)
Definition row_ok (w : nat) (m : bxstr) : Prop :=
  shows U w (memory m) /\ num_chars m = length (memory m).

Record shape_ok (s : sentry) : Prop := {
  so_rows : length (s_mbcs s) = s_height s;
  so_chars : length (s_chars s) = s_height s;
  so_row : Forall (row_ok (s_width s)) (s_mbcs s)
}.

(** the shape array of a design *)
Definition at_side (sarr : nat -> sentry) (s : bside) (i : nat) : sentry := sarr (nth i (side_of s) 0).

Record wf_design (d : design) : Prop := {
  wf_corners : forall c, In c corners -> isempty (d_shape d c) = false;
  wf_sides : forall s, side_ok (at_side (d_shape d) s);
  wf_shapes : forall i, i < 16 -> isempty (d_shape d i) = false -> shape_ok (d_shape d i);
  (* the ASCII copies of the shapes on the horizontal sides fit their width *)
  wf_ascii : forall s i, (s = BTOP \/ s = BBOT) -> In i [1; 2; 3] ->
     isempty (at_side (d_shape d) s i) = false ->
     Forall (fun l => length l = s_width (at_side (d_shape d) s i)) (s_chars (at_side (d_shape d) s i));
  (* shapes on a horizontal side are equally high, on a vertical side equally wide *)
  wf_heights : forall s i, (s = BTOP \/ s = BBOT) -> i < 5 -> isempty (at_side (d_shape d) s i) = false ->
     s_height (at_side (d_shape d) s i) = s_height (at_side (d_shape d) s 0);
  wf_widths : forall s i, (s = BLEF \/ s = BRIG) -> i < 5 -> isempty (at_side (d_shape d) s i) = false ->
     s_width (at_side (d_shape d) s i) = s_width (at_side (d_shape d) s 0);
  wf_minwidth : forall s, (s = BTOP \/ s = BBOT) ->
     sum (map (fun i => size s_width (d_shape d i)) (side_of s)) <= d_minwidth d;
  wf_minheight : forall s, (s = BLEF \/ s = BRIG) ->
     sum (map (fun i => size s_height (d_shape d i)) (side_of s)) <= d_minheight d
}.
End Wf.

(** When can two opposite sides be given the same length? A side grows by its [period] (all elastic shapes
    once); with two elastic shapes there are two starting points. *)
Section Match.
Variable dim : sentry -> nat.
Definition period (side : nat -> sentry) : nat :=
  sum (map (fun i => if s_elastic (side i) then dim (side i) else 0) [1; 2; 3]).
Definition offsets (side : nat -> sentry) : list nat :=
  if s_elastic (side 1) && s_elastic (side 3)
  then [rigid_len dim side; rigid_len dim side + dim (side 1)] else [rigid_len dim side].
Definition matchable (A B : nat -> sentry) : Prop :=
  exists a b, In a (offsets A) /\ In b (offsets B) /\
    a mod Nat.gcd (period A) (period B) = b mod Nat.gcd (period A) (period B).
End Match.

(** What is drawn on a side: [cn i] copies of shape [i]. Two elastic shapes share the length: the first one (clockwise)
    is used as often as the second, or once more. *)
Definition usage (side : nat -> sentry) (cn : nat -> nat) : Prop :=
  (forall i, In i [1; 2; 3] ->
    if isempty (side i) then cn i = 0
    else if s_elastic (side i) then 1 <= cn i else cn i = 1) /\
  (s_elastic (side 1) = true -> s_elastic (side 3) = true -> cn 3 <= cn 1 <= S (cn 3)).
(** text of line [ln] of a shape *)
Definition row_text (s : sentry) (ln : nat) : list N := nth ln (map memory (s_mbcs s)) [].
(** line [ln] of a horizontal side; [os] is the order of the shapes from left to right *)
Definition hside_row (side : nat -> sentry) (os : list nat) (cn : nat -> nat) (ln : nat) : list N :=
  flat_map (fun i => concat (repeat (row_text (side i) ln) (cn i))) os.
(** the lines of a vertical side between the corners, from top to bottom *)
Definition vside_rows (side : nat -> sentry) (os : list nat) (cn : nat -> nat) : list (list N) :=
  flat_map (fun i => concat (repeat (map memory (s_mbcs (side i))) (cn i))) os.
(** total length *)
Definition tot (d cn : nat -> nat) (os : list nat) : nat := sum (map (fun i => cn i * d i) os).
