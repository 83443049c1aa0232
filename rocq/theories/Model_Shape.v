(** * Model of src/shape.c (geometry part) and of the design data structure *)
From Coq Require Import List Arith NArith ZArith Bool.
From Verif Require Import Base Model_Unicode Model_Bxs.
Import ListNotations.

(** src/boxes.in.h:67-85 [sentry_t]. [chars == NULL] and [mbcs == NULL] are the empty lists (the arrays are
    never allocated with zero entries). The caches [blank_leftward]/[blank_rightward] are left out. *)
Record sentry : Type := mkSentry {
  s_chars : list (list N);
  s_mbcs : list bxstr;
  s_height : nat;
  s_width : nat;
  s_elastic : bool
}.

(** src/boxes.in.h:87 [SENTRY_INITIALIZER] *)
Definition sentry0 : sentry := mkSentry [] [] 0 0 false.

(** src/boxes.in.h:62-64: the enumeration [shape_t] *)
Definition NW := 0.   Definition NNW := 1.  Definition N_ := 2.   Definition NNE := 3.
Definition NE := 4.   Definition ENE := 5.  Definition E_ := 6.   Definition ESE := 7.
Definition SE := 8.   Definition SSE := 9.  Definition S_ := 10.  Definition SSW := 11.
Definition SW := 12.  Definition WSW := 13. Definition W_ := 14.  Definition WNW := 15.

(** src/boxes.in.h:57-60 *)
Inductive bside : Type := BTOP | BRIG | BBOT | BLEF.

(** src/shape.c:40-51 *)
Definition north_side := [NW; NNW; N_; NNE; NE].
Definition east_side := [NE; ENE; E_; ESE; SE].
Definition south_side := [SE; SSE; S_; SSW; SW].
Definition west_side := [SW; WSW; W_; WNW; NW].
Definition side_of (s : bside) : list nat :=
  match s with BTOP => north_side | BRIG => east_side | BBOT => south_side | BLEF => west_side end.
Definition corners := [NW; NE; SE; SW].

Definition is_nil {A : Type} (l : list A) : bool := match l with [] => true | _ => false end.

(** src/shape.c:188-206 *)
Definition isempty (s : sentry) : bool :=
  is_nil (s_chars s) || is_nil (s_mbcs s) || (s_width s =? 0) || (s_height s =? 0).

(** src/shape.c:208-233. The lines are read up to [height]; a missing line counts as NULL. *)
Definition isdeepempty (s : sentry) : bool :=
  isempty s ||
  forallb (fun l => spn (fun c => N.eqb c 32 || N.eqb c 9) l =? s_width s) (firstn (s_height s) (s_chars s)).

Section Geometry.
Variable sarr : nat -> sentry.

(** src/shape.c:235-268 *)
Definition highest (l : list nat) : nat :=
  maxl (map (fun i => if isempty (sarr i) then 0 else s_height (sarr i)) l).
(** src/shape.c:270-303 *)
Definition widest (l : list nat) : nat :=
  maxl (map (fun i => if isempty (sarr i) then 0 else s_width (sarr i)) l).
(** src/shape.c:314-328 *)
Definition empty_side (s : bside) : bool := forallb (fun i => isdeepempty (sarr i)) (side_of s).
End Geometry.

(** src/boxes.in.h:49-50 *)
Definition LINE_MAX_BYTES : N := 16382%N.

(** src/shape.c:117-158; out of memory is not modelled. The length limit is a number in [N] so that it never
    has to be computed in unary. *)
Definition genshape (U : uctab) (w h : nat) : res (list (list N) * list bxstr) :=
  if (w =? 0) || (h =? 0) || (N.ltb LINE_MAX_BYTES (N.of_nat w)) then Err
  else
    m <- must (bxs_from_ascii U (repeat 32%N w)) ;;
    Ok (repeat (repeat 32%N w) h, repeat m h).

(** src/boxes.in.h:100-130 [design_t], the fields that influence drawing and removing. Paddings are
    non-negative: the configuration parser and the option parser reject negative ones. *)
Record design : Type := mkDesign {
  d_shape : nat -> sentry;
  d_indentmode : N;
  d_pad_top : nat; d_pad_right : nat; d_pad_bottom : nat; d_pad_left : nat;
  d_minwidth : nat;
  d_minheight : nat
}.

(** src/input.h [line_t] and [input_t] (fields used after analysing the input) *)
Record line : Type := mkLine { l_text : bxstr; l_tabpos : list nat }.
Record input : Type := mkInput {
  i_lines : list line;
  i_maxline : nat;
  i_indent : nat;
  i_final_newline : bool
}.
Definition i_num_lines (i : input) : nat := length (i_lines i).

(** src/boxes.in.h [opt_t], the options used for drawing; characters as code points.
    [o_pad*] is -1 when the option was not given. *)
Record opts : Type := mkOpts {
  o_tabexp : N;
  o_tabstop : nat;
  o_halign : N;
  o_valign : N;
  o_justify : N;
  o_reqwidth : nat;
  o_reqheight : nat;
  o_pad_top : Z; o_pad_right : Z; o_pad_bottom : Z; o_pad_left : Z
}.
