(** * Model of mending a box (option -m, src/boxes.c:534-563) *)
From Coq Require Import List Arith NArith ZArith Bool.
From Verif Require Import Base Model_Unicode Model_Bxs Model_Shape Model_Generate Model_Input
  Model_Detect Model_Remove Model_Main.
Import ListNotations.

(** src/boxes.c:548-549: the minimum size is written into the design that is selected at this moment *)
Definition with_min (d : design) (w h : nat) : design :=
  mkDesign (d_shape d) (d_indentmode d) (d_pad_top d) (d_pad_right d) (d_pad_bottom d) (d_pad_left d) w h.

(** the [k]-th design has been modified *)
Definition set_nth {A : Type} (k : nat) (x : A) (l : list A) : list A := firstn k l ++ x :: skipn (S k) l.

(** src/remove.c:868-884; [k] is the selected design. No design found: the program ends with an error message. *)
Definition select_design (U : uctab) (by_user : bool) (ds : list design) (k : nat) (inp : input) : res nat :=
  if by_user then Ok k
  else r <- autodetect_design U inp ds ;; match r with Some j => Ok j | None => Err end.

(** src/boxes.c:534-552, 383-402, first pass: the box is removed. [ds] are the designs of the configuration, of which
    number [k] is selected ([opt.design]); its indentation mode is already set. [rules] and [rrules] are the
    substitutions of the designs and the reverse ones. [None]: there was no input. Otherwise: the design that was
    removed, as it is then stored, and the remaining text. *)
Definition mend_remove (U : uctab) (o : opts) (ds : list design) (k : nat) (by_user : bool) (indentmode : N)
    (killblank : Z) (rrules : nat -> list (list N -> option (list N))) (raws : list (list N))
  : res (option (nat * design * input)) :=
  d <- rd ds k ;;
  let d0 := apply_expected_size o d in
  inp <- handle_input U true o d0 [] raws ;;
  if is_nil (i_lines inp) then Ok None else
  let d1 := adjust_size_and_padding o inp d0 in
  let ds1 := set_nth k d1 ds in
  j <- select_design U by_user ds1 k inp ;;
  dj <- rd ds1 j ;;
  i <- handle_remove_box U d1 dj indentmode killblank (rrules j) inp ;;
  i' <- trim_lines U i ;;
  Ok (Some (j, dj, i')).

(** ... and second pass: a box is drawn. The minimum sizes were saved before the first pass (src/boxes.c:540-541). *)
Definition boxes_mend (U : uctab) (fuel : nat) (color : bool) (eol : list N) (o : opts) (ds : list design) (k : nat)
    (by_user : bool) (indentmode : N) (killblank : Z) (rules rrules : nat -> list (list N -> option (list N)))
    (raws : list (list N)) : res (list N) :=
  d <- rd ds k ;;
  let d0 := apply_expected_size o d in
  r <- mend_remove U o ds k by_user indentmode killblank rrules raws ;;
  match r with
  | None => Ok []
  | Some (j, dj, i) =>
      let d2 := with_min dj (d_minwidth d0) (d_minheight d0) in
      inp2 <- analyze_input U false d2 (rules j) (i_lines i) (i_final_newline i) ;;
      if is_nil (i_lines inp2) then Ok [] else
      let d3 := adjust_size_and_padding o inp2 d2 in
      b <- generate_box U fuel d3 inp2 ;; output_box U color eol o d3 inp2 b
  end.

(** src/boxes.c:534-561 with -r, without -m: as the first pass, and the remaining text is printed. [by_user]: the design was
    given with -d; otherwise the default design number [k] is replaced by the detected one (src/remove.c:868-884). *)
Definition boxes_remove_from (U : uctab) (eol : list N) (o : opts) (ds : list design) (k : nat) (by_user : bool)
    (indentmode : N) (killblank : Z) (rrules : nat -> list (list N -> option (list N))) (raws : list (list N))
  : res (list N) :=
  d <- rd ds k ;;
  let d0 := apply_expected_size o d in
  inp <- handle_input U true o d0 [] raws ;;
  if is_nil (i_lines inp) then Ok [] else
  let d1 := adjust_size_and_padding o inp d0 in
  let ds1 := set_nth k d1 ds in
  j <- select_design U by_user ds1 k inp ;;
  dj <- rd ds1 j ;;
  i <- handle_remove_box U d1 dj indentmode killblank (rrules j) inp ;;
  output_input U o eol i.
