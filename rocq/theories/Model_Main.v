(** * Model of the main program (src/boxes.c:383-405, 503-563) *)
From Coq Require Import List Arith NArith ZArith Bool.
From Verif Require Import Base Model_Unicode Model_Bxs Model_Shape Model_Generate Model_Input
  Model_Detect Model_Remove.
Import ListNotations.

(** src/boxes.c:543-561 without -r and -m: read and analyse the input, draw the box around it. The design is the
    selected one, with the indentation mode already set; [draw] includes the size adjustments (src/boxes.c:239-355).
    An empty input ends the program successfully without output (src/boxes.c:293-295). *)
Definition boxes_draw (U : uctab) (fuel : nat) (color : bool) (eol : list N) (o : opts) (d : design)
    (rules : list (list N -> option (list N))) (raws : list (list N)) : res (list N) :=
  inp <- handle_input U false o d rules raws ;;
  if is_nil (i_lines inp) then Ok [] else draw U fuel color eol o d inp.

(** src/boxes.c:383-405: removing a box. [killblank] is the option -k: -1 if not given; [mend] is [opt.mend > 0].
    In the C code [opt.mend] is -1 without -m, so that [opt.mend] is true in [apply_results_to_input] in any case.
    [d] is the design in [opt.design] (its blank sides decide about killing blank lines), [chosen] the one removed.
    Result: the remaining text before trimming. *)
Definition kill_option (d : design) (killblank : Z) : bool :=
  if (killblank =? -1)%Z then negb (empty_side (d_shape d) BTOP && empty_side (d_shape d) BBOT)
  else negb (killblank =? 0)%Z.
Definition handle_remove_box (U : uctab) (d chosen : design) (indentmode : N) (killblank : Z)
    (rules : list (list N -> option (list N))) (inp : input) : res input :=
  i <- remove_box U chosen indentmode (kill_option d killblank) true inp ;; apply_substitutions U chosen rules i.

(** src/boxes.c:543-561 with -r, a design chosen by the user, without -m *)
Definition boxes_remove (U : uctab) (eol : list N) (o : opts) (d : design) (indentmode : N) (killblank : Z)
    (rules : list (list N -> option (list N))) (raws : list (list N)) : res (list N) :=
  inp <- handle_input U true o d [] raws ;;
  if is_nil (i_lines inp) then Ok []
  else
    let d' := sized o inp d in
    i <- handle_remove_box U d' d' indentmode killblank rules inp ;; output_input U o eol i.
