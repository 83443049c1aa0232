(** * What removing a box makes of a text, from the lines given to the text printed *)
From Coq Require Import List Arith NArith ZArith Bool.
From Verif Require Import Base Model_Unicode Model_Bxs Model_Shape Spec_Str Spec_Design Spec_Box Spec_Input Spec_Remove.
Import ListNotations.
Local Open Scope nat_scope.

(** [r] is [s] without one character [c] at the end, if there is one *)
Definition without_last (c : N) (s r : list N) : Prop := s = r ++ [c] \/ r = s /\ (forall a, s <> a ++ [c]).
(** [s] is the line [raw] without line feed, then carriage return, at its end, and with expanded tabs *)
Definition content (t : nat) (raw s : list N) : Prop :=
  exists a b, without_last 10%N raw a /\ without_last 13%N a b /\ expands t 0 b s.

Section WithTables.
Variable U : uctab.

(** a line that can be read when a box is removed: acceptable characters, no escape sequences, and not just a line feed *)
Definition removable (t : nat) (raw : list N) : Prop := raw_ok U t raw /\ ~ In 27%N raw /\ raw <> [] /\ raw <> [10%N].

(** the common indentation: that of the lines that occupy columns *)
Definition first_column (texts : list (list N)) (n : nat) : Prop :=
  (forall s, In s texts -> shows U 0 s) /\ n = 0 \/
  (forall s w, In s texts -> shows U w s -> 0 < w -> n <= lead (is_blank U) s) /\
  (exists s w, In s texts /\ shows U w s /\ 0 < w /\ n = lead (is_blank U) s).

(** [r] is [s] without its blanks at the end; a line of nothing but blanks stays *)
Definition rtrimmed (s r : list N) : Prop :=
  blanks U s /\ r = s \/
  exists z a c, s = r ++ z /\ blanks U z /\ r = a ++ [c] /\ is_blank U c = false.

(** a substitution rule that takes well-behaved text without escape sequences to such text *)
Definition plain_rule (f : list N -> option (list N)) : Prop :=
  forall s w, shows U w s -> ~ In 27%N s -> exists s' w', f s = Some s' /\ shows U w' s' /\ ~ In 27%N s'.
End WithTables.

(** [D] is [d] with the padding asked for on the command line, or less where a box of the demanded size has no room for it *)
Definition over_padding (p : Z) (n : nat) : nat := if (p <? 0)%Z then n else Z.to_nat p.
Record repadded (o : opts) (d D : design) : Prop := {
  rp_shape : d_shape D = d_shape d;
  rp_left : d_pad_left D <= over_padding (o_pad_left o) (d_pad_left d);
  rp_top : d_pad_top D <= over_padding (o_pad_top o) (d_pad_top d);
  rp_bottom : d_pad_bottom D <= over_padding (o_pad_bottom o) (d_pad_bottom d);
  rp_width_free : o_reqwidth o = 0 -> d_pad_left D = over_padding (o_pad_left o) (d_pad_left d);
  rp_height_free : o_reqheight o = 0 -> d_pad_top D = over_padding (o_pad_top o) (d_pad_top d) /\
    d_pad_bottom D = over_padding (o_pad_bottom o) (d_pad_bottom d)
}.

(** -k: blank lines at top and bottom of the box are deleted; if not told otherwise, when the box has a top or bottom side *)
Definition asked_to_kill (d : design) (k : Z) : Prop :=
  (k = -1)%Z /\ (blank_side d BTOP = false \/ blank_side d BBOT = false) \/ (k <> -1)%Z /\ (k <> 0)%Z.
