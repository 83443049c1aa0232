(** * What a configuration says, and what a loaded configuration is like *)
From Coq Require Import Ascii String List Arith NArith ZArith Bool.
From Verif Require Import Base Model_Unicode Model_Bxs Model_Shape Spec_Str Spec_Design Model_Query Spec_Query Model_Discovery Model_Parser.
Import ListNotations.
Local Open Scope nat_scope.
Local Open Scope list_scope.

(** all strings in shape definitions are well-behaved text: complete escape sequences, no tabs or other control characters *)
Definition tidy_text (U : uctab) (s : list N) : Prop := exists w, shows U w s.
Definition tidy_shape (U : uctab) (d : shape_def) : Prop :=
  match d with no_lines => True | lines f more => tidy_text U f /\ Forall (tidy_text U) more end.
Definition tidy_item (U : uctab) (i : item) : Prop :=
  match i with i_shapes l => Forall (fun p => tidy_shape U (snd p)) l | _ => True end.
Definition tidy_stmt (U : uctab) (s : stmt) : Prop :=
  match s with s_box _ _ layout _ => Forall (tidy_item U) layout | _ => True end.

(** a shape of the given size that shows nothing *)
Definition blank_shape (s : sentry) : Prop :=
  0 < s_width s /\ 0 < s_height s /\
  s_chars s = repeat (repeat 32%N (s_width s)) (s_height s) /\
  map memory (s_mbcs s) = repeat (repeat 32%N (s_width s)) (s_height s).

(** shapes that exist have equal heights along a horizontal side, equal widths along a vertical one *)
Definition across (s : bside) : sentry -> nat := match s with BTOP | BBOT => s_height | BRIG | BLEF => s_width end.
Definition sizes_agree (sh : nat -> sentry) : Prop :=
  forall s i j, In i (side_of s) -> In j (side_of s) -> isempty (sh i) = false -> isempty (sh j) = false ->
    across s (sh i) = across s (sh j).

(** narrow enough for [genshape], which refuses more than LINE_MAX_BYTES (src/boxes.in.h) *)
Definition narrow (s : sentry) : Prop := (N.of_nat (s_width s) <= 16382)%N.
(** the lower left corner is made without looking at the upper left one *)
Definition left_known (sh : nat -> sentry) : Prop :=
  isempty (sh SW) = false \/ (exists i, In i [WSW; W_; WNW] /\ isempty (sh i) = false) \/ isempty (sh NW) = true \/ s_width (sh NW) = 1.

(** A statement about designs holds of everything the parser lets through *)
Definition sides_in_order (sh : nat -> sentry) : Prop :=
  forall s, side_ok (at_side sh s) /\
    (forall j, In j [0; 4] -> s_elastic (at_side sh s j) = false) /\
    (exists j, In j [1; 2; 3] /\ isempty (at_side sh s j) = false).

(** ** Names *)
(** [n] is the name or an alias of the design *)
Definition named (d : cdesign) (n : list N) : Prop := exists m, c_name d = Some m /\ nocase m n.
Definition called (d : cdesign) (n : list N) : Prop := named d n \/ exists a, In a (c_aliases d) /\ nocase a n.
(** no two entries of a list are related *)
Definition pairwise_not {A : Type} (R : A -> A -> Prop) (l : list A) : Prop :=
  forall i j a b, i < j -> nth_error l i = Some a -> nth_error l j = Some b -> ~ R a b.
Definition share_name (a b : cdesign) : Prop := exists n, named a n /\ named b n.
Definition share_any_name (a b : cdesign) : Prop := exists n, called a n /\ called b n.

(** ** Several files *)
(** entries may have been left out, the order is the same *)
Inductive subseq {A : Type} : list A -> list A -> Prop :=
| subseq_nil : subseq [] []
| subseq_keep : forall x a b, subseq a b -> subseq (x :: a) (x :: b)
| subseq_skip : forall x a b, subseq a b -> subseq a (x :: b).
(** the first design of a list that has a given name *)
Definition first_named (n : list N) (l : list cdesign) (d : cdesign) : Prop :=
  exists a b, l = a ++ d :: b /\ named d n /\ forall x, In x a -> ~ named x n.
(** What reading files one after the other gives. Each file is read knowing the designs found before ([before]). *)
Inductive read_in_order (parse : list N -> list cdesign -> res (list cdesign * list (list N))) :
  list cdesign -> list (list N) -> list (list cdesign * list (list N)) -> list cdesign -> Prop :=
| read_none : forall before, read_in_order parse before [] [] before
| read_one : forall before file files ds ps more between after,
    parse file before = Ok (ds, ps) ->
    (* the designs with new names are added *)
    (exists added, between = before ++ added /\ subseq added ds) ->
    (forall n d, first_named n between d <-> first_named n (before ++ ds) d) ->
    read_in_order parse between files more after ->
    read_in_order parse before (file :: files) ((ds, ps) :: more) after.

(** ** Tags *)
(** [t] is [p] without blanks at its ends *)
Definition stripped (U : uctab) (p t : list N) : Prop :=
  exists a b, p = a ++ t ++ b /\ Forall (fun c => uc_is_blank U c = true) a /\ Forall (fun c => uc_is_blank U c = true) b /\
    (forall c r, t = c :: r -> uc_is_blank U c = false) /\ (forall c r, t = r ++ [c] -> uc_is_blank U c = false).
(** the tags that an entry of the list of tags stands for *)
Definition tag_in (U : uctab) (s t : list N) : Prop :=
  good_tag t /\ exists ps p, joined ps s /\ In p ps /\ stripped U p t.
(** plain text: no escape sequences, tabs or line feeds *)
Definition plain_text (s : list N) : Prop := Forall (fun c => c <> 27 /\ c <> 9 /\ c <> 10)%N s.
