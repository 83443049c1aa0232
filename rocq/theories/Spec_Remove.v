(** * Specification of what counts as a border in a line of text *)
From Coq Require Import List Arith NArith ZArith Bool.
From Verif Require Import Base Model_Unicode Model_Bxs Model_Shape Model_Detect Spec_Str Spec_Design Spec_Box.
Import ListNotations.

Section Border.
Variable U : uctab.

(** a text of blanks *)
Definition blanks (s : list N) : Prop := Forall (fun c => is_blank U c = true) s.
(** a text showing only blanks, whatever its escape sequences *)
Definition looks_blank (s : list N) : Prop :=
  forall ts, reads s ts -> Forall (fun c => is_blank U c = true \/ c = 13%N) (visible ts).

(** [fixed]: the border is held in place by a corner on its right, so that nothing may be missing at its end *)
Variable fixed : bool.

(** [p] is the shape line [s], possibly without blanks at its end *)
Definition piece (s p : list N) : Prop :=
  p <> [] /\ exists r, s = p ++ r /\ blanks r /\ (fixed = true -> r = []).

(** [run s e t]: [t] is the shape line [s], or several of them one after the other if the shape is elastic *)
Inductive run (s : list N) : bool -> list N -> Prop :=
| run_one : forall e p, piece s p -> run s e p
| run_more : forall p t, piece s p -> run s true t -> run s true (p ++ t).

(** [laid ss t]: [t] consists of the shapes [ss] (line and elasticity), in this order; shapes that only show blanks may be
    missing at the end, and unless the end is fixed, blanks may follow *)
Inductive laid : list (list N * bool) -> list N -> Prop :=
| laid_rest : forall ss t, Forall (fun x => looks_blank (fst x)) ss -> blanks t -> (fixed = true -> t = []) -> laid ss t
| laid_cons : forall s e ss t u, run s e t -> laid ss u -> laid ((s, e) :: ss) (t ++ u).

(** [floats ss t]: the same when the left end is not held by a corner: blanks may come first, blank shapes may be missing
    there, and the first shape line that shows something may lack blanks on its left, too *)
Definition floats (ss : list (list N * bool)) (t : list N) : Prop :=
  (Forall (fun x => looks_blank (fst x)) ss /\ blanks t) \/
  exists ss1 s e ss2 lead a p r u,
    ss = ss1 ++ (s, e) :: ss2 /\ Forall (fun x => looks_blank (fst x)) ss1 /\ ~ looks_blank s /\
    s = a ++ p ++ r /\ blanks a /\ blanks r /\ (fixed = true -> r = []) /\
    t = lead ++ p ++ u /\ blanks lead /\ (laid ss2 u \/ (e = true /\ laid ((s, e) :: ss2) u)).
End Border.

(** copies of the shape lines one after the other: [cs] tells how often each is used *)
Definition copies (cs : list (list N * nat)) : list N := flat_map (fun x => concat (repeat (fst x) (snd x))) cs.

(** ** A whole line recognised as part of the top or bottom border *)
Section Line.
Variable U : uctab.

(** the lines of the shapes are built from their texts, or are generated blank lines (src/shape.c:117-158) *)
Definition row_built (m : bxstr) : Prop :=
  bxs_from_unicode U (memory m) = Ok m \/
  (exists n, memory m = repeat 32%N n) /\ bxs_from_ascii U (memory m) = Ok m.
Definition built (d : design) : Prop :=
  forall i m, i < 16 -> In m (s_mbcs (d_shape d i)) -> row_built m.

(** the input lines are built from well-behaved texts, indented by one-column blanks *)
Definition built_line (l : line) : Prop :=
  bxs_from_unicode U (memory (l_text l)) = Ok (l_text l) /\
  exists ts w, reads (memory (l_text l)) ts /\ shows U w (memory (l_text l)) /\
    narrow_indent (is_blank U) (term_width U) (visible ts).

(** a line as it is compared: with or without its escape sequences *)
Definition seen (drop : bool) (s v : list N) : Prop := exists ts, reads s ts /\ v = if drop then visible ts else s.

(** shapes from left to right *)
Definition left_corner (top : bool) : nat := if top then NW else SW.
Definition right_corner (top : bool) : nat := if top then NE else SE.
Definition inner_shapes (top : bool) : list nat := if top then [NNW; N_; NNE] else [SSW; S_; SSE].

(** lines number [si] of the existing shapes between the corners *)
Definition shape_lines (d : design) (top drop : bool) (si : nat) (ss : list (list N * bool)) : Prop :=
  Forall2 (fun i x => seen drop (row_text (d_shape d i) si) (fst x) /\ snd x = s_elastic (d_shape d i))
          (filter (fun i => negb (isempty (d_shape d i))) (inner_shapes top)) ss.

(** [pre] is the corner line [lc] behind something that only shows blanks; of the corner, blanks may be missing on the
    left, and also one further character in front of them *)
Definition held_left (text lc pre : list N) : Prop := exists lead k r t,
  pre = lead ++ skipn k lc /\ k < length lc /\ text = (lead ++ r) ++ t /\ looks_blank U (lead ++ r) /\
  (0 < k -> blanks U (firstn k (skipn 1 lc))).
(** [post] is the corner line [rc], possibly without blanks at its end, and spaces *)
Definition held_right (rc post : list N) : Prop := exists k n,
  post = firstn k rc ++ repeat 32%N n /\ blanks U (skipn k rc).

Definition border_line (d : design) (top drop : bool) (si : nat) (text : list N) : Prop :=
  exists ss fixed pre mid post,
    shape_lines d top drop si ss /\
    text ++ repeat 32%N (left_w d + right_w d) = pre ++ mid ++ post /\
    ((exists lc, seen drop (row_text (d_shape d (left_corner top)) si) lc /\ ~ looks_blank U lc /\
        held_left text lc pre /\ laid U fixed ss mid)
     \/ (pre = [] /\ floats U fixed ss mid)) /\
    (if fixed : bool then exists rc, printed U (negb drop) (row_text (d_shape d (right_corner top)) si) rc /\
        ~ looks_blank U rc /\ held_right rc post
     else post = []).

(** ** Designs whose drawn borders are recognised again *)
(** no control characters, and the space is the only blank *)
Definition plain_text (s : list N) : Prop :=
  Forall (fun c => c <> 27%N /\ c <> 13%N /\ c <> 9%N /\ (is_blank U c = true -> c = 32%N)) s.
(** plain shape lines; what is blank in the ASCII copy of a shape (src/shape.c:308-327) is blank in the shape *)
Record plain_design (d : design) : Prop := {
  pd_rows : forall i m, i < 16 -> In m (s_mbcs (d_shape d i)) -> plain_text (memory m);
  pd_blank : forall i m, i < 16 -> isdeepempty (d_shape d i) = true -> In m (s_mbcs (d_shape d i)) ->
             Forall (fun c => c = 32%N) (memory m)
}.
(** line [si] of the top or bottom border as it is drawn (see [picture] in Spec_Box) *)
Definition border_row (d : design) (top : bool) (ind : nat) (cn : nat -> nat) (si : nat) : list N :=
  spaces ind ++ (if blank_side d BLEF then [] else row_text (d_shape d (left_corner top)) si) ++
  hside_row (at_side (d_shape d) (if top then BTOP else BBOT)) (if top then [1;2;3] else [3;2;1]) cn si ++
  row_text (d_shape d (right_corner top)) si.

(** ** What is left of the lines of a box when it is removed *)
Definition blank_text (s : list N) : Prop := Forall (fun c => is_blank U c = true \/ c = 13%N) s.
(** a line that is recognised as part of the top or bottom border *)
Definition border_height (d : design) (top : bool) : nat :=
  if blank_side d (if top then BTOP else BBOT) then 0 else if top then top_h d else bottom_h d.
Definition borders (d : design) (top : bool) (l : line) : Prop := exists si drop text,
  si < border_height d top /\ printed U true (memory (l_text l)) text /\ border_line d top drop si text.

(** a line of a vertical shape that shows something; [r] is what is left of such a line without blanks at its ends *)
Definition vside_row (d : design) (left drop : bool) (row : list N) : Prop := exists i k,
  In i (if left then [WNW; W_; WSW] else [ENE; E_; ESE]) /\ isdeepempty (d_shape d i) = false /\
  k < s_height (d_shape d i) /\ seen drop (row_text (d_shape d i) k) row.
Definition worn (row r : list N) : Prop := r <> [] /\ exists x y, row = x ++ r ++ y /\ blanks U x /\ blanks U y.

(** what is taken off a line [t] of the box on its left: nothing, or the border line [r] with what is in front of it, and up to
    [d_pad_left] blanks behind it. In front of [r] are blanks and at most as many other characters as were missing in [r]. *)
Definition off_left (d : design) (drop : bool) (t front : list N) : Prop := front = [] \/
  exists a row r pad rest, t = front ++ rest /\ front = a ++ r ++ pad /\ vside_row d true drop row /\ worn row r /\
    length a + length r <= lead (is_blank U) t + length row /\
    blanks U pad /\ length pad <= d_pad_left d /\
    (length pad = d_pad_left d \/ match rest with c :: _ => is_blank U c = false | [] => True end).
(** ... and on its right: nothing, or a border line with the blanks behind it *)
Definition off_right (d : design) (drop : bool) (t back : list N) : Prop := back = [] \/
  exists a row r z, t = a ++ back /\ back = r ++ z /\ vside_row d false drop row /\ worn row r /\ blanks U z.
Definition strips (d : design) (drop : bool) (t p : list N) : Prop := exists front back,
  t = front ++ p ++ back /\ off_left d drop t front /\ off_right d drop t back.
(** the parts to be taken off overlap *)
Definition crosses (d : design) (drop : bool) (t : list N) : Prop := exists front back,
  length t < length front + length back /\ off_left d drop t front /\ off_right d drop t back.

(** [n] blank lines at one end are deleted: all of them if asked to, otherwise (when mending) up to the padding *)
Definition kill_limit (kill mend : bool) (padding : nat) : option nat :=
  if kill then None else Some (if mend then padding else 0).
Definition kills (limit : option nat) (gone next : list (list N)) : Prop :=
  Forall blank_text gone /\ match limit with Some n => length gone <= n | None => True end /\
  (limit = Some (length gone) \/ match next with t :: _ => ~ blank_text t | [] => True end).

Definition indentation (mode : N) (inp : input) : nat := if (N.eqb mode 98 || N.eqb mode 0)%bool then i_indent inp else 0.

(** [out] is what is left of [inp] *)
Definition removed (d : design) (mode : N) (kill mend : bool) (inp out : input) : Prop :=
  exists pre top body bottom post drop texts k1 kept k2 mid c,
    i_lines inp = pre ++ (top ++ body ++ bottom) ++ post /\
    Forall (fun l => blank_text (memory (l_text l))) pre /\ Forall (fun l => blank_text (memory (l_text l))) post /\
    length top <= border_height d true /\ Forall (borders d true) top /\
    length bottom <= border_height d false /\ Forall (borders d false) bottom /\
    Forall2 (fun l t => strips d drop (memory (l_text l)) t) body texts /\
    texts = k1 ++ kept ++ k2 /\
    kills (kill_limit kill mend (d_pad_top d)) k1 (kept ++ k2) /\
    kills (kill_limit kill mend (d_pad_bottom d)) (rev k2) (rev kept) /\
    (* the common blanks of a box without left side, at most as many as its padding *)
    (blank_side d BLEF = false -> c = 0) /\ c <= d_pad_left d /\
    (let all := map (fun l => memory (l_text l)) (pre ++ post) ++ map (app (spaces (indentation mode inp))) kept in
     Forall (fun t => c <= lead (is_blank U) t) all /\
     (blank_side d BLEF = true -> c = d_pad_left d \/ all = [] \/ Exists (fun t => lead (is_blank U) t = c) all)) /\
    Forall2 (fun t l => exists z, spaces (indentation mode inp) ++ t = z ++ memory (l_text l) /\ blanks U z /\ length z = c /\
      bxs_from_unicode U (memory (l_text l)) = Ok (l_text l)) kept mid /\
    i_lines out = pre ++ mid ++ post /\ i_final_newline out = i_final_newline inp.

(** [core]: the lines from the first to the last one that is not blank *)
Definition framed (inp : input) (pre core post : list line) : Prop :=
  i_lines inp = pre ++ core ++ post /\
  Forall (fun l => blank_text (memory (l_text l))) pre /\ Forall (fun l => blank_text (memory (l_text l))) post /\
  (exists x, hd_error core = Some x /\ ~ blank_text (memory (l_text x))) /\
  (exists y, hd_error (rev core) = Some y /\ ~ blank_text (memory (l_text y))).
(** no line can be taken for two things *)
Definition unambiguous (d : design) (inp : input) : Prop := forall l, In l (i_lines inp) ->
  ~ (borders d true l /\ borders d false l) /\ (blank_text (memory (l_text l)) -> ~ borders d true l /\ ~ borders d false l).
Definition uncrossed (d : design) (inp : input) : Prop := forall l drop, In l (i_lines inp) -> ~ crosses d drop (memory (l_text l)).
End Line.
