(** * Specification of the score of a design: how much of a text looks like its shapes *)
From Coq Require Import List Arith NArith Bool.
From Verif Require Import Base Model_Unicode Model_Bxs Model_Shape Model_Detect Spec_Str Spec_Design Spec_Box Spec_Remove.
Import ListNotations.

(** [counts P l n]: [n] members of [l] have the property [P] *)
Inductive counts {A : Type} (P : A -> Prop) : list A -> nat -> Prop :=
| counts_nil : counts P [] 0
| counts_yes : forall x l n, P x -> counts P l n -> counts P (x :: l) (S n)
| counts_no : forall x l n, ~ P x -> counts P l n -> counts P (x :: l) n.

Section Score.
Variable U : uctab.
Variable d : design.
(** the lines of the text, as they are compared *)
Variable L : list (list N).

(** texts without the blanks on their left, on their right *)
Definition unled (s : list N) : list N := skipn (lead (is_blank U) s) s.
Definition untrailed (s : list N) : list N := firstn (length s - trail (is_blank U) s) s.
Definition shown (s : list N) : Prop := Exists (fun c => is_blank U c = false) s.

Definition starts (t s : list N) : Prop := exists r, t = s ++ r.
Definition ends_in (t s : list N) : Prop := exists r, t = r ++ s.
(** [s] occurs in [t]; where it does so first, it comes twice in a row if [twice] *)
Definition holds (twice : bool) (t s : list N) : Prop := exists a b,
  t = a ++ s ++ b /\ (forall a' b', t = a' ++ s ++ b' -> length a <= length a') /\ (twice = true -> starts b s).

(** the first [h] lines (or all of them), the last [h] lines (none if there are not so many) *)
Definition edge (bottom : bool) (h : nat) : list (list N) :=
  if bottom then (if length L <? h then [] else skipn (length L - h) L) else firstn h L.
(** the lines between the top and the bottom of a box *)
Definition inner : list (list N) :=
  let t := if blank_side d BTOP then 0 else s_height (d_shape d NW) in
  let b := if blank_side d BBOT then 0 else s_height (d_shape d SW) in
  firstn (length L - b - t) (skipn t L).
Definition lines_of (c : nat) : list (list N) := shape_rows (d_shape d c).

(** a corner on the left: its lines at the beginning of the first or last lines of the text, pair by pair *)
Definition corner_left (bottom : bool) (n : nat) : Prop :=
  let c := if bottom then SW else NW in
  if blank_side d BLEF || blank_side d (if bottom then BBOT else BTOP) then n = 0
  else counts (fun p => shown (fst p) /\ starts (unled (snd p)) (unled (fst p))) (list_prod (lines_of c) (edge bottom (s_height (d_shape d c)))) n.
(** a corner on the right: at the end of these lines *)
Definition corner_right (bottom : bool) (n : nat) : Prop :=
  let c := if bottom then SE else NE in
  if blank_side d BRIG || blank_side d (if bottom then BBOT else BTOP) then n = 0
  else counts (fun p => shown (fst p) /\ ends_in (untrailed (snd p)) (untrailed (fst p))) (list_prod (lines_of c) (edge bottom (s_height (d_shape d c)))) n.

(** a shape between the corners: its lines anywhere in the first or last lines of the text. Of a shape line that has only
    blank shapes on its left (right), the blanks on its left (right) do not matter. *)
Definition sides (bottom : bool) : list nat := if bottom then [SW; SSW; S_; SSE; SE] else [NW; NNW; N_; NNE; NE].
Definition blank_at (j c : nat) : Prop := match nth_error (lines_of c) j with Some s => ~ shown s | None => True end.
Definition worn_line (bottom : bool) (k j : nat) (s x : list N) : Prop := exists y,
  (Forall (blank_at j) (firstn k (sides bottom)) /\ y = unled s \/ ~ Forall (blank_at j) (firstn k (sides bottom)) /\ y = s) /\
  (Forall (blank_at j) (skipn (S k) (sides bottom)) /\ x = untrailed y \/ ~ Forall (blank_at j) (skipn (S k) (sides bottom)) /\ x = y).
Definition between (bottom : bool) (k : nat) (n : nat) : Prop :=
  let c := nth k (sides bottom) 0 in
  if blank_side d BTOP || blank_side d BBOT then n = 0
  else counts (fun p => exists s x, nth_error (lines_of c) (fst p) = Some s /\ shown s /\ worn_line bottom k (fst p) s x /\
                        holds (s_elastic (d_shape d c)) (unled (snd p)) x)
              (list_prod (seq 0 (s_height (d_shape d c))) (edge bottom (s_height (d_shape d c)))) n.

(** a shape of the left side: lines of the body that begin with one of its lines *)
Definition left_side (c n : nat) : Prop :=
  counts (fun t => exists s, In s (lines_of c) /\ shown s /\ starts (unled t) (unled s)) inner n.
(** a shape of the right side: its lines with which some line of the body ends *)
Definition right_side (c n : nat) : Prop :=
  counts (fun s => shown s /\ exists t, In t inner /\ ends_in (untrailed t) (untrailed (unled s))) (lines_of c) n.

Definition scored (n : nat) : Prop := exists nw nnw nn nne ne ene e ese se sse s ssw sw wsw w wnw,
  n = nw + nnw + nn + nne + ne + ene + e + ese + se + sse + s + ssw + sw + wsw + w + wnw /\
  corner_left false nw /\ corner_left true sw /\ corner_right false ne /\ corner_right true se /\
  between false 1 nnw /\ between false 2 nn /\ between false 3 nne /\
  between true 1 ssw /\ between true 2 s /\ between true 3 sse /\
  left_side WNW wnw /\ left_side W_ w /\ left_side WSW wsw /\
  right_side ENE ene /\ right_side E_ e /\ right_side ESE ese.
End Score.

(** ** The design that is found: the first one with the highest score, if that is not 0 *)
Definition best_scored (U : uctab) (ds : list design) (L : list (list N)) (r : option nat) : Prop :=
  match r with
  | None => forall i d n, nth_error ds i = Some d -> scored U d L n -> n = 0
  | Some i => exists d n, nth_error ds i = Some d /\ scored U d L n /\ 0 < n /\
      forall i' d' n', nth_error ds i' = Some d' -> scored U d' L n' -> n' <= n /\ (i' < i -> n' < n)
  end.

(** every line of the design [e] that shows something has a character that is not blank and occurs neither in the design
    [d] nor in the text *)
Definition foreign (U : uctab) (d : design) (text : list (list N)) (e : design) : Prop :=
  forall i s, i < 16 -> In s (lines_of e i) -> shown U s -> exists c, In c s /\ is_blank U c = false /\
    (forall t, In t text -> ~ In c t) /\ (forall i' s', i' < 16 -> In s' (lines_of d i') -> ~ In c s').
