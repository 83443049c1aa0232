(** * Specification of tag queries and design lists *)
From Coq Require Import List Arith NArith Bool.
Import ListNotations.
Local Open Scope N_scope.

(** equal except for the case of ASCII letters *)
Definition same_letter (x y : N) : Prop :=
  x = y \/ (65 <= x <= 90 /\ y = x + 32) \/ (65 <= y <= 90 /\ x = y + 32).
Definition nocase (a b : list N) : Prop := Forall2 same_letter a b.
Definition carries (tags : list (list N)) (t : list N) : Prop := exists x, In x tags /\ nocase x t.

(** ** Names of tags *)
Definition tag_char (c : N) : Prop := 97 <= c <= 122 \/ 48 <= c <= 57 \/ c = 45.
(** lower-case letters, digits and hyphens; begins with a letter; no two hyphens in a row, none at the end; does not begin with "none" *)
Definition good_tag (s : list N) : Prop :=
  (exists c r, s = c :: r /\ 97 <= c <= 122) /\ Forall tag_char s /\
  ~ (exists a b, s = a ++ [45; 45] ++ b) /\ ~ (exists a, s = a ++ [45]) /\ ~ (exists b, s = [110; 111; 110; 101] ++ b).
(** also accepted: a line feed at the end *)
Definition accepted_tag (s : list N) : Prop := good_tag s \/ exists t, s = t ++ [10] /\ good_tag t.
(** names of designs: the letters may be upper case, and there may be underscores *)
Definition name_char (c : N) : Prop := 97 <= c <= 122 \/ 65 <= c <= 90 \/ 48 <= c <= 57 \/ c = 45 \/ c = 95.
Definition hyphen (c : N) : Prop := c = 45 \/ c = 95.
Definition good_name (s : list N) : Prop :=
  (exists c r, s = c :: r /\ (97 <= c <= 122 \/ 65 <= c <= 90)) /\ Forall name_char s /\
  ~ (exists a x y b, s = a ++ [x; y] ++ b /\ hyphen x /\ hyphen y) /\ ~ (exists a x, s = a ++ [x] /\ hyphen x) /\
  ~ (exists b, s = [110; 111; 110; 101] ++ b).
Definition accepted_name (s : list N) : Prop := good_name s \/ exists t, s = t ++ [10] /\ good_name t.

(** ** The text of a query *)
Definition all_word : list N := [40; 97; 108; 108; 41].
Definition blank (c : N) : Prop := c = 32 \/ c = 9.
(** [t] is [p] without the blanks at both ends *)
Definition trimmed (p t : list N) : Prop :=
  exists a b, p = a ++ t ++ b /\ Forall blank a /\ Forall blank b /\
    (forall c r, t = c :: r -> ~ blank c) /\ (forall c r, t = r ++ [c] -> ~ blank c).
(** [s] is made of the pieces [ps] with commas in between *)
Inductive joined : list (list N) -> list N -> Prop :=
| joined_one : forall p, ~ In 44 p -> joined [p] p
| joined_more : forall p ps s, ~ In 44 p -> joined ps s -> joined (p :: ps) (p ++ 44 :: s).
(** the terms: the pieces that are not blank, trimmed *)
Inductive trims : list (list N) -> list (list N) -> Prop :=
| trims_nil : trims [] []
| trims_blank : forall p ps ts, trimmed p [] -> trims ps ts -> trims (p :: ps) ts
| trims_keep : forall p t ps ts, trimmed p t -> t <> [] -> trims ps ts -> trims (p :: ps) (t :: ts).
Definition terms (s : list N) (ts : list (list N)) : Prop := exists ps, joined ps s /\ trims ps ts.

(** a term: required, excluded or plain tag *)
Inductive kind : Type := required | excluded | plain.
Inductive term : list N -> kind -> list N -> Prop :=
| term_plus : forall t, term (43 :: t) required t
| term_minus : forall t, term (45 :: t) excluded t
| term_plain : forall t, (forall r, t <> 43 :: r) -> (forall r, t <> 45 :: r) -> term t plain t.

(** which tags a query selects *)
Definition selected (ts : list (list N)) (tags : list (list N)) : Prop :=
  (forall q t, In q ts -> term q excluded t -> ~ carries tags t) /\
  (forall q t, In q ts -> term q required t -> carries tags t) /\
  ((exists q t, In q ts /\ term q required t) \/ (exists q t, In q ts /\ term q plain t /\ carries tags t) \/
   (exists q, In q ts /\ nocase q all_word)).
(** ... as typed by the user: a query of excluded tags only selects everything else *)
Definition selected_by_text (ts : list (list N)) (tags : list (list N)) : Prop :=
  (forall q t, In q ts -> term q excluded t -> ~ carries tags t) /\
  (forall q t, In q ts -> term q required t -> carries tags t) /\
  ((exists q t, In q ts /\ term q required t) \/ (exists q t, In q ts /\ term q plain t /\ carries tags t) \/
   (exists q, In q ts /\ nocase q all_word) \/ (forall q, In q ts -> exists t, term q excluded t)).

(** which queries are accepted *)
Definition well_formed (ts : list (list N)) : Prop :=
  ts <> [] /\
  (forall q k t, In q ts -> term q k t -> t = all_word \/ accepted_tag t) /\
  (forall i j q q' k k' t t', nth_error ts i = Some q -> nth_error ts j = Some q' -> term q k t -> term q' k' t' -> nocase t t' -> i = j).

(** ** Lists *)
(** alphabetical order by lower-case letters *)
Definition low (c : N) : N := if (65 <=? c) && (c <=? 90) then c + 32 else c.
Inductive not_after : list N -> list N -> Prop :=
| na_nil : forall b, not_after [] b
| na_less : forall x y a b, low x < low y -> not_after (x :: a) (y :: b)
| na_same : forall x y a b, low x = low y -> not_after a b -> not_after (x :: a) (y :: b).
(** number of elements equal to [t] except for case *)
Inductive occurs_nocase (t : list N) : list (list N) -> nat -> Prop :=
| on_nil : occurs_nocase t [] 0
| on_yes : forall x l n, nocase t x -> occurs_nocase t l n -> occurs_nocase t (x :: l) (S n)
| on_no : forall x l n, ~ nocase t x -> occurs_nocase t l n -> occurs_nocase t (x :: l) n.

(** ** Sorting: what is expected of [qsort] *)
From Coq Require Import ZArith Sorting.Permutation Sorting.Sorted.
Definition ordering (A : Type) (cmp : A -> A -> Z) : Prop :=
  (forall a b, (cmp a b < 0)%Z <-> (0 < cmp b a)%Z) /\
  (forall a b c, (cmp a b <= 0)%Z -> (cmp b c <= 0)%Z -> (cmp a c <= 0)%Z).
Definition sorter (qs : forall A : Type, (A -> A -> Z) -> list A -> list A) : Prop :=
  forall A cmp l, ordering A cmp -> Permutation l (qs A cmp l) /\ StronglySorted (fun a b => (cmp a b <= 0)%Z) (qs A cmp l).
