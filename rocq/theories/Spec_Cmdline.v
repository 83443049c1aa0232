(** * What command line arguments mean *)
From Coq Require Import List Arith NArith ZArith Bool.
From Verif Require Import Spec_Query.
Import ListNotations.
Local Open Scope N_scope.

(** ** Numbers *)
Definition white (c : N) : Prop := 9 <= c <= 13 \/ c = 32.
Definition numeral (c : N) : Prop := 48 <= c <= 57.
Definition decimal (ds : list N) : Z := fold_left (fun a c => (a * 10 + (Z.of_N c - 48))%Z) ds 0%Z.
Inductive sign : list N -> Z -> Prop :=
| sign_none : sign [] 1
| sign_plus : sign [43] 1
| sign_minus : sign [45] (-1).
(** the text begins with a number [n], which is followed by [rest] *)
Definition number (s : list N) (n : Z) (rest : list N) : Prop :=
  exists bl sg k ds, s = bl ++ sg ++ ds ++ rest /\ Forall white bl /\ sign sg k /\ ds <> [] /\ Forall numeral ds /\
    (forall c r, rest = c :: r -> ~ numeral c) /\ n = (k * decimal ds)%Z.
Definition no_number (s : list N) : Prop := forall n rest, ~ number s n rest.
(** 64-bit and 32-bit integers *)
Definition long (n : Z) : Prop := (- 2 ^ 63 <= n < 2 ^ 63)%Z.
Definition clamped (n v : Z) : Prop := long n /\ v = n \/ (n < - 2 ^ 63 /\ v = - 2 ^ 63)%Z \/ (2 ^ 63 <= n /\ v = 2 ^ 63 - 1)%Z.
(** an [int] that got the [long] [v] *)
Definition cut (v i : Z) : Prop := (exists k, i = v + k * 2 ^ 32)%Z /\ (- 2 ^ 31 <= i < 2 ^ 31)%Z.

(** a letter in upper or lower case; [l] is the lower case letter *)
Definition letter (c l : N) : Prop := c = l \/ c + 32 = l.

(** the last element of [l] that has a value decides, else the default *)
Definition latest {A B : Type} (f : A -> option B) (l : list A) (d b : B) : Prop :=
  (exists l1 x l2, l = l1 ++ x :: l2 /\ f x = Some b /\ forall y, In y l2 -> f y = None) \/
  (forall y, In y l -> f y = None) /\ b = d.

(** ** -p *)
Inductive side : Type := top | right | bottom | left.
Inductive pad_letter : N -> (side -> bool) -> Prop :=
| pl_a : forall c, letter c 97 -> pad_letter c (fun _ => true)
| pl_h : forall c, letter c 104 -> pad_letter c (fun s => match s with left | right => true | _ => false end)
| pl_v : forall c, letter c 118 -> pad_letter c (fun s => match s with top | bottom => true | _ => false end)
| pl_t : forall c, letter c 116 -> pad_letter c (fun s => match s with top => true | _ => false end)
| pl_l : forall c, letter c 108 -> pad_letter c (fun s => match s with left => true | _ => false end)
| pl_b : forall c, letter c 98 -> pad_letter c (fun s => match s with bottom => true | _ => false end)
| pl_r : forall c, letter c 114 -> pad_letter c (fun s => match s with right => true | _ => false end).
(** groups of a letter and a number; the number may be missing except at the end *)
Inductive groups : list N -> list ((side -> bool) * Z) -> Prop :=
| gr_end : groups [] []
| gr_number : forall c f s n i rest gs, pad_letter c f -> number s n rest -> long n -> cut n i -> (0 <= i)%Z -> groups rest gs ->
    groups (c :: s) ((f, i) :: gs)
| gr_bare : forall c f s gs, pad_letter c f -> s <> [] -> no_number s -> groups s gs -> groups (c :: s) ((f, 0%Z) :: gs).
Definition pad_of (s : side) (g : (side -> bool) * Z) : option Z := if fst g s then Some (snd g) else None.
(** the documented form: letters, each with digits *)
Inductive documented : list N -> Prop :=
| doc_one : forall c f ds, pad_letter c f -> ds <> [] -> Forall numeral ds -> (decimal ds < 2 ^ 31)%Z -> documented (c :: ds)
| doc_more : forall c f ds s, pad_letter c f -> ds <> [] -> Forall numeral ds -> (decimal ds < 2 ^ 31)%Z -> documented s -> documented (c :: ds ++ s).

(** ** -a *)
Inductive place : Type := horizontal | vertical | justification.
Inductive directive : list N -> (place -> option N) -> Prop :=
| dir_h : forall c d v, letter c 104 -> letter d v -> In v [108; 99; 114] -> directive [c; d] (fun p => match p with horizontal => Some v | _ => None end)
| dir_v : forall c d v, letter c 118 -> letter d v -> In v [116; 99; 98] -> directive [c; d] (fun p => match p with vertical => Some v | _ => None end)
| dir_j : forall c d v, letter c 106 -> letter d v -> In v [108; 99; 114] -> directive [c; d] (fun p => match p with justification => Some v | _ => None end)
| dir_all : forall c v, letter c v -> In v [108; 99; 114] -> directive [c] (fun p => match p with vertical => Some 99 | _ => Some v end).
Inductive directives : list N -> list (place -> option N) -> Prop :=
| dirs_end : directives [] []
| dirs_more : forall s f r fs, directive s f -> directives r fs -> directives (s ++ r) (f :: fs).

(** ** -s *)
(** the amount a piece of text stands for; garbage after the number, or instead of it, is ignored *)
Definition amount (s : list N) (v : Z) : Prop := (exists rest, number s v rest) /\ long v \/ no_number s /\ v = 0%Z.
Inductive size_parts : list N -> option (list N) -> option (list N) -> Prop :=
| sp_width : forall s, ~ In 120 s -> ~ In 88 s -> size_parts s (Some s) None
| sp_x : forall a b, ~ In 120 a -> size_parts (a ++ 120 :: b) (match a with [] => None | _ => Some a end) (Some b)
| sp_X : forall a b, ~ In 88 a -> ~ In 120 (a ++ b) -> size_parts (a ++ 88 :: b) (match a with [] => None | _ => Some a end) (Some b).
Definition part (p : option (list N)) (old new : Z) : Prop := match p with None => new = old | Some s => amount s new end.

(** ** -k *)
Definition word (l : list (list N)) (s : list N) : Prop := exists w, In w l /\ nocase s w.
(** on, yes, true, 1, t; off, no, false, 0, f *)
Definition yes_words : list (list N) := [[111; 110]; [121; 101; 115]; [116; 114; 117; 101]; [49]; [116]].
Definition no_words : list (list N) := [[111; 102; 102]; [110; 111]; [102; 97; 108; 115; 101]; [48]; [102]].
