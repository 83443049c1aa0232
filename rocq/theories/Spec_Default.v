(** * Which design is taken when none is named *)
From Coq Require Import List Arith NArith Bool.
From Verif Require Import Base Model_Unicode Model_Bxs Model_Shape Model_Discovery Model_Parser Spec_File Model_Scan.
Import ListNotations.
Local Open Scope list_scope.

Section Default.
Variable U : uctab.
Variable beyond : res sentry.
Variable eol : list N.
Variable fopen_ok : list N -> bool.
Variable contents : list N -> list N.
Variable sur : surroundings.

(** the statements [l] are no designs (at least none that is accepted); the files they name are added to [ps], each one once *)
Inductive gathers : list (list N) -> list stmt -> list (list N) -> Prop :=
| ga_end : forall ps, gathers ps [] ps
| ga_void : forall ps s l qs, void U beyond eol [] fopen_ok sur s -> gathers ps l qs -> gathers ps (s :: l) qs
| ga_new : forall ps s p l qs, names_file U beyond eol [] fopen_ok sur s p -> ~ In p ps -> gathers (ps ++ [p]) l qs -> gathers ps (s :: l) qs
| ga_known : forall ps s p l qs, names_file U beyond eol [] fopen_ok sur s p -> In p ps -> gathers ps l qs -> gathers ps (s :: l) qs.
(** the first accepted design of the file *)
Definition first_in (f : list N) (d : cdesign) : Prop :=
  fopen_ok f = true /\ exists before s after ps, read_statements (contents f) = Ok (before ++ s :: after) /\ gathers [] before ps /\ yields U beyond eol [] fopen_ok sur s d.
(** the file has no accepted design; it names these files *)
Definition none_in (f : list N) (ps : list (list N)) : Prop :=
  fopen_ok f = false /\ ps = [] \/ fopen_ok f = true /\ exists l, read_statements (contents f) = Ok l /\ gathers [] l ps.
(** [new]: what [ps] has beyond [known], each one once *)
Inductive beyond_known (known : list (list N)) : list (list N) -> list (list N) -> Prop :=
| bk_end : beyond_known known [] []
| bk_old : forall p ps new, In p known -> beyond_known known ps new -> beyond_known known (p :: ps) new
| bk_new : forall p ps new, ~ In p known -> beyond_known (known ++ [p]) ps new -> beyond_known known (p :: ps) (p :: new).
(** [finds known todo f d]: when the file [f] is read, the files [todo] wait to be read and [known] are those named so far, the
    first design found is [d]. Of the files named by one file, those named last are read first. *)
Inductive finds : list (list N) -> list (list N) -> list N -> cdesign -> Prop :=
| fi_here : forall known todo f d, first_in f d -> finds known todo f d
| fi_later : forall known todo f d ps new next todo', none_in f ps -> beyond_known known (rev ps) new ->
    todo ++ new = next :: todo' -> finds (known ++ new) todo' next d -> finds known todo f d.
End Default.
