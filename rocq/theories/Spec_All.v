(** * Which designs a set of configuration files amounts to *)
From Coq Require Import List Arith NArith Bool.
From Verif Require Import Base Model_Unicode Model_Bxs Model_Shape Model_Discovery Model_Parser Spec_Parser Spec_File Model_Scan Spec_Default.
Import ListNotations.
Local Open Scope list_scope.

Section All.
Variable U : uctab.
Variable beyond : res sentry.
Variable eol : list N.
Variable fopen_ok : list N -> bool.
Variable contents : list N -> list N.
Variable sur : surroundings.
(** what is asked for: a design by name, one design or all of them *)
Variable po : popts.

(** the file [f], read when the designs [children] are known, has these designs and names these other files. A file that cannot be
    opened has none, and one that ends in an error has none. *)
Definition in_file (children : list cdesign) (f : list N) (ds : list cdesign) (ps : list (list N)) : Prop :=
  fopen_ok f = false /\ ds = [] /\ ps = [] \/
  fopen_ok f = true /\ exists l o, read_statements (contents f) = Ok l /\ file_says U beyond eol children fopen_ok sur po [] [] l o /\
    (ds, ps) = match o with Some x => x | None => ([], []) end.
(** [joins have new all]: of [new] those are added whose name is not the name of one that is there *)
Inductive joins : list cdesign -> list cdesign -> list cdesign -> Prop :=
| jo_end : forall have, joins have [] have
| jo_add : forall have d new all, (forall x, In x have -> ~ share_name x d) -> joins (have ++ [d]) new all -> joins have (d :: new) all
| jo_drop : forall have x d new all, In x have -> share_name x d -> joins have new all -> joins have (d :: new) all.
(** [collects known todo have f all ps]: when the file [f] is read, the files [todo] wait to be read, [known] are those named so far
    and [have] the designs found so far, then in the end the designs are [all] and the files named are [ps]. Of the files named by
    one file, those named last are read first. *)
Inductive collects : list (list N) -> list (list N) -> list cdesign -> list N -> list cdesign -> list (list N) -> Prop :=
| co_last : forall known have f ds ps all, in_file have f ds ps -> joins have ds all -> incl ps known -> collects known [] have f all known
| co_next : forall known todo have f ds ps have' new next todo' all files, in_file have f ds ps -> joins have ds have' ->
    beyond_known known (rev ps) new -> todo ++ new = next :: todo' -> collects (known ++ new) todo' have' next all files -> collects known todo have f all files.
End All.
