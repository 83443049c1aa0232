(** * What pcre2_substitute promises (pcre2api(3), PCRE2_SUBSTITUTE_OVERFLOW_LENGTH), and what a text is up to a NUL *)
From Coq Require Import List Arith NArith ZArith.
From Verif Require Import Base Model_Regulex.
Import ListNotations.
Local Open Scope nat_scope.

(** the buffer has room for the new text and a NUL: they are written to its beginning and the length of the text is returned; the
    buffer is too small: nothing is written outside of it, and the size that is needed is returned *)
Record replaces_by (sub : list N -> substituted) (t : list N) : Prop := {
  rb_size : forall b, length (sub_buf (sub b)) = length b;
  rb_fits : forall b, length t < length b -> (0 <= sub_rc (sub b))%Z /\ sub_len (sub b) = length t /\ exists rest, sub_buf (sub b) = t ++ 0%N :: rest;
  rb_small : forall b, length b <= length t -> sub_rc (sub b) = PCRE2_ERROR_NOMEMORY /\ sub_len (sub b) = S (length t)
}.
(** an error other than a buffer that is too small, whatever the buffer *)
Definition refuses (sub : list N -> substituted) : Prop :=
  forall b, (sub_rc (sub b) < 0)%Z /\ sub_rc (sub b) <> PCRE2_ERROR_NOMEMORY.
(** [malloc] and [realloc] give a block of the size asked for, or none *)
Definition allocates (fresh : nat -> option (list N)) : Prop := forall n b, fresh n = Some b -> length b = n.
Definition plenty (fresh : nat -> option (list N)) : Prop := forall n, fresh n <> None.

(** the part in front of the first NUL *)
Definition up_to_nul (t s : list N) : Prop := ~ In 0%N s /\ (s = t \/ exists rest, t = s ++ 0%N :: rest).
