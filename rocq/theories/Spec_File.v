(** * What a configuration file amounts to, in terms of what each of its statements amounts to when it is alone *)
From Coq Require Import Ascii String List Arith NArith ZArith Bool.
From Verif Require Import Base Model_Unicode Model_Bxs Model_Shape Spec_Str Spec_Design Model_Query Spec_Query Model_Discovery Spec_Discovery Model_Parser Spec_Parser Spec_Grammar.
Import ListNotations.
Local Open Scope nat_scope.
Local Open Scope list_scope.

Section File.
Variable U : uctab.
Variable beyond : res sentry.
Variable eol : list N.
(** the designs of the files that were read before *)
Variable children : list cdesign.
Variable fopen_ok : list N -> bool.
Variable sur : surroundings.

(** the statement, alone in a file that is read completely, yields this design; names this other file; *)
Definition alone_in_file (s : stmt) : res (list cdesign * list (list N)) :=
  parse_config_file U beyond (mkPopts None true) eol children fopen_ok sur (Some [s]).
Definition yields (s : stmt) (d : cdesign) : Prop := alone_in_file s = Ok ([d], []).
Definition names_file (s : stmt) (p : list N) : Prop := alone_in_file s = Ok ([], [p]).
(** ends the reading such that not even another file named before it is remembered; *)
Definition is_design (s : stmt) : Prop := match s with s_box _ _ _ _ => True | _ => False end.
Definition fatal (s : stmt) : Prop :=
  is_design s /\ parse_config_file U beyond (mkPopts None true) eol children (fun _ => true) sur (Some [s_parent [112%N]; s]) = Ok ([], []).
(** has no effect *)
Definition void (s : stmt) : Prop := alone_in_file s = Ok ([], []) /\ ~ fatal s.

(** aliases count unless an earlier file has them *)
Definition counts (a : list N) : Prop := forall d x, In d children -> In x (c_aliases d) -> ~ nocase x a.
Definition wanted (po : popts) (s : stmt) : Prop :=
  match choice po, s with
  | Some c, s_box n al _ _ => nocase n c \/ exists a, In a al /\ counts a /\ nocase a c
  | _, _ => True
  end.
Definition alias_taken (ds : list cdesign) (s : stmt) : Prop :=
  match s with s_box _ al _ _ => exists a d, In a al /\ In d ds /\ called d a | _ => False end.
Definition name_taken (ds : list cdesign) (s : stmt) : Prop :=
  match s with s_box n _ _ _ => exists d, In d ds /\ called d n | _ => False end.
(** all designs are wanted *)
Definition everything (po : popts) : Prop := choice po = None /\ wants_all po = true.

(** [file_says po ds ps l o]: having found the designs [ds] and the names of other files [ps], reading the statements [l] leads
    to [o]; [None] if it ends in an error. *)
Inductive file_says (po : popts) : list cdesign -> list (list N) -> list stmt -> option (list cdesign * list (list N)) -> Prop :=
| fs_end : forall ds ps, file_says po ds ps [] (Some (ds, ps))
| fs_void : forall ds ps s l o, void s -> file_says po ds ps l o -> file_says po ds ps (s :: l) o
(* the names of other files are gathered *)
| fs_new : forall ds ps s p l o, names_file s p -> ~ In p ps -> file_says po ds (ps ++ [p]) l o -> file_says po ds ps (s :: l) o
| fs_known : forall ds ps s p l o, names_file s p -> In p ps -> file_says po ds ps l o -> file_says po ds ps (s :: l) o
(* designs that nobody asked for, and those with the name of an earlier one *)
| fs_unwanted : forall ds ps s l o, ~ wanted po s -> file_says po ds ps l o -> file_says po ds ps (s :: l) o
| fs_alias : forall ds ps s l o, alias_taken ds s -> file_says po ds ps l o -> file_says po ds ps (s :: l) o
| fs_name : forall ds ps s d l o, yields s d -> name_taken ds s -> file_says po ds ps l o -> file_says po ds ps (s :: l) o
(* all others count; when only one is needed, the rest of the file is not read *)
| fs_take : forall ds ps s d l o, everything po -> yields s d -> ~ alias_taken ds s -> ~ name_taken ds s ->
    file_says po (ds ++ [d]) ps l o -> file_says po ds ps (s :: l) o
| fs_last : forall ps s d l, ~ everything po -> yields s d -> wanted po s -> file_says po [] ps (s :: l) (Some ([d], ps))
| fs_fatal : forall ds ps s l, fatal s -> wanted po s -> ~ alias_taken ds s -> file_says po ds ps (s :: l) None.
End File.

(** the file that a PARENT statement with this text (without escape sequences) means: the text without blanks at its ends, or the
    one found in the usual places when the text is ":global:" (characters that take no room do not matter then) *)
Definition says_global (U : uctab) (t : list N) : Prop :=
  nocase (filter (fun c => (0 <? uc_width U c)%Z) t) (Model_Discovery.lit ":global:").
Definition means_file (U : uctab) (fopen_ok : list N -> bool) (sur : surroundings) (f p : list N) : Prop :=
  exists t, stripped U f t /\ t <> [] /\
    ((says_global U t /\ search sur (global_steps sur) p) \/
     (~ says_global U t /\ p = t /\ ~ In 13%N t /\ ~ In 10%N t /\ fopen_ok t = true)).
