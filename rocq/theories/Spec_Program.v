(** * The program as a whole: C68 *)
From Coq Require Import List Arith NArith ZArith Bool.
From Verif Require Import Base Model_Unicode Model_Cmdline Model_Discovery Spec_Discovery Spec_Safe Model_Scan Model_Program Prop_Discovery.
Import ListNotations.
Local Open Scope list_scope.

(** neither a listing nor a query, removal or repair is asked for, and the design is not given by -c *)
Definition asks_to_draw (items : list item) : Prop :=
  forall i, In i items -> match i with ItL | ItQ _ | ItR | ItM | ItC _ => False | _ => True end.
(** the same with another standard input *)
Definition with_stdin (w : world) (s : list N) : world :=
  mkWorld (w_can_read w) (w_can_write w) (w_contents w) s (w_sur w) (w_colors w) (w_subst w) (w_qsort w) (w_beyond w) (w_origin w) (w_usage w) (w_version w).

(** the paths of the user and of the installation are printable *)
Definition plain_places (e : surroundings) : Prop := printable (GLOBALCONF e) /\
  forall p, opt_f e = Some p \/ env_BOXES e = Some p \/ env_HOME e = Some p \/ env_XDG_CONFIG_HOME e = Some p -> printable p.
(** the configuration file according to the manual *)
Definition config_file_is (e : surroundings) (f : list N) : Prop :=
  match opt_f e, env_BOXES e with
  | Some p, _ => path_file e p f
  | None, Some p => path_file e p f
  | None, None => search e (user_steps e ++ global_steps e) f
  end.
(** the surroundings as seen with the option -f [f] *)
Definition seen (w : world) (f : option (list N)) : surroundings :=
  mkSur (file_opens (w_sur w)) (dir_opens (w_sur w)) f (env_BOXES (w_sur w)) (env_HOME (w_sur w)) (env_XDG_CONFIG_HOME (w_sur w)) (GLOBALCONF (w_sur w)).
(** the text that is read: the file named first on the command line, else standard input *)
Definition text_read (w : world) (fs : files) : list N := match fs with Files (Some f) _ => w_contents w f | Files None _ => w_stdin w end.
