(** * Where the manual says that the configuration file is looked for (doc/boxes.1.in:380-433) *)
From Coq Require Import Ascii String List NArith.
From Verif Require Import Base Model_Unicode Model_Bxs Model_Discovery.
Import ListNotations.

(** the first element of a list with a property *)
Inductive first_with {A : Type} (P : A -> Prop) : list A -> A -> Prop :=
| first_here : forall x l, P x -> first_with P (x :: l) x
| first_later : forall x l y, ~ P x -> first_with P l y -> first_with P (x :: l) y.

(** a name in a directory; a slash at the end of the directory name is not doubled *)
Definition inside (d n p : list N) : Prop :=
  (exists d', d = (d' ++ [47%N])%list /\ p = (d ++ n)%list) \/ ((forall d', d <> (d' ++ [47%N])%list) /\ p = (d ++ 47%N :: n)%list).

(** the four names, in order *)
Definition well_known : list (list N) := map lit [".boxes"; "box-designs"; "boxes-config"; "boxes"]%string.

Section Manual.
Variable e : surroundings.

(** a path names a file one can read, or a directory one can read *)
Definition is_file (p : list N) : Prop := p <> [] /\ file_opens e p = true.
Definition is_dir (p : list N) : Prop := p <> [] /\ dir_opens e p = true.

(** the file which a directory stands for *)
Definition dir_file (d f : list N) : Prop :=
  is_dir d /\ exists n, first_with (fun n => exists p, inside d n p /\ is_file p) well_known n /\ inside d n f.
(** the file which a path stands for that the user gave *)
Definition path_file (p f : list N) : Prop := (is_file p /\ f = p) \/ (~ is_file p /\ dir_file p f).

(** what the user said: -f, else BOXES *)
Definition said (p : list N) : Prop := opt_f e = Some p \/ (opt_f e = None /\ env_BOXES e = Some p).

(** steps 3 to 9 of the manual; each is a directory, except for the sixth *)
Inductive step : Type := a_file (p : list N) | a_dir (p : list N) | unset.
Definition under (v : option (list N)) (s : string) : step := match v with Some d => a_dir (d ++ lit s)%list | None => unset end.
Definition user_steps : list step :=
  [under (env_HOME e) ""; under (env_XDG_CONFIG_HOME e) "/boxes"; under (env_HOME e) "/.config/boxes"].
Definition global_steps : list step :=
  [a_file (GLOBALCONF e); a_dir (lit "/etc/xdg/boxes"); a_dir (lit "/usr/local/share/boxes"); a_dir (lit "/usr/share/boxes")].
Definition gives (s : step) (f : list N) : Prop :=
  match s with a_file p => is_file p /\ f = p | a_dir d => dir_file d f | unset => False end.
(** the first step that gives a file *)
Definition search (l : list step) (f : list N) : Prop :=
  exists s, first_with (fun s => exists f, gives s f) l s /\ gives s f.
End Manual.

(** the program can make a string out of the path *)
Definition speakable (U : uctab) (p : list N) : Prop := exists b, bxs_from_unicode U p = Ok b.
