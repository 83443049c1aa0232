(** * Model of src/discovery.c: where the configuration file is looked for (Unix variant, no [__MINGW32__]) *)
From Coq Require Import Ascii String List Arith NArith ZArith Bool.
From Verif Require Import Base Model_Unicode Model_Bxs Model_Shape.
Import ListNotations.
Local Open Scope list_scope.

(** A C string literal *)
Definition lit (s : string) : list N := map N_of_ascii (list_ascii_of_string s).

(** What the functions of this file read: the file system, the -f option, the environment and the compiled-in path.
    Paths are sequences of code points: decoding UTF-8 is not modelled. The file system does not change meanwhile.
    - [file_opens p]: fopen (p, "r") succeeds, and so does stat (p), and it is not a directory (lines 53-71)
    - [dir_opens p]: opendir (p) succeeds (lines 91-99)
    - [None] is an unset variable or option *)
Record surroundings : Type := mkSur {
  file_opens : list N -> bool;
  dir_opens : list N -> bool;
  opt_f : option (list N);
  env_BOXES : option (list N);
  env_HOME : option (list N);
  env_XDG_CONFIG_HOME : option (list N);
  GLOBALCONF : list N
}.

Section Search.
Variable U : uctab.
Variable e : surroundings.

(** src/discovery.c:42-77 *)
Definition can_read_file (filename : list N) : bool := if is_nil filename then false else file_opens e filename.

(** src/discovery.c:81-104; [None] is NULL *)
Definition can_read_dir (dirname : option (list N)) : bool :=
  match dirname with None => false | Some d => if is_nil d then false else dir_opens e d end.

(** src/discovery.c:108-116; an empty directory name reads the byte before the string *)
Definition combine (dirname filename : list N) : res (list N) :=
  match rev dirname with
  | [] => UB
  | c :: _ => Ok (if N.eqb c 47 then dirname ++ filename else dirname ++ [47%N] ++ filename)
  end.

(** src/discovery.c:125 *)
Definition filenames : list (list N) := [lit ".boxes"; lit "box-designs"; lit "boxes-config"; lit "boxes"].

(** src/discovery.c:127-134 *)
Fixpoint locate_names (dirname : list N) (names : list (list N)) : res (option (list N)) :=
  match names with
  | [] => Ok None
  | n :: r => f <- combine dirname n ;; if can_read_file f then Ok (Some f) else locate_names dirname r
  end.

(** src/discovery.c:120-135 *)
Definition locate_config_in_dir (dirname : list N) : res (option (list N)) := locate_names dirname filenames.

(** src/discovery.c:139-155, without the messages *)
Definition locate_config_file_or_dir (path : list N) : res (option (list N)) :=
  if can_read_file path then Ok (Some path)
  else if can_read_dir (Some path) then locate_config_in_dir path
  else Ok None.

(** src/discovery.c:159-167 *)
Definition from_env_var (v : option (list N)) (postfix : list N) : option (list N) :=
  match v with None => None | Some s => Some (s ++ postfix) end.

(** src/discovery.c:171-191; the flag is [error_printed] *)
Definition locate_config_common : res (option (list N) * bool) :=
  match (match opt_f e with Some f => Some f | None => env_BOXES e end) with
  | None => Ok (None, false)
  | Some p => r <- locate_config_file_or_dir p ;; Ok (r, match r with None => true | Some _ => false end)
  end.

(** src/discovery.c:229-238: a string that [bxs_from_unicode] refuses gives NULL *)
Definition utf8_to_bxs (s : option (list N)) : res (option bxstr) :=
  match s with
  | None => Ok None
  | Some t => match bxs_from_unicode U t with Ok b => Ok (Some b) | Err => Ok None | UB => UB | Wrap => Wrap | Fuel => Fuel end
  end.

(** Elements of the [dirs] array, src/discovery.c:256-273: the marker or a directory *)
Inductive place : Type := marker | place_dir (d : option (list N)).
Definition user_dirs : list place :=
  [place_dir (from_env_var (env_HOME e) []); place_dir (from_env_var (env_XDG_CONFIG_HOME e) (lit "/boxes"));
   place_dir (from_env_var (env_HOME e) (lit "/.config/boxes"))].
Definition global_dirs : list place :=
  [marker; place_dir (Some (lit "/etc/xdg/boxes")); place_dir (Some (lit "/usr/local/share/boxes"));
   place_dir (Some (lit "/usr/share/boxes"))].

(** src/discovery.c:275-294: one round of the loop *)
Definition try_place (p : place) : res (option bxstr) :=
  match p with
  | marker => if can_read_file (GLOBALCONF e) then utf8_to_bxs (Some (GLOBALCONF e)) else Ok None
  | place_dir d =>
      match d with
      | Some d' => if can_read_dir d then f <- locate_config_in_dir d' ;; utf8_to_bxs f else Ok None
      | None => Ok None
      end
  end.

(** src/discovery.c:274-298 *)
Fixpoint try_places (l : list place) : res (option bxstr) :=
  match l with
  | [] => Ok None
  | p :: r => x <- try_place p ;; match x with Some b => Ok (Some b) | None => try_places r end
  end.

(** src/discovery.c:242-311, without the messages *)
Definition discover_config_file (global_only : bool) : res (option bxstr) :=
  '(result, error_printed) <- (if global_only then Ok (None, false)
                               else '(c, ep) <- locate_config_common ;; r <- utf8_to_bxs c ;; Ok (r, ep)) ;;
  match result with
  | Some b => Ok (Some b)
  | None => if error_printed then Ok None
            else try_places (if global_only then global_dirs else user_dirs ++ global_dirs)
  end.
End Search.
