(** * Model of src/logging.c: debug output

    Texts are lists of bytes. The state of the module is a pair of [debug_logging_active] and [areas_active]; the latter has
    [NUM_LOG_AREAS] = 5 entries whenever it is not null. What [vsprintf] makes of a format and its arguments is a parameter: the
    message. [malloc] does not fail. *)
From Coq Require Import List Arith NArith Bool.
From Verif Require Import Base.
Import ListNotations.
Local Open Scope nat_scope.

(** [strrchr]: the place of the last occurrence *)
Fixpoint strrchr (s : list N) (c : N) : option nat :=
  match s with
  | [] => None
  | x :: r => match strrchr r c with Some i => Some (S i) | None => if N.eqb x c then Some 0 else None end
  end.
Definition slash := 47%N.
Definition backslash := 92%N.
Definition full_stop := 46%N.
Definition NULL_name : list N := [78; 85; 76; 76]%N.

(** src/logging.c:38-63; pointers are places in [module] *)
Definition shorten_module (module : option (list N)) : list N :=
  match module with
  | None => NULL_name
  | Some m =>
      let p := match strrchr m slash with Some i => Some i | None => strrchr m backslash end in
      let s := match p with Some i => S i | None => 0 end in
      match strrchr m full_stop with
      | Some e => if (s <? e) && (s <? length m) then firstn (e - s) (skipn s m) else skipn s m
      | None => skipn s m
      end
  end.

(** src/logging.h:28-48 *)
Inductive log_area : Type := RESERVED | ALL | MAIN | REGEXP | PARSER | LEXER | DISCOVERY.
Definition area_number (a : log_area) : nat :=
  match a with RESERVED => 0 | ALL => 1 | MAIN => 2 | REGEXP => 3 | PARSER => 4 | LEXER => 5 | DISCOVERY => 6 end.
Definition NUM_LOG_AREAS := 5.

Record logger : Type := mkLogger { debug_logging_active : bool; areas_active : option (list bool) }.
(** src/logging.c:32-34 *)
Definition no_logger : logger := mkLogger false None.
(** src/logging.c:67-79; the argument points to [NUM_LOG_AREAS] flags or is null *)
Definition activate_debug_logging (log_areas : option (list bool)) : logger :=
  match log_areas with
  | None => mkLogger false (Some (repeat false NUM_LOG_AREAS))
  | Some l => mkLogger true (Some (firstn NUM_LOG_AREAS l))
  end.
(** src/logging.c:83-97 *)
Definition is_area_active (g : logger) (a : log_area) : res bool :=
  match areas_active g with
  | Some on =>
      if debug_logging_active g && negb (area_number a =? 0) && (area_number a <? NUM_LOG_AREAS + 2) then
        if area_number a =? 1 then l <- mapM (rd on) (seq 0 NUM_LOG_AREAS) ;; Ok (forallb (fun b => b) l)
        else rd on (area_number a - 2)
      else Ok false
  | None => Ok false
  end.
(** src/logging.c:101-104 *)
Definition is_debug_logging (g : logger) (a : log_area) : res bool :=
  if debug_logging_active g then is_area_active g a else Ok false.
(** src/logging.c:108-118; the array is not checked for being null *)
Definition is_debug_activated (g : logger) : res bool :=
  if debug_logging_active g then
    match areas_active g with
    | Some on => l <- mapM (rd on) (seq 0 NUM_LOG_AREAS) ;; Ok (existsb (fun b => b) l)
    | None => UB
    end
  else Ok false.

(** [vsprintf] into a block of 1024 bytes: the message and its NUL must fit *)
Definition vsprintf (msg : list N) : res (list N) := if length msg <? 1024 then Ok msg else UB.
(** ["%-9s"] *)
Definition pad9 (s : list N) : list N := s ++ repeat 32%N (9 - length s).
(** src/logging.c:122-137: what is written to standard error *)
Definition log_debug (g : logger) (module : option (list N)) (a : log_area) (msg : list N) : res (list N) :=
  on <- is_debug_logging g a ;;
  if on then m <- vsprintf msg ;; Ok (91%N :: pad9 (shorten_module module) ++ [93; 32]%N ++ m) else Ok [].
(** src/logging.c:141-154 *)
Definition log_debug_cont (g : logger) (a : log_area) (msg : list N) : res (list N) :=
  on <- is_debug_logging g a ;;
  if on then vsprintf msg else Ok [].

(** src/input.c:151-155: the message about the outcome of a rule, in quotes *)
Definition log_replaced (g : logger) (newtext : list N) : res (list N) := log_debug_cont g REGEXP (34%N :: newtext ++ [34; 10]%N).
