(** * Model of the program as a whole: src/boxes.c:179-237, 358-405, 431-566 *)
From Coq Require Import Ascii String List Arith NArith ZArith Bool.
From Verif Require Import Base Model_Unicode Model_Bxs Model_Shape Model_Input Model_Main Model_Mend Model_Query Model_Cmdline
  Model_Discovery Model_Parser Model_Cld Model_Scan Model_List.
Import ListNotations.
Local Open Scope nat_scope.
Local Open Scope list_scope.

(** Everything outside that the program looks at. It does not change while the program runs. Texts are decoded (code points).
    - [w_can_read], [w_can_write]: fopen succeeds; [w_contents]: what the file contains
    - [w_sur]: where a configuration file may be found (its field for -f is not used, the option is)
    - [w_colors]: the result of [terminal_has_colors] (src/boxes.c:415-442)
    - [w_subst]: what [u32_regex_replace] does for a rule; [None] is a failure, also to compile the pattern
    - [w_qsort]: qsort; [w_beyond]: see [findshape]; [w_origin]: the configuration file of a design
    - [w_usage], [w_version]: the texts of -h and -v (src/cmdline.c:144-227, src/boxes.c:197) *)
Record world : Type := mkWorld {
  w_can_read : list N -> bool;
  w_can_write : list N -> bool;
  w_contents : list N -> list N;
  w_stdin : list N;
  w_sur : surroundings;
  w_colors : bool;
  w_subst : rule -> list N -> option (list N);
  w_qsort : forall A : Type, (A -> A -> Z) -> list A -> list A;
  w_beyond : res sentry;
  w_origin : cdesign -> list N;
  w_usage : list N;
  w_version : list N
}.

(** How the program ends: with status 0 and this text on its output (standard output or the file named on the command line), or
    with a status other than 0 *)
Inductive ending : Type := Success (out : list N) | Failure.
(** [exit (EXIT_FAILURE)] when a step fails *)
Definition or_exit {A : Type} (r : res A) (k : A -> res ending) : res ending :=
  match r with Ok a => k a | Err => Ok Failure | UB => UB | Wrap => Wrap | Fuel => Fuel end.

(** the surroundings with the option -f *)
Definition sur_with (s : surroundings) (f : option (list N)) : surroundings :=
  mkSur (file_opens s) (dir_opens s) f (env_BOXES s) (env_HOME s) (env_XDG_CONFIG_HOME s) (GLOBALCONF s).

Section Program.
Variable U : uctab.
Variable fuel : nat.
Variable w : world.

(** src/parsecode.c:310-338: what the parser looks at; without -c, a design chosen by the user has a name *)
Definition popts_of (g : settings) : popts :=
  mkPopts (if c_by_user (g_src g) then c_design (g_src g) else None)
    (r_remove (g_rem g) || m_list (g_mode g) || (match m_query (g_mode g) with Some _ => negb (m_undoc (g_mode g)) | None => false end)).

(** src/parsing.c:163-316 on the texts of the files: designs and parents *)
Definition load_designs (g : settings) (first : list N) : res (list cdesign * list (list N)) :=
  let sur := sur_with (w_sur w) (c_file (g_src g)) in
  '(ds, known) <- parse_loop (fun f before => parse_config_text U (w_beyond w) (popts_of g) (o_eol (g_out g)) before (w_can_read w) sur
                     (if w_can_read w f then Some (w_contents w f) else None)) fuel first 0 [] [] ;;
  match ds with [] => Err | _ => Ok (ds, known) end.

(** src/boxes.c:206-229: the designs, the configuration file and its parents. A configuration file must exist even with -c. *)
Definition handle_config_parsing (g : settings) : res (list cdesign * bxstr * list (list N)) :=
  c <- discover_config_file U (sur_with (w_sur w) (c_file (g_src g))) false ;;
  match c with
  | None => Err
  | Some file =>
      match c_cld (g_src g) with
      | None => '(ds, known) <- load_designs g (memory file) ;; Ok (ds, file, known)
      | Some cld => d <- build_design U cld ;; Ok ([d], file, [])
      end
  end.

(** src/boxes.c:444-458 *)
Definition check_color_support (c : N) : bool :=
  if N.eqb c force_ansi_color then true else if N.eqb c color_from_terminal then w_colors w else false.

(** src/boxes.c:537-539: -i *)
Definition with_indentmode (m : N) (d : design) : design :=
  if N.eqb m 0 then d
  else mkDesign (d_shape d) m (d_pad_top d) (d_pad_right d) (d_pad_bottom d) (d_pad_left d) (d_minwidth d) (d_minheight d).

(** src/list.c:351-400; [opt.design] is the first design *)
Definition list_designs (g : settings) (ds : list cdesign) (file : bxstr) (parents : list (list N)) : res (list N) :=
  let color := check_color_support (o_color (g_out g)) in
  if c_by_user (g_src g) then
    d <- rd ds 0 ;; print_design_details U color (o_eol (g_out g)) (m_undoc (g_mode g)) (w_origin w d) d
  else
    ps <- mapM (fun p => must (bxs_from_unicode U p)) parents ;;
    list_all color (o_eol (g_out g)) (w_qsort w) file ps ds.

(** src/boxes.c:534-563: drawing, removing or mending, with the first design selected. [raws] are the lines of the input. *)
Definition work (g : settings) (ds : list cdesign) (raws : list (list N)) : res (list N) :=
  let o := opts_of g in
  let color := check_color_support (o_color (g_out g)) in
  let eol := o_eol (g_out g) in
  let mode := r_indent (g_rem g) in
  let all := match ds with [] => [] | d :: r => with_indentmode mode (to_design d) :: map to_design r end in
  let rules (f : cdesign -> list rule) (j : nat) := match nth_error ds j with Some d => map (w_subst w) (f d) | None => [] end in
  if (r_mend (g_rem g) =? 2)%Z then
    boxes_mend U fuel color eol o all 0 (c_by_user (g_src g)) mode (r_kill (g_rem g)) (rules c_reprules) (rules c_revrules) raws
  else if r_remove (g_rem g) then
    boxes_remove_from U eol o all 0 (c_by_user (g_src g)) mode (r_kill (g_rem g)) (rules c_revrules) raws
  else
    d <- rd all 0 ;; boxes_draw U fuel color eol o d (rules c_reprules 0) raws.

(** src/cmdline.c:632-679 and src/input.c:216-235: the lines of the input *)
Definition input_of (fs : files) : list (list N) :=
  match fs with Files None _ => raw_lines (w_stdin w) | Files (Some f) _ => raw_lines (w_contents w f) end.

(** src/boxes.c:503-566. [process_commandline] returns without having looked at the files exactly when -h or -v is given;
    their being missing otherwise would be an error of the model. *)
Definition main (question : bool) (items : list Model_Cmdline.item) (rest : list (list N)) : res ending :=
  or_exit (process_commandline (w_can_read w) (w_can_write w) question items rest) (fun '(g, files) =>
  if m_help (g_mode g) then Ok (Success (w_usage w))
  else if m_version (g_mode g) then Ok (Success (w_version w))
  else
    or_exit (handle_config_parsing g) (fun '(ds, file, parents) =>
    if m_list (g_mode g) then or_exit (list_designs g ds file parents) (fun t => Ok (Success t))
    else match m_query (g_mode g) with
    | Some (q :: r) => Ok (Success (query_by_tag (w_qsort w) (o_eol (g_out g)) (q :: r) (map entry_of ds)))
    | _ =>
        match files with
        | None => UB
        | Some fs => or_exit (work g ds (input_of fs)) (fun t => Ok (Success t))
        end
    end)).
End Program.
