(** * Model of src/cmdline.c and of the yes/no words of src/tools.c *)
From Coq Require Import List Arith NArith ZArith Bool.
From Verif Require Import Base Model_Shape Model_Regex Model_Query.
Import ListNotations.
Local Open Scope N_scope.

(** A [char *] into an argument is the rest of the argument; the list ends before the NUL. [*p] and [p[1]]; [++p]:
    moving the pointer behind the NUL, or reading there, is [UB]. *)
Definition cur (p : list N) : N := hd 0 p.
Definition nxt (p : list N) : res N := match p with [] => UB | [_] => Ok 0 | _ :: c :: _ => Ok c end.
(** [p[1] == '\0'] *)
Definition ends (p : list N) : res bool := match p with [] => UB | [_] => Ok true | _ :: _ :: _ => Ok false end.
Definition adv (p : list N) : res (list N) := match p with [] => UB | _ :: r => Ok r end.

(** ** strtol, base 10, 64-bit long. Result: value, the rest (what [endptr] gets), whether errno is set to ERANGE.
       Without digits: 0, the whole string, no error (as in glibc). *)
Definition is_space (c : N) : bool := ((9 <=? c) && (c <=? 13)) || (c =? 32).
Fixpoint skip_space (s : list N) : list N := match s with c :: r => if is_space c then skip_space r else s | [] => [] end.
Fixpoint digits (s : list N) (acc : Z) : Z * list N :=
  match s with
  | c :: r => if digit c then digits r (acc * 10 + (Z.of_N c - 48))%Z else (acc, s)
  | [] => (acc, [])
  end.
Definition LONG_MAX : Z := 9223372036854775807.
Definition LONG_MIN : Z := (-9223372036854775808).
Definition strtol (s : list N) : Z * list N * bool :=
  let s1 := skip_space s in
  let '(neg, s2) := match s1 with c :: r => if c =? 45 then (true, r) else if c =? 43 then (false, r) else (false, s1) | [] => (false, []) end in
  match s2 with
  | c :: _ =>
      if digit c then
        let '(v, r) := digits s2 0%Z in
        let v' := if neg then (- v)%Z else v in
        if (LONG_MAX <? v')%Z then (LONG_MAX, r, true) else if (v' <? LONG_MIN)%Z then (LONG_MIN, r, true) else (v', r, false)
      else (0%Z, s, false)
  | [] => (0%Z, s, false)
  end.
(** [(int)] of a long: the low 32 bits (implementation-defined in C; so with gcc and clang) *)
Definition to_int (z : Z) : Z := ((z + 2147483648) mod 4294967296 - 2147483648)%Z.

(** ** The options (src/boxes.in.h:128-160), in groups; the design name (-d) and the file names stay text.
       Flags are booleans; [o_debug] are the log areas. *)
Record aligns : Type := mkAligns { a_h : N; a_v : N; a_j : N }.
Record pads : Type := mkPads { p_top : Z; p_right : Z; p_bottom : Z; p_left : Z }.
Record sizes : Type := mkSizes { s_w : Z; s_h : Z }.
Record tabs : Type := mkTabs { t_stop : Z; t_exp : N }.
Record removal : Type := mkRemoval { r_remove : bool; r_mend : Z; r_kill : Z; r_indent : N }.
Record source : Type := mkSource { c_cld : option (list N); c_design : option (list N); c_by_user : bool; c_file : option (list N) }.
Record output : Type := mkOutput { o_eol : list N; o_eol_set : bool; o_color : N; o_encoding : option (list N) }.
Record modes : Type := mkModes { m_help : bool; m_version : bool; m_list : bool; m_query : option (list (list N)); m_undoc : bool; m_debug : list bool }.
Record settings : Type := mkSettings { g_align : aligns; g_pad : pads; g_size : sizes; g_tab : tabs; g_rem : removal; g_src : source; g_out : output; g_mode : modes }.

Definition with_align (g : settings) (a : aligns) := mkSettings a (g_pad g) (g_size g) (g_tab g) (g_rem g) (g_src g) (g_out g) (g_mode g).
Definition with_pad (g : settings) (a : pads) := mkSettings (g_align g) a (g_size g) (g_tab g) (g_rem g) (g_src g) (g_out g) (g_mode g).
Definition with_size (g : settings) (a : sizes) := mkSettings (g_align g) (g_pad g) a (g_tab g) (g_rem g) (g_src g) (g_out g) (g_mode g).
Definition with_tab (g : settings) (a : tabs) := mkSettings (g_align g) (g_pad g) (g_size g) a (g_rem g) (g_src g) (g_out g) (g_mode g).
Definition with_rem (g : settings) (a : removal) := mkSettings (g_align g) (g_pad g) (g_size g) (g_tab g) a (g_src g) (g_out g) (g_mode g).
Definition with_src (g : settings) (a : source) := mkSettings (g_align g) (g_pad g) (g_size g) (g_tab g) (g_rem g) a (g_out g) (g_mode g).
Definition with_out (g : settings) (a : output) := mkSettings (g_align g) (g_pad g) (g_size g) (g_tab g) (g_rem g) (g_src g) a (g_mode g).
Definition with_mode (g : settings) (a : modes) := mkSettings (g_align g) (g_pad g) (g_size g) (g_tab g) (g_rem g) (g_src g) (g_out g) a.

(** src/boxes.in.h:163-165 *)
Definition force_monochrome : N := 0.
Definition color_from_terminal : N := 1.
Definition force_ansi_color : N := 2.
(** src/cmdline.c:48,51 *)
Definition DEF_TABSTOP : Z := 8.
Definition MAX_TABSTOP : Z := 16.
(** src/cmdline.c:122-141 *)
Definition create_new_opt : settings :=
  mkSettings (mkAligns 0 0 0) (mkPads (-1) (-1) (-1) (-1)) (mkSizes 0 0) (mkTabs DEF_TABSTOP 101) (mkRemoval false 0 (-1) 0)
    (mkSource None None false None) (mkOutput [10] false color_from_terminal None) (mkModes false false false None false [false; false; false; false; false]).

(** ** -a: src/cmdline.c:151-230 *)
(** a character in either case *)
Definition either (c l : N) : bool := (c =? l) || (c =? l - 32).
Definition one_of3 (c x y z : N) : option N := if either c x then Some x else if either c y then Some y else if either c z then Some z else None.
(** one round of the loop for [*p <> 0]: the settings and the pointer after it, [None] for [errfl = 1] *)
Definition align_round (a : aligns) (p : list N) : res (option (aligns * list N)) :=
  let c := cur p in
  e <- ends p ;;
  n <- nxt p ;;
  if e && negb (match one_of3 c 108 99 114 with Some _ => true | None => false end) then Ok None
  else if either c 104 then
    match one_of3 n 99 108 114 with
    | Some v => q <- adv p ;; q' <- adv q ;; Ok (Some (mkAligns v (a_v a) (a_j a), q'))
    | None => Ok None
    end
  else if either c 118 then
    match one_of3 n 99 116 98 with
    | Some v => q <- adv p ;; q' <- adv q ;; Ok (Some (mkAligns (a_h a) v (a_j a), q'))
    | None => Ok None
    end
  else if either c 106 then
    match one_of3 n 108 99 114 with
    | Some v => q <- adv p ;; q' <- adv q ;; Ok (Some (mkAligns (a_h a) (a_v a) v, q'))
    | None => Ok None
    end
  else
    match one_of3 c 108 114 99 with
    | Some v => q <- adv p ;; Ok (Some (mkAligns v 99 v, q))
    | None => Ok None
    end.
(** the loop; [first] is the initial [errfl = 1], which makes the empty string illegal *)
Fixpoint align_loop (fuel : nat) (first : bool) (a : aligns) (p : list N) : res aligns :=
  match fuel with
  | O => Fuel
  | S f =>
      if is_nil p then (if first then Err else Ok a)
      else
        r <- align_round a p ;;
        match r with None => Err | Some (a', q) => align_loop f false a' q end
  end.
Definition alignment (a : aligns) (arg : list N) : res aligns := align_loop (S (length arg)) true a arg.

(** ** -e: src/cmdline.c:276-297; -c: 235-255 (without lack of memory); -d: 257-275 *)
Definition eol_override (eol : list N) (arg : list N) : res (list N) :=
  if same_nocase arg [67; 82; 76; 70] then Ok [13; 10]
  else if same_nocase arg [76; 70] then Ok [10]
  else if same_nocase arg [67; 82] then Ok [13]
  else Err.
Definition command_line_design (s : source) (arg : list N) : res source :=
  if is_nil arg then Err else Ok (mkSource (Some arg) (c_design s) true (c_file s)).

(** strncasecmp (a, b, n) == 0 for strings that end with NUL *)
Fixpoint strncasecmp0 (a b : list N) (n : nat) : bool :=
  match n with
  | O => true
  | S m =>
      match a, b with
      | [], [] => true
      | x :: a', y :: b' => (lower x =? lower y) && strncasecmp0 a' b' m
      | _, _ => false
      end
  end.
(** strncmp (a, b, n) == 0 *)
Fixpoint strncmp0 (a b : list N) (n : nat) : bool :=
  match n with
  | O => true
  | S m =>
      match a, b with
      | [], [] => true
      | x :: a', y :: b' => (x =? y) && strncmp0 a' b' m
      | _, _ => false
      end
  end.
(** ** -i: src/cmdline.c:302-327 *)
Definition indentation_mode (arg : list N) : res N :=
  let optlen := length arg in
  if (optlen <=? 3)%nat && strncasecmp0 [98; 111; 120] arg optlen then Ok 98
  else if (optlen <=? 4)%nat && strncasecmp0 [116; 101; 120; 116] arg optlen then Ok 116
  else if (optlen <=? 4)%nat && strncasecmp0 [110; 111; 110; 101] arg optlen then Ok 110
  else Err.

(** src/tools.c:76-110, 114-148 *)
Definition strisyes (s : list N) : bool :=
  strncasecmp0 [111; 110] s 3 || strncasecmp0 [121; 101; 115] s 4 || strncasecmp0 [116; 114; 117; 101] s 5 || strncmp0 [49] s 2 || strncasecmp0 [116] s 2.
Definition strisno (s : list N) : bool :=
  strncasecmp0 [111; 102; 102] s 4 || strncasecmp0 [110; 111] s 3 || strncasecmp0 [102; 97; 108; 115; 101] s 6 || strncmp0 [48] s 2 || strncasecmp0 [102] s 2.
(** ** -k: src/cmdline.c:336-351 *)
Definition killblank (k : Z) (arg : list N) : res Z :=
  if (k =? -1)%Z then (if strisyes arg then Ok 1%Z else if strisno arg then Ok 0%Z else Err) else Ok k.

(** ** -p: src/cmdline.c:361-416 *)
Definition set_pad (p : pads) (c : N) (size : Z) : option pads :=
  if either c 97 then Some (mkPads size size size size)
  else if either c 104 then Some (mkPads (p_top p) size (p_bottom p) size)
  else if either c 118 then Some (mkPads size (p_right p) size (p_left p))
  else if either c 116 then Some (mkPads size (p_right p) (p_bottom p) (p_left p))
  else if either c 108 then Some (mkPads (p_top p) (p_right p) (p_bottom p) size)
  else if either c 98 then Some (mkPads (p_top p) (p_right p) size (p_left p))
  else if either c 114 then Some (mkPads (p_top p) size (p_bottom p) (p_left p))
  else None.
Fixpoint pad_loop (fuel : nat) (first : bool) (a : pads) (p : list N) : res pads :=
  match fuel with
  | O => Fuel
  | S f =>
      if is_nil p then (if first then Err else Ok a)
      else
        e <- ends p ;;
        if (e : bool) then Err
        else
          q <- adv p ;;
          let '(v, r, range) := strtol q in
          let size := to_int v in
          if range || (size <? 0)%Z then Err
          else match set_pad a (cur p) size with None => Err | Some a' => pad_loop f false a' r end
  end.
Definition padding (a : pads) (arg : list N) : res pads := pad_loop (S (length arg)) true a arg.

(** ** -s: src/cmdline.c:441-466. strchr: text before and after the first such character *)
Fixpoint split_at (c : N) (s : list N) : option (list N * list N) :=
  match s with
  | [] => None
  | x :: r => if x =? c then Some ([], r) else match split_at c r with None => None | Some (a, b) => Some (x :: a, b) end
  end.
Definition size_of_box (z : sizes) (arg : list N) : res sizes :=
  let cut := match split_at 120 arg with Some c => Some c | None => split_at 88 arg end in
  let '(z1, e1) :=
    match cut with
    | Some ([], _) => (z, false)
    | Some (a, _) => let '(v, _, e) := strtol a in (mkSizes v (s_h z), e)
    | None => let '(v, _, e) := strtol arg in (mkSizes v (s_h z), e)
    end in
  let '(z2, e2) :=
    match cut with
    | Some (_, b) => let '(v, _, e) := strtol b in (mkSizes (s_w z1) v, e)
    | None => (z1, false)
    end in
  if e1 || e2 || ((s_w z2 =? 0)%Z && (s_h z2 =? 0)%Z) || (s_w z2 <? 0)%Z || (s_h z2 <? 0)%Z then Err else Ok z2.

(** ** -t: src/cmdline.c:521-562 *)
Definition tab_handling (t : tabs) (arg : list N) : res tabs :=
  let '(v, p, _) := strtol arg in
  let width := to_int v in
  if (width <? 1)%Z || (MAX_TABSTOP <? width)%Z then Err
  else if is_nil p then Ok (mkTabs width (t_exp t))
  else
    e <- ends p ;;
    if negb e then Err
    else match one_of3 (cur p) 101 107 117 with Some m => Ok (mkTabs width m) | None => Err end.

(** ** -x: src/cmdline.c:470-512, 566-609; src/logging.c:30, 66-110. The log areas MAIN to DISCOVERY are numbered from 0. *)
Definition area_names : list (list N) :=
  [ [77; 65; 73; 78]; [82; 69; 71; 69; 88; 80]; [80; 65; 82; 83; 69; 82]; [76; 69; 88; 69; 82]; [68; 73; 83; 67; 79; 86; 69; 82; 89] ].
Definition area_all : list N := [65; 76; 76].
Fixpoint set_areas (names : list (list N)) (area : list N) (on : list bool) : option (list bool) :=
  match names, on with
  | n :: names', b :: on' => if same_nocase area n then Some (true :: on') else match set_areas names' area on' with Some l => Some (b :: l) | None => None end
  | _, _ => None
  end.
Fixpoint debug_areas (areas : list (list N)) (on : list bool) : res (list bool) :=
  match areas with
  | [] => Ok on
  | a :: r =>
      let t := trimdup a in
      if is_nil t then debug_areas r on
      else if same_nocase t area_all then debug_areas r (map (fun _ => true) on)
      else match set_areas area_names t on with Some on' => debug_areas r on' | None => Err end
  end.
(** [active]: whether debug logging has been activated before with some area ([is_debug_activated]) *)
Definition undocumented_options (m : modes) (active : bool) (arg : list N) : res (modes * bool) :=
  let undoc := strncmp0 arg [40; 117; 110; 100; 111; 99; 41] 7 in
  let s := if undoc then skipn 7 arg else arg in
  let m1 := mkModes (m_help m) (m_version m) (m_list m) (m_query m) (undoc || m_undoc m) (m_debug m) in
  r <- (if strncasecmp0 s [100; 101; 98; 117; 103] 5 then
          on <- (match skipn 5 s with
                 | [] => debug_areas [[77; 65; 73; 78]] (m_debug m)
                 | c :: t => if c =? 58 then debug_areas (strtok_all t) (m_debug m) else Err
                 end) ;;
          Ok (mkModes (m_help m1) (m_version m1) (m_list m1) (m_query m1) (m_undoc m1) on, existsb (fun b => b) on)
        else Ok (m1, active)) ;;
  let '(m2, active') := r in
  if negb (m_undoc m2) && negb active' then Err else Ok (m2, active').

(** ** The loop over the options: src/cmdline.c:782-942. What getopt_long returns is a parameter: the options in order
       with their arguments. [ItError] stands for ['?'] and [':']. *)
Inductive item : Type :=
| ItA (arg : list N) | ItC (arg : list N) | ItColor | ItNoColor | ItD (arg : list N) | ItE (arg : list N) | ItF (arg : list N)
| ItHelp | ItI (arg : list N) | ItK (arg : list N) | ItKillBlank | ItNoKillBlank | ItL | ItM | ItN (arg : list N)
| ItP (arg : list N) | ItQ (arg : list N) | ItR | ItS (arg : list N) | ItT (arg : list N) | ItV | ItX (arg : list N) | ItError.

(** One option: the settings after it, and whether the function returns at once (-h, -v) *)
Definition do_item (g : settings) (active : bool) (i : item) : res (settings * bool * bool) :=
  let ok (g' : settings) : res (settings * bool * bool) := Ok (g', active, false) in
  match i with
  | ItA arg => a <- alignment (g_align g) arg ;; ok (with_align g a)
  | ItC arg => s <- command_line_design (g_src g) arg ;; ok (with_src g s)
  | ItColor => ok (with_out g (mkOutput (o_eol (g_out g)) (o_eol_set (g_out g)) force_ansi_color (o_encoding (g_out g))))
  | ItNoColor => ok (with_out g (mkOutput (o_eol (g_out g)) (o_eol_set (g_out g)) force_monochrome (o_encoding (g_out g))))
  | ItD arg => ok (with_src g (mkSource (c_cld (g_src g)) (Some arg) true (c_file (g_src g))))
  | ItE arg => e <- eol_override (o_eol (g_out g)) arg ;; ok (with_out g (mkOutput e true (o_color (g_out g)) (o_encoding (g_out g))))
  | ItF arg => ok (with_src g (mkSource (c_cld (g_src g)) (c_design (g_src g)) (c_by_user (g_src g)) (Some arg)))
  | ItHelp => Ok (with_mode g (mkModes true (m_version (g_mode g)) (m_list (g_mode g)) (m_query (g_mode g)) (m_undoc (g_mode g)) (m_debug (g_mode g))), active, true)
  | ItI arg => m <- indentation_mode arg ;; ok (with_rem g (mkRemoval (r_remove (g_rem g)) (r_mend (g_rem g)) (r_kill (g_rem g)) m))
  | ItK arg => k <- killblank (r_kill (g_rem g)) arg ;; ok (with_rem g (mkRemoval (r_remove (g_rem g)) (r_mend (g_rem g)) k (r_indent (g_rem g))))
  | ItKillBlank => ok (with_rem g (mkRemoval (r_remove (g_rem g)) (r_mend (g_rem g)) (if (r_kill (g_rem g) =? -1)%Z then 1%Z else r_kill (g_rem g)) (r_indent (g_rem g))))
  | ItNoKillBlank => ok (with_rem g (mkRemoval (r_remove (g_rem g)) (r_mend (g_rem g)) (if (r_kill (g_rem g) =? -1)%Z then 0%Z else r_kill (g_rem g)) (r_indent (g_rem g))))
  | ItL => ok (with_mode g (mkModes (m_help (g_mode g)) (m_version (g_mode g)) true (m_query (g_mode g)) (m_undoc (g_mode g)) (m_debug (g_mode g))))
  | ItM => ok (with_rem g (mkRemoval true 2%Z 0%Z (r_indent (g_rem g))))
  | ItN arg => ok (with_out g (mkOutput (o_eol (g_out g)) (o_eol_set (g_out g)) (o_color (g_out g)) (Some arg)))
  | ItP arg => p <- padding (g_pad g) arg ;; ok (with_pad g p)
  | ItQ arg =>
      match parse_query arg with
      | Some q => ok (with_mode g (mkModes (m_help (g_mode g)) (m_version (g_mode g)) (m_list (g_mode g)) (Some q) (m_undoc (g_mode g)) (m_debug (g_mode g))))
      | None => Err
      end
  | ItR => ok (with_rem g (mkRemoval true (r_mend (g_rem g)) (r_kill (g_rem g)) (r_indent (g_rem g))))
  | ItS arg => z <- size_of_box (g_size g) arg ;; ok (with_size g z)
  | ItT arg => t <- tab_handling (g_tab g) arg ;; ok (with_tab g t)
  | ItV => Ok (with_mode g (mkModes (m_help (g_mode g)) true (m_list (g_mode g)) (m_query (g_mode g)) (m_undoc (g_mode g)) (m_debug (g_mode g))), active, true)
  | ItX arg => r <- undocumented_options (g_mode g) active arg ;; let '(m, active') := r in Ok (with_mode g m, active', false)
  | ItError => Err
  end.
Fixpoint do_items (g : settings) (active : bool) (items : list item) : res (settings * bool) :=
  match items with
  | [] => Ok (g, false)
  | i :: r => x <- do_item g active i ;; let '(g', active', stop) := x in if stop then Ok (g', true) else do_items g' active' r
  end.

(** ** Files: src/cmdline.c:632-679. [can_read] and [can_write] say whether fopen succeeds. [None] is stdin/stdout. *)
Inductive files : Type := Files (infile outfile : option (list N)).
Definition dash (s : list N) : bool := Neq_list s [45].
Definition input_output_files (can_read can_write : list N -> bool) (args : list (list N)) : res files :=
  match args with
  | [] => Ok (Files None None)
  | _ :: _ :: _ :: _ => Err
  | i :: r =>
      if negb (dash i) && negb (can_read i) then Err
      else
        let inf := if dash i then None else Some i in
        match r with
        | [] => Ok (Files inf None)
        | o :: _ => if dash o then Ok (Files inf None) else if can_write o then Ok (Files inf (Some o)) else Err
        end
  end.

(** src/cmdline.c:732-955: [question] is "the first argument is -?"; [rest] are the arguments that are not options *)
Definition process_commandline (can_read can_write : list N -> bool) (question : bool) (items : list item) (rest : list (list N)) : res (settings * option files) :=
  if question then
    Ok (with_mode create_new_opt (mkModes true false false None false [false; false; false; false; false]), None)
  else
    x <- do_items create_new_opt false items ;;
    let '(g, stop) := x in
    if (stop : bool) then Ok (g, None) else fs <- input_output_files can_read can_write rest ;; Ok (g, Some fs).

(** What the drawing functions see of the settings (src/boxes.in.h:128-160); they take 0 as the default alignment *)
Definition opts_of (g : settings) : opts :=
  mkOpts (t_exp (g_tab g)) (Z.to_nat (t_stop (g_tab g))) (a_h (g_align g)) (a_v (g_align g)) (a_j (g_align g))
    (Z.to_nat (s_w (g_size g))) (Z.to_nat (s_h (g_size g))) (p_top (g_pad g)) (p_right (g_pad g)) (p_bottom (g_pad g)) (p_left (g_pad g)).
