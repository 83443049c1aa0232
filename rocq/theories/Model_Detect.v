(** * Model of src/detect.c: comparing text with shapes, and design autodetection *)
From Coq Require Import List Arith NArith ZArith Bool.
From Verif Require Import Base Model_Unicode Model_Bxs Model_Shape.
Import ListNotations.

(** src/detect.h:30-42 *)
Inductive comparison_t : Type := literal | ignore_invisible_input | ignore_invisible_shape | ignore_invisible_all.
(** the order of [for (comp_type = 0; comp_type < NUM_COMPARISON_TYPES; comp_type++)] *)
Definition comp_types : list comparison_t :=
  [literal; ignore_invisible_input; ignore_invisible_shape; ignore_invisible_all].
(** does the comparison type drop invisible characters of the input / of the shapes? *)
Definition drops_input (ct : comparison_t) : bool :=
  match ct with ignore_invisible_input | ignore_invisible_all => true | _ => false end.
Definition drops_shape (ct : comparison_t) : bool :=
  match ct with ignore_invisible_shape | ignore_invisible_all => true | _ => false end.

(** src/detect.c:62-73 *)
Definition input_is_mono (inp : input) : bool :=
  forallb (fun l => num_chars_invisible (l_text l) =? 0) (i_lines inp).

(** src/detect.c:77-93; the lines of a shape are read up to its height *)
Definition design_is_mono (d : design) : bool :=
  forallb (fun i => isempty (d_shape d i) ||
                    forallb (fun l => num_chars_invisible l =? 0)
                            (firstn (s_height (d_shape d i)) (s_mbcs (d_shape d i)))) (seq 0 16).

(** src/detect.c:97-108 *)
Definition comp_type_is_viable (ct : comparison_t) (mono_input mono_design : bool) : bool :=
  match ct with
  | literal => Bool.eqb mono_input mono_design
  | ignore_invisible_input => negb (mono_input || negb mono_design)
  | ignore_invisible_shape => negb (negb mono_input || mono_design)
  | ignore_invisible_all => negb (mono_input || mono_design)
  end.

(** [set_char_at (s, k, char_nul)] on a fresh copy of a string *)
Definition cut_at (s : list N) (k : nat) : res (list N) :=
  if length s <? k then UB else Ok (firstn k s).
(** the string at [s + k] *)
Definition at_off (s : list N) (k : nat) : res (list N) :=
  if length s <? k then UB else Ok (skipn k s).

(** src/detect.c:140-174. [Err] is the NULL result for a line number out of range. *)
Definition prepare_comp_shape (s : sentry) (idx : nat) (ct : comparison_t) (trim_left trim_right : bool)
  : res (list N) :=
  if s_height s <=? idx then Err
  else
    l <- rd (s_mbcs s) idx ;;
    let lt := if trim_left then indent l else 0 in
    if drops_shape ct && (0 <? num_chars_invisible l) then
      v <- bxs_filter_visible l ;;
      r <- at_off v lt ;;
      if trim_right && (0 <? trailing l) then
        k1 <- subz (num_chars_visible l) lt ;; k <- subz k1 (trailing l) ;; cut_at r k
      else Ok r
    else
      r <- (if trim_left then bxs_unindent_ptr l else Ok (memory l)) ;;
      if trim_right && (0 <? trailing l) then
        k1 <- subz (num_chars_visible l) lt ;; k <- subz k1 (trailing l) ;;
        p <- rd (first_char l) k ;; cut_at r p
      else Ok r.

(** src/detect.c:178-240 with [offset_right == 0]: the string. The cache of the visible text is left out: it always
    holds [bxs_filter_visible] of the line's text. *)
Definition comp_input (inp : input) (idx : nat) (trim_left : bool) (ct : comparison_t) : res (list N) :=
  match nth_error (i_lines inp) idx with
  | None => Err
  | Some l =>
      let b := l_text l in
      if drops_input ct then v <- bxs_filter_visible b ;; at_off v (if trim_left then indent b else 0)
      else if trim_left then bxs_unindent_ptr b else Ok (memory b)
  end.
(** ... and [*out_indent], [*out_trailing] for [trim_left == 0] *)
Definition comp_input_ends (inp : input) (idx : nat) (ct : comparison_t) : res (nat * nat) :=
  match nth_error (i_lines inp) idx with
  | None => Err
  | Some l =>
      let b := l_text l in
      if drops_input ct then Ok (indent b, trailing b)
      else
        i <- rd (first_char b) (indent b) ;;
        k <- subz (num_chars_visible b) (trailing b) ;;
        p <- rd (first_char b) k ;;
        t <- subz (num_chars b) p ;;
        Ok (i, t)
  end.

(** src/detect.c:178-240 with [trim_left == 0] and no output pointers; [None] is the NULL result when the line
    is too short (in C a pointer in front of the string is formed and compared, which is not treated as
    undefined here) *)
Definition comp_input_right (inp : input) (idx : nat) (ct : comparison_t) (off : nat) : res (option (list N)) :=
  match nth_error (i_lines inp) idx with
  | None => Err
  | Some l =>
      let b := l_text l in
      if off =? 0 then r <- comp_input inp idx false ct ;; Ok (Some r)
      else
      k <- subz (num_chars_visible b) (trailing b) ;;
      if drops_input ct then
        v <- bxs_filter_visible b ;;
        if k <? off then Ok None else r <- at_off v (k - off) ;; Ok (Some r)
      else
        p <- rd (first_char b) k ;;
        if p <? off then Ok None else r <- at_off (memory b) (p - off) ;; Ok (Some r)
  end.

Section WithTables.
Variable U : uctab.

(** src/shape.c:330-459 [is_blankward]; the cache is left out. A shape's [name] field is its index
    (src/parsecode.c:592-594, src/boxes.c:115,162). *)
Definition in_side (l : list nat) (with_corners : bool) (i : nat) : bool :=
  existsb (Nat.eqb i) (if with_corners then l else firstn 3 (skipn 1 l)).
Fixpoint pos_in (l : list nat) (i : nat) : option nat :=
  match l with
  | [] => None
  | x :: r => if x =? i then Some 0 else match pos_in r i with Some k => Some (S k) | None => None end
  end.
Definition south_side_rev := [SW; SSW; S_; SSE; SE].
Fixpoint all_blank_at (d : design) (idx : nat) (l : list nat) : res bool :=
  match l with
  | [] => Ok true
  | i :: r =>
      let s := d_shape d i in
      if is_nil (s_mbcs s) then all_blank_at d idx r
      else
        m <- rd (s_mbcs s) idx ;; b <- bxs_is_blank U m ;;
        if b then all_blank_at d idx r else Ok false
  end.
Definition is_blankward (d : design) (shape idx : nat) (leftward : bool) : res bool :=
  if s_height (d_shape d shape) <=? idx then Ok false
  else if in_side west_side leftward shape then Ok leftward
  else if in_side east_side (negb leftward) shape then Ok (negb leftward)
  else
    let side_pos := match pos_in north_side shape with
                    | Some k => Some (north_side, k)
                    | None => match pos_in south_side_rev shape with
                              | Some k => Some (south_side_rev, k)
                              | None => None
                              end
                    end in
    match side_pos with
    | Some (side, k) => all_blank_at d idx (if leftward then firstn k side else skipn (S k) side)
    | None => UB
    end.

(** [total f n]: sum of [f 0 .. f (n - 1)] *)
Fixpoint total (f : nat -> res nat) (l : list nat) : res nat :=
  match l with
  | [] => Ok 0
  | k :: r => a <- f k ;; b <- total f r ;; Ok (a + b)
  end.

(** Numbers of the input lines that are compared with a shape of height [h] on the top side ([bottom = false]) or
    the bottom side. In C, [a += num_lines - height] wraps for a shape higher than the input, so that the loop ends
    at once. *)
Definition probe_lines (inp : input) (h : nat) (bottom : bool) : list nat :=
  let n := i_num_lines inp in
  if bottom then (if n <? h then [] else seq (n - h) h) else seq 0 (Nat.min h n).

(** Apply [f] to the lines of a shape that are not blank *)
Definition per_line (s : sentry) (f : nat -> res nat) : res nat :=
  total (fun j => m <- rd (s_mbcs s) j ;; b <- bxs_is_blank U m ;; if b then Ok 0 else f j) (seq 0 (s_height s)).

(** src/detect.c:257-292 *)
Definition find_west_corner (d : design) (inp : input) (ct : comparison_t) (c : nat) : res nat :=
  let sarr := d_shape d in
  if empty_side sarr BLEF || (empty_side sarr BTOP && (c =? NW)) || (empty_side sarr BBOT && (c =? SW)) then Ok 0
  else per_line (sarr c) (fun j =>
    sh <- must (prepare_comp_shape (sarr c) j ct true false) ;;
    total (fun a =>
      t <- must (comp_input inp a true ct) ;;
      Ok (if strncmp0 (length sh) t sh then 1 else 0))
      (probe_lines inp (s_height (sarr c)) (c =? SW))).

(** src/detect.c:305-341 *)
Definition find_east_corner (d : design) (inp : input) (ct : comparison_t) (c : nat) : res nat :=
  let sarr := d_shape d in
  if empty_side sarr BRIG || (empty_side sarr BTOP && (c =? NE)) || (empty_side sarr BBOT && (c =? SE)) then Ok 0
  else per_line (sarr c) (fun j =>
    sh <- must (prepare_comp_shape (sarr c) j ct false true) ;;
    total (fun a =>
      x <- comp_input_right inp a ct (length sh) ;;
      Ok (match x with Some t => if strncmp0 (length sh) t sh then 1 else 0 | None => 0 end))
      (probe_lines inp (s_height (sarr c)) (c =? SE))).

(** src/detect.c:354-405 *)
Definition find_horizontal_shape (d : design) (inp : input) (ct : comparison_t) (c : nat) : res nat :=
  let sarr := d_shape d in
  if empty_side sarr BTOP || empty_side sarr BBOT then Ok 0
  else per_line (sarr c) (fun j =>
    bl <- is_blankward d c j true ;;
    br <- is_blankward d c j false ;;
    sh <- must (prepare_comp_shape (sarr c) j ct bl br) ;;
    total (fun a =>
      t <- must (comp_input inp a true ct) ;;
      Ok (match u32_strstr t sh with
          | None => 0
          | Some p =>
              if s_elastic (sarr c) then
                if length t <=? p + length sh then 0
                else if strncmp0 (length sh) (skipn (p + length sh) t) sh then 1 else 0
              else 1
          end))
      (probe_lines inp (s_height (sarr c)) ((SSE <=? c) && (c <=? SSW)))).

(** Input lines between the top and the bottom part *)
Definition body_lines (d : design) (inp : input) : list nat :=
  let sarr := d_shape d in
  let t := if empty_side sarr BTOP then 0 else s_height (sarr NW) in
  let b := if empty_side sarr BBOT then 0 else s_height (sarr SW) in
  seq t (i_num_lines inp - b - t).

(** src/detect.c:418-454: one hit per input line; the shape lines are tried in turn *)
Fixpoint west_hit (s : sentry) (ct : comparison_t) (t : list N) (js : list nat) : res nat :=
  match js with
  | [] => Ok 0
  | j :: r =>
      m <- rd (s_mbcs s) j ;; b <- bxs_is_blank U m ;;
      if b then west_hit s ct t r
      else
        sh <- must (prepare_comp_shape s j ct true false) ;;
        if strncmp0 (length sh) t sh then Ok 1 else west_hit s ct t r
  end.
Definition find_vertical_west (d : design) (inp : input) (ct : comparison_t) (c : nat) : res nat :=
  let s := d_shape d c in
  if isempty s then Ok 0
  else total (fun k => t <- must (comp_input inp k true ct) ;; west_hit s ct t (seq 0 (s_height s)))
             (body_lines d inp).

(** src/detect.c:467-502: one hit per shape line; the input lines are tried in turn *)
Fixpoint east_hit (inp : input) (ct : comparison_t) (sh : list N) (ks : list nat) : res nat :=
  match ks with
  | [] => Ok 0
  | k :: r =>
      x <- comp_input_right inp k ct (length sh) ;;
      match x with
      | Some t => if strncmp0 (length sh) t sh then Ok 1 else east_hit inp ct sh r
      | None => east_hit inp ct sh r
      end
  end.
Definition find_vertical_east (d : design) (inp : input) (ct : comparison_t) (c : nat) : res nat :=
  let s := d_shape d c in
  if isempty s || is_nil (body_lines d inp) then Ok 0
  else per_line s (fun j => sh <- must (prepare_comp_shape s j ct true true) ;; east_hit inp ct sh (body_lines d inp)).

(** src/detect.c:506-544 *)
Definition shape_hits (d : design) (inp : input) (ct : comparison_t) (c : nat) : res nat :=
  if (c =? NW) || (c =? SW) then find_west_corner d inp ct c
  else if (c =? NE) || (c =? SE) then find_east_corner d inp ct c
  else if existsb (Nat.eqb c) [NNW; N_; NNE; SSE; S_; SSW] then find_horizontal_shape d inp ct c
  else if existsb (Nat.eqb c) [ENE; E_; ESE] then find_vertical_east d inp ct c
  else find_vertical_west d inp ct c.
Definition match_design (d : design) (inp : input) (ct : comparison_t) : res nat :=
  total (shape_hits d inp ct) (seq 0 16).
End WithTables.

(** src/detect.c:557-575: the loop over the designs for one comparison type. [score] stands for [match_design],
    [viable] for [comp_type_is_viable]; the state is the number of the best design so far and its hits. *)
Fixpoint scan_designs {D : Type} (viable : D -> bool) (score : D -> res nat) (ds : list D) (i : nat)
    (st : option nat * nat) : res (option nat * nat) :=
  match ds with
  | [] => Ok st
  | d :: r =>
      if viable d then
        h <- score d ;;
        scan_designs viable score r (S i) (if snd st <? h then (Some i, h) else st)
      else scan_designs viable score r (S i) st
  end.

(** src/detect.c:556-579 *)
Fixpoint scan_types {D : Type} (viable : comparison_t -> D -> bool) (score : comparison_t -> D -> res nat)
    (ds : list D) (cts : list comparison_t) (st : option nat * nat) : res (option nat * nat) :=
  match cts with
  | [] => Ok st
  | ct :: r =>
      st' <- scan_designs (viable ct) (score ct) ds 0 st ;;
      if 2 <? snd st' then Ok st' else scan_types viable score ds r st'
  end.

(** src/detect.c:548-590: number of the detected design; [None] is NULL *)
Definition autodetect_design (U : uctab) (inp : input) (ds : list design) : res (option nat) :=
  let mono_input := input_is_mono inp in
  st <- scan_types (fun ct d => comp_type_is_viable ct mono_input (design_is_mono d))
                   (fun ct d => match_design U d inp ct) ds comp_types (None, 0) ;;
  Ok (fst st).
