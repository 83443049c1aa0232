(** * Model of src/remove.c *)
From Coq Require Import List Arith NArith ZArith Bool.
From Verif Require Import Base Model_Unicode Model_Bxs Model_Shape Model_Generate Model_Detect.
Import ListNotations.

(** src/remove.h:41-51 [shape_line_ctx_t]; [None] is a NULL text *)
Record sctx : Type := mkSctx { sc_empty : bool; sc_text : option bxstr; sc_elastic : bool }.

(** part of a string between two positions *)
Definition between (m : list N) (s e : nat) : list N := firstn (e - s) (skipn s m).

Section WithTables.
Variable U : uctab.

(** src/bxstring.c:579-591 on a pointer that may be NULL *)
Definition blank_opt (t : option bxstr) : res bool :=
  match t with None => Ok true | Some b => bxs_is_blank U b end.

(** src/remove.c:172-182 *)
Fixpoint first_nonblank (ls : list line) (i : nat) : res (option nat) :=
  match ls with
  | [] => Ok None
  | l :: r => b <- bxs_is_blank U (l_text l) ;; if b then first_nonblank r (S i) else Ok (Some i)
  end.
Definition find_first_line (inp : input) : res nat :=
  r <- first_nonblank (i_lines inp) 0 ;;
  Ok (match r with Some i => i | None => i_num_lines inp end).

(** src/remove.c:186-196; the input is never empty here *)
Definition find_last_line (inp : input) : res nat :=
  r <- first_nonblank (rev (i_lines inp)) 0 ;;
  n <- subz (i_num_lines inp) 1 ;;
  Ok (match r with Some i => n - i | None => n end).

(** src/remove.c:200-206, SHAPES_PER_SIDE = 5 *)
Definition is_shape_line_empty (sr : list sctx) (i : nat) : res bool :=
  if i <? 5 then
    s <- rd sr i ;; if sc_empty s then Ok true else blank_opt (sc_text s)
  else Ok true.

(** src/remove.c:210-219 *)
Fixpoint any_nonempty (sr : list sctx) (l : list nat) : res bool :=
  match l with
  | [] => Ok false
  | i :: r => b <- is_shape_line_empty sr i ;; if b then any_nonempty sr r else Ok true
  end.
Definition non_empty_shapes_after (sr : list sctx) (idx : nat) : res bool :=
  any_nonempty sr (seq (S idx) (3 - idx)).

(** src/remove.c:223-231 *)
Definition is_blank_between (m : list N) (s e : nat) : bool := forallb (is_blank U) (between m s e).

(** src/remove.c:251-277: the two ends after at most [n] reduction steps. The terminating NUL is not blank. *)
Definition blank_at (m : list N) (i : nat) : bool :=
  match nth_error m i with Some c => is_blank U c | None => false end.
Fixpoint shorten_loop (n : nat) (m : list N) (s e : nat) (prefer_left allow_left allow_right : bool) : nat * nat :=
  match n with
  | O => (s, e)
  | S n' =>
      let can_left := (s <? e) && blank_at m s in
      let can_right := (s <? e) && allow_right && blank_at m (e - 1) in
      if prefer_left then
        if can_left then shorten_loop n' m (S s) e prefer_left allow_left allow_right
        else if can_right then shorten_loop n' m s (e - 1) prefer_left allow_left allow_right
        else (s, e)
      else
        if can_right then shorten_loop n' m s (e - 1) prefer_left allow_left allow_right
        else if can_left && allow_left then shorten_loop n' m (S s) e prefer_left allow_left allow_right
        else (s, e)
  end.

(** src/remove.c:244-288: the shortened shape line and the new value of [*quality]; [None] is NULL *)
Definition shorten (t : option bxstr) (quality : nat) (prefer_left allow_left allow_right : bool)
  : option (list N * nat) :=
  match t with
  | None => None
  | Some b =>
      if num_chars b <? quality then None
      else
        let '(s, e) := shorten_loop (num_chars b - quality + 1) (memory b) 0 (num_chars b)
                         (allow_left && prefer_left) allow_left allow_right in
        if e - s <? quality then Some (between (memory b) s e, e - s) else None
  end.

(** src/remove.c:345-378: trying shape [idx] at [cur]; [rec] is the recursive call (position, shape index) *)
Section Try.
Variable rec : nat -> nat -> res bool.
Variable sr : list sctx.
Variable m : list N.
Variable endp : nat.
Variable anchored_right : bool.

Fixpoint hmm_try (n : nat) (sc : sctx) (cur idx : nat) (shape_line : list N) (quality : nat) : res bool :=
  match n with
  | O => Fuel
  | S n' =>
      if quality =? 0 then Ok false
      else if length m <? cur then UB
      else if strncmp0 quality (skipn cur m) shape_line then
        more <- non_empty_shapes_after sr idx ;;
        if (cur + quality =? endp) && negb more then Ok true
        else
          rc <- (if sc_elastic sc then rec (cur + quality) idx else Ok false) ;;
          if rc then Ok true else rec (cur + quality) (S idx)
      else if negb anchored_right then
        match shorten (sc_text sc) quality false false true with
        | None => Ok false
        | Some (l, q) => hmm_try n' sc cur idx l q
        end
      else Ok false
  end.

(** src/remove.c:396-414: looking for shape [i] behind blanks *)
Fixpoint shift_try (n : nat) (sc : sctx) (cur i : nat) (can_shorten_right : bool) (shape_line : list N)
    (quality : nat) : res bool :=
  match n with
  | O => Fuel
  | S n' =>
      if length m <? cur then UB
      else
        let again :=
          match shorten (sc_text sc) quality false true can_shorten_right with
          | None => Ok false
          | Some (l, q) => shift_try n' sc cur i can_shorten_right l q
          end in
        match u32_strstr (skipn cur m) shape_line with
        | Some k =>
            if (cur + k <? endp) && is_blank_between m cur (cur + k) then
              r <- rec (cur + k + quality) (if sc_elastic sc then i else S i) ;;
              if negb r && sc_elastic sc then rec (cur + k + quality) (S i) else Ok r
            else again
        | None => again
        end
  end.

(** src/remove.c:389-425 *)
Fixpoint hmm_shiftable (is : list nat) (cur : nat) : res bool :=
  match is with
  | [] => Ok (is_blank_between m cur endp)
  | i :: r =>
      e <- is_shape_line_empty sr i ;;
      if e then hmm_shiftable r cur
      else
        sc <- rd sr i ;;
        match sc_text sc with
        | None => UB
        | Some b =>
            more <- non_empty_shapes_after sr i ;;
            ee <- is_shape_line_empty sr 4 ;;
            shift_try (num_chars b + 2) sc cur i (negb (more || negb ee)) (memory b) (num_chars b)
        end
  end.
End Try.

(** src/remove.c:311-385 [hmm], with [cur_pos] and [end_pos] as positions in the string [m] *)
Fixpoint hmm (fuel : nat) (sr : list sctx) (m : list N) (endp : nat) (anchored_right : bool)
    (cur idx : nat) (anchored_left : bool) : res bool :=
  match fuel with
  | O => Fuel
  | S f =>
      let rec c i := hmm f sr m endp anchored_right c i true in
      if negb anchored_left then hmm_shiftable rec sr m endp (seq idx (4 - idx)) cur
      else if endp <? cur then Ok false
      else if cur =? endp then
        if (idx =? 4) && anchored_right then Ok true
        else
          e <- is_shape_line_empty sr idx ;;
          if e then more <- non_empty_shapes_after sr idx ;; Ok (negb more) else Ok false
      else if 4 <=? idx then (if length m <? cur then UB else Ok (u32_is_blank U (skipn cur m)))
      else
        sc <- rd sr idx ;;
        if sc_empty sc then rec cur (S idx)
        else
          match sc_text sc with
          | None => UB
          | Some b => hmm_try rec sr m endp anchored_right (num_chars b + 2) sc cur idx (memory b) (num_chars b)
          end
  end.

(** src/remove.c:429-446; a shape line that is not a valid string gives a NULL text, which is dereferenced *)
Definition side_shapes (top : bool) : list nat := if top then north_side else south_side_rev.
Fixpoint prep_horiz (d : design) (ct : comparison_t) (line_idx : nat) (is : list nat) : res (list sctx) :=
  match is with
  | [] => Ok []
  | i :: r =>
      let s := d_shape d i in
      t <- (if isempty s then Ok None
            else x <- must (prepare_comp_shape s line_idx ct false (is_nil r)) ;;
                 b <- must (bxs_from_unicode U x) ;; Ok (Some b)) ;;
      more <- prep_horiz d ct line_idx r ;;
      Ok (mkSctx (isempty s) t (s_elastic s) :: more)
  end.
Definition prepare_comp_shapes_horiz (d : design) (top : bool) (ct : comparison_t) (line_idx : nat) : res (list sctx) :=
  prep_horiz d ct line_idx (side_shapes top).

(** src/remove.h:24-38 [match_result_t]: position, length, shiftable *)
Record mres : Type := mkMres { m_idx : nat; m_len : nat; m_shiftable : bool }.

(** src/remove.c:481-488: [k] characters of the shape line are skipped; [limit] is [first_char[indent]], read only when the
    shape line was found *)
Fixpoint outer_left (n k : nat) (line : bxstr) (shape : list N) (limit : res nat) : res (option mres) :=
  match n with
  | O => Fuel
  | S n' =>
      if (k =? 0) || blank_at shape k then
        match u32_strstr (memory line) (skipn k shape) with
        | Some p => lim <- limit ;;
                    if lim <? p then outer_left n' (S k) line shape limit
                    else Ok (Some (mkMres p (length shape - k) false))
        | None => outer_left n' (S k) line shape limit
        end
      else Ok None
  end.
(** src/remove.c:496-508: the first [k] characters of the shape line are used *)
Fixpoint outer_right (n k : nat) (line : bxstr) (shape : list N) (limit : nat) : res (option mres) :=
  match n with
  | O => Fuel
  | S n' =>
      if (k =? length shape) || blank_at shape k then
        match u32_strnrstr (memory line) (firstn k shape) k with
        | Some p => if p + k <? limit then (if k =? 0 then UB else outer_right n' (k - 1) line shape limit)
                    else Ok (Some (mkMres p k false))
        | None => if k =? 0 then UB else outer_right n' (k - 1) line shape limit
        end
      else Ok None
  end.

(** src/remove.c:471-512. The string positions [first_char] of the line are valid for lines built by
    [bxs_from_unicode]. *)
Definition match_outer_shape (left : bool) (line : bxstr) (shape : option bxstr) : res (option mres) :=
  match shape with
  | None => Ok None
  | Some sh =>
      if (num_chars line =? 0) || (num_chars sh =? 0) then Ok None
      else
        blank <- bxs_is_blank U sh ;;
        if left then
          if blank then Ok (Some (mkMres 0 0 true))
          else outer_left (num_chars sh + 1) 0 line (memory sh) (rd (first_char line) (indent line))
        else
          if blank then p <- rd (first_char line) (num_chars_visible line) ;; Ok (Some (mkMres p 0 true))
          else k <- subz (num_chars_visible line) (trailing line) ;;
               limit <- rd (first_char line) k ;;
               outer_right (num_chars sh + 1) (num_chars sh) line (memory sh) limit
  end.

(** Enough recursion depth for [hmm] on a line of this length. *)
Definition hmm_fuel (m : list N) : nat := 6 * S (length m) + 2.

(** src/remove.c:523-580: one comparison type *)
Definition match_horiz_with (d : design) (inp : input) (top : bool) (line_idx shape_idx : nat) (ct : comparison_t)
  : res bool :=
  let sarr := d_shape d in
  sr <- prepare_comp_shapes_horiz d top ct shape_idx ;;
  t <- must (comp_input inp line_idx false ct) ;;
  p1 <- must (bxs_from_unicode U t) ;;
  p2 <- must (bxs_rtrim U p1) ;;
  let prepped := bxs_append_spaces p2 (s_width (sarr NW) + s_width (sarr NE)) in
  s0 <- rd sr 0 ;; s4 <- rd sr 4 ;;
  mrl <- (if empty_side sarr BLEF then Ok None else match_outer_shape true prepped (sc_text s0)) ;;
  lastp <- rd (first_char prepped) (num_chars_visible prepped) ;;
  mrr <- (if empty_side sarr BRIG then Ok None else match_outer_shape false prepped (sc_text s4)) ;;
  let cur := match mrl with Some r => m_idx r + m_len r | None => 0 end in
  let endp := match mrr with Some r => m_idx r | None => lastp end in
  let al := match mrl with Some r => negb (m_shiftable r) | None => false end in
  let ar := match mrr with Some r => negb (m_shiftable r) | None => false end in
  hmm (hmm_fuel (memory prepped)) sr (memory prepped) endp ar cur 1 al.

(** src/remove.c:516-588. The comparison type last tried is left in [ctx->comp_type]. *)
Section Horiz.
Variable d : design.
Variable inp : input.

Fixpoint match_horiz_types (top : bool) (li si : nat) (cts : list comparison_t) (last : comparison_t)
  : res (bool * comparison_t) :=
  match cts with
  | [] => Ok (false, last)
  | ct :: r =>
      if comp_type_is_viable ct (input_is_mono inp) (design_is_mono d) then
        x <- match_horiz_with d inp top li si ct ;;
        if x then Ok (true, ct) else match_horiz_types top li si r ct
      else match_horiz_types top li si r last
  end.
Definition match_horiz_line (top : bool) (li si : nat) (last : comparison_t) : res (bool * comparison_t) :=
  match_horiz_types top li si comp_types last.

(** the loops over the shape lines, src/remove.c:601-610 and 630-640 *)
Fixpoint match_any (top : bool) (li : nat) (sis : list nat) (ct : comparison_t) : res (bool * comparison_t) :=
  match sis with
  | [] => Ok (false, ct)
  | si :: r =>
      ' x <- match_horiz_line top li si ct ;;
      if fst x then Ok (true, snd x) else match_any top li r (snd x)
  end.

(** order in which the shape lines are tried: forward from [k], backward from [k], each with wrap-around *)
Definition order_fwd (h k : nat) : list nat := map (fun i => (k + i) mod h) (seq 0 h).
Definition order_bwd (h k : nat) : list nat := map (fun i => (k + (h - i)) mod h) (seq 0 h).

(** src/remove.c:592-617: line [start + k] is tried next; the result is [top_end_idx] *)
Fixpoint find_top (n : nat) (start h k : nat) (ct : comparison_t) : res (nat * comparison_t) :=
  match n with
  | O => Ok (start + k, ct)
  | S n' =>
      if start + k <? i_num_lines inp then
        ' x <- match_any true (start + k) (order_fwd h (k mod h)) ct ;;
        if fst x then find_top n' start h (S k) (snd x) else Ok (start + k, snd x)
      else Ok (start + k, ct)
  end.
Definition find_top_side (start : nat) (ct : comparison_t) : res (nat * comparison_t) :=
  let h := s_height (d_shape d NE) in find_top h start h 0 ct.

(** src/remove.c:621-647: line [stop - 1 - k] is tried next; the result is [bottom_start_idx] *)
Fixpoint find_bottom (n : nat) (stop h k : nat) (ct : comparison_t) : res (nat * comparison_t) :=
  match n with
  | O => Ok (stop - k, ct)
  | S n' =>
      if k <? stop then
        ' x <- match_any false (stop - 1 - k) (order_bwd h (h - 1 - k)) ct ;;
        if fst x then find_bottom n' stop h (S k) (snd x) else Ok (stop - k, snd x)
      else Ok (stop - k, ct)
  end.
Definition find_bottom_side (stop : nat) (ct : comparison_t) : res (nat * comparison_t) :=
  let h := s_height (d_shape d SE) in find_bottom h stop h 0 ct.
End Horiz.

(** src/remove.c:651-696: all lines of the (up to three) vertical shapes *)
Definition vert_shapes (left : bool) : list nat := if left then [WNW; W_; WSW] else [ENE; E_; ESE].
Definition prepare_comp_shapes_vert (d : design) (left : bool) (ct : comparison_t) : res (list sctx) :=
  ls <- mapM (fun i =>
    let s := d_shape d i in
    if isempty s then Ok []
    else mapM (fun k =>
           x <- must (prepare_comp_shape s k ct false false) ;;
           b <- must (bxs_from_unicode U x) ;;
           Ok (mkSctx (isdeepempty s) (Some b) (s_elastic s))) (seq 0 (s_height s))) (vert_shapes left) ;;
  Ok (concat ls).

(** src/remove.c:39-62 [line_ctx_t], one side: start, end, quality *)
Record vmatch : Type := mkV { v_start : nat; v_end : nat; v_quality : nat }.
Definition vmatch0 : vmatch := mkV 0 0 0.

(** src/remove.c:723-764: one shape line; [t] is the input line with [ind] indenting and [trl] trailing characters.
    [input_length - input_trailing - quality] is computed in [size_t]; when it wraps it exceeds every position. *)
Fixpoint vert_try (n : nat) (left : bool) (text : option bxstr) (maxq : nat) (t : list N) (ind trl : nat)
    (best : vmatch) (shape : list N) (quality : nat) : res vmatch :=
  match n with
  | O => Fuel
  | S n' =>
      let again :=
        match shorten text quality left true true with
        | None => Ok best
        | Some (l, q) => vert_try n' left text maxq t ind trl best l q
        end in
      match (if left then u32_strstr t shape else u32_strnrstr t shape quality) with
      | None => again
      | Some p =>
          let room := length t - trl in
          if (if left then ind + (maxq - quality) <? p else (room <? quality) || (p <? room - quality)) then again
          else if v_quality best <? quality then Ok (mkV p (p + quality) quality)
          else Ok best
      end
  end.

(** src/remove.c:713-766 *)
Fixpoint match_vertical_side (left : bool) (shapes : list sctx) (t : list N) (ind trl : nat) (best : vmatch)
  : res vmatch :=
  match shapes with
  | [] => Ok best
  | sc :: r =>
      if sc_empty sc then match_vertical_side left r t ind trl best
      else
        match sc_text sc with
        | None => UB
        | Some b =>
            best' <- vert_try (num_chars b + 2) left (sc_text sc) (num_chars b) t ind trl best (memory b) (num_chars b) ;;
            match_vertical_side left r t ind trl best'
        end
  end.

(** src/remove.c:770-796: the matches of both sides. Half of the possible quality; the comparison in [double] is exact
    for all sizes that fit into memory. *)
Definition sufficient_body_quality (d : design) (body : list (vmatch * vmatch)) : bool :=
  let sarr := d_shape d in
  let total := sum (map (fun x => v_quality (snd x) + v_quality (fst x)) body) in
  let maxq := ((if empty_side sarr BLEF then 0 else s_width (sarr NW))
               + (if empty_side sarr BRIG then 0 else s_width (sarr NE))) * length body in
  ((maxq =? 0) && (total =? 0)) || ((0 <? maxq) && (maxq <? 2 * total)).

(** src/remove.c:824-859: one comparison type, for the lines with the numbers [lis] *)
Definition match_body (d : design) (inp : input) (ct : comparison_t) (lis : list nat) : res (list (vmatch * vmatch)) :=
  let sarr := d_shape d in
  w <- (if empty_side sarr BLEF then Ok [] else prepare_comp_shapes_vert d true ct) ;;
  e <- (if empty_side sarr BRIG then Ok [] else prepare_comp_shapes_vert d false ct) ;;
  mapM (fun li =>
    t <- must (comp_input inp li false ct) ;;
    ' it <- must (comp_input_ends inp li ct) ;;
    if length t <? snd it then Wrap
    else
      wm <- match_vertical_side true w t (fst it) (snd it) vmatch0 ;;
      em <- match_vertical_side false e t (fst it) (snd it) vmatch0 ;;
      Ok (wm, em)) lis.

(** src/remove.c:812-860 *)
Fixpoint find_vertical_types (d : design) (inp : input) (lis : list nat) (cts : list comparison_t)
    (st : comparison_t * list (vmatch * vmatch)) : res (comparison_t * list (vmatch * vmatch)) :=
  match cts with
  | [] => Ok st
  | ct :: r =>
      if comp_type_is_viable ct (input_is_mono inp) (design_is_mono d) then
        body <- match_body d inp ct lis ;;
        if sufficient_body_quality d body then Ok (ct, body) else find_vertical_types d inp lis r (ct, body)
      else find_vertical_types d inp lis r st
  end.
Definition find_vertical_shapes (d : design) (inp : input) (lis : list nat) (ct : comparison_t)
  : res (comparison_t * list (vmatch * vmatch)) :=
  let st := (ct, map (fun _ => (vmatch0, vmatch0)) lis) in
  if empty_side (d_shape d) BLEF && empty_side (d_shape d) BRIG then Ok st
  else find_vertical_types d inp lis comp_types st.

(** src/remove.c:933-939 and 943-947 *)
Definition org_char (b : bxstr) (ct : comparison_t) (i : nat) : res N :=
  if drops_input ct then p <- rd (visible_char b) i ;; rdc (memory b) p else rdc (memory b) i.
Definition max_chars_line (b : bxstr) (ct : comparison_t) : nat :=
  if drops_input ct then num_chars_visible b else num_chars b.

(** src/remove.c:951-962 *)
Fixpoint confirmed_padding (n : nat) (b : bxstr) (ct : comparison_t) (i : nat) : res nat :=
  match n with
  | O => Ok 0
  | S n' =>
      if i <? max_chars_line b ct then
        c <- org_char b ct i ;;
        if is_blank U c then r <- confirmed_padding n' b ct (S i) ;; Ok (S r) else Ok 0
      else Ok 0
  end.

(** src/remove.c:980-995 and 999-1010 *)
Definition back_to_org (b : bxstr) (ct : comparison_t) (i : nat) : res nat :=
  if drops_input ct then rd (first_char b) i else Ok i.
Definition calculate_start_idx (d : design) (ct : comparison_t) (b : bxstr) (w : vmatch) : res nat :=
  s <- (if 0 <? v_quality w then n <- confirmed_padding (d_pad_left d) b ct (v_end w) ;; Ok (v_end w + n) else Ok 0) ;;
  back_to_org b ct s.
Definition calculate_end_idx (ct : comparison_t) (b : bxstr) (e : vmatch) : res nat :=
  back_to_org b ct (if 0 <? v_quality e then v_start e else max_chars_line b ct).

(** a line while the box is being removed: its text may be NULL *)
Record rline : Type := mkRline { r_text : option bxstr; r_tabpos : list nat }.

(** src/bxstring.c:472-516 including the case of a NULL string *)
Definition prepend_opt (t : option bxstr) (n : nat) : res (option bxstr) :=
  match t with
  | Some b => x <- bxs_prepend_spaces b n ;; Ok (Some x)
  | None => if n =? 0 then Ok None else x <- must (bxs_from_unicode U (u32_nspaces n)) ;; Ok (Some x)
  end.

(** src/remove.c:1014-1039: one body line. [indentmode] is the option -i, 0 if not given. *)
Definition remove_vertical (d : design) (indentmode : N) (ind : nat) (ct : comparison_t) (l : line) (v : vmatch * vmatch)
  : res rline :=
  let b := l_text l in
  s <- calculate_start_idx d ct b (fst v) ;;
  e <- calculate_end_idx ct b (snd v) ;;
  let sub := match bxs_substr U b s e with Ok x => Ok (Some x) | Err => Ok None | UB => UB | Wrap => Wrap | Fuel => Fuel end in
  t <- sub ;;
  t' <- (if N.eqb indentmode 98 || N.eqb indentmode 0 then prepend_opt t ind else Ok t) ;;
  Ok (mkRline t' (l_tabpos l)).
Fixpoint remove_vertical_all (d : design) (indentmode : N) (ind : nat) (ct : comparison_t) (ls : list line)
    (vs : list (vmatch * vmatch)) : res (list rline) :=
  match ls, vs with
  | l :: ls', v :: vs' =>
      a <- remove_vertical d indentmode ind ct l v ;; r <- remove_vertical_all d indentmode ind ct ls' vs' ;; Ok (a :: r)
  | _, _ => Ok []
  end.

Definition keep_line (l : line) : rline := mkRline (Some (l_text l)) (l_tabpos l).

(** src/remove.c:906-929: number of blank lines at the start of [ls], at most [limit] ([None] is SIZE_MAX) *)
Fixpoint kill (limit : option nat) (ls : list rline) : res nat :=
  match ls with
  | [] => Ok 0
  | l :: r =>
      match limit with
      | Some O => Ok 0
      | _ => b <- blank_opt (r_text l) ;;
             if b then n <- kill (match limit with Some k => Some (k - 1) | None => None end) r ;; Ok (S n) else Ok 0
      end
  end.
(** new values of [top_end_idx] and [bottom_start_idx] *)
Definition killblank (d : design) (mend killblank : bool) (ls : list rline) (te bs : nat) : res (nat * nat) :=
  let limit p := if mend && negb killblank then Some p else None in
  n1 <- kill (limit (d_pad_top d)) (firstn (bs - te) (skipn te ls)) ;;
  let te' := te + n1 in
  n2 <- kill (limit (d_pad_bottom d)) (rev (firstn (bs - te') (skipn te' ls))) ;;
  Ok (te', bs - n2).

(** src/remove.c:1043-1055: remove lines [bs .. be). The array is as long as before; only the first lines, whose number is
    the length of the list, are used afterwards. *)
Definition remove_bottom_from_input {A : Type} (ls : list A) (bs be : nat) : res (list A) :=
  if bs <? be then
    if length ls <? be then UB else Ok (firstn bs ls ++ skipn be ls)
  else Ok ls.
(** src/remove.c:966-976: [num_lines - top_end_idx] wraps when fewer lines are left; [memmove] is then called with
    that huge size *)
Definition remove_top_from_input {A : Type} (ls : list A) (ts te : nat) : res (list A) :=
  if ts <? te then
    n <- subz (length ls) te ;; Ok (firstn ts ls ++ skipn te ls)
  else Ok ls.

(** src/remove.c:1059-1071: [n] blanks off the lines [ts .. ts + body) *)
Fixpoint cut_lines (n : nat) (first count : nat) (ls : list line) : res (list line) :=
  match ls with
  | [] => if count =? 0 then Ok [] else UB
  | l :: r =>
      match first, count with
      | S f, _ => x <- cut_lines n f count r ;; Ok (l :: x)
      | O, S c => b <- must (bxs_cut_front U (l_text l) n) ;; x <- cut_lines n 0 c r ;; Ok (mkLine b (l_tabpos l) :: x)
      | O, O => Ok ls
      end
  end.

(** every text is dereferenced at src/remove.c:1087-1094 *)
Definition settle (l : rline) : res line :=
  match r_text l with Some b => Ok (mkLine b (r_tabpos l)) | None => UB end.

(** src/remove.c:1075-1108; [o_killblank] and [o_mend] are the options. With no line left [input.indent] stays SIZE_MAX;
    the model uses 0, and [cut] is 0 in this case ([(int) SIZE_MAX] is negative). *)
Definition apply_results_to_input (d : design) (indentmode : N) (o_killblank o_mend : bool) (ct : comparison_t)
    (body : list (vmatch * vmatch)) (ts te bs be : nat) (inp : input) : res input :=
  let ls := i_lines inp in
  mid <- remove_vertical_all d indentmode (i_indent inp) ct (firstn (bs - te) (skipn te ls)) body ;;
  let ls1 := if te <? bs then map keep_line (firstn te ls) ++ mid ++ map keep_line (skipn bs ls)
             else map keep_line ls in
  ' k <- (if o_killblank || o_mend then killblank d o_mend o_killblank ls1 te bs else Ok (te, bs)) ;;
  let '(te', bs') := k in
  ls2 <- remove_bottom_from_input ls1 bs' be ;;
  ls3 <- remove_top_from_input ls2 ts te' ;;
  ls4 <- mapM settle ls3 ;;
  let maxl := maxl (map (fun l => num_columns (l_text l)) ls4) in
  let ind := match ls4 with
             | [] => 0
             | l :: r => fold_left (fun a l => Nat.min a (indent (l_text l))) r (indent (l_text l))
             end in
  let cut := if empty_side (d_shape d) BLEF then Nat.min ind (d_pad_left d) else 0 in
  if cut =? 0 then Ok (mkInput ls4 maxl ind (i_final_newline inp))
  else
    ls5 <- cut_lines cut ts (bs' - te') ls4 ;;
    m' <- subz maxl cut ;;
    Ok (mkInput ls5 m' (ind - cut) (i_final_newline inp)).

(** src/remove.c:1112-1170 with the design already chosen *)
Definition remove_box (d : design) (indentmode : N) (o_killblank o_mend : bool) (inp : input) : res input :=
  let sarr := d_shape d in
  ts <- find_first_line inp ;;
  if i_num_lines inp <=? ts then Ok inp
  else
    ' t <- (if empty_side sarr BTOP then Ok (ts, literal) else find_top_side d inp ts literal) ;;
    lst <- find_last_line inp ;;
    let be := S lst in
    ' b <- (if empty_side sarr BBOT then Ok (be, snd t) else find_bottom_side d inp be (snd t)) ;;
    let te := fst t in
    let bs := fst b in
    ' v <- (if te <? bs then find_vertical_shapes d inp (seq te (bs - te)) (snd b) else Ok (snd b, [])) ;;
    apply_results_to_input d indentmode o_killblank o_mend (fst v) (snd v) ts te bs be inp.

(** src/remove.c:1174-1220 [output_input (1)]: only trimming *)
Definition trim_lines (inp : input) : res input :=
  ls <- mapM (fun l => b <- must (bxs_rtrim U (l_text l)) ;; Ok (mkLine b (l_tabpos l))) (i_lines inp) ;;
  Ok (mkInput ls (i_maxline inp) (i_indent inp) (i_final_newline inp)).

(** [bxs_first_char_ptr], src/bxstring.c:381-390: the string there *)
Definition first_char_ptr (b : bxstr) (n : nat) : res (list N) :=
  p <- rd (first_char b) (Nat.min n (num_chars_visible b)) ;; at_off (memory b) p.

(** ... the indentation and the text printed for one line *)
Definition out_line (o : opts) (inp : input) (j : nat) (b : bxstr) : res (list N) :=
  if N.eqb (o_tabexp o) 117 then
    if o_tabstop o =? 0 then UB else
    t <- first_char_ptr b (indent b) ;;
    Ok (repeat 9%N (indent b / o_tabstop o) ++ repeat 32%N (indent b mod o_tabstop o) ++ t)
  else if N.eqb (o_tabexp o) 107 then
    i <- must (tabbify_indent o inp j (repeat 32%N (i_indent inp))) ;;
    t <- first_char_ptr b (i_indent inp) ;; Ok (i ++ t)
  else first_char_ptr b 0.
Fixpoint print_lines (o : opts) (eol : list N) (inp : input) (j : nat) (ls : list line) : res (list N) :=
  match ls with
  | [] => Ok []
  | l :: r =>
      t <- out_line o inp j (l_text l) ;;
      more <- print_lines o eol inp (S j) r ;;
      Ok (t ++ (if i_final_newline inp || negb (is_nil r) then eol else []) ++ more)
  end.
Definition output_input (o : opts) (eol : list N) (inp : input) : res (list N) :=
  i <- trim_lines inp ;; print_lines o eol i 0 (i_lines i).
End WithTables.
