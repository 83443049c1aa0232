(** * Model of src/generate.c and the sizing functions of src/boxes.c *)
From Coq Require Import List Arith NArith ZArith Bool.
From Verif Require Import Base Model_Unicode Model_Bxs Model_Shape.
Import ListNotations.

(** Arrays [iltf[3]]: "individual lines to fill" by the shapes 1, 2 and 3 of a side. *)
Record tri : Type := T3 { t1 : nat; t2 : nat; t3 : nat }.
Definition tget (i : nat) (t : tri) : nat :=
  match i with 1 => t1 t | 2 => t2 t | _ => t3 t end.
Definition tset (i v : nat) (t : tri) : tri :=
  match i with 1 => T3 v (t2 t) (t3 t) | 2 => T3 (t1 t) v (t3 t) | _ => T3 (t1 t) (t2 t) v end.

(** State of one side in the sizing loop: [iltf], [*res_hspace]/[*res_vspace], [*stoggle]. *)
Record pst : Type := mkPst { p_il : tri; p_res : nat; p_tog : nat }.
Definition pst0 : pst := mkPst (T3 0 0 0) 0 1.

Section Precalc.
(** [horiz_precalc] (src/generate.c:37-224) and [vert_precalc] (src/generate.c:228-408) are the same text
    with width/height, north/west and south/east exchanged; both are instances of the following. *)
Variable dim : sentry -> nat.

Section OneSide.
Variable side : nat -> sentry.     (* seite[i], i = 1..3 *)
Variable target : nat.
Variable other : nat.              (* current length of the opposite side *)

(** [iltf[i-1] += width; *res_hspace += width] *)
Definition padd (i : nat) (st : pst) : pst :=
  mkPst (tset i (tget i (p_il st) + dim (side i)) (p_il st)) (p_res st + dim (side i)) (p_tog st).

(** the guarded addition, src/generate.c:130-135 *)
Definition pgrow (i : nat) (st : pst) : pst :=
  if (tget i (p_il st) =? 0) || (p_res st <? target) || negb (p_res st =? other) then padd i st else st.

Definition numsh : nat := length (filter (fun i => negb (isempty (side i))) [1; 2; 3]).

Definition on_first (p : nat -> bool) (f : nat -> pst -> pst) (st : pst) : pst :=
  match find p [1; 2; 3] with Some i => f i st | None => st end.

(** the switch, src/generate.c:121-213 *)
Definition padvance (st : pst) : res pst :=
  match numsh with
  | 1 => Ok (on_first (fun i => negb (isempty (side i))) pgrow st)
  | 2 =>
      let st1 := on_first (fun i => negb (isempty (side i)) && negb (s_elastic (side i))
                                    && (tget i (p_il st) =? 0)) padd st in
      Ok (on_first (fun i => negb (isempty (side i)) && s_elastic (side i)) pgrow st1)
  | 3 =>
      let st1 := fold_left (fun s i => if negb (s_elastic (side i)) && (tget i (p_il s) =? 0)
                                       then padd i s else s) [1; 2; 3] st in
      if s_elastic (side 1) && s_elastic (side 3) then
        let st2 := pgrow (p_tog st1) st1 in
        Ok (mkPst (p_il st2) (p_res st2) (if p_tog st1 =? 1 then 3 else 1))
      else Ok (on_first (fun i => s_elastic (side i)) pgrow st1)
  | _ => Err
  end.
End OneSide.

(** the do-while loop, src/generate.c:95-219. [A] is the north or west side, [B] the south or east side. *)
Fixpoint precalc_loop (fuel : nat) (A B : nat -> sentry) (target : nat) (a b : pst) : res (pst * pst) :=
  match fuel with
  | O => Fuel
  | S f =>
      ' ab <- (if p_res b <? p_res a
               then b' <- padvance B target (p_res a) b ;; Ok (a, b')
               else a' <- padvance A target (p_res b) a ;; Ok (a', b)) ;;
      let '(a', b') := ab in
      if (p_res a' =? p_res b') && (target <=? p_res a') && (target <=? p_res b')
      then Ok (a', b')
      else precalc_loop f A B target a' b'
  end.

(** src/generate.c:61-76 resp. 252-267: the length to reach. The subtractions are [size_t]. *)
Definition ptarget (have want c1 c2 : nat) : res nat :=
  w1 <- subz want c1 ;; w2 <- subz w1 c2 ;; Ok (if w2 <=? have then have else w2).

Definition precalc (fuel : nat) (sarr : nat -> sentry) (sideA sideB : list nat) (have want : nat)
  : res (tri * tri * nat) :=
  let A i := sarr (nth i sideA 0) in
  let B i := sarr (nth i sideB 0) in
  t <- ptarget have want (dim (A 0)) (dim (A 4)) ;;
  ' ab <- precalc_loop fuel A B t pst0 pst0 ;;
  Ok (p_il (fst ab), p_il (snd ab), p_res (fst ab)).
End Precalc.

(** [while (iltf[cshape] == 0) cshape += ...]: [order] lists the shape numbers still ahead; running off
    either end of [iltf] is the empty list. *)
Fixpoint skip0 (il : tri) (order : list nat) : list nat :=
  match order with
  | [] => []
  | c :: r => if tget c il =? 0 then skip0 il r else c :: r
  end.

(** src/generate.c:431-439 and 486-495: the sequence of shape numbers visited by the two identical loops *)
Fixpoint hwalk (fuel : nat) (side : nat -> sentry) (il : tri) (order : list nat) (j target : nat)
  : res (list nat) :=
  if j <? target then
    match fuel with
    | O => Fuel
    | S f =>
        match skip0 il order with
        | [] => UB
        | (c :: _) as order' =>
            v <- subz (tget c il) (s_width (side c)) ;;
            l <- hwalk f side (tset c v il) order' (j + s_width (side c)) target ;;
            Ok (c :: l)
        end
    end
  else Ok [].

Section WithTables.
Variable U : uctab.

(** src/generate.c:423-453 and 457-508: rows of the top or bottom side without corners. The buffer for
    row [line] is as long as the longest row. The ASCII copy [chars] must fit into [width] bytes. *)
Definition vert_assemble (sarr : nat -> sentry) (seite : list nat) (north : bool) (il : tri) (w h : nat)
  : res (list bxstr) :=
  let side i := sarr (nth i seite 0) in
  seq_ <- hwalk w side il (if north then [1; 2; 3] else [3; 2; 1]) 0 w ;;
  lens <- mapM (fun ln => l <- mapM (fun c => m <- rd (s_mbcs (side c)) ln ;; Ok (num_chars m)) seq_ ;; Ok (sum l))
               (seq 0 h) ;;
  let max_chars := maxl lens in
  mapM (fun ln =>
          cs <- mapM (fun c => rd (s_chars (side c)) ln) seq_ ;;
          if w <? length (concat cs) then UB else
          ms <- mapM (fun c => m <- rd (s_mbcs (side c)) ln ;; Ok (memory m)) seq_ ;;
          if max_chars <? length (concat ms) then UB else
          must (bxs_from_unicode U (concat ms)))
       (seq 0 h).

(** src/generate.c:538-556: which shape and which of its lines comes next, for [n] lines *)
Fixpoint vwalk (n : nat) (side : nat -> sentry) (il : tri) (order : list nat) (sc : nat)
  : res (list (nat * nat)) :=
  match n with
  | O => Ok []
  | S n' =>
      let order' := skip0 il order in
      let sc1 := if length order' =? length order then sc else 0 in
      match order' with
      | [] => UB
      | c :: _ =>
          let sc2 := if sc1 =? s_height (side c) then 0 else sc1 in
          v <- subz (tget c il) 1 ;;
          l <- vwalk n' side (tset c v il) order' (S sc2) ;;
          Ok ((c, sc2) :: l)
      end
  end.

Definition rows_of (s : sentry) : res (list bxstr) :=
  mapM (fun i => rd (s_mbcs s) i) (seq 0 (s_height s)).

(** src/generate.c:512-558: rows of the left or right side including corners: top corner, middle, bottom
    corner. The C code writes them into one array at these positions. *)
Definition horiz_assemble (sarr : nat -> sentry) (seite : list nat) (east : bool) (il : tri) (vspace : nat)
  : res (list bxstr) :=
  let side i := sarr (nth i seite 0) in
  let ctop := if east then side 0 else side 4 in
  let cbottom := if east then side 4 else side 0 in
  top <- rows_of ctop ;;
  w <- vwalk vspace side il (if east then [1; 2; 3] else [3; 2; 1]) 0 ;;
  mid <- mapM (fun p => rd (s_mbcs (side (fst p))) (snd p)) w ;;
  bot <- rows_of cbottom ;;
  Ok (top ++ mid ++ bot).

(** one of the four parts of the box ([thebox[i]]) *)
Record part : Type := mkPart { p_width : nat; p_height : nat; p_mbcs : list bxstr }.
Record box : Type := mkBox { b_top : part; b_right : part; b_bottom : part; b_left : part }.

(** src/generate.c:562-638 *)
Definition horiz_generate (fuel : nat) (d : design) (inp : input) : res (part * part) :=
  let sarr := d_shape d in
  let th := highest sarr [NW; NNW; N_; NNE; NE] in
  let bh := highest sarr [SW; SSW; S_; SSE; SE] in
  ' r <- precalc s_width fuel sarr north_side south_side (i_maxline inp) (d_minwidth d) ;;
  let '(tiltf, biltf, w) := r in
  top <- vert_assemble sarr north_side true tiltf w th ;;
  bot <- vert_assemble sarr south_side false biltf w bh ;;
  Ok (mkPart w th top, mkPart w bh bot).

(** src/generate.c:642-726 *)
Definition vert_generate (fuel : nat) (d : design) (inp : input) : res (part * part) :=
  let sarr := d_shape d in
  let lw := widest sarr [SW; WSW; W_; WNW; NW] in
  let rw := widest sarr [SE; ESE; E_; ENE; NE] in
  ' r <- precalc s_height fuel sarr west_side east_side (i_num_lines inp) (d_minheight d) ;;
  let '(liltf, riltf, vspace) := r in
  let lh := vspace + s_height (sarr NW) + s_height (sarr SW) in
  let rh := vspace + s_height (sarr NE) + s_height (sarr SE) in
  left <- horiz_assemble sarr west_side false liltf vspace ;;
  right <- horiz_assemble sarr east_side true riltf vspace ;;
  Ok (mkPart lw lh left, mkPart rw rh right).

(** src/generate.c:730-768 *)
Definition generate_box (fuel : nat) (d : design) (inp : input) : res box :=
  ' tb <- horiz_generate fuel d inp ;;
  ' lr <- vert_generate fuel d inp ;;
  Ok (mkBox (fst tb) (snd lr) (snd tb) (fst lr)).

(** src/tools.c:207-218 (the text is never NULL here) *)
Definition empty_line (l : line) : res bool := bxs_is_blank U (l_text l).

(** 'l' = 108, 'c' = 99, 'r' = 114, 't' = 116, 'b' = 98, 'u' = 117, 'k' = 107, 'e' = 101 *)
Definition ch (c : N) (x : N) : bool := N.eqb x c.

(** src/generate.c:772-851 *)
Definition justify_line (o : opts) (d : design) (inp : input) (l : line) (skew : Z) : res Z :=
  e <- empty_line l ;;
  if e then Ok 0%Z
  else if N.eqb (o_justify o) 0 then Ok 0%Z
  else
    let initial := indent (l_text l) in
    newlen <- subz (num_columns (l_text l)) initial ;;
    if ch 108 (o_justify o) then
      if ch 116 (d_indentmode d)
      then Ok (Z.of_nat (i_indent inp) - Z.of_nat initial)%Z
      else Ok (- Z.of_nat initial)%Z
    else if ch 99 (o_justify o) then
      if ch 116 (d_indentmode d) then
        a <- subz (i_maxline inp) (i_indent inp) ;;
        b <- subz a newlen ;;
        let skew' := (skew - Z.of_nat (i_indent inp))%Z in
        let shift := b / 2 + i_indent inp in
        let shift := if negb (b mod 2 =? 0) && (skew' =? 1)%Z then S shift else shift in
        Ok (Z.of_nat shift - Z.of_nat initial)%Z
      else
        b <- subz (i_maxline inp) newlen ;;
        let shift := b / 2 in
        let shift := if negb (b mod 2 =? 0) && (skew =? 1)%Z then S shift else shift in
        Ok (Z.of_nat shift - Z.of_nat initial)%Z
    else if ch 114 (o_justify o) then
      shift <- subz (i_maxline inp) newlen ;;
      Ok (Z.of_nat shift - Z.of_nat initial)%Z
    else Ok 0%Z.

(** src/generate.c:882-918: string used for indenting the box *)
Definition indent_spc (o : opts) (d : design) (inp : input) : list N :=
  if ch 98 (d_indentmode d) then
    if ch 117 (o_tabexp o)
    then repeat 9%N (i_indent inp / o_tabstop o) ++ repeat 32%N (i_indent inp mod o_tabstop o)
    else repeat 32%N (i_indent inp)
  else [].

(** [set_char_at] inside the buffer *)
Definition upd {A : Type} (l : list A) (i : nat) (v : A) : list A :=
  firstn i l ++ v :: skipn (S i) l.

(** src/tools.c:382-397: the loop over the tab positions; [buf] is the whole buffer, [len] the current
    [result_len] (a NUL is written there). Characters behind the NUL stay in the buffer. *)
Fixpoint tabbify_loop (tabs : list nat) (tabstop ind spclen : nat) (buf : list N) (len : nat)
  : res (list N * nat) :=
  match tabs with
  | [] => Ok (buf, len)
  | tpos :: r =>
      if tpos <? spclen then
        let nspc := tabstop - tpos mod tabstop in
        if ind <? tpos + nspc then Ok (buf, len)
        else
          len' <- subz len (nspc - 1) ;;
          if length buf <=? tpos then UB else
          if length buf <=? len' then UB else
          tabbify_loop r tabstop ind spclen (upd (upd buf tpos 9%N) len' 0%N) len'
      else Ok (buf, len)
  end.

(** the C string in a buffer *)
Fixpoint cstr (l : list N) : list N :=
  match l with
  | [] => []
  | c :: r => if N.eqb c 0 then [] else c :: cstr r
  end.

(** src/tools.c:363-400. [Err] is a NULL result (printed as "(NULL)" by [bxs_concat] in C). *)
Definition tabbify_indent (o : opts) (inp : input) (lineno : nat) (indentspc : list N) : res (list N) :=
  if negb (ch 107 (o_tabexp o)) then Ok indentspc
  else match nth_error (i_lines inp) lineno with
       | None => Err
       | Some l =>
           if length indentspc =? 0 then Ok []
           else
             ' r <- tabbify_loop (l_tabpos l) (o_tabstop o) (i_indent inp) (length indentspc)
                      (repeat 32%N (length indentspc) ++ [0%N]) (length indentspc) ;;
             Ok (cstr (fst r))
       end.

(** src/generate.c:920-942: top and bottom fill, from the number of spare lines *)
Definition vfills (o : opts) (d : design) (spare : nat) : nat * nat :=
  let '(f1, f2) := if ch 99 (o_valign o) then (spare / 2, spare / 2 + spare mod 2)
                   else if ch 98 (o_valign o) then (spare, 0)
                   else (0, spare) in
  (f1 + d_pad_top d, f2 + d_pad_bottom d).

(** src/generate.c:947-986: columns left and right of the text block *)
Definition hfills (o : opts) (d : design) (hfill : nat) : res (nat * nat) :=
  if hfill =? 1 then
    if ch 114 (o_halign o) || (d_pad_right d <? d_pad_left d) then Ok (1, 0) else Ok (0, 1)
  else
    f <- subz hfill (d_pad_left d + d_pad_right d) ;;
    Ok (if ch 99 (o_halign o) then (f / 2 + d_pad_left d, f / 2 + d_pad_right d + f mod 2)
        else if ch 114 (o_halign o) then (f + d_pad_left d, d_pad_right d)
        else (d_pad_left d, f + d_pad_right d)).

(** src/generate.c:1050-1069: one line of text between the borders *)
Definition content_row (o : opts) (d : design) (inp : input) (ti : nat) (hpl hpr : nat)
    (ind lft rgt : list N) : res (list (list N)) :=
  l <- rd (i_lines inp) ti ;;
  shift <- justify_line o d inp l (Z.of_nat hpr - Z.of_nat hpl) ;;
  txt <- must (bxs_cut_front U (l_text l) (Z.to_nat (- shift))) ;;
  let rest := (Z.of_nat (i_maxline inp) - Z.of_nat (num_columns (l_text l)) - shift)%Z in
  if (rest <? 0)%Z then Wrap else
  Ok [ind; lft; repeat 32%N hpl; repeat 32%N (Z.to_nat shift); memory txt;
      repeat 32%N hpr; repeat 32%N (Z.to_nat rest); rgt].

(** Everything that is computed before the output loop. *)
Record layout : Type := mkLayout {
  y_nol : nat;              (* number of lines of the box *)
  y_vfill1 : nat; y_vfill2 : nat; y_vfill : nat;
  y_hpl : nat; y_hpr : nat;
  y_skip_start : nat; y_skip_end : nat; y_skip_left : bool;
  y_indent : list N
}.

(** src/generate.c:870-1016 *)
Definition mk_layout (o : opts) (d : design) (inp : input) (b : box) : res layout :=
  let nol := p_height (b_right b) in
  v1 <- subz nol (p_height (b_top b)) ;;
  v2 <- subz v1 (p_height (b_bottom b)) ;;
  v3 <- subz v2 (i_num_lines inp) ;;
  v4 <- subz v3 (d_pad_top d + d_pad_bottom d) ;;
  let '(f1, f2) := vfills o d v4 in
  hf <- subz (p_width (b_top b)) (i_maxline inp) ;;
  ' hh <- hfills o d hf ;;
  let sarr := d_shape d in
  Ok (mkLayout nol f1 f2 (v4 + (d_pad_top d + d_pad_bottom d)) (fst hh) (snd hh)
        (if empty_side sarr BTOP then s_height (sarr NW) else 0)
        (if empty_side sarr BBOT then s_height (sarr SW) else 0)
        (empty_side sarr BLEF && negb (s_width (sarr NW) =? 0))
        (indent_spc o d inp)).

(** src/generate.c:1024-1090: the strings concatenated for output line [j]; [vf1] is the current value of
    the counter [vfill1]. *)
Definition out_row (o : opts) (d : design) (inp : input) (b : box) (y : layout) (j vf1 : nat)
  : res (list (list N) * nat) :=
  let left_ := if y_skip_left y then Ok [] else m <- rd (p_mbcs (b_left b)) j ;; Ok (memory m) in
  let right_ := m <- rd (p_mbcs (b_right b)) j ;; Ok (memory m) in
  if j <? p_height (b_top b) then
    ind <- must (tabbify_indent o inp 0 (y_indent y)) ;;
    l <- left_ ;; t <- rd (p_mbcs (b_top b)) j ;; r <- right_ ;;
    Ok ([ind; l; memory t; r], vf1)
  else if negb (vf1 =? 0) then
    ind <- must (tabbify_indent o inp 0 (y_indent y)) ;;
    l <- left_ ;; r <- right_ ;;
    Ok ([ind; l; repeat 32%N (p_width (b_top b)); r], vf1 - 1)
  else
    lim <- subz (y_nol y) (p_height (b_bottom b)) ;;
    if j <? lim then
      ti <- must (subz j (p_height (b_top b) + (y_vfill y - y_vfill2 y))) ;;
      if ti <? i_num_lines inp then
        ind <- must (tabbify_indent o inp ti (y_indent y)) ;;
        l <- left_ ;; r <- right_ ;;
        row <- content_row o d inp ti (y_hpl y) (y_hpr y) ind l r ;;
        Ok (row, 0)
      else
        ind <- must (tabbify_indent o inp (i_num_lines inp - 1) (y_indent y)) ;;
        l <- left_ ;; r <- right_ ;;
        Ok ([ind; l; repeat 32%N (p_width (b_top b)); r], 0)
    else
      ind <- must (tabbify_indent o inp (i_num_lines inp - 1) (y_indent y)) ;;
      l <- left_ ;; t <- rd (p_mbcs (b_bottom b)) (j - lim) ;; r <- right_ ;;
      Ok ([ind; l; memory t; r], 0).

(** src/generate.c:1024-1097: the loop; every line is built, trimmed and converted for output.
    The result is the list of untrimmed lines and the list of printed lines. *)
Fixpoint out_loop (n : nat) (o : opts) (d : design) (inp : input) (b : box) (y : layout) (j vf1 : nat)
  : res (list bxstr) :=
  match n with
  | O => Ok []
  | S n' =>
      ' r <- out_row o d inp b y j vf1 ;;
      let '(strs, vf1') := r in
      obuf <- must (bxs_concat U strs) ;;
      l <- out_loop n' o d inp b y (S j) vf1' ;;
      Ok (obuf :: l)
  end.

Definition box_rows (o : opts) (d : design) (inp : input) (b : box) : res (list bxstr) :=
  y <- mk_layout o d inp b ;;
  n <- subz (y_nol y) (y_skip_end y) ;;
  out_loop (n - y_skip_start y) o d inp b y (y_skip_start y) (y_vfill1 y).

(** src/generate.c:1092-1095: trimming, conversion, line terminators *)
Fixpoint print_rows (color : bool) (final_newline : bool) (eol : list N) (rows : list bxstr)
  : res (list N) :=
  match rows with
  | [] => Ok []
  | r :: rest =>
      t <- must (bxs_rtrim U r) ;;
      s <- bxs_to_output color t ;;
      more <- print_rows color final_newline eol rest ;;
      Ok (s ++ (if final_newline || negb (is_nil rest) then eol else []) ++ more)
  end.

(** src/generate.c:855-1104 *)
Definition output_box (color : bool) (eol : list N) (o : opts) (d : design) (inp : input) (b : box)
  : res (list N) :=
  rows <- box_rows o d inp b ;; print_rows color (i_final_newline inp) eol rows.

End WithTables.

(** src/boxes.c:239-263 *)
Definition apply_expected_size (o : opts) (d : design) : design :=
  let mh := if d_minheight d <? o_reqheight o then o_reqheight o else d_minheight d in
  let mw := if d_minwidth d <? o_reqwidth o then o_reqwidth o else d_minwidth d in
  let sarr := d_shape d in
  let mw := if negb (o_reqwidth o =? 0) then
              mw + (if empty_side sarr BRIG then s_width (sarr SE) else 0)
                 + (if empty_side sarr BLEF then s_width (sarr NW) else 0)
            else mw in
  let mh := if negb (o_reqheight o =? 0) then
              mh + (if empty_side sarr BTOP then s_height (sarr NW) else 0)
                 + (if empty_side sarr BBOT then s_height (sarr SE) else 0)
            else mh in
  mkDesign sarr (d_indentmode d) (d_pad_top d) (d_pad_right d) (d_pad_bottom d) (d_pad_left d) mw mh.

(** src/boxes.c:318-326 and 340-348: take [n] off two paddings in turn, [first] side first *)
Fixpoint reduce_pad (n i : nat) (p q : nat) : nat * nat :=
  match n with
  | O => (p, q)
  | S n' =>
      if Nat.even i then
        match p, q with
        | S p', _ => reduce_pad n' (S i) p' q
        | O, S q' => reduce_pad n' (S i) p q'
        | O, O => (p, q)
        end
      else
        match q, p with
        | S q', _ => reduce_pad n' (S i) p q'
        | O, S p' => reduce_pad n' (S i) p' q
        | O, O => (p, q)
        end
  end.

Definition over (o : Z) (v : nat) : nat := if (o >? -1)%Z then Z.to_nat o else v.

(** one dimension of src/boxes.c:304-355: new paddings and new minimum size *)
Definition fit_pad (p q size corner minsize req : nat) : nat * nat * nat :=
  if p + q =? 0 then (p, q, minsize)
  else
    let pad := p + q + size + corner in
    if minsize <? pad then
      if negb (req =? 0) then (reduce_pad (pad - minsize) 0 p q, minsize) else (p, q, pad)
    else (p, q, minsize).

(** src/boxes.c:304-355 *)
Definition adjust_size_and_padding (o : opts) (inp : input) (d : design) : design :=
  let pt := over (o_pad_top o) (d_pad_top d) in
  let pr := over (o_pad_right o) (d_pad_right d) in
  let pb := over (o_pad_bottom o) (d_pad_bottom d) in
  let pl := over (o_pad_left o) (d_pad_left d) in
  let sarr := d_shape d in
  let '(pt, pb, mh) := fit_pad pt pb (i_num_lines inp) (s_height (sarr NW) + s_height (sarr SW))
                         (d_minheight d) (o_reqheight o) in
  let '(pl, pr, mw) := fit_pad pl pr (i_maxline inp) (s_width (sarr NW) + s_width (sarr NE))
                         (d_minwidth d) (o_reqwidth o) in
  mkDesign sarr (d_indentmode d) pt pr pb pl mw mh.

(** src/boxes.c:240-263, 304-355, 362-377: drawing a box around analysed input. [draw_rows] gives the rows
    before trailing blanks are cut, [draw] the printed text. *)
Definition sized (o : opts) (inp : input) (d : design) : design :=
  adjust_size_and_padding o inp (apply_expected_size o d).
Definition draw_rows (U : uctab) (fuel : nat) (o : opts) (d : design) (inp : input) : res (list bxstr) :=
  b <- generate_box U fuel (sized o inp d) inp ;; box_rows U o (sized o inp d) inp b.
Definition draw (U : uctab) (fuel : nat) (color : bool) (eol : list N) (o : opts) (d : design) (inp : input)
  : res (list N) :=
  b <- generate_box U fuel (sized o inp d) inp ;; output_box U color eol o (sized o inp d) inp b.
