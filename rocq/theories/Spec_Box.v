(** * Specification of the four sides of a drawn box *)
From Coq Require Import List Arith NArith ZArith Bool.
From Verif Require Import Base Model_Unicode Model_Bxs Model_Shape Model_Generate Spec_Str Spec_Design.
Import ListNotations.

Section Box.
Variable U : uctab.

(** sizes of the borders *)
Definition top_h (d : design) : nat := s_height (d_shape d NW).
Definition bottom_h (d : design) : nat := s_height (d_shape d SW).
Definition left_w (d : design) : nat := s_width (d_shape d NW).
Definition right_w (d : design) : nat := s_width (d_shape d NE).

Definition texts (p : part) : list (list N) := map memory (p_mbcs p).

(** The box [b] consists of [cN], [cS], [cW], [cE] copies of the shapes of the four sides; the space inside
    the borders is [w] columns wide and [v] lines high. *)
Record sides (d : design) (b : box) (cN cS cW cE : nat -> nat) (w v : nat) : Prop := {
  sd_useN : usage (at_side (d_shape d) BTOP) cN;
  sd_useS : usage (at_side (d_shape d) BBOT) cS;
  sd_useW : usage (at_side (d_shape d) BLEF) cW;
  sd_useE : usage (at_side (d_shape d) BRIG) cE;
  sd_totN : tot (fun i => s_width (at_side (d_shape d) BTOP i)) cN [1;2;3] = w;
  sd_totS : tot (fun i => s_width (at_side (d_shape d) BBOT i)) cS [1;2;3] = w;
  sd_totW : tot (fun i => s_height (at_side (d_shape d) BLEF i)) cW [1;2;3] = v;
  sd_totE : tot (fun i => s_height (at_side (d_shape d) BRIG i)) cE [1;2;3] = v;
  sd_top : texts (b_top b) = map (hside_row (at_side (d_shape d) BTOP) [1;2;3] cN) (seq 0 (top_h d));
  sd_bottom : texts (b_bottom b) = map (hside_row (at_side (d_shape d) BBOT) [3;2;1] cS) (seq 0 (bottom_h d));
  sd_left : texts (b_left b) = map memory (s_mbcs (d_shape d NW)) ++
              vside_rows (at_side (d_shape d) BLEF) [3;2;1] cW ++ map memory (s_mbcs (d_shape d SW));
  sd_right : texts (b_right b) = map memory (s_mbcs (d_shape d NE)) ++
              vside_rows (at_side (d_shape d) BRIG) [1;2;3] cE ++ map memory (s_mbcs (d_shape d SE));
  sd_wtop : p_width (b_top b) = w;
  sd_wbottom : p_width (b_bottom b) = w;
  sd_htop : p_height (b_top b) = top_h d;
  sd_hbottom : p_height (b_bottom b) = bottom_h d;
  sd_hleft : p_height (b_left b) = top_h d + v + bottom_h d;
  sd_hright : p_height (b_right b) = top_h d + v + bottom_h d
}.

(** lengths that fit the text, the minimum size and both opposite sides *)
Definition width_ok (d : design) (inp : input) (n : nat) : Prop :=
  reachable s_width (at_side (d_shape d) BTOP) n /\ reachable s_width (at_side (d_shape d) BBOT) n /\
  i_maxline inp <= n /\ d_minwidth d <= left_w d + n + right_w d.
Definition height_ok (d : design) (inp : input) (n : nat) : Prop :=
  reachable s_height (at_side (d_shape d) BLEF) n /\ reachable s_height (at_side (d_shape d) BRIG) n /\
  i_num_lines inp <= n /\ d_minheight d <= top_h d + n + bottom_h d.
Definition least (P : nat -> Prop) (n : nat) : Prop := P n /\ forall m, P m -> n <= m.

(** every line of a border part has the width of that part, and there are enough lines *)
Record framed (d : design) (b : box) (w v : nat) : Prop := {
  fr_top : Forall (shows U w) (texts (b_top b)) /\ length (texts (b_top b)) = top_h d;
  fr_bottom : Forall (shows U w) (texts (b_bottom b)) /\ length (texts (b_bottom b)) = bottom_h d;
  fr_left : Forall (shows U (left_w d)) (texts (b_left b)) /\ length (texts (b_left b)) = top_h d + v + bottom_h d;
  fr_right : Forall (shows U (right_w d)) (texts (b_right b)) /\ length (texts (b_right b)) = top_h d + v + bottom_h d
}.
End Box.

(** ** The text to be boxed and where it goes *)
Section Text.
Variable U : uctab.

(** text without a visible non-blank (carriage returns count as blank here) *)
Definition blank_text (s : list N) : Prop :=
  forall ts, reads s ts -> forall c, In c (visible ts) -> is_blank U c = true \/ c = 13%N.

(** The tab handling leaves no tab in front of the box: tabs are expanded, or the box is not indented,
    or the indentation is shorter than a tab stop. *)
Definition tab_free_indent (o : opts) (d : design) (inp : input) : Prop :=
  o_tabexp o = 101%N \/ d_indentmode d <> 98%N \/ i_indent inp < o_tabstop o.

Record wf_input (o : opts) (d : design) (inp : input) : Prop := {
  wi_some : i_lines inp <> [];
  wi_text : forall l, In l (i_lines inp) -> exists s w, shows U w s /\
     bxs_from_unicode U s = Ok (l_text l) /\ w <= i_maxline inp;
  wi_tabs : tab_free_indent o d inp;
  (* only used for justification: leading blanks are one column wide, and in indentation mode "text" no
     line starts left of the common indentation *)
  wi_lead : o_justify o <> 0%N -> forall l ts, In l (i_lines inp) -> reads (memory (l_text l)) ts ->
     ~ blank_text (memory (l_text l)) ->
     narrow_indent (is_blank U) (term_width U) (visible ts) /\
     (d_indentmode d = 116%N -> i_indent inp <= lead (is_blank U) (visible ts))
}.

(** the padding fits into the minimum size (established by the size adjustment, see Prop_Size) *)
Definition padded (d : design) (inp : input) : Prop :=
  (d_pad_left d + d_pad_right d = 0 \/
   d_pad_left d + d_pad_right d + i_maxline inp + left_w d + right_w d <= d_minwidth d) /\
  (d_pad_top d + d_pad_bottom d = 0 \/
   d_pad_top d + d_pad_bottom d + i_num_lines inp + top_h d + bottom_h d <= d_minheight d).

(** [mid] is the line [s], possibly without some of its leading blanks, between [l] and [r] spaces,
    [w] columns in all; [k] is the number of leading blanks missing *)
Definition places (w : nat) (s : list N) (l k r : nat) (mid : list N) : Prop :=
  exists txt ts tx c, mid = repeat 32%N l ++ txt ++ repeat 32%N r /\
    reads s ts /\ reads txt tx /\ visible tx = skipn k (visible ts) /\
    k <= lead (is_blank U) (visible ts) /\
    (k = 0 -> txt = s \/ visible ts = [] /\ txt = []) /\
    shows U c txt /\ l + c + r = w.
End Text.

(** Justification: [pos] is the column, counted from the start of the text block, of the first non-blank
    of a line, [new] the width of the line from there on. In indentation mode "text" the block starts at
    the common indentation. *)
Definition block_start (d : design) (inp : input) : nat :=
  if N.eqb (d_indentmode d) 116 then i_indent inp else 0.
Definition justified (o : opts) (d : design) (inp : input) (pos new : nat) : Prop :=
  (o_justify o = 108%N -> pos = block_start d inp) /\
  (o_justify o = 114%N -> pos + new = i_maxline inp) /\
  (o_justify o = 99%N -> exists gl gr, pos = block_start d inp + gl /\ pos + new + gr = i_maxline inp /\
                          gl <= S gr /\ gr <= S gl).

(** Distribution of [spare] lines or columns before ([a]) and behind ([b]) the text, given the paddings *)
Inductive align : Type := AtStart | Centred | AtEnd.
Definition halign (o : opts) : align :=
  if N.eqb (o_halign o) 99 then Centred else if N.eqb (o_halign o) 114 then AtEnd else AtStart.
Definition valign (o : opts) : align :=
  if N.eqb (o_valign o) 99 then Centred else if N.eqb (o_valign o) 98 then AtEnd else AtStart.
Definition distributes (m : align) (pad_a pad_b spare a b : nat) : Prop :=
  a + b = spare /\ pad_a <= a /\ pad_b <= b /\
  match m with
  | AtStart => a = pad_a
  | AtEnd => b = pad_b
  | Centred => a - pad_a <= b - pad_b <= S (a - pad_a)
  end.
(** the one case in which the right padding is not honoured *)
Definition squeezed (o : opts) (d : design) (spare : nat) : Prop :=
  o_halign o = 114%N /\ spare = 1 /\ d_pad_right d = 1.

(** ** The complete drawing *)
Section Drawing.
Variable U : uctab.

Definition box_indent (d : design) (inp : input) : nat :=
  if N.eqb (d_indentmode d) 98 then i_indent inp else 0.
Definition spaces (n : nat) : list N := repeat 32%N n.

(** [contents] are the parts between the borders of the rows that carry the text *)
Definition content_ok (o : opts) (d : design) (inp : input) (w hpl : nat) (l : line) (mid : list N) : Prop :=
  exists sl k sr, places U w (memory (l_text l)) sl k sr mid /\
    w <= hpl + i_maxline inp + sr /\
    forall ts, reads (memory (l_text l)) ts ->
      (blank_text U (memory (l_text l)) \/ o_justify o = 0%N -> sl = hpl /\ k = 0) /\
      (~ blank_text U (memory (l_text l)) -> exists pos, sl + lead (is_blank U) (visible ts) = hpl + pos + k /\
         justified o d inp pos (columns (term_width U) ts - lead (is_blank U) (visible ts))).

(** parts between the borders, from top to bottom *)
Definition middles (b : box) (w f1 f2 : nat) (contents : list (list N)) : list (list N) :=
  texts (b_top b) ++ repeat (spaces w) f1 ++ contents ++ repeat (spaces w) f2 ++ texts (b_bottom b).

(** row [j] of the box; a blank left border is not drawn *)
Definition full_row (d : design) (inp : input) (b : box) (mids : list (list N)) (j : nat) : list N :=
  spaces (box_indent d inp) ++ (if empty_side (d_shape d) BLEF then [] else nth j (texts (b_left b)) [])
    ++ nth j mids [] ++ nth j (texts (b_right b)) [].

Definition row_width (d : design) (inp : input) (w : nat) : nat :=
  box_indent d inp + (if empty_side (d_shape d) BLEF then 0 else left_w d) + w + right_w d.

(** rows of a blank top or bottom border are not drawn *)
Definition top_skip (d : design) : nat := if empty_side (d_shape d) BTOP then top_h d else 0.
Definition bottom_skip (d : design) : nat := if empty_side (d_shape d) BBOT then bottom_h d else 0.

Record drawn (o : opts) (d : design) (inp : input) (b : box) (w v : nat) (rows : list (list N))
    (contents : list (list N)) (hpl hpr f1 f2 : nat) : Prop := {
  dr_rows : rows = map (full_row d inp b (middles b w f1 f2 contents))
                     (seq (top_skip d) (top_h d + v + bottom_h d - top_skip d - bottom_skip d));
  dr_contents : Forall2 (content_ok o d inp w hpl) (i_lines inp) contents;
  dr_width : Forall (shows U (row_width d inp w)) rows;
  dr_h : hpl + i_maxline inp + hpr = w;
  dr_v : f1 + i_num_lines inp + f2 = v;
  dr_halign : ~ squeezed o d (w - i_maxline inp) ->
              distributes (halign o) (d_pad_left d) (d_pad_right d) (w - i_maxline inp) hpl hpr;
  dr_valign : distributes (valign o) (d_pad_top d) (d_pad_bottom d) (v - i_num_lines inp) f1 f2
}.
End Drawing.

(** ** The picture as a whole, described without the intermediate box *)
Section Picture.
Variable U : uctab.

(** row by row: left border, middle, right border behind the indentation *)
Definition zip3 (ind : list N) (L M R : list (list N)) : list (list N) :=
  map (fun x => ind ++ fst (fst x) ++ snd (fst x) ++ snd x) (combine (combine L M) R).

Definition shape_rows (s : sentry) : list (list N) := map memory (s_mbcs s).
(** rows of a border that is left out when it is blank *)
Definition unless (blank : bool) (l : list (list N)) : list (list N) := if blank then [] else l.

Definition top_rows (d : design) (cN : nat -> nat) : list (list N) :=
  map (hside_row (at_side (d_shape d) BTOP) [1;2;3] cN) (seq 0 (top_h d)).
Definition bottom_rows (d : design) (cS : nat -> nat) : list (list N) :=
  map (hside_row (at_side (d_shape d) BBOT) [3;2;1] cS) (seq 0 (bottom_h d)).
Definition blank_side (d : design) (s : bside) : bool := empty_side (d_shape d) s.

Definition left_rows (d : design) (cW : nat -> nat) : list (list N) :=
  unless (blank_side d BTOP) (shape_rows (d_shape d NW)) ++
  vside_rows (at_side (d_shape d) BLEF) [3;2;1] cW ++
  unless (blank_side d BBOT) (shape_rows (d_shape d SW)).
Definition right_rows (d : design) (cE : nat -> nat) : list (list N) :=
  unless (blank_side d BTOP) (shape_rows (d_shape d NE)) ++
  vside_rows (at_side (d_shape d) BRIG) [1;2;3] cE ++
  unless (blank_side d BBOT) (shape_rows (d_shape d SE)).
Definition mid_rows (d : design) (cN cS : nat -> nat) (w f1 f2 : nat) (contents : list (list N)) : list (list N) :=
  unless (blank_side d BTOP) (top_rows d cN) ++
  repeat (spaces w) f1 ++ contents ++ repeat (spaces w) f2 ++
  unless (blank_side d BBOT) (bottom_rows d cS).

Record picture (o : opts) (d : design) (inp : input) (cN cS cW cE : nat -> nat) (w v f1 f2 hpl hpr : nat)
    (contents rows : list (list N)) : Prop := {
  pc_rows : rows = zip3 (spaces (box_indent d inp))
     (if blank_side d BLEF then repeat [] (length rows) else left_rows d cW)
     (mid_rows d cN cS w f1 f2 contents) (right_rows d cE);
  pc_len_m : length (mid_rows d cN cS w f1 f2 contents) = length rows;
  pc_len_l : length (left_rows d cW) = length rows;
  pc_len_r : length (right_rows d cE) = length rows;
  pc_contents : Forall2 (content_ok U o d inp w hpl) (i_lines inp) contents;
  pc_width : Forall (shows U (row_width d inp w)) rows;
  pc_useN : usage (at_side (d_shape d) BTOP) cN;
  pc_useS : usage (at_side (d_shape d) BBOT) cS;
  pc_useW : usage (at_side (d_shape d) BLEF) cW;
  pc_useE : usage (at_side (d_shape d) BRIG) cE;
  pc_totN : tot (fun i => s_width (at_side (d_shape d) BTOP i)) cN [1;2;3] = w;
  pc_totS : tot (fun i => s_width (at_side (d_shape d) BBOT i)) cS [1;2;3] = w;
  pc_totW : tot (fun i => s_height (at_side (d_shape d) BLEF i)) cW [1;2;3] = v;
  pc_totE : tot (fun i => s_height (at_side (d_shape d) BRIG i)) cE [1;2;3] = v;
  pc_w : least (width_ok d inp) w;
  pc_v : least (height_ok d inp) v;
  pc_h : hpl + i_maxline inp + hpr = w;
  pc_f : f1 + i_num_lines inp + f2 = v;
  pc_halign : ~ squeezed o d (w - i_maxline inp) ->
              distributes (halign o) (d_pad_left d) (d_pad_right d) (w - i_maxline inp) hpl hpr;
  pc_valign : distributes (valign o) (d_pad_top d) (d_pad_bottom d) (v - i_num_lines inp) f1 f2
}.
End Picture.

(** ** Printing *)
(** [ls] with line terminators; the last one only if [fin] *)
Fixpoint terminated (eol : list N) (fin : bool) (ls : list (list N)) : list N :=
  match ls with
  | [] => []
  | [l] => l ++ (if fin then eol else [])
  | l :: r => l ++ eol ++ terminated eol fin r
  end.

(** [p] is the row [s] as printed: cut off behind the last non-blank, escape sequences deleted if there are
    no colours *)
Definition printed (U : uctab) (color : bool) (s p : list N) : Prop :=
  exists keep cut, reads s (keep ++ cut) /\ p = (if color then render keep else visible keep) /\
    forallb (is_blank U) (visible cut) = true /\
    (forallb (is_blank U) (visible (keep ++ cut)) = false ->
       exists m c, visible keep = m ++ [c] /\ is_blank U c = false).

(** size of the box without blank borders that only exist on paper *)
Definition shown_width (d : design) (w : nat) : nat :=
  (if blank_side d BLEF then 0 else left_w d) + w + (if blank_side d BRIG then 0 else right_w d).
Definition shown_height (d : design) (v : nat) : nat :=
  (if blank_side d BTOP then 0 else top_h d) + v + (if blank_side d BBOT then 0 else bottom_h d).

(** all elastic shapes of a side have size one *)
Definition unit_elastic (dim : sentry -> nat) (side : nat -> sentry) : Prop :=
  forall i, In i [1; 2; 3] -> s_elastic (side i) = true -> dim (side i) = 1.
