(** * Model of src/bxstring.c *)
From Coq Require Import List Arith NArith ZArith Bool.
From Verif Require Import Base Model_Unicode.
Import ListNotations.

(** src/bxstring.h [bxstr_t]. [first_char] and [visible_char] hold only the initialised entries
    (num_chars_visible + 1 of them); reading beyond them is [UB] in the model (in C: uninitialised
    memory or out of bounds). *)
Record bxstr : Type := mkBxs {
  memory : list N;
  ascii : list N;
  indent : nat;
  num_columns : nat;
  num_chars : nat;
  num_chars_visible : nat;
  num_chars_invisible : nat;
  trailing : nat;
  first_char : list nat;
  visible_char : list nat
}.

(** Local variables of [bxs_from_unicode], src/bxstring.c:94-107. *)
Record bst : Type := mkBst {
  b_map_size : nat;
  b_ascii : list N;
  b_indent : nat;
  b_columns : nat;
  b_visible : nat;
  b_invisible : nat;
  b_first : list nat;
  b_visc : list nat;
  b_indent_active : bool;
  b_streak : nat;
  b_cand : option nat;
  b_nonblank : bool;
  b_idx : nat
}.

Definition bst0 : bst := mkBst 5 [] 0 0 0 0 [] [] true 0 None false 0.

Section WithTables.
Variable U : uctab.

(** src/bxstring.c:131-146: columns and ASCII replacement of one visible character. *)
Definition char_cols (c : N) : nat :=
  if is_ascii_printable c then 1
  else if N.eqb c char_tab then 1
  else Z.to_nat (Z.max 0 (uc_width U c)).

Definition char_ascii (c : N) : list N :=
  if is_ascii_printable c then [c]
  else if N.eqb c char_tab then [32%N]
  else repeat (if uc_is_blank U c then 32%N else 120%N) (Z.to_nat (Z.max 0 (uc_width U c))).

(** src/bxstring.c:109-176: one iteration of the loop. [ascii_len] is the size of the buffer for the ASCII
    shadow; writing beyond it is [UB]. In C the map entries are written at index num_chars_visible, which is
    the length of the lists here (the entry of an ESC is never written). *)
Definition bxs_step (ascii_len : nat) (st : bst) (rest : list N) : res (bst * list N) :=
  match rest with
  | [] => Ok (st, rest)
  | c :: _ =>
      let map_size := if b_map_size st - 2 <=? b_visible st
                      then b_map_size st * 2 + 1 else b_map_size st in
      if negb (is_allowed_anywhere U c) then Err else
      let '(moved, step_invis) := advance_next32 rest in
      let esc := N.eqb c char_esc in
      let blank := is_blank U c in
      let reset := negb blank && negb esc in
      if negb esc && (ascii_len <? length (b_ascii st) + char_cols c) then UB else
      if negb esc && (map_size <=? b_visible st) then UB else
      let st' :=
        mkBst map_size
          (if esc then b_ascii st else b_ascii st ++ char_ascii c)
          (if negb esc && blank && b_indent_active st then b_indent st + char_cols c else b_indent st)
          (if esc then b_columns st else b_columns st + char_cols c)
          (if step_invis =? 0 then S (b_visible st) else b_visible st)
          (b_invisible st + step_invis)
          (if esc then b_first st else
             b_first st ++ [match b_cand st with None => b_idx st | Some k => k end])
          (if esc then b_visc st else b_visc st ++ [b_idx st])
          (if reset then false else b_indent_active st)
          (if reset then 0 else if negb esc && blank then S (b_streak st) else b_streak st)
          (if esc then (if is_csi_reset rest then None else Some (b_idx st)) else None)
          (if reset then true else b_nonblank st)
          (if step_invis =? 0 then S (b_idx st) else b_idx st + step_invis)
      in Ok (st', skipn moved rest)
  end.

Fixpoint bxs_loop (fuel : nat) (ascii_len : nat) (st : bst) (rest : list N) : res bst :=
  match rest with
  | [] => Ok st
  | _ => match fuel with
         | O => Fuel
         | S f => '(st', rest') <- bxs_step ascii_len st rest ;; bxs_loop f ascii_len st' rest'
         end
  end.

(** src/bxstring.c:83-180 *)
Definition bxs_from_unicode (s : list N) : res bxstr :=
  let ascii_len := u32_strwidth U s + 1 in
  st <- bxs_loop (length s) ascii_len bst0 s ;;
  if ascii_len <=? length (b_ascii st) then UB   (* the terminating NUL at line 175 *)
  else if b_map_size st <=? b_visible st then UB
  else Ok (mkBxs s (b_ascii st) (b_indent st) (b_columns st) (length s)
             (b_visible st) (b_invisible st)
             (if b_nonblank st then b_streak st else 0)
             (b_first st ++ [b_idx st]) (b_visc st ++ [b_idx st])).

(** src/tools.c:487-543 [count_invisible_chars], only the return value. *)
Fixpoint count_invisible (fuel : nat) (s : list N) : nat :=
  match s, fuel with
  | [], _ => 0
  | _, O => 0
  | _, S f => let '(moved, inv) := advance_next32 s in inv + count_invisible f (skipn moved s)
  end.

Definition count_invisible_chars (s : list N) : nat := count_invisible (length s) s.

(** [strspn (s, " ")] and src/tools.c:343-359 [my_strrspn (s, " ")] *)
Fixpoint spn (p : N -> bool) (s : list N) : nat :=
  match s with
  | c :: r => if p c then S (spn p r) else 0
  | [] => 0
  end.
Definition rspn (p : N -> bool) (s : list N) : nat := spn p (rev s).

Definition is_space (c : N) : bool := N.eqb c 32.

(** src/bxstring.c:35-79. The argument is ASCII, one byte per character. *)
Definition bxs_from_ascii (s : list N) : res bxstr :=
  if negb (forallb (is_allowed_anywhere U) s) then Err else
  let inv := count_invisible_chars s in
  let vis := length s - inv in
  Ok (mkBxs s s (spn is_space s) (length s) (length s) vis inv (rspn is_space s)
        (seq 0 (S vis)) (seq 0 (S vis))).

(** src/bxstring.c:184-187 *)
Definition bxs_new_empty_string : bxstr := mkBxs [] [] 0 0 0 0 0 0 [0] [0].

(** src/bxstring.c:216-253. Trims blanks between the two (visible) positions. *)
Fixpoint trim_fwd (fuel : nat) (b : bxstr) (s e : nat) : res nat :=
  match fuel with
  | O => Ok s
  | S f =>
      if s <? e then
        p <- rd (visible_char b) s ;; c <- rdc (memory b) p ;;
        if uc_is_blank U c then trim_fwd f b (S s) e else Ok s
      else Ok s
  end.

Fixpoint trim_bwd (fuel : nat) (b : bxstr) (s e : nat) : res nat :=
  match fuel with
  | O => Ok e
  | S f =>
      if s <? e then
        p <- rd (visible_char b) (e - 1) ;; c <- rdc (memory b) p ;;
        if uc_is_blank U c then trim_bwd f b s (e - 1) else Ok e
      else Ok e
  end.

Definition bxs_trimdup (b : bxstr) (s e : nat) : res bxstr :=
  if num_chars_visible b <? s then Err
  else if num_chars_visible b <? e then Err
  else if e <? s then Err
  else
    s' <- trim_fwd (e - s) b s e ;;
    e' <- trim_bwd (e - s') b s' e ;;
    pe <- rd (first_char b) e' ;;
    ps <- rd (first_char b) s' ;;
    let mem := if e' <? num_chars_visible b then firstn pe (memory b) else memory b in
    if length mem <? ps then UB else bxs_from_unicode (skipn ps mem).

(** src/bxstring.c:257-278 *)
Definition bxs_substr (b : bxstr) (s e : nat) : res bxstr :=
  let s' := Nat.min s (num_chars b) in
  let e' := Nat.min e (num_chars b) in
  if e' <? s' then Err
  else bxs_from_unicode (skipn s' (firstn e' (memory b))).

(** src/bxstring.c:308-340: all arguments non-NULL; [u32_vsnprintf] with "%llU"... is concatenation. *)
Definition bxs_concat (l : list (list N)) : res bxstr := bxs_from_unicode (concat l).

(** src/bxstring.c:282-304, the second argument non-NULL *)
Definition bxs_strcat (b : bxstr) (s : list N) : res bxstr :=
  if length s =? 0 then Ok b
  else if num_chars b =? 0 then bxs_from_unicode s
  else bxs_from_unicode (memory b ++ s).

(** src/bxstring.c:364-377 *)
Definition bxs_cut_front (b : bxstr) (n : nat) : res bxstr :=
  if num_chars_visible b <=? n then Ok bxs_new_empty_string
  else if n =? 0 then Ok b
  else p <- rd (first_char b) n ;;
       if length (memory b) <? p then UB else bxs_from_unicode (skipn p (memory b)).

(** src/bxstring.c:404-410: the character string the returned pointer designates *)
Definition bxs_unindent_ptr (b : bxstr) : res (list N) :=
  p <- rd (first_char b) (indent b) ;;
  if length (memory b) <? p then UB else Ok (skipn p (memory b)).

(** src/bxstring.c:414-432 *)
Definition bxs_trim (b : bxstr) : res bxstr :=
  if (indent b =? 0) && (trailing b =? 0) then Ok b
  else if indent b + trailing b =? num_chars_visible b then Ok bxs_new_empty_string
  else
    k <- subz (num_chars_visible b) (trailing b) ;;
    pe <- rd (first_char b) k ;;
    if length (memory b) <? pe then UB else
    ps <- rd (first_char b) (indent b) ;;
    if length (memory b) <? ps then UB
    else if pe <? ps then bxs_from_unicode (skipn ps (memory b))   (* start lies behind the NUL just written *)
    else bxs_from_unicode (skipn ps (firstn pe (memory b))).

(** src/bxstring.c:436-450 *)
Fixpoint ltrim_count (fuel : nat) (b : bxstr) (i max dflt : nat) : res nat :=
  match fuel with
  | O => Ok dflt
  | S f =>
      if i <? max then
        p <- rd (visible_char b) i ;; c <- rdc (memory b) p ;;
        if is_blank U c then ltrim_count f b (S i) max dflt else Ok i
      else Ok dflt
  end.

Definition bxs_ltrim (b : bxstr) (max : nat) : res (list N) :=
  n <- ltrim_count max b 0 max (Nat.min max (num_chars_visible b)) ;;
  p <- rd (first_char b) n ;;
  if length (memory b) <? p then UB else Ok (skipn p (memory b)).

(** src/bxstring.c:454-468 *)
Definition bxs_rtrim (b : bxstr) : res bxstr :=
  if trailing b =? 0 then Ok b
  else
    k <- subz (num_chars_visible b) (trailing b) ;;
    p <- rd (first_char b) k ;;
    if length (memory b) <? p then UB
    else bxs_from_unicode (firstn p (memory b)).

(** src/bxstring.c:472-516 *)
Definition bxs_prepend_spaces (b : bxstr) (n : nat) : res bxstr :=
  if n =? 0 then Ok b
  else Ok (mkBxs (u32_nspaces n ++ memory b) (repeat 32%N n ++ ascii b)
             (indent b + n) (num_columns b + n) (num_chars b + n)
             (num_chars_visible b + n) (num_chars_invisible b) (trailing b)
             (seq 0 n ++ map (fun i => i + n) (first_char b))
             (seq 0 n ++ map (fun i => i + n) (visible_char b))).

(** src/bxstring.c:520-547 *)
Definition bxs_append_spaces (b : bxstr) (n : nat) : bxstr :=
  if n =? 0 then b
  else mkBxs (memory b ++ u32_nspaces n) (ascii b ++ repeat 32%N n)
         (indent b) (num_columns b + n) (num_chars b + n)
         (num_chars_visible b + n) (num_chars_invisible b) (trailing b + n)
         (firstn (num_chars_visible b) (first_char b) ++ seq (num_chars b) (S n))
         (firstn (num_chars_visible b) (visible_char b) ++ seq (num_chars b) (S n)).

(** src/bxstring.c:614-630 *)
Definition bxs_filter_visible (b : bxstr) : res (list N) :=
  if num_chars_invisible b =? 0 then Ok (memory b)
  else mapM (fun i => p <- rd (visible_char b) i ;; rdc (memory b) p)
            (seq 0 (num_chars_visible b)).

(** src/bxstring.c:551-565; the result is the code point sequence handed to the encoder. *)
Definition bxs_to_output (color : bool) (b : bxstr) : res (list N) :=
  if color then Ok (memory b) else bxs_filter_visible b.

(** src/bxstring.c:579-591. The C loop stops at the first non-blank character; all visible positions of a
    string built in this module are in bounds, so reading them all makes no difference. *)
Definition bxs_is_blank (b : bxstr) : res bool :=
  if num_chars b =? 0 then Ok true
  else
    l <- mapM (fun i => p <- rd (visible_char b) i ;; rdc (memory b) p)
              (seq 0 (num_chars_visible b)) ;;
    Ok (forallb (fun c => N.eqb c char_tab || N.eqb c char_cr || uc_is_blank U c) l).

(** src/bxstring.c:652-707 *)
Definition bxs_valid_in_shape (b : bxstr) : bool :=
  (0 <? num_chars_visible b) && forallb (is_allowed_in_shape U) (memory b).
Definition bxs_valid_in_filename (b : bxstr) : bool :=
  (0 <? num_chars_visible b) && (num_chars_invisible b =? 0)
  && forallb (is_allowed_in_filename U) (memory b).
Definition bxs_valid_in_kv_string (b : bxstr) : bool := forallb (is_allowed_in_filename U) (memory b).
End WithTables.
