(** * Model of src/unicode.c and of the character level of src/tools.c *)
From Coq Require Import List Arith NArith ZArith Bool.
From Verif Require Import Base.
Import ListNotations.
Local Open Scope N_scope.

(** libunistring's character tables, as an explicit parameter (trusted base: external library).
    [uc_ws] stands for
    [uc_is_c_whitespace || uc_is_property_white_space || uc_is_property_bidi_whitespace]
    as used in src/tools.c:319. [uc_width] may be negative (control characters). *)
Record uctab : Type := mkUctab {
  uc_width : N -> Z;
  uc_is_blank : N -> bool;
  uc_is_cntrl : N -> bool;
  uc_ws : N -> bool
}.

(** src/unicode.c:40-55 *)
Definition char_tab : N := 9.
Definition char_space : N := 32.
Definition char_cr : N := 13.
Definition char_newline : N := 10.
Definition char_esc : N := 27.

(** src/unicode.c:91-94 *)
Definition is_ascii_printable (c : N) : bool := (32 <=? c) && (c <? 127).

Section WithTables.
Variable U : uctab.

(** src/unicode.c:98-102 *)
Definition is_allowed_anywhere (c : N) : bool :=
  negb (uc_is_cntrl U c) || (c =? char_tab) || (c =? char_cr) || (c =? char_newline) || (c =? char_esc).

(** src/unicode.c:106-109 *)
Definition is_allowed_in_shape (c : N) : bool :=
  is_allowed_anywhere c && negb (c =? char_cr) && negb (c =? char_newline).

(** src/unicode.c:113-116 *)
Definition is_allowed_in_sample (c : N) : bool := is_allowed_anywhere c.

(** src/unicode.c:120-130 (same body for filenames and key/value strings) *)
Definition is_allowed_in_filename (c : N) : bool :=
  is_allowed_anywhere c && negb (c =? char_cr) && negb (c =? char_newline) && negb (c =? char_esc).

(** src/unicode.c:138-141 *)
Definition is_blank (c : N) : bool := (c =? char_tab) || uc_is_blank U c.

(** src/unicode.c:74-87; the empty string is blank *)
Definition u32_is_blank (s : list N) : bool := forallb is_blank s.

(** libunistring [u32_strwidth]: characters of negative width do not count. *)
Definition u32_strwidth (s : list N) : nat :=
  sum (map (fun c => Z.to_nat (Z.max 0 (uc_width U c))) s).
End WithTables.

(** Final byte of a CSI sequence, src/unicode.c:193 *)
Definition csi_final (c : N) : bool := (64 <=? c) && (c <=? 126).

(** src/unicode.c:188-196: characters consumed inside a CSI sequence ([ansipos == 2]) up to and
    including the final byte, or up to the end of the string. *)
Fixpoint csi_tail (s : list N) : nat :=
  match s with
  | [] => 0
  | c :: r => if csi_final c then 1 else S (csi_tail r)
  end.

(** src/unicode.c:164-205 [advance_next32]. Returns (number of characters the pointer moves,
    value of [*invis]). Only called on non-empty strings (for an empty string the C code leaves
    [*invis] untouched). The last case of the ESC branch is the [else break] at line 198 reached in state
    [ansipos == 1]: [u32_next] has already moved past the second character, which is not counted. *)
Definition advance_next32 (s : list N) : nat * nat :=
  match s with
  | [] => (0, 0)%nat
  | c :: r =>
      if c =? char_esc then
        match r with
        | [] => (1, 1)%nat
        | d :: r' =>
            if (d =? 91) || (d =? 40) then (2 + csi_tail r', 2 + csi_tail r')%nat
            else if (64 <=? d) && (d <=? 95) then (2, 2)%nat
            else (2, 1)%nat
        end
      else (1, 0)%nat
  end.

(** src/tools.c:547-586 [is_csi_reset]. The C loop is a three-state automaton over at most five
    characters; [hd 0] reads the NUL terminator at the end of the string. *)
Definition is_csi_reset (s : list N) : bool :=
  match s with
  | c0 :: c1 :: c2 :: r =>
      (c0 =? char_esc) && ((c1 =? 91) || (c1 =? 40)) &&
      (let last (l : list N) := match l with c3 :: _ => csi_final c3 | [] => false end in
       if c2 =? 48 then last r
       else if csi_final c2 then true
       else
         let d := hd 0 r in
         if ((c2 =? 49) && (d =? 48)) || ((c2 =? 51) && (d =? 57)) || ((c2 =? 52) && (d =? 57))
            || ((c2 =? 53) && (d =? 57)) || ((c2 =? 55) && (d =? 53))
         then last (tl r)
         else false)
  | _ => false
  end.

(** src/unicode.c:302-314 *)
Definition u32_nspaces (n : nat) : list N := repeat char_space n.

(** Prefix comparison, [u32_strncmp (p, needle, n) == 0]: equal up to [n] characters or a common end. *)
Fixpoint strncmp0 (n : nat) (a b : list N) : bool :=
  match n with
  | O => true
  | S n' =>
      match a, b with
      | [], [] => true
      | x :: a', y :: b' => (x =? y) && strncmp0 n' a' b'
      | _, _ => false
      end
  end.

(** src/unicode.c:331-339: last [p] (scanning backwards) at which the needle matches, searched among
    start positions [0 .. k]. *)
Fixpoint strnrstr_from (k : nat) (hay needle : list N) (n : nat) : option nat :=
  if strncmp0 n (skipn k hay) needle then Some k
  else match k with O => None | S k' => strnrstr_from k' hay needle n end.

(** index of the last occurrence of a character ([u32_strrchr]) *)
Fixpoint strrchr (s : list N) (c : N) : option nat :=
  match s with
  | [] => None
  | x :: r => match strrchr r c with
              | Some i => Some (S i)
              | None => if x =? c then Some O else None
              end
  end.

(** src/unicode.c:318-340 [u32_strnrstr]. The C code decrements the pointer once past the start of the
    haystack before stopping; that comparison-only pointer is not treated as undefined here. *)
Definition u32_strnrstr (hay needle : list N) (n : nat) : option nat :=
  match needle with
  | [] => Some O
  | c :: _ =>
      match strrchr hay c with
      | None => None
      | Some k => strnrstr_from k hay needle n
      end
  end.

(** [u32_strstr] of libunistring: index of the first occurrence of the needle. *)
Fixpoint is_prefix (needle hay : list N) : bool :=
  match needle, hay with
  | [], _ => true
  | x :: n', y :: h' => (x =? y) && is_prefix n' h'
  | _ :: _, [] => false
  end.

Fixpoint u32_strstr (hay needle : list N) : option nat :=
  if is_prefix needle hay then Some O
  else match hay with
       | [] => None
       | _ :: r => match u32_strstr r needle with Some i => Some (S i) | None => None end
       end.

(** A small concrete table used in examples and counterexamples (values as in libunistring for these
    code points): ASCII is one column wide, control characters have width -1, U+3000 is a blank of
    width 2, CJK and emoji have width 2, combining marks U+0300..U+036F have width 0. *)
Definition demo_tab : uctab := mkUctab
  (fun c => if (c <? 32) || ((127 <=? c) && (c <? 160)) then (-1)%Z
            else if (768 <=? c) && (c <=? 879) then 0%Z
            else if ((12288 <=? c) && (c <=? 40959)) || (127744 <=? c) then 2%Z
            else 1%Z)
  (fun c => (c =? 9) || (c =? 32) || (c =? 12288) || (c =? 8195))
  (fun c => (c <? 32) || ((127 <=? c) && (c <? 160)))
  (fun c => (c =? 32) || ((9 <=? c) && (c <=? 13)) || (c =? 160) || (c =? 12288) || (c =? 8195)).
