(** * Specification of terminal strings, independent of the model's scanner.

    A string is read as a sequence of tokens: visible characters, complete escape sequences,
    an unterminated sequence at the very end, or an ESC followed by a character that starts no known
    sequence. *)
From Coq Require Import List Arith NArith ZArith Bool.
Import ListNotations.

Inductive tok : Type :=
| Vis (c : N)               (* a character that is not ESC *)
| Esc (body : list N)       (* complete escape sequence, including the ESC *)
| Cut (body : list N)       (* incomplete sequence at the end of the string *)
| Odd (d : N).              (* ESC d with an unknown d *)

Definition tok_chars (t : tok) : list N :=
  match t with
  | Vis c => [c]
  | Esc b => b
  | Cut b => b
  | Odd d => [27%N; d]
  end.

Definition render (ts : list tok) : list N := flat_map tok_chars ts.

Definition opener (d : N) : Prop := d = 91%N \/ d = 40%N.
Definition final (f : N) : Prop := (64 <= f <= 126)%N.

Definition tok_ok (t : tok) : Prop :=
  match t with
  | Vis c => c <> 27%N
  | Esc b =>
      (exists d, b = [27%N; d] /\ (64 <= d <= 95)%N /\ d <> 91%N)
      \/ (exists d ps f, b = 27%N :: d :: ps ++ [f] /\ opener d /\ Forall (fun p => ~ final p) ps /\ final f)
  | Cut b =>
      b = [27%N]
      \/ (exists d ps, b = 27%N :: d :: ps /\ opener d /\ Forall (fun p => ~ final p) ps)
  | Odd d => ~ opener d /\ ~ (64 <= d <= 95)%N
  end.

Definition is_cut (t : tok) : bool := match t with Cut _ => true | _ => false end.
Definition is_odd (t : tok) : bool := match t with Odd _ => true | _ => false end.

(** A valid reading: every token is of its kind; an incomplete one only at the end. *)
Fixpoint toks_ok (ts : list tok) : Prop :=
  match ts with
  | [] => True
  | t :: r => tok_ok t /\ (is_cut t = true -> r = []) /\ toks_ok r
  end.

(** no unknown sequences *)
Definition clean (ts : list tok) : Prop := toks_ok ts /\ Forall (fun t => is_odd t = false) ts.
(** additionally no incomplete sequence at the end: such strings can be concatenated *)
Definition closed (ts : list tok) : Prop := clean ts /\ Forall (fun t => is_cut t = false) ts.

(** visible characters, and number of characters in escape sequences *)
Definition visible (ts : list tok) : list N :=
  flat_map (fun t => match t with Vis c => [c] | _ => [] end) ts.
Definition invisible_len (ts : list tok) : nat :=
  fold_right (fun t n => match t with Vis _ => 0 | t => length (tok_chars t) end + n) 0 ts.

(** columns on the terminal, given the width of a character *)
Definition columns (cw : N -> nat) (ts : list tok) : nat :=
  fold_right (fun c n => cw c + n) 0 (visible ts).

(** Sequences that switch attributes off: CSI or ESC ( with no parameter or one of 0, 10, 39, 49, 59, 75. *)
Definition switch_off (b : list N) : Prop :=
  exists d ps f, b = 27%N :: d :: ps ++ [f] /\ opener d /\ final f /\
    In ps [[]; [48]; [49; 48]; [51; 57]; [52; 57]; [53; 57]; [55; 53]]%N.
(** [e] is the escape sequence that belongs to the character following [a ++ e]: the sequence directly in
    front of it, provided it does not switch attributes off. *)
Definition attached (a e : list tok) : Prop :=
  (e = [] /\ forall a' b, a = a' ++ [Esc b] -> switch_off b) \/ (exists b, e = [Esc b] /\ ~ switch_off b).

(** positions (in the rendered string) of the visible characters *)
Fixpoint vis_pos (o : nat) (ts : list tok) : list nat :=
  match ts with
  | [] => []
  | Vis c :: r => o :: vis_pos (S o) r
  | t :: r => vis_pos (o + length (tok_chars t)) r
  end.

(** Number of leading / trailing elements satisfying a predicate. *)
Fixpoint lead (p : N -> bool) (l : list N) : nat :=
  match l with
  | c :: r => if p c then S (lead p r) else 0
  | [] => 0
  end.
Definition trail (p : N -> bool) (l : list N) : nat := lead p (rev l).

From Verif Require Import Model_Unicode.

(** Facts about the libunistring tables used as hypotheses (true of every released version):
    printable ASCII is not control, one column wide, and the space is its only blank. *)
Record uctab_ok (U : uctab) : Prop := {
  ok_width : forall c, is_ascii_printable c = true -> uc_width U c = 1%Z;
  ok_cntrl : forall c, is_ascii_printable c = true -> uc_is_cntrl U c = false;
  ok_space : uc_is_blank U 32%N = true;
  ok_blank : forall c, is_ascii_printable c = true -> uc_is_blank U c = true -> c = 32%N
}.

(** All visible characters are acceptable to the program. *)
Definition allowed (U : uctab) (ts : list tok) : Prop :=
  Forall (fun c => is_allowed_anywhere U c = true) (visible ts).
Definition tabless (ts : list tok) : Prop := ~ In 9%N (visible ts).

(** [ts] is the reading of the text [s]; every text has exactly one (see Prop_Str.v). *)
Definition reads (s : list N) (ts : list tok) : Prop := toks_ok ts /\ render ts = s.
(** all escape sequences of the reading are of a known family *)
Definition known (ts : list tok) : Prop := Forall (fun t => is_odd t = false) ts.
(** all blanks in front of the first non-blank are one column wide *)
Definition narrow_indent (blank : N -> bool) (cw : N -> nat) (l : list N) : Prop :=
  Forall (fun c => cw c = 1) (firstn (lead blank l) l).

(** width of a character on the terminal: control characters take no room, tabs count as one *)
Definition term_width (U : uctab) (c : N) : nat :=
  if N.eqb c 9 then 1 else Z.to_nat (uc_width U c).

(** [s] is well-behaved text (only complete, known escape sequences; acceptable characters; no tabs)
    that occupies [w] columns of the terminal *)
Definition shows (U : uctab) (w : nat) (s : list N) : Prop :=
  exists ts, reads s ts /\ known ts /\ Forall (fun t => is_cut t = false) ts /\
    allowed U ts /\ tabless ts /\ columns (term_width U) ts = w.
