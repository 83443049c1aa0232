(** * Base: outcomes and small list helpers shared by all model files. *)
From Coq Require Import List Arith NArith ZArith Bool Lia.
Import ListNotations.
Set Implicit Arguments.

(** Outcome of a C function.
    - [Ok v]   normal result;
    - [Err]    the function reports failure (NULL / non-zero return code);
    - [UB]     undefined behaviour (out-of-bounds access, NULL dereference, ...);
    - [Wrap]   an unsigned ([size_t]) subtraction wrapped around: well-defined in C, but the huge
               value is then used as a size; the model stops there;
    - [Fuel]   the model's loop bound was exhausted. *)
Inductive res (A : Type) : Type :=
| Ok (a : A)
| Err
| UB
| Wrap
| Fuel.
Arguments Ok {A} a.
Arguments Err {A}.
Arguments UB {A}.
Arguments Wrap {A}.
Arguments Fuel {A}.

Definition bind {A B : Type} (r : res A) (k : A -> res B) : res B :=
  match r with
  | Ok a => k a
  | Err => Err
  | UB => UB
  | Wrap => Wrap
  | Fuel => Fuel
  end.

Notation "x <- e ;; k" := (bind e (fun x => k))
  (at level 61, e at next level, right associativity).
Notation "' p <- e ;; k" := (bind e (fun p => k))
  (at level 61, p pattern, e at next level, right associativity).

(** A caller that dereferences the result without checking for NULL. *)
Definition must {A : Type} (r : res A) : res A :=
  match r with
  | Err => UB
  | r => r
  end.

(** Checked [size_t] subtraction. *)
Definition subz (a b : nat) : res nat := if a <? b then Wrap else Ok (a - b).

(** Array read; outside the initialised part is undefined behaviour. *)
Definition rd {A : Type} (l : list A) (i : nat) : res A :=
  match nth_error l i with
  | Some a => Ok a
  | None => UB
  end.

(** Read of a NUL-terminated character array: index = length reads the terminator. *)
Definition rdc (l : list N) (i : nat) : res N :=
  if i =? length l then Ok 0%N else rd l i.

(** Sequencing a list of outcomes. *)
Fixpoint mapM {A B : Type} (f : A -> res B) (l : list A) : res (list B) :=
  match l with
  | [] => Ok []
  | a :: r => b <- f a ;; bs <- mapM f r ;; Ok (b :: bs)
  end.

Definition sum (l : list nat) : nat := fold_right Nat.add 0 l.
Definition maxl (l : list nat) : nat := fold_right Nat.max 0 l.

Definition Neq_list (a b : list N) : bool :=
  if list_eq_dec N.eq_dec a b then true else false.
