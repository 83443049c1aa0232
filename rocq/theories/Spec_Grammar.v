(** * Specification: the grammar of configuration files, in terms of tokens (src/parser.y)

    What sequences of tokens make a design or the name of a parent file. *)
From Coq Require Import List NArith ZArith Bool.
From Verif Require Import Base Spec_Query Model_Parser Model_Scan.
Import ListNotations.
Local Open Scope list_scope.

(** ** tokens of the parts of a statement *)
Fixpoint ctoks {A : Type} (f : A -> token) (l : list A) : list token :=
  match l with [] => [] | [a] => [f a] | a :: r => f a :: T_COMMA :: ctoks f r end.
Definition shape_toks (p : nat * shape_def) : list token :=
  T_SHAPE (fst p) :: T_LPAR :: match snd p with no_lines => [] | lines a l => ctoks T_STRING (a :: l) end ++ [T_RPAR].
Definition pad_toks (p : list N * Z) : list token := [T_ASCII_ID (fst p); T_NUMBER (snd p)].
Inductive item_toks : item -> list token -> Prop :=
| it_keyword : forall k v, item_toks (i_keyword k v) [T_KEYWORD k; T_STRING v]
| it_bxword : forall k v, item_toks i_ignored [T_BXWORD k; T_STRING v]
| it_id : forall k v, item_toks i_ignored [T_ASCII_ID k; T_STRING v]
| it_delim : item_toks i_ignored [T_CHGDEL; T_DELIMSPEC]
| it_tag : forall v, item_toks (i_tags [v]) [T_TAGS; T_STRING v]
| it_tags : forall l, l <> [] -> item_toks (i_tags l) (T_TAGS :: T_LPAR :: ctoks T_STRING l ++ [T_RPAR])
| it_sample : forall v, item_toks (i_sample v) [T_SAMPLE; T_STRING v; T_ENDSAMPLE]
| it_shapes : forall l, l <> [] -> item_toks (i_shapes l) (T_SHAPES :: T_LBRACE :: flat_map shape_toks l ++ [T_RBRACE])
| it_elastic : forall l, l <> [] -> item_toks (i_elastic l) (T_ELASTIC :: T_LPAR :: ctoks T_SHAPE l ++ [T_RPAR])
| it_replace : forall a b m f, f = [] /\ m = 103%N \/ f = [T_RXPFLAG m] -> item_toks (i_replace a b m) (T_REPLACE :: f ++ [T_STRING a; T_WITH; T_STRING b])
| it_reverse : forall a b m f, f = [] /\ m = 103%N \/ f = [T_RXPFLAG m] -> item_toks (i_reverse a b m) (T_REVERSE :: f ++ [T_STRING a; T_TO; T_STRING b])
| it_padding : forall l, l <> [] -> item_toks (i_padding l) (T_PADDING :: T_LBRACE :: flat_map pad_toks l ++ [T_RBRACE]).

Definition alias_toks (al : list (list N)) : list token := flat_map (fun a => [T_COMMA; T_ASCII_ID a]) al.

(** a design, or the name of a parent file *)
Inductive stmt_toks : stmt -> list token -> Prop :=
| st_box : forall n al l e tss, Forall2 item_toks l tss -> l <> [] ->
    stmt_toks (s_box n al l e) (T_BOX :: T_ASCII_ID n :: alias_toks al ++ concat tss ++ [T_END; T_ASCII_ID e])
| st_parent : forall f, stmt_toks (s_parent f) [T_PARENT; T_FILENAME f].

(** a statement that the program rejects *)
Definition faulty_stmt (s : stmt) : Prop :=
  match s with s_box _ _ l _ => l = [] \/ In i_bad l | s_parent _ => False | _ => True end.
(** the tokens with which a statement begins *)
Definition starts (t : token) : Prop := t = T_BOX \/ t = T_PARENT.
(** The statements of [l] account for all of [ts]: those without faults are written out one behind the other, a faulty one
    stands for tokens up to the next beginning of a statement. *)
Inductive stands_in : list stmt -> list token -> Prop :=
| si_nil : stands_in [] []
| si_good : forall s us l r, stmt_toks s us -> stands_in l r -> stands_in (s :: l) (us ++ r)
| si_faulty : forall s l t a r, faulty_stmt s -> Forall (fun x => ~ starts x) a -> (r = [] \/ exists t' r', r = t' :: r' /\ starts t') ->
    stands_in l r -> stands_in (s :: l) (t :: a ++ r).

(** ** names of designs as written in the file *)
Definition names_in (s : stmt) : list (list N) := match s with s_box n al _ _ => n :: al | _ => [] end.
Definition common_name (s s' : stmt) : Prop := exists x y, In x (names_in s) /\ In y (names_in s') /\ nocase x y.
(** neither [n] is a name of this design, nor is it the name of another file *)
Definition other_than (n : list N) (s : stmt) : Prop :=
  match s with s_parent _ => False | _ => forall x, In x (names_in s) -> ~ nocase x n end.
