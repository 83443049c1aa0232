Definition okb {A} (r : res A) (f : A -> bool) : bool := match r with Ok a => f a | _ => false end.
Definition bx0 (s : list N) : res bxstr := bxs_from_unicode demo_tab s.
Fixpoint leqb (a b : list N) : bool := match a, b with [], [] => true | x :: a, y :: b => N.eqb x y && leqb a b | _, _ => false end.
Fixpoint neqb (a b : list nat) : bool := match a, b with [], [] => true | x :: a, y :: b => Nat.eqb x y && neqb a b | _, _ => false end.
Definition beqb (a b : bxstr) : bool := leqb (memory a) (memory b) && (num_columns a =? num_columns b) && (num_chars a =? num_chars b)
  && (num_chars_visible a =? num_chars_visible b) && (num_chars_invisible a =? num_chars_invisible b) && (indent a =? indent b)
  && (trailing a =? trailing b) && neqb (first_char a) (first_char b) && neqb (visible_char a) (visible_char b).
Definition inp1 : input := mkinp ["Hello"; ""; "wide world"]%string true.
Definition rows (o : opts) (d : design) (i : input) : list (list N) := match draw_rows demo_tab 60 o d i with Ok l => map memory l | _ => [] end.
Definition rect (l : list (list N)) : bool := match l with [] => false | r :: _ => forallb (fun x => length x =? length r) l end.
Definition osz (w h : nat) : opts := mkOpts 101 8 108 116 0 w h (-1) (-1) (-1) (-1).
Definition blankrow (l : list N) : bool := forallb (fun c => N.eqb c 32 || N.eqb c 124) l.
Definition occurs (n : N) (l : list N) : nat := length (filter (N.eqb n) l).

Definition onrows (o : opts) (d : design) (i : input) (f : list (list N) -> bool) : bool :=
  match draw_rows demo_tab 60 o d i with Ok l => f (map memory l) | _ => true end.
Definition drawn (o : opts) (d : design) (i : input) : bool := match draw_rows demo_tab 60 o d i with Ok _ => true | Fuel => true | _ => false end.
Definition hin (o : opts) (d : design) (l : list (list N)) (f : input -> bool) : bool := okb (handle_input demo_tab false o d [] l) f.
Definition ktab : opts := mkOpts 107 8 108 116 0 0 0 (-1) (-1) (-1) (-1).
Definition demo_t : design := mkDesign demo_shapes 116 0 1 0 1 3 3.
Definition ssum (r : list N) : nat := length (filter (fun c => negb (N.eqb c 32)) r).
