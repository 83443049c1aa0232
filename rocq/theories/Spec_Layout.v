(** * What the parts of a design say, and the design that is made of them *)
From Coq Require Import Ascii String List Arith NArith ZArith Bool.
From Verif Require Import Base Model_Unicode Model_Bxs Model_Shape Model_Discovery Model_Parser Spec_Str Spec_Design Spec_Query Spec_Cmdline Spec_Parser.
Import ListNotations.
Local Open Scope nat_scope.
Local Open Scope list_scope.
(** Only types are taken from [Model_Parser]: the parts of a design in the file, and the design. *)

(** ** Entries with a keyword *)
Definition keyworded (w : string) (i : item) (l : list (list N)) : Prop :=
  match i with i_keyword k v => nocase k (lit w) /\ l = [v] \/ ~ nocase k (lit w) /\ l = [] | _ => l = [] end.
(** the letter of the mode is the first letter of the word as it was written *)
Definition indent_entry (i : item) (l : list N) : Prop :=
  match i with
  | i_keyword k v => nocase k (lit "indent") /\ (exists w, In w ["box"; "text"; "none"]%string /\ nocase v (lit w)) /\ l = [hd 0%N v] \/ ~ nocase k (lit "indent") /\ l = []
  | _ => l = []
  end.

(** ** Padding: the name of an area can be abbreviated, unknown areas and negative numbers have no effect *)
Definition areas_of_padding : list (string * list bside) :=
  [("all", [BTOP; BRIG; BBOT; BLEF]); ("horizontal", [BRIG; BLEF]); ("vertical", [BTOP; BBOT]); ("top", [BTOP]); ("right", [BRIG]); ("left", [BLEF]); ("bottom", [BBOT])]%string.
Definition short_for (area : list N) (w : string) : Prop := exists a b, lit w = a ++ b /\ nocase area a.
Definition pad_entry (e : list N * Z) (gs : list (list bside * nat)) : Prop :=
  (0 <= snd e)%Z /\ (exists w l, In (w, l) areas_of_padding /\ short_for (fst e) w /\ (fst e = [] -> w = "all"%string) /\ gs = [(l, Z.to_nat (snd e))]) \/
  ((snd e < 0)%Z \/ forall w l, In (w, l) areas_of_padding -> ~ short_for (fst e) w) /\ gs = [].
Definition bside_eqb (a b : bside) : bool := match a, b with BTOP, BTOP | BRIG, BRIG | BBOT, BBOT | BLEF, BLEF => true | _, _ => false end.
Definition padding_at (s : bside) (g : list bside * nat) : option nat := if existsb (bside_eqb s) (fst g) then Some (snd g) else None.
Definition padding_block (i : item) (gs : list (list bside * nat)) : Prop :=
  match i with i_padding l => exists gss, Forall2 pad_entry l gss /\ gs = concat gss | _ => gs = [] end.

(** ** Tags *)
Definition tagged (U : uctab) (i : item) (t : list N) : Prop :=
  match i with i_tags l => exists s, In s l /\ tag_in U s t | i_keyword k v => nocase k (lit "tags") /\ tag_in U v t | _ => False end.

(** ** Substitutions, in the order of the file *)
Definition substitutions (layout : list item) : list (list N * list N * N) := flat_map (fun i => match i with i_replace s r m => [(s, r, m)] | _ => [] end) layout.
Definition reversions (layout : list item) : list (list N * list N * N) := flat_map (fun i => match i with i_reverse s r m => [(s, r, m)] | _ => [] end) layout.
Definition texts_of (r : rule) : list N * list N * N := (memory (r_search r), memory (r_repstr r), r_mode r).

(** ** The sample: without blank lines in front, with the line terminators of the output *)
Section Sample.
Variables (U : uctab) (eol : list N).
Inductive blank_lines : list N -> Prop :=
| bl_none : blank_lines []
| bl_more : forall b r, Forall (fun c => uc_is_blank U c = true \/ c = 13%N) b -> blank_lines r -> blank_lines (b ++ 10%N :: r).
Definition starts_blank (s : list N) : Prop := exists b r, s = b ++ 10%N :: r /\ Forall (fun c => uc_is_blank U c = true \/ c = 13%N) b.
Inductive terminators_replaced : list N -> list N -> Prop :=
| tr_end : terminators_replaced [] []
| tr_crlf : forall r r', terminators_replaced r r' -> terminators_replaced (13%N :: 10%N :: r) (eol ++ r')
| tr_cr : forall r r', hd 0%N r <> 10%N -> terminators_replaced r r' -> terminators_replaced (13%N :: r) (eol ++ r')
| tr_lf : forall r r', terminators_replaced r r' -> terminators_replaced (10%N :: r) (eol ++ r')
| tr_other : forall c r r', c <> 13%N -> c <> 10%N -> terminators_replaced r r' -> terminators_replaced (c :: r) (c :: r').
Definition sample_shown (s t : list N) : Prop := exists a b, s ++ [10%N] = a ++ b /\ blank_lines a /\ ~ starts_blank b /\ terminators_replaced b t.
End Sample.
Definition samples (layout : list item) : list (list N) := flat_map (fun i => match i with i_sample s => [s] | _ => [] end) layout.

(** ** Shapes *)
Definition given_in (l : list (nat * shape_def)) : list (nat * list (list N)) := flat_map (fun p => match snd p with no_lines => [] | lines f more => [(fst p, f :: more)] end) l.
Definition given (layout : list item) : list (nat * list (list N)) := flat_map (fun i => match i with i_shapes l => given_in l | _ => [] end) layout.

(** ** Texts that can be used: strings for tags and shapes are plain, shapes are at least one column wide, the sample ends with something visible *)
Definition legible (U : uctab) (i : item) : Prop :=
  match i with
  | i_keyword k v => (nocase k (lit "tags") -> plain_text v) /\ (nocase k (lit "indent") -> Forall (fun c => 32 <= c < 127)%N v)
  | i_tags l => Forall plain_text l
  | i_sample s => exists ts r c, clean ts /\ render ts = s /\ visible ts = r ++ [c] /\ is_blank U c = false
  | i_shapes l => Forall (fun p => tidy_shape U (snd p)) l /\ Forall (fun p => Forall (fun t => exists w, shows U w t /\ 0 < w) (snd p)) (given_in l)
  | _ => True
  end.

(** ** The whole design *)
Record described (U : uctab) (eol : list N) (layout : list item) (d : cdesign) : Prop := {
  dc_author : exists ls, Forall2 (keyworded "author") layout ls /\ latest (fun v => Some (Some v)) (concat ls) None (option_map memory (c_author d));
  dc_designer : exists ls, Forall2 (keyworded "designer") layout ls /\ latest (fun v => Some (Some v)) (concat ls) None (option_map memory (c_designer d));
  dc_indent : exists ls, Forall2 indent_entry layout ls /\ latest Some (concat ls) 98%N (c_indentmode d);
  dc_keywords : forall k v, In (i_keyword k v) layout -> exists w, In w ["author"; "designer"; "tags"; "indent"]%string /\ nocase k (lit w);
  dc_tags : NoDup (c_tags d) /\ forall t, In t (c_tags d) <-> exists i, In i layout /\ tagged U i t;
  dc_padding : forall s, exists ls, Forall2 padding_block layout ls /\ latest (padding_at s) (concat ls) 0 (c_padding d s);
  dc_replace : map texts_of (c_reprules d) = substitutions layout;
  dc_reverse : map texts_of (c_revrules d) = reversions layout;
  dc_sample : samples layout = [] /\ c_sample d = None \/ exists s b, samples layout = [s] /\ c_sample d = Some b /\ sample_shown U eol s (memory b);
  (* no shape twice; what is given is what is shown, everything else is missing or blank *)
  dc_once : NoDup (map fst (given layout));
  dc_shapes : forall i t, In (i, t) (given layout) -> map memory (s_mbcs (c_shape d i)) = t /\ s_height (c_shape d i) = List.length t /\ Forall (fun x => shows U (s_width (c_shape d i)) x) t;
  dc_others : forall i, ~ In i (map fst (given layout)) -> isempty (c_shape d i) = true \/ blank_shape (c_shape d i);
  (* shapes are elastic if they are declared so after they were given *)
  dc_elastic : forall l1 l l2 i t, layout = l1 ++ i_shapes l :: l2 -> In (i, t) (given_in l) -> (s_elastic (c_shape d i) = true <-> exists e, In (i_elastic e) l2 /\ In i e);
  (* the smallest box *)
  dc_width : c_minwidth d = Nat.max (sum (map (fun i => size s_width (c_shape d i)) (side_of BTOP))) (sum (map (fun i => size s_width (c_shape d i)) (side_of BBOT)));
  dc_height : c_minheight d = Nat.max (sum (map (fun i => size s_height (c_shape d i)) (side_of BLEF))) (sum (map (fun i => size s_height (c_shape d i)) (side_of BRIG)));
  dc_highest : c_maxshapeheight d = maxl (map (fun i => size s_height (c_shape d i)) (seq 0 16))
}.

(** ** A statement of the file, and the design *)
Definition alias_known (children : list cdesign) (a : list N) : Prop := exists d b, In d children /\ In b (c_aliases d) /\ nocase b a.
Definition stands_for (U : uctab) (eol : list N) (children : list cdesign) (s : stmt) (d : cdesign) : Prop :=
  exists name aliases layout name_at_end, s = s_box name aliases layout name_at_end /\ nocase name name_at_end /\ c_name d = Some name /\
    (* aliases that a file read before has already used are left out *)
    (exists new, (forall a, new a = true <-> ~ alias_known children a) /\ c_aliases d = filter new aliases) /\
    described U eol layout d.
Definition legible_stmt (U : uctab) (s : stmt) : Prop := match s with s_box _ _ layout _ => Forall (legible U) layout | _ => True end.
