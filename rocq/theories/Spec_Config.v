(** * Specification: how a configuration file is written

    This describes the language of configuration files the way a user sees it: what text stands for which design. It does not
    mention tokens, start conditions or the like. *)
From Coq Require Import Ascii String List NArith ZArith Bool.
From Verif Require Import Model_Parser Model_Lexer Spec_Lexer.
Import ListNotations.
Local Open Scope list_scope.

(** Latin letters without case *)
Definition lower (c : N) : N := if ((65 <=? c) && (c <=? 90))%N then (c + 32)%N else c.
(** [w] is the word [k], in upper or lower case letters *)
Definition spells (k : string) (w : list N) : Prop := map lower w = map N_of_ascii (list_ascii_of_string k).
Definition white (c : N) : Prop := In c [32; 9; 13; 10]%N.

(** what may stand between the parts of a file: white space, and comments up to the end of the line *)
Inductive gap : list N -> Prop :=
| g_nil : gap []
| g_white : forall c g, white c -> gap g -> gap (c :: g)
| g_comment : forall s g, ~ In 10%N s -> gap g -> gap (35%N :: s ++ 10%N :: g).
Definition gap1 (g : list N) : Prop := gap g /\ g <> [].

(** ** words *)
Definition letter (c : N) : Prop := (65 <= c <= 90 \/ 97 <= c <= 122)%N.
Definition name_char (c : N) : Prop := letter c \/ (48 <= c <= 57)%N \/ c = 95%N \/ c = 45%N.
Definition name (w : list N) : Prop := exists c r, w = c :: r /\ letter c /\ Forall name_char r.
(** words that mean something inside a design *)
Definition reserved (w : list N) : Prop := Exists (fun k => spells k w)
  ["sample"; "tags"; "elastic"; "shapes"; "replace"; "reverse"; "padding"; "to"; "with"; "global"; "once"; "end"; "author";
   "designer"; "indent"; "delimiter"; "delim"]%string.
(** a word with letters of other alphabets; a byte order mark is not a word *)
Definition foreign_word (w : list N) : Prop := exists c r, w = c :: r /\ (letter c \/ (128 <= c)%N) /\
  Forall (fun x => name_char x \/ (128 <= x)%N) r /\ Exists (fun x => (128 <= x)%N) w /\ w <> [65279%N].

(** ** strings, in the delimiters that are in effect *)
Definition written_string (d : delims) (v s : list N) : Prop :=
  exists body, s = sdel d :: body ++ [sdel d] /\ unescaped (sesc d) (sdel d) body v /\ ~ In 10%N body.

(** ** numbers *)
Fixpoint digits (s : list N) : option Z :=
  match s with
  | [] => Some 0%Z
  | c :: r => match digits r with
              | Some v => if ((48 <=? c) && (c <=? 57))%N then Some ((Z.of_N c - 48) * 10 ^ Z.of_nat (List.length r) + v)%Z else None
              | None => None
              end
  end.
Definition written_number (z : Z) (s : list N) : Prop :=
  (-2147483648 <= z <= 2147483647)%Z /\
  exists ds v, ds <> [] /\ digits ds = Some v /\ (s = ds /\ z = v \/ s = 43%N :: ds /\ z = v \/ s = 45%N :: ds /\ z = (- v)%Z).

(** ** lists *)

(** one or more things, separated by commas *)
Inductive comma_list {A : Type} (w : A -> list N -> Prop) : list A -> list N -> Prop :=
| cl_one : forall a s, w a s -> comma_list w [a] s
| cl_more : forall a s g1 g2 l t, w a s -> gap g1 -> gap g2 -> comma_list w l t ->
    comma_list w (a :: l) (s ++ g1 ++ 44%N :: g2 ++ t).
(** one or more things, one after the other *)
Inductive some_list {A : Type} (w : A -> list N -> Prop) : list A -> list N -> Prop :=
| sl_one : forall a s, w a s -> some_list w [a] s
| sl_more : forall a s g l t, w a s -> gap g -> some_list w l t -> some_list w (a :: l) (s ++ g ++ t).

Definition shape_spelled (i : nat) (s : list N) : Prop :=
  exists k, nth_error ["nw"; "nnw"; "n"; "nne"; "ne"; "ene"; "e"; "ese"; "se"; "sse"; "s"; "ssw"; "sw"; "wsw"; "w"; "wnw"]%string i
    = Some k /\ spells k s.
(** a shape in a SHAPES block: its name, and its lines in parentheses *)
Inductive written_shape (d : delims) : nat * shape_def -> list N -> Prop :=
| ws_none : forall i n g1 g2, shape_spelled i n -> gap g1 -> gap g2 ->
    written_shape d (i, no_lines) (n ++ g1 ++ 40%N :: g2 ++ [41%N])
| ws_lines : forall i n g1 g2 a l s g3, shape_spelled i n -> gap g1 -> gap g2 -> comma_list (written_string d) (a :: l) s -> gap g3 ->
    written_shape d (i, lines a l) (n ++ g1 ++ 40%N :: g2 ++ s ++ g3 ++ [41%N]).
(** an entry of a PADDING block *)
Definition written_padding (p : list N * Z) (s : list N) : Prop :=
  exists g n, name (fst p) /\ ~ reserved (fst p) /\ gap1 g /\ written_number (snd p) n /\ s = fst p ++ g ++ n.
(** the flag of a REPLACE or REVERSE rule: global if not given *)
Definition written_flag (m : N) (s : list N) : Prop :=
  s = [] /\ m = 103%N \/
  exists g w, gap1 g /\ s = g ++ w /\ (spells "global" w /\ m = 103%N \/ spells "once" w /\ m = 111%N).

(** ** samples: the text up to a line that says ENDS *)

Definition blank (c : N) : Prop := In c [32; 9; 13]%N.
(** there is a line in [s] that ends with the word ENDS *)
Definition has_ends (s : list N) : Prop :=
  exists a e t r, s = a ++ e ++ t ++ 10%N :: r /\ spells "ends" e /\ Forall blank t.
(** the sample without empty lines at the beginning and without white space at the end *)
Definition sample_text (s v : list N) : Prop :=
  exists n q, s = n ++ v ++ q /\ Forall (eq 10%N) n /\ Forall white q /\
  (exists c r, v = c :: r /\ c <> 10%N) /\ (exists c r, v = r ++ [c] /\ ~ white c).

(** ** one entry or block of a design; the delimiters after it *)
Inductive written_item : delims -> item -> list N -> delims -> Prop :=
| wi_keyword : forall d k g v s, spells "author" k \/ spells "designer" k \/ spells "indent" k -> gap g -> written_string d v s ->
    written_item d (i_keyword k v) (k ++ g ++ s) d
| wi_other : forall d k g v s, name k /\ ~ reserved k \/ foreign_word k -> gap g -> written_string d v s ->
    written_item d i_ignored (k ++ g ++ s) d
| wi_delimiter : forall d k g e x c, spells "delim" k \/ spells "delimiter" k -> Forall white g -> g <> [] ->
    In x LEX_SDELIM -> (e < 128)%N -> ~ white e -> e <> x -> white c ->
    written_item d i_ignored (k ++ g ++ [e; x; c]) (mkDelims x e)
| wi_tag : forall d k g v s, spells "tags" k -> gap g -> written_string d v s -> written_item d (i_tags [v]) (k ++ g ++ s) d
| wi_tags : forall d k g1 g2 g3 l s, spells "tags" k -> gap g1 -> gap g2 -> comma_list (written_string d) l s -> gap g3 ->
    written_item d (i_tags l) (k ++ g1 ++ 40%N :: g2 ++ s ++ g3 ++ [41%N]) d
| wi_sample : forall d k s v b e t, spells "sample" k -> (exists c r, s = c :: r /\ ~ name_char c /\ (c < 128)%N) ->
    (exists r, s = r ++ [10%N]) -> ~ has_ends s -> sample_text s v ->
    Forall (fun c => c = 32%N \/ c = 9%N) b -> spells "ends" e -> Forall blank t ->
    written_item d (i_sample v) (k ++ s ++ b ++ e ++ t ++ [10%N]) d
| wi_shapes : forall d k g1 g2 l s g3, spells "shapes" k -> gap g1 -> gap g2 -> some_list (written_shape d) l s -> gap g3 ->
    written_item d (i_shapes l) (k ++ g1 ++ 123%N :: g2 ++ s ++ g3 ++ [125%N]) d
| wi_elastic : forall d k g1 g2 l s g3, spells "elastic" k -> gap g1 -> gap g2 -> comma_list shape_spelled l s -> gap g3 ->
    written_item d (i_elastic l) (k ++ g1 ++ 40%N :: g2 ++ s ++ g3 ++ [41%N]) d
| wi_replace : forall d k m f g1 a s1 g2 w g3 b s2, spells "replace" k -> written_flag m f -> gap g1 -> written_string d a s1 ->
    gap g2 -> spells "with" w -> gap g3 -> written_string d b s2 ->
    written_item d (i_replace a b m) (k ++ f ++ g1 ++ s1 ++ g2 ++ w ++ g3 ++ s2) d
| wi_reverse : forall d k m f g1 a s1 g2 w g3 b s2, spells "reverse" k -> written_flag m f -> gap g1 -> written_string d a s1 ->
    gap g2 -> spells "to" w -> gap g3 -> written_string d b s2 ->
    written_item d (i_reverse a b m) (k ++ f ++ g1 ++ s1 ++ g2 ++ w ++ g3 ++ s2) d
| wi_padding : forall d k g1 g2 l s g3, spells "padding" k -> gap g1 -> gap g2 -> some_list written_padding l s -> gap g3 ->
    written_item d (i_padding l) (k ++ g1 ++ 123%N :: g2 ++ s ++ g3 ++ [125%N]) d.

(** one or more of them; a delimiter specification holds for what follows it *)
Inductive written_items : delims -> list item -> list N -> Prop :=
| wl_one : forall d i s d', written_item d i s d' -> written_items d [i] s
| wl_more : forall d i s d' g l t, written_item d i s d' -> gap g -> written_items d' l t -> written_items d (i :: l) (s ++ g ++ t).

(** aliases: each one after a comma *)
Inductive written_aliases : list (list N) -> list N -> Prop :=
| wa_nil : written_aliases [] []
| wa_more : forall g1 g2 a l t, gap g1 -> gap g2 -> name a -> ~ reserved a -> written_aliases l t ->
    written_aliases (a :: l) (g1 ++ 44%N :: g2 ++ a ++ t).

(** ** designs and the names of parent files; what separates them from the next one is included *)
Inductive written_stmt : stmt -> list N -> Prop :=
| wt_box : forall k g1 n al a g2 l s g3 e g4 m g5, spells "box" k -> gap1 g1 -> name n -> ~ reserved n -> written_aliases al a ->
    gap1 g2 -> written_items default_delims l s -> gap g3 -> spells "end" e -> gap1 g4 ->
    name m -> ~ spells "box" m -> ~ spells "parent" m -> gap1 g5 ->
    written_stmt (s_box n al l m) (k ++ g1 ++ n ++ a ++ g2 ++ s ++ g3 ++ e ++ g4 ++ m ++ g5)
| wt_parent : forall k f c, spells "parent" k -> (exists x r, f = x :: r /\ ~ name_char x /\ (x < 128)%N) ->
    ~ In 13%N f -> ~ In 10%N f -> c = 13%N \/ c = 10%N ->
    written_stmt (s_parent f) (k ++ f ++ [c]).
Inductive written_stmts : list stmt -> list N -> Prop :=
| wc_one : forall s t, written_stmt s t -> written_stmts [s] t
| wc_more : forall s t g l u, written_stmt s t -> gap g -> written_stmts l u -> written_stmts (s :: l) (t ++ g ++ u).
(** a file: its last line ends with a line feed *)
Definition written_config (l : list stmt) (text : list N) : Prop :=
  exists g1 u g2, gap g1 /\ written_stmts l u /\ gap g2 /\ text = g1 ++ u ++ g2 /\ ~ In 0%N text /\ exists r, text = r ++ [10%N].

(** ** texts that the program cannot read at all *)

(** a number that is no int, at the beginning of [s] *)
Definition too_big (v : Z) : Prop := (v < -2147483648 \/ 2147483647 < v)%Z.
Definition big_number (s : list N) : Prop := exists sg ds r v, s = sg ++ ds ++ r /\ digits ds = Some v /\
  ((sg = [] \/ sg = [43%N]) /\ too_big v \/ sg = [45%N] /\ too_big (- v)).
(** a carriage return alone, at the beginning of [s] *)
Definition lone_cr (s : list N) : Prop := exists r, s = 13%N :: r /\ forall r', r <> 10%N :: r'.
