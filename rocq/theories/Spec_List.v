(** * What a listing of a design says: C69 *)
From Coq Require Import Ascii String List Arith NArith Bool.
From Verif Require Import Base Model_Unicode Model_Bxs Model_Shape Model_Parser Spec_Str Prop_Str Spec_Lexer Prop_Lexer Spec_Query Spec_Config Model_Query.
Import ListNotations.
Local Open Scope nat_scope.
Local Open Scope list_scope.

(** the characters of an ASCII text *)
Definition chars (s : string) : list N := map N_of_ascii (list_ascii_of_string s).

(** ** Numbers: decimal digits, no zeros in front *)
Definition value (s : list N) : N := fold_left (fun a c => 10 * a + (c - 48))%N s 0%N.
Definition decimal (n : nat) (s : list N) : Prop :=
  s <> [] /\ Forall (fun c => 48 <= c <= 57)%N s /\ (forall r, s = 48%N :: r -> r = []) /\ value s = N.of_nat n.

(** ** Lists *)
Fixpoint commas (l : list (list N)) : list N :=
  match l with [] => [] | [x] => x | x :: r => x ++ chars ", " ++ commas r end.
Definition or_none (l : list (list N)) : list N := match l with [] => chars "none" | _ => commas l end.

(** ** What a string looks like: with colours all of it, else without the escape sequences *)
Definition looks (U : uctab) (color : bool) (b : bxstr) (t : list N) : Prop :=
  exists ts, reads (memory b) ts /\ known ts /\ bxs_from_unicode U (memory b) = Ok b /\ t = if color then memory b else visible ts.
Definition looks_or (U : uctab) (color : bool) (dflt : string) (o : option bxstr) (t : list N) : Prop :=
  match o with Some b => looks U color b t | None => t = chars dflt end.

(** ** Rules, numbered from 1 *)
Inductive rule_text (U : uctab) (color : bool) (sep : string) : nat -> rule -> list N -> Prop :=
| rt : forall i r n s t m, decimal (S i) n -> looks U color (r_search r) s -> looks U color (r_repstr r) t ->
    (r_mode r = 103%N /\ m = chars "glob" \/ r_mode r <> 103%N /\ m = chars "once") ->
    rule_text U color sep i r (n ++ chars ". (" ++ m ++ chars ") """ ++ s ++ chars """ " ++ chars sep ++ chars " """ ++ t ++ chars """").
(** entries and their numbers *)
Inductive numbered {A B : Type} (R : nat -> A -> B -> Prop) : nat -> list A -> list B -> Prop :=
| nb_nil : forall i, numbered R i [] []
| nb_cons : forall i a b l m, R i a b -> numbered R (S i) l m -> numbered R i (a :: l) (b :: m).
Definition rules_say (U : uctab) (color : bool) (sep : string) (l : list rule) (ls : list (list N)) : Prop :=
  l = [] /\ ls = [chars "none"] \/ l <> [] /\ numbered (rule_text U color sep) 0 l ls.
(** a label of 24 columns in front of the first line *)
Definition labelled (label : string) (ls : list (list N)) : list (list N) :=
  match ls with [] => [] | x :: r => (chars label ++ x) :: map (fun y => repeat 32%N 24 ++ y) r end.

(** ** Padding: the sides that have some *)
Definition sides : list (string * bside) := [("left", BLEF); ("top", BTOP); ("right", BRIG); ("bottom", BBOT)]%string.
Definition padding_says (p : bside -> nat) (s : list N) : Prop :=
  exists ws, s = or_none ws /\
    Forall2 (fun x w => exists n, decimal (p (snd x)) n /\ w = chars (fst x) ++ chars " " ++ n) (filter (fun x => negb (p (snd x) =? 0)) sides) ws.

(** ** Shapes *)
Definition names_of_shapes : list string := ["NW"; "NNW"; "N"; "NNE"; "NE"; "ENE"; "E"; "ESE"; "SE"; "SSE"; "S"; "SSW"; "SW"; "WSW"; "W"; "WNW"]%string.
Definition name_of (i : nat) : list N := chars (nth i names_of_shapes EmptyString).
Definition elastic_says (sh : nat -> sentry) : list N :=
  commas (map name_of (filter (fun i => negb (isempty (sh i)) && s_elastic (sh i)) (seq 0 16))).
(** something in it is not blank *)
Definition drawn (s : sentry) : Prop := isdeepempty s = false.
(** the first line of a shape has the name in front of it, all but the last one have a comma behind; quotes and backslashes are
    escaped as in a configuration file *)
Definition shape_row (U : uctab) (color : bool) (name : list N) (first last : bool) (b : bxstr) (row : list N) : Prop :=
  exists t body, looks U color b t /\ unescaped 92 34 body t /\
    row = (if first then repeat 32%N (3 - List.length name) ++ name ++ chars ":" else chars "    ") ++ chars " """ ++ body ++ chars """" ++ chars (if last then " " else ",").
Inductive rows_say (U : uctab) (color : bool) (name : list N) : bool -> list bxstr -> list (list N) -> Prop :=
| rw_nil : forall first, rows_say U color name first [] []
| rw_cons : forall first b l row rows, shape_row U color name first (is_nil l) b row -> rows_say U color name false l rows ->
    rows_say U color name first (b :: l) (row :: rows).
Inductive shapes_say (U : uctab) (color : bool) (sh : nat -> sentry) : list nat -> list (list N) -> Prop :=
| ss_nil : shapes_say U color sh [] []
| ss_skip : forall i l rows, ~ drawn (sh i) -> shapes_say U color sh l rows -> shapes_say U color sh (i :: l) rows
| ss_shape : forall i l rows rest, drawn (sh i) -> rows_say U color (name_of i) true (s_mbcs (sh i)) rows -> shapes_say U color sh l rest ->
    shapes_say U color sh (i :: l) (rows ++ rest).

(** ** The whole sheet, line by line *)
Definition mode_text (m : N) : string :=
  if N.eqb m 98 then "box (indent box)" else if N.eqb m 116 then "text (retain indentation inside of box)" else "none (discard indentation)".
Record sheet (U : uctab) (color undoc : bool) (origin : list N) (d : cdesign) (ls : list (list N)) : Prop := {
  sheet_lines : exists name author designer reps revs w h pad tail,
    c_name d = Some name /\ looks_or U color "(unknown author)" (c_author d) author /\ looks_or U color "(unknown artist)" (c_designer d) designer /\
    rules_say U color "WITH" (c_reprules d) reps /\ rules_say U color "TO" (c_revrules d) revs /\ decimal (c_minwidth d) w /\ decimal (c_minheight d) h /\
    padding_says (c_padding d) pad /\
    (if undoc then exists s, looks_or U color "NULL" (c_sample d) s /\ tail = [chars "Sample:"; s]
     else exists rows, shapes_say U color (c_shape d) (seq 0 16) rows /\ tail = labelled "Defined Shapes:         " rows) /\
    ls = [chars "Complete Design Information for """ ++ name ++ chars """:";
          repeat 45%N (List.length (chars "Complete Design Information for """ ++ name ++ chars """:"));
          chars "Alias Names:            " ++ or_none (c_aliases d);
          chars "Author:                 " ++ author;
          chars "Original Designer:      " ++ designer;
          chars "Configuration File:     " ++ origin;
          chars "Indentation Mode:       " ++ chars (mode_text (c_indentmode d))] ++
         labelled "Replacement Rules:      " reps ++
         labelled "Reversion Rules:        " revs ++
         [chars "Minimum Box Dimensions: " ++ w ++ chars " x " ++ h ++ chars "  (width x height)";
          chars "Default Padding:        " ++ pad;
          chars "Default Killblank:      " ++ chars (if empty_side (c_shape d) BTOP && empty_side (c_shape d) BBOT then "no" else "yes");
          chars "Tags:                   " ++ or_none (c_tags d);
          chars "Elastic Shapes:         " ++ elastic_says (c_shape d)] ++ tail
}.
(** lines with their ends *)
Definition lines_with (eol : list N) (ls : list (list N)) : list N := flat_map (fun l => l ++ eol) ls.

(** ** Designs that can be listed: every string can be shown, shapes have as many lines as they are high, and no tabs in them, nor
    quotes or backslashes within escape sequences *)
Definition showable (U : uctab) (b : bxstr) : Prop := exists ts, reads (memory b) ts /\ known ts /\ bxs_from_unicode U (memory b) = Ok b.
Record presentable (U : uctab) (d : cdesign) : Prop := {
  pr_name : exists n, c_name d = Some n;
  pr_texts : forall b, c_author d = Some b \/ c_designer d = Some b \/ c_sample d = Some b -> showable U b;
  pr_rules : Forall (fun r => showable U (r_search r) /\ showable U (r_repstr r)) (c_reprules d ++ c_revrules d);
  pr_shapes : forall i, i < 16 -> drawn (c_shape d i) -> List.length (s_mbcs (c_shape d i)) = s_height (c_shape d i) /\
    Forall (fun b => showable U b /\ ~ In 9%N (memory b) /\ forall ts, reads (memory b) ts -> Forall no_quote_inside ts) (s_mbcs (c_shape d i))
}.

(** ** What a reader of the listing learns: names and tags are as in a configuration file, and strings stand on one line. The only alias
    is not "none". *)
Record one_line (d : cdesign) : Prop := {
  ol_name : forall n, c_name d = Some n -> Spec_Config.name n;
  ol_aliases : Forall Spec_Config.name (c_aliases d);
  ol_none : c_aliases d <> [chars "none"];
  ol_tags : Forall good_tag (c_tags d);
  ol_texts : forall b, c_author d = Some b \/ c_designer d = Some b -> ~ In 10%N (memory b);
  ol_rules : Forall (fun r => ~ In 10%N (memory (r_search r)) /\ ~ In 10%N (memory (r_repstr r))) (c_reprules d ++ c_revrules d);
  ol_shapes : forall i, i < 16 -> drawn (c_shape d i) -> Forall (fun b => ~ In 10%N (memory b)) (s_mbcs (c_shape d i))
}.
(** two strings that cannot be told apart on the screen *)
Definition look_alike (U : uctab) (color : bool) (b b' : bxstr) : Prop := exists t, looks U color b t /\ looks U color b' t.
Record listed_alike (U : uctab) (color : bool) (d d' : cdesign) : Prop := {
  la_name : c_name d = c_name d';
  la_aliases : c_aliases d = c_aliases d';
  la_tags : c_tags d = c_tags d';
  la_author : exists t, looks_or U color "(unknown author)" (c_author d) t /\ looks_or U color "(unknown author)" (c_author d') t;
  la_designer : exists t, looks_or U color "(unknown artist)" (c_designer d) t /\ looks_or U color "(unknown artist)" (c_designer d') t;
  la_indent : mode_text (c_indentmode d) = mode_text (c_indentmode d');
  la_reps : List.length (c_reprules d) = List.length (c_reprules d');
  la_revs : List.length (c_revrules d) = List.length (c_revrules d');
  la_width : c_minwidth d = c_minwidth d';
  la_height : c_minheight d = c_minheight d';
  la_padding : forall s, c_padding d s = c_padding d' s;
  la_elastic : forall i, i < 16 -> negb (isempty (c_shape d i)) && s_elastic (c_shape d i) = negb (isempty (c_shape d' i)) && s_elastic (c_shape d' i);
  la_drawn : forall i, i < 16 -> (drawn (c_shape d i) <-> drawn (c_shape d' i));
  la_shapes : forall i, i < 16 -> drawn (c_shape d i) -> Forall2 (look_alike U color) (s_mbcs (c_shape d i)) (s_mbcs (c_shape d' i))
}.

(** ** The list of all designs *)
From Coq Require Import Sorting.Permutation Sorting.Sorted.
Definition plural (k : nat) : list N := if k =? 1 then [] else chars "s".
(** the underline is as wide as the heading *)
Definition header_says (U : uctab) (color : bool) (k : nat) (file : bxstr) (parents : list bxstr) (ls : list (list N)) : Prop :=
  exists n f, decimal k n /\ looks U color file f /\
  match parents with
  | [] =>
      ls = [n ++ chars " Available Style" ++ plural k ++ chars " in """ ++ f ++ chars """:";
            repeat 45%N (List.length (n ++ chars " Available Style" ++ plural k ++ chars " in """) + num_columns file + List.length (chars """:")); []]
  | _ => exists ps, Forall2 (fun p t => exists x, looks U color p x /\ t = chars "    - " ++ x ++ chars " (parent)") parents ps /\
      ls = [n ++ chars " Available Style" ++ plural k ++ chars ":"; repeat 45%N (List.length (n ++ chars " Available Style" ++ plural k ++ chars ":")); [];
            chars "Configuration Files:"; chars "    - " ++ f] ++ ps ++ [[]; []]
  end.
Definition all_names (d : cdesign) (n : list N) : list N :=
  n ++ match c_aliases d with [] => [] | al => chars " alias " ++ commas al end.
(** who made it *)
Definition credits_say (U : uctab) (color : bool) (d : cdesign) (o : option (list N)) : Prop :=
  match c_designer d, c_author d with
  | None, None => o = None
  | None, Some a => exists t, looks U color a t /\ o = Some (chars "unknown artist, coded by " ++ t)
  | Some e, None => exists t, looks U color e t /\ o = Some t
  | Some e, Some a => exists t u, looks U color e t /\ looks U color a u /\
      (memory a = memory e /\ o = Some t \/ memory a <> memory e /\ o = Some (t ++ chars ", coded by " ++ u))
  end.
Definition block_says (U : uctab) (color : bool) (d : cdesign) (ls : list (list N)) : Prop :=
  exists n o s, c_name d = Some n /\ credits_say U color d o /\ looks_or U color "NULL" (c_sample d) s /\
    ls = match o with None => [all_names d n ++ chars ":"] | Some t => [all_names d n; t ++ chars ":"] end ++ [[]; s; []].
(** tags and how often they occur *)
Fixpoint bars (l : list (list N)) : list N := match l with [] => [] | [x] => x | x :: r => x ++ chars " | " ++ bars r end.
Definition tags_say (stats : list (list N * nat)) (ls : list (list N)) : Prop :=
  stats = [] /\ ls = [] \/ stats <> [] /\ exists ws, Forall2 (fun s w => exists n, decimal (snd s) n /\ w = fst s ++ chars " (" ++ n ++ chars ")") stats ws /\ ls = [bars ws].
Definition statistics (tags : list (list N)) (stats : list (list N * nat)) : Prop :=
  (forall t n, In (t, n) stats -> occurs_nocase t tags n /\ 1 <= n) /\ (forall x, In x tags -> exists t n, In (t, n) stats /\ nocase t x) /\
  NoDup (map (fun a => map low (fst a)) stats) /\ StronglySorted (fun a b => not_after (fst a) (fst b)) stats.
Definition name_before (d e : cdesign) : Prop := forall n m, c_name d = Some n -> c_name e = Some m -> not_after n m.
Record overview (U : uctab) (color : bool) (ds : list cdesign) (file : bxstr) (parents : list bxstr) (ls : list (list N)) : Prop := {
  ov_lines : exists h l bs stats t, header_says U color (List.length ds) file parents h /\
    Permutation ds l /\ StronglySorted name_before l /\ Forall2 (block_says U color) l bs /\
    statistics (flat_map c_tags ds) stats /\ tags_say stats t /\ ls = h ++ concat bs ++ t
}.

(** ** Files whose designs can be listed: proper names, and no escape characters, tabs or (except in samples) line feeds in the strings *)
Definition simple_text (s : list N) : Prop := Forall (fun c => c <> 27 /\ c <> 9 /\ c <> 10)%N s.
Definition simple_item (i : item) : Prop :=
  match i with
  | i_keyword _ v => simple_text v
  | i_tags l => Forall simple_text l
  | i_sample s => Forall (fun c => c <> 27 /\ c <> 9)%N s
  | i_shapes l => Forall (fun p => match snd p with no_lines => True | lines a r => Forall simple_text (a :: r) end) l
  | i_replace s r _ | i_reverse s r _ => simple_text s /\ simple_text r
  | i_elastic _ | i_padding _ | i_ignored | i_bad => True
  end.
Definition simple_stmt (s : stmt) : Prop :=
  match s with
  | s_box n al l _ => Spec_Config.name n /\ Forall Spec_Config.name al /\ Forall simple_item l
  | s_parent _ | s_bad_id _ | s_junk => True
  end.
