(** * What the options of a command line mean together *)
From Coq Require Import List Arith NArith ZArith Bool.
From Verif Require Import Spec_Query Spec_Cmdline Model_Cmdline.
Import ListNotations.
Local Open Scope N_scope.
(** Only the types are taken from [Model_Cmdline]: the options and the settings. *)

(** ** What one option contributes. Options that are about something else contribute nothing. *)
Definition aligned_by (i : item) (ds : list (place -> option N)) : Prop :=
  match i with ItA arg => arg <> [] /\ directives arg ds | _ => ds = [] end.
Definition padded_by (i : item) (gs : list ((side -> bool) * Z)) : Prop :=
  match i with ItP arg => arg <> [] /\ groups arg gs | _ => gs = [] end.
(** the tab stop, and the letter if there is one *)
Definition tabbed_by (i : item) (l : list (Z * option N)) : Prop :=
  match i with
  | ItT arg => exists n v k rest, number arg n rest /\ clamped n v /\ cut v k /\ (1 <= k <= 16)%Z /\
      (rest = [] /\ l = [(k, None)] \/ exists c m, rest = [c] /\ letter c m /\ In m [101; 107; 117] /\ l = [(k, Some m)])
  | _ => l = []
  end.
(** -i: "box", "text" or "none", or the beginning of one of these words; nothing at all stands for "box" *)
Definition mode_words : list (list N * N) := [([98; 111; 120], 98); ([116; 101; 120; 116], 116); ([110; 111; 110; 101], 110)].
Definition indented_by (i : item) (l : list N) : Prop :=
  match i with
  | ItI arg => exists a b m, In (a ++ b, m) mode_words /\ nocase arg a /\ (arg = [] -> m = 98) /\ l = [m]
  | _ => l = []
  end.
Definition commented_by (i : item) (l : list (list N)) : Prop := match i with ItC arg => arg <> [] /\ l = [arg] | _ => l = [] end.
(** -e: "CRLF", "LF", "CR" *)
Definition broken_by (i : item) (l : list (list N)) : Prop :=
  match i with
  | ItE arg => nocase arg [67; 82; 76; 70] /\ l = [[13; 10]] \/ nocase arg [76; 70] /\ l = [[10]] \/ nocase arg [67; 82] /\ l = [[13]]
  | _ => l = []
  end.
(** -q: the terms; if all of them exclude something, everything else is meant *)
Definition query_means (s : list N) (q : list (list N)) : Prop :=
  exists ts, terms s ts /\ well_formed ts /\
    (q = ts /\ (exists x k t, In x ts /\ term x k t /\ k <> excluded) \/ q = ts ++ [all_word] /\ forall x, In x ts -> exists t, term x excluded t).
Definition queried_by (i : item) (l : list (list (list N))) : Prop := match i with ItQ arg => exists q, query_means arg q /\ l = [q] | _ => l = [] end.

(** -s: one after the other; a part that is left out stays as it is; never both zero *)
Inductive sized_by : list item -> Z * Z -> Z * Z -> Prop :=
| sb_end : forall z, sized_by [] z z
| sb_other : forall i r z z', (forall arg, i <> ItS arg) -> sized_by r z z' -> sized_by (i :: r) z z'
| sb_size : forall arg r w h w1 h1 z' pw ph, size_parts arg pw ph -> part pw w w1 -> part ph h h1 -> (0 <= w1)%Z -> (0 <= h1)%Z -> (w1 <> 0 \/ h1 <> 0)%Z ->
    sized_by r (w1, h1) z' -> sized_by (ItS arg :: r) (w, h) z'.

(** -k: the first option decides about blank lines, the others are not even looked at; but -m anywhere keeps the lines *)
Definition kill_said (i : item) (k : Z) : Prop :=
  match i with
  | ItK arg => word yes_words arg /\ k = 1%Z \/ word no_words arg /\ k = 0%Z
  | ItKillBlank => k = 1%Z
  | ItNoKillBlank => k = 0%Z
  | ItM => k = 0%Z
  | _ => False
  end.
Definition kill_item (i : item) : Prop := match i with ItK _ | ItKillBlank | ItNoKillBlank | ItM => True | _ => False end.
Definition kill_by (items : list item) (k : Z) : Prop :=
  (forall i, In i items -> ~ kill_item i) /\ k = (-1)%Z \/
  exists l1 i l2 k1, items = l1 ++ i :: l2 /\ (forall j, In j l1 -> ~ kill_item j) /\ kill_said i k1 /\ (In ItM items /\ k = 0%Z \/ ~ In ItM items /\ k = k1).

(** -x: "(undoc)" and "debug"; [k] is the number of a log area *)
Definition undoc_word : list N := [40; 117; 110; 100; 111; 99; 41].
Definition debug_word : list N := [100; 101; 98; 117; 103].
Definition areas : list (list N) := [ [77; 65; 73; 78]; [82; 69; 71; 69; 88; 80]; [80; 65; 82; 83; 69; 82]; [76; 69; 88; 69; 82]; [68; 73; 83; 67; 79; 86; 69; 82; 89] ].
Definition all_areas : list N := [65; 76; 76].
Definition undocumented (arg : list N) : Prop := exists r, arg = undoc_word ++ r.
Definition behind (arg s : list N) : Prop := arg = undoc_word ++ s \/ ~ undocumented arg /\ s = arg.
Definition area_named (t : list N) (k : nat) : Prop := nocase t all_areas \/ exists a, nth_error areas k = Some a /\ nocase t a.
(** the text is about debugging, and then it is right *)
Definition debugging (s r : list N) : Prop := exists d, s = d ++ r /\ nocase d debug_word.
Definition x_right (arg : list N) : Prop := forall s r, behind arg s -> debugging s r ->
  r = [] \/ exists t ts, r = 58 :: t /\ terms t ts /\ forall x, In x ts -> exists k, (k < 5)%nat /\ area_named x k.
Definition logs (arg : list N) (k : nat) : Prop := exists s r, behind arg s /\ debugging s r /\
  (r = [] /\ k = 0%nat \/ exists t ts x, r = 58 :: t /\ terms t ts /\ In x ts /\ area_named x k).

(** ** All options *)
Definition quiet (i : item) : Prop := match i with ItHelp | ItV | ItError => False | _ => True end.
Record meant (items : list item) (g : settings) : Prop := {
  mt_quiet : Forall quiet items;
  mt_align : exists dss, Forall2 aligned_by items dss /\ latest (fun d => d horizontal) (concat dss) 0 (a_h (g_align g)) /\
    latest (fun d => d vertical) (concat dss) 0 (a_v (g_align g)) /\ latest (fun d => d justification) (concat dss) 0 (a_j (g_align g));
  mt_pad : exists gss, Forall2 padded_by items gss /\ latest (pad_of top) (concat gss) (-1)%Z (p_top (g_pad g)) /\ latest (pad_of right) (concat gss) (-1)%Z (p_right (g_pad g)) /\
    latest (pad_of bottom) (concat gss) (-1)%Z (p_bottom (g_pad g)) /\ latest (pad_of left) (concat gss) (-1)%Z (p_left (g_pad g));
  mt_size : sized_by items (0, 0)%Z (s_w (g_size g), s_h (g_size g));
  mt_tab : exists ls, Forall2 tabbed_by items ls /\ latest (fun x => Some (fst x)) (concat ls) 8%Z (t_stop (g_tab g)) /\ latest snd (concat ls) 101 (t_exp (g_tab g));
  mt_remove : r_remove (g_rem g) = true <-> In ItR items \/ In ItM items;
  mt_mend : In ItM items /\ r_mend (g_rem g) = 2%Z \/ ~ In ItM items /\ r_mend (g_rem g) = 0%Z;
  mt_kill : kill_by items (r_kill (g_rem g));
  mt_indent : exists ls, Forall2 indented_by items ls /\ latest Some (concat ls) 0 (r_indent (g_rem g));
  mt_comment : exists ls, Forall2 commented_by items ls /\ latest (fun a => Some (Some a)) (concat ls) None (c_cld (g_src g));
  mt_design : latest (fun i => match i with ItD arg => Some (Some arg) | _ => None end) items None (c_design (g_src g));
  mt_by_user : c_by_user (g_src g) = true <-> exists arg, In (ItC arg) items \/ In (ItD arg) items;
  mt_config : latest (fun i => match i with ItF arg => Some (Some arg) | _ => None end) items None (c_file (g_src g));
  mt_breaks : exists ls, Forall2 broken_by items ls /\ latest Some (concat ls) [10] (o_eol (g_out g));
  mt_breaks_set : o_eol_set (g_out g) = true <-> exists arg, In (ItE arg) items;
  mt_color : latest (fun i => match i with ItColor => Some 2 | ItNoColor => Some 0 | _ => None end) items 1 (o_color (g_out g));
  mt_encoding : latest (fun i => match i with ItN arg => Some (Some arg) | _ => None end) items None (o_encoding (g_out g));
  mt_help : m_help (g_mode g) = false /\ m_version (g_mode g) = false;
  mt_list : m_list (g_mode g) = true <-> In ItL items;
  mt_query : exists ls, Forall2 queried_by items ls /\ latest (fun q => Some (Some q)) (concat ls) None (m_query (g_mode g));
  mt_undoc : m_undoc (g_mode g) = true <-> exists arg, In (ItX arg) items /\ undocumented arg;
  mt_debug : List.length (m_debug (g_mode g)) = 5%nat /\ forall k, nth_error (m_debug (g_mode g)) k = Some true <-> (k < 5)%nat /\ exists arg, In (ItX arg) items /\ logs arg k;
  mt_x : (forall arg, In (ItX arg) items -> x_right arg) /\
    forall l1 arg l2, items = l1 ++ ItX arg :: l2 -> (forall a, ~ In (ItX a) l1) -> undocumented arg \/ exists k, (k < 5)%nat /\ logs arg k
}.

(** ** The files: at most two; "-" stands for standard input and output *)
Section Files.
Variables can_read can_write : list N -> bool.
Definition reads_from (a : list N) (f : option (list N)) : Prop := a = [45] /\ f = None \/ a <> [45] /\ can_read a = true /\ f = Some a.
Definition writes_to (a : list N) (f : option (list N)) : Prop := a = [45] /\ f = None \/ a <> [45] /\ can_write a = true /\ f = Some a.
Inductive opened : list (list N) -> files -> Prop :=
| op_none : opened [] (Files None None)
| op_in : forall a f, reads_from a f -> opened [a] (Files f None)
| op_both : forall a b f f', reads_from a f -> writes_to b f' -> opened [a; b] (Files f f').
End Files.
