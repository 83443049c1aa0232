(** * The configuration file that comes with the program: C63 *)
From Coq Require Import Ascii String List Arith NArith ZArith Bool Lia.
From Verif Require Import Base BaseFacts Model_Unicode Model_Bxs Model_Shape Model_Generate Model_Input Model_Main Model_Remove Model_Detect Model_Query Model_Discovery Model_Parser Model_Scan
  Spec_Str Spec_Design Spec_Box Spec_Input Spec_Remove Spec_Round Spec_Closed Spec_Comment Spec_Detect Spec_Parser Proof_Decide Proof_Built Proof_Beyond Proof_Fast Proof_Chosen Proof_Shipped
  Demo Prop_Str Prop_Box Prop_Input Prop_Subst Prop_Whole Prop_Body Prop_Detect Prop_Round Prop_Closed Prop_Parser Shipped.
Import ListNotations.
Local Open Scope nat_scope.
Local Open Scope list_scope.

(** ** What holds of every design that is accepted *)
(** The lines of the shapes are built from the texts in the file or are spaces the program made; a shape that is missing has no lines. *)
Theorem C28_built : forall U beyond po eol children fopen_ok sur stmts ds ps,
  parse_config_file U beyond po eol children fopen_ok sur (Some stmts) = Ok (ds, ps) ->
  Forall (fun d => built U (to_design d) /\ tidy (to_design d)) ds.
Proof. intros U beyond po eol children fopen_ok sur stmts ds ps H. eapply parse_built. exact H. Qed.

(** Whatever text is put into the box: the box is drawn, provided opposite sides can be given the same length (see C06). *)
Theorem C51_drawn : forall U o d rules raws color eol, uctab_ok U -> wf_design U d ->
  matchable s_width (at_side (d_shape d) BTOP) (at_side (d_shape d) BBOT) -> matchable s_height (at_side (d_shape d) BLEF) (at_side (d_shape d) BRIG) ->
  1 <= o_tabstop o <= 16 -> raws <> [] -> Forall (raw_ok U (o_tabstop o)) raws -> Forall (rule_ok U) rules -> o_tabexp o = 101%N -> o_justify o = 0%N ->
  exists fuel out, boxes_draw U fuel color eol o d rules raws = Ok out.
Proof.
  intros U o d rules raws color eol HU WF M1 M2 Ht Hne Hok HR Hexp Hj.
  destruct (C52_substitutions U o d rules raws HU Ht Hne Hok HR Hj) as (inp0 & inp & _ & E & _ & _ & _ & _ & Hwf). specialize (Hwf (or_introl Hexp)).
  destruct (proj2 (C06_terminates_iff U o d inp HU WF Hwf) (conj M1 M2)) as (fuel & rows & Er). exists fuel. unfold boxes_draw. rewrite E. cbn [bind].
  destruct (is_nil (i_lines inp)); [eauto|].
  destruct (C11_no_internal_failure U o d inp color eol HU WF Hwf fuel) as [[F _]|(rows' & out & _ & ->)]; [congruence|eauto].
Qed.

(** ** C63: the shipped configuration *)
Section Shipped.
Variable V : uctab.
Variable fopen_ok : list N -> bool.
Variable sur : surroundings.
Notation U := (drawing_tab V).
Definition load_shipped (beyond : res sentry) (text : list N) : res (list cdesign * list (list N)) :=
  parse_config_text U beyond (mkPopts None true) [10%N] [] fopen_ok sur (Some text).

Lemma load_text : forall beyond t l, read_statements t = Ok l -> load_shipped beyond t = load_all V fopen_ok sur beyond l.
Proof. intros beyond t l H. unfold load_shipped, load_all, parse_config_text. rewrite H. reflexivity. Qed.
Lemma load_empty : forall s t, isempty s = true -> load_shipped (Ok s) t = load_shipped (Ok sentry0) t.
Proof. intros s t H. apply parse_beyond; [exact H|reflexivity]. Qed.

(** a design as the other theorems want it *)
Definition in_order (d : design) : Prop :=
  wf_design U d /\ built U d /\ tidy d /\
  matchable s_width (at_side (d_shape d) BTOP) (at_side (d_shape d) BBOT) /\ matchable s_height (at_side (d_shape d) BLEF) (at_side (d_shape d) BRIG).

Lemma shipped_tidy : Forall (tidy_stmt U) statement_list.
Proof. pose proof (statements_tidy V) as H. rewrite forallb_forall in H. apply Forall_forall. intros s Hs. apply tidy_blockb_ok. auto. Qed.

Lemma order_of : forall beyond l ds, Forall (tidy_stmt U) l -> load_all V fopen_ok sur beyond l = Ok (ds, []) -> Forall (fun d => design_checked U d = true) ds ->
  Forall (fun d => in_order (to_design d) /\ design_checked U d = true) ds.
Proof.
  intros beyond l ds Ht E H2. pose proof (C28_accepted_designs _ _ _ _ _ _ _ _ _ _ (drawing_tab_ok V) Ht E) as W. pose proof (C28_built _ _ _ _ _ _ _ _ _ _ E) as B.
  rewrite Forall_forall in *. intros d Hd. specialize (H2 d Hd). split; [|exact H2].
  apply checked_parts in H2 as [H2 _]. unfold drawableb in H2. apply andb_true_iff in H2 as [M1 M2].
  apply matchableb_ok in M1. apply matchableb_ok in M2. split; [apply (W d Hd)|]. split; [apply (B d Hd)|]. split; [apply (B d Hd)|]. split; assumption.
Qed.
Lemma shipped_all : forall s, isempty s = true ->
  exists ds, load_shipped (Ok s) boxes_config = Ok (ds, []) /\ map name_of ds = shipped_names /\ Forall (fun d => in_order (to_design d) /\ design_checked U d = true) ds.
Proof.
  intros s Hs. rewrite (load_empty s boxes_config Hs), (load_text (Ok sentry0) boxes_config statement_list shipped_statements).
  destruct (shipped_loaded V fopen_ok sur) as (ds & E & Hn & H2). exists ds. split; [exact E|]. split; [exact Hn|].
  exact (order_of (Ok sentry0) statement_list ds shipped_tidy E H2).
Qed.

(** All 72 designs of the file are accepted, and they are as the other theorems want designs. What lies behind the shape array looks empty here:
    in the C structure it is followed by numbers that are 0 at that time. *)
Theorem C63_loaded : forall s, isempty s = true ->
  exists ds, load_shipped (Ok s) boxes_config = Ok (ds, []) /\ map name_of ds = shipped_names /\ Forall (fun d => in_order (to_design d)) ds.
Proof. intros s Hs. destruct (shipped_all s Hs) as (ds & E & N & F). exists ds. split; [exact E|]. split; [exact N|]. eapply Forall_impl; [|exact F]. intros d [H _]. exact H. Qed.

(** Two of them make the program read behind the end of the shape array; the others do not. *)
Theorem C63_array_end_refuted : load_shipped UB boxes_config = UB.
Proof. rewrite (load_text UB boxes_config statement_list shipped_statements). exact (shipped_outside V fopen_ok sur). Qed.
Theorem C63_array_end : forall beyond, exists ds, load_shipped beyond (flat_map part_text (without_two parts)) = Ok (ds, []) /\
  map name_of ds = filter (fun n => negb (among n ["right"; "dragon"]%string)) shipped_names.
Proof. intros beyond. rewrite (load_text beyond _ _ other_statements). destruct (others_loaded V fopen_ok sur beyond) as (ds & E & Hn & _). eauto. Qed.

(** With [-d], upper and lower case and aliases do not matter: the wanted design is found, and it is the one that is found when all designs are loaded.
    If there is none of this name, none is loaded. *)
Definition load_chosen (beyond : res sentry) (n : list N) (all : bool) (text : list N) : res (list cdesign * list (list N)) :=
  parse_config_text U beyond (mkPopts (Some n) all) [10%N] [] fopen_ok sur (Some text).
Lemma chosen_text : forall beyond n all t l, read_statements t = Ok l -> load_chosen beyond n all t = load_one V fopen_ok sur beyond n all l.
Proof. intros beyond n all t l H. unfold load_chosen, load_one, parse_config_text. rewrite H. reflexivity. Qed.
Lemma chosen_empty : forall s n all t, isempty s = true -> load_chosen (Ok s) n all t = load_chosen (Ok sentry0) n all t.
Proof. intros s n all t H. apply parse_beyond; [exact H|reflexivity]. Qed.
Theorem C63_chosen : forall s ds n all, isempty s = true -> load_shipped (Ok s) boxes_config = Ok (ds, []) ->
  (forall d, In d ds -> called d n -> load_chosen (Ok s) n all boxes_config = Ok ([d], [])) /\
  ((forall d, In d ds -> ~ called d n) -> load_chosen (Ok s) n all boxes_config = Ok ([], [])).
Proof.
  intros s ds n all Hs E. rewrite (load_empty s boxes_config Hs), (load_text (Ok sentry0) boxes_config statement_list shipped_statements) in E.
  rewrite (chosen_empty s n all boxes_config Hs), (chosen_text (Ok sentry0) n all boxes_config statement_list shipped_statements).
  destruct (shipped_one V fopen_ok sur) as (ds' & E' & A & B). rewrite E in E'. injection E' as <-. split; [intros d; apply A|apply B].
Qed.
(** all but two of the designs without reading behind the array *)
Theorem C63_chosen_safe : forall beyond ds, load_shipped beyond (flat_map part_text (without_two parts)) = Ok (ds, []) ->
  forall d n all, In d ds -> called d n -> load_chosen beyond n all boxes_config = Ok ([d], []).
Proof.
  intros beyond ds E d n all. rewrite (load_text beyond _ _ other_statements) in E. rewrite (chosen_text beyond n all boxes_config statement_list shipped_statements).
  destruct (others_one V fopen_ok sur beyond) as (ds' & E' & A). rewrite E in E'. injection E' as <-. apply A.
Qed.

(** Every acceptable text can be put into every shipped box, whatever the regular expressions make of it. *)
Theorem C63_drawn : forall s ds d, isempty s = true -> load_shipped (Ok s) boxes_config = Ok (ds, []) -> In d ds ->
  forall o rules raws color eol, 1 <= o_tabstop o <= 16 -> raws <> [] -> Forall (raw_ok U (o_tabstop o)) raws -> Forall (rule_ok U) rules -> o_tabexp o = 101%N -> o_justify o = 0%N ->
  exists fuel out, boxes_draw U fuel color eol o (to_design d) rules raws = Ok out.
Proof.
  intros s ds d Hs E Hd o rules raws color eol Ht Hne Hok HR He Hj. destruct (shipped_all s Hs) as (ds' & E' & _ & F). rewrite E in E'. injection E' as <-.
  rewrite Forall_forall in F. destruct (F d Hd) as [(WF & _ & _ & M1 & M2) _]. apply C51_drawn; try assumption. apply drawing_tab_ok.
Qed.

(** The closed boxes and the comments: what is drawn is removed again *)
Lemma among_in : forall n l, among n l = true <-> In n l.
Proof. intros n l. unfold among. rewrite existsb_exists. split; [intros (x & Hx & H); apply String.eqb_eq in H; congruence|intros H; exists n; split; [exact H|apply String.eqb_refl]]. Qed.
Theorem C63_closed : forall s ds d, isempty s = true -> load_shipped (Ok s) boxes_config = Ok (ds, []) -> In d ds -> In (name_of d) closed_names ->
  forall o eol fin lines mode kb n, left_aligned o -> 1 <= o_tabstop o <= 16 -> o_tabexp o = 101%N -> mode = 98%N \/ mode = 0%N -> kb <> 0%Z ->
  eol = [10%N] \/ eol = [13%N; 10%N] ->
  lines <> [] -> Forall (neat U) lines -> hd [] lines <> [] -> last lines [] <> [] ->
  Forall (fun t => N.of_nat (List.length t) <= line_limit)%N lines -> common_indent lines n ->
  c_reprules d = [] /\ c_revrules d = [] /\
  forall color fuel out, boxes_draw U fuel color eol o (to_design d) [] (raw_lines (terminated eol fin lines)) = Ok out ->
  exists ps, out = terminated eol fin ps /\
    (Forall (fun p => N.of_nat (List.length p) <= line_limit)%N ps ->
     exists ls, boxes_remove U eol o (to_design d) mode kb [] (raw_lines out) = Ok (terminated eol fin ls) /\ Forall2 comes_back lines ls).
Proof.
  intros s ds d Hs E Hd Hn o eol fin lines mode kb n H1 H2 H3 H4 H5 H6 H7 H8 H9 H10 H11 H12. destruct (shipped_all s Hs) as (ds' & E' & _ & F). rewrite E in E'. injection E' as <-.
  rewrite Forall_forall in F. destruct (F d Hd) as [(WF & B & T & M1 & M2) K]. apply checked_parts in K as (_ & K2 & K3 & _ & K4 & _).
  apply among_in in Hn. destruct (K4 Hn) as [K6 K5]. clear K4. rename K6 into K4.
  unfold ruleless in K5. apply andb_true_iff in K5 as [K5 K6].
  split; [destruct (c_reprules d); [reflexivity|discriminate K5]|]. split; [destruct (c_revrules d); [reflexivity|discriminate K6]|].
  assert (P : plain_design U (to_design d)).
  { destruct (among (name_of d) colour_names) eqn:Ec; [|apply plainb_ok; exact K3]. exfalso. clear K3. rename Ec into K3. apply among_in in K3. apply among_in in Hn.
    clear - K3 Hn. unfold colour_names in K3. cbn [In] in K3. destruct K3 as [K3|[K3|[K3|[]]]]; rewrite <- K3 in Hn; apply among_in in Hn; vm_compute in Hn; discriminate Hn. }
  intros color fuel out Ho. eapply (C58_round_trip U o (to_design d) _ _ eol fin lines mode kb n (drawing_tab_ok V) WF B P (closedb_ok U _ K4)); try eassumption.
  - right. split; [exact K2|exact H4].
  - destruct H6 as [-> | ->]; reflexivity.
Qed.

Theorem C63_comments : forall s ds d, isempty s = true -> load_shipped (Ok s) boxes_config = Ok (ds, []) -> In d ds -> In (name_of d) comment_names ->
  exists lead, map memory (s_mbcs (c_shape d W_)) = [lead] /\ c_reprules d = [] /\ c_revrules d = [] /\
  forall o eol fin lines mode kb n, plain_options o 0 0 -> 1 <= o_tabstop o <= 16 -> o_tabexp o = 101%N -> mode = 98%N \/ mode = 0%N -> (kb = -1 \/ kb = 0)%Z ->
  eol = [10%N] \/ eol = [13%N; 10%N] ->
  lines <> [] -> Forall (neat U) lines -> (fin = false -> last lines [] <> []) ->
  Forall (fun t => N.of_nat (List.length t + List.length lead + over (o_pad_left o) (c_padding d BLEF)) <= line_limit)%N lines -> common_indent lines n ->
  forall color, (exists fuel out, boxes_draw U fuel color eol o (to_design d) [] (raw_lines (terminated eol fin lines)) = Ok out) /\
  forall fuel out, boxes_draw U fuel color eol o (to_design d) [] (raw_lines (terminated eol fin lines)) = Ok out ->
    boxes_remove U eol o (to_design d) mode kb [] (raw_lines out) = Ok (terminated eol fin (map (restored n) lines)).
Proof.
  intros s ds d Hs E Hd Hn. destruct (shipped_all s Hs) as (ds' & E' & _ & F). rewrite E in E'. injection E' as <-.
  rewrite Forall_forall in F. destruct (F d Hd) as [(WF & B & T & M1 & M2) K]. apply checked_parts in K as (_ & K2 & _ & _ & _ & K).
  apply among_in in Hn. destruct (K Hn) as (K5 & K6 & P1 & P2). unfold ruleless in K6. apply andb_true_iff in K6 as [K6 K7].
  destruct (commentb_ok U _ K5) as (lead & CD & L1 & L2 & L3 & L4). exists lead. split; [exact (proj1 (cd_left _ _ CD))|].
  split; [destruct (c_reprules d); [reflexivity|discriminate K6]|]. split; [destruct (c_revrules d); [reflexivity|discriminate K7]|].
  intros o eol fin lines mode kb n H1 H2 H3 H4 H5 H6 H7 H8 H9 H10 H11 color.
  pose proof (C38_round_trip U o (to_design d) lead eol fin lines mode kb n (drawing_tab_ok V) WF B CD L1 L2 L3 L4) as R.
  cbn [to_design d_pad_top d_pad_bottom d_pad_left d_indentmode] in R. rewrite P1, P2, K2 in R. cbn [N.eqb Pos.eqb] in R. apply R; try assumption.
  - right. split; [reflexivity|exact H4].
  - destruct H6 as [-> | ->]; reflexivity.
Qed.
(** ** Detection and removal with the shipped designs *)
(** Whatever the input: the search for the design of a box looks at all shipped designs and comes to an end. *)
Theorem C63_detection : forall s ds, isempty s = true -> load_shipped (Ok s) boxes_config = Ok (ds, []) ->
  forall inp, Forall (built_line U) (i_lines inp) -> exists r, autodetect_design U inp (map to_design ds) = Ok r.
Proof.
  intros s ds Hs E inp Hi. destruct (shipped_all s Hs) as (ds' & E' & _ & F). rewrite E in E'. injection E' as <-.
  apply C54_detection_total; [apply drawing_tab_ok| |exact Hi]. apply Forall_forall. intros x Hx. apply in_map_iff in Hx as (d & <- & Hd).
  rewrite Forall_forall in F. destruct (F d Hd) as [(WF & B & T & _) K]. split; [exact WF|]. split; [exact B|]. split; [|exact T].
  apply checked_parts in K as (_ & _ & K & _). destruct (among (name_of d) colour_names); [apply calmb_ok; exact K|]. apply C54_plain_calm; [apply drawing_tab_ok|]. apply plainb_ok. exact K.
Qed.
(** The eight designs without top and bottom: removing them never fails, whatever the input is, as long as it is without escape sequences. *)
Theorem C63_open : forall s ds d, isempty s = true -> load_shipped (Ok s) boxes_config = Ok (ds, []) -> In d ds -> In (name_of d) open_names ->
  forall mode kill mend inp, Forall (fun l => built_line U l /\ ~ In 27%N (memory (l_text l))) (i_lines inp) ->
  exists out, remove_box U (to_design d) mode kill mend inp = Ok out.
Proof.
  intros s ds d Hs E Hd Hn mode kill mend inp Hi. destruct (shipped_all s Hs) as (ds' & E' & _ & F). rewrite E in E'. injection E' as <-.
  rewrite Forall_forall in F. destruct (F d Hd) as [(WF & B & _) K]. apply checked_parts in K as (_ & _ & _ & K & _). apply among_in in Hn. specialize (K Hn). unfold openb in K.
  apply andb_true_iff in K as [K K3]. apply andb_true_iff in K as [K1 K2]. apply orb_true_iff in K1. apply C33_open_designs; try assumption. apply drawing_tab_ok.
Qed.
(** The others can fail: with "stone" a line that is the upper and the lower edge at once gives a size below zero, and a wall that is the left and the right one at once is cut twice. *)
Definition ends (r r' : res (list N)) : bool := match r, r' with UB, UB => true | Wrap, Wrap => true | _, _ => false end.
Definition edge_only : list string := ["+---+"]%string.
Definition wall_only : list string := ["+---+"; "| a |"; "|"; "| b |"; "+---+"]%string.
Definition removed_from (o : opts) (d : cdesign) (lines : list string) : res (list N) :=
  boxes_remove U [10%N] o (to_design d) 0 (-1) [] (raw_lines (terminated [10%N] true (map txt lines))).
Theorem C63_remove_refuted : exists ds d, load_shipped (Ok sentry0) boxes_config = Ok (ds, []) /\ In d ds /\ name_of d = "stone"%string /\
  removed_from opts0 d edge_only = Wrap /\ removed_from opts0 d wall_only = UB.
Proof.
  destruct (shipped_part V fopen_ok sur (fun d => String.eqb (name_of d) "stone" && ends (removed_from opts0 d edge_only) Wrap && ends (removed_from opts0 d wall_only) UB) 37) as (ds & d & E & Hd & H); [lia|intros X; vm_compute; reflexivity|].
  exists ds, d. rewrite (load_text (Ok sentry0) boxes_config statement_list shipped_statements). split; [exact E|]. split; [exact Hd|].
  apply andb_true_iff in H as [H H3]. apply andb_true_iff in H as [H1 H2]. apply String.eqb_eq in H1. split; [exact H1|].
  split; [destruct (removed_from opts0 d edge_only); try discriminate H2|destruct (removed_from opts0 d wall_only); try discriminate H3]; reflexivity.
Qed.
End Shipped.

(** ** Examples *)
(** the design of the statement number [k], without its sample *)
Definition shipped_design (k : nat) : option design :=
  match light_own (drawing_tab demo_tab) (Ok sentry0) bxs_new_empty_string (nth k statement_list s_junk) with Ok (Some d) => Some (to_design d) | _ => None end.
Definition shown_in (k : nat) (lines : list string) : res (list string * list string) :=
  match shipped_design k with
  | Some d =>
      out <- boxes_draw (drawing_tab demo_tab) 100 false [10%N] opts0 d [] (raw_lines (terminated [10%N] true (map txt lines))) ;;
      back <- boxes_remove (drawing_tab demo_tab) [10%N] opts0 d 0 (-1) [] (raw_lines out) ;;
      Ok (map str (raw_lines out), map str (raw_lines back))
  | None => Err
  end.
Definition demo_shipped : list string := ["  int x;"; "    |---+ y"]%string.
Lemma demo_shipped_neat : Forall (neat (drawing_tab demo_tab)) (map txt demo_shipped) /\ common_indent (map txt demo_shipped) 2.
Proof.
  split.
  - assert (B : forall k c r a z, is_blank (drawing_tab demo_tab) c = false -> spaces k ++ c :: r = a ++ [z] ->
      is_blank (drawing_tab demo_tab) z = false -> uc_ws (drawing_tab demo_tab) z = false -> 0 < term_width (drawing_tab demo_tab) c ->
      Forall (text_char (drawing_tab demo_tab)) (spaces k ++ c :: r) -> neat (drawing_tab demo_tab) (spaces k ++ c :: r)).
    { intros k c r a z Hc E Hz Hw Ht Hf. split; [exact Hf|]. right. split; [eauto|]. split; [rewrite E; eauto|]. exists c. split; [apply in_or_app; right; left; reflexivity|exact Ht]. }
    assert (C : forall t, forallb (fun c => is_allowed_anywhere (drawing_tab demo_tab) c && negb (existsb (N.eqb c) [27; 9; 13; 10]%N)) t = true -> Forall (text_char (drawing_tab demo_tab)) t).
    { intros t H. rewrite forallb_forall in H. apply Forall_forall. intros c Hc. specialize (H c Hc). apply andb_true_iff in H as [H1 H2]. apply negb_true_iff in H2.
      split; [exact H1|]. repeat split; intros ->; discriminate H2. }
    constructor; [|constructor; [|constructor]].
    + apply (B 2 105%N (txt "nt x;") (txt "  int x") 59%N); try reflexivity; [vm_compute; repeat constructor|apply C; vm_compute; reflexivity].
    + apply (B 4 124%N (txt "---+ y") (txt "    |---+ ") 121%N); try reflexivity; [vm_compute; repeat constructor|apply C; vm_compute; reflexivity].
  - right. split.
    + apply Forall_cons; [right; exists (txt "int x;"%string); reflexivity|]. apply Forall_cons; [right; exists (txt "  |---+ y"%string); reflexivity|]. constructor.
    + apply Exists_cons_hd. exists 105%N, (txt "nt x;"). split; [reflexivity|discriminate].
Qed.
Lemma shipped_has : forall n, In n shipped_names -> exists ds d, load_shipped demo_tab (fun _ => true) no_sur (Ok sentry0) boxes_config = Ok (ds, []) /\ In d ds /\ name_of d = n.
Proof.
  intros n H. destruct (C63_loaded demo_tab (fun _ => true) no_sur sentry0 eq_refl) as (ds & E & Hn & _). rewrite <- Hn in H. apply in_map_iff in H as (d & H1 & H2). eauto.
Qed.
Ltac find_name := match goal with |- In ?n ?l => apply (proj1 (among_in n l)); vm_compute; reflexivity end.
(** the box "stone" and the comment "java-cmt" *)
Example C63_closed_example : In "stone"%string closed_names /\ left_aligned opts0 /\
  Forall (neat (drawing_tab demo_tab)) (map txt demo_shipped) /\ common_indent (map txt demo_shipped) 2 /\
  (exists ds d, load_shipped demo_tab (fun _ => true) no_sur (Ok sentry0) boxes_config = Ok (ds, []) /\ In d ds /\ name_of d = "stone"%string) /\
  shown_in 37 demo_shipped = Ok (map nl ["  +-----------+"; "  | int x;    |"; "  |   |---+ y |"; "  +-----------+"]%string, map nl demo_shipped).
Proof.
  split; [find_name|]. split; [repeat split; discriminate|]. split; [exact (proj1 demo_shipped_neat)|]. split; [exact (proj2 demo_shipped_neat)|].
  split; [apply shipped_has; find_name|]. vm_compute. reflexivity.
Qed.
Example C63_comments_example : In "java-cmt"%string comment_names /\ plain_options opts0 0 0 /\
  (exists ds d, load_shipped demo_tab (fun _ => true) no_sur (Ok sentry0) boxes_config = Ok (ds, []) /\ In d ds /\ name_of d = "java-cmt"%string) /\
  shown_in 27 demo_shipped = Ok (map nl ["  // int x;"; "  //   |---+ y"]%string, map nl demo_shipped).
Proof.
  split; [find_name|]. split; [vm_compute; repeat split; discriminate|]. split; [apply shipped_has; find_name|]. vm_compute. reflexivity.
Qed.
(** a design without walls, with a larger minimum size than the text *)
Example C63_drawn_example : match shown_in 71 ["int x;"]%string with Ok (out, _) => Nat.eqb (List.length out) 18 && String.eqb (nth 9 out EmptyString) (nl "     int x;") | _ => false end = true.
Proof. vm_compute. reflexivity. Qed.

(** an alias, in other letters *)
Example C63_chosen_example : match load_chosen demo_tab (fun _ => true) no_sur UB (txt "SQL-Cmt") false boxes_config with Ok ([d], []) => String.eqb (name_of d) "ada-cmt" | _ => false end = true.
Proof. rewrite (chosen_text demo_tab (fun _ => true) no_sur UB (txt "SQL-Cmt") false boxes_config statement_list shipped_statements). vm_compute. reflexivity. Qed.

(** two designs are tried, one of them ("info") with colours *)
Example C63_detection_example :
  match shipped_design 61, shipped_design 37 with
  | Some info, Some stone =>
      match handle_input (drawing_tab demo_tab) true opts0 stone [] (raw_lines (terminated [10%N] true (map txt ["+-------+"; "| int x |"; "+-------+"]%string))) with
      | Ok inp => match autodetect_design (drawing_tab demo_tab) inp [info; stone] with Ok (Some 1) => true | _ => false end
      | _ => false
      end
  | _, _ => false
  end = true.
Proof. vm_compute. reflexivity. Qed.
Example C63_open_example : In "java-cmt"%string open_names /\
  match shipped_design 27 with
  | Some d => boxes_remove (drawing_tab demo_tab) [10%N] opts0 d 0 (-1) [] (raw_lines (terminated [10%N] true (map txt ["//"; "// a"; "b"]%string))) = Ok (txt (nl "" ++ nl "a" ++ nl "b"))
  | None => False
  end.
Proof. split; [find_name|vm_compute; reflexivity]. Qed.

Print Assumptions C28_built.
Print Assumptions C51_drawn.
Print Assumptions C63_loaded.
Print Assumptions C63_array_end_refuted.
Print Assumptions C63_array_end.
Print Assumptions C63_drawn.
Print Assumptions C63_closed.
Print Assumptions C63_comments.
Print Assumptions C63_chosen.
Print Assumptions C63_chosen_safe.
Print Assumptions C63_detection.
Print Assumptions C63_open.
Print Assumptions C63_remove_refuted.
