(** * Removing a box from any text with the program as a whole: C72 *)
From Coq Require Import Ascii String List Arith NArith ZArith Bool Lia.
From Verif Require Import Base BaseFacts Model_Unicode Model_Bxs Model_Shape Spec_Str Proof_Str Proof_BxsOps Proof_BxsMore Proof_Shows Spec_Design Spec_Box Spec_Remove Demo Prop_Str
  Model_Regex Spec_Input Prop_Input Model_Query Model_Discovery Spec_Discovery Prop_Discovery Model_Input Model_Generate Model_Main Prop_Whole Model_Parser Spec_Parser Prop_Parser
  Model_Scan Spec_Config Prop_Config Model_Cmdline Spec_Cmdline Spec_Options Prop_Cmdline Prop_Options Model_Cld Model_List Model_Mend Prop_Auto Model_Program
  Proof_Query Proof_Shipped Shipped Prop_Shipped Spec_Comment Spec_Closed Spec_Round Spec_Safe Prop_Safe Prop_Subst Spec_Program Prop_Program Spec_Undo Prop_Undo.
Import ListNotations.
Local Open Scope nat_scope.
Local Open Scope list_scope.

Section Shipped.
Variable V : uctab.
Notation U := (drawing_tab V).

(** 'boxes OPTIONS -d NAME -r' with the shipped configuration file: the design of that name is removed from the text *)
Lemma removes : forall w items g n fuel ds d s, shipped_run w items g n -> 1 <= fuel ->
  load_shipped V (w_can_read w) (seen w (c_file (g_src g))) (w_beyond w) boxes_config = Ok (ds, []) -> In d ds -> called d n ->
  main U fuel (with_stdin w s) false (items ++ [ItR]) [] =
    or_exit (boxes_remove U [10%N] (opts_of g) (to_design d) 0 (r_kill (g_rem g)) (map (w_subst w) (c_revrules d)) (raw_lines s)) (fun t => Ok (Success t)).
Proof.
  intros w items g n fuel ds d s R Hf Hl Hd Hc. pose proof (draws _ _ (sr_meant _ _ _ _ R) (sr_draw _ _ _ _ R)) as D.
  unfold main, process_commandline. rewrite (items_removing items create_new_opt false g (proj2 (meant_ok items g) (sr_meant _ _ _ _ R))). cbn [bind input_output_files or_exit].
  change (g_mode (removing g)) with (g_mode g). destruct (mt_help _ _ (sr_meant _ _ _ _ R)) as [-> ->].
  change (handle_config_parsing U fuel (with_stdin w s) (removing g)) with (handle_config_parsing U fuel w (removing g)).
  destruct (shipped_loaded V w items g n fuel ds d R Hf Hl Hd Hc (removing g) eq_refl (sr_eol _ _ _ _ R)) as (file & ->). cbn [or_exit].
  rewrite (dg_list g D), (dg_query g D). unfold work, removing, with_rem, opts_of. cbn [g_rem g_src g_out g_tab g_align g_size g_pad r_mend r_remove r_indent r_kill].
  rewrite (dg_mend g D), (sr_indent _ _ _ _ R), (sr_eol _ _ _ _ R), (by_user _ _ _ (sr_meant _ _ _ _ R) (sr_name _ _ _ _ R)). cbn [with_indentmode N.eqb map].
  rewrite (C60_chosen U [10%N] _ [to_design d] 0 (to_design d)) by reflexivity. cbn [nth_error]. reflexivity.
Qed.
Lemma sound_shipped : forall s ds d fo sur, isempty s = true -> load_shipped V fo sur (Ok s) boxes_config = Ok (ds, []) -> In d ds ->
  wf_design U (to_design d) /\ built U (to_design d) /\ (In (name_of d) open_names -> openb (to_design d) = true).
Proof.
  intros s ds d fo sur Hs E Hd. destruct (shipped_all V fo sur s Hs) as (ds' & E' & _ & F). rewrite E in E'. injection E' as <-.
  rewrite Forall_forall in F. destruct (F d Hd) as [(WF & B & _) K]. split; [exact WF|]. split; [exact B|]. intros Hn.
  apply checked_parts in K as (_ & _ & _ & K & _). apply K. apply among_in. exact Hn.
Qed.

(** Every shipped design, on every text without escape sequences and empty lines, as long as the borders are told apart. *)
Theorem C72_shipped : forall w items g n ds d stdin, shipped_run w items g n ->
  load_shipped V (w_can_read w) (seen w (c_file (g_src g))) (w_beyond w) boxes_config = Ok (ds, []) -> In d ds -> called d n ->
  t_exp (g_tab g) = 101%N -> (forall r, plain_rule U (w_subst w r)) -> stdin <> [] -> Forall (removable U (Z.to_nat (t_stop (g_tab g)))) (raw_lines stdin) ->
  exists inp D, repadded (opts_of g) (to_design d) D /\
    Forall2 (fun raw l => content (Z.to_nat (t_stop (g_tab g))) raw (memory (l_text l))) (raw_lines stdin) (i_lines inp) /\
    first_column U (map (fun l => memory (l_text l)) (i_lines inp)) (i_indent inp) /\
    ((unambiguous U D inp \/ exists pre core post, framed U inp pre core post /\ border_height D true + border_height D false <= List.length core) ->
     uncrossed U D inp ->
     exists kill out ls, (kill = true <-> asked_to_kill (to_design d) (r_kill (g_rem g))) /\
       (Forall (fun l => blank_text U (memory (l_text l))) (i_lines inp) /\ out = inp \/ removed U D 0 kill true inp out) /\
       Forall2 (fun l r => exists s, rewrites (map (w_subst w) (c_revrules d)) (memory (l_text l)) s /\ rtrimmed U s r) (i_lines out) ls /\
       forall fuel, 1 <= fuel -> main U fuel (with_stdin w stdin) false (items ++ [ItR]) [] = Ok (Success (terminated [10%N] (i_final_newline inp) ls))).
Proof.
  intros w items g n ds d stdin R Hl Hd Hc Ht Hs Hne Hr. destruct (sr_beyond _ _ _ _ R) as (s & Es & He). pose proof Hl as Hl'. rewrite Es in Hl'.
  destruct (C55_in_range (w_can_read w) (w_can_write w) false items [] g (Some (Files None None))) as []; [apply C64_meaning; split; [exact (sr_meant _ _ _ _ R)|constructor]|].
  destruct (sound_shipped s ds d _ _ He Hl' Hd) as (WF & HB & _).
  assert (Hrn : raw_lines stdin <> []).
  { intros E. apply Hne. pose proof (C53_splitting stdin) as P. rewrite E in P. clear - P. set (r := S _) in P. clearbody r. inversion P. reflexivity. }
  destruct (C72_removed U [10%N] (opts_of g) (to_design d) 0 (r_kill (g_rem g)) (map (w_subst w) (c_revrules d)) (raw_lines stdin)) as (inp & D & HD & H1 & _ & H2 & _ & K);
    [apply drawing_tab_ok|exact WF|exact HB|cbn [opts_of o_tabstop]; lia|exact Ht|exact Hrn|exact Hr| |].
  { apply Forall_forall. intros r Hin. apply in_map_iff in Hin as (x & <- & _). apply Hs. }
  exists inp, D. split; [exact HD|]. split; [exact H1|]. split; [exact H2|]. intros Hu Hx. destruct (K Hu Hx) as (kill & out & ls & Hk & Ho & HF & E).
  exists kill, out, ls. split; [exact Hk|]. split; [exact Ho|]. split; [exact HF|]. intros fuel Hf.
  rewrite (removes w items g n fuel ds d stdin R Hf Hl Hd Hc), E. reflexivity.
Qed.

(** The eight shipped line comments: whatever the text is. *)
Theorem C72_shipped_open : forall w items g n ds d stdin, shipped_run w items g n ->
  load_shipped V (w_can_read w) (seen w (c_file (g_src g))) (w_beyond w) boxes_config = Ok (ds, []) -> In d ds -> called d n -> In (name_of d) open_names ->
  t_exp (g_tab g) = 101%N -> (forall r, plain_rule U (w_subst w r)) -> stdin <> [] -> Forall (removable U (Z.to_nat (t_stop (g_tab g)))) (raw_lines stdin) ->
  exists inp D kill out ls, repadded (opts_of g) (to_design d) D /\ (kill = true <-> asked_to_kill (to_design d) (r_kill (g_rem g))) /\
    Forall2 (fun raw l => content (Z.to_nat (t_stop (g_tab g))) raw (memory (l_text l))) (raw_lines stdin) (i_lines inp) /\
    first_column U (map (fun l => memory (l_text l)) (i_lines inp)) (i_indent inp) /\
    (Forall (fun l => blank_text U (memory (l_text l))) (i_lines inp) /\ out = inp \/ removed U D 0 kill true inp out) /\
    Forall2 (fun l r => exists s, rewrites (map (w_subst w) (c_revrules d)) (memory (l_text l)) s /\ rtrimmed U s r) (i_lines out) ls /\
    forall fuel, 1 <= fuel -> main U fuel (with_stdin w stdin) false (items ++ [ItR]) [] = Ok (Success (terminated [10%N] (i_final_newline inp) ls)).
Proof.
  intros w items g n ds d stdin R Hl Hd Hc Hn Ht Hs Hne Hr. destruct (sr_beyond _ _ _ _ R) as (s & Es & He). pose proof Hl as Hl'. rewrite Es in Hl'.
  destruct (C55_in_range (w_can_read w) (w_can_write w) false items [] g (Some (Files None None))) as []; [apply C64_meaning; split; [exact (sr_meant _ _ _ _ R)|constructor]|].
  destruct (sound_shipped s ds d _ _ He Hl' Hd) as (WF & HB & HO). specialize (HO Hn). unfold openb in HO.
  apply andb_true_iff in HO as [K K3]. apply andb_true_iff in K as [K1 K2]. apply orb_true_iff in K1.
  assert (Hrn : raw_lines stdin <> []).
  { intros E. apply Hne. pose proof (C53_splitting stdin) as P. rewrite E in P. clear - P. set (r := S _) in P. clearbody r. inversion P. reflexivity. }
  destruct (C72_open U [10%N] (opts_of g) (to_design d) 0 (r_kill (g_rem g)) (map (w_subst w) (c_revrules d)) (raw_lines stdin)) as (inp & D & kill & out & ls & HD & Hk & H1 & H2 & Ho & HF & E);
    [apply drawing_tab_ok|exact WF|exact HB|cbn [opts_of o_tabstop]; lia|exact Ht|exact Hrn|exact Hr| |exact K1|exact K2|exact K3|].
  { apply Forall_forall. intros r Hin. apply in_map_iff in Hin as (x & <- & _). apply Hs. }
  exists inp, D, kill, out, ls. repeat (split; [assumption|]). intros fuel Hf. rewrite (removes w items g n fuel ds d stdin R Hf Hl Hd Hc), E. reflexivity.
Qed.

(** Empty lines: undefined behaviour, with every shipped design. *)
Theorem C72_shipped_empty_line_refuted : forall w items g n ds d stdin fuel, shipped_run w items g n ->
  load_shipped V (w_can_read w) (seen w (c_file (g_src g))) (w_beyond w) boxes_config = Ok (ds, []) -> In d ds -> called d n -> 1 <= fuel ->
  In [10%N] (raw_lines stdin) -> (forall raw, In raw (raw_lines stdin) -> exists l, read_line U true (opts_of g) raw = Ok l \/ raw = [10%N]) ->
  main U fuel (with_stdin w stdin) false (items ++ [ItR]) [] = UB.
Proof.
  intros w items g n ds d stdin fuel R Hl Hd Hc Hf Hi Hall. rewrite (removes w items g n fuel ds d stdin R Hf Hl Hd Hc), C72_empty_line_refuted by assumption. reflexivity.
Qed.
End Shipped.
Print Assumptions C72_shipped.
Print Assumptions C72_shipped_open.
Print Assumptions C72_shipped_empty_line_refuted.

(** the program with "-d Pound-CMT -p l3 -r" on a text that was never in a box *)
Definition undo_text : list N := txt "int main();
  # a comment
	# another".
Example C72_shipped_example : shipped_run (shipped_world []) shell_items (meaning shell_items) (txt "Pound-CMT") /\
  (exists ds d, load_shipped demo_tab (w_can_read (shipped_world [])) (seen (shipped_world []) None) (Ok sentry0) boxes_config = Ok (ds, []) /\ In d ds /\
     name_of d = "pound-cmt"%string /\ called d (txt "Pound-CMT")) /\ In "pound-cmt"%string open_names /\
  Forall (removable (drawing_tab demo_tab) 8) (raw_lines undo_text) /\ t_exp (g_tab (meaning shell_items)) = 101%N /\ t_stop (g_tab (meaning shell_items)) = 8%Z /\
  (forall U r, plain_rule U (w_subst (shipped_world []) r)).
Proof.
  destruct (C68_comments_example []) as (A & B & _). split; [exact A|]. split; [exact B|]. split; [find_name|]. split.
  - replace (raw_lines undo_text) with (map txt ["int main();
"; "  # a comment
"; "	# another"]%string) by (vm_compute; reflexivity).
    cbn [map]. repeat apply Forall_cons; try apply Forall_nil; (apply removable_plain; [apply drawing_tab_ok|reflexivity|reflexivity|lia|vm_compute; reflexivity|vm_compute; lia]).
  - split; [reflexivity|]. split; [reflexivity|]. intros U r s w Hs Hn. exists s, w. auto.
Qed.
