(** * Mending a box with the program as a whole: C74 *)
From Coq Require Import Ascii String List Arith NArith ZArith Bool Lia.
From Verif Require Import Base BaseFacts Model_Unicode Model_Bxs Model_Shape Spec_Str Proof_Str Proof_BxsOps Proof_BxsMore Proof_Shows Spec_Design Spec_Box Spec_Remove Demo Prop_Str
  Model_Regex Spec_Input Prop_Input Model_Query Model_Discovery Spec_Discovery Prop_Discovery Model_Input Model_Generate Model_Main Prop_Whole Model_Parser Spec_Parser Prop_Parser
  Model_Scan Spec_Config Prop_Config Model_Cmdline Spec_Cmdline Spec_Options Prop_Cmdline Prop_Options Model_Cld Model_List Model_Mend Prop_Auto Model_Program
  Proof_Query Proof_Shipped Shipped Prop_Shipped Spec_Comment Spec_Closed Spec_Round Spec_Safe Prop_Safe Prop_Subst Spec_Program Prop_Program Spec_Undo Prop_Undo Prop_UndoMain
  Spec_Adhoc Prop_Adhoc Prop_Mend Spec_Pipe Prop_Pipe.
Import ListNotations.
Local Open Scope nat_scope.
Local Open Scope list_scope.

Definition mending (g : settings) : settings := with_rem g (mkRemoval true 2%Z 0%Z (r_indent (g_rem g))).
Lemma items_mending : forall items g a g', do_items g a items = Ok (g', false) -> do_items g a (items ++ [ItM]) = Ok (mending g', false).
Proof.
  induction items as [|i items IH]; intros g a g' H; cbn [app do_items] in *; [injection H as ->; reflexivity|].
  destruct (do_item g a i) as [[[g1 a1] stop]| | | |]; try discriminate. cbn [bind] in *. destruct stop; [discriminate|]. apply IH. exact H.
Qed.
Lemma lines_of_text : forall s, s <> [] -> raw_lines s <> [].
Proof. intros s H E. apply H. pose proof (C53_splitting s) as P. rewrite E in P. clear - P. set (r := S _) in P. clearbody r. inversion P. reflexivity. Qed.

(** ** The shipped designs *)
Section Shipped.
Variable V : uctab.
Notation U := (drawing_tab V).

Lemma mends : forall w items g n fuel ds d s, shipped_run w items g n -> 1 <= fuel ->
  load_shipped V (w_can_read w) (seen w (c_file (g_src g))) (w_beyond w) boxes_config = Ok (ds, []) -> In d ds -> called d n ->
  exists rules rrules, rules 0 = map (w_subst w) (c_reprules d) /\ rrules 0 = map (w_subst w) (c_revrules d) /\
  main U fuel (with_stdin w s) false (items ++ [ItM]) [] =
    or_exit (boxes_mend U fuel (check_color_support w (o_color (g_out g))) [10%N] (opts_of g) [to_design d] 0 true 0 0 rules rrules (raw_lines s)) (fun t => Ok (Success t)).
Proof.
  intros w items g n fuel ds d s R Hf Hl Hd Hc. pose proof (draws _ _ (sr_meant _ _ _ _ R) (sr_draw _ _ _ _ R)) as D.
  unfold main, process_commandline. rewrite (items_mending items create_new_opt false g (proj2 (meant_ok items g) (sr_meant _ _ _ _ R))). cbn [bind input_output_files or_exit].
  change (g_mode (mending g)) with (g_mode g). destruct (mt_help _ _ (sr_meant _ _ _ _ R)) as [-> ->].
  change (handle_config_parsing U fuel (with_stdin w s) (mending g)) with (handle_config_parsing U fuel w (mending g)).
  destruct (shipped_loaded V w items g n fuel ds d R Hf Hl Hd Hc (mending g) eq_refl (sr_eol _ _ _ _ R)) as (file & ->). cbn [or_exit].
  rewrite (dg_list g D), (dg_query g D). unfold work, mending, with_rem, opts_of. cbn [g_rem g_src g_out g_tab g_align g_size g_pad r_mend r_remove r_indent r_kill].
  rewrite (sr_indent _ _ _ _ R), (sr_eol _ _ _ _ R), (by_user _ _ _ (sr_meant _ _ _ _ R) (sr_name _ _ _ _ R)). cbn [with_indentmode N.eqb Z.eqb Pos.eqb map].
  eexists. eexists. split; [|split; [|reflexivity]]; reflexivity.
Qed.

(** 'boxes OPTIONS -m' prints what 'boxes OPTIONS -r | boxes OPTIONS' does, with '-k no' and '-d NAME' among the options. *)
Theorem C74_shipped : forall w items g n ds d stdin t, shipped_run w items g n -> r_kill (g_rem g) = 0%Z ->
  load_shipped V (w_can_read w) (seen w (c_file (g_src g))) (w_beyond w) boxes_config = Ok (ds, []) -> In d ds -> called d n ->
  t_exp (g_tab g) = 101%N -> padding_stays (opts_of g) -> uc_ws U 10 = true -> (forall r, plain_rule U (w_subst w r)) ->
  stdin <> [] -> Forall (removable U (Z.to_nat (t_stop (g_tab g)))) (raw_lines stdin) ->
  (exists fuel, main U fuel (with_stdin w stdin) false (items ++ [ItR]) [] = Ok (Success t)) ->
  exists fin ls, t = terminated [10%N] fin ls /\ (fin = true <-> ends_with_break (last (raw_lines stdin) [])) /\
    (steady_lines U fin ls -> forall fuel, 1 <= fuel -> main U fuel (with_stdin w stdin) false (items ++ [ItM]) [] = main U fuel (with_stdin w t) false items []).
Proof.
  intros w items g n ds d stdin t R Hk Hl Hd Hc Ht Hp H10 Hs Hne Hr (fuel0 & E).
  destruct (C55_in_range (w_can_read w) (w_can_write w) false items [] g (Some (Files None None))) as []; [apply C64_meaning; split; [exact (sr_meant _ _ _ _ R)|constructor]|].
  assert (F0 : 1 <= fuel0).
  { destruct fuel0; [|lia]. exfalso. revert E. unfold main, process_commandline. rewrite (items_removing items create_new_opt false g (proj2 (meant_ok items g) (sr_meant _ _ _ _ R))).
    cbn [bind input_output_files or_exit]. change (g_mode (removing g)) with (g_mode g). destruct (mt_help _ _ (sr_meant _ _ _ _ R)) as [-> ->]. unfold handle_config_parsing.
    destruct (discover_config_file _ _ _) as [[file|]| | | |]; try (intros E; discriminate E). cbn [bind]. change (g_src (removing g)) with (g_src g).
    rewrite (dg_cld _ (draws _ _ (sr_meant _ _ _ _ R) (sr_draw _ _ _ _ R))). unfold load_designs. cbn [parse_loop bind or_exit]. intros E. discriminate E. }
  rewrite (removes V w items g n fuel0 ds d stdin R F0 Hl Hd Hc), Hk in E. apply exit_inv in E.
  destruct (mends w items g n 1 ds d stdin R (Nat.le_refl 1) Hl Hd Hc) as (rules0 & rrules0 & _ & Err & _).
  rewrite <- Err in E.
  destruct (C74_pipeline U [10%N] (opts_of g) [to_design d] 0 (to_design d) 0 0 (fun _ => map (w_subst w) (c_reprules d)) rrules0 (raw_lines stdin) t) as (fin & ls & Et & Hfin & K);
    [apply drawing_tab_ok|cbn [opts_of o_tabstop]; lia|exact Ht|left; reflexivity|cbn [forallb]; rewrite H10; reflexivity|reflexivity|exact Hp|apply lines_of_text; exact Hne|exact Hr| |exact E|].
  { rewrite Err. apply Forall_forall. intros r Hin. apply in_map_iff in Hin as (x & <- & _). apply Hs. }
  exists fin, ls. split; [exact Et|]. split; [exact Hfin|]. intros Hst fuel Hf.
  destruct (mends w items g n fuel ds d stdin R Hf Hl Hd Hc) as (rules & rrules & Er1 & Er2 & ->).
  assert (R2 : shipped_run (with_stdin w t) items g n) by (destruct R; constructor; assumption).
  rewrite (shipped_draws V (with_stdin w t) items g n fuel ds d R2 Hf Hl Hd Hc). f_equal. cbn [with_stdin w_stdin w_subst]. change (check_color_support (with_stdin w t)) with (check_color_support w).
  specialize (K Hst fuel (check_color_support w (o_color (g_out g)))). cbv beta in K. rewrite <- K.
  rewrite !(C40_remove_then_draw U fuel _ [10%N] (opts_of g) [to_design d] 0 (to_design d)) by (reflexivity || exact Hp). rewrite Er1, Er2, Err. reflexivity.
Qed.
End Shipped.
Print Assumptions C74_shipped.

(** ** The design from the command line *)
Section Adhoc.
Variable U : uctab.
Hypothesis HU : uctab_ok U.

Lemma comment_again : forall w items g s c fuel t it g', comment_run w items g s -> build_design U s = Ok c ->
  do_items create_new_opt false (items ++ [it]) = Ok (g', false) -> g_mode g' = g_mode g -> g_src g' = g_src g ->
  main U fuel (with_stdin w t) false (items ++ [it]) [] = or_exit (work U fuel (with_stdin w t) g' [c] (raw_lines t)) (fun t => Ok (Success t)).
Proof.
  intros w items g s c fuel t it g' R Eb Hi Em Es. destruct (draws_any _ _ (cr_meant _ _ _ _ R) (cr_draw _ _ _ _ R)) as (D1 & D2 & D3 & D4).
  unfold main, process_commandline. rewrite Hi. cbn [bind input_output_files or_exit]. rewrite Em. destruct (mt_help _ _ (cr_meant _ _ _ _ R)) as [-> ->].
  assert (X : exists file, handle_config_parsing U fuel (with_stdin w t) g' = (d <- build_design U s ;; Ok ([d], file, []))).
  { destruct (comment_design_used U HU w items g s fuel R) as (file & X). exists file. rewrite <- X. clear X. unfold handle_config_parsing. rewrite Es, (cr_string _ _ _ _ R). reflexivity. }
  destruct X as (file & ->). rewrite Eb. cbn [bind or_exit]. rewrite D1, D2. reflexivity.
Qed.

(** the same with -c STRING among the options, with any line terminator and indentation mode *)
Theorem C74_comment : forall w items g s c stdin t, comment_run w items g s -> build_design U s = Ok c -> r_kill (g_rem g) = 0%Z ->
  t_exp (g_tab g) = 101%N -> padding_stays (opts_of g) -> o_eol (g_out g) = [10%N] \/ o_eol (g_out g) = [13%N; 10%N] -> forallb (uc_ws U) (o_eol (g_out g)) = true ->
  stdin <> [] -> Forall (removable U (Z.to_nat (t_stop (g_tab g)))) (raw_lines stdin) ->
  (exists fuel, main U fuel (with_stdin w stdin) false (items ++ [ItR]) [] = Ok (Success t)) ->
  exists fin ls, t = terminated (o_eol (g_out g)) fin ls /\ (fin = true <-> ends_with_break (last (raw_lines stdin) [])) /\
    (steady_lines U fin ls -> forall fuel, main U fuel (with_stdin w stdin) false (items ++ [ItM]) [] = main U fuel (with_stdin w t) false items []).
Proof.
  intros w items g s c stdin t R Eb Hk Ht Hp He Hw Hne Hr (fuel0 & E).
  destruct (C55_in_range (w_can_read w) (w_can_write w) false items [] g (Some (Files None None))) as []; [apply C64_meaning; split; [exact (cr_meant _ _ _ _ R)|constructor]|].
  destruct (draws_any _ _ (cr_meant _ _ _ _ R) (cr_draw _ _ _ _ R)) as (D1 & D2 & D3 & D4).
  pose proof (proj2 (meant_ok items g) (cr_meant _ _ _ _ R)) as Hi. destruct (built_rules U s c Eb) as [B1 B2].
  set (d := with_indentmode (r_indent (g_rem g)) (to_design c)).
  assert (ER : boxes_remove U (o_eol (g_out g)) (opts_of g) d (r_indent (g_rem g)) 0 [] (raw_lines stdin) = Ok t).
  { rewrite (comment_again w items g s c fuel0 stdin ItR (removing g) R Eb (items_removing _ _ _ _ Hi) eq_refl eq_refl) in E. apply exit_inv in E.
    unfold work, removing, with_rem, opts_of in E. cbn [g_rem g_src g_out g_tab g_align g_size g_pad r_mend r_remove r_indent r_kill] in E.
    rewrite D4, (string_by_user _ _ _ (cr_meant _ _ _ _ R) (cr_string _ _ _ _ R)), Hk in E. cbn [Z.eqb map] in E. fold d in E.
    rewrite (C60_chosen U _ _ [d] 0 d) in E by reflexivity. cbn [nth_error] in E. rewrite B2 in E. exact E. }
  destruct (C74_pipeline U (o_eol (g_out g)) (opts_of g) [d] 0 d (r_indent (g_rem g)) 0 (fun _ => []) (fun _ => []) (raw_lines stdin) t) as (fin & ls & Et & Hfin & K);
    [exact HU|cbn [opts_of o_tabstop]; lia|exact Ht|exact He|exact Hw|reflexivity|exact Hp|apply lines_of_text; exact Hne|exact Hr|constructor|exact ER|].
  exists fin, ls. split; [exact Et|]. split; [exact Hfin|]. intros Hst fuel.
  assert (R2 : comment_run (with_stdin w t) items g s) by (destruct R; constructor; assumption).
  rewrite (comment_main U HU (with_stdin w t) items [] g (Files None None) s fuel c R2 (op_none _ _) Eb). cbn [text_read with_stdin w_stdin]. fold d.
  change (check_color_support (with_stdin w t)) with (check_color_support w). rewrite <- (K Hst fuel (check_color_support w (o_color (g_out g)))).
  rewrite (comment_again w items g s c fuel stdin ItM (mending g) R Eb (items_mending _ _ _ _ Hi) eq_refl eq_refl). f_equal.
  unfold work, mending, with_rem. cbn [g_rem g_src g_out g_tab g_align g_size g_pad r_mend r_remove r_indent r_kill].
  rewrite (string_by_user _ _ _ (cr_meant _ _ _ _ R) (cr_string _ _ _ _ R)). cbn [Z.eqb Pos.eqb map]. fold d.
  change (check_color_support (with_stdin w stdin)) with (check_color_support w).
  rewrite !(C40_remove_then_draw U fuel _ (o_eol (g_out g)) _ [d] 0 d) by (reflexivity || exact Hp). cbn [nth_error]. rewrite B1, B2. reflexivity.
Qed.
End Adhoc.
Print Assumptions C74_comment.

(** ** Lines that get lost in between *)
Definition mended (items : list Model_Cmdline.item) (t : list N) : string := shown (main demo_tab 30 (empty_world t) false (items ++ [ItM]) []).
Definition piped (items : list Model_Cmdline.item) (t : list N) : string :=
  match main demo_tab 30 (empty_world t) false (items ++ [ItR]) [] with Ok (Success r) => shown (main demo_tab 30 (empty_world r) false items []) | _ => "?"%string end.
Definition slash_keep : list Model_Cmdline.item := [ItC (txt "//"); ItNoKillBlank].
Lemma slash_keep_run : forall t, comment_run (empty_world t) slash_keep (meaning slash_keep) (txt "//").
Proof. intros t. apply comment_run_demo; [vm_compute; auto|reflexivity]. Qed.
Lemma removable_demo : forall t ls, raw_lines t = map txt ls -> Forall (fun s => forallb plain_char (txt s) && negb (is_nil (txt s)) && negb (Neq_list (txt s) [10%N]) && (List.length (txt s) <=? 100) = true) ls ->
  Forall (removable demo_tab 8) (raw_lines t).
Proof.
  intros t ls -> H. apply Forall_forall. intros x Hx. apply in_map_iff in Hx as (s & <- & Hs). rewrite Forall_forall in H. apply H in Hs. apply andb_true_iff in Hs as [H1 H2]. apply Nat.leb_le in H2.
  apply removable_plain; [exact demo_tab_ok|reflexivity|reflexivity|lia|exact H1|exact H2].
Qed.
(** a line of nothing but blanks is still there when the box is mended, and the new box is indented accordingly *)
Definition blank_left : list N := txt "//   a
//  
".
(** an empty last line without terminator disappears when it is printed *)
Definition empty_last : list N := txt "// a
//".
Theorem C74_lost_lines_refuted : exists items g s t1 t2, g = meaning items /\ r_kill (g_rem g) = 0%Z /\ t_exp (g_tab g) = 101%N /\ t_stop (g_tab g) = 8%Z /\ padding_stays (opts_of g) /\ o_eol (g_out g) = [10%N] /\
  Forall (fun t => comment_run (empty_world t) items g s /\ Forall (removable demo_tab 8) (raw_lines t)) [t1; t2] /\
  mended items t1 = " //  a
 //
"%string /\ piped items t1 = "  // a
  //
"%string /\ mended items t2 = "// a
//"%string /\ piped items t2 = "// a
"%string.
Proof.
  exists slash_keep, (meaning slash_keep), (txt "//"), blank_left, empty_last. split; [reflexivity|]. split; [reflexivity|]. split; [reflexivity|]. split; [reflexivity|].
  split; [split; left; reflexivity|]. split; [reflexivity|]. split.
  { constructor; [|constructor; [|constructor]]; (split; [apply slash_keep_run|]).
    - apply (removable_demo _ ["//   a
"; "//  
"]%string); [vm_compute; reflexivity|]. repeat constructor.
    - apply (removable_demo _ ["// a
"; "//"]%string); [vm_compute; reflexivity|]. repeat constructor. }
  split; [vm_compute; reflexivity|]. split; [vm_compute; reflexivity|]. split; vm_compute; reflexivity.
Qed.
Print Assumptions C74_lost_lines_refuted.

(** ** Examples *)
Definition shaky : list N := txt "    // one
  //   two
//
".
Lemma steady_demo : forall ls, forallb (fun s => negb (existsb (N.eqb 10) s) && (List.length s <=? 100) && match rev s with [] => true | c :: _ => negb (uc_ws demo_tab c) && negb (N.eqb c 13) end) ls = true ->
  steady_lines demo_tab true ls.
Proof.
  intros ls H. split; [|discriminate]. apply Forall_forall. intros s Hs. rewrite forallb_forall in H. apply H in Hs. apply andb_true_iff in Hs as [Hs H3]. apply andb_true_iff in Hs as [H1 H2].
  apply Nat.leb_le in H2. split; [|split].
  - intros F. apply negb_true_iff in H1. assert (existsb (N.eqb 10) s = true) by (apply existsb_exists; exists 10%N; split; [exact F|reflexivity]). congruence.
  - assert (100 <= line_limit)%N by (vm_compute; discriminate). lia.
  - destruct (rev s) as [|c r] eqn:E; [left; rewrite <- (rev_involutive s), E; reflexivity|right]. exists (rev r), c. split; [rewrite <- (rev_involutive s), E; reflexivity|].
    apply andb_true_iff in H3 as [H3 H4]. apply negb_true_iff in H3, H4. apply N.eqb_neq in H4. auto.
Qed.
Example C74_comment_example : comment_run (empty_world shaky) slash_keep (meaning slash_keep) (txt "//") /\ Forall (removable demo_tab 8) (raw_lines shaky) /\
  main demo_tab 1 (empty_world shaky) false (slash_keep ++ [ItR]) [] = Ok (Success (terminated [10%N] true (map txt ["one"; "  two"; ""]%string))) /\
  steady_lines demo_tab true (map txt ["one"; "  two"; ""]%string) /\
  mended slash_keep shaky = "// one
//   two
//
"%string /\ piped slash_keep shaky = mended slash_keep shaky.
Proof.
  split; [apply slash_keep_run|]. split.
  { apply (removable_demo _ ["    // one
"; "  //   two
"; "//
"]%string); [vm_compute; reflexivity|]. repeat constructor. }
  split; [vm_compute; reflexivity|]. split; [apply steady_demo; vm_compute; reflexivity|]. split; vm_compute; reflexivity.
Qed.
Example C74_pipeline_example : let d := mend_wide in
  Forall (removable demo_tab 8) broken_box /\ padding_stays opts0 /\ o_tabexp opts0 = 101%N /\
  boxes_remove demo_tab [10%N] opts0 d 0 (-1) [] broken_box = Ok (terminated [10%N] true [txt "text"]) /\ steady_lines demo_tab true [txt "text"] /\
  boxes_mend demo_tab 100 true [10%N] opts0 [mend_small; d] 1 true 0 (-1) no_rules no_rules broken_box = boxes_draw demo_tab 100 true [10%N] opts0 d [] [txt "text" ++ [10%N]].
Proof.
  intros d. split.
  { repeat apply Forall_cons; try apply Forall_nil; (apply removable_plain; [exact demo_tab_ok|reflexivity|reflexivity|lia|vm_compute; reflexivity|vm_compute; lia]). }
  split; [split; left; reflexivity|]. split; [reflexivity|]. split; [vm_compute; reflexivity|]. split; [apply steady_demo; vm_compute; reflexivity|]. vm_compute. reflexivity.
Qed.
(** the program with "-d Pound-CMT -p l3 --no-kill-blank" *)
Definition shell_keep : list Model_Cmdline.item := shell_items ++ [ItNoKillBlank].
Example C74_shipped_example : shipped_run (shipped_world []) shell_keep (meaning shell_keep) (txt "Pound-CMT") /\ r_kill (g_rem (meaning shell_keep)) = 0%Z /\
  padding_stays (opts_of (meaning shell_keep)) /\ t_exp (g_tab (meaning shell_keep)) = 101%N /\ uc_ws (drawing_tab demo_tab) 10 = true /\
  exists ds d t, load_shipped demo_tab (w_can_read (shipped_world [])) (seen (shipped_world []) None) (Ok sentry0) boxes_config = Ok (ds, []) /\ In d ds /\ called d (txt "Pound-CMT") /\
    exists fuel, main (drawing_tab demo_tab) fuel (with_stdin (shipped_world []) undo_text) false (shell_keep ++ [ItR]) [] = Ok (Success t).
Proof.
  destruct C72_shipped_example as (A & (ds & d & Hl & Hd & Hn & Hc) & Ho & Hr & _ & _ & Hs).
  assert (R : shipped_run (shipped_world []) shell_keep (meaning shell_keep) (txt "Pound-CMT")).
  { destruct A as [A1 A2 A3 A4 A5 A6 A7 A8]. constructor; try assumption.
    - apply meaning_ok. vm_compute. reflexivity.
    - intros i [<-|[<-|[<-|[]]]]; exact I. }
  split; [exact R|]. split; [reflexivity|]. split; [split; left; reflexivity|]. split; [reflexivity|]. split; [reflexivity|].
  rewrite <- Hn in Ho.
  destruct (C72_shipped_open demo_tab (shipped_world []) shell_keep (meaning shell_keep) (txt "Pound-CMT") ds d undo_text R Hl Hd Hc Ho eq_refl (Hs _)) as (inp & D & kill & out & ls & _ & _ & _ & _ & _ & _ & E);
    [discriminate|exact Hr|]. exists ds, d. eexists. split; [exact Hl|]. split; [exact Hd|]. split; [exact Hc|]. exists 1. exact (E 1 (Nat.le_refl 1)).
Qed.
