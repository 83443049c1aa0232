(** * The program as a whole with -c: C73 *)
From Coq Require Import Ascii String List Arith NArith ZArith Bool Lia.
From Verif Require Import Base BaseFacts Model_Unicode Model_Bxs Model_Shape Spec_Str Proof_Str Proof_BxsOps Proof_BxsMore Proof_Shows Spec_Design Spec_Box Proof_Rows Proof_Draw Demo Prop_Str Prop_Box
  Model_Regex Spec_Input Prop_Input Model_Query Model_Discovery Spec_Discovery Prop_Discovery Model_Input Model_Generate Model_Remove Model_Main Prop_Whole Model_Parser Spec_Parser Prop_Parser
  Model_Scan Spec_Config Prop_Config Model_Cmdline Spec_Cmdline Spec_Options Prop_Cmdline Prop_Options Model_Cld Model_List Model_Mend Prop_Auto Model_Program
  Proof_Query Spec_Comment Proof_Comment Spec_Round Spec_Safe Prop_Safe Prop_Subst Spec_Program Prop_Program Prop_Cld Prop_Round Spec_Undo Prop_Undo Spec_Adhoc.
Import ListNotations.
Local Open Scope nat_scope.
Local Open Scope list_scope.

Section Adhoc.
Variable U : uctab.
Hypothesis HU : uctab_ok U.

(** The command line is right and asks for a comment with the string [s]; some configuration file exists. *)
Record comment_run (w : world) (items : list Model_Cmdline.item) (g : settings) (s : list N) : Prop := {
  cr_meant : meant items g;
  cr_draw : asks_to_draw_any items;
  cr_string : c_cld (g_src g) = Some s;
  cr_places : plain_places (seen w (c_file (g_src g)));
  cr_file : exists f, config_file_is (seen w (c_file (g_src g))) f
}.
Lemma draws_any : forall items g, meant items g -> asks_to_draw_any items ->
  m_list (g_mode g) = false /\ m_query (g_mode g) = None /\ r_remove (g_rem g) = false /\ r_mend (g_rem g) = 0%Z.
Proof.
  intros items g H D. split; [|split; [|split]].
  - destruct (m_list (g_mode g)) eqn:E; [|reflexivity]. apply (mt_list _ _ H) in E. destruct (D _ E).
  - destruct (mt_query _ _ H) as (ls & F & L). rewrite (concat_none _ _ _ _ _ F) in L; [eapply latest_none; [|exact L]; intros y []|].
    intros i x Hi. specialize (D i Hi). destruct i; try contradiction; exact (fun E => E).
  - destruct (r_remove (g_rem g)) eqn:E; [|reflexivity]. apply (mt_remove _ _ H) in E as [E|E]; destruct (D _ E).
  - destruct (mt_mend _ _ H) as [[E _]|[_ E]]; [destruct (D _ E)|exact E].
Qed.
Lemma string_by_user : forall items g s, meant items g -> c_cld (g_src g) = Some s -> c_by_user (g_src g) = true.
Proof.
  intros items g s M E. apply (mt_by_user _ _ M). destruct (mt_comment _ _ M) as (ls & F & [(l1 & x & l2 & El & _ & _)|[_ K]]); [|congruence].
  assert (X : exists i y, In i items /\ commented_by i y /\ y <> []).
  { clear - F El. revert l1 El. induction F as [|i y items ls Hy F IH]; intros l1 El; [destruct l1; discriminate|]. cbn [concat] in El.
    destruct y as [|z y]; [|exists i, (z :: y); split; [left; reflexivity|split; [exact Hy|discriminate]]].
    destruct (IH l1 El) as (j & y & A & B). exists j, y. split; [right; exact A|exact B]. }
  destruct X as (i & y & A & B & C). destruct i; cbn [commented_by] in B; try contradiction. exists arg. left. exact A.
Qed.
Lemma comment_design_used : forall w items g s fuel, comment_run w items g s ->
  exists file, handle_config_parsing U fuel w g = (d <- build_design U s ;; Ok ([d], file, [])).
Proof.
  intros w items g s fuel R. unfold handle_config_parsing. change (sur_with (w_sur w) (c_file (g_src g))) with (seen w (c_file (g_src g))).
  destruct (discovered U _ HU (cr_places _ _ _ _ R)) as (r & -> & Hr). cbn [bind]. destruct (cr_file _ _ _ _ R) as (f & F). apply Hr in F.
  destruct r as [file|]; [|discriminate F]. rewrite (cr_string _ _ _ _ R). exists file. reflexivity.
Qed.
Lemma built_rules : forall s c, build_design U s = Ok c -> c_reprules c = [] /\ c_revrules c = [].
Proof.
  intros s c. unfold build_design. destruct (must _) as [b| | | |]; cbn [bind]; try discriminate. destruct (genshape U _ 1) as [p| | | |]; cbn [bind]; try discriminate.
  destruct (_ <? _); [discriminate|]. destruct (blank_shape_of U _ false) as [x| | | |]; cbn [bind]; try discriminate. destruct (blank_shape_of U 1 false) as [y| | | |]; cbn [bind]; try discriminate.
  destruct (blank_shape_of U 1 true) as [z| | | |]; cbn [bind]; try discriminate. intros H. injection H as <-. split; reflexivity.
Qed.

(** ** What is done: the text is drawn with the design made from the string *)
Lemma comment_main : forall w items rest g fs s fuel c, comment_run w items g s -> opened (w_can_read w) (w_can_write w) rest fs -> build_design U s = Ok c ->
  main U fuel w false items rest = or_exit (boxes_draw U fuel (check_color_support w (o_color (g_out g))) (o_eol (g_out g)) (opts_of g)
    (with_indentmode (r_indent (g_rem g)) (to_design c)) [] (raw_lines (text_read w fs))) (fun t => Ok (Success t)).
Proof.
  intros w items rest g fs s fuel c R Ho Eb. destruct (draws_any _ _ (cr_meant _ _ _ _ R) (cr_draw _ _ _ _ R)) as (D1 & D2 & D3 & D4).
  rewrite (main_started U fuel w items rest g fs (cr_meant _ _ _ _ R) Ho). destruct (comment_design_used w items g s fuel R) as (file & ->). rewrite Eb. cbn [bind or_exit].
  rewrite D1, D2. unfold work. rewrite D3, D4. cbn [Z.eqb rd nth_error bind]. rewrite (proj1 (built_rules s c Eb)). reflexivity.
Qed.
Lemma indentmode_comment : forall m d s, comment_design d s -> comment_design (with_indentmode m d) s.
Proof. intros m d s H. unfold with_indentmode. destruct (N.eqb m 0); [exact H|]. destruct H. constructor; assumption. Qed.

(** The text comes out with the string and a space (or the padding asked for) in front of every line: the box is indented like
    the text unless -i says otherwise. *)
Theorem C73_output : forall w items rest g fs s, comment_run w items g s -> opened (w_can_read w) (w_can_write w) rest fs ->
  forallb is_ascii_printable s = true -> (N.of_nat (List.length s) <= LINE_MAX_BYTES)%N ->
  t_exp (g_tab g) = 101%N -> plain_options (opts_of g) 0 0 -> text_read w fs <> [] -> Forall (raw_ok U (Z.to_nat (t_stop (g_tab g)))) (raw_lines (text_read w fs)) ->
  exists rows ps fin ind out, (exists fuel, main U fuel w false items rest = Ok (Success out)) /\
    (forall fuel, main U fuel w false items rest = Ok (Success out) \/ main U fuel w false items rest = Fuel) /\
    out = terminated (o_eol (g_out g)) fin ps /\ (fin = true <-> ends_with_break (text_read w fs)) /\
    Forall2 (printed U (check_color_support w (o_color (g_out g)))) rows ps /\
    indented U (Z.to_nat (t_stop (g_tab g))) (raw_lines (text_read w fs)) ind /\
    Forall2 (commented U (Z.to_nat (t_stop (g_tab g))) (if (N.eqb (r_indent (g_rem g)) 0 || N.eqb (r_indent (g_rem g)) 98)%bool then ind else 0)
       (if forallb (N.eqb 32) s then [] else s) (over (p_left (g_pad g)) 1) (if N.eqb (r_indent (g_rem g)) 116 then 0 else ind)) (raw_lines (text_read w fs)) rows.
Proof.
  intros w items rest g fs s R Ho Hp Hn He Hpl Ht Hraw.
  destruct (C55_in_range (w_can_read w) (w_can_write w) false items rest g (Some fs)) as []; [apply C64_meaning; split; [exact (cr_meant _ _ _ _ R)|exact Ho]|].
  assert (Hne : s <> []) by (intros ->; apply ir_cld; exact (cr_string _ _ _ _ R)).
  destruct (C32_blank U s HU Hp Hne Hn) as (c & E & Eb).
  assert (Hw : 0 < List.length s) by (destruct s; [congruence|cbn; lia]).
  destruct (build_ok U HU s _ (shows_ascii U HU s Hp) Hw Hn) as (c' & E' & WF0 & CD0 & _ & _ & Im & Pd & Mh); [rewrite (utf8_ascii s Hp); lia|].
  rewrite E in E'. injection E' as <-.
  set (m := r_indent (g_rem g)) in *. set (d := with_indentmode m (to_design c)).
  assert (WF : wf_design U d) by (apply indentmode_wf; exact WF0). assert (CD : comment_design d s) by (apply indentmode_comment; exact CD0).
  assert (Sh : d_shape d = c_shape c /\ (forall sd, blank_side d sd = blank_side (to_design c) sd) /\ d_pad_top d = 0 /\ d_pad_bottom d = 0 /\ d_pad_left d = 1 /\ d_minheight d = 3 /\
    d_indentmode d = if N.eqb m 0 then 98%N else m).
  { unfold d, with_indentmode. destruct (N.eqb m 0); cbn; rewrite !Pd; repeat split; assumption. }
  destruct Sh as (_ & Sb & S1 & S2 & S3 & S4 & S5). assert (Dd : d = with_indentmode m (to_design c)) by reflexivity. clearbody d.
  set (o := opts_of g) in *. set (raws := raw_lines (text_read w fs)) in *.
  destruct (C53_no_loss (text_read w fs)) as [Nl Nn]. fold raws in Nl, Nn.
  assert (Hr : raws <> []) by (intros F; rewrite F in Nl; cbn in Nl; congruence).
  assert (Po : plain_options o (d_pad_top d) (d_pad_bottom d)) by (rewrite S1, S2; exact Hpl).
  assert (HJ : o_justify o = 0%N) by apply Po.
  assert (Hts : 1 <= o_tabstop o <= 16) by (unfold o; cbn [opts_of o_tabstop]; lia).
  destruct (C50_input_stage U o d raws HU Hts Hr Hraw (or_introl HJ)) as (inp & Ei & Hwf & Hfin & HF & _).
  specialize (Hwf (or_introl He)).
  assert (El : i_lines inp <> []) by (intros F; rewrite F in HF; inversion HF; congruence).
  set (color := check_color_support w (o_color (g_out g))). set (eol := o_eol (g_out g)).
  assert (Edraw : forall fuel, boxes_draw U fuel color eol o d [] raws = draw U fuel color eol o d inp).
  { intros fuel. unfold boxes_draw. rewrite Ei. cbn [bind]. destruct (i_lines inp); [congruence|reflexivity]. }
  assert (T : exists fuel out, boxes_draw U fuel color eol o d [] raws = Ok out).
  { destruct (comment_terminates U o d s inp HU WF CD Hwf) as (fuel & rows & Er).
    destruct (C11_no_internal_failure U o d inp color eol HU WF Hwf fuel) as [[F _]|(rows' & out & _ & Eo)]; [congruence|].
    exists fuel, out. rewrite Edraw. exact Eo. }
  destruct T as (fuel0 & out & Eo).
  pose proof Eo as Hd. rewrite Edraw in Hd.
  destruct (C12_line_terminators U o d inp fuel0 color eol out HU WF Hwf Hd) as (rows & ps & Er & Eout & Hps).
  exists (map memory rows), ps, (i_final_newline inp), (i_indent inp), out.
  assert (Em : forall fuel, main U fuel w false items rest = or_exit (boxes_draw U fuel color eol o d [] raws) (fun t => Ok (Success t))) by (intros fuel; rewrite Dd; apply (comment_main w items rest g fs s fuel c R Ho E)).
  split; [exists fuel0; rewrite Em, Eo; reflexivity|]. split.
  { intros fuel. rewrite Em. rewrite Edraw. destruct (C11_no_internal_failure U o d inp color eol HU WF Hwf fuel) as [[_ F]|(rows' & out' & _ & Eo')]; [rewrite F; right; reflexivity|].
    left. rewrite Eo'. cbn [or_exit]. do 2 f_equal. rewrite <- Edraw in Eo'. destruct (Nat.le_ge_cases fuel fuel0) as [L|L].
    - pose proof (draw_more _ _ _ _ _ _ _ _ _ _ L Eo'). congruence.
    - pose proof (draw_more _ _ _ _ _ _ _ _ _ _ L Eo). congruence. }
  split; [exact Eout|]. split; [rewrite Hfin; rewrite <- Nl; apply last_break; [exact Hr|exact Nn]|]. split.
  { clear - Hps. induction Hps; constructor; auto. }
  split.
  { apply (C25_indent_of_input U o d raws inp HU Hts Hr Hraw Ei). }
  pose proof (comment_rows U o d s inp fuel0 rows HU WF CD Hwf Po ltac:(lia) Er) as Hrow.
  rewrite (Sb BLEF), Eb, S3 in Hrow.
  assert (Hsh : forall l, In l (i_lines inp) -> num_columns (l_text l) = 0 -> shows U 0 (memory (l_text l))).
  { intros l Hl Hc. destruct (wi_text _ _ _ _ Hwf l Hl) as (x & wx & Hx & Ex & _).
    destruct (shows_from U HU wx x Hx) as (b & Ebx & Emm & Ew & _). rewrite Ex in Ebx. injection Ebx as Ebx. rewrite Ebx in *. congruence. }
  assert (B1 : box_indent d inp = if (N.eqb m 0 || N.eqb m 98)%bool then i_indent inp else 0).
  { unfold box_indent. rewrite S5. destruct (N.eqb m 0); reflexivity. }
  assert (B2 : (if N.eqb (d_indentmode d) 116 then 0 else i_indent inp) = if N.eqb m 116 then 0 else i_indent inp).
  { rewrite S5. destruct (N.eqb_spec m 0) as [Q|_]; [rewrite Q|]; reflexivity. }
  rewrite B1 in Hrow. rewrite B2 in HF. change (o_pad_left o) with (p_left (g_pad g)) in Hrow. change (o_tabstop o) with (Z.to_nat (t_stop (g_tab g))) in HF.
  clear - HF Hrow Hsh. revert rows Hrow Hsh. induction HF as [|raw l raws ls (k & Hk & Hk2 & _) _ IH]; intros rows Hrow Hsh; inversion Hrow as [|x y lx ly Hx Hy]; subst; constructor.
  - destruct Hx as (t & r & Et & Htx). exists (memory (l_text l)), t, k, r. split; [exact Hk|]. split; [exact Et|]. split; [exact Htx|].
    destruct Hk2 as [->|[-> Hz]]; [left; reflexivity|right]. split; [reflexivity|]. apply Hsh; [left; reflexivity|exact Hz].
  - apply IH; [exact Hy|]. intros l' Hl'. apply Hsh. right. exact Hl'.
Qed.

(** What the configuration file contains does not matter, but there has to be one. *)
Theorem C73_contents : forall w w' items g s fuel, comment_run w items g s -> w_can_read w' = w_can_read w -> w_can_write w' = w_can_write w -> w_sur w' = w_sur w ->
  w_stdin w' = w_stdin w -> w_colors w' = w_colors w -> main U fuel w' false items [] = main U fuel w false items [].
Proof.
  intros w w' items g s fuel R E1 E2 E3 E4 E5.
  assert (R' : comment_run w' items g s).
  { destruct R as [R1 R2 R3 R4 R5]. constructor; try assumption; unfold seen in *; rewrite E3; assumption. }
  destruct (draws_any _ _ (cr_meant _ _ _ _ R) (cr_draw _ _ _ _ R)) as (D1 & D2 & D3 & D4).
  rewrite (main_started U fuel w items [] g (Files None None) (cr_meant _ _ _ _ R) (op_none _ _)).
  rewrite (main_started U fuel w' items [] g (Files None None) (cr_meant _ _ _ _ R) (op_none _ _)).
  destruct (comment_design_used w items g s fuel R) as (file & ->). destruct (comment_design_used w' items g s fuel R') as (file' & ->).
  destruct (build_design U s) as [c| | | |] eqn:E; try reflexivity. cbn [bind or_exit]. rewrite D1, D2. unfold work, check_color_support. rewrite D3, D4. cbn [Z.eqb rd nth_error bind].
  rewrite (proj1 (built_rules s c E)). cbn [map text_read]. rewrite E4, E5. reflexivity.
Qed.
Theorem C73_no_file : forall w items rest g fs s fuel, meant items g -> opened (w_can_read w) (w_can_write w) rest fs -> c_cld (g_src g) = Some s ->
  plain_places (seen w (c_file (g_src g))) -> (forall f, ~ config_file_is (seen w (c_file (g_src g))) f) -> main U fuel w false items rest = Ok Failure.
Proof.
  intros w items rest g fs s fuel M Ho Hs Hp Hf. rewrite (main_started U fuel w items rest g fs M Ho). unfold handle_config_parsing.
  change (sur_with (w_sur w) (c_file (g_src g))) with (seen w (c_file (g_src g))). destruct (discovered U _ HU Hp) as (r & -> & Hr). cbn [bind].
  destruct r as [file|]; [|reflexivity]. exfalso. apply (Hf (memory file)). apply Hr. reflexivity.
Qed.

(** A string that is not printable ASCII overruns a buffer, whatever the text. *)
Theorem C73_not_ascii_refuted : forall w items rest g fs s n fuel, comment_run w items g s -> opened (w_can_read w) (w_can_write w) rest fs -> narrower U ->
  shows U n s -> 0 < n -> (N.of_nat n <= LINE_MAX_BYTES)%N -> forallb is_ascii_printable s = false -> main U fuel w false items rest = UB.
Proof.
  intros w items rest g fs s n fuel R Ho HN Hs Hn Hl Ha. rewrite (main_started U fuel w items rest g fs (cr_meant _ _ _ _ R) Ho).
  destruct (comment_design_used w items g s fuel R) as (file & ->). rewrite (proj2 (C32_ascii_only U s n HU HN Hs Hn Hl) Ha). reflexivity.
Qed.

(** ** Removing the comment again *)
Lemma comment_remove : forall w items g s c fuel t, comment_run w items g s -> build_design U s = Ok c -> r_indent (g_rem g) = 0%N \/ r_indent (g_rem g) = 98%N ->
  d_indentmode (to_design c) = 98%N ->
  main U fuel (with_stdin w t) false (items ++ [ItR]) [] =
    or_exit (boxes_remove U (o_eol (g_out g)) (opts_of g) (to_design c) (r_indent (g_rem g)) (r_kill (g_rem g)) [] (raw_lines t)) (fun t => Ok (Success t)).
Proof.
  intros w items g s c fuel t R Eb Hm Im. destruct (draws_any _ _ (cr_meant _ _ _ _ R) (cr_draw _ _ _ _ R)) as (D1 & D2 & D3 & D4).
  unfold main, process_commandline. rewrite (items_removing items create_new_opt false g (proj2 (meant_ok items g) (cr_meant _ _ _ _ R))). cbn [bind input_output_files or_exit].
  change (g_mode (removing g)) with (g_mode g). destruct (mt_help _ _ (cr_meant _ _ _ _ R)) as [-> ->].
  assert (X : exists file, handle_config_parsing U fuel (with_stdin w t) (removing g) = (d <- build_design U s ;; Ok ([d], file, []))).
  { destruct (comment_design_used w items g s fuel R) as (file & X). exists file. rewrite <- X. clear X. unfold handle_config_parsing. 
    change (g_src (removing g)) with (g_src g). rewrite (cr_string _ _ _ _ R). reflexivity. }
  destruct X as (file & ->). rewrite Eb. cbn [bind or_exit]. rewrite D1, D2. unfold work, removing, with_rem, opts_of. cbn [g_rem g_src g_out g_tab g_align g_size g_pad r_mend r_remove r_indent r_kill].
  rewrite D4, (string_by_user _ _ _ (cr_meant _ _ _ _ R) (cr_string _ _ _ _ R)). cbn [Z.eqb map].
  assert (Y : with_indentmode (r_indent (g_rem g)) (to_design c) = to_design c).
  { destruct Hm as [-> | ->]; cbn [with_indentmode N.eqb]; [reflexivity|]. unfold with_indentmode. cbn [N.eqb]. revert Im. unfold to_design. cbn. intros <-. reflexivity. }
  rewrite Y, (C60_chosen U _ _ [to_design c] 0 (to_design c)) by reflexivity. cbn [nth_error]. rewrite (proj2 (built_rules s c Eb)). reflexivity.
Qed.
(** 'boxes OPTIONS' and then 'boxes OPTIONS -r', with -c among the options, gives back the text. *)
Theorem C73_round_trip : forall w items g s fin lines n, comment_run w items g s -> forallb is_ascii_printable s = true -> (exists c r, s = c :: r /\ c <> 32%N) ->
  plain_options (opts_of g) 0 0 -> t_exp (g_tab g) = 101%N -> r_indent (g_rem g) = 0%N \/ r_indent (g_rem g) = 98%N -> (r_kill (g_rem g) = -1 \/ r_kill (g_rem g) = 0)%Z ->
  o_eol (g_out g) = [10%N] \/ o_eol (g_out g) = [13%N; 10%N] -> forallb (uc_ws U) (o_eol (g_out g)) = true ->
  w_stdin w = terminated (o_eol (g_out g)) fin lines -> lines <> [] -> Forall (neat U) lines -> (fin = false -> last lines [] <> []) ->
  Forall (fun t => N.of_nat (List.length t + List.length s + over (p_left (g_pad g)) 1) <= line_limit)%N lines -> common_indent lines n ->
  exists out, (exists fuel, main U fuel w false items [] = Ok (Success out)) /\ (forall fuel o, main U fuel w false items [] = Ok (Success o) -> o = out) /\
    forall fuel, main U fuel (with_stdin w out) false (items ++ [ItR]) [] = Ok (Success (terminated (o_eol (g_out g)) fin (map (restored n) lines))).
Proof.
  intros w items g s fin lines n R Hp Hs Ho He Hm Hk Heol Hws Hin Hne Hneat Hfin Hlen Hind.
  destruct (C55_in_range (w_can_read w) (w_can_write w) false items [] g (Some (Files None None))) as []; [apply C64_meaning; split; [exact (cr_meant _ _ _ _ R)|constructor]|].
  destruct (C38_command_line U s (opts_of g) (o_eol (g_out g)) fin lines (r_indent (g_rem g)) (r_kill (g_rem g)) n HU Hp Hs Ho ltac:(cbn [opts_of o_tabstop]; lia) He
    ltac:(tauto) Hk Heol Hws Hne Hneat Hfin Hlen Hind) as (c & E & K).
  assert (Im : d_indentmode (to_design c) = 98%N).
  { assert (Hl : (N.of_nat (List.length s) <= LINE_MAX_BYTES)%N) by (destruct lines as [|t ts]; [congruence|]; inversion Hlen as [|? ? Q _]; subst; unfold line_limit in Q; lia).
    destruct Hs as (c0 & r & Es & _). destruct (build_ok U HU s _ (shows_ascii U HU s Hp) ltac:(rewrite Es; cbn; lia) Hl) as (c' & E' & _ & _ & _ & _ & Im & _); [rewrite (utf8_ascii s Hp); lia|].
    rewrite E in E'. injection E' as <-. exact Im. }
  destruct (K (check_color_support w (o_color (g_out g)))) as [(fuel & out & Ed) Kr]. clear K. rewrite <- Hin in *.
  assert (Y : with_indentmode (r_indent (g_rem g)) (to_design c) = to_design c).
  { destruct Hm as [-> | ->]; cbn [with_indentmode N.eqb]; [reflexivity|]. unfold with_indentmode. cbn [N.eqb]. revert Im. unfold to_design. cbn. intros <-. reflexivity. }
  pose proof (fun fuel => comment_main w items [] g (Files None None) s fuel c R (op_none _ _) E) as M. rewrite Y in M. cbn [text_read] in M.
  exists out. split; [exists fuel; rewrite M, Ed; reflexivity|]. split.
  - intros fuel' o Hm'. rewrite M in Hm'. apply exit_inv in Hm'. destruct (Nat.le_ge_cases fuel fuel') as [L|L].
    + pose proof (draw_more _ _ _ _ _ _ _ _ _ _ L Ed). congruence.
    + pose proof (draw_more _ _ _ _ _ _ _ _ _ _ L Hm'). congruence.
  - intros fuel'. rewrite (comment_remove w items g s c fuel' out R E Hm Im), (Kr fuel out Ed). reflexivity.
Qed.
End Adhoc.

Print Assumptions C73_output.
Print Assumptions C73_contents.
Print Assumptions C73_no_file.
Print Assumptions C73_not_ascii_refuted.
Print Assumptions C73_round_trip.

(** ** Examples: an empty configuration file, the design "//" *)
Definition empty_world (stdin : list N) : world := mkWorld
  (fun f => Neq_list f (txt "/usr/share/boxes")) (fun _ => false) (fun _ => []) stdin
  (mkSur (fun f => Neq_list f (txt "/usr/share/boxes")) (fun _ => false) None None None None (txt "/usr/share/boxes")) false
  (fun _ x => Some x) (fun A _ l => l) (Ok sentry0) (fun _ => []) (txt "Usage") (txt "Version").
Lemma demo_narrower : narrower demo_tab.
Proof.
  intros c Hc Hp. pose proof (utf8_pos c) as P. assert (Q : (128 <= c)%N -> 2 <= List.length (utf8 c)).
  { intros H. unfold utf8. destruct (N.ltb_spec c 128); [lia|]. destruct (_ <? _)%N; [cbn; lia|]. destruct (_ <? _)%N; cbn; lia. }
  assert (Q3 : (2048 <= c)%N -> 3 <= List.length (utf8 c)).
  { intros H. unfold utf8. destruct (N.ltb_spec c 128); [lia|]. destruct (N.ltb_spec c 2048); [lia|]. destruct (_ <? _)%N; cbn; lia. }
  unfold is_ascii_printable in Hp. apply andb_false_iff in Hp. rewrite N.leb_gt, N.ltb_ge in Hp. cbn [demo_tab uc_width].
  destruct ((c <? 32)%N || (127 <=? c)%N && (c <? 160)%N) eqn:E1; [lia|]. apply orb_false_iff in E1 as [E1 E2]. apply N.ltb_ge in E1. apply andb_false_iff in E2. rewrite N.leb_gt, N.ltb_ge in E2.
  assert (160 <= c)%N by lia. specialize (Q ltac:(lia)). destruct (_ && _); [lia|].
  destruct ((12288 <=? c)%N && (c <=? 40959)%N || (127744 <=? c)%N) eqn:E3; [|lia].
  assert (2048 <= c)%N by (apply orb_true_iff in E3 as [E3|E3]; [apply andb_true_iff in E3 as [E3 _]|]; apply N.leb_le in E3; lia). specialize (Q3 ltac:(lia)). lia.
Qed.
Lemma comment_run_demo : forall stdin items s, match do_items create_new_opt false items with Ok (g, stop) => stop = false /\ c_cld (g_src g) = Some s /\ c_file (g_src g) = None | _ => False end ->
  forallb (fun i => match i with ItL | ItQ _ | ItR | ItM => false | _ => true end) items = true -> comment_run (empty_world stdin) items (meaning items) s.
Proof.
  intros stdin items s H D. assert (M : meant items (meaning items)).
  { apply meaning_ok. destruct (do_items create_new_opt false items) as [[g stop]| | | |]; try contradiction. apply H. }
  assert (E : c_cld (g_src (meaning items)) = Some s /\ c_file (g_src (meaning items)) = None).
  { unfold meaning. destruct (do_items create_new_opt false items) as [[g stop]| | | |]; try contradiction. apply H. }
  destruct E as [E1 E2]. constructor.
  - exact M.
  - intros i Hi. rewrite forallb_forall in D. specialize (D i Hi). destruct i; solve [exact I|discriminate].
  - exact E1.
  - rewrite E2. split; [apply printableb_ok; reflexivity|]. intros p [H1|[H1|[H1|H1]]]; discriminate.
  - rewrite E2. exists (txt "/usr/share/boxes"). cbn. exists (a_file (txt "/usr/share/boxes")). split; [|split; [split; [discriminate|reflexivity]|reflexivity]].
    unfold user_steps, global_steps. cbn. repeat (apply first_later; [intros (f & F); exact F|]). apply first_here. eexists. split; [split; [discriminate|reflexivity]|reflexivity].
Qed.
Definition slash_items (i : string) : list Model_Cmdline.item := [ItC (txt "//"); ItI (txt i)].
Definition slash_text : list N := txt "  one
	two
".
Definition shown (r : res ending) : string := match r with Ok (Success t) => str t | Ok Failure => "failure" | _ => "" end%string.
Example C73_output_example : (forall i, In i ["box"; "text"; "none"]%string -> comment_run (empty_world slash_text) (slash_items i) (meaning (slash_items i)) (txt "//") /\
    plain_options (opts_of (meaning (slash_items i))) 0 0 /\ t_exp (g_tab (meaning (slash_items i))) = 101%N /\ t_stop (g_tab (meaning (slash_items i))) = 8%Z) /\
  opened (w_can_read (empty_world slash_text)) (w_can_write (empty_world slash_text)) [] (Files None None) /\
  Forall (raw_ok demo_tab 8) (raw_lines slash_text) /\
  map (fun i => shown (main demo_tab 30 (empty_world slash_text) false (slash_items i) [])) ["box"; "text"; "none"]%string =
    ["  // one
  //       two
"; "//   one
//         two
"; "// one
//       two
"]%string.
Proof.
  split; [|split; [constructor|split; [|vm_compute; reflexivity]]].
  - intros i Hi. assert (A : match do_items create_new_opt false (slash_items i) with Ok (g, stop) => stop = false /\ c_cld (g_src g) = Some (txt "//") /\ c_file (g_src g) = None | _ => False end)
      by (destruct Hi as [<-|[<-|[<-|[]]]]; vm_compute; auto).
    split; [apply comment_run_demo; [exact A|reflexivity]|]. destruct Hi as [<-|[<-|[<-|[]]]]; vm_compute; repeat split; discriminate.
  - replace (raw_lines slash_text) with (map txt ["  one
"; "	two
"]%string) by (vm_compute; reflexivity).
    cbn [map]. repeat apply Forall_cons; try apply Forall_nil; (apply raw_ok_plain; [exact demo_tab_ok|reflexivity|reflexivity|lia|vm_compute; reflexivity|vm_compute; lia]).
Qed.
(** -d is not looked at if -c is given, nor does the design have to exist *)
Example C73_contents_example : comment_run (empty_world slash_text) [ItD (txt "nosuch"); ItC (txt "#")] (meaning [ItD (txt "nosuch"); ItC (txt "#")]) (txt "#") /\
  shown (main demo_tab 30 (empty_world (txt "a b")) false [ItD (txt "nosuch"); ItC (txt "#")] []) = "# a b"%string /\
  shown (main demo_tab 30 (mkWorld (fun _ => false) (fun _ => false) (fun _ => []) (txt "a b") (mkSur (fun _ => false) (fun _ => false) None None None None (txt "/etc/boxes")) false
    (fun _ x => Some x) (fun A _ l => l) (Ok sentry0) (fun _ => []) [] []) false [ItC (txt "#")] []) = "failure"%string.
Proof. split; [apply comment_run_demo; [vm_compute; auto|reflexivity]|]. split; vm_compute; reflexivity. Qed.
Example C73_not_ascii_example : comment_run (empty_world slash_text) [ItC [167%N]] (meaning [ItC [167%N]]) [167%N] /\ shows demo_tab 1 [167%N] /\
  main demo_tab 30 (empty_world slash_text) false [ItC [167%N]] [] = UB.
Proof.
  split; [apply comment_run_demo; [vm_compute; auto|reflexivity]|]. split; [|vm_compute; reflexivity].
  exists [Vis 167%N]. split; [split; [repeat split; try discriminate|reflexivity]|].
  split; [repeat constructor|]. split; [repeat constructor|]. split; [repeat constructor|]. split; [intros [F|[]]; discriminate|reflexivity].
Qed.
Example C73_round_trip_example : let items := [ItC (txt "// "); ItE (txt "crlf")] in
  let w := empty_world (terminated [13; 10]%N false (map txt demo_neat)) in
  comment_run w items (meaning items) (txt "// ") /\ plain_options (opts_of (meaning items)) 0 0 /\ o_eol (g_out (meaning items)) = [13; 10]%N /\
  r_kill (g_rem (meaning items)) = (-1)%Z /\ Forall (neat demo_tab) (map txt demo_neat) /\ common_indent (map txt demo_neat) 2 /\
  match main demo_tab 30 w false items [] with
  | Ok (Success t) => main demo_tab 30 (with_stdin w t) false (items ++ [ItR]) []
  | r => r end = Ok (Success (terminated [13; 10]%N false (map txt demo_neat))).
Proof.
  intros items w. split; [apply comment_run_demo; [vm_compute; auto|reflexivity]|]. split; [vm_compute; repeat split; discriminate|]. split; [reflexivity|]. split; [reflexivity|].
  split; [apply C38_example|]. split; [apply C38_example|]. vm_compute. reflexivity.
Qed.
