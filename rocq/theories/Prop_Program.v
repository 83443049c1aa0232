(** * The program as a whole: C68 *)
From Coq Require Import Ascii String List Arith NArith ZArith Bool Lia.
From Verif Require Import Base BaseFacts Model_Unicode Model_Bxs Model_Shape Spec_Str Proof_Str Proof_BxsOps Proof_BxsMore Proof_Shows Spec_Design Spec_Box Demo Prop_Str
  Model_Regex Spec_Input Prop_Input Model_Query Model_Discovery Spec_Discovery Prop_Discovery Model_Input Model_Generate Model_Main Prop_Whole Model_Parser Spec_Parser Prop_Parser
  Model_Scan Spec_Config Prop_Config Model_Cmdline Spec_Cmdline Spec_Options Prop_Cmdline Prop_Options Model_Cld Model_List Model_Mend Prop_Auto Model_Program
  Proof_Query Proof_Shipped Shipped Prop_Shipped Spec_Comment Spec_Closed Spec_Round Spec_Safe Prop_Safe Prop_Subst Spec_Program.
Import ListNotations.
Local Open Scope nat_scope.
Local Open Scope list_scope.

(** ** -h, -v, -?, and command lines that are refused: nothing else is looked at *)
Theorem C68_help : forall U fuel w l1 l2 rest g0, meant l1 g0 ->
  main U fuel w false (l1 ++ ItHelp :: l2) rest = Ok (Success (w_usage w)) /\
  main U fuel w false (l1 ++ ItV :: l2) rest = Ok (Success (w_version w)) /\
  main U fuel w true (l1 ++ l2) rest = Ok (Success (w_usage w)).
Proof.
  intros U fuel w l1 l2 rest g0 H. destruct (mt_help _ _ H) as [Hh Hv]. unfold main.
  assert (E1 : process_commandline (w_can_read w) (w_can_write w) false (l1 ++ ItHelp :: l2) rest = Ok (helped g0, None)) by (apply C64_stop; exists l1, ItHelp, l2, g0; auto).
  assert (E2 : process_commandline (w_can_read w) (w_can_write w) false (l1 ++ ItV :: l2) rest = Ok (versioned g0, None)) by (apply C64_stop; exists l1, ItV, l2, g0; auto).
  rewrite E1, E2. cbn [or_exit helped versioned with_mode g_mode m_help m_version]. rewrite ?Hh. repeat split; reflexivity.
Qed.
Theorem C68_refused : forall U fuel w items rest,
  (forall l1 i l2 g0, items = l1 ++ i :: l2 -> meant l1 g0 -> i <> ItHelp /\ i <> ItV) ->
  (forall g fs, ~ (meant items g /\ opened (w_can_read w) (w_can_write w) rest fs)) ->
  main U fuel w false items rest = Ok Failure.
Proof. intros U fuel w items rest H1 H2. unfold main. rewrite (C64_refused _ _ items rest H1 H2). reflexivity. Qed.

(** ** What is common to the other cases *)
Lemma discovered : forall U e, uctab_ok U -> plain_places e -> exists r, discover_config_file U e false = Ok r /\ forall f, option_map memory r = Some f <-> config_file_is e f.
Proof. intros U e HU [H1 H2]. apply (C49_plain U e HU H1 H2). Qed.
Lemma places_known : forall U e, uctab_ok U -> plain_places e -> global_known U e.
Proof.
  intros U e HU [H1 H2] s f Hs G. apply printable_speakable; [exact HU|]. eapply gives_printable; [exact H1| | |apply in_app_iff; right; exact Hs|exact G]; intros h Hh; apply H2; auto.
Qed.
Lemma main_started : forall U fuel w items rest g fs, meant items g -> opened (w_can_read w) (w_can_write w) rest fs ->
  main U fuel w false items rest =
    or_exit (handle_config_parsing U fuel w g) (fun '(ds, file, parents) =>
    if m_list (g_mode g) then or_exit (list_designs U w g ds file parents) (fun t => Ok (Success t))
    else match m_query (g_mode g) with
    | Some (q :: r) => Ok (Success (query_by_tag (w_qsort w) (o_eol (g_out g)) (q :: r) (map entry_of ds)))
    | _ => or_exit (work U fuel w g ds (raw_lines (text_read w fs))) (fun t => Ok (Success t))
    end).
Proof.
  intros U fuel w items rest g fs Hm Ho. unfold main. rewrite (proj2 (C64_meaning _ _ items rest g fs) (conj Hm Ho)). cbn [or_exit].
  destruct (mt_help _ _ Hm) as [-> ->]. destruct fs as [[a|] b]; reflexivity.
Qed.
Lemma latest_none : forall (A B : Type) (f : A -> option B) l d b, (forall y, In y l -> f y = None) -> latest f l d b -> b = d.
Proof. intros A B f l d b H [(l1 & x & l2 & -> & E & _)|[_ E]]; [|exact E]. rewrite (H x) in E; [discriminate|]. apply in_app_iff. right. left. reflexivity. Qed.
Lemma concat_none : forall (A B : Type) (R : A -> list B -> Prop) l ls, Forall2 R l ls -> (forall i x, In i l -> R i x -> x = []) -> concat ls = [].
Proof.
  intros A B R l ls H. induction H as [|i x l ls Hx H IH]; intros G; [reflexivity|]. cbn [concat]. rewrite (G i x (or_introl eq_refl) Hx). apply IH. intros j y Hj. apply G. right. exact Hj.
Qed.
Record drawing_settings (g : settings) : Prop := {
  dg_list : m_list (g_mode g) = false; dg_query : m_query (g_mode g) = None; dg_remove : r_remove (g_rem g) = false; dg_mend : (r_mend (g_rem g) =? 2)%Z = false; dg_cld : c_cld (g_src g) = None }.
Lemma draws : forall items g, meant items g -> asks_to_draw items -> drawing_settings g.
Proof.
  intros items g H D. constructor.
  - destruct (m_list (g_mode g)) eqn:E; [|reflexivity]. apply (mt_list _ _ H) in E. destruct (D _ E).
  - destruct (mt_query _ _ H) as (ls & F & L). rewrite (concat_none _ _ _ _ _ F) in L; [eapply latest_none; [|exact L]; intros y []|].
    intros i x Hi. specialize (D i Hi). destruct i; try contradiction; exact (fun E => E).
  - destruct (r_remove (g_rem g)) eqn:E; [|reflexivity]. apply (mt_remove _ _ H) in E as [E|E]; destruct (D _ E).
  - destruct (mt_mend _ _ H) as [[E _]|[_ ->]]; [destruct (D _ E)|reflexivity].
  - destruct (mt_comment _ _ H) as (ls & F & L). rewrite (concat_none _ _ _ _ _ F) in L; [eapply latest_none; [|exact L]; intros y []|].
    intros i x Hi. specialize (D i Hi). destruct i; try contradiction; exact (fun E => E).
Qed.

(** ** Reading from a file or from standard input makes no difference, nor does the file written to *)
Theorem C68_files : forall U fuel w items a rest, w_can_read w a = true -> a <> [45%N] -> (forall b, In b rest -> b = [45%N] \/ w_can_write w b = true) -> List.length rest <= 1 ->
  main U fuel w false items (a :: rest) = main U fuel (with_stdin w (w_contents w a)) false items [].
Proof.
  intros U fuel w items a rest Ha Hd Hb Hl. unfold main. cbn [with_stdin w_can_read w_can_write].
  unfold process_commandline. destruct (do_items create_new_opt false items) as [[g stop]| | | |]; try reflexivity. cbn [bind]. destruct stop; [reflexivity|].
  assert (D : dash a = false) by (unfold dash; destruct (Neq_list a [45%N]) eqn:E; [apply neq_list_ok in E; contradiction|reflexivity]).
  assert (E : exists o, input_output_files (w_can_read w) (w_can_write w) (a :: rest) = Ok (Files (Some a) o)).
  { unfold input_output_files. destruct rest as [|b [|c r]]; [| |cbn in Hl; lia]; rewrite D, Ha; cbn [negb andb]; [eauto|].
    destruct (dash b) eqn:Db; [eauto|]. destruct (Hb b (or_introl eq_refl)) as [E|E]; [subst b; discriminate|rewrite E; eauto]. }
  destruct E as (o & ->). cbn [bind input_output_files or_exit]. reflexivity.
Qed.

(** ** Drawing *)
Lemma indentmode_wf : forall U m d, wf_design U d -> wf_design U (with_indentmode m d).
Proof. intros U m d H. unfold with_indentmode. destruct (N.eqb m 0); [exact H|]. destruct H. constructor; assumption. Qed.
Lemma work_draws : forall U fuel w g d ds raws, drawing_settings g ->
  work U fuel w g (d :: ds) raws = boxes_draw U fuel (check_color_support w (o_color (g_out g))) (o_eol (g_out g)) (opts_of g)
    (with_indentmode (r_indent (g_rem g)) (to_design d)) (map (w_subst w) (c_reprules d)) raws.
Proof. intros U fuel w g d ds raws H. unfold work. rewrite (dg_mend g H), (dg_remove g H). reflexivity. Qed.
Lemma draw_nothing : forall U fuel color eol o d rules, boxes_draw U fuel color eol o d rules [] = Ok [].
Proof. intros. unfold boxes_draw. cbn. reflexivity. Qed.
(** a run that draws: the command line is right, the configuration files are sound and contain no escape characters, the text and the
    substitutions are acceptable; tabs are expanded and the text is not justified *)
Record drawing_run (U : uctab) (w : world) (items : list Model_Cmdline.item) (rest : list (list N)) (g : settings) (fs : files) (known_files : list (list N)) : Prop := {
  dr_meant : meant items g;
  dr_opened : opened (w_can_read w) (w_can_write w) rest fs;
  dr_draw : asks_to_draw items;
  dr_places : plain_places (seen w (c_file (g_src g)));
  dr_world : sound_world U w known_files;
  dr_noesc : forall f, In f known_files -> ~ In 27%N (w_contents w f);
  dr_breaks : legal U 10 /\ legal U 13;
  dr_tabs : t_exp (g_tab g) = 101%N;
  dr_just : a_j (g_align g) = 0%N;
  dr_text : Forall (raw_ok U (Z.to_nat (t_stop (g_tab g)))) (raw_lines (text_read w fs));
  dr_rules : forall r, rule_ok U (w_subst w r)
}.
Lemma breaks_legal : forall U items g, meant items g -> legal U 10 /\ legal U 13 -> Forall (legal U) (10%N :: o_eol (g_out g)).
Proof.
  intros U items g H [L10 L13]. constructor; [exact L10|]. destruct (mt_breaks _ _ H) as (ls & F & L).
  assert (G : Forall (fun e => Forall (legal U) e) (concat ls)).
  { clear -F L10 L13. induction F as [|i x l ls Hx F IH]; [constructor|]. cbn [concat]. apply Forall_app. split; [|exact IH].
    destruct i; cbn [broken_by] in Hx; try (rewrite Hx; constructor); []. destruct Hx as [[_ ->]|[[_ ->]|[_ ->]]]; repeat first [assumption|apply Forall_nil|apply Forall_cons]. }
  destruct L as [(l1 & x & l2 & E & E2 & _)|[_ ->]]; [|repeat first [assumption|apply Forall_nil|apply Forall_cons]]. injection E2 as ->. rewrite E in G. apply Forall_app in G as [_ G]. inversion G; assumption.
Qed.
Lemma config_run : forall U fuel w g files, uctab_ok U -> c_cld (g_src g) = None -> plain_places (seen w (c_file (g_src g))) -> sound_world U w files ->
  Forall (legal U) (10%N :: o_eol (g_out g)) -> S (List.length files) <= fuel ->
  handle_config_parsing U fuel w g = Err \/ exists ds file ps, handle_config_parsing U fuel w g = Ok (ds, file, ps) /\ ds <> [] /\ config_file_is (seen w (c_file (g_src g))) (memory file) /\
    ((forall f, In f files -> ~ In 27%N (w_contents w f)) -> Forall (fun d => wf_design U (to_design d)) ds).
Proof.
  intros U fuel w g files HU Hc Hp Hw He Hf. unfold handle_config_parsing. change (sur_with (w_sur w) (c_file (g_src g))) with (seen w (c_file (g_src g))).
  destruct (discovered U _ HU Hp) as (r & -> & Hr). cbn [bind]. destruct r as [file|]; [|left; reflexivity]. rewrite Hc.
  destruct (C67_files U fuel w files g (memory file) HU He Hw Hf) as [->|(ds & ps & -> & Hn & _ & Hwf)]; [left; reflexivity|]. right. cbn [bind].
  exists ds, file, ps. split; [reflexivity|]. split; [exact Hn|]. split; [apply Hr; reflexivity|exact Hwf].
Qed.
Theorem C68_total : forall U fuel w items rest g fs known_files, uctab_ok U -> drawing_run U w items rest g fs known_files -> S (List.length known_files) <= fuel ->
  main U fuel w false items rest = Fuel \/ main U fuel w false items rest = Ok Failure \/ exists out, main U fuel w false items rest = Ok (Success out).
Proof.
  intros U fuel w items rest g fs files HU R Hf. pose proof (draws _ _ (dr_meant _ _ _ _ _ _ _ R) (dr_draw _ _ _ _ _ _ _ R)) as D.
  rewrite (main_started U fuel w items rest g fs (dr_meant _ _ _ _ _ _ _ R) (dr_opened _ _ _ _ _ _ _ R)).
  destruct (config_run U fuel w g files HU (dg_cld g D) (dr_places _ _ _ _ _ _ _ R) (dr_world _ _ _ _ _ _ _ R) (breaks_legal U items g (dr_meant _ _ _ _ _ _ _ R) (dr_breaks _ _ _ _ _ _ _ R)) Hf)
    as [->|(ds & file & ps & -> & Hn & _ & Hwf)]; [auto|]. cbn [or_exit]. rewrite (dg_list g D), (dg_query g D).
  destruct ds as [|d ds]; [congruence|]. specialize (Hwf (dr_noesc _ _ _ _ _ _ _ R)). inversion Hwf; subst. rewrite work_draws by exact D.
  destruct (raw_lines (text_read w fs)) as [|raw raws] eqn:E; [rewrite draw_nothing; right; right; eexists; reflexivity|].
  destruct (C55_draw (w_can_read w) (w_can_write w) items rest g fs U (with_indentmode (r_indent (g_rem g)) (to_design d)) (map (w_subst w) (c_reprules d)) (raw :: raws)
    (check_color_support w (o_color (g_out g))) fuel) as [E1|(out & E1)].
  - apply C64_meaning. split; [exact (dr_meant _ _ _ _ _ _ _ R)|exact (dr_opened _ _ _ _ _ _ _ R)].
  - exact (dr_tabs _ _ _ _ _ _ _ R).
  - exact (dr_just _ _ _ _ _ _ _ R).
  - exact HU.
  - apply indentmode_wf. assumption.
  - discriminate.
  - rewrite <- E. exact (dr_text _ _ _ _ _ _ _ R).
  - apply Forall_forall. intros r Hr. apply in_map_iff in Hr as (x & <- & _). apply (dr_rules _ _ _ _ _ _ _ R).
  - left. rewrite E1. reflexivity.
  - right. right. rewrite E1. eexists. reflexivity.
Qed.
Lemma last_break : forall l, l <> [] -> ~ In [] l -> (ends_with_break (last l []) <-> ends_with_break (concat l)).
Proof.
  intros l Hl Hn. destruct (exists_last Hl) as (l0 & x & ->). rewrite last_last, concat_app. cbn [concat]. rewrite app_nil_r.
  assert (Hx : x <> []) by (intros ->; apply Hn, in_app_iff; right; left; reflexivity). unfold ends_with_break. split; intros (r & c & E & Hc).
  - exists (concat l0 ++ r), c. rewrite E, app_assoc. auto.
  - destruct (exists_last Hx) as (y & c' & ->). rewrite app_assoc in E. apply app_inj_tail in E as [_ ->]. exists y, c. auto.
Qed.
(** What is printed then: all rows are of the same width, and the lines of the text stand in the box in their order, rewritten by the substitutions of the design. *)
Theorem C68_drawn : forall U fuel w items rest g fs known_files out, uctab_ok U -> drawing_run U w items rest g fs known_files -> S (List.length known_files) <= fuel ->
  text_read w fs <> [] -> main U fuel w false items rest = Ok (Success out) ->
  exists d ds file ps rules rows printed_rows fin ind width lefts above contents below rights hpl,
    handle_config_parsing U fuel w g = Ok (d :: ds, file, ps) /\ rules = map (w_subst w) (c_reprules d) /\ Forall (rule_ok U) rules /\
    out = terminated (o_eol (g_out g)) fin printed_rows /\ (fin = true <-> ends_with_break (text_read w fs)) /\
    Forall2 (printed U (check_color_support w (o_color (g_out g)))) rows printed_rows /\ Forall (shows U width) rows /\
    rows = zip3 (spaces ind) lefts (above ++ contents ++ below) rights /\
    length lefts = length rows /\ length (above ++ contents ++ below) = length rows /\ length rights = length rows /\
    Forall2 (fun raw m => exists text0 text txt k r, taken_from U (Z.to_nat (t_stop (g_tab g))) raw text0 k /\ rewrites rules text0 text /\ m = spaces hpl ++ txt ++ spaces r /\
       (txt = text \/ txt = [] /\ forall ts, reads text ts -> visible ts = [])) (raw_lines (text_read w fs)) contents.
Proof.
  intros U fuel w items rest g fs files out HU R Hf Ht. pose proof (draws _ _ (dr_meant _ _ _ _ _ _ _ R) (dr_draw _ _ _ _ _ _ _ R)) as D.
  rewrite (main_started U fuel w items rest g fs (dr_meant _ _ _ _ _ _ _ R) (dr_opened _ _ _ _ _ _ _ R)).
  destruct (config_run U fuel w g files HU (dg_cld g D) (dr_places _ _ _ _ _ _ _ R) (dr_world _ _ _ _ _ _ _ R) (breaks_legal U items g (dr_meant _ _ _ _ _ _ _ R) (dr_breaks _ _ _ _ _ _ _ R)) Hf)
    as [->|(ds & file & ps & El & Hn & _ & Hwf)]; [discriminate|]. rewrite El. cbn [or_exit]. rewrite (dg_list g D), (dg_query g D).
  destruct ds as [|d ds]; [congruence|]. specialize (Hwf (dr_noesc _ _ _ _ _ _ _ R)). inversion Hwf; subst. rewrite work_draws by exact D.
  destruct (boxes_draw _ _ _ _ _ _ _ _) as [out'| | | |] eqn:E; try discriminate. cbn [or_exit]. intros X. injection X as ->.
  destruct (C53_no_loss (text_read w fs)) as [Nl Nn].
  assert (Hr : raw_lines (text_read w fs) <> []) by (intros F; rewrite F in Nl; cbn in Nl; congruence).
  assert (Hrules : Forall (rule_ok U) (map (w_subst w) (c_reprules d))).
  { apply Forall_forall. intros r Hr'. apply in_map_iff in Hr' as (x & <- & _). apply (dr_rules _ _ _ _ _ _ _ R). }
  destruct (C55_in_range (w_can_read w) (w_can_write w) false items rest g (Some fs)) as [].
  { apply C64_meaning. split; [exact (dr_meant _ _ _ _ _ _ _ R)|exact (dr_opened _ _ _ _ _ _ _ R)]. }
  destruct (C51_end_to_end U (opts_of g) (with_indentmode (r_indent (g_rem g)) (to_design d)) (map (w_subst w) (c_reprules d)) (raw_lines (text_read w fs))
    (check_color_support w (o_color (g_out g))) (o_eol (g_out g)) fuel out)
    as (rows & prows & fin & ind & width & lefts & above & contents & below & rights & hpl & A1 & A2 & A3 & A4 & A5 & A6 & A7 & A8 & A9).
  - exact HU.
  - apply indentmode_wf. assumption.
  - cbn [opts_of o_tabstop]. lia.
  - exact Hr.
  - exact (dr_text _ _ _ _ _ _ _ R).
  - exact Hrules.
  - exact (dr_tabs _ _ _ _ _ _ _ R).
  - exact (dr_just _ _ _ _ _ _ _ R).
  - exact E.
  - exists d, ds, file, ps, (map (w_subst w) (c_reprules d)), rows, prows, fin, ind, width, lefts, above, contents, below, rights, hpl. split; [reflexivity|]. split; [reflexivity|]. split; [exact Hrules|]. split; [exact A1|].
    split; [|repeat split; assumption]. rewrite A2. rewrite <- Nl at 2. apply last_break; assumption.
Qed.

(** ** Listings and queries do not look at the text *)
Theorem C68_no_input : forall U fuel w items rest s, In ItL items \/ (exists q, In (ItQ q) items) ->
  main U fuel (with_stdin w s) false items rest = main U fuel w false items rest.
Proof.
  intros U fuel w items rest s H. unfold main. cbn [with_stdin w_can_read w_can_write].
  destruct (process_commandline (w_can_read w) (w_can_write w) false items rest) as [[g [fs|]]| | | |] eqn:E; try reflexivity. cbn [or_exit].
  pose proof (C55_in_range _ _ _ _ _ _ _ E) as Ir. apply C64_meaning in E as [M _]. destruct (mt_help _ _ M) as [-> ->].
  change (handle_config_parsing U fuel (with_stdin w s) g) with (handle_config_parsing U fuel w g). destruct (handle_config_parsing U fuel w g) as [[[ds file] ps]| | | |]; try reflexivity. cbn [or_exit].
  destruct H as [H|(q & H)].
  - apply (mt_list _ _ M) in H as ->. reflexivity.
  - destruct (m_list (g_mode g)); [reflexivity|]. destruct (mt_query _ _ M) as (ls & F & L).
    assert (Ne : concat ls <> []).
    { clear -F H. induction F as [|i x l ls Hx F IH]; [destruct H|]. cbn [concat]. destruct H as [->|H]; [destruct Hx as (q' & _ & ->); discriminate|].
      intros G. apply app_eq_nil in G as [_ G]. exact (IH H G). }
    destruct L as [(l1 & x & l2 & _ & E & _)|[L _]].
    + injection E as E. rewrite <- E. symmetry in E. destruct (ir_query _ Ir _ E) as [Nq _]. destruct x; [congruence|reflexivity].
    + destruct (concat ls) as [|x l]; [congruence|]. specialize (L x (or_introl eq_refl)). discriminate.
Qed.

(** ** More fuel does no harm *)
Lemma loop_more : forall dim A B t f f' a b r, f <= f' -> precalc_loop dim f A B t a b = Ok r -> precalc_loop dim f' A B t a b = Ok r.
Proof.
  intros dim A B t. induction f as [|f IH]; intros f' a b r Hf H; [discriminate|]. destruct f' as [|f']; [lia|]. cbn [precalc_loop] in *.
  destruct (if p_res b <? p_res a then _ else _) as [[a' b']| | | |]; cbn [bind] in *; try discriminate. destruct (_ && _ && _); [exact H|]. apply IH; [lia|exact H].
Qed.
Lemma precalc_more : forall dim f f' sarr sa sb have want r, f <= f' -> precalc dim f sarr sa sb have want = Ok r -> precalc dim f' sarr sa sb have want = Ok r.
Proof.
  intros dim f f' sarr sa sb have want r Hf H. unfold precalc in *. cbv zeta in *.
  destruct (ptarget have want (dim (sarr (nth 0 sa 0))) (dim (sarr (nth 4 sa 0)))) as [t| | | |]; try discriminate. cbn [bind] in *.
  match type of H with bind ?x _ = _ => destruct x as [ab| | | |] eqn:E; try discriminate end. rewrite (loop_more _ _ _ _ _ _ _ _ _ Hf E). exact H.
Qed.
Lemma draw_more : forall U f f' color eol o d rules raws out, f <= f' -> boxes_draw U f color eol o d rules raws = Ok out -> boxes_draw U f' color eol o d rules raws = Ok out.
Proof.
  intros U f f' color eol o d rules raws out Hf H. unfold boxes_draw in *. destruct (handle_input U false o d rules raws) as [inp| | | |]; try discriminate. cbn [bind] in *.
  destruct (is_nil (i_lines inp)); [exact H|]. unfold draw in *. destruct (generate_box U f (sized o inp d) inp) as [b| | | |] eqn:E; try discriminate.
  assert (E' : generate_box U f' (sized o inp d) inp = Ok b); [|rewrite E'; exact H]. clear H. unfold generate_box in *.
  destruct (horiz_generate U f (sized o inp d) inp) as [tb| | | |] eqn:E1; try discriminate. destruct (vert_generate f (sized o inp d) inp) as [lr| | | |] eqn:E2; try discriminate.
  assert (F1 : horiz_generate U f' (sized o inp d) inp = Ok tb).
  { unfold horiz_generate in *. cbv zeta in *. destruct (precalc s_width f _ _ _ _ _) as [r| | | |] eqn:P; try discriminate. rewrite (precalc_more _ _ _ _ _ _ _ _ _ Hf P). exact E1. }
  assert (F2 : vert_generate f' (sized o inp d) inp = Ok lr).
  { unfold vert_generate in *. cbv zeta in *. destruct (precalc s_height f _ _ _ _ _) as [r| | | |] eqn:P; try discriminate. rewrite (precalc_more _ _ _ _ _ _ _ _ _ Hf P). exact E2. }
  rewrite F1, F2. exact E.
Qed.

(** ** The shipped designs, from the command line to the output and back *)
Section Shipped.
Variable V : uctab.
Notation U := (drawing_tab V).
(** the command line [items] asks to draw the design called [n], without -i and with line feeds; the configuration file that is found is the shipped one *)
Record shipped_run (w : world) (items : list Model_Cmdline.item) (g : settings) (n : list N) : Prop := {
  sr_meant : meant items g;
  sr_draw : asks_to_draw items;
  sr_name : c_design (g_src g) = Some n;
  sr_indent : r_indent (g_rem g) = 0%N;
  sr_eol : o_eol (g_out g) = [10%N];
  sr_places : plain_places (seen w (c_file (g_src g)));
  sr_file : exists f, config_file_is (seen w (c_file (g_src g))) f /\ w_can_read w f = true /\ w_contents w f = boxes_config;
  sr_beyond : exists s, w_beyond w = Ok s /\ isempty s = true
}.
Definition removing (g : settings) : settings := with_rem g (mkRemoval true (r_mend (g_rem g)) (r_kill (g_rem g)) (r_indent (g_rem g))).
Lemma items_removing : forall items g a g', do_items g a items = Ok (g', false) -> do_items g a (items ++ [ItR]) = Ok (removing g', false).
Proof.
  induction items as [|i items IH]; intros g a g' H; cbn [app do_items] in *; [injection H as ->; reflexivity|].
  destruct (do_item g a i) as [[[g1 a1] stop]| | | |]; try discriminate. cbn [bind] in *. destruct stop; [discriminate|]. apply IH. exact H.
Qed.
Lemma by_user : forall items g n, meant items g -> c_design (g_src g) = Some n -> c_by_user (g_src g) = true.
Proof.
  intros items g n M E. apply (mt_by_user _ _ M). destruct (mt_design _ _ M) as [(l1 & x & l2 & -> & Ex & _)|[_ F]]; [|congruence].
  destruct x; try discriminate. exists arg. right. apply in_app_iff. right. left. reflexivity.
Qed.
Lemma one_file : forall fuel w g f text n d s, 1 <= fuel -> w_can_read w f = true -> w_contents w f = text -> o_eol (g_out g) = [10%N] -> w_beyond w = Ok s ->
  c_by_user (g_src g) = true /\ c_design (g_src g) = Some n -> (forall all, load_chosen V (w_can_read w) (seen w (c_file (g_src g))) (Ok s) n all text = Ok ([d], [])) ->
  load_designs U fuel w g f = Ok ([d], []).
Proof.
  intros fuel w g f text n d s Hf F2 F3 Ee Hs [Eu En] K. unfold load_designs. change (sur_with (w_sur w) (c_file (g_src g))) with (seen w (c_file (g_src g))).
  destruct fuel as [|fuel]; [lia|]. cbn [parse_loop]. rewrite F2, F3, Ee, Hs. unfold popts_of. rewrite Eu, En. unfold load_chosen in K. rewrite K. reflexivity.
Qed.
Lemma shipped_loaded : forall w items g n fuel ds d, shipped_run w items g n -> 1 <= fuel ->
  load_shipped V (w_can_read w) (seen w (c_file (g_src g))) (w_beyond w) boxes_config = Ok (ds, []) -> In d ds -> called d n ->
  forall g', g_src g' = g_src g -> o_eol (g_out g') = [10%N] -> exists file, handle_config_parsing U fuel w g' = Ok ([d], file, []).
Proof.
  intros w items g n fuel ds d R Hf Hl Hd Hc g' Es Ee. unfold handle_config_parsing. rewrite Es. change (sur_with (w_sur w) (c_file (g_src g))) with (seen w (c_file (g_src g))).
  destruct (discovered U _ (drawing_tab_ok V) (sr_places _ _ _ _ R)) as (r & -> & Hr). cbn [bind].
  destruct (sr_file _ _ _ _ R) as (f & F1 & F2 & F3). apply Hr in F1. destruct r as [file|]; [|discriminate]. injection F1 as F1. exists file.
  rewrite (dg_cld _ (draws _ _ (sr_meant _ _ _ _ R) (sr_draw _ _ _ _ R))).
  destruct (sr_beyond _ _ _ _ R) as (s & Hs & He). rewrite Hs in Hl.
  assert (L : load_designs U fuel w g' (memory file) = Ok ([d], [])); [|rewrite L; reflexivity].
  apply (one_file fuel w g' (memory file) boxes_config n d s); [exact Hf| | |exact Ee|exact Hs| |].
  - rewrite F1. exact F2.
  - rewrite F1. exact F3.
  - rewrite Es. split; [exact (by_user _ _ _ (sr_meant _ _ _ _ R) (sr_name _ _ _ _ R))|exact (sr_name _ _ _ _ R)].
  - intros all. rewrite Es. exact (proj1 (C63_chosen V (w_can_read w) (seen w (c_file (g_src g))) s ds n all He Hl) d Hd Hc).
Qed.
Lemma shipped_draws : forall w items g n fuel ds d, shipped_run w items g n -> 1 <= fuel ->
  load_shipped V (w_can_read w) (seen w (c_file (g_src g))) (w_beyond w) boxes_config = Ok (ds, []) -> In d ds -> called d n ->
  main U fuel w false items [] =
    or_exit (boxes_draw U fuel (check_color_support w (o_color (g_out g))) [10%N] (opts_of g) (to_design d) (map (w_subst w) (c_reprules d)) (raw_lines (w_stdin w))) (fun t => Ok (Success t)).
Proof.
  intros w items g n fuel ds d R Hf Hl Hd Hc. rewrite (main_started U fuel w items [] g (Files None None) (sr_meant _ _ _ _ R) (op_none _ _)).
  destruct (shipped_loaded w items g n fuel ds d R Hf Hl Hd Hc g eq_refl (sr_eol _ _ _ _ R)) as (file & ->). cbn [or_exit].
  pose proof (draws _ _ (sr_meant _ _ _ _ R) (sr_draw _ _ _ _ R)) as D. rewrite (dg_list g D), (dg_query g D), work_draws by exact D.
  rewrite (sr_indent _ _ _ _ R), (sr_eol _ _ _ _ R). reflexivity.
Qed.
Lemma shipped_removes : forall w items g n fuel ds d s, shipped_run w items g n -> 1 <= fuel ->
  load_shipped V (w_can_read w) (seen w (c_file (g_src g))) (w_beyond w) boxes_config = Ok (ds, []) -> In d ds -> called d n -> c_revrules d = [] ->
  main U fuel (with_stdin w s) false (items ++ [ItR]) [] = or_exit (boxes_remove U [10%N] (opts_of g) (to_design d) 0 (r_kill (g_rem g)) [] (raw_lines s)) (fun t => Ok (Success t)).
Proof.
  intros w items g n fuel ds d s R Hf Hl Hd Hc Hr. pose proof (draws _ _ (sr_meant _ _ _ _ R) (sr_draw _ _ _ _ R)) as D.
  unfold main, process_commandline. rewrite (items_removing items create_new_opt false g (proj2 (meant_ok items g) (sr_meant _ _ _ _ R))). cbn [bind input_output_files or_exit].
  change (g_mode (removing g)) with (g_mode g). destruct (mt_help _ _ (sr_meant _ _ _ _ R)) as [-> ->].
  change (handle_config_parsing U fuel (with_stdin w s) (removing g)) with (handle_config_parsing U fuel w (removing g)).
  destruct (shipped_loaded w items g n fuel ds d R Hf Hl Hd Hc (removing g) eq_refl (sr_eol _ _ _ _ R)) as (file & ->). cbn [or_exit].
  rewrite (dg_list g D), (dg_query g D). unfold work, removing, with_rem, opts_of. cbn [g_rem g_src g_out g_tab g_align g_size g_pad r_mend r_remove r_indent r_kill].
  rewrite (dg_mend g D), (sr_indent _ _ _ _ R), (sr_eol _ _ _ _ R), (by_user _ _ _ (sr_meant _ _ _ _ R) (sr_name _ _ _ _ R)). cbn [with_indentmode N.eqb map].
  rewrite (C60_chosen U [10%N] _ [to_design d] 0 (to_design d)) by reflexivity. cbn [nth_error]. rewrite Hr. reflexivity.
Qed.

Lemma needs_fuel : forall w items g n fuel out, shipped_run w items g n -> main U fuel w false items [] = Ok (Success out) -> 1 <= fuel.
Proof.
  intros w items g n fuel out R Hm. destruct fuel; [|lia]. exfalso. revert Hm. rewrite (main_started U 0 w items [] g (Files None None) (sr_meant _ _ _ _ R) (op_none _ _)). unfold handle_config_parsing.
  change (sur_with (w_sur w) (c_file (g_src g))) with (seen w (c_file (g_src g))). destruct (discover_config_file _ _ _) as [[file|]| | | |]; try discriminate. cbn [bind].
  rewrite (dg_cld _ (draws _ _ (sr_meant _ _ _ _ R) (sr_draw _ _ _ _ R))). unfold load_designs. cbn [parse_loop bind or_exit]. discriminate.
Qed.

Lemma exit_inv : forall r out, or_exit r (fun t => Ok (Success t)) = Ok (Success out) -> r = Ok out.
Proof. intros [t| | | |] out H; try discriminate. injection H as ->. reflexivity. Qed.
(** Every shipped design can be drawn around every acceptable text; a name that no design has is an error. *)
Theorem C68_shipped : forall w items g n ds d, shipped_run w items g n ->
  load_shipped V (w_can_read w) (seen w (c_file (g_src g))) (w_beyond w) boxes_config = Ok (ds, []) -> In d ds -> called d n ->
  t_exp (g_tab g) = 101%N -> a_j (g_align g) = 0%N -> Forall (raw_ok U (Z.to_nat (t_stop (g_tab g)))) (raw_lines (w_stdin w)) -> (forall r, rule_ok U (w_subst w r)) ->
  exists fuel out, main U fuel w false items [] = Ok (Success out).
Proof.
  intros w items g n ds d R Hl Hd Hc Ht Hj Hr Hs. destruct (sr_beyond _ _ _ _ R) as (s & Es & He). pose proof Hl as Hl'. rewrite Es in Hl'.
  destruct (C55_in_range (w_can_read w) (w_can_write w) false items [] g (Some (Files None None))) as []; [apply C64_meaning; split; [exact (sr_meant _ _ _ _ R)|constructor]|].
  destruct (raw_lines (w_stdin w)) as [|raw raws] eqn:E.
  - exists 1, []. rewrite (shipped_draws w items g n 1 ds d R (Nat.le_refl 1) Hl Hd Hc), E, draw_nothing. reflexivity.
  - destruct (C63_drawn V (w_can_read w) (seen w (c_file (g_src g))) s ds d He Hl' Hd (opts_of g) (map (w_subst w) (c_reprules d)) (raw :: raws) (check_color_support w (o_color (g_out g))) [10%N])
      as (fuel & out & Ed); [cbn [opts_of o_tabstop]; lia|discriminate 1|exact Hr| |exact Ht|exact Hj|].
    + apply Forall_forall. intros r Hin. apply in_map_iff in Hin as (x & <- & _). apply Hs.
    + exists (S fuel), out. rewrite (shipped_draws w items g n (S fuel) ds d R ltac:(lia) Hl Hd Hc), E. rewrite (draw_more _ _ (S fuel) _ _ _ _ _ _ _ (Nat.le_succ_diag_r fuel) Ed). reflexivity.
Qed.
Lemma no_file : forall fuel w g f text n s, 1 <= fuel -> w_can_read w f = true -> w_contents w f = text -> o_eol (g_out g) = [10%N] -> w_beyond w = Ok s ->
  c_by_user (g_src g) = true /\ c_design (g_src g) = Some n -> (forall all, load_chosen V (w_can_read w) (seen w (c_file (g_src g))) (Ok s) n all text = Ok ([], [])) ->
  load_designs U fuel w g f = Err.
Proof.
  intros fuel w g f text n s Hf F2 F3 Ee Hs [Eu En] K. unfold load_designs. change (sur_with (w_sur w) (c_file (g_src g))) with (seen w (c_file (g_src g))).
  destruct fuel as [|fuel]; [lia|]. cbn [parse_loop]. rewrite F2, F3, Ee, Hs. unfold popts_of. rewrite Eu, En. unfold load_chosen in K. rewrite K. reflexivity.
Qed.
Theorem C68_unknown : forall w items g n ds fuel, shipped_run w items g n -> 1 <= fuel ->
  load_shipped V (w_can_read w) (seen w (c_file (g_src g))) (w_beyond w) boxes_config = Ok (ds, []) -> (forall d, In d ds -> ~ called d n) ->
  main U fuel w false items [] = Ok Failure.
Proof.
  intros w items g n ds fuel R Hf Hl Hc. rewrite (main_started U fuel w items [] g (Files None None) (sr_meant _ _ _ _ R) (op_none _ _)). unfold handle_config_parsing.
  change (sur_with (w_sur w) (c_file (g_src g))) with (seen w (c_file (g_src g))).
  destruct (discovered U _ (drawing_tab_ok V) (sr_places _ _ _ _ R)) as (r & -> & Hr). cbn [bind].
  destruct (sr_file _ _ _ _ R) as (f & F1 & F2 & F3). apply Hr in F1. destruct r as [file|]; [|discriminate F1]. injection F1 as F1.
  rewrite (dg_cld _ (draws _ _ (sr_meant _ _ _ _ R) (sr_draw _ _ _ _ R))). destruct (sr_beyond _ _ _ _ R) as (s & Hs & He). rewrite Hs in Hl.
  assert (L : load_designs U fuel w g (memory file) = Err); [|rewrite L; reflexivity].
  apply (no_file fuel w g (memory file) boxes_config n s); [exact Hf| | |exact (sr_eol _ _ _ _ R)|exact Hs| |].
  - rewrite F1. exact F2.
  - rewrite F1. exact F3.
  - split; [exact (by_user _ _ _ (sr_meant _ _ _ _ R) (sr_name _ _ _ _ R))|exact (sr_name _ _ _ _ R)].
  - intros all. exact (proj2 (C63_chosen V (w_can_read w) (seen w (c_file (g_src g))) s ds n all He Hl) Hc).
Qed.
(** The designs for comments: what is drawn is removed again by the same command with -r. *)
Theorem C68_comments : forall w items g n ds d, shipped_run w items g n ->
  load_shipped V (w_can_read w) (seen w (c_file (g_src g))) (w_beyond w) boxes_config = Ok (ds, []) -> In d ds -> called d n -> In (name_of d) comment_names ->
  plain_options (opts_of g) 0 0 -> t_exp (g_tab g) = 101%N -> (r_kill (g_rem g) = -1 \/ r_kill (g_rem g) = 0)%Z ->
  exists lead, map memory (s_mbcs (c_shape d W_)) = [lead] /\
  forall fin lines k, w_stdin w = terminated [10%N] fin lines -> lines <> [] -> Forall (neat U) lines -> (fin = false -> last lines [] <> []) ->
  Forall (fun t => N.of_nat (List.length t + List.length lead + over (p_left (g_pad g)) (c_padding d BLEF)) <= line_limit)%N lines -> common_indent lines k ->
  (exists fuel out, main U fuel w false items [] = Ok (Success out)) /\
  forall fuel out, main U fuel w false items [] = Ok (Success out) ->
  forall fuel', 1 <= fuel' -> main U fuel' (with_stdin w out) false (items ++ [ItR]) [] = Ok (Success (terminated [10%N] fin (map (restored k) lines))).
Proof.
  intros w items g n ds d R Hl Hd Hc Hn Ho Ht Hk. destruct (sr_beyond _ _ _ _ R) as (s & Hs & He). pose proof Hl as Hl'. rewrite Hs in Hl'.
  destruct (C63_comments V (w_can_read w) (seen w (c_file (g_src g))) s ds d He Hl' Hd Hn) as (lead & E1 & E2 & E3 & K). exists lead. split; [exact E1|].
  intros fin lines k Hw Hne Hneat Hfin Hlen Hind.
  destruct (C55_in_range (w_can_read w) (w_can_write w) false items [] g (Some (Files None None))) as []; [apply C64_meaning; split; [exact (sr_meant _ _ _ _ R)|constructor]|].
  destruct (K (opts_of g) [10%N] fin lines 0%N (r_kill (g_rem g)) k Ho ltac:(cbn [opts_of o_tabstop]; lia) Ht (or_intror eq_refl) Hk (or_introl eq_refl) Hne Hneat Hfin Hlen Hind
    (check_color_support w (o_color (g_out g)))) as [(fuel & out & Ed) Kr]. rewrite <- Hw in *. split.
  - exists (S fuel), out. rewrite (shipped_draws w items g n (S fuel) ds d R ltac:(lia) Hl Hd Hc), E2. cbn [map]. rewrite (draw_more _ _ (S fuel) _ _ _ _ _ _ _ (Nat.le_succ_diag_r fuel) Ed). reflexivity.
  - intros fuel1 out1 Hm fuel' Hf'. pose proof (needs_fuel w items g n fuel1 out1 R Hm) as Hf1.
    rewrite (shipped_draws w items g n fuel1 ds d R Hf1 Hl Hd Hc), E2 in Hm. cbn [map] in Hm. apply exit_inv in Hm as Eo.
    rewrite (shipped_removes w items g n fuel' ds d out1 R Hf' Hl Hd Hc E3), (Kr fuel1 out1 Eo). reflexivity.
Qed.
(** The designs that close around the text, likewise; empty lines come back as blank ones. *)
Theorem C68_closed : forall w items g n ds d, shipped_run w items g n ->
  load_shipped V (w_can_read w) (seen w (c_file (g_src g))) (w_beyond w) boxes_config = Ok (ds, []) -> In d ds -> called d n -> In (name_of d) closed_names ->
  left_aligned (opts_of g) -> t_exp (g_tab g) = 101%N -> r_kill (g_rem g) <> 0%Z ->
  forall fin lines k, w_stdin w = terminated [10%N] fin lines -> lines <> [] -> Forall (neat U) lines -> hd [] lines <> [] -> last lines [] <> [] ->
  Forall (fun t => N.of_nat (List.length t) <= line_limit)%N lines -> common_indent lines k ->
  forall fuel out, main U fuel w false items [] = Ok (Success out) ->
  exists ps, out = terminated [10%N] fin ps /\
    (Forall (fun p => N.of_nat (List.length p) <= line_limit)%N ps -> forall fuel', 1 <= fuel' ->
     exists ls, main U fuel' (with_stdin w out) false (items ++ [ItR]) [] = Ok (Success (terminated [10%N] fin ls)) /\ Forall2 comes_back lines ls).
Proof.
  intros w items g n ds d R Hl Hd Hc Hn Ho Ht Hk fin lines k Hw Hne Hneat Hh Hla Hlen Hind fuel out Hm. destruct (sr_beyond _ _ _ _ R) as (s & Hs & He). pose proof Hl as Hl'. rewrite Hs in Hl'.
  destruct (C55_in_range (w_can_read w) (w_can_write w) false items [] g (Some (Files None None))) as []; [apply C64_meaning; split; [exact (sr_meant _ _ _ _ R)|constructor]|].
  destruct (C63_closed V (w_can_read w) (seen w (c_file (g_src g))) s ds d He Hl' Hd Hn (opts_of g) [10%N] fin lines 0%N (r_kill (g_rem g)) k Ho ltac:(cbn [opts_of o_tabstop]; lia) Ht
    (or_intror eq_refl) Hk (or_introl eq_refl) Hne Hneat Hh Hla Hlen Hind) as (E2 & E3 & K).
  rewrite (shipped_draws w items g n fuel ds d R (needs_fuel w items g n fuel out R Hm) Hl Hd Hc), E2, Hw in Hm. cbn [map] in Hm. apply exit_inv in Hm as Eo.
  destruct (K _ _ _ Eo) as (ps & Ep & Kr). exists ps. split; [exact Ep|]. intros Hps fuel' Hf'. destruct (Kr Hps) as (ls & El & Hb). exists ls. split; [|exact Hb].
  rewrite (shipped_removes w items g n fuel' ds d out R Hf' Hl Hd Hc E3), El. reflexivity.
Qed.
End Shipped.

(** ** Examples *)
Definition meaning (items : list Model_Cmdline.item) : settings := match do_items create_new_opt false items with Ok (g, _) => g | _ => create_new_opt end.
Lemma meaning_ok : forall items, match do_items create_new_opt false items with Ok (_, stop) => stop = false | _ => False end -> meant items (meaning items).
Proof. intros items H. apply meant_ok. unfold meaning. destruct (do_items create_new_opt false items) as [[g stop]| | | |]; try contradiction. rewrite H. reflexivity. Qed.
Example C68_help_example : meant [ItA (txt "hc"); ItP (txt "a2")] (meaning [ItA (txt "hc"); ItP (txt "a2")]).
Proof. apply meaning_ok. vm_compute. reflexivity. Qed.
(** the alignment is faulty, or there are too many files *)
Example C68_refused_example : forall U fuel w, main U fuel w false [ItA (txt "zz")] [] = Ok Failure /\ main U fuel w false [] [txt "-"; txt "-"; txt "-"] = Ok Failure.
Proof. intros U fuel w. split; reflexivity. Qed.

Lemma noesc_check : forall s, forallb (fun c => negb (N.eqb c 27)) s = true -> ~ In 27%N s.
Proof. intros s H F. rewrite forallb_forall in H. specialize (H _ F). discriminate. Qed.
(** [two_files] with a text, seen by -f *)
Definition draw_world : world := mkWorld
  (fun f => Neq_list f name_file || Neq_list f name_base || Neq_list f (txt "in.txt")) (fun f => Neq_list f (txt "out.txt"))
  (fun f => if Neq_list f name_file then demo_text else if Neq_list f name_base then base_text else txt "x
  yz")
  (txt "one
  two
") (mkSur (fun f => Neq_list f name_file) (fun _ => false) None None None None (txt "/usr/share/boxes")) false
  (fun _ x => Some x) (fun A _ l => l) (Ok sentry0) (fun _ => []) (txt "Usage") (txt "Version").
Definition draw_items : list Model_Cmdline.item := [ItF name_file; ItD (txt "PLAIN"); ItP (txt "h1")].
Example C68_total_example : drawing_run demo_tab draw_world draw_items [txt "-"; txt "out.txt"] (meaning draw_items) (Files None (Some (txt "out.txt"))) [name_file; name_base; txt "in.txt"] /\
  main demo_tab 40 draw_world false draw_items [txt "-"; txt "out.txt"] = Ok (Success (txt "< one   >
<   two >
")).
Proof.
  assert (S : forall t, forallb (common []) t && runs 0 t = true -> sound_text demo_tab t).
  { intros t H. apply (sound_check demo_tab []); [exact demo_tab_ok|reflexivity|intros c []| |exact H]. intros c [<-|[<-|[]]]; reflexivity. }
  split; [|vm_compute; reflexivity]. constructor.
  - apply meaning_ok. vm_compute. reflexivity.
  - apply op_both; [left; split; reflexivity|right; repeat split; discriminate].
  - intros i [<-|[<-|[<-|[]]]]; exact I.
  - split; [apply printableb_ok; reflexivity|]. intros p [H|[H|[H|H]]]; try discriminate. injection H as <-. apply printableb_ok. reflexivity.
  - split; [eexists; reflexivity|]. split; [|split].
    + apply places_known; [exact demo_tab_ok|]. split; [apply printableb_ok; reflexivity|]. intros p [H|[H|[H|H]]]; discriminate.
    + intros f H. destruct H as [H|H]; cbn [draw_world w_can_read w_sur file_opens] in H; rewrite ?orb_true_iff in H.
      * destruct H as [[H|H]|H]; apply neq_list_ok in H as ->; cbn; auto.
      * apply neq_list_ok in H as ->. left. reflexivity.
    + intros f [<-|[<-|[<-|[]]]]; apply S; vm_compute; reflexivity.
  - intros f [<-|[<-|[<-|[]]]]; apply noesc_check; vm_compute; reflexivity.
  - split; repeat split; discriminate.
  - reflexivity.
  - reflexivity.
  - replace (raw_lines (text_read draw_world (Files None (Some (txt "out.txt"))))) with (map txt ["one
"; "  two
"]%string) by (vm_compute; reflexivity). repeat constructor; apply raw_ok_demo; try (vm_compute; lia); vm_compute; reflexivity.
  - intros r s w H. exists s, w. auto.
Qed.
Example C68_files_example : main demo_tab 40 draw_world false draw_items [txt "in.txt"; txt "out.txt"] = Ok (Success (txt "< x    >
<   yz >")) /\ w_can_read draw_world (txt "in.txt") = true /\ w_can_write draw_world (txt "out.txt") = true.
Proof. split; [vm_compute; reflexivity|]. split; reflexivity. Qed.
(** a listing and a query, whatever the text is *)
Example C68_no_input_example :
  main demo_tab 40 draw_world false [ItF name_file; ItQ (txt "sh")] [] = Ok (Success (txt "shell
pound-cmt (alias)
")) /\
  match main demo_tab 40 draw_world false [ItF name_file; ItL] [] with Ok (Success (c :: _)) => N.eqb c 50 | _ => false end = true.
Proof. split; vm_compute; reflexivity. Qed.

(** a world with the shipped file in one of the global places *)
Definition shipped_world (stdin : list N) : world := mkWorld
  (fun f => Neq_list f (txt "/usr/share/boxes")) (fun _ => false) (fun _ => boxes_config) stdin
  (mkSur (fun f => Neq_list f (txt "/usr/share/boxes")) (fun _ => false) None None None None (txt "/usr/share/boxes")) false
  (fun _ x => Some x) (fun A _ l => l) (Ok sentry0) (fun _ => []) (txt "Usage") (txt "Version").
Definition shell_items : list Model_Cmdline.item := [ItD (txt "Pound-CMT"); ItP (txt "l3")].
Definition calledb (n : list N) (d : cdesign) : bool := match c_name d with Some m => same_nocase m n | None => false end || existsb (fun a => same_nocase a n) (c_aliases d).
Lemma calledb_ok : forall n d, calledb n d = true <-> called d n.
Proof.
  intros n d. unfold calledb, called, named. rewrite orb_true_iff, existsb_exists. split.
  - intros [H|(a & Ha & H)]; [left; destruct (c_name d) as [m|]; [|discriminate]; exists m; split; [reflexivity|apply same_ok, H]|right; exists a; split; [exact Ha|apply same_ok, H]].
  - intros [(m & -> & H)|(a & Ha & H)]; [left; apply same_ok, H|right; exists a; split; [exact Ha|apply same_ok, H]].
Qed.
Lemma find_called : forall V fopen_ok sur s ds n name, isempty s = true -> load_shipped V fopen_ok sur (Ok s) boxes_config = Ok (ds, []) ->
  match load_chosen V fopen_ok sur (Ok s) n false boxes_config with Ok ([d], []) => String.eqb (name_of d) name | _ => false end = true -> exists d, In d ds /\ name_of d = name /\ called d n.
Proof.
  intros V fopen_ok sur s ds n name He Hl H. destruct (C63_chosen V fopen_ok sur s ds n false He Hl) as [K1 K2]. destruct (existsb (calledb n) ds) eqn:E.
  - apply existsb_exists in E as (d & Hd & E). apply calledb_ok in E. rewrite (K1 d Hd E) in H. apply String.eqb_eq in H. eauto.
  - exfalso. assert (G : forall d, In d ds -> ~ called d n).
    { intros d Hd Hc. apply calledb_ok in Hc. assert (T : existsb (calledb n) ds = true) by (apply existsb_exists; eauto). rewrite T in E. discriminate E. }
    rewrite (K2 G) in H. discriminate H.
Qed.
Lemma pound_found : forall fopen_ok sur, match load_chosen demo_tab fopen_ok sur (Ok sentry0) (txt "Pound-CMT") false boxes_config with
  | Ok ([d], []) => String.eqb (name_of d) "pound-cmt" | _ => false end = true.
Proof. intros fopen_ok sur. rewrite (chosen_text demo_tab fopen_ok sur (Ok sentry0) (txt "Pound-CMT") false boxes_config statement_list shipped_statements). vm_compute. reflexivity. Qed.
Lemma pound_exists : forall fopen_ok sur, exists ds d, load_shipped demo_tab fopen_ok sur (Ok sentry0) boxes_config = Ok (ds, []) /\ In d ds /\ name_of d = "pound-cmt"%string /\ called d (txt "Pound-CMT").
Proof.
  intros fopen_ok sur. destruct (C63_loaded demo_tab fopen_ok sur sentry0 eq_refl) as (ds & E & _).
  pose proof (find_called demo_tab fopen_ok sur sentry0 ds (txt "Pound-CMT") "pound-cmt"%string eq_refl E (pound_found fopen_ok sur)) as (d & H1 & H2 & H3). exists ds, d. auto.
Qed.
Example C68_comments_example : forall stdin, shipped_run (shipped_world stdin) shell_items (meaning shell_items) (txt "Pound-CMT") /\
  (exists ds d, load_shipped demo_tab (w_can_read (shipped_world [])) (seen (shipped_world []) None) (Ok sentry0) boxes_config = Ok (ds, []) /\ In d ds /\
     name_of d = "pound-cmt"%string /\ called d (txt "Pound-CMT")) /\
  In "pound-cmt"%string comment_names /\ plain_options (opts_of (meaning shell_items)) 0 0 /\ left_aligned (opts_of (meaning shell_items)).
Proof.
  intros stdin. split; [|split; [|split; [|split]]].
  - constructor.
    + apply meaning_ok. vm_compute. reflexivity.
    + intros i [<-|[<-|[]]]; exact I.
    + reflexivity.
    + reflexivity.
    + reflexivity.
    + split; [apply printableb_ok; reflexivity|]. intros p [H|[H|[H|H]]]; discriminate.
    + exists (txt "/usr/share/boxes"). split; [|split; reflexivity]. cbn. exists (a_file (txt "/usr/share/boxes")). split; [|split; [split; [discriminate|reflexivity]|reflexivity]].
      unfold user_steps, global_steps. cbn. repeat (apply first_later; [intros (f & F); exact F|]). apply first_here. eexists. split; [split; [discriminate|reflexivity]|reflexivity].
    + exists sentry0. split; reflexivity.
  - apply pound_exists.
  - find_name.
  - vm_compute. repeat split; discriminate.
  - vm_compute. repeat split; discriminate.
Qed.

Print Assumptions C68_help.
Print Assumptions C68_refused.
Print Assumptions C68_files.
Print Assumptions C68_total.
Print Assumptions C68_drawn.
Print Assumptions C68_no_input.
Print Assumptions C68_comments.
Print Assumptions C68_closed.
Print Assumptions C68_shipped.
Print Assumptions C68_unknown.
