(** * C69: listings *)
From Coq Require Import Ascii String List Arith NArith ZArith Bool Lia Sorting.Permutation Sorting.Sorted.
From Verif Require Import Base BaseFacts Model_Unicode Model_Bxs Model_Shape Spec_Str Spec_Design Demo Prop_Str Model_Regex Model_Query Spec_Query Proof_Query Prop_Query
  Model_Discovery Spec_Discovery Prop_Discovery Model_Parser Spec_Parser Prop_Parser Model_Scan Spec_Config Prop_Config Model_Cmdline Spec_Cmdline Spec_Options Prop_Options Model_List Model_Program
  Spec_Safe Prop_Safe Spec_Program Prop_Program Spec_List Proof_List Proof_ListBack Proof_ListAll Proof_ListLoaded Proof_ListText.
Import ListNotations.
Local Open Scope nat_scope.
Local Open Scope list_scope.

(** ** The details of a design: every line of the sheet *)
Theorem C69_details : forall U color eol undoc origin d, uctab_ok U -> presentable U d ->
  exists ls, sheet U color undoc origin d ls /\ print_design_details U color eol undoc origin d = Ok (lines_with eol ls).
Proof. intros U color eol undoc origin d HU H. exact (details_ok U HU color eol undoc origin d H). Qed.
(** Two designs with the same listing have the same name, aliases, tags, sizes, padding, and the same shapes as far as they can be
    seen. *)
Theorem C69_faithful : forall U color origin origin' d d' out, uctab_ok U -> presentable U d -> presentable U d' -> one_line d -> one_line d' ->
  ~ In 10%N origin -> ~ In 10%N origin' ->
  print_design_details U color [10%N] false origin d = Ok out -> print_design_details U color [10%N] false origin' d' = Ok out ->
  origin = origin' /\ listed_alike U color d d'.
Proof.
  intros U color origin origin' d d' out HU P P' O O' F F' E E'.
  destruct (details_ok U HU color [10%N] false origin d P) as (ls & S & K). destruct (details_ok U HU color [10%N] false origin' d' P') as (ls' & S' & K').
  rewrite E in K. rewrite E' in K'. injection K as K. injection K' as K'.
  assert (X : ls = ls'). { apply lines_inj; [exact (sheet_free _ _ _ _ _ S O F)|exact (sheet_free _ _ _ _ _ S' O' F')|congruence]. }
  subst ls'. exact (sheet_alike _ _ _ _ _ _ _ S S' O O').
Qed.
(** ** The list of all designs: heading, the designs by name with their samples, the tags with their numbers *)
Theorem C69_overview : forall U color eol qs ds file parents, sorter qs -> Forall (presentable U) ds -> showable U file -> Forall (showable U) parents ->
  exists ls, overview U color ds file parents ls /\ list_all color eol qs file parents ds = Ok (lines_with eol ls).
Proof. exact all_ok. Qed.
(** ** Designs that were read from a text without tabs and escape characters can be listed *)
Theorem C69_loaded : forall U beyond po eol children fopen_ok sur text ds ps, uctab_ok U -> Forall (legal U) text -> ~ In 0%N text -> ~ In 27%N text ->
  ~ In 27%N eol -> ~ In 9%N eol -> parse_config_text U beyond po eol children fopen_ok sur (Some text) = Ok (ds, ps) ->
  Forall (fun d => presentable U d /\ (c_aliases d <> [chars "none"] -> one_line d)) ds.
Proof.
  intros U beyond po eol children fopen_ok sur text ds ps HU Hc H0 H27 He1 He2 E. unfold parse_config_text in E. destruct (read_statements text) as [l| | | |] eqn:El; try discriminate E. cbn [bind] in E.
  assert (Pe : Forall Pn eol) by (apply Forall_forall; intros c Hin; split; intros ->; contradiction).
  pose proof (parse_inv U HU eol Pe beyond po children fopen_ok sur l ds ps (read_simple U text l El H0 Hc H27) E) as D.
  eapply Forall_impl; [|exact D]. intros d Hd. split; [exact (inv_presentable U d Hd)|exact (inv_one_line U d Hd)].
Qed.

(** ** The program with -l *)
Record listing_run (U : uctab) (w : world) (items : list Model_Cmdline.item) (rest : list (list N)) (g : settings) (fs : files) (known_files : list (list N)) : Prop := {
  lr_meant : meant items g;
  lr_opened : opened (w_can_read w) (w_can_write w) rest fs;
  lr_list : In ItL items;
  lr_config : forall arg, ~ In (ItC arg) items;
  lr_places : plain_places (seen w (c_file (g_src g)));
  lr_world : sound_world U w known_files;
  lr_noesc : forall f, In f known_files -> ~ In 27%N (w_contents w f);
  lr_names : forall f, In f known_files -> Forall (legal U) f /\ ~ In 27%N f;
  lr_breaks : legal U 10 /\ legal U 13;
  lr_sorter : sorter (w_qsort w)
}.
Lemma loop_all : forall (W : cdesign -> Prop) parse, (forall f before ds ps, parse f before = Ok (ds, ps) -> Forall W ds) ->
  forall fuel file k known result r known', Forall W result -> parse_loop parse fuel file k known result = Ok (r, known') -> Forall W r.
Proof.
  intros W parse P. induction fuel as [|fuel IH]; intros file k known result r known' Hr E; [discriminate E|]. cbn [parse_loop] in E.
  destruct (parse file result) as [[ds ps]| | | |] eqn:E1; try discriminate E. cbn [bind] in E. pose proof (P _ _ _ _ E1) as HW.
  assert (Hr' : Forall W (copy_designs result ds)).
  { unfold copy_designs. destruct result as [|d0 res0]; [exact HW|].
    assert (G : forall l r0, Forall W l -> Forall W r0 -> Forall W (fold_left (fun r d => if designs_contain r d then r else r ++ [d]) l r0)).
    { induction l as [|x l IHl]; intros r0 Hl Hr0; [exact Hr0|]. inversion Hl; subst. cbn [fold_left]. apply IHl; [assumption|]. destruct (designs_contain r0 x); [exact Hr0|].
      apply Forall_app. split; [exact Hr0|]. constructor; [assumption|constructor]. }
    apply G; assumption. }
  destruct (nth_error _ k) as [next|]; [eapply IH; eassumption|]. injection E as <- _. exact Hr'.
Qed.
Lemma eol_noesc : forall items g, meant items g -> ~ In 27%N (o_eol (g_out g)).
Proof.
  intros items g H. destruct (mt_breaks _ _ H) as (ls & F & L).
  assert (G : Forall (fun e => ~ In 27%N e) (concat ls)).
  { clear -F. induction F as [|i x l ls Hx F IH]; [constructor|]. cbn [concat]. apply Forall_app. split; [|exact IH].
    destruct i; cbn [broken_by] in Hx; try (rewrite Hx; constructor); []. destruct Hx as [[_ ->]|[[_ ->]|[_ ->]]]; constructor; try constructor; cbn; intuition discriminate. }
  destruct L as [(l1 & x & l2 & E & E2 & _)|[_ ->]]; [|cbn; intuition discriminate]. injection E2 as ->. rewrite E in G. apply Forall_app in G as [_ G]. inversion G; assumption.
Qed.
Lemma discovered_from : forall U e glob b, discover_config_file U e glob = Ok (Some b) -> bxs_from_unicode U (memory b) = Ok b.
Proof.
  intros U e glob b H.
  assert (C : forall o x, utf8_to_bxs U o = Ok (Some x) -> bxs_from_unicode U (memory x) = Ok x).
  { intros o x E. destruct o as [t|]; [|discriminate E]. apply utf8_from in E. rewrite (from_mem U _ _ E). exact E. }
  assert (T : forall l x, try_places U e l = Ok (Some x) -> bxs_from_unicode U (memory x) = Ok x).
  { induction l as [|p l IH]; intros x E; [discriminate E|]. cbn [try_places] in E. destruct (try_place U e p) as [y| | | |] eqn:Ep; try discriminate E. cbn [bind] in E.
    destruct y as [y|]; [|apply IH; exact E]. injection E as <-. destruct p as [|d]; cbn [try_place] in Ep.
    - destruct (can_read_file _ _); [|discriminate Ep]. eapply C; exact Ep.
    - destruct d as [d|]; [|discriminate Ep]. destruct (can_read_dir _ _); [|discriminate Ep]. destruct (locate_config_in_dir e d) as [f| | | |]; try discriminate Ep. eapply C; exact Ep. }
  unfold discover_config_file in H. destruct glob.
  - cbn [bind] in H. eapply T; exact H.
  - destruct (locate_config_common e) as [[c ep]| | | |]; try discriminate H. cbn [bind] in H. destruct (utf8_to_bxs U c) as [r| | | |] eqn:Er; try discriminate H. cbn [bind] in H.
    destruct r as [x|]; [injection H as <-; eapply C; exact Er|]. destruct ep; [discriminate H|]. eapply T; exact H.
Qed.
Lemma printable_lean : forall U b, printable (memory b) -> bxs_from_unicode U (memory b) = Ok b -> showable U b.
Proof.
  intros U b H E. apply lean_showable. split; [|exact E]. apply Forall_forall. intros c Hc. specialize (H c Hc). unfold Pn. lia.
Qed.
Lemma config_printable : forall e f, plain_places e -> config_file_is e f -> printable f.
Proof.
  intros e f [H1 H2] H. unfold config_file_is in H. destruct (opt_f e) as [p|] eqn:Ef; [|destruct (env_BOXES e) as [p|] eqn:Eb].
  - eapply path_file_printable; [|exact H]. apply H2. auto.
  - eapply path_file_printable; [|exact H]. apply H2. auto.
  - destruct H as (s & Hs & G). eapply gives_printable; [exact H1| | | |exact G]; [intros h Hh; apply H2; auto|intros h Hh; apply H2; auto|]. apply first_with_in in Hs as [Hs _]. exact Hs.
Qed.
(** With right settings and sound files, the program prints the details of the design chosen with -d, else the overview; or it fails
    because there is no configuration file or no such design. *)
Theorem C69_program : forall U fuel w items rest g fs known_files, uctab_ok U -> listing_run U w items rest g fs known_files -> S (List.length known_files) <= fuel ->
  let color := check_color_support w (o_color (g_out g)) in
  handle_config_parsing U fuel w g = Err /\ main U fuel w false items rest = Ok Failure \/
  exists ds file ps ls, handle_config_parsing U fuel w g = Ok (ds, file, ps) /\ config_file_is (seen w (c_file (g_src g))) (memory file) /\
    main U fuel w false items rest = Ok (Success (lines_with (o_eol (g_out g)) ls)) /\
    if c_by_user (g_src g) then exists d r, ds = d :: r /\ sheet U color (m_undoc (g_mode g)) (w_origin w d) d ls
    else exists bs, Forall2 (fun p b => memory b = p) ps bs /\ overview U color ds file bs ls.
Proof.
  intros U fuel w items rest g fs files HU R Hf color. pose proof (lr_meant _ _ _ _ _ _ _ R) as M.
  rewrite (main_started U fuel w items rest g fs M (lr_opened _ _ _ _ _ _ _ R)).
  assert (Hl : m_list (g_mode g) = true) by (apply (mt_list _ _ M); exact (lr_list _ _ _ _ _ _ _ R)).
  assert (Hc : c_cld (g_src g) = None).
  { destruct (mt_comment _ _ M) as (ls & F & L). rewrite (concat_none _ _ _ _ _ F) in L; [eapply latest_none; [|exact L]; intros y []|].
    intros i x Hi. destruct i; try exact (fun E => E). elim (lr_config _ _ _ _ _ _ _ R _ Hi). }
  assert (He : Forall (legal U) (10%N :: o_eol (g_out g))) by (exact (breaks_legal U items g M (lr_breaks _ _ _ _ _ _ _ R))).
  assert (Pe : ~ In 27%N (o_eol (g_out g)) /\ ~ In 9%N (o_eol (g_out g))).
  { split; [exact (eol_noesc items g M)|]. intros F. inversion He as [|? ? _ He2]; subst. rewrite Forall_forall in He2. destruct (He2 _ F) as (X & _). congruence. }
  unfold handle_config_parsing. change (sur_with (w_sur w) (c_file (g_src g))) with (seen w (c_file (g_src g))).
  pose proof (lr_places _ _ _ _ _ _ _ R) as Hp.
  destruct (discovered U _ HU Hp) as (r & Er & Hr). rewrite Er. cbn [bind]. destruct r as [file|]; [|left; split; reflexivity]. rewrite Hc.
  pose proof (lr_world _ _ _ _ _ _ _ R) as Hw.
  destruct (C67_files U fuel w files g (memory file) HU He Hw Hf) as [->|(ds & ps & Eds & Hn & Hps & _)]; [left; split; reflexivity|]. right. rewrite Eds. cbn [bind or_exit]. rewrite Hl.
  assert (HD : Forall (presentable U) ds).
  { unfold load_designs in Eds. destruct (parse_loop _ _ _ _ _ _) as [[r known]| | | |] eqn:Ep; try discriminate Eds. cbn [bind] in Eds.
    assert (E : ds = r) by (destruct r; [discriminate Eds|injection Eds as <- _; reflexivity]). subst r.
    refine (loop_all (presentable U) _ _ _ _ _ _ _ _ _ (Forall_nil _) Ep). intros f before ds' ps' E'. destruct Hw as (_ & _ & Hw3 & Hw4).
    destruct (w_can_read w f) eqn:Ef; [|injection E' as <- <-; constructor].
    assert (Hin : In f files) by (apply Hw3; left; exact Ef). destruct (Hw4 f Hin) as (T0 & T1 & _).
    pose proof (C69_loaded U _ _ _ _ _ _ _ _ _ HU T1 T0 (lr_noesc _ _ _ _ _ _ _ R f Hin) (proj1 Pe) (proj2 Pe) E') as K. eapply Forall_impl; [|exact K]. intros d [A _]. exact A. }
  assert (Hfile : showable U file).
  { apply printable_lean; [|exact (discovered_from U _ _ _ Er)]. assert (C : config_file_is (seen w (c_file (g_src g))) (memory file)) by (apply Hr; reflexivity).
    exact (config_printable _ _ Hp C). }
  unfold list_designs. fold color. destruct (c_by_user (g_src g)).
  - destruct ds as [|d ds]; [congruence|]. cbn [rd nth_error bind]. inversion HD; subst.
    destruct (C69_details U color (o_eol (g_out g)) (m_undoc (g_mode g)) (w_origin w d) d HU ltac:(assumption)) as (ls & S & ->). cbn [or_exit].
    exists (d :: ds), file, ps, ls. split; [reflexivity|]. split; [apply Hr; reflexivity|]. split; [reflexivity|]. exists d, ds. auto.
  - assert (Hbs : exists bs, mapM (fun p => must (bxs_from_unicode U p)) ps = Ok bs /\ Forall2 (fun p b => memory b = p) ps bs /\ Forall (showable U) bs).
    { clear -HU Hps R. induction ps as [|p ps IH]; [exists []; repeat split; constructor|]. destruct IH as (bs & E & F & S); [intros x Hx; apply Hps; right; exact Hx|].
      destruct (lr_names _ _ _ _ _ _ _ R p (Hps p (or_introl eq_refl))) as [L L27]. destruct (Proof_Safe.legal_from U HU p L) as (b & Eb & Fb). exists (b :: bs).
      pose proof (Proof_Safe.ft_memory _ _ Fb) as Em.
      split; [cbn [mapM]; rewrite Eb; cbn [must bind]; rewrite E; reflexivity|]. split; [constructor; [exact Em|exact F]|]. constructor; [|exact S].
      apply lean_showable. split; rewrite Em; [|exact Eb]. apply Forall_forall. intros c Hin. rewrite Forall_forall in L. destruct (L c Hin) as (N9 & _). split; [intros ->; contradiction|exact N9]. }
    destruct Hbs as (bs & Eb & Fb & Sb). rewrite Eb. cbn [bind].
    destruct (C69_overview U color (o_eol (g_out g)) (w_qsort w) ds file bs (lr_sorter _ _ _ _ _ _ _ R) HD Hfile Sb) as (ls & O & ->). cbn [or_exit].
    exists ds, file, ps, ls. split; [reflexivity|]. split; [apply Hr; reflexivity|]. split; [reflexivity|]. exists bs. auto.
Qed.
Print Assumptions C69_details.
Print Assumptions C69_faithful.
Print Assumptions C69_overview.
Print Assumptions C69_loaded.
Print Assumptions C69_program.

(** ** Examples *)
(** the designs of [demo_text], [none_text] and so on, as a run without options reads them *)
Definition read_designs (t : list N) : list cdesign :=
  match parse_config_text demo_tab (Ok sentry0) po_all [10%N] [] (fun _ => true) no_sur (Some t) with Ok (ds, _) => ds | _ => [] end.
Definition small (t : list N) : bool := forallb (common []) t && runs 0 t && forallb (fun c => negb (c =? 27)%N) t.
Lemma small_ok : forall t, small t = true -> Forall (legal demo_tab) t /\ ~ In 0%N t /\ ~ In 27%N t.
Proof.
  intros t H. unfold small in H. apply andb_true_iff in H as [H E].
  assert (K : sound_text demo_tab t). { apply (sound_check demo_tab []); [exact demo_tab_ok|reflexivity|intros c []| |exact H]. intros c [<-|[<-|[]]]; reflexivity. }
  destruct K as (A & B & _). split; [exact B|]. split; [exact A|]. rewrite forallb_forall in E. intros F. apply E in F. discriminate F.
Qed.
Lemma read_listable : forall t ds, small t = true -> read_designs t = ds -> ds <> [] -> Forall (fun d => presentable demo_tab d /\ (c_aliases d <> [chars "none"] -> one_line d)) ds.
Proof.
  intros t ds H <- Hn. unfold read_designs in *. destruct (parse_config_text demo_tab (Ok sentry0) po_all [10%N] [] (fun _ => true) no_sur (Some t)) as [[ds ps]| | | |] eqn:E; try congruence.
  destruct (small_ok t H) as (A & B & C). eapply C69_loaded; [exact demo_tab_ok|exact A|exact B|exact C| | |exact E]; cbn; intuition discriminate.
Qed.
Definition design1 (t : list N) : cdesign := hd init_design (read_designs t).

Lemma listable1 : forall t, Forall (fun d => presentable demo_tab d /\ (c_aliases d <> [chars "none"] -> one_line d)) (read_designs t) -> read_designs t <> [] ->
  presentable demo_tab (design1 t) /\ (c_aliases (design1 t) <> [chars "none"] -> one_line (design1 t)).
Proof. intros t H Hn. unfold design1. destruct (read_designs t) as [|d r]; [congruence|]. inversion H; assumption. Qed.
Lemma read1 : forall t, small t && negb (is_nil (read_designs t)) = true -> presentable demo_tab (design1 t) /\ (c_aliases (design1 t) <> [chars "none"] -> one_line (design1 t)).
Proof.
  intros t H. apply andb_true_iff in H as [H N]. assert (N' : read_designs t <> []) by (destruct (read_designs t); [discriminate N|discriminate]).
  apply listable1; [|exact N']. exact (read_listable t _ H eq_refl N').
Qed.
Lemma small_ok2 : forall t, small t = true -> Forall (legal demo_tab) t /\ ~ In 27%N t.
Proof. intros t H. apply small_ok in H as (A & _ & B). auto. Qed.
Example C69_details_example : presentable demo_tab (design1 demo_text) /\ one_line (design1 demo_text) /\
  print_design_details demo_tab false [10%N] false (txt "mine.cfg") (design1 demo_text) = Ok (txt "Complete Design Information for ""shell"":
----------------------------------------
Alias Names:            pound-cmt
Author:                 Ann ""X"" Other
Original Designer:      (unknown artist)
Configuration File:     mine.cfg
Indentation Mode:       box (indent box)
Replacement Rules:      1. (once) ""a!"" WITH ""b""
Reversion Rules:        1. (glob) ""b"" TO ""a!""
Minimum Box Dimensions: 4 x 3  (width x height)
Default Padding:        left 1, right 2
Default Killblank:      no
Tags:                   sh, perl
Elastic Shapes:         N, E, S, W
Defined Shapes:           W: ""# "" 
").
Proof.
  pose proof (read1 demo_text ltac:(vm_compute; reflexivity)) as [K1 K2]. split; [exact K1|]. split; [apply K2; vm_compute; discriminate|vm_compute; reflexivity].
Qed.
(** *** What a listing does not tell *)
Definition sampled_text (names sample : string) : list N := txt ("BOX " ++ names ++ "
sample
" ++ sample ++ "
ends
shapes { w (""#"") }
elastic (w)
END it
").
Definition none_text (names : string) : list N := sampled_text names "x".
(** two designs with different samples and the same listing *)
Example C69_faithful_example : let d := design1 (sampled_text "it, that" "x") in let d' := design1 (sampled_text "it, that" "y") in
  presentable demo_tab d /\ presentable demo_tab d' /\ one_line d /\ one_line d' /\
  print_design_details demo_tab false [10%N] false [] d = print_design_details demo_tab false [10%N] false [] d' /\
  option_map memory (c_sample d) <> option_map memory (c_sample d') /\ listed_alike demo_tab false d d'.
Proof.
  intros d d'. pose proof (read1 (sampled_text "it, that" "x") ltac:(vm_compute; reflexivity)) as [K1 K2]. pose proof (read1 (sampled_text "it, that" "y") ltac:(vm_compute; reflexivity)) as [K3 K4].
  assert (O : one_line d) by (apply K2; vm_compute; discriminate). assert (O' : one_line d') by (apply K4; vm_compute; discriminate).
  assert (E : print_design_details demo_tab false [10%N] false [] d = print_design_details demo_tab false [10%N] false [] d') by (vm_compute; reflexivity).
  split; [exact K1|]. split; [exact K3|]. split; [exact O|]. split; [exact O'|]. split; [exact E|]. split; [vm_compute; discriminate|].
  destruct (C69_details demo_tab false [10%N] false [] d demo_tab_ok K1) as (ls & _ & Els).
  apply (C69_faithful demo_tab false [] [] d d' (lines_with [10%N] ls) demo_tab_ok K1 K3 O O'); [intros []|intros []|exact Els|rewrite <- E; exact Els].
Qed.
(** An alias "none" is accepted, and cannot be told from no alias. *)
Theorem C69_none_refuted : exists U d d' out, uctab_ok U /\ presentable U d /\ presentable U d' /\ one_line d /\ c_aliases d = [] /\ c_aliases d' = [txt "none"] /\
  print_design_details U false [10%N] false [] d = Ok out /\ print_design_details U false [10%N] false [] d' = Ok out.
Proof.
  exists demo_tab, (design1 (none_text "it")), (design1 (none_text "it, none")). eexists. split; [exact demo_tab_ok|].
  pose proof (read1 (none_text "it") ltac:(vm_compute; reflexivity)) as [K1 K2].
  pose proof (read1 (none_text "it, none") ltac:(vm_compute; reflexivity)) as [K3 _].
  split; [exact K1|]. split; [exact K3|]. split; [apply K2; vm_compute; discriminate|]. split; [vm_compute; reflexivity|]. split; [vm_compute; reflexivity|].
  split; [vm_compute; reflexivity|]. vm_compute. reflexivity.
Qed.
Definition rule_config (s t : string) : list N := txt ("BOX it
sample
x
ends
delimiter $!
shapes { w (!#!) }
elastic (w)
replace !" ++ s ++ "! with !" ++ t ++ "!
END it
").
(** The strings of a rule are not escaped, so two rules can look the same: replace [a" WITH "b] with [c], and replace [a] with
    [b" WITH "c]. *)
Theorem C69_rules_refuted : exists U d d' out, uctab_ok U /\ presentable U d /\ presentable U d' /\ one_line d /\ one_line d' /\
  map (fun r => memory (r_search r)) (c_reprules d) <> map (fun r => memory (r_search r)) (c_reprules d') /\
  print_design_details U false [10%N] false [] d = Ok out /\ print_design_details U false [10%N] false [] d' = Ok out.
Proof.
  pose (x := rule_config "a"" WITH ""b" "c"). pose (y := rule_config "a" "b"" WITH ""c").
  exists demo_tab, (design1 x), (design1 y). eexists. split; [exact demo_tab_ok|].
  pose proof (read1 x ltac:(vm_compute; reflexivity)) as [K1 K2].
  pose proof (read1 y ltac:(vm_compute; reflexivity)) as [K3 K4].
  split; [exact K1|]. split; [exact K3|]. split; [apply K2; vm_compute; discriminate|]. split; [apply K4; vm_compute; discriminate|]. split; [vm_compute; discriminate|].
  split; [vm_compute; reflexivity|]. vm_compute. reflexivity.
Qed.
Print Assumptions C69_none_refuted.
Print Assumptions C69_rules_refuted.

(** *** Whole runs *)
Definition list_world : world := mkWorld (w_can_read draw_world) (w_can_write draw_world) (w_contents draw_world) [] (w_sur draw_world) false
  (w_subst draw_world) isort (w_beyond draw_world) (fun _ => txt "mine.cfg") (txt "Usage") (txt "Version").
Example C69_program_example : let items := [ItF name_file; ItL] in
  listing_run demo_tab list_world items [] (meaning items) (Files None None) [name_file; name_base; txt "in.txt"] /\
  main demo_tab 40 list_world false items [] = Ok (Success (txt "2 Available Styles:
-------------------

Configuration Files:
    - mine.cfg
    - /etc/boxes.cfg (parent)
    - mine.cfg (parent)


plain:

<x>


shell alias pound-cmt
unknown artist, coded by Ann ""X"" Other:

  # text


perl (1) | sh (1)
")).
Proof.
  assert (S : forall t, forallb (common []) t && runs 0 t = true -> sound_text demo_tab t).
  { intros t H. apply (sound_check demo_tab []); [exact demo_tab_ok|reflexivity|intros c []| |exact H]. intros c [<-|[<-|[]]]; reflexivity. }
  split; [|vm_compute; reflexivity]. constructor.
  - apply meaning_ok. vm_compute. reflexivity.
  - apply op_none.
  - right. left. reflexivity.
  - intros arg [F|[F|[]]]; discriminate F.
  - split; [apply printableb_ok; reflexivity|]. intros p [H|[H|[H|H]]]; try discriminate. injection H as <-. apply printableb_ok. reflexivity.
  - split; [eexists; reflexivity|]. split; [|split].
    + apply places_known; [exact demo_tab_ok|]. split; [apply printableb_ok; reflexivity|]. intros p [H|[H|[H|H]]]; discriminate.
    + intros f H. destruct H as [H|H]; cbn [list_world draw_world w_can_read w_sur file_opens] in H; rewrite ?orb_true_iff in H.
      * destruct H as [[H|H]|H]; apply neq_list_ok in H as ->; cbn; auto.
      * apply neq_list_ok in H as ->. left. reflexivity.
    + intros f [<-|[<-|[<-|[]]]]; apply S; vm_compute; reflexivity.
  - intros f [<-|[<-|[<-|[]]]]; apply noesc_check; vm_compute; reflexivity.
  - intros f [<-|[<-|[<-|[]]]]; apply small_ok2; vm_compute; reflexivity.
  - split; repeat split; discriminate.
  - exact isort_sorter.
Qed.
Example C69_program_design_example :
  match main demo_tab 40 list_world false [ItF name_file; ItD (txt "POUND-cmt"); ItL] [] with
  | Ok (Success t) => firstn 40 t = txt "Complete Design Information for ""shell"":" | _ => False end.
Proof. vm_compute. reflexivity. Qed.
