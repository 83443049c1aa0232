(** * C64: what the options of a command line mean *)
From Coq Require Import Ascii String List Arith NArith ZArith Bool Lia.
From Verif Require Import Base BaseFacts Model_Unicode Model_Bxs Model_Shape Model_Regex Model_Query Model_Cmdline Spec_Query Proof_Query Spec_Cmdline Proof_Cmdline Spec_Options Prop_Query Prop_Cmdline Proof_Options.
Import ListNotations.
Local Open Scope N_scope.

Lemma meant_ok : forall items g, do_items create_new_opt false items = Ok (g, false) <-> meant items g.
Proof.
  intros items g. rewrite items_split. unfold all_steps.
  cbn [create_new_opt g_align g_pad g_size g_tab g_rem g_src g_out g_mode r_remove r_mend r_kill r_indent c_cld c_design c_by_user c_file o_eol o_eol_set o_color o_encoding m_help m_version m_list m_query m_undoc m_debug].
  destruct g as [[a1 a2 a3] [p1 p2 p3 p4] [z1 z2] [t1 t2] [r1 r2 r3 r4] [c1 c2 c3 c4] [o1 o2 o3 o4] [m1 m2 m3 m4 m5 m6]].
  cbn [create_new_opt g_align g_pad g_size g_tab g_rem g_src g_out g_mode r_remove r_mend r_kill r_indent c_cld c_design c_by_user c_file o_eol o_eol_set o_color o_encoding m_help m_version m_list m_query m_undoc m_debug].
  assert (FL : forall p (Q : Prop) b, ((exists i, In i items /\ p i = true) <-> Q) -> (through (put (flag p)) false items = Ok b <-> (b = true <-> Q))).
  { intros p Q b H. rewrite through_put, latest_flag, H. reflexivity. }
  assert (NO : forall b, through (put f_none) false items = Ok b <-> b = false).
  { intros b. rewrite through_put, latest_fold. unfold last_of. assert (K : forall l d, fold_left (fun d x => match f_none x with Some v => v | None => d end) l d = d) by (induction l; intros d; [reflexivity|exact (IHl d)]). rewrite K. reflexivity. }
  assert (ME : through (put f_mend) 0%Z items = Ok r2 <-> In ItM items /\ r2 = 2%Z \/ ~ In ItM items /\ r2 = 0%Z).
  { rewrite through_put, latest_fold. assert (K : forall l d, last_of f_mend l d = d /\ ~ In ItM l \/ last_of f_mend l d = 2%Z /\ In ItM l).
    { unfold last_of. induction l as [|i l IH]; intros d; [left; split; [reflexivity|intros []]|]. cbn [fold_left]. destruct (IH (match f_mend i with Some v => v | None => d end)) as [[A B]|[A B]]; rewrite A.
      - destruct i; cbn [f_mend]; try (left; split; [reflexivity|intros [F|F]; [discriminate F|exact (B F)]]). right. split; [reflexivity|left; reflexivity].
      - right. split; [reflexivity|right; exact B]. }
    destruct (K items 0%Z) as [[A B]|[A B]]; rewrite A; tauto. }
  assert (XX : (exists act', through s_x (false, [false; false; false; false; false], false) items = Ok (m5, m6, act')) <->
     (m5 = true <-> exists arg, In (ItX arg) items /\ undocumented arg) /\
     (List.length m6 = 5%nat /\ forall k, nth_error m6 k = Some true <-> (k < 5)%nat /\ exists arg, In (ItX arg) items /\ logs arg k) /\
     ((forall arg, In (ItX arg) items -> x_right arg) /\ forall l1 arg l2, items = l1 ++ ItX arg :: l2 -> (forall a, ~ In (ItX a) l1) -> undocumented arg \/ exists k, (k < 5)%nat /\ logs arg k)).
  { rewrite (t_x items false [false; false; false; false; false] false m5 m6 eq_refl eq_refl). cbn [orb]. rewrite start_ok, forallb_forall.
    assert (E1 : (forall x, In x (xs_of items) -> rightb x = true) <-> (forall arg, In (ItX arg) items -> x_right arg)).
    { split; intros H x Hx; [apply right_ok|apply right_ok, H]; [apply H|]; apply xs_in; exact Hx. }
    assert (E2 : m5 = existsb undocb (xs_of items) <-> (m5 = true <-> exists arg, In (ItX arg) items /\ undocumented arg)).
    { assert (K : existsb undocb (xs_of items) = true <-> exists arg, In (ItX arg) items /\ undocumented arg).
      { rewrite existsb_exists. split; intros (x & A & B); exists x; (split; [apply xs_in; exact A|apply undocb_ok; exact B]). }
      rewrite <- K. destruct m5, (existsb undocb (xs_of items)); intuition congruence. }
    assert (E3 : m6 = join [false; false; false; false; false] (fun k => existsb (fun a => logsb a k) (xs_of items)) <->
      List.length m6 = 5%nat /\ forall k, nth_error m6 k = Some true <-> (k < 5)%nat /\ exists arg, In (ItX arg) items /\ logs arg k).
    { assert (K : forall k, existsb (fun a => logsb a k) (xs_of items) = true <-> exists arg, In (ItX arg) items /\ logs arg k).
      { intros k. rewrite existsb_exists. split; intros (x & A & B); exists x; (split; [apply xs_in; exact A|apply logs_ok; exact B]). }
      split.
      - intros ->. split; [reflexivity|]. intros k. rewrite join_nth, K. reflexivity.
      - intros [L H]. apply join_eq; [exact L|]. intros k. rewrite H, K. reflexivity. }
    rewrite E1, E2, E3. tauto. }
  assert (AL : through s_align (mkAligns 0 0 0) items = Ok (mkAligns a1 a2 a3) <-> exists dss, Forall2 aligned_by items dss /\ latest (fun d => d horizontal) (concat dss) 0 a1 /\
    latest (fun d => d vertical) (concat dss) 0 a2 /\ latest (fun d => d justification) (concat dss) 0 a3).
  { rewrite t_align. split; intros (dss & A & B); exists dss; (split; [exact A|]); [split; [apply (B horizontal)|split; [apply (B vertical)|apply (B justification)]]|]. destruct B as (B1 & B2 & B3). intros []; assumption. }
  assert (PA : through s_pad (mkPads (-1) (-1) (-1) (-1)) items = Ok (mkPads p1 p2 p3 p4) <-> exists gss, Forall2 padded_by items gss /\ latest (pad_of top) (concat gss) (-1)%Z p1 /\
    latest (pad_of right) (concat gss) (-1)%Z p2 /\ latest (pad_of bottom) (concat gss) (-1)%Z p3 /\ latest (pad_of left) (concat gss) (-1)%Z p4).
  { rewrite t_pad. split; intros (dss & A & B); exists dss; (split; [exact A|]); [split; [apply (B top)|split; [apply (B right)|split; [apply (B bottom)|apply (B left)]]]|]. destruct B as (B1 & B2 & B3 & B4). intros []; assumption. }
  assert (TA : through s_tab (mkTabs 8 101) items = Ok (mkTabs t1 t2) <-> exists ls, Forall2 tabbed_by items ls /\ latest (fun x => Some (fst x)) (concat ls) 8%Z t1 /\ latest snd (concat ls) 101 t2).
  { rewrite t_tab. split; intros (dss & A & B); exists dss; (split; [exact A|]); exact B. }
  assert (RE : through (put f_remove) false items = Ok r1 <-> (r1 = true <-> In ItR items \/ In ItM items)).
  { apply FL. split; [intros (i & A & B); destruct i; try discriminate B; auto|intros [H|H]; eauto]. }
  assert (US : through (put f_user) false items = Ok c3 <-> (c3 = true <-> exists arg, In (ItC arg) items \/ In (ItD arg) items)).
  { apply FL. split; [intros (i & A & B); destruct i; try discriminate B; eauto|intros (arg & [H|H]); eauto]. }
  assert (ES : through (put f_eolset) false items = Ok o2 <-> (o2 = true <-> exists arg, In (ItE arg) items)).
  { apply FL. split; [intros (i & A & B); destruct i; try discriminate B; eauto|intros (arg & H); eauto]. }
  assert (LI : through (put f_list) false items = Ok m3 <-> (m3 = true <-> In ItL items)).
  { apply FL. split; [intros (i & A & B); destruct i; try discriminate B; eauto|intros H; eauto]. }
  pose proof (NO m1) as N1. pose proof (NO m2) as N2. pose proof (t_size items 0%Z 0%Z z1 z2) as SI. pose proof (t_kill items r3) as KI. pose proof (t_indent items 0 r4) as TI.
  pose proof (t_cld items None c1) as CL. pose proof (t_eol items [10] o1) as EO. pose proof (t_query items None m4) as QU.
  pose proof (through_put _ f_design items None c2) as DE. pose proof (through_put _ f_file items None c4) as FI. pose proof (through_put _ f_color items 1 o3) as CO. pose proof (through_put _ f_enc items None o4) as EN.
  split.
  - intros (Q & act' & H). decompose [and] H. clear H. assert (X : exists act', through s_x (false, [false; false; false; false; false], false) items = Ok (m5, m6, act')) by (exists act'; assumption).
    apply XX in X as (X1 & X2 & X3). constructor;
    cbn [g_align g_pad g_size g_tab g_rem g_src g_out g_mode a_h a_v a_j p_top p_right p_bottom p_left s_w s_h t_stop t_exp r_remove r_mend r_kill r_indent c_cld c_design c_by_user c_file o_eol o_eol_set o_color o_encoding m_help m_version m_list m_query m_undoc m_debug];
    try exact Q; try exact X1; try exact X2; try exact X3; try (split; [apply NO|apply NO]; assumption).
    + apply AL; assumption.
    + apply PA; assumption.
    + apply SI; assumption.
    + apply TA; assumption.
    + apply RE; assumption.
    + apply ME; assumption.
    + apply KI; assumption.
    + apply TI; assumption.
    + apply CL; assumption.
    + apply DE; assumption.
    + apply US; assumption.
    + apply FI; assumption.
    + apply EO; assumption.
    + apply ES; assumption.
    + apply CO; assumption.
    + apply EN; assumption.
    + apply LI; assumption.
    + apply QU; assumption.
  - intros H. destruct H as [K1 K2 K3 K4 K5 K6 K7 K8 K9 L1 L2 L3 L4 L5 L6 L7 L8 L9 M1 M2 M3 M4 M5].
    cbn [g_align g_pad g_size g_tab g_rem g_src g_out g_mode a_h a_v a_j p_top p_right p_bottom p_left s_w s_h t_stop t_exp r_remove r_mend r_kill r_indent c_cld c_design c_by_user c_file o_eol o_eol_set o_color o_encoding m_help m_version m_list m_query m_undoc m_debug] in *.
    assert (X : exists act', through s_x (false, [false; false; false; false; false], false) items = Ok (m5, m6, act')) by (apply XX; auto). destruct X as (act' & X). destruct L9 as [L9 L10].
    split; [exact K1|]. exists act'. repeat split.
    + apply AL; assumption.
    + apply PA; assumption.
    + apply SI; assumption.
    + apply TA; assumption.
    + apply RE; assumption.
    + apply ME; assumption.
    + apply KI; assumption.
    + apply TI; assumption.
    + apply CL; assumption.
    + apply DE; assumption.
    + apply US; assumption.
    + apply FI; assumption.
    + apply EO; assumption.
    + apply ES; assumption.
    + apply CO; assumption.
    + apply EN; assumption.
    + apply NO; assumption.
    + apply NO; assumption.
    + apply LI; assumption.
    + apply QU; assumption.
    + exact X.
Qed.

(** exactly the command lines with these options are accepted, and these are the settings and the files *)
Theorem C64_meaning : forall can_read can_write items rest g fs,
  process_commandline can_read can_write false items rest = Ok (g, Some fs) <-> meant items g /\ opened can_read can_write rest fs.
Proof.
  intros cr cw items rest g fs. rewrite <- meant_ok, <- files_ok. unfold process_commandline.
  destruct (do_items create_new_opt false items) as [[g' [|]]| | | |]; cbn [bind]; try (split; [discriminate|intros [F _]; discriminate F]).
  destruct (input_output_files cr cw rest) as [fs'| | | |]; cbn [bind]; try (split; [discriminate|intros [_ F]; discriminate F]).
  split; [intros H; injection H as -> ->; auto|]. intros [A B]. injection A as ->. injection B as ->. reflexivity.
Qed.
Print Assumptions C64_meaning.

(** -h and -v end the reading of the options: what comes later is not looked at, and no file is opened *)
Definition helped (g : settings) : settings := let m := g_mode g in
  mkSettings (g_align g) (g_pad g) (g_size g) (g_tab g) (g_rem g) (g_src g) (g_out g) (mkModes true false (m_list m) (m_query m) (m_undoc m) (m_debug m)).
Definition versioned (g : settings) : settings := let m := g_mode g in
  mkSettings (g_align g) (g_pad g) (g_size g) (g_tab g) (g_rem g) (g_src g) (g_out g) (mkModes false true (m_list m) (m_query m) (m_undoc m) (m_debug m)).
Lemma stop_split : forall items g act g', do_items g act items = Ok (g', true) <->
  exists l1 i l2 g0 act0, items = l1 ++ i :: l2 /\ do_items g act l1 = Ok (g0, false) /\ do_item g0 act0 i = Ok (g', act0, true).
Proof.
  assert (S : forall g act i g1 act1, do_item g act i = Ok (g1, act1, true) -> act1 = act /\ forall a, do_item g a i = Ok (g1, a, true)).
  { intros g act i g1 act1 H. destruct i; cbn [do_item] in H; try discriminate H; try (injection H as <- <-; auto);
    try (match type of H with bind ?x _ = _ => destruct x as [y| | | |]; try destruct y end; cbn [bind] in H; discriminate H). destruct (parse_query arg); discriminate H. }
  induction items as [|i items IH]; intros g act g'.
  - cbn [do_items]. split; [discriminate|]. intros (l1 & i & l2 & g0 & a0 & F & _). destruct l1; discriminate F.
  - cbn [do_items]. split.
    + destruct (do_item g act i) as [[[g1 act1] stop]| | | |] eqn:E; cbn [bind]; try discriminate. destruct stop.
      * intros H. injection H as <-. exists [], i, items, g, act. destruct (S _ _ _ _ _ E) as [-> _]. auto.
      * intros H. apply IH in H as (l1 & j & l2 & g0 & a0 & -> & A & B). exists (i :: l1), j, l2, g0, a0. split; [reflexivity|]. split; [|exact B]. cbn [do_items]. rewrite E. exact A.
    + intros (l1 & j & l2 & g0 & a0 & E & A & B). destruct l1 as [|x l1]; injection E as -> ->.
      * injection A as <-. destruct (S _ _ _ _ _ B) as [_ K]. rewrite K. reflexivity.
      * cbn [do_items] in A. destruct (do_item g act x) as [[[g1 act1] stop]| | | |]; cbn [bind] in A |- *; try discriminate A. destruct stop; [discriminate A|]. apply IH. exists l1, j, l2, g0, a0. auto.
Qed.
Theorem C64_stop : forall can_read can_write items rest g,
  process_commandline can_read can_write false items rest = Ok (g, None) <->
  exists l1 i l2 g0, items = l1 ++ i :: l2 /\ meant l1 g0 /\ (i = ItHelp /\ g = helped g0 \/ i = ItV /\ g = versioned g0).
Proof.
  intros cr cw items rest g. assert (E : process_commandline cr cw false items rest = Ok (g, None) <-> do_items create_new_opt false items = Ok (g, true)).
  { unfold process_commandline. destruct (do_items create_new_opt false items) as [[g' [|]]| | | |]; cbn [bind]; try (split; discriminate).
    - split; intros H; injection H as ->; reflexivity.
    - destruct (input_output_files cr cw rest); cbn [bind]; split; discriminate. }
  rewrite E, stop_split. split.
  - intros (l1 & i & l2 & g0 & a0 & -> & A & B). apply meant_ok in A. exists l1, i, l2, g0. split; [reflexivity|]. split; [exact A|]. pose proof (mt_help _ _ A) as [H1 H2].
    destruct i; cbn [do_item] in B; try discriminate B; try (match type of B with bind ?x _ = _ => destruct x as [y| | | |]; try destruct y end; cbn [bind] in B; discriminate B).
    + injection B as <-. left. split; [reflexivity|]. unfold helped, with_mode. rewrite H2. reflexivity.
    + destruct (parse_query arg); discriminate B.
    + injection B as <-. right. split; [reflexivity|]. unfold versioned, with_mode. rewrite H1. reflexivity.
  - intros (l1 & i & l2 & g0 & -> & A & B). pose proof (mt_help _ _ A) as [H1 H2]. exists l1, i, l2, g0, false. split; [reflexivity|]. split; [apply meant_ok; exact A|].
    destruct B as [[-> ->]|[-> ->]]; cbn [do_item]; unfold helped, versioned, with_mode; rewrite ?H1, ?H2; reflexivity.
Qed.
Print Assumptions C64_stop.

(** the options leave nothing open *)
Theorem C64_unique : forall items g g', meant items g -> meant items g' -> g = g'.
Proof. intros items g g' A B. apply meant_ok in A. apply meant_ok in B. congruence. Qed.
Print Assumptions C64_unique.
(** [-?] as the first argument is like [-h]: nothing else is looked at *)
Theorem C64_question : forall can_read can_write items rest g0, meant [] g0 -> process_commandline can_read can_write true items rest = Ok (helped g0, None).
Proof. intros cr cw items rest g0 H. apply meant_ok in H. injection H as <-. reflexivity. Qed.
Print Assumptions C64_question.
Example C64_question_example : meant [] create_new_opt /\ m_help (g_mode (helped create_new_opt)) = true.
Proof. split; [apply meant_ok; reflexivity|reflexivity]. Qed.
(** every other command line is refused with a message: there is no third way *)
Theorem C64_refused : forall can_read can_write items rest,
  (forall l1 i l2 g0, items = l1 ++ i :: l2 -> meant l1 g0 -> i <> ItHelp /\ i <> ItV) -> (forall g fs, ~ (meant items g /\ opened can_read can_write rest fs)) ->
  process_commandline can_read can_write false items rest = Err.
Proof.
  intros cr cw items rest Hs Hm. destruct (C55_total cr cw false items rest) as [E|(g & [fs|] & E)]; [exact E| |]; exfalso.
  - apply (Hm g fs). apply C64_meaning. exact E.
  - apply C64_stop in E as (l1 & i & l2 & g0 & A & B & C). destruct (Hs l1 i l2 g0 A B) as [H1 H2]. destruct C as [[-> _]|[-> _]]; contradiction.
Qed.
Print Assumptions C64_refused.

Definition demo_items : list item :=
  [ItA (bytes "hr"%string); ItD (bytes "java-cmt"%string); ItP (bytes "a2t1"%string); ItI (bytes "te"%string); ItE (bytes "cr"%string); ItColor; ItK (bytes "FALSE"%string); ItKillBlank; ItS (bytes "30x5"%string);
   ItF (bytes "cfg"%string); ItS (bytes "x7"%string); ItE (bytes "CRLF"%string); ItNoColor; ItN (bytes "UTF-8"%string); ItT (bytes "4U"%string); ItT (bytes "6"%string); ItR; ItL; ItQ (bytes "-java"%string);
   ItX (bytes "(undoc)"%string); ItX (bytes "debug:lexer,Main"%string); ItA (bytes "vcjl"%string); ItC (bytes "**"%string)].
Example C64_example : exists g, meant demo_items g /\ opened (fun _ => true) (fun _ => true) [bytes "-"%string; bytes "out"%string] (Files None (Some (bytes "out"%string))) /\
  g_align g = mkAligns 114 99 108 /\ g_pad g = mkPads 1 2 2 2 /\ g_size g = mkSizes 30 7 /\ g_tab g = mkTabs 6 117 /\ g_rem g = mkRemoval true 0 0 116 /\
  g_src g = mkSource (Some (bytes "**"%string)) (Some (bytes "java-cmt"%string)) true (Some (bytes "cfg"%string)) /\ g_out g = mkOutput [13; 10] true 0 (Some (bytes "UTF-8"%string)) /\
  g_mode g = mkModes false false true (Some [bytes "-java"%string; bytes "(all)"%string]) true [true; false; false; true; false].
Proof.
  eexists. split; [apply (C64_meaning (fun _ => true) (fun _ => true) demo_items [] _ (Files None None)); vm_compute; reflexivity|].
  split; [apply op_both; [left; auto|right; repeat split; discriminate]|]. vm_compute. auto 10.
Qed.
Example C64_stop_example : exists g, process_commandline (fun _ => false) (fun _ => false) false [ItR; ItV; ItError] [bytes "x"%string] = Ok (g, None) /\ m_version (g_mode g) = true /\ r_remove (g_rem g) = true.
Proof. eexists. vm_compute. auto. Qed.
Example C64_refused_example :
  let go := fun items rest => process_commandline (fun _ => true) (fun _ => false) false items rest in
  go [ItI (bytes "boxes"%string)] [] = Err /\ go [ItE (bytes "crlfx"%string)] [] = Err /\ go [ItS (bytes "0x0"%string)] [] = Err /\ go [ItT (bytes "17"%string)] [] = Err /\
  go [ItX (bytes "nothing"%string)] [] = Err /\ go [ItX (bytes "debug:foo"%string)] [] = Err /\ go [] [bytes "a"%string; bytes "b"%string] = Err /\ go [] [bytes "a"%string; bytes "-"%string] <> Err /\
  go [] [bytes "a"%string; bytes "-"%string; bytes "-"%string] = Err.
Proof. vm_compute. repeat split; discriminate. Qed.
