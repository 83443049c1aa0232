(** * Properties of recognising borders: C35 - C37 *)
From Coq Require Import Ascii String List Arith NArith ZArith Bool Lia.
From Verif Require Import Base BaseFacts Model_Unicode Model_Bxs Model_Shape Model_Generate Model_Detect Model_Remove
  Spec_Str Spec_Design Spec_Box Spec_Remove Proof_Str Proof_Bxs Proof_BxsOps Proof_BxsMore Proof_Shows Prop_Str Demo
  Proof_Term Proof_Hmm Proof_Horiz Proof_Open Proof_Recog Proof_Found.
Import ListNotations.
Local Open Scope nat_scope.

(** ** C37: removing a box always comes to an end, whatever the design, the options and the input *)
Theorem C37_terminates : forall U d indentmode kill mend inp, remove_box U d indentmode kill mend inp <> Fuel.
Proof. intros U d im k mend inp. apply nf_remove_box. Qed.
Print Assumptions C37_terminates.

(** ** C35: what is recognised as a line of a horizontal border *)
Theorem C35_no_failure : forall U d inp (top : bool) li si ct0 l, uctab_ok U -> wf_design U d -> built U d ->
  si < (if top then top_h d else bottom_h d) -> nth_error (i_lines inp) li = Some l -> built_line U l ->
  exists r, match_horiz_line U d inp top li si ct0 = Ok r.
Proof.
  intros U d inp top li si ct0 l HU WF HB Hsi Hn Hl.
  assert (Hsi' : si < s_height (d_shape d (left_corner top))) by (destruct top; exact Hsi).
  unfold match_horiz_line. generalize comp_types as cts. intros cts. revert ct0.
  induction cts as [|ct cts IH]; intros ct0; [eexists; reflexivity|]. cbn [match_horiz_types].
  destruct (comp_type_is_viable _ _ _); [|apply IH].
  destruct (horiz_total U HU d inp top li si ct l WF HB Hsi' Hn Hl) as (r & -> & _). cbn [bind]. destruct r; [eauto|apply IH].
Qed.
Print Assumptions C35_no_failure.

Theorem C35_sound : forall U d inp (top : bool) li si ct0 ct l, uctab_ok U -> wf_design U d -> built U d ->
  si < (if top then top_h d else bottom_h d) -> nth_error (i_lines inp) li = Some l -> built_line U l ->
  match_horiz_line U d inp top li si ct0 = Ok (true, ct) ->
  exists text, printed U (negb (drops_input ct)) (memory (l_text l)) text /\ border_line U d top (drops_shape ct) si text.
Proof.
  intros U d inp top li si ct0 ct l HU WF HB Hsi Hn Hl.
  assert (Hsi' : si < s_height (d_shape d (left_corner top))) by (destruct top; exact Hsi).
  unfold match_horiz_line. generalize comp_types as cts. intros cts. revert ct0.
  induction cts as [|c cts IH]; intros ct0 H; [discriminate|]. cbn [match_horiz_types] in H.
  destruct (comp_type_is_viable _ _ _); [|exact (IH _ H)].
  destruct (horiz_total U HU d inp top li si c l WF HB Hsi' Hn Hl) as (r & E & Hr). rewrite E in H. cbn [bind] in H.
  destruct r; [|exact (IH _ H)]. injection H as <-. auto.
Qed.
Print Assumptions C35_sound.

(** *** data for the examples *)
Lemma built_demo : built demo_tab demo_rich.
Proof.
  intros i m Hi Hm. do 16 (destruct i as [|i]; [cbn in Hm; intuition (subst m; left; vm_compute; reflexivity)|]). lia.
Qed.
Lemma wf_demo_rich : wf_design demo_tab demo_rich.
Proof. apply wf_designb_ok; [exact demo_tab_ok|vm_compute; reflexivity]. Qed.
Lemma plain_ascii : forall s, forallb is_ascii_printable s = true -> plain_text demo_tab s.
Proof.
  intros s H. apply Forall_forall. intros c Hc. rewrite forallb_forall in H. specialize (H c Hc). pose proof H as H'.
  unfold is_ascii_printable in H'. rewrite andb_true_iff, N.leb_le, N.ltb_lt in H'. repeat split; try lia.
  intros Hb. unfold is_blank in Hb. apply orb_true_iff in Hb as [Hb|Hb]; [unfold char_tab in Hb; apply N.eqb_eq in Hb; lia|].
  apply (ok_blank demo_tab demo_tab_ok c H Hb).
Qed.
Lemma plain_demo : plain_design demo_tab demo_rich.
Proof.
  constructor.
  - intros i m Hi Hm. apply plain_ascii. do 16 (destruct i as [|i]; [cbn in Hm; intuition (subst m; vm_compute; reflexivity)|]). lia.
  - intros i m Hi He Hm. do 16 (destruct i as [|i]; [first [destruct Hm; fail | vm_compute in He; discriminate | cbn in Hm; tauto]|]). lia.
Qed.
Lemma built_ascii : forall s, forallb is_ascii_printable (txt s) = true ->
  bxs_from_unicode demo_tab (txt s) = Ok (mkrow s) -> memory (mkrow s) = txt s -> built_line demo_tab (mkline s).
Proof.
  intros s H E Em. unfold built_line. cbn [mkline l_text]. rewrite Em. split; [exact E|].
  exists (plain (txt s)), (length (txt s)). split; [|split].
  - split; [|apply render_plain]. apply (closed_plain (txt s)). intros Hx. rewrite forallb_forall in H. specialize (H _ Hx). discriminate.
  - apply (shows_ascii demo_tab demo_tab_ok). exact H.
  - unfold narrow_indent. apply Forall_forall. intros c Hc. rewrite visible_plain in Hc. apply In_firstn in Hc.
    rewrite forallb_forall in H. specialize (H c Hc). unfold term_width. rewrite (ok_width demo_tab demo_tab_ok c H). destruct (c =? 9)%N; reflexivity.
Qed.
Definition demo_drawn : list string :=
  ["      /*=====<>+++++*\"; "       *-----><.....*"; "      ||            *"; "      *     int a;  *|"; "      *              *";
   "      *  b x         *"; "      \*~~~~~~~~~~~o*/"]%string.
Definition demo_box_input : input := mkinp demo_drawn true.

Example C35_example : wf_design demo_tab demo_rich /\ built demo_tab demo_rich /\
  nth_error (i_lines demo_box_input) 1 = Some (mkline "       *-----><.....*") /\ built_line demo_tab (mkline "       *-----><.....*") /\
  match_horiz_line demo_tab demo_rich demo_box_input true 1 1 literal = Ok (true, literal) /\
  match_horiz_line demo_tab demo_rich demo_box_input true 1 0 literal = Ok (false, literal).
Proof.
  split; [exact wf_demo_rich|]. split; [exact built_demo|]. split; [reflexivity|].
  split; [apply built_ascii; vm_compute; reflexivity|]. split; vm_compute; reflexivity.
Qed.

(** The first character of the left corner may be missing although it is not a blank (src/remove.c:481-488): the corner is ["* "],
    the recognised line starts with a blank. *)
Definition demo_gap_shapes := lookup
  [ (NW, shp false ["* "]); (N_, shp true ["-"]); (NE, shp false [" *"]);
    (W_, shp true ["| "]); (E_, shp true [" |"]);
    (SW, shp false ["* "]); (S_, shp true ["-"]); (SE, shp false [" *"]) ]%string.
Definition demo_gap : design := mkDesign demo_gap_shapes 98 0 0 0 0 5 3.
Theorem C35_whole_corner_refuted : exists U d inp l,
  uctab_ok U /\ wf_design U d /\ built U d /\ nth_error (i_lines inp) 0 = Some l /\ built_line U l /\
  row_text (d_shape d NW) 0 = txt "* " /\ memory (l_text l) = txt " ---- *" /\
  match_horiz_line U d inp true 0 0 literal = Ok (true, literal).
Proof.
  exists demo_tab, demo_gap, (mkinp [" ---- *"%string] true), (mkline " ---- *").
  split; [exact demo_tab_ok|]. split; [apply wf_designb_ok; [exact demo_tab_ok|vm_compute; reflexivity]|].
  split; [intros i m Hi Hm; do 16 (destruct i as [|i]; [cbn in Hm; intuition (subst m; left; vm_compute; reflexivity)|]); lia|].
  split; [reflexivity|]. split; [apply built_ascii; vm_compute; reflexivity|].
  split; [vm_compute; reflexivity|]. split; vm_compute; reflexivity.
Qed.
Print Assumptions C35_whole_corner_refuted.

(** A line indented by blanks two columns wide makes the matcher read behind the end of an array (src/remove.c:478:
    the indentation in columns is used as a number of characters). *)
Definition wide_indent : list N := repeat 12288%N 8 ++ [42; 32; 45]%N.
Theorem C35_wide_indent_refuted : exists U d inp l b,
  uctab_ok U /\ wf_design U d /\ built U d /\ nth_error (i_lines inp) 0 = Some l /\
  bxs_from_unicode U wide_indent = Ok b /\ l_text l = b /\ shows U 19 (memory b) /\
  match_horiz_line U d inp true 0 0 literal = UB.
Proof.
  exists demo_tab, demo_gap. set (b := match bxs_from_unicode demo_tab wide_indent with Ok b => b | _ => bxs_new_empty_string end).
  exists (mkInput [mkLine b []] 19 16 true), (mkLine b []), b.
  split; [exact demo_tab_ok|]. split; [apply wf_designb_ok; [exact demo_tab_ok|vm_compute; reflexivity]|].
  split; [intros i m Hi Hm; do 16 (destruct i as [|i]; [cbn in Hm; intuition (subst m; left; vm_compute; reflexivity)|]); lia|].
  split; [reflexivity|]. split; [vm_compute; reflexivity|]. split; [reflexivity|]. split; [|vm_compute; reflexivity].
  apply (shows_closed demo_tab demo_tab_ok). exists (plain wide_indent). split; [|split; [apply render_plain|reflexivity]].
  split; [|split].
  - apply (closed_plain wide_indent). unfold wide_indent. cbn. intuition discriminate.
  - unfold allowed. rewrite visible_plain. repeat constructor.
  - unfold tabless. rewrite visible_plain. unfold wide_indent. cbn. intuition discriminate.
Qed.
Print Assumptions C35_wide_indent_refuted.

(** ** C36: drawn borders are recognised again *)
(** A line of the top or bottom border as it is drawn and printed ([border_row], right-trimmed) is recognised, for every
    indentation and every number of repetitions of the elastic shapes. *)
Theorem C36_line : forall U d inp (top : bool) li si ct0 l ind cn, uctab_ok U -> wf_design U d -> built U d -> plain_design U d ->
  Forall (fun l => built_line U l /\ ~ In 27%N (memory (l_text l))) (i_lines inp) ->
  si < (if top then top_h d else bottom_h d) -> nth_error (i_lines inp) li = Some l ->
  usage (at_side (d_shape d) (if top then BTOP else BBOT)) cn ->
  printed U true (border_row d top ind cn si) (memory (l_text l)) ->
  match_horiz_line U d inp top li si ct0 = Ok (true, literal).
Proof.
  intros U d inp top li si ct0 l ind cn HU WF HB HP Hin Hsi Hn Hu Hp.
  apply (horiz_line_found U HU d WF HB HP inp (mono_input U HU inp Hin)).
  apply (border_recognised U HU d WF HB HP inp top li si l ind cn); auto; [destruct top; exact Hsi|].
  rewrite Forall_forall in Hin. apply Hin. eapply nth_error_In. exact Hn.
Qed.
Print Assumptions C36_line.

(** The whole top border is found, and nothing more; likewise the bottom border. *)
Theorem C36_top : forall U d inp ts ind cn ct0, uctab_ok U -> wf_design U d -> built U d -> plain_design U d ->
  Forall (fun l => built_line U l /\ ~ In 27%N (memory (l_text l))) (i_lines inp) ->
  usage (at_side (d_shape d) BTOP) cn ->
  (forall k, k < top_h d -> exists l, nth_error (i_lines inp) (ts + k) = Some l /\ printed U true (border_row d true ind cn k) (memory (l_text l))) ->
  find_top_side U d inp ts ct0 = Ok (ts + top_h d, literal).
Proof.
  intros U d inp ts ind cn ct0 HU WF HB HP Hin Hu Hk.
  assert (Hpos : 0 < top_h d).
  { pose proof (wf_corners U d WF NW ltac:(cbn; auto)) as He. unfold isempty in He. rewrite !orb_false_iff, !Nat.eqb_neq in He. unfold top_h. lia. }
  apply (top_found U HU d WF HB HP inp (mono_input U HU inp Hin) ts ind cn ct0 Hu); [|exact Hpos].
  intros k Hlt. destruct (Hk k Hlt) as (l & Hn & Hp). exists l. split; [exact Hn|]. split; [|exact Hp].
  rewrite Forall_forall in Hin. apply Hin. eapply nth_error_In. exact Hn.
Qed.
Print Assumptions C36_top.

Theorem C36_bottom : forall U d inp bs ind cn ct0, uctab_ok U -> wf_design U d -> built U d -> plain_design U d ->
  Forall (fun l => built_line U l /\ ~ In 27%N (memory (l_text l))) (i_lines inp) ->
  usage (at_side (d_shape d) BBOT) cn ->
  (forall k, k < bottom_h d -> exists l, nth_error (i_lines inp) (bs + k) = Some l /\ printed U true (border_row d false ind cn k) (memory (l_text l))) ->
  find_bottom_side U d inp (bs + bottom_h d) ct0 = Ok (bs, literal).
Proof.
  intros U d inp bs ind cn ct0 HU WF HB HP Hin Hu Hk.
  assert (Hpos : 0 < bottom_h d).
  { pose proof (wf_corners U d WF SW ltac:(cbn; auto)) as He. unfold isempty in He. rewrite !orb_false_iff, !Nat.eqb_neq in He. unfold bottom_h. lia. }
  apply (bottom_found U HU d WF HB HP inp (mono_input U HU inp Hin) bs ind cn ct0 Hu); [|exact Hpos].
  intros k Hlt. destruct (Hk k Hlt) as (l & Hn & Hp). exists l. split; [exact Hn|]. split; [|exact Hp].
  rewrite Forall_forall in Hin. apply Hin. eapply nth_error_In. exact Hn.
Qed.
Print Assumptions C36_bottom.

Definition demo_cN (i : nat) : nat := if i =? 2 then 1 else 5.
Definition demo_cS (i : nat) : nat := if i =? 1 then 1 else if i =? 2 then 11 else 0.
Example C36_example : plain_design demo_tab demo_rich /\
  usage (at_side (d_shape demo_rich) BTOP) demo_cN /\ usage (at_side (d_shape demo_rich) BBOT) demo_cS /\
  Forall (fun l => built_line demo_tab l /\ ~ In 27%N (memory (l_text l))) (i_lines demo_box_input) /\
  border_row demo_rich true 6 demo_cN 0 = txt "      /*=====<>+++++*\" /\ border_row demo_rich true 6 demo_cN 1 = txt "       *-----><.....* " /\
  border_row demo_rich false 6 demo_cS 0 = txt "      \*~~~~~~~~~~~o*/" /\
  find_top_side demo_tab demo_rich demo_box_input 0 literal = Ok (2, literal) /\
  find_bottom_side demo_tab demo_rich demo_box_input 7 literal = Ok (6, literal).
Proof.
  split; [exact plain_demo|].
  split; [split; [intros i [<-|[<-|[<-|[]]]]; cbn; lia|cbn; lia]|].
  split; [split; [intros i [<-|[<-|[<-|[]]]]; cbn; lia|cbn; discriminate]|].
  split. { cbn [demo_box_input mkinp i_lines map demo_drawn]. repeat apply Forall_cons; try apply Forall_nil;
    (split; [apply built_ascii; vm_compute; reflexivity|vm_compute; intuition discriminate]). }
  repeat split; vm_compute; reflexivity.
Qed.
