(** * Properties of the whole way from raw input to printed box: C51 *)
From Coq Require Import Ascii String List Arith NArith ZArith Bool Lia.
From Verif Require Import Base BaseFacts Model_Unicode Model_Bxs Model_Shape Model_Generate Model_Input Model_Main
  Spec_Str Spec_Design Spec_Box Spec_Input Proof_Str Proof_Bxs Proof_BxsOps Proof_BxsMore Proof_Shows Prop_Str
  Proof_Rows Proof_Draw Proof_Print Proof_Input Demo Prop_Box Prop_Input Prop_Subst.
Import ListNotations.
Local Open Scope nat_scope.

(** The only outcome other than success is that the sizing loop is still running (see C06). *)
Theorem C51_never_fails : forall U o d raws color eol fuel, uctab_ok U -> wf_design U d -> 1 <= o_tabstop o <= 16 ->
  raws <> [] -> Forall (raw_ok U (o_tabstop o)) raws -> o_tabexp o = 101%N ->
  (o_justify o = 0%N \/ d_indentmode d <> 116%N \/ Forall (solid U) raws) ->
  boxes_draw U fuel color eol o d [] raws = Fuel \/ exists out, boxes_draw U fuel color eol o d [] raws = Ok out.
Proof.
  intros U o d raws color eol fuel HU WF Ht Hne Hok Hexp Hj.
  destruct (C50_input_stage U o d raws HU Ht Hne Hok Hj) as (inp & E & Hwf & _ & HF).
  specialize (Hwf (or_introl Hexp)). unfold boxes_draw. rewrite E. cbn [bind].
  destruct (is_nil (i_lines inp)) eqn:En; [eauto|].
  destruct (C11_no_internal_failure U o d inp color eol HU WF Hwf fuel) as [[_ ->]|(rows & out & _ & ->)]; eauto.
Qed.
Print Assumptions C51_never_fails.

Theorem C51_never_fails_rules : forall U o d rules raws color eol fuel, uctab_ok U -> wf_design U d -> 1 <= o_tabstop o <= 16 ->
  raws <> [] -> Forall (raw_ok U (o_tabstop o)) raws -> Forall (rule_ok U) rules -> o_tabexp o = 101%N -> o_justify o = 0%N ->
  boxes_draw U fuel color eol o d rules raws = Fuel \/ exists out, boxes_draw U fuel color eol o d rules raws = Ok out.
Proof.
  intros U o d rules raws color eol fuel HU WF Ht Hne Hok HR Hexp Hj.
  destruct (C52_substitutions U o d rules raws HU Ht Hne Hok HR Hj) as (inp0 & inp & _ & E & _ & _ & _ & _ & Hwf).
  specialize (Hwf (or_introl Hexp)). unfold boxes_draw. rewrite E. cbn [bind].
  destruct (is_nil (i_lines inp)) eqn:En; [eauto|].
  destruct (C11_no_internal_failure U o d inp color eol HU WF Hwf fuel) as [[_ ->]|(rows & out & _ & ->)]; eauto.
Qed.
Print Assumptions C51_never_fails_rules.

(** Without justification: the output consists of the printed rows of one rectangular box, terminated as the input
    was; the box has one row per input line, in order, that carries the line without trailing white space, without
    the common indentation, with its tabs expanded and rewritten by the rules; all texts start in the same column. *)
Theorem C51_end_to_end : forall U o d rules raws color eol fuel out, uctab_ok U -> wf_design U d -> 1 <= o_tabstop o <= 16 ->
  raws <> [] -> Forall (raw_ok U (o_tabstop o)) raws -> Forall (rule_ok U) rules -> o_tabexp o = 101%N -> o_justify o = 0%N ->
  boxes_draw U fuel color eol o d rules raws = Ok out ->
  exists rows printed_rows fin ind width lefts above contents below rights hpl,
    out = terminated eol fin printed_rows /\ (fin = true <-> ends_with_break (last raws [])) /\
    Forall2 (printed U color) rows printed_rows /\ Forall (shows U width) rows /\
    rows = zip3 (spaces ind) lefts (above ++ contents ++ below) rights /\
    length lefts = length rows /\ length (above ++ contents ++ below) = length rows /\ length rights = length rows /\
    Forall2 (fun raw m => exists text0 text txt k r, taken_from U (o_tabstop o) raw text0 k /\ rewrites rules text0 text /\ m = spaces hpl ++ txt ++ spaces r /\
       (txt = text \/ txt = [] /\ forall ts, reads text ts -> visible ts = [])) raws contents.
Proof.
  intros U o d rules raws color eol fuel out HU WF Ht Hne Hok HR Hexp Hj Hd.
  destruct (C50_input_stage U o d raws HU Ht Hne Hok (or_introl Hj)) as (inp0 & E0 & _ & Hfin & HF0 & _).
  destruct (C52_substitutions U o d rules raws HU Ht Hne Hok HR Hj) as (inp0' & inp & E0' & E & HFR & Efin & _ & _ & Hwf).
  rewrite E0 in E0'. injection E0' as <-. rewrite <- Efin in Hfin.
  assert (HF : Forall2 (fun raw l => exists text0 k, taken_from U (o_tabstop o) raw text0 k /\ rewrites rules text0 (memory (l_text l))) raws (i_lines inp)).
  { clear - HF0 HFR. revert HFR. generalize (i_lines inp). induction HF0 as [|raw l raws ls (k & Hk & _) _ IH]; intros ls' H; inversion H as [|x y lx ly [Hx _] Hy]; subst; constructor; eauto. }
  specialize (Hwf (or_introl Hexp)). unfold boxes_draw in Hd. rewrite E in Hd. cbn [bind] in Hd.
  destruct (i_lines inp) as [|l0 ls0] eqn:El; [inversion HF; congruence|]. cbn [is_nil] in Hd. rewrite <- El in *. clear El.
  destruct (C12_line_terminators U o d inp fuel color eol out HU WF Hwf Hd) as (rows & ps & Hr & Eo & Hp).
  destruct (C01_rectangular U o d inp fuel rows HU WF Hwf Hr) as (w & _ & Hw).
  destruct (C02_verbatim U o d inp fuel rows HU WF Hwf Hj Hr) as (lefts & above & contents & below & rights & hpl & Ez & L1 & L2 & L3 & Hc).
  exists (map memory rows), ps, (i_final_newline inp). eexists. eexists. exists lefts, above, contents, below, rights, hpl.
  rewrite map_length. split; [exact Eo|]. split; [exact Hfin|]. split.
  { clear - Hp. induction Hp; constructor; auto. }
  split; [apply Forall_map; exact Hw|]. split; [exact Ez|]. split; [exact L1|]. split; [exact L2|]. split; [exact L3|].
  clear - HF Hc. revert contents Hc. induction HF as [|raw l raws ls (t0 & k & Hk & Hrw) _ IH]; intros cs Hc; inversion Hc as [|x y lx ly Hx Hy]; subst; constructor.
  - destruct Hx as (txt & r & -> & Ht). exists t0, (memory (l_text l)), txt, k, r. auto.
  - auto.
Qed.
Print Assumptions C51_end_to_end.
Example C51_example : Forall (raw_ok demo_tab 8) demo_raws /\ wf_design demo_tab demo_rich /\
  match boxes_draw demo_tab 50 true [10]%N opts0 demo_rich [] demo_raws with Ok out => str out | _ => ""%string end =
  String.concat (String "010" EmptyString)
  ["      /*=====<>+++++*\";
   "       *-----><.....*";
   "      ||            *";
   "      *     int a;  *|";
   "      *              *";
   "      *  b x         *";
   "      \*~~~~~~~~~~~o*/"]%string.
Proof.
  split; [repeat apply Forall_cons; try apply Forall_nil; apply raw_ok_demo; try reflexivity; cbn; lia|].
  split; [exact ex_wf_rich|]. vm_compute. reflexivity.
Qed.
