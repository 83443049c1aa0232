(** * Mending a box is removing it and drawing a new one: C74 *)
From Coq Require Import Ascii String List Arith NArith ZArith Bool Lia.
From Verif Require Import Base BaseFacts Model_Unicode Model_Bxs Model_Shape Model_Generate Model_Input Model_Detect Model_Remove Model_Main Model_Mend
  Spec_Str Spec_Design Spec_Box Spec_Input Spec_Remove Spec_Undo Spec_Pipe Proof_Str Proof_Bxs Proof_BxsOps Proof_BxsMore Proof_Shows
  Proof_Input Proof_Body Proof_Round Proof_Undo Prop_Undo Prop_Mend Proof_Pipe Demo Prop_Str.
Import ListNotations.
Local Open Scope nat_scope.

(** What removing a box prints, read by a second run that draws a box of the same design, gives what mending prints. *)
Theorem C74_pipeline : forall U eol o ds i d mode k rules rrules raws t, uctab_ok U -> 1 <= o_tabstop o <= 16 -> o_tabexp o = 101%N ->
  eol = [10%N] \/ eol = [13%N; 10%N] -> forallb (uc_ws U) eol = true -> nth_error ds i = Some d -> padding_stays o ->
  raws <> [] -> Forall (removable U (o_tabstop o)) raws -> Forall (plain_rule U) (rrules i) ->
  boxes_remove U eol o d mode k (rrules i) raws = Ok t ->
  exists fin ls, t = terminated eol fin ls /\ (fin = true <-> ends_with_break (last raws [])) /\
    (steady_lines U fin ls -> forall fuel color,
       boxes_mend U fuel color eol o ds i true mode k rules rrules raws = boxes_draw U fuel color eol o d (rules i) (raw_lines t)).
Proof.
  intros U eol o ds i d mode k rules rrules raws t HU Ht Hx He Hw Hd Hp Hne Hr HR E.
  destruct (handle_taken U HU o d raws Ht Hx Hne Hr) as (ss & M & Ei & Hsn & Hss).
  unfold boxes_remove in E. rewrite Ei in E. cbn [bind i_lines] in E. set (inp := mkInput (map (mk U) ss) M (get_indent (map (mk U) ss)) (has_linebreak (last raws []))) in *.
  destruct (is_nil (map (mk U) ss)) eqn:En; [destruct ss; [congruence|discriminate]|]. cbv zeta in E.
  apply bind_inv in E as (rest & Erest & E). unfold output_input in E. apply bind_inv in E as (tr & Etr & E).
  assert (Hev : Forall (even U) (i_lines inp)).
  { cbn [inp i_lines]. clear - Hss. induction Hss as [|raw s raws ss T H IH]; [constructor|]. cbn [map]. constructor; [|assumption]. exists s. split; [reflexivity|apply (tk_ok _ _ _ _ T)]. }
  pose proof Erest as Erest'. unfold handle_remove_box in Erest'. apply bind_inv in Erest' as (out & Eo & Es). destruct (remove_even U HU _ _ _ _ _ _ Hev Eo) as [Hevo Hfo].
  destruct (rules_even U HU (sized o inp d) (rrules i) out HR Hevo) as (j & Ej & Hevj & Hfj). rewrite Ej in Es. injection Es as ->.
  destruct (trim_even U HU rest Hevj) as (rs & Ers & Hok). rewrite Ers in Etr. injection Etr as <-. cbn [i_lines] in E. rewrite (print_plain U) in E by exact Hx. cbn [i_final_newline] in E.
  injection E as <-. exists (i_final_newline rest), rs. split; [reflexivity|]. split.
  { rewrite Hfj, Hfo. cbn [inp i_final_newline]. unfold has_linebreak, ends_with_break. destruct (last raws []) as [|y ys] using rev_ind.
    - cbn. split; [discriminate|]. intros (r & c & F & _). destruct r; discriminate.
    - rewrite rev_app_distr. cbn [rev app]. rewrite orb_true_iff. unfold char_cr, char_newline. rewrite !N.eqb_eq. split.
      + intros H. exists ys, y. auto.
      + intros (r & c & F & H). apply app_inj_tail in F as [_ ->]. exact H. }
  intros Hst fuel color. rewrite (C40_remove_then_draw U fuel color eol o ds i d mode k rules rrules raws Hd Hp). rewrite Ei. cbn [bind]. change (i_lines inp) with (map (mk U) ss) at 1. rewrite En.
  rewrite Erest. cbn [bind]. rewrite Ers. cbn [bind i_lines i_final_newline]. unfold boxes_draw, handle_input.
  destruct rs as [|r rs].
  - cbn [terminated raw_lines]. reflexivity.
  - rewrite (read_pipe U HU) by (try assumption; discriminate). cbn [bind fst snd]. reflexivity.
Qed.
Print Assumptions C74_pipeline.
