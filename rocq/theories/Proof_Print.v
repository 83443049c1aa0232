(** * Printing the rows of a box *)
From Coq Require Import List Arith NArith ZArith Bool Lia.
From Verif Require Import Base BaseFacts Model_Unicode Model_Bxs Model_Shape Model_Generate
  Spec_Str Spec_Design Spec_Box Proof_Str Proof_Bxs Proof_BxsOps Proof_BxsMore Proof_Shows Proof_Rows Proof_Draw.
Import ListNotations.

Lemma visible_no_esc : forall ts, toks_ok ts -> ~ In 27%N (visible ts).
Proof.
  induction ts as [|t ts IH]; intros H Hi; [destruct Hi|]. destruct H as (H1 & _ & H2).
  rewrite visible_cons in Hi. specialize (IH H2).
  destruct t; try exact (IH Hi). destruct Hi as [->|Hi]; [apply H1; reflexivity|exact (IH Hi)].
Qed.

Section Print.
Variable U : uctab.
Hypothesis HU : uctab_ok U.

Lemma out_loop_built : forall n o d inp b y j vf rows, out_loop U n o d inp b y j vf = Ok rows ->
  Forall (fun r => exists s, bxs_from_unicode U s = Ok r) rows.
Proof.
  induction n as [|n IH]; intros o d inp b y j vf rows H; cbn [out_loop] in H; [injection H as <-; constructor|].
  apply bind_ok in H as ([strs vf'] & _ & H). apply bind_ok in H as (ob & Hc & H).
  apply bind_ok in H as (l & Hl & H). injection H as <-. constructor; [|eapply IH; eauto].
  exists (concat strs). unfold bxs_concat in Hc. destruct (bxs_from_unicode U (concat strs)); cbn in Hc; congruence.
Qed.

Lemma print_rows_spec : forall color fin eol rows,
  Forall (fun r => exists s, bxs_from_unicode U s = Ok r) rows ->
  Forall (fun r => exists w, shows U w (memory r)) rows ->
  exists ps, print_rows U color fin eol rows = Ok (terminated eol fin ps) /\
    Forall2 (fun r p => printed U color (memory r) p) rows ps.
Proof.
  intros color fin eol rows HB HS. induction rows as [|r rest IH]; [exists []; split; [reflexivity|constructor]|].
  inversion HB as [|? ? (s & Hs) HB']. inversion HS as [|? ? (w & Hw) HS']. subst.
  destruct (IH HB' HS') as (ps & Hp & HF). clear IH.
  destruct (shows_bx U HU w _ Hw) as (ts & Hc & Hr & Hb & _).
  assert (Hm : r = bx U ts).
  { assert (memory r = s).
    { destruct (tokenize_exists s) as (t0 & Ht0 & E0). rewrite <- E0 in Hs |- *.
      destruct (from_unicode_inv U t0 r Ht0 Hs) as (_ & _ & Er). rewrite Er. reflexivity. }
    congruence. }
  destruct (rtrim_spec U HU ts (closedU_good _ _ Hc)) as (ka & kb & E & Ht & Hga & Hbl & Hnb).
  cbn [print_rows]. rewrite Hm, Ht. cbn [must bind].
  assert (Ho : bxs_to_output color (bx U ka) = Ok (if color then render ka else visible ka)).
  { unfold bxs_to_output. destruct color; [reflexivity|]. apply filter_visible_bx. apply Hga. }
  rewrite Ho, Hp. cbn [bind].
  exists ((if color then render ka else visible ka) :: ps). split.
  - destruct HF; cbn [terminated is_nil negb orb]; [rewrite orb_false_r, app_nil_r; reflexivity|].
    rewrite orb_true_r. reflexivity.
  - constructor; [|exact HF]. exists ka, kb. rewrite <- E. split; [|auto].
    split; [apply Hc|reflexivity].
Qed.

(** the rows of a picture and their printed form *)
Theorem draw_printed : forall fuel color eol o d inp rows, wf_design U d -> wf_input U o d inp ->
  draw_rows U fuel o d inp = Ok rows ->
  exists ps, draw U fuel color eol o d inp = Ok (terminated eol (i_final_newline inp) ps) /\
    Forall2 (fun r p => printed U color (memory r) p) rows ps.
Proof.
  intros fuel color eol o d inp rows WF WI H.
  destruct (draw_picture U HU o d inp fuel rows WF WI H) as (cN & cS & cW & cE & w & v & f1 & f2 & hpl & hpr & cs & P).
  assert (HB : Forall (fun r => exists s, bxs_from_unicode U s = Ok r) rows).
  { unfold draw_rows in H. apply bind_ok in H as (b & _ & H). unfold box_rows in H.
    apply bind_ok in H as (y & _ & H). apply bind_ok in H as (n & _ & H). eapply out_loop_built; eauto. }
  assert (HS : Forall (fun r => exists w, shows U w (memory r)) rows).
  { pose proof (pc_width _ _ _ _ _ _ _ _ _ _ _ _ _ _ _ _ P) as W. rewrite Forall_map in W.
    eapply Forall_impl; [|exact W]. intros r Hr. cbn beta in Hr. eexists. exact Hr. }
  destruct (print_rows_spec color (i_final_newline inp) eol rows HB HS) as (ps & Hp & HF).
  exists ps. split; [|exact HF]. unfold draw_rows in H. unfold draw, output_box.
  apply bind_ok in H as (b & -> & H). cbn [bind]. rewrite H. exact Hp.
Qed.
End Print.
