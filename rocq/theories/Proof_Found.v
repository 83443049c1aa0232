(** * Drawn top and bottom borders are found *)
From Coq Require Import List Arith NArith ZArith Bool Lia.
From Verif Require Import Base BaseFacts Model_Unicode Model_Bxs Model_Shape Model_Generate Model_Detect Model_Remove
  Spec_Str Spec_Design Spec_Box Spec_Remove Proof_Str Proof_Bxs Proof_BxsOps Proof_BxsMore Proof_Shows Proof_Term Proof_Hmm Proof_Horiz
  Proof_Open Proof_Recog.
Import ListNotations.

Section Sides.
Variable U : uctab.
Hypothesis HU : uctab_ok U.
Variable d : design.
Hypothesis WF : wf_design U d.
Hypothesis HB : built U d.
Hypothesis HP : plain_design U d.

Lemma invisible_plain : forall s, invisible_len (plain s) = 0.
Proof. induction s as [|c s IH]; [reflexivity|exact IH]. Qed.

Lemma plain_mono : design_is_mono d = true.
Proof.
  unfold design_is_mono. apply forallb_forall. intros i Hi. apply in_seq in Hi. destruct (isempty (d_shape d i)) eqn:Ee; [reflexivity|]. cbn [orb].
  apply forallb_forall. intros m Hm. apply Nat.eqb_eq.
  assert (Hin : In m (s_mbcs (d_shape d i))) by (rewrite <- (firstn_skipn (s_height (d_shape d i)) (s_mbcs (d_shape d i))); apply in_or_app; left; exact Hm).
  pose proof (wf_shapes U d WF i ltac:(lia) Ee) as [_ _ Hrow]. rewrite Forall_forall in Hrow.
  destruct (row_tokens U HU _ m (Hrow m Hin) (HB i m ltac:(lia) Hin)) as (ts & Hc & Hr & _ & [->|(k & -> & ->)]); [|reflexivity].
  cbn [bx num_chars_invisible].
  assert (ts = plain (render ts)) as ->; [|apply invisible_plain].
  apply (reads_plain_inv U); [|split; [apply Hc|reflexivity]]. exact (pd_rows U d HP i _ ltac:(lia) Hin).
Qed.

(** lines without escape sequences *)
Lemma mono_input : forall inp, Forall (fun l => built_line U l /\ ~ In 27%N (memory (l_text l))) (i_lines inp) -> input_is_mono inp = true.
Proof.
  intros inp H. unfold input_is_mono. apply forallb_forall. intros l Hl. rewrite Forall_forall in H. destruct (H l Hl) as [(Hf & ts & w & Hrd & Hs & _) Hn].
  apply Nat.eqb_eq. apply (shows_closed U HU) in Hs as (ts' & Hc & Hr & _).
  assert (Et : ts' = plain (memory (l_text l))).
  { apply reading_unique; [apply Hc|apply (closed_plain _ Hn)|]. rewrite render_plain. exact Hr. }
  assert (El : l_text l = bx U ts').
  { rewrite <- Hr, (from_unicode_good U HU ts' (closedU_good U ts' Hc)) in Hf. congruence. }
  rewrite El, Et. cbn [bx num_chars_invisible]. apply invisible_plain.
Qed.

Variable inp : input.
Hypothesis Hmono : input_is_mono inp = true.

Lemma horiz_line_found : forall (top : bool) li si ct, match_horiz_with U d inp top li si literal = Ok true ->
  match_horiz_line U d inp top li si ct = Ok (true, literal).
Proof.
  intros top li si ct H. unfold match_horiz_line, comp_types. cbn [match_horiz_types comp_type_is_viable]. rewrite Hmono, plain_mono. cbn [Bool.eqb].
  rewrite H. reflexivity.
Qed.

Lemma match_any_found : forall (top : bool) li si r ct, match_horiz_with U d inp top li si literal = Ok true ->
  match_any U d inp top li (si :: r) ct = Ok (true, literal).
Proof. intros top li si r ct H. cbn [match_any]. rewrite (horiz_line_found top li si ct H). reflexivity. Qed.

Lemma order_fwd_head : forall h k, k < h -> exists r, order_fwd h (k mod h) = k :: r.
Proof.
  intros h k H. unfold order_fwd. destruct h as [|h]; [lia|]. cbn [seq map]. eexists. f_equal.
  rewrite Nat.add_0_r, Nat.mod_mod, Nat.mod_small by lia. reflexivity.
Qed.
Lemma order_bwd_head : forall h k, k < h -> exists r, order_bwd h k = k :: r.
Proof.
  intros h k H. unfold order_bwd. destruct h as [|h]; [lia|]. cbn [seq map]. eexists. f_equal.
  rewrite Nat.sub_0_r. replace (k + S h) with (k + 1 * S h) by lia. rewrite Nat.mod_add, Nat.mod_small by lia. reflexivity.
Qed.

(** the lines from [ts] on are those of the top border *)
Definition top_at (ts ind : nat) (cn : nat -> nat) : Prop := forall k, k < top_h d ->
  exists l, nth_error (i_lines inp) (ts + k) = Some l /\ built_line U l /\ printed U true (border_row d true ind cn k) (memory (l_text l)).
Definition bottom_at (bs ind : nat) (cn : nat -> nat) : Prop := forall k, k < bottom_h d ->
  exists l, nth_error (i_lines inp) (bs + k) = Some l /\ built_line U l /\ printed U true (border_row d false ind cn k) (memory (l_text l)).

Lemma top_height : s_height (d_shape d NE) = top_h d.
Proof. apply (wf_heights U d WF BTOP 4); [auto|lia|]. apply (wf_corners U d WF). cbn. auto. Qed.
Lemma bottom_height : s_height (d_shape d SE) = bottom_h d.
Proof. symmetry. apply (wf_heights U d WF BBOT 4); [auto|lia|]. apply (wf_corners U d WF). cbn. auto. Qed.

Theorem top_found : forall ts ind cn ct, usage (at_side (d_shape d) BTOP) cn -> top_at ts ind cn -> 0 < top_h d ->
  find_top_side U d inp ts ct = Ok (ts + top_h d, literal).
Proof.
  intros ts ind cn ct Hu Ht Hpos. unfold find_top_side. rewrite top_height.
  assert (G : forall n k ct, n + k = top_h d -> find_top U d inp n ts (top_h d) k ct = Ok (ts + top_h d, if n =? 0 then ct else literal)).
  { induction n as [|n IH]; intros k c Hk; cbn [find_top]; [replace k with (top_h d) by lia; reflexivity|].
    destruct (Ht k ltac:(lia)) as (l & Hn & Hb & Hp).
    assert (Hlt : ts + k < i_num_lines inp) by (apply nth_error_Some; unfold i_num_lines; congruence).
    apply Nat.ltb_lt in Hlt. rewrite Hlt.
    destruct (order_fwd_head (top_h d) k ltac:(lia)) as [r Er]. rewrite Er.
    rewrite (match_any_found true (ts + k) k r c).
    - cbn [bind fst snd]. rewrite IH by lia. destruct (n =? 0); reflexivity.
    - apply (border_recognised U HU d WF HB HP inp true (ts + k) k l ind cn); auto. unfold left_corner. fold (top_h d). lia. }
  rewrite G by lia. destruct (Nat.eqb_spec (top_h d) 0); [lia|reflexivity].
Qed.

Theorem bottom_found : forall bs ind cn ct, usage (at_side (d_shape d) BBOT) cn -> bottom_at bs ind cn -> 0 < bottom_h d ->
  find_bottom_side U d inp (bs + bottom_h d) ct = Ok (bs, literal).
Proof.
  intros bs ind cn ct Hu Ht Hpos. unfold find_bottom_side. rewrite bottom_height.
  assert (G : forall n k ct, n + k = bottom_h d -> find_bottom U d inp n (bs + bottom_h d) (bottom_h d) k ct = Ok (bs, if n =? 0 then ct else literal)).
  { induction n as [|n IH]; intros k c Hk; cbn [find_bottom]; [replace (bs + bottom_h d - k) with bs by lia; reflexivity|].
    destruct (Ht (bottom_h d - 1 - k) ltac:(lia)) as (l & Hn & Hb & Hp).
    destruct (Nat.ltb_spec k (bs + bottom_h d)) as [_|]; [|lia].
    destruct (order_bwd_head (bottom_h d) (bottom_h d - 1 - k) ltac:(lia)) as [r Er]. rewrite Er.
    replace (bs + bottom_h d - 1 - k) with (bs + (bottom_h d - 1 - k)) by lia.
    rewrite (match_any_found false (bs + (bottom_h d - 1 - k)) (bottom_h d - 1 - k) r c).
    - cbn [bind fst snd]. rewrite IH by lia. destruct (n =? 0); reflexivity.
    - apply (border_recognised U HU d WF HB HP inp false _ _ l ind cn); auto. unfold left_corner. fold (bottom_h d). lia. }
  rewrite G by lia. destruct (Nat.eqb_spec (bottom_h d) 0); [lia|reflexivity].
Qed.
End Sides.
