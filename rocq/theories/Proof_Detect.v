(** * Scoring a design never fails (designs without escape sequences, or with few blanks next to them) *)
From Coq Require Import List Arith NArith ZArith Bool Lia.
From Verif Require Import Base BaseFacts Model_Unicode Model_Bxs Model_Shape Model_Generate Model_Detect Model_Remove
  Spec_Str Spec_Design Spec_Box Spec_Remove Spec_Detect Proof_Str Proof_Bxs Proof_BxsOps Proof_BxsMore Proof_Shows Proof_Term Proof_Hmm Proof_Horiz
  Proof_Open Proof_Recog Proof_Found Proof_Body.
Import ListNotations.

Section Detect.
Variable U : uctab.
Hypothesis HU : uctab_ok U.
Lemma plain_narrow : forall q, plain_text U q -> narrow_lead U q.
Proof.
  intros q H. unfold narrow_lead. pose proof (lead_firstn_blank (is_blank U) q) as Hb. rewrite forallb_forall in Hb.
  apply Forall_forall. intros c Hc. specialize (Hb c Hc). unfold plain_text in H. rewrite Forall_forall in H.
  destruct (H c) as (_ & _ & _ & H4); [apply (In_firstn _ (lead (is_blank U) q)); exact Hc|]. rewrite (H4 Hb). apply char_cols_32.
Qed.
Lemma plain_calm : forall d, plain_design U d -> calm_design U d.
Proof.
  intros d HP i m Hi Hm. pose proof (pd_rows U d HP i m Hi Hm) as Hpt.
  assert (Hno : ~ In 27%N (memory m)) by (intros Hx; unfold plain_text in Hpt; rewrite Forall_forall in Hpt; destruct (Hpt _ Hx) as (Hpt1 & _); congruence).
  exists (plain (memory m)). split; [split; [apply (closed_plain _ Hno)|apply render_plain]|]. split; [|left; exact Hno].
  rewrite visible_plain. pose proof (plain_narrow _ Hpt) as Hn. unfold narrow_lead in Hn. unfold narrow_indent. eapply Forall_impl; [|exact Hn].
  intros c Hc. rewrite <- (char_cols_term U HU). exact Hc.
Qed.
Variable d : design.
Hypothesis WF : wf_design U d.
Hypothesis HB : built U d.
Hypothesis HP : calm_design U d.
Hypothesis HT : forall i, i < 16 -> isempty (d_shape d i) = true -> s_height (d_shape d i) = 0 /\ s_mbcs (d_shape d i) = [].
Variable inp : input.
Hypothesis HL : Forall (built_line U) (i_lines inp).

Lemma total_ok : forall f l, (forall k, In k l -> exists n, f k = Ok n) -> exists n, total f l = Ok n.
Proof.
  intros f l. induction l as [|k l IH]; intros H; [exists 0; reflexivity|]. cbn [total]. destruct (H k (or_introl eq_refl)) as (n & ->).
  destruct IH as (m & ->); [intros; apply H; right; assumption|]. cbn [bind]. eauto.
Qed.

(** rows of shapes *)
Definition vrow (m : bxstr) (ts : list tok) : Prop :=
  m = bx U ts /\ good U ts /\ narrow_lead U (visible ts) /\ forallb (is_blank U) (visible ts) = false /\
  (~ In 27%N (memory m) \/ (forall v c, visible ts = v ++ [c] -> is_blank U c = false) \/ begins_at_once U ts).

Lemma row_look : forall i j, i < 16 -> j < s_height (d_shape d i) ->
  exists m b, rd (s_mbcs (d_shape d i)) j = Ok m /\ bxs_is_blank U m = Ok b /\ (b = false -> exists q, vrow m q).
Proof.
  intros i j Hi Hj. destruct (isempty (d_shape d i)) eqn:Ee; [destruct (HT i Hi Ee); lia|].
  destruct (wf_shapes U d WF i Hi Ee) as [Hr _ Hrow].
  destruct (nth_error (s_mbcs (d_shape d i)) j) as [m|] eqn:Em; [|apply nth_error_None in Em; lia].
  assert (Hin : In m (s_mbcs (d_shape d i))) by (eapply nth_error_In; exact Em).
  rewrite Forall_forall in Hrow. destruct (row_tokens U HU _ m (Hrow m Hin) (HB i m Hi Hin)) as (ts & Hc & Hm & _ & Hcase).
  destruct (HP i m Hi Hin) as (ts' & Hrd & Hn & Hcalm).
  assert (ts' = ts) as -> by (apply reading_unique; [apply Hrd|apply Hc|rewrite Hm; apply Hrd]).
  unfold rd. rewrite Em. exists m. destruct Hcase as [Hcase|(k & Ek & Hcase)].
  - eexists. split; [reflexivity|]. split; [rewrite Hcase at 1; apply is_blank_bx|].
    intros Hb. exists ts. split; [exact Hcase|]. split; [apply (closedU_good U); exact Hc|]. split.
    { unfold narrow_lead. apply Forall_forall. intros c Hx. unfold narrow_indent in Hn. rewrite Forall_forall in Hn. rewrite (char_cols_term U HU). auto. }
    split; [|exact Hcalm].
    destruct (forallb (is_blank U) (visible ts)) eqn:Eb; [|reflexivity]. exfalso. apply orb_false_iff in Hb as [_ Hb].
    assert (forallb (fun c => N.eqb c char_tab || N.eqb c char_cr || uc_is_blank U c) (visible ts) = true); [|congruence].
    apply forallb_forall. intros c Hx. rewrite forallb_forall in Eb. specialize (Eb c Hx). unfold is_blank in Eb. apply orb_true_iff in Eb as [Eb|Eb]; rewrite Eb; rewrite ?orb_true_r; reflexivity.
  - exists true. split; [reflexivity|]. split; [|discriminate]. rewrite Hcase. unfold bxs_is_blank. cbn [ascii_row num_chars].
    destruct (Nat.eqb_spec k 0); [reflexivity|]. cbn [ascii_row num_chars_visible visible_char memory].
    assert (Hmap : mapM (fun i0 => p <- rd (seq 0 (S k)) i0 ;; rdc (repeat 32%N k) p) (seq 0 k) = Ok (repeat 32%N k)).
    { rewrite (mapM_pure _ _ _ (fun _ => 32%N)).
      - f_equal. generalize 0 at 1. clear. induction k as [|k IH]; intros a; [reflexivity|]. cbn [seq map repeat]. f_equal. apply IH.
      - intros a Ha. apply in_seq in Ha. rewrite (rd_lt _ _ _ 0) by (rewrite seq_length; lia). rewrite seq_nth by lia. cbn [bind Nat.add].
        rewrite rdc_lt by (rewrite repeat_length; lia). f_equal. rewrite (nth_indep _ 0%N 32%N) by (rewrite repeat_length; lia). apply nth_repeat. }
    match goal with |- context [mapM ?f ?l] => change (mapM f l) with (mapM (fun i0 => p <- rd (seq 0 (S k)) i0 ;; rdc (repeat 32%N k) p) (seq 0 k)) end.
    rewrite Hmap. cbn [bind]. f_equal. apply forallb_repeat. rewrite (ok_space U HU). rewrite orb_true_r. reflexivity.
Qed.

Lemma trail_zero : forall p (l : list N), (forall v c, l = v ++ [c] -> p c = false) -> trail p l = 0.
Proof.
  intros p l H. unfold trail. destruct (rev l) as [|c v] eqn:E; [reflexivity|]. cbn [lead]. rewrite (H (rev v) c); [reflexivity|].
  rewrite <- (rev_involutive l), E. reflexivity.
Qed.
Lemma prep_total : forall i j ct lt rt m q, i < 16 -> j < s_height (d_shape d i) -> rd (s_mbcs (d_shape d i)) j = Ok m -> vrow m q ->
  exists x, prepare_comp_shape (d_shape d i) j ct lt rt = Ok x.
Proof.
  intros i j ct lt rt m q Hi Hj Em (-> & Hg & Hn & Hb & Hcalm). unfold prepare_comp_shape. destruct (Nat.leb_spec (s_height (d_shape d i)) j); [lia|].
  rewrite Em. cbn [bind].
  assert (Hind : indent (bx U q) = lead (is_blank U) (visible q)) by (cbn [bx indent]; apply lead_cols_narrow; exact Hn).
  assert (Htr : trailing (bx U q) = trail (is_blank U) (visible q)) by (cbn [bx trailing]; unfold all_blank; rewrite Hb; reflexivity).
  assert (Hvis : num_chars_visible (bx U q) = length (visible q)) by reflexivity.
  rewrite Hind, Htr, Hvis. pose proof (lead_trail_le (is_blank U) (visible q) Hb) as Hlt.
  set (a := lead (is_blank U) (visible q)) in *. set (b := trail (is_blank U) (visible q)) in *.
  destruct (drops_shape ct && (0 <? num_chars_invisible (bx U q))).
  - rewrite (filter_visible_bx U q (proj1 Hg)). cbn [bind]. unfold at_off. destruct (Nat.ltb_spec (length (visible q)) (if lt then a else 0)); [destruct lt; lia|]. cbn [bind].
    destruct (rt && (0 <? b)); [|eauto]. rewrite subz_le by (destruct lt; lia). cbn [bind]. rewrite subz_le by (destruct lt; lia). cbn [bind].
    unfold cut_at. rewrite skipn_length. destruct (Nat.ltb_spec (length (visible q) - (if lt then a else 0)) (length (visible q) - (if lt then a else 0) - b)); [lia|]. eauto.
  - destruct (rd_first U q a) as (x & y & Exy & Erd & Hvx & _); [apply Hg|unfold a; apply lead_le|].
    assert (E : exists r, (if lt then bxs_unindent_ptr (bx U q) else Ok (memory (bx U q))) = Ok r /\ length r = length (render q) - (if lt then length (render x) else 0)).
    { destruct lt.
      - unfold bxs_unindent_ptr. rewrite Hind, Erd. cbn [bind]. change (memory (bx U q)) with (render q).
        destruct (Nat.ltb_spec (length (render q)) (length (render x))) as [F|_]; [rewrite Exy in F; pose proof (length_render_app_le x y); lia|].
        eexists. split; [reflexivity|]. apply skipn_length.
      - eexists. split; [reflexivity|]. change (memory (bx U q)) with (render q). lia. }
    destruct E as (r & -> & Hr). cbn [bind]. destruct (rt && (0 <? b)) eqn:Ert; [|eauto].
    rewrite subz_le by (destruct lt; lia). cbn [bind]. rewrite subz_le by (destruct lt; lia). cbn [bind].
    destruct (rd_first U q (length (visible q) - (if lt then a else 0) - b)) as (x' & y' & Exy' & Erd' & Hvx' & Hvy'); [apply Hg|lia|]. rewrite Erd'. cbn [bind].
    unfold cut_at. destruct (Nat.ltb_spec (length r) (length (render x'))) as [F|_]; [|eauto]. exfalso.
    pose proof (length_render_app_le x' y') as L'. rewrite <- Exy' in L'. destruct lt; [|lia].
    destruct Hcalm as [Hno|[Hend|Hbeg]].
    + assert (Et : q = plain (render q)).
      { apply reading_unique; [apply Hg|apply (closed_plain _ Hno)|]. rewrite render_plain. reflexivity. }
      assert (Lr : forall u w, q = u ++ w -> length (render u) = length (visible u)).
      { intros u w Eu. assert (P : u = plain (visible u)).
        { rewrite Et in Eu. unfold plain in Eu. clear -Eu. revert Eu. generalize (render q). induction u as [|t u IH]; intros l Eu; [reflexivity|].
          destruct l as [|c l]; [discriminate Eu|]. cbn in Eu. injection Eu as <- Eu. unfold plain. cbn. f_equal. exact (IH l Eu). }
        rewrite P at 1. rewrite render_plain. reflexivity. }
      rewrite (Lr x y Exy), Hvx, firstn_length_le in Hr by (unfold a; apply lead_le). rewrite (Lr x' y' Exy'), Hvx', firstn_length_le in F by lia.
      rewrite (Lr q []) in Hr by (rewrite app_nil_r; reflexivity). lia.
    + apply andb_true_iff in Ert as [_ Ert]. apply Nat.ltb_lt in Ert. unfold b in Ert. rewrite (trail_zero _ _ Hend) in Ert. lia.
    + destruct Hbeg as (c & rest & Hc & Hq).
      assert (Ea : a = 0 /\ rd (first_char (bx U q)) 0 = Ok 0).
      { destruct Hq as [->|(e & -> & Hoff)].
        - split; [unfold a; cbn [visible flat_map app lead]; rewrite Hc; reflexivity|reflexivity].
        - split; [unfold a; cbn [visible flat_map app lead]; rewrite Hc; reflexivity|]. unfold rd. cbn [bx first_char first_pos tok_chars].
          assert (Hok : tok_ok (Esc e)) by (destruct Hg as [[Hg _] _]; destruct Hg as [Hg _]; exact Hg).
          destruct (is_csi_reset e) eqn:Ecr; [apply (reset_switch_off e Hok) in Ecr; contradiction|]. reflexivity. }
      destruct Ea as [Ea Ez]. rewrite Ea in Erd. rewrite Ez in Erd. injection Erd as Erd. lia.
Qed.

(** input lines *)
Lemma line_bx : forall l, built_line U l -> exists ts, l_text l = bx U ts /\ good U ts /\ narrow_lead U (visible ts).
Proof.
  intros l (Hf & ts & w & Hrd & Hs & Hn). apply (shows_closed U HU) in Hs as (ts' & Hc & Hr & _).
  assert (ts' = ts) as -> by (apply reading_unique; [apply Hc|apply Hrd|rewrite Hr; symmetry; apply Hrd]).
  pose proof (closedU_good U ts Hc) as Hg. exists ts. split; [|split; [exact Hg|]].
  - rewrite <- Hr, (from_unicode_good U HU ts Hg) in Hf. congruence.
  - unfold narrow_lead. apply Forall_forall. intros c Hx. unfold narrow_indent in Hn. rewrite Forall_forall in Hn. rewrite (char_cols_term U HU). auto.
Qed.

Lemma comp_total : forall a ct lt, a < i_num_lines inp -> exists x, comp_input inp a lt ct = Ok x.
Proof.
  intros a ct lt Ha. unfold comp_input, i_num_lines in *. destruct (nth_error (i_lines inp) a) as [l|] eqn:En; [|apply nth_error_None in En; lia].
  assert (Hl : built_line U l) by (rewrite Forall_forall in HL; apply HL; eapply nth_error_In; exact En).
  destruct (line_bx l Hl) as (ts & -> & Hg & Hn).
  assert (Hind : indent (bx U ts) = lead (is_blank U) (visible ts)) by (cbn [bx indent]; apply lead_cols_narrow; exact Hn).
  pose proof (lead_le (is_blank U) (visible ts)) as Hle. rewrite Hind. destruct (drops_input ct).
  - rewrite (filter_visible_bx U ts (proj1 Hg)). cbn [bind]. unfold at_off. destruct (Nat.ltb_spec (length (visible ts)) (if lt then lead (is_blank U) (visible ts) else 0)); [destruct lt; lia|eauto].
  - destruct lt; [|eauto]. unfold bxs_unindent_ptr. rewrite Hind.
    destruct (rd_first U ts (lead (is_blank U) (visible ts))) as (x & y & E & -> & _); [apply Hg|exact Hle|]. cbn [bind].
    destruct (Nat.ltb_spec (length (memory (bx U ts))) (length (render x))) as [Hlt|_]; [|eauto]. cbn [bx memory] in Hlt. rewrite E in Hlt.
    pose proof (length_render_app_le x y). lia.
Qed.
Lemma right_total : forall a ct off, a < i_num_lines inp -> exists x, comp_input_right inp a ct off = Ok x.
Proof.
  intros a ct off Ha. destruct (comp_total a ct false Ha) as (c & Ec). unfold comp_input_right, i_num_lines in *.
  destruct (nth_error (i_lines inp) a) as [l|] eqn:En; [|apply nth_error_None in En; lia].
  assert (Hl : built_line U l) by (rewrite Forall_forall in HL; apply HL; eapply nth_error_In; exact En).
  destruct (Nat.eqb_spec off 0); [rewrite Ec; cbn [bind]; eauto|].
  destruct (line_bx l Hl) as (ts & -> & Hg & Hn). cbn [bx num_chars_visible trailing].
  set (t := if all_blank U (visible ts) then 0 else trail (is_blank U) (visible ts)).
  assert (Ht : t <= length (visible ts)) by (unfold t; pose proof (trail_le (is_blank U) (visible ts)); destruct (all_blank U (visible ts)); lia).
  rewrite subz_le by exact Ht. cbn [bind]. destruct (drops_input ct).
  - rewrite (filter_visible_bx U ts (proj1 Hg)). cbn [bind]. destruct (Nat.ltb_spec (length (visible ts) - t) off); [eauto|]. unfold at_off.
    destruct (Nat.ltb_spec (length (visible ts)) (length (visible ts) - t - off)); [lia|]. cbn [bind]. eauto.
  - destruct (rd_first U ts (length (visible ts) - t)) as (x & y & E & Er & _); [apply Hg|lia|]. rewrite Er. cbn [bind].
    destruct (Nat.ltb_spec (length (render x)) off); [eauto|]. unfold at_off. pose proof (length_render_app_le x y) as Hxy. rewrite <- E in Hxy. change (memory (bx U ts)) with (render ts).
    destruct (Nat.ltb_spec (length (render ts)) (length (render x) - off)); [lia|]. cbn [bind]. eauto.
Qed.

Lemma probe_in : forall h b a, In a (probe_lines inp h b) -> a < i_num_lines inp.
Proof.
  intros h b a H. unfold probe_lines in H. destruct b; [destruct (Nat.ltb_spec (i_num_lines inp) h); [destruct H|]|]; apply in_seq in H; lia.
Qed.
Lemma body_in : forall a, In a (body_lines d inp) -> a < i_num_lines inp.
Proof. intros a H. unfold body_lines in H. apply in_seq in H. lia. Qed.

Lemma per_line_ok : forall i f, i < 16 -> (forall j m q, j < s_height (d_shape d i) -> rd (s_mbcs (d_shape d i)) j = Ok m -> vrow m q -> exists n, f j = Ok n) ->
  exists n, per_line U (d_shape d i) f = Ok n.
Proof.
  intros i f Hi H. unfold per_line. apply total_ok. intros j Hj. apply in_seq in Hj. destruct (row_look i j Hi ltac:(lia)) as (m & b & Em & Eb & Hb).
  rewrite Em. cbn [bind]. rewrite Eb. cbn [bind]. destruct b; [eauto|]. destruct (Hb eq_refl) as (q & Hq). eapply H; [lia|exact Em|exact Hq].
Qed.

Lemma blankward_ok : forall c j left, In c [NNW; N_; NNE; SSE; S_; SSW] -> j < s_height (d_shape d c) -> exists b, is_blankward U d c j left = Ok b.
Proof.
  intros c j left Hc Hj. unfold is_blankward. destruct (Nat.leb_spec (s_height (d_shape d c)) j); [eauto|].
  assert (Ew : in_side west_side left c = false) by (cbn in Hc; destruct Hc as [<-|[<-|[<-|[<-|[<-|[<-|[]]]]]]]; destruct left; reflexivity).
  assert (Eea : in_side east_side (negb left) c = false) by (cbn in Hc; destruct Hc as [<-|[<-|[<-|[<-|[<-|[<-|[]]]]]]]; destruct left; reflexivity).
  rewrite Ew, Eea.
  assert (Hcase : exists (top : bool) k, In c (side_shapes top) /\ (match pos_in north_side c with Some k => Some (north_side, k)
     | None => match pos_in south_side_rev c with Some k => Some (south_side_rev, k) | None => None end end) = Some (side_shapes top, k)).
  { cbn in Hc; destruct Hc as [<-|[<-|[<-|[<-|[<-|[<-|[]]]]]]];
      [exists true, 1|exists true, 2|exists true, 3|exists false, 3|exists false, 2|exists false, 1]; (split; [cbv; auto 10|reflexivity]). }
  destruct Hcase as (top & k & Hin & ->).
  assert (Hlc : j < s_height (d_shape d (left_corner top))).
  { destruct (isempty (d_shape d c)) eqn:Ee; [destruct (HT c) as [Hz _]; [cbn in Hc; intuition (subst; cbv; lia)|exact Ee|lia]|].
    assert (G : forall b n, (b = BTOP \/ b = BBOT) -> n < 5 -> nth n (side_of b) 0 = c -> s_height (d_shape d c) = s_height (d_shape d (nth 0 (side_of b) 0))).
    { intros b n Hb Hn E. pose proof (wf_heights U d WF b n Hb Hn) as HH. unfold at_side in HH. rewrite E in HH. apply HH. exact Ee. }
    assert (G0 : forall b, (b = BTOP \/ b = BBOT) -> s_height (d_shape d (nth 4 (side_of b) 0)) = s_height (d_shape d (nth 0 (side_of b) 0))).
    { intros b Hb. pose proof (wf_heights U d WF b 4 Hb ltac:(lia)) as HH. unfold at_side in HH. apply HH.
      apply (wf_corners U d WF). destruct Hb as [->| ->]; cbv; auto. }
    destruct top; cbn in Hin.
    - change (left_corner true) with (nth 0 (side_of BTOP) 0). destruct Hin as [E|[E|[E|[E|[E|[]]]]]];
        [rewrite <- (G BTOP 0)|rewrite <- (G BTOP 1)|rewrite <- (G BTOP 2)|rewrite <- (G BTOP 3)|rewrite <- (G BTOP 4)]; auto; lia.
    - change (left_corner false) with (nth 4 (side_of BBOT) 0). rewrite (G0 BBOT) by auto. destruct Hin as [E|[E|[E|[E|[E|[]]]]]];
        [rewrite <- (G BBOT 4)|rewrite <- (G BBOT 3)|rewrite <- (G BBOT 2)|rewrite <- (G BBOT 1)|rewrite <- (G BBOT 0)]; auto; lia. }
  assert (Hall : forall is, (forall i, In i is -> In i (side_shapes top)) -> exists b, all_blank_at U d j is = Ok b).
  { induction is as [|i is IH]; intros Hs; [exists true; reflexivity|]. cbn [all_blank_at].
    destruct (side_heights U d top j i WF Hlc (Hs i (or_introl eq_refl))) as [Hi Hh].
    destruct (is_nil (s_mbcs (d_shape d i))) eqn:En; [apply IH; intros; apply Hs; right; assumption|].
    destruct (isempty (d_shape d i)) eqn:Ee; [destruct (HT i Hi Ee) as [_ Hz]; rewrite Hz in En; discriminate|].
    destruct (row_look i j Hi (Hh eq_refl)) as (m & b & -> & Eb & _). cbn [bind]. rewrite Eb. cbn [bind]. destruct b; [|eauto].
    apply IH. intros; apply Hs; right; assumption. }
  apply Hall. intros i Hi. destruct left; [apply (In_firstn _ k); exact Hi|]. rewrite <- (firstn_skipn (S k) (side_shapes top)). apply in_or_app. right. exact Hi.
Qed.

Theorem score_total : forall ct, exists n, match_design U d inp ct = Ok n.
Proof.
  intros ct. unfold match_design. apply total_ok. intros c Hc. apply in_seq in Hc. assert (Hc16 : c < 16) by lia.
  assert (W : exists n, find_west_corner U d inp ct c = Ok n).
  { unfold find_west_corner. destruct (_ || _); [eauto|]. apply per_line_ok; [exact Hc16|]. intros j m q Hj Em Hq.
    destruct (prep_total c j ct true false m q Hc16 Hj Em Hq) as (x & ->). cbn [must bind]. apply total_ok. intros a Ha.
    destruct (comp_total a ct true (probe_in _ _ _ Ha)) as (t & ->). cbn [must bind]. eauto. }
  assert (E : exists n, find_east_corner U d inp ct c = Ok n).
  { unfold find_east_corner. destruct (_ || _); [eauto|]. apply per_line_ok; [exact Hc16|]. intros j m q Hj Em Hq.
    destruct (prep_total c j ct false true m q Hc16 Hj Em Hq) as (x & ->). cbn [must bind]. apply total_ok. intros a Ha.
    destruct (right_total a ct (length x) (probe_in _ _ _ Ha)) as (t & ->). cbn [must bind]. eauto. }
  assert (H : In c [NNW; N_; NNE; SSE; S_; SSW] -> exists n, find_horizontal_shape U d inp ct c = Ok n).
  { intros Hin. unfold find_horizontal_shape. destruct (_ || _); [eauto|]. apply per_line_ok; [exact Hc16|]. intros j m q Hj Em Hq.
    destruct (blankward_ok c j true Hin Hj) as (bl & ->). destruct (blankward_ok c j false Hin Hj) as (br & ->). cbn [bind].
    destruct (prep_total c j ct bl br m q Hc16 Hj Em Hq) as (x & ->). cbn [must bind]. apply total_ok. intros a Ha.
    destruct (comp_total a ct true (probe_in _ _ _ Ha)) as (t & ->). cbn [must bind]. eauto. }
  assert (VE : exists n, find_vertical_east U d inp ct c = Ok n).
  { unfold find_vertical_east. destruct (_ || _); [eauto|]. apply per_line_ok; [exact Hc16|]. intros j m q Hj Em Hq.
    destruct (prep_total c j ct true true m q Hc16 Hj Em Hq) as (x & ->). cbn [must bind].
    assert (G : forall ks, (forall k, In k ks -> k < i_num_lines inp) -> exists n, east_hit inp ct x ks = Ok n).
    { induction ks as [|k ks IH]; intros Hk; [exists 0; reflexivity|]. cbn [east_hit].
      destruct (right_total k ct (length x) (Hk k (or_introl eq_refl))) as (t & ->). cbn [bind].
      destruct IH as (n & IH); [intros; apply Hk; right; assumption|]. rewrite IH. destruct t; [destruct (strncmp0 _ _ _)|]; eauto. }
    apply G. apply body_in. }
  assert (VW : exists n, find_vertical_west U d inp ct c = Ok n).
  { unfold find_vertical_west. destruct (isempty _); [eauto|]. apply total_ok. intros a Ha.
    destruct (comp_total a ct true (body_in _ Ha)) as (t & ->). cbn [must bind].
    assert (G : forall js, (forall j, In j js -> j < s_height (d_shape d c)) -> exists n, west_hit U (d_shape d c) ct t js = Ok n).
    { induction js as [|j js IH]; intros Hj; [exists 0; reflexivity|]. cbn [west_hit].
      destruct (row_look c j Hc16 (Hj j (or_introl eq_refl))) as (m & b & Em & Eb & Hb). rewrite Em. cbn [bind]. rewrite Eb. cbn [bind].
      destruct IH as (n & IH); [intros; apply Hj; right; assumption|]. rewrite IH. destruct b; [eauto|]. destruct (Hb eq_refl) as (q & Hq).
      destruct (prep_total c j ct true false m q Hc16 (Hj j (or_introl eq_refl)) Em Hq) as (x & ->). cbn [must bind]. destruct (strncmp0 _ _ _); eauto. }
    apply G. intros j Hj. apply in_seq in Hj. lia. }
  unfold shape_hits. destruct (_ || _); [exact W|]. destruct (_ || _); [exact E|].
  destruct (existsb (Nat.eqb c) [NNW; N_; NNE; SSE; S_; SSW]) eqn:Eh; [apply H|destruct (existsb (Nat.eqb c) [ENE; E_; ESE]); [exact VE|exact VW]].
  apply existsb_exists in Eh as (x & Hx & Ex). apply Nat.eqb_eq in Ex. subst x. exact Hx.
Qed.
End Detect.
