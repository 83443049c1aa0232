(** * The generated box has the specified sides *)
From Coq Require Import List Arith NArith ZArith Bool Lia.
From Verif Require Import Base BaseFacts Model_Unicode Model_Bxs Model_Shape Model_Generate
  Spec_Str Spec_Design Spec_Box Proof_Str Proof_Bxs Proof_BxsOps Proof_Shows Proof_Precalc Proof_Sides.
Import ListNotations.

Lemma width_pos : forall s, isempty s = false -> 0 < s_width s.
Proof.
  intros s H. unfold isempty in H. rewrite !orb_false_iff in H. destruct H as [[_ H] _].
  apply Nat.eqb_neq in H. lia.
Qed.
Lemma height_pos : forall s, isempty s = false -> 0 < s_height s.
Proof.
  intros s H. unfold isempty in H. rewrite !orb_false_iff in H. destruct H as [_ H].
  apply Nat.eqb_neq in H. lia.
Qed.

Lemma maxl_const : forall (f : nat -> nat) (l : list nat) x m, In x l -> f x = m -> (forall y, In y l -> f y <= m) ->
  maxl (map f l) = m.
Proof.
  intros f l x m Hx Hm Hle.
  assert (H1 : m <= maxl (map f l)) by (rewrite <- Hm; apply maxl_ge; apply in_map; exact Hx).
  assert (H2 : maxl (map f l) <= m); [|lia]. clear Hx Hm H1.
  induction l as [|y l IH]; [cbn; lia|]. cbn [map]. rewrite maxl_cons.
  specialize (Hle y (or_introl eq_refl)) as H. assert (maxl (map f l) <= m) by (apply IH; intros z Hz; apply Hle; right; exact Hz).
  lia.
Qed.

Section Generate.
Variable U : uctab.
Hypothesis HU : uctab_ok U.
Variable d : design.
Hypothesis WF : wf_design U d.

Local Notation sarr := (d_shape d).

Lemma nth_side_lt : forall s i, nth i (side_of s) 0 < 16.
Proof.
  intros s i. destruct s; do 6 (destruct i as [|i]; [cbn; unfold NW,NNW,N_,NNE,NE,ENE,E_,ESE,SE,SSE,S_,SSW,SW,WSW,W_,WNW; lia|]);
    rewrite nth_overflow by (cbn; lia); lia.
Qed.

Lemma corner_ne : forall c, In c corners -> isempty (sarr c) = false.
Proof. apply (wf_corners _ _ WF). Qed.
Lemma shape_ok_at : forall s i, isempty (at_side sarr s i) = false -> shape_ok U (at_side sarr s i).
Proof. intros s i H. apply (wf_shapes _ _ WF); [apply nth_side_lt|exact H]. Qed.

Lemma usage_pos : forall side cn i, usage side cn -> In i [1;2;3] -> 0 < cn i -> isempty (side i) = false.
Proof. intros side cn i [Hu _] Hi Hc. specialize (Hu i Hi). destruct (isempty (side i)); [lia|reflexivity]. Qed.

Lemma used_ok_side : forall s cn, usage (at_side sarr s) cn -> used_ok U (at_side sarr s) cn.
Proof.
  intros s cn Hu i Hi Hc. pose proof (usage_pos _ _ _ Hu Hi Hc) as He.
  split; [apply shape_ok_at; exact He|]. split; [apply width_pos|apply height_pos]; exact He.
Qed.

(** equal heights and widths of the corners *)
Lemma h_NE : s_height (sarr NE) = s_height (sarr NW).
Proof. apply (wf_heights _ _ WF BTOP 4); auto. apply corner_ne. cbn; auto. Qed.
Lemma h_SW : s_height (sarr SW) = s_height (sarr SE).
Proof. apply (wf_heights _ _ WF BBOT 4); auto. apply corner_ne. cbn; auto. Qed.
Lemma w_SE : s_width (sarr SE) = s_width (sarr NE).
Proof. apply (wf_widths _ _ WF BRIG 4); auto. apply corner_ne. cbn; auto. Qed.
Lemma w_NW : s_width (sarr NW) = s_width (sarr SW).
Proof. apply (wf_widths _ _ WF BLEF 4); auto. apply corner_ne. cbn; auto. Qed.

Lemma mids_top : s_width (sarr NW) + s_width (sarr NE) + mids s_width (at_side sarr BTOP) <= d_minwidth d.
Proof.
  pose proof (wf_minwidth _ _ WF BTOP (or_introl eq_refl)) as H. cbn [side_of north_side map] in H.
  rewrite !sum_cons in H. cbn [sum fold_right] in H. unfold size in H at 1 5.
  rewrite (corner_ne NW), (corner_ne NE) in H by (cbn; auto).
  unfold mids, at_side. cbn [map side_of north_side nth]. rewrite !sum_cons. cbn [sum fold_right]. lia.
Qed.
Lemma mids_bottom : s_width (sarr NW) + s_width (sarr NE) + mids s_width (at_side sarr BBOT) <= d_minwidth d.
Proof.
  pose proof (wf_minwidth _ _ WF BBOT (or_intror eq_refl)) as H. cbn [side_of south_side map] in H.
  rewrite !sum_cons in H. cbn [sum fold_right] in H. unfold size in H at 1 5.
  rewrite (corner_ne SW), (corner_ne SE) in H by (cbn; auto). rewrite w_SE in H. rewrite w_NW.
  unfold mids, at_side. cbn [map side_of south_side nth]. rewrite !sum_cons. cbn [sum fold_right]. lia.
Qed.
Lemma mids_left : s_height (sarr SW) + s_height (sarr NW) + mids s_height (at_side sarr BLEF) <= d_minheight d.
Proof.
  pose proof (wf_minheight _ _ WF BLEF (or_introl eq_refl)) as H. cbn [side_of west_side map] in H.
  rewrite !sum_cons in H. cbn [sum fold_right] in H. unfold size in H at 1 5.
  rewrite (corner_ne NW), (corner_ne SW) in H by (cbn; auto).
  unfold mids, at_side. cbn [map side_of west_side nth]. rewrite !sum_cons. cbn [sum fold_right]. lia.
Qed.
Lemma mids_right : s_height (sarr SW) + s_height (sarr NW) + mids s_height (at_side sarr BRIG) <= d_minheight d.
Proof.
  pose proof (wf_minheight _ _ WF BRIG (or_intror eq_refl)) as H. cbn [side_of east_side map] in H.
  rewrite !sum_cons in H. cbn [sum fold_right] in H. unfold size in H at 1 5.
  rewrite (corner_ne NE), (corner_ne SE) in H by (cbn; auto). rewrite h_NE in H. rewrite h_SW.
  unfold mids, at_side. cbn [map side_of east_side nth]. rewrite !sum_cons. cbn [sum fold_right]. lia.
Qed.

Lemma highest_top : highest sarr [NW; NNW; N_; NNE; NE] = top_h d.
Proof.
  unfold highest. apply (maxl_const _ _ NW); [left; reflexivity|rewrite corner_ne by (cbn; auto); reflexivity|].
  intros y Hy. destruct (isempty (sarr y)) eqn:E; [lia|].
  assert (Hi : exists i, i < 5 /\ y = nth i (side_of BTOP) 0).
  { apply (In_nth (side_of BTOP) y 0) in Hy as (i & Hi & <-). exists i. auto. }
  destruct Hi as (i & Hi & ->). pose proof (wf_heights _ _ WF BTOP i (or_introl eq_refl) Hi E) as H.
  unfold at_side in H. rewrite H. unfold top_h. cbn. lia.
Qed.
Lemma highest_bottom : highest sarr [SW; SSW; S_; SSE; SE] = bottom_h d.
Proof.
  unfold highest. apply (maxl_const _ _ SW); [left; reflexivity|rewrite corner_ne by (cbn; auto); reflexivity|].
  intros y Hy. destruct (isempty (sarr y)) eqn:E; [lia|].
  assert (Hi : exists i, i < 5 /\ y = nth i (side_of BBOT) 0).
  { assert (Hy' : In y (side_of BBOT)) by (cbn in Hy |- *; tauto).
    apply (In_nth (side_of BBOT) y 0) in Hy' as (i & Hi & <-). exists i. auto. }
  destruct Hi as (i & Hi & ->). pose proof (wf_heights _ _ WF BBOT i (or_intror eq_refl) Hi E) as H.
  unfold at_side in H. rewrite H. unfold bottom_h. rewrite h_SW. cbn. lia.
Qed.

Lemma map_repeat' : forall (A B : Type) (f : A -> B) x n, map f (repeat x n) = repeat (f x) n.
Proof. intros A B f x n. induction n as [|n IH]; [reflexivity|]. cbn. rewrite IH. reflexivity. Qed.

Lemma vside_rows_length : forall (side : nat -> sentry) cn os,
  (forall i, In i os -> 0 < cn i -> length (s_mbcs (side i)) = s_height (side i)) ->
  length (vside_rows side os cn) = tot (fun i => s_height (side i)) cn os.
Proof.
  intros side cn os H. unfold vside_rows, tot. induction os as [|i os IH]; [reflexivity|].
  cbn [flat_map map]. rewrite app_length, sum_cons. rewrite IH by (intros; apply H; [right|]; assumption). f_equal.
  rewrite length_concat. rewrite map_repeat', sum_repeat, map_length.
  destruct (cn i) as [|n] eqn:E; [reflexivity|]. rewrite H; [reflexivity|left; reflexivity|lia].
Qed.

Lemma Forall_repeat : forall (A : Type) (P : A -> Prop) x n, P x -> Forall P (repeat x n).
Proof. intros A P x n H. induction n; cbn; constructor; auto. Qed.

Lemma Forall_concat' : forall (A : Type) (P : A -> Prop) l, Forall (Forall P) l -> Forall P (concat l).
Proof. intros A P l H. induction H; cbn; [constructor|]. apply Forall_app. auto. Qed.

Lemma vside_rows_shows : forall s cn os k, usage (at_side sarr s) cn -> (forall i, In i os -> In i [1;2;3]) ->
  (s = BLEF \/ s = BRIG) -> k = s_width (at_side sarr s 0) ->
  Forall (shows U k) (vside_rows (at_side sarr s) os cn).
Proof.
  intros s cn os k Hu Hos Hs ->. unfold vside_rows. rewrite flat_map_concat_map. apply Forall_concat'.
  apply Forall_forall. intros l Hl. apply in_map_iff in Hl as (i & <- & Hi). apply Forall_concat'.
  destruct (cn i) as [|n] eqn:En; [constructor|]. apply Forall_repeat.
  assert (He : isempty (at_side sarr s i) = false).
  { apply (usage_pos _ _ _ Hu); [apply Hos; exact Hi|lia]. }
  pose proof (shape_ok_at s i He) as [_ _ Hr].
  rewrite <- (wf_widths _ _ WF s i Hs); [|specialize (Hos i Hi); cbn in Hos; lia|exact He].
  apply Forall_map. eapply Forall_impl; [|exact Hr]. intros m [Hm _]. exact Hm.
Qed.

Lemma corner_rows_shows : forall c, In c corners -> Forall (shows U (s_width (sarr c))) (map memory (s_mbcs (sarr c))).
Proof.
  intros c Hc. pose proof (corner_ne c Hc) as He.
  assert (c < 16) by (destruct Hc as [<-|[<-|[<-|[<-|[]]]]]; unfold NW, NE, SE, SW; lia).
  destruct (wf_shapes _ _ WF c H He) as [_ _ Hr].
  apply Forall_map. eapply Forall_impl; [|exact Hr]. intros m [Hm _]. exact Hm.
Qed.
Lemma corner_rows_len : forall c, In c corners -> length (map memory (s_mbcs (sarr c))) = s_height (sarr c).
Proof.
  intros c Hc. pose proof (corner_ne c Hc) as He.
  assert (c < 16) by (destruct Hc as [<-|[<-|[<-|[<-|[]]]]]; unfold NW, NE, SE, SW; lia).
  destruct (wf_shapes _ _ WF c H He) as [Hl _ _]. rewrite map_length. exact Hl.
Qed.

Variable inp : input.

Definition stuck (fuel : nat) : Prop :=
  precalc s_width fuel sarr north_side south_side (i_maxline inp) (d_minwidth d) = Fuel \/
  precalc s_height fuel sarr west_side east_side (i_num_lines inp) (d_minheight d) = Fuel.

Lemma generate_box_full : forall fuel,
  (generate_box U fuel d inp = Fuel /\ stuck fuel) \/
  exists b cN cS cW cE w v, generate_box U fuel d inp = Ok b /\
    sides d b cN cS cW cE w v /\ framed U d b w v /\
    least (width_ok d inp) w /\ least (height_ok d inp) v.
Proof.
  intros fuel. unfold generate_box, horiz_generate, stuck.
  pose proof (precalc_spec s_width width_pos fuel sarr north_side south_side (i_maxline inp) (d_minwidth d)
     (wf_sides _ _ WF BTOP) (wf_sides _ _ WF BBOT) mids_top mids_bottom) as HP.
  cbv zeta in HP.
  destruct HP as [->|(cN & cS & w & -> & HuN & HuS & HtN & HtS & Hml & Hmw)]; [left; split; [reflexivity|left; reflexivity]|].
  rewrite highest_top, highest_bottom. cbn [bind].
  destruct (vert_assemble_spec U HU sarr north_side true cN w (top_h d)) as (rt & Et & Mt & St).
  { apply (used_ok_side BTOP). exact HuN. }
  { intros i Hi Hc. change (s_height (at_side sarr BTOP i) = top_h d). rewrite (wf_heights _ _ WF BTOP i); [reflexivity|auto|cbn in Hi; lia|].
    apply (usage_pos (at_side sarr BTOP) cN); assumption. }
  { intros i Hi Hc. apply (wf_ascii _ _ WF BTOP i); auto. apply (usage_pos (at_side sarr BTOP) cN); assumption. }
  { exact HtN. }
  destruct (vert_assemble_spec U HU sarr south_side false cS w (bottom_h d)) as (rb & Eb & Mb & Sb).
  { apply (used_ok_side BBOT). exact HuS. }
  { intros i Hi Hc. change (s_height (at_side sarr BBOT i) = bottom_h d). unfold bottom_h. rewrite h_SW. rewrite (wf_heights _ _ WF BBOT i); [reflexivity|auto|cbn in Hi; lia|].
    apply (usage_pos (at_side sarr BBOT) cS); assumption. }
  { intros i Hi Hc. apply (wf_ascii _ _ WF BBOT i); auto. apply (usage_pos (at_side sarr BBOT) cS); assumption. }
  { exact HtS. }
  rewrite Et. cbn [bind]. rewrite Eb. cbn [bind].
  unfold vert_generate.
  pose proof (precalc_spec s_height height_pos fuel sarr west_side east_side (i_num_lines inp) (d_minheight d)
     (wf_sides _ _ WF BLEF) (wf_sides _ _ WF BRIG) mids_left mids_right) as HP.
  cbv zeta in HP.
  destruct HP as [->|(cW & cE & v & -> & HuW & HuE & HtW & HtE & Hnl & Hmh)]; [left; split; [reflexivity|right; reflexivity]|].
  cbn [bind].
  destruct (horiz_assemble_spec U sarr west_side false cW v) as (rl & El & Ml).
  { apply (used_ok_side BLEF). exact HuW. }
  { apply (shape_ok_at BLEF 0). apply (corner_ne SW). cbn; auto. }
  { apply (shape_ok_at BLEF 4). apply (corner_ne NW). cbn; auto. }
  { exact HtW. }
  destruct (horiz_assemble_spec U sarr east_side true cE v) as (rr & Er & Mr).
  { apply (used_ok_side BRIG). exact HuE. }
  { apply (shape_ok_at BRIG 0). apply (corner_ne NE). cbn; auto. }
  { apply (shape_ok_at BRIG 4). apply (corner_ne SE). cbn; auto. }
  { exact HtE. }
  rewrite El. cbn [bind]. rewrite Er. cbn [bind fst snd].
  right. exists (mkBox (mkPart w (top_h d) rt) (mkPart (widest sarr [SE; ESE; E_; ENE; NE]) (v + s_height (sarr NE) + s_height (sarr SE)) rr)
                  (mkPart w (bottom_h d) rb) (mkPart (widest sarr [SW; WSW; W_; WNW; NW]) (v + s_height (sarr NW) + s_height (sarr SW)) rl)).
  exists cN, cS, cW, cE, w, v. split; [reflexivity|].
  assert (Hsd : sides d (mkBox (mkPart w (top_h d) rt) (mkPart (widest sarr [SE; ESE; E_; ENE; NE]) (v + s_height (sarr NE) + s_height (sarr SE)) rr)
                  (mkPart w (bottom_h d) rb) (mkPart (widest sarr [SW; WSW; W_; WNW; NW]) (v + s_height (sarr NW) + s_height (sarr SW)) rl))
            cN cS cW cE w v).
  { constructor; auto; cbn [b_left b_right b_top b_bottom p_width p_height p_mbcs texts].
    - unfold top_h, bottom_h. lia.
    - unfold top_h, bottom_h. rewrite h_NE, h_SW. lia. }
  split; [exact Hsd|]. split.
  - constructor.
    + rewrite (sd_top _ _ _ _ _ _ _ _ Hsd). split; [|rewrite map_length, seq_length; reflexivity].
      apply Forall_map. apply Forall_forall. intros ln Hln. apply in_seq in Hln. apply St. lia.
    + rewrite (sd_bottom _ _ _ _ _ _ _ _ Hsd). split; [|rewrite map_length, seq_length; reflexivity].
      apply Forall_map. apply Forall_forall. intros ln Hln. apply in_seq in Hln. apply Sb. lia.
    + rewrite (sd_left _ _ _ _ _ _ _ _ Hsd). split.
      * unfold left_w. apply Forall_app; split; [apply corner_rows_shows; cbn; auto|].
        apply Forall_app; split; [|rewrite w_NW; apply corner_rows_shows; cbn; auto].
        apply vside_rows_shows; auto; [cbn; intros; lia|exact w_NW].
      * rewrite !app_length, !corner_rows_len by (cbn; auto).
        rewrite vside_rows_length, tot_rev, (sd_totW _ _ _ _ _ _ _ _ Hsd). { unfold top_h, bottom_h. lia. }
        intros i Hi Hc. apply so_rows with (U := U). apply shape_ok_at. apply (usage_pos _ cW); auto. cbn in Hi |- *; lia.
    + rewrite (sd_right _ _ _ _ _ _ _ _ Hsd). split.
      * unfold right_w. apply Forall_app; split; [apply corner_rows_shows; cbn; auto|].
        apply Forall_app; split; [|rewrite <- w_SE; apply corner_rows_shows; cbn; auto].
        apply vside_rows_shows; auto.
      * rewrite !app_length, !corner_rows_len by (cbn; auto).
        rewrite vside_rows_length, (sd_totE _ _ _ _ _ _ _ _ Hsd). { unfold top_h, bottom_h. rewrite h_NE, h_SW. lia. }
        intros i Hi Hc. apply so_rows with (U := U). apply shape_ok_at. apply (usage_pos _ cE); auto.
  - unfold least, width_ok, height_ok, left_w, right_w, top_h, bottom_h.
    cbn [north_side south_side west_side east_side nth] in *.
    split; (split; [repeat split; try apply Hml; try apply Hnl; lia|]).
    + intros n (H1 & H2 & H3 & H4). apply Hmw. repeat split; auto. lia.
    + intros n (H1 & H2 & H3 & H4). apply Hmh. repeat split; auto. lia.
Qed.

Theorem generate_box_spec : forall fuel,
  generate_box U fuel d inp = Fuel \/
  exists b cN cS cW cE w v, generate_box U fuel d inp = Ok b /\
    sides d b cN cS cW cE w v /\ framed U d b w v /\
    least (width_ok d inp) w /\ least (height_ok d inp) v.
Proof. intros fuel. destruct (generate_box_full fuel) as [[H _]|H]; auto. Qed.

(** ** Termination *)
Lemma generate_ok_iff : (exists fuel b, generate_box U fuel d inp = Ok b) <->
  matchable s_width (at_side sarr BTOP) (at_side sarr BBOT) /\ matchable s_height (at_side sarr BLEF) (at_side sarr BRIG).
Proof.
  assert (Hw : s_width (sarr NW) + s_width (sarr NE) <= d_minwidth d) by (pose proof mids_top; lia).
  assert (Hh : s_height (sarr SW) + s_height (sarr NW) <= d_minheight d) by (pose proof mids_left; lia).
  pose proof (precalc_ok_iff s_width width_pos sarr north_side south_side (i_maxline inp) (d_minwidth d)
     (wf_sides _ _ WF BTOP) (wf_sides _ _ WF BBOT) Hw) as IW.
  pose proof (precalc_ok_iff s_height height_pos sarr west_side east_side (i_num_lines inp) (d_minheight d)
     (wf_sides _ _ WF BLEF) (wf_sides _ _ WF BRIG) Hh) as IH.
  cbv zeta in IW, IH.
  change (fun i => sarr (nth i north_side 0)) with (at_side sarr BTOP) in IW.
  change (fun i => sarr (nth i south_side 0)) with (at_side sarr BBOT) in IW.
  change (fun i => sarr (nth i west_side 0)) with (at_side sarr BLEF) in IH.
  change (fun i => sarr (nth i east_side 0)) with (at_side sarr BRIG) in IH.
  rewrite <- IW, <- IH. split.
  - intros (f & b & H). unfold generate_box, horiz_generate, vert_generate in H.
    apply bind_ok in H as (tb & Etb & H). apply bind_ok in H as (lr & Elr & H).
    apply bind_ok in Etb as (p & Ep & _). apply bind_ok in Elr as (q & Eq & _). eauto 6.
  - intros ((f1 & p & Ep) & (f2 & q & Eq)).
    destruct (generate_box_full (f1 + f2)) as [[_ [E|E]]|(b & _ & _ & _ & _ & _ & _ & E & _)]; [| |eauto].
    + rewrite (precalc_mono _ f1 (f1 + f2) _ _ _ _ _ _ ltac:(lia) Ep) in E. discriminate.
    + rewrite (precalc_mono _ f2 (f1 + f2) _ _ _ _ _ _ ltac:(lia) Eq) in E. discriminate.
Qed.
End Generate.
