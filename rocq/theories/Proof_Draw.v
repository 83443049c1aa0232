(** * Size adjustment and the complete drawing *)
From Coq Require Import List Arith NArith ZArith Bool Lia.
From Verif Require Import Base BaseFacts Model_Unicode Model_Bxs Model_Shape Model_Generate
  Spec_Str Spec_Design Spec_Box Proof_Str Proof_Bxs Proof_BxsOps Proof_Shows Proof_Precalc Proof_Sides Proof_Generate Proof_Rows.
Import ListNotations.

Lemma reduce_pad_spec : forall n i p q, let r := reduce_pad n i p q in
  fst r + snd r = p + q - n /\ fst r <= p /\ snd r <= q.
Proof.
  induction n as [|n IH]; intros i p q; cbn [reduce_pad].
  - cbn. lia.
  - destruct (Nat.even i).
    + destruct p as [|p].
      * destruct q as [|q]; [cbn; lia|]. specialize (IH (S i) 0 q). cbn zeta in *. lia.
      * specialize (IH (S i) p q). cbn zeta in *. lia.
    + destruct q as [|q].
      * destruct p as [|p]; [cbn; lia|]. specialize (IH (S i) p 0). cbn zeta in *. lia.
      * specialize (IH (S i) p q). cbn zeta in *. lia.
Qed.

Lemma fit_pad_spec : forall p q sz corner m req, let '(p', q', m') := fit_pad p q sz corner m req in
  (p' + q' = 0 \/ p' + q' + sz + corner <= m') /\ m <= m' /\ p' <= p /\ q' <= q /\
  (req = 0 -> p' = p /\ q' = q) /\ (req <> 0 -> m' = m) /\
  (p + q + sz + corner <= m -> p' = p /\ q' = q /\ m' = m) /\
  (p' + q' < p + q -> p' + q' = 0 \/ p' + q' + sz + corner = m').
Proof.
  intros p q sz corner m req. unfold fit_pad.
  destruct (Nat.eqb_spec (p + q) 0) as [E|E]; [lia|].
  destruct (Nat.ltb_spec m (p + q + sz + corner)) as [H|H]; [|lia].
  destruct (Nat.eqb_spec req 0) as [E'|E']; cbn [negb]; [lia|].
  pose proof (reduce_pad_spec (p + q + sz + corner - m) 0 p q) as R. cbn zeta in R.
  destruct (reduce_pad _ _ _ _) as [p' q']. cbn [fst snd] in R. lia.
Qed.

Section Sized.
Variable U : uctab.
Variables (o : opts) (d : design) (inp : input).

Lemma sized_shape : d_shape (sized o inp d) = d_shape d.
Proof.
  unfold sized, adjust_size_and_padding.
  destruct (fit_pad _ _ _ _ _ _) as [[pt pb] mh]. destruct (fit_pad _ _ _ _ _ _) as [[pl pr] mw]. reflexivity.
Qed.
Lemma sized_indentmode : d_indentmode (sized o inp d) = d_indentmode d.
Proof.
  unfold sized, adjust_size_and_padding.
  destruct (fit_pad _ _ _ _ _ _) as [[pt pb] mh]. destruct (fit_pad _ _ _ _ _ _) as [[pl pr] mw]. reflexivity.
Qed.

Record adjusted (d2 : design) : Prop := {
  ad_padded : padded d2 inp;
  ad_mw : d_minwidth (apply_expected_size o d) <= d_minwidth d2;
  ad_mh : d_minheight (apply_expected_size o d) <= d_minheight d2;
  ad_mw_req : o_reqwidth o <> 0 -> d_minwidth d2 = d_minwidth (apply_expected_size o d);
  ad_mh_req : o_reqheight o <> 0 -> d_minheight d2 = d_minheight (apply_expected_size o d);
  ad_l : d_pad_left d2 <= over (o_pad_left o) (d_pad_left d);
  ad_r : d_pad_right d2 <= over (o_pad_right o) (d_pad_right d);
  ad_t : d_pad_top d2 <= over (o_pad_top o) (d_pad_top d);
  ad_b : d_pad_bottom d2 <= over (o_pad_bottom o) (d_pad_bottom d);
  ad_lr_free : o_reqwidth o = 0 ->
    d_pad_left d2 = over (o_pad_left o) (d_pad_left d) /\ d_pad_right d2 = over (o_pad_right o) (d_pad_right d);
  ad_tb_free : o_reqheight o = 0 ->
    d_pad_top d2 = over (o_pad_top o) (d_pad_top d) /\ d_pad_bottom d2 = over (o_pad_bottom o) (d_pad_bottom d);
  ad_lr_fits : over (o_pad_left o) (d_pad_left d) + over (o_pad_right o) (d_pad_right d) + i_maxline inp
                 + left_w d + right_w d <= d_minwidth (apply_expected_size o d) ->
    d_pad_left d2 = over (o_pad_left o) (d_pad_left d) /\ d_pad_right d2 = over (o_pad_right o) (d_pad_right d);
  ad_lr_min : d_pad_left d2 + d_pad_right d2 < over (o_pad_left o) (d_pad_left d) + over (o_pad_right o) (d_pad_right d) ->
    d_pad_left d2 + d_pad_right d2 = 0 \/
    d_pad_left d2 + d_pad_right d2 + i_maxline inp + left_w d + right_w d = d_minwidth (apply_expected_size o d);
  ad_tb_min : d_pad_top d2 + d_pad_bottom d2 < over (o_pad_top o) (d_pad_top d) + over (o_pad_bottom o) (d_pad_bottom d) ->
    d_pad_top d2 + d_pad_bottom d2 = 0 \/
    d_pad_top d2 + d_pad_bottom d2 + i_num_lines inp + top_h d + bottom_h d = d_minheight (apply_expected_size o d);
  ad_tb_fits : over (o_pad_top o) (d_pad_top d) + over (o_pad_bottom o) (d_pad_bottom d) + i_num_lines inp
                 + top_h d + bottom_h d <= d_minheight (apply_expected_size o d) ->
    d_pad_top d2 = over (o_pad_top o) (d_pad_top d) /\ d_pad_bottom d2 = over (o_pad_bottom o) (d_pad_bottom d)
}.

Lemma sized_adjusted : adjusted (sized o inp d).
Proof.
  unfold sized, adjust_size_and_padding. set (d1 := apply_expected_size o d).
  change (d_pad_top d1) with (d_pad_top d). change (d_pad_bottom d1) with (d_pad_bottom d).
  change (d_pad_left d1) with (d_pad_left d). change (d_pad_right d1) with (d_pad_right d).
  change (d_shape d1) with (d_shape d).
  pose proof (fit_pad_spec (over (o_pad_top o) (d_pad_top d)) (over (o_pad_bottom o) (d_pad_bottom d))
    (i_num_lines inp) (s_height (d_shape d NW) + s_height (d_shape d SW)) (d_minheight d1) (o_reqheight o)) as HV.
  pose proof (fit_pad_spec (over (o_pad_left o) (d_pad_left d)) (over (o_pad_right o) (d_pad_right d))
    (i_maxline inp) (s_width (d_shape d NW) + s_width (d_shape d NE)) (d_minwidth d1) (o_reqwidth o)) as HH.
  destruct (fit_pad _ _ (i_num_lines inp) _ _ _) as [[pt pb] mh]. destruct (fit_pad _ _ (i_maxline inp) _ _ _) as [[pl pr] mw].
  constructor; fold d1; clearbody d1; unfold padded, left_w, right_w, top_h, bottom_h;
    cbn [d_minwidth d_minheight d_pad_left d_pad_right d_pad_top d_pad_bottom d_shape] in *;
    try (intros; lia).
Qed.

Lemma expected_ge : d_minwidth d <= d_minwidth (apply_expected_size o d) /\
  d_minheight d <= d_minheight (apply_expected_size o d).
Proof.
  unfold apply_expected_size. cbn [d_minwidth d_minheight].
  destruct (Nat.ltb_spec (d_minheight d) (o_reqheight o)); destruct (Nat.ltb_spec (d_minwidth d) (o_reqwidth o));
    destruct (negb (o_reqwidth o =? 0)); destruct (negb (o_reqheight o =? 0)); lia.
Qed.

Lemma sized_wf : wf_design U d -> wf_design U (sized o inp d).
Proof.
  intros [C1 C2 C3 C4 C5 C6 C7 C8]. pose proof sized_adjusted as A. pose proof expected_ge as [E1 E2].
  pose proof (ad_mw _ A). pose proof (ad_mh _ A).
  constructor; rewrite sized_shape; auto.
  - intros s Hs. specialize (C7 s Hs). lia.
  - intros s Hs. specialize (C8 s Hs). lia.
Qed.

Lemma sized_input : wf_input U o d inp -> wf_input U o (sized o inp d) inp.
Proof.
  intros [W1 W2 W3 W4]. constructor; auto; try (unfold tab_free_indent in *; rewrite sized_indentmode; assumption).
Qed.
End Sized.

Section Draw.
Variable U : uctab.
Hypothesis HU : uctab_ok U.
Variables (o : opts) (d : design) (inp : input).
Hypothesis WF : wf_design U d.
Hypothesis WI : wf_input U o d inp.

Theorem draw_spec : forall fuel, (draw_rows U fuel o d inp = Fuel /\ generate_box U fuel (sized o inp d) inp = Fuel) \/
  exists b cN cS cW cE w v rows contents hpl hpr f1 f2,
    draw_rows U fuel o d inp = Ok rows /\
    generate_box U fuel (sized o inp d) inp = Ok b /\
    box_rows U o (sized o inp d) inp b = Ok rows /\
    sides (sized o inp d) b cN cS cW cE w v /\ framed U (sized o inp d) b w v /\
    least (width_ok (sized o inp d) inp) w /\ least (height_ok (sized o inp d) inp) v /\
    drawn U o (sized o inp d) inp b w v (map memory rows) contents hpl hpr f1 f2.
Proof.
  intros fuel. unfold draw_rows.
  pose proof (sized_wf U o d inp WF) as WF2. pose proof (sized_input U o d inp WI) as WI2.
  destruct (generate_box_spec U HU (sized o inp d) WF2 inp fuel) as
    [E|(b & cN & cS & cW & cE & w & v & E & SD & FR & LW & LH)]; [left; rewrite E; auto|].
  right. rewrite E. cbn [bind].
  destruct (box_rows_spec U HU o (sized o inp d) inp b cN cS cW cE w v WF2 WI2 SD FR) as
    (rows & contents & hpl & hpr & f1 & f2 & Er & D); try apply LW; try apply LH.
  { exact (ad_padded _ _ _ _ (sized_adjusted o d inp)). }
  exists b, cN, cS, cW, cE, w, v, rows, contents, hpl, hpr, f1, f2. rewrite Er. tauto.
Qed.

Theorem draw_ok_iff : (exists fuel rows, draw_rows U fuel o d inp = Ok rows) <->
  matchable s_width (at_side (d_shape d) BTOP) (at_side (d_shape d) BBOT) /\
  matchable s_height (at_side (d_shape d) BLEF) (at_side (d_shape d) BRIG).
Proof.
  rewrite <- (sized_shape o d inp). rewrite <- (generate_ok_iff U HU (sized o inp d) (sized_wf U o d inp WF) inp).
  split.
  - intros (f & rows & H). unfold draw_rows in H. apply bind_ok in H as (b & E & _). eauto.
  - intros (f & b & E). destruct (draw_spec f) as [[_ E']|(b' & cN & cS & cW & cE & w & v & rows & _ & _ & _ & _ & _ & H & _)]; [congruence|].
    eauto.
Qed.
End Draw.

(** ** The picture *)
Section Picture.
Variable U : uctab.
Hypothesis HU : uctab_ok U.

Definition slice {A : Type} (st n : nat) (l : list A) : list A := firstn n (skipn st l).

Lemma slice_S : forall (A : Type) (x : A) st n l, st < length l -> slice st (S n) l = nth st l x :: slice (S st) n l.
Proof.
  intros A x st n l. revert st. induction l as [|a l IH]; intros st H; [cbn in H; lia|].
  destruct st as [|st]; [reflexivity|]. unfold slice in *. cbn [skipn nth]. apply IH. cbn in H. lia.
Qed.

Lemma slice_len : forall (A : Type) st n (l : list A), st + n <= length l -> length (slice st n l) = n.
Proof. intros. unfold slice. rewrite firstn_length, skipn_length. lia. Qed.

Lemma zip_seq : forall ind n st L M R, st + n <= length L -> st + n <= length M -> st + n <= length R ->
  map (fun j => ind ++ nth j L [] ++ nth j M [] ++ nth j R []) (seq st n) = zip3 ind (slice st n L) (slice st n M) (slice st n R).
Proof.
  intros ind. induction n as [|n IH]; intros st L M R H1 H2 H3; [reflexivity|].
  rewrite (slice_S _ []), (slice_S _ []), (slice_S _ []) by lia. cbn [seq map].
  rewrite IH by lia. reflexivity.
Qed.

Lemma nth_nil : forall j, nth j (@nil (list N)) [] = [].
Proof. destruct j; reflexivity. Qed.

Lemma zip_seq0 : forall ind n st M R, st + n <= length M -> st + n <= length R ->
  map (fun j => ind ++ [] ++ nth j M [] ++ nth j R []) (seq st n) = zip3 ind (repeat [] n) (slice st n M) (slice st n R).
Proof.
  intros ind. induction n as [|n IH]; intros st M R H2 H3; [reflexivity|].
  rewrite (slice_S _ [] st n M), (slice_S _ [] st n R) by lia. cbn [seq map].
  rewrite IH by lia. reflexivity.
Qed.

(** dropping the first and last part of a list *)
Lemma slice_parts : forall (A : Type) (a b c : list A) (p q : bool),
  slice (if p then length a else 0)
        (length (a ++ b ++ c) - (if p then length a else 0) - (if q then length c else 0)) (a ++ b ++ c) =
  (if p then [] else a) ++ b ++ (if q then [] else c).
Proof.
  intros A a b c p q. unfold slice.
  assert (H : forall x : list A, firstn (length (x ++ c) - (if q then length c else 0)) (x ++ c) = x ++ (if q then [] else c)).
  { intros x. rewrite app_length. destruct q.
    - rewrite Nat.add_sub, firstn_app, Nat.sub_diag, firstn_all, firstn_O. reflexivity.
    - rewrite Nat.sub_0_r, <- app_length, firstn_all. reflexivity. }
  destruct p.
  - rewrite skipn_app, skipn_all, Nat.sub_diag. cbn [skipn app].
    replace (length (a ++ b ++ c) - length a) with (length (b ++ c)) by (rewrite !app_length; lia). apply H.
  - cbn [skipn]. rewrite Nat.sub_0_r. rewrite !app_assoc. apply H.
Qed.

Lemma drawn_picture : forall o d inp b cN cS cW cE w v rows contents hpl hpr f1 f2, wf_design U d ->
  sides d b cN cS cW cE w v -> framed U d b w v ->
  least (width_ok d inp) w -> least (height_ok d inp) v ->
  drawn U o d inp b w v rows contents hpl hpr f1 f2 ->
  picture U o d inp cN cS cW cE w v f1 f2 hpl hpr contents rows.
Proof.
  intros o d inp b cN cS cW cE w v rows contents hpl hpr f1 f2 WF SD FR LW LH D.
  destruct D as [Er Hc Hw Hh Hv Hha Hva].
  destruct (fr_top _ _ _ _ _ FR) as [_ Flt]. destruct (fr_bottom _ _ _ _ _ FR) as [_ Flb].
  destruct (fr_left _ _ _ _ _ FR) as [_ Fll]. destruct (fr_right _ _ _ _ _ FR) as [_ Flr].
  assert (Hlc : length contents = i_num_lines inp).
  { unfold i_num_lines. symmetry. eapply Forall2_len. exact Hc. }
  set (st := top_skip d) in *. set (n := top_h d + v + bottom_h d - st - bottom_skip d) in *.
  assert (Hst : st <= top_h d) by (unfold st, top_skip; destruct (empty_side (d_shape d) BTOP); lia).
  assert (Hen : bottom_skip d <= bottom_h d) by (unfold bottom_skip; destruct (empty_side (d_shape d) BBOT); lia).
  assert (Hn : st + n <= top_h d + v + bottom_h d) by (unfold n; lia).
  assert (Hlr : length rows = n) by (rewrite Er, map_length, seq_length; reflexivity).
  pose proof (corner_rows_len U d WF) as CL.
  assert (HNW : length (shape_rows (d_shape d NW)) = top_h d) by (apply CL; cbn; auto).
  assert (HSW : length (shape_rows (d_shape d SW)) = bottom_h d) by (apply CL; cbn; auto).
  assert (HNE : length (shape_rows (d_shape d NE)) = top_h d).
  { unfold top_h. rewrite <- (h_NE U d WF). apply CL; cbn; auto. }
  assert (HSE : length (shape_rows (d_shape d SE)) = bottom_h d).
  { unfold bottom_h. rewrite (h_SW U d WF). apply CL; cbn; auto. }
  assert (Hm : slice st n (middles b w f1 f2 contents) = mid_rows d cN cS w f1 f2 contents).
  { unfold middles, mid_rows. rewrite (sd_top _ _ _ _ _ _ _ _ SD), (sd_bottom _ _ _ _ _ _ _ _ SD).
    fold (top_rows d cN) (bottom_rows d cS).
    replace (top_rows d cN ++ repeat (spaces w) f1 ++ contents ++ repeat (spaces w) f2 ++ bottom_rows d cS)
      with (top_rows d cN ++ (repeat (spaces w) f1 ++ contents ++ repeat (spaces w) f2) ++ bottom_rows d cS)
      by (rewrite <- !app_assoc; reflexivity).
    assert (Lt : length (top_rows d cN) = top_h d) by (unfold top_rows; rewrite map_length, seq_length; reflexivity).
    assert (Lb : length (bottom_rows d cS) = bottom_h d) by (unfold bottom_rows; rewrite map_length, seq_length; reflexivity).
    pose proof (slice_parts _ (top_rows d cN) (repeat (spaces w) f1 ++ contents ++ repeat (spaces w) f2) (bottom_rows d cS)
      (blank_side d BTOP) (blank_side d BBOT)) as S.
    rewrite !app_length, !repeat_length, Lt, Lb, Hlc in S.
    unfold n, st, top_skip, bottom_skip. unfold blank_side in *.
    replace (top_h d + v + bottom_h d) with (top_h d + (f1 + (i_num_lines inp + f2) + bottom_h d)) by lia.
    rewrite S. unfold unless. rewrite <- !app_assoc. reflexivity. }
  assert (Lft : forall X Y Z : list (list N), length X = top_h d -> length Z = bottom_h d -> length (X ++ Y ++ Z) = top_h d + v + bottom_h d ->
    slice st n (X ++ Y ++ Z) = unless (blank_side d BTOP) X ++ Y ++ unless (blank_side d BBOT) Z).
  { intros X Y Z HX HZ HL. pose proof (slice_parts _ X Y Z (blank_side d BTOP) (blank_side d BBOT)) as S.
    rewrite HL, HX, HZ in S. exact S. }
  assert (Hl : slice st n (texts (b_left b)) = left_rows d cW).
  { rewrite (sd_left _ _ _ _ _ _ _ _ SD) in Fll |- *. apply Lft; auto. }
  assert (Hr : slice st n (texts (b_right b)) = right_rows d cE).
  { rewrite (sd_right _ _ _ _ _ _ _ _ SD) in Flr |- *. apply Lft; auto. }
  assert (Lm : length (middles b w f1 f2 contents) = top_h d + v + bottom_h d).
  { unfold middles. rewrite !app_length, !repeat_length. lia. }
  assert (Hrows : rows = zip3 (spaces (box_indent d inp))
     (if blank_side d BLEF then repeat [] (length rows) else left_rows d cW)
     (mid_rows d cN cS w f1 f2 contents) (right_rows d cE)).
  { rewrite Hlr. rewrite Er at 1. rewrite <- Hm, <- Hr, <- Hl. unfold full_row, blank_side.
    destruct (empty_side (d_shape d) BLEF).
    - rewrite zip_seq0 by lia. reflexivity.
    - rewrite zip_seq by lia. reflexivity. }
  destruct SD as [sN sS sW sE tN tS tW tE _ _ _ _ _ _ _ _ _ _].
  constructor; auto.
  - rewrite <- Hm, Hlr. apply slice_len. lia.
  - rewrite <- Hl, Hlr. apply slice_len. lia.
  - rewrite <- Hr, Hlr. apply slice_len. lia.
Qed.

Theorem draw_picture : forall o d inp fuel rows, wf_design U d -> wf_input U o d inp ->
  draw_rows U fuel o d inp = Ok rows ->
  exists cN cS cW cE w v f1 f2 hpl hpr contents,
    picture U o (sized o inp d) inp cN cS cW cE w v f1 f2 hpl hpr contents (map memory rows).
Proof.
  intros o d inp fuel rows WF WI H.
  destruct (draw_spec U HU o d inp WF WI fuel) as [[E _]|
    (b & cN & cS & cW & cE & w & v & rows' & contents & hpl & hpr & f1 & f2 & E & _ & _ & SD & FR & LW & LH & D)]; [congruence|].
  rewrite H in E. injection E as <-.
  exists cN, cS, cW, cE, w, v, f1, f2, hpl, hpr, contents.
  eapply drawn_picture; eauto. apply sized_wf. exact WF.
Qed.
End Picture.
