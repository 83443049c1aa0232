(** * Properties of drawn boxes: C01 - C13 *)
From Coq Require Import Ascii String List Arith NArith ZArith Bool Lia.
From Verif Require Import Base BaseFacts Model_Unicode Model_Bxs Model_Shape Model_Generate
  Spec_Str Spec_Design Spec_Box Proof_Str Proof_Bxs Proof_BxsOps Proof_BxsMore Proof_Shows Prop_Str Proof_Precalc Proof_Match
  Proof_Sides Proof_Generate Proof_Rows Proof_Draw Proof_Print Demo.
Import ListNotations.
Local Open Scope nat_scope.

(** ** Common example *)
Definition ex_inp : input := mkinp ["Hello"; ""; "wide world"]%string true.
Example ex_wf_design : wf_design demo_tab demo.
Proof. apply wf_designb_ok; [exact demo_tab_ok|vm_compute; reflexivity]. Qed.
Example ex_wf_rich : wf_design demo_tab demo_rich.
Proof. apply wf_designb_ok; [exact demo_tab_ok|vm_compute; reflexivity]. Qed.
Example ex_wf_cmt : wf_design demo_tab demo_cmt.
Proof. apply wf_designb_ok; [exact demo_tab_ok|vm_compute; reflexivity]. Qed.
Example ex_wf_input : forall d, wf_input demo_tab opts0 d ex_inp.
Proof. intros d. apply mkinp_wf; [discriminate|vm_compute; reflexivity..|reflexivity|reflexivity]. Qed.
Definition lines_of (r : res (list bxstr)) : list string :=
  match r with Ok l => map (fun b => str (memory b)) l | _ => [] end.
Example ex_rich_picture : lines_of (draw_rows demo_tab 50 opts0 demo_rich ex_inp) =
  ["/*======<>+++++*\";
   " *------><.....* ";
   "||             * ";
   "*  Hello       *|";
   "*               *";
   "*  wide world   *";
   "\*~~~~~~~~~~~~o*/"]%string.
Proof. vm_compute. reflexivity. Qed.

(** ** C01 *)
Theorem C01_rectangular : forall U o d inp fuel rows, uctab_ok U -> wf_design U d -> wf_input U o d inp ->
  draw_rows U fuel o d inp = Ok rows ->
  exists w, i_maxline inp <= w /\
    Forall (fun r => shows U (box_indent d inp + (if blank_side d BLEF then 0 else left_w d) + w + right_w d) (memory r)) rows.
Proof.
  intros U o d inp fuel rows HU WF WI H.
  destruct (draw_picture U HU o d inp fuel rows WF WI H) as (cN & cS & cW & cE & w & v & f1 & f2 & hpl & hpr & cs & P).
  exists w. split; [pose proof (pc_h _ _ _ _ _ _ _ _ _ _ _ _ _ _ _ _ P); lia|].
  pose proof (pc_width _ _ _ _ _ _ _ _ _ _ _ _ _ _ _ _ P) as W. rewrite Forall_map in W.
  eapply Forall_impl; [|exact W]. intros r Hr. cbn beta in Hr.
  unfold row_width, box_indent, left_w, right_w in *. rewrite sized_shape, sized_indentmode in Hr. exact Hr.
Qed.
Print Assumptions C01_rectangular.

(** ** C02 *)
(** the middle part [m] carries the input line [l] *)
Definition carries (U : uctab) (l : line) (m : list N) : Prop :=
  exists a txt b k ts tx, m = spaces a ++ txt ++ spaces b /\ reads (memory (l_text l)) ts /\ reads txt tx /\
    visible tx = skipn k (visible ts) /\ k <= lead (is_blank U) (visible ts).
(** [m] is blank or a line of a border *)
Definition no_text (w : nat) (border : list (list N)) (m : list N) : Prop := m = spaces w \/ In m border.

Theorem C02_text_survives : forall U o d inp fuel rows, uctab_ok U -> wf_design U d -> wf_input U o d inp ->
  draw_rows U fuel o d inp = Ok rows ->
  exists lefts above contents below rights w cN cS,
    map memory rows = zip3 (spaces (box_indent d inp)) lefts (above ++ contents ++ below) rights /\
    length lefts = length rows /\ length (above ++ contents ++ below) = length rows /\ length rights = length rows /\
    Forall2 (carries U) (i_lines inp) contents /\
    Forall (no_text w (top_rows d cN)) above /\ Forall (no_text w (bottom_rows d cS)) below.
Proof.
  intros U o d inp fuel rows HU WF WI H.
  destruct (draw_picture U HU o d inp fuel rows WF WI H) as (cN & cS & cW & cE & w & v & f1 & f2 & hpl & hpr & cs & P).
  pose proof (pc_rows _ _ _ _ _ _ _ _ _ _ _ _ _ _ _ _ P) as Er.
  pose proof (pc_len_m _ _ _ _ _ _ _ _ _ _ _ _ _ _ _ _ P) as Em.
  pose proof (pc_len_l _ _ _ _ _ _ _ _ _ _ _ _ _ _ _ _ P) as El.
  pose proof (pc_len_r _ _ _ _ _ _ _ _ _ _ _ _ _ _ _ _ P) as Err.
  pose proof (pc_contents _ _ _ _ _ _ _ _ _ _ _ _ _ _ _ _ P) as Hc.
  set (d2 := sized o inp d) in *.
  exists (if blank_side d2 BLEF then repeat [] (length (map memory rows)) else left_rows d2 cW),
    (unless (blank_side d2 BTOP) (top_rows d2 cN) ++ repeat (spaces w) f1), cs,
    (repeat (spaces w) f2 ++ unless (blank_side d2 BBOT) (bottom_rows d2 cS)), (right_rows d2 cE), w, cN, cS.
  rewrite map_length in *. unfold mid_rows in Er, Em. rewrite <- !app_assoc in *.
  assert (Ei : box_indent d inp = box_indent d2 inp).
  { unfold box_indent, d2. rewrite sized_indentmode. reflexivity. }
  rewrite Ei. split; [exact Er|]. split.
  { destruct (blank_side d2 BLEF); [apply repeat_length|exact El]. }
  split; [exact Em|]. split; [exact Err|]. split.
  - clear - Hc. induction Hc as [|l c ls cs (sl & k & sr & (t & ts & tx & cc & -> & R1 & R2 & V & K & _) & _) _ IH]; constructor; auto.
    exists sl, t, sr, k, ts, tx. auto.
  - assert (Ht : top_rows d cN = top_rows d2 cN) by (unfold top_rows, top_h, d2; rewrite sized_shape; reflexivity).
    assert (Hb : bottom_rows d cS = bottom_rows d2 cS) by (unfold bottom_rows, bottom_h, d2; rewrite sized_shape; reflexivity).
    rewrite Ht, Hb. split; apply Forall_app; split.
    + unfold unless. destruct (blank_side d2 BTOP); [constructor|]. apply Forall_forall. intros x Hx. right. exact Hx.
    + apply Forall_repeat. left. reflexivity.
    + apply Forall_repeat. left. reflexivity.
    + unfold unless. destruct (blank_side d2 BBOT); [constructor|]. apply Forall_forall. intros x Hx. right. exact Hx.
Qed.
Print Assumptions C02_text_survives.

(** without justification every line is there verbatim, and all lines start in the same column *)
Theorem C02_verbatim : forall U o d inp fuel rows, uctab_ok U -> wf_design U d -> wf_input U o d inp ->
  o_justify o = 0%N -> draw_rows U fuel o d inp = Ok rows ->
  exists lefts above contents below rights hpl,
    map memory rows = zip3 (spaces (box_indent d inp)) lefts (above ++ contents ++ below) rights /\
    length lefts = length rows /\ length (above ++ contents ++ below) = length rows /\ length rights = length rows /\
    Forall2 (fun l m => exists txt r, m = spaces hpl ++ txt ++ spaces r /\
       (txt = memory (l_text l) \/ txt = [] /\ forall ts, reads (memory (l_text l)) ts -> visible ts = []))
      (i_lines inp) contents.
Proof.
  intros U o d inp fuel rows HU WF WI HJ H.
  destruct (draw_picture U HU o d inp fuel rows WF WI H) as (cN & cS & cW & cE & w & v & f1 & f2 & hpl & hpr & cs & P).
  pose proof (pc_rows _ _ _ _ _ _ _ _ _ _ _ _ _ _ _ _ P) as Er.
  pose proof (pc_len_m _ _ _ _ _ _ _ _ _ _ _ _ _ _ _ _ P) as Em.
  pose proof (pc_len_l _ _ _ _ _ _ _ _ _ _ _ _ _ _ _ _ P) as El.
  pose proof (pc_len_r _ _ _ _ _ _ _ _ _ _ _ _ _ _ _ _ P) as Err.
  pose proof (pc_contents _ _ _ _ _ _ _ _ _ _ _ _ _ _ _ _ P) as Hc.
  set (d2 := sized o inp d) in *.
  exists (if blank_side d2 BLEF then repeat [] (length (map memory rows)) else left_rows d2 cW),
    (unless (blank_side d2 BTOP) (top_rows d2 cN) ++ repeat (spaces w) f1), cs,
    (repeat (spaces w) f2 ++ unless (blank_side d2 BBOT) (bottom_rows d2 cS)), (right_rows d2 cE), hpl.
  rewrite map_length in *. unfold mid_rows in Er, Em. rewrite <- !app_assoc in *.
  assert (Ei : box_indent d inp = box_indent d2 inp).
  { unfold box_indent, d2. rewrite sized_indentmode. reflexivity. }
  rewrite Ei. split; [exact Er|]. split.
  { destruct (blank_side d2 BLEF); [apply repeat_length|exact El]. }
  split; [exact Em|]. split; [exact Err|].
  clear - Hc HJ. induction Hc as [|l c ls cs (sl & k & sr & (t & ts & tx & cc & -> & R1 & R2 & V & K & KV & _) & _ & J) _ IH]; constructor; auto.
  destruct (J ts R1) as [J1 _]. destruct (J1 (or_intror HJ)) as [-> ->].
  exists t, sr. split; [reflexivity|]. destruct (KV eq_refl) as [->|[Hv ->]]; [left; reflexivity|right].
  split; [reflexivity|]. intros ts' R'. destruct (reading_total_unique (memory (l_text l))) as (t0 & _ & Hu).
  rewrite <- (Hu ts' R'), (Hu ts R1). exact Hv.
Qed.
Print Assumptions C02_verbatim.

(** ** C03 *)
Theorem C03_row_count : forall U o d inp fuel rows, uctab_ok U -> wf_design U d -> wf_input U o d inp ->
  draw_rows U fuel o d inp = Ok rows ->
  exists f1 f2 cW cE,
    length rows = (if blank_side d BTOP then 0 else top_h d) + f1 + i_num_lines inp + f2
                  + (if blank_side d BBOT then 0 else bottom_h d) /\
    (* the height both vertical sides were computed for *)
    f1 + i_num_lines inp + f2 = tot (fun i => s_height (at_side (d_shape d) BLEF i)) cW [1;2;3] /\
    f1 + i_num_lines inp + f2 = tot (fun i => s_height (at_side (d_shape d) BRIG i)) cE [1;2;3] /\
    length (left_rows d cW) = length rows /\ length (right_rows d cE) = length rows.
Proof.
  intros U o d inp fuel rows HU WF WI H.
  destruct (draw_picture U HU o d inp fuel rows WF WI H) as (cN & cS & cW & cE & w & v & f1 & f2 & hpl & hpr & cs & P).
  pose proof (pc_len_m _ _ _ _ _ _ _ _ _ _ _ _ _ _ _ _ P) as Em.
  pose proof (pc_len_l _ _ _ _ _ _ _ _ _ _ _ _ _ _ _ _ P) as El.
  pose proof (pc_len_r _ _ _ _ _ _ _ _ _ _ _ _ _ _ _ _ P) as Err.
  pose proof (pc_contents _ _ _ _ _ _ _ _ _ _ _ _ _ _ _ _ P) as Hc. apply Forall2_len in Hc.
  pose proof (pc_totW _ _ _ _ _ _ _ _ _ _ _ _ _ _ _ _ P) as TW.
  pose proof (pc_totE _ _ _ _ _ _ _ _ _ _ _ _ _ _ _ _ P) as TE.
  pose proof (pc_f _ _ _ _ _ _ _ _ _ _ _ _ _ _ _ _ P) as Hf.
  exists f1, f2, cW, cE.
  unfold left_rows, right_rows, mid_rows, top_rows, bottom_rows, blank_side, top_h, bottom_h in *. rewrite sized_shape, map_length in *.
  split; [|split; [lia|split; [lia|split; assumption]]].
  rewrite <- Em, !app_length, !repeat_length. unfold i_num_lines. rewrite Hc.
  destruct (empty_side (d_shape d) BTOP), (empty_side (d_shape d) BBOT); cbn [unless length]; rewrite ?map_length, ?seq_length; lia.
Qed.
Print Assumptions C03_row_count.
Example C03_example : length (lines_of (draw_rows demo_tab 50 opts0 demo_cmt ex_inp)) = 3 /\
  blank_side demo_cmt BTOP = true /\ top_h demo_cmt = 1.
Proof. vm_compute. auto. Qed.

(** ** C04 *)
(** Opposite sides are equally long, and this is the least length that both sides can have, that holds the
    text and that makes the box as large as required (the minimum after taking size and padding options
    into account). *)
Theorem C04_sides_agree : forall U o d inp fuel rows, uctab_ok U -> wf_design U d -> wf_input U o d inp ->
  draw_rows U fuel o d inp = Ok rows ->
  exists cN cS cW cE w v,
    tot (fun i => s_width (at_side (d_shape d) BTOP i)) cN [1;2;3] = w /\
    tot (fun i => s_width (at_side (d_shape d) BBOT i)) cS [1;2;3] = w /\
    tot (fun i => s_height (at_side (d_shape d) BLEF i)) cW [1;2;3] = v /\
    tot (fun i => s_height (at_side (d_shape d) BRIG i)) cE [1;2;3] = v /\
    i_maxline inp <= w /\ d_minwidth d <= left_w d + w + right_w d /\
    i_num_lines inp <= v /\ d_minheight d <= top_h d + v + bottom_h d /\
    least (width_ok (sized o inp d) inp) w /\ least (height_ok (sized o inp d) inp) v.
Proof.
  intros U o d inp fuel rows HU WF WI H.
  destruct (draw_picture U HU o d inp fuel rows WF WI H) as (cN & cS & cW & cE & w & v & f1 & f2 & hpl & hpr & cs & P).
  destruct P as [_ _ _ _ _ _ _ _ _ _ TN TS TW TE LW LH _ _ _ _].
  rewrite sized_shape in TN, TS, TW, TE.
  exists cN, cS, cW, cE, w, v. do 4 (split; [assumption|]).
  pose proof (sized_adjusted o d inp) as A. pose proof (ad_mw _ _ _ _ A). pose proof (ad_mh _ _ _ _ A).
  pose proof (expected_ge o d) as [E1 E2].
  destruct LW as [(W1 & W2 & W3 & W4) LW]. destruct LH as [(V1 & V2 & V3 & V4) LH].
  assert (Es : left_w (sized o inp d) = left_w d /\ right_w (sized o inp d) = right_w d /\
               top_h (sized o inp d) = top_h d /\ bottom_h (sized o inp d) = bottom_h d)
    by (unfold left_w, right_w, top_h, bottom_h; rewrite sized_shape; auto).
  destruct Es as (Es1 & Es2 & Es3 & Es4).
  split; [exact W3|]. split; [lia|]. split; [exact V3|]. split; [lia|].
  split; split; unfold width_ok, height_ok; auto.
Qed.
Print Assumptions C04_sides_agree.

(** ** C05 *)
(** Every row of the picture consists of the rows of the shapes, each defined shape being used once, or at
    least once if elastic; undefined ones never. *)
Theorem C05_shape_usage : forall U o d inp fuel rows, uctab_ok U -> wf_design U d -> wf_input U o d inp ->
  draw_rows U fuel o d inp = Ok rows ->
  exists cN cS cW cE w f1 f2 contents,
    usage (at_side (d_shape d) BTOP) cN /\ usage (at_side (d_shape d) BBOT) cS /\
    usage (at_side (d_shape d) BLEF) cW /\ usage (at_side (d_shape d) BRIG) cE /\
    map memory rows = zip3 (spaces (box_indent d inp))
      (if blank_side d BLEF then repeat [] (length rows) else left_rows d cW)
      (mid_rows d cN cS w f1 f2 contents) (right_rows d cE) /\
    length (left_rows d cW) = length rows /\ length (right_rows d cE) = length rows /\
    length (mid_rows d cN cS w f1 f2 contents) = length rows /\ length contents = i_num_lines inp.
Proof.
  intros U o d inp fuel rows HU WF WI H.
  destruct (draw_picture U HU o d inp fuel rows WF WI H) as (cN & cS & cW & cE & w & v & f1 & f2 & hpl & hpr & cs & P).
  destruct P as [P1 P2 P3 P4 P5 _ UN US UW UE _ _ _ _ _ _ _ _ _ _].
  exists cN, cS, cW, cE, w, f1, f2, cs.
  unfold left_rows, right_rows, mid_rows, top_rows, bottom_rows, blank_side, top_h, bottom_h, box_indent in *.
  rewrite sized_shape in *. rewrite sized_indentmode, map_length in *. apply Forall2_len in P5. unfold i_num_lines.
  repeat (split; [first [assumption|lia]|]). lia.
Qed.
Print Assumptions C05_shape_usage.

(** ** C06 *)
Theorem C06_terminates_iff : forall U o d inp, uctab_ok U -> wf_design U d -> wf_input U o d inp ->
  (exists fuel rows, draw_rows U fuel o d inp = Ok rows) <->
  matchable s_width (at_side (d_shape d) BTOP) (at_side (d_shape d) BBOT) /\
  matchable s_height (at_side (d_shape d) BLEF) (at_side (d_shape d) BRIG).
Proof. intros U o d inp HU WF WI. exact (draw_ok_iff U HU o d inp WF WI). Qed.
Print Assumptions C06_terminates_iff.

(** With one elastic shape per side: the lengths of the rigid shapes must be congruent modulo the greatest
    common divisor of the lengths of the elastic shapes. *)
Lemma one_elastic : forall side e, In e [1;2;3] -> s_elastic (side e) = true ->
  (forall j, In j [1;2;3] -> j <> e -> s_elastic (side j) = false) ->
  forall dim, period dim side = dim (side e) /\ offsets dim side = [rigid_len dim side].
Proof.
  intros side e He Hel Hoth dim. unfold period, offsets. cbn [map]. rewrite !sum_cons. cbn [sum fold_right].
  destruct He as [<-|[<-|[<-|[]]]].
  - rewrite Hel, (Hoth 2), (Hoth 3) by (cbn; auto). split; [lia|reflexivity].
  - rewrite Hel, (Hoth 1), (Hoth 3) by (cbn; auto). split; [lia|reflexivity].
  - rewrite Hel, (Hoth 1), (Hoth 2) by (cbn; auto). split; [lia|reflexivity].
Qed.

Definition congruent (dim : sentry -> nat) (A B : nat -> sentry) (a b : nat) : Prop :=
  let g := Nat.gcd (dim (A a)) (dim (B b)) in rigid_len dim A mod g = rigid_len dim B mod g.
Definition only_elastic (side : nat -> sentry) (e : nat) : Prop :=
  In e [1;2;3] /\ s_elastic (side e) = true /\ forall j, In j [1;2;3] -> j <> e -> s_elastic (side j) = false.

Theorem C06_single_elastic : forall U o d inp n s w e, uctab_ok U -> wf_design U d -> wf_input U o d inp ->
  only_elastic (at_side (d_shape d) BTOP) n -> only_elastic (at_side (d_shape d) BBOT) s ->
  only_elastic (at_side (d_shape d) BLEF) w -> only_elastic (at_side (d_shape d) BRIG) e ->
  (exists fuel rows, draw_rows U fuel o d inp = Ok rows) <->
  congruent s_width (at_side (d_shape d) BTOP) (at_side (d_shape d) BBOT) n s /\
  congruent s_height (at_side (d_shape d) BLEF) (at_side (d_shape d) BRIG) w e.
Proof.
  intros U o d inp n s w e HU WF WI (N1 & N2 & N3) (S1 & S2 & S3) (W1 & W2 & W3) (E1 & E2 & E3).
  rewrite (C06_terminates_iff U o d inp HU WF WI). unfold matchable, congruent.
  destruct (one_elastic _ _ N1 N2 N3 s_width) as [-> ->]. destruct (one_elastic _ _ S1 S2 S3 s_width) as [-> ->].
  destruct (one_elastic _ _ W1 W2 W3 s_height) as [-> ->]. destruct (one_elastic _ _ E1 E2 E3 s_height) as [-> ->].
  split.
  - intros [(a & b & [<-|[]] & [<-|[]] & H) (a' & b' & [<-|[]] & [<-|[]] & H')]. auto.
  - intros [H H']. split; do 2 eexists; (split; [left; reflexivity|]; split; [left; reflexivity|]; assumption).
Qed.
Print Assumptions C06_single_elastic.
Example C06_example : matchable s_width (at_side demo_rich_shapes BTOP) (at_side demo_rich_shapes BBOT).
Proof. exists 3, 1. vm_compute. auto. Qed.

(** a well-formed design for which drawing never ends, whatever the input and the options *)
Theorem C06_always_terminates_refuted : exists d, (forall U, uctab_ok U -> wf_design U d) /\
  forall U o inp, uctab_ok U -> wf_input U o d inp -> forall fuel, draw_rows U fuel o d inp = Fuel.
Proof.
  exists demo_odd. assert (W : forall U, uctab_ok U -> wf_design U demo_odd).
  { intros U HU. apply wf_designb_ok; [exact HU|vm_compute; reflexivity]. }
  split; [exact W|]. intros U o inp HU WI fuel.
  destruct (draw_spec U HU o demo_odd inp (W U HU) WI fuel) as [[E _]|
    (b & cN & cS & cW & cE & w & v & rows & cs & hpl & hpr & f1 & f2 & E & _)]; [exact E|].
  exfalso. destruct (proj1 (C06_terminates_iff U o demo_odd inp HU (W U HU) WI)) as [(x & y & Hx & Hy & Hm) _]; [eauto|].
  vm_compute in Hx, Hy. destruct Hx as [<-|[]]. destruct Hy as [<-|[]]. vm_compute in Hm. discriminate.
Qed.
Print Assumptions C06_always_terminates_refuted.

(** ** C07 *)
Lemma picture_height : forall U o d inp cN cS cW cE w v f1 f2 hpl hpr cs rows,
  picture U o d inp cN cS cW cE w v f1 f2 hpl hpr cs rows -> length rows = shown_height d v.
Proof.
  intros U o d inp cN cS cW cE w v f1 f2 hpl hpr cs rows P.
  pose proof (pc_len_m _ _ _ _ _ _ _ _ _ _ _ _ _ _ _ _ P) as Em.
  pose proof (pc_contents _ _ _ _ _ _ _ _ _ _ _ _ _ _ _ _ P) as Hc. apply Forall2_len in Hc.
  pose proof (pc_f _ _ _ _ _ _ _ _ _ _ _ _ _ _ _ _ P) as Hf. unfold i_num_lines in Hf.
  rewrite <- Em. unfold mid_rows, shown_height, top_rows, bottom_rows. rewrite !app_length, !repeat_length.
  destruct (blank_side d BTOP), (blank_side d BBOT); cbn [unless length]; rewrite ?map_length, ?seq_length; lia.
Qed.

Lemma expected_width : forall U o d, wf_design U d -> o_reqwidth o <> 0 ->
  d_minwidth (apply_expected_size o d) = Nat.max (o_reqwidth o) (d_minwidth d)
    + (if blank_side d BRIG then right_w d else 0) + (if blank_side d BLEF then left_w d else 0).
Proof.
  intros U o d WF Hr. unfold apply_expected_size. cbn [d_minwidth]. apply Nat.eqb_neq in Hr. rewrite Hr. cbn [negb].
  unfold blank_side, right_w, left_w. rewrite (w_SE U d WF).
  destruct (Nat.ltb_spec (d_minwidth d) (o_reqwidth o)); lia.
Qed.
Lemma expected_height : forall U o d, wf_design U d -> o_reqheight o <> 0 ->
  d_minheight (apply_expected_size o d) = Nat.max (o_reqheight o) (d_minheight d)
    + (if blank_side d BTOP then top_h d else 0) + (if blank_side d BBOT then bottom_h d else 0).
Proof.
  intros U o d WF Hr. unfold apply_expected_size. cbn [d_minheight]. apply Nat.eqb_neq in Hr. rewrite Hr. cbn [negb].
  unfold blank_side, top_h, bottom_h. rewrite (h_SW U d WF).
  destruct (Nat.ltb_spec (d_minheight d) (o_reqheight o)); lia.
Qed.
Lemma sized_sizes : forall o d inp, left_w (sized o inp d) = left_w d /\ right_w (sized o inp d) = right_w d /\
  top_h (sized o inp d) = top_h d /\ bottom_h (sized o inp d) = bottom_h d.
Proof. intros o d inp. unfold left_w, right_w, top_h, bottom_h. rewrite sized_shape. auto. Qed.

(** sizes as printed: [shown_width] columns (blank borders left and right aside) and as many rows; both are
    at least what -s asked for *)
Theorem C07_at_least : forall U o d inp fuel rows, uctab_ok U -> wf_design U d -> wf_input U o d inp ->
  draw_rows U fuel o d inp = Ok rows ->
  o_reqheight o <= length rows /\
  exists w, Forall (fun r => shows U (box_indent d inp + (if blank_side d BLEF then 0 else left_w d) + w + right_w d) (memory r)) rows /\
    o_reqwidth o <= shown_width d w.
Proof.
  intros U o d inp fuel rows HU WF WI H.
  destruct (draw_picture U HU o d inp fuel rows WF WI H) as (cN & cS & cW & cE & w & v & f1 & f2 & hpl & hpr & cs & P).
  pose proof (picture_height _ _ _ _ _ _ _ _ _ _ _ _ _ _ _ _ P) as HL. rewrite map_length in HL.
  destruct (sized_sizes o d inp) as (S1 & S2 & S3 & S4).
  pose proof (sized_adjusted o d inp) as A.
  pose proof (pc_w _ _ _ _ _ _ _ _ _ _ _ _ _ _ _ _ P) as [(_ & _ & _ & HW) _].
  pose proof (pc_v _ _ _ _ _ _ _ _ _ _ _ _ _ _ _ _ P) as [(_ & _ & _ & HV) _].
  pose proof (ad_mw _ _ _ _ A) as A1. pose proof (ad_mh _ _ _ _ A) as A2.
  split.
  - destruct (Nat.eq_dec (o_reqheight o) 0) as [->|Hr]; [lia|].
    rewrite (expected_height U o d WF Hr) in A2. rewrite HL. unfold shown_height, blank_side in *.
    rewrite S3, S4, sized_shape in *.
    destruct (empty_side (d_shape d) BTOP), (empty_side (d_shape d) BBOT); lia.
  - exists w. split.
    + pose proof (pc_width _ _ _ _ _ _ _ _ _ _ _ _ _ _ _ _ P) as W. rewrite Forall_map in W.
      eapply Forall_impl; [|exact W]. intros r Hr. cbn beta in Hr.
      unfold row_width, box_indent, left_w, right_w in *. rewrite sized_shape, sized_indentmode in Hr. exact Hr.
    + destruct (Nat.eq_dec (o_reqwidth o) 0) as [->|Hr]; [lia|].
      rewrite (expected_width U o d WF Hr) in A1. unfold shown_width, blank_side in *. rewrite S1, S2 in *.
      destruct (empty_side (d_shape d) BLEF), (empty_side (d_shape d) BRIG); lia.
Qed.
Print Assumptions C07_at_least.

(** every length from the sum of the shapes on can be reached if elastic shapes have size one *)
Lemma unit_reachable : forall dim side n, (forall s, isempty s = false -> 0 < dim s) -> side_ok side -> unit_elastic dim side ->
  sum (map (fun i => size dim (side i)) [1;2;3]) <= n -> reachable dim side n.
Proof.
  intros dim side n Hpos Hs Hu Hn. destruct Hs as [Hs|Hs].
  - left. split; [exact Hs|]. destruct Hs as (e & He & Hne & Hel & Hoth).
    exists e, (n - rigid_len dim side). split; [exact He|]. split; [exact Hel|].
    rewrite (Hu e He Hel).
    assert (Hr : rigid_len dim side + 1 <= n).
    { unfold rigid_len. revert Hn. cbn [map]. rewrite !sum_cons. cbn [sum fold_right].
      assert (Hse : size dim (side e) = 1) by (unfold size; rewrite Hne; apply Hu; assumption).
      destruct He as [<-|[<-|[<-|[]]]]; rewrite Hel, Hse.
      - rewrite (Hoth 2), (Hoth 3) by (cbn; auto). lia.
      - rewrite (Hoth 1), (Hoth 3) by (cbn; auto). lia.
      - rewrite (Hoth 1), (Hoth 2) by (cbn; auto). lia. }
    lia.
  - right. split; [exact Hs|]. destruct Hs as (Hne & H1 & H2 & H3).
    assert (Hr : rigid_len dim side + 2 <= n).
    { unfold rigid_len. revert Hn. cbn [map]. rewrite !sum_cons. cbn [sum fold_right]. rewrite H1, H2, H3.
      unfold size. rewrite (Hne 1), (Hne 2), (Hne 3) by (cbn; auto).
      rewrite (Hu 1), (Hu 3) by (cbn; auto). lia. }
    set (k := n - rigid_len dim side).
    pose proof (Nat.div_mod k 2 ltac:(lia)). pose proof (Nat.mod_upper_bound k 2 ltac:(lia)).
    exists (k / 2 + k mod 2), (k / 2). rewrite (Hu 1), (Hu 3) by (cbn; auto). unfold k in *. lia.
Qed.

(** If all elastic shapes at the top and bottom are one column wide, the design is not larger than the
    requested width anyway and the longest line fits, the width is exactly the requested one. *)
Theorem C07_exact_width : forall U o d inp fuel rows, uctab_ok U -> wf_design U d -> wf_input U o d inp ->
  draw_rows U fuel o d inp = Ok rows ->
  unit_elastic s_width (at_side (d_shape d) BTOP) -> unit_elastic s_width (at_side (d_shape d) BBOT) ->
  o_reqwidth o <> 0 -> d_minwidth d <= o_reqwidth o -> shown_width d (i_maxline inp) <= o_reqwidth o ->
  exists w, shown_width d w = o_reqwidth o /\
    Forall (fun r => shows U (box_indent d inp + (if blank_side d BLEF then 0 else left_w d) + w + right_w d) (memory r)) rows.
Proof.
  intros U o d inp fuel rows HU WF WI H UT UB Hr Hmin Hfit.
  destruct (draw_picture U HU o d inp fuel rows WF WI H) as (cN & cS & cW & cE & w & v & f1 & f2 & hpl & hpr & cs & P).
  destruct (sized_sizes o d inp) as (S1 & S2 & _ & _).
  pose proof (sized_adjusted o d inp) as A.
  pose proof (pc_w _ _ _ _ _ _ _ _ _ _ _ _ _ _ _ _ P) as [(_ & _ & _ & HW) Hleast].
  pose proof (ad_mw_req _ _ _ _ A Hr) as A1. rewrite (expected_width U o d WF Hr) in A1.
  exists w. split.
  - rewrite S1, S2 in HW.
    assert (Hle : shown_width d w <= o_reqwidth o).
    { assert (Hx : w <= d_minwidth (sized o inp d) - left_w d - right_w d).
      { apply Hleast. unfold width_ok. rewrite sized_shape, S1, S2.
        pose proof (mids_top U d WF) as MT. pose proof (mids_bottom U d WF) as MB.
        fold (left_w d) (right_w d) in MT, MB.
        split; [|split; [|split]].
        - apply unit_reachable; auto; [apply width_pos|apply (wf_sides _ _ WF)|]. unfold mids in MT. lia.
        - apply unit_reachable; auto; [apply width_pos|apply (wf_sides _ _ WF)|]. unfold mids in MB. lia.
        - unfold shown_width in Hfit. destruct (blank_side d BLEF), (blank_side d BRIG); lia.
        - lia. }
      unfold shown_width in *. destruct (blank_side d BLEF), (blank_side d BRIG); lia. }
    assert (Hge : o_reqwidth o <= shown_width d w) by (unfold shown_width; destruct (blank_side d BLEF), (blank_side d BRIG); lia).
    lia.
  - pose proof (pc_width _ _ _ _ _ _ _ _ _ _ _ _ _ _ _ _ P) as W. rewrite Forall_map in W.
    eapply Forall_impl; [|exact W]. intros r Hrr. cbn beta in Hrr.
    unfold row_width, box_indent, left_w, right_w in *. rewrite sized_shape, sized_indentmode in Hrr. exact Hrr.
Qed.
Print Assumptions C07_exact_width.

Theorem C07_exact_height : forall U o d inp fuel rows, uctab_ok U -> wf_design U d -> wf_input U o d inp ->
  draw_rows U fuel o d inp = Ok rows ->
  unit_elastic s_height (at_side (d_shape d) BLEF) -> unit_elastic s_height (at_side (d_shape d) BRIG) ->
  o_reqheight o <> 0 -> d_minheight d <= o_reqheight o -> shown_height d (i_num_lines inp) <= o_reqheight o ->
  length rows = o_reqheight o.
Proof.
  intros U o d inp fuel rows HU WF WI H UL UR Hr Hmin Hfit.
  destruct (draw_picture U HU o d inp fuel rows WF WI H) as (cN & cS & cW & cE & w & v & f1 & f2 & hpl & hpr & cs & P).
  pose proof (picture_height _ _ _ _ _ _ _ _ _ _ _ _ _ _ _ _ P) as HL. rewrite map_length in HL.
  destruct (sized_sizes o d inp) as (_ & _ & S3 & S4).
  pose proof (sized_adjusted o d inp) as A.
  pose proof (pc_v _ _ _ _ _ _ _ _ _ _ _ _ _ _ _ _ P) as [(_ & _ & _ & HV) Hleast].
  pose proof (ad_mh_req _ _ _ _ A Hr) as A1. rewrite (expected_height U o d WF Hr) in A1.
  rewrite HL. unfold shown_height, blank_side in *. rewrite sized_shape in *. rewrite S3, S4 in *.
  assert (Hx : v <= d_minheight (sized o inp d) - top_h d - bottom_h d).
  { apply Hleast. unfold height_ok. rewrite sized_shape, S3, S4.
    pose proof (mids_left U d WF) as ML. pose proof (mids_right U d WF) as MR. fold (top_h d) (bottom_h d) in ML, MR.
    split; [|split; [|split]].
    - apply unit_reachable; auto; [apply height_pos|apply (wf_sides _ _ WF)|]. unfold mids in ML. lia.
    - apply unit_reachable; auto; [apply height_pos|apply (wf_sides _ _ WF)|]. unfold mids in MR. lia.
    - destruct (empty_side (d_shape d) BTOP), (empty_side (d_shape d) BBOT); lia.
    - lia. }
  destruct (empty_side (d_shape d) BTOP), (empty_side (d_shape d) BBOT); lia.
Qed.
Print Assumptions C07_exact_height.

Definition opts_size : opts := mkOpts 101 8 108 116 0 20 7 (-1) (-1) (-1) (-1).
(** 20 columns and the blank right border *)
Example C07_example : lines_of (draw_rows demo_tab 50 opts_size demo_cmt ex_inp) =
  ["# Hello              ";
   "#                    ";
   "# wide world         ";
   "#                    "; "#                    "; "#                    "; "#                    "]%string /\
  unit_elastic s_width (at_side (d_shape demo_cmt) BTOP).
Proof. split; [vm_compute; reflexivity|]. intros i [<-|[<-|[<-|[]]]] H; vm_compute in *; congruence. Qed.

(** ** C08 *)
(** the paddings in effect: what was asked for, by option or design, unless -s leaves too little room; then
    they shrink only as far as needed *)
Theorem C08_effective_padding : forall o d inp, let d2 := sized o inp d in
  let want_l := over (o_pad_left o) (d_pad_left d) in let want_r := over (o_pad_right o) (d_pad_right d) in
  let want_t := over (o_pad_top o) (d_pad_top d) in let want_b := over (o_pad_bottom o) (d_pad_bottom d) in
  (o_reqwidth o = 0 \/ want_l + want_r + i_maxline inp + left_w d + right_w d <= d_minwidth (apply_expected_size o d) ->
     d_pad_left d2 = want_l /\ d_pad_right d2 = want_r) /\
  (o_reqheight o = 0 \/ want_t + want_b + i_num_lines inp + top_h d + bottom_h d <= d_minheight (apply_expected_size o d) ->
     d_pad_top d2 = want_t /\ d_pad_bottom d2 = want_b) /\
  d_pad_left d2 <= want_l /\ d_pad_right d2 <= want_r /\ d_pad_top d2 <= want_t /\ d_pad_bottom d2 <= want_b /\
  (d_pad_left d2 + d_pad_right d2 < want_l + want_r -> d_pad_left d2 + d_pad_right d2 = 0 \/
     d_pad_left d2 + d_pad_right d2 + i_maxline inp + left_w d + right_w d = d_minwidth (apply_expected_size o d)) /\
  (d_pad_top d2 + d_pad_bottom d2 < want_t + want_b -> d_pad_top d2 + d_pad_bottom d2 = 0 \/
     d_pad_top d2 + d_pad_bottom d2 + i_num_lines inp + top_h d + bottom_h d = d_minheight (apply_expected_size o d)).
Proof.
  intros o d inp. cbv zeta. pose proof (sized_adjusted o d inp) as A. destruct A.
  split; [intros [H|H]; auto|]. split; [intros [H|H]; auto|]. auto 8.
Qed.
Print Assumptions C08_effective_padding.

Lemma lead_skipn : forall p (l : list N) k, k <= lead p l -> lead p (skipn k l) + k = lead p l.
Proof.
  intros p l. induction l as [|c l IH]; intros [|k] H; cbn [skipn lead] in *; try lia.
  destruct (p c) eqn:E; [|lia]. specialize (IH k ltac:(lia)). lia.
Qed.

(** [m] is [a] spaces, text, [b] spaces, where counting from the first non-blank there are at least [l]
    columns before and at least [r] columns behind the text *)
Definition margins (U : uctab) (l r : nat) (m : list N) : Prop :=
  exists a txt b tx, m = spaces a ++ txt ++ spaces b /\ reads txt tx /\
    (blank_text U txt \/ l <= a + lead (is_blank U) (visible tx)) /\ r <= b.

Theorem C08_padding_honoured : forall U o d inp fuel rows, uctab_ok U -> wf_design U d -> wf_input U o d inp ->
  draw_rows U fuel o d inp = Ok rows ->
  let d2 := sized o inp d in
  exists lefts rights tops contents bottoms w f1 f2 cN cS,
    map memory rows = zip3 (spaces (box_indent d inp)) lefts
       (tops ++ repeat (spaces w) f1 ++ contents ++ repeat (spaces w) f2 ++ bottoms) rights /\
    length lefts = length rows /\ length rights = length rows /\
    length (tops ++ repeat (spaces w) f1 ++ contents ++ repeat (spaces w) f2 ++ bottoms) = length rows /\
    tops = unless (blank_side d BTOP) (top_rows d cN) /\ bottoms = unless (blank_side d BBOT) (bottom_rows d cS) /\
    length contents = i_num_lines inp /\
    d_pad_top d2 <= f1 /\ d_pad_bottom d2 <= f2 /\
    (~ squeezed o d2 (w - i_maxline inp) -> Forall (margins U (d_pad_left d2) (d_pad_right d2)) contents).
Proof.
  intros U o d inp fuel rows HU WF WI H. cbv zeta.
  destruct (draw_picture U HU o d inp fuel rows WF WI H) as (cN & cS & cW & cE & w & v & f1 & f2 & hpl & hpr & cs & P).
  set (d2 := sized o inp d) in *.
  destruct P as [P1 P2 P3 P4 P5 _ _ _ _ _ _ _ _ _ _ _ PH _ HA VA].
  assert (Hi : box_indent d inp = box_indent d2 inp) by (unfold box_indent, d2; rewrite sized_indentmode; reflexivity).
  assert (Hb : forall s, blank_side d s = blank_side d2 s) by (intros s; unfold blank_side, d2; rewrite sized_shape; reflexivity).
  assert (Htr : top_rows d cN = top_rows d2 cN) by (unfold top_rows, top_h, d2; rewrite sized_shape; reflexivity).
  assert (Hbr : bottom_rows d cS = bottom_rows d2 cS) by (unfold bottom_rows, bottom_h, d2; rewrite sized_shape; reflexivity).
  exists (if blank_side d2 BLEF then repeat [] (length (map memory rows)) else left_rows d2 cW), (right_rows d2 cE),
    (unless (blank_side d2 BTOP) (top_rows d2 cN)), cs, (unless (blank_side d2 BBOT) (bottom_rows d2 cS)), w, f1, f2, cN, cS.
  rewrite Hi, !Hb, Htr, Hbr. rewrite map_length in *. split; [exact P1|].
  split; [destruct (blank_side d2 BLEF); [apply repeat_length|exact P3]|]. split; [exact P4|]. split; [exact P2|].
  split; [reflexivity|]. split; [reflexivity|].
  split; [symmetry; exact (Forall2_len _ _ _ _ _ P5)|].
  destruct VA as (_ & V1 & V2 & _). split; [exact V1|]. split; [exact V2|].
  intros Hs. destruct (HA Hs) as (H0 & H1 & H2 & _).
  apply Forall_forall. intros m Hm. apply (In_nth _ _ []) in Hm as (i & Hi' & <-).
  assert (Hc : exists l, content_ok U o d2 inp w hpl l (nth i cs [])).
  { clear - P5 Hi'. revert i Hi'. induction P5 as [|l c ls cs Hc _ IH]; intros [|i] Hi; cbn in Hi; try lia; [eauto|].
    apply IH. lia. }
  destruct Hc as (l & sl & k & sr & (t & ts & tx & cc & E & R1 & R2 & V & K & KV & _) & Hsr & J).
  exists sl, t, sr, tx. split; [exact E|]. split; [exact R2|]. split; [|lia].
  destruct (J ts R1) as [J1 J2].
  destruct (lead_skipn (is_blank U) (visible ts) k K) as []. rewrite <- V in *.
  assert (Dec : blank_text U (memory (l_text l)) \/ ~ blank_text U (memory (l_text l))).
  { destruct (forallb (fun c => is_blank U c || N.eqb c 13) (visible ts)) eqn:Ef.
    - left. intros ts' R'. destruct (reading_total_unique (memory (l_text l))) as (t0 & _ & Hu).
      rewrite <- (Hu ts' R'), (Hu ts R1). intros c Hc. rewrite forallb_forall in Ef. specialize (Ef c Hc).
      apply orb_true_iff in Ef as [Ef|Ef]; [auto|right; apply N.eqb_eq; exact Ef].
    - right. intros Hbl. assert (forallb (fun c => is_blank U c || N.eqb c 13) (visible ts) = true); [|congruence].
      apply forallb_forall. intros c Hc. apply orb_true_iff. rewrite N.eqb_eq. apply (Hbl ts R1 c Hc). }
  destruct Dec as [Dec|Dec].
  - left. destruct (J1 (or_introl Dec)) as [-> ->]. intros tx' R'.
    destruct (reading_total_unique t) as (t0 & _ & Hu). rewrite <- (Hu tx' R'), (Hu tx R2).
    intros c Hc. rewrite V in Hc. cbn [skipn] in Hc. apply (Dec ts R1 c Hc).
  - right. destruct (J2 Dec) as (pos & Hpos & _). lia.
Qed.
Print Assumptions C08_padding_honoured.

(** With exactly one spare column and right alignment the right padding is ignored. *)
Definition opts_right : opts := mkOpts 101 8 114 116 0 0 0 (-1) 1 (-1) 0.
Theorem C08_right_padding_refuted : exists U o d inp rows, uctab_ok U /\ wf_design U d /\ wf_input U o d inp /\
  draw_rows U 50 o d inp = Ok rows /\ d_pad_right (sized o inp d) = 1 /\
  exists l r, nth_error (map memory rows) 1 = Some (l ++ txt "Hi" ++ r) /\ l = txt "| " /\ r = txt "|".
Proof.
  exists demo_tab, opts_right, demo, (mkinp ["Hi"]%string true). eexists.
  split; [exact demo_tab_ok|]. split; [exact ex_wf_design|].
  split; [apply mkinp_wf; [discriminate|vm_compute; reflexivity..|reflexivity|reflexivity]|].
  split; [vm_compute; reflexivity|]. split; [vm_compute; reflexivity|].
  exists (txt "| "), (txt "|"). split; [vm_compute; reflexivity|]. split; reflexivity.
Qed.
Print Assumptions C08_right_padding_refuted.

(** ** C09 *)
(** Without justification: all lines start [hpl] columns behind the left border, the longest one ends [hpr]
    columns before the right border, [f1] blank lines are above and [f2] below the text. *)
Theorem C09_alignment : forall U o d inp fuel rows, uctab_ok U -> wf_design U d -> wf_input U o d inp ->
  o_justify o = 0%N -> draw_rows U fuel o d inp = Ok rows ->
  let d2 := sized o inp d in
  exists lefts rights tops contents bottoms w hpl hpr f1 f2 cN cS,
    map memory rows = zip3 (spaces (box_indent d inp)) lefts
       (tops ++ repeat (spaces w) f1 ++ contents ++ repeat (spaces w) f2 ++ bottoms) rights /\
    length lefts = length rows /\ length rights = length rows /\
    length (tops ++ repeat (spaces w) f1 ++ contents ++ repeat (spaces w) f2 ++ bottoms) = length rows /\
    tops = unless (blank_side d BTOP) (top_rows d cN) /\ bottoms = unless (blank_side d BBOT) (bottom_rows d cS) /\
    Forall2 (fun l m => exists txt b c, m = spaces hpl ++ txt ++ spaces b /\ shows U c txt /\ hpl + c + b = w /\
       (txt = memory (l_text l) \/ txt = [] /\ forall ts, reads (memory (l_text l)) ts -> visible ts = [])) (i_lines inp) contents /\
    hpl + i_maxline inp + hpr = w /\
    (~ squeezed o d2 (hpl + hpr) -> distributes (halign o) (d_pad_left d2) (d_pad_right d2) (hpl + hpr) hpl hpr) /\
    distributes (valign o) (d_pad_top d2) (d_pad_bottom d2) (f1 + f2) f1 f2.
Proof.
  intros U o d inp fuel rows HU WF WI HJ H. cbv zeta.
  destruct (draw_picture U HU o d inp fuel rows WF WI H) as (cN & cS & cW & cE & w & v & f1 & f2 & hpl & hpr & cs & P).
  set (d2 := sized o inp d) in *.
  destruct P as [P1 P2 P3 P4 P5 _ _ _ _ _ _ _ _ _ _ _ PH PF HA VA].
  assert (Hi : box_indent d inp = box_indent d2 inp) by (unfold box_indent, d2; rewrite sized_indentmode; reflexivity).
  assert (Hb : forall s, blank_side d s = blank_side d2 s) by (intros s; unfold blank_side, d2; rewrite sized_shape; reflexivity).
  assert (Htr : top_rows d cN = top_rows d2 cN) by (unfold top_rows, top_h, d2; rewrite sized_shape; reflexivity).
  assert (Hbr : bottom_rows d cS = bottom_rows d2 cS) by (unfold bottom_rows, bottom_h, d2; rewrite sized_shape; reflexivity).
  exists (if blank_side d2 BLEF then repeat [] (length (map memory rows)) else left_rows d2 cW), (right_rows d2 cE),
    (unless (blank_side d2 BTOP) (top_rows d2 cN)), cs, (unless (blank_side d2 BBOT) (bottom_rows d2 cS)), w, hpl, hpr, f1, f2, cN, cS.
  rewrite Hi, !Hb, Htr, Hbr. rewrite map_length in *. split; [exact P1|].
  split; [destruct (blank_side d2 BLEF); [apply repeat_length|exact P3]|]. split; [exact P4|]. split; [exact P2|].
  split; [reflexivity|]. split; [reflexivity|]. split.
  - clear - P5 HJ. induction P5 as [|l c ls cs (sl & k & sr & (t & ts & tx & cc & -> & R1 & R2 & V & K & KV & Sh & Hw) & _ & J) _ IH]; constructor; auto.
    destruct (J ts R1) as [J1 _]. destruct (J1 (or_intror HJ)) as [-> ->].
    exists t, sr, cc. split; [reflexivity|]. split; [exact Sh|]. split; [exact Hw|].
    destruct (KV eq_refl) as [->|[Hv ->]]; [left; reflexivity|right]. split; [reflexivity|].
    intros ts' R'. destruct (reading_total_unique (memory (l_text l))) as (t0 & _ & Hu).
    rewrite <- (Hu ts' R'), (Hu ts R1). exact Hv.
  - split; [exact PH|]. replace (hpl + hpr) with (w - i_maxline inp) by lia. split; [exact HA|].
    replace (f1 + f2) with (v - i_num_lines inp) by lia. exact VA.
Qed.
Print Assumptions C09_alignment.
Definition opts_centre : opts := mkOpts 101 8 99 99 0 21 8 (-1) (-1) (-1) (-1).
Example C09_example : lines_of (draw_rows demo_tab 50 opts_centre demo ex_inp) =
  ["/-------------------\";
   "|                   |";
   "|    Hello          |";
   "|                   |";
   "|    wide world     |";
   "|                   |";
   "|                   |";
   "\-------------------/"]%string.
Proof. vm_compute. reflexivity. Qed.

(** ** C10 *)
(** Every non-blank line lies within the text block (columns [hpl] to [hpl + i_maxline inp] behind the left
    border): its first non-blank is in column [hpl + pos], it ends at least [hpr] columns before the right
    border, and [pos] is what the justification asks for. *)
Theorem C10_justification : forall U o d inp fuel rows, uctab_ok U -> wf_design U d -> wf_input U o d inp ->
  draw_rows U fuel o d inp = Ok rows ->
  exists lefts above contents below rights w hpl hpr,
    map memory rows = zip3 (spaces (box_indent d inp)) lefts (above ++ contents ++ below) rights /\
    length lefts = length rows /\ length (above ++ contents ++ below) = length rows /\ length rights = length rows /\
    hpl + i_maxline inp + hpr = w /\
    Forall2 (fun l m => blank_text U (memory (l_text l)) \/
       exists a txt b k ts tx pos, m = spaces a ++ txt ++ spaces b /\
         reads (memory (l_text l)) ts /\ reads txt tx /\ visible tx = skipn k (visible ts) /\
         shows U w m /\
         a + lead (is_blank U) (visible tx) = hpl + pos /\ hpr <= b /\
         justified o d inp pos (columns (term_width U) ts - lead (is_blank U) (visible ts))) (i_lines inp) contents.
Proof.
  intros U o d inp fuel rows HU WF WI H.
  destruct (draw_picture U HU o d inp fuel rows WF WI H) as (cN & cS & cW & cE & w & v & f1 & f2 & hpl & hpr & cs & P).
  set (d2 := sized o inp d) in *.
  destruct P as [P1 P2 P3 P4 P5 _ _ _ _ _ _ _ _ _ _ _ PH PF HA VA].
  assert (Hi : box_indent d inp = box_indent d2 inp) by (unfold box_indent, d2; rewrite sized_indentmode; reflexivity).
  exists (if blank_side d2 BLEF then repeat [] (length (map memory rows)) else left_rows d2 cW),
    (unless (blank_side d2 BTOP) (top_rows d2 cN) ++ repeat (spaces w) f1), cs,
    (repeat (spaces w) f2 ++ unless (blank_side d2 BBOT) (bottom_rows d2 cS)), (right_rows d2 cE), w, hpl, hpr.
  rewrite Hi. rewrite map_length in *. unfold mid_rows in *. rewrite <- !app_assoc in *. split; [exact P1|].
  split; [destruct (blank_side d2 BLEF); [apply repeat_length|exact P3]|]. split; [exact P2|]. split; [exact P4|].
  split; [exact PH|].
  assert (Hjd : forall pos new, justified o d2 inp pos new -> justified o d inp pos new).
  { intros pos new. unfold justified, block_start, d2. rewrite sized_indentmode. auto. }
  clear - P5 Hjd HU PH. induction P5 as [|l c ls cs (sl & k & sr & Pl & Hsr & J) _ IH]; constructor; auto.
  assert (Hsw : shows U w c) by (eapply places_shows; eauto).
  destruct Pl as (t & ts & tx & cc & -> & R1 & R2 & V & K & KV & Sh & Hw).
  destruct (J ts R1) as [J1 J2].
  pose proof (lead_skipn (is_blank U) (visible ts) k K) as HLk. rewrite <- V in HLk.
  assert (Dec : blank_text U (memory (l_text l)) \/ ~ blank_text U (memory (l_text l))).
  { destruct (forallb (fun c => is_blank U c || N.eqb c 13) (visible ts)) eqn:Ef.
    - left. intros ts' R'. destruct (reading_total_unique (memory (l_text l))) as (t0 & _ & Hu).
      rewrite <- (Hu ts' R'), (Hu ts R1). intros c Hc. rewrite forallb_forall in Ef. specialize (Ef c Hc).
      apply orb_true_iff in Ef as [Ef|Ef]; [auto|right; apply N.eqb_eq; exact Ef].
    - right. intros Hbl. assert (forallb (fun c => is_blank U c || N.eqb c 13) (visible ts) = true); [|congruence].
      apply forallb_forall. intros c Hc. apply orb_true_iff. rewrite N.eqb_eq. apply (Hbl ts R1 c Hc). }
  destruct Dec as [Dec|Dec]; [left; exact Dec|right].
  destruct (J2 Dec) as (pos & Hpos & Hj). exists sl, t, sr, k, ts, tx, pos.
  repeat (split; [first [reflexivity|assumption|lia]|]). apply Hjd. exact Hj.
Qed.
Print Assumptions C10_justification.
Definition opts_just (c : N) : opts := mkOpts 101 8 108 116 c 0 0 (-1) (-1) (-1) (-1).
Example C10_example : map (fun c => lines_of (draw_rows demo_tab 50 (opts_just c) demo (mkinp ["  Hello"; "wide world"] true)%string)) [108; 99; 114]%N =
  [ ["/------------\"; "| Hello      |"; "| wide world |"; "\------------/"];
    ["/------------\"; "|   Hello    |"; "| wide world |"; "\------------/"];
    ["/------------\"; "|      Hello |"; "| wide world |"; "\------------/"] ]%string.
Proof. vm_compute. reflexivity. Qed.

(** ** C11 *)
(** No failure of any kind: with enough fuel the drawing is [Ok], otherwise the sizing loop is still running.
    (That an accepted design is well formed is C28.) *)
Theorem C11_no_internal_failure : forall U o d inp color eol, uctab_ok U -> wf_design U d -> wf_input U o d inp ->
  forall fuel, (draw_rows U fuel o d inp = Fuel /\ draw U fuel color eol o d inp = Fuel) \/
    exists rows out, draw_rows U fuel o d inp = Ok rows /\ draw U fuel color eol o d inp = Ok out.
Proof.
  intros U o d inp color eol HU WF WI fuel.
  destruct (draw_spec U HU o d inp WF WI fuel) as [[E1 E2]|(b & cN & cS & cW & cE & w & v & rows & _ & _ & _ & _ & _ & H & _)].
  - left. split; [exact E1|]. unfold draw. rewrite E2. reflexivity.
  - right. destruct (draw_printed U HU fuel color eol o d inp rows WF WI H) as (ps & Hp & _). eauto.
Qed.
Print Assumptions C11_no_internal_failure.
Example C11_example : exists rows out, draw_rows demo_tab 50 opts0 demo_rich ex_inp = Ok rows /\
  draw demo_tab 50 true [10]%N opts0 demo_rich ex_inp = Ok out.
Proof. eexists. eexists. split; vm_compute; reflexivity. Qed.
(** the hypothesis on tabs is needed: an indented box with unexpanded tabs makes the program write behind the
    ASCII copy of the output row *)
Definition opts_unexpand : opts := mkOpts 117 4 108 116 0 0 0 (-1) (-1) (-1) (-1).
Definition ex_indented : input := mkInput [mkLine (match bxs_from_unicode demo_tab (txt "Hello"%string) with Ok b => b | _ => bxs_new_empty_string end) []] 5 5 true.
Theorem C11_tab_indent_refuted : exists U o d inp fuel, uctab_ok U /\ wf_design U d /\
  i_lines inp <> [] /\
  (forall l, In l (i_lines inp) -> exists s w, shows U w s /\ bxs_from_unicode U s = Ok (l_text l) /\ w <= i_maxline inp) /\
  o_justify o = 0%N /\ draw_rows U fuel o d inp = UB.
Proof.
  exists demo_tab, opts_unexpand, demo, ex_indented, 50. split; [exact demo_tab_ok|]. split; [exact ex_wf_design|].
  split; [discriminate|]. split; [|split; [reflexivity|vm_compute; reflexivity]].
  intros l [<-|[]]. exists (txt "Hello"%string), 5. split; [exact (shows_ascii demo_tab demo_tab_ok (txt "Hello"%string) eq_refl)|].
  split; [vm_compute; reflexivity|vm_compute; lia].
Qed.
Print Assumptions C11_tab_indent_refuted.

(** ** C12 *)
Theorem C12_line_terminators : forall U o d inp fuel color eol out, uctab_ok U -> wf_design U d -> wf_input U o d inp ->
  draw U fuel color eol o d inp = Ok out ->
  exists rows ls, draw_rows U fuel o d inp = Ok rows /\ out = terminated eol (i_final_newline inp) ls /\
    Forall2 (fun r p => printed U color (memory r) p) rows ls.
Proof.
  intros U o d inp fuel color eol out HU WF WI H.
  destruct (C11_no_internal_failure U o d inp color eol HU WF WI fuel) as [[_ E]|(rows & out' & Er & _)]; [congruence|].
  destruct (draw_printed U HU fuel color eol o d inp rows WF WI Er) as (ps & Hp & HF).
  exists rows, ps. split; [exact Er|]. split; [congruence|exact HF].
Qed.
Print Assumptions C12_line_terminators.
Example C12_example :
  map (fun fin => match draw demo_tab 50 false [13;10]%N opts0 demo (mkinp ["a"; ""]%string fin) with Ok l => l | _ => [] end) [true; false]
  = [ txt "/---\"%string ++ [13;10] ++ txt "| a |"%string ++ [13;10] ++ txt "|   |"%string ++ [13;10] ++ txt "\---/"%string ++ [13;10];
      txt "/---\"%string ++ [13;10] ++ txt "| a |"%string ++ [13;10] ++ txt "|   |"%string ++ [13;10] ++ txt "\---/"%string ]%N.
Proof. vm_compute. reflexivity. Qed.

(** ** C13 *)
(** [s] ends, escape sequences aside, with a visible non-blank *)
Definition ends_visibly (U : uctab) (s : list N) : Prop :=
  forall ts, reads s ts -> exists m c, visible ts = m ++ [c] /\ is_blank U c = false.
Definition all_blank_text (U : uctab) (s : list N) : Prop :=
  forall ts, reads s ts -> forallb (is_blank U) (visible ts) = true.
Theorem C13_no_trailing_blanks : forall U o d inp fuel color eol out, uctab_ok U -> wf_design U d -> wf_input U o d inp ->
  draw U fuel color eol o d inp = Ok out ->
  exists ls, out = terminated eol (i_final_newline inp) ls /\
    Forall (fun l => ends_visibly U l \/ all_blank_text U l) ls.
Proof.
  intros U o d inp fuel color eol out HU WF WI H.
  destruct (C12_line_terminators U o d inp fuel color eol out HU WF WI H) as (rows & ls & Er & -> & HF).
  exists ls. split; [reflexivity|]. clear - HF.
  induction HF as [|r p rows ls (keep & cut & (Ht & _) & Hp & Hc & Hn) _ IH]; constructor; [|exact IH].
  apply toks_ok_app_l in Ht.
  assert (Hr : forall ts, reads p ts -> visible ts = visible keep).
  { intros ts Hts. destruct color; subst p.
    - destruct (reading_total_unique (render keep)) as (t0 & _ & Hu).
      rewrite <- (Hu ts Hts), (Hu keep (conj Ht eq_refl)). reflexivity.
    - destruct (reading_total_unique (visible keep)) as (t0 & _ & Hu).
      assert (Hpl : reads (visible keep) (plain (visible keep))).
      { split; [|apply render_plain]. apply closed_plain. apply visible_no_esc. exact Ht. }
      rewrite <- (Hu ts Hts), (Hu _ Hpl). apply visible_plain. }
  destruct (forallb (is_blank U) (visible (keep ++ cut))) eqn:E.
  - right. intros ts Hts. rewrite (Hr ts Hts). rewrite visible_app, forallb_app in E. apply andb_true_iff in E. apply E.
  - left. intros ts Hts. rewrite (Hr ts Hts). apply Hn. reflexivity.
Qed.
Print Assumptions C13_no_trailing_blanks.
Example C13_example : match draw demo_tab 50 false [10]%N opts0 demo_cmt (mkinp ["a"; ""; "bc  "]%string true) with Ok l => l | _ => [] end
  = txt "# a"%string ++ [10]%N ++ txt "#"%string ++ [10]%N ++ txt "# bc"%string ++ [10]%N.
Proof. vm_compute. reflexivity. Qed.

(** the unconditional claim is false: a row of blanks is printed as it is *)
Definition blank_design : design := mkDesign (lookup
  [ (NW, shp false [" "]); (N_, shp true [" "]); (NE, shp false [" "]); (W_, shp true [" "]); (E_, shp true [" "]);
    (SW, shp false [" "]); (S_, shp true [" "]); (SE, shp false [" "]) ]%string) 98 0 0 0 0 3 3.
Theorem C13_blank_rows_refuted : exists U o d inp fuel out, uctab_ok U /\ wf_design U d /\ wf_input U o d inp /\
  draw U fuel false [10]%N o d inp = Ok (out ++ [32; 10]%N).
Proof.
  exists demo_tab, opts0, blank_design, (mkinp ["a"; ""]%string true), 50, (txt "a"%string ++ [10; 32]%N).
  split; [exact demo_tab_ok|]. split; [apply wf_designb_ok; [exact demo_tab_ok|vm_compute; reflexivity]|].
  split; [apply mkinp_wf; [discriminate|vm_compute; reflexivity..|reflexivity|reflexivity]|].
  vm_compute. reflexivity.
Qed.
Print Assumptions C13_blank_rows_refuted.
