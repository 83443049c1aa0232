(** * C78, C79: removing or mending a box whose design is not named equals doing it with the name of the design that is detected *)
From Coq Require Import Ascii String List Arith NArith ZArith Bool Lia.
From Verif Require Import Base BaseFacts Model_Unicode Model_Bxs Model_Shape Spec_Str Proof_Str Proof_BxsOps Proof_BxsMore Proof_Shows Spec_Design Spec_Box Spec_Remove Demo Prop_Str
  Model_Regex Spec_Input Prop_Input Model_Query Model_Discovery Spec_Discovery Prop_Discovery Model_Input Model_Generate Model_Detect Model_Remove Spec_Detect Prop_Detect Model_Main Prop_Whole Model_Parser Spec_Parser Prop_Parser
  Model_Scan Spec_Config Prop_Config Model_Cmdline Spec_Cmdline Spec_Options Prop_Cmdline Prop_Options Model_Cld Model_List Model_Mend Prop_Auto Prop_Closed Model_Program
  Proof_Query Proof_Shipped Shipped Prop_Shipped Spec_Comment Spec_Closed Spec_Round Spec_Safe Prop_Safe Prop_Subst Spec_Program Prop_Program Spec_Undo Proof_Body Proof_Round Proof_Undo Prop_Undo Prop_UndoMain Prop_Adhoc Proof_Pipe Prop_Mend Prop_Pipe Prop_PipeMain Prop_Ask Prop_Default.
Import ListNotations.
Local Open Scope nat_scope.
Local Open Scope list_scope.

(** ** Only the shapes count when the design is detected, and the paddings when it is removed *)
Lemma same_viable : forall U inp ds e e', d_shape e' = d_shape e -> autodetect_design U inp (e' :: ds) = autodetect_design U inp (e :: ds).
Proof. intros U inp ds e e' E. destruct e as [? ? ? ? ? ? ? ?], e' as [? ? ? ? ? ? ? ?]. cbn in E. subst. reflexivity. Qed.
Lemma bind_ext : forall (A B : Type) (x : res A) (k k' : A -> res B), (forall a, k a = k' a) -> bind x k = bind x k'.
Proof. intros A B x k k' H. destruct x; cbn [bind]; [apply H|reflexivity..]. Qed.
Section Same.
Variable U : uctab.
Variables e e' : design.
Hypothesis E1 : d_shape e' = d_shape e.
Lemma same_mono : design_is_mono e' = design_is_mono e.
Proof. destruct e as [? ? ? ? ? ? ? ?], e' as [? ? ? ? ? ? ? ?]. cbn in E1. subst. reflexivity. Qed.
Lemma same_horiz : forall ct i l, prep_horiz U e' ct i l = prep_horiz U e ct i l.
Proof. intros ct i l. induction l as [|x l IH]; [reflexivity|]. cbn [prep_horiz]. rewrite E1, IH. reflexivity. Qed.
Lemma same_with : forall inp top li si ct, match_horiz_with U e' inp top li si ct = match_horiz_with U e inp top li si ct.
Proof. intros inp top li si ct. unfold match_horiz_with, prepare_comp_shapes_horiz. rewrite same_horiz, E1. reflexivity. Qed.
Lemma same_types : forall inp top li si cts last, match_horiz_types U e' inp top li si cts last = match_horiz_types U e inp top li si cts last.
Proof.
  intros inp top li si cts. induction cts as [|ct r IH]; intros last; [reflexivity|]. cbn [match_horiz_types]. rewrite same_mono, same_with.
  destruct (comp_type_is_viable _ _ _); [|apply IH]. apply bind_ext. intros x. destruct x; [reflexivity|apply IH].
Qed.
Lemma same_any : forall inp top li sis ct, match_any U e' inp top li sis ct = match_any U e inp top li sis ct.
Proof.
  intros inp top li sis. induction sis as [|si r IH]; intros ct; [reflexivity|]. cbn [match_any]. unfold match_horiz_line. rewrite same_types.
  apply bind_ext. intros x. destruct (fst x); [reflexivity|apply IH].
Qed.
Lemma same_top : forall inp n start h k ct, find_top U e' inp n start h k ct = find_top U e inp n start h k ct.
Proof.
  intros inp n. induction n as [|n IH]; intros start h k ct; [reflexivity|]. cbn [find_top]. rewrite same_any. destruct (_ <? _); [|reflexivity].
  apply bind_ext. intros x. destruct (fst x); [apply IH|reflexivity].
Qed.
Lemma same_bottom : forall inp n stop h k ct, find_bottom U e' inp n stop h k ct = find_bottom U e inp n stop h k ct.
Proof.
  intros inp n. induction n as [|n IH]; intros stop h k ct; [reflexivity|]. cbn [find_bottom]. rewrite same_any. destruct (_ <? _); [|reflexivity].
  apply bind_ext. intros x. destruct (fst x); [apply IH|reflexivity].
Qed.
Lemma same_body : forall inp lis cts st, find_vertical_types U e' inp lis cts st = find_vertical_types U e inp lis cts st.
Proof.
  intros inp lis cts. induction cts as [|ct r IH]; intros st; [reflexivity|]. cbn [find_vertical_types]. rewrite same_mono.
  assert (B : match_body U e' inp ct lis = match_body U e inp ct lis) by (unfold match_body, prepare_comp_shapes_vert; rewrite E1; reflexivity). rewrite B.
  destruct (comp_type_is_viable _ _ _); [|apply IH]. apply bind_ext. intros b.
  unfold sufficient_body_quality. rewrite E1. destruct (_ || _); [reflexivity|apply IH].
Qed.
Lemma same_vertical : d_pad_left e' = d_pad_left e -> forall mode ind ct ls vs, remove_vertical_all U e' mode ind ct ls vs = remove_vertical_all U e mode ind ct ls vs.
Proof.
  intros E2 mode ind ct ls. induction ls as [|l ls IH]; intros vs; [reflexivity|]. destruct vs as [|v vs]; [reflexivity|]. cbn [remove_vertical_all]. rewrite IH.
  unfold remove_vertical, calculate_start_idx. rewrite E2. reflexivity.
Qed.
Lemma same_removed : forall mode kb mend inp, d_pad_left e' = d_pad_left e -> d_pad_top e' = d_pad_top e -> d_pad_bottom e' = d_pad_bottom e ->
  remove_box U e' mode kb mend inp = remove_box U e mode kb mend inp.
Proof.
  intros mode kb mend inp E2 E3 E4. unfold remove_box. cbv zeta. rewrite E1. apply bind_ext. intros ts. destruct (_ <=? ts); [reflexivity|].
  unfold find_top_side. rewrite E1, same_top. apply bind_ext. intros t.
  apply bind_ext. intros lst. unfold find_bottom_side. rewrite E1, same_bottom.
  apply bind_ext. intros b. unfold find_vertical_shapes. cbv zeta. rewrite E1, same_body.
  apply bind_ext. intros v. unfold apply_results_to_input. cbv zeta. rewrite same_vertical, E1, E2 by exact E2. apply bind_ext. intros mid.
  assert (K : forall m k ls te bs, Model_Remove.killblank U e' m k ls te bs = Model_Remove.killblank U e m k ls te bs) by (intros; unfold Model_Remove.killblank; rewrite E3, E4; reflexivity).
  rewrite K. reflexivity.
Qed.
End Same.

(** neither -p nor -s says anything about the place of the text in the box *)
Definition as_designed (o : opts) : Prop :=
  o_pad_left o = (-1)%Z /\ o_pad_top o = (-1)%Z /\ o_pad_bottom o = (-1)%Z /\ o_reqwidth o = 0 /\ o_reqheight o = 0.
Lemma sized_as_designed : forall o inp d, as_designed o -> d_shape (sized o inp d) = d_shape d /\ d_indentmode (sized o inp d) = d_indentmode d /\
  d_pad_left (sized o inp d) = d_pad_left d /\ d_pad_top (sized o inp d) = d_pad_top d /\ d_pad_bottom (sized o inp d) = d_pad_bottom d.
Proof.
  intros o inp d (P1 & P2 & P3 & W & H). pose proof (repadded_sized o inp d) as R. split; [apply R|]. split.
  - unfold sized, adjust_size_and_padding. destruct (fit_pad _ _ _ _ _ _) as [[? ?] ?]. destruct (fit_pad _ _ _ _ _ _) as [[? ?] ?]. reflexivity.
  - destruct (rp_height_free _ _ _ R H) as [-> ->]. rewrite (rp_width_free _ _ _ R W), P1, P2, P3. repeat split; reflexivity.
Qed.
Lemma kill_same : forall d d' k, (asked_to_kill d k <-> asked_to_kill d' k) -> kill_option d k = kill_option d' k.
Proof.
  intros d d' k H. pose proof (kill_asked d d k eq_refl) as A. pose proof (kill_asked d' d' k eq_refl) as B.
  destruct (kill_option d k), (kill_option d' k); try reflexivity; exfalso.
  - assert (F : false = true) by (apply B, H, A; reflexivity). discriminate F.
  - assert (F : false = true) by (apply A, H, B; reflexivity). discriminate F.
Qed.
Lemma kill_shape : forall d d' k, d_shape d' = d_shape d -> kill_option d' k = kill_option d k.
Proof. intros d d' k E. unfold kill_option. rewrite E. reflexivity. Qed.

(** Without -d, the design detected is removed as if it had been named, provided that the first design and the detected one agree whether blank lines go. *)
Theorem C78_detected : forall U eol o d0 ds mode k rules raws inp j d, as_designed o ->
  handle_input U true o d0 [] raws = Ok inp -> i_lines inp <> [] -> autodetect_design U inp (d0 :: ds) = Ok (Some j) -> nth_error (d0 :: ds) j = Some d ->
  (asked_to_kill d0 k <-> asked_to_kill d k) ->
  boxes_remove_from U eol o (d0 :: ds) 0 false mode k rules raws = boxes_remove U eol o d mode k (rules j) raws.
Proof.
  intros U eol o d0 ds mode k rules raws inp j d Ho Hi Hne Ha Hj Hk. unfold boxes_remove_from, boxes_remove. unfold rd at 1. cbn [nth_error bind].
  rewrite (read_any U o (apply_expected_size o d0) d0 raws), (read_any U o d d0 raws), Hi. cbn [bind]. destruct (is_nil (i_lines inp)) eqn:En; [destruct (i_lines inp); [congruence|discriminate En]|].
  cbv zeta. change (adjust_size_and_padding o inp (apply_expected_size o d0)) with (sized o inp d0). cbn [set_nth firstn skipn app].
  destruct (sized_as_designed o inp d0 Ho) as (A1 & A2 & A3 & A4 & A5). destruct (sized_as_designed o inp d Ho) as (B1 & B2 & B3 & B4 & B5).
  unfold select_design. rewrite (same_viable U inp ds d0 (sized o inp d0) A1), Ha. cbn [bind].
  assert (X : exists dj, nth_error (sized o inp d0 :: ds) j = Some dj /\ d_shape dj = d_shape d /\ d_indentmode dj = d_indentmode d /\ d_pad_left dj = d_pad_left d /\ d_pad_top dj = d_pad_top d /\ d_pad_bottom dj = d_pad_bottom d).
  { destruct j as [|j]; cbn [nth_error] in *; [injection Hj as <-; exists (sized o inp d0); auto 10|exists d; auto 10]. }
  destruct X as (dj & Ej & S1 & S2 & S3 & S4 & S5). unfold rd at 1. rewrite Ej. cbn [bind]. unfold handle_remove_box.
  rewrite (kill_shape d0 (sized o inp d0) k A1), (kill_shape d (sized o inp d) k B1), (kill_same d0 d k Hk).
  rewrite (same_removed U d dj) by assumption. rewrite (same_removed U d (sized o inp d)) by assumption.
  destruct (remove_box U d mode (kill_option d k) true inp) as [i| | | |]; [|reflexivity..]. cbn [bind]. unfold apply_substitutions. rewrite S2, B2. reflexivity.
Qed.
Print Assumptions C78_detected.
(** Different minimum sizes do not matter if the text with its padding and the corners is at least as large, and, without padding, the
    corners of the box do not exceed them. *)
Definition roomy (least corners padding text : nat) : Prop := least <= corners + padding + text /\ (padding = 0 -> corners <= least).
Lemma target_same : forall m m' c1 c2 p q size, roomy m (c1 + c2) (p + q) size -> roomy m' (c1 + c2) (p + q) size ->
  ptarget size (snd (fit_pad p q size (c1 + c2) m 0)) c1 c2 = ptarget size (snd (fit_pad p q size (c1 + c2) m' 0)) c1 c2.
Proof.
  intros m m' c1 c2 p q size [A1 A2] [B1 B2]. unfold fit_pad. cbn [Nat.eqb negb]. destruct (p + q =? 0) eqn:E.
  - apply Nat.eqb_eq in E. cbn [snd]. unfold ptarget, subz. specialize (A2 E). specialize (B2 E).
    repeat match goal with |- context [if ?a <? ?b then _ else _] => destruct (Nat.ltb_spec a b); try lia; cbn [bind] end.
    repeat match goal with |- context [if ?a <=? ?b then _ else _] => destruct (Nat.leb_spec a b); try lia; cbn [bind] end; try reflexivity; try (f_equal; lia).
  - replace (snd (if m <? p + q + size + (c1 + c2) then (p, q, p + q + size + (c1 + c2)) else (p, q, m))) with (p + q + size + (c1 + c2)).
    2:{ destruct (Nat.ltb_spec m (p + q + size + (c1 + c2))); cbn [snd]; lia. }
    replace (snd (if m' <? p + q + size + (c1 + c2) then (p, q, p + q + size + (c1 + c2)) else (p, q, m'))) with (p + q + size + (c1 + c2)); [reflexivity|].
    destruct (Nat.ltb_spec m' (p + q + size + (c1 + c2))); cbn [snd]; lia.
Qed.
Lemma precalc_same : forall dim fuel sarr a b have w w', ptarget have w (dim (sarr (nth 0 a 0))) (dim (sarr (nth 4 a 0))) = ptarget have w' (dim (sarr (nth 0 a 0))) (dim (sarr (nth 4 a 0))) ->
  precalc dim fuel sarr a b have w = precalc dim fuel sarr a b have w'.
Proof. intros dim fuel sarr a b have w w' E. unfold precalc. cbv zeta. rewrite E. reflexivity. Qed.
Lemma ptarget_swap : forall have w a b, ptarget have w a b = ptarget have w b a.
Proof.
  intros have w a b. unfold ptarget, subz.
  repeat match goal with |- context [if ?a <? ?b then _ else _] => destruct (Nat.ltb_spec a b); try lia; cbn [bind] end; try reflexivity. replace (w - b - a) with (w - a - b) by lia. reflexivity.
Qed.
Definition roomy_for (inp : input) (d : design) (m n : nat) : Prop :=
  roomy m (s_width (d_shape d NW) + s_width (d_shape d NE)) (d_pad_left d + d_pad_right d) (i_maxline inp) /\
  roomy n (s_height (d_shape d NW) + s_height (d_shape d SW)) (d_pad_top d + d_pad_bottom d) (i_num_lines inp).
Lemma fit_pads : forall p q size c m, fst (fit_pad p q size c m 0) = (p, q).
Proof. intros p q size c m. unfold fit_pad. cbn [Nat.eqb negb]. destruct (_ =? 0); [|destruct (_ <? _)]; reflexivity. Qed.
Lemma adjusted : forall o inp d m n, as_designed o -> o_pad_right o = (-1)%Z ->
  adjust_size_and_padding o inp (with_min d m n) = mkDesign (d_shape d) (d_indentmode d) (d_pad_top d) (d_pad_right d) (d_pad_bottom d) (d_pad_left d)
    (snd (fit_pad (d_pad_left d) (d_pad_right d) (i_maxline inp) (s_width (d_shape d NW) + s_width (d_shape d NE)) m 0))
    (snd (fit_pad (d_pad_top d) (d_pad_bottom d) (i_num_lines inp) (s_height (d_shape d NW) + s_height (d_shape d SW)) n 0)).
Proof.
  intros o inp d m n (P1 & P2 & P3 & W & H) P4. unfold adjust_size_and_padding, with_min. cbn [d_shape d_indentmode d_pad_top d_pad_right d_pad_bottom d_pad_left d_minwidth d_minheight]. rewrite P1, P2, P3, P4, W, H. change (over (-1) ?x) with x.
  pose proof (fit_pads (d_pad_top d) (d_pad_bottom d) (i_num_lines inp) (s_height (d_shape d NW) + s_height (d_shape d SW)) n) as F1.
  pose proof (fit_pads (d_pad_left d) (d_pad_right d) (i_maxline inp) (s_width (d_shape d NW) + s_width (d_shape d NE)) m) as F2.
  unfold over. change ((-1 >? -1)%Z) with false. cbv iota.
  destruct (fit_pad (d_pad_top d) _ _ _ _ _) as [[a b] c]. destruct (fit_pad (d_pad_left d) _ _ _ _ _) as [[a' b'] c']. cbn [fst snd] in *. injection F1 as -> ->. injection F2 as -> ->. reflexivity.
Qed.
Lemma loop_min : forall U o (x x' : design) inp b y n j v, d_indentmode x' = d_indentmode x -> out_loop U n o x' inp b y j v = out_loop U n o x inp b y j v.
Proof.
  intros U o x x' inp b y n. induction n as [|n IH]; intros j v E; [reflexivity|]. cbn [out_loop].
  replace (out_row U o x' inp b y j v) with (out_row U o x inp b y j v).
  - apply bind_ext. intros [strs v']. apply bind_ext. intros ob. rewrite IH by exact E. reflexivity.
  - unfold out_row, content_row, justify_line. rewrite E. reflexivity.
Qed.
Lemma output_min : forall U color eol o s im a b c e w h w' h' inp bx, output_box U color eol o (mkDesign s im a b c e w h) inp bx = output_box U color eol o (mkDesign s im a b c e w' h') inp bx.
Proof.
  intros. unfold output_box. f_equal. unfold box_rows. change (mk_layout o (mkDesign s im a b c e w h) inp bx) with (mk_layout o (mkDesign s im a b c e w' h') inp bx).
  apply bind_ext. intros y. apply bind_ext. intros n. apply loop_min. reflexivity.
Qed.
Lemma drawn_same : forall U fuel color eol o d inp m n m' n', as_designed o -> o_pad_right o = (-1)%Z -> roomy_for inp d m n -> roomy_for inp d m' n' ->
  (b <- generate_box U fuel (adjust_size_and_padding o inp (with_min d m n)) inp ;; output_box U color eol o (adjust_size_and_padding o inp (with_min d m n)) inp b) =
  (b <- generate_box U fuel (adjust_size_and_padding o inp (with_min d m' n')) inp ;; output_box U color eol o (adjust_size_and_padding o inp (with_min d m' n')) inp b).
Proof.
  intros U fuel color eol o d inp m n m' n' Ho Hp [A1 A2] [B1 B2]. rewrite !adjusted by assumption.
  pose proof (target_same _ _ _ _ _ _ _ A1 B1) as T1. pose proof (target_same _ _ _ _ _ _ _ A2 B2) as T2.
  set (w := snd (fit_pad _ _ _ _ m 0)) in *. set (w' := snd (fit_pad _ _ _ _ m' 0)) in *. set (h := snd (fit_pad _ _ _ _ n 0)) in *. set (h' := snd (fit_pad _ _ _ _ n' 0)) in *. clearbody w w' h h'.
  replace (generate_box U fuel (mkDesign (d_shape d) (d_indentmode d) (d_pad_top d) (d_pad_right d) (d_pad_bottom d) (d_pad_left d) w h) inp)
    with (generate_box U fuel (mkDesign (d_shape d) (d_indentmode d) (d_pad_top d) (d_pad_right d) (d_pad_bottom d) (d_pad_left d) w' h') inp).
  - apply bind_ext. intros b. apply output_min.
  - unfold generate_box, horiz_generate, vert_generate. cbn [d_shape d_minwidth d_minheight]. cbv zeta.
    rewrite (precalc_same s_width fuel (d_shape d) north_side south_side (i_maxline inp) w' w) by (symmetry; exact T1).
    rewrite (precalc_same s_height fuel (d_shape d) west_side east_side (i_num_lines inp) h' h); [reflexivity|].
    symmetry. rewrite (ptarget_swap _ h), (ptarget_swap _ h'). exact T2.
Qed.
(** With -m, the box is drawn again as if the design had been named, if moreover both designs have the same minimum size. *)
Lemma sized_right : forall o inp d, as_designed o -> o_pad_right o = (-1)%Z -> d_pad_right (sized o inp d) = d_pad_right d.
Proof.
  intros o inp d (P1 & P2 & P3 & W & H) P4. unfold sized, adjust_size_and_padding. cbv zeta. rewrite P1, P4, W, H. cbn [over]. unfold fit_pad at 1. cbn [Nat.eqb negb].
  destruct (_ =? 0); [|destruct (_ <? _)]; (unfold fit_pad; cbn [Nat.eqb negb]; destruct (_ =? 0); [|destruct (_ <? _)]; reflexivity).
Qed.
Lemma expected_min : forall o d, o_reqwidth o = 0 -> o_reqheight o = 0 -> d_minwidth (apply_expected_size o d) = d_minwidth d /\ d_minheight (apply_expected_size o d) = d_minheight d.
Proof. intros o d W H. unfold apply_expected_size. cbv zeta. rewrite W, H. cbn [Nat.eqb negb d_minwidth d_minheight]. split; reflexivity. Qed.
Lemma same_design : forall e e' a b, d_shape e' = d_shape e -> d_indentmode e' = d_indentmode e -> d_pad_left e' = d_pad_left e -> d_pad_top e' = d_pad_top e -> d_pad_bottom e' = d_pad_bottom e -> d_pad_right e' = d_pad_right e ->
  with_min e' a b = with_min e a b.
Proof. intros e e' a b E1 E2 E3 E4 E5 E6. unfold with_min. rewrite E1, E2, E3, E4, E5, E6. reflexivity. Qed.
Lemma mended_step : forall U fuel color eol o d0 ds mode k rules rrules rules' rrules' raws inp j d, as_designed o -> o_pad_right o = (-1)%Z ->
  handle_input U true o d0 [] raws = Ok inp -> i_lines inp <> [] -> autodetect_design U inp (d0 :: ds) = Ok (Some j) -> nth_error (d0 :: ds) j = Some d ->
  (asked_to_kill d0 k <-> asked_to_kill d k) ->
  (d_minwidth d0 = d_minwidth d /\ d_minheight d0 = d_minheight d \/
   forall dj i inp2, mend_remove U o [d] 0 true mode k rrules' raws = Ok (Some (0, dj, i)) -> analyze_input U false dj (rules j) (i_lines i) (i_final_newline i) = Ok inp2 -> i_lines inp2 <> [] ->
     roomy_for inp2 d (d_minwidth d0) (d_minheight d0) /\ roomy_for inp2 d (d_minwidth d) (d_minheight d)) -> rules' 0 = rules j -> rrules' 0 = rrules j ->
  boxes_mend U fuel color eol o (d0 :: ds) 0 false mode k rules rrules raws = boxes_mend U fuel color eol o [d] 0 true mode k rules' rrules' raws.
Proof.
  intros U fuel color eol o d0 ds mode k rules rrules rules' rrules' raws inp j d Ho Hp Hi Hne Ha Hj Hk Hm Er1 Er2. unfold boxes_mend, mend_remove in *. unfold rd at 1 in Hm. unfold rd at 1 2. unfold rd at 2 3. cbn [nth_error bind] in Hm |- *.
  rewrite (read_any U o (apply_expected_size o d0) d0 raws), (read_any U o (apply_expected_size o d) d0 raws), Hi. rewrite (read_any U o (apply_expected_size o d) d0 raws), Hi in Hm. cbn [bind] in Hm |- *. destruct (is_nil (i_lines inp)) eqn:En; [destruct (i_lines inp); [congruence|discriminate En]|].
  cbv zeta in Hm |- *. change (adjust_size_and_padding o inp (apply_expected_size o d)) with (sized o inp d) in Hm. change (adjust_size_and_padding o inp (apply_expected_size o d0)) with (sized o inp d0). change (adjust_size_and_padding o inp (apply_expected_size o d)) with (sized o inp d). cbn [set_nth firstn skipn app] in Hm |- *.
  destruct (sized_as_designed o inp d0 Ho) as (A1 & A2 & A3 & A4 & A5). destruct (sized_as_designed o inp d Ho) as (B1 & B2 & B3 & B4 & B5).
  pose proof (sized_right o inp d0 Ho Hp) as A6. pose proof (sized_right o inp d Ho Hp) as B6.
  unfold select_design in Hm |- *. rewrite (same_viable U inp ds d0 (sized o inp d0) A1), Ha. cbn [bind] in Hm |- *.
  assert (X : exists dj, nth_error (sized o inp d0 :: ds) j = Some dj /\ d_shape dj = d_shape d /\ d_indentmode dj = d_indentmode d /\ d_pad_left dj = d_pad_left d /\ d_pad_top dj = d_pad_top d /\ d_pad_bottom dj = d_pad_bottom d /\ d_pad_right dj = d_pad_right d).
  { destruct j as [|j]; cbn [nth_error] in *; [injection Hj as <-; exists (sized o inp d0); auto 10|exists d; auto 10]. }
  destruct X as (dj & Ej & S1 & S2 & S3 & S4 & S5 & S6). unfold rd in Hm |- *. rewrite Ej. cbn [bind nth_error] in Hm |- *. unfold handle_remove_box in Hm |- *.
  rewrite (kill_shape d0 (sized o inp d0) k A1), (kill_shape d (sized o inp d) k B1), (kill_same d0 d k Hk).
  rewrite (kill_shape d (sized o inp d) k B1) in Hm. rewrite (same_removed U d (sized o inp d) B1) in Hm by assumption. rewrite Er2 in Hm.
  rewrite (same_removed U d dj S1) by assumption. rewrite (same_removed U d (sized o inp d) B1) by assumption. rewrite Er2.
  destruct (remove_box U d mode (kill_option d k) true inp) as [i| | | |]; [|reflexivity..]. cbn [bind] in Hm |- *.
  unfold apply_substitutions in Hm |- * . rewrite S2, B2. rewrite B2 in Hm. destruct (subst_lines U (rrules j) (i_maxline i) (i_lines i)) as [r| | | |]; [|reflexivity..]. cbn [bind] in Hm |- *.
  set (i0 := mkInput _ _ _ _) in *. destruct (trim_lines U i0) as [i'| | | |]; [|reflexivity..]. cbn [bind] in Hm |- *.
  destruct (expected_min o d0) as [M1 M2]; [apply Ho|apply Ho|]. destruct (expected_min o d) as [M3 M4]; [apply Ho|apply Ho|]. rewrite M1, M2, M3, M4, Er1.
  rewrite (same_design d dj _ _ S1 S2 S3 S4 S5 S6), (same_design d (sized o inp d) _ _ B1 B2 B3 B4 B5 B6).
  destruct Hm as [[-> ->]|Hm]; [reflexivity|]. specialize (Hm (sized o inp d) i').
  assert (An : forall x, d_indentmode x = d_indentmode d -> analyze_input U false x (rules j) (i_lines i') (i_final_newline i') = analyze_input U false d (rules j) (i_lines i') (i_final_newline i')).
  { intros x Ex. unfold analyze_input, apply_substitutions. rewrite Ex. reflexivity. }
  rewrite (An (sized o inp d) B2) in Hm. rewrite (An (with_min d (d_minwidth d0) (d_minheight d0)) eq_refl), (An (with_min d (d_minwidth d) (d_minheight d)) eq_refl). destruct (analyze_input U false d (rules j) (i_lines i') (i_final_newline i')) as [inp2| | | |]; [|reflexivity..]. cbn [bind].
  destruct (is_nil (i_lines inp2)) eqn:En2; [reflexivity|]. destruct (Hm inp2 eq_refl eq_refl) as [H1 H2]; [intros Z; rewrite Z in En2; discriminate En2|]. apply drawn_same; assumption.
Qed.
Theorem C79_mended : forall U fuel color eol o d0 ds mode k rules rrules rules' rrules' raws inp j d, as_designed o -> o_pad_right o = (-1)%Z ->
  handle_input U true o d0 [] raws = Ok inp -> i_lines inp <> [] -> autodetect_design U inp (d0 :: ds) = Ok (Some j) -> nth_error (d0 :: ds) j = Some d ->
  (asked_to_kill d0 k <-> asked_to_kill d k) -> d_minwidth d0 = d_minwidth d -> d_minheight d0 = d_minheight d -> rules' 0 = rules j -> rrules' 0 = rrules j ->
  boxes_mend U fuel color eol o (d0 :: ds) 0 false mode k rules rrules raws = boxes_mend U fuel color eol o [d] 0 true mode k rules' rrules' raws.
Proof. intros. eapply mended_step; try eassumption. left. split; assumption. Qed.
Print Assumptions C79_mended.
(** ... or if the text inside the box is large enough for both minimum sizes, and these for the corners *)
Theorem C79_roomy : forall U fuel color eol o d0 ds mode k rules rrules rules' rrules' raws inp j d, as_designed o -> o_pad_right o = (-1)%Z ->
  handle_input U true o d0 [] raws = Ok inp -> i_lines inp <> [] -> autodetect_design U inp (d0 :: ds) = Ok (Some j) -> nth_error (d0 :: ds) j = Some d ->
  (asked_to_kill d0 k <-> asked_to_kill d k) ->
  (forall dj i inp2, mend_remove U o [d] 0 true mode k rrules' raws = Ok (Some (0, dj, i)) -> analyze_input U false dj (rules j) (i_lines i) (i_final_newline i) = Ok inp2 -> i_lines inp2 <> [] ->
     roomy_for inp2 d (d_minwidth d0) (d_minheight d0) /\ roomy_for inp2 d (d_minwidth d) (d_minheight d)) -> rules' 0 = rules j -> rrules' 0 = rrules j ->
  boxes_mend U fuel color eol o (d0 :: ds) 0 false mode k rules rrules raws = boxes_mend U fuel color eol o [d] 0 true mode k rules' rrules' raws.
Proof. intros. eapply mended_step; try eassumption. right. assumption. Qed.
Print Assumptions C79_roomy.
(** ... and if there is no padding at the sides and the corners of the detected design are wider than the default design can be, the size of the box
    wraps around whenever the box is mended with -d. *)
Lemma removed_alike : forall U o d0 ds mode k rrules rrules' raws inp j d, as_designed o -> o_pad_right o = (-1)%Z ->
  handle_input U true o d0 [] raws = Ok inp -> i_lines inp <> [] -> autodetect_design U inp (d0 :: ds) = Ok (Some j) -> nth_error (d0 :: ds) j = Some d ->
  (asked_to_kill d0 k <-> asked_to_kill d k) -> rrules' 0 = rrules j ->
  exists dj x, d_shape dj = d_shape d /\ d_indentmode dj = d_indentmode d /\ d_pad_left dj = d_pad_left d /\ d_pad_right dj = d_pad_right d /\
    mend_remove U o (d0 :: ds) 0 false mode k rrules raws = (i <- x ;; Ok (Some (j, dj, i))) /\
    mend_remove U o [d] 0 true mode k rrules' raws = (i <- x ;; Ok (Some (0, sized o inp d, i))).
Proof.
  intros U o d0 ds mode k rrules rrules' raws inp j d Ho Hp Hi Hne Ha Hj Hk Er2. unfold mend_remove. unfold rd at 1. unfold rd at 2. cbn [nth_error bind].
  rewrite (read_any U o (apply_expected_size o d0) d0 raws), (read_any U o (apply_expected_size o d) d0 raws), Hi. cbn [bind]. destruct (is_nil (i_lines inp)) eqn:En; [destruct (i_lines inp); [congruence|discriminate En]|].
  cbv zeta. change (adjust_size_and_padding o inp (apply_expected_size o d0)) with (sized o inp d0). change (adjust_size_and_padding o inp (apply_expected_size o d)) with (sized o inp d). cbn [set_nth firstn skipn app].
  destruct (sized_as_designed o inp d0 Ho) as (A1 & A2 & A3 & A4 & A5). destruct (sized_as_designed o inp d Ho) as (B1 & B2 & B3 & B4 & B5).
  pose proof (sized_right o inp d0 Ho Hp) as A6. pose proof (sized_right o inp d Ho Hp) as B6.
  unfold select_design. rewrite (same_viable U inp ds d0 (sized o inp d0) A1), Ha. cbn [bind].
  assert (X : exists dj, nth_error (sized o inp d0 :: ds) j = Some dj /\ d_shape dj = d_shape d /\ d_indentmode dj = d_indentmode d /\ d_pad_left dj = d_pad_left d /\ d_pad_top dj = d_pad_top d /\ d_pad_bottom dj = d_pad_bottom d /\ d_pad_right dj = d_pad_right d).
  { destruct j as [|j]; cbn [nth_error] in *; [injection Hj as <-; exists (sized o inp d0); auto 10|exists d; auto 10]. }
  destruct X as (dj & Ej & S1 & S2 & S3 & S4 & S5 & S6). unfold rd. rewrite Ej. cbn [bind nth_error]. unfold handle_remove_box.
  rewrite (kill_shape d0 (sized o inp d0) k A1), (kill_shape d (sized o inp d) k B1), (kill_same d0 d k Hk).
  rewrite (same_removed U d dj S1) by assumption. rewrite (same_removed U d (sized o inp d) B1) by assumption. rewrite Er2.
  exists dj, (i <- (i <- remove_box U d mode (kill_option d k) true inp ;; apply_substitutions U d (rrules j) i) ;; trim_lines U i).
  split; [exact S1|]. split; [exact S2|]. split; [exact S3|]. split; [exact S6|].
  destruct (remove_box U d mode (kill_option d k) true inp) as [i| | | |]; [|split; reflexivity..]. cbn [bind].
  unfold apply_substitutions. rewrite S2, B2. destruct (subst_lines U (rrules j) (i_maxline i) (i_lines i)) as [r| | | |]; [|split; reflexivity..]. cbn [bind]. split; reflexivity.
Qed.
Theorem C79_too_small : forall U fuel color eol o d0 ds mode k rules rrules rules' rrules' raws inp j d out, as_designed o -> o_pad_right o = (-1)%Z ->
  handle_input U true o d0 [] raws = Ok inp -> i_lines inp <> [] -> autodetect_design U inp (d0 :: ds) = Ok (Some j) -> nth_error (d0 :: ds) j = Some d ->
  (asked_to_kill d0 k <-> asked_to_kill d k) -> rules' 0 = rules j -> rrules' 0 = rrules j ->
  d_pad_left d = 0 -> d_pad_right d = 0 -> d_minwidth d0 < s_width (d_shape d NW) + s_width (d_shape d NE) ->
  boxes_mend U fuel color eol o [d] 0 true mode k rules' rrules' raws = Ok out -> out <> [] ->
  boxes_mend U fuel color eol o (d0 :: ds) 0 false mode k rules rrules raws = Wrap.
Proof.
  intros U fuel color eol o d0 ds mode k rules rrules rules' rrules' raws inp j d out Ho Hp Hi Hne Ha Hj Hk Er1 Er2 L R M E Hout.
  destruct (removed_alike U o d0 ds mode k rrules rrules' raws inp j d Ho Hp Hi Hne Ha Hj Hk Er2) as (dj & x & S1 & S2 & S3 & S6 & X1 & X2).
  unfold boxes_mend in E. cbn [rd nth_error bind] in E. unfold rd in E. cbn [nth_error bind] in E. rewrite X2 in E. destruct x as [i| | | |]; try discriminate E. cbn [bind] in *.
  assert (An : forall x, d_indentmode x = d_indentmode d -> analyze_input U false x (rules j) (i_lines i) (i_final_newline i) = analyze_input U false d (rules j) (i_lines i) (i_final_newline i)).
  { intros x Ex. unfold analyze_input, apply_substitutions. rewrite Ex. reflexivity. }
  cbv zeta in E. rewrite Er1, An in E by (exact (proj1 (proj2 (sized_as_designed o inp d Ho)))). destruct (analyze_input U false d (rules j) (i_lines i) (i_final_newline i)) as [inp2| | | |] eqn:Ea; try discriminate E. cbn [bind] in E.
  destruct (is_nil (i_lines inp2)) eqn:En; [injection E as E; congruence|].
  apply (C40_too_small U fuel color eol o (d0 :: ds) 0 d0 false mode k rules rrules raws j dj i inp2 eq_refl X1).
  - rewrite (An dj S2). reflexivity.
  - intros Z. rewrite Z in En. discriminate En.
  - destruct Ho as (P1 & _). rewrite P1, S3, L. reflexivity.
  - rewrite Hp, S6, R. reflexivity.
  - destruct (expected_min o d0) as [M1 _]; [apply Ho|apply Ho|]. rewrite M1, S1. exact M.
Qed.
Print Assumptions C79_too_small.
(** No design is detected: nothing but a message. *)
Theorem C78_undetected : forall U eol o d0 ds mode k rules raws inp,
  handle_input U true o d0 [] raws = Ok inp -> i_lines inp <> [] -> autodetect_design U inp (d0 :: ds) = Ok None ->
  boxes_remove_from U eol o (d0 :: ds) 0 false mode k rules raws = Err.
Proof.
  intros U eol o d0 ds mode k rules raws inp Hi Hne Ha. unfold boxes_remove_from. unfold rd at 1. cbn [nth_error bind].
  rewrite (read_any U o (apply_expected_size o d0) d0 raws), Hi. cbn [bind]. destruct (is_nil (i_lines inp)) eqn:En; [destruct (i_lines inp); [congruence|discriminate En]|].
  cbv zeta. change (adjust_size_and_padding o inp (apply_expected_size o d0)) with (sized o inp d0). cbn [set_nth firstn skipn app].
  unfold select_design. rewrite (same_viable U inp ds d0 (sized o inp d0) (rp_shape _ _ _ (repadded_sized o inp d0))), Ha. reflexivity.
Qed.
Print Assumptions C78_undetected.

(** ** The program with the shipped configuration file *)
Section Shipped.
Variable V : uctab.
Notation U := (drawing_tab V).
(** the first design of the file has a top side *)
Lemma first_has_top : forall fo sur s d ds, isempty s = true -> load_shipped V fo sur (Ok s) boxes_config = Ok (d :: ds, []) -> blank_side (to_design d) BTOP = false.
Proof.
  intros fo sur s d ds Hs E. destruct (shipped_all V fo sur s Hs) as (ds' & E' & Nm & _).
  destruct (shipped_part V fo sur (fun d => String.eqb (name_of d) "c" && negb (blank_side (to_design d) BTOP)) 0) as (ds2 & c & E2 & Hc & H); [lia|intros X; vm_compute; reflexivity|].
  rewrite <- (load_text V fo sur (Ok sentry0) boxes_config statement_list shipped_statements), <- (load_empty V fo sur s boxes_config Hs) in E2.
  clear Hs. generalize dependent (load_shipped V fo sur (Ok s) boxes_config). intros r E E' E2. rewrite E in E', E2. injection E' as <-. injection E2 as <-. clear E.
  apply andb_true_iff in H as [H1 H2]. apply String.eqb_eq in H1. apply negb_true_iff in H2. destruct Hc as [->|Hc]; [exact H2|]. exfalso.
  cbn [map] in Nm. unfold shipped_names in Nm. injection Nm as _ Nm. apply (in_map name_of) in Hc. rewrite H1, Nm in Hc. apply among_in in Hc. vm_compute in Hc. discriminate Hc.
Qed.
(** 'boxes OPTIONS -r' *)
Lemma removes_any : forall w items g fuel d0 ds stdin, default_shipped_run w items g -> 1 <= fuel ->
  load_shipped V (w_can_read w) (seen w (c_file (g_src g))) (w_beyond w) boxes_config = Ok (d0 :: ds, []) ->
  main U fuel (with_stdin w stdin) false (items ++ [ItR]) [] =
    or_exit (boxes_remove_from U [10%N] (opts_of g) (map to_design (d0 :: ds)) 0 false 0 (r_kill (g_rem g))
      (fun j => match nth_error (d0 :: ds) j with Some d => map (w_subst w) (c_revrules d) | None => [] end) (raw_lines stdin)) (fun t => Ok (Success t)).
Proof.
  intros w items g fuel d0 ds stdin R Hf El. destruct (ds_beyond _ _ _ R) as (s & Hs & Hse). destruct (ds_file _ _ _ R) as (f & F1 & F2 & F3).
  pose proof (all_file V fuel w (removing g) f boxes_config (d0 :: ds) s Hf F2 F3) as AF. rewrite Hs in El. clear F3.
  destruct R as [M D Hn Hi He Pl _ _]. pose proof (draws _ _ M D) as Sg.
  assert (Po : popts_of (removing g) = mkPopts None true).
  { pose proof (popts_any items g M D Hn) as P. unfold popts_of in *. cbn [removing with_rem g_rem g_src g_mode r_remove orb]. unfold any in P. injection P as P _. rewrite P. reflexivity. }
  assert (Bu : c_by_user (g_src g) = false).
  { destruct (c_by_user (g_src g)) eqn:E; [|reflexivity]. apply (mt_by_user _ _ M) in E as (arg & [E|E]); [destruct (D _ E)|destruct (Hn _ E)]. }
  specialize (AF He Hs Po El ltac:(discriminate)). clear El.
  unfold main, process_commandline. rewrite (items_removing items create_new_opt false g (proj2 (meant_ok items g) M)). cbn [bind input_output_files or_exit].
  change (g_mode (removing g)) with (g_mode g). destruct (mt_help _ _ M) as [-> ->].
  change (handle_config_parsing U fuel (with_stdin w stdin) (removing g)) with (handle_config_parsing U fuel w (removing g)).
  unfold handle_config_parsing. change (sur_with (w_sur w) (c_file (g_src (removing g)))) with (seen w (c_file (g_src g))).
  destruct (discovered U _ (drawing_tab_ok V) Pl) as (r & -> & Hr). cbn [bind]. apply Hr in F1. destruct r as [file|]; [|discriminate F1]. injection F1 as F1.
  change (c_cld (g_src (removing g))) with (c_cld (g_src g)). rewrite (dg_cld g Sg), F1, AF. cbn [bind or_exit].
  rewrite (dg_list g Sg), (dg_query g Sg). unfold work, removing, with_rem, opts_of. cbn [g_rem g_src g_out g_tab g_align g_size g_pad r_mend r_remove r_indent r_kill].
  rewrite (dg_mend g Sg), Hi, He, Bu. cbn [with_indentmode N.eqb map]. reflexivity.
Qed.

(** the text as the program sees it, and what the detection makes of it *)
Lemma looked_at : forall w items g stdin, default_shipped_run w items g -> t_exp (g_tab g) = 101%N ->
  stdin <> [] -> Forall (removable U (Z.to_nat (t_stop (g_tab g)))) (raw_lines stdin) ->
  exists d0 ds inp last r, load_shipped V (w_can_read w) (seen w (c_file (g_src g))) (w_beyond w) boxes_config = Ok (d0 :: ds, []) /\ map name_of (d0 :: ds) = shipped_names /\
    blank_side (to_design d0) BTOP = false /\ handle_input U true (opts_of g) (to_design d0) [] (raw_lines stdin) = Ok inp /\ i_lines inp <> [] /\
    autodetect_design U inp (to_design d0 :: map to_design ds) = Ok r /\
    Forall2 (fun raw l => content (Z.to_nat (t_stop (g_tab g))) raw (memory (l_text l))) (raw_lines stdin) (i_lines inp) /\
    enough (hits U inp (map to_design (d0 :: ds))) last /\ first_best (hits U inp (map to_design (d0 :: ds))) last r /\
    (forall j, r = Some j -> exists d, nth_error (d0 :: ds) j = Some d).
Proof.
  intros w items g stdin R Ht Hne Hr. destruct (ds_beyond _ _ _ R) as (s & Hs & Hse).
  destruct (C63_loaded V (w_can_read w) (seen w (c_file (g_src g))) s Hse) as (ds & El & Nm & _).
  assert (X : exists d0 ds', ds = d0 :: ds') by (destruct ds as [|d0 ds']; [discriminate Nm|eauto]). destruct X as (d0 & ds' & ->). rename ds' into ds.
  pose proof (first_has_top _ _ s d0 ds Hse El) as Top. rewrite <- Hs in El.
  destruct (C55_in_range (w_can_read w) (w_can_write w) false items [] g (Some (Files None None))) as []; [apply C64_meaning; split; [exact (ds_meant _ _ _ R)|constructor]|].
  destruct (handle_taken U (drawing_tab_ok V) (opts_of g) (to_design d0) (raw_lines stdin)) as (ss & M & E & Hsn & Hss); [cbn [opts_of o_tabstop]; lia|exact Ht|exact (lines_of_text _ Hne)|exact Hr|].
  set (inp := mkInput (map (mk U) ss) M (get_indent (map (mk U) ss)) (has_linebreak (List.last (raw_lines stdin) []))) in *.
  assert (Hb : Forall (built_line U) (i_lines inp)).
  { cbn [inp i_lines]. clear - Hss. induction Hss; [constructor|]. cbn [map]. constructor; [eapply taken_line; [apply drawing_tab_ok|eassumption]|assumption]. }
  assert (Hin : i_lines inp <> []) by (cbn [inp i_lines]; destruct ss; [congruence|discriminate]).
  assert (El' : load_shipped V (w_can_read w) (seen w (c_file (g_src g))) (Ok s) boxes_config = Ok (d0 :: ds, [])) by (rewrite <- Hs; exact El).
  destruct (C63_detection V _ _ s (d0 :: ds) Hse El' inp Hb) as (r & Er). clear El'.
  destruct (C41_best_match U inp _ r Er) as (lst & B1 & B2). exists d0, ds, inp, lst, r. split; [exact El|]. split; [exact Nm|]. split; [exact Top|]. split; [exact E|]. split; [exact Hin|]. split; [exact Er|]. split.
  { cbn [inp i_lines]. clear - Hss. induction Hss as [|raw t raws ss T H IH]; [constructor|]. cbn [map]. constructor; [|assumption]. cbn [mk l_text]. rewrite (mem_pl U). exact (tk_content _ _ _ _ T). }
  split; [exact B1|]. split; [exact B2|]. intros j ->. destruct B2 as (ct & sc & _ & (e & He & _) & _). destruct (nth_error (d0 :: ds) j) as [d|] eqn:Ej; [eauto|]. rewrite nth_error_map, Ej in He. discriminate He.
Qed.

(** Every text without escape sequences and empty lines: with -r and no -d, some design is the first best match, and the outcome is that with -d and any of its names;
    or none of the designs has anything in common with the text, and the program fails. The options -p and -s are not given, and the design agrees with the default
    design of the file whether blank lines are deleted (it has a top or a bottom side, or -k says it). *)
Theorem C78_shipped : forall w items g fuel stdin, default_shipped_run w items g -> 1 <= fuel -> as_designed (opts_of g) -> t_exp (g_tab g) = 101%N ->
  stdin <> [] -> Forall (removable U (Z.to_nat (t_stop (g_tab g)))) (raw_lines stdin) ->
  exists ds inp last r, load_shipped V (w_can_read w) (seen w (c_file (g_src g))) (w_beyond w) boxes_config = Ok (ds, []) /\ map name_of ds = shipped_names /\
    Forall2 (fun raw l => content (Z.to_nat (t_stop (g_tab g))) raw (memory (l_text l))) (raw_lines stdin) (i_lines inp) /\
    enough (hits U inp (map to_design ds)) last /\ first_best (hits U inp (map to_design ds)) last r /\
    match r with
    | None => main U fuel (with_stdin w stdin) false (items ++ [ItR]) [] = Ok Failure
    | Some j => exists d, nth_error ds j = Some d /\ forall n, called d n ->
        (r_kill (g_rem g) <> (-1)%Z \/ blank_side (to_design d) BTOP = false \/ blank_side (to_design d) BBOT = false) ->
        main U fuel (with_stdin w stdin) false (items ++ [ItR]) [] = main U fuel (with_stdin w stdin) false ((items ++ [ItD n]) ++ [ItR]) []
    end.
Proof.
  intros w items g fuel stdin R Hf Ho Ht Hne Hr. destruct (looked_at w items g stdin R Ht Hne Hr) as (d0 & ds & inp & lst & r & El & Nm & Top & E & Hin & Er & C & B1 & B2 & X).
  exists (d0 :: ds), inp, lst, r. split; [exact El|]. split; [exact Nm|]. split; [exact C|]. split; [exact B1|]. split; [exact B2|]. pose proof (removes_any w items g fuel d0 ds stdin R Hf El) as RA. destruct r as [j|].
  - destruct (X j eq_refl) as (d & Ej). exists d. split; [exact Ej|]. intros n Hc Hk. rewrite RA.
    rewrite (removes V w (items ++ [ItD n]) (naming n g) n fuel (d0 :: ds) d stdin (shipped_named w items g n R) Hf El (nth_error_In _ _ Ej) Hc).
    change (opts_of (naming n g)) with (opts_of g). change (g_rem (naming n g)) with (g_rem g). cbn [map].
    rewrite (C78_detected U [10%N] (opts_of g) (to_design d0) (map to_design ds) 0%N (r_kill (g_rem g)) _ (raw_lines stdin) inp j (to_design d) Ho E Hin Er).
    + rewrite Ej. reflexivity.
    + change (to_design d0 :: map to_design ds) with (map to_design (d0 :: ds)). rewrite nth_error_map, Ej. reflexivity.
    + unfold asked_to_kill. destruct Hk as [Hk|Hk]; [intuition congruence|]. split; intros [[A B]|B]; auto.
  - rewrite RA. cbn [map]. rewrite (C78_undetected U [10%N] (opts_of g) (to_design d0) (map to_design ds) 0%N (r_kill (g_rem g)) _ (raw_lines stdin) inp E Hin Er). reflexivity.
Qed.

(** 'boxes OPTIONS -m' *)
Lemma mends_any : forall w items g fuel d0 ds stdin, default_shipped_run w items g -> 1 <= fuel ->
  load_shipped V (w_can_read w) (seen w (c_file (g_src g))) (w_beyond w) boxes_config = Ok (d0 :: ds, []) ->
  main U fuel (with_stdin w stdin) false (items ++ [ItM]) [] =
    or_exit (boxes_mend U fuel (check_color_support w (o_color (g_out g))) [10%N] (opts_of g) (map to_design (d0 :: ds)) 0 false 0 0
      (fun j => match nth_error (d0 :: ds) j with Some d => map (w_subst w) (c_reprules d) | None => [] end)
      (fun j => match nth_error (d0 :: ds) j with Some d => map (w_subst w) (c_revrules d) | None => [] end) (raw_lines stdin)) (fun t => Ok (Success t)).
Proof.
  intros w items g fuel d0 ds stdin R Hf El. destruct (ds_beyond _ _ _ R) as (s & Hs & Hse). destruct (ds_file _ _ _ R) as (f & F1 & F2 & F3).
  pose proof (all_file V fuel w (mending g) f boxes_config (d0 :: ds) s Hf F2 F3) as AF. rewrite Hs in El. clear F3.
  destruct R as [M D Hn Hi He Pl _ _]. pose proof (draws _ _ M D) as Sg.
  assert (Po : popts_of (mending g) = mkPopts None true).
  { pose proof (popts_any items g M D Hn) as P. unfold popts_of in *. cbn [mending with_rem g_rem g_src g_mode r_remove orb]. unfold any in P. injection P as P _. rewrite P. reflexivity. }
  assert (Bu : c_by_user (g_src g) = false).
  { destruct (c_by_user (g_src g)) eqn:E; [|reflexivity]. apply (mt_by_user _ _ M) in E as (arg & [E|E]); [destruct (D _ E)|destruct (Hn _ E)]. }
  specialize (AF He Hs Po El ltac:(discriminate)). clear El.
  unfold main, process_commandline. rewrite (items_mending items create_new_opt false g (proj2 (meant_ok items g) M)). cbn [bind input_output_files or_exit].
  change (g_mode (mending g)) with (g_mode g). destruct (mt_help _ _ M) as [-> ->].
  change (handle_config_parsing U fuel (with_stdin w stdin) (mending g)) with (handle_config_parsing U fuel w (mending g)).
  unfold handle_config_parsing. change (sur_with (w_sur w) (c_file (g_src (mending g)))) with (seen w (c_file (g_src g))).
  destruct (discovered U _ (drawing_tab_ok V) Pl) as (r & -> & Hr). cbn [bind]. apply Hr in F1. destruct r as [file|]; [|discriminate F1]. injection F1 as F1.
  change (c_cld (g_src (mending g))) with (c_cld (g_src g)). rewrite (dg_cld g Sg), F1, AF. cbn [bind or_exit].
  rewrite (dg_list g Sg), (dg_query g Sg). unfold work, mending, with_rem, opts_of. cbn [g_rem g_src g_out g_tab g_align g_size g_pad r_mend r_remove r_indent r_kill].
  rewrite Hi, He, Bu. cbn [with_indentmode N.eqb Z.eqb Pos.eqb map]. reflexivity.
Qed.
(** Mending: the same, if the detected design has the minimum size of the default design of the file. Blank lines are kept in any case. *)
Theorem C79_shipped : forall w items g fuel stdin, default_shipped_run w items g -> 1 <= fuel -> as_designed (opts_of g) -> p_right (g_pad g) = (-1)%Z -> t_exp (g_tab g) = 101%N ->
  stdin <> [] -> Forall (removable U (Z.to_nat (t_stop (g_tab g)))) (raw_lines stdin) ->
  exists d0 ds inp last r, load_shipped V (w_can_read w) (seen w (c_file (g_src g))) (w_beyond w) boxes_config = Ok (d0 :: ds, []) /\ map name_of (d0 :: ds) = shipped_names /\
    Forall2 (fun raw l => content (Z.to_nat (t_stop (g_tab g))) raw (memory (l_text l))) (raw_lines stdin) (i_lines inp) /\
    enough (hits U inp (map to_design (d0 :: ds))) last /\ first_best (hits U inp (map to_design (d0 :: ds))) last r /\
    match r with
    | None => main U fuel (with_stdin w stdin) false (items ++ [ItM]) [] = Ok Failure
    | Some j => exists d, nth_error (d0 :: ds) j = Some d /\ forall n, called d n ->
        c_minwidth d = c_minwidth d0 -> c_minheight d = c_minheight d0 ->
        main U fuel (with_stdin w stdin) false (items ++ [ItM]) [] = main U fuel (with_stdin w stdin) false ((items ++ [ItD n]) ++ [ItM]) []
    end.
Proof.
  intros w items g fuel stdin R Hf Ho Hp Ht Hne Hr. destruct (looked_at w items g stdin R Ht Hne Hr) as (d0 & ds & inp & lst & r & El & Nm & Top & E & Hin & Er & C & B1 & B2 & X).
  exists d0, ds, inp, lst, r. split; [exact El|]. split; [exact Nm|]. split; [exact C|]. split; [exact B1|]. split; [exact B2|]. pose proof (mends_any w items g fuel d0 ds stdin R Hf El) as RA. destruct r as [j|].
  - destruct (X j eq_refl) as (d & Ej). exists d. split; [exact Ej|]. intros n Hc Hw Hh. rewrite RA.
    destruct (mends V w (items ++ [ItD n]) (naming n g) n fuel (d0 :: ds) d stdin (shipped_named w items g n R) Hf El (nth_error_In _ _ Ej) Hc) as (rules & rrules & R1 & R2 & ->). clear El.
    change (opts_of (naming n g)) with (opts_of g). change (g_out (naming n g)) with (g_out g). cbn [map]. f_equal.
    apply (C79_mended U fuel _ [10%N] (opts_of g) (to_design d0) (map to_design ds) 0%N 0%Z _ _ rules rrules (raw_lines stdin) inp j (to_design d) Ho Hp E Hin Er).
    + change (to_design d0 :: map to_design ds) with (map to_design (d0 :: ds)). rewrite nth_error_map, Ej. reflexivity.
    + unfold asked_to_kill. split; intros [[A _]|[_ A]]; congruence.
    + symmetry. exact Hw.
    + symmetry. exact Hh.
    + rewrite Ej. exact R1.
    + rewrite Ej. exact R2.
  - rewrite RA. cbn [map]. unfold boxes_mend, mend_remove. unfold rd at 1 2. cbn [nth_error bind]. rewrite (read_any U (opts_of g) _ (to_design d0) (raw_lines stdin)), E. cbn [bind].
    destruct (is_nil (i_lines inp)) eqn:En; [destruct (i_lines inp); [congruence|discriminate En]|].
    cbv zeta. change (adjust_size_and_padding (opts_of g) inp (apply_expected_size (opts_of g) (to_design d0))) with (sized (opts_of g) inp (to_design d0)). cbn [set_nth firstn skipn app].
    unfold select_design. rewrite (same_viable U inp (map to_design ds) (to_design d0) (sized (opts_of g) inp (to_design d0)) (rp_shape _ _ _ (repadded_sized (opts_of g) inp (to_design d0)))), Er. reflexivity.
Qed.
(** The shipped file: a box that is mended with -d is not mended without it if its design has no padding at the sides and its corners are wider than
    the smallest box of the first design. *)
Theorem C79_shipped_too_small : forall w items g fuel stdin, default_shipped_run w items g -> 1 <= fuel -> as_designed (opts_of g) -> p_right (g_pad g) = (-1)%Z -> t_exp (g_tab g) = 101%N ->
  stdin <> [] -> Forall (removable U (Z.to_nat (t_stop (g_tab g)))) (raw_lines stdin) ->
  exists d0 ds inp last r, load_shipped V (w_can_read w) (seen w (c_file (g_src g))) (w_beyond w) boxes_config = Ok (d0 :: ds, []) /\ map name_of (d0 :: ds) = shipped_names /\
    Forall2 (fun raw l => content (Z.to_nat (t_stop (g_tab g))) raw (memory (l_text l))) (raw_lines stdin) (i_lines inp) /\
    enough (hits U inp (map to_design (d0 :: ds))) last /\ first_best (hits U inp (map to_design (d0 :: ds))) last r /\
    forall j d n out, r = Some j -> nth_error (d0 :: ds) j = Some d -> called d n ->
      d_pad_left (to_design d) = 0 -> d_pad_right (to_design d) = 0 -> c_minwidth d0 < s_width (c_shape d NW) + s_width (c_shape d NE) ->
      main U fuel (with_stdin w stdin) false ((items ++ [ItD n]) ++ [ItM]) [] = Ok (Success out) -> out <> [] ->
      main U fuel (with_stdin w stdin) false (items ++ [ItM]) [] = Wrap.
Proof.
  intros w items g fuel stdin R Hf Ho Hp Ht Hne Hr. destruct (looked_at w items g stdin R Ht Hne Hr) as (d0 & ds & inp & lst & r & El & Nm & Top & E & Hin & Er & C & B1 & B2 & X).
  exists d0, ds, inp, lst, r. split; [exact El|]. split; [exact Nm|]. split; [exact C|]. split; [exact B1|]. split; [exact B2|]. pose proof (mends_any w items g fuel d0 ds stdin R Hf El) as RA.
  intros j d n out -> Ej Hc L Rr M Hm Hout. rewrite RA. clear RA.
  destruct (mends V w (items ++ [ItD n]) (naming n g) n fuel (d0 :: ds) d stdin (shipped_named w items g n R) Hf El (nth_error_In _ _ Ej) Hc) as (rules & rrules & R1 & R2 & Q). rewrite Q in Hm. clear Q El.
  change (opts_of (naming n g)) with (opts_of g) in Hm. change (g_out (naming n g)) with (g_out g) in Hm. cbn [map].
  match type of Hm with or_exit ?x _ = _ => destruct x as [out'| | | |] eqn:Em; cbn [or_exit] in Hm; try discriminate Hm end. injection Hm as <-.
  rewrite (C79_too_small U fuel _ [10%N] (opts_of g) (to_design d0) (map to_design ds) 0%N 0%Z _ _ rules rrules (raw_lines stdin) inp j (to_design d) out' Ho Hp E Hin Er).
  - reflexivity.
  - change (to_design d0 :: map to_design ds) with (map to_design (d0 :: ds)). rewrite nth_error_map, Ej. reflexivity.
  - unfold asked_to_kill. split; intros [[A _]|[_ A]]; congruence.
  - rewrite Ej. exact R1.
  - rewrite Ej. exact R2.
  - exact L.
  - exact Rr.
  - exact M.
  - exact Em.
  - exact Hout.
Qed.
(** such designs are in the file *)
Lemma first_width : forall fo sur s d ds, isempty s = true -> load_shipped V fo sur (Ok s) boxes_config = Ok (d :: ds, []) -> c_minwidth d = 5.
Proof.
  intros fo sur s d ds Hs E. destruct (shipped_all V fo sur s Hs) as (ds' & E' & Nm & _).
  destruct (shipped_part V fo sur (fun d => String.eqb (name_of d) "c" && (c_minwidth d =? 5)) 0) as (ds2 & c & E2 & Hc & H); [lia|intros X; vm_compute; reflexivity|].
  rewrite <- (load_text V fo sur (Ok sentry0) boxes_config statement_list shipped_statements), <- (load_empty V fo sur s boxes_config Hs) in E2.
  clear Hs. generalize dependent (load_shipped V fo sur (Ok s) boxes_config). intros r E E' E2. rewrite E in E', E2. injection E' as <-. injection E2 as <-. clear E.
  apply andb_true_iff in H as [H1 H2]. apply String.eqb_eq in H1. apply Nat.eqb_eq in H2. destruct Hc as [->|Hc]; [exact H2|]. exfalso.
  cbn [map] in Nm. unfold shipped_names in Nm. injection Nm as _ Nm. apply (in_map name_of) in Hc. rewrite H1, Nm in Hc. apply among_in in Hc. vm_compute in Hc. discriminate Hc.
Qed.
Theorem C79_spring : forall fo sur s d0 ds, isempty s = true -> load_shipped V fo sur (Ok s) boxes_config = Ok (d0 :: ds, []) ->
  exists d, In d (d0 :: ds) /\ name_of d = "spring"%string /\ d_pad_left (to_design d) = 0 /\ d_pad_right (to_design d) = 0 /\ c_minwidth d0 < s_width (c_shape d NW) + s_width (c_shape d NE).
Proof.
  intros fo sur s d0 ds Hs E. pose proof (first_width fo sur s d0 ds Hs E) as W.
  destruct (shipped_part V fo sur (fun d => String.eqb (name_of d) "spring" && ((d_pad_left (to_design d) =? 0) && ((d_pad_right (to_design d) =? 0) && (5 <? s_width (c_shape d NW) + s_width (c_shape d NE))))) 23) as (ds2 & c & E2 & Hc & H); [lia|intros X; vm_compute; reflexivity|].
  rewrite <- (load_text V fo sur (Ok sentry0) boxes_config statement_list shipped_statements), <- (load_empty V fo sur s boxes_config Hs) in E2.
  clear Hs. generalize dependent (load_shipped V fo sur (Ok s) boxes_config). intros r E E2. rewrite E in E2. injection E2 as <-. clear E.
  apply andb_true_iff in H as [H1 H]. apply andb_true_iff in H as [H2 H]. apply andb_true_iff in H as [H3 H4]. apply String.eqb_eq in H1. apply Nat.eqb_eq in H2. apply Nat.eqb_eq in H3. apply Nat.ltb_lt in H4.
  exists c. rewrite W. auto.
Qed.
End Shipped.
Print Assumptions C78_shipped.
Print Assumptions C79_shipped.
Print Assumptions C79_shipped_too_small.
Print Assumptions C79_spring.

(** ** The conditions are needed *)
Definition detect_text : list N := txt "BOX frame
sample
x
ends
shapes { nw (""+"") n (""-"") ne (""+"") e (""|"") se (""+"") s (""-"") sw (""+"") w (""|"") }
elastic (n,e,s,w)
END frame
BOX bar, side
sample
x
ends
shapes { w (""#"") }
elastic (w)
padding { left 1 }
END bar
".
Definition barred : list N := txt "#
# a
# b
#
".
Definition unboxed (items : list Model_Cmdline.item) : string := Prop_Adhoc.shown (main demo_tab 40 (with_stdin (ask_world detect_text) barred) false items []).
(** The default design has a top side, the detected one has not: blank lines are deleted without -d, not with it. *)
Theorem C78_blank_lines_refuted : unboxed [ItR] = "a
b
"%string /\ unboxed [ItD (txt "side"); ItR] = "
a
b

"%string /\ unboxed [ItKillBlank; ItR] = unboxed [ItKillBlank; ItD (txt "side"); ItR].
Proof. split; [|split]; vm_compute; reflexivity. Qed.
(** With -p, the padding is that of the command line if the design is named, and that of the design if it is detected. *)
Theorem C78_padding_refuted : unboxed [ItKillBlank; ItP (txt "l0"); ItR] = "a
b
"%string /\ unboxed [ItKillBlank; ItP (txt "l0"); ItD (txt "side"); ItR] = " a
 b
"%string.
Proof. split; vm_compute; reflexivity. Qed.
Print Assumptions C78_blank_lines_refuted.
Print Assumptions C78_padding_refuted.
(** With -m, the minimum size is that of the default design if the design is detected: without -d, the program fails to draw a
    box that it draws with -d. *)
Definition thick_text (first : string) : list N := txt (first ++ "
BOX thick
sample
x
ends
shapes { nw (""####"") n (""="") ne (""####"") e (""###|"") se (""####"") s (""="") sw (""####"") w (""|###"") }
elastic (n,e,s,w)
END thick
")%string.
Definition tiny_first : string := "BOX tiny
sample
x
ends
shapes { nw (""+"") n (""-"") ne (""+"") e (""|"") se (""+"") s (""-"") sw (""+"") w (""|"") }
elastic (n,e,s,w)
END tiny".
Definition other_first : string := "BOX other
sample
x
ends
shapes { nw (""%%%%"") n (""~"") ne (""%%%%"") e (""%%%%"") se (""%%%%"") s (""~"") sw (""%%%%"") w (""%%%%"") }
elastic (n,e,s,w)
END other".
Definition thick_box : list N := txt "####=####
|###a###|
|###b
####=####
".
Definition mended_thick (first : string) (items : list Model_Cmdline.item) := main demo_tab 40 (with_stdin (ask_world (thick_text first)) thick_box) false (items ++ [ItM]) [].
Theorem C79_minimum_size_refuted : mended_thick tiny_first [] = Wrap /\ Prop_Adhoc.shown (mended_thick tiny_first [ItD (txt "Thick")]) = "####=####
|###a###|
|###b###|
####=####
"%string /\ mended_thick other_first [] = mended_thick other_first [ItD (txt "Thick")].
Proof. split; [|split]; vm_compute; reflexivity. Qed.
Print Assumptions C79_minimum_size_refuted.
(** nothing that looks like one of the designs *)
Example C78_undetected_example : main demo_tab 40 (with_stdin (ask_world detect_text) (txt "a = b
")) false [ItR] [] = Ok Failure.
Proof. vm_compute. reflexivity. Qed.

(** ** Examples *)
Definition wall_text : list N := txt "/*=====<>++++**\
 *-----><....*
||           - *
*  * int *|   *|
*    b|| *     *
\*~~~~~~~~~~o**/
".
Example C78_detected_example : as_designed opts0 /\ exists inp, handle_input demo_tab true opts0 demo_hash [] (raw_lines wall_text) = Ok inp /\ i_lines inp <> [] /\
  autodetect_design demo_tab inp [demo_hash; demo_wall] = Ok (Some 1) /\ (asked_to_kill demo_hash (-1) <-> asked_to_kill demo_wall (-1)) /\
  boxes_remove_from demo_tab [10%N] opts0 [demo_hash; demo_wall] 0 false 0 (-1) (fun _ => []) (raw_lines wall_text) = Ok (txt "* int *|
  b|| *
").
Proof.
  split; [repeat split|]. eexists. split; [vm_compute; reflexivity|]. split; [discriminate|]. split; [vm_compute; reflexivity|]. split; [|vm_compute; reflexivity].
  split; intros _; left; (split; [reflexivity|left; reflexivity]).
Qed.
Example C79_mended_example : let d0 := with_min mend_small (d_minwidth mend_wide) (d_minheight mend_wide) in let raws := broken_box in exists inp, handle_input demo_tab true opts0 d0 [] raws = Ok inp /\ i_lines inp <> [] /\
  autodetect_design demo_tab inp [d0; mend_wide] = Ok (Some 1) /\ o_pad_right opts0 = (-1)%Z /\ (asked_to_kill d0 0 <-> asked_to_kill mend_wide 0) /\
  boxes_mend demo_tab 100 false [10%N] opts0 [d0; mend_wide] 0 false 0 0 no_rules no_rules raws = Ok (txt "/==========\
|   text   |
\==========/
").
Proof.
  eexists. split; [vm_compute; reflexivity|]. split; [discriminate|]. split; [vm_compute; reflexivity|]. split; [reflexivity|]. split; [|vm_compute; reflexivity].
  unfold asked_to_kill. split; intros [[A _]|[_ A]]; congruence.
Qed.
(** the default design is smaller than the corners of the detected one, which has padding *)
Definition mend_padded : design := mkDesign (d_shape mend_wide) 98 0 1 0 1 9 3.
Example C79_roomy_example : exists inp, handle_input demo_tab true opts0 mend_small [] broken_box = Ok inp /\ i_lines inp <> [] /\
  autodetect_design demo_tab inp [mend_small; mend_padded] = Ok (Some 1) /\
  (forall dj i inp2, mend_remove demo_tab opts0 [mend_padded] 0 true 0 0 no_rules broken_box = Ok (Some (0, dj, i)) ->
     analyze_input demo_tab false dj (no_rules 1) (i_lines i) (i_final_newline i) = Ok inp2 -> i_lines inp2 <> [] -> roomy_for inp2 mend_padded 3 3 /\ roomy_for inp2 mend_padded 9 3) /\
  boxes_mend demo_tab 100 false [10%N] opts0 [mend_small; mend_padded] 0 false 0 0 no_rules no_rules broken_box = Ok (txt "/============\
|    text    |
\============/
").
Proof.
  eexists. split; [vm_compute; reflexivity|]. split; [discriminate|]. split; [vm_compute; reflexivity|]. split; [|vm_compute; reflexivity].
  intros dj i inp2 E1 E2 _. vm_compute in E1. injection E1 as <- <-. vm_compute in E2. injection E2 as <-. unfold roomy_for, roomy. cbn. repeat split; lia.
Qed.
Example C79_too_small_example : exists inp, handle_input demo_tab true opts0 mend_small [] broken_box = Ok inp /\ i_lines inp <> [] /\
  autodetect_design demo_tab inp [mend_small; mend_wide] = Ok (Some 1) /\ d_pad_left mend_wide = 0 /\ d_pad_right mend_wide = 0 /\
  d_minwidth mend_small < s_width (d_shape mend_wide NW) + s_width (d_shape mend_wide NE) /\
  boxes_mend demo_tab 100 false [10%N] opts0 [mend_wide] 0 true 0 0 no_rules no_rules broken_box = Ok (txt "/==========\
|   text   |
\==========/
").
Proof.
  eexists. split; [vm_compute; reflexivity|]. split; [discriminate|]. split; [vm_compute; reflexivity|]. split; [reflexivity|]. split; [reflexivity|]. split; [|vm_compute; reflexivity]. cbn. lia.
Qed.
Example C78_shipped_example : let items := [ItA (txt "hc"); ItKillBlank] in default_shipped_run (ask_world boxes_config) items (meaning items) /\
  as_designed (opts_of (meaning items)) /\ t_exp (g_tab (meaning items)) = 101%N /\ t_stop (g_tab (meaning items)) = 8%Z /\ r_kill (g_rem (meaning items)) = 1%Z /\
  Forall (removable (drawing_tab demo_tab) 8) (raw_lines undo_text).
Proof.
  intros items. split; [|split; [repeat split|split; [reflexivity|split; [reflexivity|split; [reflexivity|exact (proj1 (proj2 (proj2 (proj2 C72_shipped_example))))]]]]]. constructor; try reflexivity.
  - apply meaning_ok. vm_compute. reflexivity.
  - intros i [<-|[<-|[]]]; exact Logic.I.
  - intros n [F|[F|[]]]; discriminate F.
  - split; [apply printableb_ok; reflexivity|]. intros p [H|[H|[H|H]]]; discriminate H.
  - exists global_file. split; [exact ask_found|]. split; reflexivity.
  - exists sentry0. split; reflexivity.
Qed.
Example C79_shipped_example : let items := [ItA (txt "hc"); ItKillBlank] in p_right (g_pad (meaning items)) = (-1)%Z.
Proof. reflexivity. Qed.
