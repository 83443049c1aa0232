(** * Mending a box: C40 *)
From Coq Require Import Ascii String List Arith NArith ZArith Bool Lia.
From Verif Require Import Base BaseFacts Model_Unicode Model_Bxs Model_Shape Model_Generate Model_Input Model_Detect Model_Remove
  Model_Main Model_Mend Spec_Str Spec_Design Spec_Box Demo Prop_Str.
Import ListNotations.
Local Open Scope nat_scope.
Local Open Scope list_scope.

Lemma expected_id : forall o d, o_reqwidth o = 0 -> o_reqheight o = 0 -> apply_expected_size o d = d.
Proof. intros o d Hw Hh. unfold apply_expected_size. rewrite Hw, Hh. destruct d. cbn. reflexivity. Qed.

Lemma over_over : forall z n, over z (over z n) = over z n.
Proof. intros z n. unfold over. destruct (z >? -1)%Z; reflexivity. Qed.
Lemma over_given : forall z n m, (-1 < z)%Z -> over z n = over z m.
Proof. intros z n m H. unfold over. destruct (Z.gtb_spec z (-1)); [reflexivity|lia]. Qed.

Lemma fit_pad_free : forall p q have corners min, fst (fit_pad p q have corners min 0) = (p, q).
Proof. intros. unfold fit_pad. destruct (_ =? _); [reflexivity|]. destruct (_ <? _); reflexivity. Qed.

(** The padding of a design does not depend on the text: no size is requested, or the padding is given as an option. *)
Definition padding_stays (o : opts) : Prop :=
  (o_reqheight o = 0 \/ (-1 < o_pad_top o)%Z /\ (-1 < o_pad_bottom o)%Z) /\
  (o_reqwidth o = 0 \/ (-1 < o_pad_left o)%Z /\ (-1 < o_pad_right o)%Z).

Lemma over_fit : forall z1 z2 p q have corners min req p' q' m, req = 0 \/ (-1 < z1)%Z /\ (-1 < z2)%Z ->
  fit_pad (over z1 p) (over z2 q) have corners min req = (p', q', m) -> over z1 p' = over z1 p /\ over z2 q' = over z2 q.
Proof.
  intros z1 z2 p q have corners min req p' q' m [->|[H1 H2]] E.
  - apply (f_equal fst) in E. rewrite fit_pad_free in E. injection E as <- <-. rewrite !over_over. auto.
  - split; apply over_given; assumption.
Qed.

Lemma adjust_again : forall o i1 i2 d, padding_stays o ->
  adjust_size_and_padding o i2 (with_min (adjust_size_and_padding o i1 d) (d_minwidth d) (d_minheight d)) = adjust_size_and_padding o i2 d.
Proof.
  intros o i1 i2 d [Hh Hw]. unfold adjust_size_and_padding at 2.
  destruct (fit_pad _ _ (i_num_lines i1) _ _ _) as [[pt pb] mh] eqn:E1. destruct (fit_pad _ _ (i_maxline i1) _ _ _) as [[pl pr] mw] eqn:E2.
  unfold with_min, adjust_size_and_padding. cbn [d_shape d_indentmode d_pad_top d_pad_right d_pad_bottom d_pad_left d_minwidth d_minheight].
  destruct (over_fit _ _ _ _ _ _ _ _ _ _ _ Hh E1) as [-> ->]. destruct (over_fit _ _ _ _ _ _ _ _ _ _ _ Hw E2) as [-> ->]. reflexivity.
Qed.

Lemma rd_set_nth : forall (A : Type) k (x y : A) l, nth_error l k = Some y -> rd (set_nth k x l) k = Ok x.
Proof.
  intros A k x y l H. assert (L : k < List.length l) by (apply nth_error_Some; congruence).
  unfold rd, set_nth. rewrite nth_error_app2 by (rewrite firstn_length; lia). rewrite firstn_length, Nat.min_l, Nat.sub_diag by lia. reflexivity.
Qed.

(** Mending a box of a design chosen by the user: the box is removed, then the rest of the text gets a box of the same design,
    with this design's own minimum size and padding. *)
Theorem C40_remove_then_draw : forall U fuel color eol o ds k d mode kb rules rrules raws, nth_error ds k = Some d -> padding_stays o ->
  boxes_mend U fuel color eol o ds k true mode kb rules rrules raws =
    (inp <- handle_input U true o d [] raws ;;
     if is_nil (i_lines inp) then Ok [] else
     rest <- handle_remove_box U (sized o inp d) (sized o inp d) mode kb (rrules k) inp ;;
     rest <- trim_lines U rest ;;
     inp2 <- analyze_input U false d (rules k) (i_lines rest) (i_final_newline rest) ;;
     if is_nil (i_lines inp2) then Ok [] else draw U fuel color eol o d inp2).
Proof.
  intros U fuel color eol o ds k d mode kb rules rrules raws Hk Hp. unfold boxes_mend, mend_remove. unfold rd at 1 2. rewrite Hk. cbn [bind].
  assert (A : forall b rs ls fin d', d_indentmode d' = d_indentmode d -> analyze_input U b d' rs ls fin = analyze_input U b d rs ls fin).
  { intros b rs ls fin d' E. unfold analyze_input, apply_substitutions. rewrite E. reflexivity. }
  unfold handle_input. destruct (read_all_input U true o raws) as [r| | | |]; try reflexivity. cbn [bind].
  rewrite A by reflexivity. destruct (analyze_input U true d [] (fst r) (snd r)) as [inp| | | |]; try reflexivity. cbn [bind].
  destruct (is_nil (i_lines inp)); [reflexivity|]. cbn [select_design bind]. rewrite (rd_set_nth _ _ _ _ _ Hk). cbn [bind].
  fold (sized o inp d). destruct (handle_remove_box _ _ _ _ _ _ _) as [i| | | |]; try reflexivity. cbn [bind].
  destruct (trim_lines U i) as [i'| | | |]; try reflexivity. cbn [bind]. rewrite A.
  2:{ unfold with_min, sized, adjust_size_and_padding, apply_expected_size. cbn. destruct (fit_pad _ _ _ _ _ _) as [[? ?] ?]. destruct (fit_pad _ _ _ _ _ _) as [[? ?] ?]. reflexivity. }
  destruct (analyze_input U false d (rules k) (i_lines i') (i_final_newline i')) as [j| | | |]; try reflexivity. cbn [bind].
  destruct (is_nil (i_lines j)); [reflexivity|]. unfold sized. rewrite adjust_again by exact Hp. reflexivity.
Qed.
Print Assumptions C40_remove_then_draw.

(** a small box, first in the configuration; a wide one; and a piece of text *)
Definition mend_small : design := mkDesign (lookup
  [ (NW, shp false ["+"%string]); (N_, shp true ["-"%string]); (NE, shp false ["+"%string]); (W_, shp true ["!"%string]); (E_, shp true ["!"%string]);
    (SW, shp false ["+"%string]); (S_, shp true ["-"%string]); (SE, shp false ["+"%string]) ]) 98 0 0 0 0 3 3.
Definition mend_wide : design := mkDesign (lookup
  [ (NW, shp false ["/==="%string]); (N_, shp true ["="%string]); (NE, shp false ["===\"%string]); (W_, shp true ["|   "%string]); (E_, shp true ["   |"%string]);
    (SW, shp false ["\==="%string]); (S_, shp true ["="%string]); (SE, shp false ["===/"%string]) ]) 98 0 0 0 0 9 3.
Definition broken_box : list (list N) :=
  [txt "/=========\"%string ++ [10]; txt "|   text |"%string ++ [10]; txt "\=========/"%string ++ [10]]%N.
Definition no_rules : nat -> list (list N -> option (list N)) := fun _ => [].
Definition mend_with (ds : list design) (k : nat) (by_user : bool) : res string :=
  match boxes_mend demo_tab 100 true [10]%N opts0 ds k by_user 0 (-1) no_rules no_rules broken_box with Ok out => Ok (str out) | Err => Err | UB => UB | Wrap => Wrap | Fuel => Fuel end.
Example C40_remove_then_draw_example : nth_error [mend_small; mend_wide] 1 = Some mend_wide /\ padding_stays opts0 /\
  mend_with [mend_small; mend_wide] 1 true = Ok (str (txt "/==========\"%string ++ [10]%N ++ txt "|   text   |"%string ++ [10]%N ++ txt "\==========/"%string ++ [10]%N)).
Proof. split; [reflexivity|]. split; [split; left; reflexivity|]. vm_compute. reflexivity. Qed.

(** If the design was not chosen by the user, the new box gets the minimum size of the design selected before the detection
    (the first one of the configuration): it is too small for the corners of the detected design, and the size wraps around. *)
Theorem C40_too_small : forall U fuel color eol o ds k d by_user mode kb rules rrules raws j dj i inp2, nth_error ds k = Some d ->
  mend_remove U o ds k by_user mode kb rrules raws = Ok (Some (j, dj, i)) ->
  analyze_input U false dj (rules j) (i_lines i) (i_final_newline i) = Ok inp2 -> i_lines inp2 <> [] ->
  over (o_pad_left o) (d_pad_left dj) = 0 -> over (o_pad_right o) (d_pad_right dj) = 0 ->
  d_minwidth (apply_expected_size o d) < s_width (d_shape dj NW) + s_width (d_shape dj NE) ->
  boxes_mend U fuel color eol o ds k by_user mode kb rules rrules raws = Wrap.
Proof.
  intros U fuel color eol o ds k d by_user mode kb rules rrules raws j dj i inp2 Hk Hr Ha Hn Hl Hri Hw.
  unfold boxes_mend. unfold rd at 1. rewrite Hk. cbn [bind]. rewrite Hr. cbn [bind].
  assert (A : forall w h, analyze_input U false (with_min dj w h) (rules j) (i_lines i) (i_final_newline i) = Ok inp2) by (intros; exact Ha).
  rewrite A. cbn [bind]. destruct (i_lines inp2) as [|l ls] eqn:E; [congruence|]. cbn [is_nil]. clear A.
  set (w := d_minwidth _) in *. set (h := d_minheight _).
  unfold generate_box, horiz_generate.
  assert (M : d_minwidth (adjust_size_and_padding o inp2 (with_min dj w h)) = w /\ d_shape (adjust_size_and_padding o inp2 (with_min dj w h)) = d_shape dj).
  { unfold adjust_size_and_padding, with_min. cbn [d_shape d_indentmode d_pad_top d_pad_right d_pad_bottom d_pad_left d_minwidth d_minheight].
    rewrite Hl, Hri. destruct (fit_pad _ _ (i_num_lines inp2) _ _ _) as [[? ?] ?]. split; reflexivity. }
  destruct M as [-> ->]. unfold precalc. cbn [nth north_side].
  assert (T : forall have, ptarget have w (s_width (d_shape dj NW)) (s_width (d_shape dj NE)) = Wrap).
  { intros have. unfold ptarget, subz. destruct (Nat.ltb_spec w (s_width (d_shape dj NW))); [reflexivity|]. cbn [bind].
    destruct (Nat.ltb_spec (w - s_width (d_shape dj NW)) (s_width (d_shape dj NE))); [reflexivity|lia]. }
  rewrite T. reflexivity.
Qed.
Print Assumptions C40_too_small.

Definition sound_box : list (list N) := [txt "/==========\"%string ++ [10]; txt "|   text   |"%string ++ [10]; txt "\==========/"%string ++ [10]]%N.
Definition parts (x : res (option (nat * design * input))) : nat * input := match x with Ok (Some (j, _, i)) => (j, i) | _ => (9, mkInput [] 0 0 false) end.
Lemma parts_inv : forall x i, parts x = (1, i) -> exists dj, x = Ok (Some (1, dj, i)).
Proof. intros [[[[j dj] r]|]| | | |] i H; cbn in H; try discriminate H. injection H as -> ->. eauto. Qed.
Lemma removed_design : forall U o d0 d1 mode kb rr raws dj i, mend_remove U o [d0; d1] 0 false mode kb rr raws = Ok (Some (1, dj, i)) -> dj = d1.
Proof.
  intros U o d0 d1 mode kb rr raws dj i E. unfold mend_remove in E. cbn [rd nth_error bind] in E. destruct (handle_input _ _ _ _ _ _) as [inp| | | |] in E; try discriminate E. cbn [bind] in E.
  destruct (is_nil _) in E; [discriminate E|]. destruct (select_design _ _ _ _ _) as [j| | | |] in E; try discriminate E. cbn [bind] in E.
  destruct (rd (set_nth 0 _ _) j) as [dj'| | | |] eqn:R in E; try discriminate E. cbn [bind] in E.
  destruct (handle_remove_box _ _ _ _ _ _ _) as [i1| | | |] in E; try discriminate E. cbn [bind] in E.
  destruct (trim_lines _ _) as [i'| | | |] in E; try discriminate E. cbn [bind] in E. injection E as -> -> _.
  unfold rd, set_nth in R. cbn [firstn skipn app nth_error] in R. injection R as ->. reflexivity.
Qed.
Definition sound_rest : input := Eval vm_compute in snd (parts (mend_remove demo_tab opts0 [mend_small; mend_wide] 0 false 0 (-1) no_rules sound_box)).
Definition sound_again : input := Eval vm_compute in match analyze_input demo_tab false mend_wide [] (i_lines sound_rest) (i_final_newline sound_rest) with Ok i => i | _ => sound_rest end.
Lemma sound_parts : parts (mend_remove demo_tab opts0 [mend_small; mend_wide] 0 false 0 (-1) no_rules sound_box) = (1, sound_rest).
Proof. vm_compute. reflexivity. Qed.
Lemma detected_rest : mend_remove demo_tab opts0 [mend_small; mend_wide] 0 false 0 (-1) no_rules sound_box = Ok (Some (1, mend_wide, sound_rest)).
Proof. destruct (parts_inv _ _ sound_parts) as (dj & E). rewrite E, (removed_design _ _ _ _ _ _ _ _ _ _ E). reflexivity. Qed.
Theorem C40_detected_size_refuted : exists U ds k d raws out, uctab_ok U /\ Forall (wf_design U) ds /\
  nth_error ds k = Some d /\ boxes_draw U 100 true [10]%N opts0 d [] [txt "text"%string ++ [10]]%N = Ok out /\
  out = concat raws /\
  (* mending this box of design [d] ... *)
  boxes_mend U 100 true [10]%N opts0 ds k true 0 (-1) no_rules no_rules raws = Ok out /\
  (* ... and letting the program find out about [d] *)
  (exists rest, mend_remove U opts0 ds 0 false 0 (-1) no_rules raws = Ok (Some (k, d, rest)) /\ map (fun l => memory (l_text l)) (i_lines rest) = [txt "text"%string]) /\
  (forall fuel, boxes_mend U fuel true [10]%N opts0 ds 0 false 0 (-1) no_rules no_rules raws = Wrap).
Proof.
  exists demo_tab, [mend_small; mend_wide], 1, mend_wide, sound_box, (concat sound_box). split; [exact demo_tab_ok|].
  split; [apply Forall_cons; [|apply Forall_cons; [|apply Forall_nil]]; apply wf_designb_ok; try exact demo_tab_ok; vm_compute; reflexivity|].
  split; [reflexivity|]. split; [vm_compute; reflexivity|]. split; [reflexivity|]. split; [vm_compute; reflexivity|].
  split; [exists sound_rest; split; [exact detected_rest|vm_compute; reflexivity]|].
  intros fuel. apply (C40_too_small demo_tab fuel true [10]%N opts0 [mend_small; mend_wide] 0 mend_small false 0%N (-1)%Z no_rules no_rules sound_box 1 mend_wide sound_rest sound_again eq_refl detected_rest).
  - vm_compute. reflexivity.
  - discriminate.
  - reflexivity.
  - reflexivity.
  - apply Nat.ltb_lt. vm_compute. reflexivity.
Qed.
Print Assumptions C40_detected_size_refuted.

(** The condition [padding_stays] is needed: with a requested size, padding taken off in the first pass is not restored, although
    the text alone leaves room for it. *)
Definition mend_padded : design := mkDesign (lookup
  [ (NW, shp false ["+"%string]); (N_, shp true ["-"%string]); (NE, shp false ["+"%string]); (W_, shp true ["|"%string]); (E_, shp true ["|"%string]);
    (SW, shp false ["+"%string]); (S_, shp true ["-"%string]); (SE, shp false ["+"%string]) ]) 98 0 1 0 1 3 3.
Definition opts_size : opts := mkOpts 101 8 108 116 0 8 0 (-1) (-1) (-1) (-1).
Theorem C40_padding_refuted : exists U o d raws text out, uctab_ok U /\ wf_design U d /\
  boxes_remove U [10]%N o d 0 (-1) [] raws = Ok text /\ boxes_draw U 100 true [10]%N o d [] [text] = Ok out /\
  str out = str (txt " +------+"%string ++ [10]%N ++ txt " | text |"%string ++ [10]%N ++ txt " +------+"%string ++ [10]%N) /\
  exists out', boxes_mend U 100 true [10]%N o [d] 0 true 0 (-1) no_rules no_rules raws = Ok out' /\
  str out' = str (txt " +------+"%string ++ [10]%N ++ txt " |text  |"%string ++ [10]%N ++ txt " +------+"%string ++ [10]%N).
Proof.
  exists demo_tab, opts_size, mend_padded, [txt "+----------+"%string ++ [10]; txt "| text |"%string ++ [10]; txt "+-------+"%string ++ [10]]%N.
  do 2 eexists. split; [exact demo_tab_ok|]. split; [apply wf_designb_ok; [exact demo_tab_ok|vm_compute; reflexivity]|].
  split; [vm_compute; reflexivity|]. split; [vm_compute; reflexivity|]. split; [vm_compute; reflexivity|].
  eexists. split; vm_compute; reflexivity.
Qed.
Print Assumptions C40_padding_refuted.
