(** * Properties of design detection: C41 *)
From Coq Require Import Ascii String List Arith NArith ZArith Bool Lia.
From Verif Require Import Base BaseFacts Model_Unicode Model_Bxs Model_Shape Model_Generate Model_Detect Model_Remove
  Spec_Str Spec_Design Spec_Box Spec_Remove Spec_Detect Proof_Str Proof_BxsOps Proof_Shows Proof_Detect Prop_Str Demo Prop_Remove Prop_Body.
Import ListNotations.
Local Open Scope nat_scope.

Section Scan.
Variable D : Type.
Variable viable : comparison_t -> D -> bool.
Variable score : comparison_t -> D -> res nat.
Definition sc (ds : list D) (ct : comparison_t) (i s : nat) : Prop :=
  exists d, nth_error ds i = Some d /\ viable ct d = true /\ score ct d = Ok s.

Lemma scan_spec : forall ct ds base o m st, scan_designs (viable ct) (score ct) ds base (o, m) = Ok st ->
  (forall i d, nth_error ds i = Some d -> viable ct d = true -> exists s, score ct d = Ok s) /\
  m <= snd st /\ (forall i s, sc ds ct i s -> s <= snd st) /\
  (st = (o, m) \/ exists i, fst st = Some (base + i) /\ m < snd st /\ sc ds ct i (snd st) /\ forall i' s, i' < i -> sc ds ct i' s -> s < snd st).
Proof.
  intros ct ds. induction ds as [|d ds IH]; intros base o m st H; cbn [scan_designs] in H.
  - injection H as <-. repeat split; auto; [intros [|i] d Hn; discriminate|]. intros i s (d & Hn & _). destruct i; discriminate.
  - assert (Sk : forall i s, sc (d :: ds) ct (S i) s <-> sc ds ct i s) by (intros i s; unfold sc; reflexivity).
    destruct (viable ct d) eqn:Ev.
    + destruct (score ct d) as [h| | | |] eqn:Eh; try discriminate. cbn [bind snd] in H.
      assert (S0 : forall s, sc (d :: ds) ct 0 s -> s = h) by (intros s (x & Hn & _ & Hs); injection Hn as <-; congruence).
      assert (K : exists o1 m1, scan_designs (viable ct) (score ct) ds (S base) (o1, m1) = Ok st /\ h <= m1 /\ m <= m1 /\
        ((o1, m1) = (o, m) \/ (o1 = Some base /\ m1 = h /\ m < h))).
      { destruct (Nat.ltb_spec m h); [exists (Some base), h|exists o, m]; (split; [exact H|]); repeat split; try lia; auto. }
      clear H. destruct K as (o1 & m1 & E & H1 & H2 & H3). destruct (IH _ _ _ _ E) as (A & B & C & F). split; [|split; [lia|split]].
      * intros [|i] x Hn Hv; [injection Hn as <-; eauto|eapply A; eassumption].
      * intros [|i] s Hs; [rewrite (S0 _ Hs); lia|]. apply Sk in Hs. eapply C; exact Hs.
      * destruct F as [->|(i & Ei & Hm & Hsc & Hlt)].
        -- destruct H3 as [->|(-> & -> & Hm)]; [auto|]. right. exists 0. cbn [fst snd]. rewrite Nat.add_0_r. repeat split; auto; [|intros; lia].
           exists d. auto.
        -- right. exists (S i). rewrite Ei. split; [f_equal; lia|]. split; [lia|]. split; [apply Sk; exact Hsc|].
           intros [|i'] s Hi Hs; [rewrite (S0 _ Hs); lia|]. apply Sk in Hs. eapply Hlt; [|exact Hs]. lia.
    + assert (S0 : forall s, ~ sc (d :: ds) ct 0 s) by (intros s (x & Hn & Hv & _); injection Hn as <-; congruence).
      destruct (IH _ _ _ _ H) as (A & B & C & F). split; [|split; [exact B|split]].
      * intros [|i] x Hn Hv; [injection Hn as <-; congruence|eapply A; eassumption].
      * intros [|i] s Hs; [destruct (S0 _ Hs)|]. apply Sk in Hs. eapply C; exact Hs.
      * destruct F as [F|(i & Ei & Hm & Hsc & Hlt)]; [auto|]. right. exists (S i). rewrite Ei. split; [f_equal; lia|]. split; [exact Hm|]. split; [apply Sk; exact Hsc|].
        intros [|i'] s Hi Hs; [destruct (S0 _ Hs)|]. apply Sk in Hs. eapply Hlt; [|exact Hs]. lia.
Qed.

Lemma scan_total : forall ct ds base st, (forall d, In d ds -> viable ct d = true -> exists s, score ct d = Ok s) ->
  exists st', scan_designs (viable ct) (score ct) ds base st = Ok st'.
Proof.
  intros ct ds. induction ds as [|d ds IH]; intros base st H; cbn [scan_designs]; [eauto|].
  destruct (viable ct d) eqn:Ev; [|apply IH; intros; apply H; [right|]; assumption].
  destruct (H d (or_introl eq_refl) Ev) as (s & ->). cbn [bind]. apply IH. intros; apply H; [right|]; assumption.
Qed.

(** the state after the ways of rank below [n] *)
Definition after (ds : list D) (n : nat) (st : option nat * nat) : Prop :=
  (forall ct i s, rank ct < n -> sc ds ct i s -> s <= snd st) /\
  match fst st with
  | None => snd st = 0
  | Some i => exists ct, rank ct < n /\ sc ds ct i (snd st) /\ 0 < snd st /\ forall ct' i' s', rank ct' < n -> sc ds ct' i' s' -> before ct' i' ct i -> s' < snd st
  end.
Lemma rank_inj : forall a b, rank a = rank b -> a = b.
Proof. intros [] []; cbn; congruence. Qed.

Lemma after_step : forall ds ct st st', after ds (rank ct) st -> scan_designs (viable ct) (score ct) ds 0 st = Ok st' -> after ds (S (rank ct)) st'.
Proof.
  intros ds ct [o m] st' (H1 & H2) E. destruct (scan_spec ct ds 0 o m st' E) as (_ & Hm & Hs & F). cbn [fst snd] in *.
  assert (L : forall ct0 i s, rank ct0 < S (rank ct) -> sc ds ct0 i s -> s <= snd st').
  { intros ct0 i s Hr Hsc. destruct (Nat.eq_dec (rank ct0) (rank ct)) as [Er|Er]; [apply rank_inj in Er; subst ct0; eauto|].
    specialize (H1 ct0 i s ltac:(lia) Hsc). lia. }
  split; [exact L|].
  destruct F as [->|(i & Ei & Hlt & Hsc & Hf)].
  - cbn [fst snd] in *. destruct o as [j|]; [|exact H2]. destruct H2 as (c & Hc & Hsc & Hp & Hb). exists c. split; [lia|]. split; [exact Hsc|]. split; [exact Hp|].
    intros ct' i' s' Hr Hsc' Hbe. apply (Hb ct' i' s'); [|exact Hsc'|exact Hbe]. destruct Hbe as [Hbe|[-> _]]; lia.
  - rewrite Ei. cbn [Nat.add]. exists ct. split; [lia|]. split; [exact Hsc|]. split; [lia|].
    intros ct' i' s' Hr Hsc' [Hbe|[-> Hbe]]; [specialize (H1 ct' i' s' Hbe Hsc'); lia|eauto].
Qed.

Lemma types_spec : forall ds cts n st st', (exists pre, comp_types = pre ++ cts /\ length pre = n) ->
  after ds n st -> (forall ct i s, rank ct < n -> sc ds ct i s -> s <= 2) -> snd st <= 2 ->
  scan_types viable score ds cts st = Ok st' ->
  (cts = [] /\ st' = st) \/ exists last, n <= last /\ last <= 3 /\ after ds (S last) st' /\ enough (sc ds) last.
Proof.
  intros ds cts. induction cts as [|ct cts IH]; intros n st st' (pre & Ep & En) Ha H2 Hs E; cbn [scan_types] in E; [left; split; congruence|right].
  destruct (scan_designs (viable ct) (score ct) ds 0 st) as [s1| | | |] eqn:E1; try discriminate. cbn [bind] in E.
  assert (Hr : rank ct = n).
  { unfold comp_types in Ep. destruct pre as [|a [|b [|c [|x [|y pre]]]]]; cbn in Ep; first [discriminate|injection Ep; intros; subst; reflexivity]. }
  rewrite <- Hr in *. clear Hr.
  pose proof (after_step ds ct st s1 Ha E1) as Ha1. assert (Hr3 : rank ct <= 3) by (destruct ct; cbn; lia).
  destruct (Nat.ltb_spec 2 (snd s1)) as [Hgt|Hle].
  - injection E as <-. exists (rank ct). split; [lia|]. split; [lia|]. split; [exact Ha1|]. split; [exact H2|]. right.
    destruct st as [o m]. destruct (scan_spec ct ds 0 o m s1 E1) as (_ & _ & _ & F). cbn [snd] in *. destruct F as [->|(i & _ & _ & Hsc & _)]; [cbn in Hgt; lia|]. exists ct, i, (snd s1). auto.
  - assert (H2' : forall c i s, rank c < S (rank ct) -> sc ds c i s -> s <= 2) by (intros c i s Hc Hsc; destruct Ha1 as [Ha1 _]; specialize (Ha1 c i s Hc Hsc); lia).
    destruct (IH (S (rank ct)) s1 st') as [[-> ->]|(last & Hl & H3 & Hal & Hen)]; try assumption.
    + exists (pre ++ [ct]). rewrite <- app_assoc. split; [exact Ep|rewrite app_length; cbn; lia].
    + exists (rank ct). split; [lia|]. split; [lia|]. split; [exact Ha1|]. split; [exact H2|]. left.
      apply (f_equal (@length _)) in Ep. rewrite app_length in Ep. cbn in Ep. lia.
    + exists last. split; [lia|]. auto.
Qed.
End Scan.

(** ** C41 *)
Theorem C41_best_match : forall U inp ds r, autodetect_design U inp ds = Ok r ->
  exists last, enough (hits U inp ds) last /\ first_best (hits U inp ds) last r.
Proof.
  intros U inp ds r H. unfold autodetect_design in H. cbv zeta in H.
  destruct (scan_types _ _ ds comp_types (None, 0)) as [st| | | |] eqn:E; try discriminate. cbn [bind] in H. injection H as <-.
  apply (types_spec design _ _ ds comp_types 0) in E; [|exists []; split; reflexivity|split; [intros; lia|reflexivity]|intros; lia|cbn; lia].
  destruct E as [[E _]|(last & _ & H3 & (Ha & Hb) & He)]; [discriminate|]. exists last. split; [exact He|].
  unfold first_best. destruct (fst st) as [i|].
  - destruct Hb as (ct & Hc & Hsc & Hp & Hb). exists ct, (snd st). split; [lia|]. split; [exact Hsc|]. split; [exact Hp|].
    intros ct' i' s' Hr Hs'. split; [apply (Ha ct' i' s'); [lia|exact Hs']|]. apply (Hb ct' i' s'); [lia|exact Hs'].
  - intros ct i s Hr Hs. specialize (Ha ct i s ltac:(lia) Hs). lia.
Qed.
Print Assumptions C41_best_match.

(** ** C54 *)
(** Escape sequences in the shapes do no harm if they are as [calm_design] says; so they do none if there are none. *)
Theorem C54_plain_calm : forall U, uctab_ok U -> forall d, plain_design U d -> calm_design U d.
Proof. exact plain_calm. Qed.
Theorem C54_score_exists : forall U, uctab_ok U -> forall d, wf_design U d -> built U d -> calm_design U d -> tidy d ->
  forall inp, Forall (built_line U) (i_lines inp) -> forall ct, exists n, match_design U d inp ct = Ok n.
Proof. intros U HU d WF HB HP HT inp HL ct. apply score_total; assumption. Qed.
Theorem C54_detection_total : forall U, uctab_ok U -> forall ds,
  Forall (fun d => wf_design U d /\ built U d /\ calm_design U d /\ tidy d) ds ->
  forall inp, Forall (built_line U) (i_lines inp) -> exists r, autodetect_design U inp ds = Ok r.
Proof.
  intros U HU ds HD inp HL. unfold autodetect_design. cbv zeta.
  assert (K : forall cts st, exists st', scan_types (fun ct d => comp_type_is_viable ct (input_is_mono inp) (design_is_mono d))
    (fun ct d => match_design U d inp ct) ds cts st = Ok st').
  { induction cts as [|ct cts IH]; intros st; cbn [scan_types]; [eauto|].
    destruct (scan_total design (fun ct d => comp_type_is_viable ct (input_is_mono inp) (design_is_mono d))
      (fun ct d => match_design U d inp ct) ct ds 0 st) as (s1 & E).
    { intros d Hd _. rewrite Forall_forall in HD. destruct (HD d Hd) as (A & B & C & T). apply C54_score_exists; assumption. }
    cbv beta in E. rewrite E. cbn [bind]. destruct (2 <? snd s1); [eauto|apply IH]. }
  destruct (K comp_types (None, 0)) as (st & ->). cbn [bind]. eauto.
Qed.
Print Assumptions C54_plain_calm.
Print Assumptions C54_score_exists.
Print Assumptions C54_detection_total.

(** *** data for the examples *)
Lemma tidy_demo : tidy demo_rich.
Proof. intros i Hi He. do 16 (destruct i as [|i]; [first [vm_compute in He; discriminate|split; reflexivity]|]). lia. Qed.
Lemma tidy_eq : tidy demo_eq.
Proof. intros i Hi He. do 16 (destruct i as [|i]; [first [vm_compute in He; discriminate|split; reflexivity]|]). lia. Qed.
Lemma plain_eq : plain_design demo_tab demo_eq.
Proof.
  constructor.
  - intros i m Hi Hm. apply plain_ascii. do 16 (destruct i as [|i]; [cbn in Hm; intuition (subst m; vm_compute; reflexivity)|]). lia.
  - intros i m Hi He Hm. do 16 (destruct i as [|i]; [first [destruct Hm; fail | vm_compute in He; discriminate | cbn in Hm; tauto]|]). lia.
Qed.
(** the box of [demo_rich] is recognised although [demo_eq] comes first; a text with nothing of a box *)
Example C41_example : autodetect_design demo_tab demo_box_input [demo_eq; demo_rich; demo_rich] = Ok (Some 1) /\
  hits demo_tab demo_box_input [demo_eq; demo_rich; demo_rich] literal 1 21 /\
  autodetect_design demo_tab (mkinp ["hell"%string] true) [demo_eq; demo_rich] = Ok None.
Proof. split; [vm_compute; reflexivity|]. split; [exists demo_rich; repeat split; vm_compute; reflexivity|vm_compute; reflexivity]. Qed.
Example C54_example : Forall (fun d => wf_design demo_tab d /\ built demo_tab d /\ plain_design demo_tab d /\ tidy d) [demo_eq; demo_rich] /\
  Forall (built_line demo_tab) (i_lines demo_box_input) /\ 2 <= List.length (i_lines demo_box_input).
Proof.
  split; [|split; [|vm_compute; lia]].
  - apply Forall_cons; [|apply Forall_cons; [|apply Forall_nil]]; auto 10 using wf_demo_eq, built_demo_eq, plain_eq, tidy_eq, wf_demo_rich, built_demo, plain_demo, tidy_demo.
  - cbn [demo_box_input mkinp i_lines map demo_drawn]. repeat apply Forall_cons; try apply Forall_nil; (apply built_ascii; vm_compute; reflexivity).
Qed.

(** *** Shapes with escape sequences: src/detect.c:163-168 measures the end of the text in the line with its
    indentation but cuts the copy without it; the write is behind the end of the copy. *)
Definition long_esc : list N := [27; 91; 51; 56; 59; 53; 59; 49; 50; 51; 109]%N.
Definition wide_row (s : list N) : bxstr := match bxs_from_unicode demo_tab s with Ok b => b | _ => bxs_new_empty_string end.
Definition demo_glow_base := lookup
  [ (NW, shp false ["+"%string]); (N_, shp true ["-"%string]); (NE, shp false ["---"%string]);
    (W_, shp true ["|"%string]); (E_, shp true [" X "%string]);
    (SW, shp false ["+"%string]); (S_, shp true ["-"%string]); (SE, shp false ["---"%string]) ].
Definition glow : sentry := mkSentry [txt " X "] [wide_row (long_esc ++ txt " X ")] 1 3 true.
Definition demo_glow_shapes (i : nat) : sentry := if i =? E_ then glow else demo_glow_base i.
Definition demo_glow_mono : design := mkDesign demo_glow_base 98 0 0 0 0 5 3.
Definition demo_glow : design := mkDesign demo_glow_shapes 98 0 0 0 0 5 3.
Lemma wf_recolour : forall U d d', wf_design U d ->
  (forall i, isempty (d_shape d' i) = isempty (d_shape d i) /\ s_width (d_shape d' i) = s_width (d_shape d i) /\
     s_height (d_shape d' i) = s_height (d_shape d i) /\ s_elastic (d_shape d' i) = s_elastic (d_shape d i) /\ s_chars (d_shape d' i) = s_chars (d_shape d i)) ->
  d_minwidth d' = d_minwidth d -> d_minheight d' = d_minheight d ->
  (forall i, i < 16 -> isempty (d_shape d' i) = false -> shape_ok U (d_shape d' i)) -> wf_design U d'.
Proof.
  intros U d d' WF H Hw Hh Hs.
  assert (He : forall i, isempty (d_shape d' i) = isempty (d_shape d i)) by apply H.
  assert (H1 : forall i, s_width (d_shape d' i) = s_width (d_shape d i)) by apply H.
  assert (H2 : forall i, s_height (d_shape d' i) = s_height (d_shape d i)) by apply H.
  assert (H3 : forall i, s_elastic (d_shape d' i) = s_elastic (d_shape d i)) by apply H.
  assert (H4 : forall i, s_chars (d_shape d' i) = s_chars (d_shape d i)) by apply H.
  constructor; unfold at_side in *.
  - intros c Hc. rewrite He. apply (wf_corners U d WF). exact Hc.
  - intros s. destruct (wf_sides U d WF s) as [(e & Ha & Hb & Hc & Hd)|(Ha & Hb & Hc & Hd)]; unfold at_side in *.
    + left. exists e. rewrite He, H3. repeat split; auto. intros j Hj Hn. rewrite H3. auto.
    + right. unfold double_elastic. rewrite !H3. repeat split; auto. intros j Hj. rewrite He. auto.
  - exact Hs.
  - intros s i Ht Hi. rewrite He, H1, H4. apply (wf_ascii U d WF s i Ht Hi).
  - intros s i Ht Hi. rewrite He, !H2. apply (wf_heights U d WF s i Ht Hi).
  - intros s i Ht Hi. rewrite He, !H1. apply (wf_widths U d WF s i Ht Hi).
  - intros s Ht. rewrite Hw. erewrite map_ext; [apply (wf_minwidth U d WF s Ht)|]. intros i. unfold size. rewrite He, H1. reflexivity.
  - intros s Ht. rewrite Hh. erewrite map_ext; [apply (wf_minheight U d WF s Ht)|]. intros i. unfold size. rewrite He, H2. reflexivity.
Qed.
Lemma reads_glow : forall s, ~ In 27%N s -> reads (long_esc ++ s) (Esc long_esc :: plain s).
Proof.
  intros s H. split; [|cbn [render flat_map tok_chars]; f_equal; apply render_plain]. cbn [toks_ok tok_ok]. split; [|split; [discriminate|apply (closed_plain s H)]].
  right. exists 91%N, [51; 56; 59; 53; 59; 49; 50; 51]%N, 109%N. split; [reflexivity|]. split; [left; reflexivity|].
  split; [|unfold final; lia]. repeat constructor; unfold final; lia.
Qed.
Lemma shows_glow : forall s, forallb is_ascii_printable s = true -> shows demo_tab (List.length s) (long_esc ++ s).
Proof.
  intros s H. change (List.length s) with (0 + List.length s). apply (shows_app demo_tab demo_tab_ok); [|apply (shows_ascii demo_tab demo_tab_ok); exact H].
  exists [Esc long_esc]. split; [rewrite <- (app_nil_r long_esc) at 1; apply (reads_glow []); intros []|].
  split; [repeat constructor|]. split; [repeat constructor|]. split; [constructor|]. split; [intros []|reflexivity].
Qed.
Definition glow_line : line := mkLine (wide_row (long_esc ++ txt "a")) [].
Definition glow_input : input := mkInput [mkline "x"; glow_line; mkline "x"] 1 0 true.
Theorem C54_coloured_shape_refuted : exists U ds inp, uctab_ok U /\ Forall (fun d => wf_design U d /\ built U d /\ tidy d) ds /\
  Forall (built_line U) (i_lines inp) /\ autodetect_design U inp ds = UB.
Proof.
  exists demo_tab, [demo_glow], glow_input. split; [exact demo_tab_ok|]. split; [constructor; [|constructor]|split; [|vm_compute; reflexivity]].
  - assert (WM : wf_design demo_tab demo_glow_mono) by (apply wf_designb_ok; [exact demo_tab_ok|vm_compute; reflexivity]).
    split; [|split].
    + apply (wf_recolour demo_tab demo_glow_mono); auto.
      * intros i. cbn [demo_glow d_shape demo_glow_mono]. unfold demo_glow_shapes. destruct (Nat.eqb_spec i E_) as [->|_]; repeat split; reflexivity.
      * intros i Hi He. cbn [demo_glow d_shape] in *. unfold demo_glow_shapes in *. destruct (Nat.eqb_spec i E_) as [->|_].
        -- constructor; [reflexivity|reflexivity|]. constructor; [|constructor]. split; [|vm_compute; reflexivity].
           change (memory _) with (long_esc ++ txt " X "). apply (shows_glow (txt " X ")). reflexivity.
        -- apply (wf_shapes demo_tab demo_glow_mono WM i Hi He).
    + intros i m Hi Hm. do 16 (destruct i as [|i]; [cbn in Hm; intuition (subst m; left; vm_compute; reflexivity)|]). lia.
    + intros i Hi He. do 16 (destruct i as [|i]; [first [vm_compute in He; discriminate|split; reflexivity]|]). lia.
  - constructor; [apply built_ascii; vm_compute; reflexivity|]. constructor; [|constructor; [apply built_ascii; vm_compute; reflexivity|constructor]].
    split; [vm_compute; reflexivity|]. change (memory (l_text glow_line)) with (long_esc ++ txt "a"). exists (Esc long_esc :: plain (txt "a")), 1.
    split; [apply reads_glow; vm_compute; intuition discriminate|]. split; [apply (shows_glow (txt "a")); reflexivity|]. constructor.
Qed.
Print Assumptions C54_coloured_shape_refuted.
