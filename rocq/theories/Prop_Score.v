(** * Properties of the score of designs: C59 *)
From Coq Require Import Ascii String List Arith NArith ZArith Bool Lia.
From Verif Require Import Base BaseFacts Model_Unicode Model_Bxs Model_Shape Model_Generate Model_Detect Model_Remove
  Spec_Str Spec_Design Spec_Box Spec_Remove Spec_Detect Spec_Score Proof_Str Proof_Bxs Proof_BxsOps Proof_Shows Proof_Body Proof_Found Proof_Detect Proof_Score Prop_Str Demo Prop_Remove Prop_Body Prop_Detect.
Import ListNotations.
Local Open Scope nat_scope.

(** C59: the score that decides about the design is the number of matches as specified, between the lines of the design and those of
    the text. The text is compared with its escape sequences only if it has none. *)
Theorem C59_score : forall U d inp ct L, uctab_ok U -> wf_design U d -> built U d -> plain_design U d -> tidy d ->
  Forall (built_line U) (i_lines inp) ->
  (drops_input ct = false -> Forall (fun l => ~ In 27%N (memory (l_text l))) (i_lines inp)) ->
  Forall2 (fun l v => seen (drops_input ct) (memory (l_text l)) v) (i_lines inp) L ->
  forall n, match_design U d inp ct = Ok n <-> scored U d L n.
Proof.
  intros U d inp ct L HU WF HB HP HT HL HM HS n. destruct (score_is U HU d WF HB HP HT inp ct HL HM L HS) as (m & E & Hm). rewrite E. split.
  - intros H. injection H as <-. exact Hm.
  - intros H. rewrite (scored_fun _ _ _ _ _ H Hm). reflexivity.
Qed.
Print Assumptions C59_score.

Lemma mono_lines : forall U, uctab_ok U -> forall inp, Forall (built_line U) (i_lines inp) -> input_is_mono inp = true ->
  Forall (fun l => ~ In 27%N (memory (l_text l))) (i_lines inp).
Proof.
  intros U HU inp HL H. unfold input_is_mono in H. rewrite forallb_forall in H. apply Forall_forall. intros l Hl. specialize (H l Hl). apply Nat.eqb_eq in H.
  rewrite Forall_forall in HL. destruct (line_bx U HU l (HL l Hl)) as (ts & Et & Hg & _). rewrite Et in *. cbn [bx num_chars_invisible memory] in *.
  destruct Hg as (Hok & _). clear - H Hok. intros F. destruct Hok as [Hok _].
  induction ts as [|t ts IH]; [exact F|]. destruct Hok as (Ht & _ & Hok). cbn [render flat_map] in F. apply in_app_or in F as [F|F].
  - cbn [invisible_len fold_right] in H. destruct t as [c|b|b|b]; cbn [tok_chars] in *; [destruct F as [F|[]]; cbn in Ht; congruence| | |discriminate H];
      (destruct b; [destruct F|cbn [List.length Nat.add] in H; discriminate]).
  - apply IH; [|exact Hok|exact F]. cbn [invisible_len fold_right] in H. unfold invisible_len in *. lia.
Qed.

(** ... and detection finds the first design with the highest score of the visible text: colours do not matter *)
Theorem C59_detection : forall U ds inp L, uctab_ok U ->
  Forall (fun d => wf_design U d /\ built U d /\ plain_design U d /\ tidy d) ds -> Forall (built_line U) (i_lines inp) ->
  Forall2 (fun l v => seen true (memory (l_text l)) v) (i_lines inp) L ->
  exists r, autodetect_design U inp ds = Ok r /\ best_scored U ds L r.
Proof.
  intros U ds inp L HU HD HL HS. destruct (C54_detection_total U HU ds) with (inp := inp) as (r & E); [eapply Forall_impl; [|exact HD]; intros d (A & B & C & T); split; [exact A|split; [exact B|split; [apply (C54_plain_calm U HU); exact C|exact T]]]|exact HL|]. exists r. split; [exact E|].
  apply C41_best_match in E as (last & He & Hb).
  assert (Mono : forall d, In d ds -> design_is_mono d = true).
  { intros d Hd. rewrite Forall_forall in HD. destruct (HD d Hd) as (A & B & C & T). apply (plain_mono U); assumption. }
  set (way := if input_is_mono inp then literal else ignore_invisible_input).
  assert (V : forall ct d, In d ds -> comp_type_is_viable ct (input_is_mono inp) (design_is_mono d) = true <-> ct = way).
  { intros ct d Hd. rewrite (Mono d Hd). unfold way. destruct (input_is_mono inp), ct; cbn; split; congruence. }
  assert (HS' : (drops_input way = false -> Forall (fun l => ~ In 27%N (memory (l_text l))) (i_lines inp)) /\
    Forall2 (fun l v => seen (drops_input way) (memory (l_text l)) v) (i_lines inp) L).
  { unfold way. destruct (input_is_mono inp) eqn:Em; cbn [drops_input]; [|split; [discriminate|exact HS]].
    pose proof (mono_lines U HU inp HL Em) as Hno. split; [intros _; exact Hno|]. clear - HS Hno HU.
    induction HS as [|l v ls vs Hv HF IH]; constructor; [|apply IH; inversion Hno; assumption]. inversion Hno as [|? ? N1 _]; subst.
    destruct Hv as (ts & Hrd & ->). exists ts. split; [exact Hrd|].
    assert (ts = plain (memory (l_text l))) as -> by (apply reading_unique; [apply Hrd|apply (closed_plain _ N1)|rewrite render_plain; apply Hrd]).
    apply visible_plain. }
  assert (H : forall ct i n, hits U inp ds ct i n <-> ct = way /\ exists d, nth_error ds i = Some d /\ scored U d L n).
  { intros ct i n. unfold hits. rewrite Forall_forall in HD.
    assert (K : forall d, nth_error ds i = Some d -> match_design U d inp way = Ok n <-> scored U d L n).
    { intros d Hd. destruct (HD d (nth_error_In _ _ Hd)) as (A & B & C & T). apply C59_score; auto; apply HS'. }
    split.
    - intros (d & Hd & Hv & Hm). apply V in Hv; [|eapply nth_error_In; exact Hd]. subst ct. split; [reflexivity|]. exists d. split; [exact Hd|]. apply K; assumption.
    - intros (-> & d & Hd & Hs). exists d. split; [exact Hd|]. split; [apply V; [eapply nth_error_In; exact Hd|reflexivity]|]. apply K; assumption. }
  unfold first_best in Hb. unfold best_scored. destruct r as [i|].
  - destruct Hb as (ct & s & Hr & Hh & Hp & Hbest). apply H in Hh as (-> & d & Hd & Hs). exists d, s. split; [exact Hd|]. split; [exact Hs|]. split; [exact Hp|].
    intros i' d' n' Hd' Hs'. destruct (Hbest way i' n' Hr) as [G1 G2]; [apply H; eauto|]. split; [exact G1|]. intros Hi. apply G2. right. auto.
  - intros i d n Hd Hs. destruct (Nat.le_gt_cases (rank way) last) as [Hle|Hgt]; [apply (Hb way i n Hle); apply H; eauto|].
    exfalso. destruct He as [_ [->|(ct & i' & s & Hc & Hh & _)]]; [unfold way in Hgt; destruct (input_is_mono inp); cbn in Hgt; lia|].
    apply H in Hh as (-> & _). lia.
Qed.
Print Assumptions C59_detection.

Corollary C59_colours : forall U ds inp inp' r, uctab_ok U ->
  Forall (fun d => wf_design U d /\ built U d /\ plain_design U d /\ tidy d) ds ->
  Forall (built_line U) (i_lines inp) -> Forall (built_line U) (i_lines inp') ->
  Forall2 (fun l l' => exists v, seen true (memory (l_text l)) v /\ seen true (memory (l_text l')) v) (i_lines inp) (i_lines inp') ->
  autodetect_design U inp ds = Ok r -> autodetect_design U inp' ds = Ok r.
Proof.
  intros U ds inp inp' r HU HD HL HL' HS E.
  assert (X : exists L, Forall2 (fun l v => seen true (memory (l_text l)) v) (i_lines inp) L /\ Forall2 (fun l v => seen true (memory (l_text l)) v) (i_lines inp') L).
  { clear - HS. induction HS as [|l l' ls ls' (v & A & B) _ (L & IA & IB)]; [exists []; split; constructor|]. exists (v :: L). split; constructor; assumption. }
  destruct X as (L & A & B). destruct (C59_detection U ds inp L HU HD HL A) as (r1 & E1 & B1). destruct (C59_detection U ds inp' L HU HD HL' B) as (r2 & E2 & B2).
  rewrite E1 in E. injection E as <-. rewrite E2. f_equal.
  destruct r1 as [i|], r2 as [j|]; cbn in B1, B2.
  - destruct B1 as (d & n & Hd & Hs & Hp & Hb). destruct B2 as (d' & n' & Hd' & Hs' & Hp' & Hb').
    destruct (Hb _ _ _ Hd' Hs') as [G1 G2]. destruct (Hb' _ _ _ Hd Hs) as [G3 G4]. f_equal.
    destruct (Nat.lt_trichotomy i j) as [F|[F|F]]; [specialize (G4 F); lia|congruence|specialize (G2 F); lia].
  - destruct B1 as (d & n & Hd & Hs & Hp & _). specialize (B2 _ _ _ Hd Hs). lia.
  - destruct B2 as (d & n & Hd & Hs & Hp & _). specialize (B1 _ _ _ Hd Hs). lia.
  - reflexivity.
Qed.
Print Assumptions C59_colours.

(** *** Examples: the box of [demo_rich] (21 hits), and the same one in colour *)
Definition demo_box_texts : list (list N) := map txt demo_drawn.
Definition demo_glow_line (s : string) : line := mkLine (wide_row (long_esc ++ txt s)) [].
Definition demo_glow_input : input := mkInput (map demo_glow_line demo_drawn) 22 6 true.
Lemma built_glow : forall s, forallb is_ascii_printable (txt s) = true -> bxs_from_unicode demo_tab (long_esc ++ txt s) = Ok (wide_row (long_esc ++ txt s)) ->
  memory (wide_row (long_esc ++ txt s)) = long_esc ++ txt s ->
  built_line demo_tab (demo_glow_line s) /\ seen true (memory (l_text (demo_glow_line s))) (txt s).
Proof.
  intros s H E Em. unfold built_line, demo_glow_line. cbn [l_text]. rewrite Em.
  assert (N27 : ~ In 27%N (txt s)) by (intros F; rewrite forallb_forall in H; specialize (H _ F); discriminate).
  assert (R : reads (long_esc ++ txt s) (Esc long_esc :: plain (txt s))) by (apply reads_glow; exact N27).
  split; [split; [exact E|]|exists (Esc long_esc :: plain (txt s)); split; [exact R|symmetry; apply (visible_plain (txt s))]].
  exists (Esc long_esc :: plain (txt s)), (List.length (txt s)). split; [exact R|]. split; [apply shows_glow; exact H|].
  unfold narrow_indent. apply Forall_forall. intros c Hc. change (visible (Esc long_esc :: plain (txt s))) with (visible (plain (txt s))) in Hc. rewrite visible_plain in Hc. apply In_firstn in Hc.
  rewrite forallb_forall in H. specialize (H c Hc). unfold term_width. rewrite (ok_width demo_tab demo_tab_ok c H). destruct (c =? 9)%N; reflexivity.
Qed.
Lemma demo_seen : forall drop, Forall2 (fun l v => seen drop (memory (l_text l)) v) (i_lines demo_box_input) demo_box_texts.
Proof.
  intros drop. cbn [demo_box_input mkinp i_lines map demo_drawn demo_box_texts].
  assert (G : forall s, forallb is_ascii_printable (txt s) = true -> memory (mkrow s) = txt s -> seen drop (memory (l_text (mkline s))) (txt s)).
  { intros s H E. cbn [mkline l_text]. rewrite E. exists (plain (txt s)). split; [split; [|apply render_plain]; apply (closed_plain (txt s)); intros F; rewrite forallb_forall in H; specialize (H _ F); discriminate|].
    rewrite visible_plain. destruct drop; reflexivity. }
  repeat (apply Forall2_cons; [apply G; vm_compute; reflexivity|]). apply Forall2_nil.
Qed.
Lemma demo_glow_ok : Forall (built_line demo_tab) (i_lines demo_glow_input) /\
  Forall2 (fun l v => seen true (memory (l_text l)) v) (i_lines demo_glow_input) demo_box_texts.
Proof.
  cbn [demo_glow_input i_lines map demo_drawn demo_box_texts].
  split; [repeat (apply Forall_cons; [apply built_glow; vm_compute; reflexivity|])|repeat (apply Forall2_cons; [apply built_glow; vm_compute; reflexivity|])]; constructor.
Qed.
Example C59_example : scored demo_tab demo_rich demo_box_texts 21 /\ scored demo_tab demo_eq demo_box_texts 2 /\
  (exists n, corner_left demo_tab demo_rich demo_box_texts false n /\ 0 < n) /\
  best_scored demo_tab [demo_eq; demo_rich; demo_rich] demo_box_texts (Some 1) /\
  autodetect_design demo_tab demo_glow_input [demo_eq; demo_rich; demo_rich] = Ok (Some 1) /\ input_is_mono demo_glow_input = false.
Proof.
  assert (HL : Forall (built_line demo_tab) (i_lines demo_box_input)) by apply C54_example.
  assert (S1 : forall d n, wf_design demo_tab d -> built demo_tab d -> plain_design demo_tab d -> tidy d ->
    match_design demo_tab d demo_box_input ignore_invisible_input = Ok n -> scored demo_tab d demo_box_texts n).
  { intros d n A B C D E. apply (C59_score demo_tab d demo_box_input ignore_invisible_input demo_box_texts demo_tab_ok A B C D HL); [discriminate|apply (demo_seen true)|exact E]. }
  split; [apply S1; auto using wf_demo_rich, built_demo, plain_demo, tidy_demo; vm_compute; reflexivity|].
  split; [apply S1; auto using wf_demo_eq, built_demo_eq, plain_eq, tidy_eq; vm_compute; reflexivity|].
  split; [destruct (corner_left_is demo_tab demo_tab_ok demo_rich wf_demo_rich built_demo plain_demo tidy_demo demo_box_input ignore_invisible_input HL ltac:(discriminate) demo_box_texts (demo_seen true) false) as (n & E & H);
    vm_compute in E; injection E as <-; eexists; split; [exact H|lia]|].
  assert (HD : Forall (fun d => wf_design demo_tab d /\ built demo_tab d /\ plain_design demo_tab d /\ tidy d) [demo_eq; demo_rich; demo_rich])
    by (repeat apply Forall_cons; try apply Forall_nil; auto 10 using wf_demo_eq, built_demo_eq, plain_eq, tidy_eq, wf_demo_rich, built_demo, plain_demo, tidy_demo).
  assert (E1 : autodetect_design demo_tab demo_box_input [demo_eq; demo_rich; demo_rich] = Ok (Some 1)) by apply C41_example.
  destruct (C59_detection demo_tab _ demo_box_input demo_box_texts demo_tab_ok HD HL (demo_seen true)) as (r & E & Hr). rewrite E1 in E. injection E as <-.
  split; [exact Hr|]. split; [|vm_compute; reflexivity].
  apply (C59_colours demo_tab _ demo_box_input demo_glow_input (Some 1) demo_tab_ok HD HL); [apply demo_glow_ok| |exact E1].
  destruct demo_glow_ok as [_ G]. pose proof (demo_seen true) as G'. revert G G'. generalize demo_box_texts, (i_lines demo_box_input), (i_lines demo_glow_input). intros L l1 l2 G G'.
  revert l1 G'. induction G; intros l1 G'; inversion G'; subst; constructor; eauto.
Qed.
