(** * Properties of removing a box: C33, C34, C39 *)
From Coq Require Import Ascii String List Arith NArith ZArith Bool Lia.
From Verif Require Import Base BaseFacts Model_Unicode Model_Bxs Model_Shape Model_Generate Model_Detect Model_Remove
  Spec_Str Spec_Design Spec_Box Spec_Remove Proof_Str Proof_Bxs Proof_BxsOps Proof_BxsMore Proof_Shows Prop_Str Demo
  Proof_Term Proof_Hmm Proof_Horiz Proof_Open Proof_Recog Proof_Found Proof_Body Prop_Remove.
Import ListNotations.
Local Open Scope nat_scope.

Lemma frame_dec : forall U inp, Forall (fun l => blank_text U (memory (l_text l))) (i_lines inp) \/ exists pre core post, framed U inp pre core post.
Proof.
  intros U inp. unfold framed. generalize (i_lines inp) as ls. intros ls.
  assert (Hd : forall l, blank_l U l \/ ~ blank_l U l) by (intros l; unfold blank_l; rewrite <- blankb_iff; destruct (blankb U (memory (l_text l))); auto).
  assert (A : Forall (blank_l U) ls \/ exists pre x r, ls = pre ++ x :: r /\ Forall (blank_l U) pre /\ ~ blank_l U x).
  { induction ls as [|l ls IH]; [left; constructor|]. destruct (Hd l) as [Hb|Hb].
    - destruct IH as [H|(pre & x & r & -> & Hp & Hx)]; [left; constructor; assumption|]. right. exists (l :: pre), x, r. split; [reflexivity|]. split; [constructor; assumption|assumption].
    - right. exists [], l, ls. split; [reflexivity|]. split; [constructor|assumption]. }
  destruct A as [A|(pre & x & r & -> & Hp & Hx)]; [left; exact A|right].
  assert (B : exists core' y post, x :: r = core' ++ y :: post /\ Forall (blank_l U) post /\ ~ blank_l U y).
  { clear Hp. revert x Hx. induction r as [|z r IH] using rev_ind; intros x Hx; [exists [], x, []; split; [reflexivity|split; [constructor|assumption]]|].
    destruct (Hd z) as [Hb|Hb].
    - destruct (IH x Hx) as (c & y & post & E & H1 & H2). exists c, y, (post ++ [z]). rewrite app_comm_cons, E, <- app_assoc. split; [reflexivity|].
      split; [apply Forall_app; split; [exact H1|constructor; [exact Hb|constructor]]|exact H2].
    - exists (x :: r), z, []. split; [reflexivity|]. split; [constructor|exact Hb]. }
  destruct B as (core' & y & post & E & H1 & H2). exists pre, (core' ++ [y]), post. rewrite <- app_assoc. cbn [app]. rewrite <- E.
  split; [reflexivity|]. split; [exact Hp|]. split; [exact H1|]. split.
  - exists x. split; [|exact Hx]. destruct core'; cbn in *; congruence.
  - exists y. rewrite rev_app_distr. split; [reflexivity|exact H2].
Qed.

(** ** C34: what is left of the input *)
(** For every input without escape sequences and every design, the output is what [removed] says, unless one of the two defects
    below applies: a line taken for two things, or left and right border overlapping in a line. *)
Theorem C34_kept : forall U d mode kill mend inp, uctab_ok U -> wf_design U d -> built U d ->
  Forall (fun l => built_line U l /\ ~ In 27%N (memory (l_text l))) (i_lines inp) ->
  unambiguous U d inp -> uncrossed U d inp ->
  exists out, remove_box U d mode kill mend inp = Ok out /\
    ((Forall (fun l => blank_text U (memory (l_text l))) (i_lines inp) /\ out = inp) \/ removed U d mode kill mend inp out).
Proof.
  intros U d mode kill mend inp HU WF HB Hs Hua Hux. destruct (frame_dec U inp) as [Hb|(pre & core & post & EL & Hp & Hq & (x & Hx & Hnx) & (y & Hy & Hny))].
  - exists inp. split; [apply (remove_blank U HU); assumption|]. left. auto.
  - destruct (remove_spec U HU d mode kill mend inp pre x core y post) as [(out & E & Hr)|(l & drop & Hl & Hc)]; try assumption.
    + unfold unambiguous in Hua. rewrite EL in Hua. apply apart_lines.
      * apply Forall_forall. intros l Hl. apply Hua. apply in_or_app. right. apply in_or_app. auto.
      * apply Forall_forall. intros l Hl. apply (Hua l); [apply in_or_app; auto|]. rewrite Forall_forall in Hp. apply Hp. exact Hl.
      * apply Forall_forall. intros l Hl. apply (Hua l); [apply in_or_app; right; apply in_or_app; auto|]. rewrite Forall_forall in Hq. apply Hq. exact Hl.
      * destruct core; [discriminate|cbn; lia].
    + exists out. auto.
    + exfalso. apply (Hux l drop); [|exact Hc]. rewrite EL. apply in_or_app. right. apply in_or_app. auto.
Qed.
Print Assumptions C34_kept.

(** The same when the text is at least as high as top and bottom border together, whatever its lines look like. *)
Theorem C34_kept_tall : forall U d mode kill mend inp pre core post, uctab_ok U -> wf_design U d -> built U d ->
  Forall (fun l => built_line U l /\ ~ In 27%N (memory (l_text l))) (i_lines inp) ->
  framed U inp pre core post -> border_height d true + border_height d false <= length core -> uncrossed U d inp ->
  exists out, remove_box U d mode kill mend inp = Ok out /\ removed U d mode kill mend inp out.
Proof.
  intros U d mode kill mend inp pre core post HU WF HB Hs (EL & Hp & Hq & (x & Hx & Hnx) & (y & Hy & Hny)) Hh Hux.
  destruct (remove_spec U HU d mode kill mend inp pre x core y post) as [H|(l & drop & Hl & Hc)]; try assumption.
  - apply apart_heights. exact Hh.
  - exfalso. apply (Hux l drop); [|exact Hc]. rewrite EL. apply in_or_app. right. apply in_or_app. auto.
Qed.
Print Assumptions C34_kept_tall.

(** ** C33: no failure *)
Theorem C33_no_failure : forall U d mode kill mend inp, uctab_ok U -> wf_design U d -> built U d ->
  Forall (fun l => built_line U l /\ ~ In 27%N (memory (l_text l))) (i_lines inp) ->
  (unambiguous U d inp \/ exists pre core post, framed U inp pre core post /\ border_height d true + border_height d false <= length core) ->
  uncrossed U d inp ->
  exists out, remove_box U d mode kill mend inp = Ok out.
Proof.
  intros U d mode kill mend inp HU WF HB Hs [Hua|(pre & core & post & Hf & Hh)] Hux.
  - destruct (C34_kept U d mode kill mend inp) as (out & E & _); eauto.
  - destruct (C34_kept_tall U d mode kill mend inp pre core post) as (out & E & _); eauto.
Qed.
Print Assumptions C33_no_failure.

(** Designs without right (or without left) side, and without top and bottom border, never fail; line comments are of this kind. *)
Theorem C33_open_designs : forall U d mode kill mend inp, uctab_ok U -> wf_design U d -> built U d ->
  Forall (fun l => built_line U l /\ ~ In 27%N (memory (l_text l))) (i_lines inp) ->
  blank_side d BLEF = true \/ blank_side d BRIG = true -> blank_side d BTOP = true -> blank_side d BBOT = true ->
  exists out, remove_box U d mode kill mend inp = Ok out.
Proof.
  intros U d mode kill mend inp HU WF HB Hs Hlr Ht Hb.
  assert (Hux : uncrossed U d inp) by (intros l drop _; apply one_sided; exact Hlr).
  destruct (frame_dec U inp) as [Hbl|(pre & core & post & Hf)].
  - exists inp. apply (remove_blank U HU); assumption.
  - apply C33_no_failure; try assumption. right. exists pre, core, post. split; [exact Hf|]. unfold border_height. cbv iota. rewrite Ht, Hb. lia.
Qed.
Print Assumptions C33_open_designs.

(** A line that is taken for both top and bottom border: [memmove] with a size that wrapped around (src/remove.c:966-976). *)
Definition demo_eq_shapes := lookup
  [ (NW, shp false ["+"]); (N_, shp true ["-"]); (NE, shp false ["+"]);
    (W_, shp true ["|"]); (E_, shp true ["|"]);
    (SW, shp false ["+"]); (S_, shp true ["-"]); (SE, shp false ["+"]) ]%string.
Definition demo_eq : design := mkDesign demo_eq_shapes 98 0 1 0 1 3 3.
Lemma wf_demo_eq : wf_design demo_tab demo_eq.
Proof. apply wf_designb_ok; [exact demo_tab_ok|vm_compute; reflexivity]. Qed.
Lemma built_demo_eq : built demo_tab demo_eq.
Proof. intros i m Hi Hm; do 16 (destruct i as [|i]; [cbn in Hm; intuition (subst m; left; vm_compute; reflexivity)|]); lia. Qed.
Lemma sound_ascii : forall s, forallb is_ascii_printable (txt s) = true -> bxs_from_unicode demo_tab (txt s) = Ok (mkrow s) -> memory (mkrow s) = txt s ->
  built_line demo_tab (mkline s) /\ ~ In 27%N (memory (l_text (mkline s))).
Proof.
  intros s H E Em. split; [apply built_ascii; assumption|]. cbn [mkline l_text]. rewrite Em. intros Hx. rewrite forallb_forall in H. specialize (H _ Hx). discriminate.
Qed.
Theorem C33_overlap_refuted : exists U d inp, uctab_ok U /\ wf_design U d /\ built U d /\
  Forall (fun l => built_line U l /\ ~ In 27%N (memory (l_text l))) (i_lines inp) /\ uncrossed U d inp /\
  remove_box U d 0 true true inp = Wrap.
Proof.
  exists demo_tab, demo_eq, (mkinp ["+---+"%string] true). split; [exact demo_tab_ok|]. split; [exact wf_demo_eq|]. split; [exact built_demo_eq|].
  split; [constructor; [apply sound_ascii; vm_compute; reflexivity|constructor]|]. split; [|vm_compute; reflexivity].
  intros l drop [<-|[]] (f & b & Hl & Hf & Hb). change (memory (l_text (mkline "+---+"))) with (txt "+---+") in *.
  assert (R : forall left row, vside_row demo_eq left drop row -> row = txt "|").
  { intros left row (i & k & Hi & _ & Hk & ts & Hr & ->).
    assert (Hik : row_text (d_shape demo_eq i) k = txt "|").
    { destruct left; cbn in Hi; destruct Hi as [<-|[<-|[<-|[]]]]; cbn in Hk; try lia; destruct k; try lia; reflexivity. }
    rewrite Hik in Hr. assert (ts = plain (txt "|")) as ->.
    { apply reading_unique; [apply Hr|apply (closed_plain (txt "|")); vm_compute; intuition discriminate|]. rewrite render_plain. apply Hr. }
    destruct drop; [rewrite visible_plain; reflexivity|exact Hik]. }
  assert (P : forall left row r, vside_row demo_eq left drop row -> worn demo_tab row r -> In 124%N r).
  { intros left row r Hv (Hn & x & y & E & Hx & Hy). rewrite (R _ _ Hv) in E. change (txt "|") with [124%N] in E.
    destruct x as [|a x]; [|injection E as <- E; inversion Hx; discriminate]. destruct r as [|a r]; [congruence|]. cbn in E. injection E as <- _. left. reflexivity. }
  assert (Hno : ~ In 124%N (txt "+---+")) by (vm_compute; intuition discriminate).
  destruct Hf as [->|(a & row & r & pad & rest & Et & -> & Hv & Hw & _)].
  - destruct Hb as [->|(a & row & r & z & Et & -> & Hv & Hw & _)]; [cbn in Hl; lia|]. apply Hno. rewrite Et.
    apply in_or_app. right. apply in_or_app. left. eapply P; eassumption.
  - apply Hno. rewrite Et. apply in_or_app. left. apply in_or_app. right. apply in_or_app. left. eapply P; eassumption.
Qed.
Print Assumptions C33_overlap_refuted.

(** The left and the right border claim the same character: the line loses its text, and the missing text is dereferenced
    (src/remove.c:1014-1039, 1087-1094). *)
Theorem C33_crossing_refuted : exists U d inp pre core post, uctab_ok U /\ wf_design U d /\ built U d /\
  Forall (fun l => built_line U l /\ ~ In 27%N (memory (l_text l))) (i_lines inp) /\
  framed U inp pre core post /\ border_height d true + border_height d false <= length core /\
  remove_box U d 0 true true inp = UB.
Proof.
  exists demo_tab, demo_eq, (mkinp ["+---+"; "| a |"; "|"; "| b |"; "+---+"]%string true), [], (map mkline ["+---+"; "| a |"; "|"; "| b |"; "+---+"]%string), [].
  split; [exact demo_tab_ok|]. split; [exact wf_demo_eq|]. split; [exact built_demo_eq|].
  split; [repeat (constructor; [apply sound_ascii; vm_compute; reflexivity|]); constructor|].
  split; [|split; [vm_compute; lia|vm_compute; reflexivity]].
  split; [reflexivity|]. split; [constructor|]. split; [constructor|].
  split; (exists (mkline "+---+"); split; [reflexivity|]; rewrite <- blankb_iff; vm_compute; discriminate).
Qed.
Print Assumptions C33_crossing_refuted.

(** ** C34: two things one would expect are not so *)
(** Text in front of the left border is lost if the border starts with blanks: here ["ab"] in front of a border ["   |"]. *)
Definition demo_deep_shapes := lookup
  [ (NW, shp false ["    "]); (N_, shp true ["-"]); (NE, shp false [" "]);
    (W_, shp true ["   |"]); (E_, shp true [" "]);
    (SW, shp false ["    "]); (S_, shp true ["-"]); (SE, shp false [" "]) ]%string.
Definition demo_deep : design := mkDesign demo_deep_shapes 98 0 0 0 0 6 3.
Theorem C34_text_before_border_refuted : exists U d inp out, uctab_ok U /\ wf_design U d /\ built U d /\
  map (fun l => memory (l_text l)) (i_lines inp) = [txt "    ---"; txt "ab|xyz"; txt "    ---"]%string /\
  remove_box U d 0 true true inp = Ok out /\ map (fun l => memory (l_text l)) (i_lines out) = [txt "xyz"]%string.
Proof.
  exists demo_tab, demo_deep, (mkinp ["    ---"; "ab|xyz"; "    ---"]%string true).
  eexists. split; [exact demo_tab_ok|]. split; [apply wf_designb_ok; [exact demo_tab_ok|vm_compute; reflexivity]|].
  split; [intros i m Hi Hm; do 16 (destruct i as [|i]; [cbn in Hm; intuition (subst m; left; vm_compute; reflexivity)|]); lia|].
  split; [vm_compute; reflexivity|]. split; vm_compute; reflexivity.
Qed.
Print Assumptions C34_text_before_border_refuted.

(** A box without left side: the indentation of the text comes back doubled. *)
Definition demo_nolef_shapes := lookup
  [ (NW, shp false [" "]); (N_, shp true ["-"]); (NE, shp false [" "]);
    (W_, shp true [" "]); (E_, shp true [" "]);
    (SW, shp false [" "]); (S_, shp true ["-"]); (SE, shp false [" "]) ]%string.
Definition demo_nolef : design := mkDesign demo_nolef_shapes 98 0 0 0 0 6 3.
Theorem C34_indentation_refuted : exists U d inp out, uctab_ok U /\ wf_design U d /\ built U d /\ blank_side d BLEF = true /\
  map (fun l => memory (l_text l)) (i_lines inp) = [txt "    ---"; txt "    xyz"; txt "    ---"]%string /\ i_indent inp = 4 /\
  remove_box U d 0 true true inp = Ok out /\ map (fun l => memory (l_text l)) (i_lines out) = [txt "        xyz"]%string.
Proof.
  exists demo_tab, demo_nolef, (mkInput (map mkline ["    ---"; "    xyz"; "    ---"]%string) 7 4 true).
  eexists. split; [exact demo_tab_ok|]. split; [apply wf_designb_ok; [exact demo_tab_ok|vm_compute; reflexivity]|].
  split; [intros i m Hi Hm; do 16 (destruct i as [|i]; [cbn in Hm; intuition (subst m; left; vm_compute; reflexivity)|]); lia|].
  split; [vm_compute; reflexivity|]. split; [vm_compute; reflexivity|]. split; [reflexivity|]. split; vm_compute; reflexivity.
Qed.
Print Assumptions C34_indentation_refuted.

(** ** C39: blank lines of the body. [X], [Z] are the lines outside the body; the strings may contain escape sequences. *)
Theorem C39_killed : forall U d mend kill X body Z toks, kill || mend = true ->
  Forall2 (fun ts r => r_text r = Some (bx U ts)) toks body ->
  exists k1 kept k2, map visible toks = k1 ++ kept ++ k2 /\
    killblank U d mend kill (X ++ body ++ Z) (length X) (length X + length body) = Ok (length X + length k1, length X + length k1 + length kept) /\
    kills U (kill_limit kill mend (d_pad_top d)) k1 (kept ++ k2) /\ kills U (kill_limit kill mend (d_pad_bottom d)) (rev k2) (rev kept).
Proof.
  intros U d mend kill X body Z toks Hk H.
  assert (Hs : Forall2 (shown_as U) (map visible toks) body).
  { clear - H. induction H; cbn [map]; constructor; [apply shown_bx; assumption|assumption]. }
  destruct (killblank_gen U d mend kill (map visible toks) body X Z (length X) (length X + length body) Hk Hs eq_refl eq_refl) as (p1 & p2 & p3 & E & Ek & H1 & H2).
  exists p1, p2, p3. auto.
Qed.
Print Assumptions C39_killed.

(** Asked to keep blank lines (option -k 0), removal still deletes as many as the padding of the design
    ([opt.mend] is never 0 in the first pass, src/boxes.c). *)
Theorem C39_kept_blank_refuted : exists U d inp out, uctab_ok U /\ wf_design U d /\ built U d /\
  map (fun l => memory (l_text l)) (i_lines inp) = [txt "+---+"; txt "|   |"; txt "| a |"; txt "+---+"]%string /\
  remove_box U d 0 false true inp = Ok out /\ map (fun l => memory (l_text l)) (i_lines out) = [txt "a "]%string.
Proof.
  exists demo_tab, (mkDesign demo_eq_shapes 98 1 1 0 1 3 3), (mkinp ["+---+"; "|   |"; "| a |"; "+---+"]%string true).
  eexists. split; [exact demo_tab_ok|]. split; [apply wf_designb_ok; [exact demo_tab_ok|vm_compute; reflexivity]|].
  split; [exact built_demo_eq|].
  split; [vm_compute; reflexivity|]. split; vm_compute; reflexivity.
Qed.
Print Assumptions C39_kept_blank_refuted.

(** ** Examples *)
(** a block comment: left side, top and bottom *)
Definition demo_doc_shapes := lookup
  [ (NW, shp false ["/*"]); (N_, shp true ["*"]); (NE, shp false [" "]);
    (W_, shp true [" *"]); (E_, shp true [" "]);
    (SW, shp false [" *"]); (S_, shp true ["*"]); (SSE, shp false ["/"]); (SE, shp false [" "]) ]%string.
Definition demo_doc : design := mkDesign demo_doc_shapes 98 0 0 0 1 5 3.
Definition demo_doc_lines : list string := [""; "  /*****"; "   *"; "   * int a;"; "   *   b"; "   *"; "   * c"; "  no border"; "   *****/"; ""]%string.
Definition demo_doc_input : input := mkInput (map mkline demo_doc_lines) 11 2 true.
Example C34_example : exists out,
  wf_design demo_tab demo_doc /\ built demo_tab demo_doc /\
  Forall (fun l => built_line demo_tab l /\ ~ In 27%N (memory (l_text l))) (i_lines demo_doc_input) /\
  framed demo_tab demo_doc_input [mkline ""] (map mkline (firstn 8 (tl demo_doc_lines))) [mkline ""] /\
  border_height demo_doc true + border_height demo_doc false <= 8 /\ uncrossed demo_tab demo_doc demo_doc_input /\
  remove_box demo_tab demo_doc 0 true true demo_doc_input = Ok out /\
  map (fun l => memory (l_text l)) (i_lines out) = map txt [""; "  int a;"; "    b"; "  "; "  c"; "    no border"; ""]%string.
Proof.
  eexists. split; [apply wf_designb_ok; [exact demo_tab_ok|vm_compute; reflexivity]|].
  split; [intros i m Hi Hm; do 16 (destruct i as [|i]; [cbn in Hm; intuition (subst m; left; vm_compute; reflexivity)|]); lia|].
  split; [repeat (constructor; [apply sound_ascii; vm_compute; reflexivity|]); constructor|].
  split. { split; [reflexivity|]. split; [constructor; [constructor|constructor]|]. split; [constructor; [constructor|constructor]|].
    split; [exists (mkline "  /*****")|exists (mkline "   *****/")]; (split; [reflexivity|]); rewrite <- blankb_iff; vm_compute; discriminate. }
  split; [vm_compute; lia|]. split; [intros l drop _; apply one_sided; right; vm_compute; reflexivity|].
  split; vm_compute; reflexivity.
Qed.

Definition demo_cmt_lines : list string := ["  # int a;"; "  #"; "  # b"]%string.
Definition demo_cmt_input : input := mkInput (map mkline demo_cmt_lines) 10 2 true.
Example C33_example : exists out,
  wf_design demo_tab demo_cmt /\ built demo_tab demo_cmt /\
  Forall (fun l => built_line demo_tab l /\ ~ In 27%N (memory (l_text l))) (i_lines demo_cmt_input) /\
  unambiguous demo_tab demo_cmt demo_cmt_input /\ uncrossed demo_tab demo_cmt demo_cmt_input /\
  blank_side demo_cmt BRIG = true /\ blank_side demo_cmt BTOP = true /\ blank_side demo_cmt BBOT = true /\
  remove_box demo_tab demo_cmt 0 true true demo_cmt_input = Ok out /\
  map (fun l => memory (l_text l)) (i_lines out) = map txt ["  int a;"; "  "; "  b"]%string.
Proof.
  eexists. split; [apply wf_designb_ok; [exact demo_tab_ok|vm_compute; reflexivity]|].
  split; [intros i m Hi Hm; do 16 (destruct i as [|i]; [cbn in Hm; intuition (subst m; left; vm_compute; reflexivity)|]); lia|].
  split; [repeat (constructor; [apply sound_ascii; vm_compute; reflexivity|]); constructor|].
  assert (Hno : forall top l, ~ borders demo_tab demo_cmt top l).
  { intros top l (si & drop & text & Hs & _). destruct top; vm_compute in Hs; lia. }
  split; [intros l Hl; split; [intros [H _]; exact (Hno _ _ H)|intros _; split; apply Hno]|].
  split; [intros l drop _; apply one_sided; right; vm_compute; reflexivity|].
  repeat (split; [vm_compute; reflexivity|]). vm_compute; reflexivity.
Qed.

Definition demo_kill : list (list tok) := [[Vis 32; Esc [27; 91; 109]; Vis 32]; []; [Vis 97]; [Vis 32]; [Vis 98]; [Vis 13]]%N.
Example C39_example : forall U, uctab_ok U ->
  let rs := map (fun ts => mkRline (Some (bx U ts)) []) demo_kill in
  killblank demo_tab demo_rich true true ([] ++ map (fun ts => mkRline (Some (bx demo_tab ts)) []) demo_kill ++ []) 0 6 = Ok (2, 5) /\
  killblank demo_tab demo_rich true false ([] ++ map (fun ts => mkRline (Some (bx demo_tab ts)) []) demo_kill ++ []) 0 6 = Ok (1, 6) /\
  Forall2 (fun ts r => r_text r = Some (bx U ts)) demo_kill rs.
Proof.
  intros U HU rs. split; [vm_compute; reflexivity|]. split; [vm_compute; reflexivity|]. repeat constructor.
Qed.
