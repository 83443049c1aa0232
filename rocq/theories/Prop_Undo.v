(** * Removing a box from any text: C72 *)
From Coq Require Import Ascii String List Arith NArith ZArith Bool Lia.
From Verif Require Import Base BaseFacts Model_Unicode Model_Bxs Model_Shape Model_Generate Model_Input Model_Detect Model_Remove Model_Main
  Spec_Str Spec_Design Spec_Box Spec_Input Spec_Remove Spec_Undo Proof_Hmm Proof_Horiz Proof_Open Proof_Recog Proof_Str Proof_Bxs Proof_BxsOps Proof_BxsMore Proof_Shows
  Proof_Rows Proof_Print Proof_Input Proof_Draw Proof_Body Proof_Round Proof_Closed2 Prop_Body Prop_Input Prop_Subst Proof_Undo Demo Prop_Str Proof_Decide Prop_Remove.
Import ListNotations.
Local Open Scope nat_scope.

(** ** From the lines given to the text printed *)
(** What is read, what is left of it, and what is printed, as long as the borders are told apart. *)
Theorem C72_removed : forall U eol o d mode k rules raws, uctab_ok U -> wf_design U d -> built U d ->
  1 <= o_tabstop o <= 16 -> o_tabexp o = 101%N -> raws <> [] -> Forall (removable U (o_tabstop o)) raws -> Forall (plain_rule U) rules ->
  exists inp D, repadded o d D /\
    Forall2 (fun raw l => content (o_tabstop o) raw (memory (l_text l))) raws (i_lines inp) /\
    Forall (fun l => built_line U l /\ ~ In 27%N (memory (l_text l))) (i_lines inp) /\
    first_column U (map (fun l => memory (l_text l)) (i_lines inp)) (i_indent inp) /\
    (i_final_newline inp = true <-> ends_with_break (last raws [])) /\
    ((unambiguous U D inp \/ exists pre core post, framed U inp pre core post /\ border_height D true + border_height D false <= List.length core) ->
     uncrossed U D inp ->
     exists kill out ls, (kill = true <-> asked_to_kill d k) /\
       (Forall (fun l => blank_text U (memory (l_text l))) (i_lines inp) /\ out = inp \/ removed U D mode kill true inp out) /\
       Forall2 (fun l r => exists s, rewrites rules (memory (l_text l)) s /\ rtrimmed U s r) (i_lines out) ls /\
       boxes_remove U eol o d mode k rules raws = Ok (terminated eol (i_final_newline inp) ls)).
Proof.
  intros U eol o d mode k rules raws HU WF HB Ht Hx Hne Hr HR. destruct (handle_taken U HU o d raws Ht Hx Hne Hr) as (ss & M & E & Hsn & Hss).
  set (inp := mkInput (map (mk U) ss) M (get_indent (map (mk U) ss)) (has_linebreak (last raws []))) in *. exists inp, (sized o inp d).
  assert (Hb : Forall (fun l => built_line U l /\ ~ In 27%N (memory (l_text l))) (i_lines inp)).
  { cbn [inp i_lines]. clear - Hss HU. induction Hss; [constructor|]. cbn [map]. constructor; [eapply taken_line; eauto|assumption]. }
  assert (Hf : Forall (fit U) (i_lines inp)).
  { cbn [inp i_lines]. clear - Hss. induction Hss as [|raw s raws ss T H IH]; [constructor|]. cbn [map]. constructor; [|assumption]. split; cbn [mk l_text]; rewrite (mem_pl U); [reflexivity|apply (tk_ok _ _ _ _ T)]. }
  split; [apply repadded_sized|]. split.
  { cbn [inp i_lines]. clear - Hss. induction Hss as [|raw s raws ss T H IH]; [constructor|]. cbn [map]. constructor; [|assumption]. cbn [mk l_text]. rewrite (mem_pl U). exact (tk_content _ _ _ _ T). }
  split; [exact Hb|]. split.
  { cbn [inp i_lines i_indent]. rewrite map_map. replace (map (fun x => memory (l_text (mk U x))) ss) with ss; [exact (taken_column U HU _ _ _ Hss)|].
    rewrite <- (map_id ss) at 1. apply map_ext. intros s. cbn [mk l_text]. rewrite (mem_pl U). reflexivity. }
  split.
  { cbn [inp i_final_newline]. unfold has_linebreak, ends_with_break. destruct (last raws []) as [|y ys] using rev_ind.
    - cbn. split; [discriminate|]. intros (r & c & F & _). destruct r; discriminate.
    - rewrite rev_app_distr. cbn [rev app]. rewrite orb_true_iff. unfold char_cr, char_newline. rewrite !N.eqb_eq. split.
      + intros H. exists ys, y. auto.
      + intros (r & c & F & H). apply app_inj_tail in F as [_ ->]. exact H. }
  intros Hua Hux. set (D := sized o inp d) in *. pose proof (sized_shape o d inp : d_shape D = d_shape d) as ES.
  assert (WF2 : wf_design U D) by (apply sized_wf; exact WF).
  assert (HB2 : built U D) by (unfold built in *; rewrite ES; exact HB).
  assert (Hrem : exists out, remove_box U D mode (kill_option D k) true inp = Ok out /\
    (Forall (fun l => blank_text U (memory (l_text l))) (i_lines inp) /\ out = inp \/ removed U D mode (kill_option D k) true inp out)).
  { destruct Hua as [Hua|(pre & core & post & Hfr & Hh)].
    - apply C34_kept; assumption.
    - destruct (C34_kept_tall U D mode (kill_option D k) true inp pre core post) as (out & Eo & Ho); try assumption. exists out. auto. }
  destruct Hrem as (out & Eo & Ho). exists (kill_option D k), out.
  assert (Hfo : Forall (fit U) (i_lines out)) by (destruct Ho as [[_ ->]|Ho]; [exact Hf|exact (removed_fit U HU _ _ _ _ _ _ Hf Ho)]).
  assert (Hfin : i_final_newline out = i_final_newline inp).
  { destruct Ho as [[_ ->]|Ho]; [reflexivity|]. destruct Ho as (? & ? & ? & ? & ? & ? & ? & ? & ? & ? & ? & ? & Ho). apply Ho. }
  destruct (rule_lines U HU rules (i_lines out) (i_maxline out) HR Hfo) as (m' & ls' & Es & Hf' & Hrw).
  set (I := if N.eqb (d_indentmode D) 116 then get_indent ls' else i_indent out).
  destruct (output_fit U HU o eol (mkInput ls' m' I (i_final_newline out)) Hx Hf') as (rs & Ep & Hrs). exists rs.
  split; [apply kill_asked; exact ES|]. split; [exact Ho|]. split.
  - cbn [i_lines] in Hrs. clear - Hrw Hrs. revert rs Hrs. induction Hrw as [|l l' ls ls' H Hrw IH]; intros rs Hrs; inversion Hrs; subst; constructor; [eauto|auto].
  - unfold boxes_remove. rewrite E. cbn [bind]. destruct (is_nil (i_lines inp)) eqn:En; [cbn [inp i_lines] in En; destruct ss; [congruence|discriminate]|].
    cbv zeta. fold D. unfold handle_remove_box. rewrite Eo. cbn [bind]. unfold apply_substitutions. rewrite Es. cbn [bind fst snd]. fold I. rewrite Ep. cbn [i_final_newline]. rewrite Hfin. reflexivity.
Qed.
Print Assumptions C72_removed.

(** Designs without top and bottom and at most one of the two sides, such as line comments: always. *)
Theorem C72_open : forall U eol o d mode k rules raws, uctab_ok U -> wf_design U d -> built U d ->
  1 <= o_tabstop o <= 16 -> o_tabexp o = 101%N -> raws <> [] -> Forall (removable U (o_tabstop o)) raws -> Forall (plain_rule U) rules ->
  blank_side d BLEF = true \/ blank_side d BRIG = true -> blank_side d BTOP = true -> blank_side d BBOT = true ->
  exists inp D kill out ls, repadded o d D /\ (kill = true <-> asked_to_kill d k) /\
    Forall2 (fun raw l => content (o_tabstop o) raw (memory (l_text l))) raws (i_lines inp) /\
    first_column U (map (fun l => memory (l_text l)) (i_lines inp)) (i_indent inp) /\
    (Forall (fun l => blank_text U (memory (l_text l))) (i_lines inp) /\ out = inp \/ removed U D mode kill true inp out) /\
    Forall2 (fun l r => exists s, rewrites rules (memory (l_text l)) s /\ rtrimmed U s r) (i_lines out) ls /\
    boxes_remove U eol o d mode k rules raws = Ok (terminated eol (i_final_newline inp) ls).
Proof.
  intros U eol o d mode k rules raws HU WF HB Ht Hx Hne Hr HR Hlr Htop Hbot.
  destruct (C72_removed U eol o d mode k rules raws) as (inp & D & HD & Hc & Hbl & Hi & _ & K); try assumption.
  assert (S : forall b, blank_side D b = blank_side d b) by (intros b; unfold blank_side; rewrite (rp_shape _ _ _ HD); reflexivity).
  destruct (frame_dec U inp) as [Hall|(pre & core & post & Hf)].
  - assert (Hbo : forall b l, ~ borders U D b l).
    { intros b l (si & dr & text & Hs & _). unfold border_height in Hs. destruct b; rewrite S in Hs; rewrite ?Htop, ?Hbot in Hs; lia. }
    destruct K as (kill & out & ls & Hk & Ho & HF & E).
    + left. intros l _. split; [intros [F _]; exact (Hbo _ _ F)|]. intros _. split; apply Hbo.
    + intros l drop _. apply one_sided. rewrite !S. exact Hlr.
    + exists inp, D, kill, out, ls. auto 8.
  - destruct K as (kill & out & ls & Hk & Ho & HF & E).
    + right. exists pre, core, post. split; [exact Hf|]. unfold border_height. cbv iota. rewrite !S, Htop, Hbot. lia.
    + intros l drop _. apply one_sided. rewrite !S. exact Hlr.
    + exists inp, D, kill, out, ls. auto 8.
Qed.
Print Assumptions C72_open.

(** A line feed alone is not such a line: whatever the design, the program looks at the byte in front of the line (src/input.c:195-212). *)
Theorem C72_empty_line_refuted : forall U eol o d mode k rules raws, In [10%N] raws ->
  (forall raw, In raw raws -> exists l, read_line U true o raw = Ok l \/ raw = [10%N]) ->
  boxes_remove U eol o d mode k rules raws = UB.
Proof.
  intros U eol o d mode k rules raws Hi Hall. unfold boxes_remove, handle_input, read_all_input.
  assert (E : mapM (read_line U true o) raws = UB); [|rewrite E; reflexivity].
  induction raws as [|raw raws IH]; [destruct Hi|]. cbn [mapM]. destruct (Hall raw (or_introl eq_refl)) as (l & [E| ->]); [|reflexivity]. rewrite E. cbn [bind].
  destruct Hi as [->|Hi]; [discriminate E|]. rewrite (IH Hi (fun r H => Hall r (or_intror H))). reflexivity.
Qed.
Print Assumptions C72_empty_line_refuted.

(** ** Examples *)
Lemma raw_ok_plain : forall U t s, uctab_ok U -> is_blank U 10 = false -> is_blank U 13 = false -> 1 <= t <= 16 -> forallb plain_char s = true -> List.length s <= 100 -> raw_ok U t s.
Proof.
  intros U t s HU B10 B13 Ht Hs Hl. assert (Hin : forall c, In c s -> plain_char c = true) by (apply forallb_forall; exact Hs).
  assert (H27 : ~ In 27%N s) by (intros Hx; apply Hin in Hx; discriminate).
  exists (plain s). split; [split; [apply closed_plain; exact H27|apply render_plain]|].
  split; [apply Forall_forall; intros x Hx; apply in_map_iff in Hx as (c & <- & _); reflexivity|].
  split; [apply Forall_forall; intros x Hx; apply in_map_iff in Hx as (c & <- & _); reflexivity|].
  split.
  { unfold allowed. rewrite visible_plain. apply Forall_forall. intros c Hc. specialize (Hin c Hc). unfold plain_char in Hin.
    unfold is_allowed_anywhere. destruct (is_ascii_printable c) eqn:E; [rewrite (ok_cntrl _ HU c E); reflexivity|].
    cbn [orb] in Hin. unfold char_tab, char_newline, char_cr.
    destruct (N.eqb c 9), (N.eqb c 10), (N.eqb c 13); cbn [orb] in *; try discriminate; rewrite ?orb_true_r; reflexivity. }
  split.
  { rewrite visible_plain. apply Forall_forall. intros c Hc.
    assert (Hcb : is_blank U c = true).
    { clear - Hc. induction s as [|x s IH]; [destruct Hc|]. cbn [lead] in Hc. destruct (is_blank U x) eqn:E; [|destruct Hc].
      cbn [firstn] in Hc. destruct Hc as [->|Hc]; auto. }
    apply In_firstn in Hc. specialize (Hin c Hc). unfold plain_char in Hin.
    destruct (is_ascii_printable c) eqn:E.
    - unfold term_width. destruct (N.eqb c 9); [reflexivity|]. rewrite (ok_width _ HU c E). reflexivity.
    - cbn [orb] in Hin. apply orb_true_iff in Hin as [Hin|H13]; [apply orb_true_iff in Hin as [H9|H10]|].
      + apply N.eqb_eq in H9. subst c. reflexivity.
      + apply N.eqb_eq in H10. subst c. rewrite B10 in Hcb. discriminate Hcb.
      + apply N.eqb_eq in H13. subst c. rewrite B13 in Hcb. discriminate Hcb. }
  destruct (expands_total t s 0 ltac:(lia)) as (r & Hr). exists r. split; [exact Hr|].
  apply expands_le in Hr; [|lia]. assert (List.length r <= 1600) by nia. assert (1600 <= line_limit)%N by (vm_compute; discriminate). lia.
Qed.
Lemma removable_plain : forall U t s, uctab_ok U -> is_blank U 10 = false -> is_blank U 13 = false -> 1 <= t <= 16 -> forallb plain_char s && negb (is_nil s) && negb (Neq_list s [10%N]) = true -> List.length s <= 100 -> removable U t s.
Proof.
  intros U t s HU B10 B13 Ht H Hl. apply andb_true_iff in H as [H H3]. apply andb_true_iff in H as [H1 H2]. split; [apply raw_ok_plain; assumption|].
  split; [intros F; rewrite forallb_forall in H1; specialize (H1 _ F); discriminate|]. split; intros ->; discriminate.
Qed.
Lemma plain_demo : plain_rule demo_tab (fun s => Some (s ++ [33%N])).
Proof.
  intros s w Hs Hn. exists (s ++ [33%N]), (w + 1). split; [reflexivity|]. split; [apply shows_app; [exact demo_tab_ok|exact Hs|apply (shows_ascii demo_tab demo_tab_ok [33%N]); reflexivity]|].
  intros F. apply in_app_or in F as [F|[F|[]]]; [exact (Hn F)|discriminate].
Qed.
Definition undo_opts : opts := mkOpts 101 8 0 0 0 0 0 (-1) (-1) (-1) (-1).
(** a block comment, indented with a tab, with blank lines around it and with carriage returns *)
Definition undo_raws : list (list N) := [[13; 10]; 9 :: txt "/*****" ++ [13; 10]; 9 :: txt " * int a;  " ++ [13; 10]; 9 :: txt " *" ++ 9 :: txt "b" ++ [10]; 9 :: txt " *****/" ++ [10]; [32]]%N.
Example C72_example : Forall (removable demo_tab 8) undo_raws /\ plain_rule demo_tab (fun s => Some (s ++ [33%N])) /\
  wf_design demo_tab demo_doc /\ built demo_tab demo_doc /\ content 8 (nth 3 undo_raws []) (txt "         *      b") /\
  (forall inp, uncrossed demo_tab demo_doc inp) /\ border_height demo_doc true + border_height demo_doc false <= 4 /\
  boxes_remove demo_tab [10%N] undo_opts demo_doc 0 (-1) [fun s => Some (s ++ [33%N])] undo_raws = Ok (terminated [10%N] false (map txt ["!"; " int a;  !"; "      b!"; " !"]%string)) /\
  boxes_remove demo_tab [10%N] undo_opts demo_doc 0 (-1) [] undo_raws = Ok (terminated [10%N] false (map txt [""; " int a;"; "      b"; " "]%string)).
Proof.
  split; [unfold undo_raws; repeat apply Forall_cons; try apply Forall_nil; (apply removable_plain; [exact demo_tab_ok|reflexivity|reflexivity|lia|vm_compute; reflexivity|vm_compute; lia])|]. split; [exact plain_demo|].
  split; [apply wf_designb_ok; [exact demo_tab_ok|vm_compute; reflexivity]|].
  split; [intros i m Hi Hm; do 16 (destruct i as [|i]; [cbn in Hm; intuition (subst m; left; vm_compute; reflexivity)|]); lia|].
  split.
  { exists (9%N :: txt " *" ++ 9%N :: txt "b"), (9%N :: txt " *" ++ 9%N :: txt "b"). split; [left; reflexivity|]. split; [right; split; [reflexivity|]|].
    - intros a E. apply (f_equal (@rev N)) in E. rewrite rev_app_distr in E. discriminate E.
    - apply (ex_tab 8 0 8); [lia|reflexivity|]. do 2 (apply ex_chr; [discriminate|]). apply (ex_tab 8 10 6 [98%N] [98%N]); [lia|reflexivity|]. apply ex_chr; [discriminate|constructor]. }
  split; [intros inp l drop _; apply one_sided; right; vm_compute; reflexivity|]. split; [vm_compute; lia|]. split; vm_compute; reflexivity.
Qed.
Example C72_open_example : blank_side demo_cmt BRIG = true /\ blank_side demo_cmt BTOP = true /\ blank_side demo_cmt BBOT = true /\
  boxes_remove demo_tab [10%N] undo_opts demo_cmt 0 (-1) [] [txt "  # a  " ++ [10%N]; txt "#" ++ [10%N]; txt "b # c" ++ [10%N]; 9%N :: txt "#  d"] = Ok (terminated [10%N] false (map txt ["a"; ""; "b # c"; " d"]%string)).
Proof. repeat (split; [vm_compute; reflexivity|]). vm_compute. reflexivity. Qed.
Example C72_empty_line_example : boxes_remove demo_tab [10%N] undo_opts demo_cmt 0 (-1) [] [txt "# a" ++ [10%N]; [10%N]; txt "# b" ++ [10%N]] = UB.
Proof. apply C72_empty_line_refuted; [right; left; reflexivity|]. intros raw [<-|[<-|[<-|[]]]]; eexists; [left; vm_compute; reflexivity|right; reflexivity|left; vm_compute; reflexivity]. Unshelve. exact (mkLine bxs_new_empty_string []). Qed.
