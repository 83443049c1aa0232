(** * Properties of line splitting and of substitution rules: C52, C53 *)
From Coq Require Import Ascii String List Arith NArith ZArith Bool Lia.
From Verif Require Import Base BaseFacts Model_Unicode Model_Bxs Model_Shape Model_Generate Model_Input Model_Main
  Spec_Str Spec_Design Spec_Box Spec_Input Proof_Str Proof_Bxs Proof_BxsOps Proof_BxsMore Proof_Shows Prop_Str
  Proof_Rows Proof_Draw Proof_Print Proof_Input Demo Prop_Box Prop_Input.
Import ListNotations.
Local Open Scope nat_scope.

(** ** C53: splitting the input into raw lines *)
Lemma fgets_pieces : forall room n k s cur, N.of_nat n = room -> 0 < k -> k + length cur = n -> ~ In 10%N cur ->
  pieces n (fgets_all room (N.of_nat k) cur s) (rev cur ++ s).
Proof.
  intros room n k s. revert k. induction s as [|c r IH]; intros k cur Hn Hk Hl Hc; cbn [fgets_all].
  - rewrite app_nil_r. destruct cur as [|x cur]; [constructor|]. cbn [is_nil].
    apply pc_last; [cbn [rev]; destruct (rev cur); discriminate|rewrite rev_length; cbn [length] in *; lia|].
    intros H. apply Hc. apply in_rev. exact H.
  - assert (Hrev : ~ In 10%N (rev cur)) by (intros H; apply Hc; apply in_rev; exact H).
    assert (Hlen : length (rev cur ++ [c]) = S (length cur)) by (rewrite app_length, rev_length; cbn; lia).
    destruct (N.eqb c char_newline || N.eqb (N.of_nat k) 1)%bool eqn:E.
    + cbn [rev]. apply pc_cons; [lia|exact Hrev| |].
      * apply orb_true_iff in E as [E|E]; [left; apply N.eqb_eq; exact E|right].
        apply N.eqb_eq in E. lia.
      * subst room. apply (IH n []); [reflexivity|lia|cbn; lia|intros []].
    + apply orb_false_iff in E as [E1 E2]. apply N.eqb_neq in E1, E2.
      replace (N.pred (N.of_nat k)) with (N.of_nat (k - 1)) by lia.
      replace (rev cur ++ c :: r) with (rev (c :: cur) ++ r) by (cbn [rev]; rewrite <- app_assoc; reflexivity).
      apply IH; [exact Hn|lia|cbn [length]; lia|]. intros [H|H]; [apply E1; exact H|exact (Hc H)].
Qed.

Theorem C53_splitting : forall s, pieces (S (N.to_nat LINE_MAX_BYTES)) (raw_lines s) s.
Proof.
  intros s. unfold raw_lines.
  destruct (ex_intro (fun n => N.of_nat n = LINE_MAX_BYTES) _ (N2Nat.id _)) as [n En].
  assert (E2 : N.to_nat LINE_MAX_BYTES = n) by (rewrite <- En, Nat2N.id; reflexivity). rewrite E2.
  replace (LINE_MAX_BYTES + 1)%N with (N.of_nat (S n)) by lia.
  apply (fgets_pieces (N.of_nat (S n)) (S n) (S n) s []); [reflexivity|lia|cbn; lia|intros []].
Qed.
Print Assumptions C53_splitting.

(** consequences in plain words: nothing is lost, no piece is empty, and a text whose lines are short is split exactly
    behind its line feeds *)
Theorem C53_no_loss : forall s, concat (raw_lines s) = s /\ ~ In [] (raw_lines s).
Proof.
  intros s. pose proof (C53_splitting s) as H. induction H as [|p Hp Hl Hn|a c ps s Hl Ha Hc H [IH1 IH2]].
  - split; [reflexivity|intros []].
  - split; [cbn; apply app_nil_r|]. intros [H|[]]. congruence.
  - split; [cbn [concat]; rewrite IH1, <- app_assoc; reflexivity|].
    intros [H0|H0]; [destruct a; discriminate|contradiction].
Qed.
Print Assumptions C53_no_loss.

(** a line of at most LINE_MAX_BYTES characters in front of a line feed is one raw line *)
Theorem C53_short_lines : forall a s, ~ In 10%N a -> (N.of_nat (length a) <= LINE_MAX_BYTES)%N ->
  raw_lines (a ++ 10%N :: s) = (a ++ [10%N]) :: raw_lines s.
Proof.
  intros a s Ha Hl. unfold raw_lines.
  assert (H : forall room k cur, 0 < k -> length a < k -> fgets_all room (N.of_nat k) cur (a ++ 10%N :: s) =
    (rev cur ++ a ++ [10%N]) :: fgets_all room room [] s).
  { intros room. clear Hl. induction a as [|c a IH]; intros k cur Hk Hla; cbn [app fgets_all].
    - change (N.eqb 10 char_newline) with true. cbn [orb rev app]. reflexivity.
    - cbn [length] in Hla.
      assert (E1 : N.eqb c char_newline = false) by (apply N.eqb_neq; intros ->; apply Ha; left; reflexivity).
      assert (E2 : N.eqb (N.of_nat k) 1 = false) by (apply N.eqb_neq; lia).
      rewrite E1, E2. cbn [orb]. replace (N.pred (N.of_nat k)) with (N.of_nat (k - 1)) by lia.
      rewrite IH by (try lia; intros H; apply Ha; right; exact H). cbn [rev]. rewrite <- !app_assoc. reflexivity. }
  destruct (ex_intro (fun n => N.of_nat n = LINE_MAX_BYTES) _ (N2Nat.id _)) as [n En].
  replace (LINE_MAX_BYTES + 1)%N with (N.of_nat (S n)) by lia.
  rewrite H by lia. cbn [rev app]. reflexivity.
Qed.
Print Assumptions C53_short_lines.
Example C53_example : raw_lines (txt "ab"%string ++ [10; 10]%N ++ txt "c"%string) = [txt "ab"%string ++ [10]; [10]; txt "c"%string]%N.
Proof. vm_compute. reflexivity. Qed.

(** ** C52: substitution rules *)
Lemma subst_lines_nil : forall U m ls, subst_lines U [] m ls = Ok (m, ls).
Proof.
  intros U m ls. induction ls as [|l ls IH]; [reflexivity|]. cbn [subst_lines subst_line bind fst snd]. rewrite IH.
  cbn [bind fst snd]. destruct l; reflexivity.
Qed.

Lemma handle_input_rules : forall U o d rules raws inp0, raws <> [] -> handle_input U false o d [] raws = Ok inp0 ->
  handle_input U false o d rules raws = apply_substitutions U d rules inp0.
Proof.
  intros U o d rules raws inp0 Hne H. unfold handle_input in *.
  destruct (read_all_input U false o raws) as [[ls fin]| | | |] eqn:Er; try discriminate. cbn [bind fst snd] in *.
  unfold analyze_input in *. destruct (is_nil ls) eqn:En.
  { exfalso. unfold read_all_input in Er. destruct raws as [|raw raws]; [congruence|]. cbn [mapM] in Er.
    destruct (read_line U false o raw); try discriminate. cbn [bind] in Er.
    destruct (mapM (read_line U false o) raws); try discriminate. cbn [bind] in Er.
    injection Er as <- _. discriminate. }
  cbn [negb] in *. rewrite andb_true_r in *.
  destruct (negb (N.eqb (d_indentmode d) 116)) eqn:Em.
  - destruct (mapM (unindent U (get_indent ls)) ls) as [ls'| | | |]; try discriminate. cbn [bind] in *.
    destruct (subz _ (get_indent ls)) as [m'| | | |]; try discriminate. cbn [bind] in *.
    unfold apply_substitutions in *. cbn [i_maxline i_lines i_indent i_final_newline] in *.
    rewrite subst_lines_nil in H. cbn [bind fst snd] in H. apply negb_true_iff in Em. rewrite Em in *.
    injection H as <-. reflexivity.
  - cbn [bind] in *. unfold apply_substitutions in *. cbn [i_maxline i_lines i_indent i_final_newline] in *.
    rewrite subst_lines_nil in H. cbn [bind fst snd] in H. apply negb_false_iff in Em. rewrite Em in *.
    injection H as <-. reflexivity.
Qed.

Lemma subst_line_ok : forall U, uctab_ok U -> forall rules m b s w, Forall (rule_ok U) rules ->
  shows U w s -> bxs_from_unicode U s = Ok b ->
  exists m' b' s' w', subst_line U rules m b = Ok (m', b') /\ rewrites rules s s' /\ shows U w' s' /\
    bxs_from_unicode U s' = Ok b' /\ m <= m' /\ (w <= m -> w' <= m').
Proof.
  intros U HU rules. induction rules as [|f rules IH]; intros m b s w HR Hs Hb.
  - exists m, b, s, w. cbn [subst_line rewrites]. auto 8.
  - inversion HR as [|x l Hf HR']; subst. destruct (Hf s w Hs) as (t & w1 & Ef & Ht).
    destruct (shows_from U HU _ _ Hs) as (b0 & Eb0 & Hm & _). rewrite Hb in Eb0. injection Eb0 as <-.
    destruct (shows_from U HU _ _ Ht) as (b1 & Eb1 & Hm1 & Hc1 & _).
    destruct (IH (analyze_line_ascii m b1) b1 t w1 HR' Ht Eb1) as (m' & b' & s' & w' & E & Hr & Hs' & Hb' & Hle & Hw).
    exists m', b', s', w'. cbn [subst_line rewrites]. rewrite Hm, Ef, Eb1. cbn [must bind].
    unfold analyze_line_ascii in *. rewrite Hc1 in *.
    split; [exact E|]. split; [exists t; auto|]. split; [exact Hs'|]. split; [exact Hb'|].
    destruct (Nat.ltb_spec m w1); split; try lia; intros; apply Hw; lia.
Qed.

Lemma subst_lines_ok : forall U, uctab_ok U -> forall rules, Forall (rule_ok U) rules -> forall ls m,
  (forall l, In l ls -> exists s w, shows U w s /\ bxs_from_unicode U s = Ok (l_text l) /\ w <= m) ->
  exists m' ls', subst_lines U rules m ls = Ok (m', ls') /\ m <= m' /\
    Forall2 (fun l l' => rewrites rules (memory (l_text l)) (memory (l_text l')) /\ l_tabpos l' = l_tabpos l) ls ls' /\
    (forall l, In l ls' -> exists s w, shows U w s /\ bxs_from_unicode U s = Ok (l_text l) /\ w <= m').
Proof.
  intros U HU rules HR. induction ls as [|l ls IH]; intros m H.
  - exists m, []. split; [reflexivity|]. split; [lia|]. split; [constructor|intros l []].
  - destruct (H l (or_introl eq_refl)) as (s & w & Hs & Hb & Hw).
    destruct (subst_line_ok U HU rules m (l_text l) s w HR Hs Hb) as (m1 & b' & s' & w' & E & Hr & Hs' & Hb' & Hm & Hw').
    destruct (IH m1) as (m2 & ls' & E2 & Hm2 & HF & HA).
    { intros x Hx. destruct (H x (or_intror Hx)) as (s1 & w1 & ? & ? & ?). exists s1, w1. repeat split; auto. lia. }
    exists m2, (mkLine b' (l_tabpos l) :: ls'). cbn [subst_lines]. rewrite E. cbn [bind fst snd]. rewrite E2. cbn [bind fst snd].
    split; [reflexivity|]. split; [lia|]. split.
    + constructor; [|exact HF]. cbn [l_text l_tabpos]. split; [|reflexivity].
      destruct (shows_from U HU _ _ Hs) as (b0 & Eb0 & E0 & _). rewrite Hb in Eb0. injection Eb0 as <-.
      destruct (shows_from U HU _ _ Hs') as (b1 & Eb1 & E1 & _). rewrite Hb' in Eb1. injection Eb1 as <-.
      rewrite E0, E1. exact Hr.
    + intros x [<-|Hx]; [|auto]. exists s', w'. cbn [l_text]. repeat split; auto. specialize (Hw' Hw). lia.
Qed.

(** Every line is rewritten by all rules in order; the recorded width is large enough for all of them. *)
Theorem C52_substitutions : forall U o d rules raws, uctab_ok U -> 1 <= o_tabstop o <= 16 -> raws <> [] ->
  Forall (raw_ok U (o_tabstop o)) raws -> Forall (rule_ok U) rules -> o_justify o = 0%N ->
  exists inp0 inp, handle_input U false o d [] raws = Ok inp0 /\ handle_input U false o d rules raws = Ok inp /\
    Forall2 (fun l l' => rewrites rules (memory (l_text l)) (memory (l_text l')) /\ l_tabpos l' = l_tabpos l)
      (i_lines inp0) (i_lines inp) /\
    i_final_newline inp = i_final_newline inp0 /\ i_maxline inp0 <= i_maxline inp /\
    (d_indentmode d <> 116%N -> i_indent inp = i_indent inp0) /\
    (tab_free_indent o d inp -> wf_input U o d inp).
Proof.
  intros U o d rules raws HU Ht Hne Hok HR Hj.
  destruct (handle_input_spec U HU o d Ht raws Hne Hok) as (inp0 & n & E & _ & HF & Hm & _).
  assert (Hlines : forall l, In l (i_lines inp0) -> exists s w, shows U w s /\ bxs_from_unicode U s = Ok (l_text l) /\ w <= i_maxline inp0).
  { intros l Hl. destruct (Forall2_in_r _ _ _ _ _ _ HF Hl) as (raw & _ & ts0 & l0 & ts & k & _ & Htl & _).
    destruct (tline_shows U HU l ts Htl) as (s & w & Hs & Hf & ->). exists s, (num_columns (l_text l)).
    split; [exact Hs|]. split; [exact Hf|]. rewrite Hm. exact (maxl_ge _ _ (in_map (fun l => num_columns (l_text l)) _ _ Hl)). }
  destruct (subst_lines_ok U HU rules HR _ _ Hlines) as (m' & ls' & Es & Hle & HF' & HA).
  exists inp0. eexists. split; [exact E|]. rewrite (handle_input_rules U o d rules raws inp0 Hne E).
  unfold apply_substitutions. rewrite Es. cbn [bind fst snd]. split; [reflexivity|].
  cbn [i_lines i_final_newline i_maxline i_indent]. split; [exact HF'|]. split; [reflexivity|]. split; [exact Hle|].
  split; [intros Hi; apply N.eqb_neq in Hi; rewrite Hi; reflexivity|].
  intros Htab. constructor; cbn [i_lines i_maxline]; auto.
  - intros E0. rewrite E0 in HF'. inversion HF' as [E1|]. rewrite <- E1 in HF. inversion HF. congruence.
  - intros Hx. congruence.
Qed.
Print Assumptions C52_substitutions.

(** a rule that puts a mark in front, and one that deletes the line *)
Definition quote_rule (s : list N) : option (list N) := Some (62%N :: 32%N :: s).
Definition clear_rule (s : list N) : option (list N) := Some [].
Lemma quote_rule_ok : forall U, uctab_ok U -> rule_ok U quote_rule.
Proof.
  intros U HU s w Hs. exists (62%N :: 32%N :: s), (2 + w). split; [reflexivity|].
  apply (shows_app U HU 2 w [62; 32]%N s); [|exact Hs].
  apply (shows_ascii U HU [62; 32]%N eq_refl).
Qed.
Lemma clear_rule_ok : forall U, uctab_ok U -> rule_ok U clear_rule.
Proof. intros U HU s w Hs. exists [], 0. split; [reflexivity|]. apply shows_nil; exact HU. Qed.
Example C52_example : Forall (raw_ok demo_tab 4) demo_raws /\ Forall (rule_ok demo_tab) [quote_rule; quote_rule] /\
  match handle_input demo_tab false (mkOpts 101 4 108 116 0 0 0 (-1) (-1) (-1) (-1)) demo [quote_rule; quote_rule] demo_raws with
  | Ok i => map (fun l => str (memory (l_text l))) (i_lines i) = ["> > int a;"; "> > "; "> >  b x"]%string /\ i_maxline i = 10
  | _ => False end.
Proof.
  split; [repeat apply Forall_cons; try apply Forall_nil; apply raw_ok_demo; try reflexivity; cbn; lia|].
  split; [repeat constructor; apply quote_rule_ok; exact demo_tab_ok|]. vm_compute. split; reflexivity.
Qed.

(** The recorded width is not that of the widest line: it is never reduced when a rule shortens the lines. *)
Theorem C52_width_refuted : exists U o d rules raws inp, uctab_ok U /\ Forall (raw_ok U (o_tabstop o)) raws /\
  Forall (rule_ok U) rules /\ handle_input U false o d rules raws = Ok inp /\
  forall l w, In l (i_lines inp) -> shows U w (memory (l_text l)) -> w < i_maxline inp.
Proof.
  exists demo_tab, opts0, demo, [clear_rule], [txt "abc"%string]. eexists.
  split; [exact demo_tab_ok|]. split; [repeat apply Forall_cons; try apply Forall_nil; apply raw_ok_demo; try reflexivity; cbn; lia|].
  split; [repeat constructor; apply clear_rule_ok; exact demo_tab_ok|].
  split; [vm_compute; reflexivity|].
  cbn [i_lines i_maxline]. intros l w [<-|[]] Hw. cbn [l_text memory] in Hw.
  rewrite (shows_inj demo_tab demo_tab_ok w 0 []); [lia|exact Hw|apply shows_nil; exact demo_tab_ok].
Qed.
Print Assumptions C52_width_refuted.
