(** * What is left of plain lines after removing a box is plain; reading it again *)
From Coq Require Import List Arith NArith ZArith Bool Lia.
From Verif Require Import Base BaseFacts Model_Unicode Model_Bxs Model_Shape Model_Generate Model_Input Model_Detect Model_Remove Model_Main
  Spec_Str Spec_Design Spec_Box Spec_Input Spec_Remove Spec_Undo Spec_Pipe Proof_Str Proof_Bxs Proof_BxsOps Proof_BxsMore Proof_Shows
  Proof_Input Proof_Body Proof_Round Proof_Undo.
Import ListNotations.
Local Open Scope nat_scope.

Lemma bind_inv : forall (A B : Type) (x : res A) (f : A -> res B) r, bind x f = Ok r -> exists a, x = Ok a /\ f a = Ok r.
Proof. intros A B [a| | | |] f r H; try discriminate H. exists a. auto. Qed.
Lemma must_inv : forall (A : Type) (x : res A) r, must x = Ok r -> x = Ok r.
Proof. intros A [a| | | |] r H; try discriminate H. exact H. Qed.

Section Pipe.
Variable U : uctab.
Hypothesis HU : uctab_ok U.
Notation okt := (okt U).
Notation pl := (pl U).
Notation mk := (mk U).

(** a line as it is made from plain text without tabs *)
Definition even (l : line) : Prop := exists s, l = mk s /\ okt s.
Definition evenr (l : rline) : Prop := r_tabpos l = [] /\ (r_text l = None \/ exists s, r_text l = Some (pl s) /\ okt s).

Lemma vertical_even : forall d mode ind ct l v x, even l -> remove_vertical U d mode ind ct l v = Ok x -> evenr x.
Proof.
  intros d mode ind ct l v x (m & -> & Hm) E. unfold remove_vertical in E. cbn [Proof_Round.mk l_text l_tabpos] in E.
  apply bind_inv in E as (s & _ & E). apply bind_inv in E as (e & _ & E). apply bind_inv in E as (t & Et & E). apply bind_inv in E as (t' & Et' & E).
  injection E as <-. split; [reflexivity|]. cbn [r_text].
  assert (T : t = None \/ exists q, t = Some (pl q) /\ okt q).
  { unfold bxs_substr in Et. destruct (_ <? _); [left; congruence|]. rewrite (mem_pl U) in Et.
    assert (Hq : okt (skipn (Nat.min s (num_chars (pl m))) (firstn (Nat.min e (num_chars (pl m))) m))).
    { assert (H1 : okt (firstn (Nat.min e (num_chars (pl m))) m)) by (rewrite <- (firstn_skipn (Nat.min e (num_chars (pl m))) m) in Hm; apply (okt_app U) in Hm; tauto).
      set (z := firstn _ m) in *. rewrite <- (firstn_skipn (Nat.min s (num_chars (pl m))) z) in H1. apply (okt_app U) in H1. tauto. }
    rewrite from_pl in Et by assumption. injection Et as <-. right. eexists. split; [reflexivity|exact Hq]. }
  destruct (_ || _) in Et'; [|injection Et' as <-; exact T]. destruct T as [->|(q & -> & Hq)]; cbn [prepend_opt] in Et'.
  - destruct (ind =? 0); [left; congruence|]. unfold u32_nspaces in Et'. rewrite from_pl in Et'; [|exact HU|apply okt_spaces; exact HU]. cbn [must bind] in Et'. injection Et' as <-.
    right. eexists. split; [reflexivity|apply okt_spaces; exact HU].
  - rewrite (prepend_pl U HU) in Et'. cbn [bind] in Et'. injection Et' as <-. right. eexists. split; [reflexivity|]. apply (okt_app U). split; [apply okt_spaces; exact HU|exact Hq].
Qed.
Lemma verticals_even : forall d mode ind ct ls vs xs, Forall even ls -> remove_vertical_all U d mode ind ct ls vs = Ok xs -> Forall evenr xs.
Proof.
  intros d mode ind ct ls. induction ls as [|l ls IH]; intros vs xs H E; [injection E as <-; constructor|]. destruct vs as [|v vs]; [injection E as <-; constructor|].
  cbn [remove_vertical_all] in E. apply bind_inv in E as (a & Ea & E). apply bind_inv in E as (r & Er & E). injection E as <-. inversion H; subst.
  constructor; [eapply vertical_even; eassumption|eapply IH; eassumption].
Qed.
Lemma keep_even : forall ls, Forall even ls -> Forall evenr (map keep_line ls).
Proof. intros ls H. induction H as [|l ls (s & -> & Hs) H IH]; [constructor|]. constructor; [|exact IH]. split; [reflexivity|]. right. exists s. auto. Qed.
Lemma some_front : forall (A : Type) (P : A -> Prop) n l, Forall P l -> Forall P (firstn n l).
Proof. intros A P n l H. rewrite <- (firstn_skipn n l) in H. apply Forall_app in H. tauto. Qed.
Lemma some_back : forall (A : Type) (P : A -> Prop) n l, Forall P l -> Forall P (skipn n l).
Proof. intros A P n l H. rewrite <- (firstn_skipn n l) in H. apply Forall_app in H. tauto. Qed.
Lemma bottom_some : forall (A : Type) (P : A -> Prop) ls a b r, Forall P ls -> remove_bottom_from_input ls a b = Ok r -> Forall P r.
Proof.
  intros A P ls a b r H E. unfold remove_bottom_from_input in E. destruct (a <? b); [|injection E as <-; exact H]. destruct (_ <? _); [discriminate E|].
  injection E as <-. apply Forall_app. split; [apply some_front|apply some_back]; exact H.
Qed.
Lemma top_some : forall (A : Type) (P : A -> Prop) ls a b r, Forall P ls -> remove_top_from_input ls a b = Ok r -> Forall P r.
Proof.
  intros A P ls a b r H E. unfold remove_top_from_input in E. destruct (a <? b); [|injection E as <-; exact H]. apply bind_inv in E as (n & _ & E).
  injection E as <-. apply Forall_app. split; [apply some_front|apply some_back]; exact H.
Qed.
Lemma settle_even : forall ls r, Forall evenr ls -> mapM settle ls = Ok r -> Forall even r.
Proof.
  intros ls. induction ls as [|l ls IH]; intros r H E; [injection E as <-; constructor|]. cbn [mapM] in E. apply bind_inv in E as (a & Ea & E). apply bind_inv in E as (r' & Er & E).
  injection E as <-. inversion H as [|? ? [Hp Ht] H']; subst. constructor; [|apply IH; assumption]. unfold settle in Ea.
  destruct Ht as [Et|(s & Et & Hs)]; rewrite Et in Ea; [discriminate Ea|]. injection Ea as <-. exists s. rewrite Hp. auto.
Qed.
Lemma cut_even : forall n ls first count r, Forall even ls -> cut_lines U n first count ls = Ok r -> Forall even r.
Proof.
  intros n ls. induction ls as [|l ls IH]; intros first count r H E; cbn [cut_lines] in E.
  - destruct (count =? 0); [injection E as <-; constructor|discriminate E].
  - inversion H as [|? ? Hl H']; subst. destruct first as [|f].
    + destruct count as [|c]; [injection E as <-; exact H|]. apply bind_inv in E as (b & Eb & E). apply bind_inv in E as (x & Ex & E). injection E as <-.
      destruct Hl as (s & -> & Hs). cbn [Proof_Round.mk l_text l_tabpos] in *. rewrite (cut_front_pl U HU s n Hs) in Eb. injection Eb as <-. constructor; [|eapply IH; eassumption].
      exists (skipn n s). split; [reflexivity|]. rewrite <- (firstn_skipn n s) in Hs. apply (okt_app U) in Hs. tauto.
    + apply bind_inv in E as (x & Ex & E). injection E as <-. constructor; [exact Hl|]. eapply IH; eassumption.
Qed.
Lemma apply_even : forall d mode kb mend ct body ts te bs be inp out, Forall even (i_lines inp) ->
  apply_results_to_input U d mode kb mend ct body ts te bs be inp = Ok out -> Forall even (i_lines out) /\ i_final_newline out = i_final_newline inp.
Proof.
  intros d mode kb mend ct body ts te bs be inp out H E. unfold apply_results_to_input in E. cbv zeta in E.
  apply bind_inv in E as (mid & Em & E). apply verticals_even in Em; [|apply some_front; apply some_back; exact H].
  set (ls1 := if te <? bs then _ else _) in E. assert (H1 : Forall evenr ls1).
  { unfold ls1. destruct (te <? bs); [|apply keep_even; exact H]. apply Forall_app. split; [apply keep_even, some_front, H|]. apply Forall_app. split; [exact Em|apply keep_even, some_back, H]. }
  clearbody ls1. apply bind_inv in E as ([te' bs'] & _ & E). apply bind_inv in E as (ls2 & E2 & E). apply bind_inv in E as (ls3 & E3 & E). apply bind_inv in E as (ls4 & E4 & E).
  apply (bottom_some _ evenr) in E2; [|exact H1]. apply (top_some _ evenr) in E3; [|exact E2]. apply settle_even in E4; [|exact E3].
  destruct (_ =? 0) in E; [injection E as <-; auto|]. apply bind_inv in E as (ls5 & E5 & E). apply cut_even in E5; [|exact E4].
  apply bind_inv in E as (m & _ & E). injection E as <-. auto.
Qed.
Lemma remove_even : forall d mode kb mend inp out, Forall even (i_lines inp) -> remove_box U d mode kb mend inp = Ok out ->
  Forall even (i_lines out) /\ i_final_newline out = i_final_newline inp.
Proof.
  intros d mode kb mend inp out H E. unfold remove_box in E. cbv zeta in E. apply bind_inv in E as (ts & _ & E). destruct (_ <=? _) in E; [injection E as <-; auto|].
  apply bind_inv in E as (t & _ & E). apply bind_inv in E as (lst & _ & E). apply bind_inv in E as (b & _ & E). apply bind_inv in E as (v & _ & E).
  eapply apply_even; eassumption.
Qed.
Lemma even_fit : forall l, even l <-> fit U l /\ l_tabpos l = [].
Proof.
  intros l. split.
  - intros (s & -> & Hs). unfold fit. cbn [Proof_Round.mk l_text l_tabpos]. rewrite (mem_pl U). auto.
  - intros ([E Ho] & Et). exists (memory (l_text l)). split; [|exact Ho]. destruct l as [b p]. cbn [l_text l_tabpos] in *. subst p. unfold Proof_Round.mk. congruence.
Qed.
Lemma subst_tabpos : forall rules ls m m' ls', subst_lines U rules m ls = Ok (m', ls') -> map l_tabpos ls' = map l_tabpos ls.
Proof.
  intros rules ls. induction ls as [|l ls IH]; intros m m' ls' E; [injection E as _ <-; reflexivity|]. cbn [subst_lines] in E.
  apply bind_inv in E as (x & _ & E). apply bind_inv in E as ([k r] & Ey & E). injection E as _ <-. cbn [map l_tabpos]. f_equal. exact (IH _ _ _ Ey).
Qed.
Lemma rules_even : forall d rules i, Forall (plain_rule U) rules -> Forall even (i_lines i) ->
  exists j, apply_substitutions U d rules i = Ok j /\ Forall even (i_lines j) /\ i_final_newline j = i_final_newline i.
Proof.
  intros d rules i HR H. assert (Hf : Forall (fit U) (i_lines i)) by (eapply Forall_impl; [|exact H]; intros l Hl; apply even_fit in Hl; tauto).
  destruct (rule_lines U HU rules (i_lines i) (i_maxline i) HR Hf) as (m' & ls' & Es & Hf' & _). unfold apply_substitutions. rewrite Es. cbn [bind fst snd]. eexists. split; [reflexivity|].
  cbn [i_lines i_final_newline]. split; [|reflexivity]. apply subst_tabpos in Es. apply Forall_forall. intros l Hl. apply even_fit. rewrite Forall_forall in Hf'. split; [apply Hf'; exact Hl|].
  apply (in_map l_tabpos) in Hl. rewrite Es in Hl. apply in_map_iff in Hl as (l0 & <- & Hl). rewrite Forall_forall in H. apply H in Hl. apply even_fit in Hl. tauto.
Qed.
Lemma trim_even : forall i, Forall even (i_lines i) -> exists rs, trim_lines U i = Ok (mkInput (map mk rs) (i_maxline i) (i_indent i) (i_final_newline i)) /\ Forall okt rs.
Proof.
  intros i H. unfold trim_lines.
  assert (X : exists rs, mapM (fun l => b <- must (bxs_rtrim U (l_text l)) ;; Ok (mkLine b (l_tabpos l))) (i_lines i) = Ok (map mk rs) /\ Forall okt rs).
  { induction H as [|l ls (s & -> & Hs) H IH]; [exists []; split; [reflexivity|constructor]|]. destruct IH as (rs & E & HF). destruct (rtrim_fit U HU s Hs) as (r & Er & Hr).
    exists (r :: rs). split.
    - cbn [mapM Proof_Round.mk l_text l_tabpos]. rewrite Er. cbn [must bind]. fold mk. rewrite E. reflexivity.
    - constructor; [|exact HF]. destruct Hr as [[_ ->]|(z & a & c & E1 & _)]; [exact Hs|]. rewrite E1 in Hs. apply (okt_app U) in Hs. tauto. }
  destruct X as (rs & -> & HF). exists rs. auto.
Qed.

(** reading what was printed *)
Lemma read_steady : forall o t e, 1 <= o_tabstop o <= 16 -> okt t -> steady U t -> lf e -> forallb (uc_ws U) e = true -> read_line U false o (t ++ e) = Ok (mk t).
Proof.
  intros o t e Ht Ho (_ & Hl & Hn) He Hw. unfold read_line, trim_trailing_ws_carefully. cbn [bind].
  assert (E27 : ~ In 27%N e) by (destruct He as [->|[->| ->]]; cbn; intuition discriminate).
  destruct Hn as [->|(a & c & E & Hu & _)].
  - cbn [app]. rewrite btrim_ws by assumption. reflexivity.
  - rewrite E in *. rewrite btrim_plain; [|exact Hu| |exact Hw].
    2:{ intros X. rewrite app_assoc in X. apply in_app_or in X as [X|X]; [|contradiction]. revert X. apply (okt_no27 U). exact Ho. }
    destruct (a ++ [c]) as [|x y] eqn:Ea; [destruct a; discriminate|]. cbn [is_nil]. rewrite expand_plain; [|exact Ht|apply (okt_no9 U); exact Ho|exact Hl].
    cbn [bind fst snd is_nil]. rewrite from_pl by assumption. reflexivity.
Qed.
Lemma read_pipe : forall o eol fin rs, 1 <= o_tabstop o <= 16 -> eol = [10%N] \/ eol = [13%N; 10%N] -> forallb (uc_ws U) eol = true -> Forall okt rs -> steady_lines U fin rs -> rs <> [] ->
  read_all_input U false o (raw_lines (terminated eol fin rs)) = Ok (map mk rs, fin).
Proof.
  intros o eol fin rs Ht He Hw Ho [Hs Hf] Hn.
  assert (HA : Forall (fun l => ~ In 10%N l) rs) by (eapply Forall_impl; [|exact Hs]; intros l Hl; apply Hl).
  assert (HB : Forall (fun l => N.of_nat (length l) <= line_limit)%N rs) by (eapply Forall_impl; [|exact Hs]; intros l Hl; apply Hl).
  rewrite raws_terminated by assumption. unfold read_all_input. rewrite (raws_read U).
  - cbn [bind]. rewrite raws_last; [reflexivity|exact He|exact Hn|]. intros F. specialize (Hf F).
    assert (L : In (last rs []) rs) by (destruct (exists_last Hn) as (x & y & ->); rewrite last_last; apply in_or_app; right; left; reflexivity).
    rewrite Forall_forall in Hs. destruct (Hs _ L) as (H10 & _ & [F'|(a & c & E & _ & H13)]); [congruence|]. exists a, c. split; [exact E|]. split; [exact H13|]. intros ->.
    apply H10. rewrite E. apply in_or_app. right. left. reflexivity.
  - destruct He as [->| ->]; [right; left|right; right]; reflexivity.
  - intros l e Hl Hlf Hee. rewrite Forall_forall in Hs, Ho. apply read_steady; auto. destruct Hee as [->| ->]; [reflexivity|exact Hw].
Qed.
End Pipe.
