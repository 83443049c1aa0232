(** * The names in the text of a file, and designs from texts: C69 *)
From Coq Require Import Ascii String List Arith NArith ZArith Bool Lia.
From Verif Require Import Base BaseFacts Model_Unicode Model_Bxs Model_Shape Model_Regex Model_Query Model_Discovery Model_Parser Model_Lexer Spec_Lexer Prop_Lexer Model_Scan Spec_Config
  Proof_Scan Proof_Recover Proof_ScanMore Spec_Safe Proof_SafeText Spec_List.
Import ListNotations.
Local Open Scope nat_scope.
Local Open Scope list_scope.

Definition tokN (t : token) : Prop := match t with T_ASCII_ID w => Spec_Config.name w | _ => True end.
Lemma unrec_N : forall c, Forall tokN (unrec c).
Proof. intros c. apply Forall_forall. intros t Ht. apply unrec_in in Ht as ->. exact I. Qed.
Lemma other_N : forall q d c r t q' d' s, step_other q d c r = (t, q', d', s) -> Forall tokN t.
Proof. intros q d c r t q' d' s E. unfold step_other in E. destruct (N.eqb c 35); [destruct (up_to_newline r)|]; injection E as <- _ _ _; try apply unrec_N; constructor. Qed.
Lemma string_N : forall q d c r t q' d' s, step_string q d c r = Ok (t, q', d', s) -> Forall tokN t.
Proof.
  intros q d c r t q' d' s E. unfold step_string in E. destruct (lex_string d (c :: r)) as [[|v u|u]| | | |]; try discriminate E; cbn [bind] in E.
  - injection E as E. eapply other_N; exact E.
  - injection E as <- _ _ _. repeat constructor.
  - injection E as <- _ _ _. repeat constructor.
Qed.
Lemma word_N : forall q d c r t q' d' s, word_start c = true -> step_word q d c r = (t, q', d', s) -> Forall tokN t.
Proof.
  intros q d c r t q' d' s Hs E. unfold step_word in E. destruct (span word_char (c :: r)) as [w u] eqn:Es. destruct (Neq_list w [bom]); [injection E as <- _ _ _; constructor|].
  destruct (forallb is_ascii w) eqn:Ea; [|injection E as <- _ _ _; repeat constructor].
  assert (Nw : Spec_Config.name w).
  { assert (Hw : word_char c = true) by (unfold word_start in Hs; unfold word_char; apply orb_true_iff in Hs as [-> | ->]; [reflexivity|apply orb_true_r]).
    cbn [span] in Es. rewrite Hw in Es. destruct (span word_char r) as [w' u'] eqn:Er. injection Es as <- <-. exists c, w'. split; [reflexivity|].
    cbn [forallb] in Ea. apply andb_true_iff in Ea as [A1 A2]. apply span_spec in Er as (_ & W & _).
    assert (L : forall x, is_letter x = true -> letter x).
    { intros x X. unfold is_letter in X. unfold letter. apply orb_true_iff in X as [X|X]; apply andb_true_iff in X as [X Y]; apply N.leb_le in X; apply N.leb_le in Y; lia. }
    split; [unfold word_start in Hs; rewrite A1, orb_false_r in Hs; apply L; exact Hs|].
    apply Forall_forall. intros x Hx. rewrite forallb_forall in A2, W. specialize (A2 x Hx). specialize (W x Hx). unfold word_char in W. rewrite A2, orb_false_r in W. unfold name_char.
    apply orb_true_iff in W as [W|W]; [|apply N.eqb_eq in W; auto]. apply orb_true_iff in W as [W|W]; [|apply N.eqb_eq in W; auto]. apply orb_true_iff in W as [W|W]; [left; apply L; exact W|].
    unfold is_digit in W. apply andb_true_iff in W as [X Y]. apply N.leb_le in X. apply N.leb_le in Y. right. left. lia. }
  destruct (match q with q_INITIAL => _ | _ => _ end) as [[t0 q0] d0] eqn:Ew. injection E as <- _ _ _. constructor; [|constructor].
  assert (B : word_box w d = (t0, q0, d0) -> tokN t0).
  { clear -Nw. intros Ew. unfold word_box in Ew. repeat match type of Ew with (if ?b then _ else _) = _ => destruct b; [injection Ew as <- _ _; exact I|] end. injection Ew as <- _ _. exact Nw. }
  destruct q; try exact (B Ew). unfold word_initial in Ew. repeat match type of Ew with (if ?b then _ else _) = _ => destruct b; [injection Ew as <- _ _; exact I|] end. injection Ew as <- _ _. exact Nw.
Qed.
Lemma step_N : forall q d c r t q' d' s, step q d c r = Ok (t, q', d', s) -> Forall tokN t.
Proof.
  intros q d c r t q' d' s H.
  assert (Sy : forall x, symbol c = Some x -> Forall tokN [x]).
  { intros x Hx. constructor; [|constructor]. unfold symbol in Hx. repeat match type of Hx with (if ?b then _ else _) = _ => destruct b; [injection Hx as <-; exact I|] end. discriminate Hx. }
  destruct q as [| | | | | |bol acc]; cbn [step] in H.
  - destruct (is_white c); [injection H as <- _ _ _; constructor|]. destruct (word_start c) eqn:W; injection H as H; [eapply word_N|eapply other_N]; eassumption.
  - destruct (is_white c); [injection H as <- _ _ _; constructor|]. destruct (word_start c) eqn:W; [injection H as H; eapply word_N; eassumption|].
    destruct (is_digit c || _ || _).
    { unfold step_number in H. destruct (span is_digit _) as [ds u]. destruct (is_nil ds); [injection H as H; eapply other_N; eassumption|].
      destruct (atoi _ _) as [z| | | |]; try discriminate H. injection H as <- _ _ _. repeat constructor. }
    destruct (symbol c) as [t0|]; [|eapply string_N; eassumption]. injection H as <- _ _ _. apply Sy. reflexivity.
  - destruct (is_white c || _); [injection H as <- _ _ _; constructor|].
    destruct (symbol c) as [t0|]; [injection H as <- _ _ _; apply Sy; reflexivity|].
    destruct (shape_at 3 (c :: r)) as [[i u]|]; [injection H as <- _ _ _; repeat constructor|eapply string_N; eassumption].
  - destruct (is_white c || _); [injection H as <- _ _ _; constructor|].
    destruct (symbol c) as [t0|]; [injection H as <- _ _ _; apply Sy; reflexivity|].
    destruct (shape_at 3 (c :: r)) as [[i u]|]; [injection H as <- _ _ _; repeat constructor|injection H as H; eapply other_N; eassumption].
  - injection H as H. unfold step_delimspec in H. destruct (is_white c); [injection H as <- _ _ _; constructor|].
    destruct (span _ (c :: r)) as [w u]. destruct (Neq_list w [bom]); [injection H as <- _ _ _; constructor|].
    destruct (if forallb is_ascii w then _ else _); injection H as <- _ _ _; repeat constructor.
  - unfold step_parent in H. destruct (span _ (c :: r)) as [w u]. destruct (negb (is_nil w)); [injection H as <- _ _ _; repeat constructor|].
    destruct (N.eqb c 10); [injection H as <- _ _ _; constructor|]. destruct r as [|c2 r2]; [discriminate H|]. destruct (N.eqb c2 10); [|discriminate H]. injection H as <- _ _ _. constructor.
  - unfold step_sample in H. destruct (span _ (c :: r)) as [b u]. destruct (bol && _).
    + injection H as <- _ _ _. constructor; [|constructor]. destruct (is_nil _); exact I.
    + destruct (ends_at (c :: r)); [injection H as <- _ _ _; repeat constructor|]. destruct (N.eqb c 10); injection H as <- _ _ _; constructor.
Qed.
Lemma from_N : forall f q d s ts, scan_from f q d s = Ok ts -> Forall tokN ts.
Proof.
  induction f as [|f IH]; intros q d s ts H; destruct s as [|c r]; cbn [scan_from] in H; try discriminate H; try (injection H as <-; constructor).
  destruct (step q d c r) as [[[[t q1] d1] s1]| | | |] eqn:E; try discriminate H. cbn [bind] in H.
  destruct (scan_from f q1 d1 s1) as [ts1| | | |] eqn:E1; try discriminate H. cbn [bind] in H. injection H as <-. apply Forall_app. split; [eapply step_N; exact E|eapply IH; exact E1].
Qed.
Definition names_stmt (s : stmt) : Prop := match s with s_box n al _ _ => Spec_Config.name n /\ Forall Spec_Config.name al | _ => True end.
Lemma alias_N : forall a l ok r, Forall tokN a -> alias_list a = (l, ok, r) -> Forall Spec_Config.name l.
Proof.
  assert (G : forall n a l ok r, List.length a <= n -> Forall tokN a -> alias_list a = (l, ok, r) -> Forall Spec_Config.name l).
  { induction n as [|n IH]; intros a l ok r L H E; (destruct a as [|t a]; [injection E as <- _ _; constructor|]); cbn [List.length] in L; [lia|].
    destruct t; try (injection E as <- _ _; constructor). destruct a as [|t a]; [injection E as <- _ _; constructor|]. destruct t; try (injection E as <- _ _; constructor).
    cbn [alias_list] in E. destruct (alias_list a) as [[l' ok'] r'] eqn:E'. injection E as <- _ _. inversion H as [|? ? _ H1]; subst. inversion H1; subst. constructor; [assumption|].
    eapply (IH a); [cbn [List.length] in L; lia|assumption|exact E']. }
  intros a l ok r. apply (G (List.length a)). apply le_n.
Qed.
Lemma sufN : forall s t, tsuffix s t -> Forall tokN t -> Forall tokN s.
Proof. intros s t (a & ->) H. apply Forall_app in H. apply H. Qed.
Lemma config_N : forall U f a, both U a -> Forall tokN a -> Forall names_stmt (config_file f a).
Proof.
  intros U. induction f as [|f IH]; intros a B H; [constructor|]. destruct a as [|t a]; [constructor|].
  assert (S0 : tsuffix a (t :: a)) by (apply tsuffix_cons, tsuffix_refl).
  assert (J : Forall names_stmt (s_junk :: config_file f (recovered a))).
  { constructor; [exact I|]. pose proof (tsuffix_trans _ _ _ (recovered_suf a) S0) as S1. apply IH; [eapply both_suf|eapply sufN]; eassumption. }
  destruct t; try exact J.
  - destruct a as [|y a]; [exact J|]. destruct y; try exact J. constructor; [exact I|].
    assert (S1 : tsuffix a (T_PARENT :: T_FILENAME s :: a)) by (apply tsuffix_cons, tsuffix_cons, tsuffix_refl). apply IH; [eapply both_suf|eapply sufN]; eassumption.
  - cbn [config_file]. destruct (design_of a) as [s r] eqn:E. pose proof (both_suf U _ _ S0 B) as B0. pose proof (sufN _ _ S0 H) as H0.
    destruct (design_legal U _ _ _ B0 E) as [_ D2]. constructor; [|apply IH; [eapply both_suf|eapply sufN]; eassumption].
    unfold design_of in E. destruct a as [|x a]; [injection E as <- _; exact I|]. destruct x; try (injection E as <- _; exact I).
    destruct (alias_list a) as [[al ok] r1] eqn:E1. inversion H0 as [|? ? Hn Ha]; subst. pose proof (alias_N _ _ _ _ Ha E1) as Al.
    destruct ok; [|injection E as <- _; exact I]. destruct (layout _ r1) as [[l e] r2]. destruct e; injection E as <- _; split; assumption.
Qed.
(** what is legal when the escape character is not *)
Definition no_esc (U : uctab) : uctab := mkUctab (fun _ => 0%Z) (N.eqb 27) (uc_is_cntrl U) (uc_ws U).
Lemma legal_no_esc : forall U c, legal U c -> c <> 27%N -> legal (no_esc U) c.
Proof. intros U c (A & B & _) H. split; [exact A|]. split; [exact B|]. cbn [no_esc uc_is_blank]. intros E. apply N.eqb_eq in E. congruence. Qed.
Lemma no_esc_27 : forall U c, legal (no_esc U) c -> c <> 27%N.
Proof. intros U c (_ & _ & H) ->. specialize (H eq_refl). discriminate H. Qed.
Lemma line_simple : forall U s, legal_line (no_esc U) s -> simple_text s.
Proof. intros U s H. eapply Forall_impl; [|exact H]. intros c [L N10]. split; [exact (no_esc_27 U c L)|]. split; [apply L|exact N10]. Qed.
Lemma lines_simple : forall U l, Forall (legal_line (no_esc U)) l -> Forall simple_text l.
Proof. intros U l H. eapply Forall_impl; [|exact H]. apply line_simple. Qed.
Lemma read_simple : forall U text l, read_statements text = Ok l -> ~ In 0%N text -> Forall (legal U) text -> ~ In 27%N text -> Forall simple_stmt l.
Proof.
  intros U text l H H0 Hc H27.
  assert (Hc' : Forall (legal (no_esc U)) text).
  { apply Forall_forall. intros c Hin. rewrite Forall_forall in Hc. apply legal_no_esc; [apply Hc; exact Hin|]. intros ->. contradiction. }
  pose proof (read_legal (no_esc U) text l H H0 Hc') as L.
  assert (NS : Forall names_stmt l).
  { apply clean_in in H0. unfold read_statements in H. destruct (scan text) as [ts| | | |] eqn:E; try discriminate H. cbn [bind] in H. injection H as <-.
    destruct (is_nil ts); [constructor; [exact I|constructor]|]. apply (config_N (no_esc U)); [|eapply from_N; exact E]. split; [|eapply scan_Q; eassumption].
    eapply scan_fine; [exact E|exact H0|]. eapply Forall_impl; [|exact Hc']. intros c Pc. unfold char_ok. destruct (N.eq_dec c 10) as [->|Nc]; [left; reflexivity|right; split; assumption]. }
  rewrite Forall_forall in *. intros s Hs. specialize (L s Hs). specialize (NS s Hs). destruct s as [f|n al it e|al|]; try exact I. destruct NS as [N1 N2]. split; [exact N1|]. split; [exact N2|].
  cbn [legal_stmt] in L. eapply Forall_impl; [|exact L]. intros i Hi. destruct i; cbn [legal_item simple_item] in *; try exact I.
  - apply (line_simple U). exact Hi.
  - apply (lines_simple U). exact Hi.
  - eapply Forall_impl; [|exact Hi]. intros c Lc. split; [exact (no_esc_27 U c Lc)|apply Lc].
  - eapply Forall_impl; [|exact Hi]. intros [k sd] Lk. cbn [snd] in *. destruct sd; [exact I|]. apply (lines_simple U). exact Lk.
  - destruct Hi. split; apply (line_simple U); assumption.
  - destruct Hi. split; apply (line_simple U); assumption.
Qed.
