(** * The strings of a configuration file consist of characters of its text *)
From Coq Require Import Ascii String List Arith NArith ZArith Bool Lia.
From Verif Require Import Base Model_Unicode Model_Bxs Model_Shape Model_Regex Model_Query Model_Discovery Model_Parser Model_Lexer Spec_Lexer Prop_Lexer Model_Scan Spec_Config
  Proof_Scan Proof_Recover Proof_ScanMore Spec_Safe.
Import ListNotations.
Local Open Scope nat_scope.
Local Open Scope list_scope.

Section Text.
Variable U : uctab.
Let P := legal U.
Let L := fun c => legal U c /\ c <> 10%N.
Definition tokQ (t : token) : Prop := match t with T_STRING s => Forall P s | T_FILENAME s => Forall L s | _ => True end.
Definition keeps (q : mode) : Prop := match q with q_SAMPLE _ acc => Forall P acc | _ => True end.

Lemma btrim_all : forall s, Forall P s -> Forall P (btrim s).
Proof.
  intros s H. unfold btrim. destruct (span trailing_white (rev s)) as [a b] eqn:E. apply span_spec in E as (E & _). cbn [snd].
  apply Forall_rev in H. rewrite E in H. apply Forall_app in H as [_ H]. apply Forall_rev. exact H.
Qed.
Lemma unrec_Q : forall c, Forall tokQ (unrec c).
Proof. intros c. apply Forall_forall. intros t Ht. apply unrec_in in Ht as ->. exact I. Qed.
Lemma other_Q : forall q d c r t q' d' s, step_other q d c r = (t, q', d', s) -> keeps q -> Forall tokQ t /\ keeps q'.
Proof.
  intros q d c r t q' d' s E K. unfold step_other in E. destruct (N.eqb c 35); [destruct (up_to_newline r)|]; injection E as <- <- _ _; (split; [|exact K]); try apply unrec_Q; constructor.
Qed.
Lemma string_Q : forall q d c r t q' d' s, step_string q d c r = Ok (t, q', d', s) -> delims_ok d -> clean (c :: r) -> Forall P (c :: r) -> keeps q -> Forall tokQ t /\ keeps q'.
Proof.
  intros q d c r t q' d' s E Hd H0 Hc K. unfold step_string in E.
  destruct (C31_literals d (c :: r) Hd ltac:(apply clean_in; exact H0)) as (l & El & Hl & _ & _). rewrite El in E. cbn [bind] in E. destruct l as [|v u|u].
  - injection E as E. eapply other_Q; eassumption.
  - injection E as <- <- _ _. split; [|exact K]. constructor; [|constructor]. destruct (proj1 (Hl v u) eq_refl) as (body & Eb & _ & _ & Un). cbn [tokQ].
    eapply unescaped_chars; [exact Un|]. rewrite Eb in Hc. inversion Hc; subst. match goal with H : Forall P (body ++ _) |- _ => apply Forall_app in H; apply H end.
  - injection E as <- <- _ _. split; [|exact K]. repeat constructor.
Qed.
Lemma word_Q : forall q d c r t q' d' s, step_word q d c r = (t, q', d', s) -> keeps q -> Forall tokQ t /\ keeps q'.
Proof.
  intros q d c r t q' d' s E K. unfold step_word in E. destruct (span word_char (c :: r)) as [w u]. destruct (Neq_list w [bom]); [injection E as <- <- _ _; auto|].
  destruct (forallb is_ascii w); [|injection E as <- <- _ _; split; [repeat constructor|exact K]].
  destruct (match q with q_INITIAL => _ | _ => _ end) as [[t0 q0] d0] eqn:Ew. injection E as <- <- _ _.
  assert (G : tokQ t0 /\ keeps q0).
  { assert (B : word_box w d = (t0, q0, d0) -> tokQ t0 /\ keeps q0).
    { clear. intros Ew. unfold word_box in Ew. repeat match type of Ew with (if ?b then _ else _) = _ => destruct b; [injection Ew as <- <- _; split; [exact I|try exact I; constructor]|] end. injection Ew as <- <- _. split; exact I. }
    destruct q; try exact (B Ew). unfold word_initial in Ew.
    repeat match type of Ew with (if ?b then _ else _) = _ => destruct b; [injection Ew as <- <- _; split; exact I|] end. injection Ew as <- <- _. split; exact I. }
  destruct G. split; [repeat constructor|]; assumption.
Qed.
Lemma step_Q : forall q d c r t q' d' s, step q d c r = Ok (t, q', d', s) -> delims_ok d -> clean (c :: r) -> Forall P (c :: r) -> keeps q -> Forall tokQ t /\ keeps q'.
Proof.
  intros q d c r t q' d' s H Hd H0 Hc K.
  assert (Sy : forall x, symbol c = Some x -> tokQ x).
  { intros x Hx. unfold symbol in Hx. repeat match type of Hx with (if ?b then _ else _) = _ => destruct b; [injection Hx as <-; exact I|] end. discriminate. }
  destruct q as [| | | | | |bol acc]; cbn [step] in H.
  - destruct (is_white c); [injection H as <- <- _ _; auto|]. destruct (word_start c); injection H as H; [eapply word_Q|eapply other_Q]; eassumption.
  - destruct (is_white c); [injection H as <- <- _ _; auto|]. destruct (word_start c); [injection H as H; eapply word_Q; eassumption|].
    destruct (is_digit c || _ || _).
    { unfold step_number in H. destruct (span is_digit _) as [ds u]. destruct (is_nil ds); [injection H as H; eapply other_Q; eassumption|].
      destruct (atoi _ _) as [z| | | |]; try discriminate. injection H as <- <- _ _. split; [repeat constructor|exact I]. }
    destruct (symbol c) as [t0|]; [|eapply string_Q; eassumption]. injection H as <- <- _ _. split; [constructor; [apply Sy; reflexivity|constructor]|exact I].
  - destruct (is_white c || _); [injection H as <- <- _ _; auto|].
    destruct (symbol c) as [t0|]; [injection H as <- <- _ _; split; [constructor; [apply Sy; reflexivity|constructor]|destruct (N.eqb c 125); exact I]|].
    destruct (shape_at 3 (c :: r)) as [[i u]|]; [injection H as <- <- _ _; split; [repeat constructor|exact I]|eapply string_Q; eassumption].
  - destruct (is_white c || _); [injection H as <- <- _ _; auto|].
    destruct (symbol c) as [t0|]; [injection H as <- <- _ _; split; [constructor; [apply Sy; reflexivity|constructor]|destruct (N.eqb c 41); exact I]|].
    destruct (shape_at 3 (c :: r)) as [[i u]|]; [injection H as <- <- _ _; split; [repeat constructor|exact I]|injection H as H; eapply other_Q; eassumption].
  - injection H as H. unfold step_delimspec in H. destruct (is_white c); [injection H as <- <- _ _; auto|].
    destruct (span _ (c :: r)) as [w u]. destruct (Neq_list w [bom]); [injection H as <- <- _ _; auto|].
    destruct (if forallb is_ascii w then _ else _); injection H as <- <- _ _; (split; [repeat constructor|exact I]).
  - unfold step_parent in H. destruct (span _ (c :: r)) as [w u] eqn:Es. apply span_spec in Es as (Es & Hw & _).
    destruct (negb (is_nil w)).
    { injection H as <- <- _ _. split; [|exact I]. constructor; [|constructor]. cbn [tokQ]. rewrite Es in Hc. apply Forall_app in Hc as [Hc _].
      apply Forall_forall. intros x Hx. rewrite Forall_forall in Hc. rewrite forallb_forall in Hw. specialize (Hw x Hx). split; [exact (Hc x Hx)|]. intros ->. discriminate Hw. }
    destruct (N.eqb c 10); [injection H as <- <- _ _; auto|]. destruct r as [|c2 r2]; [discriminate|]. destruct (N.eqb c2 10); [|discriminate]. injection H as <- <- _ _. auto.
  - unfold step_sample in H. destruct (span _ (c :: r)) as [b u] eqn:Es. apply span_spec in Es as (Es & _). cbn [keeps] in K.
    destruct (bol && _).
    + injection H as <- <- _ _. split; [|constructor]. constructor; [|constructor]. destruct (is_nil _); [exact I|]. cbn [tokQ]. apply btrim_all. apply Forall_app. split; [exact K|].
      rewrite Es in Hc. apply Forall_app in Hc. apply Hc.
    + destruct (ends_at (c :: r)); [injection H as <- <- _ _; split; [repeat constructor|exact I]|]. inversion Hc as [|? ? Pc Pr]; subst.
      assert (Kc : Forall P (acc ++ [c])) by (apply Forall_app; split; [exact K|constructor; [exact Pc|constructor]]).
      destruct (N.eqb c 10); injection H as <- <- _ _; (split; [constructor|]); cbn [keeps]; [destruct (is_nil acc); [constructor|exact Kc]|exact Kc].
Qed.
Lemma from_Q : forall f q d s ts, scan_from f q d s = Ok ts -> delims_ok d -> clean s -> Forall P s -> keeps q -> Forall tokQ ts.
Proof.
  induction f as [|f IH]; intros q d s ts H Hd H0 Hc K; destruct s as [|c r]; cbn [scan_from] in H; try discriminate; try (injection H as <-; constructor).
  destruct (step q d c r) as [[[[t q1] d1] s1]| | | |] eqn:E; try discriminate. cbn [bind] in H.
  destruct (scan_from f q1 d1 s1) as [ts1| | | |] eqn:E1; try discriminate. cbn [bind] in H. injection H as <-.
  destruct (step_Q _ _ _ _ _ _ _ _ E Hd H0 Hc K) as [Q K1]. pose proof (step_suffix _ _ _ _ _ _ _ _ E) as Sf. apply Forall_app. split; [exact Q|].
  eapply IH; [exact E1| | | |exact K1]; [eapply step_delims; eassumption|eapply suffix_clean; eassumption|].
  destruct Sf as (a & Ea). rewrite Ea in Hc. apply Forall_app in Hc. apply Hc.
Qed.
Lemma scan_Q : forall s ts, scan s = Ok ts -> clean s -> Forall P s -> Forall tokQ ts.
Proof. intros s ts H H0 Hc. eapply from_Q; [exact H|split; [cbn; auto|discriminate]|exact H0|exact Hc|exact I]. Qed.

(** ** items *)
Let fineL := fine L.
Lemma item_legal : forall ts i r, fineL true ts -> Forall tokQ ts -> item_of ts = Some (i, r) -> legal_item U i.
Proof.
  intros ts i r F Q H. destruct ts as [|t ts]; [discriminate|]. destruct t; try discriminate H.
  - destruct ts as [|t2 ts]; [discriminate|]. destruct t2; try discriminate H. cbn [item_of] in H.
    destruct (slist (List.length ts) ts) as [[l r']|] eqn:E; [|discriminate]. injection H as <- <-. destruct F as [_ [_ F]].
    destruct (slist_fine L _ _ _ _ F E) as [G _]. cbn [legal_item]. eapply Forall_impl; [|exact G]. intros [k sd]. destruct sd; exact (fun x => x).
  - destruct ts as [|t2 ts]; [discriminate|]. destruct t2; try discriminate H. cbn [item_of] in H. destruct (elist ts) as [[l r']|]; [|discriminate]. injection H as <- <-. exact I.
  - destruct ts as [|t2 ts]; [discriminate|]. destruct t2; try discriminate H. cbn [item_of] in H. destruct (wlist ts) as [[l r']|]; [|discriminate]. injection H as <- <-. exact I.
  - destruct ts as [|t2 ts]; [discriminate|]. destruct t2; try discriminate H. destruct ts as [|t3 ts]; [discriminate|]. destruct t3; try discriminate H.
    injection H as <- <-. inversion Q as [|? ? _ Q1]; subst. inversion Q1; subst. assumption.
  - cbn [item_of] in H. destruct F as [_ F]. cbn [is_sample] in F.
    assert (F1 : fineL false (snd (rflag ts))) by (destruct ts as [|[] ts]; cbn [rflag snd]; try exact F; destruct F as [_ F]; exact F).
    destruct (rflag ts) as [m r1]. cbn [snd] in F1. destruct r1 as [|t2 r1]; [discriminate|]. destruct t2; try discriminate H. destruct r1 as [|t3 r1]; [discriminate|]. destruct t3; try discriminate H.
    destruct r1 as [|t4 r1]; [discriminate|]. destruct t4; try discriminate H. injection H as <- <-. cbn [fineL fine is_sample] in F1. unfold fineL in F1. cbn [fine is_sample] in F1.
    destruct F1 as [[F1|F1] [_ [[F3|F3] _]]]; try discriminate. split; assumption.
  - cbn [item_of] in H. destruct F as [_ F]. cbn [is_sample] in F.
    assert (F1 : fineL false (snd (rflag ts))) by (destruct ts as [|[] ts]; cbn [rflag snd]; try exact F; destruct F as [_ F]; exact F).
    destruct (rflag ts) as [m r1]. cbn [snd] in F1. destruct r1 as [|t2 r1]; [discriminate|]. destruct t2; try discriminate H. destruct r1 as [|t3 r1]; [discriminate|]. destruct t3; try discriminate H.
    destruct r1 as [|t4 r1]; [discriminate|]. destruct t4; try discriminate H. injection H as <- <-. unfold fineL in F1. cbn [fine is_sample] in F1.
    destruct F1 as [[F1|F1] [_ [[F3|F3] _]]]; try discriminate. split; assumption.
  - destruct ts as [|t2 ts]; [discriminate|]. destruct t2; try discriminate H. injection H as <- <-. exact I.
  - destruct ts as [|t2 ts]; [discriminate|]. destruct t2; try discriminate H.
    + injection H as <- <-. destruct F as [_ [[F|F] _]]; [discriminate|]. constructor; [exact F|constructor].
    + cbn [item_of] in H. destruct (string_list ts) as [[l r']|] eqn:E; [|discriminate]. injection H as <- <-. destruct F as [_ [_ F]]. destruct (string_list_fine L _ _ _ F E) as [G _]. exact G.
  - destruct ts as [|t2 ts]; [discriminate|]. destruct t2; try discriminate H. injection H as <- <-. destruct F as [_ [[F|F] _]]; [discriminate|]. exact F.
  - destruct ts as [|t2 ts]; [discriminate|]. destruct t2; try discriminate H. injection H as <- <-. exact I.
  - destruct ts as [|t2 ts]; [discriminate|]. destruct t2; try discriminate H. injection H as <- <-. exact I.
Qed.
Lemma suf_Q : forall s t, tsuffix s t -> Forall tokQ t -> Forall tokQ s.
Proof. intros s t (a & ->) H. apply Forall_app in H. apply H. Qed.
Lemma item_suf : forall ts i r, item_of ts = Some (i, r) -> tsuffix r ts.
Proof.
  intros ts i r H.
  assert (Slist : forall f a l b, slist f a = Some (l, b) -> tsuffix b a).
  { assert (Sd : forall a sd b, shape_def_of a = Some (sd, b) -> tsuffix b a).
    { intros a sd b E. unfold shape_def_of in E. destruct a as [|t a]; [discriminate|]. destruct t; try discriminate E. apply tsuffix_cons.
      assert (K : match string_list a with Some (s :: l, r') => Some (lines s l, r') | _ => None end = Some (sd, b) -> tsuffix b a).
      { intros E'. destruct (string_list a) as [[[|x l] r']|] eqn:El; try discriminate. injection E' as <- <-. eapply string_list_suf; exact El. }
      destruct a as [|t2 a]; [exact (K E)|]. destruct t2; try exact (K E). injection E as <- <-. apply tsuffix_cons, tsuffix_refl. }
    induction f as [|f IH]; intros a l b E; [discriminate|]. cbn [slist] in E. destruct a as [|t a]; [discriminate|]. destruct t; try discriminate E. apply tsuffix_cons.
    destruct (shape_def_of a) as [[sd r1]|] eqn:Ed; [|discriminate]. apply Sd in Ed. eapply tsuffix_trans; [|exact Ed].
    assert (D : (exists r2, r1 = T_RBRACE :: r2 /\ b = r2) \/ exists l', slist f r1 = Some (l', b)).
    { destruct r1 as [|x r2]; [|destruct x; try (left; exists r2; injection E as <- <-; auto; fail)]; right;
      (destruct (slist f _) as [[l' r'']|]; [|discriminate]; injection E as <- <-; eauto). }
    destruct D as [(r2 & -> & ->)|(l' & E')]; [apply tsuffix_cons, tsuffix_refl|eapply IH; exact E']. }
  destruct ts as [|t ts]; [discriminate|]. destruct t; try discriminate H; apply tsuffix_cons.
  - destruct ts as [|t2 ts]; [discriminate|]. destruct t2; try discriminate H. cbn [item_of] in H. apply tsuffix_cons.
    destruct (slist (List.length ts) ts) as [[l r']|] eqn:E; [|discriminate]. injection H as <- <-. eapply Slist; exact E.
  - destruct ts as [|t2 ts]; [discriminate|]. destruct t2; try discriminate H. cbn [item_of] in H. apply tsuffix_cons. destruct (elist ts) as [[l r']|] eqn:E; [|discriminate]. injection H as <- <-. eapply elist_suf; exact E.
  - destruct ts as [|t2 ts]; [discriminate|]. destruct t2; try discriminate H. cbn [item_of] in H. apply tsuffix_cons. destruct (wlist ts) as [[l r']|] eqn:E; [|discriminate]. injection H as <- <-. eapply wlist_suf; exact E.
  - destruct ts as [|t2 ts]; [discriminate|]. destruct t2; try discriminate H. destruct ts as [|t3 ts]; [discriminate|]. destruct t3; try discriminate H. injection H as <- <-.
    apply tsuffix_cons, tsuffix_cons, tsuffix_refl.
  - cbn [item_of] in H. destruct (rflag ts) as [m r1] eqn:E. apply rflag_suf in E. eapply tsuffix_trans; [|exact E].
    destruct r1 as [|t2 r1]; [discriminate|]. destruct t2; try discriminate H. destruct r1 as [|t3 r1]; [discriminate|]. destruct t3; try discriminate H.
    destruct r1 as [|t4 r1]; [discriminate|]. destruct t4; try discriminate H. injection H as <- <-. apply tsuffix_cons, tsuffix_cons, tsuffix_cons, tsuffix_refl.
  - cbn [item_of] in H. destruct (rflag ts) as [m r1] eqn:E. apply rflag_suf in E. eapply tsuffix_trans; [|exact E].
    destruct r1 as [|t2 r1]; [discriminate|]. destruct t2; try discriminate H. destruct r1 as [|t3 r1]; [discriminate|]. destruct t3; try discriminate H.
    destruct r1 as [|t4 r1]; [discriminate|]. destruct t4; try discriminate H. injection H as <- <-. apply tsuffix_cons, tsuffix_cons, tsuffix_cons, tsuffix_refl.
  - destruct ts as [|t2 ts]; [discriminate|]. destruct t2; try discriminate H. injection H as <- <-. apply tsuffix_cons, tsuffix_refl.
  - destruct ts as [|t2 ts]; [discriminate|]. destruct t2; try discriminate H.
    + injection H as <- <-. apply tsuffix_cons, tsuffix_refl.
    + cbn [item_of] in H. apply tsuffix_cons. destruct (string_list ts) as [[l r']|] eqn:E; [|discriminate]. injection H as <- <-. eapply string_list_suf; exact E.
  - destruct ts as [|t2 ts]; [discriminate|]. destruct t2; try discriminate H. injection H as <- <-. apply tsuffix_cons, tsuffix_refl.
  - destruct ts as [|t2 ts]; [discriminate|]. destruct t2; try discriminate H. injection H as <- <-. apply tsuffix_cons, tsuffix_refl.
  - destruct ts as [|t2 ts]; [discriminate|]. destruct t2; try discriminate H. injection H as <- <-. apply tsuffix_cons, tsuffix_refl.
Qed.
(** ** statements *)
Definition both (ts : list token) : Prop := fineL true ts /\ Forall tokQ ts.
Lemma both_suf : forall s t, tsuffix s t -> both t -> both s.
Proof. intros s t S [A B]. split; [eapply tsuffix_fine; [exact S|exact A]|eapply suf_Q; eassumption]. Qed.
Lemma layout_legal : forall f a l e r, both a -> layout f a = (l, e, r) -> Forall (legal_item U) l /\ tsuffix r a.
Proof.
  induction f as [|f IH]; intros a l e r F E; [injection E as <- <- <-; split; [constructor|apply tsuffix_refl]|].
  destruct a as [|t a]; [injection E as <- <- <-; split; [constructor|apply tsuffix_refl]|].
  assert (D : t = T_END \/ t <> T_END) by (destruct t; (left; reflexivity) || (right; discriminate)). destruct D as [->|D].
  - destruct a as [|y a]; [injection E as <- <- <-; split; [constructor|apply tsuffix_cons, tsuffix_refl]|].
    destruct y; injection E as <- <- <-; (split; [constructor|]); try (apply tsuffix_cons, tsuffix_refl); apply tsuffix_cons, tsuffix_cons, tsuffix_refl.
  - rewrite layout_S in E by exact D. destruct (item_of (t :: a)) as [[i r1]|] eqn:E2; [|injection E as <- <- <-; split; [constructor|apply tsuffix_refl]].
    pose proof (item_suf _ _ _ E2) as S1. destruct (layout f r1) as [[l' e'] r'] eqn:E3. injection E as <- <- <-.
    destruct (IH _ _ _ _ (both_suf _ _ S1 F) E3) as [I3 I4]. split; [constructor; [eapply item_legal; [apply F|apply F|exact E2]|exact I3]|eapply tsuffix_trans; eassumption].
Qed.
Lemma design_legal : forall a s r, both a -> design_of a = (s, r) -> legal_stmt U s /\ tsuffix r a.
Proof.
  intros a s r F E. destruct a as [|x a]; [injection E as <- <-; split; [exact I|apply tsuffix_refl]|]. unfold design_of in E.
  pose proof (recovered_suf (x :: a)) as K. destruct x; try (injection E as <- <-; split; [exact I|exact K]).
  destruct (alias_list a) as [[al ok] r1] eqn:E1. apply alias_suf in E1. apply (tsuffix_cons (T_ASCII_ID s0)) in E1.
  destruct ok; [|injection E as <- <-; split; [exact I|eapply tsuffix_trans; [apply recovered_suf|exact E1]]].
  destruct (layout _ r1) as [[l e] r2] eqn:E2. destruct (layout_legal _ _ _ _ _ (both_suf _ _ E1 F) E2) as [L1 L2]. pose proof (tsuffix_trans _ _ _ L2 E1) as S2.
  destruct e; injection E as <- <-; cbn [legal_stmt].
  - split; [exact L1|]. destruct (is_nil l); [eapply tsuffix_trans; [apply recovered_suf|exact S2]|exact S2].
  - split; [|eapply tsuffix_trans; [apply recovered_suf|exact S2]]. apply Forall_app. split; [exact L1|]. constructor; [exact I|constructor].
Qed.
Lemma config_legal : forall f a, both a -> Forall (legal_stmt U) (config_file f a).
Proof.
  induction f as [|f IH]; intros a F; [constructor|]. destruct a as [|t a]; [constructor|].
  assert (J : Forall (legal_stmt U) (s_junk :: config_file f (recovered a))).
  { constructor; [exact I|apply IH]. eapply both_suf; [|exact F]. apply tsuffix_cons, recovered_suf. }
  destruct t; try exact J.
  - destruct a as [|y a]; [exact J|]. destruct y; try exact J. constructor.
    + destruct F as [_ Q]. inversion Q as [|? ? _ Q1]; subst. inversion Q1; subst. assumption.
    + apply IH. eapply both_suf; [|exact F]. apply tsuffix_cons, tsuffix_cons, tsuffix_refl.
  - cbn [config_file]. destruct (design_of a) as [s r] eqn:E. assert (B : both a) by (eapply both_suf; [|exact F]; apply tsuffix_cons, tsuffix_refl).
    destruct (design_legal _ _ _ B E) as [D1 D2]. constructor; [exact D1|]. apply IH. eapply both_suf; eassumption.
Qed.
Lemma read_legal : forall text l, read_statements text = Ok l -> ~ In 0%N text -> Forall P text -> Forall (legal_stmt U) l.
Proof.
  intros text l H H0 Hc. apply clean_in in H0. unfold read_statements in H. destruct (scan text) as [ts| | | |] eqn:E; try discriminate. cbn [bind] in H. injection H as <-.
  destruct (is_nil ts); [constructor; [exact I|constructor]|]. apply config_legal. split; [|eapply scan_Q; eassumption].
  eapply scan_fine; [exact E|exact H0|]. eapply Forall_impl; [|exact Hc]. intros c Pc. unfold char_ok. destruct (N.eq_dec c 10) as [->|Nc]; [left; reflexivity|right; split; assumption].
Qed.
End Text.
