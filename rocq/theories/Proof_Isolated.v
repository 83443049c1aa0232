(** * A design of a file is the one that its own lines make *)
From Coq Require Import Ascii String List Arith NArith ZArith Bool Lia.
From Verif Require Import Base BaseFacts Model_Unicode Model_Bxs Model_Shape Spec_Str Spec_Design Model_Query Model_Discovery Model_Parser Spec_Parser Proof_Parser Proof_Parser2.
Import ListNotations.
Local Open Scope nat_scope.
Local Open Scope list_scope.

(** what belongs to the current design of [a], everything else from [b] *)
Definition put (b a : pstate) : pstate :=
  mkPs (b_designs b) (curdes a) (num_mandatory a) (time_for_se_check a) (num_shapespec a) (skipping b) (speeding b) (b_parents b).
Definition rcmap {A B : Type} (f : A -> B) (r : rc A) : rc B :=
  match r with RC_SUCCESS a => RC_SUCCESS (f a) | RC_ERROR => RC_ERROR | RC_ABORT => RC_ABORT | RC_ACCEPT a => RC_ACCEPT (f a) end.
Definition outmap {A B : Type} (f : A -> B) (r : res (rc A)) : res (rc B) :=
  match r with Ok x => Ok (rcmap f x) | Err => Err | UB => UB | Wrap => Wrap | Fuel => Fuel end.
Lemma outmap_bind : forall A B C (f : B -> C) (r : res A) (k : A -> res (rc B)), outmap f (bind r k) = bind r (fun x => outmap f (k x)).
Proof. intros A B C f [x| | | |] k; reflexivity. Qed.
Lemma bind_ext : forall A B (r : res A) (k1 k2 : A -> res B), (forall x, k1 x = k2 x) -> bind r k1 = bind r k2.
Proof. intros A B [x| | | |] k1 k2 H; cbn; [apply H|reflexivity..]. Qed.
Lemma outmap_then : forall A B C (f : B -> C) (r : res (rc A)) (k : A -> res (rc B)), outmap f (then_ r k) = then_ r (fun x => outmap f (k x)).
Proof. intros A B C f r k. unfold then_. rewrite outmap_bind. apply bind_ext. intros [x| | |x]; reflexivity. Qed.
Lemma then_ext : forall A B (r : res (rc A)) (k1 k2 : A -> res (rc B)), (forall x, k1 x = k2 x) -> then_ r k1 = then_ r k2.
Proof. intros A B r k1 k2 H. unfold then_. apply bind_ext. intros [x| | |x]; try apply H; reflexivity. Qed.
Lemma then_map : forall A A' B (f : A -> A') (r : res (rc A)) (k : A' -> res (rc B)), then_ (outmap f r) k = then_ r (fun x => k (f x)).
Proof. intros A A' B f [[x| | |x]| | | |] k; reflexivity. Qed.

Section Isolated.
Variable U : uctab.
Variable beyond : res sentry.
Variable po : popts.
Variable eol : list N.
Variable children : list cdesign.
Variable fopen_ok : list N -> bool.
Variable sur : surroundings.

Lemma put_shapes : forall b l a, shapes_list U (put b a) l = outmap (put b) (shapes_list U a l).
Proof.
  intros b. induction l as [|[i d] l IH]; intros a; [reflexivity|]. cbn [shapes_list]. rewrite outmap_then. apply then_ext. intros s.
  change (curdes (put b a)) with (curdes a). destruct (isempty (c_shape (curdes a) i)); [|reflexivity]. rewrite <- IH. reflexivity.
Qed.
Lemma put_finalize : forall b a, action_finalize_shapes U beyond (put b a) = outmap (put b) (action_finalize_shapes U beyond a).
Proof.
  intros b a. unfold action_finalize_shapes. change (num_shapespec (put b a)) with (num_shapespec a). change (curdes (put b a)) with (curdes a).
  destruct (num_shapespec a <? 1); [reflexivity|]. rewrite outmap_then. apply then_ext. intros sh. destruct (negb (check_sizes sh)); [reflexivity|].
  change (time_for_se_check (put b a)) with (time_for_se_check a). destruct ((1 <? S (time_for_se_check a)) && negb (perform_se_check sh)); reflexivity.
Qed.
Lemma put_item : forall b a i, do_item U beyond eol (put b a) i = outmap (put b) (do_item U beyond eol a i).
Proof.
  intros b a i. destruct i as [k v|l|s|l|l|s r m|s r m|l| |]; cbn [do_item].
  - rewrite outmap_bind. apply bind_ext. intros x. rewrite outmap_then. apply then_ext. intros c. reflexivity.
  - rewrite outmap_bind. apply bind_ext. intros x. reflexivity.
  - rewrite outmap_bind. apply bind_ext. intros x. unfold action_sample_block. change (curdes (put b a)) with (curdes a).
    destruct (c_sample (curdes a)); [reflexivity|]. destruct x as [x|]; [|reflexivity]. rewrite outmap_bind. apply bind_ext. intros [line|]; [|reflexivity].
    destruct (num_chars line =? 0); [reflexivity|]. destruct (negb _); reflexivity.
  - rewrite put_shapes, then_map, outmap_then. apply then_ext. intros x. apply put_finalize.
  - unfold action_elastic. change (curdes (put b a)) with (curdes a). change (time_for_se_check (put b a)) with (time_for_se_check a).
    destruct ((1 <? S (time_for_se_check a)) && _); reflexivity.
  - rewrite outmap_bind. apply bind_ext. intros x. rewrite outmap_bind. apply bind_ext. intros y. rewrite outmap_then. apply then_ext. intros c. reflexivity.
  - rewrite outmap_bind. apply bind_ext. intros x. rewrite outmap_bind. apply bind_ext. intros y. rewrite outmap_then. apply then_ext. intros c. reflexivity.
  - reflexivity.
  - reflexivity.
  - reflexivity.
Qed.
Lemma put_items : forall b l a, do_items U beyond eol (put b a) l = outmap (put b) (do_items U beyond eol a l).
Proof.
  intros b. induction l as [|i l IH]; intros a; [reflexivity|]. cbn [do_items]. rewrite put_item, then_map, outmap_then. apply then_ext. intros x. apply IH.
Qed.

(** between two statements: nothing is left of the design before, but its name perhaps *)
Definition idle (st : pstate) : Prop :=
  set_name None (curdes st) = set_name None init_design /\ num_mandatory st = 0 /\ time_for_se_check st = 0 /\ num_shapespec st = 0.
Lemma idle_init : forall ds sk sp ps, idle (mkPs ds init_design 0 0 0 sk sp ps).
Proof. intros. repeat split. Qed.
Lemma aliases_shape : forall l st, exists al, fst (add_aliases children st l) = with_cur (set_aliases al (curdes st)) st.
Proof.
  induction l as [|a l IH]; intros st; cbn [add_aliases].
  - exists (c_aliases (curdes st)). destruct st as [? c ? ? ? ? ? ?]. destruct c. reflexivity.
  - unfold action_add_alias. destruct (design_name_exists st a).
    + exists (c_aliases (curdes st)). destruct st as [? c ? ? ? ? ? ?]. destruct c. reflexivity.
    + destruct (alias_exists_in_child_configs children a); [apply IH|].
      match goal with |- context [add_aliases children ?x l] => destruct (IH x) as (al & E) end. exists al. rewrite E.
      destruct st as [? c ? ? ? ? ? ?]. destruct c. reflexivity.
Qed.
(** aliases that are accepted among other designs are accepted when there are none *)
Lemma aliases_put : forall b l st st', b_designs b = [] -> add_aliases children st l = (st', true) -> add_aliases children (put b st) l = (put b st', true).
Proof.
  intros b l. induction l as [|a l IH]; intros st st' Hb H; cbn [add_aliases] in *; [injection H as <-; reflexivity|].
  unfold action_add_alias in *. destruct (design_name_exists st a); [discriminate|].
  assert (E : design_name_exists (put b st) a = false) by (unfold design_name_exists; cbn [put b_designs]; rewrite Hb; reflexivity). rewrite E.
  destruct (alias_exists_in_child_configs children a); [exact (IH _ _ Hb H)|]. exact (IH _ _ Hb H).
Qed.
Lemma aliases_name : forall n l st, add_aliases children (with_cur (set_name n (curdes st)) st) l =
  (with_cur (set_name n (curdes (fst (add_aliases children st l)))) (fst (add_aliases children st l)), snd (add_aliases children st l)).
Proof.
  intros n. induction l as [|a l IH]; intros st; [reflexivity|]. cbn [add_aliases]. unfold action_add_alias.
  change (design_name_exists (with_cur (set_name n (curdes st)) st) a) with (design_name_exists st a). destruct (design_name_exists st a); [reflexivity|].
  destruct (alias_exists_in_child_configs children a); [apply IH|]. rewrite <- IH. reflexivity.
Qed.
Lemma idle_is : forall st, idle st -> c_aliases (curdes st) = [] /\ st = with_cur (set_name (c_name (curdes st)) init_design) (put st pstate0).
Proof.
  intros [ds c m t n sk sp ps] (H & A & B & C). cbn in *. subst. destruct c. unfold set_name, init_design in *. cbn in *. injection H. intros. subst. split; reflexivity.
Qed.
Lemma after_error_idle : forall st, (exists n al, curdes st = set_name n (set_aliases al init_design) /\ num_mandatory st = 0 /\ time_for_se_check st = 0 /\ num_shapespec st = 0) \/
  skipping st = false /\ speeding st = false -> idle (after_error st) /\ b_designs (after_error st) = b_designs st.
Proof.
  intros st H. unfold after_error. cbn [with_cur speeding skipping]. destruct (negb (speeding st) && negb (skipping st)) eqn:E.
  - split; [apply idle_init|reflexivity].
  - destruct H as [(n & al & Hc & A & B & C)|[A B]]; [|rewrite A, B in E; discriminate].
    split; [|reflexivity]. split; [|auto]. cbn [with_cur curdes]. rewrite Hc. reflexivity.
Qed.
Lemma after_error_idle1 : forall st, idle st -> idle (after_error st) /\ b_designs (after_error st) = b_designs st.
Proof.
  intros st H. apply after_error_idle. left. exists (c_name (curdes st)), []. destruct H as (H & A & B & C). split; [|auto].
  destruct (curdes st). unfold set_name, set_aliases, init_design in *. cbn in *. injection H. intros. subst. reflexivity.
Qed.

Notation do_stmt := (do_stmt U beyond po eol children fopen_ok sur).
Notation do_stmts := (do_stmts U beyond po eol children fopen_ok sur).
Notation parse_config_file := (parse_config_file U beyond po eol children fopen_ok sur).
(** the statement, alone in a file, makes this design and nothing else *)
Definition alone (s : stmt) (d : cdesign) : Prop := parse_config_file (Some [s]) = Ok ([d], []).
(** the name and the aliases are those of the statement, which is one without faults *)
Definition made_by (s : stmt) (d : cdesign) : Prop :=
  exists n al l e, s = s_box n al l e /\ l <> [] /\ ~ In i_bad l /\ c_name d = Some n /\ incl (c_aliases d) al.
Lemma aliases_incl : forall l st, incl (c_aliases (curdes (fst (add_aliases children st l)))) (c_aliases (curdes st) ++ l).
Proof.
  induction l as [|a l IH]; intros st; cbn [add_aliases]; [rewrite app_nil_r; apply incl_refl|].
  unfold action_add_alias. destruct (design_name_exists st a); [apply incl_appl; apply incl_refl|].
  destruct (alias_exists_in_child_configs children a).
  - eapply incl_tran; [apply IH|]. apply incl_app; [apply incl_appl; apply incl_refl|apply incl_appr, incl_tl, incl_refl].
  - eapply incl_tran; [apply IH|]. cbn [with_cur curdes set_aliases c_aliases]. rewrite <- app_assoc. apply incl_refl.
Qed.
Lemma items_no_bad : forall l st st', do_items U beyond eol st l = Ok (RC_SUCCESS st') -> ~ In i_bad l.
Proof.
  induction l as [|i l IH]; intros st st' H; [intros []|]. cbn [do_items] in H. apply then_ok in H as (x & H1 & H2).
  intros [->|F]; [|exact (IH _ _ H2 F)]. destruct H1 as [H1|H1]; discriminate H1.
Qed.

Lemma stmt_alone : forall st s r, idle st -> do_stmt st s = Ok r ->
  match r with
  | RC_SUCCESS st' | RC_ACCEPT st' => idle st' /\ (b_designs st' = b_designs st \/ exists d, b_designs st' = b_designs st ++ [d] /\ alone s d /\ made_by s d)
  | _ => True
  end.
Proof.
  intros st s r I H. destruct s as [f|name al layout fin|al|]; cbn [Model_Parser.do_stmt] in H.
  - destruct (filename_tok U f) as [b| | | |]; cbn [bind] in H; try discriminate H.
    destruct (action_parent_config U fopen_ok sur st b) as [st'| | | |] eqn:E; cbn [bind] in H; try discriminate H. injection H as <-.
    assert (S1 : forall x, idle (after_error (with_flags x (speeding st) st)) /\ b_designs (after_error (with_flags x (speeding st) st)) = b_designs st).
    { intros x. destruct (after_error_idle1 (with_flags x (speeding st) st)) as [A B]; [exact I|]. split; [exact A|rewrite B; reflexivity]. }
    assert (S3 : forall p, idle (add_parent st p) /\ b_designs (add_parent st p) = b_designs st).
    { intros p. unfold add_parent. destruct (existsb _ _); (split; [exact I|reflexivity]). }
    assert (G : idle st' /\ b_designs st' = b_designs st); [|destruct G as [G1 G2]; split; [exact G1|left; exact G2]].
    unfold action_parent_config in E. destruct b as [b|]; [|injection E as <-; apply S1]. destruct (num_chars b =? 0); [injection E as <-; apply S1|].
    destruct (same_nocase _ _).
    + destruct (discover_config_file U sur true) as [[p|]| | | |]; cbn [bind] in E; try discriminate E; injection E as <-; [apply S3|apply S1].
    + destruct (negb _); [injection E as <-; apply after_error_idle1; exact I|]. destruct (fopen_ok _); injection E as <-; [apply S3|apply S1].
  - destruct (idle_is st I) as [Ial Ist]. destruct I as (_ & I1 & I2 & I3).
    destruct (add_aliases children st al) as [st1 ok1] eqn:Ea. destruct (aliases_shape al st) as (l1 & E1). rewrite Ea in E1. cbn [fst] in E1.
    assert (C1 : exists n a0, curdes st1 = set_name n (set_aliases a0 init_design) /\ num_mandatory st1 = 0 /\ time_for_se_check st1 = 0 /\ num_shapespec st1 = 0).
    { exists (c_name (curdes st)), l1. rewrite E1. cbn [with_cur curdes num_mandatory time_for_se_check num_shapespec]. split; [|auto]. rewrite Ist. reflexivity. }
    assert (D1 : b_designs st1 = b_designs st) by (rewrite E1; reflexivity).
    assert (Err : forall x, ((exists n a0, curdes x = set_name n (set_aliases a0 init_design) /\ num_mandatory x = 0 /\ time_for_se_check x = 0 /\ num_shapespec x = 0) \/
       skipping x = false /\ speeding x = false) -> b_designs x = b_designs st -> idle (after_error x) /\ (b_designs (after_error x) = b_designs st \/ exists d, b_designs (after_error x) = b_designs st ++ [d] /\ alone (s_box name al layout fin) d /\ made_by (s_box name al layout fin) d)).
    { intros x Hx Hd. destruct (after_error_idle x Hx) as [A B]. split; [exact A|]. left. rewrite B. exact Hd. }
    destruct ok1; cbn [negb] in H; [|injection H as <-; apply Err; [left; exact C1|exact D1]].
    unfold action_start_parsing_design in H. set (st2 := with_cur (set_name (Some name) (curdes st1)) (with_flags false false st1)) in *.
    assert (D2 : b_designs st2 = b_designs st) by exact D1.
    destruct (design_needed po st2) eqn:En; cbn [negb] in H.
    2:{ injection H as <-. apply Err; [|exact D2]. left. destruct C1 as (n & a0 & C1 & C2). exists (Some name), a0. subst st2. cbn [with_cur with_flags curdes]. rewrite C1. split; [reflexivity|exact C2]. }
    destruct (is_nil layout) eqn:El; [injection H as <-; apply Err; [right; split; reflexivity|exact D2]|].
    destruct (do_items U beyond eol st2 layout) as [r1| | | |] eqn:Ei; cbn [bind] in H; try discriminate H.
    destruct r1 as [st3| | |st3]; [|injection H as <-; apply Err; [right; split; reflexivity|exact D2]|injection H as <-; exact Logic.I|elim (do_items_accept _ _ _ _ _ _ Ei)].
    pose proof (items_kept _ _ _ _ _ _ Ei) as (K1 & K2 & K3 & K4 & K5 & K6).
    unfold action_add_design in H. destruct (negb (same_nocase name fin)) eqn:Ef; [injection H as <-; apply Err; [right; rewrite K4, K5; split; reflexivity|rewrite K1; exact D2]|].
    destruct (num_mandatory st3 <? 3) eqn:Em; [injection H as <-; apply Err; [right; rewrite K4, K5; split; reflexivity|rewrite K1; exact D2]|].
    destruct (design_name_exists st3 name) eqn:Ex; [injection H as <-; apply Err; [right; rewrite K4, K5; split; reflexivity|rewrite K1; exact D2]|].
    assert (Al : alone (s_box name al layout fin) (curdes st3)).
    { pose (base := pstate0).
      assert (A1 : add_aliases children (put base st) al = (put base st1, true)) by (apply aliases_put; [reflexivity|exact Ea]).
      assert (A0 : exists st1', add_aliases children pstate0 al = (st1', true) /\ with_cur (set_name (Some name) (curdes st1')) (with_flags false false st1') = put (with_flags false false base) st2).
      { exists (with_cur (set_name None (curdes (put base st1))) (put base st1)).
        assert (P0 : pstate0 = with_cur (set_name None (curdes (put base st))) (put base st)) by (rewrite Ist; reflexivity). rewrite P0 at 1. rewrite aliases_name, A1. cbn [fst snd].
        split; reflexivity. }
      destruct A0 as (st1' & A2 & A3). unfold alone. cbn [Model_Parser.parse_config_file Model_Parser.do_stmts Model_Parser.do_stmt]. rewrite A2. cbn [negb].
      unfold action_start_parsing_design. rewrite A3.
      assert (En' : design_needed po (put (with_flags false false base) st2) = true).
      { unfold design_needed in *. destruct (choice po); [exact En|]. cbn [put b_designs with_flags base pstate0 is_nil]. apply orb_true_r. }
      rewrite En'. cbn [negb]. rewrite El, put_items, Ei. cbn [outmap rcmap bind]. unfold action_add_design. rewrite Ef.
      change (num_mandatory (put (with_flags false false base) st3)) with (num_mandatory st3). rewrite Em.
      change (design_name_exists (put (with_flags false false base) st3) name) with false. cbn [bind].
      destruct (full_parse_required po); reflexivity. }
    assert (Mk : made_by (s_box name al layout fin) (curdes st3)).
    { exists name, al, layout, fin. split; [reflexivity|]. split; [intros ->; discriminate El|]. split; [eapply items_no_bad; exact Ei|].
      split; [rewrite K2; reflexivity|]. rewrite K3. pose proof (aliases_incl al st) as Q. rewrite Ea, Ial in Q. exact Q. }
    destruct (full_parse_required po); injection H as <-; (split; [apply idle_init|right; exists (curdes st3); split; [cbn [b_designs]; rewrite K1, D2; reflexivity|split; [exact Al|exact Mk]]]).
  - injection H as <-. destruct (aliases_shape al st) as (l1 & E1). rewrite E1. destruct (idle_is st I) as [Ial Ist]. destruct I as (_ & I1 & I2 & I3).
    destruct (after_error_idle (with_cur (set_aliases l1 (curdes st)) st)) as [A B].
    { left. exists (c_name (curdes st)), l1. cbn [with_cur curdes num_mandatory time_for_se_check num_shapespec]. split; [|auto]. rewrite Ist. reflexivity. }
    split; [exact A|left; rewrite B; reflexivity].
  - injection H as <-. destruct (after_error_idle1 st I) as [A B]. split; [exact A|left; exact B].
Qed.
Lemma stmts_alone : forall l st r, idle st -> do_stmts st l = Ok r ->
  match r with
  | RC_SUCCESS st' | RC_ACCEPT st' => exists ss ds, subseq ss l /\ b_designs st' = b_designs st ++ ds /\ Forall2 (fun s d => alone s d /\ made_by s d) ss ds
  | _ => True
  end.
Proof.
  induction l as [|s l IH]; intros st r I H; cbn [Model_Parser.do_stmts] in H.
  - injection H as <-. exists [], []. rewrite app_nil_r. repeat constructor.
  - destruct (do_stmt st s) as [x| | | |] eqn:E; cbn [bind] in H; try discriminate H. pose proof (stmt_alone _ _ _ I E) as J.
    destruct x as [st1| | |st1]; try (injection H as <-; exact Logic.I).
    + destruct J as [I1 J]. specialize (IH _ _ I1 H). destruct r as [st'| | |st']; try exact IH;
      destruct IH as (ss & ds & A & B & C); (destruct J as [J|(d & J & Ja)]; [exists ss, ds; rewrite B, J; repeat split; [constructor; exact A|exact C]|
        exists (s :: ss), (d :: ds); rewrite B, J, <- app_assoc; repeat split; [constructor; exact A|constructor; assumption]]).
    + injection H as <-. destruct J as [_ [J|(d & J & Ja)]].
      * exists [], []. rewrite app_nil_r, J. repeat split; [apply subseq_nil_l|constructor].
      * exists [s], [d]. rewrite J. repeat split; [constructor; apply subseq_nil_l|constructor; [exact Ja|constructor]].
Qed.
Lemma designs_alone : forall l ds ps, parse_config_file (Some l) = Ok (ds, ps) -> exists ss, subseq ss l /\ Forall2 (fun s d => alone s d /\ made_by s d) ss ds.
Proof.
  intros l ds ps H. cbn [Model_Parser.parse_config_file] in H. destruct (do_stmts pstate0 l) as [x| | | |] eqn:E; cbn [bind] in H; try discriminate H.
  pose proof (stmts_alone _ _ _ (idle_init _ _ _ _) E) as J. destruct x as [st| | |st]; try (injection H as <- <-; exists []; split; [apply subseq_nil_l|constructor]).
  - destruct (is_nil (b_designs st) && _); injection H as <- <-; [exists []; split; [apply subseq_nil_l|constructor]|].
    destruct J as (ss & ds & A & B & C). cbn [pstate0 b_designs app] in B. rewrite B. eauto.
  - injection H as <- <-. destruct J as (ss & ds & A & B & C). cbn [pstate0 b_designs app] in B. rewrite B. eauto.
Qed.
End Isolated.
