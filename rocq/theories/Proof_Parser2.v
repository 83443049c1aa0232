(** * Lemmas about the configuration parser: statements and files *)
From Coq Require Import Ascii String List Arith NArith ZArith Bool Lia Permutation.
From Verif Require Import Base BaseFacts Model_Unicode Model_Bxs Model_Shape Spec_Str Spec_Design Model_Query Spec_Query Proof_Query Model_Discovery Model_Parser Spec_Parser
  Proof_Parser.
Import ListNotations.
Local Open Scope nat_scope.
Local Open Scope list_scope.

(** lists without related entries *)
Lemma pairwise_nil : forall A (R : A -> A -> Prop), pairwise_not R [].
Proof. intros A R [|i] j a b _ H; discriminate H. Qed.
Lemma pairwise_snoc : forall A (R : A -> A -> Prop) l x, pairwise_not R l -> (forall y, In y l -> ~ R y x) -> pairwise_not R (l ++ [x]).
Proof.
  intros A R l x H Hx i j a b Hij Ha Hb. destruct (Nat.lt_ge_cases j (List.length l)) as [L|L].
  - rewrite nth_error_app1 in Ha, Hb by lia. exact (H i j a b Hij Ha Hb).
  - rewrite nth_error_app2 in Hb by lia. destruct (j - List.length l) as [|k] eqn:Ek; [|destruct k; discriminate Hb].
    injection Hb as <-. rewrite nth_error_app1 in Ha by lia. apply Hx. eapply nth_error_In. exact Ha.
Qed.
Lemma pairwise_weaken : forall A (R S : A -> A -> Prop) l, (forall a b, S a b -> R a b) -> pairwise_not R l -> pairwise_not S l.
Proof. intros A R S l W H i j a b Hij Ha Hb F. exact (H i j a b Hij Ha Hb (W _ _ F)). Qed.

Lemma has_alias_ok : forall d n, design_has_alias d n = true <-> exists a, In a (c_aliases d) /\ nocase a n.
Proof.
  intros d n. unfold design_has_alias. rewrite existsb_exists. split; intros (a & H1 & H2); exists a; (split; [exact H1|]).
  - apply nocase_sym. apply same_ok. exact H2.
  - apply same_ok. apply nocase_sym. exact H2.
Qed.
Lemma has_name_ok : forall d n, design_has_name d n = true <-> called d n.
Proof.
  intros d n. unfold design_has_name, called, named. rewrite orb_true_iff, has_alias_ok. apply or_iff_compat_r. destruct (c_name d) as [m|].
  - rewrite same_ok. split; [intros H; exists m; split; [reflexivity|apply nocase_sym; exact H]|intros (x & E & H); injection E as <-; apply nocase_sym; exact H].
  - split; [discriminate|intros (x & E & _); discriminate E].
Qed.
Lemma name_exists_ok : forall st n, design_name_exists st n = false <-> forall d, In d (b_designs st) -> ~ called d n.
Proof.
  intros st n. unfold design_name_exists. split.
  - intros H d Hd C. apply has_name_ok in C. assert (X : existsb (fun d => design_has_name d n) (b_designs st) = true) by (apply existsb_exists; eauto). congruence.
  - intros H. destruct (existsb _ _) eqn:E; [|reflexivity]. apply existsb_exists in E as (d & Hd & C). apply has_name_ok in C. elim (H d Hd C).
Qed.
Lemma called_nocase : forall d m n, called d m -> nocase m n -> called d n.
Proof.
  intros d m n [(x & E & H)|(a & Ha & H)] N.
  - left. exists x. split; [exact E|]. eapply nocase_trans; eassumption.
  - right. exists a. split; [exact Ha|]. eapply nocase_trans; eassumption.
Qed.

Section Stmts.
Variable U : uctab.
Variable beyond : res sentry.
Variable po : popts.
Variable eol : list N.
Variable children : list cdesign.
Variable fopen_ok : list N -> bool.
Variable sur : surroundings.

(** no finished design uses an alias of the current one *)
Definition aliases_free (st : pstate) : Prop := forall a d, In a (c_aliases (curdes st)) -> In d (b_designs st) -> ~ called d a.

(** *** aliases and names *)
Lemma add_aliases_ok : forall l st, aliases_free st -> let '(st', ok) := add_aliases children st l in
  exists al, st' = with_cur (set_aliases al (curdes st)) st /\ aliases_free st'.
Proof.
  induction l as [|a l IH]; intros st H; cbn [add_aliases].
  - exists (c_aliases (curdes st)). split; [|exact H]. destruct st as [? c ? ? ? ? ? ?]. destruct c. reflexivity.
  - unfold action_add_alias. destruct (design_name_exists st a) eqn:E.
    + exists (c_aliases (curdes st)). split; [|exact H]. destruct st as [? c ? ? ? ? ? ?]. destruct c. reflexivity.
    + destruct (alias_exists_in_child_configs children a).
      * exact (IH st H).
      * match goal with |- context [add_aliases children ?x l] => set (st1 := x) end.
        assert (H1 : aliases_free st1).
        { intros x d Hx Hd. cbn in Hx, Hd. apply in_app_iff in Hx as [Hx|[<-|[]]]; [exact (H x d Hx Hd)|]. rewrite name_exists_ok in E. exact (E d Hd). }
        specialize (IH st1 H1). destruct (add_aliases children st1 l) as [st' ok]. destruct IH as (al & E1 & F). exists al. split; [|exact F].
        rewrite E1. subst st1. destruct st as [? c ? ? ? ? ? ?]. destruct c. reflexivity.
Qed.

(** a property of designs that holds of whatever the entries of a design make *)
Section Generic.
Variable Q : pstate -> Prop.        (* while a design is read *)
Variable P : cdesign -> Prop.       (* of a finished design *)
Variable good : item -> Prop.
Hypothesis Qinit : forall st, curdes st = init_design -> num_mandatory st = 0 -> time_for_se_check st = 0 -> Q st.
Hypothesis Qname : forall st n, Q st -> Q (with_cur (set_name n (curdes st)) st).
Hypothesis Qalias : forall st l, Q st -> Q (with_cur (set_aliases l (curdes st)) st).
Hypothesis Qflags : forall st a b, Q st -> Q (with_flags a b st).
Hypothesis Qparent : forall st p, Q st -> Q (add_parent st p).
Hypothesis Qitem : forall st i st', good i -> Q st -> do_item U beyond eol st i = Ok (RC_SUCCESS st') -> Q st'.
Hypothesis QP : forall st, Q st -> 3 <= num_mandatory st -> P (curdes st).

Definition good_stmt (s : stmt) : Prop := match s with s_box _ _ layout _ => Forall good layout | _ => True end.

(** whether the design is one that was asked for *)
Definition wanted (d : cdesign) : Prop := match choice po with Some n => called d n | None => True end.

Record stmts_inv (st : pstate) : Prop := {
  sv_Q : Q st;
  sv_P : Forall P (b_designs st);
  sv_wanted : Forall wanted (b_designs st);
  sv_named : Forall (fun d => exists n, c_name d = Some n) (b_designs st);
  sv_apart : pairwise_not share_any_name (b_designs st);
  sv_alias : c_aliases (curdes st) = []
}.
Lemma inv0 : stmts_inv pstate0.
Proof.
  constructor; cbn; try constructor; try reflexivity.
  - apply Qinit; reflexivity.
  - apply pairwise_nil.
Qed.
Lemma after_error_ok : forall st, Q st -> Forall P (b_designs st) -> Forall wanted (b_designs st) -> Forall (fun d => exists n, c_name d = Some n) (b_designs st) ->
  pairwise_not share_any_name (b_designs st) -> stmts_inv (after_error st).
Proof.
  intros st HQ H1 H2 H3 H4. unfold after_error. destruct (negb _ && negb _); constructor; cbn [with_cur b_designs curdes c_aliases set_aliases]; try assumption; try reflexivity.
  - apply Qinit; reflexivity.
  - apply Qalias. exact HQ.
Qed.
Lemma generic_items : forall l st st', Forall good l -> Q st -> do_items U beyond eol st l = Ok (RC_SUCCESS st') -> Q st'.
Proof.
  induction l as [|i l IH]; intros st st' Hg HQ H; cbn [do_items] in H; [injection H as <-; exact HQ|].
  inversion Hg as [|? ? G1 G2]; subst. apply then_ok in H as (s & [H1|H1] & H2); [|elim (do_item_accept _ _ _ _ _ _ H1)].
  eapply IH; [exact G2| |exact H2]. eapply Qitem; eassumption.
Qed.
Lemma item_kept : forall st i st', do_item U beyond eol st i = Ok (RC_SUCCESS st') -> kept st st'.
Proof.
  intros st i st' H. destruct i as [k v|l|s|l|l|s r m|s r m|l| |]; cbn [do_item] in H.
  - destruct (string_tok U v) as [b| | | |]; cbn [bind] in H; try discriminate H. apply then_ok in H as (c & [H1|H1] & H2); [|elim (record_keyword_accept _ _ _ _ _ H1)].
    injection H2 as <-. destruct (record_keyword_core _ _ _ _ _ H1) as (K & K1 & K2). repeat split; assumption.
  - destruct (tag_list U _ l) as [t| | | |]; cbn [bind] in H; try discriminate H. injection H as <-. repeat split.
  - destruct (sample_tok U s) as [b| | | |]; cbn [bind] in H; try discriminate H. apply sample_ok in H as [K1 K2]. exact K1.
  - apply then_ok in H as (st1 & H1 & H2).
    assert (K : kept st1 st').
    { unfold action_finalize_shapes in H2. destruct (_ <? 1); [discriminate H2|]. apply then_ok in H2 as (sh' & _ & H2). destruct (negb _); [discriminate H2|].
      destruct (_ && _); [discriminate H2|]. injection H2 as <-. repeat split. }
    eapply kept_trans; [|exact K]. destruct H1 as [H1|H1]; [eapply shapes_list_kept; exact H1|].
    exfalso. clear -H1. revert st H1. induction l as [|[i d] l IH]; intros st H; cbn [shapes_list] in H; [discriminate H|].
    apply then_no_accept in H as (s & _ & H). destruct (isempty _); [exact (IH _ H)|discriminate H].
  - unfold action_elastic in H. destruct (_ && _); [discriminate H|]. injection H as <-. repeat split.
  - destruct (string_tok U s) as [b| | | |]; cbn [bind] in H; try discriminate H. destruct (string_tok U r) as [b'| | | |]; cbn [bind] in H; try discriminate H.
    apply then_ok in H as (x & _ & H). injection H as <-. repeat split.
  - destruct (string_tok U s) as [b| | | |]; cbn [bind] in H; try discriminate H. destruct (string_tok U r) as [b'| | | |]; cbn [bind] in H; try discriminate H.
    apply then_ok in H as (x & _ & H). injection H as <-. repeat split.
  - injection H as <-. repeat split.
  - injection H as <-. apply kept_refl.
  - discriminate H.
Qed.
Lemma items_kept : forall l st st', do_items U beyond eol st l = Ok (RC_SUCCESS st') -> kept st st'.
Proof.
  induction l as [|i l IH]; intros st st' H; cbn [do_items] in H; [injection H as <-; apply kept_refl|].
  apply then_ok in H as (s & [H1|H1] & H2); [|elim (do_item_accept _ _ _ _ _ _ H1)]. eapply kept_trans; [eapply item_kept; exact H1|exact (IH _ _ H2)].
Qed.

Lemma do_stmt_ok : forall st s r, good_stmt s -> stmts_inv st -> do_stmt U beyond po eol children fopen_ok sur st s = Ok r ->
  match r with RC_SUCCESS st' | RC_ACCEPT st' => stmts_inv st' | _ => True end.
Proof.
  intros st s r Hg I H. destruct I as [HQ HP HW HN HA HL].
  assert (AF : aliases_free st) by (intros a d Ha; rewrite HL in Ha; destruct Ha).
  destruct s as [f|name al layout fin|al|]; cbn [do_stmt] in H.
  - destruct (filename_tok U f) as [b| | | |]; cbn [bind] in H; try discriminate H.
    destruct (action_parent_config U fopen_ok sur st b) as [st'| | | |] eqn:E; cbn [bind] in H; try discriminate H. injection H as <-.
    unfold action_parent_config in E. assert (S1 : forall x, stmts_inv (after_error (with_flags x (speeding st) st))) by (intros x; apply after_error_ok; auto).
    assert (S2 : stmts_inv (after_error st)) by (apply after_error_ok; auto).
    assert (S3 : forall p, stmts_inv (add_parent st p)).
    { intros p. pose proof (Qparent st p HQ) as HQ'. unfold add_parent in *. destruct (existsb _ _); constructor; cbn; assumption. }
    destruct b as [b|]; [|injection E as <-; apply S1]. destruct (num_chars b =? 0); [injection E as <-; apply S1|].
    destruct (same_nocase _ _).
    + destruct (discover_config_file U sur true) as [[p|]| | | |]; cbn [bind] in E; try discriminate E; injection E as <-; [apply S3|apply S1].
    + destruct (negb _); [injection E as <-; apply S2|]. destruct (fopen_ok _); injection E as <-; [apply S3|apply S1].
  - pose proof (add_aliases_ok al st AF) as A. destruct (add_aliases children st al) as [st1 ok1]. destruct A as (l1 & E1 & AF1).
    assert (Q1 : Q st1) by (rewrite E1; apply Qalias; exact HQ).
    assert (D1 : b_designs st1 = b_designs st) by (rewrite E1; reflexivity).
    destruct ok1; cbn [negb] in H; [|injection H as <-; apply after_error_ok; rewrite ?D1; assumption].
    unfold action_start_parsing_design in H. set (st2 := with_cur (set_name (Some name) (curdes st1)) (with_flags false false st1)) in *.
    assert (Q2 : Q st2) by (apply (Qname (with_flags false false st1)); apply Qflags; exact Q1).
    assert (D2 : b_designs st2 = b_designs st) by exact D1.
    assert (AF2 : aliases_free st2) by exact AF1.
    destruct (design_needed po st2) eqn:En; cbn [negb] in H.
    2:{ injection H as <-. apply after_error_ok; [apply Qflags; exact Q2|cbn [with_flags b_designs]; rewrite D2; assumption..]. }
    destruct (is_nil layout); [injection H as <-; apply after_error_ok; rewrite ?D2; assumption|].
    destruct (do_items U beyond eol st2 layout) as [r1| | | |] eqn:Ei; cbn [bind] in H; try discriminate H.
    destruct r1 as [st3| | |st3]; [|injection H as <-; apply after_error_ok; rewrite ?D2; assumption|injection H as <-; exact Logic.I|elim (do_items_accept _ _ _ _ _ _ Ei)].
    pose proof (items_kept _ _ _ Ei) as (K1 & K2 & K3 & K4 & K5 & K6).
    assert (Q3 : Q st3) by (eapply generic_items; eassumption).
    unfold action_add_design in H. destruct (negb _); [injection H as <-; apply after_error_ok; rewrite ?K1, ?D2; assumption|].
    destruct (Nat.ltb_spec (num_mandatory st3) 3) as [|Hm]; [injection H as <-; apply after_error_ok; rewrite ?K1, ?D2; assumption|].
    destruct (design_name_exists st3 name) eqn:Ex; [injection H as <-; apply after_error_ok; rewrite ?K1, ?D2; assumption|].
    rewrite name_exists_ok in Ex.
    assert (Nm : c_name (curdes st3) = Some name) by (rewrite K2; reflexivity).
    match type of H with context [RC_SUCCESS ?x] => set (st4 := x) in * end.
    assert (I4 : stmts_inv st4).
    { constructor; cbn [st4 b_designs curdes c_aliases init_design]; try reflexivity.
      - apply Qinit; reflexivity.
      - rewrite K1, D2. apply Forall_app. split; [exact HP|]. constructor; [exact (QP _ Q3 Hm)|constructor].
      - rewrite K1, D2. apply Forall_app. split; [exact HW|]. constructor; [|constructor]. unfold wanted. unfold design_needed in En.
        destruct (choice po) as [n|]; [|exact Logic.I]. apply has_name_ok in En. unfold called, named in *. rewrite K2, K3. exact En.
      - rewrite K1, D2. apply Forall_app. split; [exact HN|]. constructor; [|constructor]. eauto.
      - rewrite K1, D2. apply pairwise_snoc; [exact HA|]. intros d Hd (n & C1 & C2). destruct C2 as [(m & Em & C2)|(a & Ha & C2)].
        + rewrite Nm in Em. injection Em as <-. rewrite K1, D2 in Ex. apply (Ex d Hd). eapply called_nocase; [exact C1|]. apply nocase_sym. exact C2.
        + rewrite K3 in Ha. rewrite <- D2 in Hd. apply (AF2 a d Ha Hd). eapply called_nocase; [exact C1|]. apply nocase_sym. exact C2. }
    destruct (full_parse_required po); injection H as <-; exact I4.
  - injection H as <-. pose proof (add_aliases_ok al st AF) as A. destruct (add_aliases children st al) as [st1 ok1]. destruct A as (l1 & E1 & AF1).
    cbn [fst]. assert (D1 : b_designs st1 = b_designs st) by (rewrite E1; reflexivity). apply after_error_ok; rewrite ?D1; try assumption. rewrite E1. apply Qalias. exact HQ.
  - injection H as <-. apply after_error_ok; assumption.
Qed.
Lemma do_stmts_ok : forall l st r, Forall good_stmt l -> stmts_inv st -> do_stmts U beyond po eol children fopen_ok sur st l = Ok r ->
  match r with RC_SUCCESS st' | RC_ACCEPT st' => stmts_inv st' | _ => True end.
Proof.
  induction l as [|s l IH]; intros st r Hg I H; cbn [do_stmts] in H; [injection H as <-; exact I|].
  inversion Hg as [|? ? G1 G2]; subst.
  destruct (do_stmt U beyond po eol children fopen_ok sur st s) as [x| | | |] eqn:E; cbn [bind] in H; try discriminate H.
  pose proof (do_stmt_ok st s x G1 I E) as J. destruct x as [st'| | |st']; try (injection H as <-; exact J). exact (IH _ _ G2 J H).
Qed.
Lemma parse_config_ok : forall contents ds ps, match contents with Some l => Forall good_stmt l | None => True end ->
  parse_config_file U beyond po eol children fopen_ok sur contents = Ok (ds, ps) ->
  Forall P ds /\ Forall wanted ds /\ Forall (fun d => exists n, c_name d = Some n) ds /\ pairwise_not share_any_name ds.
Proof.
  intros contents ds ps Hg H.
  assert (Z : Forall P [] /\ Forall wanted [] /\ Forall (fun d => exists n, c_name d = Some n) [] /\ pairwise_not share_any_name []).
  { repeat split; try constructor. apply pairwise_nil. }
  destruct contents as [l|]; cbn [parse_config_file] in H; [|injection H as <- <-; exact Z].
  destruct (do_stmts _ _ _ _ _ _ _ _ l) as [x| | | |] eqn:E; cbn [bind] in H; try discriminate H.
  pose proof (do_stmts_ok _ _ _ Hg inv0 E) as J. destruct x as [st| | |st]; try (injection H as <- <-; exact Z).
  - destruct (is_nil _ && _); injection H as <- <-; [exact Z|]. destruct J; auto.
  - injection H as <- <-. destruct J; auto.
Qed.
End Generic.
End Stmts.

(** *** several files *)
Lemma subseq_refl : forall A (l : list A), subseq l l.
Proof. intros A. induction l; constructor; assumption. Qed.
Lemma subseq_nil_l : forall A (l : list A), subseq [] l.
Proof. intros A. induction l; constructor; assumption. Qed.
Lemma subseq_app : forall A (a b c d : list A), subseq a b -> subseq c d -> subseq (a ++ c) (b ++ d).
Proof. intros A a b c d H K. induction H; cbn; [exact K|constructor; assumption..]. Qed.
Lemma subseq_trans : forall A (a b c : list A), subseq a b -> subseq b c -> subseq a c.
Proof.
  intros A a b c H K. revert a H. induction K as [|x b c K IH|x b c K IH]; intros a H.
  - exact H.
  - inversion H; subst; constructor; apply IH; assumption.
  - constructor. apply IH. exact H.
Qed.

Lemma named_dec : forall d n, {named d n} + {~ named d n}.
Proof.
  intros d n. unfold named. destruct (c_name d) as [m|].
  - destruct (same_nocase m n) eqn:E.
    + left. exists m. split; [reflexivity|]. apply same_ok. exact E.
    + right. intros (x & F & H). injection F as <-. apply same_ok in H. congruence.
  - right. intros (x & F & _). discriminate F.
Qed.
Lemma first_named_app : forall n a b d, first_named n (a ++ b) d <-> first_named n a d \/ ((forall x, In x a -> ~ named x n) /\ first_named n b d).
Proof.
  intros n a b d. split.
  - intros (p & q & E & Hd & Hp). revert p E Hp. induction a as [|x a IH]; intros p E Hp; cbn [app] in E.
    + right. split; [intros y []|]. exists p, q. auto.
    + destruct p as [|y p]; injection E as E1 E2.
      * subst x. left. exists [], a. split; [reflexivity|]. split; [exact Hd|intros y []].
      * subst y. destruct (IH p E2) as [(p' & q' & F1 & F2 & F3)|[F1 F2]]; [intros y Hy; apply Hp; right; exact Hy| |].
        -- left. exists (x :: p'), q'. split; [rewrite F1; reflexivity|]. split; [exact F2|]. intros y [<-|Hy]; [apply Hp; left; reflexivity|auto].
        -- right. split; [|exact F2]. intros y [<-|Hy]; [apply Hp; left; reflexivity|auto].
  - intros [(p & q & E & Hd & Hp)|[Ha (p & q & E & Hd & Hp)]].
    + exists p, (q ++ b). split; [rewrite E, <- app_assoc; reflexivity|]. auto.
    + exists (a ++ p), q. split; [rewrite E, app_assoc; reflexivity|]. split; [exact Hd|]. intros x Hx. apply in_app_iff in Hx as [Hx|Hx]; auto.
Qed.
Lemma first_named_nil : forall n d, ~ first_named n [] d.
Proof. intros n d (a & b & E & _). destruct a; discriminate E. Qed.

Definition add_new (r : list cdesign) (d : cdesign) : list cdesign := if designs_contain r d then r else r ++ [d].
Lemma contain_ok : forall r d, (exists n, c_name d = Some n) -> (designs_contain r d = true <-> exists x, In x r /\ share_name x d).
Proof.
  intros r d [n En]. unfold designs_contain. rewrite En, existsb_exists. split.
  - intros (x & Hx & H). exists x. split; [exact Hx|]. destruct (c_name x) as [m|] eqn:Em; [|discriminate H]. apply same_ok in H.
    exists n. split; [exists m; auto|exists n; split; [exact En|apply nocase_refl]].
  - intros (x & Hx & k & (m & Em & H1) & (n' & En' & H2)). exists x. split; [exact Hx|]. rewrite Em. apply same_ok. rewrite En in En'. injection En' as <-.
    eapply nocase_trans; [exact H1|]. apply nocase_sym. exact H2.
Qed.
Lemma share_named : forall x d n, share_name x d -> named d n -> named x n.
Proof.
  intros x d n (k & (m & Em & H1) & (m2 & E2 & H2)) (m3 & E3 & H3). exists m. split; [exact Em|]. rewrite E2 in E3. injection E3 as <-.
  eapply nocase_trans; [exact H1|]. eapply nocase_trans; [apply nocase_sym; exact H2|exact H3].
Qed.
Lemma add_new_ok : forall r d, (exists n, c_name d = Some n) -> (forall n x, first_named n (add_new r d) x <-> first_named n (r ++ [d]) x) /\
  (exists added, add_new r d = r ++ added /\ subseq added [d]) /\ (pairwise_not share_name r -> pairwise_not share_name (add_new r d)).
Proof.
  intros r d Hn. unfold add_new. destruct (designs_contain r d) eqn:E.
  - apply contain_ok in E as (x & Hx & S); [|exact Hn]. split; [|split].
    + intros n y. rewrite first_named_app. split; [auto|]. intros [H|[H1 H2]]; [exact H|]. exfalso. destruct H2 as (a & b & E2 & Hd & _).
      destruct a as [|? a]; [|destruct a; discriminate E2]. injection E2 as <- <-. apply (H1 x Hx). eapply share_named; eassumption.
    + exists []. split; [rewrite app_nil_r; reflexivity|apply subseq_nil_l].
    + auto.
  - split; [|split].
    + intros n y. reflexivity.
    + exists [d]. split; [reflexivity|apply subseq_refl].
    + intros H. apply pairwise_snoc; [exact H|]. intros y Hy S. assert (F : designs_contain r d = true) by (apply contain_ok; [exact Hn|eauto]). congruence.
Qed.
Lemma fold_new_ok : forall new r, Forall (fun d => exists n, c_name d = Some n) new -> let out := fold_left add_new new r in
  (forall n x, first_named n out x <-> first_named n (r ++ new) x) /\ (exists added, out = r ++ added /\ subseq added new) /\
  (pairwise_not share_name r -> pairwise_not share_name out).
Proof.
  induction new as [|d new IH]; intros r Hn; cbn [fold_left].
  - cbv zeta. rewrite app_nil_r. split; [reflexivity|]. split; [exists []; split; [rewrite app_nil_r; reflexivity|constructor]|auto].
  - inversion Hn as [|? ? N1 N2]; subst. destruct (IH (add_new r d) N2) as (A & (added & B & B') & C). destruct (add_new_ok r d N1) as (A1 & (ad1 & B1 & B1') & C1).
    split; [|split].
    + intros n x. rewrite A, first_named_app. rewrite A1, !first_named_app.
      assert (X : (forall y, In y (add_new r d) -> ~ named y n) <-> (forall y, In y (r ++ [d]) -> ~ named y n)).
      { rewrite B1. split; intros H y Hy.
        - apply in_app_iff in Hy as [Hy|[<-|[]]]; [apply H; apply in_app_iff; auto|].
          unfold add_new in B1. destruct (designs_contain r d) eqn:E.
          + apply contain_ok in E as (z & Hz & S); [|exact N1]. intros F. apply (H z); [apply in_app_iff; auto|]. eapply share_named; eassumption.
          + apply app_inv_head in B1. subst ad1. apply H. apply in_app_iff. right. left. reflexivity.
        - apply in_app_iff in Hy as [Hy|Hy]; [apply H; apply in_app_iff; auto|]. inversion B1' as [|? ? ? S|? ? ? S]; subst; [inversion S; subst; destruct Hy as [<-|[]]; apply H; apply in_app_iff; right; left; reflexivity|inversion S; subst; destruct Hy]. }
      rewrite X. change (d :: new) with ([d] ++ new). rewrite first_named_app.
      split.
      * intros [[H|H]|[H1 H2]]; [left; exact H|right; tauto|right]. split; [intros y Hy; apply H1; apply in_app_iff; auto|]. right. split; [|exact H2].
        intros y Hy. apply H1. apply in_app_iff. auto.
      * intros [H|[H1 [H2|[H2 H3]]]]; [auto|auto|]. right. split; [|exact H3]. intros y Hy. apply in_app_iff in Hy as [Hy|Hy]; auto.
    + exists (ad1 ++ added). split; [rewrite B, B1, app_assoc; reflexivity|]. change (d :: new) with ([d] ++ new). apply subseq_app; assumption.
    + intros H. apply C. apply C1. exact H.
Qed.
Lemma copy_designs_ok : forall r new, Forall (fun d => exists n, c_name d = Some n) new -> pairwise_not share_name new -> let out := copy_designs r new in
  (forall n x, first_named n out x <-> first_named n (r ++ new) x) /\ (exists added, out = r ++ added /\ subseq added new) /\
  (pairwise_not share_name r -> pairwise_not share_name out).
Proof.
  intros r new Hn Hp. destruct r as [|d r]; [|exact (fold_new_ok new (d :: r) Hn)]. cbn [copy_designs app].
  split; [reflexivity|]. split; [exists new; split; [reflexivity|apply subseq_refl]|auto].
Qed.

Lemma NoDup_snoc : forall A (l : list A) x, NoDup l -> ~ In x l -> NoDup (l ++ [x]).
Proof.
  intros A l x H Hx. apply (Permutation.Permutation_NoDup (Permutation.Permutation_cons_append l x)). constructor; assumption.
Qed.
Lemma record_ok : forall ps known, let out := fold_left (fun k p => if existsb (Neq_list p) k then k else k ++ [p]) ps known in
  (NoDup known -> NoDup out) /\ (exists more, out = known ++ more /\ forall p, In p more -> In p ps) /\ (forall p, In p ps -> In p out).
Proof.
  induction ps as [|p ps IH]; intros known; cbn [fold_left].
  - split; [auto|]. split; [exists []; split; [rewrite app_nil_r; reflexivity|intros p []]|intros p []].
  - set (k1 := if existsb (Neq_list p) known then known else known ++ [p]). destruct (IH k1) as (A & (more & B & B') & C).
    assert (K : exists x, k1 = known ++ x /\ (forall q, In q x -> q = p) /\ In p k1 /\ (NoDup known -> NoDup k1)).
    { unfold k1. destruct (existsb (Neq_list p) known) eqn:E.
      - apply existsb_exists in E as (q & Hq & E). apply neq_list_ok in E. subst q. exists []. rewrite app_nil_r. split; [reflexivity|]. split; [intros q []|auto].
      - exists [p]. split; [reflexivity|]. split; [intros q [<-|[]]; reflexivity|]. split; [apply in_app_iff; right; left; reflexivity|].
        intros H. apply NoDup_snoc; [exact H|]. intros Hq.
        assert (F : existsb (Neq_list p) known = true) by (apply existsb_exists; exists p; split; [exact Hq|apply neq_list_ok; reflexivity]). congruence. }
    destruct K as (x & Ex & Hx & Hp & Hd). split; [auto|]. split.
    + exists (x ++ more). split; [rewrite B, Ex, app_assoc; reflexivity|]. intros q Hq. apply in_app_iff in Hq as [Hq|Hq]; [left; symmetry; auto|right; auto].
    + intros q [<-|Hq]; [rewrite B; apply in_app_iff; auto|auto].
Qed.

Section Loop.
Variable parse : list N -> list cdesign -> res (list cdesign * list (list N)).
(** as for [parse_config_file]: designs with different names *)
Hypothesis parse_named : forall f before ds ps, parse f before = Ok (ds, ps) -> Forall (fun d => exists n, c_name d = Some n) ds /\ pairwise_not share_name ds.

Lemma loop_ok : forall fuel file k known result r known', NoDup known -> pairwise_not share_name result -> k <= List.length known ->
  parse_loop parse fuel file k known result = Ok (r, known') ->
  exists more seen, NoDup known' /\ known' = known ++ more /\ read_in_order parse result (file :: skipn k known') seen r /\ pairwise_not share_name r /\
    (* whose parents *)
    (forall i f, List.length known <= i -> nth_error known' i = Some f -> exists j ds ps, j <= i - k /\ nth_error seen j = Some (ds, ps) /\ In f ps) /\
    (forall ds ps f, In (ds, ps) seen -> In f ps -> In f known').
Proof.
  induction fuel as [|fuel IH]; intros file k known result r known' Hd Hp Hk H; cbn [parse_loop] in H; [discriminate H|].
  destruct (parse file result) as [[ds ps]| | | |] eqn:E; cbn [bind] in H; try discriminate H.
  destruct (parse_named _ _ _ _ E) as [Nm Pw]. destruct (copy_designs_ok result ds Nm Pw) as (A1 & A2 & A3).
  unfold record_parent_config_files in H. destruct (record_ok (rev ps) known) as (B1 & (mo & B2 & B2') & B3). cbv zeta in *.
  set (known1 := fold_left _ (rev ps) known) in *.
  destruct (nth_error known1 k) as [next|] eqn:En.
  - assert (L : S k <= List.length known1) by (apply nth_error_Some; congruence).
    apply IH in H as (more & seen & C1 & C2 & C3 & C4 & C5 & C6); [|auto|auto|exact L].
    exists (mo ++ more), ((ds, ps) :: seen). split; [exact C1|]. split; [rewrite C2, B2, app_assoc; reflexivity|].
    assert (Sk : skipn k known' = next :: skipn (S k) known').
    { assert (X : nth_error known' k = Some next) by (rewrite C2, nth_error_app1 by lia; exact En).
      clear -X. revert k X. induction known' as [|y l IHl]; intros [|k] X; try discriminate X; [injection X as ->; reflexivity|]. cbn [skipn]. apply IHl. exact X. }
    split; [|split; [exact C4|split]].
    + rewrite Sk. econstructor; [exact E|exact A2|exact A1|exact C3].
    + intros i f Hi Hf. destruct (Nat.lt_ge_cases i (List.length known1)) as [Li|Li].
      * exists 0, ds, ps. split; [lia|]. split; [reflexivity|]. rewrite C2, nth_error_app1 in Hf by exact Li. rewrite B2, nth_error_app2 in Hf by exact Hi.
        apply in_rev. apply B2'. eapply nth_error_In. exact Hf.
      * destruct (C5 i f Li Hf) as (j & ds' & ps' & Hj & Hs & Hin). exists (S j), ds', ps'. split; [lia|auto].
    + intros ds' ps' f [F|Hs] Hf; [|eapply C6; eassumption]. injection F as <- <-. rewrite C2. apply in_app_iff. left. apply B3. apply in_rev. rewrite rev_involutive. exact Hf.
  - injection H as <- <-. assert (Lk : List.length known1 <= k) by (apply nth_error_None; exact En).
    assert (Em : mo = []). { destruct mo as [|y mo]; [reflexivity|]. rewrite B2, app_length in Lk. cbn in Lk. lia. }
    exists mo, [(ds, ps)]. split; [auto|]. split; [exact B2|]. split; [|split; [auto|split]].
    + rewrite skipn_all2 by exact Lk. econstructor; [exact E|exact A2|exact A1|constructor].
    + intros i f Hi Hf. assert (i < List.length known1) by (apply nth_error_Some; congruence). rewrite B2, Em, app_nil_r in H. lia.
    + intros ds' ps' f [F|[]] Hf. injection F as <- <-. apply B3. apply in_rev. rewrite rev_involutive. exact Hf.
Qed.
(** termination: with parents from a finite set *)
Variable files : list (list N).
Hypothesis parse_ok : forall f before, exists ds ps, parse f before = Ok (ds, ps) /\ forall p, In p ps -> In p files.
Lemma loop_ends : forall fuel file k known result, NoDup known -> (forall p, In p known -> In p files) -> k <= List.length known ->
  List.length files + 1 <= fuel + k -> exists r known', parse_loop parse fuel file k known result = Ok (r, known').
Proof.
  induction fuel as [|fuel IH]; intros file k known result Hd Hin Hk Hf.
  - assert (L := NoDup_incl_length Hd Hin). lia.
  - cbn [parse_loop]. destruct (parse_ok file result) as (ds & ps & E & Hps). rewrite E. cbn [bind].
    unfold record_parent_config_files. destruct (record_ok (rev ps) known) as (B1 & (mo & B2 & B2') & B3). cbv zeta in *. set (known1 := fold_left _ (rev ps) known) in *.
    destruct (nth_error known1 k) as [next|] eqn:En; [|eauto].
    assert (L : S k <= List.length known1) by (apply nth_error_Some; congruence). apply IH; [auto| |exact L|lia].
    intros p Hp. rewrite B2 in Hp. apply in_app_iff in Hp as [Hp|Hp]; [auto|]. apply Hps. apply in_rev. apply B2'. exact Hp.
Qed.
End Loop.
Lemma read_Forall : forall parse (P : cdesign -> Prop), (forall f before ds ps, parse f before = Ok (ds, ps) -> Forall P ds) ->
  forall before files seen after, read_in_order parse before files seen after -> Forall P before -> Forall P after.
Proof.
  intros parse P HP before files seen after H. induction H as [before|before file files ds ps more between after E (added & -> & S) _ _ IH]; intros Hb; [exact Hb|].
  apply IH. apply Forall_app. split; [exact Hb|]. specialize (HP _ _ _ _ E). clear -S HP. induction S; [constructor|inversion HP; subst; constructor; auto|inversion HP; subst; auto].
Qed.
Lemma read_first : forall parse before files seen after, read_in_order parse before files seen after ->
  (forall n d, first_named n after d <-> first_named n (before ++ concat (map fst seen)) d) /\ subseq after (before ++ concat (map fst seen)).
Proof.
  intros parse before files seen after H. induction H as [before|before file files ds ps more between after E (added & Eb & S) F _ [IH1 IH2]].
  - cbn. rewrite app_nil_r. split; [reflexivity|apply subseq_refl].
  - cbn [map fst concat]. rewrite app_assoc. split.
    + intros n d. rewrite IH1. rewrite (first_named_app n between), (first_named_app n (before ++ ds)). rewrite F.
      assert (X : (forall x, In x between -> ~ named x n) <-> (forall x, In x (before ++ ds) -> ~ named x n)).
      { assert (Y : forall l, (forall x, In x l -> ~ named x n) <-> ~ exists d, first_named n l d).
        { intros l. split.
          - intros Hl (d0 & a & b & -> & Hd & _). apply (Hl d0); [apply in_app_iff; right; left; reflexivity|exact Hd].
          - induction l as [|y l IHl]; intros Hl x; [intros []|]. intros [<-|Hx] Hn.
            + apply Hl. exists y, [], l. split; [reflexivity|]. split; [exact Hn|intros z []].
            + destruct (named_dec y n) as [Hy|Hy].
              * apply Hl. exists y, [], l. split; [reflexivity|]. split; [exact Hy|intros z []].
              * revert Hn. apply IHl; [|exact Hx]. intros (d0 & a & b & -> & Hd & Ha). apply Hl. exists d0, (y :: a), b. split; [reflexivity|]. split; [exact Hd|].
                intros z [<-|Hz]; [exact Hy|auto]. }
        rewrite !Y. split; intros Hx (d0 & Hd0); apply Hx; exists d0; apply F; exact Hd0. }
      rewrite X. reflexivity.
    + eapply subseq_trans; [exact IH2|]. apply subseq_app; [|apply subseq_refl]. rewrite Eb. apply subseq_app; [apply subseq_refl|exact S].
Qed.
