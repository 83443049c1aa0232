(** * Lemmas: the shapes of accepted designs are built from their texts *)
From Coq Require Import Ascii String List Arith NArith ZArith Bool Lia.
From Verif Require Import Base BaseFacts Model_Unicode Model_Bxs Model_Shape Spec_Str Spec_Design Spec_Remove Spec_Detect Model_Query Model_Discovery Model_Parser Spec_Parser
  Proof_Term Proof_Parser Proof_Parser2.
Import ListNotations.
Local Open Scope nat_scope.
Local Open Scope list_scope.

Section Built.
Variable U : uctab.
Variable beyond : res sentry.

Definition made (s : sentry) : Prop :=
  (isempty s = true -> s_height s = 0 /\ s_mbcs s = []) /\ (forall m, In m (s_mbcs s) -> row_built U m).

Lemma made0 : made sentry0.
Proof. split; [split; reflexivity|intros m []]. Qed.
Lemma tok_built : forall s b, string_tok U s = Ok (Some b) -> row_built U b.
Proof.
  intros s b H. unfold string_tok, utf8_to_bxs in H. destruct (bxs_from_unicode U s) as [x| | | |] eqn:E; try discriminate H. injection H as <-.
  left. destruct (from_unicode_len U s x E) as [-> _]. exact E.
Qed.

Definition lines_made (s : sentry) : Prop := s_chars s <> [] /\ s_mbcs s <> [] /\ forall m, In m (s_mbcs s) -> row_built U m.
Lemma first_made : forall s b x, string_tok U s = Ok b -> action_first_shape_line U b = Ok (RC_SUCCESS x) -> lines_made x.
Proof.
  intros s [b|] x E H; cbn [action_first_shape_line] in H; [|discriminate H]. destruct (valid_in_shape U b); [|discriminate H]. injection H as <-.
  split; [discriminate|]. split; [discriminate|]. intros m [<-|[]]. eapply tok_built. exact E.
Qed.
Lemma add_made : forall x s b y, lines_made x -> string_tok U s = Ok b -> action_add_shape_line U x b = Ok (RC_SUCCESS y) -> lines_made y.
Proof.
  intros x s [b|] y (N1 & N2 & Hx) E H; cbn [action_add_shape_line] in H; [|discriminate H].
  destruct (negb (_ =? _)); [discriminate H|]. destruct (negb _); [discriminate H|]. injection H as <-. unfold lines_made. cbn [s_chars s_mbcs].
  split; [intros F; apply app_eq_nil in F as [_ F]; discriminate F|]. split; [intros F; apply app_eq_nil in F as [_ F]; discriminate F|].
  intros m Hm. apply in_app_iff in Hm as [Hm|[<-|[]]]; [auto|]. eapply tok_built. exact E.
Qed.
Lemma no_accept_first : forall b x, action_first_shape_line U b <> Ok (RC_ACCEPT x).
Proof. intros [b|] x H; cbn [action_first_shape_line] in H; [|discriminate H]. destruct (valid_in_shape U b); discriminate H. Qed.
Lemma no_accept_add : forall s b x, action_add_shape_line U s b <> Ok (RC_ACCEPT x).
Proof. intros s [b|] x H; cbn [action_add_shape_line] in H; [|discriminate H]. destruct (negb (_ =? _)); [discriminate H|]. destruct (negb _); discriminate H. Qed.
Lemma more_made : forall l x r, lines_made x -> shape_lines U x l = Ok r -> match r with RC_SUCCESS y => lines_made y | RC_ACCEPT _ => False | _ => True end.
Proof.
  induction l as [|s l IH]; intros x r Hx H; cbn [shape_lines] in H.
  - injection H as <-. exact Hx.
  - destruct (string_tok U s) as [b| | | |] eqn:E; cbn [bind] in H; try discriminate H. unfold then_ in H.
    destruct (action_add_shape_line U x b) as [y| | | |] eqn:Ea; cbn [bind] in H; try discriminate H. destruct y as [y| | |y].
    + eapply IH; [|exact H]. eapply add_made; eassumption.
    + injection H as <-. exact I.
    + injection H as <-. exact I.
    + elim (no_accept_add _ _ _ Ea).
Qed.
Lemma def_made : forall d r, parse_shape_def U d = Ok r -> match r with RC_SUCCESS s => made s | RC_ACCEPT _ => False | _ => True end.
Proof.
  intros [|f more] r H; cbn [parse_shape_def] in H.
  - injection H as <-. exact made0.
  - destruct (string_tok U f) as [b| | | |] eqn:E; cbn [bind] in H; try discriminate H. unfold then_ at 1 in H.
    destruct (action_first_shape_line U b) as [x| | | |] eqn:Ea; cbn [bind] in H; try discriminate H.
    destruct x as [x| | |x]; try (injection H as <-; exact I); [|elim (no_accept_first _ _ Ea)].
    pose proof (first_made _ _ _ E Ea) as L. unfold then_ in H. destruct (shape_lines U x more) as [y| | | |] eqn:El; cbn [bind] in H; try discriminate H.
    pose proof (more_made _ _ _ L El) as M. destruct y as [y| | |y]; try (injection H as <-; exact I); [|elim M].
    injection H as <-. destruct ((s_width y =? 0) || (s_height y =? 0)) eqn:Ez; [exact made0|]. destruct M as (N1 & N2 & M). split; [|exact M].
    unfold isempty. destruct (s_chars y); [congruence|]. destruct (s_mbcs y); [congruence|]. cbn [is_nil orb]. rewrite Ez. discriminate.
Qed.
Lemma genshape_made : forall w h cs ms e, genshape U w h = Ok (cs, ms) -> made (mkSentry cs ms h w e).
Proof.
  intros w h cs ms e H. unfold genshape in H. destruct (w =? 0) eqn:E1; [discriminate H|]. destruct (h =? 0) eqn:E2; [discriminate H|].
  destruct (_ <? _)%N; cbn [orb] in H; [discriminate H|].
  destruct (bxs_from_ascii U (repeat 32%N w)) as [m| | | |] eqn:E; cbn [must bind] in H; try discriminate H. injection H as <- <-. split.
  - unfold isempty. cbn [s_chars s_mbcs s_width s_height]. rewrite E1, E2. destruct h; [discriminate E2|]. discriminate.
  - intros x Hx. cbn [s_mbcs] in Hx. apply repeat_spec in Hx. subst x. right.
    assert (Em : memory m = repeat 32%N w). { unfold bxs_from_ascii in E. destruct (negb _); [discriminate E|]. injection E as <-. reflexivity. }
    rewrite Em. split; [exists w; reflexivity|exact E].
Qed.
Lemma upd_made : forall sh c s, (forall i, made (sh i)) -> made s -> forall i, made (upd sh c s i).
Proof. intros sh c s H K i. unfold upd. destruct (i =? c); auto. Qed.
Lemma corners_made : forall l sh f r, (forall i, made (sh i)) -> make_corners U beyond sh f l = Ok r ->
  match r with RC_SUCCESS sh' => forall i, made (sh' i) | RC_ACCEPT _ => False | _ => True end.
Proof.
  induction l as [|side l IH]; intros sh f r Hs H; cbn [make_corners] in H.
  - injection H as <-. exact Hs.
  - destruct (isempty (sh (corner_of side))).
    + destruct (findshape beyond sh (corner_of side) 0 5) as [n| | | |]; cbn [bind] in H; try discriminate H.
      destruct (if n =? 5 then Ok None else s <- shape_at beyond sh (corner_of side + n) ;; Ok (Some s)) as [next| | | |]; cbn [bind] in H; try discriminate H.
      destruct (corner_size sh side f next) as [w h]. destruct (genshape U w h) as [[cs ms]| | | |] eqn:Eg; try discriminate H; [|injection H as <-; exact I].
      eapply IH; [|exact H]. apply upd_made; [exact Hs|]. eapply genshape_made. exact Eg.
    + eapply IH; eassumption.
Qed.
Lemma middles_made : forall l sh r, (forall i, made (sh i)) -> make_middles U sh l = Ok r ->
  match r with RC_SUCCESS sh' => forall i, made (sh' i) | RC_ACCEPT _ => False | _ => True end.
Proof.
  induction l as [|side l IH]; intros sh r Hs H; cbn [make_middles] in H.
  - injection H as <-. exact Hs.
  - destruct (forallb (fun i => isempty (sh i)) (middle side)).
    + destruct (if vertical_side side then _ else _) as [w h]. destruct (genshape U w h) as [[cs ms]| | | |] eqn:Eg; try discriminate H; [|injection H as <-; exact I].
      eapply IH; [|exact H]. apply upd_made; [exact Hs|]. eapply genshape_made. exact Eg.
    + eapply IH; eassumption.
Qed.
Lemma complete_made : forall sh r, (forall i, made (sh i)) -> complete_shapes U beyond sh = Ok r ->
  match r with RC_SUCCESS sh' => forall i, made (sh' i) | RC_ACCEPT _ => False | _ => True end.
Proof.
  intros sh r Hs H. unfold complete_shapes in H. destruct (findshape beyond sh 0 0 16) as [f| | | |]; cbn [bind] in H; try discriminate H.
  destruct (f =? 16); [injection H as <-; exact I|]. destruct (on_side f) as [fs|]; [|injection H as <-; exact I].
  unfold then_ in H. destruct (make_corners U beyond sh f (sides_from fs)) as [x| | | |] eqn:Ec; cbn [bind] in H; try discriminate H.
  pose proof (corners_made _ _ _ _ Hs Ec) as C. destruct x as [x| | |x]; try (injection H as <-; exact I); [|elim C].
  eapply middles_made; [exact C|exact H].
Qed.
Lemma mark_made : forall l sh, (forall i, made (sh i)) -> forall i, made (fold_left mark_elastic l sh i).
Proof.
  intros l sh H i. destruct (mark_same l sh i) as (H1 & H2 & H3 & H4). pose proof (mark_empty l sh i) as He. destruct (H i) as [A B].
  split; [rewrite He, H2, H3; exact A|rewrite H2; exact B].
Qed.

Definition all_made (st : pstate) : Prop := forall i, made (c_shape (curdes st) i).
Lemma list_made : forall l st r, all_made st -> shapes_list U st l = Ok r -> match r with RC_SUCCESS st' => all_made st' | RC_ACCEPT _ => False | _ => True end.
Proof.
  induction l as [|[i d] l IH]; intros st r Hs H; cbn [shapes_list] in H.
  - injection H as <-. exact Hs.
  - unfold then_ in H. destruct (parse_shape_def U d) as [x| | | |] eqn:Ed; cbn [bind] in H; try discriminate H. pose proof (def_made _ _ Ed) as M.
    destruct x as [x| | |x]; try (injection H as <-; exact I); [|elim M]. destruct (isempty _); [|injection H as <-; exact I].
    eapply IH; [|exact H]. intros j. cbn [with_counts with_cur curdes set_shape c_shape]. apply upd_made; assumption.
Qed.
Lemma item_made : forall eol st i st', all_made st -> do_item U beyond eol st i = Ok (RC_SUCCESS st') -> all_made st'.
Proof.
  intros eol st i st' Hs H. destruct i as [k v|l|s|l|l|s r m|s r m|l| |]; cbn [do_item] in H.
  - destruct (string_tok U v) as [b| | | |]; cbn [bind] in H; try discriminate H. apply then_ok in H as (c & [H1|H1] & H2); [|elim (record_keyword_accept _ _ _ _ _ H1)].
    injection H2 as <-. destruct (record_keyword_core _ _ _ _ _ H1) as ((K & _) & _). unfold all_made. cbn [with_cur curdes]. rewrite K. exact Hs.
  - destruct (tag_list U _ l) as [t| | | |]; cbn [bind] in H; try discriminate H. injection H as <-. exact Hs.
  - destruct (sample_tok U s) as [b| | | |]; cbn [bind] in H; try discriminate H. unfold action_sample_block in H. destruct (c_sample (curdes st)); [discriminate H|].
    destruct b as [b|]; [|discriminate H]. destruct (utf8_to_bxs _ _) as [[line|]| | | |]; cbn [bind] in H; try discriminate H.
    destruct (num_chars line =? 0); [discriminate H|]. destruct (negb _); [discriminate H|]. injection H as <-. exact Hs.
  - unfold then_ in H. destruct (shapes_list U st l) as [x| | | |] eqn:El; cbn [bind] in H; try discriminate H. pose proof (list_made _ _ _ Hs El) as M.
    destruct x as [x| | |x]; try discriminate H; [|elim M]. unfold action_finalize_shapes in H. destruct (_ <? 1); [discriminate H|].
    unfold then_ in H. destruct (complete_shapes U beyond (c_shape (curdes x))) as [sh| | | |] eqn:Ec; cbn [bind] in H; try discriminate H.
    pose proof (complete_made _ _ M Ec) as C. destruct sh as [sh| | |sh]; try discriminate H; [|elim C]. destruct (negb _); [discriminate H|].
    destruct (_ && _); [discriminate H|]. injection H as <-. exact C.
  - unfold action_elastic in H. destruct (_ && _); [discriminate H|]. injection H as <-. intros i. cbn [with_counts with_cur curdes set_shape c_shape]. apply mark_made. exact Hs.
  - destruct (string_tok U s) as [b| | | |]; cbn [bind] in H; try discriminate H. destruct (string_tok U r) as [b'| | | |]; cbn [bind] in H; try discriminate H.
    apply then_ok in H as (x & _ & H). injection H as <-. exact Hs.
  - destruct (string_tok U s) as [b| | | |]; cbn [bind] in H; try discriminate H. destruct (string_tok U r) as [b'| | | |]; cbn [bind] in H; try discriminate H.
    apply then_ok in H as (x & _ & H). injection H as <-. exact Hs.
  - injection H as <-. exact Hs.
  - injection H as <-. exact Hs.
  - discriminate H.
Qed.

Lemma parse_built : forall po eol children fopen_ok sur contents ds ps,
  parse_config_file U beyond po eol children fopen_ok sur contents = Ok (ds, ps) ->
  Forall (fun d => built U (to_design d) /\ tidy (to_design d)) ds.
Proof.
  intros po eol children fopen_ok sur contents ds ps H.
  apply (parse_config_ok U beyond po eol children fopen_ok sur all_made (fun d => built U (to_design d) /\ tidy (to_design d)) (fun _ => True)) with (contents := contents) (ps := ps).
  - intros st E _ _ i. rewrite E. exact made0.
  - intros st n Hs. exact Hs.
  - intros st n Hs. exact Hs.
  - intros st a b Hs. exact Hs.
  - intros st p Hs. unfold add_parent. destruct (existsb _ _); exact Hs.
  - intros st i st' _ Hs E. eapply item_made; eassumption.
  - intros st Hs _. split.
    + intros i m _ Hm. exact (proj2 (Hs i) m Hm).
    + intros i _ He. exact (proj1 (Hs i) He).
  - destruct contents as [l|]; [|exact I]. apply Forall_forall. intros s _. destruct s; try exact I. apply Forall_forall. intros; exact I.
  - exact H.
Qed.
End Built.
