(** * Lemmas about the configuration parser: every file is read in finitely many steps; parents come from files that exist *)
From Coq Require Import Ascii String List Arith NArith ZArith Bool Lia.
From Verif Require Import Base BaseFacts Model_Unicode Model_Bxs Model_Shape Spec_Str Spec_Design Model_Query Spec_Query Model_Discovery Model_Parser Spec_Parser
  Proof_Term Proof_Parser Proof_Parser2.
Import ListNotations.
Local Open Scope nat_scope.
Local Open Scope list_scope.

Section Ends.
Variable U : uctab.
Variable beyond : res sentry.
Hypothesis Hbeyond : nf beyond.
Variable po : popts.
Variable eol : list N.
Variable children : list cdesign.
Variable fopen_ok : list N -> bool.
Variable sur : surroundings.

Lemma nf_then : forall A B (r : res (rc A)) (k : A -> res (rc B)), nf r -> (forall a, nf (k a)) -> nf (then_ r k).
Proof. intros A B r k Hr Hk. unfold then_. apply nf_bind; [exact Hr|]. intros [a| | |a] _; try discriminate; apply Hk. Qed.
Lemma nf_to_bxs : forall s, nf (utf8_to_bxs U s).
Proof.
  intros [s|]; cbn; [|discriminate]. pose proof (nf_from_unicode U s). destruct (bxs_from_unicode U s); try discriminate. contradiction.
Qed.
Lemma nf_tok : forall s, nf (string_tok U s).
Proof. intros s. apply nf_to_bxs. Qed.
Lemma nf_trimdup : forall b s e, nf (bxs_trimdup U b s e).
Proof.
  assert (F : forall fuel b s e, nf (trim_fwd U fuel b s e)) by (induction fuel; intros; cbn [trim_fwd]; nfs; auto).
  assert (B : forall fuel b s e, nf (trim_bwd U fuel b s e)) by (induction fuel; intros; cbn [trim_bwd]; nfs; auto).
  intros. unfold bxs_trimdup. nfs; try apply F; try apply B; apply nf_from_unicode.
Qed.
Lemma nf_trim : forall b, nf (bxs_trim U b).
Proof. intros b. unfold bxs_trim. nfs; apply nf_from_unicode. Qed.
Lemma nf_strcat : forall b s, nf (bxs_strcat U b s).
Proof. intros b s. unfold bxs_strcat. nfs. all: apply nf_from_unicode. Qed.
Lemma nf_nullable : forall A (r : res A), nf r -> nf (nullable r).
Proof. intros A [a| | | |] H; try discriminate. contradiction. Qed.

Lemma nf_shape_def : forall d, nf (parse_shape_def U d).
Proof.
  assert (L : forall l s, nf (shape_lines U s l)).
  { induction l as [|t l IH]; intros s; cbn [shape_lines]; [discriminate|]. apply nf_bind; [apply nf_tok|]. intros b _. apply nf_then; [|intros; apply IH].
    unfold action_add_shape_line. nfs. }
  intros [|f more]; cbn [parse_shape_def]; [discriminate|]. apply nf_bind; [apply nf_tok|]. intros b _. apply nf_then; [unfold action_first_shape_line; nfs|].
  intros s. apply nf_then; [apply L|discriminate].
Qed.
Lemma nf_shapes : forall l st, nf (shapes_list U st l).
Proof.
  induction l as [|[i d] l IH]; intros st; cbn [shapes_list]; [discriminate|]. apply nf_then; [apply nf_shape_def|]. intros s. destruct (isempty _); [apply IH|discriminate].
Qed.
Lemma nf_shape_at : forall sh i, nf (shape_at beyond sh i).
Proof. intros. unfold shape_at. destruct (i <? 16); [discriminate|exact Hbeyond]. Qed.
Lemma nf_find : forall sh k start i, nf (findshape beyond sh start i k).
Proof. intros sh. induction k as [|k IH]; intros start i; cbn [findshape]; [discriminate|]. apply nf_bind; [apply nf_shape_at|]. intros s _. destruct (isempty s); [apply IH|discriminate]. Qed.
Lemma nf_genshape : forall w h, nf (genshape U w h).
Proof. intros w h. unfold genshape, bxs_from_ascii. nfs; apply nf_from_unicode. Qed.
Lemma nf_corners : forall l sh f, nf (make_corners U beyond sh f l).
Proof.
  induction l as [|s l IH]; intros sh f; cbn [make_corners]; [discriminate|]. destruct (isempty _); [|apply IH]. apply nf_bind; [apply nf_find|]. intros n _.
  apply nf_bind; [destruct (n =? 5); [discriminate|]; apply nf_bind; [apply nf_shape_at|discriminate]|]. intros nx _. destruct (corner_size _ _ _ _) as [w h].
  pose proof (nf_genshape w h). destruct (genshape U w h) as [[c m]| | | |]; try discriminate; [apply IH|contradiction].
Qed.
Lemma nf_middles : forall l sh, nf (make_middles U sh l).
Proof.
  induction l as [|s l IH]; intros sh; cbn [make_middles]; [discriminate|]. destruct (forallb _ _); [|apply IH].
  destruct (if vertical_side s then _ else _) as [w h]. pose proof (nf_genshape w h). destruct (genshape U w h) as [[c m]| | | |]; try discriminate; [apply IH|contradiction].
Qed.
Lemma nf_finalize : forall st, nf (action_finalize_shapes U beyond st).
Proof.
  intros st. unfold action_finalize_shapes. destruct (_ <? _); [discriminate|]. apply nf_then.
  - unfold complete_shapes. apply nf_bind; [apply nf_find|]. intros f _. destruct (f =? 16); [discriminate|]. destruct (on_side f); [|discriminate].
    apply nf_then; [apply nf_corners|]. intros. apply nf_middles.
  - intros sh. destruct (negb _); [discriminate|]. cbv zeta. destruct (_ && _); discriminate.
Qed.
Lemma strchr_after : forall b c k i p, bxs_strchr b c i k = Ok (Some p) -> i <= p < i + k.
Proof.
  intros b c. induction k as [|k IH]; intros i p H; cbn [bxs_strchr] in H; [discriminate|].
  apply bind_ok in H as (q & _ & H). apply bind_ok in H as (x & _ & H). destruct (N.eqb x c); [injection H as <-; lia|]. apply IH in H. lia.
Qed.
Lemma nf_strchr : forall b c k i, nf (bxs_strchr b c i k).
Proof. intros b c. induction k as [|k IH]; intros i; cbn [bxs_strchr]; nfs. apply IH. Qed.
Lemma nf_trim_tag : forall b s e, nf (trim_tag U b s e).
Proof. intros b s e. unfold trim_tag. pose proof (nf_trimdup b s e). destruct (bxs_trimdup U b s e); try discriminate. contradiction. Qed.
Lemma nf_tag_split : forall fuel tags b s, num_chars_visible b - s < fuel -> nf (tag_split_add U fuel tags b s).
Proof.
  induction fuel as [|fuel IH]; intros tags b s Hf; [lia|]. cbn [tag_split_add]. apply nf_bind; [apply nf_strchr|]. intros c Hc. apply nf_bind; [apply nf_trim_tag|]. intros t _.
  destruct c as [p|]; [|discriminate]. apply strchr_after in Hc. apply IH. lia.
Qed.
Lemma nf_tag_record : forall tags t, nf (tag_record U tags t).
Proof.
  intros tags [b|]; cbn [tag_record]; [|discriminate]. destruct (0 <? _); [discriminate|]. apply nf_bind; [apply nf_strchr|]. intros c _. destruct c as [p|].
  - apply nf_tag_split. lia.
  - apply nf_bind; [apply nf_trim_tag|discriminate].
Qed.
Lemma nf_tag_list : forall l tags, nf (tag_list U tags l).
Proof. induction l as [|s l IH]; intros tags; cbn [tag_list]; [discriminate|]. apply nf_bind; [apply nf_tok|]. intros b _. apply nf_bind; [apply nf_tag_record|]. intros t _. apply IH. Qed.
Lemma nf_item : forall st i, nf (do_item U beyond eol st i).
Proof.
  intros st [k v|l|s|l|l|s r m|s r m|l| |]; cbn [do_item]; try discriminate.
  - apply nf_bind; [apply nf_tok|]. intros b _. apply nf_then; [|discriminate]. unfold action_record_keyword. destruct (negb _); [discriminate|]. destruct b as [b|]; [|discriminate].
    destruct (same_nocase _ _); [discriminate|]. destruct (same_nocase _ _); [discriminate|]. destruct (same_nocase _ _).
    + apply nf_bind; [apply nf_tag_record|discriminate].
    + destruct (same_nocase _ _); [|discriminate]. destruct (existsb _ _); discriminate.
  - apply nf_bind; [apply nf_tag_list|discriminate].
  - apply nf_bind.
    + unfold sample_tok. apply nf_bind; [apply nf_tok|]. intros b _. apply nf_bind; [destruct b; [apply nf_nullable; apply nf_rtrim|discriminate]|].
      intros t _. destruct t; [apply nf_nullable; apply nf_strcat|apply nf_tok].
    + intros b _. unfold action_sample_block. destruct (c_sample _); [discriminate|]. destruct b; [|discriminate]. apply nf_bind; [apply nf_to_bxs|]. intros o _. nfs.
  - apply nf_then; [apply nf_shapes|]. intros. apply nf_finalize.
  - unfold action_elastic. cbv zeta. destruct (_ && _); discriminate.
  - apply nf_bind; [apply nf_tok|]. intros b _. apply nf_bind; [apply nf_tok|]. intros b' _. apply nf_then; discriminate.
  - apply nf_bind; [apply nf_tok|]. intros b _. apply nf_bind; [apply nf_tok|]. intros b' _. apply nf_then; discriminate.
Qed.
Lemma nf_items : forall l st, nf (do_items U beyond eol st l).
Proof. induction l as [|i l IH]; intros st; cbn [do_items]; [discriminate|]. apply nf_then; [apply nf_item|]. intros. apply IH. Qed.
Lemma nf_discover : nf (discover_config_file U sur true).
Proof.
  assert (N : forall l d, nf (locate_names sur d l)).
  { induction l as [|n l IH]; intros d; cbn [locate_names]; [discriminate|]. apply nf_bind; [|intros f _; destruct (can_read_file _ f); [discriminate|apply IH]].
    unfold combine. destruct (rev d); discriminate. }
  assert (P : forall l, nf (try_places U sur l)).
  { induction l as [|p l IH]; cbn [try_places]; [discriminate|]. apply nf_bind; [|intros [b|] _; [discriminate|exact IH]]. destruct p as [|[d|]]; cbn [try_place].
    - destruct (can_read_file _ _); [apply nf_to_bxs|discriminate].
    - destruct (can_read_dir _ _); [|discriminate]. apply nf_bind; [apply N|]. intros. apply nf_to_bxs.
    - discriminate. }
  unfold discover_config_file. cbn [bind]. apply P.
Qed.
Lemma nf_stmts : forall l st, nf (do_stmts U beyond po eol children fopen_ok sur st l).
Proof.
  induction l as [|s l IH]; intros st; cbn [do_stmts]; [discriminate|]. apply nf_bind; [|intros [a| | |a] _; try discriminate; apply IH].
  destruct s as [f|name al layout e|al|]; cbn [do_stmt]; try discriminate.
  - apply nf_bind.
    + unfold filename_tok. apply nf_bind; [apply nf_tok|]. intros [b|] _; [|discriminate]. pose proof (nf_trim b). destruct (bxs_trim U b); try discriminate. contradiction.
    + intros b _. apply nf_bind; [|discriminate]. unfold action_parent_config. destruct b as [b|]; [|discriminate]. destruct (_ =? 0); [discriminate|].
      destruct (same_nocase _ _); [apply nf_bind; [apply nf_discover|]; intros [g|] _; discriminate|]. destruct (negb _); [discriminate|]. destruct (fopen_ok _); discriminate.
  - destruct (add_aliases children st al) as [st1 ok1]. destruct (negb ok1); [discriminate|]. destruct (action_start_parsing_design po st1 name) as [st2 ok2].
    destruct (negb ok2); [discriminate|]. destruct (is_nil layout); [discriminate|]. apply nf_bind; [apply nf_items|]. intros [a| | |a] _; try discriminate.
    destruct (action_add_design _ _ _ _); discriminate.
Qed.
Lemma nf_parse : forall contents, nf (parse_config_file U beyond po eol children fopen_ok sur contents).
Proof.
  intros [l|]; cbn [parse_config_file]; [|discriminate]. apply nf_bind; [apply nf_stmts|]. intros [a| | |a] _; try discriminate. destruct (_ && _); discriminate.
Qed.

(** *** parents *)
Definition may_open (p : list N) : Prop := fopen_ok p = true \/ exists g, discover_config_file U sur true = Ok (Some g) /\ memory g = p.
Lemma after_error_parents : forall st, b_parents (after_error st) = b_parents st.
Proof. intros st. unfold after_error. cbv zeta. destruct (_ && _); reflexivity. Qed.
Lemma aliases_parents : forall l st, b_parents (fst (add_aliases children st l)) = b_parents st.
Proof.
  induction l as [|a l IH]; intros st; cbn [add_aliases]; [reflexivity|]. unfold action_add_alias. destruct (design_name_exists st a); [reflexivity|].
  destruct (alias_exists_in_child_configs _ a); rewrite IH; reflexivity.
Qed.
Lemma add_parent_open : forall st p, Forall may_open (b_parents st) -> may_open p -> Forall may_open (b_parents (add_parent st p)).
Proof. intros st p Hs Hp. unfold add_parent. destruct (existsb _ _); [exact Hs|]. cbn. apply Forall_app. auto. Qed.
Lemma stmt_open : forall st s r, Forall may_open (b_parents st) -> do_stmt U beyond po eol children fopen_ok sur st s = Ok r ->
  match r with RC_SUCCESS st' | RC_ACCEPT st' => Forall may_open (b_parents st') | _ => True end.
Proof.
  intros st s r Hs H. destruct s as [f|name al layout e|al|]; cbn [do_stmt] in H.
  - apply bind_ok in H as (b & _ & H). apply bind_ok in H as (st' & Hp & H). injection H as <-. unfold action_parent_config in Hp.
    destruct b as [b|]; [|injection Hp as <-; rewrite after_error_parents; exact Hs].
    destruct (_ =? 0); [injection Hp as <-; rewrite after_error_parents; exact Hs|].
    destruct (same_nocase _ _).
    + apply bind_ok in Hp as (g & Hg & Hp). destruct g as [g|]; [|injection Hp as <-; rewrite after_error_parents; exact Hs].
      injection Hp as <-. apply add_parent_open; [exact Hs|]. right. eauto.
    + destruct (negb _); [injection Hp as <-; rewrite after_error_parents; exact Hs|].
      destruct (fopen_ok (memory b)) eqn:Ef; [injection Hp as <-; apply add_parent_open; [exact Hs|left; exact Ef]|injection Hp as <-; rewrite after_error_parents; exact Hs].
  - pose proof (aliases_parents al st) as Ha. destruct (add_aliases children st al) as [st1 ok1]. cbn [fst] in Ha.
    destruct (negb ok1); [injection H as <-; rewrite after_error_parents, Ha; exact Hs|].
    destruct (action_start_parsing_design po st1 name) as [st2 ok2] eqn:E2.
    assert (H2 : b_parents st2 = b_parents st). { unfold action_start_parsing_design in E2. cbv zeta in E2. destruct (design_needed _ _); injection E2 as <- _; exact Ha. }
    destruct (negb ok2); [injection H as <-; rewrite after_error_parents, H2; exact Hs|].
    destruct (is_nil layout); [injection H as <-; rewrite after_error_parents, H2; exact Hs|].
    apply bind_ok in H as (r' & Hi & H). destruct r' as [st3| | |st3].
    + apply items_kept in Hi. assert (H3 : b_parents st3 = b_parents st) by (rewrite <- H2; apply Hi).
      unfold action_add_design in H. destruct (negb _); [injection H as <-; rewrite after_error_parents, H3; exact Hs|].
      destruct (_ <? 3); [injection H as <-; rewrite after_error_parents, H3; exact Hs|].
      destruct (design_name_exists _ _); [injection H as <-; rewrite after_error_parents, H3; exact Hs|].
      cbv zeta in H. destruct (full_parse_required po); injection H as <-; cbn; rewrite H3; exact Hs.
    + injection H as <-. rewrite after_error_parents, H2. exact Hs.
    + injection H as <-. exact I.
    + injection H as <-. exfalso. apply do_items_accept in Hi. exact Hi.
  - injection H as <-. rewrite after_error_parents, aliases_parents. exact Hs.
  - injection H as <-. rewrite after_error_parents. exact Hs.
Qed.
Lemma parse_open : forall contents ds ps, parse_config_file U beyond po eol children fopen_ok sur contents = Ok (ds, ps) -> Forall may_open ps.
Proof.
  intros [l|] ds ps H; cbn [parse_config_file] in H; [|injection H as <- <-; constructor].
  assert (G : forall l st r, Forall may_open (b_parents st) -> do_stmts U beyond po eol children fopen_ok sur st l = Ok r ->
    match r with RC_SUCCESS st' | RC_ACCEPT st' => Forall may_open (b_parents st') | _ => True end).
  { clear. induction l as [|s l IH]; intros st r Hs H; cbn [do_stmts] in H; [injection H as <-; exact Hs|]. apply bind_ok in H as (x & Hx & H).
    apply stmt_open in Hx; [|exact Hs]. destruct x as [st'| | |st']; [eapply IH; eassumption|injection H as <-; exact I..|injection H as <-; exact Hx]. }
  apply bind_ok in H as (x & Hx & H). apply G in Hx; [|constructor]. destruct x as [st| | |st]; [|injection H as <- <-; constructor..|injection H as <- <-; exact Hx].
  destruct (_ && _); injection H as <- <-; [constructor|exact Hx].
Qed.
End Ends.

(** the loop, when reading a file may fail in other ways *)
Lemma nf_parse_loop : forall parse files, (forall f before, nf (parse f before)) ->
  (forall f before ds ps, parse f before = Ok (ds, ps) -> forall p, In p ps -> In p files) ->
  forall fuel file k known result, NoDup known -> (forall p, In p known -> In p files) -> k <= List.length known ->
  List.length files + 1 <= fuel + k -> nf (parse_loop parse fuel file k known result).
Proof.
  intros parse files Hnf Hps. induction fuel as [|fuel IH]; intros file k known result Hd Hin Hk Hf.
  - assert (L := NoDup_incl_length Hd Hin). lia.
  - cbn [parse_loop]. apply nf_bind; [apply Hnf|]. intros [ds ps] E.
    unfold record_parent_config_files. destruct (record_ok (rev ps) known) as (B1 & (mo & B2 & B2') & B3). cbv zeta in *. set (known1 := fold_left _ (rev ps) known) in *.
    destruct (nth_error known1 k) as [next|] eqn:En; [|discriminate].
    assert (L : S k <= List.length known1) by (apply nth_error_Some; congruence). apply IH; [auto| |exact L|lia].
    intros p Hp. rewrite B2 in Hp. apply in_app_iff in Hp as [Hp|Hp]; [auto|]. apply (Hps _ _ _ _ E). apply in_rev. apply B2'. exact Hp.
Qed.
