(** * Designs that were loaded can be listed: C69 *)
From Coq Require Import Ascii String List Arith NArith ZArith Bool Lia.
From Verif Require Import Base BaseFacts Model_Unicode Model_Bxs Model_Shape Spec_Str Proof_Str Proof_Bxs Proof_BxsOps Proof_BxsMore Proof_Shows Spec_Design Spec_Lexer Prop_Lexer
  Model_Regex Model_Query Spec_Query Proof_Query Model_Discovery Model_Parser Spec_Parser Proof_Tags Proof_Parser Proof_Parser2 Proof_Term Proof_Hmm Proof_Horiz Proof_Comment Spec_Config Spec_List.
Import ListNotations.
Local Open Scope nat_scope.
Local Open Scope list_scope.

Section Loaded.
Variable U : uctab.
Hypothesis HU : uctab_ok U.

Definition Pn (c : N) : Prop := (c <> 27 /\ c <> 9)%N.
Definition lean (b : bxstr) : Prop := Forall Pn (memory b) /\ bxs_from_unicode U (memory b) = Ok b.
Definition leanl (b : bxstr) : Prop := simple_text (memory b) /\ bxs_from_unicode U (memory b) = Ok b.
Lemma from_mem : forall s b, bxs_from_unicode U s = Ok b -> memory b = s.
Proof. intros s b H. destruct (tokenize_exists s) as (ts & Hok & <-). destruct (from_unicode_inv U ts b Hok H) as (_ & _ & ->). reflexivity. Qed.
Lemma from_lean : forall s b, Forall Pn s -> bxs_from_unicode U s = Ok b -> lean b.
Proof. intros s b H E. pose proof (from_mem s b E) as M. split; rewrite M; assumption. Qed.
Lemma from_leanl : forall s b, simple_text s -> bxs_from_unicode U s = Ok b -> leanl b.
Proof. intros s b H E. pose proof (from_mem s b E) as M. split; rewrite M; assumption. Qed.
Lemma simple_Pn : forall s, simple_text s -> Forall Pn s.
Proof. intros s H. eapply Forall_impl; [|exact H]. intros c (A & B & _). split; assumption. Qed.
Lemma leanl_lean : forall b, leanl b -> lean b.
Proof. intros b [A B]. split; [apply simple_Pn; exact A|exact B]. Qed.
Lemma utf8_from : forall s b, utf8_to_bxs U (Some s) = Ok (Some b) -> bxs_from_unicode U s = Ok b.
Proof. intros s b H. unfold utf8_to_bxs in H. destruct (bxs_from_unicode U s) as [x| | | |]; try discriminate H. injection H as ->. reflexivity. Qed.
Lemma tok_leanl : forall s b, simple_text s -> string_tok U s = Ok (Some b) -> leanl b.
Proof. intros s b H E. eapply from_leanl; [exact H|]. apply utf8_from. exact E. Qed.
Lemma lean_no_esc : forall b, lean b -> ~ In 27%N (memory b).
Proof. intros b [H _] F. rewrite Forall_forall in H. destruct (H _ F) as [A _]. congruence. Qed.
Lemma lean_showable : forall b, lean b -> showable U b.
Proof.
  intros b H. exists (map Vis (memory b)). split; [apply reads_plain, lean_no_esc; exact H|]. split; [|apply H].
  unfold known. apply Forall_forall. intros t Ht. apply in_map_iff in Ht as (c & <- & _). reflexivity.
Qed.
Lemma lean_quotes : forall b ts, lean b -> reads (memory b) ts -> Forall no_quote_inside ts.
Proof.
  intros b ts H R. pose proof (reads_plain _ (lean_no_esc b H)) as R'. assert (E : ts = map Vis (memory b)).
  { apply reading_unique; [apply R|apply R'|]. destruct R as [_ R]. destruct R' as [_ R']. unfold Proof_BxsOps.plain in R'. congruence. }
  subst ts. apply Forall_forall. intros t Ht. apply in_map_iff in Ht as (c & <- & _). exact I.
Qed.

Definition entry_inv (s : sentry) : Prop := isdeepempty s = false -> List.length (s_mbcs s) = s_height s /\ Forall leanl (s_mbcs s).
Record c_inv (c : cdesign) : Prop := {
  ci_author : forall b, c_author c = Some b \/ c_designer c = Some b -> leanl b;
  ci_sample : forall b, c_sample c = Some b -> lean b;
  ci_rules : Forall (fun r => leanl (r_search r) /\ leanl (r_repstr r)) (c_reprules c ++ c_revrules c);
  ci_shapes : forall i, entry_inv (c_shape c i);
  ci_tags : Forall good_tag (c_tags c)
}.
Lemma inv0 : c_inv init_design.
Proof. constructor; cbn; [intros b [H|H]; discriminate H|discriminate|constructor|intros i H; discriminate H|constructor]. Qed.

(** no entry ends the file *)
Definition goes_on {A : Type} (r : res (rc A)) : Prop := forall a, r <> Ok (RC_ACCEPT a).
Lemma on_then : forall A B (r : res (rc A)) (k : A -> res (rc B)), (forall a, goes_on (k a)) -> goes_on (then_ r k).
Proof. intros A B r k H b E. apply then_no_accept in E as (a & _ & E). exact (H a b E). Qed.
Lemma on_bind : forall A B (r : res A) (k : A -> res (rc B)), (forall a, goes_on (k a)) -> goes_on (bind r k).
Proof. intros A B r k H b E. destruct r as [a| | | |]; try discriminate E. exact (H a b E). Qed.
Lemma then_on : forall A B (r : res (rc A)) (k : A -> res (rc B)) b, then_ r k = Ok (RC_SUCCESS b) -> goes_on r -> exists a, r = Ok (RC_SUCCESS a) /\ k a = Ok (RC_SUCCESS b).
Proof. intros A B r k b H G. apply then_ok in H as (a & [H|H] & K); [eauto|]. elim (G a H). Qed.
Lemma on_add : forall s b, goes_on (action_add_shape_line U s b).
Proof. intros s b a E. unfold action_add_shape_line in E. destruct b as [b|]; [|discriminate E]. destruct (negb _); [discriminate E|]. destruct (negb _); discriminate E. Qed.
Lemma on_first : forall b, goes_on (action_first_shape_line U b).
Proof. intros b a E. unfold action_first_shape_line in E. destruct b as [b|]; [|discriminate E]. destruct (valid_in_shape U b); discriminate E. Qed.
Lemma on_lines : forall l s, goes_on (shape_lines U s l).
Proof. induction l as [|x l IH]; intros s; cbn [shape_lines]; [intros a E; discriminate E|]. apply on_bind. intros b. apply on_then. intros s'. apply IH. Qed.
Lemma on_def : forall d, goes_on (parse_shape_def U d).
Proof. intros [|a l]; cbn [parse_shape_def]; [intros x E; discriminate E|]. apply on_bind. intros b. apply on_then. intros s. apply on_then. intros s' x E. discriminate E. Qed.
Lemma on_shapes : forall l st, goes_on (shapes_list U st l).
Proof. induction l as [|[i d] l IH]; intros st; cbn [shapes_list]; [intros a E; discriminate E|]. apply on_then. intros s. destruct (isempty _); [apply IH|intros a E; discriminate E]. Qed.
Lemma on_middles : forall l sh, goes_on (make_middles U sh l).
Proof.
  induction l as [|x l IH]; intros sh; cbn [make_middles]; [intros a E; discriminate E|]. destruct (forallb _ _); [|apply IH]. destruct (if vertical_side x then _ else _) as [w h].
  destruct (genshape U w h) as [[cs ms]| | | |]; try (intros a E; discriminate E). apply IH.
Qed.
Lemma on_corners : forall beyond l sh f, goes_on (make_corners U beyond sh f l).
Proof.
  intros beyond. induction l as [|x l IH]; intros sh f; cbn [make_corners]; [intros a E; discriminate E|]. destruct (isempty _); [|apply IH]. apply on_bind. intros n. apply on_bind. intros nx.
  destruct (corner_size _ _ _ _) as [w h]. destruct (genshape U w h) as [[cs ms]| | | |]; try (intros a E; discriminate E). apply IH.
Qed.
Lemma on_complete : forall beyond sh, goes_on (complete_shapes U beyond sh).
Proof.
  intros beyond sh. unfold complete_shapes. apply on_bind. intros f. destruct (f =? 16); [intros a E; discriminate E|]. destruct (on_side f); [|intros a E; discriminate E].
  apply on_then. intros sh'. apply on_middles.
Qed.
Lemma on_rule : forall l s r m, goes_on (Ok (action_add_regex_rule l s r m)).
Proof. intros l s r m a E. unfold action_add_regex_rule in E. destruct s; [|discriminate E]. destruct r; discriminate E. Qed.
Lemma on_items : forall beyond eol st i, goes_on (do_item U beyond eol st i).
Proof. intros beyond eol st i a E. exact (do_item_accept U beyond eol st i a E). Qed.
Lemma on_keyword : forall c k v, goes_on (action_record_keyword U c k v).
Proof. intros c k v a E. exact (record_keyword_accept U c k v a E). Qed.
#[local] Hint Resolve on_add on_first on_lines on_def on_shapes on_middles on_corners on_complete on_rule on_items on_keyword : core.

(** ** shapes *)
Definition growing_inv (s : sentry) : Prop := List.length (s_mbcs s) = s_height s /\ Forall leanl (s_mbcs s).
Lemma lines_inv : forall l s r, Forall simple_text l -> growing_inv s -> shape_lines U s l = Ok (RC_SUCCESS r) -> growing_inv r.
Proof.
  induction l as [|x l IH]; intros s r H G E; cbn [shape_lines] in E; [injection E as <-; exact G|]. inversion H; subst.
  destruct (string_tok U x) as [b| | | |] eqn:Eb; try discriminate E. cbn [bind] in E. apply then_on in E as (s' & Es & E); [|auto]. refine (IH s' r ltac:(assumption) _ E).
  unfold action_add_shape_line in Es. destruct b as [b|]; [|discriminate Es]. destruct (negb _); [discriminate Es|]. destruct (negb _); [discriminate Es|]. injection Es as <-.
  destruct G as [G1 G2]. split; cbn [s_mbcs s_height]; [rewrite app_length, G1; cbn; lia|]. apply Forall_app. split; [exact G2|]. constructor; [|constructor]. eapply tok_leanl; eassumption.
Qed.
Lemma def_inv : forall d r, match d with no_lines => True | lines a l => Forall simple_text (a :: l) end -> parse_shape_def U d = Ok (RC_SUCCESS r) -> entry_inv r.
Proof.
  intros [|a l] r H E; cbn [parse_shape_def] in E; [injection E as <-; intros F; discriminate F|]. inversion H; subst.
  destruct (string_tok U a) as [b| | | |] eqn:Eb; try discriminate E. cbn [bind] in E. apply then_on in E as (s & Es & E); [|auto]. apply then_on in E as (s' & Es' & E); [|auto]. injection E as <-.
  destruct (_ || _); [intros F; discriminate F|]. intros _. eapply lines_inv; [|  |exact Es']; [assumption|].
  unfold action_first_shape_line in Es. destruct b as [b|]; [|discriminate Es]. destruct (valid_in_shape U b); [|discriminate Es]. injection Es as <-. split; [reflexivity|]. cbn [s_mbcs].
  constructor; [|constructor]. eapply tok_leanl; eassumption.
Qed.
Lemma upd_inv : forall sh i s, (forall j, entry_inv (sh j)) -> entry_inv s -> forall j, entry_inv (upd sh i s j).
Proof. intros sh i s H G j. unfold upd. destruct (j =? i); auto. Qed.
Lemma gen_inv : forall w h cs ms e, genshape U w h = Ok (cs, ms) -> entry_inv (mkSentry cs ms h w e).
Proof. intros w h cs ms e H F. destruct (genshape_blank U HU w h cs ms e H) as [B _]. rewrite (blank_deep _ B) in F. discriminate F. Qed.
Lemma shapes_list_inv : forall l st st', Forall (fun p => match snd p with no_lines => True | lines a r => Forall simple_text (a :: r) end) l ->
  c_inv (curdes st) -> shapes_list U st l = Ok (RC_SUCCESS st') -> c_inv (curdes st').
Proof.
  induction l as [|[i d] l IH]; intros st st' H G E; cbn [shapes_list] in E; [injection E as <-; exact G|]. inversion H; subst.
  apply then_on in E as (s & Es & E); [|auto]. destruct (isempty _); [|discriminate E]. refine (IH _ st' ltac:(assumption) _ E).
  destruct G as [A B C D F]. constructor; cbn [with_counts with_cur curdes set_shape c_author c_designer c_sample c_reprules c_revrules c_shape c_tags]; try assumption.
  apply upd_inv; [exact D|]. eapply def_inv; [|exact Es]. assumption.
Qed.
Lemma corners_inv : forall beyond l sh f r, (forall j, entry_inv (sh j)) -> make_corners U beyond sh f l = Ok (RC_SUCCESS r) -> forall j, entry_inv (r j).
Proof.
  intros beyond. induction l as [|side l IH]; intros sh f r H E; cbn [make_corners] in E; [injection E as <-; exact H|].
  destruct (isempty _); [|eapply IH; eassumption]. destruct (findshape _ _ _ _ _) as [n| | | |]; try discriminate E. cbn [bind] in E.
  destruct (if n =? 5 then _ else _) as [nx| | | |]; try discriminate E. cbn [bind] in E. destruct (corner_size _ _ _ _) as [w h].
  destruct (genshape U w h) as [[cs ms]| | | |] eqn:Eg; try discriminate E. eapply IH; [|exact E]. apply upd_inv; [exact H|]. apply gen_inv. exact Eg.
Qed.
Lemma middles_inv : forall l sh r, (forall j, entry_inv (sh j)) -> make_middles U sh l = Ok (RC_SUCCESS r) -> forall j, entry_inv (r j).
Proof.
  induction l as [|side l IH]; intros sh r H E; cbn [make_middles] in E; [injection E as <-; exact H|].
  destruct (forallb _ _); [|eapply IH; eassumption]. destruct (if vertical_side side then _ else _) as [w h].
  destruct (genshape U w h) as [[cs ms]| | | |] eqn:Eg; try discriminate E. eapply IH; [|exact E]. apply upd_inv; [exact H|]. apply gen_inv. exact Eg.
Qed.
Lemma finalize_inv : forall beyond st st', c_inv (curdes st) -> action_finalize_shapes U beyond st = Ok (RC_SUCCESS st') -> c_inv (curdes st').
Proof.
  intros beyond st st' G E. unfold action_finalize_shapes in E. destruct (_ <? 1); [discriminate E|]. apply then_on in E as (sh & Es & E); [|auto].
  assert (S : forall j, entry_inv (sh j)).
  { unfold complete_shapes in Es. destruct (findshape _ _ _ _ _) as [f| | | |]; try discriminate Es. cbn [bind] in Es. destruct (f =? 16); [discriminate Es|].
    destruct (on_side f) as [s|]; [|discriminate Es]. apply then_on in Es as (sh1 & E1 & E2); [|auto]. eapply middles_inv; [|exact E2]. eapply corners_inv; [|exact E1]. apply (ci_shapes _ G). }
  destruct (negb (check_sizes sh)); [discriminate E|]. destruct (_ && _); [discriminate E|]. injection E as <-.
  destruct G as [A B C D F]. constructor; cbn; assumption.
Qed.
Lemma elastic_inv : forall st l st', c_inv (curdes st) -> action_elastic st l = Ok (RC_SUCCESS st') -> c_inv (curdes st').
Proof.
  intros st l st' G E. unfold action_elastic in E. destruct (_ && _); [discriminate E|]. injection E as <-. destruct G as [A B C D F].
  constructor; cbn [with_counts with_cur curdes set_shape c_author c_designer c_sample c_reprules c_revrules c_shape c_tags]; try assumption.
  clear -D. revert D. generalize (c_shape (curdes st)) as sh. induction l as [|i l IH]; intros sh D j; [apply D|]. cbn [fold_left]. apply IH. unfold mark_elastic. apply upd_inv; [exact D|].
  intros F. apply D. exact F.
Qed.

(** ** tags *)
Lemma simple_part : forall p q s, simple_text s -> simple_text (skipn p (firstn q s)) /\ simple_text (skipn p s).
Proof.
  assert (K : forall k s, simple_text s -> simple_text (firstn k s) /\ simple_text (skipn k s)).
  { intros k s H. unfold simple_text in *. rewrite <- (firstn_skipn k s) in H. apply Forall_app in H. exact H. }
  intros p q s H. split; [apply K, K; exact H|apply K; exact H].
Qed.
Lemma tag_add_inv : forall tags b s e x, leanl b -> Forall good_tag tags -> trim_tag U b s e = Ok x -> Forall good_tag (tag_add tags x).
Proof.
  intros tags b s e x H G E. unfold trim_tag in E. destruct (bxs_trimdup U b s e) as [y| | | |] eqn:Ey; try discriminate E; injection E as <-; [|exact G].
  unfold bxs_trimdup in Ey. destruct (_ <? s); [discriminate Ey|]. destruct (_ <? e); [discriminate Ey|]. destruct (e <? s); [discriminate Ey|].
  destruct (trim_fwd _ _ _ _ _) as [s'| | | |]; try discriminate Ey. cbn [bind] in Ey. destruct (trim_bwd _ _ _ _ _) as [e'| | | |]; try discriminate Ey. cbn [bind] in Ey.
  destruct (rd _ e') as [pe| | | |]; try discriminate Ey. cbn [bind] in Ey. destruct (rd _ s') as [ps| | | |]; try discriminate Ey. cbn [bind] in Ey.
  destruct (List.length _ <? ps); [discriminate Ey|].
  assert (T : simple_text (skipn ps (if e' <? num_chars_visible b then firstn pe (memory b) else memory b))) by (destruct (e' <? _); [exact (proj1 (simple_part ps pe _ (proj1 H)))|exact (proj2 (simple_part ps 0 _ (proj1 H)))]).
  cbn [tag_add]. destruct (is_ascii_id true (memory y)) eqn:Ei; [|exact G]. destruct (array_contains0 _ _); [exact G|]. apply Forall_app. split; [exact G|]. constructor; [|constructor].
  pose proof (from_mem _ _ Ey) as M. rewrite M in Ei. assert (Gt : good_tag (skipn ps (if e' <? num_chars_visible b then firstn pe (memory b) else memory b))) by (apply plain_accepted; [exact T|]; apply id_ok; exact Ei).
  destruct (plain_bx U _ _ T Ey) as (_ & Ea & _). rewrite Ea, (good_tag_ascii U _ Gt). exact Gt.
Qed.
Lemma split_inv : forall k tags b p r, leanl b -> Forall good_tag tags -> tag_split_add U k tags b p = Ok r -> Forall good_tag r.
Proof.
  induction k as [|k IH]; intros tags b p r H G E; [discriminate E|]. cbn [tag_split_add] in E.
  destruct (strchr_from b 44 p) as [c| | | |]; try discriminate E. cbn [bind] in E. destruct (trim_tag _ _ _ _) as [t| | | |] eqn:Et; try discriminate E. cbn [bind] in E.
  pose proof (tag_add_inv _ _ _ _ _ H G Et) as G'. destruct c as [q|]; [eapply IH; eassumption|]. injection E as <-. exact G'.
Qed.
Lemma record_inv : forall tags b r, leanl b -> Forall good_tag tags -> tag_record U tags (Some b) = Ok r -> Forall good_tag r.
Proof.
  intros tags b r H G E. unfold tag_record in E. destruct (0 <? _); [injection E as <-; exact G|].
  destruct (strchr_from b 44 0) as [[p|]| | | |]; try discriminate E; cbn [bind] in E; [eapply split_inv; eassumption|].
  destruct (trim_tag _ _ _ _) as [t| | | |] eqn:Et; try discriminate E. cbn [bind] in E. injection E as <-. eapply tag_add_inv; eassumption.
Qed.
Lemma tag_list_inv : forall l tags r, Forall simple_text l -> Forall good_tag tags -> tag_list U tags l = Ok r -> Forall good_tag r.
Proof.
  induction l as [|s l IH]; intros tags r H G E; cbn [tag_list] in E; [injection E as <-; exact G|]. inversion H; subst.
  destruct (string_tok U s) as [[b|]| | | |] eqn:Eb; try discriminate E. cbn [bind] in E. destruct (tag_record U tags (Some b)) as [t| | | |] eqn:Et; try discriminate E. cbn [bind] in E.
  eapply IH; [assumption| |exact E]. eapply record_inv; [|exact G|exact Et]. eapply tok_leanl; eassumption.
Qed.

(** ** samples *)
Variable eol : list N.
Hypothesis Heol : Forall Pn eol.
Lemma adjust_Pn : forall n s, List.length s <= n -> Forall Pn s -> Forall Pn (adjust_eols eol s).
Proof.
  induction n as [|n IH]; intros s L H; (destruct s as [|c r]; [constructor|]); cbn [List.length] in L; [lia|]. inversion H; subst. cbn [adjust_eols].
  destruct (N.eqb c char_cr).
  - apply Forall_app. split; [exact Heol|]. destruct r as [|d r']; [constructor|]. inversion H3; subst. destruct (N.eqb d char_newline); apply IH; cbn [List.length] in L |- *; try assumption; lia.
  - destruct (N.eqb c char_newline); [apply Forall_app; split; [exact Heol|]|constructor; [assumption|]]; apply IH; try assumption; lia.
Qed.
Lemma skip_Pn : forall s, Forall Pn s -> Forall Pn (skip_blank_cr U s).
Proof. intros s H. induction H as [|c s Hc H IH]; [constructor|]. cbn [skip_blank_cr]. destruct (_ || _); [exact IH|constructor; assumption]. Qed.
Lemma line_Pn : forall f s, Forall Pn s -> Forall Pn (first_nonblank_line U f s).
Proof.
  induction f as [|f IH]; intros s H; [exact H|]. cbn [first_nonblank_line]. pose proof (skip_Pn s H) as K. destruct (skip_blank_cr U s) as [|c r]; [exact H|].
  destruct (N.eqb c char_newline); [|exact H]. apply IH. inversion K; assumption.
Qed.
Lemma sample_tok_Pn : forall s b, Forall Pn s -> sample_tok U s = Ok (Some b) -> Forall Pn (memory b).
Proof.
  intros s b H E. unfold sample_tok in E. assert (LF : Forall Pn [char_newline]) by (constructor; [split; discriminate|constructor]).
  destruct (string_tok U s) as [o| | | |] eqn:Eo; try discriminate E. cbn [bind] in E.
  destruct (match o with None => Ok None | Some x => nullable (bxs_rtrim U x) end) as [t| | | |] eqn:Et; try discriminate E. cbn [bind] in E.
  destruct t as [y|]; [|apply utf8_from in E; rewrite (from_mem _ _ E); exact LF]. destruct o as [x|]; [|discriminate Et].
  assert (Hx : Forall Pn (memory x)) by (apply utf8_from in Eo; rewrite (from_mem _ _ Eo); exact H).
  assert (Hy : Forall Pn (memory y)).
  { unfold nullable in Et. destruct (bxs_rtrim U x) as [y'| | | |] eqn:Er; try discriminate Et. injection Et as ->. unfold bxs_rtrim in Er. destruct (trailing x =? 0); [injection Er as <-; exact Hx|].
    destruct (subz _ _) as [k| | | |]; try discriminate Er. cbn [bind] in Er. destruct (rd _ k) as [p| | | |]; try discriminate Er. cbn [bind] in Er. destruct (_ <? p); [discriminate Er|].
    rewrite (from_mem _ _ Er). rewrite <- (firstn_skipn p (memory x)) in Hx. apply Forall_app in Hx. apply Hx. }
  unfold nullable in E. destruct (bxs_strcat U y [char_newline]) as [z| | | |] eqn:Ez; try discriminate E. injection E as ->. unfold bxs_strcat in Ez. cbn [List.length Nat.eqb] in Ez.
  destruct (num_chars y =? 0); rewrite (from_mem _ _ Ez); [exact LF|]. apply Forall_app. split; assumption.
Qed.
Lemma sample_inv : forall st s st' b, Forall Pn s -> c_inv (curdes st) -> sample_tok U s = Ok b -> action_sample_block U eol st b = Ok (RC_SUCCESS st') -> c_inv (curdes st').
Proof.
  intros st s st' b H G Eb E. unfold action_sample_block in E. destruct (c_sample (curdes st)); [discriminate E|]. destruct b as [b|]; [|discriminate E].
  pose proof (sample_tok_Pn _ _ H Eb) as Hb.
  destruct (utf8_to_bxs U _) as [[line|]| | | |] eqn:El; try discriminate E; cbn [bind] in E. destruct (num_chars line =? 0); [discriminate E|]. destruct (negb _); [discriminate E|].
  injection E as <-. apply utf8_from in El. destruct G as [A B C D F].
  constructor; cbn [with_counts with_cur curdes set_sample c_author c_designer c_sample c_reprules c_revrules c_shape c_tags]; try assumption.
  intros y Ey. injection Ey as <-. eapply from_lean; [|exact El]. eapply adjust_Pn; [apply le_n|]. apply line_Pn. exact Hb.
Qed.

(** ** one entry *)
Lemma keyword_inv : forall c k v b c', simple_text v -> c_inv c -> string_tok U v = Ok b -> action_record_keyword U c k b = Ok (RC_SUCCESS c') -> c_inv c'.
Proof.
  intros c k v b c' H G Eb E. unfold action_record_keyword in E. destruct (negb _); [discriminate E|]. destruct b as [b|]; [|discriminate E].
  pose proof (tok_leanl _ _ H Eb) as L. destruct G as [A B C D F].
  destruct (same_nocase k _); [injection E as <-; constructor; cbn; try assumption; intros x [X|X]; [injection X as <-; exact L|apply A; auto]|].
  destruct (same_nocase k _); [injection E as <-; constructor; cbn; try assumption; intros x [X|X]; [apply A; auto|injection X as <-; exact L]|].
  destruct (same_nocase k _).
  { destruct (tag_record U (c_tags c) (Some b)) as [t| | | |] eqn:Et; try discriminate E. cbn [bind] in E. injection E as <-. constructor; cbn; try assumption. eapply record_inv; eassumption. }
  destruct (same_nocase k _); [|discriminate E]. destruct (existsb _ _); [|discriminate E]. injection E as <-. constructor; cbn; assumption.
Qed.
Lemma item_inv : forall beyond st i st', simple_item i -> c_inv (curdes st) -> do_item U beyond eol st i = Ok (RC_SUCCESS st') -> c_inv (curdes st').
Proof.
  intros beyond st i st' H G E. destruct i as [k v|l|s|l|l|s r m|s r m|l| |]; cbn [do_item] in E; cbn [simple_item] in H.
  - destruct (string_tok U v) as [b| | | |] eqn:Eb; try discriminate E. cbn [bind] in E. apply then_on in E as (c & Ec & E); [|auto]. injection E as <-. cbn [with_cur curdes]. eapply keyword_inv; eassumption.
  - destruct (tag_list U _ l) as [t| | | |] eqn:Et; try discriminate E. cbn [bind] in E. injection E as <-. destruct G as [A B C D F]. constructor; cbn; try assumption. eapply tag_list_inv; eassumption.
  - destruct (sample_tok U s) as [b| | | |] eqn:Eb; try discriminate E. cbn [bind] in E. eapply sample_inv; eassumption.
  - apply then_on in E as (st1 & E1 & E2); [|auto]. eapply finalize_inv; [|exact E2]. eapply shapes_list_inv; eassumption.
  - eapply elastic_inv; eassumption.
  - destruct H as [H1 H2]. destruct (string_tok U s) as [bs| | | |] eqn:Es; try discriminate E. cbn [bind] in E. destruct (string_tok U r) as [br| | | |] eqn:Er; try discriminate E. cbn [bind] in E.
    apply then_on in E as (x & Ex & E); [|auto]. injection E as <-. unfold action_add_regex_rule in Ex. destruct bs as [bs|]; [|discriminate Ex]. destruct br as [br|]; [|discriminate Ex]. injection Ex as <-.
    destruct G as [A B C D F]. constructor; cbn; try assumption. apply Forall_app in C as [C1 C2]. rewrite !Forall_app. split; [|exact C2]. split; [exact C1|].
    constructor; [|constructor]. split; cbn [r_search r_repstr]; [exact (tok_leanl _ _ H1 Es)|exact (tok_leanl _ _ H2 Er)].
  - destruct H as [H1 H2]. destruct (string_tok U s) as [bs| | | |] eqn:Es; try discriminate E. cbn [bind] in E. destruct (string_tok U r) as [br| | | |] eqn:Er; try discriminate E. cbn [bind] in E.
    apply then_on in E as (x & Ex & E); [|auto]. injection E as <-. unfold action_add_regex_rule in Ex. destruct bs as [bs|]; [|discriminate Ex]. destruct br as [br|]; [|discriminate Ex]. injection Ex as <-.
    destruct G as [A B C D F]. constructor; cbn; try assumption. apply Forall_app in C as [C1 C2]. rewrite !Forall_app. split; [exact C1|]. split; [exact C2|].
    constructor; [|constructor]. split; cbn [r_search r_repstr]; [exact (tok_leanl _ _ H1 Es)|exact (tok_leanl _ _ H2 Er)].
  - injection E as <-. destruct G as [A B C D F]. constructor; cbn; assumption.
  - injection E as <-. exact G.
  - discriminate E.
Qed.
Lemma entries_inv : forall beyond l st st', Forall simple_item l -> c_inv (curdes st) -> do_items U beyond eol st l = Ok (RC_SUCCESS st') -> c_inv (curdes st').
Proof.
  intros beyond. induction l as [|i l IH]; intros st st' H G E; cbn [do_items] in E; [injection E as <-; exact G|]. inversion H; subst. apply then_on in E as (st1 & E1 & E2); [|auto].
  eapply IH; [assumption| |exact E2]. eapply item_inv; eassumption.
Qed.

(** ** statements *)
Definition d_inv (d : cdesign) : Prop := c_inv d /\ (exists n, c_name d = Some n /\ Spec_Config.name n) /\ Forall Spec_Config.name (c_aliases d).
Definition s_inv (st : pstate) : Prop := Forall d_inv (b_designs st) /\ c_inv (curdes st) /\ Forall Spec_Config.name (c_aliases (curdes st)).
Variable beyond : res sentry.
Variable po : popts.
Variable children : list cdesign.
Variable fopen_ok : list N -> bool.
Variable sur : surroundings.
Lemma same_inv : forall c c', c_inv c -> c_author c' = c_author c -> c_designer c' = c_designer c -> c_sample c' = c_sample c -> c_reprules c' = c_reprules c -> c_revrules c' = c_revrules c ->
  (forall i, c_shape c' i = c_shape c i) -> c_tags c' = c_tags c -> c_inv c'.
Proof. intros c c' [A B C D F] E1 E2 E3 E4 E5 E6 E7. constructor; [rewrite E1, E2; exact A|rewrite E3; exact B|rewrite E4, E5; exact C|intros i; rewrite E6; apply D|rewrite E7; exact F]. Qed.
Lemma aliases_inv : forall l st, c_inv (curdes st) -> b_designs (fst (add_aliases children st l)) = b_designs st /\ c_inv (curdes (fst (add_aliases children st l))) /\
  (Forall Spec_Config.name l -> Forall Spec_Config.name (c_aliases (curdes st)) -> Forall Spec_Config.name (c_aliases (curdes (fst (add_aliases children st l))))).
Proof.
  induction l as [|a l IH]; intros st G; cbn [add_aliases fst]; [auto|]. unfold action_add_alias. destruct (design_name_exists st a); [cbn [fst]; auto|].
  destruct (alias_exists_in_child_configs children a); [destruct (IH st G) as (A & B & C); split; [exact A|]; split; [exact B|]; intros H; inversion H; auto|].
  destruct (IH (with_cur (set_aliases (c_aliases (curdes st) ++ [a]) (curdes st)) st)) as (A & B & C); [eapply same_inv; [exact G|..]; reflexivity|].
  split; [exact A|]. split; [exact B|]. intros H K. inversion H; subst. apply C; [assumption|]. cbn. apply Forall_app. split; [exact K|]. constructor; [assumption|constructor].
Qed.
Lemma error_inv : forall st, Forall d_inv (b_designs st) -> c_inv (curdes st) -> s_inv (after_error st).
Proof.
  intros st A B. unfold after_error, s_inv. destruct (_ && _); cbn [b_designs curdes with_cur set_aliases c_aliases]; [split; [exact A|split; [exact inv0|constructor]]|].
  split; [exact A|]. split; [eapply same_inv; [exact B|..]; reflexivity|constructor].
Qed.
Lemma parent_inv : forall st f st', s_inv st -> action_parent_config U fopen_ok sur st f = Ok st' -> s_inv st'.
Proof.
  intros st f st' (A & B & C) E.
  assert (Er : forall x, s_inv (after_error (with_flags x (speeding st) st))) by (intros x; apply error_inv; assumption).
  assert (Ad : forall p, s_inv (add_parent st p)) by (intros p; unfold add_parent; destruct (existsb _ _); split; try split; assumption).
  unfold action_parent_config in E. destruct f as [b|]; [|injection E as <-; apply Er]. destruct (num_chars b =? 0); [injection E as <-; apply Er|].
  destruct (same_nocase _ _).
  - destruct (discover_config_file U sur true) as [[p|]| | | |]; try discriminate E; cbn [bind] in E; injection E as <-; [apply Ad|apply Er].
  - destruct (negb _); [injection E as <-; apply error_inv; assumption|]. destruct (fopen_ok _); injection E as <-; [apply Ad|apply Er].
Qed.
Lemma stmt_inv : forall st s r, simple_stmt s -> s_inv st -> do_stmt U beyond po eol children fopen_ok sur st s = Ok r -> match r with RC_SUCCESS st' | RC_ACCEPT st' => s_inv st' | _ => True end.
Proof.
  intros st s r H SI E. pose proof SI as (A & B & C). destruct s as [f|n al l e|al|]; cbn [do_stmt] in E.
  - destruct (filename_tok U f) as [b| | | |]; try discriminate E. cbn [bind] in E. destruct (action_parent_config _ _ _ _ _) as [st'| | | |] eqn:Ep; try discriminate E. cbn [bind] in E. injection E as <-.
    eapply parent_inv; eassumption.
  - destruct H as (Hn & Ha & Hl). destruct (aliases_inv al st B) as (D1 & B1 & C1). specialize (C1 Ha C). destruct (add_aliases children st al) as [st1 ok1]. cbn [fst] in *.
    assert (A1 : Forall d_inv (b_designs st1)) by (rewrite D1; exact A).
    destruct ok1; cbn [negb] in E; [|injection E as <-; apply error_inv; assumption]. destruct (action_start_parsing_design po st1 n) as [st2 ok2] eqn:E2.
    assert (S2 : b_designs st2 = b_designs st1 /\ curdes st2 = set_name (Some n) (curdes st1)) by (unfold action_start_parsing_design in E2; destruct (design_needed _ _); injection E2 as <- _; split; reflexivity).
    destruct S2 as [D2 U2]. assert (B2 : c_inv (curdes st2)) by (rewrite U2; eapply same_inv; [exact B1|..]; reflexivity). assert (A2 : Forall d_inv (b_designs st2)) by (rewrite D2; exact A1).
    destruct ok2; cbn [negb] in E; [|injection E as <-; apply error_inv; assumption]. destruct (is_nil l); [injection E as <-; apply error_inv; assumption|].
    destruct (do_items U beyond eol st2 l) as [x| | | |] eqn:Ex; try discriminate E. cbn [bind] in E. destruct x as [st3| | |st3].
    + pose proof (entries_inv _ _ _ _ Hl B2 Ex) as B3.
      assert (K : b_designs st3 = b_designs st2 /\ c_name (curdes st3) = c_name (curdes st2) /\ c_aliases (curdes st3) = c_aliases (curdes st2)) by (destruct (items_kept U beyond eol l st2 st3 Ex) as (K1 & K2 & K3 & _); auto).
      destruct K as (K1 & K2 & K3). assert (A3 : Forall d_inv (b_designs st3)) by (rewrite K1; exact A2). unfold action_add_design in E.
      destruct (negb _); [injection E as <-; apply error_inv; assumption|]. destruct (_ <? 3); [injection E as <-; apply error_inv; assumption|]. destruct (design_name_exists st3 n); [injection E as <-; apply error_inv; assumption|].
      assert (F : s_inv (mkPs (b_designs st3 ++ [curdes st3]) init_design 0 0 0 (skipping st3) (speeding st3) (b_parents st3))).
      { split; [|split; [exact inv0|constructor]]. cbn [b_designs]. apply Forall_app. split; [exact A3|]. constructor; [|constructor]. split; [exact B3|]. split.
        - exists n. split; [|exact Hn]. rewrite K2, U2. reflexivity.
        - rewrite K3, U2. exact C1. }
      destruct (full_parse_required po); injection E as <-; exact F.
    + injection E as <-. apply error_inv; assumption.
    + injection E as <-. exact I.
    + elim (do_items_accept U beyond eol l st2 st3 Ex).
  - injection E as <-. destruct (aliases_inv al st B) as (D1 & B1 & _). apply error_inv; [rewrite D1|]; assumption.
  - injection E as <-. apply error_inv; assumption.
Qed.
Lemma stmts_inv : forall l st r, Forall simple_stmt l -> s_inv st -> do_stmts U beyond po eol children fopen_ok sur st l = Ok r -> match r with RC_SUCCESS st' | RC_ACCEPT st' => s_inv st' | _ => True end.
Proof.
  induction l as [|s l IH]; intros st r H I0 E; cbn [do_stmts] in E; [injection E as <-; exact I0|]. inversion H; subst.
  destruct (do_stmt _ _ _ _ _ _ _ st s) as [x| | | |] eqn:Ex; try discriminate E. cbn [bind] in E. pose proof (stmt_inv _ _ _ ltac:(eassumption) I0 Ex) as K.
  destruct x as [st'| | |st']; [eapply IH; eassumption|injection E as <-; exact K..].
Qed.
Lemma parse_inv : forall l ds ps, Forall simple_stmt l -> parse_config_file U beyond po eol children fopen_ok sur (Some l) = Ok (ds, ps) -> Forall d_inv ds.
Proof.
  intros l ds ps H E. unfold parse_config_file in E. destruct (do_stmts _ _ _ _ _ _ _ pstate0 l) as [x| | | |] eqn:Ex; try discriminate E. cbn [bind] in E.
  assert (I0 : s_inv pstate0) by (split; [constructor|split; [exact inv0|constructor]]).
  pose proof (stmts_inv _ _ _ H I0 Ex) as K. destruct x as [st| | |st]; try (injection E as <- <-; constructor).
  - destruct (_ && _); injection E as <- <-; [constructor|apply K].
  - injection E as <- <-. apply K.
Qed.
Lemma inv_presentable : forall d, d_inv d -> presentable U d.
Proof.
  intros d ([A B C D F] & (n & Hn & _) & _). constructor.
  - exists n. exact Hn.
  - intros b [H|[H|H]]; apply lean_showable; [apply leanl_lean, A; auto|apply leanl_lean, A; auto|apply B; exact H].
  - eapply Forall_impl; [|exact C]. intros r [H1 H2]. split; apply lean_showable, leanl_lean; assumption.
  - intros i _ Hd. destruct (D i Hd) as [E G]. split; [exact E|]. eapply Forall_impl; [|exact G]. intros b Hb. pose proof (leanl_lean b Hb) as L. split; [apply lean_showable; exact L|]. split.
    + intros F9. destruct L as [L _]. rewrite Forall_forall in L. destruct (L _ F9) as [_ X]. congruence.
    + intros ts R. eapply lean_quotes; eassumption.
Qed.
Lemma inv_one_line : forall d, d_inv d -> c_aliases d <> [chars "none"] -> one_line d.
Proof.
  intros d ([A B C D F] & (n & Hn & Nn) & Hal) Hnone.
  assert (T : forall b, leanl b -> ~ In 10%N (memory b)) by (intros b [L _] X; unfold simple_text in L; rewrite Forall_forall in L; destruct (L _ X) as (_ & _ & Y); congruence).
  constructor; try assumption.
  - intros m Em. rewrite Hn in Em. injection Em as <-. exact Nn.
  - intros b H. apply T, A. exact H.
  - eapply Forall_impl; [|exact C]. intros r [H1 H2]. split; apply T; assumption.
  - intros i _ Hd. destruct (D i Hd) as [_ G]. eapply Forall_impl; [|exact G]. intros b. apply T.
Qed.
End Loaded.
