(** * Lemmas: what is found behind the end of the shape array does not matter as long as it looks like an empty shape *)
From Coq Require Import Ascii String List Arith NArith ZArith Bool Lia.
From Verif Require Import Base BaseFacts Model_Unicode Model_Bxs Model_Shape Model_Query Model_Discovery Model_Parser Model_Scan.
Import ListNotations.
Local Open Scope nat_scope.
Local Open Scope list_scope.

Section Beyond.
Variable U : uctab.
Variables x y : sentry.
Hypothesis Hx : isempty x = true.
Hypothesis Hy : isempty y = true.

Lemma find_beyond : forall k sh a i, findshape (Ok x) sh a i k = findshape (Ok y) sh a i k.
Proof.
  induction k as [|k IH]; intros sh a i; [reflexivity|]. cbn [findshape]. unfold Model_Parser.shape_at. destruct (a + i <? 16); cbn [bind].
  - destruct (isempty (sh (a + i))); [apply IH|reflexivity].
  - rewrite Hx, Hy. apply IH.
Qed.
Lemma find_inside : forall k sh a i n, findshape (Ok x) sh a i k = Ok n -> n = i + k \/ a + n < 16.
Proof.
  induction k as [|k IH]; intros sh a i n H; cbn [findshape] in H; [injection H as <-; left; lia|].
  unfold Model_Parser.shape_at in H. destruct (Nat.ltb_spec (a + i) 16) as [L|L]; cbn [bind] in H.
  - destruct (isempty (sh (a + i))); [|injection H as <-; auto]. destruct (IH _ _ _ _ H) as [->|?]; [left; lia|auto].
  - rewrite Hx in H. destruct (IH _ _ _ _ H) as [->|?]; [left; lia|auto].
Qed.
Lemma corners_beyond : forall l sh f, make_corners U (Ok x) sh f l = make_corners U (Ok y) sh f l.
Proof.
  induction l as [|side l IH]; intros sh f; [reflexivity|]. cbn [make_corners]. destruct (isempty (sh (corner_of side))); [|apply IH].
  rewrite <- find_beyond. destruct (findshape (Ok x) sh (corner_of side) 0 5) as [n| | | |] eqn:E; cbn [bind]; [|reflexivity..].
  assert (X : (if n =? 5 then Ok None else s <- Model_Parser.shape_at (Ok x) sh (corner_of side + n) ;; Ok (Some s)) =
              (if n =? 5 then Ok None else s <- Model_Parser.shape_at (Ok y) sh (corner_of side + n) ;; Ok (Some s))).
  { destruct (Nat.eqb_spec n 5) as [|N5]; [reflexivity|]. destruct (find_inside _ _ _ _ _ E) as [F|F]; [cbn in F; congruence|].
    unfold Model_Parser.shape_at. apply Nat.ltb_lt in F. rewrite F. reflexivity. }
  rewrite X. clear X. match goal with |- bind ?e _ = bind ?e _ => destruct e as [next| | | |] end; cbn [bind]; [|reflexivity..]. destruct (corner_size sh side f next) as [w h].
  destruct (genshape U w h) as [[cs ms]| | | |]; [|reflexivity..]. apply IH.
Qed.
Lemma complete_beyond : forall sh, complete_shapes U (Ok x) sh = complete_shapes U (Ok y) sh.
Proof.
  intros sh. unfold complete_shapes. rewrite find_beyond. destruct (findshape (Ok y) sh 0 0 16); cbn [bind]; [|reflexivity..].
  destruct (_ =? 16); [reflexivity|]. destruct (on_side a); [|reflexivity]. rewrite corners_beyond. reflexivity.
Qed.
Variable po : popts.
Variable eol : list N.
Variable children : list cdesign.
Variable fopen_ok : list N -> bool.
Variable sur : surroundings.
Lemma item_beyond : forall st i, do_item U (Ok x) eol st i = do_item U (Ok y) eol st i.
Proof.
  intros st i. destruct i; [reflexivity|reflexivity|reflexivity| |reflexivity..]. cbn [do_item]. destruct (shapes_list U st l) as [r| | | |]; [|reflexivity..]. unfold then_. cbn [bind].
  assert (X : forall st, action_finalize_shapes U (Ok x) st = action_finalize_shapes U (Ok y) st) by (intros s; unfold action_finalize_shapes; rewrite complete_beyond; reflexivity).
  destruct r; [apply X|reflexivity|reflexivity|apply X].
Qed.
Lemma items_beyond : forall l st, do_items U (Ok x) eol st l = do_items U (Ok y) eol st l.
Proof.
  induction l as [|i l IH]; intros st; [reflexivity|]. cbn [do_items]. rewrite item_beyond. unfold then_.
  destruct (do_item U (Ok y) eol st i) as [r| | | |]; cbn [bind]; [|reflexivity..]. destruct r; [apply IH|reflexivity|reflexivity|apply IH].
Qed.
Lemma stmt_beyond : forall st s, do_stmt U (Ok x) po eol children fopen_ok sur st s = do_stmt U (Ok y) po eol children fopen_ok sur st s.
Proof.
  intros st s. destruct s; [reflexivity| |reflexivity..]. cbn [do_stmt]. destruct (add_aliases children st aliases) as [st1 ok1]. destruct (negb ok1); [reflexivity|].
  destruct (action_start_parsing_design po st1 name) as [st2 ok2]. destruct (negb ok2); [reflexivity|]. destruct (is_nil layout); [reflexivity|].
  rewrite items_beyond. reflexivity.
Qed.
Lemma stmts_beyond : forall l st, do_stmts U (Ok x) po eol children fopen_ok sur st l = do_stmts U (Ok y) po eol children fopen_ok sur st l.
Proof.
  induction l as [|s l IH]; intros st; [reflexivity|]. cbn [do_stmts]. rewrite stmt_beyond.
  destruct (do_stmt U (Ok y) po eol children fopen_ok sur st s) as [r| | | |]; cbn [bind]; [|reflexivity..]. destruct r; [apply IH|reflexivity..].
Qed.
Theorem parse_beyond : forall c, parse_config_text U (Ok x) po eol children fopen_ok sur c = parse_config_text U (Ok y) po eol children fopen_ok sur c.
Proof.
  intros [t|]; cbn [parse_config_text]; [|reflexivity]. destruct (read_statements t) as [l| | | |]; cbn [bind]; [|reflexivity..].
  unfold parse_config_file. rewrite stmts_beyond. reflexivity.
Qed.
End Beyond.
