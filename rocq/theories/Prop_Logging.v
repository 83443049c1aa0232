(** * C71: debug output *)
From Coq Require Import List Arith NArith Bool Lia.
From Verif Require Import Base BaseFacts Model_Cmdline Spec_Options Prop_Options Model_Logging Spec_Logging.
Import ListNotations.
Local Open Scope nat_scope.

Lemma strrchr_none : forall s c, ~ In c s -> strrchr s c = None.
Proof.
  induction s as [|x s IH]; intros c H; [reflexivity|]. cbn [strrchr]. rewrite IH; [|intros F; apply H; right; exact F].
  destruct (N.eqb_spec x c) as [->|_]; [elim H; left; reflexivity|reflexivity].
Qed.
Lemma strrchr_last : forall a b c, ~ In c b -> strrchr (a ++ c :: b) c = Some (length a).
Proof.
  induction a as [|x a IH]; intros b c H; cbn [app strrchr length]; [rewrite strrchr_none by exact H; rewrite N.eqb_refl; reflexivity|]. rewrite IH by exact H. reflexivity.
Qed.
Lemma last_split : forall (c : N) s, ~ In c s \/ exists a b, s = a ++ c :: b /\ ~ In c b.
Proof.
  intros c. induction s as [|x s [IH|(a & b & -> & H)]]; [left; intros []| |].
  - destruct (N.eq_dec x c) as [->|Hx]; [right; exists [], s; auto|]. left. intros [F|F]; contradiction.
  - right. exists (x :: a), b. auto.
Qed.
Lemma skip_part : forall (a : list N) c b, skipn (S (length a)) (a ++ c :: b) = b.
Proof. induction a as [|x a IH]; intros c b; [reflexivity|]. exact (IH c b). Qed.
Lemma last_full_stop : forall m base, ~ In 46%N base -> (exists pre, m = pre ++ base) -> forall e, strrchr m 46%N = Some e -> e < length m - length base.
Proof.
  intros m base H (pre & ->) e E. rewrite app_length. destruct (last_split 46%N pre) as [Hp|(a & b & -> & Hb)].
  - rewrite strrchr_none in E; [discriminate|]. intros F. apply in_app_iff in F. tauto.
  - rewrite <- app_assoc in E. cbn [app] in E. rewrite strrchr_last in E; [|intros F; apply in_app_iff in F; tauto]. injection E as <-. rewrite app_length. cbn [length]. lia.
Qed.
(** the parts of a path: what is skipped, and the name *)
Lemma shorten_from : forall m pre base st, m = pre ++ base -> stem_of base st ->
  match strrchr m full_stop with
  | Some e => if (length pre <? e) && (length pre <? length m) then firstn (e - length pre) (skipn (length pre) m) else skipn (length pre) m
  | None => skipn (length pre) m
  end = st.
Proof.
  intros m pre base st -> H. assert (K : skipn (length pre) (pre ++ base) = base) by (rewrite skipn_app, skipn_all, Nat.sub_diag; reflexivity). rewrite K. destruct H as [stem ext Hs He|ext He|name Hn].
  - rewrite app_assoc. unfold full_stop. rewrite strrchr_last by exact He. rewrite !app_length. cbn [length].
    assert (L : 0 < length stem) by (destruct stem; [congruence|cbn; lia]).
    replace (length pre <? length pre + length stem) with true by (symmetry; apply Nat.ltb_lt; lia). replace (length pre <? length pre + length stem + S (length ext)) with true by (symmetry; apply Nat.ltb_lt; lia). cbn [andb].
    replace (length pre + length stem - length pre) with (length stem) by lia. rewrite firstn_app, firstn_all, Nat.sub_diag. cbn [firstn]. apply app_nil_r.
  - unfold full_stop. rewrite strrchr_last by exact He. rewrite Nat.ltb_irrefl. reflexivity.
  - destruct (strrchr (pre ++ name) full_stop) as [e|] eqn:E; [|reflexivity]. apply (last_full_stop _ name Hn) in E; [|exists pre; reflexivity]. rewrite app_length in E.
    replace (length pre <? e) with false by (symmetry; apply Nat.ltb_ge; lia). reflexivity.
Qed.
(** ** The name of a module in the output is the name of its file, without directories and extension *)
Theorem C71_module : forall m, (exists base st, last_part m base /\ stem_of base st) /\
  forall base st, last_part m base -> stem_of base st -> shorten_module (Some m) = st.
Proof.
  intros m. split.
  - assert (B : exists base, last_part m base).
    { destruct (last_split 47%N m) as [H|(a & b & -> & H)]; [|exists b; constructor; exact H].
      destruct (last_split 92%N m) as [H2|(a & b & -> & H2)]; [exists m; constructor; assumption|]. exists b. constructor; [| |exact H2]; intros F; apply H; apply in_app_iff; [left; exact F|right; right; exact F]. }
    destruct B as (base & B). exists base. destruct (last_split 46%N base) as [H|(a & b & E & H)]; [exists base; split; [exact B|constructor; exact H]|].
    destruct a as [|x a]; [exists base|exists (x :: a)]; (split; [exact B|rewrite E]); [constructor; exact H|constructor; [discriminate|exact H]].
  - intros base st B St. unfold shorten_module. destruct B as [dir base H|dir base H1 H2 H3|base H1 H2].
    + unfold slash. rewrite strrchr_last by exact H. replace (S (length dir)) with (length (dir ++ [47%N])) by (rewrite app_length; cbn; lia).
      apply (shorten_from _ (dir ++ [47%N]) base st); [rewrite <- app_assoc; reflexivity|exact St].
    + unfold slash, backslash. rewrite (strrchr_none (dir ++ 92%N :: base) 47%N) by (intros F; apply in_app_iff in F as [F|[F|F]]; [contradiction|discriminate F|contradiction]). rewrite strrchr_last by exact H3.
      replace (S (length dir)) with (length (dir ++ [92%N])) by (rewrite app_length; cbn; lia). apply (shorten_from _ (dir ++ [92%N]) base st); [rewrite <- app_assoc; reflexivity|exact St].
    + unfold slash, backslash. rewrite (strrchr_none base 47%N H1), (strrchr_none base 92%N H2). exact (shorten_from base [] base st eq_refl St).
Qed.
Lemma five : forall l : list bool, length l = 5 -> exists a b c d e, l = [a; b; c; d; e].
Proof. intros [|a [|b [|c [|d [|e [|f r]]]]]] H; try discriminate H. exists a, b, c, d, e. reflexivity. Qed.
(** ** What is written, and when *)
(** The areas named with -x on the command line write their messages, no others do; messages of 1023 bytes at most are written as they
    are, behind the name of the module in a column of nine. Without -x debug nothing is ever written, however long the message. *)
Theorem C71_areas : forall items g a k, meant items g -> area_place a = Some k -> let lg := activate_debug_logging (Some (m_debug (g_mode g))) in
  (exists on, is_debug_logging lg a = Ok on /\ (on = true <-> exists arg, In (ItX arg) items /\ logs arg k)) /\
  (forall module msg, (exists arg, In (ItX arg) items /\ logs arg k) -> length msg < 1024 ->
     exists col, nine (shorten_module module) col /\ log_debug lg module a msg = Ok (91%N :: col ++ [93; 32]%N ++ msg)) /\
  (forall module msg, ~ (exists arg, In (ItX arg) items /\ logs arg k) -> log_debug lg module a msg = Ok []).
Proof.
  intros items g a k M Ha lg. destruct (mt_debug _ _ M) as [L D].
  assert (Hk : k < 5) by (destruct a; try discriminate Ha; injection Ha as <-; lia).
  assert (E : exists on, is_debug_logging lg a = Ok on /\ nth_error (m_debug (g_mode g)) k = Some on).
  { unfold lg, activate_debug_logging. destruct (five _ L) as (b0 & b1 & b2 & b3 & b4 & ->). destruct a; try discriminate Ha; injection Ha as <-; eexists; split; reflexivity. }
  destruct E as (on & E & N). assert (B : on = true <-> exists arg, In (ItX arg) items /\ logs arg k).
  { split; [intros ->; apply D in N as [_ N]; exact N|]. intros F. assert (K : nth_error (m_debug (g_mode g)) k = Some true) by (apply D; auto). congruence. }
  split; [exists on; auto|]. split; intros module msg.
  - intros F Hl. apply B in F as ->. exists (pad9 (shorten_module module)). split.
    + unfold pad9, nine. exists (9 - length (shorten_module module)). split; [reflexivity|]. split; [intros Hs; rewrite app_length, repeat_length; lia|lia].
    + unfold log_debug, vsprintf. rewrite E. cbn [bind]. apply Nat.ltb_lt in Hl. rewrite Hl. reflexivity.
  - intros F. assert (on = false) as -> by (destruct on; [elim F; apply B; reflexivity|reflexivity]). unfold log_debug. rewrite E. reflexivity.
Qed.
Theorem C71_quiet : forall a module msg, log_debug no_logger module a msg = Ok [] /\ log_debug_cont no_logger a msg = Ok [] /\
  log_debug (activate_debug_logging None) module a msg = Ok [] /\ log_debug_cont (activate_debug_logging None) a msg = Ok [].
Proof. intros a module msg. repeat split. Qed.
(** ** A message of 1024 bytes or more is written behind the end of its buffer *)
Theorem C71_long_refuted : exists lg, lg = activate_debug_logging (Some [false; true; false; false; false]) /\
  forall newtext, (length newtext <= 1020 -> log_replaced lg newtext = Ok (34%N :: newtext ++ [34; 10]%N)) /\ (1021 <= length newtext -> log_replaced lg newtext = UB).
Proof.
  eexists. split; [reflexivity|]. intros t. unfold log_replaced, log_debug_cont, vsprintf. cbn [activate_debug_logging is_debug_logging debug_logging_active is_area_active areas_active firstn NUM_LOG_AREAS area_number bind].
  change (true && negb (3 =? 0) && (3 <? 5 + 2)) with true. cbn [rd nth_error bind Nat.sub]. cbn [length]. rewrite app_length. cbn [length].
  split; intros H; [replace (S (length t + 2) <? 1024) with true by (symmetry; apply Nat.ltb_lt; lia)|replace (S (length t + 2) <? 1024) with false by (symmetry; apply Nat.ltb_ge; lia)]; reflexivity.
Qed.
Print Assumptions C71_module.
Print Assumptions C71_areas.
Print Assumptions C71_quiet.
Print Assumptions C71_long_refuted.

(** *** Examples *)
From Coq Require Import Ascii String.
From Verif Require Import Demo Model_Program Spec_Program Prop_Program.
Example C71_module_example : last_part (txt "src/tools/regulex.c") (txt "regulex.c") /\ stem_of (txt "regulex.c") (txt "regulex") /\
  shorten_module (Some (txt "src/tools/regulex.c")) = txt "regulex" /\ shorten_module (Some (txt "a.b\.x")) = txt ".x" /\ shorten_module (Some (txt "a.b/c")) = txt "c" /\
  shorten_module (Some (txt "src\x.y/")) = [].
Proof.
  split; [apply (lp_slash (txt "src/tools") (txt "regulex.c")); vm_compute; intuition discriminate|].
  split; [apply (st_extension (txt "regulex") (txt "c")); [discriminate|vm_compute; intuition discriminate]|]. repeat split.
Qed.
Example C71_areas_example : let items := [ItX (txt "debug:regexp, lexer")] in
  meant items (meaning items) /\
  log_debug (activate_debug_logging (Some (m_debug (g_mode (meaning items))))) (Some (txt "src/input.c")) REGEXP (txt "hello") = Ok (txt "[input    ] hello") /\
  log_debug (activate_debug_logging (Some (m_debug (g_mode (meaning items))))) (Some (txt "src/input.c")) MAIN (repeat 65%N 2000) = Ok [].
Proof. intros items. split; [apply meaning_ok; vm_compute; reflexivity|]. split; vm_compute; reflexivity. Qed.
