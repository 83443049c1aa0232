(** * Reading and loading designs with less work: the scanner on samples, designs of a file one by one *)
From Coq Require Import Ascii String List Arith NArith ZArith Bool Lia.
From Verif Require Import Base BaseFacts Model_Unicode Model_Bxs Model_Shape Spec_Str Spec_Design Model_Query Model_Discovery Model_Parser Model_Lexer Model_Scan Spec_Parser Spec_Grammar
  Proof_Str Proof_Bxs Proof_BxsOps Proof_Body Proof_Parser Proof_Parser2 Proof_Isolated Proof_Scan.
Import ListNotations.
Local Open Scope nat_scope.
Local Open Scope list_scope.

(** ** The scanner *)
Definition blank_tab (c : N) : bool := existsb (N.eqb c) [32; 9]%N.
Definition fast_ends (s : list N) : bool :=
  match s with
  | a :: b :: c :: e :: t =>
      if (N.eqb a 101 || N.eqb a 69) && same_nocase [a; b; c; e] [101; 110; 100; 115]%N then
        match snd (span (fun c => existsb (N.eqb c) [32; 9; 13]%N) t) with c :: _ => N.eqb c 10 | [] => false end
      else false
  | _ => false
  end.
Lemma fast_ends_ok : forall s, match ends_at s with Some _ => true | None => false end = fast_ends s.
Proof.
  intros s. unfold ends_at, fast_ends. destruct s as [|a [|b [|c [|e t]]]]; try reflexivity.
  replace (List.length (a :: b :: c :: e :: t) <? 4) with false by (symmetry; apply Nat.ltb_ge; cbn [List.length]; lia).
  cbn [firstn skipn]. change (Model_Discovery.lit "ends") with [101; 110; 100; 115]%N.
  assert (E : (N.eqb a 101 || N.eqb a 69) && same_nocase [a; b; c; e] [101; 110; 100; 115]%N = same_nocase [a; b; c; e] [101; 110; 100; 115]%N).
  { destruct (same_nocase [a; b; c; e] _) eqn:E; [|apply andb_false_r]. unfold same_nocase in E. cbn [strcasecmp] in E. rewrite andb_true_r.
    destruct (N.eqb_spec (lower a) (lower 101)) as [F|F]; [|destruct (_ <? _)%N in E; discriminate E]. clear E. change (lower 101) with 101%N in F. unfold lower in F.
    match type of F with context [if ?b then _ else _] => destruct b end; [|subst a; reflexivity]. assert (a = 69)%N by lia. subst a. reflexivity. }
  rewrite E. clear E. destruct (same_nocase _ _); [|reflexivity]. destruct (span _ t) as [x [|y r]]; cbn [snd]; [reflexivity|]. destruct (N.eqb y 10); reflexivity.
Qed.
(** the characters of a sample up to the line with ENDS; nothing if the letters ENDS stand at the end of another line *)
Fixpoint fast_sample (bol : bool) (racc : list N) (s : list N) : option (list N * list N) :=
  match s with
  | [] => None
  | c :: r =>
      if bol then
        let '(b, t) := span blank_tab s in
        if fast_ends t then Some (rev_append racc b, t)
        else if fast_ends s then None
        else fast_sample (N.eqb c 10) (if N.eqb c 10 && is_nil racc then [] else c :: racc) r
      else if fast_ends s then None
      else fast_sample (N.eqb c 10) (if N.eqb c 10 && is_nil racc then [] else c :: racc) r
  end.
Lemma fast_sample_runs : forall s bol racc d x t, fast_sample bol racc s = Some (x, t) ->
  runs (q_SAMPLE bol (rev racc)) d s [if is_nil (btrim x) then T_UNREC else T_STRING (btrim x)] (q_SAMPLE false []) d t.
Proof.
  induction s as [|c r IH]; intros bol racc d x t H; [discriminate H|]. cbn [fast_sample] in H.
  assert (G : (bol && fast_ends (snd (span blank_tab (c :: r)))) = false -> fast_ends (c :: r) = false ->
     fast_sample (N.eqb c 10) (if N.eqb c 10 && is_nil racc then [] else c :: racc) r = Some (x, t) ->
     runs (q_SAMPLE bol (rev racc)) d (c :: r) [if is_nil (btrim x) then T_UNREC else T_STRING (btrim x)] (q_SAMPLE false []) d t).
  { intros G1 G2 G3. change [if is_nil (btrim x) then T_UNREC else T_STRING (btrim x)] with ([] ++ [if is_nil (btrim x) then T_UNREC else T_STRING (btrim x)]).
    eapply r_step; [|apply IH; exact G3]. unfold step, step_sample. change (fun c0 : N => existsb (N.eqb c0) [32%N; 9%N]) with blank_tab. destruct (span blank_tab (c :: r)) as [b t1]. cbn [snd] in G1.
    rewrite (fast_ends_ok t1), G1. pose proof (fast_ends_ok (c :: r)) as E. rewrite G2 in E. destruct (ends_at (c :: r)); [discriminate E|].
    destruct (N.eqb c 10) eqn:Ec; cbn [andb].
    - destruct racc as [|y racc]; cbn [is_nil rev]; [reflexivity|]. destruct (rev racc ++ [y]) eqn:F; [destruct (rev racc); discriminate F|]. reflexivity.
    - cbn [rev]. reflexivity. }
  destruct bol.
  - destruct (span blank_tab (c :: r)) as [b t1] eqn:E. destruct (fast_ends t1) eqn:Et.
    + injection H as <- <-. rewrite <- (app_nil_r [if is_nil (btrim (rev_append racc b)) then T_UNREC else T_STRING (btrim (rev_append racc b))]).
      eapply r_step; [|apply r_refl]. unfold step, step_sample. change (fun c0 : N => existsb (N.eqb c0) [32%N; 9%N]) with blank_tab. rewrite E.
      rewrite (fast_ends_ok t1), Et. cbn [andb]. rewrite rev_append_rev. reflexivity.
    + destruct (fast_ends (c :: r)) eqn:E2; [discriminate H|]. apply G; [exact Et|reflexivity|exact H].
  - destruct (fast_ends (c :: r)) eqn:E2; [discriminate H|]. apply G; [reflexivity|reflexivity|exact H].
Qed.

Definition fast_samples (q : mode) (s : list N) : option (list token * list N) :=
  match q with q_SAMPLE true [] => match fast_sample true [] s with Some (x, t) => Some ([if is_nil (btrim x) then T_UNREC else T_STRING (btrim x)], t) | None => None end | _ => None end.
Fixpoint fast_scan (fuel : nat) (q : mode) (d : delims) (s : list N) : option (list token * mode) :=
  match s with
  | [] => Some ([], q)
  | c :: r =>
      match fuel with
      | O => None
      | S f =>
          match fast_samples q s with
          | Some (ts, t) => match fast_scan f (q_SAMPLE false []) d t with Some (ts', q') => Some (ts ++ ts', q') | None => None end
          | None => match step q d c r with
                    | Ok (ts, q1, d1, s1) => match fast_scan f q1 d1 s1 with Some (ts', q') => Some (ts ++ ts', q') | None => None end
                    | _ => None
                    end
          end
      end
  end.
Lemma fast_scan_runs : forall f q d s ts q', fast_scan f q d s = Some (ts, q') -> exists d', runs q d s ts q' d' [].
Proof.
  induction f as [|f IH]; intros q d s ts q' H; destruct s as [|c r]; cbn [fast_scan] in H.
  - injection H as <- <-. exists d. constructor.
  - discriminate H.
  - injection H as <- <-. exists d. constructor.
  - destruct (fast_samples q (c :: r)) as [[t0 s1]|] eqn:E.
    + destruct (fast_scan f (q_SAMPLE false []) d s1) as [[ts' q2]|] eqn:F; [|discriminate H]. injection H as <- <-. destruct (IH _ _ _ _ _ F) as (d' & R).
      exists d'. unfold fast_samples in E. destruct q as [| | | | | |[] [|]]; try discriminate E. destruct (fast_sample true [] (c :: r)) as [[x t]|] eqn:Fs; [|discriminate E].
      injection E as <- <-. eapply runs_app; [apply (fast_sample_runs (c :: r) true [] d x t Fs)|exact R].
    + destruct (step q d c r) as [[[[t0 q1] d1] s1]| | | |] eqn:S; try discriminate H.
      destruct (fast_scan f q1 d1 s1) as [[ts' q2]|] eqn:F; [|discriminate H]. injection H as <- <-. destruct (IH _ _ _ _ _ F) as (d' & R). exists d'. econstructor; eassumption.
Qed.
Lemma condition_runs : forall q d s ts q' d', runs q d s ts q' d' [] -> forall fuel, mu q s <= fuel -> condition_from fuel q d s = Ok q'.
Proof.
  intros q d s ts q' d' H. remember (@nil N) as e eqn:Ee. revert Ee. induction H as [|q d c r t q1 d1 s1 ts q2 d2 s2 E _ IH]; intros Ee fuel Hf.
  - subst. destruct fuel; reflexivity.
  - pose proof (step_mu _ _ _ _ _ _ _ _ E) as M. destruct fuel as [|f]; [unfold mu in *; cbn [List.length] in *; lia|].
    cbn [condition_from]. rewrite E. cbn [bind]. exact (IH Ee f ltac:(lia)).
Qed.
(** the only statement of a text, if there is just one and the scanner is where it started *)
Definition fast_statement (text : list N) : option stmt :=
  match fast_scan (S (List.length text)) q_INITIAL default_delims text with
  | Some (ts, q_INITIAL) => match statements ts with [s] => Some s | _ => None end
  | _ => None
  end.
Lemma fast_statement_ok : forall text s, fast_statement text = Some s ->
  exists ts, scan text = Ok ts /\ condition_after text = Ok q_INITIAL /\ statements ts = [s].
Proof.
  intros text s H. unfold fast_statement in H. destruct (fast_scan _ _ _ _) as [[ts q]|] eqn:E; [|discriminate H]. destruct q; try discriminate H.
  destruct (statements ts) as [|s0 [|]] eqn:Es; try discriminate H. injection H as <-. destruct (fast_scan_runs _ _ _ _ _ _ E) as (d' & R).
  exists ts. split; [apply (scan_runs _ _ _ _ _ _ R); unfold mu; lia|]. split; [apply (condition_runs _ _ _ _ _ _ R); unfold mu; lia|exact Es].
Qed.

(** ** Samples *)
Section Light.
Variable U : uctab.
Hypothesis HU : uctab_ok U.
Variable beyond : res sentry.

Definition okb (c : N) : bool := negb (N.eqb c 27) && negb (N.eqb c 9) && is_allowed_anywhere U c.
Lemma okb_ok : forall s, forallb okb s = true -> okt U s.
Proof.
  intros s H. rewrite forallb_forall in H. apply Forall_forall. intros c Hc. specialize (H c Hc). unfold okb in H. apply andb_true_iff in H as [H H3]. apply andb_true_iff in H as [H1 H2].
  apply negb_true_iff in H1, H2. apply N.eqb_neq in H1, H2. split; [exact H1|split; [exact H2|exact H3]].
Qed.
Definition shown_of (s : list N) : list N := adjust_eols [10%N] (first_nonblank_line U (List.length (s ++ [char_newline])) (s ++ [char_newline])).
Definition easy_sample (s : list N) : bool :=
  forallb okb (s ++ [char_newline]) && negb (is_nil s) && negb (is_blank U (last s 0%N)) && forallb okb (shown_of s) && negb (is_nil (shown_of s)).
Lemma easy_sample_ok : forall s, easy_sample s = true -> exists b X, sample_tok U s = Ok (Some b) /\
  forall st, c_sample (curdes st) = None -> action_sample_block U [10%N] st (Some b) =
    Ok (RC_SUCCESS (with_counts (S (num_mandatory st)) (time_for_se_check st) (num_shapespec st) (with_cur (set_sample (Some X) (curdes st)) st))).
Proof.
  intros s H. unfold easy_sample in H. apply andb_true_iff in H as [H E5]. apply andb_true_iff in H as [H E4]. apply andb_true_iff in H as [H E3]. apply andb_true_iff in H as [E1 E2].
  apply okb_ok in E4. apply okb_ok in E1. assert (E0 : okt U s) by (unfold okt in *; apply Forall_app in E1 as [E1 _]; exact E1).
  assert (T : sample_tok U s = Ok (Some (pl U (s ++ [char_newline])))).
  { unfold sample_tok, string_tok, utf8_to_bxs. rewrite (from_pl U HU s E0). cbn [bind].
    assert (R : bxs_rtrim U (pl U s) = Ok (pl U s)).
    { unfold bxs_rtrim. replace (trailing (pl U s)) with 0; [reflexivity|]. unfold pl. cbn [bx trailing]. rewrite visible_plain.
      destruct (all_blank U s); [reflexivity|]. destruct (exists_last (l := s)) as (a & c & ->); [intros ->; discriminate E2|].
      rewrite last_last in E3. apply negb_true_iff in E3. symmetry. rewrite trail_app. cbn. rewrite E3. reflexivity. }
    rewrite R. cbn [nullable bind]. unfold bxs_strcat. cbn [List.length Nat.eqb]. rewrite num_pl.
    destruct (Nat.eqb_spec (List.length s) 0) as [F|_]; [destruct s; [discriminate E2|discriminate F]|]. rewrite mem_pl, (from_pl U HU _ E1). reflexivity. }
  exists (pl U (s ++ [char_newline])), (pl U (shown_of s)). split; [exact T|]. intros st Hs. unfold action_sample_block. rewrite Hs, mem_pl.
  fold (shown_of s). unfold utf8_to_bxs. rewrite (from_pl U HU _ E4). cbn [bind]. rewrite num_pl.
  assert (L : 0 < List.length (shown_of s)) by (destruct (shown_of s); [discriminate E5|cbn [List.length]; lia]).
  destruct (Nat.eqb_spec (List.length (shown_of s)) 0); [lia|].
  assert (Vs : valid_in_sample U (pl U (shown_of s)) = true).
  { unfold valid_in_sample, valid_in_context. rewrite mem_pl. apply andb_true_iff. split.
    - apply Nat.ltb_lt. unfold pl. cbn [bx num_chars_visible]. rewrite visible_plain. exact L.
    - apply forallb_forall. intros c Hc. unfold okt in E4. rewrite Forall_forall in E4. apply (E4 c Hc). }
  rewrite Vs. reflexivity.
Qed.

(** as [do_item], but with a given text for a sample *)
Definition light_item (X : bxstr) (st : pstate) (i : item) : res (rc pstate) :=
  match i with
  | i_sample s =>
      if easy_sample s then
        match c_sample (curdes st) with
        | Some _ => Ok RC_ERROR
        | None => Ok (RC_SUCCESS (with_counts (S (num_mandatory st)) (time_for_se_check st) (num_shapespec st) (with_cur (set_sample (Some X) (curdes st)) st)))
        end
      else do_item U beyond [10%N] st i
  | _ => do_item U beyond [10%N] st i
  end.
Fixpoint light_items (X : bxstr) (st : pstate) (l : list item) : res (rc pstate) :=
  match l with [] => Ok (RC_SUCCESS st) | i :: r => then_ (light_item X st i) (fun st' => light_items X st' r) end.
Lemma light_same : forall X st i, c_sample (curdes st) <> None -> do_item U beyond [10%N] st i = light_item X st i.
Proof.
  intros X st i H. destruct i; try reflexivity. cbn [light_item]. destruct (easy_sample s) eqn:E; [|reflexivity]. cbn [do_item].
  destruct (easy_sample_ok s E) as (b & Y & -> & _). cbn [bind]. unfold action_sample_block. destruct (c_sample (curdes st)); [reflexivity|congruence].
Qed.
Lemma shapes_sample : forall l st st', shapes_list U st l = Ok (RC_SUCCESS st') -> c_sample (curdes st') = c_sample (curdes st).
Proof.
  induction l as [|[i d] l IH]; intros st st' H; cbn [shapes_list] in H; [injection H as <-; reflexivity|].
  apply then_ok in H as (s & _ & H2). destruct (isempty _); [|discriminate H2]. rewrite (IH _ _ H2). reflexivity.
Qed.
Lemma sample_stays : forall st i st', do_item U beyond [10%N] st i = Ok (RC_SUCCESS st') -> c_sample (curdes st) <> None -> c_sample (curdes st') <> None.
Proof.
  intros st i st' H N. destruct i as [k v|l|s|l|l|s r m|s r m|l| |]; cbn [do_item] in H.
  - destruct (string_tok U v) as [b| | | |]; cbn [bind] in H; try discriminate H. apply then_ok in H as (c & [H1|H1] & H2); [|elim (record_keyword_accept _ _ _ _ _ H1)].
    injection H2 as <-. cbn [with_cur curdes]. unfold action_record_keyword in H1. destruct (negb _); [discriminate H1|]. destruct b as [w|]; [|discriminate H1].
    destruct (same_nocase k _); [injection H1 as <-; exact N|]. destruct (same_nocase k _); [injection H1 as <-; exact N|]. destruct (same_nocase k _).
    { destruct (tag_record U _ _); cbn [bind] in H1; try discriminate H1. injection H1 as <-. exact N. }
    destruct (same_nocase k _); [|discriminate H1]. destruct (existsb _ _); [|discriminate H1]. injection H1 as <-. exact N.
  - destruct (tag_list U _ l) as [t| | | |]; cbn [bind] in H; try discriminate H. injection H as <-. exact N.
  - destruct (sample_tok U s) as [b| | | |]; cbn [bind] in H; try discriminate H. unfold action_sample_block in H. destruct (c_sample (curdes st)); [discriminate H|congruence].
  - apply then_ok in H as (st1 & [H1|H1] & H2).
    + assert (K : c_sample (curdes st') = c_sample (curdes st1)).
      { unfold action_finalize_shapes in H2. destruct (_ <? 1); [discriminate H2|]. apply then_ok in H2 as (sh' & _ & H2). destruct (negb _); [discriminate H2|].
        destruct (_ && _); [discriminate H2|]. injection H2 as <-. reflexivity. }
      rewrite K, (shapes_sample _ _ _ H1). exact N.
    + exfalso. clear -H1. revert st H1. induction l as [|[i d] l IH]; intros st H; cbn [shapes_list] in H; [discriminate H|].
      apply then_no_accept in H as (s & _ & H). destruct (isempty _); [exact (IH _ H)|discriminate H].
  - unfold action_elastic in H. destruct (_ && _); [discriminate H|]. injection H as <-. exact N.
  - destruct (string_tok U s) as [b| | | |]; cbn [bind] in H; try discriminate H. destruct (string_tok U r) as [b'| | | |]; cbn [bind] in H; try discriminate H.
    apply then_ok in H as (x & _ & H). injection H as <-. exact N.
  - destruct (string_tok U s) as [b| | | |]; cbn [bind] in H; try discriminate H. destruct (string_tok U r) as [b'| | | |]; cbn [bind] in H; try discriminate H.
    apply then_ok in H as (x & _ & H). injection H as <-. exact N.
  - injection H as <-. exact N.
  - injection H as <-. exact N.
  - discriminate H.
Qed.
Lemma light_after : forall X l st, c_sample (curdes st) <> None -> do_items U beyond [10%N] st l = light_items X st l.
Proof.
  intros X. induction l as [|i l IH]; intros st H; [reflexivity|]. cbn [do_items light_items]. rewrite <- (light_same X st i H).
  destruct (do_item U beyond [10%N] st i) as [[s| | |s]| | | |] eqn:E; try reflexivity; [|elim (do_item_accept _ _ _ _ _ _ E)]. cbn [then_ bind]. apply IH. eapply sample_stays; eassumption.
Qed.
Lemma light_ok : forall l st, exists X, do_items U beyond [10%N] st l = light_items X st l.
Proof.
  induction l as [|i l IH]; intros st; [exists bxs_new_empty_string; reflexivity|].
  assert (O : (forall X, do_item U beyond [10%N] st i = light_item X st i) -> exists X, do_items U beyond [10%N] st (i :: l) = light_items X st (i :: l)).
  { intros O. cbn [do_items light_items]. destruct (do_item U beyond [10%N] st i) as [[s| | |s]| | | |] eqn:E;
      [destruct (IH s) as (X & F); exists X; rewrite <- O; cbn [then_ bind]; exact F| | |elim (do_item_accept _ _ _ _ _ _ E)|..]; exists bxs_new_empty_string; rewrite <- O; reflexivity. }
  destruct i; try (apply O; reflexivity). destruct (easy_sample s) eqn:E; [|apply O; intros X; cbn [light_item]; rewrite E; reflexivity].
  destruct (c_sample (curdes st)) eqn:Ec; [apply O; intros X; apply light_same; congruence|].
  destruct (easy_sample_ok s E) as (b & X & Et & Ha). exists X. cbn [do_items light_items light_item do_item]. rewrite E, Ec, Et. cbn [bind]. rewrite (Ha st Ec). cbn [then_ bind].
  apply light_after. cbn [with_counts with_cur curdes]. destruct (curdes st). discriminate.
Qed.
End Light.

(** ** Designs with different names do not get into each other's way *)
(** none of the names of [s'] is one of [s] *)
Definition unrelated (s s' : stmt) : Prop := forall x y, In x (names_in s') -> In y (names_in s) -> same_nocase x y = false.
Section Together.
Variable U : uctab.
Variable beyond : res sentry.
Variable po : popts.
Hypothesis HF : full_parse_required po = true.
Variable eol : list N.
Variable children : list cdesign.
Variable fopen_ok : list N -> bool.
Variable sur : surroundings.
Notation do_stmt := (do_stmt U beyond po eol children fopen_ok sur).
Notation do_stmts := (do_stmts U beyond po eol children fopen_ok sur).
Notation parse_config_file := (parse_config_file U beyond po eol children fopen_ok sur).
Notation alone := (alone U beyond po eol children fopen_ok sur).

Definition clear (ds : list cdesign) (s : stmt) : Prop := forall d x, In d ds -> In x (names_in s) -> design_has_name d x = false.
Definition kept_aliases (al : list (list N)) : list (list N) := filter (fun a => negb (alias_exists_in_child_configs children a)) al.
Definition begun (n : list N) (al : list (list N)) : pstate := mkPs [] (set_name (Some n) (set_aliases al init_design)) 0 0 0 false false [].
Lemma aliases_clear : forall l st, (forall a, In a l -> design_name_exists st a = false) ->
  add_aliases children st l = (with_cur (set_aliases (c_aliases (curdes st) ++ kept_aliases l) (curdes st)) st, true).
Proof.
  induction l as [|a l IH]; intros st H; cbn [add_aliases kept_aliases filter].
  - rewrite app_nil_r. destruct st as [? c ? ? ? ? ? ?]. destruct c. reflexivity.
  - unfold action_add_alias. rewrite (H a (or_introl eq_refl)). destruct (alias_exists_in_child_configs children a); cbn [negb].
    + apply IH. intros b Hb. apply H. right. exact Hb.
    + rewrite IH by (intros b Hb; apply (H b); right; exact Hb). cbn [with_cur curdes set_aliases c_aliases]. rewrite <- app_assoc. reflexivity.
Qed.
Lemma exists_clear : forall st x, (forall d, In d (b_designs st) -> design_has_name d x = false) -> design_name_exists st x = false.
Proof.
  intros st x H. unfold design_name_exists. destruct (existsb _ (b_designs st)) eqn:E; [|reflexivity]. apply existsb_exists in E as (d & Hd & E). rewrite (H d Hd) in E. discriminate E.
Qed.
Definition finished (n fin : list N) (b st3 : pstate) : pstate :=
  if negb (same_nocase n fin) || (num_mandatory st3 <? 3) then after_error (put b st3)
  else mkPs (b_designs b ++ [curdes st3]) init_design 0 0 0 (skipping b) (speeding b) (b_parents b).
Lemma box_do : forall st n al layout fin, idle st -> clear (b_designs st) (s_box n al layout fin) -> layout <> [] ->
  do_stmt st (s_box n al layout fin) =
  (r <- do_items U beyond eol (begun n (kept_aliases al)) layout ;;
   match r with
   | RC_SUCCESS st3 => Ok (RC_SUCCESS (finished n fin (with_flags false false st) st3))
   | RC_ERROR => Ok (RC_SUCCESS (after_error (put (with_flags false false st) (begun n (kept_aliases al)))))
   | RC_ABORT => Ok RC_ABORT
   | RC_ACCEPT st3 => Ok (RC_ACCEPT (put (with_flags false false st) st3))
   end).
Proof.
  intros st n al layout fin I C Hne. destruct (idle_is st I) as [Ial Ist]. destruct I as (_ & I1 & I2 & I3). cbn [Model_Parser.do_stmt].
  rewrite aliases_clear by (intros a Ha; apply exists_clear; intros d Hd; apply (C d a Hd); right; exact Ha). cbn [negb].
  unfold action_start_parsing_design.
  set (b := with_flags false false st).
  assert (E : with_cur (set_name (Some n) (curdes (with_cur (set_aliases (c_aliases (curdes st) ++ kept_aliases al) (curdes st)) st)))
     (with_flags false false (with_cur (set_aliases (c_aliases (curdes st) ++ kept_aliases al) (curdes st)) st)) = put b (begun n (kept_aliases al))).
  { rewrite Ial. subst b. rewrite Ist. reflexivity. }
  rewrite E. assert (D : design_needed po (put b (begun n (kept_aliases al))) = true).
  { unfold design_needed. unfold full_parse_required in *. destruct (choice po); [discriminate HF|]. rewrite HF. reflexivity. }
  rewrite D. cbn [negb]. destruct (is_nil layout) eqn:El; [destruct layout; [congruence|discriminate El]|]. rewrite put_items.
  destruct (do_items U beyond eol (begun n (kept_aliases al)) layout) as [[st3| | |st3]| | | |] eqn:Ei; cbn [outmap rcmap bind]; try reflexivity.
  unfold action_add_design, finished. change (num_mandatory (put b st3)) with (num_mandatory st3). destruct (negb (same_nocase n fin)); [reflexivity|]. cbn [orb].
  destruct (num_mandatory st3 <? 3); [reflexivity|].
  rewrite (exists_clear (put b st3) n) by (intros d Hd; apply (C d n Hd); left; reflexivity). rewrite HF. reflexivity.
Qed.

(** the design that a statement makes *)
Definition own (s : stmt) : res (option cdesign) :=
  match s with
  | s_box n al layout fin =>
      if is_nil layout then Ok None
      else r <- do_items U beyond eol (begun n (kept_aliases al)) layout ;;
           match r with RC_SUCCESS st3 => Ok (if negb (same_nocase n fin) || (num_mandatory st3 <? 3) then None else Some (curdes st3)) | _ => Ok None end
  | _ => Ok None
  end.
Lemma own_do : forall st s d, idle st -> clear (b_designs st) s -> own s = Ok (Some d) ->
  exists st', do_stmt st s = Ok (RC_SUCCESS st') /\ idle st' /\ b_designs st' = b_designs st ++ [d] /\ b_parents st' = b_parents st.
Proof.
  intros st s d I C H. destruct s as [f|n al layout fin|al|]; try discriminate H. cbn [own] in H.
  destruct (is_nil layout) eqn:El; [discriminate H|]. rewrite box_do; [|exact I|exact C|intros ->; discriminate El].
  destruct (do_items U beyond eol (begun n (kept_aliases al)) layout) as [[st3| | |st3]| | | |]; cbn [bind] in H |- *; try discriminate H.
  unfold finished. destruct (_ || _); [discriminate H|]. injection H as <-. eexists. split; [reflexivity|]. split; [apply idle_init|]. split; reflexivity.
Qed.
Lemma own_ub : forall st s, idle st -> clear (b_designs st) s -> own s = UB -> do_stmt st s = UB.
Proof.
  intros st s I C H. destruct s as [f|n al layout fin|al|]; try discriminate H. cbn [own] in H.
  destruct (is_nil layout) eqn:El; [discriminate H|]. rewrite box_do; [|exact I|exact C|intros ->; discriminate El].
  destruct (do_items U beyond eol (begun n (kept_aliases al)) layout) as [[st3| | |st3]| | | |]; cbn [bind] in H |- *; try discriminate H; reflexivity.
Qed.
Lemma clear_nil : forall s, clear [] s.
Proof. intros s d x []. Qed.
Lemma own_alone : forall s d, own s = Ok (Some d) <-> alone s d.
Proof.
  intros s d. split; intros H.
  - destruct (own_do pstate0 s d (idle_init _ _ _ _) (clear_nil s) H) as (st' & E & _ & D & P). unfold Proof_Isolated.alone. cbn [Model_Parser.parse_config_file Model_Parser.do_stmts].
    rewrite E. cbn [bind]. rewrite D, P. cbn [pstate0 b_designs app is_nil andb]. reflexivity.
  - unfold Proof_Isolated.alone in H. cbn [Model_Parser.parse_config_file Model_Parser.do_stmts] in H. destruct (do_stmt pstate0 s) as [x| | | |] eqn:E; cbn [bind] in H; try discriminate H.
    pose proof (stmt_alone _ _ _ _ _ _ _ pstate0 s x (idle_init _ _ _ _) E) as J.
    assert (X : exists st', x = RC_SUCCESS st' /\ b_designs st' = [d] \/ x = RC_ACCEPT st').
    { destruct x as [st'| | |st']; cbn [bind] in H; [|discriminate H|discriminate H|exists st'; right; reflexivity].
      exists st'. left. split; [reflexivity|]. destruct (_ && _); [discriminate H|]. injection H as H1 H2. exact H1. }
    destruct X as (st' & [[-> D]| ->]).
    + destruct J as [_ [J|(d' & J & Ja & (n & al & l & e & -> & Hl & _))]]; [rewrite D in J; discriminate J|]. rewrite D in J. injection J as ->.
      rewrite box_do in E; [|apply idle_init|apply clear_nil|exact Hl]. cbn [own]. destruct (is_nil l) eqn:El; [destruct l; [congruence|discriminate El]|].
      destruct (do_items U beyond eol (begun n (kept_aliases al)) l) as [[st3| | |st3]| | | |]; cbn [bind] in E |- *; try discriminate E; injection E as <-.
      * unfold finished in D. destruct (_ || _); [|cbn in D; injection D as <-; reflexivity]. exfalso. unfold after_error in D. destruct (_ && _) in D; discriminate D.
      * exfalso. unfold after_error in D. destruct (_ && _) in D; discriminate D.
    + exfalso. destruct s as [f|n al l fin|al|]; cbn [Model_Parser.do_stmt] in E.
      * destruct (filename_tok U f) as [b| | | |]; cbn [bind] in E; try discriminate E. destruct (action_parent_config _ _ _ _ _); discriminate E.
      * destruct (add_aliases children pstate0 al) as [st1 []]; cbn [negb] in E; [|discriminate E]. destruct (action_start_parsing_design po st1 n) as [st2 []]; cbn [negb] in E; [|discriminate E].
        destruct (is_nil l); [discriminate E|]. destruct (do_items U beyond eol st2 l) as [[st3| | |st3]| | | |] eqn:Ei; cbn [bind] in E; try discriminate E; [|elim (do_items_accept _ _ _ _ _ _ Ei)].
        unfold action_add_design in E. destruct (negb _); [discriminate E|]. destruct (_ <? 3); [discriminate E|]. destruct (design_name_exists st3 n); [discriminate E|]. rewrite HF in E. discriminate E.
      * discriminate E.
      * discriminate E.
Qed.
Lemma alone_names : forall s d, alone s d -> forall x, In x (match c_name d with Some n => [n] | None => [] end ++ c_aliases d) -> In x (names_in s).
Proof.
  intros s d H x Hx. unfold Proof_Isolated.alone in H. destruct (designs_alone _ _ _ _ _ _ _ _ _ _ H) as (ss & Hs & F2).
  inversion F2 as [|s' d' ss' ds' [_ (n & al & l & e & -> & _ & _ & Hn & Ha)] F2']; subst. inversion F2'; subst.
  assert (E : s = s_box n al l e) by (inversion Hs as [|? ? ? Hs'|? ? ? Hs']; subst; [reflexivity|inversion Hs']).
  subst s. rewrite Hn in Hx. cbn [app names_in] in *. destruct Hx as [->|Hx]; [left; reflexivity|right; apply Ha; exact Hx].
Qed.
Lemma unrelated_clear : forall s d s', alone s d -> unrelated s s' -> forall x, In x (names_in s') -> design_has_name d x = false.
Proof.
  intros s d s' H R x Hx. pose proof (alone_names s d H) as A. unfold design_has_name, design_has_alias. apply orb_false_iff. split.
  - destruct (c_name d) as [n|]; [|reflexivity]. apply R; [exact Hx|]. apply A. left. reflexivity.
  - destruct (existsb _ _) eqn:E; [|reflexivity]. apply existsb_exists in E as (y & Hy & E). rewrite (R x y Hx) in E; [discriminate E|]. apply A. apply in_or_app. right. exact Hy.
Qed.
Lemma stmts_together : forall ss ds, Forall2 alone ss ds -> ForallOrdPairs unrelated ss -> forall st, idle st -> (forall s, In s ss -> clear (b_designs st) s) ->
  exists st', do_stmts st ss = Ok (RC_SUCCESS st') /\ idle st' /\ b_designs st' = b_designs st ++ ds /\ b_parents st' = b_parents st.
Proof.
  intros ss ds F. induction F as [|s d ss ds H F IH]; intros P st I C.
  - exists st. rewrite app_nil_r. repeat split; try reflexivity; apply I.
  - inversion P as [|? ? P1 P2]; subst. destruct (own_do st s d I (C s (or_introl eq_refl)) (proj2 (own_alone s d) H)) as (st1 & E & I1 & D1 & P3).
    destruct (IH P2 st1 I1) as (st' & E' & I' & D' & P').
    { intros s' Hs' d' x Hd Hx. rewrite D1 in Hd. apply in_app_iff in Hd as [Hd|[<-|[]]]; [exact (C s' (or_intror Hs') d' x Hd Hx)|].
      rewrite Forall_forall in P1. exact (unrelated_clear s d s' H (P1 s' Hs') x Hx). }
    exists st'. cbn [Model_Parser.do_stmts]. rewrite E. cbn [bind]. split; [exact E'|]. split; [exact I'|]. split; [rewrite D', D1, <- app_assoc; reflexivity|congruence].
Qed.
Theorem together : forall ss ds, Forall2 alone ss ds -> ForallOrdPairs unrelated ss -> parse_config_file (Some ss) = Ok (ds, []).
Proof.
  intros ss ds F P. destruct (stmts_together ss ds F P pstate0 (idle_init _ _ _ _)) as (st' & E & _ & D & Pa); [intros s _; apply clear_nil|].
  cbn [Model_Parser.parse_config_file]. rewrite E. cbn [bind]. rewrite D, Pa. cbn [pstate0 b_designs b_parents app]. destruct (is_nil ds && _) eqn:X; [|reflexivity].
  apply andb_true_iff in X as [X _]. destruct ds; [reflexivity|discriminate X].
Qed.
Theorem together_ub : forall ss ds s rest, Forall2 alone ss ds -> ForallOrdPairs unrelated (ss ++ s :: rest) -> own s = UB -> parse_config_file (Some (ss ++ s :: rest)) = UB.
Proof.
  intros ss ds s rest F P H.
  assert (Q : ForallOrdPairs unrelated ss /\ forall s0, In s0 ss -> unrelated s0 s).
  { clear -P. induction ss as [|s0 ss IH]; cbn [app] in P; [split; [constructor|intros ? []]|]. inversion P as [|? ? P1 P2]; subst. destruct (IH P2) as [A B].
    apply Forall_app in P1 as [P1 P1']. inversion P1' as [|? ? P3 _]; subst. split; [constructor; assumption|]. intros s1 [->|Hs]; [exact P3|exact (B s1 Hs)]. }
  destruct Q as [Q1 Q2]. destruct (stmts_together ss ds F Q1 pstate0 (idle_init _ _ _ _)) as (st' & E & I & D & Pa); [intros x _; apply clear_nil|].
  assert (A : forall l st, do_stmts st (l ++ s :: rest) = (x <- do_stmts st l ;; match x with RC_SUCCESS st1 => do_stmts st1 (s :: rest) | _ => Ok x end)).
  { induction l as [|a l IH]; intros st; [reflexivity|]. cbn [app Model_Parser.do_stmts]. destruct (do_stmt st a) as [[x| | |x]| | | |]; cbn [bind]; try reflexivity. apply IH. }
  cbn [Model_Parser.parse_config_file]. rewrite A, E. cbn [bind Model_Parser.do_stmts]. rewrite (own_ub st' s I).
  - reflexivity.
  - intros d x Hd Hx. rewrite D in Hd. cbn [pstate0 b_designs app] in Hd.
    assert (Y : exists s0, In s0 ss /\ alone s0 d). { clear -F Hd. induction F as [|a b l l' H F IH]; [destruct Hd|]. destruct Hd as [->|Hd]; [exists a; split; [left; reflexivity|exact H]|].
      destruct (IH Hd) as (s0 & A & B). exists s0. split; [right; exact A|exact B]. }
    destruct Y as (s0 & Hs0 & Ha). exact (unrelated_clear s0 d s Ha (Q2 s0 Hs0) x Hx).
  - exact H.
Qed.
End Together.
