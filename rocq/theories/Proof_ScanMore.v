(** * The scanner: texts one after the other, which tokens follow which, and when it fails *)
From Coq Require Import Ascii String List Arith NArith ZArith Bool Lia.
From Verif Require Import Base Model_Unicode Model_Bxs Model_Shape Model_Regex Model_Query Model_Discovery Model_Parser Model_Lexer Spec_Lexer Prop_Lexer Model_Scan Spec_Config Proof_Scan Proof_Recover.
Import ListNotations.
Local Open Scope nat_scope.
Local Open Scope list_scope.

(** ** a text that ends with a line feed is scanned the same way whatever follows it *)
Definition ends (s : list N) : Prop := exists u, s = u ++ [10%N].
Lemma ends_tl : forall c r, ends (c :: r) -> c = 10%N /\ r = [] \/ ends r.
Proof. intros c r ([|x u] & E); cbn in E; injection E as -> ->; [left; auto|right; exists u; reflexivity]. Qed.
Lemma ends_app : forall a b, ends (a ++ b) -> b = [] \/ ends b.
Proof.
  intros a b (u & E). destruct b as [|c b]; [left; reflexivity|]. right. assert (N : c :: b <> []) by discriminate.
  destruct (exists_last N) as (v & x & F). rewrite F in *. rewrite app_assoc in E. apply app_inj_tail in E as [_ ->]. exists v. reflexivity.
Qed.
Lemma ends_in : forall s, ends s -> In 10%N s.
Proof. intros s (u & ->). apply in_or_app. right. left. reflexivity. Qed.
Lemma ends_ne : forall s, ends s -> s <> [].
Proof. intros s ([|] & ->); discriminate. Qed.
Lemma span_local : forall f s y a b, f 10%N = false -> ends s -> span f s = (a, b) -> ends b /\ span f (s ++ y) = (a, b ++ y).
Proof.
  intros f s y a b Hf Hs H. destruct (span_spec _ _ _ _ H) as (-> & Ha & Hb).
  assert (Eb : ends b).
  { destruct (ends_app a b Hs) as [->|E]; [|exact E]. exfalso. rewrite app_nil_r in Hs. apply ends_in in Hs.
    apply (proj1 (forallb_forall _ _) Ha) in Hs. congruence. }
  split; [exact Eb|]. rewrite <- app_assoc. apply span_app; [exact Ha|]. destruct b as [|c b]; [destruct (ends_ne _ Eb eq_refl)|exact Hb].
Qed.
Lemma firstn_local : forall (k : nat) (s y : list N), k <= List.length s -> firstn k (s ++ y) = firstn k s /\ skipn k (s ++ y) = skipn k s ++ y.
Proof.
  intros k s y H. rewrite firstn_app, skipn_app. replace (k - List.length s) with 0 by lia. cbn. rewrite app_nil_r. split; reflexivity.
Qed.
Lemma firstn_past : forall (k : nat) (s y : list N), ends s -> List.length s < k -> In 10%N (firstn k (s ++ y)).
Proof. intros k s y Hs H. rewrite firstn_app, firstn_all2 by lia. apply in_or_app. left. apply ends_in. exact Hs. Qed.
Lemma skipn_ends : forall k s, ends s -> skipn k s = [] \/ ends (skipn k s).
Proof. intros k s H. apply (ends_app (firstn k s)). rewrite firstn_skipn. exact H. Qed.
Lemma ends_at_local : forall s y, ends s -> match ends_at s with Some r => ends r /\ ends_at (s ++ y) = Some (r ++ y) | None => ends_at (s ++ y) = None end.
Proof.
  intros s y Hs. unfold ends_at. rewrite app_length. destruct (List.length s <? 4) eqn:L.
  - apply Nat.ltb_lt in L. destruct (List.length s + List.length y <? 4); [reflexivity|].
    destruct (same_nocase (firstn 4 (s ++ y)) (lit "ends")) eqn:E; [|reflexivity]. exfalso.
    apply same_spells in E; [|reflexivity]. pose proof (firstn_past 4 s y Hs L) as F. unfold spells in E. apply (in_map Spec_Config.lower) in F.
    rewrite E in F. cbn in F. intuition discriminate.
  - apply Nat.ltb_ge in L. replace (List.length s + List.length y <? 4) with false by (symmetry; apply Nat.ltb_ge; lia).
    destruct (firstn_local 4 s y L) as [-> ->]. destruct (same_nocase (firstn 4 s) (lit "ends")) eqn:E; [|reflexivity].
    assert (Sk : ends (skipn 4 s)).
    { destruct (skipn_ends 4 s Hs) as [F|F]; [|exact F]. exfalso. assert (Es : firstn 4 s = s) by (rewrite <- (firstn_skipn 4 s) at 2; rewrite F, app_nil_r; reflexivity).
      apply same_spells in E; [|reflexivity]. rewrite Es in E. unfold spells in E. apply ends_in in Hs. apply (in_map Spec_Config.lower) in Hs. rewrite E in Hs. cbn in Hs. intuition discriminate. }
    destruct (span (fun c => existsb (N.eqb c) [32; 9; 13]%N) (skipn 4 s)) as [a b] eqn:Sp.
    destruct (span_local _ _ y _ _ eq_refl Sk Sp) as [Eb ->]. destruct b as [|c b]; [destruct (ends_ne _ Eb eq_refl)|]. cbn [app].
    destruct (N.eqb c 10); [|reflexivity]. split; [exact Eb|reflexivity].
Qed.
Lemma shape_at_local : forall s y, ends s -> forall k, match shape_at k s with Some (i, r) => (r = [] \/ ends r) /\ shape_at k (s ++ y) = Some (i, r ++ y) | None => shape_at k (s ++ y) = None end.
Proof.
  intros s y Hs. induction k as [|k IH]; [reflexivity|]. rewrite !shape_at_S, app_length. destruct (List.length s <? S k) eqn:L.
  - apply Nat.ltb_lt in L. destruct (List.length s + List.length y <? S k); [exact IH|].
    rewrite (shape_nonletter (firstn (S k) (s ++ y))); [exact IH|]. apply Exists_exists. exists 10%N. split; [apply firstn_past; assumption|reflexivity].
  - apply Nat.ltb_ge in L. replace (List.length s + List.length y <? S k) with false by (symmetry; apply Nat.ltb_ge; lia).
    destruct (firstn_local (S k) s y L) as [-> ->]. destruct (index_of (firstn (S k) s) shape_spellings 0); [|exact IH].
    split; [apply skipn_ends; exact Hs|reflexivity].
Qed.
Lemma up_to_newline_local : forall s y, In 10%N s -> up_to_newline (s ++ y) = up_to_newline s /\ exists l, up_to_newline s = Some l /\ List.length l < List.length s.
Proof.
  induction s as [|c s IH]; intros y H; [destruct H|]. cbn. destruct (N.eqb_spec c 10) as [->|Hc]; [split; [reflexivity|exists []; cbn; split; [reflexivity|lia]]|].
  destruct H as [->|H]; [congruence|]. destruct (IH y H) as (-> & l & -> & L). split; [reflexivity|]. exists (c :: l). split; [reflexivity|cbn; lia].
Qed.
Lemma lex_string_local : forall d s y, ends s -> forall x, lex_string d s = Ok x ->
  match x with Reject => lex_string d (s ++ y) = Ok Reject
             | STRING v r => (r = [] \/ ends r) /\ lex_string d (s ++ y) = Ok (STRING v (r ++ y))
             | YUNREC r => (r = [] \/ ends r) /\ lex_string d (s ++ y) = Ok (YUNREC (r ++ y)) end.
Proof.
  intros d s y Hs x H. destruct (up_to_newline_local s y (ends_in _ Hs)) as (U & l & Ul & L).
  destruct s as [|c s]; [destruct (ends_ne _ Hs eq_refl)|]. cbn [app] in *.
  unfold lex_string in *. rewrite U, Ul in *. destruct (negb (existsb (N.eqb c) LEX_SDELIM)); [injection H as <-; reflexivity|].
  destruct (negb (N.eqb c (sdel d))); [injection H as <-; reflexivity|].
  destruct (string_loop _ _ _ _ _ _) as [[v u|]| | | |]; try discriminate H; cbn [bind] in *.
  - destruct (List.length l <? u) eqn:Lu; [discriminate|]. injection H as <-. apply Nat.ltb_ge in Lu.
    split; [apply skipn_ends; exact Hs|]. change (c :: s ++ y) with ((c :: s) ++ y). destruct (firstn_local u (c :: s) y ltac:(lia)) as [_ ->]. reflexivity.
  - injection H as <-. split; [apply skipn_ends; exact Hs|]. change (c :: s ++ y) with ((c :: s) ++ y). destruct (firstn_local (List.length l) (c :: s) y ltac:(lia)) as [_ ->]. reflexivity.
Qed.
Definition same_step (y : list N) (x x' : list token * mode * delims * list N) : Prop :=
  let '(t, q, d, s) := x in (s = [] \/ ends s) /\ x' = (t, q, d, s ++ y).
Lemma other_local : forall q d c r y, ends (c :: r) -> same_step y (step_other q d c r) (step_other q d c (r ++ y)).
Proof.
  intros q d c r y H. unfold step_other. destruct (ends_tl _ _ H) as [[-> ->]|Hr]; [split; [left; reflexivity|reflexivity]|].
  destruct (N.eqb c 35).
  - destruct (up_to_newline_local r y (ends_in _ Hr)) as (-> & l & -> & L). split; [apply skipn_ends; exact Hr|].
    destruct (firstn_local (List.length l) r y ltac:(lia)) as [_ ->]. reflexivity.
  - split; [right; exact Hr|reflexivity].
Qed.
Lemma word_local : forall q d c r y, ends (c :: r) -> same_step y (step_word q d c r) (step_word q d c (r ++ y)).
Proof.
  intros q d c r y H. unfold step_word. change (c :: r ++ y) with ((c :: r) ++ y).
  destruct (span word_char (c :: r)) as [w s] eqn:E. destruct (span_local _ _ y _ _ eq_refl H E) as [Es ->].
  destruct (Neq_list w [bom]); [split; [right; exact Es|reflexivity]|]. destruct (forallb is_ascii w); [|split; [right; exact Es|reflexivity]].
  destruct (match q with q_INITIAL => _ | _ => _ end) as [[t q'] d']. split; [right; exact Es|reflexivity].
Qed.
Lemma string_local : forall q d c r y x, ends (c :: r) -> step_string q d c r = Ok x -> exists x', step_string q d c (r ++ y) = Ok x' /\ same_step y x x'.
Proof.
  intros q d c r y x H E. unfold step_string in *. destruct (lex_string d (c :: r)) as [l| | | |] eqn:El; try discriminate. cbn [bind] in E.
  pose proof (lex_string_local d (c :: r) y H l El) as K. change ((c :: r) ++ y) with (c :: r ++ y) in K. destruct l as [|v s|s].
  - rewrite K. cbn [bind]. eexists. split; [reflexivity|]. injection E as <-. apply other_local. exact H.
  - destruct K as [K1 ->]. cbn [bind]. eexists. split; [reflexivity|]. injection E as <-. split; [exact K1|reflexivity].
  - destruct K as [K1 ->]. cbn [bind]. eexists. split; [reflexivity|]. injection E as <-. split; [exact K1|reflexivity].
Qed.
Lemma step_local : forall q d c r y x, ends (c :: r) -> step q d c r = Ok x -> exists x', step q d c (r ++ y) = Ok x' /\ same_step y x x'.
Proof.
  intros q d c r y x H E.
  assert (Tl : r = [] \/ ends r) by (destruct (ends_tl _ _ H) as [[_ ->]|F]; tauto).
  destruct q as [| | | | | |bol acc]; cbn [step] in *.
  - destruct (is_white c) eqn:W; [eexists; split; [reflexivity|]; injection E as <-; split; [exact Tl|reflexivity]|].
    destruct (word_start c); eexists; (split; [reflexivity|]); injection E as <-; [apply word_local|apply other_local]; exact H.
  - destruct (is_white c) eqn:W; [eexists; split; [reflexivity|]; injection E as <-; split; [exact Tl|reflexivity]|].
    destruct (word_start c); [eexists; (split; [reflexivity|]); injection E as <-; apply word_local; exact H|].
    destruct (is_digit c || _ || _).
    + assert (Hr : ends r) by (destruct (ends_tl _ _ H) as [[-> _]|F]; [discriminate W|exact F]).
      unfold step_number in *.
      destruct (N.eqb c 43 || N.eqb c 45).
      * destruct (span is_digit r) as [ds s] eqn:Sp. destruct (span_local _ _ y _ _ eq_refl Hr Sp) as [Es ->].
        destruct (is_nil ds); [eexists; split; [reflexivity|]; injection E as <-; apply other_local; exact H|].
        destruct (atoi _ _) as [z| | | |]; try discriminate. cbn [bind] in *. eexists. split; [reflexivity|]. injection E as <-. split; [right; exact Es|reflexivity].
      * change (c :: r ++ y) with ((c :: r) ++ y). destruct (span is_digit (c :: r)) as [ds s] eqn:Sp. destruct (span_local _ _ y _ _ eq_refl H Sp) as [Es ->].
        destruct (is_nil ds); [eexists; split; [reflexivity|]; injection E as <-; apply other_local; exact H|].
        destruct (atoi _ _) as [z| | | |]; try discriminate. cbn [bind] in *. eexists. split; [reflexivity|]. injection E as <-. split; [right; exact Es|reflexivity].
    + destruct (symbol c); [eexists; split; [reflexivity|]; injection E as <-; split; [exact Tl|reflexivity]|apply string_local; assumption].
  - destruct (is_white c || _); [eexists; split; [reflexivity|]; injection E as <-; split; [exact Tl|reflexivity]|].
    destruct (symbol c); [eexists; split; [reflexivity|]; injection E as <-; split; [exact Tl|reflexivity]|].
    pose proof (shape_at_local (c :: r) y H 3) as K. cbn [app] in K. destruct (shape_at 3 (c :: r)) as [[i s]|].
    + destruct K as [K ->]. eexists. split; [reflexivity|]. injection E as <-. split; [exact K|reflexivity].
    + rewrite K. apply string_local; assumption.
  - destruct (is_white c || _); [eexists; split; [reflexivity|]; injection E as <-; split; [exact Tl|reflexivity]|].
    destruct (symbol c); [eexists; split; [reflexivity|]; injection E as <-; split; [exact Tl|reflexivity]|].
    pose proof (shape_at_local (c :: r) y H 3) as K. cbn [app] in K. destruct (shape_at 3 (c :: r)) as [[i s]|].
    + destruct K as [K ->]. eexists. split; [reflexivity|]. injection E as <-. split; [exact K|reflexivity].
    + rewrite K. eexists. split; [reflexivity|]. injection E as <-. apply other_local. exact H.
  - eexists. split; [reflexivity|]. injection E as <-. unfold step_delimspec. destruct (is_white c); [split; [exact Tl|reflexivity]|].
    change (c :: r ++ y) with ((c :: r) ++ y). destruct (span _ (c :: r)) as [w s] eqn:Sp. destruct (span_local _ _ y _ _ eq_refl H Sp) as [Es ->].
    destruct (Neq_list w [bom]); [split; [right; exact Es|reflexivity]|]. destruct (if forallb is_ascii w then _ else _); (split; [right; exact Es|reflexivity]).
  - unfold step_parent in *. change (c :: r ++ y) with ((c :: r) ++ y). destruct (span _ (c :: r)) as [f s] eqn:Sp. destruct (span_local _ _ y _ _ eq_refl H Sp) as [Es ->].
    destruct (negb (is_nil f)); [eexists; split; [reflexivity|]; injection E as <-; split; [right; exact Es|reflexivity]|].
    destruct (N.eqb c 10); [eexists; split; [reflexivity|]; injection E as <-; split; [exact Tl|reflexivity]|].
    destruct r as [|c2 r2]; [discriminate|]. cbn [app]. destruct (N.eqb c2 10); [|discriminate]. eexists. split; [reflexivity|]. injection E as <-.
    split; [|reflexivity]. destruct Tl as [F|F]; [discriminate|]. destruct (ends_tl _ _ F) as [[_ ->]|G]; tauto.
  - unfold step_sample in *. change (c :: r ++ y) with ((c :: r) ++ y).
    destruct (span _ (c :: r)) as [b s] eqn:Sp. destruct (span_local _ _ y _ _ eq_refl H Sp) as [Es ->].
    pose proof (ends_at_local s y Es) as K1. pose proof (ends_at_local (c :: r) y H) as K2.
    destruct (ends_at s) as [rs|].
    + destruct K1 as [_ ->]. destruct bol; cbn [andb] in *.
      * eexists. split; [reflexivity|]. injection E as <-. split; [right; exact Es|reflexivity].
      * destruct (ends_at (c :: r)) as [r2|].
        -- destruct K2 as [K2 ->]. eexists. split; [reflexivity|]. injection E as <-. split; [right; exact K2|reflexivity].
        -- rewrite K2. destruct (N.eqb c 10); eexists; (split; [reflexivity|]); injection E as <-; (split; [exact Tl|reflexivity]).
    + rewrite K1, andb_false_r in *. destruct (ends_at (c :: r)) as [r2|].
      -- destruct K2 as [K2 ->]. eexists. split; [reflexivity|]. injection E as <-. split; [right; exact K2|reflexivity].
      -- rewrite K2. destruct (N.eqb c 10); eexists; (split; [reflexivity|]); injection E as <-; (split; [exact Tl|reflexivity]).
Qed.
Lemma runs_local_gen : forall q d s ts q' d' e, runs q d s ts q' d' e -> e = [] -> s = [] \/ ends s -> forall y, runs q d (s ++ y) ts q' d' y.
Proof.
  intros q d s ts q' d' e H. induction H as [|q d c r t q1 d1 s1 ts q2 d2 s2 E R IH]; intros Ee Hs y.
  - subst. constructor.
  - destruct Hs as [Hs|Hs]; [discriminate|]. destruct (step_local q d c r y _ Hs E) as (x' & E' & S1 & S2). rewrite S2 in E'.
    cbn [app]. econstructor; [exact E'|]. apply IH; assumption.
Qed.
Lemma runs_local : forall q d s ts q' d', runs q d s ts q' d' [] -> s = [] \/ ends s -> forall y, runs q d (s ++ y) ts q' d' y.
Proof. intros. eapply runs_local_gen; try eassumption. reflexivity. Qed.
Lemma from_runs : forall f q d s ts q', scan_from f q d s = Ok ts -> condition_from f q d s = Ok q' -> exists d', runs q d s ts q' d' [].
Proof.
  induction f as [|f IH]; intros q d s ts q' H1 H2; destruct s as [|c r]; cbn in H1, H2; try discriminate.
  - injection H1 as <-. injection H2 as <-. exists d. constructor.
  - injection H1 as <-. injection H2 as <-. exists d. constructor.
  - destruct (step q d c r) as [[[[t q1] d1] s1]| | | |] eqn:E; try discriminate. cbn [bind] in H1, H2.
    destruct (scan_from f q1 d1 s1) as [ts1| | | |] eqn:E1; try discriminate. cbn [bind] in H1. injection H1 as <-.
    destruct (IH _ _ _ _ _ E1 H2) as (d' & R). exists d'. econstructor; eassumption.
Qed.
Lemma scan_condition : forall f q d s ts, scan_from f q d s = Ok ts -> exists q', condition_from f q d s = Ok q'.
Proof.
  induction f as [|f IH]; intros q d s ts H; destruct s as [|c r]; cbn in *; try discriminate; try (eexists; reflexivity).
  destruct (step q d c r) as [[[[t q1] d1] s1]| | | |]; try discriminate. cbn [bind] in *.
  destruct (scan_from f q1 d1 s1) as [ts1| | | |] eqn:E1; try discriminate. eapply IH; eassumption.
Qed.
(** ** which tokens follow which; outside of designs, the delimiters are the default ones *)
Definition outside (q : mode) : bool := match q with q_INITIAL | q_PARENT => true | _ => false end.
Definition opening (t : token) : bool := match t with T_BOX | T_PARENT => true | _ => false end.
Definition kind (q : mode) (d : delims) (t : list token) (q' : mode) (d' : delims) : Prop :=
  if outside q then (t = [T_BOX] /\ outside q' = false) \/ (~ In T_BOX t /\ outside q' = true /\ d' = d)
  else (existsb opening t = false /\ outside q' = false) \/ (t = [T_END] /\ outside q' = true /\ d' = default_delims).
Lemma unrec_in : forall t c, In t (unrec c) -> t = T_UNREC.
Proof. intros t c H. apply repeat_spec in H. exact H. Qed.
Lemma unrec_opening : forall c, existsb opening (unrec c) = false.
Proof. intros c. unfold unrec. induction (utf8_len c) as [|n IH]; [reflexivity|exact IH]. Qed.
Lemma kind_same : forall q d t, existsb opening t = false -> kind q d t q d.
Proof.
  intros q d t H. unfold kind. destruct (outside q) eqn:E; [right|left; auto]. split; [|auto].
  intros F. assert (G : existsb opening t = true) by (apply existsb_exists; exists T_BOX; auto). congruence.
Qed.
Lemma other_kind : forall q d c r t q' d' s, step_other q d c r = (t, q', d', s) -> kind q d t q' d'.
Proof.
  intros q d c r t q' d' s H. unfold step_other in H.
  destruct (N.eqb c 35); [destruct (up_to_newline r)|]; injection H as <- <- <- _; apply kind_same; try reflexivity; apply unrec_opening.
Qed.
Lemma symbol_opening : forall c t, symbol c = Some t -> existsb opening [t] = false.
Proof.
  intros c t H. unfold symbol in H. destruct (N.eqb c 44); [injection H as <-; reflexivity|]. destruct (N.eqb c 40); [injection H as <-; reflexivity|].
  destruct (N.eqb c 41); [injection H as <-; reflexivity|]. destruct (N.eqb c 123); [injection H as <-; reflexivity|].
  destruct (N.eqb c 125); [injection H as <-; reflexivity|discriminate].
Qed.
Lemma string_kind : forall q d c r t q' d' s, step_string q d c r = Ok (t, q', d', s) -> kind q d t q' d'.
Proof.
  intros q d c r t q' d' s H. unfold step_string in H. destruct (lex_string d (c :: r)) as [[|v u|u]| | | |]; try discriminate; cbn [bind] in H.
  - destruct (step_other q d c r) as [[[t0 q0] d0] s0] eqn:E. injection H as <- <- <- <-. eapply other_kind; exact E.
  - injection H as <- <- <- _. apply kind_same. reflexivity.
  - injection H as <- <- <- _. apply kind_same. reflexivity.
Qed.
Lemma initial_kind : forall w d t q' d', word_initial w d = (t, q', d') -> kind q_INITIAL d [t] q' d'.
Proof.
  intros w d t q' d' H. unfold word_initial in H. unfold kind. cbn [outside].
  destruct (same_nocase w (lit "parent")); [injection H as <- <- <-; right; cbn; repeat split; intuition discriminate|].
  destruct (same_nocase w (lit "box")); [injection H as <- <- <-; left; auto|].
  injection H as <- <- <-. right. cbn. repeat split; intuition discriminate.
Qed.
Lemma box_kind : forall w d t q' d', word_box w d = (t, q', d') -> kind q_BOX d [t] q' d'.
Proof.
  intros w d t q' d' H. unfold word_box in H. unfold kind. cbn [outside].
  repeat match type of H with (if ?b then _ else _) = _ => destruct b; [injection H as <- <- <-; first [left; split; reflexivity|right; repeat split; reflexivity]|] end.
  injection H as <- <- <-. left. split; reflexivity.
Qed.
Lemma step_kind : forall q d c r t q' d' s, step q d c r = Ok (t, q', d', s) -> kind q d t q' d'.
Proof.
  intros q d c r t q' d' s H.
  assert (Ko : Ok (step_other q d c r) = Ok (t, q', d', s) -> kind q d t q' d').
  { intros E. injection E as E. eapply other_kind; exact E. }
  assert (K0 : Ok (@nil token, q, d, r) = Ok (t, q', d', s) -> kind q d t q' d').
  { intros E. injection E as <- <- <- _. apply kind_same. reflexivity. }
  destruct q as [| | | | | |bol acc]; cbn [step] in H.
  - destruct (is_white c); [exact (K0 H)|]. destruct (word_start c); [|exact (Ko H)]. injection H as H. unfold step_word in H.
    destruct (span word_char (c :: r)) as [w u]. destruct (Neq_list w [bom]); [injection H as <- <- <- _; apply kind_same; reflexivity|].
    destruct (forallb is_ascii w); [|injection H as <- <- <- _; apply kind_same; reflexivity].
    destruct (word_initial w d) as [[t0 q0] d0] eqn:E. injection H as <- <- <- _. eapply initial_kind; exact E.
  - destruct (is_white c); [exact (K0 H)|]. destruct (word_start c).
    { injection H as H. unfold step_word in H.
      destruct (span word_char (c :: r)) as [w u]. destruct (Neq_list w [bom]); [injection H as <- <- <- _; apply kind_same; reflexivity|].
      destruct (forallb is_ascii w); [|injection H as <- <- <- _; apply kind_same; reflexivity].
      destruct (word_box w d) as [[t0 q0] d0] eqn:E. injection H as <- <- <- _. eapply box_kind; exact E. }
    destruct (is_digit c || _ || _).
    { unfold step_number in H. destruct (span is_digit _) as [ds u]. destruct (is_nil ds); [exact (Ko H)|].
      destruct (atoi _ _); try discriminate. injection H as <- <- <- _. apply kind_same. reflexivity. }
    destruct (symbol c) as [t0|] eqn:Sy; [injection H as <- <- <- _; apply kind_same; eapply symbol_opening; exact Sy|eapply string_kind; exact H].
  - destruct (is_white c || _); [exact (K0 H)|].
    destruct (symbol c) as [t0|] eqn:Sy; [injection H as <- <- <- _; left; split; [eapply symbol_opening; exact Sy|destruct (N.eqb c 125); reflexivity]|].
    destruct (shape_at 3 (c :: r)) as [[i u]|]; [injection H as <- <- <- _; apply kind_same; reflexivity|eapply string_kind; exact H].
  - destruct (is_white c || _); [exact (K0 H)|].
    destruct (symbol c) as [t0|] eqn:Sy; [injection H as <- <- <- _; left; split; [eapply symbol_opening; exact Sy|destruct (N.eqb c 41); reflexivity]|].
    destruct (shape_at 3 (c :: r)) as [[i u]|]; [injection H as <- <- <- _; apply kind_same; reflexivity|exact (Ko H)].
  - injection H as H. unfold step_delimspec in H. destruct (is_white c); [injection H as <- <- <- _; apply kind_same; reflexivity|].
    destruct (span _ (c :: r)) as [w u]. destruct (Neq_list w [bom]); [injection H as <- <- <- _; apply kind_same; reflexivity|].
    destruct (if forallb is_ascii w then _ else _); injection H as <- <- <- _; left; split; reflexivity.
  - unfold step_parent in H. destruct (span _ (c :: r)) as [w u]. destruct (negb (is_nil w)); [injection H as <- <- <- _|].
    + right. cbn. repeat split. intuition discriminate.
    + destruct (N.eqb c 10); [injection H as <- <- <- _; right; cbn; repeat split; tauto|].
      destruct r as [|c2 r2]; [discriminate|]. destruct (N.eqb c2 10); [|discriminate]. injection H as <- <- <- _. right; cbn; repeat split; tauto.
  - unfold step_sample in H. destruct (span _ (c :: r)) as [b u]. destruct (bol && _).
    + injection H as <- <- <- _. left. destruct (is_nil _); split; reflexivity.
    + destruct (ends_at (c :: r)); [injection H as <- <- <- _; left; split; reflexivity|].
      destruct (N.eqb c 10); injection H as <- <- <- _; left; split; reflexivity.
Qed.
Lemma runs_default : forall q d s ts q' d' e, runs q d s ts q' d' e -> (outside q = true -> d = default_delims) -> outside q' = true -> d' = default_delims.
Proof.
  intros q d s ts q' d' e H. induction H as [|q d c r t q1 d1 s1 ts q2 d2 s2 E R IH]; intros Hd Hq; [exact (Hd Hq)|].
  apply IH; [|exact Hq]. intros O1. apply step_kind in E. unfold kind in E. destruct (outside q).
  - destruct E as [[_ F]|(_ & _ & ->)]; [congruence|apply Hd; reflexivity].
  - destruct E as [[_ F]|(_ & _ & F)]; congruence.
Qed.
(** two texts, one after the other *)
Lemma mu_start : forall s, mu q_INITIAL s <= 2 * List.length s + 1.
Proof. intros s. unfold mu. lia. Qed.
Theorem scan_app : forall x y ts us, ends x -> scan x = Ok ts -> condition_after x = Ok q_INITIAL -> scan y = Ok us -> scan (x ++ y) = Ok (ts ++ us).
Proof.
  intros x y ts us Hx H1 H2 H3. unfold scan, condition_after in *. destruct (from_runs _ _ _ _ _ _ H1 H2) as (d1 & R1).
  assert (d1 = default_delims) by (eapply runs_default; [exact R1|reflexivity|reflexivity]). subst d1.
  destruct (scan_condition _ _ _ _ _ H3) as (q2 & C2). destruct (from_runs _ _ _ _ _ _ H3 C2) as (d2 & R2).
  eapply scan_runs; [|apply mu_start]. eapply runs_app; [|exact R2]. apply (runs_local _ _ _ _ _ _ R1). right. exact Hx.
Qed.
(** after a token that begins a design, and before its end, there is none that begins something *)
Lemma from_kind : forall f q d s ts, scan_from f q d s = Ok ts ->
  (outside q = false -> forall a t b, ts = a ++ t :: b -> opening t = true -> In T_END a) /\
  (forall a1 a2 t b, ts = a1 ++ T_BOX :: a2 ++ t :: b -> opening t = true -> In T_END a2).
Proof.
  induction f as [|f IH]; intros q d s ts H; destruct s as [|c r]; cbn in H; try discriminate.
  - injection H as <-. split; intros; [destruct a|destruct a1]; discriminate.
  - injection H as <-. split; intros; [destruct a|destruct a1]; discriminate.
  - destruct (step q d c r) as [[[[t0 q1] d1] s1]| | | |] eqn:E; try discriminate. cbn [bind] in H.
    destruct (scan_from f q1 d1 s1) as [ts1| | | |] eqn:E1; try discriminate. cbn [bind] in H. assert (Ets : ts = t0 ++ ts1) by congruence. clear H.
    destruct (IH _ _ _ _ E1) as [I1 I2]. apply step_kind in E. unfold kind in E.
    assert (Cut : forall (u a b : list token) x, u ++ ts1 = a ++ x :: b -> ~ In x u -> exists a', a = u ++ a' /\ ts1 = a' ++ x :: b).
    { clear. induction u as [|y u IHu]; intros a b x H Nx; [exists a; auto|]. destruct a as [|z a]; cbn in H; injection H as <- H.
      - destruct Nx. left. reflexivity.
      - destruct (IHu a b x H ltac:(intros F; apply Nx; right; exact F)) as (a' & -> & K). exists a'. auto. }
    assert (NoOp : forall x, existsb opening t0 = false -> opening x = true -> ~ In x t0).
    { intros x H1 H2 F. assert (G : existsb opening t0 = true) by (apply existsb_exists; exists x; auto). congruence. }
    destruct (outside q) eqn:O.
    + split; [discriminate|]. intros a1 a2 t b Et Ot. rewrite Et in Ets. symmetry in Ets. destruct E as [[-> O1]|(Nb & O1 & _)].
      * destruct a1 as [|z a1]; cbn in Ets; [injection Ets as Ets|injection Ets as Ez Ets].
        -- exact (I1 O1 a2 t b Ets Ot).
        -- exact (I2 a1 a2 t b Ets Ot).
      * destruct (Cut _ _ _ _ Ets Nb) as (a' & _ & K). exact (I2 a' a2 t b K Ot).
    + destruct E as [[Nop O1]|(-> & O1 & _)].
      * split.
        -- intros _ a t b Et Ot. rewrite Et in Ets. symmetry in Ets. destruct (Cut _ _ _ _ Ets (NoOp _ Nop Ot)) as (a' & -> & K).
           apply in_or_app. right. exact (I1 O1 a' t b K Ot).
        -- intros a1 a2 t b Et Ot. rewrite Et in Ets. symmetry in Ets. destruct (Cut _ _ _ _ Ets (NoOp T_BOX Nop eq_refl)) as (a' & _ & K). exact (I2 a' a2 t b K Ot).
      * split.
        -- intros _ a t b Et Ot. rewrite Et in Ets. destruct a as [|z a]; cbn in Ets; injection Ets as Ez Ets; [subst t; discriminate|left; auto].
        -- intros a1 a2 t b Et Ot. rewrite Et in Ets. destruct a1 as [|z a1]; cbn in Ets; [discriminate|]. injection Ets as Ez Ets. exact (I2 a1 a2 t b (eq_sym Ets) Ot).
Qed.

(** ** when the scanner fails *)
Definition suffix (s t : list N) : Prop := exists a, t = a ++ s.
Lemma suffix_skip : forall k s, suffix (skipn k s) s.
Proof. intros k s. exists (firstn k s). symmetry. apply firstn_skipn. Qed.
Lemma suffix_refl : forall s, suffix s s.
Proof. intros s. exists []. reflexivity. Qed.
Lemma suffix_cons : forall c s t, suffix s t -> suffix s (c :: t).
Proof. intros c s t (a & ->). exists (c :: a). reflexivity. Qed.
Lemma suffix_trans : forall a b c, suffix a b -> suffix b c -> suffix a c.
Proof. intros a b c (x & ->) (y & ->). exists (y ++ x). apply app_assoc. Qed.
Lemma suffix_clean : forall s t, suffix s t -> clean t -> clean s.
Proof. intros s t (a & ->) H. apply clean_app in H. apply H. Qed.
Lemma span_suffix : forall f s a b, span f s = (a, b) -> suffix b s.
Proof. intros f s a b H. destruct (span_spec _ _ _ _ H) as (-> & _). exists a. reflexivity. Qed.
Lemma ends_at_suffix : forall s r, ends_at s = Some r -> suffix r s.
Proof.
  intros s r H. unfold ends_at in H. destruct (_ <? 4); [discriminate|]. destruct (same_nocase _ _); [|discriminate].
  destruct (span _ (skipn 4 s)) as [a b] eqn:E. apply span_suffix in E. destruct b as [|c b]; [discriminate|]. destruct (N.eqb c 10); [|discriminate]. injection H as <-.
  eapply suffix_trans; [exact E|apply suffix_skip].
Qed.
Lemma shape_at_suffix : forall k s i r, shape_at k s = Some (i, r) -> suffix r s.
Proof.
  induction k as [|k IH]; intros s i r H; [discriminate|]. rewrite shape_at_S in H. destruct (if _ <? _ then _ else _); [|eapply IH; exact H].
  assert (r = skipn (S k) s) by congruence. subst r. apply suffix_skip.
Qed.
Lemma lex_string_suffix : forall d s x, lex_string d s = Ok x -> match x with Reject => True | STRING _ r => suffix r s | YUNREC r => suffix r s end.
Proof.
  intros d s x H. destruct s as [|c s]; [injection H as <-; exact I|]. unfold lex_string in H. 
  destruct (negb _); [injection H as <-; exact I|]. destruct (up_to_newline (c :: s)) as [l|]; [|injection H as <-; exact I]. destruct (negb _); [injection H as <-; exact I|].
  destruct (string_loop _ _ _ _ _ _) as [[v u|]| | | |]; try discriminate; cbn [bind] in H.
  - destruct (_ <? _); [discriminate|]. injection H as <-. apply suffix_skip.
  - injection H as <-. apply suffix_skip.
Qed.
Lemma other_suffix : forall q d c r t q' d' s, step_other q d c r = (t, q', d', s) -> suffix s (c :: r).
Proof.
  intros q d c r t q' d' s H. unfold step_other in H. apply suffix_cons.
  destruct (N.eqb c 35); [destruct (up_to_newline r)|]; assert (E : s = s) by reflexivity; inversion H; subst; try apply suffix_refl. apply suffix_skip.
Qed.
Lemma string_suffix : forall q d c r t q' d' s, step_string q d c r = Ok (t, q', d', s) -> suffix s (c :: r).
Proof.
  intros q d c r t q' d' s H. unfold step_string in H. destruct (lex_string d (c :: r)) as [x| | | |] eqn:E; try discriminate; cbn [bind] in H.
  apply lex_string_suffix in E. destruct x as [|v u|u].
  - destruct (step_other q d c r) as [[[t0 q0] d0] s0] eqn:F. injection H as <- <- <- <-. eapply other_suffix; exact F.
  - injection H as _ _ _ <-. exact E.
  - injection H as _ _ _ <-. exact E.
Qed.
Lemma step_suffix : forall q d c r t q' d' s, step q d c r = Ok (t, q', d', s) -> suffix s (c :: r).
Proof.
  intros q d c r t q' d' s H.
  assert (Ko : Ok (step_other q d c r) = Ok (t, q', d', s) -> suffix s (c :: r)).
  { intros E. injection E as E. eapply other_suffix; exact E. }
  assert (K0 : suffix r (c :: r)) by (apply suffix_cons, suffix_refl).
  assert (Kw : step_word q d c r = (t, q', d', s) -> suffix s (c :: r)).
  { intros E. unfold step_word in E. destruct (span word_char (c :: r)) as [w u] eqn:Sp. apply span_suffix in Sp.
    destruct (Neq_list w [bom]); [injection E as _ _ _ <-; exact Sp|]. destruct (forallb is_ascii w); [|injection E as _ _ _ <-; exact Sp].
    destruct (match q with q_INITIAL => _ | _ => _ end) as [[t0 q0] d0]. injection E as _ _ _ <-. exact Sp. }
  destruct q as [| | | | | |bol acc]; cbn [step] in H.
  - destruct (is_white c); [injection H as _ _ _ <-; exact K0|]. destruct (word_start c); [|exact (Ko H)]. injection H as H. exact (Kw H).
  - destruct (is_white c); [injection H as _ _ _ <-; exact K0|]. destruct (word_start c); [injection H as H; exact (Kw H)|].
    destruct (is_digit c || _ || _).
    { unfold step_number in H. destruct (span is_digit _) as [ds u] eqn:Sp. apply span_suffix in Sp. destruct (is_nil ds); [exact (Ko H)|].
      destruct (atoi _ _); try discriminate. injection H as _ _ _ <-. destruct (N.eqb c 43 || N.eqb c 45); [apply suffix_cons|]; exact Sp. }
    destruct (symbol c) as [t0|]; [injection H as _ _ _ <-; exact K0|eapply string_suffix; exact H].
  - destruct (is_white c || _); [injection H as _ _ _ <-; exact K0|].
    destruct (symbol c) as [t0|]; [injection H as _ _ _ <-; exact K0|].
    destruct (shape_at 3 (c :: r)) as [[i u]|] eqn:Sh; [injection H as _ _ _ <-; eapply shape_at_suffix; exact Sh|eapply string_suffix; exact H].
  - destruct (is_white c || _); [injection H as _ _ _ <-; exact K0|].
    destruct (symbol c) as [t0|]; [injection H as _ _ _ <-; exact K0|].
    destruct (shape_at 3 (c :: r)) as [[i u]|] eqn:Sh; [injection H as _ _ _ <-; eapply shape_at_suffix; exact Sh|exact (Ko H)].
  - injection H as H. unfold step_delimspec in H. destruct (is_white c); [injection H as _ _ _ <-; exact K0|].
    destruct (span _ (c :: r)) as [w u] eqn:Sp. apply span_suffix in Sp. destruct (Neq_list w [bom]); [injection H as _ _ _ <-; exact Sp|].
    destruct (if forallb is_ascii w then _ else _); injection H as _ _ _ <-; exact Sp.
  - unfold step_parent in H. destruct (span _ (c :: r)) as [w u] eqn:Sp. apply span_suffix in Sp. destruct (negb (is_nil w)); [injection H as _ _ _ <-; exact Sp|].
    destruct (N.eqb c 10); [injection H as _ _ _ <-; exact K0|].
    destruct r as [|c2 r2]; [discriminate|]. destruct (N.eqb c2 10); [|discriminate]. injection H as _ _ _ <-. apply suffix_cons, suffix_cons, suffix_refl.
  - unfold step_sample in H. destruct (span _ (c :: r)) as [b u] eqn:Sp. apply span_suffix in Sp. destruct (bol && _); [injection H as _ _ _ <-; exact Sp|].
    destruct (ends_at (c :: r)) eqn:En; [injection H as _ _ _ <-; eapply ends_at_suffix; exact En|].
    destruct (N.eqb c 10); injection H as _ _ _ <-; exact K0.
Qed.
Lemma step_delims : forall q d c r t q' d' s, step q d c r = Ok (t, q', d', s) -> delims_ok d -> delims_ok d'.
Proof.
  intros q d c r t q' d' s H Hd.
  assert (Dd : delims_ok default_delims) by (split; [cbn; auto|discriminate]).
  assert (Ko : Ok (step_other q d c r) = Ok (t, q', d', s) -> delims_ok d').
  { intros E. injection E as E. unfold step_other in E. destruct (N.eqb c 35); [destruct (up_to_newline r)|]; injection E as _ _ <- _; exact Hd. }
  assert (Ks : step_string q d c r = Ok (t, q', d', s) -> delims_ok d').
  { intros E. unfold step_string in E. destruct (lex_string d (c :: r)) as [x| | | |]; try discriminate; cbn [bind] in E.
    destruct x; [exact (Ko E)| |]; injection E as _ _ <- _; exact Hd. }
  assert (Wb : forall w t0 q0 d0, word_box w d = (t0, q0, d0) -> delims_ok d0).
  { intros w t0 q0 d0 E. unfold word_box in E.
    repeat match type of E with (if ?b then _ else _) = _ => destruct b; [injection E as _ _ <-; assumption|] end. injection E as _ _ <-. exact Hd. }
  assert (Wi : forall w t0 q0 d0, word_initial w d = (t0, q0, d0) -> delims_ok d0).
  { intros w t0 q0 d0 E. unfold word_initial in E.
    repeat match type of E with (if ?b then _ else _) = _ => destruct b; [injection E as _ _ <-; assumption|] end. injection E as _ _ <-. exact Hd. }
  assert (Kw : step_word q d c r = (t, q', d', s) -> delims_ok d').
  { intros E. unfold step_word in E. destruct (span word_char (c :: r)) as [w u].
    destruct (Neq_list w [bom]); [injection E as _ _ <- _; exact Hd|]. destruct (forallb is_ascii w); [|injection E as _ _ <- _; exact Hd].
    destruct (match q with q_INITIAL => _ | _ => _ end) as [[t0 q0] d0] eqn:Ew. injection E as _ _ <- _. destruct q; eauto. }
  destruct q as [| | | | | |bol acc]; cbn [step] in H.
  - destruct (is_white c); [injection H as _ _ <- _; exact Hd|]. destruct (word_start c); [|exact (Ko H)]. injection H as H. exact (Kw H).
  - destruct (is_white c); [injection H as _ _ <- _; exact Hd|]. destruct (word_start c); [injection H as H; exact (Kw H)|].
    destruct (is_digit c || _ || _).
    { unfold step_number in H. destruct (span is_digit _) as [ds u]. destruct (is_nil ds); [exact (Ko H)|].
      destruct (atoi _ _); try discriminate. injection H as _ _ <- _. exact Hd. }
    destruct (symbol c) as [t0|]; [injection H as _ _ <- _; exact Hd|exact (Ks H)].
  - destruct (is_white c || _); [injection H as _ _ <- _; exact Hd|].
    destruct (symbol c) as [t0|]; [injection H as _ _ <- _; exact Hd|].
    destruct (shape_at 3 (c :: r)) as [[i u]|]; [injection H as _ _ <- _; exact Hd|exact (Ks H)].
  - destruct (is_white c || _); [injection H as _ _ <- _; exact Hd|].
    destruct (symbol c) as [t0|]; [injection H as _ _ <- _; exact Hd|].
    destruct (shape_at 3 (c :: r)) as [[i u]|]; [injection H as _ _ <- _; exact Hd|exact (Ko H)].
  - injection H as H. unfold step_delimspec in H. destruct (is_white c); [injection H as _ _ <- _; exact Hd|].
    destruct (span _ (c :: r)) as [w u]. destruct (Neq_list w [bom]); [injection H as _ _ <- _; exact Hd|].
    destruct (if forallb is_ascii w then change_string_delimiters w else None) as [d1|] eqn:Ec; injection H as _ _ <- _; [|exact Hd].
    destruct (forallb is_ascii w); [|discriminate]. apply (C31_delimiters _ _ Ec).
  - unfold step_parent in H. destruct (span _ (c :: r)) as [w u]. destruct (negb (is_nil w)); [injection H as _ _ <- _; exact Hd|].
    destruct (N.eqb c 10); [injection H as _ _ <- _; exact Hd|].
    destruct r as [|c2 r2]; [discriminate|]. destruct (N.eqb c2 10); [|discriminate]. injection H as _ _ <- _. exact Hd.
  - destruct (step_sample d bol acc c r) as [[t0 q0] s0]. injection H as _ _ <- _. exact Hd.
Qed.
Lemma digits_fold : forall ds, forallb is_digit ds = true -> exists v, digits ds = Some v /\ digits_value ds = v.
Proof.
  intros ds H. assert (E : exists v, digits ds = Some v).
  { induction ds as [|c ds IH]; [eexists; reflexivity|]. cbn in H. apply andb_true_iff in H as [Hc H]. destruct (IH H) as (v & E). cbn. rewrite E. unfold is_digit in Hc. rewrite Hc. eexists. reflexivity. }
  destruct E as (v & E). exists v. split; [exact E|]. destruct (digits_spec _ _ E) as [_ F]. unfold digits_value. rewrite F. lia.
Qed.
Lemma step_result : forall q d c r, delims_ok d -> clean (c :: r) ->
  match step q d c r with
  | Ok _ => True
  | UB => q = q_BOX /\ big_number (c :: r)
  | Err => q = q_PARENT /\ lone_cr (c :: r)
  | Wrap | Fuel => False
  end.
Proof.
  intros q d c r Hd H0.
  assert (Ks : exists x, step_string q d c r = Ok x).
  { unfold step_string. destruct (C31_literals d (c :: r) Hd ltac:(apply clean_in; exact H0)) as (l & -> & _). cbn [bind]. destruct l; eexists; reflexivity. }
  destruct q as [| | | | | |bol acc]; cbn [step].
  - destruct (is_white c); [exact I|]. destruct (word_start c); exact I.
  - destruct (is_white c); [exact I|]. destruct (word_start c); [exact I|]. destruct (is_digit c || N.eqb c 43 || N.eqb c 45) eqn:D.
    + unfold step_number. destruct (span is_digit (if N.eqb c 43 || N.eqb c 45 then r else c :: r)) as [ds u] eqn:Sp.
      destruct (span_spec _ _ _ _ Sp) as (Es & Hds & _). destruct (is_nil ds); [exact I|]. unfold atoi.
      destruct (digits_fold _ Hds) as (v & Dv & ->).
      destruct ((-2147483648 <=? (if N.eqb c 45 then - v else v)) && ((if N.eqb c 45 then - v else v) <=? 2147483647))%Z eqn:R; cbn [bind]; [exact I|].
      split; [reflexivity|]. exists (if N.eqb c 43 || N.eqb c 45 then [c] else []), ds, u, v.
      assert (Tb : too_big (if N.eqb c 45 then - v else v)).
      { unfold too_big. apply andb_false_iff in R as [R|R]; [apply Z.leb_gt in R|apply Z.leb_gt in R]; lia. }
      destruct (N.eqb_spec c 43) as [->|]; [|destruct (N.eqb_spec c 45) as [->|]]; cbn [orb] in *.
      * split; [rewrite Es; reflexivity|]. split; [exact Dv|]. left. auto.
      * split; [rewrite Es; reflexivity|]. split; [exact Dv|]. right. auto.
      * split; [rewrite Es; reflexivity|]. split; [exact Dv|]. left. auto.
    + destruct (symbol c); [exact I|]. destruct Ks as (x & ->). exact I.
  - destruct (is_white c || _); [exact I|]. destruct (symbol c); [exact I|]. destruct (shape_at 3 (c :: r)) as [[i u]|]; [exact I|]. destruct Ks as (x & ->). exact I.
  - destruct (is_white c || _); [exact I|]. destruct (symbol c); [exact I|]. destruct (shape_at 3 (c :: r)) as [[i u]|]; exact I.
  - exact I.
  - unfold step_parent. destruct (span _ (c :: r)) as [f u] eqn:Sp. destruct (negb (is_nil f)) eqn:Nf; [exact I|].
    destruct (N.eqb_spec c 10) as [->|N10]; [exact I|].
    assert (c = 13%N). { cbn [span] in Sp. destruct (N.eqb_spec c 13) as [->|N13]; [reflexivity|]. destruct (N.eqb_spec c 10) as [->|_]; [congruence|].
      cbn [orb negb] in Sp. destruct (span _ r) as [a b]. injection Sp as <- <-. discriminate. }
    subst c. destruct r as [|c2 r2].
    + split; [reflexivity|]. exists []. split; [reflexivity|discriminate].
    + destruct (N.eqb_spec c2 10) as [->|N2]; [exact I|]. split; [reflexivity|]. exists (c2 :: r2). split; [reflexivity|]. intros r' F. congruence.
  - destruct (step_sample d bol acc c r) as [[t0 q0] s0]. exact I.
Qed.
Lemma step_to_parent : forall q d c r t d' s, step q d c r = Ok (t, q_PARENT, d', s) -> exists k, c :: r = k ++ s /\ spells "parent" k.
Proof.
  intros q d c r t d' s H.
  assert (Ko : q <> q_PARENT -> Ok (step_other q d c r) = Ok (t, q_PARENT, d', s) -> False).
  { intros N E. injection E as E. apply step_other_mu in E as [E _]. congruence. }
  assert (Ks : q <> q_PARENT -> step_string q d c r = Ok (t, q_PARENT, d', s) -> False).
  { intros N E. unfold step_string in E. destruct (lex_string d (c :: r)) as [x| | | |]; try discriminate; cbn [bind] in E.
    destruct x; [exact (Ko N E)| |]; injection E as _ E _ _; congruence. }
  destruct q as [| | | | | |bol acc]; cbn [step] in H.
  - destruct (is_white c); [discriminate|]. destruct (word_start c); [|destruct (Ko ltac:(discriminate) H)].
    injection H as H. unfold step_word in H. destruct (span word_char (c :: r)) as [w u] eqn:Sp. destruct (span_spec _ _ _ _ Sp) as (Es & _).
    destruct (Neq_list w [bom]); [discriminate|]. destruct (forallb is_ascii w); [|discriminate].
    destruct (word_initial w d) as [[t0 q0] d0] eqn:E. injection H as _ -> _ <-. unfold word_initial in E.
    destruct (same_nocase w (lit "parent")) eqn:P; [|destruct (same_nocase w (lit "box")); discriminate].
    exists w. split; [exact Es|]. apply same_spells in P; [exact P|reflexivity].
  - destruct (is_white c); [discriminate|]. destruct (word_start c).
    { injection H as H. unfold step_word in H. destruct (span word_char (c :: r)) as [w u].
      destruct (Neq_list w [bom]); [discriminate|]. destruct (forallb is_ascii w); [|discriminate].
      destruct (word_box w d) as [[t0 q0] d0] eqn:E. injection H as _ -> _ _. unfold word_box in E.
      exfalso. repeat match type of E with (if ?b then _ else _) = _ => destruct b; [discriminate|] end. discriminate. }
    exfalso. destruct (is_digit c || _ || _).
    { unfold step_number in H. destruct (span is_digit _) as [ds u]. destruct (is_nil ds); [exact (Ko ltac:(discriminate) H)|].
      destruct (atoi _ _); discriminate. }
    destruct (symbol c) as [t0|]; [discriminate|exact (Ks ltac:(discriminate) H)].
  - exfalso. destruct (is_white c || _); [discriminate|].
    destruct (symbol c) as [t0|]; [destruct (N.eqb c 125); discriminate|].
    destruct (shape_at 3 (c :: r)) as [[i u]|]; [discriminate|exact (Ks ltac:(discriminate) H)].
  - exfalso. destruct (is_white c || _); [discriminate|].
    destruct (symbol c) as [t0|]; [destruct (N.eqb c 41); discriminate|].
    destruct (shape_at 3 (c :: r)) as [[i u]|]; [discriminate|exact (Ko ltac:(discriminate) H)].
  - exfalso. injection H as H. unfold step_delimspec in H. destruct (is_white c); [discriminate|].
    destruct (span _ (c :: r)) as [w u]. destruct (Neq_list w [bom]); [discriminate|]. destruct (if forallb is_ascii w then _ else _); discriminate.
  - exfalso. unfold step_parent in H. destruct (span _ (c :: r)) as [w u]. destruct (negb (is_nil w)); [discriminate|].
    destruct (N.eqb c 10); [discriminate|]. destruct r as [|c2 r2]; [discriminate|]. destruct (N.eqb c2 10); discriminate.
  - exfalso. unfold step_sample in H. destruct (span _ (c :: r)) as [b u]. destruct (bol && _); [discriminate|].
    destruct (ends_at (c :: r)); [discriminate|]. destruct (N.eqb c 10); discriminate.
Qed.
Lemma from_result : forall f q d s, delims_ok d -> clean s -> mu q s <= f ->
  match scan_from f q d s with
  | Ok _ => True
  | UB => exists a b, s = a ++ b /\ big_number b
  | Err => q = q_PARENT /\ lone_cr s \/ exists a k b, s = a ++ k ++ b /\ spells "parent" k /\ lone_cr b
  | Wrap | Fuel => False
  end.
Proof.
  induction f as [|f IH]; intros q d s Hd H0 Hf; destruct s as [|c r]; cbn [scan_from]; try exact I.
  - exfalso. clear - Hf. unfold mu in Hf. cbn in Hf. lia.
  - pose proof (step_result q d c r Hd H0) as Sr. destruct (step q d c r) as [[[[t q1] d1] s1]| | | |] eqn:E; cbn [bind].
    + pose proof (step_mu _ _ _ _ _ _ _ _ E) as Mu. pose proof (step_suffix _ _ _ _ _ _ _ _ E) as Sf.
      specialize (IH q1 d1 s1 (step_delims _ _ _ _ _ _ _ _ E Hd) (suffix_clean _ _ Sf H0) ltac:(lia)).
      destruct (scan_from f q1 d1 s1) as [ts| | | |]; cbn [bind]; try exact IH.
      * destruct IH as [[-> L]|(a & k & b & -> & Hk & Hb)].
        -- right. destruct (step_to_parent _ _ _ _ _ _ _ E) as (k & Ek & Hk). exists [], k, s1. auto.
        -- right. destruct Sf as (a' & ->). exists (a' ++ a), k, b. rewrite <- app_assoc. auto.
      * destruct IH as (a & b & -> & Hb). destruct Sf as (a' & ->). exists (a' ++ a), b. rewrite <- app_assoc. auto.
    + left. exact Sr.
    + destruct Sr as [_ Sr]. exists [], (c :: r). auto.
    + destruct Sr.
    + destruct Sr.
Qed.

(** ** the characters of strings: those of the text, and no line feed except in samples *)
Section Fine.
Variable P : N -> Prop.
Definition is_sample (t : token) : bool := match t with T_SAMPLE => true | _ => false end.
Fixpoint fine (prev : bool) (ts : list token) : Prop :=
  match ts with
  | [] => True
  | t :: r => match t with T_STRING s => prev = true \/ Forall P s | _ => True end /\ fine (is_sample t) r
  end.
Lemma fine_weak : forall b ts, fine b ts -> fine true ts.
Proof. intros b [|t r] H; [exact I|]. destruct H as [H1 H2]. split; [destruct t; auto|exact H2]. Qed.
Lemma fine_plain : forall prev a ts, (forall t, In t a -> is_sample t = false /\ forall s, t <> T_STRING s) -> fine (if is_nil a then prev else false) ts -> fine prev (a ++ ts).
Proof.
  intros prev a. revert prev. induction a as [|t a IH]; intros prev ts Ha H; [exact H|]. cbn [app fine]. destruct (Ha t (or_introl eq_refl)) as [H1 H2].
  split; [destruct t; try exact I; destruct (H2 s eq_refl)|]. rewrite H1. apply IH; [intros x Hx; apply Ha; right; exact Hx|]. cbn [is_nil] in H. destruct (is_nil a); exact H.
Qed.
Lemma fine_one : forall prev t ts, is_sample t = false -> (forall s, t <> T_STRING s) -> fine false ts -> fine prev ([t] ++ ts).
Proof. intros prev t ts H1 H2 H. apply fine_plain; [|exact H]. intros x [<-|[]]. auto. Qed.
Lemma fine_unrec : forall prev c ts, fine false ts -> fine prev (unrec c ++ ts).
Proof.
  intros prev c ts H. apply fine_plain.
  - intros t Ht. apply unrec_in in Ht as ->. split; [reflexivity|discriminate].
  - replace (is_nil (unrec c)) with false; [exact H|]. unfold unrec, utf8_len. destruct (_ <? _)%N; [reflexivity|]. destruct (_ <? _)%N; [reflexivity|]. destruct (_ <? _)%N; reflexivity.
Qed.
Lemma unescaped_chars : forall e x b v, unescaped e x b v -> Forall P b -> Forall P v.
Proof. intros e x b v H. induction H; intros F; [constructor| |]; inversion F; subst; [inversion H3; subst|]; constructor; auto. Qed.
Definition char_ok (c : N) : Prop := c = 10%N \/ P c.
Definition ready (q : mode) (prev : bool) (s : list N) : Prop :=
  match q with q_SAMPLE _ _ => prev = true \/ q = q_SAMPLE false [] /\ exists r, ends_at s = Some r | _ => True end.
Lemma suffix_ok : forall s t, suffix s t -> Forall char_ok t -> Forall char_ok s.
Proof. intros s t (a & ->) H. apply Forall_app in H. apply H. Qed.
Lemma no_line : forall b, ~ In 10%N b -> Forall char_ok b -> Forall P b.
Proof. intros b H F. apply Forall_forall. intros x Hx. rewrite Forall_forall in F. destruct (F x Hx) as [->|K]; [contradiction|exact K]. Qed.
Lemma step_fine : forall q d c r t q' d' s prev, step q d c r = Ok (t, q', d', s) -> delims_ok d -> clean (c :: r) -> Forall char_ok (c :: r) -> ready q prev (c :: r) ->
  exists prev', ready q' prev' s /\ forall ts, fine prev' ts -> fine prev (t ++ ts).
Proof.
  intros q d c r t q' d' s prev H Hd H0 Hc Hr.
  assert (Ko : (forall b a, q <> q_SAMPLE b a) -> Ok (step_other q d c r) = Ok (t, q', d', s) ->
    exists prev', ready q' prev' s /\ forall ts, fine prev' ts -> fine prev (t ++ ts)).
  { intros Nq E. injection E as E. unfold step_other in E.
    destruct (N.eqb c 35); [destruct (up_to_newline r)|]; injection E as <- <- _ _.
    - exists prev. split; [destruct q; try exact I; destruct (Nq bol acc eq_refl)|]. auto.
    - exists false. split; [destruct q; try exact I; destruct (Nq bol acc eq_refl)|]. intros ts. apply fine_unrec.
    - exists false. split; [destruct q; try exact I; destruct (Nq bol acc eq_refl)|]. intros ts. apply fine_unrec. }
  assert (K0 : (forall b a, q <> q_SAMPLE b a) -> Ok (@nil token, q, d, r) = Ok (t, q', d', s) ->
    exists prev', ready q' prev' s /\ forall ts, fine prev' ts -> fine prev (t ++ ts)).
  { intros Nq E. injection E as <- <- _ _. exists prev. split; [destruct q; try exact I; destruct (Nq bol acc eq_refl)|]. auto. }
  assert (K1 : forall t0 q0, (forall b a, q0 <> q_SAMPLE b a) -> is_sample t0 = false -> (forall s0, t0 <> T_STRING s0) -> [t0] = t -> q0 = q' ->
    exists prev', ready q' prev' s /\ forall ts, fine prev' ts -> fine prev (t ++ ts)).
  { intros t0 q0 Nq H1 H2 <- <-. exists false. split; [destruct q0; try exact I; destruct (Nq bol acc eq_refl)|]. intros ts. apply fine_one; assumption. }
  assert (Ks : (forall b a, q <> q_SAMPLE b a) -> step_string q d c r = Ok (t, q', d', s) ->
    exists prev', ready q' prev' s /\ forall ts, fine prev' ts -> fine prev (t ++ ts)).
  { intros Nq E. unfold step_string in E. destruct (C31_literals d (c :: r) Hd ltac:(apply clean_in; exact H0)) as (l & El & Hl & _ & _). rewrite El in E. cbn [bind] in E.
    destruct l as [|v u|u]; [exact (Ko Nq E)| |].
    - injection E as <- <- _ _. exists false. split; [destruct q; try exact I; destruct (Nq bol acc eq_refl)|]. intros ts F. split; [right|exact F].
      destruct (proj1 (Hl v u) eq_refl) as (body & Eb & Nb & _ & Un). eapply unescaped_chars; [exact Un|]. apply no_line; [exact Nb|].
      rewrite Eb in Hc. inversion Hc; subst. match goal with K : Forall char_ok (body ++ _) |- _ => apply Forall_app in K; apply K end.
    - injection E as E1 E2 _ _. exact (K1 T_UNREC q Nq eq_refl ltac:(discriminate) E1 E2). }
  assert (Sy : forall x, symbol c = Some x -> is_sample x = false /\ forall s0, x <> T_STRING s0).
  { intros x Hx. unfold symbol in Hx. repeat match type of Hx with (if ?b then _ else _) = _ => destruct b; [injection Hx as <-; split; [reflexivity|discriminate]|] end. discriminate. }
  assert (Kw : step_word q d c r = (t, q', d', s) -> (forall b a, q <> q_SAMPLE b a) -> (q = q_INITIAL \/ q = q_BOX) ->
    exists prev', ready q' prev' s /\ forall ts, fine prev' ts -> fine prev (t ++ ts)).
  { intros E Nq Hq. unfold step_word in E. destruct (span word_char (c :: r)) as [w u].
    destruct (Neq_list w [bom]); [injection E as <- <- _ _; exists prev; split; [destruct q; try exact I; destruct (Nq bol acc eq_refl)|auto]|].
    destruct (forallb is_ascii w); [|injection E as E1 E2 _ _; exact (K1 (T_BXWORD w) q Nq eq_refl ltac:(discriminate) E1 E2)].
    destruct (match q with q_INITIAL => _ | _ => _ end) as [[t0 q0] d0] eqn:Ew. injection E as E1 E2 _ _. destruct Hq as [->| ->].
    - unfold word_initial in Ew.
      repeat match type of Ew with (if ?b then _ else _) = _ => destruct b; [injection Ew as <- <- _; eapply K1; [| | |exact E1|exact E2]; [discriminate|reflexivity|discriminate]|] end.
      injection Ew as <- <- _. eapply K1; [| | |exact E1|exact E2]; [discriminate|reflexivity|discriminate].
    - unfold word_box in Ew. destruct (same_nocase w (lit "sample")).
      { injection Ew as <- <- _. subst t q'. exists true. split; [left; reflexivity|]. intros ts F. split; [exact I|exact F]. }
      repeat match type of Ew with (if ?b then _ else _) = _ => destruct b; [injection Ew as <- <- _; eapply K1; [| | |exact E1|exact E2]; [discriminate|reflexivity|discriminate]|] end.
      injection Ew as <- <- _. eapply K1; [| | |exact E1|exact E2]; [discriminate|reflexivity|discriminate]. }
  destruct q as [| | | | | |bol acc]; cbn [step] in H.
  - destruct (is_white c); [exact (K0 ltac:(discriminate) H)|]. destruct (word_start c); [|exact (Ko ltac:(discriminate) H)]. injection H as H. apply Kw; [exact H|discriminate|auto].
  - destruct (is_white c); [exact (K0 ltac:(discriminate) H)|]. destruct (word_start c); [injection H as H; apply Kw; [exact H|discriminate|auto]|].
    destruct (is_digit c || _ || _).
    { unfold step_number in H. destruct (span is_digit _) as [ds u]. destruct (is_nil ds); [exact (Ko ltac:(discriminate) H)|].
      destruct (atoi _ _) as [z| | | |]; try discriminate. injection H as E1 E2 _ _. exact (K1 (T_NUMBER z) q_BOX ltac:(discriminate) eq_refl ltac:(discriminate) E1 E2). }
    destruct (symbol c) as [t0|]; [|exact (Ks ltac:(discriminate) H)]. destruct (Sy t0 eq_refl) as [S1 S2]. injection H as E1 E2 _ _.
    exact (K1 t0 q_BOX ltac:(discriminate) S1 S2 E1 E2).
  - destruct (is_white c || _); [exact (K0 ltac:(discriminate) H)|].
    destruct (symbol c) as [t0|]. { destruct (Sy t0 eq_refl) as [S1 S2]. injection H as E1 E2 _ _.
    exact (K1 t0 (if N.eqb c 125 then q_BOX else q_SHAPES) ltac:(destruct (N.eqb c 125); discriminate) S1 S2 E1 E2). }
    destruct (shape_at 3 (c :: r)) as [[i u]|]; [|exact (Ks ltac:(discriminate) H)]. injection H as E1 E2 _ _.
    exact (K1 (T_SHAPE i) q_SHAPES ltac:(discriminate) eq_refl ltac:(discriminate) E1 E2).
  - destruct (is_white c || _); [exact (K0 ltac:(discriminate) H)|].
    destruct (symbol c) as [t0|]. { destruct (Sy t0 eq_refl) as [S1 S2]. injection H as E1 E2 _ _.
    exact (K1 t0 (if N.eqb c 41 then q_BOX else q_ELASTIC) ltac:(destruct (N.eqb c 41); discriminate) S1 S2 E1 E2). }
    destruct (shape_at 3 (c :: r)) as [[i u]|]; [|exact (Ko ltac:(discriminate) H)]. injection H as E1 E2 _ _.
    exact (K1 (T_SHAPE i) q_ELASTIC ltac:(discriminate) eq_refl ltac:(discriminate) E1 E2).
  - injection H as H. unfold step_delimspec in H.
    destruct (is_white c); [injection H as <- <- _ _; exists prev; split; [exact I|auto]|].
    destruct (span _ (c :: r)) as [w u]. destruct (Neq_list w [bom]); [injection H as <- <- _ _; exists prev; split; [exact I|auto]|].
    destruct (if forallb is_ascii w then _ else _); injection H as E1 E2 _ _.
    + exact (K1 T_DELIMSPEC q_BOX ltac:(discriminate) eq_refl ltac:(discriminate) E1 E2).
    + exact (K1 T_UNREC q_BOX ltac:(discriminate) eq_refl ltac:(discriminate) E1 E2).
  - unfold step_parent in H. destruct (span _ (c :: r)) as [w u].
    destruct (negb (is_nil w)); [injection H as E1 E2 _ _; exact (K1 (T_FILENAME w) q_INITIAL ltac:(discriminate) eq_refl ltac:(discriminate) E1 E2)|].
    destruct (N.eqb c 10); [injection H as <- <- _ _; exists prev; split; [exact I|auto]|].
    destruct r as [|c2 r2]; [discriminate|]. destruct (N.eqb c2 10); [|discriminate]. injection H as <- <- _ _. exists prev; split; [exact I|auto].
  - unfold step_sample in H. destruct (span _ (c :: r)) as [b u]. cbn [ready] in Hr.
    destruct (bol && match ends_at u with Some _ => true | None => false end) eqn:B.
    + apply andb_true_iff in B as [-> B]. destruct (ends_at u) as [ru|] eqn:Eu; [|discriminate].
      injection H as <- <- _ <-. exists false. split; [right; split; [reflexivity|exists ru; exact Eu]|]. intros ts F.
      destruct Hr as [->|[Hr _]]; [|discriminate]. destruct (is_nil _); (split; [auto|exact F]).
    + destruct (ends_at (c :: r)) as [re|] eqn:Ee.
      * injection H as E1 E2 _ _. exact (K1 T_ENDSAMPLE q_BOX ltac:(discriminate) eq_refl ltac:(discriminate) E1 E2).
      * destruct Hr as [->|[_ (r0 & F)]]; [|congruence]. exists true. destruct (N.eqb c 10); injection H as <- <- _ _; (split; [left; reflexivity|auto]).
Qed.
Lemma from_fine : forall f q d s ts prev, scan_from f q d s = Ok ts -> delims_ok d -> clean s -> Forall char_ok s -> ready q prev s -> fine prev ts.
Proof.
  induction f as [|f IH]; intros q d s ts prev H Hd H0 Hc Hr; destruct s as [|c r]; cbn [scan_from] in H; try discriminate.
  - injection H as <-. exact I.
  - injection H as <-. exact I.
  - destruct (step q d c r) as [[[[t q1] d1] s1]| | | |] eqn:E; try discriminate. cbn [bind] in H.
    destruct (scan_from f q1 d1 s1) as [ts1| | | |] eqn:E1; try discriminate. cbn [bind] in H. injection H as <-.
    destruct (step_fine _ _ _ _ _ _ _ _ prev E Hd H0 Hc Hr) as (p' & R & F). apply F. pose proof (step_suffix _ _ _ _ _ _ _ _ E) as Sf.
    eapply IH; [exact E1| | | |exact R]; [eapply step_delims; eassumption|eapply suffix_clean; eassumption|eapply suffix_ok; eassumption].
Qed.
Lemma scan_fine : forall s ts, scan s = Ok ts -> clean s -> Forall char_ok s -> fine true ts.
Proof. intros s ts H H0 Hc. eapply from_fine; [exact H|split; [cbn; auto|discriminate]|exact H0|exact Hc|exact I]. Qed.

(** the same for statements *)
Definition shape_fine (d : shape_def) : Prop := match d with no_lines => True | lines a l => Forall (Forall P) (a :: l) end.
Definition item_fine (i : item) : Prop := match i with i_shapes l => Forall (fun p => shape_fine (snd p)) l | _ => True end.
Definition stmt_fine (s : stmt) : Prop := match s with s_box _ _ l _ => Forall item_fine l | _ => True end.
Lemma fine_tl : forall b t ts, fine b (t :: ts) -> fine true ts.
Proof. intros b t ts [_ H]. eapply fine_weak; exact H. Qed.
Lemma string_list_fine : forall ts l r, fine false ts -> string_list ts = Some (l, r) -> Forall (Forall P) l /\ fine false r.
Proof.
  intros ts. induction ts as [ts IH] using (well_founded_induction (Wf_nat.well_founded_ltof _ (@List.length token))). intros l r F H.
  destruct ts as [|t ts]; [discriminate|]. destruct t; try discriminate H. destruct ts as [|t2 ts]; [discriminate|].
  cbn [fine is_sample] in F. destruct F as [[F|F] [_ F2]]; [discriminate|].
  destruct t2; try discriminate H; cbn [string_list] in H.
  - destruct (string_list ts) as [[l' r']|] eqn:E; [|discriminate]. injection H as <- <-.
    destruct (IH ts ltac:(unfold Wf_nat.ltof; cbn; lia) l' r' F2 E) as [I1 I2]. split; [constructor; assumption|exact I2].
  - injection H as <- <-. split; [constructor; [exact F|constructor]|exact F2].
Qed.
Lemma shape_def_fine : forall ts sd r, fine false ts -> shape_def_of ts = Some (sd, r) -> shape_fine sd /\ fine false r.
Proof.
  intros ts sd r F H. unfold shape_def_of in H. destruct ts as [|t ts]; [discriminate|]. destruct t; try discriminate H.
  cbn [fine is_sample] in F. destruct F as [_ F].
  assert (K : match string_list ts with Some (s :: l, r') => Some (lines s l, r') | _ => None end = Some (sd, r) -> shape_fine sd /\ fine false r).
  { intros E. destruct (string_list ts) as [[[|a l] r']|] eqn:El; try discriminate. injection E as <- <-. exact (string_list_fine ts _ _ F El). }
  destruct ts as [|t2 ts]; [exact (K H)|]. destruct t2; try exact (K H). injection H as <- <-. cbn [fine is_sample] in F. split; [exact I|apply F].
Qed.
Lemma slist_fine : forall f ts l r, fine false ts -> slist f ts = Some (l, r) -> Forall (fun p => shape_fine (snd p)) l /\ fine true r.
Proof.
  induction f as [|f IH]; intros ts l r F H; [discriminate|]. cbn [slist] in H. destruct ts as [|t ts]; [discriminate|]. destruct t; try discriminate H.
  cbn [fine is_sample] in F. destruct F as [_ F]. destruct (shape_def_of ts) as [[sd r1]|] eqn:E; [|discriminate].
  destruct (shape_def_fine _ _ _ F E) as [S1 S2].
  assert (D : (exists r2, r1 = T_RBRACE :: r2 /\ l = [(i, sd)] /\ r = r2) \/ exists l', slist f r1 = Some (l', r) /\ l = (i, sd) :: l').
  { destruct r1 as [|x r2]; [|destruct x; try (left; exists r2; injection H as <- <-; auto; fail)]; right;
    (destruct (slist f _) as [[l' r'']|]; [|discriminate]; injection H as <- <-; eauto). }
  destruct D as [(r2 & -> & -> & ->)|(l' & E' & ->)].
  - split; [constructor; [exact S1|constructor]|eapply fine_tl; exact S2].
  - destruct (IH _ _ _ S2 E') as [I1 I2]. split; [constructor; assumption|exact I2].
Qed.
Lemma suffix_fine : forall a ts b, fine b (a ++ ts) -> fine true ts.
Proof. induction a as [|t a IH]; intros ts b H; [eapply fine_weak; exact H|]. cbn [app] in H. eapply IH. eapply fine_tl. exact H. Qed.
Definition tsuffix (s t : list token) : Prop := exists a, t = a ++ s.
Lemma tsuffix_refl : forall s, tsuffix s s.
Proof. intros s. exists []. reflexivity. Qed.
Lemma tsuffix_cons : forall c s t, tsuffix s t -> tsuffix s (c :: t).
Proof. intros c s t (a & ->). exists (c :: a). reflexivity. Qed.
Lemma tsuffix_trans : forall a b c, tsuffix a b -> tsuffix b c -> tsuffix a c.
Proof. intros a b c (x & ->) (y & ->). exists (y ++ x). apply app_assoc. Qed.
Lemma tsuffix_fine : forall s t b, tsuffix s t -> fine b t -> fine true s.
Proof. intros s t b (a & ->) H. eapply suffix_fine. exact H. Qed.
Lemma string_list_suf : forall ts l r, string_list ts = Some (l, r) -> tsuffix r ts.
Proof.
  intros ts. induction ts as [ts IH] using (well_founded_induction (Wf_nat.well_founded_ltof _ (@List.length token))). intros l r H.
  destruct ts as [|t ts]; [discriminate|]. destruct t; try discriminate H. destruct ts as [|t2 ts]; [discriminate|].
  destruct t2; try discriminate H; cbn [string_list] in H; apply tsuffix_cons, tsuffix_cons.
  - destruct (string_list ts) as [[l' r']|] eqn:E; [|discriminate]. injection H as <- <-. apply (IH ts ltac:(unfold Wf_nat.ltof; cbn; lia) l' r' E).
  - injection H as <- <-. apply tsuffix_refl.
Qed.
Lemma elist_suf : forall ts l r, elist ts = Some (l, r) -> tsuffix r ts.
Proof.
  intros ts. induction ts as [ts IH] using (well_founded_induction (Wf_nat.well_founded_ltof _ (@List.length token))). intros l r H.
  destruct ts as [|t ts]; [discriminate|]. destruct t; try discriminate H. destruct ts as [|t2 ts]; [discriminate|].
  destruct t2; try discriminate H; cbn [elist] in H; apply tsuffix_cons, tsuffix_cons.
  - destruct (elist ts) as [[l' r']|] eqn:E; [|discriminate]. injection H as <- <-. apply (IH ts ltac:(unfold Wf_nat.ltof; cbn; lia) l' r' E).
  - injection H as <- <-. apply tsuffix_refl.
Qed.
Lemma wlist_suf : forall ts l r, wlist ts = Some (l, r) -> tsuffix r ts.
Proof.
  intros ts. induction ts as [ts IH] using (well_founded_induction (Wf_nat.well_founded_ltof _ (@List.length token))). intros l r H.
  destruct ts as [|t ts]; [discriminate|]. destruct t; try discriminate H. destruct ts as [|t2 ts]; [discriminate|]. destruct t2; try discriminate H.
  apply tsuffix_cons, tsuffix_cons.
  assert (K : match wlist ts with Some (l0, r') => Some ((s, z) :: l0, r') | None => None end = Some (l, r) -> tsuffix r ts).
  { intros E. destruct (wlist ts) as [[l' r']|] eqn:E'; [|discriminate]. injection E as <- <-. apply (IH ts ltac:(unfold Wf_nat.ltof; cbn; lia) l' r' E'). }
  destruct ts as [|t3 ts]; [discriminate H|]. assert (D : t3 = T_RBRACE \/ t3 <> T_RBRACE) by (destruct t3; ((left; reflexivity) || (right; discriminate))).
  destruct D as [->|D]; [injection H as <- <-; apply tsuffix_cons, tsuffix_refl|]. apply K. rewrite <- H. destruct t3; try congruence; reflexivity.
Qed.
Lemma rflag_suf : forall ts m r, rflag ts = (m, r) -> tsuffix r ts.
Proof.
  intros [|t ts] m r H; [injection H as _ <-; apply tsuffix_refl|]. destruct t; try (injection H as _ <-; apply tsuffix_refl).
  injection H as _ <-. apply tsuffix_cons, tsuffix_refl.
Qed.
Lemma item_fine_ok : forall ts i r, fine true ts -> item_of ts = Some (i, r) -> item_fine i /\ fine true r.
Proof.
  intros ts i r F H.
  assert (Suf : tsuffix r ts -> fine true r) by (intros S; eapply tsuffix_fine; eassumption).
  destruct ts as [|t ts]; [discriminate|]. destruct t; try discriminate H.
  - (* SHAPES *) destruct ts as [|t2 ts]; [discriminate|]. destruct t2; try discriminate H. cbn [item_of] in H.
    destruct (slist (List.length ts) ts) as [[l r']|] eqn:E; [|discriminate]. injection H as <- <-. cbn [fine is_sample] in F. destruct F as [_ [_ F]].
    exact (slist_fine _ _ _ _ F E).
  - destruct ts as [|t2 ts]; [discriminate|]. destruct t2; try discriminate H. cbn [item_of] in H.
    destruct (elist ts) as [[l r']|] eqn:E; [|discriminate]. injection H as <- <-. split; [exact I|]. apply Suf. apply tsuffix_cons, tsuffix_cons. eapply elist_suf; exact E.
  - destruct ts as [|t2 ts]; [discriminate|]. destruct t2; try discriminate H. cbn [item_of] in H.
    destruct (wlist ts) as [[l r']|] eqn:E; [|discriminate]. injection H as <- <-. split; [exact I|]. apply Suf. apply tsuffix_cons, tsuffix_cons. eapply wlist_suf; exact E.
  - destruct ts as [|t2 ts]; [discriminate|]. destruct t2; try discriminate H. destruct ts as [|t3 ts]; [discriminate|]. destruct t3; try discriminate H.
    injection H as <- <-. split; [exact I|]. apply Suf. apply tsuffix_cons, tsuffix_cons, tsuffix_cons, tsuffix_refl.
  - cbn [item_of] in H. destruct (rflag ts) as [m r1] eqn:E. apply rflag_suf in E.
    destruct r1 as [|t2 r1]; [discriminate|]. destruct t2; try discriminate H. destruct r1 as [|t3 r1]; [discriminate|]. destruct t3; try discriminate H.
    destruct r1 as [|t4 r1]; [discriminate|]. destruct t4; try discriminate H. injection H as <- <-. split; [exact I|]. apply Suf. apply tsuffix_cons.
    eapply tsuffix_trans; [|exact E]. apply tsuffix_cons, tsuffix_cons, tsuffix_cons, tsuffix_refl.
  - cbn [item_of] in H. destruct (rflag ts) as [m r1] eqn:E. apply rflag_suf in E.
    destruct r1 as [|t2 r1]; [discriminate|]. destruct t2; try discriminate H. destruct r1 as [|t3 r1]; [discriminate|]. destruct t3; try discriminate H.
    destruct r1 as [|t4 r1]; [discriminate|]. destruct t4; try discriminate H. injection H as <- <-. split; [exact I|]. apply Suf. apply tsuffix_cons.
    eapply tsuffix_trans; [|exact E]. apply tsuffix_cons, tsuffix_cons, tsuffix_cons, tsuffix_refl.
  - destruct ts as [|t2 ts]; [discriminate|]. destruct t2; try discriminate H. injection H as <- <-. split; [exact I|]. apply Suf. apply tsuffix_cons, tsuffix_cons, tsuffix_refl.
  - destruct ts as [|t2 ts]; [discriminate|]. destruct t2; try discriminate H.
    + injection H as <- <-. split; [exact I|]. apply Suf. apply tsuffix_cons, tsuffix_cons, tsuffix_refl.
    + cbn [item_of] in H. destruct (string_list ts) as [[l r']|] eqn:E; [|discriminate]. injection H as <- <-. split; [exact I|]. apply Suf.
      apply tsuffix_cons, tsuffix_cons. eapply string_list_suf; exact E.
  - destruct ts as [|t2 ts]; [discriminate|]. destruct t2; try discriminate H. injection H as <- <-. split; [exact I|]. apply Suf. apply tsuffix_cons, tsuffix_cons, tsuffix_refl.
  - destruct ts as [|t2 ts]; [discriminate|]. destruct t2; try discriminate H. injection H as <- <-. split; [exact I|]. apply Suf. apply tsuffix_cons, tsuffix_cons, tsuffix_refl.
  - destruct ts as [|t2 ts]; [discriminate|]. destruct t2; try discriminate H. injection H as <- <-. split; [exact I|]. apply Suf. apply tsuffix_cons, tsuffix_cons, tsuffix_refl.
Qed.
Lemma layout_fine : forall f a l e r, fine true a -> layout f a = (l, e, r) -> Forall item_fine l /\ fine true r.
Proof.
  induction f as [|f IH]; intros a l e r F E; [injection E as <- <- <-; auto|].
  destruct a as [|t a]; [injection E as <- <- <-; auto|].
  assert (D : t = T_END \/ t <> T_END) by (destruct t; (left; reflexivity) || (right; discriminate)). destruct D as [->|D].
  - pose proof (fine_tl _ _ _ F) as F1. destruct a as [|y a]; [injection E as <- <- <-; auto|]. pose proof (fine_tl _ _ _ F1) as F2.
    destruct y; injection E as <- <- <-; auto.
  - rewrite layout_S in E by exact D. destruct (item_of (t :: a)) as [[i r1]|] eqn:E2; [|injection E as <- <- <-; auto].
    destruct (item_fine_ok _ _ _ F E2) as [I1 I2]. destruct (layout f r1) as [[l' e'] r'] eqn:E3. injection E as <- <- <-.
    destruct (IH _ _ _ _ I2 E3) as [I3 I4]. auto.
Qed.
Lemma recovered_suf : forall a, tsuffix (recovered a) a.
Proof. induction a as [|t a IH]; [apply tsuffix_refl|]. destruct t; try (apply tsuffix_cons; exact IH); apply tsuffix_refl. Qed.
Lemma alias_suf : forall a l ok r, alias_list a = (l, ok, r) -> tsuffix r a.
Proof.
  intros a. remember (List.length a) as n eqn:En. assert (Hn : List.length a <= n) by lia. clear En. revert a Hn.
  induction n as [|n IH]; intros a Hn l ok r E.
  - destruct a; [|cbn in Hn; lia]. injection E as <- <- <-. apply tsuffix_refl.
  - destruct a as [|x a]; [injection E as <- <- <-; apply tsuffix_refl|]. destruct x; try (injection E as <- <- <-; apply tsuffix_refl).
    destruct a as [|y a]; [injection E as <- <- <-; apply tsuffix_cons, tsuffix_refl|].
    destruct y; try (injection E as <- <- <-; apply tsuffix_cons, tsuffix_refl). cbn [alias_list] in E. destruct (alias_list a) as [[l' ok'] r'] eqn:E2. injection E as <- <- <-.
    apply tsuffix_cons, tsuffix_cons. apply IH in E2; [exact E2|cbn in Hn; lia].
Qed.
Lemma design_fine : forall a s r, fine true a -> design_of a = (s, r) -> stmt_fine s /\ fine true r.
Proof.
  intros a s r F E.
  assert (Rec : forall b, fine true b -> fine true (recovered b)) by (intros b Fb; eapply tsuffix_fine; [apply recovered_suf|exact Fb]).
  destruct a as [|x a]; [injection E as <- <-; split; exact I|]. unfold design_of in E.
  assert (K : fine true (recovered (x :: a))) by (apply Rec; exact F).
  destruct x; try (injection E as <- <-; split; [exact I|exact K]).
  destruct (alias_list a) as [[al ok] r1] eqn:E1. apply alias_suf in E1. assert (F1 : fine true r1) by (eapply tsuffix_fine; [exact E1|eapply fine_tl; exact F]).
  destruct ok; [|injection E as <- <-; split; [exact I|apply Rec; exact F1]].
  destruct (layout _ r1) as [[l e] r2] eqn:E2. destruct (layout_fine _ _ _ _ _ F1 E2) as [L1 L2].
  destruct e; injection E as <- <-; cbn [stmt_fine].
  - split; [exact L1|]. destruct (is_nil l); auto.
  - split; [|auto]. apply Forall_app. split; [exact L1|]. constructor; [exact I|constructor].
Qed.
Lemma config_fine : forall f a, fine true a -> Forall stmt_fine (config_file f a).
Proof.
  induction f as [|f IH]; intros a F; [constructor|]. destruct a as [|t a]; [constructor|].
  assert (R : fine true (recovered a)) by (eapply tsuffix_fine; [apply recovered_suf|eapply fine_tl; exact F]).
  assert (J : Forall stmt_fine (s_junk :: config_file f (recovered a))) by (constructor; [exact I|apply IH; exact R]).
  destruct t; try exact J.
  - destruct a as [|y a]; [exact J|]. destruct y; try exact J. constructor; [exact I|]. apply IH. eapply fine_tl. eapply fine_tl. exact F.
  - cbn [config_file]. destruct (design_of a) as [s r] eqn:E. destruct (design_fine _ _ _ (fine_tl _ _ _ F) E) as [D1 D2]. constructor; [exact D1|apply IH; exact D2].
Qed.
Lemma read_fine : forall text l, read_statements text = Ok l -> clean text -> Forall char_ok text -> Forall stmt_fine l.
Proof.
  intros text l H H0 Hc. unfold read_statements in H. destruct (scan text) as [ts| | | |] eqn:E; try discriminate. cbn [bind] in H. injection H as <-.
  destruct (is_nil ts); [constructor; [exact I|constructor]|]. apply config_fine. eapply scan_fine; eassumption.
Qed.
End Fine.

(** ** a byte order mark in front of white space or a comment *)
Lemma bom_runs : forall d s, (exists c r, s = c :: r /\ (white c \/ c = 35%N)) -> runs q_INITIAL d (bom :: s) [] q_INITIAL d s.
Proof.
  intros d s (c & r & -> & H). apply (runs_one _ _ bom (c :: r)). cbn [step]. change (is_white bom) with false. change (word_start bom) with true. cbv iota.
  unfold step_word. assert (E : word_char c = false) by (destruct H as [H| ->]; [cbn in H; destruct H as [<-|[<-|[<-|[<-|[]]]]]; reflexivity|reflexivity]).
  cbn [span]. change (word_char bom) with true. cbv iota. cbn [span]. rewrite E. cbn. reflexivity.
Qed.
Lemma scan_bom : forall s ts, (exists c r, s = c :: r /\ (white c \/ c = 35%N)) -> scan s = Ok ts -> scan (bom :: s) = Ok ts.
Proof.
  intros s ts H E. unfold scan in *. destruct (scan_condition _ _ _ _ _ E) as (q2 & C2). destruct (from_runs _ _ _ _ _ _ E C2) as (d2 & R2).
  eapply scan_runs; [|apply mu_start]. change ts with ([] ++ ts). eapply runs_app; [apply bom_runs; exact H|exact R2].
Qed.
Lemma begins_stmt : forall us s l, statements us = s :: l -> s <> s_junk -> begins us.
Proof.
  intros us s l H N. unfold statements in H. destruct us as [|t us]; [exact I|]. cbn [List.length] in H.
  destruct t; try exact I; exfalso; apply N; cbn [config_file] in H; injection H as <- _; reflexivity.
Qed.
Lemma written_first : forall l u, written_stmts l u -> exists s r, l = s :: r /\ s <> s_junk.
Proof. intros l u H. destruct H as [s t H|s t g l u H]; exists s; eexists; (split; [reflexivity|]); destruct H; discriminate. Qed.
Theorem recovery : forall x y ts m, ends x -> scan x = Ok ts -> condition_after x = Ok q_INITIAL ->
  (exists s r, m = s :: r /\ s <> s_junk) -> read_statements y = Ok m -> read_statements (x ++ y) = Ok (statements ts ++ m).
Proof.
  intros x y ts m Hx H1 H2 (s & r & Em & Hs) H3. unfold read_statements in *. destruct (scan y) as [us| | | |] eqn:E; try discriminate.
  cbn [bind] in H3. rewrite (scan_app x y ts us Hx H1 H2 E). cbn [bind].
  destruct us as [|t us]; [cbn in H3; injection H3 as H3; rewrite Em in H3; injection H3 as H3 _; congruence|].
  cbn [is_nil] in H3. injection H3 as H3. replace (is_nil (ts ++ t :: us)) with false by (destruct ts; reflexivity).
  rewrite statements_app; [rewrite H3; reflexivity|]. eapply begins_stmt; [rewrite H3; exact Em|exact Hs].
Qed.
