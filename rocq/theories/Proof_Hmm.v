(** * The matcher for horizontal borders: outcomes, soundness, completeness *)
From Coq Require Import List Arith NArith ZArith Bool Lia.
From Verif Require Import Base BaseFacts Model_Unicode Model_Bxs Model_Shape Model_Generate Model_Detect Model_Remove
  Spec_Str Spec_Remove Proof_Str Proof_Bxs Proof_BxsOps Proof_BxsMore Proof_Term.
Import ListNotations.

Lemma between_all : forall m s, between m s (length m) = skipn s m.
Proof. intros m s. unfold between. apply firstn_all2. rewrite skipn_length. lia. Qed.

Lemma skipn_skipn2 : forall (A : Type) n k (l : list A), skipn n (skipn k l) = skipn (k + n) l.
Proof.
  intros A n k. induction k as [|k IH]; intros l; [reflexivity|]. destruct l as [|x l]; cbn; [apply skipn_nil|apply IH].
Qed.

Lemma between_split : forall m a b c, a <= b <= c -> c <= length m -> between m a c = between m a b ++ between m b c.
Proof.
  intros m a b c H Hc. unfold between.
  rewrite <- (firstn_skipn (b - a) (firstn (c - a) (skipn a m))).
  rewrite firstn_firstn, Nat.min_l by lia. f_equal.
  rewrite skipn_firstn_comm, skipn_skipn2. f_equal; [lia|]. f_equal. lia.
Qed.

Lemma between_same : forall m a, between m a a = [].
Proof. intros. unfold between. rewrite Nat.sub_diag. reflexivity. Qed.

Lemma between_length : forall m a b, a <= b <= length m -> length (between m a b) = b - a.
Proof. intros m a b H. unfold between. rewrite firstn_length, skipn_length. lia. Qed.

Lemma strncmp_spec : forall n a b, length b = n -> strncmp0 n a b = true <-> firstn n a = b.
Proof.
  induction n as [|n IH]; intros a b Hb.
  - destruct b; [|discriminate]. cbn. tauto.
  - destruct b as [|y b]; [discriminate|]. destruct a as [|x a]; [cbn; split; discriminate|].
    cbn [strncmp0 firstn]. rewrite andb_true_iff, N.eqb_eq, IH by (cbn in Hb; lia). split.
    + intros [-> ->]. reflexivity.
    + intros E. injection E as -> ->. auto.
Qed.

Lemma prefix_spec : forall n h, is_prefix n h = true <-> exists r, h = n ++ r.
Proof.
  induction n as [|x n IH]; intros h; cbn [is_prefix].
  - split; [intros _; exists h; reflexivity|reflexivity].
  - destruct h as [|y h]; [split; [discriminate|intros [r H]; discriminate]|].
    rewrite andb_true_iff, N.eqb_eq, IH. split.
    + intros [-> [r ->]]. exists r. reflexivity.
    + intros [r E]. injection E as -> ->. eauto.
Qed.

Lemma strstr_spec : forall h n k, u32_strstr h n = Some k -> k + length n <= length h /\ firstn (length n) (skipn k h) = n.
Proof.
  intros h n k H. split; [apply strstr_len; exact H|]. revert k H.
  induction h as [|x h IH]; intros k H; cbn [u32_strstr] in H; destruct (is_prefix n _) eqn:E.
  - injection H as <-. apply prefix_spec in E as [r E]. cbn [skipn]. rewrite E, firstn_app, Nat.sub_diag, firstn_all. apply app_nil_r.
  - discriminate.
  - injection H as <-. apply prefix_spec in E as [r E]. cbn [skipn]. rewrite E, firstn_app, Nat.sub_diag, firstn_all. apply app_nil_r.
  - destruct (u32_strstr h n) as [i|]; [|discriminate]. injection H as <-. cbn [skipn]. apply IH. reflexivity.
Qed.

Lemma strstr_first : forall h n k, u32_strstr h n = Some k -> forall j, j < k -> is_prefix n (skipn j h) = false.
Proof.
  induction h as [|x h IH]; intros n k H j Hj; cbn [u32_strstr] in H; destruct (is_prefix n _) eqn:E.
  - injection H as <-. lia.
  - discriminate.
  - injection H as <-. lia.
  - destruct (u32_strstr h n) as [i|] eqn:Ei; [|discriminate]. injection H as <-.
    destruct j as [|j]; [exact E|]. cbn [skipn]. apply (IH n i Ei). lia.
Qed.

Lemma strstr_some : forall h n j, is_prefix n (skipn j h) = true -> exists k, u32_strstr h n = Some k /\ k <= j.
Proof.
  induction h as [|x h IH]; intros n j H; cbn [u32_strstr].
  - rewrite skipn_nil in H. rewrite H. exists 0. split; [reflexivity|lia].
  - destruct (is_prefix n (x :: h)) eqn:E; [exists 0; split; [reflexivity|lia]|].
    destruct j as [|j]; [cbn [skipn] in H; congruence|]. cbn [skipn] in H.
    apply IH in H as (k & -> & Hk). exists (S k). split; [reflexivity|lia].
Qed.

Lemma app_eq_app_len : forall (A : Type) (a b c d : list A), a ++ b = c ++ d -> length a = length c -> a = c /\ b = d.
Proof.
  intros A a. induction a as [|x a IH]; intros b [|y c] d E H; try discriminate; [auto|].
  cbn in E. injection E as -> E. destruct (IH b c d E) as [-> ->]; [cbn in H; lia|]. auto.
Qed.

Section WithTables.
Variable U : uctab.

Lemma blanks_forallb : forall s, blanks U s <-> forallb (is_blank U) s = true.
Proof. intros s. unfold blanks. rewrite forallb_forall, Forall_forall. reflexivity. Qed.

(** ** shortening *)
Lemma between_snoc_l : forall m s e, s < e -> e <= length m ->
  exists c, nth_error m s = Some c /\ between m s e = c :: between m (S s) e.
Proof.
  intros m s e H He. destruct (nth_error m s) as [c|] eqn:E; [|apply nth_error_None in E; lia].
  exists c. split; [reflexivity|]. rewrite (between_split m s (S s) e) by lia.
  replace (between m s (S s)) with [c]; [reflexivity|]. unfold between. replace (S s - s) with 1 by lia.
  apply nth_error_split in E as (a & b & -> & <-). rewrite skipn_app, skipn_all, Nat.sub_diag. reflexivity.
Qed.

Lemma blank_at_between : forall m i, blank_at U m i = true -> blanks U (between m i (S i)) /\ i < length m.
Proof.
  intros m i H. unfold blank_at in H. destruct (nth_error m i) as [c|] eqn:E; [|discriminate].
  assert (i < length m) by (apply nth_error_Some; congruence). split; [|assumption].
  destruct (between_snoc_l m i (S i)) as (c' & E' & ->); [lia|lia|]. rewrite between_same.
  constructor; [congruence|constructor].
Qed.

Lemma shorten_loop_spec : forall n m s e pl al ar s' e', e <= length m -> s <= e ->
  shorten_loop U n m s e pl al ar = (s', e') ->
  s <= s' /\ s' <= e' /\ e' <= e /\ blanks U (between m s s') /\ blanks U (between m e' e) /\
  (pl = false -> al = false -> s' = s) /\ (ar = false -> e' = e).
Proof.
  induction n as [|n IH]; intros m s e pl al ar s' e' He Hse H; cbn [shorten_loop] in H.
  - injection H as <- <-. rewrite !between_same. repeat split; try lia; constructor.
  - assert (HL : forall s' e', (s <? e) && blank_at U m s = true -> shorten_loop U n m (S s) e pl al ar = (s', e') ->
      (pl = false -> al = true) ->
      s <= s' /\ s' <= e' /\ e' <= e /\ blanks U (between m s s') /\ blanks U (between m e' e) /\
      (pl = false -> al = false -> s' = s) /\ (ar = false -> e' = e)).
    { clear H s' e'. intros s' e' Hc H Hx. apply andb_true_iff in Hc as [Hc Hb]. apply Nat.ltb_lt in Hc.
      apply blank_at_between in Hb as [Hb _]. apply IH in H as (H1 & H2 & H3 & H4 & H5 & H6 & H7); [|lia|lia].
      repeat split; try lia; auto.
      - rewrite (between_split m s (S s) s') by lia. apply Forall_app. auto.
      - intros Hp Ha. rewrite (Hx Hp) in Ha. discriminate. }
    assert (HR : forall s' e', (s <? e) && ar && blank_at U m (e - 1) = true -> shorten_loop U n m s (e - 1) pl al ar = (s', e') ->
      s <= s' /\ s' <= e' /\ e' <= e /\ blanks U (between m s s') /\ blanks U (between m e' e) /\
      (pl = false -> al = false -> s' = s) /\ (ar = false -> e' = e)).
    { clear H s' e'. intros s' e' Hc H. apply andb_true_iff in Hc as [Hc Hb]. apply andb_true_iff in Hc as [Hc Har].
      apply Nat.ltb_lt in Hc. apply blank_at_between in Hb as [Hb _]. replace (S (e - 1)) with e in Hb by lia.
      apply IH in H as (H1 & H2 & H3 & H4 & H5 & H6 & H7); [|lia|lia].
      repeat split; try lia; auto.
      - rewrite (between_split m e' (e - 1) e) by lia. apply Forall_app. auto.
      - rewrite Har. discriminate. }
    assert (HN : (s, e) = (s', e') -> s <= s' /\ s' <= e' /\ e' <= e /\ blanks U (between m s s') /\ blanks U (between m e' e) /\
      (pl = false -> al = false -> s' = s) /\ (ar = false -> e' = e)).
    { intros E. injection E as <- <-. rewrite !between_same. repeat split; try lia; constructor. }
    destruct pl.
    + destruct ((s <? e) && blank_at U m s) eqn:E1; [apply HL; auto; discriminate|].
      destruct ((s <? e) && ar && blank_at U m (e - 1)) eqn:E2; [apply HR; auto|auto].
    + destruct ((s <? e) && ar && blank_at U m (e - 1)) eqn:E2; [apply HR; auto|].
      destruct ((s <? e) && blank_at U m s && al) eqn:E1; [|auto].
      apply andb_true_iff in E1 as [E1 Eal]. apply HL; auto.
Qed.

Lemma shorten_spec : forall b q pl al ar l q', num_chars b = length (memory b) ->
  shorten U (Some b) q pl al ar = Some (l, q') ->
  q' < q /\ length l = q' /\ exists a r, memory b = a ++ l ++ r /\ blanks U a /\ blanks U r /\
    (al = false -> a = []) /\ (ar = false -> r = []).
Proof.
  intros b q pl al ar l q' Hb H. pose proof (shorten_dec _ _ _ _ _ _ _ _ H) as [Hq Hl]. specialize (Hl b eq_refl Hb).
  split; [exact Hq|]. split; [exact Hl|]. unfold shorten in H. destruct (num_chars b <? q); [discriminate|].
  destruct (shorten_loop U _ _ _ _ _ _ _) as [s e] eqn:E.
  apply shorten_loop_spec in E as (H1 & H2 & H3 & H4 & H5 & H6 & H7); [|lia|lia].
  destruct (_ <? q); [|discriminate]. injection H as <- <-.
  exists (between (memory b) 0 s), (between (memory b) e (num_chars b)). repeat split; auto.
  - rewrite <- (between_split _ s e (num_chars b)) by lia. rewrite <- (between_split _ 0 s (num_chars b)) by lia.
    rewrite Hb, between_all. reflexivity.
  - intros ->. rewrite H6 by (reflexivity || apply andb_false_l). apply between_same.
  - intros Ha. rewrite (H7 Ha). apply between_same.
Qed.

(** ** shape contexts *)
(** the text of a shape line was built by the program from well-behaved characters *)
Definition text_ok (t : option bxstr) : Prop := forall b, t = Some b -> exists ts, good U ts /\ b = bx U ts.
Definition ctx_ok (sr : list sctx) : Prop :=
  length sr = 5 /\ Forall (fun sc => text_ok (sc_text sc) /\ (sc_empty sc = false -> sc_text sc <> None)) sr.

Definition emptyb (sc : sctx) : bool :=
  sc_empty sc || match blank_opt U (sc_text sc) with Ok x => x | _ => true end.
Definition nths (sr : list sctx) (i : nat) : sctx := nth i sr (mkSctx true None false).
Definition linetext (sc : sctx) : list N := match sc_text sc with Some b => memory b | None => [] end.
(** the shapes with the numbers [i], ..., 3 that exist *)
Definition mids (sr : list sctx) (i : nat) : list (list N * bool) :=
  map (fun sc => (linetext sc, sc_elastic sc)) (filter (fun sc => negb (sc_empty sc)) (firstn (4 - i) (skipn i sr))).

Lemma ctx_nth : forall sr i, ctx_ok sr -> i < 5 -> rd sr i = Ok (nths sr i) /\ text_ok (sc_text (nths sr i)) /\
  (sc_empty (nths sr i) = false -> exists b, sc_text (nths sr i) = Some b).
Proof.
  intros sr i [Hl H] Hi. unfold nths. rewrite (rd_lt _ _ _ (mkSctx true None false)) by lia. split; [reflexivity|].
  rewrite Forall_forall in H. destruct (H (nth i sr (mkSctx true None false))) as [Ht Hn]; [apply nth_In; lia|].
  split; [exact Ht|]. intros E. specialize (Hn E). destruct (sc_text _) as [b|]; [eauto|congruence].
Qed.

Lemma text_blank : forall t, text_ok t -> exists x, blank_opt U t = Ok x.
Proof.
  intros [b|] H; cbn [blank_opt]; [|eauto]. destruct (H b eq_refl) as (ts & Hg & ->). rewrite is_blank_bx. eauto.
Qed.

Lemma line_empty_ok : forall sr i, ctx_ok sr -> i < 5 -> is_shape_line_empty U sr i = Ok (emptyb (nths sr i)).
Proof.
  intros sr i H Hi. destruct (ctx_nth sr i H Hi) as (Hr & Ht & _). unfold is_shape_line_empty.
  destruct (Nat.ltb_spec i 5); [|lia]. rewrite Hr. cbn [bind]. unfold emptyb.
  destruct (sc_empty (nths sr i)); [reflexivity|]. cbn [orb]. destruct (text_blank _ Ht) as [x ->]. reflexivity.
Qed.

Lemma any_nonempty_ok : forall sr l, ctx_ok sr -> Forall (fun i => i < 5) l ->
  any_nonempty U sr l = Ok (existsb (fun i => negb (emptyb (nths sr i))) l).
Proof.
  intros sr l H. induction l as [|i l IH]; intros Hl; [reflexivity|]. inversion Hl; subst. cbn [any_nonempty existsb].
  rewrite line_empty_ok by assumption. cbn [bind]. destruct (emptyb (nths sr i)); [apply IH; assumption|reflexivity].
Qed.

Definition more (sr : list sctx) (i : nat) : bool := existsb (fun j => negb (emptyb (nths sr j))) (seq (S i) (3 - i)).
Lemma more_ok : forall sr i, ctx_ok sr -> non_empty_shapes_after U sr i = Ok (more sr i).
Proof.
  intros sr i H. apply any_nonempty_ok; [exact H|]. apply Forall_forall. intros j Hj. apply in_seq in Hj. lia.
Qed.

Lemma blank_looks : forall ts, good U ts -> bxs_is_blank U (bx U ts) = Ok true -> looks_blank U (render ts).
Proof.
  intros ts Hg H us [Hok Hr]. assert (us = ts) as -> by (apply reading_unique; [exact Hok|apply Hg|exact Hr]).
  rewrite is_blank_bx in H. injection H as H. apply orb_true_iff in H as [H|H].
  - apply Nat.eqb_eq in H. pose proof (render_length ts). destruct (visible ts); [constructor|cbn in *; lia].
  - apply Forall_forall. intros c Hc. rewrite forallb_forall in H. specialize (H c Hc). unfold is_blank.
    apply orb_true_iff in H as [H|H]; [apply orb_true_iff in H as [H|H]|].
    + left. rewrite H. reflexivity.
    + right. apply N.eqb_eq. exact H.
    + left. rewrite H. apply orb_true_r.
Qed.

Lemma looks_blank_iff : forall ts, good U ts -> bxs_is_blank U (bx U ts) = Ok false ->
  ~ looks_blank U (render ts) /\ exists c, In c (render ts) /\ is_blank U c = false.
Proof.
  intros ts Hg H. rewrite is_blank_bx in H. injection H as H. apply orb_false_iff in H as [_ H].
  assert (exists c, In c (visible ts) /\ is_blank U c = false /\ c <> 13%N) as (c & Hc & Hb & Hn).
  { clear Hg. induction (visible ts) as [|c l IH]; [discriminate|]. cbn [forallb] in H. apply andb_false_iff in H as [H|H].
    - exists c. apply orb_false_iff in H as [H1 H2]. apply orb_false_iff in H1 as [H1 H3]. unfold is_blank.
      rewrite H1, H2. split; [left; reflexivity|]. split; [reflexivity|]. apply N.eqb_neq. exact H3.
    - destruct (IH H) as (d & Hd & Hr). exists d. split; [right; exact Hd|exact Hr]. }
  split.
  - intros L. specialize (L ts (conj (proj1 (proj1 Hg)) eq_refl)). rewrite Forall_forall in L.
    destruct (L c Hc) as [L'|L']; congruence.
  - exists c. split; [|exact Hb]. clear - Hc. induction ts as [|t ts IH]; [destruct Hc|].
    rewrite render_cons. rewrite visible_cons in Hc. apply in_or_app. destruct t; cbn [tok_chars] in *; [|right; auto..].
    destruct Hc as [->|Hc]; [left; left; reflexivity|right; auto].
Qed.

Lemma emptyb_looks : forall sc, text_ok (sc_text sc) -> emptyb sc = true -> sc_empty sc = false -> looks_blank U (linetext sc).
Proof.
  intros sc Ht H He. unfold emptyb in H. rewrite He in H. cbn [orb] in H. unfold linetext.
  destruct (sc_text sc) as [b|].
  - destruct (Ht b eq_refl) as (ts & Hg & ->). cbn [blank_opt] in H. apply (blank_looks ts Hg).
    rewrite is_blank_bx in *. congruence.
  - intros ts [Hok Hr]. destruct ts as [|t ts]; [constructor|]. exfalso. exact (render_nonempty _ _ Hok Hr).
Qed.

Lemma mids_step : forall sr i, ctx_ok sr -> i < 4 ->
  mids sr i = (if sc_empty (nths sr i) then [] else [(linetext (nths sr i), sc_elastic (nths sr i))]) ++ mids sr (S i).
Proof.
  intros sr i [Hl _] Hi. unfold mids. replace (4 - i) with (S (4 - S i)) by lia.
  assert (E : skipn i sr = nths sr i :: skipn (S i) sr).
  { unfold nths. clear -Hl Hi. revert i Hi. destruct sr as [|a [|b [|c [|d [|e [|]]]]]]; try discriminate.
    intros [|[|[|[|i]]]] Hi; try lia; reflexivity. }
  rewrite E. cbn [firstn filter]. destruct (sc_empty (nths sr i)); reflexivity.
Qed.
Lemma mids_end : forall sr i, 4 <= i -> mids sr i = [].
Proof. intros sr i H. unfold mids. replace (4 - i) with 0 by lia. reflexivity. Qed.

Lemma more_false : forall sr i, ctx_ok sr -> more sr i = false -> Forall (fun x => looks_blank U (fst x)) (mids sr (S i)).
Proof.
  intros sr i H. unfold more. remember (3 - i) as k eqn:Ek. revert i Ek. induction k as [|k IH]; intros i Ek Hm.
  - rewrite mids_end by lia. constructor.
  - cbn [seq existsb] in Hm. apply orb_false_iff in Hm as [H1 H2]. apply negb_false_iff in H1.
    rewrite mids_step by (auto; lia). apply Forall_app. split; [|apply IH; [lia|exact H2]].
    destruct (sc_empty (nths sr (S i))) eqn:E; [constructor|]. constructor; [|constructor]. cbn [fst].
    apply emptyb_looks; auto. apply (ctx_nth sr (S i) H). lia.
Qed.

(** ** the matcher itself *)
Section Hmm.
Variable sr : list sctx.
Variable m : list N.
Variable endp : nat.
Variable ar : bool.
Hypothesis Hctx : ctx_ok sr.
Hypothesis Hend : endp <= length m.

Lemma ctx_text : forall i b, i < 5 -> sc_text (nths sr i) = Some b -> num_chars b = length (memory b).
Proof.
  intros i b Hi E. destruct (ctx_nth sr i Hctx Hi) as (_ & Ht & _). destruct (Ht b E) as (ts & _ & ->). reflexivity.
Qed.

(** *** no failure *)
Lemma try_total : forall rec n sc cur idx l q b,
  sc_text sc = Some b -> num_chars b = length (memory b) -> length l = q -> q < n -> cur <= length m ->
  (forall c i, cur < c <= length m -> idx <= i -> exists x, rec c i = Ok x) ->
  exists x, hmm_try U rec sr m endp ar n sc cur idx l q = Ok x.
Proof.
  induction n as [|n IH]; intros sc cur idx l q b Hb Hsc Hl Hn Hc Hrec; [lia|]. cbn [hmm_try].
  destruct (Nat.eqb_spec q 0) as [E0|E0]; [eauto|].
  destruct (Nat.ltb_spec (length m) cur) as [Ec|Ec]; [lia|].
  destruct (strncmp0 q (skipn cur m) l) eqn:Es.
  - pose proof (strncmp_len _ _ _ Hl Es) as L. rewrite skipn_length in L.
    rewrite more_ok by exact Hctx. cbn [bind]. destruct (_ && _); [eauto|].
    destruct (sc_elastic sc).
    + destruct (Hrec (cur + q) idx) as [x ->]; [lia|lia|]. cbn [bind]. destruct x; [eauto|]. apply Hrec; lia.
    + cbn [bind]. apply Hrec; lia.
  - destruct (negb ar); [|eauto].
    destruct (shorten U (sc_text sc) q false false true) as [[l' q']|] eqn:E; [|eauto].
    apply shorten_dec in E as [Hq Hl'].
    apply (IH sc cur idx l' q' b); [exact Hb|exact Hsc|exact (Hl' b Hb Hsc)|lia|exact Hc|exact Hrec].
Qed.

Lemma shift_total : forall rec n sc cur i cs l q b,
  sc_text sc = Some b -> num_chars b = length (memory b) -> length l = q -> q < n -> cur <= length m ->
  (forall c j, cur <= c <= length m -> i <= j -> exists x, rec c j = Ok x) ->
  exists x, shift_try U rec m endp n sc cur i cs l q = Ok x.
Proof.
  induction n as [|n IH]; intros sc cur i cs l q b Hb Hsc Hl Hn Hc Hrec; [lia|]. cbn [shift_try].
  destruct (Nat.ltb_spec (length m) cur) as [Ec|Ec]; [lia|].
  assert (Ha : exists x, match shorten U (sc_text sc) q false true cs with
                  | None => Ok false
                  | Some (l, q) => shift_try U rec m endp n sc cur i cs l q
                  end = Ok x).
  { destruct (shorten U (sc_text sc) q false true cs) as [[l' q']|] eqn:E; [|eauto].
    apply shorten_dec in E as [Hq Hl'].
    apply (IH sc cur i cs l' q' b); [exact Hb|exact Hsc|exact (Hl' b Hb Hsc)|lia|exact Hc|exact Hrec]. }
  destruct (u32_strstr (skipn cur m) l) as [k|] eqn:Es; [|exact Ha].
  apply strstr_len in Es. rewrite skipn_length in Es.
  destruct (_ && _); [|exact Ha].
  destruct (Hrec (cur + k + q) (if sc_elastic sc then i else S i)) as [x ->]; [lia|destruct (sc_elastic sc); lia|].
  cbn [bind]. destruct (_ && _); [|eauto]. apply Hrec; lia.
Qed.

Lemma hmm_total : forall f cur idx (al : bool), idx <= 4 -> cur <= length m ->
  6 * (length m - cur) + (4 - idx) + (if al then 1 else 2) <= f ->
  exists x, hmm U f sr m endp ar cur idx al = Ok x.
Proof.
  induction f as [|f IH]; intros cur idx al Hidx Hcur Hf; [destruct al; lia|].
  assert (IH' : forall c i, cur <= c <= length m -> 6 * (length m - c) + (4 - i) + 1 <= f ->
            exists x, hmm U f sr m endp ar c i true = Ok x).
  { intros c i Hc Hx. destruct (Nat.le_gt_cases i 4) as [Hi|Hi]; [apply IH; [lia|lia|cbv iota; lia]|].
    destruct f as [|f']; [lia|]. cbn [hmm negb]. destruct (endp <? c); [eauto|].
    destruct (Nat.eqb_spec c endp).
    { destruct (Nat.eqb_spec i 4); [lia|]. cbn [andb].
      unfold is_shape_line_empty. destruct (Nat.ltb_spec i 5); [lia|]. cbn [bind].
      rewrite more_ok by exact Hctx. cbn [bind]. eauto. }
    destruct (Nat.leb_spec 4 i); [|lia]. destruct (Nat.ltb_spec (length m) c); [lia|eauto]. }
  cbn [hmm]. destruct al; cbn [negb] in *; cbv iota in Hf.
  - destruct (endp <? cur); [eauto|].
    destruct (cur =? endp).
    { destruct (_ && _); [eauto|]. rewrite line_empty_ok by (auto; lia). cbn [bind].
      destruct (emptyb _); [|eauto]. rewrite more_ok by exact Hctx. cbn [bind]. eauto. }
    destruct (Nat.leb_spec 4 idx) as [Hi|Hi].
    { destruct (Nat.ltb_spec (length m) cur); [lia|eauto]. }
    destruct (ctx_nth sr idx Hctx) as (-> & Ht & He); [lia|]. cbn [bind].
    destruct (sc_empty (nths sr idx)); [apply IH'; lia|].
    destruct (He eq_refl) as [b Eb]. rewrite Eb.
    apply (try_total _ _ _ _ _ _ _ b); auto; [apply (ctx_text idx b); auto; lia|symmetry; apply (ctx_text idx b); auto; lia|lia|].
    intros c i Hc Hi'. apply IH'; lia.
  - assert (G : forall ks : list nat, Forall (fun i : nat => idx <= i < 4) ks ->
      exists x, hmm_shiftable U (fun c i => hmm U f sr m endp ar c i true) sr m endp ks cur = Ok x).
    { induction ks as [|i ks IHis]; intros His; cbn [hmm_shiftable]; [eauto|].
      pose proof (Forall_inv His) as Hi0. apply Forall_inv_tail in His. cbv beta in Hi0.
      rewrite line_empty_ok by (auto; lia). cbn [bind]. destruct (emptyb (nths sr i)) eqn:Ee; [apply IHis; assumption|].
      destruct (ctx_nth sr i Hctx) as (-> & Ht & He); [lia|]. cbn [bind].
      unfold emptyb in Ee. apply orb_false_iff in Ee as [Ee _]. destruct (He Ee) as [b Eb]. rewrite Eb.
      rewrite more_ok by exact Hctx. cbn [bind]. rewrite line_empty_ok by (auto; lia). cbn [bind].
      apply (shift_total _ _ _ _ _ _ _ _ b); auto;
        [apply (ctx_text i b); auto; lia|symmetry; apply (ctx_text i b); auto; lia|lia|].
      intros c j Hc Hj. apply IH'; lia. }
    apply G. apply Forall_forall. intros i Hi. apply in_seq in Hi. lia.
Qed.

(** *** soundness *)
(** with a corner on the right there is something to be seen behind the end *)
Hypothesis Hfix : ar = true -> u32_is_blank U (skipn endp m) = false.

Definition fits_at (c i : nat) : Prop := c <= endp /\ laid U ar (mids sr i) (between m c endp).

Lemma laid_again : forall s ss p t, piece U ar s p -> laid U ar ((s, true) :: ss) t -> laid U ar ((s, true) :: ss) (p ++ t).
Proof.
  intros s ss p t Hp H. inversion H; subst.
  - apply laid_cons; [apply run_one; exact Hp|]. inversion H0; subst. apply laid_rest; auto.
  - rewrite app_assoc. apply laid_cons; [|assumption]. apply run_more; assumption.
Qed.

Lemma try_sound : forall rec n cur idx l q b, idx < 4 ->
  sc_empty (nths sr idx) = false -> sc_text (nths sr idx) = Some b -> length l = q ->
  (exists r, memory b = l ++ r /\ blanks U r /\ (ar = true -> r = [])) ->
  (forall c i, idx <= i -> rec c i = Ok true -> fits_at c i) ->
  hmm_try U rec sr m endp ar n (nths sr idx) cur idx l q = Ok true -> fits_at cur idx.
Proof.
  induction n as [|n IH]; intros cur idx l q b Hidx He Hb Hl Hp Hrec H; [discriminate|]. cbn [hmm_try] in H.
  destruct (Nat.eqb_spec q 0) as [E0|E0]; [discriminate|].
  destruct (Nat.ltb_spec (length m) cur) as [Ec|Ec]; [discriminate|].
  assert (Em : mids sr idx = (memory b, sc_elastic (nths sr idx)) :: mids sr (S idx)).
  { rewrite mids_step by auto. rewrite He. unfold linetext. rewrite Hb. reflexivity. }
  destruct (strncmp0 q (skipn cur m) l) eqn:Es.
  - pose proof (strncmp_len _ _ _ Hl Es) as L. rewrite skipn_length in L.
    apply (strncmp_spec q _ _ Hl) in Es.
    assert (Eb : between m cur (cur + q) = l) by (unfold between; replace (cur + q - cur) with q by lia; exact Es).
    assert (Hpc : piece U ar (memory b) l) by (split; [destruct l; [cbn in Hl; lia|discriminate]|exact Hp]).
    rewrite more_ok in H by exact Hctx. cbn [bind] in H.
    destruct ((cur + q =? endp) && negb (more sr idx)) eqn:Ed.
    + apply andb_true_iff in Ed as [Ed Em']. apply Nat.eqb_eq in Ed. apply negb_true_iff in Em'.
      split; [lia|]. rewrite <- Ed, Eb, Em, <- (app_nil_r l). apply laid_cons; [apply run_one; exact Hpc|].
      apply laid_rest; [apply more_false; assumption|constructor|reflexivity].
    + assert (Hnext : rec (cur + q) (S idx) = Ok true -> fits_at cur idx).
      { intros Hr. apply Hrec in Hr as [Hle Hr]; [|lia]. split; [lia|]. rewrite Em.
        rewrite (between_split m cur (cur + q) endp) by lia. rewrite Eb. apply laid_cons; [apply run_one; exact Hpc|exact Hr]. }
      destruct (sc_elastic (nths sr idx)) eqn:El; [|cbn [bind] in H; apply Hnext; exact H].
      apply bind_ok in H as (rc & Hrc & H). destruct rc; [|apply Hnext; exact H].
      apply Hrec in Hrc as [Hle Hr]; [|lia]. split; [lia|].
      rewrite (between_split m cur (cur + q) endp) by lia. rewrite Eb. rewrite Em in *. apply laid_again; assumption.
  - destruct ar eqn:Ear; cbn [negb] in H; [discriminate|]. rewrite Hb in H.
    destruct (shorten U (Some b) q false false true) as [[l' q']|] eqn:E; [|discriminate].
    apply shorten_spec in E as (Hq & Hl' & a & r & Em' & Ha & Hr & Ha0 & _); [|apply (ctx_text idx b); auto; lia].
    rewrite (Ha0 eq_refl) in Em'. cbn [app] in Em'.
    eapply IH; [exact Hidx|exact He|exact Hb|exact Hl'| |exact Hrec|exact H].
    exists r. split; [exact Em'|]. split; [exact Hr|discriminate].
Qed.

Lemma blank_between_spec : forall a b, is_blank_between U m a b = true -> blanks U (between m a b).
Proof. intros a b H. apply blanks_forallb. exact H. Qed.

Lemma hmm_sound_left : forall f cur idx, idx <= 4 ->
  hmm U f sr m endp ar cur idx true = Ok true -> fits_at cur idx.
Proof.
  induction f as [|f IH]; intros cur idx Hidx H; [discriminate|]. cbn [hmm negb] in H.
  destruct (Nat.ltb_spec endp cur) as [Hc|Hc]; [discriminate|].
  destruct (Nat.eqb_spec cur endp) as [->|Hne].
  { split; [lia|]. rewrite between_same.
    destruct ((idx =? 4) && ar) eqn:E4.
    - apply andb_true_iff in E4 as [E4 _]. apply Nat.eqb_eq in E4. rewrite mids_end by lia.
      apply laid_rest; [constructor|constructor|reflexivity].
    - rewrite line_empty_ok in H by (auto; lia). cbn [bind] in H.
      destruct (emptyb (nths sr idx)) eqn:Ee; [|discriminate]. rewrite more_ok in H by exact Hctx. cbn [bind] in H.
      injection H as H. apply negb_true_iff in H. apply laid_rest; [|constructor|reflexivity].
      destruct (Nat.le_gt_cases 4 idx); [rewrite mids_end by lia; constructor|].
      rewrite mids_step by (auto; lia). apply Forall_app. split; [|apply more_false; assumption].
      destruct (sc_empty (nths sr idx)) eqn:Ex; [constructor|]. constructor; [|constructor]. cbn [fst].
      apply emptyb_looks; auto. apply (ctx_nth sr idx Hctx). lia. }
  destruct (Nat.leb_spec 4 idx) as [Hi|Hi].
  { destruct (Nat.ltb_spec (length m) cur) as [|Hl]; [discriminate|]. injection H as H.
    split; [lia|]. rewrite mids_end by lia.
    assert (Hsp : skipn cur m = between m cur endp ++ skipn endp m).
    { rewrite <- (between_all m cur), <- (between_all m endp). apply between_split; lia. }
    unfold u32_is_blank in *. rewrite Hsp, forallb_app in H. apply andb_true_iff in H as [H1 H2].
    apply laid_rest; [constructor|apply blanks_forallb; exact H1|].
    intros E. specialize (Hfix E). congruence. }
  destruct (ctx_nth sr idx Hctx) as (Hr & Ht & He); [lia|]. rewrite Hr in H. cbn [bind] in H.
  destruct (sc_empty (nths sr idx)) eqn:Ee.
  { apply IH in H as [H1 H2]; [|lia]. split; [exact H1|]. rewrite mids_step by auto. rewrite Ee. exact H2. }
  destruct (He eq_refl) as [b Eb]. rewrite Eb in H.
  eapply try_sound; [exact Hi|exact Ee|exact Eb| | | |exact H].
  - symmetry. apply (ctx_text idx b); auto; lia.
  - exists []. rewrite app_nil_r. split; [reflexivity|]. split; [constructor|reflexivity].
  - intros c i Hii Hx. destruct (Nat.le_gt_cases i 4); [apply IH; assumption|].
    (* beyond the last shape *)
    destruct f as [|f']; [discriminate|]. cbn [hmm negb] in Hx.
    destruct (Nat.ltb_spec endp c) as [|Hce]; [discriminate|]. split; [lia|]. rewrite mids_end by lia.
    destruct (Nat.eqb_spec c endp) as [->|Hn'].
    { rewrite between_same. apply laid_rest; [constructor|constructor|reflexivity]. }
    destruct (Nat.leb_spec 4 i); [|lia]. destruct (Nat.ltb_spec (length m) c); [discriminate|]. injection Hx as Hx.
    assert (Hsp : skipn c m = between m c endp ++ skipn endp m).
    { rewrite <- (between_all m c), <- (between_all m endp). apply between_split; lia. }
    unfold u32_is_blank in *. rewrite Hsp, forallb_app in Hx. apply andb_true_iff in Hx as [Hb1 Hb2].
    apply laid_rest; [constructor|apply blanks_forallb; exact Hb1|].
    intros E. specialize (Hfix E). congruence.
Qed.

(** with a corner on the right that corner is not blank *)
Hypothesis Hfix4 : ar = true -> emptyb (nths sr 4) = false.

Lemma shift_sound : forall f n cur idx i cs l q b, idx <= i < 4 -> cur <= endp ->
  emptyb (nths sr i) = false -> sc_text (nths sr i) = Some b -> length l = q ->
  (forall j, idx <= j < i -> emptyb (nths sr j) = true) ->
  (cs = true -> ar = false) ->
  (exists a r, memory b = a ++ l ++ r /\ blanks U a /\ blanks U r /\ (cs = false -> r = [])) ->
  shift_try U (fun c j => hmm U f sr m endp ar c j true) m endp n (nths sr i) cur i cs l q = Ok true ->
  floats U ar (mids sr idx) (between m cur endp).
Proof.
  induction n as [|n IH]; intros cur idx i cs l q b Hi Hcur Hne Hb Hl Hbl Hcs Hp H; [discriminate|]. cbn [shift_try] in H.
  destruct (Nat.ltb_spec (length m) cur) as [Ec|Ec]; [discriminate|].
  assert (Ha : match shorten U (sc_text (nths sr i)) q false true cs with
               | None => Ok false
               | Some (l, q) => shift_try U (fun c j => hmm U f sr m endp ar c j true) m endp n (nths sr i) cur i cs l q
               end = Ok true -> floats U ar (mids sr idx) (between m cur endp)).
  { rewrite Hb. destruct (shorten U (Some b) q false true cs) as [[l' q']|] eqn:E; [|discriminate]. intros Hs.
    apply shorten_spec in E as (Hq & Hl' & a & r & Em' & Ha & Hr & _ & Hr0); [|apply (ctx_text i b); auto; lia].
    eapply IH; [exact Hi|exact Hcur|exact Hne|exact Hb|exact Hl'|exact Hbl|exact Hcs| |exact Hs].
    exists a, r. auto. }
  destruct (u32_strstr (skipn cur m) l) as [k|] eqn:Es; [|exact (Ha H)].
  destruct ((cur + k <? endp) && is_blank_between U m cur (cur + k)) eqn:Ek; [|exact (Ha H)].
  clear Ha IH. apply andb_true_iff in Ek as [Ek Elead]. apply Nat.ltb_lt in Ek. apply blank_between_spec in Elead.
  apply strstr_spec in Es as [L Es]. rewrite skipn_length, skipn_skipn2 in *.
  assert (Eb : between m (cur + k) (cur + k + q) = l).
  { unfold between. replace (cur + k + q - (cur + k)) with (length l) by lia. exact Es. }
  assert (He : sc_empty (nths sr i) = false) by (unfold emptyb in Hne; apply orb_false_iff in Hne; tauto).
  assert (Em : exists ss1, Forall (fun x => looks_blank U (fst x)) ss1 /\
             mids sr idx = ss1 ++ (memory b, sc_elastic (nths sr i)) :: mids sr (S i)).
  { assert (G : forall d j, d = i - j -> idx <= j <= i -> exists ss1, Forall (fun x => looks_blank U (fst x)) ss1 /\
             mids sr j = ss1 ++ (memory b, sc_elastic (nths sr i)) :: mids sr (S i)).
    { induction d as [|d IHd]; intros j Hd Hj.
      - assert (j = i) as -> by lia. exists []. split; [constructor|]. rewrite mids_step by (auto; lia). rewrite He.
        unfold linetext. rewrite Hb. reflexivity.
      - destruct (IHd (S j)) as (ss1 & F & E); [lia|lia|]. rewrite mids_step by (auto; lia).
        destruct (sc_empty (nths sr j)) eqn:Ej; [exists ss1; auto|].
        exists ((linetext (nths sr j), sc_elastic (nths sr j)) :: ss1). split; [|rewrite E; reflexivity].
        constructor; [|exact F]. cbn [fst]. apply emptyb_looks; [|apply Hbl; lia|exact Ej].
        apply (ctx_nth sr j Hctx). lia. }
    apply (G (i - idx)); [reflexivity|lia]. }
  destruct Em as (ss1 & F & Em). destruct Hp as (a & r & Emem & Hba & Hbr & Hr0).
  assert (Hnb : ~ looks_blank U (memory b)).
  { destruct (ctx_nth sr i Hctx) as (_ & Ht & _); [lia|]. destruct (Ht b Hb) as (ts & Hg & ->).
    unfold emptyb in Hne. rewrite He, Hb in Hne. cbn [orb blank_opt] in Hne.
    apply (looks_blank_iff ts Hg). rewrite is_blank_bx in *. congruence. }
  assert (Hgo : forall u, cur + k + q <= endp -> u = between m (cur + k + q) endp ->
    (laid U ar (mids sr (S i)) u \/ sc_elastic (nths sr i) = true /\
       laid U ar ((memory b, sc_elastic (nths sr i)) :: mids sr (S i)) u) ->
    floats U ar (mids sr idx) (between m cur endp)).
  { intros u Hle Eu Hu. right. exists ss1, (memory b), (sc_elastic (nths sr i)), (mids sr (S i)),
      (between m cur (cur + k)), a, l, r, u.
    split; [exact Em|]. split; [exact F|]. split; [exact Hnb|]. split; [exact Emem|]. split; [exact Hba|]. split; [exact Hbr|].
    split; [intros E; apply Hr0; destruct cs; [specialize (Hcs eq_refl); congruence|reflexivity]|].
    split; [|split; [exact Elead|exact Hu]]. rewrite Eu, <- Eb.
    rewrite <- (between_split m (cur + k) (cur + k + q) endp) by lia. apply between_split; lia. }
  assert (H2 : forall j, S i = j -> hmm U f sr m endp ar (cur + k + q) j true = Ok true ->
    floats U ar (mids sr idx) (between m cur endp)).
  { intros j <- Hx. apply hmm_sound_left in Hx as [Hle Hx]; [|lia]. eapply Hgo; [exact Hle|reflexivity|]. left. exact Hx. }
  destruct (sc_elastic (nths sr i)) eqn:El.
  - apply bind_ok in H as (x & Hx & H). destruct x; cbn [negb andb] in H; [|exact (H2 _ eq_refl H)].
    apply hmm_sound_left in Hx as [Hle Hx]; [|lia]. eapply Hgo; [exact Hle|reflexivity|]. right. split; [reflexivity|].
    rewrite mids_step in Hx by (auto; lia). rewrite He, El in Hx. unfold linetext in Hx. rewrite Hb in Hx. exact Hx.
  - apply bind_ok in H as (x & Hx & H). rewrite andb_false_r in H. injection H as ->. exact (H2 _ eq_refl Hx).
Qed.

Lemma hmm_sound_free : forall f cur idx, idx <= 4 -> cur <= endp ->
  hmm U f sr m endp ar cur idx false = Ok true -> floats U ar (mids sr idx) (between m cur endp).
Proof.
  intros f cur idx Hidx Hcur H. destruct f as [|f]; [discriminate|]. cbn [hmm negb] in H.
  assert (G : forall k i, i + k = 4 -> idx <= i -> (forall j, idx <= j < i -> emptyb (nths sr j) = true) ->
    hmm_shiftable U (fun c i => hmm U f sr m endp ar c i true) sr m endp (seq i k) cur = Ok true ->
    floats U ar (mids sr idx) (between m cur endp)).
  { induction k as [|k IHk]; intros i Hik Hi Hbl Hs; cbn [seq hmm_shiftable] in Hs.
    - injection Hs as Hs. left. split; [|apply blank_between_spec; exact Hs].
      assert (i = 4) as -> by lia. clear - Hbl Hctx Hidx. remember (4 - idx) as d eqn:Ed. revert idx Ed Hidx Hbl.
      induction d as [|d IHd]; intros idx Ed Hidx Hbl; [rewrite mids_end by lia; constructor|].
      rewrite mids_step by (auto; lia). apply Forall_app. split; [|apply IHd; [lia|lia|]; intros; apply Hbl; lia].
      destruct (sc_empty (nths sr idx)) eqn:Ex; [constructor|]. constructor; [|constructor]. cbn [fst].
      apply emptyb_looks; [apply (ctx_nth sr idx Hctx); lia|apply Hbl; lia|exact Ex].
    - rewrite line_empty_ok in Hs by (auto; lia). cbn [bind] in Hs.
      destruct (emptyb (nths sr i)) eqn:Ee.
      + apply (IHk (S i)); [lia|lia| |exact Hs]. intros j Hj. destruct (Nat.eq_dec j i) as [->|]; [exact Ee|apply Hbl; lia].
      + destruct (ctx_nth sr i Hctx) as (Hr & Ht & Hx); [lia|]. rewrite Hr in Hs. cbn [bind] in Hs.
        pose proof Ee as Ee'. unfold emptyb in Ee'. apply orb_false_iff in Ee' as [Ee' _].
        destruct (Hx Ee') as [b Eb]. rewrite Eb in Hs. rewrite more_ok in Hs by exact Hctx. cbn [bind] in Hs.
        rewrite line_empty_ok in Hs by (auto; lia). cbn [bind] in Hs.
        eapply shift_sound; [split; [exact Hi|lia]|exact Hcur|exact Ee|exact Eb| |exact Hbl| | |exact Hs].
        * symmetry. apply (ctx_text i b); auto; lia.
        * intros E. destruct ar; [|reflexivity]. rewrite (Hfix4 eq_refl) in E. rewrite orb_true_r in E. discriminate.
        * exists [], []. rewrite app_nil_r. repeat split; constructor. }
  apply (G (4 - idx) idx); [lia|lia| |exact H]. intros j Hj. lia.
Qed.

(** *** completeness *)
(** the text of the shapes [i], ..., 3, each used [cn i] times *)
Definition rest (cn : nat -> nat) (i : nat) : list N :=
  flat_map (fun j => if sc_empty (nths sr j) then [] else concat (repeat (linetext (nths sr j)) (cn j))) (seq i (4 - i)).
Definition counts_ok (cn : nat -> nat) (i : nat) : Prop :=
  forall j, i <= j < 4 -> sc_empty (nths sr j) = false ->
    linetext (nths sr j) <> [] /\ 1 <= cn j /\ (sc_elastic (nths sr j) = false -> cn j = 1).

Lemma rest_step : forall cn i, i < 4 -> rest cn i =
  (if sc_empty (nths sr i) then [] else concat (repeat (linetext (nths sr i)) (cn i))) ++ rest cn (S i).
Proof. intros cn i H. unfold rest. replace (4 - i) with (S (4 - S i)) by lia. reflexivity. Qed.
Lemma rest_end : forall cn i, 4 <= i -> rest cn i = [].
Proof. intros cn i H. unfold rest. replace (4 - i) with 0 by lia. reflexivity. Qed.
Lemma rest_ext : forall cn cn' i, (forall j, i <= j -> cn j = cn' j) -> rest cn i = rest cn' i.
Proof.
  intros cn cn' i H. unfold rest. assert (G : forall l, (forall j, In j l -> cn j = cn' j) ->
    flat_map (fun j => if sc_empty (nths sr j) then [] else concat (repeat (linetext (nths sr j)) (cn j))) l =
    flat_map (fun j => if sc_empty (nths sr j) then [] else concat (repeat (linetext (nths sr j)) (cn' j))) l).
  { induction l as [|j l IH]; intros Hl; [reflexivity|]. cbn [flat_map]. rewrite (Hl j (or_introl eq_refl)).
    rewrite IH; [reflexivity|]. intros x Hx. apply Hl. right. exact Hx. }
  apply G. intros j Hj. apply in_seq in Hj. apply H. lia.
Qed.

Lemma rest_nil : forall cn i, counts_ok cn i -> i <= 4 -> rest cn i = [] -> forall j, i <= j < 4 -> sc_empty (nths sr j) = true.
Proof.
  intros cn i H Hi. remember (4 - i) as d eqn:Ed. revert i H Hi Ed. induction d as [|d IH]; intros i H Hi Ed E j Hj; [lia|].
  rewrite rest_step in E by lia. apply app_eq_nil in E as [E1 E2].
  destruct (Nat.eq_dec j i) as [->|Hne].
  - destruct (sc_empty (nths sr i)) eqn:Ee; [reflexivity|]. exfalso.
    destruct (H i) as (Hl & Hc & _); [lia|exact Ee|]. destruct (cn i) as [|k]; [lia|]. cbn [repeat concat] in E1.
    apply app_eq_nil in E1 as [E1 _]. contradiction.
  - apply (IH (S i)); [|lia|lia|exact E2|lia]. intros k Hk. apply H. lia.
Qed.

Lemma more_sc_empty : forall i, (forall j, S i <= j < 4 -> sc_empty (nths sr j) = true) -> more sr i = false.
Proof.
  intros i H. unfold more. destruct (existsb _ _) eqn:E; [|reflexivity]. exfalso.
  apply existsb_exists in E as (j & Hj & Hn). apply in_seq in Hj. apply negb_true_iff in Hn. unfold emptyb in Hn.
  rewrite H in Hn by lia. discriminate.
Qed.

Lemma prefix_between : forall cur l u, cur <= endp -> between m cur endp = l ++ u ->
  firstn (length l) (skipn cur m) = l /\ cur + length l <= endp /\ between m (cur + length l) endp = u.
Proof.
  intros cur l u Hc E. pose proof (between_length m cur endp) as L. rewrite E, app_length in L. specialize (L (conj Hc Hend)).
  assert (E' : between m cur endp = between m cur (cur + length l) ++ between m (cur + length l) endp)
    by (apply between_split; lia).
  rewrite E in E'. apply app_eq_app_len in E' as [E1 E2]; [|rewrite between_length; lia].
  split; [|split; [lia|symmetry; exact E2]]. unfold between in E1. replace (cur + length l - cur) with (length l) in E1 by lia.
  symmetry. exact E1.
Qed.

Variable tail : list N.
Hypothesis Htail : (ar = true /\ tail = []) \/ (tail <> [] /\ length tail <= endp /\ blanks U (skipn (endp - length tail) m)).

Lemma hmm_complete : forall f cur idx cn, idx <= 4 -> cur <= endp -> counts_ok cn idx ->
  between m cur endp = rest cn idx ++ tail ->
  6 * (length m - cur) + (4 - idx) + 1 <= f ->
  hmm U f sr m endp ar cur idx true = Ok true.
Proof.
  induction f as [|f IH]; intros cur idx cn Hidx Hcur Hcn E Hf; [lia|]. cbn [hmm negb].
  destruct (Nat.ltb_spec endp cur) as [|_]; [lia|].
  destruct (Nat.eqb_spec cur endp) as [->|Hne].
  { rewrite between_same in E. symmetry in E. apply app_eq_nil in E as [E1 E2].
    assert (ar = true) as Har by (destruct Htail as [[Har _]|[Hx _]]; [exact Har|contradiction]).
    rewrite Har. destruct (Nat.eqb_spec idx 4) as [|H4]; [reflexivity|]. cbn [andb].
    rewrite line_empty_ok by (auto; lia). cbn [bind].
    pose proof (rest_nil cn idx Hcn Hidx E1) as Hall. unfold emptyb at 1. rewrite Hall by lia. cbn [orb].
    rewrite more_ok by exact Hctx. cbn [bind]. rewrite more_sc_empty; [reflexivity|]. intros j Hj. apply Hall. lia. }
  destruct (Nat.leb_spec 4 idx) as [Hi|Hi].
  { rewrite rest_end in E by lia. cbn [app] in E. destruct (Nat.ltb_spec (length m) cur) as [|_]; [lia|].
    destruct Htail as [[_ ->]|(_ & Hl & Hb)].
    - pose proof (between_length m cur endp) as L. rewrite E in L. cbn in L. lia.
    - pose proof (between_length m cur endp (conj Hcur Hend)) as L. rewrite E in L.
      replace (endp - length tail) with cur in Hb by lia. f_equal. apply blanks_forallb. exact Hb. }
  destruct (ctx_nth sr idx Hctx) as (-> & Ht & He); [lia|]. cbn [bind].
  rewrite rest_step in E by exact Hi. destruct (sc_empty (nths sr idx)) eqn:Ee.
  { apply (IH cur (S idx) cn); [lia|exact Hcur| |exact E|lia]. intros j Hj. apply Hcn. lia. }
  destruct (He eq_refl) as [b Eb]. rewrite Eb.
  destruct (Hcn idx) as (Hln & Hc1 & Hcr); [lia|exact Ee|].
  unfold linetext in E, Hln. rewrite Eb in E, Hln.
  assert (Hb : num_chars b = length (memory b)) by (apply (ctx_text idx b); auto; lia).
  destruct (cn idx) as [|k] eqn:Ek; [lia|]. cbn [repeat concat] in E. rewrite <- !app_assoc in E.
  destruct (prefix_between _ _ _ Hcur E) as (P1 & P2 & P3).
  assert (Hlp : 0 < length (memory b)) by (destruct (memory b); [contradiction|cbn; lia]).
  rewrite Nat.add_comm. cbn [plus hmm_try]. rewrite Hb.
  destruct (Nat.eqb_spec (length (memory b)) 0) as [|_]; [lia|].
  destruct (Nat.ltb_spec (length m) cur) as [|_]; [lia|].
  apply (strncmp_spec _ _ _ eq_refl) in P1. rewrite P1.
  rewrite more_ok by exact Hctx. cbn [bind]. destruct (_ && _); [reflexivity|].
  assert (Hcn' : counts_ok cn (S idx)) by (intros j Hj; apply Hcn; lia).
  assert (Hnext : k = 0 -> hmm U f sr m endp ar (cur + length (memory b)) (S idx) true = Ok true).
  { intros ->. cbn [repeat concat app] in P3.
    apply (IH (cur + length (memory b)) (S idx) cn); [lia|exact P2|exact Hcn'|exact P3|lia]. }
  destruct (sc_elastic (nths sr idx)) eqn:El.
  - destruct k as [|k].
    + destruct (hmm_total f (cur + length (memory b)) idx true) as [x ->]; [lia|lia|cbv iota; lia|]. cbn [bind].
      destruct x; [reflexivity|]. apply Hnext. reflexivity.
    + rewrite (IH (cur + length (memory b)) idx (fun j => if j =? idx then S k else cn j)); [reflexivity|lia|exact P2| | |lia].
      * intros j Hj Hj'. destruct (Nat.eqb_spec j idx) as [->|]; [|apply Hcn; auto].
        unfold linetext. rewrite Eb. split; [exact Hln|]. split; [lia|]. rewrite El. discriminate.
      * rewrite rest_step by exact Hi. rewrite Ee, Nat.eqb_refl. unfold linetext at 1. rewrite Eb.
        rewrite (rest_ext _ cn (S idx)); [rewrite <- app_assoc; exact P3|].
        intros j Hj. destruct (Nat.eqb_spec j idx); [lia|reflexivity].
  - cbn [bind]. apply Hnext. specialize (Hcr eq_refl). lia.
Qed.
End Hmm.
End WithTables.
