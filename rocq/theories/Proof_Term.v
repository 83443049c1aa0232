(** * Removing a box always comes to an end: no loop bound of the model is ever exhausted *)
From Coq Require Import List Arith NArith ZArith Bool Lia.
From Verif Require Import Base BaseFacts Model_Unicode Model_Bxs Model_Shape Model_Generate Model_Detect Model_Remove.
Import ListNotations.

(** the outcome is not an exhausted bound *)
Definition nf {A : Type} (r : res A) : Prop := r <> Fuel.

Lemma nf_bind : forall (A B : Type) (r : res A) (k : A -> res B),
  nf r -> (forall a, r = Ok a -> nf (k a)) -> nf (bind r k).
Proof. intros A B [a| | | |] k Hr Hk; cbn; try discriminate; [apply Hk; reflexivity|contradiction]. Qed.

Lemma nf_ok : forall (A : Type) (a : A), nf (Ok a).
Proof. discriminate. Qed.

Lemma nf_must : forall (A : Type) (r : res A), nf r -> nf (must r).
Proof. intros A [a| | | |] H; cbn; try discriminate. contradiction. Qed.

Lemma nf_rd : forall (A : Type) (l : list A) i, nf (rd l i).
Proof. intros A l i. unfold rd. destruct (nth_error l i); discriminate. Qed.

Lemma nf_rdc : forall l i, nf (rdc l i).
Proof. intros l i. unfold rdc. destruct (i =? length l); [discriminate|apply nf_rd]. Qed.

Lemma nf_subz : forall a b, nf (subz a b).
Proof. intros a b. unfold subz. destruct (a <? b); discriminate. Qed.

Lemma nf_mapM : forall (A B : Type) (f : A -> res B) l, (forall a, In a l -> nf (f a)) -> nf (mapM f l).
Proof.
  intros A B f. induction l as [|a l IH]; intros H; cbn [mapM]; [discriminate|].
  apply nf_bind; [apply H; left; reflexivity|]. intros b _.
  apply nf_bind; [apply IH; intros x Hx; apply H; right; exact Hx|]. discriminate.
Qed.

Lemma nf_cut_at : forall s k, nf (cut_at s k).
Proof. intros. unfold cut_at. destruct (_ <? _); discriminate. Qed.
Lemma nf_at_off : forall s k, nf (at_off s k).
Proof. intros. unfold at_off. destruct (_ <? _); discriminate. Qed.

(** split binds, conditionals and matches until only calls are left *)
Ltac nfs :=
  repeat first
    [ apply nf_ok | apply nf_rd | apply nf_rdc | apply nf_subz | apply nf_cut_at | apply nf_at_off | apply nf_must
    | discriminate
    | assumption
    | match goal with
      | |- nf (bind _ _) => apply nf_bind; [|intros ? ?]
      | |- nf (mapM _ _) => apply nf_mapM; intros ? ?
      | |- nf (if ?b then _ else _) => destruct b eqn:?
      | |- nf (match ?x with Some _ => _ | None => _ end) => destruct x eqn:?
      | |- nf (let '(_, _) := ?x in _) => destruct x eqn:?
      end ].

Section WithTables.
Variable U : uctab.

Lemma advance_moves : forall c r, 1 <= fst (advance_next32 (c :: r)).
Proof.
  intros c r. unfold advance_next32. destruct (N.eqb c char_esc); [|cbn; lia].
  destruct r as [|d r]; [cbn; lia|]. destruct (_ || _)%N; [cbn; lia|]. destruct (_ && _)%N; cbn; lia.
Qed.

Lemma nf_loop : forall fuel L st s, length s <= fuel -> nf (bxs_loop U fuel L st s).
Proof.
  induction fuel as [|f IH]; intros L st s Hf.
  - destruct s; [discriminate|cbn in Hf; lia].
  - destruct s as [|c s]; [discriminate|]. cbn [bxs_loop]. apply nf_bind.
    + unfold bxs_step. destruct (advance_next32 (c :: s)) as [mv inv]. nfs.
    + intros [st' r] E. apply IH. unfold bxs_step in E.
      pose proof (advance_moves c s) as M. destruct (advance_next32 (c :: s)) as [mv inv]. cbn [fst] in M.
      destruct (negb (is_allowed_anywhere U c)); [discriminate|].
      destruct (_ && _); [discriminate|]. destruct (_ && _); [discriminate|]. injection E as _ <-.
      rewrite skipn_length. cbn [length] in *. lia.
Qed.

Lemma nf_from_unicode : forall s, nf (bxs_from_unicode U s).
Proof. intros s. unfold bxs_from_unicode. apply nf_bind; [apply nf_loop; lia|]. intros st _. nfs. Qed.

Lemma from_unicode_len : forall s b, bxs_from_unicode U s = Ok b -> memory b = s /\ num_chars b = length s.
Proof.
  intros s b H. unfold bxs_from_unicode in H. apply bind_ok in H as (st & _ & H).
  destruct (_ <=? _); [discriminate|]. destruct (_ <=? _); [discriminate|]. injection H as <-. split; reflexivity.
Qed.

Lemma nf_filter_visible : forall b, nf (bxs_filter_visible b).
Proof. intros b. unfold bxs_filter_visible. nfs. Qed.
Lemma nf_is_blank : forall b, nf (bxs_is_blank U b).
Proof. intros b. unfold bxs_is_blank. nfs. Qed.
Lemma nf_blank_opt : forall t, nf (blank_opt U t).
Proof. intros [b|]; [apply nf_is_blank|discriminate]. Qed.
Lemma nf_rtrim : forall b, nf (bxs_rtrim U b).
Proof. intros b. unfold bxs_rtrim. nfs. apply nf_from_unicode. Qed.
Lemma nf_cut_front : forall b n, nf (bxs_cut_front U b n).
Proof. intros b n. unfold bxs_cut_front. nfs. apply nf_from_unicode. Qed.
Lemma nf_unindent : forall b, nf (bxs_unindent_ptr b).
Proof. intros b. unfold bxs_unindent_ptr. nfs. Qed.

Lemma nf_prepare : forall s i ct l r, nf (prepare_comp_shape s i ct l r).
Proof. intros. unfold prepare_comp_shape. nfs; try apply nf_filter_visible; apply nf_unindent. Qed.
Lemma nf_comp_input : forall i k l ct, nf (comp_input i k l ct).
Proof. intros. unfold comp_input. nfs; try apply nf_filter_visible; apply nf_unindent. Qed.
Lemma nf_comp_ends : forall i k ct, nf (comp_input_ends i k ct).
Proof. intros. unfold comp_input_ends. nfs. Qed.

(** ** the matcher *)
(** a shape line's length is recorded correctly *)
Definition text_len (sc : sctx) : Prop := forall b, sc_text sc = Some b -> num_chars b = length (memory b).

Lemma nf_line_empty : forall sr i, nf (is_shape_line_empty U sr i).
Proof. intros. unfold is_shape_line_empty. nfs. apply nf_blank_opt. Qed.
Lemma nf_any_nonempty : forall sr l, nf (any_nonempty U sr l).
Proof. intros sr l. induction l as [|i l IH]; cbn [any_nonempty]; nfs. apply nf_line_empty. Qed.
Lemma nf_more : forall sr i, nf (non_empty_shapes_after U sr i).
Proof. intros. apply nf_any_nonempty. Qed.

Lemma shorten_dec : forall t q pl al ar l q', shorten U t q pl al ar = Some (l, q') ->
  q' < q /\ (forall b, t = Some b -> num_chars b = length (memory b) -> length l = q').
Proof.
  intros [b|] q pl al ar l q' H; [|discriminate]. unfold shorten in H.
  destruct (num_chars b <? q); [discriminate|].
  assert (G : forall n m s e p a r s' e', shorten_loop U n m s e p a r = (s', e') -> e' <= e).
  { clear. induction n as [|n IH]; intros m s e p a r s' e' H; cbn [shorten_loop] in H.
    - injection H as <- <-. lia.
    - repeat match type of H with context [if ?b then _ else _] => destruct b end;
        try (apply IH in H; lia); injection H as <- <-; lia. }
  destruct (shorten_loop U _ _ _ _ _ _ _) as [s e] eqn:E. apply G in E.
  destruct (Nat.ltb_spec (e - s) q); [|discriminate]. injection H as <- <-. split; [assumption|].
  intros b' Eb Hn. injection Eb as <-. unfold between. rewrite firstn_length, skipn_length. lia.
Qed.

Lemma strncmp_len : forall n a b, length b = n -> strncmp0 n a b = true -> n <= length a.
Proof.
  induction n as [|n IH]; intros a b Hb H; [lia|]. destruct b as [|y b]; [discriminate|].
  destruct a as [|x a]; [discriminate|]. cbn [strncmp0] in H. apply andb_true_iff in H as [_ H].
  cbn [length] in *. specialize (IH a b). assert (n <= length a) by (apply IH; [lia|exact H]). lia.
Qed.

Lemma prefix_len : forall n h, is_prefix n h = true -> length n <= length h.
Proof.
  induction n as [|x n IH]; intros h H; [cbn; lia|]. destruct h as [|y h]; [discriminate|].
  cbn [is_prefix] in H. apply andb_true_iff in H as [_ H]. apply IH in H. cbn [length]. lia.
Qed.

Lemma strstr_len : forall h n k, u32_strstr h n = Some k -> k + length n <= length h.
Proof.
  induction h as [|x h IH]; intros n k H; cbn [u32_strstr] in H; destruct (is_prefix n _) eqn:E.
  - apply prefix_len in E. injection H as <-. exact E.
  - discriminate.
  - apply prefix_len in E. injection H as <-. exact E.
  - destruct (u32_strstr h n) as [i|] eqn:Ei; [|discriminate]. injection H as <-. apply IH in Ei. cbn [length]. lia.
Qed.

Section Hmm.
Variable sr : list sctx.
Variable m : list N.
Variable endp : nat.
Variable ar : bool.
Hypothesis Hsr : Forall text_len sr.

Lemma nf_hmm_try : forall rec n sc cur idx l q b,
  sc_text sc = Some b -> num_chars b = length (memory b) -> length l = q -> q < n ->
  (forall c i, cur < c <= length m -> idx <= i -> nf (rec c i)) ->
  nf (hmm_try U rec sr m endp ar n sc cur idx l q).
Proof.
  induction n as [|n IH]; intros sc cur idx l q b Hb Hsc Hl Hn Hrec; [lia|]. cbn [hmm_try].
  destruct (Nat.eqb_spec q 0) as [E0|E0]; [discriminate|].
  destruct (Nat.ltb_spec (length m) cur) as [Ec|Ec]; [discriminate|].
  destruct (strncmp0 q (skipn cur m) l) eqn:Es.
  - pose proof (strncmp_len _ _ _ Hl Es) as L. rewrite skipn_length in L.
    apply nf_bind; [apply nf_more|]. intros more _. destruct (_ && _); [discriminate|].
    apply nf_bind.
    + destruct (sc_elastic sc); [apply Hrec; lia|discriminate].
    + intros rc _. destruct rc; [discriminate|]. apply Hrec; lia.
  - destruct (negb ar); [|discriminate].
    destruct (shorten U (sc_text sc) q false false true) as [[l' q']|] eqn:E; [|discriminate].
    apply shorten_dec in E as [Hq Hl'].
    apply (IH sc cur idx l' q' b); [exact Hb|exact Hsc|exact (Hl' b Hb Hsc)|lia|exact Hrec].
Qed.

Lemma nf_shift_try : forall rec n sc cur i cs l q b,
  sc_text sc = Some b -> num_chars b = length (memory b) -> length l = q -> q < n ->
  (forall c j, cur <= c <= length m -> i <= j -> nf (rec c j)) ->
  nf (shift_try U rec m endp n sc cur i cs l q).
Proof.
  induction n as [|n IH]; intros sc cur i cs l q b Hb Hsc Hl Hn Hrec; [lia|]. cbn [shift_try].
  destruct (Nat.ltb_spec (length m) cur) as [Ec|Ec]; [discriminate|].
  assert (Ha : nf match shorten U (sc_text sc) q false true cs with
                  | None => Ok false
                  | Some (l, q) => shift_try U rec m endp n sc cur i cs l q
                  end).
  { destruct (shorten U (sc_text sc) q false true cs) as [[l' q']|] eqn:E; [|discriminate].
    apply shorten_dec in E as [Hq Hl']. apply (IH sc cur i cs l' q' b); [exact Hb|exact Hsc|exact (Hl' b Hb Hsc)|lia|exact Hrec]. }
  destruct (u32_strstr (skipn cur m) l) as [k|] eqn:Es; [|exact Ha].
  apply strstr_len in Es. rewrite skipn_length in Es.
  destruct (_ && _); [|exact Ha].
  apply nf_bind.
  - apply Hrec; [lia|]. destruct (sc_elastic sc); lia.
  - intros r _. destruct (_ && _); [|discriminate]. apply Hrec; lia.
Qed.

Lemma nf_hmm : forall f cur idx (al : bool),
  6 * (length m - cur) + (4 - idx) + (if al then 1 else 2) <= f ->
  nf (hmm U f sr m endp ar cur idx al).
Proof.
  induction f as [|f IH]; intros cur idx al Hf; [destruct al; lia|]. cbn [hmm].
  destruct al; cbn [negb] in *; cbv iota in Hf.
  - destruct (endp <? cur); [discriminate|].
    destruct (cur =? endp).
    { destruct (_ && _); [discriminate|]. apply nf_bind; [apply nf_line_empty|]. intros e _.
      destruct e; [|discriminate]. apply nf_bind; [apply nf_more|]. discriminate. }
    destruct (Nat.leb_spec 4 idx) as [Hi|Hi]; [destruct (_ <? _); discriminate|].
    apply nf_bind; [apply nf_rd|]. intros sc Es. apply rd_ok in Es. apply nth_error_In in Es.
    rewrite Forall_forall in Hsr. specialize (Hsr _ Es).
    destruct (sc_empty sc); [apply IH; lia|].
    destruct (sc_text sc) as [b|] eqn:Et; [|discriminate]. specialize (Hsr b Et).
    apply (nf_hmm_try _ _ _ _ _ _ _ b); auto; [lia|]. intros c i Hc Hi'. apply IH. lia.
  - assert (G : forall ks : list nat, Forall (fun i : nat => idx <= i) ks ->
      nf (hmm_shiftable U (fun c i => hmm U f sr m endp ar c i true) sr m endp ks cur)).
    { induction ks as [|i ks IHis]; intros His; cbn [hmm_shiftable]; [discriminate|].
      pose proof (Forall_inv His) as Hi0. apply Forall_inv_tail in His. cbv beta in Hi0.
      apply nf_bind; [apply nf_line_empty|]. intros e _. destruct e; [apply IHis; assumption|].
      apply nf_bind; [apply nf_rd|]. intros sc Es. apply rd_ok in Es. apply nth_error_In in Es.
      rewrite Forall_forall in Hsr. specialize (Hsr _ Es).
      destruct (sc_text sc) as [b|] eqn:Et; [|discriminate]. specialize (Hsr b Et).
      apply nf_bind; [apply nf_more|]. intros more _. apply nf_bind; [apply nf_line_empty|]. intros ee _.
      apply (nf_shift_try _ _ _ _ _ _ _ _ b); auto; [lia|]. intros c j Hc Hj. apply IH. lia. }
    apply G. apply Forall_forall. intros i Hi. apply in_seq in Hi. lia.
Qed.
End Hmm.

Lemma nf_prep_horiz : forall d ct li is, nf (prep_horiz U d ct li is).
Proof.
  intros d ct li is. induction is as [|i is IH]; cbn [prep_horiz]; [discriminate|].
  apply nf_bind; [|intros t _; apply nf_bind; [exact IH|discriminate]].
  destruct (isempty _); [discriminate|]. nfs; [apply nf_prepare|apply nf_from_unicode].
Qed.

Lemma prep_horiz_len : forall d ct li is sr, prep_horiz U d ct li is = Ok sr -> Forall text_len sr.
Proof.
  intros d ct li is. induction is as [|i is IH]; intros sr H; cbn [prep_horiz] in H.
  - injection H as <-. constructor.
  - apply bind_ok in H as (t & Ht & H). apply bind_ok in H as (r & Hr & H). injection H as <-.
    constructor; [|apply IH; exact Hr]. intros b E. cbn [sc_text] in E. subst t.
    destruct (isempty _); [discriminate|]. apply bind_ok in Ht as (x & _ & Ht).
    apply bind_ok in Ht as (b' & Hb & Ht). injection Ht as <-. rewrite must_ok in Hb.
    apply from_unicode_len in Hb as [-> ->]. reflexivity.
Qed.

Lemma nf_outer_left : forall n k line shape limit, length shape <= n + k -> 0 < k -> nf limit -> nf (outer_left U (S n) k line shape limit).
Proof.
  induction n as [|n IH]; intros k line shape limit H Hk Hlim; cbn [outer_left].
  - destruct (Nat.eqb_spec k 0); [lia|]. cbn [orb]. unfold blank_at.
    destruct (nth_error shape k) eqn:E; [|discriminate].
    assert (nth_error shape k <> None) as Hx by congruence. apply nth_error_Some in Hx. lia.
  - destruct (_ || _); [|discriminate]. destruct (u32_strstr _ _) as [p|]; [|apply IH; auto; lia].
    apply nf_bind; [exact Hlim|]. intros lim _. destruct (lim <? p); [apply IH; auto; lia|discriminate].
Qed.

Lemma nf_outer_right : forall n k line shape limit, k <= n -> nf (outer_right U (S n) k line shape limit).
Proof.
  induction n as [|n IH]; intros k line shape limit H; cbn [outer_right].
  - replace k with 0 by lia. destruct (_ || _); [|discriminate].
    destruct (u32_strnrstr _ _ _); [destruct (_ <? _); cbn|cbn]; discriminate.
  - destruct (_ || _); [|discriminate].
    destruct (u32_strnrstr _ _ _).
    + destruct (_ <? _); [|discriminate]. destruct (k =? 0); [discriminate|]. apply IH. lia.
    + destruct (k =? 0); [discriminate|]. apply IH. lia.
Qed.

Lemma nf_outer : forall left line t, (forall b, t = Some b -> num_chars b = length (memory b)) ->
  nf (match_outer_shape U left line t).
Proof.
  intros left line [b|] H; [|discriminate]. specialize (H b eq_refl). unfold match_outer_shape.
  destruct (Nat.eqb_spec (num_chars line) 0); [discriminate|].
  destruct (Nat.eqb_spec (num_chars b) 0) as [E|E]; [discriminate|]. cbn [orb].
  apply nf_bind; [apply nf_is_blank|]. intros bl _. destruct left, bl; nfs.
  - destruct (num_chars b) as [|q] eqn:En; [congruence|]. replace (S q + 1) with (S (S q)) by lia.
    change (nf (outer_left U (S (S q)) 0 line (memory b) (rd (first_char line) (indent line)))). set (k := S q). cbn [outer_left].
    destruct (_ || _); [|discriminate].
    assert (Hrd : nf (rd (first_char line) (indent line))) by (unfold rd; destruct (nth_error _ _); discriminate).
    destruct (u32_strstr _ _) as [p|]; [apply nf_bind; [exact Hrd|]; intros lim _; destruct (_ <? p); [|discriminate]|]; apply nf_outer_left; auto; lia.
  - replace (num_chars b + 1) with (S (num_chars b)) by lia. apply nf_outer_right. lia.
Qed.

Lemma nf_match_horiz : forall d inp top li si ct, nf (match_horiz_with U d inp top li si ct).
Proof.
  intros. unfold match_horiz_with.
  apply nf_bind; [apply nf_prep_horiz|]. intros sr Hsr. apply prep_horiz_len in Hsr.
  apply nf_bind; [apply nf_must, nf_comp_input|]. intros t _.
  apply nf_bind; [apply nf_must, nf_from_unicode|]. intros p1 _.
  apply nf_bind; [apply nf_must, nf_rtrim|]. intros p2 _.
  apply nf_bind; [apply nf_rd|]. intros s0 E0. apply nf_bind; [apply nf_rd|]. intros s4 E4.
  apply rd_ok in E0, E4. apply nth_error_In in E0, E4. pose proof Hsr as Hf. rewrite Forall_forall in Hf.
  apply nf_bind. { destruct (empty_side _ _); [discriminate|]. apply nf_outer. apply Hf. exact E0. }
  intros mrl _. apply nf_bind; [apply nf_rd|]. intros lastp _.
  apply nf_bind. { destruct (empty_side _ _); [discriminate|]. apply nf_outer. apply Hf. exact E4. }
  intros mrr _. apply nf_hmm; [exact Hsr|]. unfold hmm_fuel. destruct mrl as [r|]; [destruct (m_shiftable r)|]; cbn [negb]; lia.
Qed.

Lemma nf_horiz_types : forall d inp top li si cts last, nf (match_horiz_types U d inp top li si cts last).
Proof.
  intros d inp top li si. induction cts as [|ct cts IH]; intros last; cbn [match_horiz_types]; [discriminate|].
  destruct (comp_type_is_viable _ _ _); [|apply IH].
  apply nf_bind; [apply nf_match_horiz|]. intros x _. destruct x; [discriminate|apply IH].
Qed.

Lemma nf_match_any : forall d inp top li sis ct, nf (match_any U d inp top li sis ct).
Proof.
  intros d inp top li. induction sis as [|si sis IH]; intros ct; cbn [match_any]; [discriminate|].
  apply nf_bind; [apply nf_horiz_types|]. intros x _. destruct (fst x); [discriminate|apply IH].
Qed.

Lemma nf_find_top : forall d inp n start h k ct, nf (find_top U d inp n start h k ct).
Proof.
  intros d inp. induction n as [|n IH]; intros start h k ct; cbn [find_top]; [discriminate|].
  destruct (_ <? _); [|discriminate]. apply nf_bind; [apply nf_match_any|]. intros x _.
  destruct (fst x); [apply IH|discriminate].
Qed.

Lemma nf_find_bottom : forall d inp n stop h k ct, nf (find_bottom U d inp n stop h k ct).
Proof.
  intros d inp. induction n as [|n IH]; intros start h k ct; cbn [find_bottom]; [discriminate|].
  destruct (_ <? _); [|discriminate]. apply nf_bind; [apply nf_match_any|]. intros x _.
  destruct (fst x); [apply IH|discriminate].
Qed.

Lemma nf_vert_try : forall n left b maxq t ind trl best l q, q < n -> nf (vert_try U n left (Some b) maxq t ind trl best l q).
Proof.
  induction n as [|n IH]; intros left b maxq t ind trl best l q Hq; [lia|]. cbn [vert_try].
  assert (Ha : nf match shorten U (Some b) q left true true with
                  | None => Ok best
                  | Some (l, q) => vert_try U n left (Some b) maxq t ind trl best l q
                  end).
  { destruct (shorten U (Some b) q left true true) as [[l' q']|] eqn:E; [|discriminate].
    apply shorten_dec in E as [Hd _]. apply IH. lia. }
  destruct (if left then _ else _) as [p|]; [|exact Ha].
  destruct (if left then _ else _); [exact Ha|]. destruct (_ <? _); discriminate.
Qed.

Lemma nf_vert_side : forall left shapes t ind trl best, nf (match_vertical_side U left shapes t ind trl best).
Proof.
  intros left. induction shapes as [|sc r IH]; intros t ind trl best; cbn [match_vertical_side]; [discriminate|].
  destruct (sc_empty sc); [apply IH|]. destruct (sc_text sc) as [b|]; [|discriminate].
  apply nf_bind; [apply nf_vert_try; lia|]. intros. apply IH.
Qed.

Lemma nf_prep_vert : forall d left ct, nf (prepare_comp_shapes_vert U d left ct).
Proof.
  intros. unfold prepare_comp_shapes_vert. apply nf_bind; [|discriminate]. apply nf_mapM. intros i _.
  destruct (isempty _); [discriminate|]. apply nf_mapM. intros k _.
  nfs; [apply nf_prepare|apply nf_from_unicode].
Qed.

Lemma nf_body : forall d inp ct lis, nf (match_body U d inp ct lis).
Proof.
  intros. unfold match_body. apply nf_bind; [destruct (empty_side _ _); [discriminate|apply nf_prep_vert]|]. intros w _.
  apply nf_bind; [destruct (empty_side _ _); [discriminate|apply nf_prep_vert]|]. intros e _.
  apply nf_mapM. intros li _. apply nf_bind; [apply nf_must, nf_comp_input|]. intros t _.
  apply nf_bind; [apply nf_must, nf_comp_ends|]. intros it _. destruct (_ <? _); [discriminate|].
  apply nf_bind; [apply nf_vert_side|]. intros wm _. apply nf_bind; [apply nf_vert_side|]. discriminate.
Qed.

Lemma nf_vertical : forall d inp lis ct, nf (find_vertical_shapes U d inp lis ct).
Proof.
  intros. unfold find_vertical_shapes. destruct (_ && _); [discriminate|].
  generalize (ct, map (fun _ : nat => (vmatch0, vmatch0)) lis). generalize comp_types as cts.
  induction cts as [|c cts IH]; intros st; cbn [find_vertical_types]; [discriminate|].
  destruct (comp_type_is_viable _ _ _); [|apply IH].
  apply nf_bind; [apply nf_body|]. intros body _. destruct (sufficient_body_quality _ _); [discriminate|apply IH].
Qed.

Lemma nf_remove_vertical : forall d im ind ct ls vs, nf (remove_vertical_all U d im ind ct ls vs).
Proof.
  intros d im ind ct. induction ls as [|l ls IH]; intros [|v vs]; cbn [remove_vertical_all]; try discriminate.
  apply nf_bind; [|intros a _; apply nf_bind; [apply IH|discriminate]].
  assert (Hp : forall n b i, nf (confirmed_padding U n b ct i)).
  { induction n as [|n IHn]; intros b i; cbn [confirmed_padding]; [discriminate|].
    destruct (_ <? _); [|discriminate]. apply nf_bind; [unfold org_char; nfs|]. intros c _.
    destruct (is_blank U c); [|discriminate]. apply nf_bind; [apply IHn|discriminate]. }
  unfold remove_vertical. apply nf_bind.
  { unfold calculate_start_idx, back_to_org. apply nf_bind; [|intros s _; nfs].
    destruct (_ <? _); [|discriminate]. apply nf_bind; [apply Hp|discriminate]. }
  intros s _. apply nf_bind; [unfold calculate_end_idx, back_to_org; nfs|]. intros e _.
  apply nf_bind.
  { unfold bxs_substr. destruct (_ <? _); [discriminate|].
    pose proof (nf_from_unicode (skipn (Nat.min s (num_chars (l_text l)))
                 (firstn (Nat.min e (num_chars (l_text l))) (memory (l_text l))))) as Hx.
    destruct (bxs_from_unicode U _); try discriminate. contradiction. }
  intros t _. apply nf_bind; [|discriminate]. destruct (_ || _); [|discriminate].
  unfold prepend_opt, bxs_prepend_spaces. destruct t as [b|].
  - apply nf_bind; [destruct (ind =? 0); discriminate|discriminate].
  - destruct (ind =? 0); [discriminate|]. apply nf_bind; [apply nf_must, nf_from_unicode|discriminate].
Qed.

Lemma nf_kill : forall ls limit, nf (kill U limit ls).
Proof.
  induction ls as [|l ls IH]; intros limit; cbn [kill]; [discriminate|].
  destruct limit as [[|k]|]; [discriminate| |];
    (apply nf_bind; [apply nf_blank_opt|]; intros b _; destruct b; [|discriminate]; apply nf_bind; [apply IH|discriminate]).
Qed.

Lemma nf_cut_lines : forall n ls first count, nf (cut_lines U n first count ls).
Proof.
  intros n. induction ls as [|l ls IH]; intros first count; cbn [cut_lines].
  - destruct (count =? 0); discriminate.
  - destruct first as [|f]; [destruct count as [|c]; [discriminate|]|].
    + apply nf_bind; [apply nf_must, nf_cut_front|]. intros b _. apply nf_bind; [apply IH|discriminate].
    + apply nf_bind; [apply IH|discriminate].
Qed.

Lemma nf_first_nonblank : forall ls i, nf (first_nonblank U ls i).
Proof.
  induction ls as [|l ls IH]; intros i; cbn [first_nonblank]; [discriminate|].
  apply nf_bind; [apply nf_is_blank|]. intros b _. destruct b; [apply IH|discriminate].
Qed.

Lemma nf_apply : forall d im k mend ct body ts te bs be inp,
  nf (apply_results_to_input U d im k mend ct body ts te bs be inp).
Proof.
  intros. unfold apply_results_to_input. apply nf_bind; [apply nf_remove_vertical|]. intros mid _.
  apply nf_bind.
  { destruct (_ || _); [|discriminate]. unfold killblank. apply nf_bind; [apply nf_kill|]. intros n1 _.
    apply nf_bind; [apply nf_kill|]. discriminate. }
  intros [te' bs'] _. apply nf_bind; [unfold remove_bottom_from_input; nfs|]. intros ls2 _.
  apply nf_bind; [unfold remove_top_from_input; nfs|]. intros ls3 _.
  apply nf_bind; [apply nf_mapM; intros x _; unfold settle; nfs|]. intros ls4 _.
  cbn zeta. match goal with |- nf (if ?b then _ else _) => destruct b end; [discriminate|].
  apply nf_bind; [apply nf_cut_lines|]. intros ls5 _. apply nf_bind; [apply nf_subz|]. discriminate.
Qed.

Theorem nf_remove_box : forall d im k mend inp, nf (remove_box U d im k mend inp).
Proof.
  intros. unfold remove_box.
  apply nf_bind; [unfold find_first_line; apply nf_bind; [apply nf_first_nonblank|discriminate]|]. intros ts _.
  destruct (_ <=? _); [discriminate|].
  apply nf_bind; [destruct (empty_side _ _); [discriminate|apply nf_find_top]|]. intros t _.
  apply nf_bind.
  { unfold find_last_line. apply nf_bind; [apply nf_first_nonblank|]. intros r _. apply nf_bind; [apply nf_subz|]. discriminate. }
  intros lst _. apply nf_bind; [destruct (empty_side _ _); [discriminate|apply nf_find_bottom]|]. intros b _.
  apply nf_bind; [destruct (_ <? _); [apply nf_vertical|discriminate]|]. intros v _. apply nf_apply.
Qed.
End WithTables.
