(** * The scanner follows the description of the language *)
From Coq Require Import Ascii String List Arith NArith ZArith Bool Lia.
From Verif Require Import Base Model_Unicode Model_Bxs Model_Shape Model_Regex Model_Query Proof_Query Model_Discovery Model_Parser Model_Lexer Spec_Lexer Prop_Lexer Model_Scan Spec_Config.
Import ListNotations.
Local Open Scope nat_scope.
Local Open Scope list_scope.

(** ** runs of the scanner *)
Inductive runs : mode -> delims -> list N -> list token -> mode -> delims -> list N -> Prop :=
| r_refl : forall q d s, runs q d s [] q d s
| r_step : forall q d c r t q1 d1 s1 ts q2 d2 s2, step q d c r = Ok (t, q1, d1, s1) -> runs q1 d1 s1 ts q2 d2 s2 ->
    runs q d (c :: r) (t ++ ts) q2 d2 s2.
Lemma runs_app : forall q d s ts q1 d1 s1, runs q d s ts q1 d1 s1 -> forall ts' q2 d2 s2, runs q1 d1 s1 ts' q2 d2 s2 ->
  runs q d s (ts ++ ts') q2 d2 s2.
Proof.
  induction 1 as [|q d c r t q1 d1 s1 ts q2 d2 s2 E _ IH]; intros ts' q3 d3 s3 H; [exact H|].
  rewrite <- app_assoc. econstructor; [exact E|apply IH, H].
Qed.
Lemma runs_one : forall q d c r t q1 d1 s1, step q d c r = Ok (t, q1, d1, s1) -> runs q d (c :: r) t q1 d1 s1.
Proof. intros. rewrite <- (app_nil_r t). econstructor; [eassumption|constructor]. Qed.

(** ** runs of characters *)
Definition head_not (f : N -> bool) (s : list N) : Prop := match s with [] => True | c :: _ => f c = false end.
Lemma span_app : forall f a r, forallb f a = true -> head_not f r -> span f (a ++ r) = (a, r).
Proof.
  induction a as [|c a IH]; intros r H Hr; cbn in *.
  - destruct r as [|c r]; [reflexivity|]. cbn in *. rewrite Hr. reflexivity.
  - apply andb_true_iff in H as [H1 H2]. rewrite H1, (IH _ H2 Hr). reflexivity.
Qed.
Lemma span_spec : forall f s a b, span f s = (a, b) -> s = a ++ b /\ forallb f a = true /\ head_not f b.
Proof.
  induction s as [|c s IH]; intros a b H; cbn in H.
  - injection H as <- <-. repeat split.
  - destruct (f c) eqn:E.
    + destruct (span f s) as [a' b'] eqn:E2. injection H as <- <-. destruct (IH _ _ eq_refl) as (-> & H1 & H2).
      repeat split; [|exact H2]. cbn. rewrite E. exact H1.
    + injection H as <- <-. repeat split. exact E.
Qed.

Lemma white_ok : forall c, is_white c = true <-> white c.
Proof.
  intros c. unfold is_white, white. rewrite existsb_exists. split.
  - intros (x & Hx & E). apply N.eqb_eq in E. subst. exact Hx.
  - intros H. exists c. split; [exact H|apply N.eqb_refl].
Qed.

(** ** every step makes progress *)
Definition mu (q : mode) (s : list N) : nat := 2 * List.length s + match q with q_SAMPLE true _ => 1 | _ => 0 end.
Lemma span_le : forall f s a b, span f s = (a, b) -> List.length a + List.length b = List.length s.
Proof. intros f s a b H. destruct (span_spec _ _ _ _ H) as (-> & _). rewrite app_length. reflexivity. Qed.
Lemma span_first : forall f c r a b, f c = true -> span f (c :: r) = (a, b) -> List.length b <= List.length r.
Proof.
  intros f c r a b E H. cbn in H. rewrite E in H. destruct (span f r) as [a' b'] eqn:E2. injection H as <- <-.
  apply span_le in E2. lia.
Qed.
Lemma ends_at_le : forall s r, ends_at s = Some r -> List.length r + 4 <= List.length s.
Proof.
  intros s r H. unfold ends_at in H. destruct (List.length s <? 4) eqn:E; [discriminate|]. apply Nat.ltb_ge in E.
  destruct (same_nocase _ _); [|discriminate]. destruct (span _ (skipn 4 s)) as [a b] eqn:E2.
  apply span_le in E2. rewrite skipn_length in E2. destruct b as [|c b]; [discriminate|]. destruct (N.eqb c 10); [|discriminate].
  injection H as <-. lia.
Qed.
Lemma shape_at_le : forall k s i r, shape_at k s = Some (i, r) -> List.length r < List.length s.
Proof.
  induction k as [|k IH]; intros s i r H; [discriminate|].
  change (match (if List.length s <? S k then None else index_of (firstn (S k) s) shape_spellings 0) with
            | Some i0 => Some (i0, skipn (S k) s) | None => shape_at k s end = Some (i, r)) in H.
  destruct (List.length s <? S k) eqn:E; [eapply IH; eassumption|]. apply Nat.ltb_ge in E.
  destruct (index_of _ _ _); [|eapply IH; eassumption]. assert (r = skipn (S k) s) as -> by congruence.
  pose proof (skipn_length (S k) s) as L. lia.
Qed.
Lemma up_to_newline_len : forall s l, up_to_newline s = Some l -> s = l ++ 10%N :: skipn (S (List.length l)) s.
Proof.
  induction s as [|c s IH]; intros l H; [discriminate|]. cbn in H. destruct (N.eqb_spec c 10) as [->|].
  - injection H as <-. reflexivity.
  - destruct (up_to_newline s) as [l'|] eqn:E; [|discriminate]. injection H as <-. cbn. f_equal. apply IH. reflexivity.
Qed.
Lemma step_other_mu : forall q d c r t q' d' s, step_other q d c r = (t, q', d', s) -> q' = q /\ List.length s <= List.length r.
Proof.
  intros q d c r t q' d' s H. unfold step_other in H. destruct (N.eqb c 35).
  - destruct (up_to_newline r) as [l|] eqn:E; injection H as <- <- <- <-; (split; [reflexivity|]); [rewrite skipn_length; lia|lia].
  - injection H as <- <- <- <-. split; [reflexivity|lia].
Qed.
Lemma lex_string_le : forall d c r x, lex_string d (c :: r) = Ok x ->
  match x with Reject => True | STRING _ s => List.length s <= List.length r | YUNREC s => List.length s <= List.length r end.
Proof.
  intros d c r x H. unfold lex_string in H. destruct (negb (existsb (N.eqb c) LEX_SDELIM)) eqn:E0; [injection H as <-; exact I|].
  destruct (up_to_newline (c :: r)) as [l|] eqn:E; [|injection H as <-; exact I].
  destruct (negb (N.eqb c (sdel d))); [injection H as <-; exact I|].
  match type of H with bind ?e _ = _ => destruct e as [[ct u|]| | | |] eqn:E2; try discriminate H end.
  - cbn [bind] in H. destruct (List.length l <? u) eqn:E3; [discriminate|]. injection H as <-.
    assert (K : forall fuel done mem rl qc c0 u0, string_loop d fuel done mem rl qc = Ok (Complete c0 u0) -> 2 <= u0).
    { induction fuel as [|f IH]; intros done mem rl qc c0 u0 F; [discriminate|]. cbn in F. destruct mem as [|x mem]; [discriminate|].
      destruct (N.eqb x 0); [discriminate|]. destruct (N.eqb x (sesc d)).
      - destruct (memmove1 _ _) as [m2| | | |]; try discriminate. cbn [bind] in F. destruct (subz rl 1) as [r1| | | |]; try discriminate.
        cbn [bind] in F. destruct m2 as [|c2 m3]; [discriminate|]. destruct (N.eqb c2 0); [discriminate|].
        destruct (subz r1 1) as [r2| | | |]; try discriminate. cbn [bind] in F. eapply IH; eassumption.
      - destruct (N.eqb x (sdel d)); [injection F as _ <-; lia|]. destruct (subz rl 1) as [r1| | | |]; try discriminate.
        cbn [bind] in F. eapply IH; eassumption. }
    apply K in E2. pose proof (skipn_length u (c :: r)) as L. cbn [List.length] in L. lia.
  - cbn [bind] in H. injection H as <-. pose proof (skipn_length (List.length l) (c :: r)) as L. cbn [List.length] in L.
    destruct l as [|y l]; [|cbn [List.length] in L; cbn [List.length]; lia].
    cbn in E. destruct (N.eqb_spec c 10) as [->|]; [|destruct (up_to_newline r); discriminate].
    cbn in E0. discriminate E0.
Qed.
Lemma step_mu : forall q d c r t q' d' s, step q d c r = Ok (t, q', d', s) -> mu q' s < mu q (c :: r).
Proof.
  intros q d c r t q' d' s H.
  assert (W : forall x y, (match y with q_SAMPLE true _ => 1 | _ => 0 end) <= 1 -> List.length s <= List.length r -> 2 * List.length s + (match y with q_SAMPLE true _ => 1 | _ => 0 end) < 2 * List.length (c :: r) + x)
    by (intros x y; cbn [List.length]; lia).
  assert (B : forall y, (match y with q_SAMPLE true _ => 1 | _ => 0 end) <= 1) by (intros [| | | | | |[] ?]; lia).
  assert (G : List.length s <= List.length r -> mu q' s < mu q (c :: r)) by (intros L; unfold mu; apply W; [apply B|exact L]).
  assert (O : forall q0, step_other q0 d c r = (t, q', d', s) -> List.length s <= List.length r) by (intros q0 F; apply step_other_mu in F as (_ & F); exact F).
  assert (Wd : forall q0, word_start c = true -> step_word q0 d c r = (t, q', d', s) -> List.length s <= List.length r).
  { intros q0 Hw F. unfold step_word in F. destruct (span word_char (c :: r)) as [w rest] eqn:E.
    assert (L : List.length rest <= List.length r).
    { apply span_first in E; [exact E|]. unfold word_start in Hw. unfold word_char. apply orb_true_iff in Hw as [Hw|Hw]; rewrite Hw, ?orb_true_r; reflexivity. }
    destruct (Neq_list w [bom]); [injection F as <- <- <- <-; exact L|]. destruct (forallb is_ascii w).
    - destruct (match q0 with q_INITIAL => _ | _ => _ end) as [[a b] e]. injection F as <- <- <- <-. exact L.
    - injection F as <- <- <- <-. exact L. }
  assert (St : forall q0, step_string q0 d c r = Ok (t, q', d', s) -> List.length s <= List.length r).
  { intros q0 F. unfold step_string in F. destruct (lex_string d (c :: r)) as [x| | | |] eqn:E; try discriminate. cbn [bind] in F.
    apply lex_string_le in E. destruct x as [|ct rest|rest].
    - apply (O q0). injection F as F. exact F.
    - injection F as <- <- <- <-. exact E.
    - injection F as <- <- <- <-. exact E. }
  assert (Sy : forall q0 t0, Ok ([t0], q0, d, r) = Ok (t, q', d', s) -> List.length s <= List.length r) by (intros q0 t0 F; injection F as <- <- <- <-; lia).
  assert (Sk : forall q0, Ok ([], q0, d, r) = Ok (t, q', d', s) -> List.length s <= List.length r) by (intros q0 F; injection F as <- <- <- <-; lia).
  assert (Sh : forall q0 i rest, shape_at 3 (c :: r) = Some (i, rest) -> Ok ([T_SHAPE i], q0, d, rest) = Ok (t, q', d', s) -> List.length s <= List.length r).
  { intros q0 i rest E F. apply shape_at_le in E. cbn [List.length] in E. injection F as <- <- <- <-. lia. }
  destruct q as [| | | | | |bol acc]; cbn [step] in H.
  - apply G. destruct (is_white c); [exact (Sk _ H)|]. destruct (word_start c) eqn:E; injection H as H; [exact (Wd _ eq_refl H)|exact (O _ H)].
  - apply G. destruct (is_white c); [exact (Sk _ H)|]. destruct (word_start c) eqn:E; [injection H as H; exact (Wd _ eq_refl H)|].
    destruct (is_digit c || _ || _) eqn:E2.
    + unfold step_number in H. destruct (N.eqb c 43 || N.eqb c 45) eqn:E3.
      * destruct (span is_digit r) as [ds rest] eqn:E4. apply span_le in E4. destruct (is_nil ds); [injection H as H; exact (O _ H)|].
        destruct (atoi _ _); try discriminate. cbn [bind] in H. injection H as <- <- <- <-. lia.
      * destruct (span is_digit (c :: r)) as [ds rest] eqn:E4.
        assert (L : List.length rest <= List.length r).
        { apply span_first in E4; [exact E4|]. rewrite <- orb_assoc, E3, orb_false_r in E2. exact E2. }
        destruct (is_nil ds); [injection H as H; exact (O _ H)|].
        destruct (atoi _ _); try discriminate. cbn [bind] in H. injection H as <- <- <- <-. exact L.
    + destruct (symbol c); [exact (Sy _ _ H)|exact (St _ H)].
  - apply G. destruct (_ || _); [exact (Sk _ H)|]. destruct (symbol c); [exact (Sy _ _ H)|].
    destruct (shape_at 3 (c :: r)) as [[i rest]|] eqn:E; [exact (Sh _ _ _ eq_refl H)|exact (St _ H)].
  - apply G. destruct (_ || _); [exact (Sk _ H)|]. destruct (symbol c); [exact (Sy _ _ H)|].
    destruct (shape_at 3 (c :: r)) as [[i rest]|] eqn:E; [exact (Sh _ _ _ eq_refl H)|]. injection H as H. exact (O _ H).
  - apply G. unfold step_delimspec in H. destruct (is_white c) eqn:E; [injection H as <- <- <- <-; lia|].
    destruct (span (fun c => negb (is_white c)) (c :: r)) as [w rest] eqn:E2.
    assert (L : List.length rest <= List.length r) by (apply span_first in E2; [exact E2|rewrite E; reflexivity]).
    destruct (Neq_list w [bom]); [injection H as <- <- <- <-; exact L|].
    destruct (if forallb is_ascii w then _ else _); injection H as <- <- <- <-; exact L.
  - apply G. unfold step_parent in H. destruct (span _ (c :: r)) as [f rest] eqn:E. destruct (is_nil f) eqn:En.
    + cbn [negb] in H. destruct (N.eqb c 10); [injection H as <- <- <- <-; lia|]. destruct r as [|c2 r2]; [discriminate|].
      destruct (N.eqb c2 10); [|discriminate]. injection H as <- <- <- <-. cbn [List.length]. lia.
    + cbn [negb] in H. injection H as <- <- <- <-. destruct f as [|x f]; [discriminate|].
      apply span_le in E. cbn [List.length] in E. lia.
  - unfold step_sample in H. destruct (span _ (c :: r)) as [b t1] eqn:E. pose proof (span_le _ _ _ _ E) as L. cbn [List.length] in L.
    destruct (bol && _) eqn:E2.
    + injection H as <- <- <- <-. apply andb_true_iff in E2 as [-> _]. unfold mu. cbn [List.length]. lia.
    + destruct (ends_at (c :: r)) as [rest|] eqn:E3.
      * injection H as <- <- <- <-. apply ends_at_le in E3. cbn [List.length] in E3. unfold mu. cbn [List.length]. lia.
      * destruct (N.eqb c 10); injection H as <- <- <- <-; unfold mu; cbn [List.length]; destruct bol; lia.
Qed.
Lemma scan_runs : forall q d s ts q' d', runs q d s ts q' d' [] -> forall fuel, mu q s <= fuel -> scan_from fuel q d s = Ok ts.
Proof.
  intros q d s ts q' d' H. remember (@nil N) as e eqn:Ee. revert Ee. induction H as [|q d c r t q1 d1 s1 ts q2 d2 s2 E _ IH]; intros Ee fuel Hf.
  - subst. destruct fuel; reflexivity.
  - pose proof (step_mu _ _ _ _ _ _ _ _ E) as M. destruct fuel as [|f]; [unfold mu in *; cbn [List.length] in *; lia|].
    cbn [scan_from]. rewrite E. cbn [bind]. rewrite (IH Ee f ltac:(lia)). reflexivity.
Qed.

(** ** gaps *)
Definition clean (s : list N) : Prop := Forall (fun c => c <> 0%N) s.
Definition skips (q : mode) : Prop := q = q_INITIAL \/ q = q_BOX \/ q = q_SHAPES \/ q = q_ELASTIC.
Lemma lower_eq : forall c, Model_Query.lower c = Spec_Config.lower c.
Proof. reflexivity. Qed.
Lemma index_none : forall w l i, (forall x, In x l -> same_nocase w x = false) -> index_of w l i = None.
Proof.
  induction l as [|x l IH]; intros i H; [reflexivity|]. cbn. rewrite (H x (or_introl eq_refl)). apply IH. intros y Hy. apply H. right. exact Hy.
Qed.
Lemma same_lower : forall w x, same_nocase w x = true <-> map Spec_Config.lower w = map Spec_Config.lower x.
Proof.
  intros w x. unfold same_nocase. rewrite Z.eqb_eq. revert x. induction w as [|a w IH]; intros [|b x]; cbn [strcasecmp map]; try (split; intros H; discriminate).
  - split; reflexivity.
  - change (Model_Query.lower a) with (Spec_Config.lower a). change (Model_Query.lower b) with (Spec_Config.lower b).
    destruct (N.eqb_spec (Spec_Config.lower a) (Spec_Config.lower b)) as [E|E].
    + rewrite IH, E. split; intros H; [f_equal; exact H|injection H as H; exact H].
    + split; intros H; [destruct (_ <? _)%N; discriminate|injection H as H _; congruence].
Qed.
Definition letterb (c : N) : bool := is_letter c.
Lemma lower_letter : forall c, (97 <= Spec_Config.lower c <= 122)%N -> is_letter c = true.
Proof.
  intros c H. unfold Spec_Config.lower in H. unfold is_letter.
  destruct ((65 <=? c) && (c <=? 90))%N eqn:E; [reflexivity|].
  apply orb_true_iff. right. apply andb_true_iff. split; apply N.leb_le; lia.
Qed.
Lemma letter_lower : forall c, is_letter c = false -> (97 <= Spec_Config.lower c <= 122)%N -> False.
Proof. intros c H F. apply lower_letter in F. congruence. Qed.
Lemma spellings_lower : Forall (fun x => x <> [] /\ Forall (fun c => (97 <= c <= 122)%N) x /\ map Spec_Config.lower x = x) shape_spellings.
Proof. repeat constructor; try discriminate; try lia; intro F; discriminate F. Qed.
Lemma shape_nonletter : forall w, Exists (fun c => is_letter c = false) w -> index_of w shape_spellings 0 = None.
Proof.
  intros w H. apply index_none. intros x Hx. destruct (same_nocase w x) eqn:E; [|reflexivity]. exfalso.
  apply same_lower in E. pose proof (proj1 (Forall_forall _ _) spellings_lower x Hx) as (_ & L & F). rewrite F in E.
  apply Exists_exists in H as (c & Hc & Ec). assert (In (Spec_Config.lower c) x) by (rewrite <- E; apply in_map; exact Hc).
  apply (letter_lower c Ec). exact (proj1 (Forall_forall _ _) L _ H).
Qed.
Lemma shape_at_S : forall k s, shape_at (S k) s = match (if List.length s <? S k then None else index_of (firstn (S k) s) shape_spellings 0) with
  | Some i => Some (i, skipn (S k) s) | None => shape_at k s end.
Proof. reflexivity. Qed.
Lemma shape_none : forall k c r, is_letter c = false -> shape_at k (c :: r) = None.
Proof.
  induction k as [|k IH]; intros c r H; [reflexivity|]. rewrite shape_at_S, (IH _ _ H).
  destruct (_ <? _); [reflexivity|]. rewrite shape_nonletter; [reflexivity|]. cbn [firstn]. constructor. exact H.
Qed.
Lemma gap_step_white : forall q d c r, skips q -> white c -> step q d c r = Ok ([], q, d, r).
Proof.
  intros q d c r [->|[->|[->| ->]]] H; apply white_ok in H; cbn [step]; rewrite H; reflexivity.
Qed.
Lemma up_to_newline_app : forall s r, ~ In 10%N s -> up_to_newline (s ++ 10%N :: r) = Some s.
Proof.
  induction s as [|c s IH]; intros r H; [reflexivity|]. cbn. destruct (N.eqb_spec c 10) as [->|]; [exfalso; apply H; left; reflexivity|].
  rewrite IH; [reflexivity|]. intros F. apply H. right. exact F.
Qed.
Lemma skipn_exact : forall (A : Type) (a b : list A), skipn (List.length a) (a ++ b) = b.
Proof. intros A a b. rewrite skipn_app, skipn_all, Nat.sub_diag. reflexivity. Qed.
Lemma gap_step_comment : forall q d s r, skips q -> ~ In 10%N s -> step q d 35%N (s ++ 10%N :: r) = Ok ([], q, d, 10%N :: r).
Proof.
  intros q d s r H Hs.
  assert (O : step_other q d 35 (s ++ 10%N :: r) = ([], q, d, 10%N :: r)).
  { unfold step_other. rewrite (up_to_newline_app s r Hs), skipn_exact. reflexivity. }
  destruct H as [->|[->|[->| ->]]]; cbn [step].
  - change (is_white 35) with false. change (word_start 35) with false. cbn [orb]. rewrite O. reflexivity.
  - change (is_white 35) with false. change (word_start 35) with false. change (is_digit 35) with false. cbn [orb N.eqb Pos.eqb symbol].
    unfold step_string. change (lex_string d (35%N :: s ++ 10%N :: r)) with (Ok Reject). cbn [bind]. rewrite O. reflexivity.
  - change (is_white 35) with false. cbn [orb]. change (N.eqb 35 bom) with false. change (symbol 35) with (@None token). cbn iota.
    rewrite shape_none by reflexivity. unfold step_string. change (lex_string d (35%N :: s ++ 10%N :: r)) with (Ok Reject). cbn [bind]. rewrite O. reflexivity.
  - change (is_white 35) with false. cbn [orb]. change (N.eqb 35 bom) with false. change (symbol 35) with (@None token). cbn iota.
    rewrite shape_none by reflexivity. rewrite O. reflexivity.
Qed.
Lemma gap_runs : forall q d g rest, skips q -> gap g -> runs q d (g ++ rest) [] q d rest.
Proof.
  intros q d g rest Hq H. induction H as [|c g Hc _ IH|s g Hs _ IH].
  - constructor.
  - change (runs q d (c :: g ++ rest) ([] ++ []) q d rest). econstructor; [apply gap_step_white; assumption|exact IH].
  - change (runs q d (35%N :: (s ++ 10%N :: g) ++ rest) ([] ++ []) q d rest). rewrite <- app_assoc. change ((10%N :: g) ++ rest) with (10%N :: g ++ rest).
    econstructor; [apply gap_step_comment; assumption|].
    change (runs q d (10%N :: g ++ rest) ([] ++ []) q d rest). econstructor; [apply gap_step_white; [exact Hq|cbn; tauto]|exact IH].
Qed.
Lemma gap_head : forall f g r, f 32%N = false -> f 9%N = false -> f 13%N = false -> f 10%N = false -> f 35%N = false ->
  gap g -> head_not f r -> head_not f (g ++ r).
Proof.
  intros f g r H1 H2 H3 H4 H5 [|c g' Hc Hg|s g' Hs Hg] Hr; [exact Hr| |exact H5].
  cbn. cbn in Hc. intuition (subst; assumption).
Qed.
Lemma gap1_head : forall f g r, f 32%N = false -> f 9%N = false -> f 13%N = false -> f 10%N = false -> f 35%N = false ->
  gap1 g -> head_not f (g ++ r).
Proof.
  intros f g r H1 H2 H3 H4 H5 [H Hn]. destruct H as [|c g' Hc Hg|s g' Hs Hg]; [congruence| |exact H5].
  cbn. cbn in Hc. intuition (subst; assumption).
Qed.

(** ** words *)
Definition ascii_word (w : list N) : Prop := exists c r, w = c :: r /\ word_start c = true /\ forallb word_char w = true /\ forallb is_ascii w = true.
Lemma word_facts : forall c, word_start c = true -> is_white c = false.
Proof.
  intros c H. destruct (is_white c) eqn:E; [|reflexivity]. apply white_ok in E. cbn in E. intuition (subst; discriminate).
Qed.
Lemma nbom : forall w, forallb is_ascii w = true -> Neq_list w [bom] = false.
Proof.
  intros w H. unfold Neq_list. destruct (list_eq_dec N.eq_dec w [bom]) as [->|]; [discriminate|reflexivity].
Qed.
Lemma word_box_runs : forall w d rest t q' d', ascii_word w -> head_not word_char rest -> word_box w d = (t, q', d') ->
  runs q_BOX d (w ++ rest) [t] q' d' rest.
Proof.
  intros w d rest t q' d' (c & r & Ew & H1 & H2 & H3) Hr E. subst w.
  apply (runs_one _ _ c (r ++ rest)). cbn [step]. rewrite (word_facts c H1), H1.
  unfold step_word. change (c :: r ++ rest) with ((c :: r) ++ rest). rewrite (span_app word_char _ _ H2 Hr), (nbom _ H3), H3, E. reflexivity.
Qed.
Lemma word_initial_runs : forall w d rest t q' d', ascii_word w -> head_not word_char rest -> word_initial w d = (t, q', d') ->
  runs q_INITIAL d (w ++ rest) [t] q' d' rest.
Proof.
  intros w d rest t q' d' (c & r & Ew & H1 & H2 & H3) Hr E. subst w.
  apply (runs_one _ _ c (r ++ rest)). cbn [step]. rewrite (word_facts c H1), H1.
  unfold step_word. change (c :: r ++ rest) with ((c :: r) ++ rest). rewrite (span_app word_char _ _ H2 Hr), (nbom _ H3), H3, E. reflexivity.
Qed.
Lemma letter_ok : forall c, is_letter c = true <-> letter c.
Proof.
  intros c. unfold is_letter, letter. rewrite orb_true_iff, !andb_true_iff, !N.leb_le. tauto.
Qed.
Lemma letter_ascii : forall c, is_letter c = true -> is_ascii c = true.
Proof. intros c H. apply letter_ok in H. unfold letter in H. unfold is_ascii. apply N.ltb_lt. lia. Qed.
Lemma name_char_ok : forall c, name_char c -> word_char c = true /\ is_ascii c = true.
Proof.
  intros c H. unfold name_char in H. unfold word_char. destruct H as [H|[H|[->| ->]]]; [|  |split; reflexivity|split; reflexivity].
  - apply letter_ok in H. rewrite H. split; [reflexivity|apply letter_ascii; exact H].
  - assert (is_digit c = true) as -> by (unfold is_digit; apply andb_true_iff; rewrite !N.leb_le; lia).
    rewrite orb_true_r. split; [reflexivity|]. unfold is_ascii. apply N.ltb_lt. lia.
Qed.
Lemma name_word : forall w, name w -> ascii_word w.
Proof.
  intros w (c & r & -> & Hc & Hr). apply letter_ok in Hc. exists c, r. split; [reflexivity|].
  assert (W : word_char c = true) by (unfold word_char; rewrite Hc; reflexivity). cbn [forallb].
  rewrite W, (letter_ascii c Hc). unfold word_start. rewrite Hc. repeat split; cbn [andb].
  - apply forallb_forall. intros x Hx. apply name_char_ok. exact (proj1 (Forall_forall _ _) Hr x Hx).
  - apply forallb_forall. intros x Hx. apply name_char_ok. exact (proj1 (Forall_forall _ _) Hr x Hx).
Qed.
Definition plain (k : string) : Prop := lit k <> [] /\ Forall (fun c => (97 <= c <= 122)%N) (lit k).
Lemma spells_word : forall k w, plain k -> spells k w -> ascii_word w.
Proof.
  intros k w [Hn Hk] H. unfold spells in H. fold (lit k) in H.
  assert (A : Forall (fun c => is_letter c = true) w).
  { apply Forall_forall. intros c Hc. apply lower_letter. rewrite <- H in Hk. apply (proj1 (Forall_forall _ _) Hk). apply in_map. exact Hc. }
  destruct w as [|c r]; [cbn in H; congruence|]. inversion A as [|? ? A1 A2]; subst. apply name_word. exists c, r.
  split; [reflexivity|]. split; [apply letter_ok; exact A1|]. eapply Forall_impl; [|exact A2]. intros x Hx. left. apply letter_ok. exact Hx.
Qed.
Lemma spells_same : forall k w x, spells k w -> same_nocase w x = same_nocase (lit k) x.
Proof.
  intros k w x H. unfold spells in H. fold (lit k) in H. apply Bool.eq_iff_eq_true. rewrite !same_lower, <- H.
  rewrite map_map. replace (map (fun x0 => Spec_Config.lower (Spec_Config.lower x0)) w) with (map Spec_Config.lower w); [reflexivity|].
  apply map_ext. intros c. unfold Spec_Config.lower. destruct ((65 <=? c) && (c <=? 90))%N eqn:E; [|rewrite E; reflexivity].
  apply andb_true_iff in E as [E1 E2]. apply N.leb_le in E1, E2. destruct ((65 <=? c + 32) && (c + 32 <=? 90))%N eqn:E3; [|reflexivity].
  apply andb_true_iff in E3 as [E3 E4]. apply N.leb_le in E3, E4. lia.
Qed.
Lemma same_spells : forall k w, map Spec_Config.lower (lit k) = lit k -> same_nocase w (lit k) = true -> spells k w.
Proof. intros k w Hk H. apply same_lower in H. unfold spells. fold (lit k). rewrite H. exact Hk. Qed.
Ltac plain_ := split; [discriminate|cbv; repeat constructor; discriminate].
Lemma not_reserved : forall w d, ~ reserved w -> word_box w d = (T_ASCII_ID w, q_BOX, d).
Proof.
  intros w d H. unfold reserved in H.
  assert (K : forall k, map Spec_Config.lower (lit k) = lit k -> In k
    ["sample"; "tags"; "elastic"; "shapes"; "replace"; "reverse"; "padding"; "to"; "with"; "global"; "once"; "end"; "author"; "designer"; "indent"; "delimiter"; "delim"]%string ->
    same_nocase w (lit k) = false).
  { intros k Hk Hin. destruct (same_nocase w (lit k)) eqn:E; [|reflexivity]. exfalso. apply H. apply Exists_exists. exists k. split; [exact Hin|].
    apply same_spells; assumption. }
  unfold word_box. rewrite !K by (reflexivity || (cbn; tauto)). reflexivity.
Qed.

(** ** strings *)
Definition ok_delims (d : delims) : Prop := delims_ok d.
Lemma clean_in : forall s, clean s <-> ~ In 0%N s.
Proof.
  intros s. unfold clean. rewrite Forall_forall. split; intros H; [intros F; exact (H _ F eq_refl)|intros c Hc ->; exact (H Hc)].
Qed.
Lemma clean_app : forall a b, clean (a ++ b) <-> clean a /\ clean b.
Proof. intros a b. apply Forall_app. Qed.
Lemma clean_cons : forall a b, clean (a :: b) <-> a <> 0%N /\ clean b.
Proof. intros a b. apply Forall_cons_iff. Qed.
Lemma delim_char : forall c, In c LEX_SDELIM -> is_white c = false /\ word_char c = false /\ word_start c = false /\
  (is_digit c || N.eqb c 43 || N.eqb c 45) = false /\ symbol c = None /\ is_letter c = false /\ N.eqb c bom = false.
Proof.
  intros c H. cbn in H. repeat (destruct H as [<-|H]; [repeat split; reflexivity|]). destruct H.
Qed.
Lemma string_runs : forall q d v s rest, q = q_BOX \/ q = q_SHAPES -> delims_ok d -> written_string d v s -> clean (s ++ rest) -> In 10%N rest ->
  runs q d (s ++ rest) [T_STRING v] q d rest.
Proof.
  intros q d v s rest Hq Hd (body & -> & Hb & Hn) Hc Hr.
  assert (L : lex_string d ((sdel d :: body ++ [sdel d]) ++ rest) = Ok (STRING v rest)).
  { destruct (C31_literals d ((sdel d :: body ++ [sdel d]) ++ rest) Hd (proj1 (clean_in _) Hc)) as (l & El & Hl & _).
    rewrite El. f_equal. apply Hl. exists body. repeat split; try assumption. cbn. rewrite <- app_assoc. reflexivity. }
  destruct (delim_char _ (proj1 Hd)) as (C1 & C2 & C3 & C4 & C5 & C6 & C7).
  apply (runs_one _ _ (sdel d) ((body ++ [sdel d]) ++ rest)).
  assert (S : step_string q d (sdel d) ((body ++ [sdel d]) ++ rest) = Ok ([T_STRING v], q, d, rest)).
  { unfold step_string. change (sdel d :: (body ++ [sdel d]) ++ rest) with ((sdel d :: body ++ [sdel d]) ++ rest). rewrite L. reflexivity. }
  destruct Hq as [->| ->]; cbn [step].
  - rewrite C1, C3, C4, C5. exact S.
  - rewrite C1, C7, C5. cbn [orb]. rewrite (shape_none 3 _ _ C6). exact S.
Qed.
Lemma string_head : forall d v s r f, delims_ok d -> written_string d v s -> (forall c, In c LEX_SDELIM -> f c = false) -> head_not f (s ++ r).
Proof. intros d v s r f Hd (body & -> & _) Hf. cbn. apply Hf. exact (proj1 Hd). Qed.

(** ** symbols *)
Lemma symbol_runs : forall q d c r t, q = q_BOX \/ q = q_SHAPES \/ q = q_ELASTIC -> symbol c = Some t ->
  runs q d (c :: r) [t] (match q with q_SHAPES => if N.eqb c 125 then q_BOX else q | q_ELASTIC => if N.eqb c 41 then q_BOX else q | _ => q end) d r.
Proof.
  intros q d c r t Hq H. apply runs_one.
  assert (W : is_white c = false /\ word_start c = false /\ (is_digit c || N.eqb c 43 || N.eqb c 45) = false /\ N.eqb c bom = false).
  { unfold symbol in H. repeat match type of H with (if N.eqb c ?x then _ else _) = _ => destruct (N.eqb_spec c x) as [->|]; [repeat split; reflexivity|] end. discriminate. }
  destruct W as (W1 & W2 & W3 & W4). destruct Hq as [->|[->| ->]]; cbn [step].
  - rewrite W1, W2, W3, H. reflexivity.
  - rewrite W1, W4, H. reflexivity.
  - rewrite W1, W4, H. reflexivity.
Qed.

(** ** numbers *)
Lemma digits_spec : forall s v, digits s = Some v -> forallb is_digit s = true /\ forall a, fold_left (fun a c => 10 * a + (Z.of_N c - 48))%Z s a = (a * 10 ^ Z.of_nat (List.length s) + v)%Z.
Proof.
  induction s as [|c s IH]; intros v H; cbn [digits] in H.
  - injection H as <-. split; [reflexivity|]. intros a. cbn. lia.
  - destruct (digits s) as [v'|] eqn:E; [|discriminate]. destruct ((48 <=? c) && (c <=? 57))%N eqn:Ec; [|discriminate].
    injection H as <-. destruct (IH _ eq_refl) as [I1 I2]. split.
    + cbn [forallb]. unfold is_digit at 1. rewrite Ec. exact I1.
    + intros a. cbn [fold_left]. rewrite I2. cbn [List.length]. rewrite Nat2Z.inj_succ, Z.pow_succ_r by lia. ring.
Qed.
Lemma number_runs : forall d z s rest, written_number z s -> head_not is_digit rest -> runs q_BOX d (s ++ rest) [T_NUMBER z] q_BOX d rest.
Proof.
  intros d z s rest (Hz & ds & v & Hn & Hds & Hs) Hr. destruct (digits_spec _ _ Hds) as [D1 D2].
  specialize (D2 0%Z). rewrite Z.mul_0_l, Z.add_0_l in D2. fold (digits_value ds) in D2.
  assert (A : forall neg, z = (if neg : bool then - v else v)%Z -> atoi neg ds = Ok z).
  { intros neg E. unfold atoi. rewrite D2, <- E. replace ((-2147483648 <=? z) && (z <=? 2147483647))%Z with true; [reflexivity|].
    symmetry. apply andb_true_iff. rewrite !Z.leb_le. lia. }
  destruct ds as [|c ds]; [congruence|].
  assert (Dc : is_digit c = true) by (cbn in D1; apply andb_true_iff in D1; tauto).
  assert (Nc : N.eqb c 43 = false /\ N.eqb c 45 = false /\ is_white c = false /\ word_start c = false).
  { unfold is_digit in Dc. apply andb_true_iff in Dc as [K1 K2]. apply N.leb_le in K1, K2. unfold word_start, is_letter, is_ascii.
    repeat split.
    - apply N.eqb_neq. lia.
    - apply N.eqb_neq. lia.
    - destruct (is_white c) eqn:F; [|reflexivity]. apply white_ok in F. cbn in F. lia.
    - replace (c <? 128)%N with true by (symmetry; apply N.ltb_lt; lia). replace (65 <=? c)%N with false by (symmetry; apply N.leb_gt; lia).
      replace (97 <=? c)%N with false by (symmetry; apply N.leb_gt; lia). reflexivity. }
  destruct Nc as (N1 & N2 & N3 & N4).
  assert (Sp : span is_digit (c :: ds ++ rest) = (c :: ds, rest)) by (change (c :: ds ++ rest) with ((c :: ds) ++ rest); apply span_app; assumption).
  destruct Hs as [[-> Hv]|[[-> Hv]|[-> Hv]]].
  - apply (runs_one _ _ c (ds ++ rest)). cbn [step]. rewrite N3, N4, Dc. cbn [orb]. unfold step_number. rewrite N1, N2. cbn [orb]. rewrite Sp. cbn [is_nil].
    rewrite (A false Hv). reflexivity.
  - apply (runs_one _ _ 43%N (c :: ds ++ rest)). cbn [step]. change (is_white 43) with false. change (word_start 43) with false. cbn iota.
    change (is_digit 43 || N.eqb 43 43 || N.eqb 43 45) with true. cbn iota. unfold step_number. cbn [N.eqb Pos.eqb orb]. rewrite Sp. cbn [is_nil].
    rewrite (A false Hv). reflexivity.
  - apply (runs_one _ _ 45%N (c :: ds ++ rest)). cbn [step]. change (is_white 45) with false. change (word_start 45) with false. cbn iota.
    change (is_digit 45 || N.eqb 45 43 || N.eqb 45 45) with true. cbn iota. unfold step_number. cbn [N.eqb Pos.eqb orb]. rewrite Sp. cbn [is_nil].
    rewrite (A true Hv). reflexivity.
Qed.

(** ** shapes *)
Lemma shape_spelled_word : forall i s, shape_spelled i s -> s <> [] /\ List.length s <= 3 /\ forallb is_letter s = true /\ index_of s shape_spellings 0 = Some i.
Proof.
  intros i s (k & Hk & Hs).
  assert (P : plain k /\ List.length (lit k) <= 3 /\ index_of (lit k) shape_spellings 0 = Some i).
  { do 16 (destruct i as [|i]; [injection Hk as <-; split; [plain_|]; split; [cbn; lia|reflexivity]|]). destruct i; discriminate. }
  destruct P as ([P1 P2] & P3 & P4). pose proof Hs as Hs'. unfold spells in Hs'. fold (lit k) in Hs'.
  assert (Ls : List.length s = List.length (lit k)) by (rewrite <- Hs', map_length; reflexivity).
  repeat split.
  - intros ->. destruct (lit k); [congruence|discriminate].
  - lia.
  - apply forallb_forall. intros c Hc. apply lower_letter. rewrite <- Hs' in P2. apply (proj1 (Forall_forall _ _) P2). apply in_map. exact Hc.
  - rewrite <- P4. clear P4. generalize 0 as j. generalize shape_spellings as l. induction l as [|x l IH]; intros j; [reflexivity|]. cbn.
    rewrite (spells_same _ _ x Hs). destruct (same_nocase _ _); [reflexivity|apply IH].
Qed.
Lemma shape_at_app : forall k i s rest, shape_spelled i s -> head_not is_letter rest -> List.length s <= k -> shape_at k (s ++ rest) = Some (i, rest).
Proof.
  induction k as [|k IH]; intros i s rest Hs Hr Hk; destruct (shape_spelled_word _ _ Hs) as (S1 & S2 & S3 & S4); [destruct s; [congruence|cbn in Hk; lia]|].
  rewrite shape_at_S. destruct (Nat.eq_dec (List.length s) (S k)) as [E|E].
  - rewrite app_length. replace (List.length s + List.length rest <? S k) with false by (symmetry; apply Nat.ltb_ge; lia).
    rewrite <- E, firstn_app, firstn_all, Nat.sub_diag. cbn [firstn]. rewrite app_nil_r, S4. rewrite skipn_exact. reflexivity.
  - rewrite (IH _ _ _ Hs Hr) by lia. destruct (List.length (s ++ rest) <? S k) eqn:L; [reflexivity|]. apply Nat.ltb_ge in L. rewrite app_length in L.
    rewrite shape_nonletter; [reflexivity|]. destruct rest as [|c rest]; [cbn in L; lia|].
    rewrite firstn_app. apply Exists_exists. exists c. split; [|exact Hr]. apply in_or_app. right.
    destruct (S k - List.length s) as [|m] eqn:M; [lia|]. left. reflexivity.
Qed.
Lemma letter_facts : forall c, is_letter c = true -> is_white c = false /\ N.eqb c bom = false /\ symbol c = None.
Proof.
  intros c H. apply letter_ok in H. unfold letter in H. repeat split.
  - destruct (is_white c) eqn:F; [|reflexivity]. apply white_ok in F. cbn in F. lia.
  - apply N.eqb_neq. unfold bom. lia.
  - unfold symbol. repeat match goal with |- context [N.eqb c ?x] => replace (N.eqb c x) with false by (symmetry; apply N.eqb_neq; lia) end. reflexivity.
Qed.
Lemma shape_runs : forall q d i s rest, q = q_SHAPES \/ q = q_ELASTIC -> shape_spelled i s -> head_not is_letter rest ->
  runs q d (s ++ rest) [T_SHAPE i] q d rest.
Proof.
  intros q d i s rest Hq Hs Hr. destruct (shape_spelled_word _ _ Hs) as (S1 & S2 & S3 & S4). pose proof (shape_at_app 3 i s rest Hs Hr S2) as A.
  destruct s as [|c s]; [congruence|]. cbn [forallb] in S3. apply andb_true_iff in S3 as [Lc _].
  destruct (letter_facts c Lc) as (F1 & F2 & F3). apply (runs_one _ _ c (s ++ rest)). change ((c :: s) ++ rest) with (c :: s ++ rest) in A.
  destruct Hq as [->| ->]; cbn [step]; rewrite F1, F2, F3; cbn [orb]; rewrite A; reflexivity.
Qed.
