(** * Properties of tag queries and design lists: C42, C43, C44 *)
From Coq Require Import Ascii String List Arith NArith ZArith Bool Lia Sorting.Permutation Sorting.Sorted.
From Verif Require Import Base BaseFacts Model_Shape Model_Regex Model_Query Spec_Query Proof_Query.
Import ListNotations.
Local Open Scope N_scope.

Definition bytes (s : string) : list N := map N_of_ascii (list_ascii_of_string s).

(** ** C42 *)
Theorem C42_selection : forall query tags, filter_by_tag query tags = true <-> selected query tags.
Proof.
  intros q tags. unfold filter_by_tag. rewrite filter_ok. unfold selected. split; intros (A & B & C); (split; [|split]).
  - intros x t Hx Ht. apply term_exc in Ht. subst x. auto.
  - intros x t Hx Ht. apply term_req in Ht. subst x. auto.
  - destruct C as [(t & C)|[(t & C & C')|C]].
    + left. exists (43 :: t), t. split; [exact C|constructor].
    + right. left. exists t, t. tauto.
    + right. right. apply contains_ok in C as (x & Hx & C). exists x. auto.
  - intros t Ht. apply (A _ _ Ht). constructor.
  - intros t Ht. apply (B _ _ Ht). constructor.
  - destruct C as [(x & t & C & C')|[(x & t & C & C' & C2)|(x & C & C')]].
    + apply term_req in C'. subst x. left. eauto.
    + pose proof C' as C3. apply term_pln in C3 as (-> & _ & _). right. left. eauto.
    + right. right. apply contains_ok. exists x. auto.
Qed.
Theorem C42_order : forall q q' tags, Permutation q q' -> filter_by_tag q tags = filter_by_tag q' tags.
Proof.
  assert (H : forall q q' tags, Permutation q q' -> filter_by_tag q tags = true -> filter_by_tag q' tags = true).
  { intros q q' tags P H. apply C42_selection in H. apply C42_selection. assert (I : forall x, In x q <-> In x q') by (intros x; split; apply Permutation_in; [exact P|apply Permutation_sym; exact P]).
    destruct H as (A & B & C). split; [|split].
    - intros x t Hx. apply A, I, Hx.
    - intros x t Hx. apply B, I, Hx.
    - destruct C as [(x & t & C & C')|[(x & t & C & C')|(x & C & C')]]; [left; exists x, t|right; left; exists x, t|right; right; exists x]; (split; [apply I; exact C|exact C']). }
  intros q q' tags P. pose proof (H q q' tags P). pose proof (H q' q tags (Permutation_sym P)). destruct (filter_by_tag q tags), (filter_by_tag q' tags); auto. symmetry. auto.
Qed.
Print Assumptions C42_selection.
Print Assumptions C42_order.

Lemma not_pos : forall ts, (forall t, In t ts -> t <> []) -> (existsb positive ts = false <-> forall q, In q ts -> exists t, term q excluded t).
Proof.
  intros ts Hn. split.
  - intros H q Hq. specialize (Hn q Hq). destruct q as [|c t]; [congruence|]. destruct (N.eqb_spec c 45) as [->|Hc]; [exists t; constructor|].
    assert (existsb positive ts = true); [|congruence]. apply existsb_exists. exists (c :: t). split; [exact Hq|]. cbn. apply negb_true_iff, N.eqb_neq. exact Hc.
  - intros H. destruct (existsb positive ts) eqn:E; [|reflexivity]. apply existsb_exists in E as (x & Hx & E). destruct (H x Hx) as (t & Ht). apply term_exc in Ht. subst x. discriminate.
Qed.
Lemma terms_nonempty : forall s ts, terms s ts -> forall t, In t ts -> t <> [].
Proof. intros s ts H t Ht. apply terms_ok in H. subst ts. apply filter_In in Ht as [_ Ht]. destruct t; [discriminate|congruence]. Qed.

(** ** C43 *)
Theorem C43_accepted : forall s q, parse_query s = Some q <->
  exists ts, terms s ts /\ well_formed ts /\
    (q = ts /\ (exists x k t, In x ts /\ term x k t /\ k <> excluded) \/ q = ts ++ [all_word] /\ forall x, In x ts -> exists t, term x excluded t).
Proof.
  intros s q. unfold parse_query.
  assert (W : forall ts, ts <> [] -> (fresh [] ts <-> well_formed ts)).
  { intros ts Hne. rewrite fresh_ok. cbn [app List.length]. unfold well_formed. split.
    - intros (A & B). split; [exact Hne|]. split.
      + intros x k t Hx Ht. apply validate_ok. rewrite <- (term_raw x k t Ht). auto.
      + intros i j x y k k' t u Hi Hj Ht Hu Hc. rewrite <- (term_raw _ _ _ Ht), <- (term_raw _ _ _ Hu) in Hc.
        destruct (Nat.lt_trichotomy i j) as [L|[E|L]]; [|exact E|].
        * destruct (B i j x y L (Nat.le_0_l _) Hi Hj Hc).
        * destruct (B j i y x L (Nat.le_0_l _) Hj Hi (nocase_sym _ _ Hc)).
    - intros (_ & A & B). split.
      + intros t Ht. destruct (term_exists t) as (k & Hk). apply validate_ok. eapply A; eassumption.
      + intros i j t u L _ Hi Hj Hc. destruct (term_exists t) as (k & Hk). destruct (term_exists u) as (k' & Hk'). specialize (B i j t u k k' _ _ Hi Hj Hk Hk' Hc). lia. }
  pose proof (proj2 (terms_ok s _) eq_refl) as HT. pose proof (terms_nonempty s _ HT) as Hn. set (ts := term_list s) in *.
  split.
  - destruct (parse_terms _ _ _) as [[q1 p]|] eqn:E; [|discriminate]. apply parse_ok in E. cbv zeta in E. cbn [app orb] in E. fold (term_list s) in E. fold ts in E.
    destruct E as (-> & -> & Hf). intros H. exists ts. split; [exact HT|]. destruct (is_nil ts) eqn:En; [discriminate|].
    assert (Hne : ts <> []) by (intros K; rewrite K in En; discriminate). split; [apply W; assumption|].
    destruct (existsb positive ts) eqn:Ep; injection H as <-.
    + left. split; [reflexivity|]. apply existsb_exists in Ep as (x & Hx & Ep). destruct (term_exists x) as (k & Hk). exists x, k, (raw_tag x). split; [exact Hx|]. split; [exact Hk|].
      intros ->. apply term_exc in Hk. rewrite Hk in Ep. discriminate.
    + right. split; [reflexivity|]. apply not_pos; assumption.
  - intros (ts' & HT' & Hw & Hq). apply terms_ok in HT'. fold ts in HT'. subst ts'. destruct Hw as (Hne & Hw).
    assert (Hf : fresh [] ts) by (apply W; [exact Hne|split; [exact Hne|exact Hw]]).
    assert (E : parse_terms (strtok_all s) [] false = Some (ts, existsb positive ts)) by (apply parse_ok; cbv zeta; cbn [app orb]; auto).
    rewrite E. destruct (is_nil ts) eqn:En; [destruct ts; [congruence|discriminate]|]. destruct Hq as [(-> & x & k & t & Hx & Ht & Hk)|(-> & Ha)].
    + destruct (existsb positive ts) eqn:Ep; [reflexivity|]. exfalso. destruct (proj1 (not_pos ts Hn) Ep x Hx) as (u & Hu). apply Hk. apply term_exc in Hu. subst x.
      inversion Ht; subst; [reflexivity|]. destruct (H0 u eq_refl).
    + rewrite (proj2 (not_pos ts Hn) Ha). reflexivity.
Qed.
Print Assumptions C43_accepted.

Theorem C42_by_text : forall s q ts tags, parse_query s = Some q -> terms s ts -> (filter_by_tag q tags = true <-> selected_by_text ts tags).
Proof.
  intros s q ts tags Hq HT. apply C43_accepted in Hq as (ts' & HT' & _ & Hq). apply terms_ok in HT, HT'. subst ts ts'.
  pose proof (proj2 (terms_ok s _) eq_refl) as HT. set (ts := term_list s) in *. rewrite C42_selection. unfold selected, selected_by_text.
  destruct Hq as [(-> & x & k & t & Hx & Ht & Hk)|(-> & Ha)].
  - split; intros (A & B & C); (split; [exact A|split; [exact B|]]); [tauto|]. destruct C as [C|[C|[C|C]]]; auto. exfalso. destruct (C x Hx) as (u & Hu). apply Hk.
    apply term_exc in Hu. subst x. inversion Ht; subst; [reflexivity|]. destruct (H0 u eq_refl).
  - assert (NA : forall k t, term all_word k t -> k = plain) by (intros k t H; inversion H; reflexivity).
    split; intros (A & B & C); (split; [|split]).
    + intros x t Hx. apply A. apply in_or_app. auto.
    + intros x t Hx. apply B. apply in_or_app. auto.
    + auto.
    + intros x t Hx Ht. apply in_app_or in Hx as [Hx|[<-|[]]]; [eapply A; eassumption|]. specialize (NA _ _ Ht). discriminate.
    + intros x t Hx Ht. apply in_app_or in Hx as [Hx|[<-|[]]]; [eapply B; eassumption|]. specialize (NA _ _ Ht). discriminate.
    + right. right. exists all_word. split; [apply in_or_app; right; left; reflexivity|apply nocase_refl].
Qed.
Print Assumptions C42_by_text.

Example C42_example : let q := [bytes "+java"; bytes "-doc"; bytes "(all)"; bytes "C"]%string in
  filter_by_tag q [bytes "Java"; bytes "box"]%string = true /\ filter_by_tag q [bytes "java"; bytes "DOC"]%string = false /\
  filter_by_tag q [bytes "c"]%string = false /\ filter_by_tag [bytes "c"; bytes "java"]%string [bytes "java"]%string = true.
Proof. vm_compute. auto. Qed.
Example C43_example : parse_query (bytes " java , -doc,,+c "%string) = Some [bytes "java"; bytes "-doc"; bytes "+c"]%string /\
  parse_query (bytes "-doc"%string) = Some [bytes "-doc"; bytes "(all)"]%string /\
  parse_query (bytes "doc,-doc"%string) = None /\ parse_query (bytes " ,"%string) = None /\ parse_query (bytes "no--tag"%string) = None.
Proof. vm_compute. auto 10. Qed.

(** excluding [(all)] does not exclude anything, requiring it selects nothing *)
Theorem C42_all_refuted : exists s q, parse_query s = Some q /\ terms s [45 :: all_word] /\ forall tags, Forall accepted_tag tags -> filter_by_tag q tags = true.
Proof.
  exists (bytes "-(all)"%string), [bytes "-(all)"%string; all_word]. split; [vm_compute; reflexivity|]. split; [apply terms_ok; vm_compute; reflexivity|].
  intros tags Ht. apply C42_selection. split; [|split].
  - intros x t [<-|[<-|[]]] H; [|inversion H]. apply term_exc in H. injection H as <-. intros (y & Hy & Hn). rewrite Forall_forall in Ht. specialize (Ht y Hy).
    assert (Hc : exists c r, y = c :: r /\ 97 <= c <= 122).
    { destruct Ht as [((c & r & -> & Hc) & _)|(t & -> & (c & r & -> & Hc) & _)]; eexists; eexists; (split; [reflexivity|exact Hc]). }
    destruct Hc as (c & r & -> & Hc). inversion Hn as [|? ? ? ? Hs _]; subst. unfold same_letter in Hs. lia.
  - intros x t [<-|[<-|[]]] H; inversion H.
  - right. right. exists all_word. split; [right; left; reflexivity|apply nocase_refl].
Qed.
(** a line feed at the end of a tag goes unnoticed *)
Theorem C43_line_feed_refuted : exists s q t, parse_query s = Some q /\ In t q /\ term t plain t /\ t <> all_word /\ ~ good_tag t.
Proof.
  exists (bytes "java"%string ++ [10]), [bytes "java"%string ++ [10]], (bytes "java"%string ++ [10]). split; [vm_compute; reflexivity|]. split; [left; reflexivity|].
  split; [constructor; discriminate|]. split; [discriminate|]. intros (_ & H & _). rewrite Forall_forall in H. specialize (H 10 ltac:(cbn; auto 10)). unfold tag_char in H. lia.
Qed.
Print Assumptions C42_all_refuted.
Print Assumptions C43_line_feed_refuted.

(** names of designs and tags: the two patterns say what is intended, except for the line feed *)
Theorem C43_tag_pattern : forall s, tag_is_valid s = true <-> accepted_tag s.
Proof. exact tag_ok. Qed.
Theorem C43_name_pattern : forall s, is_ascii_id false s = true <-> accepted_name s.
Proof. exact name_ok. Qed.
Print Assumptions C43_tag_pattern.
Print Assumptions C43_name_pattern.
Example C43_pattern_example : is_ascii_id false (bytes "Ada-cmt_2"%string) = true /\ is_ascii_id false (bytes "a-_b"%string) = false /\
  tag_is_valid (bytes "Ada"%string) = false /\ tag_is_valid (bytes "c-style"%string) = true /\ tag_is_valid (bytes "nonesuch"%string) = false.
Proof. vm_compute. auto 10. Qed.

(** ** C44 *)
Lemma casecmp_sym : forall a b, strcasecmp b a = (- strcasecmp a b)%Z.
Proof.
  induction a as [|x a IH]; intros [|y b]; cbn [strcasecmp]; try reflexivity. rewrite (N.eqb_sym (lower y) (lower x)). destruct (N.eqb_spec (lower x) (lower y)); [apply IH|].
  destruct (N.ltb_spec (lower x) (lower y)), (N.ltb_spec (lower y) (lower x)); try reflexivity; lia.
Qed.
Lemma casecmp_le : forall a b, (strcasecmp a b <= 0)%Z <-> not_after a b.
Proof.
  assert (L : forall c, lower c = low c) by reflexivity.
  induction a as [|x a IH]; intros [|y b]; cbn [strcasecmp].
  - split; [constructor|lia].
  - split; [constructor|lia].
  - split; [lia|intros H; inversion H].
  - destruct (N.eqb_spec (lower x) (lower y)) as [E|E].
    + rewrite IH. split; [intros H; apply na_same; [rewrite <- !L; exact E|exact H]|]. intros H. inversion H; subst; [exfalso; pose proof (L x); pose proof (L y); lia|assumption].
    + destruct (N.ltb_spec (lower x) (lower y)) as [Hl|Hl]; (split; [|intros H; inversion H; subst; try (exfalso; pose proof (L x); pose proof (L y); lia)]).
      * intros _. apply na_less. rewrite <- !L. exact Hl.
      * lia.
      * lia.
Qed.
Lemma not_after_trans : forall a b c, not_after a b -> not_after b c -> not_after a c.
Proof.
  intros a b c H. revert c. induction H as [b|x y a b H|x y a b H H' IH]; intros c K; [constructor| |].
  - inversion K; subst; [apply na_less; lia|apply na_less; lia].
  - inversion K; subst; [apply na_less; lia|apply na_same; [congruence|auto]].
Qed.
Lemma ordering_by : forall A (f : A -> list N), ordering A (fun a b => strcasecmp (f a) (f b)).
Proof.
  intros A f. split.
  - intros a b. rewrite (casecmp_sym (f a) (f b)). lia.
  - intros a b c. rewrite !casecmp_le. apply not_after_trans.
Qed.

Theorem C44_sorted : forall qs, sorter qs -> forall ds,
  Permutation ds (sort_designs_by_name qs ds) /\ StronglySorted (fun a b => not_after (e_name a) (e_name b)) (sort_designs_by_name qs ds).
Proof.
  intros qs Hq ds. destruct (Hq entry style_sort ds (ordering_by entry e_name)) as [P S]. split; [exact P|]. unfold sort_designs_by_name. clear P.
  induction S as [|a l S IH F]; [constructor|]. constructor; [exact IH|]. eapply Forall_impl; [|exact F]. intros b H. apply casecmp_le. exact H.
Qed.
(** the answer to a query: the selected designs in alphabetical order, each with its aliases *)
Theorem C44_query_output : forall qs, sorter qs -> forall eol q ds, exists l,
  (forall e, In e l <-> In e ds /\ selected q (e_tags e)) /\ Permutation l (filter (fun e => filter_by_tag q (e_tags e)) ds) /\
  StronglySorted (fun a b => not_after (e_name a) (e_name b)) l /\
  query_by_tag qs eol q ds = concat (map (fun e => e_name e ++ eol ++ concat (map (fun a => a ++ bytes " (alias)" ++ eol) (e_aliases e))) l).
Proof.
  intros qs Hq eol q ds. destruct (C44_sorted qs Hq ds) as [P S]. set (f := fun e => filter_by_tag q (e_tags e)). exists (filter f (sort_designs_by_name qs ds)).
  assert (PP : forall l l', Permutation l l' -> Permutation (filter f l) (filter f l')).
  { intros l l' H. induction H as [|x l l' H IH|x y l|l l' l'' H1 IH1 H2 IH2]; cbn [filter]; [constructor|destruct (f x); [constructor|]; exact IH| |eapply Permutation_trans; eassumption].
    destruct (f x), (f y); try apply Permutation_refl. apply perm_swap. }
  split; [|split; [|split]].
  - intros e. rewrite filter_In. unfold f. rewrite C42_selection. split; intros [H1 H2]; (split; [|exact H2]); [eapply Permutation_in; [apply Permutation_sym, P|exact H1]|eapply Permutation_in; eassumption].
  - apply PP. apply Permutation_sym. exact P.
  - clear -S. induction S as [|a l S IH F]; cbn [filter]; [constructor|]. destruct (f a); [|exact IH]. constructor; [exact IH|]. rewrite Forall_forall in *. intros x Hx. apply filter_In in Hx as [Hx _]. auto.
  - unfold query_by_tag. clear. induction (sort_designs_by_name qs ds) as [|e l IH]; cbn [flat_map filter]; [reflexivity|]. unfold f at 1. rewrite IH. destruct (filter_by_tag q (e_tags e)); [|reflexivity].
    cbn [map concat]. unfold query_line. rewrite flat_map_concat_map. reflexivity.
Qed.
Print Assumptions C44_sorted.
Print Assumptions C44_query_output.

(** statistics *)
Lemma occurs_fun : forall t l n n', occurs_nocase t l n -> occurs_nocase t l n' -> n = n'.
Proof. intros t l n n' H. revert n'. induction H; intros n' K; inversion K; subst; auto; contradiction. Qed.
Lemma occurs_app1 : forall t l n x, occurs_nocase t l n -> (nocase t x -> occurs_nocase t (l ++ [x]) (S n)) /\ (~ nocase t x -> occurs_nocase t (l ++ [x]) n).
Proof. intros t l n x H. induction H; cbn [app]; (split; intros K; [|]); try (constructor; [assumption|]; tauto); constructor; auto; constructor. Qed.
Lemma occurs_perm : forall t l l' n, Permutation l l' -> occurs_nocase t l n -> occurs_nocase t l' n.
Proof.
  intros t l l' n P. revert n. induction P as [|x l l' P IH|x y l|l l' l'' P1 IH1 P2 IH2]; intros n H; auto.
  - inversion H; subst; constructor; auto.
  - inversion H as [|? ? ? K1 K|? ? ? K1 K]; subst; inversion K; subst; auto using on_yes, on_no.
Qed.
Lemma occurs_ext : forall t u l n, nocase t u -> occurs_nocase t l n -> occurs_nocase u l n.
Proof.
  intros t u l n E H. induction H as [|x l n Hx H IH|x l n Hx H IH]; constructor; auto.
  - eapply nocase_trans; [apply nocase_sym; exact E|exact Hx].
  - intros K. apply Hx. eapply nocase_trans; eassumption.
Qed.
Definition counted (l : list (list N)) (st : list (list N * nat)) : Prop :=
  (forall t n, In (t, n) st -> occurs_nocase t l n /\ (1 <= n)%nat) /\ (forall x, In x l -> exists t n, In (t, n) st /\ nocase t x) /\
  ForallOrdPairs (fun a b => ~ nocase (fst a) (fst b)) st.
Lemma count_step : forall st l x, counted l st -> counted (l ++ [x]) (count_tag x st).
Proof.
  (* generalised over a part of the statistics that is already passed *)
  assert (K : forall x l st, (forall t n, In (t, n) st -> occurs_nocase t l n /\ (1 <= n)%nat) -> ForallOrdPairs (fun a b : list N * nat => ~ nocase (fst a) (fst b)) st ->
     (Forall (fun a : list N * nat => ~ nocase (fst a) x) st -> occurs_nocase x l 0) ->
     (forall t n, In (t, n) (count_tag x st) -> occurs_nocase t (l ++ [x]) n /\ (1 <= n)%nat) /\
     (exists t n, In (t, n) (count_tag x st) /\ nocase t x) /\ (forall t n, In (t, n) st -> exists n', In (t, n') (count_tag x st)) /\
     (forall t n, In (t, n) (count_tag x st) -> t = x \/ exists n', In (t, n') st) /\
     ForallOrdPairs (fun a b => ~ nocase (fst a) (fst b)) (count_tag x st)).
  { intros x l st. induction st as [|[t n] st IH]; intros H1 H2 H3; cbn [count_tag].
    - specialize (H3 (Forall_nil _)). split; [|split; [|split; [|split]]].
      + intros t n [E|[]]. injection E as <- <-. split; [|lia]. apply (proj1 (occurs_app1 _ _ _ _ H3)), nocase_refl.
      + exists x, 1%nat. split; [left; reflexivity|apply nocase_refl].
      + intros t n [].
      + intros t n [E|[]]. injection E as <- <-. auto.
      + constructor; constructor.
    - inversion H2 as [|? ? F O]; subst. destruct (same_nocase t x) eqn:E.
      + apply same_ok in E. split; [|split; [|split; [|split]]].
        * intros u k [K|Hk].
          -- injection K as <- <-. destruct (H1 t n (or_introl eq_refl)) as [A B]. split; [|lia]. apply (proj1 (occurs_app1 _ _ _ _ A)); assumption.
          -- destruct (H1 u k (or_intror Hk)) as [A B]. split; [|exact B]. apply (proj2 (occurs_app1 _ _ _ _ A)). intros C. rewrite Forall_forall in F. apply (F _ Hk). cbn [fst].
             eapply nocase_trans; [exact E|apply nocase_sym; exact C].
        * exists t, (S n). split; [left; reflexivity|exact E].
        * intros u k [K|Hk]; [injection K as <- <-; exists (S n); left; reflexivity|exists k; right; exact Hk].
        * intros u k [K|Hk]; right; [injection K as <- <-; exists n; left; reflexivity|exists k; right; exact Hk].
        * constructor; [exact F|exact O].
      + assert (E' : ~ nocase t x) by (intros C; apply same_ok in C; congruence). destruct IH as (A & B & C & D & G).
        * intros u k Hk. apply H1. right. exact Hk.
        * exact O.
        * intros Hf. apply H3. constructor; [exact E'|exact Hf].
        * split; [|split; [|split; [|split]]].
          -- intros u k [K|Hk]; [|auto]. injection K as <- <-. destruct (H1 t n (or_introl eq_refl)) as [A1 B1]. split; [|exact B1]. apply (proj2 (occurs_app1 _ _ _ _ A1)); assumption.
          -- destruct B as (u & k & Hk & Hu). exists u, k. split; [right; exact Hk|exact Hu].
          -- intros u k [K|Hk]; [injection K as <- <-; exists n; left; reflexivity|]. destruct (C u k Hk) as (k' & Hk'). exists k'. right. exact Hk'.
          -- intros u k [K|Hk]; [injection K as <- <-; right; exists n; left; reflexivity|]. destruct (D u k Hk) as [->|(k' & Hk')]; [auto|right; exists k'; right; exact Hk'].
          -- constructor; [|exact G]. rewrite Forall_forall in *. intros [u k] Hk. cbn [fst]. destruct (D u k Hk) as [->|(k' & Hk')]; [exact E'|]. apply (F (u, k') Hk'). }
  intros st l x (A & B & C).
  assert (Z0 : Forall (fun a : list N * nat => ~ nocase (fst a) x) st -> occurs_nocase x l 0).
  { intros F. clear -B F. induction l as [|y l IH]; [constructor|]. constructor; [|apply IH; intros z Hz; apply B; right; exact Hz].
    intros Hn. destruct (B y (or_introl eq_refl)) as (t & n & Ht & Hy). rewrite Forall_forall in F. apply (F _ Ht). cbn [fst]. eapply nocase_trans; [exact Hy|apply nocase_sym; exact Hn]. }
  destruct (K x l st A C Z0) as (K1 & (t & n & Ht & Hx) & K3 & _ & K5). split; [exact K1|]. split; [|exact K5].
  intros y Hy. apply in_app_or in Hy as [Hy|[<-|[]]]; [|eauto]. destruct (B y Hy) as (u & k & Hu & Hn). destruct (K3 u k Hu) as (k' & Hk'). eauto.
Qed.
Theorem C44_tag_counts : forall qs, sorter qs -> forall ds,
  (forall t n, In (t, n) (printed_stats qs ds) -> occurs_nocase t (concat (map e_tags ds)) n /\ (1 <= n)%nat) /\
  (forall e x, In e ds -> In x (e_tags e) -> exists t n, In (t, n) (printed_stats qs ds) /\ nocase t x) /\
  NoDup (map (fun a => map low (fst a)) (printed_stats qs ds)) /\
  StronglySorted (fun a b => not_after (fst a) (fst b)) (printed_stats qs ds).
Proof.
  intros qs Hq ds. destruct (Hq (list N * nat)%type tagstats_sort (tag_stats qs ds) (ordering_by (list N * nat) fst)) as [P S].
  destruct (C44_sorted qs Hq ds) as [PD _]. fold (printed_stats qs ds) in *.
  assert (HC : counted (flat_map e_tags (sort_designs_by_name qs ds)) (tag_stats qs ds)).
  { unfold tag_stats. assert (G : forall l' l st, counted l st -> counted (l ++ l') (fold_left (fun st t => count_tag t st) l' st)).
    { induction l' as [|x l' IH]; intros l st H; cbn [fold_left]; [rewrite app_nil_r; exact H|]. change (x :: l') with ([x] ++ l'). rewrite app_assoc. apply IH. apply count_step. exact H. }
    apply (G _ []). split; [intros ? ? []|]. split; [intros ? []|constructor]. }
  destruct HC as (A & B & C).
  assert (PT : Permutation (concat (map e_tags (sort_designs_by_name qs ds))) (concat (map e_tags ds))).
  { rewrite <- !flat_map_concat_map. clear -PD. apply Permutation_sym in PD. induction PD as [|x l l' P IH|x y l|l l' l'' P1 IH1 P2 IH2]; cbn [flat_map]; [constructor|apply Permutation_app_head; exact IH| |eapply Permutation_trans; eassumption].
    rewrite !app_assoc. apply Permutation_app_tail. apply Permutation_app_comm. }
  rewrite flat_map_concat_map in A, B. split; [|split; [|split]].
  - intros t n H. apply (Permutation_in _ (Permutation_sym P)) in H. destruct (A t n H) as [A1 A2]. split; [|exact A2]. eapply occurs_perm; eassumption.
  - intros e x He Hx. destruct (B x) as (t & n & Ht & Hn).
    + apply (Permutation_in _ (Permutation_sym PT)). rewrite <- flat_map_concat_map. apply in_flat_map. eauto.
    + exists t, n. split; [eapply Permutation_in; eassumption|exact Hn].
  - eapply Permutation_NoDup; [apply Permutation_map; exact P|]. clear -C. induction C as [|a l F O IH]; cbn [map]; constructor; [|exact IH].
    intros H. apply in_map_iff in H as (b & Hb & Hi). rewrite Forall_forall in F. apply (F b Hi). symmetry in Hb. revert Hb. generalize (fst a) (fst b). clear.
    induction l as [|x l IH]; intros [|y l0] E; try discriminate; [constructor|]. injection E as E0 E. constructor; [apply lower_same; exact E0|apply IH; exact E].
  - clear -S. induction S as [|a l S IH F]; [constructor|]. constructor; [exact IH|]. eapply Forall_impl; [|exact F]. intros b H. apply casecmp_le. exact H.
Qed.
Print Assumptions C44_tag_counts.

(** the line with the names of a design fits the memory allocated for it *)
Fixpoint listed (al : list (list N)) : list N :=
  match al with [] => [] | [a] => a | a :: r => a ++ bytes ", " ++ listed r end.
Theorem C44_names : forall e, names e = Ok (e_name e ++ match e_aliases e with [] => [] | al => bytes " alias " ++ listed al end).
Proof.
  intros e. unfold names, analyze_names. set (al := e_aliases e). set (siz := (_ + _ + _ + _)%nat).
  assert (Hs : (List.length (e_name e) + match al with [] => 0 | _ => 7 + sum (map (fun a => List.length a) al) + 2 * (List.length al - 1) end = siz)%nat).
  { unfold siz. destruct al as [|a al']; [cbn; lia|]. cbn [List.length Nat.ltb Nat.leb]. lia. }
  unfold put at 1. cbn [List.length Nat.add]. destruct (Nat.ltb_spec siz (List.length (e_name e))) as [L|_]; [lia|]. cbn [bind app].
  assert (G : forall r buf, (List.length buf + sum (map (fun a => List.length a) r) + 2 * (List.length r - 1) <= siz)%nat -> put_aliases siz buf r = Ok (buf ++ listed r)).
  { induction r as [|a r IH]; intros buf H; cbn [put_aliases]; [rewrite app_nil_r; reflexivity|]. cbn [map List.length] in H. rewrite sum_cons in H.
    unfold put at 1. destruct (Nat.ltb_spec siz (List.length buf + List.length a)) as [L|_]; [lia|]. cbn [bind]. destruct r as [|a' r'].
    - cbn [is_nil bind put_aliases listed]. reflexivity.
    - cbn [is_nil]. unfold put. rewrite app_length. cbn [List.length map] in *. rewrite sum_cons in H.
      destruct (Nat.ltb_spec siz (List.length buf + List.length a + 2)) as [L|_]; [lia|]. cbn [bind]. rewrite IH.
      + f_equal. change (listed (a :: a' :: r')) with (a ++ bytes ", " ++ listed (a' :: r')). rewrite <- !app_assoc. reflexivity.
      + rewrite !app_length. cbn [List.length map]. rewrite sum_cons. lia. }
  destruct al as [|a al']; [rewrite app_nil_r; reflexivity|]. cbn [List.length]. change (0 <? S (List.length al'))%nat with true. cbv iota.
  cbn [List.length] in Hs. unfold put at 1. cbn [List.length]. destruct (Nat.ltb_spec siz (List.length (e_name e) + 7)) as [L|_]; [lia|]. cbn [bind].
  rewrite G; [rewrite <- app_assoc; reflexivity|]. rewrite app_length. cbn [List.length]. lia.
Qed.
Print Assumptions C44_names.

(** a sorting function, so that the hypothesis on qsort can be met *)
Fixpoint insert {A : Type} (cmp : A -> A -> Z) (x : A) (l : list A) : list A :=
  match l with [] => [x] | y :: r => if (cmp x y <=? 0)%Z then x :: y :: r else y :: insert cmp x r end.
Fixpoint isort (A : Type) (cmp : A -> A -> Z) (l : list A) : list A := match l with [] => [] | x :: r => insert cmp x (isort A cmp r) end.
Lemma isort_sorter : sorter isort.
Proof.
  intros A cmp l [H1 H2].
  assert (P : forall x l, Permutation (x :: l) (insert cmp x l)).
  { intros x. induction l0 as [|y r IH]; cbn [insert]; [apply Permutation_refl|]. destruct (cmp x y <=? 0)%Z; [apply Permutation_refl|].
    eapply Permutation_trans; [apply perm_swap|]. constructor. exact IH. }
  induction l as [|x l [IP IS]]; cbn [isort]; [split; constructor|]. split; [eapply Permutation_trans; [constructor; exact IP|apply P]|].
  clear IP. induction IS as [|y r S IH F]; cbn [insert]; [repeat constructor|]. destruct (Z.leb_spec (cmp x y) 0) as [L|L].
  - constructor; [constructor; assumption|]. constructor; [exact L|]. eapply Forall_impl; [|exact F]. intros z Hz. eapply H2; eassumption.
  - constructor; [exact IH|]. apply (Permutation_Forall (P x r)). constructor; [|exact F]. apply H1 in L. lia.
Qed.
Example C44_example : sorter isort /\
  let ds := [mkEntry (bytes "peek") [] [bytes "box"; bytes "artwork"]; mkEntry (bytes "Ada-cmt") [bytes "lua-cmt"; bytes "sql-cmt"] [bytes "Box"; bytes "comment"]]%string in
  map e_name (sort_designs_by_name isort ds) = [bytes "Ada-cmt"; bytes "peek"]%string /\
  printed_stats isort ds = [(bytes "artwork", 1%nat); (bytes "Box", 2%nat); (bytes "comment", 1%nat)]%string /\
  names (nth 1 ds (mkEntry [] [] [])) = Ok (bytes "Ada-cmt alias lua-cmt, sql-cmt"%string) /\
  query_by_tag isort [10] [bytes "comment"%string] ds = bytes "Ada-cmt"%string ++ [10] ++ bytes "lua-cmt (alias)"%string ++ [10] ++ bytes "sql-cmt (alias)"%string ++ [10].
Proof. split; [exact isort_sorter|]. vm_compute. auto. Qed.
