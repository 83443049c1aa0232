(** * Lemmas on tag queries *)
From Coq Require Import List Arith NArith ZArith Bool Lia.
From Verif Require Import Base BaseFacts Model_Shape Model_Regex Model_Query Spec_Query.
Import ListNotations.
Local Open Scope N_scope.

(** ** Regular expressions *)
Lemma star_cls : forall p k n b s, (length s <= n)%nat ->
  (fix again (n : nat) (b s : list N) : bool :=
     k b s || match n with O => false | S n' => match s with c :: s' => p c && again n' (c :: b) s' | [] => false end end) n b s = true <->
  exists x y, s = x ++ y /\ forallb p x = true /\ k (rev x ++ b) y = true.
Proof.
  intros p k. induction n as [|n IH]; intros b s Hn; rewrite orb_true_iff; split.
  - intros [H|H]; [|discriminate]. exists [], s. auto.
  - intros (x & y & -> & Hx & Hk). destruct x as [|c x]; [left; exact Hk|]. cbn in Hn. lia.
  - intros [H|H]; [exists [], s; auto|]. destruct s as [|c s]; [discriminate|]. apply andb_true_iff in H as [Hc H]. apply IH in H; [|cbn in Hn; lia].
    destruct H as (x & y & -> & Hx & Hk). exists (c :: x), y. cbn [forallb rev]. rewrite Hc, Hx. rewrite <- app_assoc. auto.
  - intros (x & y & -> & Hx & Hk). destruct x as [|c x]; [left; exact Hk|right]. cbn [app]. cbn [forallb] in Hx. apply andb_true_iff in Hx as [Hc Hx].
    rewrite Hc. cbn [andb]. apply IH; [cbn in Hn; lia|]. exists x, y. cbn [rev] in Hk. rewrite <- app_assoc in Hk. auto.
Qed.
Lemma m_star : forall p b s k, m (Star (Cls p)) b s k = true <-> exists x y, s = x ++ y /\ forallb p x = true /\ k (rev x ++ b) y = true.
Proof. intros p b s k. cbn [m]. apply star_cls. lia. Qed.
Lemma m_lit : forall l b s k, m (lit l) b s k = true <-> exists y, s = l ++ y /\ k (rev l ++ b) y = true.
Proof.
  induction l as [|c l IH]; intros b s k; cbn [lit m].
  - split; [exists s; auto|intros (y & -> & H); exact H].
  - split.
    + destruct s as [|d s]; [discriminate|]. intros H. apply andb_true_iff in H as [Hd H]. unfold is in Hd. apply N.eqb_eq in Hd. subst d.
      apply IH in H as (y & -> & H). exists y. cbn [rev]. rewrite <- app_assoc. auto.
    + intros (y & -> & H). cbn [app]. unfold is at 1. rewrite N.eqb_refl. cbn [andb]. apply IH. exists y. cbn [rev] in H. rewrite <- app_assoc in H. auto.
Qed.
Lemma search_bol : forall r s, re_match (Cat Bol r) s = m r [] s (fun _ _ => true).
Proof.
  intros r s. unfold re_match.
  assert (H : forall s c b, search (Cat Bol r) (c :: b) s = false).
  { induction s0 as [|d s0 IH]; intros c b; cbn [search m]; [reflexivity|]. apply IH. }
  destruct s as [|c s]; cbn [search m]; [apply orb_false_r|]. rewrite H. apply orb_false_r.
Qed.

Definition no_lf (s : list N) : Prop := ~ In 10 s.
Lemma dot_ok : forall x, forallb (fun c => negb (c =? 10)) x = true <-> no_lf x.
Proof.
  intros x. rewrite forallb_forall. unfold no_lf. split.
  - intros H Hx. specialize (H _ Hx). discriminate.
  - intros H c Hc. apply negb_true_iff, N.eqb_neq. intros ->. auto.
Qed.

(** the common form of the two patterns *)
Section Ids.
Variables (first rest hy : N -> bool) (dbl : re).
Hypothesis first_rest : forall c, first c = true -> rest c = true.
Hypothesis rest_lf : rest 10 = false.
Hypothesis hy_rest : forall c, hy c = true -> rest c = true.
Hypothesis dbl_ok : forall b s, m dbl b s (fun _ _ => true) = true <-> exists x y t, s = x :: y :: t /\ hy x = true /\ hy y = true.
Definition id_re : re :=
  Cat Bol (Cat (NotAhead (Alt (Cat (Star dot) dbl) (lit [110; 111; 110; 101])))
    (Cat (Cls first) (Cat (Star (Cls rest)) (Cat (NotBehind hy) Eol)))).
Definition id_good (s : list N) : Prop :=
  (exists c r, s = c :: r /\ first c = true) /\ forallb rest s = true /\
  ~ (exists a x y b, s = a ++ [x; y] ++ b /\ hy x = true /\ hy y = true) /\ ~ (exists a x, s = a ++ [x] /\ hy x = true) /\
  ~ (exists b, s = [110; 111; 110; 101] ++ b).

Lemma ahead_ok : forall s, m (Alt (Cat (Star dot) dbl) (lit [110; 111; 110; 101])) [] s (fun _ _ => true) = true <->
  (exists a x y b, s = a ++ [x; y] ++ b /\ no_lf a /\ hy x = true /\ hy y = true) \/ (exists b, s = [110; 111; 110; 101] ++ b).
Proof.
  intros s. cbn [m]. rewrite orb_true_iff. unfold dot.
  change ((fix again (n : nat) (b s0 : list N) {struct n} : bool := _) (length s) [] s) with
    (m (Star (Cls (fun c => negb (c =? 10)))) [] s (fun b' s' => m dbl b' s' (fun _ _ => true))).
  rewrite m_star, m_lit. split.
  - intros [(x & y & -> & Hx & H)|(y & -> & _)]; [left|right; eauto]. apply dbl_ok in H as (p & q & t & -> & Hp & Hq). exists x, p, q, t.
    split; [reflexivity|]. split; [apply dot_ok; exact Hx|auto].
  - intros [(a & x & y & b & -> & Ha & Hx & Hy)|(b & ->)]; [left|right; eauto]. exists a, ([x; y] ++ b). split; [reflexivity|].
    split; [apply dot_ok; exact Ha|]. apply dbl_ok. exists x, y, b. auto.
Qed.

Lemma eol_ok : forall b s, m Eol b s (fun _ _ => true) = true <-> s = [] \/ s = [10].
Proof.
  intros b s. cbn [m]. destruct s as [|c [|d s]]; [tauto| |].
  - rewrite andb_true_r, N.eqb_eq. split; [intros ->; auto|intros [H|H]; [discriminate|congruence]].
  - split; [discriminate|intros [H|H]; discriminate].
Qed.

Lemma tail_ok : forall c s, m (Cat (Star (Cls rest)) (Cat (NotBehind hy) Eol)) [c] s (fun _ _ => true) = true <->
  exists x y, s = x ++ y /\ forallb rest x = true /\ (y = [] \/ y = [10]) /\ ~ (exists a h, c :: x = a ++ [h] /\ hy h = true).
Proof.
  intros c s. change (m (Cat (Star (Cls rest)) (Cat (NotBehind hy) Eol)) [c] s (fun _ _ => true)) with
    (m (Star (Cls rest)) [c] s (fun b' s' => m (Cat (NotBehind hy) Eol) b' s' (fun _ _ => true))). rewrite m_star.
  assert (E : forall x y, m (Cat (NotBehind hy) Eol) (rev x ++ [c]) y (fun _ _ => true) = true <-> (y = [] \/ y = [10]) /\ ~ (exists a h, c :: x = a ++ [h] /\ hy h = true)).
  { intros x y. change (rev x ++ [c]) with (rev (c :: x)). destruct (@exists_last _ (c :: x) ltac:(discriminate)) as (a & h & ->). rewrite rev_app_distr. cbn [rev app].
    cbn [m]. change (match y with [] => true | [c0] => (c0 =? 10) && true | _ => false end) with (m Eol [] y (fun _ _ => true)).
    rewrite andb_true_iff, negb_true_iff, eol_ok. split; intros [H1 H2].
    - split; [exact H2|]. intros (a' & h' & He & Hh). apply app_inj_tail in He as [_ <-]. congruence.
    - split; [|exact H1]. destruct (hy h) eqn:Eh; [|reflexivity]. exfalso. apply H2. exists a, h. auto. }
  split.
  - intros (x & y & -> & Hx & H). apply E in H as [H1 H2]. exists x, y. auto.
  - intros (x & y & -> & Hx & H1 & H2). exists x, y. split; [reflexivity|]. split; [exact Hx|]. apply E. auto.
Qed.

Lemma id_ok : forall s, re_match id_re s = true <-> id_good s \/ exists t, s = t ++ [10] /\ id_good t.
Proof.
  intros s. unfold id_re. rewrite search_bol. cbn [m]. change (m (Alt _ _) [] s (fun _ _ => true)) with (m (Alt (Cat (Star dot) dbl) (lit [110; 111; 110; 101])) [] s (fun _ _ => true)).
  rewrite andb_true_iff, negb_true_iff.
  assert (Hlf : forall t, forallb rest t = true -> no_lf t) by (intros t Ht Hx; rewrite forallb_forall in Ht; specialize (Ht _ Hx); congruence).
  assert (K : forall t y, (y = [] \/ y = [10]) -> forallb rest t = true -> t <> [] ->
    ((exists a x z b, t ++ y = a ++ [x; z] ++ b /\ no_lf a /\ hy x = true /\ hy z = true) <-> (exists a x z b, t = a ++ [x; z] ++ b /\ hy x = true /\ hy z = true)) /\
    ((exists b, t ++ y = [110; 111; 110; 101] ++ b) <-> (exists b, t = [110; 111; 110; 101] ++ b))).
  { intros t y Hy Ht Hne. split.
    - split.
      + intros (a & x & z & b & He & _ & Hx & Hz). destruct Hy as [->| ->]; [rewrite app_nil_r in He; exists a, x, z, b; auto|].
        destruct b as [|b0 b1 _] using rev_ind.
        * rewrite app_nil_r in He. change [x; z] with ([x] ++ [z]) in He. rewrite app_assoc in He. apply app_inj_tail in He as [_ <-]. apply hy_rest in Hz. congruence.
        * rewrite !app_assoc in He. apply app_inj_tail in He as [He _]. exists a, x, z, b1. rewrite <- app_assoc in He. auto.
      + intros (a & x & z & b & -> & Hx & Hz). exists a, x, z, (b ++ y). rewrite <- !app_assoc. split; [reflexivity|]. split; [|auto].
        intros Hi. apply (Hlf _ Ht). apply in_or_app. auto.
    - split; [|intros (b & ->); exists (b ++ y); rewrite <- app_assoc; reflexivity].
      intros (b & He). destruct Hy as [->| ->]; [rewrite app_nil_r in He; eauto|]. destruct b as [|b0 b1 _] using rev_ind.
      + rewrite app_nil_r in He. change [110; 111; 110; 101] with ([110; 111; 110] ++ [101]) in He. apply app_inj_tail in He as [_ He]. discriminate.
      + rewrite app_assoc in He. apply app_inj_tail in He as [He _]. eauto. }
  assert (Key : forall t y, s = t ++ y -> (y = [] \/ y = [10]) -> forallb rest t = true -> t <> [] ->
    (m (Alt (Cat (Star dot) dbl) (lit [110; 111; 110; 101])) [] s (fun _ _ => true) = false <->
      ~ (exists a x z b, t = a ++ [x; z] ++ b /\ hy x = true /\ hy z = true) /\ ~ (exists b, t = [110; 111; 110; 101] ++ b))).
  { intros t y -> Hy Ht Hne. destruct (K t y Hy Ht Hne) as [K1 K2]. rewrite <- K1, <- K2. pose proof (ahead_ok (t ++ y)) as A.
    destruct (m _ [] (t ++ y) _); split.
    - intros E. discriminate E.
    - intros [H1 H2]. destruct (proj1 A eq_refl); contradiction.
    - intros _. split; intros H; (assert (E : false = true) by (apply A; auto); discriminate E).
    - reflexivity. }
  destruct s as [|c s].
  { split; [intros [_ H]; discriminate|]. intros [((c & r & H & _) & _)|(t & H & _)]; [discriminate|]. destruct t; discriminate. }
  change (m (Cls first) [] (c :: s) ?k) with (first c && k [c] s).
  split.
  - intros [Ha H]. apply andb_true_iff in H as [Hc H]. apply (tail_ok c s) in H as (x & y & Hs & Hx & Hy & Hh). subst s.
    assert (Hr : forallb rest (c :: x) = true) by (cbn [forallb]; rewrite (first_rest c Hc); exact Hx).
    apply (Key (c :: x) y) in Ha; [|reflexivity|exact Hy|exact Hr|discriminate]. destruct Ha as [A1 A2].
    assert (G : id_good (c :: x)) by (repeat split; eauto). destruct Hy as [->| ->]; [left; rewrite app_nil_r; exact G|right; exists (c :: x); auto].
  - intros H. assert (H' : exists t y, c :: s = t ++ y /\ (y = [] \/ y = [10]) /\ id_good t).
    { destruct H as [H|(t & E & H)]; [exists (c :: s), []; rewrite app_nil_r; auto|exists t, [10]; auto]. }
    clear H. destruct H' as (t & y & E & Hy & ((c' & r & -> & Hc) & Hr & H1 & H2 & H3)). injection E as <- ->.
    split; [apply (Key (c :: r) y); auto; discriminate|]. rewrite Hc. cbn [andb]. apply (tail_ok c (r ++ y)). exists r, y. split; [reflexivity|].
    split; [cbn [forallb] in Hr; apply andb_true_iff in Hr; tauto|]. auto.
Qed.
End Ids.

Lemma forallb_Forall : forall (p : N -> bool) (P : N -> Prop) l, (forall c, p c = true <-> P c) -> (forallb p l = true <-> Forall P l).
Proof. intros p P l H. rewrite forallb_forall, Forall_forall. split; intros K c Hc; apply H, K, Hc. Qed.
Lemma lower_letter_ok : forall c, lower_letter c = true <-> 97 <= c <= 122.
Proof. intros c. unfold lower_letter. rewrite andb_true_iff, !N.leb_le. tauto. Qed.
Lemma upper_letter_ok : forall c, upper_letter c = true <-> 65 <= c <= 90.
Proof. intros c. unfold upper_letter. rewrite andb_true_iff, !N.leb_le. tauto. Qed.
Lemma digit_ok : forall c, digit c = true <-> 48 <= c <= 57.
Proof. intros c. unfold digit. rewrite andb_true_iff, !N.leb_le. tauto. Qed.
Lemma is_ok : forall d c, is d c = true <-> c = d.
Proof. intros d c. unfold is. apply N.eqb_eq. Qed.

Lemma tag_ok : forall s, tag_is_valid s = true <-> accepted_tag s.
Proof.
  assert (G : forall s, id_good lower_letter (fun c => lower_letter c || digit c || is 45 c) (is 45) s <-> good_tag s).
  { intros s. unfold id_good, good_tag. rewrite (forallb_Forall _ tag_char).
    2: { intros c. unfold tag_char. rewrite !orb_true_iff, lower_letter_ok, digit_ok, is_ok. tauto. }
    split; intros ((c & r & -> & Hc) & H1 & H2 & H3 & H4); (split; [exists c, r; split; [reflexivity|]; apply lower_letter_ok; exact Hc|split; [exact H1|]]);
      (split; [|split; [|exact H4]]).
    - intros (a & b & E). apply H2. exists a, 45, 45, b. auto.
    - intros (a & E). apply H3. exists a, 45. auto.
    - intros (a & x & y & b & E & Hx & Hy). apply is_ok in Hx, Hy. subst x y. apply H2. exists a, b. exact E.
    - intros (a & x & E & Hx). apply is_ok in Hx. subst x. apply H3. exists a. exact E. }
  intros s. unfold tag_is_valid. change strict_id with (id_re lower_letter (fun c => lower_letter c || digit c || is 45 c) (is 45) (lit [45; 45])).
  rewrite id_ok.
  - unfold accepted_tag. rewrite G. split; (intros [H|(t & E & H)]; [auto|right; exists t; rewrite G in *; auto]). 
  - intros c H. rewrite H. reflexivity.
  - reflexivity.
  - intros c H. rewrite H. apply orb_true_r.
  - intros b s0. rewrite m_lit. split.
    + intros (y & -> & _). exists 45, 45, y. auto.
    + intros (x & y & t & -> & Hx & Hy). apply is_ok in Hx, Hy. subst x y. exists t. auto.
Qed.
Lemma name_ok : forall s, is_ascii_id false s = true <-> accepted_name s.
Proof.
  assert (G : forall s, id_good (fun c => lower_letter c || upper_letter c) (fun c => lower_letter c || upper_letter c || digit c || is 95 c || is 45 c) hyph s <-> good_name s).
  { intros s. unfold id_good, good_name. rewrite (forallb_Forall _ name_char).
    2: { intros c. unfold name_char. rewrite !orb_true_iff, lower_letter_ok, upper_letter_ok, digit_ok, !is_ok. tauto. }
    assert (Hh : forall x, hyph x = true <-> hyphen x) by (intros x; unfold hyph, hyphen; rewrite orb_true_iff, !is_ok; tauto).
    assert (Hl : forall c, lower_letter c || upper_letter c = true <-> 97 <= c <= 122 \/ 65 <= c <= 90) by (intros c; rewrite orb_true_iff, lower_letter_ok, upper_letter_ok; tauto).
    split; intros ((c & r & -> & Hc) & H1 & H2 & H3 & H4); (split; [exists c, r; split; [reflexivity|]; apply Hl; exact Hc|split; [exact H1|]]);
      (split; [|split; [|exact H4]]).
    - intros (a & x & y & b & E & Hx & Hy). apply Hh in Hx, Hy. apply H2. exists a, x, y, b. auto.
    - intros (a & x & E & Hx). apply Hh in Hx. apply H3. exists a, x. auto.
    - intros (a & x & y & b & E & Hx & Hy). apply Hh in Hx, Hy. apply H2. exists a, x, y, b. auto.
    - intros (a & x & E & Hx). apply Hh in Hx. apply H3. exists a, x. auto. }
  intros s. assert (E : is_ascii_id false s = re_match loose_id s) by (destruct s; reflexivity). rewrite E.
  change loose_id with (id_re (fun c => lower_letter c || upper_letter c) (fun c => lower_letter c || upper_letter c || digit c || is 95 c || is 45 c) hyph
    (Cat (Cls hyph) (Cat (Cls hyph) (Star (Cls hyph))))).
  rewrite id_ok.
  - unfold accepted_name. rewrite G. split; (intros [H|(t & E' & H)]; [auto|right; exists t; rewrite G in *; auto]).
  - intros c H. rewrite H. reflexivity.
  - reflexivity.
  - intros c H. unfold hyph in H. apply orb_true_iff in H as [H|H]; rewrite H; rewrite ?orb_true_r; reflexivity.
  - intros b s0. change (m (Cat (Cls hyph) (Cat (Cls hyph) (Star (Cls hyph)))) b s0 (fun _ _ => true)) with
      (match s0 with c :: s' => hyph c && match s' with c' :: s'' => hyph c' && m (Star (Cls hyph)) (c' :: c :: b) s'' (fun _ _ => true) | [] => false end | [] => false end).
    split.
    + destruct s0 as [|x s0]; [discriminate|]. destruct s0 as [|y s0]; [rewrite andb_false_r; discriminate|]. rewrite !andb_true_iff. intros (Hx & Hy & _). exists x, y, s0. auto.
    + intros (x & y & t & -> & -> & ->). cbn [andb]. apply m_star. exists [], t. auto.
Qed.

(** ** Comparing without regard to case *)
Lemma lower_same : forall x y, lower x = lower y <-> same_letter x y.
Proof.
  intros x y. unfold lower, same_letter. destruct (upper_letter x) eqn:Ex; destruct (upper_letter y) eqn:Ey;
    try apply upper_letter_ok in Ex; try apply upper_letter_ok in Ey;
    repeat match goal with H : upper_letter ?c = false |- _ => assert (~ 65 <= c <= 90) by (rewrite <- upper_letter_ok; congruence); clear H end; lia.
Qed.
Lemma casecmp_0 : forall a b, strcasecmp a b = 0%Z <-> nocase a b.
Proof.
  induction a as [|x a IH]; intros [|y b]; cbn [strcasecmp].
  - split; [constructor|reflexivity].
  - split; intros H; [discriminate|inversion H].
  - split; intros H; [discriminate|inversion H].
  - split; intros H.
    + destruct (N.eqb_spec (lower x) (lower y)) as [E|E]; [|destruct (_ <? _); discriminate]. constructor; [apply lower_same; exact E|apply IH; exact H].
    + inversion H as [|? ? ? ? H1 H2]; subst. apply lower_same in H1. rewrite (proj2 (N.eqb_eq _ _) H1). apply IH. exact H2.
Qed.
Lemma same_ok : forall a b, same_nocase a b = true <-> nocase a b.
Proof. intros a b. unfold same_nocase. rewrite Z.eqb_eq. apply casecmp_0. Qed.
Lemma contains_ok : forall l s, array_contains0 l s = true <-> carries l s.
Proof.
  intros l s. unfold array_contains0, carries. rewrite existsb_exists. split; intros (x & Hx & H); exists x; (split; [exact Hx|apply same_ok; exact H]).
Qed.
Lemma nocase_sym : forall a b, nocase a b -> nocase b a.
Proof. intros a b H. apply casecmp_0 in H. apply casecmp_0. revert b H. induction a as [|x a IH]; intros [|y b] H; try discriminate; [reflexivity|]. cbn [strcasecmp] in *.
  destruct (N.eqb_spec (lower x) (lower y)) as [E|E]; [|destruct (_ <? _); discriminate]. rewrite <- E, N.eqb_refl. auto. Qed.
Lemma nocase_refl : forall a, nocase a a.
Proof. induction a; constructor; [left; reflexivity|assumption]. Qed.
Lemma nocase_trans : forall a b c, nocase a b -> nocase b c -> nocase a c.
Proof.
  intros a b c H K. apply casecmp_0 in H. apply casecmp_0 in K. apply casecmp_0. revert b c H K.
  induction a as [|x a IH]; intros [|y b] [|z c] H K; try discriminate; [reflexivity|]. cbn [strcasecmp] in *.
  destruct (N.eqb_spec (lower x) (lower y)) as [E|E]; [|destruct (_ <? _); discriminate].
  destruct (N.eqb_spec (lower y) (lower z)) as [E'|E']; [|destruct (lower y <? _); discriminate].
  rewrite E, E', N.eqb_refl. eapply IH; eassumption.
Qed.

(** ** Terms *)
Lemma term_raw : forall q k t, term q k t -> raw_tag q = t.
Proof.
  intros q k t [t0|t0|t0 H1 H2]; try reflexivity. destruct t0 as [|c r]; [reflexivity|]. cbn [raw_tag].
  destruct (N.eqb_spec c 43); [subst; destruct (H1 r eq_refl)|]. destruct (N.eqb_spec c 45); [subst; destruct (H2 r eq_refl)|]. reflexivity.
Qed.
Lemma term_exists : forall q, exists k, term q k (raw_tag q).
Proof.
  intros [|c r]; [exists plain; constructor; discriminate|]. cbn [raw_tag]. destruct (N.eqb_spec c 43) as [->|H1]; [exists required; constructor|].
  destruct (N.eqb_spec c 45) as [->|H2]; [exists excluded; constructor|]. exists plain. constructor; intros r' E; injection E; congruence.
Qed.

Lemma term_req : forall x t, term x required t <-> x = 43 :: t.
Proof. intros x t. split; [intros H; inversion H; reflexivity|intros ->; constructor]. Qed.
Lemma term_exc : forall x t, term x excluded t <-> x = 45 :: t.
Proof. intros x t. split; [intros H; inversion H; reflexivity|intros ->; constructor]. Qed.
Lemma term_pln : forall x t, term x plain t <-> x = t /\ (forall r, t <> 43 :: r) /\ (forall r, t <> 45 :: r).
Proof. intros x t. split; [intros H; inversion H; auto|intros (-> & H1 & H2); constructor; assumption]. Qed.

Lemma filter_ok : forall tags q r, filter_loop tags q r = true <->
  (forall t, In (45 :: t) q -> ~ carries tags t) /\ (forall t, In (43 :: t) q -> carries tags t) /\
  ((exists t, In (43 :: t) q) \/ (exists t, In t q /\ term t plain t /\ carries tags t) \/ r = true).
Proof.
  intros tags q. induction q as [|x q IH]; intros r; cbn [filter_loop].
  - split; [intros ->; repeat split; try (intros ? []); auto|]. intros (_ & _ & [(? & [])|[(? & [] & _)|H]]). exact H.
  - assert (P : forall t, x = t -> term x plain x -> filter_loop tags q (if array_contains0 tags x then true else r) = true <->
      (forall t, In (45 :: t) (x :: q) -> ~ carries tags t) /\ (forall t, In (43 :: t) (x :: q) -> carries tags t) /\
      ((exists t, In (43 :: t) (x :: q)) \/ (exists t, In t (x :: q) /\ term t plain t /\ carries tags t) \/ r = true)).
    { intros t0 _ Hx. pose proof Hx as Hx'. apply term_pln in Hx' as (_ & N1 & N2). rewrite IH. split; intros (A & B & C); (split; [|split]).
      - intros t [E|Ht]; [destruct (N2 t E)|auto].
      - intros t [E|Ht]; [destruct (N1 t E)|auto].
      - destruct C as [(t & C)|[(t & C & C')|C]]; [left; exists t; right; exact C|right; left; exists t; split; [right; exact C|exact C']|].
        destruct (array_contains0 tags x) eqn:Ec; [|auto]. apply contains_ok in Ec. right. left. exists x. split; [left; reflexivity|auto].
      - intros t Ht. apply A. right. exact Ht.
      - intros t Ht. apply B. right. exact Ht.
      - destruct C as [(t & [E|C])|[(t & [<-|C] & C')|C]]; [destruct (N1 t E)|left; eauto| |right; left; eauto|].
        + destruct C' as [_ C']. apply contains_ok in C'. rewrite C'. auto.
        + rewrite C. destruct (array_contains0 tags x); auto. }
    destruct x as [|c t]; [apply (P []); [reflexivity|constructor; discriminate]|].
    destruct (N.eqb_spec c 43) as [->|H1]; [|destruct (N.eqb_spec c 45) as [->|H2]].
    + clear P. destruct (array_contains0 tags t) eqn:Ec.
      * apply contains_ok in Ec. rewrite IH. split; intros (A & B & C); (split; [|split]).
        -- intros u [E|Hu]; [discriminate|auto].
        -- intros u [E|Hu]; [injection E as <-; exact Ec|auto].
        -- left. exists t. left. reflexivity.
        -- intros u Hu. apply A. right. exact Hu.
        -- intros u Hu. apply B. right. exact Hu.
        -- auto.
      * split; [discriminate|]. intros (_ & B & _). assert (E : carries tags t) by (apply B; left; reflexivity). apply contains_ok in E. congruence.
    + clear P. destruct (array_contains0 tags t) eqn:Ec.
      * apply contains_ok in Ec. split; [discriminate|]. intros (A & _). destruct (A t (or_introl eq_refl) Ec).
      * rewrite IH. split; intros (A & B & C); (split; [|split]).
        -- intros u [E|Hu]; [injection E as <-; intros K; apply contains_ok in K; congruence|auto].
        -- intros u [E|Hu]; [discriminate|auto].
        -- destruct C as [(u & C)|[(u & C & C')|C]]; [left; exists u; right; exact C|right; left; exists u; split; [right; exact C|exact C']|auto].
        -- intros u Hu. apply A. right. exact Hu.
        -- intros u Hu. apply B. right. exact Hu.
        -- destruct C as [(u & [E|C])|[(u & [E|C] & C')|C]]; [discriminate|left; eauto| |right; left; eauto|auto].
           subst u. destruct C' as [C' _]. apply term_pln in C' as (_ & _ & C'). destruct (C' t eq_refl).
    + apply (P (c :: t)); [reflexivity|]. constructor; intros r' E; injection E; congruence.
Qed.

(** ** Splitting and trimming *)
Lemma trim_blank : forall c, is_trim c = true <-> blank c.
Proof. intros c. unfold is_trim, blank. rewrite orb_true_iff, !N.eqb_eq. tauto. Qed.
Lemma skip_spec : forall s, exists a, s = a ++ skip_trim s /\ Forall blank a /\ forall c r, skip_trim s = c :: r -> ~ blank c.
Proof.
  induction s as [|c s IH]; [exists []; split; [reflexivity|split; [constructor|discriminate]]|]. cbn [skip_trim]. destruct (is_trim c) eqn:E.
  - destruct IH as (a & E' & Ha & Hh). exists (c :: a). split; [cbn; congruence|]. split; [constructor; [apply trim_blank; exact E|exact Ha]|exact Hh].
  - exists []. split; [reflexivity|]. split; [constructor|]. intros c' r K. injection K as <- <-. intros Hb. apply trim_blank in Hb. congruence.
Qed.
Lemma trimdup_spec : forall p, trimmed p (trimdup p).
Proof.
  intros p. unfold trimdup. destruct (skip_spec p) as (a & Ea & Ha & Hh). set (u := skip_trim p) in *. destruct (skip_spec (rev u)) as (b & Eb & Hb & Ht).
  set (v := skip_trim (rev u)) in *. assert (Eu : u = rev v ++ rev b) by (rewrite <- (rev_involutive u), Eb, rev_app_distr; reflexivity).
  exists a, (rev b). split; [rewrite <- Eu; exact Ea|]. split; [exact Ha|]. split; [apply Forall_rev; exact Hb|]. split.
  - intros c r E. rewrite E in Eu. exact (Hh c _ Eu).
  - intros c r E. apply (Ht c (rev r)). rewrite <- (rev_involutive v), E, rev_app_distr. reflexivity.
Qed.
Lemma lead_unique : forall a a' t t', a ++ t = a' ++ t' -> Forall blank a -> Forall blank a' -> (forall c r, t = c :: r -> ~ blank c) -> (forall c r, t' = c :: r -> ~ blank c) -> t = t'.
Proof.
  induction a as [|x a IH]; intros [|y a'] t t' E Ha Ha' Ht Ht'; cbn in E.
  - exact E.
  - subst t. exfalso. apply (Ht y (a' ++ t') eq_refl). inversion Ha'; assumption.
  - subst t'. exfalso. apply (Ht' x (a ++ t) eq_refl). inversion Ha; assumption.
  - injection E as _ E. inversion Ha; inversion Ha'; subst. eapply IH; eauto.
Qed.
Lemma trimmed_unique : forall p t t', trimmed p t -> trimmed p t' -> t = t'.
Proof.
  intros p t t' (a & b & E & Ha & Hb & Hh & Hl) (a' & b' & E' & Ha' & Hb' & Hh' & Hl').
  assert (B : forall u v c r, u ++ v = c :: r -> Forall blank v -> (forall c r, u = c :: r -> ~ blank c) -> u = [] \/ ~ blank c).
  { intros [|x u] v c r K Hv Hu; [auto|]. injection K as -> _. right. apply (Hu c u). reflexivity. }
  destruct t as [|x t].
  - (* everything is blank *)
    destruct t' as [|y t']; [reflexivity|]. exfalso. apply (Hh' y t' eq_refl). assert (Hp : Forall blank p) by (rewrite E; apply Forall_app; auto).
    rewrite E' in Hp. apply Forall_app in Hp as [_ Hp]. inversion Hp; assumption.
  - destruct t' as [|y t'].
    + exfalso. apply (Hh x t eq_refl). assert (Hp : Forall blank p) by (rewrite E'; apply Forall_app; auto).
      rewrite E in Hp. apply Forall_app in Hp as [_ Hp]. inversion Hp; assumption.
    + assert (K : (x :: t) ++ b = (y :: t') ++ b').
      { apply (lead_unique a a'); auto; [congruence|intros c r K; injection K as <- _; eauto|intros c r K; injection K as <- _; eauto]. }
      apply (f_equal (@rev N)) in K. rewrite !rev_app_distr in K. rewrite <- (rev_involutive (x :: t)), <- (rev_involutive (y :: t')). f_equal.
      apply (lead_unique (rev b) (rev b')); auto using Forall_rev.
      * intros c r K'. apply (Hl c (rev r)). rewrite <- (rev_involutive (x :: t)), K'. reflexivity.
      * intros c r K'. apply (Hl' c (rev r)). rewrite <- (rev_involutive (y :: t')), K'. reflexivity.
Qed.

Definition nonempty (p : list N) : bool := negb (is_nil p).
Lemma strtok_acc : forall p acc s, ~ In 44 p -> strtok_from acc (p ++ s) = strtok_from (rev p ++ acc) s.
Proof.
  induction p as [|c p IH]; intros acc s H; [reflexivity|]. cbn [app strtok_from]. destruct (N.eqb_spec c 44) as [->|_]; [destruct H; left; reflexivity|].
  rewrite IH by (intros K; apply H; right; exact K). cbn [rev]. rewrite <- app_assoc. reflexivity.
Qed.
Lemma rev_nil_iff : forall (p : list N), is_nil (rev p) = is_nil p.
Proof. intros [|c p]; [reflexivity|]. cbn [rev]. destruct (rev p); reflexivity. Qed.
Lemma strtok_ok : forall ps s, joined ps s -> strtok_all s = filter nonempty ps.
Proof.
  intros ps s H. unfold strtok_all. induction H as [p Hp|p ps s Hp H IH].
  - rewrite <- (app_nil_r p) at 1. rewrite strtok_acc by exact Hp. rewrite app_nil_r. cbn [strtok_from filter]. unfold nonempty. rewrite rev_nil_iff, rev_involutive. destruct p; reflexivity.
  - rewrite strtok_acc by exact Hp. rewrite app_nil_r. cbn [strtok_from filter]. cbn [N.eqb Pos.eqb]. unfold nonempty at 1. rewrite rev_nil_iff, rev_involutive, IH. destruct p; reflexivity.
Qed.
Lemma joined_exists : forall s, exists ps, joined ps s.
Proof.
  induction s as [|c s IH]; [exists [[]]; constructor; intros []|]. destruct IH as (ps & H). destruct (N.eq_dec c 44) as [->|Hc].
  - exists ([] :: ps). apply (joined_more [] ps s); [intros []|exact H].
  - destruct H as [p Hp|p ps s Hp H]; [exists [c :: p]; constructor|exists ((c :: p) :: ps); apply (joined_more (c :: p))]; try exact H; intros [K|K]; auto.
Qed.

Definition term_list (s : list N) : list (list N) := filter nonempty (map trimdup (strtok_all s)).
Lemma trims_ok : forall ps ts, trims ps ts <-> ts = filter nonempty (map trimdup ps).
Proof.
  intros ps ts. split.
  - intros H. induction H as [|p ps ts Hp H IH|p t ps ts Hp Hn H IH]; cbn [map filter]; [reflexivity| |].
    + rewrite (trimmed_unique p (trimdup p) [] (trimdup_spec p) Hp). exact IH.
    + rewrite (trimmed_unique p (trimdup p) t (trimdup_spec p) Hp). destruct t; [congruence|]. cbn. congruence.
  - intros ->. induction ps as [|p ps IH]; cbn [map filter]; [constructor|]. pose proof (trimdup_spec p) as Hp. destruct (trimdup p) eqn:E; cbn [nonempty is_nil negb].
    + apply trims_blank; assumption.
    + apply trims_keep; [assumption|discriminate|assumption].
Qed.
Lemma trim_nonempty : forall ps, filter nonempty (map trimdup (filter nonempty ps)) = filter nonempty (map trimdup ps).
Proof. induction ps as [|[|c p] ps IH]; [reflexivity|exact IH|]. cbn [filter nonempty is_nil negb map]. rewrite IH. reflexivity. Qed.
Lemma terms_ok : forall s ts, terms s ts <-> ts = term_list s.
Proof.
  intros s ts. unfold terms, term_list. split.
  - intros (ps & Hj & Ht). apply trims_ok in Ht. rewrite (strtok_ok ps s Hj), trim_nonempty. exact Ht.
  - intros ->. destruct (joined_exists s) as (ps & Hj). exists ps. split; [exact Hj|]. apply trims_ok. rewrite (strtok_ok ps s Hj). apply trim_nonempty.
Qed.

(** ** Accepting a query *)
Definition positive (t : list N) : bool := match t with c :: _ => negb (c =? 45) | [] => false end.
Fixpoint fresh (q0 ts : list (list N)) : Prop :=
  match ts with
  | [] => True
  | t :: r => validate_tag (raw_tag t) = true /\ existsb (fun x => same_nocase (raw_tag x) (raw_tag t)) q0 = false /\ fresh (q0 ++ [t]) r
  end.
Lemma parse_ok : forall toks q0 pos q p, parse_terms toks q0 pos = Some (q, p) <->
  let ts := filter nonempty (map trimdup toks) in q = q0 ++ ts /\ p = pos || existsb positive ts /\ fresh q0 ts.
Proof.
  intros toks. cbv zeta. induction toks as [|k toks IH]; intros q0 pos q p; cbn [parse_terms map filter].
  - cbn [existsb fresh]. rewrite app_nil_r, orb_false_r. split; [intros H; injection H as <- <-; auto|intros (-> & -> & _); reflexivity].
  - destruct (trimdup k) as [|c t] eqn:E; cbn [nonempty is_nil negb]; [apply IH|]. set (u := c :: t) in *. cbn [existsb fresh].
    destruct (validate_tag (raw_tag u)); cbn [negb]; [|split; [discriminate|intros (_ & _ & K & _); discriminate]].
    destruct (existsb _ q0); [split; [discriminate|intros (_ & _ & _ & K & _); discriminate]|]. rewrite IH. rewrite <- app_assoc. cbn [app].
    change (positive u) with (negb (c =? 45)). rewrite orb_assoc. tauto.
Qed.
Lemma neq_list_ok : forall a b, Neq_list a b = true <-> a = b.
Proof. intros a b. unfold Neq_list. destruct (list_eq_dec N.eq_dec a b); split; congruence. Qed.
Lemma validate_ok : forall t, validate_tag t = true <-> t = all_word \/ accepted_tag t.
Proof. intros t. unfold validate_tag. rewrite orb_true_iff, neq_list_ok, tag_ok. reflexivity. Qed.

Lemma fresh_ok : forall ts q0, fresh q0 ts <-> (forall t, In t ts -> validate_tag (raw_tag t) = true) /\
  (forall i j t u, (i < j)%nat -> (length q0 <= j)%nat -> nth_error (q0 ++ ts) i = Some t -> nth_error (q0 ++ ts) j = Some u -> ~ nocase (raw_tag t) (raw_tag u)).
Proof.
  induction ts as [|t ts IH]; intros q0; cbn [fresh].
  - rewrite app_nil_r. split; [|trivial]. intros _. split; [intros t []|]. intros i j t u Hij Hj _ Hu. assert (nth_error q0 j <> None) by congruence. apply nth_error_Some in H. lia.
  - rewrite IH. rewrite <- app_assoc. cbn [app]. split.
    + intros (Hv & He & H1 & H2). split; [intros x [<-|Hx]; auto|]. intros i j x u Hij Hj Hx Hu. destruct (Nat.eq_dec j (length q0)) as [->|Hn].
      * rewrite nth_error_app2, Nat.sub_diag in Hu by lia. injection Hu as <-. rewrite nth_error_app1 in Hx by lia. intros K.
        assert (existsb (fun x => same_nocase (raw_tag x) (raw_tag t)) q0 = true); [|congruence]. apply existsb_exists. exists x. split; [eapply nth_error_In; exact Hx|apply same_ok; exact K].
      * apply (H2 i j); auto. rewrite app_length. cbn [length]. lia.
    + intros (H1 & H2). split; [apply H1; left; reflexivity|]. split; [|split].
      * destruct (existsb _ q0) eqn:E; [|reflexivity]. apply existsb_exists in E as (x & Hx & E). apply same_ok in E. apply In_nth_error in Hx as (i & Hi). exfalso.
        assert (i < length q0)%nat by (apply nth_error_Some; congruence). apply (H2 i (length q0) x t); auto; [rewrite nth_error_app1 by lia; exact Hi|rewrite nth_error_app2, Nat.sub_diag by lia; reflexivity].
      * intros x Hx. apply H1. right. exact Hx.
      * intros i j x u Hij Hj. apply H2; [exact Hij|]. rewrite app_length in Hj. lia.
Qed.
