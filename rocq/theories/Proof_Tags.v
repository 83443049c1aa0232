(** * Lemmas about tags in configuration files *)
From Coq Require Import Ascii String List Arith NArith ZArith Bool Lia.
From Verif Require Import Base BaseFacts Model_Unicode Model_Bxs Model_Shape Spec_Str Proof_Str Proof_Bxs Proof_BxsMore Spec_Design Model_Regex Model_Query Spec_Query Proof_Query
  Model_Discovery Model_Parser Spec_Parser.
Import ListNotations.
Local Open Scope nat_scope.
Local Open Scope list_scope.

Section Tags.
Variable U : uctab.
Hypothesis HU : uctab_ok U.

Lemma render_vis : forall s, render (map Vis s) = s.
Proof. induction s as [|c r IH]; [reflexivity|]. cbn [map]. unfold render in *. cbn [flat_map tok_chars app]. rewrite IH. reflexivity. Qed.
Lemma visible_vis : forall s, visible (map Vis s) = s.
Proof. induction s as [|c r IH]; [reflexivity|]. cbn [map]. unfold visible in *. cbn [flat_map app]. rewrite IH. reflexivity. Qed.
Lemma plain_clean : forall s, plain_text s -> clean (map Vis s) /\ tabless (map Vis s).
Proof.
  intros s H. split; [split|].
  - induction H as [|c r (H1 & _) _ IH]; cbn [map toks_ok]; [exact I|]. split; [exact H1|]. split; [discriminate|exact IH].
  - clear. induction s; constructor; auto.
  - unfold tabless. rewrite visible_vis. intros F. unfold plain_text in H. rewrite Forall_forall in H. destruct (H _ F) as (_ & F2 & _). congruence.
Qed.
Lemma pos_vis : forall s o, first_pos o None (map Vis s) = seq o (List.length s) /\ vis_pos o (map Vis s) = seq o (List.length s).
Proof. induction s as [|c r IH]; intros o; [auto|]. cbn [map first_pos vis_pos List.length seq]. destruct (IH (S o)) as [-> ->]. auto. Qed.
Lemma plain_bx : forall s b, plain_text s -> bxs_from_unicode U s = Ok b ->
  memory b = s /\ ascii b = flat_map (char_ascii U) s /\ num_chars_visible b = List.length s /\ num_chars_invisible b = 0 /\
  first_char b = seq 0 (S (List.length s)) /\ visible_char b = seq 0 (S (List.length s)) /\ Forall (fun c => is_allowed_anywhere U c = true) s.
Proof.
  intros s b Hp H. destruct (plain_clean s Hp) as [Hc Ht]. rewrite <- (render_vis s) in H.
  destruct (from_unicode_clean_inv U _ b Hc H) as (-> & Ha & _). unfold bx. cbn [memory ascii num_chars_visible num_chars_invisible first_char visible_char].
  unfold allowed in Ha. rewrite visible_vis in *. rewrite render_vis. destruct (pos_vis s 0) as [-> ->]. rewrite seq_S. cbn [Nat.add].
  split; [reflexivity|]. split; [reflexivity|]. split; [reflexivity|]. split; [|auto]. clear. induction s as [|c r IH]; [reflexivity|]. cbn. exact IH.
Qed.
Lemma plain_from : forall s, plain_text s -> Forall (fun c => is_allowed_anywhere U c = true) s -> exists b, bxs_from_unicode U s = Ok b.
Proof.
  intros s Hp Ha. destruct (plain_clean s Hp) as [Hc Ht]. destruct (from_unicode_all_ok U HU _ (proj1 Hc) Ht) as [b Hb].
  - clear -Ha. induction Ha; constructor; auto.
  - rewrite render_vis in Hb. eauto.
Qed.

(** *** the search for commas *)
Lemma rd_seq : forall n i, i < n -> rd (seq 0 n) i = Ok i.
Proof. intros n i H. rewrite (rd_lt _ (seq 0 n) i 0) by (rewrite seq_length; exact H). rewrite seq_nth by exact H. reflexivity. Qed.
Definition at_plain (b : bxstr) (s : list N) : Prop :=
  memory b = s /\ num_chars_visible b = List.length s /\ first_char b = seq 0 (S (List.length s)) /\ visible_char b = seq 0 (S (List.length s)).
Lemma rdc_nth : forall s i, i < List.length s -> rdc s i = Ok (nth i s 0%N).
Proof. intros s i H. unfold rdc. destruct (Nat.eqb_spec i (List.length s)); [lia|]. apply rd_lt. exact H. Qed.
Lemma nth_mid : forall (a : list N) c r, nth (List.length a) (a ++ c :: r) 0%N = c.
Proof. intros a c r. rewrite app_nth2 by lia. rewrite Nat.sub_diag. reflexivity. Qed.

Lemma strchr_none : forall b a p, at_plain b (a ++ p) -> ~ In 44%N p -> strchr_from b 44 (List.length a) = Ok None.
Proof.
  intros b a p (Hm & Hn & _ & Hv) Hp. unfold strchr_from. rewrite Hn, app_length. replace (List.length a + List.length p - List.length a) with (List.length p) by lia.
  remember (a ++ p) as s eqn:Es. revert a Es. induction p as [|c p IH]; intros a Es; cbn [List.length bxs_strchr]; [reflexivity|].
  rewrite Hv, rd_seq by (rewrite Es, app_length; cbn; lia). cbn [bind]. rewrite Hm, rdc_nth by (rewrite Es, app_length; cbn; lia). cbn [bind].
  rewrite Es, nth_mid. destruct (N.eqb_spec c 44) as [->|_]; [elim Hp; left; reflexivity|].
  replace (S (List.length a)) with (List.length (a ++ [c])) by (rewrite app_length; cbn; lia). apply IH; [intros F; apply Hp; right; exact F|].
  rewrite <- app_assoc. exact Es.
Qed.
Lemma strchr_some : forall b a p q, at_plain b (a ++ p ++ 44%N :: q) -> ~ In 44%N p -> strchr_from b 44 (List.length a) = Ok (Some (List.length a + List.length p)).
Proof.
  intros b a p q (Hm & Hn & _ & Hv) Hp. unfold strchr_from. rewrite Hn, !app_length. cbn [List.length].
  replace (List.length a + (List.length p + S (List.length q)) - List.length a) with (S (List.length p + List.length q)) by lia.
  remember (a ++ p ++ 44%N :: q) as s eqn:Es. revert a Es. induction p as [|c p IH]; intros a Es; cbn [List.length bxs_strchr Nat.add].
  - rewrite Hv, rd_seq by (rewrite Es, !app_length; cbn; lia). cbn [bind]. rewrite Hm, rdc_nth by (rewrite Es, !app_length; cbn; lia). cbn [bind].
    cbn [app] in Es. rewrite Es, nth_mid. cbn [N.eqb Pos.eqb]. rewrite Nat.add_0_r. reflexivity.
  - rewrite Hv, rd_seq by (rewrite Es, !app_length; cbn; lia). cbn [bind]. rewrite Hm, rdc_nth by (rewrite Es, !app_length; cbn; lia). cbn [bind].
    cbn [app] in Es. rewrite Es at 1. rewrite nth_mid. destruct (N.eqb_spec c 44) as [->|_]; [elim Hp; left; reflexivity|].
    replace (List.length a + S (List.length p)) with (List.length (a ++ [c]) + List.length p) by (rewrite app_length; cbn; lia).
    replace (S (List.length a)) with (List.length (a ++ [c])) by (rewrite app_length; cbn; lia).
    specialize (IH (fun F => Hp (or_intror F)) (a ++ [c])). rewrite <- app_assoc in IH. specialize (IH Es). cbn [bxs_strchr] in IH. rewrite Hv, Hm in IH. exact IH.
Qed.

(** *** trimming *)
Definition isb (c : N) : bool := uc_is_blank U c.
Lemma trim_fwd_ok : forall b p a q, at_plain b (a ++ p ++ q) -> forall fuel, List.length p <= fuel ->
  exists p1 p2, p = p1 ++ p2 /\ forallb isb p1 = true /\ (forall c r, p2 = c :: r -> isb c = false) /\
    trim_fwd U fuel b (List.length a) (List.length a + List.length p) = Ok (List.length a + List.length p1).
Proof.
  intros b p. induction p as [|c p IH]; intros a q Hb fuel Hf.
  - exists [], []. split; [reflexivity|]. split; [reflexivity|]. split; [discriminate|]. cbn [List.length]. rewrite Nat.add_0_r. destruct fuel; [reflexivity|]. cbn [trim_fwd].
    rewrite Nat.ltb_irrefl. reflexivity.
  - destruct fuel as [|fuel]; [cbn in Hf; lia|]. cbn [List.length trim_fwd] in *. destruct (Nat.ltb_spec (List.length a) (List.length a + S (List.length p))); [|lia].
    destruct Hb as (Hm & Hn & Hfc & Hv). rewrite Hv, rd_seq by (rewrite !app_length; cbn; lia). cbn [bind]. rewrite Hm, rdc_nth by (rewrite !app_length; cbn; lia). cbn [bind].
    cbn [app]. rewrite nth_mid. fold (isb c). destruct (isb c) eqn:Ec.
    + destruct (IH (a ++ [c]) q) with (fuel := fuel) as (p1 & p2 & E1 & E2 & E3 & E4); [rewrite <- app_assoc; repeat split; assumption|lia|].
      exists (c :: p1), p2. split; [rewrite E1; reflexivity|]. split; [cbn; rewrite Ec; exact E2|]. split; [exact E3|].
      rewrite app_length in E4. cbn [List.length] in *. replace (List.length a + S (List.length p)) with (List.length a + 1 + List.length p) by lia.
      replace (S (List.length a)) with (List.length a + 1) by lia. rewrite E4. f_equal. lia.
    + exists [], (c :: p). split; [reflexivity|]. split; [reflexivity|]. split; [intros x r F; injection F as <- _; exact Ec|]. cbn [List.length]. f_equal. lia.
Qed.
Lemma trim_bwd_ok : forall b p a q, at_plain b (a ++ p ++ q) -> forall fuel, List.length p <= fuel ->
  exists p1 p2, p = p1 ++ p2 /\ forallb isb p2 = true /\ (forall c r, p1 = r ++ [c] -> isb c = false) /\
    trim_bwd U fuel b (List.length a) (List.length a + List.length p) = Ok (List.length a + List.length p1).
Proof.
  intros b p. induction p as [|c p IH] using rev_ind; intros a q Hb fuel Hf.
  - exists [], []. split; [reflexivity|]. split; [reflexivity|]. split; [intros c [|x r] F; discriminate F|]. cbn [List.length]. rewrite Nat.add_0_r. destruct fuel; [reflexivity|]. cbn [trim_bwd].
    rewrite Nat.ltb_irrefl. reflexivity.
  - rewrite app_length in *. cbn [List.length] in *. destruct fuel as [|fuel]; [lia|]. cbn [trim_bwd]. destruct (Nat.ltb_spec (List.length a) (List.length a + (List.length p + 1))); [|lia].
    replace (List.length a + (List.length p + 1) - 1) with (List.length (a ++ p)) by (rewrite app_length; lia).
    assert (Es : a ++ (p ++ [c]) ++ q = (a ++ p) ++ c :: q) by (rewrite <- !app_assoc; reflexivity). rewrite Es in Hb.
    destruct Hb as (Hm & Hn & Hfc & Hv). rewrite Hv, rd_seq by (rewrite !app_length; cbn; lia). cbn [bind]. rewrite Hm, rdc_nth by (rewrite !app_length; cbn; lia). cbn [bind].
    rewrite nth_mid. fold (isb c). destruct (isb c) eqn:Ec.
    + destruct (IH a (c :: q)) with (fuel := fuel) as (p1 & p2 & E1 & E2 & E3 & E4); [rewrite app_assoc; repeat split; assumption|lia|].
      exists p1, (p2 ++ [c]). split; [rewrite E1, app_assoc; reflexivity|]. split; [rewrite forallb_app, E2; cbn; rewrite Ec; reflexivity|]. split; [exact E3|].
      rewrite app_length. exact E4.
    + exists (p ++ [c]), []. split; [rewrite app_nil_r; reflexivity|]. split; [reflexivity|]. split; [intros x r F; apply app_inj_tail in F as [_ F]; congruence|].
      rewrite !app_length. cbn [List.length]. reflexivity.
Qed.
Lemma forallb_isb : forall l, forallb isb l = true -> Forall (fun c => uc_is_blank U c = true) l.
Proof. intros l H. rewrite forallb_forall in H. apply Forall_forall. exact H. Qed.

Lemma trim_tag_ok : forall a p q b, plain_text (a ++ p ++ q) -> bxs_from_unicode U (a ++ p ++ q) = Ok b ->
  exists t x, stripped U p t /\ trim_tag U b (List.length a) (List.length a + List.length p) = Ok (Some x) /\ memory x = t /\ ascii x = flat_map (char_ascii U) t.
Proof.
  intros a p q b Hp Hb. destruct (plain_bx _ b Hp Hb) as (Hm & _ & Hn & _ & Hf & Hv & Ha).
  assert (At : at_plain b (a ++ p ++ q)) by (repeat split; assumption).
  unfold trim_tag, bxs_trimdup. rewrite Hn, !app_length.
  destruct (Nat.ltb_spec (List.length a + (List.length p + List.length q)) (List.length a)); [lia|].
  destruct (Nat.ltb_spec (List.length a + (List.length p + List.length q)) (List.length a + List.length p)); [lia|].
  destruct (Nat.ltb_spec (List.length a + List.length p) (List.length a)); [lia|].
  destruct (trim_fwd_ok b p a q At (List.length a + List.length p - List.length a) ltac:(lia)) as (p1 & p2 & E1 & E2 & E3 & ->). cbn [bind].
  assert (At2 : at_plain b ((a ++ p1) ++ p2 ++ q)) by (rewrite <- app_assoc; rewrite E1, <- app_assoc in At; exact At).
  replace (List.length a + List.length p1) with (List.length (a ++ p1)) by apply app_length.
  replace (List.length a + List.length p) with (List.length (a ++ p1) + List.length p2) by (rewrite E1, !app_length; lia).
  destruct (trim_bwd_ok b p2 (a ++ p1) q At2 (List.length (a ++ p1) + List.length p2 - List.length (a ++ p1)) ltac:(lia)) as (t & p3 & F1 & F2 & F3 & ->). cbn [bind].
  assert (Es : a ++ p ++ q = (a ++ p1) ++ t ++ p3 ++ q) by (rewrite E1, F1, <- !app_assoc; reflexivity).
  rewrite Hf, rd_seq by (rewrite Es, !app_length; lia). cbn [bind]. rewrite rd_seq by (rewrite Es, !app_length; lia). cbn [bind].
  rewrite Hm. set (mem := if _ <? _ then firstn _ _ else _).
  assert (Emem2 : mem = (a ++ p1) ++ t).
  { subst mem. destruct (Nat.ltb_spec (List.length (a ++ p1) + List.length t) (List.length a + (List.length p + List.length q))) as [L|L].
    - rewrite Es. rewrite <- app_length, app_assoc. rewrite firstn_app, Nat.sub_diag, firstn_all. cbn. rewrite app_nil_r. reflexivity.
    - assert (X : List.length (p3 ++ q) = 0).
      { assert (Y := f_equal (@List.length N) Es). rewrite !app_length in *. lia. }
      apply length_zero_iff_nil in X. rewrite Es, X, app_nil_r. reflexivity. }
  rewrite Emem2, app_length. destruct (Nat.ltb_spec (List.length (a ++ p1) + List.length t) (List.length (a ++ p1))); [lia|].
  rewrite skipn_app, skipn_all, Nat.sub_diag. cbn [skipn app].
  assert (Pt : plain_text t /\ Forall (fun c => is_allowed_anywhere U c = true) t).
  { unfold plain_text in *. rewrite Es in Hp, Ha. apply Forall_app in Hp as [_ Hp]. apply Forall_app in Hp as [Hp _]. apply Forall_app in Ha as [_ Ha]. apply Forall_app in Ha as [Ha _]. auto. }
  destruct (plain_from t (proj1 Pt) (proj2 Pt)) as [x Ex]. rewrite Ex. destruct (plain_bx t x (proj1 Pt) Ex) as (X1 & X2 & _).
  exists t, x. split; [|auto]. exists p1, p3. split; [rewrite E1, F1; reflexivity|]. split; [apply forallb_isb; exact E2|]. split; [apply forallb_isb; exact F2|]. split; [|exact F3].
  intros c r Et. apply (E3 c (r ++ p3)). rewrite F1, Et. reflexivity.
Qed.

(** *** names of tags *)
Lemma good_tag_chars : forall t, good_tag t -> Forall tag_char t.
Proof. intros t (_ & H & _). exact H. Qed.
Lemma good_tag_ascii : forall t, good_tag t -> flat_map (char_ascii U) t = t.
Proof.
  intros t H. apply good_tag_chars in H. induction H as [|c r Hc _ IH]; [reflexivity|]. cbn [flat_map]. rewrite IH. unfold char_ascii.
  assert (E : is_ascii_printable c = true) by (unfold is_ascii_printable; apply andb_true_intro; split; [apply N.leb_le|apply N.ltb_lt]; unfold tag_char in Hc; lia).
  rewrite E. reflexivity.
Qed.
Lemma good_nocase : forall a b, good_tag a -> good_tag b -> nocase a b -> a = b.
Proof.
  intros a b Ha Hb H. apply good_tag_chars in Ha. apply good_tag_chars in Hb. induction H as [|x y a b Hxy _ IH]; [reflexivity|].
  inversion Ha; inversion Hb; subst. f_equal; [|auto]. unfold same_letter, tag_char in *. lia.
Qed.
Lemma plain_accepted : forall t, plain_text t -> (accepted_tag t <-> good_tag t).
Proof.
  intros t Hp. split; [|intros H; left; exact H]. intros [H|(u & -> & _)]; [exact H|]. unfold plain_text in Hp. apply Forall_app in Hp as [_ Hp]. inversion Hp as [|? ? (_ & _ & F) _]. congruence.
Qed.
Lemma id_ok : forall t, is_ascii_id true t = true <-> accepted_tag t.
Proof.
  intros t. destruct t as [|c r]; [|apply (tag_ok (c :: r))]. rewrite <- tag_ok. reflexivity.
Qed.
Lemma tag_add_ok : forall tags x t, Forall good_tag tags -> NoDup tags -> plain_text t -> memory x = t -> ascii x = flat_map (char_ascii U) t ->
  let out := tag_add tags (Some x) in Forall good_tag out /\ NoDup out /\ forall u, In u out <-> In u tags \/ (u = t /\ good_tag t).
Proof.
  intros tags x t Hg Hd Hp Em Ea. cbn [tag_add]. rewrite Em. destruct (is_ascii_id true t) eqn:Ei.
  - assert (G : good_tag t) by (apply plain_accepted; [exact Hp|]; apply id_ok; exact Ei). rewrite Ea, (good_tag_ascii t G).
    destruct (array_contains0 tags t) eqn:Ec.
    + apply contains_ok in Ec as (y & Hy & N). rewrite Forall_forall in Hg. assert (y = t) as -> by (apply good_nocase; auto).
      cbv zeta. split; [apply Forall_forall; exact Hg|]. split; [exact Hd|]. intros u. split; [auto|]. intros [H|[-> _]]; assumption.
    + cbv zeta. assert (Nt : ~ In t tags). { intros F. assert (X : array_contains0 tags t = true) by (apply contains_ok; exists t; split; [exact F|apply nocase_refl]). congruence. }
      split; [apply Forall_app; split; [exact Hg|repeat constructor; apply G]|]. split.
      * apply (Permutation.Permutation_NoDup (Permutation.Permutation_cons_append tags t)). constructor; assumption.
      * intros u. rewrite in_app_iff. cbn [In]. split; [intros [H|[<-|[]]]; auto|]. intros [H|[-> _]]; auto.
  - cbv zeta. split; [exact Hg|]. split; [exact Hd|]. intros u. split; [auto|]. intros [H|[-> F]]; [exact H|]. exfalso.
    assert (X : is_ascii_id true t = true) by (apply id_ok; left; exact F). congruence.
Qed.

Lemma joined_unique : forall s ps, joined ps s -> forall ps', joined ps' s -> ps' = ps.
Proof.
  assert (Split : forall p q s s', ~ In 44%N p -> ~ In 44%N q -> p ++ 44%N :: s = q ++ 44%N :: s' -> p = q /\ s = s').
  { induction p as [|x p IH]; intros [|y q] s s' Hp Hq E; cbn [app] in E.
    - injection E as E. auto.
    - injection E as E _. elim Hq. left. congruence.
    - injection E as E _. elim Hp. left. congruence.
    - injection E as -> E. destruct (IH q s s') as [-> ->]; [intros F; apply Hp; right; exact F|intros F; apply Hq; right; exact F|exact E|auto]. }
  intros s ps H. induction H as [p Hp|p ps s Hp H IH]; intros ps' K.
  - inversion K as [q Hq E1 E2|q qs s' Hq K2 E1 E2]; [reflexivity|]. exfalso. apply Hp. rewrite <- E2. apply in_app_iff. right. left. reflexivity.
  - remember (p ++ 44%N :: s) as w eqn:Ew. destruct K as [q Hq|q qs s' Hq K2].
    + exfalso. apply Hq. rewrite Ew. apply in_app_iff. right. left. reflexivity.
    + apply Split in Ew as [-> ->]; [|assumption..]. f_equal. auto.
Qed.

(** from a position on *)
Lemma split_add_ok : forall ps r, joined ps r -> forall a b tags fuel, plain_text (a ++ r) -> bxs_from_unicode U (a ++ r) = Ok b ->
  Forall good_tag tags -> NoDup tags -> List.length r < fuel ->
  exists out, tag_split_add U fuel tags b (List.length a) = Ok out /\ Forall good_tag out /\ NoDup out /\
    forall u, In u out <-> In u tags \/ (good_tag u /\ exists p, In p ps /\ stripped U p u).
Proof.
  assert (Uniq : forall p t u, stripped U p t -> stripped U p u -> t = u).
  { assert (Lead : forall a a' t t', a ++ t = a' ++ t' -> Forall (fun c => uc_is_blank U c = true) a -> Forall (fun c => uc_is_blank U c = true) a' ->
      (forall c r, t = c :: r -> uc_is_blank U c = false) -> (forall c r, t' = c :: r -> uc_is_blank U c = false) -> t = t').
    { induction a as [|x a IH]; intros [|y a'] t t' E A A' H H'; cbn [app] in E.
      - exact E.
      - inversion A'; subst. specialize (H y (a' ++ t') eq_refl). congruence.
      - inversion A; subst. specialize (H' x (a ++ t) eq_refl). congruence.
      - injection E as -> E. inversion A; inversion A'; subst. eapply IH; eassumption. }
    intros p t u (a & b & E & Ha & Hb & H1 & H2) (a' & b' & E' & Ha' & Hb' & H1' & H2').
    destruct t as [|c t].
    - destruct u as [|d u]; [reflexivity|]. exfalso. cbn [app] in E. assert (F : In d (a ++ b)) by (rewrite <- E, E'; apply in_app_iff; right; left; reflexivity).
      specialize (H1' d u eq_refl). rewrite Forall_forall in Ha, Hb. apply in_app_iff in F as [F|F]; [rewrite (Ha _ F) in H1'|rewrite (Hb _ F) in H1']; discriminate.
    - destruct u as [|d u].
      + exfalso. cbn [app] in E'. assert (F : In c (a' ++ b')) by (rewrite <- E', E; apply in_app_iff; right; left; reflexivity).
        specialize (H1 c t eq_refl). rewrite Forall_forall in Ha', Hb'. apply in_app_iff in F as [F|F]; [rewrite (Ha' _ F) in H1|rewrite (Hb' _ F) in H1]; discriminate.
      + assert (X : (c :: t) ++ b = (d :: u) ++ b').
        { apply (Lead a a'); [congruence|assumption|assumption| |]; intros x r F; cbn [app] in F; injection F as <- _; [apply (H1 c t eq_refl)|apply (H1' d u eq_refl)]. }
        apply (f_equal (@rev N)) in X. rewrite !rev_app_distr in X.
        assert (Y : rev (c :: t) = rev (d :: u)).
        { apply (Lead (rev b) (rev b')); [exact X|apply Forall_rev; exact Hb|apply Forall_rev; exact Hb'| |]; intros x r F.
          - apply (H2 x (rev r)). rewrite <- (rev_involutive (c :: t)), F. reflexivity.
          - apply (H2' x (rev r)). rewrite <- (rev_involutive (d :: u)), F. reflexivity. }
        apply (f_equal (@rev N)) in Y. rewrite !rev_involutive in Y. exact Y. }
  intros ps r H. induction H as [p Hp|p ps s Hp H IH]; intros a b tags fuel Pl Hb Hg Hd Hf; (destruct fuel as [|fuel]; [lia|]); cbn [tag_split_add].
  - pose proof (plain_bx _ b Pl Hb) as (Hm & _ & Hn & _ & Hfc & Hv & _). rewrite (strchr_none b a p) by (try assumption; repeat split; assumption). cbn [bind].
    assert (Pl' : plain_text (a ++ p ++ [])) by (rewrite app_nil_r; exact Pl). assert (Hb' : bxs_from_unicode U (a ++ p ++ []) = Ok b) by (rewrite app_nil_r; exact Hb).
    destruct (trim_tag_ok a p [] b Pl' Hb') as (t & x & St & Et & Em & Ea). rewrite Hn, app_length, Et. cbn [bind].
    assert (Pt : plain_text t). { destruct St as (y & z & E & _). unfold plain_text in *. apply Forall_app in Pl as [_ Pl]. rewrite E in Pl. apply Forall_app in Pl as [_ Pl]. apply Forall_app in Pl as [Pl _]. exact Pl. }
    destruct (tag_add_ok tags x t Hg Hd Pt Em Ea) as (K1 & K2 & K3). eexists. split; [reflexivity|]. split; [exact K1|]. split; [exact K2|]. intros u. rewrite K3.
    apply or_iff_compat_l. split.
    + intros [-> G]. split; [exact G|]. exists p. split; [left; reflexivity|exact St].
    + intros [G (q & [<-|[]] & Sq)]. assert (u = t) as -> by (eapply Uniq; eassumption). auto.
  - pose proof (plain_bx _ b Pl Hb) as (Hm & _ & Hn & _ & Hfc & Hv & _). rewrite (strchr_some b a p s) by (try assumption; repeat split; assumption). cbn [bind].
    destruct (trim_tag_ok a p (44%N :: s) b Pl Hb) as (t & x & St & Et & Em & Ea). rewrite Et. cbn [bind].
    assert (Pt : plain_text t). { destruct St as (y & z & E & _). unfold plain_text in *. apply Forall_app in Pl as [_ Pl]. apply Forall_app in Pl as [Pl _]. rewrite E in Pl. apply Forall_app in Pl as [_ Pl]. apply Forall_app in Pl as [Pl _]. exact Pl. }
    destruct (tag_add_ok tags x t Hg Hd Pt Em Ea) as (K1 & K2 & K3). cbv zeta in *.
    assert (Es : a ++ p ++ 44%N :: s = (a ++ p ++ [44%N]) ++ s) by (rewrite <- !app_assoc; reflexivity). rewrite Es in Pl, Hb.
    rewrite app_length in Hf. cbn [List.length] in Hf.
    destruct (IH (a ++ p ++ [44%N]) b (tag_add tags (Some x)) fuel Pl Hb K1 K2 ltac:(lia)) as (out & E & O1 & O2 & O3).
    exists out. replace (S (List.length a + List.length p)) with (List.length (a ++ p ++ [44%N])) by (rewrite !app_length; cbn; lia).
    split; [exact E|]. split; [exact O1|]. split; [exact O2|]. intros u. rewrite O3, K3. split.
    + intros [[Hu|[-> G]]|[G (q & Hq & Sq)]]; [auto|right; split; [exact G|exists p; split; [left; reflexivity|exact St]]|right; split; [exact G|exists q; split; [right; exact Hq|exact Sq]]].
    + intros [Hu|[G (q & [<-|Hq] & Sq)]]; [auto|left; right|right; split; [exact G|eauto]]. assert (u = t) as -> by (eapply Uniq; eassumption). auto.
Qed.

Lemma tag_record_ok : forall s b tags, plain_text s -> string_tok U s = Ok (Some b) -> Forall good_tag tags -> NoDup tags ->
  exists out, tag_record U tags (Some b) = Ok out /\ Forall good_tag out /\ NoDup out /\ forall u, In u out <-> In u tags \/ tag_in U s u.
Proof.
  intros s b tags Pl Hs Hg Hd. unfold string_tok, utf8_to_bxs in Hs. destruct (bxs_from_unicode U s) as [b'| | | |] eqn:Hb; try discriminate Hs. injection Hs as ->.
  pose proof (plain_bx s b Pl Hb) as (Hm & _ & Hn & Hi & Hfc & Hv & _). destruct (joined_exists s) as [ps Hj].
  assert (Conv : forall u, tag_in U s u <-> (good_tag u /\ exists p, In p ps /\ stripped U p u)).
  { intros u. unfold tag_in. split; intros [G X]; (split; [exact G|]).
    - destruct X as (qs & p & J & Hp & Sp). rewrite (joined_unique s ps Hj qs J) in Hp. eauto.
    - destruct X as (p & Hp & Sp). eauto. }
  destruct (split_add_ok ps s Hj [] b tags (S (List.length s)) Pl Hb Hg Hd ltac:(lia)) as (out & E & O1 & O2 & O3).
  exists out. split; [|split; [exact O1|split; [exact O2|intros u; rewrite O3, Conv; reflexivity]]].
  cbn [tag_record]. rewrite Hi. change (0 <? 0) with false. cbv iota. cbn [tag_split_add List.length] in E.
  destruct (strchr_from b 44 0) as [[c|]| | | |] eqn:Ec; cbn [bind] in E |- *; try discriminate E; [|exact E].
  rewrite Hn. cbn [tag_split_add]. rewrite Ec. cbn [bind]. exact E.
Qed.
Lemma tag_list_ok : forall l tags, Forall (fun s => plain_text s /\ Forall (fun c => is_allowed_anywhere U c = true) s) l -> Forall good_tag tags -> NoDup tags ->
  exists out, tag_list U tags l = Ok out /\ Forall good_tag out /\ NoDup out /\ forall u, In u out <-> In u tags \/ exists s, In s l /\ tag_in U s u.
Proof.
  induction l as [|s l IH]; intros tags Hl Hg Hd; cbn [tag_list].
  - exists tags. split; [reflexivity|]. split; [exact Hg|]. split; [exact Hd|]. intros u. split; [auto|]. intros [H|(s & [] & _)]. exact H.
  - inversion Hl as [|? ? [P A] Hr]; subst. destruct (plain_from s P A) as [b Hb]. assert (Ht : string_tok U s = Ok (Some b)) by (unfold string_tok, utf8_to_bxs; rewrite Hb; reflexivity).
    rewrite Ht. cbn [bind]. destruct (tag_record_ok s b tags P Ht Hg Hd) as (t1 & E1 & G1 & D1 & M1). rewrite E1. cbn [bind].
    destruct (IH t1 Hr G1 D1) as (out & E & G & D & M). exists out. split; [exact E|]. split; [exact G|]. split; [exact D|]. intros u. rewrite M, M1. split.
    + intros [[H|H]|(x & Hx & H)]; [auto|right; exists s; split; [left; reflexivity|exact H]|right; exists x; split; [right; exact Hx|exact H]].
    + intros [H|(x & [<-|Hx] & H)]; [auto|auto|right; eauto].
Qed.
End Tags.
