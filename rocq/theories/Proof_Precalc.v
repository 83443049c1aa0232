(** * The sizing loop: each pass adds one elastic shape to the shorter side *)
From Coq Require Import List Arith NArith ZArith Bool Lia.
From Verif Require Import Base BaseFacts Model_Unicode Model_Bxs Model_Shape Model_Generate Spec_Str Spec_Design.
Import ListNotations.

Section Precalc.
Variable dim : sentry -> nat.
Hypothesis dim_pos : forall s, isempty s = false -> 0 < dim s.

Definition dbl (side : nat -> sentry) : bool := s_elastic (side 1) && s_elastic (side 3).

(** how often shape [i] has been used after [k] passes *)
Definition cnt (side : nat -> sentry) (k i : nat) : nat :=
  if isempty (side i) then 0
  else if s_elastic (side i) then
    (if dbl side then (if i =? 1 then Nat.div2 (S k) else Nat.div2 k) else k)
  else (if k =? 0 then 0 else 1).

Definition len (side : nat -> sentry) (k : nat) : nat :=
  cnt side k 1 * dim (side 1) + cnt side k 2 * dim (side 2) + cnt side k 3 * dim (side 3).

Definition ideal (side : nat -> sentry) (k : nat) : pst :=
  mkPst (T3 (cnt side k 1 * dim (side 1)) (cnt side k 2 * dim (side 2)) (cnt side k 3 * dim (side 3)))
        (len side k) (if dbl side then (if Nat.even k then 1 else 3) else 1).

Lemma ideal_0 : forall side, ideal side 0 = pst0.
Proof.
  intros side.
  assert (H : forall i, cnt side 0 i = 0).
  { intros i. unfold cnt. destruct (isempty (side i)), (s_elastic (side i)), (dbl side), (i =? 1); reflexivity. }
  unfold ideal, len, pst0. rewrite !H. destruct (dbl side); reflexivity.
Qed.

Lemma div2_step : forall k, (Nat.even k = true -> Nat.div2 (S k) = Nat.div2 k) /\
                            (Nat.even k = false -> Nat.div2 (S k) = S (Nat.div2 k)).
Proof.
  intros k. destruct (Nat.even k) eqn:E; split; intros; try discriminate.
  - apply Nat.even_spec in E as [m ->]. rewrite Nat.div2_succ_double, Nat.div2_double. reflexivity.
  - assert (O : Nat.odd k = true) by (unfold Nat.odd; rewrite E; reflexivity).
    apply Nat.odd_spec in O as [m ->].
    replace (S (2 * m + 1)) with (2 * S m) by lia. rewrite Nat.div2_double.
    replace (2 * m + 1) with (S (2 * m)) by lia. rewrite Nat.div2_succ_double. reflexivity.
Qed.

Lemma pst_eq : forall a b c r t a' b' c' r' t', a = a' -> b = b' -> c = c' -> r = r' -> t = t' ->
  mkPst (T3 a b c) r t = mkPst (T3 a' b' c') r' t'.
Proof. intros. subst. reflexivity. Qed.

Lemma eqb_mul_0 : forall k d, 0 < d -> (k * d =? 0) = (k =? 0).
Proof. intros k d H. destruct (Nat.eqb_spec (k * d) 0), (Nat.eqb_spec k 0); subst; try reflexivity; nia. Qed.

Lemma pos_of : forall s b, isempty s = b -> b = false -> 0 < dim s.
Proof. intros s b H ->. auto. Qed.

Ltac use_pos := repeat match goal with
  | H : isempty ?s = false |- context [dim ?s =? 0] =>
      replace (dim s =? 0) with false by (symmetry; apply Nat.eqb_neq; pose proof (dim_pos s H); lia)
  end.
Ltac crunch := cbn [Nat.eqb Nat.mul Nat.add orb andb negb p_il p_res p_tog tget tset t1 t2 t3].

Lemma advance_ideal : forall side target other k, side_ok side ->
  (k = 0 \/ len side k < target \/ len side k <> other) ->
  padvance dim side target other (ideal side k) = Ok (ideal side (S k)).
Proof.
  intros side target other k Hs Hk.
  Ltac solve_single :=
    unfold padvance, numsh, on_first; cbn [filter find];
    repeat match goal with H : isempty _ = _ |- _ => rewrite H end;
    repeat match goal with H : s_elastic _ = _ |- _ => rewrite H end;
    crunch; cbn [length filter find fold_left];
    repeat match goal with H : isempty _ = _ |- _ => rewrite H end;
    repeat match goal with H : s_elastic _ = _ |- _ => rewrite H end;
    unfold pgrow, padd; crunch;
    match goal with k : nat |- _ => destruct k as [|k]; crunch end;
    rewrite ?Nat.add_0_r; use_pos; crunch; rewrite ?eqb_mul_0 by auto; use_pos; crunch;
    try (f_equal; apply pst_eq; lia);
    match goal with
    | Hg : forall r, _ -> _ = true |- context [?z || (?r <? ?t) || negb (?r =? ?o)] =>
        replace (z || (r <? t) || negb (r =? o)) with true;
        [ f_equal; apply pst_eq; lia
        | let G := fresh in
          pose proof (Hg r ltac:(intros _; cbn [Nat.eqb Nat.mul]; lia)) as G; cbn [Nat.eqb orb] in G;
          rewrite <- orb_assoc, G; symmetry; apply orb_true_r ]
    end.
  assert (Hguard : forall r, (k <> 0 -> r = len side k) -> (k =? 0) || (r <? target) || negb (r =? other) = true).
  { intros r Hr. destruct (Nat.eqb_spec k 0); [reflexivity|]. cbn [orb]. rewrite Hr by assumption.
    destruct (Nat.ltb_spec (len side k) target), (Nat.eqb_spec (len side k) other); cbn; auto.
    destruct Hk as [?|[?|?]]; [congruence|lia|congruence]. }
  destruct Hs as [(e & He & Hee & Hel & Hoth)|(Hne & H1 & H2 & H3)].
  - (* one elastic shape *)
    pose proof (dim_pos _ Hee) as Hpe.
    assert (Hd : dbl side = false).
    { unfold dbl. destruct He as [<-|[<-|[<-|[]]]].
      - rewrite (Hoth 3) by (cbn; auto; lia). apply andb_false_r.
      - rewrite (Hoth 1) by (cbn; auto; lia). reflexivity.
      - rewrite (Hoth 1) by (cbn; auto; lia). reflexivity. }
    unfold len in Hguard. unfold cnt in Hguard. unfold ideal, len, cnt. rewrite Hd in *. clear Hd Hk.
    destruct He as [<-|[<-|[<-|[]]]].
    + pose proof (Hoth 2 ltac:(cbn; auto) ltac:(lia)) as L2. pose proof (Hoth 3 ltac:(cbn; auto) ltac:(lia)) as L3.
      clear Hoth. rewrite Hee, Hel, L2, L3 in *. rename Hel into L1. rename Hee into E1.
      destruct (isempty (side 2)) eqn:E2, (isempty (side 3)) eqn:E3; solve_single.
    + pose proof (Hoth 1 ltac:(cbn; auto) ltac:(lia)) as L1. pose proof (Hoth 3 ltac:(cbn; auto) ltac:(lia)) as L3.
      clear Hoth. rewrite Hee, Hel, L1, L3 in *. rename Hel into L2. rename Hee into E2.
      destruct (isempty (side 1)) eqn:E1, (isempty (side 3)) eqn:E3; solve_single.
    + pose proof (Hoth 2 ltac:(cbn; auto) ltac:(lia)) as L2. pose proof (Hoth 1 ltac:(cbn; auto) ltac:(lia)) as L1.
      clear Hoth. rewrite Hee, Hel, L2, L1 in *. rename Hel into L3. rename Hee into E3.
      destruct (isempty (side 2)) eqn:E2, (isempty (side 1)) eqn:E1; solve_single.
  - (* two *)
    pose proof (Hne 1 ltac:(cbn; auto)) as E1. pose proof (Hne 2 ltac:(cbn; auto)) as E2.
    pose proof (Hne 3 ltac:(cbn; auto)) as E3.
    pose proof (dim_pos _ E1) as P1. pose proof (dim_pos _ E2) as P2. pose proof (dim_pos _ E3) as P3.
    assert (Hd : dbl side = true) by (unfold dbl; rewrite H1, H3; reflexivity).
    destruct (div2_step k) as [Dv1 Dv2]. destruct (div2_step (S k)) as [Dw1 Dw2].
    assert (Hev : Nat.even (S k) = negb (Nat.even k)).
    { rewrite Nat.even_succ. unfold Nat.odd. reflexivity. }
    assert (Hz : k <> 0 -> Nat.even k = false -> Nat.div2 (S k) <> 0) by (intros ? Hf; rewrite Dv2 by exact Hf; lia).
    assert (Hz2 : k <> 0 -> Nat.even k = true -> Nat.div2 k <> 0).
    { intros Hk0 Hf. apply Nat.even_spec in Hf as [m ->]. rewrite Nat.div2_double. lia. }
    unfold padvance, numsh. cbn [filter]. rewrite E1, E2, E3. cbn [negb length].
    cbn [fold_left]. rewrite H1, H2, H3. cbn [negb andb].
    assert (Hst1 : (if tget 2 (p_il (ideal side k)) =? 0 then padd dim side 2 (ideal side k) else ideal side k) =
       mkPst (T3 (Nat.div2 (S k) * dim (side 1)) (dim (side 2)) (Nat.div2 k * dim (side 3)))
             (Nat.div2 (S k) * dim (side 1) + dim (side 2) + Nat.div2 k * dim (side 3))
             (if Nat.even k then 1 else 3)).
    { unfold ideal, len, cnt. rewrite E1, E2, E3, H1, H2, H3, Hd. cbn [Nat.eqb p_il tget t2].
      destruct k as [|k].
      - cbn [Nat.eqb Nat.mul]. unfold padd. cbn. apply pst_eq; lia.
      - cbn [Nat.eqb]. rewrite Nat.mul_1_l.
        destruct (Nat.eqb_spec (dim (side 2)) 0); [lia|]. apply pst_eq; lia. }
    rewrite Hst1. clear Hst1. cbn [p_tog].
    unfold len, cnt in Hguard. rewrite E1, E2, E3, H1, H2, H3, Hd in Hguard. cbn [Nat.eqb] in Hguard.
    destruct (Nat.even k) eqn:Ek; cbn [Nat.eqb].
    + unfold pgrow. cbn [p_il p_res tget t1].
      rewrite eqb_mul_0 by assumption.
      assert (Hg : (Nat.div2 (S k) =? 0) ||
         (Nat.div2 (S k) * dim (side 1) + dim (side 2) + Nat.div2 k * dim (side 3) <? target) ||
         negb (Nat.div2 (S k) * dim (side 1) + dim (side 2) + Nat.div2 k * dim (side 3) =? other) = true).
      { destruct (Nat.eq_dec k 0) as [->|Hk0]; [reflexivity|].
        specialize (Hguard (Nat.div2 (S k) * dim (side 1) + dim (side 2) + Nat.div2 k * dim (side 3))).
        rewrite <- !orb_assoc. rewrite (proj2 (Nat.eqb_neq k 0) Hk0) in Hguard. cbn [orb] in Hguard.
        rewrite Hguard; [apply orb_true_r|]. intros _. lia. }
      rewrite Hg. f_equal. unfold padd, ideal, len, cnt. cbn [p_il p_res p_tog tget tset t1 t2 t3].
      rewrite E1, E2, E3, H1, H2, H3, Hd, Hev. cbn [Nat.eqb negb].
      specialize (Dv1 eq_refl). cbn [negb] in Hev. specialize (Dw2 Hev).
      apply pst_eq; nia.
    + unfold pgrow. cbn [p_il p_res tget t3].
      rewrite eqb_mul_0 by assumption.
      assert (Hk0 : k <> 0) by (intros ->; discriminate).
      assert (Hg : (Nat.div2 k =? 0) ||
         (Nat.div2 (S k) * dim (side 1) + dim (side 2) + Nat.div2 k * dim (side 3) <? target) ||
         negb (Nat.div2 (S k) * dim (side 1) + dim (side 2) + Nat.div2 k * dim (side 3) =? other) = true).
      { specialize (Hguard (Nat.div2 (S k) * dim (side 1) + dim (side 2) + Nat.div2 k * dim (side 3))).
        rewrite <- !orb_assoc. rewrite (proj2 (Nat.eqb_neq k 0) Hk0) in Hguard. cbn [orb] in Hguard.
        rewrite Hguard; [apply orb_true_r|]. intros _. destruct k; [congruence|]. cbn [Nat.eqb]. lia. }
      rewrite Hg. f_equal. unfold padd, ideal, len, cnt. cbn [p_il p_res p_tog tget tset t1 t2 t3].
      rewrite E1, E2, E3, H1, H2, H3, Hd, Hev. cbn [Nat.eqb negb].
      specialize (Dv2 eq_refl). cbn [negb] in Hev. specialize (Dw1 Hev).
      apply pst_eq; nia.
Qed.

(** ** The lengths grow *)
Lemma cnt_mono : forall side k i, cnt side k i <= cnt side (S k) i.
Proof.
  intros side k i. unfold cnt. destruct (isempty (side i)); [lia|].
  destruct (s_elastic (side i)).
  - destruct (dbl side); [|lia]. destruct (div2_step k) as [H1 H2]. destruct (div2_step (S k)) as [H3 H4].
    destruct (Nat.even k) eqn:E, (Nat.even (S k)) eqn:E'; destruct (i =? 1);
      repeat match goal with H : true = true -> _ |- _ => specialize (H eq_refl)
             | H : false = false -> _ |- _ => specialize (H eq_refl) end; lia.
  - destruct k; cbn; lia.
Qed.

Lemma len_grow : forall side k, side_ok side -> len side k < len side (S k).
Proof.
  intros side k Hs.
  pose proof (cnt_mono side k 1) as M1. pose proof (cnt_mono side k 2) as M2. pose proof (cnt_mono side k 3) as M3.
  assert (Hx : exists i, In i [1;2;3] /\ 0 < dim (side i) /\ cnt side k i < cnt side (S k) i).
  { destruct Hs as [(e & He & Hee & Hel & Hoth)|(Hne & H1 & H2 & H3)].
    - exists e. split; [exact He|]. split; [apply dim_pos; exact Hee|].
      unfold cnt. rewrite Hee, Hel.
      assert (Hd : dbl side = false).
      { unfold dbl. destruct He as [<-|[<-|[<-|[]]]].
        - rewrite (Hoth 3) by (cbn; auto; lia). apply andb_false_r.
        - rewrite (Hoth 1) by (cbn; auto; lia). reflexivity.
        - rewrite (Hoth 1) by (cbn; auto; lia). reflexivity. }
      rewrite Hd. lia.
    - assert (Hd : dbl side = true) by (unfold dbl; rewrite H1, H3; reflexivity).
      pose proof (Hne 1 ltac:(cbn; auto)) as E1. pose proof (Hne 3 ltac:(cbn; auto)) as E3.
      destruct (div2_step k) as [A1 A2]. destruct (div2_step (S k)) as [B1 B2].
      assert (Hev : Nat.even (S k) = negb (Nat.even k)) by (rewrite Nat.even_succ; reflexivity).
      destruct (Nat.even k) eqn:Ek; cbn [negb] in Hev.
      + exists 1. split; [cbn; auto|]. split; [apply dim_pos; exact E1|].
        unfold cnt. rewrite E1, H1, Hd. cbn [Nat.eqb]. rewrite (B2 Hev). lia.
      + exists 3. split; [cbn; auto|]. split; [apply dim_pos; exact E3|].
        unfold cnt. rewrite E3, H3, Hd. cbn [Nat.eqb]. rewrite (A2 eq_refl). lia. }
  destruct Hx as (i & Hi & Hp & Hc). unfold len.
  destruct Hi as [<-|[<-|[<-|[]]]]; nia.
Qed.

Lemma len_0 : forall side, len side 0 = 0.
Proof. intros side. pose proof (ideal_0 side) as H. apply (f_equal p_res) in H. exact H. Qed.

Lemma len_mono : forall side k m, side_ok side -> k < m -> len side k < len side m.
Proof.
  intros side k m Hs H. induction H as [|m H IH]; [apply len_grow; exact Hs|].
  pose proof (len_grow side m Hs). lia.
Qed.

Lemma len_mono_le : forall side k m, side_ok side -> k <= m -> len side k <= len side m.
Proof.
  intros side k m Hs H. destruct (Nat.eq_dec k m) as [->|Hn]; [lia|].
  pose proof (len_mono side k m Hs). lia.
Qed.

Lemma len_inj_le : forall side k m, side_ok side -> len side k <= len side m -> k <= m.
Proof.
  intros side k m Hs H. destruct (Nat.le_gt_cases k m) as [Hle|Hgt]; [exact Hle|].
  pose proof (len_mono side m k Hs Hgt). lia.
Qed.

Section TwoSides.
Variables A B : nat -> sentry.
Variable t : nat.
Hypothesis HA : side_ok A.
Hypothesis HB : side_ok B.

Definition pending (k m : nat) : Prop := (k = 0 /\ m = 0) \/ len A k <> len B m \/ len A k < t.

(** one pass *)
Lemma loop_unfold : forall f k m, pending k m ->
  exists k' m', ((k' = S k /\ m' = m /\ len A k <= len B m) \/ (k' = k /\ m' = S m /\ len B m < len A k)) /\
    precalc_loop dim (S f) A B t (ideal A k) (ideal B m) =
    if (len A k' =? len B m') && (t <=? len A k') && (t <=? len B m') then Ok (ideal A k', ideal B m')
    else precalc_loop dim f A B t (ideal A k') (ideal B m').
Proof.
  intros f k m Hp. cbn [precalc_loop ideal p_res].
  destruct (Nat.ltb_spec (len B m) (len A k)) as [Hlt|Hge].
  - exists k, (S m). split; [right; auto|].
    change (mkPst _ (len B m) _) with (ideal B m). change (mkPst _ (len A k) _) with (ideal A k).
    rewrite advance_ideal by (auto; right; right; lia). cbn [bind ideal p_res]. reflexivity.
  - exists (S k), m. split; [left; auto|].
    change (mkPst _ (len B m) _) with (ideal B m). change (mkPst _ (len A k) _) with (ideal A k).
    rewrite advance_ideal; [cbn [bind ideal p_res]; reflexivity|exact HA|].
    destruct Hp as [[-> _]|[Hp|Hp]]; auto.
Qed.

Lemma stop_spec : forall k m, (len A k =? len B m) && (t <=? len A k) && (t <=? len B m) = true <->
  len A k = len B m /\ t <= len A k.
Proof. intros k m. rewrite !andb_true_iff, !Nat.leb_le, Nat.eqb_eq. lia. Qed.

Lemma loop_sound : forall f k m, pending k m ->
  precalc_loop dim f A B t (ideal A k) (ideal B m) = Fuel \/
  exists k' m', precalc_loop dim f A B t (ideal A k) (ideal B m) = Ok (ideal A k', ideal B m') /\
    len A k' = len B m' /\ t <= len A k' /\ k <= k' /\ m <= m' /\ k + m < k' + m'.
Proof.
  induction f as [|f IH]; intros k m Hp; [left; reflexivity|].
  destruct (loop_unfold f k m Hp) as (k' & m' & Hkm & E). rewrite E.
  destruct (_ && _ && _) eqn:Es.
  - right. apply stop_spec in Es as [E1 E2]. exists k', m'. repeat split; auto; lia.
  - assert (Hp' : pending k' m').
    { right. destruct (Nat.eq_dec (len A k') (len B m')) as [Eq|Ne]; [right|left; exact Ne].
      destruct (Nat.le_gt_cases t (len A k')) as [Hle|Hgt]; [|exact Hgt].
      assert ((len A k' =? len B m') && (t <=? len A k') && (t <=? len B m') = true) by (apply stop_spec; auto).
      congruence. }
    destruct (IH k' m' Hp') as [Hf|(k2 & m2 & Hr & H1 & H2 & H3 & H4 & H5)]; [left; exact Hf|].
    right. exists k2, m2. repeat split; auto; lia.
Qed.

Lemma loop_complete : forall f k m ks ms, pending k m ->
  k <= ks -> m <= ms -> 1 <= ks -> len A ks = len B ms -> t <= len A ks -> (ks - k) + (ms - m) <= f ->
  exists k' m', precalc_loop dim f A B t (ideal A k) (ideal B m) = Ok (ideal A k', ideal B m') /\
    k' <= ks /\ m' <= ms.
Proof.
  induction f as [|f IH]; intros k m ks ms Hp Hk Hm H1 He Ht Hf.
  - exfalso. assert (k = ks) by lia. assert (m = ms) by lia. subst.
    destruct Hp as [[-> _]|[Hp|Hp]]; lia.
  - destruct (loop_unfold f k m Hp) as (k' & m' & Hkm & E). rewrite E.
    assert (Hb : k' <= ks /\ m' <= ms).
    { destruct Hkm as [(-> & -> & Hle)|(-> & -> & Hlt)]; split; auto.
      - destruct (Nat.eq_dec k ks) as [->|]; [|lia]. exfalso.
        assert (len B ms <= len B m) by lia. pose proof (len_inj_le B _ _ HB H).
        assert (m = ms) by lia. subst m. destruct Hp as [[-> _]|[Hp|Hp]]; lia.
      - destruct (Nat.eq_dec m ms) as [->|]; [|lia]. exfalso.
        assert (len A k <= len A ks) by (apply len_mono_le; auto). lia. }
    destruct (_ && _ && _) eqn:Es; [exists k', m'; split; [reflexivity|exact Hb]|].
    assert (Hp' : pending k' m').
    { right. destruct (Nat.eq_dec (len A k') (len B m')) as [Eq|Ne]; [right|left; exact Ne].
      destruct (Nat.le_gt_cases t (len A k')) as [Hle|Hgt]; [|exact Hgt].
      assert ((len A k' =? len B m') && (t <=? len A k') && (t <=? len B m') = true) by (apply stop_spec; auto).
      congruence. }
    apply (IH k' m' ks ms); auto; try apply Hb. destruct Hkm as [(-> & -> & _)|(-> & -> & _)]; lia.
Qed.

Lemma loop_fuel_mono : forall f f' a b r, f <= f' -> precalc_loop dim f A B t a b = Ok r ->
  precalc_loop dim f' A B t a b = Ok r.
Proof.
  induction f as [|f IH]; intros f' a b r Hf H; [discriminate|].
  destruct f' as [|f']; [lia|]. cbn [precalc_loop] in *.
  destruct (if p_res b <? p_res a then _ else _) as [[a' b']| | | |]; cbn [bind] in *; try discriminate.
  destruct (_ && _ && _); [exact H|]. apply IH; [lia|exact H].
Qed.

(** results of the whole loop *)
Lemma precalc_result : forall f r, precalc_loop dim f A B t pst0 pst0 = r ->
  r = Fuel \/ exists k m, r = Ok (ideal A k, ideal B m) /\ 1 <= k /\ 1 <= m /\ len A k = len B m /\ t <= len A k /\
    forall ks ms, 1 <= ks -> len A ks = len B ms -> t <= len A ks -> len A k <= len A ks.
Proof.
  intros f r <-.
  destruct (loop_sound f 0 0) as [H|(k & m & H & H1 & H2 & _ & _ & H5)]; [left; auto| |];
    rewrite (ideal_0 A), (ideal_0 B) in H.
  - left. exact H.
  - right. exists k, m. split; [exact H|].
    assert (k <> 0 /\ m <> 0).
    { split; intros ->; rewrite len_0 in H1.
      - pose proof (len_mono_le B 0 m HB). destruct m; [lia|]. pose proof (len_mono B 0 (S m) HB). rewrite len_0 in *. lia.
      - destruct k; [lia|]. pose proof (len_mono A 0 (S k) HA). rewrite len_0 in *. lia. }
    repeat split; auto; try lia.
    intros ks ms Hks He Ht.
    destruct (loop_complete (f + (ks + ms)) 0 0 ks ms) as (k' & m' & H' & Hk' & _); try lia; [left; auto|].
    rewrite (ideal_0 A), (ideal_0 B) in H'.
    apply (loop_fuel_mono f (f + (ks + ms))) in H; [|lia].
    assert (Hl : len A k = len A k').
    { assert (E : ideal A k = ideal A k') by congruence. apply (f_equal p_res) in E. exact E. }
    rewrite Hl. apply len_mono_le; auto.
Qed.

Lemma precalc_terminates : (exists f r, precalc_loop dim f A B t pst0 pst0 = Ok r) <->
  exists k m, 1 <= k /\ 1 <= m /\ len A k = len B m /\ t <= len A k.
Proof.
  split.
  - intros (f & r & H). apply precalc_result in H as [H|(k & m & H & Hr)]; [discriminate|].
    exists k, m. tauto.
  - intros (k & m & Hk & Hm & He & Ht).
    destruct (loop_complete (k + m) 0 0 k m) as (k' & m' & H & _); try lia; [left; auto|].
    exists (k + m), (ideal A k', ideal B m'). rewrite <- H. rewrite (ideal_0 A), (ideal_0 B). reflexivity.
Qed.
End TwoSides.

(** ** Reachable lengths *)
Lemma reach_single : forall side e k, In e [1;2;3] -> isempty (side e) = false -> s_elastic (side e) = true ->
  (forall j, In j [1;2;3] -> j <> e -> s_elastic (side j) = false) -> 1 <= k ->
  len side k = rigid_len dim side + k * dim (side e).
Proof.
  intros side e k He Hee Hel Hoth Hk.
  assert (Hd : dbl side = false).
  { unfold dbl. destruct He as [<-|[<-|[<-|[]]]].
    - rewrite (Hoth 3) by (cbn; auto; lia). apply andb_false_r.
    - rewrite (Hoth 1) by (cbn; auto; lia). reflexivity.
    - rewrite (Hoth 1) by (cbn; auto; lia). reflexivity. }
  unfold len, cnt, rigid_len, size. rewrite Hd. cbn [map]. rewrite !sum_cons. cbn [sum fold_right].
  destruct (Nat.eqb_spec k 0); [lia|].
  destruct He as [<-|[<-|[<-|[]]]].
  - rewrite Hee, Hel, (Hoth 2), (Hoth 3) by (cbn; auto; lia).
    destruct (isempty (side 2)), (isempty (side 3)); lia.
  - rewrite Hee, Hel, (Hoth 1), (Hoth 3) by (cbn; auto; lia).
    destruct (isempty (side 1)), (isempty (side 3)); lia.
  - rewrite Hee, Hel, (Hoth 2), (Hoth 1) by (cbn; auto; lia).
    destruct (isempty (side 2)), (isempty (side 1)); lia.
Qed.

Lemma reach_double : forall side k, double_elastic side -> 1 <= k ->
  len side k = rigid_len dim side + Nat.div2 (S k) * dim (side 1) + Nat.div2 k * dim (side 3).
Proof.
  intros side k (Hne & H1 & H2 & H3) Hk.
  unfold len, cnt, rigid_len, size, dbl. rewrite H1, H2, H3. cbn [map]. rewrite !sum_cons. cbn [sum fold_right andb].
  rewrite (Hne 1), (Hne 2), (Hne 3) by (cbn; auto). cbn [Nat.eqb]. rewrite ?H1, ?H2, ?H3.
  destruct (Nat.eqb_spec k 0); lia.
Qed.

Lemma div2_pair : forall k1 k3, 1 <= k1 -> (k1 = k3 \/ k1 = S k3) <->
  exists k, 1 <= k /\ k1 = Nat.div2 (S k) /\ k3 = Nat.div2 k.
Proof.
  intros k1 k3 H1. split.
  - intros [->| ->].
    + exists (2 * k3). rewrite Nat.div2_succ_double, Nat.div2_double. lia.
    + exists (S (2 * k3)). rewrite Nat.div2_succ_double.
      replace (S (S (2 * k3))) with (2 * S k3) by lia. rewrite Nat.div2_double. lia.
  - intros (k & Hk & -> & ->). destruct (div2_step k) as [A1 A2].
    destruct (Nat.even k); [left; auto|right; auto].
Qed.

Lemma reachable_iff : forall side n, side_ok side ->
  reachable dim side n <-> exists k, 1 <= k /\ n = len side k.
Proof.
  intros side n Hs.
  assert (Hexcl : single_elastic side -> double_elastic side -> False).
  { intros (e & He & _ & _ & Hoth) (_ & H1 & _ & H3). destruct He as [<-|[<-|[<-|[]]]].
    - rewrite (Hoth 3) in H3 by (cbn; auto; lia). discriminate.
    - rewrite (Hoth 3) in H3 by (cbn; auto; lia). discriminate.
    - rewrite (Hoth 1) in H1 by (cbn; auto; lia). discriminate. }
  split.
  - intros [[Hsg (e & k & He & Hel & Hk & ->)]|[Hdb (k1 & k3 & Hk1 & Hkk & ->)]].
    + destruct Hsg as (e' & He' & Hee' & Hel' & Hoth).
      assert (e = e') as ->.
      { destruct (Nat.eq_dec e e') as [|Hn]; [assumption|]. rewrite (Hoth e He Hn) in Hel. discriminate. }
      exists k. split; [exact Hk|]. symmetry. apply reach_single; auto.
    + apply div2_pair in Hkk as (k & Hk & -> & ->); [|exact Hk1].
      exists k. split; [exact Hk|]. symmetry. apply reach_double; auto.
  - intros (k & Hk & ->). destruct Hs as [Hsg|Hdb].
    + left. split; [exact Hsg|]. destruct Hsg as (e & He & Hee & Hel & Hoth).
      exists e, k. repeat split; auto. apply reach_single; auto.
    + right. split; [exact Hdb|]. exists (Nat.div2 (S k)), (Nat.div2 k).
      assert (1 <= Nat.div2 (S k)).
      { destruct k as [|k]; [lia|]. cbn. lia. }
      split; [assumption|]. split; [apply div2_pair; eauto|]. apply reach_double; auto.
Qed.
End Precalc.
