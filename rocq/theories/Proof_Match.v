(** * Common members of arithmetic progressions; when the sizing loop terminates *)
From Coq Require Import List Arith NArith ZArith Bool Lia.
From Verif Require Import Base BaseFacts Model_Unicode Model_Bxs Model_Shape Model_Generate
  Spec_Str Spec_Design Proof_Precalc.
Import ListNotations.
Local Open Scope nat_scope.

Lemma ap_meet_Z : forall a p b q t : Z, (0 < p)%Z -> (0 < q)%Z -> (Z.gcd p q | a - b)%Z ->
  exists k m, (1 <= k)%Z /\ (1 <= m)%Z /\ (a + k * p = b + m * q)%Z /\ (t <= a + k * p)%Z.
Proof.
  intros a p b q t Hp Hq [c Hc].
  destruct (Z.gcd_bezout p q (Z.gcd p q) eq_refl) as (u & v & Huv).
  (* a - b = c*g, u p + v q = g *)
  set (k0 := (- (c * u))%Z). set (m0 := (c * v)%Z).
  assert (H0 : (a + k0 * p = b + m0 * q)%Z) by (unfold k0, m0; nia).
  set (s := (Z.abs k0 + Z.abs m0 + Z.abs t + Z.abs a + 1)%Z).
  exists (k0 + s * q)%Z, (m0 + s * p)%Z.
  assert (Hs : (1 <= s)%Z) by (unfold s; lia).
  assert (Hsq : (s <= s * q)%Z) by nia. assert (Hsp : (s <= s * p)%Z) by nia.
  assert (Hk : (Z.abs t + Z.abs a + 1 <= k0 + s * q)%Z) by (unfold s in *; lia).
  assert (Hm : (1 <= m0 + s * p)%Z) by (unfold s in *; lia).
  repeat split; try lia; nia.
Qed.

Lemma mod_eq_divide : forall a b g : nat, 0 < g -> a mod g = b mod g <-> (Z.of_nat g | Z.of_nat a - Z.of_nat b)%Z.
Proof.
  intros a b g Hg. split.
  - intros H. exists (Z.of_nat (a / g) - Z.of_nat (b / g))%Z.
    pose proof (Nat.div_mod a g ltac:(lia)). pose proof (Nat.div_mod b g ltac:(lia)). nia.
  - intros [c Hc]. apply Nat2Z.inj. rewrite !Nat2Z.inj_mod.
    replace (Z.of_nat a) with (Z.of_nat b + c * Z.of_nat g)%Z by lia. apply Z_mod_plus_full.
Qed.

Lemma ap_meet : forall a p b q t : nat, 0 < p -> 0 < q ->
  (exists k m, 1 <= k /\ 1 <= m /\ a + k * p = b + m * q /\ t <= a + k * p) <->
  a mod Nat.gcd p q = b mod Nat.gcd p q.
Proof.
  intros a p b q t Hp Hq.
  assert (Hg : 0 < Nat.gcd p q).
  { destruct (Nat.gcd p q) eqn:E; [|lia]. apply Nat.gcd_eq_0 in E. lia. }
  rewrite mod_eq_divide by exact Hg.
  assert (Hgz : Z.of_nat (Nat.gcd p q) = Z.gcd (Z.of_nat p) (Z.of_nat q)).
  { symmetry. apply Z.gcd_unique_alt; [lia|]. intros z. split.
    - intros Hz. destruct (Nat.gcd_divide_l p q) as [x Hx]. destruct (Nat.gcd_divide_r p q) as [y Hy]. split.
      + rewrite Hx at 1. rewrite Nat2Z.inj_mul. apply Z.divide_mul_r. exact Hz.
      + rewrite Hy at 1. rewrite Nat2Z.inj_mul. apply Z.divide_mul_r. exact Hz.
    - intros [Hz1 Hz2]. 
      assert (Hbz : exists u v, (u * Z.of_nat p + v * Z.of_nat q = Z.of_nat (Nat.gcd p q))%Z).
      { destruct (Nat.gcd_bezout_pos p q Hp) as (x & y & Hxy).
        exists (Z.of_nat x), (- Z.of_nat y)%Z. nia. }
      destruct Hbz as (u & v & Huv). rewrite <- Huv.
      apply Z.divide_add_r; apply Z.divide_mul_r; assumption. }
  split.
  - intros (k & m & _ & _ & E & _). rewrite Hgz.
    replace (Z.of_nat a - Z.of_nat b)%Z with (Z.of_nat m * Z.of_nat q - Z.of_nat k * Z.of_nat p)%Z by nia.
    apply Z.divide_sub_r; apply Z.divide_mul_r; [apply Z.gcd_divide_r|apply Z.gcd_divide_l].
  - intros Hd. rewrite Hgz in Hd.
    destruct (ap_meet_Z (Z.of_nat a) (Z.of_nat p) (Z.of_nat b) (Z.of_nat q) (Z.of_nat t)) as (k & m & Hk & Hm & E & Ht);
      try lia; [exact Hd|].
    exists (Z.to_nat k), (Z.to_nat m). repeat split; try lia; nia.
Qed.

Section Match.
Variable dim : sentry -> nat.
Hypothesis dim_pos : forall s, isempty s = false -> 0 < dim s.

Lemma period_pos : forall side, side_ok side -> 0 < period dim side.
Proof.
  intros side Hs. unfold period. cbn [map]. rewrite !sum_cons. cbn [sum fold_right].
  destruct Hs as [(e & He & Hee & Hel & Hoth)|(Hne & H1 & H2 & H3)].
  - pose proof (dim_pos _ Hee). destruct He as [<-|[<-|[<-|[]]]]; rewrite Hel; lia.
  - pose proof (dim_pos _ (Hne 1 ltac:(cbn; auto))). rewrite H1. lia.
Qed.

(** long enough reachable lengths are the progressions from the offsets *)
Lemma reach_offsets : forall side n, side_ok side ->
  (exists a k, In a (offsets dim side) /\ 1 <= k /\ n = a + k * period dim side) ->
  exists k, 1 <= k /\ n = len dim side k.
Proof.
  intros side n Hs (a & k & Ha & Hk & ->).
  destruct Hs as [(e & He & Hee & Hel & Hoth)|Hdb].
  - assert (Hp : period dim side = dim (side e)).
    { unfold period. cbn [map]. rewrite !sum_cons. cbn [sum fold_right].
      destruct He as [<-|[<-|[<-|[]]]].
      - rewrite Hel, (Hoth 2), (Hoth 3) by (cbn; auto; lia). lia.
      - rewrite Hel, (Hoth 1), (Hoth 3) by (cbn; auto; lia). lia.
      - rewrite Hel, (Hoth 1), (Hoth 2) by (cbn; auto; lia). lia. }
    assert (Ho : offsets dim side = [rigid_len dim side]).
    { unfold offsets. destruct He as [<-|[<-|[<-|[]]]].
      - rewrite (Hoth 3) by (cbn; auto; lia). rewrite andb_false_r. reflexivity.
      - rewrite (Hoth 1) by (cbn; auto; lia). reflexivity.
      - rewrite (Hoth 1) by (cbn; auto; lia). reflexivity. }
    rewrite Ho in Ha. destruct Ha as [<-|[]]. exists k. split; [exact Hk|].
    rewrite Hp. symmetry. apply reach_single; auto.
  - assert (Hp : period dim side = dim (side 1) + dim (side 3)).
    { destruct Hdb as (_ & H1 & H2 & H3). unfold period. cbn [map]. rewrite !sum_cons. cbn [sum fold_right].
      rewrite H1, H2, H3. lia. }
    assert (Ho : offsets dim side = [rigid_len dim side; rigid_len dim side + dim (side 1)]).
    { destruct Hdb as (_ & H1 & H2 & H3). unfold offsets. rewrite H1, H3. reflexivity. }
    rewrite Ho in Ha. destruct Ha as [<-|[<-|[]]].
    + exists (2 * k). split; [lia|]. rewrite reach_double by (auto; lia).
      rewrite Nat.div2_succ_double, Nat.div2_double. rewrite Hp. nia.
    + exists (S (2 * k)). split; [lia|]. rewrite reach_double by (auto; lia).
      rewrite Nat.div2_succ_double. replace (S (S (2 * k))) with (2 * S k) by lia. rewrite Nat.div2_double.
      rewrite Hp. nia.
Qed.

Lemma offsets_reach : forall side k, side_ok side -> 1 <= k ->
  exists a j, In a (offsets dim side) /\ len dim side k = a + j * period dim side.
Proof.
  intros side k Hs Hk.
  destruct Hs as [(e & He & Hee & Hel & Hoth)|Hdb].
  - assert (Hp : period dim side = dim (side e)).
    { unfold period. cbn [map]. rewrite !sum_cons. cbn [sum fold_right].
      destruct He as [<-|[<-|[<-|[]]]].
      - rewrite Hel, (Hoth 2), (Hoth 3) by (cbn; auto; lia). lia.
      - rewrite Hel, (Hoth 1), (Hoth 3) by (cbn; auto; lia). lia.
      - rewrite Hel, (Hoth 1), (Hoth 2) by (cbn; auto; lia). lia. }
    exists (rigid_len dim side), k. split.
    + unfold offsets. destruct (_ && _); left; reflexivity.
    + rewrite Hp. apply reach_single; auto.
  - assert (Hp : period dim side = dim (side 1) + dim (side 3)).
    { destruct Hdb as (_ & H1 & H2 & H3). unfold period. cbn [map]. rewrite !sum_cons. cbn [sum fold_right].
      rewrite H1, H2, H3. lia. }
    assert (Ho : offsets dim side = [rigid_len dim side; rigid_len dim side + dim (side 1)]).
    { destruct Hdb as (_ & H1 & H2 & H3). unfold offsets. rewrite H1, H3. reflexivity. }
    rewrite Ho. rewrite reach_double by auto. destruct (div2_step k) as [A1 A2].
    destruct (Nat.even k).
    + exists (rigid_len dim side), (Nat.div2 k). split; [left; reflexivity|]. rewrite A1 by reflexivity. rewrite Hp. nia.
    + exists (rigid_len dim side + dim (side 1)), (Nat.div2 k). split; [right; left; reflexivity|].
      rewrite A2 by reflexivity. rewrite Hp. nia.
Qed.

Lemma meet_iff : forall A B t, side_ok A -> side_ok B ->
  (exists k m, 1 <= k /\ 1 <= m /\ len dim A k = len dim B m /\ t <= len dim A k) <-> matchable dim A B.
Proof.
  intros A B t HA HB. pose proof (period_pos A HA) as PA. pose proof (period_pos B HB) as PB.
  assert (Hg : 0 < Nat.gcd (period dim A) (period dim B)).
  { destruct (Nat.gcd (period dim A) (period dim B)) eqn:E; [|lia]. apply Nat.gcd_eq_0 in E. lia. }
  split.
  - intros (k & m & Hk & Hm & E & _).
    destruct (offsets_reach A k HA Hk) as (a & j & Ha & Ea).
    destruct (offsets_reach B m HB Hm) as (b & j' & Hb & Eb).
    exists a, b. split; [exact Ha|]. split; [exact Hb|].
    set (g := Nat.gcd _ _) in *.
    destruct (Nat.gcd_divide_l (period dim A) (period dim B)) as [x Hx]. fold g in Hx.
    destruct (Nat.gcd_divide_r (period dim A) (period dim B)) as [y Hy]. fold g in Hy.
    rewrite <- (Nat.mod_add a (j * x) g) by lia. rewrite <- (Nat.mod_add b (j' * y) g) by lia.
    f_equal. rewrite Hx in Ea. rewrite Hy in Eb. nia.
  - intros (a & b & Ha & Hb & E).
    apply (ap_meet a (period dim A) b (period dim B) t PA PB) in E as (k & m & Hk & Hm & E & Ht).
    destruct (reach_offsets A (a + k * period dim A) HA) as (k' & Hk' & Ek); [exists a, k; auto|].
    destruct (reach_offsets B (b + m * period dim B) HB) as (m' & Hm' & Em); [exists b, m; auto|].
    exists k', m'. repeat split; auto; lia.
Qed.

Theorem precalc_loop_terminates_iff : forall A B t, side_ok A -> side_ok B ->
  (exists f r, precalc_loop dim f A B t pst0 pst0 = Ok r) <-> matchable dim A B.
Proof.
  intros A B t HA HB. rewrite <- (meet_iff A B t HA HB). apply precalc_terminates; auto.
Qed.
End Match.
