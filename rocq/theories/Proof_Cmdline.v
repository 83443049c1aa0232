(** * Proofs about command line arguments *)
From Coq Require Import List Arith NArith ZArith Bool Lia.
From Verif Require Import Base BaseFacts Model_Shape Model_Regex Model_Query Model_Cmdline Spec_Query Proof_Query Spec_Cmdline.
Import ListNotations.
Local Open Scope N_scope.

Lemma digit_ok : forall c, digit c = true <-> numeral c.
Proof. intros c. unfold digit, numeral. rewrite andb_true_iff, !N.leb_le. reflexivity. Qed.
Lemma space_ok : forall c, is_space c = true <-> white c.
Proof. intros c. unfold is_space, white. rewrite orb_true_iff, andb_true_iff, !N.leb_le, N.eqb_eq. reflexivity. Qed.
Lemma either_ok : forall c l, 97 <= l <= 122 -> (either c l = true <-> letter c l).
Proof. intros c l H. unfold either, letter. rewrite orb_true_iff, !N.eqb_eq. lia. Qed.

Lemma skip_space_spec : forall s, exists bl, s = bl ++ skip_space s /\ Forall white bl /\ (forall c r, skip_space s = c :: r -> ~ white c).
Proof.
  induction s as [|c s (bl & E & F & H)]; cbn [skip_space]; [exists []; repeat split; [constructor|discriminate]|]. destruct (is_space c) eqn:Ec.
  - exists (c :: bl). cbn [app]. rewrite <- E. repeat split; [constructor; [apply space_ok; exact Ec|exact F]|exact H].
  - exists []. repeat split; [constructor|]. intros d r K. injection K as <- _. rewrite <- space_ok. congruence.
Qed.
Lemma skip_space_app : forall bl s, Forall white bl -> (forall c r, s = c :: r -> ~ white c) -> skip_space (bl ++ s) = s.
Proof.
  induction bl as [|b bl IH]; intros s F H; cbn [app].
  - destruct s as [|c s]; cbn [skip_space]; [reflexivity|]. destruct (is_space c) eqn:E; [|reflexivity]. apply space_ok in E. destruct (H c s eq_refl E).
  - inversion F as [|? ? F1 F2]; subst. cbn [skip_space]. apply space_ok in F1. rewrite F1. auto.
Qed.
Lemma digits_spec : forall s a, exists ds, s = ds ++ snd (digits s a) /\ Forall numeral ds /\ fst (digits s a) = fold_left (fun a c => (a * 10 + (Z.of_N c - 48))%Z) ds a /\
  (forall c r, snd (digits s a) = c :: r -> ~ numeral c).
Proof.
  induction s as [|c s IH]; intros a; cbn [digits]; [exists []; cbn; repeat split; [constructor|discriminate]|]. destruct (digit c) eqn:E.
  - destruct (IH (a * 10 + (Z.of_N c - 48))%Z) as (ds & E1 & F & E2 & H). exists (c :: ds). cbn [app fold_left]. rewrite <- E1. repeat split; [constructor; [apply digit_ok; exact E|exact F]|exact E2|exact H].
  - exists []. cbn [fst snd app fold_left]. repeat split; [constructor|]. intros d r K. injection K as <- _. rewrite <- digit_ok. congruence.
Qed.
Lemma digits_app : forall ds r a, Forall numeral ds -> (forall c r', r = c :: r' -> ~ numeral c) -> digits (ds ++ r) a = (fold_left (fun a c => (a * 10 + (Z.of_N c - 48))%Z) ds a, r).
Proof.
  induction ds as [|d ds IH]; intros r a F H; cbn [app fold_left].
  - destruct r as [|c r]; cbn [digits]; [reflexivity|]. destruct (digit c) eqn:E; [|reflexivity]. apply digit_ok in E. destruct (H c r eq_refl E).
  - inversion F as [|? ? F1 F2]; subst. cbn [digits]. apply digit_ok in F1. rewrite F1. auto.
Qed.

Definition clamp (v : Z) : Z := if (LONG_MAX <? v)%Z then LONG_MAX else if (v <? LONG_MIN)%Z then LONG_MIN else v.
Definition outside (v : Z) : bool := (LONG_MAX <? v)%Z || (v <? LONG_MIN)%Z.
Lemma strtol_number : forall s n rest, number s n rest -> strtol s = (clamp n, rest, outside n).
Proof.
  intros s n rest (bl & sg & k & ds & -> & Fb & Hs & Hne & Fd & Hr & ->). unfold strtol.
  destruct ds as [|d ds]; [congruence|]. clear Hne. pose proof (Forall_inv Fd) as Hd.
  assert (Hd' : d =? 45 = false /\ d =? 43 = false) by (unfold numeral in Hd; rewrite !N.eqb_neq; lia).
  assert (Hw : ~ white d) by (unfold numeral in Hd; unfold white; lia).
  assert (Hskip : skip_space (bl ++ sg ++ (d :: ds) ++ rest) = sg ++ (d :: ds) ++ rest).
  { apply skip_space_app; [exact Fb|]. intros c r E. inversion Hs; subst; cbn [app] in E; injection E as <- _; [exact Hw|unfold white; lia|unfold white; lia]. }
  rewrite Hskip.
  assert (HD : digits ((d :: ds) ++ rest) 0 = (decimal (d :: ds), rest)) by (apply digits_app; assumption).
  pose proof Hd as Hdt. apply digit_ok in Hdt. unfold clamp, outside.
  inversion Hs; subst; cbn [app].
  - rewrite (proj1 Hd'), (proj2 Hd'). rewrite Hdt. cbn [app] in HD. rewrite HD. rewrite Z.mul_1_l.
    destruct (LONG_MAX <? decimal (d :: ds))%Z; [reflexivity|]. destruct (decimal (d :: ds) <? LONG_MIN)%Z; reflexivity.
  - change (43 =? 45) with false. change (43 =? 43) with true. cbv iota. rewrite Hdt. cbn [app] in HD. rewrite HD. rewrite Z.mul_1_l.
    destruct (LONG_MAX <? decimal (d :: ds))%Z; [reflexivity|]. destruct (decimal (d :: ds) <? LONG_MIN)%Z; reflexivity.
  - change (45 =? 45) with true. cbv iota. rewrite Hdt. cbn [app] in HD. rewrite HD. replace (-1 * decimal (d :: ds))%Z with (- decimal (d :: ds))%Z by lia.
    destruct (LONG_MAX <? - decimal (d :: ds))%Z; [reflexivity|]. destruct (- decimal (d :: ds) <? LONG_MIN)%Z; reflexivity.
Qed.
Lemma number_dec : forall s, (exists n rest, number s n rest) \/ no_number s /\ strtol s = (0%Z, s, false).
Proof.
  intros s. destruct (skip_space_spec s) as (bl & E & Fb & Hw).
  assert (K : forall sg k c r, sign sg k -> skip_space s = sg ++ c :: r -> digit c = true -> exists n rest, number s n rest).
  { intros sg k c r Hs Es Hc. destruct (digits_spec (c :: r) 0) as (ds & E1 & F & E2 & H). exists (k * decimal ds)%Z, (snd (digits (c :: r) 0)), bl, sg, k, ds.
    rewrite <- E1, <- Es. repeat split; try assumption. intros ->. cbn [app] in E1. destruct (H c r (eq_sym E1)). apply digit_ok. exact Hc. }
  unfold strtol. 
  assert (D : (exists n rest, number s n rest) \/ ~ exists n rest, number s n rest).
  { destruct (skip_space s) as [|c r] eqn:Es.
    - right. intros (n & rest & (bl' & sg & k & ds & E' & Fb' & Hs & Hne & Fd & Hr & _)). rewrite E' in Es. destruct ds as [|d ds]; [congruence|]. pose proof (Forall_inv Fd) as Hd.
      rewrite skip_space_app in Es; [inversion Hs; subst; discriminate|exact Fb'|]. intros c r Ec. inversion Hs; subst; cbn [app] in Ec; injection Ec as <- _; unfold numeral in Hd; unfold white; lia.
    - destruct (digit c) eqn:Hc; [left; apply (K [] 1%Z c r sign_none eq_refl Hc)|].
      assert (Q : (exists sg k d r', sign sg k /\ c :: r = sg ++ d :: r' /\ digit d = true) \/ ~ (exists sg k d r', sign sg k /\ c :: r = sg ++ d :: r' /\ digit d = true)).
      { destruct ((c =? 43) || (c =? 45)) eqn:Hsg.
        - destruct r as [|d r'].
          + right. intros (sg & k & d & r' & Hs & Ec & Hd). inversion Hs; subst; cbn [app] in Ec; injection Ec as -> Ec; [congruence|destruct r'; discriminate|destruct r'; discriminate].
          + destruct (digit d) eqn:Hd.
            * left. apply orb_true_iff in Hsg as [Hsg|Hsg]; apply N.eqb_eq in Hsg; subst c; [exists [43], 1%Z|exists [45], (-1)%Z]; exists d, r'; (split; [constructor|split; [reflexivity|exact Hd]]).
            * right. intros (sg & k & d' & r2 & Hs & Ec & Hd'). inversion Hs; subst; cbn [app] in Ec; injection Ec as -> Ec; try congruence; injection Ec as -> _; congruence.
        - right. intros (sg & k & d & r' & Hs & Ec & Hd). apply orb_false_iff in Hsg as [H1 H2]. apply N.eqb_neq in H1, H2. inversion Hs; subst; cbn [app] in Ec; injection Ec as -> Ec; congruence. }
      destruct Q as [(sg & k & d & r' & Hs & Ec & Hd)|Q]; [left; eapply K; eassumption|]. right.
      intros (n & rest & (bl' & sg & k & ds & E' & Fb' & Hs & Hne & Fd & Hr & _)). rewrite E' in Es. destruct ds as [|d ds]; [congruence|]. pose proof (Forall_inv Fd) as Hd.
      rewrite skip_space_app in Es.
      + apply Q. exists sg, k, d, (ds ++ rest). split; [exact Hs|]. split; [symmetry; exact Es|apply digit_ok; exact Hd].
      + exact Fb'.
      + intros c' r2 Ec. inversion Hs; subst; cbn [app] in Ec; injection Ec as <- _; unfold numeral in Hd; unfold white; lia. }
  destruct D as [D|D]; [left; exact D|]. right. split; [intros n rest H; apply D; eauto|].
  destruct (skip_space s) as [|c r] eqn:Es; [reflexivity|].
  destruct (N.eqb_spec c 45) as [->|H1].
  - destruct r as [|d r']; [reflexivity|]. destruct (digit d) eqn:Hd; [|reflexivity]. exfalso. apply D. apply (K [45] (-1)%Z d r'); [constructor|reflexivity|exact Hd].
  - destruct (N.eqb_spec c 43) as [->|H2].
    + destruct r as [|d r']; [reflexivity|]. destruct (digit d) eqn:Hd; [|reflexivity]. exfalso. apply D. apply (K [43] 1%Z d r'); [constructor|reflexivity|exact Hd].
    + destruct (digit c) eqn:Hc; [|reflexivity]. exfalso. apply D. apply (K [] 1%Z c r); [constructor|reflexivity|exact Hc].
Qed.
Lemma number_unique : forall s n n' r r', number s n r -> number s n' r' -> r = r' /\ clamp n = clamp n' /\ outside n = outside n'.
Proof. intros s n n' r r' H H'. apply strtol_number in H, H'. rewrite H in H'. injection H' as -> -> ->. auto. Qed.
Lemma number_rest : forall s n rest, number s n rest -> (length rest < length s)%nat.
Proof.
  intros s n rest (bl & sg & k & ds & -> & _ & _ & Hne & _). rewrite !app_length. destruct ds; [congruence|]. cbn [length]. lia.
Qed.

Lemma long_ok : forall n, long n <-> outside n = false.
Proof. intros n. unfold long, outside, LONG_MAX, LONG_MIN. rewrite orb_false_iff, !Z.ltb_ge. change (2 ^ 63)%Z with 9223372036854775808%Z. lia. Qed.
Lemma clamp_in : forall n, outside n = false -> clamp n = n.
Proof. intros n H. apply orb_false_iff in H as [H1 H2]. unfold clamp. rewrite H1, H2. reflexivity. Qed.
Lemma clamp_ok : forall n v, clamped n v <-> clamp n = v.
Proof.
  intros n v. unfold clamped, long, clamp, LONG_MAX, LONG_MIN. change (2 ^ 63)%Z with 9223372036854775808%Z.
  destruct (Z.ltb_spec 9223372036854775807 n); [lia|]. destruct (Z.ltb_spec n (-9223372036854775808)); lia.
Qed.
Lemma cut_ok : forall v i, cut v i <-> to_int v = i.
Proof.
  intros v i. unfold cut, to_int. change (2 ^ 32)%Z with 4294967296%Z. change (2 ^ 31)%Z with 2147483648%Z. split.
  - intros ((k & ->) & H). replace (v + 2147483648)%Z with ((v + k * 4294967296 + 2147483648) + (- k) * 4294967296)%Z by lia. rewrite Z_mod_plus_full.
    rewrite Z.mod_small; lia.
  - intros <-. pose proof (Z.mod_pos_bound (v + 2147483648) 4294967296 ltac:(lia)). split; [|lia].
    exists (- ((v + 2147483648) / 4294967296))%Z. pose proof (Z.div_mod (v + 2147483648) 4294967296 ltac:(lia)). lia.
Qed.
