(** * Properties of the command line: C45 to C48, C55 *)
From Coq Require Import Ascii String List Arith NArith ZArith Bool Lia.
From Verif Require Import Base BaseFacts Model_Unicode Model_Bxs Model_Shape Model_Regex Model_Query Model_Cmdline Spec_Query Proof_Query Spec_Cmdline Proof_Cmdline Prop_Query.
Import ListNotations.
Local Open Scope N_scope.

Lemma one_of3_ok : forall c x y z v, 97 <= x <= 122 -> 97 <= y <= 122 -> 97 <= z <= 122 -> (one_of3 c x y z = Some v <-> letter c v /\ In v [x; y; z]).
Proof.
  intros c x y z v Hx Hy Hz. unfold one_of3.
  destruct (either c x) eqn:E1; [|destruct (either c y) eqn:E2; [|destruct (either c z) eqn:E3]].
  all: rewrite ?(either_ok c x Hx) in *; rewrite ?(either_ok c y Hy) in *; rewrite ?(either_ok c z Hz) in *.
  - split.
    + intros H. injection H as <-. split; [assumption|cbn; auto].
    + intros [H K]. f_equal. unfold letter in *. cbn in K. destruct K as [<-|[<-|[<-|[]]]]; lia.
  - assert (N1 : ~ letter c x) by (rewrite <- (either_ok c x Hx); congruence). split.
    + intros H. injection H as <-. split; [assumption|cbn; auto].
    + intros [H K]. f_equal. unfold letter in *. cbn in K. destruct K as [<-|[<-|[<-|[]]]]; lia.
  - assert (N1 : ~ letter c x) by (rewrite <- (either_ok c x Hx); congruence).
    assert (N2 : ~ letter c y) by (rewrite <- (either_ok c y Hy); congruence). split.
    + intros H. injection H as <-. split; [assumption|cbn; auto].
    + intros [H K]. f_equal. unfold letter in *. cbn in K. destruct K as [<-|[<-|[<-|[]]]]; lia.
  - assert (N1 : ~ letter c x) by (rewrite <- (either_ok c x Hx); congruence).
    assert (N2 : ~ letter c y) by (rewrite <- (either_ok c y Hy); congruence).
    assert (N3 : ~ letter c z) by (rewrite <- (either_ok c z Hz); congruence). split; [discriminate|].
    intros [H K]. cbn in K. destruct K as [<-|[<-|[<-|[]]]]; contradiction.
Qed.

(** ** C45 *)
Theorem C45_tabs : forall t arg t', tab_handling t arg = Ok t' <->
  exists n v i rest, number arg n rest /\ clamped n v /\ cut v i /\ (1 <= i <= 16)%Z /\ t_stop t' = i /\
    (rest = [] /\ t_exp t' = t_exp t \/ exists c, rest = [c] /\ letter c (t_exp t') /\ In (t_exp t') [101; 107; 117]).
Proof.
  intros t arg t'. unfold tab_handling. destruct (number_dec arg) as [(n & rest & Hn)|[Hn E]].
  - rewrite (strtol_number _ _ _ Hn). set (w := to_int (clamp n)).
    assert (A : forall n' v i r, number arg n' r -> clamped n' v -> cut v i -> r = rest /\ i = w).
    { intros n' v i r H Hc Hi. destruct (number_unique _ _ _ _ _ Hn H) as (-> & E & _). split; [reflexivity|]. apply clamp_ok in Hc. apply cut_ok in Hi. subst v i. unfold w. rewrite E. reflexivity. }
    assert (B : clamped n (clamp n)) by (apply clamp_ok; reflexivity). assert (C : cut (clamp n) w) by (apply cut_ok; reflexivity).
    destruct (Z.ltb_spec w 1) as [L1|L1]; [split; [discriminate|]|].
    { intros (n' & v & i & r & H1 & H2 & H3 & H4 & _). destruct (A _ _ _ _ H1 H2 H3) as [_ ->]. lia. }
    unfold MAX_TABSTOP. destruct (Z.ltb_spec 16 w) as [L2|L2]; [split; [discriminate|]|].
    { intros (n' & v & i & r & H1 & H2 & H3 & H4 & _). destruct (A _ _ _ _ H1 H2 H3) as [_ ->]. lia. }
    cbn [orb]. destruct rest as [|c rest]; cbn [is_nil].
    + split.
      * intros H. injection H as <-. exists n, (clamp n), w, []. cbn [t_stop t_exp]. repeat (split; [assumption || lia || reflexivity|]). auto.
      * intros (n' & v & i & r & H1 & H2 & H3 & _ & H4 & H5). destruct (A _ _ _ _ H1 H2 H3) as [-> ->]. destruct t' as [ts te]. cbn [t_stop t_exp] in *. destruct H5 as [[_ ->]|(c & K & _)]; [congruence|discriminate].
    + destruct rest as [|c2 rest]; cbn [ends bind cur hd].
      * cbn [negb]. split.
        -- destruct (one_of3 c 101 107 117) as [m|] eqn:Eo; [|discriminate]. intros H. injection H as <-. apply one_of3_ok in Eo; [|lia..].
           exists n, (clamp n), w, [c]. cbn [t_stop t_exp]. repeat (split; [assumption || lia || reflexivity|]). right. exists c. destruct Eo as [E1 E2]. auto.
        -- intros (n' & v & i & r & H1 & H2 & H3 & _ & H4 & H5). destruct (A _ _ _ _ H1 H2 H3) as [-> ->]. destruct t' as [ts te]. cbn [t_stop t_exp] in *.
           destruct H5 as [[K _]|(c' & K & H5)]; [discriminate|]. injection K as <-. apply one_of3_ok in H5; [|lia..]. rewrite H5. congruence.
      * cbn [negb]. split; [discriminate|].
        intros (n' & v & i & r & H1 & H2 & H3 & _ & H4 & H5). destruct (A _ _ _ _ H1 H2 H3) as [-> ->]. destruct H5 as [[K _]|(c' & K & _)]; discriminate.
  - rewrite E. cbn. split; [discriminate|]. intros (n' & v & i & r & H1 & _). destruct (Hn _ _ H1).
Qed.

(** numbers of ordinary size are taken as they are *)
Theorem C45_ordinary : forall n, (- 2 ^ 31 <= n < 2 ^ 31)%Z -> forall v i, clamped n v -> cut v i -> i = n.
Proof.
  intros n H v i Hc Hi. apply clamp_ok in Hc. apply cut_ok in Hi. subst v i. change (2 ^ 31)%Z with 2147483648%Z in H. unfold clamp, LONG_MAX, LONG_MIN.
  destruct (Z.ltb_spec 9223372036854775807 n); [lia|]. destruct (Z.ltb_spec n (-9223372036854775808)); [lia|]. unfold to_int. rewrite Z.mod_small; lia.
Qed.
Theorem C45_safe : forall t arg t', In (t_exp t) [101; 107; 117] -> tab_handling t arg = Ok t' -> (1 <= t_stop t' <= 16)%Z /\ In (t_exp t') [101; 107; 117].
Proof. intros t arg t' Ht H. apply C45_tabs in H as (n & v & i & rest & _ & _ & _ & Hi & -> & [[_ ->]|(c & _ & _ & K)]); auto. Qed.
(** never undefined behaviour *)
Theorem C45_total : forall t arg, tab_handling t arg = Err \/ exists t', tab_handling t arg = Ok t'.
Proof.
  intros t arg. unfold tab_handling. destruct (strtol arg) as [[v p] e]. destruct (_ || _); [auto|]. destruct p as [|c [|c2 p]]; cbn [is_nil]; [eauto| |]; cbn [ends bind negb]; [destruct (one_of3 _ _ _ _); eauto|auto].
Qed.
Print Assumptions C45_tabs.
Print Assumptions C45_ordinary.
Print Assumptions C45_safe.
Print Assumptions C45_total.
Example C45_example : tab_handling (mkTabs 8 101) (bytes "4u"%string) = Ok (mkTabs 4 117) /\ tab_handling (mkTabs 8 107) (bytes " +16"%string) = Ok (mkTabs 16 107) /\
  tab_handling (mkTabs 8 101) (bytes "17"%string) = Err /\ tab_handling (mkTabs 8 101) (bytes "4eu"%string) = Err /\ tab_handling (mkTabs 8 101) (bytes "0k"%string) = Err.
Proof. vm_compute. auto 10. Qed.
(** a tab stop distance far beyond the limit is accepted when its low bits are small *)
Theorem C45_limit_refuted : exists t arg n t', number arg n [] /\ (16 < n)%Z /\ tab_handling t arg = Ok t'.
Proof.
  exists (mkTabs 8 101), (bytes "4294967300"%string), 4294967300%Z, (mkTabs 4 101). split; [|split; [lia|vm_compute; reflexivity]].
  change (bytes "4294967300"%string) with [52; 50; 57; 52; 57; 54; 55; 51; 48; 48]. exists [], [], 1%Z, [52; 50; 57; 52; 57; 54; 55; 51; 48; 48]. rewrite app_nil_r. split; [reflexivity|]. split; [constructor|]. split; [constructor|]. split; [discriminate|].
  split; [repeat (apply Forall_cons; [unfold numeral; lia|]); apply Forall_nil|]. split; [discriminate|vm_compute; reflexivity].
Qed.
Print Assumptions C45_limit_refuted.

(** ** The last one decides *)
Lemma latest_cons : forall A B (f : A -> option B) x l d b, latest f (x :: l) d b <-> latest f l (match f x with Some v => v | None => d end) b.
Proof.
  intros A B f x l d b. split.
  - intros [(l1 & y & l2 & E & Hy & Hn)|[H ->]].
    + destruct l1 as [|z l1]; injection E as -> ->; [right; rewrite Hy; auto|left; exists l1, y, l2; auto].
    + right. rewrite (H x (or_introl eq_refl)). split; [|reflexivity]. intros y Hy. apply H. right. exact Hy.
  - intros [(l1 & y & l2 & -> & Hy & Hn)|[H Hb]]; [left; exists (x :: l1), y, l2; auto|]. destruct (f x) as [v|] eqn:E.
    + left. exists [], x, l. subst v. auto.
    + right. split; [intros y [<-|Hy]; auto|exact Hb].
Qed.
Lemma latest_nil : forall A B (f : A -> option B) d b, latest f [] d b <-> b = d.
Proof.
  intros A B f d b. split.
  - intros [(l1 & y & l2 & E & _)|[_ H]]; [destruct l1; discriminate|exact H].
  - intros ->. right. split; [intros y []|reflexivity].
Qed.

(** ** C46 *)
Definition pad_at (a : pads) (s : side) : Z := match s with top => p_top a | right => p_right a | bottom => p_bottom a | left => p_left a end.
Lemma pad_ext : forall a b, (forall s, pad_at a s = pad_at b s) -> a = b.
Proof. intros [a1 a2 a3 a4] [b1 b2 b3 b4] H. pose proof (H top). pose proof (H right). pose proof (H bottom). pose proof (H left). cbn in *. congruence. Qed.
Lemma set_pad_ok : forall a c size a', set_pad a c size = Some a' <-> exists f, pad_letter c f /\ forall s, pad_at a' s = if f s then size else pad_at a s.
Proof.
  intros a c size a'. unfold set_pad.
  repeat match goal with |- context[either c ?l] => let E := fresh "E" in destruct (either c l) eqn:E; [rewrite (either_ok c l) in E by lia | assert (~ letter c l) by (rewrite <- (either_ok c l) by lia; congruence); clear E] end.
  all: split; [try discriminate; intros K; injection K as <-; eexists; (split; [econstructor; eassumption|intros []; reflexivity])|].
  all: intros (f & Hf & HX); inversion Hf; subst; try contradiction; try (exfalso; unfold letter in *; lia); f_equal; apply pad_ext; intros s; rewrite HX; destruct s; reflexivity.
Qed.
Lemma pad_loop_ok : forall n fuel first a arg a', (List.length arg <= n)%nat -> (List.length arg < fuel)%nat ->
  (pad_loop fuel first a arg = Ok a' <-> (first = true -> arg <> []) /\ exists gs, groups arg gs /\ forall s, latest (pad_of s) gs (pad_at a s) (pad_at a' s)) /\
  (pad_loop fuel first a arg = Err \/ exists b, pad_loop fuel first a arg = Ok b).
Proof.
  induction n as [|n IH]; intros fuel first a arg a' Hn Hf; (destruct fuel as [|fuel]; [lia|]); cbn [pad_loop].
  { destruct arg; [|cbn in Hn; lia]. cbn [is_nil]. split; [|destruct first; eauto]. destruct first.
    - split; [discriminate|]. intros [K _]. destruct (K eq_refl eq_refl).
    - split.
      + intros H. injection H as <-. split; [discriminate|]. exists []. split; [constructor|]. intros s. apply latest_nil. reflexivity.
      + intros (_ & gs & Hg & H). inversion Hg; subst. f_equal. apply pad_ext. intros s. specialize (H s). apply latest_nil in H. auto. }
  destruct arg as [|c s].
  { cbn [is_nil]. split; [|destruct first; eauto]. destruct first.
    - split; [discriminate|]. intros [K _]. destruct (K eq_refl eq_refl).
    - split.
      + intros H. injection H as <-. split; [discriminate|]. exists []. split; [constructor|]. intros s. apply latest_nil. reflexivity.
      + intros (_ & gs & Hg & H). inversion Hg; subst. f_equal. apply pad_ext. intros s. specialize (H s). apply latest_nil in H. auto. }
  cbn [is_nil List.length] in *. destruct s as [|c2 s'] eqn:Es.
  { cbn [ends bind]. split; [|auto]. split; [discriminate|]. intros (_ & gs & Hg & _). inversion Hg; subst; [|congruence].
    match goal with K : number [] _ _ |- _ => apply number_rest in K; cbn in K; lia end. }
  rewrite <- Es in *. assert (Hs : s <> []) by (rewrite Es; discriminate).
  assert (Eend : ends (c :: s) = Ok false) by (rewrite Es; reflexivity). rewrite Eend. cbn [bind adv cur hd]. clear Eend.
  destruct (number_dec s) as [(m & rest & Hm)|[Hm E]].
  - rewrite (strtol_number _ _ _ Hm). pose proof (number_rest _ _ _ Hm) as HL. destruct (outside m) eqn:Eo; cbn [orb].
    { split; [|auto]. split; [discriminate|]. intros (_ & gs & Hg & _). inversion Hg; subst.
      - match goal with K : number _ _ _, L : long _ |- _ => apply long_ok in L; destruct (number_unique _ _ _ _ _ Hm K) as (_ & _ & Q); congruence end.
      - match goal with K : no_number _ |- _ => destruct (K _ _ Hm) end. }
    rewrite (clamp_in _ Eo). destruct (Z.ltb_spec (to_int m) 0) as [L|L].
    { split; [|auto]. split; [discriminate|]. intros (_ & gs & Hg & _). inversion Hg; subst.
      - match goal with K : number _ ?m' _, Lg : long _, C : cut _ _ |- _ => apply long_ok in Lg; destruct (number_unique _ _ _ _ _ Hm K) as (_ & Q & _); rewrite (clamp_in _ Eo), (clamp_in _ Lg) in Q; apply cut_ok in C; subst m'; lia end.
      - match goal with K : no_number _ |- _ => destruct (K _ _ Hm) end. }
    assert (Inv : forall gs, groups (c :: s) gs -> exists f gs', gs = (f, to_int m) :: gs' /\ pad_letter c f /\ groups rest gs').
    { intros gs Hg. inversion Hg; subst.
      - match goal with K : number _ ?m' _, Lg : long _, C : cut _ _ |- _ => apply long_ok in Lg; destruct (number_unique _ _ _ _ _ Hm K) as (R & Q & _); rewrite (clamp_in _ Eo), (clamp_in _ Lg) in Q; apply cut_ok in C; subst end. eauto.
      - match goal with K : no_number _ |- _ => destruct (K _ _ Hm) end. }
    destruct (set_pad a c (to_int m)) as [a1|] eqn:Ea.
    + pose proof (proj1 (set_pad_ok _ _ _ _) Ea) as (f & Hpl & Hat). destruct (IH fuel false a1 rest a') as [IH1 IH2]; [lia|lia|]. split; [|exact IH2]. rewrite IH1. split.
      * intros (_ & gs & Hg & H). split; [discriminate|]. exists ((f, to_int m) :: gs). split.
        -- eapply gr_number; try eassumption; [apply long_ok; exact Eo|apply cut_ok; reflexivity].
        -- intros sd. apply latest_cons. unfold pad_of at 2. cbn [fst snd]. specialize (H sd). rewrite Hat in H. destruct (f sd); exact H.
      * intros (_ & gs & Hg & H). split; [discriminate|]. destruct (Inv gs Hg) as (f' & gs' & -> & Hf' & Hg'). exists gs'. split; [exact Hg'|]. intros sd. specialize (H sd).
        apply latest_cons in H. unfold pad_of at 2 in H. cbn [fst snd] in H.
        assert (EQ : set_pad a c (to_int m) = Some a1) by exact Ea. clear Hat Hpl f.
        assert (X : exists a2, set_pad a c (to_int m) = Some a2 /\ forall s, pad_at a2 s = if f' s then to_int m else pad_at a s).
        { exists (mkPads (if f' top then to_int m else p_top a) (if f' right then to_int m else p_right a) (if f' bottom then to_int m else p_bottom a) (if f' left then to_int m else p_left a)).
          assert (Q : forall s, pad_at (mkPads (if f' top then to_int m else p_top a) (if f' right then to_int m else p_right a) (if f' bottom then to_int m else p_bottom a) (if f' left then to_int m else p_left a)) s = if f' s then to_int m else pad_at a s) by (intros []; reflexivity).
          split; [|exact Q]. apply set_pad_ok. exists f'. auto. }
        destruct X as (a2 & E2 & H2). rewrite Ea in E2. injection E2 as <-. rewrite H2. destruct (f' sd); exact H.
    + split; [|auto]. split; [discriminate|]. intros (_ & gs & Hg & _). destruct (Inv gs Hg) as (f' & gs' & _ & Hf' & _).
      assert (X : set_pad a c (to_int m) <> None); [|congruence].
      intros K. pose proof (proj2 (set_pad_ok a c (to_int m) (mkPads (if f' top then to_int m else p_top a) (if f' right then to_int m else p_right a) (if f' bottom then to_int m else p_bottom a) (if f' left then to_int m else p_left a)))) as Q.
      rewrite K in Q. discriminate Q. exists f'. split; [exact Hf'|]. intros []; reflexivity.
  - rewrite E. cbn [orb]. change (to_int 0) with 0%Z. change (0 <? 0)%Z with false. cbv iota.
    assert (Inv : forall gs, groups (c :: s) gs -> exists f gs', gs = (f, 0%Z) :: gs' /\ pad_letter c f /\ groups s gs').
    { intros gs Hg. inversion Hg; subst; [|eauto]. match goal with K : number _ _ _ |- _ => destruct (Hm _ _ K) end. }
    destruct (set_pad a c 0) as [a1|] eqn:Ea.
    + pose proof (proj1 (set_pad_ok _ _ _ _) Ea) as (f & Hpl & Hat). destruct (IH fuel false a1 s a') as [IH1 IH2]; [lia|lia|]. split; [|exact IH2]. rewrite IH1. split.
      * intros (_ & gs & Hg & H). split; [discriminate|]. exists ((f, 0%Z) :: gs). split.
        -- eapply gr_bare; eassumption.
        -- intros sd. apply latest_cons. unfold pad_of at 2. cbn [fst snd]. specialize (H sd). rewrite Hat in H. destruct (f sd); exact H.
      * intros (_ & gs & Hg & H). split; [discriminate|]. destruct (Inv gs Hg) as (f' & gs' & -> & Hf' & Hg'). exists gs'. split; [exact Hg'|]. intros sd. specialize (H sd).
        apply latest_cons in H. unfold pad_of at 2 in H. cbn [fst snd] in H.
        pose proof (proj2 (set_pad_ok a c 0%Z (mkPads (if f' top then 0%Z else p_top a) (if f' right then 0%Z else p_right a) (if f' bottom then 0%Z else p_bottom a) (if f' left then 0%Z else p_left a)))) as Q.
        rewrite Ea in Q. assert (Q' : Some a1 = Some (mkPads (if f' top then 0%Z else p_top a) (if f' right then 0%Z else p_right a) (if f' bottom then 0%Z else p_bottom a) (if f' left then 0%Z else p_left a))) by (apply Q; exists f'; split; [exact Hf'|intros []; reflexivity]).
        injection Q' as ->. destruct sd; cbn [pad_at p_top p_right p_bottom p_left] in *; match goal with |- context[f' ?x] => destruct (f' x) end; exact H.
    + split; [|auto]. split; [discriminate|]. intros (_ & gs & Hg & _). destruct (Inv gs Hg) as (f' & gs' & _ & Hf' & _).
      pose proof (proj2 (set_pad_ok a c 0%Z (mkPads (if f' top then 0%Z else p_top a) (if f' right then 0%Z else p_right a) (if f' bottom then 0%Z else p_bottom a) (if f' left then 0%Z else p_left a)))) as Q.
      rewrite Ea in Q. discriminate Q. exists f'. split; [exact Hf'|]. intros []; reflexivity.
Qed.
Theorem C46_padding : forall a arg a', padding a arg = Ok a' <-> arg <> [] /\ exists gs, groups arg gs /\ forall s, latest (pad_of s) gs (pad_at a s) (pad_at a' s).
Proof. intros a arg a'. unfold padding. rewrite (proj1 (pad_loop_ok (List.length arg) (S (List.length arg)) true a arg a' ltac:(lia) ltac:(lia))). intuition. Qed.
Theorem C46_total : forall a arg, padding a arg = Err \/ exists a', padding a arg = Ok a'.
Proof. intros a arg. apply (proj2 (pad_loop_ok (List.length arg) (S (List.length arg)) true a arg a ltac:(lia) ltac:(lia))). Qed.
Lemma groups_nonneg : forall arg gs f i, groups arg gs -> In (f, i) gs -> (0 <= i < 2 ^ 31)%Z.
Proof.
  intros arg gs f i H. induction H as [|c f0 s n i0 rest gs H1 H2 H3 H4 H5 H6 IH|c f0 s gs H1 H2 H3 H4 IH]; intros K; [destruct K| |].
  - destruct K as [K|K]; [injection K as <- <-; destruct H4 as [_ H4]; lia|auto].
  - destruct K as [K|K]; [injection K as <- <-; lia|auto].
Qed.
Theorem C46_in_range : forall a arg a', padding a arg = Ok a' -> (forall s, -1 <= pad_at a s < 2 ^ 31)%Z -> forall s, (-1 <= pad_at a' s < 2 ^ 31)%Z.
Proof.
  intros a arg a' H Ha s. apply C46_padding in H as (_ & gs & Hg & H). specialize (H s). destruct H as [(l1 & [f i] & l2 & E & Hx & _)|[_ ->]]; [|apply Ha].
  unfold pad_of in Hx. cbn [fst snd] in Hx. destruct (f s); [|discriminate]. injection Hx as Hx. pose proof (groups_nonneg arg gs f i Hg) as Q. specialize (Q ltac:(rewrite E; apply in_or_app; right; left; reflexivity)). lia.
Qed.
Print Assumptions C46_padding.
Print Assumptions C46_total.
Print Assumptions C46_in_range.
Lemma decimal_nonneg : forall ds, Forall numeral ds -> (0 <= decimal ds)%Z.
Proof.
  assert (H : forall ds a, Forall numeral ds -> (0 <= a)%Z -> (0 <= fold_left (fun a c => (a * 10 + (Z.of_N c - 48))%Z) ds a)%Z).
  { induction ds as [|d ds IH]; intros a F Ha; cbn [fold_left]; [exact Ha|]. inversion F as [|? ? F1 F2]; subst. apply IH; [exact F2|]. unfold numeral in F1. lia. }
  intros ds F. apply H; [exact F|lia].
Qed.
Lemma pad_not_numeral : forall c f, pad_letter c f -> ~ numeral c.
Proof. intros c f H. unfold numeral. inversion H; subst; unfold letter in *; lia. Qed.
(** what the manual promises is accepted *)
Theorem C46_documented : forall a arg, documented arg -> exists a', padding a arg = Ok a'.
Proof.
  assert (HN : forall ds rest, ds <> [] -> Forall numeral ds -> (forall c r, rest = c :: r -> ~ numeral c) -> (decimal ds < 2 ^ 31)%Z ->
     number (ds ++ rest) (decimal ds) rest /\ long (decimal ds) /\ cut (decimal ds) (decimal ds) /\ (0 <= decimal ds)%Z).
  { intros ds rest Hne F Hr Hd. pose proof (decimal_nonneg ds F). split; [|split; [|split]].
    - exists [], [], 1%Z, ds. repeat split; try assumption; try constructor. lia.
    - unfold long. change (2 ^ 31)%Z with 2147483648%Z in Hd. change (2 ^ 63)%Z with 9223372036854775808%Z. lia.
    - split; [exists 0%Z; lia|]. change (2 ^ 31)%Z with 2147483648%Z in *. lia.
    - assumption. }
  assert (G : forall arg, documented arg -> arg <> [] /\ exists gs, groups arg gs).
  { intros arg H. induction H as [c f ds H1 H2 H3 H4|c f ds s H1 H2 H3 H4 H5 [IH0 (gs & IH)]]; (split; [discriminate|]).
    - destruct (HN ds [] H2 H3 ltac:(discriminate) H4) as (A & B & C & D). rewrite app_nil_r in A. exists [(f, decimal ds)]. eapply gr_number; eauto. constructor.
    - assert (Hs : forall c0 r, s = c0 :: r -> ~ numeral c0) by (intros c0 r ->; inversion H5; subst; eapply pad_not_numeral; eassumption).
      destruct (HN ds s H2 H3 Hs H4) as (A & B & C & D). exists ((f, decimal ds) :: gs). eapply gr_number; eauto. }
  assert (LX : forall gs s d, exists b, latest (pad_of s) gs d b).
  { induction gs as [|g gs IH]; intros s d; [exists d; apply latest_nil; reflexivity|]. destruct (IH s (match pad_of s g with Some v => v | None => d end)) as (b & Hb). exists b. apply latest_cons. exact Hb. }
  intros a arg H. destruct (G arg H) as (Hne & gs & Hg). destruct (LX gs top (p_top a)) as (b1 & L1). destruct (LX gs right (p_right a)) as (b2 & L2). destruct (LX gs bottom (p_bottom a)) as (b3 & L3). destruct (LX gs left (p_left a)) as (b4 & L4).
  exists (mkPads b1 b2 b3 b4). apply C46_padding. split; [exact Hne|]. exists gs. split; [exact Hg|]. intros []; assumption.
Qed.
Print Assumptions C46_documented.
Example C46_example : padding (mkPads (-1) (-1) (-1) (-1)) (bytes "a3V1l0"%string) = Ok (mkPads 1 3 1 0) /\ documented (bytes "a3V1l0"%string) /\
  padding (mkPads 5 5 5 5) (bytes "t2x"%string) = Err /\ padding (mkPads 5 5 5 5) (bytes "t-1"%string) = Err /\ padding (mkPads 5 5 5 5) (bytes "t"%string) = Err.
Proof.
  repeat split.
  change (bytes "a3V1l0"%string) with (97 :: [51] ++ 86 :: [49] ++ 108 :: [48]).
  eapply doc_more; [apply pl_a; left; reflexivity|discriminate|apply Forall_cons; [unfold numeral; lia|apply Forall_nil]|vm_compute; reflexivity|].
  eapply doc_more; [apply pl_v; right; reflexivity|discriminate|apply Forall_cons; [unfold numeral; lia|apply Forall_nil]|vm_compute; reflexivity|].
  eapply doc_one; [apply pl_l; left; reflexivity|discriminate|apply Forall_cons; [unfold numeral; lia|apply Forall_nil]|vm_compute; reflexivity].
Qed.
(** more than the documented form is accepted *)
Theorem C46_documented_only_refuted : exists a arg a', padding a arg = Ok a' /\ ~ documented arg.
Proof.
  exists (mkPads (-1) (-1) (-1) (-1)), (bytes "ab3"%string), (mkPads 0 0 3 0). split; [vm_compute; reflexivity|].
  intros H. change (bytes "ab3"%string) with [97; 98; 51] in H.
  assert (K : forall ds s, ds <> [] -> Forall numeral ds -> ds ++ s = [98; 51] -> False).
  { intros ds s Hne F E. destruct ds as [|d ds]; [congruence|]. injection E as -> _. apply Forall_inv in F. unfold numeral in F. lia. }
  inversion H; subst; [|eapply K; eassumption]. match goal with F : Forall numeral [98; 51] |- _ => apply (K [98; 51] []); auto; discriminate end.
Qed.
Print Assumptions C46_documented_only_refuted.

(** ** C47 *)
Definition at_place (a : aligns) (p : place) : N := match p with horizontal => a_h a | vertical => a_v a | justification => a_j a end.
Lemma align_ext : forall a b, (forall s, at_place a s = at_place b s) -> a = b.
Proof. intros [a1 a2 a3] [b1 b2 b3] H. pose proof (H horizontal). pose proof (H vertical). pose proof (H justification). cbn in *. congruence. Qed.
Definition applied (f : place -> option N) (a : aligns) : aligns :=
  let g p := match f p with Some v => v | None => at_place a p end in mkAligns (g horizontal) (g vertical) (g justification).
Lemma applied_at : forall f a p, at_place (applied f a) p = match f p with Some v => v | None => at_place a p end.
Proof. intros f a []; reflexivity. Qed.
Lemma align_round_ok : forall a p, p <> [] ->
  (exists s f q, p = s ++ q /\ directive s f /\ align_round a p = Ok (Some (applied f a, q))) \/
  ((forall s f q, p = s ++ q -> ~ directive s f) /\ align_round a p = Ok None).
Proof.
  intros a p Hne. destruct p as [|c r]; [congruence|]. clear Hne.
  (* the letters that can start a directive *)
  assert (SL : forall c1, letter c1 104 \/ letter c1 118 \/ letter c1 106 -> one_of3 c1 108 99 114 = None /\ one_of3 c1 108 114 99 = None).
  { intros c1 Hc. split; (destruct (one_of3 _ _ _ _) as [v|] eqn:E; [|reflexivity]); apply one_of3_ok in E; try lia; destruct E as [E1 E2]; cbn in E2; unfold letter in *; lia. }
  destruct (either c 104) eqn:Eh; [apply either_ok in Eh; [|lia]|].
  { assert (Ec : either c 104 = true) by (apply either_ok; [lia|exact Eh]). destruct (SL c (or_introl Eh)) as [S1 S2]. unfold align_round. cbn [cur hd].
    destruct r as [|d r]; cbn [ends nxt bind].
    - rewrite S1. right. split; [|reflexivity]. intros s f q E K. inversion K; subst; try discriminate. injection E as -> _. unfold letter in *. cbn in H0. lia.
    - rewrite Ec. cbn [andb]. destruct (one_of3 d 99 108 114) as [v|] eqn:Ev.
      + left. exists [c; d], (fun p => match p with horizontal => Some v | _ => None end), r. split; [reflexivity|]. apply one_of3_ok in Ev; [|lia..]. destruct Ev as [E1 E2]. split.
        * apply dir_h; [exact Eh|exact E1|]. cbn in *. tauto.
        * reflexivity.
      + right. split; [|reflexivity]. intros s f q E K. inversion K; subst; cbn [app] in E; injection E as -> E; try (injection E as -> _); try (unfold letter in *; cbn in *; lia).
        assert (Q : one_of3 d0 99 108 114 = Some v) by (apply one_of3_ok; [lia..|]; split; [assumption|cbn in *; tauto]). congruence. }
  assert (Nh : ~ letter c 104) by (intros K; apply either_ok in K; [congruence|lia]).
  destruct (either c 118) eqn:Evv; [apply either_ok in Evv; [|lia]|].
  { assert (Ec : either c 118 = true) by (apply either_ok; [lia|exact Evv]). destruct (SL c (or_intror (or_introl Evv))) as [S1 S2]. unfold align_round. cbn [cur hd].
    destruct r as [|d r]; cbn [ends nxt bind].
    - rewrite S1. right. split; [|reflexivity]. intros s f q E K. inversion K; subst; try discriminate. injection E as -> _. unfold letter in *. cbn in H0. lia.
    - rewrite Eh, Ec. cbn [andb]. destruct (one_of3 d 99 116 98) as [v|] eqn:Ev.
      + left. exists [c; d], (fun p => match p with vertical => Some v | _ => None end), r. split; [reflexivity|]. apply one_of3_ok in Ev; [|lia..]. destruct Ev as [E1 E2]. split.
        * apply dir_v; [exact Evv|exact E1|]. cbn in *. tauto.
        * reflexivity.
      + right. split; [|reflexivity]. intros s f q E K. inversion K; subst; cbn [app] in E; injection E as -> E; try (injection E as -> _); try (unfold letter in *; cbn in *; lia).
        assert (Q : one_of3 d0 99 116 98 = Some v) by (apply one_of3_ok; [lia..|]; split; [assumption|cbn in *; tauto]). congruence. }
  assert (Nv : ~ letter c 118) by (intros K; apply either_ok in K; [congruence|lia]).
  destruct (either c 106) eqn:Ej; [apply either_ok in Ej; [|lia]|].
  { assert (Ec : either c 106 = true) by (apply either_ok; [lia|exact Ej]). destruct (SL c (or_intror (or_intror Ej))) as [S1 S2]. unfold align_round. cbn [cur hd].
    destruct r as [|d r]; cbn [ends nxt bind].
    - rewrite S1. right. split; [|reflexivity]. intros s f q E K. inversion K; subst; try discriminate. injection E as -> _. unfold letter in *. cbn in H0. lia.
    - rewrite Eh, Evv, Ec. cbn [andb]. destruct (one_of3 d 108 99 114) as [v|] eqn:Ev.
      + left. exists [c; d], (fun p => match p with justification => Some v | _ => None end), r. split; [reflexivity|]. apply one_of3_ok in Ev; [|lia..]. destruct Ev as [E1 E2]. split.
        * apply dir_j; [exact Ej|exact E1|]. cbn in *. tauto.
        * reflexivity.
      + right. split; [|reflexivity]. intros s f q E K. inversion K; subst; cbn [app] in E; injection E as -> E; try (injection E as -> _); try (unfold letter in *; cbn in *; lia).
        assert (Q : one_of3 d0 108 99 114 = Some v) by (apply one_of3_ok; [lia..|]; split; [assumption|cbn in *; tauto]). congruence. }
  assert (Nj : ~ letter c 106) by (intros K; apply either_ok in K; [congruence|lia]).
  assert (Hend : exists e, ends (c :: r) = Ok e) by (destruct r; cbn; eauto). destruct Hend as (e & He).
  assert (Hnx : exists n, nxt (c :: r) = Ok n) by (destruct r; cbn; eauto). destruct Hnx as (n & Hn).
  unfold align_round. rewrite He, Hn. cbn [bind cur hd]. rewrite Eh, Evv, Ej.
  destruct (one_of3 c 108 114 99) as [v|] eqn:Ev.
  - apply one_of3_ok in Ev; [|lia..]. destruct Ev as [E1 E2].
    assert (Q : one_of3 c 108 99 114 = Some v) by (apply one_of3_ok; [lia..|]; split; [assumption|cbn in *; tauto]). rewrite Q. cbn [negb]. rewrite andb_false_r. cbn [adv bind].
    left. exists [c], (fun p => match p with vertical => Some 99 | _ => Some v end), r. split; [reflexivity|]. split; [|reflexivity]. apply dir_all; [exact E1|cbn in *; tauto].
  - right. split; [|destruct (e && _); reflexivity]. intros s f q E K. inversion K; subst; cbn [app] in E; injection E as -> E; try contradiction.
    assert (Q : one_of3 c0 108 114 99 = Some v) by (apply one_of3_ok; [lia..|]; split; [assumption|cbn in *; tauto]). congruence.
Qed.
Lemma directive_unique : forall s f q s' f' q', s ++ q = s' ++ q' -> directive s f -> directive s' f' -> s = s' /\ forall p, f p = f' p.
Proof.
  intros s f q s' f' q' E D D'. inversion D; subst; inversion D'; subst; cbn [app] in E; injection E; intros; subst.
  all: try (unfold letter in *; cbn in *; exfalso; lia).
  - split; [reflexivity|]. assert (v = v0) by (unfold letter in *; cbn in *; lia). subst. reflexivity.
  - split; [reflexivity|]. assert (v = v0) by (unfold letter in *; cbn in *; lia). subst. reflexivity.
  - split; [reflexivity|]. assert (v = v0) by (unfold letter in *; cbn in *; lia). subst. reflexivity.
  - split; [reflexivity|]. assert (v = v0) by (unfold letter in *; cbn in *; lia). subst. reflexivity.
Qed.
Lemma directive_len : forall s f, directive s f -> (1 <= List.length s)%nat.
Proof. intros s f H. inversion H; cbn; lia. Qed.
Lemma directives_inv : forall p fs, directives p fs -> p <> [] -> exists s f q fs', p = s ++ q /\ directive s f /\ directives q fs' /\ fs = f :: fs'.
Proof. intros p fs H Hne. inversion H; subst; [congruence|eauto 10]. Qed.
Lemma align_loop_ok : forall n fuel first a p a', (List.length p <= n)%nat -> (List.length p < fuel)%nat ->
  (align_loop fuel first a p = Ok a' <-> (first = true -> p <> []) /\ exists fs, directives p fs /\ forall pl, latest (fun f => f pl) fs (at_place a pl) (at_place a' pl)) /\
  (align_loop fuel first a p = Err \/ exists b, align_loop fuel first a p = Ok b).
Proof.
  assert (Z : forall fuel first a a', (align_loop (S fuel) first a [] = Ok a' <-> (first = true -> @nil N <> []) /\ exists fs, directives [] fs /\ forall pl, latest (fun f => f pl) fs (at_place a pl) (at_place a' pl)) /\
     (align_loop (S fuel) first a [] = Err \/ exists b, align_loop (S fuel) first a [] = Ok b)).
  { intros fuel first a a'. cbn [align_loop is_nil]. split; [|destruct first; eauto]. destruct first.
    - split; [discriminate|]. intros [K _]. destruct (K eq_refl eq_refl).
    - split.
      + intros H. injection H as <-. split; [discriminate|]. exists []. split; [constructor|]. intros s. apply latest_nil. reflexivity.
      + intros (_ & gs & Hg & H). assert (gs = []).
        { inversion Hg as [|s f r fs D R Es]; [reflexivity|]. apply directive_len in D. destruct s; [cbn in D; lia|discriminate]. }
        subst gs. f_equal. apply align_ext. intros s. specialize (H s). apply latest_nil in H. auto. }
  induction n as [|n IH]; intros fuel first a p a' Hn Hf; (destruct fuel as [|fuel]; [lia|]).
  { destruct p; [|cbn in Hn; lia]. apply Z. }
  destruct p as [|c r]; [apply Z|]. set (p := c :: r) in *. assert (Hne : p <> []) by discriminate. cbn [align_loop]. replace (is_nil p) with false by reflexivity.
  destruct (align_round_ok a p Hne) as [(s & f & q & Ep & D & E)|[Hno E]]; rewrite E; cbn [bind].
  - pose proof (directive_len _ _ D) as Dl. assert (Hq : (List.length q < List.length p)%nat) by (rewrite Ep, app_length; lia).
    destruct (IH fuel false (applied f a) q a') as [IH1 IH2]; [lia|lia|]. split; [|exact IH2]. rewrite IH1. split.
    + intros (_ & fs & Hd & H). split; [intros _; exact Hne|]. exists (f :: fs). split; [rewrite Ep; constructor; assumption|]. intros pl. apply latest_cons. specialize (H pl). rewrite applied_at in H. exact H.
    + intros (_ & fs & Hd & H). split; [discriminate|]. destruct (directives_inv p fs Hd Hne) as (s1 & f1 & q1 & fs1 & Ep1 & D1 & Hd1 & ->).
      destruct (directive_unique s f q s1 f1 q1 ltac:(congruence) D D1) as [Es Ef]. assert (Eq : q = q1) by (subst s1; rewrite Ep in Ep1; apply app_inv_head in Ep1; exact Ep1). subst q1.
      exists fs1. split; [exact Hd1|]. intros pl. specialize (H pl). apply latest_cons in H. rewrite applied_at, Ef. exact H.
  - split; [|auto]. split; [discriminate|]. intros (_ & fs & Hd & _). destruct (directives_inv p fs Hd Hne) as (s1 & f1 & q1 & fs1 & Ep1 & D1 & _). destruct (Hno _ _ _ Ep1 D1).
Qed.
Theorem C47_alignment : forall a arg a', alignment a arg = Ok a' <->
  arg <> [] /\ exists ds, directives arg ds /\ forall pl, latest (fun d => d pl) ds (at_place a pl) (at_place a' pl).
Proof. intros a arg a'. unfold alignment. rewrite (proj1 (align_loop_ok (List.length arg) (S (List.length arg)) true a arg a' ltac:(lia) ltac:(lia))). intuition. Qed.
Theorem C47_alignment_total : forall a arg, alignment a arg = Err \/ exists a', alignment a arg = Ok a'.
Proof. intros a arg. apply (proj2 (align_loop_ok (List.length arg) (S (List.length arg)) true a arg a ltac:(lia) ltac:(lia))). Qed.
Definition good_aligns (a : aligns) : Prop := In (a_h a) [0; 108; 99; 114] /\ In (a_v a) [0; 116; 99; 98] /\ In (a_j a) [0; 108; 99; 114].
Theorem C47_alignment_range : forall a arg a', good_aligns a -> alignment a arg = Ok a' -> good_aligns a'.
Proof.
  intros a arg a' Ha H. apply C47_alignment in H as (_ & ds & Hd & H).
  assert (K : forall p v f, In f ds -> f p = Some v -> In v (match p with vertical => [116; 99; 98] | _ => [108; 99; 114] end)).
  { clear -Hd. induction Hd as [|s f r fs D R IH]; intros p v f0 Hf E; [destruct Hf|]. destruct Hf as [<-|Hf]; [|eapply IH; eassumption].
    inversion D; subst; destruct p; cbn beta iota in E; try discriminate E; injection E as <-; cbn in *; tauto. }
  assert (Q : forall p, In (at_place a' p) (match p with vertical => [116; 99; 98] | _ => [108; 99; 114] end) \/ at_place a' p = at_place a p).
  { intros p. specialize (H p). destruct H as [(l1 & f & l2 & E & Hf & _)|[_ E]]; [left|right; exact E]. apply (K p _ f); [rewrite E; apply in_or_app; right; left; reflexivity|exact Hf]. }
  unfold good_aligns in *. pose proof (Q horizontal) as Q1. pose proof (Q vertical) as Q2. pose proof (Q justification) as Q3. cbn [at_place] in *. cbn [In] in *.
  destruct Ha as (A1 & A2 & A3). split; [|split].
  - clear -Q1 A1. destruct Q1 as [Q1| ->]; [clear A1; tauto|exact A1].
  - clear -Q2 A2. destruct Q2 as [Q2| ->]; [clear A2; tauto|exact A2].
  - clear -Q3 A3. destruct Q3 as [Q3| ->]; [clear A3; tauto|exact A3].
Qed.
Print Assumptions C47_alignment.
Print Assumptions C47_alignment_total.
Print Assumptions C47_alignment_range.

(** sizes *)
Lemma split_at_spec : forall c s, match split_at c s with Some (a, b) => s = a ++ c :: b /\ ~ In c a | None => ~ In c s end.
Proof.
  intros c s. induction s as [|x s IH]; cbn [split_at]; [auto|]. destruct (N.eqb_spec x c) as [->|Hx]; [split; auto|]. destruct (split_at c s) as [[a b]|].
  - destruct IH as [-> H]. split; [reflexivity|]. intros [K|K]; auto.
  - intros [K|K]; auto.
Qed.
Lemma split_at_in : forall c a b, ~ In c a -> split_at c (a ++ c :: b) = Some (a, b).
Proof.
  intros c a b. induction a as [|x a IH]; intros H; cbn [app split_at]; [rewrite N.eqb_refl; reflexivity|]. cbn [In] in H.
  destruct (N.eqb_spec x c) as [->|Hx]; [tauto|]. rewrite IH by tauto. reflexivity.
Qed.
Lemma split_at_none : forall c s, ~ In c s -> split_at c s = None.
Proof. intros c s H. pose proof (split_at_spec c s) as K. destruct (split_at c s) as [[a b]|]; [|reflexivity]. destruct K as [-> _]. exfalso. apply H. apply in_or_app. right. left. reflexivity. Qed.
Lemma amount_ok : forall s v r e, strtol s = (v, r, e) -> forall w, amount s w <-> e = false /\ w = v.
Proof.
  intros s v r e E w. destruct (number_dec s) as [(n & rest & Hn)|[Hn E']].
  - rewrite (strtol_number _ _ _ Hn) in E. injection E as <- <- <-. split.
    + intros [[(rest' & Hw) L]|[K _]]; [|destruct (K _ _ Hn)]. destruct (number_unique _ _ _ _ _ Hn Hw) as (_ & E1 & E2). apply long_ok in L. rewrite E2. split; [exact L|]. rewrite E1. symmetry. apply clamp_in. exact L.
    + intros [L ->]. left. rewrite (clamp_in _ L). split; [eauto|apply long_ok; exact L].
  - rewrite E' in E. injection E as <- <- <-. split.
    + intros [[(rest' & Hw) L]|[_ ->]]; [destruct (Hn _ _ Hw)|auto].
    + intros [_ ->]. right. auto.
Qed.
Theorem C47_size : forall z arg z', size_of_box z arg = Ok z' <->
  exists pw ph, size_parts arg pw ph /\ part pw (s_w z) (s_w z') /\ part ph (s_h z) (s_h z') /\
    (0 <= s_w z')%Z /\ (0 <= s_h z')%Z /\ (s_w z' <> 0 \/ s_h z' <> 0)%Z.
Proof.
  intros z arg z'.
  assert (Fin : forall w h (e : bool), (if e || ((w =? 0)%Z && (h =? 0)%Z) || (w <? 0)%Z || (h <? 0)%Z then Err else Ok (mkSizes w h)) = Ok z' <->
     e = false /\ s_w z' = w /\ s_h z' = h /\ (0 <= w)%Z /\ (0 <= h)%Z /\ (w <> 0 \/ h <> 0)%Z).
  { intros w h e. destruct z' as [w' h']. cbn [s_w s_h]. destruct e; cbn [orb]; [split; [discriminate|intros (K & _); discriminate]|].
    destruct (Z.eqb_spec w 0), (Z.eqb_spec h 0), (Z.ltb_spec w 0), (Z.ltb_spec h 0); cbn [andb orb]; (split; [try discriminate; intros K; injection K as <- <-; repeat split; auto; lia|intros (_ & -> & -> & K); try reflexivity; lia]). }
  (* the parts are determined by the argument *)
  set (cutx := match split_at 120 arg with Some c => Some c | None => split_at 88 arg end).
  assert (HP : forall pw ph, size_parts arg pw ph <-> match cutx with Some (a, b) => pw = (match a with [] => None | _ => Some a end) /\ ph = Some b | None => pw = Some arg /\ ph = None end).
  { intros pw ph. unfold cutx. split.
    - intros H. inversion H as [s H1 H2|a b H1|a b H1 H2]; subst.
      + rewrite (split_at_none 120), (split_at_none 88) by assumption. auto.
      + rewrite split_at_in by assumption. auto.
      + rewrite (split_at_none 120), split_at_in; [auto|assumption|]. intros K. apply H2. apply in_app_or in K as [K|[K|K]]; [apply in_or_app; auto|discriminate|apply in_or_app; auto].
    - pose proof (split_at_spec 120 arg) as K1. pose proof (split_at_spec 88 arg) as K2. destruct (split_at 120 arg) as [[a b]|].
      + intros [-> ->]. destruct K1 as [-> K1]. constructor. exact K1.
      + destruct (split_at 88 arg) as [[a b]|].
        * intros [-> ->]. destruct K2 as [-> K2]. constructor; [exact K2|]. intros K. apply K1. apply in_app_or in K as [K|K]; apply in_or_app; [auto|right; right; exact K].
        * intros [-> ->]. constructor; assumption. }
  unfold size_of_box. fold cutx. destruct cutx as [[a b]|].
  - destruct (strtol b) as [[vb rb] eb] eqn:Eb. destruct a as [|x a].
    + cbn [s_w s_h orb]. rewrite (Fin (s_w z) vb eb). split.
      * intros (-> & E1 & E2 & H). exists None, (Some b). split; [apply HP; auto|]. cbn [part]. split; [exact E1|]. split; [apply (amount_ok _ _ _ _ Eb); auto|]. rewrite E1, E2. exact H.
      * intros (pw & ph & H & H1 & H2 & H3). apply HP in H as [-> ->]. cbn [part] in *. apply (amount_ok _ _ _ _ Eb) in H2 as [-> H2]. rewrite H1, H2 in *. auto.
    + destruct (strtol (x :: a)) as [[va ra] ea] eqn:Ea. cbn [s_w s_h]. rewrite (Fin va vb (ea || eb)). split.
      * intros (Ee & E1 & E2 & H). apply orb_false_iff in Ee as [-> ->]. exists (Some (x :: a)), (Some b). split; [apply HP; auto|]. cbn [part]. split; [apply (amount_ok _ _ _ _ Ea); auto|]. split; [apply (amount_ok _ _ _ _ Eb); auto|]. rewrite E1, E2. exact H.
      * intros (pw & ph & H & H1 & H2 & H3). apply HP in H as [-> ->]. cbn [part] in *. apply (amount_ok _ _ _ _ Eb) in H2 as [-> H2]. apply (amount_ok _ _ _ _ Ea) in H1 as [-> H1]. rewrite H1, H2 in *. auto.
  - destruct (strtol arg) as [[va ra] ea] eqn:Ea. cbn [s_w s_h]. rewrite (Fin va (s_h z) (ea || false)). rewrite orb_false_r. split.
    + intros (-> & E1 & E2 & H). exists (Some arg), None. split; [apply HP; auto|]. cbn [part]. split; [apply (amount_ok _ _ _ _ Ea); auto|]. split; [exact E2|]. rewrite E1, E2. exact H.
    + intros (pw & ph & H & H1 & H2 & H3). apply HP in H as [-> ->]. cbn [part] in *. apply (amount_ok _ _ _ _ Ea) in H1 as [-> H1]. rewrite H1, H2 in *. auto.
Qed.
Theorem C47_size_range : forall z arg z', (0 <= s_w z < 2 ^ 63)%Z -> (0 <= s_h z < 2 ^ 63)%Z -> size_of_box z arg = Ok z' -> (0 <= s_w z' < 2 ^ 63)%Z /\ (0 <= s_h z' < 2 ^ 63)%Z.
Proof.
  intros z arg z' Hw Hh H. apply C47_size in H as (pw & ph & _ & H1 & H2 & H3 & H4 & _).
  assert (K : forall p old new, (0 <= old < 2 ^ 63)%Z -> part p old new -> (new < 2 ^ 63)%Z).
  { intros p old new Ho Hp. destruct p as [s|]; cbn [part] in Hp; [|subst; lia]. destruct Hp as [[_ L]|[_ ->]]; [unfold long in L; lia|reflexivity]. }
  pose proof (K _ _ _ Hw H1). pose proof (K _ _ _ Hh H2). lia.
Qed.
Print Assumptions C47_size.
Print Assumptions C47_size_range.
Example C47_example : alignment (mkAligns 0 0 0) (bytes "hRvcjl"%string) = Ok (mkAligns 114 99 108) /\ alignment (mkAligns 0 0 0) (bytes "cvb"%string) = Ok (mkAligns 99 98 99) /\
  alignment (mkAligns 0 0 0) (bytes "h"%string) = Err /\ alignment (mkAligns 0 0 0) [] = Err /\ alignment (mkAligns 0 0 0) (bytes "lv"%string) = Err /\
  size_of_box (mkSizes 0 0) (bytes "40x10"%string) = Ok (mkSizes 40 10) /\ size_of_box (mkSizes 0 0) (bytes "x7"%string) = Ok (mkSizes 0 7) /\ size_of_box (mkSizes 0 0) (bytes "12"%string) = Ok (mkSizes 12 0) /\
  size_of_box (mkSizes 0 0) (bytes "x"%string) = Err /\ size_of_box (mkSizes 0 0) (bytes "-3x4"%string) = Err.
Proof. vm_compute. auto 20. Qed.
(** text that is not a size is accepted: the part behind the number is ignored *)
Theorem C47_garbage_refuted : exists z arg z', size_of_box z arg = Ok z' /\ (exists c, In c arg /\ ~ numeral c /\ c <> 120 /\ c <> 88) /\ s_w z' = 5%Z /\ s_h z' = 0%Z /\ arg = bytes "5X7x"%string ++ bytes "yz"%string.
Proof. exists (mkSizes 0 0), (bytes "5X7xyz"%string), (mkSizes 5 0). split; [vm_compute; reflexivity|]. split; [exists 121; split; [cbn; auto 10|]; unfold numeral; lia|]. auto. Qed.
Print Assumptions C47_garbage_refuted.

(** ** C48 *)
Lemma strncasecmp0_ok : forall a s n, (List.length a < n)%nat -> (strncasecmp0 a s n = true <-> nocase s a).
Proof.
  induction a as [|x a IH]; intros s n H; (destruct n as [|n]; [cbn in H; lia|]); cbn [strncasecmp0].
  - destruct s as [|y s]; (split; [try discriminate; intros _; constructor|]); [reflexivity|]. intros K. inversion K.
  - destruct s as [|y s]; [split; [discriminate|intros K; inversion K]|]. cbn [List.length] in H. rewrite andb_true_iff, IH by lia. rewrite N.eqb_eq. split.
    + intros [H1 H2]. constructor; [apply lower_same; auto|exact H2].
    + intros K. inversion K; subst. split; [symmetry; apply lower_same; assumption|assumption].
Qed.
Lemma strncmp0_ok : forall a s n, (List.length a < n)%nat -> (strncmp0 a s n = true <-> s = a).
Proof.
  induction a as [|x a IH]; intros s n H; (destruct n as [|n]; [cbn in H; lia|]); cbn [strncmp0].
  - destruct s as [|y s]; split; try discriminate; reflexivity.
  - destruct s as [|y s]; [split; discriminate|]. cbn [List.length] in H. rewrite andb_true_iff, IH by lia. rewrite N.eqb_eq. split; [intros [-> ->]; reflexivity|intros K; injection K as -> ->; auto].
Qed.
Lemma nocase_digit : forall s c, numeral c -> (nocase s [c] <-> s = [c]).
Proof.
  intros s c Hc. split; [|intros ->; apply nocase_refl]. intros H. inversion H as [|x ? l ? H1 H2]; subst. inversion H2; subst. f_equal. unfold same_letter in H1. unfold numeral in Hc. lia.
Qed.
Theorem C48_yes : forall s, strisyes s = true <-> word yes_words s.
Proof.
  intros s. unfold strisyes, word, yes_words. rewrite !orb_true_iff. rewrite !strncasecmp0_ok, strncmp0_ok by (cbn; lia). rewrite <- (nocase_digit s 49) by (unfold numeral; lia). cbn [map In].
  split; [intros [[[[K|K]|K]|K]|K]; eexists; (split; [|exact K]); auto 10|]. intros (w & [<-|[<-|[<-|[<-|[<-|[]]]]]] & K); auto 10.
Qed.
Theorem C48_no : forall s, strisno s = true <-> word no_words s.
Proof.
  intros s. unfold strisno, word, no_words. rewrite !orb_true_iff. rewrite !strncasecmp0_ok, strncmp0_ok by (cbn; lia). rewrite <- (nocase_digit s 48) by (unfold numeral; lia). cbn [map In].
  split; [intros [[[[K|K]|K]|K]|K]; eexists; (split; [|exact K]); auto 10|]. intros (w & [<-|[<-|[<-|[<-|[<-|[]]]]]] & K); auto 10.
Qed.
Theorem C48_disjoint : forall s, ~ (strisyes s = true /\ strisno s = true).
Proof.
  intros s [H1 H2]. apply C48_yes in H1 as (w & Hw & H1). apply C48_no in H2 as (u & Hu & H2). pose proof (nocase_trans _ _ _ (nocase_sym _ _ H1) H2) as H. apply same_ok in H.
  revert H. cbn in Hw, Hu. decompose [or] Hw; decompose [or] Hu; subst; try contradiction; vm_compute; discriminate.
Qed.
Print Assumptions C48_yes.
Print Assumptions C48_no.
Print Assumptions C48_disjoint.
Example C48_example : strisyes (bytes "YES"%string) = true /\ strisno (bytes "oFF"%string) = true /\ strisyes (bytes "o"%string) = false /\ strisno (bytes "o"%string) = false /\ strisyes (bytes "yess"%string) = false.
Proof. vm_compute. auto 10. Qed.

(** ** C55: the whole command line *)
Record in_range (g : settings) : Prop := {
  ir_align : good_aligns (g_align g);
  ir_pad : forall s, (-1 <= pad_at (g_pad g) s < 2 ^ 31)%Z;
  ir_w : (0 <= s_w (g_size g) < 2 ^ 63)%Z;
  ir_h : (0 <= s_h (g_size g) < 2 ^ 63)%Z;
  ir_tab : (1 <= t_stop (g_tab g) <= 16)%Z;
  ir_exp : In (t_exp (g_tab g)) [101; 107; 117];
  ir_kill : In (r_kill (g_rem g)) [-1; 0; 1]%Z;
  ir_mend : r_mend (g_rem g) = 0%Z \/ r_mend (g_rem g) = 2%Z /\ r_remove (g_rem g) = true /\ r_kill (g_rem g) = 0%Z;
  ir_indent : In (r_indent (g_rem g)) [0; 98; 116; 110];
  ir_cld : c_cld (g_src g) <> Some [];
  ir_user : c_by_user (g_src g) = true <-> c_cld (g_src g) <> None \/ c_design (g_src g) <> None;
  ir_eol : In (o_eol (g_out g)) [[10]; [13; 10]; [13]];
  ir_color : In (o_color (g_out g)) [0; 1; 2];
  ir_query : forall q, m_query (g_mode g) = Some q -> q <> [] /\ exists s, parse_query s = Some q;
  ir_debug : List.length (m_debug (g_mode g)) = 5%nat
}.
Lemma set_areas_len : forall ns a on on', set_areas ns a on = Some on' -> List.length on' = List.length on.
Proof.
  induction ns as [|n ns IH]; intros a [|b on] on' H; cbn [set_areas] in H; try discriminate. destruct (same_nocase a n); [injection H as <-; reflexivity|].
  destruct (set_areas ns a on) as [l|] eqn:E; [|discriminate]. injection H as <-. cbn [List.length]. erewrite IH; eauto.
Qed.
Lemma debug_areas_len : forall areas on, debug_areas areas on = Err \/ exists on', debug_areas areas on = Ok on' /\ List.length on' = List.length on.
Proof.
  induction areas as [|a r IH]; intros on; cbn [debug_areas]; [eauto|]. destruct (is_nil (trimdup a)); [apply IH|]. destruct (same_nocase (trimdup a) area_all).
  - destruct (IH (map (fun _ => true) on)) as [->|(on' & -> & E)]; [auto|]. right. exists on'. split; [reflexivity|]. rewrite E, map_length. reflexivity.
  - destruct (set_areas area_names (trimdup a) on) as [l|] eqn:E; [|auto]. apply set_areas_len in E. destruct (IH l) as [->|(on' & -> & E')]; [auto|]. right. exists on'. split; [reflexivity|lia].
Qed.
Lemma undoc_ok : forall m active arg, undocumented_options m active arg = Err \/
  exists m' active', undocumented_options m active arg = Ok (m', active') /\ m_query m' = m_query m /\ m_help m' = m_help m /\ m_version m' = m_version m /\ m_list m' = m_list m /\ List.length (m_debug m') = List.length (m_debug m).
Proof.
  intros m active arg. unfold undocumented_options. set (undoc := strncmp0 _ _ _). clearbody undoc. set (s := if undoc then _ else _). clearbody s.
  destruct (strncasecmp0 s _ 5).
  - assert (K : forall areas, debug_areas areas (m_debug m) = Err \/ exists on', debug_areas areas (m_debug m) = Ok on' /\ List.length on' = List.length (m_debug m)) by (intros; apply debug_areas_len).
    destruct (skipn 5 s) as [|c t].
    + destruct (K [[77; 65; 73; 78]]) as [->|(on' & -> & E)]; cbn [bind]; [auto|]. cbn [m_undoc]. destruct (negb _ && negb _); [auto|]. right. eexists. eexists. split; [reflexivity|]. cbn. auto.
    + destruct (c =? 58); cbn [bind]; [|auto]. destruct (K (strtok_all t)) as [->|(on' & -> & E)]; cbn [bind]; [auto|]. cbn [m_undoc]. destruct (negb _ && negb _); [auto|]. right. eexists. eexists. split; [reflexivity|]. cbn. auto.
  - cbn [bind m_undoc]. destruct (negb _ && negb _); [auto|]. right. eexists. eexists. split; [reflexivity|]. cbn. auto.
Qed.
Lemma size_total : forall z arg, size_of_box z arg = Err \/ exists z', size_of_box z arg = Ok z'.
Proof.
  intros z arg. unfold size_of_box. set (cutx := match split_at 120 arg with Some c => Some c | None => split_at 88 arg end). clearbody cutx.
  match goal with |- context[let '(z1, e1) := ?x in _] => destruct x as [z1 e1] end.
  match goal with |- context[let '(z1, e1) := ?x in _] => destruct x as [z2 e2] end.
  destruct (_ || _); eauto.
Qed.
Lemma killblank_ok : forall k arg, killblank k arg = Err \/ exists k', killblank k arg = Ok k' /\ (k = (-1)%Z /\ (k' = 0 \/ k' = 1)%Z \/ k <> (-1)%Z /\ k' = k).
Proof. intros k arg. unfold killblank. destruct (Z.eqb_spec k (-1)); [|eauto 10]. destruct (strisyes arg); [eauto 10|]. destruct (strisno arg); eauto 10. Qed.
Lemma item_ok : forall g active i, in_range g -> do_item g active i = Err \/ exists g' active' stop, do_item g active i = Ok (g', active', stop) /\ in_range g'.
Proof.
  intros g active i H. destruct H as [H1 H2 H3 H4 H5 H6 H7 H8 H9 H10 H11 H12 H13 H14 H15]. destruct i; cbn [do_item]; cbv zeta.
  - destruct (C47_alignment_total (g_align g) arg) as [->|(a' & E)]; [auto|]. rewrite E. right. do 3 eexists. split; [reflexivity|]. constructor; cbn; auto. eapply C47_alignment_range; eassumption.
  - unfold command_line_design. destruct arg as [|c r]; cbn [is_nil bind]; [auto|]. right. do 3 eexists. split; [reflexivity|]. constructor; cbn; auto; [discriminate|]. split; [intros _; left; discriminate|reflexivity].
  - right. do 3 eexists. split; [reflexivity|]. constructor; cbn; auto.
  - right. do 3 eexists. split; [reflexivity|]. constructor; cbn; auto.
  - right. do 3 eexists. split; [reflexivity|]. constructor; cbn; auto. split; [intros _; right; discriminate|reflexivity].
  - unfold eol_override. destruct (same_nocase arg [67; 82; 76; 70]); [|destruct (same_nocase arg [76; 70]); [|destruct (same_nocase arg [67; 82]); [|auto]]]; (right; do 3 eexists; split; [reflexivity|]; constructor; cbn; auto).
  - right. do 3 eexists. split; [reflexivity|]. constructor; cbn; auto.
  - right. do 3 eexists. split; [reflexivity|]. constructor; cbn; auto.
  - unfold indentation_mode. destruct (_ && _); [|destruct (_ && _); [|destruct (_ && _); [|auto]]]; (right; do 3 eexists; split; [reflexivity|]; constructor; cbn; auto).
  - destruct (killblank_ok (r_kill (g_rem g)) arg) as [->|(k' & -> & K)]; [auto|]. right. do 3 eexists. split; [reflexivity|]. constructor; cbn in *; auto.
    + destruct K as [[_ [->| ->]]|[_ ->]]; auto.
    + destruct H8 as [H8|(H8 & H8' & H8'')]; [auto|]. right. repeat split; auto. destruct K as [[K _]|[_ ->]]; [congruence|auto].
  - right. do 3 eexists. split; [reflexivity|]. constructor; cbn in *; auto; destruct (Z.eqb_spec (r_kill (g_rem g)) (-1)); auto. destruct H8 as [H8|(H8 & H8' & H8'')]; [auto|congruence].
  - right. do 3 eexists. split; [reflexivity|]. constructor; cbn in *; auto; destruct (Z.eqb_spec (r_kill (g_rem g)) (-1)); auto. destruct H8 as [H8|(H8 & H8' & H8'')]; [auto|congruence].
  - right. do 3 eexists. split; [reflexivity|]. constructor; cbn; auto.
  - right. do 3 eexists. split; [reflexivity|]. constructor; cbn; auto.
  - right. do 3 eexists. split; [reflexivity|]. constructor; cbn; auto.
  - destruct (C46_total (g_pad g) arg) as [->|(a' & E)]; [auto|]. rewrite E. right. do 3 eexists. split; [reflexivity|]. constructor; cbn; auto. eapply C46_in_range; eassumption.
  - destruct (parse_query arg) as [q|] eqn:E; [|auto]. right. do 3 eexists. split; [reflexivity|]. constructor; cbn; auto. intros q' K. injection K as <-. split; [|eauto].
    apply C43_accepted in E as (ts & _ & (Hne & _) & [[-> _]|[-> _]]); [exact Hne|destruct ts; discriminate].
  - right. do 3 eexists. split; [reflexivity|]. constructor; cbn in *; auto. destruct H8 as [H8|(H8 & H8' & H8'')]; auto.
  - destruct (size_total (g_size g) arg) as [->|(a' & E)]; [auto|]. rewrite E. right. do 3 eexists. split; [reflexivity|]. apply C47_size_range in E as [E1 E2]; [|assumption..]. constructor; cbn; auto.
  - destruct (C45_total (g_tab g) arg) as [->|(a' & E)]; [auto|]. rewrite E. right. do 3 eexists. split; [reflexivity|]. apply C45_safe in E as [E1 E2]; [|assumption]. constructor; cbn; auto.
  - right. do 3 eexists. split; [reflexivity|]. constructor; cbn; auto.
  - destruct (undoc_ok (g_mode g) active arg) as [->|(m' & active' & -> & E1 & E2 & E3 & E4 & E5)]; [auto|]. right. do 3 eexists. split; [reflexivity|]. constructor; cbn; auto; [rewrite E1; auto|lia].
  - auto.
Qed.
Lemma items_ok : forall items g active, in_range g -> do_items g active items = Err \/ exists g' stop, do_items g active items = Ok (g', stop) /\ in_range g'.
Proof.
  induction items as [|i r IH]; intros g active H; cbn [do_items]; [eauto|]. destruct (item_ok g active i H) as [->|(g' & active' & stop & -> & H')]; cbn [bind]; [auto|]. destruct stop; [eauto|]. apply IH. exact H'.
Qed.
Lemma in_range_start : in_range create_new_opt.
Proof.
  constructor; cbn; auto 10; try lia; try discriminate.
  - unfold good_aligns. cbn. auto.
  - intros []; cbn; lia.
  - unfold DEF_TABSTOP. lia.
  - split; [discriminate|]. intros [K|K]; congruence.
Qed.
Theorem C55_in_range : forall can_read can_write question items rest g fs, process_commandline can_read can_write question items rest = Ok (g, fs) -> in_range g.
Proof.
  intros cr cw q items rest g fs. unfold process_commandline. destruct q.
  - intros H. injection H as <- _. pose proof in_range_start as [H1 H2 H3 H4 H5 H6 H7 H8 H9 H10 H11 H12 H13 H14 H15]. constructor; auto.
  - destruct (items_ok items create_new_opt false in_range_start) as [->|(g' & stop & -> & H')]; cbn [bind]; [discriminate|]. destruct stop; [intros H; injection H as <- _; exact H'|].
    destruct (input_output_files cr cw rest); cbn [bind]; try discriminate. intros H. injection H as <- _. exact H'.
Qed.
Theorem C55_total : forall can_read can_write question items rest, process_commandline can_read can_write question items rest = Err \/ exists g fs, process_commandline can_read can_write question items rest = Ok (g, fs).
Proof.
  intros cr cw q items rest. unfold process_commandline. destruct q; [eauto|]. destruct (items_ok items create_new_opt false in_range_start) as [->|(g' & stop & -> & H')]; cbn [bind]; [auto|]. destruct stop; [eauto|].
  unfold input_output_files. destruct rest as [|i [|o [|x rest]]]; cbn [bind]; eauto; [|].
  - destruct (negb (dash i) && negb (cr i)); cbn [bind]; eauto.
  - destruct (negb (dash i) && negb (cr i)); cbn [bind]; [auto|]. destruct (dash o); cbn [bind]; [eauto|]. destruct (cw o); cbn [bind]; eauto.
Qed.
Print Assumptions C55_in_range.
Print Assumptions C55_total.

(** options that concern different things can be given in any order *)
Inductive concern : Type := Align | Pad | Size | Tab | Removal | Source | Output | Mode.
Definition concerns (i : item) : option concern :=
  match i with
  | ItA _ => Some Align | ItP _ => Some Pad | ItS _ => Some Size | ItT _ => Some Tab
  | ItI _ | ItK _ | ItKillBlank | ItNoKillBlank | ItM | ItR => Some Removal
  | ItC _ | ItD _ | ItF _ => Some Source
  | ItColor | ItNoColor | ItE _ | ItN _ => Some Output
  | ItL | ItQ _ | ItX _ => Some Mode
  | ItHelp | ItV | ItError => None
  end.
Lemma items_app : forall l1 l2 g active, do_items g active (l1 ++ l2) =
  match l1 with [] => do_items g active l2 | i :: r => x <- do_item g active i ;; let '(g', active', stop) := x in if (stop : bool) then Ok (g', true) else do_items g' active' (r ++ l2) end.
Proof. intros [|i r] l2 g active; reflexivity. Qed.
Lemma align_no : forall a arg, match alignment a arg with UB | Wrap | Fuel => False | _ => True end.
Proof. intros a arg. destruct (C47_alignment_total a arg) as [->|(x & ->)]; exact I. Qed.
Lemma pad_no : forall a arg, match padding a arg with UB | Wrap | Fuel => False | _ => True end.
Proof. intros a arg. destruct (C46_total a arg) as [->|(x & ->)]; exact I. Qed.
Lemma tab_no : forall a arg, match tab_handling a arg with UB | Wrap | Fuel => False | _ => True end.
Proof. intros a arg. destruct (C45_total a arg) as [->|(x & ->)]; exact I. Qed.
Lemma size_no : forall a arg, match size_of_box a arg with UB | Wrap | Fuel => False | _ => True end.
Proof. intros a arg. destruct (size_total a arg) as [->|(x & ->)]; exact I. Qed.
Lemma und_no : forall a b arg, match undocumented_options a b arg with UB | Wrap | Fuel => False | _ => True end.
Proof. intros a b arg. destruct (undoc_ok a b arg) as [->|(x & y & -> & _)]; exact I. Qed.
Lemma eol_no : forall a arg, match eol_override a arg with UB | Wrap | Fuel => False | _ => True end.
Proof. intros a arg. unfold eol_override. destruct (same_nocase _ _); [exact I|]. destruct (same_nocase _ _); [exact I|]. destruct (same_nocase _ _); exact I. Qed.
Lemma ind_no : forall arg, match indentation_mode arg with UB | Wrap | Fuel => False | _ => True end.
Proof. intros arg. unfold indentation_mode. destruct (_ && _); [exact I|]. destruct (_ && _); [exact I|]. destruct (_ && _); exact I. Qed.
Lemma kill_no : forall k arg, match killblank k arg with UB | Wrap | Fuel => False | _ => True end.
Proof. intros k arg. destruct (killblank_ok k arg) as [->|(x & -> & _)]; exact I. Qed.
Lemma cld_no : forall s arg, match command_line_design s arg with UB | Wrap | Fuel => False | _ => True end.
Proof. intros s arg. unfold command_line_design. destruct (is_nil arg); exact I. Qed.
(** one option changes its own group only, and looks at nothing else *)
Inductive change : Type :=
| ChAlign (f : aligns -> option aligns) | ChPad (f : pads -> option pads) | ChSize (f : sizes -> option sizes) | ChTab (f : tabs -> option tabs)
| ChRem (f : removal -> option removal) | ChSrc (f : source -> option source) | ChOut (f : output -> option output) | ChMode (f : modes -> bool -> option (modes * bool)).
Definition what (c : change) : concern :=
  match c with ChAlign _ => Align | ChPad _ => Pad | ChSize _ => Size | ChTab _ => Tab | ChRem _ => Removal | ChSrc _ => Source | ChOut _ => Output | ChMode _ => Mode end.
Definition omap {A B} (o : option A) (f : A -> B) : option B := match o with Some a => Some (f a) | None => None end.
Definition change_do (c : change) (g : settings) (active : bool) : option (settings * bool) :=
  match c with
  | ChAlign f => omap (f (g_align g)) (fun a => (with_align g a, active))
  | ChPad f => omap (f (g_pad g)) (fun a => (with_pad g a, active))
  | ChSize f => omap (f (g_size g)) (fun a => (with_size g a, active))
  | ChTab f => omap (f (g_tab g)) (fun a => (with_tab g a, active))
  | ChRem f => omap (f (g_rem g)) (fun a => (with_rem g a, active))
  | ChSrc f => omap (f (g_src g)) (fun a => (with_src g a, active))
  | ChOut f => omap (f (g_out g)) (fun a => (with_out g a, active))
  | ChMode f => omap (f (g_mode g) active) (fun a => (with_mode g (fst a), snd a))
  end.
Definition opt {A} (r : res A) : option A := match r with Ok a => Some a | _ => None end.
Definition change_of (i : item) : option change :=
  match i with
  | ItA arg => Some (ChAlign (fun a => opt (alignment a arg)))
  | ItP arg => Some (ChPad (fun a => opt (padding a arg)))
  | ItS arg => Some (ChSize (fun a => opt (size_of_box a arg)))
  | ItT arg => Some (ChTab (fun a => opt (tab_handling a arg)))
  | ItI arg => Some (ChRem (fun a => omap (opt (indentation_mode arg)) (fun m => mkRemoval (r_remove a) (r_mend a) (r_kill a) m)))
  | ItK arg => Some (ChRem (fun a => omap (opt (killblank (r_kill a) arg)) (fun k => mkRemoval (r_remove a) (r_mend a) k (r_indent a))))
  | ItKillBlank => Some (ChRem (fun a => Some (mkRemoval (r_remove a) (r_mend a) (if (r_kill a =? -1)%Z then 1%Z else r_kill a) (r_indent a))))
  | ItNoKillBlank => Some (ChRem (fun a => Some (mkRemoval (r_remove a) (r_mend a) (if (r_kill a =? -1)%Z then 0%Z else r_kill a) (r_indent a))))
  | ItM => Some (ChRem (fun a => Some (mkRemoval true 2%Z 0%Z (r_indent a))))
  | ItR => Some (ChRem (fun a => Some (mkRemoval true (r_mend a) (r_kill a) (r_indent a))))
  | ItC arg => Some (ChSrc (fun a => opt (command_line_design a arg)))
  | ItD arg => Some (ChSrc (fun a => Some (mkSource (c_cld a) (Some arg) true (c_file a))))
  | ItF arg => Some (ChSrc (fun a => Some (mkSource (c_cld a) (c_design a) (c_by_user a) (Some arg))))
  | ItColor => Some (ChOut (fun a => Some (mkOutput (o_eol a) (o_eol_set a) force_ansi_color (o_encoding a))))
  | ItNoColor => Some (ChOut (fun a => Some (mkOutput (o_eol a) (o_eol_set a) force_monochrome (o_encoding a))))
  | ItE arg => Some (ChOut (fun a => omap (opt (eol_override (o_eol a) arg)) (fun e => mkOutput e true (o_color a) (o_encoding a))))
  | ItN arg => Some (ChOut (fun a => Some (mkOutput (o_eol a) (o_eol_set a) (o_color a) (Some arg))))
  | ItL => Some (ChMode (fun a b => Some (mkModes (m_help a) (m_version a) true (m_query a) (m_undoc a) (m_debug a), b)))
  | ItQ arg => Some (ChMode (fun a b => omap (parse_query arg) (fun q => (mkModes (m_help a) (m_version a) (m_list a) (Some q) (m_undoc a) (m_debug a), b))))
  | ItX arg => Some (ChMode (fun a b => opt (undocumented_options a b arg)))
  | ItHelp | ItV | ItError => None
  end.
Lemma change_ok : forall i c, change_of i = Some c -> concerns i = Some (what c) /\
  forall g active, do_item g active i = match change_do c g active with Some (g', active') => Ok (g', active', false) | None => Err end.
Proof.
  intros i c H. destruct i; cbn [change_of] in H; try discriminate; injection H as <-; (split; [reflexivity|]); intros g active; cbn [do_item change_do omap opt]; cbv zeta; try reflexivity.
  - pose proof (align_no (g_align g) arg). destruct (alignment (g_align g) arg); cbn; try contradiction; reflexivity.
  - pose proof (cld_no (g_src g) arg). destruct (command_line_design (g_src g) arg); cbn; try contradiction; reflexivity.
  - pose proof (eol_no (o_eol (g_out g)) arg). destruct (eol_override (o_eol (g_out g)) arg); cbn; try contradiction; reflexivity.
  - pose proof (ind_no arg). destruct (indentation_mode arg); cbn; try contradiction; reflexivity.
  - pose proof (kill_no (r_kill (g_rem g)) arg). destruct (killblank (r_kill (g_rem g)) arg); cbn; try contradiction; reflexivity.
  - pose proof (pad_no (g_pad g) arg). destruct (padding (g_pad g) arg); cbn; try contradiction; reflexivity.
  - destruct (parse_query arg); reflexivity.
  - pose proof (size_no (g_size g) arg). destruct (size_of_box (g_size g) arg); cbn; try contradiction; reflexivity.
  - pose proof (tab_no (g_tab g) arg). destruct (tab_handling (g_tab g) arg); cbn; try contradiction; reflexivity.
  - pose proof (und_no (g_mode g) active arg). destruct (undocumented_options (g_mode g) active arg) as [[m b]| | | |]; cbn; try contradiction; reflexivity.
Qed.
Lemma changes_commute : forall c d g active, what c <> what d ->
  match change_do c g active with Some (g', a') => change_do d g' a' | None => None end =
  match change_do d g active with Some (g', a') => match change_do c g' a' with Some x => Some x | None => None end | None => None end.
Proof.
  intros c d g active H. destruct g as [ga gp gs gt gr gsr go gm]. destruct c as [fc|fc|fc|fc|fc|fc|fc|fc], d as [fd|fd|fd|fd|fd|fd|fd|fd]; cbn [what] in H; try congruence; cbn [change_do];
  unfold with_align, with_pad, with_size, with_tab, with_rem, with_src, with_out, with_mode; cbn [g_align g_pad g_size g_tab g_rem g_src g_out g_mode];
  repeat (match goal with
          | |- context[fc ?x ?y] => let E := fresh "E" in destruct (fc x y) as [[? ?]|] eqn:E
          | |- context[fd ?x ?y] => let E := fresh "E" in destruct (fd x y) as [[? ?]|] eqn:E
          | |- context[fc ?x] => let E := fresh "E" in destruct (fc x) eqn:E
          | |- context[fd ?x] => let E := fresh "E" in destruct (fd x) eqn:E
          end; cbn [omap fst snd g_align g_pad g_size g_tab g_rem g_src g_out g_mode];
          repeat match goal with E : fc _ = _ |- _ => rewrite !E | E : fc _ _ = _ |- _ => rewrite !E | E : fd _ = _ |- _ => rewrite !E | E : fd _ _ = _ |- _ => rewrite !E end;
          cbn [omap fst snd g_align g_pad g_size g_tab g_rem g_src g_out g_mode]); reflexivity.
Qed.
Theorem C55_order : forall l1 a b l2 ca cb g active, concerns a = Some ca -> concerns b = Some cb -> ca <> cb ->
  do_items g active (l1 ++ a :: b :: l2) = do_items g active (l1 ++ b :: a :: l2).
Proof.
  induction l1 as [|i l1 IH]; intros a b l2 ca cb g active Ha Hb Hc; cbn [app do_items].
  - assert (A : exists c, change_of a = Some c) by (destruct a; cbn in *; try discriminate; eauto). destruct A as (c & Ec).
    assert (B : exists c, change_of b = Some c) by (destruct b; cbn in *; try discriminate; eauto). destruct B as (d & Ed).
    destruct (change_ok a c Ec) as [Wc Dc]. destruct (change_ok b d Ed) as [Wd Dd]. pose proof (changes_commute c d g active ltac:(congruence)) as K.
    rewrite Dc, Dd. destruct (change_do c g active) as [[g1 a1]|], (change_do d g active) as [[g2 a2]|]; cbn [bind] in *.
    + rewrite Dd, Dc. rewrite K. destruct (change_do c g2 a2) as [[? ?]|]; reflexivity.
    + rewrite Dd, K. reflexivity.
    + rewrite Dc. destruct (change_do c g2 a2) as [[? ?]|]; [discriminate|reflexivity].
    + reflexivity.
  - destruct (do_item g active i) as [[[g' a'] stop]| | | |]; cbn [bind]; try reflexivity. destruct stop; [reflexivity|]. eapply IH; eassumption.
Qed.
Print Assumptions C55_order.
(** mending retains blank lines, whatever is said about them before or after *)
Theorem C55_mend : forall can_read can_write items rest g fs, process_commandline can_read can_write false items rest = Ok (g, Some fs) -> In ItM items ->
  r_mend (g_rem g) = 2%Z /\ r_remove (g_rem g) = true /\ r_kill (g_rem g) = 0%Z.
Proof.
  intros cr cw items rest g fs H Hm. pose proof (C55_in_range _ _ _ _ _ _ _ H) as IR. unfold process_commandline in H.
  destruct (do_items create_new_opt false items) as [[g' stop]| | | |] eqn:E; cbn [bind] in H; try discriminate. destruct stop; [discriminate|].
  assert (g' = g) by (destruct (input_output_files cr cw rest); cbn [bind] in H; try discriminate; injection H as -> _; reflexivity). subst g'. clear H.
  destruct (ir_mend g IR) as [M|M]; [|exact M]. exfalso.
  assert (K : forall items g0 a0, (In ItM items \/ r_mend (g_rem g0) = 2%Z) -> do_items g0 a0 items = Ok (g, false) -> r_mend (g_rem g) = 2%Z).
  { clear. induction items as [|i r IH]; intros g0 a0 Hi H; cbn [do_items] in H; [injection H as <-; destruct Hi as [[]|Hi]; exact Hi|].
    destruct (do_item g0 a0 i) as [[[g1 a1] stop]| | | |] eqn:E; cbn [bind] in H; try discriminate. destruct stop; [discriminate|]. apply (IH g1 a1); [|exact H].
    destruct Hi as [[->|Hi]|Hi]; [right|left; exact Hi|right].
    - injection E as <- _. reflexivity.
    - destruct (change_of i) as [c|] eqn:Ec.
      + destruct (change_ok i c Ec) as [_ D]. rewrite D in E. destruct c; cbn [change_do] in E;
        try (match goal with K : context[omap ?x] |- _ => destruct x; cbn [omap] in K; [injection K as <- _|discriminate]; exact Hi end).
        destruct i; cbn [change_of] in Ec; try discriminate; injection Ec as <-; cbn [omap] in E; try (injection E as <- _; cbn; exact Hi || reflexivity).
        * destruct (indentation_mode arg); cbn in E; try discriminate; injection E as <- _; exact Hi.
        * destruct (killblank (r_kill (g_rem g0)) arg); cbn in E; try discriminate; injection E as <- _; exact Hi.
      + destruct i; cbn [change_of] in Ec; try discriminate; cbn in E; try discriminate; injection E as <- _; exact Hi. }
  specialize (K items create_new_opt false (or_introl Hm) E). lia.
Qed.
Print Assumptions C55_mend.
Example C55_example : exists g, process_commandline (fun _ => true) (fun _ => true) false
    [ItA (bytes "hcvc"%string); ItP (bytes "a1"%string); ItS (bytes "30x"%string); ItM; ItK (bytes "maybe"%string); ItT (bytes "4k"%string); ItE (bytes "crlf"%string); ItQ (bytes "c,-java"%string)] [bytes "-"%string; bytes "out"%string] =
    Ok (g, Some (Files None (Some (bytes "out"%string)))) /\ a_h (g_align g) = 99 /\ s_w (g_size g) = 30%Z /\ t_exp (g_tab g) = 107 /\ r_mend (g_rem g) = 2%Z /\ o_eol (g_out g) = [13; 10] /\
    process_commandline (fun _ => true) (fun _ => true) false [ItK (bytes "maybe"%string)] [] = Err.
Proof. eexists. vm_compute. auto 10. Qed.
(** the argument of a second -k is not looked at *)
Theorem C48_second_refuted : exists a b g fs, ~ word yes_words b /\ ~ word no_words b /\ process_commandline (fun _ => true) (fun _ => true) false [ItK a; ItK b] [] = Ok (g, fs).
Proof.
  exists (bytes "yes"%string), (bytes "maybe"%string). eexists. eexists. split; [|split; [|vm_compute; reflexivity]].
  - intros H. apply C48_yes in H. vm_compute in H. discriminate.
  - intros H. apply C48_no in H. vm_compute in H. discriminate.
Qed.
Print Assumptions C48_second_refuted.

(** the options that drawing gets from an accepted command line are the ones the theorems about drawing ask for *)
From Verif Require Import Model_Main Spec_Str Spec_Design Spec_Input Proof_Input Demo Prop_Box Prop_Input Prop_Subst Prop_Whole.
Theorem C55_draw : forall can_read can_write items rest g fs U d rules raws color fuel,
  process_commandline can_read can_write false items rest = Ok (g, Some fs) -> t_exp (g_tab g) = 101 -> a_j (g_align g) = 0 ->
  uctab_ok U -> wf_design U d -> raws <> [] -> Forall (raw_ok U (Z.to_nat (t_stop (g_tab g)))) raws -> Forall (rule_ok U) rules ->
  boxes_draw U fuel color (o_eol (g_out g)) (opts_of g) d rules raws = Fuel \/ exists out, boxes_draw U fuel color (o_eol (g_out g)) (opts_of g) d rules raws = Ok out.
Proof.
  intros cr cw items rest g fs U d rules raws color fuel H He Hj HU HD Hne HR HRu. pose proof (C55_in_range _ _ _ _ _ _ _ H) as IR. pose proof (ir_tab g IR).
  apply C51_never_fails_rules; auto. cbn [o_tabstop opts_of]. lia.
Qed.
Print Assumptions C55_draw.
Example C55_draw_example : exists g fs out, process_commandline (fun _ => true) (fun _ => true) false [ItP (bytes "h2"%string); ItS (bytes "24"%string); ItE (bytes "cr"%string)] [] = Ok (g, Some fs) /\
  t_exp (g_tab g) = 101 /\ a_j (g_align g) = 0 /\ Forall (raw_ok demo_tab (Z.to_nat (t_stop (g_tab g)))) demo_raws /\
  boxes_draw demo_tab 100 true (o_eol (g_out g)) (opts_of g) demo_rich [] demo_raws = Ok out /\ (20 < List.length out)%nat.
Proof.
  eexists. eexists. eexists. split; [vm_compute; reflexivity|]. split; [reflexivity|]. split; [reflexivity|]. split; [exact (proj1 C51_example)|]. split; [vm_compute; reflexivity|]. cbn. lia.
Qed.
