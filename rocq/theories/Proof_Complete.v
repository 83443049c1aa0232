(** * Completion of partially specified designs *)
From Coq Require Import Ascii String List Arith NArith ZArith Bool Lia.
From Verif Require Import Base BaseFacts Model_Unicode Model_Bxs Model_Shape Spec_Str Spec_Design Proof_Bxs Proof_BxsMore Model_Query Model_Discovery Model_Parser
  Spec_Parser Proof_Parser.
Import ListNotations.
Local Open Scope nat_scope.
Local Open Scope list_scope.

Section Complete.
Variable U : uctab.
Hypothesis HU : uctab_ok U.
Variable out_of_array : sentry.
Hypothesis Hout : isempty out_of_array = true.
Let beyond : res sentry := Ok out_of_array.

Lemma genshape_ok : forall w h, 0 < w -> 0 < h -> (N.of_nat w <= 16382)%N -> exists cs ms, genshape U w h = Ok (cs, ms).
Proof.
  intros w h Hw Hh Hn. unfold genshape. destruct (Nat.eqb_spec w 0); [lia|]. destruct (Nat.eqb_spec h 0); [lia|]. cbn [orb].
  destruct (N.ltb_spec LINE_MAX_BYTES (N.of_nat w)) as [F|_]; [unfold LINE_MAX_BYTES in F; lia|].
  unfold bxs_from_ascii. assert (E : forallb (is_allowed_anywhere U) (repeat 32%N w) = true).
  { apply forallb_forall. intros c Hc. apply repeat_spec in Hc. subst c. apply (allowed_32 U HU). }
  rewrite E. cbn [negb must bind]. eauto.
Qed.

Lemma findshape_ok : forall sh k start i, exists n, findshape beyond sh start i k = Ok n /\ i <= n <= i + k /\
  (forall j, i <= j < n -> isempty (if start + j <? 16 then sh (start + j) else out_of_array) = true) /\
  (n < i + k -> start + n < 16 /\ isempty (sh (start + n)) = false).
Proof.
  intros sh k start. induction k as [|k IH]; intros i; cbn [findshape].
  - exists i. split; [reflexivity|]. split; [lia|]. split; intros; lia.
  - unfold shape_at. destruct (Nat.ltb_spec (start + i) 16) as [L|L]; cbn [bind beyond].
    + destruct (isempty (sh (start + i))) eqn:E.
      * destruct (IH (S i)) as (n & A & B & C & D). exists n. split; [exact A|]. split; [lia|]. split; [|intros; apply D; lia].
        intros j Hj. destruct (Nat.eq_dec j i) as [->|]; [|apply C; lia]. destruct (Nat.ltb_spec (start + i) 16); [exact E|lia].
      * exists i. split; [reflexivity|]. split; [lia|]. split; [intros; lia|]. auto.
    + rewrite Hout. destruct (IH (S i)) as (n & A & B & C & D). exists n. split; [exact A|]. split; [lia|]. split; [|intros; apply D; lia].
      intros j Hj. destruct (Nat.eq_dec j i) as [->|]; [|apply C; lia]. destruct (Nat.ltb_spec (start + i) 16); [lia|exact Hout].
Qed.

Definition next_side (s : bside) : bside := match s with BTOP => BRIG | BRIG => BBOT | BBOT => BLEF | BLEF => BTOP end.
Definition along (s : bside) : sentry -> nat := match s with BTOP | BBOT => s_width | _ => s_height end.
Lemma corner_sides : forall s t, In (corner_of s) (side_of t) -> t = s \/ t = next_side s.
Proof. intros s t. destruct s, t; cbn; intros H; auto; exfalso; repeat (destruct H as [H|H]; [discriminate H|]); exact H. Qed.
Lemma across_next : forall s, across (next_side s) = along s.
Proof. intros []; reflexivity. Qed.

(** adding a shape that agrees with its sides *)
Lemma agree_upd : forall sh c s, sizes_agree sh ->
  (forall t i, In c (side_of t) -> In i (side_of t) -> i <> c -> isempty (sh i) = false -> across t (sh i) = across t s) -> sizes_agree (upd sh c s).
Proof.
  intros sh c s A H t i j Hi Hj. unfold upd. destruct (Nat.eqb_spec i c) as [->|Ni], (Nat.eqb_spec j c) as [->|Nj]; intros Ei Ej; [reflexivity| | |].
  - symmetry. apply (H t j Hi Hj Nj Ej).
  - apply (H t i Hj Hi Ni Ei).
  - apply (A t i j); assumption.
Qed.

Lemma corner_step : forall sh side f, sizes_agree sh -> (forall i, narrow (sh i)) -> In f (side_of side) -> isempty (sh f) = false ->
  (side = BBOT -> left_known sh) -> forall r, exists sh', make_corners U beyond sh f (side :: r) = make_corners U beyond sh' (corner_of side) r /\
    sizes_agree sh' /\ (forall i, narrow (sh' i)) /\ isempty (sh' (corner_of side)) = false /\ (forall i, i <> corner_of side -> sh' i = sh i) /\
    (isempty (sh (corner_of side)) = false -> sh' = sh).
Proof.
  intros sh side f A Nw Hf Ef HB r. cbn [make_corners]. set (c := corner_of side) in *.
  destruct (isempty (sh c)) eqn:Ec; [|exists sh; split; [reflexivity|]; split; [exact A|]; split; [exact Nw|]; split; [exact Ec|]; split; auto].
  destruct (findshape_ok sh 5 c 0) as (n & En & Bn & Cn & Dn). rewrite En. cbn [bind].
  assert (Dims : exists len, (if n =? 5 then Ok None else s <- shape_at beyond sh (c + n);; Ok (Some s)) = Ok (if n =? 5 then None else Some (sh (c + n))) /\
      len = (if n =? 5 then 1 else along side (sh (c + n))) /\ 0 < len /\ (N.of_nat len <= 16382 \/ vertical_side side = true)%N /\
      (forall i, In i (side_of (next_side side)) -> i <> c -> isempty (sh i) = false -> across (next_side side) (sh i) = len)).
  { destruct (Nat.eqb_spec n 5) as [->|Hn].
    - exists 1. split; [reflexivity|]. split; [reflexivity|]. split; [lia|]. split; [left; lia|]. intros i Hi Ni Ei.
      assert (X : forall j, j < 5 -> isempty (if c + j <? 16 then sh (c + j) else out_of_array) = true) by (intros j Hj; apply Cn; lia).
      destruct side; cbn [next_side side_of] in Hi.
      + exfalso. assert (Y : forall k, k < 5 -> c + k = i -> isempty (sh i) = true).
        { intros k Hk <-. specialize (X k Hk). destruct (Nat.ltb_spec (c + k) 16) as [_|L]; [exact X|]. subst c. cbv in L. lia. }
        destruct Hi as [Hi|[Hi|[Hi|[Hi|[Hi|[]]]]]]; [elim Ni; symmetry; exact Hi|rewrite (Y 1) in Ei|rewrite (Y 2) in Ei|rewrite (Y 3) in Ei|rewrite (Y 4) in Ei];
          try discriminate Ei; try lia; try exact Hi.
      + exfalso. assert (Y : forall k, k < 5 -> c + k = i -> isempty (sh i) = true).
        { intros k Hk <-. specialize (X k Hk). destruct (Nat.ltb_spec (c + k) 16) as [_|L]; [exact X|]. subst c. cbv in L. lia. }
        destruct Hi as [Hi|[Hi|[Hi|[Hi|[Hi|[]]]]]]; [elim Ni; symmetry; exact Hi|rewrite (Y 1) in Ei|rewrite (Y 2) in Ei|rewrite (Y 3) in Ei|rewrite (Y 4) in Ei];
          try discriminate Ei; try lia; try exact Hi.
      + assert (E13 : isempty (sh 13) = true) by exact (X 1 ltac:(lia)). assert (E14 : isempty (sh 14) = true) by exact (X 2 ltac:(lia)).
        assert (E15 : isempty (sh 15) = true) by exact (X 3 ltac:(lia)).
        destruct Hi as [Hi|[<-|[<-|[<-|[<-|[]]]]]]; [elim Ni; symmetry; exact Hi| | | |].
        { unfold WSW in Ei. congruence. } { unfold W_ in Ei. congruence. } { unfold WNW in Ei. congruence. }
        destruct (HB eq_refl) as [H|[(j & Hj & H)|[H|H]]].
        * change SW with c in H. congruence.
        * exfalso. clear -Hj H E13 E14 E15. destruct Hj as [<-|[<-|[<-|[]]]]; [unfold WSW in H|unfold W_ in H|unfold WNW in H]; congruence.
        * congruence.
        * cbn [next_side across]. exact H.
      + exfalso. assert (Y : forall k, k < 5 -> c + k = i -> isempty (sh i) = true).
        { intros k Hk <-. specialize (X k Hk). destruct (Nat.ltb_spec (c + k) 16) as [_|L]; [exact X|]. subst c. cbv in L. lia. }
        destruct Hi as [Hi|[Hi|[Hi|[Hi|[Hi|[]]]]]]; [elim Ni; symmetry; exact Hi|rewrite (Y 1) in Ei|rewrite (Y 2) in Ei|rewrite (Y 3) in Ei|rewrite (Y 4) in Ei];
          try discriminate Ei; try lia; try exact Hi.
    - destruct (Dn ltac:(lia)) as [L E]. unfold shape_at. destruct (Nat.ltb_spec (c + n) 16); [|lia]. cbn [bind].
      exists (along side (sh (c + n))). split; [reflexivity|]. split; [reflexivity|]. destruct (nonempty_dims _ E) as [E1 E2].
      split; [destruct side; assumption|]. split; [destruct side; cbn; auto; left; apply Nw|].
      intros i Hi Ni Ei. rewrite <- across_next. apply (A (next_side side)); [exact Hi| |exact Ei|exact E].
      clear -Bn Hn L. subst c. assert (Hs : In n [0; 1; 2; 3; 4]) by (cbn; lia). destruct side; cbn in *; intuition (subst; cbn in *; auto; lia). }
  destruct Dims as (len & Es & El & Pl & Nl & Al). rewrite Es. cbn [bind].
  destruct (nonempty_dims _ Ef) as [F1 F2].
  set (s := fun cs ms => mkSentry cs ms (if vertical_side side then len else s_height (sh f)) (if vertical_side side then s_width (sh f) else len) false).
  assert (Ez : corner_size sh side f (if n =? 5 then None else Some (sh (c + n))) =
    (if vertical_side side then s_width (sh f) else len, if vertical_side side then len else s_height (sh f))).
  { unfold corner_size. rewrite El. destruct side; cbn [vertical_side along]; destruct (n =? 5); reflexivity. }
  rewrite Ez.
  destruct (genshape_ok (if vertical_side side then s_width (sh f) else len) (if vertical_side side then len else s_height (sh f))) as (cs & ms & Eg).
  { destruct (vertical_side side); assumption. } { destruct (vertical_side side); assumption. }
  { destruct (vertical_side side) eqn:Ev; [apply Nw|]. destruct Nl as [Nl|Nl]; [exact Nl|congruence]. }
  rewrite Eg. eexists. split; [reflexivity|]. destruct (genshape_blank U HU _ _ _ _ false Eg) as [_ S]. split; [|split; [|split; [|split]]].
  - apply agree_upd; [exact A|]. intros t i Ht Hi Ni Ei. destruct (corner_sides side t Ht) as [->| ->].
    + rewrite (A side i f Hi Hf Ei Ef). destruct side; reflexivity.
    + rewrite (Al i Hi Ni Ei). destruct side; reflexivity.
  - intros i. unfold upd. destruct (i =? c); [|apply Nw]. unfold narrow. cbn [s_width]. destruct (vertical_side side) eqn:Ev; [apply Nw|].
    destruct Nl as [Nl|Nl]; [exact Nl|congruence].
  - rewrite upd_eq. apply S.
  - intros i Hi. apply upd_neq. exact Hi.
  - congruence.
Qed.

Lemma corners_all : forall sh f side, sizes_agree sh -> (forall i, narrow (sh i)) -> on_side f = Some side -> isempty (sh f) = false -> left_known sh ->
  exists sh', make_corners U beyond sh f (sides_from side) = Ok (RC_SUCCESS sh') /\ sizes_agree sh' /\ (forall i, narrow (sh' i)) /\
    forall c, In c corners -> isempty (sh' c) = false.
Proof.
  intros sh f side A Nw Ho Ef LK.
  assert (Hf : In f (side_of side)).
  { unfold on_side in Ho. apply find_some in Ho as [_ Ho]. apply existsb_exists in Ho as (x & Hx & E). apply Nat.eqb_eq in E. subst x. exact Hx. }
  assert (Hl : side = BLEF -> exists i, In i [WSW; W_; WNW] /\ isempty (sh i) = false).
  { intros ->. exists f. split; [|exact Ef]. cbn in Hf. destruct Hf as [<-|[<-|[<-|[<-|[<-|[]]]]]]; cbn; auto; discriminate Ho. }
  assert (Hc : forall s s', next_side s = s' -> In (corner_of s) (side_of s')) by (intros [] s' <-; cbn; auto).
  assert (LKs : forall a b, (forall i, In i [SW; WSW; W_; WNW; NW] -> b i = a i) -> left_known a -> left_known b).
  { intros a b E K. unfold left_known in *. rewrite !E by (cbn; auto 10). destruct K as [K|[(i & Hi & K)|K]]; [auto| |auto].
    right. left. exists i. split; [exact Hi|]. rewrite E; [exact K|]. cbn in *. tauto. }
  assert (Chain : forall s1 s2 s3 s4, next_side s1 = s2 -> next_side s2 = s3 -> next_side s3 = s4 -> In f (side_of s1) ->
    (exists i, In i [WSW; W_; WNW] /\ isempty (sh i) = false) \/ s1 <> BLEF ->
    exists sh', make_corners U beyond sh f [s1; s2; s3; s4] = Ok (RC_SUCCESS sh') /\ sizes_agree sh' /\ (forall i, narrow (sh' i)) /\
      forall c, In c corners -> isempty (sh' c) = false).
  { intros s1 s2 s3 s4 N1 N2 N3 Hf1 HL.
    assert (Safe : forall x y, (forall i, In i [WSW; W_; WNW] -> y i = x i) -> (exists i, In i [WSW; W_; WNW] /\ isempty (x i) = false) -> left_known y).
    { intros x y E (i & Hi & K). right. left. exists i. split; [exact Hi|]. rewrite E; [exact K|exact Hi]. }
    destruct (corner_step sh s1 f A Nw Hf1 Ef (fun _ => LK) [s2; s3; s4]) as (h1 & E1 & A1 & W1 & C1 & K1 & _).
    assert (K2ok : s2 = BBOT -> left_known h1).
    { intros Es. apply (LKs sh); [|exact LK]. intros i Hi. apply K1. assert (s1 = BRIG) as -> by (destruct s1; cbn in N1; congruence). cbn in *. intuition (subst; discriminate). }
    destruct (corner_step h1 s2 (corner_of s1) A1 W1 (Hc _ _ N1) C1 K2ok [s3; s4]) as (h2 & E2 & A2 & W2 & C2 & K2 & _).
    assert (K3ok : s3 = BBOT -> left_known h2).
    { intros Es. assert (s2 = BRIG) as -> by (destruct s2; cbn in N2; congruence). assert (s1 = BTOP) as -> by (destruct s1; cbn in N1; congruence).
      apply (LKs sh); [|exact LK]. intros i Hi. rewrite K2, K1; [reflexivity|..]; cbn in *; intuition (subst; discriminate). }
    destruct (corner_step h2 s3 (corner_of s2) A2 W2 (Hc _ _ N2) C2 K3ok [s4]) as (h3 & E3 & A3 & W3 & C3 & K3 & _).
    assert (K4ok : s4 = BBOT -> left_known h3).
    { intros Es. assert (s3 = BRIG) as -> by (destruct s3; cbn in N3; congruence). assert (s2 = BTOP) as -> by (destruct s2; cbn in N2; congruence).
      assert (s1 = BLEF) as -> by (destruct s1; cbn in N1; congruence). destruct HL as [HL|HL]; [|congruence].
      apply (Safe sh); [|exact HL]. intros i Hi. rewrite K3, K2, K1; [reflexivity|..]; cbn in *; intuition (subst; discriminate). }
    destruct (corner_step h3 s4 (corner_of s3) A3 W3 (Hc _ _ N3) C3 K4ok []) as (h4 & E4 & A4 & W4 & C4 & K4 & _).
    exists h4. rewrite E1, E2, E3, E4. split; [reflexivity|]. split; [exact A4|]. split; [exact W4|].
    assert (Keep : forall a b s x, (forall i, i <> corner_of s -> b i = a i) -> isempty (b (corner_of s)) = false -> isempty (a x) = false -> isempty (b x) = false).
    { intros a b s x K Cb E. destruct (Nat.eq_dec x (corner_of s)) as [->|]; [exact Cb|]. rewrite K by assumption. exact E. }
    assert (All : forall s, s = s1 \/ s = s2 \/ s = s3 \/ s = s4 -> isempty (h4 (corner_of s)) = false).
    { intros s [->|[->|[->| ->]]].
      - apply (Keep h3 h4 s4); [exact K4|exact C4|]. apply (Keep h2 h3 s3); [exact K3|exact C3|]. apply (Keep h1 h2 s2); assumption.
      - apply (Keep h3 h4 s4); [exact K4|exact C4|]. apply (Keep h2 h3 s3); assumption.
      - apply (Keep h3 h4 s4); assumption.
      - exact C4. }
    intros c Hcn. assert (X : exists s, c = corner_of s) by (cbn in Hcn; destruct Hcn as [<-|[<-|[<-|[<-|[]]]]]; [exists BLEF|exists BTOP|exists BRIG|exists BBOT]; reflexivity).
    destruct X as (s & ->). apply All. clear -N1 N2 N3. destruct s, s1; cbn in *; subst; auto. }
  destruct side; cbn [sides_from]; apply Chain; try reflexivity; try exact Hf; try (right; discriminate). left. apply Hl. reflexivity.
Qed.

Lemma middles_all : forall l sh, sizes_agree sh -> (forall i, narrow (sh i)) -> (forall c, In c corners -> isempty (sh c) = false) ->
  exists sh', make_middles U sh l = Ok (RC_SUCCESS sh') /\ sizes_agree sh'.
Proof.
  induction l as [|side l IH]; intros sh A Nw C; cbn [make_middles]; [exists sh; auto|].
  destruct (forallb (fun i => isempty (sh i)) (middle side)) eqn:Em; [|apply IH; assumption].
  set (c0 := nth 0 (side_of side) 0). set (c := nth 2 (side_of side) 0).
  assert (E0 : isempty (sh c0) = false) by (apply C; destruct side; cbn; auto). destruct (nonempty_dims _ E0) as [P1 P2].
  assert (Ez : exists w h, (if vertical_side side then (s_width (sh c0), 1) else (1, s_height (sh c0))) = (w, h) /\ 0 < w /\ 0 < h /\ (N.of_nat w <= 16382)%N /\
    forall cs ms e, across side (mkSentry cs ms h w e) = across side (sh c0)).
  { destruct side; cbn [vertical_side across s_width s_height]; eexists _, _; (split; [reflexivity|]); repeat split; try lia; try apply Nw. }
  destruct Ez as (w & h & -> & Pw & Ph & Pn & Ea). destruct (genshape_ok w h Pw Ph Pn) as (cs & ms & Eg). rewrite Eg.
  apply IH.
  - apply agree_upd; [exact A|]. intros t i Ht Hi Ni Ei.
    assert (t = side) as -> by (clear -Ht; subst c; destruct side, t; cbn in *; auto; exfalso; repeat (destruct Ht as [Ht|Ht]; [discriminate Ht|]); exact Ht).
    rewrite Ea. apply (A side); try assumption. destruct side; cbn; auto.
  - intros i. unfold upd. destruct (i =? c); [exact Pn|apply Nw].
  - intros x Hx. unfold upd. destruct (Nat.eqb_spec x c) as [->|]; [|apply C; exact Hx]. exfalso. subst c. clear -Hx. destruct side; cbn in Hx;
      repeat (destruct Hx as [Hx|Hx]; [discriminate Hx|]); exact Hx.
Qed.

Lemma agree_check : forall sh, (forall i, entry_ok U (sh i)) -> sizes_agree sh -> check_sizes sh = true.
Proof.
  intros sh E A. unfold check_sizes.
  assert (X : forall s dim, across s = dim -> (forall i, dim (sh i) = 0 <-> isempty (sh i) = true) -> equal_nonzero dim sh (side_of s) = true).
  { intros s dim Ed Hz. unfold equal_nonzero. apply forallb_forall. intros i Hi. destruct (dim (sh i) =? 0) eqn:Ei; [reflexivity|]. cbn [orb].
    apply forallb_forall. intros j Hj. destruct (dim (sh j) =? 0) eqn:Ej; [reflexivity|]. cbn [orb]. apply Nat.eqb_eq. rewrite <- Ed. apply (A s i j Hi Hj).
    - apply Nat.eqb_neq in Ei. destruct (isempty (sh i)) eqn:F; [|reflexivity]. elim Ei. apply Hz. exact F.
    - apply Nat.eqb_neq in Ej. destruct (isempty (sh j)) eqn:F; [|reflexivity]. elim Ej. apply Hz. exact F. }
  pose proof (X BTOP s_height eq_refl (fun i => proj1 (entry_height U _ (E i)))) as X1. pose proof (X BRIG s_width eq_refl (fun i => proj2 (entry_height U _ (E i)))) as X2.
  pose proof (X BBOT s_height eq_refl (fun i => proj1 (entry_height U _ (E i)))) as X3. pose proof (X BLEF s_width eq_refl (fun i => proj2 (entry_height U _ (E i)))) as X4.
  cbn [side_of] in *. rewrite X1, X2, X3, X4. reflexivity.
Qed.

Theorem complete_fits : forall sh, (forall i, entry_ok U (sh i)) -> sizes_agree sh -> (forall i, narrow (sh i)) ->
  (exists i, i < 16 /\ isempty (sh i) = false) -> left_known sh ->
  exists sh', complete_shapes U beyond sh = Ok (RC_SUCCESS sh') /\ sizes_agree sh' /\ check_sizes sh' = true.
Proof.
  intros sh E A Nw (i & Hi & Ei) LK. unfold complete_shapes. destruct (findshape_ok sh 16 0 0) as (f & Ef & Bf & Cf & Df). rewrite Ef. cbn [bind].
  destruct (Nat.eqb_spec f 16) as [->|Hf].
  - specialize (Cf i ltac:(lia)). cbn [Nat.add] in Cf. destruct (Nat.ltb_spec i 16); [congruence|lia].
  - destruct (Df ltac:(lia)) as [_ Ff]. cbn [Nat.add] in Ff.
    destruct (on_side f) as [side|] eqn:Eo.
    + destruct (corners_all sh f side A Nw Eo Ff LK) as (sh1 & E1 & A1 & W1 & C1). rewrite E1. unfold then_. cbn [bind].
      destruct (middles_all all_sides sh1 A1 W1 C1) as (sh2 & E2 & A2). exists sh2. split; [exact E2|]. split; [exact A2|]. apply agree_check; [|exact A2].
      assert (Ec : complete_shapes U beyond sh = Ok (RC_SUCCESS sh2)).
      { unfold complete_shapes. rewrite Ef. cbn [bind]. destruct (Nat.eqb_spec f 16); [contradiction|]. rewrite Eo, E1. unfold then_. cbn [bind]. exact E2. }
      destruct (complete_ok U HU beyond sh _ Ec) as [F|(x & F & K & _)]; [discriminate F|]. injection F as <-. eapply completes_entry; eassumption.
    + exfalso. clear -Eo Bf Hf. assert (L : f < 16) by lia. do 16 (destruct f as [|f]; [discriminate Eo|]). lia.
Qed.
End Complete.
