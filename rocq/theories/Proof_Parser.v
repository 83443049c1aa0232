(** * Lemmas about the configuration parser: shapes *)
From Coq Require Import Ascii String List Arith NArith ZArith Bool Lia.
From Verif Require Import Base BaseFacts Model_Unicode Model_Bxs Model_Shape Spec_Str Proof_Str Proof_Bxs Proof_BxsOps Proof_BxsMore
  Proof_Shows Spec_Design Model_Query Model_Discovery Model_Parser Spec_Parser.
Import ListNotations.
Local Open Scope nat_scope.
Local Open Scope list_scope.

Lemma then_ok : forall A B (r : res (rc A)) (k : A -> res (rc B)) b, then_ r k = Ok (RC_SUCCESS b) ->
  exists a, (r = Ok (RC_SUCCESS a) \/ r = Ok (RC_ACCEPT a)) /\ k a = Ok (RC_SUCCESS b).
Proof.
  intros A B r k b H. unfold then_ in H. destruct r as [x| | | |]; cbn [bind] in H; try discriminate H.
  destruct x as [a| | |a]; try discriminate H; exists a; auto.
Qed.

Lemma upd_eq : forall sh i s, upd sh i s i = s.
Proof. intros. unfold upd. rewrite Nat.eqb_refl. reflexivity. Qed.
Lemma upd_neq : forall sh i s j, j <> i -> upd sh i s j = sh j.
Proof. intros sh i s j H. unfold upd. destruct (Nat.eqb_spec j i); [contradiction|reflexivity]. Qed.

Section Shapes.
Variable U : uctab.
Hypothesis HU : uctab_ok U.

(** an entry of the array: nothing, or a shape in order *)
Definition hollow (s : sentry) : Prop := s_chars s = [] /\ s_mbcs s = [] /\ s_height s = 0 /\ s_width s = 0.
Definition solid (s : sentry) : Prop :=
  isempty s = false /\ shape_ok U s /\ Forall (fun l => List.length l = s_width s) (s_chars s).
Definition entry_ok (s : sentry) : Prop := hollow s \/ solid s.

Lemma hollow_empty : forall s, hollow s -> isempty s = true.
Proof. intros s (E & _). unfold isempty. rewrite E. reflexivity. Qed.
Lemma entry_empty : forall s, entry_ok s -> isempty s = true -> hollow s.
Proof. intros s [H|[H _]] E; [exact H|congruence]. Qed.
Lemma entry_solid : forall s, entry_ok s -> isempty s = false -> solid s.
Proof. intros s [H|H] E; [|exact H]. rewrite (hollow_empty _ H) in E. discriminate E. Qed.
Lemma hollow0 : hollow sentry0.
Proof. repeat split. Qed.
Lemma nonempty_dims : forall s, isempty s = false -> 0 < s_width s /\ 0 < s_height s.
Proof.
  intros s H. unfold isempty in H. apply orb_false_elim in H as [H H2]. apply orb_false_elim in H as [_ H1].
  apply Nat.eqb_neq in H1. apply Nat.eqb_neq in H2. lia.
Qed.
Lemma entry_height : forall s, entry_ok s -> (s_height s = 0 <-> isempty s = true) /\ (s_width s = 0 <-> isempty s = true).
Proof.
  intros s [H|(H & _)].
  - pose proof (hollow_empty _ H). destruct H as (_ & _ & H1 & H2). tauto.
  - pose proof (nonempty_dims _ H). rewrite H. split; split; intros; try discriminate; lia.
Qed.

Lemma tidy_tok : forall s, tidy_text U s -> exists b w, string_tok U s = Ok (Some b) /\ shows U w (memory b) /\
  num_columns b = w /\ List.length (ascii b) = w /\ num_chars b = List.length (memory b).
Proof.
  intros s [w H]. destruct (shows_from U HU w s H) as (b & E & Em & Ew & En). exists b, w.
  unfold string_tok, utf8_to_bxs. rewrite E. split; [reflexivity|]. rewrite Em. split; [exact H|]. split; [exact Ew|]. split; [|exact En].
  apply (shows_closed U HU) in H as (ts & Hc & <- & Hw). destruct Hc as ((Hc & _) & _).
  destruct (columns_all U ts b (proj1 Hc) E) as [_ Ha]. congruence.
Qed.

(** lines so far *)
Definition growing (s : sentry) : Prop :=
  shape_ok U s /\ Forall (fun l => List.length l = s_width s) (s_chars s) /\ s_chars s <> [] /\ s_mbcs s <> [] /\ s_elastic s = false.

Lemma first_line_ok : forall s b r, tidy_text U s -> string_tok U s = Ok b -> action_first_shape_line U b = Ok r ->
  r = RC_ERROR \/ exists x, r = RC_SUCCESS x /\ growing x.
Proof.
  intros s b r Ht E H. destruct (tidy_tok s Ht) as (b' & w & E' & Hs & Hw & Ha & Hn). rewrite E in E'. injection E' as ->.
  cbn [action_first_shape_line] in H. destruct (valid_in_shape U b'); injection H as <-; [right|left; reflexivity].
  eexists. split; [reflexivity|]. split; [|split; [|split; [|split]]]; cbn [s_chars s_mbcs s_width s_elastic]; try discriminate; try reflexivity.
  - constructor; cbn [s_mbcs s_chars s_height s_width List.length]; try reflexivity. repeat constructor; [rewrite Hw; exact Hs|exact Hn].
  - repeat constructor. congruence.
Qed.
Lemma add_line_ok : forall x s b r, growing x -> tidy_text U s -> string_tok U s = Ok b -> action_add_shape_line U x b = Ok r ->
  r = RC_ERROR \/ exists y, r = RC_SUCCESS y /\ growing y.
Proof.
  intros x s b r Hx Ht E H. destruct (tidy_tok s Ht) as (b' & w & E' & Hs & Hw & Ha & Hn). rewrite E in E'. injection E' as ->.
  cbn [action_add_shape_line] in H. destruct (Nat.eqb_spec (num_columns b') (s_width x)) as [Ew|]; cbn [negb] in H; [|injection H as <-; auto].
  destruct (negb (valid_in_shape U b')); injection H as <-; [left; reflexivity|right].
  eexists. split; [reflexivity|]. destruct Hx as ([H1 H2 H3] & Hc & N1 & N2 & He).
  split; [|split; [|split; [|split]]]; cbn [s_chars s_mbcs s_width s_elastic]; [| |intros F; apply app_eq_nil in F as [_ F]; discriminate F..|exact He].
  - constructor; cbn [s_mbcs s_chars s_height s_width].
    + rewrite app_length, H1. cbn. lia. + rewrite app_length, H2. cbn. lia.
    + apply Forall_app. split; [exact H3|]. repeat constructor; [|exact Hn]. rewrite <- Ew, Hw. exact Hs.
  - apply Forall_app. split; [exact Hc|]. repeat constructor. congruence.
Qed.
Lemma string_tok_tidy : forall s, tidy_text U s -> exists b, string_tok U s = Ok b.
Proof. intros s H. destruct (tidy_tok s H) as (b & w & E & _). eauto. Qed.
Lemma more_lines_ok : forall l x r, growing x -> Forall (tidy_text U) l -> shape_lines U x l = Ok r ->
  r = RC_ERROR \/ exists y, r = RC_SUCCESS y /\ growing y.
Proof.
  induction l as [|s l IH]; intros x r Hx Hl H; cbn [shape_lines] in H.
  - injection H as <-. right. exists x. auto.
  - inversion Hl; subst. destruct (string_tok_tidy s) as [b E]; [assumption|]. rewrite E in H. cbn [bind] in H.
    unfold then_ in H. destruct (action_add_shape_line U x b) as [y| | | |] eqn:Ea; cbn [bind] in H; try discriminate H.
    destruct (add_line_ok x s b y Hx ltac:(assumption) E Ea) as [->|(z & -> & Hz)].
    + injection H as <-. left. reflexivity.
    + eapply IH; eassumption.
Qed.
Lemma shape_def_ok : forall d r, tidy_shape U d -> parse_shape_def U d = Ok r ->
  r = RC_ERROR \/ exists s, r = RC_SUCCESS s /\ entry_ok s /\ s_elastic s = false.
Proof.
  intros [|f more] r Ht H; cbn [parse_shape_def] in H.
  - injection H as <-. right. exists sentry0. split; [reflexivity|]. split; [left; apply hollow0|reflexivity].
  - destruct Ht as [Hf Hm]. destruct (string_tok_tidy f Hf) as [b E]. rewrite E in H. cbn [bind] in H. unfold then_ at 1 in H.
    destruct (action_first_shape_line U b) as [x| | | |] eqn:Ea; cbn [bind] in H; try discriminate H.
    destruct (first_line_ok f b x Hf E Ea) as [->|(s & -> & Hs)]; [injection H as <-; auto|].
    unfold then_ in H. destruct (shape_lines U s more) as [y| | | |] eqn:El; cbn [bind] in H; try discriminate H.
    destruct (more_lines_ok more s y Hs Hm El) as [->|(z & -> & Hz)]; [injection H as <-; auto|].
    injection H as <-. right. eexists. split; [reflexivity|]. destruct ((s_width z =? 0) || (s_height z =? 0)) eqn:Ez.
    + split; [left; apply hollow0|reflexivity].
    + destruct Hz as (K1 & K2 & N1 & N2 & He). split; [right|exact He]. split; [|split; assumption].
      unfold isempty. destruct (s_chars z); [congruence|]. destruct (s_mbcs z); [congruence|]. exact Ez.
Qed.

(** shapes made of blanks *)
Lemma genshape_blank : forall w h cs ms e, genshape U w h = Ok (cs, ms) ->
  let s := mkSentry cs ms h w e in blank_shape s /\ solid s.
Proof.
  intros w h cs ms e H s. unfold genshape in H. destruct (w =? 0) eqn:E1; [discriminate H|]. destruct (h =? 0) eqn:E2; [discriminate H|].
  destruct (_ <? _)%N; cbn [orb] in H; [discriminate H|]. apply Nat.eqb_neq in E1. apply Nat.eqb_neq in E2.
  unfold bxs_from_ascii in H. destruct (negb _) eqn:Ef; cbn [must bind] in H; [discriminate H|]. injection H as <- <-. subst s.
  assert (B : blank_shape (mkSentry (repeat (repeat 32%N w) h) (repeat (mkBxs (repeat 32%N w) (repeat 32%N w) (spn is_space (repeat 32%N w))
     (List.length (repeat 32%N w)) (List.length (repeat 32%N w)) (List.length (repeat 32%N w) - count_invisible_chars (repeat 32%N w))
     (count_invisible_chars (repeat 32%N w)) (rspn is_space (repeat 32%N w)) (seq 0 (S (List.length (repeat 32%N w) - count_invisible_chars (repeat 32%N w))))
     (seq 0 (S (List.length (repeat 32%N w) - count_invisible_chars (repeat 32%N w))))) h) h w e)).
  { unfold blank_shape. cbn [s_width s_height s_chars s_mbcs]. repeat split; try lia.
    clear. induction h as [|h IH]; [reflexivity|]. cbn [repeat map memory]. f_equal. exact IH. }
  split; [exact B|]. split; [|split].
  - unfold isempty. cbn [s_chars s_mbcs s_width s_height]. destruct h; [lia|]. cbn [repeat is_nil orb]. destruct w; [lia|]. reflexivity.
  - constructor; cbn [s_mbcs s_chars s_height s_width].
    + apply repeat_length. + apply repeat_length.
    + apply Forall_forall. intros m Hm. apply repeat_spec in Hm. subst m. split; cbn [memory num_chars]; [|reflexivity].
      apply (shows_spaces U HU).
  - cbn [s_chars s_width]. apply Forall_forall. intros l Hl. apply repeat_spec in Hl. subst l. apply repeat_length.
Qed.

(** [sh'] has the shapes of [sh], and maybe additional blank ones *)
Definition completes (sh sh' : nat -> sentry) : Prop :=
  forall i, sh' i = sh i \/ (isempty (sh i) = true /\ blank_shape (sh' i) /\ solid (sh' i)).
Lemma completes_refl : forall sh, completes sh sh.
Proof. intros sh i. left. reflexivity. Qed.
Lemma completes_upd : forall sh c s, isempty (sh c) = true -> blank_shape s -> solid s -> completes sh (upd sh c s).
Proof.
  intros sh c s E B S i. unfold upd. destruct (Nat.eqb_spec i c) as [->|]; [right; auto|left; reflexivity].
Qed.
Lemma completes_trans : forall a b c, completes a b -> completes b c -> completes a c.
Proof.
  intros a b c H1 H2 i. destruct (H1 i) as [E1|(E1 & B1 & S1)], (H2 i) as [E2|(E2 & B2 & S2)].
  - left. congruence.
  - right. rewrite E1 in E2. auto.
  - right. rewrite E2. auto.
  - right. auto.
Qed.
Lemma completes_entry : forall a b, completes a b -> (forall i, entry_ok (a i)) -> forall i, entry_ok (b i).
Proof. intros a b H Ha i. destruct (H i) as [->|(_ & _ & S)]; [apply Ha|right; exact S]. Qed.
Lemma completes_full : forall a b i, completes a b -> isempty (a i) = false -> b i = a i.
Proof. intros a b i H E. destruct (H i) as [E2|(E2 & _)]; [exact E2|congruence]. Qed.

Variable beyond : res sentry.
Lemma make_corners_ok : forall l sh f r, make_corners U beyond sh f l = Ok r ->
  r = RC_ABORT \/ exists sh', r = RC_SUCCESS sh' /\ completes sh sh' /\ forall s, In s l -> isempty (sh' (corner_of s)) = false.
Proof.
  induction l as [|side l IH]; intros sh f r H; cbn [make_corners] in H.
  - injection H as <-. right. exists sh. split; [reflexivity|]. split; [apply completes_refl|intros s []].
  - destruct (isempty (sh (corner_of side))) eqn:Ec.
    + destruct (findshape beyond sh (corner_of side) 0 5) as [n| | | |]; cbn [bind] in H; try discriminate H.
      destruct (if n =? 5 then Ok None else s <- shape_at beyond sh (corner_of side + n) ;; Ok (Some s)) as [next| | | |]; cbn [bind] in H; try discriminate H.
      destruct (corner_size sh side f next) as [w h]. destruct (genshape U w h) as [[cs ms]| | | |] eqn:Eg; try discriminate H; [|injection H as <-; auto].
      destruct (genshape_blank w h cs ms false Eg) as [B S].
      destruct (IH _ _ _ H) as [->|(sh' & -> & Hc & Hn)]; [auto|right]. exists sh'. split; [reflexivity|]. split.
      * eapply completes_trans; [|exact Hc]. apply completes_upd; assumption.
      * intros s [<-|Hs]; [|auto]. rewrite (completes_full _ _ _ Hc); rewrite upd_eq; exact (proj1 S).
    + destruct (IH _ _ _ H) as [->|(sh' & -> & Hc & Hn)]; [auto|right]. exists sh'. split; [reflexivity|]. split; [exact Hc|].
      intros s [<-|Hs]; [|auto]. rewrite (completes_full _ _ _ Hc); exact Ec.
Qed.
Lemma make_middles_ok : forall l sh r, make_middles U sh l = Ok r ->
  r = RC_ABORT \/ exists sh', r = RC_SUCCESS sh' /\ completes sh sh' /\
    forall s, In s l -> existsb (fun i => negb (isempty (sh' i))) (middle s) = true.
Proof.
  induction l as [|side l IH]; intros sh r H; cbn [make_middles] in H.
  - injection H as <-. right. exists sh. split; [reflexivity|]. split; [apply completes_refl|intros s []].
  - destruct (forallb (fun i => isempty (sh i)) (middle side)) eqn:Em.
    + destruct (if vertical_side side then _ else _) as [w h].
      destruct (genshape U w h) as [[cs ms]| | | |] eqn:Eg; try discriminate H; [|injection H as <-; auto].
      destruct (genshape_blank w h cs ms true Eg) as [B S].
      assert (Ein : In (nth 2 (side_of side) 0) (middle side)) by (destruct side; cbn; auto).
      assert (Ee : isempty (sh (nth 2 (side_of side) 0)) = true) by (rewrite forallb_forall in Em; auto).
      destruct (IH _ _ H) as [->|(sh' & -> & Hc & Hn)]; [auto|right]. exists sh'. split; [reflexivity|]. split.
      * eapply completes_trans; [|exact Hc]. apply completes_upd; assumption.
      * intros s [<-|Hs]; [|auto]. apply existsb_exists. exists (nth 2 (side_of side) 0). split; [exact Ein|].
        rewrite (completes_full _ _ _ Hc); rewrite upd_eq; [rewrite (proj1 S); reflexivity|exact (proj1 S)].
    + destruct (IH _ _ H) as [->|(sh' & -> & Hc & Hn)]; [auto|right]. exists sh'. split; [reflexivity|]. split; [exact Hc|].
      intros s [<-|Hs]; [|auto].
      assert (X : existsb (fun i => negb (isempty (sh i))) (middle side) = true).
      { clear -Em. induction (middle side) as [|i m IHm]; [discriminate Em|]. cbn [forallb existsb] in *. destruct (isempty (sh i)); cbn in *; auto. }
      apply existsb_exists in X as (i & Hi & Hx). apply existsb_exists. exists i. split; [exact Hi|].
      rewrite (completes_full _ _ _ Hc); [exact Hx|]. destruct (isempty (sh i)); [discriminate Hx|reflexivity].
Qed.
Lemma complete_ok : forall sh r, complete_shapes U beyond sh = Ok r ->
  r = RC_ABORT \/ exists sh', r = RC_SUCCESS sh' /\ completes sh sh' /\ (forall c, In c corners -> isempty (sh' c) = false).
Proof.
  intros sh r H. unfold complete_shapes in H. destruct (findshape beyond sh 0 0 16) as [f| | | |]; cbn [bind] in H; try discriminate H.
  destruct (f =? 16); [injection H as <-; auto|]. destruct (on_side f) as [fs|]; [|injection H as <-; auto].
  unfold then_ in H. destruct (make_corners U beyond sh f (sides_from fs)) as [x| | | |] eqn:Ec; cbn [bind] in H; try discriminate H.
  destruct (make_corners_ok _ _ _ _ Ec) as [->|(sh1 & -> & C1 & N1)]; [injection H as <-; auto|].
  destruct (make_middles_ok _ _ _ H) as [->|(sh2 & -> & C2 & N2)]; [auto|right]. exists sh2. split; [reflexivity|].
  split; [eapply completes_trans; eassumption|]. intros c Hc.
  assert (X : isempty (sh1 c) = false).
  { assert (Hs : forall s, In s (sides_from fs)) by (intros s; destruct fs, s; cbn; auto).
    unfold corners in Hc. cbn [In] in Hc. destruct Hc as [<-|[<-|[<-|[<-|[]]]]];
      [exact (N1 BLEF (Hs _))|exact (N1 BTOP (Hs _))|exact (N1 BRIG (Hs _))|exact (N1 BBOT (Hs _))]. }
  rewrite (completes_full _ _ _ C2 X). exact X.
Qed.

(** marking shapes as elastic changes nothing else *)
Lemma mark_same : forall l sh i, let s := fold_left mark_elastic l sh i in
  s_chars s = s_chars (sh i) /\ s_mbcs s = s_mbcs (sh i) /\ s_height s = s_height (sh i) /\ s_width s = s_width (sh i).
Proof.
  induction l as [|x l IH]; intros sh i; cbn [fold_left]; [auto|]. specialize (IH (mark_elastic sh x) i). cbv zeta in *.
  destruct IH as (-> & -> & -> & ->). unfold mark_elastic, upd. destruct (Nat.eqb_spec i x) as [->|]; auto.
Qed.
Lemma same_empty : forall s t, s_chars s = s_chars t -> s_mbcs s = s_mbcs t -> s_height s = s_height t -> s_width s = s_width t -> isempty s = isempty t.
Proof. intros s t H1 H2 H3 H4. unfold isempty. rewrite H1, H2, H3, H4. reflexivity. Qed.
Lemma mark_empty : forall l sh i, isempty (fold_left mark_elastic l sh i) = isempty (sh i).
Proof. intros l sh i. destruct (mark_same l sh i) as (H1 & H2 & H3 & H4). apply same_empty; assumption. Qed.
Lemma mark_hollow : forall l sh i, hollow (sh i) -> hollow (fold_left mark_elastic l sh i).
Proof. intros l sh i (A & B & C & D). destruct (mark_same l sh i) as (H1 & H2 & H3 & H4). repeat split; congruence. Qed.
Lemma mark_entry : forall l sh i, entry_ok (sh i) -> entry_ok (fold_left mark_elastic l sh i).
Proof.
  intros l sh i [H|(H & [K1 K2 K3] & L)]; [left; apply mark_hollow; exact H|right].
  destruct (mark_same l sh i) as (H1 & H2 & H3 & H4). split; [rewrite mark_empty; exact H|]. split.
  - constructor; rewrite ?H1, ?H2, ?H3, ?H4; assumption.
  - rewrite H1, H4. exact L.
Qed.

(** what is known once shapes have been completed *)
Definition completed (c : cdesign) : Prop :=
  (forall x, In x corners -> isempty (c_shape c x) = false) /\ check_sizes (c_shape c) = true /\
  (forall s, s = BTOP \/ s = BBOT -> min_size s_width (c_shape c) s <= c_minwidth c) /\
  (forall s, s = BLEF \/ s = BRIG -> min_size s_height (c_shape c) s <= c_minheight c).
Definition has_sample (c : cdesign) : nat := match c_sample c with Some _ => 1 | None => 0 end.
Record items_inv (st : pstate) : Prop := {
  iv_entry : forall i, entry_ok (c_shape (curdes st) i);
  iv_count : num_mandatory st = time_for_se_check st + has_sample (curdes st);
  iv_se : 2 <= time_for_se_check st -> perform_se_check (c_shape (curdes st)) = true;
  iv_state : (forall i, hollow (c_shape (curdes st) i)) \/ completed (curdes st)
}.

Lemma check_sizes_mark : forall l sh, check_sizes (fold_left mark_elastic l sh) = check_sizes sh.
Proof.
  intros l sh. assert (X : forall i, s_height (fold_left mark_elastic l sh i) = s_height (sh i) /\ s_width (fold_left mark_elastic l sh i) = s_width (sh i))
    by (intros i; destruct (mark_same l sh i) as (_ & _ & H3 & H4); auto).
  assert (Y : forall dim side, (forall i, dim (fold_left mark_elastic l sh i) = dim (sh i)) ->
    equal_nonzero dim (fold_left mark_elastic l sh) side = equal_nonzero dim sh side).
  { intros dim side H. unfold equal_nonzero.
    assert (Z : forall (f g : nat -> bool) l0, (forall i, f i = g i) -> forallb f l0 = forallb g l0)
      by (intros f g l0 E; induction l0 as [|x l0 IH]; cbn; [reflexivity|]; rewrite E, IH; reflexivity).
    apply Z. intros i. rewrite H. f_equal. apply Z. intros j. rewrite H. reflexivity. }
  unfold check_sizes. rewrite !Y; [reflexivity|..]; intros i; apply X.
Qed.
Lemma min_size_mark : forall dim l sh s, (forall i, dim (fold_left mark_elastic l sh i) = dim (sh i)) ->
  min_size dim (fold_left mark_elastic l sh) s = min_size dim sh s.
Proof.
  intros dim l sh s H. unfold min_size. f_equal. apply map_ext. intros i. rewrite mark_empty, H. reflexivity.
Qed.
Lemma completed_mark : forall l c, completed c -> completed (set_shape (fold_left mark_elastic l (c_shape c)) c).
Proof.
  intros l c (A & B & C & D). unfold completed. cbn [set_shape c_shape c_minwidth c_minheight]. split; [|split; [|split]].
  - intros x Hx. rewrite mark_empty. auto.
  - rewrite check_sizes_mark. exact B.
  - intros s Hs. rewrite min_size_mark; [auto|]. intros i. apply mark_same.
  - intros s Hs. rewrite min_size_mark; [auto|]. intros i. apply mark_same.
Qed.

(** the fields the invariant speaks about *)
Definition same_core (c c' : cdesign) : Prop :=
  c_shape c' = c_shape c /\ c_sample c' = c_sample c /\ c_minwidth c' = c_minwidth c /\ c_minheight c' = c_minheight c.
Lemma inv_same : forall st c, items_inv st -> same_core (curdes st) c -> items_inv (with_cur c st).
Proof.
  intros st c [A B C D] (E1 & E2 & E3 & E4).
  constructor; cbn [with_cur curdes num_mandatory time_for_se_check]; unfold has_sample, completed; rewrite ?E1, ?E2, ?E3, ?E4; assumption.
Qed.

Lemma shapes_list_ok : forall l st r, Forall (fun p => tidy_shape U (snd p)) l -> (forall i, entry_ok (c_shape (curdes st) i)) ->
  shapes_list U st l = Ok r -> r = RC_ERROR \/ exists sh n, r = RC_SUCCESS (with_counts (num_mandatory st) (time_for_se_check st) n
    (with_cur (set_shape sh (curdes st)) st)) /\ (forall i, entry_ok (sh i)).
Proof.
  induction l as [|[i d] l IH]; intros st r Ht He H; cbn [shapes_list] in H.
  - injection H as <-. right. exists (c_shape (curdes st)), (num_shapespec st). split; [|exact He]. destruct st as [? c ? ? ? ? ? ?]. destruct c. reflexivity.
  - inversion Ht as [|? ? Hd Hr]; subst. unfold then_ in H. destruct (parse_shape_def U d) as [x| | | |] eqn:Ed; cbn [bind] in H; try discriminate H.
    destruct (shape_def_ok d x Hd Ed) as [->|(s & -> & Hs & _)]; [injection H as <-; auto|].
    destruct (isempty (c_shape (curdes st) i)); [|injection H as <-; auto].
    apply IH in H; [|exact Hr|].
    + destruct H as [->|(sh & n & -> & Hsh)]; [auto|right]. exists sh, n. split; [|exact Hsh]. destruct st as [? c ? ? ? ? ? ?]. destruct c. reflexivity.
    + intros j. cbn [with_counts with_cur curdes set_shape c_shape]. unfold upd. destruct (j =? i); auto.
Qed.
Lemma finalize_ok : forall st r, (forall i, entry_ok (c_shape (curdes st) i)) -> num_mandatory st = time_for_se_check st + has_sample (curdes st) ->
  action_finalize_shapes U beyond st = Ok r -> r = RC_ERROR \/ r = RC_ABORT \/ exists st', r = RC_SUCCESS st' /\ items_inv st' /\
    b_designs st' = b_designs st /\ c_name (curdes st') = c_name (curdes st) /\ c_aliases (curdes st') = c_aliases (curdes st).
Proof.
  intros st r He Hc H. unfold action_finalize_shapes in H. destruct (num_shapespec st <? 1); [injection H as <-; auto|].
  unfold then_ in H. destruct (complete_shapes U beyond (c_shape (curdes st))) as [x| | | |] eqn:Ec; cbn [bind] in H; try discriminate H.
  destruct (complete_ok _ _ Ec) as [->|(sh & -> & C1 & N1)]; [injection H as <-; auto|].
  destruct (check_sizes sh) eqn:Es; cbn [negb] in H; [|injection H as <-; auto].
  destruct ((1 <? S (time_for_se_check st)) && negb (perform_se_check sh)) eqn:Ee; injection H as <-; [auto|].
  right. right. eexists. split; [reflexivity|]. split; [|cbn; auto].
  constructor; cbn [with_counts with_cur curdes num_mandatory time_for_se_check set_sizes set_shape c_shape c_sample].
  - eapply completes_entry; eassumption.
  - unfold has_sample in *. cbn [c_sample]. rewrite Hc. reflexivity.
  - intros Ht. destruct (perform_se_check sh) eqn:Ep; [reflexivity|]. apply andb_false_iff in Ee as [Ee|Ee]; [|discriminate Ee]. apply Nat.ltb_ge in Ee. lia.
  - right. unfold completed. cbn [set_sizes set_shape c_shape c_minwidth c_minheight]. split; [exact N1|]. split; [exact Es|]. split; intros s Hs.
    + destruct Hs as [->| ->]; lia.
    + destruct Hs as [->| ->]; lia.
Qed.
Lemma elastic_ok : forall st l r, items_inv st -> action_elastic st l = Ok r -> r = RC_ERROR \/ exists st', r = RC_SUCCESS st' /\ items_inv st' /\
    b_designs st' = b_designs st /\ c_name (curdes st') = c_name (curdes st) /\ c_aliases (curdes st') = c_aliases (curdes st).
Proof.
  intros st l r [A B C D] H. unfold action_elastic in H. destruct ((1 <? S (time_for_se_check st)) && _) eqn:Ee; injection H as <-; [auto|right].
  eexists. split; [reflexivity|]. split; [|cbn; auto].
  constructor; cbn [with_counts with_cur curdes num_mandatory time_for_se_check set_sizes set_shape c_shape c_sample].
  - intros i. apply mark_entry. apply A.
  - unfold has_sample in *. cbn [c_sample]. rewrite B. reflexivity.
  - intros Ht. clear C. destruct (perform_se_check (fold_left _ _ _)) eqn:Ep; [reflexivity|]. apply andb_false_iff in Ee as [Ee|Ee]; [|discriminate Ee]. apply Nat.ltb_ge in Ee. lia.
  - destruct D as [D|D]; [left; intros i; apply mark_hollow; apply D|right]. apply completed_mark. exact D.
Qed.

Variable eol : list N.
(** what an item leaves alone *)
Definition kept (st st' : pstate) : Prop :=
  b_designs st' = b_designs st /\ c_name (curdes st') = c_name (curdes st) /\ c_aliases (curdes st') = c_aliases (curdes st) /\
  skipping st' = skipping st /\ speeding st' = speeding st /\ b_parents st' = b_parents st.
Lemma kept_refl : forall st, kept st st.
Proof. intros st. repeat split. Qed.
Lemma kept_trans : forall a b c, kept a b -> kept b c -> kept a c.
Proof. unfold kept. intros a b c H1 H2. intuition congruence. Qed.

Lemma shapes_list_kept : forall l st st', shapes_list U st l = Ok (RC_SUCCESS st') -> kept st st'.
Proof.
  induction l as [|[i d] l IH]; intros st st' H; cbn [shapes_list] in H.
  - injection H as <-. apply kept_refl.
  - apply then_ok in H as (s & _ & H). destruct (isempty _); [|discriminate H]. apply IH in H. eapply kept_trans; [|exact H]. repeat split.
Qed.
Lemma then_no_accept : forall A B (r : res (rc A)) (k : A -> res (rc B)) b, then_ r k = Ok (RC_ACCEPT b) ->
  exists a, (r = Ok (RC_SUCCESS a) \/ r = Ok (RC_ACCEPT a)) /\ k a = Ok (RC_ACCEPT b).
Proof.
  intros A B r k b H. unfold then_ in H. destruct r as [x| | | |]; cbn [bind] in H; try discriminate H.
  destruct x as [a| | |a]; try discriminate H; exists a; auto.
Qed.
Lemma record_keyword_core : forall c k v c', action_record_keyword U c k v = Ok (RC_SUCCESS c') ->
  same_core c c' /\ c_name c' = c_name c /\ c_aliases c' = c_aliases c.
Proof.
  intros c k v c' H. unfold action_record_keyword in H. destruct (negb _); [discriminate H|]. destruct v as [v|]; [|discriminate H].
  destruct (same_nocase k _); [injection H as <-; repeat split|].
  destruct (same_nocase k _); [injection H as <-; repeat split|].
  destruct (same_nocase k _).
  { destruct (tag_record U (c_tags c) (Some v)); cbn [bind] in H; try discriminate H. injection H as <-. repeat split. }
  destruct (same_nocase k _); [|discriminate H]. destruct (existsb _ _); [|discriminate H]. injection H as <-. repeat split.
Qed.
Lemma record_keyword_accept : forall c k v c', action_record_keyword U c k v <> Ok (RC_ACCEPT c').
Proof.
  intros c k v c' H. unfold action_record_keyword in H. destruct (negb _); [discriminate H|]. destruct v as [v|]; [|discriminate H].
  destruct (same_nocase k _); [discriminate H|]. destruct (same_nocase k _); [discriminate H|].
  destruct (same_nocase k _).
  { destruct (tag_record U (c_tags c) (Some v)); cbn [bind] in H; discriminate H. }
  destruct (same_nocase k _); [|discriminate H]. destruct (existsb _ _); discriminate H.
Qed.
Lemma sample_ok : forall st b st', action_sample_block U eol st b = Ok (RC_SUCCESS st') -> kept st st' /\ (items_inv st -> items_inv st').
Proof.
  intros st b st' H. unfold action_sample_block in H. destruct (c_sample (curdes st)) eqn:Es; [discriminate H|]. destruct b as [b|]; [|discriminate H].
  destruct (utf8_to_bxs _ _) as [[line|]| | | |]; cbn [bind] in H; try discriminate H. destruct (num_chars line =? 0); [discriminate H|].
  destruct (negb _); [discriminate H|]. injection H as <-. split; [repeat split|]. intros [A B C D].
  constructor; cbn [with_counts with_cur curdes num_mandatory time_for_se_check set_sample c_shape c_sample]; try assumption.
  unfold has_sample in *. rewrite Es in B. cbn [set_sample c_sample]. lia.
Qed.

Lemma do_item_ok : forall st i st', tidy_item U i -> items_inv st -> do_item U beyond eol st i = Ok (RC_SUCCESS st') -> items_inv st' /\ kept st st'.
Proof.
  intros st i st' Ht Hi H. destruct i as [k v|l|s|l|l|s r m|s r m|l| |]; cbn [do_item] in H.
  - destruct (string_tok U v) as [b| | | |]; cbn [bind] in H; try discriminate H. apply then_ok in H as (c & [H1|H1] & H2); [|elim (record_keyword_accept _ _ _ _ H1)].
    injection H2 as <-. destruct (record_keyword_core _ _ _ _ H1) as (K & K1 & K2). split; [apply inv_same; assumption|]. repeat split; assumption.
  - destruct (tag_list U _ l) as [t| | | |]; cbn [bind] in H; try discriminate H. injection H as <-. split; [apply inv_same; [exact Hi|]|]; repeat split.
  - destruct (sample_tok U s) as [b| | | |]; cbn [bind] in H; try discriminate H. apply sample_ok in H as [K1 K2]. split; auto.
  - apply then_ok in H as (st1 & H1 & H2). assert (E : shapes_list U st l = Ok (RC_SUCCESS st1)).
    { destruct H1 as [H1|H1]; [exact H1|]. destruct (shapes_list_ok _ _ _ Ht (iv_entry _ Hi) H1) as [F|(sh & n & F & _)]; discriminate F. }
    pose proof (shapes_list_kept _ _ _ E) as K1. destruct (shapes_list_ok _ _ _ Ht (iv_entry _ Hi) E) as [F|(sh & n & F & Hsh)]; [discriminate F|]. injection F as ->.
    pose proof (iv_count _ Hi) as Hn. match type of H2 with action_finalize_shapes _ _ ?x = _ => set (st1 := x) in * end.
    destruct (finalize_ok st1 _ Hsh Hn H2) as [F|[F|(st2 & F & I2 & J1 & J2 & J3)]]; [discriminate F|discriminate F|]. injection F as <-. split; [exact I2|].
    unfold action_finalize_shapes in H2. destruct (_ <? 1); [discriminate H2|]. apply then_ok in H2 as (sh' & _ & H2). destruct (negb _); [discriminate H2|].
    destruct (_ && _); [discriminate H2|]. injection H2 as <-. repeat split.
  - destruct (elastic_ok _ _ _ Hi H) as [F|(st2 & F & I2 & _)]; [discriminate F|]. injection F as <-. split; [exact I2|].
    unfold action_elastic in H. destruct (_ && _); [discriminate H|]. injection H as <-. repeat split.
  - destruct (string_tok U s) as [b| | | |]; cbn [bind] in H; try discriminate H. destruct (string_tok U r) as [b'| | | |]; cbn [bind] in H; try discriminate H.
    apply then_ok in H as (x & _ & H). injection H as <-. split; [apply inv_same; [exact Hi|]|]; repeat split.
  - destruct (string_tok U s) as [b| | | |]; cbn [bind] in H; try discriminate H. destruct (string_tok U r) as [b'| | | |]; cbn [bind] in H; try discriminate H.
    apply then_ok in H as (x & _ & H). injection H as <-. split; [apply inv_same; [exact Hi|]|]; repeat split.
  - injection H as <-. split; [apply inv_same; [exact Hi|]|]; repeat split.
  - injection H as <-. split; [exact Hi|apply kept_refl].
  - discriminate H.
Qed.
Lemma do_item_accept : forall st i st', do_item U beyond eol st i <> Ok (RC_ACCEPT st').
Proof.
  intros st i st' H. destruct i as [k v|l|s|l|l|s r m|s r m|l| |]; cbn [do_item] in H.
  - destruct (string_tok U v) as [b| | | |]; cbn [bind] in H; try discriminate H. apply then_no_accept in H as (c & _ & H). discriminate H.
  - destruct (tag_list U _ l) as [t| | | |]; cbn [bind] in H; discriminate H.
  - destruct (sample_tok U s) as [b| | | |]; cbn [bind] in H; try discriminate H. unfold action_sample_block in H.
    destruct (c_sample (curdes st)); [discriminate H|]. destruct b as [b|]; [|discriminate H].
    destruct (utf8_to_bxs _ _) as [[line|]| | | |]; cbn [bind] in H; try discriminate H. destruct (num_chars line =? 0); [discriminate H|].
    destruct (negb _); discriminate H.
  - apply then_no_accept in H as (st1 & _ & H). unfold action_finalize_shapes in H. destruct (_ <? 1); [discriminate H|].
    apply then_no_accept in H as (sh & _ & H). destruct (negb _); [discriminate H|]. destruct (_ && _); discriminate H.
  - unfold action_elastic in H. destruct (_ && _); discriminate H.
  - destruct (string_tok U s) as [b| | | |]; cbn [bind] in H; try discriminate H. destruct (string_tok U r) as [b'| | | |]; cbn [bind] in H; try discriminate H.
    apply then_no_accept in H as (x & _ & H). discriminate H.
  - destruct (string_tok U s) as [b| | | |]; cbn [bind] in H; try discriminate H. destruct (string_tok U r) as [b'| | | |]; cbn [bind] in H; try discriminate H.
    apply then_no_accept in H as (x & _ & H). discriminate H.
  - discriminate H.
  - discriminate H.
  - discriminate H.
Qed.
Lemma do_items_accept : forall l st st', do_items U beyond eol st l <> Ok (RC_ACCEPT st').
Proof.
  induction l as [|i l IH]; intros st st' H; cbn [do_items] in H; [discriminate H|].
  apply then_no_accept in H as (s & _ & H). exact (IH _ _ H).
Qed.
Lemma do_items_ok : forall l st st', Forall (tidy_item U) l -> items_inv st -> do_items U beyond eol st l = Ok (RC_SUCCESS st') -> items_inv st' /\ kept st st'.
Proof.
  induction l as [|i l IH]; intros st st' Ht Hi H; cbn [do_items] in H.
  - injection H as <-. split; [exact Hi|apply kept_refl].
  - inversion Ht as [|? ? T1 T2]; subst. apply then_ok in H as (s & [H1|H1] & H2); [|elim (do_item_accept _ _ _ H1)].
    destruct (do_item_ok _ _ _ T1 Hi H1) as [I1 K1]. destruct (IH _ _ T2 I1 H2) as [I2 K2]. split; [exact I2|]. eapply kept_trans; eassumption.
Qed.

(** *** what the checks establish *)
Lemma se_side : forall sh s, perform_se_check sh = true -> side_ok (at_side sh s).
Proof.
  intros sh s H. unfold perform_se_check in H. apply andb_true_iff in H as [H H4]. apply andb_true_iff in H as [H H3]. apply andb_true_iff in H as [H1 _].
  unfold elastics_exist in H1. unfold sufficient_elasticity in H3. rewrite forallb_forall in H1, H3, H4.
  assert (Hs : In s all_sides) by (destruct s; cbn; auto). specialize (H3 s Hs). specialize (H4 s Hs). cbv beta zeta in H3.
  set (a := nth 1 (side_of s) 0) in *. set (b := nth 2 (side_of s) 0) in *. set (c := nth 3 (side_of s) 0) in *.
  assert (Em : middle s = [a; b; c]) by (destruct s; reflexivity). rewrite Em in *.
  assert (X : forall i, In i [a; b; c] -> s_elastic (sh i) = true -> isempty (sh i) = false).
  { intros i Hi He. assert (Hr : In i (seq 0 16)) by (clear -Hi; subst a b c; destruct s; cbn in *; intuition subst; auto 20).
    specialize (H1 i Hr). rewrite He in H1. destruct (isempty (sh i)); [discriminate H1|reflexivity]. }
  assert (Xa := X a ltac:(cbn; auto)). assert (Xb := X b ltac:(cbn; auto)). assert (Xc := X c ltac:(cbn; auto)). clear X H1 Em Hs.
  cbn [filter not_adjoining] in H3, H4. unfold side_ok, single_elastic, double_elastic, at_side. fold a b c.
  assert (J : forall P : nat -> Prop, P 1 -> P 2 -> P 3 -> forall j, In j [1; 2; 3] -> P j)
    by (intros P P1 P2 P3 j [<-|[<-|[<-|[]]]]; assumption).
  assert (K : forall e, In e [1; 2; 3] -> isempty (sh (nth e (side_of s) 0)) = false -> s_elastic (sh (nth e (side_of s) 0)) = true ->
    (1 <> e -> s_elastic (sh a) = false) -> (2 <> e -> s_elastic (sh b) = false) -> (3 <> e -> s_elastic (sh c) = false) ->
    exists e, In e [1; 2; 3] /\ isempty (sh (nth e (side_of s) 0)) = false /\ s_elastic (sh (nth e (side_of s) 0)) = true /\
      forall j, In j [1; 2; 3] -> j <> e -> s_elastic (sh (nth j (side_of s) 0)) = false).
  { intros e He Hn Hl K1 K2 K3. exists e. repeat (split; [assumption|]). apply (J (fun j => j <> e -> s_elastic (sh (nth j (side_of s) 0)) = false)); assumption. }
  destruct (isempty (sh a)) eqn:Fa, (isempty (sh b)) eqn:Fb, (isempty (sh c)) eqn:Fc,
    (s_elastic (sh a)) eqn:Ea, (s_elastic (sh b)) eqn:Eb, (s_elastic (sh c)) eqn:Ec; cbn [List.length Nat.eqb orb] in H3; try discriminate H3;
    try discriminate (Xa eq_refl); try discriminate (Xb eq_refl); try discriminate (Xc eq_refl); cbn [negb andb] in H4; try discriminate H4;
    try (left; apply (K 1); [cbn; auto|exact Fa|exact Ea|congruence|congruence|congruence]);
    try (left; apply (K 2); [cbn; auto|exact Fb|exact Eb|congruence|congruence|congruence]);
    try (left; apply (K 3); [cbn; auto|exact Fc|exact Ec|congruence|congruence|congruence]).
  right. split; [|auto]. apply J; assumption.
Qed.
Lemma se_in_order : forall sh, perform_se_check sh = true -> sides_in_order sh.
Proof.
  intros sh H s. assert (S := se_side sh s H). split; [exact S|]. split.
  - unfold perform_se_check in H. apply andb_true_iff in H as [H _]. apply andb_true_iff in H as [H _]. apply andb_true_iff in H as [_ H].
    unfold corner_check in H. rewrite forallb_forall in H. intros j Hj. unfold at_side.
    assert (Hc : In (nth j (side_of s) 0) corners) by (destruct Hj as [<-|[<-|[]]]; destruct s; cbn; auto).
    specialize (H _ Hc). destruct (s_elastic _); [discriminate H|reflexivity].
  - destruct S as [(e & He & Hn & _)|(Hn & _)]; [exists e; auto|exists 1; split; [cbn; auto|apply Hn; cbn; auto]].
Qed.
Lemma equal_nonzero_spec : forall dim sh l i j, equal_nonzero dim sh l = true -> In i l -> In j l -> dim (sh i) <> 0 -> dim (sh j) <> 0 -> dim (sh i) = dim (sh j).
Proof.
  intros dim sh l i j H Hi Hj Ni Nj. unfold equal_nonzero in H. rewrite forallb_forall in H. specialize (H i Hi).
  apply orb_true_iff in H as [H|H]; [apply Nat.eqb_eq in H; contradiction|]. rewrite forallb_forall in H. specialize (H j Hj).
  apply orb_true_iff in H as [H|H]; apply Nat.eqb_eq in H; [contradiction|exact H].
Qed.
Lemma check_sizes_agree : forall sh, check_sizes sh = true -> sizes_agree sh.
Proof.
  intros sh H s i j Hi Hj Ei Ej. unfold check_sizes in H. apply andb_true_iff in H as [H H4]. apply andb_true_iff in H as [H H3]. apply andb_true_iff in H as [H1 H2].
  pose proof (nonempty_dims _ Ei). pose proof (nonempty_dims _ Ej).
  destruct s; cbn [across side_of] in *; [apply (equal_nonzero_spec s_height sh north_side i j)|apply (equal_nonzero_spec s_width sh east_side i j)|
    apply (equal_nonzero_spec s_height sh south_side i j)|apply (equal_nonzero_spec s_width sh west_side i j)]; (assumption || lia).
Qed.

Lemma inv_wf : forall st, items_inv st -> 3 <= num_mandatory st -> wf_design U (to_design (curdes st)) /\ sides_in_order (c_shape (curdes st)).
Proof.
  intros st [A B C D] H.
  assert (T : 2 <= time_for_se_check st) by (unfold has_sample in B; destruct (c_sample (curdes st)); lia). specialize (C T).
  pose proof (se_in_order _ C) as O. split; [|exact O]. destruct D as [D|(D1 & D2 & D3 & D4)].
  - destruct (O BTOP) as (_ & _ & j & _ & F). unfold at_side in F; rewrite (hollow_empty _ (D _)) in F. discriminate F.
  - pose proof (check_sizes_agree _ D2) as G. constructor; cbn [to_design d_shape d_minwidth d_minheight].
    + exact D1.
    + intros s. apply O.
    + intros i _ Hi. apply (entry_solid _ (A i) Hi).
    + intros s i _ _ Hi. apply (entry_solid _ (A _) Hi).
    + intros s i Hs Hi Ei. assert (E0 : isempty (at_side (c_shape (curdes st)) s 0) = false) by (apply D1; clear; destruct s; cbn; auto).
      assert (K := G s (nth i (side_of s) 0) (nth 0 (side_of s) 0) ltac:(apply nth_In; destruct s; exact Hi) ltac:(clear; destruct s; cbn; auto) Ei E0).
      destruct Hs as [->| ->]; exact K.
    + intros s i Hs Hi Ei. assert (E0 : isempty (at_side (c_shape (curdes st)) s 0) = false) by (apply D1; clear; destruct s; cbn; auto).
      assert (K := G s (nth i (side_of s) 0) (nth 0 (side_of s) 0) ltac:(apply nth_In; destruct s; exact Hi) ltac:(clear; destruct s; cbn; auto) Ei E0).
      destruct Hs as [->| ->]; exact K.
    + intros s Hs. apply D3. exact Hs.
    + intros s Hs. apply D4. exact Hs.
Qed.
End Shapes.
