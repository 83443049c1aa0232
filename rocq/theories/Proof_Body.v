(** * What removal does to the lines of a box (input without escape sequences) *)
From Coq Require Import List Arith NArith ZArith Bool Lia.
From Verif Require Import Base BaseFacts Model_Unicode Model_Bxs Model_Shape Model_Generate Model_Detect Model_Remove
  Spec_Str Spec_Design Spec_Box Spec_Remove Proof_Str Proof_Bxs Proof_BxsOps Proof_BxsMore Proof_Shows Proof_Term Proof_Hmm Proof_Horiz
  Proof_Open Proof_Recog Proof_Found.
Import ListNotations.

Lemma In_firstn : forall (A : Type) n (l : list A) x, In x (firstn n l) -> In x l.
Proof. intros A n l x H. rewrite <- (firstn_skipn n l). apply in_or_app. left. exact H. Qed.

Lemma forallb_ext2 : forall (A : Type) (f g : A -> bool) l, (forall x, f x = g x) -> forallb f l = forallb g l.
Proof. intros A f g l H. induction l as [|a l IH]; [reflexivity|]. cbn [forallb]. rewrite H, IH. reflexivity. Qed.

Lemma skipn_skipn : forall (A : Type) x y (l : list A), skipn x (skipn y l) = skipn (x + y) l.
Proof.
  intros A x y. induction y as [|y IH]; intros l; [rewrite Nat.add_0_r; reflexivity|]. rewrite Nat.add_succ_r. destruct l; [apply skipn_nil|]. apply IH.
Qed.

Section Body.
Variable U : uctab.
Hypothesis HU : uctab_ok U.

(** ** strings without escape sequences *)
Definition pl (s : list N) : bxstr := bx U (plain s).
Definition okc (c : N) : Prop := c <> 27%N /\ c <> 9%N /\ is_allowed_anywhere U c = true.
Definition okt (s : list N) : Prop := Forall okc s.

Lemma okt_good : forall s, okt s <-> good U (plain s).
Proof.
  intros s. unfold okt. rewrite Forall_forall. split.
  - intros H. split; [|split].
    + apply (closed_plain s). intros Hx. destruct (H _ Hx) as [Hy _]. congruence.
    + unfold allowed. rewrite visible_plain. apply Forall_forall. intros c Hc. apply H. exact Hc.
    + unfold tabless. rewrite visible_plain. intros Hx. destruct (H _ Hx) as (_ & Hy & _). congruence.
  - intros ([Hok _] & Ha & Ht) c Hc. unfold allowed in Ha. unfold tabless in Ht. rewrite visible_plain in *. rewrite Forall_forall in Ha.
    split; [|split; [intros ->; contradiction|apply Ha; exact Hc]].
    intros ->. apply (visible_no_esc (plain s) Hok). rewrite visible_plain. exact Hc.
Qed.
Lemma okt_app : forall a b, okt (a ++ b) <-> okt a /\ okt b.
Proof. intros a b. apply Forall_app. Qed.
Lemma okc_32 : okc 32.
Proof.
  split; [discriminate|]. split; [discriminate|].  destruct (closedU_good U _ (closedU_spaces U HU 1)) as (Hc & Ha & Ht).
  unfold allowed in Ha. rewrite visible_plain in Ha. inversion Ha; subst. assumption.
Qed.
Lemma okt_spaces : forall n, okt (spaces n).
Proof. intros n. apply Forall_forall. intros c Hc. apply repeat_spec in Hc. subst c. apply okc_32. Qed.
Lemma okt_between : forall m s e, okt m -> okt (between m s e).
Proof.
  intros m s e H. apply Forall_forall. intros c Hc. unfold okt in H. rewrite Forall_forall in H. apply H.
  unfold between in Hc. apply In_firstn in Hc. rewrite <- (firstn_skipn s m). apply in_or_app. right. exact Hc.
Qed.

Lemma line_plain : forall l, built_line U l -> ~ In 27%N (memory (l_text l)) ->
  l_text l = pl (memory (l_text l)) /\ okt (memory (l_text l)) /\ narrow_lead U (memory (l_text l)).
Proof.
  intros l (Hf & ts & w & Hrd & Hs & Hn) He.
  apply (shows_closed U HU) in Hs as (ts' & Hc & Hr & _).
  assert (Et : ts' = plain (memory (l_text l))).
  { apply reading_unique; [apply Hc|apply (closed_plain _ He)|]. rewrite render_plain. exact Hr. }
  assert (El : l_text l = bx U ts').
  { rewrite <- Hr, (from_unicode_good U HU ts' (closedU_good U ts' Hc)) in Hf. congruence. }
  split; [unfold pl; rewrite <- Et; exact El|]. split; [apply okt_good; rewrite <- Et; apply closedU_good; exact Hc|].
  assert (ts = ts') as ->. { apply reading_unique; [apply Hrd|apply Hc|]. destruct Hrd as [_ Hrd]. congruence. }
  rewrite Et, visible_plain in Hn. unfold narrow_lead. apply Forall_forall. intros c Hx. unfold narrow_indent in Hn.
  rewrite Forall_forall in Hn. rewrite (char_cols_term U HU). auto.
Qed.

Definition blankb (s : list N) : bool := forallb (fun c => is_blank U c || N.eqb c 13) s.
Lemma blankb_iff : forall s, blankb s = true <-> blank_text U s.
Proof.
  intros s. unfold blankb, blank_text. rewrite forallb_forall, Forall_forall.
  split; intros H c Hc; specialize (H c Hc); rewrite orb_true_iff, N.eqb_eq in *; exact H.
Qed.
Lemma blank_pl : forall s, bxs_is_blank U (pl s) = Ok (blankb s).
Proof.
  intros s. unfold pl. rewrite is_blank_bx, render_plain, visible_plain. f_equal. unfold blankb.
  destruct s as [|c s]; [reflexivity|]. change (length (c :: s) =? 0) with false. cbn [orb]. apply forallb_ext2. intros x. unfold is_blank, char_tab, char_cr.
  destruct (x =? 9)%N, (x =? 13)%N, (uc_is_blank U x); reflexivity.
Qed.
Lemma blankb_app : forall a b, blankb (a ++ b) = blankb a && blankb b.
Proof. intros. apply forallb_app. Qed.
Lemma blankb_spaces : forall n s, blankb (spaces n ++ s) = blankb s.
Proof.
  intros n s. rewrite blankb_app. replace (blankb (spaces n)) with true; [reflexivity|]. symmetry. apply forallb_forall. intros c Hc.
  apply repeat_spec in Hc. subst c. rewrite (blank32 U HU). reflexivity.
Qed.

Lemma from_pl : forall s, okt s -> bxs_from_unicode U s = Ok (pl s).
Proof. intros s H. apply okt_good in H. apply (from_unicode_good U HU) in H. rewrite render_plain in H. exact H. Qed.
Lemma num_pl : forall s, num_chars (pl s) = length s.
Proof. intros s. unfold pl. cbn [bx num_chars]. rewrite render_plain. reflexivity. Qed.
Lemma mem_pl : forall s, memory (pl s) = s.
Proof. intros s. unfold pl. cbn [bx memory]. apply render_plain. Qed.

Lemma substr_pl : forall m s e, okt m -> s <= e -> bxs_substr U (pl m) s e = Ok (pl (between m s e)).
Proof.
  intros m s e Hm Hse. unfold bxs_substr. rewrite num_pl, mem_pl.
  destruct (Nat.ltb_spec (Nat.min e (length m)) (Nat.min s (length m))) as [|_]; [lia|].
  assert (E : skipn (Nat.min s (length m)) (firstn (Nat.min e (length m)) m) = between m s e).
  { unfold between. rewrite skipn_firstn_comm. destruct (Nat.le_gt_cases s (length m)) as [Hs|Hs].
    - rewrite (Nat.min_l s) by lia. destruct (Nat.le_gt_cases e (length m)) as [He|He].
      + rewrite Nat.min_l by lia. reflexivity.
      + rewrite Nat.min_r by lia. rewrite !firstn_all2 by (rewrite skipn_length; lia). reflexivity.
    - rewrite !skipn_all2 by lia. rewrite !firstn_nil. reflexivity. }
  rewrite E. apply from_pl. apply okt_between. exact Hm.
Qed.

Lemma first_pl : forall s k, k <= length s -> rd (first_char (pl s)) k = Ok k.
Proof.
  intros s k Hk. destruct (rd_first U (plain s) k) as (a & b & E & Hr & Ha & _).
  - apply Forall_forall. intros t Ht. unfold plain in Ht. apply in_map_iff in Ht as (c & <- & _). reflexivity.
  - rewrite visible_plain. exact Hk.
  - unfold pl. rewrite Hr. apply plain_split in E as (x & y & -> & -> & ->). rewrite render_plain. rewrite !visible_plain in Ha.
    rewrite Ha at 1. rewrite firstn_length_le by exact Hk. reflexivity.
Qed.
Lemma indent_pl : forall s, narrow_lead U s -> indent (pl s) = lead (is_blank U) s.
Proof. intros s H. unfold pl. cbn [bx indent]. rewrite visible_plain. apply lead_cols_narrow. exact H. Qed.

(** ** blank lines around the box *)
Definition okl (l : line) : Prop := l_text l = pl (memory (l_text l)) /\ okt (memory (l_text l)) /\ narrow_lead U (memory (l_text l)).
Definition blank_l (l : line) : Prop := blank_text U (memory (l_text l)).

Lemma first_nonblank_spec : forall pre l r i, Forall okl (pre ++ l :: r) -> Forall blank_l pre -> ~ blank_l l ->
  first_nonblank U (pre ++ l :: r) i = Ok (Some (i + length pre)).
Proof.
  induction pre as [|x pre IH]; intros l r i Hok Hb Hl; cbn [app first_nonblank length].
  - inversion Hok as [|? ? (E & _) _]; subst. rewrite E, blank_pl. cbn [bind].
    destruct (blankb (memory (l_text l))) eqn:Eb; [exfalso; apply Hl; apply blankb_iff; exact Eb|]. f_equal. f_equal. lia.
  - inversion Hok as [|? ? (E & _) Hok']; subst. inversion Hb; subst. rewrite E, blank_pl. cbn [bind].
    rewrite (proj2 (blankb_iff _)) by assumption. rewrite IH by assumption. f_equal. f_equal. lia.
Qed.
Lemma first_nonblank_all : forall ls i, Forall okl ls -> Forall blank_l ls -> first_nonblank U ls i = Ok None.
Proof.
  induction ls as [|x ls IH]; intros i Hok Hb; [reflexivity|]. cbn [first_nonblank].
  inversion Hok as [|? ? (E & _) Hok']; subst. inversion Hb; subst. rewrite E, blank_pl. cbn [bind].
  rewrite (proj2 (blankb_iff _)) by assumption. auto.
Qed.

(** ** matching one shape line in a line of the box *)
Definition vm_found (left : bool) (row t : list N) (ind trl : nat) (v : vmatch) : Prop :=
  0 < v_quality v /\ v_end v = v_start v + v_quality v /\ v_end v <= length t /\
  worn U row (between t (v_start v) (v_end v)) /\
  (left = true -> v_end v <= ind + length row) /\ (left = false -> length t - trl <= v_end v).

Lemma vert_try_spec : forall n left b t ind trl best shape q, num_chars b = length (memory b) -> q < n -> length shape = q ->
  (exists x y, memory b = x ++ shape ++ y /\ blanks U x /\ blanks U y) ->
  exists v, vert_try U n left (Some b) (num_chars b) t ind trl best shape q = Ok v /\
    (v = best \/ vm_found left (memory b) t ind trl v).
Proof.
  induction n as [|n IH]; intros left b t ind trl best shape q Hb Hn Hl Hsh; [lia|]. cbn [vert_try].
  assert (Hag : exists v, match shorten U (Some b) q left true true with
                          | Some (l, q0) => vert_try U n left (Some b) (num_chars b) t ind trl best l q0
                          | None => Ok best end = Ok v /\ (v = best \/ vm_found left (memory b) t ind trl v)).
  { destruct (shorten U (Some b) q left true true) as [[l q']|] eqn:E; [|eauto].
    apply shorten_spec in E as (Hq & Hl' & a & r & Em & Ha & Hr & _); [|exact Hb]. apply IH; try assumption; [lia|]. exists a, r. auto. }
  assert (Hlen : q <= num_chars b) by (destruct Hsh as (x & y & E & _); rewrite Hb, E, !app_length; lia).
  destruct left.
  - destruct (u32_strstr t shape) as [p|] eqn:Es; [|exact Hag].
    destruct (Nat.ltb_spec (ind + (num_chars b - q)) p) as [|Hp]; [exact Hag|].
    destruct (Nat.ltb_spec (v_quality best) q) as [Hq|]; [|eauto].
    eexists. split; [reflexivity|]. right. apply strstr_spec in Es as [Hfit Hpos]. rewrite Hl in Hfit, Hpos.
    unfold vm_found. cbn [v_quality v_start v_end]. split; [lia|]. split; [reflexivity|]. split; [lia|]. split; [|split; [intros _; lia|discriminate]].
    assert (Eb : between t p (p + q) = shape) by (unfold between; replace (p + q - p) with q by lia; exact Hpos).
    rewrite Eb. split; [intros ->; cbn in Hl; lia|exact Hsh].
  - destruct (u32_strnrstr t shape q) as [p|] eqn:Es; [|exact Hag].
    destruct ((length t - trl <? q) || (p <? length t - trl - q)) eqn:Ec; [exact Hag|]. apply orb_false_iff in Ec as [Ec1 Ec2].
    apply Nat.ltb_ge in Ec1, Ec2.
    destruct (Nat.ltb_spec (v_quality best) q) as [Hq|]; [|eauto].
    eexists. split; [reflexivity|]. right. apply strnrstr_spec in Es as [Hpos Hfit]; [|exact Hl|lia].
    unfold vm_found. cbn [v_quality v_start v_end]. split; [lia|]. split; [reflexivity|]. split; [lia|]. split; [|split; [discriminate|intros _; lia]].
    assert (Eb : between t p (p + q) = shape) by (unfold between; replace (p + q - p) with q by lia; exact Hpos).
    rewrite Eb. split; [intros ->; cbn in Hl; lia|exact Hsh].
Qed.

Definition side_ctx (d : design) (left drop : bool) (sc : sctx) : Prop :=
  sc_empty sc = false -> exists b, sc_text sc = Some b /\ num_chars b = length (memory b) /\ vside_row d left drop (memory b).

Lemma match_side_spec : forall d left drop scs t ind trl best, Forall (side_ctx d left drop) scs ->
  exists v, match_vertical_side U left scs t ind trl best = Ok v /\
    (v = best \/ exists row, vside_row d left drop row /\ vm_found left row t ind trl v).
Proof.
  intros d left drop. induction scs as [|sc scs IH]; intros t ind trl best H; cbn [match_vertical_side]; [eauto|].
  inversion H as [|? ? Hs H']; subst. destruct (sc_empty sc) eqn:Ee; [apply IH; exact H'|].
  destruct (Hs Ee) as (b & Et & Hn & Hrow). rewrite Et.
  destruct (vert_try_spec (num_chars b + 2) left b t ind trl best (memory b) (num_chars b)) as (v & Ev & Hv); [exact Hn|lia|auto| |].
  { exists [], []. rewrite app_nil_r. split; [reflexivity|]. split; constructor. }
  rewrite Ev. cbn [bind]. destruct (IH t ind trl v H') as (v' & Ev' & Hv'). exists v'. split; [exact Ev'|].
  destruct Hv' as [->|Hv']; [|auto]. destruct Hv as [->|Hv]; [auto|]. right. exists (memory b). auto.
Qed.

Lemma mapM_spec : forall (A B : Type) (f : A -> res B) (P : A -> B -> Prop) l,
  (forall a, In a l -> exists b, f a = Ok b /\ P a b) -> exists bs, mapM f l = Ok bs /\ Forall2 P l bs.
Proof.
  intros A B f P. induction l as [|a l IH]; intros H; [exists []; split; [reflexivity|constructor]|].
  destruct (H a (or_introl eq_refl)) as (b & Eb & Pb). destruct IH as (bs & Ebs & Hbs); [intros x Hx; apply H; right; exact Hx|].
  exists (b :: bs). cbn [mapM]. rewrite Eb. cbn [bind]. rewrite Ebs. cbn [bind]. split; [reflexivity|constructor; assumption].
Qed.

Lemma prep_vert_spec : forall d left ct, wf_design U d -> built U d ->
  exists scs, prepare_comp_shapes_vert U d left ct = Ok scs /\ Forall (side_ctx d left (drops_shape ct)) scs.
Proof.
  intros d left ct WF HB. unfold prepare_comp_shapes_vert.
  match goal with |- context [mapM ?f ?l] =>
    destruct (mapM_spec _ _ f (fun _ r => Forall (side_ctx d left (drops_shape ct)) r) l) as (ls & El & Hls) end.
  - intros i Hi. assert (Hi16 : i < 16) by (destruct left; cbn in Hi; intuition (subst; cbv; lia)).
    cbv beta zeta. destruct (isempty (d_shape d i)) eqn:Ee; [exists []; split; [reflexivity|constructor]|].
    pose proof (wf_shapes U d WF i Hi16 Ee) as Hso.
    assert (Hbr : Forall (row_built U) (s_mbcs (d_shape d i))) by (apply Forall_forall; intros m Hm; exact (HB i m Hi16 Hm)).
    match goal with |- context [mapM ?f ?l] =>
      destruct (mapM_spec _ _ f (fun _ r => side_ctx d left (drops_shape ct) r) l) as (ks & Ek & Hks) end.
    + intros k Hk. apply in_seq in Hk.
      destruct (prep_shape U HU (d_shape d i) k ct false Hso Hbr ltac:(lia)) as (ts & ts' & Hc & Hrd & Hw & Hp & Hg & H1 & _).
      rewrite Hp. cbn [must bind]. rewrite (from_unicode_good U HU ts' Hg). cbn [must bind]. eexists. split; [reflexivity|].
      intros Hde. cbn [sc_empty sc_text] in *. exists (bx U ts'). split; [reflexivity|]. split; [reflexivity|].
      exists i, k. split; [destruct left; cbn in Hi |- *; tauto|]. split; [exact Hde|]. split; [lia|].
      exists ts. split; [exact Hrd|]. cbn [bx memory]. rewrite (H1 eq_refl), render_vtoks.
      destruct (drops_shape ct); [reflexivity|]. destruct Hrd as [_ Hrd]. exact Hrd.
    + exists ks. split; [exact Ek|]. clear - Hks. induction Hks; constructor; auto.
  - rewrite El. cbn [bind]. eexists. split; [reflexivity|]. clear - Hls. induction Hls; cbn [concat]; [constructor|]. apply Forall_app. auto.
Qed.

(** ** one line of the box *)
Definition vm_ok (d : design) (left drop : bool) (t : list N) (v : vmatch) : Prop := v = vmatch0 \/
  exists row trl, vside_row d left drop row /\ vm_found left row t (lead (is_blank U) t) trl v /\ blanks U (skipn (length t - trl) t).

Lemma ends_plain : forall inp li l ct, nth_error (i_lines inp) li = Some l -> okl l -> drops_input ct = false ->
  exists trl, comp_input_ends inp li ct = Ok (lead (is_blank U) (memory (l_text l)), trl) /\ trl <= length (memory (l_text l)) /\
    blanks U (skipn (length (memory (l_text l)) - trl) (memory (l_text l))).
Proof.
  intros inp li l ct Hn (E & Hok & Hnar) Hct. unfold comp_input_ends. rewrite Hn, Hct. set (m := memory (l_text l)) in *. rewrite E.
  pose proof (lead_le (is_blank U) m) as Hle. rewrite indent_pl by exact Hnar. rewrite first_pl by exact Hle. cbn [bind].
  assert (Hv : num_chars_visible (pl m) = length m) by (unfold pl; cbn [bx num_chars_visible]; rewrite visible_plain; reflexivity).
  rewrite Hv. pose proof (trail_le (is_blank U) m) as Htl.
  assert (Ht : exists tr, trailing (pl m) = tr /\ tr <= length m /\ blanks U (skipn (length m - tr) m)).
  { unfold pl. cbn [bx trailing]. rewrite visible_plain. destruct (all_blank U m) eqn:Eb.
    - exists 0. split; [reflexivity|]. split; [lia|]. rewrite Nat.sub_0_r, skipn_all. constructor.
    - eexists. split; [reflexivity|]. split; [exact Htl|]. apply Forall_forall. intros c Hc.
      pose proof (trail_skipn_blank (is_blank U) m) as Hx. rewrite forallb_forall in Hx. apply Hx. exact Hc. }
  destruct Ht as (tr & -> & Htr & Hbl). rewrite subz_le by exact Htr. cbn [bind]. rewrite first_pl by lia. cbn [bind].
  rewrite num_pl, subz_le by lia. cbn [bind]. exists tr. replace (length m - (length m - tr)) with tr by lia. auto.
Qed.

Lemma body_line_spec : forall d inp ct w e li l, drops_input ct = false ->
  Forall (side_ctx d true (drops_shape ct)) w -> Forall (side_ctx d false (drops_shape ct)) e ->
  nth_error (i_lines inp) li = Some l -> okl l ->
  exists v, (t <- must (comp_input inp li false ct) ;;
    ' it <- must (comp_input_ends inp li ct) ;;
    if length t <? snd it then Wrap
    else
      wm <- match_vertical_side U true w t (fst it) (snd it) vmatch0 ;;
      em <- match_vertical_side U false e t (fst it) (snd it) vmatch0 ;;
      Ok (wm, em)) = Ok v /\ vm_ok d true (drops_shape ct) (memory (l_text l)) (fst v) /\ vm_ok d false (drops_shape ct) (memory (l_text l)) (snd v).
Proof.
  intros d inp ct w e li l Hct Hw He Hn Hl. destruct (ends_plain inp li l ct Hn Hl Hct) as (trl & Ee & Htr & Hbl). set (m := memory (l_text l)) in *.
  unfold comp_input. rewrite Hn, Hct. cbn [must bind]. rewrite Ee. cbn [must bind fst snd].
  change (memory (l_text l)) with m. destruct (Nat.ltb_spec (length m) trl) as [|_]; [lia|].
  destruct (match_side_spec d true (drops_shape ct) w m (lead (is_blank U) m) trl vmatch0 Hw) as (v1 & E1 & H1). rewrite E1. cbn [bind].
  destruct (match_side_spec d false (drops_shape ct) e m (lead (is_blank U) m) trl vmatch0 He) as (v2 & E2 & H2). rewrite E2. cbn [bind].
  eexists. split; [reflexivity|]. cbn [fst snd]. split.
  - destruct H1 as [->|(row & Hr & Hv)]; [left; reflexivity|]. right. exists row, trl. auto.
  - destruct H2 as [->|(row & Hr & Hv)]; [left; reflexivity|]. right. exists row, trl. auto.
Qed.

Definition body_ok (d : design) (drop : bool) (ls : list line) (body : list (vmatch * vmatch)) : Prop :=
  Forall2 (fun l v => vm_ok d true drop (memory (l_text l)) (fst v) /\ vm_ok d false drop (memory (l_text l)) (snd v)) ls body.

Lemma viable_mono : forall inp d ct, input_is_mono inp = true -> comp_type_is_viable ct (input_is_mono inp) (design_is_mono d) = true ->
  drops_input ct = false.
Proof. intros inp d ct -> H. destruct ct; try reflexivity; destruct (design_is_mono d); discriminate. Qed.

Lemma match_body_spec : forall d inp ct A M B, wf_design U d -> built U d -> drops_input ct = false ->
  i_lines inp = A ++ M ++ B -> Forall okl M ->
  exists body, match_body U d inp ct (seq (length A) (length M)) = Ok body /\ body_ok d (drops_shape ct) M body.
Proof.
  intros d inp ct A M B WF HB Hct EL Hok. unfold match_body.
  assert (Hw : forall left b, exists scs, (if empty_side (d_shape d) b then Ok [] else prepare_comp_shapes_vert U d left ct) = Ok scs /\
     Forall (side_ctx d left (drops_shape ct)) scs).
  { intros left b. destruct (empty_side (d_shape d) b); [exists []; split; [reflexivity|constructor]|]. apply prep_vert_spec; assumption. }
  destruct (Hw true BLEF) as (w & -> & Hws). destruct (Hw false BRIG) as (e & -> & Hes). cbn [bind].
  assert (G : forall M' A', i_lines inp = A' ++ M' ++ B -> Forall okl M' -> exists body, mapM (fun li : nat =>
    t <- must (comp_input inp li false ct) ;;
    ' it <- must (comp_input_ends inp li ct) ;;
    if length t <? snd it then Wrap
    else
      wm <- match_vertical_side U true w t (fst it) (snd it) vmatch0 ;;
      em <- match_vertical_side U false e t (fst it) (snd it) vmatch0 ;;
      Ok (wm, em)) (seq (length A') (length M')) = Ok body /\ body_ok d (drops_shape ct) M' body).
  { clear EL Hok. induction M' as [|l M' IH]; intros A' EL Hok; [exists []; split; [reflexivity|constructor]|].
    inversion Hok as [|? ? Hl Hok']; subst. cbn [length seq mapM].
    destruct (body_line_spec d inp ct w e (length A') l Hct Hws Hes) as (v & Ev & Hv); [|exact Hl|].
    { rewrite EL, nth_error_app2, Nat.sub_diag by lia. reflexivity. }
    rewrite Ev. cbn [bind]. destruct (IH (A' ++ [l])) as (body & Eb & Hb); [rewrite <- app_assoc; exact EL|exact Hok'|].
    rewrite app_length in Eb. cbn [length] in Eb. rewrite Nat.add_1_r in Eb. rewrite Eb. cbn [bind].
    eexists. split; [reflexivity|]. constructor; assumption. }
  apply G; assumption.
Qed.

Lemma find_vertical_spec : forall d inp ct A M B, wf_design U d -> built U d -> input_is_mono inp = true -> drops_input ct = false ->
  i_lines inp = A ++ M ++ B -> Forall okl M ->
  exists ct' body drop, find_vertical_shapes U d inp (seq (length A) (length M)) ct = Ok (ct', body) /\ drops_input ct' = false /\ body_ok d drop M body.
Proof.
  intros d inp ct A M B WF HB Hm Hct EL Hok. unfold find_vertical_shapes.
  assert (H0 : body_ok d false M (map (fun _ => (vmatch0, vmatch0)) (seq (length A) (length M)))).
  { generalize (length A) as a. clear. induction M as [|l M IH]; intros a; [constructor|]. cbn [length seq map]. constructor; [|apply IH].
    split; left; reflexivity. }
  destruct (_ && _); [eauto 10|].
  assert (G : forall cts ct0 body0 drop0, drops_input ct0 = false -> body_ok d drop0 M body0 -> exists ct' body drop,
    find_vertical_types U d inp (seq (length A) (length M)) cts (ct0, body0) = Ok (ct', body) /\ drops_input ct' = false /\ body_ok d drop M body).
  { induction cts as [|c cts IH]; intros ct0 body0 drop0 Hc0 Hb0; cbn [find_vertical_types]; [eauto 10|].
    destruct (comp_type_is_viable c _ _) eqn:Ev; [|eapply IH; eassumption].
    pose proof (viable_mono _ _ _ Hm Ev) as Hc.
    destruct (match_body_spec d inp c A M B WF HB Hc EL Hok) as (body & -> & Hb). cbn [bind].
    destruct (sufficient_body_quality d body); [eauto 10|eapply IH; eassumption]. }
  eapply G; eassumption.
Qed.

(** ** cutting one line *)
Lemma between_nil : forall (m : list N) a, between m a a = [].
Proof. intros m a. unfold between. rewrite Nat.sub_diag. reflexivity. Qed.
Lemma blanks_snoc : forall m i k, blanks U (between m (S i) (S i + k)) -> (exists c, nth_error m i = Some c /\ is_blank U c = true) ->
  blanks U (between m i (i + S k)).
Proof.
  intros m i k H (c & Hc & Hb). unfold between in *. replace (i + S k - i) with (S k) by lia. replace (S i + k - S i) with k in H by lia.
  apply nth_error_split in Hc as (l1 & l2 & -> & <-).
  rewrite skipn_app, skipn_all, Nat.sub_diag. cbn [app skipn firstn].
  rewrite skipn_app in H. rewrite skipn_all2 in H by lia. replace (S (length l1) - length l1) with 1 in H by lia. cbn [app skipn] in H.
  constructor; assumption.
Qed.

Lemma conf_pad_spec : forall n m ct i, drops_input ct = false -> i <= length m ->
  exists k, confirmed_padding U n (pl m) ct i = Ok k /\ k <= n /\ i + k <= length m /\ blanks U (between m i (i + k)) /\
    (k = n \/ match skipn (i + k) m with c :: _ => is_blank U c = false | [] => True end).
Proof.
  induction n as [|n IH]; intros m ct i Hct Hi; cbn [confirmed_padding].
  - exists 0. rewrite Nat.add_0_r, between_nil. repeat split; auto; constructor.
  - unfold max_chars_line, org_char. rewrite Hct, num_pl, mem_pl. destruct (Nat.ltb_spec i (length m)) as [Hlt|Hge].
    + rewrite rdc_lt by exact Hlt. cbn [bind]. assert (Hn : nth_error m i = Some (nth i m 0%N)) by (apply nth_error_nth'; exact Hlt).
      destruct (is_blank U (nth i m 0%N)) eqn:Eb.
      * destruct (IH m ct (S i) Hct ltac:(lia)) as (k & -> & Hk & Hik & Hbl & Hmax). cbn [bind].
        exists (S k). split; [reflexivity|]. split; [lia|]. split; [lia|]. split; [apply blanks_snoc; eauto|].
        destruct Hmax as [->|Hmax]; [auto|]. right. replace (i + S k) with (S i + k) by lia. exact Hmax.
      * exists 0. rewrite Nat.add_0_r, between_nil. split; [reflexivity|]. split; [lia|]. split; [lia|]. split; [constructor|]. right.
        apply nth_error_split in Hn as (l1 & l2 & E & E1). rewrite E, skipn_app, E1, Nat.sub_diag, skipn_all2 by lia. cbn [app skipn].
        exact Eb.
    + exists 0. rewrite Nat.add_0_r, between_nil. split; [reflexivity|]. split; [lia|]. split; [lia|]. split; [constructor|]. right.
      rewrite skipn_all2 by lia. exact I.
Qed.

Lemma vm_bounds : forall d left drop t v, vm_ok d left drop t v -> v_end v <= length t /\ v_start v <= v_end v.
Proof.
  intros d left drop t v [->|(row & trl & _ & (H1 & H2 & H3 & _) & _)]; [cbn; lia|]. lia.
Qed.

Lemma split3 : forall (m : list N) a b, a <= b -> firstn b m = firstn a m ++ between m a b.
Proof.
  intros m a b H. unfold between. rewrite <- (firstn_skipn a (firstn b m)) at 1. rewrite firstn_firstn, Nat.min_l by exact H.
  f_equal. apply skipn_firstn_comm.
Qed.

Lemma start_spec : forall d drop ct t v, drops_input ct = false -> vm_ok d true drop t v ->
  exists s, calculate_start_idx U d ct (pl t) v = Ok s /\ s <= length t /\ off_left U d drop t (firstn s t).
Proof.
  intros d drop ct t v Hct Hv. unfold calculate_start_idx, back_to_org. rewrite Hct.
  destruct (Nat.ltb_spec 0 (v_quality v)) as [Hq|Hq].
  - destruct (vm_bounds _ _ _ _ _ Hv) as [Hb1 Hb2].
    destruct (conf_pad_spec (d_pad_left d) t ct (v_end v) Hct Hb1) as (k & -> & Hk & Hik & Hbl & Hmax). cbn [bind].
    eexists. split; [reflexivity|]. split; [exact Hik|].
    destruct Hv as [->|(row & trl & Hrow & (_ & Hve & _ & Hw & Hl & _) & _)]; [cbn in Hq; lia|]. right.
    exists (firstn (v_start v) t), row, (between t (v_start v) (v_end v)), (between t (v_end v) (v_end v + k)), (skipn (v_end v + k) t).
    split; [symmetry; apply firstn_skipn|]. split; [rewrite (split3 t (v_end v) (v_end v + k)) by lia; rewrite (split3 t (v_start v) (v_end v)) by lia; rewrite app_assoc; reflexivity|].
    split; [exact Hrow|]. split; [exact Hw|]. split.
    { rewrite firstn_length_le by lia. unfold between. rewrite firstn_length_le by (rewrite skipn_length; lia). specialize (Hl eq_refl). lia. }
    split; [exact Hbl|]. assert (Elen : length (between t (v_end v) (v_end v + k)) = k).
    { unfold between. rewrite firstn_length_le by (rewrite skipn_length; lia). lia. }
    rewrite Elen. split; [exact Hk|]. exact Hmax.
  - cbn [bind]. exists 0. split; [reflexivity|]. split; [lia|]. left. reflexivity.
Qed.

Lemma end_spec : forall d drop ct t v, drops_input ct = false -> vm_ok d false drop t v ->
  exists e, calculate_end_idx ct (pl t) v = Ok e /\ e <= length t /\ off_right U d drop t (skipn e t).
Proof.
  intros d drop ct t v Hct Hv. unfold calculate_end_idx, back_to_org, max_chars_line. rewrite Hct, num_pl.
  destruct (Nat.ltb_spec 0 (v_quality v)) as [Hq|Hq].
  - destruct (vm_bounds _ _ _ _ _ Hv) as [Hb1 Hb2]. eexists. split; [reflexivity|]. split; [lia|].
    destruct Hv as [->|(row & trl & Hrow & (_ & Hve & _ & Hw & _ & Hr) & Hbl)]; [cbn in Hq; lia|]. right.
    exists (firstn (v_start v) t), row, (between t (v_start v) (v_end v)), (skipn (v_end v) t).
    split; [symmetry; apply firstn_skipn|]. split.
    { unfold between. rewrite <- (firstn_skipn (v_end v - v_start v) (skipn (v_start v) t)) at 1. f_equal. rewrite skipn_skipn. f_equal. lia. }
    split; [exact Hrow|]. split; [exact Hw|]. specialize (Hr eq_refl).
    apply Forall_forall. intros c Hc. unfold blanks in Hbl. rewrite Forall_forall in Hbl. apply Hbl.
    replace (v_end v) with ((v_end v - (length t - trl)) + (length t - trl)) in Hc by lia. rewrite <- skipn_skipn in Hc.
    rewrite <- (firstn_skipn (v_end v - (length t - trl)) (skipn (length t - trl) t)). apply in_or_app. right. exact Hc.
  - eexists. split; [reflexivity|]. split; [lia|]. left. apply skipn_all.
Qed.

Lemma prepend_pl : forall s n, bxs_prepend_spaces (pl s) n = Ok (pl (spaces n ++ s)).
Proof.
  intros s n. unfold pl. rewrite (prepend_bx U HU).
  assert (E : plain (spaces n ++ s) = plain (repeat 32%N n) ++ plain s) by apply map_app. rewrite E. reflexivity.
Qed.

Definition cut_line (mode : N) (ind : nat) (l : line) (p : list N) : rline :=
  mkRline (Some (pl (spaces (if N.eqb mode 98 || N.eqb mode 0 then ind else 0) ++ p))) (l_tabpos l).

Lemma vertical_spec : forall d drop mode ind ct l v, drops_input ct = false -> okl l ->
  vm_ok d true drop (memory (l_text l)) (fst v) -> vm_ok d false drop (memory (l_text l)) (snd v) ->
  crosses U d drop (memory (l_text l)) \/
  exists p, strips U d drop (memory (l_text l)) p /\ remove_vertical U d mode ind ct l v = Ok (cut_line mode ind l p).
Proof.
  intros d drop mode ind ct l v Hct (E & Hok & _) H1 H2. set (m := memory (l_text l)) in *. unfold remove_vertical. rewrite E.
  destruct (start_spec d drop ct m (fst v) Hct H1) as (s & -> & Hs & Hl). destruct (end_spec d drop ct m (snd v) Hct H2) as (e & -> & He & Hr). cbn [bind].
  destruct (Nat.le_gt_cases s e) as [Hse|Hse].
  - right. exists (between m s e). split.
    + exists (firstn s m), (skipn e m). split; [|auto]. rewrite app_assoc, <- split3 by exact Hse. symmetry. apply firstn_skipn.
    + rewrite substr_pl by assumption. cbn [bind]. unfold cut_line. destruct (_ || _); cbn [prepend_opt bind]; [rewrite prepend_pl; reflexivity|reflexivity].
  - left. exists (firstn s m), (skipn e m). rewrite firstn_length_le, skipn_length by exact Hs. split; [lia|auto].
Qed.

Fixpoint zipl {A B C : Type} (f : A -> B -> C) (l : list A) (r : list B) : list C :=
  match l, r with x :: l', y :: r' => f x y :: zipl f l' r' | _, _ => [] end.

Lemma vertical_all_spec : forall d drop mode ind ct ls body, drops_input ct = false -> Forall okl ls -> body_ok d drop ls body ->
  Exists (fun l => crosses U d drop (memory (l_text l))) ls \/
  exists ps, Forall2 (fun l p => strips U d drop (memory (l_text l)) p) ls ps /\
    remove_vertical_all U d mode ind ct ls body = Ok (zipl (cut_line mode ind) ls ps).
Proof.
  intros d drop mode ind ct ls body Hct Hok Hb. induction Hb as [|l v ls body [H1 H2] Hb IH].
  - right. exists []. split; [constructor|reflexivity].
  - inversion Hok; subst. destruct (vertical_spec d drop mode ind ct l v) as [Hx|(p & Hp & Ep)]; try assumption; [left; constructor; exact Hx|].
    destruct IH as [Hx|(ps & Hps & Eps)]; [assumption|left; apply Exists_cons_tl; exact Hx|]. right. exists (p :: ps).
    split; [constructor; assumption|]. cbn [remove_vertical_all]. rewrite Ep. cbn [bind]. rewrite Eps. reflexivity.
Qed.

(** ** killing blank lines *)
Definition rtexts (ps : list (list N)) (rs : list rline) : Prop := Forall2 (fun p r => r_text r = Some (pl p)) ps rs.

Lemma kill_spec : forall ps rs limit, rtexts ps rs -> exists n, kill U limit rs = Ok n /\ n <= length ps /\
  kills U limit (firstn n ps) (skipn n ps).
Proof.
  intros ps rs limit H. revert limit. induction H as [|p r ps rs Hr H IH]; intros limit; cbn [kill].
  - exists 0. split; [reflexivity|]. split; [lia|]. split; [constructor|]. destruct limit; cbn; [split; [lia|auto]|auto].
  - assert (G : exists n, (b <- blank_opt U (r_text r) ;;
        if b then n <- kill U (match limit with Some k => Some (k - 1) | None => None end) rs ;; Ok (S n) else Ok 0) = Ok n /\
        n <= length (p :: ps) /\ (limit <> Some 0 -> kills U limit (firstn n (p :: ps)) (skipn n (p :: ps)))).
    { rewrite Hr. cbn [blank_opt]. rewrite blank_pl. cbn [bind]. destruct (blankb p) eqn:Eb.
      - destruct (IH (match limit with Some k => Some (k - 1) | None => None end)) as (n & -> & Hn & Hk1 & Hk2 & Hk3). cbn [bind].
        exists (S n). split; [reflexivity|]. split; [cbn; lia|]. intros Hl0. cbn [firstn skipn]. split; [constructor; [apply blankb_iff; exact Eb|exact Hk1]|].
        rewrite firstn_length_le in Hk2, Hk3 by exact Hn. cbn [length]. rewrite firstn_length_le by exact Hn. split.
        + destruct limit as [k|]; [destruct k; [congruence|lia]|exact I].
        + destruct Hk3 as [Hk3|Hk3]; [|auto]. left. destruct limit as [k|]; [|discriminate]. injection Hk3 as Hk3. destruct k; [congruence|]. f_equal. lia.
      - exists 0. split; [reflexivity|]. split; [lia|]. intros Hl0. cbn [firstn skipn]. split; [constructor|]. split; [destruct limit; cbn; [lia|exact I]|].
        right. intros Hx. apply blankb_iff in Hx. congruence. }
    destruct G as (n & G & Hn & Hk). destruct limit as [[|k]|].
    + exists 0. split; [reflexivity|]. split; [lia|]. split; [constructor|]. cbn. auto.
    + exists n. split; [exact G|]. split; [exact Hn|]. apply Hk. discriminate.
    + exists n. split; [exact G|]. split; [exact Hn|]. apply Hk. discriminate.
Qed.

(** ** the horizontal borders *)
Section Horizontal.
Variable d : design.
Hypothesis WF : wf_design U d.
Hypothesis HB : built U d.
Variable inp : input.
Hypothesis Hmono : input_is_mono inp = true.
Hypothesis Hbuilt : Forall (built_line U) (i_lines inp).

Definition some_border (top : bool) (l : line) : Prop := exists si drop text,
  si < (if top then top_h d else bottom_h d) /\ printed U true (memory (l_text l)) text /\ border_line U d top drop si text.

Lemma match_types_spec : forall (top : bool) li si l cts ct, si < (if top then top_h d else bottom_h d) ->
  nth_error (i_lines inp) li = Some l -> drops_input ct = false ->
  exists b ct', match_horiz_types U d inp top li si cts ct = Ok (b, ct') /\ drops_input ct' = false /\ (b = true -> some_border top l).
Proof.
  intros top li si l cts. intros ct Hsi Hn. revert ct. induction cts as [|c cts IH]; intros ct Hct; cbn [match_horiz_types].
  - exists false, ct. split; [reflexivity|]. split; [exact Hct|discriminate].
  - destruct (comp_type_is_viable c _ _) eqn:Ev; [|apply IH; exact Hct]. pose proof (viable_mono _ _ _ Hmono Ev) as Hc.
    assert (Hl : built_line U l) by (rewrite Forall_forall in Hbuilt; apply Hbuilt; eapply nth_error_In; exact Hn).
    assert (Hsi' : si < s_height (d_shape d (left_corner top))) by (destruct top; exact Hsi).
    destruct (horiz_total U HU d inp top li si c l WF HB Hsi' Hn Hl) as (r & -> & Hr). cbn [bind].
    destruct r; [|apply IH; exact Hc]. exists true, c. split; [reflexivity|]. split; [exact Hc|]. intros _.
    destruct (Hr eq_refl) as (text & Hp & Hbl). rewrite Hc in Hp. exists si, (drops_shape c), text. auto.
Qed.

Lemma match_any_spec : forall (top : bool) li l sis ct, Forall (fun si => si < (if top then top_h d else bottom_h d)) sis ->
  nth_error (i_lines inp) li = Some l -> drops_input ct = false ->
  exists b ct', match_any U d inp top li sis ct = Ok (b, ct') /\ drops_input ct' = false /\ (b = true -> some_border top l).
Proof.
  intros top li l sis. induction sis as [|si sis IH]; intros ct Hs Hn Hct; cbn [match_any].
  - exists false, ct. split; [reflexivity|]. split; [exact Hct|discriminate].
  - inversion Hs; subst. destruct (match_types_spec top li si l comp_types ct) as (b & c & E & Hc & Hb); try assumption.
    unfold match_horiz_line. rewrite E. cbn [bind fst snd]. destruct b; [eauto 10|]. apply IH; assumption.
Qed.

Lemma order_fwd_lt : forall h k, 0 < h -> Forall (fun i => i < h) (order_fwd h k).
Proof. intros h k Hh. apply Forall_forall. intros i Hi. apply in_map_iff in Hi as (j & <- & _). apply Nat.mod_upper_bound. lia. Qed.
Lemma order_bwd_lt : forall h k, 0 < h -> Forall (fun i => i < h) (order_bwd h k).
Proof. intros h k Hh. apply Forall_forall. intros i Hi. apply in_map_iff in Hi as (j & <- & _). apply Nat.mod_upper_bound. lia. Qed.

Lemma find_top_spec : forall n start k ct, 0 < top_h d -> drops_input ct = false -> start + k <= length (i_lines inp) ->
  exists j ct', find_top U d inp n start (top_h d) k ct = Ok (start + k + j, ct') /\ j <= n /\ start + k + j <= length (i_lines inp) /\
    drops_input ct' = false /\ (forall i, i < j -> exists l, nth_error (i_lines inp) (start + k + i) = Some l /\ some_border true l).
Proof.
  induction n as [|n IH]; intros start k ct Hh Hct Hle; cbn [find_top].
  - exists 0, ct. rewrite Nat.add_0_r. repeat split; auto. intros i Hi. lia.
  - unfold i_num_lines. destruct (Nat.ltb_spec (start + k) (length (i_lines inp))) as [Hlt|Hge].
    + destruct (nth_error (i_lines inp) (start + k)) as [l|] eqn:En; [|apply nth_error_None in En; lia].
      destruct (match_any_spec true (start + k) l (order_fwd (top_h d) (k mod top_h d)) ct) as (b & c & -> & Hc & Hb); try assumption; [apply order_fwd_lt; exact Hh|].
      cbn [bind fst snd]. destruct b.
      * destruct (IH start (S k) c Hh Hc ltac:(lia)) as (j & c' & -> & Hj & Hjl & Hc' & Hf). exists (S j), c'.
        replace (start + S k + j) with (start + k + S j) in * by lia. repeat split; auto; [lia|].
        intros [|i] Hi; [rewrite Nat.add_0_r; exists l; split; [exact En|apply Hb; reflexivity]|].
        destruct (Hf i ltac:(lia)) as (l' & Hn' & Hb'). exists l'. replace (start + k + S i) with (start + S k + i) by lia. auto.
      * exists 0, c. rewrite Nat.add_0_r. repeat split; auto; [lia|]. intros i Hi. lia.
    + exists 0, ct. rewrite Nat.add_0_r. repeat split; auto; [lia|]. intros i Hi. lia.
Qed.

Lemma find_bottom_spec : forall n stop k ct, 0 < bottom_h d -> drops_input ct = false -> k <= stop -> stop <= length (i_lines inp) ->
  exists j ct', find_bottom U d inp n stop (bottom_h d) k ct = Ok (stop - k - j, ct') /\ j <= n /\ k + j <= stop /\
    drops_input ct' = false /\ (forall i, i < j -> exists l, nth_error (i_lines inp) (stop - 1 - k - i) = Some l /\ some_border false l).
Proof.
  induction n as [|n IH]; intros stop k ct Hh Hct Hle Hs; cbn [find_bottom].
  - exists 0, ct. rewrite Nat.sub_0_r. repeat split; auto; [lia|]. intros i Hi. lia.
  - destruct (Nat.ltb_spec k stop) as [Hlt|Hge].
    + destruct (nth_error (i_lines inp) (stop - 1 - k)) as [l|] eqn:En; [|apply nth_error_None in En; lia].
      destruct (match_any_spec false (stop - 1 - k) l (order_bwd (bottom_h d) (bottom_h d - 1 - k)) ct) as (b & c & -> & Hc & Hb); try assumption; [apply order_bwd_lt; exact Hh|].
      cbn [bind fst snd]. destruct b.
      * destruct (IH stop (S k) c Hh Hc ltac:(lia) Hs) as (j & c' & -> & Hj & Hjl & Hc' & Hf). exists (S j), c'.
        replace (stop - S k - j) with (stop - k - S j) by lia. repeat split; auto; [lia|lia|].
        intros [|i] Hi; [rewrite Nat.sub_0_r; exists l; split; [exact En|apply Hb; reflexivity]|].
        destruct (Hf i ltac:(lia)) as (l' & Hn' & Hb'). exists l'. replace (stop - 1 - k - S i) with (stop - 1 - S k - i) by lia. auto.
      * exists 0, c. rewrite Nat.sub_0_r. repeat split; auto; [lia|lia|]. intros i Hi. lia.
    + exists 0, ct. rewrite Nat.sub_0_r. repeat split; auto; [lia|lia|]. intros i Hi. lia.
Qed.

(** both sides: nothing to do when the side is blank *)
Lemma top_side_spec : forall start ct, drops_input ct = false -> start <= length (i_lines inp) ->
  exists j ct', (if empty_side (d_shape d) BTOP then Ok (start, ct) else find_top_side U d inp start ct) = Ok (start + j, ct') /\
    j <= border_height d true /\ start + j <= length (i_lines inp) /\ drops_input ct' = false /\
    (forall i, i < j -> exists l, nth_error (i_lines inp) (start + i) = Some l /\ borders U d true l).
Proof.
  intros start ct Hct Hle. unfold borders, border_height, blank_side. destruct (empty_side (d_shape d) BTOP) eqn:Ee.
  - exists 0, ct. rewrite Nat.add_0_r. repeat split; auto. intros i Hi. lia.
  - assert (Hpos : 0 < top_h d).
    { pose proof (wf_corners U d WF NW ltac:(cbn; auto)) as He. unfold isempty in He. rewrite !orb_false_iff, !Nat.eqb_neq in He. unfold top_h. lia. }
    unfold find_top_side. rewrite (top_height U d WF).
    destruct (find_top_spec (top_h d) start 0 ct Hpos Hct) as (j & c & E & Hj & Hl & Hc & Hf); [lia|]. rewrite Nat.add_0_r in *.
    exists j, c. rewrite E. repeat split; auto.
Qed.
Lemma bottom_side_spec : forall stop ct, drops_input ct = false -> stop <= length (i_lines inp) ->
  exists j ct', (if empty_side (d_shape d) BBOT then Ok (stop, ct) else find_bottom_side U d inp stop ct) = Ok (stop - j, ct') /\
    j <= border_height d false /\ j <= stop /\ drops_input ct' = false /\
    (forall i, i < j -> exists l, nth_error (i_lines inp) (stop - 1 - i) = Some l /\ borders U d false l).
Proof.
  intros stop ct Hct Hle. unfold borders, border_height, blank_side. destruct (empty_side (d_shape d) BBOT) eqn:Ee.
  - exists 0, ct. rewrite Nat.sub_0_r. repeat split; auto; [lia|]. intros i Hi. lia.
  - assert (Hpos : 0 < bottom_h d).
    { pose proof (wf_corners U d WF SW ltac:(cbn; auto)) as He. unfold isempty in He. rewrite !orb_false_iff, !Nat.eqb_neq in He. unfold bottom_h. lia. }
    unfold find_bottom_side. rewrite (bottom_height U d WF).
    destruct (find_bottom_spec (bottom_h d) stop 0 ct Hpos Hct) as (j & c & E & Hj & Hl & Hc & Hf); [lia|exact Hle|]. rewrite !Nat.sub_0_r in *.
    exists j, c. rewrite E. repeat split; auto.
Qed.
End Horizontal.

Lemma slice_forall : forall (A : Type) (P : A -> Prop) (X Y Z : list A),
  (forall i, i < length Y -> exists l, nth_error (X ++ Y ++ Z) (length X + i) = Some l /\ P l) -> Forall P Y.
Proof.
  intros A P X Y Z H. apply Forall_forall. intros x Hx. apply In_nth_error in Hx as [i Hi].
  assert (Hlt : i < length Y) by (apply nth_error_Some; congruence). destruct (H i Hlt) as (l & Hn & Hp).
  rewrite nth_error_app2 in Hn by lia. replace (length X + i - length X) with i in Hn by lia. rewrite nth_error_app1 in Hn by exact Hlt. congruence.
Qed.

(** ** putting the results together *)
Lemma cut_front_pl : forall q n, okt q -> bxs_cut_front U (pl q) n = Ok (pl (skipn n q)).
Proof.
  intros q n Hq. unfold bxs_cut_front.
  assert (Hv : num_chars_visible (pl q) = length q) by (unfold pl; cbn [bx num_chars_visible]; rewrite visible_plain; reflexivity).
  rewrite Hv. destruct (Nat.leb_spec (length q) n) as [Hle|Hlt]; [rewrite skipn_all2 by exact Hle; reflexivity|].
  destruct (Nat.eqb_spec n 0) as [->|Hn]; [reflexivity|]. rewrite first_pl by lia. cbn [bind]. rewrite mem_pl.
  destruct (Nat.ltb_spec (length q) n); [lia|]. apply from_pl. rewrite <- (firstn_skipn n q) in Hq. apply okt_app in Hq. tauto.
Qed.

Lemma cut_lines_spec : forall n A M B qs, Forall2 (fun q l => l_text l = pl q /\ okt q) qs M ->
  exists M', cut_lines U n (length A) (length M) (A ++ M ++ B) = Ok (A ++ M' ++ B) /\
    Forall2 (fun q l => l_text l = pl (skipn n q)) qs M'.
Proof.
  intros n A. induction A as [|a A IH]; intros M B qs H.
  - cbn [app length]. induction H as [|q l qs M [Et Hq] H IH2].
    + exists []. cbn [app length]. split; [|constructor]. destruct B; reflexivity.
    + destruct IH2 as (M' & E' & HM'). cbn [app length cut_lines]. rewrite Et, cut_front_pl by exact Hq. cbn [must bind]. rewrite E'. cbn [bind].
      eexists (_ :: M'). split; [reflexivity|]. constructor; [reflexivity|exact HM'].
  - destruct (IH M B qs H) as (M' & E' & HM'). exists M'. cbn [app length cut_lines]. rewrite E'. split; [reflexivity|exact HM'].
Qed.

Lemma fold_min_spec : forall (A : Type) (f : A -> nat) l a, let m := fold_left (fun a x => Nat.min a (f x)) l a in
  m <= a /\ Forall (fun x => m <= f x) l /\ (m = a \/ Exists (fun x => f x = m) l).
Proof.
  intros A f l. induction l as [|x l IH]; intros a; cbn [fold_left].
  - split; [lia|]. split; [constructor|auto].
  - specialize (IH (Nat.min a (f x))). cbv zeta in *. destruct IH as (H1 & H2 & H3). split; [lia|]. split; [constructor; [lia|exact H2]|].
    destruct H3 as [H3|H3]; [|right; apply Exists_cons_tl; exact H3]. rewrite H3.
    destruct (Nat.min_spec a (f x)) as [[_ ->]|[_ ->]]; [auto|right; constructor; reflexivity].
Qed.
Definition least (ls : list line) : nat :=
  match ls with [] => 0 | l :: r => fold_left (fun a l => Nat.min a (indent (l_text l))) r (indent (l_text l)) end.
Lemma least_spec : forall ls, Forall (fun l => least ls <= indent (l_text l)) ls /\ (ls = [] \/ Exists (fun l => indent (l_text l) = least ls) ls).
Proof.
  intros [|l ls]; [split; [constructor|auto]|]. unfold least. destruct (fold_min_spec line (fun l => indent (l_text l)) ls (indent (l_text l))) as (H1 & H2 & H3).
  split; [constructor; assumption|]. right. destruct H3 as [->|H3]; [constructor; reflexivity|apply Exists_cons_tl; exact H3].
Qed.

Lemma lead_cols_le : forall q, lead_cols U q <= columns (char_cols U) (plain q).
Proof.
  intros q. unfold lead_cols, columns. rewrite visible_plain. rewrite <- (firstn_skipn (lead (is_blank U) q) q) at 3.
  generalize (firstn (lead (is_blank U) q) q) as a. generalize (skipn (lead (is_blank U) q) q) as b. intros b a.
  induction a as [|c a IH]; [cbn; lia|]. cbn [map app fold_right]. rewrite sum_cons. cbn [fold_right] in IH. lia.
Qed.

Lemma firstn_len : forall (A : Type) n (a b : list A), length a = n -> firstn n (a ++ b) = a.
Proof. intros A n a b <-. rewrite firstn_app, Nat.sub_diag, firstn_all. cbn. apply app_nil_r. Qed.
Lemma skipn_len : forall (A : Type) n (a b : list A), length a = n -> skipn n (a ++ b) = b.
Proof. intros A n a b <-. rewrite skipn_app, Nat.sub_diag, skipn_all. reflexivity. Qed.

Lemma remove_bottom_spec : forall (A : Type) (x y z : list A) bs be, length x = bs -> length y = be - bs -> bs <= be ->
  remove_bottom_from_input (x ++ y ++ z) bs be = Ok (x ++ z).
Proof.
  intros A x y z bs be Hx Hy Hle. unfold remove_bottom_from_input. destruct (Nat.ltb_spec bs be).
  - rewrite !app_length. destruct (Nat.ltb_spec (length x + (length y + length z)) be); [lia|]. rewrite (firstn_len _ bs) by exact Hx.
    rewrite app_assoc, skipn_len by (rewrite app_length; lia). reflexivity.
  - destruct y; [reflexivity|cbn in Hy; lia].
Qed.
Lemma remove_top_spec : forall (A : Type) (x y z : list A) ts te, length x = ts -> length y = te - ts -> ts <= te ->
  remove_top_from_input (x ++ y ++ z) ts te = Ok (x ++ z).
Proof.
  intros A x y z bs be Hx Hy Hle. unfold remove_top_from_input. destruct (Nat.ltb_spec bs be).
  - rewrite subz_le by (rewrite !app_length; lia). cbn [bind]. rewrite (firstn_len _ bs) by exact Hx.
    rewrite app_assoc, skipn_len by (rewrite app_length; lia). reflexivity.
  - destruct y; [reflexivity|cbn in Hy; lia].
Qed.

Lemma kills_spaces : forall i limit a b, kills U limit (map (app (spaces i)) a) (map (app (spaces i)) b) <-> kills U limit a b.
Proof.
  intros i limit a b. assert (E : forall s, blank_text U (spaces i ++ s) <-> blank_text U s) by (intros s; rewrite <- !blankb_iff, blankb_spaces; tauto).
  unfold kills. rewrite map_length, Forall_map, !Forall_forall. split; intros (H1 & H2 & H3); (split; [|split; [exact H2|]]).
  - intros x Hx. apply E. apply H1. exact Hx.
  - destruct H3 as [H3|H3]; [auto|]. destruct b; [auto|]. right. cbn [map] in H3. rewrite E in H3. exact H3.
  - intros x Hx. apply E. apply H1. exact Hx.
  - destruct H3 as [H3|H3]; [auto|]. destruct b; [auto|]. right. cbn [map]. rewrite E. exact H3.
Qed.

Lemma Forall2_rev : forall (A B : Type) (R : A -> B -> Prop) l r, Forall2 R l r -> Forall2 R (rev l) (rev r).
Proof. intros A B R l r H. induction H; [constructor|]. cbn [rev]. apply Forall2_app; [assumption|constructor; [assumption|constructor]]. Qed.
Lemma Forall2_fs : forall (A B : Type) (R : A -> B -> Prop) n l r, Forall2 R l r -> Forall2 R (firstn n l) (firstn n r) /\ Forall2 R (skipn n l) (skipn n r).
Proof.
  intros A B R n. induction n as [|n IH]; intros l r H; [split; [constructor|exact H]|]. destruct H; cbn [firstn skipn]; [split; constructor|].
  destruct (IH _ _ H0). split; [constructor; assumption|assumption].
Qed.
Lemma F2len : forall (A B : Type) (R : A -> B -> Prop) l r, Forall2 R l r -> length l = length r.
Proof. intros A B R l r H. induction H; cbn; congruence. Qed.

(** the blank lines at both ends of the body *)
Lemma killblank_spec : forall d mend kb ps X mid Z te bs i, rtexts (map (app (spaces i)) ps) mid -> length X = te -> bs = te + length mid ->
  exists p1 p2 p3 m1 m2 m3, ps = p1 ++ p2 ++ p3 /\ mid = m1 ++ m2 ++ m3 /\
    (if kb || mend then killblank U d mend kb (X ++ mid ++ Z) te bs else Ok (te, bs)) = Ok (te + length m1, bs - length m3) /\
    rtexts (map (app (spaces i)) p2) m2 /\
    kills U (kill_limit kb mend (d_pad_top d)) p1 (p2 ++ p3) /\ kills U (kill_limit kb mend (d_pad_bottom d)) (rev p3) (rev p2).
Proof.
  intros d mend kb ps X mid Z te bs i Hr HX Hbs. destruct (kb || mend) eqn:Ek.
  2:{ apply orb_false_iff in Ek as [-> ->]. exists [], ps, [], [], mid, []. rewrite !app_nil_r. cbn [app length]. rewrite Nat.add_0_r, Nat.sub_0_r.
      split; [reflexivity|]. split; [reflexivity|]. split; [reflexivity|]. split; [exact Hr|]. cbn [kill_limit rev]. split; (split; [constructor|]); cbn; auto. }
  assert (El : forall p, (if mend && negb kb then Some p else None) = kill_limit kb mend p) by (intros p; destruct kb, mend; cbn in *; congruence).
  unfold killblank. rewrite !El. rewrite (skipn_len _ te) by exact HX. rewrite firstn_len by lia.
  destruct (kill_spec _ _ (kill_limit kb mend (d_pad_top d)) Hr) as (n1 & -> & Hn1 & Hk1). cbn [bind].
  pose proof (F2len _ _ _ _ _ Hr) as Hlen. rewrite map_length in *.
  destruct (Forall2_fs _ _ _ n1 _ _ Hr) as [Ha Hb]. fold (rtexts (skipn n1 (map (app (spaces i)) ps)) (skipn n1 mid)) in Hb.
  assert (Es : firstn (bs - (te + n1)) (skipn (te + n1) (X ++ mid ++ Z)) = skipn n1 mid).
  { rewrite <- (firstn_skipn n1 mid) at 1. rewrite <- app_assoc, app_assoc, skipn_len by (rewrite app_length, firstn_length_le; lia).
    rewrite firstn_len by (rewrite skipn_length; lia). reflexivity. }
  rewrite Es. destruct (kill_spec _ _ (kill_limit kb mend (d_pad_bottom d)) (Forall2_rev _ _ _ _ _ Hb)) as (n2 & -> & Hn2 & Hk2). cbn [bind].
  rewrite rev_length, skipn_length, map_length in Hn2.
  set (q := skipn n1 ps) in *. set (m := skipn n1 mid) in *. assert (Hq : length q = length ps - n1) by apply skipn_length.
  assert (Hm : length m = length mid - n1) by apply skipn_length.
  assert (Eq : skipn n1 (map (app (spaces i)) ps) = map (app (spaces i)) q) by (apply skipn_map). rewrite Eq in *.
  assert (Ef : firstn n1 (map (app (spaces i)) ps) = map (app (spaces i)) (firstn n1 ps)) by (apply firstn_map). rewrite Ef in *.
  apply kills_spaces in Hk1. rewrite <- map_rev in Hk2. rewrite firstn_map, skipn_map in Hk2. apply kills_spaces in Hk2.
  rewrite firstn_rev, skipn_rev in Hk2. rewrite Hq in Hk2.
  exists (firstn n1 ps), (firstn (length q - n2) q), (skipn (length q - n2) q), (firstn n1 mid), (firstn (length m - n2) m), (skipn (length m - n2) m).
  rewrite !firstn_skipn. split; [reflexivity|]. split; [reflexivity|].
  rewrite firstn_length_le by lia. rewrite skipn_length. split; [f_equal; f_equal; lia|].
  split; [|split; [exact Hk1|rewrite Hq; exact Hk2]].
  rewrite <- firstn_map. replace (length m) with (length q) by lia. apply (Forall2_fs _ _ _ (length q - n2) _ _ Hb).
Qed.

Lemma settle_keep : forall ls, mapM settle (map keep_line ls) = Ok ls.
Proof. induction ls as [|[t k] ls IH]; [reflexivity|]. cbn [map mapM]. unfold keep_line at 1, settle at 1. cbn [r_text bind]. rewrite IH. reflexivity. Qed.
Lemma settle_texts : forall ps rs, rtexts ps rs -> exists ls, mapM settle rs = Ok ls /\ Forall2 (fun p l => l_text l = pl p) ps ls.
Proof.
  intros ps rs H. induction H as [|p r ps rs Hr H IH]; [exists []; split; [reflexivity|constructor]|]. destruct IH as (ls & E & Hl).
  cbn [mapM]. unfold settle at 1. rewrite Hr. cbn [bind]. rewrite E. eexists. split; [reflexivity|]. constructor; [reflexivity|exact Hl].
Qed.
Lemma mapM_app : forall (A B : Type) (f : A -> res B) l r x y, mapM f l = Ok x -> mapM f r = Ok y -> mapM f (l ++ r) = Ok (x ++ y).
Proof.
  intros A B f l. induction l as [|a l IH]; intros r x y Hx Hy; cbn [mapM app] in *; [injection Hx as <-; exact Hy|].
  destruct (f a); try discriminate. cbn [bind] in *. destruct (mapM f l) as [x'| | | |]; try discriminate. cbn [bind] in Hx. injection Hx as <-.
  rewrite (IH r x' y eq_refl Hy). reflexivity.
Qed.
Lemma zip_texts : forall mode ind ls ps, length ls = length ps ->
  rtexts (map (app (spaces (if N.eqb mode 98 || N.eqb mode 0 then ind else 0))) ps) (zipl (cut_line mode ind) ls ps).
Proof. intros mode ind ls. induction ls as [|l ls IH]; intros [|p ps] H; cbn in H; try discriminate; cbn [map zipl]; constructor; [reflexivity|]. apply IH. congruence. Qed.

Lemma narrow_prefix : forall p r, narrow_lead U (p ++ r) -> narrow_lead U p.
Proof.
  intros p r H. unfold narrow_lead in *. set (n := lead (is_blank U) p).
  assert (Hle : n <= lead (is_blank U) (p ++ r)) by (rewrite lead_app; unfold n; destruct (forallb (is_blank U) p) eqn:E; [|lia];
     pose proof (lead_le (is_blank U) p); lia).
  apply Forall_forall. intros c Hc. rewrite Forall_forall in H. apply H.
  apply (In_firstn _ n). rewrite firstn_firstn, Nat.min_l by exact Hle. rewrite firstn_app. apply in_or_app. left. exact Hc.
Qed.

Lemma narrow_sp : forall n p, narrow_lead U p -> narrow_lead U (spaces n ++ p).
Proof.
  intros n p H. induction n as [|n IH]; [exact H|]. unfold narrow_lead in *. cbn [spaces repeat app lead]. rewrite (blank32 U HU). cbn [firstn].
  constructor; [|exact IH]. apply char_cols_32.
Qed.

Lemma front_nil : forall d drop t front, blank_side d BLEF = true -> off_left U d drop t front -> front = [].
Proof.
  intros d drop t front He [H|(a & row & r & pad & rest & _ & _ & (i & k & Hi & Hd & _) & _)]; [exact H|]. exfalso.
  unfold blank_side, empty_side in He. rewrite forallb_forall in He.
  assert (In i (side_of BLEF)) by (cbv in Hi |- *; intuition). apply He in H. congruence.
Qed.

Lemma okt_mid : forall a b c, okt (a ++ b ++ c) -> okt b.
Proof. intros a b c H. apply okt_app in H as [_ H]. apply okt_app in H as [H _]. exact H. Qed.

Lemma blank_lead : forall n q, n <= lead (is_blank U) q -> blanks U (firstn n q).
Proof.
  intros n. induction n as [|n IH]; intros q H; [constructor|]. destruct q as [|c q]; cbn [lead] in H; [lia|]. destruct (is_blank U c) eqn:E; [|lia].
  cbn [firstn]. constructor; [exact E|apply IH; lia].
Qed.

Lemma strips_okt : forall d drop t p, strips U d drop t p -> okt t -> okt p.
Proof. intros d drop t p (f & b & -> & _) H. apply okt_mid in H. exact H. Qed.

Lemma apply_spec : forall d drop mode kb mend ct vs pre top body bottom post inp, drops_input ct = false ->
  i_lines inp = pre ++ (top ++ body ++ bottom) ++ post -> Forall okl (i_lines inp) -> body_ok d drop body vs ->
  let te := length pre + length top in let bs := te + length body in let be := bs + length bottom in
  Exists (fun l => crosses U d drop (memory (l_text l))) body \/
  exists ps p1 p2 p3 mid c out, apply_results_to_input U d mode kb mend ct vs (length pre) te bs be inp = Ok out /\
    Forall2 (fun l t => strips U d drop (memory (l_text l)) t) body ps /\ ps = p1 ++ p2 ++ p3 /\
    kills U (kill_limit kb mend (d_pad_top d)) p1 (p2 ++ p3) /\
    kills U (kill_limit kb mend (d_pad_bottom d)) (rev p3) (rev p2) /\
    (blank_side d BLEF = false -> c = 0) /\ c <= d_pad_left d /\
    (let all := map (fun l => memory (l_text l)) (pre ++ post) ++ map (app (spaces (indentation mode inp))) p2 in
     Forall (fun t => c <= lead (is_blank U) t) all /\
     (blank_side d BLEF = true -> c = d_pad_left d \/ all = [] \/ Exists (fun t => lead (is_blank U) t = c) all)) /\
    Forall2 (fun t l => exists z, spaces (indentation mode inp) ++ t = z ++ memory (l_text l) /\ blanks U z /\ length z = c /\
      bxs_from_unicode U (memory (l_text l)) = Ok (l_text l)) p2 mid /\
    i_lines out = pre ++ mid ++ post /\ i_final_newline out = i_final_newline inp.
Proof.
  intros d drop mode kb mend ct vs pre top body bottom post inp Hct EL Hok Hb te bs be.
  rewrite EL in Hok. repeat rewrite Forall_app in Hok. destruct Hok as (Hpre & (Htop & Hbody & Hbot) & Hpost).
  unfold apply_results_to_input. cbv zeta. rewrite EL.
  assert (Ebody : firstn (bs - te) (skipn te (pre ++ (top ++ body ++ bottom) ++ post)) = body).
  { replace (pre ++ (top ++ body ++ bottom) ++ post) with ((pre ++ top) ++ body ++ bottom ++ post) by (rewrite <- !app_assoc; reflexivity).
    rewrite skipn_len by (apply app_length). apply firstn_len. unfold bs. lia. }
  rewrite Ebody. destruct (vertical_all_spec d drop mode (i_indent inp) ct body vs Hct Hbody Hb) as [Hx|(ps & Hps & ->)]; [left; exact Hx|right].
  cbn [bind]. pose proof (F2len _ _ _ _ _ Hps) as Hlen. pose proof (zip_texts mode (i_indent inp) body ps Hlen) as Hz.
  set (i := if N.eqb mode 98 || N.eqb mode 0 then i_indent inp else 0) in *. fold (indentation mode inp) in i. change i with (indentation mode inp) in *. clear i.
  set (i := indentation mode inp) in *. set (mid := zipl (cut_line mode (i_indent inp)) body ps) in *.
  pose proof (F2len _ _ _ _ _ Hz) as Hml. rewrite map_length in Hml.
  assert (E1 : (if te <? bs then map keep_line (firstn te (pre ++ (top ++ body ++ bottom) ++ post)) ++ mid ++ map keep_line (skipn bs (pre ++ (top ++ body ++ bottom) ++ post))
                else map keep_line (pre ++ (top ++ body ++ bottom) ++ post)) =
               (map keep_line pre ++ map keep_line top) ++ mid ++ map keep_line bottom ++ map keep_line post).
  { replace (pre ++ (top ++ body ++ bottom) ++ post) with ((pre ++ top) ++ body ++ bottom ++ post) by (rewrite <- !app_assoc; reflexivity).
    destruct (Nat.ltb_spec te bs).
    - rewrite firstn_len by (apply app_length). rewrite (app_assoc (pre ++ top) body), skipn_len by (rewrite !app_length; reflexivity). rewrite !map_app. reflexivity.
    - assert (body = []) by (destruct body; [reflexivity|unfold bs in *; cbn in *; lia]). subst body. destruct ps; [|discriminate].
      cbn [app]. rewrite !map_app. reflexivity. }
  rewrite E1. clear E1.
  destruct (killblank_spec d mend kb ps (map keep_line pre ++ map keep_line top) mid (map keep_line bottom ++ map keep_line post) te bs i Hz)
    as (p1 & p2 & p3 & m1 & m2 & m3 & Eps & Emid & -> & Hr2 & Hk1 & Hk2); [rewrite app_length, !map_length; reflexivity|unfold bs; lia|].
  cbn [bind]. rewrite Emid in Hml. rewrite Emid. clear Emid. rewrite !app_length in Hml.
  assert (E2 : remove_bottom_from_input ((map keep_line pre ++ map keep_line top) ++ (m1 ++ m2 ++ m3) ++ map keep_line bottom ++ map keep_line post) (bs - length m3) be =
    Ok (map keep_line pre ++ (map keep_line top ++ m1) ++ m2 ++ map keep_line post)).
  { replace ((map keep_line pre ++ map keep_line top) ++ (m1 ++ m2 ++ m3) ++ map keep_line bottom ++ map keep_line post)
      with ((map keep_line pre ++ (map keep_line top ++ m1) ++ m2) ++ (m3 ++ map keep_line bottom) ++ map keep_line post) by (rewrite <- !app_assoc; reflexivity).
    rewrite remove_bottom_spec; [rewrite <- !app_assoc; reflexivity| | |]; rewrite ?app_length, ?map_length; unfold be, bs, te; lia. }
  rewrite E2. clear E2. cbn [bind].
  rewrite remove_top_spec by (rewrite ?app_length, ?map_length; unfold te; lia). cbn [bind].
  destruct (settle_texts _ _ Hr2) as (s2 & Es & Hs2). rewrite (mapM_app _ _ _ _ _ _ _ (settle_keep pre) (mapM_app _ _ _ _ _ _ _ Es (settle_keep post))).
  cbn [bind]. fold (least (pre ++ s2 ++ post)). set (ls4 := pre ++ s2 ++ post) in *. change (match ls4 with [] => 0 | x :: r => fold_left (fun a y => Nat.min a (indent (l_text y))) r (indent (l_text x)) end) with (least ls4).
  assert (Hp2 : Forall okt p2).
  { apply Forall_forall. intros p Hp. assert (Hin : In p ps) by (rewrite Eps; apply in_or_app; right; apply in_or_app; left; exact Hp). clear - Hps Hin Hbody.
    induction Hps as [|l q ls qs H Hs IH]; [destruct Hin|]. inversion Hbody; subst. destruct Hin as [->|Hin]; [|apply IH; assumption].
    eapply strips_okt; [exact H|]. destruct H2 as (_ & H2 & _). exact H2. }
  assert (Hq : Forall2 (fun q l => l_text l = pl q /\ okt q) (map (app (spaces i)) p2) s2).
  { clear - Hs2 Hp2 HU. revert s2 Hs2. induction Hp2 as [|p p2 Hp Hp2 IH]; intros s2 H; inversion H; subst; cbn [map]; constructor; [|apply IH; assumption].
    split; [assumption|]. apply okt_app. split; [apply okt_spaces|exact Hp]. }
  pose proof (F2len _ _ _ _ _ Hs2) as Hs2l. rewrite map_length in Hs2l. pose proof (F2len _ _ _ _ _ Hr2) as Hm2l. rewrite map_length in Hm2l.
  exists ps, p1, p2, p3.
  set (c := if empty_side (d_shape d) BLEF then Nat.min (least ls4) (d_pad_left d) else 0).
  assert (Hall : let all := map (fun l => memory (l_text l)) (pre ++ post) ++ map (app (spaces i)) p2 in
     Forall (fun t => c <= lead (is_blank U) t) all /\
     (blank_side d BLEF = true -> c = d_pad_left d \/ all = [] \/ Exists (fun t => lead (is_blank U) t = c) all)).
  { cbv zeta. unfold blank_side, c. destruct (empty_side (d_shape d) BLEF) eqn:Ee; [|split; [apply Forall_forall; intros; lia|discriminate]].
    assert (Hi1 : forall l, okl l -> indent (l_text l) = lead (is_blank U) (memory (l_text l))) by (intros l (E & _ & Hn); rewrite E at 1; apply indent_pl; exact Hn).
    assert (Hi2 : Forall2 (fun q l => indent (l_text l) = lead (is_blank U) q) (map (app (spaces i)) p2) s2).
    { assert (Hn2 : Forall (narrow_lead U) p2).
      { apply Forall_forall. intros p Hp. assert (Hin : In p ps) by (rewrite Eps; apply in_or_app; right; apply in_or_app; left; exact Hp). clear - Hps Hin Hbody Ee.
        induction Hps as [|l q ls qs H Hs IH]; [destruct Hin|]. inversion Hbody; subst. destruct Hin as [->|Hin]; [|apply IH; assumption].
        destruct H as (f & b & Et & Hf & _). rewrite (front_nil d drop _ f Ee Hf) in Et. cbn [app] in Et. destruct H2 as (_ & _ & H2). rewrite Et in H2.
        eapply narrow_prefix. exact H2. }
      clear - Hs2 Hn2 HU. revert s2 Hs2. induction Hn2 as [|p p2 Hp Hp2 IH]; intros s2 H; inversion H; subst; cbn [map]; constructor; [|apply IH; assumption].
      rewrite H2. apply indent_pl. apply narrow_sp. exact Hp. }
    destruct (least_spec ls4) as [L1 L2]. unfold ls4 in L1. rewrite !Forall_app in L1. fold ls4 in L1. destruct L1 as (La & Lb & Lc). split.
    - rewrite map_app, !Forall_app. split; [split; rewrite Forall_map|].
      + apply Forall_forall. intros l Hl. rewrite Forall_forall in La, Hpre. specialize (La l Hl). rewrite Hi1 in La by (apply Hpre; exact Hl). lia.
      + apply Forall_forall. intros l Hl. rewrite Forall_forall in Lc, Hpost. specialize (Lc l Hl). rewrite Hi1 in Lc by (apply Hpost; exact Hl). lia.
      + clear - Hi2 Lb. set (n := least ls4) in *. clearbody n. clear ls4. revert Lb.
        induction Hi2 as [|q l qs ls E H IH]; intros Lb; [constructor|]. inversion Lb; subst. constructor; [lia|auto].
    - intros _. destruct (Nat.min_spec (least ls4) (d_pad_left d)) as [[_ ->]|[_ ->]]; [|auto]. right. destruct L2 as [L2|L2].
      + left. unfold ls4 in L2. apply app_eq_nil in L2 as [-> L2]. apply app_eq_nil in L2 as [-> ->]. inversion Hs2 as [Hx|]. destruct p2; [reflexivity|discriminate].
      + right. apply Exists_exists in L2 as (l & Hl & El). apply Exists_exists. unfold ls4 in Hl. rewrite !in_app_iff in Hl. destruct Hl as [Hl|[Hl|Hl]].
        * exists (memory (l_text l)). rewrite <- Hi1 by (rewrite Forall_forall in Hpre; apply Hpre; exact Hl). split; [|exact El].
          apply in_or_app. left. apply in_map_iff. exists l. split; [reflexivity|]. apply in_or_app. auto.
        * assert (G : exists q, In q (map (app (spaces i)) p2) /\ indent (l_text l) = lead (is_blank U) q).
          { clear - Hi2 Hl. induction Hi2; [destruct Hl|]. destruct Hl as [->|Hl]; [eexists; split; [left; reflexivity|assumption]|].
            destruct (IHHi2 Hl) as (q & ? & ?). exists q. split; [right; assumption|assumption]. }
          destruct G as (q & Gq & Eq). exists q. split; [apply in_or_app; right; exact Gq|congruence].
        * exists (memory (l_text l)). rewrite <- Hi1 by (rewrite Forall_forall in Hpost; apply Hpost; exact Hl). split; [|exact El].
          apply in_or_app. left. apply in_map_iff. exists l. split; [reflexivity|]. apply in_or_app. auto. }
  assert (Hcp : c <= d_pad_left d) by (unfold c; destruct (empty_side _ _); lia).
  assert (Hc0 : blank_side d BLEF = false -> c = 0) by (unfold c, blank_side; intros ->; reflexivity).
  destruct (Nat.eqb_spec c 0) as [Ec|Ec].
  - exists s2, 0. rewrite Ec in *. eexists. split; [reflexivity|]. repeat (split; [assumption||reflexivity|]). cbn [i_lines i_final_newline]. split; [|auto].
    clear - HU Hq. revert s2 Hq. induction p2 as [|p p2 IH]; intros s2 H; inversion H as [|? ? ? ? [H2 H2o]]; subst; constructor; [|apply IH; assumption].
    exists []. rewrite H2, mem_pl. split; [reflexivity|]. split; [constructor|]. split; [reflexivity|]. apply from_pl. exact H2o.
  - replace (bs - length m3 - (te + length m1)) with (length s2) by (unfold bs; lia).
    destruct (cut_lines_spec c pre s2 post _ Hq) as (M' & EM & HM'). fold ls4 in EM. rewrite EM. cbn [bind].
    assert (Hmax : c <= maxl (map (fun l => num_columns (l_text l)) ls4)).
    { assert (Hcl : c <= least ls4) by (unfold c; destruct (empty_side _ _); lia). destruct (least_spec ls4) as [L1 _].
      destruct ls4 as [|l4 r4] eqn:E4; [cbn in Hcl; lia|]. inversion L1; subst.
      assert (Hlp : exists q, l_text l4 = pl q).
      { assert (Hin : In l4 ls4) by (rewrite E4; left; reflexivity). unfold ls4 in Hin. rewrite !in_app_iff in Hin. destruct Hin as [Hin|[Hin|Hin]].
        - rewrite Forall_forall in Hpre. destruct (Hpre l4 Hin) as (E & _). eauto.
        - clear - Hs2 Hin. induction Hs2; [destruct Hin|]. destruct Hin as [->|Hin]; eauto.
        - rewrite Forall_forall in Hpost. destruct (Hpost l4 Hin) as (E & _). eauto. }
      destruct Hlp as (q & Eq). pose proof (lead_cols_le q) as Hlc.
      assert (indent (l_text l4) <= num_columns (l_text l4)).
      { rewrite Eq. unfold pl. cbn [bx indent num_columns]. rewrite visible_plain. exact Hlc. }
      assert (num_columns (l_text l4) <= maxl (map (fun l => num_columns (l_text l)) (l4 :: r4))) by (apply maxl_ge; left; reflexivity). lia. }
    rewrite subz_le by exact Hmax. cbn [bind]. exists M', c. eexists. split; [reflexivity|]. repeat (split; [assumption||reflexivity|]).
    cbn [i_lines i_final_newline]. split; [|auto].
    cbv zeta in Hall. destruct Hall as [Hall _]. rewrite Forall_app in Hall. destruct Hall as [_ Hall]. rewrite Forall_map in Hall.
    clear - HU HM' Hall Hp2. revert M' HM'. induction p2 as [|p p2 IH]; intros M' H; inversion H; subst; constructor; [|inversion Hall; inversion Hp2; apply IH; assumption].
    inversion Hall as [|? ? Hc Hx]; subst. exists (firstn c (spaces i ++ p)). rewrite H2, mem_pl, firstn_skipn. split; [reflexivity|].
    split; [apply blank_lead; exact Hc|]. split; [apply firstn_length_le; pose proof (lead_le (is_blank U) (spaces i ++ p)); lia|].
    apply from_pl. inversion Hp2 as [|? ? Hpo _]; subst.
    assert (Ho : okt (firstn c (spaces i ++ p) ++ skipn c (spaces i ++ p))) by (rewrite firstn_skipn; apply okt_app; split; [apply okt_spaces|exact Hpo]).
    apply okt_app in Ho. tauto.
Qed.

(** ** the whole removal *)
Lemma last_ok : forall pre core l r post, Forall okl (pre ++ core ++ post) -> rev core = l :: r -> ~ blank_l l -> Forall blank_l post ->
  first_nonblank U (rev (pre ++ core ++ post)) 0 = Ok (Some (length post)).
Proof.
  intros pre core l r post Hok Er Hl Hp. rewrite !rev_app_distr, Er, <- app_assoc. cbn [app].
  rewrite <- (rev_length post). apply first_nonblank_spec; [|apply Forall_rev; exact Hp|exact Hl].
  change (l :: r ++ rev pre) with ((l :: r) ++ rev pre). rewrite <- Er, app_assoc, <- !rev_app_distr. apply Forall_rev. exact Hok.
Qed.

Definition sound_line (l : line) : Prop := built_line U l /\ ~ In 27%N (memory (l_text l)).
Lemma sound_okl : forall ls, Forall sound_line ls -> Forall okl ls.
Proof. intros ls H. eapply Forall_impl; [|exact H]. intros l [H1 H2]. apply line_plain; assumption. Qed.

(** the borders that were found do not overlap *)
Definition apart (d : design) (pre core post : list line) : Prop := forall j j', j <= border_height d true -> j' <= border_height d false ->
  length pre + j <= length pre + length core + length post -> j' <= length pre + length core ->
  (forall i, i < j -> exists l, nth_error (pre ++ core ++ post) (length pre + i) = Some l /\ borders U d true l) ->
  (forall i, i < j' -> exists l, nth_error (pre ++ core ++ post) (length pre + length core - 1 - i) = Some l /\ borders U d false l) ->
  j + j' <= length core.

Lemma remove_spec : forall d mode kb mend inp pre x core y post, wf_design U d -> built U d -> Forall sound_line (i_lines inp) ->
  i_lines inp = pre ++ core ++ post -> Forall blank_l pre -> Forall blank_l post ->
  hd_error core = Some x -> hd_error (rev core) = Some y -> ~ blank_l x -> ~ blank_l y -> apart d pre core post ->
  (exists out, remove_box U d mode kb mend inp = Ok out /\ removed U d mode kb mend inp out) \/
  (exists l drop, In l core /\ crosses U d drop (memory (l_text l))).
Proof.
  intros d mode kb mend inp pre x core y post WF HB Hs EL Hpre Hpost Hx Hy Hnx Hny Hap.
  pose proof (mono_input U HU inp Hs) as Hmono. pose proof (sound_okl _ Hs) as Hok.
  assert (Hb : Forall (built_line U) (i_lines inp)) by (eapply Forall_impl; [|exact Hs]; intros l [H _]; exact H).
  destruct core as [|x' core']; [discriminate|]. injection Hx as ->. set (core := x :: core') in *.
  destruct (rev core) as [|y' rc] eqn:Erc; [discriminate|]. injection Hy as ->.
  assert (Hlen : i_num_lines inp = length pre + length core + length post) by (unfold i_num_lines; rewrite EL, !app_length; lia).
  assert (Hc1 : 1 <= length core) by (unfold core; cbn; lia).
  unfold remove_box, find_first_line, find_last_line. cbv zeta.
  assert (Hok' : Forall okl (pre ++ core ++ post)) by (rewrite <- EL; exact Hok).
  assert (E1 : first_nonblank U (i_lines inp) 0 = Ok (Some (length pre))) by (rewrite EL; apply (first_nonblank_spec pre x (core' ++ post) 0); assumption).
  assert (E2 : first_nonblank U (rev (i_lines inp)) 0 = Ok (Some (length post))) by (rewrite EL; apply (last_ok pre core y rc post); assumption).
  rewrite E1, E2. cbn [bind]. rewrite Hlen. 
  destruct (Nat.leb_spec (length pre + length core + length post) (length pre)); [lia|].
  destruct (top_side_spec d WF HB inp Hmono Hb (length pre) literal eq_refl) as (j & ct1 & -> & Hj & Hjl & Hct1 & Hjf); [unfold i_num_lines in Hlen; lia|].
  cbn [bind fst snd]. rewrite subz_le by lia. cbn [bind].
  replace (S (length pre + length core + length post - 1 - length post)) with (length pre + length core) by lia.
  destruct (bottom_side_spec d WF HB inp Hmono Hb (length pre + length core) ct1 Hct1) as (j' & ct2 & -> & Hj' & Hjl' & Hct2 & Hjf'); [unfold i_num_lines in Hlen; lia|].
  cbn [bind fst snd].
  assert (Hjj : j + j' <= length core).
  { apply Hap; try assumption; [unfold i_num_lines in Hlen; lia| |]; intros i Hi; rewrite <- EL; auto. }
  set (top := firstn j core). set (body := firstn (length core - j - j') (skipn j core)). set (bottom := skipn (length core - j - j') (skipn j core)).
  assert (Ecore : core = top ++ body ++ bottom) by (unfold top, body, bottom; rewrite !firstn_skipn; reflexivity).
  assert (Htl : length top = j) by (apply firstn_length_le; lia).
  assert (Hbl : length body = length core - j - j') by (unfold body; rewrite firstn_length_le; [reflexivity|rewrite skipn_length; lia]).
  assert (Hbo : length bottom = j') by (unfold bottom; rewrite !skipn_length; lia).
  clearbody top body bottom. clear Hap.
  assert (EL2 : i_lines inp = (pre ++ top) ++ body ++ bottom ++ post) by (rewrite EL, Ecore, <- !app_assoc; reflexivity).
  assert (EL3 : i_lines inp = pre ++ (top ++ body ++ bottom) ++ post) by (rewrite <- Ecore; exact EL).
  assert (Hv : exists ct3 vs drop, (if length pre + j <? length pre + length core - j' then find_vertical_shapes U d inp (seq (length pre + j) (length pre + length core - j' - (length pre + j))) ct2
      else Ok (ct2, [])) = Ok (ct3, vs) /\ drops_input ct3 = false /\ body_ok d drop body vs).
  { destruct (Nat.ltb_spec (length pre + j) (length pre + length core - j')).
    - destruct (find_vertical_spec d inp ct2 (pre ++ top) body (bottom ++ post) WF HB Hmono Hct2 EL2) as (ct3 & vs & drop & E & H1 & H2).
      + rewrite EL2 in Hok. repeat rewrite Forall_app in Hok. tauto.
      + rewrite app_length, Htl, Hbl in E. replace (length core - j - j') with (length pre + length core - j' - (length pre + j)) in E by lia. eauto 10.
    - exists ct2, [], false. split; [reflexivity|]. split; [exact Hct2|]. clear Ecore EL2 EL3. destruct body as [|b0 body]; [apply Forall2_nil|cbn [length] in Hbl; lia]. }
  destruct Hv as (ct3 & vs & drop & -> & Hct3 & Hvs). cbn [bind fst snd].
  pose proof (apply_spec d drop mode kb mend ct3 vs pre top body bottom post inp Hct3 EL3 Hok Hvs) as Ha. cbv zeta in Ha.
  rewrite Htl, Hbl, Hbo in Ha. replace (length pre + j + (length core - j - j')) with (length pre + length core - j') in Ha by lia.
  replace (length pre + length core - j' + j') with (length pre + length core) in Ha by lia.
  destruct Ha as [Ha|(ps & p1 & p2 & p3 & mid & c & out & Eo & Ha)].
  { right. apply Exists_exists in Ha as (l & Hl & Hc). exists l, drop. split; [rewrite Ecore; apply in_or_app; right; apply in_or_app; left; exact Hl|exact Hc]. }
  left. exists out. split; [exact Eo|]. destruct Ha as (Ha1 & Ha2 & Ha3 & Ha4 & Ha5 & Ha6 & Ha7 & Ha8 & Ha9 & Ha10).
  exists pre, top, body, bottom, post, drop, ps, p1, p2, p3, mid, c.
  assert (Hbt : Forall (borders U d true) top).
  { apply (slice_forall _ _ pre top (body ++ bottom ++ post)). intros i Hi. rewrite Htl in Hi. destruct (Hjf i Hi) as (l & Hn & Hbo').
    exists l. rewrite EL2, <- app_assoc in Hn. auto. }
  assert (Hbb : Forall (borders U d false) bottom).
  { apply (slice_forall _ _ (pre ++ top ++ body) bottom post). intros i Hi. rewrite Hbo in Hi. destruct (Hjf' (j' - 1 - i) ltac:(lia)) as (l & Hn & Hbo').
    exists l. split; [|exact Hbo']. rewrite <- Hn, EL2, <- !app_assoc. f_equal. rewrite !app_length, Htl, Hbl. lia. }
  rewrite Htl, Hbo. cbv zeta in Ha7 |- *. repeat (split; [assumption|]). exact Ha10.
Qed.

Lemma apart_heights : forall d pre core post, border_height d true + border_height d false <= length core -> apart d pre core post.
Proof. intros d pre core post H j j' Hj Hj' _ _ _ _. lia. Qed.

(** either side of the box is only one border *)
Lemma apart_lines : forall d pre core post,
  Forall (fun l => ~ (borders U d true l /\ borders U d false l)) core ->
  Forall (fun l => ~ borders U d false l) pre -> Forall (fun l => ~ borders U d true l) post -> 1 <= length core -> apart d pre core post.
Proof.
  intros d pre core post Hc Hp Hq Hn j j' Hj Hj' Hl Hl' Ht Hb. destruct (Nat.le_gt_cases (j + j') (length core)) as [?|Hgt]; [assumption|exfalso].
  set (n := Nat.max (length pre) (length pre + length core - j')).
  destruct (Nat.eq_dec j 0) as [->|Hj0].
  - (* bottom reaches into [pre] *)
    destruct (Hb (length core) ltac:(lia)) as (l & El & Hbl). rewrite nth_error_app1 in El by lia.
    rewrite Forall_forall in Hp. apply (Hp l); [eapply nth_error_In; exact El|exact Hbl].
  - destruct (Nat.eq_dec j' 0) as [->|Hj0'].
    + destruct (Ht (length core) ltac:(lia)) as (l & El & Hbl). rewrite nth_error_app2 in El by lia. rewrite nth_error_app2 in El by lia.
      rewrite Forall_forall in Hq. apply (Hq l); [eapply nth_error_In; exact El|exact Hbl].
    + destruct (Ht (n - length pre) ltac:(lia)) as (l & El & Hbl). destruct (Hb (length pre + length core - 1 - n) ltac:(lia)) as (l2 & El2 & Hbl2).
      replace (length pre + (n - length pre)) with n in El by lia.
      replace (length pre + length core - 1 - (length pre + length core - 1 - n)) with n in El2 by lia.
      assert (l2 = l) as -> by congruence. rewrite nth_error_app2 in El by lia. rewrite nth_error_app1 in El by lia.
      rewrite Forall_forall in Hc. apply (Hc l); [eapply nth_error_In; exact El|auto].
Qed.

Lemma remove_blank : forall d mode kb mend inp, Forall sound_line (i_lines inp) -> Forall blank_l (i_lines inp) ->
  remove_box U d mode kb mend inp = Ok inp.
Proof.
  intros d mode kb mend inp Hs Hb. unfold remove_box, find_first_line. rewrite (first_nonblank_all _ 0 (sound_okl _ Hs) Hb). cbn [bind].
  rewrite Nat.leb_refl. reflexivity.
Qed.

(** without a right side, or when ... nothing crosses *)
Lemma off_left_len : forall d drop t f, off_left U d drop t f -> length f <= length t.
Proof. intros d drop t f [->|(a & row & r & pad & rest & -> & _)]; [cbn; lia|rewrite app_length; lia]. Qed.
Lemma off_right_len : forall d drop t f, off_right U d drop t f -> length f <= length t.
Proof. intros d drop t f [->|(a & row & r & z & -> & _)]; [cbn; lia|rewrite app_length; lia]. Qed.
Lemma back_nil : forall d drop t back, blank_side d BRIG = true -> off_right U d drop t back -> back = [].
Proof.
  intros d drop t back He [H|(a & row & r & pad & _ & _ & (i & k & Hi & Hd & _) & _)]; [exact H|]. exfalso.
  unfold blank_side, empty_side in He. rewrite forallb_forall in He.
  assert (In i (side_of BRIG)) by (cbv in Hi |- *; intuition). apply He in H. congruence.
Qed.
Lemma one_sided : forall d drop t, blank_side d BLEF = true \/ blank_side d BRIG = true -> ~ crosses U d drop t.
Proof.
  intros d drop t [H|H] (f & b & Hl & Hf & Hb).
  - rewrite (front_nil _ _ _ _ H Hf) in Hl. apply off_right_len in Hb. cbn in Hl. lia.
  - rewrite (back_nil _ _ _ _ H Hb) in Hl. apply off_left_len in Hf. cbn in Hl. lia.
Qed.
End Body.

(** ** killing blank lines, with escape sequences *)
Section Kill.
Variable U : uctab.
Definition shown_as (t : list N) (r : rline) : Prop := exists b, r_text r = Some b /\ bxs_is_blank U b = Ok (blankb U t).

Lemma kill_gen : forall ps rs limit, Forall2 shown_as ps rs -> exists n, kill U limit rs = Ok n /\ n <= length ps /\
  kills U limit (firstn n ps) (skipn n ps).
Proof.
  intros ps rs limit H. revert limit. induction H as [|p r ps rs (b & Hr & Hbb) H IH]; intros limit; cbn [kill].
  - exists 0. split; [reflexivity|]. split; [lia|]. split; [constructor|]. destruct limit; cbn; [split; [lia|auto]|auto].
  - assert (G : exists n, (b <- blank_opt U (r_text r) ;;
        if b then n <- kill U (match limit with Some k => Some (k - 1) | None => None end) rs ;; Ok (S n) else Ok 0) = Ok n /\
        n <= length (p :: ps) /\ (limit <> Some 0 -> kills U limit (firstn n (p :: ps)) (skipn n (p :: ps)))).
    { rewrite Hr. cbn [blank_opt]. rewrite Hbb. cbn [bind]. destruct (blankb U p) eqn:Eb.
      - destruct (IH (match limit with Some k => Some (k - 1) | None => None end)) as (n & -> & Hn & Hk1 & Hk2 & Hk3). cbn [bind].
        exists (S n). split; [reflexivity|]. split; [cbn; lia|]. intros Hl0. cbn [firstn skipn]. split; [constructor; [apply blankb_iff; exact Eb|exact Hk1]|].
        rewrite firstn_length_le in Hk2, Hk3 by exact Hn. cbn [length]. rewrite firstn_length_le by exact Hn. split.
        + destruct limit as [k|]; [destruct k; [congruence|lia]|exact I].
        + destruct Hk3 as [Hk3|Hk3]; [|auto]. left. destruct limit as [k|]; [|discriminate]. injection Hk3 as Hk3. destruct k; [congruence|]. f_equal. lia.
      - exists 0. split; [reflexivity|]. split; [lia|]. intros Hl0. cbn [firstn skipn]. split; [constructor|]. split; [destruct limit; cbn; [lia|exact I]|].
        right. intros Hx. apply blankb_iff in Hx. congruence. }
    destruct G as (n & G & Hn & Hk). destruct limit as [[|k]|].
    + exists 0. split; [reflexivity|]. split; [lia|]. split; [constructor|]. cbn. auto.
    + exists n. split; [exact G|]. split; [exact Hn|]. apply Hk. discriminate.
    + exists n. split; [exact G|]. split; [exact Hn|]. apply Hk. discriminate.
Qed.

Lemma killblank_gen : forall d mend kb ps rs X Z te bs, kb || mend = true -> Forall2 shown_as ps rs -> length X = te -> bs = te + length rs ->
  exists p1 p2 p3, ps = p1 ++ p2 ++ p3 /\
    killblank U d mend kb (X ++ rs ++ Z) te bs = Ok (te + length p1, te + length p1 + length p2) /\
    kills U (kill_limit kb mend (d_pad_top d)) p1 (p2 ++ p3) /\ kills U (kill_limit kb mend (d_pad_bottom d)) (rev p3) (rev p2).
Proof.
  intros d mend kb ps rs X Z te bs Ek Hr HX Hbs.
  assert (El : forall p, (if mend && negb kb then Some p else None) = kill_limit kb mend p) by (intros p; destruct kb, mend; cbn in *; congruence).
  unfold killblank. rewrite !El. rewrite (skipn_len _ te) by exact HX. rewrite firstn_len by lia.
  destruct (kill_gen _ _ (kill_limit kb mend (d_pad_top d)) Hr) as (n1 & -> & Hn1 & Hk1). cbn [bind].
  pose proof (F2len _ _ _ _ _ Hr) as Hlen. destruct (Forall2_fs _ _ _ n1 _ _ Hr) as [Ha Hb].
  assert (Es : firstn (bs - (te + n1)) (skipn (te + n1) (X ++ rs ++ Z)) = skipn n1 rs).
  { rewrite <- (firstn_skipn n1 rs) at 1. rewrite <- app_assoc, app_assoc, skipn_len by (rewrite app_length, firstn_length_le; lia).
    rewrite firstn_len by (rewrite skipn_length; lia). reflexivity. }
  rewrite Es. destruct (kill_gen _ _ (kill_limit kb mend (d_pad_bottom d)) (Forall2_rev _ _ _ _ _ Hb)) as (n2 & -> & Hn2 & Hk2). cbn [bind].
  rewrite rev_length, skipn_length in Hn2.
  set (q := skipn n1 ps) in *. assert (Hq : length q = length ps - n1) by apply skipn_length.
  rewrite firstn_rev, skipn_rev in Hk2.
  exists (firstn n1 ps), (firstn (length q - n2) q), (skipn (length q - n2) q).
  rewrite firstn_skipn. unfold q at 1. rewrite firstn_skipn. split; [reflexivity|].
  rewrite !firstn_length_le by lia. split; [f_equal; f_equal; lia|]. split; [exact Hk1|exact Hk2].
Qed.

Lemma render_nil : forall ts, render ts = [] -> visible ts = [].
Proof.
  induction ts as [|k ts IH]; [reflexivity|]. intros H. rewrite render_cons in H. apply app_eq_nil in H as [H1 H2].
  rewrite visible_cons. destruct k; [discriminate| | |discriminate]; cbn [app]; auto.
Qed.
Lemma shown_bx : forall ts r, r_text r = Some (bx U ts) -> shown_as (visible ts) r.
Proof.
  intros ts r Hr. exists (bx U ts). split; [exact Hr|]. rewrite is_blank_bx. f_equal. unfold blankb.
  assert (E : forallb (fun c => N.eqb c char_tab || N.eqb c char_cr || uc_is_blank U c) (visible ts) = forallb (fun c => is_blank U c || N.eqb c 13) (visible ts)).
  { apply forallb_ext2. intros c. unfold is_blank, char_cr. destruct (N.eqb c char_tab), (N.eqb c 13), (uc_is_blank U c); reflexivity. }
  rewrite <- E. destruct (Nat.eqb_spec (length (render ts)) 0) as [E0|E0]; [|reflexivity].
  destruct (render ts) eqn:Er; [|discriminate]. rewrite (render_nil _ Er). reflexivity.
Qed.
End Kill.
