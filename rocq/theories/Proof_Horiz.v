(** * Recognising the lines of the top and bottom border: from the matcher to whole lines *)
From Coq Require Import List Arith NArith ZArith Bool Lia.
From Verif Require Import Base BaseFacts Model_Unicode Model_Bxs Model_Shape Model_Generate Model_Detect Model_Remove
  Spec_Str Spec_Design Spec_Box Spec_Remove Proof_Str Proof_Bxs Proof_BxsOps Proof_BxsMore Proof_Shows Proof_Term Proof_Hmm.
Import ListNotations.

Section Horiz.
Variable U : uctab.
Hypothesis HU : uctab_ok U.

Definition ascii_row (k : nat) : bxstr :=
  mkBxs (repeat 32%N k) (repeat 32%N k) k k k k 0 k (seq 0 (S k)) (seq 0 (S k)).

Lemma reads_plain : forall l, ~ In 27%N l -> reads l (plain l).
Proof. intros l H. split; [apply (closed_plain l H)|apply render_plain]. Qed.

Lemma spaces_no_esc : forall k, ~ In 27%N (repeat 32%N k).
Proof. intros k H. apply repeat_spec in H. discriminate. Qed.

Lemma count_inv_spaces : forall k, count_invisible_chars (repeat 32%N k) = 0.
Proof.
  intros k. unfold count_invisible_chars. generalize (length (repeat 32%N k)) as f.
  induction k as [|k IH]; intros [|f]; try reflexivity. cbn. apply IH.
Qed.

Lemma from_ascii_spaces : forall k b, bxs_from_ascii U (repeat 32%N k) = Ok b -> b = ascii_row k.
Proof.
  intros k b H. unfold bxs_from_ascii in H. destruct (negb _); [discriminate|]. injection H as <-.
  rewrite count_inv_spaces, repeat_length, Nat.sub_0_r. unfold ascii_row, rspn.
  assert (E : spn is_space (repeat 32%N k) = k) by (induction k as [|k IH]; [reflexivity|cbn; f_equal; exact IH]).
  assert (Er : rev (repeat 32%N k) = repeat 32%N k).
  { clear. induction k as [|k IH]; [reflexivity|]. cbn [repeat rev]. rewrite IH. symmetry. apply repeat_cons. }
  rewrite Er, E. reflexivity.
Qed.

Lemma visible_no_esc : forall ts, toks_ok ts -> ~ In 27%N (visible ts).
Proof.
  induction ts as [|t ts IH]; intros H Hx; [exact Hx|]. destruct H as (Ht & _ & H). rewrite visible_cons in Hx.
  destruct t; cbn [app] in Hx; try exact (IH H Hx). destruct Hx as [Hx|Hx]; [exact (Ht Hx)|exact (IH H Hx)].
Qed.

Lemma good_visible : forall ts, good U ts -> good U (plain (visible ts)).
Proof.
  intros ts ([Hok Ho] & Ha & Ht). split; [|split].
  - apply (closed_plain (visible ts)). apply visible_no_esc. exact Hok.
  - unfold allowed. rewrite visible_plain. exact Ha.
  - unfold tabless. rewrite visible_plain. exact Ht.
Qed.

(** text as compared, and its tokens *)
Definition vtoks (drop : bool) (ts : list tok) : list tok := if drop then plain (visible ts) else ts.
Lemma good_vtoks : forall drop ts, good U ts -> good U (vtoks drop ts).
Proof. intros [|] ts H; [apply good_visible|]; exact H. Qed.
Lemma visible_vtoks : forall drop ts, visible (vtoks drop ts) = visible ts.
Proof. intros [|] ts; [apply visible_plain|reflexivity]. Qed.
Lemma render_vtoks : forall drop ts, render (vtoks drop ts) = if drop then visible ts else render ts.
Proof. intros [|] ts; [apply render_plain|reflexivity]. Qed.

Lemma row_tokens : forall w m, row_ok U w m -> row_built U m ->
  exists ts, closedU U ts /\ render ts = memory m /\ columns (char_cols U) ts = w /\
    (m = bx U ts \/ exists k, ts = plain (repeat 32%N k) /\ m = ascii_row k).
Proof.
  intros w m [Hs _] Hb. apply (shows_closed U HU) in Hs as (ts & Hc & Hr & Hw). exists ts.
  split; [exact Hc|]. split; [exact Hr|]. split; [exact Hw|]. destruct Hb as [Hb|[[n Hn] Hb]].
  - left. rewrite <- Hr, (from_unicode_good U HU ts (closedU_good U ts Hc)) in Hb. congruence.
  - right. exists n. split.
    + apply reading_unique; [apply Hc|apply (closed_plain _ (spaces_no_esc n))|]. rewrite render_plain, Hr. exact Hn.
    + rewrite Hn in Hb. apply from_ascii_spaces. exact Hb.
Qed.

Lemma forallb_blank_repeat : forall k, forallb (is_blank U) (repeat 32%N k) = true.
Proof. intros k. apply forallb_repeat. apply blank32. exact HU. Qed.

(** what is compared of a shape line *)
Lemma prep_shape : forall s si ct rt, shape_ok U s -> Forall (row_built U) (s_mbcs s) -> si < s_height s ->
  exists ts ts', closedU U ts /\ reads (row_text s si) ts /\ columns (char_cols U) ts = s_width s /\
    prepare_comp_shape s si ct false rt = Ok (render ts') /\ good U ts' /\
    (rt = false -> ts' = vtoks (drops_shape ct) ts) /\
    (rt = true -> exists keep cut, ts = keep ++ cut /\ ts' = vtoks (drops_shape ct) keep /\
       forallb (is_blank U) (visible cut) = true /\
       (forallb (is_blank U) (visible ts) = false -> exists m c, visible keep = m ++ [c] /\ is_blank U c = false)).
Proof.
  intros s si ct rt [Hr Hch Hrow] Hb Hsi.
  destruct (nth_error (s_mbcs s) si) as [m|] eqn:Em; [|apply nth_error_None in Em; lia].
  assert (Hin : In m (s_mbcs s)) by (eapply nth_error_In; exact Em).
  rewrite Forall_forall in Hrow, Hb.
  destruct (row_tokens _ m (Hrow m Hin) (Hb m Hin)) as (ts & Hc & Hm & Hw & Hcase).
  assert (Hrt : row_text s si = memory m).
  { unfold row_text. rewrite (nth_indep _ [] (memory bxs_new_empty_string)) by (rewrite map_length; lia).
    rewrite map_nth. f_equal. apply nth_error_nth. exact Em. }
  pose proof (closedU_good U ts Hc) as Hg. destruct Hg as (Hcl & Hal & Htl). pose proof Hcl as [Hok Hodd].
  assert (Hg : good U ts) by (split; [exact Hcl|split; assumption]).
  exists ts. unfold prepare_comp_shape. destruct (Nat.leb_spec (s_height s) si) as [|_]; [lia|].
  unfold rd at 1. rewrite Em. cbn [bind].
  assert (Hrd : reads (row_text s si) ts) by (split; [exact Hok|rewrite Hrt; exact Hm]).
  destruct Hcase as [->|(k & -> & ->)].
  - cbn [bx num_chars_invisible trailing num_chars_visible memory].
    destruct (drops_shape ct && (0 <? invisible_len ts)) eqn:Ed.
    + rewrite (filter_visible_bx U ts Hcl). cbn [bind]. unfold at_off. change (skipn 0 (visible ts)) with (visible ts).
      destruct (Nat.ltb_spec (length (visible ts)) 0) as [Hlt|_]; [lia|]. cbn [bind].
      apply andb_true_iff in Ed as [Ed _].
      destruct rt; cbn [andb].
      * destruct (all_blank U (visible ts)) eqn:Eb.
        -- exists (vtoks true ts). rewrite render_vtoks. cbn [Nat.ltb Nat.leb]. rewrite Ed.
           split; [exact Hc|]. split; [exact Hrd|]. split; [exact Hw|]. split; [reflexivity|].
           split; [apply good_vtoks; exact Hg|]. split; [discriminate|]. intros _. exists ts, [].
           rewrite app_nil_r. split; [reflexivity|]. split; [reflexivity|]. split; [reflexivity|].
           intros Hx. unfold all_blank in Eb. congruence.
        -- pose proof (trail_le (is_blank U) (visible ts)) as Htr. unfold all_blank in Eb.
           destruct (rd_first U ts (length (visible ts) - trail (is_blank U) (visible ts))) as (a & b & E & _ & Ha & Hbb); [exact Hodd|lia|].
           assert (Hcut : exists x, (if 0 <? trail (is_blank U) (visible ts) then
               k1 <- subz (length (visible ts)) 0;; k <- subz k1 (trail (is_blank U) (visible ts));; cut_at (visible ts) k
               else Ok (visible ts)) = Ok x /\ x = visible a).
           { exists (visible a). split; [|reflexivity]. rewrite Ha. destruct (Nat.ltb_spec 0 (trail (is_blank U) (visible ts))) as [Hp|Hp].
             - rewrite subz_le by lia. cbn [bind]. rewrite Nat.sub_0_r, subz_le by lia. cbn [bind]. unfold cut_at.
               destruct (Nat.ltb_spec (length (visible ts)) (length (visible ts) - trail (is_blank U) (visible ts))); [lia|]. reflexivity.
             - replace (trail (is_blank U) (visible ts)) with 0 by lia. rewrite Nat.sub_0_r, firstn_all. reflexivity. }
           destruct Hcut as (x & -> & ->). exists (vtoks true a). rewrite render_vtoks. rewrite Ed.
           split; [exact Hc|]. split; [exact Hrd|]. split; [exact Hw|]. split; [reflexivity|].
           assert (Hga : good U a) by (rewrite E in Hg; apply good_app_inv in Hg; tauto).
           split; [apply good_vtoks; exact Hga|]. split; [discriminate|]. intros _. exists a, b.
           split; [exact E|]. split; [reflexivity|]. split; [rewrite Hbb; apply trail_skipn_blank|].
           intros Hx. rewrite Ha. apply trail_firstn_last. exact Hx.
      * exists (vtoks true ts). rewrite render_vtoks, Ed. split; [exact Hc|]. split; [exact Hrd|]. split; [exact Hw|]. split; [reflexivity|].
        split; [apply good_vtoks; exact Hg|]. split; [reflexivity|]. discriminate.
    + assert (Ev : forall t, (exists b, ts = t ++ b) -> render t = render (vtoks (drops_shape ct) t)).
      { intros t [b Et]. rewrite render_vtoks. destruct (drops_shape ct); [|reflexivity]. cbn [andb] in Ed.
        apply Nat.ltb_ge in Ed. rewrite Et, invisible_len_app in Ed. rewrite Et in Hodd, Hok.
        apply Forall_app in Hodd as [Hodd _]. apply toks_ok_app_l in Hok. apply invisible_len_0; auto; lia. }
      cbn [bind].
      destruct rt; cbn [andb].
      * destruct (all_blank U (visible ts)) eqn:Eb.
        -- exists (vtoks (drops_shape ct) ts). cbn [Nat.ltb Nat.leb]. rewrite <- Ev by (exists []; rewrite app_nil_r; reflexivity).
           split; [exact Hc|]. split; [exact Hrd|]. split; [exact Hw|]. split; [reflexivity|].
           split; [apply good_vtoks; exact Hg|]. split; [discriminate|]. intros _. exists ts, [].
           rewrite app_nil_r. split; [reflexivity|]. split; [reflexivity|]. split; [reflexivity|].
           intros Hx. unfold all_blank in Eb. congruence.
        -- pose proof (trail_le (is_blank U) (visible ts)) as Htr. unfold all_blank in Eb.
           destruct (rd_first U ts (length (visible ts) - trail (is_blank U) (visible ts))) as (a & b & E & Hp & Ha & Hbb); [exact Hodd|lia|].
           assert (Hcut : exists a' b', ts = a' ++ b' /\ visible a' = visible a /\ visible b' = visible b /\ (if 0 <? trail (is_blank U) (visible ts) then
               k1 <- subz (length (visible ts)) 0;; k <- subz k1 (trail (is_blank U) (visible ts));;
               p <- rd (first_char (bx U ts)) k ;; cut_at (render ts) p
               else Ok (render ts)) = Ok (render a')).
           { destruct (Nat.ltb_spec 0 (trail (is_blank U) (visible ts))) as [Hpp|Hpp].
             - exists a, b. split; [exact E|]. split; [reflexivity|]. split; [reflexivity|].
               rewrite subz_le by lia. cbn [bind]. rewrite Nat.sub_0_r, subz_le by lia. cbn [bind]. rewrite Hp. cbn [bind]. unfold cut_at.
               rewrite E at 1. pose proof (length_render_app_le a b).
               destruct (Nat.ltb_spec (length (render (a ++ b))) (length (render a))); [lia|].
               rewrite E. rewrite firstn_render. reflexivity.
             - exists ts, []. rewrite app_nil_r. split; [reflexivity|].
               replace (trail (is_blank U) (visible ts)) with 0 in Ha, Hbb by lia. rewrite Nat.sub_0_r, firstn_all in Ha.
               rewrite Nat.sub_0_r, skipn_all in Hbb. split; [congruence|]. split; [rewrite Hbb; reflexivity|]. reflexivity. }
           destruct Hcut as (a' & b' & E' & Ha' & Hb' & Hx). cbn [first_char bx] in Hx |- *. rewrite Hx.
           exists (vtoks (drops_shape ct) a'). rewrite <- Ev by (exists b'; exact E').
           split; [exact Hc|]. split; [exact Hrd|]. split; [exact Hw|]. split; [reflexivity|].
           assert (Hga : good U a') by (rewrite E' in Hg; apply good_app_inv in Hg; tauto).
           split; [apply good_vtoks; exact Hga|]. split; [discriminate|]. intros _. exists a', b'.
           split; [exact E'|]. split; [reflexivity|]. split; [rewrite Hb', Hbb; apply trail_skipn_blank|].
           intros Hy. rewrite Ha', Ha. apply trail_firstn_last. exact Hy.
      * exists (vtoks (drops_shape ct) ts). rewrite <- Ev by (exists []; rewrite app_nil_r; reflexivity).
        split; [exact Hc|]. split; [exact Hrd|]. split; [exact Hw|]. split; [reflexivity|].
        split; [apply good_vtoks; exact Hg|]. split; [reflexivity|]. discriminate.
  - cbn [ascii_row num_chars_invisible trailing num_chars_visible memory Nat.ltb Nat.leb]. rewrite andb_false_r. cbn [bind].
    rewrite visible_plain in *.
    assert (Ev : forall l, render (vtoks (drops_shape ct) (plain l)) = l).
    { intros l. rewrite render_vtoks, visible_plain, render_plain. destruct (drops_shape ct); reflexivity. }
    destruct rt; cbn [andb].
    + exists (vtoks (drops_shape ct) (plain [])). rewrite Ev.
      split; [exact Hc|]. split; [exact Hrd|]. split; [exact Hw|]. split.
      { destruct k as [|k]; [reflexivity|]. cbn [Nat.ltb Nat.leb]. rewrite subz_le by lia. cbn [bind]. rewrite Nat.sub_0_r, subz_le by lia.
        cbn [bind]. rewrite Nat.sub_diag. cbn [ascii_row first_char seq]. unfold rd. cbn [nth_error bind]. reflexivity. }
      split; [apply good_vtoks; split; [|split]; [apply closed_nil|constructor|intros []]|]. split; [discriminate|]. intros _.
      exists [], (plain (repeat 32%N k)). split; [reflexivity|]. split; [reflexivity|]. rewrite visible_plain.
      split; [apply forallb_blank_repeat|]. intros Hx. rewrite forallb_blank_repeat in Hx. discriminate.
    + exists (vtoks (drops_shape ct) (plain (repeat 32%N k))). rewrite Ev.
      split; [exact Hc|]. split; [exact Hrd|]. split; [exact Hw|]. split; [reflexivity|].
      split; [apply good_vtoks; exact Hg|]. split; [reflexivity|]. discriminate.
Qed.

(** the prepared line of shape [i]; the last one of a side is trimmed *)
Definition prepped (d : design) (ct : comparison_t) (si i : nat) (last : bool) (sc : sctx) : Prop :=
  sc_empty sc = isempty (d_shape d i) /\ sc_elastic sc = s_elastic (d_shape d i) /\
  (isempty (d_shape d i) = true -> sc_text sc = None) /\
  (isempty (d_shape d i) = false -> exists ts ts', closedU U ts /\ reads (row_text (d_shape d i) si) ts /\
     columns (char_cols U) ts = s_width (d_shape d i) /\
     sc_text sc = Some (bx U ts') /\ good U ts' /\
     (last = false -> ts' = vtoks (drops_shape ct) ts) /\
     (last = true -> exists keep cut, ts = keep ++ cut /\ ts' = vtoks (drops_shape ct) keep /\
       forallb (is_blank U) (visible cut) = true /\
       (forallb (is_blank U) (visible ts) = false -> exists m c, visible keep = m ++ [c] /\ is_blank U c = false))).

Fixpoint prepped_all (d : design) (ct : comparison_t) (si : nat) (is : list nat) (sr : list sctx) : Prop :=
  match is, sr with
  | i :: r, sc :: r' => prepped d ct si i (is_nil r) sc /\ prepped_all d ct si r r'
  | [], [] => True
  | _, _ => False
  end.

Lemma prep_all : forall d ct si is, wf_design U d -> built U d ->
  Forall (fun i => i < 16 /\ (isempty (d_shape d i) = false -> si < s_height (d_shape d i))) is ->
  exists sr, prep_horiz U d ct si is = Ok sr /\ prepped_all d ct si is sr.
Proof.
  intros d ct si is WF HB. induction is as [|i is IH]; intros H; [exists []; split; [reflexivity|exact I]|].
  inversion H as [|? ? [Hi Hh] H']; subst. destruct (IH H') as (sr & Esr & Hsr). cbn [prep_horiz].
  destruct (isempty (d_shape d i)) eqn:Ee.
  - cbn [bind]. rewrite Esr. cbn [bind]. eexists. split; [reflexivity|]. cbn [prepped_all]. split; [|exact Hsr].
    unfold prepped. cbn [sc_empty sc_elastic sc_text]. rewrite Ee. repeat split; congruence.
  - pose proof (wf_shapes U d WF i Hi Ee) as Hso.
    assert (Hbr : Forall (row_built U) (s_mbcs (d_shape d i))) by (apply Forall_forall; intros m Hm; exact (HB i m Hi Hm)).
    destruct (prep_shape (d_shape d i) si ct (is_nil is) Hso Hbr (Hh eq_refl)) as (ts & ts' & Hc & Hrd & Hw & Hp & Hg & H1 & H2).
    rewrite Hp. cbn [must bind]. rewrite (from_unicode_good U HU ts' Hg). cbn [must bind]. rewrite Esr. cbn [bind].
    eexists. split; [reflexivity|]. cbn [prepped_all]. split; [|exact Hsr].
    unfold prepped. cbn [sc_empty sc_elastic sc_text]. rewrite Ee. split; [reflexivity|]. split; [reflexivity|]. split; [discriminate|].
    intros _. exists ts, ts'. auto 10.
Qed.

Lemma side_heights : forall d (top : bool) si i, wf_design U d -> si < s_height (d_shape d (left_corner top)) ->
  In i (side_shapes top) -> i < 16 /\ (isempty (d_shape d i) = false -> si < s_height (d_shape d i)).
Proof.
  intros d top si i WF Hsi Hi. split; [destruct top; cbn in Hi; intuition (subst; cbv; lia)|]. intros He.
  assert (G : forall b k, (b = BTOP \/ b = BBOT) -> k < 5 -> nth k (side_of b) 0 = i -> nth 0 (side_of b) 0 = nth 0 (side_of (if top then BTOP else BBOT)) 0 ->
     s_height (d_shape d i) = s_height (d_shape d (nth 0 (side_of (if top then BTOP else BBOT)) 0))).
  { intros b k Hb Hk E E0. pose proof (wf_heights U d WF b k Hb Hk) as HH. unfold at_side in HH. rewrite E, E0 in HH. apply HH. exact He. }
  assert (G0 : s_height (d_shape d (left_corner top)) = s_height (d_shape d (nth 0 (side_of (if top then BTOP else BBOT)) 0))).
  { destruct top; [reflexivity|]. apply (wf_heights U d WF BBOT 4); [auto|lia|]. apply (wf_corners U d WF). cbn. auto. }
  rewrite G0 in Hsi. destruct top; cbn in Hi.
  - destruct Hi as [E|[E|[E|[E|[E|[]]]]]]; subst i;
      [rewrite (G BTOP 0)|rewrite (G BTOP 1)|rewrite (G BTOP 2)|rewrite (G BTOP 3)|rewrite (G BTOP 4)]; try exact Hsi; auto; lia.
  - destruct Hi as [E|[E|[E|[E|[E|[]]]]]]; subst i;
      [rewrite (G BBOT 4)|rewrite (G BBOT 3)|rewrite (G BBOT 2)|rewrite (G BBOT 1)|rewrite (G BBOT 0)]; try exact Hsi; auto; lia.
Qed.

Lemma prepped_ctx : forall d ct si is sr, prepped_all d ct si is sr -> length is = 5 -> ctx_ok U sr.
Proof.
  intros d ct si is sr H Hl. split.
  - rewrite <- Hl. clear Hl. revert sr H. induction is as [|i is IH]; intros [|sc sr] H; cbn in H; try tauto. cbn. f_equal. apply IH. tauto.
  - clear Hl. revert sr H. induction is as [|i is IH]; intros [|sc sr] H; cbn in H; try tauto; [constructor|].
    destruct H as [H1 H2]. constructor; [|apply IH; exact H2]. destruct H1 as (He & _ & Hn & Hs).
    destruct (isempty (d_shape d i)).
    + rewrite (Hn eq_refl). split; [intros b Hb; discriminate|congruence].
    + destruct (Hs eq_refl) as (ts & ts' & _ & _ & _ & Et & Hg & _). rewrite Et. split; [|discriminate].
      intros b Hb. injection Hb as <-. eauto.
Qed.

Lemma prepped_nth : forall d ct si (top : bool) sr j, prepped_all d ct si (side_shapes top) sr -> j < 5 ->
  prepped d ct si (nth j (side_shapes top) 0) (j =? 4) (nths sr j).
Proof.
  intros d ct si top sr j H Hj. unfold nths.
  destruct top; unfold side_shapes, north_side, south_side_rev in *;
    (destruct sr as [|s0 [|s1 [|s2 [|s3 [|s4 [|s5 sr]]]]]]; cbn [prepped_all is_nil] in H; try tauto;
     destruct H as (H0 & H1 & H2 & H3 & H4 & _); destruct j as [|[|[|[|[|j]]]]]; [exact H0|exact H1|exact H2|exact H3|exact H4|lia]).
Qed.

Lemma prepped_lines : forall d ct si (top : bool) sr, prepped_all d ct si (side_shapes top) sr ->
  shape_lines d top (drops_shape ct) si (mids sr 1).
Proof.
  intros d ct si top sr H.
  assert (G : forall is ss, Forall2 (fun i sc => prepped d ct si i false sc) is ss ->
     Forall2 (fun i x => seen (drops_shape ct) (row_text (d_shape d i) si) (fst x) /\ snd x = s_elastic (d_shape d i))
       (filter (fun i => negb (isempty (d_shape d i))) is)
       (map (fun sc => (linetext sc, sc_elastic sc)) (filter (fun sc => negb (sc_empty sc)) ss))).
  { intros is ss HF. induction HF as [|i sc is ss Hp _ IH]; [constructor|]. cbn [filter].
    destruct Hp as (He & Hel & Hn & Hs). rewrite He. destruct (isempty (d_shape d i)); cbn [negb]; [exact IH|].
    cbn [map]. constructor; [|exact IH]. cbn [fst snd]. split; [|exact Hel].
    destruct (Hs eq_refl) as (ts & ts' & _ & Hrd & _ & Et & _ & Hv & _). rewrite (Hv eq_refl) in Et.
    exists ts. split; [exact Hrd|]. unfold linetext. rewrite Et. cbn [bx memory]. rewrite render_vtoks.
    destruct (drops_shape ct); [reflexivity|]. destruct Hrd as [_ Hrd]. exact Hrd. }
  unfold shape_lines, mids.
  destruct top; unfold side_shapes, north_side, south_side_rev, inner_shapes in *;
    (destruct sr as [|s0 [|s1 [|s2 [|s3 [|s4 [|s5 sr]]]]]]; cbn [prepped_all is_nil] in H; try tauto;
     apply G; change (firstn (4 - 1) (skipn 1 [s0; s1; s2; s3; s4])) with [s1; s2; s3];
     destruct H as (H0 & H1 & H2 & H3 & H4 & _); constructor; [exact H1|constructor; [exact H2|constructor; [exact H3|constructor]]]).
Qed.

(** ** the corners *)
Lemma nth_error_skipn2 : forall (A : Type) a (l : list A) i, nth_error (skipn a l) i = nth_error l (a + i).
Proof. intros A a. induction a as [|a IH]; intros [|x l] i; try reflexivity; [destruct i; reflexivity|apply IH]. Qed.
Lemma nth_error_firstn2 : forall (A : Type) n (l : list A) i c, nth_error (firstn n l) i = Some c -> nth_error l i = Some c.
Proof. intros A n. induction n as [|n IH]; intros [|x l] [|i] c H; try discriminate; [exact H|exact (IH l i c H)]. Qed.

Lemma blank_at_range : forall sh a b, (forall j, a <= j < b -> blank_at U sh j = true) -> blanks U (firstn (b - a) (skipn a sh)).
Proof.
  intros sh a b H. apply Forall_forall. intros c Hc. apply In_nth_error in Hc as [i Hi].
  assert (Hl : i < length (firstn (b - a) (skipn a sh))) by (apply nth_error_Some; congruence).
  rewrite firstn_length, skipn_length in Hl.
  assert (E : nth_error sh (a + i) = Some c) by (rewrite <- nth_error_skipn2; eapply nth_error_firstn2; exact Hi).
  specialize (H (a + i) ltac:(lia)). unfold blank_at in H. rewrite E in H. exact H.
Qed.

Lemma blank_at_lt : forall sh k, blank_at U sh k = true -> k < length sh.
Proof. intros sh k H. apply nth_error_Some. unfold blank_at in H. destruct (nth_error sh k); congruence. Qed.

Lemma outer_left_spec : forall n k line sh limit r, sh <> [] ->
  (forall j, 1 <= j < k -> blank_at U sh j = true) -> outer_left U n k line sh (Ok limit) = Ok (Some r) ->
  exists k', m_len r = length sh - k' /\ m_shiftable r = false /\ k' < length sh /\ m_idx r <= limit /\
    u32_strstr (memory line) (skipn k' sh) = Some (m_idx r) /\ (0 < k' -> blanks U (firstn k' (skipn 1 sh))).
Proof.
  induction n as [|n IH]; intros k line sh limit r Hne Hk H; [discriminate|]. cbn [outer_left] in H.
  destruct ((k =? 0) || blank_at U sh k) eqn:Eb; [|discriminate].
  assert (Hk' : forall j, 1 <= j < S k -> blank_at U sh j = true).
  { intros j Hj. destruct (Nat.eq_dec j k) as [->|Hn]; [|apply Hk; lia]. apply orb_true_iff in Eb as [Eb|Eb]; [|exact Eb].
    apply Nat.eqb_eq in Eb. lia. }
  destruct (u32_strstr (memory line) (skipn k sh)) as [p|] eqn:Es; [|eapply IH; eassumption]. cbn [bind] in H.
  destruct (Nat.ltb_spec limit p) as [Hl|Hl]; [eapply IH; eassumption|]. injection H as <-.
  exists k. cbn [m_len m_idx m_shiftable]. split; [reflexivity|]. split; [reflexivity|].
  split; [|split; [exact Hl|split; [exact Es|]]].
  - apply orb_true_iff in Eb as [Eb|Eb]; [apply Nat.eqb_eq in Eb; destruct sh; [congruence|cbn; lia]|apply blank_at_lt; exact Eb].
  - intros _. replace k with (S k - 1) by lia. apply blank_at_range. exact Hk'.
Qed.

Lemma outer_left_total : forall n k line sh limit, k <= length sh -> length sh < n + k ->
  exists r, outer_left U n k line sh (Ok limit) = Ok r.
Proof.
  induction n as [|n IH]; intros k line sh limit Hk Hn; [lia|]. cbn [outer_left].
  destruct ((k =? 0) || blank_at U sh k) eqn:Eb; [|eauto].
  assert (sh = [] \/ k < length sh) as [->|Hlt].
  { destruct sh; [auto|right]. apply orb_true_iff in Eb as [Eb|Eb]; [apply Nat.eqb_eq in Eb; cbn; lia|apply blank_at_lt; exact Eb]. }
  - cbn in Hk. assert (k = 0) as -> by lia. rewrite skipn_nil.
    assert (E : u32_strstr (memory line) [] = Some 0) by (destruct (memory line); reflexivity). rewrite E. cbn [bind].
    destruct (Nat.ltb_spec limit 0); [lia|eauto].
  - destruct (u32_strstr _ _) as [p|]; [cbn [bind]; destruct (limit <? p); [|eauto]|]; (apply IH; lia).
Qed.

Lemma strnrstr_from_spec : forall k hay nd n p, length nd = n -> strnrstr_from k hay nd n = Some p ->
  firstn n (skipn p hay) = nd /\ p <= k.
Proof.
  induction k as [|k IH]; intros hay nd n p Hn H; cbn [strnrstr_from] in H.
  - destruct (strncmp0 n (skipn 0 hay) nd) eqn:E; [|discriminate]. injection H as <-. apply strncmp_spec in E; auto.
  - destruct (strncmp0 n (skipn (S k) hay) nd) eqn:E.
    + injection H as <-. apply strncmp_spec in E; auto.
    + apply IH in H as [H1 H2]; auto.
Qed.

Lemma strnrstr_spec : forall hay nd n p, length nd = n -> 0 < n -> u32_strnrstr hay nd n = Some p ->
  firstn n (skipn p hay) = nd /\ p + n <= length hay.
Proof.
  intros hay nd n p Hn Hp H. unfold u32_strnrstr in H. destruct nd as [|c nd]; [cbn in Hn; lia|].
  destruct (strrchr hay c) as [k|]; [|discriminate]. apply strnrstr_from_spec in H as [H _]; [|exact Hn].
  split; [exact H|]. apply (f_equal (@length N)) in H. rewrite firstn_length, skipn_length, Hn in H. lia.
Qed.

Lemma outer_right_spec : forall n k line sh limit r, k <= length sh ->
  (forall j, k < j < length sh -> blank_at U sh j = true) -> ~ blanks U sh ->
  outer_right U n k line sh limit = Ok (Some r) ->
  exists k', m_len r = k' /\ m_shiftable r = false /\ 0 < k' <= length sh /\ limit <= m_idx r + k' /\
    firstn k' (skipn (m_idx r) (memory line)) = firstn k' sh /\ m_idx r + k' <= length (memory line) /\ blanks U (skipn k' sh).
Proof.
  induction n as [|n IH]; intros k line sh limit r Hk Hbl Hnb H; [discriminate|]. cbn [outer_right] in H.
  destruct ((k =? length sh) || blank_at U sh k) eqn:Eb; [|discriminate].
  assert (Hb' : forall j, k <= j < length sh -> blank_at U sh j = true).
  { intros j Hj. destruct (Nat.eq_dec j k) as [->|Hn]; [|apply Hbl; lia]. apply orb_true_iff in Eb as [Eb|Eb]; [|exact Eb].
    apply Nat.eqb_eq in Eb. lia. }
  assert (Hcut : blanks U (skipn k sh)).
  { pose proof (blank_at_range sh k (length sh) Hb') as HB. rewrite firstn_all2 in HB by (rewrite skipn_length; lia). exact HB. }
  assert (Hk0 : 0 < k).
  { destruct k; [|lia]. exfalso. apply Hnb. exact Hcut. }
  destruct (u32_strnrstr (memory line) (firstn k sh) k) as [p|] eqn:Es.
  - destruct (Nat.ltb_spec (p + k) limit) as [Hl|Hl].
    + destruct (k =? 0); [discriminate|]. apply IH in H; [exact H|lia| |exact Hnb]. intros j Hj. apply Hb'. lia.
    + injection H as <-. cbn [m_len m_idx m_shiftable]. exists k.
      apply strnrstr_spec in Es as [Es1 Es2]; [|rewrite firstn_length; lia|exact Hk0].
      auto 10.
  - destruct (k =? 0); [discriminate|]. apply IH in H; [exact H|lia| |exact Hnb]. intros j Hj. apply Hb'. lia.
Qed.

Lemma outer_right_total : forall n k line sh limit, k <= length sh -> k < n ->
  (forall j, k < j < length sh -> blank_at U sh j = true) -> ~ blanks U sh ->
  exists r, outer_right U n k line sh limit = Ok r.
Proof.
  induction n as [|n IH]; intros k line sh limit Hk Hn Hbl Hnb; [lia|]. cbn [outer_right].
  destruct ((k =? length sh) || blank_at U sh k) eqn:Eb; [|eauto].
  assert (Hb' : forall j, k <= j < length sh -> blank_at U sh j = true).
  { intros j Hj. destruct (Nat.eq_dec j k) as [->|Hx]; [|apply Hbl; lia]. apply orb_true_iff in Eb as [Eb|Eb]; [|exact Eb].
    apply Nat.eqb_eq in Eb. lia. }
  assert (Hk0 : 0 < k).
  { destruct k; [|lia]. exfalso. apply Hnb. pose proof (blank_at_range sh 0 (length sh) Hb') as HB.
    rewrite firstn_all2 in HB by (rewrite skipn_length; lia). exact HB. }
  destruct (Nat.eqb_spec k 0) as [|_]; [lia|].
  assert (HI : exists r, outer_right U n (k - 1) line sh limit = Ok r) by (apply IH; [lia|lia|intros j Hj; apply Hb'; lia|exact Hnb]).
  destruct (u32_strnrstr _ _ _) as [p|]; [destruct (p + k <? limit); eauto|exact HI].
Qed.

(** ** the prepared input line *)
Lemma line_prep : forall l ct inp li, built_line U l -> nth_error (i_lines inp) li = Some l ->
  exists ts a b, reads (memory (l_text l)) ts /\ vtoks (drops_input ct) ts = a ++ b /\
    comp_input inp li false ct = Ok (render (a ++ b)) /\ bxs_from_unicode U (render (a ++ b)) = Ok (bx U (a ++ b)) /\
    bxs_rtrim U (bx U (a ++ b)) = Ok (bx U a) /\ good U a /\ trailing (bx U a) = 0 /\
    forallb (is_blank U) (visible b) = true /\ narrow_lead U (visible a) /\
    (forallb (is_blank U) (visible ts) = false -> exists m c, visible a = m ++ [c] /\ is_blank U c = false) /\
    printed U (negb (drops_input ct)) (memory (l_text l)) (render a).
Proof.
  intros l ct inp li (Hf & ts & w & Hrd & Hs & Hnar) Hnth.
  apply (shows_closed U HU) in Hs as (ts' & Hc & Hr & _).
  assert (ts' = ts) as -> by (apply reading_unique; [apply Hc|apply Hrd|rewrite Hr; symmetry; apply Hrd]).
  pose proof (closedU_good U ts Hc) as Hg.
  assert (El : l_text l = bx U ts).
  { rewrite <- Hr, (from_unicode_good U HU ts Hg) in Hf. congruence. }
  pose proof (good_vtoks (drops_input ct) ts Hg) as Hgv.
  destruct (rtrim_good U HU (vtoks (drops_input ct) ts) Hgv) as (a & b & E & Ht & Hga & Hb1 & Hb2).
  destruct (rtrim_spec U HU (vtoks (drops_input ct) ts) Hgv) as (a2 & b2 & E2 & Ht2 & _ & Hbl & Hlast).
  assert (Eab : a2 = a /\ b2 = b).
  { rewrite Ht in Ht2. injection Ht2 as Em _ _ _ _ _ _ _ _ _.
    assert (a2 = a).
    { rewrite E in Hgv. rewrite E2 in E. apply reading_unique; [|apply Hga|congruence].
      rewrite <- E in Hgv. destruct Hgv as [[Hk _] _]. apply toks_ok_app_l in Hk. exact Hk. }
    subst a2. split; [reflexivity|]. rewrite E in E2. apply app_inv_head in E2. congruence. }
  destruct Eab as [-> ->]. rewrite visible_vtoks in *.
  exists ts, a, b. split; [exact Hrd|]. split; [exact E|]. rewrite <- E.
  split.
  { unfold comp_input. rewrite Hnth, El. cbn [bx memory]. rewrite render_vtoks. destruct (drops_input ct).
    - change (mkBxs _ _ _ _ _ _ _ _ _ _) with (bx U ts). rewrite (filter_visible_bx U ts (proj1 Hg)). cbn [bind]. unfold at_off.
      destruct (Nat.ltb_spec (length (visible ts)) 0); [lia|]. reflexivity.
    - reflexivity. }
  split; [apply from_unicode_good; [exact HU|exact Hgv]|]. split; [exact Ht|]. split; [exact Hga|]. split.
  { cbn [bx trailing]. destruct (all_blank U (visible ts)) eqn:Eb.
    - assert (Ev : visible a = visible ts).
      { rewrite (Hb1 eq_refl), app_nil_r in E. rewrite <- E. apply visible_vtoks. }
      rewrite Ev, Eb. reflexivity.
    - destruct (Hlast Eb) as (m & c & Ev & Hcb). rewrite Ev. unfold all_blank. rewrite forallb_app. cbn [forallb]. rewrite Hcb, andb_false_r.
      unfold trail. rewrite rev_app_distr. cbn [rev app lead]. rewrite Hcb. reflexivity. }
  split; [exact Hbl|]. split.
  { assert (Ev : visible ts = visible a ++ visible b) by (rewrite <- visible_app, <- E, visible_vtoks; reflexivity).
    unfold narrow_indent in Hnar. unfold narrow_lead. apply Forall_forall. intros c Hc'. rewrite (char_cols_term U HU).
    rewrite Forall_forall in Hnar. apply Hnar. rewrite Ev.
    clear -Hc'. induction (visible a) as [|x v IH]; [destruct Hc'|]. cbn [app lead] in *. destruct (is_blank U x); [|destruct Hc'].
    cbn [firstn] in *. destruct Hc' as [Hc'|Hc']; [left; exact Hc'|right; apply IH; exact Hc']. }
  split; [exact Hlast|].
  assert (Hlen : length (visible a) <= length (visible ts)).
  { rewrite <- (visible_vtoks (drops_input ct) ts), E, visible_app, app_length. lia. }
  destruct (drops_input ct) eqn:Ed; cbn [vtoks negb] in *.
  - destruct (rd_first U ts (length (visible a))) as (x & y & Exy & _ & Hvx & Hvy); [apply Hg|exact Hlen|].
    assert (Ev : visible ts = visible a ++ visible b) by (rewrite <- visible_app, <- E, visible_plain; reflexivity).
    assert (Evx : visible x = visible a) by (rewrite Hvx, Ev, firstn_app, Nat.sub_diag, firstn_all, app_nil_r; reflexivity).
    assert (Evy : visible y = visible b) by (rewrite Hvy, Ev, skipn_app, Nat.sub_diag, skipn_all; reflexivity).
    exists x, y. rewrite <- Exy. split; [exact Hrd|]. split.
    { rewrite Evx. assert (Ha : a = plain (firstn (length a) (visible ts))).
      { clear -E. unfold plain in *. rewrite <- firstn_map, E, firstn_app, Nat.sub_diag, firstn_all. cbn. symmetry. apply app_nil_r. }
      rewrite Ha, render_plain, visible_plain. reflexivity. }
    split; [rewrite Evy; exact Hbl|]. intros Hx. rewrite Evx. apply Hlast. exact Hx.
  - exists a, b. rewrite <- E. split; [exact Hrd|]. split; [reflexivity|]. split; [exact Hbl|exact Hlast].
Qed.

Definition grown (a : list tok) (n : nat) : bxstr := bxs_append_spaces (bx U a) n.

Lemma grown_spec : forall a n, good U a -> trailing (bx U a) = 0 -> narrow_lead U (visible a) -> 0 < n ->
  memory (grown a n) = render a ++ repeat 32%N n /\ num_chars (grown a n) = length (memory (grown a n)) /\
  num_chars_visible (grown a n) = length (visible a) + n /\ trailing (grown a n) = n /\
  rd (first_char (grown a n)) (length (visible a)) = Ok (length (render a)) /\
  rd (first_char (grown a n)) (length (visible a) + n) = Ok (length (memory (grown a n))) /\
  exists x y, a = x ++ y /\ rd (first_char (grown a n)) (indent (grown a n)) = Ok (length (render x)) /\
    visible x = firstn (lead (is_blank U) (visible a)) (visible a).
Proof.
  intros a n Hg Ht Hn Hp.
  assert (EP : grown a n = mkBxs (render a ++ u32_nspaces n) (ascii (bx U a) ++ repeat 32%N n) (lead_cols U (visible a))
     (num_columns (bx U a) + n) (length (render a) + n) (length (visible a) + n) (invisible_len a) n
     (firstn (length (visible a)) (first_char (bx U a)) ++ seq (length (render a)) (S n))
     (firstn (length (visible a)) (visible_char (bx U a)) ++ seq (length (render a)) (S n))).
  { unfold grown, bxs_append_spaces. destruct (Nat.eqb_spec n 0); [lia|]. rewrite Ht. reflexivity. }
  rewrite EP. cbn [memory num_chars num_chars_visible trailing first_char indent].
  unfold u32_nspaces. split; [reflexivity|]. split; [rewrite app_length, repeat_length; reflexivity|].
  split; [reflexivity|]. split; [reflexivity|].
  assert (Hfl : length (firstn (length (visible a)) (first_char (bx U a))) = length (visible a)).
  { rewrite firstn_length. cbn [bx first_char]. rewrite app_length, first_pos_length. cbn. lia. }
  assert (R : forall k, k <= n -> rd (firstn (length (visible a)) (first_char (bx U a)) ++ seq (length (render a)) (S n)) (length (visible a) + k) = Ok (length (render a) + k)).
  { intros k Hk. unfold rd. rewrite nth_error_app2 by lia. rewrite Hfl. replace (length (visible a) + k - length (visible a)) with k by lia.
    rewrite (nth_error_nth' _ 0) by (rewrite seq_length; lia). rewrite seq_nth by lia. reflexivity. }
  assert (R0 := R 0 ltac:(lia)). rewrite !Nat.add_0_r in R0. split; [exact R0|].
  split; [rewrite R by lia; rewrite app_length, repeat_length; reflexivity|].
  rewrite (lead_cols_narrow U (visible a) Hn). pose proof (lead_le (is_blank U) (visible a)) as Hl.
  destruct (Nat.eq_dec (lead (is_blank U) (visible a)) (length (visible a))) as [E|E].
  - exists a, []. rewrite app_nil_r. split; [reflexivity|]. rewrite E. split; [|rewrite firstn_all; reflexivity].
    exact R0.
  - destruct (rd_first U a (lead (is_blank U) (visible a))) as (x & y & Exy & Hrd & Hvx & _); [apply Hg|exact Hl|].
    exists x, y. split; [exact Exy|]. split; [|exact Hvx]. unfold rd in *. rewrite nth_error_app1 by lia.
    rewrite <- Hrd. clear -E Hl. assert (Hlt : lead (is_blank U) (visible a) < length (visible a)) by lia. revert Hlt.
    generalize (lead (is_blank U) (visible a)) as i. generalize (length (visible a)) as k. generalize (first_char (bx U a)) as l.
    intros l k. revert l. induction k as [|k IH]; intros l i H; [lia|]. destruct l as [|z l]; [destruct i; reflexivity|].
    destruct i as [|i]; [reflexivity|]. cbn. apply IH. lia.
Qed.

Lemma seen_prepped : forall d ct si i sc, prepped d ct si i false sc -> isempty (d_shape d i) = false ->
  exists ts', sc_text sc = Some (bx U ts') /\ good U ts' /\ seen (drops_shape ct) (row_text (d_shape d i) si) (render ts').
Proof.
  intros d ct si i sc (_ & _ & _ & Hs) He. destruct (Hs He) as (ts & ts' & _ & Hrd & _ & Et & Hg & Hv & _).
  exists ts'. split; [exact Et|]. split; [exact Hg|]. rewrite (Hv eq_refl). exists ts. split; [exact Hrd|].
  rewrite render_vtoks. destruct (drops_shape ct); [reflexivity|]. apply Hrd.
Qed.

Lemma printed_prepped : forall d ct si i sc, prepped d ct si i true sc -> isempty (d_shape d i) = false ->
  exists ts', sc_text sc = Some (bx U ts') /\ good U ts' /\ printed U (negb (drops_shape ct)) (row_text (d_shape d i) si) (render ts').
Proof.
  intros d ct si i sc (_ & _ & _ & Hs) He. destruct (Hs He) as (ts & ts' & _ & Hrd & _ & Et & Hg & _ & Hv).
  exists ts'. split; [exact Et|]. split; [exact Hg|]. destruct (Hv eq_refl) as (keep & cut & E & E' & Hb & Hl).
  exists keep, cut. rewrite <- E. split; [exact Hrd|]. split; [|split; [exact Hb|exact Hl]].
  rewrite E', render_vtoks. destruct (drops_shape ct); reflexivity.
Qed.

(** what the corner matching can find *)
Lemma match_left : forall a n ts', good U a -> trailing (bx U a) = 0 -> narrow_lead U (visible a) -> 0 < n -> good U ts' ->
  exists r, match_outer_shape U true (grown a n) (Some (bx U ts')) = Ok r /\
    match r with
    | None => True
    | Some mr => if m_shiftable mr then m_idx mr = 0 /\ m_len mr = 0
        else ~ looks_blank U (render ts') /\ m_idx mr + m_len mr <= length (memory (grown a n)) /\
             held_left U (render a) (render ts') (firstn (m_idx mr + m_len mr) (memory (grown a n)))
    end.
Proof.
  intros a n ts' Hg Ht Hnar Hn Hg'.
  destruct (grown_spec a n Hg Ht Hnar Hn) as (Em & Ec & Ev & Etr & _ & _ & x & y & Exy & Hrd & Hvx).
  unfold match_outer_shape. rewrite Ec.
  destruct (Nat.eqb_spec (length (memory (grown a n))) 0) as [E0|_].
  { rewrite Em, app_length, repeat_length in E0. lia. }
  cbn [orb]. change (num_chars (bx U ts')) with (length (render ts')). change (memory (bx U ts')) with (render ts').
  destruct (Nat.eqb_spec (length (render ts')) 0) as [E0|E0]; [exists None; auto|].
  assert (Hb : exists b, bxs_is_blank U (bx U ts') = Ok b) by (rewrite is_blank_bx; eauto).
  destruct Hb as [[|] Hb]; rewrite Hb; cbn [bind].
  { eexists. split; [reflexivity|]. cbn. auto. }
  rewrite Hrd. cbn [bind].
  destruct (outer_left_total (length (render ts') + 1) 0 (grown a n) (render ts') (length (render x))) as [r Hr]; [lia|lia|].
  rewrite Hr. exists r. split; [reflexivity|]. destruct r as [mr|]; [|exact I].
  apply outer_left_spec in Hr as (k & Hlen & Hsh & Hk & Hlim & Hs & Hbl); [|destruct (render ts'); [cbn in E0; lia|discriminate]|intros j Hj; lia].
  rewrite Hsh. split; [apply (looks_blank_iff U ts' Hg' Hb)|].
  pose proof (strstr_spec _ _ _ Hs) as [Hfit Hpos]. rewrite skipn_length in Hfit, Hpos. rewrite Hlen. split; [exact Hfit|].
  set (p := m_idx mr) in *. set (mm := memory (grown a n)) in *.
  exists (firstn p mm), k, (skipn p (render x)), (render y).
  assert (Hpx : firstn p mm = firstn p (render x)).
  { rewrite Em, Exy, render_app, !firstn_app. replace (p - length (render x)) with 0 by lia.
    replace (p - length (render x ++ render y)) with 0 by (rewrite app_length; lia). cbn [firstn]. rewrite !app_nil_r. reflexivity. }
  split.
  { replace (p + (length (render ts') - k)) with (p + length (skipn k (render ts'))) by (rewrite skipn_length; reflexivity).
    rewrite <- Hpos. rewrite firstn_length, skipn_length.
    replace (Nat.min (length (render ts') - k) (length mm - p)) with (length (render ts') - k) by lia.
    rewrite <- (firstn_skipn p mm) at 1. rewrite firstn_app. rewrite firstn_length. rewrite Nat.min_l by lia.
    replace (p + (length (render ts') - k) - p) with (length (render ts') - k) by lia. f_equal.
    rewrite firstn_all2; [reflexivity|]. rewrite firstn_length. lia. }
  split; [exact Hk|]. rewrite Hpx, firstn_skipn. split; [rewrite Exy, render_app; reflexivity|]. split; [|exact Hbl].
  intros us [Hok Hus].
  assert (us = x) as ->.
  { apply reading_unique; [exact Hok| |exact Hus]. rewrite Exy in Hg. apply good_app_inv in Hg as [[[Hx _] _] _]. exact Hx. }
  rewrite Hvx. apply Forall_forall. intros c Hc. left. pose proof (lead_firstn_blank (is_blank U) (visible a)) as HB.
  rewrite forallb_forall in HB. auto.
Qed.

Lemma blanks_looks : forall ts, good U ts -> bxs_is_blank U (bx U ts) = Ok false -> ~ blanks U (render ts).
Proof.
  intros ts Hg H HB. destruct (looks_blank_iff U ts Hg H) as (_ & c & Hc & Hn). unfold blanks in HB. rewrite Forall_forall in HB.
  specialize (HB c Hc). congruence.
Qed.

Lemma match_right : forall a n ts', good U a -> trailing (bx U a) = 0 -> narrow_lead U (visible a) -> 0 < n -> good U ts' ->
  exists r, match_outer_shape U false (grown a n) (Some (bx U ts')) = Ok r /\
    match r with
    | None => True
    | Some mr => m_idx mr <= length (memory (grown a n)) /\
        if m_shiftable mr then m_idx mr = length (memory (grown a n))
        else ~ looks_blank U (render ts') /\ bxs_is_blank U (bx U ts') = Ok false /\
             u32_is_blank U (skipn (m_idx mr) (memory (grown a n))) = false /\
             held_right U (render ts') (skipn (m_idx mr) (memory (grown a n)))
    end.
Proof.
  intros a n ts' Hg Ht Hnar Hn Hg'.
  destruct (grown_spec a n Hg Ht Hnar Hn) as (Em & Ec & Ev & Etr & Hr1 & Hr2 & _).
  unfold match_outer_shape. rewrite Ec.
  destruct (Nat.eqb_spec (length (memory (grown a n))) 0) as [E0|_].
  { rewrite Em, app_length, repeat_length in E0. lia. }
  cbn [orb]. change (num_chars (bx U ts')) with (length (render ts')). change (memory (bx U ts')) with (render ts').
  destruct (Nat.eqb_spec (length (render ts')) 0) as [E0|E0]; [exists None; auto|].
  assert (Hb : exists b, bxs_is_blank U (bx U ts') = Ok b) by (rewrite is_blank_bx; eauto).
  destruct Hb as [[|] Hb]; rewrite Hb; cbn [bind].
  { rewrite Ev, Hr2. cbn [bind]. eexists. split; [reflexivity|]. cbn. auto. }
  rewrite Ev, Etr, subz_le by lia. cbn [bind]. replace (length (visible a) + n - n) with (length (visible a)) by lia.
  rewrite Hr1. cbn [bind]. pose proof (blanks_looks ts' Hg' Hb) as Hnb.
  destruct (outer_right_total (length (render ts') + 1) (length (render ts')) (grown a n) (render ts') (length (render a)))
    as [r Hr]; [lia|lia|intros j Hj; lia|exact Hnb|].
  rewrite Hr. exists r. split; [reflexivity|]. destruct r as [mr|]; [|exact I].
  apply outer_right_spec in Hr as (k & Hlen & Hsh & Hk & Hlim & Hpos & Hfit & Hbl); [|lia|intros j Hj; lia|exact Hnb].
  split; [lia|]. rewrite Hsh. split; [apply (looks_blank_iff U ts' Hg' Hb)|]. split; [reflexivity|].
  set (p := m_idx mr) in *. set (mm := memory (grown a n)) in *.
  assert (E : skipn p mm = firstn k (render ts') ++ repeat 32%N (length mm - p - k)).
  { rewrite <- (firstn_skipn k (skipn p mm)). rewrite Hpos. f_equal. rewrite skipn_skipn2.
    rewrite Em at 1. rewrite skipn_app. rewrite (skipn_all2 (render a)) by lia. cbn [app].
    assert (Hs : forall i m, skipn i (repeat 32%N m) = repeat 32%N (m - i)).
    { clear. induction i as [|i IH]; intros m; [rewrite Nat.sub_0_r; reflexivity|]. destruct m as [|m]; [reflexivity|]. cbn. apply IH. }
    rewrite Hs. f_equal. rewrite Em, app_length, repeat_length in Hfit |- *. lia. }
  split.
  - destruct (u32_is_blank U (skipn p mm)) eqn:Eb; [|reflexivity]. exfalso. apply Hnb. rewrite E in Eb. unfold u32_is_blank in Eb.
    rewrite forallb_app in Eb. apply andb_true_iff in Eb as [Eb _]. rewrite <- (firstn_skipn k (render ts')). apply Forall_app.
    split; [apply blanks_forallb; exact Eb|exact Hbl].
  - exists k, (length mm - p - k). split; [exact E|exact Hbl].
Qed.

(** ** whole lines *)
Theorem horiz_total : forall d inp (top : bool) li si ct l, wf_design U d -> built U d ->
  si < s_height (d_shape d (left_corner top)) -> nth_error (i_lines inp) li = Some l -> built_line U l ->
  exists r, match_horiz_with U d inp top li si ct = Ok r /\
    (r = true -> exists text, printed U (negb (drops_input ct)) (memory (l_text l)) text /\
                              border_line U d top (drops_shape ct) si text).
Proof.
  intros d inp top li si ct l WF HB Hsi Hnth Hbl.
  destruct (line_prep l ct inp li Hbl Hnth) as (ts & a & b & Hrd & Eab & Hci & Hfu & Hrt & Hga & Htr & Hbb & Hnar & Hlast & Hpr).
  destruct (prep_all d ct si (side_shapes top) WF HB) as (sr & Esr & Hsr).
  { apply Forall_forall. intros i Hi. apply side_heights with (top := top); assumption. }
  assert (Hctx : ctx_ok U sr) by (eapply prepped_ctx; [exact Hsr|destruct top; reflexivity]).
  assert (HeNW : isempty (d_shape d NW) = false) by (apply (wf_corners U d WF); cbn; auto).
  assert (HeNE : isempty (d_shape d NE) = false) by (apply (wf_corners U d WF); cbn; auto).
  assert (Hw : 0 < s_width (d_shape d NW) + s_width (d_shape d NE)).
  { unfold isempty in HeNW. rewrite !orb_false_iff in HeNW. destruct HeNW as [[_ Hx] _]. apply Nat.eqb_neq in Hx. lia. }
  set (n := s_width (d_shape d NW) + s_width (d_shape d NE)) in *.
  destruct (grown_spec a n Hga Htr Hnar Hw) as (Em & Ec & Ev & Etr & Hr1 & Hr2 & _).
  unfold match_horiz_with, prepare_comp_shapes_horiz. rewrite Esr. cbn [bind]. rewrite Hci. cbn [must bind]. rewrite Hfu. cbn [must bind].
  rewrite Hrt. cbn [must bind]. fold n. change (bxs_append_spaces (bx U a) n) with (grown a n).
  destruct (ctx_nth U sr 0 Hctx) as (E0 & _ & _); [lia|]. destruct (ctx_nth U sr 4 Hctx) as (E4 & _ & _); [lia|].
  rewrite E0. cbn [bind]. rewrite E4. cbn [bind]. rewrite Ev, Hr2.
  pose proof (prepped_nth d ct si top sr 0 Hsr ltac:(lia)) as Hp0. pose proof (prepped_nth d ct si top sr 4 Hsr ltac:(lia)) as Hp4.
  cbn [Nat.eqb] in Hp0, Hp4.
  assert (El : nth 0 (side_shapes top) 0 = left_corner top) by (destruct top; reflexivity).
  assert (Er : nth 4 (side_shapes top) 0 = right_corner top) by (destruct top; reflexivity).
  rewrite El in Hp0. rewrite Er in Hp4.
  assert (HeL : isempty (d_shape d (left_corner top)) = false) by (apply (wf_corners U d WF); destruct top; cbn; auto).
  assert (HeR : isempty (d_shape d (right_corner top)) = false) by (apply (wf_corners U d WF); destruct top; cbn; auto).
  destruct (seen_prepped d ct si _ _ Hp0 HeL) as (t0 & Et0 & Hg0 & Hs0).
  destruct (printed_prepped d ct si _ _ Hp4 HeR) as (t4 & Et4 & Hg4 & Hs4).
  assert (HL : exists mrl, (if empty_side (d_shape d) BLEF then Ok None else match_outer_shape U true (grown a n) (sc_text (nths sr 0))) = Ok mrl /\
    match mrl with None => True | Some mr => if m_shiftable mr then m_idx mr = 0 /\ m_len mr = 0
        else ~ looks_blank U (render t0) /\ m_idx mr + m_len mr <= length (memory (grown a n)) /\
             held_left U (render a) (render t0) (firstn (m_idx mr + m_len mr) (memory (grown a n))) end).
  { destruct (empty_side (d_shape d) BLEF); [exists None; auto|]. rewrite Et0. apply match_left; assumption. }
  destruct HL as (mrl & -> & HL). cbn [bind].
  assert (HR : exists mrr, (if empty_side (d_shape d) BRIG then Ok None else match_outer_shape U false (grown a n) (sc_text (nths sr 4))) = Ok mrr /\
    match mrr with None => True | Some mr => m_idx mr <= length (memory (grown a n)) /\
        if m_shiftable mr then m_idx mr = length (memory (grown a n))
        else ~ looks_blank U (render t4) /\ bxs_is_blank U (bx U t4) = Ok false /\
             u32_is_blank U (skipn (m_idx mr) (memory (grown a n))) = false /\
             held_right U (render t4) (skipn (m_idx mr) (memory (grown a n))) end).
  { destruct (empty_side (d_shape d) BRIG); [exists None; auto|]. rewrite Et4. apply match_right; assumption. }
  destruct HR as (mrr & -> & HR). cbn [bind].
  set (mm := memory (grown a n)) in *.
  set (cur := match mrl with Some r => m_idx r + m_len r | None => 0 end).
  set (endp := match mrr with Some r => m_idx r | None => length mm end).
  set (al := match mrl with Some r => negb (m_shiftable r) | None => false end).
  set (ar := match mrr with Some r => negb (m_shiftable r) | None => false end).
  assert (Hend : endp <= length mm) by (unfold endp; destruct mrr as [mr|]; [apply HR|lia]).
  assert (Hcur : cur <= length mm).
  { unfold cur. destruct mrl as [mr|]; [|lia]. destruct (m_shiftable mr); [destruct HL; lia|tauto]. }
  destruct (hmm_total U sr mm endp ar Hctx Hend (hmm_fuel mm) cur 1 al) as [r Hr]; [lia|exact Hcur|unfold hmm_fuel; destruct al; lia|].
  exists r. split; [exact Hr|]. intros ->.
  exists (render a). split; [exact Hpr|].
  exists (mids sr 1), ar, (firstn cur mm), (between mm cur endp), (skipn endp mm).
  split; [apply prepped_lines; exact Hsr|].
  assert (Hfix : ar = true -> u32_is_blank U (skipn endp mm) = false).
  { unfold ar, endp. destruct mrr as [mr|]; [|discriminate]. destruct (m_shiftable mr); [discriminate|]. tauto. }
  assert (Hfix4 : ar = true -> emptyb U (nths sr 4) = false).
  { unfold ar. destruct mrr as [mr|]; [|discriminate]. destruct (m_shiftable mr); [discriminate|]. intros _.
    unfold emptyb. destruct Hp4 as (Hx & _). rewrite Hx, HeR, Et4. cbn [orb blank_opt]. destruct HR as (_ & _ & -> & _). reflexivity. }
  assert (Hsplit : cur <= endp -> render a ++ repeat 32%N (left_w d + right_w d) = firstn cur mm ++ between mm cur endp ++ skipn endp mm).
  { intros Hle. change (left_w d + right_w d) with n. rewrite <- Em. fold mm. rewrite <- (between_all mm endp).
    rewrite <- between_split by lia. rewrite between_all. symmetry. apply firstn_skipn. }
  assert (Hright : if ar then exists rc, printed U (negb (drops_shape ct)) (row_text (d_shape d (right_corner top)) si) rc /\
        ~ looks_blank U rc /\ held_right U rc (skipn endp mm) else skipn endp mm = []).
  { unfold ar, endp. destruct mrr as [mr|]; [|apply skipn_all]. destruct (m_shiftable mr); cbn [negb].
    - destruct HR as [_ ->]. apply skipn_all.
    - exists (render t4). tauto. }
  destruct al eqn:Eal.
  - destruct (hmm_sound_left U sr mm endp ar Hctx Hend Hfix (hmm_fuel mm) cur 1 ltac:(lia) Hr) as [Hle Hlaid].
    split; [apply Hsplit; exact Hle|]. split; [|exact Hright]. left. exists (render t0). split; [exact Hs0|].
    unfold al in Eal. destruct mrl as [mr|]; [|discriminate]. destruct (m_shiftable mr); [discriminate|].
    split; [tauto|]. split; [tauto|exact Hlaid].
  - assert (E : cur = 0).
    { unfold al in Eal. unfold cur. destruct mrl as [mr|]; [|reflexivity]. destruct (m_shiftable mr); [destruct HL; lia|discriminate]. }
    split; [apply Hsplit; lia|]. split; [|exact Hright]. right. rewrite E. split; [reflexivity|].
    rewrite E in Hr. apply (hmm_sound_free U sr mm endp ar Hctx Hend Hfix Hfix4 (hmm_fuel mm) 0 1); [lia|lia|exact Hr].
Qed.
End Horiz.
