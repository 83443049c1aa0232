(** * Proofs about string operations: cutting, trimming, filtering, prepending *)
From Coq Require Import List Arith NArith ZArith Bool Lia.
From Verif Require Import Base BaseFacts Model_Unicode Model_Bxs Spec_Str Proof_Str Proof_Bxs.
Import ListNotations.

(** ** Validity of parts *)
Lemma toks_ok_app_r : forall a b, toks_ok (a ++ b) -> toks_ok b.
Proof. induction a as [|t a IH]; intros b H; [exact H|]. destruct H as (_ & _ & H). auto. Qed.

Lemma toks_ok_app_l : forall a b, toks_ok (a ++ b) -> toks_ok a.
Proof.
  induction a as [|t a IH]; intros b H; [exact I|]. destruct H as (Ht & Hc & H).
  cbn. repeat split; eauto. intros E. specialize (Hc E). destruct a; [reflexivity|discriminate].
Qed.

Lemma clean_app_r : forall a b, clean (a ++ b) -> clean b.
Proof.
  intros a b [H1 H2]. split; [eapply toks_ok_app_r; eassumption|].
  apply Forall_app in H2. tauto.
Qed.

Lemma clean_app_l : forall a b, clean (a ++ b) -> clean a.
Proof.
  intros a b [H1 H2]. split; [eapply toks_ok_app_l; eassumption|].
  apply Forall_app in H2. tauto.
Qed.

Lemma closed_app : forall a b, closed a -> closed b -> closed (a ++ b).
Proof.
  intros a b [[Ha1 Ha2] Ha3] [[Hb1 Hb2] Hb3].
  assert (toks_ok (a ++ b)).
  { induction a as [|t a IH]; [exact Hb1|]. destruct Ha1 as (Ht & Hc & Ha1).
    inversion Ha2; inversion Ha3; subst. cbn. repeat split; auto. congruence. }
  repeat split; auto; apply Forall_app; auto.
Qed.

Lemma closed_app_inv : forall a b, closed (a ++ b) -> closed a /\ closed b.
Proof.
  intros a b [Hc Hk]. apply Forall_app in Hk as [Hka Hkb].
  split; split; auto; [eapply clean_app_l|eapply clean_app_r]; eassumption.
Qed.

Lemma closed_nil : closed [].
Proof. repeat split; constructor. Qed.

(** closed followed by clean is clean *)
Lemma clean_app : forall a b, closed a -> clean b -> clean (a ++ b).
Proof.
  intros a b [[Ha1 Ha2] Ha3] [Hb1 Hb2].
  assert (toks_ok (a ++ b)).
  { induction a as [|t a IH]; [exact Hb1|]. destruct Ha1 as (Ht & Hc & Ha1).
    inversion Ha2; inversion Ha3; subst. cbn. repeat split; auto. congruence. }
  split; auto. apply Forall_app; auto.
Qed.

Lemma columns_app : forall cw a b, columns cw (a ++ b) = columns cw a + columns cw b.
Proof.
  intros cw a b. unfold columns. rewrite visible_app.
  induction (visible a) as [|c l IH]; cbn; [reflexivity|]. rewrite IH. lia.
Qed.

Lemma invisible_len_app : forall a b, invisible_len (a ++ b) = invisible_len a + invisible_len b.
Proof.
  induction a as [|t a IH]; intros b; [reflexivity|].
  unfold invisible_len in *. cbn [app fold_right]. rewrite IH. lia.
Qed.

Lemma render_length : forall ts, length (render ts) = length (visible ts) + invisible_len ts.
Proof.
  induction ts as [|t ts IH]; [reflexivity|].
  rewrite render_cons, app_length, IH, visible_cons. unfold invisible_len at 2. cbn [fold_right].
  fold (invisible_len ts).
  destruct t; cbn [tok_chars length]; lia.
Qed.

(** plain text: all characters visible *)
Definition plain (l : list N) : list tok := map Vis l.

Lemma render_plain : forall l, render (plain l) = l.
Proof. induction l as [|c l IH]; [reflexivity|]. cbn. unfold render, plain in IH. rewrite IH. reflexivity. Qed.

Lemma visible_plain : forall l, visible (plain l) = l.
Proof. induction l as [|c l IH]; [reflexivity|]. cbn. unfold visible, plain in IH. rewrite IH. reflexivity. Qed.

Lemma closed_plain : forall l, ~ In 27%N l -> closed (plain l).
Proof.
  induction l as [|c l IH]; intros H; [apply closed_nil|].
  assert (Hl : ~ In 27%N l) by (intros Hx; apply H; right; exact Hx).
  destruct (IH Hl) as [[H1 H2] H3].
  assert (Hc : c <> 27%N) by (intros ->; apply H; left; reflexivity).
  split; [split|].
  - cbn. split; [exact Hc|]. split; [discriminate|exact H1].
  - constructor; auto.
  - constructor; auto.
Qed.

(** ** Positions split the token list *)
Lemma first_pos_split : forall ts pre cand n p,
  Forall (fun t => is_odd t = false) ts ->
  (forall k, cand = Some k -> exists a b, pre = a ++ b /\ length (render a) = k /\ visible b = []) ->
  nth_error (first_pos (length (render pre)) cand ts ++ [length (render (pre ++ ts))]) n = Some p ->
  exists a b, pre ++ ts = a ++ b /\ length (render a) = p /\ length (visible a) = length (visible pre) + n.
Proof.
  induction ts as [|t ts IH]; intros pre cand n p Ho Hc Hn.
  - cbn [first_pos app] in Hn. rewrite app_nil_r in *.
    destruct n as [|[|n]]; cbn in Hn; try discriminate. injection Hn as <-.
    exists pre, []. rewrite app_nil_r. auto.
  - inversion Ho as [|x l Hot Hots]; subst.
    assert (Happ : pre ++ t :: ts = (pre ++ [t]) ++ ts) by (rewrite <- app_assoc; reflexivity).
    assert (Hlen : length (render (pre ++ [t])) = length (render pre) + length (tok_chars t)).
    { rewrite render_app, app_length. cbn. rewrite app_nil_r. reflexivity. }
    destruct t as [c|b|b|d]; try discriminate.
    + cbn [first_pos] in Hn. destruct n as [|n].
      * cbn in Hn. injection Hn as <-. destruct cand as [k|].
        -- destruct (Hc k eq_refl) as (a & b & -> & Hk & Hb).
           exists a, (b ++ Vis c :: ts). rewrite <- app_assoc, visible_app, app_length, Hb. cbn.
           repeat split; auto. lia.
        -- exists pre, (Vis c :: ts). repeat split; auto.
      * cbn [nth_error app] in Hn. rewrite Happ in Hn |- *. cbn [tok_chars length] in Hlen.
        replace (S (length (render pre))) with (length (render (pre ++ [Vis c]))) in Hn by lia.
        destruct (IH (pre ++ [Vis c]) None n p Hots) as (a & b & E & Hp & Hv); [discriminate|exact Hn|].
        exists a, b. repeat split; auto. rewrite Hv, visible_app, app_length. cbn. lia.
    + cbn [first_pos] in Hn. rewrite Happ in Hn |- *. rewrite <- Hlen in Hn.
      edestruct (IH (pre ++ [Esc b])) with (3 := Hn) as (a & b' & E & Hp & Hv).
      { exact Hots. }
      { intros k Hk. destruct (is_csi_reset (tok_chars (Esc b))); [discriminate|]. injection Hk as <-.
        exists pre, [Esc b]. repeat split; auto. }
      exists a, b'. repeat split; auto. rewrite Hv, visible_app, app_length. cbn. lia.
    + cbn [first_pos] in Hn. rewrite Happ in Hn |- *. rewrite <- Hlen in Hn.
      edestruct (IH (pre ++ [Cut b])) with (3 := Hn) as (a & b' & E & Hp & Hv).
      { exact Hots. }
      { intros k Hk. destruct (is_csi_reset (tok_chars (Cut b))); [discriminate|]. injection Hk as <-.
        exists pre, [Cut b]. repeat split; auto. }
      exists a, b'. repeat split; auto. rewrite Hv, visible_app, app_length. cbn. lia.
Qed.

Lemma first_pos_length : forall ts o cand, length (first_pos o cand ts) = length (visible ts).
Proof.
  induction ts as [|t ts IH]; intros o cand; [reflexivity|].
  rewrite visible_cons. destruct t; cbn [first_pos length]; rewrite IH; reflexivity.
Qed.

Lemma vis_pos_length : forall ts o, length (vis_pos o ts) = length (visible ts).
Proof.
  induction ts as [|t ts IH]; intros o; [reflexivity|].
  rewrite visible_cons. destruct t; cbn [vis_pos length]; rewrite IH; reflexivity.
Qed.

Lemma vis_pos_nth : forall ts o n p, nth_error (vis_pos o ts) n = Some p ->
  o <= p /\ p < o + length (render ts) /\ nth_error (render ts) (p - o) = nth_error (visible ts) n.
Proof.
  induction ts as [|t ts IH]; intros o n p H.
  - destruct n; discriminate.
  - rewrite render_cons, visible_cons, app_length.
    assert (Hx : forall k, vis_pos (o + k) ts = vis_pos (o + k) ts) by reflexivity.
    destruct t as [c|b|b|d]; cbn [vis_pos] in H.
    + destruct n as [|n].
      * cbn in H. injection H as <-. rewrite Nat.sub_diag. cbn. repeat split; lia.
      * cbn in H. apply IH in H as (H1 & H2 & H3). cbn [tok_chars length].
        repeat split; try lia.
        replace (p - o) with (S (p - S o)) by lia. cbn. exact H3.
    + apply IH in H as (H1 & H2 & H3). repeat split; try lia.
      rewrite nth_error_app2 by lia. rewrite <- H3. f_equal. lia.
    + apply IH in H as (H1 & H2 & H3). repeat split; try lia.
      rewrite nth_error_app2 by lia. rewrite <- H3. f_equal. lia.
    + apply IH in H as (H1 & H2 & H3). repeat split; try lia.
      rewrite nth_error_app2 by lia. rewrite <- H3. f_equal. lia.
Qed.

Lemma vis_pos_sorted : forall ts o n p q,
  nth_error (vis_pos o ts) n = Some p -> nth_error (vis_pos o ts) (S n) = Some q -> p < q.
Proof.
  induction ts as [|t ts IH]; intros o n p q Hp Hq; [destruct n; discriminate|].
  destruct t as [c|b|b|d]; cbn [vis_pos] in Hp, Hq; eauto.
  destruct n as [|n].
  - cbn in Hp. injection Hp as <-. change (nth_error (vis_pos (S o) ts) 0 = Some q) in Hq.
    apply vis_pos_nth in Hq. lia.
  - cbn in Hp, Hq. eauto.
Qed.

(** ** The escape sequence attached to a character *)
Lemma reset_switch_off : forall b, tok_ok (Esc b) -> (is_csi_reset b = true <-> switch_off b).
Proof.
  pose proof csi_final_iff as Hf.
  assert (Hnf : forall f, ~ final f -> csi_final f = false).
  { intros f Hx. destruct (csi_final f) eqn:E; [apply Hf in E; contradiction|reflexivity]. }
  intros b [(d & -> & Hd & H91)|(d & ps & f & -> & Ho & Hps & Hfin)].
  - split; [discriminate|]. intros (d' & ps & f & E & Hop & Hfi & _).
    injection E as <- E. destruct ps; discriminate.
  - assert (Ho' : (N.eqb d 91 || N.eqb d 40)%bool = true) by (apply opener_iff; exact Ho).
    split.
    + intros H. exists d, ps, f. split; [reflexivity|]. split; [exact Ho|]. split; [exact Hfin|].
      destruct ps as [|p1 [|p2 [|p3 ps]]].
      * left. reflexivity.
      * cbn [app] in H. unfold is_csi_reset in H. rewrite Ho' in H. cbn [andb hd tl] in H.
        inversion Hps as [|x l H1 _]; subst.
        destruct (N.eqb_spec p1 48) as [->|]; [right; left; reflexivity|].
        rewrite (Hnf p1 H1) in H. match type of H with context [if ?b then _ else _] => destruct b end; discriminate H.
      * cbn [app] in H. unfold is_csi_reset in H. rewrite Ho' in H. cbn [andb hd tl] in H.
        inversion Hps as [|x l H1 Hp2]; subst. inversion Hp2 as [|x l H2 _]; subst.
        destruct (N.eqb_spec p1 48) as [->|]; [rewrite (Hnf p2 H2) in H; discriminate|].
        rewrite (Hnf p1 H1) in H.
        match type of H with context [if ?b then _ else _] => destruct b eqn:E end; [|discriminate H]. clear H.
        rewrite !orb_true_iff, !andb_true_iff, !N.eqb_eq in E.
        decompose [and or] E; subst; cbn; auto 10.
      * cbn [app] in H. unfold is_csi_reset in H. rewrite Ho' in H. cbn [andb hd tl] in H.
        inversion Hps as [|x l H1 Hp2]; subst. inversion Hp2 as [|x l H2 Hp3]; subst. inversion Hp3 as [|x l H3 _]; subst.
        destruct (N.eqb_spec p1 48) as [->|]; [rewrite (Hnf p2 H2) in H; discriminate|].
        rewrite (Hnf p1 H1), (Hnf p3 H3) in H. match type of H with context [if ?b then _ else _] => destruct b end; discriminate H.
    + intros (d' & ps' & f' & E & _ & Hfi & Hin). injection E as <- E. apply app_inj_tail in E as [-> ->].
      unfold is_csi_reset. rewrite Ho'. cbn [andb]. apply Hf in Hfi.
      cbn [In] in Hin. decompose [or] Hin; try contradiction; subst ps'; cbn [app hd tl]; try exact Hfi.
      rewrite Hfi. destruct (N.eqb_spec f' 48) as [->|]; [discriminate Hfi|reflexivity].
Qed.

Lemma attached_nil_vis : forall a c, attached (a ++ [Vis c]) [].
Proof. intros a c. left. split; [reflexivity|]. intros a' b E. apply app_inj_tail in E as [_ E]. discriminate. Qed.

Lemma first_pos_attached : forall ts pre cand n p,
  toks_ok ts -> Forall (fun t => is_odd t = false) ts ->
  match cand with
  | None => attached pre []
  | Some k => exists a t, pre = a ++ [t] /\ length (render a) = k /\ (visible [t] = []) /\
                (attached a [t] \/ ts = [])
  end ->
  nth_error (first_pos (length (render pre)) cand ts) n = Some p ->
  exists a e c z, pre ++ ts = a ++ e ++ Vis c :: z /\ attached a e /\
    length (render a) = p /\ length (visible a) = length (visible pre) + n.
Proof.
  induction ts as [|t ts IH]; intros pre cand n p Hok Ho Hc Hn; [destruct n; discriminate|].
  inversion Ho as [|x l Hot Hots]; subst. destruct Hok as (Ht & Hcut & Hok).
  assert (Happ : pre ++ t :: ts = (pre ++ [t]) ++ ts) by (rewrite <- app_assoc; reflexivity).
  assert (Hlen : length (render (pre ++ [t])) = length (render pre) + length (tok_chars t)).
  { rewrite render_app, app_length. cbn. rewrite app_nil_r. reflexivity. }
  destruct t as [c|b|b|d]; try discriminate.
  - cbn [first_pos] in Hn. destruct n as [|n].
    + cbn in Hn. injection Hn as <-. destruct cand as [k|].
      * destruct Hc as (a & t & -> & Hk & Hv & [Ha|Hx]); [|discriminate].
        exists a, [t], c, ts. rewrite <- app_assoc. split; [reflexivity|]. split; [exact Ha|]. split; [exact Hk|].
        rewrite visible_app, app_length, Hv. cbn. lia.
      * exists pre, [], c, ts. repeat split; auto.
    + cbn [nth_error] in Hn. rewrite Happ. cbn [tok_chars length] in Hlen.
      replace (S (length (render pre))) with (length (render (pre ++ [Vis c]))) in Hn by lia.
      destruct (IH (pre ++ [Vis c]) None n p Hok Hots) as (a & e & c' & z & E & Ha & Hp & Hv);
        [apply attached_nil_vis|exact Hn|].
      exists a, e, c', z. repeat split; auto. rewrite Hv, visible_app, app_length. cbn. lia.
  - cbn [first_pos] in Hn. rewrite Happ. rewrite <- Hlen in Hn.
    edestruct (IH (pre ++ [Esc b])) with (4 := Hn) as (a & e & c' & z & E & Ha & Hp & Hv); [exact Hok|exact Hots| |].
    { cbn [tok_chars]. destruct (is_csi_reset b) eqn:Er.
      - left. split; [reflexivity|]. intros a' b' E. apply app_inj_tail in E as [_ E]. injection E as <-.
        apply reset_switch_off; assumption.
      - exists pre, (Esc b). repeat split; auto. left. right. exists b. split; [reflexivity|].
        rewrite <- reset_switch_off by exact Ht. congruence. }
    exists a, e, c', z. repeat split; auto. rewrite Hv, visible_app, app_length. cbn. lia.
  - rewrite (Hcut eq_refl) in Hn. cbn in Hn. destruct n; discriminate.
Qed.

Section WithTables.
Variable U : uctab.

(** Strings the program can hold: recognised escape sequences only, allowed characters, no tabs. *)
Definition good (ts : list tok) : Prop := clean ts /\ allowed U ts /\ tabless ts.

Lemma allowed_app : forall a b, allowed U (a ++ b) <-> allowed U a /\ allowed U b.
Proof. intros a b. unfold allowed. rewrite visible_app, Forall_app. tauto. Qed.

Lemma tabless_app : forall a b, tabless (a ++ b) <-> tabless a /\ tabless b.
Proof. intros a b. unfold tabless. rewrite visible_app, in_app_iff. tauto. Qed.

Lemma good_app_inv : forall a b, good (a ++ b) -> good a /\ good b.
Proof.
  intros a b (Hc & Ha & Ht). apply allowed_app in Ha as [Ha1 Ha2]. apply tabless_app in Ht as [Ht1 Ht2].
  pose proof (clean_app_l _ _ Hc) as Hl. pose proof (clean_app_r _ _ Hc) as Hr.
  split; (split; [assumption|split; assumption]).
Qed.

Lemma from_unicode_good : uctab_ok U -> forall ts, good ts -> bxs_from_unicode U (render ts) = Ok (bx U ts).
Proof.
  intros HU ts (Hc & Ha & Ht). apply from_unicode_bx; auto. apply tabless_fits; auto.
Qed.

Lemma rd_first_attached : forall ts n, toks_ok ts -> Forall (fun t => is_odd t = false) ts -> n < length (visible ts) ->
  exists a e c z, ts = a ++ e ++ Vis c :: z /\ rd (first_char (bx U ts)) n = Ok (length (render a)) /\
              visible a = firstn n (visible ts) /\ attached a e.
Proof.
  intros ts n Hok Ho Hn.
  assert (Hl : n < length (first_pos 0 None ts)) by (rewrite first_pos_length; exact Hn).
  destruct (nth_error (first_pos 0 None ts) n) as [p|] eqn:E; [|apply nth_error_None in E; lia].
  destruct (first_pos_attached ts [] None n p Hok Ho) as (a & e & c & z & Hab & Ha & Hp & Hv); [|exact E|].
  { left. split; [reflexivity|]. intros [|x a'] b Ex; discriminate. }
  cbn in Hab, Hv. exists a, e, c, z. split; [exact Hab|]. split.
  - unfold rd. cbn [bx first_char]. rewrite nth_error_app1 by exact Hl. rewrite E, Hp. reflexivity.
  - split; [|exact Ha]. rewrite Hab, visible_app, firstn_app, <- Hv, Nat.sub_diag, firstn_all. cbn. rewrite app_nil_r. reflexivity.
Qed.

Lemma rd_first : forall ts n, Forall (fun t => is_odd t = false) ts -> n <= length (visible ts) ->
  exists a b, ts = a ++ b /\ rd (first_char (bx U ts)) n = Ok (length (render a)) /\
              visible a = firstn n (visible ts) /\ visible b = skipn n (visible ts).
Proof.
  intros ts n Ho Hn.
  destruct (nth_error (first_pos 0 None ts ++ [length (render ts)]) n) as [p|] eqn:E.
  - destruct (first_pos_split ts [] None n p Ho) as (a & b & Hab & Hp & Hv); [discriminate|exact E|].
    cbn in Hab, Hv. exists a, b. subst ts.
    split; [reflexivity|]. split.
    + unfold rd. cbn [bx first_char]. rewrite E, Hp. reflexivity.
    + rewrite visible_app, <- Hv. split.
      * rewrite firstn_app, Nat.sub_diag, firstn_all. cbn. rewrite app_nil_r. reflexivity.
      * rewrite skipn_app, Nat.sub_diag, skipn_all. reflexivity.
  - apply nth_error_None in E. rewrite app_length, first_pos_length in E. cbn in E. lia.
Qed.

Lemma skipn_render : forall a b, skipn (length (render a)) (render (a ++ b)) = render b.
Proof. intros a b. rewrite render_app, skipn_app, Nat.sub_diag, skipn_all. reflexivity. Qed.

Lemma firstn_render : forall a b, firstn (length (render a)) (render (a ++ b)) = render a.
Proof.
  intros a b. rewrite render_app, firstn_app, Nat.sub_diag, firstn_all. cbn. apply app_nil_r.
Qed.

Hypothesis HU : uctab_ok U.

Lemma length_render_app_le : forall a b, length (render a) <= length (render (a ++ b)).
Proof. intros a b. rewrite render_app, app_length. lia. Qed.

(** cutting [n] visible characters off the front *)
Lemma cut_front_good : forall ts n, good ts ->
  exists b, bxs_cut_front U (bx U ts) n = Ok (bx U b) /\ good b /\ visible b = skipn n (visible ts) /\
            exists a, (n < length (visible ts) -> ts = a ++ b) /\ visible a = firstn n (visible ts) /\
              (0 < n < length (visible ts) -> exists e c z, b = e ++ Vis c :: z /\ attached a e).
Proof.
  intros ts n Hg. unfold bxs_cut_front. cbn [bx num_chars_visible].
  destruct (Nat.leb_spec (length (visible ts)) n) as [Hle|Hlt].
  - exists []. repeat split; try constructor.
    + intros [].
    + rewrite skipn_all2 by assumption. reflexivity.
    + exists ts. rewrite firstn_all2 by assumption. split; [lia|]. split; [reflexivity|lia].
  - destruct (Nat.eqb_spec n 0) as [->|Hn].
    + exists ts. repeat split; try apply Hg. exists []. split; [auto|]. split; [reflexivity|lia].
    + assert (Ho : Forall (fun t => is_odd t = false) ts) by apply Hg.
      destruct (rd_first_attached ts n) as (a & e & c & z & E & Hr & Hva & Hat); [apply Hg|exact Ho|lia|].
      rewrite Hr. cbn [bind]. remember (e ++ Vis c :: z) as b eqn:Eb.
      assert (Hvb : visible b = skipn n (visible ts)).
      { apply (app_inv_head (visible a)). rewrite <- visible_app, <- E, Hva, firstn_skipn. reflexivity. }
      subst ts.
      destruct (good_app_inv a b Hg) as [Hga Hgb].
      cbn [bx memory]. pose proof (length_render_app_le a b).
      destruct (Nat.ltb_spec (length (render (a ++ b))) (length (render a))); [lia|].
      rewrite skipn_render, from_unicode_good by auto.
      exists b. split; [reflexivity|]. split; [exact Hgb|]. split; [exact Hvb|].
      exists a. split; [auto|]. split; [exact Hva|]. intros _. exists e, c, z. auto.
Qed.

(** trimming at the right end *)
Lemma rtrim_good : forall ts, good ts ->
  exists a b, ts = a ++ b /\ bxs_rtrim U (bx U ts) = Ok (bx U a) /\ good a /\
    (all_blank U (visible ts) = true -> b = []) /\
    (all_blank U (visible ts) = false ->
       length (visible a) = length (visible ts) - trail (is_blank U) (visible ts)).
Proof.
  intros ts Hg. unfold bxs_rtrim. cbn [bx trailing num_chars_visible].
  destruct (all_blank U (visible ts)) eqn:Eb.
  - exists ts, []. rewrite app_nil_r. repeat split; auto; try apply Hg. discriminate.
  - destruct (Nat.eqb_spec (trail (is_blank U) (visible ts)) 0) as [E0|E0].
    + exists ts, []. rewrite app_nil_r. repeat split; auto; try apply Hg. rewrite E0. lia.
    + pose proof (trail_le (is_blank U) (visible ts)) as Hle.
      rewrite subz_le by assumption. cbn [bind].
      assert (Ho : Forall (fun t => is_odd t = false) ts) by apply Hg.
      destruct (rd_first ts (length (visible ts) - trail (is_blank U) (visible ts)) Ho)
        as (a & b & E & Hr & Hva & Hvb); [lia|].
      rewrite Hr. cbn [bind]. 
      exists a, b. split; [exact E|]. rewrite E in Hg. destruct (good_app_inv a b Hg) as [Hga Hgb].
      split.
      * rewrite E. cbn [bx memory]. pose proof (length_render_app_le a b).
        destruct (Nat.ltb_spec (length (render (a ++ b))) (length (render a))); [lia|].
        rewrite firstn_render. apply from_unicode_good; auto.
      * repeat split; try apply Hga; try discriminate.
        intros _. rewrite Hva, firstn_length. lia.
Qed.

Lemma vis_pos_bounds : forall ts i, i < length (visible ts) ->
  rd (visible_char (bx U ts)) i = Ok (nth i (vis_pos 0 ts) 0) /\
  nth i (vis_pos 0 ts) 0 < length (render ts) /\
  nth (nth i (vis_pos 0 ts) 0) (render ts) 0%N = nth i (visible ts) 0%N.
Proof.
  intros ts i Hi.
  assert (Hl : i < length (vis_pos 0 ts)) by (rewrite vis_pos_length; exact Hi).
  assert (En : nth_error (vis_pos 0 ts) i = Some (nth i (vis_pos 0 ts) 0)) by (apply nth_error_nth'; exact Hl).
  pose proof (vis_pos_nth ts 0 i _ En) as (_ & H2 & H3).
  rewrite Nat.sub_0_r in H3. cbn in H2.
  split; [|split].
  - apply rd_ok. cbn [bx visible_char]. rewrite nth_error_app1 by exact Hl. exact En.
  - exact H2.
  - rewrite (nth_error_nth' (render ts) 0%N H2), (nth_error_nth' (visible ts) 0%N Hi) in H3. congruence.
Qed.

Lemma read_visible : forall ts,
  mapM (fun i => p <- rd (visible_char (bx U ts)) i ;; rdc (memory (bx U ts)) p)
       (seq 0 (length (visible ts))) = Ok (visible ts).
Proof.
  intros ts.
  rewrite (mapM_pure _ _ _ (fun i => nth i (visible ts) 0%N)).
  - rewrite seq_nth_map. reflexivity.
  - intros i Hi. apply in_seq in Hi. destruct (vis_pos_bounds ts i) as (H1 & H2 & H3); [lia|].
    rewrite H1. cbn [bind bx memory]. rewrite rdc_lt by exact H2. rewrite H3. reflexivity.
Qed.

Lemma invisible_len_0 : forall ts, Forall (fun t => is_odd t = false) ts -> toks_ok ts ->
  invisible_len ts = 0 -> render ts = visible ts.
Proof.
  induction ts as [|t ts IH]; intros Ho Hok H; [reflexivity|].
  inversion Ho; subst. destruct Hok as (Ht & _ & Hok).
  unfold invisible_len in H. cbn [fold_right] in H. fold (invisible_len ts) in H.
  pose proof (tok_len_pos t Ht).
  rewrite render_cons, visible_cons.
  destruct t as [c|b|b|d]; cbn [tok_chars length] in *; try lia; try discriminate.
  cbn [app]. f_equal. apply IH; auto; lia.
Qed.

Lemma filter_visible_bx : forall ts, clean ts -> bxs_filter_visible (bx U ts) = Ok (visible ts).
Proof.
  intros ts [Hok Ho]. unfold bxs_filter_visible. cbn [bx num_chars_invisible].
  destruct (Nat.eqb_spec (invisible_len ts) 0) as [E|E].
  - change (Ok (render ts) = Ok (visible ts)). f_equal. apply invisible_len_0; auto.
  - exact (read_visible ts).
Qed.

Lemma is_blank_bx : forall ts,
  bxs_is_blank U (bx U ts) =
  Ok ((length (render ts) =? 0) ||
      forallb (fun c => N.eqb c char_tab || N.eqb c char_cr || uc_is_blank U c) (visible ts)).
Proof.
  intros ts. unfold bxs_is_blank. cbn [bx num_chars].
  destruct (Nat.eqb_spec (length (render ts)) 0) as [E|E]; [reflexivity|].
  pose proof (read_visible ts) as R. cbn [bx memory visible_char] in R.
  cbn [bx memory visible_char num_chars_visible]. rewrite R. reflexivity.
Qed.

(** ** Prepending spaces equals rebuilding *)
Lemma plain_app_first : forall n ts,
  first_pos 0 None (plain (repeat 32%N n) ++ ts) = seq 0 n ++ map (fun i => i + n) (first_pos 0 None ts).
Proof.
  assert (Hshift : forall ts o cand k, first_pos (o + k) (option_map (fun i => i + k) cand) ts
                   = map (fun i => i + k) (first_pos o cand ts)).
  { induction ts as [|t ts IH]; intros o cand k; [reflexivity|].
    destruct t as [c|b|b|d]; cbn [first_pos map].
    - f_equal; [destruct cand; reflexivity|]. exact (IH (S o) None k).
    - replace (o + k + length (tok_chars (Esc b))) with (o + length (tok_chars (Esc b)) + k) by lia.
      rewrite <- IH. destruct (is_csi_reset (tok_chars (Esc b))); reflexivity.
    - replace (o + k + length (tok_chars (Cut b))) with (o + length (tok_chars (Cut b)) + k) by lia.
      rewrite <- IH. destruct (is_csi_reset (tok_chars (Cut b))); reflexivity.
    - replace (o + k + length (tok_chars (Odd d))) with (o + length (tok_chars (Odd d)) + k) by lia.
      rewrite <- IH. destruct (is_csi_reset (tok_chars (Odd d))); reflexivity. }
  assert (H : forall n o ts, first_pos o None (plain (repeat 32%N n) ++ ts)
              = seq o n ++ first_pos (o + n) None ts).
  { induction n as [|n IH]; intros o ts; cbn; [rewrite Nat.add_0_r; reflexivity|].
    f_equal. unfold plain in IH. rewrite IH. do 2 f_equal. lia. }
  intros n ts. rewrite H. f_equal. exact (Hshift ts 0 None n).
Qed.

Lemma plain_app_vis : forall n ts,
  vis_pos 0 (plain (repeat 32%N n) ++ ts) = seq 0 n ++ map (fun i => i + n) (vis_pos 0 ts).
Proof.
  assert (Hshift : forall ts o k, vis_pos (o + k) ts = map (fun i => i + k) (vis_pos o ts)).
  { induction ts as [|t ts IH]; intros o k; [reflexivity|].
    destruct t as [c|b|b|d]; cbn [vis_pos map].
    - f_equal. exact (IH (S o) k).
    - rewrite <- IH. f_equal. lia.
    - rewrite <- IH. f_equal. lia.
    - rewrite <- IH. f_equal. lia. }
  assert (H : forall n o ts, vis_pos o (plain (repeat 32%N n) ++ ts) = seq o n ++ vis_pos (o + n) ts).
  { induction n as [|n IH]; intros o ts; cbn; [rewrite Nat.add_0_r; reflexivity|].
    f_equal. unfold plain in IH. rewrite IH. do 2 f_equal. lia. }
  intros n ts. rewrite H. f_equal. exact (Hshift ts 0 n).
Qed.

Lemma blank32 : is_blank U 32 = true.
Proof. unfold is_blank. rewrite (ok_space _ HU). apply orb_true_r. Qed.

Lemma char_cols_32 : char_cols U 32 = 1.
Proof. reflexivity. Qed.

Lemma forallb_repeat : forall (p : N -> bool) c n, p c = true -> forallb p (repeat c n) = true.
Proof. intros p c n H. induction n as [|n IH]; [reflexivity|]. cbn. rewrite H, IH. reflexivity. Qed.

Lemma lead_cols_spaces : forall n l, lead_cols U (repeat 32%N n ++ l) = n + lead_cols U l.
Proof.
  induction n as [|n IH]; intros l; [reflexivity|].
  cbn [repeat app]. rewrite lead_cols_cons, blank32, char_cols_32, IH. lia.
Qed.

Lemma columns_spaces : forall n, columns (char_cols U) (plain (repeat 32%N n)) = n.
Proof.
  intros n. unfold columns. rewrite visible_plain.
  induction n as [|n IH]; [reflexivity|]. cbn [repeat fold_right]. rewrite IH. reflexivity.
Qed.

Lemma prepend_bx : forall ts n,
  bxs_prepend_spaces (bx U ts) n = Ok (bx U (plain (repeat 32%N n) ++ ts)).
Proof.
  intros ts n. unfold bxs_prepend_spaces. destruct (Nat.eqb_spec n 0) as [->|Hn].
  { reflexivity. }
  f_equal. unfold bx. cbn [memory ascii indent num_columns num_chars num_chars_visible
    num_chars_invisible trailing first_char visible_char].
  assert (Hr : length (render (plain (repeat 32%N n) ++ ts)) = length (render ts) + n).
  { rewrite render_app, app_length, render_plain, repeat_length. lia. }
  f_equal.
  - rewrite render_app, render_plain. reflexivity.
  - rewrite visible_app, visible_plain, flat_map_app. f_equal.
    clear. induction n as [|n IH]; [reflexivity|]. cbn. rewrite <- IH. reflexivity.
  - rewrite visible_app, visible_plain, lead_cols_spaces. lia.
  - rewrite columns_app, columns_spaces. lia.
  - lia.
  - rewrite visible_app, visible_plain, app_length, repeat_length. lia.
  - rewrite invisible_len_app.
    assert (E : invisible_len (plain (repeat 32%N n)) = 0).
    { clear. induction n as [|n IH]; [reflexivity|].
      unfold invisible_len, plain in *. cbn. exact IH. }
    rewrite E. reflexivity.
  - rewrite visible_app, visible_plain. unfold all_blank. rewrite forallb_app.
    rewrite (forallb_repeat _ 32%N n blank32). cbn [andb].
    destruct (forallb (is_blank U) (visible ts)) eqn:Eb; [reflexivity|].
    rewrite trail_app, Eb. reflexivity.
  - rewrite plain_app_first, map_app, <- app_assoc, Hr. reflexivity.
  - rewrite plain_app_vis, map_app, <- app_assoc, Hr. reflexivity.
Qed.

End WithTables.
