(** * Proofs about the input stage *)
From Coq Require Import List Arith NArith ZArith Bool Lia.
From Verif Require Import Base BaseFacts Model_Unicode Model_Bxs Model_Shape Model_Generate Model_Input
  Spec_Str Spec_Design Spec_Box Spec_Input Proof_Str Proof_Bxs Proof_BxsOps Proof_BxsMore Proof_Shows Prop_Str Proof_Rows Proof_Print.
Import ListNotations.

(** ** Trimming *)
Section Trim.
Variable U : uctab.

(** the search on tokens *)
Fixpoint last_vis (pos : nat) (best : option nat) (ts : list tok) : option nat :=
  match ts with
  | [] => best
  | t :: r => last_vis (pos + length (tok_chars t))
                (match t with Vis c => if uc_ws U c then best else Some pos | _ => best end) r
  end.

Lemma last_char_toks : forall ts fuel pos best, toks_ok ts -> length (render ts) <= fuel ->
  last_char U fuel pos best (render ts) = last_vis pos best ts.
Proof.
  induction ts as [|t ts IH]; intros fuel pos best Hok Hf.
  { destruct fuel; reflexivity. }
  pose proof (tok_first t (proj1 Hok)) as F. pose proof (tok_len_pos t (proj1 Hok)) as HL.
  pose proof (adv_render t ts Hok) as HA. pose proof (skipn_adv t ts) as HS.
  rewrite render_cons, app_length in Hf.
  destruct fuel as [|fuel]; [lia|].
  destruct (render (t :: ts)) as [|c r] eqn:E.
  { rewrite render_cons in E. destruct (tok_chars t); [cbn in HL; lia|discriminate]. }
  cbn [last_char]. rewrite HA, HS, IH by (try apply Hok; lia). cbn [last_vis]. rewrite moved_len. f_equal.
  rewrite render_cons in E. destruct t as [v|b|b|d].
  - destruct F as [_ Hv]. cbn in E. injection E as <- _. apply N.eqb_neq in Hv. unfold char_esc. rewrite Hv.
    cbn [negb andb]. destruct (uc_ws U v); reflexivity.
  - destruct F as (b' & Hb). cbn [tok_chars] in *. rewrite Hb in E. cbn in E. injection E as <- _. reflexivity.
  - destruct F as (b' & Hb). cbn [tok_chars] in *. rewrite Hb in E. cbn in E. injection E as <- _. reflexivity.
  - cbn in E. injection E as <- _. reflexivity.
Qed.

Lemma last_vis_spec : forall ts pos best,
  (forallb (uc_ws U) (visible ts) = true /\ last_vis pos best ts = best) \/
  (exists a c b, ts = a ++ Vis c :: b /\ uc_ws U c = false /\ forallb (uc_ws U) (visible b) = true /\
     last_vis pos best ts = Some (pos + length (render a))).
Proof.
  induction ts as [|t ts IH]; intros pos best; [left; auto|].
  cbn [last_vis].
  destruct (IH (pos + length (tok_chars t)) (match t with Vis c => if uc_ws U c then best else Some pos | _ => best end))
    as [[Hv Hl]|(a & c & b & -> & Hc & Hb & Hl)].
  - destruct t as [v|bo|bo|d]; try (left; rewrite visible_cons; auto; fail).
    rewrite visible_cons. cbn [forallb]. destruct (uc_ws U v) eqn:E; [left; auto|right].
    exists [], v, ts. rewrite Hl. cbn. rewrite Nat.add_0_r. auto.
  - right. exists (t :: a), c, b. rewrite Hl, render_cons, app_length.
    split; [reflexivity|]. split; [exact Hc|]. split; [exact Hb|]. f_equal. lia.
Qed.

Lemma btrim32_spec : forall ts, toks_ok ts -> known ts ->
  (forallb (uc_ws U) (visible ts) = true /\ btrim32 U (render ts) = []) \/
  (exists a c b, ts = a ++ Vis c :: b /\ uc_ws U c = false /\ forallb (uc_ws U) (visible b) = true /\
     btrim32 U (render ts) = render (a ++ Vis c :: next_seq b)).
Proof.
  intros ts Hok Hk. unfold btrim32. rewrite last_char_toks by auto.
  destruct (last_vis_spec ts 0 None) as [[Hv ->]|(a & c & b & -> & Hc & Hb & ->)]; [left; auto|right].
  exists a, c, b. split; [reflexivity|]. split; [exact Hc|]. split; [exact Hb|]. cbn [Nat.add].
  assert (E1 : render (a ++ Vis c :: b) = (render a ++ [c]) ++ render b)
    by (rewrite render_app, render_cons; cbn [tok_chars]; rewrite <- app_assoc; reflexivity).
  assert (L : length (render a ++ [c]) = S (length (render a))) by (rewrite app_length; cbn; lia).
  assert (Hskip : skipn (S (length (render a))) (render (a ++ Vis c :: b)) = render b).
  { rewrite E1, <- L, skipn_app, skipn_all, Nat.sub_diag. reflexivity. }
  assert (Hfirst : firstn (S (length (render a))) (render (a ++ Vis c :: b)) = render a ++ [c]).
  { rewrite E1, <- L, firstn_app, firstn_all, Nat.sub_diag. cbn. apply app_nil_r. }
  rewrite Hskip.
  assert (Hokb : toks_ok (Vis c :: b)) by (apply toks_ok_app_r in Hok; exact Hok).
  destruct b as [|t b].
  { cbn [render flat_map next_seq]. change (flat_map tok_chars []) with (@nil N).
    rewrite Hfirst, render_app. reflexivity. }
  destruct (render (t :: b)) as [|x r] eqn:E.
  { exfalso. exact (render_nonempty t b (proj2 (proj2 Hokb)) E). }
  pose proof (tok_first t (proj1 (proj2 (proj2 Hokb)))) as F.
  destruct t as [v|bo|bo|d].
  - cbn in E. injection E as <- _. destruct F as [_ Hv]. apply N.eqb_neq in Hv. unfold char_esc. rewrite Hv.
    rewrite Hfirst, render_app. reflexivity.
  - assert (x = 27%N) as ->. { destruct F as (? & F). cbn [tok_chars] in F. rewrite render_cons in E. cbn [tok_chars] in E. rewrite F in E. cbn in E. congruence. }
    change (N.eqb 27 char_esc) with true. cbv iota. rewrite <- E.
    rewrite (adv_render _ _ (proj2 (proj2 Hokb))). cbn [adv_tok snd tok_chars next_seq].
    rewrite E1, <- E, render_cons. cbn [tok_chars].
    change (S (length (render a) + length bo)) with (S (length (render a)) + length bo).
    rewrite <- L, <- (app_length _ bo), app_assoc.
    rewrite firstn_app, firstn_all, Nat.sub_diag. cbn [firstn]. rewrite app_nil_r.
    rewrite render_app, !render_cons. cbn [tok_chars app]. change (render []) with (@nil N). rewrite app_nil_r, <- app_assoc. reflexivity.
  - assert (x = 27%N) as ->. { destruct F as (? & F). cbn [tok_chars] in F. rewrite render_cons in E. cbn [tok_chars] in E. rewrite F in E. cbn in E. congruence. }
    change (N.eqb 27 char_esc) with true. cbv iota. rewrite <- E.
    rewrite (adv_render _ _ (proj2 (proj2 Hokb))). cbn [adv_tok snd tok_chars next_seq].
    rewrite E1, <- E, render_cons. cbn [tok_chars].
    change (S (length (render a) + length bo)) with (S (length (render a)) + length bo).
    rewrite <- L, <- (app_length _ bo), app_assoc.
    rewrite firstn_app, firstn_all, Nat.sub_diag. cbn [firstn]. rewrite app_nil_r.
    rewrite render_app, !render_cons. cbn [tok_chars app]. change (render []) with (@nil N). rewrite app_nil_r, <- app_assoc. reflexivity.
  - unfold known in Hk. apply Forall_app in Hk as [_ Hk]. inversion Hk as [|? ? _ Hk']. inversion Hk' as [|? ? Ho]. discriminate.
Qed.

Lemma btrim32_trimmed : forall s ts, reads s ts -> known ts -> trimmed (uc_ws U) s (btrim32 U s).
Proof.
  intros s ts [Hok <-] Hk. exists ts. split; [split; auto|]. apply btrim32_spec; assumption.
Qed.
End Trim.

(** ** Tab expansion *)
Lemma tab_fill : forall t p, 0 < t -> 1 <= t - p mod t <= t /\ (p + (t - p mod t)) mod t = 0.
Proof.
  intros t p Ht. pose proof (Nat.mod_upper_bound p t ltac:(lia)) as Hm. split; [lia|].
  pose proof (Nat.div_mod p t ltac:(lia)) as Hd.
  replace (p + (t - p mod t)) with ((p / t + 1) * t) by nia.
  apply Nat.mod_mul. lia.
Qed.

Lemma tab_fill_unique : forall t p n, 0 < t -> 1 <= n <= t -> (p + n) mod t = 0 -> n = t - p mod t.
Proof.
  intros t p n Ht Hn Hm. pose proof (Nat.mod_upper_bound p t ltac:(lia)) as Hu.
  pose proof (Nat.div_mod p t ltac:(lia)) as Hd. pose proof (Nat.div_mod (p + n) t ltac:(lia)) as Hd2.
  rewrite Hm in Hd2. set (a := (p + n) / t) in *. set (b := p / t) in *.
  assert (a = S b); [|subst a; nia].
  assert (t * a < t * (b + 2)) by nia. assert (t * b < t * a) by nia.
  apply Nat.mul_lt_mono_pos_l in H; [|lia]. apply Nat.mul_lt_mono_pos_l in H0; [|lia]. lia.
Qed.

Lemma expands_total : forall t s p, 0 < t -> exists r, expands t p s r.
Proof.
  intros t s. induction s as [|c s IH]; intros p Ht; [exists []; constructor|].
  destruct (N.eq_dec c 9) as [->|Hc].
  - destruct (tab_fill t p Ht) as [H1 H2]. destruct (IH (p + (t - p mod t)) Ht) as (r & Hr).
    eexists. eapply ex_tab; eauto.
  - destruct (IH (S p) Ht) as (r & Hr). eexists. apply ex_chr; eauto.
Qed.

Lemma expands_fun : forall t s p r r', 0 < t -> expands t p s r -> expands t p s r' -> r = r'.
Proof.
  intros t s. induction s as [|c s IH]; intros p r r' Ht H H'.
  - inversion H. inversion H'. reflexivity.
  - inversion H; subst; inversion H'; subst; try congruence.
    + assert (n = n0) as -> by (rewrite (tab_fill_unique t p n), (tab_fill_unique t p n0); auto).
      f_equal. eapply IH; eauto.
    + f_equal. eapply IH; eauto.
Qed.

Lemma expands_no_tab : forall t p s r, expands t p s r -> ~ In 9%N r.
Proof.
  intros t p s r H. induction H; intros Hi.
  - destruct Hi.
  - apply in_app_or in Hi as [Hi|Hi]; [apply repeat_spec in Hi; discriminate|auto].
  - destruct Hi as [E|Hi]; auto.
Qed.

Lemma expands_app : forall t a b p r, expands t p (a ++ b) r <->
  exists ra rb, r = ra ++ rb /\ expands t p a ra /\ expands t (p + length ra) b rb.
Proof.
  intros t a b. induction a as [|c a IH]; intros p r; cbn [app].
  - split.
    + intros H. exists [], r. cbn. rewrite Nat.add_0_r. repeat split; [constructor|exact H].
    + intros (ra & rb & -> & Ha & Hb). inversion Ha; subst. cbn in *. rewrite Nat.add_0_r in Hb. exact Hb.
  - split.
    + intros H. inversion H as [|p0 n s r0 Hn Hm H0|p0 c0 s r0 Hc H0]; subst.
      * apply IH in H0 as (ra & rb & -> & Ha & Hb). exists (repeat 32%N n ++ ra), rb.
        rewrite app_assoc. split; [reflexivity|]. split; [apply ex_tab; assumption|].
        rewrite app_length, repeat_length, Nat.add_assoc. exact Hb.
      * apply IH in H0 as (ra & rb & -> & Ha & Hb). exists (c :: ra), rb. split; [reflexivity|].
        split; [apply ex_chr; assumption|]. cbn [length]. rewrite Nat.add_succ_r. exact Hb.
    + intros (ra & rb & -> & Ha & Hb). inversion Ha as [|p0 n s r0 Hn Hm H0|p0 c0 s r0 Hc H0]; subst.
      * rewrite <- app_assoc. apply ex_tab; auto. apply IH. exists r0, rb. split; [reflexivity|]. split; [exact H0|].
        rewrite app_length, repeat_length, Nat.add_assoc in Hb. exact Hb.
      * cbn [app]. apply ex_chr; auto. apply IH. exists r0, rb. split; [reflexivity|]. split; [exact H0|].
        cbn [length] in Hb. rewrite Nat.add_succ_r in Hb. exact Hb.
Qed.

Lemma expands_len : forall t p s r, expands t p s r -> length s <= length r.
Proof. intros t p s r H. induction H; cbn; rewrite ?app_length, ?repeat_length; lia. Qed.

Definition tab_count (s : list N) : nat := length (filter (N.eqb char_tab) s).

Lemma expand_loop_spec : forall t, 1 <= t <= 16 -> forall s acc io tabs, length acc = io ->
  (N.of_nat io <= LINE_MAX_BYTES + 3)%N ->
  exists s1 s2 r ps, s = s1 ++ s2 /\ expands t io s1 r /\ tab_positions t io s1 ps /\
    expand_loop t acc io tabs s = Ok (rev r ++ acc, rev ps ++ tabs) /\
    (N.of_nat (io + length r) <= LINE_MAX_BYTES + 3)%N /\
    (s2 <> [] -> (line_limit <= N.of_nat (io + length r))%N).
Proof.
  intros t Ht. induction s as [|c s IH]; intros acc io tabs Hl Hio; cbn [expand_loop].
  - exists [], [], [], []. rewrite Nat.add_0_r. repeat split; try constructor; auto. congruence.
  - fold line_limit. destruct (N.ltb_spec (N.of_nat io) line_limit) as [Hlt|Hge].
    + unfold line_limit in Hlt.
      destruct (N.eqb_spec c char_tab) as [->|Hc].
      * destruct (Nat.eqb_spec t 0) as [|_]; [lia|]. destruct (tab_fill t io ltac:(lia)) as [Hn Hm].
        set (n := t - io mod t) in *.
        assert (Hb : (N.of_nat (io + n) <= LINE_MAX_BYTES + 3)%N) by (unfold LINE_MAX_BYTES in *; lia).
        destruct (N.ltb_spec (LINE_MAX_BYTES + 100) (N.of_nat (io + n))); [unfold LINE_MAX_BYTES in *; lia|].
        destruct (IH (repeat 32%N n ++ acc) (io + n) (io :: tabs)) as (s1 & s2 & r & ps & -> & He & Hp & El & Hb2 & Hs); auto.
        { rewrite app_length, repeat_length. lia. }
        exists (char_tab :: s1), s2, (repeat 32%N n ++ r), (io :: ps). split; [reflexivity|].
        split; [apply ex_tab; assumption|]. split; [eapply tp_tab; eauto|]. rewrite El. split.
        { f_equal. f_equal.
          - rewrite rev_app_distr, <- app_assoc. f_equal. f_equal. clear. induction n; [reflexivity|].
            cbn [repeat rev]. rewrite <- IHn. clear. induction n; [reflexivity|]. cbn [repeat app]. f_equal. exact IHn.
          - cbn [rev]. rewrite <- app_assoc. reflexivity. }
        rewrite app_length, repeat_length, Nat.add_assoc. auto.
      * destruct (N.leb_spec (LINE_MAX_BYTES + 100) (N.of_nat io)); [unfold LINE_MAX_BYTES in *; lia|].
        destruct (IH (c :: acc) (S io) tabs) as (s1 & s2 & r & ps & -> & He & Hp & El & Hb2 & Hs).
        { cbn. congruence. } { unfold LINE_MAX_BYTES in *; lia. }
        exists (c :: s1), s2, (c :: r), ps. split; [reflexivity|]. split; [apply ex_chr; assumption|].
        split; [apply tp_chr; assumption|]. rewrite El. cbn [length]. rewrite Nat.add_succ_r. cbn [Nat.add] in *.
        split; [cbn [rev]; rewrite <- app_assoc; reflexivity|]. auto.
    + exists [], (c :: s), [], []. rewrite Nat.add_0_r. repeat split; try constructor; auto.
Qed.

Lemma tab_positions_len : forall t p s l, tab_positions t p s l -> length l = tab_count s.
Proof.
  intros t p s l H. unfold tab_count. induction H as [p|p n s l Hn Hm H IH|p c s l Hc H IH]; cbn [filter].
  - reflexivity.
  - change (N.eqb char_tab 9) with true. cbn [length]. congruence.
  - unfold char_tab in *. destruct (N.eqb_spec 9 c); [congruence|exact IH].
Qed.

Theorem expand_tabs_spec : forall t keep s, 1 <= t <= 16 ->
  exists s1 s2 r ps, s = s1 ++ s2 /\ expands t 0 s1 r /\ tab_positions t 0 s1 ps /\
    expand_tabs_into t keep s = Ok (r, if keep then ps ++ repeat 0 (tab_count s2) else []) /\
    (s2 <> [] -> (line_limit <= N.of_nat (length r))%N).
Proof.
  intros t keep s Ht.
  destruct (expand_loop_spec t Ht s [] 0 [] eq_refl ltac:(unfold LINE_MAX_BYTES; lia)) as
    (s1 & s2 & r & ps & -> & He & Hp & El & Hb & Hs).
  exists s1, s2, r, ps. split; [reflexivity|]. split; [exact He|]. split; [exact Hp|]. split; [|exact Hs].
  unfold expand_tabs_into. rewrite El. cbn [bind fst snd]. rewrite !app_nil_r, !rev_length, !rev_involutive.
  cbn [Nat.add] in Hb.
  destruct (N.leb_spec (LINE_MAX_BYTES + 100) (N.of_nat (length r))); [unfold LINE_MAX_BYTES in *; lia|].
  fold (tab_count (s1 ++ s2)). unfold tab_count. rewrite filter_app, app_length. fold (tab_count s1) (tab_count s2).
  rewrite (tab_positions_len _ _ _ _ Hp). replace (tab_count s1 + tab_count s2 - tab_count s1) with (tab_count s2) by lia.
  reflexivity.
Qed.

(** text within the limit is expanded completely *)
Lemma expand_tabs_all : forall t keep s r, 1 <= t <= 16 -> expands t 0 s r -> (N.of_nat (length r) <= line_limit)%N ->
  exists ps, tab_positions t 0 s ps /\ expand_tabs_into t keep s = Ok (r, if keep then ps else []).
Proof.
  intros t keep s r Ht He Hl.
  destruct (expand_tabs_spec t keep s Ht) as (s1 & s2 & r1 & ps & -> & He1 & Hp & El & Hs).
  destruct s2 as [|c s2].
  - rewrite app_nil_r in *. rewrite (expands_fun t s1 0 r r1) by (auto; lia).
    exists ps. split; [exact Hp|]. rewrite El. cbn. rewrite app_nil_r. reflexivity.
  - exfalso. specialize (Hs ltac:(discriminate)).
    apply expands_app in He as (ra & rb & -> & Ha & Hb). rewrite (expands_fun t s1 0 r1 ra) in Hs by (auto; lia).
    apply expands_len in Hb. rewrite app_length in Hl. cbn in Hb. lia.
Qed.

(** ** Tab expansion and escape sequences *)
Lemma detab_app : forall a a' b b', detab a a' -> detab b b' -> detab (a ++ b) (a' ++ b').
Proof.
  intros a a' b b' Ha Hb. induction Ha as [|n l l' Hn H IH|c l l' Hc H IH]; cbn [app]; auto.
  - rewrite <- app_assoc. constructor; assumption.
  - constructor; assumption.
Qed.

Lemma expands_plain : forall t p s r, expands t p s r -> ~ In 9%N s -> r = s.
Proof.
  intros t p s r H. induction H; intros Hi.
  - reflexivity.
  - exfalso. apply Hi. left. reflexivity.
  - f_equal. apply IHexpands. intros Hx. apply Hi. right. exact Hx.
Qed.

Lemma not_final_tab : ~ final 9%N.
Proof. unfold final. lia. Qed.
Lemma not_final_spaces : forall n, Forall (fun p => ~ final p) (repeat 32%N n).
Proof. intros n. apply Forall_forall. intros x Hx. apply repeat_spec in Hx. subst x. unfold final. lia. Qed.

Lemma expands_params : forall t p ps r, expands t p ps r -> Forall (fun p => ~ final p) ps -> Forall (fun p => ~ final p) r.
Proof.
  intros t p ps r H. induction H; intros HF.
  - constructor.
  - apply Forall_app. split; [apply not_final_spaces|]. inversion HF; auto.
  - inversion HF; subst. constructor; auto.
Qed.

(** a complete escape sequence stays one *)
Lemma expands_esc : forall t p b r, tok_ok (Esc b) -> expands t p b r -> tok_ok (Esc r).
Proof.
  intros t p b r [(d & -> & Hd & Hn)|(d & ps & f & -> & Ho & Hps & Hf)] He.
  - rewrite (expands_plain _ _ _ _ He); [left; eauto|]. cbn. intuition lia.
  - inversion He as [| |p0 c0 s0 r0 _ He1]; subst. inversion He1 as [|p1 n1 s1 r1 Hn1 Hm1 He2|p1 c1 s1 r1 _ He2]; subst.
    { destruct Ho; discriminate. }
    apply expands_app in He2 as (ra & rb & -> & Ha & Hb).
    assert (rb = [f]) as ->. { apply (expands_plain _ _ _ _ Hb). cbn. unfold final in Hf. intuition lia. }
    right. exists d, ra, f. split; [reflexivity|]. split; [exact Ho|]. split; [eapply expands_params; eauto|exact Hf].
Qed.

Lemma closed_one_esc : forall b, tok_ok (Esc b) -> closed [Esc b].
Proof.
  intros b H. split; [split|].
  - split; [exact H|]. split; [discriminate|exact I].
  - constructor; [reflexivity|constructor].
  - constructor; [reflexivity|constructor].
Qed.

Section Toks.
Variable U : uctab.
Hypothesis HU : uctab_ok U.

Lemma expand_toks : forall t ts p r, closed ts -> allowed U ts -> expands t p (render ts) r ->
  exists ts', closedU U ts' /\ render ts' = r /\ detab (visible ts) (visible ts').
Proof.
  intros t. induction ts as [|x ts IH]; intros p r Hc Ha He.
  - inversion He; subst. exists []. split; [exact (closedU_spaces U HU 0)|]. split; [reflexivity|constructor].
  - rewrite render_cons in He. apply expands_app in He as (ra & rb & -> & Hx & Hr).
    change (x :: ts) with ([x] ++ ts) in Hc, Ha. apply closed_app_inv in Hc as [Hcx Hct]. apply allowed_app in Ha as [Hax Hat].
    destruct (IH _ _ Hct Hat Hr) as (ts' & HC & <- & Hv).
    assert (HX : exists tx, closedU U tx /\ render tx = ra /\ detab (visible [x]) (visible tx)).
    { destruct x as [c|b|b|d].
      - cbn [tok_chars] in Hx. inversion Hx as [|p0 n s0 r0 Hn Hm He0|p0 c0 s0 r0 Hc0 He0]; subst.
        + inversion He0; subst. exists (plain (repeat 32%N n)). split; [apply closedU_spaces; exact HU|].
          rewrite render_plain, visible_plain. rewrite app_nil_r. split; [reflexivity|].
          cbn. rewrite <- (app_nil_r (repeat 32%N n)). constructor; [lia|constructor].
        + inversion He0; subst. exists [Vis c]. split; [|split; [reflexivity|cbn; constructor; [assumption|constructor]]].
          split; [exact Hcx|]. split; [exact Hax|]. intros [Hx9|[]]. congruence.
      - exists [Esc ra]. assert (Ho : tok_ok (Esc ra)) by (eapply expands_esc; [apply Hcx|exact Hx]).
        split; [|split; [cbn; apply app_nil_r|constructor]]. split; [apply closed_one_esc; exact Ho|].
        split; [constructor|intros []].
      - exfalso. destruct Hcx as [_ Hcut]. inversion Hcut. discriminate.
      - exfalso. destruct Hcx as [[_ Hodd] _]. inversion Hodd. discriminate. }
    destruct HX as (tx & HCx & <- & Hvx). exists (tx ++ ts'). split; [apply closedU_app; assumption|].
    split; [apply render_app|]. change (x :: ts) with ([x] ++ ts). rewrite !visible_app. apply detab_app; assumption.
Qed.

Lemma narrow_app : forall l l', narrow_indent (is_blank U) (term_width U) (l ++ l') -> narrow_indent (is_blank U) (term_width U) l.
Proof.
  intros l l'. unfold narrow_indent. induction l as [|c l IH]; intros H; [constructor|].
  cbn [app lead] in *. destruct (is_blank U c); [|constructor]. cbn [firstn] in *. inversion H; subst. constructor; auto.
Qed.

Lemma width_32 : term_width U 32 = 1.
Proof. unfold term_width. cbn. rewrite (ok_width U HU 32 eq_refl). reflexivity. Qed.
Lemma blank_32 : is_blank U 32 = true.
Proof. apply blank32; auto. Qed.

Lemma lead_spaces : forall n l, lead (is_blank U) (repeat 32%N n ++ l) = n + lead (is_blank U) l.
Proof. induction n; intros l; [reflexivity|]. cbn [repeat app lead]. rewrite blank_32, IHn. reflexivity. Qed.

Lemma narrow_spaces : forall n l, narrow_indent (is_blank U) (term_width U) l ->
  narrow_indent (is_blank U) (term_width U) (repeat 32%N n ++ l).
Proof.
  unfold narrow_indent. induction n; intros l H; [exact H|]. cbn [repeat app lead]. rewrite blank_32. cbn [firstn].
  constructor; [apply width_32|]. apply IHn. exact H.
Qed.

Lemma narrow_detab : forall l l', detab l l' -> narrow_indent (is_blank U) (term_width U) l ->
  narrow_indent (is_blank U) (term_width U) l'.
Proof.
  intros l l' H. induction H as [|n l l' Hn H IH|c l l' Hc H IH]; intros HN; auto.
  - apply narrow_spaces. apply IH. unfold narrow_indent in *. cbn in HN. inversion HN; assumption.
  - unfold narrow_indent in *. cbn [lead] in *. destruct (is_blank U c); [|constructor]. cbn [firstn] in *.
    inversion HN; subst. constructor; auto.
Qed.

(** ** One line *)
Record read_as (o : opts) (raw : list N) (l : line) (ts : list tok) : Prop := {
  ra_text : l_text l = bx U ts;
  ra_closed : closedU U ts;
  ra_narrow : narrow_indent (is_blank U) (term_width U) (visible ts);
  ra_some : visible ts = [] -> ts = [];
  ra_spec : exists s, trimmed (uc_ws U) raw s /\ expands (o_tabstop o) 0 s (render ts) /\
     exists ps, tab_positions (o_tabstop o) 0 s ps /\ l_tabpos l = if N.eqb (o_tabexp o) 107 then ps else [];
  ra_solid : solid U raw -> visible ts <> [] -> exists c, In c (visible ts) /\ 0 < term_width U c
}.

Lemma detab_in : forall l l' c, detab l l' -> In c l -> In c l' \/ In 32%N l'.
Proof.
  intros l l' c H. induction H as [|n l l' Hn H IH|x l l' Hx H IH]; intros Hi; [destruct Hi| |].
  - destruct n; [lia|]. right. left. reflexivity.
  - destruct Hi as [->|Hi]; [left; left; reflexivity|]. destruct (IH Hi); [left|right]; right; assumption.
Qed.

Lemma read_line_spec : forall o raw, 1 <= o_tabstop o <= 16 -> raw_ok U (o_tabstop o) raw ->
  exists l ts, read_line U false o raw = Ok l /\ read_as o raw l ts.
Proof.
  intros o raw Ht (ts & [Hok Hr] & Hk & Hcut & Ha & Hn & rr & Hre & Hlim).
  assert (Hcl : closed ts) by (split; [split|]; assumption).
  unfold read_line. cbn [trim_trailing_ws_carefully bind].
  destruct (btrim32_spec U ts Hok Hk) as [[Hv Eb]|(a & c & b & E & Hc & Hb & Eb)]; rewrite Hr in Eb.
  - rewrite Eb. cbn [is_nil]. exists (mkLine bxs_new_empty_string []), []. split; [reflexivity|]. constructor.
    + reflexivity.
    + exact (closedU_spaces U HU 0).
    + constructor.
    + reflexivity.
    + exists []. split; [exists ts; split; [split; assumption|left; auto]|]. split; [constructor|].
      exists []. split; [constructor|]. destruct (N.eqb _ _); reflexivity.
    + intros _ Hx. contradiction Hx. reflexivity.
  - set (ta := a ++ Vis c :: next_seq b) in *.
    assert (Hpre : exists tb, ts = ta ++ tb).
    { subst ts ta. destruct b as [|[v|x|x|x] b]; cbn [next_seq]; [exists []; rewrite app_nil_r; reflexivity|..];
        eexists; rewrite <- app_assoc; cbn [app]; reflexivity. }
    destruct Hpre as (tb & Hts). rewrite Hts in Hcl, Ha, Hn. apply closed_app_inv in Hcl as [Hcla _].
    apply allowed_app in Ha as [Haa _]. rewrite visible_app in Hn. apply narrow_app in Hn.
    rewrite <- Hr, Hts, render_app in Hre. apply expands_app in Hre as (ra & rb & -> & Hra & _).
    rewrite app_length in Hlim.
    destruct (expand_tabs_all (o_tabstop o) (N.eqb (o_tabexp o) 107) (render ta) ra Ht Hra ltac:(unfold line_limit in *; lia)) as (ps & Hps & Eex).
    destruct (expand_toks _ ta 0 ra Hcla Haa Hra) as (ts' & HC & Er & Hv).
    rewrite Eb.
    assert (Hne : is_nil (render ta) = false).
    { destruct (render ta) eqn:E0; [|reflexivity]. exfalso. unfold ta in E0. rewrite render_app, render_cons in E0.
      apply app_eq_nil in E0 as [_ E0]. discriminate. }
    rewrite Hne, Eex. cbn [bind fst snd].
    assert (Hne2 : is_nil ra = false).
    { destruct ra; [|reflexivity]. exfalso. apply expands_len in Hra. destruct (render ta); [discriminate|]. cbn in Hra. lia. }
    rewrite Hne2, <- Er, (from_unicode_good U HU ts' (closedU_good U ts' HC)). cbn [must bind].
    eexists. exists ts'. split; [reflexivity|]. constructor.
    + reflexivity.
    + exact HC.
    + eapply narrow_detab; eauto.
    + intros Hv0. exfalso. rewrite Hv0 in Hv. unfold ta in Hv. rewrite visible_app, visible_cons in Hv.
      inversion Hv as [E0|n0 l0 l1 Hn0 H0 E0 E1|]; [destruct (visible a); discriminate|destruct n0; [lia|discriminate]].
    + exists (render ta). split.
      * exists ts. split; [split; assumption|]. right. exists a, c, b. auto.
      * split; [rewrite Er; exact Hra|]. exists ps. auto.
    + intros Hsol _. destruct (Hsol ts (conj Hok Hr)) as [Hall|(x & Hx & Hwx & Hpos)].
      * exfalso. rewrite E, visible_app, visible_cons, forallb_app in Hall. cbn [forallb] in Hall. rewrite Hc in Hall.
        rewrite andb_false_l, andb_false_r in Hall. discriminate.
      * assert (Hxa : In x (visible ta)).
        { unfold ta. rewrite E in Hx. rewrite visible_app, visible_cons in *. apply in_or_app.
          apply in_app_or in Hx as [Hx|[Hx|Hx]]; [left; exact Hx|right; left; exact Hx|].
          rewrite forallb_forall in Hb. rewrite (Hb x Hx) in Hwx. discriminate. }
        destruct (detab_in _ _ _ Hv Hxa) as [Hi|Hi]; [exists x; auto|]. exists 32%N. split; [exact Hi|].
        rewrite width_32. lia.
Qed.
End Toks.

(** ** Indentation *)
Definition nonempty_line (l : line) : bool := 0 <? num_columns (l_text l).
Definition ind_step (r : N) (l : line) : N :=
  if nonempty_line l && N.ltb (N.of_nat (indent (l_text l))) r then N.of_nat (indent (l_text l)) else r.

Lemma ind_fold : forall ls r0, let m := fold_left ind_step ls r0 in
  (m <= r0)%N /\ (forall l, In l ls -> nonempty_line l = true -> (m <= N.of_nat (indent (l_text l)))%N) /\
  (m = r0 \/ exists l, In l ls /\ nonempty_line l = true /\ m = N.of_nat (indent (l_text l))).
Proof.
  induction ls as [|l ls IH]; intros r0; cbv zeta.
  - cbn. split; [lia|]. split; [intros l []|auto].
  - cbn [fold_left]. destruct (IH (ind_step r0 l)) as (H1 & H2 & H3).
    assert (Hs : (ind_step r0 l <= r0)%N /\ (nonempty_line l = true -> (ind_step r0 l <= N.of_nat (indent (l_text l)))%N) /\
      (ind_step r0 l = r0 \/ nonempty_line l = true /\ ind_step r0 l = N.of_nat (indent (l_text l)))).
    { unfold ind_step. destruct (nonempty_line l); cbn [andb]; [|repeat split; try lia; try congruence; auto].
      destruct (N.ltb_spec (N.of_nat (indent (l_text l))) r0); repeat split; auto; lia. }
    destruct Hs as (S1 & S2 & S3). split; [lia|]. split.
    + intros x [<-|Hx] Hn; [specialize (S2 Hn); lia|auto].
    + destruct H3 as [H3|(x & Hx & Hn & E)].
      * rewrite H3. destruct S3 as [->|[Hn E]]; [auto|]. right. exists l. split; [left; reflexivity|auto].
      * right. exists x. split; [right; exact Hx|auto].
Qed.

Lemma get_indent_unfold : forall ls, get_indent ls =
  if existsb nonempty_line ls then N.to_nat (fold_left ind_step ls LINE_MAX_BYTES) else 0.
Proof. reflexivity. Qed.

Theorem get_indent_spec : forall ls,
  ((forall l, In l ls -> num_columns (l_text l) = 0) /\ get_indent ls = 0) \/
  ((forall l, In l ls -> 0 < num_columns (l_text l) -> get_indent ls <= indent (l_text l)) /\
   (exists l, In l ls /\ 0 < num_columns (l_text l) /\
      (get_indent ls = indent (l_text l) \/ get_indent ls = N.to_nat LINE_MAX_BYTES))).
Proof.
  intros ls. rewrite get_indent_unfold. destruct (existsb nonempty_line ls) eqn:E.
  - right. destruct (ind_fold ls LINE_MAX_BYTES) as (H1 & H2 & H3).
    set (m := fold_left ind_step ls LINE_MAX_BYTES) in *. split.
    + intros l Hl Hn. specialize (H2 l Hl (proj2 (Nat.ltb_lt _ _) Hn)). lia.
    + apply existsb_exists in E as (x & Hx & Hn). destruct H3 as [H3|(y & Hy & Hny & E)].
      * exists x. split; [exact Hx|]. split; [apply Nat.ltb_lt; exact Hn|]. right. rewrite H3. reflexivity.
      * exists y. split; [exact Hy|]. split; [apply Nat.ltb_lt; exact Hny|]. left. rewrite E. apply Nat2N.id.
  - left. split; [|reflexivity]. intros l Hl. destruct (Nat.eq_0_gt_0_cases (num_columns (l_text l))) as [H|H]; [exact H|].
    exfalso. assert (existsb nonempty_line ls = true); [|congruence]. apply existsb_exists. exists l.
    split; [exact Hl|apply Nat.ltb_lt; exact H].
Qed.

Lemma analyze_max : forall ls m0, fold_left (fun m l => analyze_line_ascii m (l_text l)) ls m0 =
  Nat.max m0 (maxl (map (fun l => num_columns (l_text l)) ls)).
Proof.
  induction ls as [|l ls IH]; intros m0; [cbn; lia|]. cbn [fold_left map]. rewrite maxl_cons, IH.
  unfold analyze_line_ascii. destruct (Nat.ltb_spec m0 (num_columns (l_text l))); lia.
Qed.

Lemma subst_nil : forall U m ls, subst_lines U [] m ls = Ok (m, ls).
Proof.
  intros U m ls. induction ls as [|[t p] ls IH]; [reflexivity|]. cbn [subst_lines subst_line bind fst snd].
  rewrite IH. reflexivity.
Qed.

Section Analyze.
Variable U : uctab.
Hypothesis HU : uctab_ok U.

Definition tline (l : line) (ts : list tok) : Prop :=
  l_text l = bx U ts /\ closedU U ts /\ narrow_indent (is_blank U) (term_width U) (visible ts) /\ (visible ts = [] -> ts = []).

Lemma tline_indent : forall l ts, tline l ts -> indent (l_text l) = lead (is_blank U) (visible ts).
Proof.
  intros l ts (E & _ & Hn & _). rewrite E. cbn [bx indent]. apply lead_cols_narrow. apply narrow_term; assumption.
Qed.

Lemma lead_cols_le : forall l, lead_cols U l <= sum (map (char_cols U) l).
Proof. apply lead_le_cols. Qed.

Lemma tline_cols : forall l ts, tline l ts -> num_columns (l_text l) = sum (map (char_cols U) (visible ts)) /\
  lead (is_blank U) (visible ts) <= num_columns (l_text l).
Proof.
  intros l ts (E & Hc & Hn & _). rewrite E. cbn [bx num_columns]. rewrite columns_sum. split; [reflexivity|].
  rewrite <- (lead_cols_narrow U (visible ts)) by (apply narrow_term; assumption). apply lead_cols_le.
Qed.

Lemma narrow_skipn : forall l k, k <= lead (is_blank U) l -> narrow_indent (is_blank U) (term_width U) l ->
  narrow_indent (is_blank U) (term_width U) (skipn k l).
Proof.
  induction l as [|c l IH]; intros k Hk H; [destruct k; exact H|]. destruct k as [|k]; [exact H|].
  cbn [skipn]. cbn [lead] in Hk. unfold narrow_indent in H. cbn [lead] in H.
  destruct (is_blank U c); [|lia]. cbn [firstn] in H. inversion H; subst. apply IH; [lia|assumption].
Qed.

Lemma unindent_spec : forall n l ts, tline l ts -> (0 < num_columns (l_text l) -> n <= lead (is_blank U) (visible ts)) ->
  exists l' ts' k, unindent U n l = Ok l' /\ tline l' ts' /\ l_tabpos l' = l_tabpos l /\
    visible ts' = skipn k (visible ts) /\ k <= lead (is_blank U) (visible ts) /\
    (k = n \/ k = 0 /\ num_columns (l_text l) = 0) /\ (k = 0 -> render ts' = render ts) /\
    num_columns (l_text l') = num_columns (l_text l) - k.
Proof.
  intros n l ts HT Hn. destruct (tline_cols l ts HT) as [Hcols Hlead]. pose proof HT as (E & Hc & Hnar & Hsome). unfold unindent.
  destruct (Nat.leb_spec n (num_columns (l_text l))) as [Hle|Hgt].
  - assert (Hnl : n <= lead (is_blank U) (visible ts)) by (destruct (Nat.eq_0_gt_0_cases (num_columns (l_text l))); [lia|auto]).
    destruct (cut_front_closed U HU ts n Hc) as (b & Eb & Hcb & Hvb & Hall & _ & H0).
    replace (bxs_cut_front U (l_text l) n) with (Ok (bx U b)) by (rewrite E; auto).
    cbn [must bind]. exists (mkLine (bx U b) (l_tabpos l)), b, n. split; [reflexivity|].
    assert (HT' : tline (mkLine (bx U b) (l_tabpos l)) b).
    { split; [reflexivity|]. split; [exact Hcb|]. split; [rewrite Hvb; apply narrow_skipn; assumption|].
      intros Hv. apply Hall. rewrite Hvb in Hv. apply (f_equal (@length N)) in Hv. rewrite skipn_length in Hv. cbn in Hv. lia. }
    split; [exact HT'|]. split; [reflexivity|]. split; [exact Hvb|]. split; [exact Hnl|]. split; [auto|]. split.
    + intros ->. destruct (H0 eq_refl) as [->|[Hv ->]]; [reflexivity|]. rewrite (Hsome Hv). reflexivity.
    + cbn [l_text]. cbn [bx num_columns]. rewrite columns_sum, Hvb, Hcols.
      rewrite <- (firstn_skipn n (visible ts)) at 2. rewrite map_app, sum_app, columns_narrow; [lia|exact Hnl|apply narrow_term; assumption].
  - exists l, ts, 0. split; [reflexivity|]. split; [exact HT|]. split; [reflexivity|]. split; [reflexivity|]. split; [lia|].
    split; [|split; [reflexivity|lia]]. right. split; [reflexivity|]. 
    destruct (Nat.eq_0_gt_0_cases (num_columns (l_text l))) as [H|H]; [exact H|]. specialize (Hn H). lia.
Qed.

(** ** The whole input *)
Lemma Forall2_exists : forall (A B C : Type) (P : A -> B -> C -> Prop) l, (forall a, In a l -> exists b c, P a b c) ->
  exists bs, Forall2 (fun a b => exists c, P a b c) l bs.
Proof.
  induction l as [|a l IH]; intros H; [exists []; constructor|].
  destruct (H a (or_introl eq_refl)) as (b & c & Hp). destruct IH as (bs & Hbs); [intros x Hx; apply H; right; exact Hx|].
  exists (b :: bs). constructor; eauto.
Qed.

Lemma maxl_attained : forall l, maxl l = 0 \/ In (maxl l) l.
Proof.
  induction l as [|x l IH]; [left; reflexivity|]. rewrite maxl_cons. destruct (Nat.max_spec x (maxl l)) as [[H E]|[H E]]; rewrite E.
  - destruct IH as [IH|IH]; [lia|]. right. right. exact IH.
  - right. left. reflexivity.
Qed.

Lemma tline_shows : forall l ts, tline l ts -> exists s w, shows U w s /\ bxs_from_unicode U s = Ok (l_text l) /\
  w = num_columns (l_text l).
Proof.
  intros l ts (E & Hc & _ & _). exists (render ts), (num_columns (l_text l)). split.
  - apply shows_closed; [exact HU|]. exists ts. rewrite E. auto.
  - split; [|reflexivity]. rewrite E. apply from_unicode_good; [exact HU|apply closedU_good; exact Hc].
Qed.

Lemma has_linebreak_iff : forall s, has_linebreak s = true <-> ends_with_break s.
Proof.
  intros s. unfold has_linebreak, ends_with_break. destruct (rev s) as [|c r] eqn:E.
  - split; [discriminate|]. intros (r & c & -> & _). rewrite rev_app_distr in E. discriminate.
  - assert (Es : s = rev r ++ [c]) by (rewrite <- (rev_involutive s), E; reflexivity).
    rewrite orb_true_iff, !N.eqb_eq. unfold char_cr, char_newline. split.
    + intros H. eauto.
    + intros (r' & c' & Hs & H). rewrite Es in Hs. apply app_inj_tail in Hs as [_ ->]. exact H.
Qed.
End Analyze.

Section Whole.
Variable U : uctab.
Hypothesis HU : uctab_ok U.
Variables (o : opts) (d : design).
Hypothesis Ht : 1 <= o_tabstop o <= 16.

Lemma tline_of : forall raw l ts, read_as U o raw l ts -> tline U l ts.
Proof. intros raw l ts [H1 H2 H3 H4 _ _]. unfold tline. auto. Qed.

Lemma Forall2_in_r : forall (A B : Type) (P : A -> B -> Prop) l l' b, Forall2 P l l' -> In b l' -> exists a, In a l /\ P a b.
Proof.
  intros A B P l l' b H. induction H as [|x y l l' Hp _ IH]; intros Hi; [destruct Hi|].
  destruct Hi as [->|Hi]; [exists x; split; [left; reflexivity|exact Hp]|].
  destruct (IH Hi) as (a & Ha & Hp'). exists a. split; [right; exact Ha|exact Hp'].
Qed.

(** the raw line is the source of the text of a line, [k] leading blanks removed *)
Definition line_ok (ind : nat) (raw : list N) (l : line) : Prop :=
  exists ts0 l0 ts k, read_as U o raw l0 ts0 /\ tline U l ts /\ l_tabpos l = l_tabpos l0 /\
    visible ts = skipn k (visible ts0) /\ k <= lead (is_blank U) (visible ts0) /\
    (k = ind \/ k = 0 /\ num_columns (l_text l0) = 0) /\ (k = 0 -> render ts = render ts0) /\
    num_columns (l_text l) = num_columns (l_text l0) - k.

Lemma read_all_spec : forall raws, Forall (raw_ok U (o_tabstop o)) raws ->
  exists ls, read_all_input U false o raws = Ok (ls, has_linebreak (last raws [])) /\
    Forall2 (fun raw l => exists ts, read_as U o raw l ts) raws ls.
Proof.
  intros raws H. unfold read_all_input.
  assert (exists ls, mapM (read_line U false o) raws = Ok ls /\ Forall2 (fun raw l => exists ts, read_as U o raw l ts) raws ls)
    as (ls & E & HF); [|exists ls; rewrite E; auto].
  induction H as [|raw raws Hr _ IH]; [exists []; split; [reflexivity|constructor]|].
  destruct IH as (ls & E & HF). destruct (read_line_spec U HU o raw Ht Hr) as (l & ts & El & Hra).
  exists (l :: ls). cbn [mapM]. rewrite El, E. cbn [bind]. split; [reflexivity|]. constructor; eauto.
Qed.

Lemma unindent_all : forall n raws ls, Forall2 (fun raw l => exists ts, read_as U o raw l ts) raws ls ->
  (forall l, In l ls -> 0 < num_columns (l_text l) -> n <= indent (l_text l)) ->
  exists ls', mapM (unindent U n) ls = Ok ls' /\ Forall2 (line_ok n) raws ls' /\
    map (fun l => num_columns (l_text l)) ls' = map (fun l => num_columns (l_text l) - n) ls.
Proof.
  intros n raws ls HF. induction HF as [|raw l raws ls (ts & Hr) _ IH]; intros Hn.
  - exists []. repeat split. constructor.
  - destruct IH as (ls' & E & HF' & Hm); [intros x Hx; apply Hn; right; exact Hx|].
    pose proof (tline_of _ _ _ Hr) as HT.
    destruct (unindent_spec U HU n l ts HT) as (l' & ts' & k & El & HT' & Htp & Hv & Hk & Hkn & Hk0 & Hc).
    { intros H0. rewrite <- (tline_indent U HU l ts HT). apply Hn; [left; reflexivity|exact H0]. }
    exists (l' :: ls'). cbn [mapM]. rewrite El, E. cbn [bind]. split; [reflexivity|]. split.
    + constructor; [|exact HF']. exists ts, l, ts', k. auto 10.
    + cbn [map]. rewrite Hm. f_equal. destruct Hkn as [->|[-> H0]]; lia.
Qed.

Lemma line_ok_refl : forall raw l, (exists ts, read_as U o raw l ts) -> line_ok 0 raw l.
Proof.
  intros raw l (ts & Hr). exists ts, l, ts, 0. split; [exact Hr|]. split; [eapply tline_of; eauto|]. repeat split; auto; lia.
Qed.

Lemma maxl_le : forall l m, (forall x, In x l -> x <= m) -> maxl l <= m.
Proof. induction l as [|x l IH]; intros m H; [cbn; lia|]. rewrite maxl_cons. pose proof (H x (or_introl eq_refl)). specialize (IH m (fun y Hy => H y (or_intror Hy))). lia. Qed.

Lemma maxl_sub : forall l n, (forall x, In x l -> x = 0 \/ n <= x) -> maxl (map (fun x => x - n) l) = maxl l - n.
Proof.
  induction l as [|x l IH]; intros n H; [reflexivity|]. cbn [map]. rewrite !maxl_cons, IH by (intros y Hy; apply H; right; exact Hy). lia.
Qed.

Theorem handle_input_spec : forall raws, raws <> [] -> Forall (raw_ok U (o_tabstop o)) raws ->
  exists inp n, handle_input U false o d [] raws = Ok inp /\
    n = (if N.eqb (d_indentmode d) 116 then 0 else i_indent inp) /\
    Forall2 (line_ok n) raws (i_lines inp) /\
    i_maxline inp = maxl (map (fun l => num_columns (l_text l)) (i_lines inp)) /\
    (i_final_newline inp = true <-> ends_with_break (last raws [])) /\
    exists ls, Forall2 (fun raw l => exists ts, read_as U o raw l ts) raws ls /\ i_indent inp = get_indent ls /\
      (d_indentmode d = 116%N -> i_lines inp = ls).
Proof.
  intros raws Hne H. destruct (read_all_spec raws H) as (ls & Er & HF). unfold handle_input. rewrite Er. cbn [bind fst snd].
  assert (Hls : is_nil ls = false) by (destruct HF; [congruence|reflexivity]).
  unfold analyze_input. rewrite Hls, analyze_max. cbn [negb Nat.max].
  set (m := maxl _).
  assert (Hind : forall l, In l ls -> 0 < num_columns (l_text l) -> get_indent ls <= indent (l_text l)).
  { intros l Hl H0. destruct (get_indent_spec ls) as [[H1 _]|[H1 _]]; [specialize (H1 l Hl); lia|auto]. }
  destruct (N.eqb_spec (d_indentmode d) 116) as [Em|Em]; cbn [negb andb].
  - cbn [bind]. unfold apply_substitutions. rewrite subst_nil. cbn [bind fst snd i_maxline i_lines i_indent i_final_newline].
    rewrite Em. cbn [N.eqb]. change (N.eqb 116 116) with true. cbv iota.
    eexists. exists 0. split; [reflexivity|]. cbn [i_indent i_lines i_maxline i_final_newline]. split; [reflexivity|].
    split; [|split; [reflexivity|split; [apply has_linebreak_iff|exists ls; auto]]].
    clear - HF Ht HU. induction HF as [|raw l raws ls Hx _ IH]; [apply Forall2_nil|].
    apply Forall2_cons; [apply line_ok_refl; exact Hx|exact IH].
  - destruct (unindent_all (get_indent ls) raws ls HF Hind) as (ls' & El & HF' & Hm). rewrite El. cbn [bind].
    assert (Hci : forall l, In l ls -> num_columns (l_text l) = 0 \/ get_indent ls <= num_columns (l_text l)).
    { intros l Hl. destruct (Nat.eq_0_gt_0_cases (num_columns (l_text l))) as [H0|H0]; [left; exact H0|right].
      specialize (Hind l Hl H0). destruct (Forall2_in_r _ _ _ _ _ _ HF Hl) as (raw & _ & ts & Hra).
      pose proof (tline_cols U HU l ts (tline_of _ _ _ Hra)) as [_ Hle]. rewrite <- (tline_indent U HU l ts (tline_of _ _ _ Hra)) in Hle. lia. }
    assert (Hmi : get_indent ls <= m).
    { destruct (get_indent_spec ls) as [[_ ->]|[_ (l & Hl & H0 & _)]]; [lia|].
      destruct (Hci l Hl) as [?|Hle]; [lia|]. pose proof (maxl_ge _ _ (in_map (fun l => num_columns (l_text l)) _ _ Hl)). cbn beta in H1. subst m. lia. }
    rewrite subz_le by exact Hmi. cbn [bind]. unfold apply_substitutions. rewrite subst_nil.
    cbn [bind fst snd i_maxline i_lines i_indent i_final_newline].
    apply N.eqb_neq in Em. rewrite Em.
    eexists. eexists. split; [reflexivity|]. cbn [i_indent i_lines i_maxline i_final_newline]. split; [reflexivity|].
    split; [exact HF'|]. split; [|split; [apply has_linebreak_iff|exists ls; split; [exact HF|split; [reflexivity|intros Ex; rewrite Ex in Em; discriminate]]]].
    rewrite Hm. subst m. rewrite <- (maxl_sub (map (fun l => num_columns (l_text l)) ls) (get_indent ls)).
    + rewrite map_map. reflexivity.
    + intros x Hx. apply in_map_iff in Hx as (l & <- & Hl). auto.
Qed.

Lemma reads_unique : forall s ts ts', reads s ts -> reads s ts' -> ts = ts'.
Proof. intros s ts ts' [H1 H2] [H3 H4]. apply reading_unique; auto. congruence. Qed.

Lemma trimmed_ws : forall raw s ts, trimmed (uc_ws U) raw s -> reads s ts -> 
  (exists tr, reads raw tr /\ forall c, In c (visible tr) -> uc_ws U c = false -> In c (visible ts)).
Proof.
  intros raw s ts (tr & Hr & Hcase) Hs. exists tr. split; [exact Hr|]. intros c Hc Hw.
  destruct Hcase as [[Hv ->]|(a & x & b & -> & Hx & Hb & ->)].
  - rewrite forallb_forall in Hv. rewrite (Hv c Hc) in Hw. discriminate.
  - assert (Hn : exists b', a ++ Vis x :: b = (a ++ Vis x :: next_seq b) ++ b').
    { destruct b as [|[v|y|y|y] b]; cbn [next_seq]; [exists []; rewrite app_nil_r; reflexivity|..];
        eexists; rewrite <- app_assoc; cbn [app]; reflexivity. }
    destruct Hn as (b' & Eb). assert (ts = a ++ Vis x :: next_seq b) as ->.
    { apply (reads_unique (render (a ++ Vis x :: next_seq b))); [exact Hs|]. split; [|reflexivity].
      destruct Hr as [Hr _]. rewrite Eb in Hr. apply toks_ok_app_l in Hr. exact Hr. }
    rewrite visible_app, visible_cons in *. apply in_app_or in Hc as [Hc|[Hc|Hc]].
    + apply in_or_app. left. exact Hc.
    + apply in_or_app. right. left. exact Hc.
    + rewrite forallb_forall in Hb. rewrite (Hb c Hc) in Hw. discriminate.
Qed.
End Whole.
