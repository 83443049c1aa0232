(** * Further string facts: inversion of [bxs_from_unicode], all strings, trimming *)
From Coq Require Import List Arith NArith ZArith Bool Lia.
From Verif Require Import Base BaseFacts Model_Unicode Model_Bxs Spec_Str Proof_Str Proof_Bxs Proof_BxsOps.
Import ListNotations.

Section WithTables.
Variable U : uctab.

Lemma step_inv : forall L st t ts st' r,
  toks_ok (t :: ts) ->
  5 <= b_map_size st -> b_visible st + 2 <= b_map_size st ->
  bxs_step U L st (render (t :: ts)) = Ok (st', r) ->
  tok_allowed U t /\ (forall c, t = Vis c -> length (b_ascii st) + char_cols U c <= L) /\
  st' = stepT U st t /\ r = render ts.
Proof.
  intros L st t ts st' r Hok Hm Hv H.
  assert (Hal : tok_allowed U t).
  { destruct t as [c|b|b|d]; cbn [tok_allowed]; auto.
    unfold bxs_step in H. cbn [render flat_map tok_chars app] in H.
    destruct (is_allowed_anywhere U c); [reflexivity|discriminate]. }
  assert (HL : forall c, t = Vis c -> length (b_ascii st) + char_cols U c <= L).
  { intros c ->. destruct (Nat.le_gt_cases (length (b_ascii st) + char_cols U c) L) as [Hle|Hgt]; [exact Hle|].
    exfalso. unfold bxs_step in H. cbn [render flat_map tok_chars app] in H.
    cbn in Hal. rewrite Hal in H. cbn [negb] in H.
    destruct Hok as (Hc & _). cbn in Hc. rewrite (adv_vis c _ Hc) in H.
    assert (Hesc : N.eqb c char_esc = false) by (apply N.eqb_neq; exact Hc).
    rewrite Hesc in H. cbn [negb andb] in H.
    apply Nat.ltb_lt in Hgt. rewrite Hgt in H. discriminate. }
  rewrite step_tok in H by auto. injection H as <- <-. auto.
Qed.

Lemma loop_inv : forall ts L st fuel st',
  toks_ok ts -> 5 <= b_map_size st -> b_visible st + 2 <= b_map_size st ->
  length (b_ascii st) <= L ->
  bxs_loop U fuel L st (render ts) = Ok st' ->
  Forall (tok_allowed U) ts /\ length (b_ascii st) + asc_len U ts <= L /\ st' = fold_left (stepT U) ts st.
Proof.
  induction ts as [|t ts IH]; intros L st fuel st' Hok Hm Hv HL H.
  - destruct fuel; cbn in H; injection H as <-; (split; [constructor|split; [cbn; lia|reflexivity]]).
  - pose proof (render_nonempty t ts Hok) as Hne.
    destruct fuel as [|f].
    { destruct (render (t :: ts)); [congruence|discriminate]. }
    assert (Hl : exists x, bxs_step U L st (render (t :: ts)) = Ok x /\ bxs_loop U f L (fst x) (snd x) = Ok st').
    { destruct (render (t :: ts)) as [|c0 l0]; [congruence|]. cbn [bxs_loop] in H.
      apply bind_ok in H as ([s1 r1] & H1 & H2). exists (s1, r1). auto. }
    destruct Hl as ([s1 r1] & H1 & H2). cbn [fst snd] in H2.
    destruct (step_inv _ _ _ _ _ _ Hok Hm Hv H1) as (Ha & Hb & -> & ->).
    destruct (stepT_map U st t Hm Hv) as [Hm' Hv'].
    assert (Hcol : asc_len U (t :: ts) = match t with Vis c => char_cols U c + asc_len U ts | _ => asc_len U ts end)
        by (destruct t; reflexivity).
    assert (HA : length (b_ascii (stepT U st t)) =
                 match t with Vis c => length (b_ascii st) + char_cols U c | _ => length (b_ascii st) end).
    { destruct t; cbn [stepT b_ascii]; rewrite ?app_length, ?length_char_ascii; reflexivity. }
    assert (HL' : length (b_ascii (stepT U st t)) <= L).
    { rewrite HA. destruct t; auto. }
    assert (Hok' : toks_ok ts) by (destruct Hok as (_ & _ & ?); assumption).
    destruct (IH _ _ _ _ Hok' Hm' Hv' HL' H2) as (Hall & Hlen & ->).
    split; [constructor; assumption|]. split; [|reflexivity].
    rewrite Hcol. rewrite HA in Hlen. destruct t; lia.
Qed.

(** every successfully built string *)
Lemma from_unicode_inv : forall ts b, toks_ok ts -> bxs_from_unicode U (render ts) = Ok b ->
  allowed U ts /\ fits U ts /\
  let st := fold_left (stepT U) ts bst0 in
  b = mkBxs (render ts) (b_ascii st) (b_indent st) (b_columns st) (length (render ts))
        (b_visible st) (b_invisible st) (if b_nonblank st then b_streak st else 0)
        (b_first st ++ [b_idx st]) (b_visc st ++ [b_idx st]).
Proof.
  intros ts b Hok H. unfold bxs_from_unicode in H.
  apply bind_ok in H as (st & Hl & H).
  apply loop_inv in Hl as (Ha & Hlen & ->); auto; try (cbn; lia).
  assert (HA : allowed U ts) by (apply tok_allowed_iff; assumption).
  cbn in Hlen. 
  assert (Hascii : length (b_ascii (fold_left (stepT U) ts bst0)) = columns (char_cols U) ts).
  { rewrite fold_ascii. cbn [bst0 b_ascii app]. unfold columns.
    induction (visible ts) as [|c l IHl]; [reflexivity|].
    cbn. rewrite app_length, length_char_ascii, IHl. reflexivity. }
  rewrite Hascii in H.
  destruct (Nat.leb_spec (u32_strwidth U (render ts) + 1) (columns (char_cols U) ts)); [discriminate|].
  destruct (_ <=? _); [discriminate|]. injection H as <-.
  split; [exact HA|]. split; [unfold fits; lia|reflexivity].
Qed.

Lemma from_unicode_clean_inv : forall ts b, clean ts -> bxs_from_unicode U (render ts) = Ok b ->
  b = bx U ts /\ allowed U ts /\ fits U ts.
Proof.
  intros ts b Hc H. destruct (from_unicode_inv ts b (proj1 Hc) H) as (Ha & Hf & _).
  rewrite from_unicode_bx in H by auto. injection H as <-. auto.
Qed.

(** number of characters lost by the accounting *)
Definition odd_count (ts : list tok) : nat := length (filter is_odd ts).

Lemma fold_invisible_all : forall ts st,
  b_invisible (fold_left (stepT U) ts st) + odd_count ts = b_invisible st + invisible_len ts.
Proof.
  induction ts as [|t ts IH]; intros st; [cbn; lia|].
  cbn [fold_left]. specialize (IH (stepT U st t)).
  unfold invisible_len, odd_count in *. cbn [fold_right filter].
  destruct t; cbn [is_odd stepT b_invisible adv_tok snd tok_chars length] in *; lia.
Qed.

Lemma accounting : forall ts b, toks_ok ts -> bxs_from_unicode U (render ts) = Ok b ->
  num_chars b = length (render ts) /\
  num_chars_visible b + num_chars_invisible b + odd_count ts = num_chars b /\
  num_chars_visible b = length (visible ts).
Proof.
  intros ts b Hok H. destruct (from_unicode_inv ts b Hok H) as (Ha & Hf & ->).
  cbn [num_chars num_chars_visible num_chars_invisible].
  rewrite fold_visible. pose proof (fold_invisible_all ts bst0) as Hi. cbn in Hi.
  cbn [bst0 b_visible]. rewrite render_length. lia.
Qed.

Lemma columns_all : forall ts b, toks_ok ts -> bxs_from_unicode U (render ts) = Ok b ->
  num_columns b = columns (char_cols U) ts /\ length (ascii b) = num_columns b.
Proof.
  intros ts b Hok H. destruct (from_unicode_inv ts b Hok H) as (Ha & Hf & ->).
  cbn [num_columns ascii]. rewrite fold_columns, fold_ascii. cbn [bst0 b_columns b_ascii app].
  split; [reflexivity|]. unfold columns.
  induction (visible ts) as [|c l IHl]; [reflexivity|].
  cbn. rewrite app_length, length_char_ascii, IHl. reflexivity.
Qed.

Lemma allowed_32 : uctab_ok U -> is_allowed_anywhere U 32 = true.
Proof. intros HU. unfold is_allowed_anywhere. rewrite (ok_cntrl _ HU) by reflexivity. reflexivity. Qed.

Lemma from_unicode_all_ok : uctab_ok U -> forall ts, toks_ok ts -> tabless ts -> Forall (tok_allowed U) ts ->
  exists b, bxs_from_unicode U (render ts) = Ok b.
Proof.
  intros HU ts Hok Ht Hal.
  pose proof (tabless_fits U HU ts Ht) as Hfit. unfold fits in Hfit.
  unfold bxs_from_unicode.
  rewrite (loop_toks U ts); auto; try (cbn; lia); try (apply length_render_ge; assumption).
  2:{ unfold asc_len. cbn. lia. }
  cbn [bind].
  assert (Hm : forall l st, 5 <= b_map_size st -> b_visible st + 2 <= b_map_size st ->
   b_visible (fold_left (stepT U) l st) + 2 <= b_map_size (fold_left (stepT U) l st)).
  { induction l as [|t l IHl]; intros st H1 H2; [assumption|].
    destruct (stepT_map U st t H1 H2). cbn. apply IHl; assumption. }
  specialize (Hm ts bst0 ltac:(cbn; lia) ltac:(cbn; lia)).
  assert (Hascii : length (b_ascii (fold_left (stepT U) ts bst0)) = columns (char_cols U) ts).
  { rewrite fold_ascii. cbn [bst0 b_ascii app]. unfold columns.
    induction (visible ts) as [|c l IHl]; [reflexivity|].
    cbn. rewrite app_length, length_char_ascii, IHl. reflexivity. }
  rewrite Hascii.
  destruct (Nat.leb_spec (u32_strwidth U (render ts) + 1) (columns (char_cols U) ts)); [lia|].
  destruct (Nat.leb_spec (b_map_size (fold_left (stepT U) ts bst0))
            (b_visible (fold_left (stepT U) ts bst0))); [lia|].
  eauto.
Qed.

(** [bxs_from_unicode] of tab-free text never overruns its buffers *)
Lemma from_unicode_safe : uctab_ok U -> forall ts, toks_ok ts -> tabless ts ->
  bxs_from_unicode U (render ts) = Err \/ exists b, bxs_from_unicode U (render ts) = Ok b.
Proof.
  intros HU ts Hok Ht.
  destruct (Forall_dec (tok_allowed U)) with (l := ts) as [Hal|Hnal].
  { intros [c|b|b|d]; cbn; auto. destruct (is_allowed_anywhere U c); auto. }
  - right. apply from_unicode_all_ok; assumption.
  - left. unfold bxs_from_unicode.
    assert (Hgen : forall l st fuel, toks_ok l -> tabless l -> ~ Forall (tok_allowed U) l ->
       5 <= b_map_size st -> b_visible st + 2 <= b_map_size st -> length l <= fuel ->
       forall L, length (b_ascii st) + asc_len U l <= L ->
       bxs_loop U fuel L st (render l) = Err).
    { induction l as [|t l IHl]; intros st fuel Hok' Ht' Hn Hm Hv Hf L HL; [exfalso; apply Hn; constructor|].
      pose proof (render_nonempty t l Hok') as Hne.
      cbn in Hf. destruct fuel as [|f]; [lia|].
      destruct (Forall_dec (tok_allowed U)) with (l := [t]) as [Hat|Hnat].
      { intros [c|b|b|d]; cbn; auto. destruct (is_allowed_anywhere U c); auto. }
      - inversion Hat as [|x y Hat' _]; subst.
        assert (Hcol : asc_len U (t :: l) = match t with Vis c => char_cols U c + asc_len U l | _ => asc_len U l end)
          by (destruct t; reflexivity).
        rewrite Hcol in HL.
        assert (Hst : bxs_step U L st (render (t :: l)) = Ok (stepT U st t, render l)).
        { apply step_tok; auto. intros c ->. lia. }
        destruct (render (t :: l)) as [|x0 l0] eqn:E; [congruence|].
        cbn [bxs_loop]. rewrite Hst. cbn [bind].
        destruct (stepT_map U st t Hm Hv) as [Hm' Hv'].
        apply IHl; try assumption.
        + destruct Hok' as (_ & _ & ?). assumption.
        + intros Hx. apply Ht'. rewrite visible_cons. destruct t; try exact Hx. right. exact Hx.
        + intros Hx. apply Hn. constructor; assumption.
        + lia.
        + destruct t; cbn [stepT b_ascii]; rewrite ?app_length, ?length_char_ascii; lia.
      - destruct t as [c|b|b|d]; try (exfalso; apply Hnat; constructor; [exact I|constructor]).
        cbn [render flat_map tok_chars app bxs_loop]. unfold bxs_step.
        destruct (is_allowed_anywhere U c) eqn:E; [|reflexivity].
        exfalso. apply Hnat. constructor; [exact E|constructor]. }
    rewrite Hgen; auto; try (cbn; lia); try (apply length_render_ge; assumption).
    pose proof (tabless_fits U HU ts Ht) as Hfit. unfold fits in Hfit. unfold asc_len. cbn. lia.
Qed.

(** ** Trimming *)
Lemma trail_firstn_last : forall p l, forallb p l = false ->
  exists m c, firstn (length l - trail p l) l = m ++ [c] /\ p c = false.
Proof.
  intros p l. induction l as [|c l IH] using rev_ind; intros H; [discriminate|].
  rewrite forallb_app in H. cbn in H. rewrite andb_true_r in H.
  rewrite app_length, trail_app. cbn [length forallb]. rewrite andb_true_r.
  destruct (p c) eqn:E.
  - rewrite andb_true_r in H. destruct (IH H) as (m & d & Hm & Hd). exists m, d.
    split; [|exact Hd]. rewrite <- Hm. cbn [trail].
    pose proof (trail_le p l).
    replace (length l + 1 - (1 + trail p l)) with (length l - trail p l) by lia.
    rewrite firstn_app. replace (length l - trail p l - length l) with 0 by lia. cbn. apply app_nil_r.
  - exists l, c. split; [|exact E].
    assert (trail p [c] = 0) as -> by (unfold trail; cbn; rewrite E; reflexivity).
    rewrite Nat.sub_0_r. replace (length l + 1) with (length (l ++ [c])) by (rewrite app_length; cbn; lia).
    rewrite firstn_all. reflexivity.
Qed.

Lemma trail_skipn_blank : forall p l, forallb p (skipn (length l - trail p l) l) = true.
Proof.
  intros p l. induction l as [|c l IH] using rev_ind; [reflexivity|].
  rewrite app_length, trail_app. cbn [length forallb]. rewrite andb_true_r.
  destruct (p c) eqn:E.
  - pose proof (trail_le p l).
    replace (length l + 1 - (1 + trail p l)) with (length l - trail p l) by lia.
    rewrite skipn_app, forallb_app, IH. replace (length l - trail p l - length l) with 0 by lia.
    cbn. rewrite E. reflexivity.
  - assert (trail p [c] = 0) as -> by (unfold trail; cbn; rewrite E; reflexivity).
    rewrite skipn_all2; [reflexivity|]. rewrite app_length. cbn. lia.
Qed.

Lemma lead_firstn_blank : forall p l, forallb p (firstn (lead p l) l) = true.
Proof.
  intros p l. induction l as [|c l IH]; [reflexivity|]. cbn [lead].
  destruct (p c) eqn:E; [cbn; rewrite E, IH|]; reflexivity.
Qed.

Lemma lead_skipn_head : forall p l, forallb p l = false ->
  exists c m, skipn (lead p l) l = c :: m /\ p c = false.
Proof.
  intros p l. induction l as [|c l IH]; intros H; [discriminate|]. cbn in H |- *.
  destruct (p c) eqn:E; [apply IH; exact H|]. exists c, l. auto.
Qed.

Hypothesis HU : uctab_ok U.

Lemma rtrim_spec : forall ts, good U ts ->
  exists a b, ts = a ++ b /\ bxs_rtrim U (bx U ts) = Ok (bx U a) /\ good U a /\
    forallb (is_blank U) (visible b) = true /\
    (forallb (is_blank U) (visible ts) = false ->
       exists m c, visible a = m ++ [c] /\ is_blank U c = false).
Proof.
  intros ts Hg. destruct (rtrim_good U HU ts Hg) as (a & b & E & Hr & Ha & Hb1 & Hb2).
  exists a, b. split; [exact E|]. split; [exact Hr|]. split; [exact Ha|].
  unfold all_blank in *.
  destruct (forallb (is_blank U) (visible ts)) eqn:Eb.
  - rewrite (Hb1 eq_refl). split; [reflexivity|discriminate].
  - specialize (Hb2 eq_refl).
    assert (Hva : visible a = firstn (length (visible ts) - trail (is_blank U) (visible ts)) (visible ts)).
    { rewrite <- Hb2. rewrite E, visible_app, firstn_app, Nat.sub_diag, firstn_all. cbn.
      rewrite app_nil_r. reflexivity. }
    assert (Hvb : visible b = skipn (length (visible ts) - trail (is_blank U) (visible ts)) (visible ts)).
    { rewrite <- Hb2. rewrite E, visible_app, skipn_app, Nat.sub_diag, skipn_all. reflexivity. }
    split; [rewrite Hvb; apply trail_skipn_blank|].
    intros _. rewrite Hva. apply trail_firstn_last. exact Eb.
Qed.

Lemma rtrim_idem : forall ts a, good U ts -> bxs_rtrim U (bx U ts) = Ok a -> bxs_rtrim U a = Ok a.
Proof.
  intros ts a Hg H. destruct (rtrim_good U HU ts Hg) as (ta & tb & E & Hr & Ha & Hb1 & Hb2).
  rewrite Hr in H. injection H as <-.
  unfold bxs_rtrim. cbn [bx trailing].
  destruct (all_blank U (visible ta)) eqn:Ea; [reflexivity|].
  destruct (all_blank U (visible ts)) eqn:Et.
  - unfold all_blank in *. rewrite E, visible_app, forallb_app in Et.
    apply andb_true_iff in Et as [Et _]. congruence.
  - specialize (Hb2 eq_refl).
    assert (Hva : visible ta = firstn (length (visible ts) - trail (is_blank U) (visible ts)) (visible ts)).
    { rewrite <- Hb2. rewrite E, visible_app, firstn_app, Nat.sub_diag, firstn_all. cbn.
      rewrite app_nil_r. reflexivity. }
    destruct (trail_firstn_last (is_blank U) (visible ts) Et) as (m & c & Hm & Hc).
    assert (Hz : trail (is_blank U) (visible ta) = 0); [|rewrite Hz; reflexivity].
    rewrite Hva, Hm. unfold trail. rewrite rev_app_distr. cbn [rev app lead]. rewrite Hc. reflexivity.
Qed.

(** Blanks in front are one column wide *)
Definition narrow_lead (l : list N) : Prop :=
  Forall (fun c => char_cols U c = 1) (firstn (lead (is_blank U) l) l).

Lemma lead_cols_narrow : forall l, narrow_lead l -> lead_cols U l = lead (is_blank U) l.
Proof.
  intros l H. unfold lead_cols, narrow_lead in *.
  assert (E : forall m, Forall (fun c => char_cols U c = 1) m -> sum (map (char_cols U) m) = length m).
  { induction m as [|c m IH]; intros Hm; [reflexivity|]. inversion Hm; subst.
    cbn [map]. rewrite sum_cons, IH by assumption. cbn. lia. }
  rewrite E by exact H. rewrite firstn_length. pose proof (lead_le (is_blank U) l). lia.
Qed.

Lemma lead_trail_le : forall p l, forallb p l = false -> lead p l + trail p l < length l.
Proof.
  intros p l. induction l as [|c l IH]; intros H; [discriminate|].
  cbn [lead]. rewrite trail_cons. cbn in H. cbn [length].
  pose proof (trail_le p l). pose proof (lead_le p l).
  destruct (p c) eqn:E; cbn in H.
  - rewrite H. specialize (IH H). lia.
  - destruct (forallb p l); lia.
Qed.

Lemma lead_trail_all : forall p l, forallb p l = true -> lead p l = length l.
Proof.
  intros p l. induction l as [|c l IH]; intros H; [reflexivity|].
  cbn in *. apply andb_true_iff in H as [-> H]. rewrite IH; auto.
Qed.

Lemma app_split_longer : forall (a1 b1 a2 b2 : list tok),
  a1 ++ b1 = a2 ++ b2 -> length (visible a2) < length (visible a1) ->
  exists m, a1 = a2 ++ m /\ b2 = m ++ b1.
Proof.
  induction a1 as [|t a1 IH]; intros b1 a2 b2 E H; [cbn in H; lia|].
  destruct a2 as [|u a2].
  - exists (t :: a1). split; [reflexivity|]. symmetry. exact E.
  - injection E as -> E. destruct (IH b1 a2 b2 E) as (m & Hm & Hb).
    + rewrite !visible_cons in H. destruct u; cbn in H; lia.
    + exists m. split; [rewrite Hm; reflexivity|exact Hb].
Qed.

(** [bxs_trim] takes the leading and trailing blanks off, and nothing else *)
Lemma trim_spec : forall ts, good U ts -> narrow_lead (visible ts) ->
  exists r, bxs_trim U (bx U ts) = Ok (bx U r) /\ good U r /\
    (forallb (is_blank U) (visible ts) = true -> visible r = []) /\
    (forallb (is_blank U) (visible ts) = false ->
       exists p q, ts = p ++ r ++ q /\
         forallb (is_blank U) (visible p) = true /\ forallb (is_blank U) (visible q) = true /\
         (exists c x, visible r = c :: x /\ is_blank U c = false) /\
         (exists c x, visible r = x ++ [c] /\ is_blank U c = false)).
Proof.
  intros ts Hg Hn. 
  assert (Ho : Forall (fun t => is_odd t = false) ts) by apply Hg.
  assert (Hi : indent (bx U ts) = lead (is_blank U) (visible ts)).
  { cbn [bx indent]. apply lead_cols_narrow. exact Hn. }
  unfold bxs_trim. rewrite Hi.
  change (num_chars_visible (bx U ts)) with (length (visible ts)).
  change (trailing (bx U ts)) with (if all_blank U (visible ts) then 0 else trail (is_blank U) (visible ts)).
  unfold all_blank. destruct (forallb (is_blank U) (visible ts)) eqn:Eb.
  - rewrite lead_trail_all, Nat.add_0_r, (Nat.eqb_refl (length _)) by exact Eb.
    rewrite andb_true_r. destruct (Nat.eqb_spec (length (visible ts)) 0) as [E0|E0].
    + exists ts. split; [reflexivity|]. split; [exact Hg|]. split; [|discriminate].
      intros _. destruct (visible ts); [reflexivity|discriminate].
    + exists []. split; [reflexivity|]. split; [|split; [reflexivity|discriminate]].
      split; [apply closed_nil|]. split; [constructor|intros []].
  - pose proof (lead_trail_le _ _ Eb) as Hlt.
    destruct (lead_skipn_head _ _ Eb) as (c1 & m1 & Hc1 & Hb1).
    destruct (trail_firstn_last _ _ Eb) as (m2 & c2 & Hc2 & Hb2).
    pose proof (lead_firstn_blank (is_blank U) (visible ts)) as Hlb.
    pose proof (trail_skipn_blank (is_blank U) (visible ts)) as Htb.
    set (v := visible ts) in *. set (k := lead (is_blank U) v) in *. set (j := trail (is_blank U) v) in *.
    assert (Hmain : forall p r q, ts = p ++ r ++ q -> visible p = firstn k v -> visible q = skipn (length v - j) v ->
      good U r /\ (false = true -> visible r = []) /\
      (false = false -> exists p q, ts = p ++ r ++ q /\
         forallb (is_blank U) (visible p) = true /\ forallb (is_blank U) (visible q) = true /\
         (exists c x, visible r = c :: x /\ is_blank U c = false) /\
         (exists c x, visible r = x ++ [c] /\ is_blank U c = false))).
    { intros p r q E Hp Hq.
      assert (Hv : v = firstn k v ++ visible r ++ skipn (length v - j) v).
      { rewrite <- Hp, <- Hq. unfold v. rewrite E at 1. rewrite !visible_app. reflexivity. }
      assert (Hr1 : visible r ++ skipn (length v - j) v = c1 :: m1).
      { rewrite <- Hc1. apply (app_inv_head (firstn k v)). rewrite firstn_skipn. symmetry. exact Hv. }
      assert (Hr2 : firstn k v ++ visible r = m2 ++ [c2]).
      { rewrite <- Hc2. apply (app_inv_tail (skipn (length v - j) v)).
        rewrite firstn_skipn, <- app_assoc. symmetry. exact Hv. }
      assert (Hne : visible r <> []).
      { intros Hx. rewrite Hx in Hv. apply (f_equal (@length N)) in Hv.
        rewrite !app_length, firstn_length, skipn_length in Hv. cbn in Hv. lia. }
      split; [rewrite E in Hg; apply good_app_inv in Hg as [_ Hg]; apply good_app_inv in Hg as [Hg _]; exact Hg|].
      split; [discriminate|]. intros _. exists p, q. split; [exact E|]. rewrite Hp, Hq.
      split; [exact Hlb|]. split; [exact Htb|]. split.
      - destruct (visible r) as [|c x]; [congruence|]. exists c, x. split; [reflexivity|].
        injection Hr1 as -> _. exact Hb1.
      - destruct (exists_last Hne) as (x & c & Hx). rewrite Hx in *. exists c, x. split; [reflexivity|].
        rewrite app_assoc in Hr2. apply app_inj_tail in Hr2 as [_ ->]. exact Hb2. }
    destruct (Nat.eqb_spec k 0) as [K0|K0]; [destruct (Nat.eqb_spec j 0) as [J0|J0]|]; cbn [andb].
    { exists ts. split; [reflexivity|]. apply (Hmain [] ts []); cbn [visible flat_map app].
      - rewrite app_nil_r. reflexivity.
      - rewrite K0. reflexivity.
      - rewrite J0, Nat.sub_0_r. symmetry. apply skipn_all. }
    all: destruct (Nat.eqb_spec (k + j) (length v)) as [Ex|_]; [lia|].
    all: rewrite subz_le by lia; cbn [bind].
    all: destruct (rd_first U ts (length v - j) Ho ltac:(unfold v in *; lia)) as (a1 & b1 & E1 & R1 & Va1 & Vb1).
    all: destruct (rd_first U ts k Ho ltac:(unfold v in *; lia)) as (a2 & b2 & E2 & R2 & Va2 & Vb2).
    all: rewrite R1, R2; cbn [bind]; change (memory (bx U ts)) with (render ts).
    all: destruct (app_split_longer a1 b1 a2 b2) as (m & Hm & Hbm);
      [congruence | rewrite Va1, Va2, !firstn_length; unfold v in *; lia |].
    all: assert (Hmem : render ts = render (a1 ++ b1)) by (rewrite E1; reflexivity).
    all: rewrite !Hmem.
    all: pose proof (length_render_app_le a1 b1); pose proof (length_render_app_le a2 m); rewrite <- Hm in *.
    all: destruct (Nat.ltb_spec (length (render (a1 ++ b1))) (length (render a1))); [lia|].
    all: destruct (Nat.ltb_spec (length (render (a1 ++ b1))) (length (render a2))); [lia|].
    all: destruct (Nat.ltb_spec (length (render a1)) (length (render a2))); [lia|].
    all: rewrite firstn_render, Hm, skipn_render.
    all: exists m.
    all: assert (Ets : ts = a2 ++ m ++ b1) by (rewrite app_assoc, <- Hm; exact E1).
    all: destruct (Hmain a2 m b1 Ets Va2 Vb1) as (Hgm & Hrest); rewrite from_unicode_good by assumption; auto.
Qed.

Lemma trim_idem : forall ts, good U ts -> narrow_lead (visible ts) ->
  exists r, bxs_trim U (bx U ts) = Ok r /\ bxs_trim U r = Ok r.
Proof.
  intros ts Hg Hn. destruct (trim_spec ts Hg Hn) as (r & Hr & Hgr & H1 & H2).
  exists (bx U r). split; [exact Hr|].
  unfold bxs_trim. cbn [bx indent trailing].
  destruct (forallb (is_blank U) (visible ts)).
  - rewrite H1 by reflexivity. reflexivity.
  - destruct (H2 eq_refl) as (p & q & _ & _ & _ & (c & x & E & Hc) & (c' & x' & E' & Hc')).
    assert (lead_cols U (visible r) = 0) as -> by (unfold lead_cols; rewrite E; cbn [lead]; rewrite Hc; reflexivity).
    assert (trail (is_blank U) (visible r) = 0) as ->
      by (unfold trail; rewrite E', rev_app_distr; cbn; rewrite Hc'; reflexivity).
    destruct (all_blank U (visible r)); reflexivity.
Qed.

(** ** Appending spaces *)
Lemma first_pos_spaces : forall n o, first_pos o None (plain (repeat 32%N n)) = seq o n.
Proof. induction n as [|n IH]; intros o; [reflexivity|]. cbn. f_equal. apply IH. Qed.

Lemma vis_pos_spaces : forall n o, vis_pos o (plain (repeat 32%N n)) = seq o n.
Proof. induction n as [|n IH]; intros o; [reflexivity|]. cbn. f_equal. apply IH. Qed.

Lemma first_pos_snoc : forall ts o cand c r,
  first_pos o cand (ts ++ Vis c :: r) =
  first_pos o cand (ts ++ [Vis c]) ++ first_pos (S (o + length (render ts))) None r.
Proof.
  induction ts as [|t ts IH]; intros o cand c r.
  - cbn. rewrite Nat.add_0_r. reflexivity.
  - cbn [app]. rewrite render_cons, app_length.
    destruct t as [d|b|b|d]; cbn [first_pos]; rewrite IH; cbn [app tok_chars length]; repeat (first [lia | f_equal]).
Qed.

Lemma vis_pos_app : forall a b o, vis_pos o (a ++ b) = vis_pos o a ++ vis_pos (o + length (render a)) b.
Proof.
  induction a as [|t a IH]; intros b o; [cbn; rewrite Nat.add_0_r; reflexivity|].
  cbn [app]. rewrite render_cons, app_length.
  destruct t as [d|c|c|d]; cbn [vis_pos]; rewrite IH; cbn [app tok_chars length]; repeat (first [lia | f_equal]).
Qed.

Lemma lead_cols_app_nb : forall l m, forallb (is_blank U) l = false -> lead_cols U (l ++ m) = lead_cols U l.
Proof.
  intros l m. unfold lead_cols. induction l as [|c l IH]; intros H; [discriminate|].
  cbn [forallb] in H. cbn [app lead]. destruct (is_blank U c); [|reflexivity]. cbn [andb] in H.
  cbn [firstn map]. rewrite !sum_cons, IH by exact H. reflexivity.
Qed.

Lemma append_bx : forall ts c n, all_blank U (visible (ts ++ [Vis c])) = false ->
  bxs_append_spaces (bx U (ts ++ [Vis c])) n = bx U ((ts ++ [Vis c]) ++ plain (repeat 32%N n)).
Proof.
  intros ts c n Hb. unfold bxs_append_spaces. destruct (Nat.eqb_spec n 0) as [->|Hn].
  { cbn [repeat plain map]. rewrite app_nil_r. reflexivity. }
  set (us := ts ++ [Vis c]) in *.
  assert (Hr : length (render (us ++ plain (repeat 32%N n))) = length (render us) + n).
  { rewrite render_app, app_length, render_plain, repeat_length. lia. }
  unfold bx. cbn [memory ascii indent num_columns num_chars num_chars_visible
    num_chars_invisible trailing first_char visible_char].
  f_equal.
  - rewrite render_app, render_plain. reflexivity.
  - rewrite visible_app, visible_plain, flat_map_app. f_equal.
    clear. induction n as [|n IH]; [reflexivity|]. cbn. rewrite <- IH. reflexivity.
  - rewrite visible_app. rewrite lead_cols_app_nb by exact Hb. reflexivity.
  - rewrite columns_app, (columns_spaces U). lia.
  - lia.
  - rewrite visible_app, visible_plain, app_length, repeat_length. lia.
  - rewrite invisible_len_app.
    assert (E : invisible_len (plain (repeat 32%N n)) = 0).
    { clear. induction n as [|n IH]; [reflexivity|].
      unfold invisible_len, plain in *. cbn. exact IH. }
    rewrite E. lia.
  - rewrite visible_app, visible_plain. rewrite Hb. unfold all_blank in *. rewrite forallb_app, Hb. cbn [andb].
    rewrite trail_app, (forallb_repeat _ 32%N n (blank32 U HU)), repeat_length.
    lia.
  - rewrite firstn_app, first_pos_length, Nat.sub_diag, firstn_O, app_nil_r.
    rewrite firstn_all2 by (rewrite first_pos_length; lia).
    rewrite Hr. unfold us. rewrite <- app_assoc. cbn [app]. rewrite (first_pos_snoc ts 0 None c (plain (repeat 32%N n))), first_pos_spaces, <- app_assoc.
    f_equal. cbn [Nat.add]. rewrite render_app, app_length. cbn [render flat_map tok_chars app length].
    replace (length (render ts) + 1) with (S (length (render ts))) by lia.
    replace (S n) with (n + 1) by lia. rewrite seq_app. reflexivity.
  - rewrite firstn_app, vis_pos_length, Nat.sub_diag, firstn_O, app_nil_r.
    rewrite firstn_all2 by (rewrite vis_pos_length; lia).
    rewrite Hr. rewrite vis_pos_app, vis_pos_spaces, <- app_assoc.
    f_equal. cbn [Nat.add].
    replace (S n) with (n + 1) by lia. rewrite seq_app. reflexivity.
Qed.
End WithTables.
