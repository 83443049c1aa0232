(** * Characterisation of [bxs_from_unicode] and the string operations in terms of tokens *)
From Coq Require Import List Arith NArith ZArith Bool Lia.
From Verif Require Import Base BaseFacts Model_Unicode Model_Bxs Spec_Str Proof_Str.
Import ListNotations.

Section WithTables.
Variable U : uctab.

Lemma length_char_ascii : forall c, length (char_ascii U c) = char_cols U c.
Proof.
  intros c. unfold char_ascii, char_cols.
  destruct (is_ascii_printable c); [reflexivity|].
  destruct (N.eqb c char_tab); [reflexivity|]. apply repeat_length.
Qed.

(** start positions: a visible character starts at the last escape sequence directly before it that
    is not a reset *)
Fixpoint first_pos (o : nat) (cand : option nat) (ts : list tok) : list nat :=
  match ts with
  | [] => []
  | Vis c :: r => (match cand with None => o | Some k => k end) :: first_pos (S o) None r
  | t :: r => first_pos (o + length (tok_chars t))
                (if is_csi_reset (tok_chars t) then None else Some o) r
  end.

Definition lead_cols (l : list N) : nat :=
  sum (map (char_cols U) (firstn (lead (is_blank U) l) l)).

Definition all_blank (l : list N) : bool := forallb (is_blank U) l.

(** the string structure for a token sequence *)
Definition bx (ts : list tok) : bxstr :=
  mkBxs (render ts) (flat_map (char_ascii U) (visible ts))
    (lead_cols (visible ts)) (columns (char_cols U) ts) (length (render ts))
    (length (visible ts)) (invisible_len ts)
    (if all_blank (visible ts) then 0 else trail (is_blank U) (visible ts))
    (first_pos 0 None ts ++ [length (render ts)])
    (vis_pos 0 ts ++ [length (render ts)]).

(** effect of one token on the loop state *)
Definition grow (m v : nat) : nat := if m - 2 <=? v then m * 2 + 1 else m.

Definition stepT (st : bst) (t : tok) : bst :=
  let m := grow (b_map_size st) (b_visible st) in
  match t with
  | Vis c =>
      let blank := is_blank U c in
      mkBst m (b_ascii st ++ char_ascii U c)
        (if blank && b_indent_active st then b_indent st + char_cols U c else b_indent st)
        (b_columns st + char_cols U c) (S (b_visible st)) (b_invisible st)
        (b_first st ++ [match b_cand st with None => b_idx st | Some k => k end])
        (b_visc st ++ [b_idx st])
        (if blank then b_indent_active st else false)
        (if blank then S (b_streak st) else 0)
        None
        (if blank then b_nonblank st else true)
        (S (b_idx st))
  | _ =>
      let k := snd (adv_tok t) in
      mkBst m (b_ascii st) (b_indent st) (b_columns st) (b_visible st)
        (b_invisible st + k) (b_first st) (b_visc st) (b_indent_active st) (b_streak st)
        (if is_csi_reset (tok_chars t) then None else Some (b_idx st))
        (b_nonblank st) (b_idx st + k)
  end.

Definition tok_allowed (t : tok) : Prop :=
  match t with Vis c => is_allowed_anywhere U c = true | _ => True end.

Lemma esc_allowed : is_allowed_anywhere U 27 = true.
Proof. unfold is_allowed_anywhere. cbn. rewrite !orb_true_r. reflexivity. Qed.

Lemma grow_ok : forall m v, 5 <= m -> v + 2 <= m -> 5 <= grow m v /\ v + 2 < grow m v.
Proof.
  intros m v Hm Hv. unfold grow. destruct (Nat.leb_spec (m - 2) v); lia.
Qed.

Lemma reset_tok : forall t ts, toks_ok (t :: ts) -> (forall c, t <> Vis c) ->
  is_csi_reset (render (t :: ts)) = is_csi_reset (tok_chars t).
Proof.
  intros t ts (Ht & Hc & Hts) Hv. rewrite render_cons.
  destruct t as [c|b|b|d]; cbn [tok_chars].
  - exfalso. exact (Hv c eq_refl).
  - apply is_csi_reset_esc. exact Ht.
  - rewrite (Hc eq_refl). cbn. rewrite app_nil_r. reflexivity.
  - destruct Ht as [Ho Hr]. cbn [app].
    destruct (render ts) as [|x l]; [reflexivity|].
    unfold is_csi_reset. apply opener_false in Ho. rewrite Ho.
    rewrite !andb_false_r. reflexivity.
Qed.

Lemma step_tok : forall L st t ts,
  toks_ok (t :: ts) -> tok_allowed t ->
  (forall c, t = Vis c -> length (b_ascii st) + char_cols U c <= L) ->
  5 <= b_map_size st -> b_visible st + 2 <= b_map_size st ->
  bxs_step U L st (render (t :: ts)) = Ok (stepT st t, render ts).
Proof.
  intros L st t ts Hok Hal HL Hm Hv.
  pose proof (adv_render t ts Hok) as Hadv.
  pose proof (skipn_adv t ts) as Hskip.
  destruct (grow_ok _ _ Hm Hv) as [Hg1 Hg2].
  assert (Hok' := Hok). destruct Hok' as (Ht & Hc & Hts).
  destruct t as [c|b|b|d].
  - change (render (Vis c :: ts)) with (c :: render ts) in *. cbn in Ht.
    unfold bxs_step. cbn in Hal. rewrite Hal. cbn [negb].
    rewrite Hadv. cbn [adv_tok].
    assert (Hesc : N.eqb c char_esc = false) by (apply N.eqb_neq; exact Ht).
    rewrite Hesc. cbn [negb andb].
    specialize (HL c eq_refl).
    destruct (Nat.ltb_spec L (length (b_ascii st) + char_cols U c)) as [Hx|_]; [lia|].
    fold (grow (b_map_size st) (b_visible st)).
    destruct (Nat.leb_spec (grow (b_map_size st) (b_visible st)) (b_visible st)) as [Hx|_]; [lia|].
    cbn [adv_tok fst skipn] in Hskip. rewrite Nat.eqb_refl.
    cbn [stepT]. cbn [skipn].
    f_equal. f_equal. rewrite andb_true_r, Nat.add_0_r.
    destruct (is_blank U c); reflexivity.
  - destruct (esc_head b Ht) as (b' & Eb).
    pose proof (reset_tok _ _ Hok ltac:(discriminate)) as Hr.
    assert (E : render (Esc b :: ts) = 27%N :: (b' ++ render ts)).
    { rewrite render_cons. cbn [tok_chars]. rewrite Eb. reflexivity. }
    rewrite E in *. unfold bxs_step. rewrite esc_allowed. cbn [negb].
    rewrite Hadv. cbn [adv_tok tok_chars] in *. cbn [fst] in Hskip.
    rewrite N.eqb_refl. cbn [negb andb]. rewrite andb_false_r. cbn [andb].
    fold (grow (b_map_size st) (b_visible st)).
    rewrite Hskip, Hr. unfold stepT. cbn [tok_chars adv_tok snd].
    assert (Hl : length b =? 0 = false) by (apply Nat.eqb_neq; rewrite Eb; cbn; lia).
    rewrite Hl. reflexivity.
  - destruct (cut_head b Ht) as (b' & Eb).
    pose proof (reset_tok _ _ Hok ltac:(discriminate)) as Hr.
    assert (E : render (Cut b :: ts) = 27%N :: (b' ++ render ts)).
    { rewrite render_cons. cbn [tok_chars]. rewrite Eb. reflexivity. }
    rewrite E in *. unfold bxs_step. rewrite esc_allowed. cbn [negb].
    rewrite Hadv. cbn [adv_tok tok_chars] in *. cbn [fst] in Hskip.
    rewrite N.eqb_refl. cbn [negb andb]. rewrite andb_false_r. cbn [andb].
    fold (grow (b_map_size st) (b_visible st)).
    rewrite Hskip, Hr. unfold stepT. cbn [tok_chars adv_tok snd].
    assert (Hl : length b =? 0 = false) by (apply Nat.eqb_neq; rewrite Eb; cbn; lia).
    rewrite Hl. reflexivity.
  - pose proof (reset_tok _ _ Hok ltac:(discriminate)) as Hr.
    assert (E : render (Odd d :: ts) = 27%N :: (d :: render ts)) by reflexivity.
    rewrite E in *. unfold bxs_step. rewrite esc_allowed. cbn [negb].
    rewrite Hadv. cbn [adv_tok tok_chars] in *. cbn [fst] in Hskip.
    rewrite N.eqb_refl. cbn [negb andb]. rewrite andb_false_r. cbn [andb].
    fold (grow (b_map_size st) (b_visible st)).
    rewrite Hskip, Hr. unfold stepT. cbn [tok_chars adv_tok snd]. reflexivity.
Qed.

Lemma stepT_map : forall st t, 5 <= b_map_size st -> b_visible st + 2 <= b_map_size st ->
  5 <= b_map_size (stepT st t) /\ b_visible (stepT st t) + 2 <= b_map_size (stepT st t).
Proof.
  intros st t H1 H2. destruct (grow_ok _ _ H1 H2) as [Hg1 Hg2].
  destruct t; cbn; lia.
Qed.

Definition asc_len (ts : list tok) : nat := columns (char_cols U) ts.

Lemma loop_toks : forall ts L st fuel,
  toks_ok ts -> Forall tok_allowed ts ->
  length (b_ascii st) + asc_len ts <= L ->
  5 <= b_map_size st -> b_visible st + 2 <= b_map_size st ->
  length ts <= fuel ->
  bxs_loop U fuel L st (render ts) = Ok (fold_left stepT ts st).
Proof.
  induction ts as [|t ts IH]; intros L st fuel Hok Hal HL Hm Hv Hf.
  - destruct fuel; reflexivity.
  - cbn in Hf. destruct fuel as [|f]; [lia|].
    inversion Hal as [|x l Hat Hats]; subst.
    assert (Hst : bxs_step U L st (render (t :: ts)) = Ok (stepT st t, render ts)).
    { apply step_tok; auto. intros c ->. unfold asc_len, columns in HL. cbn in HL. lia. }
    pose proof (render_nonempty t ts Hok) as Hne.
    destruct (render (t :: ts)) as [|x0 l0] eqn:E; [congruence|].
    cbn [bxs_loop]. rewrite Hst. cbn [bind].
    destruct (stepT_map st t Hm Hv) as [Hm' Hv'].
    rewrite IH; auto.
    + destruct Hok as (_ & _ & ?). assumption.
    + assert (Hcol : asc_len (t :: ts) = match t with Vis c => char_cols U c + asc_len ts | _ => asc_len ts end)
        by (destruct t; reflexivity).
      rewrite Hcol in HL.
      destruct t; cbn [stepT b_ascii]; rewrite ?app_length, ?length_char_ascii; lia.
    + lia.
Qed.

Lemma length_render_ge : forall ts, toks_ok ts -> length ts <= length (render ts).
Proof.
  induction ts as [|t ts IH]; intros H; [cbn; lia|].
  destruct H as (Ht & _ & Hts). rewrite render_cons, app_length. cbn [length].
  pose proof (tok_len_pos t Ht). specialize (IH Hts). lia.
Qed.

(** ** Closed form of the loop result *)
Lemma visible_cons : forall t ts,
  visible (t :: ts) = match t with Vis c => c :: visible ts | _ => visible ts end.
Proof. intros [c|b|b|d] ts; reflexivity. Qed.

Lemma visible_app : forall a b, visible (a ++ b) = visible a ++ visible b.
Proof. intros a b. unfold visible. apply flat_map_app. Qed.

Lemma fold_ascii : forall ts st,
  b_ascii (fold_left stepT ts st) = b_ascii st ++ flat_map (char_ascii U) (visible ts).
Proof.
  induction ts as [|t ts IH]; intros st; [cbn; rewrite app_nil_r; reflexivity|].
  cbn [fold_left]. rewrite IH, visible_cons.
  destruct t; cbn [stepT b_ascii flat_map]; rewrite ?app_assoc; reflexivity.
Qed.

Lemma fold_columns : forall ts st,
  b_columns (fold_left stepT ts st) = b_columns st + columns (char_cols U) ts.
Proof.
  induction ts as [|t ts IH]; intros st; [cbn; lia|].
  cbn [fold_left]. rewrite IH. unfold columns. rewrite visible_cons.
  destruct t; cbn; lia.
Qed.

Lemma fold_visible : forall ts st,
  b_visible (fold_left stepT ts st) = b_visible st + length (visible ts).
Proof.
  induction ts as [|t ts IH]; intros st; [cbn; lia|].
  cbn [fold_left]. rewrite IH, visible_cons. destruct t; cbn; lia.
Qed.

Lemma fold_invisible : forall ts st, Forall (fun t => is_odd t = false) ts ->
  b_invisible (fold_left stepT ts st) = b_invisible st + invisible_len ts.
Proof.
  induction ts as [|t ts IH]; intros st H; [cbn; lia|].
  inversion H as [|x l Hx Hl]; subst.
  cbn [fold_left]. rewrite IH by assumption.
  assert (E : invisible_len (t :: ts) = snd (adv_tok t) + invisible_len ts)
    by (destruct t; [reflexivity..|discriminate]).
  rewrite E. destruct t; cbn [stepT b_invisible adv_tok snd]; lia.
Qed.

Lemma fold_idx : forall ts st, Forall (fun t => is_odd t = false) ts ->
  b_idx (fold_left stepT ts st) = b_idx st + length (render ts).
Proof.
  induction ts as [|t ts IH]; intros st H; [cbn; lia|].
  inversion H as [|x l Hx Hl]; subst.
  cbn [fold_left]. rewrite IH, render_cons, app_length by assumption.
  destruct t; cbn [stepT b_idx adv_tok snd tok_chars length] in *; [lia..|discriminate].
Qed.

Lemma fold_first : forall ts st, Forall (fun t => is_odd t = false) ts ->
  b_first (fold_left stepT ts st) = b_first st ++ first_pos (b_idx st) (b_cand st) ts.
Proof.
  induction ts as [|t ts IH]; intros st H; [cbn; rewrite app_nil_r; reflexivity|].
  inversion H as [|x l Hx Hl]; subst.
  cbn [fold_left]. rewrite IH by assumption.
  destruct t; cbn [stepT b_first b_idx b_cand first_pos adv_tok snd tok_chars] in *;
    rewrite <- ?app_assoc; try reflexivity; discriminate.
Qed.

Lemma fold_visc : forall ts st, Forall (fun t => is_odd t = false) ts ->
  b_visc (fold_left stepT ts st) = b_visc st ++ vis_pos (b_idx st) ts.
Proof.
  induction ts as [|t ts IH]; intros st H; [cbn; rewrite app_nil_r; reflexivity|].
  inversion H as [|x l Hx Hl]; subst.
  cbn [fold_left]. rewrite IH by assumption.
  destruct t; cbn [stepT b_visc b_idx vis_pos adv_tok snd tok_chars] in *;
    rewrite <- ?app_assoc; try reflexivity; discriminate.
Qed.

Lemma lead_cols_cons : forall c l,
  lead_cols (c :: l) = if is_blank U c then char_cols U c + lead_cols l else 0.
Proof.
  intros c l. unfold lead_cols. cbn [lead]. destruct (is_blank U c); reflexivity.
Qed.

Lemma fold_indent : forall ts st,
  b_indent (fold_left stepT ts st) =
  b_indent st + (if b_indent_active st then lead_cols (visible ts) else 0).
Proof.
  induction ts as [|t ts IH]; intros st.
  - cbn. destruct (b_indent_active st); cbn; lia.
  - cbn [fold_left]. rewrite IH, visible_cons.
    destruct t as [c| | |]; cbn [stepT b_indent b_indent_active]; try reflexivity.
    rewrite lead_cols_cons.
    destruct (is_blank U c), (b_indent_active st); cbn; lia.
Qed.

Lemma fold_nonblank : forall ts st,
  b_nonblank (fold_left stepT ts st) = b_nonblank st || negb (all_blank (visible ts)).
Proof.
  induction ts as [|t ts IH]; intros st; [cbn; rewrite orb_false_r; reflexivity|].
  cbn [fold_left]. rewrite IH, visible_cons.
  destruct t as [c| | |]; cbn [stepT b_nonblank all_blank forallb]; try reflexivity.
  unfold all_blank. cbn [forallb]. destruct (is_blank U c), (b_nonblank st); reflexivity.
Qed.

Lemma lead_app : forall p a b,
  lead p (a ++ b) = if forallb p a then length a + lead p b else lead p a.
Proof.
  induction a as [|c a IH]; intros b; cbn; [reflexivity|].
  destruct (p c); cbn; [|reflexivity]. rewrite IH. destruct (forallb p a); reflexivity.
Qed.

Lemma forallb_rev : forall (p : N -> bool) l, forallb p (rev l) = forallb p l.
Proof.
  intros p l. induction l as [|c l IH]; [reflexivity|].
  cbn. rewrite forallb_app, IH. cbn. rewrite andb_true_r. apply andb_comm.
Qed.

Lemma trail_cons : forall p c l,
  trail p (c :: l) = if forallb p l then (if p c then S (length l) else length l) else trail p l.
Proof.
  intros p c l. unfold trail. cbn [rev]. rewrite lead_app, forallb_rev, rev_length. cbn [lead].
  destruct (p c); destruct (forallb p l); lia.
Qed.

Lemma trail_all : forall p l, forallb p l = true -> trail p l = length l.
Proof.
  intros p l H. destruct l as [|c l]; [reflexivity|]. rewrite trail_cons. cbn in H.
  apply andb_true_iff in H as [-> ->]. reflexivity.
Qed.

Lemma trail_app : forall p a b,
  trail p (a ++ b) = if forallb p b then length b + trail p a else trail p b.
Proof.
  intros p a b. unfold trail. rewrite rev_app_distr, lead_app, forallb_rev, rev_length.
  reflexivity.
Qed.

Lemma lead_le : forall p l, lead p l <= length l.
Proof. induction l as [|c l IH]; cbn; [lia|]. destruct (p c); lia. Qed.

Lemma trail_le : forall p l, trail p l <= length l.
Proof. intros p l. unfold trail. rewrite <- (rev_length l). apply lead_le. Qed.

Lemma fold_streak : forall ts st,
  b_streak (fold_left stepT ts st) =
  if all_blank (visible ts) then b_streak st + length (visible ts) else trail (is_blank U) (visible ts).
Proof.
  induction ts as [|t ts IH]; intros st; [cbn; lia|].
  cbn [fold_left]. rewrite IH, visible_cons.
  destruct t as [c| | |]; cbn [stepT b_streak]; try reflexivity.
  rewrite trail_cons. unfold all_blank. cbn [forallb length].
  destruct (is_blank U c), (forallb (is_blank U) (visible ts)); cbn; lia.
Qed.

Lemma tok_allowed_iff : forall ts, allowed U ts <-> Forall tok_allowed ts.
Proof.
  unfold allowed. induction ts as [|t ts IH]; [cbn; split; constructor|].
  rewrite visible_cons. destruct t as [c| | |]; split; intros H.
  - inversion H; subst. constructor; [assumption|]. apply IH. assumption.
  - inversion H; subst. constructor; [assumption|]. apply IH. assumption.
  - constructor; [exact I|]. apply IH. assumption.
  - inversion H; subst. apply IH. assumption.
  - constructor; [exact I|]. apply IH. assumption.
  - inversion H; subst. apply IH. assumption.
  - constructor; [exact I|]. apply IH. assumption.
  - inversion H; subst. apply IH. assumption.
Qed.

(** Does the text fit into the buffer allocated for its ASCII shadow? *)
Definition fits (ts : list tok) : Prop := columns (char_cols U) ts <= u32_strwidth U (render ts).

Theorem from_unicode_bx : forall ts,
  clean ts -> allowed U ts -> fits ts -> bxs_from_unicode U (render ts) = Ok (bx ts).
Proof.
  intros ts [Hok Hodd] Hal Hfit. unfold bxs_from_unicode.
  rewrite (loop_toks ts); auto.
  2:{ apply tok_allowed_iff. assumption. }
  2:{ cbn. unfold fits in Hfit. unfold asc_len. lia. }
  2:{ cbn. lia. }
  2:{ apply length_render_ge. assumption. }
  cbn [bind].
  assert (Hm : forall l st, 5 <= b_map_size st -> b_visible st + 2 <= b_map_size st ->
     b_visible (fold_left stepT l st) + 2 <= b_map_size (fold_left stepT l st)).
  { induction l as [|t l IHl]; intros st H1 H2; [assumption|].
    destruct (stepT_map st t H1 H2). cbn. apply IHl; assumption. }
  specialize (Hm ts bst0 ltac:(cbn; lia) ltac:(cbn; lia)).
  rewrite fold_ascii. cbn [b_ascii bst0 app].
  assert (Hlen : length (flat_map (char_ascii U) (visible ts)) = columns (char_cols U) ts).
  { unfold columns. induction (visible ts) as [|c l IHl]; [reflexivity|].
    cbn. rewrite app_length, length_char_ascii, IHl. reflexivity. }
  unfold fits in Hfit.
  destruct (Nat.leb_spec (u32_strwidth U (render ts) + 1)
              (length (flat_map (char_ascii U) (visible ts)))) as [Hx|_]; [lia|].
  destruct (Nat.leb_spec (b_map_size (fold_left stepT ts bst0))
              (b_visible (fold_left stepT ts bst0))) as [Hx|_]; [lia|].
  rewrite fold_indent, fold_columns, fold_visible, fold_invisible, fold_nonblank, fold_streak,
    fold_first, fold_visc, fold_idx by assumption.
  cbn [bst0 b_indent b_columns b_visible b_invisible b_nonblank b_streak b_first b_visc b_idx b_cand
       b_indent_active app orb]. rewrite !Nat.add_0_l.
  unfold bx. f_equal. f_equal.
  destruct (all_blank (visible ts)); reflexivity.
Qed.

(** ** Tab-free text always fits *)
Lemma tabless_fits : uctab_ok U -> forall ts, tabless ts -> fits ts.
Proof.
  intros HU ts. unfold fits, tabless, columns, u32_strwidth.
  induction ts as [|t ts IH]; intros Ht; [cbn; lia|].
  rewrite render_cons, map_app. rewrite visible_cons in *.
  rewrite sum_app.
  destruct t as [c| | |]; try (specialize (IH Ht); lia).
  cbn [tok_chars map fold_right]. rewrite sum_cons.
  assert (Hc : char_cols U c <= Z.to_nat (Z.max 0 (uc_width U c))).
  { unfold char_cols. destruct (is_ascii_printable c) eqn:E.
    - rewrite (ok_width _ HU c E). cbn. lia.
    - destruct (N.eqb_spec c char_tab) as [->|_]; [|lia].
      exfalso. apply Ht. left. reflexivity. }
  assert (Hts : ~ In 9%N (visible ts)) by (intros Hx; apply Ht; right; exact Hx).
  specialize (IH Hts). lia.
Qed.

End WithTables.
