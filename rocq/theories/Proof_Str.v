(** * Proofs about the string scanner: tokens, [advance_next32], [bxs_from_unicode] *)
From Coq Require Import List Arith NArith ZArith Bool Lia.
From Verif Require Import Base Model_Unicode Model_Bxs Spec_Str.
Import ListNotations.

(** ** Boolean character tests *)
Lemma csi_final_iff : forall c, csi_final c = true <-> final c.
Proof.
  intros c. unfold csi_final, final.
  rewrite andb_true_iff, !N.leb_le. tauto.
Qed.

Lemma csi_final_false : forall c, csi_final c = false <-> ~ final c.
Proof.
  intros c. rewrite <- csi_final_iff. destruct (csi_final c); split; congruence.
Qed.

Lemma opener_iff : forall d, ((d =? 91) || (d =? 40))%N = true <-> opener d.
Proof.
  intros d. unfold opener. rewrite orb_true_iff, !N.eqb_eq. tauto.
Qed.

Lemma opener_false : forall d, ((d =? 91) || (d =? 40))%N = false <-> ~ opener d.
Proof.
  intros d. rewrite <- opener_iff. destruct (_ || _)%N; split; congruence.
Qed.

Lemma range_iff : forall d, ((64 <=? d) && (d <=? 95))%N = true <-> (64 <= d <= 95)%N.
Proof. intros d. rewrite andb_true_iff, !N.leb_le. tauto. Qed.

Lemma range_false : forall d, ((64 <=? d) && (d <=? 95))%N = false <-> ~ (64 <= d <= 95)%N.
Proof. intros d. rewrite <- range_iff. destruct (_ && _)%N; split; congruence. Qed.

(** ** [csi_tail] *)
Lemma csi_tail_open : forall ps r, Forall (fun p => ~ final p) ps ->
  csi_tail (ps ++ r) = length ps + csi_tail r.
Proof.
  induction ps as [|p ps IH]; intros r H; cbn; [reflexivity|].
  inversion H as [|x l Hp Hps]; subst.
  apply csi_final_false in Hp. rewrite Hp, IH by assumption. reflexivity.
Qed.

Lemma csi_tail_complete : forall ps f r, Forall (fun p => ~ final p) ps -> final f ->
  csi_tail (ps ++ f :: r) = S (length ps).
Proof.
  intros ps f r H Hf. rewrite csi_tail_open by assumption. cbn.
  apply csi_final_iff in Hf. rewrite Hf. lia.
Qed.

Lemma csi_tail_le : forall s, csi_tail s <= length s.
Proof.
  induction s as [|c s IH]; cbn; [lia|]. destruct (csi_final c); lia.
Qed.

(** ** [advance_next32] on one token *)
Lemma adv_vis : forall c r, c <> 27%N -> advance_next32 (c :: r) = (1, 0).
Proof.
  intros c r H. unfold advance_next32, char_esc.
  apply N.eqb_neq in H. rewrite H. reflexivity.
Qed.

Lemma adv_esc : forall b r, tok_ok (Esc b) -> advance_next32 (b ++ r) = (length b, length b).
Proof.
  intros b r [(d & -> & Hd & Hn)|(d & ps & f & -> & Ho & Hps & Hf)]; cbn [app].
  - unfold advance_next32, char_esc. rewrite N.eqb_refl.
    assert (Hno : ~ opener d) by (unfold opener; intros [?|?]; subst; lia).
    apply opener_false in Hno. rewrite Hno.
    apply range_iff in Hd. rewrite Hd. reflexivity.
  - unfold advance_next32, char_esc. rewrite N.eqb_refl.
    apply opener_iff in Ho. rewrite Ho.
    rewrite <- app_assoc. cbn [app].
    rewrite csi_tail_complete by assumption.
    cbn [length]. rewrite app_length. cbn [length]. f_equal; lia.
Qed.

Lemma adv_cut : forall b, tok_ok (Cut b) -> advance_next32 b = (length b, length b).
Proof.
  intros b [->|(d & ps & -> & Ho & Hps)].
  - reflexivity.
  - unfold advance_next32, char_esc. rewrite N.eqb_refl.
    apply opener_iff in Ho. rewrite Ho.
    rewrite <- (app_nil_r ps) at 1 2. rewrite csi_tail_open by assumption.
    cbn. f_equal; lia.
Qed.

Lemma adv_odd : forall d r, tok_ok (Odd d) -> advance_next32 (27%N :: d :: r) = (2, 1).
Proof.
  intros d r [Ho Hr]. unfold advance_next32, char_esc. rewrite N.eqb_refl.
  apply opener_false in Ho. rewrite Ho. apply range_false in Hr. rewrite Hr. reflexivity.
Qed.

Lemma esc_head : forall b, tok_ok (Esc b) -> exists b', b = 27%N :: b'.
Proof. intros b [(d & -> & _)|(d & ps & f & -> & _)]; eauto. Qed.

Lemma cut_head : forall b, tok_ok (Cut b) -> exists b', b = 27%N :: b'.
Proof. intros b [->|(d & ps & -> & _)]; eauto. Qed.

Lemma is_csi_reset_esc : forall b r, tok_ok (Esc b) -> is_csi_reset (b ++ r) = is_csi_reset b.
Proof.
  intros b r [(d & -> & Hd & Hn)|(d & ps & f & -> & Ho & Hps & Hf)].
  - cbn [app]. unfold is_csi_reset. destruct r as [|c2 r]; [reflexivity|].
    assert (Hno : ~ opener d) by (unfold opener; intros [?|?]; subst; lia).
    apply opener_false in Hno. rewrite Hno. reflexivity.
  - apply csi_final_iff in Hf.
    assert (F48 : csi_final 48 = false) by reflexivity.
    destruct ps as [|p1 [|p2 [|p3 ps]]]; cbn [app].
    + unfold is_csi_reset. cbn [app hd tl].
      destruct (f =? 48)%N eqn:E48.
      { apply N.eqb_eq in E48. subst. congruence. }
      rewrite Hf. reflexivity.
    + unfold is_csi_reset. cbn [app hd tl].
      inversion Hps as [|x l Hp1 _]; subst. apply csi_final_false in Hp1. rewrite Hp1.
      destruct (p1 =? 48)%N; [reflexivity|].
      assert (forall k, csi_final k = false -> (f =? k)%N = false) as Hk.
      { intros k Hk. apply N.eqb_neq. intros ->. congruence. }
      rewrite !Hk by reflexivity. rewrite !andb_false_r. reflexivity.
    + reflexivity.
    + reflexivity.
Qed.

(** ** Every string has exactly one reading *)
Lemma split_final : forall s, Forall (fun p => ~ final p) s
  \/ exists ps f r, s = ps ++ f :: r /\ Forall (fun p => ~ final p) ps /\ final f.
Proof.
  induction s as [|c s IH]; [left; constructor|].
  destruct (csi_final c) eqn:E.
  - right. exists [], c, s. apply csi_final_iff in E. auto.
  - apply csi_final_false in E. destruct IH as [IH|(ps & f & r & -> & Hps & Hf)].
    + left. constructor; assumption.
    + right. exists (c :: ps), f, r. auto.
Qed.

Lemma tokenize_len : forall n s, length s <= n -> exists ts, toks_ok ts /\ render ts = s.
Proof.
  induction n as [|n IH]; intros s Hn.
  { destruct s; [|cbn in Hn; lia]. exists []. cbn. auto. }
  destruct s as [|c s]; [exists []; cbn; auto|]. cbn in Hn.
  destruct (N.eq_dec c 27) as [->|Hc].
  2:{ destruct (IH s) as (ts & Hok & Hr); [lia|].
      exists (Vis c :: ts). cbn. rewrite <- Hr. repeat split; auto; discriminate. }
  destruct s as [|d s].
  { exists [Cut [27%N]]. cbn. repeat split; auto. }
  cbn in Hn.
  destruct ((d =? 91) || (d =? 40))%N eqn:Eo.
  - apply opener_iff in Eo.
    destruct (split_final s) as [Hs|(ps & f & r & -> & Hps & Hf)].
    + exists [Cut (27%N :: d :: s)]. cbn. rewrite app_nil_r. repeat split; auto.
      right. eauto.
    + destruct (IH r) as (ts & Hok & Hr).
      { rewrite app_length in Hn. cbn in Hn. lia. }
      exists (Esc (27%N :: d :: ps ++ [f]) :: ts). cbn. rewrite <- app_assoc. cbn.
      unfold render in Hr. rewrite Hr. repeat split; auto; [|discriminate].
      right. exists d, ps, f. auto.
  - apply opener_false in Eo.
    destruct ((64 <=? d) && (d <=? 95))%N eqn:Er.
    + apply range_iff in Er.
      destruct (IH s) as (ts & Hok & Hr); [lia|].
      exists (Esc [27%N; d] :: ts). cbn. unfold render in Hr. rewrite Hr.
      repeat split; auto; [|discriminate].
      left. exists d. repeat split; auto; try lia. intros ->. apply Eo. left. reflexivity.
    + apply range_false in Er.
      destruct (IH s) as (ts & Hok & Hr); [lia|].
      exists (Odd d :: ts). cbn. unfold render in Hr. rewrite Hr.
      repeat split; auto; discriminate.
Qed.

Lemma tokenize_exists : forall s, exists ts, toks_ok ts /\ render ts = s.
Proof. intros s. exact (tokenize_len (length s) s (le_n _)). Qed.

Lemma render_cons : forall t ts, render (t :: ts) = tok_chars t ++ render ts.
Proof. reflexivity. Qed.

Lemma render_app : forall a b, render (a ++ b) = render a ++ render b.
Proof. intros a b. unfold render. apply flat_map_app. Qed.

Definition adv_tok (t : tok) : nat * nat :=
  match t with
  | Vis _ => (1, 0)
  | Odd _ => (2, 1)
  | t => (length (tok_chars t), length (tok_chars t))
  end.

Lemma adv_render : forall t ts, toks_ok (t :: ts) -> advance_next32 (render (t :: ts)) = adv_tok t.
Proof.
  intros t ts (Ht & Hc & Hts). rewrite render_cons.
  destruct t as [c|b|b|d]; cbn [tok_chars adv_tok].
  - apply adv_vis. exact Ht.
  - apply adv_esc. exact Ht.
  - rewrite (Hc eq_refl). cbn. rewrite app_nil_r. apply adv_cut. exact Ht.
  - apply adv_odd. exact Ht.
Qed.

Lemma tok_first : forall t, tok_ok t ->
  match t with Vis c => tok_chars t = [c] /\ c <> 27%N | _ => exists r, tok_chars t = 27%N :: r end.
Proof.
  intros [c|b|b|d] H; cbn; auto.
  - destruct (esc_head b H) as (b' & ->). eauto.
  - destruct (cut_head b H) as (b' & ->). eauto.
  - eauto.
Qed.

Lemma tok_len_pos : forall t, tok_ok t -> 0 < length (tok_chars t).
Proof.
  intros t H. pose proof (tok_first t H) as F.
  destruct t; cbn [tok_chars] in *; [cbn; lia| | |cbn; lia];
    destruct F as (r & ->); cbn; lia.
Qed.

Lemma render_nonempty : forall t ts, toks_ok (t :: ts) -> render (t :: ts) <> [].
Proof.
  intros t ts (Ht & _) E. apply tok_len_pos in Ht. rewrite render_cons in E.
  destruct (tok_chars t); [cbn in Ht; lia|discriminate].
Qed.

Lemma moved_len : forall t, fst (adv_tok t) = length (tok_chars t).
Proof. intros [c|b|b|d]; reflexivity. Qed.

Lemma skipn_adv : forall t ts, skipn (fst (adv_tok t)) (render (t :: ts)) = render ts.
Proof.
  intros t ts. rewrite moved_len, render_cons.
  rewrite skipn_app, skipn_all, Nat.sub_diag. reflexivity.
Qed.

Lemma reading_unique : forall ts ts', toks_ok ts -> toks_ok ts' -> render ts = render ts' -> ts = ts'.
Proof.
  induction ts as [|t ts IH]; intros [|t' ts'] H H' E.
  - reflexivity.
  - symmetry in E. cbn [render flat_map] in E. exfalso. exact (render_nonempty _ _ H' E).
  - cbn [render flat_map] in E. exfalso. exact (render_nonempty _ _ H E).
  - assert (Ha : adv_tok t = adv_tok t') by
      (rewrite <- (adv_render t ts H), <- (adv_render t' ts' H'), E; reflexivity).
    assert (Hr : render ts = render ts').
    { rewrite <- (skipn_adv t ts), <- (skipn_adv t' ts'), E, Ha. reflexivity. }
    assert (Hc : tok_chars t = tok_chars t').
    { rewrite !render_cons, Hr in E. apply app_inv_tail in E. exact E. }
    assert (ts = ts') as -> by (destruct H as (_ & _ & ?), H' as (_ & _ & ?); auto).
    f_equal. destruct H as (Ht & Hcut & _), H' as (Ht' & Hcut' & _).
    pose proof (tok_first t Ht) as F. pose proof (tok_first t' Ht') as F'.
    destruct t as [c|b|b|d], t' as [c'|b'|b'|d']; cbn [tok_chars] in *;
      repeat match goal with
             | H : _ /\ _ |- _ => destruct H
             | H : exists _, _ |- _ => destruct H
             end; try congruence.
    + exfalso. subst b'. rename b into w.
      destruct Ht as [(d & -> & Hd & Hn)|(d & ps & f & -> & Ho & Hps & Hf)];
        destruct Ht' as [E'|(d' & ps' & E' & Ho' & Hps')]; try discriminate; injection E' as <- E'.
      * destruct Ho' as [->| ->]; lia.
      * subst ps'. apply Forall_app in Hps'. destruct Hps' as [_ Hx]. inversion Hx. contradiction.
    + exfalso. subst b.
      destruct Ht as [(d0 & E' & Hd & Hn)|(d0 & ps & f & E' & Ho & Hps & Hf)]; injection E' as <-.
      * destruct Ht' as [_ Hx]. lia.
      * destruct ps; discriminate.
    + exfalso. subst b'.
      destruct Ht' as [(d & -> & Hd & Hn)|(d & ps & f & -> & Ho & Hps & Hf)];
        destruct Ht as [E'|(d' & ps' & E' & Ho' & Hps')]; try discriminate; injection E' as <- E'.
      * destruct Ho' as [->| ->]; lia.
      * subst ps'. apply Forall_app in Hps'. destruct Hps' as [_ Hx]. inversion Hx. contradiction.
    + exfalso. subst b.
      destruct Ht as [E'|(d0 & ps & E' & Ho & Hps)]; [discriminate|]. injection E' as <- <-.
      destruct Ht' as [Hx _]. contradiction.
    + exfalso. subst b'.
      destruct Ht' as [(d0 & E' & Hd & Hn)|(d0 & ps & f & E' & Ho & Hps & Hf)]; injection E' as <-.
      * destruct Ht as [_ Hx]. lia.
      * destruct ps; discriminate.
    + exfalso. subst b'.
      destruct Ht' as [E'|(d0 & ps & E' & Ho & Hps)]; [discriminate|]. injection E' as <- <-.
      destruct Ht as [Hx _]. contradiction.
Qed.
