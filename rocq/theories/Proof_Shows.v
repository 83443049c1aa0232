(** * Strings of a known width: the predicate [shows] is closed under concatenation *)
From Coq Require Import List Arith NArith ZArith Bool Lia.
From Verif Require Import Base BaseFacts Model_Unicode Model_Bxs Spec_Str
  Proof_Str Proof_Bxs Proof_BxsOps Proof_BxsMore.
Import ListNotations.

Lemma char_cols_term : forall U, uctab_ok U -> forall c, char_cols U c = term_width U c.
Proof.
  intros U HU c. unfold char_cols, term_width.
  destruct (is_ascii_printable c) eqn:E.
  - rewrite (ok_width _ HU c E). destruct (N.eqb c 9); reflexivity.
  - change char_tab with 9%N. destruct (N.eqb c 9); [reflexivity|]. lia.
Qed.

Lemma columns_ext : forall f g ts, (forall c, f c = g c) -> columns f ts = columns g ts.
Proof.
  intros f g ts H. unfold columns. induction (visible ts) as [|c l IH]; [reflexivity|].
  cbn. rewrite IH, H. reflexivity.
Qed.

Section Shows.
Variable U : uctab.
Hypothesis HU : uctab_ok U.

Definition closedU (ts : list tok) : Prop := closed ts /\ allowed U ts /\ tabless ts.

Lemma shows_closed : forall w s, shows U w s <->
  exists ts, closedU ts /\ render ts = s /\ columns (char_cols U) ts = w.
Proof.
  intros w s. split.
  - intros (ts & [Hok Hr] & Hk & Hc & Ha & Ht & Hw). exists ts.
    rewrite (columns_ext _ _ ts (char_cols_term U HU)). unfold closedU, closed, clean. auto 10.
  - intros (ts & (([Hok Hk] & Hc) & Ha & Ht) & Hr & Hw). exists ts.
    rewrite (columns_ext _ _ ts (char_cols_term U HU)) in Hw. unfold reads, known. auto 10.
Qed.

Lemma closedU_good : forall ts, closedU ts -> good U ts.
Proof. intros ts ([Hc _] & Ha & Ht). split; [exact Hc|split; assumption]. Qed.

Lemma closedU_app : forall a b, closedU a -> closedU b -> closedU (a ++ b).
Proof.
  intros a b (Ha & Hb & Hc) (Ha' & Hb' & Hc'). split; [apply closed_app; assumption|].
  split; [apply allowed_app|apply tabless_app]; auto.
Qed.

Lemma closedU_app_inv : forall a b, closedU (a ++ b) -> closedU a /\ closedU b.
Proof.
  intros a b (Hc & Ha & Ht). apply closed_app_inv in Hc as [? ?]. apply allowed_app in Ha as [? ?].
  apply tabless_app in Ht as [? ?]. unfold closedU. auto 10.
Qed.

Lemma closedU_spaces : forall n, closedU (plain (repeat 32%N n)).
Proof.
  intros n. split; [|split].
  - apply closed_plain. intros Hx. apply repeat_spec in Hx. discriminate.
  - unfold allowed. rewrite visible_plain. apply Forall_forall. intros x Hx. apply repeat_spec in Hx. subst x.
    apply (allowed_32 U HU).
  - unfold tabless. rewrite visible_plain. intros Hx. apply repeat_spec in Hx. discriminate.
Qed.

Lemma shows_app : forall w1 w2 a b, shows U w1 a -> shows U w2 b -> shows U (w1 + w2) (a ++ b).
Proof.
  intros w1 w2 a b Ha Hb. apply shows_closed in Ha as (ta & Ha & <- & <-). apply shows_closed in Hb as (tb & Hb & <- & <-).
  apply shows_closed. exists (ta ++ tb). split; [apply closedU_app; assumption|].
  rewrite render_app, columns_app. auto.
Qed.

Lemma shows_spaces : forall n, shows U n (repeat 32%N n).
Proof.
  intros n. apply shows_closed. exists (plain (repeat 32%N n)). split; [apply closedU_spaces|].
  rewrite render_plain, columns_spaces. auto.
Qed.

Lemma shows_nil : shows U 0 [].
Proof. exact (shows_spaces 0). Qed.

Lemma shows_concat : forall ws ss, Forall2 (shows U) ws ss -> shows U (sum ws) (concat ss).
Proof.
  intros ws ss H. induction H as [|w s ws ss Hw _ IH]; [exact shows_nil|].
  cbn [concat]. rewrite sum_cons. apply shows_app; assumption.
Qed.

Lemma shows_bx : forall w s, shows U w s -> exists ts, closedU ts /\ render ts = s /\
  bxs_from_unicode U s = Ok (bx U ts) /\ num_columns (bx U ts) = w.
Proof.
  intros w s H. apply shows_closed in H as (ts & Hc & <- & Hw). exists ts. split; [exact Hc|]. split; [reflexivity|].
  split; [apply from_unicode_good; [exact HU|apply closedU_good; exact Hc]|exact Hw].
Qed.

Lemma shows_from : forall w s, shows U w s -> exists b, bxs_from_unicode U s = Ok b /\ memory b = s /\
  num_columns b = w /\ num_chars b = length s.
Proof.
  intros w s H. destruct (shows_bx w s H) as (ts & _ & <- & Hb & Hw). exists (bx U ts).
  rewrite Hb. auto.
Qed.

Lemma shows_inj : forall w w' s, shows U w s -> shows U w' s -> w = w'.
Proof.
  intros w w' s H H'. destruct (shows_from w s H) as (b & Hb & _ & Hw & _).
  destruct (shows_from w' s H') as (b' & Hb' & _ & Hw' & _). rewrite Hb in Hb'. injection Hb' as <-. congruence.
Qed.
End Shows.
