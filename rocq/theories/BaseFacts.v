(** * Facts about the helpers in Base *)
From Coq Require Import List Arith NArith ZArith Bool Lia.
From Verif Require Import Base.
Import ListNotations.

Lemma sum_cons : forall x l, sum (x :: l) = x + sum l.
Proof. reflexivity. Qed.

Lemma sum_app : forall a b, sum (a ++ b) = sum a + sum b.
Proof.
  induction a as [|x a IH]; intros b; [reflexivity|].
  cbn [app]. rewrite !sum_cons, IH. lia.
Qed.

Lemma sum_repeat : forall x n, sum (repeat x n) = n * x.
Proof.
  induction n as [|n IH]; [reflexivity|]. cbn [repeat]. rewrite sum_cons, IH. lia.
Qed.

Lemma maxl_cons : forall x l, maxl (x :: l) = Nat.max x (maxl l).
Proof. reflexivity. Qed.

Lemma maxl_ge : forall x l, In x l -> x <= maxl l.
Proof.
  induction l as [|y l IH]; [intros []|]. rewrite maxl_cons.
  intros [->|H]; [lia|]. specialize (IH H). lia.
Qed.

Lemma bind_ok : forall (A B : Type) (r : res A) (k : A -> res B) b,
  bind r k = Ok b -> exists a, r = Ok a /\ k a = Ok b.
Proof. intros A B r k b H. destruct r as [a| | | |]; cbn in H; try discriminate. eauto. Qed.

Lemma must_ok : forall (A : Type) (r : res A) a, must r = Ok a <-> r = Ok a.
Proof. intros A r a. destruct r; cbn; split; congruence. Qed.

Lemma subz_ok : forall a b n, subz a b = Ok n <-> (b <= a /\ n = a - b).
Proof.
  intros a b n. unfold subz. destruct (Nat.ltb_spec a b); split.
  - discriminate.
  - lia.
  - intros E. injection E as <-. lia.
  - intros [_ ->]. reflexivity.
Qed.

Lemma subz_le : forall a b, b <= a -> subz a b = Ok (a - b).
Proof. intros a b H. apply subz_ok. auto. Qed.

Lemma rd_ok : forall (A : Type) (l : list A) i a, rd l i = Ok a <-> nth_error l i = Some a.
Proof. intros A l i a. unfold rd. destruct (nth_error l i); split; congruence. Qed.

Lemma rd_lt : forall (A : Type) (l : list A) i d, i < length l -> rd l i = Ok (nth i l d).
Proof. intros A l i d H. apply rd_ok. apply nth_error_nth'. exact H. Qed.

Lemma rdc_lt : forall l i, i < length l -> rdc l i = Ok (nth i l 0%N).
Proof.
  intros l i H. unfold rdc. destruct (Nat.eqb_spec i (length l)); [lia|]. apply rd_lt. exact H.
Qed.

Lemma mapM_ok : forall (A B : Type) (f : A -> res B) l bs,
  mapM f l = Ok bs <-> Forall2 (fun a b => f a = Ok b) l bs.
Proof.
  intros A B f. induction l as [|a l IH]; intros bs; cbn [mapM].
  - split; intros H.
    + injection H as <-. constructor.
    + inversion H. reflexivity.
  - split; intros H.
    + apply bind_ok in H as (b & Hb & H). apply bind_ok in H as (bs' & Hbs & H).
      injection H as <-. constructor; [assumption|]. apply IH. assumption.
    + inversion H as [|x y l' l'' Hb Hbs]; subst. rewrite Hb. cbn [bind].
      apply IH in Hbs. rewrite Hbs. reflexivity.
Qed.

Lemma mapM_pure : forall (A B : Type) (f : A -> res B) (g : A -> B) l,
  (forall a, In a l -> f a = Ok (g a)) -> mapM f l = Ok (map g l).
Proof.
  intros A B f g. induction l as [|a l IH]; intros H; [reflexivity|].
  cbn [mapM map]. rewrite (H a (or_introl eq_refl)). cbn [bind].
  rewrite IH by (intros x Hx; apply H; right; exact Hx). reflexivity.
Qed.

Lemma mapM_length : forall (A B : Type) (f : A -> res B) l bs, mapM f l = Ok bs -> length bs = length l.
Proof.
  intros A B f l bs H. apply mapM_ok in H.
  induction H as [|a b l bs _ _ IH]; cbn; congruence.
Qed.

Lemma mapM_ext : forall (A B : Type) (f g : A -> res B) l,
  (forall a, In a l -> f a = g a) -> mapM f l = mapM g l.
Proof.
  intros A B f g. induction l as [|a l IH]; intros H; [reflexivity|].
  cbn [mapM]. rewrite (H a (or_introl eq_refl)). rewrite IH; [reflexivity|].
  intros x Hx. apply H. right. exact Hx.
Qed.

Lemma seq_nth_map : forall (A : Type) (l : list A) d, map (fun i => nth i l d) (seq 0 (length l)) = l.
Proof.
  intros A l d. induction l as [|a l IH]; [reflexivity|].
  cbn [length seq map nth]. f_equal. rewrite <- seq_shift, map_map. exact IH.
Qed.
