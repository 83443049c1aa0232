(** * Loading one design of a file by name *)
From Coq Require Import Ascii String List Arith NArith ZArith Bool Lia.
From Verif Require Import Base BaseFacts Model_Unicode Model_Bxs Model_Shape Spec_Str Spec_Design Model_Query Model_Discovery Model_Parser Spec_Parser Spec_Grammar Spec_Query Proof_Query
  Proof_Parser Proof_Parser2 Proof_Isolated Proof_Fast.
Import ListNotations.
Local Open Scope nat_scope.
Local Open Scope list_scope.

Section Chosen.
Variable U : uctab.
Variable beyond : res sentry.
Variable po : popts.
Variable n0 : list N.
Hypothesis HC : choice po = Some n0.
Variable eol : list N.
Variable children : list cdesign.
Variable fopen_ok : list N -> bool.
Variable sur : surroundings.
Notation do_stmt := (do_stmt U beyond po eol children fopen_ok sur).
Notation do_stmts := (do_stmts U beyond po eol children fopen_ok sur).
Notation parse_config_file := (parse_config_file U beyond po eol children fopen_ok sur).
Notation own := (own U beyond eol children).

(** the statement is passed over *)
Definition passed (s : stmt) : Prop := match s with s_parent _ => False | _ => forall x, In x (names_in s) -> same_nocase n0 x = false end.
Definition fresh (st : pstate) : Prop := idle st /\ b_designs st = [] /\ b_parents st = [].
Lemma after_error_parents : forall st, b_parents (after_error st) = b_parents st.
Proof. intros st. unfold after_error. destruct (_ && _); reflexivity. Qed.
Lemma begun_at : forall st n al, idle st -> b_designs st = [] ->
  add_aliases children st al = (with_cur (set_aliases (kept_aliases children al) (curdes st)) st, true) /\
  with_cur (set_name (Some n) (curdes (with_cur (set_aliases (kept_aliases children al) (curdes st)) st)))
     (with_flags false false (with_cur (set_aliases (kept_aliases children al) (curdes st)) st)) = put (with_flags false false st) (begun n (kept_aliases children al)).
Proof.
  intros st n al I D. destruct (idle_is st I) as [Ial Ist]. split.
  - rewrite aliases_clear, Ial; [reflexivity|]. intros a _. unfold design_name_exists. rewrite D. reflexivity.
  - rewrite Ist. reflexivity.
Qed.
Lemma pass_one : forall st s, fresh st -> passed s -> exists st', do_stmt st s = Ok (RC_SUCCESS st') /\ fresh st'.
Proof.
  intros st s (I & D & P) Hs. destruct s as [f|n al layout fin|al|]; cbn [passed names_in] in Hs; [destruct Hs|..].
  - destruct (begun_at st n al I D) as [Ea Eb]. cbn [Model_Parser.do_stmt]. rewrite Ea. cbn [negb]. unfold action_start_parsing_design. rewrite Eb.
    assert (N : design_needed po (put (with_flags false false st) (begun n (kept_aliases children al))) = false).
    { unfold design_needed. rewrite HC. unfold design_has_name, design_has_alias. cbn [put begun curdes set_name set_aliases c_name c_aliases].
      rewrite (Hs n (or_introl eq_refl)). cbn [orb]. destruct (existsb _ _) eqn:E; [|reflexivity]. apply existsb_exists in E as (y & Hy & E).
      apply filter_In in Hy as [Hy _]. rewrite (Hs y (or_intror Hy)) in E. discriminate E. }
    rewrite N. cbn [negb]. eexists. split; [reflexivity|].
    match goal with |- fresh (after_error ?x) => destruct (after_error_idle x) as [A B]; [left; exists (Some n), (kept_aliases children al); repeat split|] end.
    split; [exact A|]. split; [rewrite B; exact D|rewrite after_error_parents; exact P].
  - eexists. split; [reflexivity|]. destruct (aliases_shape children al st) as (al' & E). rewrite E.
    destruct (idle_is st I) as [_ Ist]. destruct I as (_ & I1 & I2 & I3).
    match goal with |- fresh (after_error ?x) => destruct (after_error_idle x) as [A B]; [left; exists (c_name (curdes st)), al'|] end.
    { split; [|auto]. rewrite Ist. reflexivity. }
    split; [exact A|]. split; [rewrite B; exact D|rewrite after_error_parents; exact P].
  - eexists. split; [reflexivity|]. destruct (after_error_idle1 st I) as [A B]. split; [exact A|]. split; [rewrite B; exact D|rewrite after_error_parents; exact P].
Qed.
Lemma take_one : forall st s d, fresh st -> own s = Ok (Some d) -> design_has_name d n0 = true ->
  exists st', do_stmt st s = Ok (RC_ACCEPT st') /\ b_designs st' = [d] /\ b_parents st' = [].
Proof.
  intros st s d (I & D & P) H Hd. destruct s as [f|n al layout fin|al|]; try discriminate H. cbn [Proof_Fast.own] in H.
  destruct (is_nil layout) eqn:El; [discriminate H|].
  destruct (do_items U beyond eol (begun n (kept_aliases children al)) layout) as [[st3| | |st3]| | | |] eqn:Ei; cbn [bind] in H; try discriminate H.
  destruct (negb (same_nocase n fin) || (num_mandatory st3 <? 3)) eqn:X; [discriminate H|]. injection H as <-. apply orb_false_iff in X as [X1 X2].
  destruct (begun_at st n al I D) as [Ea Eb]. cbn [Model_Parser.do_stmt]. rewrite Ea. cbn [negb]. unfold action_start_parsing_design. rewrite Eb.
  assert (N : design_needed po (put (with_flags false false st) (begun n (kept_aliases children al))) = true).
  { unfold design_needed. rewrite HC. unfold design_has_name, design_has_alias in *. cbn [put begun curdes set_name set_aliases c_name c_aliases].
    pose proof (items_kept _ _ _ _ _ _ Ei) as (_ & A & B & _). rewrite A, B in Hd. exact Hd. }
  rewrite N. cbn [negb]. rewrite El, put_items, Ei. cbn [outmap rcmap bind]. unfold action_add_design. rewrite X1. change (num_mandatory (put (with_flags false false st) st3)) with (num_mandatory st3).
  rewrite X2. unfold design_name_exists. cbn [put b_designs with_flags]. rewrite D. cbn [existsb]. unfold full_parse_required. rewrite HC.
  eexists. split; [reflexivity|]. split; [reflexivity|exact P].
Qed.
Theorem chosen : forall before s d after, Forall passed before -> own s = Ok (Some d) -> design_has_name d n0 = true ->
  parse_config_file (Some (before ++ s :: after)) = Ok ([d], []).
Proof.
  intros before s d after F H Hd. cbn [Model_Parser.parse_config_file].
  assert (K : forall st, fresh st -> exists st', do_stmts st (before ++ s :: after) = Ok (RC_ACCEPT st') /\ b_designs st' = [d] /\ b_parents st' = []).
  { induction F as [|a l Ha F IH]; intros st Hst; cbn [app Model_Parser.do_stmts].
    - destruct (take_one st s d Hst H Hd) as (st' & E & R). exists st'. rewrite E. cbn [bind]. split; [reflexivity|exact R].
    - destruct (pass_one st a Hst Ha) as (st1 & E & H1). rewrite E. cbn [bind]. apply IH. exact H1. }
  destruct (K pstate0) as (st' & E & D & P); [repeat split|]. rewrite E. cbn [bind]. rewrite D, P. reflexivity.
Qed.
Theorem not_there : forall l, Forall passed l -> parse_config_file (Some l) = Ok ([], []).
Proof.
  intros l F. cbn [Model_Parser.parse_config_file].
  assert (K : forall st, fresh st -> exists st', do_stmts st l = Ok (RC_SUCCESS st') /\ fresh st').
  { induction F as [|a l Ha F IH]; intros st Hst; cbn [Model_Parser.do_stmts]; [exists st; split; [reflexivity|exact Hst]|].
    destruct (pass_one st a Hst Ha) as (st1 & E & H1). rewrite E. cbn [bind]. apply IH. exact H1. }
  destruct (K pstate0) as (st' & E & _ & D & P); [repeat split|]. rewrite E. cbn [bind]. rewrite D, P. destruct (_ && _); reflexivity.
Qed.
End Chosen.

(** ** a file with many designs that are all in order *)
Section Among.
Variable U : uctab.
Variable beyond : res sentry.
Variable eol : list N.
Variable fopen_ok : list N -> bool.
Variable sur : surroundings.
Notation alone := (alone U beyond (mkPopts None true) eol [] fopen_ok sur).
Definition is_box (s : stmt) : bool := match s with s_box _ _ _ _ => true | _ => false end.
Lemma kept_all : forall al, kept_aliases [] al = al.
Proof. intros al. unfold kept_aliases. induction al as [|a al IH]; [reflexivity|]. cbn. f_equal. exact IH. Qed.
Lemma alone_own_names : forall s d, alone s d -> forall x, In x (names_in s) -> called d x.
Proof.
  intros s d H x Hx. apply (own_alone U beyond (mkPopts None true) eq_refl) in H. destruct s as [f|n al layout fin|al|]; try discriminate H. cbn [own] in H.
  destruct (is_nil layout); [discriminate H|]. rewrite kept_all in H.
  destruct (do_items U beyond eol (begun n al) layout) as [[st3| | |st3]| | | |] eqn:Ei; cbn [bind] in H; try discriminate H.
  destruct (_ || _); [discriminate H|]. injection H as <-. pose proof (items_kept _ _ _ _ _ _ Ei) as (_ & A & B & _). cbn [begun curdes set_name set_aliases c_name c_aliases] in A, B.
  apply has_name_ok. unfold design_has_name, design_has_alias. rewrite A, B. cbn [names_in] in Hx. destruct Hx as [->|Hx].
  - assert (E : same_nocase x x = true) by (apply same_ok, nocase_refl). rewrite E. reflexivity.
  - apply orb_true_iff. right. apply existsb_exists. exists x. split; [exact Hx|]. apply same_ok, nocase_refl.
Qed.
Lemma called_in : forall s d n, alone s d -> called d n -> exists x, In x (names_in s) /\ nocase x n.
Proof.
  intros s d n H [(m & E & C)|(a & Ha & C)]; pose proof (alone_names _ _ _ _ _ _ _ s d H) as A.
  - exists m. split; [|exact C]. apply A. rewrite E. left. reflexivity.
  - exists a. split; [|exact C]. apply A. apply in_or_app. right. exact Ha.
Qed.
Lemma chosen_among : forall l s d n all, forallb is_box l = true -> ForallOrdPairs unrelated l -> In s l -> alone s d -> called d n ->
  parse_config_file U beyond (mkPopts (Some n) all) eol [] fopen_ok sur (Some l) = Ok ([d], []).
Proof.
  intros l s d n all B P Hs H C. apply in_split in Hs as (a & b & ->). apply (chosen U beyond (mkPopts (Some n) all) n eq_refl).
  - destruct (called_in s d n H C) as (y & Hy & Cy). apply Forall_forall. intros s' Hs'.
    assert (R : unrelated s' s). { clear -P Hs'. induction a as [|a0 a IH]; [destruct Hs'|]. cbn [app] in P. inversion P as [|? ? P1 P2]; subst. destruct Hs' as [->|Hs']; [|auto].
      apply Forall_app in P1 as [_ P1]. inversion P1; subst. assumption. }
    rewrite forallb_app in B. apply andb_true_iff in B as [B _]. rewrite forallb_forall in B. specialize (B s' Hs'). destruct s' as [f|n' al' layout' fin'|al'|]; try discriminate B.
    cbn [passed]. intros x Hx. destruct (same_nocase n x) eqn:E; [|reflexivity]. apply same_ok in E.
    pose proof (proj2 (same_ok y x) (nocase_trans _ _ _ Cy E)) as F. rewrite (R y x Hy Hx) in F. discriminate F.
  - apply (own_alone U beyond (mkPopts None true) eq_refl eol [] fopen_ok sur). exact H.
  - apply has_name_ok. exact C.
Qed.
Lemma none_among : forall l ds n all, Forall2 alone l ds -> (forall d, In d ds -> ~ called d n) ->
  parse_config_file U beyond (mkPopts (Some n) all) eol [] fopen_ok sur (Some l) = Ok ([], []).
Proof.
  intros l ds n all F H. apply (not_there U beyond (mkPopts (Some n) all) n eq_refl). induction F as [|s d l ds Hs F IH]; constructor; [|apply IH; intros d' Hd; apply H; right; exact Hd].
  assert (K : exists a b c e, s = s_box a b c e). { apply (own_alone U beyond (mkPopts None true) eq_refl) in Hs. destruct s; try discriminate Hs. eauto. }
  destruct K as (a & b & c & e & ->). cbn [passed]. intros x Hx. destruct (same_nocase n x) eqn:E; [|reflexivity]. apply same_ok in E. elim (H d (or_introl eq_refl)).
  eapply called_nocase; [exact (alone_own_names _ _ Hs x Hx)|]. apply nocase_sym. exact E.
Qed.
End Among.
