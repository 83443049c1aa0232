(** * What the parts of a design in a configuration file mean *)
From Coq Require Import Ascii String List Arith NArith ZArith Bool Lia.
From Verif Require Import Base BaseFacts Model_Unicode Model_Bxs Model_Shape Spec_Str Proof_Str Proof_Bxs Proof_BxsOps Proof_BxsMore Proof_Shows Proof_Term Proof_Body
  Spec_Design Model_Query Spec_Query Proof_Query Spec_Cmdline Proof_Options Model_Discovery Model_Parser Spec_Parser Proof_Parser Proof_Parser2 Proof_Tags Proof_Isolated Spec_Layout.
Import ListNotations.
Local Open Scope nat_scope.
Local Open Scope list_scope.

Lemma NoDup_app_intro : forall A (a b : list A), NoDup a -> NoDup b -> (forall x, In x a -> ~ In x b) -> NoDup (a ++ b).
Proof.
  intros A a b Ha Hb H. induction Ha as [|x a Hx Ha IH]; [exact Hb|]. cbn [app]. constructor.
  - intros F. apply in_app_or in F as [F|F]; [contradiction|]. exact (H x (or_introl eq_refl) F).
  - apply IH. intros y Hy. apply H. right. exact Hy.
Qed.

Section Layout.
Variable U : uctab.
Hypothesis HU : uctab_ok U.
Variable beyond : res sentry.
Variable eol : list N.
Notation do_item := (do_item U beyond eol).
Notation do_items := (do_items U beyond eol).
Notation lit := Model_Discovery.lit.

Lemma items_cons : forall i l st st', do_items st (i :: l) = Ok (RC_SUCCESS st') -> exists s, do_item st i = Ok (RC_SUCCESS s) /\ do_items s l = Ok (RC_SUCCESS st').
Proof. intros i l st st' H. cbn [Model_Parser.do_items] in H. apply then_ok in H as (s & [H1|H1] & H2); [eauto|elim (do_item_accept _ _ _ _ _ _ H1)]. Qed.

(** ** One setting *)
Section One.
Variables (A B : Type) (G : item -> Prop) (R : item -> list A -> Prop) (f : A -> option B) (p : cdesign -> B).
Hypothesis step : forall st i st', G i -> do_item st i = Ok (RC_SUCCESS st') -> exists x, R i x /\ latest f x (p (curdes st)) (p (curdes st')).
Lemma by_items : forall l st st', Forall G l -> do_items st l = Ok (RC_SUCCESS st') -> exists ls, Forall2 R l ls /\ latest f (concat ls) (p (curdes st)) (p (curdes st')).
Proof.
  induction l as [|i l IH]; intros st st' HG H.
  - injection H as <-. exists []. split; [constructor|]. right. split; [intros y []|reflexivity].
  - inversion HG as [|? ? G1 G2]; subst. apply items_cons in H as (s & H1 & H2). destruct (step _ _ _ G1 H1) as (x & X1 & X2). destruct (IH _ _ G2 H2) as (ls & L1 & L2).
    exists (x :: ls). split; [constructor; assumption|]. cbn [concat]. apply latest_fold in X2. apply latest_fold in L2. apply latest_fold. unfold last_of in *. rewrite fold_left_app, <- X2. exact L2.
Qed.
End One.
Lemma latest_none : forall A B (f : A -> option B) b, latest f [] b b.
Proof. intros A B f b. right. split; [intros y []|reflexivity]. Qed.
Lemma latest_one : forall A B (f : A -> option B) x d b, f x = Some b -> latest f [x] d b.
Proof. intros A B f x d b H. left. exists [], x, []. split; [reflexivity|]. split; [exact H|intros y []]. Qed.

(** what an entry does *)
Definition keyword_effect (c : cdesign) (k v : list N) (c' : cdesign) : Prop :=
  exists b, bxs_from_unicode U v = Ok b /\
    (nocase k (lit "author") /\ c' = set_author (Some b) c \/ nocase k (lit "designer") /\ c' = set_designer (Some b) c \/
     nocase k (lit "tags") /\ (exists t, tag_record U (c_tags c) (Some b) = Ok t /\ c' = set_tags t c) \/
     nocase k (lit "indent") /\ (exists w, In w ["text"; "box"; "none"]%string /\ nocase (ascii b) (lit w)) /\ c' = set_indentmode (hd 0%N (ascii b)) c).
Lemma tok_some : forall s b, string_tok U s = Ok (Some b) -> bxs_from_unicode U s = Ok b.
Proof. intros s b H. unfold string_tok, utf8_to_bxs in H. destruct (bxs_from_unicode U s) as [x| | | |]; try discriminate H. injection H as ->. reflexivity. Qed.
Lemma keyword_ok : forall st k v st', do_item st (i_keyword k v) = Ok (RC_SUCCESS st') -> exists c, keyword_effect (curdes st) k v c /\ curdes st' = c.
Proof.
  intros st k v st' H. cbn [Model_Parser.do_item] in H. destruct (string_tok U v) as [b| | | |] eqn:Eb; cbn [bind] in H; try discriminate H.
  apply then_ok in H as (c & [H1|H1] & H2); [|elim (record_keyword_accept _ _ _ _ _ H1)]. injection H2 as <-. exists c. split; [|reflexivity].
  unfold action_record_keyword in H1. destruct (negb _); [discriminate H1|]. destruct b as [b|]; [|discriminate H1]. exists b. split; [apply tok_some; exact Eb|].
  destruct (same_nocase k (lit "author")) eqn:E1; [injection H1 as <-; left; split; [apply same_ok; exact E1|reflexivity]|].
  destruct (same_nocase k (lit "designer")) eqn:E2; [injection H1 as <-; right; left; split; [apply same_ok; exact E2|reflexivity]|].
  destruct (same_nocase k (lit "tags")) eqn:E3.
  { right. right. left. split; [apply same_ok; exact E3|]. destruct (tag_record U (c_tags (curdes st)) (Some b)) as [t| | | |]; cbn [bind] in H1; try discriminate H1. injection H1 as <-. eauto. }
  destruct (same_nocase k (lit "indent")) eqn:E4; [|discriminate H1]. right. right. right. split; [apply same_ok; exact E4|].
  destruct (existsb _ _) eqn:Ee; [|discriminate H1]. injection H1 as <-. split; [|reflexivity]. apply existsb_exists in Ee as (w & Hw & Ee). apply in_map_iff in Hw as (x & <- & Hx). exists x. split; [exact Hx|apply same_ok; exact Ee].
Qed.
(** the entries without a keyword leave most settings alone *)
Definition other_effect (c : cdesign) (i : item) (c' : cdesign) : Prop :=
  match i with
  | i_keyword k v => False
  | i_tags l => exists t, tag_list U (c_tags c) l = Ok t /\ c' = set_tags t c
  | i_sample s => exists x, c_sample c = None /\ c' = set_sample (Some x) c
  | i_shapes l => exists sh a b d, c' = set_sizes a b d (set_shape sh c)
  | i_elastic l => c' = set_shape (fold_left mark_elastic l (c_shape c)) c
  | i_replace s r m => exists bs br, bxs_from_unicode U s = Ok bs /\ bxs_from_unicode U r = Ok br /\ c' = set_rules (c_reprules c ++ [mkRule bs br m]) (c_revrules c) c
  | i_reverse s r m => exists bs br, bxs_from_unicode U s = Ok bs /\ bxs_from_unicode U r = Ok br /\ c' = set_rules (c_reprules c) (c_revrules c ++ [mkRule bs br m]) c
  | i_padding l => c' = set_padding (fold_left action_padding_entry l (c_padding c)) c
  | i_ignored => c' = c
  | i_bad => False
  end.
Lemma shapes_list_cur : forall l st st', shapes_list U st l = Ok (RC_SUCCESS st') -> exists sh, curdes st' = set_shape sh (curdes st).
Proof.
  induction l as [|[i d] l IH]; intros st st' H; cbn [shapes_list] in H.
  - injection H as <-. exists (c_shape (curdes st)). destruct (curdes st). reflexivity.
  - apply then_ok in H as (s & _ & H). destruct (isempty _); [|discriminate H]. apply IH in H as (sh & H). exists sh. rewrite H. reflexivity.
Qed.
Lemma other_ok : forall st i st', do_item st i = Ok (RC_SUCCESS st') -> (exists k v, i = i_keyword k v) \/ other_effect (curdes st) i (curdes st').
Proof.
  intros st i st' H. destruct i as [k v|l|s|l|l|s r m|s r m|l| |]; [left; eauto|right; cbn [Model_Parser.do_item other_effect] in *..].
  - destruct (tag_list U _ l) as [t| | | |]; cbn [bind] in H; try discriminate H. injection H as <-. exists t. split; reflexivity.
  - destruct (sample_tok U s) as [b| | | |]; cbn [bind] in H; try discriminate H. unfold action_sample_block in H. destruct (c_sample (curdes st)) eqn:Es; [discriminate H|]. destruct b as [b|]; [|discriminate H].
    destruct (utf8_to_bxs _ _) as [[line|]| | | |]; cbn [bind] in H; try discriminate H. destruct (num_chars line =? 0); [discriminate H|].
    destruct (negb _); [discriminate H|]. injection H as <-. exists line. split; reflexivity.
  - apply then_ok in H as (st1 & H1 & H2). assert (E : exists sh, curdes st1 = set_shape sh (curdes st)).
    { destruct H1 as [H1|H1]; [exact (shapes_list_cur _ _ _ H1)|]. exfalso. clear -H1. revert st H1. induction l as [|[i d] l IH]; intros st H1; cbn [shapes_list] in H1; [discriminate H1|].
      apply then_no_accept in H1 as (s & _ & H). destruct (isempty _); [|discriminate H]. exact (IH _ H). }
    destruct E as (sh & E). unfold action_finalize_shapes in H2. destruct (_ <? 1); [discriminate H2|]. apply then_ok in H2 as (sh' & _ & H2). destruct (negb _); [discriminate H2|].
    destruct (_ && _); [discriminate H2|]. injection H2 as <-. exists sh'. do 3 eexists. cbn [with_counts with_cur curdes]. rewrite E. reflexivity.
  - unfold action_elastic in H. destruct (_ && _); [discriminate H|]. injection H as <-. reflexivity.
  - destruct (string_tok U s) as [b| | | |] eqn:E1; cbn [bind] in H; try discriminate H. destruct (string_tok U r) as [b'| | | |] eqn:E2; cbn [bind] in H; try discriminate H.
    destruct b as [b|]; [|discriminate H]. destruct b' as [b'|]; [|discriminate H]. injection H as <-. exists b, b'. repeat split; apply tok_some; assumption.
  - destruct (string_tok U s) as [b| | | |] eqn:E1; cbn [bind] in H; try discriminate H. destruct (string_tok U r) as [b'| | | |] eqn:E2; cbn [bind] in H; try discriminate H.
    destruct b as [b|]; [|discriminate H]. destruct b' as [b'|]; [|discriminate H]. injection H as <-. exists b, b'. repeat split; apply tok_some; assumption.
  - injection H as <-. reflexivity.
  - injection H as <-. reflexivity.
  - discriminate H.
Qed.
(** a setting that only one keyword changes *)
Lemma word_apart : forall k a b, nocase k (lit a) -> same_nocase (lit a) (lit b) = false -> ~ nocase k (lit b).
Proof. intros k a b H E F. apply same_ok in H. apply same_ok in F. rewrite (apart _ _ _ H E) in F. discriminate F. Qed.
Lemma dc_author_ok : forall l st st', do_items st l = Ok (RC_SUCCESS st') -> exists ls, Forall2 (keyworded "author") l ls /\ latest (fun v => Some (Some v)) (concat ls) (option_map memory (c_author (curdes st))) (option_map memory (c_author (curdes st'))).
Proof.
  intros l st st' H. apply (by_items _ _ (fun _ => True) (keyworded "author") (fun v => Some (Some v)) (fun c => option_map memory (c_author c))) in H; [exact H| |apply Forall_forall; auto].
  clear. intros st i st' _ H. destruct (other_ok _ _ _ H) as [(k & v & ->)|O].
  - apply keyword_ok in H as (c & (b & Eb & Hc) & ->). apply from_unicode_len in Eb as [Eb _]. destruct Hc as [(K & ->)|[(K & ->)|[(K & t & _ & ->)|(K & _ & ->)]]].
    + exists [v]. split; [left; auto|]. apply latest_one. cbn. rewrite Eb. reflexivity.
    + exists []. split; [right; split; [exact (word_apart _ "designer" "author" K eq_refl)|reflexivity]|apply latest_none].
    + exists []. split; [right; split; [exact (word_apart _ "tags" "author" K eq_refl)|reflexivity]|apply latest_none].
    + exists []. split; [right; split; [exact (word_apart _ "indent" "author" K eq_refl)|reflexivity]|apply latest_none].
  - exists []. destruct i; cbn [other_effect] in O; try contradiction O; (split; [reflexivity|]);
      repeat match goal with H : exists _, _ |- _ => destruct H | H : _ /\ _ |- _ => destruct H end; match goal with H : curdes st' = _ |- _ => rewrite H end; apply latest_none.
Qed.
Lemma dc_designer_ok : forall l st st', do_items st l = Ok (RC_SUCCESS st') -> exists ls, Forall2 (keyworded "designer") l ls /\ latest (fun v => Some (Some v)) (concat ls) (option_map memory (c_designer (curdes st))) (option_map memory (c_designer (curdes st'))).
Proof.
  intros l st st' H. apply (by_items _ _ (fun _ => True) (keyworded "designer") (fun v => Some (Some v)) (fun c => option_map memory (c_designer c))) in H; [exact H| |apply Forall_forall; auto].
  clear. intros st i st' _ H. destruct (other_ok _ _ _ H) as [(k & v & ->)|O].
  - apply keyword_ok in H as (c & (b & Eb & Hc) & ->). apply from_unicode_len in Eb as [Eb _]. destruct Hc as [(K & ->)|[(K & ->)|[(K & t & _ & ->)|(K & _ & ->)]]].
    + exists []. split; [right; split; [exact (word_apart _ "author" "designer" K eq_refl)|reflexivity]|apply latest_none].
    + exists [v]. split; [left; auto|]. apply latest_one. cbn. rewrite Eb. reflexivity.
    + exists []. split; [right; split; [exact (word_apart _ "tags" "designer" K eq_refl)|reflexivity]|apply latest_none].
    + exists []. split; [right; split; [exact (word_apart _ "indent" "designer" K eq_refl)|reflexivity]|apply latest_none].
  - exists []. destruct i; cbn [other_effect] in O; try contradiction O; (split; [reflexivity|]);
      repeat match goal with H : exists _, _ |- _ => destruct H | H : _ /\ _ |- _ => destruct H end; match goal with H : curdes st' = _ |- _ => rewrite H end; apply latest_none.
Qed.
Lemma printable_ascii : forall v b, Forall (fun c => 32 <= c < 127)%N v -> bxs_from_unicode U v = Ok b -> ascii b = v.
Proof.
  intros v b H Hb. assert (P : plain_text v) by (eapply Forall_impl; [|exact H]; intros c Hc; cbv beta in Hc; repeat split; intros ->; destruct Hc as [A B]; lia).
  destruct (plain_bx U v b P Hb) as (_ & -> & _). clear -H. induction H as [|c r Hc _ IH]; [reflexivity|]. cbn [flat_map]. rewrite IH. unfold char_ascii, is_ascii_printable.
  rewrite (proj2 (N.leb_le 32 c)) by apply Hc. rewrite (proj2 (N.ltb_lt c 127)) by apply Hc. reflexivity.
Qed.
Lemma dc_indent_ok : forall l st st', Forall (legible U) l -> do_items st l = Ok (RC_SUCCESS st') -> exists ls, Forall2 indent_entry l ls /\ latest Some (concat ls) (c_indentmode (curdes st)) (c_indentmode (curdes st')).
Proof.
  intros l st st' HG H. apply (by_items _ _ (legible U) indent_entry Some c_indentmode) in H; [exact H| |exact HG].
  clear. intros st i st' G H. destruct (other_ok _ _ _ H) as [(k & v & ->)|O].
  - apply keyword_ok in H as (c & (b & Eb & Hc) & ->). destruct Hc as [(K & ->)|[(K & ->)|[(K & t & _ & ->)|(K & W & ->)]]].
    + exists []. split; [right; split; [exact (word_apart _ "author" "indent" K eq_refl)|reflexivity]|apply latest_none].
    + exists []. split; [right; split; [exact (word_apart _ "designer" "indent" K eq_refl)|reflexivity]|apply latest_none].
    + exists []. split; [right; split; [exact (word_apart _ "tags" "indent" K eq_refl)|reflexivity]|apply latest_none].
    + destruct G as [_ G]. rewrite (printable_ascii v b (G K) Eb) in *. exists [hd 0%N v]. split; [left; split; [exact K|split; [|reflexivity]]|apply latest_one; reflexivity].
      destruct W as (w & W1 & W2). exists w. split; [cbn in *; tauto|exact W2].
  - exists []. destruct i; cbn [other_effect] in O; try contradiction O; (split; [reflexivity|]);
      repeat match goal with H : exists _, _ |- _ => destruct H | H : _ /\ _ |- _ => destruct H end; match goal with H : curdes st' = _ |- _ => rewrite H end; apply latest_none.
Qed.
Lemma dc_keywords_ok : forall l st st', do_items st l = Ok (RC_SUCCESS st') -> forall k v, In (i_keyword k v) l -> exists w, In w ["author"; "designer"; "tags"; "indent"]%string /\ nocase k (lit w).
Proof.
  induction l as [|i l IH]; intros st st' H k v [].
  - subst i. apply items_cons in H as (s & H1 & _). apply keyword_ok in H1 as (c & (b & _ & Hc) & _). destruct Hc as [(K & _)|[(K & _)|[(K & _)|(K & _)]]].
    + exists "author"%string. split; [left; reflexivity|exact K].
    + exists "designer"%string. split; [right; left; reflexivity|exact K].
    + exists "tags"%string. split; [right; right; left; reflexivity|exact K].
    + exists "indent"%string. split; [right; right; right; left; reflexivity|exact K].
  - apply items_cons in H as (s & _ & H2). eapply IH; eassumption.
Qed.

(** ** Tags *)
Lemma plain_list : forall l tags out, Forall plain_text l -> tag_list U tags l = Ok out -> Forall (fun s => plain_text s /\ Forall (fun c => is_allowed_anywhere U c = true) s) l.
Proof.
  induction l as [|s l IH]; intros tags out Hp H; [constructor|]. inversion Hp as [|? ? P1 P2]; subst. cbn [tag_list] in H.
  destruct (string_tok U s) as [b| | | |] eqn:Eb; cbn [bind] in H; try discriminate H. destruct b as [b|]; [|discriminate H].
  destruct (tag_record U tags (Some b)) as [t| | | |]; cbn [bind] in H; try discriminate H. constructor; [|eapply IH; eassumption].
  split; [exact P1|]. apply tok_some in Eb. apply (plain_bx U s b P1 Eb).
Qed.
Lemma dc_tags_ok : forall l st st', Forall (legible U) l -> Forall good_tag (c_tags (curdes st)) -> NoDup (c_tags (curdes st)) -> do_items st l = Ok (RC_SUCCESS st') ->
  NoDup (c_tags (curdes st')) /\ forall t, In t (c_tags (curdes st')) <-> In t (c_tags (curdes st)) \/ exists i, In i l /\ tagged U i t.
Proof.
  induction l as [|i l IH]; intros st st' HG Hg Hd H.
  - injection H as <-. split; [exact Hd|]. intros t. split; [auto|]. intros [F|(i & [] & _)]. exact F.
  - inversion HG as [|? ? G1 G2]; subst. apply items_cons in H as (s & H1 & H2).
    assert (X : Forall good_tag (c_tags (curdes s)) /\ NoDup (c_tags (curdes s)) /\ forall t, In t (c_tags (curdes s)) <-> In t (c_tags (curdes st)) \/ tagged U i t).
    { assert (Same : c_tags (curdes s) = c_tags (curdes st) -> (forall t, ~ tagged U i t) -> Forall good_tag (c_tags (curdes s)) /\ NoDup (c_tags (curdes s)) /\ forall t, In t (c_tags (curdes s)) <-> In t (c_tags (curdes st)) \/ tagged U i t).
      { intros -> N. split; [exact Hg|split; [exact Hd|]]. intros t. specialize (N t). tauto. }
      destruct (other_ok _ _ _ H1) as [(k & v & ->)|O].
      - apply keyword_ok in H1 as (c & (b & Eb & Hc) & Ec). destruct G1 as [G1 _]. destruct Hc as [(K & ->)|[(K & ->)|[(K & t & Et & ->)|(K & _ & ->)]]].
        + apply Same; [rewrite Ec; reflexivity|]. intros t [F _]. exact (word_apart _ "author" "tags" K eq_refl F).
        + apply Same; [rewrite Ec; reflexivity|]. intros t [F _]. exact (word_apart _ "designer" "tags" K eq_refl F).
        + assert (Tok : string_tok U v = Ok (Some b)) by (unfold string_tok, utf8_to_bxs; rewrite Eb; reflexivity).
          destruct (tag_record_ok U HU v b _ (G1 K) Tok Hg Hd) as (out & E & O1 & O2 & O3). rewrite Et in E. injection E as ->. rewrite Ec. cbn [set_tags c_tags].
          split; [exact O1|split; [exact O2|]]. intros u. rewrite O3. cbn [tagged]. tauto.
        + apply Same; [rewrite Ec; reflexivity|]. intros t [F _]. exact (word_apart _ "indent" "tags" K eq_refl F).
      - destruct i; cbn [other_effect] in O; try contradiction O;
          try (apply Same; [repeat match goal with H : exists _, _ |- _ => destruct H | H : _ /\ _ |- _ => destruct H end; match goal with H : curdes s = _ |- _ => rewrite H end; reflexivity|intros t F; exact F]).
        destruct O as (t & Et & ->). cbn [set_tags c_tags]. destruct (tag_list_ok U HU l0 _ (plain_list _ _ _ G1 Et) Hg Hd) as (out & E & O1 & O2 & O3). rewrite Et in E. injection E as ->.
        split; [exact O1|split; [exact O2|exact O3]]. }
    destruct X as (X1 & X2 & X3). destruct (IH _ _ G2 X1 X2 H2) as [I1 I2]. split; [exact I1|]. intros t. rewrite I2, X3. split.
    + intros [[F|F]|(j & J1 & J2)]; [auto|right; exists i; split; [left; reflexivity|exact F]|right; exists j; split; [right; exact J1|exact J2]].
    + intros [F|(j & [<-|J1] & J2)]; [auto|auto|right; exists j; auto].
Qed.

(** ** Padding *)
Lemma abbreviates_ok : forall w area, abbreviates w area = true <-> short_for area w.
Proof.
  intros w area. unfold abbreviates, short_for. rewrite andb_true_iff, Nat.leb_le, same_ok. split.
  - intros [L H]. exists (firstn (List.length area) (lit w)), (skipn (List.length area) (lit w)). rewrite firstn_skipn. split; [reflexivity|apply nocase_sym; exact H].
  - intros (a & b & E & H). assert (L : List.length area = List.length a) by (clear -H; induction H; cbn; congruence). rewrite E, L, app_length. split; [lia|].
    rewrite firstn_app, Nat.sub_diag, firstn_all. cbn [firstn]. rewrite app_nil_r. apply nocase_sym. exact H.
Qed.
Lemma bside_in : forall s l, existsb (fun x => match x, s with BTOP, BTOP | BRIG, BRIG | BBOT, BBOT | BLEF, BLEF => true | _, _ => false end) l = existsb (bside_eqb s) l.
Proof. intros s l. induction l as [|x l IH]; [reflexivity|]. cbn [existsb]. rewrite IH. destruct x, s; reflexivity. Qed.
Lemma pad_entry_ok : forall p e, exists gs, pad_entry e gs /\ forall s, latest (padding_at s) gs (p s) (action_padding_entry p e s).
Proof.
  intros p [area v]. unfold action_padding_entry. destruct (Z.ltb_spec v 0) as [L|L].
  { exists []. split; [right; split; [left; exact L|reflexivity]|intros s; apply latest_none]. }
  assert (Set_ : forall w l, In (w, l) areas_of_padding -> short_for area w -> (area = [] -> w = "all"%string) -> forall l', (forall s, existsb (bside_eqb s) l' = existsb (bside_eqb s) l) -> exists gs, pad_entry (area, v) gs /\ forall s, latest (padding_at s) gs (p s) (pad_set p l' (Z.to_nat v) s)).
  { intros w l Hw Hs Ha l' El. exists [(l, Z.to_nat v)]. split; [left; split; [exact L|]; exists w, l; split; [exact Hw|split; [exact Hs|split; [exact Ha|reflexivity]]]|]. intros s. unfold pad_set. rewrite bside_in, El.
    apply latest_fold. unfold last_of. cbn [fold_left]. unfold padding_at. cbn [fst snd]. destruct (existsb (bside_eqb s) l); reflexivity. }
  assert (NE : forall w, abbreviates "all" area = false -> area = [] -> w = "all"%string) by (intros w E ->; discriminate E).
  destruct (abbreviates "all" area) eqn:E1.
  { apply (Set_ "all"%string [BTOP; BRIG; BBOT; BLEF]); [cbn; tauto|apply abbreviates_ok; exact E1|reflexivity|intros []; reflexivity]. }
  destruct (abbreviates "horizontal" area) eqn:E2.
  { apply (Set_ "horizontal"%string [BRIG; BLEF]); [cbn; tauto|apply abbreviates_ok; exact E2|exact (NE _ eq_refl)|intros []; reflexivity]. }
  destruct (abbreviates "vertical" area) eqn:E3.
  { apply (Set_ "vertical"%string [BTOP; BBOT]); [cbn; tauto|apply abbreviates_ok; exact E3|exact (NE _ eq_refl)|intros []; reflexivity]. }
  destruct (abbreviates "top" area) eqn:E4.
  { apply (Set_ "top"%string [BTOP]); [cbn; tauto|apply abbreviates_ok; exact E4|exact (NE _ eq_refl)|intros []; reflexivity]. }
  destruct (abbreviates "right" area) eqn:E5.
  { apply (Set_ "right"%string [BRIG]); [cbn; tauto|apply abbreviates_ok; exact E5|exact (NE _ eq_refl)|intros []; reflexivity]. }
  destruct (abbreviates "left" area) eqn:E6.
  { apply (Set_ "left"%string [BLEF]); [cbn; tauto|apply abbreviates_ok; exact E6|exact (NE _ eq_refl)|intros []; reflexivity]. }
  destruct (abbreviates "bottom" area) eqn:E7.
  { apply (Set_ "bottom"%string [BBOT]); [cbn; tauto|apply abbreviates_ok; exact E7|exact (NE _ eq_refl)|intros []; reflexivity]. }
  exists []. split; [right; split; [right|reflexivity]|intros s; apply latest_none]. intros w l Hw Hs. cbn [fst] in Hs. apply abbreviates_ok in Hs.
  cbn [areas_of_padding In] in Hw. repeat destruct Hw as [Hw|Hw]; try (injection Hw as <- <-; congruence); contradiction Hw.
Qed.
Lemma pad_entries_ok : forall l p, exists gss, Forall2 pad_entry l gss /\ forall s, latest (padding_at s) (concat gss) (p s) (fold_left action_padding_entry l p s).
Proof.
  induction l as [|e l IH]; intros p; [exists []; split; [constructor|intros s; apply latest_none]|]. cbn [fold_left]. destruct (pad_entry_ok p e) as (gs & G1 & G2).
  destruct (IH (action_padding_entry p e)) as (gss & H1 & H2). exists (gs :: gss). split; [constructor; assumption|]. intros s. specialize (G2 s). specialize (H2 s).
  apply latest_fold in G2. apply latest_fold in H2. apply latest_fold. cbn [concat]. unfold last_of in *. rewrite fold_left_app, <- G2. exact H2.
Qed.
Lemma dc_padding_ok : forall s l st st', do_items st l = Ok (RC_SUCCESS st') -> exists ls, Forall2 padding_block l ls /\ latest (padding_at s) (concat ls) (c_padding (curdes st) s) (c_padding (curdes st') s).
Proof.
  intros s l st st' H. apply (by_items _ _ (fun _ => True) padding_block (padding_at s) (fun c => c_padding c s)) in H; [exact H| |apply Forall_forall; auto].
  clear. intros st i st' _ H. destruct (other_ok _ _ _ H) as [(k & v & ->)|O].
  - apply keyword_ok in H as (c & (b & Eb & Hc) & ->). exists []. split; [reflexivity|]. destruct Hc as [(K & ->)|[(K & ->)|[(K & t & _ & ->)|(K & _ & ->)]]]; apply latest_none.
  - destruct i; cbn [other_effect] in O; try contradiction O;
      try (exists []; split; [reflexivity|]; repeat match goal with H : exists _, _ |- _ => destruct H | H : _ /\ _ |- _ => destruct H end; match goal with H : curdes st' = _ |- _ => rewrite H end; apply latest_none).
    rewrite O. cbn [set_padding c_padding]. destruct (pad_entries_ok l (c_padding (curdes st))) as (gss & G1 & G2). exists (concat gss). split; [exists gss; auto|apply G2].
Qed.

(** ** Substitutions *)
Lemma dc_rules_ok : forall l st st', do_items st l = Ok (RC_SUCCESS st') ->
  map texts_of (c_reprules (curdes st')) = map texts_of (c_reprules (curdes st)) ++ substitutions l /\ map texts_of (c_revrules (curdes st')) = map texts_of (c_revrules (curdes st)) ++ reversions l.
Proof.
  induction l as [|i l IH]; intros st st' H; [injection H as <-; unfold substitutions, reversions; cbn [flat_map]; rewrite !app_nil_r; auto|].
  apply items_cons in H as (s & H1 & H2). destruct (IH _ _ H2) as [I1 I2]. rewrite I1, I2. unfold substitutions, reversions. cbn [flat_map]. rewrite !app_assoc.
  assert (X : map texts_of (c_reprules (curdes s)) = map texts_of (c_reprules (curdes st)) ++ match i with i_replace a b c => [(a, b, c)] | _ => [] end /\
     map texts_of (c_revrules (curdes s)) = map texts_of (c_revrules (curdes st)) ++ match i with i_reverse a b c => [(a, b, c)] | _ => [] end); [|destruct X as [-> ->]; auto].
  destruct (other_ok _ _ _ H1) as [(k & v & ->)|O].
  - apply keyword_ok in H1 as (c & (b & Eb & Hc) & ->). rewrite !app_nil_r. destruct Hc as [(K & ->)|[(K & ->)|[(K & t & _ & ->)|(K & _ & ->)]]]; auto.
  - destruct i; cbn [other_effect] in O; try contradiction O;
      try (rewrite !app_nil_r; repeat match goal with H : exists _, _ |- _ => destruct H | H : _ /\ _ |- _ => destruct H end; match goal with H : curdes s = _ |- _ => rewrite H end; auto; fail).
    + destruct O as (bs & br & E1 & E2 & ->). cbn [set_rules c_reprules c_revrules]. rewrite app_nil_r, map_app. split; [|reflexivity]. cbn [map]. unfold texts_of at 2. cbn [r_search r_repstr r_mode].
      rewrite (proj1 (from_unicode_len _ _ _ E1)), (proj1 (from_unicode_len _ _ _ E2)). reflexivity.
    + destruct O as (bs & br & E1 & E2 & ->). cbn [set_rules c_reprules c_revrules]. rewrite app_nil_r, map_app. split; [reflexivity|]. cbn [map]. unfold texts_of at 2. cbn [r_search r_repstr r_mode].
      rewrite (proj1 (from_unicode_len _ _ _ E1)), (proj1 (from_unicode_len _ _ _ E2)). reflexivity.
Qed.

(** ** Sample *)
Lemma skip_split : forall s, exists b, s = b ++ skip_blank_cr U s /\ Forall (fun c => uc_is_blank U c = true \/ c = 13%N) b.
Proof.
  induction s as [|c s (b & E & H)]; [exists []; split; [reflexivity|constructor]|]. cbn [skip_blank_cr]. destruct (uc_is_blank U c || N.eqb c char_cr) eqn:Ec.
  - exists (c :: b). split; [cbn [app]; rewrite <- E; reflexivity|]. constructor; [|exact H]. apply orb_true_iff in Ec as [Ec|Ec]; [left; exact Ec|right; apply N.eqb_eq; exact Ec].
  - exists []. split; [reflexivity|constructor].
Qed.
Lemma skip_app : forall b r, Forall (fun c => uc_is_blank U c = true \/ c = 13%N) b -> skip_blank_cr U (b ++ r) = skip_blank_cr U r.
Proof.
  induction b as [|c b IH]; intros r H; [reflexivity|]. inversion H as [|? ? H1 H2]; subst. cbn [app skip_blank_cr].
  assert (E : uc_is_blank U c || N.eqb c char_cr = true) by (apply orb_true_iff; destruct H1 as [->| ->]; [left; reflexivity|right; reflexivity]). rewrite E. apply IH. exact H2.
Qed.
Lemma lf_not_skipped : forall r, uc_is_blank U 10 = false -> skip_blank_cr U (10%N :: r) = 10%N :: r.
Proof. intros r H. cbn [skip_blank_cr]. rewrite H. reflexivity. Qed.
Lemma first_line_split : uc_is_blank U 10 = false -> forall fuel s, List.length s <= fuel -> exists a, s = a ++ first_nonblank_line U fuel s /\ blank_lines U a /\ ~ starts_blank U (first_nonblank_line U fuel s).
Proof.
  intros NL. induction fuel as [|f IH]; intros s L.
  - destruct s; [|cbn [List.length] in L; lia]. exists []. split; [reflexivity|]. split; [constructor|]. intros (b & r & E & _). destruct b; discriminate E.
  - cbn [first_nonblank_line]. destruct (skip_split s) as (b & E & H).
    assert (Stop : (forall r, skip_blank_cr U s <> 10%N :: r) -> ~ starts_blank U s).
    { intros N (x & r & Es & Hx). rewrite Es, (skip_app _ _ Hx), (lf_not_skipped _ NL) in N. apply (N r). reflexivity. }
    destruct (skip_blank_cr U s) as [|c r] eqn:Ek.
    + exists []. split; [reflexivity|]. split; [constructor|]. apply Stop. discriminate.
    + destruct (N.eqb_spec c char_newline) as [->|Nc].
      * destruct (IH r) as (a & A1 & A2 & A3). { rewrite E, app_length in L. cbn [List.length] in L. lia. }
        exists (b ++ 10%N :: a). split; [|split; [constructor; assumption|exact A3]]. rewrite <- app_assoc. cbn [app]. rewrite <- A1. exact E.
      * exists []. split; [reflexivity|]. split; [constructor|]. apply Stop. intros r' F. injection F as -> _. apply Nc. reflexivity.
Qed.
Lemma adjust_ok : forall n s, List.length s <= n -> terminators_replaced eol s (adjust_eols eol s).
Proof.
  induction n as [|n IH]; intros s L; [destruct s; [constructor|cbn [List.length] in L; lia]|].
  destruct s as [|c r]; [constructor|]. cbn [List.length] in L. cbn [adjust_eols]. destruct (N.eqb_spec c char_cr) as [->|N1].
  - destruct r as [|d r']; [apply tr_cr; [discriminate|constructor]|]. cbn [List.length] in L. destruct (N.eqb_spec d char_newline) as [->|N2].
    + apply tr_crlf. apply IH. lia.
    + apply tr_cr; [exact N2|]. apply IH. cbn [List.length]. lia.
  - destruct (N.eqb_spec c char_newline) as [->|N2]; [apply tr_lf; apply IH; lia|]. apply tr_other; [exact N1|exact N2|]. apply IH. lia.
Qed.
Lemma sample_tok_ok : forall s b, legible U (i_sample s) -> sample_tok U s = Ok (Some b) -> memory b = s ++ [10%N] \/ memory b = [10%N].
Proof.
  intros s b (ts & r & c & CL & <- & V & C2) H. unfold sample_tok in H. destruct (string_tok U (render ts)) as [x| | | |] eqn:Ex; cbn [bind] in H; try discriminate H.
  destruct x as [x|].
  - apply tok_some in Ex. destruct (from_unicode_clean_inv U ts x CL Ex) as (-> & _ & _).
    assert (R : bxs_rtrim U (bx U ts) = Ok (bx U ts)).
    { unfold bxs_rtrim. replace (trailing (bx U ts)) with 0; [reflexivity|]. cbn [bx trailing]. rewrite V.
      destruct (all_blank U (r ++ [c])); [reflexivity|]. symmetry. rewrite trail_app. cbn. rewrite C2. reflexivity. }
    rewrite R in H. cbn [nullable bind] in H. unfold bxs_strcat in H. cbn [List.length Nat.eqb] in H. cbn [bx num_chars memory] in H.
    destruct (Nat.eqb_spec (List.length (render ts)) 0) as [F|_].
    { destruct ts as [|t ts]; [destruct r; discriminate V|]. unfold render in F. cbn [flat_map] in F. rewrite app_length in F. destruct CL as [[T _] _].
      destruct t as [d|e|e|d]; cbn [tok_chars tok_ok List.length] in *; try lia; destruct e; try (cbn [List.length] in F; lia).
      - destruct T as [(d & T & _)|(d & ps & f & T & _)]; discriminate T.
      - destruct T as [T|(d & ps & T & _)]; discriminate T. }
    destruct (bxs_from_unicode U (render ts ++ [char_newline])) as [y| | | |] eqn:Ey; cbn [nullable] in H; try discriminate H. injection H as ->.
    left. apply from_unicode_len in Ey as [Ey _]. exact Ey.
  - cbn [bind] in H. apply tok_some in H. apply from_unicode_len in H as [H _]. right. exact H.
Qed.
Lemma sample_item : forall st s st', uc_is_blank U 10 = false -> legible U (i_sample s) -> do_item st (i_sample s) = Ok (RC_SUCCESS st') ->
  c_sample (curdes st) = None /\ exists b, c_sample (curdes st') = Some b /\ sample_shown U eol s (memory b).
Proof.
  intros st s st' NL L H. cbn [Model_Parser.do_item] in H. destruct (sample_tok U s) as [b| | | |] eqn:Eb; cbn [bind] in H; try discriminate H.
  unfold action_sample_block in H. destruct (c_sample (curdes st)); [discriminate H|]. split; [reflexivity|]. destruct b as [b|]; [|discriminate H].
  destruct (utf8_to_bxs U _) as [[line|]| | | |] eqn:El; cbn [bind] in H; try discriminate H. destruct (num_chars line =? 0) eqn:E0; [discriminate H|].
  destruct (negb _); [discriminate H|]. injection H as <-. exists line. split; [reflexivity|]. apply tok_some in El. destruct (from_unicode_len _ _ _ El) as [Em En].
  destruct (sample_tok_ok s b L Eb) as [E|E]; rewrite E in *.
  - rewrite Em. destruct (first_line_split NL (List.length (s ++ [10%N])) (s ++ [10%N]) (le_n _)) as (a & A1 & A2 & A3).
    exists a, (first_nonblank_line U (List.length (s ++ [10%N])) (s ++ [10%N])). split; [exact A1|]. split; [exact A2|]. split; [exact A3|]. apply (adjust_ok _ _ (le_n _)).
  - exfalso. apply Nat.eqb_neq in E0. apply E0. rewrite En. change (first_nonblank_line U (List.length [10%N]) [10%N]) with (match skip_blank_cr U [10%N] with | c :: r => if N.eqb c char_newline then r else [10%N] | [] => [10%N] end).
    rewrite (lf_not_skipped _ NL). reflexivity.
Qed.
Lemma dc_sample_ok : uc_is_blank U 10 = false -> forall l st st', Forall (legible U) l -> do_items st l = Ok (RC_SUCCESS st') ->
  match c_sample (curdes st) with
  | Some x => samples l = [] /\ c_sample (curdes st') = Some x
  | None => samples l = [] /\ c_sample (curdes st') = None \/ exists s b, samples l = [s] /\ c_sample (curdes st') = Some b /\ sample_shown U eol s (memory b)
  end.
Proof.
  intros NL. induction l as [|i l IH]; intros st st' HG H; [injection H as <-; destruct (c_sample (curdes st)); auto|].
  inversion HG as [|? ? G1 G2]; subst. apply items_cons in H as (s & H1 & H2). specialize (IH _ _ G2 H2).
  assert (Same : c_sample (curdes s) = c_sample (curdes st) -> samples (i :: l) = samples l -> match c_sample (curdes st) with
    | Some x => samples (i :: l) = [] /\ c_sample (curdes st') = Some x
    | None => samples (i :: l) = [] /\ c_sample (curdes st') = None \/ exists s b, samples (i :: l) = [s] /\ c_sample (curdes st') = Some b /\ sample_shown U eol s (memory b) end).
  { intros E1 E2. rewrite E1 in IH. rewrite E2. exact IH. }
  destruct (other_ok _ _ _ H1) as [(k & v & ->)|O].
  - apply keyword_ok in H1 as (c & (b & Eb & Hc) & Ec). apply Same; [|reflexivity]. rewrite Ec. destruct Hc as [(K & ->)|[(K & ->)|[(K & t & _ & ->)|(K & _ & ->)]]]; reflexivity.
  - destruct i; cbn [other_effect] in O; try contradiction O;
      try (apply Same; [|reflexivity]; repeat match goal with H : exists _, _ |- _ => destruct H | H : _ /\ _ |- _ => destruct H end; match goal with H : curdes s = _ |- _ => rewrite H end; reflexivity).
    destruct (sample_item _ _ _ NL G1 H1) as (N1 & b & B1 & B2). rewrite N1. rewrite B1 in IH. destruct IH as [I1 I2]. right. exists s0, b. split; [unfold samples in *; cbn [flat_map]; rewrite I1; reflexivity|].
    split; [exact I2|exact B2].
Qed.

(** ** Shapes *)
Lemma lines_memory : forall l x y, growing U x -> Forall (tidy_text U) l -> shape_lines U x l = Ok (RC_SUCCESS y) -> map memory (s_mbcs y) = map memory (s_mbcs x) ++ l /\ s_width y = s_width x /\ growing U y.
Proof.
  induction l as [|s l IH]; intros x y Hx Hl H; cbn [shape_lines] in H; [injection H as <-; rewrite app_nil_r; auto|].
  inversion Hl as [|? ? L1 L2]; subst. destruct (string_tok U s) as [b| | | |] eqn:E; cbn [bind] in H; try discriminate H. apply then_ok in H as (z & Hz & H).
  assert (Ea : action_add_shape_line U x b = Ok (RC_SUCCESS z)).
  { destruct Hz as [Hz|Hz]; [exact Hz|]. destruct b as [b|]; [|discriminate Hz]. cbn [action_add_shape_line] in Hz. destruct (negb _); [discriminate Hz|]. destruct (negb _); discriminate Hz. }
  destruct (add_line_ok U HU x s b _ Hx L1 E Ea) as [F|(z' & F & Gz)]; [discriminate F|]. injection F as <-.
  destruct (IH _ _ Gz L2 H) as (I1 & I2 & I3). destruct b as [b|]; [|discriminate Ea]. cbn [action_add_shape_line] in Ea. destruct (negb _); [discriminate Ea|]. destruct (negb _); [discriminate Ea|]. injection Ea as <-.
  cbn [s_mbcs s_width] in *. split; [|split; [exact I2|exact I3]]. rewrite I1, map_app, <- app_assoc. cbn [map app]. apply tok_some in E. rewrite (proj1 (from_unicode_len _ _ _ E)). reflexivity.
Qed.
Lemma def_memory : forall f more s, tidy_shape U (lines f more) -> (exists w, shows U w f /\ 0 < w) -> parse_shape_def U (lines f more) = Ok (RC_SUCCESS s) ->
  map memory (s_mbcs s) = f :: more /\ isempty s = false /\ s_elastic s = false.
Proof.
  intros f more s [Hf Hm] (w & Hw & W) H. cbn [parse_shape_def] in H. destruct (string_tok U f) as [b| | | |] eqn:E; cbn [bind] in H; try discriminate H.
  apply then_ok in H as (x & Hx & H). assert (Ea : action_first_shape_line U b = Ok (RC_SUCCESS x)) by (destruct Hx as [Hx|Hx]; [exact Hx|]; destruct b as [b|]; [|discriminate Hx]; cbn [action_first_shape_line] in Hx; destruct (valid_in_shape U b); discriminate Hx).
  destruct (first_line_ok U HU f b _ Hf E Ea) as [F|(x' & F & Gx)]; [discriminate F|]. injection F as <-.
  apply then_ok in H as (y & Hy & H). assert (El : shape_lines U x more = Ok (RC_SUCCESS y)).
  { destruct Hy as [Hy|Hy]; [exact Hy|]. destruct (more_lines_ok U HU more x _ Gx Hm Hy) as [F|(z & F & _)]; discriminate F. }
  destruct (lines_memory _ _ _ Gx Hm El) as (M1 & M2 & Gy). destruct b as [b|]; [|discriminate Ea]. cbn [action_first_shape_line] in Ea. destruct (valid_in_shape U b); [|discriminate Ea]. injection Ea as <-.
  cbn [s_mbcs s_width map] in M1, M2. apply tok_some in E. destruct (shows_from U HU w f Hw) as (b' & E' & Em & Ew & _). rewrite E in E'. injection E' as <-.
  destruct Gy as (K1 & K2 & N1 & N2 & He). injection H as <-.
  assert (Hh : 0 < s_height y) by (rewrite <- (so_rows _ _ K1); destruct (s_mbcs y); [congruence|cbn [List.length]; lia]).
  destruct (Nat.eqb_spec (s_width y) 0) as [F|_]; [lia|]. destruct (Nat.eqb_spec (s_height y) 0) as [F|_]; [lia|]. cbn [orb].
  split; [rewrite M1, Em; reflexivity|]. split; [|exact He]. unfold isempty. destruct (s_chars y); [congruence|]. destruct (s_mbcs y); [congruence|]. cbn [is_nil orb].
  destruct (Nat.eqb_spec (s_width y) 0); [lia|]. destruct (Nat.eqb_spec (s_height y) 0); [lia|]. reflexivity.
Qed.
Lemma shapes_given : forall l st st', Forall (fun p => tidy_shape U (snd p)) l -> Forall (fun p => Forall (fun t => exists w, shows U w t /\ 0 < w) (snd p)) (given_in l) ->
  (forall i, entry_ok U (c_shape (curdes st) i)) -> shapes_list U st l = Ok (RC_SUCCESS st') ->
  NoDup (map fst (given_in l)) /\ (forall i, entry_ok U (c_shape (curdes st') i)) /\
  (forall i t, In (i, t) (given_in l) -> isempty (c_shape (curdes st) i) = true /\ isempty (c_shape (curdes st') i) = false /\ map memory (s_mbcs (c_shape (curdes st') i)) = t /\ s_elastic (c_shape (curdes st') i) = false) /\
  (forall i, isempty (c_shape (curdes st) i) = false -> c_shape (curdes st') i = c_shape (curdes st) i) /\
  (forall i, ~ In i (map fst (given_in l)) -> isempty (c_shape (curdes st) i) = true -> isempty (c_shape (curdes st') i) = true).
Proof.
  induction l as [|[i d] l IH]; intros st st' Ht Hw He H; cbn [shapes_list] in H.
  - injection H as <-. split; [constructor|]. split; [exact He|]. split; [intros i t []|]. split; auto.
  - inversion Ht as [|? ? T1 T2]; subst. cbn [snd] in T1. apply then_ok in H as (s & Hs & H). assert (Es : parse_shape_def U d = Ok (RC_SUCCESS s)).
    { destruct Hs as [Hs|Hs]; [exact Hs|]. destruct (shape_def_ok U HU d _ T1 Hs) as [F|(z & F & _)]; discriminate F. }
    destruct (shape_def_ok U HU d _ T1 Es) as [F|(s' & F & S1 & S2)]; [discriminate F|]. injection F as <-.
    destruct (isempty (c_shape (curdes st) i)) eqn:Ei; [|discriminate H].
    match type of H with shapes_list _ ?x _ = _ => set (st1 := x) in * end.
    assert (E1 : forall j, c_shape (curdes st1) j = if j =? i then s else c_shape (curdes st) j) by reflexivity.
    assert (He1 : forall j, entry_ok U (c_shape (curdes st1) j)) by (intros j; rewrite E1; destruct (j =? i); auto).
    assert (Hw1 : Forall (fun p => Forall (fun t => exists w, shows U w t /\ 0 < w) (snd p)) (given_in l)) by (unfold given_in in *; cbn [flat_map] in Hw; apply Forall_app in Hw as [_ Hw]; exact Hw).
    destruct (IH st1 st' T2 Hw1 He1 H) as (I1 & I2 & I3 & I4 & I5).
    destruct d as [|f more].
    + change (given_in ((i, no_lines) :: l)) with (given_in l). cbn [parse_shape_def] in Es. injection Es as <-. split; [exact I1|]. split; [exact I2|]. split; [|split].
      * intros j t J. destruct (I3 j t J) as (A & B & C). split; [|auto]. rewrite E1 in A. destruct (Nat.eqb_spec j i) as [->|]; [exact Ei|exact A].
      * intros j J. rewrite I4, E1; destruct (Nat.eqb_spec j i) as [->|]; congruence || (rewrite E1; destruct (Nat.eqb_spec j i); congruence).
      * intros j N J. apply I5; [exact N|]. rewrite E1. destruct (j =? i); [reflexivity|exact J].
    + change (given_in ((i, lines f more) :: l)) with ((i, f :: more) :: given_in l) in *. inversion Hw as [|? ? W1 W2]; subst. cbn [snd] in W1. inversion W1 as [|? ? W3 W4]; subst.
      destruct (def_memory f more s T1 W3 Es) as (D1 & D2 & D3). cbn [map fst].
      assert (Ns : isempty (c_shape (curdes st1) i) = false) by (rewrite E1, Nat.eqb_refl; exact D2).
      split; [|split; [exact I2|split; [|split]]].
      * constructor; [|exact I1]. intros F. apply in_map_iff in F as ([j t] & Ej & F). cbn [fst] in Ej. subst j. destruct (I3 i t F) as (A & _). congruence.
      * intros j t [J|J]; [|destruct (I3 j t J) as (A & B & C); split; [|auto]; rewrite E1 in A; destruct (Nat.eqb_spec j i) as [->|]; [exact Ei|exact A]].
        injection J as <- <-. rewrite (I4 i Ns), E1, Nat.eqb_refl. auto.
      * intros j J. destruct (Nat.eqb_spec j i) as [->|Nj]; [congruence|]. rewrite I4; rewrite E1; destruct (Nat.eqb_spec j i); congruence.
      * intros j N J. destruct (Nat.eqb_spec j i) as [->|Nj]; [elim N; left; reflexivity|]. apply I5; [intros F; apply N; right; exact F|]. rewrite E1. destruct (Nat.eqb_spec j i); congruence.
Qed.
Definition sizes_exact (c : cdesign) : Prop :=
  c_minwidth c = Nat.max (min_size s_width (c_shape c) BTOP) (min_size s_width (c_shape c) BBOT) /\
  c_minheight c = Nat.max (min_size s_height (c_shape c) BLEF) (min_size s_height (c_shape c) BRIG) /\
  c_maxshapeheight c = highest (c_shape c) (seq 0 16).
Lemma sum_le : forall (f g : nat -> nat) l, (forall i, f i <= g i) -> sum (map f l) <= sum (map g l).
Proof. intros f g l H. induction l as [|x l IH]; [apply le_n|]. cbn [map]. specialize (H x). unfold sum in *. cbn [fold_right]. lia. Qed.
Lemma maxl_le : forall (f g : nat -> nat) l, (forall i, f i <= g i) -> maxl (map f l) <= maxl (map g l).
Proof. intros f g l H. induction l as [|x l IH]; [apply le_n|]. cbn [map]. specialize (H x). unfold maxl in *. cbn [fold_right]. lia. Qed.
Lemma grown_size : forall (a b : nat -> sentry) (dim : sentry -> nat) i, (isempty (a i) = false -> b i = a i) -> (if isempty (a i) then 0 else dim (a i)) <= (if isempty (b i) then 0 else dim (b i)).
Proof. intros a b dim i H. destruct (isempty (a i)) eqn:E; [lia|]. rewrite (H eq_refl), E. lia. Qed.
Record shapes_inv (done : list item) (c : cdesign) : Prop := {
  sv_entry : forall i, entry_ok U (c_shape c i);
  sv_once : NoDup (map fst (given done));
  sv_given : forall i t, In (i, t) (given done) -> isempty (c_shape c i) = false /\ map memory (s_mbcs (c_shape c i)) = t;
  sv_others : forall i, ~ In i (map fst (given done)) -> isempty (c_shape c i) = true \/ blank_shape (c_shape c i);
  sv_elastic : forall l1 l l2 i t, done = l1 ++ i_shapes l :: l2 -> In (i, t) (given_in l) -> (s_elastic (c_shape c i) = true <-> exists e, In (i_elastic e) l2 /\ In i e);
  sv_sizes : sizes_exact c
}.
Lemma given_snoc : forall l i, given (l ++ [i]) = given l ++ match i with i_shapes x => given_in x | _ => [] end.
Proof. intros l i. unfold given. rewrite flat_map_app. cbn [flat_map]. rewrite app_nil_r. reflexivity. Qed.
Lemma snoc_split : forall (l l1 l2 : list item) i x, l ++ [i] = l1 ++ x :: l2 -> l2 = [] /\ i = x /\ l1 = l \/ exists l2', l2 = l2' ++ [i] /\ l = l1 ++ x :: l2'.
Proof.
  intros l l1 l2 i x H. destruct l2 as [|y l2] using rev_ind.
  - apply app_inj_tail in H as [-> ->]. left. auto.
  - right. exists l2. rewrite app_comm_cons, app_assoc in H. apply app_inj_tail in H as [-> ->]. split; reflexivity.
Qed.
(** entries that have nothing to do with shapes *)
Lemma inv_other : forall done c c' i, shapes_inv done c -> same_core c c' -> c_maxshapeheight c' = c_maxshapeheight c -> match i with i_shapes _ | i_elastic _ => False | _ => True end -> shapes_inv (done ++ [i]) c'.
Proof.
  intros done c c' i [A B C D E F] (S1 & _ & S2 & S3) S4 N. assert (G : given (done ++ [i]) = given done) by (rewrite given_snoc; destruct i; try contradiction N; apply app_nil_r).
  constructor; rewrite ?G; unfold sizes_exact; rewrite ?S1, ?S2, ?S3, ?S4; try assumption.
  intros l1 l l2 j t H J. apply snoc_split in H as [(-> & -> & _)|(l2' & -> & ->)]; [contradiction N|]. rewrite (E _ _ _ _ _ eq_refl J). split; intros (e & X & Y); exists e; (split; [|exact Y]).
  - apply in_or_app. left. exact X.
  - apply in_app_or in X as [X|[X|[]]]; [exact X|]. subst i. contradiction N.
Qed.
Lemma mark_elastic_iff : forall l sh i, s_elastic (fold_left mark_elastic l sh i) = true <-> s_elastic (sh i) = true \/ In i l.
Proof.
  induction l as [|x l IH]; intros sh i; cbn [fold_left In]; [tauto|]. rewrite IH. unfold mark_elastic, upd. destruct (Nat.eqb_spec i x) as [->|N]; cbn [s_elastic]; [tauto|]. assert (x <> i) by congruence. tauto.
Qed.
Lemma inv_step : forall done st i st', legible U i -> shapes_inv done (curdes st) -> do_item st i = Ok (RC_SUCCESS st') -> shapes_inv (done ++ [i]) (curdes st').
Proof.
  intros done st i st' L I H. destruct (other_ok _ _ _ H) as [(k & v & ->)|O].
  - apply keyword_ok in H as (c & (b & Eb & Hc) & ->). destruct Hc as [(K & ->)|[(K & ->)|[(K & t & _ & ->)|(K & _ & ->)]]]; (eapply inv_other; [exact I|repeat split|reflexivity|exact Logic.I]).
  - destruct i; cbn [other_effect] in O; try contradiction O.
    + destruct O as (t & _ & ->). eapply inv_other; [exact I|repeat split|reflexivity|exact Logic.I].
    + destruct O as (x & _ & Ex). destruct I as [A B C D E F]. assert (G : given (done ++ [i_sample s]) = given done) by (rewrite given_snoc; apply app_nil_r).
      constructor; rewrite ?G; unfold sizes_exact; rewrite ?Ex; cbn [set_sample c_shape c_minwidth c_minheight c_maxshapeheight]; try assumption.
      intros l1 l l2 j t H' J. apply snoc_split in H' as [(_ & Q & _)|(l2' & -> & ->)]; [discriminate Q|]. rewrite (E _ _ _ _ _ eq_refl J). split; intros (e & X & Y); exists e; (split; [|exact Y]).
      * apply in_or_app. left. exact X.
      * apply in_app_or in X as [X|[X|[]]]; [exact X|discriminate X].
    + (* shapes *)
      clear O. destruct I as [A B C D E (F1 & F2 & F3)]. destruct L as [L1 L2]. cbn [Model_Parser.do_item] in H. apply then_ok in H as (st1 & H1 & H2).
      assert (E1 : shapes_list U st l = Ok (RC_SUCCESS st1)).
      { destruct H1 as [H1|H1]; [exact H1|]. destruct (shapes_list_ok U HU _ _ _ L1 A H1) as [Q|(sh & n & Q & _)]; discriminate Q. }
      destruct (shapes_given _ _ _ L1 L2 A E1) as (G1 & G2 & G3 & G4 & G5). destruct (shapes_list_cur _ _ _ E1) as (sh1 & Esh).
      unfold action_finalize_shapes in H2. destruct (_ <? 1); [discriminate H2|]. apply then_ok in H2 as (sh & Hsh & H2).
      assert (Ec : complete_shapes U beyond (c_shape (curdes st1)) = Ok (RC_SUCCESS sh)).
      { destruct Hsh as [Hsh|Hsh]; [exact Hsh|]. destruct (complete_ok U HU beyond _ _ Hsh) as [Q|(x & Q & _)]; discriminate Q. }
      destruct (complete_ok U HU beyond _ _ Ec) as [Q|(x & Q & K1 & _)]; [discriminate Q|]. injection Q as <-.
      destruct (negb _); [discriminate H2|]. destruct (_ && _); [discriminate H2|]. injection H2 as <-. cbn [with_counts with_cur curdes].
      assert (Keep : forall j, isempty (c_shape (curdes st) j) = false -> sh j = c_shape (curdes st) j).
      { intros j J. rewrite (completes_full _ _ _ _ K1); [apply G4; exact J|]. rewrite G4 by exact J. exact J. }
      assert (Sizes : c_minwidth (curdes st1) = c_minwidth (curdes st) /\ c_minheight (curdes st1) = c_minheight (curdes st) /\ c_maxshapeheight (curdes st1) = c_maxshapeheight (curdes st)) by (rewrite Esh; repeat split).
      destruct Sizes as (Z1 & Z2 & Z3).
      constructor; cbn [set_sizes set_shape c_shape].
      * exact (completes_entry _ _ _ K1 G2).
      * rewrite given_snoc, map_app. apply NoDup_app_intro; [exact B|exact G1|]. intros j J1 J2. apply in_map_iff in J1 as ([j1 t1] & <- & J1). apply in_map_iff in J2 as ([j2 t2] & Ej & J2). cbn [fst] in *. subst j2.
        destruct (C _ _ J1) as [X _]. destruct (G3 _ _ J2) as [Y _]. congruence.
      * intros j t J. rewrite given_snoc in J. apply in_app_or in J as [J|J].
        -- destruct (C _ _ J) as [X Y]. rewrite (Keep _ X). auto.
        -- destruct (G3 _ _ J) as (_ & X & Y & _). rewrite (completes_full _ _ _ _ K1 X). auto.
      * intros j J. rewrite given_snoc, map_app, in_app_iff in J. assert (J1 : ~ In j (map fst (given done))) by tauto. assert (J2 : ~ In j (map fst (given_in l))) by tauto.
        destruct (D j J1) as [X|X].
        -- pose proof (G5 j J2 X) as Y. destruct (K1 j) as [K|(_ & K & _)]; [left; rewrite K; exact Y|right; exact K].
        -- destruct (isempty (c_shape (curdes st) j)) eqn:Ej; [pose proof (G5 j J2 Ej) as Y; destruct (K1 j) as [K|(_ & K & _)]; [left; rewrite K; exact Y|right; exact K]|]. right. rewrite (Keep _ Ej). exact X.
      * intros l1 l' l2 j t Hd J. apply snoc_split in Hd as [(-> & Q & ->)|(l2' & -> & ->)].
        -- injection Q as <-. destruct (G3 _ _ J) as (_ & X & _ & Y). rewrite (completes_full _ _ _ _ K1 X), Y. split; [discriminate|]. intros (e & [] & _).
        -- assert (Jg : In (j, t) (given (l1 ++ i_shapes l' :: l2'))) by (unfold given; rewrite flat_map_app; cbn [flat_map]; apply in_or_app; right; apply in_or_app; left; exact J).
           destruct (C _ _ Jg) as [X _]. rewrite (Keep _ X), (E _ _ _ _ _ eq_refl J). split; intros (e & Y1 & Y2); exists e; (split; [|exact Y2]).
           ++ apply in_or_app. left. exact Y1.
           ++ apply in_app_or in Y1 as [Y1|[Y1|[]]]; [exact Y1|discriminate Y1].
      * assert (M : forall dim s, min_size dim (c_shape (curdes st)) s <= min_size dim sh s) by (intros dim s; unfold min_size; apply sum_le; intros j; apply grown_size; apply Keep).
        assert (Mh : highest (c_shape (curdes st)) (seq 0 16) <= highest sh (seq 0 16)) by (unfold highest; apply (maxl_le (fun i => if isempty (c_shape (curdes st) i) then 0 else s_height (c_shape (curdes st) i)) (fun i => if isempty (sh i) then 0 else s_height (sh i))); intros j; apply grown_size; apply Keep).
        unfold sizes_exact. cbn [set_sizes set_shape c_shape c_minwidth c_minheight c_maxshapeheight]. rewrite Z1, Z2, Z3, F1, F2, F3.
        pose proof (M s_width BTOP). pose proof (M s_width BBOT). pose proof (M s_height BLEF). pose proof (M s_height BRIG).
        change [0; 1; 2; 3; 4; 5; 6; 7; 8; 9; 10; 11; 12; 13; 14; 15] with (seq 0 16). repeat split; lia.
    + (* elastic *)
      destruct I as [A B C D E (F1 & F2 & F3)]. assert (G : given (done ++ [i_elastic l]) = given done) by (rewrite given_snoc; apply app_nil_r).
      constructor; rewrite ?G, ?O; cbn [set_shape c_shape].
      * intros j. apply mark_entry. apply A.
      * exact B.
      * intros j t J. rewrite mark_empty. destruct (mark_same l (c_shape (curdes st)) j) as (_ & -> & _). apply C. exact J.
      * intros j J. rewrite mark_empty. destruct (D j J) as [X|X]; [left; exact X|right]. unfold blank_shape in *. destruct (mark_same l (c_shape (curdes st)) j) as (-> & -> & -> & ->). exact X.
      * intros l1 l' l2 j t H' J. apply snoc_split in H' as [(_ & Q & _)|(l2' & -> & ->)]; [discriminate Q|]. rewrite mark_elastic_iff, (E _ _ _ _ _ eq_refl J). split.
        -- intros [(e & X & Y)|Y]; [exists e; split; [apply in_or_app; left; exact X|exact Y]|exists l; split; [apply in_or_app; right; left; reflexivity|exact Y]].
        -- intros (e & X & Y). apply in_app_or in X as [X|[X|[]]]; [left; eauto|]. injection X as ->. right. exact Y.
      * unfold sizes_exact. cbn [set_shape c_shape c_minwidth c_minheight c_maxshapeheight].
        assert (M : forall dim s, (forall i, dim (fold_left mark_elastic l (c_shape (curdes st)) i) = dim (c_shape (curdes st) i)) -> min_size dim (fold_left mark_elastic l (c_shape (curdes st))) s = min_size dim (c_shape (curdes st)) s) by (intros dim s X; apply min_size_mark; exact X).
        rewrite !M by (intros j; apply mark_same). split; [exact F1|]. split; [exact F2|]. rewrite F3. unfold highest. f_equal. apply map_ext. intros j. rewrite mark_empty. destruct (mark_same l (c_shape (curdes st)) j) as (_ & _ & -> & _). reflexivity.
    + destruct O as (bs & br & _ & _ & ->). eapply inv_other; [exact I|repeat split|reflexivity|exact Logic.I].
    + destruct O as (bs & br & _ & _ & ->). eapply inv_other; [exact I|repeat split|reflexivity|exact Logic.I].
    + rewrite O. eapply inv_other; [exact I|repeat split|reflexivity|exact Logic.I].
    + rewrite O. eapply inv_other; [exact I|repeat split|reflexivity|exact Logic.I].
Qed.
Lemma inv_items : forall l done st st', Forall (legible U) l -> shapes_inv done (curdes st) -> do_items st l = Ok (RC_SUCCESS st') -> shapes_inv (done ++ l) (curdes st').
Proof.
  induction l as [|i l IH]; intros done st st' L I H; [injection H as <-; rewrite app_nil_r; exact I|]. inversion L as [|? ? L1 L2]; subst. apply items_cons in H as (s & H1 & H2).
  change (i :: l) with ([i] ++ l). rewrite app_assoc. eapply IH; [exact L2|eapply inv_step; eassumption|exact H2].
Qed.

(** ** Together *)
Lemma described_ok : forall l n a st st', uc_is_blank U 10 = false -> Forall (legible U) l -> curdes st = set_name n (set_aliases a init_design) -> do_items st l = Ok (RC_SUCCESS st') -> described U eol l (curdes st').
Proof.
  intros l n a st st' NL L E H.
  assert (I0 : shapes_inv [] (curdes st)).
  { rewrite E. constructor; cbn [set_name set_aliases init_design c_shape].
    - intros i. left. apply hollow0.
    - constructor.
    - intros i t [].
    - intros i _. left. reflexivity.
    - intros l1 l0 l2 i t F. destruct l1; discriminate F.
    - repeat split. }
  pose proof (inv_items _ _ _ _ L I0 H) as [A B C D F (G1 & G2 & G3)]. cbn [app] in *.
  constructor.
  - apply dc_author_ok in H. rewrite E in H. exact H.
  - apply dc_designer_ok in H. rewrite E in H. exact H.
  - apply dc_indent_ok in H; [|exact L]. rewrite E in H. exact H.
  - exact (dc_keywords_ok _ _ _ H).
  - destruct (dc_tags_ok l st st' L) as [T1 T2]; [rewrite E; constructor|rewrite E; constructor|exact H|]. split; [exact T1|]. intros t. rewrite T2, E. cbn [set_name set_aliases init_design c_tags In]. tauto.
  - intros s. apply (dc_padding_ok s) in H. rewrite E in H. exact H.
  - apply dc_rules_ok in H as [H _]. rewrite E in H. exact H.
  - apply dc_rules_ok in H as [_ H]. rewrite E in H. exact H.
  - pose proof (dc_sample_ok NL l st st' L H) as S. rewrite E in S. exact S.
  - exact B.
  - intros i t J. destruct (C i t J) as [X Y]. destruct (entry_solid _ _ (A i) X) as (_ & [K1 K2 K3] & _). split; [exact Y|]. rewrite <- Y, map_length. split; [symmetry; exact K1|].
    apply Forall_forall. intros x Hx. apply in_map_iff in Hx as (m & <- & Hm). rewrite Forall_forall in K3. apply (K3 m Hm).
  - exact D.
  - exact F.
  - exact G1.
  - exact G2.
  - exact G3.
Qed.
End Layout.

Section Statement.
Variable U : uctab.
Hypothesis HU : uctab_ok U.
Hypothesis NL : uc_is_blank U 10 = false.
Variable beyond : res sentry.
Variable po : popts.
Variable eol : list N.
Variable children : list cdesign.
Variable fopen_ok : list N -> bool.
Variable sur : surroundings.
Lemma aliases_new : forall l st st', add_aliases children st l = (st', true) ->
  st' = with_cur (set_aliases (c_aliases (curdes st) ++ filter (fun a => negb (alias_exists_in_child_configs children a)) l) (curdes st)) st.
Proof.
  induction l as [|a l IH]; intros st st' H; cbn [add_aliases filter] in *.
  - injection H as <-. rewrite app_nil_r. destruct st as [? c ? ? ? ? ? ?]. destruct c. reflexivity.
  - unfold action_add_alias in H. destruct (design_name_exists st a); [discriminate H|]. destruct (alias_exists_in_child_configs children a); cbn [negb]; [exact (IH _ _ H)|].
    rewrite (IH _ _ H). cbn [with_cur set_aliases c_aliases curdes]. rewrite <- app_assoc. reflexivity.
Qed.
Lemma alias_known_ok : forall a, negb (alias_exists_in_child_configs children a) = true <-> ~ alias_known children a.
Proof.
  intros a. unfold alias_exists_in_child_configs, alias_known. rewrite negb_true_iff. split.
  - intros H (d & b & D & B & N). assert (T : existsb (fun d => design_has_alias d a) children = true) by (apply existsb_exists; exists d; split; [exact D|]; apply has_alias_ok; eauto). congruence.
  - intros H. destruct (existsb _ _) eqn:E; [|reflexivity]. elim H. apply existsb_exists in E as (d & D & E). apply has_alias_ok in E as (b & B & N). eauto.
Qed.
Lemma alone_stands : forall s d, legible_stmt U s -> alone U beyond po eol children fopen_ok sur s d -> made_by s d -> stands_for U eol children s d.
Proof.
  intros s d L H (name & al & layout & fin & -> & Hl & _ & Hn & _). cbn [legible_stmt] in L. exists name, al, layout, fin. split; [reflexivity|].
  unfold alone in H. cbn [parse_config_file do_stmts do_stmt] in H.
  destruct (add_aliases children pstate0 al) as [st1 ok1] eqn:Ea. destruct ok1; cbn [negb] in H.
  2:{ cbn [bind] in H. exfalso. destruct (aliases_shape children al pstate0) as (l1 & E1). rewrite Ea in E1. cbn [fst] in E1. subst st1. cbn in H. destruct (choice po); discriminate H. }
  apply aliases_new in Ea. unfold action_start_parsing_design in H. set (st2 := with_cur (set_name (Some name) (curdes st1)) (with_flags false false st1)) in *.
  destruct (design_needed po st2); cbn [negb] in H; [|exfalso; subst st1; subst st2; cbn in H; destruct (choice po); discriminate H].
  destruct layout as [|i0 layout]; [congruence|]. cbn [is_nil] in H. remember (i0 :: layout) as lay eqn:Elay.
  assert (D2 : b_designs st2 = []) by (subst st2 st1; reflexivity).
  destruct (do_items U beyond eol st2 lay) as [r| | | |] eqn:Ei; cbn [bind] in H; try discriminate H. destruct r as [st3| | |st3].
  - assert (X : same_nocase name fin = true /\ d = curdes st3).
    { pose proof (items_kept _ _ _ _ _ _ Ei) as (K1 & K2 & K3 & K4 & K5 & K6). unfold action_add_design in H.
      assert (Ed : b_designs (after_error st3) = []) by (unfold after_error; destruct (_ && _); cbn [b_designs with_cur]; rewrite K1; exact D2).
      destruct (same_nocase name fin); cbn [negb] in H; [|exfalso; cbn [bind] in H; rewrite Ed in H; destruct (_ && _); discriminate H].
      destruct (num_mandatory st3 <? 3); [exfalso; cbn [bind] in H; rewrite Ed in H; destruct (_ && _); discriminate H|].
      destruct (design_name_exists st3 name); [exfalso; cbn [bind] in H; rewrite Ed in H; destruct (_ && _); discriminate H|].
      split; [reflexivity|]. destruct (full_parse_required po); cbn [bind] in H; rewrite K1, D2 in H; cbn in H; injection H as H _; symmetry; exact H. }
    destruct X as [Xn ->]. split; [apply same_ok; exact Xn|]. split; [exact Hn|]. split.
    + exists (fun a => negb (alias_exists_in_child_configs children a)). split; [exact alias_known_ok|]. pose proof (items_kept _ _ _ _ _ _ Ei) as (_ & _ & K3 & _). rewrite K3. subst st2. rewrite Ea. reflexivity.
    + eapply (described_ok U HU beyond eol lay (Some name)); [exact NL|exact L| |exact Ei]. subst st2. rewrite Ea. cbn [with_cur with_flags curdes pstate0]. reflexivity.
  - exfalso. subst st2 st1. cbn in H. destruct (choice po); discriminate H.
  - exfalso. cbn in H. discriminate H.
  - elim (do_items_accept _ _ _ _ _ _ Ei).
Qed.
Lemma file_stands : forall l ds ps, Forall (legible_stmt U) l -> parse_config_file U beyond po eol children fopen_ok sur (Some l) = Ok (ds, ps) ->
  exists ss, subseq ss l /\ Forall2 (stands_for U eol children) ss ds.
Proof.
  intros l ds ps L H. apply designs_alone in H as (ss & S & F). exists ss. split; [exact S|].
  assert (Ls : Forall (legible_stmt U) ss) by (clear -L S; induction S; [constructor|inversion L; subst; constructor; auto|inversion L; subst; auto]).
  clear S. induction F as [|s d ss ds (A & M) F IH]; [constructor|]. inversion Ls as [|? ? L1 L2]; subst. constructor; [apply alone_stands; assumption|exact (IH L2)].
Qed.
End Statement.
