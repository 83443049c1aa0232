(** * Concrete designs and inputs for the examples, and a checker for well-formedness *)
From Coq Require Import Ascii String List Arith NArith ZArith Bool Lia.
From Verif Require Import Base BaseFacts Model_Unicode Model_Bxs Model_Shape Model_Generate
  Spec_Str Spec_Design Spec_Box Proof_Str Proof_Bxs Proof_BxsOps Proof_Shows Prop_Str.
Import ListNotations.
Local Open Scope nat_scope.

Lemma In_firstn : forall (A : Type) n (l : list A) x, In x (firstn n l) -> In x l.
Proof. intros A n l x H. rewrite <- (firstn_skipn n l). apply in_or_app. auto. Qed.

(** text of a Coq string literal *)
Fixpoint txt (s : string) : list N :=
  match s with EmptyString => [] | String a r => N_of_ascii a :: txt r end.

Lemma shows_ascii : forall U, uctab_ok U -> forall l, forallb is_ascii_printable l = true -> shows U (List.length l) l.
Proof.
  intros U HU l H. apply (shows_closed U HU). exists (plain l).
  assert (Hp : forall c, In c l -> (32 <= c /\ c < 127)%N).
  { intros c Hc. rewrite forallb_forall in H. specialize (H c Hc). unfold is_ascii_printable in H.
    rewrite andb_true_iff, N.leb_le, N.ltb_lt in H. exact H. }
  split; [|split].
  - split; [apply closed_plain; intros Hx; apply Hp in Hx; lia|].
    unfold allowed, tabless. rewrite visible_plain. split.
    + apply Forall_forall. intros c Hc. unfold is_allowed_anywhere.
      assert (E : uc_is_cntrl U c = false).
      { apply (ok_cntrl U HU). rewrite forallb_forall in H. auto. }
      rewrite E. reflexivity.
    + intros Hx. apply Hp in Hx. lia.
  - apply render_plain.
  - unfold columns. rewrite visible_plain. clear Hp.
    induction l as [|c l IH]; [reflexivity|]. cbn [forallb fold_right length] in *.
    apply andb_true_iff in H as [Hc H]. rewrite (IH H), (char_cols_term U HU). unfold term_width.
    rewrite (ok_width U HU c Hc). destruct (N.eqb_spec c 9); reflexivity.
Qed.

(** ** Deciding well-formedness for designs made of printable ASCII characters *)
Definition row_okb (w : nat) (m : bxstr) : bool :=
  forallb is_ascii_printable (memory m) && (length (memory m) =? w) && (num_chars m =? length (memory m)).
Definition shape_okb (s : sentry) : bool :=
  (length (s_mbcs s) =? s_height s) && (length (s_chars s) =? s_height s) && forallb (row_okb (s_width s)) (s_mbcs s).
Definition single_elasticb (side : nat -> sentry) : bool :=
  existsb (fun e => negb (isempty (side e)) && s_elastic (side e) &&
    forallb (fun j => (j =? e) || negb (s_elastic (side j))) [1;2;3]) [1;2;3].
Definition double_elasticb (side : nat -> sentry) : bool :=
  forallb (fun j => negb (isempty (side j))) [1;2;3] && s_elastic (side 1) && negb (s_elastic (side 2)) && s_elastic (side 3).
Definition side_okb (side : nat -> sentry) : bool := single_elasticb side || double_elasticb side.

Definition wf_designb (d : design) : bool :=
  let sarr := d_shape d in
  forallb (fun c => negb (isempty (sarr c))) corners &&
  forallb (fun s => side_okb (at_side sarr s)) [BTOP; BRIG; BBOT; BLEF] &&
  forallb (fun i => isempty (sarr i) || shape_okb (sarr i)) (seq 0 16) &&
  forallb (fun s => forallb (fun i => isempty (at_side sarr s i) ||
     forallb (fun l => length l =? s_width (at_side sarr s i)) (s_chars (at_side sarr s i))) [1;2;3]) [BTOP; BBOT] &&
  forallb (fun s => forallb (fun i => isempty (at_side sarr s i) ||
     (s_height (at_side sarr s i) =? s_height (at_side sarr s 0))) (seq 0 5)) [BTOP; BBOT] &&
  forallb (fun s => forallb (fun i => isempty (at_side sarr s i) ||
     (s_width (at_side sarr s i) =? s_width (at_side sarr s 0))) (seq 0 5)) [BLEF; BRIG] &&
  forallb (fun s => sum (map (fun i => size s_width (sarr i)) (side_of s)) <=? d_minwidth d) [BTOP; BBOT] &&
  forallb (fun s => sum (map (fun i => size s_height (sarr i)) (side_of s)) <=? d_minheight d) [BLEF; BRIG].

Lemma side_okb_ok : forall side, side_okb side = true -> side_ok side.
Proof.
  intros side H. unfold side_okb in H. apply orb_true_iff in H as [H|H].
  - left. unfold single_elasticb in H. apply existsb_exists in H as (e & He & H).
    rewrite !andb_true_iff, negb_true_iff in H. destruct H as [[H1 H2] H3].
    exists e. split; [exact He|]. split; [exact H1|]. split; [exact H2|].
    intros j Hj Hn. rewrite forallb_forall in H3. specialize (H3 j Hj). apply orb_true_iff in H3 as [H3|H3].
    + apply Nat.eqb_eq in H3. contradiction.
    + apply negb_true_iff in H3. exact H3.
  - right. unfold double_elasticb in H. rewrite !andb_true_iff, negb_true_iff in H.
    destruct H as [[[H1 H2] H3] H4]. split; [|auto].
    intros j Hj. rewrite forallb_forall in H1. apply negb_true_iff. auto.
Qed.

Lemma shape_okb_ok : forall U, uctab_ok U -> forall s, shape_okb s = true -> shape_ok U s.
Proof.
  intros U HU s H. unfold shape_okb in H. rewrite !andb_true_iff, !Nat.eqb_eq in H. destruct H as [[H1 H2] H3].
  constructor; auto. apply Forall_forall. intros m Hm. rewrite forallb_forall in H3. specialize (H3 m Hm).
  unfold row_okb in H3. rewrite !andb_true_iff, !Nat.eqb_eq in H3. destruct H3 as [[H3 H4] H5].
  split; [|exact H5]. rewrite <- H4. apply shows_ascii; assumption.
Qed.

Lemma wf_designb_ok : forall U, uctab_ok U -> forall d, wf_designb d = true -> wf_design U d.
Proof.
  intros U HU d H. unfold wf_designb in H. rewrite !andb_true_iff in H.
  destruct H as [[[[[[[H1 H2] H3] H4] H5] H6] H7] H8].
  rewrite forallb_forall in H1, H2, H3, H4, H5, H6, H7, H8.
  constructor.
  - intros c Hc. apply negb_true_iff. auto.
  - intros s. apply side_okb_ok. apply H2. destruct s; cbn; auto.
  - intros i Hi Hne. specialize (H3 i ltac:(apply in_seq; lia)). rewrite Hne in H3. apply shape_okb_ok; assumption.
  - intros s i Hs Hi Hne. specialize (H4 s ltac:(cbn; destruct Hs; subst; auto)). rewrite forallb_forall in H4.
    specialize (H4 i Hi). rewrite Hne in H4. cbn [orb] in H4. apply Forall_forall. intros l Hl.
    rewrite forallb_forall in H4. apply Nat.eqb_eq. auto.
  - intros s i Hs Hi Hne. specialize (H5 s ltac:(cbn; destruct Hs; subst; auto)). rewrite forallb_forall in H5.
    specialize (H5 i ltac:(apply in_seq; lia)). rewrite Hne in H5. apply Nat.eqb_eq. exact H5.
  - intros s i Hs Hi Hne. specialize (H6 s ltac:(cbn; destruct Hs; subst; auto)). rewrite forallb_forall in H6.
    specialize (H6 i ltac:(apply in_seq; lia)). rewrite Hne in H6. apply Nat.eqb_eq. exact H6.
  - intros s Hs. apply Nat.leb_le. apply H7. destruct Hs; subst; cbn; auto.
  - intros s Hs. apply Nat.leb_le. apply H8. destruct Hs; subst; cbn; auto.
Qed.

(** ** Building designs *)
Definition mkrow (s : string) : bxstr :=
  match bxs_from_unicode demo_tab (txt s) with Ok b => b | _ => bxs_new_empty_string end.
Definition shp (el : bool) (rows : list string) : sentry :=
  mkSentry (map txt rows) (map mkrow rows) (length rows) (match rows with r :: _ => String.length r | [] => 0 end) el.
Fixpoint lookup (l : list (nat * sentry)) (i : nat) : sentry :=
  match l with (k, s) :: r => if k =? i then s else lookup r i | [] => sentry0 end.

Local Open Scope string_scope.
(** a plain box *)
Definition demo_shapes := lookup
  [ (NW, shp false ["/"]); (N_, shp true ["-"]); (NE, shp false ["\"]);
    (W_, shp true ["|"]); (E_, shp true ["|"]);
    (SW, shp false ["\"]); (S_, shp true ["-"]); (SE, shp false ["/"]) ].
Definition demo : design := mkDesign demo_shapes 98 0 1 0 1 3 3.
(** a comment: left border only, everything else blank *)
Definition demo_cmt_shapes := lookup
  [ (NW, shp false ["  "]); (N_, shp true [" "]); (NE, shp false [" "]);
    (W_, shp true ["# "]); (E_, shp true [" "]);
    (SW, shp false ["  "]); (S_, shp true [" "]); (SE, shp false [" "]) ].
Definition demo_cmt : design := mkDesign demo_cmt_shapes 98 0 0 0 0 4 3.
(** several shapes on a side, different widths, two elastic ones at the top *)
Definition demo_rich_shapes := lookup
  [ (NW, shp false ["/*"; " *"]); (NNW, shp true ["="; "-"]); (N_, shp false ["<>"; "><"]); (NNE, shp true ["+"; "."]);
    (NE, shp false ["*\"; "* "]);
    (ENE, shp false ["* "; "*|"]); (E_, shp true [" *"]);
    (SE, shp false ["*/"]); (SSE, shp false ["o"]); (S_, shp true ["~"]); (SW, shp false ["\*"]);
    (W_, shp true ["* "]); (WNW, shp false ["||"]) ].
Definition demo_rich : design := mkDesign demo_rich_shapes 98 1 2 0 1 8 6.
(** sides that can never be made equal: the top is 2, 4, 6, ... wide, the bottom 3, 5, 7, ... *)
Definition demo_odd_shapes := lookup
  [ (NW, shp false ["+"]); (N_, shp true ["=="]); (NE, shp false ["+"]);
    (W_, shp true ["|"]); (E_, shp true ["|"]);
    (SW, shp false ["+"]); (SSE, shp false ["o"]); (S_, shp true ["=="]); (SE, shp false ["+"]) ].
Definition demo_odd : design := mkDesign demo_odd_shapes 98 0 0 0 0 5 3.

Definition mkline (s : string) : line := mkLine (mkrow s) [].
Definition mkinp (ls : list string) (fin : bool) : input :=
  mkInput (map mkline ls) (maxl (map (fun s => String.length s) ls)) 0 fin.
(** tabs expanded, no alignment, no justification, no size, no padding given *)
Definition opts0 : opts := mkOpts 101 8 108 116 0 0 0 (-1) (-1) (-1) (-1).

(** output as strings, to make examples readable *)
Fixpoint str (l : list N) : string :=
  match l with [] => EmptyString | c :: r => String (ascii_of_N c) (str r) end.

Local Close Scope string_scope.

(** input lines of printable ASCII characters are well-formed input *)
Lemma txt_length : forall s, length (txt s) = String.length s.
Proof. induction s; cbn; congruence. Qed.

Lemma reads_ascii : forall l ts, forallb is_ascii_printable l = true -> reads l ts -> visible ts = l.
Proof.
  intros l ts H Hr.
  assert (Hp : reads l (plain l)).
  { split; [|apply render_plain]. apply closed_plain. intros Hx. rewrite forallb_forall in H. specialize (H _ Hx). discriminate. }
  destruct (reading_total_unique l) as (t & _ & Hu). rewrite <- (Hu ts Hr), (Hu _ Hp). apply visible_plain.
Qed.

Lemma mkinp_wf : forall o d ls ml ind fin, ls <> [] ->
  forallb (fun s => forallb is_ascii_printable (txt s) && (String.length s <=? ml)) ls = true ->
  N.eqb (o_tabexp o) 101 || negb (N.eqb (d_indentmode d) 98) || (ind <? o_tabstop o) = true ->
  N.eqb (o_justify o) 0 || negb (N.eqb (d_indentmode d) 116) = true ->
  wf_input demo_tab o d (mkInput (map mkline ls) ml ind fin).
Proof.
  intros o d ls ml ind fin Hne H Ht Hj.
  assert (HL : forall l, In l (map mkline ls) -> forallb is_ascii_printable (memory (l_text l)) = true /\
     length (memory (l_text l)) <= ml /\ bxs_from_unicode demo_tab (memory (l_text l)) = Ok (l_text l)).
  { intros l Hl. apply in_map_iff in Hl as (s & <- & Hs). rewrite forallb_forall in H. specialize (H s Hs).
    apply andb_true_iff in H as [H1 H2]. apply Nat.leb_le in H2.
    destruct (shows_from demo_tab demo_tab_ok _ _ (shows_ascii demo_tab demo_tab_ok _ H1)) as (b & Eb & Hm & _).
    cbn [mkline l_text]. unfold mkrow. rewrite Eb, Hm. rewrite txt_length. auto. }
  constructor.
  - cbn. destruct ls; [congruence|discriminate].
  - intros l Hl. destruct (HL l Hl) as (H1 & H2 & H3). exists (memory (l_text l)), (length (memory (l_text l))).
    split; [apply shows_ascii; [exact demo_tab_ok|exact H1]|]. split; assumption.
  - unfold tab_free_indent. cbn [i_indent]. rewrite !orb_true_iff, negb_true_iff, N.eqb_eq, N.eqb_neq, Nat.ltb_lt in Ht. tauto.
  - intros HJ l ts Hl Hr _. destruct (HL l Hl) as (H1 & _). rewrite (reads_ascii _ _ H1 Hr). split.
    + unfold narrow_indent. apply Forall_forall. intros c Hc. apply (In_firstn _ _ _ _) in Hc.
      rewrite forallb_forall in H1. unfold term_width. rewrite (ok_width demo_tab demo_tab_ok c (H1 c Hc)).
      destruct (N.eqb c 9); reflexivity.
    + intros Hd. rewrite orb_true_iff, negb_true_iff, N.eqb_eq, N.eqb_neq in Hj. tauto.
Qed.
