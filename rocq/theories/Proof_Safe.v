(** * Reading configuration files is safe *)
From Coq Require Import Ascii String List Arith NArith ZArith Bool Lia.
From Verif Require Import Base BaseFacts Model_Unicode Model_Bxs Model_Shape Spec_Str Proof_Str Proof_Bxs Proof_BxsOps Proof_BxsMore Proof_Shows Spec_Design
  Model_Regex Model_Query Model_Discovery Model_Parser Spec_Parser Proof_Tags Spec_Safe.
Import ListNotations.
Local Open Scope nat_scope.
Local Open Scope list_scope.

Definition fine_res {A : Type} (r : res A) : Prop := exists x, r = Ok x.
Lemma fine_ok : forall (A : Type) (x : A), fine_res (Ok x).
Proof. intros A x. exists x. reflexivity. Qed.
Lemma fine_bind : forall (A B : Type) (r : res A) (k : A -> res B), fine_res r -> (forall x, r = Ok x -> fine_res (k x)) -> fine_res (bind r k).
Proof. intros A B r k [x ->] H. cbn [bind]. apply H. reflexivity. Qed.
Lemma fine_then : forall (A B : Type) (r : res (rc A)) (k : A -> res (rc B)), fine_res r -> (forall x, fine_res (k x)) -> fine_res (then_ r k).
Proof. intros A B r k [x ->] H. unfold then_. cbn [bind]. destruct x; try apply H; apply fine_ok. Qed.
#[local] Hint Resolve fine_ok : core.

Section Safe.
Variable U : uctab.
Hypothesis HU : uctab_ok U.

(** every string that is built from legal characters *)
Record fit (s : list N) (b : bxstr) : Prop := {
  ft_memory : memory b = s;
  ft_chars : num_chars b = List.length s;
  ft_first : List.length (first_char b) = S (num_chars_visible b);
  ft_in : Forall (fun p => p <= List.length s) (first_char b);
  ft_trailing : trailing b <= num_chars_visible b;
  ft_indent : indent b <= num_chars_visible b;
  ft_plain : num_chars_invisible b = 0 -> ~ In 27%N s
}.
Lemma stepT_first : forall ts st n, toks_ok ts -> List.length (b_first st) = b_visible st -> Forall (fun p => p <= n) (b_first st) -> b_idx st + List.length (render ts) <= n ->
  (forall k, b_cand st = Some k -> k <= b_idx st) -> let st' := fold_left (stepT U) ts st in
  List.length (b_first st') = b_visible st' /\ Forall (fun p => p <= n) (b_first st') /\ b_idx st' <= n.
Proof.
  induction ts as [|t ts IH]; intros st n Hok Hl Hf Hi Hc; cbn [fold_left]; [cbn in Hi; repeat split; try assumption; lia|].
  rewrite render_cons, app_length in Hi. destruct Hok as (Ht & _ & Hok). apply IH; [exact Hok| | | |].
  - destruct t; cbn [stepT b_first b_visible]; try exact Hl. rewrite app_length. cbn. lia.
  - destruct t; cbn [stepT b_first]; try exact Hf. apply Forall_app. split; [exact Hf|]. constructor; [|constructor]. destruct (b_cand st) as [k|]; [specialize (Hc k eq_refl)|]; lia.
  - destruct t; cbn [stepT b_idx adv_tok snd tok_chars List.length] in *; lia.
  - intros k Hk. destruct t; cbn [stepT b_cand b_idx] in *; [discriminate| | |]; destruct (is_csi_reset _); try discriminate; injection Hk as <-; lia.
Qed.
Lemma stepT_inv : forall ts st, b_invisible st <= b_invisible (fold_left (stepT U) ts st) /\
  (toks_ok ts -> b_invisible (fold_left (stepT U) ts st) = 0 -> ts = map Vis (visible ts)).
Proof.
  induction ts as [|t ts IH]; intros st; cbn [fold_left]; [split; [lia|reflexivity]|]. destruct (IH (stepT U st t)) as [I1 I2].
  assert (J : b_invisible (stepT U st t) = b_invisible st + snd (adv_tok t)) by (destruct t; cbn [stepT b_invisible adv_tok snd]; lia).
  split; [lia|]. intros (Ht & _ & Hok) E. rewrite visible_cons.
  destruct t as [c|x|x|d]; [cbn [map app]; change (map Vis ([c] ++ visible ts)) with (Vis c :: map Vis (visible ts)); f_equal; auto| | |]; exfalso; cbn [adv_tok snd] in J.
  - pose proof (tok_len_pos (Esc x) Ht) as K. cbn [tok_chars] in *. lia.
  - pose proof (tok_len_pos (Cut x) Ht) as K. cbn [tok_chars] in *. lia.
  - lia.
Qed.
Lemma visible_in : forall ts c, In c (visible ts) -> In c (render ts).
Proof. intros ts c H. unfold visible, render in *. rewrite in_flat_map in *. destruct H as (t & Ht & Hc). exists t. split; [exact Ht|]. destruct t; cbn in *; tauto. Qed.
Lemma blank_in : forall l, narrow_lead U l -> lead_cols U l <= List.length l.
Proof. intros l H. rewrite lead_cols_narrow by exact H. apply lead_le. Qed.
Lemma legal_narrow : forall s, Forall (legal U) s -> narrow_lead U s.
Proof.
  intros s H. unfold narrow_lead. apply Forall_forall. intros c Hc.
  assert (B : is_blank U c = true).
  { pose proof (lead_firstn_blank (is_blank U) s) as F. rewrite forallb_forall in F. apply F. exact Hc. }
  assert (Hin : In c s) by (rewrite <- (firstn_skipn (lead (is_blank U) s) s); apply in_app_iff; left; exact Hc).
  rewrite Forall_forall in H. destruct (H c Hin) as (N9 & _ & W). unfold is_blank in B. unfold char_cols.
  destruct (is_ascii_printable c); [reflexivity|]. destruct (N.eqb_spec c char_tab); [reflexivity|]. rewrite W; [reflexivity|exact B].
Qed.
Lemma legal_from : forall s, Forall (legal U) s -> exists b, bxs_from_unicode U s = Ok b /\ fit s b.
Proof.
  intros s H. destruct (tokenize_exists s) as (ts & Hok & <-).
  assert (Hv : Forall (legal U) (visible ts)) by (apply Forall_forall; intros c Hc; rewrite Forall_forall in H; apply H, visible_in, Hc).
  destruct (from_unicode_all_ok U HU ts Hok) as (b & Hb).
  - intros F. rewrite Forall_forall in Hv. destruct (Hv _ F) as (A & _). congruence.
  - apply tok_allowed_iff. eapply Forall_impl; [|exact Hv]. intros c (_ & A & _). exact A.
  - exists b. split; [exact Hb|]. destruct (from_unicode_inv U ts b Hok Hb) as (_ & _ & ->). clear Hb.
    destruct (stepT_first ts bst0 (List.length (render ts)) Hok eq_refl (Forall_nil _) (Nat.le_refl _) ltac:(discriminate)) as (F1 & F2 & F3).
    constructor; cbn [memory num_chars first_char num_chars_visible trailing indent num_chars_invisible]; try reflexivity.
    + rewrite app_length. cbn. lia.
    + apply Forall_app. split; [exact F2|]. constructor; [exact F3|constructor].
    + rewrite fold_visible, fold_nonblank, fold_streak. cbn [bst0 b_visible b_nonblank orb negb b_streak]. destruct (all_blank U (visible ts)); cbn [negb]; [lia|]. pose proof (trail_le (is_blank U) (visible ts)). lia.
    + rewrite fold_visible, fold_indent. cbn [bst0 b_visible b_indent b_indent_active Nat.add]. apply blank_in, legal_narrow, Hv.
    + intros E F. destruct (stepT_inv ts bst0) as [_ G]. specialize (G Hok E). assert (K : render ts = visible ts) by (rewrite G at 1; apply render_vis). rewrite K in F.
      assert (T : forall l, toks_ok (map Vis l) -> ~ In 27%N l) by (clear; induction l as [|c l IH]; intros T E; [exact E|]; destruct T as (T1 & _ & T2); destruct E as [E|E]; [exact (T1 E)|exact (IH T2 E)]).
      rewrite G in Hok. exact (T _ Hok F).
Qed.
Lemma legal_tok : forall s, Forall (legal U) s -> exists b, string_tok U s = Ok (Some b) /\ bxs_from_unicode U s = Ok b /\ fit s b.
Proof. intros s H. destruct (legal_from s H) as (b & E & F). exists b. split; [|auto]. unfold string_tok, utf8_to_bxs. rewrite E. reflexivity. Qed.
Lemma line_legal : forall s, legal_line U s -> Forall (legal U) s.
Proof. intros s H. eapply Forall_impl; [|exact H]. intros c [A _]. exact A. Qed.
Lemma line_plain : forall s, legal_line U s -> ~ In 27%N s -> plain_text s.
Proof. intros s H H27. unfold legal_line in H. rewrite Forall_forall in H. apply Forall_forall. intros c Hc. destruct (H c Hc) as [(A & _) C]. repeat split; try assumption. intros ->. contradiction. Qed.
Lemma line_tok : forall s, legal_line U s -> exists b, string_tok U s = Ok (Some b) /\ bxs_from_unicode U s = Ok b /\ fit s b.
Proof. intros s H. apply legal_tok, line_legal, H. Qed.
Ltac tok := match goal with |- context [string_tok U ?s] => let b := fresh "b" in let E := fresh "E" in let Ef := fresh "Ef" in let F := fresh "F" in
  destruct (line_tok s) as (b & E & Ef & F); [assumption|]; rewrite E; cbn [bind] end.
Lemma fit_rd : forall s b i, fit s b -> i <= num_chars_visible b -> exists p, rd (first_char b) i = Ok p /\ p <= List.length s.
Proof.
  intros s b i F Hi. exists (nth i (first_char b) 0). assert (L : i < List.length (first_char b)) by (rewrite (ft_first s b F); lia).
  split; [apply rd_lt; exact L|]. pose proof (ft_in s b F) as G. rewrite Forall_forall in G. apply G. apply nth_In. exact L.
Qed.
Lemma legal_firstn : forall k s, Forall (legal U) s -> Forall (legal U) (firstn k s).
Proof. intros k s H. rewrite <- (firstn_skipn k s) in H. apply Forall_app in H. apply H. Qed.
Lemma legal_skipn : forall k s, Forall (legal U) s -> Forall (legal U) (skipn k s).
Proof. intros k s H. rewrite <- (firstn_skipn k s) in H. apply Forall_app in H. apply H. Qed.
Lemma rtrim_safe : forall s b, Forall (legal U) s -> bxs_from_unicode U s = Ok b -> fit s b -> exists t y, bxs_rtrim U b = Ok y /\ Forall (legal U) t /\ fit t y.
Proof.
  intros s b H E F. unfold bxs_rtrim. destruct (trailing b =? 0); [exists s, b; auto|]. pose proof (ft_trailing s b F). unfold subz.
  destruct (Nat.ltb_spec (num_chars_visible b) (trailing b)); [lia|]. cbn [bind].
  destruct (fit_rd s b (num_chars_visible b - trailing b) F ltac:(lia)) as (p & -> & Hp). cbn [bind]. rewrite (ft_memory s b F).
  destruct (Nat.ltb_spec (List.length s) p); [lia|]. destruct (legal_from _ (legal_firstn p s H)) as (y & Ey & Fy). exists (firstn p s), y. auto using legal_firstn.
Qed.
Lemma trim_safe : forall s b, Forall (legal U) s -> bxs_from_unicode U s = Ok b -> fit s b -> fine_res (bxs_trim U b).
Proof.
  intros s b H E F. unfold bxs_trim. destruct (_ && _); [auto|]. destruct (_ =? _); [auto|]. pose proof (ft_trailing s b F). pose proof (ft_indent s b F). unfold subz.
  destruct (Nat.ltb_spec (num_chars_visible b) (trailing b)); [lia|]. cbn [bind].
  destruct (fit_rd s b (num_chars_visible b - trailing b) F ltac:(lia)) as (pe & -> & He). cbn [bind]. rewrite (ft_memory s b F).
  destruct (Nat.ltb_spec (List.length s) pe); [lia|]. destruct (fit_rd s b (indent b) F ltac:(lia)) as (ps & -> & Hs). cbn [bind].
  destruct (Nat.ltb_spec (List.length s) ps); [lia|]. destruct (pe <? ps).
  - destruct (legal_from _ (legal_skipn ps s H)) as (y & -> & _). auto.
  - destruct (legal_from _ (legal_skipn ps _ (legal_firstn pe s H))) as (y & -> & _). auto.
Qed.

Lemma nl_allowed : is_allowed_anywhere U 10 = true.
Proof. unfold is_allowed_anywhere. rewrite orb_true_iff. left. rewrite orb_true_iff. right. reflexivity. Qed.

(** ** shapes *)
Lemma genshape_safe : forall w h, match genshape U w h with Ok _ | Err => True | _ => False end.
Proof.
  intros w h. unfold genshape. destruct (_ || _ || _); [exact I|]. unfold bxs_from_ascii.
  assert (E : forallb (is_allowed_anywhere U) (repeat 32%N w) = true).
  { apply forallb_forall. intros x Hx. apply repeat_spec in Hx as ->. apply allowed_32. exact HU. }
  rewrite E. cbn. exact I.
Qed.
Lemma shape_lines_safe : forall l s, Forall (legal_line U) l -> fine_res (shape_lines U s l).
Proof.
  induction l as [|x l IH]; intros s H; [apply fine_ok|]. inversion H; subst. cbn [shape_lines]. tok.
  apply fine_then; [|intros y; apply IH; assumption]. unfold action_add_shape_line. destruct (negb _); [auto|]. destruct (negb _); auto.
Qed.
Lemma shape_def_safe : forall d, legal_shape U d -> fine_res (parse_shape_def U d).
Proof.
  intros [|a l] H; [apply fine_ok|]. cbn [parse_shape_def]. inversion H; subst. tok.
  apply fine_then; [unfold action_first_shape_line; destruct (valid_in_shape _ _); auto|]. intros s. apply fine_then; [apply shape_lines_safe; assumption|]. auto.
Qed.
Lemma shapes_safe : forall l st, Forall (fun p => legal_shape U (snd p)) l -> fine_res (shapes_list U st l).
Proof.
  induction l as [|[i d] l IH]; intros st H; [apply fine_ok|]. inversion H; subst. cbn [shapes_list]. apply fine_then; [apply shape_def_safe; assumption|].
  intros s. destruct (isempty _); [apply IH; assumption|apply fine_ok].
Qed.
Section Beyond.
Variable beyond : res sentry.
Hypothesis Hb : fine_res beyond.
Lemma at_safe : forall sh i, fine_res (shape_at beyond sh i).
Proof. intros sh i. unfold shape_at. destruct (i <? 16); auto. Qed.
Lemma find_safe : forall k sh s i, fine_res (findshape beyond sh s i k).
Proof.
  induction k as [|k IH]; intros sh s i; [apply fine_ok|]. cbn [findshape]. apply fine_bind; [apply at_safe|]. intros x _. destruct (isempty x); auto.
Qed.
Lemma corners_safe : forall l sh f, fine_res (make_corners U beyond sh f l).
Proof.
  induction l as [|s l IH]; intros sh f; [apply fine_ok|]. cbn [make_corners]. destruct (isempty _); [|apply IH].
  apply fine_bind; [apply find_safe|]. intros n _. apply fine_bind; [destruct (n =? 5); [apply fine_ok|apply fine_bind; [apply at_safe|auto]]|].
  intros nx _. destruct (corner_size _ _ _ _) as [w h]. pose proof (genshape_safe w h) as G. destruct (genshape U w h) as [[cs ms]| | | |]; try contradiction; auto.
Qed.
Lemma middles_safe : forall l sh, fine_res (make_middles U sh l).
Proof.
  induction l as [|s l IH]; intros sh; [apply fine_ok|]. cbn [make_middles]. destruct (forallb _ _); [|apply IH].
  destruct (if vertical_side s then _ else _) as [w h]. pose proof (genshape_safe w h) as G. destruct (genshape U w h) as [[cs ms]| | | |]; try contradiction; auto.
Qed.
Lemma finalize_safe : forall st, fine_res (action_finalize_shapes U beyond st).
Proof.
  intros st. unfold action_finalize_shapes. destruct (_ <? _); [auto|]. apply fine_then.
  - unfold complete_shapes. apply fine_bind; [apply find_safe|]. intros f _. destruct (_ =? _); [auto|]. destruct (on_side f); [|auto].
    apply fine_then; [apply corners_safe|]. intros x. apply middles_safe.
  - intros sh. destruct (negb _); [auto|]. destruct (_ && _); auto.
Qed.
End Beyond.

(** ** tags *)
Lemma record_safe : forall s b tags, legal_line U s -> bxs_from_unicode U s = Ok b -> fit s b -> fine_res (tag_record U tags (Some b)).
Proof.
  intros s b tags H Hf F. unfold tag_record. destruct (Nat.ltb_spec 0 (num_chars_invisible b)) as [_|Z]; [auto|].
  pose proof (line_plain s H (ft_plain s b F ltac:(lia))) as Hp. destruct (plain_bx U s _ Hp Hf) as (Hm & _ & Hn & Hi & Hfc & Hv & _).
  assert (At : at_plain b s) by (repeat split; assumption).
  assert (Split : forall k p a tg, s = a ++ p -> List.length p < k -> fine_res (tag_split_add U k tg b (List.length a))).
  { induction k as [|k IH]; intros p a tg Es Hk; [lia|]. cbn [tag_split_add].
    assert (D : ~ In 44%N p \/ exists x y, p = x ++ 44%N :: y /\ ~ In 44%N x).
    { clear. induction p as [|c p IH]; [left; intros []|]. destruct (N.eq_dec c 44) as [->|N44]; [right; exists [], p; split; [reflexivity|intros []]|].
      destruct IH as [IH|(x & y & -> & Hx)]; [left; intros [F|F]; [congruence|contradiction]|]. right. exists (c :: x), y. split; [reflexivity|]. intros [F|F]; [congruence|contradiction]. }
    destruct D as [D|(x & y & -> & Hx)].
    - rewrite (strchr_none b a p) by (try rewrite <- Es; assumption). cbn [bind]. rewrite Hn.
      destruct (trim_tag_ok U HU a p [] b) as (t & z & _ & Et & _); [rewrite app_nil_r, <- Es; exact Hp|rewrite app_nil_r, <- Es; exact Hf|].
      rewrite Es, app_length, Et. cbn [bind]. auto.
    - rewrite (strchr_some b a x y) by (try rewrite <- Es; assumption). cbn [bind].
      destruct (trim_tag_ok U HU a x (44%N :: y) b) as (t & z & _ & Et & _); [rewrite <- Es; exact Hp|rewrite <- Es; exact Hf|]. rewrite Et. cbn [bind].
      replace (S (List.length a + List.length x)) with (List.length (a ++ x ++ [44%N])) by (rewrite !app_length; cbn; lia). apply (IH y).
      + rewrite Es, <- !app_assoc. reflexivity.
      + rewrite app_length in Hk. cbn in Hk. lia. }
  assert (Fs : fine_res (strchr_from b 44 0)).
  { destruct (in_dec N.eq_dec 44%N s) as [Hin|Hin].
    - assert (D : exists x y, s = x ++ 44%N :: y /\ ~ In 44%N x).
      { clear -Hin. induction s as [|c s IH]; [destruct Hin|]. destruct (N.eq_dec c 44) as [->|N44]; [exists [], s; split; [reflexivity|intros []]|].
        destruct Hin as [F|F]; [congruence|]. destruct (IH F) as (x & y & -> & Hx). exists (c :: x), y. split; [reflexivity|]. intros [G|G]; [congruence|contradiction]. }
      destruct D as (x & y & Es & Hx). exists (Some (0 + List.length x)). apply (strchr_some b [] x y); [cbn [app]; rewrite <- Es; exact At|exact Hx].
    - exists None. apply (strchr_none b [] s); assumption. }
  apply fine_bind; [exact Fs|]. intros [p|] _.
  - apply (Split _ s []); [reflexivity|]. rewrite Hn. lia.
  - apply fine_bind; [|auto]. rewrite Hn. destruct (trim_tag_ok U HU [] s [] b) as (t & z & _ & Et & _); [rewrite app_nil_r; exact Hp|rewrite app_nil_r; exact Hf|].
    exists (Some z). exact Et.
Qed.
Lemma tag_list_safe : forall l tags, Forall (legal_line U) l -> fine_res (tag_list U tags l).
Proof.
  induction l as [|s l IH]; intros tags H; [apply fine_ok|]. inversion H; subst. cbn [tag_list]. tok.
  apply fine_bind; [eapply record_safe; eassumption|]. auto.
Qed.
Lemma keyword_safe : forall c k v b, legal_line U v -> bxs_from_unicode U v = Ok b -> fit v b -> fine_res (action_record_keyword U c k (Some b)).
Proof.
  intros c k v b H Ef F. unfold action_record_keyword. destruct (negb _); [auto|]. destruct (same_nocase k _); [auto|]. destruct (same_nocase k _); [auto|].
  destruct (same_nocase k _); [apply fine_bind; [eapply record_safe; eassumption|auto]|]. destruct (same_nocase k _); [|auto]. destruct (existsb _ _); auto.
Qed.

(** ** samples *)
Section Sample.
Variable eol : list N.
Hypothesis He : Forall (legal U) eol.
Lemma skip_part : forall s, exists a, s = a ++ skip_blank_cr U s.
Proof. induction s as [|c s [a IH]]; [exists []; reflexivity|]. cbn [skip_blank_cr]. destruct (_ || _); [exists (c :: a); cbn; rewrite <- IH; reflexivity|exists []; reflexivity]. Qed.
Lemma first_part : forall f s, exists a, s = a ++ first_nonblank_line U f s.
Proof.
  induction f as [|f IH]; intros s; [exists []; reflexivity|]. cbn [first_nonblank_line]. destruct (skip_part s) as [a Ea]. destruct (skip_blank_cr U s) as [|c r] eqn:E; [exists []; reflexivity|].
  destruct (N.eqb c char_newline); [|exists []; reflexivity]. destruct (IH r) as [b Eb]. exists (a ++ c :: b). rewrite <- app_assoc. cbn [app]. rewrite <- Eb. exact Ea.
Qed.
Lemma adjust_legal : forall s, Forall (legal U) s -> Forall (legal U) (adjust_eols eol s).
Proof.
  intros s. remember (List.length s) as n eqn:En. assert (Hn : List.length s <= n) by lia. clear En. revert s Hn. induction n as [|n IH]; intros [|c s] Hn H; cbn [List.length adjust_eols] in *; try constructor; try lia.
  inversion H; subst. destruct (N.eqb c char_cr).
  - apply Forall_app. split; [exact He|]. destruct s as [|d s]; [constructor|]. destruct (N.eqb d char_newline); [|apply IH; [lia|assumption]].
    apply IH; [cbn in Hn; lia|]. inversion H3; assumption.
  - destruct (N.eqb c char_newline).
    + apply Forall_app. split; [exact He|]. apply IH; [lia|assumption].
    + constructor; [assumption|]. apply IH; [lia|assumption].
Qed.
Lemma sample_tok_safe : forall s, Forall (legal U) s -> legal U 10 -> exists t b, Forall (legal U) t /\ fit t b /\ sample_tok U s = Ok (Some b).
Proof.
  intros s H Hn. unfold sample_tok. destruct (legal_tok s H) as (b & -> & Eb & F). cbn [bind]. destruct (rtrim_safe s b H Eb F) as (t & y & -> & Ht & Fy). cbn [nullable bind].
  assert (L : Forall (legal U) (t ++ [10%N])) by (apply Forall_app; auto). destruct (legal_from _ L) as (z & Ez & Fz).
  exists (t ++ [10%N]), z. split; [exact L|]. split; [exact Fz|]. unfold bxs_strcat. change char_newline with 10%N. cbn [List.length Nat.eqb]. rewrite (ft_chars t y Fy), (ft_memory t y Fy).
  destruct (Nat.eqb_spec (List.length t) 0) as [E0|_].
  - apply length_zero_iff_nil in E0 as ->. cbn [app] in Ez. rewrite Ez. reflexivity.
  - rewrite Ez. reflexivity.
Qed.
Lemma sample_safe : forall st s, Forall (legal U) s -> legal U 10 -> fine_res (b <- sample_tok U s ;; action_sample_block U eol st b).
Proof.
  intros st s H Hn. destruct (sample_tok_safe s H Hn) as (t & b & Ht & Fb & ->). cbn [bind]. unfold action_sample_block. destruct (c_sample _); [auto|].
  rewrite (ft_memory t b Fb). destruct (first_part (List.length t) t) as [a Ea]. unfold utf8_to_bxs.
  destruct (legal_from (adjust_eols eol (first_nonblank_line U (List.length t) t))) as (z & -> & _).
  - apply adjust_legal. rewrite Ea in Ht. apply Forall_app in Ht. apply Ht.
  - cbn [bind]. destruct (_ =? 0); [auto|]. destruct (negb _); auto.
Qed.
End Sample.

(** ** items and statements *)
Section Stmts.
Variable beyond : res sentry.
Hypothesis Hb : fine_res beyond.
Variable po : popts.
Variable eol : list N.
Hypothesis He : Forall (legal U) eol.
Hypothesis Hn : legal U 10.
Variable children : list cdesign.
Variable fopen_ok : list N -> bool.
Variable sur : surroundings.
Hypothesis Hs : fine_res (discover_config_file U sur true).

Lemma item_safe : forall i st, legal_item U i -> fine_res (do_item U beyond eol st i).
Proof.
  intros i st H. destruct i; cbn [do_item legal_item] in *; try apply fine_ok.
  - tok. apply fine_then; [eapply keyword_safe; eassumption|auto].
  - apply fine_bind; [apply tag_list_safe; exact H|auto].
  - apply sample_safe; assumption.
  - apply fine_then; [apply shapes_safe; exact H|]. intros x. apply finalize_safe. exact Hb.
  - unfold action_elastic. destruct (_ && _); auto.
  - destruct H as [H1 H2]. tok. tok. apply fine_then; auto.
  - destruct H as [H1 H2]. tok. tok. apply fine_then; auto.
Qed.
Lemma items_safe : forall l st, Forall (legal_item U) l -> fine_res (do_items U beyond eol st l).
Proof.
  induction l as [|i l IH]; intros st H; [apply fine_ok|]. inversion H; subst. cbn [do_items]. apply fine_then; [apply item_safe; assumption|]. intros x. apply IH. assumption.
Qed.
Lemma stmt_safe : forall s st, legal_stmt U s -> fine_res (do_stmt U beyond po eol children fopen_ok sur st s).
Proof.
  intros [f|n al l e|al|] st H; cbn [do_stmt legal_stmt] in *; try apply fine_ok.
  - unfold filename_tok. tok. destruct (trim_safe f b (line_legal f H) Ef F) as (y & ->). cbn [bind].
    apply fine_bind; [|auto]. unfold action_parent_config. destruct (_ =? 0); [auto|]. destruct (same_nocase _ _).
    + apply fine_bind; [exact Hs|]. intros [g|] _; auto.
    + destruct (negb _); [auto|]. destruct (fopen_ok _); auto.
  - destruct (add_aliases _ _ _) as [st1 [|]]; cbn [negb]; [|auto]. destruct (action_start_parsing_design _ _ _) as [st2 [|]]; cbn [negb]; [|auto].
    destruct (is_nil l); [auto|]. apply fine_bind; [apply items_safe; exact H|]. intros [st3| | |st3] _; auto. destruct (action_add_design _ _ _ _); auto.
Qed.
Lemma stmts_safe : forall l st, Forall (legal_stmt U) l -> fine_res (do_stmts U beyond po eol children fopen_ok sur st l).
Proof.
  induction l as [|s l IH]; intros st H; [apply fine_ok|]. inversion H; subst. cbn [do_stmts]. apply fine_bind; [apply stmt_safe; assumption|].
  intros [x| | |x] _; auto.
Qed.
Lemma parse_safe : forall l, Forall (legal_stmt U) l -> fine_res (parse_config_file U beyond po eol children fopen_ok sur (Some l)).
Proof.
  intros l H. unfold parse_config_file. apply fine_bind; [apply stmts_safe; exact H|]. intros [x| | |x] _; auto. destruct (_ && _); auto.
Qed.
End Stmts.
End Safe.
