(** * Drawing a comment box and removing it again *)
From Coq Require Import List Arith NArith ZArith Bool Lia.
From Verif Require Import Base BaseFacts Model_Unicode Model_Bxs Model_Shape Model_Generate Model_Input Model_Detect Model_Remove Model_Main
  Spec_Str Spec_Design Spec_Input Spec_Box Spec_Remove Spec_Parser Spec_Comment Spec_Round
  Proof_Str Proof_Bxs Proof_BxsOps Proof_BxsMore Proof_Shows Proof_Hmm Proof_Horiz Proof_Open Proof_Recog Proof_Found Proof_Input Proof_Rows Proof_Draw Proof_Body Proof_Comment.
Import ListNotations.

Section Round.
Variable U : uctab.
Hypothesis HU : uctab_ok U.
Notation pl := (pl U).
Notation okt := (okt U).

Lemma chars_okt : forall t, Forall (text_char U) t -> okt t.
Proof. intros t H. eapply Forall_impl; [|exact H]. intros c (A & B & C & _). split; [exact B|]. split; [exact C|exact A]. Qed.

Lemma pl_nil : pl [] = bxs_new_empty_string.
Proof. reflexivity. Qed.

(** ** reading *)
Lemma btrim_plain : forall a c e, uc_ws U c = false -> ~ In 27%N (a ++ [c] ++ e) -> forallb (uc_ws U) e = true -> btrim32 U ((a ++ [c]) ++ e) = a ++ [c].
Proof.
  intros a c e Hc He Hw. rewrite <- app_assoc.
  pose proof (btrim32_spec U (plain (a ++ [c] ++ e))) as B. rewrite render_plain, visible_plain in B.
  destruct B as [[F _]|(x & y & z & E & Hy & Hz & B)].
  - apply (closed_plain _ He).
  - apply (closed_plain _ He).
  - exfalso. rewrite !forallb_app in F. cbn [forallb] in F. rewrite Hc in F. cbn [andb] in F. rewrite andb_false_r in F. discriminate F.
  - rewrite B. apply plain_split in E as (p & q & E & -> & Eq).
    destruct q as [|y' q]; [discriminate Eq|]. cbn [plain map] in Eq. injection Eq as <- ->.
    fold (plain q) in Hz |- *. rewrite visible_plain in Hz. assert (En : next_seq (plain q) = []) by (destruct q; reflexivity). rewrite En.
    rewrite render_app, render_plain. cbn [render_cons].
    assert (X : p ++ [y] = a ++ [c]).
    { clear - E Hy Hc Hz Hw. change (a ++ [c] ++ e) with (a ++ c :: e) in E.
      revert a E. induction p as [|x p IH]; intros [|z a] E; cbn [app] in *; injection E as E1 E2.
      - subst. reflexivity.
      - exfalso. subst. rewrite forallb_app in Hz. cbn [forallb] in Hz. rewrite Hc, andb_false_r in Hz. discriminate.
      - exfalso. subst. rewrite forallb_app in Hw. cbn [forallb] in Hw. rewrite Hy, andb_false_r in Hw. discriminate.
      - subst. f_equal. apply IH. assumption. }
    rewrite <- X. reflexivity.
Qed.

Lemma btrim_ws : forall e, ~ In 27%N e -> forallb (uc_ws U) e = true -> btrim32 U e = [].
Proof.
  intros e He Hw. pose proof (btrim32_spec U (plain e)) as B. rewrite render_plain, visible_plain in B.
  destruct B as [[_ B]|(x & y & z & E & Hy & _)]; [apply (closed_plain _ He)|apply (closed_plain _ He)|exact B|].
  exfalso. apply (f_equal visible) in E. rewrite visible_plain, visible_app in E. cbn in E. rewrite E, forallb_app in Hw. cbn in Hw. rewrite Hy in Hw. cbn in Hw. rewrite andb_false_r in Hw. discriminate.
Qed.

Lemma expand_plain : forall t k s, 1 <= t <= 16 -> ~ In 9%N s -> (N.of_nat (length s) <= line_limit)%N -> expand_tabs_into t k s = Ok (s, []).
Proof.
  intros t k s Ht Hs Hl. destruct (expands_total t s 0 ltac:(lia)) as (r & Hr). pose proof (expands_plain _ _ _ _ Hr Hs) as ->.
  destruct (expand_tabs_all t k s s Ht Hr Hl) as (ps & Hp & E). rewrite E. destruct k; [|reflexivity].
  assert (length ps = 0). { rewrite (tab_positions_len _ _ _ _ Hp). unfold tab_count. clear - Hs. induction s as [|c s IH]; [reflexivity|].
    cbn [filter]. unfold char_tab in *. destruct (N.eqb_spec 9 c) as [F|_]; [exfalso; apply Hs; left; symmetry; exact F|]. apply IH. intros X. apply Hs. right. exact X. }
  destruct ps; [reflexivity|discriminate].
Qed.

Lemma okt_no9 : forall t, okt t -> ~ In 9%N t.
Proof. intros t H X. unfold Proof_Body.okt in H. rewrite Forall_forall in H. destruct (H _ X) as (_ & F & _). congruence. Qed.
Lemma okt_no27 : forall t, okt t -> ~ In 27%N t.
Proof. intros t H X. unfold Proof_Body.okt in H. rewrite Forall_forall in H. destruct (H _ X) as (F & _ & _). congruence. Qed.

(** the end of a line *)
Definition lf (e : list N) : Prop := e = [] \/ e = [10%N] \/ e = [13%N; 10%N].

Lemma read_draw : forall o t e, 1 <= o_tabstop o <= 16 -> neat U t -> (N.of_nat (length t) <= line_limit)%N -> lf e -> forallb (uc_ws U) e = true ->
  read_line U false o (t ++ e) = Ok (mkLine (pl t) []).
Proof.
  intros o t e Ht [Hc Hn] Hl He Hw. pose proof (chars_okt _ Hc) as Ho. unfold read_line, trim_trailing_ws_carefully. cbn [bind].
  assert (E27 : ~ In 27%N e) by (destruct He as [->|[->| ->]]; cbn; intuition discriminate).
  destruct Hn as [->|(_ & (a & c & E & Hb & Hu) & _)].
  - cbn [app]. rewrite btrim_ws by assumption. cbn [is_nil]. rewrite pl_nil. reflexivity.
  - rewrite E in *. rewrite btrim_plain; [|exact Hu| |exact Hw].
    2:{ intros X. rewrite app_assoc in X. apply in_app_or in X as [X|X]; [|contradiction]. revert X. apply okt_no27. exact Ho. }
    destruct (a ++ [c]) as [|x y] eqn:Ea; [destruct a; discriminate|]. cbn [is_nil]. rewrite expand_plain; [|exact Ht|apply okt_no9; exact Ho|exact Hl].
    cbn [bind fst snd is_nil]. rewrite from_pl by assumption. reflexivity.
Qed.

Lemma chop_end : forall c s x, chop c (s ++ [x]) = Ok (if N.eqb x c then s else s ++ [x]).
Proof. intros c s x. unfold chop. rewrite rev_app_distr. cbn [rev app]. rewrite rev_involutive. reflexivity. Qed.

Lemma read_remove : forall o a c e, 1 <= o_tabstop o <= 16 -> okt (a ++ [c]) -> c <> 13%N -> c <> 10%N -> (N.of_nat (length (a ++ [c])) <= line_limit)%N -> lf e ->
  read_line U true o ((a ++ [c]) ++ e) = Ok (mkLine (pl (a ++ [c])) []).
Proof.
  intros o a c e Ht Ho H13 H10 Hl He. unfold read_line, trim_trailing_ws_carefully.
  apply N.eqb_neq in H13, H10.
  assert (X : (s1 <- chop char_newline ((a ++ [c]) ++ e) ;; chop char_cr s1) = Ok (a ++ [c])).
  { unfold char_newline, char_cr. destruct He as [->|[->| ->]].
    - rewrite app_nil_r, chop_end, H10. cbn [bind]. rewrite chop_end, H13. reflexivity.
    - rewrite chop_end, N.eqb_refl. cbn [bind]. rewrite chop_end, H13. reflexivity.
    - change [13%N; 10%N] with ([13%N] ++ [10%N]). rewrite app_assoc, chop_end, N.eqb_refl. cbn [bind]. rewrite chop_end, N.eqb_refl. reflexivity. }
  rewrite X. cbn [bind]. destruct (a ++ [c]) as [|x y] eqn:Ea; [destruct a; discriminate|]. cbn [is_nil].
  rewrite expand_plain; [|exact Ht|apply okt_no9; exact Ho|exact Hl].
  cbn [bind fst snd is_nil]. rewrite from_pl by assumption. reflexivity.
Qed.

(** ** analysing the lines *)
Definition cols (t : list N) : nat := sum (map (char_cols U) t).
Lemma cols_pl : forall t, num_columns (pl t) = cols t.
Proof. intros t. unfold Proof_Body.pl. cbn [bx num_columns]. rewrite columns_sum, visible_plain. reflexivity. Qed.
Lemma cols_app : forall a b, cols (a ++ b) = cols a + cols b.
Proof. intros a b. unfold cols. rewrite map_app, sum_app. reflexivity. Qed.
Lemma cols_spaces : forall n, cols (spaces n) = n.
Proof. intros n. unfold cols, spaces. induction n as [|n IH]; [reflexivity|]. cbn [repeat map]. rewrite sum_cons, IH, (char_cols_32 U). reflexivity. Qed.
Lemma okt_shows : forall t, okt t -> shows U (cols t) t.
Proof.
  intros t H. apply (shows_closed U HU). exists (plain t). split; [|split; [apply render_plain|rewrite columns_sum, visible_plain; reflexivity]].
  pose proof (proj1 (okt_good U t) H) as (A & B & C). split; [|split; assumption]. apply closed_plain. apply okt_no27. exact H.
Qed.

Lemma lead_sp : forall k l, lead (is_blank U) (spaces k ++ l) = k + lead (is_blank U) l.
Proof. intros. apply (lead_spaces U HU). Qed.
Lemma indent_sp : forall k c r, is_blank U c = false -> indent (pl (spaces k ++ c :: r)) = k.
Proof.
  intros k c r Hc. rewrite indent_pl.
  - rewrite lead_sp. cbn [lead]. rewrite Hc. lia.
  - apply (narrow_sp U HU). unfold narrow_lead. cbn [lead]. rewrite Hc. constructor.
Qed.

Lemma neat_cols : forall t, neat U t -> t = [] \/ 0 < cols t.
Proof.
  intros t [_ [->|(_ & _ & c & Hi & Hw)]]; [auto|right]. rewrite <- (char_cols_term U HU) in Hw. unfold cols. clear - Hi Hw.
  induction t as [|x t IH]; [destruct Hi|]. cbn [map]. rewrite sum_cons. destruct Hi as [->|Hi]; [lia|]. specialize (IH Hi). lia.
Qed.

Lemma spaces_inj : forall n k c x r y, spaces n ++ c :: r = spaces k ++ x :: y -> c <> 32%N -> x <> 32%N -> n = k.
Proof.
  induction n as [|n IH]; intros [|k] c x r y E Hc Hx; cbn [spaces repeat app] in E; [reflexivity| | |].
  - injection E; intros; congruence.
  - injection E; intros; congruence.
  - injection E as E. f_equal. eapply IH; eassumption.
Qed.
Lemma not_blank_32 : forall c, is_blank U c = false -> c <> 32%N.
Proof. intros c H ->. rewrite (blank32 U HU) in H. discriminate. Qed.

Definition mk (t : list N) : line := mkLine (pl t) [].

Lemma neat_lead : forall n t, neat U t -> t = [] \/ (exists r, t = spaces n ++ r) -> t = [] \/ n <= indent (pl t).
  intros n t [_ [->|((k & c & r & -> & Hb) & _)]] [E|(x & E)]; auto; right.
  rewrite indent_sp by exact Hb. destruct (Nat.le_gt_cases n k) as [H|H]; [exact H|exfalso].
  replace n with (k + S (n - k - 1)) in E by lia. unfold spaces in E. rewrite repeat_app, <- app_assoc in E. apply app_inv_head in E. cbn in E.
  injection E as E _. revert E. apply not_blank_32. exact Hb.
Qed.

Lemma indent_common : forall lines n, Forall (neat U) lines -> Forall (fun t => N.of_nat (length t) <= line_limit)%N lines -> common_indent lines n ->
  get_indent (map mk lines) = n.
Proof.
  intros lines n Hn Hl Hc. rewrite Forall_forall in Hn, Hl.
  destruct (get_indent_spec (map mk lines)) as [[H0 ->]|[H1 (l & Hi & Hp & Ha)]].
  - destruct Hc as [[_ ->]|[_ He]]; [reflexivity|]. apply Exists_exists in He as (t & Ht & c & r & E & Hc).
    exfalso. specialize (H0 (mk t) (in_map _ _ _ Ht)). cbn [mk l_text] in H0. rewrite cols_pl in H0. destruct (neat_cols t (Hn t Ht)) as [F|F]; [|lia].
    rewrite F in E. destruct n; discriminate E.
  - apply in_map_iff in Hi as (t & <- & Ht). cbn [mk l_text] in Hp, Ha. rewrite cols_pl in Hp.
    destruct Hc as [[He _]|[Hall Hex]].
    + exfalso. rewrite Forall_forall in He. rewrite (He t Ht) in Hp. cbn in Hp. lia.
    + rewrite Forall_forall in Hall. apply Exists_exists in Hex as (u & Hu & c & r & E & Hc32).
      assert (Iu : indent (pl u) = n).
      { destruct (Hn u Hu) as [_ [F|((k & x & y & E2 & Hb) & _)]]; [rewrite F in E; destruct n; discriminate E|].
        rewrite E2, indent_sp by exact Hb. symmetry. rewrite E in E2. eapply spaces_inj; [exact E2|exact Hc32|apply not_blank_32; exact Hb]. }
      assert (Gu : get_indent (map mk lines) <= n).
      { rewrite <- Iu. apply (H1 (mk u) (in_map _ _ _ Hu)). cbn [mk l_text]. rewrite cols_pl. destruct (neat_cols u (Hn u Hu)) as [F|F]; [rewrite F in E; destruct n; discriminate E|exact F]. }
      assert (Gl : n <= indent (pl t)).
      { destruct (neat_lead n t (Hn t Ht) (Hall t Ht)) as [F|F]; [rewrite F in Hp; cbn in Hp; lia|exact F]. }
      destruct Ha as [Ha|Ha]; [lia|]. exfalso. specialize (Hl u Hu). rewrite E, app_length in Hl. unfold spaces in Hl. rewrite repeat_length in Hl.
      unfold line_limit, LINE_MAX_BYTES in *. lia.
Qed.

Lemma unindent_neat : forall n t, neat U t -> t = [] \/ (exists r, t = spaces n ++ r) -> unindent U n (mk t) = Ok (mk (skipn n t)).
Proof.
  intros n t Ht Hs. unfold unindent. cbn [mk l_text l_tabpos]. rewrite cols_pl.
  destruct (Nat.leb_spec n (cols t)) as [H|H].
  - rewrite cut_front_pl; [reflexivity|exact HU|]. apply chars_okt. apply Ht.
  - destruct (neat_lead n t Ht Hs) as [->|F]; [rewrite skipn_nil; reflexivity|]. exfalso.
    assert (X : indent (pl t) <= cols t); [|lia]. unfold Proof_Body.pl. cbn [bx indent]. rewrite visible_plain. apply lead_le_cols.
Qed.

Lemma common_prefix : forall lines n, common_indent lines n -> Forall (fun t => t = [] \/ exists r, t = spaces n ++ r) lines.
Proof. intros lines n [[H _]|[H _]]; [|exact H]. eapply Forall_impl; [|exact H]. auto. Qed.

Lemma analyze_draw : forall d lines n fin, lines <> [] -> Forall (neat U) lines -> Forall (fun t => N.of_nat (length t) <= line_limit)%N lines -> common_indent lines n ->
  let k := if N.eqb (d_indentmode d) 116 then 0 else n in
  exists M, analyze_input U false d [] (map mk lines) fin = Ok (mkInput (map (fun t => mk (skipn k t)) lines) M n fin) /\
    Forall (fun t => cols (skipn k t) <= M) lines.
Proof.
  intros d lines n fin Hne Hn Hl Hc k. unfold analyze_input. rewrite (analyze_max (map mk lines) 0). cbn [Nat.max].
  destruct (is_nil (map mk lines)) eqn:En; [destruct lines; [congruence|discriminate]|]. clear En. rewrite (indent_common lines n Hn Hl Hc).
  pose proof (common_prefix _ _ Hc) as Hp. rewrite map_map. set (m := maxl (map (fun x => num_columns (l_text (mk x))) lines)).
  assert (Hm : Forall (fun t => cols t <= m) lines).
  { apply Forall_forall. intros t Ht. unfold m. rewrite <- cols_pl. apply maxl_ge. apply (in_map (fun x => num_columns (l_text (mk x))) _ _ Ht). }
  subst k. destruct (N.eqb_spec (d_indentmode d) 116) as [E|E]; cbn [negb andb].
  - cbn [bind]. unfold apply_substitutions. rewrite subst_nil. cbn [bind fst snd i_maxline i_lines i_indent i_final_newline]. rewrite E. cbn [N.eqb].
    change (N.eqb 116 116) with true. cbv iota. rewrite (indent_common lines n Hn Hl Hc). exists m. split; [|exact Hm]. reflexivity.
  - assert (Em : mapM (unindent U n) (map mk lines) = Ok (map (fun t => mk (skipn n t)) lines)).
    { clear - Hn Hp HU. induction lines as [|t lines IH]; [reflexivity|]. cbn [map mapM]. inversion Hn; inversion Hp; subst.
      rewrite unindent_neat by assumption. cbn [bind]. rewrite IH by assumption. reflexivity. }
    rewrite Em. cbn [bind].
    assert (Hnm : n <= m).
    { destruct Hc as [[_ ->]|[_ He]]; [lia|]. apply Exists_exists in He as (t & Ht & c & r & Et & _). rewrite Forall_forall in Hm. specialize (Hm t Ht).
      rewrite Et, cols_app, cols_spaces in Hm. lia. }
    rewrite subz_le by exact Hnm. cbn [bind]. unfold apply_substitutions. rewrite subst_nil. cbn [bind fst snd i_maxline i_lines i_indent i_final_newline].
    apply N.eqb_neq in E. rewrite E. exists (m - n). split; [reflexivity|]. rewrite Forall_forall in *. intros t Ht.
    destruct (Hp t Ht) as [->|(r & ->)]; [rewrite skipn_nil; cbn; lia|]. specialize (Hm _ Ht). rewrite cols_app, cols_spaces in Hm.
    unfold spaces. rewrite skipn_app, skipn_all2, repeat_length, Nat.sub_diag by (rewrite repeat_length; lia). cbn [app skipn]. lia.
Qed.

(** ** the printed rows *)
Definition ends (p : list N) : Prop := exists m c, p = m ++ [c] /\ is_blank U c = false.

Lemma trim_unique : forall p b x y, p ++ b = x ++ y -> ends p -> ends x -> blanks U b -> blanks U y -> p = x.
Proof.
  intros p b x y E (m & c & -> & Hc) (m' & c' & -> & Hc') Hb Hy. rewrite <- !app_assoc in E. cbn [app] in E.
  revert m' E. induction m as [|z m IH]; intros [|z' m'] E; cbn [app] in *; injection E as E1 E2; subst.
  - reflexivity.
  - exfalso. unfold blanks in Hb. rewrite Forall_forall in Hb. specialize (Hb c' ltac:(apply in_or_app; right; left; reflexivity)). congruence.
  - exfalso. unfold blanks in Hy. rewrite Forall_forall in Hy. specialize (Hy c ltac:(apply in_or_app; right; left; reflexivity)). congruence.
  - f_equal. apply IH. exact E2.
Qed.

Lemma printed_plain : forall color x y p, okt (x ++ y) -> ends x -> blanks U y -> printed U color (x ++ y) p -> p = x.
Proof.
  intros color x y p Ho Hx Hy (keep & cut & R & -> & Hb & Hk).
  assert (E : keep ++ cut = plain (x ++ y)).
  { apply reading_unique; [apply R|apply (closed_plain _ (okt_no27 _ Ho))|]. rewrite render_plain. apply R. }
  symmetry in E. apply plain_split in E as (k & c & E & -> & ->). rewrite render_plain, visible_plain. rewrite visible_plain in Hb.
  assert (Ek : (if color then k else k) = k) by (destruct color; reflexivity). rewrite Ek.
  rewrite visible_app, !visible_plain in Hk. symmetry in E. rewrite E in Hk.
  apply (trim_unique k c x y E); [|exact Hx| |exact Hy].
  - apply Hk. destruct Hx as (m & z & -> & Hz). rewrite !forallb_app. cbn [forallb]. rewrite Hz. cbn. rewrite andb_false_r. reflexivity.
  - apply Forall_forall. rewrite forallb_forall in Hb. exact Hb.
Qed.

(** ** looking for the border *)
Lemma strstr_sp : forall k h c n, c <> 32%N -> u32_strstr (spaces k ++ h) (c :: n) = match u32_strstr h (c :: n) with Some i => Some (k + i) | None => None end.
Proof.
  intros k h c n Hc. induction k as [|k IH]; cbn [spaces repeat app]; [destruct (u32_strstr h (c :: n)); reflexivity|].
  fold (spaces k). cbn [u32_strstr is_prefix]. destruct (N.eqb_spec c 32) as [F|_]; [congruence|]. cbn [andb]. rewrite IH. destruct (u32_strstr h (c :: n)); reflexivity.
Qed.
Lemma strstr_here : forall n h, u32_strstr (n ++ h) n = Some 0.
Proof. intros n h. assert (X : is_prefix n (n ++ h) = true) by (apply prefix_spec; eauto). destruct (n ++ h); cbn [u32_strstr]; rewrite X; reflexivity. Qed.
Lemma strstr_short : forall h n, length h < length n -> u32_strstr h n = None.
Proof. intros h n H. destruct (u32_strstr h n) as [k|] eqn:E; [|reflexivity]. apply strstr_spec in E as [E _]. lia. Qed.

Section Border.
Variables (c0 : N) (s0 bl : list N).
Hypothesis Hc0 : is_blank U c0 = false.
Hypothesis Hbl : blanks U bl.
Let s1 := c0 :: s0.
Let s := s1 ++ bl.

Lemma shorten_blank : forall n e, e <= length s -> n + length s1 <= e -> shorten_loop U n s 0 e true true true = (0, e - n).
Proof.
  induction n as [|n IH]; intros e He Hn; cbn [shorten_loop]; [rewrite Nat.sub_0_r; reflexivity|].
  assert (B0 : blank_at U s 0 = false) by exact Hc0. rewrite B0, andb_false_r. cbn [andb].
  assert (B1 : blank_at U s (e - 1) = true).
  { unfold blank_at, s. rewrite nth_error_app2 by lia. unfold s in He. rewrite app_length in He.
    destruct (nth_error bl (e - 1 - length s1)) as [x|] eqn:Ex; [|apply nth_error_None in Ex; lia].
    unfold blanks in Hbl. rewrite Forall_forall in Hbl. apply Hbl. eapply nth_error_In. exact Ex. }
  rewrite B1, andb_true_r. destruct (Nat.ltb_spec 0 e) as [_|F]; [|lia]. cbn [andb]. rewrite IH by lia. f_equal. lia.
Qed.

Lemma shorten_step : forall q, length s1 < q -> q <= length s -> shorten U (Some (pl s)) q true true true = Some (firstn (q - 1) s, q - 1).
Proof.
  intros q H1 H2. unfold shorten. rewrite num_pl, mem_pl. destruct (Nat.ltb_spec (length s) q) as [F|_]; [lia|]. cbn [andb].
  rewrite shorten_blank by lia. replace (length s - (length s - q + 1)) with (q - 1) by lia.
  destruct (Nat.ltb_spec (q - 1 - 0) q) as [_|F]; [|lia]. unfold between. rewrite Nat.sub_0_r. reflexivity.
Qed.

Lemma border_found : forall rest ind trl n q, bl = [] \/ rest = [] -> length s1 <= q -> q <= length s -> q < n ->
  vert_try U n true (Some (pl s)) (length s) (spaces ind ++ s1 ++ rest) ind trl vmatch0 (firstn q s) q = Ok (mkV ind (ind + length s1) (length s1)).
Proof.
  intros rest ind trl n. induction n as [|n IH]; intros q Hr H1 H2 Hn; [lia|]. cbn [vert_try].
  assert (Ef : firstn q s = c0 :: firstn (q - 1) (s0 ++ bl)) by (destruct q; [cbn in H1; lia|cbn; rewrite Nat.sub_0_r; reflexivity]).
  assert (Es : u32_strstr (spaces ind ++ s1 ++ rest) (firstn q s) = match u32_strstr (s1 ++ rest) (firstn q s) with Some i => Some (ind + i) | None => None end).
  { rewrite Ef. apply strstr_sp. apply not_blank_32. exact Hc0. }
  rewrite Es. destruct (Nat.eq_dec q (length s1)) as [E|E].
  - assert (E1 : firstn q s = s1) by (unfold s; rewrite E; apply (firstn_len N _ s1 bl eq_refl)). rewrite E1, strstr_here, Nat.add_0_r.
    destruct (Nat.ltb_spec (ind + (length s - q)) ind) as [F|_]; [lia|]. cbn [vmatch0 v_quality]. rewrite E. destruct (Nat.ltb_spec 0 (length s1)) as [_|F]; [reflexivity|cbn in F; lia].
  - destruct Hr as [Hr|Hr]; [exfalso; unfold s in H2; rewrite Hr, app_nil_r in H2; lia|].
    rewrite strstr_short. 2:{ rewrite Hr, app_nil_r, firstn_length_le by lia. lia. }
    rewrite shorten_step by lia. apply IH; [auto|lia|lia|lia].
Qed.
End Border.

(** ** removing the border *)
Lemma ends_split : forall c r, is_blank U c = false -> exists r1 bl, c :: r = (c :: r1) ++ bl /\ blanks U bl /\ ends (c :: r1).
Proof.
  intros c r Hc. induction r as [|x r IH] using rev_ind.
  - exists [], []. split; [reflexivity|]. split; [constructor|]. exists [], c. auto.
  - destruct IH as (r1 & bl & E & Hb & He). destruct (is_blank U x) eqn:Ex.
    + exists r1, (bl ++ [x]). split; [|split; [|exact He]].
      * change (c :: r ++ [x]) with ((c :: r) ++ [x]). rewrite E, <- app_assoc. reflexivity.
      * apply Forall_app. split; [exact Hb|]. constructor; [exact Ex|constructor].
    + exists (r ++ [x]), []. split; [rewrite app_nil_r; reflexivity|]. split; [constructor|]. exists (c :: r), x. auto.
Qed.

Lemma mapM_seq : forall (A B : Type) (f : nat -> res B) (g : A -> B) (l : list A) k,
  (forall i x, nth_error l i = Some x -> f (k + i) = Ok (g x)) -> mapM f (seq k (length l)) = Ok (map g l).
Proof.
  intros A B f g l. induction l as [|x l IH]; intros k H; [reflexivity|]. cbn [length seq mapM map].
  rewrite <- (Nat.add_0_r k) at 1. rewrite (H 0 x eq_refl). cbn [bind]. rewrite IH; [reflexivity|].
  intros i y Hi. replace (S k + i) with (k + S i) by lia. apply H. exact Hi.
Qed.

Lemma rdc_here : forall (a : list N) x l, rdc (a ++ x :: l) (length a) = Ok x.
Proof.
  intros a x l. unfold rdc. rewrite app_length. cbn [length]. destruct (Nat.eqb_spec (length a) (length a + S (length l))) as [E|_]; [lia|].
  unfold rd. rewrite nth_error_app2, Nat.sub_diag by lia. reflexivity.
Qed.
Lemma conf_all : forall n m ct a r, drops_input ct = false -> m = a ++ spaces n ++ r -> confirmed_padding U n (pl m) ct (length a) = Ok n.
Proof.
  induction n as [|n IH]; intros m ct a r Hct ->; [reflexivity|]. cbn [confirmed_padding]. unfold max_chars_line, org_char. rewrite Hct, num_pl, mem_pl.
  rewrite !app_length. destruct (Nat.ltb_spec (length a) (length a + (length (spaces (S n)) + length r))) as [_|F]; [|cbn in F; lia].
  change (spaces (S n) ++ r) with (32%N :: spaces n ++ r). rewrite rdc_here. cbn [bind]. rewrite (blank32 U HU).
  assert (E : a ++ 32%N :: spaces n ++ r = (a ++ [32%N]) ++ spaces n ++ r) by (rewrite <- app_assoc; reflexivity).
  replace (S (length a)) with (length (a ++ [32%N])) by (rewrite app_length; cbn; lia). rewrite E. rewrite (IH _ ct (a ++ [32%N]) r Hct eq_refl). reflexivity.
Qed.
Lemma conf_end : forall n m ct, drops_input ct = false -> confirmed_padding U n (pl m) ct (length m) = Ok 0.
Proof. intros [|n] m ct Hct; [reflexivity|]. cbn [confirmed_padding]. unfold max_chars_line. rewrite Hct, num_pl, Nat.ltb_irrefl. reflexivity. Qed.

Section Removal.
Variables (D : design) (c0 : N) (s0 bl : list N).
Let s1 := c0 :: s0.
Let s := s1 ++ bl.
Hypothesis CD : comment_design D s.
Hypothesis Hc0 : is_blank U c0 = false.
Hypothesis H13 : c0 <> 13%N.
Hypothesis Hbl : blanks U bl.
Hypothesis Hs : okt s.
Hypothesis Hleft : blank_side D BLEF = false.
Hypothesis Htop : d_pad_top D = 0.
Hypothesis Hbot : d_pad_bottom D = 0.
Hypothesis Hmono : design_is_mono D = true.
Let pad := d_pad_left D.
Variable ind : nat.

Definition drawn (t : list N) : list N := spaces ind ++ match t with [] => s1 | _ => s ++ spaces pad ++ t end.

Lemma drawn_head : forall t, exists r, drawn t = spaces ind ++ c0 :: r.
Proof. intros t. unfold drawn. destruct t; eexists; reflexivity. Qed.
Lemma drawn_okt : forall t, okt t -> okt (drawn t).
Proof.
  intros t Ht. unfold drawn. apply okt_app. split; [apply okt_spaces; exact HU|]. destruct t; [unfold s in Hs; apply okt_app in Hs; apply Hs|].
  apply okt_app. split; [exact Hs|]. apply okt_app. split; [apply okt_spaces; exact HU|exact Ht].
Qed.
Lemma drawn_okl : forall t, okt t -> okl U (mk (drawn t)).
Proof.
  intros t Ht. unfold okl. cbn [mk l_text]. rewrite mem_pl. split; [reflexivity|]. split; [apply drawn_okt; exact Ht|].
  destruct (drawn_head t) as (r & ->). apply (narrow_sp U HU). unfold narrow_lead. cbn [lead]. rewrite Hc0. constructor.
Qed.
Lemma drawn_lead : forall t, lead (is_blank U) (drawn t) = ind.
Proof. intros t. destruct (drawn_head t) as (r & ->). rewrite lead_sp. cbn [lead]. rewrite Hc0. lia. Qed.
Lemma drawn_not_blank : forall t, blankb U (drawn t) = false.
Proof.
  intros t. destruct (drawn_head t) as (r & ->). rewrite (blankb_spaces U HU). unfold blankb. cbn [forallb]. rewrite Hc0. apply N.eqb_neq in H13. rewrite H13. reflexivity.
Qed.

Lemma prep_left : prepare_comp_shapes_vert U D true literal = Ok [mkSctx false (Some (pl s)) true].
Proof.
  unfold prepare_comp_shapes_vert. cbn [vert_shapes mapM].
  rewrite (proj1 (cd_gone _ _ CD WNW ltac:(cbn; auto 10))), (proj1 (cd_gone _ _ CD WSW ltac:(cbn; auto 10))).
  destruct (cd_left _ _ CD) as (Em & Eh & Ee & Ei). rewrite Ei, Eh. cbn [bind seq mapM].
  unfold prepare_comp_shape. rewrite Eh. cbn [Nat.leb].
  destruct (s_mbcs (d_shape D W_)) as [|m [|m' ms]]; try discriminate Em. injection Em as Em.
  unfold rd at 1. cbn [nth_error bind drops_shape andb must]. rewrite Em, (from_pl U HU s Hs). cbn [must bind concat app].
  assert (X : isdeepempty (d_shape D W_) = false).
  { destruct (isdeepempty (d_shape D W_)) eqn:X; [|reflexivity]. exfalso. revert Hleft. unfold blank_side, empty_side. cbn [side_of west_side forallb].
    rewrite X, (cm_deep _ s CD SW), (cm_deep _ s CD WSW), (cm_deep _ s CD WNW), (cm_deep _ s CD NW) by (first [vm_compute; lia|discriminate]). discriminate. }
  rewrite X, Ee. reflexivity.
Qed.

Definition vm (t : list N) : vmatch * vmatch := let n := length (match t with [] => s1 | _ => s end) in (mkV ind (ind + n) n, vmatch0).

Lemma body_drawn : forall texts M I fin, Forall okt texts ->
  match_body U D (mkInput (map (fun t => mk (drawn t)) texts) M I fin) literal (seq 0 (length texts)) = Ok (map vm texts).
Proof.
  intros texts M I fin Ho. unfold match_body. destruct (cm_blank _ s CD) as (_ & _ & Br). unfold blank_side in Hleft, Br. rewrite Hleft, Br, prep_left. cbn [bind].
  apply (mapM_seq _ _ _ vm texts 0). intros i t Hi. cbn [Nat.add].
  assert (Hot : okt t) by (rewrite Forall_forall in Ho; apply Ho; eapply nth_error_In; exact Hi).
  set (inp := mkInput (map (fun t => mk (drawn t)) texts) M I fin).
  assert (Hn : nth_error (i_lines inp) i = Some (mk (drawn t))) by (cbn [inp i_lines]; apply (map_nth_error (fun t => mk (drawn t)) _ _ Hi)).
  destruct (ends_plain U inp i _ literal Hn (drawn_okl t Hot) eq_refl) as (trl & Ee & Htr & _).
  cbn [mk l_text] in Ee, Htr. rewrite mem_pl in Ee, Htr. rewrite drawn_lead in Ee.
  unfold comp_input. rewrite Hn. cbn [drops_input must bind mk l_text]. rewrite mem_pl, Ee. cbn [must bind fst snd].
  destruct (Nat.ltb_spec (length (drawn t)) trl) as [F|_]; [lia|].
  cbn [match_vertical_side sc_empty sc_text]. rewrite num_pl, mem_pl.
  assert (V : vert_try U (length s + 2) true (Some (pl s)) (length s) (drawn t) ind trl vmatch0 s (length s) = Ok (fst (vm t))).
  { rewrite <- (firstn_all s) at 4. unfold drawn, vm. destruct t as [|x t].
    - pose proof (border_found c0 s0 bl Hc0 Hbl [] ind trl (length s + 2) (length s)) as B. rewrite (app_nil_r (c0 :: s0)) in B.
      apply B; [auto|unfold s, s1; cbn [app length]; rewrite app_length; lia|unfold s, s1; lia|unfold s; lia].
    - cbn [fst]. pose proof (border_found c0 (s0 ++ bl) [] Hc0 ltac:(constructor) (spaces pad ++ x :: t) ind trl (length s + 2) (length s)) as B.
      rewrite app_nil_r in B. apply B; [auto|unfold s, s1; cbn; lia|unfold s, s1; cbn; lia|unfold s; lia]. }
  rewrite V. cbn [bind vm fst]. reflexivity.
Qed.

Lemma mono_lines : forall texts M I fin, input_is_mono (mkInput (map (fun t => mk (drawn t)) texts) M I fin) = true.
Proof.
  intros. unfold input_is_mono. cbn [i_lines]. apply forallb_forall. intros l Hl. apply in_map_iff in Hl as (t & <- & _). cbn [mk l_text].
  unfold Proof_Body.pl. cbn [bx num_chars_invisible]. apply Nat.eqb_eq. generalize (drawn t) as x. intros x. unfold invisible_len, plain. induction x as [|y x IH]; [reflexivity|exact IH].
Qed.

Lemma vertical_drawn : forall texts M I fin, texts <> [] -> Forall okt texts ->
  find_vertical_shapes U D (mkInput (map (fun t => mk (drawn t)) texts) M I fin) (seq 0 (length texts)) literal = Ok (literal, map vm texts).
Proof.
  intros texts M I fin Hne Ho. unfold find_vertical_shapes. unfold blank_side in Hleft. rewrite Hleft. cbn [andb].
  unfold comp_types. cbn [find_vertical_types]. rewrite mono_lines, Hmono. cbn [comp_type_is_viable Bool.eqb negb orb].
  rewrite body_drawn by exact Ho. cbn [bind]. destruct (sufficient_body_quality D (map vm texts)); reflexivity.
Qed.

Definition back (mode : N) (t : list N) : list N := spaces (if N.eqb mode 98 || N.eqb mode 0 then ind else 0) ++ t.
Lemma cut_drawn : forall mode t, okt t -> remove_vertical U D mode ind literal (mk (drawn t)) (vm t) = Ok (mkRline (Some (pl (back mode t))) []).
Proof.
  intros mode t Ht. unfold remove_vertical, calculate_start_idx, calculate_end_idx, back_to_org, max_chars_line. cbn [drops_input vm fst snd mk l_text l_tabpos vmatch0 v_quality v_end v_start].
  set (n := length match t with [] => s1 | _ => s end). rewrite num_pl.
  destruct (Nat.ltb_spec 0 n) as [_|F]; [|subst n; destruct t; cbn in F; lia].
  change (0 <? 0) with false. cbv iota.
  assert (X : exists k, confirmed_padding U (d_pad_left D) (pl (drawn t)) literal (ind + n) = Ok k /\ between (drawn t) (ind + n + k) (length (drawn t)) = t /\ ind + n + k <= length (drawn t)).
  { subst n. unfold drawn. destruct t as [|x t].
    - exists 0. replace (ind + length s1) with (length (spaces ind ++ s1)) by (rewrite app_length; unfold spaces; rewrite repeat_length; reflexivity).
      rewrite conf_end by reflexivity. rewrite Nat.add_0_r. split; [reflexivity|]. split; [apply between_nil|lia].
    - exists pad. assert (E : spaces ind ++ s ++ spaces pad ++ x :: t = (spaces ind ++ s) ++ spaces pad ++ x :: t) by (rewrite <- app_assoc; reflexivity).
      replace (ind + length s) with (length (spaces ind ++ s)) by (rewrite app_length; unfold spaces; rewrite repeat_length; reflexivity).
      split; [apply (conf_all _ _ literal _ (x :: t) eq_refl E)|]. rewrite E, app_assoc. unfold between.
      replace (length (spaces ind ++ s) + pad) with (length ((spaces ind ++ s) ++ spaces pad)) by (rewrite (app_length (spaces ind ++ s)); unfold spaces; rewrite !repeat_length; reflexivity).
      split; [|rewrite (app_length _ (x :: t)); lia]. rewrite skipn_len by reflexivity. apply firstn_all2. rewrite (app_length _ (x :: t)). lia. }
  destruct X as (k & Ek & Eb & Hk). rewrite Ek. cbn [bind]. rewrite substr_pl; [|exact HU|apply drawn_okt; exact Ht|exact Hk]. rewrite Eb. cbn [bind].
  unfold back. destruct (_ || _); cbn [prepend_opt bind]; [rewrite (prepend_pl U HU); reflexivity|reflexivity].
Qed.

Lemma cut_all : forall mode texts, Forall okt texts -> remove_vertical_all U D mode ind literal (map (fun t => mk (drawn t)) texts) (map vm texts) =
  Ok (map (fun t => mkRline (Some (pl (back mode t))) []) texts).
Proof.
  intros mode texts Ho. induction Ho as [|t texts Ht _ IH]; [reflexivity|]. cbn [map remove_vertical_all]. rewrite cut_drawn by exact Ht. cbn [bind].
  rewrite IH. reflexivity.
Qed.

Lemma remove_drawn : forall mode texts M fin, texts <> [] -> Forall okt texts ->
  exists M' I', remove_box U D mode false true (mkInput (map (fun t => mk (drawn t)) texts) M ind fin) = Ok (mkInput (map (fun t => mk (back mode t)) texts) M' I' fin).
Proof.
  intros mode texts M fin Hne Ho. set (inp := mkInput (map (fun t => mk (drawn t)) texts) M ind fin).
  assert (En : i_num_lines inp = length texts) by (unfold i_num_lines; cbn [inp i_lines]; apply map_length).
  assert (Hlen : 0 < length texts) by (destruct texts; [congruence|cbn; lia]).
  destruct (cm_blank _ s CD) as (Bt & Bb & _). unfold blank_side in Bt, Bb, Hleft.
  unfold remove_box. unfold find_first_line, find_last_line.
  assert (F1 : first_nonblank U (i_lines inp) 0 = Ok (Some 0)).
  { cbn [inp i_lines]. destruct texts as [|t texts]; [congruence|]. cbn [map first_nonblank mk l_text]. rewrite blank_pl, drawn_not_blank. reflexivity. }
  assert (F2 : first_nonblank U (rev (i_lines inp)) 0 = Ok (Some 0)).
  { cbn [inp i_lines]. destruct (exists_last Hne) as (ts & t & ->). rewrite map_app, rev_app_distr. cbn [map rev app first_nonblank mk l_text].
    rewrite blank_pl, drawn_not_blank. reflexivity. }
  rewrite F1, F2, En. cbn [bind]. rewrite subz_le by lia. cbn [bind]. destruct (Nat.leb_spec (length texts) 0) as [F|_]; [lia|].
  rewrite Bt, Bb. cbn [bind fst snd]. rewrite Nat.sub_0_r. replace (S (length texts - 1)) with (length texts) by lia.
  destruct (Nat.ltb_spec 0 (length texts)) as [_|F]; [|lia]. rewrite Nat.sub_0_r. cbv iota. unfold inp at 1. rewrite vertical_drawn by assumption. cbn [bind fst snd].
  unfold apply_results_to_input. cbn [inp i_lines i_indent i_final_newline]. rewrite Nat.sub_0_r. cbn [skipn firstn map app].
  rewrite (firstn_all2 (map (fun t => mk (drawn t)) texts)) by (rewrite map_length; lia). rewrite cut_all by exact Ho. cbn [bind].
  destruct (Nat.ltb_spec 0 (length texts)) as [_|F]; [|lia]. rewrite skipn_all2 by (rewrite map_length; lia). cbn [map]. rewrite app_nil_r.
  cbn [orb]. set (L := map (fun t => mkRline (Some (pl (back mode t))) []) texts).
  assert (K : killblank U D true false L 0 (length texts) = Ok (0, length texts)).
  { unfold killblank. cbn [andb negb]. rewrite Htop, Hbot.
    assert (K0 : forall l, kill U (Some 0) l = Ok 0) by (intros [|? ?]; reflexivity). rewrite K0. cbn [bind]. rewrite K0. cbn [bind]. rewrite Nat.sub_0_r. reflexivity. }
  rewrite K. cbn [bind]. unfold remove_bottom_from_input, remove_top_from_input. rewrite !Nat.ltb_irrefl. cbn [bind].
  assert (S : mapM settle L = Ok (map (fun t => mk (back mode t)) texts)).
  { subst L. clear. induction texts as [|t texts IH]; [reflexivity|]. cbn [map mapM]. unfold settle at 1. cbn [r_text r_tabpos bind]. rewrite IH. reflexivity. }
  rewrite S. cbn [bind]. rewrite Hleft. cbn [Nat.eqb]. eauto.
Qed.
End Removal.

(** ** input as it is read *)
Fixpoint raws (eol : list N) (fin : bool) (ls : list (list N)) : list (list N) :=
  match ls with
  | [] => []
  | [l] => [l ++ (if fin then eol else [])]
  | l :: r => (l ++ eol) :: raws eol fin r
  end.

Lemma raw_one : forall a, a <> [] -> ~ In 10%N a -> (N.of_nat (length a) <= LINE_MAX_BYTES)%N -> raw_lines a = [a].
Proof.
  intros a Hn Ha Hl. unfold raw_lines.
  assert (H : forall room k cur, length a < k -> (a <> [] \/ cur <> []) -> fgets_all room (N.of_nat k) cur a = [rev cur ++ a]).
  { intros room. clear Hl Hn. induction a as [|c a IH]; intros k cur Hk Hc; cbn [fgets_all].
    - destruct cur as [|x cur]; [destruct Hc as [F|F]; congruence|]. rewrite app_nil_r. reflexivity.
    - cbn [length] in Hk.
      assert (E1 : N.eqb c char_newline = false) by (apply N.eqb_neq; intros ->; apply Ha; left; reflexivity).
      assert (E2 : N.eqb (N.of_nat k) 1 = false) by (apply N.eqb_neq; lia).
      rewrite E1, E2. cbn [orb]. replace (N.pred (N.of_nat k)) with (N.of_nat (k - 1)) by lia.
      rewrite IH; [cbn [rev]; rewrite <- app_assoc; reflexivity|intros H; apply Ha; right; exact H|lia|right; discriminate]. }
  assert (E : (LINE_MAX_BYTES + 1)%N = N.of_nat (N.to_nat (LINE_MAX_BYTES + 1))) by (rewrite N2Nat.id; reflexivity).
  rewrite E. rewrite H; [reflexivity| |auto]. unfold LINE_MAX_BYTES in *. lia.
Qed.

Lemma short_line : forall a s, ~ In 10%N a -> (N.of_nat (length a) <= LINE_MAX_BYTES)%N -> raw_lines (a ++ 10%N :: s) = (a ++ [10%N]) :: raw_lines s.
Proof.
  intros a s Ha Hl. unfold raw_lines.
  assert (H : forall room k cur, length a < k -> fgets_all room (N.of_nat k) cur (a ++ 10%N :: s) = (rev cur ++ a ++ [10%N]) :: fgets_all room room [] s).
  { intros room. clear Hl. induction a as [|c a IH]; intros k cur Hla; cbn [app fgets_all].
    - change (N.eqb 10 char_newline) with true. cbn [orb rev app]. reflexivity.
    - cbn [length] in Hla.
      assert (E1 : N.eqb c char_newline = false) by (apply N.eqb_neq; intros ->; apply Ha; left; reflexivity).
      assert (E2 : N.eqb (N.of_nat k) 1 = false) by (apply N.eqb_neq; lia).
      rewrite E1, E2. cbn [orb]. replace (N.pred (N.of_nat k)) with (N.of_nat (k - 1)) by lia.
      rewrite IH by (try lia; intros H; apply Ha; right; exact H). cbn [rev]. rewrite <- !app_assoc. reflexivity. }
  assert (E : (LINE_MAX_BYTES + 1)%N = N.of_nat (N.to_nat (LINE_MAX_BYTES + 1))) by (rewrite N2Nat.id; reflexivity).
  rewrite E. rewrite H; [reflexivity|]. unfold LINE_MAX_BYTES in *. lia.
Qed.

Lemma eol_line : forall eol a s, eol = [10%N] \/ eol = [13%N; 10%N] -> ~ In 10%N a -> (N.of_nat (length a) <= line_limit)%N ->
  raw_lines (a ++ eol ++ s) = (a ++ eol) :: raw_lines s.
Proof.
  intros eol a s [-> | ->] Ha Hl; cbn [app].
  - apply short_line; [exact Ha|]. unfold line_limit in Hl. lia.
  - change (a ++ 13%N :: 10%N :: s) with (a ++ [13%N] ++ 10%N :: s). rewrite app_assoc, short_line.
    + rewrite <- app_assoc. reflexivity.
    + intros X. apply in_app_or in X as [X|[X|[]]]; [auto|discriminate].
    + rewrite app_length. cbn [length]. unfold line_limit in Hl. unfold LINE_MAX_BYTES in *. lia.
Qed.

Lemma raws_terminated : forall eol fin ls, eol = [10%N] \/ eol = [13%N; 10%N] -> Forall (fun l => ~ In 10%N l) ls -> Forall (fun l => N.of_nat (length l) <= line_limit)%N ls ->
  (fin = false -> last ls [] <> []) -> raw_lines (terminated eol fin ls) = raws eol fin ls.
Proof.
  intros eol fin ls He. induction ls as [|l ls IH]; intros Hn Hl Hf; [reflexivity|].
  inversion Hn as [|? ? Hn1 Hn2]; inversion Hl as [|? ? Hl1 Hl2]; subst. destruct ls as [|l' ls].
  - cbn [terminated raws]. destruct fin.
    + rewrite <- (app_nil_r (l ++ eol)), <- app_assoc, eol_line by assumption. rewrite app_nil_r. reflexivity.
    + rewrite app_nil_r. apply raw_one; [apply (Hf eq_refl)|exact Hn1|]. unfold line_limit in Hl1. lia.
  - change (terminated eol fin (l :: l' :: ls)) with (l ++ eol ++ terminated eol fin (l' :: ls)). rewrite eol_line by assumption.
    rewrite IH by assumption. reflexivity.
Qed.

Lemma raws_read : forall (f : list N -> res line) eol fin ls, lf eol -> (forall l e, In l ls -> lf e -> (e = [] \/ e = eol) -> f (l ++ e) = Ok (mk l)) ->
  mapM f (raws eol fin ls) = Ok (map mk ls).
Proof.
  intros f eol fin ls He. induction ls as [|l ls IH]; intros H; [reflexivity|]. destruct ls as [|l' ls].
  - cbn [raws mapM map]. rewrite H; [reflexivity|left; reflexivity|destruct fin; [exact He|left; reflexivity]|destruct fin; auto].
  - change (raws eol fin (l :: l' :: ls)) with ((l ++ eol) :: raws eol fin (l' :: ls)). cbn [mapM]. rewrite H by (cbn; auto). cbn [bind].
    rewrite IH by (intros; apply H; [right|..]; assumption). reflexivity.
Qed.

Lemma raws_last : forall eol fin ls, eol = [10%N] \/ eol = [13%N; 10%N] -> ls <> [] -> (fin = false -> exists m c, last ls [] = m ++ [c] /\ c <> 13%N /\ c <> 10%N) ->
  has_linebreak (last (raws eol fin ls) []) = fin.
Proof.
  intros eol fin ls He Hn Hf. induction ls as [|l ls IH]; [congruence|]. destruct ls as [|l' ls].
  - cbn [raws last]. unfold has_linebreak. destruct fin.
    + rewrite rev_app_distr. destruct He as [-> | ->]; reflexivity.
    + destruct (Hf eq_refl) as (m & c & E & H1 & H2). cbn [last] in E. rewrite app_nil_r, E, rev_app_distr. cbn [rev app].
      apply N.eqb_neq in H1, H2. unfold char_cr, char_newline. rewrite H1, H2. reflexivity.
  - change (raws eol fin (l :: l' :: ls)) with ((l ++ eol) :: raws eol fin (l' :: ls)).
    assert (X : raws eol fin (l' :: ls) <> []) by (destruct ls; discriminate). destruct (raws eol fin (l' :: ls)) as [|x y] eqn:E; [congruence|].
    change (last ((l ++ eol) :: x :: y) []) with (last (x :: y) []). rewrite <- E in *. apply IH; [discriminate|exact Hf].
Qed.

(** ** output *)
Lemma trim_same : forall t, okt t -> t = [] \/ ends t \/ blanks U t -> bxs_rtrim U (pl t) = Ok (pl t).
Proof.
  intros t Ho H. unfold bxs_rtrim.
  assert (E : trailing (pl t) = 0).
  { unfold Proof_Body.pl. cbn [bx trailing]. rewrite visible_plain. destruct H as [->|[(m & c & -> & Hc)|H]].
    - reflexivity.
    - destruct (all_blank _ _); [reflexivity|]. unfold trail. rewrite rev_app_distr. cbn [rev app lead]. rewrite Hc. reflexivity.
    - assert (E : all_blank U t = true). { unfold all_blank. apply forallb_forall. unfold blanks in H. rewrite Forall_forall in H. exact H. }
      rewrite E. reflexivity. }
  rewrite E. reflexivity.
Qed.

Lemma print_plain : forall o eol inp ls j, o_tabexp o = 101%N -> print_lines o eol inp j (map mk ls) = Ok (terminated eol (i_final_newline inp) ls).
Proof.
  intros o eol inp ls j Ho. revert j. induction ls as [|l ls IH]; intros j; [reflexivity|]. cbn [map print_lines]. unfold out_line. rewrite Ho.
  change (N.eqb 101 117) with false. change (N.eqb 101 107) with false. cbv iota. unfold first_char_ptr. cbn [Nat.min mk l_text].
  rewrite (first_pl U l 0) by lia. cbn [bind]. unfold at_off. rewrite mem_pl. cbn [Nat.ltb Nat.leb skipn bind]. rewrite IH. cbn [bind].
  destruct ls as [|l' ls]; cbn [is_nil map negb orb terminated].
  - rewrite orb_false_r, app_nil_r. reflexivity.
  - rewrite orb_true_r. reflexivity.
Qed.

Lemma output_plain : forall o eol M I fin ls, o_tabexp o = 101%N -> Forall okt ls -> Forall (fun t => t = [] \/ ends t \/ blanks U t) ls ->
  output_input U o eol (mkInput (map mk ls) M I fin) = Ok (terminated eol fin ls).
Proof.
  intros o eol M I fin ls Ho Hk Hl. unfold output_input, trim_lines. cbn [i_lines i_maxline i_indent i_final_newline].
  assert (E : mapM (fun l => b <- must (bxs_rtrim U (l_text l)) ;; Ok (mkLine b (l_tabpos l))) (map mk ls) = Ok (map mk ls)).
  { clear Ho. induction ls as [|l ls IH]; [reflexivity|]. inversion Hk; inversion Hl; subst. cbn [map mapM mk l_text l_tabpos].
    rewrite trim_same by assumption. cbn [must bind]. fold mk. rewrite IH by assumption. reflexivity. }
  rewrite E. cbn [bind i_lines]. rewrite print_plain by exact Ho. reflexivity.
Qed.

Lemma mono_comment : forall d s, wf_design U d -> built U d -> comment_design d s -> okt s -> design_is_mono d = true.
Proof.
  intros d s WF HB CD Hs. unfold design_is_mono. apply forallb_forall. intros i Hi. apply in_seq in Hi. destruct (isempty (d_shape d i)) eqn:Ee; [reflexivity|]. cbn [orb].
  apply forallb_forall. intros m Hm. apply Nat.eqb_eq.
  assert (Hin : In m (s_mbcs (d_shape d i))) by (rewrite <- (firstn_skipn (s_height (d_shape d i)) (s_mbcs (d_shape d i))); apply in_or_app; left; exact Hm).
  pose proof (wf_shapes U d WF i ltac:(lia) Ee) as [_ _ Hrow]. rewrite Forall_forall in Hrow.
  destruct (row_tokens U HU _ m (Hrow m Hin) (HB i m ltac:(lia) Hin)) as (ts & Hc & Hr & _ & [->|(k & -> & ->)]); [|reflexivity].
  cbn [bx num_chars_invisible]. cbn [bx memory] in Hr. clear Hr.
  assert (Hno : ~ In 27%N (render ts)).
  { apply (in_map memory) in Hin. cbn [bx memory] in Hin. destruct (Nat.eq_dec i W_) as [->|Hne].
    - rewrite (proj1 (cd_left _ _ CD)) in Hin. destruct Hin as [<-|[]]. apply okt_no27. exact Hs.
    - destruct (cd_blank _ _ CD i ltac:(lia) Hne) as [F|(_ & _ & _ & Eb)]; [congruence|]. rewrite Eb in Hin. apply repeat_spec in Hin. rewrite Hin.
      intros X. apply repeat_spec in X. discriminate. }
  assert (ts = plain (render ts)) as ->; [|apply invisible_plain].
  apply reading_unique; [apply Hc|apply (closed_plain _ Hno)|]. rewrite render_plain. reflexivity.
Qed.
End Round.
