(** * Removing a box from any text: reading, removing, reversion rules, output *)
From Coq Require Import List Arith NArith ZArith Bool Lia.
From Verif Require Import Base BaseFacts Model_Unicode Model_Bxs Model_Shape Model_Generate Model_Input Model_Detect Model_Remove Model_Main
  Spec_Str Spec_Design Spec_Box Spec_Input Spec_Remove Spec_Undo Proof_Hmm Proof_Horiz Proof_Open Proof_Recog Proof_Str Proof_Bxs Proof_BxsOps Proof_BxsMore Proof_Shows Prop_Str
  Proof_Rows Proof_Print Proof_Input Proof_Draw Proof_Body Proof_Round Proof_Closed2 Prop_Subst Prop_Body.
Import ListNotations.
Local Open Scope nat_scope.

Lemma chop_spec : forall c s, s <> [] -> exists r, chop c s = Ok r /\ without_last c s r.
Proof.
  intros c s H. destruct (exists_last H) as (a & x & ->). rewrite chop_end. eexists. split; [reflexivity|]. unfold without_last.
  destruct (N.eqb_spec x c) as [->|Hx]; [left; reflexivity|right]. split; [reflexivity|]. intros b E. apply app_inj_tail in E as [_ E]. congruence.
Qed.
Lemma without_prefix : forall c s r, without_last c s r -> exists z, s = r ++ z.
Proof. intros c s r [->|[-> _]]; [eexists; reflexivity|exists []; rewrite app_nil_r; reflexivity]. Qed.
Lemma expands_in : forall t p s r c, expands t p s r -> In c r -> c = 32%N \/ In c s.
Proof.
  intros t p s r c H. induction H as [|p n s r Hn Hm H IH|p x s r Hx H IH]; intros Hi; [destruct Hi| |].
  - apply in_app_or in Hi as [Hi|Hi]; [left; eapply repeat_spec; exact Hi|]. destruct (IH Hi); [auto|right; right; assumption].
  - destruct Hi as [->|Hi]; [right; left; reflexivity|]. destruct (IH Hi); [auto|right; right; assumption].
Qed.

Section Undo.
Variable U : uctab.
Hypothesis HU : uctab_ok U.
Notation okt := (okt U).
Notation pl := (pl U).

Lemma shows_okt : forall w s, shows U w s -> ~ In 27%N s -> okt s.
Proof.
  intros w s H Hn. apply (shows_closed U HU) in H as (ts & Hc & Hr & _).
  assert (ts = plain s) as ->.
  { apply reading_unique; [apply Hc|apply (closed_plain _ Hn)|]. rewrite render_plain. exact Hr. }
  destruct Hc as (Hc & Ha & Ht). apply Forall_forall. intros c Hi. split; [intros ->; exact (Hn Hi)|]. unfold tabless in Ht. unfold allowed in Ha. rewrite visible_plain in Ht, Ha.
  split; [intros ->; exact (Ht Hi)|]. rewrite Forall_forall in Ha. apply Ha. exact Hi.
Qed.

Record taken (t : nat) (raw s : list N) : Prop := {
  tk_content : content t raw s;
  tk_ok : okt s;
  tk_narrow : narrow_indent (is_blank U) (term_width U) s;
  tk_short : (N.of_nat (length s) <= line_limit)%N
}.
Lemma taken_no27 : forall t raw s, taken t raw s -> ~ In 27%N s.
Proof. intros t raw s [_ H _ _] F. unfold Proof_Body.okt in H. rewrite Forall_forall in H. destruct (H _ F) as [X _]. congruence. Qed.

Lemma read_taken : forall o raw, 1 <= o_tabstop o <= 16 -> o_tabexp o = 101%N -> removable U (o_tabstop o) raw ->
  exists s, read_line U true o raw = Ok (mk U s) /\ taken (o_tabstop o) raw s.
Proof.
  intros o raw Ht Hx ((ts & [Hok Hr] & Hk & Hcut & Ha & Hn & rr & Hre & Hlim) & H27 & Hne & Hnl).
  assert (ts = plain raw) as -> by (apply reading_unique; [exact Hok|apply (closed_plain _ H27)|rewrite render_plain; exact Hr]).
  unfold allowed in Ha. rewrite visible_plain in Ha, Hn. clear Hok Hr Hk Hcut.
  destruct (chop_spec 10%N raw Hne) as (a & Ea & Wa).
  assert (Hane : a <> []) by (intros ->; destruct Wa as [Wa|[Wa _]]; [exact (Hnl Wa)|congruence]).
  destruct (chop_spec 13%N a Hane) as (b & Eb & Wb).
  destruct (without_prefix _ _ _ Wa) as (za & Za). destruct (without_prefix _ _ _ Wb) as (zb & Zb).
  assert (Eraw : raw = b ++ (zb ++ za)) by (rewrite Za, Zb, <- app_assoc; reflexivity).
  rewrite Eraw in Hre, Ha, Hn, H27. apply expands_app in Hre as (s & rb & -> & Hs & _). rewrite app_length in Hlim.
  apply narrow_app in Hn. apply Forall_app in Ha as [Hab _].
  assert (Hb27 : ~ In 27%N b) by (intros F; apply H27; apply in_or_app; auto).
  assert (Hab' : allowed U (plain b)) by (unfold allowed; rewrite visible_plain; exact Hab).
  assert (Hs' : expands (o_tabstop o) 0 (render (plain b)) s) by (rewrite render_plain; exact Hs).
  destruct (expand_toks U HU _ _ _ _ (closed_plain _ Hb27) Hab' Hs') as (ts' & HC & Er & Hv). rewrite visible_plain in Hv.
  assert (Hs27 : ~ In 27%N s) by (intros F; destruct (expands_in _ _ _ _ _ Hs F) as [G|G]; [discriminate|exact (Hb27 G)]).
  assert (ts' = plain s) as -> by (apply reading_unique; [apply HC|apply (closed_plain _ Hs27)|rewrite render_plain; exact Er]).
  rewrite visible_plain in Hv.
  assert (Ho : okt s).
  { destruct HC as (_ & A & T). unfold allowed in A. unfold tabless in T. rewrite visible_plain in A, T. rewrite Forall_forall in A.
    apply Forall_forall. intros c Hc. split; [intros ->; exact (Hs27 Hc)|]. split; [intros ->; exact (T Hc)|]. apply A. exact Hc. }
  assert (Hsl : (N.of_nat (length s) <= line_limit)%N) by (unfold line_limit in *; lia).
  exists s. split; [|split; [exists a, b; auto|exact Ho|exact (narrow_detab U HU _ _ Hv Hn)|exact Hsl]].
  unfold read_line, trim_trailing_ws_carefully. unfold char_newline, char_cr. rewrite Ea. cbn [bind]. rewrite Eb. cbn [bind].
  destruct (is_nil b) eqn:Enil.
  - destruct b; [|discriminate]. inversion Hs; subst. reflexivity.
  - destruct (expand_tabs_all (o_tabstop o) (N.eqb (o_tabexp o) 107) b s Ht Hs Hsl) as (ps & _ & ->). rewrite Hx. cbn [bind fst snd N.eqb Pos.eqb].
    destruct (is_nil s) eqn:Es; [destruct s; [|discriminate]; apply expands_len in Hs; destruct b; [discriminate|cbn in Hs; lia]|].
    rewrite from_pl by assumption. reflexivity.
Qed.

Lemma read_all_taken : forall o raws, 1 <= o_tabstop o <= 16 -> o_tabexp o = 101%N -> Forall (removable U (o_tabstop o)) raws ->
  exists ss, mapM (read_line U true o) raws = Ok (map (mk U) ss) /\ Forall2 (taken (o_tabstop o)) raws ss.
Proof.
  intros o raws Ht Hx H. induction H as [|raw raws Hr H IH]; [exists []; split; [reflexivity|constructor]|].
  destruct (read_taken o raw Ht Hx Hr) as (s & E & Hs). destruct IH as (ss & Es & Hss). exists (s :: ss). split; [|constructor; assumption].
  cbn [mapM]. rewrite E. cbn [bind]. rewrite Es. reflexivity.
Qed.

Lemma taken_line : forall t raw s, taken t raw s -> built_line U (mk U s) /\ ~ In 27%N (memory (l_text (mk U s))).
Proof.
  intros t raw s T. pose proof (taken_no27 _ _ _ T) as H27. destruct T as [_ Ho Hn _]. cbn [mk l_text]. rewrite (mem_pl U). split; [|exact H27].
  unfold built_line. cbn [mk l_text]. rewrite (mem_pl U). split; [apply from_pl; assumption|]. exists (plain s), (cols U s).
  split; [split; [apply (closed_plain _ H27)|apply render_plain]|]. split; [apply okt_shows; assumption|]. rewrite visible_plain. exact Hn.
Qed.
Lemma taken_indent : forall t raw s, taken t raw s -> indent (pl s) = lead (is_blank U) s.
Proof. intros t raw s T. apply indent_pl. apply narrow_term; [exact HU|]. apply (tk_narrow _ _ _ T). Qed.

Lemma cols_shows : forall s w, okt s -> shows U w s -> cols U s = w.
Proof.
  intros s w Ho Hs. destruct (shows_from U HU _ _ Hs) as (b & Eb & _ & Hc & _). rewrite from_pl in Eb by assumption. injection Eb as <-. rewrite <- Hc. symmetry. apply cols_pl.
Qed.

Lemma taken_column : forall t raws ss, Forall2 (taken t) raws ss -> first_column U ss (get_indent (map (mk U) ss)).
Proof.
  intros t raws ss H.
  assert (T : forall s, In s ss -> exists raw, taken t raw s).
  { intros s Hs. induction H; [destruct Hs|]. destruct Hs as [<-|Hs]; eauto. }
  destruct (get_indent_spec (map (mk U) ss)) as [[H0 E]|[H1 (l & Hl & Hp & Ha)]].
  - left. split; [|exact E]. intros s Hs. destruct (T s Hs) as (raw & Ts). specialize (H0 _ (in_map (mk U) _ _ Hs)). cbn [mk l_text] in H0. rewrite (cols_pl U) in H0.
    rewrite <- H0. apply okt_shows; [exact HU|apply (tk_ok _ _ _ Ts)].
  - right. split.
    + intros s w Hs Hw Hw0. destruct (T s Hs) as (raw & Ts). specialize (H1 _ (in_map (mk U) _ _ Hs)). cbn [mk l_text] in H1.
      rewrite (cols_pl U), (cols_shows s w (tk_ok _ _ _ Ts) Hw), (taken_indent _ _ _ Ts) in H1. exact (H1 Hw0).
    + apply in_map_iff in Hl as (s & <- & Hs). destruct (T s Hs) as (raw & Ts). cbn [mk l_text] in Hp, Ha. rewrite (cols_pl U) in Hp. rewrite (taken_indent _ _ _ Ts) in Ha.
      exists s, (cols U s). split; [exact Hs|]. split; [apply okt_shows; [exact HU|apply (tk_ok _ _ _ Ts)]|]. split; [exact Hp|]. destruct Ha as [Ha|Ha]; [exact Ha|exfalso].
      specialize (H1 _ (in_map (mk U) _ _ Hs)). cbn [mk l_text] in H1. rewrite (cols_pl U), (taken_indent _ _ _ Ts), Ha in H1. specialize (H1 Hp).
      pose proof (lead_le (is_blank U) s). pose proof (tk_short _ _ _ Ts). unfold line_limit, LINE_MAX_BYTES in *. lia.
Qed.

Lemma handle_taken : forall o d raws, 1 <= o_tabstop o <= 16 -> o_tabexp o = 101%N -> raws <> [] -> Forall (removable U (o_tabstop o)) raws ->
  exists ss M, handle_input U true o d [] raws = Ok (mkInput (map (mk U) ss) M (get_indent (map (mk U) ss)) (has_linebreak (last raws []))) /\
    ss <> [] /\ Forall2 (taken (o_tabstop o)) raws ss.
Proof.
  intros o d raws Ht Hx Hne H. destruct (read_all_taken o raws Ht Hx H) as (ss & E & Hss).
  assert (Hsn : ss <> []) by (intros ->; inversion Hss; subst; congruence).
  unfold handle_input, read_all_input. rewrite E. cbn [bind fst snd]. exists ss. eexists. split; [|auto].
  unfold analyze_input. destruct (is_nil (map (mk U) ss)) eqn:En; [destruct ss; [congruence|discriminate]|]. cbn [negb]. rewrite andb_false_r. reflexivity.
Qed.

(** ** reversion rules *)
Definition fit (l : line) : Prop := l_text l = pl (memory (l_text l)) /\ okt (memory (l_text l)).
Lemma fit_shows : forall l, fit l -> shows U (cols U (memory (l_text l))) (memory (l_text l)) /\ ~ In 27%N (memory (l_text l)).
Proof. intros l [_ Ho]. split; [apply okt_shows; assumption|apply (okt_no27 U); exact Ho]. Qed.

Lemma rule_line : forall rules m b, Forall (plain_rule U) rules -> b = pl (memory b) -> okt (memory b) ->
  exists m' b', subst_line U rules m b = Ok (m', b') /\ rewrites rules (memory b) (memory b') /\ b' = pl (memory b') /\ okt (memory b').
Proof.
  induction rules as [|f rules IH]; intros m b HR Eb Ho; cbn [subst_line rewrites]; [exists m, b; auto|].
  inversion HR as [|? ? Hf HR']; subst. destruct (Hf (memory b) (cols U (memory b))) as (t & w' & Ef & Hs & Hn); [apply okt_shows; assumption|apply (okt_no27 U); exact Ho|].
  rewrite Ef. pose proof (shows_okt _ _ Hs Hn) as Hot. rewrite from_pl by assumption. cbn [must bind].
  destruct (IH (analyze_line_ascii m (pl t)) (pl t) HR') as (m' & b' & E & Hr & Eb' & Ho'); [rewrite (mem_pl U); reflexivity|rewrite (mem_pl U); exact Hot|].
  exists m', b'. split; [exact E|]. split; [|auto]. exists t. rewrite (mem_pl U) in Hr. auto.
Qed.
Lemma rule_lines : forall rules ls m, Forall (plain_rule U) rules -> Forall fit ls ->
  exists m' ls', subst_lines U rules m ls = Ok (m', ls') /\ Forall fit ls' /\
    Forall2 (fun l l' => rewrites rules (memory (l_text l)) (memory (l_text l'))) ls ls'.
Proof.
  intros rules ls m HR H. revert m. induction H as [|l ls [E Ho] H IH]; intros m; cbn [subst_lines]; [exists m, []; split; [reflexivity|]; split; constructor|].
  destruct (rule_line rules m (l_text l) HR E Ho) as (m1 & b' & -> & Hr & Eb & Hob). cbn [bind fst snd]. destruct (IH m1) as (m' & ls' & -> & HF & H2). cbn [bind fst snd].
  exists m'. eexists. split; [reflexivity|]. split; constructor; try assumption. split; assumption.
Qed.

(** ** output *)
Lemma rtrim_fit : forall s, okt s -> exists r, bxs_rtrim U (pl s) = Ok (pl r) /\ rtrimmed U s r.
Proof.
  intros s Ho. destruct (rtrim_spec U HU (plain s) (proj1 (okt_good U s) Ho)) as (a & b & E & Er & _ & Hb & Hk).
  destruct (forallb (is_blank U) s) eqn:Eb.
  - exists s. split; [|left; split; [apply Forall_forall; apply forallb_forall; exact Eb|reflexivity]].
    apply (trim_same U s Ho). right. right. apply Forall_forall. apply forallb_forall. exact Eb.
  - apply plain_split in E as (k & z & E & -> & ->). rewrite !visible_plain in *. exists k. split; [exact Er|]. right.
    destruct (Hk Eb) as (m & c & -> & Hc). exists z, m, c. split; [exact E|]. split; [apply Forall_forall; apply forallb_forall; exact Hb|]. auto.
Qed.
Lemma print_fit : forall o eol inp ls rs j, o_tabexp o = 101%N -> Forall2 (fun l r => l_text l = pl r) ls rs ->
  print_lines o eol inp j ls = Ok (terminated eol (i_final_newline inp) rs).
Proof.
  intros o eol inp ls rs j Ho H. revert j. induction H as [|l r ls rs E H IH]; intros j; [reflexivity|]. cbn [print_lines]. unfold out_line. rewrite Ho.
  change (N.eqb 101 117) with false. change (N.eqb 101 107) with false. cbv iota. unfold first_char_ptr. cbn [Nat.min]. rewrite E.
  rewrite (first_pl U r 0) by lia. cbn [bind]. unfold at_off. rewrite (mem_pl U). cbn [Nat.ltb Nat.leb skipn bind]. rewrite IH. cbn [bind].
  destruct H as [|l' r' ls rs E' H]; cbn [is_nil negb orb terminated].
  - rewrite orb_false_r, app_nil_r. reflexivity.
  - rewrite orb_true_r. reflexivity.
Qed.
Lemma output_fit : forall o eol inp, o_tabexp o = 101%N -> Forall fit (i_lines inp) ->
  exists rs, output_input U o eol inp = Ok (terminated eol (i_final_newline inp) rs) /\ Forall2 (fun l r => rtrimmed U (memory (l_text l)) r) (i_lines inp) rs.
Proof.
  intros o eol inp Ho H. unfold output_input, trim_lines.
  assert (E : exists rs ls', mapM (fun l => b <- must (bxs_rtrim U (l_text l)) ;; Ok (mkLine b (l_tabpos l))) (i_lines inp) = Ok ls' /\
    Forall2 (fun l r => l_text l = pl r) ls' rs /\ Forall2 (fun l r => rtrimmed U (memory (l_text l)) r) (i_lines inp) rs).
  { induction H as [|l ls [E Hl] H IH]; [exists [], []; split; [reflexivity|]; split; constructor|]. destruct IH as (rs & ls' & IH & A & B).
    destruct (rtrim_fit _ Hl) as (r & Er & Hr). exists (r :: rs). eexists. split; [|split; constructor; [|exact A|exact Hr|exact B]].
    - cbn [mapM]. rewrite E at 1. rewrite Er. cbn [must bind]. rewrite IH. reflexivity.
    - reflexivity. }
  destruct E as (rs & ls' & -> & A & B). cbn [bind i_lines]. exists rs. rewrite (print_fit o eol _ _ rs 0 Ho A). split; [reflexivity|exact B].
Qed.

(** ** what remains can be printed *)
Lemma removed_fit : forall d mode kill mend inp out, Forall fit (i_lines inp) -> removed U d mode kill mend inp out -> Forall fit (i_lines out).
Proof.
  intros d mode kill mend inp out Hf (pre & top & body & bottom & post & drop & texts & k1 & kept & k2 & mid & c & EL & _ & _ & _ & _ & _ & _ & Hs & Et & _ & _ & _ & _ & _ & Hm & Eo & _).
  rewrite EL in Hf. rewrite !Forall_app in Hf. destruct Hf as (Hpre & (_ & Hbody & _) & Hpost). rewrite Eo, !Forall_app. split; [exact Hpre|]. split; [|exact Hpost].
  assert (Ht : Forall okt texts).
  { clear - Hs Hbody. induction Hs as [|l t ls ts H Hs IH]; [constructor|]. inversion Hbody as [|? ? [_ Ho] Hb]; subst. constructor; [|apply IH; exact Hb].
    eapply strips_okt; [exact H|exact Ho]. }
  rewrite Et, !Forall_app in Ht. destruct Ht as (_ & Hk & _). clear - HU Hm Hk.
  induction Hm as [|t l ts ls (z & E & _ & _ & Hb) Hm IH]; [constructor|]. inversion Hk as [|? ? Ho Hk']; subst. constructor; [|apply IH; exact Hk'].
  assert (Hol : okt (z ++ memory (l_text l))) by (rewrite <- E; apply (okt_app U); split; [apply okt_spaces; exact HU|exact Ho]).
  apply (okt_app U) in Hol as [_ Hol]. split; [|exact Hol]. rewrite from_pl in Hb by assumption. congruence.
Qed.

Lemma over_same : forall p n, over p n = over_padding p n.
Proof. intros p n. unfold over, over_padding. destruct (Z.gtb_spec p (-1)), (Z.ltb_spec p 0); try reflexivity; lia. Qed.
Lemma repadded_sized : forall o inp d, repadded o d (sized o inp d).
Proof.
  intros o inp d. pose proof (sized_adjusted o d inp) as A. constructor; rewrite <- ?over_same.
  - apply sized_shape.
  - exact (ad_l _ _ _ _ A).
  - exact (ad_t _ _ _ _ A).
  - exact (ad_b _ _ _ _ A).
  - intros H. apply (ad_lr_free _ _ _ _ A H).
  - intros H. exact (ad_tb_free _ _ _ _ A H).
Qed.
Lemma kill_asked : forall d D k, d_shape D = d_shape d -> (kill_option D k = true <-> asked_to_kill d k).
Proof.
  intros d D k E. unfold kill_option, asked_to_kill, blank_side. rewrite E. destruct (Z.eqb_spec k (-1)) as [->|Hk].
  - rewrite negb_true_iff, andb_false_iff. intuition congruence.
  - rewrite negb_true_iff, Z.eqb_neq. intuition congruence.
Qed.
End Undo.
