(** * Properties of the treatment of input text: C20, C22 - C27, C50 *)
From Coq Require Import Ascii String List Arith NArith ZArith Bool Lia.
From Verif Require Import Base BaseFacts Model_Unicode Model_Bxs Model_Shape Model_Generate Model_Input
  Spec_Str Spec_Design Spec_Box Spec_Input Proof_Str Proof_Bxs Proof_BxsOps Proof_BxsMore Proof_Shows Prop_Str
  Proof_Rows Proof_Print Proof_Input Demo.
Import ListNotations.
Local Open Scope nat_scope.

(** ** C20 *)
Theorem C20_unindent : forall U s w l n ts, uctab_ok U -> shows U w s -> bxs_from_unicode U s = Ok (l_text l) ->
  reads s ts -> narrow_indent (is_blank U) (term_width U) (visible ts) -> n <= lead (is_blank U) (visible ts) ->
  exists l' tx, unindent U n l = Ok l' /\ reads (memory (l_text l')) tx /\ visible tx = skipn n (visible ts) /\
    shows U (w - n) (memory (l_text l')) /\ l_tabpos l' = l_tabpos l /\
    (n < length (visible ts) -> exists a, ts = a ++ tx /\ (0 < n -> exists e c z, tx = e ++ Vis c :: z /\ attached a e)).
Proof.
  intros U s w l n ts HU Hs Hf Hr Hnar Hn.
  apply (shows_closed U HU) in Hs as (ts' & Hc & Hrs & Hw).
  assert (ts' = ts) as -> by (apply (reads_unique s); [split; [apply Hc|exact Hrs]|exact Hr]).
  assert (El : l_text l = bx U ts).
  { rewrite <- Hrs, (from_unicode_good U HU ts (closedU_good U ts Hc)) in Hf. congruence. }
  assert (Hle : n <= num_columns (l_text l)).
  { rewrite El. cbn [bx num_columns]. rewrite columns_sum. pose proof (lead_le_cols U (visible ts)) as H1.
    rewrite (lead_cols_narrow U (visible ts)) in H1 by (apply narrow_term; assumption). lia. }
  destruct (cut_front_closed U HU ts n Hc) as (b & Eb & Hcb & Hvb & _ & Hsp & _).
  unfold unindent. rewrite (proj2 (Nat.leb_le _ _) Hle).
  replace (bxs_cut_front U (l_text l) n) with (Ok (bx U b)) by (rewrite El; auto). cbn [must bind].
  eexists. exists b. split; [reflexivity|]. cbn [l_text l_tabpos bx memory]. split; [split; [apply Hcb|reflexivity]|].
  split; [exact Hvb|]. split; [|split; [reflexivity|intros Hlt; destruct (Hsp Hlt) as (a & Ha & _ & Hat); exists a; auto]].
  apply shows_closed; [exact HU|]. exists b. split; [exact Hcb|].
  split; [reflexivity|]. rewrite columns_sum, Hvb, <- Hw, columns_sum.
  rewrite <- (firstn_skipn n (visible ts)) at 2. rewrite map_app, sum_app, columns_narrow;
    [lia|exact Hn|apply narrow_term; assumption].
Qed.
Print Assumptions C20_unindent.
Example C20_example : match unindent demo_tab 2 (mkline "    a b"%string) with Ok l => str (memory (l_text l)) | _ => ""%string end = "  a b"%string.
Proof. vm_compute. reflexivity. Qed.

(** with a double-width blank in front, text is deleted: the indentation is 2 columns, and 2 characters are cut *)
Theorem C20_wide_blank_refuted : exists U s w l l' ts, uctab_ok U /\ shows U w s /\ bxs_from_unicode U s = Ok (l_text l) /\
  reads s ts /\ unindent U (get_indent [l]) l = Ok l' /\
  exists c, is_blank U c = false /\ In c (visible ts) /\ ~ In c (memory (l_text l')).
Proof.
  exists demo_tab, [12288; 97; 98]%N, 4,
    (mkLine (match bxs_from_unicode demo_tab [12288; 97; 98]%N with Ok b => b | _ => bxs_new_empty_string end) []),
    (mkLine (match bxs_from_unicode demo_tab [98]%N with Ok b => b | _ => bxs_new_empty_string end) []), (plain [12288; 97; 98]%N).
  assert (Hr : reads [12288; 97; 98]%N (plain [12288; 97; 98]%N)).
  { split; [|apply render_plain]. apply closed_plain. cbn. intuition discriminate. }
  split; [exact demo_tab_ok|]. split.
  { exists (plain [12288; 97; 98]%N). split; [exact Hr|]. split; [repeat constructor|]. split; [repeat constructor|].
    split; [repeat constructor|]. split; [|vm_compute; reflexivity]. unfold tabless. rewrite visible_plain. cbn. intuition discriminate. }
  split; [vm_compute; reflexivity|]. split; [exact Hr|]. split; [vm_compute; reflexivity|].
  exists 97%N. split; [reflexivity|]. rewrite visible_plain. split; [cbn; auto|]. vm_compute. intuition discriminate.
Qed.
Print Assumptions C20_wide_blank_refuted.

(** an escape sequence in front of the removed blanks is removed with them, although only blanks should be *)
Theorem C20_colour_lost_refuted : exists U s w l l' ts, uctab_ok U /\ shows U w s /\ bxs_from_unicode U s = Ok (l_text l) /\
  reads s ts /\ narrow_indent (is_blank U) (term_width U) (visible ts) /\ unindent U (get_indent [l]) l = Ok l' /\
  In 27%N s /\ ~ In 27%N (memory (l_text l')).
Proof.
  set (s := [27; 91; 51; 49; 109; 32; 97]%N).
  exists demo_tab, s, 2,
    (mkLine (match bxs_from_unicode demo_tab s with Ok b => b | _ => bxs_new_empty_string end) []),
    (mkLine (match bxs_from_unicode demo_tab [97]%N with Ok b => b | _ => bxs_new_empty_string end) []),
    [Esc [27; 91; 51; 49; 109]%N; Vis 32%N; Vis 97%N].
  assert (Hr : reads s [Esc [27; 91; 51; 49; 109]%N; Vis 32%N; Vis 97%N]).
  { split; [|reflexivity]. cbn [toks_ok tok_ok]. split; [|split; [discriminate|]].
    - right. exists 91%N, [51; 49]%N, 109%N. split; [reflexivity|]. split; [left; reflexivity|].
      split; [|unfold final; lia]. repeat constructor; unfold final; lia.
    - split; [discriminate|]. split; [discriminate|]. split; [discriminate|]. split; [discriminate|exact I]. }
  split; [exact demo_tab_ok|]. split.
  { eexists. split; [exact Hr|]. split; [repeat constructor|]. split; [repeat constructor|].
    split; [repeat constructor|]. split; [|vm_compute; reflexivity]. unfold tabless. cbn. intuition discriminate. }
  split; [vm_compute; reflexivity|]. split; [exact Hr|]. split; [vm_compute; repeat constructor|].
  split; [vm_compute; reflexivity|]. split; [cbn; auto|]. vm_compute. intuition discriminate.
Qed.
Print Assumptions C20_colour_lost_refuted.

(** ** C22 *)
(** The work buffer is never overrun (the result is [Ok]); a prefix [s1] of the line is expanded, and something is
    cut off only behind [line_limit] characters. *)
Theorem C22_expand_tabs : forall t keep s, 1 <= t <= 16 ->
  exists s1 s2 r ps, s = s1 ++ s2 /\ expands t 0 s1 r /\ tab_positions t 0 s1 ps /\ ~ In 9%N r /\
    (exists zs, expand_tabs_into t keep s = Ok (r, if keep then ps ++ zs else [])) /\
    (s2 <> [] -> (line_limit <= N.of_nat (length r))%N).
Proof.
  intros t keep s Ht. destruct (expand_tabs_spec t keep s Ht) as (s1 & s2 & r & ps & E & He & Hp & El & Hs).
  exists s1, s2, r, ps. split; [exact E|]. split; [exact He|]. split; [exact Hp|].
  split; [eapply expands_no_tab; eauto|]. split; [eauto|exact Hs].
Qed.
Print Assumptions C22_expand_tabs.

Theorem C22_no_truncation : forall t keep s r, 1 <= t <= 16 -> expands t 0 s r -> (N.of_nat (length r) <= line_limit)%N ->
  exists ps, tab_positions t 0 s ps /\ expand_tabs_into t keep s = Ok (r, if keep then ps else []).
Proof. exact expand_tabs_all. Qed.
Print Assumptions C22_no_truncation.

(** for text of one-column characters every tab ends at a tab stop of the terminal *)
Theorem C22_tab_stops : forall U t a b r, uctab_ok U -> 1 <= t <= 16 ->
  Forall (fun c => c = 9%N \/ is_ascii_printable c = true) (a ++ 9%N :: b) -> expands t 0 (a ++ 9%N :: b) r ->
  exists ra rb, r = ra ++ rb /\ expands t 0 (a ++ [9%N]) ra /\ shows U (length ra) ra /\ length ra mod t = 0.
Proof.
  intros U t a b r HU Ht HF He. change (9%N :: b) with ([9%N] ++ b) in *. rewrite app_assoc in *.
  apply expands_app in He as (ra & rb & -> & Ha & Hb). exists ra, rb. split; [reflexivity|]. split; [exact Ha|].
  apply Forall_app in HF as [HFa _]. split.
  - apply shows_ascii; [exact HU|]. apply forallb_forall. intros x Hx.
    assert (Hprint : forall p s r, expands t p s r -> Forall (fun c => c = 9%N \/ is_ascii_printable c = true) s ->
      Forall (fun c => is_ascii_printable c = true) r).
    { clear. intros p s r H. induction H; intros HF; [constructor| |].
      - apply Forall_app. split; [apply Forall_forall; intros x Hx; apply repeat_spec in Hx; subst x; reflexivity|].
        inversion HF; auto.
      - inversion HF as [|? ? Hc HF']; subst. constructor; [destruct Hc; [congruence|assumption]|auto]. }
    specialize (Hprint _ _ _ Ha HFa). rewrite Forall_forall in Hprint. auto.
  - apply expands_app in Ha as (r1 & r2 & -> & _ & H2). inversion H2 as [|p n s0 r0 Hn Hm H0|p c s0 r0 Hc H0]; subst; [|congruence].
    inversion H0; subst. rewrite app_nil_r, app_length, repeat_length. exact Hm.
Qed.
Print Assumptions C22_tab_stops.
Example C22_example : expand_tabs_into 4 true (txt "a"%string ++ [9]%N ++ txt "bcd"%string ++ [9; 9]%N) =
  Ok (txt "a   bcd     "%string, [1; 7; 8]).
Proof. vm_compute. reflexivity. Qed.

(** wide characters and escape sequences in front of a tab shift it: the text up to the tab stop takes 9 columns *)
Theorem C22_wide_text_refuted : exists U s r w, uctab_ok U /\ expands 8 0 s r /\
  expand_tabs_into 8 false s = Ok (r, []) /\ shows U w r /\ last s 0%N = 9%N /\ w mod 8 <> 0.
Proof.
  exists demo_tab, [20013; 9]%N, (20013%N :: repeat 32%N 7), 9. split; [exact demo_tab_ok|]. split.
  { apply ex_chr; [discriminate|]. rewrite <- (app_nil_r (repeat 32%N 7)).
    apply (ex_tab 8 1 7); [lia|reflexivity|constructor]. }
  split; [vm_compute; reflexivity|]. split; [|split; [reflexivity|discriminate]].
  exists (plain (20013%N :: repeat 32%N 7)). split; [split; [apply closed_plain; cbn; intuition discriminate|apply render_plain]|].
  split; [repeat constructor|]. split; [repeat constructor|]. split; [repeat constructor|].
  split; [|vm_compute; reflexivity]. unfold tabless. rewrite visible_plain. cbn. intuition discriminate.
Qed.
Print Assumptions C22_wide_text_refuted.

(** Longer lines lose characters: a line of LINE_MAX_BYTES - 11 letters, which fits the reading buffer, is cut. *)
Lemma expand_loop_no_tab : forall t s acc io tabs, ~ In 9%N s -> length acc = io ->
  forall a tb, expand_loop t acc io tabs s = Ok (a, tb) -> (N.of_nat (length a) <= N.max (N.of_nat io) line_limit)%N.
Proof.
  induction s as [|c s IH]; intros acc io tabs Hn Hl a tb H; cbn [expand_loop] in H.
  - injection H as <- _. lia.
  - fold line_limit in H. destruct (N.ltb_spec (N.of_nat io) line_limit) as [Hlt|Hge].
    + destruct (N.eqb_spec c char_tab) as [->|Hc]; [exfalso; apply Hn; left; reflexivity|].
      destruct (N.leb_spec (LINE_MAX_BYTES + 100) (N.of_nat io)); [discriminate|].
      apply IH in H; [lia|intros Hx; apply Hn; right; exact Hx|cbn; congruence].
    + injection H as <- _. lia.
Qed.
Theorem C22_long_line_refuted : forall t keep, 1 <= t <= 16 -> exists s r ps,
  (N.of_nat (length s) < LINE_MAX_BYTES)%N /\ ~ In 9%N s /\ expand_tabs_into t keep s = Ok (r, ps) /\ r <> s.
Proof.
  intros t keep Ht. destruct (ex_intro (fun n => N.of_nat n = (line_limit + 1)%N) _ (N2Nat.id _)) as [n En]. exists (repeat 97%N n).
  assert (Hn9 : ~ In 9%N (repeat 97%N n)) by (intros Hx; apply repeat_spec in Hx; discriminate).
  destruct (expand_tabs_spec t keep (repeat 97%N n) Ht) as (s1 & s2 & r & ps & E & He & Hp & El & Hs).
  eexists. eexists. rewrite repeat_length. split; [rewrite En; reflexivity|]. split; [exact Hn9|].
  split; [exact El|]. intros Er. unfold expand_tabs_into in El. apply bind_ok in El as ([a tb] & El & El2).
  apply (expand_loop_no_tab t _ [] 0 []) in El; auto. cbn [fst snd] in El2.
  destruct (N.leb _ _) in El2; [discriminate|]. injection El2 as Ea _.
  rewrite Er in Ea. apply (f_equal (@length N)) in Ea. rewrite rev_length, repeat_length in Ea. rewrite Ea in El.
  rewrite En in El. vm_compute in El. congruence.
Qed.
Print Assumptions C22_long_line_refuted.

(** ** C23 *)
Theorem C23_unexpand : forall o d inp, o_tabexp o = 117%N -> d_indentmode d = 98%N -> 1 <= o_tabstop o ->
  exists a b, indent_spc o d inp = repeat 9%N a ++ repeat 32%N b /\ b < o_tabstop o /\
    expands (o_tabstop o) 0 (indent_spc o d inp) (spaces (i_indent inp)).
Proof.
  intros o d inp Ho Hd Ht. unfold indent_spc. rewrite Ho, Hd. cbn [ch N.eqb Pos.eqb]. unfold ch. cbn [N.eqb Pos.eqb].
  set (t := o_tabstop o) in *. set (n := i_indent inp).
  exists (n / t), (n mod t). split; [reflexivity|]. split; [apply Nat.mod_upper_bound; lia|].
  assert (Hgen : forall a p b, p mod t = 0 -> expands t p (repeat 9%N a ++ repeat 32%N b) (spaces (a * t + b))).
  { induction a as [|a IH]; intros p b Hp.
    - cbn [repeat app Nat.mul Nat.add]. clear. revert p. induction b; intros p; [constructor|]. apply ex_chr; [discriminate|apply IHb].
    - cbn [repeat app]. replace (S a * t + b) with (t + (a * t + b)) by lia. unfold spaces. rewrite repeat_app.
      apply ex_tab; [lia|rewrite Nat.add_mod, Hp, Nat.mod_same by lia; cbn; apply Nat.mod_0_l; lia|].
      apply IH. rewrite Nat.add_mod, Hp, Nat.mod_same by lia. cbn. apply Nat.mod_0_l. lia. }
  specialize (Hgen (n / t) 0 (n mod t) (Nat.mod_0_l t ltac:(lia))).
  replace (n / t * t + n mod t) with n in Hgen; [exact Hgen|]. rewrite (Nat.div_mod n t) at 1 by lia. lia.
Qed.
Print Assumptions C23_unexpand.
Example C23_example : indent_spc (mkOpts 117 4 108 116 0 0 0 (-1) (-1) (-1) (-1)) demo (mkInput [] 0 10 true) = [9; 9; 32; 32]%N.
Proof. reflexivity. Qed.

(** ** C24 *)
Lemma skipn_rep : forall (A : Type) (x : A) n m, skipn n (repeat x m) = repeat x (m - n).
Proof. induction n as [|n IH]; intros [|m]; cbn [skipn repeat Nat.sub]; auto. Qed.
(** Only the first tab of the line lies completely within the indentation. *)
Theorem C24_keep_one_tab : forall o inp n l p rest, o_tabexp o = 107%N -> 1 <= o_tabstop o ->
  nth_error (i_lines inp) n = Some l -> l_tabpos l = p :: rest ->
  Forall (fun q => i_indent inp < q + (o_tabstop o - q mod o_tabstop o)) rest ->
  exists r, tabbify_indent o inp n (spaces (i_indent inp)) = Ok r /\ expands (o_tabstop o) 0 r (spaces (i_indent inp)).
Proof.
  intros o inp n l p rest Ho Ht Hl Hp Hrest. unfold tabbify_indent. rewrite Ho, Hl, Hp. unfold ch. cbn [N.eqb Pos.eqb negb].
  unfold spaces. rewrite repeat_length. set (ind := i_indent inp) in *. set (t := o_tabstop o) in *.
  assert (Hspc : forall k q, expands t q (repeat 32%N k) (repeat 32%N k)).
  { induction k; intros q; [constructor|]. apply ex_chr; [discriminate|apply IHk]. }
  destruct (Nat.eqb_spec ind 0) as [E0|E0]; [exists []; rewrite E0; split; [reflexivity|constructor]|].
  assert (Hstop : forall buf len, tabbify_loop rest t ind ind buf len = Ok (buf, len)).
  { intros buf len. destruct Hrest as [|q rest Hq _]; [reflexivity|]. cbn [tabbify_loop].
    destruct (q <? ind); [|reflexivity]. rewrite (proj2 (Nat.ltb_lt _ _) Hq). reflexivity. }
  cbn [tabbify_loop]. destruct (Nat.ltb_spec p ind) as [Hlt|Hge];
    [|cbn [bind fst]; rewrite cstr_spaces; eexists; split; [reflexivity|apply Hspc]].
  destruct (Nat.ltb_spec ind (p + (t - p mod t))) as [Hb|Hb].
  { cbn [bind fst]. rewrite cstr_spaces. eexists. split; [reflexivity|apply Hspc]. }
  destruct (tab_fill t p ltac:(lia)) as [Hf Hm]. set (k := t - p mod t) in *.
  rewrite subz_le by lia. cbn [bind]. rewrite app_length, repeat_length. cbn [length].
  destruct (Nat.leb_spec (ind + 1) p); [lia|]. destruct (Nat.leb_spec (ind + 1) (ind - (k - 1))); [lia|].
  rewrite Hstop. cbn [bind fst].
  exists (repeat 32%N p ++ 9%N :: repeat 32%N (ind - p - k)). split.
  - f_equal. unfold upd.
    assert (H1 : firstn p (repeat 32%N ind ++ [0%N]) = repeat 32%N p).
    { rewrite firstn_app, repeat_length. replace (p - ind) with 0 by lia. cbn [firstn]. rewrite app_nil_r.
      replace ind with (p + (ind - p)) by lia. rewrite repeat_app, firstn_app, repeat_length, Nat.sub_diag.
      cbn [firstn]. rewrite app_nil_r. rewrite firstn_all2; [reflexivity|rewrite repeat_length; lia]. }
    assert (H2 : skipn (S p) (repeat 32%N ind ++ [0%N]) = repeat 32%N (ind - p - 1) ++ [0%N]).
    { rewrite skipn_app, repeat_length. replace (S p - ind) with 0 by lia. change (skipn 0 [0%N]) with [0%N]. f_equal.
      rewrite skipn_rep. f_equal. lia. }
    rewrite H1, H2.
    replace (firstn (ind - (k - 1)) (repeat 32%N p ++ 9%N :: repeat 32%N (ind - p - 1) ++ [0%N]))
      with (repeat 32%N p ++ 9%N :: repeat 32%N (ind - p - k)).
    + assert (Hcs : forall a b c, cstr (repeat 32%N a ++ 9%N :: repeat 32%N b ++ 0%N :: c) = repeat 32%N a ++ 9%N :: repeat 32%N b).
      { clear. intros a b c. induction a as [|a IH]; cbn [repeat app cstr N.eqb Pos.eqb].
        - f_equal. induction b as [|b IHb]; [reflexivity|]. cbn [repeat app cstr N.eqb Pos.eqb]. f_equal. exact IHb.
        - f_equal. exact IH. }
      rewrite <- app_assoc. cbn [app]. apply Hcs.
    + rewrite firstn_app, repeat_length. rewrite firstn_all2 by (rewrite repeat_length; lia). f_equal.
      replace (ind - (k - 1) - p) with (S (ind - p - k)) by lia. cbn [firstn]. f_equal.
      rewrite firstn_app, repeat_length. replace (ind - p - k - (ind - p - 1)) with 0 by lia. cbn [firstn]. rewrite app_nil_r.
      replace (ind - p - 1) with ((ind - p - k) + (k - 1)) by lia.
      rewrite repeat_app, firstn_app, repeat_length, Nat.sub_diag. cbn [firstn]. rewrite app_nil_r.
      rewrite firstn_all2 by (rewrite repeat_length; lia). reflexivity.
  - apply expands_app. exists (repeat 32%N p), (repeat 32%N k ++ repeat 32%N (ind - p - k)).
    split; [rewrite <- !repeat_app; f_equal; lia|]. split; [apply Hspc|].
    cbn [Nat.add]. rewrite repeat_length. apply ex_tab; [exact Hf|exact Hm|apply Hspc].
Qed.
Print Assumptions C24_keep_one_tab.
Example C24_example : tabbify_indent (mkOpts 107 8 108 116 0 0 0 (-1) (-1) (-1) (-1))
  (mkInput [mkLine bxs_new_empty_string [2; 12]] 0 10 true) 0 (spaces 10) = Ok [32; 32; 9; 32; 32]%N.
Proof. vm_compute. reflexivity. Qed.

(** two tabs at the start of a line, 16 columns, come back as 9 columns *)
Theorem C24_two_tabs_refuted : exists o inp l r w, o_tabexp o = 107%N /\ 1 <= o_tabstop o /\
  i_lines inp = [l] /\ tab_positions (o_tabstop o) 0 [9; 9; 97]%N (l_tabpos l) /\ i_indent inp = 16 /\
  tabbify_indent o inp 0 (spaces (i_indent inp)) = Ok r /\ expands (o_tabstop o) 0 r (spaces w) /\ w <> i_indent inp.
Proof.
  exists (mkOpts 107 8 108 116 0 0 0 (-1) (-1) (-1) (-1)), (mkInput [mkLine (mkrow "                a"%string) [0; 8]] 17 16 true),
    (mkLine (mkrow "                a"%string) [0; 8]), [9; 32]%N, 9.
  split; [reflexivity|]. split; [cbn; lia|]. split; [reflexivity|]. split.
  { cbn. apply (tp_tab 8 0 8); [lia|reflexivity|]. apply (tp_tab 8 8 8); [lia|reflexivity|]. apply tp_chr; [discriminate|constructor]. }
  split; [reflexivity|]. split; [vm_compute; reflexivity|]. split; [|discriminate].
  cbn. apply (ex_tab 8 0 8 [32%N] [32%N]); [lia|reflexivity|]. apply ex_chr; [discriminate|constructor].
Qed.
Print Assumptions C24_two_tabs_refuted.

(** ** C25 *)
Theorem C25_common_indent : forall ls,
  (forall l, In l ls -> (N.of_nat (indent (l_text l)) <= LINE_MAX_BYTES)%N) ->
  ((forall l, In l ls -> num_columns (l_text l) = 0) -> get_indent ls = 0) /\
  ((exists l, In l ls /\ 0 < num_columns (l_text l)) ->
     least (fun n => exists l, In l ls /\ 0 < num_columns (l_text l) /\ indent (l_text l) = n) (get_indent ls)).
Proof.
  intros ls HL. destruct (get_indent_spec ls) as [[H0 E]|[H1 (l & Hl & Hp & E)]].
  - split; [auto|]. intros (l & Hl & Hp). specialize (H0 l Hl). lia.
  - split; [intros H; specialize (H l Hl); lia|]. intros _. split.
    + destruct E as [E|E]; [eauto|]. exists l. split; [exact Hl|]. split; [exact Hp|].
      specialize (H1 l Hl Hp). specialize (HL l Hl). lia.
    + intros m (x & Hx & Hpx & <-). auto.
Qed.
Print Assumptions C25_common_indent.
Example C25_example : get_indent (map mkline ["    a"; ""; "  b"; "   c"]%string) = 2.
Proof. vm_compute. reflexivity. Qed.

(** ** C26 *)
Theorem C26_trim : forall U s ts, reads s ts -> known ts -> trimmed (uc_ws U) s (btrim32 U s).
Proof. exact btrim32_trimmed. Qed.
Print Assumptions C26_trim.
(** no visible character except white space is lost *)
Theorem C26_no_text_lost : forall U s ts tx c, reads s ts -> known ts -> reads (btrim32 U s) tx ->
  In c (visible ts) -> uc_ws U c = false -> In c (visible tx).
Proof.
  intros U s ts tx c Hr Hk Hx Hc Hw. destruct (trimmed_ws U s _ tx (C26_trim U s ts Hr Hk) Hx) as (tr & Hr' & H).
  rewrite (reads_unique s ts tr Hr Hr') in Hc. auto.
Qed.
Print Assumptions C26_no_text_lost.
Example C26_example : btrim32 demo_tab ([27;91;51;49;109]%N ++ txt " a b"%string ++ [27;91;48;109; 32; 9; 13; 10]%N) =
  [27;91;51;49;109]%N ++ txt " a b"%string ++ [27;91;48;109]%N.
Proof. vm_compute. reflexivity. Qed.
(** a sequence that resets the colour is lost when a blank stands in front of it *)
Theorem C26_reset_lost_refuted : exists U s ts tx, uctab_ok U /\ reads s ts /\ known ts /\ reads (btrim32 U s) tx /\
  In (Esc [27;91;51;49;109]%N) tx /\ In (Esc [27;91;48;109]%N) ts /\ ~ In (Esc [27;91;48;109]%N) tx.
Proof.
  exists demo_tab, [27;91;51;49;109; 97; 32; 27;91;48;109]%N, [Esc [27;91;51;49;109]%N; Vis 97%N; Vis 32%N; Esc [27;91;48;109]%N],
    [Esc [27;91;51;49;109]%N; Vis 97%N].
  assert (Hcsi : forall ps, Forall (fun p => ~ final p) ps -> tok_ok (Esc (27 :: 91 :: ps ++ [109])%N)).
  { intros ps Hps. right. exists 91%N, ps, 109%N. split; [reflexivity|]. split; [left; reflexivity|]. split; [exact Hps|unfold final; lia]. }
  split; [exact demo_tab_ok|].
  split. { split; [|reflexivity]. cbn [toks_ok].
    split; [apply (Hcsi [51;49]%N); repeat constructor; unfold final; lia|]. split; [discriminate|].
    split; [discriminate|]. split; [discriminate|]. split; [discriminate|]. split; [discriminate|].
    split; [apply (Hcsi [48]%N); repeat constructor; unfold final; lia|]. split; [discriminate|exact I]. }
  split; [repeat constructor|].
  split. { split; [|reflexivity]. cbn [toks_ok].
    split; [apply (Hcsi [51;49]%N); repeat constructor; unfold final; lia|]. split; [discriminate|].
    split; [discriminate|]. split; [discriminate|exact I]. }
  split; [cbn; auto|]. split; [cbn; auto 6|]. cbn. intuition discriminate.
Qed.
Print Assumptions C26_reset_lost_refuted.

(** ** C27 *)
(** [stripped s r]: [r] is [s] without its line terminator *)
Inductive stripped : list N -> list N -> Prop :=
| st_crlf : forall r, stripped (r ++ [13; 10]%N) r
| st_lf : forall r c, c <> 13%N -> stripped (r ++ [c; 10]%N) (r ++ [c])
| st_cr : forall r, stripped (r ++ [13]%N) r
| st_none : forall r c, c <> 10%N -> c <> 13%N -> stripped (r ++ [c]) (r ++ [c]).
Theorem C27_remove_mode : forall U s, s <> [] ->
  (s = [10]%N -> trim_trailing_ws_carefully U true s = UB) /\
  (s <> [10]%N -> exists r, trim_trailing_ws_carefully U true s = Ok r /\ stripped s r).
Proof.
  intros U s Hne. split; [intros ->; reflexivity|]. intros Hn. unfold trim_trailing_ws_carefully, chop.
  destruct (exists_last Hne) as (a & c & ->). rewrite rev_app_distr. cbn [rev app].
  destruct (N.eqb_spec c char_newline) as [->|Hc].
  - rewrite rev_involutive. cbn [bind]. destruct a as [|x a']; [exfalso; apply Hn; reflexivity|].
    destruct (exists_last (l := x :: a') ltac:(discriminate)) as (b & y & E). rewrite E in *. rewrite rev_app_distr. cbn [rev app].
    destruct (N.eqb_spec y char_cr) as [->|Hy].
    + rewrite rev_involutive. eexists. split; [reflexivity|]. rewrite <- app_assoc. apply st_crlf.
    + eexists. split; [reflexivity|]. rewrite <- app_assoc. apply st_lf. exact Hy.
  - cbn [bind]. rewrite rev_app_distr. cbn [rev app]. destruct (N.eqb_spec c char_cr) as [->|Hy].
    + rewrite rev_involutive. eexists. split; [reflexivity|]. apply st_cr.
    + eexists. split; [reflexivity|]. apply st_none; assumption.
Qed.
Print Assumptions C27_remove_mode.
Example C27_example : trim_trailing_ws_carefully demo_tab true (txt "# a "%string ++ [13; 10]%N) = Ok (txt "# a "%string).
Proof. vm_compute. reflexivity. Qed.
(** an empty line in the input of [-r] or [-m] makes the program read in front of the line *)
Theorem C27_empty_line_refuted : exists U o raws, In [10]%N raws /\ read_all_input U true o raws = UB.
Proof. exists demo_tab, opts0, [txt "/* a */"%string ++ [10]%N; [10]%N]. split; [right; left; reflexivity|vm_compute; reflexivity]. Qed.
Print Assumptions C27_empty_line_refuted.

(** ** C25 and C50: from the raw lines of the input to the lines to be boxed *)
(** the number of leading blanks of an input line, after trimming and tab expansion, if it is not empty *)
Definition raw_lead (U : uctab) (t : nat) (raw : list N) (n : nat) : Prop :=
  exists s r tr, trimmed (uc_ws U) raw s /\ expands t 0 s r /\ reads r tr /\ 0 < columns (term_width U) tr /\
    n = lead (is_blank U) (visible tr).

Lemma read_as_lead : forall U o raw l ts, uctab_ok U -> read_as U o raw l ts ->
  num_columns (l_text l) = columns (term_width U) ts /\
  (0 < num_columns (l_text l) -> raw_lead U (o_tabstop o) raw (indent (l_text l))).
Proof.
  intros U o raw l ts HU Hra. assert (Hc : num_columns (l_text l) = columns (term_width U) ts).
  { rewrite (ra_text _ _ _ _ _ Hra). cbn [bx num_columns]. rewrite !columns_sum. f_equal. apply map_ext. intros c. apply char_cols_term. exact HU. }
  split; [exact Hc|]. intros H0. destruct (ra_spec _ _ _ _ _ Hra) as (s & Ht & He & _).
  exists s, (render ts), ts. split; [exact Ht|]. split; [exact He|].
  split; [split; [apply (ra_closed _ _ _ _ _ Hra)|reflexivity]|]. split; [lia|].
  apply (tline_indent U HU). destruct Hra. unfold tline. auto.
Qed.

Lemma trimmed_fun : forall ws s r r', trimmed ws s r -> trimmed ws s r' -> r = r'.
Proof.
  intros ws s r r' (ts & Hr & H) (ts' & Hr' & H'). rewrite <- (reads_unique s ts ts' Hr Hr') in H'. clear Hr Hr' ts'.
  destruct H as [[Hv ->]|(a & c & b & E & Hc & Hb & ->)]; destruct H' as [[Hv' ->]|(a' & c' & b' & E' & Hc' & Hb' & ->)]; auto.
  - exfalso. rewrite E', visible_app, visible_cons, forallb_app in Hv. cbn [forallb] in Hv. rewrite Hc', andb_false_l, andb_false_r in Hv. discriminate.
  - exfalso. rewrite E, visible_app, visible_cons, forallb_app in Hv'. cbn [forallb] in Hv'. rewrite Hc, andb_false_l, andb_false_r in Hv'. discriminate.
  - assert (H : a = a' /\ c = c' /\ b = b').
    { rewrite E in E'. clear E. revert a' E'. induction a as [|x a IH]; intros [|x' a'] E'; cbn [app] in E'.
      - injection E' as -> ->. auto.
      - exfalso. injection E' as _ ->. rewrite visible_app, visible_cons, forallb_app in Hb. cbn [forallb] in Hb.
        rewrite Hc', andb_false_l, andb_false_r in Hb. discriminate.
      - exfalso. injection E' as _ <-. rewrite visible_app, visible_cons, forallb_app in Hb'. cbn [forallb] in Hb'.
        rewrite Hc, andb_false_l, andb_false_r in Hb'. discriminate.
      - injection E' as -> E'. destruct (IH _ E') as (-> & -> & ->). auto. }
    destruct H as (-> & -> & ->). reflexivity.
Qed.

Theorem C25_indent_of_input : forall U o d raws inp, uctab_ok U -> 1 <= o_tabstop o <= 16 -> raws <> [] ->
  Forall (raw_ok U (o_tabstop o)) raws -> handle_input U false o d [] raws = Ok inp ->
  ((forall raw n, In raw raws -> ~ raw_lead U (o_tabstop o) raw n) -> i_indent inp = 0) /\
  ((exists raw n, In raw raws /\ raw_lead U (o_tabstop o) raw n) ->
     least (fun n => exists raw, In raw raws /\ raw_lead U (o_tabstop o) raw n) (i_indent inp)).
Proof.
  intros U o d raws inp HU Ht Hne Hok Hin.
  destruct (handle_input_spec U HU o d Ht raws Hne Hok) as (inp' & n & E & _ & _ & _ & _ & ls & HF & Ei & _).
  rewrite Hin in E. injection E as <-.
  assert (Hl : forall l, In l ls -> exists raw ts, In raw raws /\ read_as U o raw l ts).
  { intros l Hl. destruct (Forall2_in_r _ _ _ _ _ _ HF Hl) as (raw & Hraw & ts & Hra). eauto. }
  assert (Hr : forall raw k, In raw raws -> raw_lead U (o_tabstop o) raw k ->
    exists l, In l ls /\ 0 < num_columns (l_text l) /\ indent (l_text l) = k).
  { intros raw k Hraw (s & r & tr & Hs & He & Hrd & Hc & ->).
    assert (exists l ts, In l ls /\ read_as U o raw l ts) as (l & ts & Hl' & Hra).
    { clear - HF Hraw. induction HF as [|x y raws ls (ts & Hx) _ IH]; [destruct Hraw|].
      destruct Hraw as [->|Hraw]; [exists y, ts; split; [left; reflexivity|exact Hx]|].
      destruct (IH Hraw) as (l & ts' & ? & ?). exists l, ts'. split; [right; assumption|assumption]. }
    destruct (ra_spec _ _ _ _ _ Hra) as (s' & Hs' & He' & _).
    rewrite (trimmed_fun _ _ _ _ Hs' Hs) in He'.
    assert (Htr : tr = ts).
    { apply (reads_unique r); [exact Hrd|]. split; [apply (ra_closed _ _ _ _ _ Hra)|].
      apply (expands_fun (o_tabstop o) s 0); [lia|exact He'|exact He]. }
    subst tr. destruct (read_as_lead U o raw l ts HU Hra) as [Hcol _].
    exists l. split; [exact Hl'|]. split; [lia|]. apply (tline_indent U HU). destruct Hra. unfold tline. auto. }
  rewrite Ei. destruct (get_indent_spec ls) as [[H0 E0]|[H1 (l & Hll & Hp & E1)]].
  - split; [intros _; exact E0|]. intros (raw & k & Hraw & Hk). destruct (Hr raw k Hraw Hk) as (l & Hll & Hp & _).
    specialize (H0 l Hll). lia.
  - destruct (Hl l Hll) as (raw & ts & Hraw & Hra). destruct (read_as_lead U o raw l ts HU Hra) as [_ Hlead].
    specialize (Hlead Hp). split; [intros H; exfalso; exact (H raw _ Hraw Hlead)|]. intros _. split.
    + exists raw. split; [exact Hraw|]. destruct E1 as [->|E1]; [exact Hlead|].
      (* the line is shorter than LINE_MAX_BYTES *)
      specialize (H1 l Hll Hp). rewrite Forall_forall in Hok. destruct (Hok raw Hraw) as (tr & Hrd & _ & _ & _ & _ & r & He & Hlim).
      exfalso. destruct Hlead as (s & r' & tr' & Hs & He' & Hrd' & _ & El). rewrite E1, El in H1.
      assert (Hlen : length r' <= length r).
      { destruct Hs as (ts' & Hts & Hcase). destruct Hcase as [[_ ->]|(a & c & b & Et & _ & _ & ->)].
        - inversion He'; subst. cbn. lia.
        - assert (Hn : exists b', ts' = (a ++ Vis c :: next_seq b) ++ b').
          { rewrite Et. destruct b as [|[v|y|y|y] b]; cbn [next_seq]; [exists []; rewrite app_nil_r; reflexivity|..];
              eexists; rewrite <- app_assoc; cbn [app]; reflexivity. }
          destruct Hn as (b' & Hb'). destruct Hts as [_ <-]. rewrite Hb', render_app in He.
          apply expands_app in He as (ra & rb & -> & Ha & _).
          rewrite (expands_fun (o_tabstop o) _ 0 r' ra ltac:(lia) He' Ha). rewrite app_length. lia. }
      assert (Hlv : lead (is_blank U) (visible tr') <= length r').
      { destruct Hrd' as [_ <-]. clear. induction tr' as [|x tr' IH]; [cbn; lia|]. rewrite visible_cons, render_cons, app_length.
        destruct x; cbn [lead]; try lia. destruct (is_blank U _); cbn [length tok_chars]; lia. }
      assert (N.of_nat (N.to_nat LINE_MAX_BYTES) <= line_limit)%N by lia. rewrite N2Nat.id in H. vm_compute in H. congruence.
    + intros m (raw' & Hraw' & Hm). destruct (Hr raw' m Hraw' Hm) as (l' & Hl' & Hp' & <-). auto.
Qed.
Print Assumptions C25_indent_of_input.

Theorem C50_input_stage : forall U o d raws, uctab_ok U -> 1 <= o_tabstop o <= 16 -> raws <> [] ->
  Forall (raw_ok U (o_tabstop o)) raws ->
  (o_justify o = 0%N \/ d_indentmode d <> 116%N \/ Forall (solid U) raws) ->
  exists inp, handle_input U false o d [] raws = Ok inp /\
    (tab_free_indent o d inp -> wf_input U o d inp) /\
    (i_final_newline inp = true <-> ends_with_break (last raws [])) /\
    Forall2 (fun raw l => exists k, taken_from U (o_tabstop o) raw (memory (l_text l)) k /\
      (k = (if N.eqb (d_indentmode d) 116 then 0 else i_indent inp) \/ k = 0 /\ num_columns (l_text l) = 0) /\
      exists s ps, trimmed (uc_ws U) raw s /\ tab_positions (o_tabstop o) 0 s ps /\
        l_tabpos l = (if N.eqb (o_tabexp o) 107 then ps else [])) raws (i_lines inp) /\
    (forall l w, In l (i_lines inp) -> shows U w (memory (l_text l)) -> w <= i_maxline inp) /\
    (exists l, In l (i_lines inp) /\ shows U (i_maxline inp) (memory (l_text l))).
Proof.
  intros U o d raws HU Ht Hne Hok Hj.
  destruct (handle_input_spec U HU o d Ht raws Hne Hok) as (inp & n & E & En & HF & Hm & Hfin & ls & HL & Ei & Els).
  exists inp. split; [exact E|]. split; [|split; [exact Hfin|]].
  - intros Htab. constructor.
    + intros E0. rewrite E0 in HF. inversion HF. congruence.
    + intros l Hl. destruct (Forall2_in_r _ _ _ _ _ _ HF Hl) as (raw & Hraw & ts0 & l0 & ts & k & _ & Htl & _).
      destruct (tline_shows U HU l ts Htl) as (s & w & Hs & Hf & ->). exists s, (num_columns (l_text l)).
      split; [exact Hs|]. split; [exact Hf|]. rewrite Hm.
      exact (maxl_ge _ _ (in_map (fun l => num_columns (l_text l)) _ _ Hl)).
    + exact Htab.
    + intros Hjust l ts Hl Hr Hnb.
      destruct (Forall2_in_r _ _ _ _ _ _ HF Hl) as (raw & Hraw & ts0 & l0 & ts' & k & _ & Htl & _).
      assert (ts' = ts) as ->.
      { apply (reads_unique (memory (l_text l))); [|exact Hr]. destruct Htl as (Et & Hc & _). rewrite Et. split; [apply Hc|reflexivity]. }
      split; [apply Htl|]. intros Hmode. destruct Hj as [Hj|[Hj|Hsol]]; [congruence|congruence|].
      rewrite (Els Hmode) in Hl. destruct (Forall2_in_r _ _ _ _ _ _ HL Hl) as (raw' & Hraw' & ts' & Hra).
      assert (ts' = ts) as ->.
      { apply (reads_unique (memory (l_text l))); [|exact Hr]. rewrite (ra_text _ _ _ _ _ Hra). split; [apply (ra_closed _ _ _ _ _ Hra)|reflexivity]. }
      rewrite Forall_forall in Hsol. destruct (ra_solid _ _ _ _ _ Hra (Hsol raw' Hraw')) as (c & Hc & Hw).
      { intros Hv. apply Hnb. intros tx Hx c Hc. rewrite (reads_unique _ _ _ Hx Hr), Hv in Hc. destruct Hc. }
      rewrite Ei, <- (tline_indent U HU l ts Htl).
      destruct (get_indent_spec ls) as [[H0 _]|[H1 _]]; [exfalso|]; [|apply H1; [exact Hl|]].
      all: destruct (read_as_lead U o raw' l ts HU Hra) as [Hcol _]; rewrite columns_sum in Hcol;
        assert (Hge : term_width U c <= sum (map (term_width U) (visible ts)))
          by (clear - Hc; induction (visible ts) as [|x v IH]; [destruct Hc|]; cbn [map]; rewrite sum_cons;
              destruct Hc as [->|Hc]; [lia|specialize (IH Hc); lia]).
      * specialize (H0 l Hl). lia.
      * lia.
  - split; [|split].
    2: { intros l w Hl Hw. destruct (Forall2_in_r _ _ _ _ _ _ HF Hl) as (raw & _ & ts0 & l0 & ts & k & _ & Htl & _).
         destruct (tline_shows U HU l ts Htl) as (s & w' & Hs & Hf & Ew). rewrite Hm.
         replace w with (num_columns (l_text l)); [exact (maxl_ge _ _ (in_map (fun l => num_columns (l_text l)) _ _ Hl))|].
         rewrite <- Ew. apply (shows_inj U HU _ _ s); [exact Hs|].
         destruct (shows_from U HU _ _ Hs) as (b & Eb & Hmem & _). rewrite Hf in Eb. injection Eb as <-. rewrite <- Hmem. exact Hw. }
    2: { assert (Hall : forall l, In l (i_lines inp) -> shows U (num_columns (l_text l)) (memory (l_text l))).
         { intros l Hl. destruct (Forall2_in_r _ _ _ _ _ _ HF Hl) as (raw & _ & ts0 & l0 & ts & k & _ & Htl & _).
           destruct (tline_shows U HU l ts Htl) as (s & w' & Hs & Hf & ->).
           destruct (shows_from U HU _ _ Hs) as (b & Eb & Hmem & _). rewrite Hf in Eb. injection Eb as <-. rewrite Hmem. exact Hs. }
         rewrite Hm. destruct (maxl_attained (map (fun l => num_columns (l_text l)) (i_lines inp))) as [H0|Hi].
         - destruct (i_lines inp) as [|l ls'] eqn:El; [inversion HF; congruence|]. exists l. split; [left; reflexivity|].
           rewrite H0. replace 0 with (num_columns (l_text l)); [apply Hall; left; reflexivity|].
           cbn [map] in H0. rewrite maxl_cons in H0. lia.
         - apply in_map_iff in Hi as (l & El & Hl). exists l. split; [exact Hl|]. rewrite <- El. apply Hall. exact Hl. }
    rewrite <- En. clear - HF HU. induction HF as [|raw l raws ls H _ IH]; constructor; [|exact IH].
    destruct H as (ts0 & l0 & ts & k & Hra & Htl & Htp & Hv & Hk & Hcase & H0 & Hcols). exists k.
    destruct (ra_spec _ _ _ _ _ Hra) as (s & Hs & He & ps & Hps & Etp). destruct Htl as (Et & Hc & _). split.
    + exists s, (render ts0), ts0, ts. split; [exact Hs|]. split; [exact He|].
      split; [split; [apply (ra_closed _ _ _ _ _ Hra)|reflexivity]|]. rewrite Et. split; [split; [apply Hc|reflexivity]|].
      split; [exact Hk|]. split; [exact Hv|exact H0].
    + split; [destruct Hcase as [->|[-> Hz]]; [auto|]; right; split; [reflexivity|]; lia|].
      exists s, ps. rewrite Htp. auto.
Qed.
Print Assumptions C50_input_stage.

(** plain lines meet the hypotheses *)
Lemma expands_le : forall t p s r, 1 <= t -> expands t p s r -> length r <= t * length s.
Proof.
  intros t p s r Ht H. induction H; [cbn; lia| |]; cbn [length]; rewrite ?app_length, ?repeat_length; nia.
Qed.
Definition plain_char (c : N) : bool := is_ascii_printable c || N.eqb c 9 || N.eqb c 10 || N.eqb c 13.
Lemma raw_ok_demo : forall t s, 1 <= t <= 16 -> forallb plain_char s = true -> length s <= 100 -> raw_ok demo_tab t s.
Proof.
  intros t s Ht Hs Hl. assert (Hin : forall c, In c s -> plain_char c = true) by (apply forallb_forall; exact Hs).
  assert (H27 : ~ In 27%N s) by (intros Hx; apply Hin in Hx; discriminate).
  exists (plain s). split; [split; [apply closed_plain; exact H27|apply render_plain]|].
  split; [apply Forall_forall; intros x Hx; apply in_map_iff in Hx as (c & <- & _); reflexivity|].
  split; [apply Forall_forall; intros x Hx; apply in_map_iff in Hx as (c & <- & _); reflexivity|].
  split.
  { unfold allowed. rewrite visible_plain. apply Forall_forall. intros c Hc. specialize (Hin c Hc). unfold plain_char in Hin.
    unfold is_allowed_anywhere. destruct (is_ascii_printable c) eqn:E; [rewrite (ok_cntrl _ demo_tab_ok c E); reflexivity|].
    cbn [orb] in Hin. unfold char_tab, char_newline, char_cr.
    destruct (N.eqb c 9), (N.eqb c 10), (N.eqb c 13); cbn [orb] in *; try discriminate; rewrite ?orb_true_r; reflexivity. }
  split.
  { rewrite visible_plain. apply Forall_forall. intros c Hc.
    assert (Hcb : is_blank demo_tab c = true).
    { clear - Hc. induction s as [|x s IH]; [destruct Hc|]. cbn [lead] in Hc. destruct (is_blank demo_tab x) eqn:E; [|destruct Hc].
      cbn [firstn] in Hc. destruct Hc as [->|Hc]; auto. }
    apply In_firstn in Hc. specialize (Hin c Hc). unfold plain_char in Hin.
    destruct (is_ascii_printable c) eqn:E.
    - unfold term_width. destruct (N.eqb c 9); [reflexivity|]. rewrite (ok_width _ demo_tab_ok c E). reflexivity.
    - cbn [orb] in Hin. apply orb_true_iff in Hin as [Hin|H13]; [apply orb_true_iff in Hin as [H9|H10]|].
      + apply N.eqb_eq in H9. subst c. reflexivity.
      + apply N.eqb_eq in H10. subst c. discriminate Hcb.
      + apply N.eqb_eq in H13. subst c. discriminate Hcb. }
  destruct (expands_total t s 0 ltac:(lia)) as (r & Hr). exists r. split; [exact Hr|].
  apply expands_le in Hr; [|lia]. assert (length r <= 1600) by nia. assert (1600 <= line_limit)%N by (vm_compute; discriminate). lia.
Qed.
Definition demo_raws : list (list N) :=
  [[9; 32]%N ++ txt "int a;  "%string ++ [13; 10]%N; [10]%N; txt "      b"%string ++ [9]%N ++ txt "x"%string].
Example C50_example : Forall (raw_ok demo_tab 4) demo_raws /\
  match handle_input demo_tab false (mkOpts 101 4 108 116 0 0 0 (-1) (-1) (-1) (-1)) demo [] demo_raws with
  | Ok i => map (fun l => str (memory (l_text l))) (i_lines i) = ["int a;"; ""; " b x"]%string /\ i_indent i = 5 /\
            i_maxline i = 6 /\ i_final_newline i = false
  | _ => False end.
Proof.
  split; [repeat apply Forall_cons; try apply Forall_nil; apply raw_ok_demo; try reflexivity; cbn; lia|].
  vm_compute. repeat split.
Qed.
