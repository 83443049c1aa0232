(** * Drawn border lines are recognised *)
From Coq Require Import List Arith NArith ZArith Bool Lia.
From Verif Require Import Base BaseFacts Model_Unicode Model_Bxs Model_Shape Model_Generate Model_Detect Model_Remove
  Spec_Str Spec_Design Spec_Box Spec_Remove Proof_Str Proof_Bxs Proof_BxsOps Proof_BxsMore Proof_Shows Proof_Term Proof_Hmm Proof_Horiz Proof_Open.
Import ListNotations.

(** ** the last occurrence *)
Lemma strrchr_ge : forall s c j, nth_error s j = Some c -> exists k, strrchr s c = Some k /\ j <= k < length s.
Proof.
  induction s as [|x s IH]; intros c j H; [destruct j; discriminate|]. cbn [strrchr].
  destruct j as [|j].
  - injection H as ->. destruct (strrchr s c) as [i|] eqn:E.
    + exists (S i). split; [reflexivity|]. split; [lia|]. cbn.
      assert (Hi : forall s c i, strrchr s c = Some i -> i < length s).
      { clear. induction s as [|x s IH]; intros c i H; [discriminate|]. cbn in H. destruct (strrchr s c) as [j|] eqn:E.
        - injection H as <-. apply IH in E. cbn. lia.
        - destruct (N.eqb x c); [|discriminate]. injection H as <-. cbn. lia. }
      apply Hi in E. lia.
    + rewrite N.eqb_refl. exists 0. cbn. repeat split; lia.
  - destruct (IH c j H) as (k & -> & Hk). exists (S k). cbn. repeat split; lia.
Qed.

Lemma strnrstr_from_ge : forall k hay nd n j, j <= k -> strncmp0 n (skipn j hay) nd = true ->
  exists p, strnrstr_from k hay nd n = Some p /\ j <= p.
Proof.
  induction k as [|k IH]; intros hay nd n j Hj H; cbn [strnrstr_from].
  - assert (j = 0) as -> by lia. rewrite H. eauto.
  - destruct (strncmp0 n (skipn (S k) hay) nd) eqn:E; [exists (S k); auto|].
    destruct (Nat.eq_dec j (S k)) as [->|Hn]; [congruence|]. apply IH; [lia|exact H].
Qed.

Section Recog.
Variable U : uctab.
Hypothesis HU : uctab_ok U.

(** text ending with something visible *)
Definition ends (s : list N) : Prop := exists m c, s = m ++ [c] /\ is_blank U c = false.

Lemma ends_unique : forall a b x y, a ++ x = b ++ y -> blanks U x -> blanks U y -> ends a -> ends b -> a = b.
Proof.
  assert (G : forall a b x y, a ++ x = b ++ y -> blanks U x -> ends b -> length b <= length a).
  { intros a b x y E Hx (m & c & -> & Hc). destruct (Nat.le_gt_cases (length (m ++ [c])) (length a)) as [|Hlt]; [assumption|]. exfalso.
    rewrite app_length in Hlt. cbn in Hlt.
    assert (Hn : nth_error (a ++ x) (length m) = Some c).
    { rewrite E, <- app_assoc, nth_error_app2, Nat.sub_diag by lia. reflexivity. }
    rewrite nth_error_app2 in Hn by lia. apply nth_error_In in Hn. unfold blanks in Hx. rewrite Forall_forall in Hx.
    rewrite (Hx c Hn) in Hc. discriminate. }
  intros a b x y E Hx Hy Ha Hb. assert (Hl : length a = length b).
  { apply Nat.le_antisymm; [apply (G b a y x); auto|apply (G a b x y); auto]. }
  apply app_eq_app_len in E; tauto.
Qed.

Lemma strnrstr_last : forall x nd y, ends nd -> blanks U y -> u32_strnrstr (x ++ nd ++ y) nd (length nd) = Some (length x).
Proof.
  intros x nd y He Hy. set (hay := x ++ nd ++ y).
  assert (Hhere : strncmp0 (length nd) (skipn (length x) hay) nd = true).
  { apply strncmp_spec; [reflexivity|]. unfold hay. rewrite skipn_app, skipn_all, Nat.sub_diag. cbn [app skipn].
    rewrite firstn_app, firstn_all, Nat.sub_diag. cbn [firstn]. apply app_nil_r. }
  assert (Hne : nd <> []) by (destruct He as (m & c & -> & _); destruct m; discriminate).
  assert (Hex : exists c nd', nd = c :: nd') by (destruct nd as [|c nd']; [congruence|eauto]). destruct Hex as (c & nd' & End).
  assert (Eun : u32_strnrstr hay nd (length nd) = match strrchr hay c with None => None | Some k => strnrstr_from k hay nd (length nd) end)
    by (rewrite End; reflexivity).
  rewrite Eun.
  destruct (strrchr_ge hay c (length x)) as (k & -> & Hk).
  { unfold hay. rewrite nth_error_app2, Nat.sub_diag, End by lia. reflexivity. }
  destruct (strnrstr_from_ge k hay nd (length nd) (length x) ltac:(lia) Hhere) as (p & Hp & Hle). rewrite Hp. f_equal.
  apply strnrstr_from_spec in Hp as [Hp _]; [|reflexivity].
  destruct He as (m & e & Em & Hc).
  assert (Hn : nth_error hay (p + length m) = Some e).
  { rewrite <- nth_error_skipn2. apply (nth_error_firstn2 _ (length nd)). rewrite Hp, Em, nth_error_app2, Nat.sub_diag by lia. reflexivity. }
  assert (Hlm : length nd = S (length m)) by (rewrite Em, app_length; cbn; lia).
  destruct (Nat.eq_dec p (length x)) as [|Hgt]; [assumption|]. exfalso. unfold hay in Hn.
  rewrite nth_error_app2 in Hn by lia. rewrite nth_error_app2 in Hn by lia. apply nth_error_In in Hn.
  unfold blanks in Hy. rewrite Forall_forall in Hy. rewrite (Hy e Hn) in Hc. discriminate.
Qed.

Lemma plain_no_esc : forall s, plain_text U s -> ~ In 27%N s.
Proof. intros s H Hin. unfold plain_text in H. rewrite Forall_forall in H. destruct (H _ Hin) as (Hx & _). congruence. Qed.
Lemma reads_plain_inv : forall s ts, plain_text U s -> reads s ts -> ts = plain s.
Proof.
  intros s ts H [Hok Hr]. apply reading_unique; [exact Hok|apply (closed_plain s (plain_no_esc s H))|]. rewrite render_plain. exact Hr.
Qed.
Lemma plain_split : forall s a b, plain s = a ++ b -> exists x y, s = x ++ y /\ a = plain x /\ b = plain y.
Proof.
  intros s a. revert s. induction a as [|t a IH]; intros s b E.
  - exists [], s. cbn in E. auto.
  - destruct s as [|c s]; [discriminate|]. cbn in E. injection E as <- E. destruct (IH s b E) as (x & y & -> & -> & ->).
    exists (c :: x), y. auto.
Qed.
Lemma columns_sp : forall a u, sp u -> length u <= columns (char_cols U) (plain (a ++ u)).
Proof.
  intros a u Hu. unfold plain. rewrite map_app. fold (plain a) (plain u). rewrite columns_app.
  rewrite (sp_repeat u Hu) at 2. rewrite (columns_spaces U). lia.
Qed.

(** ** the prepared lines of a plain design *)
Section Design.
Variable d : design.
Hypothesis WF : wf_design U d.
Hypothesis HB : built U d.
Hypothesis HP : plain_design U d.

Lemma row_plain : forall i si, i < 16 -> plain_text U (row_text (d_shape d i) si).
Proof.
  intros i si Hi. unfold row_text. destruct (nth_in_or_default si (map memory (s_mbcs (d_shape d i))) []) as [Hin|E]; [|rewrite E; constructor].
  apply in_map_iff in Hin as (m & <- & Hm). apply (pd_rows U d HP i m Hi Hm).
Qed.
Lemma row_deep : forall i si, i < 16 -> isdeepempty (d_shape d i) = true -> sp (row_text (d_shape d i) si).
Proof.
  intros i si Hi He. unfold row_text. destruct (nth_in_or_default si (map memory (s_mbcs (d_shape d i))) []) as [Hin|E]; [|rewrite E; constructor].
  apply in_map_iff in Hin as (m & <- & Hm). apply (pd_blank U d HP i m Hi He Hm).
Qed.

Lemma prepped_plain : forall si i sc, i < 16 -> prepped U d literal si i false sc -> isempty (d_shape d i) = false ->
  sc_text sc = Some (bx U (plain (row_text (d_shape d i) si))) /\ row_text (d_shape d i) si <> [] /\
  columns (char_cols U) (plain (row_text (d_shape d i) si)) = s_width (d_shape d i).
Proof.
  intros si i sc Hi (_ & _ & _ & Hs) He. destruct (Hs He) as (ts & ts' & _ & Hrd & Hw & Et & _ & Hv & _).
  rewrite (Hv eq_refl) in Et. cbn [drops_shape vtoks] in Et. apply (reads_plain_inv _ _ (row_plain i si Hi)) in Hrd. subst ts.
  split; [exact Et|]. split; [|exact Hw]. intros E. rewrite E in Hw. cbn in Hw. unfold isempty in He.
  rewrite !orb_false_iff in He. destruct He as [[_ Hx] _]. apply Nat.eqb_neq in Hx. lia.
Qed.

Lemma prepped_plain_last : forall si i sc, i < 16 -> prepped U d literal si i true sc -> isempty (d_shape d i) = false ->
  exists rk cut, row_text (d_shape d i) si = rk ++ cut /\ sp cut /\ sc_text sc = Some (bx U (plain rk)) /\ plain_text U rk /\
    (sp (row_text (d_shape d i) si) \/ ends rk).
Proof.
  intros si i sc Hi (_ & _ & _ & Hs) He. destruct (Hs He) as (ts & ts' & _ & Hrd & _ & Et & _ & _ & Hv).
  destruct (Hv eq_refl) as (keep & cut & E & E' & Hb & Hl). pose proof (row_plain i si Hi) as Hpl.
  apply (reads_plain_inv _ _ Hpl) in Hrd. subst ts.
  apply plain_split in E as (x & y & Er & -> & ->). rewrite visible_plain in Hb.
  rewrite Er in *. apply Forall_app in Hpl as [Hx Hy]. exists x, y. split; [reflexivity|].
  split; [apply (simple_blanks U y Hy); apply blanks_forallb; exact Hb|].
  split; [rewrite Et, E'; reflexivity|]. split; [exact Hx|].
  rewrite visible_plain in Hl. destruct (forallb (is_blank U) (x ++ y)) eqn:Eb.
  - left. apply (simple_blanks U); [apply Forall_app; auto|]. apply blanks_forallb. exact Eb.
  - right. destruct (Hl eq_refl) as (m & c & Ev & Hc). rewrite visible_plain in Ev. exists m, c. auto.
Qed.

Lemma blank_side_row : forall b i si, In i (side_of b) -> i < 16 -> blank_side d b = true -> sp (row_text (d_shape d i) si).
Proof.
  intros b i si Hi Hl He. apply row_deep; [exact Hl|]. unfold blank_side, empty_side in He. rewrite forallb_forall in He. auto.
Qed.

Lemma corner_width : forall top : bool, s_width (d_shape d (left_corner top)) = s_width (d_shape d NW).
Proof.
  intros [|]; [reflexivity|]. symmetry. apply (wf_widths U d WF BLEF 4); [auto|lia|]. apply (wf_corners U d WF). cbn. auto.
Qed.

Theorem border_recognised : forall inp (top : bool) li si l ind cn,
  si < s_height (d_shape d (left_corner top)) -> nth_error (i_lines inp) li = Some l -> built_line U l ->
  usage (at_side (d_shape d) (if top then BTOP else BBOT)) cn ->
  printed U true (border_row d top ind cn si) (memory (l_text l)) ->
  match_horiz_with U d inp top li si literal = Ok true.
Proof.
  intros inp top li si l ind cn Hsi Hnth Hbl Hus Hpr.
  destruct (line_prep U HU l literal inp li Hbl Hnth) as (ts & a & b & Hrd & Eab & Hci & Hfu & Hrt & Hga & Htr & Hbb & Hnar & Hlast & _).
  destruct (prep_all U HU d literal si (side_shapes top) WF HB) as (sr & Esr & Hsr).
  { apply Forall_forall. intros i Hi. apply (side_heights U d top); assumption. }
  assert (Hctx : ctx_ok U sr) by (eapply prepped_ctx; [exact Hsr|destruct top; reflexivity]).
  assert (HeL : isempty (d_shape d (left_corner top)) = false) by (apply (wf_corners U d WF); destruct top; cbn; auto).
  assert (HeR : isempty (d_shape d (right_corner top)) = false) by (apply (wf_corners U d WF); destruct top; cbn; auto).
  assert (Hw : 0 < s_width (d_shape d NW) + s_width (d_shape d NE)).
  { assert (HeNW : isempty (d_shape d NW) = false) by (apply (wf_corners U d WF); cbn; auto).
    unfold isempty in HeNW. rewrite !orb_false_iff in HeNW. destruct HeNW as [[_ Hx] _]. apply Nat.eqb_neq in Hx. lia. }
  set (n := s_width (d_shape d NW) + s_width (d_shape d NE)) in *.
  destruct (grown_spec U a n Hga Htr Hnar Hw) as (Em & Ec & Ev & Etr & Hr1 & Hr2 & x0 & y0 & Exy & Hrdx & Hvx).
  (* the pieces of the row *)
  set (lcr := row_text (d_shape d (left_corner top)) si) in *.
  set (rcr := row_text (d_shape d (right_corner top)) si) in *.
  assert (H16L : left_corner top < 16) by (destruct top; cbv; lia). assert (H16R : right_corner top < 16) by (destruct top; cbv; lia).
  pose proof (prepped_nth U d literal si top sr 0 Hsr ltac:(lia)) as Hp0. pose proof (prepped_nth U d literal si top sr 4 Hsr ltac:(lia)) as Hp4.
  cbn [Nat.eqb] in Hp0, Hp4.
  assert (El : nth 0 (side_shapes top) 0 = left_corner top) by (destruct top; reflexivity).
  assert (Er : nth 4 (side_shapes top) 0 = right_corner top) by (destruct top; reflexivity).
  rewrite El in Hp0. rewrite Er in Hp4.
  destruct (prepped_plain si _ _ H16L Hp0 HeL) as (Et0 & Hlne & Hlw). fold lcr in Et0, Hlne, Hlw.
  destruct (prepped_plain_last si _ _ H16R Hp4 HeR) as (rk & rcut & Erc & Hrcut & Et4 & Hrk & Hrends). fold rcr in Erc, Hrends.
  pose proof (row_plain (left_corner top) si H16L) as Hlp. fold lcr in Hlp.
  pose proof (row_plain (right_corner top) si H16R) as Hrp. fold rcr in Hrp.
  (* contexts are plain *)
  assert (Hmidp : forall j, 1 <= j < 4 -> prepped U d literal si (nth j (side_shapes top) 0) false (nths sr j) /\ nth j (side_shapes top) 0 < 16).
  { intros j Hj. pose proof (prepped_nth U d literal si top sr j Hsr ltac:(lia)) as Hpj.
    replace (j =? 4) with false in Hpj by (symmetry; apply Nat.eqb_neq; lia). split; [exact Hpj|].
    destruct top; (destruct j as [|[|[|[|j]]]]; try lia; cbv; lia). }
  assert (Hsimple : forall j b0, j < 5 -> sc_text (nths sr j) = Some b0 -> exists s, b0 = bx U (plain s) /\ plain_text U s /\ (j < 4 -> s <> [])).
  { intros j b0 Hj Hb0. destruct (Nat.eq_dec j 0) as [->|Hj0].
    { rewrite Et0 in Hb0. injection Hb0 as <-. exists lcr. auto. }
    destruct (Nat.eq_dec j 4) as [->|Hj4].
    { rewrite Et4 in Hb0. injection Hb0 as <-. exists rk. split; [reflexivity|]. split; [exact Hrk|lia]. }
    destruct (Hmidp j ltac:(lia)) as [Hpj Hj16].
    destruct (isempty (d_shape d (nth j (side_shapes top) 0))) eqn:Eej.
    { destruct Hpj as (_ & _ & Hno & _). rewrite (Hno Eej) in Hb0. discriminate. }
    destruct (prepped_plain si _ _ Hj16 Hpj Eej) as (Etj & Hjne & _). rewrite Etj in Hb0. injection Hb0 as <-.
    eexists. split; [reflexivity|]. split; [apply row_plain; exact Hj16|auto]. }
  (* numbers of copies *)
  set (side := at_side (d_shape d) (if top then BTOP else BBOT)) in *.
  set (cn' := fun j => if top then cn j else cn (4 - j)).
  assert (Hside : forall j, 1 <= j < 4 -> d_shape d (nth j (side_shapes top) 0) = side (if top then j else 4 - j) /\ In (if top then j else 4 - j) [1;2;3]).
  { intros j Hj. unfold side, at_side, side_shapes, north_side, south_side_rev.
    destruct top; (destruct j as [|[|[|[|j]]]]; try lia; cbn; auto). }
  assert (Hcounts : counts_ok sr cn' 1).
  { intros j Hj He. destruct (Hmidp j ltac:(lia)) as [Hpj Hj16]. destruct (Hside j ltac:(lia)) as [Esd Hin].
    assert (Eej : isempty (d_shape d (nth j (side_shapes top) 0)) = false) by (destruct Hpj as (Hx & _); congruence).
    destruct (prepped_plain si _ _ Hj16 Hpj Eej) as (Etj & Hjne & _).
    split; [unfold linetext; rewrite Etj; cbn [bx memory]; rewrite render_plain; exact Hjne|].
    destruct Hpj as (_ & Hel & _). rewrite Hel.
    assert (Ecn : cn' j = cn (if top then j else 4 - j)) by (unfold cn'; destruct top; reflexivity). rewrite Ecn.
    pose proof (proj1 Hus _ Hin) as Hu. rewrite <- Esd, Eej in Hu. destruct (s_elastic (d_shape d (nth j (side_shapes top) 0))).
    - split; [exact Hu|discriminate].
    - rewrite Hu. auto. }
  set (mid := hside_row side (if top then [1;2;3] else [3;2;1]) cn si) in *.
  assert (Hmid : rest sr cn' 1 = mid).
  { unfold rest, mid, hside_row. cbn [Nat.sub seq flat_map].
    assert (G : forall j, 1 <= j < 4 -> (if sc_empty (nths sr j) then [] else concat (repeat (linetext (nths sr j)) (cn' j)))
       = concat (repeat (row_text (side (if top then j else 4 - j)) si) (cn (if top then j else 4 - j)))).
    { intros j Hj. destruct (Hmidp j ltac:(lia)) as [Hpj Hj16]. destruct (Hside j ltac:(lia)) as [Esd Hin].
      assert (Ecn : cn' j = cn (if top then j else 4 - j)) by (unfold cn'; destruct top; reflexivity). rewrite Ecn.
      pose proof (proj1 Hus _ Hin) as Hu. pose proof Hpj as (He & _). rewrite He. rewrite <- Esd in *.
      destruct (isempty (d_shape d (nth j (side_shapes top) 0))) eqn:Eej; [rewrite Hu; reflexivity|].
      destruct (prepped_plain si _ _ Hj16 Hpj Eej) as (Etj & _). unfold linetext. rewrite Etj. cbn [bx memory]. rewrite render_plain. reflexivity. }
    rewrite !G by lia. destruct top; reflexivity. }
  (* the text of the line *)
  set (pre := spaces ind ++ (if blank_side d BLEF then [] else lcr)).
  assert (Erow : border_row d top ind cn si = pre ++ mid ++ rcr) by (unfold border_row, pre; rewrite <- !app_assoc; reflexivity).
  assert (Hmidplain : plain_text U mid).
  { unfold mid, hside_row. apply Forall_forall. intros c Hc. apply in_flat_map in Hc as (j & Hj & Hc). apply in_concat in Hc as (w & Hin & Hcw).
    apply repeat_spec in Hin. subst w.
    assert (Hpl : plain_text U (row_text (side j) si)).
    { unfold side, at_side. apply row_plain. destruct top; cbn in Hj; intuition (subst; cbv; lia). }
    unfold plain_text in Hpl. rewrite Forall_forall in Hpl. apply Hpl. exact Hcw. }
  assert (Hpreplain : plain_text U pre).
  { apply Forall_app. split; [apply (sp_simple U); apply repeat_sp|]. destruct (blank_side d BLEF); [constructor|exact Hlp]. }
  assert (Hrowplain : plain_text U (pre ++ mid ++ rcr)) by (rewrite !simple_app; auto).
  rewrite Erow in Hpr. destruct Hpr as (keep & cut & Hrrow & Etext & Hcb & Hcl).
  apply (reads_plain_inv _ _ Hrowplain) in Hrrow. symmetry in Hrrow. pose proof Hrrow as Hsplit. apply plain_split in Hsplit as (A & z & ErowA & -> & ->).
  rewrite render_plain in Etext. rewrite Etext in Hrd.
  assert (HAplain : plain_text U A /\ plain_text U z) by (rewrite ErowA in Hrowplain; apply simple_app in Hrowplain; exact Hrowplain).
  apply (reads_plain_inv _ _ (proj1 HAplain)) in Hrd. subst ts. cbn [drops_input vtoks] in Eab.
  apply plain_split in Eab as (A' & z' & EA & -> & ->).
  rewrite visible_plain in Hbb, Hcb, Hvx, Hnar. rewrite !render_plain in *.
  assert (Hz : sp (z' ++ z)).
  { rewrite EA in HAplain. destruct HAplain as [HA Hzz]. apply simple_app in HA as [_ HA]. apply sp_app. split;
      [apply (simple_blanks U z' HA)|apply (simple_blanks U z Hzz)]; apply blanks_forallb; assumption. }
  assert (ErowA' : pre ++ mid ++ rcr = A' ++ (z' ++ z)) by (rewrite ErowA, EA, <- app_assoc; reflexivity).
  clear Hcl Hlast. assert (Hends : forallb (is_blank U) (pre ++ mid ++ rcr) = false -> ends A').
  { intros Hnb. destruct (line_prep U HU l literal inp li Hbl Hnth) as (ts2 & a2 & b2 & Hrd2 & Eab2 & _ & _ & Hrt2 & _ & _ & _ & _ & Hlast2 & _).
    rewrite Etext in Hrd2. apply (reads_plain_inv _ _ (proj1 HAplain)) in Hrd2. subst ts2. cbn [drops_input vtoks] in Eab2.
    assert (Eab1 : plain A' ++ plain z' = a2 ++ b2) by (rewrite <- Eab2, EA; unfold plain; rewrite map_app; reflexivity).
    rewrite <- Eab1, Hrt in Hrt2. injection Hrt2 as Em2. rewrite visible_plain in Hlast2.
    apply plain_split in Eab2 as (A2 & z2 & EA2 & -> & ->). rewrite !render_plain in Em2. subst A2.
    destruct Hlast2 as (m2 & c2 & Ev2 & Hc2); [|rewrite visible_plain in Ev2; exists m2, c2; auto].
    destruct (forallb (is_blank U) A) eqn:EbA; [|reflexivity]. exfalso. rewrite ErowA, forallb_app, EbA in Hnb. cbn [andb] in Hnb. congruence. }
  set (mm := memory (grown U (plain A') n)) in *.
  assert (Hmm : eqsp mm (pre ++ mid ++ rcr)).
  { exists (length (z' ++ z)), n. rewrite Em, ErowA'. pose proof (sp_repeat _ Hz) as Ez. generalize dependent (z' ++ z). intros zz _ _ Ez.
    rewrite Ez, repeat_length, <- !app_assoc, <- !repeat_app. do 2 f_equal. lia. }
  (* computing *)
  unfold match_horiz_with, prepare_comp_shapes_horiz. rewrite Esr. cbn [bind]. rewrite Hci. cbn [must bind]. rewrite Hfu. cbn [must bind].
  rewrite Hrt. cbn [must bind]. fold n. change (bxs_append_spaces (bx U (plain A')) n) with (grown U (plain A') n).
  destruct (ctx_nth U sr 0 Hctx) as (E0 & _ & _); [lia|]. destruct (ctx_nth U sr 4 Hctx) as (E4 & _ & _); [lia|].
  rewrite E0. cbn [bind]. rewrite E4. cbn [bind]. rewrite Ev, Hr2.
  assert (Hmm0 : length mm <> 0) by (rewrite Em, app_length, repeat_length; lia).
  (* right end *)
  assert (HR : exists mrr (ar : bool) endp rcb, (if empty_side (d_shape d) BRIG then Ok None else match_outer_shape U false (grown U (plain A') n) (sc_text (nths sr 4))) = Ok mrr /\
     endp = (match mrr with Some r => m_idx r | None => length mm end) /\ ar = (match mrr with Some r => negb (m_shiftable r) | None => false end) /\
     endp <= length mm /\ (ar = false -> endp = length mm /\ sp rcb /\ emptyb U (nths sr 4) = true) /\
     (ar = true -> firstn endp mm = pre ++ mid) /\ (ar = false -> rcb = rcr)).
  { assert (Hopenrc : sp rcr -> emptyb U (nths sr 4) = true).
    { intros Hs. unfold emptyb. destruct Hp4 as (Hx & _). rewrite Hx, HeR, Et4. cbn [orb blank_opt]. rewrite (simple_is_blank U HU rk Hrk).
      apply forallb_sp. rewrite Erc in Hs. apply sp_app in Hs. tauto. }
    destruct (empty_side (d_shape d) BRIG) eqn:EBR.
    { assert (Hs : sp rcr) by (apply (blank_side_row BRIG); [destruct top; cbv; auto 10|exact H16R|exact EBR]).
      exists None, false, (length mm), rcr. repeat split; auto; discriminate. }
    rewrite Et4. unfold match_outer_shape. rewrite Ec. fold mm. destruct (Nat.eqb_spec (length mm) 0) as [|_]; [lia|]. cbn [orb].
    change (num_chars (bx U (plain rk))) with (length (render (plain rk))). change (memory (bx U (plain rk))) with (render (plain rk)). rewrite render_plain.
    destruct Hrends as [Hs|He].
    - destruct (Nat.eqb_spec (length rk) 0) as [Ez|Ez].
      { exists None, false, (length mm), rcr. repeat split; auto; discriminate. }
      rewrite (simple_is_blank U HU rk Hrk). assert (Hsk : sp rk) by (rewrite Erc in Hs; apply sp_app in Hs; tauto).
      apply forallb_sp in Hsk. rewrite Hsk. cbn [bind]. rewrite Ev, Hr2. cbn [bind].
      eexists _, false, (length mm), rcr. split; [reflexivity|]. cbn [m_idx m_shiftable negb]. repeat split; auto; discriminate.
    - assert (Hne : length rk <> 0) by (destruct He as (m1 & c1 & -> & _); rewrite app_length; cbn; lia).
      destruct (Nat.eqb_spec (length rk) 0) as [|_]; [lia|]. rewrite (simple_is_blank U HU rk Hrk).
      assert (Hnb : forallb (N.eqb 32) rk = false).
      { destruct (forallb (N.eqb 32) rk) eqn:Ex; [|reflexivity]. exfalso. apply forallb_sp in Ex. destruct He as (m1 & c1 & E1 & Hc1).
        rewrite E1 in Ex. apply sp_app in Ex as [_ Ex]. inversion Ex as [|? ? Hq _]; subst. rewrite (blank32 U HU) in Hc1. discriminate. }
      rewrite Hnb. cbn [bind]. rewrite Ev, Etr, subz_le by lia. cbn [bind]. replace (length (visible (plain A')) + n - n) with (length (visible (plain A'))) by lia.
      rewrite Hr1. cbn [bind].
      assert (EA' : A' = pre ++ mid ++ rk).
      { apply (ends_unique A' (pre ++ mid ++ rk) (z' ++ z) rcut).
        - rewrite <- ErowA', Erc, <- !app_assoc. reflexivity.
        - apply (sp_blanks U HU). exact Hz.
        - apply (sp_blanks U HU). exact Hrcut.
        - apply Hends. rewrite Erc, !forallb_app. destruct He as (m1 & c1 & -> & Hc1). rewrite forallb_app. cbn [forallb]. rewrite Hc1.
          rewrite !andb_false_r. reflexivity.
        - destruct He as (m1 & c1 & -> & Hc1). exists (pre ++ mid ++ m1), c1. rewrite <- !app_assoc. auto. }
      assert (Emm : mm = (pre ++ mid) ++ rk ++ repeat 32%N n) by (rewrite Em, EA', <- !app_assoc; reflexivity).
      replace (length rk + 1) with (S (length rk)) by lia. cbn [outer_right]. rewrite Nat.eqb_refl, firstn_all. cbn [orb].
      assert (Eu : u32_strnrstr mm rk (length rk) = Some (length (pre ++ mid))).
      { rewrite Emm. apply strnrstr_last; [exact He|]. apply (sp_blanks U HU). apply repeat_sp. }
      unfold mm in Eu at 1. rewrite Eu.
      destruct (Nat.ltb_spec (length (pre ++ mid) + length rk) (length A')) as [Hlt|_]; [rewrite EA', !app_length in Hlt; lia|].
      eexists _, true, (length (pre ++ mid)), []. split; [reflexivity|]. cbn [m_idx m_shiftable negb].
      split; [reflexivity|]. split; [reflexivity|]. split; [rewrite Emm, !app_length; lia|]. split; [discriminate|]. split; [|discriminate].
      intros _. rewrite Emm, firstn_app, firstn_all, Nat.sub_diag. cbn [firstn]. apply app_nil_r. }
  destruct HR as (mrr & ar & endp & rcb & HRe & Eendp & Ear & Hend & Hopen & Hfixed & Ercb).
  (* left end *)
  assert (Hagree0 : agree mm ar endp rcb 0 (pre ++ rest sr cn' 1)).
  { split; [lia|]. rewrite Hmid. destruct ar.
    - unfold between. rewrite Nat.sub_0_r. cbn [skipn]. auto.
    - rewrite (Ercb eq_refl). cbn [skipn]. rewrite <- app_assoc. exact Hmm. }
  assert (HL : exists mrl, (if empty_side (d_shape d) BLEF then Ok None else match_outer_shape U true (grown U (plain A') n) (sc_text (nths sr 0))) = Ok mrl /\
     ((match mrl with Some r => m_shiftable r = true /\ m_idx r + m_len r = 0 | None => True end /\ sp pre) \/
      (exists r, mrl = Some r /\ m_shiftable r = false /\ m_idx r + m_len r = length pre /\ length pre <= length mm /\ firstn (length pre) mm = pre))).
  { unfold pre, blank_side. destruct (empty_side (d_shape d) BLEF) eqn:EBL.
    { exists None. split; [reflexivity|]. left. split; [exact I|]. rewrite app_nil_r. apply repeat_sp. }
    rewrite Et0. unfold match_outer_shape. rewrite Ec. fold mm. destruct (Nat.eqb_spec (length mm) 0) as [|_]; [lia|]. cbn [orb].
    change (num_chars (bx U (plain lcr))) with (length (render (plain lcr))). change (memory (bx U (plain lcr))) with (render (plain lcr)). rewrite render_plain.
    destruct (Nat.eqb_spec (length lcr) 0) as [Ez|_]; [destruct lcr; [congruence|discriminate]|].
    rewrite (simple_is_blank U HU lcr Hlp). cbn [bind]. destruct (forallb (N.eqb 32) lcr) eqn:Eb.
    { eexists. split; [reflexivity|]. left. split; [auto|]. apply sp_app. split; [apply repeat_sp|]. apply forallb_sp. exact Eb. }
    assert (Hlnb : forallb (is_blank U) lcr = false).
    { destruct (forallb (is_blank U) lcr) eqn:Ex; [|reflexivity]. exfalso. apply blanks_forallb in Ex. apply (simple_blanks U lcr Hlp) in Ex.
      apply forallb_sp in Ex. congruence. }
    assert (Epre : pre = spaces ind ++ lcr) by (unfold pre, blank_side; rewrite EBL; reflexivity).
    assert (Hrownb : forallb (is_blank U) (pre ++ mid ++ rcr) = false) by (rewrite Epre, !forallb_app, Hlnb, andb_false_r; reflexivity).
    pose proof (Hends Hrownb) as HendsA.
    rewrite Hrdx. cbn [bind].
    assert (Hfit : length (spaces ind ++ lcr) <= length mm).
    { destruct (Nat.le_gt_cases (length (spaces ind ++ lcr)) (length mm)) as [|Hgt]; [assumption|]. exfalso.
      assert (HA'l : length A' <= length (spaces ind ++ lcr)) by (rewrite Em, app_length in Hgt; lia).
      assert (HeqA : eqsp A' (pre ++ mid ++ rcr)).
      { exists (length (z' ++ z)), 0. cbn [repeat]. rewrite app_nil_r, ErowA'. f_equal. symmetry. apply sp_repeat. exact Hz. }
      rewrite Epre, <- app_assoc in HeqA.
      destruct (Nat.le_gt_cases (length (spaces ind)) (length A')) as [Hia|Hia].
      - destruct (eqsp_prefix _ _ _ HeqA Hia) as (T & ET & HT).
        destruct (eqsp_short _ _ _ HT) as (u & Eu & Hu & _); [rewrite ET, !app_length in HA'l; lia|].
        pose proof (columns_sp T u Hu) as Hcol. rewrite <- Eu, Hlw, (corner_width top) in Hcol.
        rewrite Em, ET, Eu, !app_length, repeat_length in Hgt. unfold n in Hgt. lia.
      - destruct (eqsp_short _ _ _ HeqA) as (u & Eu & Hu & Hs); [lia|]. apply sp_app in Hs as [Hs _]. apply forallb_sp in Hs. congruence. }
    pose proof Hmm as Hmm2. rewrite Epre in Hmm2.
    destruct (eqsp_prefix _ _ _ Hmm2 Hfit) as (T & ET & _).
    assert (Hblind : blanks U (firstn ind mm)).
    { rewrite ET, <- app_assoc. unfold spaces. rewrite firstn_app, repeat_length, Nat.sub_diag. cbn [firstn]. rewrite app_nil_r.
      rewrite firstn_all2 by (rewrite repeat_length; lia). apply (sp_blanks U HU). apply repeat_sp. }
    assert (Hpfx : is_prefix lcr (skipn ind mm) = true).
    { apply prefix_spec. exists T. rewrite ET, <- app_assoc. unfold spaces. rewrite skipn_app, repeat_length, Nat.sub_diag. cbn [skipn].
      rewrite skipn_all2 by (rewrite repeat_length; lia). reflexivity. }
    assert (Hindle : ind <= length mm) by (rewrite app_length in Hfit; unfold spaces in Hfit; rewrite repeat_length in Hfit; lia).
    replace (length lcr + 1) with (S (length lcr)) by lia. cbn [outer_left Nat.eqb orb skipn]. fold mm.
    rewrite (strstr_here U sr mm ar endp rcb Hend Hopen ind lcr Hindle Hblind Hlnb Hpfx).
    assert (Hlim : ind <= length (render x0)).
    { assert (Hx0 : plain A' = x0 ++ y0) by exact Exy. apply plain_split in Hx0 as (xx & yy & EAxy & -> & ->). rewrite render_plain.
      rewrite visible_plain in Hvx. rewrite Hvx, firstn_length. 
      assert (HleadA : lead (is_blank U) mm = ind + lead (is_blank U) lcr) by (apply (lead_at U); assumption).
      assert (HleadA2 : lead (is_blank U) mm = lead (is_blank U) A').
      { rewrite Em, lead_app. destruct (forallb (is_blank U) A') eqn:Ex; [|reflexivity]. exfalso. destruct HendsA as (m1 & c1 & E1 & Hc1).
        rewrite E1, forallb_app in Ex. cbn [forallb] in Ex. rewrite Hc1, andb_false_r in Ex. discriminate. }
      pose proof (lead_le (is_blank U) A'). lia. }
    cbn [bind]. destruct (Nat.ltb_spec (length (render x0)) ind) as [|_]; [lia|].
    eexists. split; [reflexivity|]. right. eexists. split; [reflexivity|]. cbn [m_shiftable m_idx m_len]. split; [reflexivity|].
    rewrite Nat.sub_0_r. assert (Elp : ind + length lcr = length (spaces ind ++ lcr)) by (rewrite app_length; unfold spaces; rewrite repeat_length; reflexivity).
    split; [exact Elp|]. split; [exact Hfit|]. rewrite ET at 1. rewrite firstn_app, firstn_all, Nat.sub_diag. cbn [firstn]. apply app_nil_r. }
  destruct HL as (mrl & HLe & HL). rewrite HLe. cbn [bind]. rewrite HRe. cbn [bind].
  fold mm. rewrite <- Eendp, <- Ear.
  destruct HL as [[Hm Hpre]|(r & -> & Hsh & Hcur & Hple & Hpfx)].
  - assert (E1 : (match mrl with Some r => m_idx r + m_len r | None => 0 end) = 0) by (destruct mrl; [apply Hm|reflexivity]).
    assert (E2 : (match mrl with Some r => negb (m_shiftable r) | None => false end) = false) by (destruct mrl; [destruct Hm as [-> _]; reflexivity|reflexivity]).
    rewrite E1, E2. apply (hmm_free U HU sr Hctx Hsimple mm ar endp rcb Hend Hopen (hmm_fuel mm) cn' pre Hcounts Hpre Hagree0). unfold hmm_fuel. lia.
  - rewrite Hsh, Hcur. cbn [negb].
    apply (hmm_any U HU sr Hctx Hsimple mm ar endp rcb Hend Hopen (hmm_fuel mm) (length pre) 1 cn'); [lia|exact Hcounts| |unfold hmm_fuel; lia].
    destruct Hagree0 as [_ Ha]. rewrite Hmid in Ha. rewrite Hmid. destruct ar.
    + unfold between in Ha. rewrite Nat.sub_0_r in Ha. cbn [skipn] in Ha.
      assert (Hle : length pre <= endp) by (apply (f_equal (@length N)) in Ha; rewrite firstn_length, app_length in Ha; lia).
      split; [exact Hle|]. unfold between. apply (f_equal (skipn (length pre))) in Ha. rewrite skipn_app, skipn_all, Nat.sub_diag in Ha. cbn [skipn app] in Ha.
      rewrite <- Ha. symmetry. apply skipn_firstn_comm.
    + destruct (Hopen eq_refl) as (-> & _). split; [exact Hple|]. cbn [skipn] in Ha. rewrite <- app_assoc in Ha.
      destruct (eqsp_prefix _ _ _ Ha Hple) as (T & ET & HT). rewrite ET, skipn_app, skipn_all, Nat.sub_diag. exact HT.
Qed.
End Design.
End Recog.
