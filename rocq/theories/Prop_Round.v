(** * A comment box that is drawn and removed again: C38 *)
From Coq Require Import Ascii String List Arith NArith ZArith Bool Lia.
From Verif Require Import Base BaseFacts Model_Unicode Model_Bxs Model_Shape Model_Generate Model_Input Model_Detect Model_Remove
  Model_Main Spec_Str Spec_Design Spec_Input Spec_Box Spec_Remove Spec_Parser Spec_Comment Spec_Round
  Proof_Str Proof_Bxs Proof_BxsOps Proof_BxsMore Proof_Shows Proof_Hmm Proof_Horiz Proof_Open Proof_Recog Proof_Found Proof_Input Proof_Rows Proof_Draw Proof_Body Proof_Comment Proof_Round Demo Prop_Str Prop_Box
  Model_Discovery Model_Parser Model_Cld Prop_Cld.
Import ListNotations.
Local Open Scope nat_scope.
Local Open Scope list_scope.

Section Trip.
Variable U : uctab.
Hypothesis HU : uctab_ok U.
Notation pl := (pl U).
Notation okt := (okt U).
Notation ends := (ends U).

Lemma skip_sp : forall n r, skipn n (spaces n ++ r) = r.
Proof. intros n r. apply skipn_len. unfold spaces. apply repeat_length. Qed.

Lemma okt_skip : forall k t, okt t -> okt (skipn k t).
Proof. intros k t H. rewrite <- (firstn_skipn k t) in H. apply okt_app in H. apply H. Qed.

(** a neat line without the common indentation *)
Lemma neat_skip : forall n k t, neat U t -> t = [] \/ (exists r, t = spaces n ++ r) -> k = 0 \/ k = n ->
  (t = [] /\ skipn k t = []) \/ t <> [] /\ skipn k t <> [] /\ t = spaces k ++ skipn k t /\ exists a c, skipn k t = a ++ [c] /\ is_blank U c = false.
Proof.
  intros n k t [_ [->|(_ & (a & c & E & Hb & _) & _)]] Hs Hk; [left; split; [reflexivity|apply skipn_nil]|]. right.
  assert (Hne : t <> []) by (rewrite E; destruct a; discriminate). split; [exact Hne|].
  destruct Hk as [-> | ->].
  - cbn [skipn spaces repeat app]. split; [exact Hne|]. split; [reflexivity|]. eauto.
  - destruct Hs as [F|(r & Er)]; [congruence|]. assert (Ek : skipn n t = r) by (rewrite Er; apply skip_sp). rewrite Ek.
    assert (Hr : r <> []).
    { intros F. rewrite F, app_nil_r in Er. rewrite E in Er. assert (X : In c (spaces n)) by (rewrite <- Er; apply in_or_app; right; left; reflexivity).
      apply repeat_spec in X. subst c. rewrite (blank32 U HU) in Hb. discriminate. }
    split; [exact Hr|]. split; [exact Er|]. destruct (exists_last Hr) as (r' & c' & Er'). exists r', c'. split; [exact Er'|].
    rewrite Er, Er', app_assoc in E. apply app_inj_tail in E as [_ ->]. exact Hb.
Qed.

Section Fixed.
Variables (o : opts) (d : design) (s0 bl : list N) (c0 : N) (eol : list N) (fin : bool) (lines : list (list N)) (n : nat).
Let s1 := c0 :: s0.
Let s := s1 ++ bl.
Hypothesis WF : wf_design U d.
Hypothesis HB : built U d.
Hypothesis CD : comment_design d s.
Hypothesis Hs : Forall (text_char U) s.
Hypothesis Hc0 : is_blank U c0 = false.
Hypothesis Hbl : blanks U bl.
Hypothesis Hs1 : ends s1.
Hypothesis Hleft : blank_side d BLEF = false.
Hypothesis Hmh : d_minheight d <= 3.
Hypothesis PO : plain_options o (d_pad_top d) (d_pad_bottom d).
Hypothesis Ht : 1 <= o_tabstop o <= 16.
Hypothesis Hx : o_tabexp o = 101%N.
Hypothesis He : eol = [10%N] \/ eol = [13%N; 10%N].
Hypothesis Hw : forallb (uc_ws U) eol = true.
Hypothesis Hne : lines <> [].
Hypothesis Hl : Forall (neat U) lines.
Hypothesis Hf : fin = false -> last lines [] <> [].
Let pad := over (o_pad_left o) (d_pad_left d).
Hypothesis Hlim : Forall (fun t => N.of_nat (List.length t + List.length s + pad) <= line_limit)%N lines.
Hypothesis Hci : common_indent lines n.
Hypothesis Hmode : d_indentmode d = 116%N \/ d_indentmode d = 98%N.

Let k := if N.eqb (d_indentmode d) 116 then 0 else n.
Let ind := if N.eqb (d_indentmode d) 98 then n else 0.
Let texts := map (skipn k) lines.

Lemma k_ind : k = ind.
Proof. unfold k, ind. destruct Hmode as [-> | ->]; reflexivity. Qed.
Lemma k_or : k = 0 \/ k = n.
Proof. unfold k. destruct (N.eqb _ _); auto. Qed.

Lemma lf_eol : lf eol.
Proof. unfold lf. tauto. Qed.
Lemma char_no10 : forall t, Forall (text_char U) t -> ~ In 10%N t.
Proof. intros t H X. rewrite Forall_forall in H. destruct (H _ X) as (_ & _ & _ & _ & F). congruence. Qed.
Lemma lines_no10 : Forall (fun l => ~ In 10%N l) lines.
Proof. eapply Forall_impl; [|exact Hl]. intros t [H _]. apply char_no10. exact H. Qed.
Lemma lines_short : Forall (fun l => N.of_nat (List.length l) <= line_limit)%N lines.
Proof. eapply Forall_impl; [|exact Hlim]. intros t H. cbn beta in H. lia. Qed.

Lemma read_in : exists M, handle_input U false o d [] (raw_lines (terminated eol fin lines)) = Ok (mkInput (map (fun t => mk U (skipn k t)) lines) M n fin) /\
  Forall (fun t => cols U (skipn k t) <= M) lines.
Proof.
  rewrite raws_terminated; [|exact He|exact lines_no10|exact lines_short|exact Hf].
  unfold handle_input, read_all_input. rewrite (raws_read U _ eol fin lines lf_eol).
  - cbn [bind fst snd]. rewrite raws_last; [|exact He|exact Hne|].
    + apply (analyze_draw U HU); [exact Hne|exact Hl|exact lines_short|exact Hci].
    + intros F. specialize (Hf F). assert (X : In (last lines []) lines) by (destruct (exists_last Hne) as (a & b & ->); rewrite last_last; apply in_or_app; right; left; reflexivity).
      rewrite Forall_forall in Hl. destruct (Hl _ X) as [Hc [Z|(_ & (m & c & E & _) & _)]]; [congruence|]. exists m, c. split; [exact E|].
      rewrite E in Hc. apply Forall_app in Hc as [_ Hc]. inversion Hc as [|? ? (_ & _ & _ & A & B) _]; subst. auto.
  - intros l e Hi Hle Hee. apply (read_draw U HU); [exact Ht|rewrite Forall_forall in Hl; apply Hl; exact Hi| |exact Hle|].
    + pose proof lines_short as X. rewrite Forall_forall in X. apply X. exact Hi.
    + destruct Hee as [-> | ->]; [reflexivity|exact Hw].
Qed.

Lemma text_okt : Forall okt texts.
Proof.
  unfold texts. apply Forall_forall. intros t X. apply in_map_iff in X as (l & <- & X). apply okt_skip. rewrite Forall_forall in Hl. apply (chars_okt U). apply Hl. exact X.
Qed.

Lemma input_ok : forall M, Forall (fun t => cols U (skipn k t) <= M) lines -> wf_input U o d (mkInput (map (fun t => mk U (skipn k t)) lines) M n fin).
Proof.
  intros M HM. constructor; cbn [i_lines i_maxline i_indent].
  - destruct lines; [congruence|discriminate].
  - intros l X. apply in_map_iff in X as (t & <- & X). cbn [mk l_text]. exists (skipn k t), (cols U (skipn k t)).
    assert (Ho : okt (skipn k t)) by (pose proof text_okt as Q; unfold texts in Q; rewrite Forall_forall in Q; apply Q; apply in_map; exact X).
    split; [apply (okt_shows U HU); exact Ho|]. split; [apply (from_pl U HU); exact Ho|]. rewrite Forall_forall in HM. apply HM. exact X.
  - left. exact Hx.
  - destruct PO as (F & _). rewrite F. congruence.
Qed.

(** the drawn lines *)
Lemma drawn_lines : forall M fuel color out, Forall (fun t => cols U (skipn k t) <= M) lines ->
  draw U fuel color eol o d (mkInput (map (fun t => mk U (skipn k t)) lines) M n fin) = Ok out ->
  out = terminated eol fin (map (fun t => spaces ind ++ match t with [] => s1 | _ => s ++ spaces pad ++ t end) texts).
Proof.
  intros M fuel color out HM E. set (inp := mkInput _ M n fin) in *. pose proof (input_ok M HM) as WI. fold inp in WI.
  destruct (C12_line_terminators U o d inp fuel color eol out HU WF WI E) as (rows & ls & Er & -> & Hp). cbn [inp i_final_newline]. f_equal.
  pose proof (comment_rows U o d s inp fuel rows HU WF CD WI PO Hmh Er) as Hr.
  assert (Eind : box_indent d inp = ind) by reflexivity.
  rewrite Eind, Hleft in Hr. fold pad in Hr. unfold texts. rewrite map_map. cbn [inp i_lines] in Hr. clear E WI Er inp Eind.
  pose proof (common_prefix _ _ Hci) as Hcp. clear Hci Hf Hlim Hne HM. revert rows ls Hr Hp. unfold texts in *. pose proof text_okt as Ho. unfold texts in Ho. clear texts.
  induction lines as [|t r IH]; intros rows ls Hr Hp.
  - inversion Hr; subst. inversion Hp; subst. reflexivity.
  - cbn [map] in Hr, Ho. inversion Hr as [|? row ? rows' H1 Hr']; subst. inversion Hp as [|? p ? ls' H2 Hp']; subst.
    inversion Hl as [|? ? Hn1 Hn2]; subst. inversion Hcp as [|? ? Hc1 Hc2]; subst. inversion Ho as [|? ? Ho1 Ho2]; subst. cbn [map]. f_equal; [|apply (IH Hn2 Hc2 Ho2 rows'); assumption].
    destruct H1 as (txt & e & Em & Htxt). cbn [mk l_text] in Htxt. rewrite mem_pl in Htxt.
    assert (Et : txt = skipn k t).
    { destruct Htxt as [->|[-> V]]; [reflexivity|]. specialize (V (plain (skipn k t))). rewrite visible_plain in V. symmetry. apply V. split; [|apply render_plain].
      apply (closed_plain _ (okt_no27 U _ Ho1)). }
    rewrite Et in Em. clear txt Htxt Et. rewrite Em in H2.
    assert (Hos : okt s) by (apply (chars_okt U); exact Hs).
    assert (Hor : okt (spaces ind ++ s ++ spaces pad ++ skipn k t ++ spaces (S e))).
    { apply okt_app. split; [apply (okt_spaces U HU)|]. apply okt_app. split; [exact Hos|]. apply okt_app. split; [apply (okt_spaces U HU)|].
      apply okt_app. split; [exact Ho1|apply (okt_spaces U HU)]. }
    assert (Bsp : forall m, blanks U (spaces m)).
    { intros m. apply Forall_forall. intros c X. apply repeat_spec in X. subst c. apply (blank32 U HU). }
    destruct (neat_skip n k t Hn1 Hc1 k_or) as [[_ E]|(_ & Hne & _ & a & c & E & Hb)].
    + rewrite E in *. cbn [app] in *. apply (printed_plain U color (spaces ind ++ s1) (bl ++ spaces pad ++ spaces (S e)) p).
      * rewrite <- app_assoc. unfold s in Hor. rewrite <- app_assoc in Hor. exact Hor.
      * destruct Hs1 as (m & c & Es & Hc). exists (spaces ind ++ m), c. rewrite Es, app_assoc. auto.
      * repeat (apply Forall_app; split); [exact Hbl|apply Bsp|apply Bsp].
      * rewrite <- app_assoc. unfold s in H2. rewrite <- app_assoc in H2. exact H2.
    + destruct (skipn k t) as [|x y] eqn:Ek; [congruence|]. rewrite E in *.
      assert (A : forall z, spaces ind ++ s ++ spaces pad ++ (a ++ [c]) ++ z = (spaces ind ++ s ++ spaces pad ++ a ++ [c]) ++ z) by (intros; rewrite <- !app_assoc; reflexivity).
      rewrite A in Hor, H2. apply (printed_plain U color _ (spaces (S e)) p Hor); [|apply Bsp|exact H2].
      exists (spaces ind ++ s ++ spaces pad ++ a), c. rewrite <- !app_assoc. auto.
Qed.


Notation row := (fun t => spaces ind ++ match t with [] => s1 | _ => s ++ spaces pad ++ t end).

Lemma row_ends : forall t, In t lines -> Forall (text_char U) (row (skipn k t)) /\ exists a c, row (skipn k t) = a ++ [c] /\ is_blank U c = false.
Proof.
  intros t Hi. rewrite Forall_forall in Hl. destruct (Hl t Hi) as [Hc Hn]. pose proof (common_prefix _ _ Hci) as Hcp. rewrite Forall_forall in Hcp.
  assert (Sp : forall m, Forall (text_char U) (spaces m)).
  { intros m. apply Forall_forall. intros c X. apply repeat_spec in X. subst c. split; [|repeat split; discriminate].
    pose proof (okt_spaces U HU 1) as Q. inversion Q as [|? ? (_ & _ & A) _]. exact A. }
  assert (Hs' : Forall (text_char U) s1) by (unfold s in Hs; apply Forall_app in Hs; apply Hs).
  destruct (neat_skip n k t (Hl t Hi) (Hcp t Hi) k_or) as [[-> E]|(_ & Hne' & Et & a & c & E & Hb)].
  - rewrite E. split; [apply Forall_app; split; [apply Sp|exact Hs']|]. destruct Hs1 as (m & c & Es & Hb). exists (spaces ind ++ m), c. rewrite Es, app_assoc. auto.
  - destruct (skipn k t) as [|x y] eqn:Ek; [congruence|]. split.
    + apply Forall_app. split; [apply Sp|]. apply Forall_app. split; [exact Hs|]. apply Forall_app. split; [apply Sp|]. rewrite Et in Hc. apply Forall_app in Hc. apply Hc.
    + exists (spaces ind ++ s ++ spaces pad ++ a), c. rewrite E, <- !app_assoc. auto.
Qed.

Lemma len_sp : forall m, List.length (spaces m) = m.
Proof. intros m. unfold spaces. apply repeat_length. Qed.

Lemma indent_fits : ind = 0 \/ exists u, In u lines /\ ind <= List.length u.
Proof.
  unfold ind. destruct (N.eqb (d_indentmode d) 98); [|auto]. destruct Hci as [[_ En]|[_ Hex]]; [left; exact En|]. right. apply Exists_exists in Hex as (u & Hu & c & r & Eu & _).
  exists u. split; [exact Hu|]. rewrite Eu, app_length, len_sp. lia.
Qed.

Lemma row_short : forall t, In t lines -> (N.of_nat (List.length (row (skipn k t))) <= line_limit)%N.
Proof.
  intros t Hi. pose proof (common_prefix _ _ Hci) as Hcp. rewrite Forall_forall in Hcp, Hlim, Hl. pose proof (Hlim t Hi) as Lt.
  destruct (neat_skip n k t (Hl t Hi) (Hcp t Hi) k_or) as [[-> E]|(_ & Hne' & Et & _)].
  - rewrite E, app_length, len_sp. assert (List.length s1 <= List.length s) by (unfold s; rewrite app_length; lia).
    destruct indent_fits as [->|(u & Hu & Hlu)]; [lia|]. specialize (Hlim u Hu). cbn beta in Hlim. lia.
  - rewrite k_ind in *. destruct (skipn ind t) as [|x y] eqn:Ek; [congruence|]. apply (f_equal (@List.length N)) in Et. rewrite !app_length, !len_sp in *. lia.
Qed.

Lemma row_head : forall t, exists r, row t = spaces ind ++ c0 :: r.
Proof. intros [|x t]; eexists; reflexivity. Qed.

Lemma row_indent : get_indent (map (fun t => mk U (row t)) texts) = ind.
Proof.
  assert (I : forall t, indent (pl (row t)) = ind) by (intros t; destruct (row_head t) as (r & ->); apply (indent_sp U HU); exact Hc0).
  destruct (get_indent_spec (map (fun t => mk U (row t)) texts)) as [[H0 ->]|[_ (l & Hi & Hp & Ha)]].
  - destruct texts as [|t ts] eqn:Et; [unfold texts in Et; destruct lines; [congruence|discriminate]|].
    specialize (H0 (mk U (row t)) (or_introl eq_refl)). cbn [mk l_text] in H0. rewrite (cols_pl U) in H0. destruct (row_head t) as (r & Er). rewrite Er in H0.
    rewrite (cols_app U), (cols_spaces U) in H0. lia.
  - apply in_map_iff in Hi as (t & <- & Hi). cbn [mk l_text] in Hp, Ha. rewrite I in Ha. destruct Ha as [Ha|Ha]; [exact Ha|].
    exfalso. unfold texts in Hi. apply in_map_iff in Hi as (u & <- & Hu).
    pose proof (row_short u Hu) as L. cbv beta in L. rewrite app_length, len_sp in L.
    destruct (get_indent_spec (map (fun t => mk U (row t)) texts)) as [[_ F]|[G _]]; [rewrite F in Ha; discriminate Ha|].
    specialize (G (mk U (row (skipn k u))) (in_map _ _ _ (in_map _ _ _ Hu)) Hp). cbn [mk l_text] in G. rewrite I, Ha in G.
    unfold line_limit, LINE_MAX_BYTES in *. lia.
Qed.

Lemma read_back : forall q, exists M, handle_input U true o q [] (raw_lines (terminated eol fin (map row texts))) = Ok (mkInput (map (fun t => mk U (row t)) texts) M ind fin).
Proof.
  intros q. unfold texts. rewrite map_map.
  assert (Rne : map (fun t => row (skipn k t)) lines <> []) by (destruct lines; [congruence|discriminate]).
  assert (R : forall x, In x (map (fun t => row (skipn k t)) lines) -> exists a c, x = a ++ [c] /\ c <> 13%N /\ c <> 10%N /\ okt x /\ ~ In 10%N x /\ (N.of_nat (List.length x) <= line_limit)%N).
  { intros x X. apply in_map_iff in X as (t & <- & X). destruct (row_ends t X) as [Hc (a & c & E & Hb)]. exists a, c. split; [exact E|].
    pose proof (char_no10 _ Hc) as H10. pose proof (chars_okt U _ Hc) as Ho. rewrite E in Hc. apply Forall_app in Hc as [_ Hc]. inversion Hc as [|? ? (_ & _ & _ & A & B) _]; subst.
    split; [exact A|]. split; [exact B|]. split; [exact Ho|]. split; [exact H10|]. apply row_short. exact X. }
  rewrite raws_terminated; [|exact He| | |].
  - unfold handle_input, read_all_input. rewrite (raws_read U _ eol fin _ lf_eol).
    + cbn [bind fst snd]. rewrite raws_last; [|exact He|exact Rne|].
      * unfold analyze_input. destruct (is_nil (map (mk U) _)) eqn:En; [destruct lines; [congruence|discriminate]|]. cbn [negb]. rewrite andb_false_r. cbn [bind].
        rewrite !map_map. pose proof row_indent as RI. unfold texts in RI. rewrite !map_map in RI. rewrite RI. eexists. reflexivity.
      * intros _. destruct (exists_last Rne) as (a & b & Eab). rewrite Eab, last_last. destruct (R b) as (m & c & E & A & B & _); [rewrite Eab; apply in_or_app; right; left; reflexivity|]. eauto.
    + intros l e Hi Hle _. destruct (R l Hi) as (a & c & -> & A & B & Ho & _ & L). apply (read_remove U HU); assumption.
  - apply Forall_forall. intros x X. destruct (R x X) as (? & ? & _ & _ & _ & _ & Y & _). exact Y.
  - apply Forall_forall. intros x X. destruct (R x X) as (? & ? & _ & _ & _ & _ & _ & Y). exact Y.
  - intros _. destruct (exists_last Rne) as (a & b & Eab). rewrite Eab, last_last. destruct (R b) as (m & c & E & _); [rewrite Eab; apply in_or_app; right; left; reflexivity|].
    rewrite E. destruct m; discriminate.
Qed.

Lemma removed : forall mode kb, kb = (-1)%Z \/ kb = 0%Z -> d_indentmode d = 116%N \/ mode = 98%N \/ mode = 0%N ->
  boxes_remove U eol o d mode kb [] (raw_lines (terminated eol fin (map row texts))) = Ok (terminated eol fin (map (restored ind) lines)).
Proof.
  intros mode kb Hkb Hm. destruct (read_back d) as (M & E). unfold boxes_remove. rewrite E. cbn [bind i_lines].
  destruct (is_nil (map (fun t => mk U (row t)) texts)) eqn:En; [unfold texts in En; destruct lines; [congruence|discriminate]|]. clear En.
  set (inp := mkInput _ M ind fin). pose proof (comment_sized o inp d s CD) as CD2. pose proof (sized_adjusted o d inp) as A. set (D := sized o inp d) in *.
  destruct PO as (_ & _ & _ & PW & PH & PT & PB).
  destruct (ad_lr_free _ _ _ _ A PW) as [Epl _]. destruct (ad_tb_free _ _ _ _ A PH) as [Ept Epb]. rewrite PT in Ept. rewrite PB in Epb. fold pad in Epl.
  assert (Hos : okt s) by (apply (chars_okt U); exact Hs).
  assert (H13 : c0 <> 13%N) by (unfold s, s1 in Hs; inversion Hs as [|? ? (_ & _ & _ & Q & _) _]; exact Q).
  assert (Hl2 : blank_side D BLEF = false) by (unfold blank_side, D; rewrite sized_shape; exact Hleft).
  assert (Hmono : design_is_mono D = true).
  { unfold design_is_mono, D. rewrite sized_shape. exact (mono_comment U HU d s WF HB CD Hos). }
  assert (Hk : kill_option D kb = false).
  { unfold kill_option. destruct (cm_blank D s CD2) as (Bt & Bb & _). unfold blank_side in Bt, Bb. rewrite Bt, Bb. destruct Hkb as [-> | ->]; reflexivity. }
  assert (Tne : texts <> []) by (unfold texts; destruct lines; [congruence|discriminate]).
  destruct (remove_drawn U HU D c0 s0 bl CD2 Hc0 H13 Hbl Hos Hl2 Ept Epb Hmono ind mode texts M fin Tne text_okt) as (M' & I' & Er).
  unfold drawn in Er. rewrite Epl in Er. fold s1 s in Er. unfold handle_remove_box. rewrite Hk. fold inp in Er. rewrite Er. cbn [bind].
  unfold apply_substitutions. rewrite subst_nil. cbn [bind fst snd i_lines i_maxline i_indent i_final_newline].
  assert (Eb : map (fun t => mk U (back ind mode t)) texts = map (mk U) (map (restored ind) lines)).
  { unfold texts. rewrite !map_map. apply map_ext_in. intros t Hi. f_equal. pose proof (common_prefix _ _ Hci) as Hcp. rewrite Forall_forall in Hcp, Hl.
    assert (Ebk : forall x, back ind mode x = spaces ind ++ x).
    { intros x. unfold back. destruct Hm as [F|F]; [|destruct F as [-> | ->]; reflexivity]. unfold ind. rewrite F. cbn. destruct (_ || _); reflexivity. }
    rewrite Ebk, <- k_ind. destruct (neat_skip n k t (Hl t Hi) (Hcp t Hi) k_or) as [[-> Es]|(Hn' & _ & Et & _)].
    - rewrite Es, app_nil_r. reflexivity.
    - rewrite <- Et. destruct t; [congruence|reflexivity]. }
  rewrite Eb. apply (output_plain U).
  - exact Hx.
  - apply Forall_forall. intros x X. apply in_map_iff in X as (t & <- & X). unfold restored. rewrite Forall_forall in Hl. destruct (Hl t X) as [Hc _].
    destruct t; [apply (okt_spaces U HU)|apply (chars_okt U); exact Hc].
  - apply Forall_forall. intros x X. apply in_map_iff in X as (t & <- & X). unfold restored. rewrite Forall_forall in Hl. destruct (Hl t X) as [Hc [->|(_ & (a & c & Ea & Hb & _) & _)]].
    + right. right. apply Forall_forall. intros c Q. apply repeat_spec in Q. subst c. apply (blank32 U HU).
    + right. left. destruct t; [destruct a; discriminate Ea|]. exists a, c. auto.
Qed.
End Fixed.
End Trip.

(** C38: a text framed with a comment box (a design that only has a left border, starting with a character that is not
    blank) comes back when the box is removed with the same design: the output of drawing, read again, gives the text.
    Only empty lines may come back as the common indentation if the box was indented. *)
Theorem C38_round_trip : forall U o d s eol fin lines mode kb n, uctab_ok U -> wf_design U d -> built U d -> comment_design d s ->
  Forall (text_char U) s -> (exists c r, s = c :: r /\ is_blank U c = false) -> blank_side d BLEF = false -> d_minheight d <= 3 ->
  plain_options o (d_pad_top d) (d_pad_bottom d) -> 1 <= o_tabstop o <= 16 -> o_tabexp o = 101%N ->
  (d_indentmode d = 116%N \/ d_indentmode d = 98%N /\ (mode = 98%N \/ mode = 0%N)) -> (kb = -1 \/ kb = 0)%Z ->
  eol = [10%N] \/ eol = [13%N; 10%N] -> forallb (uc_ws U) eol = true ->
  lines <> [] -> Forall (neat U) lines -> (fin = false -> last lines [] <> []) ->
  Forall (fun t => N.of_nat (List.length t + List.length s + over (o_pad_left o) (d_pad_left d)) <= line_limit)%N lines -> common_indent lines n ->
  forall color, (exists fuel out, boxes_draw U fuel color eol o d [] (raw_lines (terminated eol fin lines)) = Ok out) /\
  forall fuel out, boxes_draw U fuel color eol o d [] (raw_lines (terminated eol fin lines)) = Ok out ->
    boxes_remove U eol o d mode kb [] (raw_lines out) =
    Ok (terminated eol fin (map (restored (if N.eqb (d_indentmode d) 98 then n else 0)) lines)).
Proof.
  intros U o d s eol fin lines mode kb n HU WF HB CD Hs (c & r & -> & Hc) Hleft Hmh PO Ht Hx Hm Hkb He Hw Hne Hl Hf Hlim Hci color.
  destruct (ends_split U c r Hc) as (r1 & bl & E & Hbl & Hs1). rewrite E in CD, Hs, Hlim.
  assert (Hmode : d_indentmode d = 116%N \/ d_indentmode d = 98%N) by tauto.
  destruct (read_in U HU o d r1 bl c eol fin lines n Hmh Ht Hx He Hw Hne Hl Hf Hlim Hci Hmode) as (M & Ein & HM).
  assert (Enil : is_nil (map (fun t => mk U (skipn (if N.eqb (d_indentmode d) 116 then 0 else n) t)) lines) = false) by (destruct lines; [congruence|reflexivity]).
  split.
  - pose proof (input_ok U HU o d r1 bl c fin lines n PO Hx Hne Hl Hf Hlim Hci M HM) as WI.
    destruct (comment_terminates U o d _ _ HU WF CD WI) as (fuel & rows & Er). exists fuel.
    destruct (C11_no_internal_failure U o d _ color eol HU WF WI fuel) as [[F _]|(_ & out & _ & Ed)]; [congruence|].
    exists out. unfold boxes_draw. rewrite Ein. cbn [bind i_lines]. rewrite Enil. exact Ed.
  - intros fuel out Ed. unfold boxes_draw in Ed. rewrite Ein in Ed. cbn [bind i_lines] in Ed. rewrite Enil in Ed.
    rewrite (drawn_lines U HU o d r1 bl c eol fin lines n WF CD Hs Hbl Hs1 Hleft Hmh PO Hx Hne Hl Hf Hlim Hci M fuel color out HM Ed).
    apply (removed U HU o d r1 bl c eol fin lines n); try assumption. tauto.
Qed.
Print Assumptions C38_round_trip.

(** without empty lines, without common indentation, or with the indentation inside the box, the text is exactly restored *)
Theorem C38_identity : forall U o d s eol fin lines mode kb n, uctab_ok U -> wf_design U d -> built U d -> comment_design d s ->
  Forall (text_char U) s -> (exists c r, s = c :: r /\ is_blank U c = false) -> blank_side d BLEF = false -> d_minheight d <= 3 ->
  plain_options o (d_pad_top d) (d_pad_bottom d) -> 1 <= o_tabstop o <= 16 -> o_tabexp o = 101%N ->
  (d_indentmode d = 116%N \/ d_indentmode d = 98%N /\ (mode = 98%N \/ mode = 0%N)) -> (kb = -1 \/ kb = 0)%Z ->
  eol = [10%N] \/ eol = [13%N; 10%N] -> forallb (uc_ws U) eol = true ->
  lines <> [] -> Forall (neat U) lines -> (fin = false -> last lines [] <> []) ->
  Forall (fun t => N.of_nat (List.length t + List.length s + over (o_pad_left o) (d_pad_left d)) <= line_limit)%N lines -> common_indent lines n ->
  (d_indentmode d = 116%N \/ n = 0 \/ ~ In [] lines) ->
  forall color fuel out, boxes_draw U fuel color eol o d [] (raw_lines (terminated eol fin lines)) = Ok out ->
    boxes_remove U eol o d mode kb [] (raw_lines out) = Ok (terminated eol fin lines).
Proof.
  intros U o d s eol fin lines mode kb n HU WF HB CD Hs Hc Hleft Hmh PO Ht Hx Hm Hkb He Hw Hne Hl Hf Hlim Hci Hn color fuel out Ed.
  rewrite (proj2 (C38_round_trip U o d s eol fin lines mode kb n HU WF HB CD Hs Hc Hleft Hmh PO Ht Hx Hm Hkb He Hw Hne Hl Hf Hlim Hci color) fuel out Ed).
  do 2 f_equal. rewrite <- (map_id lines) at 2. apply map_ext_in. intros t Hi. destruct t as [|x t]; [|reflexivity].
  cbn [restored]. destruct Hn as [-> |[-> |F]]; [reflexivity|destruct (N.eqb _ _); reflexivity|contradiction].
Qed.
Print Assumptions C38_identity.

(** a design given with -c *)
Lemma cld_built : forall U s w c, uctab_ok U -> shows U w s -> build_design U s = Ok c -> built U (to_design c).
Proof.
  intros U s w c HU Hs E. unfold build_design in E. destruct (bxs_from_unicode U s) as [b| | | |] eqn:Eb; try discriminate E. cbn [must bind] in E.
  assert (Em : memory b = s).
  { destruct (shows_from U HU w s Hs) as (b' & Eb' & Em & _). rewrite Eb in Eb'. injection Eb' as ->. exact Em. }
  destruct (genshape U (num_columns b) 1) as [p| | | |]; try discriminate E. cbn [bind] in E. destruct (_ <? _); [discriminate E|].
  assert (G : forall v e x, blank_shape_of U v e = Ok x -> forall m, In m (s_mbcs x) -> row_built U m).
  { intros v e x Ex m Hm. unfold blank_shape_of, genshape in Ex. destruct (_ || _); [discriminate Ex|].
    destruct (bxs_from_ascii U (repeat 32%N v)) as [y| | | |] eqn:Ey; try discriminate Ex. cbn [must bind fst snd] in Ex. injection Ex as <-. cbn in Hm. destruct Hm as [<-|[]].
    assert (memory y = repeat 32%N v) as Q. { unfold bxs_from_ascii in Ey. destruct (negb _); [discriminate Ey|]. injection Ey as <-. reflexivity. }
    right. rewrite Q. eauto. }
  destruct (blank_shape_of U (num_columns b) false) as [nw| | | |] eqn:E1; try discriminate E. destruct (blank_shape_of U 1 false) as [r1| | | |] eqn:E2; try discriminate E.
  destruct (blank_shape_of U 1 true) as [e1| | | |] eqn:E3; try discriminate E. cbn [bind] in E. injection E as <-.
  intros i m Hi. unfold to_design. cbn [d_shape c_shape]. destruct (i =? W_).
  - cbn. intros [<-|[]]. left. rewrite Em. exact Eb.
  - destruct (_ || _); [apply (G _ _ _ E1)|]. destruct (_ || _); [apply (G _ _ _ E2)|]. destruct (_ || _ || _); [apply (G _ _ _ E3)|]. intros [].
Qed.

Lemma ascii_char : forall U c, uctab_ok U -> is_ascii_printable c = true -> text_char U c.
Proof.
  intros U c HU H. pose proof (ok_cntrl U HU c H) as Hc. unfold is_ascii_printable in H. rewrite andb_true_iff, N.leb_le, N.ltb_lt in H.
  split; [unfold is_allowed_anywhere; rewrite Hc; reflexivity|]. repeat split; lia.
Qed.

Theorem C38_command_line : forall U s o eol fin lines mode kb n, uctab_ok U -> forallb is_ascii_printable s = true -> (exists c r, s = c :: r /\ c <> 32%N) ->
  plain_options o 0 0 -> 1 <= o_tabstop o <= 16 -> o_tabexp o = 101%N -> mode = 98%N \/ mode = 0%N -> (kb = -1 \/ kb = 0)%Z ->
  eol = [10%N] \/ eol = [13%N; 10%N] -> forallb (uc_ws U) eol = true ->
  lines <> [] -> Forall (neat U) lines -> (fin = false -> last lines [] <> []) ->
  Forall (fun t => N.of_nat (List.length t + List.length s + over (o_pad_left o) 1) <= line_limit)%N lines -> common_indent lines n ->
  exists c, build_design U s = Ok c /\ forall color,
    (exists fuel out, boxes_draw U fuel color eol o (to_design c) [] (raw_lines (terminated eol fin lines)) = Ok out) /\
    forall fuel out, boxes_draw U fuel color eol o (to_design c) [] (raw_lines (terminated eol fin lines)) = Ok out ->
    boxes_remove U eol o (to_design c) mode kb [] (raw_lines out) = Ok (terminated eol fin (map (restored n) lines)).
Proof.
  intros U s o eol fin lines mode kb n HU Hp (c0 & r & Es & Hc0) Po Ht Hx Hm Hkb He Hw Hne Hl Hf Hlim Hci.
  assert (Hlen : (N.of_nat (List.length s) <= LINE_MAX_BYTES)%N).
  { destruct lines as [|t ts]; [congruence|]. inversion Hlim as [|? ? Q _]; subst. unfold line_limit in Q. lia. }
  assert (Hsn : s <> []) by (rewrite Es; discriminate).
  destruct (C32_blank U s HU Hp Hsn Hlen) as (c & E & Eb). exists c. split; [exact E|].
  assert (Hw' : 0 < List.length s) by (rewrite Es; cbn; lia).
  destruct (build_ok U HU s _ (shows_ascii U HU s Hp) Hw' Hlen) as (c' & E' & WF & CD & _ & _ & Im & Pd & Mh); [rewrite (utf8_ascii s Hp); lia|].
  rewrite E in E'. injection E' as <-.
  assert (Hbl : blank_side (to_design c) BLEF = false).
  { rewrite Eb, Es. cbn [forallb]. destruct (N.eqb_spec 32 c0); [congruence|reflexivity]. }
  assert (Htc : Forall (text_char U) s) by (apply Forall_forall; intros x X; apply (ascii_char U x HU); rewrite forallb_forall in Hp; apply Hp; exact X).
  assert (Hhd : exists c r, s = c :: r /\ is_blank U c = false).
  { exists c0, r. split; [exact Es|]. rewrite Es in Hp. cbn [forallb] in Hp. apply andb_prop in Hp as [Hp _]. unfold is_blank.
    destruct (uc_is_blank U c0) eqn:Q; [exfalso; apply Hc0; apply (ok_blank U HU c0 Hp Q)|]. rewrite orb_false_r. apply N.eqb_neq. intros ->. discriminate Hp. }
  intros color. pose proof (C38_round_trip U o (to_design c) s eol fin lines mode kb n HU WF (cld_built U s _ c HU (shows_ascii U HU s Hp) E) CD Htc Hhd Hbl) as R.
  assert (Edm : d_indentmode (to_design c) = 98%N) by exact Im.
  assert (Ept : d_pad_top (to_design c) = 0) by (cbn; apply Pd). assert (Epb : d_pad_bottom (to_design c) = 0) by (cbn; apply Pd).
  assert (Epl : d_pad_left (to_design c) = 1) by (cbn; apply (Pd BLEF)). assert (Emh : d_minheight (to_design c) <= 3) by (cbn; lia).
  rewrite Edm, Ept, Epb, Epl in R. apply R; try assumption. right. split; [reflexivity|exact Hm].
Qed.
Print Assumptions C38_command_line.

Definition trip (cld : string) (eol : list N) (fin : bool) (lines : list string) : res (list N) :=
  c <- build_design demo_tab (txt cld) ;;
  out <- boxes_draw demo_tab 100 true eol opts0 (to_design c) [] (raw_lines (terminated eol fin (map txt lines))) ;;
  boxes_remove demo_tab eol opts0 (to_design c) 0 (-1) [] (raw_lines out).

Definition demo_neat : list string := ["  int a;"; "    b();"; "  c  d"]%string.
Example C38_example : plain_options opts0 0 0 /\ Forall (neat demo_tab) (map txt demo_neat) /\ common_indent (map txt demo_neat) 2 /\
  trip "// " [10]%N false demo_neat = Ok (terminated [10]%N false (map txt demo_neat)).
Proof.
  split; [vm_compute; repeat split; discriminate|]. split; [|split; [|vm_compute; reflexivity]].
  - assert (A : forall k c r a z, forallb is_ascii_printable (spaces k ++ c :: r) = true -> spaces k ++ c :: r = a ++ [z] -> is_blank demo_tab c = false ->
      is_blank demo_tab z = false -> uc_ws demo_tab z = false -> neat demo_tab (spaces k ++ c :: r)).
    { intros k c r a z Hp E Hc Hz Hu. split; [apply Forall_forall; intros x X; apply (ascii_char _ x demo_tab_ok); rewrite forallb_forall in Hp; apply Hp; exact X|].
      right. split; [eauto|]. split; [eauto 6|]. exists c. split; [apply in_or_app; right; left; reflexivity|].
      rewrite forallb_app in Hp. apply andb_prop in Hp as [_ Hp]. cbn [forallb] in Hp. apply andb_prop in Hp as [Hp _].
      unfold term_width. destruct (N.eqb_spec c 9) as [-> |_]; [lia|]. rewrite (ok_width _ demo_tab_ok c Hp). cbn. lia. }
    apply Forall_cons; [apply (A 2 105%N (txt "nt a;"%string) (txt "  int a"%string) 59%N); reflexivity|].
    apply Forall_cons; [apply (A 4 98%N (txt "();"%string) (txt "    b()"%string) 59%N); reflexivity|].
    apply Forall_cons; [apply (A 2 99%N (txt "  d"%string) (txt "  c  "%string) 100%N); reflexivity|]. constructor.
  - right. split.
    + apply Forall_cons; [right; exists (txt "int a;"%string); reflexivity|]. apply Forall_cons; [right; exists (txt "  b();"%string); reflexivity|].
      apply Forall_cons; [right; exists (txt "c  d"%string); reflexivity|]. constructor.
    + apply Exists_cons_hd. exists 105%N, (txt "nt a;"%string). split; [reflexivity|discriminate].
Qed.
Example C38_crlf_example : trip "#" [13; 10]%N true ["one"; ""; "  two"]%string = Ok (terminated [13; 10]%N true (map txt ["one"; ""; "  two"]%string)).
Proof. vm_compute. reflexivity. Qed.

(** The exact text is not always restored: an empty line in an indented text comes back as blanks. *)
Theorem C38_empty_line_refuted : exists lines, Forall (fun l => l = [] \/ neat demo_tab l) (map txt lines) /\
  trip "//" [10]%N true lines = Ok (terminated [10]%N true (map txt ["  a"; "  "; "  b"]%string)) /\ lines = ["  a"; ""; "  b"]%string.
Proof.
  exists ["  a"; ""; "  b"]%string. split; [|split; [vm_compute; reflexivity|reflexivity]].
  assert (B : forall c, is_ascii_printable c = true -> c <> 32%N -> uc_ws demo_tab c = false -> neat demo_tab (spaces 2 ++ [c])).
  { intros c Hp H32 Hu. assert (Hb : is_blank demo_tab c = false).
    { unfold is_blank. destruct (uc_is_blank demo_tab c) eqn:Q; [exfalso; apply H32; apply (ok_blank _ demo_tab_ok c Hp Q)|]. rewrite orb_false_r. apply N.eqb_neq. intros ->. discriminate Hp. }
    split.
    - apply Forall_app. split; [|constructor; [apply (ascii_char _ c demo_tab_ok Hp)|constructor]]. constructor; [apply (ascii_char _ _ demo_tab_ok); reflexivity|].
      constructor; [apply (ascii_char _ _ demo_tab_ok); reflexivity|constructor].
    - right. split; [exists 2, c, []; auto|]. split; [exists (spaces 2), c; auto|]. exists c. split; [cbn; auto|].
      unfold term_width. destruct (N.eqb_spec c 9) as [-> |_]; [lia|]. rewrite (ok_width _ demo_tab_ok c Hp). cbn. lia. }
  apply Forall_cons; [right; apply (B 97%N); [reflexivity|discriminate|reflexivity]|]. apply Forall_cons; [left; reflexivity|].
  apply Forall_cons; [right; apply (B 98%N); [reflexivity|discriminate|reflexivity]|]. constructor.
Qed.

(** A border that starts with a blank leaves its leading blanks behind. *)
Theorem C38_leading_blank_refuted : exists cld lines, trip cld [10]%N true lines <> Ok (terminated [10]%N true (map txt lines)) /\
  cld = " *"%string /\ lines = ["a"]%string.
Proof. exists " *"%string, ["a"]%string. split; [vm_compute; discriminate|auto]. Qed.
