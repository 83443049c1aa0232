(** * The design given on the command line (-c): C32 *)
From Coq Require Import Ascii String List Arith NArith ZArith Bool Lia.
From Verif Require Import Base BaseFacts Model_Unicode Model_Bxs Model_Shape Model_Generate Model_Input Model_Main Model_Discovery Model_Parser Model_Cld
  Spec_Str Spec_Design Spec_Box Spec_Input Spec_Parser Spec_Comment Proof_Str Proof_Bxs Proof_BxsMore Proof_Shows Prop_Str Proof_Rows Proof_Draw
  Demo Prop_Box Prop_Input Proof_Parser Proof_Complete Proof_Comment.
Import ListNotations.
Local Open Scope nat_scope.
Local Open Scope list_scope.

Lemma blank_shape_of_ok : forall U w e, uctab_ok U -> 0 < w -> (N.of_nat w <= LINE_MAX_BYTES)%N ->
  exists cs ms, blank_shape_of U w e = Ok (mkSentry cs ms 1 w e) /\ blank_shape (mkSentry cs ms 1 w e) /\ solid U (mkSentry cs ms 1 w e).
Proof.
  intros U w e HU Hw Hn. destruct (genshape_ok U HU w 1 Hw ltac:(lia) Hn) as (cs & ms & E).
  exists cs, ms. unfold blank_shape_of. rewrite E. split; [reflexivity|]. apply (genshape_blank U HU w 1 cs ms e E).
Qed.

Lemma low16 : forall P : nat -> Prop, P 0 -> P 1 -> P 2 -> P 3 -> P 4 -> P 5 -> P 6 -> P 7 -> P 8 -> P 9 -> P 10 -> P 11 -> P 12 -> P 13 -> P 14 -> P 15 ->
  forall i, i < 16 -> P i.
Proof. intros. do 16 (destruct i; [assumption|]). lia. Qed.

(** [shapes_of] is the array of shapes of the built design *)
Section Built.
Variable U : uctab.
Hypothesis HU : uctab_ok U.
Variables (s : list N) (w : nat).
Hypothesis Hs : shows U w s.
Hypothesis Hw : 0 < w.
Hypothesis Hn : (N.of_nat w <= LINE_MAX_BYTES)%N.

Lemma build_ok : List.length (utf8_bytes s) <= w ->
  exists c, build_design U s = Ok c /\ wf_design U (to_design c) /\ comment_design (to_design c) s /\ s_width (c_shape c W_) = w /\
    s_chars (c_shape c W_) = [utf8_bytes s] /\ c_indentmode c = 98%N /\ (forall sd, c_padding c sd = match sd with BLEF => 1 | _ => 0 end) /\
    c_minheight c = 3.
Proof.
  intros Hb. destruct (shows_from U HU w s Hs) as (b & Eb & Em & Ew & Ec).
  unfold build_design. rewrite Eb. cbn [must bind]. rewrite Ew.
  destruct (genshape_ok U HU w 1 Hw ltac:(lia) Hn) as (cs0 & ms0 & E0). rewrite E0. cbn [bind].
  destruct (Nat.ltb_spec w (List.length (utf8_bytes s))) as [F|_]; [lia|].
  destruct (blank_shape_of_ok U w false HU Hw Hn) as (c1 & m1 & E1 & B1 & S1).
  assert (H1 : (N.of_nat 1 <= LINE_MAX_BYTES)%N) by (unfold LINE_MAX_BYTES; lia).
  destruct (blank_shape_of_ok U 1 false HU ltac:(lia) H1) as (c2 & m2 & E2 & B2 & S2).
  destruct (blank_shape_of_ok U 1 true HU ltac:(lia) H1) as (c3 & m3 & E3 & B3 & S3).
  rewrite E1, E2, E3. cbn [bind]. eexists. split; [reflexivity|].
  assert (SW' : isempty (mkSentry [utf8_bytes s] [b] 1 w true) = false).
  { unfold isempty. cbn. destruct w; [lia|reflexivity]. }
  assert (OW : shape_ok U (mkSentry [utf8_bytes s] [b] 1 w true)).
  { constructor; cbn; try reflexivity. constructor; [|constructor]. split; [rewrite Em; exact Hs|rewrite Em; exact Ec]. }
  destruct S1 as (S1 & O1 & L1). destruct S2 as (S2 & O2 & L2). destruct S3 as (S3 & O3 & L3).
  assert (Z0 : isempty sentry0 = true) by reflexivity.
  split; [|split; [|repeat split]].
  - unfold to_design. cbn [c_shape c_indentmode c_padding c_minwidth c_minheight]. constructor; cbn [d_shape d_minwidth d_minheight].
    + intros i Hi. cbn in Hi. repeat (destruct Hi as [<-|Hi]; [assumption|]). contradiction.
    + intros sd. left. exists 2. split; [cbn; auto|]. destruct sd.
      1-3: split; [exact S3|]; split; [reflexivity|]; intros j [<-|[<-|[<-|[]]]] Hj; try reflexivity; congruence.
      split; [exact SW'|]. split; [reflexivity|]. intros j [<-|[<-|[<-|[]]]] Hj; try reflexivity; congruence.
    + apply (low16 (fun i => isempty _ = false -> shape_ok U _)); cbn [Nat.eqb orb]; try (intros X; discriminate X); intros _; assumption.
    + intros sd i Hsd Hi. destruct Hsd as [-> | ->]; destruct Hi as [<-|[<-|[<-|[]]]]; cbn; try (intros X; discriminate X); intros _; assumption.
    + intros sd i Hsd Hi. destruct Hsd as [-> | ->]; do 5 (destruct i as [|i]; [cbn; try (intros X; discriminate X); reflexivity|]); lia.
    + intros sd i Hsd Hi. destruct Hsd as [-> | ->]; do 5 (destruct i as [|i]; [cbn; try (intros X; discriminate X); reflexivity|]); lia.
    + intros sd [-> | ->]; unfold sum, size; cbn -[isempty]; rewrite S1, S2, S3, Z0; lia.
    + intros sd [-> | ->]; unfold sum, size; cbn -[isempty]; rewrite ?S1, ?S2, ?S3, ?Z0, ?SW'; lia.
  - unfold to_design. cbn [c_shape c_indentmode c_padding c_minwidth c_minheight]. constructor; cbn [d_shape].
    + cbn. rewrite Em. split; [reflexivity|]. split; [reflexivity|]. split; [reflexivity|exact SW'].
    + apply (low16 (fun i => i <> W_ -> isempty _ = true \/ blank_shape _)); cbn [Nat.eqb orb]; intros X; try (left; reflexivity); try (right; assumption).
      exfalso. apply X. reflexivity.
    + intros i Hi. cbn in Hi. repeat (destruct Hi as [<-|Hi]; [assumption|]). contradiction.
    + intros i Hi. cbn in Hi. repeat (destruct Hi as [<-|Hi]; [split; reflexivity|]). contradiction.
    + intros i Hi. cbn in Hi. repeat (destruct Hi as [<-|Hi]; [split; reflexivity|]). contradiction.
    + intros i Hi. cbn in Hi. repeat (destruct Hi as [<-|Hi]; [split; reflexivity|]). contradiction.
    + intros i Hi. cbn in Hi. repeat (destruct Hi as [<-|Hi]; [reflexivity|]). contradiction.
Qed.

Lemma build_ub : w < List.length (utf8_bytes s) -> build_design U s = UB.
Proof.
  intros Hb. destruct (shows_from U HU w s Hs) as (b & Eb & Em & Ew & Ec).
  unfold build_design. rewrite Eb. cbn [must bind]. rewrite Ew.
  destruct (genshape_ok U HU w 1 Hw ltac:(lia) Hn) as (cs0 & ms0 & E0). rewrite E0. cbn [bind].
  destruct (Nat.ltb_spec w (List.length (utf8_bytes s))) as [_|F]; [reflexivity|lia].
Qed.
End Built.

(** ** C32 *)
Lemma utf8_ascii : forall l, forallb is_ascii_printable l = true -> utf8_bytes l = l.
Proof.
  induction l as [|c l IH]; intros H; [reflexivity|]. cbn [forallb] in H. apply andb_prop in H as [Hc Hl].
  unfold utf8_bytes in *. cbn [flat_map]. rewrite (IH Hl). unfold is_ascii_printable in Hc. rewrite andb_true_iff, N.leb_le, N.ltb_lt in Hc.
  unfold utf8. destruct (N.ltb_spec c 128); [reflexivity|lia].
Qed.

(** The design has [s] as its left border and is blank otherwise. It satisfies the conditions of configured designs. If
    the argument has more bytes than columns, the memory behind a buffer is overwritten. *)
Theorem C32_design : forall U s w, uctab_ok U -> shows U w s -> 0 < w -> (N.of_nat w <= LINE_MAX_BYTES)%N ->
  (List.length (utf8_bytes s) <= w -> exists c, build_design U s = Ok c /\ wf_design U (to_design c) /\ comment_design (to_design c) s) /\
  (w < List.length (utf8_bytes s) -> build_design U s = UB).
Proof.
  intros U s w HU Hs Hw Hn. split.
  - intros Hb. destruct (build_ok U HU s w Hs Hw Hn Hb) as (c & A & B & C & _). eauto.
  - apply (build_ub U HU s w Hs Hw Hn).
Qed.
Print Assumptions C32_design.
Example C32_design_example : match build_design demo_tab (txt "// "%string) with Ok c => wf_designb (to_design c) && Neq_list (concat (s_chars (c_shape c W_))) (txt "// "%string) | _ => false end = true.
Proof. vm_compute. reflexivity. Qed.

(** With the widths of real tables (a character other than printable ASCII takes fewer columns than bytes), -c works
    for printable ASCII and corrupts memory for all other well-behaved texts that occupy at least one column. *)
Definition narrower (U : uctab) : Prop :=
  forall c, c <> 9%N -> is_ascii_printable c = false -> (uc_width U c < Z.of_nat (List.length (utf8 c)))%Z.

Lemma utf8_pos : forall c, 1 <= List.length (utf8 c).
Proof. intros c. unfold utf8. destruct (_ <? _)%N; [cbn; lia|]. destruct (_ <? _)%N; [cbn; lia|]. destruct (_ <? _)%N; cbn; lia. Qed.
Lemma utf8_ge : forall l, List.length l <= List.length (utf8_bytes l).
Proof. induction l as [|c l IH]; [cbn; lia|]. unfold utf8_bytes in *. cbn [flat_map List.length]. rewrite app_length. pose proof (utf8_pos c). lia. Qed.

Lemma utf8_cols : forall U ts, uctab_ok U -> narrower U -> toks_ok ts -> tabless ts -> 
  columns (term_width U) ts <= List.length (utf8_bytes (render ts)) /\
  (forallb is_ascii_printable (render ts) = false -> columns (term_width U) ts < List.length (utf8_bytes (render ts))).
Proof.
  intros U ts HU HN. induction ts as [|t ts IH]; intros Hok Ht; [cbn; split; [lia|discriminate]|].
  destruct Hok as (H1 & H2 & H3).
  assert (Hts : tabless ts). { unfold tabless in *. intros X. apply Ht. cbn [visible flat_map]. apply in_or_app. auto. }
  destruct (IH H3 Hts) as [I1 I2].
  assert (E : utf8_bytes (render (t :: ts)) = utf8_bytes (tok_chars t) ++ utf8_bytes (render ts)).
  { unfold utf8_bytes, render. cbn [flat_map]. apply flat_map_app. }
  assert (Ef : forallb is_ascii_printable (render (t :: ts)) = forallb is_ascii_printable (tok_chars t) && forallb is_ascii_printable (render ts)).
  { unfold render. cbn [flat_map]. apply forallb_app. }
  rewrite E, Ef, app_length.
  destruct t as [c|b|b|k].
  - assert (Hc : c <> 9%N). { intros ->. apply Ht. cbn. auto. }
    assert (Ec : columns (term_width U) (Vis c :: ts) = term_width U c + columns (term_width U) ts) by reflexivity.
    rewrite Ec. unfold term_width at 1 3. apply N.eqb_neq in Hc. rewrite Hc. cbn [tok_chars forallb utf8_bytes flat_map]. rewrite andb_true_r, app_nil_r.
    apply N.eqb_neq in Hc. destruct (is_ascii_printable c) eqn:Ep.
    + rewrite (ok_width U HU c Ep). cbn [andb]. pose proof (utf8_pos c). split; [|intros X; specialize (I2 X)]; cbn; lia.
    + pose proof (HN c Hc Ep). pose proof (utf8_pos c). split; [|intros _]; lia.
  - change (columns (term_width U) (Esc b :: ts)) with (columns (term_width U) ts). pose proof (utf8_ge b). cbn [tok_chars].
    assert (1 <= List.length b). { cbn [tok_ok] in H1. destruct H1 as [(d & -> & _)|(d & ps & f & -> & _)]; cbn; lia. }
    split; [|intros _]; lia.
  - change (columns (term_width U) (Cut b :: ts)) with (columns (term_width U) ts). pose proof (utf8_ge b). cbn [tok_chars].
    assert (1 <= List.length b). { cbn [tok_ok] in H1. destruct H1 as [->|(d & ps & -> & _)]; cbn; lia. }
    split; [|intros _]; lia.
  - change (columns (term_width U) (Odd k :: ts)) with (columns (term_width U) ts). pose proof (utf8_ge [27%N; k]). cbn [tok_chars].
    cbn [List.length] in *. split; [|intros _]; lia.
Qed.

Theorem C32_ascii_only : forall U s w, uctab_ok U -> narrower U -> shows U w s -> 0 < w -> (N.of_nat w <= LINE_MAX_BYTES)%N ->
  ((exists c, build_design U s = Ok c) <-> forallb is_ascii_printable s = true) /\
  (forallb is_ascii_printable s = false -> build_design U s = UB).
Proof.
  intros U s w HU HN Hs Hw Hn.
  assert (X : forallb is_ascii_printable s = false -> build_design U s = UB).
  { intros F. apply (build_ub U HU s w Hs Hw Hn). destruct Hs as (ts & [Hr <-] & _ & _ & _ & Ht & <-). apply (utf8_cols U ts HU HN Hr Ht). exact F. }
  split; [|exact X]. split.
  - intros (c & E). destruct (forallb is_ascii_printable s) eqn:F; [reflexivity|]. rewrite (X eq_refl) in E. discriminate E.
  - intros F. assert (Ew : w = List.length s) by (eapply shows_inj; [exact HU|exact Hs|apply shows_ascii; assumption]).
    destruct (build_ok U HU s w Hs Hw Hn) as (c & E & _); [|eauto]. rewrite (utf8_ascii s F). lia.
Qed.
Print Assumptions C32_ascii_only.
Example C32_ascii_example : build_design demo_tab [233]%N = UB /\ build_design demo_tab [20013]%N = UB /\
  build_design demo_tab ([27; 91; 51; 49; 109]%N ++ txt "#"%string)%list = UB.
Proof. vm_compute. repeat split. Qed.

(** A control character makes the program read through a null pointer. *)
Theorem C32_control_character : forall U s ts c, uctab_ok U -> reads s ts -> tabless ts -> In c (visible ts) -> is_allowed_anywhere U c = false ->
  build_design U s = UB.
Proof.
  intros U s ts c HU Hr Ht Hc Ha. unfold build_design.
  assert (E : bxs_from_unicode U s = Err) by (apply (C18_only_bad_chars_fail U s ts HU Hr Ht); eauto). rewrite E. reflexivity.
Qed.
Print Assumptions C32_control_character.
Example C32_control_example : is_allowed_anywhere demo_tab 7 = false /\ build_design demo_tab [35; 7]%N = UB.
Proof. vm_compute. auto. Qed.

Lemma spn_lt : forall (f : N -> bool) l c, In c l -> f c = false -> spn f l < List.length l.
Proof.
  intros f l c. induction l as [|x l IH]; intros H E; [contradiction|]. cbn. destruct (f x) eqn:Ex; [|lia].
  destruct H as [->|H]; [congruence|]. specialize (IH H E). lia.
Qed.

(** the border is left out exactly if it is blank *)
Theorem C32_blank : forall U s, uctab_ok U -> forallb is_ascii_printable s = true -> s <> [] -> (N.of_nat (List.length s) <= LINE_MAX_BYTES)%N ->
  exists c, build_design U s = Ok c /\ blank_side (to_design c) BLEF = forallb (N.eqb 32) s.
Proof.
  intros U s HU Hp Hne Hn. pose proof (shows_ascii U HU s Hp) as Hs.
  assert (Hw : 0 < List.length s) by (destruct s; [congruence|cbn; lia]).
  destruct (build_ok U HU s _ Hs Hw Hn) as (c & E & WF & CD & Ew & Ec & _); [rewrite (utf8_ascii s Hp); lia|].
  exists c. split; [exact E|]. unfold blank_side, empty_side. cbn [side_of west_side forallb].
  rewrite (cm_deep _ s CD SW), (cm_deep _ s CD WSW), (cm_deep _ s CD WNW), (cm_deep _ s CD NW) by (first [vm_compute; lia|discriminate]).
  cbn [andb]. rewrite andb_true_r. destruct (cd_left _ _ CD) as (_ & Eh & _ & Ei). unfold isdeepempty. rewrite Ei, Eh. cbn [orb].
  change (d_shape (to_design c) W_) with (c_shape c W_). rewrite Ew, Ec. cbn [firstn forallb]. rewrite andb_true_r, (utf8_ascii s Hp).
  destruct (forallb (N.eqb 32) s) eqn:F.
  - apply Nat.eqb_eq. clear - F. induction s as [|x l IH]; [reflexivity|]. cbn [forallb] in F. apply andb_prop in F as [F1 F2]. apply N.eqb_eq in F1. subst x.
    cbn. f_equal. apply IH. exact F2.
  - apply Nat.eqb_neq. assert (X : exists x, In x s /\ N.eqb 32 x = false).
    { clear - F. induction s as [|x l IH]; [discriminate F|]. cbn [forallb] in F. destruct (N.eqb 32 x) eqn:Ex; [|exists x; cbn; auto].
      destruct (IH F) as (y & A & B). exists y. cbn. auto. }
    destruct X as (x & Hx & Ex). apply N.eqb_neq in Ex. pose proof (proj1 (forallb_forall _ _) Hp x Hx) as Px. unfold is_ascii_printable in Px.
    rewrite andb_true_iff, N.leb_le, N.ltb_lt in Px.
    assert ((N.eqb x 32 || N.eqb x 9) = false) as Fx by (apply orb_false_iff; split; apply N.eqb_neq; lia).
    pose proof (spn_lt (fun c => N.eqb c 32 || N.eqb c 9) s x Hx Fx). lia.
Qed.
Print Assumptions C32_blank.
Example C32_blank_example : forallb is_ascii_printable (txt "  "%string) = true /\
  match build_design demo_tab (txt "  "%string) with Ok c => blank_side (to_design c) BLEF | _ => false end = true.
Proof. vm_compute. auto. Qed.

(** What -c does to a text: every line, without trailing blanks and without the common indentation, is put behind the
    given string and one space; the common indentation comes first. There are no other lines. *)
Theorem C32_output : forall U s o raws color eol, uctab_ok U -> forallb is_ascii_printable s = true -> s <> [] -> (N.of_nat (List.length s) <= LINE_MAX_BYTES)%N ->
  1 <= o_tabstop o <= 16 -> o_tabexp o = 101%N -> raws <> [] -> Forall (raw_ok U (o_tabstop o)) raws ->
  plain_options o 0 0 ->
  exists c, build_design U s = Ok c /\
    (exists fuel out, boxes_draw U fuel color eol o (to_design c) [] raws = Ok out) /\
    forall fuel out, boxes_draw U fuel color eol o (to_design c) [] raws = Ok out ->
    exists rows ps fin ind, out = terminated eol fin ps /\ (fin = true <-> ends_with_break (last raws [])) /\ Forall2 (printed U color) rows ps /\
      Forall2 (fun raw row => exists text txt k r, taken_from U (o_tabstop o) raw text k /\
         row = spaces ind ++ (if forallb (N.eqb 32) s then [] else s) ++ spaces (over (o_pad_left o) 1) ++ txt ++ spaces (S r) /\
         (txt = text \/ txt = [] /\ forall ts, reads text ts -> visible ts = []) /\
         (k = ind \/ k = 0 /\ shows U 0 text)) raws rows.
Proof.
  intros U s o raws color eol HU Hp Hne Hn Ht He Hr Hraw Ho.
  destruct (C32_blank U s HU Hp Hne Hn) as (c & E & Eb). exists c. split; [exact E|].
  assert (Hw : 0 < List.length s) by (destruct s; [congruence|cbn; lia]).
  destruct (build_ok U HU s _ (shows_ascii U HU s Hp) Hw Hn) as (c' & E' & WF & CD & _ & _ & Im & Pd & Mh); [rewrite (utf8_ascii s Hp); lia|].
  rewrite E in E'. injection E' as <-.
  assert (Po : plain_options o (d_pad_top (to_design c)) (d_pad_bottom (to_design c))) by (cbn; rewrite !Pd; exact Ho).
  assert (HJ : o_justify o = 0%N) by apply Po.
  destruct (C50_input_stage U o (to_design c) raws HU Ht Hr Hraw (or_introl HJ)) as (inp & Ei & Hwf & Hfin & HF & _).
  specialize (Hwf (or_introl He)).
  assert (El : i_lines inp <> []) by (intros F; rewrite F in HF; inversion HF; congruence).
  split.
  { destruct (comment_terminates U o (to_design c) s inp HU WF CD Hwf) as (fuel & rows & Er).
    destruct (C11_no_internal_failure U o (to_design c) inp color eol HU WF Hwf fuel) as [[F _]|(rows' & out & _ & Eo)]; [congruence|].
    exists fuel, out. unfold boxes_draw. rewrite Ei. cbn [bind]. destruct (i_lines inp); [congruence|]. exact Eo. }
  intros fuel out Hd. unfold boxes_draw in Hd. rewrite Ei in Hd. cbn [bind] in Hd.
  destruct (i_lines inp) as [|l0 ls0] eqn:El'; [congruence|]. cbn [is_nil] in Hd. rewrite <- El' in *. clear El'.
  destruct (C12_line_terminators U o (to_design c) inp fuel color eol out HU WF Hwf Hd) as (rows & ps & Er & Eo & Hps).
  exists (map memory rows), ps, (i_final_newline inp), (i_indent inp). split; [exact Eo|]. split; [exact Hfin|]. split.
  { clear - Hps. induction Hps; constructor; auto. }
  pose proof (comment_rows U o (to_design c) s inp fuel rows HU WF CD Hwf Po ltac:(cbn; lia) Er) as Hrow.
  rewrite Eb in Hrow. unfold box_indent in Hrow. change (d_indentmode (to_design c)) with (c_indentmode c) in *. rewrite Im in Hrow, HF. cbn [N.eqb Pos.eqb] in Hrow, HF.
  change (d_pad_left (to_design c)) with (c_padding c BLEF) in Hrow. rewrite (Pd BLEF) in Hrow.
  assert (Hsh : forall l, In l (i_lines inp) -> num_columns (l_text l) = 0 -> shows U 0 (memory (l_text l))).
  { intros l Hl Hc. destruct (wi_text _ _ _ _ Hwf l Hl) as (x & wx & Hx & Ex & _).
    destruct (shows_from U HU wx x Hx) as (b & Ebx & Em & Ew & _). rewrite Ex in Ebx. injection Ebx as Ebx. rewrite Ebx in *. congruence. }
  clear - HF Hrow Hsh. revert rows Hrow Hsh. induction HF as [|raw l raws ls (k & Hk & Hk2 & _) _ IH]; intros rows Hrow Hsh; inversion Hrow as [|x y lx ly Hx Hy]; subst; constructor.
  - destruct Hx as (t & r & Et & Htx). exists (memory (l_text l)), t, k, r. split; [exact Hk|]. split; [exact Et|]. split; [exact Htx|].
    destruct Hk2 as [->|[-> Hz]]; [left; reflexivity|right]. split; [reflexivity|]. apply Hsh; [cbn; auto|exact Hz].
  - apply IH; [exact Hy|]. intros l' Hl'. apply Hsh. cbn. auto.
Qed.
Print Assumptions C32_output.
Example C32_output_example : forallb is_ascii_printable (txt "//"%string) = true /\ plain_options opts0 0 0 /\
  match build_design demo_tab (txt "//"%string) with
  | Ok c => match boxes_draw demo_tab 50 true [10]%N opts0 (to_design c) [] [txt "  one"%string ++ [10]; txt "   two  "%string ++ [10]; [10]]%N with Ok out => str out | _ => ""%string end
  | _ => ""%string end = String.concat (String "010" EmptyString) ["  // one"; "  //  two"; "  //"; ""]%string.
Proof. split; [reflexivity|]. split; [vm_compute; repeat split; discriminate|]. vm_compute. reflexivity. Qed.
