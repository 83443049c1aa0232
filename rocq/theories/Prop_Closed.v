(** * A closed box that is drawn and removed again: C58 *)
From Coq Require Import Ascii String List Arith NArith ZArith Bool Lia.
From Verif Require Import Base BaseFacts Model_Unicode Model_Bxs Model_Shape Model_Generate Model_Input Model_Detect Model_Remove
  Model_Main Spec_Str Spec_Design Spec_Input Spec_Box Spec_Remove Spec_Parser Spec_Comment Spec_Round Spec_Closed
  Proof_Str Proof_Bxs Proof_BxsOps Proof_BxsMore Proof_Shows Proof_Hmm Proof_Horiz Proof_Open Proof_Recog Proof_Found Proof_Input Proof_Rows Proof_Draw Proof_Body Proof_Comment Proof_Round
  Demo Prop_Str Prop_Box Prop_Remove Prop_Round Proof_Closed Proof_Closed2.
Import ListNotations.
Local Open Scope nat_scope.
Local Open Scope list_scope.

Section Trip.
Variable U : uctab.
Hypothesis HU : uctab_ok U.
Notation pl := (pl U).
Notation okt := (okt U).
Notation ends := (ends U).

(** the class of designs only concerns the shapes *)
Lemma same_closed : forall d d' ql qr, d_shape d' = d_shape d -> closed_design U d ql qr -> closed_design U d' ql qr.
Proof.
  intros d d' ql qr E [A B C F G H]. destruct d as [? ? ? ? ? ? ? ?], d' as [? ? ? ? ? ? ? ?]. cbn in E. subst. constructor; assumption.
Qed.
Lemma same_built : forall d d', d_shape d' = d_shape d -> built U d -> built U d'.
Proof. intros d d' E H. unfold built in *. rewrite E. exact H. Qed.
Lemma same_plain : forall d d', d_shape d' = d_shape d -> plain_design U d -> plain_design U d'.
Proof. intros d d' E [A B]. constructor; rewrite E; assumption. Qed.
Lemma same_border : forall d d', d_shape d' = d_shape d -> forall top ind cn k, border_row d' top ind cn k = border_row d top ind cn k.
Proof. intros d d' E top ind cn k. unfold border_row, blank_side. rewrite E. reflexivity. Qed.
Lemma same_item : forall d d', d_shape d' = d_shape d -> forall b, item_ok U d b -> item_ok U d' b.
Proof. intros d d' E b (A & B & C). unfold item_ok, wall_rows in *. rewrite E. auto. Qed.
Lemma same_row : forall d d', d_pad_left d' = d_pad_left d -> forall ind b, row d' ind b = row d ind b.
Proof. intros d d' E ind b. unfold row. rewrite E. reflexivity. Qed.

(** the design does not matter for reading a text from which a box is to be removed *)
Lemma read_any : forall o q d raws, handle_input U true o q [] raws = handle_input U true o d [] raws.
Proof.
  intros o q d raws. unfold handle_input. destruct (read_all_input U true o raws) as [r| | | |]; try reflexivity. cbn [bind].
  unfold analyze_input. cbn [negb]. rewrite !andb_false_r. reflexivity.
Qed.

Section Fixed.
Variables (o : opts) (d : design) (ql qr : nat) (eol : list N) (fin : bool) (lines : list (list N)) (n : nat).
Hypothesis WF : wf_design U d.
Hypothesis HB : built U d.
Hypothesis HP : plain_design U d.
Hypothesis CD : closed_design U d ql qr.
Hypothesis LA : left_aligned o.
Hypothesis Ht : 1 <= o_tabstop o <= 16.
Hypothesis Hx : o_tabexp o = 101%N.
Hypothesis He : eol = [10%N] \/ eol = [13%N; 10%N].
Hypothesis Hw : forallb (uc_ws U) eol = true.
Hypothesis Hne : lines <> [].
Hypothesis Hl : Forall (neat U) lines.
Hypothesis Hfirst : hd [] lines <> [].
Hypothesis Hlast : last lines [] <> [].
Hypothesis Hlim : Forall (fun t => N.of_nat (List.length t) <= line_limit)%N lines.
Hypothesis Hci : common_indent lines n.
Hypothesis Hmode : d_indentmode d = 116%N \/ d_indentmode d = 98%N.

Let k := if N.eqb (d_indentmode d) 116 then 0 else n.
Let ind := if N.eqb (d_indentmode d) 98 then n else 0.
Lemma k_ind : k = ind.
Proof. unfold k, ind. destruct Hmode as [-> | ->]; reflexivity. Qed.
Lemma k_or : k = 0 \/ k = n.
Proof. unfold k. destruct (N.eqb _ _); auto. Qed.

Lemma read_in : exists M, handle_input U false o d [] (raw_lines (terminated eol fin lines)) = Ok (mkInput (map (fun t => mk U (skipn k t)) lines) M n fin) /\
  Forall (fun t => cols U (skipn k t) <= M) lines.
Proof.
  assert (H10 : Forall (fun l => ~ In 10%N l) lines) by (eapply Forall_impl; [|exact Hl]; intros t [H _]; apply (char_no10 U); exact H).
  rewrite raws_terminated; [|exact He|exact H10|exact Hlim|intros _; exact Hlast].
  unfold handle_input, read_all_input. assert (Hlf : lf eol) by (unfold lf; tauto). rewrite (raws_read U _ eol fin lines Hlf).
  - cbn [bind fst snd]. rewrite raws_last; [|exact He|exact Hne|].
    + apply (analyze_draw U HU); [exact Hne|exact Hl|exact Hlim|exact Hci].
    + intros F. assert (X : In (last lines []) lines) by (destruct (exists_last Hne) as (a & b & ->); rewrite last_last; apply in_or_app; right; left; reflexivity).
      rewrite Forall_forall in Hl. destruct (Hl _ X) as [Hc [Z|(_ & (m & c & E & _) & _)]]; [congruence|]. exists m, c. split; [exact E|].
      rewrite E in Hc. apply Forall_app in Hc as [_ Hc]. inversion Hc as [|? ? (_ & _ & _ & A & B) _]; subst. auto.
  - intros l e Hi Hle Hee. apply (read_draw U HU); [exact Ht|rewrite Forall_forall in Hl; apply Hl; exact Hi| |exact Hle|].
    + rewrite Forall_forall in Hlim. apply Hlim. exact Hi.
    + destruct Hee as [-> | ->]; [reflexivity|exact Hw].
Qed.

Lemma text_okt : forall t, In t lines -> Forall (text_char U) (skipn k t).
Proof.
  intros t Hi. rewrite Forall_forall in Hl. destruct (Hl t Hi) as [Hc _]. rewrite <- (firstn_skipn k t) in Hc. apply Forall_app in Hc. apply Hc.
Qed.

Lemma input_ok : forall M, Forall (fun t => cols U (skipn k t) <= M) lines -> wf_input U o d (mkInput (map (fun t => mk U (skipn k t)) lines) M n fin).
Proof.
  intros M HM. constructor; cbn [i_lines i_maxline i_indent].
  - destruct lines; [congruence|discriminate].
  - intros l X. apply in_map_iff in X as (t & <- & X). cbn [mk l_text]. exists (skipn k t), (cols U (skipn k t)).
    assert (Ho : okt (skipn k t)) by (apply (chars_okt U); apply text_okt; exact X).
    split; [apply (okt_shows U HU); exact Ho|]. split; [apply (from_pl U HU); exact Ho|]. rewrite Forall_forall in HM. apply HM. exact X.
  - left. exact Hx.
  - destruct LA as (F & _). rewrite F. congruence.
Qed.

Lemma sp_chars : forall m, Forall (text_char U) (spaces m).
Proof. apply (Proof_Closed2.sp_chars U HU). Qed.

(** a border line as it is printed *)
Lemma border_prints : forall (top : bool) cn j color x, usage (at_side (d_shape d) (if top then BTOP else BBOT)) cn -> j < (if top then top_h d else bottom_h d) ->
  printed U color (border_row d top ind cn j) x ->
  printed U true (border_row d top ind cn j) x /\ plain_line U x /\ blankb U x = false /\
  Forall (text_char U) x /\ ends x /\ narrow_lead U x /\ exists r, x = spaces ind ++ r.
Proof.
  intros top cn j color x Hu Hj Hp. destruct (border_both U HU d ql qr HP CD top ind cn j) as [Hc Hpt].
  assert (Hs : exists c, In c (border_row d top ind cn j) /\ is_blank U c = false).
  { destruct top; [apply (top_shows U d ql qr CD)|apply (bottom_shows U d ql qr CD)]; assumption. }
  destruct (printed_line U color _ x (chars_okt U _ Hc) Hs Hp) as (P1 & b & E & Hb & He').
  rewrite E in Hc, Hpt. apply Forall_app in Hc as [Hc _]. apply Forall_app in Hpt as [Hpt _].
  split; [exact P1|]. split; [split; [apply (chars_okt U); exact Hc|exact Hpt]|]. split.
  { destruct He' as (m & c & E' & Hcb). apply (blankb_has U x c); [rewrite E'; apply in_or_app; right; left; reflexivity|exact Hcb|].
    rewrite E' in Hc. apply Forall_app in Hc as [_ Hc]. inversion Hc as [|? ? (_ & _ & _ & Q & _) _]. exact Q. }
  split; [exact Hc|]. split; [exact He'|]. split; [apply (plain_narrow U); exact Hpt|].
  apply (prefix_sp U HU ind x b (border_row d top 0 cn j)); [|exact He']. rewrite <- E. apply border_sp.
Qed.

Lemma wall_cols : forall b, item_ok U d b -> 0 < cols U (it_w b).
Proof.
  intros b Hb. destruct (wall_in d true (it_w b) (proj1 Hb)) as (i & m & Hi & Hemp & Hm & E).
  destruct (wf_shapes U d WF i (wall_16 d true i Hi) Hemp) as [_ _ Hr]. rewrite Forall_forall in Hr. destruct (Hr m Hm) as [Sh _].
  destruct (it_left U d ql qr HP CD b Hb) as (Ho & _). rewrite <- E in *. pose proof (okt_shows U HU _ Ho) as S2. rewrite (shows_inj U HU _ _ _ S2 Sh).
  unfold isempty in Hemp. rewrite !orb_false_iff, !Nat.eqb_neq in Hemp. lia.
Qed.

(** the drawn lines *)
Lemma drawn_lines : forall M fuel color out, Forall (fun t => cols U (skipn k t) <= M) lines ->
  draw U fuel color eol o d (mkInput (map (fun t => mk U (skipn k t)) lines) M n fin) = Ok out ->
  exists T A B C O cN cS D, out = terminated eol fin (T ++ map (row D ind) (A ++ B ++ C) ++ O) /\ d_shape D = d_shape d /\ d_pad_left D = over (o_pad_left o) (d_pad_left d) /\
    usage (at_side (d_shape d) BTOP) cN /\ usage (at_side (d_shape d) BBOT) cS /\ border_ok U d ind true cN T /\ border_ok U d ind false cS O /\
    Forall (fun x => Forall (text_char U) x /\ ends x /\ narrow_lead U x /\ exists r, x = spaces ind ++ r) (T ++ O) /\
    Forall (item_ok U d) (A ++ B ++ C) /\ Forall (fun b => exists r, it_r b = spaces r) A /\ Forall (fun b => exists r, it_r b = spaces r) C /\
    Forall2 (fun t b => exists r, it_r b = skipn k t ++ spaces r) lines B.
Proof.
  intros M fuel color out HM E. set (inp := mkInput _ M n fin) in *. pose proof (input_ok M HM) as WI. fold inp in WI.
  destruct (C12_line_terminators U o d inp fuel color eol out HU WF WI E) as (rows & ls & Er & -> & Hp). cbn [inp i_final_newline].
  destruct (draw_picture U HU o d inp fuel rows WF WI Er) as (cN & cS & cW & cE & w & v & f1 & f2 & hpl & hpr & cs & P).
  pose proof (sized_shape o d inp) as ES. pose proof (sized_adjusted o d inp) as AD. pose proof (sized_wf U o d inp WF) as WF2. pose proof (sized_indentmode o d inp) as EI.
  set (D := sized o inp d) in *. pose proof (same_closed d D ql qr ES CD) as CD2.
  destruct (closed_rows U HU D ql qr WF2 CD2 o inp cN cS cW cE w v f1 f2 hpl hpr cs _ P LA) as (A & B & C & E1 & HI & HA & HC & HBl).
  { intros l Hi. cbn [inp i_lines] in Hi. apply in_map_iff in Hi as (t & <- & Hi). cbn [mk l_text]. rewrite mem_pl. apply (chars_okt U). apply text_okt. exact Hi. }
  assert (Eind : box_indent D inp = ind) by (unfold box_indent, ind; rewrite EI; reflexivity). rewrite Eind in E1.
  assert (ET : top_h D = top_h d) by (unfold top_h; rewrite ES; reflexivity). assert (EB : bottom_h D = bottom_h d) by (unfold bottom_h; rewrite ES; reflexivity). rewrite ET, EB in E1.
  pose proof (pc_useN _ _ _ _ _ _ _ _ _ _ _ _ _ _ _ _ P) as UN. pose proof (pc_useS _ _ _ _ _ _ _ _ _ _ _ _ _ _ _ _ P) as US. rewrite ES in UN, US.
  assert (Hp2 : Forall2 (fun r p => printed U color r p) (map memory rows) ls) by (clear - Hp; induction Hp; constructor; auto).
  rewrite E1 in Hp2. apply Forall2_app_inv_l in Hp2 as (T & Rest & HT & HRest & ->). apply Forall2_app_inv_l in HRest as (Body & O & HBody & HO & ->).
  assert (HI' : Forall (item_ok U d) (A ++ B ++ C)) by (eapply Forall_impl; [|exact HI]; intros b; apply same_item; symmetry; exact ES).
  assert (EBody : Body = map (row D ind) (A ++ B ++ C)).
  { clear - HBody HI HU HP CD2 ES. pose proof (same_plain d D ES HP) as HP2. revert Body HBody. induction HI as [|b X Hb _ IH]; intros Body HBody; cbn [map] in HBody; inversion HBody as [|? p ? ps H1 H2]; subst; [reflexivity|].
    cbn [map]. f_equal; [|apply IH; exact H2]. apply (printed_plain U color (row D ind b) [] p); rewrite ?app_nil_r; [apply (row_okt U HU D ql qr HP2 CD2); exact Hb|apply (row_ends U D ql qr HP2 CD2); exact Hb|constructor|exact H1]. }
  subst Body.
  assert (G : forall (top : bool) cn L, usage (at_side (d_shape d) (if top then BTOP else BBOT)) cn ->
     Forall2 (fun r p => printed U color r p) (map (border_row D top ind cn) (seq 0 (if top then top_h d else bottom_h d))) L ->
     border_ok U d ind top cn L /\ Forall (fun x => Forall (text_char U) x /\ ends x /\ narrow_lead U x /\ exists r, x = spaces ind ++ r) L).
  { intros top cn L Hu H. set (h := if top then top_h d else bottom_h d) in *.
    assert (LL : List.length L = h) by (apply Forall2_len in H; rewrite map_length, seq_length in H; symmetry; exact H).
    assert (N : forall j x, nth_error L j = Some x -> j < h /\ printed U color (border_row d top ind cn j) x).
    { intros j x Hj. assert (Lj : j < h) by (rewrite <- LL; apply nth_error_Some; congruence). split; [exact Lj|].
      assert (Hr : nth_error (map (border_row D top ind cn) (seq 0 h)) j = Some (border_row D top ind cn j)).
      { rewrite nth_error_map. rewrite nth_error_nth' with (d := 0) by (rewrite seq_length; exact Lj). rewrite seq_nth by exact Lj. reflexivity. }
      clear - H Hr Hj ES. revert j Hr Hj. assert (Q : forall (a b : list (list N)) j r x, Forall2 (fun r p => printed U color r p) a b -> nth_error a j = Some r -> nth_error b j = Some x -> printed U color r x).
      { intros a b j r y F. revert j. induction F as [|? ? ? ? F1 _ IH]; intros [|j] R Y; cbn in *; try discriminate; [congruence|eauto]. }
      intros j Hr Hj. rewrite <- (same_border d D ES). eapply Q; eassumption. }
    split; [split; [exact LL|split]|].
    - intros j x Hj. destruct (N j x Hj) as [Lj Pj]. apply (border_prints top cn j color x Hu Lj Pj).
    - apply Forall_forall. intros x Hi. apply In_nth_error in Hi as (j & Hj). destruct (N j x Hj) as [Lj Pj]. destruct (border_prints top cn j color x Hu Lj Pj) as (_ & Q1 & Q2 & _). auto.
    - apply Forall_forall. intros x Hi. apply In_nth_error in Hi as (j & Hj). destruct (N j x Hj) as [Lj Pj]. destruct (border_prints top cn j color x Hu Lj Pj) as (_ & _ & _ & Q). exact Q. }
  destruct (G true cN T UN HT) as [G1 G2]. destruct (G false cS O US HO) as [G3 G4].
  exists T, A, B, C, O, cN, cS, D. split; [reflexivity|]. split; [exact ES|]. split; [apply (ad_lr_free _ _ _ _ AD); apply LA|]. split; [exact UN|]. split; [exact US|]. split; [exact G1|]. split; [exact G3|].
  split; [apply Forall_app; split; assumption|]. split; [exact HI'|]. split; [exact HA|]. split; [exact HC|].
  clear - HBl. cbn [inp i_lines] in HBl. subst inp. cbn [i_lines] in HBl. revert B HBl. induction lines as [|t ts IH]; intros B HBl; cbn [map] in HBl; inversion HBl as [|? b ? bs H1 H2]; subst; constructor; [|apply IH; exact H2].
  cbn [mk l_text] in H1. rewrite mem_pl in H1. exact H1.
Qed.

Lemma item_chars : forall D b, item_ok U d b -> Forall (text_char U) (it_r b) -> d_shape D = d_shape d -> Forall (text_char U) (row D ind b).
Proof.
  intros D b (H1 & H2 & _) Hr _. unfold row.
  assert (W : forall left r, In r (wall_rows d left) -> Forall (text_char U) r).
  { intros left r Hi. destruct (wall_in d left r Hi) as (i & m & Hi' & _ & Hm & <-). apply (cl_chars _ _ _ _ CD i m (wall_16 d left i Hi') Hm). }
  apply Forall_app. split; [apply sp_chars|]. apply Forall_app. split; [eapply W; exact H1|]. apply Forall_app. split; [|eapply W; exact H2]. apply Forall_app. split; [apply sp_chars|exact Hr].
Qed.

Lemma blankb_sp : forall r, blankb U (spaces r) = true.
Proof. intros r. unfold blankb. apply forallb_forall. intros c Hc. apply repeat_spec in Hc. subst c. rewrite (blank32 U HU). reflexivity. Qed.

Lemma removed_with : forall mode kb T A B C O cN cS D, d_indentmode d = 116%N \/ mode = 98%N \/ mode = 0%N ->
    d_shape D = d_shape d ->
    usage (at_side (d_shape d) BTOP) cN -> usage (at_side (d_shape d) BBOT) cS -> border_ok U d ind true cN T -> border_ok U d ind false cS O ->
    Forall (fun x => Forall (text_char U) x /\ ends x /\ narrow_lead U x /\ exists r, x = spaces ind ++ r) (T ++ O) ->
    Forall (item_ok U d) (A ++ B ++ C) -> Forall (fun b => exists r, it_r b = spaces r) A -> Forall (fun b => exists r, it_r b = spaces r) C ->
    Forall2 (fun t b => exists r, it_r b = skipn k t ++ spaces r) lines B ->
    Forall (fun p => N.of_nat (List.length p) <= line_limit)%N (T ++ map (row D ind) (A ++ B ++ C) ++ O) ->
  let PS := T ++ map (row D ind) (A ++ B ++ C) ++ O in
  PS <> [] /\ Forall (fun x => Forall (text_char U) x /\ ends x /\ narrow_lead U x /\ exists r, x = spaces ind ++ r) PS /\
  exists M, (forall q, handle_input U true o q [] (raw_lines (terminated eol fin PS)) = Ok (mkInput (map (mk U) PS) M ind fin)) /\
    forall dk D2, d_shape D2 = d_shape d -> wf_design U D2 -> d_pad_left D2 = d_pad_left D -> kill_option dk kb = true ->
    exists ls, (i <- handle_remove_box U dk D2 mode kb [] (mkInput (map (mk U) PS) M ind fin) ;; output_input U o eol i) = Ok (terminated eol fin ls) /\ Forall2 comes_back lines ls.
Proof.
  intros mode kb T A B C O cN cS D Hm ES UN US HT HO HTO HI HA HC HBl Hsh. cbv zeta.
  assert (Chars : Forall (fun b => Forall (text_char U) (it_r b)) (A ++ B ++ C)).
  { assert (S : forall X, Forall (fun b => exists r, it_r b = spaces r) X -> Forall (fun b => Forall (text_char U) (it_r b)) X).
    { intros X HX. eapply Forall_impl; [|exact HX]. intros b (r & ->). apply sp_chars. }
    apply Forall_app. split; [apply S; exact HA|]. apply Forall_app. split; [|apply S; exact HC].
    pose proof text_okt as To. clear - HBl To HU. induction HBl as [|t b ts bs (r & E) _ IH]; constructor; [|apply IH; intros x Hi; apply To; right; exact Hi].
    rewrite E. apply Forall_app. split; [apply To; left; reflexivity|apply sp_chars]. }
  assert (CDD : closed_design U D ql qr) by (apply (same_closed d); assumption). assert (HPD : plain_design U D) by (apply (same_plain d); assumption).
  assert (HID : Forall (item_ok U D) (A ++ B ++ C)) by (eapply Forall_impl; [|exact HI]; intros b; apply same_item; exact ES).
  assert (Bne : B <> []) by (intros ->; inversion HBl; subst; congruence).
  set (PS := T ++ map (row D ind) (A ++ B ++ C) ++ O) in *.
  assert (HPS : Forall (fun x => Forall (text_char U) x /\ ends x /\ narrow_lead U x /\ exists r, x = spaces ind ++ r) PS).
  { apply Forall_app in HTO as [Q1 Q2]. unfold PS. apply Forall_app. split; [exact Q1|]. apply Forall_app. split; [|exact Q2]. apply Forall_forall. intros x Hx0. apply in_map_iff in Hx0 as (b & <- & Hb).
    rewrite Forall_forall in HI, HID, Chars. split; [apply item_chars; auto|]. split; [apply (row_ends U D ql qr HPD CDD); auto|]. split; [apply (row_lead U HU D ql qr HPD CDD); auto|].
    eexists. reflexivity. }
  assert (PSne : PS <> []).
  { unfold PS. destruct B as [|b B']; [congruence|]. intros F. apply app_eq_nil in F as [_ F]. apply app_eq_nil in F as [F _]. apply map_eq_nil in F. apply app_eq_nil in F as [_ F]. discriminate. }
  assert (Ex : Exists (fun p => 0 < cols U p /\ indent (pl p) = ind) PS).
  { destruct B as [|b B'] eqn:EB; [congruence|]. apply Exists_exists. exists (row D ind b). assert (Hb : In b (A ++ (b :: B') ++ C)) by (apply in_or_app; right; left; reflexivity).
    split; [unfold PS; apply in_or_app; right; apply in_or_app; left; apply in_map; exact Hb|]. rewrite Forall_forall in HI, HID. split.
    - unfold row. rewrite !(cols_app U). pose proof (wall_cols b (HI b Hb)). lia.
    - destruct (row_lead U HU D ql qr HPD CDD ind b (HID b Hb)) as [R1 R2]. rewrite indent_pl by exact R2. exact R1. }
  split; [exact PSne|]. split; [exact HPS|].
  assert (RA : exists M, forall q, handle_input U true o q [] (raw_lines (terminated eol fin PS)) = Ok (mkInput (map (mk U) PS) M ind fin)).
  { destruct (read_again U HU o d eol fin PS ind Ht He PSne HPS Hsh Ex) as (M & E). exists M. intros q. rewrite <- E. apply read_any. }
  destruct RA as (M & RA). exists M. split; [exact RA|]. intros dk D2 ES2 WF2 Epl Hk. set (inp := mkInput _ M ind fin).
  assert (Ends : forall t, In t lines -> t <> [] -> exists a c, skipn k t = a ++ [c] /\ is_blank U c = false /\ c <> 13%N).
  { intros t Hi Htn. pose proof (common_prefix _ _ Hci) as Hcp. rewrite Forall_forall in Hcp. pose proof Hl as Hl'. rewrite Forall_forall in Hl'. destruct (neat_skip U HU n k t (Hl' t Hi) (Hcp t Hi) k_or) as [[F _]|(_ & _ & _ & a & c & E' & Hb)]; [congruence|].
    exists a, c. split; [exact E'|]. split; [exact Hb|]. pose proof (text_okt t Hi) as Q. rewrite E' in Q. apply Forall_app in Q as [_ Q]. inversion Q as [|? ? (_ & _ & _ & Z & _) _]. exact Z. }
  assert (Bnb : forall t b r, In t lines -> t <> [] -> it_r b = skipn k t ++ spaces r -> blankb U (it_r b) = false).
  { intros t b r Hi Htn Er. destruct (Ends t Hi Htn) as (a & c & E' & Hb & H13). apply (blankb_has U _ c); [rewrite Er, E'; apply in_or_app; left; apply in_or_app; right; left; reflexivity|exact Hb|exact H13]. }
  destruct (remove_closed U HU D2 ql qr WF2 (same_built d D2 ES2 HB) (same_plain d D2 ES2 HP) (same_closed d D2 ql qr ES2 CD) ind mode T A B C O cN cS M fin) as (M' & I' & Er).
  { rewrite ES2. exact UN. }
  { rewrite ES2. exact US. }
  { destruct HT as (Q1 & Q2 & Q3). split; [unfold top_h; rewrite ES2; exact Q1|]. split; [|exact Q3]. intros j x Hj. rewrite (same_border d D2 ES2). apply Q2. exact Hj. }
  { destruct HO as (Q1 & Q2 & Q3). split; [unfold bottom_h; rewrite ES2; exact Q1|]. split; [|exact Q3]. intros j x Hj. rewrite (same_border d D2 ES2). apply Q2. exact Hj. }
  { eapply Forall_impl; [|exact HI]. intros b. apply same_item. exact ES2. }
  { eapply Forall_impl; [|exact HA]. intros b (r & ->). apply blankb_sp. }
  { eapply Forall_impl; [|exact HC]. intros b (r & ->). apply blankb_sp. }
  { exact Bne. }
  { intros b Hb. destruct HBl as [|t b' ts bs (r & Er) _]; [discriminate|]. cbn in Hb. injection Hb as <-. cbn in Hfirst. apply (Bnb t _ r); [left; reflexivity|exact Hfirst|exact Er]. }
  { intros b Hb. apply Forall2_rev in HBl. destruct (exists_last Hne) as (ls' & t & El). rewrite El, rev_app_distr in HBl. cbn [rev app] in HBl. rewrite El, last_last in Hlast.
    inversion HBl as [|? b' ? bs (r & Er) _ E1 E2]. rewrite <- E2 in Hb. cbn in Hb. injection Hb as <-. apply (Bnb t _ r); [rewrite El; apply in_or_app; right; left; reflexivity|exact Hlast|exact Er]. }
  assert (Erow : map (row D2 ind) (A ++ B ++ C) = map (row D ind) (A ++ B ++ C)) by (apply map_ext; intros b; apply same_row; congruence). rewrite Erow in Er. fold PS in Er. fold inp in Er.
  unfold handle_remove_box. rewrite Hk, Er. cbn [bind]. unfold apply_substitutions. rewrite subst_nil. cbn [bind fst snd i_lines i_maxline i_indent i_final_newline].
  assert (Eb : forall x, back ind mode x = spaces ind ++ x).
  { intros x. unfold back. destruct Hm as [F|F]; [|destruct F as [-> | ->]; reflexivity]. unfold ind. rewrite F. cbn. destruct (_ || _); reflexivity. }
  assert (Z : exists ls, Forall2 (fun x y => bxs_rtrim U (pl x) = Ok (pl y)) (map (fun b => back ind mode (it_r b)) B) ls /\ Forall2 comes_back lines ls).
  { assert (Hcp : forall t, In t lines -> neat U t /\ (t = [] \/ exists r, t = spaces n ++ r)).
    { intros t Hi. pose proof (common_prefix _ _ Hci) as Hcp. rewrite Forall_forall in Hcp. pose proof Hl as Hl'. rewrite Forall_forall in Hl'. auto. }
    pose proof text_okt as To. clear - HBl Hcp Eb HU To Hmode. induction HBl as [|t b ts bs (r & E) _ IH]; [exists []; split; constructor|].
    destruct IH as (ls & I1 & I2); [intros x Hi; apply Hcp; right; exact Hi|intros x Hi; apply To; right; exact Hi|].
    destruct (Hcp t (or_introl eq_refl)) as [Hn Hpre]. pose proof (chars_okt U _ (To t (or_introl eq_refl))) as Ho.
    destruct (neat_skip U HU n k t Hn Hpre k_or) as [[-> E0]|(Hne' & _ & Et & a & c & E' & Hb)].
    - exists (spaces (ind + r) :: ls). cbn [map]. rewrite Eb, E, E0. cbn [app]. unfold spaces at 1 2. rewrite <- repeat_app. split; constructor; auto.
      + apply (trim_same U); [apply (okt_spaces U HU)|]. right. right. apply Forall_forall. intros c X. apply repeat_spec in X. subst c. apply (blank32 U HU).
      + right. split; [reflexivity|eauto].
    - exists (t :: ls). cbn [map]. rewrite Eb, E. split; constructor; auto; [|left; reflexivity].
      rewrite app_assoc. rewrite <- k_ind, <- Et. apply (trim_blanks U HU).
      + apply okt_app. split; [|apply (okt_spaces U HU)]. rewrite Et. apply okt_app. split; [apply (okt_spaces U HU)|exact Ho].
      + exists (spaces k ++ a), c. rewrite Et, E', app_assoc at 1. auto.
      + apply Forall_forall. intros x X. apply repeat_spec in X. subst x. apply (blank32 U HU). }
  destruct Z as (ls & Z1 & Z2). exists ls. split; [|exact Z2].
  rewrite <- (map_map (fun b => back ind mode (it_r b)) (mk U)). apply (output_trim U o eol M' _ fin); assumption.
Qed.

Lemma removed : forall mode kb T A B C O cN cS D, kb <> 0%Z -> d_indentmode d = 116%N \/ mode = 98%N \/ mode = 0%N ->
    d_shape D = d_shape d -> d_pad_left D = over (o_pad_left o) (d_pad_left d) ->
    usage (at_side (d_shape d) BTOP) cN -> usage (at_side (d_shape d) BBOT) cS -> border_ok U d ind true cN T -> border_ok U d ind false cS O ->
    Forall (fun x => Forall (text_char U) x /\ ends x /\ narrow_lead U x /\ exists r, x = spaces ind ++ r) (T ++ O) ->
    Forall (item_ok U d) (A ++ B ++ C) -> Forall (fun b => exists r, it_r b = spaces r) A -> Forall (fun b => exists r, it_r b = spaces r) C ->
    Forall2 (fun t b => exists r, it_r b = skipn k t ++ spaces r) lines B ->
    Forall (fun p => N.of_nat (List.length p) <= line_limit)%N (T ++ map (row D ind) (A ++ B ++ C) ++ O) ->
  exists ls, boxes_remove U eol o d mode kb [] (raw_lines (terminated eol fin (T ++ map (row D ind) (A ++ B ++ C) ++ O))) = Ok (terminated eol fin ls) /\ Forall2 comes_back lines ls.
Proof.
  intros mode kb T A B C O cN cS D Hkb Hm ES EP UN US HT HO HTO HI HA HC HBl Hsh.
  destruct (removed_with mode kb T A B C O cN cS D Hm ES UN US HT HO HTO HI HA HC HBl Hsh) as (PSne & _ & M & RA & R). set (PS := T ++ map (row D ind) (A ++ B ++ C) ++ O) in *.
  unfold boxes_remove. rewrite RA. cbn [bind i_lines].
  destruct (is_nil (map (mk U) PS)) eqn:En; [destruct PS; [congruence|discriminate]|]. clear En.
  set (inp := mkInput _ M ind fin) in *. pose proof (sized_shape o d inp) as ES2. pose proof (sized_adjusted o d inp) as AD. pose proof (sized_wf U o d inp WF) as WF2. set (D2 := sized o inp d) in *.
  destruct (ad_lr_free _ _ _ _ AD ltac:(apply LA)) as [Epl _].
  apply R; [exact ES2|exact WF2|congruence|].
  unfold kill_option. rewrite ES2. pose proof (cl_sides _ _ _ _ CD BTOP) as Bt. unfold blank_side in Bt. rewrite Bt. destruct (Z.eqb_spec kb (-1)); [reflexivity|]. destruct (Z.eqb_spec kb 0); [congruence|reflexivity].
Qed.
End Fixed.
End Trip.

(** C58: a text framed with a closed box comes back when the box is removed with the same design: the output of drawing,
    read again, gives the text, whatever the text looks like (it may contain the characters of the border), whatever the padding, the minimum size
    and the vertical alignment. Only empty lines may come back as blanks. The text starts and ends with a line that is not empty,
    since blank lines at the border are removed (or padding). *)
Theorem C58_round_trip : forall U o d ql qr eol fin lines mode kb n, uctab_ok U -> wf_design U d -> built U d -> plain_design U d -> closed_design U d ql qr ->
  left_aligned o -> 1 <= o_tabstop o <= 16 -> o_tabexp o = 101%N ->
  (d_indentmode d = 116%N \/ d_indentmode d = 98%N /\ (mode = 98%N \/ mode = 0%N)) -> kb <> 0%Z ->
  eol = [10%N] \/ eol = [13%N; 10%N] -> forallb (uc_ws U) eol = true ->
  lines <> [] -> Forall (neat U) lines -> hd [] lines <> [] -> last lines [] <> [] ->
  Forall (fun t => N.of_nat (List.length t) <= line_limit)%N lines -> common_indent lines n ->
  forall color fuel out, boxes_draw U fuel color eol o d [] (raw_lines (terminated eol fin lines)) = Ok out ->
  exists ps, out = terminated eol fin ps /\
    (Forall (fun p => N.of_nat (List.length p) <= line_limit)%N ps ->
     exists ls, boxes_remove U eol o d mode kb [] (raw_lines out) = Ok (terminated eol fin ls) /\ Forall2 comes_back lines ls).
Proof.
  intros U o d ql qr eol fin lines mode kb n HU WF HB HP CD LA Ht Hx Hm Hkb He Hw Hne Hl Hfirst Hlast Hlim Hci color fuel out Ed.
  assert (Hmode : d_indentmode d = 116%N \/ d_indentmode d = 98%N) by tauto.
  destruct (read_in U HU o d eol fin lines n) as (M & Ein & HM); try assumption.
  unfold boxes_draw in Ed. rewrite Ein in Ed. cbn [bind i_lines] in Ed.
  destruct (is_nil _) eqn:En in Ed; [destruct lines; [congruence|discriminate En]|].
  destruct (drawn_lines U HU o d ql qr eol fin lines n) with (M := M) (fuel := fuel) (color := color) (out := out) as (T & A & B & C & O & cN & cS & D & E1 & E2 & E3 & E4 & E5 & E6 & E7 & E8 & E9 & E10 & E11 & E12); try assumption.
  eexists. split; [exact E1|]. intros Hs. rewrite E1. eapply (removed U HU o d ql qr eol fin lines n); try eassumption. tauto.
Qed.
Print Assumptions C58_round_trip.

(** A sufficient condition for the border lines: all lines of the left corners show something. *)
Lemma corner_shows : forall U d (top : bool) cn k c, blank_side d BLEF = false -> In c (row_text (d_shape d (left_corner top)) k) -> is_blank U c = false ->
  exists c, In c (border_row d top 0 cn k) /\ is_blank U c = false.
Proof.
  intros U d top cn k c Hb Hi Hc. exists c. split; [|exact Hc]. unfold border_row. rewrite Hb. apply in_or_app. right. apply in_or_app. left. exact Hi.
Qed.

(** *** data for the examples: several shapes on a side, different widths of the walls, blanks in the walls *)
Definition demo_wall_shapes := lookup
  [ (NW, shp false ["/*"; " *"]); (NNW, shp true ["="; "-"]); (N_, shp false ["<>"; "><"]); (NNE, shp true ["+"; "."]); (NE, shp false ["**\"; "*  "]);
    (ENE, shp false ["- *"; " *|"]); (E_, shp true ["  *"]);
    (SE, shp false ["**/"]); (SSE, shp false ["o"]); (S_, shp true ["~"]); (SW, shp false ["\*"]);
    (W_, shp true ["* "]); (WNW, shp false ["||"]) ]%string.
Definition demo_wall : design := mkDesign demo_wall_shapes 98 1 2 0 1 9 6.
Lemma wf_demo_wall : wf_design demo_tab demo_wall.
Proof. apply wf_designb_ok; [exact demo_tab_ok|vm_compute; reflexivity]. Qed.
Lemma built_demo_wall : built demo_tab demo_wall.
Proof. intros i m Hi Hm; do 16 (destruct i as [|i]; [cbn in Hm; intuition (subst m; left; vm_compute; reflexivity)|]); lia. Qed.
Lemma plain_demo_wall : plain_design demo_tab demo_wall.
Proof.
  constructor.
  - intros i m Hi Hm. apply Prop_Remove.plain_ascii. do 16 (destruct i as [|i]; [cbn in Hm; intuition (subst m; vm_compute; reflexivity)|]). lia.
  - intros i m Hi He Hm. do 16 (destruct i as [|i]; [first [destruct Hm; fail | vm_compute in He; discriminate | cbn in Hm; tauto]|]). lia.
Qed.
Lemma closed_demo_wall : closed_design demo_tab demo_wall 2 3.
Proof.
  constructor.
  - intros s. destruct s; vm_compute; reflexivity.
  - intros i Hi He. cbn in Hi. destruct Hi as [<-|[<-|[<-|[]]]]; try (vm_compute in He; discriminate); (split; [vm_compute; reflexivity|]); intros m Hm; cbn in Hm; destruct Hm as [<-|[]]; (split; [reflexivity|]).
    + exists 124%N, [124%N]. split; reflexivity.
    + exists 42%N, [32%N]. split; reflexivity.
  - intros i Hi He. cbn in Hi. destruct Hi as [<-|[<-|[<-|[]]]]; try (vm_compute in He; discriminate); (split; [vm_compute; reflexivity|]); intros m Hm; cbn in Hm.
    + destruct Hm as [<-|[<-|[]]]; (split; [reflexivity|]); [exists 42%N, [45; 32]%N|exists 124%N, [32; 42]%N]; split; reflexivity.
    + destruct Hm as [<-|[]]; (split; [reflexivity|]). exists 42%N, [32; 32]%N. split; reflexivity.
  - intros i m Hi Hm. apply Forall_forall. intros c Hc. apply (ascii_char demo_tab c demo_tab_ok).
    assert (Q : forallb is_ascii_printable (memory m) = true) by (do 16 (destruct i as [|i]; [cbn in Hm; intuition (subst m; vm_compute; reflexivity)|]); lia).
    rewrite forallb_forall in Q. apply Q. exact Hc.
  - intros cn k _ Hk. change (top_h demo_wall) with 2 in Hk. apply (corner_shows demo_tab demo_wall true cn k 42%N); [reflexivity| |reflexivity].
    destruct k as [|[|k]]; [vm_compute; auto|vm_compute; auto|lia].
  - intros cn k _ Hk. change (bottom_h demo_wall) with 1 in Hk. apply (corner_shows demo_tab demo_wall false cn k 42%N); [reflexivity| |reflexivity].
    destruct k as [|k]; [vm_compute; auto|lia].
Qed.

Definition trip2 (d : design) (kb : Z) (eol : list N) (fin : bool) (lines : list string) : res (list string * list string) :=
  out <- boxes_draw demo_tab 100 true eol opts0 d [] (raw_lines (terminated eol fin (map txt lines))) ;;
  back <- boxes_remove demo_tab eol opts0 d 0 kb [] (raw_lines out) ;;
  Ok (map str (raw_lines out), map str (raw_lines back)).
Definition nl (s : string) : string := (s ++ String "010" EmptyString)%string.

(** the text contains characters of the border *)
Example C58_example : wf_design demo_tab demo_wall /\ built demo_tab demo_wall /\ plain_design demo_tab demo_wall /\ closed_design demo_tab demo_wall 2 3 /\ left_aligned opts0 /\
  trip2 demo_wall (-1) [10]%N true ["  * int *|"; "    b|| *"; "  * *"]%string =
  Ok (map nl ["  /*=====<>++++**\"; "   *-----><....*"; "  ||           - *"; "  *  * int *|   *|"; "  *    b|| *     *"; "  *  * *         *"; "  \*~~~~~~~~~~o**/"]%string,
      map nl ["  * int *|"; "    b|| *"; "  * *"]%string).
Proof.
  split; [exact wf_demo_wall|]. split; [exact built_demo_wall|]. split; [exact plain_demo_wall|]. split; [exact closed_demo_wall|]. split; [repeat split; discriminate|].
  vm_compute. reflexivity.
Qed.
(** An empty line comes back as blanks. *)
Theorem C58_empty_line_refuted : exists lines out back, trip2 demo_wall (-1) [10]%N true lines = Ok (out, back) /\
  lines = ["a"; ""; "b"]%string /\ back = map nl ["a"; "   "; "b"]%string.
Proof. exists ["a"; ""; "b"]%string. eexists. eexists. split; [vm_compute; reflexivity|split; reflexivity]. Qed.
(** Empty lines at the start and the end of the text are lost. *)
Theorem C58_outer_lines_refuted : exists lines out back, trip2 demo_wall (-1) [10]%N true lines = Ok (out, back) /\
  lines = [""; "a"; "b"; ""]%string /\ back = map nl ["a"; "b"]%string.
Proof. exists [""; "a"; "b"; ""]%string. eexists. eexists. split; [vm_compute; reflexivity|split; reflexivity]. Qed.
(** Centred text does not come back: the blanks in front of it stay. *)
Theorem C58_centred_refuted : exists o d out back lines, d = mkDesign demo_wall_shapes 98 1 2 0 1 15 6 /\ o = mkOpts 101 8 99 116 0 0 0 (-1) (-1) (-1) (-1) /\ lines = ["a"]%string /\
  (out <- boxes_draw demo_tab 100 true [10]%N o d [] (raw_lines (terminated [10]%N true (map txt lines))) ;;
   back <- boxes_remove demo_tab [10]%N o d 0 (-1) [] (raw_lines out) ;; Ok (out, back)) = Ok (out, back) /\
  back = txt (nl "   a").
Proof. eexists. eexists. eexists. eexists. exists ["a"]%string. split; [reflexivity|]. split; [reflexivity|]. split; [reflexivity|]. split; vm_compute; reflexivity. Qed.
