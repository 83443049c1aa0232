(** * Removing a box without naming its design: C60 *)
From Coq Require Import Ascii String List Arith NArith ZArith Bool Lia.
From Verif Require Import Base BaseFacts Model_Unicode Model_Bxs Model_Shape Model_Generate Model_Input Model_Detect Model_Remove
  Model_Main Model_Mend Spec_Str Spec_Design Spec_Input Spec_Box Spec_Remove Spec_Detect Spec_Score Spec_Parser Spec_Comment Spec_Round Spec_Closed
  Proof_Str Proof_Bxs Proof_BxsOps Proof_BxsMore Proof_Shows Proof_Hmm Proof_Horiz Proof_Open Proof_Recog Proof_Found Proof_Input Proof_Rows Proof_Draw Proof_Body Proof_Comment Proof_Round Proof_Detect Proof_Score
  Demo Prop_Str Prop_Box Prop_Remove Prop_Body Prop_Detect Prop_Score Prop_Round Prop_Mend Proof_Closed Proof_Closed2 Prop_Closed Spec_Score.
Import ListNotations.
Local Open Scope nat_scope.
Local Open Scope list_scope.

Theorem C60_chosen : forall U eol o ds k d mode kb rrules raws, nth_error ds k = Some d ->
  boxes_remove_from U eol o ds k true mode kb rrules raws = boxes_remove U eol o d mode kb (rrules k) raws.
Proof.
  intros U eol o ds k d mode kb rrules raws Hk. unfold boxes_remove_from, boxes_remove. unfold rd at 1. rewrite Hk. cbn [bind].
  rewrite (read_any U o (apply_expected_size o d) d raws). destruct (handle_input U true o d [] raws) as [inp| | | |]; try reflexivity. cbn [bind].
  destruct (is_nil (i_lines inp)); [reflexivity|]. unfold select_design. cbn [bind]. rewrite (rd_set_nth _ k _ d ds Hk). reflexivity.
Qed.
Print Assumptions C60_chosen.

Section Auto.
Variable U : uctab.
Hypothesis HU : uctab_ok U.

Lemma same_scored : forall d d' L n, d_shape d' = d_shape d -> scored U d' L n <-> scored U d L n.
Proof. intros d d' L n E. destruct d as [? ? ? ? ? ? ? ?], d' as [? ? ? ? ? ? ? ?]. cbn in E. subst. reflexivity. Qed.

Lemma in_unled : forall s c, In c s -> is_blank U c = false -> In c (unled U s).
Proof.
  intros s c Hc Hb. unfold unled. rewrite <- (firstn_skipn (lead (is_blank U) s) s) in Hc. apply in_app_or in Hc as [Hc|Hc]; [|exact Hc].
  pose proof (lead_firstn_blank (is_blank U) s) as F. rewrite forallb_forall in F. specialize (F c Hc). congruence.
Qed.
Lemma in_untrailed : forall s c, In c s -> is_blank U c = false -> In c (untrailed U s).
Proof.
  intros s c Hc Hb. unfold untrailed. rewrite <- (firstn_skipn (List.length s - trail (is_blank U) s) s) in Hc. apply in_app_or in Hc as [Hc|Hc]; [exact Hc|].
  pose proof (trail_skipn_blank (is_blank U) s) as F. rewrite forallb_forall in F. specialize (F c Hc). congruence.
Qed.
Lemma unled_in : forall s c, In c (unled U s) -> In c s.
Proof. intros s c H. unfold unled in H. rewrite <- (firstn_skipn (lead (is_blank U) s) s). apply in_or_app. right. exact H. Qed.
Lemma untrailed_in : forall s c, In c (untrailed U s) -> In c s.
Proof. intros s c H. unfold untrailed in H. apply In_firstn in H. exact H. Qed.

(** a design with characters that do not occur scores nothing *)
Lemma foreign_zero : forall e L n,
  (forall i s, i < 16 -> In s (lines_of e i) -> shown U s -> exists c, In c s /\ is_blank U c = false /\ forall t, In t L -> ~ In c t) ->
  scored U e L n -> n = 0.
Proof.
  intros e L n H (nw & nnw & nn & nne & ne & ene & e' & ese & se & sse & s & ssw & sw & wsw & w & wnw & -> & A).
  destruct A as (A1 & A2 & A3 & A4 & A5 & A6 & A7 & A8 & A9 & A10 & A11 & A12 & A13 & A14 & A15 & A16).
  assert (Edge : forall b h t, In t (edge L b h) -> In t L).
  { intros b h t Ht. unfold edge in Ht. destruct b; [destruct (_ <? _); [destruct Ht|]|apply In_firstn in Ht; exact Ht].
    rewrite <- (firstn_skipn (List.length L - h) L). apply in_or_app. right. exact Ht. }
  assert (Inner : forall t, In t (inner e L) -> In t L).
  { intros t Ht. unfold inner in Ht. cbv zeta in Ht. apply In_firstn in Ht. match goal with _ : In t (skipn ?k L) |- _ => rewrite <- (firstn_skipn k L) end. apply in_or_app. right. exact Ht. }
  assert (C1 : forall b x, corner_left U e L b x -> x = 0).
  { intros b x Hx. unfold corner_left in Hx. destruct (_ || _) in Hx; [exact Hx|]. eapply counts_fun; [exact Hx|]. apply counts_none. intros (q, t) Hin [Hs (r & Er)]. cbn [fst snd] in *.
    apply in_prod_iff in Hin as [Hq Ht]. assert (B16 : (if b then SW else NW) < 16) by (destruct b; cbv; lia). destruct (H _ q B16 Hq Hs) as (c & Hc & Hb & Hno).
    apply (Hno t); [eapply Edge; exact Ht|]. apply unled_in. rewrite Er. apply in_or_app. left. apply in_unled; assumption. }
  assert (C2 : forall b x, corner_right U e L b x -> x = 0).
  { intros b x Hx. unfold corner_right in Hx. destruct (_ || _) in Hx; [exact Hx|]. eapply counts_fun; [exact Hx|]. apply counts_none. intros (q, t) Hin [Hs (r & Er)]. cbn [fst snd] in *.
    apply in_prod_iff in Hin as [Hq Ht]. assert (B16 : (if b then SE else NE) < 16) by (destruct b; cbv; lia). destruct (H _ q B16 Hq Hs) as (c & Hc & Hb & Hno).
    apply (Hno t); [eapply Edge; exact Ht|]. apply untrailed_in. rewrite Er. apply in_or_app. right. apply in_untrailed; assumption. }
  assert (C3 : forall b k x, between U e L b k x -> x = 0).
  { intros b k x Hx. unfold between in Hx. destruct (_ || _) in Hx; [exact Hx|]. eapply counts_fun; [exact Hx|]. apply counts_none.
    intros (j, t) Hin (q & x' & Eq & Hs & (y & Hy & Hx') & (p1 & p2 & Et & _)). cbn [fst snd] in *. apply in_prod_iff in Hin as [_ Ht]. apply nth_error_In in Eq.
    assert (B16 : nth k (sides b) 0 < 16) by (destruct b; do 5 (destruct k as [|k]; [cbv; lia|]); destruct k; cbv; lia).
    destruct (H _ q B16 Eq Hs) as (c & Hc & Hb & Hno). apply (Hno t); [eapply Edge; exact Ht|]. apply unled_in. rewrite Et. apply in_or_app. right. apply in_or_app. left.
    assert (Hcy : In c y) by (destruct Hy as [[_ ->]|[_ ->]]; [apply in_unled|]; assumption). destruct Hx' as [[_ ->]|[_ ->]]; [apply in_untrailed; assumption|assumption]. }
  assert (C4 : forall i x, i < 16 -> left_side U e L i x -> x = 0).
  { intros i x Hi Hx. eapply counts_fun; [exact Hx|]. apply counts_none. intros t Ht (q & Hq & Hs & (r & Er)). destruct (H i q Hi Hq Hs) as (c & Hc & Hb & Hno).
    apply (Hno t); [apply Inner; exact Ht|]. apply unled_in. rewrite Er. apply in_or_app. left. apply in_unled; assumption. }
  assert (C5 : forall i x, i < 16 -> right_side U e L i x -> x = 0).
  { intros i x Hi Hx. eapply counts_fun; [exact Hx|]. apply counts_none. intros q Hq (Hs & t & Ht & (r & Er)). destruct (H i q Hi Hq Hs) as (c & Hc & Hb & Hno).
    apply (Hno t); [apply Inner; exact Ht|]. apply untrailed_in. rewrite Er. apply in_or_app. right. apply in_untrailed; [apply in_unled|]; assumption. }
  rewrite (C1 _ _ A1), (C1 _ _ A2), (C2 _ _ A3), (C2 _ _ A4), (C3 _ _ _ A5), (C3 _ _ _ A6), (C3 _ _ _ A7), (C3 _ _ _ A8), (C3 _ _ _ A9), (C3 _ _ _ A10),
    (C4 WNW _ ltac:(apply Nat.ltb_lt; reflexivity) A11), (C4 W_ _ ltac:(apply Nat.ltb_lt; reflexivity) A12), (C4 WSW _ ltac:(apply Nat.ltb_lt; reflexivity) A13), (C5 ENE _ ltac:(apply Nat.ltb_lt; reflexivity) A14), (C5 E_ _ ltac:(apply Nat.ltb_lt; reflexivity) A15), (C5 ESE _ ltac:(apply Nat.ltb_lt; reflexivity) A16). reflexivity.
Qed.

(** the box of a closed design scores with its own design *)
Lemma counts_in : forall {A} (P : A -> Prop) l n x, counts P l n -> In x l -> P x -> 0 < n.
Proof. intros A P l n x H. induction H as [|y l n Hy H IH|y l n Hy H IH]; intros Hi Hx; [destruct Hi|lia|]. destruct Hi as [->|Hi]; [contradiction|apply IH; assumption]. Qed.
Lemma unled_sp : forall m c r, is_blank U c = false -> unled U (spaces m ++ c :: r) = c :: r.
Proof.
  intros m c r Hc. unfold unled. rewrite (lead_sp U HU). cbn [lead]. rewrite Hc, Nat.add_0_r. rewrite skipn_app, skipn_all2 by (unfold spaces; rewrite repeat_length; lia).
  unfold spaces. rewrite repeat_length, Nat.sub_diag. reflexivity.
Qed.
Lemma own_score : forall d ql qr T O D ind X n, closed_design U d ql qr -> List.length T = top_h d -> List.length O = bottom_h d -> wf_design U d ->
  Forall (item_ok U d) X -> X <> [] -> scored U d (T ++ map (row D ind) X ++ O) n -> 0 < n.
Proof.
  intros d ql qr T O D ind X n CD LT LO WF HX Xne (nw & nnw & nn & nne & ne & ene & e' & ese & se & sse & s & ssw & sw & wsw & w & wnw & -> & A).
  destruct A as (_ & _ & _ & _ & _ & _ & _ & _ & _ & _ & A11 & A12 & A13 & _).
  destruct X as [|b X]; [congruence|]. inversion HX as [|? ? (Hw & _ & _) _]; subst. destruct (wall_in d true _ Hw) as (i & m & Hi & He & Hm & Em).
  set (L := T ++ map (row D ind) (b :: X) ++ O) in *.
  assert (Hin : In (row D ind b) (inner d L)).
  { unfold inner. rewrite !(cl_sides _ _ _ _ CD).
    change (s_height (d_shape d NW)) with (top_h d). change (s_height (d_shape d SW)) with (bottom_h d).
    unfold L. rewrite skipn_app, skipn_all2, <- LT, Nat.sub_diag by lia. cbn [skipn app map]. rewrite !app_length. cbn [map List.length app]. rewrite app_length, map_length.
    replace (List.length T + S (List.length X + List.length O) - bottom_h d - List.length T) with (S (List.length X)) by lia. left. reflexivity. }
  assert (G : forall x, left_side U d L i x -> 0 < x).
  { intros x Hx. eapply counts_in; [exact Hx|exact Hin|]. destruct (cl_left _ _ _ _ CD i Hi He) as [_ Hrow]. destruct (Hrow m Hm) as (_ & c & r & Hc & E).
    exists (memory m). split; [unfold lines_of, shape_rows; apply in_map; exact Hm|]. split; [rewrite E; left; exact Hc|].
    exists ((spaces (d_pad_left D) ++ it_r b) ++ it_e b). unfold row. rewrite <- Em, E. cbn [app]. rewrite unled_sp by exact Hc. pose proof (unled_sp 0 c r Hc) as E0. cbn [spaces repeat app] in E0. rewrite E0. reflexivity. }
  cbn in Hi. destruct Hi as [<-|[<-|[<-|[]]]]; [specialize (G _ A11)|specialize (G _ A12)|specialize (G _ A13)]; lia.
Qed.

(** the characters of a border line *)
Lemma border_chars : forall d (top : bool) ind cn j c, In c (border_row d top ind cn j) -> c = 32%N \/ exists i s, i < 16 /\ In s (lines_of d i) /\ In c s.
Proof.
  intros d top ind cn j c H.
  assert (R : forall i, i < 16 -> In c (row_text (d_shape d i) j) -> exists i s, i < 16 /\ In s (lines_of d i) /\ In c s).
  { intros i Hi Hc. exists i, (row_text (d_shape d i) j). split; [exact Hi|]. split; [|exact Hc]. unfold row_text, lines_of, shape_rows in *.
    destruct (nth_in_or_default j (map memory (s_mbcs (d_shape d i))) []) as [F|F]; [exact F|]. rewrite F in Hc. destruct Hc. }
  unfold border_row in H. apply in_app_or in H as [H|H]; [left; apply repeat_spec in H; exact H|]. right. apply in_app_or in H as [H|H].
  - destruct (blank_side d BLEF); [destruct H|]. apply (R (left_corner top)); [destruct top; cbv; lia|exact H].
  - apply in_app_or in H as [H|H]; [|apply (R (right_corner top)); [destruct top; cbv; lia|exact H]].
    unfold hside_row in H. apply in_flat_map in H as (i & Hi & H). apply in_concat in H as (x & Hx & H). apply repeat_spec in Hx. subst x. unfold at_side in H.
    eapply R; [|exact H]. destruct top; cbn in Hi; destruct Hi as [<-|[<-|[<-|[]]]]; cbv; lia.
Qed.
Lemma row_chars : forall d D ind b c, item_ok U d b -> In c (row D ind b) -> c = 32%N \/ In c (it_r b) \/ exists i s, i < 16 /\ In s (lines_of d i) /\ In c s.
Proof.
  intros d D ind b c (Hw & He & _) H.
  assert (W : forall left r, In r (wall_rows d left) -> In c r -> exists i s, i < 16 /\ In s (lines_of d i) /\ In c s).
  { intros left r Hr Hc. destruct (wall_in d left r Hr) as (i & m & Hi & _ & Hm & <-). exists i, (memory m). split; [apply (wall_16 d left i Hi)|]. split; [unfold lines_of, shape_rows; apply in_map; exact Hm|exact Hc]. }
  unfold row in H. apply in_app_or in H as [H|H]; [left; apply repeat_spec in H; exact H|]. apply in_app_or in H as [H|H]; [eauto|]. apply in_app_or in H as [H|H]; [|eauto].
  apply in_app_or in H as [H|H]; [left; apply repeat_spec in H; exact H|auto].
Qed.
End Auto.

Lemma over_off : forall n, over (-1) n = n.
Proof. reflexivity. Qed.
Lemma nth_set : forall {A} k (x : A) l i, k < List.length l -> nth_error (set_nth k x l) i = if i =? k then Some x else nth_error l i.
Proof.
  intros A k x l i H. unfold set_nth. destruct (Nat.eqb_spec i k) as [->|Hne].
  - rewrite nth_error_app2 by (rewrite firstn_length; lia). rewrite firstn_length, Nat.min_l, Nat.sub_diag by lia. reflexivity.
  - revert k i H Hne. induction l as [|y l IH]; intros k i H Hne; [cbn in H; lia|]. destruct k as [|k]; cbn [firstn skipn app].
    + destruct i; [congruence|reflexivity].
    + destruct i as [|i]; [reflexivity|]. cbn [nth_error List.length] in *. apply IH; lia.
Qed.

(** C60: the text comes back also if the design is not given but detected, provided that the drawn lines have the highest score
    (C59) with the design they were drawn with; they do if the other designs use characters that occur neither in the design
    nor in the text. *)
Theorem C60_detected : forall U o ds k j d dk ql qr eol fin lines mode kb n, uctab_ok U ->
  Forall (fun d => wf_design U d /\ built U d /\ plain_design U d /\ tidy d) ds -> nth_error ds k = Some dk -> nth_error ds j = Some d -> closed_design U d ql qr ->
  left_aligned o -> o_pad_left o = (-1)%Z -> 1 <= o_tabstop o <= 16 -> o_tabexp o = 101%N ->
  (d_indentmode d = 116%N \/ d_indentmode d = 98%N /\ (mode = 98%N \/ mode = 0%N)) ->
  (kb = 1%Z \/ kb = (-1)%Z /\ (blank_side dk BTOP = false \/ blank_side dk BBOT = false)) ->
  eol = [10%N] \/ eol = [13%N; 10%N] -> forallb (uc_ws U) eol = true ->
  lines <> [] -> Forall (neat U) lines -> hd [] lines <> [] -> last lines [] <> [] ->
  Forall (fun t => N.of_nat (List.length t) <= line_limit)%N lines -> common_indent lines n ->
  forall color fuel out, boxes_draw U fuel color eol o d [] (raw_lines (terminated eol fin lines)) = Ok out ->
  exists ps, out = terminated eol fin ps /\
    ((forall i e, i <> j -> nth_error ds i = Some e -> foreign U d lines e) -> best_scored U ds ps (Some j)) /\
    (Forall (fun p => N.of_nat (List.length p) <= line_limit)%N ps -> best_scored U ds ps (Some j) ->
     exists ls, boxes_remove_from U eol o ds k false mode kb (fun _ => []) (raw_lines out) = Ok (terminated eol fin ls) /\ Forall2 comes_back lines ls).
Proof.
  intros U o ds k j d dk ql qr eol fin lines mode kb n HU HD Hk Hj CD LA Hpl Ht Hx Hm Hkb He Hw Hne Hl Hfirst Hlast Hlim Hci color fuel out Ed.
  pose proof HD as HD'. rewrite Forall_forall in HD'. destruct (HD' d (nth_error_In _ _ Hj)) as (WF & HB & HP & TD).
  assert (Hmode : d_indentmode d = 116%N \/ d_indentmode d = 98%N) by tauto.
  destruct (read_in U HU o d eol fin lines n) as (M & Ein & HM); try assumption.
  unfold boxes_draw in Ed. rewrite Ein in Ed. cbn [bind i_lines] in Ed.
  destruct (is_nil _) eqn:En in Ed; [destruct lines; [congruence|discriminate En]|].
  destruct (drawn_lines U HU o d ql qr eol fin lines n) with (M := M) (fuel := fuel) (color := color) (out := out) as (T & A & B & C & O & cN & cS & D & E1 & E2 & E3 & E4 & E5 & E6 & E7 & E8 & E9 & E10 & E11 & E12); try assumption.
  set (ind := if (d_indentmode d =? 98)%N then n else 0) in *. set (PS := T ++ map (row D ind) (A ++ B ++ C) ++ O) in *.
  assert (Xne : A ++ B ++ C <> []).
  { intros F. apply app_eq_nil in F as [_ F]. apply app_eq_nil in F as [F _]. subst B. inversion E12; subst; congruence. }
  exists PS. split; [exact E1|]. split.
  - intros HF.
    assert (Zero : forall i e m, i <> j -> nth_error ds i = Some e -> scored U e PS m -> m = 0).
    { intros i e m Hij Hi Hs. revert Hs. apply foreign_zero. intros i' s Hi' Hs Hsh. destruct (HF i e Hij Hi i' s Hi' Hs Hsh) as (c & Hc & Hb & Ht1 & Hd1).
      exists c. split; [exact Hc|]. split; [exact Hb|]. assert (H32 : c <> 32%N) by (intros ->; rewrite (blank32 U HU) in Hb; discriminate).
      assert (Own : ~ exists i s, i < 16 /\ In s (lines_of d i) /\ In c s) by (intros (a & b & X1 & X2 & X3); apply (Hd1 a b X1 X2 X3)).
      intros t Hin Hct. unfold PS in Hin. apply in_app_or in Hin as [Hin|Hin]; [|apply in_app_or in Hin as [Hin|Hin]].
      - apply In_nth_error in Hin as (q & Hq). destruct E6 as (_ & E6 & _). destruct (border_both U HU d ql qr HP CD true ind cN q) as [Bc _].
        assert (Bx : In c (border_row d true ind cN q)); [|destruct (border_chars d true ind cN q c Bx) as [F|F]; [congruence|contradiction]].
        specialize (E6 q t Hq). destruct E6 as (keep & cut & R & -> & _ & _).
        assert (ER : render (keep ++ cut) = border_row d true ind cN q) by apply R. rewrite <- ER, render_app. apply in_or_app. left. exact Hct.
      - apply in_map_iff in Hin as (b & <- & Hb'). rewrite Forall_forall in E9. destruct (row_chars U d D ind b c (E9 b Hb') Hct) as [F|[F|F]]; [congruence| |contradiction].
        assert (Sp : forall Y, Forall (fun b => exists r, it_r b = spaces r) Y -> In b Y -> False).
        { intros Y HY Hi0. rewrite Forall_forall in HY. destruct (HY b Hi0) as (r & Er). rewrite Er in F. apply repeat_spec in F. congruence. }
        apply in_app_or in Hb' as [Hb'|Hb']; [exact (Sp A E10 Hb')|]. apply in_app_or in Hb' as [Hb'|Hb']; [|exact (Sp C E11 Hb')].
        assert (X : exists t r, In t lines /\ it_r b = skipn (if (d_indentmode d =? 116)%N then 0 else n) t ++ spaces r).
        { clear - E12 Hb'. induction E12 as [|t b' ts bs (r & Er) _ IH]; [destruct Hb'|]. destruct Hb' as [->|Hb']; [exists t, r; split; [left; reflexivity|exact Er]|].
          destruct (IH Hb') as (t' & r' & A & B). exists t', r'. split; [right; exact A|exact B]. }
        destruct X as (t & r & Hti & Er). rewrite Er in F. apply in_app_or in F as [F|F]; [|apply repeat_spec in F; congruence].
        apply (Ht1 t Hti). rewrite <- (firstn_skipn (if (d_indentmode d =? 116)%N then 0 else n) t). apply in_or_app. right. exact F.
      - apply In_nth_error in Hin as (q & Hq). destruct E7 as (_ & E7 & _).
        assert (Bx : In c (border_row d false ind cS q)); [|destruct (border_chars d false ind cS q c Bx) as [F|F]; [congruence|contradiction]].
        specialize (E7 q t Hq). destruct E7 as (keep & cut & R & -> & _ & _).
        assert (ER : render (keep ++ cut) = border_row d false ind cS q) by apply R. rewrite <- ER, render_app. apply in_or_app. left. exact Hct. }
    cbn [best_scored].
    assert (PSok : Forall (fun x => okt U x /\ narrow_lead U x) PS).
    { apply Forall_app in E8 as [Q1 Q2]. unfold PS. apply Forall_app. split; [eapply Forall_impl; [|exact Q1]; intros x (X1 & _ & X3 & _); split; [apply (chars_okt U); exact X1|exact X3]|].
      apply Forall_app. split; [|eapply Forall_impl; [|exact Q2]; intros x (X1 & _ & X3 & _); split; [apply (chars_okt U); exact X1|exact X3]].
      pose proof (same_plain U d D E2 HP) as HPD. pose proof (same_closed U d D ql qr E2 CD) as CDD.
      apply Forall_forall. intros x Hx0. apply in_map_iff in Hx0 as (b & <- & Hb). rewrite Forall_forall in E9. pose proof (same_item U d D E2 b (E9 b Hb)) as Ib.
      split; [apply (row_okt U HU D ql qr HPD CDD); exact Ib|apply (row_lead U HU D ql qr HPD CDD); exact Ib]. }
    destruct (score_is U HU d WF HB HP TD (mkInput (map (mk U) PS) 0 0 true) literal) with (L := PS) as (m & _ & Hm0).
    { cbn [i_lines]. apply Forall_forall. intros l Hl0. apply in_map_iff in Hl0 as (x & <- & Hx0). rewrite Forall_forall in PSok. apply (mk_built U HU); apply PSok; exact Hx0. }
    { intros _. cbn [i_lines]. apply Forall_forall. intros l Hl0. apply in_map_iff in Hl0 as (x & <- & Hx0). rewrite Forall_forall in PSok. apply (mk_built U HU); apply PSok; exact Hx0. }
    { cbn [i_lines drops_input]. clear - PSok HU. induction PSok as [|x xs [Hx _] _ IH]; constructor; [|exact IH]. cbn [mk l_text]. rewrite mem_pl. exists (plain x). split; [|reflexivity].
      split; [apply (closed_plain _ (okt_no27 U _ Hx))|apply render_plain]. }
    exists d, m. split; [exact Hj|]. split; [exact Hm0|].
    assert (Hpos : 0 < m) by (eapply (own_score U HU d ql qr T O D ind (A ++ B ++ C)); try eassumption; [apply E6|apply E7]).
    split; [exact Hpos|]. intros i' d' n' Hd' Hs'. destruct (Nat.eq_dec i' j) as [->|Hij].
    + rewrite Hj in Hd'. injection Hd' as <-. rewrite (scored_fun _ _ _ _ _ Hs' Hm0). split; [lia|lia].
    + rewrite (Zero i' d' n' Hij Hd' Hs'). lia.
  - intros Hsh Hbest. rewrite E1.
    destruct (removed_with U HU o d ql qr eol fin lines n) with (mode := mode) (kb := kb) (T := T) (A := A) (B := B) (C := C) (O := O) (cN := cN) (cS := cS) (D := D) as (PSne & HPS & M' & RA & R); try assumption; [tauto|].
    fold ind in PSne, HPS, RA, R. fold PS in PSne, HPS, RA, R. unfold boxes_remove_from. unfold rd at 1. rewrite Hk. cbn [bind]. rewrite RA. cbn [bind i_lines].
    destruct (is_nil (map (mk U) PS)) eqn:En2; [destruct PS; [congruence|discriminate]|]. clear En2.
    set (inp := mkInput _ M' ind fin) in *. change (adjust_size_and_padding o inp (apply_expected_size o dk)) with (sized o inp dk).
    destruct (HD' dk (nth_error_In _ _ Hk)) as (WFk & HBk & HPk & TDk).
    pose proof (sized_shape o dk inp) as ESk. pose proof (sized_wf U o dk inp WFk) as WFk2. pose proof (sized_adjusted o dk inp) as ADk. set (dk' := sized o inp dk) in *.
    assert (Lk : k < List.length ds) by (apply nth_error_Some; congruence).
    assert (HD1 : Forall (fun d => wf_design U d /\ built U d /\ plain_design U d /\ tidy d) (set_nth k dk' ds)).
    { apply Forall_forall. intros e Hi. apply In_nth_error in Hi as (i & Hi). rewrite nth_set in Hi by exact Lk. destruct (Nat.eqb_spec i k); [|apply HD'; eapply nth_error_In; exact Hi].
      injection Hi as <-. split; [exact WFk2|]. split; [apply (same_built U dk); assumption|]. split; [apply (same_plain U dk); assumption|]. unfold tidy in *. rewrite ESk. exact TDk. }
    assert (PSok : Forall (fun x => okt U x /\ narrow_lead U x) PS) by (eapply Forall_impl; [|exact HPS]; intros x (X1 & _ & X3 & _); split; [apply (chars_okt U); exact X1|exact X3]).
    destruct (C59_detection U (set_nth k dk' ds) inp PS HU HD1) as (r & Er & Hr).
    { cbn [inp i_lines]. apply Forall_forall. intros l Hl0. apply in_map_iff in Hl0 as (x & <- & Hx0). rewrite Forall_forall in PSok. apply (mk_built U HU); apply PSok; exact Hx0. }
    { cbn [inp i_lines]. clear - PSok HU. induction PSok as [|x xs [Hx _] _ IH]; constructor; [|exact IH]. cbn [mk l_text]. rewrite mem_pl. exists (plain x). split; [|symmetry; apply visible_plain].
      split; [apply (closed_plain _ (okt_no27 U _ Hx))|apply render_plain]. }
    assert (Sc : forall i e m, nth_error (set_nth k dk' ds) i = Some e -> scored U e PS m -> exists e', nth_error ds i = Some e' /\ scored U e' PS m).
    { intros i e m Hi Hs. rewrite nth_set in Hi by exact Lk. destruct (Nat.eqb_spec i k) as [->|]; [|eauto]. injection Hi as <-. exists dk. split; [exact Hk|]. apply (same_scored U dk dk'); assumption. }
    assert (Sc' : forall i e m, nth_error ds i = Some e -> scored U e PS m -> exists e', nth_error (set_nth k dk' ds) i = Some e' /\ scored U e' PS m).
    { intros i e m Hi Hs. rewrite nth_set by exact Lk. destruct (Nat.eqb_spec i k) as [->|]; [|eauto]. exists dk'. split; [reflexivity|]. apply (same_scored U dk dk'); [exact ESk|]. congruence. }
    assert (Hrj : r = Some j).
    { cbn [best_scored] in Hbest. destruct Hbest as (d1 & n1 & Hd1 & Hs1 & Hp1 & Hb1). destruct (Sc' _ _ _ Hd1 Hs1) as (e1 & He1 & Hse1).
      destruct r as [i|]; cbn [best_scored] in Hr.
      - destruct Hr as (d2 & n2 & Hd2 & Hs2 & Hp2 & Hb2). destruct (Sc _ _ _ Hd2 Hs2) as (e2 & He2 & Hse2).
        destruct (Hb1 _ _ _ He2 Hse2) as [G1 G2]. destruct (Hb2 _ _ _ He1 Hse1) as [G3 G4]. f_equal.
        destruct (Nat.lt_trichotomy i j) as [F|[F|F]]; [specialize (G2 F); lia|exact F|specialize (G4 F); lia].
      - specialize (Hr _ _ _ He1 Hse1). lia. }
    subst r. unfold select_design. rewrite Er. cbn [bind].
    assert (Hdj : exists dj, nth_error (set_nth k dk' ds) j = Some dj /\ d_shape dj = d_shape d /\ wf_design U dj /\ d_pad_left dj = d_pad_left D).
    { rewrite nth_set by exact Lk. destruct (Nat.eqb_spec j k) as [->|]; [|exists d; rewrite E3, Hpl; auto]. rewrite Hk in Hj. injection Hj as ->. exists dk'. split; [reflexivity|].
      split; [exact ESk|]. split; [exact WFk2|]. destruct (ad_lr_free _ _ _ _ ADk ltac:(apply LA)) as [-> _]. congruence. }
    destruct Hdj as (dj & Edj & Sdj & Wdj & Pdj). unfold rd at 1. rewrite Edj. cbn [bind].
    apply R; [exact Sdj|exact Wdj|exact Pdj|]. unfold kill_option. rewrite ESk. unfold blank_side in Hkb.
    destruct Hkb as [->|[-> Hkb]]; [reflexivity|]. rewrite Z.eqb_refl. destruct Hkb as [-> | ->]; [reflexivity|]. rewrite andb_false_r. reflexivity.
Qed.
Print Assumptions C60_detected.

(** the same without the score: all other designs are foreign to the design and to the text *)
Theorem C60_foreign : forall U o ds k j d dk ql qr eol fin lines mode kb n, uctab_ok U ->
  Forall (fun d => wf_design U d /\ built U d /\ plain_design U d /\ tidy d) ds -> nth_error ds k = Some dk -> nth_error ds j = Some d -> closed_design U d ql qr ->
  left_aligned o -> o_pad_left o = (-1)%Z -> 1 <= o_tabstop o <= 16 -> o_tabexp o = 101%N ->
  (d_indentmode d = 116%N \/ d_indentmode d = 98%N /\ (mode = 98%N \/ mode = 0%N)) ->
  (kb = 1%Z \/ kb = (-1)%Z /\ (blank_side dk BTOP = false \/ blank_side dk BBOT = false)) ->
  eol = [10%N] \/ eol = [13%N; 10%N] -> forallb (uc_ws U) eol = true ->
  lines <> [] -> Forall (neat U) lines -> hd [] lines <> [] -> last lines [] <> [] ->
  Forall (fun t => N.of_nat (List.length t) <= line_limit)%N lines -> common_indent lines n ->
  (forall i e, i <> j -> nth_error ds i = Some e -> foreign U d lines e) ->
  forall color fuel out, boxes_draw U fuel color eol o d [] (raw_lines (terminated eol fin lines)) = Ok out ->
  exists ps, out = terminated eol fin ps /\
    (Forall (fun p => N.of_nat (List.length p) <= line_limit)%N ps ->
     exists ls, boxes_remove_from U eol o ds k false mode kb (fun _ => []) (raw_lines out) = Ok (terminated eol fin ls) /\ Forall2 comes_back lines ls).
Proof.
  intros U o ds k j d dk ql qr eol fin lines mode kb n HU HD Hk Hj CD LA Hpl Ht Hx Hm Hkb He Hw Hne Hl Hfirst Hlast Hlim Hci HF color fuel out Ed.
  destruct (C60_detected U o ds k j d dk ql qr eol fin lines mode kb n HU HD Hk Hj CD LA Hpl Ht Hx Hm Hkb He Hw Hne Hl Hfirst Hlast Hlim Hci color fuel out Ed) as (ps & E & HB & HR).
  exists ps. split; [exact E|]. intros Hs. apply HR; [exact Hs|]. apply HB. exact HF.
Qed.
Print Assumptions C60_foreign.

(** *** data for the examples: another design; one without top and bottom; the default design comes first *)
Definition demo_hash_shapes := lookup
  [ (NW, shp false ["#"]); (N_, shp true ["#"]); (NE, shp false ["#@"]); (W_, shp true ["#"]); (E_, shp true [" @"]);
    (SW, shp false ["#"]); (S_, shp true ["@"]); (SE, shp false ["@@"]) ]%string.
Definition demo_hash : design := mkDesign demo_hash_shapes 98 0 3 0 3 4 3.
Lemma wf_demo_hash : wf_design demo_tab demo_hash.
Proof. apply wf_designb_ok; [exact demo_tab_ok|vm_compute; reflexivity]. Qed.
Lemma built_demo_hash : built demo_tab demo_hash.
Proof. intros i m Hi Hm; do 16 (destruct i as [|i]; [cbn in Hm; intuition (subst m; left; vm_compute; reflexivity)|]); lia. Qed.
Lemma plain_demo_hash : plain_design demo_tab demo_hash.
Proof.
  constructor.
  - intros i m Hi Hm. apply Prop_Remove.plain_ascii. do 16 (destruct i as [|i]; [cbn in Hm; intuition (subst m; vm_compute; reflexivity)|]). lia.
  - intros i m Hi He Hm. do 16 (destruct i as [|i]; [first [destruct Hm; fail | vm_compute in He; discriminate | cbn in Hm; tauto]|]). lia.
Qed.
Lemma tidy_demo_hash : tidy demo_hash.
Proof. intros i Hi He. do 16 (destruct i as [|i]; [first [vm_compute in He; discriminate|split; reflexivity]|]). lia. Qed.
Lemma tidy_demo_wall : tidy demo_wall.
Proof. intros i Hi He. do 16 (destruct i as [|i]; [first [vm_compute in He; discriminate|split; reflexivity]|]). lia. Qed.

Definition trip3 (o : opts) (ds : list design) (k j : nat) (kb : Z) (lines : list string) : res (list string * list string) :=
  d <- rd ds j ;;
  out <- boxes_draw demo_tab 100 true [10]%N o d [] (raw_lines (terminated [10]%N true (map txt lines))) ;;
  back <- boxes_remove_from demo_tab [10]%N o ds k false 0 kb (fun _ => []) (raw_lines out) ;;
  Ok (map str (raw_lines out), map str (raw_lines back)).

Definition demo_texts : list string := ["  * int *|"; "    b|| *"; "  * *"]%string.
(** the design is detected and not the default *)
Example C60_example : Forall (fun d => wf_design demo_tab d /\ built demo_tab d /\ plain_design demo_tab d /\ tidy d) [demo_hash; demo_wall] /\
  closed_design demo_tab demo_wall 2 3 /\ foreign demo_tab demo_wall (map txt demo_texts) demo_hash /\ blank_side demo_hash BTOP = false /\
  trip3 opts0 [demo_hash; demo_wall] 0 1 (-1) demo_texts =
  Ok (map nl ["  /*=====<>++++**\"; "   *-----><....*"; "  ||           - *"; "  *  * int *|   *|"; "  *    b|| *     *"; "  *  * *         *"; "  \*~~~~~~~~~~o**/"]%string,
      map nl demo_texts).
Proof.
  split; [|split; [exact closed_demo_wall|split; [|split; [reflexivity|vm_compute; reflexivity]]]].
  - apply Forall_cons; [|apply Forall_cons; [|apply Forall_nil]]; auto 10 using wf_demo_hash, built_demo_hash, plain_demo_hash, tidy_demo_hash, wf_demo_wall, built_demo_wall, plain_demo_wall, tidy_demo_wall.
  - intros i s Hi Hs Hsh.
    assert (Hc : exists c, In c s /\ (c = 35%N \/ c = 64%N)).
    { clear Hsh. do 16 (destruct i as [|i]; [cbn in Hs; first [solve [destruct Hs]|destruct Hs as [<-|Hs]; [|destruct Hs]]; first [exists 35%N; split; [vm_compute; now auto|now left]|exists 64%N; split; [vm_compute; now auto|now right]]|]). lia. }
    destruct Hc as (c & Hc & Ec). exists c. split; [exact Hc|]. split; [destruct Ec as [-> | ->]; reflexivity|].
    assert (Q : forall t, existsb (N.eqb 35) t = false -> existsb (N.eqb 64) t = false -> ~ In c t).
    { intros t Q1 Q2 Hi0. destruct Ec as [-> | ->]; [rewrite <- not_true_iff_false, existsb_exists in Q1; apply Q1|rewrite <- not_true_iff_false, existsb_exists in Q2; apply Q2]; eexists; (split; [exact Hi0|apply N.eqb_refl]). }
    split.
    + intros t Ht. cbn in Ht. destruct Ht as [<-|[<-|[<-|[]]]]; apply Q; vm_compute; reflexivity.
    + intros i' s' Hi' Hs'. apply Q; (do 16 (destruct i' as [|i']; [cbn in Hs'; intuition (subst s'; vm_compute; reflexivity)|]); lia).
Qed.

(** With a left padding on the command line the text does not come back: it is applied to the default design only, not to
    the detected one. *)
Theorem C60_padding_refuted : exists o out back, o = mkOpts 101 8 108 116 0 0 0 (-1) (-1) (-1) 4 /\
  trip3 o [demo_hash; demo_wall] 0 1 (-1) demo_texts = Ok (out, back) /\ back = map nl ["     * int *|"; "       b|| *"; "     * *"]%string /\
  trip3 o [demo_hash; demo_wall] 1 1 (-1) demo_texts = Ok (out, map nl demo_texts).
Proof. eexists. eexists. eexists. split; [reflexivity|]. split; [vm_compute; reflexivity|]. split; [reflexivity|vm_compute; reflexivity]. Qed.
(** Whether blank lines are removed is decided by the default design: if it has no top and bottom, they are kept, though the
    detected design has both. *)
Definition demo_bar : design := mkDesign (lookup [(W_, shp true ["#"%string])]) 98 0 0 0 0 1 1.
Theorem C60_blank_lines_refuted : exists out back,
  trip3 opts0 [demo_bar; demo_wall] 0 1 (-1) ["a"]%string = Ok (out, back) /\ back = map nl ["a"; "   "]%string /\
  trip3 opts0 [demo_bar; demo_wall] 1 1 (-1) ["a"]%string = Ok (out, map nl ["a"]%string).
Proof. eexists. eexists. split; [vm_compute; reflexivity|]. split; [reflexivity|vm_compute; reflexivity]. Qed.
