(** * Designs with only a left border: what is drawn *)
From Coq Require Import Ascii String List Arith NArith ZArith Bool Lia.
From Verif Require Import Base BaseFacts Model_Unicode Model_Bxs Model_Shape Model_Generate
  Spec_Str Spec_Design Spec_Box Spec_Parser Spec_Comment Proof_Str Proof_Bxs Proof_BxsMore Proof_Shows Prop_Str Proof_Rows Proof_Draw Prop_Box.
Import ListNotations.
Local Open Scope nat_scope.
Local Open Scope list_scope.

Lemma blank_deep : forall s, blank_shape s -> isdeepempty s = true.
Proof.
  intros s (Hw & Hh & Hc & Hm). unfold isdeepempty. rewrite Hc. apply orb_true_iff. right.
  rewrite firstn_all2 by (rewrite repeat_length; lia). apply forallb_forall. intros l Hl. apply repeat_spec in Hl. subst l. apply Nat.eqb_eq.
  clear. induction (s_width s) as [|n IH]; [reflexivity|]. cbn [repeat spn N.eqb orb]. cbn. f_equal. exact IH.
Qed.
Lemma empty_deep : forall s, isempty s = true -> isdeepempty s = true.
Proof. intros s H. unfold isdeepempty. rewrite H. reflexivity. Qed.

Section Comment.
Variables (d : design) (s : list N).
Hypothesis HC : comment_design d s.

Lemma cm_deep : forall i, i < 16 -> i <> W_ -> isdeepempty (d_shape d i) = true.
Proof. intros i Hi Hn. destruct (cd_blank _ _ HC i Hi Hn) as [E|B]; [apply empty_deep|apply blank_deep]; assumption. Qed.
Lemma cm_blank : blank_side d BTOP = true /\ blank_side d BBOT = true /\ blank_side d BRIG = true.
Proof.
  unfold blank_side, empty_side. repeat split; apply forallb_forall; intros i Hi; apply cm_deep;
    cbn in Hi; repeat (destruct Hi as [<-|Hi]; [first [vm_compute; lia|discriminate]|]); contradiction.
Qed.

Lemma cm_usage : forall sd cn, In sd [BRIG; BLEF] -> usage (at_side (d_shape d) sd) cn -> cn 1 = 0 /\ cn 3 = 0.
Proof.
  intros sd cn Hs [H _]. pose proof (H 1 ltac:(cbn; auto)) as H1. pose proof (H 3 ltac:(cbn; auto)) as H3.
  destruct Hs as [<-|[<-|[]]].
  - change (at_side (d_shape d) BRIG 1) with (d_shape d ENE) in H1. change (at_side (d_shape d) BRIG 3) with (d_shape d ESE) in H3.
    rewrite (proj1 (cd_gone _ _ HC ENE ltac:(cbn; auto 10))) in H1. rewrite (proj1 (cd_gone _ _ HC ESE ltac:(cbn; auto 10))) in H3. auto.
  - change (at_side (d_shape d) BLEF 1) with (d_shape d WSW) in H1. change (at_side (d_shape d) BLEF 3) with (d_shape d WNW) in H3.
    rewrite (proj1 (cd_gone _ _ HC WSW ltac:(cbn; auto 10))) in H1. rewrite (proj1 (cd_gone _ _ HC WNW ltac:(cbn; auto 10))) in H3. auto.
Qed.

Lemma rep_one : forall (A : Type) (x : A) n, concat (repeat [x] n) = repeat x n.
Proof. intros A x n. induction n; cbn; [reflexivity|f_equal; assumption]. Qed.

Lemma cm_left : forall cn v, usage (at_side (d_shape d) BLEF) cn -> tot (fun i => s_height (at_side (d_shape d) BLEF i)) cn [1; 2; 3] = v ->
  left_rows d cn = repeat s v.
Proof.
  intros cn v Hu Ht. destruct (cm_usage BLEF cn ltac:(cbn; auto) Hu) as [E1 E3]. destruct cm_blank as (B1 & B2 & _).
  destruct (cd_left _ _ HC) as (Em & Eh & _).
  unfold left_rows, unless. rewrite B1, B2. cbn [app]. rewrite app_nil_r. unfold vside_rows. cbn [flat_map]. rewrite E1, E3.
  cbn [repeat concat app]. rewrite app_nil_r.
  change (at_side (d_shape d) BLEF 2) with (d_shape d W_). rewrite Em, rep_one. f_equal.
  unfold tot, sum in Ht. cbn [map fold_right] in Ht. rewrite E1, E3 in Ht. change (at_side (d_shape d) BLEF 2) with (d_shape d W_) in Ht. rewrite Eh in Ht. lia.
Qed.
Lemma cm_right : forall cn v, usage (at_side (d_shape d) BRIG) cn -> tot (fun i => s_height (at_side (d_shape d) BRIG i)) cn [1; 2; 3] = v ->
  right_rows d cn = repeat [32%N] v.
Proof.
  intros cn v Hu Ht. destruct (cm_usage BRIG cn ltac:(cbn; auto) Hu) as [E1 E3]. destruct cm_blank as (B1 & B2 & _).
  destruct (cd_one _ _ HC E_ ltac:(cbn; auto 10)) as [Ew Eh].
  destruct (cd_blank _ _ HC E_ ltac:(vm_compute; lia) ltac:(discriminate)) as [X|(_ & _ & _ & Em)].
  { rewrite (cd_there _ _ HC) in X by (cbn; auto 10). discriminate X. }
  rewrite Ew, Eh in Em. cbn [repeat] in Em.
  unfold right_rows, unless. rewrite B1, B2. cbn [app]. rewrite app_nil_r. unfold vside_rows. cbn [flat_map]. rewrite E1, E3.
  cbn [repeat concat app]. rewrite app_nil_r.
  change (at_side (d_shape d) BRIG 2) with (d_shape d E_). rewrite Em, rep_one. f_equal.
  unfold tot, sum in Ht. cbn [map fold_right] in Ht. rewrite E1, E3 in Ht. change (at_side (d_shape d) BRIG 2) with (d_shape d E_) in Ht. rewrite Eh in Ht. lia.
Qed.

Lemma cm_height : forall sd n, In sd [BRIG; BLEF] -> 1 <= n -> reachable s_height (at_side (d_shape d) sd) n.
Proof.
  intros sd n Hs Hn.
  assert (X : exists e, isempty (at_side (d_shape d) sd 2) = false /\ s_elastic (at_side (d_shape d) sd 2) = true /\ s_height (at_side (d_shape d) sd 2) = 1 /\
     forall j, In j [1; 3] -> isempty (at_side (d_shape d) sd j) = true /\ s_elastic (at_side (d_shape d) sd j) = e /\ e = false).
  { exists false. destruct Hs as [<-|[<-|[]]].
    - split; [apply (cd_there _ _ HC); cbn; auto 10|]. split; [apply (cd_elastic _ _ HC); cbn; auto 10|]. split; [apply (cd_one _ _ HC); cbn; auto 10|].
      intros j [<-|[<-|[]]]; (split; [apply (cd_gone _ _ HC); cbn; auto 10|]; split; [apply (cd_gone _ _ HC); cbn; auto 10|reflexivity]).
    - destruct (cd_left _ _ HC) as (_ & Eh & Ee & Ei). split; [exact Ei|]. split; [exact Ee|]. split; [exact Eh|].
      intros j [<-|[<-|[]]]; (split; [apply (cd_gone _ _ HC); cbn; auto 10|]; split; [apply (cd_gone _ _ HC); cbn; auto 10|reflexivity]). }
  destruct X as (e & Ei & Ee & Eh & Ej). left. destruct (Ej 1 ltac:(cbn; auto)) as (I1 & L1 & ->). destruct (Ej 3 ltac:(cbn; auto)) as (I3 & L3 & _). split.
  - exists 2. split; [cbn; auto|]. split; [exact Ei|]. split; [exact Ee|]. intros j [<-|[<-|[<-|[]]]] Hj; congruence.
  - exists 2, n. split; [cbn; auto|]. split; [exact Ee|]. split; [exact Hn|]. unfold rigid_len. unfold sum. cbn [map fold_right]. rewrite L1, L3, Ee, Eh. unfold size. rewrite I1, I3. lia.
Qed.
End Comment.

Lemma comment_sized : forall o inp d s, comment_design d s -> comment_design (sized o inp d) s.
Proof. intros o inp d s [A B C D E F G]. constructor; rewrite sized_shape; assumption. Qed.

Lemma zip3_const : forall ind l r cs, zip3 ind (repeat l (List.length cs)) cs (repeat r (List.length cs)) = map (fun c => ind ++ l ++ c ++ r) cs.
Proof. intros ind l r cs. induction cs as [|c cs IH]; [reflexivity|]. cbn. f_equal. exact IH. Qed.

Lemma spaces_snoc : forall n, spaces n ++ [32%N] = spaces (S n).
Proof. intros n. unfold spaces. change [32%N] with (repeat 32%N 1). rewrite <- repeat_app, Nat.add_comm. reflexivity. Qed.

Theorem comment_rows : forall U o d s inp fuel rows, uctab_ok U -> wf_design U d -> comment_design d s -> wf_input U o d inp -> plain_options o (d_pad_top d) (d_pad_bottom d) ->
  d_minheight d <= 3 -> draw_rows U fuel o d inp = Ok rows ->
  Forall2 (fun l row => exists txt r, memory row = spaces (box_indent d inp) ++ (if blank_side d BLEF then [] else s) ++
       spaces (over (o_pad_left o) (d_pad_left d)) ++ txt ++ spaces (S r) /\
       (txt = memory (l_text l) \/ txt = [] /\ forall ts, reads (memory (l_text l)) ts -> visible ts = [])) (i_lines inp) rows.
Proof.
  intros U o d s inp fuel rows HU WF CD WI (HJ & HA1 & HA2 & HW & HH & HP1 & HP2) Hmh H.
  destruct (draw_picture U HU o d inp fuel rows WF WI H) as (cN & cS & cW & cE & w & v & f1 & f2 & hpl & hpr & cs & P).
  pose proof (sized_adjusted o d inp) as A. pose proof (comment_sized o inp d s CD) as CD2.
  assert (Ei : box_indent d inp = box_indent (sized o inp d) inp) by (unfold box_indent; rewrite sized_indentmode; reflexivity).
  assert (Eb : blank_side d BLEF = blank_side (sized o inp d) BLEF) by (unfold blank_side; rewrite sized_shape; reflexivity).
  assert (Hl : 1 <= i_num_lines inp).
  { pose proof (wi_some _ _ _ _ WI) as X. unfold i_num_lines. destruct (i_lines inp); [congruence|cbn; lia]. }
  assert (Eth : top_h (sized o inp d) = 1 /\ bottom_h (sized o inp d) = 1).
  { unfold top_h, bottom_h. split; apply (cd_wide _ _ CD2); cbn; auto. }
  assert (Emh : d_minheight (sized o inp d) <= 3).
  { clear -HP1 HP2 HH Hmh. unfold sized, adjust_size_and_padding.
    change (d_pad_top (apply_expected_size o d)) with (d_pad_top d). change (d_pad_bottom (apply_expected_size o d)) with (d_pad_bottom d).
    rewrite HP1, HP2. unfold fit_pad at 1. cbn [Nat.add Nat.eqb]. destruct (fit_pad _ _ _ _ _ _) as [[pl pr] mw]. cbn [d_minheight].
    unfold apply_expected_size. cbn [d_minheight]. rewrite HH. cbn [Nat.eqb negb]. exact Hmh. }
  assert (Ev : v = i_num_lines inp).
  { destruct (pc_v _ _ _ _ _ _ _ _ _ _ _ _ _ _ _ _ P) as [(_ & _ & L & _) M].
    assert (X : height_ok (sized o inp d) inp (i_num_lines inp)).
    { split; [apply (cm_height _ s CD2); [cbn; auto|exact Hl]|]. split; [apply (cm_height _ s CD2); [cbn; auto|exact Hl]|]. split; lia. }
    specialize (M _ X). lia. }
  pose proof (pc_f _ _ _ _ _ _ _ _ _ _ _ _ _ _ _ _ P) as Hf. assert (f1 = 0) by lia. assert (f2 = 0) by lia. subst f1 f2.
  destruct (cm_blank _ s CD2) as (B1 & B2 & B3).
  pose proof (pc_rows _ _ _ _ _ _ _ _ _ _ _ _ _ _ _ _ P) as Er.
  pose proof (pc_len_m _ _ _ _ _ _ _ _ _ _ _ _ _ _ _ _ P) as Em.
  pose proof (pc_contents _ _ _ _ _ _ _ _ _ _ _ _ _ _ _ _ P) as Hc.
  unfold mid_rows, unless in Er, Em. rewrite B1, B2 in Er, Em. cbn [repeat app] in Er, Em. rewrite app_nil_r in Er, Em.
  rewrite (cm_left _ s CD2 cW v (pc_useW _ _ _ _ _ _ _ _ _ _ _ _ _ _ _ _ P) (pc_totW _ _ _ _ _ _ _ _ _ _ _ _ _ _ _ _ P)) in Er.
  rewrite (cm_right _ s CD2 cE v (pc_useE _ _ _ _ _ _ _ _ _ _ _ _ _ _ _ _ P) (pc_totE _ _ _ _ _ _ _ _ _ _ _ _ _ _ _ _ P)) in Er.
  assert (Ecs : List.length cs = v) by (rewrite Ev; unfold i_num_lines; symmetry; eapply Forall2_len; exact Hc).
  assert (Er2 : map memory rows = map (fun c => spaces (box_indent d inp) ++ (if blank_side d BLEF then [] else s) ++ c ++ [32%N]) cs).
  { rewrite Er, Ei, Eb, <- zip3_const, <- Em, Ecs. destruct (blank_side (sized o inp d) BLEF); reflexivity. }
  assert (Eh : hpl = over (o_pad_left o) (d_pad_left d)).
  { pose proof (pc_halign _ _ _ _ _ _ _ _ _ _ _ _ _ _ _ _ P) as X.
    assert (Q : ~ squeezed o (sized o inp d) (w - i_maxline inp)) by (intros (F & _); congruence).
    destruct (X Q) as (_ & _ & _ & Y). unfold halign in Y. apply N.eqb_neq in HA1. apply N.eqb_neq in HA2. rewrite HA1, HA2 in Y.
    rewrite Y. apply (ad_lr_free _ _ _ _ A). exact HW. }
  clear - Hc HJ Er2 Eh. revert rows Er2.
  induction Hc as [|l c ls cs (sl & k & sr & (t & ts & tx & cc & -> & R1 & R2 & V & K & KV & _) & _ & J) _ IH]; intros rows Er2.
  - destruct rows; [constructor|discriminate Er2].
  - destruct rows as [|row rows]; [discriminate Er2|]. cbn [map] in Er2. injection Er2 as E1 E2. constructor; [|apply IH; exact E2].
    destruct (J ts R1) as [J1 _]. destruct (J1 (or_intror HJ)) as [-> ->]. exists t, sr. rewrite E1. split.
    + rewrite <- Eh, <- spaces_snoc, <- !app_assoc. reflexivity.
    + destruct (KV eq_refl) as [->|[Hv ->]]; [left; reflexivity|right].
      split; [reflexivity|]. intros ts' R'. destruct (reading_total_unique (memory (l_text l))) as (t0 & _ & Hu).
      rewrite <- (Hu ts' R'), (Hu ts R1). exact Hv.
Qed.

Theorem comment_terminates : forall U o d s inp, uctab_ok U -> wf_design U d -> comment_design d s -> wf_input U o d inp ->
  exists fuel rows, draw_rows U fuel o d inp = Ok rows.
Proof.
  intros U o d s inp HU WF CD WI. apply (draw_ok_iff U HU o d inp WF WI).
  assert (X : forall sd dim, (exists e, isempty (at_side (d_shape d) sd 2) = e /\ s_elastic (at_side (d_shape d) sd 2) = true /\ dim (at_side (d_shape d) sd 2) = 1 /\
     forall j, In j [1; 3] -> isempty (at_side (d_shape d) sd j) = true /\ s_elastic (at_side (d_shape d) sd j) = false) ->
     period dim (at_side (d_shape d) sd) = 1 /\ In 0 (offsets dim (at_side (d_shape d) sd))).
  { intros sd dim (e & _ & E2 & E3 & E4). destruct (E4 1 ltac:(cbn; auto)) as [I1 L1]. destruct (E4 3 ltac:(cbn; auto)) as [I3 L3].
    unfold period, offsets, rigid_len, size. unfold sum. cbn [map fold_right]. rewrite L1, L3, E2, E3, I1, I3. cbn. auto. }
  assert (Y : forall sd, (exists e, isempty (at_side (d_shape d) sd 2) = e /\ s_elastic (at_side (d_shape d) sd 2) = true /\
     (match sd with BTOP | BBOT => s_width | _ => s_height end) (at_side (d_shape d) sd 2) = 1 /\
     forall j, In j [1; 3] -> isempty (at_side (d_shape d) sd j) = true /\ s_elastic (at_side (d_shape d) sd j) = false)).
  { intros sd. eexists. split; [reflexivity|]. destruct sd.
    1-3: split; [apply (cd_elastic _ _ CD); cbn; auto 10|]; split; [apply (cd_one _ _ CD); cbn; auto 10|];
      intros j [<-|[<-|[]]]; apply (cd_gone _ _ CD); cbn; auto 10.
    destruct (cd_left _ _ CD) as (_ & Eh & Ee & Ei). split; [exact Ee|]. split; [exact Eh|].
    intros j [<-|[<-|[]]]; apply (cd_gone _ _ CD); cbn; auto 10. }
  split; exists 0, 0; (split; [apply X; apply Y|]; split; [apply X; apply Y|reflexivity]).
Qed.
