(** * The rows of the drawn box *)
From Coq Require Import List Arith NArith ZArith Bool Lia.
From Verif Require Import Base BaseFacts Model_Unicode Model_Bxs Model_Shape Model_Generate
  Spec_Str Spec_Design Spec_Box Proof_Str Proof_Bxs Proof_BxsOps Proof_BxsMore Proof_Shows Proof_Precalc Proof_Sides Proof_Generate.
Import ListNotations.

Section Rows.
Variable U : uctab.
Hypothesis HU : uctab_ok U.

(** ** Indentation of the box *)
Lemma cstr_spaces : forall n, cstr (repeat 32%N n ++ [0%N]) = repeat 32%N n.
Proof. induction n as [|n IH]; [reflexivity|]. cbn. rewrite IH. reflexivity. Qed.

Lemma indent_spc_free : forall o d inp, tab_free_indent o d inp -> 
  indent_spc o d inp = repeat 32%N (box_indent d inp).
Proof.
  intros o d inp H. unfold indent_spc, box_indent, ch.
  destruct (N.eqb_spec (d_indentmode d) 98) as [E|E]; [|reflexivity].
  destruct (N.eqb_spec (o_tabexp o) 117) as [E'|E']; [|reflexivity].
  destruct H as [H|[H|H]]; [congruence|congruence|].
  rewrite Nat.div_small, Nat.mod_small by assumption. reflexivity.
Qed.

Lemma tabbify_free : forall o d inp n, tab_free_indent o d inp -> n < i_num_lines inp ->
  tabbify_indent o inp n (indent_spc o d inp) = Ok (repeat 32%N (box_indent d inp)).
Proof.
  intros o d inp n H Hn. rewrite (indent_spc_free o d inp H). unfold tabbify_indent.
  destruct (N.eqb_spec (o_tabexp o) 107) as [E|E]; unfold ch; rewrite ?E; cbn [N.eqb Pos.eqb negb];
    [|apply N.eqb_neq in E; rewrite E; reflexivity].
  destruct (nth_error (i_lines inp) n) as [l|] eqn:El; [|apply nth_error_None in El; unfold i_num_lines in Hn; lia].
  rewrite repeat_length. destruct (Nat.eqb_spec (box_indent d inp) 0) as [E0|E0]; [rewrite E0; reflexivity|].
  assert (Hlt : i_indent inp < o_tabstop o).
  { destruct H as [H|[H|H]]; [congruence| |exact H].
    exfalso. apply E0. unfold box_indent, ch. apply N.eqb_neq in H. rewrite H. reflexivity. }
  assert (Hl : forall tabs buf len, tabbify_loop tabs (o_tabstop o) (i_indent inp) (box_indent d inp) buf len = Ok (buf, len)).
  { intros [|t tabs] buf len; [reflexivity|]. cbn [tabbify_loop].
    destruct (t <? box_indent d inp); [|reflexivity].
    destruct (Nat.ltb_spec (i_indent inp) (t + (o_tabstop o - t mod o_tabstop o))) as [_|Hb]; [reflexivity|].
    exfalso. pose proof (Nat.mod_le t (o_tabstop o)). lia. }
  rewrite Hl. cbn [bind fst]. rewrite cstr_spaces. reflexivity.
Qed.

(** ** Justification *)
Lemma cut_front_closed : forall ts n, closedU U ts ->
  exists b, bxs_cut_front U (bx U ts) n = Ok (bx U b) /\ closedU U b /\ visible b = skipn n (visible ts) /\
    (length (visible ts) <= n -> b = []) /\
    (n < length (visible ts) -> exists a, ts = a ++ b /\ visible a = firstn n (visible ts) /\
       (0 < n -> exists e c z, b = e ++ Vis c :: z /\ attached a e)) /\
    (n = 0 -> b = ts \/ visible ts = [] /\ b = []).
Proof.
  intros ts n Hc. destruct (Nat.le_gt_cases (length (visible ts)) n) as [Hle|Hgt].
  - exists []. unfold bxs_cut_front. cbn [bx num_chars_visible].
    rewrite (proj2 (Nat.leb_le _ _) Hle). split; [reflexivity|].
    split; [exact (closedU_spaces U HU 0)|]. split; [rewrite skipn_all2 by exact Hle; reflexivity|].
    split; [auto|]. split; [lia|]. intros ->. right. split; [|reflexivity]. destruct (visible ts); [reflexivity|cbn in Hle; lia].
  - destruct (cut_front_good U HU ts n (closedU_good U ts Hc)) as (b & E & Hg & Hv & a & Ha & Hva & Hat).
    specialize (Ha Hgt). exists b. split; [exact E|].
    split; [rewrite Ha in Hc; apply closedU_app_inv in Hc; tauto|]. split; [exact Hv|]. split; [lia|].
    split; [intros _; exists a; split; [exact Ha|]; split; [exact Hva|]; intros Hp; apply Hat; lia|]. intros ->.
    left. unfold bxs_cut_front in E. cbn [bx num_chars_visible] in E.
    destruct (Nat.leb_spec (length (visible ts)) 0); [lia|]. cbn [Nat.eqb] in E.
    assert (E' : memory (bx U ts) = memory (bx U b)) by congruence.
    cbn [bx memory] in E'. clear E. symmetry. rewrite Ha in Hc at 1.
    apply closedU_app_inv in Hc as [Hca Hcb]. assert (Hct : closedU U ts) by (rewrite Ha; apply closedU_app; assumption).
    apply reading_unique; [apply Hct|apply Hcb|exact E'].
Qed.

Lemma columns_narrow : forall l n, n <= lead (is_blank U) l -> narrow_lead U l ->
  sum (map (char_cols U) (firstn n l)) = n.
Proof.
  intros l n Hn Hl. unfold narrow_lead in Hl.
  assert (Hf : Forall (fun c => char_cols U c = 1) (firstn n l)).
  { replace (firstn n l) with (firstn n (firstn (lead (is_blank U) l) l)).
    - clear - Hl. revert n. induction Hl as [|c r Hc Hr IH]; intros [|n]; cbn; constructor; auto.
    - rewrite firstn_firstn. f_equal. lia. }
  pose proof (lead_le (is_blank U) l) as Hle.
  assert (Hlen : length (firstn n l) = n) by (rewrite firstn_length; lia).
  rewrite <- Hlen at 2. clear - Hf. induction Hf as [|c r Hc Hr IH]; [reflexivity|].
  cbn [map length]. rewrite sum_cons, Hc, IH. reflexivity.
Qed.

Lemma columns_sum : forall cw ts, columns cw ts = sum (map cw (visible ts)).
Proof. intros cw ts. unfold columns. induction (visible ts) as [|c l IH]; [reflexivity|]. cbn [map fold_right]. rewrite sum_cons, IH. reflexivity. Qed.

Lemma empty_line_spec : forall l ts, l_text l = bx U ts -> closedU U ts ->
  (empty_line U l = Ok true /\ blank_text U (render ts)) \/
  (empty_line U l = Ok false /\ ~ blank_text U (render ts) /\ forallb (is_blank U) (visible ts) = false).
Proof.
  intros l ts El Hc. unfold empty_line. rewrite El, is_blank_bx.
  destruct (forallb (fun c => N.eqb c char_tab || N.eqb c char_cr || uc_is_blank U c) (visible ts)) eqn:E.
  - left. rewrite orb_true_r. split; [reflexivity|].
    intros ts' [Hok' Er] c Hin. assert (ts' = ts) as ->.
    { apply reading_unique; auto. destruct Hc as ([[Hok _] _] & _). exact Hok. }
    rewrite forallb_forall in E. specialize (E c Hin). rewrite !orb_true_iff in E.
    unfold is_blank. rewrite orb_true_iff. destruct E as [[E|E]|E]; [auto| |auto].
    right. apply N.eqb_eq in E. exact E.
  - right. destruct (Nat.eqb_spec (length (render ts)) 0) as [E0|_].
    { exfalso. rewrite render_length in E0. destruct (visible ts); [discriminate|cbn in E0; lia]. }
    split; [reflexivity|].
    assert (Hn : exists c, In c (visible ts) /\ is_blank U c = false /\ c <> 13%N).
    { clear - E. induction (visible ts) as [|c r IH]; [discriminate|]. cbn [forallb] in E.
      apply andb_false_iff in E as [E|E].
      - exists c. rewrite !orb_false_iff in E. destruct E as [[E1 E2] E3]. split; [left; reflexivity|].
        unfold is_blank. rewrite E1, E3. split; [reflexivity|]. apply N.eqb_neq. exact E2.
      - destruct (IH E) as (x & Hx & H1 & H2). exists x. split; [right; exact Hx|auto]. }
    destruct Hn as (c & Hin & Hb & H13). split.
    + intros Hbl. destruct (Hbl ts) with (c := c) as [Hx|Hx]; try congruence. split; [|reflexivity].
      destruct Hc as ([[Hok _] _] & _). exact Hok.
    + destruct (forallb (is_blank U) (visible ts)) eqn:Ef; [|reflexivity].
      rewrite forallb_forall in Ef. specialize (Ef c Hin). congruence.
Qed.

Lemma narrow_term : forall l, narrow_indent (is_blank U) (term_width U) l -> narrow_lead U l.
Proof.
  intros l H. unfold narrow_lead, narrow_indent in *. eapply Forall_impl; [|exact H].
  intros c Hc. cbn in Hc. rewrite char_cols_term; assumption.
Qed.

Lemma lead_le_cols : forall l, lead_cols U l <= sum (map (char_cols U) l).
Proof.
  intros l. unfold lead_cols. rewrite <- (firstn_skipn (lead (is_blank U) l) l) at 3.
  rewrite map_app, sum_app. lia.
Qed.

Lemma justify_spec : forall o d inp l ts skew, l_text l = bx U ts -> closedU U ts ->
  columns (char_cols U) ts <= i_maxline inp ->
  (o_justify o <> 0%N -> ~ blank_text U (render ts) ->
     narrow_lead U (visible ts) /\ (d_indentmode d = 116%N -> i_indent inp <= lead (is_blank U) (visible ts))) ->
  exists sh, justify_line U o d inp l skew = Ok sh /\
    (sh + Z.of_nat (columns (char_cols U) ts) <= Z.of_nat (i_maxline inp))%Z /\
    ((sh < 0)%Z -> ~ blank_text U (render ts) /\ o_justify o <> 0%N) /\
    (- Z.of_nat (lead (is_blank U) (visible ts)) <= sh)%Z /\
    (blank_text U (render ts) -> sh = 0%Z) /\ (o_justify o = 0%N -> sh = 0%Z) /\
    (~ blank_text U (render ts) ->  
       justified o d inp (Z.to_nat (Z.of_nat (lead (is_blank U) (visible ts)) + sh))
          (columns (char_cols U) ts - lead (is_blank U) (visible ts))).
Proof.
  intros o d inp l ts skew El Hc Hw Hlead. unfold justify_line.
  destruct (empty_line_spec l ts El Hc) as [[E Hb]|[E [Hb Hnb]]]; rewrite E; cbn [bind].
  { exists 0%Z. split; [reflexivity|]. split; [lia|]. split; [lia|]. split; [lia|]. repeat split; auto; contradiction. }
  destruct (N.eqb_spec (o_justify o) 0) as [E0|E0].
  { exists 0%Z. split; [reflexivity|]. split; [lia|]. split; [lia|]. split; [lia|].
    split; [auto|]. split; [auto|]. intros _. unfold justified. rewrite E0. repeat split; discriminate. }
  destruct (Hlead E0 Hb) as [Hnl Hind]. clear Hlead.
  rewrite El. cbn [bx num_columns Model_Bxs.indent].
  rewrite (lead_cols_narrow U) by exact Hnl.
  set (n := lead (is_blank U) (visible ts)) in *. set (W := columns (char_cols U) ts) in *.
  assert (HnW : n <= W).
  { pose proof (lead_le_cols (visible ts)) as H. rewrite (lead_cols_narrow U) in H by exact Hnl.
    unfold W. rewrite columns_sum. exact H. }
  rewrite subz_le by exact HnW. cbn [bind].
  assert (Hneg : forall sh, (sh < 0)%Z -> ~ blank_text U (render ts) /\ o_justify o <> 0%N) by auto.
  assert (Hz : forall sh : Z, blank_text U (render ts) -> sh = 0%Z) by (intros; contradiction).
  assert (Hz0 : forall sh : Z, o_justify o = 0%N -> sh = 0%Z) by (intros; contradiction).
  unfold ch. unfold justified, block_start.
  destruct (N.eqb_spec (o_justify o) 108) as [EJ|EJ].
  { destruct (N.eqb_spec (d_indentmode d) 116) as [ET|ET].
    - specialize (Hind ET). eexists. split; [reflexivity|]. split; [lia|]. split; [auto|]. split; [lia|].
      split; [auto|]. split; [auto|]. intros _. rewrite EJ. repeat split; try discriminate. lia.
    - eexists. split; [reflexivity|]. split; [lia|]. split; [auto|]. split; [lia|].
      split; [auto|]. split; [auto|]. intros _. rewrite EJ. repeat split; try discriminate. lia. }
  destruct (N.eqb_spec (o_justify o) 99) as [EJ2|EJ2].
  { destruct (N.eqb_spec (d_indentmode d) 116) as [ET|ET].
    - specialize (Hind ET). rewrite subz_le by lia. cbn [bind]. rewrite subz_le by lia. cbn [bind].
      set (b := i_maxline inp - i_indent inp - (W - n)).
      pose proof (Nat.div_mod b 2 ltac:(lia)) as Hdm. pose proof (Nat.mod_upper_bound b 2 ltac:(lia)) as Hm.
      set (q := b / 2) in *. set (r := b mod 2) in *.
      set (shf := if negb (r =? 0) && (skew - Z.of_nat (i_indent inp) =? 1)%Z then S (q + i_indent inp) else q + i_indent inp).
      assert (Hs : i_indent inp + q <= shf <= i_indent inp + q + r).
      { unfold shf. destruct (Nat.eqb_spec r 0); cbn [negb andb]; [lia|].
        destruct (_ =? 1)%Z; lia. }
      eexists. split; [reflexivity|]. split; [lia|]. split; [auto|]. split; [lia|].
      split; [auto|]. split; [auto|]. intros _. rewrite EJ2. repeat split; try discriminate.
      intros _. exists (shf - i_indent inp), (i_maxline inp - (shf + (W - n))). unfold b in *. lia.
    - rewrite subz_le by lia. cbn [bind].
      set (b := i_maxline inp - (W - n)).
      pose proof (Nat.div_mod b 2 ltac:(lia)) as Hdm. pose proof (Nat.mod_upper_bound b 2 ltac:(lia)) as Hm.
      set (q := b / 2) in *. set (r := b mod 2) in *.
      set (shf := if negb (r =? 0) && (skew =? 1)%Z then S q else q).
      assert (Hs : q <= shf <= q + r).
      { unfold shf. destruct (Nat.eqb_spec r 0); cbn [negb andb]; [lia|].
        destruct (_ =? 1)%Z; lia. }
      eexists. split; [reflexivity|]. split; [lia|]. split; [auto|]. split; [lia|].
      split; [auto|]. split; [auto|]. intros _. rewrite EJ2. repeat split; try discriminate.
      intros _. exists shf, (i_maxline inp - (shf + (W - n))). unfold b in *. lia. }
  destruct (N.eqb_spec (o_justify o) 114) as [EJ3|EJ3].
  { rewrite subz_le by lia. cbn [bind]. eexists. split; [reflexivity|]. split; [lia|]. split; [auto|]. split; [lia|].
    split; [auto|]. split; [auto|]. intros _. rewrite EJ3. repeat split; try discriminate. lia. }
  eexists. split; [reflexivity|]. split; [lia|]. split; [lia|]. split; [lia|].
  split; [auto|]. split; [auto|]. intros _. repeat split; congruence.
Qed.

(** where [justified] places the first non-blank, in terms of the row *)
Definition just_row (o : opts) (d : design) (inp : input) (s : list N) (hpl l k : nat) : Prop :=
  forall ts, reads s ts ->
    (blank_text U s \/ o_justify o = 0%N -> l = hpl /\ k = 0) /\
    (~ blank_text U s -> exists pos, l + lead (is_blank U) (visible ts) = hpl + pos + k /\
        justified o d inp pos (columns (term_width U) ts - lead (is_blank U) (visible ts))).

Lemma content_spec : forall o d inp ti l s hpl hpr w ind lft rgt,
  nth_error (i_lines inp) ti = Some l -> wf_input U o d inp -> s = memory (l_text l) ->
  hpl + i_maxline inp + hpr = w ->
  exists mid sl k sr pieces, content_row U o d inp ti hpl hpr ind lft rgt = Ok pieces /\
    concat pieces = ind ++ lft ++ mid ++ rgt /\ places U w s sl k sr mid /\ hpr <= sr /\ just_row o d inp s hpl sl k.
Proof.
  intros o d inp ti l s hpl hpr w ind lft rgt Hl WI -> Hw.
  assert (Hin : In l (i_lines inp)) by (eapply nth_error_In; exact Hl).
  destruct (wi_text _ _ _ _ WI l Hin) as (s & w0 & Hs & Hb & Hle).
  destruct (shows_bx U HU w0 s Hs) as (ts & Hc & Er & Hb' & Hcol).
  rewrite Hb in Hb'. injection Hb' as El. cbn [bx num_columns] in Hcol.
  assert (Hm : memory (l_text l) = render ts) by (rewrite El; reflexivity).
  assert (Hr : reads (render ts) ts) by (split; [apply Hc|reflexivity]).
  destruct (justify_spec o d inp l ts (Z.of_nat hpr - Z.of_nat hpl)%Z El Hc) as
    (sh & Ej & Hmax & Hneg & Hlow & Hbl & Hj0 & Hjust); [lia| |].
  { intros Hj Hnb. destruct (wi_lead _ _ _ _ WI Hj l ts Hin) as [H1 H2]; [rewrite Hm; exact Hr|rewrite Hm; exact Hnb|].
    split; [apply narrow_term; exact H1|exact H2]. }
  unfold content_row. rewrite (proj2 (rd_ok _ _ _ _) Hl). cbn [bind]. rewrite Ej. cbn [bind].
  destruct (cut_front_closed ts (Z.to_nat (- sh)) Hc) as (tb & Ec & Hcb & Hvb & Hb0 & Hba & Hbn).
  rewrite El. rewrite Ec. cbn [must bind bx num_columns memory].
  destruct (Z.ltb_spec (Z.of_nat (i_maxline inp) - Z.of_nat (columns (char_cols U) ts) - sh) 0) as [Hbad|Hrest]; [lia|].
  set (n := lead (is_blank U) (visible ts)) in *.
  set (rest := (Z.of_nat (i_maxline inp) - Z.of_nat (columns (char_cols U) ts) - sh)%Z) in *.
  exists (repeat 32%N (hpl + Z.to_nat sh) ++ render tb ++ repeat 32%N (hpr + Z.to_nat rest)),
    (hpl + Z.to_nat sh), (Z.to_nat (- sh)), (hpr + Z.to_nat rest).
  eexists. split; [reflexivity|]. split.
  { cbn [concat]. rewrite !repeat_app, <- !app_assoc. rewrite app_nil_r. reflexivity. }
  (* columns of the shortened text *)
  assert (Hcb2 : columns (char_cols U) tb + Z.to_nat (- sh) = columns (char_cols U) ts).
  { rewrite !columns_sum, Hvb. destruct (Z.ltb_spec sh 0) as [Hlt|Hge].
    - destruct (Hneg Hlt) as [Hnb Hj].
      destruct (wi_lead _ _ _ _ WI Hj l ts Hin) as [H1 _]; [rewrite Hm; exact Hr|rewrite Hm; exact Hnb|].
      pose proof (columns_narrow (visible ts) (Z.to_nat (- sh)) ltac:(fold n; lia) (narrow_term _ H1)) as Hcn.
      rewrite <- (firstn_skipn (Z.to_nat (- sh)) (visible ts)) at 2. rewrite map_app, sum_app. lia.
    - replace (Z.to_nat (- sh)) with 0 by lia. cbn [skipn]. lia. }
  split.
  - exists (render tb), ts, tb, (columns (char_cols U) tb). split; [reflexivity|].
    split; [exact Hr|]. split; [split; [apply Hcb|reflexivity]|]. split; [exact Hvb|].
    split; [fold n; lia|]. split; [|split].
    + intros Hk. destruct (Hbn Hk) as [->|[Hv ->]]; [left; reflexivity|right; auto].
    + apply shows_closed; [exact HU|]. exists tb. auto.
    + unfold rest in *. lia.
  - split; [lia|]. intros ts' Hr'. assert (ts' = ts) as ->.
    { apply reading_unique; [apply Hr'|apply Hc|]. destruct Hr' as [_ Hr']. exact Hr'. }
    fold n. split.
    + intros Hx. assert (sh = 0%Z) as -> by (destruct Hx as [Hx|Hx]; auto). cbn. lia.
    + intros Hnb. exists (Z.to_nat (Z.of_nat n + sh)). split; [lia|].
      rewrite <- (columns_ext _ _ ts (char_cols_term U HU)). apply Hjust. exact Hnb.
Qed.
(** ** Fills *)
Lemma Forall2_len : forall (A B : Type) (P : A -> B -> Prop) l l', Forall2 P l l' -> length l = length l'.
Proof. induction 1; cbn; congruence. Qed.

Lemma hfills_spec : forall o d hf, d_pad_left d + d_pad_right d <= hf ->
  exists hpl hpr, hfills o d hf = Ok (hpl, hpr) /\ hpl + hpr = hf /\
    (~ squeezed o d hf -> distributes (halign o) (d_pad_left d) (d_pad_right d) hf hpl hpr).
Proof.
  intros o d hf H. unfold hfills, distributes, halign, squeezed, ch.
  destruct (Nat.eqb_spec hf 1) as [->|Hne].
  - destruct (N.eqb_spec (o_halign o) 114) as [E|E]; cbn [orb].
    + exists 1, 0. rewrite E. split; [reflexivity|]. split; [reflexivity|]. intros Hs. cbn [N.eqb Pos.eqb].
      assert (d_pad_right d <> 1) by (intros Hx; apply Hs; auto). lia.
    + destruct (Nat.ltb_spec (d_pad_right d) (d_pad_left d)).
      * exists 1, 0. split; [reflexivity|]. split; [reflexivity|]. intros _. destruct (N.eqb (o_halign o) 99); lia.
      * exists 0, 1. split; [reflexivity|]. split; [reflexivity|]. intros _. destruct (N.eqb (o_halign o) 99); lia.
  - rewrite subz_le by assumption. cbn [bind].
    set (f := hf - (d_pad_left d + d_pad_right d)).
    pose proof (Nat.div_mod f 2 ltac:(lia)). pose proof (Nat.mod_upper_bound f 2 ltac:(lia)).
    destruct (N.eqb_spec (o_halign o) 99) as [E|E].
    + do 2 eexists. split; [reflexivity|]. unfold f in *. split; [lia|intros _; lia].
    + destruct (N.eqb_spec (o_halign o) 114) as [E'|E'];
        (do 2 eexists; split; [reflexivity|]; unfold f in *; split; [lia|intros _; lia]).
Qed.

Lemma vfills_spec : forall o d spare, exists f1 f2, vfills o d spare = (f1, f2) /\
  distributes (valign o) (d_pad_top d) (d_pad_bottom d) (spare + (d_pad_top d + d_pad_bottom d)) f1 f2.
Proof.
  intros o d f. unfold vfills, distributes, valign, ch.
  pose proof (Nat.div_mod f 2 ltac:(lia)). pose proof (Nat.mod_upper_bound f 2 ltac:(lia)).
  destruct (N.eqb (o_valign o) 99); [|destruct (N.eqb (o_valign o) 98)];
    (do 2 eexists; split; [reflexivity|]; lia).
Qed.

Lemma places_shows : forall w s l k r mid, places U w s l k r mid -> shows U w mid.
Proof.
  intros w s l k r mid (txt & ts & tx & c & -> & _ & _ & _ & _ & _ & Hs & <-).
  rewrite <- Nat.add_assoc. apply shows_app; [exact HU|apply shows_spaces; exact HU|].
  apply shows_app; [exact HU|exact Hs|apply shows_spaces; exact HU].
Qed.

Lemma nth_repeat_lt : forall (A : Type) (x : A) n i y, i < n -> nth i (repeat x n) y = x.
Proof. intros A x n. induction n; intros [|i] y H; cbn; try lia; auto. apply IHn. lia. Qed.

(** ** All rows *)
(** [lia] without implications and local definitions in the context *)
Ltac qlia := repeat match goal with H : ?A -> ?B |- _ => clear H end;
  repeat match goal with x := _ |- _ => clearbody x end; lia.
Section Draw.
Variables (o : opts) (d : design) (inp : input) (b : box) (cN cS cW cE : nat -> nat) (w v : nat).
Hypothesis WF : wf_design U d.
Hypothesis WI : wf_input U o d inp.
Hypothesis SD : sides d b cN cS cW cE w v.
Hypothesis FR : framed U d b w v.
Hypothesis Hml : i_maxline inp <= w.
Hypothesis Hmw : d_minwidth d <= left_w d + w + right_w d.
Hypothesis Hnl : i_num_lines inp <= v.
Hypothesis Hmh : d_minheight d <= top_h d + v + bottom_h d.
Hypothesis PAD : padded d inp.

Lemma contents_exist : forall hpl hpr, hpl + i_maxline inp + hpr = w ->
  exists cs, Forall2 (content_ok U o d inp w hpl) (i_lines inp) cs /\
    forall ti ind lft rgt, ti < i_num_lines inp -> exists pieces,
      content_row U o d inp ti hpl hpr ind lft rgt = Ok pieces /\ concat pieces = ind ++ lft ++ nth ti cs [] ++ rgt.
Proof.
  intros hpl hpr Hw.
  assert (H : forall ls pre, i_lines inp = pre ++ ls ->
    exists cs, Forall2 (content_ok U o d inp w hpl) ls cs /\
      forall ti ind lft rgt, ti < length ls -> exists pieces,
        content_row U o d inp (length pre + ti) hpl hpr ind lft rgt = Ok pieces /\
        concat pieces = ind ++ lft ++ nth ti cs [] ++ rgt).
  { induction ls as [|l ls IH]; intros pre E.
    - exists []. split; [constructor|]. intros ti ind lft rgt Hti. cbn in Hti. lia.
    - destruct (IH (pre ++ [l])) as (cs & Hcs & Hrows); [rewrite <- app_assoc; exact E|].
      assert (Hn : nth_error (i_lines inp) (length pre) = Some l).
      { rewrite E, nth_error_app2, Nat.sub_diag by lia. reflexivity. }
      (* the middle part does not depend on what surrounds it *)
      destruct (content_spec o d inp (length pre) l _ hpl hpr w [] [] [] Hn WI eq_refl Hw)
        as (mid & sl & k & sr & pieces & Ep & Ec & Hpl & Hsr & Hjr).
      exists (mid :: cs). split; [constructor; [exists sl, k, sr; split; [exact Hpl|split; [lia|exact Hjr]]|exact Hcs]|].
      intros [|ti] ind lft rgt Hti.
      + rewrite Nat.add_0_r. cbn [nth].
        unfold content_row in Ep |- *.
        apply bind_ok in Ep as (l' & El & Ep). rewrite El. cbn [bind].
        apply bind_ok in Ep as (sh & Esh & Ep). rewrite Esh. cbn [bind].
        apply bind_ok in Ep as (tx & Etx & Ep). rewrite Etx. cbn [bind].
        destruct (_ <? 0)%Z; [discriminate|].
        injection Ep as <-. eexists. split; [reflexivity|].
        cbn [concat app] in Ec |- *. rewrite ?app_nil_r in *. rewrite <- Ec. rewrite <- !app_assoc. reflexivity.
      + cbn [nth]. replace (length pre + S ti) with (length (pre ++ [l]) + ti) by (rewrite app_length; cbn; lia).
        apply Hrows. cbn in Hti. lia. }
  destruct (H (i_lines inp) [] eq_refl) as (cs & H1 & H2). exists cs. split; [exact H1|].
  intros ti ind lft rgt Hti. apply (H2 ti ind lft rgt Hti).
Qed.

Lemma pads_h : d_pad_left d + d_pad_right d <= w - i_maxline inp.
Proof. destruct PAD as [[H|H] _]; lia. Qed.
Lemma pads_v : d_pad_top d + d_pad_bottom d <= v - i_num_lines inp.
Proof. destruct PAD as [_ [H|H]]; lia. Qed.

(** the loop, once every single row is known *)
Lemma out_loop_spec : forall (y : layout) (R : nat -> list N) (vf : nat -> nat) W n j,
  (forall i, j <= i < j + n -> exists strs, out_row U o d inp b y i (vf i) = Ok (strs, vf (S i)) /\
      concat strs = R i /\ shows U W (R i)) ->
  exists rows, out_loop U n o d inp b y j (vf j) = Ok rows /\ map memory rows = map R (seq j n).
Proof.
  intros y R vf W. induction n as [|n IH]; intros j H; [exists []; split; reflexivity|].
  destruct (H j ltac:(lia)) as (strs & E & Ec & Hs). cbn [out_loop]. rewrite E. cbn [bind].
  unfold bxs_concat. rewrite Ec. destruct (shows_from U HU W (R j) Hs) as (m & Em & Hm & _).
  rewrite Em. cbn [must bind].
  destruct (IH (S j)) as (rows & Er & Hr); [intros i Hi; apply H; lia|]. rewrite Er. cbn [bind].
  eexists. split; [reflexivity|]. cbn [map seq]. rewrite Hm, Hr. reflexivity.
Qed.

Lemma rd_texts : forall (p : part) j, j < length (texts p) -> exists m, rd (p_mbcs p) j = Ok m /\ memory m = nth j (texts p) [].
Proof.
  intros p j H. unfold texts in *. rewrite map_length in H. exists (nth j (p_mbcs p) bxs_new_empty_string).
  split; [apply rd_lt; exact H|]. rewrite (nth_indep _ [] (memory bxs_new_empty_string)) by (rewrite map_length; exact H).
  symmetry. apply map_nth.
Qed.

Lemma Forall_nth' : forall (A : Type) (P : A -> Prop) l i x, Forall P l -> i < length l -> P (nth i l x).
Proof. intros A P l i x H Hi. rewrite Forall_forall in H. apply H. apply nth_In. exact Hi. Qed.

Theorem box_rows_spec : exists rows contents hpl hpr f1 f2,
  box_rows U o d inp b = Ok rows /\ drawn U o d inp b w v (map memory rows) contents hpl hpr f1 f2.
Proof.
  pose proof pads_h as Hph. pose proof pads_v as Hpv.
  unfold box_rows, mk_layout.
  rewrite (sd_hright _ _ _ _ _ _ _ _ SD), (sd_htop _ _ _ _ _ _ _ _ SD), (sd_hbottom _ _ _ _ _ _ _ _ SD),
          (sd_wtop _ _ _ _ _ _ _ _ SD).
  rewrite subz_le by qlia. cbn [bind]. rewrite subz_le by qlia. cbn [bind]. rewrite subz_le by qlia. cbn [bind].
  rewrite subz_le by qlia. cbn [bind].
  set (v4 := top_h d + v + bottom_h d - top_h d - bottom_h d - i_num_lines inp - (d_pad_top d + d_pad_bottom d)).
  assert (Hv4 : v4 + (d_pad_top d + d_pad_bottom d) = v - i_num_lines inp) by (unfold v4; qlia).
  clearbody v4.
  destruct (vfills_spec o d v4) as (f1 & f2 & Ev & Hdv). rewrite Ev. rewrite Hv4 in *. clear Ev.
  rewrite subz_le by qlia. cbn [bind].
  destruct (hfills_spec o d (w - i_maxline inp) Hph) as (hpl & hpr & Eh & Hhs & Hdh). rewrite Eh. clear Eh. cbn [bind fst snd].
  assert (Hff : f1 + f2 = v - i_num_lines inp) by apply Hdv.
  destruct (contents_exist hpl hpr ltac:(qlia)) as (cs & Hcs & Hcr).
  cbn [y_nol y_skip_end y_skip_start y_vfill1].
  set (en := if empty_side (d_shape d) BBOT then s_height (d_shape d SW) else 0).
  set (st := if empty_side (d_shape d) BTOP then s_height (d_shape d NW) else 0).
  change en with (bottom_skip d). change st with (top_skip d).
  assert (Hst : top_skip d = 0 \/ top_skip d = top_h d) by (unfold top_skip; destruct (empty_side (d_shape d) BTOP); auto).
  assert (Hen : bottom_skip d <= bottom_h d) by (unfold bottom_skip; destruct (empty_side (d_shape d) BBOT); qlia).
  rewrite subz_le by qlia. cbn [bind].
  set (y := mkLayout _ _ _ _ _ _ _ _ _ _).
  set (mids := middles b w f1 f2 cs).
  assert (Hlc : length cs = i_num_lines inp).
  { unfold i_num_lines. symmetry. eapply Forall2_len. exact Hcs. }
  destruct (fr_top _ _ _ _ _ FR) as [Ft Flt]. destruct (fr_bottom _ _ _ _ _ FR) as [Fb Flb].
  destruct (fr_left _ _ _ _ _ FR) as [Fl Fll]. destruct (fr_right _ _ _ _ _ FR) as [Fr Flr].
  assert (Hlm : length mids = top_h d + v + bottom_h d).
  { unfold mids, middles. rewrite !app_length, !repeat_length. qlia. }
  assert (Hms : Forall (shows U w) mids).
  { unfold mids, middles. rewrite !Forall_app. split; [exact Ft|].
    split; [apply Forall_repeat, shows_spaces; exact HU|].
    split; [|split; [apply Forall_repeat, shows_spaces; exact HU|exact Fb]].
    clear - Hcs HU. induction Hcs as [|l c ls cs (sl & k & sr & Hp & _) _ IH]; constructor; auto.
    eapply places_shows; exact Hp. }
  set (R := full_row d inp b mids).
  set (vf := fun j => if j <? top_h d then f1 else f1 - (j - top_h d)).
  assert (HW : forall j, j < top_h d + v + bottom_h d -> shows U (row_width d inp w) (R j)).
  { intros j Hj. unfold R, full_row, row_width. rewrite <- !Nat.add_assoc.
    apply shows_app; [exact HU|apply shows_spaces; exact HU|].
    apply shows_app; [exact HU| |].
    { destruct (empty_side (d_shape d) BLEF); [apply shows_nil; exact HU|].
      apply Forall_nth'; [exact Fl|qlia]. }
    apply shows_app; [exact HU| |]; apply Forall_nth'; try assumption; qlia. }
  assert (Hlw : s_width (d_shape d NW) <> 0).
  { pose proof (width_pos _ (wf_corners _ _ WF NW ltac:(cbn; auto))). qlia. }
  assert (Hsl : y_skip_left y = empty_side (d_shape d) BLEF).
  { cbn [y y_skip_left]. destruct (empty_side (d_shape d) BLEF); [|reflexivity]. cbn [andb].
    apply Nat.eqb_neq in Hlw. rewrite Hlw. reflexivity. }
  assert (Hlpos : 0 < i_num_lines inp).
  { unfold i_num_lines. pose proof (wi_some _ _ _ _ WI). destruct (i_lines inp); [congruence|cbn; qlia]. }
  assert (Hrow : forall j, j < top_h d + v + bottom_h d -> exists strs,
            out_row U o d inp b y j (vf j) = Ok (strs, vf (S j)) /\ concat strs = R j).
  { intros j Hj. unfold out_row. rewrite Hsl.
    rewrite (sd_htop _ _ _ _ _ _ _ _ SD), (sd_hbottom _ _ _ _ _ _ _ _ SD), (sd_wtop _ _ _ _ _ _ _ _ SD).
    assert (Htab : forall n, n < i_num_lines inp -> tabbify_indent o inp n (y_indent y) = Ok (spaces (Spec_Box.box_indent d inp))).
    { intros n Hn. apply (tabbify_free o d inp n (wi_tabs _ _ _ _ WI) Hn). }
    destruct (rd_texts (b_right b) j) as (mr & Emr & Hmr); [qlia|].
    destruct (rd_texts (b_left b) j) as (ml & Eml & Hml'); [qlia|].
    set (lf := if empty_side (d_shape d) BLEF then [] else nth j (texts (b_left b)) []).
    assert (Hleft : (if empty_side (d_shape d) BLEF then Ok [] else m <- rd (p_mbcs (b_left b)) j ;; Ok (memory m)) = Ok lf).
    { unfold lf. destruct (empty_side (d_shape d) BLEF); [reflexivity|]. rewrite Eml. cbn [bind]. rewrite Hml'. reflexivity. }
    rewrite Hleft. rewrite Emr. cbn [bind].
    unfold R, full_row. fold lf.
    assert (Hn1 : j < top_h d -> nth j mids [] = nth j (texts (b_top b)) []).
    { intros H. unfold mids, middles. apply app_nth1. qlia. }
    assert (Hn2 : top_h d <= j < top_h d + f1 -> nth j mids [] = spaces w).
    { intros H. unfold mids, middles. rewrite app_nth2, app_nth1 by (rewrite ?repeat_length; qlia).
      apply nth_repeat_lt. qlia. }
    assert (Hn3 : top_h d + f1 <= j < top_h d + f1 + i_num_lines inp -> nth j mids [] = nth (j - top_h d - f1) cs []).
    { intros H. unfold mids, middles. rewrite app_nth2, app_nth2, app_nth1 by (rewrite ?repeat_length; qlia).
      rewrite repeat_length, Flt. reflexivity. }
    assert (Hn4 : top_h d + f1 + i_num_lines inp <= j < top_h d + v -> nth j mids [] = spaces w).
    { intros H. unfold mids, middles. rewrite app_nth2, app_nth2, app_nth2, app_nth1 by (rewrite ?repeat_length; qlia).
      apply nth_repeat_lt. rewrite repeat_length. qlia. }
    assert (Hn5 : top_h d + v <= j -> nth j mids [] = nth (j - (top_h d + v)) (texts (b_bottom b)) []).
    { intros H. unfold mids, middles. rewrite app_nth2, app_nth2, app_nth2, app_nth2 by (rewrite ?repeat_length; qlia).
      rewrite !repeat_length, Flt, Hlc. f_equal. qlia. }
    destruct (Nat.ltb_spec j (top_h d)) as [Hc|Hc].
    - (* top border *)
      rewrite Htab by qlia. cbn [must bind].
      destruct (rd_texts (b_top b) j) as (mt & Emt & Hmt); [qlia|]. rewrite Emt. cbn [bind].
      eexists. split; [f_equal; f_equal|].
      + unfold vf. destruct (Nat.ltb_spec j (top_h d)); [|qlia]. destruct (Nat.ltb_spec (S j) (top_h d)); qlia.
      + cbn [concat]. rewrite Hmr, Hmt, Hn1, app_nil_r by qlia. reflexivity.
    - assert (Evf : vf j = f1 - (j - top_h d)).
      { unfold vf. destruct (Nat.ltb_spec j (top_h d)); [qlia|reflexivity]. }
      assert (Evf' : vf (S j) = f1 - (S j - top_h d)).
      { unfold vf. destruct (Nat.ltb_spec (S j) (top_h d)); [qlia|reflexivity]. }
      destruct (Nat.eqb_spec (vf j) 0) as [E0|E0]; cbn [negb].
      + rewrite Evf in E0. change (y_nol y) with (top_h d + v + bottom_h d).
        rewrite subz_le by qlia. cbn [bind].
        replace (top_h d + v + bottom_h d - bottom_h d) with (top_h d + v) by qlia.
        destruct (Nat.ltb_spec j (top_h d + v)) as [Hc2|Hc2].
        * change (y_vfill y) with (v - i_num_lines inp). change (y_vfill2 y) with f2.
          change (y_hpl y) with hpl. change (y_hpr y) with hpr.
          replace (v - i_num_lines inp - f2) with f1 by qlia.
          rewrite subz_le by qlia. cbn [must bind].
          destruct (Nat.ltb_spec (j - (top_h d + f1)) (i_num_lines inp)) as [Hc3|Hc3].
          -- rewrite Htab by qlia. cbn [must bind].
             destruct (Hcr (j - (top_h d + f1)) (spaces (Spec_Box.box_indent d inp)) lf (memory mr) Hc3) as (pieces & Ep & Ec).
 rewrite Ep. cbn [bind].
             eexists. split; [f_equal; f_equal; qlia|]. rewrite Ec, Hmr, Hn3 by qlia.
             replace (j - top_h d - f1) with (j - (top_h d + f1)) by qlia. reflexivity.
          -- rewrite Htab by qlia. cbn [must bind].
             eexists. split; [f_equal; f_equal; qlia|].
             cbn [concat]. rewrite Hmr, Hn4, app_nil_r by qlia. reflexivity.
        * rewrite Htab by qlia. cbn [must bind].
          destruct (rd_texts (b_bottom b) (j - (top_h d + v))) as (mb & Emb & Hmb); [qlia|]. rewrite Emb. cbn [bind].
          eexists. split; [f_equal; f_equal; qlia|].
          cbn [concat]. rewrite Hmr, Hmb, Hn5, app_nil_r by qlia. reflexivity.
      + rewrite Evf in E0. rewrite Htab by qlia. cbn [must bind].
        eexists. split; [f_equal; f_equal; qlia|].
        cbn [concat]. rewrite Hmr, Hn2, app_nil_r by qlia. reflexivity. }
  assert (Hvf0 : vf (top_skip d) = f1).
  { unfold vf. destruct (Nat.ltb_spec (top_skip d) (top_h d)); [reflexivity|]. destruct Hst as [E|E]; rewrite E; qlia. }
  destruct (out_loop_spec y R vf (row_width d inp w) (top_h d + v + bottom_h d - bottom_skip d - top_skip d) (top_skip d))
    as (rows & Er & Hr).
  { intros i Hi. assert (Hi' : i < top_h d + v + bottom_h d) by qlia. destruct (Hrow i Hi') as (strs & E & Ec). exists strs. auto. }
  rewrite Hvf0 in Er. rewrite Er. exists rows, cs, hpl, hpr, f1, f2. split; [reflexivity|].
  constructor; auto; try qlia.
  - rewrite Hr. f_equal. f_equal. qlia.
  - rewrite Hr. apply Forall_map. apply Forall_forall. intros j Hj. apply in_seq in Hj. apply HW. qlia.
Qed.
End Draw.
End Rows.
