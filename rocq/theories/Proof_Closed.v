(** * Drawing a closed box and removing it again *)
From Coq Require Import List Arith NArith ZArith Bool Lia.
From Verif Require Import Base BaseFacts Model_Unicode Model_Bxs Model_Shape Model_Generate Model_Input Model_Detect Model_Remove Model_Main
  Spec_Str Spec_Design Spec_Input Spec_Box Spec_Remove Spec_Parser Spec_Comment Spec_Round Spec_Closed
  Proof_Str Proof_Bxs Proof_BxsOps Proof_BxsMore Proof_Shows Proof_Hmm Proof_Horiz Proof_Open Proof_Recog Proof_Found Proof_Input Proof_Generate Proof_Rows Proof_Draw Proof_Body Proof_Comment Proof_Round.
Import ListNotations.

Section Closed.
Variable U : uctab.
Hypothesis HU : uctab_ok U.
Notation pl := (pl U).
Notation okt := (okt U).
Notation ends := (ends U).

(** ** finding a wall *)
Lemma vert_try_mono : forall n left text maxq t ind trl best shape q v, vert_try U n left text maxq t ind trl best shape q = Ok v ->
  v = best \/ v_quality best < v_quality v.
Proof.
  induction n as [|n IH]; intros left text maxq t ind trl best shape q v H; [discriminate H|]. cbn [vert_try] in H.
  assert (A : forall v, match shorten U text q left true true with None => Ok best | Some (l, q') => vert_try U n left text maxq t ind trl best l q' end = Ok v ->
              v = best \/ v_quality best < v_quality v).
  { intros v0 H0. destruct (shorten U text q left true true) as [[l q']|]; [apply IH in H0; exact H0|]. injection H0 as <-. auto. }
  destruct (if left then _ else _) as [p|]; [|apply A; exact H].
  destruct (if left then _ else _); [apply A; exact H|].
  destruct (Nat.ltb_spec (v_quality best) q) as [Q|Q]; injection H as <-; [right; exact Q|auto].
Qed.

Lemma worn_len : forall row r, worn U row r -> length r <= length row /\ (length r = length row -> r = row).
Proof.
  intros row r (_ & x & y & -> & _). rewrite !app_length. split; [lia|]. intros E. destruct x; [|cbn in E; lia]. destruct y; [|cbn in E; lia].
  rewrite app_nil_r. reflexivity.
Qed.

(** what a line of the wall [w] of length [q] gives, [full] being the match of the whole line *)
Section Side.
Variables (left : bool) (t w : list N) (ind q trl : nat) (full : vmatch).
Hypothesis Hq : v_quality full = q.
Variable good : list N -> Prop.
Hypothesis Hfull : forall row v, good row -> length row = q -> vm_found U left row t ind trl v -> v_quality v = q -> v = full.
Hypothesis Hhere : forall best, v_quality best < q -> vert_try U (q + 2) left (Some (pl w)) q t ind trl best w q = Ok full.

Lemma wall_one : forall row best, okt row -> good row -> length row = q -> v_quality best < q \/ best = full ->
  exists v, vert_try U (q + 2) left (Some (pl row)) q t ind trl best row q = Ok v /\ (v_quality v < q \/ v = full) /\ (row = w \/ best = full -> v = full).
Proof.
  intros row best Ho Hg Hl Hb.
  destruct (vert_try_spec U (q + 2) left (pl row) t ind trl best row q) as (v & E & Hv).
  - rewrite num_pl, mem_pl. reflexivity.
  - lia.
  - exact Hl.
  - exists [], []. rewrite mem_pl, app_nil_r. split; [reflexivity|]. split; constructor.
  - rewrite num_pl, Hl in E. exists v. split; [exact E|]. rewrite mem_pl in Hv.
    assert (D : v = best \/ v_quality v < q \/ v = full).
    { destruct Hv as [-> |Hv]; [auto|]. right. pose proof Hv as Hv'. destruct Hv' as (H1 & H2 & H3 & Hw & _).
      assert (Hlen : length (between t (v_start v) (v_end v)) = v_quality v).
      { unfold between. rewrite firstn_length, skipn_length. lia. }
      destruct (worn_len _ _ Hw) as [L _]. destruct (Nat.eq_dec (v_quality v) q) as [F|F]; [right; apply (Hfull row); assumption|left; lia]. }
    assert (B : best = full -> v = full).
    { intros ->. pose proof (vert_try_mono _ _ _ _ _ _ _ _ _ _ _ E) as M. destruct D as [D|[D|D]]; [exact D| |exact D]. destruct M as [M|M]; [exact M|lia]. }
    split.
    + destruct D as [-> |D]; [exact Hb|exact D].
    + intros [-> |F]; [|auto]. destruct Hb as [Hb|Hb]; [|auto]. rewrite (Hhere best Hb) in E. congruence.
Qed.

Lemma wall_all : forall rows scs best, Forall (fun r => okt r /\ good r /\ length r = q) rows ->
  Forall2 (fun r sc => sc_empty sc = false /\ sc_text sc = Some (pl r)) rows scs -> v_quality best < q \/ best = full ->
  exists v, match_vertical_side U left scs t ind trl best = Ok v /\ (In w rows \/ best = full -> v = full).
Proof.
  intros rows scs best Hr H2. revert best. induction H2 as [|row sc rows scs [He Ht] _ IH]; intros best Hb.
  - exists best. split; [reflexivity|]. intros [[]|F]. exact F.
  - destruct (Forall_inv Hr) as (Ho & Hg & Hl). pose proof (Forall_inv_tail Hr) as Hr'. cbn [match_vertical_side]. rewrite He, Ht, num_pl, mem_pl, Hl.
    destruct (wall_one row best Ho Hg Hl Hb) as (v & E & Hv & Hf). rewrite E. cbn [bind].
    destruct (IH Hr' v Hv) as (v' & E' & Hf'). exists v'. split; [exact E'|]. intros [[F|F]|F]; apply Hf'; auto.
Qed.
End Side.

Lemma skip_sp : forall n r, skipn n (spaces n ++ r) = r.
Proof. intros n r. apply skipn_len. unfold spaces. apply repeat_length. Qed.
Lemma len_sp : forall m, length (spaces m) = m.
Proof. intros m. unfold spaces. apply repeat_length. Qed.

Definition good_left (row : list N) : Prop := exists c r, is_blank U c = false /\ row = c :: r.
Definition good_right (row : list N) : Prop := exists c r, is_blank U c = false /\ row = r ++ [c].

Lemma left_full : forall w rest ind q trl row v, length w = q -> good_left row -> length row = q ->
  vm_found U true row (spaces ind ++ w ++ rest) ind trl v -> v_quality v = q -> v = mkV ind (ind + q) q.
Proof.
  intros w rest ind q trl row v Hw (c & r & Hc & Er) Hl (H1 & H2 & H3 & Hwn & HL & _) Hq. specialize (HL eq_refl).
  set (t := spaces ind ++ w ++ rest) in *.
  assert (Hlen : length (between t (v_start v) (v_end v)) = q).
  { unfold between. rewrite firstn_length, skipn_length. lia. }
  destruct (worn_len _ _ Hwn) as [_ W]. specialize (W ltac:(lia)).
  assert (Hs : v_start v = ind).
  { destruct (Nat.lt_ge_cases (v_start v) ind) as [F|F]; [|lia]. exfalso. unfold between in W. rewrite Er in W. unfold t in W.
    replace ind with (v_start v + S (ind - v_start v - 1)) in W by lia. unfold spaces in W. rewrite repeat_app, <- app_assoc in W.
    change (repeat 32%N (v_start v)) with (spaces (v_start v)) in W. rewrite skip_sp in W. replace (v_end v - v_start v) with (S (q - 1)) in W by (subst q; rewrite Er in Hl; cbn in Hl; lia).
    cbn [repeat app firstn] in W. injection W as W _. rewrite <- W, (blank32 U HU) in Hc. discriminate. }
  destruct v as [s e qq]. cbn [v_start v_end v_quality] in *. subst. f_equal; lia.
Qed.

Lemma left_here : forall w rest ind q trl best, good_left w -> length w = q -> v_quality best < q ->
  vert_try U (q + 2) true (Some (pl w)) q (spaces ind ++ w ++ rest) ind trl best w q = Ok (mkV ind (ind + q) q).
Proof.
  intros w rest ind q trl best (c & r & Hc & Er) Hl Hb. rewrite Nat.add_comm. cbn [Nat.add vert_try].
  assert (Es : u32_strstr (spaces ind ++ w ++ rest) w = Some ind).
  { rewrite Er. rewrite strstr_sp by (apply (not_blank_32 U HU); exact Hc). rewrite strstr_here, Nat.add_0_r. reflexivity. }
  rewrite Es.
  destruct (Nat.ltb_spec (ind + (q - q)) ind) as [F|_]; [lia|]. apply Nat.ltb_lt in Hb. rewrite Hb. reflexivity.
Qed.

Lemma right_full : forall pre e ind q row v, length e = q -> length row = q ->
  vm_found U false row (pre ++ e) ind 0 v -> v_quality v = q -> v = mkV (length pre) (length pre + q) q.
Proof.
  intros pre e ind q row v He Hl (H1 & H2 & H3 & _ & _ & HR) Hq. specialize (HR eq_refl). rewrite app_length in *.
  destruct v as [s en qq]. cbn [v_start v_end v_quality] in *. subst. f_equal; lia.
Qed.

Lemma strnrstr_end : forall pre e q, length e = q -> 0 < q -> u32_strnrstr (pre ++ e) e q = Some (length pre).
Proof.
  intros pre e q He Hq. unfold u32_strnrstr. destruct e as [|c r]; [cbn in He; lia|].
  destruct (strrchr_ge (pre ++ c :: r) c (length pre)) as (k & Ek & H1 & H2); [rewrite nth_error_app2, Nat.sub_diag by lia; reflexivity|].
  rewrite Ek. clear Ek. revert H2. induction k as [|k IH]; intros H2.
  - assert (Hp : pre = []) by (destruct pre; [reflexivity|cbn in H1; lia]). subst pre. cbn [strnrstr_from skipn app]. rewrite (proj2 (strncmp_spec q _ (c :: r) He)) by (apply firstn_all2; rewrite He; lia). reflexivity.
  - destruct (Nat.eq_dec (length pre) (S k)) as [E|E].
    + cbn [strnrstr_from]. rewrite <- E. rewrite skipn_len by reflexivity. rewrite (proj2 (strncmp_spec q _ (c :: r) He)) by (apply firstn_all2; rewrite He; lia). reflexivity.
    + cbn [strnrstr_from]. destruct (strncmp0 q (skipn (S k) (pre ++ c :: r)) (c :: r)) eqn:Es.
      * exfalso. apply strncmp_spec in Es; [|exact He]. apply (f_equal (@length N)) in Es. rewrite firstn_length, skipn_length, app_length in Es. lia.
      * apply IH; lia.
Qed.

Lemma right_here : forall pre e ind q best, length e = q -> v_quality best < q ->
  vert_try U (q + 2) false (Some (pl e)) q (pre ++ e) ind 0 best e q = Ok (mkV (length pre) (length pre + q) q).
Proof.
  intros pre e ind q best Hl Hb. rewrite Nat.add_comm. cbn [Nat.add vert_try]. rewrite strnrstr_end by lia. rewrite app_length, Hl.
  destruct (Nat.ltb_spec (length pre + q - 0) q) as [F|_]; [lia|]. destruct (Nat.ltb_spec (length pre) (length pre + q - 0 - q)) as [F|_]; [lia|]. cbn [orb].
  apply Nat.ltb_lt in Hb. rewrite Hb. reflexivity.
Qed.
(** ** lines that are read *)
Definition plain_line (x : list N) : Prop := okt x /\ Spec_Remove.plain_text U x.

Lemma plain_narrow : forall x, Spec_Remove.plain_text U x -> narrow_lead U x.
Proof.
  intros x H. unfold narrow_lead. induction x as [|c x IH]; [constructor|]. cbn [lead]. inversion H as [|? ? (_ & _ & _ & Hb) Hx]; subst.
  destruct (is_blank U c) eqn:E; [|constructor]. cbn [firstn]. constructor; [rewrite (Hb eq_refl); apply char_cols_32|]. apply IH. exact Hx.
Qed.

Lemma mk_okl : forall x, okt x -> narrow_lead U x -> okl U (mk U x).
Proof. intros x Ho Hn. unfold okl. cbn [mk l_text]. rewrite mem_pl. auto. Qed.

Lemma mk_built : forall x, okt x -> narrow_lead U x -> built_line U (mk U x) /\ ~ In 27%N (memory (l_text (mk U x))).
Proof.
  intros x Ho Hn. cbn [mk l_text]. rewrite mem_pl. split; [|apply (okt_no27 U); exact Ho]. unfold built_line. cbn [mk l_text]. rewrite mem_pl. split; [apply (from_pl U HU); exact Ho|].
  exists (plain x), (cols U x). split; [split; [apply (closed_plain _ (okt_no27 U _ Ho))|apply render_plain]|]. split; [apply (okt_shows U HU); exact Ho|].
  rewrite visible_plain. unfold narrow_indent. unfold narrow_lead in Hn. eapply Forall_impl; [|exact Hn]. intros c H. cbn beta in H. rewrite (char_cols_term U HU) in H. exact H.
Qed.

Section Removal.
Variables (D : design) (ql qr : nat).
Hypothesis WF : wf_design U D.
Hypothesis HB : built U D.
Hypothesis HP : plain_design U D.
Hypothesis CD : closed_design U D ql qr.
Let pad := d_pad_left D.
Variable ind : nat.

Definition wall_rows (left : bool) : list (list N) :=
  concat (map (fun i => if isempty (d_shape D i) then [] else shape_rows (d_shape D i)) (wall_shapes left)).

Lemma wall_16 : forall left i, In i (wall_shapes left) -> i < 16.
Proof. intros [|] i H; cbn in H; repeat (destruct H as [<-|H]; [vm_compute; lia|]); destruct H. Qed.

Lemma wall_in : forall left r, In r (wall_rows left) -> exists i m, In i (wall_shapes left) /\ isempty (d_shape D i) = false /\ In m (s_mbcs (d_shape D i)) /\ memory m = r.
Proof.
  intros left r H. unfold wall_rows in H. apply in_concat in H as (l & Hl & Hr). apply in_map_iff in Hl as (i & <- & Hi).
  destruct (isempty (d_shape D i)) eqn:E; [destruct Hr|]. unfold shape_rows in Hr. apply in_map_iff in Hr as (m & <- & Hm). eauto 10.
Qed.

Lemma row_plain : forall i m, i < 16 -> In m (s_mbcs (d_shape D i)) -> plain_line (memory m).
Proof. intros i m Hi Hm. split; [apply (chars_okt U); apply (cl_chars _ _ _ _ CD i m Hi Hm)|apply (pd_rows U D HP i m Hi Hm)]. Qed.

Lemma wall_ok : forall left : bool, Forall (fun r => okt r /\ (if left then good_left r else good_right r) /\ length r = (if left then ql else qr)) (wall_rows left).
Proof.
  intros left. apply Forall_forall. intros r H. destruct (wall_in left r H) as (i & m & Hi & He & Hm & <-).
  split; [apply (row_plain i); [apply (wall_16 left); exact Hi|exact Hm]|]. destruct left.
  - destruct (cl_left _ _ _ _ CD i Hi He) as [_ W]. destruct (W m Hm) as (L & c & r & Hc & E). split; [exists c, r; auto|exact L].
  - destruct (cl_right _ _ _ _ CD i Hi He) as [_ W]. destruct (W m Hm) as (L & c & r & Hc & E). split; [exists c, r; auto|exact L].
Qed.

Lemma prep_wall : forall left, exists scs, prepare_comp_shapes_vert U D left literal = Ok scs /\
  Forall2 (fun r sc => sc_empty sc = false /\ sc_text sc = Some (pl r)) (wall_rows left) scs.
Proof.
  intros left. unfold prepare_comp_shapes_vert.
  change (vert_shapes left) with (wall_shapes left).
  match goal with |- context [mapM ?f (wall_shapes left)] =>
    destruct (mapM_spec _ _ f (fun i scs => Forall2 (fun (r : list N) sc => sc_empty sc = false /\ sc_text sc = Some (pl r)) (if isempty (d_shape D i) then nil else shape_rows (d_shape D i)) scs)
                (wall_shapes left)) as (ls & E & H) end.
  - intros i Hi. destruct (isempty (d_shape D i)) eqn:Ee; [exists []; split; [reflexivity|constructor]|].
    pose proof (wf_shapes U D WF i (wall_16 _ _ Hi) Ee) as [Hh _ _].
    assert (Hd : isdeepempty (d_shape D i) = false) by (destruct left; [apply (cl_left _ _ _ _ CD i Hi Ee)|apply (cl_right _ _ _ _ CD i Hi Ee)]).
    exists (map (fun m => mkSctx false (Some (pl (memory m))) (s_elastic (d_shape D i))) (s_mbcs (d_shape D i))). split.
    + rewrite <- Hh. apply (mapM_seq _ _ _ (fun m => mkSctx false (Some (pl (memory m))) (s_elastic (d_shape D i)))). intros k m Hk. cbn [Nat.add].
      unfold prepare_comp_shape. assert (Hlt : k < length (s_mbcs (d_shape D i))) by (apply nth_error_Some; congruence).
      destruct (Nat.leb_spec (s_height (d_shape D i)) k) as [F|_]; [lia|]. unfold rd at 1. rewrite Hk. cbn [bind drops_shape andb must].
      rewrite (from_pl U HU) by (apply (row_plain i); [apply (wall_16 left); exact Hi|eapply nth_error_In; exact Hk]). cbn [must bind]. rewrite Hd. reflexivity.
    + unfold shape_rows. clear. induction (s_mbcs (d_shape D i)) as [|m ms IH]; cbn [map]; constructor; [|exact IH]. split; reflexivity.
  - rewrite E. cbn [bind]. exists (concat ls). split; [reflexivity|]. unfold wall_rows. clear E. induction H as [|i scs is ls H _ IH]; cbn [map concat]; [constructor|].
    apply Forall2_app; assumption.
Qed.

(** a line of the body: left wall, what follows the padding, right wall *)
Record item : Type := mkItem { it_w : list N; it_r : list N; it_e : list N }.
Definition row (b : item) : list N := spaces ind ++ it_w b ++ (spaces pad ++ it_r b) ++ it_e b.
Definition item_ok (b : item) : Prop := In (it_w b) (wall_rows true) /\ In (it_e b) (wall_rows false) /\ okt (it_r b).

Lemma it_left : forall b, item_ok b -> okt (it_w b) /\ good_left (it_w b) /\ length (it_w b) = ql.
Proof. intros b (H & _). pose proof (wall_ok true) as W. rewrite Forall_forall in W. apply W. exact H. Qed.
Lemma it_right : forall b, item_ok b -> okt (it_e b) /\ good_right (it_e b) /\ length (it_e b) = qr.
Proof. intros b (_ & H & _). pose proof (wall_ok false) as W. rewrite Forall_forall in W. apply W. exact H. Qed.

Lemma row_okt : forall b, item_ok b -> okt (row b).
Proof.
  intros b H. unfold row. apply okt_app. split; [apply (okt_spaces U HU)|]. apply okt_app. split; [apply it_left; exact H|]. apply okt_app. split; [|apply it_right; exact H].
  apply okt_app. split; [apply (okt_spaces U HU)|]. apply H.
Qed.
Lemma row_lead : forall b, item_ok b -> lead (is_blank U) (row b) = ind /\ narrow_lead U (row b).
Proof.
  intros b H. destruct (it_left b H) as (_ & (c & r & Hc & E) & _). unfold row. rewrite E. split.
  - rewrite (lead_sp U HU). cbn [app lead]. rewrite Hc. lia.
  - apply (narrow_sp U HU). unfold narrow_lead. cbn [app lead]. rewrite Hc. constructor.
Qed.
Lemma row_ends : forall b, item_ok b -> ends (row b).
Proof.
  intros b H. destruct (it_right b H) as (_ & (c & r & Hc & E) & _). exists (spaces ind ++ it_w b ++ (spaces pad ++ it_r b) ++ r), c.
  split; [unfold row; rewrite E, <- !app_assoc; reflexivity|exact Hc].
Qed.
Lemma ql_pos : forall b, item_ok b -> 0 < ql /\ 0 < qr.
Proof.
  intros b H. destruct (it_left b H) as (_ & (c & r & _ & E) & L). destruct (it_right b H) as (_ & (c' & r' & _ & E') & L').
  rewrite E in L. rewrite E', app_length in L'. cbn [length] in *. lia.
Qed.

Definition vm (b : item) : vmatch * vmatch :=
  let n := length (spaces ind ++ it_w b ++ spaces pad ++ it_r b) in (mkV ind (ind + ql) ql, mkV n (n + qr) qr).

Lemma body_row : forall inp A B O, i_lines inp = A ++ map (fun b => mk U (row b)) B ++ O -> Forall item_ok B ->
  match_body U D inp literal (seq (length A) (length B)) = Ok (map vm B).
Proof.
  intros inp A B O EL HB'. unfold match_body. pose proof (cl_sides _ _ _ _ CD BLEF) as S1. pose proof (cl_sides _ _ _ _ CD BRIG) as S2. unfold blank_side in S1, S2. rewrite S1, S2.
  destruct (prep_wall true) as (wl & Ewl & Hwl). destruct (prep_wall false) as (wr & Ewr & Hwr). rewrite Ewl, Ewr. cbn [bind].
  apply (mapM_seq _ _ _ vm B). intros i b Hi.
  assert (Hb : item_ok b) by (rewrite Forall_forall in HB'; apply HB'; eapply nth_error_In; exact Hi).
  assert (Hn : nth_error (i_lines inp) (length A + i) = Some (mk U (row b))).
  { rewrite EL, nth_error_app2 by lia. replace (length A + i - length A) with i by lia.
    rewrite nth_error_app1 by (rewrite map_length; apply nth_error_Some; congruence). apply (map_nth_error (fun b => mk U (row b)) _ _ Hi). }
  destruct (row_lead b Hb) as [Hld Hnr].
  destruct (ends_plain U inp _ _ literal Hn (mk_okl _ (row_okt b Hb) Hnr) eq_refl) as (trl & Ee & Htr & Htb).
  cbn [mk l_text] in Ee, Htr, Htb. rewrite mem_pl in Ee, Htr, Htb. rewrite Hld in Ee.
  assert (Ht0 : trl = 0).
  { destruct trl as [|trl]; [reflexivity|]. exfalso. destruct (row_ends b Hb) as (m & c & E & Hc). rewrite E in *. rewrite app_length in *. cbn [length] in *.
    rewrite skipn_app in Htb. apply Forall_app in Htb as [_ Htb]. replace (length m + 1 - S trl - length m) with 0 in Htb by lia. cbn [skipn] in Htb. inversion Htb; subst. congruence. }
  subst trl. unfold comp_input. rewrite Hn. cbn [drops_input must bind mk l_text]. rewrite mem_pl, Ee. cbn [must bind fst snd].
  destruct (Nat.ltb_spec (length (row b)) 0) as [F|_]; [lia|].
  destruct (it_left b Hb) as (Hw1 & Hw2 & Hw3). destruct (it_right b Hb) as (He1 & He2 & He3). destruct (ql_pos b Hb) as [Pl Pr].
  destruct (wall_all true (row b) (it_w b) ind ql 0 (mkV ind (ind + ql) ql) eq_refl good_left) with (rows := wall_rows true) (scs := wl) (best := vmatch0) as (v1 & E1 & V1).
  { intros r v Hg Hl Hv Hq. unfold row in Hv. eapply (left_full (it_w b) _ ind ql 0 r v Hw3 Hg Hl Hv Hq). }
  { intros best Hbest. unfold row. apply left_here; assumption. }
  { exact (wall_ok true). }
  { exact Hwl. }
  { left. exact Pl. }
  set (pre := spaces ind ++ it_w b ++ spaces pad ++ it_r b).
  assert (Er : row b = pre ++ it_e b) by (unfold row, pre; rewrite <- !app_assoc; reflexivity).
  destruct (wall_all false (row b) (it_e b) ind qr 0 (mkV (length pre) (length pre + qr) qr) eq_refl good_right) with (rows := wall_rows false) (scs := wr) (best := vmatch0) as (v2 & E2 & V2).
  { intros r v _ Hl Hv Hq. rewrite Er in Hv. apply (right_full pre (it_e b) ind qr r v He3 Hl Hv Hq). }
  { intros best Hbest. rewrite Er. apply right_here; assumption. }
  { exact (wall_ok false). }
  { exact Hwr. }
  { left. exact Pr. }
  rewrite E1. cbn [bind]. rewrite E2. cbn [bind]. rewrite V1 by (left; apply Hb). rewrite V2 by (left; apply Hb). reflexivity.
Qed.

Definition back (mode : N) (t : list N) : list N := spaces (if N.eqb mode 98 || N.eqb mode 0 then ind else 0) ++ t.

Lemma cut_row : forall mode b, item_ok b -> remove_vertical U D mode ind literal (mk U (row b)) (vm b) = Ok (mkRline (Some (pl (back mode (it_r b)))) []).
Proof.
  intros mode b Hb. destruct (ql_pos b Hb) as [Pl Pr]. destruct (it_left b Hb) as (_ & _ & Hw). unfold remove_vertical, calculate_start_idx, calculate_end_idx, back_to_org.
  cbn [drops_input vm fst snd mk l_text l_tabpos v_quality v_end v_start].
  destruct (Nat.ltb_spec 0 ql) as [_|F]; [|lia]. destruct (Nat.ltb_spec 0 qr) as [_|F]; [|lia].
  assert (Ea : ind + ql = length (spaces ind ++ it_w b)) by (rewrite app_length, len_sp; lia).
  assert (Er : row b = (spaces ind ++ it_w b) ++ spaces pad ++ it_r b ++ it_e b) by (unfold row; rewrite <- !app_assoc; reflexivity).
  fold pad. rewrite Ea. rewrite (conf_all U HU _ (row b) literal _ (it_r b ++ it_e b) eq_refl Er). cbn [bind].
  rewrite (substr_pl U HU); [|apply row_okt; exact Hb|]. 2:{ rewrite !app_length, !len_sp. lia. }
  cbn [bind].
  assert (Eb : between (row b) (length (spaces ind ++ it_w b) + pad) (length (spaces ind ++ it_w b ++ spaces pad ++ it_r b)) = it_r b).
  { unfold between. set (P := spaces ind ++ it_w b ++ spaces pad).
    assert (EP : length (spaces ind ++ it_w b) + pad = length P) by (unfold P; rewrite !app_length, !len_sp; lia).
    assert (EQ : length (spaces ind ++ it_w b ++ spaces pad ++ it_r b) = length P + length (it_r b)) by (unfold P; rewrite !app_length, !len_sp; lia).
    assert (E2 : row b = P ++ it_r b ++ it_e b) by (rewrite Er; unfold P; rewrite <- !app_assoc; reflexivity).
    rewrite EP, EQ, E2, skipn_len by reflexivity. replace (length P + length (it_r b) - length P) with (length (it_r b)) by lia. apply firstn_len. reflexivity. }
  rewrite Eb. unfold back. destruct (_ || _); cbn [prepend_opt bind]; [rewrite (prepend_pl U HU); reflexivity|reflexivity].
Qed.

Lemma cut_rows : forall mode B, Forall item_ok B -> remove_vertical_all U D mode ind literal (map (fun b => mk U (row b)) B) (map vm B) =
  Ok (map (fun b => mkRline (Some (pl (back mode (it_r b)))) []) B).
Proof.
  intros mode B Ho. induction Ho as [|b B Hb _ IH]; [reflexivity|]. cbn [map remove_vertical_all]. rewrite cut_row by exact Hb. cbn [bind]. rewrite IH. reflexivity.
Qed.
Lemma kill_none : forall (A : list (list N)) L, Forall (fun x => blankb U x = true) A -> match L with x :: _ => blankb U x = false | [] => True end ->
  kill U None (map (fun x => mkRline (Some (pl x)) []) (A ++ L)) = Ok (length A).
Proof.
  intros A L HA HL. induction HA as [|x A Hx _ IH]; cbn [app map length].
  - destruct L as [|x L]; [reflexivity|]. cbn [map kill blank_opt r_text]. rewrite blank_pl, HL. reflexivity.
  - cbn [kill blank_opt r_text]. rewrite blank_pl, Hx. cbn [bind]. rewrite IH. reflexivity.
Qed.

Lemma blankb_has : forall x c, In c x -> is_blank U c = false -> c <> 13%N -> blankb U x = false.
Proof.
  intros x c Hi Hb Hc. destruct (blankb U x) eqn:E; [|reflexivity]. exfalso. unfold blankb in E. rewrite forallb_forall in E. specialize (E c Hi). rewrite Hb in E. apply N.eqb_neq in Hc. rewrite Hc in E. discriminate.
Qed.

Lemma blankb_back : forall mode x, blankb U (back mode x) = blankb U x.
Proof. intros. unfold back. apply (blankb_spaces U HU). Qed.

Definition border_ok (top : bool) (cn : nat -> nat) (T : list (list N)) : Prop :=
  length T = (if top then top_h D else bottom_h D) /\
  (forall k x, nth_error T k = Some x -> printed U true (border_row D top ind cn k) x) /\ Forall (fun x => plain_line x /\ blankb U x = false) T.

Lemma remove_closed : forall mode T A B C O cN cS M fin,
  usage (at_side (d_shape D) BTOP) cN -> usage (at_side (d_shape D) BBOT) cS -> border_ok true cN T -> border_ok false cS O ->
  Forall item_ok (A ++ B ++ C) -> Forall (fun b => blankb U (it_r b) = true) A -> Forall (fun b => blankb U (it_r b) = true) C ->
  B <> [] -> (forall b, hd_error B = Some b -> blankb U (it_r b) = false) -> (forall b, hd_error (rev B) = Some b -> blankb U (it_r b) = false) ->
  exists M' I', remove_box U D mode true true (mkInput (map (mk U) (T ++ map row (A ++ B ++ C) ++ O)) M ind fin) =
    Ok (mkInput (map (fun b => mk U (back mode (it_r b))) B) M' I' fin).
Proof.
  intros mode T A B C O cN cS M fin UN US (LT & PT & FT) (LO & PO & FO) HI HA HC Bne Bh Bl.
  set (X := A ++ B ++ C) in *. set (inp := mkInput (map (mk U) (T ++ map row X ++ O)) M ind fin).
  assert (EL : i_lines inp = map (mk U) T ++ map (fun b => mk U (row b)) X ++ map (mk U) O) by (cbn [inp i_lines]; rewrite !map_app, map_map; reflexivity).
  assert (En : i_num_lines inp = length T + length X + length O) by (unfold i_num_lines; rewrite EL, !app_length, !map_length; lia).
  assert (PTop : 0 < top_h D).
  { pose proof (wf_corners U D WF NW ltac:(cbn; auto)) as He. unfold isempty in He. rewrite !orb_false_iff, !Nat.eqb_neq in He. unfold top_h. lia. }
  assert (PBot : 0 < bottom_h D).
  { pose proof (wf_corners U D WF SW ltac:(cbn; auto)) as He. unfold isempty in He. rewrite !orb_false_iff, !Nat.eqb_neq in He. unfold bottom_h. lia. }
  assert (Hin : Forall (fun l => built_line U l /\ ~ In 27%N (memory (l_text l))) (i_lines inp)).
  { rewrite EL. apply Forall_app. split; [|apply Forall_app; split].
    - apply Forall_forall. intros l Hl. apply in_map_iff in Hl as (x & <- & Hx). rewrite Forall_forall in FT. destruct (FT x Hx) as [[Ho Hp] _]. apply mk_built; [exact Ho|apply plain_narrow; exact Hp].
    - apply Forall_forall. intros l Hl. apply in_map_iff in Hl as (b & <- & Hb). rewrite Forall_forall in HI. apply mk_built; [apply row_okt; apply HI; exact Hb|apply row_lead; apply HI; exact Hb].
    - apply Forall_forall. intros l Hl. apply in_map_iff in Hl as (x & <- & Hx). rewrite Forall_forall in FO. destruct (FO x Hx) as [[Ho Hp] _]. apply mk_built; [exact Ho|apply plain_narrow; exact Hp]. }
  pose proof (mono_input U HU inp Hin) as Mono.
  assert (F1 : find_first_line U inp = Ok 0).
  { unfold find_first_line. rewrite EL. destruct T as [|x T]; [cbn in LT; lia|]. cbn [map app first_nonblank mk l_text]. rewrite blank_pl.
    inversion FT as [|? ? [_ Hx] _]; subst. rewrite Hx. reflexivity. }
  assert (F2 : find_last_line U inp = Ok (i_num_lines inp - 1)).
  { unfold find_last_line. rewrite En, subz_le by lia. rewrite EL. assert (One : O <> []) by (destruct O; [cbn in LO; lia|discriminate]).
    destruct (exists_last One) as (O' & x & ->). rewrite !map_app, !rev_app_distr. cbn [map rev app first_nonblank mk l_text]. rewrite blank_pl.
    apply Forall_app in FO as [_ FO]. inversion FO as [|? ? [_ Hx] _]; subst. rewrite Hx. cbn [bind]. rewrite Nat.sub_0_r. reflexivity. }
  assert (S : forall s, empty_side (d_shape D) s = false) by (intros s; exact (cl_sides _ _ _ _ CD s)).
  assert (FTop : find_top_side U D inp 0 literal = Ok (length T, literal)).
  { rewrite LT. rewrite (top_found U HU D WF HB HP inp Mono 0 ind cN literal UN); [reflexivity| |exact PTop].
    intros k Hk. destruct (nth_error T k) as [x|] eqn:Ex; [|apply nth_error_None in Ex; lia]. exists (mk U x). cbn [Nat.add]. split.
    - rewrite EL, nth_error_app1 by (rewrite map_length; lia). apply map_nth_error. exact Ex.
    - split; [|cbn [mk l_text]; rewrite mem_pl; apply PT; exact Ex]. rewrite Forall_forall in FT. destruct (FT x (nth_error_In _ _ Ex)) as [[Ho Hp] _]. apply mk_built; [exact Ho|apply plain_narrow; exact Hp]. }
  assert (FBot : find_bottom_side U D inp (i_num_lines inp) literal = Ok (length T + length X, literal)).
  { rewrite En, LO. rewrite (bottom_found U HU D WF HB HP inp Mono (length T + length X) ind cS literal US); [reflexivity| |exact PBot].
    intros k Hk. destruct (nth_error O k) as [x|] eqn:Ex; [|apply nth_error_None in Ex; lia]. exists (mk U x). split.
    - rewrite EL, !nth_error_app2 by (rewrite ?map_length; lia). rewrite !map_length. replace (length T + length X + k - length T - length X) with k by lia. apply map_nth_error. exact Ex.
    - split; [|cbn [mk l_text]; rewrite mem_pl; apply PO; exact Ex]. rewrite Forall_forall in FO. destruct (FO x (nth_error_In _ _ Ex)) as [[Ho Hp] _]. apply mk_built; [exact Ho|apply plain_narrow; exact Hp]. }
  assert (LX : 0 < length X) by (unfold X; rewrite !app_length; destruct B; [congruence|cbn; lia]).
  assert (FV : find_vertical_shapes U D inp (seq (length T) (length X)) literal = Ok (literal, map vm X)).
  { unfold find_vertical_shapes. rewrite !S. cbn [andb]. unfold comp_types. cbn [find_vertical_types]. rewrite Mono, (plain_mono U HU D WF HB HP). cbn [comp_type_is_viable Bool.eqb negb orb].
    rewrite <- (map_length (mk U) T). rewrite (body_row inp (map (mk U) T) X (map (mk U) O) EL HI). cbn [bind]. destruct (sufficient_body_quality D (map vm X)); reflexivity. }
  unfold remove_box. rewrite F1. cbn [bind]. destruct (Nat.leb_spec (i_num_lines inp) 0) as [F|_]; [lia|]. rewrite !S, FTop. cbn [bind fst snd]. rewrite F2. cbn [bind].
  replace (Datatypes.S (i_num_lines inp - 1)) with (i_num_lines inp) by lia. rewrite FBot. cbn [bind fst snd].
  destruct (Nat.ltb_spec (length T) (length T + length X)) as [_|F]; [|lia]. replace (length T + length X - length T) with (length X) by lia. rewrite FV. cbn [bind fst snd].
  unfold apply_results_to_input. rewrite EL. replace (length T + length X - length T) with (length X) by lia.
  assert (K1 : skipn (length T) (map (mk U) T ++ map (fun b => mk U (row b)) X ++ map (mk U) O) = map (fun b => mk U (row b)) X ++ map (mk U) O) by (apply skipn_len; apply map_length).
  rewrite K1. rewrite (firstn_len _ _ (map (fun b => mk U (row b)) X) (map (mk U) O)) by (rewrite map_length; reflexivity).
  cbn [inp i_indent i_final_newline]. rewrite cut_rows by exact HI. cbn [bind].
  destruct (Nat.ltb_spec (length T) (length T + length X)) as [_|F]; [|lia].
  rewrite (firstn_len _ _ (map (mk U) T)) by (rewrite map_length; reflexivity).
  assert (K2 : skipn (length T + length X) (map (mk U) T ++ map (fun b => mk U (row b)) X ++ map (mk U) O) = map (mk U) O).
  { rewrite app_assoc. apply skipn_len. rewrite app_length, !map_length. reflexivity. }
  rewrite K2. cbn [orb]. set (R := fun b => mkRline (Some (pl (back mode (it_r b)))) []).
  set (L0 := map keep_line (map (mk U) T)). set (L1 := map keep_line (map (mk U) O)).
  assert (LL0 : length L0 = length T) by (unfold L0; rewrite !map_length; reflexivity). assert (LL1 : length L1 = length O) by (unfold L1; rewrite !map_length; reflexivity).
  assert (KB : killblank U D true true (L0 ++ map R X ++ L1) (length T) (length T + length X) = Ok (length T + length A, length T + length A + length B)).
  { unfold killblank. cbn [andb negb]. rewrite (skipn_len _ _ L0) by exact LL0. replace (length T + length X - length T) with (length X) by lia.
    rewrite (firstn_len _ _ (map R X)) by (apply map_length).
    assert (ER : forall Z, map R Z = map (fun x => mkRline (Some (pl x)) []) (map (fun b => back mode (it_r b)) Z)) by (intros Z; rewrite map_map; reflexivity).
    assert (HA' : Forall (fun x => blankb U x = true) (map (fun b => back mode (it_r b)) A)).
    { apply Forall_forall. intros x Hx. apply in_map_iff in Hx as (b & <- & Hb). rewrite blankb_back. rewrite Forall_forall in HA. auto. }
    assert (HC' : Forall (fun x => blankb U x = true) (map (fun b => back mode (it_r b)) (rev C))).
    { apply Forall_forall. intros x Hx. apply in_map_iff in Hx as (b & <- & Hb). rewrite blankb_back. rewrite Forall_forall in HC. apply HC. apply in_rev. exact Hb. }
    assert (K3 : kill U None (map R X) = Ok (length A)).
    { rewrite ER. unfold X. rewrite map_app, kill_none; [rewrite map_length; reflexivity|exact HA'|].
      destruct B as [|b B]; [congruence|]. cbn [app map]. rewrite blankb_back. apply Bh. reflexivity. }
    assert (K4 : kill U None (rev (map R (B ++ C))) = Ok (length C)).
    { rewrite <- map_rev, rev_app_distr, ER, map_app, kill_none; [rewrite map_length, rev_length; reflexivity|exact HC'|].
      destruct (rev B) as [|b B'] eqn:Eb; [apply (f_equal (@rev item)) in Eb; rewrite rev_involutive in Eb; cbn in Eb; congruence|]. cbn [map]. rewrite blankb_back. apply Bl. reflexivity. }
    assert (EX : L0 ++ map R X ++ L1 = (L0 ++ map R A) ++ map R (B ++ C) ++ L1) by (unfold X; rewrite (map_app R A), <- !app_assoc; reflexivity).
    rewrite K3. cbn [bind]. rewrite EX, skipn_len by (rewrite app_length, map_length; lia).
    replace (length T + length X - (length T + length A)) with (length (B ++ C)) by (unfold X; rewrite (app_length A); lia).
    rewrite (firstn_len _ _ (map R (B ++ C))) by (apply map_length). rewrite K4. cbn [bind]. f_equal. f_equal. unfold X. rewrite !app_length. lia. }
  rewrite KB. cbn [bind]. unfold remove_bottom_from_input. rewrite En.
  destruct (Nat.ltb_spec (length T + length A + length B) (length T + length X + length O)) as [_|F]; [|unfold X in F; rewrite !app_length in F; lia].
  assert (LX2 : length (L0 ++ map R X ++ L1) = length T + length X + length O) by (rewrite !app_length, map_length; lia).
  rewrite LX2, Nat.ltb_irrefl. rewrite (skipn_all2 (L0 ++ map R X ++ L1)) by lia. rewrite app_nil_r. cbn [bind].
  assert (E3 : L0 ++ map R X ++ L1 = (L0 ++ map R A ++ map R B) ++ map R C ++ L1) by (unfold X; rewrite !map_app, <- !app_assoc; reflexivity).
  rewrite E3, (firstn_len _ _ (L0 ++ map R A ++ map R B)) by (rewrite !app_length, !map_length; lia).
  unfold remove_top_from_input. destruct (Nat.ltb_spec 0 (length T + length A)) as [_|F]; [|lia].
  rewrite subz_le by (rewrite !app_length, !map_length; lia). cbn [bind firstn app]. rewrite (app_assoc L0), skipn_len by (rewrite app_length, map_length; lia).
  assert (SB : mapM settle (map R B) = Ok (map (fun b => mk U (back mode (it_r b))) B)).
  { clear. induction B as [|b B IH]; [reflexivity|]. cbn [map mapM]. unfold settle at 1. cbn [R r_text r_tabpos bind]. rewrite IH. reflexivity. }
  rewrite SB. cbn [bind]. rewrite S. cbn [Nat.eqb]. eauto.
Qed.
End Removal.
End Closed.
