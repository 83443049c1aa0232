(** * Drawing a closed box: the printed lines and how they are read *)
From Coq Require Import List Arith NArith ZArith Bool Lia.
From Verif Require Import Base BaseFacts Model_Unicode Model_Bxs Model_Shape Model_Generate Model_Input Model_Detect Model_Remove Model_Main
  Spec_Str Spec_Design Spec_Input Spec_Box Spec_Remove Spec_Parser Spec_Comment Spec_Round Spec_Closed
  Proof_Str Proof_Bxs Proof_BxsOps Proof_BxsMore Proof_Shows Proof_Hmm Proof_Horiz Proof_Open Proof_Recog Proof_Found Proof_Input Proof_Generate Proof_Rows Proof_Draw Proof_Body Proof_Comment Proof_Round Proof_Closed.
Import ListNotations.

Section Draw.
Variable U : uctab.
Hypothesis HU : uctab_ok U.
Notation pl := (pl U).
Notation okt := (okt U).
Notation ends := (ends U).

Lemma zip3_app : forall ind L1 L2 M1 M2 R1 R2, length L1 = length M1 -> length M1 = length R1 ->
  zip3 ind (L1 ++ L2) (M1 ++ M2) (R1 ++ R2) = zip3 ind L1 M1 R1 ++ zip3 ind L2 M2 R2.
Proof.
  intros ind L1. induction L1 as [|l L1 IH]; intros L2 [|m M1] M2 [|r R1] R2 H1 H2; try discriminate; [reflexivity|].
  cbn [app]. unfold zip3 in *. cbn [combine map fst snd app]. f_equal. apply IH; cbn in *; lia.
Qed.

Lemma zip3_rows : forall ind (f g h : nat -> list N) n k,
  zip3 ind (map f (seq k n)) (map g (seq k n)) (map h (seq k n)) = map (fun j => ind ++ f j ++ g j ++ h j) (seq k n).
Proof. intros ind f g h n. induction n as [|n IH]; intros k; [reflexivity|]. cbn [seq map]. unfold zip3 in *. cbn [combine map fst snd]. f_equal. apply IH. Qed.

Lemma shape_rows_seq : forall s n, length (s_mbcs s) = n -> shape_rows s = map (row_text s) (seq 0 n).
Proof.
  intros s n <-. unfold shape_rows, row_text. rewrite <- (map_length memory). induction (map memory (s_mbcs s)) as [|x l IH]; [reflexivity|].
  cbn [length seq map nth]. f_equal. rewrite <- seq_shift, map_map. exact IH.
Qed.

Section Design.
Variables (D : design) (ql qr : nat).
Hypothesis WF : wf_design U D.
Hypothesis HB : built U D.
Hypothesis HP : plain_design U D.
Hypothesis CD : closed_design U D ql qr.

Lemma corner_rows : forall c, In c corners -> length (s_mbcs (d_shape D c)) = s_height (d_shape D c).
Proof. intros c Hc. apply (wf_shapes U D WF c); [|apply (wf_corners U D WF); exact Hc]. cbn in Hc. repeat (destruct Hc as [<-|Hc]; [vm_compute; lia|]). destruct Hc. Qed.
Lemma h_top : s_height (d_shape D NW) = top_h D /\ s_height (d_shape D NE) = top_h D.
Proof. split; [reflexivity|]. apply (wf_heights U D WF BTOP 4); [auto|lia|]. apply (wf_corners U D WF). cbn. auto. Qed.
Lemma h_bottom : s_height (d_shape D SW) = bottom_h D /\ s_height (d_shape D SE) = bottom_h D.
Proof.
  split; [reflexivity|]. symmetry. apply (wf_heights U D WF BBOT 4); [auto|lia|]. apply (wf_corners U D WF). cbn. auto.
Qed.

Lemma top_block : forall ind cn, zip3 (spaces ind) (shape_rows (d_shape D NW)) (top_rows D cn) (shape_rows (d_shape D NE)) = map (border_row D true ind cn) (seq 0 (top_h D)).
Proof.
  intros ind cn. rewrite (shape_rows_seq _ (top_h D)) by (rewrite corner_rows by (cbn; auto); apply h_top).
  rewrite (shape_rows_seq (d_shape D NE) (top_h D)) by (rewrite corner_rows by (cbn; auto); apply h_top).
  unfold top_rows. rewrite zip3_rows. apply map_ext. intros j. unfold border_row. rewrite (cl_sides _ _ _ _ CD BLEF). reflexivity.
Qed.
Lemma bottom_block : forall ind cn, zip3 (spaces ind) (shape_rows (d_shape D SW)) (bottom_rows D cn) (shape_rows (d_shape D SE)) = map (border_row D false ind cn) (seq 0 (bottom_h D)).
Proof.
  intros ind cn. rewrite (shape_rows_seq _ (bottom_h D)) by (rewrite corner_rows by (cbn; auto); apply h_bottom).
  rewrite (shape_rows_seq (d_shape D SE) (bottom_h D)) by (rewrite corner_rows by (cbn; auto); apply h_bottom).
  unfold bottom_rows. rewrite zip3_rows. apply map_ext. intros j. unfold border_row. rewrite (cl_sides _ _ _ _ CD BLEF). reflexivity.
Qed.

Lemma side_in : forall (left : bool) cn r, usage (at_side (d_shape D) (if left then BLEF else BRIG)) cn ->
  In r (vside_rows (at_side (d_shape D) (if left then BLEF else BRIG)) (if left then [3;2;1] else [1;2;3]) cn) -> In r (wall_rows D left).
Proof.
  intros left cn r [Hu _] H. unfold vside_rows in H. apply in_flat_map in H as (i & Hi & H). apply in_concat in H as (l & Hl & H).
  assert (Hi' : In i [1;2;3]) by (destruct left; cbn in *; tauto).
  assert (Hc : cn i <> 0) by (intros E; rewrite E in Hl; destruct Hl). apply repeat_spec in Hl. subst l.
  specialize (Hu i Hi'). destruct (isempty (at_side (d_shape D) (if left then BLEF else BRIG) i)) eqn:Ee; [congruence|].
  unfold wall_rows. apply in_concat. exists (shape_rows (at_side (d_shape D) (if left then BLEF else BRIG) i)). split; [|exact H].
  apply in_map_iff. exists (nth i (side_of (if left then BLEF else BRIG)) 0). split; [unfold at_side in Ee; rewrite Ee; reflexivity|].
  destruct left; cbn in Hi'; destruct Hi' as [<-|[<-|[<-|[]]]]; vm_compute; auto 10.
Qed.

Lemma body_items : forall ind L Mid R, length L = length Mid -> length Mid = length R ->
  Forall (fun r => In r (wall_rows D true)) L -> Forall (fun r => In r (wall_rows D false)) R -> Forall (fun m => exists r, m = spaces (d_pad_left D) ++ r /\ okt r) Mid ->
  exists items, zip3 (spaces ind) L Mid R = map (row D ind) items /\ Forall (item_ok U D) items /\ Forall2 (fun m b => m = spaces (d_pad_left D) ++ it_r b) Mid items.
Proof.
  intros ind L. induction L as [|l L IH]; intros [|m Mid] [|r R] H1 H2 HL HR HM; try discriminate; [exists []; repeat split; constructor|].
  inversion HL as [|? ? Hl HL']; subst. inversion HR as [|? ? Hr HR']; subst. inversion HM as [|? ? (x & Em & Hx) HM']; subst.
  destruct (IH Mid R ltac:(cbn in *; lia) ltac:(cbn in *; lia) HL' HR' HM') as (items & E & Hok & H2'). exists (mkItem l x r :: items). split; [|split].
  - cbn [map]. rewrite <- E. unfold zip3. cbn [combine map fst snd]. unfold row at 1. cbn [it_w it_r it_e]. reflexivity.
  - constructor; [|exact Hok]. split; [exact Hl|]. split; [exact Hr|exact Hx].
  - constructor; [reflexivity|exact H2'].
Qed.

Lemma vlen : forall s os cn v, usage (at_side (d_shape D) s) cn -> s = BLEF /\ os = [3;2;1] \/ s = BRIG /\ os = [1;2;3] -> tot (fun i => s_height (at_side (d_shape D) s i)) cn [1;2;3] = v ->
  length (vside_rows (at_side (d_shape D) s) os cn) = v.
Proof.
  intros s os cn v [Hu _] Hs <-. rewrite vside_rows_length.
  - destruct Hs as [[_ ->]|[_ ->]]; unfold tot; rewrite !map_cons, !sum_cons; cbn [map]; lia.
  - intros i Hi Hc. assert (Hi' : In i [1;2;3]) by (destruct Hs as [[_ ->]|[_ ->]]; cbn in *; tauto). specialize (Hu i Hi').
    destruct (isempty (at_side (d_shape D) s i)) eqn:Ee; [lia|]. unfold at_side in *. apply (wf_shapes U D WF _); [|exact Ee].
    destruct Hs as [[-> _]|[-> _]]; cbn in Hi'; destruct Hi' as [<-|[<-|[<-|[]]]]; vm_compute; lia.
Qed.

(** the rows of the picture *)
Lemma closed_rows : forall o inp cN cS cW cE w v f1 f2 hpl hpr cs rows, picture U o D inp cN cS cW cE w v f1 f2 hpl hpr cs rows -> left_aligned o ->
  (forall l, In l (i_lines inp) -> okt (memory (l_text l))) ->
  exists A B C, rows = map (border_row D true (box_indent D inp) cN) (seq 0 (top_h D)) ++ map (row D (box_indent D inp)) (A ++ B ++ C) ++ map (border_row D false (box_indent D inp) cS) (seq 0 (bottom_h D)) /\
    Forall (item_ok U D) (A ++ B ++ C) /\ Forall (fun b => exists r, it_r b = spaces r) A /\ Forall (fun b => exists r, it_r b = spaces r) C /\
    Forall2 (fun l b => exists r, it_r b = memory (l_text l) ++ spaces r) (i_lines inp) B.
Proof.
  intros o inp cN cS cW cE w v f1 f2 hpl hpr cs rows P (HJ & HA1 & HA2 & HW) Hok.
  assert (Eh : hpl = d_pad_left D).
  { pose proof (pc_halign _ _ _ _ _ _ _ _ _ _ _ _ _ _ _ _ P) as X. assert (Q : ~ squeezed o D (w - i_maxline inp)) by (intros (F & _); congruence).
    destruct (X Q) as (_ & _ & _ & Y). unfold halign in Y. apply N.eqb_neq in HA1. apply N.eqb_neq in HA2. rewrite HA1, HA2 in Y. exact Y. }
  pose proof (pc_rows _ _ _ _ _ _ _ _ _ _ _ _ _ _ _ _ P) as Er. rewrite (cl_sides _ _ _ _ CD BLEF) in Er. unfold mid_rows, left_rows, right_rows, unless in Er.
  rewrite !(cl_sides _ _ _ _ CD) in Er.
  set (L := vside_rows (at_side (d_shape D) BLEF) [3;2;1] cW) in *. set (R := vside_rows (at_side (d_shape D) BRIG) [1;2;3] cE) in *.
  assert (HL : length L = v) by (apply (vlen BLEF); [apply (pc_useW _ _ _ _ _ _ _ _ _ _ _ _ _ _ _ _ P)|auto|apply (pc_totW _ _ _ _ _ _ _ _ _ _ _ _ _ _ _ _ P)]).
  assert (HR : length R = v) by (apply (vlen BRIG); [apply (pc_useE _ _ _ _ _ _ _ _ _ _ _ _ _ _ _ _ P)|auto|apply (pc_totE _ _ _ _ _ _ _ _ _ _ _ _ _ _ _ _ P)]).
  pose proof (pc_contents _ _ _ _ _ _ _ _ _ _ _ _ _ _ _ _ P) as Hc.
  assert (Hcs : length cs = i_num_lines inp) by (unfold i_num_lines; symmetry; eapply Forall2_len; exact Hc).
  pose proof (pc_f _ _ _ _ _ _ _ _ _ _ _ _ _ _ _ _ P) as Hf. pose proof (pc_h _ _ _ _ _ _ _ _ _ _ _ _ _ _ _ _ P) as Hh.
  set (Mid := repeat (spaces w) f1 ++ cs ++ repeat (spaces w) f2) in *.
  assert (HM : length Mid = v) by (unfold Mid; rewrite !app_length, !repeat_length; lia).
  assert (Lt : length (shape_rows (d_shape D NW)) = top_h D) by (unfold shape_rows; rewrite map_length, corner_rows by (cbn; auto); apply h_top).
  assert (Rt : length (shape_rows (d_shape D NE)) = top_h D) by (unfold shape_rows; rewrite map_length, corner_rows by (cbn; auto); apply h_top).
  assert (Mt : length (top_rows D cN) = top_h D) by (unfold top_rows; rewrite map_length, seq_length; reflexivity).
  assert (Er2 : rows = zip3 (spaces (box_indent D inp)) (shape_rows (d_shape D NW) ++ L ++ shape_rows (d_shape D SW))
     (top_rows D cN ++ Mid ++ bottom_rows D cS) (shape_rows (d_shape D NE) ++ R ++ shape_rows (d_shape D SE))).
  { rewrite Er. unfold Mid. rewrite <- !app_assoc. reflexivity. }
  rewrite zip3_app in Er2 by lia. rewrite zip3_app in Er2 by lia. rewrite top_block, bottom_block in Er2.
  (* the parts between the walls *)
  assert (Hcc : Forall2 (fun l c => exists r, c = spaces (d_pad_left D) ++ memory (l_text l) ++ spaces r) (i_lines inp) cs).
  { clear - Hc HJ Eh Hok. subst hpl. set (h := d_pad_left D) in *. clearbody h. induction Hc as [|l c ls cs (sl & k & sr & (t & ts & tx & cc & -> & R1 & R2 & V & K & KV & _) & _ & J) _ IH]; [constructor|].
    constructor; [|apply IH; intros x Hx; apply Hok; right; exact Hx].
    destruct (J ts R1) as [J1 _]. destruct (J1 (or_intror HJ)) as [-> ->]. exists sr. destruct (KV eq_refl) as [->|[Hv ->]]; [reflexivity|].
    assert (E : memory (l_text l) = []).
    { assert (ts = plain (memory (l_text l))) as ->; [|rewrite visible_plain in Hv; exact Hv]. pose proof (okt_no27 U _ (Hok l (or_introl eq_refl))) as N27.
      apply reading_unique; [apply R1|apply (closed_plain _ N27)|]. rewrite render_plain. apply R1. }
    rewrite E. reflexivity. }
  assert (Hsp : forall n, d_pad_left D <= n -> exists r, spaces n = spaces (d_pad_left D) ++ r /\ okt r).
  { intros n Hn. exists (spaces (n - d_pad_left D)). split; [|apply (okt_spaces U HU)]. unfold spaces. rewrite <- repeat_app. f_equal. lia. }
  assert (FM : Forall (fun m => exists r, m = spaces (d_pad_left D) ++ r /\ okt r) Mid).
  { unfold Mid. apply Forall_app. split; [|apply Forall_app; split].
    - apply Forall_forall. intros x Hx. apply repeat_spec in Hx. subst x. apply Hsp. lia.
    - clear - Hcc Hok HU. induction Hcc as [|l c ls cs (r & ->) _ IH]; [constructor|]. constructor; [|apply IH; intros x Hx; apply Hok; right; exact Hx].
      eexists. split; [reflexivity|]. apply okt_app. split; [apply Hok; left; reflexivity|apply (okt_spaces U HU)].
    - apply Forall_forall. intros x Hx. apply repeat_spec in Hx. subst x. apply Hsp. lia. }
  destruct (body_items (box_indent D inp) L Mid R ltac:(lia) ltac:(lia)) as (items & Ei & Iok & I2).
  { apply Forall_forall. intros r Hr. apply (side_in true cW r); [apply (pc_useW _ _ _ _ _ _ _ _ _ _ _ _ _ _ _ _ P)|exact Hr]. }
  { apply Forall_forall. intros r Hr. apply (side_in false cE r); [apply (pc_useE _ _ _ _ _ _ _ _ _ _ _ _ _ _ _ _ P)|exact Hr]. }
  { exact FM. }
  rewrite Ei in Er2. unfold Mid in I2. apply Forall2_app_inv_l in I2 as (A & BC & IA & IBC & ->). apply Forall2_app_inv_l in IBC as (B & C & IB & IC & ->).
  assert (Inv : forall x y, spaces (d_pad_left D) ++ x = spaces (d_pad_left D) ++ y -> x = y) by (intros x y E; apply app_inv_head in E; exact E).
  assert (Fill : forall f X, Forall2 (fun m b => m = spaces (d_pad_left D) ++ it_r b) (repeat (spaces w) f) X -> Forall (fun b => exists r, it_r b = spaces r) X).
  { intros f X HX. remember (repeat (spaces w) f) as rs eqn:Ers. assert (Hall : forall x, In x rs -> x = spaces w) by (intros x Hx; subst rs; apply repeat_spec in Hx; exact Hx).
    clear Ers. induction HX as [|m b ms bs Em _ IH]; [constructor|]. constructor; [|apply IH; intros x Hx; apply Hall; right; exact Hx].
    rewrite (Hall m (or_introl eq_refl)) in Em. exists (w - d_pad_left D). apply Inv. rewrite <- Em. unfold spaces. rewrite <- repeat_app. f_equal. lia. }
  exists A, B, C. split; [exact Er2|]. split; [exact Iok|]. split; [apply (Fill f1); exact IA|]. split; [apply (Fill f2); exact IC|].
  clear - Hcc IB Inv. revert B IB. induction Hcc as [|l c ls cs (r & Ec) _ IH]; intros B IB; inversion IB; subst; [constructor|]. constructor; [|apply IH; assumption].
  exists r. apply Inv. congruence.
Qed.

(** characters of the border *)
Lemma sp_chars : forall m, Forall (text_char U) (spaces m).
Proof.
  intros m. apply Forall_forall. intros c X. apply repeat_spec in X. subst c. split; [|repeat split; discriminate].
  pose proof (okt_spaces U HU 1) as Q. inversion Q as [|? ? (_ & _ & A) _]. exact A.
Qed.
Definition both (x : list N) : Prop := Forall (text_char U) x /\ Spec_Remove.plain_text U x.
Lemma both_app : forall a b, both a -> both b -> both (a ++ b).
Proof. intros a b [A1 A2] [B1 B2]. split; apply Forall_app; split; assumption. Qed.
Lemma both_nil : both [].
Proof. split; constructor. Qed.
Lemma both_sp : forall n, both (spaces n).
Proof. intros n. split; [apply sp_chars|]. apply Forall_forall. intros c X. apply repeat_spec in X. subst c. repeat split; discriminate. Qed.
Lemma both_text : forall i k, i < 16 -> both (row_text (d_shape D i) k).
Proof.
  intros i k Hi. unfold row_text. destruct (nth_in_or_default k (map memory (s_mbcs (d_shape D i))) []) as [H| ->]; [|apply both_nil].
  apply in_map_iff in H as (m & <- & Hm). split; [apply (cl_chars _ _ _ _ CD i m Hi Hm)|apply (pd_rows U D HP i m Hi Hm)].
Qed.
Lemma both_concat : forall x n, both x -> both (concat (repeat x n)).
Proof. intros x n H. induction n as [|n IH]; [apply both_nil|]. cbn [repeat concat]. apply both_app; assumption. Qed.
Lemma border_both : forall (top : bool) ind cn k, both (border_row D top ind cn k).
Proof.
  intros top ind cn k. unfold border_row. apply both_app; [apply both_sp|]. apply both_app.
  - destruct (blank_side D BLEF); [apply both_nil|]. apply both_text. destruct top; vm_compute; lia.
  - apply both_app; [|apply both_text; destruct top; vm_compute; lia].
    assert (G : forall os, Forall (fun i => In i [1;2;3]) os -> both (hside_row (at_side (d_shape D) (if top then BTOP else BBOT)) os cn k)).
    { intros os Hos. unfold hside_row. induction Hos as [|i os Hi _ IH]; [apply both_nil|]. cbn [flat_map]. apply both_app; [|exact IH]. apply both_concat. unfold at_side. apply both_text.
      destruct top; cbn in Hi; destruct Hi as [<-|[<-|[<-|[]]]]; vm_compute; lia. }
    apply G. destruct top; repeat (constructor; [cbn; tauto|]); constructor.
Qed.
Lemma border_sp : forall (top : bool) ind cn k, border_row D top ind cn k = spaces ind ++ border_row D top 0 cn k.
Proof. reflexivity. Qed.

Lemma top_shows : forall ind cn k, usage (at_side (d_shape D) BTOP) cn -> k < top_h D -> exists c, In c (border_row D true ind cn k) /\ is_blank U c = false.
Proof. intros ind cn k Hu Hk. destruct (cl_top _ _ _ _ CD cn k Hu Hk) as (c & Hc & Hb). exists c. rewrite border_sp. split; [apply in_or_app; right; exact Hc|exact Hb]. Qed.
Lemma bottom_shows : forall ind cn k, usage (at_side (d_shape D) BBOT) cn -> k < bottom_h D -> exists c, In c (border_row D false ind cn k) /\ is_blank U c = false.
Proof. intros ind cn k Hu Hk. destruct (cl_bottom _ _ _ _ CD cn k Hu Hk) as (c & Hc & Hb). exists c. rewrite border_sp. split; [apply in_or_app; right; exact Hc|exact Hb]. Qed.
End Design.

Lemma printed_line : forall color x p, okt x -> (exists c, In c x /\ is_blank U c = false) -> printed U color x p ->
  printed U true x p /\ exists b, x = p ++ b /\ blanks U b /\ ends p.
Proof.
  intros color x p Ho (c & Hc & Hb) (keep & cut & R & -> & Hcut & Hk).
  assert (E : plain x = keep ++ cut).
  { symmetry. apply reading_unique; [apply R|apply (closed_plain _ (okt_no27 U _ Ho))|]. rewrite render_plain. apply R. }
  pose proof E as E'. apply plain_split in E as (k & y & E & -> & ->).
  assert (Ek : (if color then render (plain k) else visible (plain k)) = k) by (rewrite render_plain, visible_plain; destruct color; reflexivity). rewrite Ek.
  rewrite visible_app, !visible_plain, <- E in Hk. rewrite visible_plain in Hcut.
  assert (Hx : forallb (is_blank U) x = false).
  { destruct (forallb (is_blank U) x) eqn:F; [|reflexivity]. rewrite forallb_forall in F. rewrite (F c Hc) in Hb. discriminate. }
  specialize (Hk Hx). split.
  - exists (plain k), (plain y). split; [exact R|]. split; [rewrite render_plain; reflexivity|]. rewrite visible_app, !visible_plain, <- E. split; [exact Hcut|]. intros _. exact Hk.
  - exists y. split; [exact E|]. split; [|exact Hk]. apply Forall_forall. rewrite forallb_forall in Hcut. exact Hcut.
Qed.

Lemma prefix_sp : forall n p b y, p ++ b = spaces n ++ y -> ends p -> exists r, p = spaces n ++ r.
Proof.
  intros n p b y E (m & c & -> & Hc). apply (not_blank_32 U HU) in Hc. rewrite <- app_assoc in E. cbn [app] in E. revert m E.
  induction n as [|n IH]; intros m E; [eexists; reflexivity|]. cbn [spaces repeat app] in E. destruct m as [|x m]; cbn [app] in E; injection E as E1 E2; [congruence|].
  destruct (IH m E2) as (r & Er). exists r. cbn [spaces repeat app]. rewrite E1. f_equal. exact Er.
Qed.

(** ** the lines read again *)
Lemma sp_lead : forall n p, (exists r, p = spaces n ++ r) -> narrow_lead U p -> n <= indent (pl p).
Proof. intros n p (r & ->) Hn. rewrite indent_pl by exact Hn. rewrite (lead_sp U HU). lia. Qed.

Lemma read_again : forall o q eol fin ps ind, 1 <= o_tabstop o <= 16 -> eol = [10%N] \/ eol = [13%N; 10%N] -> ps <> [] ->
  Forall (fun p => Forall (text_char U) p /\ ends p /\ narrow_lead U p /\ (exists r, p = spaces ind ++ r)) ps -> Forall (fun p => N.of_nat (length p) <= line_limit)%N ps ->
  Exists (fun p => 0 < cols U p /\ indent (pl p) = ind) ps ->
  exists M, handle_input U true o q [] (raw_lines (terminated eol fin ps)) = Ok (mkInput (map (mk U) ps) M ind fin).
Proof.
  intros o q eol fin ps ind Ht He Hne Hp Hs Hex. rewrite Forall_forall in Hp, Hs.
  assert (R : forall x, In x ps -> exists a c, x = a ++ [c] /\ c <> 13%N /\ c <> 10%N /\ okt x /\ ~ In 10%N x).
  { intros x Hx. destruct (Hp x Hx) as (Hc & (a & c & E & _) & _). exists a, c. split; [exact E|]. pose proof (chars_okt U _ Hc) as Ho.
    assert (H10 : ~ In 10%N x) by (intros Y; rewrite Forall_forall in Hc; destruct (Hc _ Y) as (_ & _ & _ & _ & F); congruence).
    rewrite E in Hc. apply Forall_app in Hc as [_ Hc]. inversion Hc as [|? ? (_ & _ & _ & A & B) _]; subst. auto. }
  assert (L : In (last ps []) ps) by (destruct (exists_last Hne) as (a & b & ->); rewrite last_last; apply in_or_app; right; left; reflexivity).
  assert (Hlf : lf eol) by (unfold lf; tauto).
  rewrite raws_terminated; [|exact He| | |].
  - unfold handle_input, read_all_input. rewrite (raws_read U _ eol fin _ Hlf).
    + cbn [bind fst snd]. rewrite raws_last; [|exact He|exact Hne|].
      * unfold analyze_input. destruct (is_nil (map (mk U) ps)) eqn:En; [destruct ps; [congruence|discriminate]|]. cbn [negb]. rewrite andb_false_r. cbn [bind].
        assert (G : get_indent (map (mk U) ps) = ind); [|rewrite G; eexists; reflexivity].
        apply Exists_exists in Hex as (u & Hu & Pu & Iu).
        destruct (get_indent_spec (map (mk U) ps)) as [[H0 _]|[H1 (l & Hl & _ & Ha)]].
        -- exfalso. specialize (H0 (mk U u) (in_map _ _ _ Hu)). cbn [mk l_text] in H0. rewrite (cols_pl U) in H0. lia.
        -- pose proof (H1 (mk U u) (in_map _ _ _ Hu)) as Gu. cbn [mk l_text] in Gu. rewrite (cols_pl U), Iu in Gu. specialize (Gu Pu).
           apply in_map_iff in Hl as (x & <- & Hx). cbn [mk l_text] in Ha. destruct (Hp x Hx) as (_ & _ & Nx & Sx). pose proof (sp_lead ind x Sx Nx) as Lx.
           destruct Ha as [Ha|Ha]; [lia|]. exfalso. destruct (Hp u Hu) as (_ & _ & _ & (r & Er)). specialize (Hs u Hu). rewrite Er, app_length in Hs. unfold spaces in Hs. rewrite repeat_length in Hs.
           unfold line_limit, LINE_MAX_BYTES in *. lia.
      * intros _. destruct (R _ L) as (a & c & E & A & B & _). eauto.
    + intros l e Hi Hle _. destruct (R l Hi) as (a & c & E & A & B & Ho & _). pose proof (Hs l Hi) as Sl. cbn beta in Sl. rewrite E in *. apply (read_remove U HU); assumption.
  - apply Forall_forall. intros x X. destruct (R x X) as (? & ? & _ & _ & _ & _ & Y). exact Y.
  - apply Forall_forall. exact Hs.
  - intros _. destruct (R _ L) as (a & c & E & _). rewrite E. destruct a; discriminate.
Qed.

(** ** output *)
Lemma trim_blanks : forall x y, okt (x ++ y) -> ends x -> blanks U y -> bxs_rtrim U (pl (x ++ y)) = Ok (pl x).
Proof.
  intros x y Ho Hx Hy. pose proof (proj1 (okt_good U _) Ho) as Hg. destruct (rtrim_spec U HU (plain (x ++ y)) Hg) as (a & b & E & Er & _ & Hb & Hk).
  unfold Proof_Body.pl. rewrite Er. apply plain_split in E as (k & z & E & -> & ->). rewrite !visible_plain in *. do 3 f_equal.
  symmetry in E. apply (trim_unique U k z x y E); [|exact Hx| |exact Hy].
  - apply Hk. destruct Hx as (m & c & -> & Hc). rewrite !forallb_app. cbn [forallb]. rewrite Hc. cbn. rewrite andb_false_r. reflexivity.
  - apply Forall_forall. rewrite forallb_forall in Hb. exact Hb.
Qed.

Lemma output_trim : forall o eol M I fin xs ys, o_tabexp o = 101%N -> Forall2 (fun x y => bxs_rtrim U (pl x) = Ok (pl y)) xs ys ->
  output_input U o eol (mkInput (map (mk U) xs) M I fin) = Ok (terminated eol fin ys).
Proof.
  intros o eol M I fin xs ys Ho H. unfold output_input, trim_lines. cbn [i_lines i_maxline i_indent i_final_newline].
  assert (E : mapM (fun l => b <- must (bxs_rtrim U (l_text l)) ;; Ok (mkLine b (l_tabpos l))) (map (mk U) xs) = Ok (map (mk U) ys)).
  { induction H as [|x y xs ys Hxy _ IH]; [reflexivity|]. cbn [map mapM mk l_text l_tabpos]. rewrite Hxy. cbn [must bind]. fold (mk U). rewrite IH. reflexivity. }
  rewrite E. cbn [bind i_lines]. rewrite print_plain by exact Ho. reflexivity.
Qed.
End Draw.
