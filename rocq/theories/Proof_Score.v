(** * The score of a design counts what its specification says *)
From Coq Require Import List Arith NArith ZArith Bool Lia.
From Verif Require Import Base BaseFacts Model_Unicode Model_Bxs Model_Shape Model_Generate Model_Detect Model_Remove
  Spec_Str Spec_Design Spec_Box Spec_Remove Spec_Detect Spec_Score Proof_Str Proof_Bxs Proof_BxsOps Proof_BxsMore Proof_Shows Proof_Term Proof_Hmm Proof_Horiz
  Proof_Open Proof_Recog Proof_Found Proof_Body Proof_Rows Proof_Detect.
Import ListNotations.

(** ** Counting *)
Section Count.
Context {A : Type}.
Lemma counts_fun : forall (P : A -> Prop) l n m, counts P l n -> counts P l m -> n = m.
Proof.
  intros P l n m H. revert m. induction H as [|x l n Hx H IH|x l n Hx H IH]; intros m Hm; inversion Hm; subst; auto; contradiction.
Qed.
Lemma counts_iff : forall (P Q : A -> Prop) l n, (forall x, In x l -> P x <-> Q x) -> counts P l n -> counts Q l n.
Proof.
  intros P Q l n E H. induction H as [|x l n Hx H IH|x l n Hx H IH]; [constructor| |]; [apply counts_yes|apply counts_no];
    try (apply IH; intros; apply E; right; assumption); specialize (E x (or_introl eq_refl)); tauto.
Qed.
Lemma counts_app : forall (P : A -> Prop) l n l' n', counts P l n -> counts P l' n' -> counts P (l ++ l') (n + n').
Proof. intros P l n l' n' H H'. induction H; cbn [app Nat.add]; [assumption|constructor; assumption|apply counts_no; assumption]. Qed.
Lemma counts_none : forall (P : A -> Prop) l, (forall x, In x l -> ~ P x) -> counts P l 0.
Proof. intros P l. induction l as [|x l IH]; intros H; [constructor|]. apply counts_no; [apply H; left; reflexivity|apply IH; intros; apply H; right; assumption]. Qed.
Lemma counts_le : forall (P : A -> Prop) l n, counts P l n -> n <= length l.
Proof. intros P l n H. induction H; cbn; lia. Qed.
Lemma counts_all : forall (P : A -> Prop) l, (forall x, In x l -> P x) -> counts P l (length l).
Proof. intros P l. induction l as [|x l IH]; intros H; [constructor|]. apply counts_yes; [apply H; left; reflexivity|apply IH; intros; apply H; right; assumption]. Qed.
End Count.
Lemma counts_map : forall {A B} (g : A -> B) (P : B -> Prop) l n, counts (fun x => P (g x)) l n -> counts P (map g l) n.
Proof. intros A B g P l n H. induction H; cbn [map]; [constructor|apply counts_yes; assumption|apply counts_no; assumption]. Qed.
Lemma prod_map : forall {A A' B} (g : A -> A') (l : list A) (m : list B), list_prod (map g l) m = map (fun p => (g (fst p), snd p)) (list_prod l m).
Proof.
  intros A A' B g l m. induction l as [|x l IH]; [reflexivity|]. cbn [map list_prod]. rewrite map_app, IH. f_equal. rewrite map_map. reflexivity.
Qed.

Definition bit (b : bool) : nat := if b then 1 else 0.

(** sum of the counts for the members of a list *)
Lemma total_prod : forall {B} (R : nat -> B -> Prop) (M : list B) f l,
  (forall j, In j l -> exists n, f j = Ok n /\ counts (R j) M n) ->
  exists n, total f l = Ok n /\ counts (fun p => R (fst p) (snd p)) (list_prod l M) n.
Proof.
  intros B R M f l. induction l as [|j l IH]; intros H; [exists 0; split; [reflexivity|constructor]|]. cbn [total].
  destruct (H j (or_introl eq_refl)) as (n & -> & Hn). destruct IH as (m & -> & Hm); [intros; apply H; right; assumption|]. cbn [bind].
  exists (n + m). split; [reflexivity|]. cbn [list_prod]. apply counts_app; [|exact Hm]. apply counts_map. exact Hn.
Qed.
Lemma total_count : forall (R : nat -> Prop) f l, (forall j, In j l -> exists b, f j = Ok (bit b) /\ (b = true <-> R j)) ->
  exists n, total f l = Ok n /\ counts R l n.
Proof.
  intros R f l. induction l as [|j l IH]; intros H; [exists 0; split; [reflexivity|constructor]|]. cbn [total].
  destruct (H j (or_introl eq_refl)) as (b & -> & Hb). destruct IH as (m & -> & Hm); [intros; apply H; right; assumption|]. cbn [bind].
  exists (bit b + m). split; [reflexivity|]. destruct b; cbn [bit Nat.add]; [apply counts_yes|apply counts_no]; try exact Hm; [apply Hb; reflexivity|].
  intros F. apply Hb in F. discriminate.
Qed.
Lemma nth_split_firstn : forall {B} (l : list B) s n x, nth_error l s = Some x -> firstn (S n) (skipn s l) = x :: firstn n (skipn (S s) l).
Proof.
  intros B l. induction l as [|y l IH]; intros [|s] n x H; cbn in H; try discriminate; [injection H as ->; reflexivity|].
  change (skipn (S s) (y :: l)) with (skipn s l). rewrite (IH _ _ _ H). reflexivity.
Qed.
Lemma total_lines : forall {B} (P : B -> Prop) f (l : list B) len s, s + len <= length l ->
  (forall a t, nth_error l a = Some t -> exists b, f a = Ok (bit b) /\ (b = true <-> P t)) ->
  exists n, total f (seq s len) = Ok n /\ counts P (firstn len (skipn s l)) n.
Proof.
  intros B P f l len. induction len as [|len IH]; intros s Hs H; [exists 0; split; [reflexivity|constructor]|]. cbn [seq total].
  destruct (nth_error l s) as [t|] eqn:En; [|apply nth_error_None in En; lia].
  destruct (H s t En) as (b & -> & Hb). destruct (IH (S s) ltac:(lia) H) as (n & -> & Hn). cbn [bind]. exists (bit b + n). split; [reflexivity|].
  rewrite (nth_split_firstn _ _ _ _ En). destruct b; cbn [bit Nat.add]; [apply counts_yes|apply counts_no]; try exact Hn; [apply Hb; reflexivity|].
  intros F. apply Hb in F. discriminate.
Qed.

(** ** Comparisons *)
Section Compare.
Variable U : uctab.
Lemma shown_iff : forall s, shown U s <-> forallb (is_blank U) s = false.
Proof.
  intros s. unfold shown. split.
  - intros H. apply Exists_exists in H as (c & Hc & Hb). destruct (forallb (is_blank U) s) eqn:E; [|reflexivity]. rewrite forallb_forall in E. specialize (E c Hc). congruence.
  - induction s as [|c s IH]; cbn [forallb]; intros H; [discriminate|]. destruct (is_blank U c) eqn:E; [right; auto|left; exact E].
Qed.
Lemma shown_unled : forall s, shown U s -> shown U (unled U s).
Proof.
  intros s H. unfold unled. rewrite <- (firstn_skipn (lead (is_blank U) s) s) in H at 1. apply Exists_app in H as [H|H]; [|exact H].
  apply shown_iff in H. rewrite lead_firstn_blank in H. discriminate.
Qed.
Lemma shown_untrailed : forall s, shown U s -> shown U (untrailed U s).
Proof.
  intros s H. unfold untrailed. rewrite <- (firstn_skipn (length s - trail (is_blank U) s) s) in H at 1. apply Exists_app in H as [H|H]; [exact H|].
  apply shown_iff in H. rewrite trail_skipn_blank in H. discriminate.
Qed.
Lemma shown_ne : forall s, shown U s -> s <> [].
Proof. intros s H ->. inversion H. Qed.
Lemma trail_skip : forall p s k, k <= lead p s -> forallb p s = false -> trail p (skipn k s) = trail p s.
Proof.
  intros p s k Hk Hb. rewrite <- (firstn_skipn k s) at 2. rewrite trail_app.
  destruct (forallb p (skipn k s)) eqn:E; [|reflexivity]. exfalso. rewrite <- (firstn_skipn k s), forallb_app, E, andb_true_r in Hb.
  assert (forallb p (firstn k s) = true); [|congruence]. pose proof (lead_firstn_blank p s) as HF. apply forallb_forall. intros c Hc. rewrite forallb_forall in HF. apply HF.
  rewrite <- (firstn_skipn k (firstn (lead p s) s)). apply in_or_app. left. rewrite firstn_firstn, Nat.min_l by lia. exact Hc.
Qed.

Lemma cmp_starts : forall t s, strncmp0 (length s) t s = true <-> starts t s.
Proof.
  intros t s. rewrite strncmp_spec by reflexivity. split.
  - intros H. exists (skipn (length s) t). rewrite <- H at 1. symmetry. apply firstn_skipn.
  - intros (r & ->). rewrite firstn_app, Nat.sub_diag, firstn_all, app_nil_r. reflexivity.
Qed.
Lemma holds_cmp : forall (el : bool) t s, s <> [] -> exists b,
  (match u32_strstr t s with
   | None => 0
   | Some p => if el then if length t <=? p + length s then 0 else if strncmp0 (length s) (skipn (p + length s) t) s then 1 else 0 else 1
   end) = bit b /\ (b = true <-> holds el t s).
Proof.
  intros el t s Hne. destruct (u32_strstr t s) as [p|] eqn:E.
  - pose proof (strstr_spec _ _ _ E) as (Hl & Hm). pose proof (strstr_first _ _ _ E) as Hf.
    assert (Et : t = firstn p t ++ s ++ skipn (p + length s) t).
    { rewrite <- (firstn_skipn p t) at 1. f_equal. rewrite <- (firstn_skipn (length s) (skipn p t)) at 1. rewrite Hm, skipn_skipn. f_equal. f_equal. lia. }
    assert (Hp : length (firstn p t) = p) by (rewrite firstn_length; lia).
    assert (Hfirst : forall a' b', t = a' ++ s ++ b' -> p <= length a').
    { intros a' b' E'. destruct (Nat.le_gt_cases p (length a')) as [|F]; [assumption|]. specialize (Hf _ F).
      assert (is_prefix s (skipn (length a') t) = true); [|congruence]. apply prefix_spec. exists b'. rewrite E', skipn_app, Nat.sub_diag, skipn_all. reflexivity. }
    assert (G : forall b0 : bool, (b0 = true <-> (el = true -> starts (skipn (p + length s) t) s)) -> (b0 = true <-> holds el t s)).
    { intros b0 Hb0. rewrite Hb0. split.
      - intros H. exists (firstn p t), (skipn (p + length s) t). split; [exact Et|]. split; [rewrite Hp; exact Hfirst|exact H].
      - intros (a & b & Ea & Ha & Hs) Hel. assert (Hpa : length a = p) by (specialize (Hfirst _ _ Ea); specialize (Ha _ _ Et); lia).
        rewrite Ea, skipn_app, Hpa, skipn_all2 by lia. replace (p + length s - p) with (length s) by lia.
        rewrite skipn_app, Nat.sub_diag, skipn_all. exact (Hs Hel). }
    destruct el; [|exists true; split; [reflexivity|apply G; split; [discriminate|reflexivity]]].
    destruct (Nat.leb_spec (length t) (p + length s)) as [F|F].
    + exists false. split; [reflexivity|]. apply G. split; [discriminate|]. intros H. destruct (H eq_refl) as (r & Er). rewrite skipn_all2 in Er by exact F.
      destruct s; [contradiction|discriminate].
    + destruct (strncmp0 (length s) (skipn (p + length s) t) s) eqn:Ec; [exists true|exists false]; (split; [reflexivity|]); apply G.
      * split; [intros _ _; apply cmp_starts; exact Ec|reflexivity].
      * split; [discriminate|]. intros H. specialize (H eq_refl). apply cmp_starts in H. congruence.
  - exists false. split; [reflexivity|]. split; [discriminate|]. intros (a & b & Ea & _).
    destruct (strstr_some t s (length a)) as (k & Ek & _); [|congruence]. apply prefix_spec. exists b. rewrite Ea, skipn_app, Nat.sub_diag, skipn_all. reflexivity.
Qed.
End Compare.

(** ** The loops *)
Section Score.
Variable U : uctab.
Hypothesis HU : uctab_ok U.
Variable d : design.
Hypothesis WF : wf_design U d.
Hypothesis HB : built U d.
Hypothesis HP : plain_design U d.
Hypothesis HT : tidy d.
Variable inp : input.
Variable ct : comparison_t.
Hypothesis HL : Forall (built_line U) (i_lines inp).
Hypothesis HM : drops_input ct = false -> Forall (fun l => ~ In 27%N (memory (l_text l))) (i_lines inp).
Variable L : list (list N).
Hypothesis HS : Forall2 (fun l v => seen (drops_input ct) (memory (l_text l)) v) (i_lines inp) L.

Lemma lens : length L = i_num_lines inp.
Proof. unfold i_num_lines. symmetry. exact (Forall2_len _ _ _ _ _ HS). Qed.

(** the lines of the text *)
Lemma line_at : forall a t, nth_error L a = Some t -> exists l ts, nth_error (i_lines inp) a = Some l /\ l_text l = bx U ts /\ good U ts /\
  narrow_lead U (visible ts) /\ t = visible ts /\ (drops_input ct = false -> ts = plain t).
Proof.
  intros a t Ha.
  assert (X : exists l, nth_error (i_lines inp) a = Some l /\ seen (drops_input ct) (memory (l_text l)) t).
  { clear HL HM. revert a Ha. induction HS as [|l v ls vs Hlv HF IH]; intros [|a] Ha; cbn in Ha; try discriminate; [injection Ha as <-; exists l; auto|exact (IH HF a Ha)]. }
  destruct X as (l & El & Hv). pose proof (nth_error_In _ _ El) as Hin. rewrite Forall_forall in HL.
  destruct (line_bx U HU l (HL l Hin)) as (ts & Et & Hg & Hn). exists l, ts. split; [exact El|]. split; [exact Et|]. split; [exact Hg|]. split; [exact Hn|].
  destruct Hv as (ts' & Hrd & Ev). rewrite Et in Hrd. cbn [bx memory] in Hrd.
  assert (ts' = ts) as -> by (apply reading_unique; [apply Hrd|apply Hg|apply Hrd]).
  destruct (drops_input ct) eqn:Ed; [split; [exact Ev|discriminate]|].
  specialize (HM eq_refl). rewrite Forall_forall in HM. specialize (HM l Hin). rewrite Et in HM, Ev. cbn [bx memory] in HM, Ev.
  assert (ts = plain (render ts)) by (apply reading_unique; [apply Hg|apply (closed_plain _ HM)|rewrite render_plain; reflexivity]).
  rewrite Ev. split; [rewrite H at 2; rewrite visible_plain; reflexivity|intros _; exact H].
Qed.

Lemma comp_left : forall a t, nth_error L a = Some t -> comp_input inp a true ct = Ok (unled U t).
Proof.
  intros a t Ha. destruct (line_at a t Ha) as (l & ts & El & Et & Hg & Hn & Ev & Hp). unfold comp_input. rewrite El, Et.
  assert (Hind : indent (bx U ts) = lead (is_blank U) t) by (cbn [bx indent]; rewrite Ev; apply lead_cols_narrow; exact Hn).
  pose proof (lead_le (is_blank U) t) as Hle. rewrite Hind. destruct (drops_input ct).
  - rewrite (filter_visible_bx U ts (proj1 Hg)), <- Ev. cbn [bind]. unfold at_off. destruct (Nat.ltb_spec (length t) (lead (is_blank U) t)); [lia|reflexivity].
  - rewrite (Hp eq_refl). fold (pl U t). unfold bxs_unindent_ptr. rewrite (indent_pl U t) by (rewrite Ev; exact Hn).
    rewrite (first_pl U) by lia. cbn [bind]. rewrite mem_pl. destruct (Nat.ltb_spec (length t) (lead (is_blank U) t)); [lia|reflexivity].
Qed.

Lemma comp_right : forall a t s, nth_error L a = Some t -> shown U s -> exists x, comp_input_right inp a ct (length s) = Ok x /\
  ((match x with Some r => strncmp0 (length s) r s | None => false end) = true <-> ends_in (untrailed U t) s).
Proof.
  intros a t s Ha Hs. destruct (line_at a t Ha) as (l & ts & El & Et & Hg & Hn & Ev & Hp). unfold comp_input_right. rewrite El, Et.
  assert (Hne : length s <> 0) by (destruct s; [inversion Hs|discriminate]).
  destruct (Nat.eqb_spec (length s) 0); [contradiction|].
  set (tr := if all_blank U t then 0 else trail (is_blank U) t).
  assert (Htr : tr <= length t) by (unfold tr; pose proof (trail_le (is_blank U) t); destruct (all_blank U t); lia).
  assert (E1 : num_chars_visible (bx U ts) = length t) by (cbn [bx num_chars_visible]; rewrite Ev; reflexivity).
  assert (E2 : trailing (bx U ts) = tr) by (cbn [bx trailing]; rewrite <- Ev; reflexivity).
  rewrite E1, E2, subz_le by exact Htr. cbn [bind]. set (k := length t - tr) in *.
  exists (if k <? length s then None else Some (skipn (k - length s) t)).
  assert (Hk : k <= length t) by lia. split.
  - destruct (drops_input ct).
    + rewrite (filter_visible_bx U ts (proj1 Hg)), <- Ev. cbn [bind]. destruct (Nat.ltb_spec k (length s)); [reflexivity|]. unfold at_off.
      destruct (Nat.ltb_spec (length t) (k - length s)); [lia|reflexivity].
    + rewrite (Hp eq_refl). fold (pl U t). rewrite (first_pl U) by lia. cbn [bind]. rewrite mem_pl. destruct (Nat.ltb_spec k (length s)); [reflexivity|]. unfold at_off.
      destruct (Nat.ltb_spec (length t) (k - length s)); [lia|reflexivity].
  - destruct (all_blank U t) eqn:Eb.
    + split.
      * intros H. exfalso. destruct (Nat.ltb_spec k (length s)); [discriminate|]. apply cmp_starts in H as (r & Er).
        unfold shown in Hs. apply Exists_exists in Hs as (c & Hc & Hbc). unfold all_blank in Eb. rewrite forallb_forall in Eb.
        assert (Hct : In c t); [|specialize (Eb c Hct); congruence]. rewrite <- (firstn_skipn (k - length s) t). apply in_or_app. right. rewrite Er. apply in_or_app. left. exact Hc.
      * intros (r & Er). exfalso. unfold untrailed in Er. rewrite (trail_all _ _ Eb), Nat.sub_diag in Er. destruct r; [|discriminate]. cbn in Er. subst s. inversion Hs.
    + unfold untrailed. change (length t - trail (is_blank U) t) with k. split.
      * intros H. destruct (Nat.ltb_spec k (length s)); [discriminate|]. apply (strncmp_spec _ _ _ eq_refl) in H. exists (firstn (k - length s) t).
        rewrite <- H at 2. rewrite <- (firstn_skipn (k - length s) (firstn k t)). f_equal; [rewrite firstn_firstn; f_equal; lia|].
        rewrite skipn_firstn_comm. f_equal. lia.
      * intros (r & Er). assert (Hlen : k = length r + length s) by (apply (f_equal (@length _)) in Er; rewrite firstn_length, app_length in Er; lia).
        destruct (Nat.ltb_spec k (length s)); [lia|]. apply cmp_starts. exists (skipn k t).
        rewrite <- (firstn_skipn k t) at 1. rewrite Er, <- app_assoc, skipn_app, skipn_all2 by lia. replace (k - length s - length r) with 0 by lia. reflexivity.
Qed.

(** the lines of a shape *)
Lemma rows_len : forall c, c < 16 -> length (lines_of d c) = s_height (d_shape d c).
Proof.
  intros c Hc. unfold lines_of, shape_rows. rewrite map_length. destruct (isempty (d_shape d c)) eqn:E; [destruct (HT c Hc E) as [-> ->]; reflexivity|].
  apply (so_rows U _ (wf_shapes U d WF c Hc E)).
Qed.
Definition prow (m : bxstr) (q : list N) : Prop := m = pl U q /\ narrow_lead U q /\ forallb (is_blank U) q = false.
Lemma row_is : forall c j s, c < 16 -> nth_error (lines_of d c) j = Some s -> exists m, rd (s_mbcs (d_shape d c)) j = Ok m /\
  bxs_is_blank U m = Ok (forallb (is_blank U) s) /\ (shown U s -> prow m s).
Proof.
  intros c j s Hc Hn. assert (Hj : j < s_height (d_shape d c)) by (rewrite <- rows_len by exact Hc; apply nth_error_Some; congruence).
  destruct (isempty (d_shape d c)) eqn:Ee; [destruct (HT c Hc Ee); lia|].
  destruct (wf_shapes U d WF c Hc Ee) as [Hr _ Hrow]. unfold lines_of, shape_rows in Hn. rewrite nth_error_map in Hn.
  destruct (nth_error (s_mbcs (d_shape d c)) j) as [m|] eqn:Em; [|discriminate]. injection Hn as <-.
  assert (Hin : In m (s_mbcs (d_shape d c))) by (eapply nth_error_In; exact Em).
  rewrite Forall_forall in Hrow. destruct (row_tokens U HU _ m (Hrow m Hin) (HB c m Hc Hin)) as (ts & Hcl & Hm & _ & Hcase).
  pose proof (pd_rows U d HP c m Hc Hin) as Hpt.
  assert (Hno : ~ In 27%N (memory m)) by (intros Hx; unfold plain_text in Hpt; rewrite Forall_forall in Hpt; destruct (Hpt _ Hx) as (Hpt1 & _); congruence).
  assert (Et : ts = plain (memory m)) by (apply reading_unique; [apply Hcl|apply (closed_plain _ Hno)|rewrite render_plain; exact Hm]).
  unfold rd. rewrite Em. exists m. split; [reflexivity|]. destruct Hcase as [Hcase|(k & Ek & Hcase)].
  - rewrite Et in Hcase. fold (pl U (memory m)) in Hcase. split.
    + rewrite Hcase at 1. rewrite blank_pl. f_equal. unfold blankb. clear - Hpt. unfold plain_text in Hpt. induction Hpt as [|c l H13 Hp IH]; [reflexivity|].
      cbn [forallb]. rewrite IH. destruct H13 as (_ & H13 & _). destruct (N.eqb_spec c 13); [contradiction|]. rewrite orb_false_r. reflexivity.
    + intros Hb. split; [exact Hcase|]. split; [apply plain_narrow; assumption|apply shown_iff; exact Hb].
  - destruct (row_look U HU d WF HB (plain_calm U HU d HP) HT c j Hc Hj) as (m' & b & Em' & Eb & Hb). unfold rd in Em'. rewrite Em in Em'. injection Em' as <-.
    assert (A : forallb (is_blank U) (memory m) = true).
    { rewrite Hcase. cbn [ascii_row memory]. apply forallb_repeat. apply (blank32 U HU). }
    rewrite A. split; [|intros F; apply shown_iff in F; congruence]. rewrite Eb. destruct b; [reflexivity|]. destruct (Hb eq_refl) as (q & Eq & Hg & _ & Hq & _).
    assert (E : q = plain (memory m)) by (apply reading_unique; [apply Hg|apply (closed_plain _ Hno)|rewrite render_plain, Eq; reflexivity]).
    rewrite E, visible_plain in Hq. congruence.
Qed.

Lemma prep_is : forall c j (bl br : bool) s, c < 16 -> nth_error (lines_of d c) j = Some s -> shown U s ->
  prepare_comp_shape (d_shape d c) j ct bl br = Ok (let y := if bl then unled U s else s in if br then untrailed U y else y).
Proof.
  intros c j bl br q Hc Hn Hs. assert (Hj : j < s_height (d_shape d c)) by (rewrite <- rows_len by exact Hc; apply nth_error_Some; congruence).
  destruct (row_is c j q Hc Hn) as (m & Em & _ & Hv). destruct (Hv Hs) as (-> & Hnl & Hb). clear Hv.
  unfold prepare_comp_shape. destruct (Nat.leb_spec (s_height (d_shape d c)) j); [lia|].
  rewrite Em. cbn [bind]. rewrite (indent_pl U q Hnl).
  assert (Hinv : num_chars_invisible (pl U q) = 0) by (unfold pl; cbn [bx num_chars_invisible]; clear; induction q; [reflexivity|exact IHq]).
  rewrite Hinv. change (0 <? 0) with false. rewrite andb_false_r.
  assert (Htr : trailing (pl U q) = trail (is_blank U) q) by (unfold pl; cbn [bx trailing]; rewrite visible_plain; unfold all_blank; rewrite Hb; reflexivity).
  assert (Hvis : num_chars_visible (pl U q) = length q) by (unfold pl; cbn [bx num_chars_visible]; rewrite visible_plain; reflexivity).
  rewrite Htr, Hvis. pose proof (lead_trail_le (is_blank U) q Hb) as Hlt.
  set (y := if bl then unled U q else q).
  assert (E : (if bl then bxs_unindent_ptr (pl U q) else Ok (memory (pl U q))) = Ok y).
  { unfold y. destruct bl; [|rewrite mem_pl; reflexivity]. unfold bxs_unindent_ptr. rewrite (indent_pl U q Hnl), (first_pl U) by lia. cbn [bind]. rewrite mem_pl.
    destruct (Nat.ltb_spec (length q) (lead (is_blank U) q)); [lia|reflexivity]. }
  rewrite E. cbn [bind].
  assert (Ty : trail (is_blank U) y = trail (is_blank U) q) by (unfold y; destruct bl; [apply trail_skip; [lia|exact Hb]|reflexivity]).
  assert (Ly : length y = length q - (if bl then lead (is_blank U) q else 0)) by (unfold y, unled; destruct bl; [apply skipn_length|lia]).
  destruct br; [|reflexivity]. cbn [andb]. cbv zeta. unfold untrailed. rewrite Ty. destruct (Nat.ltb_spec 0 (trail (is_blank U) q)) as [Hp|Hp].
  - rewrite subz_le by (destruct bl; lia). cbn [bind]. rewrite subz_le by (destruct bl; lia). cbn [bind]. rewrite (first_pl U) by lia. cbn [bind].
    unfold cut_at. rewrite <- Ly. destruct (Nat.ltb_spec (length y) (length y - trail (is_blank U) q)); [lia|reflexivity].
  - rewrite firstn_all2 by lia. reflexivity.
Qed.

Lemma per_prod : forall {B} (R : nat -> list N -> B -> Prop) (M : list B) c f, c < 16 ->
  (forall j s, nth_error (lines_of d c) j = Some s -> shown U s -> exists n, f j = Ok n /\ counts (R j s) M n) ->
  exists n, per_line U (d_shape d c) f = Ok n /\
    counts (fun p => exists s, nth_error (lines_of d c) (fst p) = Some s /\ shown U s /\ R (fst p) s (snd p)) (list_prod (seq 0 (s_height (d_shape d c))) M) n.
Proof.
  intros B R M c f Hc H. unfold per_line.
  apply (total_prod (fun j t => exists s, nth_error (lines_of d c) j = Some s /\ shown U s /\ R j s t) M). intros j Hj. apply in_seq in Hj.
  destruct (nth_error (lines_of d c) j) as [s|] eqn:En; [|apply nth_error_None in En; rewrite rows_len in En by exact Hc; lia].
  destruct (row_is c j s Hc En) as (m & -> & Eb & _). cbn [bind]. rewrite Eb. cbn [bind]. destruct (forallb (is_blank U) s) eqn:Ef.
  - exists 0. split; [reflexivity|]. apply counts_none. intros x _ (s' & Es & Hs & _). injection Es as <-. apply shown_iff in Hs. congruence.
  - destruct (H j s En) as (n & En' & Hn); [apply shown_iff; exact Ef|]. exists n. split; [exact En'|].
    eapply counts_iff; [|exact Hn]. intros x _. split; [intros Hx; exists s; split; [reflexivity|split; [apply shown_iff; exact Ef|exact Hx]]|].
    intros (s' & Es & _ & Hx). injection Es as <-. exact Hx.
Qed.
Lemma lines_seq : forall c, c < 16 -> lines_of d c = map (fun j => nth j (lines_of d c) []) (seq 0 (s_height (d_shape d c))).
Proof.
  intros c Hc. rewrite <- rows_len by exact Hc. generalize (lines_of d c). intros l. clear. induction l as [|x l IH]; [reflexivity|].
  cbn [length seq map nth]. f_equal. rewrite <- seq_shift, map_map. exact IH.
Qed.
Lemma by_lines : forall {B} (R : list N -> B -> Prop) (M : list B) c n, c < 16 ->
  counts (fun p => exists s, nth_error (lines_of d c) (fst p) = Some s /\ shown U s /\ R s (snd p)) (list_prod (seq 0 (s_height (d_shape d c))) M) n ->
  counts (fun p => shown U (fst p) /\ R (fst p) (snd p)) (list_prod (lines_of d c) M) n.
Proof.
  intros B R M c n Hc H. rewrite lines_seq by exact Hc. rewrite prod_map. apply counts_map. eapply counts_iff; [|exact H].
  intros (j, t) Hin. cbn [fst snd]. apply in_prod_iff in Hin as [Hj _]. apply in_seq in Hj.
  destruct (nth_error (lines_of d c) j) as [s|] eqn:En; [|apply nth_error_None in En; rewrite rows_len in En by exact Hc; lia].
  rewrite (nth_error_nth _ _ [] En). split; [intros (s' & Es & Hs); injection Es as <-; exact Hs|intros Hs; exists s; auto].
Qed.

(** the groups of lines *)
Lemma total_edge : forall (P : list N -> Prop) f h bottom,
  (forall a t, nth_error L a = Some t -> exists b, f a = Ok (bit b) /\ (b = true <-> P t)) ->
  exists n, total f (probe_lines inp h bottom) = Ok n /\ counts P (edge L bottom h) n.
Proof.
  intros P f h bottom H. unfold probe_lines, edge. rewrite <- lens. destruct bottom.
  - destruct (Nat.ltb_spec (length L) h); [exists 0; split; [reflexivity|constructor]|].
    destruct (total_lines P f L h (length L - h) ltac:(lia) H) as (n & E & Hn). exists n. split; [exact E|].
    rewrite firstn_all2 in Hn by (rewrite skipn_length; lia). exact Hn.
  - destruct (total_lines P f L (Nat.min h (length L)) 0 ltac:(lia) H) as (n & E & Hn). exists n. split; [exact E|]. cbn [skipn] in Hn.
    destruct (Nat.le_gt_cases h (length L)); [rewrite Nat.min_l in Hn by assumption; exact Hn|].
    rewrite Nat.min_r in Hn by lia. rewrite firstn_all in Hn. rewrite firstn_all2 by lia. exact Hn.
Qed.

Lemma bits : forall b : bool, (if b then 1 else 0) = bit b.
Proof. reflexivity. Qed.

Lemma corner_left_is : forall bottom : bool, exists n, find_west_corner U d inp ct (if bottom then SW else NW) = Ok n /\ corner_left U d L bottom n.
Proof.
  intros bottom. set (c := if bottom then SW else NW). assert (Hc : c < 16) by (unfold c; destruct bottom; cbv; lia).
  unfold find_west_corner, corner_left, blank_side. fold c.
  replace (_ || empty_side (d_shape d) BTOP && (c =? NW) || empty_side (d_shape d) BBOT && (c =? SW))
    with (empty_side (d_shape d) BLEF || empty_side (d_shape d) (if bottom then BBOT else BTOP))
    by (unfold c; destruct bottom; cbn [NW SW Nat.eqb]; rewrite ?andb_false_r, ?andb_true_r, ?orb_false_r; reflexivity).
  destruct (_ || _); [exists 0; split; reflexivity|]. cbv zeta.
  replace (c =? SW) with bottom by (unfold c; destruct bottom; reflexivity).
  destruct (per_prod (fun (_ : nat) s t => starts (unled U t) (unled U s)) (edge L bottom (s_height (d_shape d c))) c
    (fun j => sh <- must (prepare_comp_shape (d_shape d c) j ct true false) ;;
      total (fun a => t <- must (comp_input inp a true ct) ;; Ok (if strncmp0 (length sh) t sh then 1 else 0))
        (probe_lines inp (s_height (d_shape d c)) bottom)) Hc) as (n & E & Hn).
  { intros j s Ej Hs. rewrite (prep_is c j true false s Hc Ej Hs). cbn [must bind]. cbv zeta. apply total_edge. intros a t Ht.
    rewrite (comp_left a t Ht). cbn [must bind]. exists (strncmp0 (length (unled U s)) (unled U t) (unled U s)). split; [reflexivity|apply cmp_starts]. }
  exists n. split; [exact E|]. apply (by_lines (fun s t => starts (unled U t) (unled U s)) _ c n Hc). exact Hn.
Qed.

Lemma corner_right_is : forall bottom : bool, exists n, find_east_corner U d inp ct (if bottom then SE else NE) = Ok n /\ corner_right U d L bottom n.
Proof.
  intros bottom. set (c := if bottom then SE else NE). assert (Hc : c < 16) by (unfold c; destruct bottom; cbv; lia).
  unfold find_east_corner, corner_right, blank_side. fold c.
  replace (_ || empty_side (d_shape d) BTOP && (c =? NE) || empty_side (d_shape d) BBOT && (c =? SE))
    with (empty_side (d_shape d) BRIG || empty_side (d_shape d) (if bottom then BBOT else BTOP))
    by (unfold c; destruct bottom; cbn [NE SE Nat.eqb]; rewrite ?andb_false_r, ?andb_true_r, ?orb_false_r; reflexivity).
  destruct (_ || _); [exists 0; split; reflexivity|]. cbv zeta.
  replace (c =? SE) with bottom by (unfold c; destruct bottom; reflexivity).
  destruct (per_prod (fun (_ : nat) s t => ends_in (untrailed U t) (untrailed U s)) (edge L bottom (s_height (d_shape d c))) c
    (fun j => sh <- must (prepare_comp_shape (d_shape d c) j ct false true) ;;
      total (fun a => x <- comp_input_right inp a ct (length sh) ;; Ok (match x with Some t => if strncmp0 (length sh) t sh then 1 else 0 | None => 0 end))
        (probe_lines inp (s_height (d_shape d c)) bottom)) Hc) as (n & E & Hn).
  { intros j s Ej Hs. rewrite (prep_is c j false true s Hc Ej Hs). cbn [must bind]. cbv zeta. apply total_edge. intros a t Ht.
    destruct (comp_right a t (untrailed U s) Ht (shown_untrailed U s Hs)) as (x & -> & Hx). cbn [bind]. eexists. split; [|exact Hx]. destruct x; reflexivity. }
  exists n. split; [exact E|]. apply (by_lines (fun s t => ends_in (untrailed U t) (untrailed U s)) _ c n Hc). exact Hn.
Qed.

(** shapes between the corners *)
Lemma all_blank_is : forall j is, (forall i, In i is -> i < 16 /\ (isempty (d_shape d i) = false -> j < s_height (d_shape d i))) ->
  exists b, all_blank_at U d j is = Ok b /\ (b = true <-> Forall (blank_at U d j) is).
Proof.
  intros j is. induction is as [|i is IH]; intros H; [exists true; split; [reflexivity|split; [constructor|reflexivity]]|]. cbn [all_blank_at].
  destruct (H i (or_introl eq_refl)) as [Hi Hh]. destruct IH as (b & Eb & Hb); [intros; apply H; right; assumption|].
  destruct (is_nil (s_mbcs (d_shape d i))) eqn:En.
  - exists b. split; [exact Eb|]. rewrite Hb. split; [intros HF; constructor; [|exact HF]|intros HF; inversion HF; assumption].
    unfold blank_at, lines_of, shape_rows. destruct (s_mbcs (d_shape d i)); [|discriminate]. destruct j; exact I.
  - destruct (isempty (d_shape d i)) eqn:Ee; [destruct (HT i Hi Ee) as [_ Hz]; rewrite Hz in En; discriminate|]. specialize (Hh eq_refl).
    destruct (nth_error (lines_of d i) j) as [s|] eqn:Es; [|apply nth_error_None in Es; rewrite rows_len in Es by exact Hi; lia].
    destruct (row_is i j s Hi Es) as (m & -> & Em & _). cbn [bind]. rewrite Em. cbn [bind].
    assert (A : blank_at U d j i <-> forallb (is_blank U) s = true).
    { unfold blank_at. rewrite Es. rewrite shown_iff. destruct (forallb (is_blank U) s); intuition congruence. }
    destruct (forallb (is_blank U) s) eqn:Ef.
    + exists b. split; [exact Eb|]. rewrite Hb. split; [intros HF; constructor; [apply A; reflexivity|exact HF]|intros HF; inversion HF; assumption].
    + exists false. split; [reflexivity|]. split; [discriminate|]. intros HF. inversion HF; subst. apply A. assumption.
Qed.
Lemma corner_height : forall (bottom : bool) c j, In c (sides bottom) -> j < s_height (d_shape d c) -> j < s_height (d_shape d (left_corner (negb bottom))).
Proof.
  intros bottom c j Hin Hj.
  assert (Hc : c < 16) by (destruct bottom; cbn in Hin; intuition (subst; cbv; lia)).
  destruct (isempty (d_shape d c)) eqn:Ee; [destruct (HT c Hc Ee); lia|].
  assert (G : forall b n, (b = BTOP \/ b = BBOT) -> n < 5 -> nth n (side_of b) 0 = c -> s_height (d_shape d c) = s_height (d_shape d (nth 0 (side_of b) 0))).
  { intros b n Hb Hn E. pose proof (wf_heights U d WF b n Hb Hn) as HH. unfold at_side in HH. rewrite E in HH. apply HH. exact Ee. }
  assert (G0 : forall b, (b = BTOP \/ b = BBOT) -> s_height (d_shape d (nth 4 (side_of b) 0)) = s_height (d_shape d (nth 0 (side_of b) 0))).
  { intros b Hb. pose proof (wf_heights U d WF b 4 Hb ltac:(lia)) as HH. unfold at_side in HH. apply HH.
    apply (wf_corners U d WF). destruct Hb as [->| ->]; cbv; auto. }
  destruct bottom; cbn in Hin; cbn [negb].
  - change (left_corner false) with (nth 4 (side_of BBOT) 0). rewrite (G0 BBOT) by auto. destruct Hin as [E|[E|[E|[E|[E|[]]]]]];
      [rewrite <- (G BBOT 4)|rewrite <- (G BBOT 3)|rewrite <- (G BBOT 2)|rewrite <- (G BBOT 1)|rewrite <- (G BBOT 0)]; auto; lia.
  - change (left_corner true) with (nth 0 (side_of BTOP) 0). destruct Hin as [E|[E|[E|[E|[E|[]]]]]];
      [rewrite <- (G BTOP 0)|rewrite <- (G BTOP 1)|rewrite <- (G BTOP 2)|rewrite <- (G BTOP 3)|rewrite <- (G BTOP 4)]; auto; lia.
Qed.
Lemma blankward_is : forall (bottom : bool) k j (left : bool), 1 <= k <= 3 -> j < s_height (d_shape d (nth k (sides bottom) 0)) ->
  exists b, is_blankward U d (nth k (sides bottom) 0) j left = Ok b /\
    (b = true <-> Forall (blank_at U d j) (if left then firstn k (sides bottom) else skipn (S k) (sides bottom))).
Proof.
  intros bottom k j left Hk Hj. set (c := nth k (sides bottom) 0) in *.
  assert (Hin : In c (sides bottom)) by (apply nth_In; destruct bottom; cbn; lia).
  pose proof (corner_height bottom c j Hin Hj) as Hlc.
  assert (E : is_blankward U d c j left = all_blank_at U d j (if left then firstn k (sides bottom) else skipn (S k) (sides bottom))).
  { unfold is_blankward. destruct (Nat.leb_spec (s_height (d_shape d c)) j); [lia|]. unfold c. destruct bottom, k as [|[|[|[|k]]]]; try lia; destruct left; reflexivity. }
  rewrite E. apply all_blank_is. intros i Hi.
  assert (Hs : In i (side_shapes (negb bottom))).
  { assert (Hi' : In i (sides bottom)) by (destruct left; [apply (In_firstn _ k); exact Hi|rewrite <- (firstn_skipn (S k) (sides bottom)); apply in_or_app; right; exact Hi]).
    destruct bottom; cbn in *; tauto. }
  exact (side_heights U d (negb bottom) j i WF Hlc Hs).
Qed.

Lemma between_is : forall (bottom : bool) k, 1 <= k <= 3 -> exists n, find_horizontal_shape U d inp ct (nth k (sides bottom) 0) = Ok n /\ between U d L bottom k n.
Proof.
  intros bottom k Hk. unfold find_horizontal_shape, between, blank_side. set (c := nth k (sides bottom) 0).
  assert (Hc : c < 16) by (unfold c; destruct bottom, k as [|[|[|[|k]]]]; try lia; cbv; lia).
  destruct (_ || _); [exists 0; split; reflexivity|]. cbv zeta.
  replace ((SSE <=? c) && (c <=? SSW)) with bottom by (unfold c; destruct bottom, k as [|[|[|[|k]]]]; try lia; reflexivity).
  assert (W : forall j s, nth_error (lines_of d c) j = Some s -> shown U s -> exists (bl br : bool) x,
    is_blankward U d c j true = Ok bl /\ is_blankward U d c j false = Ok br /\ prepare_comp_shape (d_shape d c) j ct bl br = Ok x /\ x <> [] /\
    forall x', worn_line U d bottom k j s x' <-> x' = x).
  { intros j s Ej Hs. assert (Hj : j < s_height (d_shape d c)) by (rewrite <- rows_len by exact Hc; apply nth_error_Some; congruence).
    destruct (blankward_is bottom k j true Hk Hj) as (bl & El & Hl). destruct (blankward_is bottom k j false Hk Hj) as (br & Er & Hr).
    exists bl, br, (let y := if bl then unled U s else s in if br then untrailed U y else y). split; [exact El|]. split; [exact Er|].
    split; [apply prep_is; assumption|]. split.
    - apply (shown_ne U). cbv zeta. destruct bl, br; auto using shown_unled, shown_untrailed.
    - intros x'. unfold worn_line. split.
      + intros (y & Hy & Hx). assert (y = if bl then unled U s else s) as -> by (destruct bl; destruct Hy as [[Hy ->]|[Hy ->]]; try reflexivity; exfalso; intuition congruence).
        cbv zeta. destruct br; destruct Hx as [[Hx ->]|[Hx ->]]; try reflexivity; exfalso; intuition congruence.
      + intros ->. exists (if bl then unled U s else s). split.
        * destruct bl; [left|right]; (split; [|reflexivity]); [apply Hl; reflexivity|intros F; apply Hl in F; discriminate].
        * cbv zeta. destruct br; [left|right]; (split; [|reflexivity]); [apply Hr; reflexivity|intros F; apply Hr in F; discriminate]. }
  destruct (per_prod (fun j s t => exists x, worn_line U d bottom k j s x /\ holds (s_elastic (d_shape d c)) (unled U t) x) (edge L bottom (s_height (d_shape d c))) c
    (fun j => bl <- is_blankward U d c j true ;; br <- is_blankward U d c j false ;; sh <- must (prepare_comp_shape (d_shape d c) j ct bl br) ;;
      total (fun a => t <- must (comp_input inp a true ct) ;;
        Ok (match u32_strstr t sh with
            | None => 0
            | Some p => if s_elastic (d_shape d c) then if length t <=? p + length sh then 0
                        else if strncmp0 (length sh) (skipn (p + length sh) t) sh then 1 else 0 else 1
            end))
        (probe_lines inp (s_height (d_shape d c)) bottom)) Hc) as (n & E & Hn).
  { intros j s Ej Hs. destruct (W j s Ej Hs) as (bl & br & x & -> & -> & E & Hne & Hx). cbn [bind]. rewrite E. cbn [must bind]. apply total_edge. intros a t Ht.
    rewrite (comp_left a t Ht). cbn [must bind]. destruct (holds_cmp (s_elastic (d_shape d c)) (unled U t) x Hne) as (b & -> & Hb).
    exists b. split; [reflexivity|]. rewrite Hb. split; [intros H; exists x; split; [apply Hx; reflexivity|exact H]|intros (x' & Hw & H); apply Hx in Hw; subst x'; exact H]. }
  exists n. split; [exact E|]. eapply counts_iff; [|exact Hn]. intros (j, t) _. cbn [fst snd].
  split; [intros (s & A & B & x & C & D); exists s, x; auto|intros (s & x & A & B & C & D); exists s; eauto].
Qed.

(** the sides *)
Lemma body_count : forall (P : list N -> Prop) f, (forall a t, nth_error L a = Some t -> exists b, f a = Ok (bit b) /\ (b = true <-> P t)) ->
  exists n, total f (body_lines d inp) = Ok n /\ counts P (inner d L) n.
Proof.
  intros P f H. unfold body_lines, inner, blank_side. rewrite <- lens. cbv zeta.
  set (t := if empty_side (d_shape d) BTOP then 0 else _). set (b := if empty_side (d_shape d) BBOT then 0 else _).
  destruct (Nat.le_gt_cases (length L) (b + t)) as [Hle|Hgt]; [|apply total_lines; [lia|exact H]].
  replace (length L - b - t) with 0 by lia. exists 0. split; [reflexivity|constructor].
Qed.
Lemma body_at : forall a, In a (body_lines d inp) -> exists t, nth_error L a = Some t /\ In t (inner d L).
Proof.
  intros a Ha. unfold body_lines in Ha. unfold inner, blank_side. rewrite <- lens in Ha. cbv zeta in *.
  set (t := if empty_side (d_shape d) BTOP then 0 else _) in *. set (b := if empty_side (d_shape d) BBOT then 0 else _) in *. clearbody t b. apply in_seq in Ha.
  destruct (nth_error L a) as [x|] eqn:En; [|apply nth_error_None in En; lia]. exists x. split; [reflexivity|].
  apply (nth_error_In _ (a - t)). clear - Ha En. revert t a Ha En. generalize (length L - b). intros n t a Ha En.
  assert (Hk : a - t < n - t) by lia. assert (Ht : t <= a) by lia. clear Ha. remember (n - t) as k. clear Heqk n.
  revert t a k Hk Ht En. induction L as [|y l IH]; intros t a k Hk Ht En; [destruct a; discriminate|].
  destruct t as [|t].
  - cbn [skipn]. rewrite Nat.sub_0_r in *. revert a Hk Ht En. clear IH. revert k. generalize (y :: l). clear. intros l. induction l as [|y l IH]; intros [|k] [|a] Hk Ht En; try lia; try discriminate; [exact En|].
    cbn [firstn nth_error] in *. apply IH; [lia|lia|exact En].
  - destruct a as [|a]; [lia|]. cbn [skipn]. apply (IH t a k); [lia|lia|exact En].
Qed.
Lemma body_has : forall t, In t (inner d L) -> exists a, In a (body_lines d inp) /\ nth_error L a = Some t.
Proof.
  intros x Hx. unfold inner, blank_side in Hx. unfold body_lines. rewrite <- lens. cbv zeta in *.
  set (t := if empty_side (d_shape d) BTOP then 0 else _) in *. set (b := if empty_side (d_shape d) BBOT then 0 else _) in *. clearbody t b.
  apply In_nth_error in Hx as (k & Ek). assert (Hk : k < length L - b - t).
  { apply Nat.lt_le_trans with (length (firstn (length L - b - t) (skipn t L))); [apply nth_error_Some; congruence|rewrite firstn_length; lia]. }
  exists (t + k). split; [apply in_seq; lia|]. revert Ek Hk. generalize (length L - b - t). clear. intros n Ek Hk. revert t Ek.
  induction L as [|y l IH]; intros t Ek; [destruct t, n, k; discriminate|]. destruct t as [|t].
  - cbn [skipn Nat.add] in *. revert Ek Hk. clear IH. generalize (y :: l). clear. revert n. induction k as [|k IH]; intros [|n] [|z l] Ek Hk; try lia; try discriminate; [exact Ek|].
    cbn [firstn nth_error] in *. apply (IH n l); [exact Ek|lia].
  - cbn [skipn Nat.add nth_error] in *. apply IH. exact Ek.
Qed.

Lemma west_hit_is : forall c t js, c < 16 -> (forall j, In j js -> j < s_height (d_shape d c)) ->
  exists b, west_hit U (d_shape d c) ct (unled U t) js = Ok (bit b) /\
    (b = true <-> exists j s, In j js /\ nth_error (lines_of d c) j = Some s /\ shown U s /\ starts (unled U t) (unled U s)).
Proof.
  intros c t js Hc. induction js as [|j js IH]; intros Hj; [exists false; split; [reflexivity|]; split; [discriminate|intros (j & s & [] & _)]|]. cbn [west_hit].
  destruct IH as (b & Eb & Hb); [intros; apply Hj; right; assumption|]. rewrite Eb.
  destruct (nth_error (lines_of d c) j) as [s|] eqn:En; [|apply nth_error_None in En; rewrite rows_len in En by exact Hc; specialize (Hj j (or_introl eq_refl)); lia].
  destruct (row_is c j s Hc En) as (m & -> & Em & _). cbn [bind]. rewrite Em. cbn [bind].
  assert (Hskip : ~ (shown U s /\ starts (unled U t) (unled U s)) -> b = true <-> exists j' s', In j' (j :: js) /\ nth_error (lines_of d c) j' = Some s' /\ shown U s' /\ starts (unled U t) (unled U s')).
  { intros Hno. rewrite Hb. split; [intros (j' & s' & A & B); exists j', s'; split; [right; exact A|exact B]|].
    intros (j' & s' & [<-|A] & B & C & D); [rewrite En in B; injection B as <-; tauto|exists j', s'; auto]. }
  destruct (forallb (is_blank U) s) eqn:Ef.
  - exists b. split; [reflexivity|]. apply Hskip. intros [F _]. apply shown_iff in F. congruence.
  - assert (Hs : shown U s) by (apply shown_iff; exact Ef). rewrite (prep_is c j true false s Hc En Hs). cbn [must bind]. cbv zeta.
    destruct (strncmp0 _ _ _) eqn:Ec.
    + exists true. split; [reflexivity|]. split; [|reflexivity]. intros _. exists j, s. split; [left; reflexivity|]. split; [exact En|]. split; [exact Hs|]. apply cmp_starts. exact Ec.
    + exists b. split; [reflexivity|]. apply Hskip. intros [_ F]. apply cmp_starts in F. congruence.
Qed.
Lemma left_side_is : forall c, c < 16 -> exists n, find_vertical_west U d inp ct c = Ok n /\ left_side U d L c n.
Proof.
  intros c Hc. unfold find_vertical_west, left_side. destruct (isempty (d_shape d c)) eqn:Ee.
  - exists 0. split; [reflexivity|]. apply counts_none. intros x _ (s & Hs & _). unfold lines_of, shape_rows in Hs. destruct (HT c Hc Ee) as [_ Hz]. rewrite Hz in Hs. destruct Hs.
  - apply body_count. intros a t Ht. rewrite (comp_left a t Ht). cbn [must bind].
    destruct (west_hit_is c t (seq 0 (s_height (d_shape d c))) Hc) as (b & Eb & Hb); [intros j Hj; apply in_seq in Hj; lia|]. exists b. split; [exact Eb|].
    rewrite Hb. split.
    + intros (j & s & _ & A & B). exists s. split; [eapply nth_error_In; exact A|exact B].
    + intros (s & A & B). apply In_nth_error in A as (j & A). exists j, s. split; [|auto]. apply in_seq. rewrite <- rows_len by exact Hc.
      split; [lia|]. apply nth_error_Some. congruence.
Qed.
Lemma east_hit_is : forall s ks, shown U s -> (forall k, In k ks -> exists t, nth_error L k = Some t) ->
  exists b, east_hit inp ct s ks = Ok (bit b) /\ (b = true <-> exists k t, In k ks /\ nth_error L k = Some t /\ ends_in (untrailed U t) s).
Proof.
  intros s ks Hs. induction ks as [|k ks IH]; intros Hk; [exists false; split; [reflexivity|]; split; [discriminate|intros (k & t & [] & _)]|]. cbn [east_hit].
  destruct IH as (b & Eb & Hb); [intros; apply Hk; right; assumption|]. rewrite Eb. destruct (Hk k (or_introl eq_refl)) as (t & Ht).
  destruct (comp_right k t s Ht Hs) as (x & -> & Hx). cbn [bind].
  assert (Hskip : ~ ends_in (untrailed U t) s -> b = true <-> exists k' t', In k' (k :: ks) /\ nth_error L k' = Some t' /\ ends_in (untrailed U t') s).
  { intros Hno. rewrite Hb. split; [intros (k' & t' & A & B); exists k', t'; split; [right; exact A|exact B]|].
    intros (k' & t' & [<-|A] & B & C); [rewrite Ht in B; injection B as <-; tauto|exists k', t'; auto]. }
  destruct x as [r|].
  - destruct (strncmp0 _ _ _) eqn:Ec.
    + exists true. split; [reflexivity|]. split; [|reflexivity]. intros _. exists k, t. split; [left; reflexivity|]. split; [exact Ht|]. apply Hx. reflexivity.
    + exists b. split; [reflexivity|]. apply Hskip. intros F. apply Hx in F. discriminate.
  - exists b. split; [reflexivity|]. apply Hskip. intros F. apply Hx in F. discriminate.
Qed.
Lemma right_side_is : forall c, c < 16 -> exists n, find_vertical_east U d inp ct c = Ok n /\ right_side U d L c n.
Proof.
  intros c Hc. unfold find_vertical_east, right_side. destruct (isempty (d_shape d c)) eqn:Ee; cbn [orb].
  - exists 0. split; [reflexivity|]. unfold lines_of, shape_rows. destruct (HT c Hc Ee) as [_ Hz]. rewrite Hz. constructor.
  - destruct (is_nil (body_lines d inp)) eqn:En.
    + exists 0. split; [reflexivity|]. apply counts_none. intros s _ (_ & t & Ht & _). apply body_has in Ht as (a & Ha & _). destruct (body_lines d inp); [destruct Ha|discriminate].
    + assert (G : exists n, per_line U (d_shape d c) (fun j => sh <- must (prepare_comp_shape (d_shape d c) j ct true true) ;; east_hit inp ct sh (body_lines d inp)) = Ok n /\
        counts (fun j => shown U (nth j (lines_of d c) []) /\ exists t, In t (inner d L) /\ ends_in (untrailed U t) (untrailed U (unled U (nth j (lines_of d c) []))))
          (seq 0 (s_height (d_shape d c))) n).
      { unfold per_line. apply total_count. intros j Hj. apply in_seq in Hj.
        destruct (nth_error (lines_of d c) j) as [s|] eqn:Es; [|apply nth_error_None in Es; rewrite rows_len in Es by exact Hc; lia].
        rewrite (nth_error_nth _ _ [] Es). destruct (row_is c j s Hc Es) as (m & -> & Em & _). cbn [bind]. rewrite Em. cbn [bind]. destruct (forallb (is_blank U) s) eqn:Ef.
        - exists false. split; [reflexivity|]. split; [discriminate|]. intros [F _]. apply shown_iff in F. congruence.
        - assert (Hs : shown U s) by (apply shown_iff; exact Ef). rewrite (prep_is c j true true s Hc Es Hs). cbn [must bind]. cbv zeta.
          destruct (east_hit_is (untrailed U (unled U s)) (body_lines d inp)) as (b & Eb & Hb).
          { auto using shown_unled, shown_untrailed. }
          { intros k Hk. destruct (body_at k Hk) as (t & Ht & _). eauto. }
          exists b. split; [exact Eb|]. rewrite Hb. split.
          + intros (k & t & A & B & C). split; [exact Hs|]. exists t. destruct (body_at k A) as (t' & Ht' & Hin). rewrite B in Ht'. injection Ht' as <-. auto.
          + intros (_ & t & A & B). destruct (body_has t A) as (k & Hk & Ht). exists k, t. auto. }
      destruct G as (n & E & Hn). exists n. split; [exact E|]. rewrite lines_seq by exact Hc. apply counts_map. exact Hn.
Qed.

Theorem score_is : exists n, match_design U d inp ct = Ok n /\ scored U d L n.
Proof.
  destruct (corner_left_is false) as (nw & E1 & H1). destruct (corner_left_is true) as (sw & E2 & H2).
  destruct (corner_right_is false) as (ne & E3 & H3). destruct (corner_right_is true) as (se & E4 & H4).
  destruct (between_is false 1 ltac:(lia)) as (nnw & E5 & H5). destruct (between_is false 2 ltac:(lia)) as (nn & E6 & H6). destruct (between_is false 3 ltac:(lia)) as (nne & E7 & H7).
  destruct (between_is true 1 ltac:(lia)) as (ssw & E8 & H8). destruct (between_is true 2 ltac:(lia)) as (s & E9 & H9). destruct (between_is true 3 ltac:(lia)) as (sse & E10 & H10).
  destruct (left_side_is WNW ltac:(cbv; lia)) as (wnw & E11 & H11). destruct (left_side_is W_ ltac:(cbv; lia)) as (w & E12 & H12). destruct (left_side_is WSW ltac:(cbv; lia)) as (wsw & E13 & H13).
  destruct (right_side_is ENE ltac:(cbv; lia)) as (ene & E14 & H14). destruct (right_side_is E_ ltac:(cbv; lia)) as (e & E15 & H15). destruct (right_side_is ESE ltac:(cbv; lia)) as (ese & E16 & H16).
  cbn [nth sides] in *.
  exists (nw + nnw + nn + nne + ne + ene + e + ese + se + sse + s + ssw + sw + wsw + w + wnw). split.
  - unfold match_design. cbn [seq].
    assert (S0 : shape_hits U d inp ct 0 = Ok nw) by exact E1. assert (S1 : shape_hits U d inp ct 1 = Ok nnw) by exact E5.
    assert (S2 : shape_hits U d inp ct 2 = Ok nn) by exact E6. assert (S3 : shape_hits U d inp ct 3 = Ok nne) by exact E7.
    assert (S4 : shape_hits U d inp ct 4 = Ok ne) by exact E3. assert (S5 : shape_hits U d inp ct 5 = Ok ene) by exact E14.
    assert (S6 : shape_hits U d inp ct 6 = Ok e) by exact E15. assert (S7 : shape_hits U d inp ct 7 = Ok ese) by exact E16.
    assert (S8 : shape_hits U d inp ct 8 = Ok se) by exact E4. assert (S9 : shape_hits U d inp ct 9 = Ok sse) by exact E10.
    assert (S10 : shape_hits U d inp ct 10 = Ok s) by exact E9. assert (S11 : shape_hits U d inp ct 11 = Ok ssw) by exact E8.
    assert (S12 : shape_hits U d inp ct 12 = Ok sw) by exact E2. assert (S13 : shape_hits U d inp ct 13 = Ok wsw) by exact E13.
    assert (S14 : shape_hits U d inp ct 14 = Ok w) by exact E12. assert (S15 : shape_hits U d inp ct 15 = Ok wnw) by exact E11.
    cbn [total]. rewrite S0, S1, S2, S3, S4, S5, S6, S7, S8, S9, S10, S11, S12, S13, S14, S15. cbn [bind]. f_equal. lia.
  - unfold scored. exists nw, nnw, nn, nne, ne, ene, e, ese, se, sse, s, ssw, sw, wsw, w, wnw. auto 20.
Qed.
End Score.

Lemma scored_fun : forall U d L n m, scored U d L n -> scored U d L m -> n = m.
Proof.
  intros U d L n m (nw & nnw & nn & nne & ne & ene & e & ese & se & sse & s & ssw & sw & wsw & w & wnw & -> & A)
    (nw' & nnw' & nn' & nne' & ne' & ene' & e' & ese' & se' & sse' & s' & ssw' & sw' & wsw' & w' & wnw' & -> & B).
  destruct A as (A1 & A2 & A3 & A4 & A5 & A6 & A7 & A8 & A9 & A10 & A11 & A12 & A13 & A14 & A15 & A16).
  destruct B as (B1 & B2 & B3 & B4 & B5 & B6 & B7 & B8 & B9 & B10 & B11 & B12 & B13 & B14 & B15 & B16).
  assert (C1 : forall b x y, corner_left U d L b x -> corner_left U d L b y -> x = y) by (intros b x y; unfold corner_left; destruct (_ || _); [congruence|apply counts_fun]).
  assert (C2 : forall b x y, corner_right U d L b x -> corner_right U d L b y -> x = y) by (intros b x y; unfold corner_right; destruct (_ || _); [congruence|apply counts_fun]).
  assert (C3 : forall b k x y, between U d L b k x -> between U d L b k y -> x = y) by (intros b k x y; unfold between; destruct (_ || _); [congruence|apply counts_fun]).
  rewrite (C1 _ _ _ A1 B1), (C1 _ _ _ A2 B2), (C2 _ _ _ A3 B3), (C2 _ _ _ A4 B4), (C3 _ _ _ _ A5 B5), (C3 _ _ _ _ A6 B6), (C3 _ _ _ _ A7 B7),
    (C3 _ _ _ _ A8 B8), (C3 _ _ _ _ A9 B9), (C3 _ _ _ _ A10 B10), (counts_fun _ _ _ _ A11 B11), (counts_fun _ _ _ _ A12 B12), (counts_fun _ _ _ _ A13 B13),
    (counts_fun _ _ _ _ A14 B14), (counts_fun _ _ _ _ A15 B15), (counts_fun _ _ _ _ A16 B16). reflexivity.
Qed.
