(** * The matcher recognises drawn border lines: lines whose trailing blanks have been cut, and lines that start with blanks *)
From Coq Require Import List Arith NArith ZArith Bool Lia.
From Verif Require Import Base BaseFacts Model_Unicode Model_Bxs Model_Shape Model_Generate Model_Detect Model_Remove
  Spec_Str Spec_Design Spec_Box Spec_Remove Proof_Str Proof_Bxs Proof_BxsOps Proof_BxsMore Proof_Shows Proof_Term Proof_Hmm Proof_Horiz.
Import ListNotations.

(** spaces only *)
Definition sp (s : list N) : Prop := Forall (fun c => c = 32%N) s.
Lemma sp_repeat : forall s, sp s -> s = repeat 32%N (length s).
Proof. intros s H. induction H as [|c s -> _ IH]; [reflexivity|]. cbn. f_equal. exact IH. Qed.
Lemma repeat_sp : forall n, sp (repeat 32%N n).
Proof. intros n. apply Forall_forall. intros c H. apply repeat_spec in H. exact H. Qed.
Lemma sp_app : forall a b, sp (a ++ b) <-> sp a /\ sp b.
Proof. intros a b. apply Forall_app. Qed.
Lemma sp_concat : forall s n, sp s -> sp (concat (repeat s n)).
Proof. intros s n H. induction n as [|n IH]; [constructor|]. cbn [repeat concat]. apply sp_app. auto. Qed.
Lemma sp_concat_inv : forall s n, 1 <= n -> sp (concat (repeat s n)) -> sp s.
Proof. intros s [|n] Hn H; [lia|]. cbn [repeat concat] in H. apply sp_app in H. tauto. Qed.

(** equal up to spaces at the end *)
Definition eqsp (a b : list N) : Prop := exists i j, a ++ repeat 32%N i = b ++ repeat 32%N j.

Lemma eqsp_prefix : forall s T F, eqsp T (s ++ F) -> length s <= length T -> exists T', T = s ++ T' /\ eqsp T' F.
Proof.
  intros s T F (i & j & E) Hl. exists (skipn (length s) T).
  assert (E1 : firstn (length s) T = s).
  { apply (f_equal (firstn (length s))) in E. rewrite firstn_app in E. replace (length s - length T) with 0 in E by lia.
    cbn [firstn] in E. rewrite app_nil_r in E. rewrite E, <- app_assoc, firstn_app, Nat.sub_diag, firstn_all. cbn [firstn]. apply app_nil_r. }
  assert (E2 : T = s ++ skipn (length s) T) by (rewrite <- E1 at 1; symmetry; apply firstn_skipn).
  split; [exact E2|]. exists i, j. rewrite E2 in E. rewrite <- !app_assoc in E. apply app_inv_head in E. exact E.
Qed.

Lemma eqsp_short : forall s T F, eqsp T (s ++ F) -> length T <= length s -> exists u, s = T ++ u /\ sp u /\ sp F.
Proof.
  intros s T F (i & j & E) Hl. exists (skipn (length T) s).
  assert (E1 : firstn (length T) s = T).
  { apply (f_equal (firstn (length T))) in E. rewrite firstn_app, Nat.sub_diag, firstn_all in E. cbn [firstn] in E. rewrite app_nil_r in E.
    rewrite E at 2. rewrite <- app_assoc, firstn_app. replace (length T - length s) with 0 by lia. cbn [firstn]. rewrite app_nil_r. reflexivity. }
  assert (E2 : s = T ++ skipn (length T) s) by (rewrite <- E1 at 1; symmetry; apply firstn_skipn).
  split; [exact E2|]. rewrite E2 in E. rewrite <- !app_assoc in E. apply app_inv_head in E.
  assert (H : sp (skipn (length T) s ++ F ++ repeat 32%N j)) by (rewrite <- E; apply repeat_sp).
  apply sp_app in H as [H1 H2]. apply sp_app in H2 as [H2 _]. auto.
Qed.

Lemma eqsp_nil_l : forall F, eqsp [] F -> sp F.
Proof. intros F (i & j & E). cbn [app] in E. assert (H : sp (F ++ repeat 32%N j)) by (rewrite <- E; apply repeat_sp). apply sp_app in H. tauto. Qed.
Lemma eqsp_sym : forall a b, eqsp a b -> eqsp b a.
Proof. intros a b (i & j & E). exists j, i. auto. Qed.
Lemma eqsp_sp : forall T F, eqsp T F -> sp F -> sp T.
Proof.
  intros T F (i & j & E) H. assert (H' : sp (T ++ repeat 32%N i)) by (rewrite E; apply sp_app; split; [exact H|apply repeat_sp]).
  apply sp_app in H'. tauto.
Qed.

Section Open.
Variable U : uctab.
Hypothesis HU : uctab_ok U.

Lemma sp_blanks : forall s, sp s -> blanks U s.
Proof. intros s H. eapply Forall_impl; [|exact H]. intros c ->. apply blank32. exact HU. Qed.

(** text without control characters whose only blank is the space *)
Notation simple := (plain_text U).

Lemma simple_app : forall a b, simple (a ++ b) <-> simple a /\ simple b.
Proof. intros a b. apply Forall_app. Qed.
Lemma sp_simple : forall s, sp s -> simple s.
Proof. intros s H. eapply Forall_impl; [|exact H]. intros c ->. repeat split; discriminate. Qed.
Lemma simple_blanks : forall s, simple s -> blanks U s -> sp s.
Proof. intros s Hs Hb. unfold plain_text, blanks, sp in *. rewrite Forall_forall in *. intros c Hc. apply (Hs c Hc). auto. Qed.

Lemma simple_is_blank : forall s, simple s -> bxs_is_blank U (bx U (plain s)) = Ok (forallb (N.eqb 32) s).
Proof.
  intros s H. rewrite is_blank_bx, render_plain, visible_plain. f_equal.
  destruct s as [|c s]; [reflexivity|]. cbn [length Nat.eqb orb].
  set (l := c :: s) in *. clearbody l. clear c s. induction H as [|x l (H1 & H2 & H3 & H4) _ IH]; [reflexivity|]. cbn [forallb].
  rewrite IH. f_equal. unfold is_blank in H4. unfold char_tab, char_cr in *.
  destruct (N.eqb_spec x 9); [congruence|]. destruct (N.eqb_spec x 13); [congruence|]. cbn [orb].
  destruct (uc_is_blank U x) eqn:E.
  - rewrite H4; [reflexivity|]. apply orb_true_r.
  - destruct (N.eqb_spec 32 x) as [<-|]; [|reflexivity]. rewrite (ok_space U HU) in E. discriminate.
Qed.

Lemma forallb_sp : forall s, forallb (N.eqb 32) s = true <-> sp s.
Proof.
  intros s. unfold sp. rewrite forallb_forall, Forall_forall. split; intros H c Hc; specialize (H c Hc).
  - apply N.eqb_eq in H. auto.
  - subst c. reflexivity.
Qed.

Section Ctx.
Variable sr : list sctx.
Hypothesis Hctx : ctx_ok U sr.
Hypothesis Hsimple : forall j b, j < 5 -> sc_text (nths sr j) = Some b -> exists s, b = bx U (plain s) /\ simple s /\ (j < 4 -> s <> []).

Let rest_step := rest_step sr [] 0 (le_n 0).
Let rest_end := rest_end sr [] 0 (le_n 0).
Let rest_ext := rest_ext sr [] 0 (le_n 0).

Lemma emptyb_sp : forall j, j < 5 -> sc_empty (nths sr j) = false -> (emptyb U (nths sr j) = true <-> sp (linetext (nths sr j))).
Proof.
  intros j Hj He. destruct (ctx_nth U sr j Hctx Hj) as (_ & _ & Hs). destruct (Hs He) as [b Hb].
  destruct (Hsimple j b Hj Hb) as (s & -> & Hsi & _). unfold emptyb, linetext. rewrite He, Hb. cbn [orb blank_opt].
  rewrite (simple_is_blank s Hsi). cbn [bx memory]. rewrite render_plain. apply forallb_sp.
Qed.

Lemma rest_sp_more : forall cn i, counts_ok sr cn i -> sp (rest sr cn i) -> forall j, i <= j < 4 -> emptyb U (nths sr j) = true.
Proof.
  intros cn i Hc Hs j Hj. destruct (sc_empty (nths sr j)) eqn:He; [unfold emptyb; rewrite He; reflexivity|].
  apply emptyb_sp; [lia|exact He|]. destruct (Hc j Hj He) as (_ & Hn & _).
  apply (sp_concat_inv _ (cn j) Hn). unfold rest in Hs.
  assert (Hin : In j (seq i (4 - i))) by (apply in_seq; lia).
  unfold sp in *. rewrite Forall_forall in *. intros c Hcc. apply Hs. apply in_flat_map. exists j. split; [exact Hin|]. rewrite He. exact Hcc.
Qed.

Lemma more_sp : forall cn i, counts_ok sr cn (S i) -> sp (rest sr cn (S i)) -> more U sr i = false.
Proof.
  intros cn i Hc Hs. unfold more. destruct (existsb _ _) eqn:E; [|reflexivity]. exfalso.
  apply existsb_exists in E as (j & Hj & Hn). apply in_seq in Hj. rewrite (rest_sp_more cn (S i) Hc Hs j) in Hn by lia. discriminate.
Qed.

Lemma counts_next : forall cn i, counts_ok sr cn i -> counts_ok sr cn (S i).
Proof. intros cn i H j Hj. apply H. lia. Qed.

Definition less (cn : nat -> nat) (i : nat) : nat -> nat := fun j => if j =? i then cn j - 1 else cn j.
Lemma counts_less : forall cn i, counts_ok sr cn i -> i < 4 -> sc_elastic (nths sr i) = true -> 2 <= cn i -> counts_ok sr (less cn i) i.
Proof.
  intros cn i H Hi He Hc j Hj Hn. destruct (H j Hj Hn) as (Ht & H1 & H2). unfold less. destruct (Nat.eqb_spec j i) as [->|Hne].
  - split; [exact Ht|]. split; [lia|]. congruence.
  - auto.
Qed.
Lemma rest_less : forall cn i, i < 4 -> sc_empty (nths sr i) = false -> 1 <= cn i ->
  rest sr cn i = linetext (nths sr i) ++ rest sr (less cn i) i.
Proof.
  intros cn i Hi He Hc. rewrite (rest_step cn i Hi), (rest_step (less cn i) i Hi). rewrite He. replace (less cn i i) with (cn i - 1) by (unfold less; rewrite Nat.eqb_refl; reflexivity).
  destruct (cn i) as [|k]; [lia|]. cbn [repeat concat]. replace (S k - 1) with k by lia. rewrite <- app_assoc. f_equal. f_equal.
  apply rest_ext. intros j Hj. unfold less. destruct (Nat.eqb_spec j i); [lia|reflexivity].
Qed.
Lemma rest_one : forall cn i, i < 4 -> sc_empty (nths sr i) = false -> cn i = 1 ->
  rest sr cn i = linetext (nths sr i) ++ rest sr cn (S i).
Proof. intros cn i Hi He Hc. rewrite rest_step by exact Hi. rewrite He, Hc. cbn [repeat concat]. rewrite app_nil_r. reflexivity. Qed.

(** shortening at the right end *)
Lemma shorten_loop_right : forall n m e al, n <= e -> e <= length m -> (forall j, e - n <= j < e -> blank_at U m j = true) ->
  shorten_loop U n m 0 e false al true = (0, e - n).
Proof.
  induction n as [|n IH]; intros m e al Hn He Hb; cbn [shorten_loop]; [rewrite Nat.sub_0_r; reflexivity|].
  destruct (Nat.ltb_spec 0 e) as [Hp|Hp]; [|lia]. cbn [andb]. rewrite Hb by lia.
  rewrite IH; [f_equal; lia|lia|lia|]. intros j Hj. apply Hb. lia.
Qed.

Lemma shorten_right : forall b q al, num_chars b = length (memory b) -> 1 <= q <= length (memory b) ->
  sp (skipn (q - 1) (memory b)) ->
  shorten U (Some b) q false al true = Some (firstn (q - 1) (memory b), q - 1).
Proof.
  intros b q al Hb Hq Hs. unfold shorten. rewrite Hb. destruct (Nat.ltb_spec (length (memory b)) q) as [|_]; [lia|].
  rewrite andb_false_r. rewrite shorten_loop_right; [|lia|lia|].
  - replace (length (memory b) - (length (memory b) - q + 1)) with (q - 1) by lia. rewrite Nat.sub_0_r.
    destruct (Nat.ltb_spec (q - 1) q) as [_|]; [|lia]. unfold between. rewrite Nat.sub_0_r. reflexivity.
  - intros j Hj. unfold blank_at. destruct (nth_error (memory b) j) as [c|] eqn:E; [|apply nth_error_None in E; lia].
    assert (Hc : In c (skipn (q - 1) (memory b))).
    { replace j with ((q - 1) + (j - (q - 1))) in E by lia. rewrite <- nth_error_skipn2 in E. eapply nth_error_In. exact E. }
    unfold sp in Hs. rewrite Forall_forall in Hs. rewrite (Hs c Hc). apply blank32. exact HU.
Qed.

Variable m : list N.

(** *** the right end is open *)
Section OpenEnd.
Variable rcb : list N.
Hypothesis Hrcb : sp rcb.
Hypothesis H4 : emptyb U (nths sr 4) = true.

Lemma try_short : forall rec n sc idx cur b s u q, cur < length m ->
  sc_text sc = Some b -> b = bx U (plain s) -> s = skipn cur m ++ u -> sp u -> more U sr idx = false ->
  length (skipn cur m) <= q <= length s -> q < n ->
  hmm_try U rec sr m (length m) false n sc cur idx (firstn q s) q = Ok true.
Proof.
  intros rec n. induction n as [|n IH]; intros sc idx cur b s u q Hcur Hb Eb Es Hu Hm Hq Hn; [lia|]. cbn [hmm_try].
  pose proof (skipn_length cur m) as Hl.
  destruct (Nat.eqb_spec q 0) as [|_]; [lia|]. destruct (Nat.ltb_spec (length m) cur) as [|_]; [lia|].
  destruct (Nat.eq_dec q (length (skipn cur m))) as [Eq|Hne].
  - assert (Ec : strncmp0 q (skipn cur m) (firstn q s) = true).
    { apply strncmp_spec; [rewrite firstn_length; lia|]. rewrite Es at 1. rewrite Eq, firstn_all, firstn_app, Nat.sub_diag, firstn_all.
      cbn [firstn]. rewrite app_nil_r. reflexivity. }
    rewrite Ec, (more_ok U sr idx Hctx). cbn [bind]. rewrite Hm.
    replace (cur + q =? length m) with true by (symmetry; apply Nat.eqb_eq; lia). reflexivity.
  - assert (Ec : strncmp0 q (skipn cur m) (firstn q s) = false).
    { destruct (strncmp0 q (skipn cur m) (firstn q s)) eqn:E; [|reflexivity]. exfalso.
      apply strncmp_spec in E; [|rewrite firstn_length; lia]. apply (f_equal (@length N)) in E. rewrite !firstn_length in E. lia. }
    rewrite Ec. cbn [negb]. rewrite Hb.
    assert (Em : memory b = s) by (rewrite Eb; cbn [bx memory]; apply render_plain).
    rewrite shorten_right.
    + rewrite Em. apply (IH sc idx cur b s u); auto; lia.
    + rewrite Eb. reflexivity.
    + rewrite Em. lia.
    + rewrite Em, Es. rewrite skipn_app. rewrite skipn_all2 by lia. cbn [app].
      rewrite <- (firstn_skipn (q - 1 - length (skipn cur m)) u) in Hu. apply sp_app in Hu. tauto.
Qed.

Lemma hmm_open : forall f cur idx cn, idx <= 4 -> cur <= length m -> counts_ok sr cn idx ->
  eqsp (skipn cur m) (rest sr cn idx ++ rcb) ->
  6 * (length m - cur) + (4 - idx) + 1 <= f ->
  hmm U f sr m (length m) false cur idx true = Ok true.
Proof.
  induction f as [|f IH]; intros cur idx cn Hidx Hcur Hcn E Hf; [lia|]. cbn [hmm negb].
  destruct (Nat.ltb_spec (length m) cur) as [|_]; [lia|].
  destruct (Nat.eqb_spec cur (length m)) as [->|Hne].
  - rewrite skipn_all in E. apply eqsp_nil_l in E. apply sp_app in E as [E _]. rewrite andb_false_r.
    destruct (Nat.eq_dec idx 4) as [->|Hi].
    + rewrite (line_empty_ok U sr 4 Hctx) by lia. rewrite H4. cbn [bind]. rewrite (more_ok U sr 4 Hctx). reflexivity.
    + rewrite (line_empty_ok U sr idx Hctx) by lia. rewrite (rest_sp_more cn idx Hcn E idx) by lia. cbn [bind].
      rewrite (more_ok U sr idx Hctx). cbn [bind]. rewrite (more_sp cn idx); [reflexivity|apply counts_next; exact Hcn|].
      rewrite rest_step in E by lia. apply sp_app in E. tauto.
  - destruct (Nat.leb_spec 4 idx) as [Hi|Hi].
    + rewrite (rest_end cn idx Hi) in E. cbn [app] in E.
      assert (Hb : u32_is_blank U (skipn cur m) = true).
      { apply blanks_forallb. apply sp_blanks. exact (eqsp_sp _ _ E Hrcb). }
      rewrite Hb. reflexivity.
    + destruct (ctx_nth U sr idx Hctx) as (Hrd & _ & Hsome); [lia|]. rewrite Hrd. cbn [bind].
      destruct (sc_empty (nths sr idx)) eqn:He.
      * apply (IH cur (S idx) cn); [lia|lia|apply counts_next; exact Hcn| |lia].
        rewrite rest_step in E by lia. rewrite He in E. exact E.
      * destruct (Hsome eq_refl) as [b Hb]. rewrite Hb.
        destruct (Hsimple idx b ltac:(lia) Hb) as (s & Eb & Hsi & Hsne).
        assert (El : linetext (nths sr idx) = s) by (unfold linetext; rewrite Hb, Eb; cbn [bx memory]; apply render_plain).
        destruct (Hcn idx ltac:(lia) He) as (_ & Hc1 & Hc2).
        rewrite Eb. cbn [bx memory num_chars]. rewrite render_plain.
        pose proof (skipn_length cur m) as Hsl.
        destruct (Nat.le_gt_cases (length s) (length (skipn cur m))) as [Hlen|Hlen].
        -- pose proof E as E'. rewrite (rest_less cn idx Hi He Hc1), El, <- app_assoc in E'.
           destruct (eqsp_prefix _ _ _ E' Hlen) as (T' & ET & HT').
           assert (Hs0 : length s <> 0) by (destruct s; [exfalso; apply Hsne; [lia|reflexivity]|discriminate]).
           assert (Hsk : skipn (cur + length s) m = T').
           { rewrite <- skipn_skipn2, ET, skipn_app, skipn_all, Nat.sub_diag. reflexivity. }
           replace (length s + 2) with (S (length s + 1)) by lia. cbn [hmm_try].
           destruct (Nat.eqb_spec (length s) 0) as [|_]; [lia|]. destruct (Nat.ltb_spec (length m) cur) as [|_]; [lia|].
           assert (Ec : strncmp0 (length s) (skipn cur m) s = true).
           { apply strncmp_spec; [reflexivity|]. rewrite ET, firstn_app, Nat.sub_diag, firstn_all. cbn [firstn]. apply app_nil_r. }
           rewrite Ec, (more_ok U sr idx Hctx). cbn [bind].
           destruct ((cur + length s =? length m) && negb (more U sr idx)) eqn:Edone; [reflexivity|].
           assert (Hnext : cn idx = 1 -> hmm U f sr m (length m) false (cur + length s) (S idx) true = Ok true).
           { intros Ec1. apply (IH _ _ cn); [lia|lia|apply counts_next; exact Hcn| |lia]. rewrite Hsk.
             rewrite (rest_one cn idx Hi He Ec1), El, <- app_assoc in E. destruct (eqsp_prefix _ _ _ E Hlen) as (T2 & ET2 & HT2).
             rewrite ET in ET2. apply app_inv_head in ET2. subst T2. exact HT2. }
           destruct (sc_elastic (nths sr idx)) eqn:Eel.
           ++ destruct (Nat.eq_dec (cn idx) 1) as [Ec1|Ec1].
              ** destruct (hmm_total U sr m (length m) false Hctx (le_n _) f (cur + length s) idx true) as [x Hx]; [lia|lia|lia|].
                 rewrite Hx. cbn [bind]. destruct x; [reflexivity|]. apply Hnext. exact Ec1.
              ** rewrite (IH (cur + length s) idx (less cn idx)); [reflexivity|lia|lia|apply counts_less; auto; lia|rewrite Hsk; exact HT'|lia].
           ++ cbn [bind]. apply Hnext. apply Hc2. reflexivity.
        -- destruct (eqsp_short s (skipn cur m) (rest sr (less cn idx) idx ++ rcb)) as (u & Es & Hu & HF); [|lia|].
           { rewrite (rest_less cn idx Hi He Hc1), El, <- app_assoc in E. exact E. }
           replace s with (firstn (length s) s) at 2 by apply firstn_all.
           apply (try_short _ _ _ idx cur b s u); auto; try lia.
           apply (more_sp cn idx); [apply counts_next; exact Hcn|].
           apply sp_app in HF as [HF _]. rewrite rest_step in HF by lia. apply sp_app in HF as [_ HF].
           rewrite (rest_ext (less cn idx) cn (S idx)) in HF; [exact HF|]. intros j Hj. unfold less. destruct (Nat.eqb_spec j idx); [lia|reflexivity].
Qed.
End OpenEnd.

(** *** both kinds of right end *)
Section AnyEnd.
Variable ar : bool.
Variable endp : nat.
Variable rcb : list N.
Hypothesis Hend : endp <= length m.
Hypothesis Hopen : ar = false -> endp = length m /\ sp rcb /\ emptyb U (nths sr 4) = true.

(** the line from [cur] on is [full], up to spaces at an open end *)
Definition agree (cur : nat) (full : list N) : Prop :=
  cur <= endp /\ if ar then between m cur endp = full else eqsp (skipn cur m) (full ++ rcb).

Lemma hmm_any : forall f cur idx cn, idx <= 4 -> counts_ok sr cn idx -> agree cur (rest sr cn idx) ->
  6 * (length m - cur) + (4 - idx) + 1 <= f ->
  hmm U f sr m endp ar cur idx true = Ok true.
Proof.
  intros f cur idx cn Hi Hc [Hcur Ha] Hf. destruct ar eqn:Ear.
  - apply (hmm_complete U sr m endp true Hctx Hend [] (or_introl (conj eq_refl eq_refl)) f cur idx cn Hi Hcur Hc); [|exact Hf].
    rewrite app_nil_r. exact Ha.
  - destruct (Hopen eq_refl) as (-> & Hr & H4). apply (hmm_open rcb Hr H4 f cur idx cn); auto.
Qed.


Lemma lead_at : forall k nd, is_prefix nd (skipn k m) = true -> k <= length m -> blanks U (firstn k m) -> forallb (is_blank U) nd = false ->
  lead (is_blank U) m = k + lead (is_blank U) nd.
Proof.
  intros k nd Hp Hk Hb Hn. apply prefix_spec in Hp as [r Hr].
  rewrite <- (firstn_skipn k m) at 1. rewrite Hr, !lead_app, Hn.
  apply blanks_forallb in Hb. rewrite Hb, firstn_length, Nat.min_l by exact Hk. reflexivity.
Qed.

Lemma lead_prefix : forall q s, forallb (is_blank U) (firstn q s) = false -> lead (is_blank U) (firstn q s) = lead (is_blank U) s.
Proof. intros q s H. rewrite <- (firstn_skipn q s) at 2. rewrite lead_app, H. reflexivity. Qed.

(** the first occurrence is the one right behind the blanks *)
Lemma strstr_here : forall j nd, j <= length m -> blanks U (firstn j m) -> forallb (is_blank U) nd = false ->
  is_prefix nd (skipn j m) = true -> u32_strstr m nd = Some j.
Proof.
  intros j nd Hj Hb Hn Hp. destruct (strstr_some m nd j Hp) as (k & Hk & Hle). rewrite Hk. f_equal.
  assert (H1 : lead (is_blank U) m = j + lead (is_blank U) nd) by (apply lead_at; auto).
  assert (H2 : lead (is_blank U) m = k + lead (is_blank U) nd); [|lia].
  apply lead_at; [|lia| |exact Hn].
  - apply prefix_spec. destruct (strstr_spec _ _ _ Hk) as [_ E]. exists (skipn (length nd) (skipn k m)). rewrite <- E at 1. symmetry. apply firstn_skipn.
  - unfold blanks in *. rewrite Forall_forall in *. intros c Hc. apply Hb.
    rewrite <- (firstn_skipn k (firstn j m)). apply in_or_app. left. rewrite firstn_firstn, Nat.min_l by lia. exact Hc.
Qed.

Lemma after_shape : forall f i cn p s, 1 <= i < 4 -> counts_ok sr cn i -> sc_empty (nths sr i) = false -> linetext (nths sr i) = s ->
  1 <= p -> p <= endp -> agree p (rest sr (less cn i) i) -> (cn i = 1 -> agree p (rest sr cn (S i))) -> 6 * length m <= f ->
  (r <- hmm U f sr m endp ar p (if sc_elastic (nths sr i) then i else S i) true ;;
   if negb r && sc_elastic (nths sr i) then hmm U f sr m endp ar p (S i) true else Ok r) = Ok true.
Proof.
  intros f i cn p s Hi Hcn He El Hp1 Hp Ha Ha1 Hf. destruct (Hcn i ltac:(lia) He) as (_ & Hc1 & Hc2).
  assert (Hnext : cn i = 1 -> hmm U f sr m endp ar p (S i) true = Ok true).
  { intros E. apply (hmm_any f p (S i) cn); [lia|apply counts_next; exact Hcn|auto|lia]. }
  destruct (sc_elastic (nths sr i)) eqn:Ee.
  - destruct (Nat.eq_dec (cn i) 1) as [E1|E1].
    + destruct (hmm_total U sr m endp ar Hctx Hend f p i true) as [x Hx]; [lia|lia|lia|]. rewrite Hx. cbn [bind].
      destruct x; cbn [negb andb]; [reflexivity|]. apply Hnext. exact E1.
    + rewrite (hmm_any f p i (less cn i)); [reflexivity|lia|apply counts_less; auto; lia|exact Ha|lia].
  - rewrite Hnext by (apply Hc2; reflexivity). reflexivity.
Qed.

(** a shape line whose end has been cut off with the blanks of the line *)
Lemma shift_short : forall f i cn pb s u b n q, 1 <= i < 4 -> counts_ok sr cn i -> sc_empty (nths sr i) = false ->
  sc_text (nths sr i) = Some b -> b = bx U (plain s) -> forallb (is_blank U) s = false -> ar = false ->
  m = pb ++ firstn (length m - length pb) s -> length pb <= length m -> sp pb ->
  s = skipn (length pb) m ++ u -> sp u -> sp (rest sr cn (S i)) ->
  length m - length pb <= q <= length s -> q < n -> 6 * length m <= f -> 
  shift_try U (fun c i => hmm U f sr m endp ar c i true) m endp n (nths sr i) 0 i true (firstn q s) q = Ok true.
Proof.
  intros f i cn pb s u b n. induction n as [|n IH]; intros q Hi Hcn He Hb Eb Hns Har Em Hpl Hpb Es Hu Hrs Hq Hn Hf; [lia|].
  cbn [shift_try skipn]. destruct (Nat.ltb_spec (length m) 0) as [|_]; [lia|].
  pose proof (skipn_length (length pb) m) as Hsl.
  destruct (Hopen Har) as (Ee & Hr & H4).
  assert (Hq0 : forallb (is_blank U) (firstn q s) = false).
  { destruct (forallb (is_blank U) (firstn q s)) eqn:E; [|reflexivity]. exfalso. revert Hns. rewrite <- (firstn_skipn q s), forallb_app, E. cbn [andb].
    rewrite Es, skipn_app, skipn_all2 by lia. cbn [app]. intros Hx.
    assert (Hy : forallb (is_blank U) (skipn (q - length (skipn (length pb) m)) u) = true); [|congruence].
    apply blanks_forallb, sp_blanks. rewrite <- (firstn_skipn (q - length (skipn (length pb) m)) u) in Hu. apply sp_app in Hu. tauto. }
  assert (Hfb : firstn (length pb) m = pb) by (rewrite Em, firstn_app, Nat.sub_diag, firstn_all; cbn [firstn]; apply app_nil_r).
  assert (Hbl : blanks U (firstn (length pb) m)) by (rewrite Hfb; apply sp_blanks; exact Hpb).
  assert (HT : forallb (is_blank U) (skipn (length pb) m) = false).
  { destruct (forallb (is_blank U) (skipn (length pb) m)) eqn:E; [|reflexivity]. exfalso. revert Hns. rewrite Es, forallb_app, E. cbn [andb]. intros Hx.
    assert (forallb (is_blank U) u = true) by (apply blanks_forallb, sp_blanks; exact Hu). congruence. }
  assert (HTne : 0 < length (skipn (length pb) m)) by (destruct (skipn (length pb) m); [discriminate|cbn; lia]).
  destruct (Nat.eq_dec q (length m - length pb)) as [Eq|Hne].
  - assert (Efs : firstn q s = skipn (length pb) m).
    { rewrite Es, firstn_app, Eq, <- Hsl, firstn_all, Nat.sub_diag. cbn [firstn]. apply app_nil_r. }
    rewrite (strstr_here (length pb) (firstn q s)); [|exact Hpl|exact Hbl|exact Hq0|].
    + cbn [Nat.add]. destruct (Nat.ltb_spec (length pb) endp) as [_|]; [|lia]. cbn [andb].
      assert (Hbb : is_blank_between U m 0 (length pb) = true).
      { unfold is_blank_between, u32_is_blank. unfold between. rewrite Nat.sub_0_r. cbn [skipn]. apply blanks_forallb. exact Hbl. }
      rewrite Hbb. replace (length pb + q) with endp by lia. rewrite Ee.
      assert (Hlast : hmm U f sr m (length m) ar (length m) (S i) true = Ok true).
      { rewrite <- Ee. apply (hmm_any f endp (S i) cn); [lia|apply counts_next; exact Hcn| |lia].
        split; [lia|]. rewrite Har, Ee, skipn_all. 
        assert (Hs : sp (rest sr cn (S i) ++ rcb)) by (apply sp_app; auto). apply sp_repeat in Hs. rewrite Hs.
        exists (length (rest sr cn (S i) ++ rcb)), 0. cbn [repeat app]. symmetry. apply app_nil_r. }
      destruct (sc_elastic (nths sr i)).
      * destruct (hmm_total U sr m (length m) ar Hctx (le_n _) f (length m) i true) as [x Hx]; [lia|lia|lia|]. rewrite Hx. cbn [bind].
        destruct x; cbn [negb andb]; [reflexivity|]. exact Hlast.
      * rewrite Hlast. reflexivity.
    + rewrite Efs. apply prefix_spec. exists []. symmetry. apply app_nil_r.
  - assert (Hagain : match shorten U (sc_text (nths sr i)) q false true true with
          | Some (l, q') => shift_try U (fun c i0 => hmm U f sr m endp ar c i0 true) m endp n (nths sr i) 0 i true l q'
          | None => Ok false end = Ok true).
    { rewrite Hb. assert (Emb : memory b = s) by (rewrite Eb; cbn [bx memory]; apply render_plain).
      rewrite shorten_right.
      - rewrite Emb. apply IH; auto; lia.
      - rewrite Eb. reflexivity.
      - rewrite Emb. lia.
      - rewrite Emb, Es, skipn_app, skipn_all2 by lia. cbn [app].
        rewrite <- (firstn_skipn (q - 1 - length (skipn (length pb) m)) u) in Hu. apply sp_app in Hu. tauto. }
    destruct (u32_strstr m (firstn q s)) as [k|] eqn:Ek; [|exact Hagain].
    destruct ((0 + k <? endp) && is_blank_between U m 0 (0 + k)) eqn:Ec; [|exact Hagain]. exfalso.
    apply andb_true_iff in Ec as [Ec1 Ec2]. apply Nat.ltb_lt in Ec1. cbn [Nat.add] in *.
    destruct (strstr_spec _ _ _ Ek) as [Hkl Hke]. rewrite firstn_length in Hkl.
    assert (H1 : lead (is_blank U) m = k + lead (is_blank U) (firstn q s)).
    { apply lead_at; [|lia| |exact Hq0].
      - apply prefix_spec. exists (skipn (length (firstn q s)) (skipn k m)). rewrite <- Hke at 1. symmetry. apply firstn_skipn.
      - unfold is_blank_between, u32_is_blank, between in Ec2. rewrite Nat.sub_0_r in Ec2. cbn [skipn] in Ec2. apply blanks_forallb. exact Ec2. }
    assert (H2 : lead (is_blank U) m = length pb + lead (is_blank U) (skipn (length pb) m)).
    { apply lead_at; [|exact Hpl|exact Hbl|exact HT]. apply prefix_spec. exists []. symmetry. apply app_nil_r. }
    assert (H3 : lead (is_blank U) (skipn (length pb) m) = lead (is_blank U) s).
    { rewrite Es, lead_app, HT. reflexivity. }
    rewrite (lead_prefix q s Hq0) in H1. lia.
Qed.

Lemma shiftable_ok : forall f k i cn pb, i + k = 4 -> 1 <= i -> counts_ok sr cn i -> sp pb -> agree 0 (pb ++ rest sr cn i) ->
  6 * length m <= f ->
  hmm_shiftable U (fun c i => hmm U f sr m endp ar c i true) sr m endp (seq i k) 0 = Ok true.
Proof.
  intros f k. induction k as [|k IH]; intros i cn pb Hik Hi1 Hcn Hpb Ha Hf.
  - cbn [seq hmm_shiftable]. rewrite rest_end, app_nil_r in Ha by lia. f_equal. unfold is_blank_between.
    assert (Hs : sp (between m 0 endp)).
    { destruct Ha as [_ Ha]. destruct ar eqn:Ear.
      - rewrite Ha. exact Hpb.
      - destruct (Hopen eq_refl) as (-> & Hr & _). rewrite between_all. apply (eqsp_sp _ _ Ha). apply sp_app. auto. }
    apply blanks_forallb, sp_blanks. exact Hs.
  - cbn [seq hmm_shiftable]. rewrite (line_empty_ok U sr i Hctx) by lia. cbn [bind].
    destruct (ctx_nth U sr i Hctx) as (Hrd & _ & Hsome); [lia|].
    destruct (emptyb U (nths sr i)) eqn:Ee.
    + rewrite rest_step in Ha by lia.
      destruct (sc_empty (nths sr i)) eqn:He.
      * apply (IH (S i) cn pb); [lia|lia|apply counts_next; exact Hcn|exact Hpb|exact Ha|exact Hf].
      * rewrite app_assoc in Ha. apply (IH (S i) cn _) in Ha; [exact Ha|lia|lia|apply counts_next; exact Hcn| |exact Hf].
        apply sp_app. split; [exact Hpb|]. apply sp_concat. apply emptyb_sp; [lia|exact He|exact Ee].
    + rewrite Hrd. cbn [bind].
      assert (He : sc_empty (nths sr i) = false) by (unfold emptyb in Ee; apply orb_false_iff in Ee; tauto).
      destruct (Hsome He) as [b Hb]. destruct (Hsimple i b ltac:(lia) Hb) as (s & Eb & Hsi & Hsne).
      assert (El : linetext (nths sr i) = s) by (unfold linetext; rewrite Hb, Eb; cbn [bx memory]; apply render_plain).
      assert (Hns : forallb (is_blank U) s = false).
      { destruct (forallb (is_blank U) s) eqn:E; [|reflexivity]. exfalso.
        assert (Hx : emptyb U (nths sr i) = true); [|congruence]. apply emptyb_sp; [lia|exact He|]. rewrite El.
        apply simple_blanks; [exact Hsi|]. apply blanks_forallb. exact E. }
      rewrite Hb, (more_ok U sr i Hctx). cbn [bind]. rewrite (line_empty_ok U sr 4 Hctx) by lia. cbn [bind].
      destruct (Hcn i ltac:(lia) He) as (_ & Hc1 & _).
      assert (Hs0 : length s <> 0) by (destruct s; [discriminate|discriminate]).
      assert (Hfull : length pb + length s <= endp -> firstn (length pb + length s) m = pb ++ s ->
         (forall w, between m 0 endp = pb ++ s ++ w \/ eqsp m (pb ++ s ++ w ++ rcb) -> True) ->
         agree (length pb + length s) (rest sr (less cn i) i) -> (cn i = 1 -> agree (length pb + length s) (rest sr cn (S i))) ->
         forall cr, shift_try U (fun c i => hmm U f sr m endp ar c i true) m endp (num_chars b + 2) (nths sr i) 0 i cr (memory b) (num_chars b) = Ok true).
      { intros Hle Efm _ Ha1 Ha2 cr. rewrite Eb. cbn [bx memory num_chars]. rewrite render_plain. replace (length s + 2) with (S (length s + 1)) by lia.
        cbn [shift_try skipn]. destruct (Nat.ltb_spec (length m) 0) as [|_]; [lia|].
        assert (Hfb : firstn (length pb) m = pb).
        { replace (firstn (length pb) m) with (firstn (length pb) (firstn (length pb + length s) m)) by (rewrite firstn_firstn; f_equal; lia).
          rewrite Efm, firstn_app, Nat.sub_diag, firstn_all. cbn [firstn]. apply app_nil_r. }
        assert (Hbl : blanks U (firstn (length pb) m)) by (rewrite Hfb; apply sp_blanks; exact Hpb).
        rewrite (strstr_here (length pb) s); [|lia|exact Hbl|exact Hns|].
        - cbn [Nat.add]. destruct (Nat.ltb_spec (length pb) endp) as [_|]; [|lia]. cbn [andb].
          assert (Hbb : is_blank_between U m 0 (length pb) = true).
          { unfold is_blank_between, u32_is_blank, between. rewrite Nat.sub_0_r. cbn [skipn]. apply blanks_forallb. exact Hbl. }
          rewrite Hbb. apply (after_shape f i cn _ s); auto; lia.
        - apply prefix_spec. exists (skipn (length pb + length s) m). 
          rewrite <- (firstn_skipn (length pb + length s) m) at 1. rewrite Efm, <- app_assoc, skipn_app, skipn_all, Nat.sub_diag. reflexivity. }
      destruct Ha as [_ Ha].
      assert (Hone : cn i = 1 -> rest sr cn i = s ++ rest sr cn (S i)) by (intros E1; rewrite (rest_one cn i ltac:(lia) He E1), El; reflexivity).
      pose proof (rest_less cn i ltac:(lia) He Hc1) as Hless. rewrite El in Hless.
      pose proof (shift_short f i cn) as Hshort.
      destruct ar eqn:Ear.
      * assert (Hlen : length (between m 0 endp) = endp) by (rewrite between_length; lia).
        assert (Hgen : forall w, pb ++ rest sr cn i = pb ++ s ++ w -> length pb + length s <= endp /\ firstn (length pb + length s) m = pb ++ s /\
           between m (length pb + length s) endp = w).
        { intros w Ew. rewrite Ew in Ha. rewrite Ha in Hlen. rewrite !app_length in Hlen. 
          assert (Hb1 : between m 0 (length pb + length s) = pb ++ s /\ between m (length pb + length s) endp = w).
          { rewrite (between_split m 0 (length pb + length s) endp) in Ha by lia. rewrite app_assoc in Ha.
            apply app_eq_app_len in Ha; [exact Ha|]. rewrite between_length, app_length by lia. lia. }
          destruct Hb1 as [Hb1 Hb2]. split; [lia|]. split; [|exact Hb2].
          unfold between in Hb1. rewrite Nat.sub_0_r in Hb1. exact Hb1. }
        destruct (Hgen (rest sr (less cn i) i)) as (G1 & G2 & G3); [rewrite Hless; reflexivity|].
        apply Hfull; auto.
        -- split; [lia|]. rewrite Ear. exact G3.
        -- intros E1. split; [lia|]. rewrite Ear. destruct (Hgen (rest sr cn (S i))) as (_ & _ & G4); [rewrite (Hone E1); reflexivity|exact G4].
      * destruct (Hopen eq_refl) as (Een & Hr & H4). cbn [skipn] in Ha.
        destruct (Nat.le_gt_cases (length pb + length s) (length m)) as [Hle|Hgt].
        -- assert (Hgen : forall w, pb ++ rest sr cn i = pb ++ s ++ w -> firstn (length pb + length s) m = pb ++ s /\
              eqsp (skipn (length pb + length s) m) (w ++ rcb)).
           { intros w Ew. rewrite Ew in Ha. replace ((pb ++ s ++ w) ++ rcb) with ((pb ++ s) ++ (w ++ rcb)) in Ha by (rewrite <- !app_assoc; reflexivity).
             destruct (eqsp_prefix _ _ _ Ha) as (T' & ET & HT); [rewrite app_length; lia|].
             rewrite <- app_length, ET, firstn_app, skipn_app, Nat.sub_diag, firstn_all, skipn_all. cbn [firstn skipn app]. rewrite app_nil_r. auto. }
           destruct (Hgen (rest sr (less cn i) i)) as (G2 & G3); [rewrite Hless; reflexivity|].
           apply Hfull; auto; [lia| |].
           ++ split; [lia|]. rewrite Ear. exact G3.
           ++ intros E1. split; [lia|]. rewrite Ear. destruct (Hgen (rest sr cn (S i))) as (_ & G4); [rewrite (Hone E1); reflexivity|exact G4].
        -- assert (Hpm : length pb <= length m).
           { destruct (Nat.le_gt_cases (length pb) (length m)) as [|Hg]; [assumption|]. exfalso.
             rewrite <- app_assoc in Ha. destruct (eqsp_short _ _ _ Ha) as (_ & _ & _ & Hx); [lia|].
             apply sp_app in Hx as [Hx _]. rewrite Hless in Hx. apply sp_app in Hx as [Hx _].
             assert (Hz : forallb (is_blank U) s = true) by (apply blanks_forallb, sp_blanks; exact Hx). congruence. }
           rewrite <- app_assoc in Ha. destruct (eqsp_prefix _ _ _ Ha Hpm) as (T & ET & HT).
           rewrite Hless, <- app_assoc in HT.
           assert (HlT : length m = length pb + length T) by (rewrite ET, app_length; reflexivity).
           destruct (eqsp_short _ _ _ HT) as (u & Es & Hu & HF); [lia|].
           assert (EsT : skipn (length pb) m = T) by (rewrite ET, skipn_app, skipn_all, Nat.sub_diag; reflexivity).
           assert (Hrs : sp (rest sr cn (S i))).
           { apply sp_app in HF as [HF _]. rewrite (rest_step (less cn i)) in HF by lia. apply sp_app in HF as [_ HF].
             rewrite (rest_ext (less cn i) cn (S i)) in HF; [exact HF|]. intros j Hj. unfold less. destruct (Nat.eqb_spec j i); [lia|reflexivity]. }
           rewrite (more_sp cn i (counts_next cn i Hcn) Hrs), H4. cbn [negb orb].
           assert (Emb : memory b = s) by (rewrite Eb; cbn [bx memory]; apply render_plain).
           assert (Enb : num_chars b = length s) by (rewrite Eb; cbn [bx num_chars]; rewrite render_plain; reflexivity).
           rewrite Emb, Enb. replace s with (firstn (length s) s) at 2 by apply firstn_all.
           apply (Hshort pb s u b (length s + 2) (length s)); auto; try lia.
           ++ rewrite ET at 1. f_equal. rewrite HlT. replace (length pb + length T - length pb) with (length T) by lia.
              rewrite Es, firstn_app, firstn_all, Nat.sub_diag. cbn [firstn]. symmetry. apply app_nil_r.
           ++ rewrite EsT. exact Es.
Qed.

Lemma hmm_free : forall f cn pb, counts_ok sr cn 1 -> sp pb -> agree 0 (pb ++ rest sr cn 1) -> 6 * length m + 1 <= f ->
  hmm U f sr m endp ar 0 1 false = Ok true.
Proof.
  intros [|f] cn pb Hcn Hpb Ha Hf; [lia|]. cbn [hmm negb]. apply (shiftable_ok f 3 1 cn pb); auto; lia.
Qed.
End AnyEnd.
End Ctx.
End Open.
