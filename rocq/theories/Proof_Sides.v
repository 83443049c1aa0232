(** * Walking over a side: which shapes are visited, and the rows assembled from them *)
From Coq Require Import List Arith NArith ZArith Bool Lia.
From Verif Require Import Base BaseFacts Model_Unicode Model_Bxs Model_Shape Model_Generate
  Spec_Str Spec_Design Proof_Str Proof_Bxs Proof_BxsOps Proof_Shows Proof_Precalc Proof_Match.
Import ListNotations.

Lemma tget_tset_same : forall i v t, In i [1;2;3] -> tget i (tset i v t) = v.
Proof. intros i v t [<-|[<-|[<-|[]]]]; reflexivity. Qed.
Lemma tget_tset_other : forall i j v t, In i [1;2;3] -> In j [1;2;3] -> i <> j -> tget i (tset j v t) = tget i t.
Proof. intros i j v t [<-|[<-|[<-|[]]]] [<-|[<-|[<-|[]]]] H; try reflexivity; congruence. Qed.

(** ** Horizontal sides *)
Lemma hwalk_done : forall f side il os j target, target <= j -> hwalk f side il os j target = Ok [].
Proof. intros f side il os j target H. destruct f; cbn [hwalk]; rewrite (proj2 (Nat.ltb_ge j target) H); reflexivity. Qed.

Lemma hwalk_skip : forall f side il c os j target, tget c il = 0 ->
  hwalk f side il (c :: os) j target = hwalk f side il os j target.
Proof. intros f side il c os j target H. destruct f; cbn [hwalk skip0]; rewrite ?H; reflexivity. Qed.

Definition walk (cn : nat -> nat) (os : list nat) : list nat := flat_map (fun i => repeat i (cn i)) os.

Lemma tot_cons : forall d cn c os, tot d cn (c :: os) = cn c * d c + tot d cn os.
Proof. reflexivity. Qed.

Lemma hwalk_spec : forall os side cn f il j,
  NoDup os -> (forall i, In i os -> In i [1;2;3]) ->
  (forall i, In i os -> 0 < cn i -> 0 < s_width (side i)) ->
  (forall i, In i os -> tget i il = cn i * s_width (side i)) ->
  tot (fun i => s_width (side i)) cn os <= f ->
  hwalk f side il os j (j + tot (fun i => s_width (side i)) cn os) = Ok (walk cn os).
Proof.
  induction os as [|c os IH]; intros side cn f il j Hnd Hin Hpos Hil Hf.
  { apply hwalk_done. cbn. lia. }
  inversion Hnd as [|? ? Hc Hnd']; subst.
  assert (Hrest : forall il' j' f', (forall i, In i os -> tget i il' = tget i il) -> 
    tot (fun i => s_width (side i)) cn os <= f' ->
    hwalk f' side il' os j' (j' + tot (fun i => s_width (side i)) cn os) = Ok (walk cn os)).
  { intros il' j' f' Hsame Hf'. apply IH; auto.
    - intros i Hi. apply Hin. right; exact Hi.
    - intros i Hi. apply Hpos. right; exact Hi.
    - intros i Hi. rewrite Hsame by exact Hi. apply Hil. right; exact Hi. }
  assert (Hgen : forall n il' j' f', n <= cn c -> tget c il' = n * s_width (side c) ->
    (forall i, In i os -> tget i il' = tget i il) ->
    n * s_width (side c) + tot (fun i => s_width (side i)) cn os <= f' ->
    hwalk f' side il' (c :: os) j' (j' + (n * s_width (side c) + tot (fun i => s_width (side i)) cn os))
      = Ok (repeat c n ++ walk cn os)).
  { induction n as [|n IHn]; intros il' j' f' Hn Hc' Hsame Hf'.
    - rewrite hwalk_skip by (rewrite Hc'; lia). cbn [repeat app Nat.mul Nat.add]. apply Hrest; auto.
    - assert (Hp : 0 < s_width (side c)) by (apply Hpos; [left; reflexivity|lia]).
      destruct f' as [|f']; [cbn in Hf'; lia|].
      cbn [hwalk]. destruct (Nat.ltb_spec j' (j' + (S n * s_width (side c) + tot (fun i => s_width (side i)) cn os)))
        as [_|Hbad]; [|nia].
      cbn [skip0]. rewrite Hc'. destruct (Nat.eqb_spec (S n * s_width (side c)) 0) as [Hbad|_]; [nia|].
      rewrite Hc'. rewrite subz_le by nia. cbn [bind].
      replace (S n * s_width (side c) - s_width (side c)) with (n * s_width (side c)) by nia.
      replace (j' + (S n * s_width (side c) + tot (fun i => s_width (side i)) cn os))
        with ((j' + s_width (side c)) + (n * s_width (side c) + tot (fun i => s_width (side i)) cn os)) by nia.
      rewrite IHn; [reflexivity|lia| | |cbn in Hf'; lia].
      + apply tget_tset_same. apply Hin. left; reflexivity.
      + intros i Hi. rewrite tget_tset_other; [apply Hsame; exact Hi| | |].
        * apply Hin. right; exact Hi.
        * apply Hin. left; reflexivity.
        * intros ->. contradiction. }
  rewrite tot_cons in *. cbn [walk flat_map]. apply Hgen; auto. apply Hil. left; reflexivity.
Qed.

(** ** Vertical sides *)
Definition vseq (h : nat -> nat) (cn : nat -> nat) (os : list nat) : list (nat * nat) :=
  flat_map (fun i => concat (repeat (map (pair i) (seq 0 (h i))) (cn i))) os.

Lemma skip0_len : forall il os, length (skip0 il os) <= length os.
Proof. induction os as [|c os IH]; cbn; [lia|]. destruct (_ =? 0); cbn; lia. Qed.

(** skipping an exhausted shape is the same as starting the next shape with line 0 *)
Lemma vwalk_skip : forall n side il c os sc, tget c il = 0 ->
  vwalk n side il (c :: os) sc = vwalk n side il os 0.
Proof.
  intros n side il c os sc H. destruct n as [|n]; [reflexivity|]. cbn [vwalk skip0].
  rewrite H. cbn [Nat.eqb].
  pose proof (skip0_len il os).
  destruct (Nat.eqb_spec (length (skip0 il os)) (length (c :: os))) as [E|_]; [cbn in E; lia|].
  destruct (Nat.eqb_spec (length (skip0 il os)) (length os)); reflexivity.
Qed.

Lemma vwalk_spec : forall os side cn il,
  NoDup os -> (forall i, In i os -> In i [1;2;3]) ->
  (forall i, In i os -> 0 < cn i -> 0 < s_height (side i)) ->
  (forall i, In i os -> tget i il = cn i * s_height (side i)) ->
  vwalk (tot (fun i => s_height (side i)) cn os) side il os 0 = Ok (vseq (fun i => s_height (side i)) cn os).
Proof.
  induction os as [|c os IH]; intros side cn il Hnd Hin Hpos Hil.
  { reflexivity. }
  inversion Hnd as [|? ? Hc Hnd']; subst.
  set (h := s_height (side c)).
  assert (Hrest : forall il', (forall i, In i os -> tget i il' = tget i il) -> 
    vwalk (tot (fun i => s_height (side i)) cn os) side il' os 0 = Ok (vseq (fun i => s_height (side i)) cn os)).
  { intros il' Hsame. apply IH; auto.
    - intros i Hi. apply Hin. right; exact Hi.
    - intros i Hi. apply Hpos. right; exact Hi.
    - intros i Hi. rewrite Hsame by exact Hi. apply Hil. right; exact Hi. }
  set (R := tot (fun i => s_height (side i)) cn os) in *.
  set (V := vseq (fun i => s_height (side i)) cn os) in *.
  (* within one repetition: k lines left, then q full repetitions *)
  assert (Hgen : 0 < h -> forall q k il', k <= h -> tget c il' = q * h + k ->
    (forall i, In i os -> tget i il' = tget i il) ->
    vwalk (q * h + k + R) side il' (c :: os) (h - k)
      = Ok (map (pair c) (seq (h - k) k) ++ concat (repeat (map (pair c) (seq 0 h)) q) ++ V)).
  { intros Hh. 
    assert (Hstep : forall n il' sc v, tget c il' = S v -> (forall i, In i os -> tget i il' = tget i il) ->
       vwalk (S n) side il' (c :: os) sc =
         (l <- vwalk n side (tset c v il') (c :: os) (S (if sc =? h then 0 else sc)) ;;
          Ok ((c, if sc =? h then 0 else sc) :: l))).
    { intros n il' sc v Hv Hsame. cbn [vwalk skip0]. rewrite Hv. cbn [Nat.eqb length].
      rewrite Nat.eqb_refl. rewrite Hv. rewrite subz_le by lia. cbn [bind]. replace (S v - 1) with v by lia.
      reflexivity. }
    induction q as [|q IHq].
    - induction k as [|k IHk]; intros il' Hk Hil' Hsame.
      + rewrite vwalk_skip by exact Hil'. cbn [seq map repeat concat app Nat.mul Nat.add]. apply Hrest. exact Hsame.
      + replace (0 * h + S k + R) with (S (0 * h + k + R)) by lia.
        rewrite (Hstep _ _ _ (0 * h + k)) by (auto; lia).
        destruct (Nat.eqb_spec (h - S k) h) as [E|_]; [lia|].
        replace (S (h - S k)) with (h - k) by lia.
        rewrite IHk; [| lia | apply tget_tset_same; apply Hin; left; reflexivity
                     | intros i Hi; rewrite tget_tset_other; [apply Hsame; exact Hi|
                         apply Hin; right; exact Hi|apply Hin; left; reflexivity|intros ->; contradiction]].
        cbn [bind seq map app]. replace (S (h - S k)) with (h - k) by lia. reflexivity.
    - induction k as [|k IHk]; intros il' Hk Hil' Hsame.
      + (* start the next repetition *)
        replace (S q * h + 0 + R) with (S (q * h + (h - 1) + R)) by (cbn; lia).
        rewrite (Hstep _ _ _ (q * h + (h - 1))) by (auto; cbn in *; lia).
        rewrite Nat.sub_0_r, Nat.eqb_refl.
        pose proof (IHq (h - 1) (tset c (q * h + (h - 1)) il') ltac:(lia)) as E.
        replace (h - (h - 1)) with 1 in E by lia.
        rewrite E; [| apply tget_tset_same; apply Hin; left; reflexivity
                     | intros i Hi; rewrite tget_tset_other; [apply Hsame; exact Hi|
                         apply Hin; right; exact Hi|apply Hin; left; reflexivity|intros ->; contradiction]].
        cbn [bind]. cbn [seq map app repeat concat]. destruct h as [|h']; [lia|].
        cbn [Nat.sub]. rewrite Nat.sub_0_r. cbn [seq map app]. rewrite <- app_assoc. reflexivity.
      + replace (S q * h + S k + R) with (S (S q * h + k + R)) by lia.
        rewrite (Hstep _ _ _ (S q * h + k)) by (auto; lia).
        destruct (Nat.eqb_spec (h - S k) h) as [E|_]; [lia|].
        replace (S (h - S k)) with (h - k) by lia.
        rewrite IHk; [| lia | apply tget_tset_same; apply Hin; left; reflexivity
                     | intros i Hi; rewrite tget_tset_other; [apply Hsame; exact Hi|
                         apply Hin; right; exact Hi|apply Hin; left; reflexivity|intros ->; contradiction]].
        cbn [bind seq map app]. replace (S (h - S k)) with (h - k) by lia. reflexivity. }
  rewrite tot_cons. cbn [vseq flat_map]. fold h V R.
  destruct (cn c) as [|q] eqn:Eq.
  - rewrite vwalk_skip; [apply Hrest; auto|]. rewrite (Hil c) by (left; reflexivity). rewrite Eq. reflexivity.
  - assert (Hh : 0 < h) by (apply Hpos; [left; reflexivity|lia]).
    pose proof (Hgen Hh q h il ltac:(lia)) as E. rewrite Nat.sub_diag in E.
    replace (S q * h + R) with (q * h + h + R) by (cbn; lia). rewrite E.
    + cbn [repeat concat]. rewrite <- app_assoc. reflexivity.
    + rewrite (Hil c) by (left; reflexivity). rewrite Eq. fold h. cbn. lia.
    + auto.
Qed.

(** ** The growth loop in terms of copies *)
Section Pre.
Variable dim : sentry -> nat.
Hypothesis dim_pos : forall s, isempty s = false -> 0 < dim s.

Definition triple (side : nat -> sentry) (cn : nat -> nat) : tri :=
  T3 (cn 1 * dim (side 1)) (cn 2 * dim (side 2)) (cn 3 * dim (side 3)).

Lemma tget_triple : forall side cn i, In i [1;2;3] -> tget i (triple side cn) = cn i * dim (side i).
Proof. intros side cn i [<-|[<-|[<-|[]]]]; reflexivity. Qed.

Definition mids (side : nat -> sentry) : nat := sum (map (fun i => size dim (side i)) [1;2;3]).

Lemma usage_cnt : forall side k, side_ok side -> 1 <= k -> mids side <= len dim side k -> usage side (cnt side k).
Proof.
  intros side k Hs Hk Hm. split.
  2: { intros L1 L3. assert (Hdb : double_elastic side).
       { destruct Hs as [(e & He & _ & _ & Hoth)|Hdb]; [exfalso|exact Hdb].
         destruct He as [<-|[<-|[<-|[]]]]; [rewrite (Hoth 3) in L3|rewrite (Hoth 3) in L3|rewrite (Hoth 1) in L1];
           (discriminate || cbn; auto; lia). }
       destruct Hdb as (Hne & _). unfold cnt, dbl. rewrite (Hne 1), (Hne 3), L1, L3 by (cbn; auto). cbn [andb Nat.eqb].
       destruct (div2_step k) as [D1 D2]. destruct (Nat.even k); [rewrite D1|rewrite D2]; auto; lia. }
  intros i Hi. unfold cnt. destruct (isempty (side i)) eqn:Ei; [reflexivity|].
  destruct (s_elastic (side i)) eqn:El; [|destruct k; [lia|reflexivity]].
  destruct (dbl side) eqn:Ed; [|lia].
  destruct Hs as [(e & He & Hee & Hel & Hoth)|Hdb].
  { exfalso. unfold dbl in Ed. apply andb_true_iff in Ed as [E1 E3].
    destruct He as [<-|[<-|[<-|[]]]].
    - rewrite (Hoth 3) in E3 by (cbn; auto; lia). discriminate.
    - rewrite (Hoth 3) in E3 by (cbn; auto; lia). discriminate.
    - rewrite (Hoth 1) in E1 by (cbn; auto; lia). discriminate. }
  pose proof (reach_double dim side k Hdb Hk) as Hl. rewrite Hl in Hm.
  destruct Hdb as (Hne & H1 & H2 & H3).
  assert (Hk2 : 2 <= k).
  { destruct k as [|[|k]]; [lia| |lia]. exfalso. cbn [Nat.div2] in Hm.
    unfold mids, size, rigid_len in Hm. cbn [map] in Hm. rewrite !sum_cons in Hm. cbn [sum fold_right] in Hm.
    rewrite H1, H2, H3, (Hne 1), (Hne 2), (Hne 3) in Hm by (cbn; auto). unfold size in Hm. rewrite (Hne 2) in Hm by (cbn; auto).
    pose proof (dim_pos _ (Hne 3 ltac:(cbn; auto))). lia. }
  destruct k as [|[|k]]; try lia. destruct (i =? 1); cbn [Nat.div2]; lia.
Qed.

Lemma len_tot : forall side k, len dim side k = tot (fun i => dim (side i)) (cnt side k) [1;2;3].
Proof. intros side k. unfold len, tot. cbn [map]. rewrite !sum_cons. cbn [sum fold_right]. lia. Qed.

Lemma tot_rev : forall d cn, tot d cn [3;2;1] = tot d cn [1;2;3].
Proof. intros d cn. unfold tot. cbn [map]. rewrite !sum_cons. cbn [sum fold_right]. lia. Qed.

Lemma precalc_spec : forall fuel sarr sideA sideB have want,
  let A := fun i => sarr (nth i sideA 0) in
  let B := fun i => sarr (nth i sideB 0) in
  side_ok A -> side_ok B ->
  dim (A 0) + dim (A 4) + mids A <= want -> dim (A 0) + dim (A 4) + mids B <= want ->
  precalc dim fuel sarr sideA sideB have want = Fuel \/
  exists ca cb w, precalc dim fuel sarr sideA sideB have want = Ok (triple A ca, triple B cb, w) /\
    usage A ca /\ usage B cb /\
    tot (fun i => dim (A i)) ca [1;2;3] = w /\ tot (fun i => dim (B i)) cb [1;2;3] = w /\
    (reachable dim A w /\ reachable dim B w /\ have <= w /\ want <= dim (A 0) + dim (A 4) + w) /\
    forall n, reachable dim A n /\ reachable dim B n /\ have <= n /\ want <= dim (A 0) + dim (A 4) + n -> w <= n.
Proof.
  intros fuel sarr sideA sideB have want A B HA HB HmA HmB.
  unfold precalc. fold A. fold B. change (sarr (nth 0 sideA 0)) with (A 0). change (sarr (nth 4 sideA 0)) with (A 4).
  unfold ptarget. rewrite subz_le by lia. cbn [bind]. rewrite subz_le by lia. cbn [bind].
  set (t := if _ <=? _ then _ else _).
  assert (Ht : have <= t /\ want <= dim (A 0) + dim (A 4) + t /\ mids A <= t /\ mids B <= t).
  { unfold t. destruct (Nat.leb_spec (want - dim (A 0) - dim (A 4)) have); lia. }
  destruct (precalc_result dim dim_pos A B t HA HB fuel _ eq_refl) as [E|(k & m & E & Hk & Hm & He & Hle & Hleast)]; rewrite E.
  { left. reflexivity. }
  right. exists (cnt A k), (cnt B m), (len dim A k). cbn [bind fst snd ideal p_il p_res].
  split; [reflexivity|]. split; [apply usage_cnt; auto; lia|]. split; [apply usage_cnt; auto; lia|].
  split; [symmetry; apply len_tot|]. split; [rewrite <- len_tot; auto|].
  split.
  - split; [apply reachable_iff; eauto|]. split; [apply reachable_iff; eauto|]. lia.
  - intros n (H1 & H2 & H3 & H4). apply reachable_iff in H1 as (ks & Hks & ->); auto.
    apply reachable_iff in H2 as (ms & Hms & E2); auto. apply (Hleast ks ms Hks E2).
    unfold t. destruct (Nat.leb_spec (want - dim (A 0) - dim (A 4)) have); lia.
Qed.

Lemma precalc_mono : forall f f' sarr sideA sideB have want r, f <= f' ->
  precalc dim f sarr sideA sideB have want = Ok r -> precalc dim f' sarr sideA sideB have want = Ok r.
Proof.
  intros f f' sarr sideA sideB have want r Hf H. unfold precalc in *.
  apply bind_ok in H as (t & Et & H). rewrite Et. cbn [bind].
  apply bind_ok in H as (ab & Eab & H). rewrite (loop_fuel_mono dim _ _ _ f f' _ _ _ Hf Eab). cbn [bind]. exact H.
Qed.

Lemma precalc_ok_iff : forall sarr sideA sideB have want,
  let A := fun i => sarr (nth i sideA 0) in
  let B := fun i => sarr (nth i sideB 0) in
  side_ok A -> side_ok B ->
  dim (A 0) + dim (A 4) <= want ->
  (exists fuel r, precalc dim fuel sarr sideA sideB have want = Ok r) <-> matchable dim A B.
Proof.
  intros sarr sideA sideB have want A B HA HB Hw.
  set (t := if want - dim (A 0) - dim (A 4) <=? have then have else want - dim (A 0) - dim (A 4)).
  rewrite <- (precalc_loop_terminates_iff dim dim_pos A B t HA HB).
  unfold precalc. fold A. fold B. change (sarr (nth 0 sideA 0)) with (A 0). change (sarr (nth 4 sideA 0)) with (A 4).
  unfold ptarget. rewrite subz_le by lia. cbn [bind]. rewrite subz_le by lia. cbn [bind].
  fold t. split.
  - intros (f & r & H). apply bind_ok in H as (ab & Eab & _). eauto.
  - intros (f & r & H). rewrite H || idtac. exists f. eexists. rewrite H. reflexivity.
Qed.
End Pre.

(** ** Assembling the sides *)
Section Assemble.
Variable U : uctab.
Hypothesis HU : uctab_ok U.

Lemma row_text_nth : forall s ln d, ln < length (s_mbcs s) -> row_text s ln = memory (nth ln (s_mbcs s) d).
Proof.
  intros s ln d H. unfold row_text. rewrite (nth_indep _ [] (memory d)) by (rewrite map_length; exact H).
  apply map_nth.
Qed.

Lemma concat_walk : forall (A : Type) (f : nat -> list A) cn os,
  concat (map f (walk cn os)) = flat_map (fun i => concat (repeat (f i) (cn i))) os.
Proof.
  intros A f cn os. unfold walk. induction os as [|i os IH]; [reflexivity|].
  cbn [flat_map]. rewrite map_app, concat_app, IH. f_equal.
  induction (cn i) as [|n IHn]; [reflexivity|]. cbn. rewrite IHn. reflexivity.
Qed.

Lemma In_walk : forall cn os i, In i (walk cn os) <-> In i os /\ 0 < cn i.
Proof.
  intros cn os i. unfold walk. rewrite in_flat_map. split.
  - intros (x & Hx & Hr). assert (Hl : 0 < cn x) by (destruct (cn x); [destruct Hr|lia]).
    apply repeat_spec in Hr. subst. auto.
  - intros [Hi Hc]. exists i. split; [exact Hi|]. destruct (cn i); [lia|left; reflexivity].
Qed.

Lemma sum_walk : forall (f : nat -> nat) cn os, sum (map f (walk cn os)) = tot f cn os.
Proof.
  intros f cn os. unfold walk, tot. induction os as [|i os IH]; [reflexivity|].
  cbn [flat_map map]. rewrite map_app, sum_app, sum_cons, IH. f_equal.
  induction (cn i) as [|n IHn]; [reflexivity|]. cbn [repeat map]. rewrite sum_cons, IHn. cbn. lia.
Qed.

Lemma shows_flat : forall (w : nat -> nat) (f : nat -> list N) cn os,
  (forall i, In i os -> 0 < cn i -> shows U (w i) (f i)) ->
  shows U (tot w cn os) (flat_map (fun i => concat (repeat (f i) (cn i))) os).
Proof.
  intros w f cn os H. rewrite <- concat_walk, <- sum_walk.
  assert (Hw : forall i, In i (walk cn os) -> shows U (w i) (f i)).
  { intros i Hi. apply In_walk in Hi as [H1 H2]. auto. }
  clear H. induction (walk cn os) as [|i l IH]; [apply shows_nil; exact HU|].
  cbn [map concat]. rewrite sum_cons. apply shows_app; [exact HU|apply Hw; left; reflexivity|].
  apply IH. intros x Hx. apply Hw. right; exact Hx.
Qed.

Lemma length_concat : forall (A : Type) (l : list (list A)), length (concat l) = sum (map (@length A) l).
Proof. intros A l. induction l as [|a l IH]; [reflexivity|]. cbn [concat map]. rewrite app_length, sum_cons, IH. reflexivity. Qed.

Definition used_ok (side : nat -> sentry) (cn : nat -> nat) : Prop :=
  forall i, In i [1;2;3] -> 0 < cn i -> shape_ok U (side i) /\ 0 < s_width (side i) /\ 0 < s_height (side i).

Lemma maxl_map_seq : forall (f : nat -> nat) n x, x < n -> f x <= maxl (map f (seq 0 n)).
Proof. intros f n x H. apply maxl_ge. apply in_map. apply in_seq. lia. Qed.

Lemma vert_assemble_spec : forall sarr seite (north : bool) cn w h,
  let side := fun i => sarr (nth i seite 0) in
  let os := if north then [1;2;3] else [3;2;1] in
  used_ok side cn ->
  (forall i, In i [1;2;3] -> 0 < cn i -> s_height (side i) = h) ->
  (forall i, In i [1;2;3] -> 0 < cn i -> Forall (fun l => length l = s_width (side i)) (s_chars (side i))) ->
  tot (fun i => s_width (side i)) cn [1;2;3] = w ->
  exists rows, vert_assemble U sarr seite north (triple s_width side cn) w h = Ok rows /\
    map memory rows = map (hside_row side os cn) (seq 0 h) /\
    forall ln, ln < h -> shows U w (hside_row side os cn ln).
Proof.
  intros sarr seite north cn w h side os Hok Hh Hasc Hw.
  assert (Hos : forall i, In i os -> In i [1;2;3]).
  { intros i. unfold os. destruct north; cbn; intuition. }
  assert (Hos' : tot (fun i => s_width (side i)) cn os = w).
  { unfold os. destruct north; [exact Hw|]. rewrite tot_rev. exact Hw. }
  assert (Hnd : NoDup os).
  { unfold os. destruct north; repeat constructor; cbn; intuition lia. }
  pose proof (hwalk_spec os side cn w (triple s_width side cn) 0 Hnd Hos) as Hwk.
  cbn [Nat.add] in Hwk. rewrite Hos' in Hwk.
  unfold vert_assemble. fold side. fold os. change (fun i : nat => sarr (nth i seite 0)) with side.
  rewrite Hwk; [|intros i Hi Hc; apply (Hok i); auto|intros i Hi; apply tget_triple; auto|lia]. cbn [bind]. clear Hwk.
  assert (Hwi : forall c, In c (walk cn os) -> In c [1;2;3] /\ 0 < cn c).
  { intros c Hc. apply In_walk in Hc as [H1 H2]. auto. }
  assert (Hrd : forall c ln, In c (walk cn os) -> ln < h ->
            rd (s_mbcs (side c)) ln = Ok (nth ln (s_mbcs (side c)) bxs_new_empty_string) /\
            row_ok U (s_width (side c)) (nth ln (s_mbcs (side c)) bxs_new_empty_string) /\
            rd (s_chars (side c)) ln = Ok (nth ln (s_chars (side c)) []) /\
            length (nth ln (s_chars (side c)) []) = s_width (side c) /\
            memory (nth ln (s_mbcs (side c)) bxs_new_empty_string) = row_text (side c) ln).
  { intros c ln Hc Hln. apply Hwi in Hc as [H1 H2]. destruct (Hok c H1 H2) as (Hs & _ & _).
    pose proof (Hh c H1 H2) as Eh. destruct Hs as [Hr Hcs Hrow].
    split; [apply rd_lt; lia|]. split; [|split; [apply rd_lt; lia|split]].
    - rewrite Forall_forall in Hrow. apply Hrow. apply nth_In. lia.
    - pose proof (Hasc c H1 H2) as Ha. rewrite Forall_forall in Ha. apply Ha. apply nth_In. lia.
    - symmetry. apply row_text_nth. lia. }
  (* lengths *)
  rewrite (mapM_pure _ _ _ (fun ln => length (hside_row side os cn ln))).
  2:{ intros ln Hln. apply in_seq in Hln as [_ Hln]. cbn in Hln.
      rewrite (mapM_pure _ _ _ (fun c => length (row_text (side c) ln))).
      - cbn [bind]. unfold hside_row. rewrite <- concat_walk, length_concat, map_map. reflexivity.
      - intros c Hc. destruct (Hrd c ln Hc Hln) as (E & [_ Hn] & _ & _ & Et). change (sarr (nth c seite 0)) with (side c). rewrite E. cbn [bind]. rewrite Hn, Et. reflexivity. }
  cbn [bind].
  assert (Hsh : forall ln, ln < h -> shows U w (hside_row side os cn ln)).
  { intros ln Hln. rewrite <- Hos'. apply shows_flat. intros i Hi Hc.
    destruct (Hrd i ln) as (_ & [Hs _] & _ & _ & Et); [apply In_walk; auto|exact Hln|]. rewrite <- Et. exact Hs. }
  set (mx := maxl _).
  assert (Hmx : forall ln, ln < h -> length (hside_row side os cn ln) <= mx).
  { intros ln Hln. unfold mx. apply (maxl_map_seq (fun ln => length (hside_row side os cn ln))). exact Hln. }
  (* rows *)
  assert (Hrow : forall ln, ln < h -> exists b, 
     (cs <- mapM (fun c => rd (s_chars (side c)) ln) (walk cn os) ;;
          if w <? length (concat cs) then UB else
          ms <- mapM (fun c => m <- rd (s_mbcs (side c)) ln ;; Ok (memory m)) (walk cn os) ;;
          if mx <? length (concat ms) then UB else
          must (bxs_from_unicode U (concat ms))) = Ok b /\ memory b = hside_row side os cn ln).
  { intros ln Hln.
    rewrite (mapM_pure _ _ _ (fun c => nth ln (s_chars (side c)) [])) by (intros c Hc; apply (Hrd c ln Hc Hln)).
    cbn [bind].
    replace (length (concat (map (fun c => nth ln (s_chars (side c)) []) (walk cn os)))) with w.
    2:{ rewrite length_concat, map_map. rewrite <- Hos', <- sum_walk. f_equal. apply map_ext_in. intros c Hc.
        symmetry. apply (Hrd c ln Hc Hln). }
    rewrite Nat.ltb_irrefl.
    rewrite (mapM_pure _ _ _ (fun c => row_text (side c) ln)).
    2:{ intros c Hc. destruct (Hrd c ln Hc Hln) as (E & _ & _ & _ & Et). rewrite E. cbn [bind]. rewrite Et. reflexivity. }
    cbn [bind]. rewrite concat_walk. change (flat_map _ os) with (hside_row side os cn ln).
    destruct (Nat.ltb_spec mx (length (hside_row side os cn ln))) as [Hbad|_]; [specialize (Hmx ln Hln); lia|].
    destruct (shows_from U HU w _ (Hsh ln Hln)) as (b & Hb & Hm & _). exists b. rewrite Hb. cbn [must]. auto. }
  assert (Hall : forall l, (forall ln, In ln l -> ln < h) -> exists rows,
     mapM (fun ln => (cs <- mapM (fun c => rd (s_chars (side c)) ln) (walk cn os) ;;
          if w <? length (concat cs) then UB else
          ms <- mapM (fun c => m <- rd (s_mbcs (side c)) ln ;; Ok (memory m)) (walk cn os) ;;
          if mx <? length (concat ms) then UB else
          must (bxs_from_unicode U (concat ms)))) l = Ok rows /\ map memory rows = map (hside_row side os cn) l).
  { induction l as [|ln l IH]; intros Hl; [exists []; split; reflexivity|].
    destruct (Hrow ln (Hl ln (or_introl eq_refl))) as (b & Hb & Hm).
    destruct IH as (rows & Hr & Hmr); [intros x Hx; apply Hl; right; exact Hx|].
    exists (b :: rows). cbn [mapM]. rewrite Hb. cbn [bind]. rewrite Hr. cbn [bind map]. rewrite Hm, Hmr. split; reflexivity. }
  destruct (Hall (seq 0 h)) as (rows & Hr & Hmr); [intros ln Hln; apply in_seq in Hln; lia|].
  exists rows. split; [exact Hr|]. split; [exact Hmr|exact Hsh].
Qed.

Lemma rows_of_spec : forall s, length (s_mbcs s) = s_height s -> rows_of s = Ok (s_mbcs s).
Proof.
  intros s H. unfold rows_of. rewrite (mapM_pure _ _ _ (fun i => nth i (s_mbcs s) bxs_new_empty_string)).
  - rewrite <- H, seq_nth_map. reflexivity.
  - intros i Hi. apply in_seq in Hi. apply rd_lt. lia.
Qed.

Lemma horiz_assemble_spec : forall sarr seite (east : bool) cn v,
  let side := fun i => sarr (nth i seite 0) in
  let os := if east then [1;2;3] else [3;2;1] in
  used_ok side cn -> shape_ok U (side 0) -> shape_ok U (side 4) ->
  tot (fun i => s_height (side i)) cn [1;2;3] = v ->
  exists rows, horiz_assemble sarr seite east (triple s_height side cn) v = Ok rows /\
    map memory rows = map memory (s_mbcs (side (if east then 0 else 4))) ++ vside_rows side os cn ++
                      map memory (s_mbcs (side (if east then 4 else 0))).
Proof.
  intros sarr seite east cn v side os Hok H0 H4 Hv.
  assert (Hos : forall i, In i os -> In i [1;2;3]).
  { intros i. unfold os. destruct east; cbn; intuition. }
  assert (Hos' : tot (fun i => s_height (side i)) cn os = v).
  { unfold os. destruct east; [exact Hv|]. rewrite tot_rev. exact Hv. }
  assert (Hnd : NoDup os).
  { unfold os. destruct east; repeat constructor; cbn; intuition lia. }
  pose proof (vwalk_spec os side cn (triple s_height side cn) Hnd Hos) as Hwk. rewrite Hos' in Hwk.
  unfold horiz_assemble. change (fun i : nat => sarr (nth i seite 0)) with side. fold os.
  rewrite !rows_of_spec by (destruct east; first [apply H0|apply H4]). cbn [bind].
  rewrite Hwk; [|intros i Hi Hc; apply (Hok i); auto|intros i Hi; apply tget_triple; auto]. cbn [bind]. clear Hwk.
  assert (Hmid : exists mid, mapM (fun p => rd (s_mbcs (side (fst p))) (snd p)) (vseq (fun i => s_height (side i)) cn os) = Ok mid
     /\ mid = flat_map (fun i => concat (repeat (s_mbcs (side i)) (cn i))) os).
  { eexists. split; [|reflexivity].
    rewrite (mapM_pure _ _ _ (fun p => nth (snd p) (s_mbcs (side (fst p))) bxs_new_empty_string)).
    - f_equal. unfold vseq. clear Hv Hos' Hnd. induction os as [|i l IH]; [reflexivity|].
      cbn [flat_map]. rewrite map_app. rewrite IH by (intros x Hx; apply Hos; right; exact Hx).
      f_equal. destruct (cn i) as [|n] eqn:En; [reflexivity|].
      destruct (Hok i ltac:(apply Hos; left; reflexivity) ltac:(lia)) as (Hs & _ & _).
      assert (E1 : map (fun p : nat * nat => nth (snd p) (s_mbcs (side (fst p))) bxs_new_empty_string)
                     (map (pair i) (seq 0 (s_height (side i)))) = s_mbcs (side i)).
      { rewrite map_map. cbn [fst snd]. rewrite <- (so_rows _ _ Hs). apply seq_nth_map. }
      generalize (S n) as m. induction m as [|m IHm]; [reflexivity|].
      cbn [repeat concat]. rewrite map_app, E1, IHm. reflexivity.
    - intros [c ln] Hp. apply in_flat_map in Hp as (i & Hi & Hp). apply in_concat in Hp as (l & Hl & Hp).
      assert (Hc : 0 < cn i) by (destruct (cn i); [destruct Hl|lia]).
      apply repeat_spec in Hl. subst l. apply in_map_iff in Hp as (x & E & Hx). injection E as <- <-.
      apply in_seq in Hx. cbn [fst snd]. destruct (Hok i (Hos i Hi) Hc) as (Hs & _ & _).
      apply rd_lt. rewrite (so_rows _ _ Hs). lia. }
  destruct Hmid as (mid & Em & ->).
  change (mapM _ (vseq _ _ _)) with (mapM (fun p : nat * nat => rd (s_mbcs (side (fst p))) (snd p)) (vseq (fun i => s_height (side i)) cn os)).
  rewrite Em. cbn [bind]. eexists. split; [reflexivity|].
  rewrite !map_app. f_equal; [destruct east; reflexivity|]. f_equal; [|destruct east; reflexivity].
  unfold vside_rows. clear. induction os as [|i l IH]; [reflexivity|].
  cbn [flat_map]. rewrite map_app, IH. f_equal. rewrite concat_map. f_equal.
  induction (cn i) as [|n IHn]; [reflexivity|]. cbn [repeat map]. rewrite IHn. reflexivity.
Qed.
End Assemble.
