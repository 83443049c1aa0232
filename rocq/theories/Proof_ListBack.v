(** * A listing determines what it lists: C69 *)
From Coq Require Import Ascii String List Arith NArith ZArith Bool Lia.
From Verif Require Import Base Model_Unicode Model_Bxs Model_Shape Model_Query Model_Discovery Model_Lexer Model_Parser
  Spec_Str Spec_Lexer Spec_Query Spec_Config Spec_List Proof_Query Prop_Str Prop_Lexer.
Import ListNotations.
Local Open Scope nat_scope.
Local Open Scope list_scope.

(** ** Lists and separators *)
Lemma cut_at : forall A (P : A -> Prop) a a' x x' r r', Forall P a -> Forall P a' -> ~ P x -> ~ P x' ->
  a ++ x :: r = a' ++ x' :: r' -> a = a' /\ x = x' /\ r = r'.
Proof.
  intros A P. induction a as [|y a IH]; intros a' x x' r r' Ha Ha' Hx Hx' E.
  - destruct a' as [|y' a']; cbn in E; injection E as -> ->; [auto|]. inversion Ha'; contradiction.
  - inversion Ha; subst. destruct a' as [|y' a']; cbn in E; injection E as -> E; [contradiction|]. inversion Ha'; subst.
    destruct (IH _ _ _ _ _ H2 H4 Hx Hx' E) as (-> & -> & ->). auto.
Qed.
Definition free (c : N) (s : list N) : Prop := ~ In c s.
Lemma free_forall : forall c s, free c s <-> Forall (fun x => x <> c) s.
Proof.
  intros c s. unfold free. split; intros H.
  - apply Forall_forall. intros x Hx ->. exact (H Hx).
  - intros Hc. rewrite Forall_forall in H. exact (H c Hc eq_refl).
Qed.
Lemma free_app : forall c a b, free c (a ++ b) <-> free c a /\ free c b.
Proof. intros c a b. unfold free. rewrite in_app_iff. tauto. Qed.
Lemma free_cut : forall c a a' r r', free c a -> free c a' -> a ++ c :: r = a' ++ c :: r' -> a = a' /\ r = r'.
Proof.
  intros c a a' r r' Ha Ha' E. apply free_forall in Ha, Ha'. destruct (cut_at _ (fun x => x <> c) a a' c c r r' Ha Ha') as (-> & _ & ->); auto; intros F; apply F; reflexivity.
Qed.
Lemma lines_inj : forall ls ls', Forall (free 10) ls -> Forall (free 10) ls' -> lines_with [10%N] ls = lines_with [10%N] ls' -> ls = ls'.
Proof.
  induction ls as [|l ls IH]; intros ls' H H' E.
  - destruct ls' as [|l' ls']; [reflexivity|]. unfold lines_with in E. cbn [flat_map] in E. rewrite <- app_assoc in E. destruct l'; discriminate E.
  - destruct ls' as [|l' ls']; unfold lines_with in E; cbn [flat_map] in E; rewrite <- ?app_assoc in E; [destruct l; discriminate E|].
    inversion H; inversion H'; subst. cbn [app] in E. destruct (free_cut _ _ _ _ _ H2 H6 E) as [-> E']. f_equal. apply IH; assumption.
Qed.
Lemma commas_inj : forall l l', l <> [] -> l' <> [] -> Forall (free 44) l -> Forall (free 44) l' -> commas l = commas l' -> l = l'.
Proof.
  assert (C : forall x r, r <> [] -> commas (x :: r) = x ++ 44%N :: 32%N :: commas r) by (intros x [|y r] H; [congruence|reflexivity]).
  induction l as [|x l IH]; intros l' Hn Hn' F F' E; [congruence|]. inversion F; subst. destruct l' as [|x' l']; [congruence|]. inversion F'; subst.
  destruct l as [|y l], l' as [|y' l'].
  - cbn [commas] in E. congruence.
  - rewrite (C x' (y' :: l')) in E by discriminate. cbn [commas] in E. rewrite E in H1. elim H1. apply in_or_app. right. left. reflexivity.
  - rewrite (C x (y :: l)) in E by discriminate. cbn [commas] in E. rewrite <- E in H3. elim H3. apply in_or_app. right. left. reflexivity.
  - rewrite (C x (y :: l)), (C x' (y' :: l')) in E by discriminate. destruct (free_cut _ _ _ _ _ H1 H3 E) as [-> E']. injection E' as E'.
    f_equal. apply IH; try discriminate; assumption.
Qed.
Lemma or_none_inj : forall l l', Forall (free 44) l -> Forall (free 44) l' -> l <> [chars "none"] -> l' <> [chars "none"] -> or_none l = or_none l' -> l = l'.
Proof.
  assert (N : forall x l, x :: l <> [chars "none"] -> commas (x :: l) <> chars "none").
  { intros x l H E. destruct l as [|y l].
    - cbn [commas] in E. congruence.
    - assert (K : In 44%N (commas (x :: y :: l))) by (cbn [commas]; apply in_or_app; right; left; reflexivity). rewrite E in K. cbn in K. intuition discriminate. }
  intros [|x l] [|x' l'] H H' Hn Hn' E.
  - reflexivity.
  - elim (N x' l' Hn'). symmetry. exact E.
  - elim (N x l Hn). exact E.
  - apply commas_inj; try discriminate; assumption.
Qed.
Lemma decimal_inj : forall n m s, decimal n s -> decimal m s -> n = m.
Proof. intros n m s (_ & _ & _ & A) (_ & _ & _ & B). lia. Qed.
Lemma decimal_free : forall c n s, decimal n s -> (c < 48 \/ 57 < c)%N -> free c s.
Proof. intros c n s (_ & H & _) Hc F. rewrite Forall_forall in H. specialize (H c F). cbn beta in H. lia. Qed.

(** ** Padding *)
Lemma padding_words : forall p ws, Forall2 (fun x w => exists n, decimal (p (snd x)) n /\ w = chars (fst x) ++ chars " " ++ n) (filter (fun x => negb (p (snd x) =? 0)) sides) ws ->
  (forall x, In x sides -> p (snd x) <> 0 -> exists n, decimal (p (snd x)) n /\ In (chars (fst x) ++ chars " " ++ n) ws) /\
  (forall x n, In x sides -> In (chars (fst x) ++ chars " " ++ n) ws -> decimal (p (snd x)) n).
Proof.
  intros p ws H. split.
  - intros x Hx Hp. assert (Hf : In x (filter (fun x => negb (p (snd x) =? 0)) sides)) by (apply filter_In; split; [exact Hx|apply negb_true_iff, Nat.eqb_neq, Hp]).
    clear Hx Hp. induction H as [|y w l ws (n & Hn & ->) H IH]; [destruct Hf|]. destruct Hf as [->|Hf].
    + exists n. split; [exact Hn|left; reflexivity].
    + destruct (IH Hf) as (m & A & B). exists m. split; [exact A|right; exact B].
  - intros x n Hx Hin. assert (Hs : incl (filter (fun x => negb (p (snd x) =? 0)) sides) sides) by (intros y Hy; apply filter_In in Hy; tauto).
    induction H as [|y w l ws (m & Hm & ->) H IH]; [destruct Hin|]. destruct Hin as [E|Hin]; [|apply IH; [exact Hin|intros z Hz; apply Hs; right; exact Hz]].
    assert (Hy : In y sides) by (apply Hs; left; reflexivity). clear -Hx Hy E Hm. unfold sides in *. cbn [In] in *.
    repeat match goal with H : _ \/ _ |- _ => destruct H as [<-|H] end; try contradiction; cbn in E; try discriminate E; injection E as <-; exact Hm.
Qed.
Lemma words_good : forall p ws, Forall2 (fun x w => exists n, decimal (p (snd x)) n /\ w = chars (fst x) ++ chars " " ++ n) (filter (fun x => negb (p (snd x) =? 0)) sides) ws ->
  Forall (free 44) ws /\ Forall (free 10) ws /\ ws <> [chars "none"].
Proof.
  intros p ws H. assert (Hs : incl (filter (fun x => negb (p (snd x) =? 0)) sides) sides) by (intros y Hy; apply filter_In in Hy; tauto).
  induction H as [|y w l ws (m & Hm & ->) H IH]; [split; [constructor|split; [constructor|discriminate]]|]. destruct IH as [I1 [I2 _]]; [intros z Hz; apply Hs; right; exact Hz|].
  assert (Hy : In y sides) by (apply Hs; left; reflexivity). pose proof (decimal_free 44 _ _ Hm ltac:(lia)) as F44. pose proof (decimal_free 10 _ _ Hm ltac:(lia)) as F10.
  unfold sides in Hy. cbn [In] in Hy. split; [|split].
  - constructor; [|exact I1]. apply free_app. split; [|apply free_app; split; [|exact F44]]; [|intros F; cbn in F; intuition discriminate].
    repeat match goal with H : _ \/ _ |- _ => destruct H as [<-|H] end; try contradiction; intros F; cbn in F; intuition discriminate.
  - constructor; [|exact I2]. apply free_app. split; [|apply free_app; split; [|exact F10]]; [|intros F; cbn in F; intuition discriminate].
    repeat match goal with H : _ \/ _ |- _ => destruct H as [<-|H] end; try contradiction; intros F; cbn in F; intuition discriminate.
  - intros E. repeat match goal with H : _ \/ _ |- _ => destruct H as [<-|H] end; try contradiction; discriminate E.
Qed.
Lemma padding_inj : forall p p' s, padding_says p s -> padding_says p' s -> forall x, p x = p' x.
Proof.
  intros p p' s (ws & E & H) (ws' & E' & H') x.
  assert (ws = ws') by (apply or_none_inj; [apply (words_good p), H|apply (words_good p'), H'|apply (words_good p), H|apply (words_good p'), H'|congruence]). subst ws'.
  destruct (padding_words p ws H) as [A B], (padding_words p' ws H') as [A' B'].
  assert (K : exists w, In (w, x) sides) by (destruct x; eexists; cbn; eauto 6). destruct K as (w & K).
  destruct (Nat.eq_dec (p x) 0) as [Z|Z].
  - destruct (Nat.eq_dec (p' x) 0) as [Z'|Z']; [congruence|]. destruct (A' (w, x) K Z') as (n & D & I). exact (decimal_inj _ _ _ (B _ _ K I) D).
  - destruct (A (w, x) K Z) as (n & D & I). exact (decimal_inj _ _ _ D (B' _ _ K I)).
Qed.

(** ** Elastic shapes *)
Definition all16 (f : nat -> bool) : bool := forallb f (seq 0 16).
Lemma all16_ok : forall f, all16 f = true -> forall i, i < 16 -> f i = true.
Proof. intros f H i Hi. unfold all16 in H. rewrite forallb_forall in H. apply H. apply in_seq. lia. Qed.
Lemma names_inj : forall i j, i < 16 -> j < 16 -> name_of i = name_of j -> i = j.
Proof.
  intros i j Hi Hj E.
  assert (K : all16 (fun i => all16 (fun j => implb (Neq_list (name_of i) (name_of j)) (i =? j))) = true) by reflexivity.
  pose proof (all16_ok _ (all16_ok _ K i Hi) j Hj) as F. cbn beta in F. rewrite E in F.
  assert (R : forall l, Neq_list l l = true) by (intros l; apply neq_list_ok; reflexivity). rewrite R in F. cbn in F. apply Nat.eqb_eq, F.
Qed.
Lemma names_free : forall i, i < 16 -> free 44 (name_of i) /\ free 10 (name_of i) /\ name_of i <> [].
Proof.
  intros i Hi.
  assert (K : all16 (fun i => forallb (fun c => negb (N.eqb c 44) && negb (N.eqb c 10)) (name_of i) && negb (is_nil (name_of i))) = true) by reflexivity.
  pose proof (all16_ok _ K i Hi) as F. cbn beta in F. apply andb_true_iff in F as [F G]. rewrite forallb_forall in F. repeat split.
  - intros H. specialize (F _ H). discriminate F.
  - intros H. specialize (F _ H). discriminate F.
  - intros H. rewrite H in G. discriminate G.
Qed.
Lemma commas_nil : forall l, Forall (fun s => s <> []) l -> commas l = [] -> l = [].
Proof. intros [|x [|y l]] H E; [reflexivity| |]; inversion H; subst; destruct x; try congruence; discriminate E. Qed.
Lemma elastic_inj : forall f g, commas (map name_of (filter f (seq 0 16))) = commas (map name_of (filter g (seq 0 16))) -> forall i, i < 16 -> f i = g i.
Proof.
  intros f g E.
  assert (L : forall h i, In i (filter h (seq 0 16)) -> i < 16) by (intros h i H; apply filter_In in H as [H _]; apply in_seq in H; lia).
  assert (W : forall h, Forall (fun s => s <> []) (map name_of (filter h (seq 0 16)))).
  { intros h. apply Forall_forall. intros s H. apply in_map_iff in H as (i & <- & Hi). apply names_free, (L h), Hi. }
  assert (F : forall h, Forall (free 44) (map name_of (filter h (seq 0 16)))).
  { intros h. apply Forall_forall. intros s H. apply in_map_iff in H as (i & <- & Hi). apply names_free, (L h), Hi. }
  assert (M : map name_of (filter f (seq 0 16)) = map name_of (filter g (seq 0 16))).
  { destruct (map name_of (filter f (seq 0 16))) as [|x l] eqn:A.
    - symmetry. apply commas_nil; [apply W|]. rewrite <- E. reflexivity.
    - destruct (map name_of (filter g (seq 0 16))) as [|y m] eqn:B.
      + pose proof (W f) as Wf. rewrite A in Wf. pose proof (commas_nil _ Wf E) as Z. discriminate Z.
      + rewrite <- A, <- B in *. apply commas_inj; [congruence|congruence|apply F|apply F|exact E]. }
  assert (Q : filter f (seq 0 16) = filter g (seq 0 16)).
  { pose proof (L f) as Lf. pose proof (L g) as Lg. revert M Lf Lg. generalize (filter f (seq 0 16)) (filter g (seq 0 16)). clear.
    induction l as [|x l IH]; intros [|y m] M Lf Lg; try discriminate M; [reflexivity|]. cbn [map] in M. injection M as M1 M2. f_equal.
    - apply names_inj; [apply Lf|apply Lg|exact M1]; left; reflexivity.
    - apply IH; [exact M2| |]; intros i Hi; [apply Lf|apply Lg]; right; exact Hi. }
  intros i Hi. assert (Hs : In i (seq 0 16)) by (apply in_seq; lia). destruct (f i) eqn:Fi, (g i) eqn:Gi; try reflexivity; exfalso.
  - assert (K : In i (filter f (seq 0 16))) by (apply filter_In; auto). rewrite Q in K. apply filter_In in K as [_ K]. congruence.
  - assert (K : In i (filter g (seq 0 16))) by (apply filter_In; auto). rewrite <- Q in K. apply filter_In in K as [_ K]. congruence.
Qed.
Lemma elastic_says_inj : forall sh sh', elastic_says sh = elastic_says sh' -> forall i, i < 16 ->
  negb (isempty (sh i)) && s_elastic (sh i) = negb (isempty (sh' i)) && s_elastic (sh' i).
Proof. intros sh sh' E. unfold elastic_says in E. exact (elastic_inj _ _ E). Qed.

(** ** Shapes *)
Lemma unescaped_fun : forall body t, unescaped 92 34 body t -> forall t', unescaped 92 34 body t' -> t = t'.
Proof.
  intros body t H. induction H as [|c b s H IH|c b s H1 H2 H IH]; intros t' H'; inversion H'; subst; try congruence; try contradiction; f_equal; apply IH; assumption.
Qed.
Definition head4 (i : nat) : list N := repeat 32%N (3 - List.length (name_of i)) ++ name_of i ++ chars ":".
Definition blank4 : list N := chars "    ".
Lemma head4_ok : forall i, i < 16 -> List.length (head4 i) = 4 /\ (forall j, j < 16 -> head4 i = head4 j -> i = j) /\ head4 i <> blank4 /\ free 10 (head4 i).
Proof.
  intros i Hi.
  assert (K : all16 (fun i => (List.length (head4 i) =? 4) && all16 (fun j => implb (Neq_list (head4 i) (head4 j)) (i =? j)) && negb (Neq_list (head4 i) blank4) && forallb (fun c => negb (N.eqb c 10)) (head4 i)) = true) by reflexivity.
  pose proof (all16_ok _ K i Hi) as F. cbn beta in F. apply andb_true_iff in F as [F F4]. apply andb_true_iff in F as [F F3]. apply andb_true_iff in F as [F1 F2].
  assert (R : forall l, Neq_list l l = true) by (intros l; apply neq_list_ok; reflexivity).
  split; [apply Nat.eqb_eq, F1|]. split; [|split].
  - intros j Hj E. pose proof (all16_ok _ F2 j Hj) as G. cbn beta in G. rewrite E, R in G. apply Nat.eqb_eq, G.
  - intros E. rewrite E, R in F3. discriminate F3.
  - intros H. rewrite forallb_forall in F4. specialize (F4 _ H). discriminate F4.
Qed.
Lemma app4 : forall (a a' r r' : list N), List.length a = List.length a' -> a ++ r = a' ++ r' -> a = a' /\ r = r'.
Proof.
  induction a as [|x a IH]; intros [|x' a'] r r' L E; try discriminate L; [auto|]. cbn in E. injection E as -> E. injection L as L.
  destruct (IH _ _ _ L E) as [-> ->]. auto.
Qed.
Definition continues (row : list N) : Prop := exists r, row = blank4 ++ r.
Section Shapes.
Variables (U : uctab) (color : bool).
Lemma row_start : forall name first last b row, shape_row U color name first last b row ->
  exists r, row = (if first then repeat 32%N (3 - List.length name) ++ name ++ chars ":" else blank4) ++ r.
Proof. intros name first last b row (t & body & _ & _ & ->). eexists. reflexivity. Qed.
Lemma rows_continue : forall name bs rows, rows_say U color name false bs rows -> Forall continues rows.
Proof.
  intros name bs. induction bs as [|b bs IH]; intros rows H; inversion H as [|? ? ? ? ? H1 H2]; subst; constructor; [|apply IH; assumption].
  destruct (row_start _ _ _ _ _ H1) as (r & ->). exists r. reflexivity.
Qed.
Lemma row_alike : forall name first last last' b b' row, shape_row U color name first last b row -> shape_row U color name first last' b' row -> look_alike U color b b'.
Proof.
  intros name first last last' b b' row (t & body & L & Un & E) (t' & body' & L' & Un' & E'). rewrite E in E'. apply app_inv_head in E'. apply app_inv_head in E'.
  assert (X : body ++ chars """" = body' ++ chars """").
  { rewrite !app_assoc in E'. destruct last, last'; apply app_inj_tail in E' as [E' _]; exact E'. }
  apply app_inv_tail in X. subst body'. exists t. split; [exact L|]. rewrite (unescaped_fun _ _ Un _ Un'). exact L'.
Qed.
Lemma rows_alike : forall name rows first bs bs', rows_say U color name first bs rows -> rows_say U color name first bs' rows -> Forall2 (look_alike U color) bs bs'.
Proof.
  intros name. induction rows as [|row rows IH]; intros first bs bs' H H'; inversion H as [|? ? ? ? ? H1 H2]; inversion H' as [|? ? ? ? ? H1' H2']; subst; constructor.
  - eapply row_alike; eassumption.
  - eapply IH; eassumption.
Qed.
Lemma drawn_lines : forall s, drawn s -> s_mbcs s <> [].
Proof.
  intros s D E. unfold drawn, isdeepempty in D. apply orb_false_iff in D as [D _]. unfold isempty in D. rewrite E in D. cbn [is_nil] in D. rewrite orb_true_r in D. discriminate D.
Qed.
Lemma shape_first : forall i bs rows, i < 16 -> bs <> [] -> rows_say U color (name_of i) true bs rows -> exists r q, rows = (head4 i ++ r) :: q /\ Forall continues q.
Proof.
  intros i bs rows Hi Hb H. inversion H as [|? b l row q H1 H2]; subst; [congruence|]. destruct (row_start _ _ _ _ _ H1) as (r & ->). exists r, q. split; [reflexivity|]. eapply rows_continue. exact H2.
Qed.
Lemma head4_not : forall i r, i < 16 -> ~ continues (head4 i ++ r).
Proof.
  intros i r Hi (r' & E). destruct (head4_ok i Hi) as (L & _ & B & _). destruct (app4 (head4 i) blank4 r r' L E) as [F _]. exact (B F).
Qed.
Lemma shapes_start : forall sh l rows, Forall (fun i => i < 16) l -> shapes_say U color sh l rows -> rows = [] \/ exists i r q, In i l /\ rows = (head4 i ++ r) :: q.
Proof.
  intros sh l rows Hl H. induction H as [|i l rows H1 H2 IH|i l rows rest H1 H2 H3 IH]; [auto| |]; inversion Hl; subst.
  - destruct (IH ltac:(assumption)) as [->|(j & r & q & Hj & ->)]; [auto|right]. exists j, r, q. split; [right; exact Hj|reflexivity].
  - right. destruct (shape_first i _ _ ltac:(assumption) (drawn_lines _ H1) H2) as (r & q & -> & _). exists i, r, (q ++ rest). split; [left; reflexivity|reflexivity].
Qed.
Lemma cut_rows : forall q q' rest rest', Forall continues q -> Forall continues q' -> (rest = [] \/ exists x r, rest = x :: r /\ ~ continues x) ->
  (rest' = [] \/ exists x r, rest' = x :: r /\ ~ continues x) -> q ++ rest = q' ++ rest' -> q = q' /\ rest = rest'.
Proof.
  intros q q' rest rest' H H' R R' E. destruct R as [->|(x & r & -> & Hx)], R' as [->|(x' & r' & -> & Hx')].
  - rewrite !app_nil_r in E. auto.
  - rewrite app_nil_r in E. subst q. apply Forall_app in H as [_ H]. inversion H; contradiction.
  - rewrite app_nil_r in E. subst q'. apply Forall_app in H' as [_ H']. inversion H'; contradiction.
  - destruct (cut_at _ continues q q' x x' r r' H H' Hx Hx' E) as (-> & -> & ->). auto.
Qed.
Lemma shapes_inj : forall sh sh' l rows, Forall (fun i => i < 16) l -> NoDup l -> shapes_say U color sh l rows -> shapes_say U color sh' l rows ->
  forall i, In i l -> (drawn (sh i) <-> drawn (sh' i)) /\ (drawn (sh i) -> Forall2 (look_alike U color) (s_mbcs (sh i)) (s_mbcs (sh' i))).
Proof.
  intros sh sh'. induction l as [|k l IH]; intros rows Hl Hd H H' i Hi; [destruct Hi|]. inversion Hl as [|? ? Hk Hl']; subst. inversion Hd as [|? ? Hnk Hd']; subst.
  assert (ST : forall sh rows, shapes_say U color sh l rows -> rows = [] \/ exists x r, rows = x :: r /\ ~ continues x).
  { intros s rs Hs. destruct (shapes_start s l rs Hl' Hs) as [->|(j & r & q & Hj & ->)]; [auto|right]. exists (head4 j ++ r), q. split; [reflexivity|].
    apply head4_not. rewrite Forall_forall in Hl'. auto. }
  assert (NO : forall sa sb rowsb rest rs, shapes_say U color sa l (rowsb ++ rest) -> drawn (sb k) -> rows_say U color (name_of k) true (s_mbcs (sb k)) rowsb -> rs = rowsb ++ rest -> False).
  { intros sa sb rowsb rest rs Ha Db Rb _. destruct (shape_first k _ _ Hk (drawn_lines _ Db) Rb) as (r & q & -> & _).
    destruct (shapes_start sa l _ Hl' Ha) as [F|(j & r' & q' & Hj & F)]; [discriminate F|]. cbn in F. injection F as F _.
    assert (Hj16 : j < 16) by (rewrite Forall_forall in Hl'; auto). destruct (head4_ok k Hk) as (L1 & INJ & _). destruct (head4_ok j Hj16) as (L2 & _).
    destruct (app4 (head4 k) (head4 j) r r' ltac:(congruence) F) as [F' _]. apply Hnk. rewrite (INJ j Hj16 F'). exact Hj. }
  inversion H as [|? ? ? D S|? ? rows1 rest1 D R S]; subst; inversion H' as [|? ? ? D' S'|? ? rows1' rest1' D' R' S']; subst.
  - destruct Hi as [<-|Hi]; [split; [tauto|contradiction]|]. eapply IH; eassumption.
  - exfalso. exact (NO sh sh' _ _ _ S D' R' eq_refl).
  - exfalso. exact (NO sh' sh _ _ _ S' D R eq_refl).
  - match goal with E : rows1' ++ rest1' = rows1 ++ rest1 |- _ => rename E into EE end.
    destruct (shape_first k _ _ Hk (drawn_lines _ D) R) as (r & q & -> & Q). destruct (shape_first k _ _ Hk (drawn_lines _ D') R') as (r' & q' & -> & Q').
    cbn [app] in EE. injection EE as E1 E2. apply app_inv_head in E1. subst r'.
    destruct (cut_rows q' q _ _ Q' Q (ST _ _ S') (ST _ _ S) E2) as [-> ->].
    destruct Hi as [<-|Hi]; [|exact (IH _ Hl' Hd' S S' i Hi)]. split; [tauto|]. intros _. eapply rows_alike; eassumption.
Qed.
End Shapes.

(** ** The whole sheet *)
Lemma labelled_free : forall c label ls, free c (chars label) -> c <> 32%N -> Forall (free c) ls -> Forall (free c) (labelled label ls).
Proof.
  intros c label [|x r] Hl Hc H; [constructor|]. inversion H; subst. cbn [labelled]. constructor; [apply free_app; auto|].
  apply Forall_forall. intros y Hy. apply in_map_iff in Hy as (z & <- & Hz). apply free_app. split; [|rewrite Forall_forall in H3; auto].
  intros F. apply repeat_spec in F. congruence.
Qed.
Lemma labelled_inj : forall label ls ls', labelled label ls = labelled label ls' -> ls = ls'.
Proof.
  intros label [|x r] [|x' r'] E; try discriminate E; [reflexivity|]. cbn [labelled] in E. injection E as E1 E2. apply app_inv_head in E1. subst x'. f_equal.
  revert r' E2. induction r as [|y r IH]; intros [|y' r'] E; try discriminate E; [reflexivity|]. cbn [map] in E. injection E as E1 E2. 
  rewrite (IH _ E2). f_equal. exact E1.
Qed.
Lemma commas_free : forall c l, c <> 44%N -> c <> 32%N -> Forall (free c) l -> free c (commas l).
Proof.
  intros c. induction l as [|x l IH]; intros H1 H2 H; [intros []|]. inversion H; subst. destruct l as [|y l]; [exact H4|]. cbn [commas]. apply free_app. split; [exact H4|].
  apply free_app. split; [intros F; cbn in F; intuition congruence|]. apply IH; assumption.
Qed.
Lemma or_none_free : forall l, Forall (free 10) l -> free 10 (or_none l).
Proof. intros [|x l] H; [intros F; cbn in F; intuition discriminate|]. apply commas_free; try discriminate. exact H. Qed.
Lemma visible_sub : forall ts c, In c (visible ts) -> In c (render ts).
Proof.
  intros ts c F. unfold visible, render in *. apply in_flat_map in F as (x & Hx & F). apply in_flat_map. exists x. split; [exact Hx|]. destruct x; cbn in F; try contradiction. exact F.
Qed.
Lemma looks_free : forall U color b t c, looks U color b t -> ~ In c (memory b) -> free c t.
Proof.
  intros U color b t c (ts & [_ E] & _ & _ & ->) H F. apply H. destruct color; [exact F|]. rewrite <- E. apply visible_sub, F.
Qed.
Lemma numbered_length : forall A B (R : nat -> A -> B -> Prop) i l m, numbered R i l m -> List.length l = List.length m.
Proof. intros A B R i l m H. induction H; cbn [List.length]; congruence. Qed.
Ltac freec := match goal with |- free _ (chars _) => idtac end; let F := fresh in intros F; cbn in F; repeat (destruct F as [F|F]; [discriminate F|]); exact F.
Lemma rule_free : forall U color sep i r t, rule_text U color sep i r t -> free 10 (chars sep) -> ~ In 10%N (memory (r_search r)) /\ ~ In 10%N (memory (r_repstr r)) -> free 10 t.
Proof.
  intros U color sep i r t H Hs [H1 H2]. destruct H as [i r n s t m D L1 L2 M]. repeat (apply free_app; split); try freec; try assumption.
  - apply (decimal_free 10 _ _ D). lia.
  - destruct M as [[_ ->]|[_ ->]]; freec.
  - eapply looks_free; eassumption.
  - eapply looks_free; eassumption.
Qed.
Lemma rules_free : forall U color sep l ls, rules_say U color sep l ls -> free 10 (chars sep) ->
  Forall (fun r => ~ In 10%N (memory (r_search r)) /\ ~ In 10%N (memory (r_repstr r))) l -> Forall (free 10) ls.
Proof.
  intros U color sep l ls [[-> ->]|[_ H]] Hs Hl; [constructor; [freec|constructor]|]. revert Hl. induction H; intros Hl; [constructor|]. inversion Hl; subst. constructor; [|auto].
  eapply rule_free; eassumption.
Qed.
(** the rules of the one kind end where the next label is: other lines begin with a space *)
Definition spaced (row : list N) : Prop := exists r, row = 32%N :: r.
Lemma labelled_cut : forall label ls ls' r r', ls <> [] -> ls' <> [] -> (exists x q, r = x :: q /\ ~ spaced x) -> (exists x q, r' = x :: q /\ ~ spaced x) ->
  labelled label ls ++ r = labelled label ls' ++ r' -> ls = ls' /\ r = r'.
Proof.
  intros label [|a ls] [|a' ls'] r r' Z Z' (x & q & -> & Hx) (x' & q' & -> & Hx') E; try congruence.
  assert (S : forall l : list (list N), Forall spaced (map (fun y => repeat 32%N 24 ++ y) l)).
  { intros l. apply Forall_forall. intros y Hy. apply in_map_iff in Hy as (z & <- & _). eexists. reflexivity. }
  cbn [labelled app] in E. injection E as E1 E2. destruct (cut_at _ spaced _ _ x x' q q' (S ls) (S ls') Hx Hx' E2) as (E3 & -> & ->). split; [|reflexivity].
  apply (labelled_inj label). cbn [labelled]. rewrite E1, E3. reflexivity.
Qed.
Lemma rules_some : forall U color sep l ls, rules_say U color sep l ls -> ls <> [].
Proof.
  intros U color sep l ls [[_ ->]|[Hl H]]; [discriminate|]. intros ->. apply numbered_length in H. destruct l; [congruence|discriminate H].
Qed.
Lemma rules_count : forall U color sep l l' ls, rules_say U color sep l ls -> rules_say U color sep l' ls -> List.length l = List.length l'.
Proof.
  assert (X : forall U color sep l ls, l <> [] -> numbered (rule_text U color sep) 0 l ls -> ls <> [chars "none"]).
  { intros U color sep l ls Hl H E. subst ls. inversion H as [|? ? ? ? ? R _]; subst.
    assert (T : forall i r t, rule_text U color sep i r t -> exists c q, t = c :: q /\ (48 <= c <= 57)%N).
    { intros i r t X. destruct X as [i r n s t m D _ _ _]. destruct D as (D1 & D2 & _). destruct n as [|c n]; [congruence|]. inversion D2; subst. eexists. eexists. split; [reflexivity|assumption]. }
    destruct (T _ _ _ R) as (c & q & E & Hc). cbn in E. injection E as <- _. lia. }
  intros U color sep l l' ls [[-> E]|[Hl H]] [[-> E']|[Hl' H']].
  - reflexivity.
  - subst ls. elim (X _ _ _ _ _ Hl' H'). reflexivity.
  - subst ls. elim (X _ _ _ _ _ Hl H). reflexivity.
  - apply numbered_length in H, H'. congruence.
Qed.
Lemma rows_free : forall U color name bs first rows, free 10 name -> rows_say U color name first bs rows -> Forall (fun b => ~ In 10%N (memory b)) bs -> Forall (free 10) rows.
Proof.
  intros U color name bs. induction bs as [|b bs IH]; intros first rows Hn H Hb; inversion H as [|? ? ? ? ? R S]; subst; [constructor|]. inversion Hb; subst.
  constructor; [|eapply IH; eassumption]. destruct R as (t & body & L & Un & ->). repeat (apply free_app; split); try freec.
  - destruct first; [|freec]. repeat (apply free_app; split); [|exact Hn|freec]. intros F. apply repeat_spec in F. discriminate F.
  - pose proof (looks_free _ _ _ _ 10%N L H2) as Ft. clear -Un Ft. induction Un as [|c b s H IH|c b s H1 H2 H IH]; [intros []| |]; intros F.
    + destruct F as [F|[F|F]]; [discriminate F|subst; apply Ft; left; reflexivity|]. apply IH; [|exact F]. intros G. apply Ft. right. exact G.
    + destruct F as [F|F]; [subst; apply Ft; left; reflexivity|]. apply IH; [|exact F]. intros G. apply Ft. right. exact G.
  - destruct (is_nil bs); freec.
Qed.
Lemma shapes_free : forall U color sh l rows, Forall (fun i => i < 16) l -> shapes_say U color sh l rows ->
  (forall i, i < 16 -> drawn (sh i) -> Forall (fun b => ~ In 10%N (memory b)) (s_mbcs (sh i))) -> Forall (free 10) rows.
Proof.
  intros U color sh l rows Hl H Hs. induction H; inversion Hl; subst; [constructor|auto|]. apply Forall_app. split; [|auto].
  eapply rows_free; [|eassumption|]; [apply names_free; assumption|auto].
Qed.
Lemma name_free : forall s, Spec_Config.name s -> free 44 s /\ free 10 s.
Proof.
  intros s (c & r & -> & Hc & Hr). rewrite Forall_forall in Hr. unfold letter in Hc. split; (intros [F|F]; [subst c; lia|specialize (Hr _ F); unfold Spec_Config.name_char, letter in Hr; lia]).
Qed.
Lemma good_tag_free : forall s, good_tag s -> free 44 s /\ free 10 s /\ s <> chars "none".
Proof.
  intros s (_ & H & _ & _ & N). rewrite Forall_forall in H. repeat split; try (intros F; specialize (H _ F); unfold tag_char in H; lia). intros ->. apply N. exists []. reflexivity.
Qed.
Lemma elastic_free : forall sh, free 10 (elastic_says sh).
Proof.
  intros sh. apply commas_free; try discriminate. apply Forall_forall. intros s H. apply in_map_iff in H as (i & <- & Hi). apply filter_In in Hi as [Hi _]. apply in_seq in Hi. apply names_free. lia.
Qed.
Lemma looks_or_free : forall U color dflt o t, free 10 (chars dflt) -> looks_or U color dflt o t -> (forall b, o = Some b -> ~ In 10%N (memory b)) -> free 10 t.
Proof. intros U color dflt [b|] t Hd H Hb; cbn [looks_or] in H; [eapply looks_free; [exact H|auto]|subst t; exact Hd]. Qed.
Lemma or_none_names : forall l, Forall Spec_Config.name l -> Forall (free 44) l /\ Forall (free 10) l.
Proof. intros l H. split; (eapply Forall_impl; [|exact H]); intros s G; apply name_free in G; tauto. Qed.
Lemma or_none_tags : forall l, Forall good_tag l -> Forall (free 44) l /\ Forall (free 10) l /\ l <> [chars "none"].
Proof.
  intros l H. split; [|split]; try ((eapply Forall_impl; [|exact H]); intros s G; apply good_tag_free in G; tauto).
  intros ->. inversion H; subst. apply good_tag_free in H2. tauto.
Qed.

Lemma seq16 : Forall (fun i => i < 16) (seq 0 16).
Proof. apply Forall_forall. intros i Hi. apply in_seq in Hi. lia. Qed.
Lemma sheet_free : forall U color origin d ls, sheet U color false origin d ls -> one_line d -> free 10 origin -> Forall (free 10) ls.
Proof.
  intros U color origin d ls [(name & author & designer & reps & revs & w & h & pad & tail & En & La & Ld & R & V & Dw & Dh & P & (rows & S & ->) & ->)] O Ho.
  pose proof (ol_rules _ O) as Or. apply Forall_app in Or as [Or1 Or2]. destruct (name_free _ (ol_name _ O _ En)) as (_ & Fn).
  repeat (apply Forall_app; split).
  - repeat constructor; repeat (apply free_app; split); try freec; try assumption.
    + intros F. apply repeat_spec in F. discriminate F.
    + apply or_none_free, or_none_names, (ol_aliases _ O).
    + eapply looks_or_free; [|exact La|]; [freec|]. intros b Hb. apply (ol_texts _ O). auto.
    + eapply looks_or_free; [|exact Ld|]; [freec|]. intros b Hb. apply (ol_texts _ O). auto.
    + unfold mode_text. destruct (N.eqb _ 98); [|destruct (N.eqb _ 116)]; freec.
  - apply labelled_free; [freec|discriminate|]. eapply rules_free; [exact R|freec|exact Or1].
  - apply labelled_free; [freec|discriminate|]. eapply rules_free; [exact V|freec|exact Or2].
  - repeat constructor; repeat (apply free_app; split); try freec.
    + apply (decimal_free 10 _ _ Dw). lia.
    + apply (decimal_free 10 _ _ Dh). lia.
    + destruct P as (ws & -> & P). apply or_none_free. apply (words_good _ _ P).
    + destruct (_ && _); freec.
    + apply or_none_free, or_none_tags, (ol_tags _ O).
    + apply elastic_free.
  - apply labelled_free; [freec|discriminate|]. eapply shapes_free; [exact seq16|exact S|exact (ol_shapes _ O)].
Qed.
Lemma modes_inj : forall m m', chars (mode_text m) = chars (mode_text m') -> mode_text m = mode_text m'.
Proof. intros m m'. unfold mode_text. destruct (N.eqb m 98), (N.eqb m 116), (N.eqb m' 98), (N.eqb m' 116); intros E; try reflexivity; discriminate E. Qed.
Lemma dims_inj : forall w w' h h' a a' b b' r, decimal a w -> decimal a' w' -> decimal b h -> decimal b' h' ->
  w ++ chars " x " ++ h ++ chars "  " ++ r = w' ++ chars " x " ++ h' ++ chars "  " ++ r -> a = a' /\ b = b'.
Proof.
  intros w w' h h' a a' b b' r Da Da' Db Db' E. change (chars " x ") with (32%N :: [120; 32]%N) in E. cbn [app] in E.
  destruct (free_cut 32%N w w' _ _ (decimal_free 32 _ _ Da ltac:(lia)) (decimal_free 32 _ _ Da' ltac:(lia)) E) as [-> E2]. injection E2 as E2. change (chars "  ") with (32%N :: [32]%N) in E2. cbn [app] in E2.
  destruct (free_cut 32%N h h' _ _ (decimal_free 32 _ _ Db ltac:(lia)) (decimal_free 32 _ _ Db' ltac:(lia)) E2) as [-> _]. split; eapply decimal_inj; eassumption.
Qed.
Lemma sheet_alike : forall U color origin origin' d d' ls, sheet U color false origin d ls -> sheet U color false origin' d' ls -> one_line d -> one_line d' ->
  origin = origin' /\ listed_alike U color d d'.
Proof.
  intros U color origin origin' d d' ls [(name & author & designer & reps & revs & w & h & pad & tail & En & La & Ld & R & V & Dw & Dh & P & (rows & S & ->) & E)]
    [(name' & author' & designer' & reps' & revs' & w' & h' & pad' & tail' & En' & La' & Ld' & R' & V' & Dw' & Dh' & P' & (rows' & S' & ->) & E')] O O'.
  rewrite E in E'. clear E ls. cbn [app] in E'. injection E' as E1 _ E2 E3 E4 E5 E6 E7.
  apply app_inv_tail in E1.
  assert (NS : forall label l (r : list (list N)), l <> [] -> (forall t, ~ spaced (chars label ++ t)) -> exists x q, labelled label l ++ r = x :: q /\ ~ spaced x).
  { intros label [|x l] r Hl Hs; [congruence|]. eexists. eexists. split; [reflexivity|apply Hs]. }
  destruct (labelled_cut _ _ _ _ _ (rules_some _ _ _ _ _ R) (rules_some _ _ _ _ _ R')
    (NS "Reversion Rules:        "%string _ _ (rules_some _ _ _ _ _ V) ltac:(intros t (r & F); discriminate F)) (NS "Reversion Rules:        "%string _ _ (rules_some _ _ _ _ _ V') ltac:(intros t (r & F); discriminate F)) E7) as [-> E8].
  apply labelled_cut in E8 as [-> E8]; [|eapply rules_some; eassumption|eapply rules_some; eassumption| |]; [|eexists; eexists; split; [reflexivity|intros (r & F); discriminate F]..].
  injection E8 as F1 F2 _ F3 F4 F5.
  apply labelled_inj in F5. subst rows' pad' author' designer' origin'. split; [reflexivity|].
  destruct (dims_inj w w' h h' _ _ _ _ (chars "(width x height)") Dw Dw' Dh Dh' F1) as [W1 W2].
  assert (S16 : forall i, i < 16 -> In i (seq 0 16)) by (intros i Hi; apply in_seq; lia).
  constructor; try assumption.
  - congruence.
  - apply or_none_inj; [apply or_none_names, (ol_aliases _ O)|apply or_none_names, (ol_aliases _ O')|exact (ol_none _ O)|exact (ol_none _ O')|exact E2].
  - apply or_none_inj; [apply or_none_tags, (ol_tags _ O)|apply or_none_tags, (ol_tags _ O')|apply or_none_tags, (ol_tags _ O)|apply or_none_tags, (ol_tags _ O')|exact F3].
  - exists author. auto.
  - exists designer. auto.
  - apply modes_inj, E6.
  - eapply rules_count; eassumption.
  - eapply rules_count; eassumption.
  - eapply padding_inj; eassumption.
  - exact (elastic_says_inj _ _ F4).
  - intros i Hi. apply (shapes_inj U color _ _ _ _ seq16 (seq_NoDup 16 0) S S' i (S16 i Hi)).
  - intros i Hi. apply (shapes_inj U color _ _ _ _ seq16 (seq_NoDup 16 0) S S' i (S16 i Hi)).
Qed.
