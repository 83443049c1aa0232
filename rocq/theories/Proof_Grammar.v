(** * The grammar accepts nothing but designs and names of parents *)
From Coq Require Import Ascii String List Arith NArith ZArith Bool Lia.
From Verif Require Import Base Model_Unicode Model_Bxs Model_Shape Model_Regex Model_Query Model_Discovery Model_Parser Model_Lexer Model_Scan Spec_Grammar Proof_Recover.
Import ListNotations.
Local Open Scope nat_scope.
Local Open Scope list_scope.

Lemma ctoks_cons : forall (A : Type) (f : A -> token) a l, l <> [] -> ctoks f (a :: l) = f a :: T_COMMA :: ctoks f l.
Proof. intros A f a [|b l] H; [congruence|reflexivity]. Qed.
Lemma string_list_inv : forall ts l r, string_list ts = Some (l, r) -> l <> [] /\ ts = ctoks T_STRING l ++ T_RPAR :: r.
Proof.
  intros ts. induction ts as [ts IH] using (well_founded_induction (Wf_nat.well_founded_ltof _ (@List.length token))). intros l r H.
  destruct ts as [|t ts]; [discriminate|]. destruct t; try discriminate H. destruct ts as [|t2 ts]; [discriminate|].
  destruct t2; try discriminate H; cbn [string_list] in H.
  - destruct (string_list ts) as [[l' r']|] eqn:E; [|discriminate]. injection H as <- <-.
    destruct (IH ts ltac:(unfold Wf_nat.ltof; cbn; lia) l' r' E) as [N ->]. split; [discriminate|]. rewrite ctoks_cons by exact N. reflexivity.
  - injection H as <- <-. split; [discriminate|reflexivity].
Qed.
Lemma elist_inv : forall ts l r, elist ts = Some (l, r) -> l <> [] /\ ts = ctoks T_SHAPE l ++ T_RPAR :: r.
Proof.
  intros ts. induction ts as [ts IH] using (well_founded_induction (Wf_nat.well_founded_ltof _ (@List.length token))). intros l r H.
  destruct ts as [|t ts]; [discriminate|]. destruct t; try discriminate H. destruct ts as [|t2 ts]; [discriminate|].
  destruct t2; try discriminate H; cbn [elist] in H.
  - destruct (elist ts) as [[l' r']|] eqn:E; [|discriminate]. injection H as <- <-.
    destruct (IH ts ltac:(unfold Wf_nat.ltof; cbn; lia) l' r' E) as [N ->]. split; [discriminate|]. rewrite ctoks_cons by exact N. reflexivity.
  - injection H as <- <-. split; [discriminate|reflexivity].
Qed.
Lemma wlist_inv : forall ts l r, wlist ts = Some (l, r) -> l <> [] /\ ts = flat_map pad_toks l ++ T_RBRACE :: r.
Proof.
  intros ts. induction ts as [ts IH] using (well_founded_induction (Wf_nat.well_founded_ltof _ (@List.length token))). intros l r H.
  destruct ts as [|t ts]; [discriminate|]. destruct t; try discriminate H. destruct ts as [|t2 ts]; [discriminate|]. destruct t2; try discriminate H.
  destruct ts as [|t3 ts]; [discriminate H|]. assert (D : t3 = T_RBRACE \/ t3 <> T_RBRACE) by (destruct t3; ((left; reflexivity) || (right; discriminate))).
  destruct D as [->|D]; [injection H as <- <-; split; [discriminate|reflexivity]|].
  rewrite wlist_cons in H by exact D. destruct (wlist (t3 :: ts)) as [[l' r']|] eqn:E; [|discriminate]. injection H as <- <-.
  destruct (IH (t3 :: ts) ltac:(unfold Wf_nat.ltof; cbn; lia) l' r' E) as [N ->]. split; [discriminate|reflexivity].
Qed.
Lemma shape_def_inv : forall ts i sd r, shape_def_of ts = Some (sd, r) -> T_SHAPE i :: ts = shape_toks (i, sd) ++ r.
Proof.
  intros ts i sd r H. unfold shape_def_of in H. destruct ts as [|t ts]; [discriminate|]. destruct t; try discriminate H.
  assert (K : match string_list ts with Some (s :: l, r') => Some (lines s l, r') | _ => None end = Some (sd, r) -> T_SHAPE i :: T_LPAR :: ts = shape_toks (i, sd) ++ r).
  { intros E. destruct (string_list ts) as [[[|a l] r']|] eqn:El; try discriminate. injection E as <- <-. apply string_list_inv in El as [_ ->].
    unfold shape_toks. cbn [fst snd]. rewrite <- !app_comm_cons, <- app_assoc. reflexivity. }
  destruct ts as [|t2 ts]; [exact (K H)|]. destruct t2; try exact (K H). injection H as <- <-. reflexivity.
Qed.
Lemma slist_inv : forall f ts l r, slist f ts = Some (l, r) -> l <> [] /\ ts = flat_map shape_toks l ++ T_RBRACE :: r.
Proof.
  induction f as [|f IH]; intros ts l r H; [discriminate|]. cbn [slist] in H. destruct ts as [|t ts]; [discriminate|]. destruct t; try discriminate H.
  destruct (shape_def_of ts) as [[sd r1]|] eqn:E; [|discriminate]. apply (shape_def_inv ts i) in E.
  assert (D : (exists r2, r1 = T_RBRACE :: r2 /\ l = [(i, sd)] /\ r = r2) \/ exists l', slist f r1 = Some (l', r) /\ l = (i, sd) :: l').
  { destruct r1 as [|x r2]; [|destruct x; try (left; exists r2; injection H as <- <-; auto; fail)]; right;
    (destruct (slist f _) as [[l' r'']|]; [|discriminate]; injection H as <- <-; eauto). }
  split; [destruct D as [(r2 & _ & -> & _)|(l' & _ & ->)]; discriminate|]. rewrite E. destruct D as [(r2 & -> & -> & ->)|(l' & E' & ->)].
  - cbn [flat_map]. rewrite app_nil_r. reflexivity.
  - destruct (IH _ _ _ E') as [_ ->]. cbn [flat_map]. rewrite <- app_assoc. reflexivity.
Qed.
Lemma rflag_inv : forall ts m r, rflag ts = (m, r) -> exists f, (f = [] /\ m = 103%N \/ f = [T_RXPFLAG m]) /\ ts = f ++ r.
Proof.
  intros ts m r H. assert (D : (exists c r0, ts = T_RXPFLAG c :: r0) \/ rflag ts = (103%N, ts)).
  { destruct ts as [|t ts]; [right; reflexivity|]. destruct t; try (right; reflexivity). left. eauto. }
  destruct D as [(c & r0 & ->)|D].
  - injection H as <- <-. exists [T_RXPFLAG c]. split; [right; reflexivity|reflexivity].
  - rewrite D in H. injection H as <- <-. exists []. split; [left; split; reflexivity|reflexivity].
Qed.
Lemma item_inv : forall ts i r, item_of ts = Some (i, r) -> exists us, ts = us ++ r /\ item_toks i us.
Proof.
  intros ts i r H. destruct ts as [|t ts]; [discriminate|]. destruct t; try discriminate H.
  - destruct ts as [|t2 ts]; [discriminate|]. destruct t2; try discriminate H. cbn [item_of] in H.
    destruct (slist (List.length ts) ts) as [[l r']|] eqn:E; [|discriminate]. injection H as <- <-. apply slist_inv in E as [N ->].
    eexists. split; [|apply it_shapes; exact N]. rewrite <- !app_comm_cons, <- app_assoc. reflexivity.
  - destruct ts as [|t2 ts]; [discriminate|]. destruct t2; try discriminate H. cbn [item_of] in H.
    destruct (elist ts) as [[l r']|] eqn:E; [|discriminate]. injection H as <- <-. apply elist_inv in E as [N ->].
    eexists. split; [|apply it_elastic; exact N]. rewrite <- !app_comm_cons, <- app_assoc. reflexivity.
  - destruct ts as [|t2 ts]; [discriminate|]. destruct t2; try discriminate H. cbn [item_of] in H.
    destruct (wlist ts) as [[l r']|] eqn:E; [|discriminate]. injection H as <- <-. apply wlist_inv in E as [N ->].
    eexists. split; [|apply it_padding; exact N]. rewrite <- !app_comm_cons, <- app_assoc. reflexivity.
  - destruct ts as [|t2 ts]; [discriminate|]. destruct t2; try discriminate H. destruct ts as [|t3 ts]; [discriminate|]. destruct t3; try discriminate H.
    injection H as <- <-. eexists. split; [|apply it_sample]. reflexivity.
  - cbn [item_of] in H. destruct (rflag ts) as [m r1] eqn:E. destruct (rflag_inv _ _ _ E) as (f & Hf & ->).
    destruct r1 as [|t2 r1]; [discriminate|]. destruct t2; try discriminate H. destruct r1 as [|t3 r1]; [discriminate|]. destruct t3; try discriminate H.
    destruct r1 as [|t4 r1]; [discriminate|]. destruct t4; try discriminate H. injection H as <- <-. eexists. split; [|apply it_replace; exact Hf].
    rewrite <- app_comm_cons, <- app_assoc. reflexivity.
  - cbn [item_of] in H. destruct (rflag ts) as [m r1] eqn:E. destruct (rflag_inv _ _ _ E) as (f & Hf & ->).
    destruct r1 as [|t2 r1]; [discriminate|]. destruct t2; try discriminate H. destruct r1 as [|t3 r1]; [discriminate|]. destruct t3; try discriminate H.
    destruct r1 as [|t4 r1]; [discriminate|]. destruct t4; try discriminate H. injection H as <- <-. eexists. split; [|apply it_reverse; exact Hf].
    rewrite <- app_comm_cons, <- app_assoc. reflexivity.
  - destruct ts as [|t2 ts]; [discriminate|]. destruct t2; try discriminate H. injection H as <- <-. eexists. split; [|apply it_delim]. reflexivity.
  - destruct ts as [|t2 ts]; [discriminate|]. destruct t2; try discriminate H.
    + injection H as <- <-. eexists. split; [|apply it_tag]. reflexivity.
    + cbn [item_of] in H. destruct (string_list ts) as [[l r']|] eqn:E; [|discriminate]. injection H as <- <-. apply string_list_inv in E as [N ->].
      eexists. split; [|apply it_tags; exact N]. rewrite <- !app_comm_cons, <- app_assoc. reflexivity.
  - destruct ts as [|t2 ts]; [discriminate|]. destruct t2; try discriminate H. injection H as <- <-. eexists. split; [|apply it_keyword]. reflexivity.
  - destruct ts as [|t2 ts]; [discriminate|]. destruct t2; try discriminate H. injection H as <- <-. eexists. split; [|apply it_bxword]. reflexivity.
  - destruct ts as [|t2 ts]; [discriminate|]. destruct t2; try discriminate H. injection H as <- <-. eexists. split; [|apply it_id]. reflexivity.
Qed.
Definition plain_toks (a : list token) : Prop := Forall (fun x => ~ starts x) a.
Lemma plain_cons : forall t a, t <> T_BOX -> t <> T_PARENT -> plain_toks a -> plain_toks (t :: a).
Proof. intros t a H1 H2 H. constructor; [intros [F|F]; congruence|exact H]. Qed.
Lemma plain_app : forall a b, plain_toks a -> plain_toks b -> plain_toks (a ++ b).
Proof. intros a b H1 H2. apply Forall_app. split; assumption. Qed.
Ltac plain := repeat (apply plain_app || (apply plain_cons; [discriminate|discriminate|])); try (constructor; fail); auto.
Lemma plain_ctoks : forall (A : Type) (f : A -> token) l, (forall a, ~ starts (f a)) -> plain_toks (ctoks f l).
Proof.
  intros A f l Hf. induction l as [|a l IH]; [constructor|]. destruct l as [|b l]; [constructor; [apply Hf|constructor]|].
  rewrite ctoks_cons by discriminate. constructor; [apply Hf|]. apply plain_cons; [discriminate|discriminate|exact IH].
Qed.
Lemma item_plain : forall i us, item_toks i us -> plain_toks us.
Proof.
  assert (Hs : forall a, ~ starts (T_STRING a)) by (intros a [F|F]; discriminate F).
  assert (Hn : forall a, ~ starts (T_SHAPE a)) by (intros a [F|F]; discriminate F).
  intros i us H. destruct H; plain.
  - apply plain_ctoks. exact Hs.
  - clear H. induction l as [|[k [|x m]] l IH]; [constructor| |]; cbn [flat_map]; unfold shape_toks at 1; cbn [fst snd]; plain. apply plain_ctoks. exact Hs.
  - apply plain_ctoks. exact Hn.
  - destruct H as [[-> _]| ->]; plain.
  - destruct H as [[-> _]| ->]; plain.
  - clear H. induction l as [|[k z] l IH]; [constructor|]; cbn [flat_map pad_toks]; plain.
Qed.
Lemma alias_plain : forall al, plain_toks (alias_toks al).
Proof. unfold alias_toks. induction al as [|a al IH]; [constructor|]. cbn [flat_map]. plain. Qed.
Lemma layout_inv : forall f ts l e r, layout f ts = (l, e, r) ->
  match e with
  | Some n => exists tss, Forall2 item_toks l tss /\ ts = concat tss ++ [T_END; T_ASCII_ID n] ++ r
  | None => exists a, ts = a ++ r /\ plain_toks a
  end.
Proof.
  induction f as [|f IH]; intros ts l e r H; [injection H as <- <- <-; exists []; split; [reflexivity|constructor]|].
  destruct ts as [|t ts]; [injection H as <- <- <-; exists []; split; [reflexivity|constructor]|].
  assert (D : t = T_END \/ t <> T_END) by (destruct t; (left; reflexivity) || (right; discriminate)). destruct D as [->|D].
  - destruct ts as [|y ts]; [injection H as <- <- <-; exists [T_END]; split; [reflexivity|plain]|].
    destruct y; injection H as <- <- <-; try (exists [T_END]; split; [reflexivity|plain]). exists []. split; [constructor|reflexivity].
  - rewrite layout_S in H by exact D. destruct (item_of (t :: ts)) as [[i r1]|] eqn:E2; [|injection H as <- <- <-; exists []; split; [reflexivity|constructor]].
    destruct (layout f r1) as [[l' e'] r'] eqn:E3. injection H as <- <- <-. apply IH in E3. apply item_inv in E2 as (us & -> & Hi).
    destruct e' as [n|].
    + destruct E3 as (tss & Ht & ->). exists (us :: tss). split; [constructor; assumption|]. cbn [concat]. rewrite <- app_assoc. reflexivity.
    + destruct E3 as (a & -> & Ha). exists (us ++ a). split; [rewrite <- app_assoc; reflexivity|]. apply plain_app; [eapply item_plain; exact Hi|exact Ha].
Qed.
Lemma alias_inv : forall ts l ok r, alias_list ts = (l, ok, r) -> (ok = true -> ts = alias_toks l ++ r) /\ exists a, ts = a ++ r /\ plain_toks a.
Proof.
  intros ts. induction ts as [ts IH] using (well_founded_induction (Wf_nat.well_founded_ltof _ (@List.length token))). intros l ok r H.
  assert (Z : forall ts' : list token, exists a, ts' = a ++ ts' /\ plain_toks a) by (intros ts'; exists []; split; [reflexivity|constructor]).
  assert (Y : forall ts' : list token, exists a, T_COMMA :: ts' = a ++ ts' /\ plain_toks a) by (intros ts'; exists [T_COMMA]; split; [reflexivity|plain]).
  destruct ts as [|t ts]; [injection H as <- <- <-; split; [reflexivity|apply Z]|].
  destruct t; try (injection H as <- <- <-; split; [reflexivity|apply Z]).
  destruct ts as [|y ts]; [injection H as <- <- <-; split; [discriminate|apply Y]|].
  destruct y; try (injection H as <- <- <-; split; [discriminate|apply Y]).
  cbn [alias_list] in H. destruct (alias_list ts) as [[l' ok'] r'] eqn:E. injection H as <- <- <-.
  destruct (IH ts ltac:(unfold Wf_nat.ltof; cbn; lia) _ _ _ E) as [I1 (a & I2 & I3)]. split.
  - intros ->. specialize (I1 eq_refl). cbn [alias_toks flat_map app]. f_equal. f_equal. exact I1.
  - exists (T_COMMA :: T_ASCII_ID s :: a). split; [rewrite I2; reflexivity|plain].
Qed.
Definition at_start (r : list token) : Prop := r = [] \/ exists t' r', r = t' :: r' /\ starts t'.
Lemma recovered_inv : forall ts, exists a, ts = a ++ recovered ts /\ plain_toks a /\ at_start (recovered ts).
Proof.
  induction ts as [|t ts (a & IH & Ha & Hr)]; [exists []; split; [reflexivity|]; split; [constructor|left; reflexivity]|].
  destruct t; try (exists []; split; [reflexivity|]; split; [constructor|right; eexists; eexists; split; [reflexivity|unfold starts; auto; fail]]; fail); cbn [recovered];
  match goal with |- exists a, ?x :: ts = _ /\ _ => exists (x :: a); split; [cbn [app]; f_equal; exact IH|]; split; [plain|exact Hr] end.
Qed.
Lemma design_inv : forall ts s r, design_of ts = (s, r) ->
  (exists us, stmt_toks s (T_BOX :: us) /\ ts = us ++ r) \/ faulty_stmt s /\ (exists a, ts = a ++ r /\ plain_toks a) /\ at_start r.
Proof.
  intros ts s r H. assert (K : design_of ts = (s_bad_id [], recovered ts) -> faulty_stmt s /\ (exists a, ts = a ++ r /\ plain_toks a) /\ at_start r).
  { intros E. rewrite E in H. injection H as <- <-. split; [exact I|]. destruct (recovered_inv ts) as (a & Ea & Hp & Hs). eauto. }
  destruct ts as [|t ts]; [right; apply K; reflexivity|]. destruct t; try (right; apply K; reflexivity). clear K. unfold design_of in H.
  destruct (alias_list ts) as [[al ok] r1] eqn:E1. apply alias_inv in E1 as [A1 (a1 & A2 & A3)].
  destruct ok.
  - specialize (A1 eq_refl). destruct (layout _ r1) as [[l e] r2] eqn:E2. apply layout_inv in E2. destruct e as [n|].
    + destruct E2 as (tss & Ht & E2). destruct l as [|i l]; cbn [is_nil] in H; injection H as <- <-.
      * right. split; [left; reflexivity|]. destruct (recovered_inv r2) as (a & Ea & Hp & Hs). split; [|exact Hs]. inversion Ht; subst tss. cbn [concat app] in E2.
        exists (T_ASCII_ID s0 :: alias_toks al ++ [T_END; T_ASCII_ID n] ++ a). split.
        -- rewrite A1, E2, Ea at 1. rewrite <- !app_comm_cons, <- !app_assoc. reflexivity.
        -- plain. apply alias_plain.
      * left. exists (T_ASCII_ID s0 :: alias_toks al ++ concat tss ++ [T_END; T_ASCII_ID n]). split; [apply st_box; [exact Ht|discriminate]|].
        rewrite A1, E2 at 1. rewrite <- !app_comm_cons, <- !app_assoc. reflexivity.
    + injection H as <- <-. destruct E2 as (a2 & E2 & P2). destruct (recovered_inv r2) as (a & Ea & Hp & Hs). right. split; [|split; [|exact Hs]].
      * right. apply in_or_app. right. left. reflexivity.
      * exists (T_ASCII_ID s0 :: a1 ++ a2 ++ a). split; [rewrite A2, E2, Ea at 1; rewrite <- !app_comm_cons, <- !app_assoc; reflexivity|plain].
  - injection H as <- <-. right. split; [exact I|]. destruct (recovered_inv r1) as (a & Ea & Hp & Hs). split; [|exact Hs]. exists (T_ASCII_ID s0 :: a1 ++ a).
    split; [rewrite A2, Ea at 1; rewrite <- !app_comm_cons, <- !app_assoc; reflexivity|plain].
Qed.
Lemma config_inv : forall f ts, List.length ts <= f -> stands_in (config_file f ts) ts.
Proof.
  induction f as [|f IH]; intros ts Hf; [destruct ts; [constructor|inversion Hf]|]. destruct ts as [|t ts]; [constructor|]. cbn [List.length] in Hf.
  assert (J : stands_in (s_junk :: config_file f (recovered ts)) (t :: ts)).
  { destruct (recovered_inv ts) as (a & Ea & Hp & Hs). rewrite Ea at 2. apply si_faulty; [exact I|exact Hp|exact Hs|]. apply IH.
    rewrite Ea, app_length in Hf. lia. }
  destruct t; try exact J.
  - destruct ts as [|y ts]; [exact J|]. destruct y; try exact J. cbn [config_file]. cbn [List.length] in Hf.
    apply (si_good _ [T_PARENT; T_FILENAME s] _ ts); [constructor|apply IH; lia].
  - cbn [config_file]. destruct (design_of ts) as [s r] eqn:E. destruct (design_inv _ _ _ E) as [(us & Hs & ->)|[Hs [(a & -> & Hp) Hr]]]; rewrite app_length in Hf.
    + apply (si_good s (T_BOX :: us)); [exact Hs|apply IH; lia].
    + apply si_faulty; [exact Hs|exact Hp|exact Hr|apply IH; lia].
Qed.
(** a statement without faults is written out *)
Lemma stands_in_toks : forall l ts s, stands_in l ts -> In s l -> ~ faulty_stmt s -> exists a us b, ts = a ++ us ++ b /\ stmt_toks s us.
Proof.
  intros l ts s H. induction H as [|s0 us l r Hs Hr IH|s0 l t a r Hf Hp Ha Hr IH]; intros Hin Hn; [destruct Hin| |].
  - destruct Hin as [->|Hin]; [exists [], us, r; split; [reflexivity|exact Hs]|].
    destruct (IH Hin Hn) as (a & vs & b & -> & Hv). exists (us ++ a), vs, b. split; [rewrite <- app_assoc; reflexivity|exact Hv].
  - destruct Hin as [->|Hin]; [contradiction|]. destruct (IH Hin Hn) as (a' & vs & b & -> & Hv). exists (t :: a ++ a'), vs, b.
    split; [rewrite <- app_comm_cons, <- app_assoc; reflexivity|exact Hv].
Qed.
