(** * A configuration file says what its statements say *)
From Coq Require Import Ascii String List Arith NArith ZArith Bool Lia.
From Verif Require Import Base BaseFacts Model_Unicode Model_Bxs Model_Shape Spec_Str Spec_Design Model_Query Model_Discovery Spec_Discovery Model_Parser Spec_Parser Spec_Grammar Spec_Query Proof_Query
  Proof_Str Proof_Bxs Proof_BxsOps Proof_BxsMore Proof_Body Proof_Found Proof_Parser Proof_Parser2 Proof_Isolated Proof_Fast Proof_Chosen Spec_File.
Import ListNotations.
Local Open Scope nat_scope.
Local Open Scope list_scope.

(** ** names of files *)
Section Names.
Variable U : uctab.
Hypothesis HU : uctab_ok U.
Lemma letter_printable : forall c w, In w (Model_Discovery.lit ":global:") -> same_letter c w -> is_ascii_printable c = true /\ c <> 32%N /\ c <> 120%N.
Proof.
  intros c w Hw H. unfold same_letter in H. change (Model_Discovery.lit ":global:") with [58; 103; 108; 111; 98; 97; 108; 58]%N in Hw. unfold is_ascii_printable.
  assert (B : (c = 58 \/ 65 <= c <= 90 \/ 97 <= c <= 111)%N).
  { repeat (destruct Hw as [<-|Hw]); try destruct Hw; lia. }
  repeat split; try (intros ->; lia). apply andb_true_iff. split; [apply N.leb_le|apply N.ltb_lt]; lia.
Qed.
Lemma shadow_global : forall t w, incl w (Model_Discovery.lit ":global:") -> ~ In 9%N t ->
  (nocase (flat_map (char_ascii U) t) w <-> nocase (filter (fun c => (0 <? uc_width U c)%Z) t) w).
Proof.
  induction t as [|c t IH]; intros w Hw Ht; [reflexivity|]. cbn [flat_map filter]. unfold char_ascii at 1.
  assert (Ht' : ~ In 9%N t) by (intros F; apply Ht; right; exact F).
  destruct (is_ascii_printable c) eqn:E.
  - rewrite (ok_width _ HU c E). cbn [Z.ltb Z.compare app]. split; intros H; inversion H as [|? y ? w' H1 H2]; subst; (constructor; [exact H1|]);
      apply (IH w'); try assumption; intros z Hz; apply Hw; right; exact Hz.
  - destruct (N.eqb_spec c char_tab) as [->|Ec]; [elim Ht; left; reflexivity|].
    destruct (Z.ltb_spec 0 (uc_width U c)) as [L|L].
    + split; intros H; exfalso.
      * destruct (Z.to_nat (Z.max 0 (uc_width U c))) as [|k] eqn:K; [lia|]. cbn [repeat app] in H. inversion H as [|? y ? w' H1 H2]; subst.
        destruct (letter_printable _ y (Hw y (or_introl eq_refl)) H1) as (_ & A & B). destruct (uc_is_blank U c); congruence.
      * inversion H as [|? y ? w' H1 H2]; subst. destruct (letter_printable _ y (Hw y (or_introl eq_refl)) H1) as (A & _). congruence.
    + replace (Z.to_nat (Z.max 0 (uc_width U c))) with 0 by lia. cbn [repeat app]. apply IH; assumption.
Qed.
Lemma plain_split : forall s p r q, plain s = p ++ r ++ q -> exists a t b, s = a ++ t ++ b /\ p = plain a /\ r = plain t /\ q = plain b.
Proof.
  assert (G : forall s p r, plain s = p ++ r -> exists a t, s = a ++ t /\ p = plain a /\ r = plain t).
  { induction s as [|c s IH]; intros p r H.
    - symmetry in H. apply app_eq_nil in H as [-> ->]. exists [], []. repeat split.
    - destruct p as [|x p]; [exists [], (c :: s); repeat split; symmetry; exact H|]. cbn [plain map app] in H. injection H as <- H.
      destruct (IH p r H) as (a & t & -> & -> & ->). exists (c :: a), t. repeat split. }
  intros s p r q H. destruct (G _ _ _ H) as (a & u & -> & -> & H2). symmetry in H2. destruct (G _ _ _ H2) as (t & b & -> & -> & ->). exists a, t, b. repeat split.
Qed.
Lemma stripped_unique : forall p t u, stripped U p t -> stripped U p u -> t = u.
Proof.
  assert (Lead : forall a a' t t', a ++ t = a' ++ t' -> Forall (fun c => uc_is_blank U c = true) a -> Forall (fun c => uc_is_blank U c = true) a' ->
      (forall c r, t = c :: r -> uc_is_blank U c = false) -> (forall c r, t' = c :: r -> uc_is_blank U c = false) -> t = t').
    { induction a as [|x a IH]; intros [|y a'] t t' E A A' H H'; cbn [app] in E.
      - exact E.
      - inversion A'; subst. specialize (H y (a' ++ t') eq_refl). congruence.
      - inversion A; subst. specialize (H' x (a ++ t) eq_refl). congruence.
      - injection E as -> E. inversion A; inversion A'; subst. eapply IH; eassumption. }
    intros p t u (a & b & E & Ha & Hb & H1 & H2) (a' & b' & E' & Ha' & Hb' & H1' & H2').
    destruct t as [|c t].
    - destruct u as [|d u]; [reflexivity|]. exfalso. cbn [app] in E. assert (F : In d (a ++ b)) by (rewrite <- E, E'; apply in_app_iff; right; left; reflexivity).
      specialize (H1' d u eq_refl). rewrite Forall_forall in Ha, Hb. apply in_app_iff in F as [F|F]; [rewrite (Ha _ F) in H1'|rewrite (Hb _ F) in H1']; discriminate.
    - destruct u as [|d u].
      + exfalso. cbn [app] in E'. assert (F : In c (a' ++ b')) by (rewrite <- E', E; apply in_app_iff; right; left; reflexivity).
        specialize (H1 c t eq_refl). rewrite Forall_forall in Ha', Hb'. apply in_app_iff in F as [F|F]; [rewrite (Ha' _ F) in H1|rewrite (Hb' _ F) in H1]; discriminate.
      + assert (X : (c :: t) ++ b = (d :: u) ++ b').
        { apply (Lead a a'); [congruence|assumption|assumption| |]; intros x r F; cbn [app] in F; injection F as <- _; [apply (H1 c t eq_refl)|apply (H1' d u eq_refl)]. }
        apply (f_equal (@rev N)) in X. rewrite !rev_app_distr in X.
        assert (Y : rev (c :: t) = rev (d :: u)).
        { apply (Lead (rev b) (rev b')); [exact X|apply Forall_rev; exact Hb|apply Forall_rev; exact Hb'| |]; intros x r F.
          - apply (H2 x (rev r)). rewrite <- (rev_involutive (c :: t)), F. reflexivity.
          - apply (H2' x (rev r)). rewrite <- (rev_involutive (d :: u)), F. reflexivity. }
        apply (f_equal (@rev N)) in Y. rewrite !rev_involutive in Y. exact Y.
Qed.
Lemma blank_is : forall c, c <> 9%N -> is_blank U c = uc_is_blank U c.
Proof. intros c H. unfold is_blank. destruct (N.eqb_spec c char_tab); [contradiction|reflexivity]. Qed.
Lemma filename_ok : forall f, okt U f -> narrow_lead U f -> exists t, filename_tok U f = Ok (Some (pl U t)) /\ okt U t /\ stripped U f t.
Proof.
  intros f Hf Hn. unfold filename_tok, string_tok, utf8_to_bxs. rewrite (from_pl U HU f Hf). cbn [bind].
  assert (T9 : forall c, In c f -> c <> 9%N) by (intros c Hc; unfold okt in Hf; rewrite Forall_forall in Hf; apply (Hf c Hc)).
  destruct (forallb (is_blank U) f) eqn:Eb.
  - exists []. split; [|split; [constructor|]].
    + assert (E : bxs_trim U (pl U f) = Ok (pl U [])); [|rewrite E; reflexivity].
      unfold bxs_trim, pl. cbn [bx indent trailing num_chars_visible]. rewrite visible_plain. rewrite (lead_cols_narrow U f Hn). unfold all_blank. rewrite Eb, Nat.add_0_r.
      assert (L : lead (is_blank U) f = length f). { clear -Eb. induction f as [|c f IH]; [reflexivity|]. cbn [forallb lead] in *. apply andb_true_iff in Eb as [A B]. rewrite A. cbn. f_equal. exact (IH B). }
      rewrite L, andb_true_r. destruct f as [|c f]; [reflexivity|]. cbn [Nat.eqb length]. rewrite (Nat.eqb_refl (length f)). reflexivity.
    + exists f, []. rewrite app_nil_r. split; [reflexivity|]. split; [|split; [constructor|split; [intros c r F; discriminate F|intros c r F; destruct r; discriminate F]]].
      rewrite forallb_forall in Eb. apply Forall_forall. intros c Hc. rewrite <- blank_is by (apply T9; exact Hc). apply Eb. exact Hc.
  - pose proof (proj1 (okt_good U f) Hf) as Hg. destruct (trim_spec U HU (plain f) Hg) as (r & E & Hr & _ & H). { rewrite visible_plain. exact Hn. }
    rewrite visible_plain in H. destruct (H Eb) as (p & q & Ef & Hp & Hq & (c1 & x1 & H1 & B1) & (c2 & x2 & H2 & B2)).
    destruct (plain_split _ _ _ _ Ef) as (a & t & b & -> & -> & -> & ->). exists t. rewrite visible_plain in *.
    apply okt_app in Hf as [Ha Hf]. apply okt_app in Hf as [Ht Hb].
    split; [unfold pl at 1; rewrite E; reflexivity|]. split; [exact Ht|].
    exists a, b. split; [reflexivity|].
    rewrite forallb_forall in Hp, Hq.
    split; [apply Forall_forall; intros c Hc; rewrite <- blank_is; [apply Hp; exact Hc|apply T9; apply in_or_app; left; exact Hc]|].
    split; [apply Forall_forall; intros c Hc; rewrite <- blank_is; [apply Hq; exact Hc|apply T9; apply in_or_app; right; apply in_or_app; right; exact Hc]|].
    split; intros c rr Ec.
    + rewrite Ec in H1. injection H1 as <- _. rewrite <- blank_is; [exact B1|]. apply T9. rewrite Ec. apply in_or_app. right. left. reflexivity.
    + rewrite Ec in H2. apply app_inj_tail in H2 as [_ <-]. rewrite <- blank_is; [exact B2|]. apply T9. rewrite Ec. apply in_or_app. right. apply in_or_app. left. apply in_or_app. right. left. reflexivity.
Qed.
End Names.

Section File.
Variable U : uctab.
Hypothesis HU : uctab_ok U.
Variable beyond : res sentry.
Variable eol : list N.
Variable children : list cdesign.
Notation kept_aliases := (kept_aliases children).
Definition same (st : pstate) (ds : list cdesign) (ps : list (list N)) : Prop := idle st /\ b_designs st = ds /\ b_parents st = ps.

(** ** one design *)
Section Box.
Variable po : popts.
Variable fopen_ok : list N -> bool.
Variable sur : surroundings.
Notation do_stmt := (do_stmt U beyond po eol children fopen_ok sur).
Lemma after_same : forall st, ((exists n al, curdes st = set_name n (set_aliases al init_design) /\ num_mandatory st = 0 /\ time_for_se_check st = 0 /\ num_shapespec st = 0) \/
  skipping st = false /\ speeding st = false) -> same (after_error st) (b_designs st) (b_parents st).
Proof. intros st H. destruct (after_error_idle st H) as [A B]. split; [exact A|]. split; [exact B|apply after_error_parents]. Qed.
Lemma aliases_taken : forall l st, existsb (design_name_exists st) l = true -> exists al, add_aliases children st l = (with_cur (set_aliases al (curdes st)) st, false).
Proof.
  induction l as [|a l IH]; intros st H; [discriminate H|]. cbn [existsb] in H. cbn [add_aliases]. unfold action_add_alias.
  destruct (design_name_exists st a).
  - exists (c_aliases (curdes st)). destruct st as [? c ? ? ? ? ? ?]. destruct c. reflexivity.
  - cbn [orb] in H. destruct (alias_exists_in_child_configs children a); [apply IH; exact H|].
    match goal with |- context [add_aliases children ?x l] => destruct (IH x) as (al & E); [exact H|] end. exists al. rewrite E. reflexivity.
Qed.
Definition needed (ds : list cdesign) (n : list N) (al : list (list N)) : bool :=
  match choice po with
  | Some c => same_nocase c n || existsb (same_nocase c) (kept_aliases al)
  | None => full_parse_required po || is_nil ds
  end.
Definition quiet (st : pstate) (s : stmt) : Prop := exists st', do_stmt st s = Ok (RC_SUCCESS st') /\ same st' (b_designs st) (b_parents st).
Lemma box_alias : forall st n al layout fin, idle st -> existsb (design_name_exists st) al = true -> quiet st (s_box n al layout fin).
Proof.
  intros st n al layout fin I H. destruct (aliases_taken al st H) as (al' & E). unfold quiet. cbn [Model_Parser.do_stmt]. rewrite E. cbn [negb].
  eexists. split; [reflexivity|]. apply (after_same (with_cur (set_aliases al' (curdes st)) st)). left. destruct (idle_is st I) as [_ Ist]. destruct I as (_ & I1 & I2 & I3).
  exists (c_name (curdes st)), al'. split; [|auto]. rewrite Ist. reflexivity.
Qed.
Lemma begun_at : forall st n al, idle st -> existsb (design_name_exists st) al = false ->
  add_aliases children st al = (with_cur (set_aliases (kept_aliases al) (curdes st)) st, true) /\
  with_cur (set_name (Some n) (curdes (with_cur (set_aliases (kept_aliases al) (curdes st)) st)))
     (with_flags false false (with_cur (set_aliases (kept_aliases al) (curdes st)) st)) = put (with_flags false false st) (begun n (kept_aliases al)).
Proof.
  intros st n al I D. destruct (idle_is st I) as [Ial Ist]. split.
  - rewrite aliases_clear, Ial; [reflexivity|]. intros a Ha. destruct (design_name_exists st a) eqn:E; [|reflexivity].
    rewrite <- D. symmetry. apply existsb_exists. eauto.
  - rewrite Ist. reflexivity.
Qed.
Lemma box_rest : forall st n al layout fin, idle st -> existsb (design_name_exists st) al = false ->
  if negb (needed (b_designs st) n al) || is_nil layout then quiet st (s_box n al layout fin)
  else match do_items U beyond eol (begun n (kept_aliases al)) layout with
       | Ok (RC_SUCCESS st3) =>
           if negb (same_nocase n fin) || (num_mandatory st3 <? 3) || design_name_exists st n then quiet st (s_box n al layout fin)
           else exists st', do_stmt st (s_box n al layout fin) = Ok (if full_parse_required po then RC_SUCCESS st' else RC_ACCEPT st') /\
                  same st' (b_designs st ++ [curdes st3]) (b_parents st)
       | Ok RC_ERROR => quiet st (s_box n al layout fin)
       | Ok RC_ABORT => do_stmt st (s_box n al layout fin) = Ok RC_ABORT
       | Ok (RC_ACCEPT _) => False
       | Err => do_stmt st (s_box n al layout fin) = Err
       | UB => do_stmt st (s_box n al layout fin) = UB
       | Wrap => do_stmt st (s_box n al layout fin) = Wrap
       | Fuel => do_stmt st (s_box n al layout fin) = Fuel
       end.
Proof.
  intros st n al layout fin I H. destruct (begun_at st n al I H) as [Ea Eb]. unfold quiet. cbn [Model_Parser.do_stmt]. rewrite Ea. cbn [negb].
  unfold action_start_parsing_design. rewrite Eb. set (b := with_flags false false st).
  assert (N : design_needed po (put b (begun n (kept_aliases al))) = needed (b_designs st) n al).
  { unfold design_needed, needed. destruct (choice po); [|reflexivity]. unfold design_has_name, design_has_alias. reflexivity. }
  rewrite N. destruct (needed (b_designs st) n al); cbn [negb orb].
  2:{ eexists. split; [reflexivity|]. apply (after_same (with_flags false true (put b (begun n (kept_aliases al))))). left. exists (Some n), (kept_aliases al). repeat split. }
  destruct (is_nil layout). { eexists. split; [reflexivity|]. apply (after_same (put b (begun n (kept_aliases al)))). right. split; reflexivity. }
  rewrite put_items. destruct (do_items U beyond eol (begun n (kept_aliases al)) layout) as [[st3| | |st3]| | | |] eqn:Ei; cbn [outmap rcmap bind]; try reflexivity.
  - pose proof (items_kept _ _ _ _ _ _ Ei) as (K1 & K2 & K3 & K4 & K5 & K6).
    unfold action_add_design. change (num_mandatory (put b st3)) with (num_mandatory st3). change (design_name_exists (put b st3) n) with (design_name_exists st n).
    destruct (negb (same_nocase n fin)); cbn [orb]. { eexists. split; [reflexivity|]. apply (after_same (put b st3)). right. split; reflexivity. }
    destruct (num_mandatory st3 <? 3); cbn [orb]. { eexists. split; [reflexivity|]. apply (after_same (put b st3)). right. split; reflexivity. }
    destruct (design_name_exists st n). { eexists. split; [reflexivity|]. apply (after_same (put b st3)). right. split; reflexivity. }
    destruct (full_parse_required po); (eexists; split; [reflexivity|]; split; [apply idle_init|split; reflexivity]).
  - eexists. split; [reflexivity|]. apply (after_same (put b (begun n (kept_aliases al)))). right. split; reflexivity.
  - elim (do_items_accept _ _ _ _ _ _ Ei).
Qed.

(** ** a reference to another file *)
Definition parent_value (f : list N) : res (option (list N)) :=
  b <- filename_tok U f ;;
  match b with
  | None => Ok None
  | Some b =>
      if num_chars b =? 0 then Ok None
      else if same_nocase (ascii b) (Model_Discovery.lit ":global:") then g <- discover_config_file U sur true ;; Ok (option_map memory g)
      else if negb (valid_in_filename U b) then Ok None
      else Ok (if fopen_ok (memory b) then Some (memory b) else None)
  end.
Lemma parent_pl : forall t, okt U t ->
  (if num_chars (pl U t) =? 0 then Ok None
   else if same_nocase (ascii (pl U t)) (Model_Discovery.lit ":global:") then g <- discover_config_file U sur true ;; Ok (option_map memory g)
   else if negb (valid_in_filename U (pl U t)) then Ok None
   else Ok (if fopen_ok (memory (pl U t)) then Some (memory (pl U t)) else None)) =
  (if is_nil t then Ok None
   else if same_nocase (flat_map (char_ascii U) t) (Model_Discovery.lit ":global:") then g <- discover_config_file U sur true ;; Ok (option_map memory g)
   else Ok (if forallb (fun c => negb (N.eqb c 13) && negb (N.eqb c 10)) t && fopen_ok t then Some t else None)).
Proof.
  intros t Ht.
  assert (E1 : num_chars (pl U t) = length t) by (unfold pl; cbn [bx num_chars]; rewrite render_plain; reflexivity).
  assert (E2 : ascii (pl U t) = flat_map (char_ascii U) t) by (unfold pl; cbn [bx ascii]; rewrite visible_plain; reflexivity).
  assert (E3 : memory (pl U t) = t) by (unfold pl; cbn [bx memory]; apply render_plain).
  assert (E4 : valid_in_filename U (pl U t) = negb (is_nil t) && forallb (fun c => negb (N.eqb c 13) && negb (N.eqb c 10)) t).
  { unfold valid_in_filename, valid_in_context. rewrite E3. unfold pl. cbn [bx num_chars_visible num_chars_invisible]. rewrite visible_plain, invisible_plain. cbn [Nat.eqb]. rewrite andb_true_r. f_equal; [destruct t; reflexivity|].
    clear -Ht. induction Ht as [|c t (H1 & H2 & H3) Ht IH]; [reflexivity|]. cbn [forallb]. rewrite IH. f_equal. unfold is_allowed_in_filename. rewrite H3.
    change (c =? char_cr)%N with (N.eqb c 13). change (c =? char_newline)%N with (N.eqb c 10). change (c =? char_esc)%N with (N.eqb c 27).
    destruct (N.eqb_spec c 27); [contradiction|]. cbn [negb andb]. rewrite andb_true_r. reflexivity. }
  rewrite E1, E2, E3, E4. destruct t as [|c t]; [reflexivity|]. cbn [length Nat.eqb is_nil negb andb]. destruct (same_nocase _ _); [reflexivity|].
  destruct (forallb _ (c :: t)); reflexivity.
Qed.
Lemma parent_step : forall st f, idle st ->
  match parent_value f with
  | Ok (Some p) => do_stmt st (s_parent f) = Ok (RC_SUCCESS (add_parent st p)) /\ idle (add_parent st p) /\ b_designs (add_parent st p) = b_designs st
  | Ok None => quiet st (s_parent f)
  | Err => do_stmt st (s_parent f) = Err
  | UB => do_stmt st (s_parent f) = UB
  | Wrap => do_stmt st (s_parent f) = Wrap
  | Fuel => do_stmt st (s_parent f) = Fuel
  end.
Proof.
  intros st f I. unfold parent_value, quiet. cbn [Model_Parser.do_stmt]. destruct (filename_tok U f) as [b| | | |]; cbn [bind]; try reflexivity.
  unfold action_parent_config.
  assert (S1 : forall x, same (after_error (with_flags x (speeding st) st)) (b_designs st) (b_parents st)).
  { intros x. destruct (after_error_idle1 (with_flags x (speeding st) st)) as [A B]; [exact I|]. split; [exact A|]. split; [rewrite B; reflexivity|rewrite after_error_parents; reflexivity]. }
  assert (S2 : same (after_error st) (b_designs st) (b_parents st)).
  { destruct (after_error_idle1 st I) as [A B]. split; [exact A|]. split; [exact B|apply after_error_parents]. }
  assert (S3 : forall p, idle (add_parent st p) /\ b_designs (add_parent st p) = b_designs st).
  { intros p. unfold add_parent. destruct (existsb _ _); (split; [exact I|reflexivity]). }
  destruct b as [b|]; cbn [bind]; [|eexists; split; [reflexivity|apply S1]]. destruct (num_chars b =? 0); [eexists; split; [reflexivity|apply S1]|].
  destruct (same_nocase _ _).
  - destruct (discover_config_file U sur true) as [[p|]| | | |]; cbn [bind option_map]; try reflexivity; [split; [reflexivity|apply S3]|eexists; split; [reflexivity|apply S1]].
  - destruct (negb _); cbn [bind]; [eexists; split; [reflexivity|apply S2]|]. destruct (fopen_ok _); [split; [reflexivity|apply S3]|eexists; split; [reflexivity|apply S1]].
Qed.
Lemma other_step : forall st s, idle st -> match s with s_bad_id _ | s_junk => True | _ => False end -> quiet st s.
Proof.
  intros st s I H. destruct s as [f|n al l e|al|]; try contradiction; unfold quiet; cbn [Model_Parser.do_stmt]; (eexists; split; [reflexivity|]).
  - destruct (aliases_shape children al st) as (al' & E). rewrite E. apply (after_same (with_cur (set_aliases al' (curdes st)) st)). left.
    destruct (idle_is st I) as [_ Ist]. destruct I as (_ & I1 & I2 & I3). exists (c_name (curdes st)), al'. split; [|auto]. rewrite Ist. reflexivity.
  - destruct (after_error_idle1 st I) as [A B]. split; [exact A|]. split; [exact B|apply after_error_parents].
Qed.
End Box.

(** ** a single statement *)
Section One.
Variable fopen_ok : list N -> bool.
Variable sur : surroundings.
Definition po1 : popts := mkPopts None true.
Notation do_stmt1 := (do_stmt U beyond po1 eol children).
Definition layout_of (n : list N) (al : list (list N)) (layout : list item) : res (rc pstate) := do_items U beyond eol (begun n (kept_aliases al)) layout.
Lemma no_names : forall st al, b_designs st = [] -> existsb (design_name_exists st) al = false.
Proof.
  intros st al D. destruct (existsb _ al) eqn:E; [|reflexivity]. apply existsb_exists in E as (a & _ & E). unfold design_name_exists in E. rewrite D in E. discriminate E.
Qed.
Lemma alone_box : forall n al layout fin,
  alone_in_file U beyond eol children fopen_ok sur (s_box n al layout fin) =
  if is_nil layout then Ok ([], [])
  else match layout_of n al layout with
       | Ok (RC_SUCCESS st3) => if negb (same_nocase n fin) || (num_mandatory st3 <? 3) then Ok ([], []) else Ok ([curdes st3], [])
       | Ok _ => Ok ([], [])
       | Err => Err | UB => UB | Wrap => Wrap | Fuel => Fuel
       end.
Proof.
  intros n al layout fin. unfold alone_in_file. cbn [Model_Parser.parse_config_file Model_Parser.do_stmts].
  pose proof (box_rest po1 fopen_ok sur pstate0 n al layout fin (idle_init _ _ _ _) (no_names pstate0 al eq_refl)) as H. cbn [b_designs pstate0 app] in H.
  change (needed po1 [] n al) with true in H. cbn [negb orb] in H.
  assert (Q : quiet po1 fopen_ok sur pstate0 (s_box n al layout fin) ->
    (x <- (x <- do_stmt1 fopen_ok sur pstate0 (s_box n al layout fin) ;; match x with RC_SUCCESS st' => Ok (RC_SUCCESS st') | _ => Ok x end) ;;
     match x with RC_SUCCESS st => if is_nil (b_designs st) && match choice po1 with None => is_nil (b_parents st) | Some _ => false end then Ok ([], []) else Ok (b_designs st, b_parents st)
     | RC_ACCEPT st => Ok (b_designs st, b_parents st) | _ => Ok ([], []) end) = Ok ([], [])).
  { intros (st' & E & _ & D & P). fold po1. rewrite E. cbn [bind]. cbn [b_designs b_parents pstate0] in D, P. rewrite D, P. reflexivity. }
  fold po1. destruct (is_nil layout); [exact (Q H)|]. unfold layout_of.
  destruct (do_items U beyond eol (begun n (kept_aliases al)) layout) as [[st3| | |st3]| | | |]; try exact (Q H); try contradiction; try (rewrite H; reflexivity).
  change (design_name_exists pstate0 n) with false in H. rewrite orb_false_r in H. destruct (_ || _); [exact (Q H)|].
  destruct H as (st' & E & _ & D & P). change (full_parse_required po1) with true in E. cbv iota in E. rewrite E. cbn [bind]. rewrite D, P. reflexivity.
Qed.
Lemma probe : forall fo su, fo [112%N] = true -> parent_value fo su [112%N] = Ok (Some [112%N]).
Proof.
  intros fo su Hf.
  assert (C : okt U [112%N]). { constructor; [|constructor]. split; [discriminate|]. split; [discriminate|]. unfold is_allowed_anywhere. rewrite (ok_cntrl _ HU 112%N eq_refl). reflexivity. }
  assert (B : is_blank U 112 = false).
  { rewrite blank_is by discriminate. destruct (uc_is_blank U 112) eqn:E; [|reflexivity]. pose proof (ok_blank _ HU 112%N eq_refl E) as F. discriminate F. }
  destruct (filename_ok U HU [112%N] C) as (t & T & Ht & S). { unfold narrow_lead. cbn [lead]. rewrite B. constructor. }
  assert (E : t = [112%N]).
  { destruct S as (a & b & E & Ha & Hb & _). assert (X : forall l, Forall (fun c => uc_is_blank U c = true) l -> ~ In 112%N l).
    { intros l F Hin. rewrite Forall_forall in F. specialize (F _ Hin). rewrite <- blank_is in F by discriminate. congruence. }
    destruct a as [|x a]; [|injection E as <- E; elim (X _ Ha); left; reflexivity]. destruct t as [|x t].
    - cbn [app] in E. destruct b as [|x b]; [discriminate E|]. injection E as <- E. elim (X _ Hb). left. reflexivity.
    - injection E as <- E. symmetry in E. apply app_eq_nil in E as [-> _]. reflexivity. }
  subst t. unfold parent_value. rewrite T. cbn [bind]. rewrite parent_pl by exact C. cbn [is_nil flat_map app]. unfold char_ascii. change (is_ascii_printable 112) with true. cbn [app].
  change (same_nocase [112%N] (Model_Discovery.lit ":global:")) with false. cbn [forallb N.eqb Pos.eqb negb andb]. rewrite Hf. reflexivity.
Qed.
Lemma fatal_box : forall n al layout fin, fatal U beyond eol children sur (s_box n al layout fin) <-> layout <> [] /\ layout_of n al layout = Ok RC_ABORT.
Proof.
  intros n al layout fin. unfold fatal. cbn [is_design Model_Parser.parse_config_file Model_Parser.do_stmts]. fold po1.
  pose proof (parent_step po1 (fun _ => true) sur pstate0 [112%N] (idle_init _ _ _ _)) as P. rewrite (probe (fun _ => true) sur eq_refl) in P. destruct P as (P & I & D).
  rewrite P. cbn [bind]. set (st := add_parent pstate0 [112%N]) in *.
  pose proof (box_rest po1 (fun _ => true) sur st n al layout fin I (no_names st al D)) as H. rewrite D in H. cbn [b_designs pstate0 app] in H.
  change (needed po1 [] n al) with true in H. cbn [negb orb] in H.
  assert (Q : quiet po1 (fun _ => true) sur st (s_box n al layout fin) ->
    (x <- (x <- do_stmt1 (fun _ => true) sur st (s_box n al layout fin) ;; match x with RC_SUCCESS st' => Ok (RC_SUCCESS st') | _ => Ok x end) ;;
     match x with RC_SUCCESS st => if is_nil (b_designs st) && match choice po1 with None => is_nil (b_parents st) | Some _ => false end then Ok ([], []) else Ok (b_designs st, b_parents st)
     | RC_ACCEPT st => Ok (b_designs st, b_parents st) | _ => Ok ([], []) end) = Ok ([], [[112%N]])).
  { intros (st' & E & _ & D' & P'). rewrite E. cbn [bind]. rewrite D', P', D. reflexivity. }
  destruct layout as [|i0 layout0] eqn:El; [cbn [is_nil] in H; rewrite (Q H); split; [intros [_ F]; discriminate F|intros [F _]; congruence]|]. rewrite <- El in *. assert (En : is_nil layout = false) by (rewrite El; reflexivity).
  rewrite En in H. assert (Hne : layout <> []) by (rewrite El; discriminate). clear El En. unfold layout_of.
  destruct (do_items U beyond eol (begun n (kept_aliases al)) layout) as [[st3| | |st3]| | | |]; try contradiction;
    try (rewrite (Q H); split; [intros [_ F]; discriminate F|intros [_ F]; discriminate F]);
    try (rewrite H; cbn [bind]; split; [intros [_ F]; discriminate F|intros [_ F]; discriminate F]).
  - destruct (_ || _). { rewrite (Q H); split; [intros [_ F]; discriminate F|intros [_ F]; discriminate F]. }
    destruct H as (st' & E & _ & D' & P'). change (full_parse_required po1) with true in E. cbv iota in E. rewrite E. cbn [bind]. rewrite D', P'. cbn [is_nil andb].
    split; [intros [_ F]; discriminate F|intros [_ F]; discriminate F].
  - rewrite H. cbn [bind]. split; [intros _; split; [exact Hne|reflexivity]|intros _; split; [exact Logic.I|reflexivity]].
Qed.
Lemma alone_parent : forall f, alone_in_file U beyond eol children fopen_ok sur (s_parent f) =
  match parent_value fopen_ok sur f with Ok (Some p) => Ok ([], [p]) | Ok None => Ok ([], []) | Err => Err | UB => UB | Wrap => Wrap | Fuel => Fuel end.
Proof.
  intros f. unfold alone_in_file. cbn [Model_Parser.parse_config_file Model_Parser.do_stmts]. fold po1.
  pose proof (parent_step po1 fopen_ok sur pstate0 f (idle_init _ _ _ _)) as P. destruct (parent_value fopen_ok sur f) as [[p|]| | | |]; try (rewrite P; reflexivity).
  - destruct P as (P & _). rewrite P. reflexivity.
  - destruct P as (st' & E & _ & D & P). rewrite E. cbn [bind]. rewrite D, P. reflexivity.
Qed.
Lemma alone_other : forall s, match s with s_bad_id _ | s_junk => True | _ => False end -> alone_in_file U beyond eol children fopen_ok sur s = Ok ([], []).
Proof.
  intros s H. unfold alone_in_file. cbn [Model_Parser.parse_config_file Model_Parser.do_stmts]. fold po1.
  destruct (other_step po1 fopen_ok sur pstate0 s (idle_init _ _ _ _) H) as (st' & E & _ & D & P). rewrite E. cbn [bind]. rewrite D, P. reflexivity.
Qed.
End One.

(** ** a whole file *)
Section All.
Variable po : popts.
Variable fopen_ok : list N -> bool.
Variable sur : surroundings.
Notation do_stmt := (do_stmt U beyond po eol children fopen_ok sur).
Notation do_stmts := (do_stmts U beyond po eol children fopen_ok sur).
Notation file_says := (file_says U beyond eol children fopen_ok sur po).
Notation wanted := (wanted children po).
Notation yields := (yields U beyond eol children fopen_ok sur).
Notation names_file := (names_file U beyond eol children fopen_ok sur).
Notation void := (void U beyond eol children fopen_ok sur).
Notation fatal := (fatal U beyond eol children sur).

Lemma full_everything : full_parse_required po = true <-> everything po.
Proof. unfold full_parse_required, everything. destruct (choice po); split; [discriminate|intros [F _]; discriminate F|auto|intros [_ H]; exact H]. Qed.
Lemma counts_ok : forall a, counts children a <-> alias_exists_in_child_configs children a = false.
Proof.
  intros a. unfold counts, alias_exists_in_child_configs, design_has_alias. split.
  - intros H. destruct (existsb _ children) eqn:E; [|reflexivity]. apply existsb_exists in E as (d & Hd & E). apply existsb_exists in E as (x & Hx & E). apply same_ok, nocase_sym in E.
    elim (H d x Hd Hx E).
  - intros H d x Hd Hx E. apply nocase_sym, same_ok in E. assert (T : existsb (fun d => existsb (same_nocase a) (c_aliases d)) children = true); [|congruence].
    apply existsb_exists. exists d. split; [exact Hd|]. apply existsb_exists. exists x. split; assumption.
Qed.
Lemma wanted_ok : forall ds n al layout fin, full_parse_required po = true \/ ds = [] -> (needed po ds n al = true <-> wanted (s_box n al layout fin)).
Proof.
  intros ds n al layout fin Hd. unfold needed, Spec_File.wanted. destruct (choice po) as [c|] eqn:Ec.
  - rewrite orb_true_iff, same_ok, existsb_exists. split.
    + intros [H|(a & Ha & H)]; [left; apply nocase_sym; exact H|right]. apply filter_In in Ha as [Ha K]. apply negb_true_iff in K. exists a. split; [exact Ha|].
      split; [apply counts_ok; exact K|]. apply nocase_sym, same_ok. exact H.
    + intros [H|(a & Ha & K & H)]; [left; apply nocase_sym; exact H|right]. exists a. split; [apply filter_In; split; [exact Ha|apply negb_true_iff, counts_ok; exact K]|].
      apply same_ok, nocase_sym. exact H.
  - split; [trivial|]. intros _. destruct Hd as [->| ->]; [reflexivity|]. apply orb_true_r.
Qed.
Lemma taken_ok : forall st n al layout fin, existsb (design_name_exists st) al = true <-> alias_taken (b_designs st) (s_box n al layout fin).
Proof.
  intros st n al layout fin. rewrite existsb_exists. unfold design_name_exists, alias_taken. split.
  - intros (a & Ha & H). apply existsb_exists in H as (d & Hd & H). exists a, d. split; [exact Ha|]. split; [exact Hd|]. apply has_name_ok. exact H.
  - intros (a & d & Ha & Hd & H). exists a. split; [exact Ha|]. apply existsb_exists. exists d. split; [exact Hd|]. apply has_name_ok. exact H.
Qed.
Lemma name_taken_ok : forall st n al layout fin, design_name_exists st n = true <-> name_taken (b_designs st) (s_box n al layout fin).
Proof.
  intros st n al layout fin. unfold design_name_exists, name_taken. rewrite existsb_exists. split; intros (d & Hd & H); exists d; (split; [exact Hd|apply has_name_ok; exact H]).
Qed.
(** what the parser ends with, seen from outside *)
Definition seen (r : rc pstate) (o : option (list cdesign * list (list N))) : Prop :=
  match r, o with
  | RC_SUCCESS st, Some (ds, ps) | RC_ACCEPT st, Some (ds, ps) => b_designs st = ds /\ b_parents st = ps
  | RC_ABORT, None => True
  | _, _ => False
  end.
Definition ready (st : pstate) : Prop := idle st /\ (full_parse_required po = true \/ b_designs st = []).
Lemma quiet_ready : forall st s, ready st -> quiet po fopen_ok sur st s -> exists st', do_stmt st s = Ok (RC_SUCCESS st') /\ ready st' /\ b_designs st' = b_designs st /\ b_parents st' = b_parents st.
Proof. intros st s [I F] (st' & E & I' & D & P). exists st'. split; [exact E|]. split; [split; [exact I'|rewrite D; exact F]|]. split; assumption. Qed.
Lemma parents_step : forall st p, ready st -> ready (add_parent st p) /\ b_designs (add_parent st p) = b_designs st /\
  (In p (b_parents st) -> b_parents (add_parent st p) = b_parents st) /\ (~ In p (b_parents st) -> b_parents (add_parent st p) = b_parents st ++ [p]).
Proof.
  intros st p [I F]. unfold add_parent. destruct (existsb (Neq_list p) (b_parents st)) eqn:E.
  - split; [split; assumption|]. split; [reflexivity|]. split; [reflexivity|]. intros H. exfalso. apply H. apply existsb_exists in E as (q & Hq & E). apply neq_list_ok in E. subst q. exact Hq.
  - split; [split; assumption|]. split; [reflexivity|]. split; [|reflexivity]. intros H. exfalso.
    assert (T : existsb (Neq_list p) (b_parents st) = true); [|congruence]. apply existsb_exists. exists p. split; [exact H|]. apply neq_list_ok. reflexivity.
Qed.
Lemma void_box : forall n al layout fin, void (s_box n al layout fin) <->
  layout = [] \/ layout_of n al layout = Ok RC_ERROR \/ exists st3, layout_of n al layout = Ok (RC_SUCCESS st3) /\ negb (same_nocase n fin) || (num_mandatory st3 <? 3) = true.
Proof.
  intros n al layout fin. unfold Spec_File.void. rewrite (fatal_box sur), (alone_box fopen_ok sur). destruct layout as [|i l] eqn:El.
  - cbn [is_nil]. split; [auto|]. intros _. split; [reflexivity|]. intros [F _]. congruence.
  - rewrite <- El. assert (Hne : layout <> []) by (rewrite El; discriminate). assert (En : is_nil layout = false) by (rewrite El; reflexivity). clear El. rewrite En.
    destruct (layout_of n al layout) as [[st3| | |st3]| | | |] eqn:Ei; split.
    all: try (intros [F _]; discriminate F).
    all: try (intros [F|[F|(x & F & _)]]; [contradiction|discriminate F|discriminate F]).
    + intros [H _]. right. right. exists st3. split; [reflexivity|]. destruct (_ || _); [reflexivity|discriminate H].
    + intros [F|[F|(x & F & H)]]; [contradiction|discriminate F|]. injection F as <-. rewrite H. split; [reflexivity|]. intros [_ F]. discriminate F.
    + intros _. right. left. reflexivity.
    + intros _. split; [reflexivity|]. intros [_ F]. discriminate F.
    + intros [_ F]. elim F. split; [exact Hne|reflexivity].
    + intros _. elim (do_items_accept _ _ _ _ _ _ Ei).
Qed.
Lemma yields_box : forall n al layout fin d, yields (s_box n al layout fin) d <->
  layout <> [] /\ exists st3, layout_of n al layout = Ok (RC_SUCCESS st3) /\ negb (same_nocase n fin) || (num_mandatory st3 <? 3) = false /\ curdes st3 = d.
Proof.
  intros n al layout fin d. unfold Spec_File.yields. rewrite (alone_box fopen_ok sur). destruct layout as [|i l] eqn:El.
  - cbn [is_nil]. split; [discriminate|]. intros [F _]. congruence.
  - rewrite <- El. assert (Hne : layout <> []) by (rewrite El; discriminate). assert (En : is_nil layout = false) by (rewrite El; reflexivity). clear El. rewrite En.
    destruct (layout_of n al layout) as [[st3| | |st3]| | | |] eqn:Ei; split; try discriminate; try (intros (_ & x & F & _); discriminate F).
    + intros H. split; [exact Hne|]. exists st3. split; [reflexivity|]. destruct (_ || _); [discriminate H|]. split; [reflexivity|]. injection H as H. exact H.
    + intros (_ & x & F & H & Hc). injection F as <-. rewrite H, Hc. reflexivity.
Qed.
Lemma is_not_nil : forall (A : Type) (l : list A), l <> [] -> is_nil l = false.
Proof. intros A [|x l] H; [congruence|reflexivity]. Qed.

Lemma says_fwd : forall l st r, ready st -> do_stmts st l = Ok r -> exists o, file_says (b_designs st) (b_parents st) l o /\ seen r o.
Proof.
  induction l as [|s l IH]; intros st r R H; cbn [Model_Parser.do_stmts] in H.
  - injection H as <-. exists (Some (b_designs st, b_parents st)). split; [constructor|split; reflexivity].
  - assert (Q : quiet po fopen_ok sur st s -> exists o, file_says (b_designs st) (b_parents st) l o /\ seen r o).
    { intros q. destruct (quiet_ready st s R q) as (st' & E & R' & D & P). rewrite E in H. cbn [bind] in H. destruct (IH st' r R' H) as (o & A & B). rewrite D, P in A. eauto. }
    destruct s as [f|n al layout fin|al|].
    + pose proof (parent_step po fopen_ok sur st f (proj1 R)) as X. pose proof (alone_parent fopen_ok sur f) as Y.
      destruct (parent_value fopen_ok sur f) as [[p|]| | | |]; try (rewrite X in H; discriminate H).
      * destruct X as (X & _). rewrite X in H. cbn [bind] in H. destruct (parents_step st p R) as (R' & D & P1 & P2). destruct (IH _ r R' H) as (o & A & B). exists o. split; [|exact B].
        rewrite D in A. destruct (in_dec (list_eq_dec N.eq_dec) p (b_parents st)) as [Hi|Hi].
        -- rewrite (P1 Hi) in A. eapply fs_known; eassumption.
        -- rewrite (P2 Hi) in A. eapply fs_new; eassumption.
      * destruct (Q X) as (o & A & B). exists o. split; [|exact B]. apply fs_void; [|exact A]. split; [exact Y|]. intros [[] _].
    + destruct (existsb (design_name_exists st) al) eqn:Ea.
      { destruct (Q (box_alias po fopen_ok sur st n al layout fin (proj1 R) Ea)) as (o & A & B). exists o. split; [|exact B]. apply fs_alias; [|exact A]. apply taken_ok. exact Ea. }
      assert (Na : ~ alias_taken (b_designs st) (s_box n al layout fin)) by (intros F; apply taken_ok in F; congruence).
      pose proof (box_rest po fopen_ok sur st n al layout fin (proj1 R) Ea) as X.
      destruct (needed po (b_designs st) n al) eqn:En; cbn [negb orb] in X.
      2:{ destruct (Q X) as (o & A & B). exists o. split; [|exact B]. apply fs_unwanted; [|exact A]. intros W. apply (wanted_ok (b_designs st)) in W; [congruence|exact (proj2 R)]. }
      assert (W : wanted (s_box n al layout fin)) by (apply (wanted_ok (b_designs st)); [exact (proj2 R)|exact En]).
      destruct (is_nil layout) eqn:El.
      { destruct (Q X) as (o & A & B). exists o. split; [|exact B]. apply fs_void; [|exact A]. apply void_box. left. destruct layout; [reflexivity|discriminate El]. }
      assert (Hne : layout <> []) by (intros ->; discriminate El). fold (layout_of n al layout) in X.
      destruct (layout_of n al layout) as [[st3| | |st3]| | | |] eqn:Ei; try contradiction; try (rewrite X in H; discriminate H).
      * destruct (negb (same_nocase n fin) || (num_mandatory st3 <? 3)) eqn:Eb; cbn [orb] in X.
        { destruct (Q X) as (o & A & B). exists o. split; [|exact B]. apply fs_void; [|exact A]. apply void_box. right. right. exists st3. split; assumption. }
        assert (Y : yields (s_box n al layout fin) (curdes st3)) by (apply yields_box; split; [exact Hne|]; exists st3; auto).
        destruct (design_name_exists st n) eqn:Ex.
        { destruct (Q X) as (o & A & B). exists o. split; [|exact B]. eapply fs_name; [exact Y| |exact A]. apply name_taken_ok. exact Ex. }
        destruct X as (st' & E & I' & D & P). destruct (full_parse_required po) eqn:Ef.
        -- rewrite E in H. cbn [bind] in H. destruct (IH st' r) as (o & A & B); [split; [exact I'|left; exact Ef]|exact H|]. rewrite D, P in A. exists o. split; [|exact B].
           eapply fs_take; [apply full_everything; exact Ef|exact Y|exact Na| |exact A]. intros F. apply name_taken_ok in F. congruence.
        -- rewrite E in H. cbn [bind] in H. injection H as <-. destruct (proj2 R) as [F|F]; [congruence|]. rewrite F in *. exists (Some ([curdes st3], b_parents st)). split; [|split; [exact D|exact P]].
           apply fs_last; [intros T; apply full_everything in T; congruence|exact Y|exact W].
      * destruct (Q X) as (o & A & B). exists o. split; [|exact B]. apply fs_void; [|exact A]. apply void_box. right. left. exact Ei.
      * rewrite X in H. cbn [bind] in H. injection H as <-. exists None. split; [|exact Logic.I]. apply fs_fatal; [|exact W|exact Na]. apply fatal_box. split; assumption.
    + destruct (Q (other_step po fopen_ok sur st (s_bad_id al) (proj1 R) Logic.I)) as (o & A & B). exists o. split; [|exact B]. apply fs_void; [|exact A]. split; [apply alone_other; exact Logic.I|intros [[] _]].
    + destruct (Q (other_step po fopen_ok sur st s_junk (proj1 R) Logic.I)) as (o & A & B). exists o. split; [|exact B]. apply fs_void; [|exact A]. split; [apply alone_other; exact Logic.I|intros [[] _]].
Qed.
Lemma says_bwd : forall ds ps l o, file_says ds ps l o -> forall st, ready st -> b_designs st = ds -> b_parents st = ps -> exists r, do_stmts st l = Ok r /\ seen r o.
Proof.
  intros ds ps l o H. induction H as [ds ps|ds ps s l o Hv _ IH|ds ps s p l o Hn Hp _ IH|ds ps s p l o Hn Hp _ IH|ds ps s l o Hw _ IH|ds ps s l o Ha _ IH|ds ps s d l o Hy Ha _ IH|ds ps s d l o He Hy Ha Hn _ IH|ps s d l He Hy Hw|ds ps s l Hf Hw Ha];
    intros st R D P; cbn [Model_Parser.do_stmts].
  - exists (RC_SUCCESS st). split; [reflexivity|split; assumption].
  - assert (Q : quiet po fopen_ok sur st s); [|destruct (quiet_ready st s R Q) as (st' & E & R' & D' & P'); rewrite E; cbn [bind]; apply IH; congruence].
    destruct s as [f|n al layout fin|al|]; try (apply other_step; [exact (proj1 R)|exact Logic.I]).
    + destruct Hv as [Hv _]. rewrite alone_parent in Hv. pose proof (parent_step po fopen_ok sur st f (proj1 R)) as X.
      destruct (parent_value fopen_ok sur f) as [[p|]| | | |]; try discriminate Hv. exact X.
    + apply void_box in Hv. destruct (existsb (design_name_exists st) al) eqn:Ea; [apply box_alias; [exact (proj1 R)|exact Ea]|].
      pose proof (box_rest po fopen_ok sur st n al layout fin (proj1 R) Ea) as X. fold (layout_of n al layout) in X.
      destruct (negb (needed po (b_designs st) n al)); [exact X|]. cbn [orb] in X. destruct (is_nil layout) eqn:El; [exact X|].
      destruct Hv as [->|[Hv|(st3 & Hv & Hb)]]; [discriminate El|rewrite Hv in X; exact X|]. rewrite Hv, Hb in X. exact X.
  - destruct s as [f|n al layout fin|al|]; unfold Spec_File.names_file in Hn.
    + rewrite alone_parent in Hn. pose proof (parent_step po fopen_ok sur st f (proj1 R)) as X. destruct (parent_value fopen_ok sur f) as [[q|]| | | |]; try discriminate Hn. injection Hn as ->.
      destruct X as (X & _). rewrite X. cbn [bind]. destruct (parents_step st p R) as (R' & D' & _ & P2). apply IH; [exact R'|congruence|]. rewrite P2; [congruence|rewrite P; exact Hp].
    + rewrite alone_box in Hn. destruct (is_nil layout); [discriminate Hn|]. destruct (layout_of n al layout) as [[st3| | |st3]| | | |]; try discriminate Hn. destruct (_ || _) in Hn; discriminate Hn.
    + rewrite alone_other in Hn by exact Logic.I. discriminate Hn.
    + rewrite alone_other in Hn by exact Logic.I. discriminate Hn.
  - destruct s as [f|n al layout fin|al|]; unfold Spec_File.names_file in Hn.
    + rewrite alone_parent in Hn. pose proof (parent_step po fopen_ok sur st f (proj1 R)) as X. destruct (parent_value fopen_ok sur f) as [[q|]| | | |]; try discriminate Hn. injection Hn as ->.
      destruct X as (X & _). rewrite X. cbn [bind]. destruct (parents_step st p R) as (R' & D' & P1 & _). apply IH; [exact R'|congruence|]. rewrite P1; [congruence|rewrite P; exact Hp].
    + rewrite alone_box in Hn. destruct (is_nil layout); [discriminate Hn|]. destruct (layout_of n al layout) as [[st3| | |st3]| | | |]; try discriminate Hn. destruct (_ || _) in Hn; discriminate Hn.
    + rewrite alone_other in Hn by exact Logic.I. discriminate Hn.
    + rewrite alone_other in Hn by exact Logic.I. discriminate Hn.
  - assert (Q : quiet po fopen_ok sur st s); [|destruct (quiet_ready st s R Q) as (st' & E & R' & D' & P'); rewrite E; cbn [bind]; apply IH; congruence].
    destruct s as [f|n al layout fin|al|]; try (elim Hw; unfold Spec_File.wanted; destruct (choice po); exact Logic.I).
    destruct (existsb (design_name_exists st) al) eqn:Ea; [apply box_alias; [exact (proj1 R)|exact Ea]|].
    pose proof (box_rest po fopen_ok sur st n al layout fin (proj1 R) Ea) as X. destruct (needed po (b_designs st) n al) eqn:En; [|exact X].
    elim Hw. apply (wanted_ok (b_designs st)); [exact (proj2 R)|exact En].
  - assert (Q : quiet po fopen_ok sur st s); [|destruct (quiet_ready st s R Q) as (st' & E & R' & D' & P'); rewrite E; cbn [bind]; apply IH; congruence].
    destruct s as [f|n al layout fin|al|]; try (destruct Ha; fail). apply box_alias; [exact (proj1 R)|]. rewrite <- D in Ha. apply taken_ok in Ha. exact Ha.
  - assert (Q : quiet po fopen_ok sur st s); [|destruct (quiet_ready st s R Q) as (st' & E & R' & D' & P'); rewrite E; cbn [bind]; apply IH; congruence].
    destruct s as [f|n al layout fin|al|]; try (destruct Ha; fail). apply yields_box in Hy as (Hne & st3 & Hi & Hb & _).
    destruct (existsb (design_name_exists st) al) eqn:Ea; [apply box_alias; [exact (proj1 R)|exact Ea]|].
    pose proof (box_rest po fopen_ok sur st n al layout fin (proj1 R) Ea) as X. fold (layout_of n al layout) in X. rewrite (is_not_nil _ _ Hne), Hi in X.
    destruct (negb (needed po (b_designs st) n al)); [exact X|]. cbn [orb] in X. rewrite <- D in Ha. apply name_taken_ok in Ha. rewrite Ha, orb_true_r in X. exact X.
  - destruct s as [f|n al layout fin|al|]; unfold Spec_File.yields in Hy.
    + rewrite alone_parent in Hy. destruct (parent_value fopen_ok sur f) as [[q|]| | | |]; discriminate Hy.
    + apply yields_box in Hy as (Hne & st3 & Hi & Hb & Hc). destruct (existsb (design_name_exists st) al) eqn:Ea; [elim Ha; rewrite <- D; apply taken_ok; exact Ea|].
      pose proof (box_rest po fopen_ok sur st n al layout fin (proj1 R) Ea) as X. fold (layout_of n al layout) in X. rewrite (is_not_nil _ _ Hne), Hi, Hb in X.
      apply full_everything in He. unfold needed in X. destruct (choice po) as [c|] eqn:Ec; [unfold full_parse_required in He; rewrite Ec in He; discriminate He|]. rewrite He in X. cbn [orb negb] in X.
      destruct (design_name_exists st n) eqn:Ex; [elim Hn; rewrite <- D; apply name_taken_ok; exact Ex|]. destruct X as (st' & E & I' & D' & P'). rewrite E. cbn [bind].
      apply IH; [split; [exact I'|left; exact He]|congruence|congruence].
    + rewrite alone_other in Hy by exact Logic.I. discriminate Hy.
    + rewrite alone_other in Hy by exact Logic.I. discriminate Hy.
  - destruct s as [f|n al layout fin|al|]; unfold Spec_File.yields in Hy.
    + rewrite alone_parent in Hy. destruct (parent_value fopen_ok sur f) as [[q|]| | | |]; discriminate Hy.
    + apply yields_box in Hy as (Hne & st3 & Hi & Hb & Hc). pose proof (box_rest po fopen_ok sur st n al layout fin (proj1 R) (no_names st al D)) as X.
      fold (layout_of n al layout) in X. rewrite (is_not_nil _ _ Hne), Hi, Hb in X. rewrite (proj2 (wanted_ok (b_designs st) n al layout fin (or_intror D)) Hw) in X. cbn [orb negb] in X.
      assert (Ex : design_name_exists st n = false) by (unfold design_name_exists; rewrite D; reflexivity). rewrite Ex in X. destruct X as (st' & E & I' & D' & P').
      destruct (full_parse_required po) eqn:Ef; [elim He; apply full_everything; exact Ef|]. rewrite E. cbn [bind]. exists (RC_ACCEPT st'). split; [reflexivity|].
      split; [rewrite D', D, Hc; reflexivity|congruence].
    + rewrite alone_other in Hy by exact Logic.I. discriminate Hy.
    + rewrite alone_other in Hy by exact Logic.I. discriminate Hy.
  - destruct s as [f|n al layout fin|al|]; try (destruct Hf as [[] _]; fail). apply fatal_box in Hf as (Hne & Hi).
    destruct (existsb (design_name_exists st) al) eqn:Ea; [elim Ha; rewrite <- D; apply taken_ok; exact Ea|].
    pose proof (box_rest po fopen_ok sur st n al layout fin (proj1 R) Ea) as X. fold (layout_of n al layout) in X. rewrite (is_not_nil _ _ Hne), Hi in X.
    rewrite (proj2 (wanted_ok (b_designs st) n al layout fin (proj2 R)) Hw) in X. cbn [orb negb] in X. rewrite X. cbn [bind]. exists RC_ABORT. split; [reflexivity|exact Logic.I].
Qed.
Lemma ready0 : ready pstate0.
Proof. split; [apply idle_init|right; reflexivity]. Qed.
Theorem exact : forall l r, parse_config_file U beyond po eol children fopen_ok sur (Some l) = Ok r <->
  exists o, file_says [] [] l o /\ r = match o with Some x => x | None => ([], []) end.
Proof.
  intros l r. cbn [Model_Parser.parse_config_file].
  assert (K : forall x o, seen x o -> match x with
      | RC_SUCCESS st => if is_nil (b_designs st) && match choice po with None => is_nil (b_parents st) | Some _ => false end then Ok ([], []) else Ok (b_designs st, b_parents st)
      | RC_ACCEPT st => Ok (b_designs st, b_parents st) | _ => Ok ([], []) end = Ok match o with Some x => x | None => ([], []) end).
  { intros [st| | |st] [[ds ps]|] S; cbn [seen] in S; try contradiction; try reflexivity; destruct S as [<- <-]; try reflexivity.
    destruct (b_designs st); [|reflexivity]. cbn [is_nil andb]. destruct (choice po); [reflexivity|]. destruct (b_parents st); reflexivity. }
  split.
  - intros H. destruct (do_stmts pstate0 l) as [x| | | |] eqn:E; cbn [bind] in H; try discriminate H. destruct (says_fwd l pstate0 x ready0 E) as (o & A & B).
    exists o. split; [exact A|]. rewrite (K x o B) in H. injection H as <-. reflexivity.
  - intros (o & A & ->). destruct (says_bwd [] [] l o A pstate0 ready0 eq_refl eq_refl) as (x & E & B). rewrite E. cbn [bind]. apply K. exact B.
Qed.
End All.
End File.
