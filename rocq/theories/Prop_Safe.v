(** * Reading configuration files is safe: C67 *)
From Coq Require Import Ascii String List Arith NArith ZArith Bool Lia.
From Verif Require Import Base BaseFacts Model_Unicode Model_Bxs Model_Shape Spec_Str Proof_Str Proof_BxsOps Proof_BxsMore Proof_Shows Spec_Design Demo Prop_Str
  Model_Regex Model_Query Model_Discovery Spec_Discovery Prop_Discovery Model_Input Model_Generate Model_Main Model_Parser Spec_Parser Prop_Parser Proof_Parser2 Proof_Parser3
  Model_Lexer Spec_Lexer Prop_Lexer Model_Scan Spec_Config Prop_Config Model_Cmdline Model_Cld Model_List Model_Program Proof_Tags Spec_Safe Proof_Safe Proof_SafeText Proof_Query Proof_Shipped Shipped.
Import ListNotations.
Local Open Scope nat_scope.
Local Open Scope list_scope.

Definition global_known (U : uctab) (sur : surroundings) : Prop := forall s f, In s (global_steps sur) -> gives sur s f -> speakable U f.
Lemma known_found : forall U sur, global_known U sur -> exists r, discover_config_file U sur true = Ok r /\ forall g, r = Some g -> file_opens sur (memory g) = true.
Proof.
  intros U sur H. destruct (C49_global U sur H) as (r & E & Hr). exists r. split; [exact E|]. intros g ->.
  destruct (proj1 (Hr (memory g)) eq_refl) as (s & _ & G). destruct s as [p|d|]; cbn [gives] in G.
  - destruct G as [[_ G] ->]. exact G.
  - destruct G as (_ & n & F & I1).
    assert (F' : exists p, inside d n p /\ is_file sur p) by (clear -F; induction F; assumption). destruct F' as (p & I2 & _ & O).
    assert (p = memory g) as <-; [|exact O]. destruct I1 as [(d1 & E1 & ->)|(N1 & ->)], I2 as [(d2 & E2 & ->)|(N2 & ->)]; try reflexivity; [destruct (N2 d1 E1)|destruct (N1 d2 E2)].
  - destruct G.
Qed.

(** Whatever the statements are: no memory error occurs. *)
Theorem C67_statements : forall U s po eol children fopen_ok sur stmts, uctab_ok U -> Forall (legal U) (10%N :: eol) -> global_known U sur ->
  Forall (legal_stmt U) stmts -> exists ds ps, parse_config_file U (Ok s) po eol children fopen_ok sur (Some stmts) = Ok (ds, ps).
Proof.
  intros U s po eol children fopen_ok sur stmts HU He Hg H. inversion He; subst. destruct (known_found U sur Hg) as (r & E & _).
  destruct (parse_safe U HU (Ok s) (ex_intro _ s eq_refl) po eol ltac:(assumption) ltac:(assumption) children fopen_ok sur (ex_intro _ r E) stmts H) as [[ds ps] Ed]. eauto.
Qed.
(** Whatever the text is: no memory error occurs. Numbers are converted with atoi, which is undefined if they are too big. *)
Theorem C67_text : forall U s po eol children fopen_ok sur text, uctab_ok U -> Forall (legal U) (10%N :: eol) -> global_known U sur ->
  ~ In 0%N text -> Forall (legal U) text ->
  match parse_config_text U (Ok s) po eol children fopen_ok sur (Some text) with
  | Ok _ => True
  | UB => exists a b, text = a ++ b /\ big_number b
  | Err => exists a k b, text = a ++ k ++ b /\ spells "parent" k /\ lone_cr b
  | Wrap | Fuel => False
  end.
Proof.
  intros U s po eol children fopen_ok sur text HU He Hg H0 Hc. pose proof (C62_total text H0) as T. unfold parse_config_text.
  destruct (read_statements text) as [l| | | |] eqn:E; try exact T. cbn [bind].
  destruct (C67_statements U s po eol children fopen_ok sur l HU He Hg (read_legal U text l E H0 Hc)) as (ds & ps & ->). exact I.
Qed.
Lemma legal_ordinary : forall U c, uctab_ok U -> legal U c -> c <> 27%N -> ordinary U c.
Proof.
  intros U c HU (H9 & Ha & _) H27. right. exists (columns (term_width U) [Vis c]). exists [Vis c].
  repeat split; try assumption; try (repeat constructor; fail); try discriminate; try (constructor; [exact Ha|constructor]); try (intros [F|[]]; congruence).
Qed.
Lemma sound_parse : forall U s po eol children fopen_ok sur text, uctab_ok U -> Forall (legal U) (10%N :: eol) -> global_known U sur -> sound_text U text ->
  exists ds ps, parse_config_text U (Ok s) po eol children fopen_ok sur (Some text) = Ok (ds, ps) /\ (~ In 27%N text -> Forall (fun d => wf_design U (to_design d)) ds).
Proof.
  intros U s po eol children fopen_ok sur text HU He Hg (H0 & Hc & Hb & Hp). pose proof (C67_text U s po eol children fopen_ok sur text HU He Hg H0 Hc) as T.
  destruct (parse_config_text U (Ok s) po eol children fopen_ok sur (Some text)) as [[ds ps]| | | |] eqn:E; try contradiction.
  - exists ds, ps. split; [reflexivity|]. intros H27. eapply Forall_impl; [|eapply C61_wellformed; [exact HU|exact H0| |exact E]].
    + intros d [W _]. exact W.
    + apply Forall_forall. intros c Hin. rewrite Forall_forall in Hc. apply legal_ordinary; [exact HU|apply Hc, Hin|]. intros ->. contradiction.
  - destruct T as (a & k & b & E1 & E2 & E3). destruct (Hp a k b E1 E2 E3).
  - destruct T as (a & b & E1 & E2). destruct (Hb a b E1 E2).
Qed.

(** A configuration file with its parents. All files that can be read are sound; there are finitely many of them. *)
Definition sound_world (U : uctab) (w : world) (files : list (list N)) : Prop :=
  (exists s, w_beyond w = Ok s) /\ global_known U (w_sur w) /\
  (forall f, w_can_read w f = true \/ file_opens (w_sur w) f = true -> In f files) /\
  (forall f, In f files -> sound_text U (w_contents w f)).
Lemma known_with : forall U sur f, global_known U sur -> global_known U (sur_with sur f).
Proof. intros U sur f H s p Hs G. exact (H s p Hs G). Qed.
Theorem C67_files : forall U fuel w files g first, uctab_ok U -> Forall (legal U) (10%N :: o_eol (g_out g)) -> sound_world U w files -> S (List.length files) <= fuel ->
  load_designs U fuel w g first = Err \/
  exists ds ps, load_designs U fuel w g first = Ok (ds, ps) /\ ds <> [] /\ incl ps files /\
    ((forall f, In f files -> ~ In 27%N (w_contents w f)) -> Forall (fun d => wf_design U (to_design d)) ds).
Proof.
  intros U fuel w files g first HU He ((s & Hb) & Hg & Hf & Ht) Hfuel. unfold load_designs. rewrite Hb. set (sur := sur_with _ _).
  set (W := fun d => (forall f, In f files -> ~ In 27%N (w_contents w f)) -> wf_design U (to_design d)).
  assert (Hk : global_known U sur) by (apply known_with; exact Hg).
  set (parse := fun f before => parse_config_text U (Ok s) (popts_of g) (o_eol (g_out g)) before (w_can_read w) sur (if w_can_read w f then Some (w_contents w f) else None)).
  assert (P : forall f before, exists ds ps, parse f before = Ok (ds, ps) /\ Forall W ds /\ forall p, In p ps -> In p files).
  { intros f before. unfold parse. destruct (w_can_read w f) eqn:Ef.
    - destruct (sound_parse U s (popts_of g) (o_eol (g_out g)) before (w_can_read w) sur (w_contents w f) HU He Hk) as (ds & ps & E & HW); [apply Ht, Hf; left; exact Ef|].
      exists ds, ps. split; [exact E|]. split.
      { apply Forall_forall. intros d Hd H27. specialize (HW (H27 f (Hf f (or_introl Ef)))). rewrite Forall_forall in HW. apply HW, Hd. } intros p Hp. unfold parse_config_text in E. destruct (read_statements (w_contents w f)) as [l| | | |]; try discriminate. cbn [bind] in E.
      apply parse_open in E. rewrite Forall_forall in E. destruct (E p Hp) as [K|(g0 & K1 & <-)]; [apply Hf; left; exact K|].
      destruct (known_found U sur Hk) as (r & Er & Ho). rewrite Er in K1. injection K1 as ->. apply Hf. right. exact (Ho g0 eq_refl).
    - exists [], []. split; [reflexivity|]. split; [constructor|]. intros p []. }
  assert (Inv : forall fuel file k known result r known', Forall W result -> incl known files ->
    parse_loop parse fuel file k known result = Ok (r, known') -> Forall W r /\ incl known' files).
  { clear fuel Hfuel. induction fuel as [|fuel IH]; intros file k known result r known' Hr Hkn E; [discriminate|]. cbn [parse_loop] in E.
    destruct (P file result) as (ds & ps & E1 & HW & I1). rewrite E1 in E. cbn [bind] in E.
    assert (Hkn' : incl (record_parent_config_files known ps) files).
    { unfold record_parent_config_files. assert (G : forall l kn, incl l files -> incl kn files -> incl (fold_left (fun k0 p => if existsb (Neq_list p) k0 then k0 else k0 ++ [p]) l kn) files).
      { induction l as [|x l IHl]; intros kn Hl Hn; [exact Hn|]. cbn [fold_left]. apply IHl; [intros y Hy; apply Hl; right; exact Hy|].
        destruct (existsb _ kn); [exact Hn|]. apply incl_app; [exact Hn|]. intros y [<-|[]]. apply Hl. left. reflexivity. }
      apply G; [|exact Hkn]. intros p Hp. apply I1. apply in_rev. exact Hp. }
    assert (Hr' : Forall W (copy_designs result ds)).
    { unfold copy_designs. destruct result as [|d0 res0]; [exact HW|].
      assert (G : forall l r0, Forall W l -> Forall W r0 ->
        Forall W (fold_left (fun r d => if designs_contain r d then r else r ++ [d]) l r0)).
      { induction l as [|x l IHl]; intros r0 Hl Hr0; [exact Hr0|]. inversion Hl; subst. cbn [fold_left]. apply IHl; [assumption|]. destruct (designs_contain r0 x); [exact Hr0|].
        apply Forall_app. split; [exact Hr0|]. constructor; [assumption|constructor]. }
      apply G; assumption. }
    destruct (nth_error _ k) as [next|]; [eapply IH; eassumption|]. injection E as <- <-. auto. }
  destruct (loop_ends parse files) with (fuel := fuel) (file := first) (k := 0) (known := @nil (list N)) (result := @nil cdesign) as (r & known' & E).
  - intros f before. destruct (P f before) as (ds & ps & E1 & _ & I1). exists ds, ps. auto.
  - constructor.
  - intros p [].
  - apply Nat.le_refl.
  - lia.
  - fold parse. rewrite E. cbn [bind]. destruct (Inv _ _ _ _ _ _ _ (Forall_nil _) (incl_nil_l _) E) as [I1 I2].
    destruct r as [|d r]; [left; reflexivity|]. right. exists (d :: r), known'. split; [reflexivity|]. split; [discriminate|]. split; [exact I2|].
    intros H27. eapply Forall_impl; [|exact I1]. intros d0 Hd. exact (Hd H27).
Qed.

(** ** A check for texts *)
Definition is_digit (c : N) : bool := ((48 <=? c) && (c <=? 57))%N.
Fixpoint runs (k : nat) (s : list N) : bool :=
  match s with [] => true | c :: r => if is_digit c then (k <? 9) && runs (S k) r else runs 0 r end.
Lemma runs_less : forall s k j, j <= k -> runs k s = true -> runs j s = true.
Proof.
  induction s as [|c s IH]; intros k j Hj H; [reflexivity|]. cbn [runs] in *. destruct (is_digit c); [|exact H].
  apply andb_true_iff in H as [H1 H2]. apply Nat.ltb_lt in H1. apply andb_true_iff. split; [apply Nat.ltb_lt; lia|]. eapply IH; [|exact H2]. lia.
Qed.
Lemma runs_behind : forall a k b, runs k (a ++ b) = true -> runs 0 b = true.
Proof.
  induction a as [|c a IH]; intros k b H; [eapply runs_less; [|exact H]; lia|]. cbn [app runs] in H. destruct (is_digit c); [|eapply IH; exact H].
  apply andb_true_iff in H as [_ H]. eapply IH; exact H.
Qed.
Lemma digits_fits : forall ds v, Spec_Config.digits ds = Some v -> (0 <= v < 10 ^ Z.of_nat (List.length ds))%Z /\ forall k r, runs k (ds ++ r) = true -> ds = [] \/ k + List.length ds <= 9.
Proof.
  induction ds as [|c ds IH]; intros v E; cbn [Spec_Config.digits] in E.
  - injection E as <-. split; [cbn; lia|]. auto.
  - destruct (Spec_Config.digits ds) as [u|]; [|discriminate]. destruct (IH u eq_refl) as [B R]. destruct ((48 <=? c) && (c <=? 57))%N eqn:D; [|discriminate]. injection E as <-.
    apply andb_true_iff in D as [D1 D2]. apply N.leb_le in D1, D2. split.
    + cbn [List.length]. rewrite Nat2Z.inj_succ, Z.pow_succ_r by lia. nia.
    + intros k r H. right. cbn [app runs] in H. unfold is_digit in H. rewrite (proj2 (N.leb_le _ _) D1), (proj2 (N.leb_le _ _) D2) in H. cbn [andb] in H.
      apply andb_true_iff in H as [H1 H2]. apply Nat.ltb_lt in H1. destruct (R _ _ H2) as [->|L]; cbn [List.length]; lia.
Qed.
Lemma runs_small : forall s, runs 0 s = true -> forall a b, s = a ++ b -> ~ big_number b.
Proof.
  intros s H a b -> (sg & ds & r & v & -> & E & B). apply runs_behind in H. apply runs_behind in H. destruct (digits_fits ds v E) as [V R].
  assert (L : List.length ds <= 9) by (destruct (R _ _ H) as [->|L]; [cbn; lia|lia]).
  assert (P : (10 ^ Z.of_nat (List.length ds) <= 10 ^ 9)%Z) by (apply Z.pow_le_mono_r; lia). change (10 ^ 9)%Z with 1000000000%Z in P. unfold too_big in B. lia.
Qed.
(** the characters of the text that are not plain ASCII are given as a list, so that a table need only be consulted for these *)
Definition common (more : list N) (c : N) : bool := ((c =? 10) || (c =? 27) || ((32 <=? c) && (c <=? 126)))%N || existsb (N.eqb c) more.
Lemma sound_check : forall U more s, uctab_ok U -> forallb (fun c => (128 <=? c)%N) more = true -> (forall c, In c more -> uc_is_cntrl U c = false) ->
  (forall c, In c (10 :: 27 :: more)%N -> uc_is_blank U c = false) ->
  forallb (common more) s && runs 0 s = true -> sound_text U s.
Proof.
  intros U more s HU Hm HV HB H. apply andb_true_iff in H as [H R]. rewrite forallb_forall in H, Hm.
  assert (C : forall c, In c s -> c = 10%N \/ c = 27%N \/ (32 <= c <= 126)%N \/ In c more).
  { intros c Hc. specialize (H c Hc). unfold common in H. rewrite !orb_true_iff, andb_true_iff, !N.eqb_eq, !N.leb_le, existsb_exists in H.
    destruct H as [[[H|H]|H]|(x & Hx & E)]; auto. apply N.eqb_eq in E as ->. auto. }
  assert (B : forall c, In c more -> (128 <= c)%N) by (intros c Hc; apply N.leb_le, Hm, Hc).
  assert (P : forall c, (32 <= c <= 126)%N -> is_ascii_printable c = true) by (intros c Hc; unfold is_ascii_printable; apply andb_true_iff; split; [apply N.leb_le|apply N.ltb_lt || apply N.leb_le]; lia).
  split; [|split; [|split]].
  - intros F. destruct (C _ F) as [E|[E|[E|E]]]; try lia. specialize (B _ E). lia.
  - apply Forall_forall. intros c Hc. unfold legal, is_allowed_anywhere, char_tab, char_cr, char_newline, char_esc. destruct (C c Hc) as [->|[->|[E|E]]].
    + rewrite (HB 10%N) by (left; reflexivity). rewrite !orb_true_r. repeat split; discriminate.
    + rewrite (HB 27%N) by (right; left; reflexivity). rewrite !orb_true_r. repeat split; discriminate.
    + rewrite (ok_cntrl U HU c (P c E)). split; [lia|]. split; [reflexivity|]. intros _. apply (ok_width U HU c (P c E)).
    + specialize (B c E). rewrite (HV c E), (HB c) by (right; right; exact E). repeat split; [lia|discriminate].
  - exact (runs_small s R).
  - intros a k b E _ (r & -> & _). destruct (C 13%N) as [F|[F|[F|F]]]; try lia; [|specialize (B _ F); lia]. rewrite E, !in_app_iff. right. right. left. reflexivity.
Qed.
(** ** Why each condition is there *)
(** a tab in a string: its width is negative, and the string is built with that *)
Definition tab_text : list N := txt "BOX a
sample
x
ends
shapes { n (""" ++ 9%N :: txt """) }
elastic (n)
END a
".
Theorem C67_tabs_refuted : exists U text, uctab_ok U /\ ~ In 0%N text /\ (forall c, In c text -> c <> 9%N -> legal U c) /\ (forall a b, text = a ++ b -> ~ big_number b) /\
  parse_config_text U (Ok sentry0) po_all [10%N] [] (fun _ => true) no_sur (Some text) = UB.
Proof.
  exists demo_tab, tab_text. split; [exact demo_tab_ok|].
  assert (S : sound_text demo_tab (filter (fun c => negb (N.eqb c 9)) tab_text)).
  { apply (sound_check demo_tab []); [exact demo_tab_ok|reflexivity|intros c []| |vm_compute; reflexivity]. intros c [<-|[<-|[]]]; reflexivity. }
  destruct S as (_ & S2 & _). split; [vm_compute; intuition discriminate|]. split; [|split].
  - intros c Hc H9. rewrite Forall_forall in S2. apply S2. apply filter_In. split; [exact Hc|]. apply negb_true_iff, N.eqb_neq, H9.
  - apply runs_small. vm_compute. reflexivity.
  - vm_compute. reflexivity.
Qed.
(** three wide blanks before the name of a parent: bxs_trim takes columns for characters *)
Definition wide_text : list N := txt "parent " ++ [12288; 12288; 12288; 97; 10]%N.
Theorem C67_wide_blanks_refuted : exists U text, uctab_ok U /\ (forall c, In c text -> c <> 12288%N -> legal U c) /\ legal U 97 /\ is_allowed_anywhere U 12288 = true /\
  parse_config_text U (Ok sentry0) po_all [10%N] [] (fun _ => true) no_sur (Some text) = UB.
Proof.
  exists demo_tab, wide_text. split; [exact demo_tab_ok|].
  assert (S : sound_text demo_tab (filter (fun c => negb (N.eqb c 12288)) wide_text)).
  { apply (sound_check demo_tab []); [exact demo_tab_ok|reflexivity|intros c []| |vm_compute; reflexivity]. intros c [<-|[<-|[]]]; reflexivity. }
  destruct S as (_ & S2 & _). rewrite Forall_forall in S2. split; [|split; [|split]].
  - intros c Hc H9. apply S2. apply filter_In. split; [exact Hc|]. apply negb_true_iff, N.eqb_neq, H9.
  - apply S2. vm_compute. tauto.
  - reflexivity.
  - vm_compute. reflexivity.
Qed.

(** ** The file that comes with the program is a sound text, whatever the table says about other characters *)
Definition shipped_more : list N := [9472; 9473; 9474; 9475; 9482; 9483; 9484; 9487; 9488; 9491; 9492; 9495; 9496; 9499; 9548; 9549; 9552; 9553; 9556; 9559; 9562; 9565; 9581; 9582; 9583; 9584; 9600; 9604; 9608]%N.
Lemma shipped_common : forallb (common shipped_more) boxes_config && runs 0 boxes_config = true.
Proof. vm_compute. reflexivity. Qed.
Theorem C67_shipped : forall V, sound_text (drawing_tab V) boxes_config.
Proof.
  intros V. apply (sound_check (drawing_tab V) shipped_more); [apply drawing_tab_ok|reflexivity| | |exact shipped_common].
  - intros c Hc. assert (F : forallb (fun c => drawing c && negb (c <? 128)%N) shipped_more = true) by reflexivity. rewrite forallb_forall in F. specialize (F c Hc).
    apply andb_true_iff in F as [F1 F2]. apply negb_true_iff in F2. cbn [drawing_tab uc_is_cntrl]. rewrite F1, F2. reflexivity.
  - intros c [<-|[<-|Hc]]; [reflexivity|reflexivity|]. assert (F : forallb (fun c => drawing c && negb (c <? 128)%N) shipped_more = true) by reflexivity. rewrite forallb_forall in F. specialize (F c Hc).
    apply andb_true_iff in F as [F1 F2]. apply negb_true_iff in F2. cbn [drawing_tab uc_is_blank]. rewrite F1, F2. reflexivity.
Qed.

(** ** Examples *)
Lemma no_sur_known : forall U, global_known U no_sur.
Proof. intros U s f Hs G. cbn in Hs. repeat (destruct Hs as [<-|Hs]; [cbn in G; try contradiction; destruct G as [G1 G2]; try destruct G1; try discriminate|]); contradiction. Qed.
Example C67_text_example : sound_text demo_tab demo_text /\ global_known demo_tab no_sur /\ Forall (legal demo_tab) [10%N; 13%N; 10%N].
Proof.
  split; [apply (sound_check demo_tab []); [exact demo_tab_ok|reflexivity|intros c []| |vm_compute; reflexivity]; intros c [<-|[<-|[]]]; reflexivity|].
  split; [apply no_sur_known|]. repeat constructor; discriminate.
Qed.
(** a file and its parent, which names the first one as its own parent; a third name is not that of a file *)
Definition base_text : list N := txt "parent mine.cfg
BOX plain
sample
<x>
ends
shapes { w (""<"") e ("">"") }
elastic (w,e)
END plain
BOX shell
sample
x
ends
shapes { w (""%"") }
elastic (w)
END shell
".
Definition name_file : list N := txt "mine.cfg".
Definition name_base : list N := txt "/etc/boxes.cfg".
Definition two_files : world := mkWorld
  (fun f => Neq_list f name_file || Neq_list f name_base) (fun _ => true) (fun f => if Neq_list f name_file then demo_text else base_text) [] no_sur false
  (fun _ x => Some x) (fun A _ l => l) (Ok sentry0) (fun _ => []) [] [].
Example C67_files_example : sound_world demo_tab two_files [name_file; name_base] /\
  (forall f, In f [name_file; name_base] -> ~ In 27%N (w_contents two_files f)) /\
  match load_designs demo_tab 3 two_files create_new_opt name_file with
  | Ok (ds, ps) => map c_name ds = [Some (txt "shell"); Some (txt "plain")] /\ ps = [name_base; name_file]
  | _ => False
  end.
Proof.
  assert (S : forall t, forallb (common []) t && runs 0 t = true -> sound_text demo_tab t).
  { intros t H. apply (sound_check demo_tab []); [exact demo_tab_ok|reflexivity|intros c []| |exact H]. intros c [<-|[<-|[]]]; reflexivity. }
  split; [split; [eexists; reflexivity|split; [apply no_sur_known|split]]|split].
  - intros f [H|H]; [|discriminate]. cbn [w_can_read two_files] in H. apply orb_true_iff in H as [H|H]; apply neq_list_ok in H as ->; cbn; auto.
  - intros f [<-|[<-|[]]]; apply S; vm_compute; reflexivity.
  - intros f [<-|[<-|[]]]; vm_compute; intuition discriminate.
  - vm_compute. split; reflexivity.
Qed.

Print Assumptions C67_statements.
Print Assumptions C67_text.
Print Assumptions C67_files.
Print Assumptions C67_shipped.
Print Assumptions C67_tabs_refuted.
Print Assumptions C67_wide_blanks_refuted.
