(** * C76: the design that is drawn when none is named *)
From Coq Require Import Ascii String List Arith NArith ZArith Bool Lia.
From Verif Require Import Base BaseFacts Model_Unicode Model_Bxs Model_Shape Spec_Str Proof_Str Spec_Design Demo
  Model_Query Spec_Query Proof_Query Model_Discovery Spec_Discovery Model_Parser Spec_Parser Spec_Grammar Proof_Parser3 Proof_Parser2 Proof_Safe Proof_SafeText Proof_Isolated Prop_Parser Prop_Discovery Spec_File Proof_File Prop_File
  Model_Scan Spec_Safe Model_Cmdline Spec_Options Prop_Options Model_Main Model_Program Spec_Program Prop_Safe Shipped Proof_Shipped Prop_Shipped Prop_Program Prop_Pipe Proof_Pipe Spec_Default Prop_Query Prop_Str Prop_List Prop_Adhoc Prop_Ask.
Import ListNotations.
Local Open Scope nat_scope.
Local Open Scope list_scope.

Section One.
Variable U : uctab.
Hypothesis HU : uctab_ok U.
Variable beyond : res sentry.
Variable eol : list N.
Variable fopen_ok : list N -> bool.
Variable sur : surroundings.
Notation file_says := (file_says U beyond eol [] fopen_ok sur).
Notation yields := (yields U beyond eol [] fopen_ok sur).
Notation gathers := (gathers U beyond eol fopen_ok sur).
Definition any : popts := mkPopts None false.
Definition only (n : list N) : popts := mkPopts (Some n) false.

Lemma gathers_says : forall po ps l qs, gathers ps l qs -> forall l' o, file_says po [] qs l' o -> file_says po [] ps (l ++ l') o.
Proof.
  intros po ps l qs H. induction H as [ps|ps s l qs Hv H IH|ps s p l qs Hn Hp H IH|ps s p l qs Hn Hp H IH]; intros l' o H'; cbn [app].
  - exact H'.
  - apply fs_void; [exact Hv|]. apply IH, H'.
  - eapply fs_new; [exact Hn|exact Hp|]. apply IH, H'.
  - eapply fs_known; [exact Hn|exact Hp|]. apply IH, H'.
Qed.
Lemma says_from : forall dd ps l o, file_says any dd ps l o -> dd = [] ->
  match o with
  | Some ([], qs) => gathers ps l qs
  | Some (d :: r, qs) => r = [] /\ exists before s after, l = before ++ s :: after /\ gathers ps before qs /\ yields s d
  | None => exists s, In s l /\ fatal U beyond eol [] sur s
  end.
Proof.
  intros dd ps l o H. induction H as [ds ps|ds ps s l o Hv H IH|ds ps s p l o Hn Hp H IH|ds ps s p l o Hn Hp H IH|ds ps s l o Hw H IH|ds ps s l o Ha H IH|ds ps s d l o Hy Hn H IH|ds ps s d l o He Hy Ha Hn H IH|ps s d l He Hy Hw|ds ps s l Hf Hw Ha]; intros Eds; subst.
  - apply ga_end.
  - specialize (IH eq_refl). destruct o as [[[|d r] qs]|].
    + apply ga_void; assumption.
    + destruct IH as (-> & b & x & a & -> & G & Y). split; [reflexivity|]. exists (s :: b), x, a. split; [reflexivity|]. split; [apply ga_void; assumption|exact Y].
    + destruct IH as (x & Hx & Fx). exists x. split; [right; exact Hx|exact Fx].
  - specialize (IH eq_refl). destruct o as [[[|d r] qs]|].
    + eapply ga_new; eassumption.
    + destruct IH as (-> & b & x & a & -> & G & Y). split; [reflexivity|]. exists (s :: b), x, a. split; [reflexivity|]. split; [eapply ga_new; eassumption|exact Y].
    + destruct IH as (x & Hx & Fx). exists x. split; [right; exact Hx|exact Fx].
  - specialize (IH eq_refl). destruct o as [[[|d r] qs]|].
    + eapply ga_known; eassumption.
    + destruct IH as (-> & b & x & a & -> & G & Y). split; [reflexivity|]. exists (s :: b), x, a. split; [reflexivity|]. split; [eapply ga_known; eassumption|exact Y].
    + destruct IH as (x & Hx & Fx). exists x. split; [right; exact Hx|exact Fx].
  - elim Hw. exact Logic.I.
  - exfalso. destruct s; try contradiction. destruct Ha as (x & d & _ & [] & _).
  - exfalso. destruct s; try contradiction. destruct Hn as (d' & [] & _).
  - destruct He as [_ He]. discriminate He.
  - split; [reflexivity|]. exists [], s, l. split; [reflexivity|]. split; [apply ga_end|exact Hy].
  - exists s. split; [left; reflexivity|exact Hf].
Qed.
Definition says_any ps l o (H : file_says any [] ps l o) := says_from [] ps l o H eq_refl.
Lemma sub_in : forall (A : Type) (l m : list A), subseq l m -> incl l m.
Proof. intros A l m H. induction H; intros y Hy; cbn [In] in *; intuition. Qed.
Lemma yields_wanted : forall s d n, yields s d -> called d n -> Spec_File.wanted [] (only n) s.
Proof.
  intros s d n Y C. unfold Spec_File.yields, alone_in_file in Y. destruct (designs_alone _ _ _ _ _ _ _ _ _ _ Y) as (ss & Hs & F).
  inversion F as [|x y lx ly [_ M] F' E1 E2]; subst. inversion F'; subst. assert (x = s). { assert (I : In x [s]) by (apply (sub_in _ _ _ Hs); left; reflexivity). destruct I as [->|[]]. reflexivity. } subst x.
  destruct M as (m & al & lay & fin & -> & _ & _ & Nm & Al). cbn [Spec_File.wanted only choice]. destruct C as [(m' & E & C)|(a & Ha & C)].
  - left. rewrite Nm in E. injection E as <-. exact C.
  - right. exists a. split; [apply Al, Ha|]. split; [intros d' x []|exact C].
Qed.
(** the same file read with and without -d *)
Lemma read_both : forall l ds ps, parse_config_file U beyond any eol [] fopen_ok sur (Some l) = Ok (ds, ps) -> (forall s, In s l -> ~ fatal U beyond eol [] sur s) ->
  match ds with
  | [] => gathers [] l ps /\ forall n, parse_config_file U beyond (only n) eol [] fopen_ok sur (Some l) = Ok ([], ps)
  | d :: r => r = [] /\ (exists before s after, l = before ++ s :: after /\ gathers [] before ps /\ yields s d) /\
      forall n, called d n -> parse_config_file U beyond (only n) eol [] fopen_ok sur (Some l) = Ok ([d], ps)
  end.
Proof.
  intros l ds ps H NF. apply C66_exact in H; [|exact HU]. destruct H as (o & H & E). apply says_any in H. destruct o as [[ds' ps']|].
  2:{ destruct H as (s & Hs & Hf). elim (NF s Hs Hf). }
  injection E as -> ->. destruct ds' as [|d r].
  - split; [exact H|]. intros n. apply C66_exact; [exact HU|]. exists (Some ([], ps')). split; [|reflexivity]. rewrite <- (app_nil_r l). eapply gathers_says; [exact H|]. apply fs_end.
  - destruct H as (-> & b & s & a & -> & G & Y). split; [reflexivity|]. split; [exists b, s, a; auto|]. intros n C. apply C66_exact; [exact HU|]. exists (Some ([d], ps')). split; [|reflexivity].
    eapply gathers_says; [exact G|]. apply fs_last; [intros [F _]; discriminate F|exact Y|]. eapply yields_wanted; eassumption.
Qed.
End One.

(** ** Several files *)
Lemma head_kept : forall parse fuel f k known d r ds kn, parse_loop parse fuel f k known (d :: r) = Ok (ds, kn) -> exists r', ds = d :: r'.
Proof.
  intros parse. induction fuel as [|fuel IH]; intros f k known d r ds kn H; [discriminate H|]. cbn [parse_loop] in H. destruct (parse f (d :: r)) as [[ds0 ps]| | | |]; try discriminate H. cbn [bind] in H.
  assert (C : exists r0, copy_designs (d :: r) ds0 = d :: r0).
  { cbn [copy_designs]. clear H. generalize r. induction ds0 as [|x l IHl]; intros r0; [exists r0; reflexivity|]. cbn [fold_left]. destruct (designs_contain (d :: r0) x); [apply IHl|]. exact (IHl (r0 ++ [x])). }
  destruct C as (r0 & C). rewrite C in H. destruct (nth_error _ k); [eapply IH; exact H|]. injection H as <- _. exists r0. reflexivity.
Qed.
Lemma record_new : forall ps known, exists new, fold_left (fun k p => if existsb (Neq_list p) k then k else k ++ [p]) ps known = known ++ new /\ beyond_known known ps new.
Proof.
  induction ps as [|p ps IH]; intros known; cbn [fold_left]; [exists []; split; [rewrite app_nil_r; reflexivity|constructor]|].
  destruct (existsb (Neq_list p) known) eqn:E.
  - destruct (IH known) as (new & -> & B). exists new. split; [reflexivity|]. apply bk_old; [|exact B]. apply existsb_exists in E as (q & Hq & E). apply neq_list_ok in E. subst q. exact Hq.
  - destruct (IH (known ++ [p])) as (new & -> & B). exists (p :: new). split; [rewrite <- app_assoc; reflexivity|]. apply bk_new; [|exact B].
    intros F. assert (T : existsb (Neq_list p) known = true) by (apply existsb_exists; exists p; split; [exact F|apply neq_list_ok; reflexivity]). congruence.
Qed.
Section Several.
Variable U : uctab.
Hypothesis HU : uctab_ok U.
Variable beyond : res sentry.
Variable eol : list N.
Variable fopen_ok : list N -> bool.
Variable contents : list N -> list N.
Variable sur : surroundings.
Definition reading (po : popts) (f : list N) (before : list cdesign) : res (list cdesign * list (list N)) :=
  parse_config_text U beyond po eol before fopen_ok sur (if fopen_ok f then Some (contents f) else None).
Definition nothing_fatal : Prop := forall f l s, fopen_ok f = true -> read_statements (contents f) = Ok l -> In s l -> ~ fatal U beyond eol [] sur s.
Hypothesis NF : nothing_fatal.
Notation finds := (finds U beyond eol fopen_ok contents sur).

Lemma file_both : forall f ds ps, reading any f [] = Ok (ds, ps) ->
  match ds with
  | [] => none_in U beyond eol fopen_ok contents sur f ps /\ forall n, reading (only n) f [] = Ok ([], ps)
  | d :: r => r = [] /\ first_in U beyond eol fopen_ok contents sur f d /\ forall n, called d n -> reading (only n) f [] = Ok ([d], ps)
  end.
Proof.
  intros f ds ps H. unfold reading in *. destruct (fopen_ok f) eqn:Ef; cbn [parse_config_text] in *.
  - destruct (read_statements (contents f)) as [l| | | |] eqn:El; try discriminate H. cbn [bind] in *.
    pose proof (read_both U HU beyond eol fopen_ok sur l ds ps H (fun s => NF f l s Ef El)) as B. destruct ds as [|d r].
    + destruct B as [B1 B2]. split; [right; split; [exact Ef|exists l; auto]|exact B2].
    + destruct B as (B1 & (b & s & a & -> & G & Y) & B3). split; [exact B1|]. split; [|exact B3]. split; [exact Ef|]. exists b, s, a, ps. auto.
  - cbn [parse_config_file] in *. injection H as <- <-. split; [left; auto|]. reflexivity.
Qed.
Lemma skipn_nth : forall (A : Type) k (l : list A) x, nth_error l k = Some x -> skipn k l = x :: skipn (S k) l.
Proof. intros A. induction k as [|k IH]; intros [|y l] x H; try discriminate H; [injection H as ->; reflexivity|]. cbn [skipn]. rewrite (IH l x H). reflexivity. Qed.
Lemma loop_both : forall fuel f k known d r kn, parse_loop (reading any) fuel f k known [] = Ok (d :: r, kn) -> k <= List.length known ->
  finds known (skipn k known) f d /\ forall n ds' kn', called d n -> parse_loop (reading (only n)) fuel f k known [] = Ok (ds', kn') -> exists r', ds' = d :: r'.
Proof.
  induction fuel as [|fuel IH]; intros f k known d r kn H Hk; [discriminate H|]. cbn [parse_loop] in *. destruct (reading any f []) as [[ds ps]| | | |] eqn:E; try discriminate H. cbn [bind] in H.
  pose proof (file_both f ds ps E) as B. destruct ds as [|d0 r0].
  - destruct B as [B1 B2]. cbn [copy_designs] in *. destruct (record_new (rev ps) known) as (new & En & Hn).
    destruct (nth_error (record_parent_config_files known ps) k) as [next|] eqn:Ek; [|discriminate H].
    assert (Hk' : S k <= List.length (record_parent_config_files known ps)) by (apply nth_error_Some; congruence). destruct (IH _ _ _ _ _ _ H Hk') as [F1 F2]. split.
    + apply skipn_nth in Ek. unfold record_parent_config_files in Ek, F1. rewrite En in Ek, F1. eapply fi_later; [exact B1|exact Hn| |exact F1].
      rewrite <- Ek. rewrite skipn_app. replace (k - List.length known) with 0 by lia. reflexivity.
    + intros n ds' kn' C H'. rewrite B2 in H'. cbn [bind copy_designs] in H'. rewrite Ek in H'. eapply F2; eassumption.
  - destruct B as (-> & B1 & B2). cbn [copy_designs] in H. assert (X : exists r1, d :: r = d0 :: r1).
    { destruct (nth_error _ k); [eapply head_kept; exact H|]. injection H as -> <- _. exists []. reflexivity. }
    destruct X as (r1 & X). injection X as <- _. split; [apply fi_here; exact B1|].
    intros n ds' kn' C H'. rewrite (B2 n C) in H'. cbn [bind copy_designs] in H'. destruct (nth_error _ k); [eapply head_kept; exact H'|]. injection H' as <- _. exists []. reflexivity.
Qed.
End Several.

(** ** The program *)
Definition naming (n : list N) (g : settings) : settings := with_src g (mkSource (c_cld (g_src g)) (Some n) true (c_file (g_src g))).
Lemma items_naming : forall n items g a g', do_items g a items = Ok (g', false) -> do_items g a (items ++ [ItD n]) = Ok (naming n g', false).
Proof.
  intros n. induction items as [|i items IH]; intros g a g' H; cbn [app do_items] in *; [injection H as ->; reflexivity|].
  destruct (do_item g a i) as [[[g1 a1] stop]| | | |]; try discriminate H. cbn [bind] in *. destruct stop; [discriminate H|]. apply IH. exact H.
Qed.
Lemma naming_meant : forall n items g, meant items g -> meant (items ++ [ItD n]) (naming n g).
Proof. intros n items g H. apply meant_ok, items_naming, meant_ok, H. Qed.
Lemma naming_draws : forall n items, asks_to_draw items -> asks_to_draw (items ++ [ItD n]).
Proof. intros n items H i Hi. apply in_app_or in Hi as [Hi|[<-|[]]]; [exact (H i Hi)|exact Logic.I]. Qed.
(** the command line asks to draw and does not name a design; the configuration files are sound *)
Record default_run (U : uctab) (w : world) (items : list Model_Cmdline.item) (rest : list (list N)) (g : settings) (fs : files) (known_files : list (list N)) : Prop := {
  df_meant : meant items g;
  df_opened : opened (w_can_read w) (w_can_write w) rest fs;
  df_draw : asks_to_draw items;
  df_unnamed : forall n, ~ In (ItD n) items;
  df_places : plain_places (seen w (c_file (g_src g)));
  df_world : sound_world U w known_files;
  df_breaks : legal U 10 /\ legal U 13
}.
Lemma popts_any : forall items g, meant items g -> asks_to_draw items -> (forall n, ~ In (ItD n) items) -> popts_of g = any.
Proof.
  intros items g M D Hn. pose proof (draws _ _ M D) as S. unfold popts_of. rewrite (dg_list g S), (dg_query g S), (dg_remove g S).
  destruct (c_by_user (g_src g)) eqn:E; [|reflexivity]. apply (mt_by_user _ _ M) in E as (arg & [E|E]); [destruct (D _ E)|destruct (Hn _ E)].
Qed.
Lemma popts_only : forall g n, drawing_settings g -> popts_of (naming n g) = only n.
Proof. intros g n S. unfold popts_of, naming, with_src. cbn [g_src g_rem g_mode c_by_user c_design]. rewrite (dg_list g S), (dg_query g S), (dg_remove g S). reflexivity. Qed.
Lemma loop_total : forall U, uctab_ok U -> forall fuel w files g po first, Forall (legal U) (10%N :: o_eol (g_out g)) -> sound_world U w files -> S (List.length files) <= fuel ->
  exists ds kn, parse_loop (fun f before => parse_config_text U (w_beyond w) po (o_eol (g_out g)) before (w_can_read w) (seen w (c_file (g_src g))) (if w_can_read w f then Some (w_contents w f) else None)) fuel first 0 [] [] = Ok (ds, kn).
Proof.
  intros U HU fuel w files g po first He ((s & Hb) & Hg & Hf & Ht) Hfuel. rewrite Hb. set (sur := seen _ _). assert (Hk : global_known U sur) by (apply (known_with U (w_sur w)); exact Hg).
  apply (loop_ends _ files); [|constructor|intros p []|apply Nat.le_refl|lia]. intros f before. destruct (w_can_read w f) eqn:Ef; [|exists [], []; split; [reflexivity|intros p []]].
  destruct (sound_parse U s po (o_eol (g_out g)) before (w_can_read w) sur (w_contents w f) HU He Hk) as (ds & ps & E & _); [apply Ht, Hf; left; exact Ef|]. exists ds, ps. split; [exact E|].
  intros p Hp. unfold parse_config_text in E. destruct (read_statements (w_contents w f)) as [l| | | |]; try discriminate E. cbn [bind] in E.
  apply parse_open in E. rewrite Forall_forall in E. destruct (E p Hp) as [K|(g0 & K1 & <-)]; [apply Hf; left; exact K|].
  destruct (known_found U sur Hk) as (r & Er & Ho). rewrite Er in K1. injection K1 as ->. apply Hf. right. exact (Ho g0 eq_refl).
Qed.
Theorem C76_default : forall U fuel w items rest g fs known_files, uctab_ok U -> default_run U w items rest g fs known_files -> S (List.length known_files) <= fuel ->
  nothing_fatal U (w_beyond w) (o_eol (g_out g)) (w_can_read w) (w_contents w) (seen w (c_file (g_src g))) ->
  main U fuel w false items rest = Ok Failure \/
  exists f d, config_file_is (seen w (c_file (g_src g))) f /\ finds U (w_beyond w) (o_eol (g_out g)) (w_can_read w) (w_contents w) (seen w (c_file (g_src g))) [] [] f d /\
    forall n, called d n -> main U fuel w false items rest = main U fuel w false (items ++ [ItD n]) rest.
Proof.
  intros U fuel w items rest g fs files HU R Hf NF. destruct R as [M O D Hn Pl W Br]. pose proof (draws _ _ M D) as Sg. pose proof (breaks_legal U items g M Br) as He.
  rewrite (main_started U fuel w items rest g fs M O). unfold handle_config_parsing. change (sur_with (w_sur w) (c_file (g_src g))) with (seen w (c_file (g_src g))).
  destruct (discovered U _ HU Pl) as (r & Er & Hr). rewrite Er. cbn [bind]. destruct r as [file|]; [|left; reflexivity]. rewrite (dg_cld g Sg).
  destruct (C67_files U fuel w files g (memory file) HU He W Hf) as [->|(ds & ps & Eds & Hds & _)]; [left; reflexivity|]. right. rewrite Eds. cbn [bind or_exit].
  destruct ds as [|d ds]; [congruence|]. exists (memory file), d. split; [apply Hr; reflexivity|].
  assert (L : parse_loop (reading U (w_beyond w) (o_eol (g_out g)) (w_can_read w) (w_contents w) (seen w (c_file (g_src g))) any) fuel (memory file) 0 [] [] = Ok (d :: ds, ps)).
  { unfold load_designs in Eds. rewrite (popts_any items g M D Hn) in Eds. unfold reading. change (sur_with (w_sur w) (c_file (g_src g))) with (seen w (c_file (g_src g))) in Eds.
    destruct (parse_loop _ _ _ _ _ _) as [[[|d1 r1] kn]| | | |]; try discriminate Eds. exact Eds. }
  destruct (loop_both U HU (w_beyond w) (o_eol (g_out g)) (w_can_read w) (w_contents w) (seen w (c_file (g_src g))) NF fuel (memory file) 0 [] d ds ps L (Nat.le_refl 0)) as [F1 F2].
  split; [exact F1|]. intros n C. rewrite (main_started U fuel w (items ++ [ItD n]) rest (naming n g) fs (naming_meant n items g M) O). unfold handle_config_parsing.
  change (sur_with (w_sur w) (c_file (g_src (naming n g)))) with (seen w (c_file (g_src g))). rewrite Er. cbn [bind]. change (c_cld (g_src (naming n g))) with (c_cld (g_src g)). rewrite (dg_cld g Sg).
  pose proof (draws _ _ (naming_meant n items g M) (naming_draws n items D)) as Sg'.
  assert (L' : exists r' ps', load_designs U fuel w (naming n g) (memory file) = Ok (d :: r', ps')).
  { unfold load_designs. change (sur_with (w_sur w) (c_file (g_src (naming n g)))) with (seen w (c_file (g_src g))). rewrite (popts_only g n Sg). change (o_eol (g_out (naming n g))) with (o_eol (g_out g)).
    specialize (F2 n). unfold reading in F2.
    destruct (loop_total U HU fuel w files g (only n) (memory file) He W Hf) as (ds' & kn' & E'). rewrite E'. destruct (F2 ds' kn' C E') as (r' & ->). exists r', kn'. reflexivity. }
  destruct L' as (r' & ps' & ->). cbn [bind or_exit]. rewrite (dg_list _ Sg), (dg_query _ Sg), (dg_list _ Sg'), (dg_query _ Sg'). rewrite work_draws, work_draws by assumption. reflexivity.
Qed.
Print Assumptions C76_default.

(** ** The shipped configuration file *)
Definition every : popts := mkPopts None true.
Lemma says_grow : forall U beyond eol fopen_ok sur po ds ps l o, file_says U beyond eol [] fopen_ok sur po ds ps l o -> match o with Some (ds', ps') => incl ps ps' /\ (ds <> [] -> exists r, ds' = ds ++ r) | None => True end.
Proof.
  intros U beyond eol fopen_ok sur po ds ps l o H. induction H as [ds ps|ds ps s l o Hv H IH|ds ps s p l o Hn Hp H IH|ds ps s p l o Hn Hp H IH|ds ps s l o Hw H IH|ds ps s l o Ha H IH|ds ps s d l o Hy Hn H IH|ds ps s d l o He Hy Ha Hn H IH|ps s d l He Hy Hw|ds ps s l Hf Hw Ha];
    try exact IH; try exact Logic.I.
  - split; [apply incl_refl|]. intros _. exists []. rewrite app_nil_r. reflexivity.
  - destruct o as [[ds' ps']|]; [|exact Logic.I]. destruct IH as [I1 I2]. split; [|exact I2]. intros x Hx. apply I1, in_or_app. left. exact Hx.
  - destruct o as [[ds' ps']|]; [|exact Logic.I]. destruct IH as [I1 I2]. split; [exact I1|]. intros Hd. destruct (I2 ltac:(intros F; destruct ds; discriminate F)) as (r & ->). exists (d :: r). rewrite <- app_assoc. reflexivity.
  - split; [apply incl_refl|]. intros F. congruence.
Qed.
Lemma says_every : forall U beyond eol fopen_ok sur dd ps l o, file_says U beyond eol [] fopen_ok sur every dd ps l o -> dd = [] ->
  match o with Some (d :: r, qs) => exists ps', incl ps' qs /\ file_says U beyond eol [] fopen_ok sur any [] ps l (Some ([d], ps')) | _ => True end.
Proof.
  intros U beyond eol fopen_ok sur dd ps l o H. induction H as [ds ps|ds ps s l o Hv H IH|ds ps s p l o Hn Hp H IH|ds ps s p l o Hn Hp H IH|ds ps s l o Hw H IH|ds ps s l o Ha H IH|ds ps s d l o Hy Hn H IH|ds ps s d l o He Hy Ha Hn H IH|ps s d l He Hy Hw|ds ps s l Hf Hw Ha];
    intros Eds; subst.
  - exact Logic.I.
  - specialize (IH eq_refl). destruct o as [[[|d r] qs]|]; try exact Logic.I. destruct IH as (ps' & Hi & IH). exists ps'. split; [exact Hi|]. apply fs_void; assumption.
  - specialize (IH eq_refl). destruct o as [[[|d r] qs]|]; try exact Logic.I. destruct IH as (ps' & Hi & IH). exists ps'. split; [exact Hi|]. eapply fs_new; eassumption.
  - specialize (IH eq_refl). destruct o as [[[|d r] qs]|]; try exact Logic.I. destruct IH as (ps' & Hi & IH). exists ps'. split; [exact Hi|]. eapply fs_known; eassumption.
  - elim Hw. exact Logic.I.
  - exfalso. destruct s; try contradiction. destruct Ha as (x & d & _ & [] & _).
  - exfalso. destruct s; try contradiction. destruct Hn as (d' & [] & _).
  - apply says_grow in H. destruct o as [[[|d' r] qs]|]; try exact Logic.I. destruct H as [H1 H2]. destruct (H2 ltac:(discriminate)) as (r' & E). injection E as -> _. exists ps. split; [exact H1|].
    apply fs_last; [intros [_ F]; discriminate F|exact Hy|exact Logic.I].
  - elim He. split; reflexivity.
  - exact Logic.I.
Qed.
Lemma first_of_every : forall U beyond eol fopen_ok sur l d r, uctab_ok U -> parse_config_file U beyond every eol [] fopen_ok sur (Some l) = Ok (d :: r, []) ->
  parse_config_file U beyond any eol [] fopen_ok sur (Some l) = Ok ([d], []).
Proof.
  intros U beyond eol fopen_ok sur l d r HU H. apply C66_exact in H; [|exact HU]. destruct H as (o & H & E). apply says_every in H; [|reflexivity]. destruct o as [[ds' ps']|]; [|discriminate E]. injection E as <- <-.
  destruct H as (ps' & Hi & H). apply C66_exact; [exact HU|]. exists (Some ([d], [])). split; [|reflexivity]. destruct ps' as [|p ps']; [exact H|]. destruct (Hi p (or_introl eq_refl)).
Qed.
Lemma first_of_text : forall U beyond eol fopen_ok sur text d r, uctab_ok U -> parse_config_text U beyond every eol [] fopen_ok sur (Some text) = Ok (d :: r, []) ->
  parse_config_text U beyond any eol [] fopen_ok sur (Some text) = Ok ([d], []).
Proof.
  intros U beyond eol fopen_ok sur text d r HU H. unfold parse_config_text in *. destruct (read_statements text) as [l| | | |]; try discriminate H. cbn [bind] in *. eapply first_of_every; eassumption.
Qed.
(** a drawing run without -d that finds the shipped configuration file *)
Record default_shipped_run (w : world) (items : list Model_Cmdline.item) (g : settings) : Prop := {
  ds_meant : meant items g;
  ds_draw : asks_to_draw items;
  ds_unnamed : forall n, ~ In (ItD n) items;
  ds_indent : r_indent (g_rem g) = 0%N;
  ds_eol : o_eol (g_out g) = [10%N];
  ds_places : plain_places (seen w (c_file (g_src g)));
  ds_file : exists f, config_file_is (seen w (c_file (g_src g))) f /\ w_can_read w f = true /\ w_contents w f = boxes_config;
  ds_beyond : exists s, w_beyond w = Ok s /\ isempty s = true
}.
Lemma shipped_named : forall w items g n, default_shipped_run w items g -> shipped_run w (items ++ [ItD n]) (naming n g) n.
Proof.
  intros w items g n []. constructor; try assumption; [apply naming_meant; assumption|apply naming_draws; assumption|reflexivity].
Qed.
Lemma default_file : forall V fuel w g f text d ds s, 1 <= fuel -> w_can_read w f = true -> w_contents w f = text -> o_eol (g_out g) = [10%N] -> w_beyond w = Ok s ->
  popts_of g = any -> load_shipped V (w_can_read w) (seen w (c_file (g_src g))) (Ok s) text = Ok (d :: ds, []) -> load_designs (drawing_tab V) fuel w g f = Ok ([d], []).
Proof.
  intros V fuel w g f text d ds s Hf F2 F3 He Hs Po El. unfold load_designs. change (sur_with (w_sur w) (c_file (g_src g))) with (seen w (c_file (g_src g))).
  destruct fuel as [|fuel]; [lia|]. cbn [parse_loop]. rewrite F2, F3, He, Hs, Po. unfold load_shipped in El. rewrite (first_of_text _ _ _ _ _ _ _ _ (drawing_tab_ok V) El). reflexivity.
Qed.
Theorem C76_shipped : forall V w items g fuel, default_shipped_run w items g -> 1 <= fuel ->
  exists d ds, load_shipped V (w_can_read w) (seen w (c_file (g_src g))) (w_beyond w) boxes_config = Ok (d :: ds, []) /\ name_of d = "c"%string /\
    forall n, called d n -> shipped_run w (items ++ [ItD n]) (naming n g) n /\
      main (drawing_tab V) fuel w false items [] = main (drawing_tab V) fuel w false (items ++ [ItD n]) [].
Proof.
  intros V w items g fuel R Hf. destruct (ds_beyond _ _ _ R) as (s & Hs & Hse). destruct (ds_file _ _ _ R) as (f & F1 & F2 & F3).
  pose proof (fun n => shipped_named w items g n R) as SR.
  pose proof (C63_loaded V (w_can_read w) (seen w (c_file (g_src g))) s Hse) as C63. pose proof (default_file V fuel w g f boxes_config) as DF.
  pose proof (fun n ds d => shipped_draws V w (items ++ [ItD n]) (naming n g) n fuel ds d (SR n) Hf) as SD. cbn [naming with_src g_src c_file] in SD. rewrite Hs in *.
  destruct R as [M D Hn Hi He Pl _ _]. pose proof (draws _ _ M D) as Sg.
  assert (X : exists d ds, load_shipped V (w_can_read w) (seen w (c_file (g_src g))) (Ok s) boxes_config = Ok (d :: ds, []) /\ name_of d = "c"%string).
  { clear -C63. generalize dependent boxes_config. intros text (ds & E & Nm & _). destruct ds as [|d ds]; [discriminate Nm|]. exists d, ds. split; [exact E|]. unfold shipped_names in Nm. cbn [map] in Nm. injection Nm as Nm _. exact Nm. }
  clear C63. destruct X as (d & ds & El & Nm). exists d, ds. split; [exact El|]. split; [exact Nm|]. intros n C. split; [exact (SR n)|].
  clear SR. rewrite (SD n (d :: ds) d El (or_introl eq_refl) C). specialize (DF d ds s Hf F2 F3 He eq_refl (popts_any items g M D Hn) El). clear SD El F3.
  rewrite (main_started (drawing_tab V) fuel w items [] g (Files None None) M (op_none _ _)). unfold handle_config_parsing.
  change (sur_with (w_sur w) (c_file (g_src g))) with (seen w (c_file (g_src g))).
  destruct (discovered (drawing_tab V) _ (drawing_tab_ok V) Pl) as (r & -> & Hr). cbn [bind]. apply Hr in F1. destruct r as [file|]; [|discriminate F1]. injection F1 as F1. rewrite (dg_cld g Sg).
  rewrite F1, DF. cbn [bind or_exit]. rewrite (dg_list _ Sg), (dg_query _ Sg), work_draws by exact Sg. rewrite Hi, He. reflexivity.
Qed.
Print Assumptions C76_shipped.

(** ** A design that ends the reading of its file is passed over when another one is asked for *)
Definition name_p : list N := txt "p.cfg".
Definition name_q : list N := txt "q.cfg".
Definition three_files (a p q text : list N) : world := mkWorld
  (fun f => Neq_list f name_file || Neq_list f name_p || Neq_list f name_q) (fun _ => false)
  (fun f => if Neq_list f name_file then a else if Neq_list f name_p then p else q) text
  (mkSur (fun f => Neq_list f name_file) (fun _ => false) None None None None (txt "/usr/share/boxes")) false
  (fun _ x => Some x) isort (Ok sentry0) (fun _ => []) (txt "Usage") (txt "Version").
Definition top_text : list N := txt "parent p.cfg
parent q.cfg
".
Definition p_text : list N := txt "BOX good, fine
sample
x
ends
shapes { w (""<"") e ("">"") }
elastic (w,e)
END good
".
Definition q_text (c : N) : list N := txt "BOX bad
sample
x
ends
shapes { w (""%"") }
elastic (w)
replace """ ++ c :: txt """ with ""y""
END bad
BOX good
sample
x
ends
shapes { w (""%"") }
elastic (w)
END good
".
Theorem C76_fatal_refuted : exists w items n g d ds file ps, meant items g /\ asks_to_draw items /\ (forall m, ~ In (ItD m) items) /\
  handle_config_parsing demo_tab 40 w g = Ok (d :: ds, file, ps) /\ called d n /\
  shown (main demo_tab 40 w false items []) = "<x>"%string /\ shown (main demo_tab 40 w false (items ++ [ItD n]) []) = "%x"%string.
Proof.
  set (w := three_files top_text p_text (q_text 7) (txt "x")). exists w, [ItF name_file], (txt "good"), (meaning [ItF name_file]).
  assert (X : exists d ds file ps, handle_config_parsing demo_tab 40 w (meaning [ItF name_file]) = Ok (d :: ds, file, ps) /\ calledb (txt "good") d = true).
  { eexists _, _, _, _. split; [vm_compute; reflexivity|vm_compute; reflexivity]. }
  destruct X as (d & ds & file & ps & E & C). exists d, ds, file, ps. split; [apply meaning_ok; vm_compute; reflexivity|]. split; [intros i [<-|[]]; exact Logic.I|]. split; [intros m [F|[]]; discriminate F|].
  split; [exact E|]. split; [apply calledb_ok; exact C|]. split; vm_compute; reflexivity.
Qed.
Print Assumptions C76_fatal_refuted.

(** ** Examples *)
Definition no_fatalb (U : uctab) (beyond : res sentry) (eol : list N) (sur : surroundings) (text : list N) : bool :=
  match read_statements text with
  | Ok l => forallb (fun s => match parse_config_file U beyond (mkPopts None true) eol [] (fun _ => true) sur (Some [s_parent [112%N]; s]) with Ok ([], []) => false | _ => true end) l
  | _ => true
  end.
Lemma no_fatalb_ok : forall U beyond eol sur text l s, no_fatalb U beyond eol sur text = true -> read_statements text = Ok l -> In s l -> ~ fatal U beyond eol [] sur s.
Proof. intros U beyond eol sur text l s H E Hs [_ F]. unfold no_fatalb in H. rewrite E in H. rewrite forallb_forall in H. specialize (H s Hs). rewrite F in H. discriminate H. Qed.
Definition empty_text : list N := txt "# no design here
parent p.cfg
BOX broken
sample
x
ends
END broken
".
Definition default_world : world := three_files top_text p_text empty_text (txt "one
  two
").
Example C76_default_example : let items := [ItF name_file; ItP (txt "h1")] in
  default_run demo_tab default_world items [] (meaning items) (Files None None) [name_file; name_p; name_q] /\
  nothing_fatal demo_tab (w_beyond default_world) (o_eol (g_out (meaning items))) (w_can_read default_world) (w_contents default_world) (seen default_world (c_file (g_src (meaning items)))) /\
  map (fun more => shown (main demo_tab 40 default_world false (items ++ more) [])) [[]; [ItD (txt "Good")]; [ItD (txt "fine")]; [ItD (txt "broken")]] =
    ["< one   >
<   two >
"; "< one   >
<   two >
"; "< one   >
<   two >
"; "failure"]%string.
Proof.
  intros items. assert (T : forall t, forallb (common []) t && runs 0 t = true -> sound_text demo_tab t).
  { intros t H. apply (sound_check demo_tab []); [exact demo_tab_ok|reflexivity|intros c []| |exact H]. intros c [<-|[<-|[]]]; reflexivity. }
  split; [|split; [|vm_compute; reflexivity]].
  - constructor.
    + apply meaning_ok. vm_compute. reflexivity.
    + apply op_none.
    + intros i [<-|[<-|[]]]; exact Logic.I.
    + intros n [F|[F|[]]]; discriminate F.
    + split; [apply printableb_ok; reflexivity|]. intros p [H|[H|[H|H]]]; try discriminate H. injection H as <-. apply printableb_ok. reflexivity.
    + split; [eexists; reflexivity|]. split; [|split].
      * apply places_known; [exact demo_tab_ok|]. split; [apply printableb_ok; reflexivity|]. intros p [H|[H|[H|H]]]; discriminate H.
      * intros f H. destruct H as [H|H]; cbn [default_world three_files w_can_read w_sur file_opens] in H; rewrite ?orb_true_iff in H.
        -- destruct H as [[H|H]|H]; apply neq_list_ok in H as ->; cbn; auto.
        -- apply neq_list_ok in H as ->. left. reflexivity.
      * intros f [<-|[<-|[<-|[]]]]; apply T; vm_compute; reflexivity.
    + split; repeat split; discriminate.
  - intros f l s Hf El Hs. eapply no_fatalb_ok; [|exact El|exact Hs]. clear El Hs. cbn [default_world three_files w_can_read] in Hf. rewrite ?orb_true_iff in Hf.
    destruct Hf as [[H|H]|H]; apply neq_list_ok in H as ->; vm_compute; reflexivity.
Qed.
Example C76_shipped_example : let items := [ItP (txt "a1"); ItS (txt "40x5")] in default_shipped_run (ask_world boxes_config) items (meaning items).
Proof.
  intros items. constructor; try reflexivity.
  - apply meaning_ok. vm_compute. reflexivity.
  - intros i [<-|[<-|[]]]; exact Logic.I.
  - intros n [F|[F|[]]]; discriminate F.
  - split; [apply printableb_ok; reflexivity|]. intros p [H|[H|[H|H]]]; discriminate H.
  - exists global_file. split; [exact ask_found|]. split; reflexivity.
  - exists sentry0. split; reflexivity.
Qed.
