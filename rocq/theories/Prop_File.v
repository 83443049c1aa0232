(** * C66: what a configuration file amounts to *)
From Coq Require Import Ascii String List Arith NArith ZArith Bool Lia.
From Verif Require Import Base BaseFacts Model_Unicode Model_Bxs Model_Shape Spec_Str Proof_Str Proof_Bxs Proof_BxsOps Proof_BxsMore Proof_Body Spec_Design Demo Prop_Str
  Model_Query Spec_Query Proof_Query Model_Discovery Spec_Discovery Model_Parser Spec_Parser Spec_Grammar Proof_Isolated Proof_Fast Proof_Chosen Prop_Parser Prop_Discovery Spec_File Proof_File.
Import ListNotations.
Local Open Scope nat_scope.
Local Open Scope list_scope.

(** The designs and the names of other files that are found are exactly those that the statements give when each is alone,
    gathered in order, less the designs that are not asked for or have a name that an earlier one has; one design suffices unless
    all are asked for; a fatal statement discards everything. *)
Theorem C66_exact : forall U beyond po eol children fopen_ok sur l r, uctab_ok U ->
  parse_config_file U beyond po eol children fopen_ok sur (Some l) = Ok r <->
  exists o, file_says U beyond eol children fopen_ok sur po [] [] l o /\ r = match o with Some x => x | None => ([], []) end.
Proof. intros U beyond po eol children fopen_ok sur l r HU. exact (exact U HU beyond eol children po fopen_ok sur l r). Qed.
Print Assumptions C66_exact.
(** Without -d, when not all designs are asked for: the first good design of the file, and nothing that comes after it, not even
    the names of other files. *)
Theorem C66_first : forall U beyond eol children fopen_ok sur before s d after, uctab_ok U ->
  Forall (void U beyond eol children fopen_ok sur) before -> yields U beyond eol children fopen_ok sur s d ->
  parse_config_file U beyond (mkPopts None false) eol children fopen_ok sur (Some (before ++ s :: after)) = Ok ([d], []).
Proof.
  intros U beyond eol children fopen_ok sur before s d after HU F Y. apply C66_exact; [exact HU|]. exists (Some ([d], [])). split; [|reflexivity].
  induction F as [|b l Hb F IH]; cbn [app]; [|apply fs_void; assumption].
  apply fs_last; [intros [_ E]; discriminate E|exact Y|]. exact I.
Qed.
Print Assumptions C66_first.

(** A reference to another file (without escape sequences; blanks in front take one column): exactly the file it means is noted,
    if there is one. *)
Theorem C66_parent : forall U beyond eol children fopen_ok sur f, uctab_ok U ->
  Forall (fun c => c <> 27%N /\ c <> 9%N /\ is_allowed_anywhere U c = true /\ (uc_is_blank U c = true -> uc_width U c = 1%Z)) f ->
  (forall s p, In s (global_steps sur) -> gives sur s p -> speakable U p) ->
  (forall p, names_file U beyond eol children fopen_ok sur (s_parent f) p <-> means_file U fopen_ok sur f p) /\
  (void U beyond eol children fopen_ok sur (s_parent f) <-> forall p, ~ means_file U fopen_ok sur f p).
Proof.
  intros U beyond eol children fopen_ok sur f HU Hf Hg.
  assert (Hk : okt U f) by (eapply Forall_impl; [|exact Hf]; intros c (A & B & C & _); split; [exact A|split; [exact B|exact C]]).
  assert (Hn : narrow_lead U f).
  { unfold narrow_lead. clear Hg Hk. induction Hf as [|c f (A & B & C & D) Hf IH]; [constructor|]. cbn [lead]. destruct (is_blank U c) eqn:E; [|constructor]. cbn [firstn]. constructor; [|exact IH].
    rewrite blank_is in E by exact B. specialize (D E). unfold char_cols. destruct (is_ascii_printable c); [reflexivity|]. destruct (N.eqb c char_tab); [reflexivity|]. rewrite D. reflexivity. }
  destruct (filename_ok U HU f Hk Hn) as (t & Ht & Hkt & Hs).
  assert (T9 : ~ In 9%N t). { intros F. unfold okt in Hkt. rewrite Forall_forall in Hkt. destruct (Hkt _ F) as (_ & G & _). congruence. }
  pose proof (shadow_global U HU t (Model_Discovery.lit ":global:") (incl_refl _) T9) as G.
  destruct (C49_global U sur Hg) as (g & Eg & Hsearch).
  assert (V : forall p, parent_value U fopen_ok sur f = Ok (Some p) <-> means_file U fopen_ok sur f p).
  { intros p. unfold parent_value. rewrite Ht. cbn [bind]. rewrite parent_pl by exact Hkt. unfold means_file. split.
    - intros H. exists t. split; [exact Hs|]. destruct t as [|c t0] eqn:Et; [discriminate H|]. rewrite <- Et in *. replace (is_nil t) with false in H by (rewrite Et; reflexivity).
      split; [rewrite Et; discriminate|]. destruct (same_nocase (flat_map (char_ascii U) t) _) eqn:E.
      + left. split; [apply G; apply same_ok; exact E|]. rewrite Eg in H. cbn [bind] in H. injection H as H. apply Hsearch. exact H.
      + right. split; [intros F; apply G, same_ok in F; congruence|]. destruct (forallb _ t) eqn:Ef; cbn [andb] in H; [|discriminate H]. destruct (fopen_ok t) eqn:Eo; [|discriminate H]. injection H as <-.
        split; [reflexivity|]. rewrite forallb_forall in Ef. split; [intros F; apply Ef in F; discriminate F|]. split; [intros F; apply Ef in F; discriminate F|reflexivity].
    - intros (u & Hu & Hne & H). assert (E : u = t) by (eapply stripped_unique; eassumption). subst u. destruct t as [|c t0] eqn:Et; [congruence|]. rewrite <- Et in *. replace (is_nil t) with false by (rewrite Et; reflexivity).
      destruct H as [(E & H)|(E & -> & H13 & H10 & Ho)].
      + apply G, same_ok in E. rewrite E, Eg. cbn [bind]. apply Hsearch in H. rewrite H. reflexivity.
      + destruct (same_nocase (flat_map (char_ascii U) t) _) eqn:E2; [elim E; apply G; apply same_ok; exact E2|]. rewrite Ho, andb_true_r.
        replace (forallb _ t) with true; [reflexivity|]. symmetry. apply forallb_forall. intros x Hx. destruct (N.eqb_spec x 13) as [->|]; [contradiction|]. destruct (N.eqb_spec x 10) as [->|]; [contradiction|]. reflexivity. }
  assert (O : exists o, parent_value U fopen_ok sur f = Ok o).
  { unfold parent_value. rewrite Ht. cbn [bind]. rewrite parent_pl by exact Hkt. destruct (is_nil t); [eauto|]. destruct (same_nocase _ _); [rewrite Eg; cbn [bind]; eauto|]. eauto. }
  destruct O as (o & Eo). pose proof (alone_parent U beyond eol children fopen_ok sur f) as A. rewrite Eo in *. split.
  - intros p. rewrite <- V. unfold names_file. rewrite A. destruct o as [q|]; split; intros H; try discriminate H; injection H as ->; reflexivity.
  - unfold void. rewrite A. destruct o as [q|]; split.
    + intros [H _]. discriminate H.
    + intros H. elim (H q). apply V. reflexivity.
    + intros _ p H. apply V in H. discriminate H.
    + intros _. split; [reflexivity|]. intros [[] _].
Qed.
Print Assumptions C66_parent.

(** *** Examples *)
Local Open Scope string_scope.
(** a reference to a file with blanks around its name, rubbish, a design, the same file again, a file that cannot be opened, a
    design with the alias of the first one for its name, one with the name of the first one for an alias, and a last design *)
Definition demo_file : list stmt :=
  [s_parent (txt "  a.cfg "); s_junk; plain_box "one" ["uno"]; s_parent (txt "a.cfg"); s_parent (txt "missing"); plain_box "UNO" []; plain_box "three" ["One"]; comment_box "bad"; plain_box "two" []].
Definition only_a (p : list N) : bool := Neq_list p (txt "a.cfg").
Definition demo_read (po : popts) (l : list stmt) := parse_config_file demo_tab (Ok sentry0) po [10%N] [] only_a no_sur (Some l).
Lemma demo_says : forall po l x, demo_names (demo_read po l) = Some x ->
  exists o, file_says demo_tab (Ok sentry0) [10%N] [] only_a no_sur po [] [] l o /\ demo_names (Ok match o with Some x => x | None => ([], []) end) = Some x.
Proof.
  intros po l [a b] E. destruct (named_inv _ _ _ E) as (ds & ps & Er & En).
  unfold demo_read in Er. apply C66_exact in Er as (o & Ho & Hr); [|exact demo_tab_ok]. exists o. split; [exact Ho|]. rewrite <- Hr. exact En.
Qed.
Example C66_example :
  demo_names (demo_read po_all demo_file) = Some (["one"; "two"], ["a.cfg"]) /\
  demo_names (demo_read (mkPopts (Some (txt "TWO")) true) demo_file) = Some (["two"], ["a.cfg"]) /\
  demo_names (demo_read (mkPopts (Some (txt "one")) false) demo_file) = Some (["one"], ["a.cfg"]) /\
  demo_names (demo_read (mkPopts None false) demo_file) = Some (["one"], ["a.cfg"]) /\
  exists o, file_says demo_tab (Ok sentry0) [10%N] [] only_a no_sur po_all [] [] demo_file o /\ demo_names (Ok match o with Some x => x | None => ([], []) end) = Some (["one"; "two"], ["a.cfg"]).
Proof.
  assert (E : demo_names (demo_read po_all demo_file) = Some (["one"; "two"], ["a.cfg"])) by (vm_compute; reflexivity).
  split; [exact E|]. split; [vm_compute; reflexivity|]. split; [vm_compute; reflexivity|]. split; [vm_compute; reflexivity|].
  exact (demo_says _ _ _ E).
Qed.
Definition first_before : list stmt := [s_junk; comment_box "bad"].
Example C66_first_example : exists d, Forall (void demo_tab (Ok sentry0) [10%N] [] only_a no_sur) first_before /\
  yields demo_tab (Ok sentry0) [10%N] [] only_a no_sur (plain_box "one" []) d /\
  demo_read (mkPopts None false) (first_before ++ plain_box "one" [] :: s_parent (txt "a.cfg") :: demo_file)%list = Ok ([d], []).
Proof.
  eexists. split; [|split; [vm_compute; reflexivity|vm_compute; reflexivity]].
  constructor; [|constructor; [|constructor]]; (split; [vm_compute; reflexivity|]).
  - intros [[] _].
  - intros [_ F]. vm_compute in F. discriminate F.
Qed.
(** the same file named in two ways *)
Definition global_sur : surroundings := mkSur (fun p => Neq_list p (txt "/usr/share/boxes")) (fun _ => false) None None None None (txt "/usr/share/boxes").
Lemma first_step : forall p, gives global_sur (a_file (txt "/usr/share/boxes")) p <-> p = txt "/usr/share/boxes".
Proof. intros p. cbn [gives]. split; [intros [_ H]; exact H|]. intros ->. split; [split; [discriminate|vm_compute; reflexivity]|reflexivity]. Qed.
Example C66_parent_example :
  names_file demo_tab UB [10%N] [] only_a global_sur (s_parent (txt " :Global:")) (txt "/usr/share/boxes") /\
  means_file demo_tab only_a global_sur (txt " :Global:") (txt "/usr/share/boxes") /\
  names_file demo_tab UB [10%N] [] only_a global_sur (s_parent (txt "a.cfg  ")) (txt "a.cfg") /\
  void demo_tab UB [10%N] [] only_a global_sur (s_parent (txt "   ")).
Proof.
  split; [vm_compute; reflexivity|]. split; [|split; [vm_compute; reflexivity|split; [vm_compute; reflexivity|]]].
  - exists (txt ":Global:"). split; [|split; [discriminate|]].
    + exists [32%N], []. split; [reflexivity|]. split; [constructor; [vm_compute; reflexivity|constructor]|]. split; [constructor|]. split.
      * intros c r F. injection F as <- _. vm_compute. reflexivity.
      * intros c r F. change (txt ":Global:") with (txt ":Global" ++ [58%N])%list in F. apply app_inj_tail in F as [_ <-]. vm_compute. reflexivity.
    + left. split; [apply same_ok; vm_compute; reflexivity|]. exists (a_file (txt "/usr/share/boxes")). split; [|apply first_step; reflexivity].
      constructor. exists (txt "/usr/share/boxes"). apply first_step. reflexivity.
  - intros [[] _].
Qed.
(** A faulty design does not only harm itself: a control character in a replacement rule makes the whole file useless, its good
    designs and its references to other files included. *)
Theorem C66_fatal_refuted : exists bad d, fatal demo_tab (Ok sentry0) [10%N] [] no_sur bad /\
  yields demo_tab (Ok sentry0) [10%N] [] only_a no_sur (plain_box "good" []) d /\
  demo_read po_all [s_parent (txt "a.cfg"); plain_box "good" []] = Ok ([d], [txt "a.cfg"]) /\
  demo_read po_all [s_parent (txt "a.cfg"); plain_box "good" []; bad] = Ok ([], []).
Proof.
  exists (s_box (txt "bad") [] [i_sample (txt "x"); i_replace [7%N] (txt "y") 103%N] (txt "bad")). eexists.
  split; [split; [exact I|vm_compute; reflexivity]|]. split; [vm_compute; reflexivity|]. split; vm_compute; reflexivity.
Qed.
Print Assumptions C66_fatal_refuted.
