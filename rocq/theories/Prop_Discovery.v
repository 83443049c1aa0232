(** * C49: which configuration file is used *)
From Coq Require Import Ascii String List Arith NArith ZArith Bool Lia.
From Verif Require Import Base BaseFacts Model_Unicode Model_Bxs Spec_Str Proof_Bxs Demo Prop_Str Model_Discovery Spec_Discovery.
Import ListNotations.
Local Open Scope string_scope.
Local Open Scope list_scope.

Lemma first_with_in : forall A (P : A -> Prop) l x, first_with P l x -> In x l /\ P x.
Proof. intros A P l x H. induction H as [x l Hx|x l y Hx H [IH1 IH2]]; [split; [left; reflexivity|exact Hx]|split; [right; exact IH1|exact IH2]]. Qed.
Lemma first_with_fun : forall A (P : A -> Prop) l x y, first_with P l x -> first_with P l y -> x = y.
Proof.
  intros A P l x y H. revert y. induction H as [x l Hx|x l z Hx H IH]; intros y H2; inversion H2; subst; try contradiction; auto.
Qed.
Lemma first_with_ext : forall A (P Q : A -> Prop) l x, (forall y, In y l -> (P y <-> Q y)) -> first_with P l x -> first_with Q l x.
Proof.
  intros A P Q l x HE H. induction H as [x l Hx|x l y Hx H IH].
  - apply first_here. apply HE; [left; reflexivity|exact Hx].
  - apply first_later. + rewrite <- HE; [exact Hx|left; reflexivity]. + apply IH. intros z Hz. apply HE. right. exact Hz.
Qed.

Lemma inside_fun : forall d n p q, inside d n p -> inside d n q -> p = q.
Proof.
  intros d n p q [(d1 & E1 & ->)|[N1 ->]] [(d2 & E2 & ->)|[N2 ->]]; try reflexivity; exfalso;
    [apply (N2 d1 E1)|apply (N1 d2 E2)].
Qed.
Lemma combine_inside : forall d n, d <> [] -> exists p, combine d n = Ok p /\ inside d n p.
Proof.
  intros d n Hd. unfold combine. destruct (rev d) as [|c r] eqn:E.
  - exfalso. apply Hd. rewrite <- (rev_involutive d), E. reflexivity.
  - assert (Ed : d = rev r ++ [c]) by (rewrite <- (rev_involutive d), E; reflexivity).
    destruct (N.eqb_spec c 47) as [->|Hc]; eexists; (split; [reflexivity|]).
    + left. exists (rev r). split; [exact Ed|reflexivity].
    + right. split; [|reflexivity]. intros d' F. rewrite Ed in F. apply app_inj_tail in F as [_ F]. apply Hc. exact F.
Qed.

Section Proofs.
Variable U : uctab.
Variable e : surroundings.

Lemma can_file_iff : forall p, can_read_file e p = true <-> is_file e p.
Proof. intros [|c r]; unfold can_read_file, is_file; cbn [Model_Shape.is_nil]; split; [discriminate|intros [H _]; congruence|split; congruence|tauto]. Qed.
Lemma can_dir_iff : forall p, can_read_dir e (Some p) = true <-> is_dir e p.
Proof. intros [|c r]; unfold can_read_dir, is_dir; cbn [Model_Shape.is_nil]; split; [discriminate|intros [H _]; congruence|split; congruence|tauto]. Qed.

Lemma locate_names_spec : forall d names, d <> [] ->
  exists r, locate_names e d names = Ok r /\
    forall f, r = Some f <-> exists n, first_with (fun n => exists p, inside d n p /\ is_file e p) names n /\ inside d n f.
Proof.
  intros d names Hd. induction names as [|n names (r & E & H)].
  - exists None. split; [reflexivity|]. intros f. split; [discriminate|]. intros (n & F & _). inversion F.
  - cbn [locate_names]. destruct (combine_inside d n Hd) as (p & Ec & Hp). rewrite Ec. cbn [bind].
    destruct (can_read_file e p) eqn:Er.
    + exists (Some p). split; [reflexivity|]. apply can_file_iff in Er. intros f. split.
      * intros [= <-]. exists n. split; [apply first_here; exists p; auto|exact Hp].
      * intros (n' & F & Hf). f_equal. inversion F; subst; [eapply inside_fun; eassumption|].
        exfalso. match goal with H : ~ _ |- _ => apply H end. exists p. auto.
    + assert (Hno : ~ exists p, inside d n p /\ is_file e p).
      { intros (q & Hq & Hf). rewrite (inside_fun _ _ _ _ Hq Hp) in Hf. apply can_file_iff in Hf. congruence. }
      exists r. split; [exact E|]. intros f. rewrite H. split; intros (n' & F & Hf); exists n'; (split; [|exact Hf]).
      * apply first_later; assumption.
      * inversion F; subst; [contradiction|assumption].
Qed.
Lemma locate_dir_spec : forall d, can_read_dir e (Some d) = true ->
  exists r, locate_config_in_dir e d = Ok r /\ forall f, r = Some f <-> dir_file e d f.
Proof.
  intros d Hd. apply can_dir_iff in Hd. destruct (locate_names_spec d filenames (proj1 Hd)) as (r & E & H).
  exists r. split; [exact E|]. intros f. rewrite H. unfold dir_file. tauto.
Qed.
Lemma locate_path_spec : forall p, exists r, locate_config_file_or_dir e p = Ok r /\ forall f, r = Some f <-> path_file e p f.
Proof.
  intros p. unfold locate_config_file_or_dir. destruct (can_read_file e p) eqn:Ef.
  - apply can_file_iff in Ef. exists (Some p). split; [reflexivity|]. intros f. unfold path_file. split; [intros [= <-]; auto|].
    intros [[_ ->]|[H _]]; [reflexivity|contradiction].
  - assert (Hn : ~ is_file e p) by (rewrite <- can_file_iff; congruence). destruct (can_read_dir e (Some p)) eqn:Ed.
    + destruct (locate_dir_spec p Ed) as (r & E & H). exists r. split; [exact E|]. intros f. rewrite H. unfold path_file. tauto.
    + exists None. split; [reflexivity|]. intros f. split; [discriminate|]. unfold path_file, dir_file.
      intros [[H _]|(_ & H & _)]; [contradiction|]. apply can_dir_iff in H. congruence.
Qed.
Lemma from_unicode_memory : forall s b, bxs_from_unicode U s = Ok b -> memory b = s.
Proof.
  intros s b H. unfold bxs_from_unicode in H. destruct (bxs_loop _ _ _ _ _) as [st| | | |]; cbn [bind] in H; try discriminate H.
  destruct (_ <=? _)%nat; [discriminate H|]. destruct (_ <=? _)%nat; [discriminate H|]. injection H as <-. reflexivity.
Qed.
Lemma to_bxs_spec : forall r, (forall f, r = Some f -> speakable U f) ->
  exists x, utf8_to_bxs U r = Ok x /\ option_map memory x = r.
Proof.
  intros [f|] H; cbn [utf8_to_bxs]; [|exists None; auto]. destruct (H f eq_refl) as [b E]. rewrite E.
  exists (Some b). split; [reflexivity|]. cbn [option_map]. rewrite (from_unicode_memory _ _ E). reflexivity.
Qed.

(** steps of the manual and places of the program *)
Definition of_place (p : place) : step :=
  match p with marker => a_file (GLOBALCONF e) | place_dir (Some d) => a_dir d | place_dir None => unset end.
Lemma try_place_spec : forall p, (forall f, gives e (of_place p) f -> speakable U f) ->
  exists x, try_place U e p = Ok x /\ forall f, option_map memory x = Some f <-> gives e (of_place p) f.
Proof.
  intros [|[d|]] H; cbn [try_place of_place gives] in *.
  - destruct (can_read_file e (GLOBALCONF e)) eqn:Ef.
    + apply can_file_iff in Ef. destruct (to_bxs_spec (Some (GLOBALCONF e))) as (x & E & Hx).
      { intros f [= <-]. apply H. auto. } exists x. split; [exact E|]. intros f. rewrite Hx. split; [intros [= <-]; auto|intros [_ ->]; reflexivity].
    + exists None. split; [reflexivity|]. intros f. split; [discriminate|]. intros [F _]. apply can_file_iff in F. congruence.
  - destruct (can_read_dir e (Some d)) eqn:Ed.
    + destruct (locate_dir_spec d Ed) as (r & E & Hr). rewrite E. cbn [bind]. destruct (to_bxs_spec r) as (x & E2 & Hx).
      { intros f F. apply H. apply Hr. exact F. } exists x. split; [exact E2|]. intros f. rewrite Hx. apply Hr.
    + exists None. split; [reflexivity|]. intros f. split; [discriminate|]. intros (F & _). apply can_dir_iff in F. congruence.
  - exists None. split; [reflexivity|]. intros f. split; [discriminate|intros []].
Qed.
Lemma try_places_spec : forall l, (forall s f, In s (map of_place l) -> gives e s f -> speakable U f) ->
  exists x, try_places U e l = Ok x /\ forall f, option_map memory x = Some f <-> search e (map of_place l) f.
Proof.
  induction l as [|p l IH]; intros H.
  - exists None. split; [reflexivity|]. intros f. split; [discriminate|]. intros (s & F & _). inversion F.
  - cbn [try_places map]. destruct (try_place_spec p) as (x & E & Hx). { intros f Hf. eapply H; [left; reflexivity|exact Hf]. }
    rewrite E. cbn [bind]. destruct x as [b|].
    + exists (Some b). split; [reflexivity|]. intros f. rewrite Hx. cbn [option_map] in Hx. split.
      * intros Hf. exists (of_place p). split; [apply first_here; exists f; exact Hf|exact Hf].
      * intros (s & F & Hf). inversion F; subst; [exact Hf|].
        exfalso. match goal with H : ~ _ |- _ => apply H end. exists (memory b). apply Hx. reflexivity.
    + destruct IH as (x & E2 & IH). { intros s f Hs. apply H. right. exact Hs. }
      assert (Hno : ~ exists f, gives e (of_place p) f). { intros [f Hf]. apply Hx in Hf. discriminate Hf. }
      exists x. split; [exact E2|]. intros f. rewrite IH. split; intros (s & F & Hf); exists s; (split; [|exact Hf]).
      * apply first_later; assumption.
      * inversion F; subst; [contradiction|assumption].
Qed.
Lemma places_user : map of_place (user_dirs e) = user_steps e.
Proof.
  unfold user_dirs, user_steps, under, from_env_var, of_place. cbn [map].
  destruct (env_HOME e), (env_XDG_CONFIG_HOME e); reflexivity.
Qed.
Lemma places_global : map of_place global_dirs = global_steps e.
Proof. reflexivity. Qed.
End Proofs.

(** ** C49: what -f says, else what BOXES says, decides *)
Theorem C49_said : forall U e p, said e p -> (forall f, path_file e p f -> speakable U f) ->
  exists r, discover_config_file U e false = Ok r /\ forall f, option_map memory r = Some f <-> path_file e p f.
Proof.
  intros U e p Hs Hok. unfold discover_config_file, locate_config_common.
  replace (match opt_f e with Some f => Some f | None => env_BOXES e end) with (Some p) by (destruct Hs as [->|[-> ->]]; reflexivity).
  destruct (locate_path_spec e p) as (r & E & Hr). rewrite E. cbn [bind].
  destruct (to_bxs_spec U r) as (x & E2 & Hx). { intros f F. apply Hok, Hr, F. }
  rewrite E2. cbn [bind]. destruct x as [b|].
  - exists (Some b). split; [reflexivity|]. intros f. rewrite Hx. apply Hr.
  - cbn [option_map] in Hx. subst r. exists None. split; [reflexivity|]. intros f. cbn [option_map]. apply Hr.
Qed.
Print Assumptions C49_said.

(** otherwise it is the first of the documented places that has a file *)
Theorem C49_search : forall U e, (forall p, ~ said e p) ->
  (forall s f, In s (user_steps e ++ global_steps e) -> gives e s f -> speakable U f) ->
  exists r, discover_config_file U e false = Ok r /\
    forall f, option_map memory r = Some f <-> search e (user_steps e ++ global_steps e) f.
Proof.
  intros U e Hn Hok. unfold discover_config_file, locate_config_common.
  assert (Ef : opt_f e = None). { destruct (opt_f e) as [p|] eqn:E; [|reflexivity]. exfalso. apply (Hn p). left. exact E. }
  assert (Eb : env_BOXES e = None). { destruct (env_BOXES e) as [p|] eqn:E; [|reflexivity]. exfalso. apply (Hn p). right. auto. }
  rewrite Ef, Eb. cbn [bind utf8_to_bxs].
  destruct (try_places_spec U e (user_dirs e ++ global_dirs)) as (x & E & Hx).
  { rewrite map_app, places_user, places_global. exact Hok. }
  exists x. split; [exact E|]. intros f. rewrite Hx, map_app, places_user, places_global. tauto.
Qed.
Print Assumptions C49_search.

(** the search for the global configuration does not depend on -f, BOXES, HOME or XDG_CONFIG_HOME *)
Theorem C49_global : forall U e, (forall s f, In s (global_steps e) -> gives e s f -> speakable U f) ->
  exists r, discover_config_file U e true = Ok r /\ forall f, option_map memory r = Some f <-> search e (global_steps e) f.
Proof.
  intros U e Hok. unfold discover_config_file. cbn [bind].
  destruct (try_places_spec U e global_dirs) as (x & E & Hx). { rewrite places_global. exact Hok. }
  exists x. split; [exact E|]. intros f. rewrite Hx, places_global. tauto.
Qed.
Print Assumptions C49_global.

(** paths of printable ASCII characters cause no trouble *)
Lemma printable_speakable : forall U p, uctab_ok U -> (forall c, In c p -> (32 <= c < 127)%N) -> speakable U p.
Proof.
  intros U p HU H. assert (Hr : reads p (map Vis p)).
  { split.
    - induction p as [|c r IH]; cbn [map toks_ok]; [exact I|]. specialize (IH (fun x Hx => H x (or_intror Hx))).
      pose proof (H c (or_introl eq_refl)) as Hc. cbn. repeat split; try exact IH; try exact I; unfold char_esc; lia.
    - clear H. induction p as [|c r IH]; [reflexivity|]. cbn [map]. unfold render in *. cbn [flat_map tok_chars app]. rewrite IH. reflexivity. }
  assert (Hv : visible (map Vis p) = p). { clear. induction p as [|c r IH]; [reflexivity|]. cbn [map]. unfold visible in *. cbn [flat_map app]. rewrite IH. reflexivity. }
  assert (Ht : tabless (map Vis p)). { unfold tabless. rewrite Hv. intros F. specialize (H _ F). lia. }
  destruct (C18_buffers U p _ HU Hr Ht) as [E|E]; [|exact E]. exfalso.
  apply (C18_only_bad_chars_fail U p _ HU Hr Ht) in E as (c & Hin & Hc). rewrite Hv in Hin. specialize (H _ Hin).
  unfold is_allowed_anywhere in Hc. rewrite (ok_cntrl U HU) in Hc; [discriminate Hc|].
  unfold is_ascii_printable. apply andb_true_intro. split; [apply N.leb_le|apply N.ltb_lt]; lia.
Qed.
Definition printable (p : list N) : Prop := forall c, In c p -> (32 <= c < 127)%N.
Lemma printable_app : forall p q, printable p -> printable q -> printable (p ++ q).
Proof. intros p q Hp Hq c Hc. apply in_app_or in Hc as [Hc|Hc]; auto. Qed.
Definition printableb (p : list N) : bool := forallb (fun c => (32 <=? c) && (c <? 127))%N p.
Lemma printableb_ok : forall p, printableb p = true -> printable p.
Proof.
  intros p H c Hc. unfold printableb in H. rewrite forallb_forall in H. specialize (H _ Hc).
  apply andb_prop in H as [H1 H2]. apply N.leb_le in H1. apply N.ltb_lt in H2. lia.
Qed.
Lemma known_printable : forall n, In n well_known -> printable n.
Proof.
  intros n H. apply printableb_ok. cbn [well_known map In] in H. repeat (destruct H as [<-|H]; [reflexivity|]). destruct H.
Qed.
Lemma dir_file_printable : forall e d f, printable d -> dir_file e d f -> printable f.
Proof.
  intros e d f Hd (_ & n & F & Hi). apply first_with_in in F as [Hn _]. apply known_printable in Hn.
  destruct Hi as [(d' & _ & ->)|[_ ->]]; apply printable_app; auto.
  intros c [<-|Hc]; [lia|auto].
Qed.
Lemma path_file_printable : forall e p f, printable p -> path_file e p f -> printable f.
Proof. intros e p f Hp [[_ ->]|[_ H]]; [exact Hp|eapply dir_file_printable; eassumption]. Qed.
Lemma gives_printable : forall e s f, printable (GLOBALCONF e) ->
  (forall h, env_HOME e = Some h -> printable h) -> (forall h, env_XDG_CONFIG_HOME e = Some h -> printable h) ->
  In s (user_steps e ++ global_steps e) -> gives e s f -> printable f.
Proof.
  intros e s f Hg Hh Hx Hs Hf.
  assert (K : match s with a_file p => printable p | a_dir d => printable d | unset => True end).
  { unfold user_steps, global_steps, under in Hs. cbn [app In] in Hs.
    destruct Hs as [<-|[<-|[<-|[<-|[<-|[<-|[<-|[]]]]]]]]; try (apply printableb_ok; reflexivity); try exact Hg;
      [destruct (env_HOME e) as [h|] eqn:E|destruct (env_XDG_CONFIG_HOME e) as [h|] eqn:E|destruct (env_HOME e) as [h|] eqn:E];
      try exact I; (apply printable_app; [auto|apply printableb_ok; reflexivity]). }
  destruct s as [p|d|]; cbn [gives] in Hf; [destruct Hf as [_ ->]; exact K|eapply dir_file_printable; eassumption|destruct Hf].
Qed.
(** C49 for paths of printable ASCII characters, in one piece *)
Theorem C49_plain : forall U e, uctab_ok U -> printable (GLOBALCONF e) ->
  (forall p, opt_f e = Some p \/ env_BOXES e = Some p \/ env_HOME e = Some p \/ env_XDG_CONFIG_HOME e = Some p -> printable p) ->
  exists r, discover_config_file U e false = Ok r /\
    forall f, option_map memory r = Some f <->
      match opt_f e, env_BOXES e with
      | Some p, _ => path_file e p f
      | None, Some p => path_file e p f
      | None, None => search e (user_steps e ++ global_steps e) f
      end.
Proof.
  intros U e HU Hg H. destruct (opt_f e) as [p|] eqn:Ef; [|destruct (env_BOXES e) as [p|] eqn:Eb].
  - apply C49_said; [left; exact Ef|]. intros f Hf. apply printable_speakable; [exact HU|]. eapply path_file_printable; [|exact Hf]. apply H. auto.
  - apply C49_said; [right; auto|]. intros f Hf. apply printable_speakable; [exact HU|]. eapply path_file_printable; [|exact Hf]. apply H. auto.
  - apply C49_search. + intros p [F|[_ F]]; congruence.
    + intros s f Hs Hf. apply printable_speakable; [exact HU|]. eapply gives_printable; try eassumption; intros h Hh; apply H; auto.
Qed.
Print Assumptions C49_plain.

(** a home directory with two configuration files, a global file, and a directory given with -f *)
Definition demo_files (p : list N) : bool :=
  existsb (fun q => Neq_list p (lit q)) ["/home/me/boxes-config"; "/home/me/.boxes"; "/usr/share/boxes"; "my/box-designs"; "my/boxes"]%string.
Definition demo_dirs (p : list N) : bool := existsb (fun q => Neq_list p (lit q)) ["/home/me"; "my"; "my/"; "empty"]%string.
Definition demo_env (f b h : option string) : surroundings :=
  mkSur demo_files demo_dirs (option_map lit f) (option_map lit b) (option_map lit h) None (lit "/usr/share/boxes").
Definition demo_found (f b h : option string) (g : bool) : option (list N) :=
  match discover_config_file demo_tab (demo_env f b h) g with Ok r => option_map memory r | _ => Some [] end.
Example C49_plain_example : exists f, said (demo_env (Some "my") (Some "nowhere") (Some "/home/me"))%string (lit "my")
  /\ path_file (demo_env (Some "my") (Some "nowhere") (Some "/home/me"))%string (lit "my") f /\ f = lit "my/box-designs".
Proof.
  destruct (C49_plain demo_tab (demo_env (Some "my") (Some "nowhere") (Some "/home/me"))%string demo_tab_ok) as (r & E & H).
  { apply printableb_ok. reflexivity. }
  { intros p F. apply printableb_ok. cbn in F. destruct F as [[= <-]|[[= <-]|[[= <-]|F]]]; try reflexivity. discriminate F. }
  exists (lit "my/box-designs"). split; [left; reflexivity|split; [|reflexivity]].
  specialize (H (lit "my/box-designs")). cbn [opt_f demo_env option_map] in H. apply H.
  vm_compute in E. injection E as <-. reflexivity.
Qed.
Example C49_examples :
  demo_found (Some "my") (Some "nowhere") (Some "/home/me") false = Some (lit "my/box-designs") /\
  demo_found (Some "my/") None None false = Some (lit "my/box-designs") /\
  demo_found (Some "empty") (Some "my") (Some "/home/me") false = None /\
  demo_found None (Some "nowhere") (Some "/home/me") false = None /\
  demo_found None (Some "") (Some "/home/me") false = None /\
  demo_found None None (Some "/home/me") false = Some (lit "/home/me/.boxes") /\
  demo_found None None (Some "") false = Some (lit "/usr/share/boxes") /\
  demo_found (Some "my") (Some "my") (Some "/home/me") true = Some (lit "/usr/share/boxes").
Proof. vm_compute. repeat split. Qed.

(** A file that is there and can be read, but whose name has a control character, is passed over without a message, and
    another file is used. *)
Theorem C49_said_refuted : exists U e p r f, uctab_ok U /\ said e p /\ path_file e p p /\
  discover_config_file U e false = Ok (Some r) /\ memory r = f /\ f <> p.
Proof.
  exists demo_tab, (mkSur (fun _ => true) (fun _ => true) (Some [97; 7]%N) None None None (lit "/usr/share/boxes")), [97; 7]%N.
  eexists. exists (lit "/usr/share/boxes"). split; [exact demo_tab_ok|]. split; [left; reflexivity|].
  split; [left; split; [split; [discriminate|reflexivity]|reflexivity]|]. split; [vm_compute; reflexivity|]. split; [reflexivity|discriminate].
Qed.
Print Assumptions C49_said_refuted.
