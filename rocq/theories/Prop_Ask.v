(** * The program with -q: C75 *)
From Coq Require Import Ascii String List Arith NArith ZArith Bool Lia Sorting.Permutation Sorting.Sorted.
From Verif Require Import Base BaseFacts Model_Unicode Model_Bxs Model_Shape Spec_Str Spec_Design Demo Prop_Str Model_Regex Model_Query Spec_Query Proof_Query Prop_Query
  Model_Discovery Spec_Discovery Prop_Discovery Model_Parser Spec_Parser Prop_Parser Model_Scan Spec_Config Prop_Config Model_Cmdline Spec_Cmdline Spec_Options Prop_Cmdline Prop_Options Model_List Model_Program
  Proof_Query Proof_Shipped Shipped Prop_Shipped Spec_Safe Prop_Safe Spec_Program Prop_Program Prop_List Spec_Ask.
Import ListNotations.
Local Open Scope nat_scope.
Local Open Scope list_scope.

Lemma asked_last : forall items g, meant items g -> (exists a, In (ItQ a) items) ->
  exists arg q, last_query items arg /\ query_means arg q /\ m_query (g_mode g) = Some q.
Proof.
  intros items g M H. destruct (mt_query _ _ M) as (ls & F & L). clear M. revert ls F L. induction items as [|i items IH] using rev_ind; intros ls F L; [destruct H as (a & []) |].
  apply Forall2_app_inv_l in F as (ls1 & ls2 & F1 & F2 & ->). inversion F2 as [|? x ? ? Hx F3]; subst. inversion F3; subst. rewrite concat_app in L. cbn [concat] in L. rewrite app_nil_r in L.
  assert (D : (exists arg, i = ItQ arg) \/ x = [] /\ forall arg, i <> ItQ arg).
  { destruct i; try (right; split; [exact Hx|discriminate]). left. exists arg. reflexivity. }
  destruct D as [(arg & ->)|[-> D]].
  - destruct Hx as (q & Hq & ->). exists arg, q. split; [exists items, []; split; [reflexivity|intros a []]|]. split; [exact Hq|].
    destruct L as [(l1 & y & l2 & E & Ey & Hl)|[L _]].
    + destruct l2 as [|z l2 _] using rev_ind.
      * apply app_inj_tail in E as [_ ->]. injection Ey as <-. reflexivity.
      * exfalso. assert (X : In z (l2 ++ [z])) by (apply in_or_app; right; left; reflexivity). specialize (Hl z X). discriminate Hl.
    + exfalso. assert (X : In q (concat ls1 ++ [q])) by (apply in_or_app; right; left; reflexivity). specialize (L q X). discriminate L.
  - rewrite app_nil_r in L. assert (H' : exists a, In (ItQ a) items) by (destruct H as (a & Ha); exists a; apply in_app_or in Ha as [Ha|[Ha|[]]]; [exact Ha|destruct (D a Ha)]).
    destruct (IH H' ls1 F1 L)
      as (arg & q & (l1 & l2 & E & Hl) & Hq & Em).
    exists arg, q. split; [|auto]. exists l1, (l2 ++ [i]). split; [rewrite E, <- app_assoc; reflexivity|]. intros a Ha. apply in_app_or in Ha as [Ha|[Ha|[]]]; [exact (Hl a Ha)|exact (D a Ha)].
Qed.

Lemma split_by : forall (A : Type) (f : A -> bool) l, Permutation l (filter f l ++ filter (fun x => negb (f x)) l).
Proof.
  intros A f l. induction l as [|x l IH]; [constructor|]. cbn [filter]. destruct (f x); cbn [negb app]; [constructor; exact IH|]. apply Permutation_cons_app. exact IH.
Qed.
Lemma answered : forall qs eol s q ts ds, sorter qs -> parse_query s = Some q -> terms s ts ->
  exists l, picked ts ds l /\ query_by_tag qs eol q (map entry_of ds) = concat (map (answer eol) l).
Proof.
  intros qs eol s q ts ds Hq Hp Ht. destruct (C44_query_output qs Hq eol q (map entry_of ds)) as (es & _ & P & S & E).
  set (f := fun d => filter_by_tag q (c_tags d)).
  assert (EF : filter (fun e => filter_by_tag q (e_tags e)) (map entry_of ds) = map entry_of (filter f ds)).
  { clear. induction ds as [|d ds IH]; [reflexivity|]. cbn [map filter]. change (filter_by_tag q (e_tags (entry_of d))) with (f d). destruct (f d); cbn [map]; rewrite IH; reflexivity. }
  rewrite EF in P. destruct (Permutation_map_inv entry_of _ P) as (l & -> & P2). exists l.
  assert (Sel : forall d, In d l -> f d = true). { intros d Hd. apply (Permutation_in _ (Permutation_sym P2)) in Hd. apply filter_In in Hd. apply Hd. }
  split; [split; [|split]|].
  - exists (filter (fun d => negb (f d)) ds). split.
    + eapply Permutation_trans; [apply (split_by _ f)|]. apply Permutation_app_tail. exact P2.
    + apply Forall_forall. intros d Hd F. apply filter_In in Hd as [_ Hd]. apply (C42_by_text s q ts (c_tags d) Hp Ht) in F. unfold f in Hd. rewrite F in Hd. discriminate Hd.
  - apply Forall_forall. intros d Hd. apply (C42_by_text s q ts (c_tags d) Hp Ht). exact (Sel d Hd).
  - clear - S. induction l as [|d l IH]; [constructor|]. cbn [map] in S. inversion S as [|? ? S1 S2]; subst. constructor; [apply IH; exact S1|].
    rewrite Forall_forall in *. intros x Hx. exact (S2 _ (in_map _ _ _ Hx)).
  - rewrite E, map_map. reflexivity.
Qed.

(** A query is asked; there is neither -l nor -c. *)
Record asking_run (U : uctab) (w : world) (items : list Model_Cmdline.item) (rest : list (list N)) (g : settings) (fs : files) : Prop := {
  ar_meant : meant items g;
  ar_opened : opened (w_can_read w) (w_can_write w) rest fs;
  ar_query : exists a, In (ItQ a) items;
  ar_others : ~ In ItL items /\ forall arg, ~ In (ItC arg) items;
  ar_places : plain_places (seen w (c_file (g_src g)));
  ar_sorter : sorter (w_qsort w)
}.
Lemma asks : forall U w items rest g fs fuel, asking_run U w items rest g fs ->
  c_cld (g_src g) = None /\ exists arg ts, last_query items arg /\ terms arg ts /\ well_formed ts /\
  main U fuel w false items rest = or_exit (handle_config_parsing U fuel w g) (fun '(ds, _, _) => Ok (Success (query_by_tag (w_qsort w) (o_eol (g_out g)) (match parse_query arg with Some q => q | None => [] end) (map entry_of ds)))) /\
  exists q, parse_query arg = Some q.
Proof.
  intros U w items rest g fs fuel R. pose proof (ar_meant _ _ _ _ _ _ R) as M. destruct (ar_others _ _ _ _ _ _ R) as [Hl Hc]. split.
  { destruct (mt_comment _ _ M) as (ls & F & L). rewrite (concat_none _ _ _ _ _ F) in L; [eapply latest_none; [|exact L]; intros y []|].
    intros i x Hi. destruct i; try exact (fun E => E). elim (Hc _ Hi). }
  destruct (asked_last items g M (ar_query _ _ _ _ _ _ R)) as (arg & q & HL & Hq & Em). pose proof Hq as (ts & Ht & Hw & _). exists arg, ts. split; [exact HL|]. split; [exact Ht|]. split; [exact Hw|].
  assert (Ep : parse_query arg = Some q) by (apply C43_accepted; exact Hq). split; [|eauto]. rewrite Ep.
  rewrite (main_started U fuel w items rest g fs M (ar_opened _ _ _ _ _ _ R)), Em.
  assert (El : m_list (g_mode g) = false) by (destruct (m_list (g_mode g)) eqn:E; [apply (mt_list _ _ M) in E; contradiction|reflexivity]). rewrite El.
  destruct q as [|x q]; [|reflexivity]. exfalso. destruct Hq as (ts' & _ & (Hne & _) & [[E _]|[E _]]); [congruence|]. destruct ts'; discriminate E.
Qed.

(** ** Any configuration: the designs loaded that the last query selects, by name *)
Theorem C75_program : forall U fuel w items rest g fs known_files, uctab_ok U -> asking_run U w items rest g fs -> legal U 10 /\ legal U 13 -> sound_world U w known_files ->
  S (List.length known_files) <= fuel ->
  main U fuel w false items rest = Ok Failure \/
  exists ds file ps arg ts l, handle_config_parsing U fuel w g = Ok (ds, file, ps) /\ config_file_is (seen w (c_file (g_src g))) (memory file) /\
    last_query items arg /\ terms arg ts /\ well_formed ts /\ picked ts ds l /\
    main U fuel w false items rest = Ok (Success (concat (map (answer (o_eol (g_out g))) l))).
Proof.
  intros U fuel w items rest g fs files HU R Hb Hw Hf. destruct (asks U w items rest g fs fuel R) as (Hc & arg & ts & HL & Ht & Hwf & Em & q & Ep). rewrite Em, Ep. clear Em.
  pose proof (breaks_legal U items g (ar_meant _ _ _ _ _ _ R) Hb) as He. unfold handle_config_parsing. change (sur_with (w_sur w) (c_file (g_src g))) with (seen w (c_file (g_src g))).
  destruct (discovered U _ HU (ar_places _ _ _ _ _ _ R)) as (r & Er & Hr). rewrite Er. cbn [bind]. destruct r as [file|]; [|left; reflexivity]. rewrite Hc.
  destruct (C67_files U fuel w files g (memory file) HU He Hw Hf) as [->|(ds & ps & Eds & _)]; [left; reflexivity|]. right. rewrite Eds. cbn [bind or_exit].
  destruct (answered (w_qsort w) (o_eol (g_out g)) arg q ts ds (ar_sorter _ _ _ _ _ _ R) Ep Ht) as (l & Hl & ->).
  exists ds, file, ps, arg, ts, l. split; [reflexivity|]. split; [apply Hr; reflexivity|]. auto 10.
Qed.
Print Assumptions C75_program.

(** ** The shipped configuration file: all of its designs are looked at *)
Lemma all_file : forall V fuel w g f text ds s, 1 <= fuel -> w_can_read w f = true -> w_contents w f = text -> o_eol (g_out g) = [10%N] -> w_beyond w = Ok s ->
  popts_of g = mkPopts None true -> load_shipped V (w_can_read w) (seen w (c_file (g_src g))) (Ok s) text = Ok (ds, []) -> ds <> [] -> load_designs (drawing_tab V) fuel w g f = Ok (ds, []).
Proof.
  intros V fuel w g f text ds s Hf F2 F3 He Hs Po El Hn. unfold load_designs. change (sur_with (w_sur w) (c_file (g_src g))) with (seen w (c_file (g_src g))).
  destruct fuel as [|fuel]; [lia|]. cbn [parse_loop]. rewrite F2, F3, He, Hs, Po. unfold load_shipped in El. rewrite El. cbn [bind]. destruct ds as [|d ds]; [congruence|reflexivity].
Qed.
Theorem C75_shipped : forall V w items rest g fs s fuel, asking_run (drawing_tab V) w items rest g fs -> 1 <= fuel ->
  c_by_user (g_src g) = false -> m_undoc (g_mode g) = false -> o_eol (g_out g) = [10%N] -> w_beyond w = Ok s -> isempty s = true ->
  (exists f, config_file_is (seen w (c_file (g_src g))) f /\ w_can_read w f = true /\ w_contents w f = boxes_config) ->
  exists ds arg ts l, load_shipped V (w_can_read w) (seen w (c_file (g_src g))) (w_beyond w) boxes_config = Ok (ds, []) /\ map name_of ds = shipped_names /\
    last_query items arg /\ terms arg ts /\ well_formed ts /\ picked ts ds l /\
    main (drawing_tab V) fuel w false items rest = Ok (Success (concat (map (answer [10%N]) l))).
Proof.
  intros V w items rest g fs s fuel R Hf Hu Hd He Hs Hse (f & F1 & F2 & F3). destruct (asks (drawing_tab V) w items rest g fs fuel R) as (Hc & arg & ts & HL & Ht & Hwf & Em & q & Ep). rewrite Em, Ep. clear Em.
  pose proof (C63_loaded V (w_can_read w) (seen w (c_file (g_src g))) s Hse) as C63. pose proof (all_file V fuel w g f boxes_config) as AF. rewrite Hs in *.
  generalize dependent boxes_config. intros text F3 C63 AF. destruct C63 as (ds & El & Hn & _).
  destruct (answered (w_qsort w) [10%N] arg q ts ds (ar_sorter _ _ _ _ _ _ R) Ep Ht) as (l & Hl & E2).
  exists ds, arg, ts, l. split; [exact El|]. split; [exact Hn|]. split; [exact HL|]. split; [exact Ht|]. split; [exact Hwf|]. split; [exact Hl|]. rewrite <- E2.
  unfold handle_config_parsing. change (sur_with (w_sur w) (c_file (g_src g))) with (seen w (c_file (g_src g))).
  destruct (discovered (drawing_tab V) _ (drawing_tab_ok V) (ar_places _ _ _ _ _ _ R)) as (r & -> & Hr). cbn [bind]. apply Hr in F1. destruct r as [file|]; [|discriminate F1]. injection F1 as F1. rewrite Hc.
  assert (Po : popts_of g = mkPopts None true).
  { unfold popts_of. rewrite Hu, Hd. f_equal. destruct (asked_last items g (ar_meant _ _ _ _ _ _ R) (ar_query _ _ _ _ _ _ R)) as (arg' & q' & _ & _ & ->). cbn [negb]. apply orb_true_r. }
  assert (Hne : ds <> []). { intros X. rewrite X in Hn. cbn [map] in Hn. assert (Y : shipped_names <> []) by (unfold shipped_names; vm_compute; discriminate). congruence. }
  rewrite F1, (AF ds s Hf F2 F3 He eq_refl Po El Hne), He. reflexivity.
Qed.
Print Assumptions C75_shipped.

(** ** With -x '(undoc)', only the first design of the file is looked at *)
Definition global_file : list N := txt "/usr/share/boxes".
Definition ask_world (text : list N) : world := mkWorld
  (fun f => Neq_list f global_file) (fun _ => false) (fun _ => text) [] (mkSur (fun f => Neq_list f global_file) (fun _ => false) None None None None global_file) false
  (fun _ x => Some x) isort (Ok sentry0) (fun _ => []) (txt "Usage") (txt "Version").
Lemma ask_found : config_file_is (seen (ask_world []) None) global_file.
Proof.
  cbn. exists (a_file global_file). split; [|split; [split; [discriminate|reflexivity]|reflexivity]].
  unfold user_steps, global_steps. cbn. repeat (apply first_later; [intros (f & F); exact F|]). apply first_here. eexists. split; [split; [discriminate|reflexivity]|reflexivity].
Qed.
Lemma ask_run_demo : forall U text items, match do_items create_new_opt false items with Ok (g, stop) => stop = false /\ c_file (g_src g) = None | _ => False end ->
  existsb (fun i => match i with ItQ _ => true | _ => false end) items && forallb (fun i => match i with ItL | ItC _ => false | _ => true end) items = true ->
  asking_run U (ask_world text) items [] (meaning items) (Files None None).
Proof.
  intros U text items H D. apply andb_true_iff in D as [D1 D2]. assert (M : meant items (meaning items)).
  { apply meaning_ok. destruct (do_items create_new_opt false items) as [[g stop]| | | |]; try contradiction. apply H. }
  assert (E2 : c_file (g_src (meaning items)) = None).
  { unfold meaning. destruct (do_items create_new_opt false items) as [[g stop]| | | |]; try contradiction. apply H. }
  rewrite forallb_forall in D2. constructor.
  - exact M.
  - apply op_none.
  - apply existsb_exists in D1 as (i & Hi & D1). destruct i; try discriminate D1. exists arg. exact Hi.
  - split; [intros F; specialize (D2 _ F); discriminate D2|]. intros arg F. specialize (D2 _ F). discriminate D2.
  - rewrite E2. split; [apply printableb_ok; reflexivity|]. intros p [H1|[H1|[H1|H1]]]; discriminate.
  - exact isort_sorter.
Qed.
Definition told (w : world) (items : list Model_Cmdline.item) : string := match main demo_tab 40 w false items [] with Ok (Success t) => str t | _ => "?"%string end.
Theorem C75_undoc_refuted : exists w items more, asking_run demo_tab w items [] (meaning items) (Files None None) /\ asking_run demo_tab w (items ++ more) [] (meaning (items ++ more)) (Files None None) /\
  c_by_user (g_src (meaning (items ++ more))) = false /\ (forall arg, last_query items arg -> last_query (items ++ more) arg) /\
  told w items = "plain
shell
"%string /\ told w (items ++ more) = "plain
"%string.
Proof.
  exists (ask_world base_text), [ItQ (txt "(all)")], [ItX (txt "(undoc)")]. split; [apply ask_run_demo; [vm_compute; auto|reflexivity]|]. split; [apply ask_run_demo; [vm_compute; auto|reflexivity]|].
  split; [reflexivity|]. split; [|split; vm_compute; reflexivity].
  intros arg (l1 & l2 & E & Hl). exists l1, (l2 ++ [ItX (txt "(undoc)")]). split; [rewrite E, <- app_assoc; reflexivity|]. intros a Ha. apply in_app_or in Ha as [Ha|[Ha|[]]]; [exact (Hl a Ha)|discriminate Ha].
Qed.
Print Assumptions C75_undoc_refuted.

(** ** Examples *)
Definition ask_items (q : list string) : list Model_Cmdline.item := ItF name_file :: map (fun a => ItQ (txt a)) q.
Example C75_program_example : let items := ask_items ["python"; " perl , +sh"]%string in
  asking_run demo_tab list_world items [] (meaning items) (Files None None) /\ last_query items (txt " perl , +sh") /\ terms (txt " perl , +sh") (map txt ["perl"; "+sh"]%string) /\
  sound_world demo_tab list_world [name_file; name_base; txt "in.txt"] /\
  told list_world items = "shell
pound-cmt (alias)
"%string /\ map (fun q => told list_world (ask_items [q])) ["-sh"; "(all)"; "sh,nosuch"]%string = ["plain
"; "plain
shell
pound-cmt (alias)
"; "shell
pound-cmt (alias)
"]%string.
Proof.
  intros items. destruct C69_program_example as [L _]. cbv zeta in L. split; [|split; [|split; [|split; [|split; vm_compute; reflexivity]]]].
  - constructor.
    + apply meaning_ok. vm_compute. reflexivity.
    + apply op_none.
    + exists (txt "python"). right. left. reflexivity.
    + split; [intros [F|[F|[F|[]]]]; discriminate F|]. intros arg [F|[F|[F|[]]]]; discriminate F.
    + exact (lr_places _ _ _ _ _ _ _ L).
    + exact isort_sorter.
  - exists [ItF name_file; ItQ (txt "python")], []. split; [reflexivity|intros a []].
  - apply terms_ok. vm_compute. reflexivity.
  - exact (lr_world _ _ _ _ _ _ _ L).
Qed.
Example C75_shipped_example : let items := [ItQ (txt "shell,-small")] in
  asking_run (drawing_tab demo_tab) (ask_world boxes_config) items [] (meaning items) (Files None None) /\ c_by_user (g_src (meaning items)) = false /\ m_undoc (g_mode (meaning items)) = false /\
  o_eol (g_out (meaning items)) = [10%N] /\ c_file (g_src (meaning items)) = None /\ isempty sentry0 = true /\
  config_file_is (seen (ask_world []) None) global_file /\ w_can_read (ask_world []) global_file = true.
Proof. intros items. split; [apply ask_run_demo; [vm_compute; auto|reflexivity]|]. repeat (split; [reflexivity|]). split; [exact ask_found|reflexivity]. Qed.
