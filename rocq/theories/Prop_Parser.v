(** * Reading configuration files: C28, C29, C30, C56, C57 *)
From Coq Require Import Ascii String List Arith NArith ZArith Bool Lia.
From Verif Require Import Base BaseFacts Model_Unicode Model_Bxs Model_Shape Spec_Str Proof_Str Proof_Bxs Proof_BxsMore Spec_Design Demo Prop_Str
  Model_Regex Model_Query Spec_Query Proof_Query Model_Discovery Model_Input Model_Generate Model_Main Model_Parser Spec_Parser Proof_Term Proof_Parser Proof_Parser2 Proof_Parser3 Proof_Complete Proof_Tags.
Import ListNotations.
Local Open Scope nat_scope.
Local Open Scope list_scope.

(** ** C28: accepted designs are well formed *)
Lemma inv_init : forall U st, curdes st = init_design -> num_mandatory st = 0 -> time_for_se_check st = 0 -> items_inv U st.
Proof.
  intros U st E1 E2 E3. constructor; rewrite ?E1, ?E2, ?E3.
  - intros i. left. apply hollow0.
  - reflexivity.
  - lia.
  - left. intros i. apply hollow0.
Qed.
Lemma inv_flags : forall U st a b, items_inv U st -> items_inv U (with_flags a b st).
Proof. intros U st a b [A B C D]. constructor; assumption. Qed.
Lemma inv_parent : forall U st p, items_inv U st -> items_inv U (add_parent st p).
Proof. intros U st p [A B C D]. unfold add_parent. destruct (existsb _ _); constructor; assumption. Qed.

Definition wellformed (U : uctab) (d : cdesign) : Prop := wf_design U (to_design d) /\ sides_in_order (c_shape d).

Lemma tidy_good : forall U s, tidy_stmt U s -> good_stmt (tidy_item U) s.
Proof. intros U [f|n al l e|al|] H; exact H || exact I. Qed.

Lemma parse_facts : forall U beyond po eol children fopen_ok sur contents ds ps, uctab_ok U ->
  match contents with Some l => Forall (tidy_stmt U) l | None => True end ->
  parse_config_file U beyond po eol children fopen_ok sur contents = Ok (ds, ps) ->
  Forall (wellformed U) ds /\ Forall (wanted po) ds /\ Forall (fun d => exists n, c_name d = Some n) ds /\ pairwise_not share_any_name ds.
Proof.
  intros U beyond po eol children fopen_ok sur contents ds ps HU Ht H.
  apply (parse_config_ok U beyond po eol children fopen_ok sur (items_inv U) (wellformed U) (tidy_item U)) with (contents := contents) (ps := ps).
  - apply inv_init.
  - intros st n Hs. apply inv_same; [exact Hs|]. repeat split.
  - intros st n Hs. apply inv_same; [exact Hs|]. repeat split.
  - apply inv_flags.
  - apply inv_parent.
  - intros st i st' Hi Hs E. destruct (do_item_ok U HU beyond eol st i st' Hi Hs E). assumption.
  - intros st Hs Hn. apply inv_wf; assumption.
  - destruct contents as [l|]; [|exact I]. eapply Forall_impl; [|exact Ht]. apply tidy_good.
  - exact H.
Qed.

Theorem C28_accepted_designs : forall U beyond po eol children fopen_ok sur stmts ds ps, uctab_ok U -> Forall (tidy_stmt U) stmts ->
  parse_config_file U beyond po eol children fopen_ok sur (Some stmts) = Ok (ds, ps) ->
  Forall (fun d => wf_design U (to_design d) /\ sides_in_order (c_shape d)) ds.
Proof. intros U beyond po eol children fopen_ok sur stmts ds ps HU Ht H. apply (parse_facts _ _ _ _ _ _ _ (Some stmts) _ _ HU Ht H). Qed.

Lemma load_inv : forall U beyond po eol fopen_ok sur contents fuel first ds,
  load_config U beyond po eol fopen_ok sur contents fuel first = Ok ds ->
  exists known, parse_loop (fun f before => parse_config_file U beyond po eol before fopen_ok sur (contents f)) fuel first 0 [] [] = Ok (ds, known) /\ ds <> [].
Proof.
  intros U beyond po eol fopen_ok sur contents fuel first ds H. unfold load_config, parse_config_files in H. apply bind_ok in H as ([r k] & E & H).
  exists k. destruct r as [|d r]; [discriminate H|]. injection H as <-. split; [exact E|discriminate].
Qed.
Definition all_tidy (U : uctab) (contents : list N -> option (list stmt)) : Prop :=
  forall f l, contents f = Some l -> Forall (tidy_stmt U) l.
Lemma all_tidy_at : forall U contents f, all_tidy U contents -> match contents f with Some l => Forall (tidy_stmt U) l | None => True end.
Proof. intros U contents f H. destruct (contents f) eqn:E; [exact (H f _ E)|exact I]. Qed.

Theorem C28_whole_configuration : forall U beyond po eol fopen_ok sur contents fuel first ds, uctab_ok U -> all_tidy U contents ->
  load_config U beyond po eol fopen_ok sur contents fuel first = Ok ds ->
  Forall (fun d => wf_design U (to_design d) /\ sides_in_order (c_shape d)) ds.
Proof.
  intros U beyond po eol fopen_ok sur contents fuel first ds HU Ht H. destruct (load_inv _ _ _ _ _ _ _ _ _ _ H) as (known & E & _).
  apply loop_ok in E as (more & seen & _ & _ & R & _); [|clear E|constructor|apply pairwise_nil|apply Nat.le_0_l].
  - eapply read_Forall; [|exact R|constructor]. intros f before ds' ps' Hp. apply (parse_facts _ _ _ _ _ _ _ _ _ _ HU (all_tidy_at U contents f Ht) Hp).
  - intros f before ds' ps' Hp. destruct (parse_facts _ _ _ _ _ _ _ _ _ _ HU (all_tidy_at U contents f Ht) Hp) as (_ & _ & A & B).
    split; [exact A|]. eapply pairwise_weaken; [|exact B]. intros a b (n & N1 & N2). exists n. split; left; assumption.
Qed.

(** *** Examples *)
Local Open Scope string_scope.
Definition one (s : string) : shape_def := lines (txt s) [].
Definition plain_shapes : list (nat * shape_def) :=
  [(NW, one "+"); (N_, one "-"); (NE, one "+"); (W_, one "|"); (E_, one "|"); (SW, one "+"); (S_, one "-"); (SE, one "+")].
Definition plain_box (n : string) (al : list string) : stmt :=
  s_box (txt n) (map txt al) [i_keyword (txt "author") (txt "A. Nonymous"); i_tags [txt "simple, plain"; txt "Bad"]; i_sample (txt "+-+"); i_shapes plain_shapes; i_elastic [N_; S_; W_; E_];
    i_padding [(txt "hor", 1%Z); (txt "top", (-3)%Z)]] (txt n).
(** a comment: three of the four sides are made by the program *)
Definition comment_box (n : string) : stmt :=
  s_box (txt n) [] [i_sample (txt "# text"); i_elastic [W_; E_]; i_shapes [(W_, one "# ")]] (txt n).
Definition comment_box' (n : string) : stmt :=
  s_box (txt n) [] [i_shapes [(W_, one "# ")]; i_elastic [W_]; i_sample (txt "# text")] (txt n).
Definition po_all : popts := mkPopts None true.
Definition no_sur : surroundings := mkSur (fun _ => false) (fun _ => false) None None None None (txt "/usr/share/boxes").
Definition demo_parse (po : popts) (l : list stmt) := parse_config_file demo_tab (Ok sentry0) po [10%N] [] (fun _ => true) no_sur (Some l).
Definition demo_names (r : res (list cdesign * list (list N))) : option (list string * list string) :=
  match r with Ok (ds, ps) => Some (map (fun d => match c_name d with Some n => str n | None => "" end) ds, map str ps) | _ => None end.

Lemma tidy_ascii : forall l, forallb is_ascii_printable l = true -> tidy_text demo_tab l.
Proof. intros l H. exists (List.length l). apply shows_ascii; [apply demo_tab_ok|exact H]. Qed.
Definition tidy_shapeb (d : shape_def) : bool :=
  match d with no_lines => true | lines f more => forallb is_ascii_printable f && forallb (forallb is_ascii_printable) more end.
Definition tidy_stmtb (s : stmt) : bool :=
  match s with s_box _ _ l _ => forallb (fun i => match i with i_shapes l => forallb (fun p => tidy_shapeb (snd p)) l | _ => true end) l | _ => true end.
Lemma tidy_stmtb_ok : forall s, tidy_stmtb s = true -> tidy_stmt demo_tab s.
Proof.
  intros [f|n al l e|al|] H; cbn [tidy_stmt]; try exact I. cbn [tidy_stmtb] in H. rewrite forallb_forall in H. apply Forall_forall. intros i Hi. specialize (H i Hi).
  destruct i; cbn [tidy_item]; try exact I. rewrite forallb_forall in H. apply Forall_forall. intros [k d] Hp. specialize (H _ Hp). cbn [snd] in *.
  destruct d as [|f more]; cbn in *; [exact I|]. apply andb_true_iff in H as [H1 H2]. split; [apply tidy_ascii; exact H1|].
  rewrite forallb_forall in H2. apply Forall_forall. intros t Ht. apply tidy_ascii. auto.
Qed.
Lemma tidy_allb : forall l, forallb tidy_stmtb l = true -> Forall (tidy_stmt demo_tab) l.
Proof. intros l H. rewrite forallb_forall in H. apply Forall_forall. intros s Hs. apply tidy_stmtb_ok. auto. Qed.

(** five blocks, three of which are accepted; the others have no elastic shape on the left, or adjoining elastic shapes *)
Definition demo_config : list stmt :=
  [plain_box "plain" ["simple"]; s_junk; comment_box "early"; comment_box' "shell";
   s_box (txt "adjoining") [] [i_sample (txt "x"); i_shapes ((NNW, one "=") :: plain_shapes); i_elastic [NNW; N_; S_; W_; E_]] (txt "adjoining");
   plain_box "other" []].
Lemma named_inv : forall r a b, demo_names r = Some (a, b) -> exists ds ps, r = Ok (ds, ps) /\ demo_names (Ok (ds, ps)) = Some (a, b).
Proof. intros [[ds ps]| | | |] a b H; try discriminate H. eauto. Qed.
Lemma demo_wf : forall po l ds ps, Forall (tidy_stmt demo_tab) l -> demo_parse po l = Ok (ds, ps) ->
  Forall (fun d => wf_design demo_tab (to_design d) /\ sides_in_order (c_shape d)) ds.
Proof. intros po l ds ps T E. exact (C28_accepted_designs _ _ _ _ _ _ _ _ _ _ demo_tab_ok T E). Qed.
Example C28_example : exists ds ps, demo_parse po_all demo_config = Ok (ds, ps) /\ demo_names (Ok (ds, ps)) = Some (["plain"; "shell"; "other"], []) /\
  Forall (fun d => wf_design demo_tab (to_design d) /\ sides_in_order (c_shape d)) ds.
Proof.
  assert (E : demo_names (demo_parse po_all demo_config) = Some (["plain"; "shell"; "other"], [])) by (vm_compute; reflexivity).
  apply named_inv in E as (ds & ps & E & F). exists ds, ps. split; [exact E|]. split; [exact F|].
  assert (T : Forall (tidy_stmt demo_tab) demo_config) by (apply tidy_allb; vm_compute; reflexivity).
  exact (demo_wf _ _ _ _ T E).
Qed.

(** *** What can go wrong *)
(** A design with a shape at the top only: looking for a shape next to the corner, the program reads behind the end of the array. *)
Theorem C28_reads_behind_array_refuted :
  exists stmts, forallb tidy_stmtb stmts = true /\
    parse_config_file demo_tab UB po_all [10%N] [] (fun _ => true) no_sur (Some stmts) = UB /\
    demo_names (parse_config_file demo_tab (Ok sentry0) po_all [10%N] [] (fun _ => true) no_sur (Some stmts)) = Some (["top"], []).
Proof.
  exists [s_box (txt "top") [] [i_sample (txt "x"); i_shapes [(N_, one "-")]; i_elastic [N_]] (txt "top")].
  split; [vm_compute; reflexivity|]. split; vm_compute; reflexivity.
Qed.
(** SAMPLE is meant to be mandatory; a second list of elastic shapes makes up for a missing one. *)
Theorem C28_sample_not_needed_refuted :
  exists stmts ds ps, forallb tidy_stmtb stmts = true /\ demo_parse po_all stmts = Ok (ds, ps) /\ exists d, In d ds /\ c_sample d = None.
Proof.
  set (l := [s_box (txt "nosample") [] [i_shapes plain_shapes; i_elastic [N_; S_; W_; E_]; i_elastic [N_]] (txt "nosample")]).
  assert (E : match demo_parse po_all l with Ok (d :: _, _) => match c_sample d with None => true | _ => false end | _ => false end = true) by (vm_compute; reflexivity).
  exists l. destruct (demo_parse po_all l) as [[[|d ds] ps]| | | |]; try discriminate E. exists (d :: ds), ps. split; [reflexivity|]. split; [reflexivity|].
  exists d. split; [left; reflexivity|]. destruct (c_sample d); [discriminate E|reflexivity].
Qed.
(** A control character in a shape: the string becomes NULL and is dereferenced. *)
Theorem C28_control_character_refuted :
  exists stmts, demo_parse po_all stmts = UB.
Proof.
  exists [s_box (txt "ctrl") [] [i_shapes [(NW, lines [43%N; 7%N] [])]] (txt "ctrl")]. vm_compute. reflexivity.
Qed.

(** ** C29: missing shapes are filled with blanks *)
(** Specified shapes are kept as they are. Added shapes are blank, and there is something at each corner. *)
Theorem C29_keeps_and_adds_blanks : forall U beyond sh sh', uctab_ok U -> complete_shapes U beyond sh = Ok (RC_SUCCESS sh') ->
  (forall i, isempty (sh i) = false -> sh' i = sh i) /\
  (forall i, sh' i <> sh i -> blank_shape (sh' i)) /\
  (forall c, In c corners -> isempty (sh' c) = false).
Proof.
  intros U beyond sh sh' HU H. destruct (complete_ok U HU beyond sh _ H) as [F|(x & F & C & N)]; [discriminate F|]. injection F as <-.
  split; [|split; [|exact N]].
  - intros i Hi. destruct (C i) as [E|(E & _)]; [exact E|congruence].
  - intros i Hi. destruct (C i) as [E|(_ & B & _)]; [congruence|exact B].
Qed.
(** The result fits together, provided that the specified shapes do, unless the upper left corner is the only one that tells
    how wide the left side is. [out_of_array] is what is found behind the array of shapes. *)
Definition well_shaped (U : uctab) (s : sentry) : Prop :=
  (s_chars s = [] /\ s_mbcs s = [] /\ s_height s = 0 /\ s_width s = 0) \/
  (isempty s = false /\ shape_ok U s /\ Forall (fun l => List.length l = s_width s) (s_chars s)).
Theorem C29_fits : forall U out_of_array sh, uctab_ok U -> isempty out_of_array = true ->
  (forall i, well_shaped U (sh i)) -> sizes_agree sh -> (forall i, narrow (sh i)) -> (exists i, i < 16 /\ isempty (sh i) = false) -> left_known sh ->
  exists sh', complete_shapes U (Ok out_of_array) sh = Ok (RC_SUCCESS sh') /\ sizes_agree sh' /\ check_sizes sh' = true.
Proof. intros U ooa sh HU Ho W A Nw Hi L. apply complete_fits; assumption. Qed.

Example C29_example : let sh := lookup [(W_, shp false ["# "]); (NE, shp false ["...o"; "...O"])] in
  (exists sh', complete_shapes demo_tab (Ok sentry0) sh = Ok (RC_SUCCESS sh') /\ sizes_agree sh' /\ check_sizes sh' = true) /\
  match complete_shapes demo_tab (Ok sentry0) sh with
  | Ok (RC_SUCCESS sh') => map (fun i => map str (s_chars (sh' i))) [NW; N_; NE; E_; SE; S_; SW; W_] =
      [["  "; "  "]; [" "; " "]; ["...o"; "...O"]; ["    "]; ["    "]; [" "]; ["  "]; ["# "]]
  | _ => False
  end.
Proof.
  cbv zeta. split; [|vm_compute; reflexivity]. apply C29_fits.
  - apply demo_tab_ok.
  - reflexivity.
  - intros i. cbn [lookup]. destruct (Nat.eqb W_ i); [right|destruct (Nat.eqb NE i); [right|left; repeat split]].
    + split; [reflexivity|]. split; [apply shape_okb_ok; [apply demo_tab_ok|vm_compute; reflexivity]|repeat constructor].
    + split; [reflexivity|]. split; [apply shape_okb_ok; [apply demo_tab_ok|vm_compute; reflexivity]|repeat constructor].
  - intros s i j Hi Hj Ei Ej. cbn [lookup] in *. destruct s; cbn [side_of north_side east_side south_side west_side In] in Hi, Hj;
      repeat match goal with H : _ \/ _ |- _ => destruct H as [<-|H] | H : False |- _ => destruct H end; try discriminate Ei; try discriminate Ej; reflexivity.
  - intros i. unfold narrow. cbn [lookup]. destruct (Nat.eqb W_ i); [cbn; lia|destruct (Nat.eqb NE i); cbn; lia].
  - exists W_. split; [apply Nat.ltb_lt; reflexivity|reflexivity].
  - right. left. exists W_. split; [right; left; reflexivity|reflexivity].
Qed.
(** A wide upper left corner and nothing else on the left: the lower left corner is made one column wide, and the design is
    refused, although all that was specified fits together. *)
Theorem C29_left_side_refuted : exists stmts sh sh', forallb tidy_stmtb stmts = true /\
  sizes_agree sh /\ complete_shapes demo_tab (Ok sentry0) sh = Ok (RC_SUCCESS sh') /\ check_sizes sh' = false /\
  stmts = [s_box (txt "wide") [] [i_sample (txt "x"); i_shapes [(NW, one "/*")]; i_elastic [N_; E_; S_; W_]] (txt "wide")] /\
  sh = lookup [(NW, shp false ["/*"])] /\
  demo_parse po_all stmts = Ok ([], []).
Proof.
  set (sh := lookup [(NW, shp false ["/*"])]).
  assert (E : match complete_shapes demo_tab (Ok sentry0) sh with Ok (RC_SUCCESS sh') => negb (check_sizes sh') | _ => false end = true) by (vm_compute; reflexivity).
  destruct (complete_shapes demo_tab (Ok sentry0) sh) as [[sh'| | |sh']| | | |] eqn:F; try discriminate E.
  eexists _, sh, sh'. split; [|split; [|split; [|split; [|split; [reflexivity|split; [reflexivity|]]]]]].
  - vm_compute; reflexivity.
  - intros s i j Hi Hj Ei Ej. subst sh. cbn [lookup] in *. destruct s; cbn [side_of north_side east_side south_side west_side In] in Hi, Hj;
      repeat match goal with H : _ \/ _ |- _ => destruct H as [<-|H] | H : False |- _ => destruct H end; try discriminate Ei; try discriminate Ej; reflexivity.
  - exact F.
  - destruct (check_sizes sh'); [discriminate E|reflexivity].
  - vm_compute. reflexivity.
Qed.

(** ** C30: configurations with parents *)
(** Reading comes to an end when finitely many files can be opened, whatever they refer to. *)
Theorem C30_terminates : forall U beyond po eol fopen_ok sur contents files first fuel, beyond <> Fuel ->
  (forall p, fopen_ok p = true -> In p files) ->
  (forall g, discover_config_file U sur true = Ok (Some g) -> In (memory g) files) ->
  S (List.length files) <= fuel ->
  load_config U beyond po eol fopen_ok sur contents fuel first <> Fuel.
Proof.
  intros U beyond po eol fopen_ok sur contents files first fuel Hb H1 H2 Hf. unfold load_config, parse_config_files. apply nf_bind.
  - apply nf_parse_loop with (files := files).
    + intros f before. apply nf_parse. exact Hb.
    + intros f before ds ps H p Hp. apply parse_open in H. rewrite Forall_forall in H. destruct (H p Hp) as [K|(g & K1 & <-)]; auto.
    + constructor.
    + intros p [].
    + apply Nat.le_0_l.
    + lia.
  - intros [r k] _. destruct r; discriminate.
Qed.

(** What has been read: the first file, then each parent once, in the order in which the parents are found. [seen] are the
    designs and the parents that were found in these files. *)
Theorem C30_order : forall U beyond po eol fopen_ok sur contents fuel first ds, uctab_ok U -> all_tidy U contents ->
  load_config U beyond po eol fopen_ok sur contents fuel first = Ok ds ->
  exists parents seen,
    read_in_order (fun f before => parse_config_file U beyond po eol before fopen_ok sur (contents f)) [] (first :: parents) seen ds /\
    NoDup parents /\
    (forall d p f, In (d, p) seen -> In f p -> In f parents) /\
    (forall i f, nth_error parents i = Some f -> exists j d p, j <= i /\ nth_error seen j = Some (d, p) /\ In f p) /\
    (* the order is that of the files, and the first design of a name wins *)
    subseq ds (concat (map fst seen)) /\
    (forall n d, first_named n ds d <-> first_named n (concat (map fst seen)) d) /\
    pairwise_not share_name ds.
Proof.
  intros U beyond po eol fopen_ok sur contents fuel first ds HU Ht H. destruct (load_inv _ _ _ _ _ _ _ _ _ _ H) as (known & E & _).
  apply loop_ok in E as (more & seen & N & Ek & R & Pw & Old & All); [|clear E|constructor|apply pairwise_nil|apply Nat.le_0_l].
  - exists known, seen. split; [exact R|]. split; [exact N|]. split; [intros d p f; apply All|]. split.
    + intros i f Hi. destruct (Old i f (Nat.le_0_l _) Hi) as (j & d & p & Hj & K). exists j, d, p. split; [lia|exact K].
    + destruct (read_first _ _ _ _ _ R) as [F S]. cbn [app] in *. auto.
  - intros f before ds' ps' Hp. destruct (parse_facts _ _ _ _ _ _ _ _ _ _ HU (all_tidy_at U contents f Ht) Hp) as (_ & _ & A & B).
    split; [exact A|]. eapply pairwise_weaken; [|exact B]. intros a b (n & N1 & N2). exists n. split; left; assumption.
Qed.
(** within one file, names and aliases are all different; with -d, only designs of that name or alias are loaded *)
Theorem C30_names_in_a_file : forall U beyond po eol children fopen_ok sur stmts ds ps, uctab_ok U -> Forall (tidy_stmt U) stmts ->
  parse_config_file U beyond po eol children fopen_ok sur (Some stmts) = Ok (ds, ps) ->
  (forall d, In d ds -> exists n, c_name d = Some n) /\ pairwise_not share_any_name ds.
Proof.
  intros U beyond po eol children fopen_ok sur stmts ds ps HU Ht H. destruct (parse_facts _ _ _ _ _ _ _ (Some stmts) _ _ HU Ht H) as (_ & _ & A & B).
  split; [|exact B]. rewrite Forall_forall in A. exact A.
Qed.
Theorem C30_chosen_design : forall U beyond eol fopen_ok sur contents fuel first ds n all, uctab_ok U -> all_tidy U contents ->
  load_config U beyond (mkPopts (Some n) all) eol fopen_ok sur contents fuel first = Ok ds -> Forall (fun d => called d n) ds.
Proof.
  intros U beyond eol fopen_ok sur contents fuel first ds n all HU Ht H. destruct (C30_order _ _ _ _ _ _ _ _ _ _ HU Ht H) as (parents & seen & R & _).
  eapply read_Forall; [|exact R|constructor]. intros f before ds' ps' Hp.
  destruct (parse_facts _ _ _ _ _ _ _ _ _ _ HU (all_tidy_at U contents f Ht) Hp) as (_ & W & _). exact W.
Qed.

(** *** Examples *)
(** three files that refer to each other *)
Definition demo_fs (f : list N) : option (list stmt) :=
  if Neq_list f (txt "a") then Some [s_parent (txt " b "); plain_box "one" ["uno"]; s_parent (txt "c"); plain_box "two" []]
  else if Neq_list f (txt "b") then Some [plain_box "THREE" []; plain_box "uno" []; s_parent (txt "a"); s_parent (txt "missing"); plain_box "One" []]
  else if Neq_list f (txt "c") then Some [plain_box "three" []; plain_box "four" ["UNO"]; s_parent (txt "b")]
  else None.
Definition demo_opens (f : list N) : bool := existsb (Neq_list f) (map txt ["a"; "b"; "c"]).
Definition demo_load (po : popts) (fuel : nat) : res (list cdesign) := load_config demo_tab (Ok sentry0) po [10%N] demo_opens no_sur demo_fs fuel (txt "a").
Definition load_names (r : res (list cdesign)) : option (list (string * list string)) :=
  match r with Ok ds => Some (map (fun d => (match c_name d with Some n => str n | None => "" end, map str (c_aliases d))) ds) | _ => None end.
Lemma demo_fs_tidy : all_tidy demo_tab demo_fs.
Proof.
  intros f l H. unfold demo_fs in H. destruct (Neq_list f (txt "a")); [|destruct (Neq_list f (txt "b")); [|destruct (Neq_list f (txt "c")); [|discriminate H]]];
    injection H as <-; apply tidy_allb; vm_compute; reflexivity.
Qed.
Example C30_example :
  load_names (demo_load po_all 4) = Some [("one", ["uno"]); ("two", []); ("three", []); ("four", []); ("uno", [])] /\
  load_names (demo_load (mkPopts (Some (txt "four")) true) 4) = Some [("four", ["UNO"])] /\
  load_names (demo_load (mkPopts (Some (txt "UNO")) true) 4) = Some [("one", ["uno"]); ("uno", [])] /\
  (forall fuel, 4 <= fuel -> demo_load po_all fuel <> Fuel) /\ demo_load po_all 3 = Fuel.
Proof.
  split; [vm_compute; reflexivity|]. split; [vm_compute; reflexivity|]. split; [vm_compute; reflexivity|]. split; [|vm_compute; reflexivity].
  intros fuel Hf. apply C30_terminates with (files := map txt ["a"; "b"; "c"]).
  - discriminate.
  - intros p Hp. unfold demo_opens in Hp. apply existsb_exists in Hp as (q & Hq & E). apply neq_list_ok in E. subst q. exact Hq.
  - intros g Hg. vm_compute in Hg. discriminate Hg.
  - exact Hf.
Qed.
(** Between files only the names themselves are compared: two designs can be meant by the same name. *)
Theorem C30_alias_and_name_refuted : exists ds a b n, demo_load po_all 4 = Ok ds /\ In a ds /\ In b ds /\ c_name a <> c_name b /\ called a n /\ called b n.
Proof.
  assert (E : load_names (demo_load po_all 4) = Some [("one", ["uno"]); ("two", []); ("three", []); ("four", []); ("uno", [])]) by apply C30_example.
  assert (E2 : match demo_load po_all 4 with
    | Ok (a :: _ :: _ :: _ :: b :: _) => match c_name a, c_name b with Some x, Some y => negb (Neq_list x y) && Neq_list y (txt "uno") && existsb (Neq_list (txt "uno")) (c_aliases a) | _, _ => false end
    | _ => false end = true) by (vm_compute; reflexivity).
  destruct (demo_load po_all 4) as [[|a [|a2 [|a3 [|a4 [|b r]]]]]| | | |]; try discriminate E2. clear E.
  destruct (c_name a) as [x|] eqn:Ea; [|discriminate E2]. destruct (c_name b) as [y|] eqn:Eb; [|discriminate E2].
  apply andb_true_iff in E2 as [E2 E3]. apply andb_true_iff in E2 as [E1 E2]. apply neq_list_ok in E2. subst y. apply existsb_exists in E3 as (z & Hz & E3). apply neq_list_ok in E3. subst z.
  eexists _, a, b, (txt "uno"). split; [reflexivity|]. split; [left; reflexivity|]. split; [right; right; right; right; left; reflexivity|]. split.
  - rewrite Ea, Eb. intros F. injection F as ->. destruct (Neq_list (txt "uno") (txt "uno")) eqn:F; [discriminate E1|]. vm_compute in F. discriminate F.
  - split; [right; exists (txt "uno"); split; [exact Hz|apply nocase_refl]|left; exists (txt "uno"); split; [exact Eb|apply nocase_refl]].
Qed.

(** ** C56: tags *)
(** What a list of tags adds: the entries between commas, without the blanks around them, if they are well-formed tags. *)
Theorem C56_tag_list : forall U tags l, uctab_ok U -> Forall (fun s => plain_text s /\ Forall (fun c => is_allowed_anywhere U c = true) s) l ->
  Forall good_tag tags -> NoDup tags ->
  exists tags', tag_list U tags l = Ok tags' /\ Forall good_tag tags' /\ NoDup tags' /\
    forall t, In t tags' <-> In t tags \/ exists s, In s l /\ tag_in U s t.
Proof. intros U tags l HU Hl Hg Hd. apply tag_list_ok; assumption. Qed.

(** all tags of all designs are well formed and different *)
Definition plain_tags (i : item) : Prop :=
  match i with i_tags l => Forall plain_text l | i_keyword k v => nocase k (txt "tags") -> plain_text v | _ => True end.
Definition plain_tags_stmt (s : stmt) : Prop := match s with s_box _ _ l _ => Forall plain_tags l | _ => True end.
Lemma tag_list_sound : forall U, uctab_ok U -> forall l tags out, Forall plain_text l -> Forall good_tag tags -> NoDup tags -> tag_list U tags l = Ok out ->
  Forall good_tag out /\ NoDup out.
Proof.
  intros U HU. induction l as [|s l IH]; intros tags out Hl Hg Hd H; cbn [tag_list] in H; [injection H as <-; auto|].
  inversion Hl as [|? ? P Hr]; subst. apply bind_ok in H as (b & Hb & H). apply bind_ok in H as (t1 & H1 & H). destruct b as [b|]; [|discriminate H1].
  destruct (tag_record_ok U HU s b tags P Hb Hg Hd) as (t2 & E2 & G2 & D2 & _). rewrite E2 in H1. injection H1 as <-. eapply IH; eassumption.
Qed.
Theorem C56_all_tags : forall U beyond po eol children fopen_ok sur stmts ds ps, uctab_ok U -> Forall plain_tags_stmt stmts ->
  parse_config_file U beyond po eol children fopen_ok sur (Some stmts) = Ok (ds, ps) ->
  Forall (fun d => Forall good_tag (c_tags d) /\ NoDup (c_tags d)) ds.
Proof.
  intros U beyond po eol children fopen_ok sur stmts ds ps HU Ht H.
  apply (parse_config_ok U beyond po eol children fopen_ok sur (fun st => Forall good_tag (c_tags (curdes st)) /\ NoDup (c_tags (curdes st)))
    (fun d => Forall good_tag (c_tags d) /\ NoDup (c_tags d)) plain_tags) with (contents := Some stmts) (ps := ps); try (intros; assumption).
  - intros st -> _ _. split; constructor.
  - intros st p Hs. unfold add_parent. destruct (existsb _ _); exact Hs.
  - intros st i st' Hi [Hg Hd] E. destruct i as [k v|l|s|l|l|s r m|s r m|l| |]; cbn [do_item] in E.
    + apply bind_ok in E as (b & Hb & E). apply then_ok in E as (c & [E|E] & E2); [|elim (record_keyword_accept _ _ _ _ _ E)]. injection E2 as <-. cbn [with_cur curdes].
      unfold action_record_keyword in E. destruct (negb _); [discriminate E|]. destruct b as [b|]; [|discriminate E].
      destruct (same_nocase k _); [injection E as <-; auto|]. destruct (same_nocase k _); [injection E as <-; auto|]. destruct (same_nocase k (Model_Discovery.lit "tags")) eqn:Ek.
      * apply bind_ok in E as (t & Et & E). injection E as <-. cbn [set_tags c_tags]. cbn [plain_tags] in Hi. specialize (Hi (proj1 (same_ok _ _) Ek)).
        destruct (tag_record_ok U HU v b _ Hi Hb Hg Hd) as (t2 & E2 & G2 & D2 & _). rewrite E2 in Et. injection Et as <-. auto.
      * destruct (same_nocase k (Model_Discovery.lit "indent")); [|discriminate E]. destruct (existsb _ _); [injection E as <-; auto|discriminate E].
    + apply bind_ok in E as (t & Et & E). injection E as <-. cbn [with_cur curdes set_tags c_tags]. eapply tag_list_sound; eassumption.
    + apply bind_ok in E as (b & _ & E). unfold action_sample_block in E. destruct (c_sample _); [discriminate E|]. destruct b; [|discriminate E].
      apply bind_ok in E as (o & _ & E). destruct o as [o|]; [|discriminate E]. destruct (Nat.eqb _ 0); [discriminate E|]. destruct (negb _); [discriminate E|]. injection E as <-. auto.
    + apply then_ok in E as (st1 & E1 & E2).
      assert (K : forall l st0 st1, shapes_list U st0 l = Ok (RC_SUCCESS st1) \/ shapes_list U st0 l = Ok (RC_ACCEPT st1) -> c_tags (curdes st1) = c_tags (curdes st0)).
      { clear. induction l as [|[i d] l IH]; intros st0 st1 [H|H]; cbn [shapes_list] in H; [injection H as <-; reflexivity|discriminate H|..];
          unfold then_ in H; apply bind_ok in H as ([s| | |s] & _ & H); try discriminate H; destruct (isempty _); try discriminate H; (first [specialize (IH _ _ (or_introl H))|specialize (IH _ _ (or_intror H))]); exact IH. }
      apply K in E1. unfold action_finalize_shapes in E2. destruct (Nat.ltb _ 1); [discriminate E2|]. apply then_ok in E2 as (sh & _ & E2). destruct (negb _); [discriminate E2|].
      cbv zeta in E2. destruct (_ && _); [discriminate E2|]. injection E2 as <-. cbn [with_counts with_cur curdes set_sizes set_shape c_tags]. rewrite E1. auto.
    + unfold action_elastic in E. cbv zeta in E. destruct (_ && _); [discriminate E|]. injection E as <-. auto.
    + apply bind_ok in E as (b & _ & E). apply bind_ok in E as (b' & _ & E). apply then_ok in E as (x & _ & E). injection E as <-. auto.
    + apply bind_ok in E as (b & _ & E). apply bind_ok in E as (b' & _ & E). apply then_ok in E as (x & _ & E). injection E as <-. auto.
    + injection E as <-. auto.
    + injection E as <-. auto.
    + discriminate E.
Qed.
Example C56_example :
  tag_list demo_tab [] [txt "simple ,  a-b,,Bad,x--y"; txt "simple"; txt "c"; txt " d,c "] = Ok [txt "simple"; txt "a-b"; txt "c"; txt "d"] /\
  (forall l, forallb (forallb is_ascii_printable) l = true -> exists tags, tag_list demo_tab [] l = Ok tags).
Proof.
  split; [vm_compute; reflexivity|]. intros l H. destruct (C56_tag_list demo_tab [] l demo_tab_ok) as (t & E & _); [|constructor|constructor|eauto].
  rewrite forallb_forall in H. apply Forall_forall. intros s Hs. specialize (H s Hs). rewrite forallb_forall in H. split.
  - apply Forall_forall. intros c Hc. specialize (H c Hc). unfold is_ascii_printable in H. apply andb_true_iff in H as [H1 H2]. apply N.leb_le in H1. apply N.ltb_lt in H2. lia.
  - apply Forall_forall. intros c Hc. specialize (H c Hc). unfold is_allowed_anywhere. rewrite (ok_cntrl demo_tab demo_tab_ok c H). reflexivity.
Qed.

(** ** C57: the indentation mode of a design *)
(** accepted in any case, and then the first letter is kept as it was written *)
Theorem C57_indent_mode : forall U c v b c', string_tok U v = Ok (Some b) -> action_record_keyword U c (txt "indent") (Some b) = Ok (RC_SUCCESS c') ->
  In (c_indentmode c') [98; 110; 116; 66; 78; 84]%N /\
  (In (c_indentmode c') [98; 110; 116]%N <-> exists w, In w (map txt ["box"; "none"; "text"]) /\ nocase (ascii b) w /\ hd 0%N (ascii b) = hd 0%N w).
Proof.
  intros U c v b c' Hb H. unfold action_record_keyword in H. destruct (negb _); [discriminate H|].
  change (same_nocase (txt "indent") (Model_Discovery.lit "author")) with false in H. change (same_nocase (txt "indent") (Model_Discovery.lit "designer")) with false in H.
  change (same_nocase (txt "indent") (Model_Discovery.lit "tags")) with false in H. change (same_nocase (txt "indent") (Model_Discovery.lit "indent")) with true in H. cbv iota in H.
  destruct (existsb _ _) eqn:Ee; [|discriminate H]. injection H as <-. cbn [set_indentmode c_indentmode].
  apply existsb_exists in Ee as (w & Hw & E). apply same_ok in E.
  assert (Hw' : In w (map txt ["box"; "none"; "text"])) by (clear -Hw; cbn in Hw |- *; tauto).
  assert (X : exists x y r, w = y :: r /\ ascii b = x :: tl (ascii b) /\ same_letter x y).
  { destruct E as [|x y l l' S E]; [cbn in Hw; destruct Hw as [F|[F|[F|[]]]]; discriminate F|]. exists x, y, l'. auto. }
  destruct X as (x & y & r & Ew & Ea & S). rewrite Ea. cbn [hd].
  assert (Y : In y [98; 110; 116]%N) by (rewrite Ew in Hw'; cbn in Hw'; destruct Hw' as [F|[F|[F|[]]]]; injection F as <- _; cbn; auto).
  unfold same_letter in S. split; [cbn [In] in *; lia|]. split.
  - intros Hx. exists w. split; [exact Hw'|]. split; [rewrite <- Ea; exact E|]. rewrite Ew. cbn [hd]. cbn [In] in *. lia.
  - intros (w' & Hw2 & _ & ->). cbn in Hw2. destruct Hw2 as [<-|[<-|[<-|[]]]]; cbn; auto.
Qed.
(** Drawing knows lower case only: with "Box" the box is not indented at all, as with "none". *)
Definition indented_box (mode : string) : stmt :=
  s_box (txt "i") [] [i_keyword (txt "INDENT") (txt mode); i_sample (txt "+-+"); i_shapes plain_shapes; i_elastic [N_; S_; W_; E_]] (txt "i").
Definition draw_with (mode : string) : option (list N) :=
  match demo_parse po_all [indented_box mode] with
  | Ok (d :: _, _) => match boxes_draw demo_tab 100 false [10%N] opts0 (to_design d) [] [(txt "  x" ++ [10%N])%list] with Ok out => Some out | _ => None end
  | _ => None
  end.
Theorem C57_upper_case_refuted :
  nocase (txt "Box") (txt "box") /\
  draw_with "box" = Some (concat (map (fun s => txt s ++ [10%N])%list ["  +-+"; "  |x|"; "  +-+"])) /\
  draw_with "Box" = draw_with "none" /\ draw_with "Box" = Some (concat (map (fun s => txt s ++ [10%N])%list ["+-+"; "|x|"; "+-+"])) /\
  draw_with "Text" = draw_with "none" /\ draw_with "text" <> draw_with "none".
Proof.
  split; [apply same_ok; reflexivity|]. repeat split; vm_compute; (reflexivity || discriminate).
Qed.

Print Assumptions C28_accepted_designs.
Print Assumptions C28_whole_configuration.
Print Assumptions C28_reads_behind_array_refuted.
Print Assumptions C28_sample_not_needed_refuted.
Print Assumptions C28_control_character_refuted.
Print Assumptions C29_keeps_and_adds_blanks.
Print Assumptions C29_fits.
Print Assumptions C29_left_side_refuted.
Print Assumptions C30_terminates.
Print Assumptions C30_order.
Print Assumptions C30_names_in_a_file.
Print Assumptions C30_chosen_design.
Print Assumptions C30_alias_and_name_refuted.
Print Assumptions C56_tag_list.
Print Assumptions C56_all_tags.
Print Assumptions C57_indent_mode.
Print Assumptions C57_upper_case_refuted.
