(** * What a design in a configuration file says: C65 *)
From Coq Require Import Ascii String List Arith NArith ZArith Bool Lia.
From Verif Require Import Base BaseFacts Model_Unicode Model_Bxs Model_Shape Spec_Str Spec_Design Demo Prop_Str Model_Query Spec_Query Proof_Query Spec_Cmdline Proof_Options
  Model_Discovery Model_Parser Spec_Parser Prop_Parser Spec_Layout Proof_Layout Proof_Bxs Proof_BxsOps Proof_BxsMore Proof_Shows Proof_Decide Model_Scan Shipped Proof_Shipped Prop_Shipped.
Import ListNotations.
Local Open Scope nat_scope.
Local Open Scope list_scope.

(** Every design that is loaded from a file is the one described by a statement of the file. *)
Theorem C65_described : forall U beyond po eol children fopen_ok sur stmts ds ps, uctab_ok U -> uc_is_blank U 10 = false -> Forall (legible_stmt U) stmts ->
  parse_config_file U beyond po eol children fopen_ok sur (Some stmts) = Ok (ds, ps) ->
  exists ss, subseq ss stmts /\ Forall2 (stands_for U eol children) ss ds.
Proof. intros U beyond po eol children fopen_ok sur stmts ds ps HU NL L H. exact (file_stands U HU NL beyond po eol children fopen_ok sur stmts ds ps L H). Qed.
Print Assumptions C65_described.

(** ** The description leaves nothing open *)
Lemma latest_unique : forall A B (f : A -> option B) l d b b', latest f l d b -> latest f l d b' -> b = b'.
Proof. intros A B f l d b b' H H'. apply latest_fold in H. apply latest_fold in H'. congruence. Qed.
Lemma Forall2_unique : forall A B (R : A -> B -> Prop), (forall a b b', R a b -> R a b' -> b = b') -> forall l m m', Forall2 R l m -> Forall2 R l m' -> m = m'.
Proof.
  intros A B R H l m m' F. revert m'. induction F as [|a b l m H1 F IH]; intros m' F'; inversion F' as [|? b' ? m1 H1' F1]; subst; [reflexivity|].
  f_equal; [exact (H _ _ _ H1 H1')|exact (IH _ F1)].
Qed.
Lemma keyworded_unique : forall w i l l', keyworded w i l -> keyworded w i l' -> l = l'.
Proof. intros w i l l' H H'. destruct i; cbn [keyworded] in *; try congruence. destruct H as [[A ->]|[A ->]], H' as [[B ->]|[B ->]]; contradiction || reflexivity. Qed.
Lemma indent_unique : forall i l l', indent_entry i l -> indent_entry i l' -> l = l'.
Proof. intros i l l' H H'. destruct i; cbn [indent_entry] in *; try congruence. destruct H as [(A & _ & ->)|[A ->]], H' as [(B & _ & ->)|[B ->]]; contradiction || reflexivity. Qed.
Lemma area_unique : forall area w l w' l', In (w, l) areas_of_padding -> In (w', l') areas_of_padding -> short_for area w -> short_for area w' ->
  (area = [] -> w = "all"%string) -> (area = [] -> w' = "all"%string) -> w = w' /\ l = l'.
Proof.
  intros area w l w' l' H H' S S' N N'. destruct area as [|c r].
  { specialize (N eq_refl). specialize (N' eq_refl). subst w w'. split; [reflexivity|]. cbn [areas_of_padding In] in H, H'.
    repeat destruct H as [H|H]; try contradiction H; inversion H; subst; repeat destruct H' as [H'|H']; try contradiction H'; inversion H'; subst; reflexivity. }
  assert (F : forall v, short_for (c :: r) v -> exists d, hd 0%N (Model_Discovery.lit v) = d /\ same_letter c d).
  { intros v (a & b & E & Q). inversion Q as [|? d ? s Q1 Q2]; subst. exists d. rewrite E. auto. }
  destruct (F _ S) as (d & D & X). destruct (F _ S') as (d' & D' & X'). subst d d'. clear F S S' N N'. unfold same_letter in X, X'. cbn [areas_of_padding In] in H, H'.
  repeat destruct H as [H|H]; try contradiction H; inversion H; subst; clear H; repeat destruct H' as [H'|H']; try contradiction H'; inversion H'; subst; clear H';
    try (split; reflexivity); exfalso; cbn [Model_Discovery.lit hd map list_ascii_of_string] in X, X'; repeat match goal with Y : context [N_of_ascii ?a] |- _ => let v := eval vm_compute in (N_of_ascii a) in change (N_of_ascii a) with v in Y end; lia.
Qed.
Lemma pad_unique : forall e g g', pad_entry e g -> pad_entry e g' -> g = g'.
Proof.
  intros [area v] g g' H H'. unfold pad_entry in *. cbn [fst snd] in *.
  destruct H as [(L & w & l & A & B & C & ->)|[N ->]], H' as [(L' & w' & l' & A' & B' & C' & ->)|[N' ->]]; [| | |reflexivity].
  - destruct (area_unique _ _ _ _ _ A A' B B' C C') as [_ ->]. reflexivity.
  - exfalso. destruct N' as [N|N]; [lia|exact (N _ _ A B)].
  - exfalso. destruct N as [N|N]; [lia|exact (N _ _ A' B')].
Qed.
Lemma block_unique : forall i g g', padding_block i g -> padding_block i g' -> g = g'.
Proof.
  intros i g g' H H'. destruct i; cbn [padding_block] in *; try congruence. destruct H as (x & X & ->), H' as (y & Y & ->).
  rewrite (Forall2_unique _ _ _ pad_unique _ _ _ X Y). reflexivity.
Qed.
Lemma lines_apart : forall U, uc_is_blank U 10 = false -> forall b b' r r', Forall (fun c => uc_is_blank U c = true \/ c = 13%N) b -> Forall (fun c => uc_is_blank U c = true \/ c = 13%N) b' ->
  b ++ 10%N :: r = b' ++ 10%N :: r' -> b = b' /\ r = r'.
Proof.
  intros U NL. induction b as [|c b IH]; intros b' r r' H H' E; destruct b' as [|c' b'].
  - injection E as ->. auto.
  - injection E as <- _. inversion H' as [|? ? [Q|Q] _]; subst; [congruence|discriminate Q].
  - injection E as -> _. inversion H as [|? ? [Q|Q] _]; subst; [congruence|discriminate Q].
  - injection E as -> E. inversion H; inversion H'; subst. destruct (IH b' r r') as [-> ->]; auto.
Qed.
Lemma blank_unique : forall U, uc_is_blank U 10 = false -> forall a, blank_lines U a -> forall a' b b', blank_lines U a' -> ~ starts_blank U b -> ~ starts_blank U b' -> a ++ b = a' ++ b' -> b = b'.
Proof.
  intros U NL a Ha. induction Ha as [|x r Hx Hr IH]; intros a' b b' Ha' Nb Nb' E; destruct Ha' as [|x' r' Hx' Hr'].
  - exact E.
  - elim Nb. cbn [app] in E. subst b. rewrite <- app_assoc. exists x', (r' ++ b'). auto.
  - elim Nb'. cbn [app] in E. subst b'. rewrite <- app_assoc. exists x, (r ++ b). auto.
  - rewrite <- !app_assoc in E. cbn [app] in E. destruct (lines_apart U NL _ _ _ _ Hx Hx' E) as [_ E']. exact (IH _ _ _ Hr' Nb Nb' E').
Qed.
Lemma terminators_unique : forall eol s t, terminators_replaced eol s t -> forall t', terminators_replaced eol s t' -> t = t'.
Proof.
  intros eol s t H. induction H as [|r r' H IH|r r' N H IH|r r' H IH|c r r' N1 N2 H IH]; intros t' H'; inversion H'; subst; cbn [hd] in *; try congruence; try (f_equal; auto).
Qed.
Lemma sample_unique : forall U eol, uc_is_blank U 10 = false -> forall s t t', sample_shown U eol s t -> sample_shown U eol s t' -> t = t'.
Proof.
  intros U eol NL s t t' (a & b & E & A & B & C) (a' & b' & E' & A' & B' & C'). rewrite E in E'. rewrite (blank_unique U NL a A a' b b' A' B B' E') in C. exact (terminators_unique _ _ _ C _ C').
Qed.
(** what can be seen of a design of this file *)
Record looks_same (layout : list item) (d d' : cdesign) : Prop := {
  ls_author : option_map memory (c_author d) = option_map memory (c_author d');
  ls_designer : option_map memory (c_designer d) = option_map memory (c_designer d');
  ls_indent : c_indentmode d = c_indentmode d';
  ls_tags : forall t, In t (c_tags d) <-> In t (c_tags d');
  ls_padding : forall s, c_padding d s = c_padding d' s;
  ls_replace : map texts_of (c_reprules d) = map texts_of (c_reprules d');
  ls_reverse : map texts_of (c_revrules d) = map texts_of (c_revrules d');
  ls_sample : option_map memory (c_sample d) = option_map memory (c_sample d');
  ls_shapes : forall i, In i (map fst (given layout)) -> map memory (s_mbcs (c_shape d i)) = map memory (s_mbcs (c_shape d' i)) /\ s_elastic (c_shape d i) = s_elastic (c_shape d' i)
}.
Theorem C65_unique : forall U eol layout d d', uc_is_blank U 10 = false -> described U eol layout d -> described U eol layout d' -> looks_same layout d d'.
Proof.
  intros U eol layout d d' NL A B. constructor.
  - destruct (dc_author _ _ _ _ A) as (x & X1 & X2), (dc_author _ _ _ _ B) as (y & Y1 & Y2). rewrite (Forall2_unique _ _ _ (keyworded_unique "author") _ _ _ X1 Y1) in X2. exact (latest_unique _ _ _ _ _ _ _ X2 Y2).
  - destruct (dc_designer _ _ _ _ A) as (x & X1 & X2), (dc_designer _ _ _ _ B) as (y & Y1 & Y2). rewrite (Forall2_unique _ _ _ (keyworded_unique "designer") _ _ _ X1 Y1) in X2. exact (latest_unique _ _ _ _ _ _ _ X2 Y2).
  - destruct (dc_indent _ _ _ _ A) as (x & X1 & X2), (dc_indent _ _ _ _ B) as (y & Y1 & Y2). rewrite (Forall2_unique _ _ _ indent_unique _ _ _ X1 Y1) in X2. exact (latest_unique _ _ _ _ _ _ _ X2 Y2).
  - intros t. rewrite (proj2 (dc_tags _ _ _ _ A)), (proj2 (dc_tags _ _ _ _ B)). reflexivity.
  - intros s. destruct (dc_padding _ _ _ _ A s) as (x & X1 & X2), (dc_padding _ _ _ _ B s) as (y & Y1 & Y2). rewrite (Forall2_unique _ _ _ block_unique _ _ _ X1 Y1) in X2. exact (latest_unique _ _ _ _ _ _ _ X2 Y2).
  - rewrite (dc_replace _ _ _ _ A), (dc_replace _ _ _ _ B). reflexivity.
  - rewrite (dc_reverse _ _ _ _ A), (dc_reverse _ _ _ _ B). reflexivity.
  - destruct (dc_sample _ _ _ _ A) as [[X1 X2]|(s & x & X1 & X2 & X3)], (dc_sample _ _ _ _ B) as [[Y1 Y2]|(t & y & Y1 & Y2 & Y3)]; rewrite X2, Y2; [reflexivity|rewrite X1 in Y1; discriminate Y1|rewrite X1 in Y1; discriminate Y1|].
    rewrite X1 in Y1. injection Y1 as <-. cbn [option_map]. rewrite (sample_unique U eol NL s _ _ X3 Y3). reflexivity.
  - intros i Hi. apply in_map_iff in Hi as ([j t] & Ej & Hi). cbn [fst] in Ej. subst j. split.
    + rewrite (proj1 (dc_shapes _ _ _ _ A i t Hi)), (proj1 (dc_shapes _ _ _ _ B i t Hi)). reflexivity.
    + unfold given in Hi. apply in_flat_map in Hi as (x & Hx & Hi). destruct x; try contradiction Hi. apply in_split in Hx as (l1 & l2 & ->).
      pose proof (dc_elastic _ _ _ _ A _ _ _ _ _ eq_refl Hi) as P. pose proof (dc_elastic _ _ _ _ B _ _ _ _ _ eq_refl Hi) as Q.
      destruct (s_elastic (c_shape d i)), (s_elastic (c_shape d' i)); try reflexivity; [symmetry; apply Q, P; reflexivity|apply P, Q; reflexivity].
Qed.
Print Assumptions C65_unique.

(** ** Example: repeated entries, abbreviations *)
Local Open Scope string_scope.
Definition rich : stmt :=
  s_box (txt "Rich") [txt "full"; txt "used"]
    [i_keyword (txt "author") (txt "First"); i_tags [txt "big, old"]; i_keyword (txt "INDENT") (txt "text"); i_sample (app [32; 13; 10; 10]%N (txt " +-+")); i_keyword (txt "Author") (txt "Second");
     i_shapes plain_shapes; i_padding [(txt "all", 3%Z); (txt "hor", 1%Z); (txt "top", (-3)%Z)]; i_keyword (txt "indent") (txt "None");
     i_replace (txt "a") (txt "b") 111; i_elastic [N_; S_; W_; E_]; i_ignored; i_elastic [E_]; i_replace (txt "c") (txt "") 103; i_reverse (txt "b") (txt "a") 103; i_keyword (txt "tags") (txt "old,new"); i_padding [(txt "l", 0%Z); (txt "xyz", 7%Z)]]
    (txt "RICH").
Definition other_file : list cdesign := [set_aliases [txt "USED"] init_design].
Definition rich_design : cdesign :=
  match parse_config_file demo_tab (Ok sentry0) po_all [13; 10]%N other_file (fun _ => true) no_sur (Some [s_junk; rich]) with Ok (d :: _, _) => d | _ => init_design end.
(** deciding [legible] *)
Definition wideb (U : uctab) (t : list N) : bool := if negb (is_nil t) && forallb is_ascii_printable t then true else tidy_textb U t && match bxs_from_unicode U t with Ok b => (0 <? num_columns b)%nat | _ => false end.
Lemma wideb_ok : forall U t, uctab_ok U -> wideb U t = true -> exists w, shows U w t /\ 0 < w.
Proof.
  intros U t HU H. unfold wideb in H. destruct (negb (is_nil t) && forallb is_ascii_printable t) eqn:Q.
  { apply andb_true_iff in Q as [H1 H2]. exists (List.length t). split; [apply shows_ascii; assumption|]. destruct t; [discriminate H1|cbn; lia]. }
  apply andb_true_iff in H as [H1 H2]. destruct (tidy_textb_ok U t H1) as (w & S). exists w. split; [exact S|].
  destruct (shows_from U HU w t S) as (b & E & _ & C & _). rewrite E, C in H2. apply Nat.ltb_lt. exact H2.
Qed.
Definition notb (bad : list N) (c : N) : bool := negb (existsb (N.eqb c) bad).
Definition legibleb (U : uctab) (i : item) : bool :=
  match i with
  | i_keyword k v => implb (same_nocase k (txt "tags")) (forallb (notb [27; 9; 10]%N) v) && implb (same_nocase k (txt "indent")) (forallb is_ascii_printable v)
  | i_tags l => forallb (forallb (notb [27; 9; 10]%N)) l
  | i_sample s => if forallb (notb [27]%N) s && match rev s with c :: _ => negb (is_blank U c) | [] => false end then true else
      tidy_textb U s && match bxs_from_unicode U s with Ok b => negb (Nat.eqb (indent b) (num_columns b)) && Nat.eqb (trailing b) 0 | _ => false end
  | i_shapes l => forallb (fun p => match snd p with no_lines => true | lines f more => forallb (wideb U) (f :: more) end) l
  | _ => true
  end.
Lemma notb_ok : forall bad c, notb bad c = true -> forall b, In b bad -> c <> b.
Proof. intros bad c H b Hb ->. unfold notb in H. apply negb_true_iff in H. rewrite (proj2 (existsb_exists _ _)) in H; [discriminate H|]. exists b. split; [exact Hb|apply N.eqb_refl]. Qed.
Lemma plainb_ok : forall v, forallb (notb [27; 9; 10]%N) v = true -> plain_text v.
Proof. intros v H. rewrite forallb_forall in H. apply Forall_forall. intros c Hc. pose proof (notb_ok _ _ (H c Hc)) as Q. repeat split; apply Q; cbn; auto. Qed.
Lemma legibleb_ok : forall U i, uctab_ok U -> legibleb U i = true -> legible U i.
Proof.
  intros U i HU H. destruct i; cbn [legibleb legible] in *; try exact I.
  - apply andb_true_iff in H as [H1 H2]. split; intros K; apply same_ok in K.
    + change (same_nocase keyword (txt "tags") = true) in K. rewrite K in H1. apply plainb_ok. exact H1.
    + change (same_nocase keyword (txt "indent") = true) in K. rewrite K in H2. cbn [implb] in H2. rewrite forallb_forall in H2. apply Forall_forall. intros c Hc. specialize (H2 c Hc).
      unfold is_ascii_printable in H2. apply andb_true_iff in H2 as [A B]. apply N.leb_le in A. apply N.ltb_lt in B. lia.
  - rewrite forallb_forall in H. apply Forall_forall. intros s Hs. apply plainb_ok. auto.
  - destruct (_ && match rev s with [] => _ | _ => _ end) eqn:Q; [apply andb_true_iff in Q as [H1 H2]|apply andb_true_iff in H as [H1 H2]].
    + destruct (rev s) as [|c r] eqn:E; [discriminate H2|]. apply negb_true_iff in H2. assert (Es : s = (rev r ++ [c])%list) by (rewrite <- (rev_involutive s), E; reflexivity).
      exists (Proof_BxsOps.plain s), (rev r), c. rewrite render_plain, visible_plain. repeat split; try assumption; apply closed_plain.
      all: intros F; rewrite forallb_forall in H1; exact (notb_ok _ _ (H1 _ F) _ (or_introl eq_refl) eq_refl).
    + destruct (tidyb_ok U _ _ H1) as (ts & [R1 R2] & K & _). destruct (bxs_from_unicode U s) as [b| | | |] eqn:E; try discriminate H2.
      assert (CL : clean ts) by (split; assumption). rewrite <- R2 in E. destruct (from_unicode_clean_inv U ts b CL E) as (-> & _ & _). apply andb_true_iff in H2 as [B T].
      apply Nat.eqb_eq in T. cbn [bx trailing indent num_columns] in *. destruct (all_blank U (visible ts)) eqn:A.
      * exfalso. apply negb_true_iff in B. apply Nat.eqb_neq in B. apply B. unfold lead_cols. rewrite (lead_trail_all _ _ A), firstn_all. unfold columns. clear. induction (visible ts) as [|v l IH]; [reflexivity|]. cbn [map fold_right]. rewrite <- IH. reflexivity.
      * destruct (exists_last (l := visible ts)) as (l & v & Ev'); [intros F; rewrite F in A; discriminate A|]. rewrite Ev', trail_app in T. cbn in T. destruct (is_blank U v) eqn:Ev; [discriminate T|]. exists ts, l, v. auto.
  - rewrite forallb_forall in H.
    assert (Q : forall p t, In p l -> match snd p with no_lines => False | lines f more => In t (f :: more) end -> exists w, shows U w t /\ 0 < w).
    { intros p t Hp Ht. specialize (H p Hp). destruct (snd p) as [|f more]; [contradiction Ht|]. rewrite forallb_forall in H. apply wideb_ok; auto. }
    split; apply Forall_forall; intros p Hp.
    + specialize (fun t => Q p t Hp). destruct (snd p) as [|f more]; [exact I|]. cbn [tidy_shape].
      assert (R : forall t, In t (f :: more) -> tidy_text U t) by (intros t Ht; destruct (Q t Ht) as (w & S & _); exists w; exact S).
      split; [apply R; left; reflexivity|]. apply Forall_forall. intros t Ht. apply R. right. exact Ht.
    + unfold given_in in Hp. apply in_flat_map in Hp as (q & Hq & Hp). specialize (fun t => Q q t Hq). destruct (snd q) as [|f more]; [contradiction Hp|]. destruct Hp as [<-|[]]. cbn [snd].
      apply Forall_forall. exact Q.
Qed.
Definition legible_stmtb (U : uctab) (s : stmt) : bool := match s with s_box _ _ l _ => forallb (legibleb U) l | _ => true end.
Lemma legible_stmtb_ok : forall U s, uctab_ok U -> legible_stmtb U s = true -> legible_stmt U s.
Proof.
  intros U s HU H. destruct s; cbn [legible_stmt legible_stmtb] in *; try exact I. rewrite forallb_forall in H. apply Forall_forall. intros i Hi. apply legibleb_ok; auto.
Qed.
Lemma rich_legible : legible_stmt demo_tab rich.
Proof. apply legible_stmtb_ok; [exact demo_tab_ok|]. vm_compute. reflexivity. Qed.
Example C65_example :
  (exists ps, parse_config_file demo_tab (Ok sentry0) po_all [13; 10]%N other_file (fun _ => true) no_sur (Some [s_junk; rich]) = Ok ([rich_design], ps)) /\
  stands_for demo_tab [13; 10]%N other_file rich rich_design /\
  option_map (fun a => str (memory a)) (c_author rich_design) = Some "Second" /\ c_designer rich_design = None /\ c_indentmode rich_design = 78%N /\ map str (c_aliases rich_design) = ["full"] /\
  map str (c_tags rich_design) = ["big"; "old"; "new"] /\ map (c_padding rich_design) [BTOP; BRIG; BBOT; BLEF] = [3; 1; 3; 0] /\
  option_map memory (c_sample rich_design) = Some (app (txt " +-+") [13; 10]%N) /\ map (fun i => s_elastic (c_shape rich_design i)) [NW; N_; E_; S_; W_] = [false; true; true; true; true] /\
  (c_minwidth rich_design, c_minheight rich_design, c_maxshapeheight rich_design) = (3, 3, 1).
Proof.
  assert (E : parse_config_file demo_tab (Ok sentry0) po_all [13; 10]%N other_file (fun _ => true) no_sur (Some [s_junk; rich]) = Ok ([rich_design], [])).
  { assert (X : match parse_config_file demo_tab (Ok sentry0) po_all [13; 10]%N other_file (fun _ => true) no_sur (Some [s_junk; rich]) with Ok ([_], []) => true | _ => false end = true) by (vm_compute; reflexivity).
    unfold rich_design. destruct (parse_config_file _ _ _ _ _ _ _ _) as [[[|d [|]] [|]]| | | |]; try discriminate X. reflexivity. }
  split; [exists []; exact E|]. split; [|vm_compute; repeat split].
  assert (L : Forall (legible_stmt demo_tab) [s_junk; rich]) by (constructor; [exact I|constructor; [exact rich_legible|constructor]]).
  destruct (C65_described _ _ _ _ _ _ _ _ _ _ demo_tab_ok eq_refl L E) as (ss & S & F). clear E L. revert S F. generalize rich_design. intros d0 S F.
 inversion F as [|s d ss' ds' H F']; subst. inversion F'; subst.
  inversion S as [|x a b S1|x a b S1]; subst.
  - destruct H as (n & al & l & e & Q & _). discriminate Q.
  - inversion S1 as [|y a' b' S2|y a' b' S2]; subst; [exact H|inversion S2].
Qed.

(** ** What can go wrong *)
(** the value of "indent" is compared regardless of case and after non-ASCII characters have been replaced by x, but its first letter is stored as it is:
    "Text" gives a mode that is none of 'b', 't', 'n', and a word that is none of the three is taken for "box" *)
Definition indenting (v : list N) : stmt := s_box (txt "d") [] [i_keyword (txt "indent") v; i_sample (txt "x"); i_shapes plain_shapes; i_elastic [N_; E_; S_; W_]] (txt "d").
Definition loaded_mode (s : stmt) : option N := match demo_parse po_all [s] with Ok ([d], _) => Some (c_indentmode d) | _ => None end.
Theorem C65_indent_refuted :
  (exists v m, nocase v (txt "text") /\ loaded_mode (indenting v) = Some m /\ ~ In m [98; 116; 110]%N) /\
  (exists v m, loaded_mode (indenting v) = Some m /\ forall w, In w ["box"; "text"; "none"] -> ~ nocase v (txt w)).
Proof.
  split.
  - exists (txt "Text"), 84%N. split; [apply same_ok; reflexivity|]. split; [vm_compute; reflexivity|]. cbn. intuition discriminate.
  - exists [98; 111; 233]%N, 98%N. split; [vm_compute; reflexivity|]. intros w [<-|[<-|[<-|[]]]] H; apply same_ok in H; vm_compute in H; discriminate H.
Qed.
Print Assumptions C65_indent_refuted.

(** ** The shipped file: its 72 designs are the ones that its 72 statements describe *)
Lemma shipped_legible : forall V, forallb (legible_stmtb (drawing_tab V)) statement_list = true.
Proof. intros V. vm_compute. reflexivity. Qed.
Lemma forall2_count : forall A B (R : A -> B -> Prop) l m, Forall2 R l m -> List.length l = List.length m.
Proof. intros A B R l m H. induction H; cbn; congruence. Qed.
Lemma subseq_same : forall A (a b : list A), subseq a b -> List.length a <= List.length b /\ (List.length b <= List.length a -> a = b).
Proof.
  intros A a b H. induction H as [|x a b H [L E]|x a b H [L E]]; cbn [List.length].
  - auto.
  - split; [lia|]. intros F. rewrite E; [reflexivity|lia].
  - split; [lia|]. intros F. lia.
Qed.
Lemma all_described : forall V fopen_ok sur beyond l ds, Forall (legible_stmt (drawing_tab V)) l -> load_all V fopen_ok sur beyond l = Ok (ds, []) -> List.length ds = List.length l ->
  Forall2 (stands_for (drawing_tab V) [10%N] []) l ds.
Proof.
  intros V fopen_ok sur beyond l ds L E Q. assert (NL : uc_is_blank (drawing_tab V) 10 = false) by reflexivity. unfold load_all in E.
  destruct (C65_described _ _ _ _ _ _ _ _ _ _ (drawing_tab_ok V) NL L E) as (ss & S & F).
  pose proof (forall2_count _ _ _ _ _ F) as C. destruct (subseq_same _ _ _ S) as [_ R]. rewrite <- R; [exact F|lia].
Qed.
Lemma shipped_stmts_legible : forall V, Forall (legible_stmt (drawing_tab V)) statement_list.
Proof. intros V. pose proof (shipped_legible V) as H. rewrite forallb_forall in H. apply Forall_forall. intros x Hx. apply legible_stmtb_ok; [apply drawing_tab_ok|auto]. Qed.
Lemma count_of_names : List.length shipped_names = 72.
Proof. reflexivity. Qed.
(** [statement_list] is what [read_statements] makes of the text ([shipped_statements]) *)
Theorem C63_described : forall V fopen_ok sur s ds, isempty s = true -> load_shipped V fopen_ok sur (Ok s) boxes_config = Ok (ds, []) ->
  exists stmts, read_statements boxes_config = Ok stmts /\ Forall2 (stands_for (drawing_tab V) [10%N] []) stmts ds.
Proof.
  intros V fopen_ok sur s ds Hs E. exists statement_list. split; [exact shipped_statements|].
  rewrite (load_empty V fopen_ok sur s boxes_config Hs), (load_text V fopen_ok sur (Ok sentry0) boxes_config statement_list shipped_statements) in E.
  destruct (shipped_loaded V fopen_ok sur) as (ds' & E' & N & _). rewrite E in E'. injection E' as <-.
  apply (all_described V fopen_ok sur (Ok sentry0)); [apply shipped_stmts_legible|exact E|]. rewrite statement_count, <- (map_length name_of ds), N. exact count_of_names.
Qed.
Print Assumptions C63_described.
(** the statement for the design "stone", and what it says *)
Definition stone_stmt : stmt := hd s_junk (filter (fun s => match s with s_box n _ _ _ => String.eqb (str n) "stone" | _ => false end) statement_list).
Example C63_described_example : In stone_stmt statement_list /\
  stone_stmt = s_box (txt "stone") []
    [i_keyword (txt "author") (txt "Fredrik Steen <fsteen@stone.nu>"); i_keyword (txt "designer") (txt "Fredrik Steen <fsteen@stone.nu>"); i_tags (map txt ["simple"; "artwork"; "box"]);
     i_sample (app (txt "    +-------------+") (app [10%N] (app (txt "    |    stone    |") (app [10%N] (txt "    +-------------+"))))); i_shapes plain_shapes; i_padding [(txt "horiz", 1%Z)]; i_elastic [N_; E_; S_; W_]] (txt "stone").
Proof.
  split; [|vm_compute; reflexivity].
  assert (H : In stone_stmt (filter (fun s => match s with s_box n _ _ _ => String.eqb (str n) "stone" | _ => false end) statement_list)) by (vm_compute; left; reflexivity).
  apply filter_In in H as [H _]. exact H.
Qed.
