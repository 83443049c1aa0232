(** * Lemmas about the configuration file that comes with the program: computed facts *)
From Coq Require Import Ascii String List Arith NArith ZArith Bool Lia.
From Verif Require Import Base BaseFacts Model_Unicode Model_Bxs Model_Shape Model_Query Model_Discovery Model_Parser Model_Scan
  Spec_Str Spec_Design Spec_Box Spec_Parser Spec_Remove Proof_ScanMore Proof_Isolated Spec_Grammar Proof_Fast Proof_Chosen Proof_Decide Demo Shipped.
Import ListNotations.
Local Open Scope nat_scope.
Local Open Scope list_scope.

(** ** The table: as [V], with the values of libunistring for ASCII and for the block of box drawing and block element characters *)
Definition drawing (c : N) : bool := ((9472 <=? c) && (c <=? 9631))%N.
Definition drawing_tab (V : uctab) : uctab := mkUctab
  (fun c => if (c <? 128)%N then (if is_ascii_printable c then 1 else -1)%Z else if drawing c then 1%Z else uc_width V c)
  (fun c => if (c <? 128)%N then (N.eqb c 32 || N.eqb c 9) else if drawing c then false else uc_is_blank V c)
  (fun c => if (c <? 128)%N then negb (is_ascii_printable c) else if drawing c then false else uc_is_cntrl V c)
  (fun c => if (c <? 128)%N then (N.eqb c 32 || ((9 <=? c) && (c <=? 13))%N) else if drawing c then false else uc_ws V c).
Lemma drawing_tab_ok : forall V, uctab_ok (drawing_tab V).
Proof.
  intros V. assert (A : forall c, is_ascii_printable c = true -> (c <? 128)%N = true /\ c <> 9%N).
  { intros c H. unfold is_ascii_printable in H. apply andb_true_iff in H as [H1 H2]. apply N.leb_le in H1. apply N.leb_le in H2 || apply N.ltb_lt in H2.
    split; [apply N.ltb_lt|]; lia. }
  constructor.
  - intros c H. destruct (A c H) as [E _]. cbn [drawing_tab uc_width]. rewrite E, H. reflexivity.
  - intros c H. destruct (A c H) as [E _]. cbn [drawing_tab uc_is_cntrl]. rewrite E, H. reflexivity.
  - reflexivity.
  - intros c H B. destruct (A c H) as [E N]. cbn [drawing_tab uc_is_blank] in B. rewrite E in B. apply orb_true_iff in B as [B|B]; apply N.eqb_eq in B; congruence.
Qed.

(** ** The statements of the file *)
Definition part_text (p : list string) : list N := flat_map file_line p.
Lemma part_ends : forall p, p <> [] -> exists u, part_text p = u ++ [10%N].
Proof.
  intros p H. destruct (exists_last H) as (q & s & ->). unfold part_text. rewrite flat_map_app. cbn [flat_map]. rewrite app_nil_r. unfold file_line at 2.
  eexists. rewrite app_assoc. reflexivity.
Qed.
(** Every part is one statement. *)
Lemma parts_read : forall ps l, map (fun p => fast_statement (part_text p)) ps = map Some l -> ps <> [] -> Forall (fun p => p <> []) ps -> ~ In s_junk l ->
  read_statements (flat_map part_text ps) = Ok l.
Proof.
  induction ps as [|p ps IH]; intros l H Hne Hp Hj; [congruence|]. destruct l as [|s l]; [discriminate H|]. cbn [map] in H. injection H as H1 H2. inversion Hp as [|? ? Hp1 Hp2]; subst.
  destruct (fast_statement_ok _ _ H1) as (ts & Es & Ec & Et).
  assert (R : read_statements (part_text p) = Ok [s]).
  { unfold read_statements. rewrite Es. cbn [bind]. destruct ts as [|t ts]; [discriminate Et|]. cbn [is_nil]. rewrite Et. reflexivity. }
  cbn [flat_map]. destruct ps as [|p' ps].
  - destruct l; [|discriminate H2]. cbn [flat_map]. rewrite app_nil_r. exact R.
  - assert (E2 : read_statements (flat_map part_text (p' :: ps)) = Ok l) by (apply IH; [exact H2|discriminate|exact Hp2|intros F; apply Hj; right; exact F]).
    destruct l as [|s2 l]; [discriminate H2|]. set (y := flat_map part_text (p' :: ps)) in *. clearbody y.
    rewrite (recovery (part_text p) y ts (s2 :: l)).
    + rewrite Et. reflexivity.
    + apply part_ends. exact Hp1.
    + exact Es.
    + exact Ec.
    + exists s2, l. split; [reflexivity|]. intros ->. apply Hj. right. left. reflexivity.
    + exact E2.
Qed.
Definition statement_list : list stmt := Eval vm_compute in flat_map (fun p => match fast_statement (part_text p) with Some s => [s] | None => [] end) parts.
Lemma parts_statements : map (fun p => fast_statement (part_text p)) parts = map Some statement_list.
Proof. vm_compute. reflexivity. Qed.
Lemma no_junk : ~ In s_junk statement_list.
Proof.
  assert (H : forallb (fun s => match s with s_junk => false | _ => true end) statement_list = true) by (vm_compute; reflexivity).
  intros F. rewrite forallb_forall in H. specialize (H _ F). discriminate H.
Qed.
Lemma parts_nonempty : Forall (fun p => p <> []) parts.
Proof.
  assert (H : forallb (fun p => negb (is_nil p)) parts = true) by (vm_compute; reflexivity).
  apply Forall_forall. intros p Hp ->. rewrite forallb_forall in H. specialize (H _ Hp). discriminate H.
Qed.
Lemma shipped_statements : read_statements boxes_config = Ok statement_list.
Proof. exact (parts_read parts statement_list parts_statements ltac:(discriminate) parts_nonempty no_junk). Qed.

(** ** The designs *)
Definition shipped_names : list string := ["c"; "parchment"; "columns"; "whirly"; "scroll"; "simple"; "c-cmt"; "c-cmt2"; "javadoc"; "html"; "html-cmt"; "shell"; "nuke"; "diamonds"; "mouse"; "sunset"; "boy"; "girl"; "xes"; "dog"; "cat"; "capgirl"; "santa"; "spring"; "stark2"; "stark1"; "peek"; "java-cmt"; "pound-cmt"; "vim-cmt"; "right"; "ada-cmt"; "ada-box"; "tex-cmt"; "tex-box"; "boxquote"; "cc"; "stone"; "headline"; "lisp-cmt"; "underline"; "ian_jones"; "unicornthink"; "unicornsay"; "caml"; "twisted"; "scroll-akn"; "face"; "fence"; "important"; "important2"; "important3"; "f90-box"; "f90-cmt"; "bear"; "jstone"; "vim-box"; "weave"; "normand"; "cowsay"; "tux"; "info"; "warning"; "critical"; "ansi"; "ansi-rounded"; "ansi-double"; "ansi-heavy"; "ansi-heavy-dashed"; "ansi-dashed"; "ansi-rounded-dashed"; "dragon"]%string.
(** closed boxes without regular expressions, and comments *)
Definition closed_names : list string := ["scroll"; "simple"; "shell"; "nuke"; "mouse"; "girl"; "capgirl"; "santa"; "ada-box"; "tex-box"; "stone"; "ian_jones"; "twisted"; "face"; "fence"; "important"; "important2"; "important3"; "f90-box"; "bear"; "vim-box"; "cowsay"; "tux"; "ansi"; "ansi-rounded"; "ansi-double"; "ansi-heavy"; "ansi-heavy-dashed"; "ansi-dashed"; "ansi-rounded-dashed"]%string.
Definition comment_names : list string := ["java-cmt"; "pound-cmt"; "vim-cmt"; "ada-cmt"; "tex-cmt"; "lisp-cmt"; "f90-cmt"]%string.
Definition colour_names : list string := ["info"; "warning"; "critical"]%string.
(** no top, no bottom, at most one side *)
Definition open_names : list string := ["java-cmt"; "pound-cmt"; "vim-cmt"; "right"; "ada-cmt"; "tex-cmt"; "lisp-cmt"; "f90-cmt"]%string.
Definition openb (d : design) : bool := (blank_side d BLEF || blank_side d BRIG) && blank_side d BTOP && blank_side d BBOT.

Definition name_of (d : cdesign) : string := match c_name d with Some n => str n | None => EmptyString end.
Definition among (n : string) (l : list string) : bool := existsb (String.eqb n) l.
Definition ruleless (d : cdesign) : bool := is_nil (c_reprules d) && is_nil (c_revrules d).
Definition design_checked (U : uctab) (d : cdesign) : bool :=
  drawableb (to_design d) && N.eqb (c_indentmode d) 98 &&
  (if among (name_of d) colour_names then calmb U (to_design d) else plainb U (to_design d)) &&
  (negb (among (name_of d) open_names) || openb (to_design d)) &&
  (negb (among (name_of d) closed_names) || (closedb U (to_design d) && ruleless d)) &&
  (negb (among (name_of d) comment_names) || (commentb U (to_design d) && ruleless d && (c_padding d BTOP =? 0) && (c_padding d BBOT =? 0))).
Lemma checked_parts : forall U d, design_checked U d = true ->
  drawableb (to_design d) = true /\ c_indentmode d = 98%N /\
  (if among (name_of d) colour_names then calmb U (to_design d) else plainb U (to_design d)) = true /\
  (among (name_of d) open_names = true -> openb (to_design d) = true) /\
  (among (name_of d) closed_names = true -> closedb U (to_design d) = true /\ ruleless d = true) /\
  (among (name_of d) comment_names = true -> commentb U (to_design d) = true /\ ruleless d = true /\ c_padding d BTOP = 0 /\ c_padding d BBOT = 0).
Proof.
  intros U d H. unfold design_checked in H. apply andb_true_iff in H as [H H6]. apply andb_true_iff in H as [H H5]. apply andb_true_iff in H as [H H4].
  apply andb_true_iff in H as [H H3]. apply andb_true_iff in H as [H H2]. apply N.eqb_eq in H2. split; [exact H|]. split; [exact H2|]. split; [exact H3|]. split; [|split].
  - intros Hn. rewrite Hn in H4. exact H4.
  - intros Hn. rewrite Hn in H5. apply andb_true_iff in H5. exact H5.
  - intros Hn. rewrite Hn in H6. cbn [negb orb] in H6. apply andb_true_iff in H6 as [H6 P2]. apply andb_true_iff in H6 as [H6 P1]. apply andb_true_iff in H6 as [H6 K].
    apply Nat.eqb_eq in P1. apply Nat.eqb_eq in P2. repeat split; assumption.
Qed.
(** the design that a statement makes, whatever its sample; [None] if it makes none *)
Definition light_own (U : uctab) (beyond : res sentry) (X : bxstr) (s : stmt) : res (option cdesign) :=
  match s with
  | s_box n al layout fin =>
      if is_nil layout then Ok None
      else r <- light_items U beyond X (begun n al) layout ;;
           match r with RC_SUCCESS st3 => Ok (if negb (same_nocase n fin) || (num_mandatory st3 <? 3) then None else Some (curdes st3)) | _ => Ok None end
  | _ => Ok None
  end.
Definition stmt_checked (U : uctab) (beyond : res sentry) (X : bxstr) (p : string * stmt) : bool :=
  match light_own U beyond X (snd p) with Ok (Some d) => String.eqb (name_of d) (fst p) && design_checked U d | _ => false end.
Definition unrelatedb (s s' : stmt) : bool := forallb (fun x => forallb (fun y => negb (same_nocase x y)) (names_in s)) (names_in s').
Fixpoint all_unrelated (l : list stmt) : bool := match l with [] => true | s :: r => forallb (unrelatedb s) r && all_unrelated r end.
Lemma all_unrelated_ok : forall l, all_unrelated l = true -> ForallOrdPairs unrelated l.
Proof.
  induction l as [|s l IH]; intros H; [constructor|]. cbn [all_unrelated] in H. apply andb_true_iff in H as [H1 H2]. constructor; [|exact (IH H2)].
  rewrite forallb_forall in H1. apply Forall_forall. intros s' Hs x y Hx Hy. specialize (H1 s' Hs). unfold unrelatedb in H1. rewrite forallb_forall in H1. specialize (H1 x Hx).
  rewrite forallb_forall in H1. specialize (H1 y Hy). apply negb_true_iff in H1. exact H1.
Qed.
Section Loaded.
Variable V : uctab.
Variable fopen_ok : list N -> bool.
Variable sur : surroundings.
Notation U := (drawing_tab V).
Notation po := (mkPopts None true).
Definition load_all (beyond : res sentry) (l : list stmt) := parse_config_file U beyond po [10%N] [] fopen_ok sur (Some l).
Lemma light_own_ok : forall beyond s, exists X, own U beyond [10%N] [] s = light_own U beyond X s.
Proof.
  intros beyond s. destruct s as [f|n al layout fin|al|]; try (exists bxs_new_empty_string; reflexivity). cbn [own light_own].
  assert (K : kept_aliases [] al = al) by (unfold kept_aliases; clear; induction al as [|a al IH]; [reflexivity|]; cbn; f_equal; exact IH). rewrite K.
  destruct (light_ok U (drawing_tab_ok V) beyond layout (begun n al)) as (X & E). exists X. rewrite E. reflexivity.
Qed.
Lemma checked_alone : forall beyond l names, (forall X, forallb (stmt_checked U beyond X) (List.combine names l) = true) -> List.length names = List.length l ->
  exists ds, Forall2 (alone U beyond po [10%N] [] fopen_ok sur) l ds /\ map name_of ds = names /\ Forall (fun d => design_checked U d = true) ds.
Proof.
  intros beyond. induction l as [|s l IH]; intros names H L; destruct names as [|n names]; try discriminate L; [exists []; repeat constructor|].
  destruct (IH names) as (ds & A & B & C); [intros X; specialize (H X); cbn [List.combine forallb] in H; apply andb_true_iff in H as [_ H]; exact H|cbn [List.length] in L; lia|].
  destruct (light_own_ok beyond s) as (X & E). specialize (H X). cbn [List.combine forallb] in H. apply andb_true_iff in H as [H _]. unfold stmt_checked in H. cbn [fst snd] in H. rewrite <- E in H.
  destruct (own U beyond [10%N] [] s) as [[d|]| | | |] eqn:Eo; try discriminate H. apply andb_true_iff in H as [H1 H2]. apply String.eqb_eq in H1.
  exists (d :: ds). split; [constructor; [apply (own_alone U beyond po eq_refl); exact Eo|exact A]|]. split; [cbn [map]; rewrite H1, B; reflexivity|constructor; assumption].
Qed.

Lemma statements_tidy : forallb (tidy_blockb U) statement_list = true.
Proof. vm_compute. reflexivity. Qed.
Lemma statements_apart : all_unrelated statement_list = true.
Proof. vm_compute. reflexivity. Qed.

(** The designs "right" and "dragon" make the program look behind the end of the shape array. *)
Definition without_two {A : Type} (l : list A) : list A := firstn 30 l ++ skipn 31 (firstn 71 l).
Lemma others_checked : forall beyond X, forallb (stmt_checked U beyond X) (without_two (List.combine shipped_names statement_list)) = true.
Proof. intros beyond X. vm_compute. reflexivity. Qed.
Lemma two_checked : forall X, forallb (stmt_checked U (Ok sentry0) X) [nth 30 (List.combine shipped_names statement_list) (EmptyString, s_junk); nth 71 (List.combine shipped_names statement_list) (EmptyString, s_junk)] = true.
Proof. intros X. vm_compute. reflexivity. Qed.
Lemma right_outside : forall X, light_own U UB X (nth 30 statement_list s_junk) = UB.
Proof. intros X. vm_compute. reflexivity. Qed.

Lemma split_two : forall (A : Type) (l : list A) (x : A), List.length l = 72 -> l = firstn 30 l ++ nth 30 l x :: skipn 31 (firstn 71 l) ++ [nth 71 l x].
Proof.
  intros A l x H. do 73 (destruct l as [|? l]; [try discriminate H; try reflexivity|]). discriminate H.
Qed.
Lemma join_two : forall (A : Type) (f : A -> bool) (l : list A) (x : A), List.length l = 72 -> forallb f (without_two l) = true -> forallb f [nth 30 l x; nth 71 l x] = true -> forallb f l = true.
Proof.
  intros A f l x L H1 H2. rewrite (split_two _ l x L). unfold without_two in H1. rewrite forallb_app in *. apply andb_true_iff in H1 as [H1 H3].
  cbn [forallb] in *. apply andb_true_iff in H2 as [H2 H4]. rewrite forallb_app, H1, H2, H3. cbn [forallb andb]. exact H4.
Qed.
Lemma shipped_length : List.length (List.combine shipped_names statement_list) = 72.
Proof. vm_compute. reflexivity. Qed.
Lemma shipped_checked : forall X, forallb (stmt_checked U (Ok sentry0) X) (List.combine shipped_names statement_list) = true.
Proof. intros X. exact (join_two _ _ _ _ shipped_length (others_checked (Ok sentry0) X) (two_checked X)). Qed.
Lemma shipped_loaded : exists ds, load_all (Ok sentry0) statement_list = Ok (ds, []) /\ map name_of ds = shipped_names /\ Forall (fun d => design_checked U d = true) ds.
Proof.
  destruct (checked_alone (Ok sentry0) statement_list shipped_names shipped_checked eq_refl) as (ds & A & B & C).
  exists ds. split; [|split; assumption]. unfold load_all. apply together; [reflexivity|exact A|]. apply all_unrelated_ok. exact statements_apart.
Qed.
Lemma without_map : forall (A B : Type) (f : A -> B) l, without_two (map f l) = map f (without_two l).
Proof. intros A B f l. unfold without_two. rewrite map_app, <- skipn_map, <- !firstn_map. reflexivity. Qed.
Lemma without_in : forall (A : Type) (x : A) l, In x (without_two l) -> In x l.
Proof.
  intros A x l H. unfold without_two in H. apply in_app_iff in H as [H|H].
  - rewrite <- (firstn_skipn 30 l). apply in_app_iff. left. exact H.
  - rewrite <- (firstn_skipn 71 l). apply in_app_iff. left. rewrite <- (firstn_skipn 31 (firstn 71 l)). apply in_app_iff. right. exact H.
Qed.
Lemma without_combine : forall (A B : Type) (a : list A) (b : list B), List.length a = 72 -> List.length b = 72 -> without_two (List.combine a b) = List.combine (without_two a) (without_two b).
Proof.
  intros A B a b Ha Hb. do 72 (destruct a as [|? a]; [discriminate Ha|]; destruct b as [|? b]; [discriminate Hb|]).
  destruct a; [|discriminate Ha]. destruct b; [|discriminate Hb]. reflexivity.
Qed.
Lemma ord_pairs_sub : forall (A : Type) (R : A -> A -> Prop) a b c, ForallOrdPairs R (a ++ b ++ c) -> ForallOrdPairs R (a ++ c).
Proof.
  intros A R a b c. induction a as [|x a IH]; cbn [app]; intros H.
  - induction b as [|y b IHb]; [exact H|]. inversion H; subst. apply IHb. assumption.
  - inversion H as [|? ? H1 H2]; subst. constructor; [|apply IH; exact H2]. apply Forall_app in H1 as [H1 H3]. apply Forall_app in H3 as [_ H3]. apply Forall_app. split; assumption.
Qed.
Lemma without_pairs : forall (A : Type) (R : A -> A -> Prop) l, ForallOrdPairs R l -> ForallOrdPairs R (without_two l).
Proof.
  intros A R l H. unfold without_two. rewrite <- (firstn_skipn 71 l), <- (app_nil_r (skipn 71 l)) in H. apply ord_pairs_sub in H. rewrite app_nil_r in H.
  rewrite <- (firstn_skipn 31 (firstn 71 l)), firstn_firstn in H. change (Nat.min 31 71) with 31 in H.
  rewrite <- (firstn_skipn 30 (firstn 31 l)), firstn_firstn, <- app_assoc in H. change (Nat.min 30 31) with 30 in H. apply ord_pairs_sub in H. exact H.
Qed.
Lemma statement_count : List.length statement_list = 72.
Proof. vm_compute. reflexivity. Qed.
Lemma other_statements : read_statements (flat_map part_text (without_two parts)) = Ok (without_two statement_list).
Proof.
  apply parts_read.
  - rewrite <- !without_map. rewrite parts_statements. reflexivity.
  - discriminate.
  - apply Forall_forall. intros p Hp. apply without_in in Hp. pose proof parts_nonempty as F. rewrite Forall_forall in F. apply F. exact Hp.
  - intros F. apply without_in in F. exact (no_junk F).
Qed.
Lemma others_loaded : forall beyond, exists ds, load_all beyond (without_two statement_list) = Ok (ds, []) /\
  map name_of ds = filter (fun n => negb (among n ["right"; "dragon"]%string)) shipped_names /\ Forall (fun d => design_checked U d = true) ds.
Proof.
  intros beyond. pose proof (others_checked beyond) as H. rewrite (without_combine _ _ shipped_names statement_list eq_refl statement_count) in H.
  assert (L : List.length (without_two shipped_names) = List.length (without_two statement_list)) by (vm_compute; reflexivity).
  destruct (checked_alone beyond (without_two statement_list) (without_two shipped_names) H L) as (ds & A & B & C).
  exists ds. split; [|split; [rewrite B; vm_compute; reflexivity|exact C]]. unfold load_all. apply together; [reflexivity|exact A|].
  apply without_pairs. apply all_unrelated_ok. exact statements_apart.
Qed.
(** what can be computed from one statement holds of the design that comes out of the whole file *)
Lemma shipped_part : forall (check : cdesign -> bool) k, k < 72 ->
  (forall X, match light_own U (Ok sentry0) X (nth k statement_list s_junk) with Ok (Some d) => check d | _ => false end = true) ->
  exists ds d, load_all (Ok sentry0) statement_list = Ok (ds, []) /\ In d ds /\ check d = true.
Proof.
  intros check k Hk H. destruct (checked_alone (Ok sentry0) statement_list shipped_names shipped_checked eq_refl) as (ds & A & _ & _).
  pose proof (all_unrelated_ok _ statements_apart) as R. pose proof statement_count as L.
  set (l := statement_list) in *. clearbody l. rewrite <- L in Hk. destruct (light_own_ok (Ok sentry0) (nth k l s_junk)) as (X & E). specialize (H X). rewrite <- E in H.
  destruct (own U (Ok sentry0) [10%N] [] (nth k l s_junk)) as [[d|]| | | |] eqn:Eo; try discriminate H. apply (own_alone U (Ok sentry0) po eq_refl _ _ fopen_ok sur) in Eo.
  exists ds, d. split; [unfold load_all; apply together; [reflexivity|exact A|exact R]|]. split; [|exact H].
  clear - A Hk Eo. revert k Hk Eo. induction A as [|s d' l ds H A IH]; intros k Hk Eo; [cbn in Hk; lia|]. destruct k as [|k]; cbn [nth] in Eo.
  - unfold alone in H, Eo. rewrite H in Eo. injection Eo as ->. left. reflexivity.
  - right. apply (IH k); [cbn in Hk; lia|exact Eo].
Qed.
(** ** one design by name *)
Lemma all_boxes : forallb is_box statement_list = true.
Proof. vm_compute. reflexivity. Qed.
Definition load_one (beyond : res sentry) (n : list N) (all : bool) (l : list stmt) := parse_config_file U beyond (mkPopts (Some n) all) [10%N] [] fopen_ok sur (Some l).
Lemma forall2_in : forall (A B : Type) (R : A -> B -> Prop) l ds d, Forall2 R l ds -> In d ds -> exists s, In s l /\ R s d.
Proof. intros A B R l ds d F. induction F as [|s d' l ds H F IH]; intros []; [subst; exists s; split; [left; reflexivity|exact H]|]. destruct (IH H0) as (s' & A1 & A2). exists s'. split; [right; exact A1|exact A2]. Qed.
Lemma shipped_one : exists ds, load_all (Ok sentry0) statement_list = Ok (ds, []) /\
  (forall d n all, In d ds -> called d n -> load_one (Ok sentry0) n all statement_list = Ok ([d], [])) /\
  (forall n all, (forall d, In d ds -> ~ called d n) -> load_one (Ok sentry0) n all statement_list = Ok ([], [])).
Proof.
  destruct (checked_alone (Ok sentry0) statement_list shipped_names shipped_checked eq_refl) as (ds & A & _ & _). pose proof (all_unrelated_ok _ statements_apart) as R. pose proof all_boxes as B.
  set (l := statement_list) in *. clearbody l.
  exists ds. split; [unfold load_all; apply together; [reflexivity|exact A|exact R]|]. split.
  - intros d n all Hd C. destruct (forall2_in _ _ _ _ _ d A Hd) as (s & Hs & H). exact (chosen_among U (Ok sentry0) [10%N] fopen_ok sur l s d n all B R Hs H C).
  - intros n all H. exact (none_among U (Ok sentry0) [10%N] fopen_ok sur l ds n all A H).
Qed.
(** the others also if there is nothing behind the array that could be read *)
Lemma others_one : forall beyond, exists ds, load_all beyond (without_two statement_list) = Ok (ds, []) /\
  (forall d n all, In d ds -> called d n -> load_one beyond n all statement_list = Ok ([d], [])).
Proof.
  intros beyond. pose proof (others_checked beyond) as H. rewrite (without_combine _ _ shipped_names statement_list eq_refl statement_count) in H.
  assert (L : List.length (without_two shipped_names) = List.length (without_two statement_list)) by (vm_compute; reflexivity).
  destruct (checked_alone beyond (without_two statement_list) (without_two shipped_names) H L) as (ds & A & _ & _). clear H L.
  pose proof (all_unrelated_ok _ statements_apart) as R. pose proof all_boxes as B. set (l := statement_list) in *. clearbody l.
  exists ds. split; [unfold load_all; apply together; [reflexivity|exact A|apply without_pairs; exact R]|].
  intros d n all Hd C. destruct (forall2_in _ _ _ _ _ d A Hd) as (s & Hs & H). apply without_in in Hs. exact (chosen_among U beyond [10%N] fopen_ok sur l s d n all B R Hs H C).
Qed.
Lemma shipped_outside : load_all UB statement_list = UB.
Proof.
  pose proof statement_count as L. pose proof (all_unrelated_ok _ statements_apart) as R. pose proof right_outside as RO. pose proof (others_checked UB) as H.
  rewrite (without_combine _ _ shipped_names statement_list eq_refl L) in H.
  assert (L2 : List.length (firstn 30 shipped_names) = 30) by reflexivity.
  set (l := statement_list) in *. clearbody l. set (names := shipped_names) in *. clearbody names.
  assert (L3 : List.length (firstn 30 l) = 30) by (rewrite firstn_length; lia).
  destruct (checked_alone UB (firstn 30 l) (firstn 30 names)) as (ds & A & _).
  { intros X. specialize (H X). unfold without_two in H.
    assert (E : forall (A B : Type) (a a' : list A) (b b' : list B), List.length a = List.length b -> List.combine (a ++ a') (b ++ b') = List.combine a b ++ List.combine a' b').
    { induction a as [|x a IH]; intros a' [|y b] b' E; try discriminate E; [reflexivity|]. cbn [app List.combine]. f_equal. apply IH. cbn [List.length] in E. lia. }
    rewrite E in H by congruence. rewrite forallb_app in H. apply andb_true_iff in H as [H _]. exact H. }
  { congruence. }
  unfold load_all. rewrite (split_two _ l s_junk L) in R |- *. eapply together_ub; [reflexivity|exact A|exact R|].
  destruct (light_own_ok UB (nth 30 l s_junk)) as (X & E). rewrite E. apply RO.
Qed.
End Loaded.
