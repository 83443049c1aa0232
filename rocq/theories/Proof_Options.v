(** * The options of a command line, one setting at a time *)
From Coq Require Import Ascii String List Arith NArith ZArith Bool Lia.
From Verif Require Import Base BaseFacts Model_Unicode Model_Bxs Model_Shape Model_Regex Model_Query Model_Cmdline Spec_Query Proof_Query Spec_Cmdline Proof_Cmdline Spec_Options Prop_Query Prop_Cmdline.
Import ListNotations.
Local Open Scope N_scope.

(** ** The last one decides *)
Definition last_of {A B : Type} (f : A -> option B) (l : list A) (d : B) : B := fold_left (fun d x => match f x with Some v => v | None => d end) l d.
Lemma latest_fold : forall A B (f : A -> option B) l d b, latest f l d b <-> b = last_of f l d.
Proof. induction l as [|x l IH]; intros d b; [apply latest_nil|]. rewrite latest_cons, IH. reflexivity. Qed.

(** ** One after the other *)
Fixpoint through {B : Type} (st : B -> item -> res B) (b : B) (items : list item) : res B :=
  match items with [] => Ok b | i :: r => b' <- st b i ;; through st b' r end.
Lemma through_cons : forall B (st : B -> item -> res B) b i r b', through st b (i :: r) = Ok b' <-> exists b1, st b i = Ok b1 /\ through st b1 r = Ok b'.
Proof. intros B st b i r b'. cbn [through]. destruct (st b i) as [b1| | | |]; cbn [bind]; split; try discriminate; try (intros (? & F & _); discriminate F); eauto. intros (x & E & H). injection E as ->. exact H. Qed.

Section Keys.
Variables (K X B : Type) (V : K -> Type) (st : B -> item -> res B) (R : item -> list X -> Prop) (f : forall k, X -> option (V k)) (pi : forall k, B -> V k).
Hypothesis ext : forall b b', (forall k, pi k b = pi k b') -> b = b'.
Hypothesis build : forall h : forall k, V k, exists b, forall k, pi k b = h k.
Hypothesis step : forall b i b', st b i = Ok b' <-> exists xs, R i xs /\ forall k, latest (f k) xs (pi k b) (pi k b').
Lemma through_keys : forall items b b', through st b items = Ok b' <-> exists xss, Forall2 R items xss /\ forall k, latest (f k) (concat xss) (pi k b) (pi k b').
Proof.
  induction items as [|i items IH]; intros b b'.
  - cbn [through]. split.
    + intros H. injection H as ->. exists []. split; [constructor|]. intros k. apply latest_fold. reflexivity.
    + intros (xss & F & H). inversion F; subst. f_equal. symmetry. apply ext. intros k. specialize (H k). apply latest_fold in H. exact H.
  - rewrite through_cons. split.
    + intros (b1 & E1 & E2). apply step in E1 as (xs & R1 & H1). apply IH in E2 as (xss & F & H2). exists (xs :: xss). split; [constructor; assumption|].
      intros k. specialize (H1 k). specialize (H2 k). apply latest_fold in H1. apply latest_fold in H2. apply latest_fold. cbn [concat]. unfold last_of in *. rewrite fold_left_app, <- H1. exact H2.
    + intros (xss & F & H). inversion F as [|? xs ? xss' R1 F']; subst. destruct (build (fun k => last_of (f k) xs (pi k b))) as (b1 & H1). exists b1. split.
      * apply step. exists xs. split; [exact R1|]. intros k. apply latest_fold. apply H1.
      * apply IH. exists xss'. split; [exact F'|]. intros k. specialize (H k). apply latest_fold in H. apply latest_fold. rewrite H1, H. cbn [concat]. unfold last_of. apply fold_left_app.
Qed.
End Keys.
(** one value *)
Lemma through_one : forall (X B : Type) (st : B -> item -> res B) (R : item -> list X -> Prop) (f : X -> option B),
  (forall b i b', st b i = Ok b' <-> exists xs, R i xs /\ latest f xs b b') ->
  forall items b b', through st b items = Ok b' <-> exists xss, Forall2 R items xss /\ latest f (concat xss) b b'.
Proof.
  intros X B st R f step items b b'. rewrite (through_keys unit X B (fun _ => B) st R (fun _ => f) (fun _ b => b)).
  - split; intros (xss & F & H); exists xss; (split; [exact F|]); [apply (H tt)|intros _; exact H].
  - intros x y H. apply (H tt).
  - intros h. exists (h tt). intros []. reflexivity.
  - intros x i y. rewrite step. split; intros (xs & A & H); exists xs; (split; [exact A|]); [intros _; exact H|apply (H tt)].
Qed.
Definition put {B : Type} (f : item -> option B) (b : B) (i : item) : res B := Ok (match f i with Some v => v | None => b end).
Lemma through_put : forall B (f : item -> option B) items b b', through (put f) b items = Ok b' <-> latest f items b b'.
Proof.
  intros B f. induction items as [|i items IH]; intros b b'; [rewrite latest_nil; cbn; split; [intros H; injection H; auto|intros ->; reflexivity]|].
  rewrite latest_cons, <- IH. reflexivity.
Qed.
Definition flag (p : item -> bool) (i : item) : option bool := if p i then Some true else None.
Lemma latest_flag : forall p items b, latest (flag p) items false b <-> (b = true <-> exists i, In i items /\ p i = true).
Proof.
  intros p items b. rewrite latest_fold. assert (E : forall d, last_of (flag p) items d = d || existsb p items).
  { unfold last_of. induction items as [|i items IH]; intros d; [cbn; rewrite orb_false_r; reflexivity|]. cbn [fold_left existsb]. rewrite IH. unfold flag. destruct (p i); [rewrite orb_true_r; reflexivity|reflexivity]. }
  rewrite E. cbn [orb]. rewrite <- existsb_exists. destruct b, (existsb p items); intuition congruence.
Qed.

(** ** The steps *)
Definition s_align (a : aligns) (i : item) := match i with ItA arg => alignment a arg | _ => Ok a end.
Definition s_pad (a : pads) (i : item) := match i with ItP arg => padding a arg | _ => Ok a end.
Definition s_size (a : sizes) (i : item) := match i with ItS arg => size_of_box a arg | _ => Ok a end.
Definition s_tab (a : tabs) (i : item) := match i with ItT arg => tab_handling a arg | _ => Ok a end.
Definition s_kill (k : Z) (i : item) : res Z :=
  match i with ItK arg => killblank k arg | ItKillBlank => Ok (if (k =? -1)%Z then 1%Z else k) | ItNoKillBlank => Ok (if (k =? -1)%Z then 0%Z else k) | ItM => Ok 0%Z | _ => Ok k end.
Definition s_indent (a : N) (i : item) := match i with ItI arg => indentation_mode arg | _ => Ok a end.
Definition s_cld (a : option (list N)) (i : item) : res (option (list N)) := match i with ItC arg => if is_nil arg then Err else Ok (Some arg) | _ => Ok a end.
Definition s_eol (a : list N) (i : item) := match i with ItE arg => eol_override a arg | _ => Ok a end.
Definition s_query (a : option (list (list N))) (i : item) : res (option (list (list N))) :=
  match i with ItQ arg => match parse_query arg with Some q => Ok (Some q) | None => Err end | _ => Ok a end.
Definition s_x (a : bool * list bool * bool) (i : item) : res (bool * list bool * bool) :=
  match i with
  | ItX arg => let '(u, d, act) := a in r <- undocumented_options (mkModes false false false None u d) act arg ;; let '(m, act') := r in Ok (m_undoc m, m_debug m, act')
  | _ => Ok a
  end.
Definition f_remove := flag (fun i => match i with ItR | ItM => true | _ => false end).
Definition f_mend (i : item) := match i with ItM => Some 2%Z | _ => None end.
Definition f_design (i : item) := match i with ItD arg => Some (Some arg) | _ => None end.
Definition f_user := flag (fun i => match i with ItC _ | ItD _ => true | _ => false end).
Definition f_file (i : item) := match i with ItF arg => Some (Some arg) | _ => None end.
Definition f_eolset := flag (fun i => match i with ItE _ => true | _ => false end).
Definition f_color (i : item) := match i with ItColor => Some 2 | ItNoColor => Some 0 | _ => None end.
Definition f_enc (i : item) := match i with ItN arg => Some (Some arg) | _ => None end.
Definition f_list := flag (fun i => match i with ItL => true | _ => false end).
Definition f_none (i : item) : option bool := None.

Definition all_steps (T : forall B, (B -> item -> res B) -> B -> B -> Prop) (g : settings) (act : bool) (g' : settings) (act' : bool) : Prop :=
  T _ s_align (g_align g) (g_align g') /\ T _ s_pad (g_pad g) (g_pad g') /\ T _ s_size (g_size g) (g_size g') /\ T _ s_tab (g_tab g) (g_tab g') /\
  T _ (put f_remove) (r_remove (g_rem g)) (r_remove (g_rem g')) /\ T _ (put f_mend) (r_mend (g_rem g)) (r_mend (g_rem g')) /\
  T _ s_kill (r_kill (g_rem g)) (r_kill (g_rem g')) /\ T _ s_indent (r_indent (g_rem g)) (r_indent (g_rem g')) /\
  T _ s_cld (c_cld (g_src g)) (c_cld (g_src g')) /\ T _ (put f_design) (c_design (g_src g)) (c_design (g_src g')) /\
  T _ (put f_user) (c_by_user (g_src g)) (c_by_user (g_src g')) /\ T _ (put f_file) (c_file (g_src g)) (c_file (g_src g')) /\
  T _ s_eol (o_eol (g_out g)) (o_eol (g_out g')) /\ T _ (put f_eolset) (o_eol_set (g_out g)) (o_eol_set (g_out g')) /\
  T _ (put f_color) (o_color (g_out g)) (o_color (g_out g')) /\ T _ (put f_enc) (o_encoding (g_out g)) (o_encoding (g_out g')) /\
  T _ (put f_none) (m_help (g_mode g)) (m_help (g_mode g')) /\ T _ (put f_none) (m_version (g_mode g)) (m_version (g_mode g')) /\
  T _ (put f_list) (m_list (g_mode g)) (m_list (g_mode g')) /\ T _ s_query (m_query (g_mode g)) (m_query (g_mode g')) /\
  T _ s_x (m_undoc (g_mode g), m_debug (g_mode g), act) (m_undoc (g_mode g'), m_debug (g_mode g'), act').

Lemma undoc_split : forall h v l q u d act arg, undocumented_options (mkModes h v l q u d) act arg =
  (r <- undocumented_options (mkModes false false false None u d) act arg ;; let '(m, act') := r in Ok (mkModes h v l q (m_undoc m) (m_debug m), act')).
Proof.
  intros h v l q u d act arg. unfold undocumented_options. cbn [m_help m_version m_list m_query m_undoc m_debug].
  set (s := if strncmp0 arg [40; 117; 110; 100; 111; 99; 41] 7 then skipn 7 arg else arg). destruct (strncasecmp0 s _ 5).
  - destruct (match skipn 5 s with [] => _ | _ :: _ => _ end) as [on| | | |]; cbn [bind]; try reflexivity.
    cbn [m_help m_version m_list m_query m_undoc m_debug]. destruct (_ && _); cbn [bind]; reflexivity.
  - cbn [bind m_help m_version m_list m_query m_undoc m_debug]. destruct (_ && _); cbn [bind]; reflexivity.
Qed.
Lemma item_split : forall g act i g' act', do_item g act i = Ok (g', act', false) <-> quiet i /\ all_steps (fun B st b b' => st b i = Ok b') g act g' act'.
Proof.
  intros [a p z t [r1 r2 r3 r4] [c1 c2 c3 c4] [o1 o2 o3 o4] [m1 m2 m3 m4 m5 m6]] act i [a' p' z' t' [r1' r2' r3' r4'] [c1' c2' c3' c4'] [o1' o2' o3' o4'] [m1' m2' m3' m4' m5' m6']] act'.
  unfold all_steps. cbn [g_align g_pad g_size g_tab g_rem g_src g_out g_mode r_remove r_mend r_kill r_indent c_cld c_design c_by_user c_file o_eol o_eol_set o_color o_encoding m_help m_version m_list m_query m_undoc m_debug].
  destruct i; cbn [do_item quiet s_align s_pad s_size s_tab s_kill s_indent s_cld s_eol s_query s_x put f_remove f_mend f_design f_user f_file f_eolset f_color f_enc f_list f_none flag
    g_align g_pad g_size g_tab g_rem g_src g_out g_mode r_remove r_mend r_kill r_indent c_cld c_design c_by_user c_file o_eol o_eol_set o_color o_encoding m_help m_version m_list m_query m_undoc m_debug];
  unfold put, f_remove, f_mend, f_design, f_user, f_file, f_eolset, f_color, f_enc, f_list, f_none, flag, command_line_design, force_ansi_color, force_monochrome, with_align, with_pad, with_size, with_tab, with_rem, with_src, with_out, with_mode;
  cbn [g_align g_pad g_size g_tab g_rem g_src g_out g_mode r_remove r_mend r_kill r_indent c_cld c_design c_by_user c_file o_eol o_eol_set o_color o_encoding m_help m_version m_list m_query m_undoc m_debug].
  all: try match goal with |- context[is_nil ?x] => destruct (is_nil x); cbn [bind c_cld c_design c_by_user c_file] end.
  all: rewrite ?(undoc_split m1 m2 m3 m4).
  all: try match goal with |- context[undocumented_options ?m ?a ?b] => destruct (undocumented_options m a b) as [[[k1 k2 k3 k4 k5 k6] k7]| | | |]; cbn [bind m_help m_version m_list m_query m_undoc m_debug] end.
  all: try match goal with |- context[bind ?x _] => destruct x as [y| | | |]; [try destruct y as [? ?]|..]; cbn [bind] end.
  all: try match goal with |- context[parse_query ?x] => destruct (parse_query x) end.
  all: split; [intros H; try discriminate H; inversion H; subst; repeat split; try assumption; try reflexivity|intros H; decompose [and] H; clear H; try contradiction; try discriminate;
    repeat match goal with E : Ok _ = Ok _ |- _ => inversion E; clear E; subst | E : (_, _) = (_, _) |- _ => inversion E; clear E; subst end; try reflexivity].
Qed.
Lemma items_split : forall items g act g', do_items g act items = Ok (g', false) <->
  Forall quiet items /\ exists act', all_steps (fun B st b b' => through st b items = Ok b') g act g' act'.
Proof.
  induction items as [|i items IH]; intros g act g'.
  - cbn [do_items through]. split.
    + intros H. injection H as <-. split; [constructor|]. exists act. unfold all_steps. repeat split.
    + intros [_ [act' H]]. unfold all_steps in H.
      destruct g as [a p z t [r1 r2 r3 r4] [c1 c2 c3 c4] [o1 o2 o3 o4] [m1 m2 m3 m4 m5 m6]], g' as [a' p' z' t' [r1' r2' r3' r4'] [c1' c2' c3' c4'] [o1' o2' o3' o4'] [m1' m2' m3' m4' m5' m6']].
      cbn [g_align g_pad g_size g_tab g_rem g_src g_out g_mode r_remove r_mend r_kill r_indent c_cld c_design c_by_user c_file o_eol o_eol_set o_color o_encoding m_help m_version m_list m_query m_undoc m_debug] in H.
      decompose [and] H; clear H. repeat match goal with E : Ok _ = Ok _ |- _ => inversion E; clear E; subst end. reflexivity.
  - cbn [do_items]. split.
    + intros H. destruct (do_item g act i) as [[[g1 act1] stop]| | | |] eqn:E; cbn [bind] in H; try discriminate H. destruct stop; [discriminate H|].
      apply item_split in E as [Q1 S1]. apply IH in H as [Q2 [act' S2]]. split; [constructor; assumption|]. exists act'. unfold all_steps in *. decompose [and] S1. decompose [and] S2.
      repeat split; apply through_cons; eexists; (split; [eassumption|assumption]).
    + intros [Q [act' S]]. inversion Q as [|? ? Q1 Q2]; subst. unfold all_steps in S. decompose [and] S; clear S.
      repeat match goal with K : through _ _ (_ :: _) = Ok _ |- _ => apply through_cons in K as (? & ? & ?) end.
      repeat match goal with p : (bool * list bool * bool)%type |- _ => destruct p as [[? ?] ?] end.
      match goal with A1 : s_align _ i = Ok ?a, A2 : s_pad _ i = Ok ?p, A3 : s_size _ i = Ok ?z, A4 : s_tab _ i = Ok ?t, A5 : put f_remove _ i = Ok ?r1, A6 : put f_mend _ i = Ok ?r2,
        A7 : s_kill _ i = Ok ?r3, A8 : s_indent _ i = Ok ?r4, A9 : s_cld _ i = Ok ?c1, B1 : put f_design _ i = Ok ?c2, B2 : put f_user _ i = Ok ?c3, B3 : put f_file _ i = Ok ?c4,
        B4 : s_eol _ i = Ok ?o1, B5 : put f_eolset _ i = Ok ?o2, B6 : put f_color _ i = Ok ?o3, B7 : put f_enc _ i = Ok ?o4,
        B8 : put f_none (m_help _) i = Ok ?m1, B9 : put f_none (m_version _) i = Ok ?m2, D1 : put f_list _ i = Ok ?m3, D2 : s_query _ i = Ok ?m4, D3 : s_x _ i = Ok (?m5, ?m6, ?act1) |- _ =>
        assert (E : do_item g act i = Ok (mkSettings a p z t (mkRemoval r1 r2 r3 r4) (mkSource c1 c2 c3 c4) (mkOutput o1 o2 o3 o4) (mkModes m1 m2 m3 m4 m5 m6), act1, false))
      end.
      { apply item_split. split; [exact Q1|]. unfold all_steps. repeat split; assumption. }
      rewrite E. cbn [bind]. apply IH. split; [exact Q2|]. exists act'. unfold all_steps. repeat split; assumption.
Qed.

(** ** The single settings *)
Lemma others : forall (K X B : Type) (V : K -> Type) (f : forall k, X -> option (V k)) (pi : forall k, B -> V k) (b b' : B), (forall x y, (forall k, pi k x = pi k y) -> x = y) ->
  (Ok b = Ok b' <-> exists xs, xs = [] /\ forall k, latest (f k) xs (pi k b) (pi k b')).
Proof.
  intros K X B V f pi b b' ext. split.
  - intros H. injection H as <-. exists []. split; [reflexivity|]. intros k. apply latest_nil. reflexivity.
  - intros (xs & -> & H). f_equal. symmetry. apply ext. intros k. apply (proj1 (latest_nil _ _ (f k) _ _)). apply H.
Qed.
Lemma other : forall (X B : Type) (f : X -> option B) (b b' : B), Ok b = Ok b' <-> exists xs, xs = [] /\ latest f xs b b'.
Proof.
  intros X B f b b'. split.
  - intros H. injection H as <-. exists []. split; [reflexivity|]. apply latest_nil. reflexivity.
  - intros (xs & -> & H). apply (proj1 (latest_nil _ _ f _ _)) in H. congruence.
Qed.
Lemma single : forall (X B : Type) (f : X -> option B) (r : res B) (b b' : B) (P : X -> Prop), (r = Ok b' <-> exists x, P x /\ f x = Some b') -> (forall x, P x -> f x <> None) ->
  (r = Ok b' <-> exists xs, (exists x, P x /\ xs = [x]) /\ latest f xs b b').
Proof.
  intros X B f r b b' P H HN. rewrite H. split.
  - intros (x & Px & E). exists [x]. split; [eauto|]. apply latest_fold. cbn. rewrite E. reflexivity.
  - intros (xs & (x & Px & ->) & L). exists x. split; [exact Px|]. apply latest_fold in L. cbn in L. specialize (HN x Px). destruct (f x); [congruence|contradiction].
Qed.

Lemma t_align : forall items a a', through s_align a items = Ok a' <->
  exists dss, Forall2 aligned_by items dss /\ forall p, latest (fun d => d p) (concat dss) (at_place a p) (at_place a' p).
Proof.
  apply (through_keys place (place -> option N) aligns (fun _ => N) s_align aligned_by (fun p d => d p) (fun p a => at_place a p)).
  - exact align_ext.
  - intros h. exists (mkAligns (h horizontal) (h vertical) (h justification)). intros []; reflexivity.
  - intros b i b'. destruct i; cbn [s_align aligned_by]; try (apply (others place (place -> option N) aligns (fun _ => N) (fun p d => d p) (fun p a => at_place a p)); exact align_ext).
    rewrite C47_alignment. split; [intros (A & ds & B & C); exists ds; auto|intros (ds & (A & B) & C); split; [exact A|]; exists ds; auto].
Qed.
Lemma t_pad : forall items a a', through s_pad a items = Ok a' <->
  exists gss, Forall2 padded_by items gss /\ forall s, latest (pad_of s) (concat gss) (pad_at a s) (pad_at a' s).
Proof.
  apply (through_keys side ((side -> bool) * Z) pads (fun _ => Z) s_pad padded_by pad_of (fun p a => pad_at a p)).
  - exact pad_ext.
  - intros h. exists (mkPads (h top) (h right) (h bottom) (h left)). intros []; reflexivity.
  - intros b i b'. destruct i; cbn [s_pad padded_by]; try (apply (others side ((side -> bool) * Z) pads (fun _ => Z) pad_of (fun p a => pad_at a p)); exact pad_ext).
    rewrite C46_padding. split; [intros (A & ds & B & C); exists ds; auto|intros (ds & (A & B) & C); split; [exact A|]; exists ds; auto].
Qed.
Definition tv (k : bool) : Type := if k then Z else N.
Definition tpi (k : bool) : tabs -> tv k := match k with true => t_stop | false => t_exp end.
Definition tf (k : bool) : Z * option N -> option (tv k) := match k with true => fun x => Some (fst x) | false => snd end.
Lemma t_tab : forall items a a', through s_tab a items = Ok a' <->
  exists ls, Forall2 tabbed_by items ls /\ latest (fun x => Some (fst x)) (concat ls) (t_stop a) (t_stop a') /\ latest snd (concat ls) (t_exp a) (t_exp a').
Proof.
  assert (X : forall x y : tabs, (forall k, tpi k x = tpi k y) -> x = y). { intros [x1 x2] [y1 y2] H. pose proof (H true) as A. pose proof (H false) as B. cbn in A, B. congruence. }
  intros items a a'. rewrite (through_keys bool (Z * option N) tabs tv s_tab tabbed_by tf tpi).
  - split; intros (ls & A & B); exists ls; (split; [exact A|]); [split; [apply (B true)|apply (B false)]|intros []; apply B].
  - exact X.
  - intros h. exists (mkTabs (h true) (h false)). intros []; reflexivity.
  - intros b i b'. destruct i; cbn [s_tab tabbed_by]; try (apply (others bool (Z * option N) tabs tv tf tpi); exact X).
    rewrite C45_tabs. split.
    + intros (n & v & i & rest & A & B & C & D & E & [[-> F]|(c & -> & F & G)]).
      * exists [(i, None)]. split; [exists n, v, i, []; repeat (split; [assumption|]); left; auto|]. intros []; apply latest_fold; cbn; auto.
      * exists [(i, Some (t_exp b'))]. split; [exists n, v, i, [c]; repeat (split; [assumption|]); right; exists c, (t_exp b'); auto|]. intros []; apply latest_fold; cbn; auto.
    + intros (xs & (n & v & k & rest & A & B & C & D & [[-> ->]|(c & m & -> & E & F & ->)]) & L);
      pose proof (L true) as L1; pose proof (L false) as L2; apply latest_fold in L1; apply latest_fold in L2; cbn in L1, L2.
      * exists n, v, k, []. repeat (split; [assumption|]). left. auto.
      * exists n, v, k, [c]. repeat (split; [assumption|]). right. exists c. rewrite L2. auto.
Qed.
Lemma t_size : forall items w h w' h', through s_size (mkSizes w h) items = Ok (mkSizes w' h') <-> sized_by items (w, h) (w', h').
Proof.
  induction items as [|i items IH]; intros w h w' h'.
  - cbn [through]. split; [intros H; injection H as -> ->; constructor|intros H; inversion H; reflexivity].
  - rewrite through_cons. split.
    + intros ([w1 h1] & E1 & E2). apply IH in E2. destruct i; cbn [s_size] in E1; try (injection E1 as <- <-; apply sb_other; [discriminate|exact E2]).
      apply C47_size in E1 as (pw & ph & A & B & C & D & E & F). cbn [s_w s_h] in *. eapply sb_size; eassumption.
    + intros H. inversion H as [|? ? ? ? Hn Hr|arg ? ? ? w1 h1 ? pw ph A B C D E F Hr]; subst.
      * exists (mkSizes w h). split; [destruct i; try reflexivity; exfalso; eapply Hn; reflexivity|apply IH; exact Hr].
      * exists (mkSizes w1 h1). split; [|apply IH; exact Hr]. apply C47_size. exists pw, ph. cbn [s_w s_h]. auto 10.
Qed.
Lemma kill_set : forall items k k', k <> (-1)%Z -> (through s_kill k items = Ok k' <-> (In ItM items /\ k' = 0%Z \/ ~ In ItM items /\ k' = k)).
Proof.
  induction items as [|i items IH]; intros k k' Hk.
  - cbn [through In]. split; [intros H; injection H; auto|intros [[[] _]|[_ ->]]; reflexivity].
  - rewrite through_cons. assert (N : i <> ItM -> s_kill k i = Ok k). { intros Hi. apply Z.eqb_neq in Hk. destruct i; try reflexivity; cbn [s_kill]; unfold killblank; rewrite ?Hk; try reflexivity. congruence. }
    assert (D : i = ItM \/ i <> ItM) by (destruct i; (right; discriminate) || (left; reflexivity)). destruct D as [->|D].
    + split.
      * intros (k1 & E1 & E2). injection E1 as <-. apply IH in E2; [|discriminate]. left. split; [left; reflexivity|destruct E2 as [[_ E]|[_ E]]; exact E].
      * intros [[_ ->]|[F _]]; [|exfalso; apply F; left; reflexivity]. exists 0%Z. split; [reflexivity|]. apply IH; [discriminate|].
        assert (Dm : In ItM items \/ ~ In ItM items). { clear. induction items as [|j l [H|H]]; [right; intros []|left; right; exact H|]. destruct j; try (right; intros [F|F]; [discriminate F|exact (H F)]). left. left. reflexivity. }
        destruct Dm; auto.
    + rewrite (N D). split.
      * intros (k1 & E1 & E2). injection E1 as <-. apply IH in E2; [|exact Hk]. cbn [In]. destruct E2 as [[A B]|[A B]]; [left; auto|right; split; [intros [F|F]; auto|exact B]].
      * intros H. exists k. split; [reflexivity|]. apply IH; [exact Hk|]. cbn [In] in H. destruct H as [[[F|A] B]|[A B]]; [congruence|left; auto|right; auto].
Qed.
Lemma in_m : forall items, In ItM items \/ ~ In ItM items.
Proof. induction items as [|j l [H|H]]; [right; intros []|left; right; exact H|]. destruct j; try (right; intros [F|F]; [discriminate F|exact (H F)]). left. left. reflexivity. Qed.
Lemma kill_first : forall i k, kill_item i -> (s_kill (-1)%Z i = Ok k <-> kill_said i k).
Proof.
  intros i k H. destruct i; try contradiction H; cbn [s_kill kill_said]; unfold killblank; cbn [Z.eqb Pos.eqb]; try (split; [intros E; injection E; auto|intros ->; reflexivity]).
  pose proof (C48_yes arg) as Y. pose proof (C48_no arg) as No. pose proof (C48_disjoint arg) as D. destruct (strisyes arg), (strisno arg).
  - exfalso. apply D. auto.
  - split; [intros E; injection E as <-; left; split; [apply Y; reflexivity|reflexivity]|intros [[_ ->]|[F _]]; [reflexivity|]]. apply No in F. discriminate F.
  - split; [intros E; injection E as <-; right; split; [apply No; reflexivity|reflexivity]|intros [[F _]|[_ ->]]; [|reflexivity]]. apply Y in F. discriminate F.
  - split; [discriminate|]. intros [[F _]|[F _]]; [apply Y in F|apply No in F]; discriminate F.
Qed.
Lemma kill_said_not : forall i k, kill_said i k -> k <> (-1)%Z.
Proof. intros i k H. destruct i; cbn [kill_said] in H; try contradiction; try (subst; discriminate). destruct H as [[_ ->]|[_ ->]]; discriminate. Qed.
Lemma t_kill : forall items k, through s_kill (-1)%Z items = Ok k <-> kill_by items k.
Proof.
  induction items as [|i items IH]; intros k.
  - cbn [through]. unfold kill_by. split.
    + intros H. injection H as <-. left. split; [intros i []|reflexivity].
    + intros [[_ ->]|(l1 & i & l2 & k1 & E & _)]; [reflexivity|destruct l1; discriminate E].
  - rewrite through_cons. assert (D : kill_item i \/ ~ kill_item i) by (destruct i; cbn [kill_item]; auto). destruct D as [D|D].
    + split.
      * intros (k1 & E1 & E2). apply kill_first in E1; [|exact D]. apply kill_set in E2; [|exact (kill_said_not _ _ E1)]. right. exists [], i, items, k1. split; [reflexivity|]. split; [intros j []|]. split; [exact E1|].
        destruct E2 as [[A B]|[A B]]; [left; split; [right; exact A|exact B]|]. assert (X : i = ItM \/ i <> ItM) by (destruct i; (right; discriminate) || (left; reflexivity)). destruct X as [->|X].
        -- left. split; [left; reflexivity|]. cbn in E1. congruence.
        -- right. split; [intros [F|F]; [exact (X F)|exact (A F)]|exact B].
      * intros [[F _]|(l1 & j & l2 & k1 & E & Hn & S & H)]; [exfalso; exact (F i (or_introl eq_refl) D)|]. destruct l1 as [|x l1]; [|injection E as -> _; exfalso; exact (Hn x (or_introl eq_refl) D)].
        injection E as -> ->. exists k1. split; [apply kill_first; [exact D|exact S]|]. apply kill_set; [exact (kill_said_not _ _ S)|]. destruct (in_m l2) as [M|M].
        -- left. split; [exact M|]. destruct H as [[_ H]|[F _]]; [exact H|exfalso; apply F; right; exact M].
        -- right. split; [exact M|]. destruct H as [[[F|F] H]|[_ H]]; [subst j; cbn in S; congruence|contradiction|exact H].
    + assert (E : s_kill (-1)%Z i = Ok (-1)%Z) by (destruct i; cbn [kill_item] in D; try reflexivity; exfalso; exact (D I)). assert (X : i <> ItM) by (intros ->; exact (D I)).
      split.
      * intros (k1 & E1 & E2). rewrite E in E1. injection E1 as <-. apply IH in E2 as [[A ->]|(l1 & j & l2 & k1 & -> & A & B & C)].
        -- left. split; [intros j [<-|F]; [exact D|exact (A j F)]|reflexivity].
        -- right. exists (i :: l1), j, l2, k1. split; [reflexivity|]. split; [intros x [<-|F]; [exact D|exact (A x F)]|]. split; [exact B|]. destruct C as [[C1 C2]|[C1 C2]]; [left; split; [right; exact C1|exact C2]|right; split; [intros [F|F]; auto|exact C2]].
      * intros H. exists (-1)%Z. split; [exact E|]. apply IH. destruct H as [[A ->]|(l1 & j & l2 & k1 & E' & A & B & C)]; [left; split; [intros j F; apply A; right; exact F|reflexivity]|].
        destruct l1 as [|x l1]; injection E' as -> ->.
        -- exfalso. apply D. destruct j; cbn [kill_said] in B; try contradiction B; exact I.
        -- right. exists l1, j, l2, k1. split; [reflexivity|]. split; [intros y F; apply A; right; exact F|]. split; [exact B|].
           destruct C as [[[F|C1] C2]|[C1 C2]]; [contradiction|left; auto|right; split; [intros F; apply C1; right; exact F|exact C2]].
Qed.

(** *** -i *)
Lemma prefix_ok : forall arg w, (List.length arg <=? List.length w)%nat && strncasecmp0 w arg (List.length arg) = true <-> exists a b, w = a ++ b /\ nocase arg a.
Proof.
  induction arg as [|c arg IH]; intros w.
  - cbn [List.length Nat.leb strncasecmp0 andb]. split; [intros _; exists [], w; split; [reflexivity|constructor]|destruct w; reflexivity].
  - destruct w as [|x w].
    + cbn. split; [discriminate|]. intros (a & b & E & H). destruct a; [inversion H|discriminate E].
    + cbn [List.length Nat.leb strncasecmp0]. specialize (IH w). destruct (lower x =? lower c) eqn:El; cbn [andb].
      * rewrite IH. apply N.eqb_eq in El. split.
        -- intros (a & b & -> & H). exists (x :: a), b. split; [reflexivity|]. constructor; [apply lower_same; congruence|exact H].
        -- intros (a & b & E & H). inversion H as [|? y ? a' H1 H2]; subst. injection E as -> ->. exists a', b. auto.
      * rewrite andb_false_r. split; [discriminate|]. intros (a & b & E & H). inversion H as [|? y ? a' H1 H2]; subst. injection E as -> ->. apply lower_same in H1. apply N.eqb_neq in El. congruence.
Qed.
Lemma indent_ok : forall arg m, indentation_mode arg = Ok m <-> exists a b, In (a ++ b, m) mode_words /\ nocase arg a /\ (arg = [] -> m = 98).
Proof.
  intros arg m. unfold indentation_mode. pose proof (prefix_ok arg [98; 111; 120]) as P1. pose proof (prefix_ok arg [116; 101; 120; 116]) as P2. pose proof (prefix_ok arg [110; 111; 110; 101]) as P3. cbn [List.length] in P1, P2, P3.
  assert (Q : forall w, (exists a b, w = a ++ b /\ nocase arg a) -> arg = [] \/ exists c r d s, arg = c :: r /\ w = d :: s /\ same_letter c d).
  { intros w (a & b & -> & H). inversion H as [|c d r s H1 H2]; subst; [left; reflexivity|right]. exists c, r, d, (s ++ b). auto. }
  destruct (_ && strncasecmp0 [98; 111; 120] _ _); [|destruct (_ && strncasecmp0 [116; 101; 120; 116] _ _); [|destruct (_ && strncasecmp0 [110; 111; 110; 101] _ _)]].
  - pose proof (proj1 P1 eq_refl) as E. split.
    + intros H. injection H as <-. destruct E as (a & b & E & H). exists a, b. rewrite <- E. cbn. auto.
    + intros (a & b & Hin & H & H0). f_equal. destruct (Q _ E) as [->|(c & r & d & s & -> & Ew & S)]; [symmetry; auto|]. injection Ew as <- <-.
      cbn in Hin. destruct Hin as [F|[F|[F|[]]]]; injection F as F <-; [reflexivity| |]; exfalso; inversion H as [|? y ? a' H1 H2]; subst; injection F as F _; subst y; unfold same_letter in *; lia.
  - assert (NE : arg <> []). { intros ->. assert (false = true) by (apply P1; exists [], [98; 111; 120]; split; [reflexivity|constructor]). discriminate. }
    pose proof (proj1 P2 eq_refl) as E. split.
    + intros H. injection H as <-. destruct E as (a & b & E & H). exists a, b. rewrite <- E. split; [cbn; auto|]. split; [exact H|contradiction].
    + intros (a & b & Hin & H & H0). f_equal. destruct (Q _ E) as [->|(c & r & d & s & -> & Ew & S)]; [contradiction|]. injection Ew as <- <-.
      cbn in Hin. destruct Hin as [F|[F|[F|[]]]]; injection F as F <-; [|reflexivity|]; exfalso; inversion H as [|? y ? a' H1 H2]; subst; injection F as F _; subst y; unfold same_letter in *; lia.
  - assert (NE : arg <> []). { intros ->. assert (false = true) by (apply P1; exists [], [98; 111; 120]; split; [reflexivity|constructor]). discriminate. }
    pose proof (proj1 P3 eq_refl) as E. split.
    + intros H. injection H as <-. destruct E as (a & b & E & H). exists a, b. rewrite <- E. split; [cbn; auto|]. split; [exact H|contradiction].
    + intros (a & b & Hin & H & H0). f_equal. destruct (Q _ E) as [->|(c & r & d & s & -> & Ew & S)]; [contradiction|]. injection Ew as <- <-.
      cbn in Hin. destruct Hin as [F|[F|[F|[]]]]; injection F as F <-; [| |reflexivity]; exfalso; inversion H as [|? y ? a' H1 H2]; subst; injection F as F _; subst y; unfold same_letter in *; lia.
  - split; [discriminate|]. intros (a & b & Hin & H & _). exfalso. cbn in Hin. destruct Hin as [F|[F|[F|[]]]]; injection F as F _.
    + assert (false = true) by (apply P1; exists a, b; auto). discriminate.
    + assert (false = true) by (apply P2; exists a, b; auto). discriminate.
    + assert (false = true) by (apply P3; exists a, b; auto). discriminate.
Qed.
Lemma t_indent : forall items k k', through s_indent k items = Ok k' <-> exists ls, Forall2 indented_by items ls /\ latest Some (concat ls) k k'.
Proof.
  apply through_one. intros b i b'. destruct i; cbn [s_indent indented_by]; try apply other.
  rewrite indent_ok. split.
  - intros (a & c & A & B & C). exists [b']. split; [exists a, c, b'; auto|apply latest_fold; reflexivity].
  - intros (xs & (a & c & m & A & B & C & ->) & L). apply latest_fold in L. cbn in L. subst b'. exists a, c. auto.
Qed.
Lemma t_cld : forall items k k', through s_cld k items = Ok k' <-> exists ls, Forall2 commented_by items ls /\ latest (fun a => Some (Some a)) (concat ls) k k'.
Proof.
  apply through_one. intros b i b'. destruct i; cbn [s_cld commented_by]; try apply other. destruct arg as [|c arg]; cbn [is_nil].
  - split; [discriminate|]. intros (xs & [F _] & _). contradiction.
  - split.
    + intros H. injection H as <-. exists [c :: arg]. split; [split; [discriminate|reflexivity]|apply latest_fold; reflexivity].
    + intros (xs & [_ ->] & L). apply latest_fold in L. cbn in L. congruence.
Qed.
Lemma t_eol : forall items k k', through s_eol k items = Ok k' <-> exists ls, Forall2 broken_by items ls /\ latest Some (concat ls) k k'.
Proof.
  assert (D : forall s a b, nocase s a -> nocase s b -> same_nocase a b = true). { intros s a b Ha Hb. apply same_ok. eapply nocase_trans; [apply nocase_sym; exact Ha|exact Hb]. }
  apply through_one. intros b i b'. destruct i; cbn [s_eol broken_by]; try apply other. unfold eol_override.
  destruct (same_nocase arg [67; 82; 76; 70]) eqn:E1; [|destruct (same_nocase arg [76; 70]) eqn:E2; [|destruct (same_nocase arg [67; 82]) eqn:E3]]; split.
  - intros H. injection H as <-. exists [[13; 10]]. split; [left; split; [apply same_ok; exact E1|reflexivity]|apply latest_fold; reflexivity].
  - apply same_ok in E1. intros (xs & [[A ->]|[[A ->]|[A ->]]] & L); apply latest_fold in L; cbn in L; [congruence| |]; pose proof (D _ _ _ A E1) as F; vm_compute in F; discriminate F.
  - intros H. injection H as <-. exists [[10]]. split; [right; left; split; [apply same_ok; exact E2|reflexivity]|apply latest_fold; reflexivity].
  - apply same_ok in E2. intros (xs & [[A ->]|[[A ->]|[A ->]]] & L); apply latest_fold in L; cbn in L; [|congruence|]; pose proof (D _ _ _ A E2) as F; vm_compute in F; discriminate F.
  - intros H. injection H as <-. exists [[13]]. split; [right; right; split; [apply same_ok; exact E3|reflexivity]|apply latest_fold; reflexivity].
  - apply same_ok in E3. intros (xs & [[A ->]|[[A ->]|[A ->]]] & L); apply latest_fold in L; cbn in L; [| |congruence]; pose proof (D _ _ _ A E3) as F; vm_compute in F; discriminate F.
  - discriminate.
  - intros (xs & [[A ->]|[[A ->]|[A ->]]] & L); apply same_ok in A; congruence.
Qed.
Lemma t_query : forall items k k', through s_query k items = Ok k' <-> exists ls, Forall2 queried_by items ls /\ latest (fun q => Some (Some q)) (concat ls) k k'.
Proof.
  apply through_one. intros b i b'. destruct i; cbn [s_query queried_by]; try apply other. split.
  - destruct (parse_query arg) as [q|] eqn:E; [|discriminate]. intros H. injection H as <-. exists [q]. split; [|apply latest_fold; reflexivity]. exists q. split; [apply C43_accepted; exact E|reflexivity].
  - intros (xs & (q & Hq & ->) & L). apply C43_accepted in Hq. rewrite Hq. apply latest_fold in L. cbn in L. congruence.
Qed.

(** *** -x *)
Definition join (on : list bool) (p : nat -> bool) : list bool := map (fun kb => snd kb || p (fst kb)) (List.combine (seq 0 5) on).
Lemma five : forall on : list bool, List.length on = 5%nat -> exists a b c d e, on = [a; b; c; d; e].
Proof. intros on H. do 5 (destruct on as [|? on]; [discriminate H|]). destruct on; [|discriminate H]. eauto 10. Qed.
Lemma join_len : forall on p, List.length on = 5%nat -> List.length (join on p) = 5%nat.
Proof. intros on p H. destruct (five on H) as (a & b & c & d & e & ->). reflexivity. Qed.
Lemma join_join : forall on p q, List.length on = 5%nat -> join (join on p) q = join on (fun k => p k || q k).
Proof. intros on p q H. destruct (five on H) as (a & b & c & d & e & ->). unfold join. cbn. rewrite !orb_assoc. reflexivity. Qed.
Lemma join_none : forall on p, List.length on = 5%nat -> (forall k, (k < 5)%nat -> p k = false) -> join on p = on.
Proof. intros on p H Hp. destruct (five on H) as (a & b & c & d & e & ->). unfold join. cbn. rewrite !Hp by lia. rewrite !orb_false_r. reflexivity. Qed.
Lemma join_ext : forall on p q, List.length on = 5%nat -> (forall k, (k < 5)%nat -> p k = q k) -> join on p = join on q.
Proof. intros on p q H Hp. destruct (five on H) as (a & b & c & d & e & ->). unfold join. cbn. rewrite !Hp by lia. reflexivity. Qed.
Lemma join_any : forall on p, List.length on = 5%nat -> existsb (fun b => b) (join on p) = existsb (fun b => b) on || existsb p (seq 0 5).
Proof. intros on p H. destruct (five on H) as (a & b & c & d & e & ->). unfold join. cbn. destruct a, b, c, d, e, (p 0%nat), (p 1%nat), (p 2%nat), (p 3%nat), (p 4%nat); reflexivity. Qed.
Lemma join_nth : forall p k, nth_error (join [false; false; false; false; false] p) k = Some true <-> (k < 5)%nat /\ p k = true.
Proof. intros p k. unfold join. cbn. do 5 (destruct k as [|k]; [cbn; split; [intros H; injection H as ->; split; [lia|reflexivity]|intros [_ ->]; reflexivity]|]). cbn. split; [destruct k; discriminate|lia]. Qed.
Lemma join_eq : forall on p, List.length on = 5%nat -> (forall k, nth_error on k = Some true <-> (k < 5)%nat /\ p k = true) -> on = join [false; false; false; false; false] p.
Proof.
  intros on p H Hk. destruct (five on H) as (a & b & c & d & e & ->). unfold join. cbn.
  assert (X : forall k x, (k < 5)%nat -> nth_error [a; b; c; d; e] k = Some x -> x = p k).
  { intros k x Hx E. specialize (Hk k). rewrite E in Hk. destruct x, (p k); try reflexivity; [symmetry; apply Hk; reflexivity|]. assert (F : Some false = Some true) by (apply Hk; auto). discriminate F. }
  rewrite (X 0%nat a), (X 1%nat b), (X 2%nat c), (X 3%nat d), (X 4%nat e) by (lia || reflexivity). reflexivity.
Qed.

Definition ar (t : list N) (k : nat) : bool := same_nocase t all_areas || match nth_error areas k with Some a => same_nocase t a | None => false end.
Lemma ar_ok : forall t k, area_named t k <-> ar t k = true.
Proof.
  intros t k. unfold area_named, ar. rewrite orb_true_iff, same_ok. destruct (nth_error areas k) as [a|].
  - rewrite same_ok. split; [intros [H|(x & E & H)]; [auto|injection E as ->; auto]|intros [H|H]; [auto|right; exists a; auto]].
  - split; [intros [H|(x & E & _)]; [auto|discriminate E]|intros [H|H]; [auto|discriminate H]].
Qed.
Definition one_area (t : list N) (on : list bool) : option (list bool) := if same_nocase t area_all then Some (map (fun _ => true) on) else set_areas area_names t on.
Lemma apart : forall t a b, same_nocase t a = true -> same_nocase a b = false -> same_nocase t b = false.
Proof.
  intros t a b Ha Hb. destruct (same_nocase t b) eqn:E; [|reflexivity]. apply same_ok in Ha. apply same_ok in E.
  assert (same_nocase a b = true) by (apply same_ok; eapply nocase_trans; [apply nocase_sym; exact Ha|exact E]). congruence.
Qed.
Lemma one_area_ok : forall t on, List.length on = 5%nat -> one_area t on = if existsb (ar t) (seq 0 5) then Some (join on (ar t)) else None.
Proof.
  intros t on H. destruct (five on H) as (a & b & c & d & e & ->). unfold one_area, ar, join, area_all, all_areas, area_names, areas. cbn [nth_error seq existsb List.combine map fst snd set_areas].
  destruct (same_nocase t [65; 76; 76]) eqn:E0; cbn [orb]; [rewrite !orb_true_r; reflexivity|].
  destruct (same_nocase t [77; 65; 73; 78]) eqn:E1; cbn [orb].
  { rewrite !(apart t _ _ E1) by reflexivity. rewrite !orb_false_r, orb_true_r. reflexivity. }
  destruct (same_nocase t [82; 69; 71; 69; 88; 80]) eqn:E2; cbn [orb].
  { rewrite !(apart t _ _ E2) by reflexivity. rewrite !orb_false_r, orb_true_r. reflexivity. }
  destruct (same_nocase t [80; 65; 82; 83; 69; 82]) eqn:E3; cbn [orb].
  { rewrite !(apart t _ _ E3) by reflexivity. rewrite !orb_false_r, orb_true_r. reflexivity. }
  destruct (same_nocase t [76; 69; 88; 69; 82]) eqn:E4; cbn [orb].
  { rewrite !(apart t _ _ E4) by reflexivity. rewrite !orb_false_r, orb_true_r. reflexivity. }
  destruct (same_nocase t [68; 73; 83; 67; 79; 86; 69; 82; 89]) eqn:E5; cbn [orb]; [rewrite !orb_false_r, orb_true_r; reflexivity|reflexivity].
Qed.
Definition known_areas (ts : list (list N)) : bool := forallb (fun t => existsb (ar t) (seq 0 5)) ts.
Definition in_areas (ts : list (list N)) (k : nat) : bool := existsb (fun t => ar t k) ts.
Lemma areas_ok : forall l on, List.length on = 5%nat ->
  debug_areas l on = let ts := filter nonempty (map trimdup l) in if known_areas ts then Ok (join on (in_areas ts)) else Err.
Proof.
  induction l as [|a l IH]; intros on H.
  - change (Ok on = Ok (join on (in_areas []))). rewrite join_none; [reflexivity|exact H|reflexivity].
  - cbn [debug_areas map filter]. cbv zeta. assert (En : nonempty (trimdup a) = negb (is_nil (trimdup a))) by reflexivity. rewrite En. destruct (is_nil (trimdup a)); cbn [negb]; [apply IH; exact H|].
    cbn [known_areas forallb]. pose proof (one_area_ok (trimdup a) on H) as O. unfold one_area in O. destruct (same_nocase (trimdup a) area_all).
    + destruct (existsb (ar (trimdup a)) (seq 0 5)); [|discriminate O]. injection O as ->. rewrite IH by (apply join_len; exact H). cbv zeta. cbn [andb].
      fold (known_areas (filter nonempty (map trimdup l))). destruct (known_areas _); [|reflexivity]. rewrite join_join by exact H. reflexivity.
    + rewrite O. destruct (existsb (ar (trimdup a)) (seq 0 5)); [|reflexivity]. rewrite IH by (apply join_len; exact H). cbv zeta. cbn [andb].
      fold (known_areas (filter nonempty (map trimdup l))). destruct (known_areas _); [|reflexivity]. rewrite join_join by exact H. reflexivity.
Qed.

Definition undocb (arg : list N) : bool := strncmp0 arg undoc_word 7.
Definition body (arg : list N) : list N := if undocb arg then skipn 7 arg else arg.
Definition debugb (s : list N) : bool := strncasecmp0 s debug_word 5.
Definition logsb (arg : list N) (k : nat) : bool :=
  debugb (body arg) && match skipn 5 (body arg) with [] => (k =? 0)%nat | c :: t => (c =? 58) && in_areas (term_list t) k end.
Definition rightb (arg : list N) : bool :=
  negb (debugb (body arg)) || match skipn 5 (body arg) with [] => true | c :: t => (c =? 58) && known_areas (term_list t) end.
Lemma option_ok : forall u d act arg, List.length d = 5%nat -> act = existsb (fun b => b) d ->
  undocumented_options (mkModes false false false None u d) act arg =
    if rightb arg then
      let u' := undocb arg || u in let d' := join d (logsb arg) in
      if u' || existsb (fun b => b) d' then Ok (mkModes false false false None u' d', existsb (fun b => b) d') else Err
    else Err.
Proof.
  intros u d act arg H Ha. unfold undocumented_options, rightb. cbn [m_help m_version m_list m_query m_undoc m_debug].
  change (strncmp0 arg [40; 117; 110; 100; 111; 99; 41] 7) with (undocb arg). fold (body arg). change (strncasecmp0 (body arg) [100; 101; 98; 117; 103] 5) with (debugb (body arg)).
  destruct (debugb (body arg)) eqn:Ed; cbn [negb orb].
  - assert (L : forall k, logsb arg k = match skipn 5 (body arg) with [] => (k =? 0)%nat | c :: t => (c =? 58) && in_areas (term_list t) k end) by (intros k; unfold logsb; rewrite Ed; reflexivity).
    destruct (skipn 5 (body arg)) as [|c t].
    + assert (M : debug_areas [[77; 65; 73; 78]] d = Ok (join d (in_areas [[77; 65; 73; 78]]))) by (rewrite areas_ok by exact H; reflexivity). rewrite M. cbn [bind m_undoc]. cbv zeta iota.
      rewrite (join_ext d (in_areas [[77; 65; 73; 78]]) (logsb arg) H) by (intros k Hk; rewrite L; do 5 (destruct k as [|k]; [vm_compute; reflexivity|]); lia).
      rewrite <- negb_orb. destruct (_ || _); reflexivity.
    + destruct (c =? 58) eqn:Ec; cbn [bind andb]; [|reflexivity]. rewrite areas_ok by exact H. cbv zeta. fold (term_list t). destruct (known_areas (term_list t)); [|reflexivity]. cbn [bind m_undoc].
      rewrite (join_ext d (in_areas (term_list t)) (logsb arg) H) by (intros k Hk; rewrite L; reflexivity).
      rewrite <- negb_orb. destruct (_ || _); reflexivity.
  - cbn [bind m_undoc]. cbv zeta. rewrite (join_none d (logsb arg) H) by (intros k _; unfold logsb; rewrite Ed; reflexivity). subst act.
    rewrite <- negb_orb. destruct (_ || _); reflexivity.
Qed.
Definition xs_of (items : list item) : list (list N) := flat_map (fun i => match i with ItX a => [a] | _ => [] end) items.
Definition start_right (args : list (list N)) : bool := match args with [] => true | a :: _ => undocb a || existsb (logsb a) (seq 0 5) end.
Lemma t_x : forall items u d act u' d', List.length d = 5%nat -> act = existsb (fun b => b) d ->
  (exists act', through s_x (u, d, act) items = Ok (u', d', act')) <->
  forallb rightb (xs_of items) = true /\ (u || act || start_right (xs_of items)) = true /\ u' = u || existsb undocb (xs_of items) /\ d' = join d (fun k => existsb (fun a => logsb a k) (xs_of items)).
Proof.
  induction items as [|i items IH]; intros u d act u' d' H Ha.
  - cbn [through xs_of flat_map forallb existsb start_right]. rewrite !orb_false_r, orb_true_r, (join_none d) by (exact H || reflexivity). split.
    + intros (act' & E). injection E as <- <- _. auto.
    + intros (_ & _ & -> & ->). eauto.
  - assert (D : (exists a, i = ItX a) \/ (forall p, s_x p i = Ok p) /\ xs_of (i :: items) = xs_of items) by (destruct i; (left; eauto; fail) || (right; split; reflexivity)).
    destruct D as [(a & ->)|[D1 D2]].
    + cbn [through s_x]. rewrite (option_ok u d act a H Ha). change (xs_of (ItX a :: items)) with (a :: xs_of items). cbn [forallb existsb start_right]. cbv zeta.
      destruct (rightb a); cbn [bind andb]; [|split; [intros (? & F); discriminate F|intros (F & _); discriminate F]].
      pose proof (join_any d (logsb a) H) as J. rewrite <- Ha in J.
      destruct (undocb a || u || existsb (fun b => b) (join d (logsb a))) eqn:E.
      * cbn [bind m_undoc m_debug]. rewrite (IH (undocb a || u) (join d (logsb a)) _ u' d' (join_len _ _ H) eq_refl). rewrite E. cbn [orb]. rewrite join_join by exact H.
        replace (u || act || (undocb a || existsb (logsb a) (seq 0 5))) with true by (rewrite <- E, J; destruct (undocb a), u, act, (existsb (logsb a) (seq 0 5)); reflexivity).
        rewrite orb_assoc, (orb_comm u (undocb a)). tauto.
      * split; [intros (? & F); discriminate F|]. intros (_ & F & _). rewrite J in E. destruct (undocb a), u, act, (existsb (logsb a) (seq 0 5)); discriminate.
    + rewrite D2, <- (IH u d act u' d' H Ha). cbn [through]. rewrite D1. reflexivity.
Qed.

Lemma starts_with : forall w a, strncmp0 a w (List.length w) = true <-> exists r, a = w ++ r.
Proof.
  induction w as [|c w IH]; intros a; destruct a as [|x a]; cbn [List.length strncmp0].
  - split; [intros _; exists []; reflexivity|reflexivity].
  - split; [intros _; exists (x :: a); reflexivity|reflexivity].
  - split; [discriminate|intros (r & F); discriminate F].
  - rewrite andb_true_iff, IH, N.eqb_eq. split.
    + intros [-> (r & ->)]. exists r. reflexivity.
    + intros (r & E). injection E as -> ->. eauto.
Qed.
Lemma starts_nocase : forall w a, strncasecmp0 a w (List.length w) = true <-> exists d r, a = d ++ r /\ nocase d w.
Proof.
  induction w as [|c w IH]; intros a; destruct a as [|x a]; cbn [List.length strncasecmp0].
  - split; [intros _; exists [], []; split; [reflexivity|constructor]|reflexivity].
  - split; [intros _; exists [], (x :: a); split; [reflexivity|constructor]|reflexivity].
  - split; [discriminate|intros (d & r & F & H); inversion H; subst; discriminate F].
  - rewrite andb_true_iff, IH, N.eqb_eq, lower_same. split.
    + intros [A (d & r & -> & B)]. exists (x :: d), r. split; [reflexivity|constructor; assumption].
    + intros (d & r & E & H). inversion H as [|y ? d' ? H1 H2]; subst. injection E as -> ->. split; [exact H1|]. eauto.
Qed.
Lemma undocb_ok : forall a, undocumented a <-> undocb a = true.
Proof. intros a. symmetry. apply (starts_with undoc_word). Qed.
Lemma behind_ok : forall a s, behind a s <-> s = body a.
Proof.
  intros a s. unfold behind, body. rewrite undocb_ok. destruct (undocb a) eqn:E.
  - apply undocb_ok in E as (r & ->). split; [intros [H|[F _]]; [|congruence]|intros ->; left; reflexivity]. apply app_inv_head in H. subst. reflexivity.
  - split; [intros [H|[_ H]]; [|exact H]|intros ->; right; split; [congruence|reflexivity]]. assert (F : undocb a = true) by (apply undocb_ok; exists s; exact H). congruence.
Qed.
Lemma debugging_ok : forall s r, debugging s r <-> debugb s = true /\ r = skipn 5 s.
Proof.
  intros s r. unfold debugging, debugb. rewrite (starts_nocase debug_word). assert (L : forall d, nocase d debug_word -> List.length d = 5%nat) by (intros d H; unfold debug_word in H; repeat match goal with K : nocase _ _ |- _ => inversion K; clear K; subst | K : Forall2 _ _ _ |- _ => inversion K; clear K; subst end; reflexivity).
  split.
  - intros (d & -> & H). split; [eauto|]. rewrite skipn_app, (L d H). cbn [Nat.sub]. rewrite skipn_all2 by (rewrite (L d H); lia). reflexivity.
  - intros [(d & q & -> & H) ->]. exists d. split; [|exact H]. f_equal. rewrite skipn_app, (L d H). cbn [Nat.sub]. rewrite skipn_all2 by (rewrite (L d H); lia). reflexivity.
Qed.
Lemma logs_ok : forall a k, logs a k <-> logsb a k = true.
Proof.
  intros a k. unfold logs, logsb. split.
  - intros (s & r & B & D & H). apply behind_ok in B. subst s. apply debugging_ok in D as [-> ->]. cbn [andb]. destruct H as [[-> ->]|(t & ts & x & -> & T & Hx & Ha)]; [reflexivity|].
    apply terms_ok in T. subst ts. cbn [N.eqb Pos.eqb andb]. apply existsb_exists. exists x. split; [exact Hx|]. apply ar_ok. exact Ha.
  - intros H. apply andb_true_iff in H as [D H]. exists (body a), (skipn 5 (body a)). split; [apply behind_ok; reflexivity|]. split; [apply debugging_ok; auto|].
    destruct (skipn 5 (body a)) as [|c t]; [left; split; [reflexivity|apply Nat.eqb_eq; exact H]|]. apply andb_true_iff in H as [C H]. apply N.eqb_eq in C. subst c. apply existsb_exists in H as (x & Hx & Ha).
    right. exists t, (term_list t), x. split; [reflexivity|]. split; [apply terms_ok; reflexivity|]. split; [exact Hx|apply ar_ok; exact Ha].
Qed.
Lemma right_ok : forall a, x_right a <-> rightb a = true.
Proof.
  intros a. unfold x_right, rightb. split.
  - intros H. destruct (debugb (body a)) eqn:D; [|reflexivity]. cbn [negb orb]. destruct (H (body a) (skipn 5 (body a))) as [E|(t & ts & E & T & K)]; [apply behind_ok; reflexivity|apply debugging_ok; auto|rewrite E; reflexivity|].
    rewrite E. apply terms_ok in T. subst ts. cbn [N.eqb Pos.eqb andb]. apply forallb_forall. intros x Hx. destruct (K x Hx) as (k & Hk & A). apply existsb_exists. exists k. split; [apply in_seq; lia|apply ar_ok; exact A].
  - intros H s r B D. apply behind_ok in B. subst s. apply debugging_ok in D as [D ->]. rewrite D in H. cbn [negb orb] in H. destruct (skipn 5 (body a)) as [|c t]; [left; reflexivity|right].
    apply andb_true_iff in H as [C H]. apply N.eqb_eq in C. subst c. exists t, (term_list t). split; [reflexivity|]. split; [apply terms_ok; reflexivity|]. intros x Hx. unfold known_areas in H. rewrite forallb_forall in H.
    specialize (H x Hx). apply existsb_exists in H as (k & Hk & A). apply in_seq in Hk. exists k. split; [lia|apply ar_ok; exact A].
Qed.
Lemma xs_in : forall items a, In a (xs_of items) <-> In (ItX a) items.
Proof.
  intros items a. unfold xs_of. rewrite in_flat_map. split.
  - intros (i & Hi & H). destruct i; try contradiction H. destruct H as [<-|[]]. exact Hi.
  - intros H. exists (ItX a). split; [exact H|left; reflexivity].
Qed.
Lemma start_ok : forall items, start_right (xs_of items) = true <->
  forall l1 arg l2, items = l1 ++ ItX arg :: l2 -> (forall a, ~ In (ItX a) l1) -> undocumented arg \/ exists k, (k < 5)%nat /\ logs arg k.
Proof.
  assert (S : forall a, undocb a || existsb (logsb a) (seq 0 5) = true <-> undocumented a \/ exists k, (k < 5)%nat /\ logs a k).
  { intros a. rewrite orb_true_iff, <- undocb_ok, existsb_exists. split; (intros [H|(k & A & B)]; [left; exact H|right; exists k]); [apply in_seq in A; split; [lia|apply logs_ok; exact B]|split; [apply in_seq; lia|apply logs_ok; exact B]]. }
  induction items as [|i items IH].
  - cbn. split; [intros _ l1 arg l2 E; destruct l1; discriminate E|reflexivity].
  - assert (D : (exists a, i = ItX a) \/ (forall a, i <> ItX a) /\ xs_of (i :: items) = xs_of items) by (destruct i; (left; eauto; fail) || (right; split; [discriminate|reflexivity])).
    destruct D as [(a & ->)|[D1 D2]].
    + change (xs_of (ItX a :: items)) with (a :: xs_of items). cbn [start_right]. rewrite S. split.
      * intros H l1 arg l2 E Hn. destruct l1 as [|x l1]; injection E as E1 E2; subst; [exact H|]. exfalso. exact (Hn a (or_introl eq_refl)).
      * intros H. apply (H [] a items); [reflexivity|intros x []].
    + rewrite D2, IH. split.
      * intros H l1 arg l2 E Hn. destruct l1 as [|x l1]; injection E as E1 E2; subst; [exfalso; exact (D1 arg eq_refl)|]. apply (H l1 arg l2); [reflexivity|intros y Hy; apply (Hn y); right; exact Hy].
      * intros H l1 arg l2 -> Hn. apply (H (i :: l1) arg l2); [reflexivity|]. intros y [F|F]; [exact (D1 y F)|exact (Hn y F)].
Qed.
Lemma files_ok : forall cr cw args fs, input_output_files cr cw args = Ok fs <-> opened cr cw args fs.
Proof.
  assert (D : forall a, dash a = true <-> a = [45]) by (intros a; unfold dash, Neq_list; destruct (list_eq_dec N.eq_dec a [45]); intuition congruence).
  intros cr cw args fs. unfold input_output_files. destruct args as [|i [|o [|x r]]].
  - split; [intros H; injection H as <-; constructor|intros H; inversion H; reflexivity].
  - pose proof (D i) as Di. destruct (dash i) eqn:E; cbn [negb andb].
    + split; [intros H; injection H as <-; constructor; left; split; [apply Di; reflexivity|reflexivity]|]. intros H. inversion H as [|a f [[A ->]|[A _]]|]; subst; [reflexivity|]. exfalso. apply A. apply Di. reflexivity.
    + assert (Ne : i <> [45]) by (intros F; apply Di in F; discriminate F). destruct (cr i) eqn:C; cbn [negb].
      * split; [intros H; injection H as <-; constructor; right; auto|]. intros H. inversion H as [|a f [[A ->]|[A [B ->]]]|]; subst; [contradiction|reflexivity].
      * split; [discriminate|]. intros H. inversion H as [|a f [[A ->]|[A [B ->]]]|]; subst; [contradiction|congruence].
  - pose proof (D i) as Di. pose proof (D o) as Do. 
    assert (W : forall inf, (if dash o then Ok (Files inf None) else if cw o then Ok (Files inf (Some o)) else Err) = Ok fs <-> exists f', writes_to cw o f' /\ fs = Files inf f').
    { intros inf. destruct (dash o) eqn:E.
      - split; [intros H; injection H as <-; exists None; split; [left; split; [apply Do; reflexivity|reflexivity]|reflexivity]|]. intros (f' & [[A ->]|[A _]] & ->); [reflexivity|]. exfalso. apply A. apply Do. reflexivity.
      - assert (Ne : o <> [45]) by (intros F; apply Do in F; discriminate F). destruct (cw o) eqn:C.
        + split; [intros H; injection H as <-; exists (Some o); split; [right; auto|reflexivity]|]. intros (f' & [[A ->]|[A [B ->]]] & ->); [contradiction|reflexivity].
        + split; [discriminate|]. intros (f' & [[A ->]|[A [B ->]]] & ->); [contradiction|congruence]. }
    destruct (dash i) eqn:E; cbn [negb andb].
    + rewrite W. split; [intros (f' & A & ->); constructor; [left; split; [apply Di; reflexivity|reflexivity]|exact A]|]. intros H. inversion H as [| |a b f f' [[A ->]|[A _]] B]; subst; [eauto|]. exfalso. apply A. apply Di. reflexivity.
    + assert (Ne : i <> [45]) by (intros F; apply Di in F; discriminate F). destruct (cr i) eqn:C; cbn [negb].
      * rewrite W. split; [intros (f' & A & ->); constructor; [right; auto|exact A]|]. intros H. inversion H as [| |a b f f' [[A ->]|[A [Z ->]]] B]; subst; [contradiction|eauto].
      * split; [discriminate|]. intros H. inversion H as [| |a b f f' [[A ->]|[A [Z ->]]] B]; subst; [contradiction|congruence].
  - split; [discriminate|]. intros H. inversion H.
Qed.
