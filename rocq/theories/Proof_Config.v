(** * Written statements: what the scanner and the grammar make of them *)
From Coq Require Import Ascii String List Arith NArith ZArith Bool Lia.
From Verif Require Import Base Model_Unicode Model_Bxs Model_Shape Model_Regex Model_Query Proof_Query Model_Discovery Model_Parser Model_Lexer Spec_Lexer Prop_Lexer Model_Scan Spec_Config Spec_Grammar Proof_Scan.
Import ListNotations.
Local Open Scope nat_scope.
Local Open Scope list_scope.

(** ** the grammar reads them back *)
Lemma string_list_ok : forall l r, l <> [] -> string_list (ctoks T_STRING l ++ T_RPAR :: r) = Some (l, r).
Proof.
  induction l as [|a l IH]; intros r H; [congruence|]. destruct l as [|b l]; [reflexivity|].
  change (ctoks T_STRING (a :: b :: l) ++ T_RPAR :: r) with (T_STRING a :: T_COMMA :: (ctoks T_STRING (b :: l) ++ T_RPAR :: r)).
  cbn [string_list]. rewrite IH by discriminate. reflexivity.
Qed.
Lemma elist_ok : forall l r, l <> [] -> elist (ctoks T_SHAPE l ++ T_RPAR :: r) = Some (l, r).
Proof.
  induction l as [|a l IH]; intros r H; [congruence|]. destruct l as [|b l]; [reflexivity|].
  change (ctoks T_SHAPE (a :: b :: l) ++ T_RPAR :: r) with (T_SHAPE a :: T_COMMA :: (ctoks T_SHAPE (b :: l) ++ T_RPAR :: r)).
  cbn [elist]. rewrite IH by discriminate. reflexivity.
Qed.
Lemma shape_def_ok : forall i sd r, exists t, shape_toks (i, sd) ++ r = T_SHAPE i :: t /\ shape_def_of t = Some (sd, r).
Proof.
  intros i sd r. exists (tl (shape_toks (i, sd)) ++ r). split; [reflexivity|]. destruct sd as [|a l].
  - reflexivity.
  - change (tl (shape_toks (i, lines a l)) ++ r) with (T_LPAR :: (ctoks T_STRING (a :: l) ++ [T_RPAR]) ++ r). rewrite <- app_assoc.
    change ([T_RPAR] ++ r) with (T_RPAR :: r). unfold shape_def_of.
    pose proof (string_list_ok (a :: l) r ltac:(discriminate)) as E. destruct l as [|b l]; [reflexivity|].
    change (ctoks T_STRING (a :: b :: l) ++ T_RPAR :: r) with (T_STRING a :: T_COMMA :: (ctoks T_STRING (b :: l) ++ T_RPAR :: r)) in *.
    rewrite E. reflexivity.
Qed.
Lemma slist_ok : forall l r fuel, l <> [] -> List.length l <= fuel -> slist fuel (flat_map shape_toks l ++ T_RBRACE :: r) = Some (l, r).
Proof.
  induction l as [|[i sd] l IH]; intros r fuel H Hf; [congruence|]. cbn [flat_map]. rewrite <- app_assoc.
  destruct (shape_def_ok i sd (flat_map shape_toks l ++ T_RBRACE :: r)) as (t & -> & Et).
  destruct fuel as [|f]; [cbn in Hf; lia|]. cbn [slist]. rewrite Et. destruct l as [|p l]; [reflexivity|].
  assert (E : slist f (flat_map shape_toks (p :: l) ++ T_RBRACE :: r) = Some (p :: l, r)) by (apply IH; [discriminate|cbn in Hf; cbn; lia]).
  destruct p as [j sd']. cbn [flat_map] in *. rewrite <- app_assoc in *.
  destruct (shape_def_ok j sd' (flat_map shape_toks l ++ T_RBRACE :: r)) as (t' & Et' & _). rewrite Et' in *. cbn iota. rewrite E. reflexivity.
Qed.
Lemma wlist_ok : forall l r, l <> [] -> wlist (flat_map pad_toks l ++ T_RBRACE :: r) = Some (l, r).
Proof.
  induction l as [|[a z] l IH]; intros r H; [congruence|]. destruct l as [|[b y] l]; [reflexivity|].
  specialize (IH r ltac:(discriminate)).
  change (flat_map pad_toks ((a, z) :: (b, y) :: l) ++ T_RBRACE :: r) with (T_ASCII_ID a :: T_NUMBER z :: (flat_map pad_toks ((b, y) :: l) ++ T_RBRACE :: r)).
  change (flat_map pad_toks ((b, y) :: l) ++ T_RBRACE :: r) with (T_ASCII_ID b :: T_NUMBER y :: (flat_map pad_toks l ++ T_RBRACE :: r)) in *.
  cbn [wlist]. cbn [wlist] in IH. rewrite IH. reflexivity.
Qed.
Lemma flat_len : forall (A : Type) (f : A -> list token) l, (forall a, f a <> []) -> List.length l <= List.length (flat_map f l).
Proof.
  intros A f l H. induction l as [|a l IH]; [cbn; lia|]. cbn [flat_map List.length]. rewrite app_length.
  specialize (H a). destruct (f a); [congruence|cbn [List.length]; lia].
Qed.
Lemma item_ok : forall i ts r, item_toks i ts -> item_of (ts ++ r) = Some (i, r).
Proof.
  intros i ts r H. destruct H as [k v|k v|k v| |v|l H|v|l H|l H|a b m f H|a b m f H|l H]; try reflexivity.
  - cbn [app]. rewrite <- app_assoc. change ([T_RPAR] ++ r) with (T_RPAR :: r). cbn [item_of]. rewrite string_list_ok by exact H. reflexivity.
  - cbn [app]. rewrite <- app_assoc. change ([T_RBRACE] ++ r) with (T_RBRACE :: r). cbn [item_of]. rewrite slist_ok; [reflexivity|exact H|].
    rewrite app_length. pose proof (flat_len _ shape_toks l). assert (forall a, shape_toks a <> []) by discriminate. intuition lia.
  - cbn [app]. rewrite <- app_assoc. change ([T_RPAR] ++ r) with (T_RPAR :: r). cbn [item_of]. rewrite elist_ok by exact H. reflexivity.
  - destruct H as [[-> ->]| ->]; reflexivity.
  - destruct H as [[-> ->]| ->]; reflexivity.
  - cbn [app]. rewrite <- app_assoc. change ([T_RBRACE] ++ r) with (T_RBRACE :: r). cbn [item_of]. rewrite wlist_ok by exact H. reflexivity.
Qed.
Lemma item_head : forall i ts, item_toks i ts -> exists t r, ts = t :: r /\ t <> T_END /\ t <> T_COMMA.
Proof. intros i ts H. destruct H; eexists; eexists; (split; [reflexivity|split; discriminate]). Qed.

(** ** the scanner produces them *)
Lemma seq_runs : forall q d s t1 q1 d1 s1 t2 q2 d2 s2 ts, runs q d s t1 q1 d1 s1 -> runs q1 d1 s1 t2 q2 d2 s2 -> t1 ++ t2 = ts -> runs q d s ts q2 d2 s2.
Proof. intros. subst. eapply runs_app; eassumption. Qed.
Ltac assoc := repeat (rewrite <- app_assoc || rewrite <- app_comm_cons).
Lemma no_delim : forall c, In c LEX_SDELIM -> word_char c = false.
Proof. intros c H. apply delim_char in H. tauto. Qed.
Ltac hn := repeat first [ apply gap_head; [reflexivity|reflexivity|reflexivity|reflexivity|reflexivity|assumption|]
                        | apply gap1_head; [reflexivity|reflexivity|reflexivity|reflexivity|reflexivity|assumption]
                        | eapply string_head; [eassumption|eassumption|exact no_delim]
                        | reflexivity ].
Ltac cl := repeat match goal with H : clean (_ ++ _) |- _ => apply clean_app in H as [? ?] | H : clean (_ :: _) |- _ => apply clean_cons in H as [? ?]
                  | |- clean (_ ++ _) => apply clean_app; split | |- clean (_ :: _) => apply clean_cons; split end; try assumption.
Ltac nl := repeat first [assumption | apply in_or_app; right | right].
Ltac gp := apply gap_runs; [unfold skips; tauto|assumption || (match goal with H : gap1 ?g |- gap ?g => exact (proj1 H) end)].

Ltac sq P := eapply seq_runs; [P| |].
Lemma comma_runs : forall q d r, q = q_BOX \/ q = q_SHAPES \/ q = q_ELASTIC -> runs q d (44%N :: r) [T_COMMA] q d r.
Proof. intros q d r Hq. pose proof (symbol_runs q d 44 r T_COMMA Hq eq_refl) as S. destruct Hq as [->|[->| ->]]; exact S. Qed.
Lemma comma_strings : forall q d l s, q = q_BOX \/ q = q_SHAPES -> delims_ok d -> comma_list (written_string d) l s -> forall rest, clean (s ++ rest) -> In 10%N rest ->
  l <> [] /\ runs q d (s ++ rest) (ctoks T_STRING l) q d rest.
Proof.
  intros q d l s Hq Hd H. induction H as [a s Hs|a s g1 g2 l t Hs G1 G2 H IH]; intros rest Hc Hn.
  - split; [discriminate|]. apply string_runs; assumption.
  - split; [discriminate|]. destruct (IH rest) as [L R]; [cl|exact Hn|].
    revert Hc. assoc. intros Hc.
    sq ltac:(apply string_runs; [exact Hq|exact Hd|exact Hs|exact Hc|nl]).
    { sq gp. { sq ltac:(apply comma_runs; tauto). { sq gp. { exact R. } reflexivity. } reflexivity. } reflexivity. }
    destruct l; [congruence|reflexivity].
Qed.
Lemma comma_shapes : forall d l s, comma_list shape_spelled l s -> forall rest, head_not is_letter rest ->
  l <> [] /\ runs q_ELASTIC d (s ++ rest) (ctoks T_SHAPE l) q_ELASTIC d rest.
Proof.
  intros d l s H. induction H as [a s Hs|a s g1 g2 l t Hs G1 G2 H IH]; intros rest Hr.
  - split; [discriminate|]. apply shape_runs; [tauto|exact Hs|exact Hr].
  - split; [discriminate|]. destruct (IH rest Hr) as [L R]. assoc.
    sq ltac:(apply shape_runs; [tauto|exact Hs|hn]).
    { sq gp. { sq ltac:(apply comma_runs; tauto). { sq gp. { exact R. } reflexivity. } reflexivity. } reflexivity. }
    destruct l; [congruence|reflexivity].
Qed.
Lemma lpar_runs : forall q d r, q = q_BOX \/ q = q_SHAPES \/ q = q_ELASTIC -> runs q d (40%N :: r) [T_LPAR] q d r.
Proof. intros q d r Hq. pose proof (symbol_runs q d 40 r T_LPAR Hq eq_refl) as S. destruct Hq as [->|[->| ->]]; exact S. Qed.
Lemma rpar_runs : forall q d r, q = q_BOX \/ q = q_SHAPES -> runs q d (41%N :: r) [T_RPAR] q d r.
Proof. intros q d r Hq. pose proof (symbol_runs q d 41 r T_RPAR ltac:(tauto) eq_refl) as S. destruct Hq as [->| ->]; exact S. Qed.
Lemma shape_entry_runs : forall d p s rest, delims_ok d -> written_shape d p s -> clean (s ++ rest) -> In 10%N rest ->
  runs q_SHAPES d (s ++ rest) (shape_toks p) q_SHAPES d rest.
Proof.
  intros d p s rest Hd H Hc Hn. destruct H as [i n g1 g2 Hi G1 G2|i n g1 g2 a l s g3 Hi G1 G2 H G3].
  - assoc. sq ltac:(apply shape_runs; [tauto|exact Hi|hn]).
    { sq gp. { sq ltac:(apply lpar_runs; tauto). { sq gp. { apply rpar_runs. tauto. } reflexivity. } reflexivity. } reflexivity. }
    reflexivity.
  - destruct (comma_strings q_SHAPES d (a :: l) s ltac:(tauto) Hd H (g3 ++ 41%N :: rest)) as [_ R].
    { cl. } { nl. }
    assoc. sq ltac:(apply shape_runs; [tauto|exact Hi|hn]).
    { sq gp. { sq ltac:(apply lpar_runs; tauto). { sq gp. { sq ltac:(exact R). { sq gp. { apply rpar_runs. tauto. } reflexivity. } reflexivity. } reflexivity. }
        reflexivity. } reflexivity. }
    reflexivity.
Qed.
Lemma shapes_runs : forall d l s, delims_ok d -> some_list (written_shape d) l s -> forall rest, clean (s ++ rest) -> In 10%N rest ->
  l <> [] /\ runs q_SHAPES d (s ++ rest) (flat_map shape_toks l) q_SHAPES d rest.
Proof.
  intros d l s Hd H. induction H as [a s Hs|a s g l t Hs G H IH]; intros rest Hc Hn; (split; [discriminate|]).
  - cbn [flat_map]. rewrite app_nil_r. apply shape_entry_runs; assumption.
  - destruct (IH rest) as [L R]; [cl|exact Hn|]. revert Hc. assoc. intros Hc.
    sq ltac:(apply shape_entry_runs; [exact Hd|exact Hs|exact Hc|nl]). { sq gp. { exact R. } reflexivity. } reflexivity.
Qed.
Lemma number_head : forall z s r, written_number z s -> exists c t, s ++ r = c :: t /\ (is_digit c = true \/ c = 43%N \/ c = 45%N).
Proof.
  intros z s r (_ & ds & v & Hn & Hd & Hs). apply digits_spec in Hd as [Hd _]. destruct ds as [|c ds]; [congruence|].
  cbn [forallb] in Hd. apply andb_true_iff in Hd as [Hc _]. destruct Hs as [[-> _]|[[-> _]|[-> _]]]; eexists; eexists; (split; [reflexivity|tauto]).
Qed.
Lemma padding_entry_runs : forall d p s rest, written_padding p s -> head_not is_digit rest -> runs q_BOX d (s ++ rest) (pad_toks p) q_BOX d rest.
Proof.
  intros d [n z] s rest (g & w & Hn & Hr & G & Hw & ->) Hrest. cbn [fst snd] in *. assoc.
  sq ltac:(eapply word_box_runs; [apply name_word; exact Hn|hn|apply not_reserved; exact Hr]).
  { sq gp. { apply number_runs; [exact Hw|exact Hrest]. } reflexivity. } reflexivity.
Qed.
Lemma letter_not_digit : forall c, letter c -> is_digit c = false.
Proof. intros c H. unfold letter in H. unfold is_digit. apply andb_false_iff. rewrite !N.leb_gt. lia. Qed.
Lemma padding_head : forall l s r, some_list written_padding l s -> head_not is_digit (s ++ r).
Proof.
  intros l s r H. assert (K : forall p u t, written_padding p u -> head_not is_digit (u ++ t)).
  { intros p u t (g & w & (c & n & E & Hc & _) & _ & _ & _ & ->). rewrite E. cbn. apply letter_not_digit. exact Hc. }
  destruct H as [a s Hs|a s g l t Hs G H]; [eapply K; eassumption|]. rewrite <- app_assoc. eapply K; eassumption.
Qed.
Lemma paddings_runs : forall d l s, some_list written_padding l s -> forall rest, head_not is_digit rest ->
  l <> [] /\ runs q_BOX d (s ++ rest) (flat_map pad_toks l) q_BOX d rest.
Proof.
  intros d l s H. induction H as [a s Hs|a s g l t Hs G H IH]; intros rest Hr; (split; [discriminate|]).
  - cbn [flat_map]. rewrite app_nil_r. apply padding_entry_runs; assumption.
  - destruct (IH rest Hr) as [L R]. assoc.
    sq ltac:(apply padding_entry_runs; [exact Hs|apply gap_head; [reflexivity..|exact G|eapply padding_head; eassumption]]).
    { sq gp. { exact R. } reflexivity. } reflexivity.
Qed.

(** ** samples *)
Lemma ends_spec : forall s r, ends_at s = Some r -> exists e t, s = e ++ t ++ r /\ spells "ends" e /\ Forall blank t /\ exists r', r = 10%N :: r'.
Proof.
  intros s r H. unfold ends_at in H. destruct (List.length s <? 4) eqn:L; [discriminate|]. apply Nat.ltb_ge in L.
  destruct (same_nocase (firstn 4 s) (lit "ends")) eqn:E; [|discriminate].
  destruct (span _ (skipn 4 s)) as [t b] eqn:Es. apply span_spec in Es as (E1 & E2 & E3). destruct b as [|c b]; [discriminate|].
  destruct (N.eqb_spec c 10) as [->|]; [|discriminate]. injection H as <-. exists (firstn 4 s), t. repeat split.
  - rewrite <- E1. symmetry. apply firstn_skipn.
  - apply same_spells; [reflexivity|exact E].
  - apply Forall_forall. intros x Hx. apply (proj1 (forallb_forall _ _) E2) in Hx. apply existsb_exists in Hx as (y & Hy & F). apply N.eqb_eq in F. subst. exact Hy.
  - exists b. reflexivity.
Qed.
Lemma ends_at_ok : forall e t r, spells "ends" e -> Forall blank t -> ends_at (e ++ t ++ 10%N :: r) = Some (10%N :: r).
Proof.
  intros e t r He Ht. assert (L : List.length e = 4) by (unfold spells in He; rewrite <- (map_length Spec_Config.lower), He; reflexivity).
  assert (F4 : firstn 4 (e ++ t ++ 10%N :: r) = e) by (rewrite <- L, firstn_app, Nat.sub_diag, firstn_all; cbn [firstn]; apply app_nil_r).
  assert (S4 : skipn 4 (e ++ t ++ 10%N :: r) = t ++ 10%N :: r) by (rewrite <- L; apply skipn_exact).
  unfold ends_at. rewrite app_length, L. change (4 + List.length (t ++ 10%N :: r) <? 4) with false. cbn iota.
  rewrite F4, S4, (spells_same _ _ _ He). change (same_nocase (lit "ends") (lit "ends")) with true. cbn iota.
  rewrite span_app; [reflexivity| |reflexivity].
  apply forallb_forall. intros x Hx. apply existsb_exists. exists x. split; [exact (proj1 (Forall_forall _ _) Ht x Hx)|apply N.eqb_refl].
Qed.
(** in a text that ends with a line feed, the match does not reach beyond it *)
Lemma app_split_nl : forall a r s X, a ++ 10%N :: r = s ++ X -> ~ In 10%N a -> In 10%N s -> exists r', s = a ++ 10%N :: r'.
Proof.
  induction a as [|c a IH]; intros r s X E Ha Hs; destruct s as [|y s]; try (destruct Hs).
  - subst y. cbn in E. exists s. reflexivity.
  - cbn in E. injection E as E1 E2. exists s. rewrite E1. reflexivity.
  - subst y. cbn in E. injection E as E1 E2. exfalso. apply Ha. left. exact E1.
  - cbn in E. injection E as <- E2. destruct (IH r s X E2) as (r' & ->); [intros F; apply Ha; right; exact F|exact H|]. exists r'. reflexivity.
Qed.
Lemma spells_no_nl : forall k w, plain k -> spells k w -> ~ In 10%N w.
Proof.
  intros k w [_ Hk] H F. unfold spells in H. fold (lit k) in H. rewrite <- H in Hk. apply (in_map Spec_Config.lower) in F.
  pose proof (proj1 (Forall_forall _ _) Hk _ F) as G. cbn in G. lia.
Qed.
Lemma no_ends : forall s X, In 10%N s -> ~ has_ends s -> ends_at (s ++ X) = None.
Proof.
  intros s X Hs Hn. destruct (ends_at (s ++ X)) as [r|] eqn:E; [|reflexivity]. exfalso. apply Hn.
  apply ends_spec in E as (e & t & E & He & Ht & (r' & ->)). rewrite app_assoc in E. symmetry in E.
  apply app_split_nl in E as (r2 & ->).
  - exists [], e, t, r2. rewrite <- app_assoc. repeat split; assumption.
  - intros F. apply in_app_or in F as [F|F]; [revert F; apply (spells_no_nl "ends"); [plain_|exact He]|].
    pose proof (proj1 (Forall_forall _ _) Ht _ F) as G. cbn in G. intuition discriminate.
  - exact Hs.
Qed.
Lemma has_ends_tl : forall a s, has_ends s -> has_ends (a ++ s).
Proof. intros a s (x & e & t & r & -> & He & Ht). exists (a ++ x), e, t, r. rewrite <- app_assoc. repeat split; assumption. Qed.
Fixpoint kept (acc s : list N) : list N :=
  match s with [] => acc | c :: r => kept (if N.eqb c 10 && is_nil acc then [] else acc ++ [c]) r end.
Lemma sample_runs : forall d X s bol acc, (s = [] \/ exists r, s = r ++ [10%N]) -> ~ has_ends s ->
  runs (q_SAMPLE bol acc) d (s ++ X) [] (q_SAMPLE (match s with [] => bol | _ => true end) (kept acc s)) d X.
Proof.
  intros d X s. induction s as [|c s IH]; intros bol acc Hs Hn; [constructor|].
  assert (Hs' : exists r, c :: s = r ++ [10%N]) by (destruct Hs as [Hs|Hs]; [discriminate|exact Hs]).
  assert (N10 : In 10%N (c :: s)) by (destruct Hs' as (r & ->); apply in_or_app; right; left; reflexivity).
  assert (T : s = [] /\ c = 10%N \/ exists r, s = r ++ [10%N]).
  { destruct Hs' as ([|y r] & E); cbn in E; injection E as -> ->; [left; split; reflexivity|right; exists r; reflexivity]. }
  assert (Hn' : ~ has_ends s) by (intros F; apply Hn; apply (has_ends_tl [c]); exact F).
  assert (E : step (q_SAMPLE bol acc) d c (s ++ X) = Ok ([], q_SAMPLE (N.eqb c 10) (if N.eqb c 10 && is_nil acc then [] else acc ++ [c]), d, s ++ X)).
  { cbn [step]. unfold step_sample. change (c :: s ++ X) with ((c :: s) ++ X).
    destruct (span (fun c => existsb (N.eqb c) [32; 9]%N) ((c :: s) ++ X)) as [b t1] eqn:Sp.
    apply span_spec in Sp as (Sp1 & Sp2 & _).
    assert (E1 : ends_at t1 = None).
    { destruct (ends_at t1) as [r|] eqn:E1; [|reflexivity]. exfalso. apply Hn. apply ends_spec in E1 as (e & t & -> & He & Ht & (r' & ->)).
      symmetry in Sp1. rewrite !app_assoc in Sp1. apply app_split_nl in Sp1 as (r2 & ->).
      - exists b, e, t, r2. rewrite <- !app_assoc. repeat split; assumption.
      - intros F. apply in_app_or in F as [F|F]; [apply in_app_or in F as [F|F]|].
        + apply (proj1 (forallb_forall _ _) Sp2) in F. discriminate F.
        + revert F. apply (spells_no_nl "ends"); [plain_|exact He].
        + pose proof (proj1 (Forall_forall _ _) Ht _ F) as G. cbn in G. intuition discriminate.
      - exact N10. }
    rewrite E1, andb_false_r, (no_ends (c :: s) X N10 Hn). destruct (N.eqb c 10); [|reflexivity]. destruct acc; reflexivity. }
  change ((c :: s) ++ X) with (c :: s ++ X). change (@nil token) with ([] ++ @nil token). econstructor; [exact E|].
  cbn [kept]. destruct T as [[-> ->]|T].
  - constructor.
  - specialize (IH (N.eqb c 10) (if N.eqb c 10 && is_nil acc then [] else acc ++ [c]) (or_intror T) Hn').
    destruct s; [destruct T as ([|] & T); discriminate T|]. exact IH.
Qed.
Lemma kept_app : forall s acc, acc <> [] -> kept acc s = acc ++ s.
Proof.
  induction s as [|c s IH]; intros acc H; [rewrite app_nil_r; reflexivity|]. cbn [kept].
  destruct acc as [|a acc]; [congruence|]. rewrite andb_false_r, IH by discriminate. rewrite <- app_assoc. reflexivity.
Qed.
Lemma kept_sample : forall n v q, Forall (eq 10%N) n -> (exists c r, v = c :: r /\ c <> 10%N) -> kept [] (n ++ v ++ q) = v ++ q.
Proof.
  intros n v q Hn (c & r & -> & Hc). induction Hn as [|x n <- _ IH]; [|exact IH]. cbn [app kept].
  destruct (N.eqb_spec c 10) as [|_]; [congruence|]. cbn [andb app]. rewrite kept_app by discriminate. reflexivity.
Qed.
Lemma btrim_ok : forall v q, (exists c r, v = r ++ [c] /\ ~ white c) -> Forall white q -> btrim (v ++ q) = v.
Proof.
  intros v q (c & r & -> & Hc) Hq. unfold btrim. rewrite rev_app_distr, span_app.
  - cbn [snd]. apply rev_involutive.
  - apply forallb_forall. intros x Hx. apply in_rev in Hx. apply (proj1 (Forall_forall _ _) Hq) in Hx. unfold trailing_white. cbn in Hx.
    intuition (subst; reflexivity).
  - rewrite rev_app_distr. change (trailing_white c = false). destruct (trailing_white c) eqn:F; [|reflexivity]. exfalso. apply Hc. unfold trailing_white in F.
    apply existsb_exists in F as (y & Hy & F). apply N.eqb_eq in F. subst y. cbn in *. tauto.
Qed.
Lemma sample_block : forall d s v b e t rest, (exists r, s = r ++ [10%N]) -> ~ has_ends s -> sample_text s v ->
  Forall (fun c => c = 32%N \/ c = 9%N) b -> spells "ends" e -> Forall blank t ->
  runs (q_SAMPLE false []) d (s ++ b ++ e ++ t ++ 10%N :: rest) [T_STRING v; T_ENDSAMPLE] q_BOX d rest.
Proof.
  intros d s v b e t rest Hs Hn (n & q & Es & Hnl & Hq & Hv1 & Hv2) Hb He Ht.
  assert (K : kept [] s = v ++ q) by (rewrite Es; apply kept_sample; assumption).
  pose proof (sample_runs d (b ++ e ++ t ++ 10%N :: rest) s false [] (or_intror Hs) Hn) as R. rewrite K in R.
  destruct s as [|c0 s]; [destruct Hs as ([|] & Hs); discriminate Hs|].
  eapply seq_runs; [exact R| |reflexivity]. clear R.
  assert (Le : exists c2 e2, e = c2 :: e2 /\ existsb (N.eqb c2) [32; 9]%N = false).
  { unfold spells in He. destruct e as [|c2 e2]; [discriminate|]. exists c2, e2. split; [reflexivity|]. cbn [map] in He. injection He as He _.
    destruct (existsb (N.eqb c2) [32; 9]%N) eqn:F; [|reflexivity]. apply existsb_exists in F as (y & Hy & F). apply N.eqb_eq in F. subst y.
    cbn in Hy. destruct Hy as [<-|[<-|[]]]; discriminate He. }
  destruct Le as (c2 & e2 & Ee & Hc2).
  assert (Sp : span (fun c => existsb (N.eqb c) [32; 9]%N) (b ++ e ++ t ++ 10%N :: rest) = (b, e ++ t ++ 10%N :: rest)).
  { apply span_app; [|rewrite Ee; exact Hc2]. apply forallb_forall. intros x Hx. apply (proj1 (Forall_forall _ _) Hb) in Hx. destruct Hx as [->| ->]; reflexivity. }
  assert (N0 : is_nil v = false) by (destruct Hv1 as (c & r & -> & _); reflexivity).
  assert (S1 : forall c r, c :: r = b ++ e ++ t ++ 10%N :: rest ->
    step (q_SAMPLE true (v ++ q)) d c r = Ok ([T_STRING v], q_SAMPLE false [], d, e ++ t ++ 10%N :: rest)).
  { intros c r E. cbn [step]. unfold step_sample. rewrite E, Sp, (ends_at_ok e t rest He Ht). cbn [andb].
    rewrite <- app_assoc, btrim_ok; [rewrite N0; reflexivity|exact Hv2|]. apply Forall_app. split; [exact Hq|].
    eapply Forall_impl; [|exact Hb]. intros x [->| ->]; cbn; tauto. }
  assert (S2 : forall c r, c :: r = e ++ t ++ 10%N :: rest -> step (q_SAMPLE false []) d c r = Ok ([T_ENDSAMPLE], q_BOX, d, 10%N :: rest)).
  { intros c r E. cbn [step]. unfold step_sample. rewrite E. destruct (span _ (e ++ _)) as [x y]. cbn [andb]. rewrite (ends_at_ok e t rest He Ht). reflexivity. }
  destruct (b ++ e ++ t ++ 10%N :: rest) as [|c r] eqn:E1; [destruct b; [subst e; discriminate|discriminate]|].
  change [T_STRING v; T_ENDSAMPLE] with ([T_STRING v] ++ [T_ENDSAMPLE] ++ [] ++ []). econstructor; [apply S1; reflexivity|].
  destruct (e ++ t ++ 10%N :: rest) as [|c3 r3] eqn:E2; [subst e; discriminate|].
  econstructor; [apply S2; reflexivity|]. econstructor; [|constructor]. reflexivity.
Qed.
Lemma delimspec_runs : forall d g e x c rest, Forall white g -> In x LEX_SDELIM -> (e < 128)%N -> ~ white e -> e <> x -> white c ->
  runs q_DELIMSPEC d (g ++ e :: x :: c :: rest) [T_DELIMSPEC] q_BOX (mkDelims x e) rest.
Proof.
  intros d g e x c rest Hg Hx He Hw Hne Hc. induction Hg as [|y g Hy _ IH].
  - cbn [app]. change [T_DELIMSPEC] with ([T_DELIMSPEC] ++ [] ++ []).
    assert (We : is_white e = false) by (destruct (is_white e) eqn:F; [apply white_ok in F; contradiction|reflexivity]).
    assert (Wx : is_white x = false) by (apply delim_char in Hx; tauto).
    assert (Ax : is_ascii x = true) by (cbn in Hx; repeat (destruct Hx as [<-|Hx]; [reflexivity|]); destruct Hx).
    assert (Ae : is_ascii e = true) by (unfold is_ascii; apply N.ltb_lt; exact He).
    econstructor.
    + cbn [step]. unfold step_delimspec. rewrite We.
      change (e :: x :: c :: rest) with ([e; x] ++ c :: rest). rewrite span_app.
      * change (Neq_list [e; x] [bom]) with (if list_eq_dec N.eq_dec [e; x] [bom] then true else false).
        destruct (list_eq_dec N.eq_dec [e; x] [bom]) as [F|_]; [discriminate F|]. cbn [forallb]. rewrite Ae, Ax. cbn [andb change_string_delimiters].
        destruct (N.eqb_spec e x) as [|_]; [congruence|]. replace (existsb (N.eqb x) LEX_SDELIM) with true; [reflexivity|].
        symmetry. apply existsb_exists. exists x. split; [exact Hx|apply N.eqb_refl].
      * cbn [forallb]. rewrite We, Wx. reflexivity.
      * apply white_ok in Hc. change (negb (is_white c) = false). rewrite Hc. reflexivity.
    + econstructor; [|constructor]. apply gap_step_white; [unfold skips; tauto|exact Hc].
  - change (runs q_DELIMSPEC d (y :: g ++ e :: x :: c :: rest) ([] ++ [T_DELIMSPEC]) q_BOX (mkDelims x e) rest). econstructor; [|exact IH].
    cbn [step]. unfold step_delimspec. apply white_ok in Hy. rewrite Hy. reflexivity.
Qed.
Lemma foreign_runs : forall d w rest, foreign_word w -> head_not word_char rest -> runs q_BOX d (w ++ rest) [T_BXWORD w] q_BOX d rest.
Proof.
  intros d w rest (c & r & -> & Hc & Hr & He & Hb) Hn.
  assert (Ws : word_start c = true).
  { unfold word_start. destruct Hc as [Hc|Hc]; [apply letter_ok in Hc; rewrite Hc; reflexivity|].
    unfold is_ascii. replace (c <? 128)%N with false by (symmetry; apply N.ltb_ge; exact Hc). apply orb_true_r. }
  assert (Wc : forallb word_char (c :: r) = true).
  { cbn [forallb]. apply andb_true_iff. split.
    - unfold word_start in Ws. unfold word_char. apply orb_true_iff in Ws as [Ws|Ws]; rewrite Ws, ?orb_true_r; reflexivity.
    - apply forallb_forall. intros x Hx. apply (proj1 (Forall_forall _ _) Hr) in Hx. destruct Hx as [Hx|Hx]; [apply name_char_ok; exact Hx|].
      unfold word_char, is_ascii. replace (x <? 128)%N with false by (symmetry; apply N.ltb_ge; exact Hx). apply orb_true_r. }
  assert (Na : forallb is_ascii (c :: r) = false).
  { destruct (forallb is_ascii (c :: r)) eqn:F; [|reflexivity]. apply Exists_exists in He as (x & Hx & Hx').
    apply (proj1 (forallb_forall _ _) F) in Hx. unfold is_ascii in Hx. apply N.ltb_lt in Hx. lia. }
  apply (runs_one _ _ c (r ++ rest)). cbn [step]. rewrite (word_facts c Ws), Ws. unfold step_word.
  change (c :: r ++ rest) with ((c :: r) ++ rest). rewrite (span_app word_char _ _ Wc Hn), Na.
  unfold Neq_list. destruct (list_eq_dec N.eq_dec (c :: r) [bom]) as [F|_]; [contradiction|reflexivity].
Qed.

Lemma kw : forall k w d t q' rest, plain k -> spells k w -> word_box (lit k) d = (t, q', d) -> (forall x, t <> T_KEYWORD x) -> (forall x, t <> T_ASCII_ID x) ->
  head_not word_char rest -> runs q_BOX d (w ++ rest) [t] q' d rest.
Proof.
  intros k w d t q' rest Hp Hs Hw N1 N2 Hr. apply word_box_runs; [eapply spells_word; eassumption|exact Hr|]. rewrite <- Hw.
  unfold word_box in *. rewrite !(spells_same k w _ Hs).
  repeat match goal with |- (if ?b then _ else _) = (if ?b then _ else _) => destruct b; [reflexivity|] end.
  destruct (_ || _ || _) eqn:E1 in Hw; [injection Hw as Hw _; exfalso; apply (N1 (lit k)); congruence|]. rewrite E1.
  destruct (_ || _) eqn:E2 in Hw; [rewrite E2; reflexivity|]. injection Hw as Hw _. exfalso. apply (N2 (lit k)). congruence.
Qed.
Ltac kw_ k := eapply (kw k); [plain_|eassumption|reflexivity|discriminate|discriminate|].
Lemma flag_runs : forall d m f r, written_flag m f -> head_not word_char r -> exists ts, (ts = [] /\ m = 103%N \/ ts = [T_RXPFLAG m]) /\
  runs q_BOX d (f ++ r) ts q_BOX d r.
Proof.
  intros d m f r [[-> ->]|(g & w & G & -> & H)] Hr.
  - exists []. split; [tauto|constructor].
  - exists [T_RXPFLAG m]. split; [tauto|]. rewrite <- app_assoc. sq gp; [|reflexivity].
    destruct H as [[H ->]|[H ->]]; [kw_ "global"%string|kw_ "once"%string]; exact Hr.
Qed.
Lemma flag_head : forall m f r, written_flag m f -> head_not word_char r -> head_not word_char (f ++ r).
Proof.
  intros m f r [[-> ->]|(g & w & G & -> & H)] Hr; [exact Hr|]. rewrite <- app_assoc. hn.
Qed.

Lemma item_runs : forall d i s d' rest, delims_ok d -> written_item d i s d' -> clean (s ++ rest) -> In 10%N rest ->
  delims_ok d' /\ exists ts, item_toks i ts /\ runs q_BOX d (s ++ rest) ts q_BOX d' rest.
Proof.
  intros d i s d' rest Hd H Hc Hn. destruct H.
  - (* keyword *)
    split; [exact Hd|]. eexists. split; [constructor|]. revert Hc. assoc. intros Hc.
    sq ltac:(eapply word_box_runs; [|hn|]).
    + destruct H as [H|[H|H]]; eapply spells_word; try exact H; plain_.
    + instantiate (1 := d). instantiate (1 := q_BOX). instantiate (1 := T_KEYWORD k).
      destruct H as [H|[H|H]]; unfold word_box; rewrite !(spells_same _ k _ H); reflexivity.
    + sq gp; [|reflexivity]. apply string_runs; [tauto|exact Hd|eassumption| |exact Hn]. cl.
    + reflexivity.
  - (* another key *)
    split; [exact Hd|]. destruct H as [[H H']|H].
    + eexists. split; [apply (it_id k v)|]. revert Hc. assoc. intros Hc.
      sq ltac:(eapply word_box_runs; [apply name_word; exact H|hn|apply not_reserved; exact H']); [|reflexivity].
      sq gp; [|reflexivity]. apply string_runs; [tauto|exact Hd|eassumption| |exact Hn]. cl.
    + eexists. split; [apply (it_bxword k v)|]. revert Hc. assoc. intros Hc.
      sq ltac:(apply foreign_runs; [exact H|hn]); [|reflexivity].
      sq gp; [|reflexivity]. apply string_runs; [tauto|exact Hd|eassumption| |exact Hn]. cl.
  - (* delimiters *)
    split; [split; [assumption|cbn; assumption]|]. eexists. split; [apply it_delim|]. revert Hc. assoc. intros Hc.
    assert (Hg : head_not word_char (g ++ [e; x; c] ++ rest)).
    { destruct g as [|y g]; [congruence|]. inversion H0 as [|? ? Y _]; subst. cbn in Y. cbn. intuition (subst; reflexivity). }
    eapply seq_runs with (t1 := [T_CHGDEL]) (q1 := q_DELIMSPEC) (d1 := d); [| |reflexivity].
    + destruct H as [H|H]; [kw_ "delim"%string|kw_ "delimiter"%string]; exact Hg.
    + apply delimspec_runs; assumption.
  - (* tag *)
    split; [exact Hd|]. eexists. split; [apply it_tag|]. revert Hc. assoc. intros Hc.
    sq ltac:(kw_ "tags"%string; hn); [|reflexivity]. sq gp; [|reflexivity]. apply string_runs; [tauto|exact Hd|eassumption| |exact Hn]. cl.
  - (* tags *)
    split; [exact Hd|]. revert Hc. assoc. intros Hc.
    destruct (comma_strings q_BOX d l s ltac:(tauto) Hd H2 (g3 ++ 41%N :: rest)) as [L R]; [cl|nl|].
    eexists. split; [apply it_tags; exact L|].
    sq ltac:(kw_ "tags"%string; hn); [|reflexivity]. sq gp; [|reflexivity]. sq ltac:(apply lpar_runs; tauto); [|reflexivity]. sq gp; [|reflexivity].
    sq ltac:(exact R); [|reflexivity]. sq gp; [|reflexivity]. apply rpar_runs. tauto.
  - (* sample *)
    split; [exact Hd|]. eexists. split; [apply it_sample|]. revert Hc. assoc. intros Hc.
    sq ltac:(kw_ "sample"%string); [|apply sample_block; eassumption|reflexivity].
    destruct H0 as (c & r & -> & Hc1 & Hc2). cbn. unfold word_char. destruct (is_letter c) eqn:Lc; [exfalso; apply Hc1; left; apply letter_ok; exact Lc|].
    destruct (is_digit c) eqn:Dc; [exfalso; apply Hc1; right; left; unfold is_digit in Dc; apply andb_true_iff in Dc; rewrite !N.leb_le in Dc; exact Dc|].
    destruct (N.eqb_spec c 95) as [->|]; [exfalso; apply Hc1; unfold name_char; tauto|]. destruct (N.eqb_spec c 45) as [->|]; [exfalso; apply Hc1; unfold name_char; tauto|].
    unfold is_ascii. replace (c <? 128)%N with true by (symmetry; apply N.ltb_lt; exact Hc2). reflexivity.
  - (* shapes *)
    split; [exact Hd|]. revert Hc. assoc. intros Hc.
    destruct (shapes_runs d l s Hd H2 (g3 ++ 125%N :: rest)) as [L R]; [cl|nl|].
    eexists. split; [apply it_shapes; exact L|].
    sq ltac:(kw_ "shapes"%string; hn); [|reflexivity]. sq gp; [|reflexivity].
    sq ltac:(exact (symbol_runs q_SHAPES d 123 _ T_LBRACE ltac:(tauto) eq_refl)); [|reflexivity]. cbn iota. sq gp; [|reflexivity].
    sq ltac:(exact R); [|reflexivity]. sq gp; [|reflexivity]. exact (symbol_runs q_SHAPES d 125 rest T_RBRACE ltac:(tauto) eq_refl).
  - (* elastic *)
    split; [exact Hd|]. revert Hc. assoc. intros Hc.
    destruct (comma_shapes d l s H2 (g3 ++ 41%N :: rest)) as [L R]; [hn|].
    eexists. split; [apply it_elastic; exact L|].
    sq ltac:(kw_ "elastic"%string; hn); [|reflexivity]. sq gp; [|reflexivity].
    sq ltac:(apply lpar_runs; tauto); [|reflexivity]. sq gp; [|reflexivity].
    sq ltac:(exact R); [|reflexivity]. sq gp; [|reflexivity]. exact (symbol_runs q_ELASTIC d 41 rest T_RPAR ltac:(tauto) eq_refl).
  - (* replace *)
    split; [exact Hd|]. revert Hc. assoc. intros Hc.
    assert (Hh : head_not word_char (g1 ++ s1 ++ g2 ++ w ++ g3 ++ s2 ++ rest)) by hn.
    destruct (flag_runs d m f _ H0 Hh) as (ts & Ht & R).
    eexists. split; [apply it_replace; exact Ht|].
    sq ltac:(kw_ "replace"%string; eapply flag_head; eassumption); [|reflexivity]. sq ltac:(exact R); [|reflexivity]. sq gp; [|reflexivity].
    sq ltac:(apply string_runs; [tauto|exact Hd|eassumption|cl|nl]); [|reflexivity]. sq gp; [|reflexivity].
    sq ltac:(kw_ "with"%string; hn); [|reflexivity]. sq gp; [|reflexivity]. apply string_runs; [tauto|exact Hd|eassumption|cl|exact Hn].
  - (* reverse *)
    split; [exact Hd|]. revert Hc. assoc. intros Hc.
    assert (Hh : head_not word_char (g1 ++ s1 ++ g2 ++ w ++ g3 ++ s2 ++ rest)) by hn.
    destruct (flag_runs d m f _ H0 Hh) as (ts & Ht & R).
    eexists. split; [apply it_reverse; exact Ht|].
    sq ltac:(kw_ "reverse"%string; eapply flag_head; eassumption); [|reflexivity]. sq ltac:(exact R); [|reflexivity]. sq gp; [|reflexivity].
    sq ltac:(apply string_runs; [tauto|exact Hd|eassumption|cl|nl]); [|reflexivity]. sq gp; [|reflexivity].
    sq ltac:(kw_ "to"%string; hn); [|reflexivity]. sq gp; [|reflexivity]. apply string_runs; [tauto|exact Hd|eassumption|cl|exact Hn].
  - (* padding *)
    split; [exact Hd|]. revert Hc. assoc. intros Hc.
    destruct (paddings_runs d l s H2 (g3 ++ 125%N :: rest)) as [L R]; [hn|].
    eexists. split; [apply it_padding; exact L|].
    sq ltac:(kw_ "padding"%string; hn); [|reflexivity]. sq gp; [|reflexivity].
    sq ltac:(exact (symbol_runs q_BOX d 123 _ T_LBRACE ltac:(tauto) eq_refl)); [|reflexivity]. cbn iota. sq gp; [|reflexivity].
    sq ltac:(exact R); [|reflexivity]. sq gp; [|reflexivity]. exact (symbol_runs q_BOX d 125 rest T_RBRACE ltac:(tauto) eq_refl).
Qed.

(** ** layouts *)
Lemma items_runs : forall d l s, written_items d l s -> delims_ok d -> forall rest, clean (s ++ rest) -> In 10%N rest ->
  exists tss d', Forall2 item_toks l tss /\ l <> [] /\ runs q_BOX d (s ++ rest) (concat tss) q_BOX d' rest.
Proof.
  intros d l s H. induction H as [d i s d' H|d i s d' g l t H G H' IH]; intros Hd rest Hc Hn.
  - destruct (item_runs _ _ _ _ rest Hd H Hc Hn) as (Hd' & ts & I & R). exists [ts], d'. repeat split; [repeat constructor; exact I|discriminate|].
    cbn [concat]. rewrite app_nil_r. exact R.
  - revert Hc. assoc. intros Hc. destruct (item_runs _ _ _ _ (g ++ t ++ rest) Hd H Hc) as (Hd' & ts & I & R); [nl|].
    destruct (IH Hd' rest) as (tss & d2 & F & L & R2); [cl|exact Hn|]. exists (ts :: tss), d2. repeat split; [constructor; assumption|discriminate|].
    cbn [concat]. eapply seq_runs; [exact R| |reflexivity]. eapply seq_runs; [gp|exact R2|reflexivity].
Qed.
Lemma layout_ok : forall l tss e r fuel, Forall2 item_toks l tss -> List.length l < fuel ->
  layout fuel (concat tss ++ T_END :: T_ASCII_ID e :: r) = (l, Some e, r).
Proof.
  intros l tss e r fuel H. revert fuel. induction H as [|i ts l tss I _ IH]; intros fuel Hf; (destruct fuel as [|f]; [lia|]); [reflexivity|].
  cbn [concat]. rewrite <- app_assoc. cbn [List.length] in Hf. specialize (IH f ltac:(lia)).
  pose proof (item_ok i ts (concat tss ++ T_END :: T_ASCII_ID e :: r) I) as O.
  destruct (item_head i ts I) as (t & x & -> & N1 & _). cbn [app] in *. cbn [layout].
  destruct t; try congruence; rewrite O, IH; reflexivity.
Qed.
Lemma alias_ok : forall al t r, t <> T_COMMA -> alias_list (alias_toks al ++ t :: r) = (al, true, t :: r).
Proof.
  intros al t r Ht. induction al as [|a al IH].
  - cbn. destruct t; try congruence; reflexivity.
  - change (alias_toks (a :: al) ++ t :: r) with (T_COMMA :: T_ASCII_ID a :: (alias_toks al ++ t :: r)). cbn [alias_list]. rewrite IH. reflexivity.
Qed.
Lemma alias_head : forall al a r, written_aliases al a -> head_not word_char r -> head_not word_char (a ++ r).
Proof. intros al a r [|g1 g2 x l t G1 G2 _ _ _] Hr; [exact Hr|]. assoc. hn. Qed.
Lemma alias_runs : forall d al a, written_aliases al a -> forall r, head_not word_char r -> runs q_BOX d (a ++ r) (alias_toks al) q_BOX d r.
Proof.
  intros d al a H. induction H as [|g1 g2 x l t G1 G2 Hx Hr H IH]; intros r Hh; [constructor|]. assoc.
  sq gp; [|reflexivity]. sq ltac:(apply comma_runs; tauto); [|reflexivity]. sq gp; [|reflexivity].
  sq ltac:(eapply word_box_runs; [apply name_word; exact Hx|eapply alias_head; eassumption|apply not_reserved; exact Hr]); [|reflexivity].
  apply IH. exact Hh.
Qed.

(** ** statements *)
Lemma items_len : forall l tss, Forall2 item_toks l tss -> List.length l <= List.length (concat tss).
Proof.
  intros l tss H. induction H as [|i ts l tss I _ IH]; [cbn; lia|]. cbn [concat List.length]. rewrite app_length.
  destruct (item_head _ _ I) as (t & r & -> & _). cbn [List.length]. lia.
Qed.
Lemma stmt_ok : forall s ts r f, stmt_toks s ts -> config_file (S f) (ts ++ r) = s :: config_file f r.
Proof.
  intros s ts r f H. destruct H as [n al l e tss F L|nm]; [|reflexivity].
  cbn [app config_file]. rewrite <- !app_assoc. cbn [app]. unfold design_of.
  assert (A : alias_list (alias_toks al ++ concat tss ++ T_END :: T_ASCII_ID e :: r) = (al, true, concat tss ++ T_END :: T_ASCII_ID e :: r)).
  { destruct F as [|i ts l tss I F]; [congruence|]. destruct (item_head _ _ I) as (t & x & -> & _ & N). cbn [concat app].
    apply alias_ok. exact N. }
  rewrite A, (layout_ok l tss e r); [|exact F|].
  - destruct l; [congruence|reflexivity].
  - rewrite app_length. pose proof (items_len _ _ F). lia.
Qed.
Lemma suffix_nl : forall (a b r : list N), a ++ b = r ++ [10%N] -> b <> [] -> In 10%N b.
Proof.
  intros a b r E Hb. destruct (exists_last Hb) as (b' & c & ->). rewrite app_assoc in E. apply app_inj_tail in E as [_ ->].
  apply in_or_app. right. left. reflexivity.
Qed.
Lemma stmt_runs : forall st s rest r0, written_stmt st s -> clean (s ++ rest) -> s ++ rest = r0 ++ [10%N] ->
  exists ts, stmt_toks st ts /\ runs q_INITIAL default_delims (s ++ rest) ts q_INITIAL default_delims rest.
Proof.
  intros st s rest r0 H Hc Hn. destruct H as [k g1 n al a g2 l s g3 e g4 m g5 Hk G1 Hnm Hr Ha G2 Hl G3 He G4 Hm M1 M2 G5|k f c Hk Hf F1 F2 Hcc].
  - revert Hc Hn. assoc. intros Hc Hn.
    destruct (items_runs _ _ _ Hl) with (rest := g3 ++ e ++ g4 ++ m ++ g5 ++ rest) as (tss & d' & I & L & R).
    { split; [cbn; tauto|discriminate]. } { cl. }
    { apply (suffix_nl (k ++ g1 ++ n ++ a ++ g2 ++ s) _ r0); [assoc; exact Hn|].
      intros F. apply app_eq_nil in F as [_ F]. apply app_eq_nil in F as [F _]. subst e. discriminate He. }
    eexists. split; [apply st_box; eassumption|].
    sq ltac:(eapply word_initial_runs; [eapply (spells_word "box"); [plain_|exact Hk]|hn|unfold word_initial; rewrite !(spells_same _ k _ Hk); reflexivity]); [|reflexivity].
    sq gp; [|reflexivity].
    sq ltac:(eapply word_box_runs; [apply name_word; exact Hnm|eapply alias_head; [exact Ha|hn]|apply not_reserved; exact Hr]); [|reflexivity].
    sq ltac:(apply alias_runs; [exact Ha|hn]); [|reflexivity]. sq gp; [|reflexivity]. sq ltac:(exact R); [|reflexivity]. sq gp; [|reflexivity].
    sq ltac:(eapply word_box_runs; [eapply (spells_word "end"); [plain_|exact He]|hn|unfold word_box; rewrite !(spells_same _ e _ He); reflexivity]); [|reflexivity].
    sq gp; [|reflexivity].
    sq ltac:(eapply word_initial_runs; [apply name_word; exact Hm|hn|]); [| |].
    { unfold word_initial. destruct (same_nocase m (lit "parent")) eqn:E1; [exfalso; apply M2, same_spells; [reflexivity|exact E1]|].
      destruct (same_nocase m (lit "box")) eqn:E2; [exfalso; apply M1, same_spells; [reflexivity|exact E2]|]. reflexivity. }
    { gp. } { reflexivity. }
  - revert Hc Hn. assoc. intros Hc Hn. eexists. split; [apply st_parent|].
    assert (Hh : head_not word_char (f ++ [c] ++ rest)).
    { destruct Hf as (x & r & -> & X1 & X2). cbn. unfold word_char. destruct (is_letter x) eqn:Lc; [exfalso; apply X1; left; apply letter_ok; exact Lc|].
      destruct (is_digit x) eqn:Dc; [exfalso; apply X1; right; left; unfold is_digit in Dc; apply andb_true_iff in Dc; rewrite !N.leb_le in Dc; exact Dc|].
      destruct (N.eqb_spec x 95) as [->|]; [exfalso; apply X1; unfold name_char; tauto|]. destruct (N.eqb_spec x 45) as [->|]; [exfalso; apply X1; unfold name_char; tauto|].
      unfold is_ascii. replace (x <? 128)%N with true by (symmetry; apply N.ltb_lt; exact X2). reflexivity. }
    sq ltac:(eapply word_initial_runs; [eapply (spells_word "parent"); [plain_|exact Hk]|exact Hh|unfold word_initial; rewrite !(spells_same _ k _ Hk); reflexivity]); [|reflexivity].
    destruct Hf as (x & r & -> & _). eapply seq_runs with (t1 := [T_FILENAME (x :: r)]) (q1 := q_INITIAL) (d1 := default_delims) (s1 := c :: rest); [| |reflexivity].
    + apply (runs_one _ _ x (r ++ c :: rest)). cbn [step]. unfold step_parent. change (x :: r ++ c :: rest) with ((x :: r) ++ c :: rest).
      rewrite span_app; [reflexivity| |].
      * apply forallb_forall. intros y Hy. destruct (N.eqb_spec y 13) as [->|]; [contradiction|]. destruct (N.eqb_spec y 10) as [->|]; [contradiction|]. reflexivity.
      * destruct Hcc as [->| ->]; reflexivity.
    + apply runs_one. apply gap_step_white; [unfold skips; tauto|]. destruct Hcc as [->| ->]; cbn; tauto.
Qed.
Lemma stmts_runs : forall l u, written_stmts l u -> forall rest r0, clean (u ++ rest) -> u ++ rest = r0 ++ [10%N] ->
  exists tss, Forall2 stmt_toks l tss /\ l <> [] /\ runs q_INITIAL default_delims (u ++ rest) (concat tss) q_INITIAL default_delims rest.
Proof.
  intros l u H. induction H as [s t H|s t g l u H G H' IH]; intros rest r0 Hc Hn.
  - destruct (stmt_runs _ _ rest r0 H Hc Hn) as (ts & I & R). exists [ts]. repeat split; [repeat constructor; exact I|discriminate|].
    cbn [concat]. rewrite app_nil_r. exact R.
  - revert Hc Hn. assoc. intros Hc Hn. destruct (stmt_runs _ _ _ r0 H Hc Hn) as (ts & I & R).
    assert (Hu : u ++ rest <> []).
    { assert (Z : forall s t, written_stmt s t -> t <> []).
      { intros s0 t0 [k ? n ? ? ? ? ? ? ? ? m ? Hk|k f c Hk] F; apply app_eq_nil in F as [F _]; subst k; discriminate Hk. }
      intros F. apply app_eq_nil in F as [F _]. destruct H' as [s' t' H'|s' t' g' l' u' H' _ _]; [exact (Z _ _ H' F)|apply app_eq_nil in F as [F _]; exact (Z _ _ H' F)]. }
    assert (Hr : exists r1, u ++ rest = r1 ++ [10%N]).
    { destruct (exists_last Hu) as (b' & c & E). exists b'. rewrite E in *. f_equal. rewrite !app_assoc in Hn. apply app_inj_tail in Hn as [_ ->]. reflexivity. }
    destruct Hr as (r1 & Hr). destruct (IH rest r1) as (tss & F & L & R2); [cl|exact Hr|].
    exists (ts :: tss). repeat split; [constructor; assumption|discriminate|]. cbn [concat].
    eapply seq_runs; [exact R| |reflexivity]. eapply seq_runs; [gp|exact R2|reflexivity].
Qed.
Lemma statements_ok : forall l tss f, Forall2 stmt_toks l tss -> List.length l <= f -> config_file f (concat tss) = l.
Proof.
  intros l tss f H. revert f. induction H as [|s ts l tss I _ IH]; intros f Hf; [destruct f; reflexivity|].
  cbn [List.length] in Hf. destruct f as [|f]; [lia|]. cbn [concat]. rewrite (stmt_ok _ _ _ _ I), IH by lia. reflexivity.
Qed.
Lemma stmts_len : forall l tss, Forall2 stmt_toks l tss -> List.length l <= List.length (concat tss).
Proof.
  intros l tss H. induction H as [|s ts l tss I _ IH]; [cbn; lia|]. cbn [concat List.length]. rewrite app_length. destruct I; cbn [List.length]; lia.
Qed.
Theorem written_config_read : forall l text, written_config l text -> read_statements text = Ok l.
Proof.
  intros l text (g1 & u & g2 & G1 & Hu & G2 & -> & H0 & (r & Hn)). apply clean_in in H0.
  assert (Hu0 : u ++ g2 <> []).
  { assert (Z : forall s t, written_stmt s t -> t <> []).
    { intros s0 t0 [k ? n ? ? ? ? ? ? ? ? m ? Hk|k f c Hk] F; apply app_eq_nil in F as [F _]; subst k; discriminate Hk. }
    intros F. apply app_eq_nil in F as [F _]. destruct Hu as [s' t' H'|s' t' g' l' u' H' _ _]; [exact (Z _ _ H' F)|apply app_eq_nil in F as [F _]; exact (Z _ _ H' F)]. }
  assert (Hr : exists r1, u ++ g2 = r1 ++ [10%N]).
  { destruct (exists_last Hu0) as (b' & c & E). exists b'. rewrite E in *. f_equal. rewrite !app_assoc in Hn. apply app_inj_tail in Hn as [_ ->]. reflexivity. }
  destruct Hr as (r1 & Hr). apply clean_app in H0 as [_ H0].
  destruct (stmts_runs l u Hu g2 r1 H0 Hr) as (tss & F & L & R).
  assert (S : scan (g1 ++ u ++ g2) = Ok (concat tss)).
  { apply scan_runs with (q' := q_INITIAL) (d' := default_delims); [|unfold mu; lia].
    eapply seq_runs; [gp| |reflexivity]. eapply seq_runs; [exact R| |apply app_nil_r].
    rewrite <- (app_nil_r g2) at 1. gp. }
  unfold read_statements. rewrite S. cbn [bind]. pose proof (stmts_len _ _ F) as Ln.
  destruct (is_nil (concat tss)) eqn:E; [destruct (concat tss); [destruct l; [congruence|cbn in Ln; lia]|discriminate]|].
  unfold statements. rewrite (statements_ok _ _ _ F Ln). reflexivity.
Qed.
