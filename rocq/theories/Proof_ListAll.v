(** * The list of all designs: C69 *)
From Coq Require Import Ascii String List Arith NArith ZArith Bool Lia Sorting.Permutation Sorting.Sorted.
From Verif Require Import Base BaseFacts Model_Unicode Model_Bxs Model_Shape Model_Query Model_Discovery Model_Lexer Model_Parser Model_List
  Spec_Str Spec_Query Proof_Query Prop_Query Spec_List Proof_List.
Import ListNotations.
Local Open Scope nat_scope.
Local Open Scope list_scope.

Section All.
Variable U : uctab.
Variable color : bool.
Variable eol : list N.

Lemma repeat_len : forall (s : list N) n, Forall (fun c => c = 45%N) s -> s ++ repeat 45%N n = repeat 45%N (List.length s + n).
Proof. intros s n H. induction H as [|c s -> H IH]; [reflexivity|]. cbn [app List.length Nat.add repeat]. rewrite IH. reflexivity. Qed.
Lemma header_ok : forall k file parents, showable U file -> Forall (showable U) parents ->
  exists ls, header_says U color k file parents ls /\ print_design_list_header color eol k file parents = Ok (lines_with eol ls).
Proof.
  intros k file parents Hf Hp. destruct (looks_ok U color file Hf) as (f & E & L). unfold print_design_list_header. rewrite E. cbn [bind].
  assert (D : forall a, (a ++ (if k =? 1 then [] else lit "-")) = a ++ repeat 45%N (List.length (plural k))) by (intros a; unfold plural; destruct (k =? 1); reflexivity).
  destruct parents as [|p parents]; cbn [List.length Nat.ltb Nat.leb].
  - eexists. split; [exists (dec k), f; split; [apply dec_ok|]; split; [exact L|reflexivity]|]. unfold lines_with. cbn [flat_map]. rewrite app_nil_r, <- !app_assoc. cbn [app]. f_equal.
    apply f_equal2; [reflexivity|]. apply f_equal2; [reflexivity|]. apply f_equal2; [reflexivity|]. repeat (apply f_equal2; [reflexivity|]).
    rewrite !app_assoc. apply f_equal2; [|reflexivity]. apply f_equal2; [|reflexivity]. rewrite D, <- app_assoc, <- repeat_app.
    rewrite (repeat_len (lit "-----------------------")) by (repeat constructor). f_equal. rewrite !app_length. cbn. lia.
  - assert (P : exists ps, Forall2 (fun p t => exists x, looks U color p x /\ t = chars "    - " ++ x ++ chars " (parent)") (p :: parents) ps /\
       mapM (fun p => t <- bxs_to_output color p ;; Ok (lit "    - " ++ t ++ lit " (parent)" ++ eol)) (p :: parents) = Ok (map (fun t => t ++ eol) ps)).
    { induction Hp as [|q l Hq Hl IH]; [exists []; split; [constructor|reflexivity]|]. destruct IH as (ps & A & B). destruct (looks_ok U color q Hq) as (x & E1 & L1).
      exists ((chars "    - " ++ x ++ chars " (parent)") :: ps). split; [constructor; [exists x; auto|exact A]|]. cbn [mapM]. rewrite E1. cbn [bind]. rewrite B. cbn [bind map].
      rewrite <- !app_assoc. reflexivity. }
    destruct P as (ps & P1 & P2). rewrite P2. cbn [bind].
    eexists. split; [exists (dec k), f; split; [apply dec_ok|]; split; [exact L|]; exists ps; split; [exact P1|reflexivity]|].
    unfold lines_with. rewrite !flat_map_app. cbn [flat_map]. rewrite flat_map_concat_map. rewrite ?app_nil_r, <- !app_assoc. cbn [app]. f_equal.
    apply f_equal2; [reflexivity|]. apply f_equal2; [reflexivity|]. apply f_equal2; [reflexivity|]. repeat (apply f_equal2; [reflexivity|]).
    rewrite !app_assoc. repeat (apply f_equal2; [|reflexivity]). rewrite D, <- app_assoc, <- repeat_app.
    rewrite (repeat_len (lit "-----------------")) by (repeat constructor). f_equal. rewrite !app_length. cbn. lia.
Qed.
Lemma listed_commas : forall l, listed l = commas l.
Proof. induction l as [|x [|y l] IH]; [reflexivity..|]. change (listed (x :: y :: l)) with (x ++ bytes ", " ++ listed (y :: l)). rewrite IH. reflexivity. Qed.
Lemma block_ok : forall d, presentable U d -> exists ls, block_says U color d ls /\ design_block color eol d = Ok (lines_with eol ls).
Proof.
  intros d P. destruct (pr_name _ _ P) as (n & En).
  destruct (looks_or_ok U color "NULL" (c_sample d)) as (s & Es & Ls); [intros b Eb; apply (pr_texts _ _ P); auto|].
  assert (A : names (entry_of d) = Ok (all_names d n)).
  { rewrite C44_names. unfold entry_of, all_names. rewrite En. cbn [e_name e_aliases]. destruct (c_aliases d) as [|a al]; [reflexivity|]. rewrite listed_commas. reflexivity. }
  unfold design_block. rewrite A. cbn [bind]. change NULL_text with (lit "NULL"). rewrite Es. cbn [bind].
  assert (X : forall o, credits_say U color d o -> block_says U color d (match o with None => [all_names d n ++ chars ":"] | Some t => [all_names d n; t ++ chars ":"] end ++ [[]; s; []])).
  { intros o Ho. exists n, o, s. auto. }
  unfold credits_say in X. destruct (c_designer d) as [e|] eqn:Ed, (c_author d) as [a|] eqn:Ea.
  - destruct (looks_ok U color e) as (t & E1 & L1); [apply (pr_texts _ _ P); auto|]. destruct (looks_ok U color a) as (u & E2 & L2); [apply (pr_texts _ _ P); auto|].
    rewrite E1, E2. cbn [bind]. unfold bxs_differ. destruct (Neq_list (memory a) (memory e)) eqn:C; cbn [negb].
    + apply neq_list_ok in C. eexists. split; [apply (X (Some t)); exists t, u; auto|]. unfold lines_with. cbn [app flat_map]. rewrite app_nil_r, <- !app_assoc. reflexivity.
    + assert (C' : memory a <> memory e) by (intros F; apply neq_list_ok in F; congruence).
      eexists. split; [apply (X (Some (t ++ chars ", coded by " ++ u))); exists t, u; auto|]. unfold lines_with. cbn [app flat_map]. rewrite app_nil_r, <- !app_assoc. reflexivity.
  - destruct (looks_ok U color e) as (t & E1 & L1); [apply (pr_texts _ _ P); auto|]. rewrite E1. cbn [bind].
    eexists. split; [apply (X (Some t)); exists t; auto|]. unfold lines_with. cbn [app flat_map]. rewrite app_nil_r, <- !app_assoc. reflexivity.
  - destruct (looks_ok U color a) as (t & E1 & L1); [apply (pr_texts _ _ P); auto|]. rewrite E1. cbn [bind].
    eexists. split; [apply (X (Some (chars "unknown artist, coded by " ++ t))); exists t; auto|]. unfold lines_with. cbn [app flat_map]. rewrite app_nil_r, <- !app_assoc. reflexivity.
  - eexists. split; [apply (X None); reflexivity|]. unfold lines_with. cbn [app flat_map]. rewrite app_nil_r, <- !app_assoc. reflexivity.
Qed.
Lemma blocks_ok : forall l, Forall (presentable U) l -> exists bs, Forall2 (block_says U color) l bs /\ mapM (design_block color eol) l = Ok (map (lines_with eol) bs).
Proof.
  intros l H. induction H as [|d l Hd H IH]; [exists []; split; [constructor|reflexivity]|]. destruct IH as (bs & A & B). destruct (block_ok d Hd) as (b & C & D).
  exists (b :: bs). split; [constructor; assumption|]. cbn [mapM]. rewrite D. cbn [bind]. rewrite B. reflexivity.
Qed.
Lemma tags_ok : forall stats, exists ls, tags_say stats ls /\ print_tags eol stats = lines_with eol ls.
Proof.
  intros stats. destruct stats as [|s0 stats0]; [exists []; split; [left; auto|reflexivity]|]. set (stats := s0 :: stats0).
  set (w := fun s : list N * nat => fst s ++ chars " (" ++ dec (snd s) ++ chars ")"). exists [bars (map w stats)]. split.
  - right. split; [discriminate|]. exists (map w stats). split; [|reflexivity]. induction stats as [|s l IH]; cbn [map]; constructor; [|exact IH]. exists (dec (snd s)). split; [apply dec_ok|reflexivity].
  - unfold print_tags. cbn [is_nil stats]. unfold lines_with. cbn [flat_map]. rewrite app_nil_r. f_equal.
    assert (T : forall l i, tags_text (S i) l = match l with [] => [] | _ => chars " | " ++ bars (map w l) end).
    { induction l as [|[t n] l IH]; intros i; [reflexivity|]. cbn [tags_text Nat.ltb Nat.leb]. rewrite IH. destruct l as [|x l]; [cbn [map bars]; unfold w; cbn [fst snd]; rewrite ?app_nil_r; reflexivity|].
      change (bars (map w ((t, n) :: x :: l))) with ((t ++ chars " (" ++ dec n ++ chars ")") ++ chars " | " ++ bars (map w (x :: l))). rewrite <- !app_assoc. reflexivity. }
    destruct s0 as [t n]. unfold stats. cbn [tags_text Nat.ltb Nat.leb]. rewrite T. destruct stats0 as [|x l]; [cbn [map bars]; unfold w; cbn [fst snd]; rewrite ?app_nil_r; reflexivity|].
    change (bars (map w ((t, n) :: x :: l))) with ((t ++ chars " (" ++ dec n ++ chars ")") ++ chars " | " ++ bars (map w (x :: l))). rewrite <- !app_assoc. reflexivity.
Qed.
Lemma counts_ok : forall tags, counted tags (fold_left (fun st t => count_tag t st) tags []).
Proof.
  intros tags. assert (G : forall l' l st, counted l st -> counted (l ++ l') (fold_left (fun st t => count_tag t st) l' st)).
  { induction l' as [|x l' IH]; intros l st H; cbn [fold_left]; [rewrite app_nil_r; exact H|]. change (x :: l') with ([x] ++ l'). rewrite app_assoc. apply IH. apply count_step. exact H. }
  apply (G tags []). split; [intros ? ? []|]. split; [intros ? []|constructor].
Qed.
Lemma pairs_nodup : forall st : list (list N * nat), ForallOrdPairs (fun a b => ~ nocase (fst a) (fst b)) st -> NoDup (map (fun a => map low (fst a)) st).
Proof.
  intros st C. induction C as [|a l F O IH]; cbn [map]; constructor; [|exact IH].
  intros H. apply in_map_iff in H as (b & Hb & Hi). rewrite Forall_forall in F. apply (F b Hi). symmetry in Hb. revert Hb. generalize (fst a) (fst b). clear.
  induction l as [|x l IH]; intros [|y l0] E; try discriminate; [constructor|]. injection E as E0 E. constructor; [apply lower_same; exact E0|apply IH; exact E].
Qed.
Lemma flat_perm : forall A B (f : A -> list B) l l', Permutation l l' -> Permutation (flat_map f l) (flat_map f l').
Proof.
  intros A B f l l' P. induction P as [|x l l' P IH|x y l|l l' l'' P1 IH1 P2 IH2]; cbn [flat_map]; [constructor|apply Permutation_app_head; exact IH| |eapply Permutation_trans; eassumption].
  rewrite !app_assoc. apply Permutation_app_tail. apply Permutation_app_comm.
Qed.
Lemma all_ok : forall qs ds file parents, sorter qs -> Forall (presentable U) ds -> showable U file -> Forall (showable U) parents ->
  exists ls, overview U color ds file parents ls /\ list_all color eol qs file parents ds = Ok (lines_with eol ls).
Proof.
  intros qs ds file parents Hq Hd Hf Hp.
  destruct (Hq cdesign (fun a b => style_sort (entry_of a) (entry_of b)) ds (ordering_by cdesign (fun d => e_name (entry_of d)))) as [P S].
  set (l := qs cdesign (fun a b => style_sort (entry_of a) (entry_of b)) ds) in *.
  destruct (header_ok (List.length ds) file parents Hf Hp) as (h & H1 & H2).
  destruct (blocks_ok l) as (bs & B1 & B2); [eapply Permutation_Forall; eassumption|].
  set (st := fold_left (fun st t => count_tag t st) (flat_map c_tags l) []).
  destruct (Hq (list N * nat)%type tagstats_sort st (ordering_by (list N * nat) fst)) as [PS SS].
  destruct (tags_ok (qs _ tagstats_sort st)) as (t & T1 & T2).
  exists (h ++ concat bs ++ t). split.
  - constructor. exists h, l, bs, (qs _ tagstats_sort st), t. split; [exact H1|]. split; [exact P|]. split; [|split; [exact B1|split; [|split; [exact T1|reflexivity]]]].
    + clear -S. induction S as [|a l S IH F]; [constructor|]. constructor; [exact IH|]. eapply Forall_impl; [|exact F]. intros b H n m En Em.
      apply casecmp_le. unfold style_sort, entry_of in H. rewrite En, Em in H. exact H.
    + destruct (counts_ok (flat_map c_tags l)) as (A & B & C). fold st in A, B, C. pose proof (flat_perm _ _ c_tags _ _ P) as PT. split; [|split; [|split]].
      * intros x n H. apply (Permutation_in _ (Permutation_sym PS)) in H. destruct (A x n H) as [A1 A2]. split; [|exact A2]. eapply occurs_perm; [apply Permutation_sym; exact PT|exact A1].
      * intros x Hx. destruct (B x (Permutation_in _ PT Hx)) as (y & n & Hy & Hn). exists y, n. split; [eapply Permutation_in; eassumption|exact Hn].
      * eapply Permutation_NoDup; [apply Permutation_map; exact PS|]. apply pairs_nodup. exact C.
      * clear T1 T2 PS. induction SS as [|a q SS IH F]; [constructor|]. constructor; [exact IH|]. eapply Forall_impl; [|exact F]. intros b H. apply casecmp_le. exact H.
  - unfold list_all. cbv zeta. fold l. rewrite H2. cbn [bind]. rewrite B2. cbn [bind]. fold st. rewrite T2. f_equal. unfold lines_with at 4. rewrite !flat_map_app. f_equal. f_equal.
    clear. induction bs as [|b bs IH]; [reflexivity|]. cbn [map concat]. rewrite flat_map_app, <- IH. reflexivity.
Qed.
End All.
