(** * Proofs for the listings: C69 *)
From Coq Require Import Ascii String List Arith NArith ZArith Bool Lia DecimalNat.
From Coq Require DecimalFacts.
From Verif Require Import Base Model_Unicode Model_Bxs Model_Shape Model_Query Model_Discovery Model_Lexer Model_Parser Model_List
  Spec_Str Spec_Lexer Proof_Str Proof_Bxs Proof_BxsOps Proof_BxsMore Spec_List Prop_Str Prop_Lexer.
Import ListNotations.
Local Open Scope nat_scope.
Local Open Scope list_scope.

(** ** Numbers *)
Definition dval (u : Decimal.uint) (a : N) : N := fold_left (fun a c => 10 * a + (c - 48))%N (digits_of u) a.
Lemma lu_val : forall u, N.of_nat (Nat.of_uint u) = dval u 0.
Proof.
  assert (G : forall u a, N.of_nat (Nat.of_uint_acc u a) = dval u (N.of_nat a)).
  { induction u; intros a; [reflexivity|..]; cbn [Nat.of_uint_acc]; rewrite IHu; unfold dval; cbn [digits_of fold_left]; f_equal;
      change Nat.tail_mul with Nat.tail_mul; rewrite ?Nat.tail_mul_spec; lia. }
  intros u. apply (G u 0).
Qed.
Lemma digits_digits : forall u, Forall (fun c => 48 <= c <= 57)%N (digits_of u).
Proof. induction u; cbn [digits_of]; constructor; try assumption; lia. Qed.
Lemma dec_ok : forall n, decimal n (dec n).
Proof.
  intros n. unfold decimal, dec. split; [|split; [apply digits_digits|split]].
  - pose proof (Unsigned.to_of (Nat.to_uint n)) as F. rewrite Unsigned.of_to in F. destruct (Nat.to_uint n); cbn [digits_of]; try discriminate.
  - intros r E. pose proof (Unsigned.to_of (Nat.to_uint n)) as F. rewrite Unsigned.of_to in F.
    destruct (Nat.to_uint n) as [|u|u|u|u|u|u|u|u|u|u] eqn:K; try discriminate E. cbn [digits_of] in E. injection E as <-.
    rewrite DecimalFacts.unorm_D0 in F.
    destruct u as [|u|u|u|u|u|u|u|u|u|u]; try reflexivity; exfalso.
    2-10: cbn in F; discriminate F.
    pose proof (DecimalFacts.nb_digits_unorm (Decimal.D0 u)). rewrite <- F in H. cbn in H. specialize (H ltac:(discriminate)). lia.
  - unfold value. fold (dval (Nat.to_uint n) 0). rewrite <- lu_val, Unsigned.of_to. reflexivity.
Qed.

(** ** Pieces of text *)
Lemma lit_chars : forall s, lit s = chars s.
Proof. reflexivity. Qed.
Lemma commas_cons : forall x l, commas (x :: l) = x ++ match l with [] => [] | _ => chars ", " ++ commas l end.
Proof. intros x [|y l]; cbn [commas]; [symmetry; apply app_nil_r|reflexivity]. Qed.
Lemma with_commas_S : forall l i, with_commas (S i) l = match l with [] => [] | _ => chars ", " ++ commas l end.
Proof.
  induction l as [|x l IH]; intros i; [reflexivity|]. cbn [with_commas]. rewrite IH, commas_cons. reflexivity.
Qed.
Lemma list_or_none_ok : forall l, list_or_none l = or_none l.
Proof.
  intros [|x l]; [reflexivity|]. unfold list_or_none, or_none. cbn [is_nil with_commas]. rewrite with_commas_S, commas_cons, app_nil_r. reflexivity.
Qed.

Section Sheet.
Variable U : uctab.
Hypothesis HU : uctab_ok U.
Variable color : bool.
Variable eol : list N.

Lemma looks_ok : forall b, showable U b -> exists t, bxs_to_output color b = Ok t /\ looks U color b t.
Proof.
  intros b (ts & Hr & Hk & Hb). destruct (C16_colour_stripping U (memory b) ts b Hr Hk Hb) as (A & _ & B).
  exists (if color then memory b else visible ts). split; [destruct color; assumption|exists ts; auto].
Qed.
Lemma looks_or_ok : forall dflt o, (forall b, o = Some b -> showable U b) -> exists t, output_or color (lit dflt) o = Ok t /\ looks_or U color dflt o t.
Proof.
  intros dflt [b|] H; cbn [output_or looks_or]; [apply looks_ok, H; reflexivity|]. exists (lit dflt). split; reflexivity.
Qed.

Definition hanging (ls : list (list N)) : list N :=
  match ls with [] => [] | x :: r => x ++ eol ++ flat_map (fun y => (repeat 32%N 24 ++ y) ++ eol) r end.
Lemma hanging_labelled : forall label ls, ls <> [] -> chars label ++ hanging ls = lines_with eol (labelled label ls).
Proof.
  intros label [|x r] H; [congruence|]. cbn [hanging labelled]. unfold lines_with. cbn [flat_map].
  assert (E : flat_map (fun l => l ++ eol) (map (fun y => repeat 32%N 24 ++ y) r) = flat_map (fun y => (repeat 32%N 24 ++ y) ++ eol) r).
  { clear. induction r as [|y r IH]; [reflexivity|]. cbn [map flat_map]. rewrite IH. reflexivity. }
  rewrite E, <- !app_assoc. reflexivity.
Qed.
Lemma rule_lines_ok : forall sep l i, Forall (fun r => showable U (r_search r) /\ showable U (r_repstr r)) l ->
  exists ls, numbered (rule_text U color sep) i l ls /\ rule_lines color eol (lit sep) (i + List.length l) i l = Ok (hanging ls).
Proof.
  intros sep. induction l as [|r l IH]; intros i H; [exists []; split; [constructor|reflexivity]|].
  inversion H as [|? ? [Hs Ht] Hl]; subst. destruct (looks_ok _ Hs) as (s & Es & Ls). destruct (looks_ok _ Ht) as (t & Et & Lt).
  destruct (IH (S i) Hl) as (ls & Hn & E). cbn [rule_lines]. rewrite Es, Et. cbn [bind].
  replace (i + List.length (r :: l)) with (S i + List.length l) by (cbn [List.length]; lia). rewrite E. cbn [bind].
  set (m := if N.eqb (r_mode r) 103 then lit "glob" else lit "once").
  exists ((dec (S i) ++ chars ". (" ++ m ++ chars ") """ ++ s ++ chars """ " ++ chars sep ++ chars " """ ++ t ++ chars """") :: ls). split.
  - constructor; [|exact Hn]. constructor; [apply dec_ok|exact Ls|exact Lt|]. unfold m. destruct (N.eqb_spec (r_mode r) 103); [left|right]; auto.
  - f_equal. cbn [hanging]. rewrite <- !app_assoc. repeat (apply f_equal2; [reflexivity|]).
    inversion Hn as [j Ei|j a b l' m' Ha Hm]; subst.
    + replace (S i <? S i + List.length (@nil rule)) with false by (symmetry; apply Nat.ltb_ge; cbn; lia). reflexivity.
    + replace (S i <? S i + List.length (a :: l')) with true by (symmetry; apply Nat.ltb_lt; cbn; lia). cbn [hanging flat_map]. rewrite <- !app_assoc. reflexivity.
Qed.
Lemma numbered_nil : forall A B (R : nat -> A -> B -> Prop) i l m, numbered R i l m -> (l = [] <-> m = []).
Proof. intros A B R i l m H. destruct H; split; congruence. Qed.
Lemma rules_ok : forall label sep l, Forall (fun r => showable U (r_search r) /\ showable U (r_repstr r)) l ->
  exists ls t, rules_say U color sep l ls /\ rules_text color eol (lit sep) l = Ok t /\ chars label ++ t = lines_with eol (labelled label ls).
Proof.
  intros label sep l H. destruct l as [|r l'].
  - exists [chars "none"], (lit "none" ++ eol). split; [left; auto|]. split; [reflexivity|]. cbn [labelled]. unfold lines_with. cbn [flat_map map]. rewrite app_nil_r, <- app_assoc. reflexivity.
  - destruct (rule_lines_ok sep (r :: l') 0 H) as (ls & Hn & E). exists ls, (hanging ls). split; [right; split; [discriminate|exact Hn]|].
    split; [unfold rules_text; cbn [List.length Nat.ltb Nat.leb]; exact E|]. apply hanging_labelled. intros F. apply (numbered_nil _ _ _ _ _ _ Hn) in F. discriminate F.
Qed.

(** padding *)
Lemma padding_ok : forall p, exists s, padding_text eol p = s ++ eol /\ padding_says p s.
Proof.
  intros p. eexists. split; [reflexivity|]. unfold padding_says.
  set (e := fun x : string * bside => chars (fst x) ++ chars " " ++ dec (p (snd x))).
  exists (map e (filter (fun x => negb (p (snd x) =? 0)) sides)). split.
  - assert (P : forall n, (0 <? n) = negb (n =? 0)) by (intros [|n]; reflexivity).
    rewrite !P. unfold sides. cbn [filter snd]. unfold e.
    destruct (p BLEF =? 0), (p BTOP =? 0), (p BRIG =? 0), (p BBOT =? 0); cbn [negb orb map commas or_none fst snd]; rewrite ?app_nil_r; try reflexivity;
      rewrite <- ?app_assoc; reflexivity.
  - induction (filter _ _) as [|x l IH]; cbn [map]; constructor; [|exact IH]. exists (dec (p (snd x))). split; [apply dec_ok|reflexivity].
Qed.

(** elastic shapes *)
Lemma elastic_ok : forall sh l start, Forall (fun i => i < 16) l ->
  elastic_text sh start l = Ok (let ns := map name_of (filter (fun i => negb (isempty (sh i)) && s_elastic (sh i)) l) in
    match ns with [] => [] | _ => (if start then chars ", " else []) ++ commas ns end).
Proof.
  intros sh. induction l as [|i l IH]; intros start H; [reflexivity|]. inversion H; subst. cbn [elastic_text filter].
  destruct (isempty (sh i)); cbn [negb andb]; [apply IH; assumption|]. destruct (s_elastic (sh i)); [|apply IH; assumption].
  assert (E : rd shape_name i = Ok (name_of i)).
  { do 16 (destruct i as [|i]; [reflexivity|]). lia. }
  rewrite E. cbn [bind]. rewrite IH by assumption. cbn [bind map]. cbv zeta. rewrite commas_cons.
  destruct (map name_of _); reflexivity.
Qed.

(** shapes *)
Lemma listed_ok : forall b, showable U b -> ~ In 9%N (memory b) -> (forall ts, reads (memory b) ts -> Forall no_quote_inside ts) ->
  exists t body, listed_line U color b = Ok ([34%N] ++ body ++ [34%N]) /\ looks U color b t /\ unescaped 92 34 body t.
Proof.
  intros b (ts & Hr & Hk & Hb) H9 Hq. pose proof Hr as [Hok Es].
  assert (Ht : tabless ts).
  { intros F. apply H9. rewrite <- Es. clear -F. unfold visible, render in *. apply in_flat_map in F as (x & Hx & F). apply in_flat_map. exists x. split; [exact Hx|].
    destruct x; cbn in F; try contradiction. exact F. }
  rewrite <- Es in Hb. destruct (from_unicode_clean_inv U ts b (conj Hok Hk) Hb) as (Eb0 & Ha & _).
  set (es := flat_map esc_tok ts).
  assert (Eok : toks_ok es) by (apply esc_toks_ok; exact Hok).
  assert (Ek : known es).
  { unfold known, es in *. apply Forall_forall. intros t Hin. apply in_flat_map in Hin as (x & Hx & Hin). rewrite Forall_forall in Hk. specialize (Hk x Hx).
    destruct x; cbn [esc_tok] in Hin; try (destruct Hin as [<-|[]]; exact Hk). apply in_map_iff in Hin as (y & <- & _). reflexivity. }
  assert (Q : forall x, In x (flat_map (quote_char 92 34) (visible ts)) -> x = 92%N \/ In x (visible ts)).
  { intros x Hx. apply in_flat_map in Hx as (c & Hc & Hx). unfold quote_char in Hx. destruct (_ || _); cbn in Hx; intuition congruence. }
  assert (Et : tabless es). { unfold tabless, es. rewrite esc_visible. intros F. destruct (Q _ F) as [F'|F']; [discriminate F'|exact (Ht F')]. }
  assert (Ea : allowed U es).
  { unfold allowed, es. rewrite esc_visible. apply Forall_forall. intros x Hx. destruct (Q _ Hx) as [->|Hv].
    - unfold is_allowed_anywhere. rewrite (ok_cntrl U HU 92%N eq_refl). reflexivity.
    - unfold allowed in Ha. rewrite Forall_forall in Ha. auto. }
  destruct (from_unicode_all_ok U HU es Eok Et (proj1 (tok_allowed_iff U es) Ea)) as (eb & Eb).
  destruct (C16_colour_stripping U (render es) es eb (conj Eok eq_refl) Ek Eb) as (Of & _ & Ot).
  exists (if color then memory b else visible ts), (if color then render es else visible es). split; [|split].
  - unfold listed_line. rewrite Eb0 at 1. rewrite escape_ok. fold es. rewrite Eb. destruct color; [rewrite Ot|rewrite Of]; reflexivity.
  - exists ts. split; [exact Hr|]. split; [exact Hk|]. split; [rewrite <- Es; exact Hb|reflexivity].
  - destruct color; [rewrite <- Es; apply esc_render, Hq, Hr|]. unfold es. rewrite esc_visible. apply unescaped_quote.
Qed.
Definition good_row (b : bxstr) : Prop := showable U b /\ ~ In 9%N (memory b) /\ forall ts, reads (memory b) ts -> Forall no_quote_inside ts.
Definition sp24 : list N := repeat 32%N 24.
Definition placed (first : bool) (rows : list (list N)) : list (list N) :=
  if first then labelled "Defined Shapes:         " rows else map (fun y => sp24 ++ y) rows.
Lemma name_rd : forall i, i < 16 -> rd shape_name i = Ok (name_of i).
Proof. intros i H. do 16 (destruct i as [|i]; [reflexivity|]). lia. Qed.
Lemma rows_ok : forall i first s, i < 16 -> forall bs k, skipn k (s_mbcs s) = bs -> k + List.length bs = s_height s -> Forall good_row bs ->
  exists rows lss, rows_say U color (name_of i) (k =? 0) bs rows /\
    mapM (fun w => shape_line U color eol first i w s) (seq k (List.length bs)) = Ok lss /\
    concat lss = lines_with eol (placed (first && (k =? 0)) rows).
Proof.
  intros i first s Hi. induction bs as [|b bs IH]; intros k Hk Hh Hg.
  - exists [], []. split; [constructor|]. split; [reflexivity|]. unfold placed. destruct (first && _); reflexivity.
  - inversion Hg as [|? ? (G1 & G2 & G3) Hg']; subst. cbn [List.length] in Hh.
    assert (Hn : nth_error (s_mbcs s) k = Some b).
    { rewrite <- (firstn_skipn k (s_mbcs s)), Hk. rewrite nth_error_app2; rewrite firstn_length_le; try lia.
      - rewrite Nat.sub_diag. reflexivity.
      - pose proof (skipn_length k (s_mbcs s)) as L. rewrite Hk in L. cbn in L. lia.
      - pose proof (skipn_length k (s_mbcs s)) as L. rewrite Hk in L. cbn in L. lia. }
    assert (Hk' : skipn (S k) (s_mbcs s) = bs).
    { clear -Hk. revert Hk. generalize (s_mbcs s). induction k as [|k IHk]; intros l Hk; [cbn in Hk; rewrite Hk; reflexivity|]. destruct l as [|x l]; [discriminate Hk|]. exact (IHk l Hk). }
    destruct (IH (S k) Hk' ltac:(lia) Hg') as (rows & lss & R1 & R2 & R3). destruct (listed_ok b G1 G2 G3) as (t & body & E & L & Un).
    set (row := (if k =? 0 then repeat 32%N (3 - List.length (name_of i)) ++ name_of i ++ chars ":" else chars "    ") ++ chars " """ ++ body ++ chars """" ++ chars (if is_nil bs then " " else ",")).
    exists (row :: rows), (((if first && (k =? 0) then chars "Defined Shapes:         " else sp24) ++ row ++ eol) :: lss). split; [|split].
    + constructor; [|exact R1]. exists t, body. repeat split; assumption || reflexivity.
    + cbn [List.length seq mapM]. unfold shape_line at 1. rewrite (name_rd i Hi). cbn [bind]. unfold rd at 1. rewrite Hn. cbn [bind]. rewrite E. cbn [bind]. rewrite R2. cbn [bind].
      f_equal. f_equal. unfold row.
      assert (El : (k <? s_height s - 1) = negb (is_nil bs)) by (destruct bs; cbn [List.length is_nil negb] in *; [apply Nat.ltb_ge|apply Nat.ltb_lt]; lia).
      rewrite El. destruct (k =? 0), first; cbn [andb]; destruct (is_nil bs); cbn [negb];
        unfold pad_left, pad_right; rewrite <- ?app_assoc; reflexivity.
    + cbn [concat]. rewrite R3. unfold placed. rewrite andb_false_r. cbn [Nat.eqb]. destruct (first && (k =? 0)); cbn [labelled map]; unfold lines_with; cbn [flat_map]; rewrite <- !app_assoc; reflexivity.
Qed.
Lemma shapes_ok : forall sh l first, Forall (fun i => i < 16) l ->
  (forall i, i < 16 -> drawn (sh i) -> List.length (s_mbcs (sh i)) = s_height (sh i) /\ Forall good_row (s_mbcs (sh i))) ->
  exists rows, shapes_say U color sh l rows /\ shapes_text U color eol sh first l = Ok (lines_with eol (placed first rows)).
Proof.
  intros sh. induction l as [|i l IH]; intros first Hl Hs; [exists []; split; [constructor|destruct first; reflexivity]|].
  inversion Hl as [|? ? Hi Hl']; subst. cbn [shapes_text]. destruct (isdeepempty (sh i)) eqn:D.
  - destruct (IH first Hl' Hs) as (rows & A & B). exists rows. split; [|exact B]. apply ss_skip; [unfold drawn; congruence|exact A].
  - destruct (Hs i Hi D) as [H1 H2]. destruct (rows_ok i first (sh i) Hi (s_mbcs (sh i)) 0 eq_refl ltac:(cbn; exact H1) H2) as (rows & lss & R1 & R2 & R3).
    destruct (IH false Hl' Hs) as (rest & A & B). rewrite H1 in R2. rewrite R2. cbn [bind]. rewrite B. cbn [bind]. exists (rows ++ rest). split.
    + apply ss_shape; assumption.
    + rewrite R3. f_equal. cbn [Nat.eqb]. rewrite andb_true_r. unfold lines_with. rewrite <- flat_map_app. f_equal. unfold placed. destruct first; [|symmetry; apply map_app].
      destruct rows as [|r rows]; [|cbn [labelled app]; rewrite map_app; reflexivity].
      exfalso. assert (N : s_mbcs (sh i) = []) by (inversion R1; reflexivity). unfold isdeepempty in D. apply orb_false_iff in D as [D _]. unfold isempty in D. rewrite N in D. cbn in D.
      rewrite orb_true_r in D. discriminate D.
Qed.
Lemma underline : forall name, lit "-----------------------------------" ++ repeat 45%N (List.length name) =
  repeat 45%N (List.length (chars "Complete Design Information for """ ++ name ++ chars """:")).
Proof.
  intros name. rewrite !app_length. replace (List.length (chars "Complete Design Information for """) + (List.length name + List.length (chars """:"))) with (35 + List.length name) by (cbn; lia).
  rewrite repeat_app. reflexivity.
Qed.
Lemma details_ok : forall undoc origin d, presentable U d -> exists ls, sheet U color undoc origin d ls /\
  print_design_details U color eol undoc origin d = Ok (lines_with eol ls).
Proof.
  intros undoc origin d P. destruct (pr_name _ _ P) as (name & En). pose proof (pr_rules _ _ P) as Hr. apply Forall_app in Hr as [Hr1 Hr2].
  destruct (looks_or_ok "(unknown author)" (c_author d)) as (author & Ea & La); [intros b Eb; apply (pr_texts _ _ P); auto|].
  destruct (looks_or_ok "(unknown artist)" (c_designer d)) as (designer & Ed & Ld); [intros b Eb; apply (pr_texts _ _ P); auto|].
  destruct (looks_or_ok "NULL" (c_sample d)) as (sample & Es & Lsa); [intros b Eb; apply (pr_texts _ _ P); auto|].
  destruct (rules_ok "Replacement Rules:      " "WITH" _ Hr1) as (reps & t1 & R1 & R2 & R3).
  destruct (rules_ok "Reversion Rules:        " "TO" _ Hr2) as (revs & t2 & V1 & V2 & V3).
  destruct (padding_ok (c_padding d)) as (pad & P1 & P2).
  assert (S16 : Forall (fun i => i < 16) (seq 0 16)) by (apply Forall_forall; intros i Hi; apply in_seq in Hi; lia).
  destruct (shapes_ok (c_shape d) (seq 0 16) true S16 (pr_shapes _ _ P)) as (rows & S1 & S2).
  assert (T : exists tail, (if undoc then exists s, looks_or U color "NULL" (c_sample d) s /\ tail = [chars "Sample:"; s]
       else exists rows, shapes_say U color (c_shape d) (seq 0 16) rows /\ tail = labelled "Defined Shapes:         " rows) /\
     (if undoc then s <- output_or color NULL_text (c_sample d) ;; Ok (lit "Sample:" ++ eol ++ s ++ eol)
      else shapes_text U color eol (c_shape d) true (seq 0 NUM_SHAPES)) = Ok (lines_with eol tail)).
  { destruct undoc.
    - exists [chars "Sample:"; sample]. split; [exists sample; auto|]. unfold NULL_text. rewrite Es. cbn [bind]. unfold lines_with. cbn [flat_map]. rewrite app_nil_r, <- app_assoc. reflexivity.
    - exists (labelled "Defined Shapes:         " rows). split; [exists rows; auto|]. exact S2. }
  destruct T as (tail & T1 & T2).
  eexists. split; [constructor; exists name, author, designer, reps, revs, (dec (c_minwidth d)), (dec (c_minheight d)), pad, tail;
    repeat split; [exact En|exact La|exact Ld|exact R1|exact V1|apply dec_ok|apply dec_ok|apply dec_ok|apply dec_ok|apply dec_ok|apply dec_ok|apply dec_ok|apply dec_ok|exact P2|exact T1]|].
  unfold print_design_details. rewrite En. cbn [must bind]. rewrite Ea. cbn [bind]. rewrite Ed. cbn [bind]. rewrite R2. cbn [bind]. rewrite V2. cbn [bind].
  rewrite (elastic_ok (c_shape d) (seq 0 NUM_SHAPES) false S16). cbn [bind]. rewrite T2. cbn [bind]. f_equal. rewrite P1, !list_or_none_ok.
  unfold lines_with at 2. rewrite !flat_map_app. fold (lines_with eol (labelled "Replacement Rules:      " reps)). fold (lines_with eol (labelled "Reversion Rules:        " revs)). fold (lines_with eol tail).
  rewrite <- R3, <- V3. cbn [flat_map]. rewrite <- underline. rewrite <- !app_assoc, ?app_nil_l.
  assert (Em : (if N.eqb (c_indentmode d) 98 then lit "box (indent box)" else if N.eqb (c_indentmode d) 116 then lit "text (retain indentation inside of box)"
       else lit "none (discard indentation)") = chars (mode_text (c_indentmode d))) by (unfold mode_text; destruct (N.eqb _ 98); [|destruct (N.eqb _ 116)]; reflexivity).
  assert (Ek : (if empty_side (c_shape d) BTOP && empty_side (c_shape d) BBOT then lit "no" else lit "yes") =
     chars (if empty_side (c_shape d) BTOP && empty_side (c_shape d) BBOT then "no" else "yes")) by (destruct (_ && _); reflexivity).
  rewrite Em, Ek. change NUM_SHAPES with 16. unfold elastic_says. cbv zeta.
  assert (El : forall l : list (list N), match l with [] => [] | _ => [] ++ commas l end = commas l) by (intros [|x l]; reflexivity).
  rewrite El. repeat (apply f_equal2; [reflexivity|]). reflexivity.
Qed.
End Sheet.
