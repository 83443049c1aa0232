(** * Deciding whether a design has the properties the theorems ask for *)
From Coq Require Import Ascii String List Arith NArith ZArith Bool Lia.
From Verif Require Import Base BaseFacts Model_Unicode Model_Bxs Model_Shape Model_Generate Spec_Str Spec_Design Spec_Box Spec_Remove Spec_Round Spec_Closed Spec_Comment Spec_Detect Model_Query
  Model_Discovery Model_Parser Spec_Parser Spec_Input Proof_BxsOps.
Import ListNotations.
Local Open Scope nat_scope.
Local Open Scope list_scope.

Section Decide.
Variable U : uctab.

(** *** texts with escape sequences *)
Definition finalb (f : N) : bool := ((64 <=? f) && (f <=? 126))%N.
Fixpoint to_final (s : list N) : option (list N * N * list N) :=
  match s with
  | [] => None
  | c :: r => if finalb c then Some ([], c, r) else match to_final r with Some (ps, f, q) => Some (c :: ps, f, q) | None => None end
  end.
Fixpoint tidyb (fuel : nat) (s : list N) : bool :=
  match fuel with
  | 0 => false
  | S k =>
      match s with
      | [] => true
      | c :: r =>
          if N.eqb c 27 then
            match r with
            | [] => false
            | d :: r' =>
                if (N.eqb d 91 || N.eqb d 40) then match to_final r' with Some (_, _, q) => tidyb k q | None => false end
                else if ((64 <=? d) && (d <=? 95))%N then tidyb k r' else false
            end
          else is_allowed_anywhere U c && negb (N.eqb c 9) && tidyb k r
      end
  end.
Definition tidy_textb (s : list N) : bool := tidyb (S (List.length s)) s.
Lemma to_final_ok : forall s ps f q, to_final s = Some (ps, f, q) -> s = ps ++ f :: q /\ Forall (fun p => ~ final p) ps /\ final f.
Proof.
  induction s as [|c s IH]; intros ps f q H; [discriminate H|]. cbn [to_final] in H. destruct (finalb c) eqn:E.
  - injection H as <- <- <-. split; [reflexivity|]. split; [constructor|]. unfold finalb in E. apply andb_true_iff in E as [E1 E2].
    apply N.leb_le in E1. apply N.leb_le in E2. split; assumption.
  - destruct (to_final s) as [[[ps' f'] q']|]; [|discriminate H]. injection H as <- <- <-. destruct (IH _ _ _ eq_refl) as (E1 & E2 & E3).
    split; [cbn; f_equal; exact E1|]. split; [|exact E3]. constructor; [|exact E2]. intros [F1 F2]. unfold finalb in E. apply andb_false_iff in E as [E|E].
    + apply N.leb_gt in E. lia. + apply N.leb_gt in E. lia.
Qed.
Lemma tidyb_ok : forall k s, tidyb k s = true -> exists ts, reads s ts /\ known ts /\ Forall (fun t => is_cut t = false) ts /\ allowed U ts /\ tabless ts.
Proof.
  assert (X : forall t ts s, tok_ok t -> is_cut t = false -> is_odd t = false -> (forall c, t = Vis c -> is_allowed_anywhere U c = true /\ c <> 9%N) ->
    reads s ts /\ known ts /\ Forall (fun t => is_cut t = false) ts /\ allowed U ts /\ tabless ts ->
    exists ts', reads (tok_chars t ++ s) ts' /\ known ts' /\ Forall (fun t => is_cut t = false) ts' /\ allowed U ts' /\ tabless ts').
  { intros t ts s Ht Hc Ho Hv ([Hr1 Hr2] & Hk & Hf & Ha & Htb). exists (t :: ts). split; [split|].
    - cbn [toks_ok]. split; [exact Ht|]. split; [rewrite Hc; discriminate|exact Hr1].
    - unfold render in *. cbn [flat_map]. rewrite Hr2. reflexivity.
    - split; [constructor; assumption|]. split; [constructor; assumption|]. destruct t as [c|b|b|d]; try discriminate.
      + destruct (Hv c eq_refl) as [V1 V2]. split; [constructor; assumption|]. intros [F|F]; [congruence|exact (Htb F)].
      + split; assumption. }
  induction k as [|k IH]; intros s H; [discriminate H|]. cbn [tidyb] in H. destruct s as [|c r].
  { exists []. repeat split; try constructor. intros []. }
  destruct (N.eqb_spec c 27) as [->|Nc].
  - destruct r as [|d r]; [discriminate H|]. destruct (N.eqb d 91 || N.eqb d 40) eqn:Eo.
    + destruct (to_final r) as [[[ps f] q]|] eqn:Ef; [|discriminate H]. destruct (to_final_ok _ _ _ _ Ef) as (-> & F1 & F2).
      destruct (IH q H) as (ts & K). destruct (X (Esc (27%N :: d :: ps ++ [f])) ts q) as (ts' & Z); try reflexivity; try (intros; discriminate); [|exact K|].
      * right. exists d, ps, f. split; [reflexivity|]. split; [|split; assumption]. apply orb_true_iff in Eo as [E|E]; apply N.eqb_eq in E; [left|right]; exact E.
      * exists ts'. cbn [tok_chars app] in Z. rewrite <- app_assoc in Z. exact Z.
    + destruct (_ && _)%N eqn:Er; [|discriminate H]. destruct (IH r H) as (ts & K).
      destruct (X (Esc [27%N; d]) ts r) as (ts' & Z); try reflexivity; try (intros; discriminate); [|exact K|exists ts'; exact Z].
      left. exists d. split; [reflexivity|]. apply andb_true_iff in Er as [E1 E2]. apply N.leb_le in E1. apply N.leb_le in E2.
      apply orb_false_iff in Eo as [E _]. apply N.eqb_neq in E. auto.
  - apply andb_true_iff in H as [H H3]. apply andb_true_iff in H as [H1 H2]. destruct (IH r H3) as (ts & K).
    destruct (X (Vis c) ts r) as (ts' & Z); try reflexivity; [exact Nc| |exact K|exists ts'; exact Z].
    intros x E. injection E as <-. split; [exact H1|]. apply negb_true_iff in H2. apply N.eqb_neq in H2. exact H2.
Qed.
Lemma tidy_textb_ok : forall s, tidy_textb s = true -> tidy_text U s.
Proof. intros s H. apply tidyb_ok in H as (ts & H1 & H2 & H3 & H4 & H5). exists (columns (term_width U) ts), ts. auto 10. Qed.

Definition tidy_defb (d : shape_def) : bool := match d with no_lines => true | lines f more => tidy_textb f && forallb tidy_textb more end.
Definition tidy_blockb (s : stmt) : bool :=
  match s with s_box _ _ l _ => forallb (fun i => match i with i_shapes l => forallb (fun p => tidy_defb (snd p)) l | _ => true end) l | _ => true end.
Lemma tidy_blockb_ok : forall s, tidy_blockb s = true -> tidy_stmt U s.
Proof.
  intros [f|n al l e|al|] H; cbn [tidy_stmt]; try exact I. cbn [tidy_blockb] in H. rewrite forallb_forall in H. apply Forall_forall. intros i Hi. specialize (H i Hi).
  destruct i; cbn [tidy_item]; try exact I. rewrite forallb_forall in H. apply Forall_forall. intros [k d] Hp. specialize (H _ Hp). cbn [snd] in *.
  destruct d as [|f more]; cbn in *; [exact I|]. apply andb_true_iff in H as [H1 H2]. split; [apply tidy_textb_ok; exact H1|].
  rewrite forallb_forall in H2. apply Forall_forall. intros t Ht. apply tidy_textb_ok. auto.
Qed.

(** *** opposite sides *)
Definition matchableb (dim : sentry -> nat) (A B : nat -> sentry) : bool :=
  let g := Nat.gcd (period dim A) (period dim B) in
  existsb (fun a => existsb (fun b => a mod g =? b mod g) (offsets dim B)) (offsets dim A).
Lemma matchableb_ok : forall dim A B, matchableb dim A B = true <-> matchable dim A B.
Proof.
  intros dim A B. unfold matchableb, matchable. rewrite existsb_exists. split.
  - intros (a & Ha & H). apply existsb_exists in H as (b & Hb & H). apply Nat.eqb_eq in H. eauto.
  - intros (a & b & Ha & Hb & H). exists a. split; [exact Ha|]. apply existsb_exists. exists b. split; [exact Hb|]. apply Nat.eqb_eq. exact H.
Qed.
Definition drawableb (d : design) : bool :=
  matchableb s_width (at_side (d_shape d) BTOP) (at_side (d_shape d) BBOT) && matchableb s_height (at_side (d_shape d) BLEF) (at_side (d_shape d) BRIG).

(** *** designs without escape sequences *)
Definition all16 (p : sentry -> bool) (d : design) : bool := forallb (fun i => p (d_shape d i)) (seq 0 16).
Lemma all16_ok : forall p d, all16 p d = true -> forall i, i < 16 -> p (d_shape d i) = true.
Proof. intros p d H i Hi. unfold all16 in H. rewrite forallb_forall in H. apply (H i). apply in_seq. lia. Qed.
Definition plain_charb (c : N) : bool := negb (N.eqb c 27) && negb (N.eqb c 13) && negb (N.eqb c 9) && (negb (is_blank U c) || N.eqb c 32).
Definition plainb (d : design) : bool :=
  all16 (fun s => forallb (fun m => forallb plain_charb (memory m)) (s_mbcs s)) d &&
  all16 (fun s => negb (isdeepempty s) || forallb (fun m => forallb (N.eqb 32) (memory m)) (s_mbcs s)) d.
Lemma plainb_ok : forall d, plainb d = true -> plain_design U d.
Proof.
  intros d H. apply andb_true_iff in H as [H1 H2]. constructor.
  - intros i m Hi Hm. pose proof (all16_ok _ _ H1 i Hi) as K. rewrite forallb_forall in K. specialize (K m Hm). rewrite forallb_forall in K. apply Forall_forall.
    intros c Hc. specialize (K c Hc). unfold plain_charb in K. apply andb_true_iff in K as [K K4]. apply andb_true_iff in K as [K K3]. apply andb_true_iff in K as [K1 K2].
    apply negb_true_iff, N.eqb_neq in K1. apply negb_true_iff, N.eqb_neq in K2. apply negb_true_iff, N.eqb_neq in K3. repeat split; try assumption.
    intros B. rewrite B in K4. cbn in K4. apply N.eqb_eq. exact K4.
  - intros i m Hi He Hm. pose proof (all16_ok _ _ H2 i Hi) as K. cbv beta in K. rewrite He in K. cbn [negb orb] in K. rewrite forallb_forall in K. specialize (K m Hm).
    rewrite forallb_forall in K. apply Forall_forall. intros c Hc. specialize (K c Hc). apply N.eqb_eq in K. auto.
Qed.

(** *** closed boxes *)
Definition text_charb (c : N) : bool := is_allowed_anywhere U c && negb (N.eqb c 27) && negb (N.eqb c 9) && negb (N.eqb c 13) && negb (N.eqb c 10).
Lemma text_charb_ok : forall c, text_charb c = true -> text_char U c.
Proof.
  intros c H. unfold text_charb in H. repeat (apply andb_true_iff in H as [H ?]). unfold text_char.
  repeat match goal with K : negb (N.eqb _ _) = true |- _ => apply negb_true_iff, N.eqb_neq in K end. auto.
Qed.
Definition shows_something (s : list N) : bool := existsb (fun c => negb (is_blank U c)) s.
Definition wallb (d : design) (left : bool) (q : nat) : bool :=
  forallb (fun i => let s := d_shape d i in isempty s || (negb (isdeepempty s) &&
    forallb (fun m => (List.length (memory m) =? q) &&
      match (if left then memory m else rev (memory m)) with c :: _ => negb (is_blank U c) | [] => false end) (s_mbcs s))) (wall_shapes left).
Definition wall_width (d : design) (left : bool) : nat :=
  match flat_map (fun i => let s := d_shape d i in if isempty s then [] else map (fun m => List.length (memory m)) (s_mbcs s)) (wall_shapes left) with q :: _ => q | [] => 0 end.
(** some existing shape of the side shows something in line [k] *)
Definition rowb (d : design) (top : bool) (k : nat) : bool :=
  shows_something (row_text (d_shape d (left_corner top)) k) || shows_something (row_text (d_shape d (right_corner top)) k) ||
  existsb (fun i => let s := at_side (d_shape d) (if top then BTOP else BBOT) i in negb (isempty s) && shows_something (row_text s k)) [1; 2; 3].
Definition closedb (d : design) : bool :=
  forallb (fun s => negb (blank_side d s)) [BTOP; BRIG; BBOT; BLEF] && wallb d true (wall_width d true) && wallb d false (wall_width d false) &&
  all16 (fun s => forallb (fun m => forallb text_charb (memory m)) (s_mbcs s)) d &&
  forallb (rowb d true) (seq 0 (top_h d)) && forallb (rowb d false) (seq 0 (bottom_h d)).
Lemma shows_something_ok : forall s, shows_something s = true -> exists c, In c s /\ is_blank U c = false.
Proof. intros s H. apply existsb_exists in H as (c & Hc & H). apply negb_true_iff in H. eauto. Qed.
Lemma wallb_ok : forall d left q, wallb d left q = true -> wall U d left q.
Proof.
  intros d left q H i Hi He. unfold wallb in H. rewrite forallb_forall in H. specialize (H i Hi). cbv zeta in H. rewrite He in H. cbn [orb] in H.
  apply andb_true_iff in H as [H1 H2]. apply negb_true_iff in H1. split; [exact H1|]. intros m Hm. rewrite forallb_forall in H2. specialize (H2 m Hm).
  apply andb_true_iff in H2 as [H2 H3]. apply Nat.eqb_eq in H2. split; [exact H2|]. destruct left.
  - destruct (memory m) as [|c r]; [discriminate H3|]. apply negb_true_iff in H3. eauto.
  - destruct (rev (memory m)) as [|c r] eqn:E; [discriminate H3|]. apply negb_true_iff in H3. exists c, (rev r). split; [exact H3|].
    rewrite <- (rev_involutive (memory m)), E. reflexivity.
Qed.
Lemma rowb_ok : forall d (top : bool) k cn, blank_side d BLEF = false -> usage (at_side (d_shape d) (if top then BTOP else BBOT)) cn -> rowb d top k = true ->
  exists c, In c (border_row d top 0 cn k) /\ is_blank U c = false.
Proof.
  intros d top k cn Hb [Hu _] H. unfold border_row. rewrite Hb. cbn [spaces repeat app]. apply orb_true_iff in H as [H|H]; [apply orb_true_iff in H as [H|H]|].
  - apply shows_something_ok in H as (c & Hc & B). exists c. split; [|exact B]. apply in_app_iff. left. exact Hc.
  - apply shows_something_ok in H as (c & Hc & B). exists c. split; [|exact B]. apply in_app_iff. right. apply in_app_iff. right. exact Hc.
  - apply existsb_exists in H as (i & Hi & H). cbv zeta in H. apply andb_true_iff in H as [He H]. apply negb_true_iff in He.
    apply shows_something_ok in H as (c & Hc & B). exists c. split; [|exact B]. apply in_app_iff. right. apply in_app_iff. left.
    unfold hside_row. apply in_flat_map. exists i. split; [destruct top; cbn in *; intuition|].
    specialize (Hu i Hi). rewrite He in Hu. assert (P : 1 <= cn i) by (destruct (s_elastic _); lia).
    destruct (cn i); [lia|]. cbn [repeat concat]. apply in_app_iff. left. exact Hc.
Qed.
Lemma closedb_ok : forall d, closedb d = true -> closed_design U d (wall_width d true) (wall_width d false).
Proof.
  intros d H. unfold closedb in H. do 5 (apply andb_true_iff in H as [H ?]).
  assert (S : forall s, blank_side d s = false).
  { intros s. rewrite forallb_forall in H. specialize (H s). apply negb_true_iff. apply H. destruct s; cbn; auto. }
  constructor.
  - exact S.
  - match goal with K : wallb d true _ = true |- _ => apply wallb_ok; exact K end.
  - match goal with K : wallb d false _ = true |- _ => apply wallb_ok; exact K end.
  - intros i m Hi Hm. match goal with K : all16 _ d = true |- _ => pose proof (all16_ok _ _ K i Hi) as Z end. cbv beta in Z. rewrite forallb_forall in Z.
    specialize (Z m Hm). rewrite forallb_forall in Z. apply Forall_forall. intros c Hc. apply text_charb_ok. auto.
  - intros cn k Hu Hk. apply (rowb_ok d true); [apply S|exact Hu|]. match goal with K : forallb (rowb d true) _ = true |- _ => rewrite forallb_forall in K; apply K end. apply in_seq. lia.
  - intros cn k Hu Hk. apply (rowb_ok d false); [apply S|exact Hu|]. match goal with K : forallb (rowb d false) _ = true |- _ => rewrite forallb_forall in K; apply K end. apply in_seq. lia.
Qed.

(** *** comments *)
Definition blank_shapeb (s : sentry) : bool :=
  (0 <? s_width s) && (0 <? s_height s) &&
  (if list_eq_dec (list_eq_dec N.eq_dec) (s_chars s) (repeat (repeat 32%N (s_width s)) (s_height s)) then true else false) &&
  (if list_eq_dec (list_eq_dec N.eq_dec) (map memory (s_mbcs s)) (repeat (repeat 32%N (s_width s)) (s_height s)) then true else false).
Definition commentb (d : design) : bool :=
  let sh := d_shape d in
  match s_mbcs (sh W_) with
  | [m] => (s_height (sh W_) =? 1) && s_elastic (sh W_) && negb (isempty (sh W_)) && forallb text_charb (memory m) &&
      match memory m with c :: _ => negb (is_blank U c) | [] => false end && negb (blank_side d BLEF) && (d_minheight d <=? 3)
  | _ => false
  end &&
  forallb (fun i => (i =? W_) || isempty (sh i) || blank_shapeb (sh i)) (seq 0 16) &&
  forallb (fun i => negb (isempty (sh i))) [NW; NE; SE; SW; N_; E_; S_] &&
  forallb (fun i => isempty (sh i) && negb (s_elastic (sh i))) [NNW; NNE; ENE; ESE; SSE; SSW; WSW; WNW] &&
  forallb (fun i => (s_width (sh i) =? 1) && (s_height (sh i) =? 1)) [NE; SE; N_; E_; S_] &&
  forallb (fun i => (s_width (sh i) =? s_width (sh W_)) && (s_height (sh i) =? 1)) [NW; SW] &&
  forallb (fun i => s_elastic (sh i)) [N_; E_; S_].
Lemma blank_shapeb_ok : forall s, blank_shapeb s = true -> blank_shape s.
Proof.
  intros s H. unfold blank_shapeb in H. repeat (apply andb_true_iff in H as [H ?]). apply Nat.ltb_lt in H. 
  repeat match goal with K : (if ?x then true else false) = true |- _ => destruct x; [|discriminate K] end.
  match goal with K : (0 <? s_height s) = true |- _ => apply Nat.ltb_lt in K end. repeat split; assumption.
Qed.
Lemma commentb_ok : forall d, commentb d = true -> exists s, comment_design d s /\ Forall (text_char U) s /\ (exists c r, s = c :: r /\ is_blank U c = false) /\
  blank_side d BLEF = false /\ d_minheight d <= 3.
Proof.
  intros d H. unfold commentb in H. cbv zeta in H. repeat (apply andb_true_iff in H as [H ?]).
  destruct (s_mbcs (d_shape d W_)) as [|m [|]] eqn:Em; try discriminate H. repeat (apply andb_true_iff in H as [H ?]).
  exists (memory m). repeat match goal with K : forallb _ _ = true |- _ => rewrite forallb_forall in K end.
  split; [constructor|split; [|split; [|split]]].
  - rewrite Em. apply Nat.eqb_eq in H. split; [reflexivity|]. split; [exact H|]. split; [assumption|]. apply negb_true_iff. assumption.
  - intros i Hi Hw. match goal with K : forall x, In x (seq 0 16) -> _ |- _ => specialize (K i ltac:(apply in_seq; lia)); rename K into Z end.
    apply orb_true_iff in Z as [Z|Z]; [|right; apply blank_shapeb_ok; exact Z]. apply orb_true_iff in Z as [Z|Z]; [apply Nat.eqb_eq in Z; contradiction|left; exact Z].
  - intros i Hi. match goal with K : forall x, In x [NW; NE; SE; SW; N_; E_; S_] -> _ |- _ => specialize (K i Hi); rename K into Z end. apply negb_true_iff. exact Z.
  - intros i Hi. match goal with K : forall x, In x [NNW; NNE; ENE; ESE; SSE; SSW; WSW; WNW] -> _ |- _ => specialize (K i Hi); rename K into Z end.
    apply andb_true_iff in Z as [Z1 Z2]. apply negb_true_iff in Z2. auto.
  - intros i Hi. match goal with K : forall x, In x [NE; SE; N_; E_; S_] -> _ |- _ => specialize (K i Hi); rename K into Z end.
    apply andb_true_iff in Z as [Z1 Z2]. apply Nat.eqb_eq in Z1. apply Nat.eqb_eq in Z2. auto.
  - intros i Hi. match goal with K : forall x, In x [NW; SW] -> _ |- _ => specialize (K i Hi); rename K into Z end.
    apply andb_true_iff in Z as [Z1 Z2]. apply Nat.eqb_eq in Z1. apply Nat.eqb_eq in Z2. auto.
  - intros i Hi. match goal with K : forall x, In x [N_; E_; S_] -> _ |- _ => exact (K i Hi) end.
  - apply Forall_forall. intros c Hc. apply text_charb_ok. match goal with K : forall x, In x (memory m) -> _ |- _ => exact (K c Hc) end.
  - destruct (memory m) as [|c r]; [discriminate|]. exists c, r. split; [reflexivity|]. apply negb_true_iff. assumption.
  - apply negb_true_iff. assumption.
  - apply Nat.leb_le. assumption.
Qed.
(** *** designs with escape sequences *)
Fixpoint toks_of (fuel : nat) (s : list N) : option (list tok) :=
  match fuel with
  | 0 => None
  | S k =>
      match s with
      | [] => Some []
      | c :: r =>
          if N.eqb c 27 then
            match r with
            | [] => None
            | d :: r' =>
                if (N.eqb d 91 || N.eqb d 40) then match to_final r' with Some (ps, f, q) => option_map (cons (Esc (27%N :: d :: ps ++ [f]))) (toks_of k q) | None => None end
                else None
            end
          else option_map (cons (Vis c)) (toks_of k r)
      end
  end.
Lemma toks_of_ok : forall k s ts, toks_of k s = Some ts -> reads s ts /\ Forall (fun t => is_cut t = false) ts.
Proof.
  assert (X : forall t ts s, tok_ok t -> is_cut t = false -> reads s ts /\ Forall (fun t => is_cut t = false) ts -> reads (tok_chars t ++ s) (t :: ts) /\ Forall (fun t => is_cut t = false) (t :: ts)).
  { intros t ts s Ht Hc [[H1 H2] H3]. split; [split|constructor; assumption].
    - cbn [toks_ok]. split; [exact Ht|]. split; [rewrite Hc; discriminate|exact H1].
    - unfold render in *. cbn [flat_map]. rewrite H2. reflexivity. }
  induction k as [|k IH]; intros s ts H; [discriminate H|]. cbn [toks_of] in H. destruct s as [|c r]; [injection H as <-; split; [split; constructor|constructor]|].
  destruct (N.eqb_spec c 27) as [->|Nc].
  - destruct r as [|d r]; [discriminate H|]. destruct (N.eqb d 91 || N.eqb d 40) eqn:Eo; [|discriminate H].
    destruct (to_final r) as [[[ps f] q]|] eqn:Ef; [|discriminate H]. destruct (to_final_ok _ _ _ _ Ef) as (-> & F1 & F2).
    destruct (toks_of k q) as [ts'|] eqn:E; [|discriminate H]. injection H as <-.
    replace (27%N :: d :: ps ++ f :: q) with (tok_chars (Esc (27%N :: d :: ps ++ [f])) ++ q) by (cbn [tok_chars app]; rewrite <- app_assoc; reflexivity).
    apply X; [|reflexivity|apply IH; exact E]. right. exists d, ps, f. split; [reflexivity|]. split; [|split; assumption].
    apply orb_true_iff in Eo as [F|F]; apply N.eqb_eq in F; [left|right]; exact F.
  - destruct (toks_of k r) as [ts'|] eqn:E; [|discriminate H]. injection H as <-. change (c :: r) with (tok_chars (Vis c) ++ r). apply X; [exact Nc|reflexivity|apply IH; exact E].
Qed.
Definition narrowb (l : list N) : bool := forallb (fun c => term_width U c =? 1) (firstn (lead (is_blank U) l) l).
Definition calm_rowb (m : bxstr) : bool :=
  match toks_of (S (List.length (memory m))) (memory m) with
  | None => false
  | Some ts =>
      narrowb (visible ts) &&
      (negb (existsb (N.eqb 27) (memory m)) ||
       match rev (visible ts) with c :: _ => negb (is_blank U c) | [] => true end ||
       match ts with Vis c :: _ => negb (is_blank U c) | Esc b :: Vis c :: _ => negb (is_blank U c) && negb (is_csi_reset b) | _ => false end)
  end.
Lemma calm_rowb_ok : forall m, calm_rowb m = true -> calm_row U m.
Proof.
  intros m H. unfold calm_rowb in H. destruct (toks_of _ _) as [ts|] eqn:E; [|discriminate H]. apply toks_of_ok in E as [Hr _].
  apply andb_true_iff in H as [Hn H]. exists ts. split; [exact Hr|]. split.
  - unfold narrow_indent. apply Forall_forall. intros c Hc. unfold narrowb in Hn. rewrite forallb_forall in Hn. apply Nat.eqb_eq. auto.
  - apply orb_true_iff in H as [H|H]; [apply orb_true_iff in H as [H|H]|].
    + left. intros F. apply negb_true_iff in H. assert (T : existsb (N.eqb 27) (memory m) = true) by (apply existsb_exists; exists 27%N; split; [exact F|reflexivity]). congruence.
    + right. left. intros v c Ev. rewrite Ev, rev_app_distr in H. cbn in H. apply negb_true_iff in H. exact H.
    + right. right. destruct ts as [|[c|b|b|b] r]; try discriminate H.
      * exists c, r. split; [apply negb_true_iff; exact H|left; reflexivity].
      * destruct r as [|[c|x|x|x] r]; try discriminate H. apply andb_true_iff in H as [H1 H2]. apply negb_true_iff in H1. apply negb_true_iff in H2.
        exists c, r. split; [exact H1|]. right. exists b. split; [reflexivity|]. intros F. apply (reset_switch_off b) in F; [congruence|]. destruct Hr as [[Hr _] _]. exact Hr.
Qed.
Definition calmb (d : design) : bool := all16 (fun s => forallb calm_rowb (s_mbcs s)) d.
Lemma calmb_ok : forall d, calmb d = true -> calm_design U d.
Proof.
  intros d H i m Hi Hm. unfold calmb in H. pose proof (all16_ok _ d H i Hi) as K. cbv beta in K. rewrite forallb_forall in K. apply calm_rowb_ok. auto.
Qed.
End Decide.
