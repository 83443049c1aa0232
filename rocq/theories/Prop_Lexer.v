(** * String literals and their listing: C31 *)
From Coq Require Import Ascii String List Arith NArith ZArith Bool Lia Sorted.
From Verif Require Import Base BaseFacts Model_Unicode Model_Bxs Model_Shape Model_Discovery Model_Lexer
  Spec_Str Spec_Lexer Proof_Str Proof_Bxs Proof_BxsOps Proof_BxsMore Proof_Shows Demo Prop_Str.
Import ListNotations.
Local Open Scope nat_scope.
Local Open Scope list_scope.

Section Loop.
Variable d : delims.

(** what the loop does, without its bookkeeping: the content and the number of characters of the literal's body *)
Fixpoint scan (n : nat) (s : list N) : option (list N * nat) :=
  match n, s with
  | S n', c :: r =>
      if N.eqb c (sesc d) then
        match r with
        | [] => None
        | e :: r' => match scan n' r' with Some (ct, k) => Some (e :: ct, S (S k)) | None => None end
        end
      else if N.eqb c (sdel d) then Some ([], 0)
      else match scan n' r with Some (ct, k) => Some (c :: ct, S k) | None => None end
  | _, _ => None
  end.

Lemma memmove1_ok : forall c s junk, memmove1 (c :: s ++ 0%N :: junk) (S (List.length s)) = Ok (s ++ 0%N :: 0%N :: junk).
Proof.
  intros c s junk. unfold memmove1. destruct (Nat.ltb_spec (List.length (c :: s ++ 0%N :: junk)) (S (S (List.length s)))) as [F|_].
  { cbn [List.length] in F. rewrite app_length in F. cbn [List.length] in F. lia. }
  f_equal. cbn [tl skipn]. rewrite firstn_app, firstn_all2 by lia. replace (S (List.length s) - List.length s) with 1 by lia. cbn [firstn].
  rewrite skipn_app, skipn_all2 by lia. rewrite Nat.sub_diag. cbn [skipn app]. rewrite <- app_assoc. reflexivity.
Qed.

Lemma string_loop_ok : forall fuel s don junk q, List.length s < fuel -> ~ In 0%N s ->
  string_loop d fuel don (s ++ 0%N :: junk) (List.length s) q =
  Ok (match scan fuel s with Some (ct, k) => Complete (don ++ ct) (List.length don + 2 + q + k) | None => Unterminated end).
Proof.
  induction fuel as [|f IH]; intros s don junk q Hf H0; [lia|].
  destruct s as [|c s]; [reflexivity|]. cbn [string_loop app scan].
  assert (Hc : N.eqb c 0 = false). { apply N.eqb_neq. intros ->. apply H0. cbn. auto. }
  assert (Hs : ~ In 0%N s) by (intros F; apply H0; cbn; auto).
  rewrite Hc. destruct (N.eqb c (sesc d)) eqn:E1.
  - cbn [List.length]. rewrite memmove1_ok. cbn [bind]. rewrite subz_le by lia. cbn [bind]. replace (S (List.length s) - 1) with (List.length s) by lia.
    destruct s as [|e s]; [reflexivity|]. cbn [app].
    assert (He : N.eqb e 0 = false). { apply N.eqb_neq. intros ->. apply Hs. cbn. auto. }
    rewrite He. cbn [List.length]. rewrite subz_le by lia. cbn [bind]. replace (S (List.length s) - 1) with (List.length s) by lia.
    cbn [List.length] in Hf. rewrite IH by (try lia; intros F; apply Hs; cbn; auto).
    destruct (scan f s) as [[ct k]|]; [|reflexivity]. rewrite <- app_assoc, app_length. cbn [app List.length]. do 2 f_equal. lia.
  - destruct (N.eqb c (sdel d)) eqn:E2.
    + rewrite app_nil_r. do 2 f_equal. lia.
    + cbn [List.length]. rewrite subz_le by lia. cbn [bind]. replace (S (List.length s) - 1) with (List.length s) by lia. cbn [List.length] in Hf. rewrite IH by (try lia; exact Hs).
      destruct (scan f s) as [[ct k]|]; [|reflexivity]. rewrite <- app_assoc, app_length. cbn [app List.length]. do 2 f_equal. lia.
Qed.
End Loop.

Lemma scan_spec : forall d, sesc d <> sdel d -> forall n s ct k, List.length s < n ->
  (scan d n s = Some (ct, k) <-> exists body rest, s = body ++ sdel d :: rest /\ unescaped (sesc d) (sdel d) body ct /\ k = List.length body).
Proof.
  intros d Hd. induction n as [|n IH]; intros s ct k Hn; [lia|]. destruct s as [|c s]; cbn [scan].
  { split; [discriminate|]. intros (b & r & E & _). destruct b; discriminate E. }
  cbn [List.length] in Hn. destruct (N.eqb_spec c (sesc d)) as [->|E1].
  - destruct s as [|e s].
    + split; [discriminate|]. intros (b & r & E & Hu & _). destruct Hu as [|e b s Hu|x b s N1 N2 Hu]; cbn in E; injection E; intros; subst; try congruence.
    + cbn [List.length] in Hn. split.
      * intros H. destruct (scan d n s) as [[ct' k']|] eqn:Es; [|discriminate H]. injection H as <- <-.
        destruct (proj1 (IH s ct' k' ltac:(lia)) Es) as (b & r & -> & Hu & ->). exists (sesc d :: e :: b), r. split; [reflexivity|]. split; [constructor; exact Hu|reflexivity].
      * intros (b & r & E & Hu & ->). destruct Hu as [|e' b s' Hu|x b s' N1 N2 Hu]; cbn in E.
        -- injection E as E _. congruence.
        -- injection E as <- E. rewrite (proj2 (IH s s' (List.length b) ltac:(lia))); [reflexivity|]. exists b, r. auto.
        -- injection E as E _. congruence.
  - destruct (N.eqb_spec c (sdel d)) as [->|E2].
    + split.
      * intros H. injection H as <- <-. exists [], s. split; [reflexivity|]. split; [constructor|reflexivity].
      * intros (b & r & E & Hu & ->). destruct Hu as [|e' b s' Hu|x b s' N1 N2 Hu]; cbn in E; [reflexivity| |]; injection E as E _; congruence.
    + split.
      * intros H. destruct (scan d n s) as [[ct' k']|] eqn:Es; [|discriminate H]. injection H as <- <-.
        destruct (proj1 (IH s ct' k' ltac:(lia)) Es) as (b & r & -> & Hu & ->). exists (c :: b), r. split; [reflexivity|]. split; [constructor; assumption|reflexivity].
      * intros (b & r & E & Hu & ->). destruct Hu as [|e' b s' Hu|x b s' N1 N2 Hu]; cbn in E; injection E; intros; subst; try congruence.
        rewrite (proj2 (IH (b ++ sdel d :: r) s' (List.length b) ltac:(lia))); [reflexivity|]. exists b, r. auto.
Qed.

Lemma up_to_newline_spec : forall s l, up_to_newline s = Some l <-> exists r, s = l ++ 10%N :: r /\ ~ In 10%N l.
Proof.
  induction s as [|c s IH]; intros l; cbn [up_to_newline].
  - split; [discriminate|]. intros (r & E & _). destruct l; discriminate E.
  - destruct (N.eqb_spec c 10) as [->|Hc].
    + split.
      * intros H. injection H as <-. exists s. auto.
      * intros (r & E & Hn). destruct l as [|x l]; [reflexivity|]. cbn in E. injection E as <- _. exfalso. apply Hn. cbn. auto.
    + split.
      * intros H. destruct (up_to_newline s) as [l'|] eqn:E; [|discriminate H]. injection H as <-. destruct (proj1 (IH l') eq_refl) as (r & -> & Hn).
        exists r. split; [reflexivity|]. intros [F|F]; [congruence|auto].
      * intros (r & E & Hn). destruct l as [|x l]; cbn in E; injection E; intros; subst; [congruence|].
        rewrite (proj2 (IH l)); [reflexivity|]. exists r. split; [reflexivity|]. intros F. apply Hn. cbn. auto.
Qed.

(** ** C31: literals *)
Definition delims_ok (d : delims) : Prop := In (sdel d) LEX_SDELIM /\ sesc d <> sdel d.

(** A literal is read exactly if a delimiter follows on the same line that is not escaped; the result is the content with
    escape characters resolved, and the lexer goes on behind the literal. Memory accesses stay in bounds. *)
Theorem C31_literals : forall d text, delims_ok d -> ~ In 0%N text ->
  exists l, lex_string d text = Ok l /\
  (forall content rest, l = STRING content rest <->
     exists body, text = sdel d :: body ++ sdel d :: rest /\ ~ In 10%N body /\ In 10%N rest /\ unescaped (sesc d) (sdel d) body content) /\
  (l = Reject <-> ~ In 10%N text \/ (forall r, text <> sdel d :: r)) /\
  (forall rest, l = YUNREC rest -> exists body, text = sdel d :: body ++ rest /\ (exists r, rest = 10%N :: r) /\ ~ In 10%N body).
Proof.
  intros d text (Hd & Hne) H0.
  assert (D10 : sdel d <> 10%N). { intros F. rewrite F in Hd. cbn in Hd. intuition discriminate. }
  destruct text as [|c s].
  { exists Reject. split; [reflexivity|]. split.
    - intros ct r. split; [discriminate|]. intros (b & E & _). discriminate E.
    - split; [|discriminate]. split; [intros _; left; cbn; auto|reflexivity]. }
  unfold lex_string. destruct (N.eq_dec c (sdel d)) as [->|Hc].
  2:{ exists Reject. split.
      - destruct (negb _); [reflexivity|]. destruct (up_to_newline (c :: s)); [|reflexivity]. apply N.eqb_neq in Hc. rewrite Hc. reflexivity.
      - split; [|split; [|discriminate]].
        + intros ct r. split; [discriminate|]. intros (b & E & _). injection E as E _. congruence.
        + split; [|reflexivity]. intros _. right. intros r E. injection E as E _. congruence. }
  assert (Ex : existsb (N.eqb (sdel d)) LEX_SDELIM = true). { apply existsb_exists. exists (sdel d). split; [exact Hd|apply N.eqb_refl]. }
  rewrite Ex. cbn [negb]. destruct (up_to_newline (sdel d :: s)) as [yy|] eqn:Ey.
  2:{ exists Reject. split; [reflexivity|].
      assert (Hn : ~ In 10%N (sdel d :: s)).
      { intros F. apply in_split in F as (a & b & E).
        assert (X : exists a' b', sdel d :: s = a' ++ 10%N :: b' /\ ~ In 10%N a').
        { clear - E. rewrite E. clear E. induction a as [|x a IH]; [exists [], b; auto|]. destruct (N.eq_dec x 10) as [->|Hx]; [exists [], (a ++ 10%N :: b); auto|].
          destruct IH as (a' & b' & E & Hn). exists (x :: a'), b'. cbn. rewrite E. split; [reflexivity|]. intros [F|F]; [congruence|auto]. }
        destruct X as (a' & b' & E' & Hn). rewrite (proj2 (up_to_newline_spec _ a')) in Ey; [discriminate Ey|eauto]. }
      split; [|split; [|discriminate]].
      - intros ct r. split; [discriminate|]. intros (b & E & _ & Hi & _). exfalso. apply Hn. injection E as E. rewrite E. cbn. right. apply in_or_app. cbn. auto.
      - split; [intros _; left; exact Hn|reflexivity]. }
  rewrite N.eqb_refl. cbn [negb]. apply up_to_newline_spec in Ey as (tailr & Et & Hn).
  destruct yy as [|c0 str]; [cbn in Et; injection Et as E _; congruence|]. cbn in Et. injection Et as Ec Es. subst c0. cbn [tl].
  assert (H0s : ~ In 0%N str). { intros F. apply H0. cbn. right. rewrite Es. apply in_or_app. auto. }
  rewrite (string_loop_ok d (S (List.length str)) str [] [] 0 ltac:(lia) H0s). cbn [bind app List.length].
  destruct (scan d (S (List.length str)) str) as [[ct k]|] eqn:Esc.
  - pose proof (proj1 (scan_spec d Hne (S (List.length str)) str ct k ltac:(lia)) Esc) as (body & rs & Eb & Hu & ->).
    destruct (Nat.ltb_spec (S (List.length str)) (0 + 2 + 0 + List.length body)) as [F|_].
    { rewrite Eb, app_length in F. cbn [List.length] in F. lia. }
    assert (Esk : skipn (0 + 2 + 0 + List.length body) (sdel d :: s) = rs ++ 10%N :: tailr).
    { rewrite Es, Eb, <- app_assoc. cbn [app]. replace (0 + 2 + 0 + List.length body) with (S (S (List.length body))) by lia. rewrite !skipn_cons.
      replace (S (List.length body)) with (List.length (body ++ [sdel d])) by (rewrite app_length; cbn; lia).
      change (body ++ sdel d :: rs ++ 10%N :: tailr) with (body ++ [sdel d] ++ rs ++ 10%N :: tailr). rewrite app_assoc, skipn_app, skipn_all, Nat.sub_diag. reflexivity. }
    rewrite Esk. eexists. split; [reflexivity|]. split; [|split].
    + intros ct' rest. split.
      * intros X. injection X as <- <-. exists body. split; [rewrite Es, Eb, <- app_assoc; reflexivity|].
        split; [intros F; apply Hn; cbn; right; rewrite Eb; apply in_or_app; auto|]. split; [apply in_or_app; cbn; auto|exact Hu].
      * intros (body' & E & Hb & Hi & Hu'). injection E as E.
        (* the rest of the line ends at the same line feed *)
        assert (X : exists rs', rest = rs' ++ 10%N :: tailr /\ str = body' ++ sdel d :: rs').
        { rewrite Es in E. clear - E Hb Hn D10. assert (Hn' : ~ In 10%N str) by (intros F; apply Hn; cbn; auto). clear Hn. revert body' Hb E.
          induction str as [|x str IH]; intros body' Hb E.
          - exfalso. destruct body' as [|y body']; cbn in E; injection E as E1 E2; [congruence|]. apply Hb. cbn. auto.
          - destruct body' as [|y body']; cbn in E; injection E as E1 E2.
            + exists str. subst. auto.
            + destruct (IH ltac:(intros F; apply Hn'; cbn; auto) body' ltac:(intros F; apply Hb; cbn; auto) E2) as (rs' & -> & ->). exists rs'. subst. auto. }
        destruct X as (rs' & -> & Estr).
        assert (Y : scan d (S (List.length str)) str = Some (ct', List.length body')) by (apply (scan_spec d Hne); [lia|eauto]).
        rewrite Esc in Y. injection Y as <- Yl. f_equal. rewrite Eb in Estr. clear - Yl Estr.
        assert (Z : rs = rs').
        { revert body' Yl Estr. induction body as [|x body IH]; intros [|y body'] Yl Estr; cbn in Yl; try lia.
          - cbn in Estr. injection Estr as ->. reflexivity.
          - cbn in Estr. injection Estr as _ Estr. apply (IH body'); [lia|exact Estr]. }
        rewrite Z. reflexivity.
    + split; [discriminate|]. intros [F|F]; [exfalso; apply F; cbn; right; rewrite Es; apply in_or_app; cbn; auto|]. exfalso. apply (F s). reflexivity.
    + discriminate.
  - eexists. split; [reflexivity|].
    assert (Esk : skipn (S (List.length str)) (sdel d :: s) = 10%N :: tailr).
    { cbn [skipn]. rewrite Es, skipn_app, skipn_all2, Nat.sub_diag by lia. reflexivity. }
    rewrite Esk. split; [|split].
    + intros ct' rest. split; [discriminate|]. intros (body' & E & Hb & Hi & Hu'). exfalso. injection E as E.
      assert (X : exists rs', str = body' ++ sdel d :: rs').
      { rewrite Es in E. clear - E Hb Hn D10. assert (Hn' : ~ In 10%N str) by (intros F; apply Hn; cbn; auto). clear Hn. revert body' Hb E.
        induction str as [|x str IH]; intros body' Hb E.
        - exfalso. destruct body' as [|y body']; cbn in E; injection E as E1 E2; [congruence|]. apply Hb. cbn. auto.
        - destruct body' as [|y body']; cbn in E; injection E as E1 E2.
          + exists str. subst. auto.
          + destruct (IH ltac:(intros F; apply Hn'; cbn; auto) body' ltac:(intros F; apply Hb; cbn; auto) E2) as (rs' & ->). exists rs'. subst. auto. }
      destruct X as (rs' & Estr).
      assert (Y : scan d (S (List.length str)) str = Some (ct', List.length body')) by (apply (scan_spec d Hne); [lia|eauto]). congruence.
    + split; [discriminate|]. intros [F|F]; [exfalso; apply F; cbn; right; rewrite Es; apply in_or_app; cbn; auto|]. exfalso. apply (F s). reflexivity.
    + intros rest X. injection X as <-. exists str. split; [rewrite Es; reflexivity|]. split; [eauto|]. intros F. apply Hn. cbn. auto.
Qed.
Print Assumptions C31_literals.
Example C31_literals_example : delims_ok default_delims /\
  lex_string default_delims (txt """a\""b\\c"", ""d"""%string ++ [10]%N) = Ok (STRING (txt "a""b\c"%string) (txt ", ""d"""%string ++ [10]%N)) /\
  lex_string default_delims (txt """a\"""%string ++ [10]%N) = Ok (YUNREC [10]%N) /\
  lex_string default_delims (txt """a"""%string) = Ok Reject.
Proof. split; [split; [cbn; auto|discriminate]|]. vm_compute. repeat split. Qed.

(** delimiters that can be set *)
Theorem C31_delimiters : forall e d, change_string_delimiters e = Some d -> delims_ok d /\ e = [sesc d; sdel d].
Proof.
  intros [|a [|b [|c e]]] d H; try discriminate H. unfold change_string_delimiters in H.
  destruct (N.eqb_spec a b) as [|Hab]; [discriminate H|]. destruct (existsb (N.eqb b) LEX_SDELIM) eqn:E; [|discriminate H].
  injection H as <-. apply existsb_exists in E as (x & Hx & E). apply N.eqb_eq in E. subst x. split; [split; assumption|reflexivity].
Qed.
Print Assumptions C31_delimiters.
Example C31_delimiters_example : change_string_delimiters (txt "$!"%string) = Some (mkDelims 33 36) /\ change_string_delimiters (txt "!$"%string) = None.
Proof. vm_compute. auto. Qed.

Lemma unescaped_quote : forall esc del s, unescaped esc del (flat_map (quote_char esc del) s) s.
Proof.
  intros esc del s. induction s as [|c s IH]; [constructor|]. cbn [flat_map]. unfold quote_char at 1.
  destruct (N.eqb_spec c esc) as [->|H1]; cbn [orb app]; [constructor; exact IH|].
  destruct (N.eqb_spec c del) as [->|H2]; cbn [app]; constructor; assumption.
Qed.

(** every text of one line can be written as a literal *)
Theorem C31_every_text : forall d s rest, delims_ok d -> sesc d <> 0%N -> sesc d <> 10%N -> ~ In 0%N s -> ~ In 10%N s -> ~ In 0%N rest -> In 10%N rest ->
  lex_string d (quoted (sesc d) (sdel d) s ++ rest) = Ok (STRING s rest).
Proof.
  intros d s rest Hd E0 E10 H0 H10 R0 R10.
  assert (D : sdel d <> 0%N /\ sdel d <> 10%N) by (destruct Hd as [Hd _]; split; intros F; rewrite F in Hd; cbn in Hd; intuition discriminate).
  assert (X : forall x, In x (flat_map (quote_char (sesc d) (sdel d)) s) -> In x s \/ x = sesc d).
  { intros x Hx. apply in_flat_map in Hx as (c & Hc & Hx). unfold quote_char in Hx. destruct (_ || _); cbn in Hx; intuition congruence. }
  assert (N0 : ~ In 0%N (quoted (sesc d) (sdel d) s ++ rest)).
  { unfold quoted. intros F. apply in_app_or in F as [F|F]; [|auto]. cbn in F. destruct F as [F|F]; [destruct D; congruence|].
    apply in_app_or in F as [F|F]; [destruct (X _ F); [auto|congruence]|]. cbn in F. destruct F as [F|[]]. destruct D; congruence. }
  destruct (C31_literals d _ Hd N0) as (l & E & H & _). rewrite E. f_equal. apply H.
  exists (flat_map (quote_char (sesc d) (sdel d)) s). split; [unfold quoted; cbn [app]; rewrite <- app_assoc; reflexivity|].
  split; [intros F; destruct (X _ F); [auto|congruence]|]. split; [exact R10|apply unescaped_quote].
Qed.
Print Assumptions C31_every_text.
Example C31_every_text_example : lex_string (mkDelims 33 36) (quoted 36 33 (txt "!a$""\"%string) ++ [10]%N) = Ok (STRING (txt "!a$""\"%string) [10]%N).
Proof. vm_compute. reflexivity. Qed.

(** ** C31: the listing *)
Lemma nth_seq_all : forall (l : list (list N)), l = map (fun i => nth i l []) (seq 0 (List.length l)).
Proof.
  assert (X : forall (l : list (list N)) p, l = map (fun i => nth i (p ++ l) []) (seq (List.length p) (List.length l))).
  { induction l as [|x l IH]; intros p; [reflexivity|]. cbn [List.length seq map]. f_equal.
    - rewrite app_nth2, Nat.sub_diag by lia. reflexivity.
    - specialize (IH (p ++ [x])). rewrite app_length in IH. cbn [List.length] in IH. rewrite Nat.add_comm in IH. cbn [Nat.add] in IH.
      rewrite <- app_assoc in IH. exact IH. }
  intros l. exact (X l []).
Qed.
Lemma scan_visible : forall l x off idx, StronglySorted lt l -> Forall (fun p => off <= p) l ->
  visible_scan (l ++ x) (List.length l) (S idx - off) idx = Ok (existsb (fun p => p =? idx) l).
Proof.
  induction l as [|p l IH]; intros x off idx Hs Hf; [destruct x; reflexivity|]. inversion Hf as [|? ? Hp Hf']; subst. inversion Hs as [|? ? Hs' Hp']; subst.
  cbn [List.length app existsb]. destruct (S idx - off) as [|k] eqn:E.
  - cbn [visible_scan]. f_equal. symmetry. apply orb_false_iff. split; [apply Nat.eqb_neq; lia|].
    apply not_true_iff_false. intros F. apply existsb_exists in F as (y & Hy & F). apply Nat.eqb_eq in F. rewrite Forall_forall in Hf'. specialize (Hf' y Hy). lia.
  - cbn [visible_scan]. destruct (Nat.eqb_spec p idx) as [|Hn]; [reflexivity|]. cbn [orb]. destruct (Nat.ltb_spec idx p) as [L|L].
    + f_equal. symmetry. apply not_true_iff_false. intros F. apply existsb_exists in F as (y & Hy & F). apply Nat.eqb_eq in F.
      rewrite Forall_forall in Hp'. specialize (Hp' y Hy). lia.
    + replace k with (S idx - S off) by lia. apply IH; [exact Hs'|]. apply Forall_forall. intros y Hy. rewrite Forall_forall in Hp'. specialize (Hp' y Hy). lia.
Qed.

Lemma vis_pos_ge : forall ts o p, In p (vis_pos o ts) -> o <= p < o + List.length (render ts).
Proof.
  induction ts as [|t ts IH]; intros o p H; [contradiction|]. unfold render in *. cbn [flat_map]. rewrite app_length.
  destruct t; cbn [vis_pos tok_chars List.length] in *.
  - destruct H as [->|H]; [lia|]. apply IH in H. lia.
  - apply IH in H. lia.
  - apply IH in H. lia.
  - apply IH in H. lia.
Qed.
Lemma vis_pos_strict : forall ts o, StronglySorted lt (vis_pos o ts).
Proof.
  induction ts as [|t ts IH]; intros o; [constructor|]. destruct t; cbn [vis_pos]; try apply IH.
  constructor; [apply IH|]. apply Forall_forall. intros p Hp. apply vis_pos_ge in Hp. lia.
Qed.

Definition esc_tok (t : tok) : list tok := match t with Vis c => map Vis (quote_char 92 34 c) | _ => [t] end.
Definition parts_of (t : tok) : list (list N) := match t with Vis c => [quote_char 92 34 c] | _ => map (fun c => [c]) (tok_chars t) end.

Lemma parts_len : forall t, List.length (parts_of t) = List.length (tok_chars t).
Proof. intros []; cbn [parts_of tok_chars]; rewrite ?map_length; reflexivity. Qed.
Lemma all_parts_len : forall ts, List.length (flat_map parts_of ts) = List.length (render ts).
Proof. induction ts as [|t ts IH]; [reflexivity|]. unfold render in *. cbn [flat_map]. rewrite !app_length, IH, parts_len. reflexivity. Qed.
Lemma parts_concat : forall ts, concat (flat_map parts_of ts) = render (flat_map esc_tok ts).
Proof.
  induction ts as [|t ts IH]; [reflexivity|]. cbn [flat_map]. unfold render in *. rewrite concat_app, flat_map_app, IH. f_equal.
  assert (X : forall l, concat (map (fun c : N => [c]) l) = l) by (induction l; cbn; congruence).
  destruct t; cbn [parts_of esc_tok flat_map].
  - rewrite flat_map_concat_map, map_map. cbn [tok_chars concat]. rewrite X, app_nil_r. reflexivity.
  - rewrite X, app_nil_r. reflexivity.
  - rewrite X, app_nil_r. reflexivity.
  - rewrite X, app_nil_r. reflexivity.
Qed.

Lemma tok_at : forall ts i, i < List.length (render ts) -> exists a t b j, ts = a ++ t :: b /\ i = List.length (render a) + j /\ j < List.length (tok_chars t).
Proof.
  induction ts as [|t ts IH]; intros i H; [cbn in H; lia|]. unfold render in *. cbn [flat_map] in H. rewrite app_length in H.
  destruct (Nat.lt_ge_cases i (List.length (tok_chars t))) as [L|L].
  - exists [], t, ts, i. auto.
  - destruct (IH (i - List.length (tok_chars t)) ltac:(lia)) as (a & t' & b & j & E & Ei & Hj). exists (t :: a), t', b, j. rewrite E. cbn [app flat_map].
    rewrite app_length. split; [reflexivity|]. split; [lia|exact Hj].
Qed.

Lemma seen_at : forall U a t b j, j < List.length (tok_chars t) ->
  bxs_is_visible_char (bx U (a ++ t :: b)) (List.length (render a) + j) = Ok (match t with Vis _ => true | _ => false end).
Proof.
  intros U a t b j Hj. unfold bxs_is_visible_char. cbn [bx visible_char num_chars_visible]. rewrite <- (vis_pos_length (a ++ t :: b) 0).
  change (S (List.length (render a) + j)) with (S (List.length (render a) + j) - 0). rewrite scan_visible; [|apply vis_pos_strict|apply Forall_forall; intros; lia].
  f_equal. rewrite vis_pos_app, existsb_app. cbn [Nat.add].
  assert (X : existsb (fun p => p =? List.length (render a) + j) (vis_pos 0 a) = false).
  { apply not_true_iff_false. intros F. apply existsb_exists in F as (y & Hy & F). apply Nat.eqb_eq in F. apply vis_pos_ge in Hy. lia. }
  rewrite X. cbn [orb].
  assert (Y : forall o, List.length (render a) + j < o -> existsb (fun p => p =? List.length (render a) + j) (vis_pos o b) = false).
  { intros o Ho. apply not_true_iff_false. intros F. apply existsb_exists in F as (y & Hy & F). apply Nat.eqb_eq in F. apply vis_pos_ge in Hy. lia. }
  destruct t as [c|e|e|k]; cbn [vis_pos tok_chars List.length existsb] in *; [|apply Y; lia..].
  assert (j = 0) by lia. subst j. rewrite Nat.add_0_r, Nat.eqb_refl. reflexivity.
Qed.

Lemma escape_ok : forall U ts, escape U (bx U ts) = bxs_from_unicode U (render (flat_map esc_tok ts)).
Proof.
  intros U ts. unfold escape. rewrite (mapM_pure _ _ _ (fun i => nth i (flat_map parts_of ts) [])).
  - cbn [bind]. f_equal. rewrite <- parts_concat. f_equal. cbn [bx num_chars]. rewrite <- all_parts_len.
    symmetry. apply nth_seq_all.
  - intros i Hi. apply in_seq in Hi. cbn [bx num_chars] in Hi. destruct (tok_at ts i ltac:(lia)) as (a & t & b & j & E & Ei & Hj).
    cbn [bx memory]. assert (Ec : rd (render ts) i = Ok (nth j (tok_chars t) 0%N)).
    { unfold rd. rewrite E, Ei. unfold render. rewrite flat_map_app. cbn [flat_map]. rewrite nth_error_app2 by lia.
      replace (_ + j - _) with j by lia. rewrite nth_error_app1 by exact Hj. rewrite (nth_error_nth' _ 0%N) by exact Hj. reflexivity. }
    assert (Ep : nth i (flat_map parts_of ts) [] = nth j (parts_of t) []).
    { rewrite E, Ei, flat_map_app. cbn [flat_map]. rewrite app_nth2 by (rewrite all_parts_len; lia). rewrite all_parts_len.
      replace (_ + j - _) with j by lia. apply app_nth1. rewrite parts_len. exact Hj. }
    rewrite Ec, Ep. cbn [bind]. rewrite E, Ei, (seen_at U a t b j Hj). destruct t as [c|e|e|k]; cbn [tok_chars parts_of] in *.
    + cbn [List.length] in Hj. assert (j = 0) by lia. subst j. cbn [nth]. unfold quote_char. destruct (_ || _); reflexivity.
    + replace (nth j (map (fun c => [c]) e) []) with [nth j e 0%N]; [destruct (_ || _); reflexivity|]. rewrite (nth_indep _ [] [0%N]) by (rewrite map_length; exact Hj).
      symmetry. apply (map_nth (fun c : N => [c])).
    + replace (nth j (map (fun c => [c]) e) []) with [nth j e 0%N]; [destruct (_ || _); reflexivity|]. rewrite (nth_indep _ [] [0%N]) by (rewrite map_length; exact Hj).
      symmetry. apply (map_nth (fun c : N => [c])).
    + replace (nth j (map (fun c => [c]) [27%N; k]) []) with [nth j [27%N; k] 0%N]; [destruct (_ || _); reflexivity|].
      rewrite (nth_indep _ [] [0%N]) by (rewrite map_length; exact Hj). symmetry. apply (map_nth (fun c : N => [c])).
Qed.

(** no quote or backslash inside an escape sequence *)
Definition no_quote_inside (t : tok) : Prop := match t with Vis _ => True | _ => ~ In 34%N (tok_chars t) /\ ~ In 92%N (tok_chars t) end.

Lemma esc_toks_ok : forall ts, toks_ok ts -> toks_ok (flat_map esc_tok ts).
Proof.
  induction ts as [|t ts IH]; intros H; [exact I|]. destruct H as (H1 & H2 & H3). specialize (IH H3). cbn [flat_map].
  destruct t as [c|e|e|k]; cbn [esc_tok].
  - unfold quote_char. destruct (_ || _); cbn; [|repeat split; try discriminate; assumption]. repeat split; try discriminate; assumption.
  - cbn [app toks_ok]. repeat split; try discriminate; assumption.
  - cbn [app toks_ok]. rewrite (H2 eq_refl). repeat split; assumption.
  - cbn [app toks_ok]. repeat split; try discriminate; try assumption; apply H1.
Qed.
Lemma esc_visible : forall ts, visible (flat_map esc_tok ts) = flat_map (quote_char 92 34) (visible ts).
Proof.
  induction ts as [|t ts IH]; [reflexivity|]. cbn [flat_map]. unfold visible in *. rewrite flat_map_app, IH. cbn [flat_map].
  destruct t as [c|e|e|k]; cbn [esc_tok flat_map app]; try reflexivity. f_equal. unfold quote_char. destruct (_ || _); reflexivity.
Qed.
Lemma esc_render : forall ts, Forall no_quote_inside ts -> unescaped 92 34 (render (flat_map esc_tok ts)) (render ts).
Proof.
  assert (A : forall b1 s1 b2 s2, unescaped 92 34 b1 s1 -> unescaped 92 34 b2 s2 -> unescaped 92 34 (b1 ++ b2) (s1 ++ s2)).
  { intros b1 s1 b2 s2 H1 H2. induction H1; cbn; [exact H2|constructor|constructor]; assumption. }
  induction ts as [|t ts IH]; intros H; [constructor|]. inversion H as [|? ? Ht Hts]; subst. cbn [flat_map]. unfold render in *. rewrite flat_map_app. cbn [flat_map].
  apply A; [|apply IH; exact Hts].
  assert (P : forall l, ~ In 34%N l -> ~ In 92%N l -> unescaped 92 34 l l).
  { induction l as [|c l IHl]; intros Q1 Q2; [constructor|]. apply un_chr; [intros ->; apply Q2; cbn; auto|intros ->; apply Q1; cbn; auto|].
    apply IHl; [intros F; apply Q1; cbn; auto|intros F; apply Q2; cbn; auto]. }
  destruct t as [c|e|e|k]; cbn [esc_tok flat_map no_quote_inside] in *; rewrite ?app_nil_r; try (apply P; apply Ht).
  pose proof (unescaped_quote 92 34 [c]) as X. cbn [flat_map] in X. rewrite app_nil_r in X. cbn [tok_chars].
  replace (flat_map tok_chars (map Vis (quote_char 92 34 c))) with (quote_char 92 34 c); [exact X|].
  unfold quote_char. destruct (_ || _); reflexivity.
Qed.

(** A listed line read back by the lexer is the original line (without colours: its visible characters). *)
Theorem C31_listing : forall U s ts b color rest, uctab_ok U -> reads s ts -> known ts -> tabless ts -> bxs_from_unicode U s = Ok b ->
  ~ In 0%N s -> ~ In 10%N s -> ~ In 0%N rest -> In 10%N rest -> (color = true -> Forall no_quote_inside ts) ->
  exists out, listed_line U color b = Ok out /\ lex_string default_delims (out ++ rest) = Ok (STRING (if color then s else visible ts) rest).
Proof.
  intros U s ts b color rest HU [Hok Es] Hk Ht Hb H0 H10 R0 R10 Hq. subst s.
  destruct (from_unicode_clean_inv U ts b (conj Hok Hk) Hb) as (-> & Ha & _).
  set (es := flat_map esc_tok ts).
  assert (Eok : toks_ok es) by (apply esc_toks_ok; exact Hok).
  assert (Ek : known es).
  { unfold known, es in *. apply Forall_forall. intros t Hin. apply in_flat_map in Hin as (x & Hx & Hin). rewrite Forall_forall in Hk. specialize (Hk x Hx).
    destruct x; cbn [esc_tok] in Hin; try (destruct Hin as [<-|[]]; exact Hk). apply in_map_iff in Hin as (y & <- & _). reflexivity. }
  assert (Q : forall x, In x (flat_map (quote_char 92 34) (visible ts)) -> x = 92%N \/ In x (visible ts)).
  { intros x Hx. apply in_flat_map in Hx as (c & Hc & Hx). unfold quote_char in Hx. destruct (_ || _); cbn in Hx; intuition congruence. }
  assert (P92 : is_ascii_printable 92 = true) by reflexivity.
  assert (Et : tabless es). { unfold tabless, es. rewrite esc_visible. intros F. destruct (Q _ F) as [F'|F']; [discriminate F'|exact (Ht F')]. }
  assert (Ea : allowed U es).
  { unfold allowed, es. rewrite esc_visible. apply Forall_forall. intros x Hx. destruct (Q _ Hx) as [->|Hv].
    - unfold is_allowed_anywhere. rewrite (ok_cntrl U HU 92%N P92). reflexivity.
    - unfold allowed in Ha. rewrite Forall_forall in Ha. auto. }
  destruct (from_unicode_all_ok U HU es Eok Et (proj1 (tok_allowed_iff U es) Ea)) as (eb & Eb).
  destruct (C16_colour_stripping U (render es) es eb (conj Eok eq_refl) Ek Eb) as (Of & _ & Ot).
  unfold listed_line. rewrite escape_ok. fold es. rewrite Eb.
  assert (Z : exists body, bxs_to_output color eb = Ok body /\ unescaped 92 34 body (if color then render ts else visible ts) /\
     (forall x, In x body -> x = 92%N \/ In x (render ts))).
  { assert (Qr : forall x, In x (render es) -> x = 92%N \/ In x (render ts)).
    { intros x Hx. unfold es, render in Hx. apply in_flat_map in Hx as (t & Hin & Hx). apply in_flat_map in Hin as (y & Hy & Hin).
      assert (Y : In x (tok_chars y) \/ x = 92%N).
      { destruct y; cbn [esc_tok] in Hin; try (destruct Hin as [<-|[]]; left; exact Hx). apply in_map_iff in Hin as (z & <- & Hz). cbn in Hx. destruct Hx as [<-|[]].
        unfold quote_char in Hz. destruct (_ || _); cbn in Hz; cbn; intuition congruence. }
      destruct Y as [Y|Y]; [right|left; exact Y]. unfold render. apply in_flat_map. eauto. }
    assert (Vr : forall x, In x (visible ts) -> In x (render ts)).
    { intros x Hx. unfold visible in Hx. apply in_flat_map in Hx as (t & Hin & Hx). unfold render. apply in_flat_map. exists t. split; [exact Hin|].
      destruct t; cbn in Hx; try contradiction. cbn. exact Hx. }
    destruct color.
    - exists (render es). split; [exact Ot|]. split; [apply esc_render; auto|exact Qr].
    - exists (visible es). split; [exact Of|]. unfold es. rewrite esc_visible. split; [apply unescaped_quote|]. intros x Hx. destruct (Q x Hx); auto. }
  destruct Z as (body & -> & Hu & Hb'). cbn [bind]. eexists. split; [reflexivity|].
  assert (N0 : ~ In 0%N (([34] ++ body ++ [34]) ++ rest)%N).
  { intros F. apply in_app_or in F as [F|F]; [|auto]. cbn in F. destruct F as [F|F]; [discriminate F|]. apply in_app_or in F as [F|F].
    - destruct (Hb' _ F) as [X|X]; [discriminate X|auto].
    - cbn in F. destruct F as [F|[]]. discriminate F. }
  destruct (C31_literals default_delims _ ltac:(split; [cbn; auto|discriminate]) N0) as (l & E & H & _). rewrite E. f_equal. apply H.
  exists body. split; [cbn [app sdel default_delims]; rewrite <- app_assoc; reflexivity|]. split; [|split; [exact R10|exact Hu]].
  intros F. destruct (Hb' _ F) as [X|X]; [discriminate X|auto].
Qed.
Print Assumptions C31_listing.
Definition listed_row (color : bool) (s : list N) : res literal :=
  b <- bxs_from_unicode demo_tab s ;; l <- listed_line demo_tab color b ;; lex_string default_delims (l ++ [44; 10]%N).
Example C31_listing_example : listed_row true (txt "a""b\ "%string ++ [27; 91; 51; 49; 109]%N ++ txt """"%string) =
    Ok (STRING (txt "a""b\ "%string ++ [27; 91; 51; 49; 109]%N ++ txt """"%string) [44; 10]%N) /\
  Forall no_quote_inside [Vis 97; Vis 34; Vis 98; Vis 92; Vis 32; Esc [27; 91; 51; 49; 109]; Vis 34]%N.
Proof. split; [vm_compute; reflexivity|]. repeat constructor; cbn; intuition discriminate. Qed.

(** Without the condition on escape sequences the text read back can be another one, or not be a string at all: the
    sequence ESC \ is listed as it is. *)
Theorem C31_quote_in_sequence_refuted : exists U s1 s2 b1 b2 o1 o2 t1, uctab_ok U /\
  shows U 3 s1 /\ bxs_from_unicode U s1 = Ok b1 /\ listed_line U true b1 = Ok o1 /\ lex_string default_delims (o1 ++ [10]%N) = Ok (STRING t1 [10]%N) /\ t1 <> s1 /\
  shows U 1 s2 /\ bxs_from_unicode U s2 = Ok b2 /\ listed_line U true b2 = Ok o2 /\ lex_string default_delims (o2 ++ [10]%N) = Ok (YUNREC [10]%N).
Proof.
  set (s1 := (txt "a"%string ++ [27; 92]%N ++ txt "bc"%string)). set (s2 := (txt "a"%string ++ [27; 92]%N)).
  set (t1 := (txt "a"%string ++ [27]%N ++ txt "bc"%string)).
  assert (K1 : shows demo_tab 3 s1).
  { exists [Vis 97; Esc [27; 92]; Vis 98; Vis 99]%N. repeat split; try discriminate; try (repeat constructor; fail).
    - cbn. left. exists 92%N. repeat split; discriminate.
    - unfold tabless. cbn. intuition discriminate. }
  assert (K2 : shows demo_tab 1 s2).
  { exists [Vis 97; Esc [27; 92]]%N. repeat split; try discriminate; try (repeat constructor; fail).
    - cbn. left. exists 92%N. repeat split; discriminate.
    - unfold tabless. cbn. intuition discriminate. }
  exists demo_tab, s1, s2. do 4 eexists. exists t1. split; [exact demo_tab_ok|]. split; [exact K1|]. split; [vm_compute; reflexivity|]. split; [vm_compute; reflexivity|].
  split; [vm_compute; reflexivity|]. split; [discriminate|]. split; [exact K2|]. split; [vm_compute; reflexivity|]. split; vm_compute; reflexivity.
Qed.
Print Assumptions C31_quote_in_sequence_refuted.
