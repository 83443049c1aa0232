(** * C70: replacing text with regular expressions *)
From Coq Require Import List Arith NArith ZArith Bool Lia.
From Verif Require Import Base Model_Regulex Spec_Regulex.
Import ListNotations.
Local Open Scope nat_scope.

Lemma u32_string_ok : forall t s rest, up_to_nul t s -> u32_string (t ++ 0%N :: rest) = Ok s.
Proof.
  intros t s rest [H [->|(r & ->)]].
  - induction t as [|c t IH]; [reflexivity|]. cbn [app u32_string]. destruct (N.eqb_spec c 0) as [->|_]; [elim H; left; reflexivity|].
    rewrite IH; [reflexivity|]. intros F. apply H. right. exact F.
  - rewrite <- app_assoc. cbn [app]. induction s as [|c s IH]; [reflexivity|]. cbn [app u32_string]. destruct (N.eqb_spec c 0) as [->|_]; [elim H; left; reflexivity|].
    rewrite IH; [reflexivity|]. intros F. apply H. right. exact F.
Qed.
Lemma realloc_size : forall fresh b n b', allocates fresh -> length b <= n -> realloc fresh b n = Some b' -> length b' = n.
Proof.
  intros fresh b n b' A H E. unfold realloc in E. destruct (fresh n) as [j|] eqn:Ej; [|discriminate]. injection E as <-. rewrite app_length, firstn_length, skipn_length, (A n j Ej). lia.
Qed.
Lemma loop_ok : forall sub fresh t fuel o, allocates fresh -> replaces_by sub t -> 2 <= fuel ->
  (replace_loop sub fresh fuel o = Ok None /\ (plenty fresh -> o = None)) \/ exists rc rest, (0 <= rc)%Z /\ replace_loop sub fresh fuel o = Ok (Some (rc, t ++ 0%N :: rest)).
Proof.
  intros sub fresh t fuel o A R Hf. destruct fuel as [|[|fuel]]; try lia. cbn [replace_loop]. destruct o as [b|]; [|left; split; reflexivity].
  assert (K : forall b, length t < length b -> negb (sub_rc (sub b) =? PCRE2_ERROR_NOMEMORY)%Z || (sub_len (sub b) <=? length b) = true /\ (0 <= sub_rc (sub b))%Z /\ exists rest, sub_buf (sub b) = t ++ 0%N :: rest).
  { intros b' Hb. destruct (rb_fits _ _ R b' Hb) as (H1 & _ & H3). split; [|auto]. apply orb_true_iff. left. apply negb_true_iff, Z.eqb_neq. unfold PCRE2_ERROR_NOMEMORY. lia. }
  destruct (Nat.lt_ge_cases (length t) (length b)) as [Hb|Hb].
  - destruct (K b Hb) as (-> & H2 & rest & ->). right. exists (sub_rc (sub b)), rest. auto.
  - destruct (rb_small _ _ R b Hb) as (-> & ->). replace (negb (PCRE2_ERROR_NOMEMORY =? PCRE2_ERROR_NOMEMORY)%Z || (S (length t) <=? length b)) with false; [|symmetry; apply orb_false_iff; split; [reflexivity|apply Nat.leb_gt; lia]].
    destruct (realloc fresh (sub_buf (sub b)) (S (length t))) as [b'|] eqn:E.
    + apply realloc_size in E; [|exact A|rewrite (rb_size _ _ R); lia]. destruct (K b') as (-> & H2 & rest & ->); [lia|]. right. exists (sub_rc (sub b')), rest. auto.
    + left. split; [reflexivity|]. intros P. unfold realloc in E. destruct (fresh (S (length t))) eqn:E2; [discriminate E|]. elim (P _ E2).
Qed.
Lemma replaced_loop : forall sub fresh t s fuel n, allocates fresh -> replaces_by sub t -> up_to_nul t s -> 2 <= fuel ->
  replaced_text sub fresh fuel n = Ok (Some s) \/ (replaced_text sub fresh fuel n = Ok None /\ ~ plenty fresh).
Proof.
  intros sub fresh t s fuel n A R Hs Hf. unfold replaced_text, u32_regex_replace.
  destruct (loop_ok sub fresh t fuel (fresh (if n <? 8 then 16 else n * 2)) A R Hf) as [[E P]|(rc & rest & Hrc & E)]; rewrite E; cbn [bind].
  - right. split; [reflexivity|]. intros Q. exact (Q _ (P Q)).
  - left. assert (L : (rc <? 0)%Z = false) by (apply Z.ltb_ge; lia). rewrite L. cbn [bind]. rewrite (u32_string_ok t s rest Hs). reflexivity.
Qed.
(** Whatever the length of the old and the new text: after at most two attempts the new text has been written completely, with its NUL,
    into a buffer with room for it, and the line becomes this text up to the first NUL. *)
Theorem C70_replaced : forall sub fresh t s fuel input_len, allocates fresh -> plenty fresh -> replaces_by sub t -> up_to_nul t s -> 2 <= fuel ->
  replaced_text sub fresh fuel input_len = Ok (Some s).
Proof. intros sub fresh t s fuel n A P R Hs Hf. destruct (replaced_loop sub fresh t s fuel n A R Hs Hf) as [E|[_ F]]; [exact E|elim (F P)]. Qed.
(** When there is no memory, the program fails or has succeeded before; there is nothing in between. *)
Theorem C70_memory : forall sub fresh t s fuel input_len, allocates fresh -> replaces_by sub t -> up_to_nul t s -> 2 <= fuel ->
  replaced_text sub fresh fuel input_len = Ok (Some s) \/ replaced_text sub fresh fuel input_len = Ok None.
Proof. intros sub fresh t s fuel n A R Hs Hf. destruct (replaced_loop sub fresh t s fuel n A R Hs Hf) as [E|[E _]]; auto. Qed.
(** A replacement that is not valid makes the program fail, after a single attempt. *)
Theorem C70_refused : forall sub fresh fuel input_len, refuses sub -> 1 <= fuel -> replaced_text sub fresh fuel input_len = Ok None.
Proof.
  intros sub fresh fuel n R Hf. unfold replaced_text, u32_regex_replace. destruct fuel as [|fuel]; [lia|]. cbn [replace_loop].
  destruct (fresh (if n <? 8 then 16 else n * 2)) as [b|]; [|reflexivity]. destruct (R b) as [H1 H2]. apply Z.eqb_neq in H2. rewrite H2. cbn [negb orb bind].
  assert (L : (sub_rc (sub b) <? 0)%Z = true) by (apply Z.ltb_lt; exact H1). rewrite L. reflexivity.
Qed.
Print Assumptions C70_replaced.
Print Assumptions C70_memory.
Print Assumptions C70_refused.

(** *** Examples: a function that keeps the promise, with a text of 40 characters for an input of 3 *)
Definition write_over (t b : list N) : list N := t ++ skipn (length t) b.
Definition good_sub (t b : list N) : substituted :=
  if length t <? length b then mkSubst 1 (length t) (write_over (t ++ [0%N]) b) else mkSubst PCRE2_ERROR_NOMEMORY (S (length t)) b.
Definition junk (n : nat) : option (list N) := Some (repeat 7%N n).
Lemma good_sub_ok : forall t, replaces_by (good_sub t) t.
Proof.
  intros t. constructor; intros b; unfold good_sub.
  - destruct (Nat.ltb_spec (length t) (length b)); [|reflexivity]. unfold write_over. cbn [sub_buf]. rewrite app_length, skipn_length, app_length. cbn [length]. lia.
  - intros H. apply Nat.ltb_lt in H. rewrite H. cbn [sub_rc sub_len sub_buf]. split; [lia|]. split; [reflexivity|]. exists (skipn (length (t ++ [0%N])) b). unfold write_over. rewrite <- app_assoc. reflexivity.
  - intros H. apply Nat.ltb_ge in H. rewrite H. split; reflexivity.
Qed.
Lemma junk_ok : allocates junk /\ plenty junk.
Proof. split; [|intros n; discriminate]. intros n b [= <-]. apply repeat_length. Qed.
Example C70_replaced_example : replaces_by (good_sub (repeat 65%N 40)) (repeat 65%N 40) /\ allocates junk /\ plenty junk /\
  replaced_text (good_sub (repeat 65%N 40)) junk 2 3 = Ok (Some (repeat 65%N 40)) /\
  replaced_text (good_sub (repeat 65%N 40)) junk 1 3 = Fuel /\
  replaced_text (good_sub (repeat 65%N 16)) junk 2 7 = Ok (Some (repeat 65%N 16)) /\
  replaced_text (good_sub (repeat 65%N 15)) junk 1 7 = Ok (Some (repeat 65%N 15)) /\
  replaced_text (good_sub [65; 0; 66]%N) junk 2 3 = Ok (Some [65%N]).
Proof. split; [apply good_sub_ok|]. split; [apply junk_ok|]. split; [apply junk_ok|]. repeat split; reflexivity. Qed.
Example C70_refused_example : refuses (fun b => mkSubst (-35) 3 b) /\ replaced_text (fun b => mkSubst (-35) 3 b) junk 1 3 = Ok None.
Proof. split; [intros b; cbn; split; [lia|discriminate]|reflexivity]. Qed.
