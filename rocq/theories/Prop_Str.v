(** * Properties of strings: C14 - C19, C21 *)
From Coq Require Import List Arith NArith ZArith Bool Lia.
From Verif Require Import Base BaseFacts Model_Unicode Model_Bxs Spec_Str
  Proof_Str Proof_Bxs Proof_BxsOps Proof_BxsMore Proof_Shows.
Import ListNotations.

(** Every text has exactly one reading, so quantifying over readings quantifies over all texts. *)
Theorem reading_total_unique : forall s, exists! ts, reads s ts.
Proof.
  intros s. destruct (tokenize_exists s) as (ts & Hok & E). exists ts. split; [split; assumption|].
  intros ts' [Hok' E']. apply reading_unique; congruence.
Qed.

(** The concrete table meets the assumptions made about libunistring. *)
Example demo_tab_ok : uctab_ok demo_tab.
Proof.
  constructor; unfold is_ascii_printable; intros; cbn [demo_tab uc_width uc_is_cntrl uc_is_blank] in *;
    rewrite ?andb_true_iff, ?N.ltb_lt, ?N.leb_le in *; try reflexivity.
  - destruct (N.ltb_spec c 32); [lia|]. destruct (N.leb_spec 127 c); [lia|].
    destruct (N.leb_spec 768 c); [lia|]. destruct (N.leb_spec 12288 c); [lia|].
    destruct (N.leb_spec 127744 c); [lia|]. reflexivity.
  - destruct (N.ltb_spec c 32); [lia|]. destruct (N.leb_spec 127 c); [lia|]. reflexivity.
  - destruct (N.eqb_spec c 9); [lia|]. destruct (N.eqb_spec c 32); [assumption|].
    destruct (N.eqb_spec c 12288); [lia|]. destruct (N.eqb_spec c 8195); [lia|]. discriminate.
Qed.

(** red "Hi", reset, two spaces *)
Definition ex_red : list N := [27;91;51;49;109;72;105;27;91;48;109;32;32]%N.
Definition ex_red_toks : list tok :=
  [Esc [27;91;51;49;109]; Vis 72; Vis 105; Esc [27;91;48;109]; Vis 32; Vis 32]%N.
Ltac csi d ps f := right; exists d, ps, f; split; [reflexivity|split; [left; reflexivity|
    split; [repeat constructor; unfold final; lia|unfold final; lia]]].
Example ex_red_reads : reads ex_red ex_red_toks /\ known ex_red_toks.
Proof.
  split; [split; [|reflexivity]|repeat constructor].
  cbn [toks_ok ex_red_toks tok_ok is_cut]. repeat split; try discriminate.
  - csi 91%N [51;49]%N 109%N.
  - csi 91%N [48]%N 109%N.
Qed.

(** ** C14 *)
Theorem C14_char_accounting : forall U s ts b,
  reads s ts -> known ts -> bxs_from_unicode U s = Ok b ->
  num_chars b = length s /\ num_chars_visible b = length (visible ts) /\
  num_chars_invisible b = invisible_len ts /\
  num_chars_visible b + num_chars_invisible b = num_chars b.
Proof.
  intros U s ts b [Hok <-] Hk H.
  destruct (from_unicode_clean_inv U ts b (conj Hok Hk) H) as (-> & _ & _).
  cbn [bx num_chars num_chars_visible num_chars_invisible]. rewrite render_length. auto.
Qed.
Example C14_example : exists b, bxs_from_unicode demo_tab ex_red = Ok b /\
  num_chars b = 13 /\ num_chars_visible b = 4 /\ num_chars_invisible b = 9.
Proof. eexists. vm_compute. repeat split. Qed.

(** exactly one character per unknown sequence is missing from the accounts *)
Theorem C14_accounting_gap : forall U s ts b,
  reads s ts -> bxs_from_unicode U s = Ok b ->
  num_chars_visible b = length (visible ts) /\
  num_chars_visible b + num_chars_invisible b + length (filter is_odd ts) = num_chars b.
Proof.
  intros U s ts b [Hok <-] H. destruct (accounting U ts b Hok H) as (_ & H1 & H2). auto.
Qed.
Theorem C14_unconditional_refuted : exists U s b, uctab_ok U /\
  bxs_from_unicode U s = Ok b /\ num_chars_visible b + num_chars_invisible b <> num_chars b.
Proof.
  exists demo_tab, [27;55;72]%N. eexists. split; [exact demo_tab_ok|].
  split; [vm_compute; reflexivity|]. vm_compute. discriminate.
Qed.

(** ** C15 *)
Theorem C15_column_width : forall U s ts b, uctab_ok U ->
  reads s ts -> bxs_from_unicode U s = Ok b ->
  num_columns b = columns (term_width U) ts /\ length (ascii b) = num_columns b.
Proof.
  intros U s ts b HU [Hok <-] H. destruct (columns_all U ts b Hok H) as (H1 & H2).
  rewrite H1 in *. rewrite (columns_ext _ _ ts (char_cols_term U HU)) in *. auto.
Qed.
(** "日本" coloured: two characters, four columns *)
Example C15_example : exists b,
  bxs_from_unicode demo_tab [27;91;49;109;26085;26412;27;91;109]%N = Ok b /\ num_columns b = 4.
Proof. eexists. vm_compute. split; reflexivity. Qed.

(** ** C16 *)
Theorem C16_colour_stripping : forall U s ts b,
  reads s ts -> known ts -> bxs_from_unicode U s = Ok b ->
  bxs_to_output false b = Ok (visible ts) /\ ~ In 27%N (visible ts) /\ bxs_to_output true b = Ok s.
Proof.
  intros U s ts b [Hok <-] Hk H.
  destruct (from_unicode_clean_inv U ts b (conj Hok Hk) H) as (-> & _ & _).
  split; [apply filter_visible_bx; split; assumption|]. split; [|reflexivity].
  clear H Hk. induction ts as [|t ts IH]; [intros []|].
  destruct Hok as (Ht & _ & Hok). rewrite visible_cons.
  destruct t; auto. intros [->|Hx]; [cbn in Ht; congruence|]. apply IH; auto.
Qed.
Example C16_example : exists b, bxs_from_unicode demo_tab ex_red = Ok b /\
  bxs_to_output false b = Ok [72;105;32;32]%N.
Proof. eexists. vm_compute. repeat split. Qed.
(** "ESC 7 Hello" is printed as "7Hell": text is lost *)
Theorem C16_unknown_sequences_refuted : exists U s ts b, uctab_ok U /\ reads s ts /\
  bxs_from_unicode U s = Ok b /\ bxs_to_output false b <> Ok (visible ts).
Proof.
  exists demo_tab, [27;55;72;101;108;108;111]%N, (Odd 55 :: map Vis [72;101;108;108;111])%N.
  eexists. split; [exact demo_tab_ok|]. split.
  - split; [|reflexivity]. cbn. unfold opener. repeat split; try discriminate; lia.
  - split; [vm_compute; reflexivity|]. vm_compute. discriminate.
Qed.

(** ** C17 *)
Theorem C17_visible_index : forall U s ts b,
  reads s ts -> known ts -> bxs_from_unicode U s = Ok b ->
  length (visible_char b) = S (length (visible ts)) /\
  (forall i, i < length (visible ts) -> exists p q, 
     nth_error (visible_char b) i = Some p /\ nth_error (visible_char b) (S i) = Some q /\ p < q <= length s /\
     nth_error s p = nth_error (visible ts) i) /\
  length (first_char b) = S (length (visible ts)) /\
  (forall i, i < length (visible ts) -> exists p q a e c z,
     nth_error (first_char b) i = Some p /\ nth_error (visible_char b) i = Some q /\
     ts = a ++ e ++ Vis c :: z /\ length (visible a) = i /\ attached a e /\
     p = length (render a) /\ q = length (render (a ++ e))).
Proof.
  intros U s ts b [Hok <-] Hk H.
  destruct (from_unicode_clean_inv U ts b (conj Hok Hk) H) as (-> & _ & _).
  cbn [bx visible_char first_char].
  split; [rewrite app_length, vis_pos_length; cbn; lia|].
  split; [|split; [rewrite app_length, first_pos_length; cbn; lia|]].
  - intros i Hi.
    assert (Hl : i < length (vis_pos 0 ts)) by (rewrite vis_pos_length; exact Hi).
    destruct (nth_error (vis_pos 0 ts) i) as [p|] eqn:Ep; [|apply nth_error_None in Ep; lia].
    destruct (vis_pos_nth ts 0 i p Ep) as (_ & Hp & Hn). cbn in Hp. rewrite Nat.sub_0_r in Hn.
    destruct (nth_error (vis_pos 0 ts ++ [length (render ts)]) (S i)) as [q|] eqn:Eq.
    + exists p, q. rewrite nth_error_app1 by exact Hl. split; [exact Ep|]. split; [reflexivity|].
      split; [|exact Hn].
      destruct (Nat.eq_dec (S i) (length (vis_pos 0 ts))) as [El|El].
      * rewrite nth_error_app2 in Eq by lia. rewrite El, Nat.sub_diag in Eq. cbn in Eq. injection Eq as <-. lia.
      * rewrite nth_error_app1 in Eq by lia. split; [eapply vis_pos_sorted; eassumption|].
        apply vis_pos_nth in Eq. lia.
    + apply nth_error_None in Eq. rewrite app_length in Eq. cbn in Eq. lia.
  - intros i Hi.
    destruct (rd_first_attached U ts i Hok Hk Hi) as (a & e & c & z & E & R & Va & Hat).
    assert (He : visible e = []) by (destruct Hat as [[-> _]|(b' & -> & _)]; reflexivity).
    assert (Hla : length (visible a) = i) by (rewrite Va, firstn_length; lia).
    unfold rd in R. cbn [bx first_char] in R.
    destruct (nth_error (first_pos 0 None ts ++ [length (render ts)]) i) as [p|]; [|discriminate].
    injection R as ->.
    exists (length (render a)), (length (render (a ++ e))), a, e, c, z.
    split; [reflexivity|]. split; [|repeat split; auto].
    assert (Hle : length (visible (a ++ e)) = i) by (rewrite visible_app, He, app_nil_r; exact Hla).
    rewrite E. rewrite app_assoc, vis_pos_app, <- app_assoc. rewrite nth_error_app2 by (rewrite vis_pos_length; lia).
    rewrite vis_pos_length, Hle, Nat.sub_diag. reflexivity.
Qed.
Example C17_example : exists b, bxs_from_unicode demo_tab ex_red = Ok b /\
  visible_char b = [5;6;11;12;13] /\ first_char b = [0;6;11;12;13].
Proof. eexists. vm_compute. repeat split. Qed.

(** ** C18 *)
Theorem C18_buffers : forall U s ts, uctab_ok U -> reads s ts -> tabless ts ->
  bxs_from_unicode U s = Err \/ exists b, bxs_from_unicode U s = Ok b.
Proof. intros U s ts HU [Hok <-] Ht. apply from_unicode_safe; assumption. Qed.
Example C18_example : reads ex_red ex_red_toks /\ tabless ex_red_toks /\ uctab_ok demo_tab.
Proof.
  split; [apply ex_red_reads|split; [|exact demo_tab_ok]].
  unfold tabless. cbn. intuition discriminate.
Qed.
(** the only reason for a failure is a character that is never allowed *)
Theorem C18_only_bad_chars_fail : forall U s ts, uctab_ok U -> reads s ts -> tabless ts ->
  (bxs_from_unicode U s = Err <-> exists c, In c (visible ts) /\ is_allowed_anywhere U c = false).
Proof.
  intros U s ts HU [Hok <-] Ht. split.
  - intros H. destruct (Forall_dec (fun c => is_allowed_anywhere U c = true)) with (l := visible ts) as [Ha|Hn].
    { intros c. destruct (is_allowed_anywhere U c); auto. }
    + exfalso. destruct (from_unicode_all_ok U HU ts Hok Ht) as [b Hb]; [|congruence].
      apply tok_allowed_iff. exact Ha.
    + apply Exists_Forall_neg in Hn; [|intros c; destruct (is_allowed_anywhere U c); auto].
      apply Exists_exists in Hn as (c & Hin & Hc). exists c. split; [exact Hin|].
      destruct (is_allowed_anywhere U c); congruence.
  - intros (c & Hin & Hc). destruct (from_unicode_safe U HU ts Hok Ht) as [H|[b Hb]]; [exact H|].
    exfalso. destruct (from_unicode_inv U ts b Hok Hb) as (Ha & _).
    unfold allowed in Ha. rewrite Forall_forall in Ha. specialize (Ha c Hin). congruence.
Qed.
(** one tab character already overruns the shadow buffer *)
Theorem C18_tabs_refuted : exists U s, uctab_ok U /\ bxs_from_unicode U s = UB.
Proof. exists demo_tab, [9%N]. split; [exact demo_tab_ok|]. vm_compute. reflexivity. Qed.

(** ** C19 *)
Theorem C19_rtrim : forall U s ts b, uctab_ok U ->
  reads s ts -> known ts -> tabless ts -> bxs_from_unicode U s = Ok b ->
  exists ra rb b', ts = ra ++ rb /\ bxs_rtrim U b = Ok b' /\ memory b' = render ra /\
    bxs_from_unicode U (render ra) = Ok b' /\ bxs_rtrim U b' = Ok b' /\
    forallb (is_blank U) (visible rb) = true /\
    (forallb (is_blank U) (visible ts) = false ->
       exists m c, visible ra = m ++ [c] /\ is_blank U c = false).
Proof.
  intros U s ts b HU [Hok <-] Hk Ht H.
  destruct (from_unicode_clean_inv U ts b (conj Hok Hk) H) as (-> & Ha & _).
  assert (Hg : good U ts) by (split; [split; assumption|split; assumption]).
  destruct (rtrim_spec U HU ts Hg) as (a & r & E & Hr & Hga & Hbl & Hnb).
  exists a, r, (bx U a). split; [exact E|]. split; [exact Hr|]. split; [reflexivity|].
  split; [apply from_unicode_good; assumption|].
  split; [|split; assumption]. exact (rtrim_idem U HU ts _ Hg Hr).
Qed.
Example C19_example : exists b b', bxs_from_unicode demo_tab ex_red = Ok b /\
  bxs_rtrim demo_tab b = Ok b' /\ memory b' = [27;91;51;49;109;72;105;27;91;48;109]%N.
Proof. do 2 eexists. repeat (split; [vm_compute; reflexivity|]). vm_compute; reflexivity. Qed.
(** a line of blanks is not trimmed *)
Theorem C19_blank_line_refuted : exists U s b, uctab_ok U /\ bxs_from_unicode U s = Ok b /\
  bxs_rtrim U b = Ok b /\ s <> [] /\ Forall (fun c => c = 32%N) s.
Proof.
  exists demo_tab, [32;32]%N. eexists. split; [exact demo_tab_ok|]. split; [vm_compute; reflexivity|].
  split; [vm_compute; reflexivity|]. split; [discriminate|]. repeat constructor.
Qed.

Theorem C19_trim : forall U s ts b, uctab_ok U ->
  reads s ts -> known ts -> tabless ts -> narrow_indent (is_blank U) (term_width U) (visible ts) ->
  bxs_from_unicode U s = Ok b ->
  exists r b', bxs_trim U b = Ok b' /\ memory b' = render r /\
    bxs_from_unicode U (render r) = Ok b' /\ bxs_trim U b' = Ok b' /\
    (forallb (is_blank U) (visible ts) = true -> visible r = []) /\
    (forallb (is_blank U) (visible ts) = false ->
       exists p q, ts = p ++ r ++ q /\
         forallb (is_blank U) (visible p) = true /\ forallb (is_blank U) (visible q) = true /\
         (exists c x, visible r = c :: x /\ is_blank U c = false) /\
         (exists c x, visible r = x ++ [c] /\ is_blank U c = false)).
Proof.
  intros U s ts b HU [Hok <-] Hk Ht Hn H.
  destruct (from_unicode_clean_inv U ts b (conj Hok Hk) H) as (-> & Ha & _).
  assert (Hg : good U ts) by (split; [split; assumption|split; assumption]).
  assert (Hn' : narrow_lead U (visible ts)).
  { unfold narrow_lead, narrow_indent in *. eapply Forall_impl; [|exact Hn].
    intros c Hc. cbn in Hc. rewrite char_cols_term; assumption. }
  destruct (trim_spec U HU ts Hg Hn') as (r & Hr & Hgr & H1 & H2).
  exists r, (bx U r). split; [exact Hr|]. split; [reflexivity|].
  split; [apply from_unicode_good; assumption|].
  split; [|split; assumption].
  destruct (trim_idem U HU ts Hg Hn') as (r' & Hr' & Hi). rewrite Hr in Hr'. injection Hr' as <-. exact Hi.
Qed.
Example C19_trim_example : exists b b', bxs_from_unicode demo_tab ([32;32] ++ ex_red)%N = Ok b /\
  bxs_trim demo_tab b = Ok b' /\ bxs_to_output false b' = Ok [72;105]%N.
Proof. do 2 eexists. repeat (split; [vm_compute; reflexivity|]). vm_compute; reflexivity. Qed.
(** a double-width blank in front makes trimming swallow a letter *)
Theorem C19_wide_blank_refuted : exists U s b b', uctab_ok U /\ bxs_from_unicode U s = Ok b /\
  bxs_trim U b = Ok b' /\ s = [12288; 97; 98]%N /\ memory b' = [98]%N.
Proof.
  exists demo_tab, [12288; 97; 98]%N. do 2 eexists. split; [exact demo_tab_ok|].
  split; [vm_compute; reflexivity|]. split; [vm_compute; reflexivity|]. split; reflexivity.
Qed.

(** ** C21 *)
Theorem C21_prepend_rebuild : forall U s ts b n, uctab_ok U ->
  reads s ts -> known ts -> tabless ts -> bxs_from_unicode U s = Ok b ->
  exists b', bxs_prepend_spaces b n = Ok b' /\ bxs_from_unicode U (repeat 32%N n ++ s) = Ok b'.
Proof.
  intros U s ts b n HU [Hok <-] Hk Ht H.
  destruct (from_unicode_clean_inv U ts b (conj Hok Hk) H) as (-> & Ha & _).
  rewrite (prepend_bx U HU). eexists. split; [reflexivity|].
  replace (repeat 32%N n ++ render ts) with (render (plain (repeat 32%N n) ++ ts))
    by (rewrite render_app, render_plain; reflexivity).
  apply from_unicode_good; [exact HU|].
  assert (H32 : ~ In 27%N (repeat 32%N n)) by (intros Hx; apply repeat_spec in Hx; discriminate).
  split; [|split].
  - apply clean_app; [apply closed_plain; exact H32|split; assumption].
  - apply allowed_app. split; [|exact Ha]. unfold allowed. rewrite visible_plain.
    apply Forall_forall. intros x Hx. apply repeat_spec in Hx. subst x.
    apply (allowed_32 U HU).
  - apply tabless_app. split; [|exact Ht]. unfold tabless. rewrite visible_plain.
    intros Hx. apply repeat_spec in Hx. discriminate.
Qed.
Example C21_example : exists b b', bxs_from_unicode demo_tab ex_red = Ok b /\
  bxs_prepend_spaces b 3 = Ok b' /\ num_columns b' = 7 /\ indent b' = 3.
Proof. do 2 eexists. repeat (split; [vm_compute; reflexivity|]). vm_compute; reflexivity. Qed.

(** Appending: only if the string has a non-blank and ends with a visible character *)
Theorem C21_append_rebuild : forall U s ts c b n, uctab_ok U ->
  reads s (ts ++ [Vis c]) -> known ts -> tabless (ts ++ [Vis c]) ->
  forallb (is_blank U) (visible (ts ++ [Vis c])) = false ->
  bxs_from_unicode U s = Ok b -> bxs_from_unicode U (s ++ repeat 32%N n) = Ok (bxs_append_spaces b n).
Proof.
  intros U s ts c b n HU [Hok <-] Hk Ht Hb H.
  assert (Hk' : known (ts ++ [Vis c])) by (apply Forall_app; split; [exact Hk|repeat constructor]).
  destruct (from_unicode_clean_inv U _ b (conj Hok Hk') H) as (-> & Ha & _).
  rewrite (append_bx U HU) by exact Hb.
  replace (render (ts ++ [Vis c]) ++ repeat 32%N n) with (render ((ts ++ [Vis c]) ++ plain (repeat 32%N n)))
    by (rewrite (render_app (ts ++ _)), render_plain; reflexivity).
  apply from_unicode_good; [exact HU|].
  assert (H32 : ~ In 27%N (repeat 32%N n)) by (intros Hx; apply repeat_spec in Hx; discriminate).
  split; [|split].
  - apply clean_app; [|apply closed_plain; exact H32].
    split; [split; assumption|]. clear - Hok.
    induction ts as [|t ts IH]; [repeat constructor|].
    cbn [app] in *. destruct Hok as (_ & Hc & Hok). constructor; [|auto].
    destruct (is_cut t) eqn:E; [|reflexivity]. specialize (Hc eq_refl). destruct ts; discriminate.
  - apply allowed_app. split; [exact Ha|]. unfold allowed. rewrite visible_plain.
    apply Forall_forall. intros x Hx. apply repeat_spec in Hx. subst x.
    apply (allowed_32 U HU).
  - apply tabless_app. split; [exact Ht|]. unfold tabless. rewrite visible_plain.
    intros Hx. apply repeat_spec in Hx. discriminate.
Qed.
Theorem C21_append_blank_refuted : exists U s b n, uctab_ok U /\ bxs_from_unicode U s = Ok b /\
  bxs_from_unicode U (s ++ repeat 32%N n) <> Ok (bxs_append_spaces b n).
Proof.
  exists demo_tab, [32]%N. eexists. exists 1. split; [exact demo_tab_ok|].
  split; [vm_compute; reflexivity|]. vm_compute. discriminate.
Qed.

(** substring: the requested part of the text, rebuilt *)
Theorem C21_substr : forall U s b i j, bxs_from_unicode U s = Ok b -> i <= j <= length s ->
  bxs_substr U b i j = bxs_from_unicode U (firstn (j - i) (skipn i s)).
Proof.
  intros U s b i j H Hij.
  destruct (tokenize_exists s) as (ts & Hok & <-).
  destruct (from_unicode_inv U ts b Hok H) as (_ & _ & ->).
  unfold bxs_substr. cbn [num_chars memory].
  rewrite !Nat.min_l by lia. destruct (Nat.ltb_spec j i); [lia|].
  rewrite skipn_firstn_comm. reflexivity.
Qed.

Print Assumptions reading_total_unique.
Print Assumptions C14_char_accounting.
Print Assumptions C14_accounting_gap.
Print Assumptions C14_unconditional_refuted.
Print Assumptions C15_column_width.
Print Assumptions C16_colour_stripping.
Print Assumptions C16_unknown_sequences_refuted.
Print Assumptions C17_visible_index.
Print Assumptions C18_buffers.
Print Assumptions C18_only_bad_chars_fail.
Print Assumptions C18_tabs_refuted.
Print Assumptions C19_rtrim.
Print Assumptions C19_blank_line_refuted.
Print Assumptions C19_trim.
Print Assumptions C19_wide_blank_refuted.
Print Assumptions C21_prepend_rebuild.
Print Assumptions C21_append_rebuild.
Print Assumptions C21_append_blank_refuted.
Print Assumptions C21_substr.
