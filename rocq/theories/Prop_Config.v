(** * From the text of a configuration file to designs: C61, C62 *)
From Coq Require Import Ascii String List Arith NArith ZArith Bool Lia.
From Verif Require Import Base BaseFacts Model_Unicode Model_Bxs Model_Shape Spec_Str Proof_Str Proof_Shows Spec_Design Demo Prop_Str
  Model_Regex Model_Query Model_Discovery Model_Input Model_Generate Model_Main Model_Parser Spec_Parser Prop_Parser Model_Lexer Spec_Lexer Prop_Lexer
  Model_Scan Spec_Config Spec_Grammar Proof_Scan Proof_Config Proof_Recover Proof_ScanMore Proof_Grammar Proof_Parser2 Proof_Isolated.
Import ListNotations.
Local Open Scope nat_scope.
Local Open Scope list_scope.

(** ** C61: a file is read as it is written *)
Theorem C61_config_read : forall l text, written_config l text -> read_statements text = Ok l.
Proof. exact written_config_read. Qed.
Theorem C61_designs : forall U beyond po eol children fopen_ok sur l text, written_config l text ->
  parse_config_text U beyond po eol children fopen_ok sur (Some text) = parse_config_file U beyond po eol children fopen_ok sur (Some l).
Proof. intros U beyond po eol children fopen_ok sur l text H. unfold parse_config_text. rewrite (written_config_read l text H). reflexivity. Qed.
(** no text can be understood in two ways *)
Theorem C61_unambiguous : forall l1 l2 text, written_config l1 text -> written_config l2 text -> l1 = l2.
Proof. intros l1 l2 text H1 H2. apply written_config_read in H1. apply written_config_read in H2. congruence. Qed.
(** Whatever the text is: if its characters are ordinary ones, the designs that are accepted are well formed. *)
Definition ordinary (U : uctab) (c : N) : Prop := c = 10%N \/ exists w, shows U w [c].
Lemma chars_tidy : forall U s, uctab_ok U -> Forall (fun c => exists w, shows U w [c]) s -> tidy_text U s.
Proof.
  intros U s HU H. induction H as [|c s [w Hc] _ [w' IH]]; [exists 0; apply shows_nil; exact HU|].
  exists (w + w'). change (c :: s) with ([c] ++ s). apply shows_app; assumption.
Qed.
Lemma fine_tidy : forall U s, uctab_ok U -> stmt_fine (fun c => exists w, shows U w [c]) s -> tidy_stmt U s.
Proof.
  intros U [f|n al l e|al|] HU H; cbn in *; try exact I. eapply Forall_impl; [|exact H]. intros i Hi. destruct i; cbn in *; try exact I.
  eapply Forall_impl; [|exact Hi]. intros [k [|a m]] Hp; cbn in *; [exact I|]. inversion Hp; subst. split; [apply chars_tidy; assumption|].
  eapply Forall_impl; [|eassumption]. intros x Hx. apply chars_tidy; assumption.
Qed.
Theorem C61_wellformed : forall U beyond po eol children fopen_ok sur text ds ps, uctab_ok U -> ~ In 0%N text -> Forall (ordinary U) text ->
  parse_config_text U beyond po eol children fopen_ok sur (Some text) = Ok (ds, ps) ->
  Forall (fun d => wf_design U (to_design d) /\ sides_in_order (c_shape d)) ds.
Proof.
  intros U beyond po eol children fopen_ok sur text ds ps HU H0 Hc H. unfold parse_config_text in H.
  destruct (read_statements text) as [l| | | |] eqn:E; try discriminate. cbn [bind] in H.
  eapply C28_accepted_designs; [exact HU| |exact H].
  assert (F : Forall (stmt_fine (fun c => exists w, shows U w [c])) l).
  { eapply read_fine; [exact E|apply clean_in; exact H0|exact Hc]. }
  eapply Forall_impl; [|exact F]. intros s Hs. apply fine_tidy; assumption.
Qed.

(** *** Examples *)
Fixpoint gapb (comment : bool) (s : list N) : bool :=
  match s with
  | [] => negb comment
  | c :: r => if comment then gapb (negb (N.eqb c 10)) r else if N.eqb c 35 then gapb true r else existsb (N.eqb c) [32; 9; 13; 10]%N && gapb false r
  end.
Lemma gapb_gen : forall s, (gapb false s = true -> gap s) /\ (gapb true s = true -> exists u g, s = u ++ 10%N :: g /\ ~ In 10%N u /\ gap g).
Proof.
  induction s as [|c s [IH1 IH2]]; cbn [gapb].
  - split; [constructor|discriminate].
  - split.
    + destruct (N.eqb_spec c 35) as [->|N35].
      * intros H. destruct (IH2 H) as (u & g & -> & Hu & Hg). constructor; assumption.
      * intros H. apply andb_true_iff in H as [H1 H2]. constructor; [|exact (IH1 H2)].
        apply existsb_exists in H1 as (x & Hx & E). apply N.eqb_eq in E as ->. exact Hx.
    + destruct (N.eqb_spec c 10) as [->|N10]; cbn [negb]; intros H.
      * exists [], s. split; [reflexivity|]. split; [intros []|exact (IH1 H)].
      * destruct (IH2 H) as (u & g & -> & Hu & Hg). exists (c :: u), g. split; [reflexivity|]. split; [|exact Hg]. intros [E|E]; [congruence|contradiction].
Qed.
Lemma gapb_ok : forall s, gapb false s = true -> gap s.
Proof. intros s. apply gapb_gen. Qed.
Definition letterb (c : N) : bool := ((65 <=? c) && (c <=? 90) || (97 <=? c) && (c <=? 122))%N.
Definition name_charb (c : N) : bool := (letterb c || (48 <=? c) && (c <=? 57) || (c =? 95) || (c =? 45))%N.
Definition nameb (w : list N) : bool := match w with c :: r => letterb c && forallb name_charb r | [] => false end.
Lemma letterb_ok : forall c, letterb c = true -> letter c.
Proof. intros c H. unfold letterb in H. unfold letter. apply orb_true_iff in H as [H|H]; apply andb_true_iff in H as [H1 H2]; apply N.leb_le in H1; apply N.leb_le in H2; lia. Qed.
Lemma nameb_ok : forall w, nameb w = true -> name w.
Proof.
  intros [|c r] H; [discriminate|]. cbn [nameb] in H. apply andb_true_iff in H as [H1 H2]. exists c, r. split; [reflexivity|]. split; [apply letterb_ok; exact H1|].
  apply Forall_forall. intros x Hx. rewrite forallb_forall in H2. specialize (H2 x Hx). unfold name_charb in H2. unfold name_char.
  apply orb_true_iff in H2 as [H2|H2]; [|apply N.eqb_eq in H2; auto]. apply orb_true_iff in H2 as [H2|H2]; [|apply N.eqb_eq in H2; auto].
  apply orb_true_iff in H2 as [H2|H2]; [left; apply letterb_ok; exact H2|]. apply andb_true_iff in H2 as [H2 H3]. apply N.leb_le in H2. apply N.leb_le in H3. auto.
Qed.
Lemma free_ok : forall w, word_box w default_delims = (T_ASCII_ID w, q_BOX, default_delims) -> ~ reserved w.
Proof.
  intros w H R. unfold reserved in R. unfold word_box in H.
  repeat match type of R with Exists _ [] => inversion R | Exists _ _ => inversion R; subst; clear R;
    [match goal with K : spells ?k w |- _ => rewrite ?(spells_same k w _ K) in H; vm_compute in H; discriminate H end|]; match goal with K : Exists _ _ |- _ => rename K into R end end.
Qed.
Lemma quoted_written : forall d v, forallb (fun c => negb (N.eqb c 10)) (flat_map (quote_char (sesc d) (sdel d)) v) = true ->
  written_string d v (quoted (sesc d) (sdel d) v).
Proof.
  intros d v H. exists (flat_map (quote_char (sesc d) (sdel d)) v). split; [reflexivity|]. split; [apply unescaped_quote|].
  intros F. rewrite forallb_forall in H. apply H in F. discriminate.
Qed.
Ltac g := apply gapb_ok; vm_compute; reflexivity.
Ltac g1 := split; [g|discriminate].
Ltac q := apply quoted_written; vm_compute; reflexivity.
Ltac nm := apply nameb_ok; vm_compute; reflexivity.
Ltac free := apply free_ok; vm_compute; reflexivity.
Ltac nowhite := let H := fresh in intros H; cbn in H; intuition discriminate.

Definition demo_text : list N := txt "# designs for shells
parent /etc/boxes.cfg
BOX shell, pound-cmt   # two names

author ""Ann \""X\"" Other""
delimiter $!
Charset !any!
tags (!sh!,
      !perl!)
Sample

  # text

ENDS
shapes { w (!# !) nw () # corner
}
elastic (W)
replace once !a$!! with !b!
reverse !b! to !a$!!
padding { left 1
          right +2 }
end shell

".
Definition demo_stmts : list stmt :=
  [s_parent (txt " /etc/boxes.cfg");
   s_box (txt "shell") [txt "pound-cmt"]
     [i_keyword (txt "author") (txt "Ann ""X"" Other"); i_ignored; i_ignored; i_tags [txt "sh"; txt "perl"]; i_sample (txt "  # text");
      i_shapes [(W_, lines (txt "# ") []); (NW, no_lines)]; i_elastic [W_]; i_replace (txt "a!") (txt "b") 111; i_reverse (txt "b") (txt "a!") 103;
      i_padding [(txt "left", 1%Z); (txt "right", 2%Z)]] (txt "shell")].
Definition d2 : delims := mkDelims 33 36.
Definition nl1 : list N := [10%N].
Lemma number_ok : forall z ds v s, ((-2147483648 <=? z) && (z <=? 2147483647))%Z = true -> ds <> [] -> digits ds = Some v ->
  (s = ds /\ z = v \/ s = 43%N :: ds /\ z = v \/ s = 45%N :: ds /\ z = (- v)%Z) -> written_number z s.
Proof. intros z ds v s H1 H2 H3 H4. apply andb_true_iff in H1 as [H1 H1']. apply Z.leb_le in H1. apply Z.leb_le in H1'. split; [lia|]. exists ds, v. auto. Qed.
Lemma has_endsb : forall s, forallb (fun n => match ends_at (skipn n s) with Some _ => false | None => true end) (seq 0 (S (List.length s))) = true -> ~ has_ends s.
Proof.
  intros s H (a & e & t & r & -> & He & Ht). rewrite forallb_forall in H. specialize (H (List.length a)).
  rewrite skipn_exact in H. rewrite (ends_at_ok e t r He Ht) in H. assert (F : false = true); [apply H|discriminate F].
  apply in_seq. rewrite !app_length. lia.
Qed.
Lemma demo_written : written_config demo_stmts demo_text.
Proof.
  assert (Items : exists s, written_items default_delims
     [i_keyword (txt "author") (txt "Ann ""X"" Other"); i_ignored; i_ignored; i_tags [txt "sh"; txt "perl"]; i_sample (txt "  # text");
      i_shapes [(W_, lines (txt "# ") []); (NW, no_lines)]; i_elastic [W_]; i_replace (txt "a!") (txt "b") 111; i_reverse (txt "b") (txt "a!") 103;
      i_padding [(txt "left", 1%Z); (txt "right", 2%Z)]] s /\ s = txt "author ""Ann \""X\"" Other""
delimiter $!
Charset !any!
tags (!sh!,
      !perl!)
Sample

  # text

ENDS
shapes { w (!# !) nw () # corner
}
elastic (W)
replace once !a$!! with !b!
reverse !b! to !a$!!
padding { left 1
          right +2 }").
  { eexists. split.
    - eapply (wl_more _ _ _ default_delims nl1). { apply (wi_keyword _ _ [32%N] _ (quoted 92 34 (txt "Ann ""X"" Other"))); [left; reflexivity|g|q]. } { g. }
      eapply (wl_more _ _ _ d2 []). { apply (wi_delimiter default_delims (txt "delimiter") [32%N] 36%N 33%N 10%N); [right; reflexivity|repeat constructor|discriminate|vm_compute; tauto|reflexivity|nowhite|discriminate|cbn; auto]. } { constructor. }
      eapply (wl_more _ _ _ d2 nl1). { apply (wi_other _ (txt "Charset") [32%N] (txt "any") (quoted 36 33 (txt "any"))); [left; split; [nm|free]|g|apply (quoted_written d2); vm_compute; reflexivity]. } { g. }
      eapply (wl_more _ _ _ d2 nl1). { apply (wi_tags _ (txt "tags") [32%N] [] [] _ (quoted 36 33 (txt "sh") ++ [] ++ 44%N :: (txt "
      ") ++ quoted 36 33 (txt "perl"))); [reflexivity|g|g| |g]. apply cl_more; [apply (quoted_written d2); vm_compute; reflexivity|g|g|]. apply cl_one. apply (quoted_written d2). vm_compute. reflexivity. } { g. }
      eapply (wl_more _ _ _ d2 []). { apply (wi_sample _ (txt "Sample") (txt "

  # text

") _ [] (txt "ENDS") []); [reflexivity| | | | |constructor|reflexivity|constructor].
        - eexists _, _. split; [reflexivity|]. split; [|reflexivity]. intros K. unfold name_char, letter in K. cbn in K. lia.
        - exists (txt "

  # text
"). reflexivity.
        - apply has_endsb. vm_compute. reflexivity.
        - exists (txt "

"), (txt "

"). split; [reflexivity|]. split; [repeat constructor|]. split; [constructor; [cbn; auto|constructor; [cbn; auto|constructor]]|]. split.
          + eexists _, _. split; [reflexivity|discriminate].
          + exists 116%N, (txt "  # tex"). split; [reflexivity|nowhite]. } { constructor. }
      eapply (wl_more _ _ _ d2 nl1). { apply (wi_shapes _ (txt "shapes") [32%N] [32%N] _ ((txt "w" ++ [32%N] ++ 40%N :: [] ++ quoted 36 33 (txt "# ") ++ [] ++ [41%N]) ++ [32%N] ++ (txt "nw" ++ [32%N] ++ 40%N :: [] ++ [41%N])) (txt " # corner
")); [reflexivity|g|g| |g]. apply sl_more; [|g|apply sl_one].
        - apply ws_lines; [exists "w"%string; split; reflexivity|g|g|apply cl_one; apply (quoted_written d2); vm_compute; reflexivity|g].
        - apply ws_none; [exists "nw"%string; split; reflexivity|g|g]. } { g. }
      eapply (wl_more _ _ _ d2 nl1). { apply (wi_elastic _ (txt "elastic") [32%N] [] _ (txt "W") []); [reflexivity|g|g|apply cl_one; exists "w"%string; split; reflexivity|g]. } { g. }
      eapply (wl_more _ _ _ d2 nl1). { apply (wi_replace _ (txt "replace") _ (txt " once") [32%N] _ (quoted 36 33 (txt "a!")) [32%N] (txt "with") [32%N] _ (quoted 36 33 (txt "b")));
        [reflexivity|right; exists [32%N], (txt "once"); split; [g1|]; split; [reflexivity|]; right; split; reflexivity|g|apply (quoted_written d2); vm_compute; reflexivity|g|reflexivity|g|apply (quoted_written d2); vm_compute; reflexivity]. } { g. }
      eapply (wl_more _ _ _ d2 nl1). { apply (wi_reverse _ (txt "reverse") _ [] [32%N] _ (quoted 36 33 (txt "b")) [32%N] (txt "to") [32%N] _ (quoted 36 33 (txt "a!")));
        [reflexivity|left; split; reflexivity|g|apply (quoted_written d2); vm_compute; reflexivity|g|reflexivity|g|apply (quoted_written d2); vm_compute; reflexivity]. } { g. }
      eapply (wl_one _ _ _ d2). apply (wi_padding _ (txt "padding") [32%N] [32%N] _ ((txt "left" ++ [32%N] ++ txt "1") ++ txt "
          " ++ (txt "right" ++ [32%N] ++ txt "+2")) [32%N]); [reflexivity|g|g| |g]. apply sl_more; [|g|apply sl_one].
      + exists [32%N], (txt "1"). split; [nm|]. split; [free|]. split; [g1|]. split; [|reflexivity]. eapply (number_ok 1 (txt "1") 1); [reflexivity|discriminate|reflexivity|left; split; reflexivity].
      + exists [32%N], (txt "+2"). split; [nm|]. split; [free|]. split; [g1|]. split; [|reflexivity]. eapply (number_ok 2 (txt "2") 2); [reflexivity|discriminate|reflexivity|right; left; split; reflexivity].
    - vm_compute. reflexivity. }
  destruct Items as (s & Hs & Es).
  exists (txt "# designs for shells
"), ((txt "parent" ++ txt " /etc/boxes.cfg" ++ [10%N]) ++ [] ++ (txt "BOX" ++ [32%N] ++ txt "shell" ++ (([] ++ 44%N :: [32%N] ++ txt "pound-cmt" ++ [])) ++ (txt "   # two names

") ++ s ++ nl1 ++ txt "end" ++ [32%N] ++ txt "shell" ++ nl1)), nl1.
  split; [g|]. split; [|split; [g|]].
  - apply wc_more; [|constructor|apply wc_one].
    + apply wt_parent; [reflexivity| | |  |auto].
      * eexists _, _. split; [reflexivity|]. split; [|reflexivity]. intros K. unfold name_char, letter in K. cbn in K. lia.
      * intros K. vm_compute in K. intuition discriminate.
      * intros K. vm_compute in K. intuition discriminate.
    + apply wt_box; [reflexivity|g1|nm|free| |g1|exact Hs|g|reflexivity|g1|nm|discriminate|discriminate|g1].
      apply wa_more; [g|g|nm|free|constructor].
  - rewrite Es. split; [vm_compute; reflexivity|]. split; [intros K; vm_compute in K; intuition discriminate|].
    exists (removelast demo_text). vm_compute. reflexivity.
Qed.
Example C61_example : written_config demo_stmts demo_text /\ read_statements demo_text = Ok demo_stmts /\
  demo_names (parse_config_text demo_tab (Ok sentry0) po_all [10%N] [] (fun _ => true) no_sur (Some demo_text)) = Some (["shell"%string], ["/etc/boxes.cfg"%string]).
Proof. split; [exact demo_written|]. split; [apply C61_config_read; exact demo_written|]. vm_compute. reflexivity. Qed.
Example C61_wellformed_example : exists ds ps, parse_config_text demo_tab (Ok sentry0) po_all [10%N] [] (fun _ => true) no_sur (Some demo_text) = Ok (ds, ps) /\
  List.length ds = 1 /\ Forall (fun d => wf_design demo_tab (to_design d) /\ sides_in_order (c_shape d)) ds.
Proof.
  assert (E : demo_names (parse_config_text demo_tab (Ok sentry0) po_all [10%N] [] (fun _ => true) no_sur (Some demo_text)) = Some (["shell"%string], ["/etc/boxes.cfg"%string])) by (vm_compute; reflexivity).
  apply named_inv in E as (ds & ps & E & F). exists ds, ps. split; [exact E|]. split.
  - destruct ds as [|d [|d' ds]]; try discriminate F. reflexivity.
  - eapply C61_wellformed; [exact demo_tab_ok| | |exact E].
    + intros K. vm_compute in K. intuition discriminate.
    + assert (B : forallb (fun c => N.eqb c 10 || is_ascii_printable c) demo_text = true) by (vm_compute; reflexivity).
      apply Forall_forall. intros c Hc. rewrite forallb_forall in B. apply B in Hc. apply orb_true_iff in Hc as [Hc|Hc]; [left; apply N.eqb_eq; exact Hc|].
      right. exists 1. apply (shows_ascii demo_tab demo_tab_ok [c]). cbn. rewrite Hc. reflexivity.
Qed.

(** *** A byte order mark in front of the file *)
Theorem C61_byte_order_mark : forall l text, written_config l text -> (exists c r, text = c :: r /\ (white c \/ c = 35%N)) ->
  read_statements (65279%N :: text) = Ok l.
Proof.
  intros l text H Hc. apply written_config_read in H. unfold read_statements in *. destruct (scan text) as [ts| | | |] eqn:E; try discriminate.
  change 65279%N with bom. rewrite (scan_bom text ts Hc E). exact H.
Qed.
Example C61_byte_order_mark_example : exists r, demo_text = 35%N :: r /\ read_statements (65279%N :: demo_text) = Ok demo_stmts.
Proof. eexists. split; [reflexivity|]. apply C61_byte_order_mark; [exact demo_written|]. eexists _, _. split; [reflexivity|]. right. reflexivity. Qed.

(** a small design, for what follows *)
Definition small_box (n : string) (before after : string) : list N := txt "BOX " ++ txt n ++ txt " " ++ txt before ++ txt "sample
x
ends
" ++ txt after ++ txt "end " ++ txt n ++ nl1.
Definition small_stmt (n : string) : stmt := s_box (txt n) [] [i_sample (txt "x")] (txt n).
Lemma small_written : forall n, nameb (txt n) = true -> word_box (txt n) default_delims = (T_ASCII_ID (txt n), q_BOX, default_delims) ->
  ~ spells "box" (txt n) -> ~ spells "parent" (txt n) -> ~ In 0%N (txt n) -> written_config [small_stmt n] (small_box n "" "").
Proof.
  intros n H1 H2 H3 H4 H5. exists [], (small_box n "" ""), []. split; [constructor|].
  assert (W : written_stmts [small_stmt n] (small_box n "" "")).
  { apply wc_one. replace (small_box n "" "") with (txt "BOX" ++ [32%N] ++ txt n ++ [] ++ [32%N] ++ (txt "sample" ++ txt "
x
" ++ [] ++ txt "ends" ++ [] ++ [10%N]) ++ [] ++ txt "end" ++ [32%N] ++ txt n ++ nl1).
    2:{ unfold small_box. cbn -[txt]. reflexivity. }
    apply wt_box; [reflexivity|g1|apply nameb_ok; exact H1|apply free_ok; exact H2|constructor|g1| |constructor|reflexivity|g1|apply nameb_ok; exact H1|exact H3|exact H4|g1].
    apply (wl_one _ _ _ default_delims). apply wi_sample; [reflexivity| | | | |constructor|reflexivity|constructor].
    - eexists _, _. split; [reflexivity|]. split; [|reflexivity]. intros K. unfold name_char, letter in K. cbn in K. lia.
    - exists (txt "
x"). reflexivity.
    - apply has_endsb. vm_compute. reflexivity.
    - exists nl1, nl1. split; [reflexivity|]. split; [repeat constructor|]. split; [constructor; [cbn; auto|constructor]|]. split.
      + eexists _, _. split; [reflexivity|discriminate].
      + exists 120%N, []. split; [reflexivity|nowhite]. }
  split; [exact W|]. split; [constructor|]. split; [rewrite app_nil_r; reflexivity|]. split.
  - unfold small_box. intros K. repeat (apply in_app_or in K as [K|K]; [vm_compute in K; intuition discriminate || contradiction|]). vm_compute in K. intuition discriminate.
  - eexists. unfold small_box. rewrite !app_assoc. reflexivity.
Qed.
Lemma small_a : written_config [small_stmt "a"] (small_box "a" "" "").
Proof. apply small_written; [reflexivity|vm_compute; reflexivity|discriminate|discriminate|vm_compute; intuition discriminate]. Qed.
Lemma small_b : written_config [small_stmt "b"] (small_box "b" "" "").
Proof. apply small_written; [reflexivity|vm_compute; reflexivity|discriminate|discriminate|vm_compute; intuition discriminate]. Qed.

(** directly in front of a word, the mark spoils it, and with it the design *)
Theorem C61_byte_order_mark_refuted : exists l text, written_config l text /\ read_statements (65279%N :: text) = Ok [s_junk].
Proof. exists [small_stmt "a"], (small_box "a" "" ""). split; [exact small_a|]. vm_compute. reflexivity. Qed.
(** the last line of a file must end with a line feed: without it, a comment there is an error *)
Theorem C61_last_line_refuted : exists l text, written_config l (text ++ nl1) /\ read_statements text <> Ok l.
Proof.
  exists [small_stmt "a"], (small_box "a" "" "" ++ txt "# done"). split.
  - destruct small_a as (g1 & u & g2 & H1 & H2 & H3 & H4 & H5 & H6). exists g1, u, (g2 ++ txt "# done
"). split; [exact H1|]. split; [exact H2|]. split.
    { assert (K : forall g h, gap g -> gap h -> gap (g ++ h)). { intros g h Hg Hh. induction Hg; [exact Hh|constructor; assumption|]. rewrite <- app_comm_cons, <- app_assoc. constructor; assumption. }
      apply K; [exact H3|g]. }
    split; [rewrite H4, <- !app_assoc; reflexivity|]. split.
    + rewrite <- app_assoc. intros K. apply in_app_or in K as [K|K]; [exact (H5 K)|vm_compute in K; intuition discriminate].
    + eexists. reflexivity.
  - vm_compute. discriminate.
Qed.
(** A line of a sample that only ends with the letters ENDS spoils the design: the claim that the sample ends at a line
    that consists of ENDS is wrong. *)
Theorem C61_sample_refuted : exists before line after, ~ In 10%N line /\ ~ Forall blank line /\
  (exists l, read_statements (before ++ line ++ after) = Ok [s_box (txt "a") [] l (txt "a")]) /\
  (exists l, read_statements (before ++ (line ++ txt "ends") ++ after) = Ok [s_box (txt "a") [] (l ++ [i_bad]) []]).
Proof.
  exists (txt "BOX a sample
"), (txt "my fri"), (txt "
ends
end a
"). split; [vm_compute; intuition discriminate|]. split; [intros K; inversion K as [|x l K1 K2]; subst; cbn in K1; intuition discriminate|]. split.
  - exists [i_sample (txt "my fri")]. vm_compute. reflexivity.
  - exists []. vm_compute. reflexivity.
Qed.
(** Not every word can be the name of a design. With the name "box", the design is lost, and the next one as well. *)
Theorem C61_names_refuted : exists n, name n /\ ~ reserved n /\
  forall d, read_statements (txt "BOX " ++ n ++ txt " sample
x
ends
end " ++ n ++ nl1 ++ small_box "b" "" "") = Ok d -> ~ In (s_box n [] [i_sample (txt "x")] n) d /\ ~ In (small_stmt "b") d.
Proof.
  exists (txt "box"). split; [nm|]. split; [free|]. intros d H. vm_compute in H. injection H as <-. vm_compute. intuition discriminate.
Qed.

(** ** C62: every text is read somehow, and errors do not spread *)
Theorem C62_total : forall text, ~ In 0%N text ->
  match read_statements text with
  | Ok _ => True
  | UB => exists a b, text = a ++ b /\ big_number b
  | Err => exists a k b, text = a ++ k ++ b /\ spells "parent" k /\ lone_cr b
  | Wrap | Fuel => False
  end.
Proof.
  intros text H0. assert (D : delims_ok default_delims) by (split; [cbn; auto|discriminate]).
  pose proof (from_result (2 * List.length text + 1) q_INITIAL default_delims text D ltac:(apply clean_in; exact H0) (mu_start text)) as R.
  unfold read_statements. change (scan_from (2 * List.length text + 1) q_INITIAL default_delims text) with (scan text) in R.
  destruct (scan text); cbn [bind]; try exact R; try exact I. destruct R as [[R _]|R]; [discriminate|exact R].
Qed.
Example C62_total_example : read_statements (txt "BOX a padding { left 2147483648 }
") = UB /\ read_statements (txt "parent" ++ 13%N :: txt "x
") = Err /\ read_statements (txt "} no design ""
at $ all") = Ok [s_junk].
Proof. vm_compute. repeat split. Qed.

(** What stands behind a faulty part is read as if it stood alone, provided the faulty part does not leave a block open *)
Theorem C62_recovery : forall x y l m, (exists u, x = u ++ nl1) -> read_statements x = Ok l -> condition_after x = Ok q_INITIAL ->
  written_config m y -> exists l', read_statements (x ++ y) = Ok (l' ++ m) /\ (l' = l \/ l = [s_junk] /\ l' = []).
Proof.
  intros x y l m Hx H1 H2 Hy. unfold read_statements in H1. destruct (scan x) as [ts| | | |] eqn:E; try discriminate. cbn [bind] in H1.
  exists (statements ts). split.
  - apply recovery; [exact Hx|exact E|exact H2| |apply written_config_read; exact Hy]. destruct Hy as (g1 & u & g2 & _ & Hu & _). eapply written_first; exact Hu.
  - destruct ts as [|t ts]; cbn [is_nil] in H1; injection H1 as <-; [right; split; reflexivity|left; reflexivity].
Qed.
Definition faulty : list N := small_box "one" "nonsense " "" ++ small_box "two" "" "elastic (N W)
" ++ txt "stray words" ++ nl1.
Example C62_recovery_example : condition_after faulty = Ok q_INITIAL /\
  read_statements faulty = Ok [s_box (txt "one") [] [i_bad] []; s_box (txt "two") [] [i_sample (txt "x"); i_bad] []] /\
  read_statements (faulty ++ demo_text) = Ok ([s_box (txt "one") [] [i_bad] []; s_box (txt "two") [] [i_sample (txt "x"); i_bad] []] ++ demo_stmts).
Proof.
  assert (E1 : condition_after faulty = Ok q_INITIAL) by (vm_compute; reflexivity).
  assert (E2 : read_statements faulty = Ok [s_box (txt "one") [] [i_bad] []; s_box (txt "two") [] [i_sample (txt "x"); i_bad] []]) by (vm_compute; reflexivity).
  split; [exact E1|]. split; [exact E2|].
  assert (En : exists u, faulty = u ++ nl1) by (exists (removelast faulty); vm_compute; reflexivity).
  destruct (C62_recovery faulty demo_text _ demo_stmts En E2 E1 demo_written) as (l' & E & [->|[F _]]); [exact E|discriminate F].
Qed.
(** a missing brace is different: the design that follows is lost, too *)
Theorem C62_brace_refuted : exists x y m l, (exists u, x = u ++ nl1) /\ read_statements x = Ok l /\ written_config m y /\
  forall l', read_statements (x ++ y) <> Ok (l' ++ m).
Proof.
  exists (small_box "a" "" "shapes { w ()
"), (small_box "b" "" ""), [small_stmt "b"]. eexists. split; [exists (removelast (small_box "a" "" "shapes { w ()
")); vm_compute; reflexivity|].
  split; [vm_compute; reflexivity|]. split; [exact small_b|]. intros l' F.
  assert (E : read_statements (small_box "a" "" "shapes { w ()
" ++ small_box "b" "" "") = Ok [s_box (txt "a") [] [i_sample (txt "x"); i_bad] []]) by (vm_compute; reflexivity).
  rewrite E in F. injection F as F. apply (f_equal (@rev stmt)) in F. rewrite rev_app_distr in F. cbn [rev app] in F. injection F as F _. discriminate F.
Qed.
(** inside a design, no word begins another one or names a parent *)
Theorem C62_no_parent : forall text ts a b t c, scan text = Ok ts -> ts = a ++ T_BOX :: b ++ t :: c -> t = T_BOX \/ t = T_PARENT -> In T_END b.
Proof.
  intros text ts a b t c H E Ht. unfold scan in H. destruct (from_kind _ _ _ _ _ H) as [_ K]. eapply K; [exact E|]. destruct Ht as [->| ->]; reflexivity.
Qed.
Example C62_no_parent_example : exists a b c, scan (txt "BOX a parent ""x"" end a
parent y
") = Ok (a ++ T_BOX :: b ++ T_PARENT :: c) /\ b = [T_ASCII_ID (txt "a"); T_ASCII_ID (txt "parent"); T_STRING (txt "x"); T_END; T_ASCII_ID (txt "a")].
Proof. exists [], [T_ASCII_ID (txt "a"); T_ASCII_ID (txt "parent"); T_STRING (txt "x"); T_END; T_ASCII_ID (txt "a")]. eexists. vm_compute. split; reflexivity. Qed.

(** The statements account for the whole text: what is not marked as faulty is written out in accordance with the grammar, and
    every beginning of a statement makes one *)
Theorem C62_accepted : forall text l, read_statements text = Ok l -> exists ts, scan text = Ok ts /\ (stands_in l ts \/ ts = [] /\ l = [s_junk]).
Proof.
  intros text l H. unfold read_statements in H. destruct (scan text) as [ts| | | |]; try discriminate H. exists ts. split; [reflexivity|]. cbn [bind] in H.
  destruct ts as [|t ts]; injection H as <-; [right; split; reflexivity|left]. apply (config_inv _ (t :: ts)). apply le_n.
Qed.
Example C62_accepted_example : exists ts, scan (faulty ++ demo_text) = Ok ts /\
  stands_in ([s_box (txt "one") [] [i_bad] []; s_box (txt "two") [] [i_sample (txt "x"); i_bad] []] ++ demo_stmts) ts /\
  faulty_stmt (s_box (txt "one") [] [i_bad] []) /\ Forall (fun s => ~ faulty_stmt s) demo_stmts.
Proof.
  destruct (C62_accepted (faulty ++ demo_text) _ (proj2 (proj2 C62_recovery_example))) as (ts & E & [H|[_ F]]); [|discriminate F].
  exists ts. split; [exact E|]. split; [exact H|]. split; [right; left; reflexivity|].
  repeat (constructor; [vm_compute; intuition discriminate|]). constructor.
Qed.
(** The designs of a file are those of its statements, in order. Each is the one that its statement makes when it is alone in
    a file, whatever else this file has, errors included. *)
Theorem C62_isolated : forall U beyond po eol children fopen_ok sur l ds ps,
  parse_config_file U beyond po eol children fopen_ok sur (Some l) = Ok (ds, ps) ->
  exists ss, subseq ss l /\
    Forall2 (fun s d => parse_config_file U beyond po eol children fopen_ok sur (Some [s]) = Ok ([d], []) /\
      exists n al items e, s = s_box n al items e /\ items <> [] /\ ~ In i_bad items /\ c_name d = Some n /\ incl (c_aliases d) al) ss ds.
Proof. intros U beyond po eol children fopen_ok sur l ds ps H. exact (designs_alone U beyond po eol children fopen_ok sur l ds ps H). Qed.
(** so that every design is written out in the text *)
Theorem C62_written_out : forall U beyond po eol children fopen_ok sur text ds ps d,
  parse_config_text U beyond po eol children fopen_ok sur (Some text) = Ok (ds, ps) -> In d ds ->
  exists a us b n al items e, scan text = Ok (a ++ us ++ b) /\ stmt_toks (s_box n al items e) us /\ c_name d = Some n /\ incl (c_aliases d) al /\
    parse_config_file U beyond po eol children fopen_ok sur (Some [s_box n al items e]) = Ok ([d], []).
Proof.
  intros U beyond po eol children fopen_ok sur text ds ps d H Hd. cbn [parse_config_text] in H.
  destruct (read_statements text) as [l| | | |] eqn:E; try discriminate H. cbn [bind] in H.
  destruct (C62_isolated _ _ _ _ _ _ _ _ _ _ H) as (ss & Hs & F2).
  assert (X : exists s, In s ss /\ parse_config_file U beyond po eol children fopen_ok sur (Some [s]) = Ok ([d], []) /\
      exists n al items e, s = s_box n al items e /\ items <> [] /\ ~ In i_bad items /\ c_name d = Some n /\ incl (c_aliases d) al).
  { clear -F2 Hd. induction F2 as [|s d' ss ds [H1 H2] F2 IH]; [destruct Hd|]. destruct Hd as [->|Hd].
    - exists s. split; [left; reflexivity|]. split; assumption.
    - destruct (IH Hd) as (s' & A & B). exists s'. split; [right; exact A|exact B]. }
  destruct X as (s & Hin & H1 & n & al & items & e & -> & Hne & Hb & Hn & Hal).
  assert (Hl : In (s_box n al items e) l). { clear -Hs Hin. induction Hs; [destruct Hin| |]; [destruct Hin as [->|Hin]; [left; reflexivity|right; auto]|right; auto]. }
  destruct (C62_accepted text l E) as (ts & Es & [Hst|[_ ->]]).
  - destruct (stands_in_toks _ _ _ Hst Hl) as (a & us & b & -> & Hu); [intros [F|F]; contradiction|].
    exists a, us, b, n, al, items, e. auto.
  - destruct Hl as [F|[]]. discriminate F.
Qed.
Example C62_isolated_example : exists ds ps, parse_config_text demo_tab (Ok sentry0) po_all [10%N] [] (fun _ => true) no_sur (Some (faulty ++ demo_text)) = Ok (ds, ps) /\
  map c_name ds = map c_name (match parse_config_file demo_tab (Ok sentry0) po_all [10%N] [] (fun _ => true) no_sur (Some demo_stmts) with Ok (x, _) => x | _ => [] end) /\
  ds <> [].
Proof. eexists. eexists. split; [vm_compute; reflexivity|]. split; [vm_compute; reflexivity|discriminate]. Qed.

From Verif Require Import Spec_Query Proof_Query Proof_Fast Proof_Chosen.
(** Conversely: designs that are accepted alone are accepted together, if no name or alias occurs twice. *)
Theorem C62_together : forall U beyond eol children fopen_ok sur ss ds,
  Forall2 (fun s d => parse_config_file U beyond (mkPopts None true) eol children fopen_ok sur (Some [s]) = Ok ([d], [])) ss ds ->
  pairwise_not common_name ss ->
  parse_config_file U beyond (mkPopts None true) eol children fopen_ok sur (Some ss) = Ok (ds, []).
Proof.
  intros U beyond eol children fopen_ok sur ss ds F P. apply together; [reflexivity|exact F|]. clear F. induction ss as [|s ss IH]; [constructor|]. constructor.
  - apply Forall_forall. intros s' Hs x y Hx Hy. destruct (same_nocase x y) eqn:E; [|reflexivity]. apply same_ok, nocase_sym in E.
    apply In_nth_error in Hs as (j & Hj). destruct (P 0 (S j) s s' ltac:(lia) eq_refl Hj). exists y, x. auto.
  - apply IH. intros i j a b L Hi Hj. apply (P (S i) (S j) a b ltac:(lia) Hi Hj).
Qed.
(** With [-d], the designs before the wanted one are passed over, whether they are in order or not, and those behind it are not looked at. *)
Theorem C62_chosen : forall U beyond eol children fopen_ok sur before s after d n all,
  Forall (other_than n) before ->
  parse_config_file U beyond (mkPopts None true) eol children fopen_ok sur (Some [s]) = Ok ([d], []) -> called d n ->
  parse_config_file U beyond (mkPopts (Some n) all) eol children fopen_ok sur (Some (before ++ s :: after)) = Ok ([d], []).
Proof.
  intros U beyond eol children fopen_ok sur before s after d n all F H C. apply (chosen U beyond (mkPopts (Some n) all) n eq_refl).
  - eapply Forall_impl; [|exact F]. intros s' Hs. destruct s'; cbn [other_than passed] in *; try exact Hs; intros x Hx; destruct (same_nocase n x) eqn:E; try reflexivity;
      apply same_ok, nocase_sym in E; elim (Hs x Hx E).
  - apply (own_alone U beyond (mkPopts None true) eq_refl eol children fopen_ok sur). exact H.
  - apply has_name_ok. exact C.
Qed.
Theorem C62_not_there : forall U beyond eol children fopen_ok sur l n all, Forall (other_than n) l ->
  parse_config_file U beyond (mkPopts (Some n) all) eol children fopen_ok sur (Some l) = Ok ([], []).
Proof.
  intros U beyond eol children fopen_ok sur l n all F. apply (not_there U beyond (mkPopts (Some n) all) n eq_refl).
  eapply Forall_impl; [|exact F]. intros s' Hs. destruct s'; cbn [other_than passed] in *; try exact Hs; intros x Hx; destruct (same_nocase n x) eqn:E; try reflexivity;
    apply same_ok, nocase_sym in E; elim (Hs x Hx E).
Qed.
(** two designs, the second one also known as "Deux" *)
Definition pair_stmts : list stmt :=
  map (fun p => s_box (fst p) (snd p) [i_sample (txt "x"); i_shapes [(W_, lines (txt "# ") [])]; i_elastic [W_]] (fst p)) [(txt "one", []); (txt "two", [txt "Deux"])].
Example C62_together_example : exists ds,
  Forall2 (fun s d => parse_config_file demo_tab (Ok sentry0) po_all [10%N] [] (fun _ => true) no_sur (Some [s]) = Ok ([d], [])) pair_stmts ds /\
  pairwise_not common_name pair_stmts /\ map c_name ds = [Some (txt "one"); Some (txt "two")] /\
  parse_config_file demo_tab UB (mkPopts (Some (txt "DEUX")) false) [10%N] [] (fun _ => true) no_sur (Some (s_junk :: pair_stmts)) = Ok ([nth 1 ds init_design], []).
Proof.
  eexists. split; [constructor; [vm_compute; reflexivity|]; constructor; [vm_compute; reflexivity|constructor]|]. split; [|split; vm_compute; reflexivity].
  intros i j a b L Hi Hj (x & y & Hx & Hy & E). assert (X : i = 0 /\ j = 1).
  { assert (H1 : i < 2) by (change 2 with (List.length pair_stmts); apply nth_error_Some; congruence).
    assert (H2 : j < 2) by (change 2 with (List.length pair_stmts); apply nth_error_Some; congruence). lia. }
  destruct X as [-> ->]. injection Hi as <-. injection Hj as <-. apply same_ok in E. cbn [names_in map fst snd In] in Hx, Hy.
  destruct Hx as [<-|[]]. destruct Hy as [<-|[<-|[]]]; vm_compute in E; discriminate E.
Qed.

Print Assumptions C61_config_read.
Print Assumptions C61_designs.
Print Assumptions C61_unambiguous.
Print Assumptions C61_wellformed.
Print Assumptions C61_byte_order_mark.
Print Assumptions C61_byte_order_mark_refuted.
Print Assumptions C61_last_line_refuted.
Print Assumptions C61_sample_refuted.
Print Assumptions C61_names_refuted.
Print Assumptions C62_total.
Print Assumptions C62_recovery.
Print Assumptions C62_brace_refuted.
Print Assumptions C62_no_parent.
Print Assumptions C62_accepted.
Print Assumptions C62_isolated.
Print Assumptions C62_written_out.
Print Assumptions C62_together.
Print Assumptions C62_chosen.
Print Assumptions C62_not_there.
