(** * C77: which designs -q and -l look at *)
From Coq Require Import Ascii String List Arith NArith ZArith Bool Lia.
From Verif Require Import Base BaseFacts Model_Unicode Model_Bxs Model_Shape Spec_Str Proof_Str Spec_Design Demo
  Model_Query Spec_Query Proof_Query Model_Discovery Spec_Discovery Model_Parser Spec_Parser Spec_Grammar Proof_Parser3 Proof_Parser2 Proof_Safe Proof_SafeText Proof_Isolated Prop_Parser Prop_Discovery Spec_File Proof_File Prop_File
  Model_Scan Spec_Safe Model_Cmdline Spec_Options Prop_Options Model_Main Model_List Spec_List Model_Program Spec_Program Prop_Safe Shipped Proof_Shipped Prop_Shipped Prop_Program Prop_Pipe Proof_Pipe Spec_Default Prop_Query Prop_Str Prop_List Prop_Adhoc Spec_Ask Prop_Ask Prop_Default Spec_All.
Import ListNotations.
Local Open Scope nat_scope.
Local Open Scope list_scope.

Definition has_name (d : cdesign) : Prop := exists n, c_name d = Some n.
Definition apart (ds : list cdesign) : Prop := ForallOrdPairs (fun x y => ~ share_name x y) ds.

Section Several.
Variable U : uctab.
Hypothesis HU : uctab_ok U.
Variable beyond : res sentry.
Variable eol : list N.
Variable fopen_ok : list N -> bool.
Variable contents : list N -> list N.
Variable sur : surroundings.
Variable po : popts.

Lemma yields_name : forall children s d, yields U beyond eol children fopen_ok sur s d -> exists n al lay fin, s = s_box n al lay fin /\ c_name d = Some n.
Proof.
  intros children s d Y. unfold Spec_File.yields, alone_in_file in Y. destruct (designs_alone _ _ _ _ _ _ _ _ _ _ Y) as (ss & Hs & F).
  inversion F as [|x y lx ly [_ M] F' E1 E2]; subst. inversion F'; subst. assert (x = s). { assert (I0 : In x [s]) by (eapply sub_in; [eassumption..|exact Hs|left; reflexivity]). destruct I0 as [->|[]]. reflexivity. } subst x.
  destruct M as (m & al & lay & fin & -> & _ & _ & Nm & _). exists m, al, lay, fin. auto.
Qed.
Lemma apart_snoc : forall ds d, apart ds -> (forall x, In x ds -> ~ share_name x d) -> apart (ds ++ [d]).
Proof.
  intros ds d H. induction H as [|x ds Hx H IH]; intros Hd; cbn [app]; [constructor; constructor|]. constructor.
  - apply Forall_app. split; [exact Hx|]. constructor; [apply Hd; left; reflexivity|constructor].
  - apply IH. intros y Hy. apply Hd. right. exact Hy.
Qed.
Lemma says_names : forall children ds ps l o, file_says U beyond eol children fopen_ok sur po ds ps l o -> Forall has_name ds -> apart ds ->
  match o with Some (ds', _) => Forall has_name ds' /\ apart ds' | None => True end.
Proof.
  intros children ds ps l o H. induction H as [ds ps|ds ps s l o Hv H IH|ds ps s p l o Hn Hp H IH|ds ps s p l o Hn Hp H IH|ds ps s l o Hw H IH|ds ps s l o Ha H IH|ds ps s d l o Hy Hn H IH|ds ps s d l o He Hy Ha Hn H IH|ps s d l He Hy Hw|ds ps s l Hf Hw Ha];
    intros N1 A1; try exact (IH N1 A1); try exact Logic.I.
  - split; assumption.
  - destruct (yields_name _ _ _ Hy) as (n & al & lay & fin & -> & En). apply IH.
    + apply Forall_app. split; [exact N1|]. constructor; [exists n; exact En|constructor].
    + apply apart_snoc; [exact A1|]. intros x Hx (m & Nx & (k & Ek & Nk)). apply Hn. exists x. split; [exact Hx|]. left. destruct Nx as (j & Ej & Nj). exists j. split; [exact Ej|].
      rewrite En in Ek. injection Ek as <-. eapply nocase_trans; [exact Nj|]. apply nocase_sym. exact Nk.
  - destruct (yields_name _ _ _ Hy) as (n & al & lay & fin & -> & En). split; [constructor; [exists n; exact En|constructor]|constructor; constructor].
Qed.
Lemma joins_all : forall new have, apart (have ++ new) -> joins have new (have ++ new).
Proof.
  induction new as [|d new IH]; intros have A; [rewrite app_nil_r; constructor|]. apply jo_add.
  - intros x Hx. apply in_split in Hx as (a & b & ->). rewrite <- !app_assoc in A. cbn [app] in A. clear - A. induction a as [|y a IHa]; cbn [app] in A; inversion A as [|? ? F A']; subst; [|exact (IHa A')].
    rewrite Forall_forall in F. apply F. apply in_or_app. right. left. reflexivity.
  - replace (have ++ d :: new) with ((have ++ [d]) ++ new) in * by (rewrite <- app_assoc; reflexivity). apply IH. exact A.
Qed.
Lemma copied : forall have new, Forall has_name new -> apart new -> joins have new (copy_designs have new).
Proof.
  intros have new Hn Ha. destruct have as [|h have]; cbn [copy_designs]; [exact (joins_all new [] Ha)|]. generalize (h :: have). clear Ha h have. induction Hn as [|d new Hd Hn IH]; intros r; cbn [fold_left]; [constructor|].
  destruct (designs_contain r d) eqn:E.
  - apply contain_ok in E as (x & Hx & S0); [|exact Hd]. eapply jo_drop; [exact Hx|exact S0|]. apply IH.
  - apply jo_add; [|apply IH]. intros x Hx S0. assert (X : designs_contain r d = true) by (apply contain_ok; [exact Hd|]; exists x; auto). congruence.
Qed.
Lemma read_file : forall f have ds ps, reading U beyond eol fopen_ok contents sur po f have = Ok (ds, ps) -> in_file U beyond eol fopen_ok contents sur po have f ds ps /\ Forall has_name ds /\ apart ds.
Proof.
  intros f have ds ps H. unfold reading, in_file in *. destruct (fopen_ok f); cbn [parse_config_text] in *.
  - destruct (read_statements (contents f)) as [l| | | |]; try discriminate H. cbn [bind] in H. apply C66_exact in H; [|exact HU]. destruct H as (o & H & E). split; [right; split; [reflexivity|]; exists l, o; auto|].
    apply says_names in H; [|constructor|constructor]. destruct o as [[ds' ps']|]; injection E as -> ->; [exact H|split; constructor].
  - cbn [parse_config_file] in H. injection H as <- <-. split; [left; auto|split; constructor].
Qed.
Lemma beyond_nil : forall known ps, beyond_known known ps [] -> incl ps known.
Proof. intros known ps H. remember [] as n eqn:E. induction H as [known|known p ps new Hp H IH|known p ps new Hp H IH]; [intros x []| |discriminate E]. intros x [<-|Hx]; [exact Hp|exact (IH E x Hx)]. Qed.
Lemma loop_collects : forall fuel f k known have all files, parse_loop (reading U beyond eol fopen_ok contents sur po) fuel f k known have = Ok (all, files) -> k <= List.length known ->
  collects U beyond eol fopen_ok contents sur po known (skipn k known) have f all files.
Proof.
  induction fuel as [|fuel IH]; intros f k known have all files H Hk; [discriminate H|]. cbn [parse_loop] in H. destruct (reading U beyond eol fopen_ok contents sur po f have) as [[ds ps]| | | |] eqn:E; try discriminate H. cbn [bind] in H.
  destruct (read_file f have ds ps E) as (Hf & Hn & Ha). pose proof (copied have ds Hn Ha) as J. destruct (record_new (rev ps) known) as (new & En & B).
  change (fold_left (fun k p => if existsb (Neq_list p) k then k else k ++ [p]) (rev ps) known) with (record_parent_config_files known ps) in En. rewrite En in H.
  assert (Sk : skipn k (known ++ new) = skipn k known ++ new) by (rewrite skipn_app; replace (k - List.length known) with 0 by lia; reflexivity).
  destruct (nth_error (known ++ new) k) as [next|] eqn:Ek.
  - assert (Hk' : S k <= List.length (known ++ new)) by (apply nth_error_Some; congruence). eapply co_next; [exact Hf|exact J|exact B| |exact (IH _ _ _ _ _ _ H Hk')].
    rewrite <- Sk. apply skipn_nth. exact Ek.
  - apply nth_error_None in Ek. rewrite app_length in Ek. assert (En' : new = []) by (destruct new; [reflexivity|cbn [List.length] in Ek; lia]). subst new. rewrite app_nil_r in *.
    rewrite skipn_all2 by lia. injection H as <- <-. eapply co_last; [exact Hf|exact J|]. intros p Hp. apply (beyond_nil _ _ B). apply in_rev in Hp. exact Hp.
Qed.
Lemma joins_fun : forall have new a, joins have new a -> forall b, joins have new b -> a = b.
Proof.
  intros have new a H. induction H as [have|have d new all Hd H IH|have x d new all Hx S0 H IH]; intros b Hb; inversion Hb; subst; auto.
  - exfalso. eapply Hd; eassumption.
  - exfalso. match goal with K : forall y, In y have -> ~ share_name y d |- _ => eapply K; eassumption end.
Qed.
Lemma beyond_fun : forall known ps a, beyond_known known ps a -> forall b, beyond_known known ps b -> a = b.
Proof.
  intros known ps a H. induction H as [known|known p ps new Hp H IH|known p ps new Hp H IH]; intros b Hb; inversion Hb; subst; try contradiction; auto. f_equal. auto.
Qed.
Lemma file_read : forall f have ds ps, in_file U beyond eol fopen_ok contents sur po have f ds ps -> reading U beyond eol fopen_ok contents sur po f have = Ok (ds, ps).
Proof.
  intros f have ds ps H. unfold reading. destruct H as [(-> & -> & ->)|(-> & l & o & E & H & Eo)]; [reflexivity|]. cbn [parse_config_text]. rewrite E. cbn [bind]. apply C66_exact; [exact HU|]. exists o. auto.
Qed.
Lemma collects_loop : forall known todo have f all files, collects U beyond eol fopen_ok contents sur po known todo have f all files ->
  forall k, k <= List.length known -> skipn k known = todo -> exists fuel, parse_loop (reading U beyond eol fopen_ok contents sur po) fuel f k known have = Ok (all, files).
Proof.
  intros known todo have f all files H. induction H as [known have f ds ps all Hf J Hi|known todo have f ds ps have' new next todo' all files Hf J B Et H IH]; intros k Hk Ek.
  - exists 1. cbn [parse_loop]. pose proof (file_read _ _ _ _ Hf) as R. rewrite R. cbn [bind]. destruct (read_file _ _ _ _ R) as (_ & Hn & Ha). rewrite (joins_fun _ _ _ (copied have ds Hn Ha) _ J).
    destruct (record_new (rev ps) known) as (new & En & B).
    assert (En' : new = []). { apply (beyond_fun _ _ _ B). clear - Hi. assert (G : forall l, incl l known -> beyond_known known l []) by (induction l as [|p l IHl]; intros Hl; [constructor|apply bk_old; [apply Hl; left; reflexivity|apply IHl; intros y Hy; apply Hl; right; exact Hy]]).
      apply G. intros p Hp. apply Hi, in_rev, Hp. }
    subst new. unfold record_parent_config_files. rewrite En, app_nil_r. destruct (nth_error known k) as [next|] eqn:E; [|reflexivity]. apply skipn_nth in E. rewrite Ek in E. discriminate E.
  - assert (Sk : skipn k (known ++ new) = next :: todo') by (rewrite skipn_app; replace (k - List.length known) with 0 by lia; rewrite Ek; exact Et).
    assert (Nk : nth_error (known ++ new) k = Some next).
    { clear - Sk. revert Sk. generalize (known ++ new). induction k as [|k IHk]; intros [|y l] Sk; try discriminate Sk; [injection Sk as -> _; reflexivity|]. apply IHk. exact Sk. }
    destruct (IH (S k)) as (fuel & E).
    + apply nth_error_Some. congruence.
    + pose proof (skipn_nth _ _ _ _ Nk) as X. rewrite Sk in X. injection X as X. symmetry. exact X.
    + exists (S fuel). cbn [parse_loop]. pose proof (file_read _ _ _ _ Hf) as R. rewrite R. cbn [bind]. destruct (read_file _ _ _ _ R) as (_ & Hn & Ha). rewrite (joins_fun _ _ _ (copied have ds Hn Ha) _ J).
      destruct (record_new (rev ps) known) as (new' & En & B'). rewrite (beyond_fun _ _ _ B' _ B) in En. unfold record_parent_config_files. rewrite En, Nk. exact E.
Qed.
Lemma loop_more : forall parse fuel f k known have r, parse_loop parse fuel f k known have = Ok r -> forall m, parse_loop parse (fuel + m) f k known have = Ok r.
Proof.
  intros parse. induction fuel as [|fuel IH]; intros f k known have r H m; [discriminate H|]. cbn [parse_loop Nat.add] in *. destruct (parse f have) as [[ds ps]| | | |]; try discriminate H. cbn [bind] in *.
  destruct (nth_error _ k); [apply IH; exact H|exact H].
Qed.
End Several.

(** ** The program *)
Definition collected (U : uctab) (w : world) (g : settings) (po : popts) : list N -> list cdesign -> list (list N) -> Prop :=
  collects U (w_beyond w) (o_eol (g_out g)) (w_can_read w) (w_contents w) (seen w (c_file (g_src g))) po [] [] [].
(** What is loaded, whatever is asked for: exactly this, and nothing is loaded only if there is nothing *)
Theorem C77_loaded : forall U fuel w g first known_files, uctab_ok U -> Forall (legal U) (10%N :: o_eol (g_out g)) -> sound_world U w known_files -> S (List.length known_files) <= fuel ->
  exists ds ps, collected U w g (popts_of g) first ds ps /\ load_designs U fuel w g first = match ds with [] => Err | _ => Ok (ds, ps) end.
Proof.
  intros U fuel w g first files HU He W Hf. destruct (loop_total U HU fuel w files g (popts_of g) first He W Hf) as (ds & ps & E). exists ds, ps. split.
  - exact (loop_collects U HU (w_beyond w) (o_eol (g_out g)) (w_can_read w) (w_contents w) (seen w (c_file (g_src g))) (popts_of g) fuel first 0 [] [] ds ps E (Nat.le_refl 0)).
  - unfold load_designs. change (sur_with (w_sur w) (c_file (g_src g))) with (seen w (c_file (g_src g))). rewrite E. reflexivity.
Qed.
Print Assumptions C77_loaded.

(** what the files amount to is unambiguous, and no two of the designs have the same name *)
Theorem C77_unique : forall U w g po first ds ps ds' ps', uctab_ok U -> collected U w g po first ds ps -> collected U w g po first ds' ps' -> ds = ds' /\ ps = ps'.
Proof.
  intros U w g po first ds ps ds' ps' HU H H'. destruct (collects_loop U HU _ _ _ _ _ _ _ _ _ _ _ _ H 0 (Nat.le_refl 0) eq_refl) as (n & E). destruct (collects_loop U HU _ _ _ _ _ _ _ _ _ _ _ _ H' 0 (Nat.le_refl 0) eq_refl) as (m & E').
  pose proof (loop_more _ _ _ _ _ _ _ E m) as X. pose proof (loop_more _ _ _ _ _ _ _ E' n) as X'. rewrite (Nat.add_comm m n) in X'. rewrite X in X'. injection X' as -> ->. auto.
Qed.
Print Assumptions C77_unique.
Lemma joins_apart : forall have new all, joins have new all -> apart have -> apart all.
Proof. intros have new all H. induction H as [have|have d new all Hd H IH|have x d new all Hx S0 H IH]; intros A; auto. apply IH, apart_snoc; assumption. Qed.
Theorem C77_apart : forall U w g po first ds ps, collected U w g po first ds ps -> ForallOrdPairs (fun x y => ~ share_name x y) ds.
Proof.
  intros U w g po first ds ps H. unfold collected in H. assert (G : forall known todo have f all files, collects U (w_beyond w) (o_eol (g_out g)) (w_can_read w) (w_contents w) (seen w (c_file (g_src g))) po known todo have f all files -> apart have -> apart all).
  { clear H. intros known todo have f all files H. induction H as [known have f ds' ps' all Hf J Hi|known todo have f ds' ps' have' new next todo' all files Hf J B Et H IH]; intros A; [|apply IH]; eapply joins_apart; eassumption. }
  eapply G; [exact H|constructor].
Qed.
Print Assumptions C77_apart.

Lemma unnamed : forall items g, meant items g -> (forall n, ~ In (ItD n) items) -> (forall n, ~ In (ItC n) items) -> c_by_user (g_src g) = false.
Proof. intros items g M Hd Hc. destruct (c_by_user (g_src g)) eqn:E; [|reflexivity]. apply (mt_by_user _ _ M) in E as (arg & [E|E]); [elim (Hc _ E)|elim (Hd _ E)]. Qed.
(** -q without -d: all designs of all files *)
Theorem C77_query : forall U fuel w items rest g fs known_files, uctab_ok U -> asking_run U w items rest g fs -> legal U 10 /\ legal U 13 -> sound_world U w known_files ->
  S (List.length known_files) <= fuel -> (forall n, ~ In (ItD n) items) -> (forall a, In (ItX a) items -> ~ undocumented a) ->
  (forall f, ~ config_file_is (seen w (c_file (g_src g))) f) /\ main U fuel w false items rest = Ok Failure \/
  exists f ds ps, config_file_is (seen w (c_file (g_src g))) f /\ collected U w g every f ds ps /\
    (ds = [] /\ main U fuel w false items rest = Ok Failure \/
     ds <> [] /\ exists arg ts l, last_query items arg /\ terms arg ts /\ well_formed ts /\ picked ts ds l /\
       main U fuel w false items rest = Ok (Success (concat (map (answer (o_eol (g_out g))) l)))).
Proof.
  intros U fuel w items rest g fs files HU R Hb Hw Hf Hd Hx. destruct (asks U w items rest g fs fuel R) as (Hc & arg & ts & HL & Ht & Hwf & Em & q & Ep). rewrite Em, Ep. clear Em.
  pose proof (ar_meant _ _ _ _ _ _ R) as M. pose proof (breaks_legal U items g M Hb) as He. unfold handle_config_parsing. change (sur_with (w_sur w) (c_file (g_src g))) with (seen w (c_file (g_src g))).
  assert (Po : popts_of g = every).
  { unfold popts_of. rewrite (unnamed items g M Hd (proj2 (ar_others _ _ _ _ _ _ R))).
    assert (Hu : m_undoc (g_mode g) = false) by (destruct (m_undoc (g_mode g)) eqn:E; [apply (mt_undoc _ _ M) in E as (a & Ha & Hu); elim (Hx a Ha Hu)|reflexivity]). rewrite Hu.
    unfold every. f_equal. destruct (asked_last items g M (ar_query _ _ _ _ _ _ R)) as (arg' & q' & _ & _ & ->). cbn [negb]. apply orb_true_r. }
  destruct (discovered U _ HU (ar_places _ _ _ _ _ _ R)) as (r & Er & Hr). rewrite Er. cbn [bind]. destruct r as [file|].
  2:{ left. split; [|reflexivity]. intros f F. apply Hr in F. discriminate F. }
  rewrite Hc. right. destruct (C77_loaded U fuel w g (memory file) files HU He Hw Hf) as (ds & ps & C & ->). rewrite Po in C. exists (memory file), ds, ps. split; [apply Hr; reflexivity|]. split; [exact C|].
  destruct ds as [|d ds]; [left; split; reflexivity|]. right. split; [discriminate|]. cbn [bind or_exit].
  destruct (answered (w_qsort w) (o_eol (g_out g)) arg q ts (d :: ds) (ar_sorter _ _ _ _ _ _ R) Ep Ht) as (l & Hl & ->). exists arg, ts, l. auto 10.
Qed.
Print Assumptions C77_query.
(** -l without -d: all designs of all files *)
Theorem C77_list : forall U fuel w items rest g fs known_files, uctab_ok U -> listing_run U w items rest g fs known_files -> S (List.length known_files) <= fuel -> (forall n, ~ In (ItD n) items) ->
  (forall f, ~ config_file_is (seen w (c_file (g_src g))) f) /\ main U fuel w false items rest = Ok Failure \/
  exists f ds ps, config_file_is (seen w (c_file (g_src g))) f /\ collected U w g every f ds ps /\
    (ds = [] /\ main U fuel w false items rest = Ok Failure \/
     ds <> [] /\ exists file bs ls, memory file = f /\ Forall2 (fun p b => memory b = p) ps bs /\ overview U (check_color_support w (o_color (g_out g))) ds file bs ls /\
       main U fuel w false items rest = Ok (Success (lines_with (o_eol (g_out g)) ls))).
Proof.
  intros U fuel w items rest g fs files HU R Hf Hd. pose proof (lr_meant _ _ _ _ _ _ _ R) as M. pose proof (C69_program U fuel w items rest g fs files HU R Hf) as C69. cbv zeta in C69.
  pose proof (unnamed items g M Hd (lr_config _ _ _ _ _ _ _ R)) as Hu. rewrite Hu in C69.
  assert (Hl : m_list (g_mode g) = true) by (apply (mt_list _ _ M); exact (lr_list _ _ _ _ _ _ _ R)).
  assert (Po : popts_of g = every) by (unfold popts_of, every; rewrite Hu, Hl, orb_true_r; reflexivity).
  assert (Hc : c_cld (g_src g) = None).
  { destruct (mt_comment _ _ M) as (ls & F & L). rewrite (concat_none _ _ _ _ _ F) in L; [eapply latest_none; [|exact L]; intros y []|].
    intros i x Hi. destruct i; try exact (fun E => E). elim (lr_config _ _ _ _ _ _ _ R _ Hi). }
  pose proof (breaks_legal U items g M (lr_breaks _ _ _ _ _ _ _ R)) as He.
  rewrite (main_started U fuel w items rest g fs M (lr_opened _ _ _ _ _ _ _ R)) in *. rewrite Hl in *.
  unfold handle_config_parsing in *. change (sur_with (w_sur w) (c_file (g_src g))) with (seen w (c_file (g_src g))) in *.
  destruct (discovered U _ HU (lr_places _ _ _ _ _ _ _ R)) as (r & Er & Hr). rewrite Er in *. cbn [bind] in *. destruct r as [file|].
  2:{ left. split; [|reflexivity]. intros f F. apply Hr in F. discriminate F. }
  rewrite Hc in *. right. destruct (C77_loaded U fuel w g (memory file) files HU He (lr_world _ _ _ _ _ _ _ R) Hf) as (ds & ps & C & E). rewrite E in *. rewrite Po in C. exists (memory file), ds, ps. split; [apply Hr; reflexivity|]. split; [exact C|].
  destruct ds as [|d ds]; [left; split; reflexivity|]. right. split; [discriminate|]. cbn [bind or_exit] in *.
  destruct C69 as [[F _]|(ds' & file' & ps' & ls & X & _ & Es & bs & F2 & Ov)].
  - discriminate F.
  - injection X as <- <- <-. exists file, bs, ls. auto.
Qed.
Print Assumptions C77_list.

(** ** Examples: the file mine.cfg names itself and another file as parents *)
Example C77_query_example : let items := ask_items ["(all)"]%string in
  asking_run demo_tab list_world items [] (meaning items) (Files None None) /\ (legal demo_tab 10 /\ legal demo_tab 13) /\ sound_world demo_tab list_world [name_file; name_base; txt "in.txt"] /\
  (forall n, ~ In (ItD n) items) /\ (forall a, In (ItX a) items -> ~ undocumented a) /\ config_file_is (seen list_world (c_file (g_src (meaning items)))) name_file /\
  told list_world items = "plain
shell
pound-cmt (alias)
"%string.
Proof.
  intros items. destruct C69_program_example as [L _]. cbv zeta in L. split; [|split; [|split; [|split; [|split; [|split]]]]].
  - constructor.
    + apply meaning_ok. vm_compute. reflexivity.
    + apply op_none.
    + exists (txt "(all)"). right. left. reflexivity.
    + split; [intros [F|[F|[]]]; discriminate F|]. intros arg [F|[F|[]]]; discriminate F.
    + exact (lr_places _ _ _ _ _ _ _ L).
    + exact isort_sorter.
  - split; repeat split; discriminate.
  - exact (lr_world _ _ _ _ _ _ _ L).
  - intros n [F|[F|[]]]; discriminate F.
  - intros a [F|[F|[]]]; discriminate F.
  - left. split; [split; [discriminate|vm_compute; reflexivity]|reflexivity].
  - vm_compute. reflexivity.
Qed.
(** the designs of a file hide those of the same name in its parents *)
Definition hiding : world := three_files (top_text ++ txt "BOX Good
sample
x
ends
shapes { w (""#"") }
elastic (w)
END Good
") p_text (q_text 120) (txt "x").
Example C77_hidden_example : told hiding [ItF name_file; ItQ (txt "(all)")] = "bad
Good
"%string /\ told hiding [ItF name_file; ItQ (txt "(all)"); ItX (txt "(undoc)")] = "bad
Good
"%string.
Proof. split; vm_compute; reflexivity. Qed.
Example C77_list_example : let items := [ItF name_file; ItL] in
  listing_run demo_tab list_world items [] (meaning items) (Files None None) [name_file; name_base; txt "in.txt"] /\ (forall n, ~ In (ItD n) items).
Proof. intros items. destruct C69_program_example as [L _]. split; [exact L|]. intros n [F|[F|[]]]; discriminate F. Qed.
