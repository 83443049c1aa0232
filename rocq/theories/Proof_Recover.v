(** * Errors in a configuration: what follows is read as if it stood alone *)
From Coq Require Import Ascii String List Arith NArith ZArith Bool Lia.
From Verif Require Import Base Model_Unicode Model_Bxs Model_Shape Model_Regex Model_Query Model_Discovery Model_Parser Model_Lexer Spec_Lexer Prop_Lexer Model_Scan Spec_Config Proof_Scan.
Import ListNotations.
Local Open Scope nat_scope.
Local Open Scope list_scope.

(** a statement begins here, or the text ends *)
Definition begins (b : list token) : Prop := match b with [] => True | T_BOX :: _ => True | T_PARENT :: _ => True | _ => False end.
Definition more {A : Type} (b : list token) (x : option (A * list token)) : option (A * list token) :=
  match x with Some (a, r) => Some (a, r ++ b) | None => None end.
Ltac bt b H := destruct b as [|[] b]; try contradiction H.

Lemma string_list_app : forall b a, begins b -> string_list (a ++ b) = more b (string_list a).
Proof.
  intros b a Hb. remember (List.length a) as n eqn:En. assert (Hn : List.length a <= n) by lia. clear En. revert a Hn.
  induction n as [|n IH]; intros a Hn.
  - destruct a; [|cbn in Hn; lia]. bt b Hb; reflexivity.
  - destruct a as [|x a]; [bt b Hb; reflexivity|]. destruct a as [|y a].
    + destruct x; try reflexivity. bt b Hb; reflexivity.
    + destruct x; try reflexivity. destruct y; try reflexivity.
      cbn [string_list app]. rewrite IH by (cbn in Hn; lia). destruct (string_list a) as [[l r]|]; reflexivity.
Qed.
Lemma elist_app : forall b a, begins b -> elist (a ++ b) = more b (elist a).
Proof.
  intros b a Hb. remember (List.length a) as n eqn:En. assert (Hn : List.length a <= n) by lia. clear En. revert a Hn.
  induction n as [|n IH]; intros a Hn.
  - destruct a; [|cbn in Hn; lia]. bt b Hb; reflexivity.
  - destruct a as [|x a]; [bt b Hb; reflexivity|]. destruct a as [|y a].
    + destruct x; try reflexivity. bt b Hb; reflexivity.
    + destruct x; try reflexivity. destruct y; try reflexivity.
      cbn [elist app]. rewrite IH by (cbn in Hn; lia). destruct (elist a) as [[l r]|]; reflexivity.
Qed.
Lemma wlist_cons : forall s z w a, w <> T_RBRACE -> wlist (T_ASCII_ID s :: T_NUMBER z :: w :: a) =
  match wlist (w :: a) with Some (l, r) => Some ((s, z) :: l, r) | None => None end.
Proof. intros s z w a H. destruct w; try congruence; reflexivity. Qed.
Lemma wlist_app : forall b a, begins b -> wlist (a ++ b) = more b (wlist a).
Proof.
  intros b a Hb. remember (List.length a) as n eqn:En. assert (Hn : List.length a <= n) by lia. clear En. revert a Hn.
  induction n as [|n IH]; intros a Hn.
  - destruct a; [|cbn in Hn; lia]. bt b Hb; reflexivity.
  - destruct a as [|x a]; [bt b Hb; reflexivity|]. destruct a as [|y a].
    + destruct x; try reflexivity. bt b Hb; reflexivity.
    + destruct x; try reflexivity. destruct y; try reflexivity. destruct a as [|w a]; [bt b Hb; reflexivity|].
      assert (I : wlist ((w :: a) ++ b) = more b (wlist (w :: a))) by (apply IH; cbn in Hn; cbn; lia).
      change ((T_ASCII_ID s :: T_NUMBER z :: w :: a) ++ b) with (T_ASCII_ID s :: T_NUMBER z :: w :: (a ++ b)).
      assert (D : w = T_RBRACE \/ w <> T_RBRACE) by (destruct w; (left; reflexivity) || (right; discriminate)). destruct D as [->|D]; [reflexivity|].
      rewrite !wlist_cons by exact D. change (w :: a ++ b) with ((w :: a) ++ b). rewrite I. destruct (wlist (w :: a)) as [[l r]|]; reflexivity.
Qed.
Lemma shape_def_app : forall b a, begins b -> shape_def_of (a ++ b) = more b (shape_def_of a).
Proof.
  intros b a Hb. destruct a as [|x a]; [bt b Hb; reflexivity|]. destruct x; try reflexivity.
  destruct a as [|y a]; [bt b Hb; reflexivity|].
  pose proof (string_list_app b (y :: a) Hb) as S. cbn [app] in S |- *.
  assert (D : y = T_RPAR \/ y <> T_RPAR) by (destruct y; (left; reflexivity) || (right; discriminate)). destruct D as [->|D]; [reflexivity|].
  assert (K : forall u, shape_def_of (T_LPAR :: y :: u) = match string_list (y :: u) with Some (s :: l, r') => Some (lines s l, r') | _ => None end)
    by (intros u; destruct y; congruence || reflexivity).
  rewrite !K, S. destruct (string_list (y :: a)) as [[[|? ?] ?]|]; reflexivity.
Qed.
Lemma string_list_len : forall a l r, string_list a = Some (l, r) -> List.length r < List.length a.
Proof.
  intros a. remember (List.length a) as n eqn:En. assert (Hn : List.length a <= n) by lia. rewrite En. clear En. revert a Hn.
  induction n as [|n IH]; intros [|x [|y a]] Hn l r E; try discriminate; try (cbn in Hn; lia); destruct x; try discriminate.
  destruct y; try discriminate; cbn [string_list] in E.
  - destruct (string_list a) as [[l' r']|] eqn:E'; [|discriminate]. injection E as <- <-. apply IH in E'; [cbn; lia|cbn in Hn; lia].
  - injection E as <- <-. cbn. lia.
Qed.
Lemma shape_def_len : forall a l r, shape_def_of a = Some (l, r) -> List.length r < List.length a.
Proof.
  intros a l r E. destruct a as [|x a]; [discriminate|]. destruct x; try discriminate. unfold shape_def_of in E.
  destruct a as [|y a]; [discriminate|].
  assert (G : (match string_list (y :: a) with Some (s :: l0, r') => Some (lines s l0, r') | _ => None end) = Some (l, r) -> List.length r < List.length (T_LPAR :: y :: a)).
  { intros F. destruct (string_list (y :: a)) as [[[|s l0] r']|] eqn:E2; try discriminate. injection F as <- <-. apply string_list_len in E2. cbn in *. lia. }
  destruct y; try (apply G; exact E). injection E as <- <-. cbn. lia.
Qed.
Lemma slist_fuel : forall a f1 f2, List.length a <= f1 -> List.length a <= f2 -> slist f1 a = slist f2 a.
Proof.
  intros a f1. revert a. induction f1 as [|f1 IH]; intros a f2 H1 H2.
  - destruct a; [|cbn in H1; lia]. destruct f2; reflexivity.
  - destruct f2 as [|f2]; [destruct a; [reflexivity|cbn in H2; lia]|]. cbn [slist]. destruct a as [|x a]; [reflexivity|]. destruct x; try reflexivity.
    destruct (shape_def_of a) as [[sd r]|] eqn:E; [|reflexivity]. apply shape_def_len in E. cbn in H1, H2.
    rewrite (IH r f2) by lia. reflexivity.
Qed.
Lemma slist_app : forall b, begins b -> forall a f1 f2, List.length a <= f1 -> List.length (a ++ b) <= f2 -> slist f2 (a ++ b) = more b (slist f1 a).
Proof.
  intros b Hb a f1. revert a. induction f1 as [|f1 IH]; intros a f2 H1 H2.
  - destruct a; [|cbn in H1; lia]. destruct f2; [reflexivity|]. bt b Hb; reflexivity.
  - destruct f2 as [|f2]; [destruct a; [reflexivity|cbn in H2; lia]|]. cbn [slist]. destruct a as [|x a]; [bt b Hb; reflexivity|]. cbn [app]. destruct x; try reflexivity.
    rewrite (shape_def_app b a Hb). destruct (shape_def_of a) as [[sd r]|] eqn:E; [|reflexivity]. apply shape_def_len in E. cbn [more]. cbn in H1, H2. rewrite app_length in H2.
    assert (I : slist f2 (r ++ b) = more b (slist f1 r)) by (apply IH; [lia|rewrite app_length; lia]).
    destruct r as [|t r].
    + cbn [app]. assert (B : match b with T_RBRACE :: _ => False | _ => True end) by (bt b Hb; exact Logic.I).
      assert (S : slist f2 b = None) by (destruct f2; [reflexivity|]; bt b Hb; reflexivity).
      assert (S1 : slist f1 [] = None) by (destruct f1; reflexivity). rewrite S1. bt b Hb; rewrite S; reflexivity.
    + cbn [app] in *. destruct t; try reflexivity; rewrite I; destruct (slist f1 _) as [[l' r']|]; reflexivity.
Qed.
Lemma item_app : forall b a, begins b -> item_of (a ++ b) = more b (item_of a).
Proof.
  intros b a Hb. destruct a as [|x a]; [bt b Hb; reflexivity|].
  destruct x; try reflexivity; try (destruct a as [|y a]; [bt b Hb; reflexivity|]; destruct y; reflexivity).
  - (* shapes *) destruct a as [|y a]; [bt b Hb; reflexivity|]. destruct y; try reflexivity. cbn [app item_of].
    rewrite (slist_app b Hb a (List.length a) (List.length (a ++ b))) by lia. destruct (slist _ a) as [[l r]|]; reflexivity.
  - destruct a as [|y a]; [bt b Hb; reflexivity|]. destruct y; try reflexivity. cbn [app item_of].
    rewrite (elist_app b a Hb). destruct (elist a) as [[l r]|]; reflexivity.
  - destruct a as [|y a]; [bt b Hb; reflexivity|]. destruct y; try reflexivity. cbn [app item_of].
    rewrite (wlist_app b a Hb). destruct (wlist a) as [[l r]|]; reflexivity.
  - destruct a as [|y a]; [bt b Hb; reflexivity|]. destruct y; try reflexivity. destruct a as [|z a]; [bt b Hb; reflexivity|]. destruct z; reflexivity.
  - (* replace *) cbn [app item_of]. destruct a as [|y a]; [bt b Hb; reflexivity|].
    destruct y; try reflexivity; cbn [app rflag].
    + destruct a as [|z a]; [bt b Hb; reflexivity|]. destruct z; try reflexivity. destruct a as [|w a]; [bt b Hb; reflexivity|]. destruct w; reflexivity.
    + destruct a as [|z a]; [bt b Hb; reflexivity|]. destruct z; try reflexivity. destruct a as [|w a]; [bt b Hb; reflexivity|]. destruct w; try reflexivity.
      destruct a as [|v a]; [bt b Hb; reflexivity|]. destruct v; reflexivity.
  - (* reverse *) cbn [app item_of]. destruct a as [|y a]; [bt b Hb; reflexivity|].
    destruct y; try reflexivity; cbn [app rflag].
    + destruct a as [|z a]; [bt b Hb; reflexivity|]. destruct z; try reflexivity. destruct a as [|w a]; [bt b Hb; reflexivity|]. destruct w; reflexivity.
    + destruct a as [|z a]; [bt b Hb; reflexivity|]. destruct z; try reflexivity. destruct a as [|w a]; [bt b Hb; reflexivity|]. destruct w; try reflexivity.
      destruct a as [|v a]; [bt b Hb; reflexivity|]. destruct v; reflexivity.
  - destruct a as [|y a]; [bt b Hb; reflexivity|]. destruct y; try reflexivity. cbn [app item_of].
    rewrite (string_list_app b a Hb). destruct (string_list a) as [[l r]|]; reflexivity.
Qed.
Lemma elist_len : forall a l r, elist a = Some (l, r) -> List.length r < List.length a.
Proof.
  intros a. remember (List.length a) as n eqn:En. assert (Hn : List.length a <= n) by lia. rewrite En. clear En. revert a Hn.
  induction n as [|n IH]; intros [|x [|y a]] Hn l r E; try discriminate; try (cbn in Hn; lia); destruct x; try discriminate.
  destruct y; try discriminate; cbn [elist] in E.
  - destruct (elist a) as [[l' r']|] eqn:E'; [|discriminate]. injection E as <- <-. apply IH in E'; [cbn; lia|cbn in Hn; lia].
  - injection E as <- <-. cbn. lia.
Qed.
Lemma wlist_len : forall a l r, wlist a = Some (l, r) -> List.length r < List.length a.
Proof.
  intros a. remember (List.length a) as n eqn:En. assert (Hn : List.length a <= n) by lia. rewrite En. clear En. revert a Hn.
  induction n as [|n IH]; intros [|x [|y [|w a]]] Hn l r E; try discriminate; try (cbn in Hn; lia);
    try (destruct x; discriminate); try (destruct x; try discriminate; destruct y; discriminate).
  destruct x; try discriminate. destruct y; try discriminate.
  assert (D : w = T_RBRACE \/ w <> T_RBRACE) by (destruct w; (left; reflexivity) || (right; discriminate)). destruct D as [->|D].
  - injection E as <- <-. cbn. lia.
  - rewrite wlist_cons in E by exact D. destruct (wlist (w :: a)) as [[l' r']|] eqn:E'; [|discriminate]. injection E as <- <-.
    apply IH in E'; [cbn in *; lia|cbn in *; lia].
Qed.
Lemma slist_len : forall f a l r, slist f a = Some (l, r) -> List.length r < List.length a.
Proof.
  induction f as [|f IH]; intros a l r E; [discriminate|]. cbn [slist] in E. destruct a as [|x a]; [discriminate|]. destruct x; try discriminate.
  destruct (shape_def_of a) as [[sd r']|] eqn:E2; [|discriminate]. apply shape_def_len in E2.
  assert (G : match slist f r' with Some (l, r'') => Some ((i, sd) :: l, r'') | None => None end = Some (l, r) -> List.length r < List.length (T_SHAPE i :: a)).
  { intros F. destruct (slist f r') as [[l' r'']|] eqn:E3; [|discriminate]. injection F as <- <-. apply IH in E3. cbn. lia. }
  destruct r' as [|t r']; [exact (G E)|]. destruct t; try exact (G E). injection E as <- <-. cbn in *. lia.
Qed.
Lemma item_len : forall a i r, item_of a = Some (i, r) -> List.length r < List.length a.
Proof.
  intros a i r E. destruct a as [|x a]; [discriminate|]. destruct x; try discriminate; cbn [item_of] in E.
  - destruct a as [|y a]; [discriminate|]. destruct y; try discriminate. destruct (slist _ a) as [[l r']|] eqn:E2; [|discriminate]. injection E as <- <-. apply slist_len in E2. cbn. lia.
  - destruct a as [|y a]; [discriminate|]. destruct y; try discriminate. destruct (elist a) as [[l r']|] eqn:E2; [|discriminate]. injection E as <- <-. apply elist_len in E2. cbn. lia.
  - destruct a as [|y a]; [discriminate|]. destruct y; try discriminate. destruct (wlist a) as [[l r']|] eqn:E2; [|discriminate]. injection E as <- <-. apply wlist_len in E2. cbn. lia.
  - destruct a as [|y a]; [discriminate|]. destruct y; try discriminate. destruct a as [|z a]; [discriminate|]. destruct z; try discriminate. injection E as <- <-. cbn. lia.
  - destruct a as [|y a]; [discriminate|]. destruct y; try discriminate; cbn [rflag] in E.
    + destruct a as [|z a]; [discriminate|]. destruct z; try discriminate. destruct a as [|w a]; [discriminate|]. destruct w; try discriminate. injection E as <- <-. cbn. lia.
    + destruct a as [|z a]; [discriminate|]. destruct z; try discriminate. destruct a as [|w a]; [discriminate|]. destruct w; try discriminate.
      destruct a as [|v a]; [discriminate|]. destruct v; try discriminate. injection E as <- <-. cbn. lia.
  - destruct a as [|y a]; [discriminate|]. destruct y; try discriminate; cbn [rflag] in E.
    + destruct a as [|z a]; [discriminate|]. destruct z; try discriminate. destruct a as [|w a]; [discriminate|]. destruct w; try discriminate. injection E as <- <-. cbn. lia.
    + destruct a as [|z a]; [discriminate|]. destruct z; try discriminate. destruct a as [|w a]; [discriminate|]. destruct w; try discriminate.
      destruct a as [|v a]; [discriminate|]. destruct v; try discriminate. injection E as <- <-. cbn. lia.
  - destruct a as [|y a]; [discriminate|]. destruct y; try discriminate. injection E as <- <-. cbn. lia.
  - destruct a as [|y a]; [discriminate|]. destruct y; try discriminate.
    + injection E as <- <-. cbn. lia.
    + destruct (string_list a) as [[l r']|] eqn:E2; [|discriminate]. injection E as <- <-. apply string_list_len in E2. cbn. lia.
  - destruct a as [|y a]; [discriminate|]. destruct y; try discriminate. injection E as <- <-. cbn. lia.
  - destruct a as [|y a]; [discriminate|]. destruct y; try discriminate. injection E as <- <-. cbn. lia.
  - destruct a as [|y a]; [discriminate|]. destruct y; try discriminate. injection E as <- <-. cbn. lia.
Qed.
Lemma layout_S : forall f t r, t <> T_END -> layout (S f) (t :: r) = match item_of (t :: r) with
  | Some (i, r1) => let '(l, e, r') := layout f r1 in (i :: l, e, r') | None => ([], None, t :: r) end.
Proof. intros f t r H. destruct t; try congruence; reflexivity. Qed.
Lemma layout_app : forall b, begins b -> forall f1 a f2, List.length a < f1 -> List.length (a ++ b) < f2 ->
  layout f2 (a ++ b) = let '(l, e, r) := layout f1 a in (l, e, r ++ b).
Proof.
  intros b Hb. induction f1 as [|f1 IH]; intros a f2 H1 H2; [lia|]. destruct f2 as [|f2]; [lia|].
  destruct a as [|t a].
  - cbn [app]. bt b Hb; reflexivity.
  - assert (D : t = T_END \/ t <> T_END) by (destruct t; (left; reflexivity) || (right; discriminate)). destruct D as [->|D].
    + destruct a as [|y a]; [cbn [app]; bt b Hb; reflexivity|]. destruct y; reflexivity.
    + cbn [app]. rewrite !layout_S by exact D. change (t :: a ++ b) with ((t :: a) ++ b). rewrite (item_app b (t :: a) Hb).
      destruct (item_of (t :: a)) as [[i r1]|] eqn:E; [|reflexivity]. cbn [more]. apply item_len in E.
      rewrite (IH r1 f2); [|lia|rewrite app_length in *; cbn [List.length] in *; lia]. destruct (layout f1 r1) as [[l e] r']. reflexivity.
Qed.
Lemma layout_len : forall f a l e r, layout f a = (l, e, r) -> List.length r <= List.length a.
Proof.
  induction f as [|f IH]; intros a l e r E; [injection E as <- <- <-; lia|].
  destruct a as [|t a]; [injection E as <- <- <-; lia|].
  assert (D : t = T_END \/ t <> T_END) by (destruct t; (left; reflexivity) || (right; discriminate)). destruct D as [->|D].
  - destruct a as [|y a]; [injection E as <- <- <-; cbn; lia|]. destruct y; injection E as <- <- <-; cbn; lia.
  - rewrite layout_S in E by exact D. destruct (item_of (t :: a)) as [[i r1]|] eqn:E2; [|injection E as <- <- <-; lia].
    destruct (layout f r1) as [[l' e'] r'] eqn:E3. injection E as <- <- <-. apply IH in E3. apply item_len in E2. lia.
Qed.
Lemma recovered_app : forall b a, begins b -> recovered (a ++ b) = recovered a ++ b.
Proof.
  intros b a Hb. induction a as [|t a IH]; [bt b Hb; reflexivity|]. destruct t; try exact IH; reflexivity.
Qed.
Lemma recovered_len : forall a, List.length (recovered a) <= List.length a.
Proof. induction a as [|t a IH]; [cbn; lia|]. destruct t; cbn [recovered List.length]; lia. Qed.
Lemma alias_app : forall b a, begins b -> alias_list (a ++ b) = let '(l, ok, r) := alias_list a in (l, ok, r ++ b).
Proof.
  intros b a Hb. remember (List.length a) as n eqn:En. assert (Hn : List.length a <= n) by lia. clear En. revert a Hn.
  induction n as [|n IH]; intros a Hn.
  - destruct a; [|cbn in Hn; lia]. bt b Hb; reflexivity.
  - destruct a as [|x a]; [bt b Hb; reflexivity|]. destruct x; try reflexivity. destruct a as [|y a]; [bt b Hb; reflexivity|].
    destruct y; try reflexivity. cbn [app alias_list]. rewrite (IH a) by (cbn in Hn; lia). destruct (alias_list a) as [[l ok] r]. reflexivity.
Qed.
Lemma alias_len : forall a l ok r, alias_list a = (l, ok, r) -> List.length r <= List.length a.
Proof.
  intros a. remember (List.length a) as n eqn:En. assert (Hn : List.length a <= n) by lia. rewrite En. clear En. revert a Hn.
  induction n as [|n IH]; intros a Hn l ok r E.
  - destruct a; [|cbn in Hn; lia]. injection E as <- <- <-. lia.
  - destruct a as [|x a]; [injection E as <- <- <-; lia|]. destruct x; try (injection E as <- <- <-; lia). destruct a as [|y a]; [injection E as <- <- <-; cbn; lia|].
    destruct y; try (injection E as <- <- <-; cbn; lia). cbn [alias_list] in E. destruct (alias_list a) as [[l' ok'] r'] eqn:E2. injection E as <- <- <-.
    apply IH in E2; [cbn; lia|cbn in Hn; lia].
Qed.
Lemma design_app : forall b a, begins b -> design_of (a ++ b) = let '(s, r) := design_of a in (s, r ++ b).
Proof.
  intros b a Hb. destruct a as [|x a]; [cbn [app]; unfold design_of; pose proof (recovered_app b [] Hb); bt b Hb; reflexivity|].
  assert (G : recovered (x :: a ++ b) = recovered (x :: a) ++ b) by exact (recovered_app b (x :: a) Hb).
  destruct x; try (cbn [app]; unfold design_of; rewrite G; reflexivity). cbn [app]. unfold design_of. rewrite (alias_app b a Hb).
  destruct (alias_list a) as [[al ok] r1] eqn:E. destruct ok; [|rewrite (recovered_app b r1 Hb); reflexivity].
  rewrite (layout_app b Hb (S (List.length r1)) r1) by lia. destruct (layout _ r1) as [[l e] r2]. destruct e; [destruct l; cbn [is_nil]|]; rewrite ?(recovered_app b r2 Hb); reflexivity.
Qed.
Lemma design_len : forall a s r, design_of a = (s, r) -> List.length r <= List.length a.
Proof.
  intros a s r E. unfold design_of in E. destruct a as [|x a]; [injection E as <- <-; cbn; lia|].
  destruct x; try (injection E as <- <-; pose proof (recovered_len a); cbn; lia).
  destruct (alias_list a) as [[al ok] r1] eqn:E1. apply alias_len in E1. pose proof (recovered_len r1). destruct ok; [|injection E as <- <-; cbn; lia].
  destruct (layout _ r1) as [[l e] r2] eqn:E2. apply layout_len in E2. pose proof (recovered_len r2).
  destruct e; injection E as <- <-; [|cbn; lia]. destruct (is_nil l); cbn; lia.
Qed.
Lemma config_fuel : forall f1 a f2, List.length a <= f1 -> List.length a <= f2 -> config_file f1 a = config_file f2 a.
Proof.
  induction f1 as [|f1 IH]; intros a f2 H1 H2.
  - destruct a; [|cbn in H1; lia]. destruct f2; reflexivity.
  - destruct a as [|t a]; [destruct f2; reflexivity|]. destruct f2 as [|f2]; [cbn in H2; lia|]. cbn [List.length] in H1, H2. pose proof (recovered_len a) as R.
    destruct t; cbn [config_file]; try (f_equal; apply IH; lia).
    + destruct a as [|y a]; [cbn; f_equal; apply IH; cbn; lia|]. destruct y; try (f_equal; apply IH; lia). f_equal. apply IH; cbn in H1, H2; lia.
    + destruct (design_of a) as [s r] eqn:E. apply design_len in E. f_equal. apply IH; lia.
Qed.
Lemma config_app : forall b, begins b -> forall f1 a f2, List.length a <= f1 -> List.length (a ++ b) <= f2 ->
  config_file f2 (a ++ b) = config_file f1 a ++ config_file (List.length b) b.
Proof.
  intros b Hb. induction f1 as [|f1 IH]; intros a f2 H1 H2.
  - destruct a; [|cbn in H1; lia]. cbn [app]. apply config_fuel; [exact H2|lia].
  - destruct a as [|t a].
    + cbn [app]. replace (config_file (S f1) []) with (@nil stmt) by reflexivity. cbn [app]. apply config_fuel; [exact H2|lia].
    + destruct f2 as [|f2]; [cbn in H2; lia|]. cbn [List.length app] in H1, H2. rewrite app_length in H2. pose proof (recovered_len a) as R.
      assert (G : config_file f2 (recovered (a ++ b)) = config_file f1 (recovered a) ++ config_file (List.length b) b).
      { rewrite (recovered_app b a Hb). apply IH; [lia|rewrite app_length; lia]. }
      cbn [app].
      destruct t; cbn [config_file]; try (rewrite G; reflexivity).
      * destruct a as [|y a]; [cbn [app] in *; bt b Hb; rewrite G; reflexivity|].
        destruct y; cbn [app] in *; try (rewrite G; reflexivity). cbn [List.length] in H1, H2.
        rewrite (IH a f2) by (rewrite ?app_length; lia). reflexivity.
      * rewrite (design_app b a Hb). destruct (design_of a) as [s r] eqn:E. apply design_len in E.
        rewrite (IH r f2) by (rewrite ?app_length; lia). reflexivity.
Qed.
Theorem statements_app : forall a b, begins b -> statements (a ++ b) = statements a ++ statements b.
Proof. intros a b Hb. apply config_app; [exact Hb|lia|lia]. Qed.
