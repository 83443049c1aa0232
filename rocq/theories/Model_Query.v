(** * Model of src/query.c, of the design list of src/list.c, and of the string helpers they use *)
From Coq Require Import List Arith NArith ZArith Bool.
From Verif Require Import Base Model_Shape Model_Regex.
Import ListNotations.
Local Open Scope N_scope.

(** Strings of this file are byte strings. [tolower] of the C locale: in other single-byte locales the C functions may
    in addition fold letters above 127. *)
Definition lower (c : N) : N := if upper_letter c then c + 32 else c.
(** strcasecmp: sign of the difference; a string that ends is smaller *)
Fixpoint strcasecmp (a b : list N) : Z :=
  match a, b with
  | [], [] => 0%Z
  | [], _ :: _ => (-1)%Z
  | _ :: _, [] => 1%Z
  | x :: a', y :: b' =>
      if lower x =? lower y then strcasecmp a' b' else if lower x <? lower y then (-1)%Z else 1%Z
  end.
Definition same_nocase (a b : list N) : bool := (strcasecmp a b =? 0)%Z.

(** src/tools.c:599-611; the array is never NULL where this is used, except for a missing query *)
Definition array_contains0 (array : list (list N)) (s : list N) : bool := existsb (fun x => same_nocase x s) array.

(** strtok (dup, ",") until NULL: the non-empty pieces between commas *)
Fixpoint strtok_from (acc s : list N) : list (list N) :=
  match s with
  | [] => if is_nil acc then [] else [rev acc]
  | c :: r => if c =? 44 then (if is_nil acc then strtok_from [] r else rev acc :: strtok_from [] r)
              else strtok_from (c :: acc) r
  end.
Definition strtok_all (s : list N) : list (list N) := strtok_from [] s.

(** src/tools.c:644-656 for [e = s + strlen (s) - 1]. The second loop stops at [s], which is not a blank then. *)
Definition is_trim (c : N) : bool := (c =? 32) || (c =? 9).
Fixpoint skip_trim (s : list N) : list N :=
  match s with c :: r => if is_trim c then skip_trim r else s | [] => [] end.
Definition trimdup (s : list N) : list N := rev (skip_trim (rev (skip_trim s))).

(** src/query.c:33 *)
Definition QUERY_ALL : list N := [40; 97; 108; 108; 41].
(** src/query.c:37-43 *)
Definition validate_tag (tag : list N) : bool := Neq_list tag QUERY_ALL || tag_is_valid tag.
(** [(s[0] == '+' || s[0] == '-') ? s + 1 : s] *)
Definition raw_tag (s : list N) : list N :=
  match s with c :: r => if (c =? 43) || (c =? 45) then r else s | [] => [] end.

(** src/query.c:53-92; [query] is the array so far, the flag is [contains_positive_element]; [None] is NULL *)
Fixpoint parse_terms (toks : list (list N)) (query : list (list N)) (pos : bool) : option (list (list N) * bool) :=
  match toks with
  | [] => Some (query, pos)
  | q :: r =>
      let trimmed := trimdup q in
      match trimmed with
      | [] => parse_terms r query pos
      | c :: _ =>
          let pos' := pos || negb (c =? 45) in
          let raw := raw_tag trimmed in
          if negb (validate_tag raw) then None
          else if existsb (fun x => same_nocase (raw_tag x) raw) query then None
          else parse_terms r (query ++ [trimmed]) pos'
      end
  end.
(** src/query.c:47-115 *)
Definition parse_query (optarg : list N) : option (list (list N)) :=
  match parse_terms (strtok_all optarg) [] false with
  | None => None
  | Some (query, pos) =>
      if is_nil query then None
      else if pos then Some query else Some (query ++ [QUERY_ALL])
  end.

(** src/query.c:130-151: the loop over the query *)
Fixpoint filter_loop (tags : list (list N)) (query : list (list N)) (result : bool) : bool :=
  match query with
  | [] => result
  | q :: r =>
      match q with
      | c :: t =>
          if c =? 43 then (if array_contains0 tags t then filter_loop tags r true else false)
          else if c =? 45 then (if array_contains0 tags t then false else filter_loop tags r result)
          else filter_loop tags r (if array_contains0 tags q then true else result)
      | [] => filter_loop tags r (if array_contains0 tags q then true else result)
      end
  end.
(** src/query.c:119-155 *)
Definition filter_by_tag (query : list (list N)) (tags : list (list N)) : bool :=
  filter_loop tags query (array_contains0 query QUERY_ALL).

(** What the listings need to know about a design (src/boxes.in.h:103-118) *)
Record entry : Type := mkEntry { e_name : list N; e_aliases : list (list N); e_tags : list (list N) }.

(** src/list.c:103-107 *)
Definition style_sort (a b : entry) : Z := strcasecmp (e_name a) (e_name b).
(** qsort is a parameter *)
Section Sorting.
Variable qs : forall A : Type, (A -> A -> Z) -> list A -> list A.
(** src/list.c:111-124 *)
Definition sort_designs_by_name (designs : list entry) : list entry := qs entry style_sort designs.

(** src/query.c:159-175: the text printed; ["%s%s"] and ["%s (alias)%s"] *)
Definition alias_mark : list N := [32; 40; 97; 108; 105; 97; 115; 41].
Definition query_line (eol : list N) (e : entry) : list N :=
  e_name e ++ eol ++ flat_map (fun a => a ++ alias_mark ++ eol) (e_aliases e).
Definition query_by_tag (eol : list N) (query : list (list N)) (designs : list entry) : list N :=
  flat_map (fun e => if filter_by_tag query (e_tags e) then query_line eol e else []) (sort_designs_by_name designs).

(** src/list.c:128-145; a statistics entry is a tag and its count *)
Fixpoint count_tag (tag : list N) (stats : list (list N * nat)) : list (list N * nat) :=
  match stats with
  | [] => [(tag, 1%nat)]
  | (t, n) :: r => if same_nocase t tag then (t, S n) :: r else (t, n) :: count_tag tag r
  end.
(** src/list.c:377-420: the statistics of the listing *)
Definition tag_stats (designs : list entry) : list (list N * nat) :=
  fold_left (fun st t => count_tag t st) (flat_map e_tags (sort_designs_by_name designs)) [].
(** src/list.c:149-152 *)
Definition tagstats_sort (a b : list N * nat) : Z := strcasecmp (fst a) (fst b).
(** src/list.c:156-168: the order in which they are printed *)
Definition printed_stats (designs : list entry) : list (list N * nat) := qs _ tagstats_sort (tag_stats designs).
End Sorting.

(** src/list.c:44-62 *)
Definition analyze_names (e : entry) : nat * nat :=
  let n := length (e_aliases e) in
  (n, (length (e_name e) + sum (map (fun a => length a) (e_aliases e)) + 2 * (n - 1) + (if (0 <? n)%nat then 7 else 0))%nat).
(** src/list.c:71-101: strcpy to a moving position in a buffer of [siz + 1] bytes: [UB] if it does not fit *)
Definition put (siz : nat) (buf s : list N) : res (list N) := if (siz <? length buf + length s)%nat then UB else Ok (buf ++ s).
Fixpoint put_aliases (siz : nat) (buf : list N) (al : list (list N)) : res (list N) :=
  match al with
  | [] => Ok buf
  | a :: r =>
      b <- put siz buf a ;;
      b' <- (if is_nil r then Ok b else put siz b [44; 32]) ;;
      put_aliases siz b' r
  end.
Definition names (e : entry) : res (list N) :=
  let (n, siz) := analyze_names e in
  b <- put siz [] (e_name e) ;;
  if (0 <? n)%nat then b' <- put siz b [32; 97; 108; 105; 97; 115; 32] ;; put_aliases siz b' (e_aliases e) else Ok b.
