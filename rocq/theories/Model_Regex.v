(** * The regular expressions for names and tags (src/tools.c:56-72) and their matching

    A fragment of the PCRE2 pattern language with its declarative meaning: does the pattern match somewhere in the
    subject? (Greedy and lazy repetition do not differ in this respect; there are no groups to be captured.)
    Only this answer is used by the program (src/regulex.c:73-89). *)
From Coq Require Import List Arith NArith Bool.
From Verif Require Import Base.
Import ListNotations.
Local Open Scope N_scope.

Inductive re : Type :=
| Cls (p : N -> bool)          (* one character of a class *)
| Eps
| Cat (a b : re)
| Alt (a b : re)
| Star (a : re)                (* also the lazy one *)
| Bol                          (* ^ *)
| Eol                          (* $: at the end, or in front of a line feed at the end *)
| NotAhead (a : re)            (* (?!...) *)
| NotBehind (p : N -> bool).   (* (?<!...) with a single character *)

(** [m r b s k]: [b] is what precedes the current position, in reverse order, [s] what follows; [k] is asked about
    the position reached *)
Fixpoint m (r : re) (b s : list N) (k : list N -> list N -> bool) {struct r} : bool :=
  match r with
  | Cls p => match s with c :: s' => p c && k (c :: b) s' | [] => false end
  | Eps => k b s
  | Cat x y => m x b s (fun b' s' => m y b' s' k)
  | Alt x y => m x b s k || m y b s k
  | Star x =>
      (fix again (n : nat) (b s : list N) : bool :=
         k b s || match n with O => false | S n' => m x b s (fun b' s' => again n' b' s') end) (length s) b s
  | Bol => match b with [] => k b s | _ => false end
  | Eol => match s with [] => k b s | [c] => (c =? 10) && k b s | _ => false end
  | NotAhead x => negb (m x b s (fun _ _ => true)) && k b s
  | NotBehind p => match b with c :: _ => negb (p c) && k b s | [] => k b s end
  end.

(** pcre2_match looks for a match at every position *)
Fixpoint search (r : re) (b s : list N) : bool :=
  m r b s (fun _ _ => true) || match s with [] => false | c :: s' => search r (c :: b) s' end.
Definition re_match (r : re) (s : list N) : bool := search r [] s.

Definition lower_letter (c : N) : bool := (97 <=? c) && (c <=? 122).
Definition upper_letter (c : N) : bool := (65 <=? c) && (c <=? 90).
Definition digit (c : N) : bool := (48 <=? c) && (c <=? 57).
Definition is (d c : N) : bool := c =? d.
Fixpoint lit (l : list N) : re := match l with [] => Eps | c :: r => Cat (Cls (is c)) (lit r) end.
Definition dot : re := Cls (fun c => negb (c =? 10)).

(** src/tools.c:61  [^(?!.*?--|none)[a-z][a-z0-9-]*(?<!-)$] *)
Definition strict_id : re :=
  Cat Bol (Cat (NotAhead (Alt (Cat (Star dot) (lit [45; 45])) (lit [110; 111; 110; 101])))
    (Cat (Cls lower_letter) (Cat (Star (Cls (fun c => lower_letter c || digit c || is 45 c)))
      (Cat (NotBehind (is 45)) Eol)))).
(** src/tools.c:67  [^(?!.*?[-_]{2,}|none)[a-zA-Z][a-zA-Z0-9_-]*(?<![-_])$] *)
Definition hyph (c : N) : bool := is 45 c || is 95 c.
Definition loose_id : re :=
  Cat Bol (Cat (NotAhead (Alt (Cat (Star dot) (Cat (Cls hyph) (Cat (Cls hyph) (Star (Cls hyph))))) (lit [110; 111; 110; 101])))
    (Cat (Cls (fun c => lower_letter c || upper_letter c))
      (Cat (Star (Cls (fun c => lower_letter c || upper_letter c || digit c || is 95 c || is 45 c)))
        (Cat (NotBehind hyph) Eol)))).

(** src/tools.c:660-664. A tag that is not ASCII cannot be converted and does not match; such bytes do not match here either. *)
Definition tag_is_valid (tag : list N) : bool := re_match strict_id tag.
(** src/tools.c:668-675 *)
Definition is_ascii_id (strict : bool) (s : list N) : bool :=
  match s with [] => false | _ => re_match (if strict then strict_id else loose_id) s end.
