(** * Model of the design given on the command line (option -c): src/boxes.c:72-175 *)
From Coq Require Import Ascii String List Arith NArith ZArith Bool.
From Verif Require Import Base Model_Unicode Model_Bxs Model_Shape Model_Discovery Model_Parser.
Import ListNotations.
Local Open Scope nat_scope.
Local Open Scope list_scope.

(** Bytes of a code point in UTF-8. The argument of -c is a string of bytes; it is represented by its code points, and
    these bytes are what [strcpy] copies. Arguments that are not UTF-8 are not modelled. *)
Definition utf8 (c : N) : list N :=
  (if c <? 128 then [c]
   else if c <? 2048 then [192 + c / 64; 128 + c mod 64]
   else if c <? 65536 then [224 + c / 4096; 128 + (c / 64) mod 64; 128 + c mod 64]
   else [240 + c / 262144; 128 + (c / 4096) mod 64; 128 + (c / 64) mod 64; 128 + c mod 64])%N.
Definition utf8_bytes (s : list N) : list N := flat_map utf8 s.

(** src/boxes.c:131-168: the shapes other than [W]; the missing ones stay as [calloc] left them *)
Definition blank_shape_of (U : uctab) (w : nat) (elastic : bool) : res sentry :=
  p <- genshape U w 1 ;; Ok (mkSentry (fst p) (snd p) 1 w elastic).

(** src/boxes.c:72-175. A NULL from [bxs_from_unicode] is dereferenced (line 119). [genshape] allocates [w + 1] bytes
    for the line that [strcpy] overwrites with the argument (line 127). An error of [genshape] ends the program
    (src/boxes.c:221-226). The sample is never read as a pointer on the ways modelled here; [defined_in] is left out. *)
Definition build_design (U : uctab) (cld : list N) : res cdesign :=
  cldW <- must (bxs_from_unicode U cld) ;;
  let w := num_columns cldW in
  p <- genshape U w 1 ;;
  if w <? length (utf8_bytes cld) then UB else
  nw <- blank_shape_of U w false ;;
  one_r <- blank_shape_of U 1 false ;;
  one_e <- blank_shape_of U 1 true ;;
  Ok (mkCd (Some (lit "<Command Line Definition>")) [] None None
        (match bxs_from_ascii U (lit "n/a") with Ok b => Some b | _ => None end) 98%N
        (fun i => if i =? W_ then mkSentry [utf8_bytes cld] [cldW] 1 w true
                  else if (i =? NW) || (i =? SW) then nw
                  else if (i =? NE) || (i =? SE) then one_r
                  else if (i =? N_) || (i =? S_) || (i =? E_) then one_e
                  else sentry0)
        1 (w + 2) 3 (fun s => match s with BLEF => 1 | _ => 0 end) [lit "transient"] [] []).
