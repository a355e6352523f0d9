(* Specification vocabulary: a page of a list. *)
From Verif Require Import Prelude.

(* SPEC: at most [limit] elements starting at position [offset]; a missing limit and
   the limit zero both mean no limit *)
Definition page_of {A} (limit : option nat) (offset : nat) (l : list A) : list A :=
  match limit with
  | None | Some 0 => skipn offset l
  | Some n => firstn n (skipn offset l)
  end.
