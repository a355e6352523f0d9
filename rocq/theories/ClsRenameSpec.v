(* Specification vocabulary for C138: the same classifications with other label names and
   identifiers. *)
From Verif Require Import Prelude Counting ClsModel ClsSpec ClsFilterModel ClsFilterSpec ClsPageModel.
From Coq Require Import String QArith.
Local Open Scope nat_scope.
Local Open Scope list_scope.

(* SPEC: the classification with every label [l] replaced by [f l] and the uid [u] by
   [h u] *)
Definition crename (h f : string -> string) (c : classification) : classification :=
  MkCls (h (c_uid c)) (f (c_groundtruth c)) (map f (c_predictions c)) (c_scores c).
(* SPEC: different labels of the list get different names *)
Definition names_apart (f : string -> string) (ls : list string) : Prop :=
  forall a b, In a ls -> In b ls -> f a = f b -> a = b.
(* SPEC: the view of the renamed data selects the same candidates *)
Definition renamed_view (h f : string -> string) (cs : list classification) (w w' : cview) : Prop :=
  forall c l, In c cs -> In l (c_predictions c) -> w' (crename h f c) (f l) = w c l.
(* SPEC: an entry of a table with its label replaced *)
Definition rename_entry {V} (f : string -> string) (x : string * Z * V) : string * Z * V :=
  match x with (l, t, v) => (f l, t, v) end.
(* SPEC: an entry of the examples with its labels and uid renamed *)
Definition rename_example (h f : string -> string) (x : named_example) : named_example :=
  MkNamed (option_map h (nx_uid x)) (nx_thr x) (map (option_map f) (nx_tp x)) (map (option_map f) (nx_fn x)) (map (option_map f) (nx_fp x)).
(* SPEC: a cell of the confusion matrix with its examples *)
Definition rename_cell (h : string -> string) (x : nat * list (option string * option Z)) : nat * list (option string * option Z) :=
  (fst x, map (fun y => (option_map h (fst y), snd y)) (snd x)).
Definition rename_unmatched (h : string -> string) (x : nat * list (option string)) : nat * list (option string) := (fst x, map (option_map h) (snd x)).
