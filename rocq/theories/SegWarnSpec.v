(* Specification vocabulary for C128: pixels taken out of masks. *)
From Verif Require Import Prelude Counting SegModel SegSpec SegWarnModel.
From Coq Require Import String.
Local Open Scope nat_scope.
Local Open Scope list_scope.

(* SPEC: pixel [p] was in some mask before and is not in that mask afterwards *)
Definition taken (inp out : list bitmask) (p : nat) : bool :=
  existsb (fun q => px (fst q) p && negb (px (snd q) p)) (combine inp out).
(* SPEC: pixel [p] is in two masks of the list *)
Definition in_two (bs : list bitmask) (p : nat) : Prop :=
  exists i j a b, i < j /\ nth_error bs i = Some a /\ nth_error bs j = Some b /\ px a p = true /\ px b p = true.
(* SPEC: the warnings given for the kind of annotation [key] *)
Definition about (key : string) (ws : list warning) : list warning :=
  filter (fun x => String.eqb (w_key x) key) ws.
