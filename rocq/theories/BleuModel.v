(* Model of the weights lists around compute_sentence_bleu: the default value of the
   parameter is one list object made when the function is defined, and the metric keeps the
   list it was given.  Definitions only. *)
From Verif Require Import Prelude TextModel.
From Coq Require Import QArith.
Local Open Scope nat_scope.
Local Open Scope list_scope.

(* list objects: the default of compute_sentence_bleu (manager.py:603), the default of
   compute_all (manager.py:635), a list made by the user *)
Inductive lref : Type := DefaultBleu | DefaultAll | Own (i : nat).
Definition lref_eqb (a b : lref) : bool :=
  match a, b with DefaultBleu, DefaultBleu | DefaultAll, DefaultAll => true | Own i, Own j => Nat.eqb i j | _, _ => false end.
(* [0.25, 0.25, 0.25, 0.25] *)
Definition quarters : list flt := [Fin (1 # 4); Fin (1 # 4); Fin (1 # 4); Fin (1 # 4)].

(* a call: the response, the list object, its contents at that moment, the outcome *)
Record bcall : Type := MkBcall { bc_response : query_response; bc_ref : lref; bc_used : list flt; bc_outcome : outcome metric }.
Record bsession : Type := MkBs { bs_bleu : list flt; bs_all : list flt; bs_own : list (list flt); bs_calls : list bcall }.
Definition bs_start : bsession := MkBs quarters quarters [] [].
Definition contents_of (s : bsession) (r : lref) : option (list flt) :=
  match r with DefaultBleu => Some (bs_bleu s) | DefaultAll => Some (bs_all s) | Own i => nth_error (bs_own s) i end.
Definition set_contents (s : bsession) (r : lref) (l : list flt) : bsession :=
  match r with
  | DefaultBleu => MkBs l (bs_all s) (bs_own s) (bs_calls s)
  | DefaultAll => MkBs (bs_bleu s) l (bs_own s) (bs_calls s)
  | Own i => MkBs (bs_bleu s) (bs_all s) (firstn i (bs_own s) ++ l :: skipn (S i) (bs_own s)) (bs_calls s)
  end.

Inductive bstep : Type :=
| NewList (l : list flt)                               (* w = [...] *)
| EditList (i : nat) (l : list flt)                    (* w[:] = [...] *)
| Bleu (r : query_response) (w : option nat)           (* compute_sentence_bleu(r) or (r, w) *)
| All (r : query_response) (w : option nat)            (* the BLEU part of compute_all *)
| EditWeights (k : nat) (l : list flt)                 (* metric.parameters["weights"][:] = [...] *)
| ToDict (k : nat).                                    (* metric.to_dict(): a copy of the list *)

Section Session.
  Variable n : nlp.
  (* models: manager.py:600-630 with metric.py:126-148 bleu: the list itself is stored *)
  Definition call_with (s : bsession) (r : query_response) (w : lref) : option bsession :=
    option_map (fun l => MkBs (bs_bleu s) (bs_all s) (bs_own s) (bs_calls s ++ [MkBcall r w l (compute_sentence_bleu n r l)])) (contents_of s w).
  (* [None]: the script names a list or a metric that does not exist *)
  Definition bstep_run (s : bsession) (x : bstep) : option bsession :=
    match x with
    | NewList l => Some (MkBs (bs_bleu s) (bs_all s) (bs_own s ++ [l]) (bs_calls s))
    | EditList i l => option_map (fun _ => set_contents s (Own i) l) (nth_error (bs_own s) i)
    | Bleu r w => call_with s r (match w with Some i => Own i | None => DefaultBleu end)
    | All r w => call_with s r (match w with Some i => Own i | None => DefaultAll end)
    | EditWeights k l => match nth_error (bs_calls s) k with
                         | Some c => match bc_outcome c with Ok _ => Some (set_contents s (bc_ref c) l) | _ => None end
                         | None => None
                         end
    | ToDict k => match nth_error (bs_calls s) k with
                  | Some c => match bc_outcome c, contents_of s (bc_ref c) with
                              | Ok _, Some l => Some (MkBs (bs_bleu s) (bs_all s) (bs_own s ++ [l]) (bs_calls s))
                              | _, _ => None
                              end
                  | None => None
                  end
    end.
  Fixpoint bsession_run (s : bsession) (xs : list bstep) : option bsession :=
    match xs with [] => Some s | x :: r => match bstep_run s x with Some s' => bsession_run s' r | None => None end end.
End Session.
