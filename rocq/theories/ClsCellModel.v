(* Model of compute_confusion_matrix_with_examples of the classification evaluator: the
   nested dictionaries keyed by labels and the loop that fills them.  Definitions only. *)
From Verif Require Import Prelude CacheModel Counting ClsModel RocModel FlowModel ClsFilterModel.
From Coq Require Import String.
Local Open Scope nat_scope.
Local Open Scope list_scope.

(* a cell {"count": n, "examples": [...]} *)
Notation cell X := (nat * list X)%type.
(* models: classification/metric.py:214-300 the value of a ConfusionMatrixWithExamples
   metric; dictionaries are association lists *)
Record cmx : Type := MkCmx {
  cx_cells : list (string * list (string * cell (option string * option Z)));
  cx_unmatched : list (string * cell (option string)) }.

(* models: classification/utilities.py:198-217 create_empty_confusion_matrix_with_examples;
   [names] are the values of index_to_label (pairwise distinct, see C78_labels_stay) *)
Definition empty_cmx (names : list string) : cmx :=
  MkCmx (map (fun g => (g, map (fun p => (p, (0, []))) names)) names) (map (fun g => (g, (0, []))) names).

(* d[k] = f(d[k]); [None] is the KeyError *)
Fixpoint upd {V} (d : list (string * V)) (k : string) (f : V -> option V) : option (list (string * V)) :=
  match d with
  | [] => None
  | (k', v) :: t =>
      if String.eqb k k' then match f v with Some v' => Some ((k', v') :: t) | None => None end
      else match upd t k f with Some t' => Some ((k', v) :: t') | None => None end
  end.
(* models: utilities.py:270-278, 284-287: count += 1 and examples.append(x) *)
Definition bump {X} (x : X) (c : cell X) : option (cell X) := Some (S (fst c), snd c ++ [x]).
Definition add_match (M : cmx) (g p : string) (x : option string * option Z) : option cmx :=
  match upd (cx_cells M) g (fun row => upd row p (bump x)) with
  | Some cells => Some (MkCmx cells (cx_unmatched M))
  | None => None
  end.
Definition add_unmatched (M : cmx) (g : string) (x : option string) : option cmx :=
  match upd (cx_unmatched M) g (bump x) with
  | Some un => Some (MkCmx (cx_cells M) un)
  | None => None
  end.

(* models: classification/utilities.py:262-287, one iteration of the loop *)
Definition cmx_step (labels : dict) (m : crow -> bool) (rows : list crow) (M : cmx) (idx : nat) : option cmx :=
  let M1 := match nth_error (unique_matches m rows) idx with
            | None => Some M
            | Some k => match dict_get labels (snd (fst k)), dict_get labels (snd k) with
                        | Some g, Some p => add_match M g p (uid_of rows (fst (fst k)), match_score m rows k)
                        | _, _ => None
                        end
            end in
  match M1 with
  | None => None
  | Some M1 => match nth_error (unique_unmatched m rows) idx with
               | None => Some M1
               | Some k => match dict_get labels (snd k) with
                           | Some g => add_unmatched M1 g (uid_of rows (fst k))
                           | None => None
                           end
               end
  end.
Definition obind {X Y} (o : option X) (f : X -> option Y) : option Y := match o with Some x => f x | None => None end.
(* models: classification/utilities.py:219-289 for one table.  All ids of stored rows are
   non-negative, so the masks of lines 232-236 select every row. *)
Definition cmx_table (labels : dict) (m : crow -> bool) (M : cmx) (rows : list crow) : option cmx :=
  fold_left (fun o idx => obind o (fun M => cmx_step labels m rows M idx))
    (seq 0 (Nat.max (List.length (unique_matches m rows)) (List.length (unique_unmatched m rows)))) (Some M).

(* models: classification/evaluator.py:816-875 compute_confusion_matrix_with_examples.  The
   Python loop runs over tables and inside over thresholds; the metrics of different
   thresholds share no state, so here each threshold runs over the tables. *)
Definition cls_cmx (datums : crow -> bool) (e : ceval) (m : crow -> bool) : option cmx :=
  fold_left (fun o t => obind o (fun M => cmx_table (ce_labels e) m M (filter datums t)))
    (ce_tables e) (Some (empty_cmx (map snd (ce_labels e)))).
(* [None]: ValueError for an empty list of thresholds; the inner [None] is a KeyError *)
Definition cls_confusion_examples (tol9 : Z) (hardmax : bool) (thrs : list Z) (datums : crow -> bool) (e : ceval)
    : option (list (Z * option cmx)) :=
  match thrs with
  | [] => None
  | _ :: _ => Some (map (fun mt => (snd mt, cls_cmx datums e (fst mt))) (combine (masks tol9 hardmax thrs) thrs))
  end.
