(* Specification vocabulary for the confusion matrix with examples, on the user's input. *)
From Verif Require Import Prelude CacheModel ClsModel ClsSpec RocModel FlowModel ClsFilterModel ClsFilterSpec ClsCellModel.
From Coq Require Import String.
Local Open Scope nat_scope.
Local Open Scope list_scope.

Definition counted {X} (l : list X) : cell X := (List.length l, l).

(* SPEC: the matrix over the labels [names]: cell (g, p) lists the datums with ground truth
   g for which p is predicted, with the score of p, in input order; the unmatched ground
   truths of g are the visible datums with ground truth g for which nothing is predicted *)
Definition cmx_of (names : list string) (u : cview) (hardmax : bool) (pass : Z -> bool) (cs : list classification) : cmx :=
  MkCmx
    (map (fun g => (g, map (fun p => (p, counted (map (fun c => (Some (c_uid c), score_of p c))
        (filter (fun c => String.eqb (c_groundtruth c) g && smem p (vpositives u hardmax pass c)) cs)))) names)) names)
    (map (fun g => (g, counted (map (fun c => Some (c_uid c))
        (filter (fun c => visible u c && (String.eqb (c_groundtruth c) g
           && match vpositives u hardmax pass c with [] => true | _ => false end)) cs)))) names).

(* SPEC: looking up one cell of a matrix *)
Definition sget {V} (d : list (string * V)) (k : string) : option V := option_map snd (find (fun x => String.eqb (fst x) k) d).
Definition cell_at (M : cmx) (g p : string) : option (cell (option string * option Z)) :=
  match sget (cx_cells M) g with Some row => sget row p | None => None end.
