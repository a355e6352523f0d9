(* Specification vocabulary for the classification reports. *)
From Verif Require Import Prelude Counting ClsModel ClsSpec RocModel RocCurve ClsFilterModel ClsFilterSpec ClsReportModel.
From Coq Require Import String QArith.
Local Open Scope nat_scope.
Local Open Scope list_scope.

(* SPEC: one entry per label and threshold, label by label *)
Definition table_of {V} (ls : list string) (thrs : list Z) (f : string -> Z -> V) : list (string * Z * option V) :=
  List.concat (map (fun l => map (fun t => (l, t, Some (f l t))) thrs) ls).

(* SPEC: the four counts of label [l] over the data [cs] seen through the view [u] *)
Definition data_counts (u : cview) (hm : bool) (pass : Z -> bool) (cs : list classification) (l : string) : counts :=
  MkCounts (countb (v_tp u hm pass l) cs) (countb (v_fp u hm pass l) cs)
           (countb (v_fn u hm pass l) cs) (countb (v_tn u hm pass l) cs).
(* SPEC: datums with ground truth [g] for which [p] is predicted; datums with ground
   truth [g] for which nothing is predicted *)
Definition data_cell (u : cview) (hm : bool) (pass : Z -> bool) (cs : list classification) (g p : string) : nat :=
  countb (fun c => String.eqb (c_groundtruth c) g && smem p (vpositives u hm pass c)) cs.
Definition data_missed (u : cview) (hm : bool) (pass : Z -> bool) (cs : list classification) (g : string) : nat :=
  countb (fun c => visible u c && (String.eqb (c_groundtruth c) g
            && match vpositives u hm pass c with [] => true | _ => false end)) cs.
(* SPEC: the share of the remaining datums whose ground truth is predicted *)
Definition data_accuracy (w u : cview) (hm : bool) (pass : Z -> bool) (cs : list classification) : Q :=
  (inject_Z (Z.of_nat (countb (fun c => smem (c_groundtruth c) (vpositives u hm pass c)) cs))
   / inject_Z (Z.of_nat (countb (visible w) cs)))%Q.

(* SPEC: entrywise sum *)
Definition counts_sum (a b : counts) : counts :=
  MkCounts (n_tp a + n_tp b) (n_fp a + n_fp b) (n_fn a + n_fn b) (n_tn a + n_tn b).

(* SPEC: reading a report: the counts listed for a label and threshold, zero for a label
   that is not listed *)
Definition counts_at (tbl : list (string * Z * option counts)) (l : string) (t : Z) : counts :=
  match find (fun x => String.eqb (fst (fst x)) l && (snd (fst x) =? t)%Z) tbl with
  | Some (_, _, Some c) => c
  | _ => MkCounts 0 0 0 0
  end.
(* SPEC: reading a confusion matrix, 0 for labels that are not listed *)
Definition cell (C : list (string * list (string * nat))) (g p : string) : option nat :=
  match sget C g with Some r => sget r p | None => None end.
Definition or0 (o : option nat) : nat := match o with Some n => n | None => 0 end.
(* SPEC: the curve of the label is not cut right behind its origin (in particular: it is
   held in one table), or its best score is not shared by a match and a mismatch *)
Definition safe_curve (w : cview) (cs : list classification) (e : ceval) (l : string) : Prop :=
  forall i, has_number e l i -> origin_kept i (ce_curve e) \/ unmixed_top (outcomes l (reduced w cs)).
