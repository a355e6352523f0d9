(* Model of the recall bins as the code computes them, in binary64 arithmetic.
   Definitions only.  [DetModel] bins with the exact recall; here the quotient and
   the product are rounded the way IEEE 754 prescribes. *)
From Verif Require Import Prelude Counting CacheModel ClsModel DetModel DetFlowModel DetReportModel.
From Coq Require Import QArith Qround Qminmax.
Local Open Scope nat_scope.
Local Open Scope list_scope.

(* round n/d (d > 0) to an integer, ties to the even one *)
Definition nearest_even (n d : Z) : Z :=
  let q := (n / d)%Z in
  let r := (n mod d)%Z in
  if (2 * r <? d)%Z then q
  else if (d <? 2 * r)%Z then (q + 1)%Z
  else if Z.even q then q else (q + 1)%Z.

(* 2^s as a fraction, for any s *)
Definition scale_up (s : Z) : Z := (2 ^ Z.max s 0)%Z.

(* models: one rounded binary64 operation of numpy (np.divide and the product by 100.0
   in object_detection/computation.py:484-490).  The exact positive result x becomes
   m * 2^(-s) with an integer m of 53 bits.  Simplification: no overflow and no
   subnormal results; the quotient of two counts is at least 2^-64 and at most 2^64. *)
Definition rnd (x : Q) : Q :=
  let y := Qred x in
  let n := Qnum y in
  let d := Zpos (Qden y) in
  if (n <=? 0)%Z then 0%Q
  else
    let s0 := (52 + Z.log2 d - Z.log2 n)%Z in
    let s := if (n * scale_up s0 <? 2 ^ 52 * (d * scale_up (- s0)))%Z then (s0 + 1)%Z else s0 in
    let m := nearest_even (n * scale_up s) (d * scale_up (- s)) in
    (inject_Z (m * scale_up (- s)) / inject_Z (scale_up s))%Q.

(* models: object_detection/computation.py:483-489: recall of a row, zero where there
   is no ground truth.  Counts up to 2^53 are exact in binary64. *)
Definition frecall (tp n : nat) : Q := match n with O => 0%Q | _ => rnd (qnat tp / qnat n) end.
(* models: object_detection/computation.py:490: np.floor(recall * 100.0).astype(np.int32) *)
Definition fbin (tp n : nat) : nat := Z.to_nat (Qfloor (rnd (frecall tp n * 100))).

(* models: object_detection/computation.py:490-492, 494-528 with the computed bins *)
Definition pt_fbin (n_gts : Z -> nat) (p : drow * nat * nat) : nat := fbin (snd p) (n_gts (d_pl (fst (fst p)))).
Definition pt_fin (n_gts : Z -> nat) (l : Z) (b : nat) (p : drow * nat * nat) : bool :=
  (d_pl (fst (fst p)) =? l)%Z && Nat.eqb (pt_fbin n_gts p) b.
Definition upd_fcurve (n_gts : Z -> nat) (pts : list (drow * nat * nat)) (c : curve) : curve :=
  fun l b =>
    let mine := filter (pt_fin n_gts l b) pts in
    (fold_left (fun m p => Qmax m (pt_precision p)) mine (fst (c l b)),
     match mine with
     | [] => snd (c l b)
     | p :: _ => Z.max (snd (c l b)) (d_score (fst (fst p)))
     end).

Section FCurve.
  Variable eps : Z.
  (* models: object_detection/evaluator.py:449-490: curve and running counts, carried
     from table to table *)
  Definition eval_fstep (t : Z) (n_gts : Z -> nat) (st : curve * runs) (rows : list drow) : curve * runs :=
    let '(pts, run) := running eps t (snd st) rows in (upd_fcurve n_gts pts (fst st), run).
  Definition eval_fcurve (t : Z) (n_gts : Z -> nat) (datums : drow -> bool) (tables : list (list drow)) : curve :=
    fst (fold_left (fun st tb => eval_fstep t n_gts st (filter datums tb)) tables (curve0, fun _ => (0, 0))).

  Variable e : deval.
  Variable datums : drow -> bool.
  (* models: object_detection/evaluator.py:499-503; computation.py:577-611 *)
  Definition rep_fcurve (t l : Z) (b : nat) : Q := fst (eval_fcurve t (rep_gts e datums) datums (de_ranked e) l b).
  Definition rep_fap (t l : Z) : Q := average_precision (rep_fcurve t l).
  Definition rep_fpr_curve (t l : Z) : list Q := rev (run_max (rep_fcurve t l) (rev (seq 0 101)) 0).
  Definition rep_fmap (t : Z) : option Q := mean_ap (map (rep_fap t) (label_axis e)).
End FCurve.
