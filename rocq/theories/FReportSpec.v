(* Specification for the metric values as binary64 numbers. *)
From Verif Require Import Prelude Counting FloatModel FloatProofs.   (* FloatProofs for [pow2], the powers of two *)
From Coq Require Import QArith Qabs Permutation.
Local Open Scope Z_scope.

(* 2^-53, half the distance between 1 and the next double *)
Notation half_ulp := (1 # 9007199254740992)%Q.

(* v reports a out of b, 0 <= a <= b: it lies in [0, 1], it is 0 and 1 exactly when the
   quotient is, and its relative error is at most 2^-53; without data it is 0 *)
Definition reports_ratio (a b : Z) (v : Q) : Prop :=
  (0 <= v)%Q /\ (v <= 1)%Q /\ (b = 0 -> (v == 0)%Q) /\
  (0 < b -> ((v == 0)%Q <-> a = 0) /\ ((v == 1)%Q <-> a = b) /\
            (Qabs (v - inject_Z a / inject_Z b) <= half_ulp * (inject_Z a / inject_Z b))%Q).
(* the same for the F1 of tp, fp, fn *)
Definition reports_f1 (tp fp fn : Z) (v : Q) : Prop :=
  (0 <= v)%Q /\ (v <= 1)%Q /\ ((v == 0)%Q <-> tp = 0) /\ ((v == 1)%Q <-> 0 < tp /\ fp = 0 /\ fn = 0) /\
  (0 < tp -> let q := (inject_Z (2 * tp) / inject_Z (2 * tp + fp + fn))%Q in (Qabs (v - q) <= 5 * half_ulp * q)%Q).

(* an order of adding up: some binary tree over the summands, possibly starting from 0,
   with one rounded addition at each node *)
Inductive stree : Type := SZero | SLeaf (x : Q) | SNode (a b : stree).
Fixpoint leaves (t : stree) : list Q := match t with SZero => [] | SLeaf x => [x] | SNode a b => leaves a ++ leaves b end.
Fixpoint tsum (t : stree) : Q := match t with SZero => 0%Q | SLeaf x => x | SNode a b => rnd (tsum a + tsum b) end.
Definition summation (nsum : list Q -> Q) : Prop :=
  forall l, Forall (fun x => (0 <= x)%Q) l -> exists t, Permutation (leaves t) l /\ (nsum l == tsum t)%Q.

(* v reports the mean of l, n numbers in [0, 1]: it lies in [0, 1], it is 0 exactly when
   they all are, it is 1 when they all are, and its error is at most n * 2^-53 *)
Definition total (l : list Q) : Q := fold_right Qplus 0%Q l.
Definition reports_mean (l : list Q) (v : Q) : Prop :=
  (0 <= v)%Q /\ (v <= 1)%Q /\ ((v == 0)%Q <-> Forall (fun x => (x == 0)%Q) l) /\
  (Forall (fun x => (x == 1)%Q) l -> (v == 1)%Q) /\
  (Qabs (v - total l / inject_Z (Z.of_nat (length l))) <= inject_Z (Z.of_nat (length l)) * half_ulp)%Q.

(* v is q rounded once: no number of 53 bits is nearer to q; hence the relative error, the
   exact 0 and 1, and the range *)
Definition rounded (q v : Q) : Prop :=
  (forall k e, Z.abs k <= 2 ^ 53 -> (Qabs (v - q) <= Qabs (inject_Z k * pow2 e - q))%Q) /\
  (0 <= v)%Q /\ (Qabs (v - q) <= half_ulp * q)%Q /\ ((v == 0)%Q <-> (q == 0)%Q) /\
  ((q <= 1)%Q -> (v <= 1)%Q /\ ((v == 1)%Q <-> (q == 1)%Q)).
(* v is q up to the roundings of a few operations *)
Definition nearly (ops : Z) (q v : Q) : Prop :=
  (0 <= v)%Q /\ (v <= 1)%Q /\ (Qabs (v - q) <= inject_Z ops * half_ulp * q)%Q /\ ((v == 0)%Q <-> (q == 0)%Q) /\ ((v == 1)%Q <-> (q == 1)%Q).
(* v is within [ops] half ulps of q *)
Definition within (ops : Z) (q v : Q) : Prop := (Qabs (v - q) <= inject_Z ops * half_ulp)%Q.
(* the exact average and the reported one: both there or both missing, and near *)
Definition near_average (ops : Z) (q v : option Q) : Prop :=
  match q, v with Some q, Some v => within ops q v | None, None => True | _, _ => False end.
(* v is the reported average of the reported values l *)
Definition average_of (l : list (option Q)) (v : option Q) : Prop :=
  match v with
  | None => l = [] \/ In None l
  | Some v => exists xs, l = map Some xs /\ xs <> [] /\ reports_mean xs v
  end.

(* a out of b, 0 without data; the F1 of the counts *)
Definition share (a b : nat) : Q := if Nat.eqb b 0 then 0%Q else (inject_Z (Z.of_nat a) / inject_Z (Z.of_nat b))%Q.
Definition f1_share (tp fp fn : nat) : Q := share (2 * tp) (2 * tp + fp + fn).
