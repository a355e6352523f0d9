(* C146: ratios of a union. *)
From Verif Require Import Prelude Counting ClsModel ClsLemmas PerfectProofs ZeroProofs SegModel SegSpec SegReorderSpec SegReorderProofs SegRelateProofs.
From Coq Require Import QArith Lia Lqa.
Local Open Scope nat_scope.

Lemma qdiv_fraction a b : qdiv_or_0 a b = fraction a b.
Proof. unfold qdiv_or_0, fraction. destruct b; reflexivity. Qed.
(* F1 as a single ratio *)
Lemma f1_fraction a b n : a <= b -> a <= n -> (Z.of_nat n < 1000000000)%Z -> (f1 (qdiv_or_0 a b) (qdiv_or_0 a n) == fraction (2 * a) (b + n))%Q.
Proof.
  intros Hb Hn Hz. destruct (Nat.eq_0_gt_0_cases a) as [E|Ha].
  - subst a. rewrite Nat.mul_0_r, fraction_0. apply f1_zero_iff; [exact Hb|exact Hn|exact Hz|reflexivity].
  - pose proof (qdiv_large a n Ha Hn Hz) as L. pose proof (qdiv_bounds a b Hb) as B. unfold f1.
    destruct (Qlt_le_dec (1 # 1000000000) (qdiv_or_0 a b + qdiv_or_0 a n)) as [H|H]; [|exfalso; lra].
    rewrite !qdiv_fraction. unfold fraction. destruct b as [|b]; [lia|]. destruct n as [|n]; [lia|]. cbn [Nat.add].
    replace (S (b + S n)) with (S b + S n) by lia. rewrite Nat2Z.inj_add, Nat2Z.inj_mul, inject_Z_plus, inject_Z_mult. change (inject_Z (Z.of_nat 2)) with 2%Q.
    assert (A : (0 < inject_Z (Z.of_nat a))%Q) by (unfold Qlt, inject_Z; cbn [Qnum Qden]; lia).
    assert (B1 : (0 < inject_Z (Z.of_nat (S b)))%Q) by (unfold Qlt, inject_Z; cbn [Qnum Qden]; lia).
    assert (N1 : (0 < inject_Z (Z.of_nat (S n)))%Q) by (unfold Qlt, inject_Z; cbn [Qnum Qden]; lia).
    generalize dependent (inject_Z (Z.of_nat a)). generalize dependent (inject_Z (Z.of_nat (S b))). generalize dependent (inject_Z (Z.of_nat (S n))).
    clear. intros z Hz y Hy x Hx.
    assert (X : ~ (x == 0)%Q) by lra. assert (Y : ~ (y == 0)%Q) by lra. assert (Z : ~ (z == 0)%Q) by lra. assert (S : ~ (y + z == 0)%Q) by lra.
    field. repeat split; try assumption. setoid_replace (x * z + x * y)%Q with (x * (y + z))%Q by ring. intros E. apply Qmult_integral in E. tauto.
Qed.
Section Union.
  Variables (a1 b1 n1 a2 b2 n2 : nat).
  Hypothesis B1 : a1 <= b1.
  Hypothesis B2 : a2 <= b2.
  Hypothesis N1 : a1 <= n1.
  Hypothesis N2 : a2 <= n2.
  Lemma ratio_between : lies_between (qdiv_or_0 a1 b1) (qdiv_or_0 a2 b2) (qdiv_or_0 (a1 + a2) (b1 + b2)).
  Proof. rewrite !qdiv_fraction. apply fraction_between; assumption. Qed.
  Lemma f1_union_between : (Z.of_nat (n1 + n2) < 1000000000)%Z ->
    lies_between (f1 (qdiv_or_0 a1 b1) (qdiv_or_0 a1 n1)) (f1 (qdiv_or_0 a2 b2) (qdiv_or_0 a2 n2)) (f1 (qdiv_or_0 (a1 + a2) (b1 + b2)) (qdiv_or_0 (a1 + a2) (n1 + n2))).
  Proof.
    intros Hz. assert (X1 : (Z.of_nat n1 < 1000000000)%Z) by lia. assert (X2 : (Z.of_nat n2 < 1000000000)%Z) by lia.
    apply (between_eq _ _ _ _ _ _ (Qeq_sym _ _ (f1_fraction a1 b1 n1 B1 N1 X1)) (Qeq_sym _ _ (f1_fraction a2 b2 n2 B2 N2 X2))
      (Qeq_sym _ _ (f1_fraction (a1 + a2) (b1 + b2) (n1 + n2) ltac:(lia) ltac:(lia) Hz))).
    replace (2 * (a1 + a2)) with (2 * a1 + 2 * a2) by lia. replace (b1 + b2 + (n1 + n2)) with ((b1 + n1) + (b2 + n2)) by lia. apply fraction_between; lia.
  Qed.
End Union.
