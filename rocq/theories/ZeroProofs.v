(* C143: ratios equal to zero. *)
From Verif Require Import Prelude Counting ClsModel ClsLemmas PerfectProofs.
From Coq Require Import QArith Lia Lqa.
Local Open Scope nat_scope.
Local Open Scope list_scope.

Lemma qdiv_zero a b : a <= b -> ((qdiv_or_0 a b == 0)%Q <-> a = 0).
Proof.
  intros H. unfold qdiv_or_0. destruct (Nat.ltb_spec 0 b) as [Hb|Hb]; [|split; [lia|reflexivity]].
  assert (N : ~ (inject_Z (Z.of_nat b) == 0)%Q) by (intros X; unfold Qeq in X; cbn in X; lia). split.
  - intros E. assert (X : (inject_Z (Z.of_nat a) == 0)%Q).
    { setoid_replace (inject_Z (Z.of_nat a)) with ((inject_Z (Z.of_nat a) / inject_Z (Z.of_nat b)) * inject_Z (Z.of_nat b))%Q by (field; exact N). rewrite E. ring. }
    unfold Qeq in X. cbn in X. lia.
  - intros ->. field. exact N.
Qed.
Lemma qdiv_large a b : 0 < a -> a <= b -> (Z.of_nat b < 1000000000)%Z -> (1 # 1000000000 < qdiv_or_0 a b)%Q.
Proof.
  intros Ha Hab Hb. unfold qdiv_or_0. destruct (Nat.ltb_spec 0 b) as [P|P]; [|lia].
  apply Qlt_shift_div_l; [unfold Qlt, inject_Z; cbn [Qnum Qden]; lia|]. unfold Qlt, Qmult, inject_Z. cbn [Qnum Qden]. lia.
Qed.
(* the tolerance 1e-9 of F1 is not reached with fewer than 10^9 ground truths *)
Lemma f1_zero_iff a b n : a <= b -> a <= n -> (Z.of_nat n < 1000000000)%Z -> ((f1 (qdiv_or_0 a b) (qdiv_or_0 a n) == 0)%Q <-> a = 0).
Proof.
  intros Hb Hn Hf. pose proof (qdiv_bounds a b Hb) as B. pose proof (qdiv_bounds a n Hn) as C. unfold f1.
  destruct (Qlt_le_dec (1 # 1000000000) (qdiv_or_0 a b + qdiv_or_0 a n)) as [H|H].
  - assert (N : ~ (qdiv_or_0 a b + qdiv_or_0 a n == 0)%Q) by (intros X; rewrite X in H; discriminate H). split.
    + intros E. assert (X : (qdiv_or_0 a b * qdiv_or_0 a n == 0)%Q).
      { setoid_replace (qdiv_or_0 a b * qdiv_or_0 a n)%Q with ((2 * qdiv_or_0 a b * qdiv_or_0 a n / (qdiv_or_0 a b + qdiv_or_0 a n)) * (qdiv_or_0 a b + qdiv_or_0 a n) / 2)%Q by (field; exact N).
        rewrite E. reflexivity. }
      apply Qmult_integral in X. destruct X as [X|X]; [apply (qdiv_zero a b Hb), X|apply (qdiv_zero a n Hn), X].
    + intros E. apply (qdiv_zero a b Hb) in E. rewrite E in *. field. intros X. apply N. rewrite X. reflexivity.
  - split; [|reflexivity]. intros _. destruct (Nat.eq_0_gt_0_cases a) as [E|E]; [exact E|]. exfalso. pose proof (qdiv_large a n E Hn Hf). lra.
Qed.
