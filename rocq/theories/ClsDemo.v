(* Concrete inputs used by the examples beside the classification theorems. *)
From Verif Require Import Prelude CacheModel CacheSpec Counting ClsModel ClsSpec ClsLabelProofs ClsProofs ClsConfProofs ClsLemmas ClsMore.
From Coq Require Import String.
Local Open Scope nat_scope.
Local Open Scope list_scope.

Definition demo : list classification :=
  [ MkCls "u0" "cat" ["cat"; "dog"] [9; 1]%Z;
    MkCls "u1" "dog" ["cat"; "dog"] [6; 4]%Z;
    MkCls "u2" "dog" ["cat"; "dog"] [3; 7]%Z;
    MkCls "u3" "cat" ["cat"; "dog"] [5; 5]%Z ]%string.
(* one table per datum *)
Definition rows_of (cs : list classification) : list (list crow) := ld_writes (fst (add_data loader_init cs)).

Lemma rows_of_stored cs : Forall accepted cs -> stored cs (rows_of cs).
Proof.
  intros H. split; [reflexivity|]. unfold rows_of. rewrite W_writes by exact H. apply W_aligned; exact H.
Qed.

Ltac accept := repeat constructor; cbn; try discriminate; try reflexivity.
Lemma demo_accepted : Forall accepted demo.
Proof. unfold demo. repeat (apply Forall_cons || apply Forall_nil); (split; [discriminate|reflexivity]). Qed.
Lemma demo_stored : stored demo (rows_of demo).
Proof. apply rows_of_stored, demo_accepted. Qed.
Lemma demo_few : few_labels demo.
Proof. unfold few_labels. vm_compute. discriminate. Qed.
Lemma demo_distinct : Forall distinct_candidates demo.
Proof.
  unfold demo, distinct_candidates. repeat (apply Forall_cons || apply Forall_nil); cbn;
  repeat constructor; cbn; intuition discriminate.
Qed.
Lemma demo_covered : Forall covered demo.
Proof. unfold demo, covered. repeat (apply Forall_cons || apply Forall_nil); cbn; auto. Qed.
