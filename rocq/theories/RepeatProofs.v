(* C140: sums over data listed several times. *)
From Verif Require Import Prelude Counting RepeatSpec.
From Coq Require Import QArith Lia.
Local Open Scope nat_scope.
Local Open Scope list_scope.

Section Copies.
  Context {A : Type}.
  Variables (n : nat) (l l' : list A).
  Hypothesis C : copies n l l'.

  Lemma copies_sum (f : A -> nat) : list_sum_nat (map f l') = n * list_sum_nat (map f l).
  Proof.
    rewrite (list_sum_nat_perm _ _ (Permutation_map f C)). clear C. induction n as [|m IH]; [reflexivity|].
    cbn [repeat List.concat]. rewrite map_app, list_sum_nat_app, IH. reflexivity.
  Qed.
  Lemma copies_countb (f : A -> bool) : countb f l' = n * countb f l.
  Proof. rewrite <- !list_sum_nat_if. apply copies_sum. Qed.
  Lemma copies_length : List.length l' = n * List.length l.
  Proof.
    rewrite (Permutation_length C). clear C. induction n as [|m IH]; [reflexivity|]. cbn [repeat List.concat]. rewrite app_length, IH. reflexivity.
  Qed.
  Lemma copies_incl x : In x l' -> In x l.
  Proof.
    intros H. apply (Permutation_in _ C) in H. clear C. induction n as [|m IH]; [destruct H|]. cbn in H. apply in_app_or in H. tauto.
  Qed.
  Lemma copies_In : 0 < n -> forall x, In x l' <-> In x l.
  Proof.
    intros Hn x. split; [apply copies_incl|]. intros H. apply (Permutation_in _ (Permutation_sym C)). destruct n; [lia|]. cbn. apply in_or_app. auto.
  Qed.
End Copies.
Lemma copies_map {A B} (f : A -> B) n l l' : copies n l l' -> copies n (map f l) (map f l').
Proof.
  unfold copies. intros H. rewrite (Permutation_map f H), concat_map. clear H. induction n as [|m IH]; [reflexivity|]. cbn. rewrite IH. reflexivity.
Qed.
Lemma repeat_filter {A} (f : A -> bool) n l : filter f (List.concat (repeat l n)) = List.concat (repeat (filter f l) n).
Proof. induction n as [|m IH]; [reflexivity|]. cbn. rewrite filter_app, IH. reflexivity. Qed.
Lemma perm_filter {A} (p : A -> bool) l l' : Permutation l l' -> Permutation (filter p l) (filter p l').
Proof.
  induction 1; cbn.
  - constructor.
  - destruct (p x); [constructor; assumption|assumption].
  - destruct (p x), (p y); try reflexivity. apply perm_swap.
  - etransitivity; eassumption.
Qed.
Lemma copies_filter {A} (f : A -> bool) n l l' : copies n l l' -> copies n (filter f l) (filter f l').
Proof. unfold copies. intros H. rewrite <- repeat_filter. apply perm_filter, H. Qed.
Lemma perm_concat {A} (l l' : list (list A)) : Permutation l l' -> Permutation (List.concat l) (List.concat l').
Proof.
  induction 1; cbn; [constructor|apply Permutation_app_head; assumption| |etransitivity; eassumption].
  rewrite !app_assoc. apply Permutation_app_tail, Permutation_app_comm.
Qed.
Lemma copies_concat {A} n (l l' : list (list A)) : copies n l l' -> copies n (List.concat l) (List.concat l').
Proof.
  unfold copies. intros H. rewrite (perm_concat _ _ H). clear H. induction n as [|m IH]; [reflexivity|]. cbn. rewrite concat_app.
  apply Permutation_app_head. exact IH.
Qed.

Lemma ratio_scale n a b : 0 < n -> 0 < b ->
  (inject_Z (Z.of_nat (n * a)) / inject_Z (Z.of_nat (n * b)) == inject_Z (Z.of_nat a) / inject_Z (Z.of_nat b))%Q.
Proof.
  intros Hn Hb. rewrite !Nat2Z.inj_mul, !inject_Z_mult. field. split; intros E; unfold Qeq in E; cbn in E; lia.
Qed.
