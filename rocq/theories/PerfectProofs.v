(* C142: ratios equal to one. *)
From Verif Require Import Prelude Counting.
From Coq Require Import QArith Lia.
Local Open Scope nat_scope.
Local Open Scope list_scope.

Lemma ratio_one a b : 0 < b -> ((inject_Z (Z.of_nat a) / inject_Z (Z.of_nat b) == 1)%Q <-> a = b).
Proof.
  intros Hb. assert (N : ~ (inject_Z (Z.of_nat b) == 0)%Q) by (intros X; unfold Qeq in X; cbn in X; lia). split.
  - intros H. assert (X : (inject_Z (Z.of_nat a) == inject_Z (Z.of_nat b))%Q).
    { setoid_replace (inject_Z (Z.of_nat a)) with ((inject_Z (Z.of_nat a) / inject_Z (Z.of_nat b)) * inject_Z (Z.of_nat b))%Q by (field; exact N). rewrite H. ring. }
    unfold Qeq in X. cbn in X. lia.
  - intros ->. field. exact N.
Qed.
Lemma countb_pos {A} (f : A -> bool) l : 0 < countb f l <-> exists x, In x l /\ f x = true.
Proof.
  unfold countb. induction l as [|y t IH]; cbn.
  - split; [lia|intros (x & [] & _)].
  - destruct (f y) eqn:E; cbn.
    + split; [intros _; exists y; auto|lia].
    + rewrite IH. split; intros (x & H & Hx); exists x; [auto|]. destruct H as [->|H]; [congruence|auto].
Qed.
Lemma countb_zero {A} (f : A -> bool) l : countb f l = 0 <-> forall x, In x l -> f x = false.
Proof.
  split; [|apply countb_false]. intros H x Hx. destruct (f x) eqn:E; [|reflexivity]. assert (0 < countb f l) by (apply countb_pos; eauto). lia.
Qed.
(* counting fewer: equal exactly if nothing is left out *)
Lemma countb_all {A} (f g : A -> bool) l : (forall x, In x l -> f x = true -> g x = true) ->
  (countb f l = countb g l <-> forall x, In x l -> g x = true -> f x = true).
Proof.
  induction l as [|y t IH]; intros H; [split; [intros _ x []|reflexivity]|].
  assert (Ht : forall x, In x t -> f x = true -> g x = true) by (intros x Hx; apply H; right; exact Hx).
  assert (M : countb f t <= countb g t) by (apply countb_mono; exact Ht). specialize (IH Ht). specialize (H y (or_introl eq_refl)).
  unfold countb in *. cbn [filter]. destruct (f y) eqn:F, (g y) eqn:G; cbn [List.length].
  - split; [intros E x [<-|Hx]; [auto|apply IH; [lia|exact Hx]]|]. intros E. f_equal. apply IH. intros x Hx. apply E. right. exact Hx.
  - specialize (H eq_refl). discriminate.
  - split; [lia|]. intros E. specialize (E y (or_introl eq_refl) G). congruence.
  - split; [intros E x [<-|Hx]; [congruence|apply IH; assumption]|]. intros E. apply IH. intros x Hx. apply E. right. exact Hx.
Qed.
