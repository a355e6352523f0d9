(* Shared list infrastructure: stable sorting, counting, sums.
   Nothing here models repository code except [isort], the description of the
   stable sorts provided by arrow ([Table.sort_by]) and numpy ([lexsort]). *)
From Coq Require Export List Arith ZArith Lia Bool Permutation Sorted.
From Coq Require Export ZifyBool ZifyNat ZifyN.
Export ListNotations.

(* ------------------------------------------------------------------ *)
(** * Stable sorting *)

Section Sorting.
  Context {A : Type}.
  Variable leb : A -> A -> bool.

  (* stable insertion: [x] goes in front of the first element it does not exceed *)
  Fixpoint insert (x : A) (l : list A) : list A :=
    match l with
    | [] => [x]
    | y :: t => if leb x y then x :: y :: t else y :: insert x t
    end.

  Definition isort (l : list A) : list A := fold_right insert [] l.

  Definition eqv (x y : A) : bool := leb x y && leb y x.

  Definition leP (x y : A) : Prop := leb x y = true.

  (* SPEC: [out] is the stable sort of [l]: it is ordered, and for every row the
     subsequence of rows with the same key is unchanged. *)
  Definition stable_sort_of (l out : list A) : Prop :=
    StronglySorted leP out /\ forall x, filter (eqv x) out = filter (eqv x) l.

  Hypothesis leb_total : forall x y, leb x y = true \/ leb y x = true.
  Hypothesis leb_trans : forall x y z, leb x y = true -> leb y z = true -> leb x z = true.

  Lemma leb_refl x : leb x x = true.
  Proof. destruct (leb_total x x); assumption. Qed.

  Lemma eqv_refl x : eqv x x = true.
  Proof. unfold eqv. rewrite leb_refl. reflexivity. Qed.

  Lemma insert_perm x l : Permutation (x :: l) (insert x l).
  Proof.
    induction l as [|y t IH]; simpl; [reflexivity|].
    destruct (leb x y); [reflexivity|].
    rewrite perm_swap. apply perm_skip. exact IH.
  Qed.

  Lemma isort_perm l : Permutation l (isort l).
  Proof.
    induction l as [|x t IH]; simpl; [constructor|].
    rewrite <- insert_perm. apply perm_skip. exact IH.
  Qed.

  Lemma insert_In x l y : In y (insert x l) <-> y = x \/ In y l.
  Proof.
    split; intros H.
    - apply Permutation_in with (l' := x :: l) in H; [|symmetry; apply insert_perm].
      destruct H as [H|H]; auto.
    - apply Permutation_in with (l := x :: l); [apply insert_perm|].
      destruct H as [H|H]; [left; auto|right; auto].
  Qed.

  Lemma insert_sorted x l : StronglySorted leP l -> StronglySorted leP (insert x l).
  Proof.
    induction l as [|y t IH]; simpl; intros Hs.
    - repeat constructor.
    - inversion Hs as [|? ? Hs' Hf]; subst.
      destruct (leb x y) eqn:E.
      + constructor; [exact Hs|]. constructor; [exact E|].
        rewrite Forall_forall in Hf |- *. intros z Hz.
        apply leb_trans with y; [exact E|]. apply Hf; exact Hz.
      + constructor; [apply IH; exact Hs'|].
        rewrite Forall_forall in Hf |- *. intros z Hz.
        apply insert_In in Hz. destruct Hz as [->|Hz].
        * unfold leP. destruct (leb_total x y) as [H|H]; [congruence|exact H].
        * apply Hf; exact Hz.
  Qed.

  Lemma isort_sorted l : StronglySorted leP (isort l).
  Proof. induction l; simpl; [constructor|]. apply insert_sorted; assumption. Qed.

  Lemma insert_filter_eqv x l z :
    StronglySorted leP l ->
    filter (eqv z) (insert x l) = filter (eqv z) (x :: l).
  Proof.
    induction l as [|y t IH]; intros Hs; [reflexivity|].
    inversion Hs as [|? ? Hs' Hf]; subst.
    simpl insert. destruct (leb x y) eqn:E; [reflexivity|].
    simpl. rewrite (IH Hs'). simpl.
    destruct (eqv z x) eqn:Ex; destruct (eqv z y) eqn:Ey; try reflexivity.
    exfalso. unfold eqv in Ex, Ey.
    apply andb_true_iff in Ex. apply andb_true_iff in Ey.
    destruct Ex as [Ex1 Ex2], Ey as [Ey1 Ey2].
    assert (leb x y = true) by (apply leb_trans with z; assumption). congruence.
  Qed.

  Lemma isort_stable l : stable_sort_of l (isort l).
  Proof.
    split; [apply isort_sorted|].
    intros z. induction l as [|x t IH]; simpl; [reflexivity|].
    rewrite insert_filter_eqv by apply isort_sorted. simpl. rewrite IH. reflexivity.
  Qed.

  Lemma stable_sort_unique l o1 o2 :
    stable_sort_of l o1 -> stable_sort_of l o2 -> o1 = o2.
  Proof.
    intros [S1 F1] [S2 F2].
    assert (F : forall x, filter (eqv x) o1 = filter (eqv x) o2)
      by (intros x; rewrite F1, F2; reflexivity).
    clear F1 F2 l. revert o2 S2 F.
    induction o1 as [|a t IH]; intros o2 S2 F.
    - destruct o2 as [|b u]; [reflexivity|].
      specialize (F b). simpl in F. rewrite eqv_refl in F. discriminate.
    - destruct o2 as [|b u].
      { specialize (F a). simpl in F. rewrite eqv_refl in F. discriminate. }
      inversion S1 as [|? ? S1' H1]; inversion S2 as [|? ? S2' H2]; subst.
      assert (Hab : leb a b = true).
      { assert (Hin : In b (a :: t)).
        { apply (filter_In (eqv b)). rewrite F. simpl. rewrite eqv_refl. left; reflexivity. }
        destruct Hin as [->|Hin]; [apply leb_refl|].
        rewrite Forall_forall in H1. apply H1; exact Hin. }
      assert (Hba : leb b a = true).
      { assert (Hin : In a (b :: u)).
        { apply (filter_In (eqv a)). rewrite <- F. simpl. rewrite eqv_refl. left; reflexivity. }
        destruct Hin as [->|Hin]; [apply leb_refl|].
        rewrite Forall_forall in H2. apply H2; exact Hin. }
      assert (E : a = b).
      { specialize (F a). simpl in F. rewrite eqv_refl in F.
        unfold eqv at 2 in F. rewrite Hab, Hba in F. simpl in F. congruence. }
      subst b. f_equal. apply (IH S1' u S2').
      intros x. specialize (F x). simpl in F.
      destruct (eqv x a); [congruence|exact F].
  Qed.

  Lemma stable_sort_perm l o : stable_sort_of l o -> Permutation l o.
  Proof.
    intros H. rewrite (stable_sort_unique l o (isort l) H (isort_stable l)).
    apply isort_perm.
  Qed.

  Lemma stable_sort_is_isort l o : stable_sort_of l o <-> o = isort l.
  Proof.
    split; intros H.
    - exact (stable_sort_unique l o (isort l) H (isort_stable l)).
    - subst. apply isort_stable.
  Qed.

  Lemma isort_id l : StronglySorted leP l -> isort l = l.
  Proof.
    intros H. symmetry. apply stable_sort_is_isort. split; [exact H|reflexivity].
  Qed.
End Sorting.

Arguments stable_sort_of {A} leb l out.

(* ------------------------------------------------------------------ *)
(** * Lexicographic order on integer tuples *)

Fixpoint lex_leb (a b : list Z) : bool :=
  match a, b with
  | [], _ => true
  | _ :: _, [] => false
  | x :: a', y :: b' => (x <? y)%Z || ((x =? y)%Z && lex_leb a' b')
  end.

Lemma lex_leb_total a b : lex_leb a b = true \/ lex_leb b a = true.
Proof.
  revert b. induction a as [|x a IH]; intros [|y b]; simpl; auto.
  destruct (Z.compare_spec x y) as [E|E|E].
  - subst. rewrite Z.ltb_irrefl, Z.eqb_refl. simpl. apply IH.
  - left. apply orb_true_iff. left. lia.
  - right. apply orb_true_iff. left. lia.
Qed.

Lemma lex_leb_trans a b c : lex_leb a b = true -> lex_leb b c = true -> lex_leb a c = true.
Proof.
  revert b c. induction a as [|x a IH]; intros [|y b] [|z c]; simpl; try congruence; auto.
  intros H1 H2.
  apply orb_true_iff in H1. apply orb_true_iff in H2. apply orb_true_iff.
  destruct H1 as [H1|H1], H2 as [H2|H2];
    try (apply andb_true_iff in H1); try (apply andb_true_iff in H2).
  - left; lia.
  - left; lia.
  - left; lia.
  - right. apply andb_true_iff. split; [lia|]. destruct H1, H2. eapply IH; eauto.
Qed.

Lemma lex_leb_refl a : lex_leb a a = true.
Proof. destruct (lex_leb_total a a); assumption. Qed.

Lemma lex_leb_antisym a b : lex_leb a b = true -> lex_leb b a = true -> a = b.
Proof.
  revert b. induction a as [|x a IH]; intros [|y b]; simpl; try congruence.
  intros H1 H2. apply orb_true_iff in H1. apply orb_true_iff in H2.
  rewrite !andb_true_iff in *.
  assert (x = y) by lia. subst. f_equal. apply IH; [destruct H1 as [H|[_ H]]|destruct H2 as [H|[_ H]]]; auto; lia.
Qed.

(* ------------------------------------------------------------------ *)
(** * Miscellaneous list lemmas *)

Lemma concat_snoc {A} (l : list (list A)) x : concat (l ++ [x]) = concat l ++ x.
Proof. rewrite concat_app. simpl. rewrite app_nil_r. reflexivity. Qed.

Lemma filter_filter {A} (f g : A -> bool) l :
  filter f (filter g l) = filter (fun x => g x && f x) l.
Proof.
  induction l as [|x t IH]; simpl; [reflexivity|].
  destruct (g x) eqn:G; simpl; destruct (f x) eqn:F; simpl; rewrite IH; reflexivity.
Qed.

Lemma filter_none {A} (f : A -> bool) l : (forall x, In x l -> f x = false) -> filter f l = [].
Proof.
  induction l as [|x t IH]; simpl; intros H; [reflexivity|].
  rewrite (H x (or_introl eq_refl)). apply IH. intros y Hy. apply H. right; exact Hy.
Qed.

Lemma filter_all {A} (f : A -> bool) l : (forall x, In x l -> f x = true) -> filter f l = l.
Proof.
  induction l as [|x t IH]; simpl; intros H; [reflexivity|].
  rewrite (H x (or_introl eq_refl)). f_equal. apply IH. intros y Hy. apply H. right; exact Hy.
Qed.

Lemma filter_concat {A} (f : A -> bool) (ls : list (list A)) :
  filter f (concat ls) = concat (map (filter f) ls).
Proof.
  induction ls as [|l t IH]; simpl; [reflexivity|].
  rewrite filter_app, IH. reflexivity.
Qed.

Lemma StronglySorted_app {A} (R : A -> A -> Prop) l1 l2 :
  StronglySorted R (l1 ++ l2) <->
  StronglySorted R l1 /\ StronglySorted R l2 /\ (forall x y, In x l1 -> In y l2 -> R x y).
Proof.
  induction l1 as [|a t IH]; simpl.
  - split; [intros H; split; [constructor|split; [exact H|intros x y []]]|]. intros (_ & H & _); exact H.
  - split.
    + intros H. inversion H as [|? ? Hs Hf]; subst.
      apply IH in Hs. destruct Hs as (Hs1 & Hs2 & Hx).
      rewrite Forall_app in Hf. destruct Hf as [Hf1 Hf2].
      repeat split; auto; [constructor; auto|].
      intros x y [->|Hin] Hy; [rewrite Forall_forall in Hf2; auto|auto].
    + intros (H1 & H2 & H3). inversion H1 as [|? ? Hs Hf]; subst.
      constructor; [apply IH; repeat split; auto|].
      rewrite Forall_app. split; [exact Hf|]. rewrite Forall_forall. auto.
Qed.

Lemma StronglySorted_filter {A} (R : A -> A -> Prop) (f : A -> bool) l :
  StronglySorted R l -> StronglySorted R (filter f l).
Proof.
  induction 1 as [|a t Hs IH Hf]; simpl; [constructor|].
  destruct (f a); [|exact IH]. constructor; [exact IH|].
  rewrite Forall_forall in *. intros x Hx. apply filter_In in Hx. apply Hf. tauto.
Qed.

(* number of elements satisfying a test *)
Definition countb {A} (f : A -> bool) (l : list A) : nat := length (filter f l).

Lemma countb_app {A} (f : A -> bool) l1 l2 : countb f (l1 ++ l2) = countb f l1 + countb f l2.
Proof. unfold countb. rewrite filter_app, app_length. reflexivity. Qed.

Lemma countb_perm {A} (f : A -> bool) l1 l2 : Permutation l1 l2 -> countb f l1 = countb f l2.
Proof.
  unfold countb. induction 1; simpl; auto.
  - destruct (f x); simpl; congruence.
  - destruct (f x), (f y); simpl; reflexivity.
  - congruence.
Qed.

Lemma countb_le_length {A} (f : A -> bool) l : countb f l <= length l.
Proof. unfold countb. induction l as [|x t IH]; simpl; [lia|]. destruct (f x); simpl; lia. Qed.

Lemma countb_ext {A} (f g : A -> bool) l :
  (forall x, In x l -> f x = g x) -> countb f l = countb g l.
Proof.
  unfold countb. induction l as [|x t IH]; simpl; intros H; [reflexivity|].
  rewrite (H x (or_introl eq_refl)).
  specialize (IH (fun y Hy => H y (or_intror Hy))).
  destruct (g x); simpl; congruence.
Qed.

Lemma countb_mono {A} (f g : A -> bool) l :
  (forall x, In x l -> f x = true -> g x = true) -> countb f l <= countb g l.
Proof.
  unfold countb. induction l as [|x t IH]; simpl; intros H; [lia|].
  specialize (IH (fun y Hy => H y (or_intror Hy))).
  specialize (H x (or_introl eq_refl)).
  destruct (f x) eqn:F; destruct (g x) eqn:G; simpl; lia.
Qed.

Lemma countb_split {A} (f g : A -> bool) l :
  countb f l = countb (fun x => f x && g x) l + countb (fun x => f x && negb (g x)) l.
Proof.
  unfold countb. induction l as [|x t IH]; simpl; [reflexivity|].
  destruct (f x), (g x); simpl; lia.
Qed.

Definition list_sum_nat (l : list nat) : nat := fold_right Nat.add 0 l.

Lemma list_sum_nat_app l1 l2 : list_sum_nat (l1 ++ l2) = list_sum_nat l1 + list_sum_nat l2.
Proof. unfold list_sum_nat. induction l1; simpl; lia. Qed.

Lemma length_concat {A} (ls : list (list A)) :
  length (concat ls) = list_sum_nat (map (@length A) ls).
Proof. induction ls as [|l t IH]; simpl; [reflexivity|]. rewrite app_length, IH. reflexivity. Qed.

Lemma Forall2_len {A B} (R : A -> B -> Prop) l1 l2 : Forall2 R l1 l2 -> length l1 = length l2.
Proof. induction 1; simpl; congruence. Qed.
