(* Counting distinct keys.  [dcount dec key P l]: number of distinct [key]
   values among the elements of [l] satisfying [P] -- the size of
   np.unique(..., axis=0) after masking. *)
From Verif Require Import Prelude.

Section DCount.
  Context {A K : Type}.
  Variable dec : forall x y : K, {x = y} + {x <> y}.
  Variable key : A -> K.

  Definition dkeys (P : A -> bool) (l : list A) : list K := nodup dec (map key (filter P l)).
  Definition dcount (P : A -> bool) (l : list A) : nat := length (dkeys P l).

  Lemma dkeys_In P l k : In k (dkeys P l) <-> exists a, In a l /\ P a = true /\ key a = k.
  Proof.
    unfold dkeys. rewrite nodup_In, in_map_iff. split.
    - intros (a & H & Hin). apply filter_In in Hin. exists a. tauto.
    - intros (a & H1 & H2 & H3). exists a. rewrite filter_In. tauto.
  Qed.

  Lemma dkeys_NoDup P l : NoDup (dkeys P l).
  Proof. apply NoDup_nodup. Qed.

  Lemma dcount_nil P : dcount P [] = 0.
  Proof. reflexivity. Qed.

  Lemma dcount_same P Q l1 l2 :
    (forall k, (exists a, In a l1 /\ P a = true /\ key a = k) <->
               (exists a, In a l2 /\ Q a = true /\ key a = k)) ->
    dcount P l1 = dcount Q l2.
  Proof.
    intros H. apply Permutation_length. apply NoDup_Permutation; try apply dkeys_NoDup.
    intros k. rewrite !dkeys_In. apply H.
  Qed.

  Lemma dcount_perm P l1 l2 : Permutation l1 l2 -> dcount P l1 = dcount P l2.
  Proof.
    intros H. apply dcount_same. intros k. split; intros (a & Hin & HP & Hk); exists a.
    - split; [exact (Permutation_in a H Hin)|auto].
    - split; [exact (Permutation_in a (Permutation_sym H) Hin)|auto].
  Qed.

  Lemma dcount_ext P Q l : (forall a, In a l -> P a = Q a) -> dcount P l = dcount Q l.
  Proof.
    intros H. apply dcount_same. intros k. split; intros (a & Hin & HP & Hk); exists a; repeat split; auto.
    - rewrite <- H; auto.
    - rewrite H; auto.
  Qed.

  Lemma NoDup_app_disjoint {B} (l1 l2 : list B) :
    NoDup l1 -> NoDup l2 -> (forall x, In x l1 -> In x l2 -> False) -> NoDup (l1 ++ l2).
  Proof.
    induction 1 as [|x l Hx Hnd IH]; intros H2 Hd; simpl; [exact H2|].
    constructor.
    - rewrite in_app_iff. intros [H|H]; [auto|]. apply (Hd x); [left; reflexivity|exact H].
    - apply IH; auto. intros y Hy1 Hy2. apply (Hd y); [right; exact Hy1|exact Hy2].
  Qed.

  Lemma dcount_app P l1 l2 :
    (forall a b, In a l1 -> In b l2 -> P a = true -> P b = true -> key a <> key b) ->
    dcount P (l1 ++ l2) = dcount P l1 + dcount P l2.
  Proof.
    intros H. unfold dcount. rewrite <- app_length. apply Permutation_length.
    apply NoDup_Permutation; [apply dkeys_NoDup| |].
    - apply NoDup_app_disjoint; try apply dkeys_NoDup.
      intros k H1 H2. apply dkeys_In in H1. apply dkeys_In in H2.
      destruct H1 as (a & Ha & HPa & Hka), H2 as (b & Hb & HPb & Hkb).
      apply (H a b); auto. congruence.
    - intros k. rewrite in_app_iff, !dkeys_In. split.
      + intros (a & Hin & Hp). apply in_app_iff in Hin. destruct Hin; [left|right]; exists a; tauto.
      + intros [(a & Hin & Hp)|(a & Hin & Hp)]; exists a; rewrite in_app_iff; tauto.
  Qed.

  Lemma dcount_concat P ls :
    (forall i j li lj a b, nth_error ls i = Some li -> nth_error ls j = Some lj -> i <> j ->
       In a li -> In b lj -> P a = true -> P b = true -> key a <> key b) ->
    dcount P (concat ls) = list_sum_nat (map (dcount P) ls).
  Proof.
    induction ls as [|l ls IH]; intros H; [reflexivity|].
    cbn [concat map]. rewrite dcount_app.
    - rewrite IH; [reflexivity|]. intros i j li lj a b Hi Hj Hij.
      apply (H (S i) (S j)); auto.
    - intros a b Ha Hb. apply in_concat in Hb. destruct Hb as (l' & Hl' & Hb).
      apply In_nth_error in Hl'. destruct Hl' as (j & Hj).
      apply (H 0 (S j) l l' a b); auto.
  Qed.

  (* all keys equal: 0 or 1 *)
  Lemma dcount_one P l k :
    (forall a, In a l -> P a = true -> key a = k) ->
    dcount P l = if existsb P l then 1 else 0.
  Proof.
    intros H. destruct (existsb P l) eqn:E.
    - apply existsb_exists in E. destruct E as (a & Ha & HP).
      change 1 with (length [k]). apply Permutation_length.
      apply NoDup_Permutation; [apply dkeys_NoDup|repeat constructor; intros []|].
      intros k'. rewrite dkeys_In. split.
      + intros (b & Hb & HPb & <-). left. symmetry; auto.
      + intros [<-|[]]. exists a. auto.
    - unfold dcount, dkeys. rewrite filter_none; [reflexivity|].
      intros a Ha. destruct (P a) eqn:EP; [|reflexivity].
      assert (existsb P l = true) by (apply existsb_exists; eauto). congruence.
  Qed.

  (* injective key: plain counting *)
  Lemma dcount_inj P l :
    NoDup (map key (filter P l)) -> dcount P l = countb P l.
  Proof.
    intros H. unfold dcount, dkeys, countb. rewrite nodup_fixed_point by exact H. apply map_length.
  Qed.

  Lemma dcount_le P l : dcount P l <= countb P l.
  Proof.
    unfold dcount, dkeys, countb. rewrite <- (map_length key).
    apply NoDup_incl_length; [apply NoDup_nodup|]. intros x Hx. apply nodup_In in Hx. exact Hx.
  Qed.

  Lemma dcount_mono P Q l : (forall a, In a l -> P a = true -> Q a = true) -> dcount P l <= dcount Q l.
  Proof.
    intros H. apply NoDup_incl_length; [apply dkeys_NoDup|].
    intros k. rewrite !dkeys_In. intros (a & H1 & H2 & H3). exists a. auto.
  Qed.

  (* counting among distinct keys with a test on the key = masking by the test *)
  Lemma dkeys_countb P (t : K -> bool) l :
    countb t (dkeys P l) = dcount (fun a => P a && t (key a)) l.
  Proof.
    unfold countb. apply Permutation_length. apply NoDup_Permutation.
    - apply NoDup_filter, dkeys_NoDup.
    - apply dkeys_NoDup.
    - intros k. rewrite filter_In, !dkeys_In. split.
      + intros ((a & H1 & H2 & H3) & Ht). exists a. subst k. rewrite H2, Ht. auto.
      + intros (a & H1 & H2 & H3). apply andb_true_iff in H2. subst k. split; [exists a|]; tauto.
  Qed.

  (* complementary masks that depend on the key only *)
  Lemma dcount_split_key P (t : K -> bool) l :
    dcount P l = dcount (fun a => P a && t (key a)) l + dcount (fun a => P a && negb (t (key a))) l.
  Proof.
    rewrite <- (dkeys_countb P t), <- (dkeys_countb P (fun k => negb (t k))). unfold dcount, countb. generalize (dkeys P l).
    induction l0 as [|x r IH]; simpl; [reflexivity|]. destruct (t x); simpl; lia.
  Qed.
End DCount.

Definition zz_dec : forall x y : Z * Z, {x = y} + {x <> y}.
Proof. decide equality; apply Z.eq_dec. Defined.
Definition zzz_dec : forall x y : Z * Z * Z, {x = y} + {x <> y}.
Proof. decide equality; [apply Z.eq_dec|apply zz_dec]. Defined.

(* sums *)
Lemma list_sum_nat_ext {A} (f g : A -> nat) l :
  (forall x, In x l -> f x = g x) -> list_sum_nat (map f l) = list_sum_nat (map g l).
Proof.
  induction l as [|a t IH]; simpl; intros H; [reflexivity|].
  rewrite (H a (or_introl eq_refl)). rewrite IH by auto. reflexivity.
Qed.

Lemma list_sum_nat_add {A} (f g : A -> nat) l :
  list_sum_nat (map (fun x => f x + g x) l) = list_sum_nat (map f l) + list_sum_nat (map g l).
Proof. induction l as [|a t IH]; simpl; lia. Qed.

Lemma list_sum_nat_if {A} (f : A -> bool) l :
  list_sum_nat (map (fun x => if f x then 1 else 0) l) = countb f l.
Proof. unfold countb. induction l as [|a t IH]; simpl; [reflexivity|]. destruct (f a); simpl; lia. Qed.

Lemma list_sum_nat_perm l1 l2 : Permutation l1 l2 -> list_sum_nat l1 = list_sum_nat l2.
Proof. induction 1; simpl; lia. Qed.

Lemma list_sum_swap {A B} (f : A -> B -> nat) la lb :
  list_sum_nat (map (fun a => list_sum_nat (map (f a) lb)) la)
  = list_sum_nat (map (fun b => list_sum_nat (map (fun a => f a b) la)) lb).
Proof.
  induction la as [|a t IH]; simpl.
  - induction lb; simpl; auto.
  - rewrite IH. rewrite <- list_sum_nat_add. reflexivity.
Qed.

Lemma list_sum_map_countb {A B} (f : B -> A -> bool) (ks : list B) (l : list A) :
  list_sum_nat (map (fun k => countb (f k) l) ks)
  = list_sum_nat (map (fun a => countb (fun k => f k a) ks) l).
Proof.
  rewrite (list_sum_nat_ext _ (fun k => list_sum_nat (map (fun a => if f k a then 1 else 0) l)))
    by (intros; symmetry; apply list_sum_nat_if).
  rewrite list_sum_swap. apply list_sum_nat_ext. intros a _. apply (list_sum_nat_if (fun k => f k a)).
Qed.

Lemma countb_concat {A} (f : A -> bool) ls : countb f (concat ls) = list_sum_nat (map (countb f) ls).
Proof. induction ls as [|l t IH]; simpl; [reflexivity|]. rewrite countb_app, IH. reflexivity. Qed.

Lemma countb_map {A B} (g : A -> B) (f : B -> bool) l : countb f (map g l) = countb (fun x => f (g x)) l.
Proof. unfold countb. induction l as [|a t IH]; simpl; [reflexivity|]. destruct (f (g a)); simpl; lia. Qed.

Lemma countb_filter {A} (f g : A -> bool) l : countb f (filter g l) = countb (fun x => g x && f x) l.
Proof. unfold countb. rewrite filter_filter. reflexivity. Qed.

Lemma countb_false {A} (f : A -> bool) l : (forall x, In x l -> f x = false) -> countb f l = 0.
Proof. intros H. unfold countb. rewrite filter_none by exact H. reflexivity. Qed.

Lemma countb_true {A} (f : A -> bool) l : (forall x, In x l -> f x = true) -> countb f l = length l.
Proof. intros H. unfold countb. rewrite filter_all by exact H. reflexivity. Qed.
