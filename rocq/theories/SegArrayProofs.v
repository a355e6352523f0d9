(* The arrays of segmentation hold the values of SegModel.v. *)
From Verif Require Import Prelude Counting CacheModel ClsModel FlowModel DetModel DetFlowModel DetArrayModel SegModel SegSpec DetArrayProofs ClsArrayMain SegProofs SegArrayModel.
From Coq Require Import QArith String Lia.
From Coq Require Import List.
Local Open Scope nat_scope.
Local Open Scope list_scope.

Definition arr {A} (n : nat) (m : nat -> nat -> A) : list (list A) := map (fun i => map (m i) (seq 0 n)) (seq 0 n).

Lemma seq_nth {A} (f : nat -> A) n k : nth_error (map f (seq 0 n)) k = if k <? n then Some (f k) else None.
Proof.
  destruct (Nat.ltb_spec k n) as [H|H].
  - rewrite nth_error_map, (nth_error_nth' (seq 0 n) 0) by (rewrite seq_length; lia). rewrite seq_nth by lia. reflexivity.
  - apply nth_error_None. rewrite map_length, seq_length. lia.
Qed.
Lemma seq_map_ext {A} (f g : nat -> A) n : (forall i, i < n -> f i = g i) -> map f (seq 0 n) = map g (seq 0 n).
Proof. intros H. apply map_ext_in. intros i Hi. apply in_seq in Hi. apply H. lia. Qed.
Lemma arr_ext {A} n (m m' : nat -> nat -> A) : (forall i j, i < n -> j < n -> m i j = m' i j) -> arr n m = arr n m'.
Proof. intros H. apply seq_map_ext. intros i Hi. apply seq_map_ext. intros j Hj. now apply H. Qed.
Lemma np_pos_nat n k : k < n -> np_pos n (Z.of_nat k) = Some k.
Proof.
  intros H. unfold np_pos. destruct (Z.leb_spec 0 (Z.of_nat k)); [|lia]. destruct (Z.ltb_spec (Z.of_nat k) (Z.of_nat n)); [|lia].
  now rewrite Nat2Z.id.
Qed.
Lemma get_seq {A} (f : nat -> A) n k : k < n -> np_get (map f (seq 0 n)) (Z.of_nat k) = AOk (f k).
Proof.
  intros H. unfold np_get. rewrite map_length, seq_length, np_pos_nat by exact H. rewrite seq_nth.
  destruct (Nat.ltb_spec k n); [reflexivity|lia].
Qed.
Lemma set_seq {A} (f : nat -> A) n k x : k < n ->
  np_set (map f (seq 0 n)) (Z.of_nat k) x = AOk (map (fun i => if Nat.eqb k i then x else f i) (seq 0 n)).
Proof.
  intros H. unfold np_set. rewrite map_length, seq_length, np_pos_nat by exact H. f_equal. apply nth_ext_error. intros j.
  rewrite set_nth_nth, !seq_nth, map_length, seq_length.
  destruct (Nat.eqb_spec j k); destruct (Nat.ltb_spec k n); destruct (Nat.ltb_spec j n); destruct (Nat.eqb_spec k j); simpl; try reflexivity; try lia.
Qed.
Lemma at_arr {A} n (m : nat -> nat -> A) i j : i < n -> j < n -> np_at (arr n m) (Z.of_nat i) (Z.of_nat j) = AOk (m i j).
Proof. intros Hi Hj. unfold np_at, arr. rewrite get_seq by exact Hi. simpl. now apply get_seq. Qed.
Lemma put_arr n m i j v : i < n -> j < n -> np_put (arr n m) (Z.of_nat i, Z.of_nat j) v = AOk (arr n (mset m i j v)).
Proof.
  intros Hi Hj. unfold np_put, arr. simpl fst. simpl snd. rewrite get_seq by exact Hi. simpl abind. rewrite set_seq by exact Hj. simpl abind.
  rewrite set_seq by exact Hi. f_equal. apply seq_map_ext. intros a Ha. unfold mset.
  destruct (Nat.eqb_spec i a) as [->|N]; simpl; reflexivity.
Qed.
Lemma zeros_arr n : np_zeros n = arr n mzero.
Proof.
  unfold np_zeros, arr, mzero. assert (H : forall A (x : A) k s, repeat x k = map (fun _ => x) (seq s k)).
  { intros A x k. induction k as [|k IH]; intros s; simpl; [reflexivity|]. now rewrite <- IH. }
  rewrite (H _ (repeat 0%Z n) n 0). apply map_ext. intros. apply H.
Qed.
Lemma afold_app {A S} (f : S -> A -> ares S) l1 : forall l2 s, afold f (l1 ++ l2) s = abind (afold f l1 s) (afold f l2).
Proof. induction l1 as [|a l1 IH]; intros l2 s; simpl; [reflexivity|]. destruct (f s a); simpl; [apply IH|reflexivity]. Qed.
Lemma abind_assoc {A B C} (r : ares A) (f : A -> ares B) (g : B -> ares C) : abind (abind r f) g = abind r (fun a => abind (f a) g).
Proof. now destruct r. Qed.
Lemma abind_ext {A B} (r : ares A) (f g : A -> ares B) : (forall a, f a = g a) -> abind r f = abind r g.
Proof. intros H. destruct r; simpl; [apply H|reflexivity]. Qed.

(* ------------------------------------------------------------------ *)
(** * compute_intermediates *)

Lemma stretch_same {A} n (l : list A) : List.length l = n -> stretch n l = AOk l.
Proof.
  intros H. unfold stretch. destruct l as [|x [|y t]]; simpl in H; subst n; simpl; try reflexivity. now rewrite Nat.eqb_refl.
Qed.
Lemma np_zip_same {A B C} (f : A -> B -> C) a b : List.length a = List.length b -> np_zip f a b = AOk (map2 f a b).
Proof.
  intros H. unfold np_zip. destruct a as [|x [|x' a]]; destruct b as [|y [|y' b]]; simpl in H; try discriminate; try reflexivity.
  cbn [List.length]. rewrite (proj2 (Nat.eqb_eq (S (S (List.length a))) (S (S (List.length b)))) H). reflexivity.
Qed.
Lemma map2_combine {A B C} (f : A -> B -> C) a : forall b, map2 f a b = map (fun p => f (fst p) (snd p)) (combine a b).
Proof. induction a as [|x a IH]; intros [|y b]; simpl; try reflexivity. now rewrite IH. Qed.
Lemma map2_band a b : map2 andb a b = band a b.
Proof. apply map2_combine. Qed.
Lemma map2_bor a b : map2 orb a b = bor a b.
Proof. apply map2_combine. Qed.
Lemma bor_false N a : List.length a = N -> bor (repeat false N) a = a.
Proof. intros <-. unfold bor. induction a as [|x a IH]; simpl; [reflexivity|]. now rewrite IH. Qed.
Lemma fold_bor_eq t : forall r, fold_left (map2 orb) t r = fold_left bor t r.
Proof. induction t as [|x t IH]; intros r; simpl; [reflexivity|]. now rewrite map2_bor, IH. Qed.
Lemma any0 N masks : masks <> [] -> Forall (fun m => List.length m = N) masks -> reduce0 orb masks = any_axis0 N masks.
Proof.
  intros Hn HF. destruct masks as [|r t]; [now elim Hn|]. simpl. unfold any_axis0. simpl. inversion HF; subst.
  rewrite bor_false by reflexivity. apply fold_bor_eq.
Qed.
Lemma bor_length a b : List.length a = List.length b -> List.length (bor a b) = List.length a.
Proof. intros H. unfold bor. rewrite map_length, combine_length. lia. Qed.
Lemma any_length N masks : Forall (fun m => List.length m = N) masks -> List.length (any_axis0 N masks) = N.
Proof.
  unfold any_axis0. assert (H : forall ms r, Forall (fun m => List.length m = N) ms -> List.length r = N -> List.length (fold_left bor ms r) = N).
  { induction ms as [|m ms IH]; intros r HF Hr; simpl; [exact Hr|]. inversion HF; subst. apply IH; [assumption|]. rewrite bor_length; congruence. }
  intros HF. apply H; [exact HF|apply repeat_length].
Qed.
Lemma reduce0_sum {G P} (f : G -> P -> Z) (gs : list G) (ps : list P) : gs <> [] ->
  reduce0 Z.add (map (fun g => map (f g) ps) gs) = map (fun p => zsum (map (fun g => f g p) gs)) ps.
Proof.
  intros Hn. destruct gs as [|g gs]; [now elim Hn|]. simpl.
  assert (H : forall gs (h : P -> Z), fold_left (map2 Z.add) (map (fun g => map (f g) ps) gs) (map h ps) = map (fun p => (h p + zsum (map (fun g => f g p) gs))%Z) ps).
  { clear. induction gs as [|g gs IH]; intros h; simpl.
    - apply map_ext. intros. lia.
    - rewrite map2_maps, IH. apply map_ext. intros. lia. }
  rewrite H. apply map_ext. intros. unfold zsum. simpl. reflexivity.
Qed.
Lemma puts_fold n cells : forall m, (forall x, In x cells -> fst (fst x) < n /\ snd (fst x) < n) ->
  afold (fun m x => np_put m (fst x) (snd x)) (map (fun x : nat * nat * Z => ((Z.of_nat (fst (fst x)), Z.of_nat (snd (fst x))), snd x)) cells) (arr n m)
  = AOk (arr n (fold_left (fun m x => mset m (fst (fst x)) (snd (fst x)) (snd x)) cells m)).
Proof.
  induction cells as [|x cells IH]; intros m H; simpl; [reflexivity|]. destruct (H x (or_introl eq_refl)) as [Hi Hj].
  rewrite put_arr by assumption. simpl. apply IH. intros y Hy. apply H. now right.
Qed.
Lemma combine_map_l {A B C} (f : A -> C) (a : list A) : forall (b : list B), combine (map f a) b = map (fun p => (f (fst p), snd p)) (combine a b).
Proof. induction a as [|x a IH]; intros [|y b]; simpl; try reflexivity. now rewrite IH. Qed.
Lemma combine_map_r {A B C} (f : B -> C) (a : list A) : forall (b : list B), combine a (map f b) = map (fun p => (fst p, f (snd p))) (combine a b).
Proof. induction a as [|x a IH]; intros [|y b]; simpl; try reflexivity. now rewrite IH. Qed.
Lemma fold_left_map {A B S} (f : S -> B -> S) (g : A -> B) l : forall s, fold_left f (map g l) s = fold_left (fun s a => f s (g a)) l s.
Proof. induction l as [|a l IH]; intros s; simpl; [reflexivity|]. apply IH. Qed.
Lemma combine_app {A B} (a1 : list A) : forall a2 (b1 b2 : list B), List.length a1 = List.length b1 ->
  combine (a1 ++ a2) (b1 ++ b2) = combine a1 b1 ++ combine a2 b2.
Proof. induction a1 as [|x a1 IH]; intros a2 [|y b1] b2 H; simpl in *; try discriminate; [reflexivity|]. rewrite IH by lia. reflexivity. Qed.

(* the cells of the three assignments *)
Definition ix_cells (gls pls : list nat) (gts pds : list (list bool)) : list (nat * nat * Z) :=
  flat_map (fun gl => map (fun pl => (S (fst gl), S (fst pl), bsum (band (snd gl) (snd pl)))) (combine pls pds)) (combine gls gts).
Lemma ix_combine (F : list bool -> list bool -> Z) gls : forall gts pls pds, List.length gls = List.length gts -> List.length pls = List.length pds ->
  combine (list_prod (map (Z.add 1) (map Z.of_nat gls)) (map (Z.add 1) (map Z.of_nat pls)))
          (List.concat (map (fun g => map (F g) pds) gts))
  = map (fun x : nat * nat * Z => ((Z.of_nat (fst (fst x)), Z.of_nat (snd (fst x))), snd x))
      (flat_map (fun gl => map (fun pl => (S (fst gl), S (fst pl), F (snd gl) (snd pl))) (combine pls pds)) (combine gls gts)).
Proof.
  induction gls as [|g gls IH]; intros [|x gts] pls pds Hg Hp; simpl in Hg; try discriminate; [reflexivity|].
  cbn [map list_prod List.concat combine flat_map]. rewrite combine_app by (now rewrite !map_length). rewrite map_app. f_equal.
  - rewrite !combine_map_l, combine_map_r, !map_map. apply map_ext. intros [p q]. cbn [fst snd]. f_equal. f_equal; lia.
  - apply IH; [lia|exact Hp].
Qed.

Lemma intermediates_arr N gts pds gls pls n : gts <> [] -> pds <> [] ->
  Forall (fun m => List.length m = N) gts -> Forall (fun m => List.length m = N) pds ->
  (gls = [] /\ List.length gts = 1 \/ List.length gls = List.length gts) ->
  (pls = [] /\ List.length pds = 1 \/ List.length pls = List.length pds) ->
  (forall i, In i gls \/ In i pls -> i < n) ->
  np_intermediates gts pds (map Z.of_nat gls) (map Z.of_nat pls) n = AOk (arr (S n) (compute_intermediates N gts pds gls pls)).
Proof.
  intros Hg Hp HG HP Lg Lp Hi. unfold np_intermediates.
  rewrite (any0 N gts), (any0 N pds) by assumption. rewrite np_zip_same by (now rewrite !any_length).
  cbn [abind]. rewrite map2_bor.
  rewrite (amap_ok _ (fun g => map (fun p => bsum (band g p)) pds)).
  2:{ intros g Hin. apply (amap_ok _ (fun p => bsum (band g p))). intros p Hq. rewrite Forall_forall in HG, HP.
      rewrite np_zip_same by (rewrite (HG g Hin), (HP p Hq); reflexivity). cbn [abind]. now rewrite map2_band. }
  cbn [abind]. rewrite zeros_arr. change (0, 0)%Z with (Z.of_nat 0, Z.of_nat 0). rewrite put_arr by lia. cbn [abind].
  rewrite !map_length.
  assert (E1 : exists X, abind (amap (stretch (List.length pls)) (map (fun g => map (fun p => bsum (band g p)) pds) gts)) (stretch (List.length gls)) = AOk X /\
     combine (list_prod (map (Z.add 1) (map Z.of_nat gls)) (map (Z.add 1) (map Z.of_nat pls))) (List.concat X)
     = map (fun x : nat * nat * Z => ((Z.of_nat (fst (fst x)), Z.of_nat (snd (fst x))), snd x)) (ix_cells gls pls gts pds)).
  { destruct Lp as [[-> Lp]|Lp].
    - destruct pds as [|p [|? ?]]; try discriminate. exists (repeat [] (List.length gls)). split.
      + rewrite (amap_ok _ (fun _ => [])). 2:{ intros a Ha. apply in_map_iff in Ha. destruct Ha as (g & <- & _). reflexivity. }
        cbn [abind]. rewrite map_map. destruct Lg as [[-> Lg]|Lg].
        * destruct gts as [|g [|? ?]]; try discriminate. reflexivity.
        * rewrite stretch_same by (now rewrite map_length). f_equal. rewrite Lg. clear. induction gts; simpl; [reflexivity|now f_equal].
      + unfold ix_cells. assert (K : forall A (l : list A), flat_map (fun _ => []) l = (@nil (nat * nat * Z))) by (intros A l; induction l; simpl; auto).
        simpl. rewrite K. simpl. destruct (list_prod _ []) eqn:E; [reflexivity|]. exfalso. clear -E.
        assert (forall A B (l : list A), list_prod l (@nil B) = []) by (intros A B q; induction q; simpl; auto). rewrite H in E. discriminate.
    - destruct Lg as [[-> Lg]|Lg].
      + destruct gts as [|g [|? ?]]; try discriminate. exists []. split.
        * rewrite (amap_ok _ (fun x => x)). 2:{ intros a Ha. apply in_map_iff in Ha. destruct Ha as (g' & <- & _). apply stretch_same. now rewrite map_length. }
          reflexivity.
        * simpl. reflexivity.
      + exists (map (fun g => map (fun p => bsum (band g p)) pds) gts). split.
        * rewrite (amap_ok _ (fun x => x)). 2:{ intros a Ha. apply in_map_iff in Ha. destruct Ha as (g' & <- & _). apply stretch_same. now rewrite map_length. }
          cbn [abind]. rewrite map_id. apply stretch_same. now rewrite map_length.
        * apply ix_combine; assumption. }
  destruct E1 as (X & -> & EX). cbn [abind]. unfold np_puts at 1. rewrite EX.
  rewrite puts_fold.
  2:{ intros x Hx. unfold ix_cells in Hx. apply in_flat_map in Hx. destruct Hx as ([i g] & Hx & Hy). apply in_map_iff in Hy. destruct Hy as ([j p] & <- & Hy).
      cbn [fst snd]. apply in_combine_l in Hx. apply in_combine_l in Hy. split.
      - specialize (Hi i (or_introl Hx)). lia.
      - specialize (Hi j (or_intror Hy)). lia. }
  cbn [abind]. rewrite reduce0_sum by exact Hg. rewrite np_zip_same by (now rewrite !map_length). cbn [abind]. rewrite map2_maps.
  set (m1 := fold_left _ (ix_cells gls pls gts pds) _).
  assert (E2 : forall (F : list bool -> Z) (cell : nat -> nat * nat) (ls : list nat) (masks : list (list bool)) m,
            (ls = [] /\ List.length masks = 1 \/ List.length ls = List.length masks) ->
            (forall i, In i ls -> fst (cell i) < S n /\ snd (cell i) < S n) ->
            abind (stretch (List.length ls) (map F masks)) (fun v =>
               np_puts (arr (S n) m) (map (fun i => (Z.of_nat (fst (cell i)), Z.of_nat (snd (cell i)))) ls) v)
            = AOk (arr (S n) (fold_left (fun m x => mset m (fst (cell (fst x))) (snd (cell (fst x))) (F (snd x))) (combine ls masks) m))).
  { intros F cell ls masks m [[-> L]|L] Hc.
    - destruct masks as [|x [|? ?]]; try discriminate. reflexivity.
    - rewrite stretch_same by (now rewrite map_length). cbn [abind]. unfold np_puts.
      rewrite combine_map_l, combine_map_r, map_map.
      pose proof (puts_fold (S n) (map (fun x => (cell (fst x), F (snd x))) (combine ls masks)) m) as H. rewrite map_map in H. cbn [fst snd] in *.
      rewrite H. 2:{ intros x Hx. apply in_map_iff in Hx. destruct Hx as ([i q] & <- & Hx). cbn [fst snd]. apply Hc. eapply in_combine_l; exact Hx. }
      now rewrite fold_left_map. }
  rewrite map_map. rewrite (map_ext (fun x : nat => (0, 1 + Z.of_nat x)%Z) (fun i => (Z.of_nat (fst (0, S i)), Z.of_nat (snd (0, S i))))) by (intros i; cbn [fst snd]; f_equal; lia).
  pose proof (E2 (fun p => (bsum p - zsum (map (fun g => bsum (band g p)) gts))%Z) (fun i => (0, S i)) pls pds m1 Lp) as HE.
  cbn [fst snd] in *.
  match goal with |- abind ?r (fun pv => abind (@?f pv) ?k) = _ =>
    replace (abind r (fun pv => abind (f pv) k)) with (abind (abind r f) k) by (apply abind_assoc) end.
  cbn beta. rewrite HE by (intros i Hin; split; [lia|]; specialize (Hi i (or_intror Hin)); lia). clear HE.
  cbn [abind]. rewrite map_map. rewrite np_zip_same by (now rewrite !map_length). cbn [abind]. rewrite map2_maps.
  rewrite map_map. rewrite (map_ext (fun x : nat => (1 + Z.of_nat x, 0)%Z) (fun i => (Z.of_nat (fst (S i, 0)), Z.of_nat (snd (S i, 0))))) by (intros i; cbn [fst snd]; f_equal; lia).
  set (m2 := fold_left _ (combine pls pds) m1).
  pose proof (E2 (fun g => (bsum g - zsum (map (fun p => bsum (band g p)) pds))%Z) (fun i => (S i, 0)) gls gts m2 Lg) as HE.
  cbn [fst snd] in *. rewrite HE by (intros i Hin; split; [specialize (Hi i (or_introl Hin)); lia|lia]).
  f_equal. f_equal. unfold compute_intermediates. subst m2 m1. unfold ix_cells.
  assert (E : forall gs m, fold_left (fun m (x : nat * nat * Z) => mset m (fst (fst x)) (snd (fst x)) (snd x))
      (flat_map (fun gl => map (fun pl => (S (fst gl), S (fst pl), bsum (band (snd gl) (snd pl)))) (combine pls pds)) gs) m
      = fold_left (fun m gl => fold_left (fun m pl => mset m (S (fst gl)) (S (fst pl)) (bsum (band (snd gl) (snd pl)))) (combine pls pds) m) gs m).
  { induction gs as [|a gs IH]; intros m; simpl; [reflexivity|]. rewrite fold_left_app, IH, fold_left_map. reflexivity. }
  now rewrite E.
Qed.
