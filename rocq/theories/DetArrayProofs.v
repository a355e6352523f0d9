(* Proofs about DetArrayModel.v: as long as the label numbers and recall indices fit,
   the arrays hold the values of DetModel.v. *)
From Verif Require Import Prelude Counting CacheModel ClsModel FlowModel DetModel DetFlowModel DetRankProofs DetApProofs DetArrayModel.
From Coq Require Import QArith Qminmax Sorting.Sorted Lia.
Local Open Scope nat_scope.
Local Open Scope list_scope.

Definition tab {A} (n : nat) (f : Z -> A) : list A := map (fun k => f (Z.of_nat k)) (seq 0 n).
Definition inside (n : nat) (l : Z) : Prop := (0 <= l < Z.of_nat n)%Z.

Lemma tab_length {A} n (f : Z -> A) : List.length (tab n f) = n.
Proof. unfold tab. rewrite map_length, seq_length. reflexivity. Qed.
Lemma tab_nth {A} n (f : Z -> A) k : nth_error (tab n f) k = if k <? n then Some (f (Z.of_nat k)) else None.
Proof.
  unfold tab. rewrite nth_error_map. destruct (Nat.ltb_spec k n) as [H|H].
  - rewrite (nth_error_nth' _ 0) by (rewrite seq_length; exact H). rewrite seq_nth by exact H. reflexivity.
  - rewrite (proj2 (nth_error_None _ _)) by (rewrite seq_length; exact H). reflexivity.
Qed.
Lemma nth_ext_error {A} (a b : list A) : (forall k, nth_error a k = nth_error b k) -> a = b.
Proof.
  revert b. induction a as [|x a IH]; intros [|y b] H; [reflexivity|specialize (H 0); discriminate|specialize (H 0); discriminate|].
  f_equal; [specialize (H 0); injection H as ->; reflexivity|]. apply IH. intros k. exact (H (S k)).
Qed.
Lemma tab_ext {A} n (f g : Z -> A) : (forall l, inside n l -> f l = g l) -> tab n f = tab n g.
Proof. intros H. apply map_ext_in. intros k Hk. apply in_seq in Hk. apply H. unfold inside. lia. Qed.
Lemma tab_repeat {A} n (x : A) : repeat x n = tab n (fun _ => x).
Proof. apply nth_ext_error. intros k. rewrite tab_nth. destruct (Nat.ltb_spec k n) as [H|H].
  - rewrite nth_error_repeat by exact H. reflexivity.
  - apply nth_error_None. rewrite repeat_length. exact H. Qed.

Lemma np_pos_inside n l : inside n l -> np_pos n l = Some (Z.to_nat l).
Proof. unfold inside, np_pos. intros H. replace (0 <=? l)%Z with true by lia. replace (l <? Z.of_nat n)%Z with true by lia. reflexivity. Qed.
Lemma np_get_tab {A} n (f : Z -> A) l : inside n l -> np_get (tab n f) l = AOk (f l).
Proof.
  intros H. unfold np_get. rewrite tab_length, (np_pos_inside n l H), tab_nth. unfold inside in H.
  replace (Z.to_nat l <? n) with true by (symmetry; apply Nat.ltb_lt; lia). rewrite Z2Nat.id by lia. reflexivity.
Qed.
Lemma set_nth_nth {A} (a : list A) k x j : nth_error (set_nth a k x) j = if (j =? k) && (k <? List.length a) then Some x else nth_error a j.
Proof.
  revert k j. induction a as [|y a IH]; intros k j.
  - cbn. rewrite andb_false_r. reflexivity.
  - destruct k as [|k]; destruct j as [|j]; cbn [set_nth nth_error]; try reflexivity.
    rewrite IH. cbn [List.length]. destruct (Nat.eqb_spec j k) as [->|]; [|destruct (Nat.eqb_spec (S j) (S k)); [lia|reflexivity]].
    rewrite Nat.eqb_refl. destruct (Nat.ltb_spec k (List.length a)), (Nat.ltb_spec (S k) (S (List.length a))); try lia; reflexivity.
Qed.
Lemma set_nth_length {A} (a : list A) k x : List.length (set_nth a k x) = List.length a.
Proof. revert k. induction a as [|y a IH]; intros [|k]; cbn; auto. Qed.
Lemma np_set_tab {A} n (f : Z -> A) l x : inside n l -> np_set (tab n f) l x = AOk (tab n (fun l' => if (l' =? l)%Z then x else f l')).
Proof.
  intros H. unfold np_set. rewrite tab_length, (np_pos_inside n l H). f_equal. apply nth_ext_error. intros k.
  rewrite set_nth_nth, !tab_nth, tab_length. unfold inside in H. destruct (Nat.ltb_spec k n) as [Hk|Hk].
  - replace (Z.to_nat l <? n) with true by (symmetry; apply Nat.ltb_lt; lia). rewrite andb_true_r.
    destruct (Nat.eqb_spec k (Z.to_nat l)) as [->|E]; [rewrite Z2Nat.id, Z.eqb_refl by lia; reflexivity|].
    replace (Z.of_nat k =? l)%Z with false by lia. reflexivity.
  - destruct (Nat.eqb_spec k (Z.to_nat l)); [lia|reflexivity].
Qed.
Lemma amap_ok {A B} (f : A -> ares B) (g : A -> B) l : (forall a, In a l -> f a = AOk (g a)) -> amap f l = AOk (map g l).
Proof.
  induction l as [|a l IH]; intros H; [reflexivity|]. cbn [amap map]. rewrite (H a) by (left; reflexivity). cbn [abind].
  rewrite IH by (intros b Hb; apply H; right; exact Hb). reflexivity.
Qed.
(* ------------------------------------------------------------------ *)
(** * Counts *)

Lemma max_inside n (xs : list (Z * bool)) : (forall x, In x xs -> inside n (fst x)) -> fold_right Nat.max n (map (fun x => S (Z.to_nat (fst x))) xs) = n.
Proof.
  induction xs as [|x xs IH]; intros H; [reflexivity|]. cbn [map fold_right]. rewrite IH by (intros y Hy; apply H; right; exact Hy).
  assert (X := H x (or_introl eq_refl)). unfold inside in X. lia.
Qed.
Lemma bincount_inside n xs : (forall x, In x xs -> inside n (fst x)) ->
  abind (bincount n xs) (assign n) = AOk (tab n (fun l => countb (fun x => snd x && (fst x =? l)%Z) xs)).
Proof.
  intros H. unfold bincount. destruct (existsb _ xs) eqn:E.
  - apply existsb_exists in E. destruct E as (x & Hx & E). specialize (H x Hx). unfold inside in H. lia.
  - cbn [abind]. rewrite (max_inside n xs H). fold (tab n (fun l => countb (fun x => snd x && (fst x =? l)%Z) xs)).
    unfold assign. set (T := tab n _). assert (HT : List.length T = n) by apply tab_length.
    destruct T as [|a [|b T]]; cbn in HT; subst n; [reflexivity|reflexivity|]. cbn [List.length]. rewrite Nat.eqb_refl. reflexivity.
Qed.
Lemma tp_mask_length eps t s rows : List.length (tp_mask eps t s rows) = List.length rows.
Proof.
  unfold tp_mask. generalize (@nil (Z * Z * Z)). induction rows as [|r u IH]; intros seen; [reflexivity|]. cbn [first_flags].
  destruct (tp_inner eps t s r); [destruct (kmem _ _ _)|]; cbn; rewrite IH; reflexivity.
Qed.
Lemma in_combine_rows {A B} (a : list A) (b : list B) x : In x (combine a b) -> In (fst x) a.
Proof. destruct x as [p q]. apply in_combine_l. Qed.

Lemma combine_map_fst {A B C} (f : A -> C) (a : list A) : forall (b : list B), combine (map f a) b = map (fun x => (f (fst x), snd x)) (combine a b).
Proof. induction a as [|x a IH]; intros [|y b]; cbn; [reflexivity..|]. f_equal. apply IH. Qed.
Lemma filter_twice {A} (f g : A -> bool) l : filter f (filter g l) = filter (fun x => g x && f x) l.
Proof. induction l as [|a l IH]; [reflexivity|]. cbn. destruct (g a); cbn; [destruct (f a)|]; rewrite ?IH; reflexivity. Qed.
Lemma score_rows_ok eps n t rows s : (forall r, In r rows -> inside n (d_pl r)) ->
  score_rows eps n t rows s = AOk (tab n (fun l => dc_tp (det_counts_at eps t s rows l)), tab n (fun l => dc_fp (det_counts_at eps t s rows l))).
Proof.
  intros H. unfold score_rows. set (mask := tp_mask eps t s rows).
  rewrite bincount_inside.
  - cbn [abind]. rewrite bincount_inside.
    + cbn [abind]. f_equal. f_equal; apply tab_ext; intros l _; cbn [det_counts_at dc_tp dc_fp]; fold mask.
      * rewrite combine_map_fst, countb_map. reflexivity.
      * rewrite countb_map. unfold countb. rewrite filter_twice. reflexivity.
    + intros x Hx. apply in_map_iff in Hx. destruct Hx as (rb & <- & Hx). apply filter_In in Hx. apply H. apply (in_combine_rows _ mask), Hx.
  - intros x Hx. apply in_combine_rows in Hx. apply in_map_iff in Hx. destruct Hx as (r & <- & Hr). apply H. exact Hr.
Qed.

(* ------------------------------------------------------------------ *)
(** * Running counts *)

Section RunningArrays.
  Variables (eps t : Z).
  Local Notation of_label l := (fun r => (d_pl r =? l)%Z).
  Local Notation hit_of l := (fun r => (d_pl r =? l)%Z && tp_outer eps t r).

  Lemma running_nth rows : forall run i,
    nth_error (fst (running eps t run rows)) i =
    match nth_error rows i with
    | Some r => Some (r, S (fst (run (d_pl r)) + countb (of_label (d_pl r)) (firstn i rows)),
                      if tp_outer eps t r then S (snd (run (d_pl r)) + countb (hit_of (d_pl r)) (firstn i rows)) else 0)
    | None => None
    end.
  Proof.
    induction rows as [|r u IH]; intros run i; cbn [running]; [destruct i; reflexivity|].
    destruct (run (d_pl r)) as [total tp] eqn:Er.
    specialize (IH (upd_run run (d_pl r) (S total, if tp_outer eps t r then S tp else tp))).
    destruct (running eps t _ u) as [pts run'] eqn:E. cbn [fst] in *. destruct i as [|i]; cbn [nth_error firstn].
    - rewrite Er. cbn [fst snd]. unfold countb. cbn. rewrite !Nat.add_0_r. reflexivity.
    - rewrite IH. destruct (nth_error u i) as [x|]; [|reflexivity]. unfold upd_run, countb. cbn [filter].
      destruct (Z.eqb_spec (d_pl x) (d_pl r)) as [Ex|Ex].
      + rewrite Ex, Z.eqb_refl, Er. cbn [fst snd andb List.length]. destruct (tp_outer eps t r), (tp_outer eps t x); cbn [List.length]; do 2 f_equal; try f_equal; try reflexivity; lia.
      + replace (d_pl r =? d_pl x)%Z with false by lia. cbn [andb]. reflexivity.
  Qed.
  Lemma running_final rows : forall run l,
    snd (running eps t run rows) l = (fst (run l) + countb (of_label l) rows, snd (run l) + countb (hit_of l) rows).
  Proof.
    induction rows as [|r u IH]; intros run l; cbn [running].
    - unfold countb. cbn. rewrite !Nat.add_0_r. destruct (run l). reflexivity.
    - destruct (run (d_pl r)) as [total tp] eqn:Er.
      specialize (IH (upd_run run (d_pl r) (S total, if tp_outer eps t r then S tp else tp)) l).
      destruct (running eps t _ u) as [pts run'] eqn:E. cbn [snd] in *. rewrite IH. unfold upd_run, countb. cbn [filter].
      destruct (Z.eqb_spec l (d_pl r)) as [->|El].
      + rewrite Z.eqb_refl, Er. cbn [fst snd andb List.length]. destruct (tp_outer eps t r); cbn [List.length]; f_equal; lia.
      + replace (d_pl r =? l)%Z with false by lia. cbn [andb]. reflexivity.
  Qed.

  Variables (n : nat) (rows : list drow) (run : runs).
  Hypothesis Hin : forall r, In r rows -> inside n (d_pl r).

  Definition mem (l : Z) (ls : list Z) : bool := existsb (Z.eqb l) ls.
  Lemma mem_In l ls : mem l ls = true <-> In l ls.
  Proof. unfold mem. rewrite existsb_exists. split; [intros (x & H & E); apply Z.eqb_eq in E; subst; exact H|intros H; exists l; split; [exact H|apply Z.eqb_refl]]. Qed.
  Definition run_after (ls : list Z) : runs := fun l =>
    if mem l ls then (fst (run l) + countb (of_label l) rows, snd (run l) + countb (hit_of l) rows) else run l.
  Definition totals_after (ls : list Z) (totals : list nat) : Prop := List.length totals = List.length rows /\
    forall i r, nth_error rows i = Some r ->
      nth_error totals i = Some (if mem (d_pl r) ls then S (fst (run (d_pl r)) + countb (of_label (d_pl r)) (firstn i rows)) else 0).
  Definition tps_after (ls : list Z) (tps : list nat) : Prop := List.length tps = List.length rows /\
    forall i r, nth_error rows i = Some r ->
      nth_error tps i = Some (if mem (d_pl r) ls && tp_outer eps t r then S (snd (run (d_pl r)) + countb (hit_of (d_pl r)) (firstn i rows)) else 0).

  Lemma seq_nth_error a k i : i < k -> nth_error (seq a k) i = Some (a + i).
  Proof. intros H. rewrite (nth_error_nth' _ 0) by (rewrite seq_length; exact H). rewrite seq_nth by exact H. reflexivity. Qed.
  Lemma countb_firstn_lt {A} (f : A -> bool) l i a : nth_error l i = Some a -> f a = true -> countb f (firstn i l) < countb f l.
  Proof.
    revert i. induction l as [|b l IH]; intros [|i] H F; try discriminate; cbn in H; unfold countb; cbn [firstn filter].
    - injection H as ->. rewrite F. cbn. lia.
    - specialize (IH i H F). unfold countb in IH. destruct (f b); cbn; lia.
  Qed.
  Lemma mask_nth (f : drow -> bool) out a i r : List.length out = List.length rows -> nth_error rows i = Some r ->
    nth_error (scatter (map f rows) (seq a (countb (fun b => b) (map f rows))) out) i = if f r then Some (a + countb f (firstn i rows)) else nth_error out i.
  Proof.
    intros Hl Hi. rewrite scatter_nth; [|rewrite map_length; auto|apply seq_length].
    rewrite nth_error_map, Hi. cbn [option_map]. destruct (f r) eqn:F; [|reflexivity]. rewrite firstn_map, !countb_id_map.
    apply seq_nth_error. apply (countb_firstn_lt f rows i r Hi F).
  Qed.

  Lemma run_label_ok ls l totals tps : inside n l -> mem l ls = false -> totals_after ls totals -> tps_after ls tps ->
    exists totals' tps', run_label eps t rows (totals, tps, tab n (run_after ls)) l = AOk (totals', tps', tab n (run_after (l :: ls)))
      /\ totals_after (l :: ls) totals' /\ tps_after (l :: ls) tps'.
  Proof.
    intros Hl Hm [T1 T2] [P1 P2]. unfold run_label. set (mask := map (of_label l) rows).
    assert (Em : countb (fun b => b) mask = countb (of_label l) rows) by apply countb_id_map.
    assert (Mc : forall x, mem x (l :: ls) = (x =? l)%Z || mem x ls) by reflexivity.
    destruct (Nat.eqb_spec (countb (fun b => b) mask) 0) as [E|E].
    - assert (Z0 : forall r, In r rows -> (d_pl r =? l)%Z = false).
      { intros r Hr. destruct (d_pl r =? l)%Z eqn:X; [|reflexivity]. exfalso. rewrite Em in E. unfold countb in E. apply length_zero_iff_nil in E.
        assert (Y : In r (filter (of_label l) rows)) by (apply filter_In; auto). rewrite E in Y. exact Y. }
      exists totals, tps. split; [|split].
      + f_equal. f_equal. apply tab_ext. intros x _. unfold run_after. rewrite Mc. destruct (Z.eqb_spec x l) as [->|]; [|reflexivity].
        rewrite Hm. cbn [orb]. rewrite <- Em, E. assert (H0 : countb (hit_of l) rows = 0).
        { unfold countb. rewrite (filter_ext_in _ (fun _ => false)) by (intros r Hr; rewrite (Z0 r Hr); reflexivity). clear. induction rows as [|a l' IH]; [reflexivity|exact IH]. }
        rewrite H0, !Nat.add_0_r. destruct (run l); reflexivity.
      + split; [exact T1|]. intros i r Hi. rewrite (T2 i r Hi), Mc, (Z0 r (nth_error_In _ _ Hi)). reflexivity.
      + split; [exact P1|]. intros i r Hi. rewrite (P2 i r Hi), Mc, (Z0 r (nth_error_In _ _ Hi)). reflexivity.
    - rewrite np_get_tab by exact Hl. cbn [abind]. rewrite np_set_tab by exact Hl. cbn [abind].
      assert (Er : run_after ls l = run l) by (unfold run_after; rewrite Hm; reflexivity). rewrite Er.
      eexists. eexists. split; [|split].
      + f_equal. f_equal. apply tab_ext. intros x _. unfold run_after. rewrite Mc. destruct (Z.eqb_spec x l) as [->|]; [|reflexivity].
        cbn [orb]. rewrite Em, countb_id_map. reflexivity.
      + split; [rewrite scatter_length; exact T1|]. intros i r Hi. unfold mask. rewrite (mask_nth (of_label l) totals _ i r T1 Hi), Mc.
        destruct (Z.eqb_spec (d_pl r) l) as [->|]; [reflexivity|]. exact (T2 i r Hi).
      + split; [rewrite scatter_length; exact P1|]. intros i r Hi. rewrite (mask_nth (hit_of l) tps _ i r P1 Hi), Mc.
        destruct (Z.eqb_spec (d_pl r) l) as [El|]; [|exact (P2 i r Hi)]. cbn [andb orb]. destruct (tp_outer eps t r) eqn:Eh; [rewrite El; reflexivity|].
        rewrite (P2 i r Hi), Eh, andb_false_r. reflexivity.
  Qed.
  Lemma run_labels_fold ks : forall ls totals tps, (forall l, In l ks -> inside n l) -> NoDup (ks ++ ls) -> totals_after ls totals -> tps_after ls tps ->
    exists totals' tps', afold (run_label eps t rows) ks (totals, tps, tab n (run_after ls)) = AOk (totals', tps', tab n (run_after (rev ks ++ ls)))
      /\ totals_after (rev ks ++ ls) totals' /\ tps_after (rev ks ++ ls) tps'.
  Proof.
    induction ks as [|k ks IH]; intros ls totals tps Hk Hn Ht Hp; cbn [afold rev app].
    - eauto.
    - inversion Hn as [|? ? N1 N2]; subst.
      destruct (run_label_ok ls k totals tps) as (tot1 & tps1 & E & T1 & P1); auto.
      + apply Hk. left. reflexivity.
      + destruct (mem k ls) eqn:M; [|reflexivity]. apply mem_In in M. exfalso. apply N1, in_or_app. right. exact M.
      + rewrite E. cbn [abind]. destruct (IH (k :: ls) tot1 tps1) as (tot2 & tps2 & E2 & T2 & P2); auto.
        * intros l Hl. apply Hk. right. exact Hl.
        * apply (Permutation_NoDup (Permutation_middle ks ls k)). exact Hn.
        * exists tot2, tps2. rewrite <- app_assoc. cbn [app]. auto.
  Qed.
  Lemma run_labels_ok :
    run_labels eps t rows (tab n run) =
    AOk (map (fun p => snd (fst p)) (fst (running eps t run rows)), map snd (fst (running eps t run rows)), tab n (snd (running eps t run rows))).
  Proof.
    unfold run_labels. set (ks := isort Z.leb (nodup Z.eq_dec (map d_pl rows))).
    assert (Hk : forall l, In l ks <-> exists r, In r rows /\ d_pl r = l).
    { intros l. unfold ks. split.
      - intros H. apply (Permutation_in l (Permutation_sym (isort_perm _ _))) in H. apply nodup_In, in_map_iff in H. destruct H as (r & E & H). eauto.
      - intros (r & H & E). apply (Permutation_in l (isort_perm _ _)), nodup_In, in_map_iff. eauto. }
    assert (Er : tab n run = tab n (run_after [])) by reflexivity. rewrite Er.
    destruct (run_labels_fold ks [] (map (fun _ => 0) rows) (map (fun _ => 0) rows)) as (tot & tps & E & [T1 T2] & [P1 P2]).
    - intros l Hl. apply Hk in Hl. destruct Hl as (r & Hr & <-). apply Hin. exact Hr.
    - rewrite app_nil_r. apply (Permutation_NoDup (isort_perm _ _)), NoDup_nodup.
    - split; [apply map_length|]. intros i r Hi. rewrite nth_error_map, Hi. reflexivity.
    - split; [apply map_length|]. intros i r Hi. rewrite nth_error_map, Hi. reflexivity.
    - rewrite E. rewrite app_nil_r in *.
      assert (Mk : forall r, In r rows -> mem (d_pl r) (rev ks) = true) by (intros r Hr; apply mem_In; rewrite <- in_rev; apply Hk; eauto).
      assert (X : forall (f : drow -> nat -> nat) out, List.length out = List.length rows ->
        (forall i r, nth_error rows i = Some r -> nth_error out i = Some (f r i)) ->
        forall (g : drow * nat * nat -> nat), (forall i r, nth_error rows i = Some r -> option_map g (nth_error (fst (running eps t run rows)) i) = Some (f r i)) ->
        out = map g (fst (running eps t run rows))).
      { intros f out Hl Hf g Hg. apply nth_ext_error. intros i. rewrite nth_error_map. destruct (nth_error rows i) as [r|] eqn:Ei.
        - rewrite (Hf i r Ei), (Hg i r Ei). reflexivity.
        - rewrite running_nth, Ei. cbn. apply nth_error_None. rewrite Hl. apply nth_error_None. exact Ei. }
      f_equal. f_equal; [f_equal|].
      + apply (X _ tot T1 (fun i r Hi => T2 i r Hi)). intros i r Hi. rewrite running_nth, Hi. cbn. rewrite (Mk r (nth_error_In _ _ Hi)). reflexivity.
      + apply (X _ tps P1 (fun i r Hi => P2 i r Hi)). intros i r Hi. rewrite running_nth, Hi. cbn. rewrite (Mk r (nth_error_In _ _ Hi)). reflexivity.
      + apply tab_ext. intros l _. rewrite running_final. unfold run_after. destruct (mem l (rev ks)) eqn:M; [reflexivity|].
        assert (Z0 : forall r, In r rows -> (d_pl r =? l)%Z = false).
        { intros r Hr. destruct (Z.eqb_spec (d_pl r) l) as [<-|]; [|reflexivity]. rewrite (Mk r Hr) in M. discriminate. }
        assert (F : forall f : drow -> bool, (forall r, In r rows -> f r = false) -> countb f rows = 0).
        { intros f Hf. unfold countb. rewrite (filter_ext_in f (fun _ => false) rows Hf). clear. induction rows as [|a l' IH]; [reflexivity|exact IH]. }
        rewrite (F _ Z0), (F (hit_of l)) by (intros r Hr; rewrite (Z0 r Hr); reflexivity). rewrite !Nat.add_0_r. destruct (run l). reflexivity.
  Qed.
End RunningArrays.

(* ------------------------------------------------------------------ *)
(** * Cells of the precision-recall panel *)

Definition grid (n : nat) (c : curve) : panel := tab n (fun l => map (c l) (seq 0 101)).
Definition fits (n : nat) (k : cell) : Prop := inside n (fst k) /\ snd k <= 100.
Definition ceqb (a b : cell) : bool := if cell_dec a b then true else false.
Definition lookup {V} (k : cell) (l : list (cell * V)) : option V := option_map snd (find (fun kv => ceqb (fst kv) k) l).

Lemma ceqb_true a b : ceqb a b = true <-> a = b.
Proof. unfold ceqb. destruct (cell_dec a b); split; congruence. Qed.
Lemma bins_nth {A} (f : nat -> A) b : b <= 100 -> nth_error (map f (seq 0 101)) b = Some (f b).
Proof. intros H. rewrite nth_error_map, seq_nth_error by lia. reflexivity. Qed.

Lemma cell_get_grid n c k : fits n k -> cell_get (grid n c) k = AOk (c (fst k) (snd k)).
Proof.
  intros [H1 H2]. unfold cell_get, grid. rewrite np_get_tab by exact H1. cbn [abind]. unfold np_get.
  rewrite map_length, seq_length, np_pos_inside by (unfold inside; lia). rewrite Nat2Z.id, bins_nth by exact H2. reflexivity.
Qed.
Lemma cell_set_grid n c k x : fits n k -> cell_set (grid n c) k x = AOk (grid n (fun l b => if ceqb (l, b) k then x else c l b)).
Proof.
  intros [H1 H2]. unfold cell_set, grid. rewrite np_get_tab by exact H1. cbn [abind]. unfold np_set at 1.
  rewrite map_length, seq_length, np_pos_inside by (unfold inside; lia). cbn [abind]. rewrite np_set_tab by exact H1. f_equal. apply tab_ext. intros l _.
  destruct (Z.eqb_spec l (fst k)) as [->|E].
  - apply nth_ext_error. intros j. rewrite set_nth_nth, map_length, seq_length, Nat2Z.id. replace (snd k <? 101) with true by (symmetry; apply Nat.ltb_lt; lia). rewrite andb_true_r.
    destruct (le_lt_dec j 100) as [Hj|Hj].
    + rewrite !bins_nth by exact Hj. destruct (Nat.eqb_spec j (snd k)) as [->|E].
      * replace (ceqb (fst k, snd k) k) with true; [reflexivity|]. symmetry. apply ceqb_true. symmetry. apply surjective_pairing.
      * destruct (ceqb (fst k, j) k) eqn:X; [|reflexivity]. apply ceqb_true in X. rewrite <- X in E. cbn in E. congruence.
    + destruct (Nat.eqb_spec j (snd k)); [lia|]. rewrite !(proj2 (nth_error_None _ _)) by (rewrite map_length, seq_length; lia). reflexivity.
  - apply map_ext. intros b. destruct (ceqb (l, b) k) eqn:X; [|reflexivity]. apply ceqb_true in X. rewrite <- X in E. cbn in E. congruence.
Qed.

Lemma lookup_None {V} k (l : list (cell * V)) : ~ In k (map fst l) -> lookup k l = None.
Proof.
  unfold lookup. induction l as [|[a v] l IH]; intros H; [reflexivity|]. cbn [find fst]. destruct (ceqb a k) eqn:E.
  - apply ceqb_true in E. exfalso. apply H. left. exact E.
  - apply IH. intros X. apply H. right. exact X.
Qed.
Lemma lookup_cons {V} k a (v : V) l : lookup k ((a, v) :: l) = if ceqb a k then Some v else lookup k l.
Proof. unfold lookup. cbn [find fst]. destruct (ceqb a k); reflexivity. Qed.
Lemma lookup_In {V} k (v : V) l : NoDup (map fst l) -> In (k, v) l -> lookup k l = Some v.
Proof.
  induction l as [|[a w] l IH]; intros N H; [destruct H|]. rewrite lookup_cons. inversion N as [|? ? N1 N2]; subst. destruct H as [E|H].
  - injection E as -> ->. replace (ceqb k k) with true by (symmetry; apply ceqb_true; reflexivity). reflexivity.
  - destruct (ceqb a k) eqn:E; [|apply IH; assumption]. apply ceqb_true in E. subst a. exfalso. apply N1. apply (in_map fst) in H. exact H.
Qed.
Lemma lookup_perm {V} k (l l' : list (cell * V)) : NoDup (map fst l) -> Permutation l l' -> lookup k l = lookup k l'.
Proof.
  intros N P. assert (N' : NoDup (map fst l')) by (apply (Permutation_NoDup (Permutation_map fst P)); exact N).
  destruct (in_dec cell_dec k (map fst l)) as [H|H].
  - apply in_map_iff in H. destruct H as ([a v] & E & H). cbn in E. subst a. rewrite (lookup_In k v l N H). symmetry. apply lookup_In; [exact N'|]. apply (Permutation_in _ P H).
  - rewrite !lookup_None; auto. intros X. apply H. apply (Permutation_in _ (Permutation_sym (Permutation_map fst P)) X).
Qed.
Lemma firsts_keys {V} (l : list (cell * V)) : forall seen, NoDup (map fst (firsts seen l)) /\ forall k, In k (map fst (firsts seen l)) -> ~ In k seen /\ In k (map fst l).
Proof.
  induction l as [|[a v] l IH]; intros seen; cbn [firsts fst map]; [split; [constructor|intros k []]|].
  destruct (in_dec cell_dec a seen) as [H|H].
  - destruct (IH seen) as [A B]. split; [exact A|]. intros k Hk. destruct (B k Hk). split; [assumption|right; assumption].
  - destruct (IH (a :: seen)) as [A B]. cbn [map fst]. split.
    + constructor; [|exact A]. intros X. apply (proj1 (B a X)). left. reflexivity.
    + intros k [<-|Hk]; [split; [exact H|left; reflexivity]|]. destruct (B k Hk) as [C D]. split; [intros X; apply C; right; exact X|right; exact D].
Qed.
Lemma firsts_lookup {V} k (l : list (cell * V)) : forall seen, ~ In k seen -> lookup k (firsts seen l) = lookup k l.
Proof.
  induction l as [|[a v] l IH]; intros seen H; cbn [firsts fst]; [reflexivity|]. rewrite lookup_cons. destruct (in_dec cell_dec a seen) as [X|X].
  - rewrite IH by exact H. destruct (ceqb a k) eqn:E; [|reflexivity]. apply ceqb_true in E. subst a. contradiction.
  - rewrite lookup_cons. destruct (ceqb a k) eqn:E; [reflexivity|]. apply IH. intros [Y|Y]; [|contradiction]. subst a.
    assert (Z : ceqb k k = true) by (apply ceqb_true; reflexivity). congruence.
Qed.
Lemma unique_first_keys {V} (l : list (cell * V)) : NoDup (map fst (unique_first l)) /\ forall k, In k (map fst (unique_first l)) -> In k (map fst l).
Proof.
  unfold unique_first. assert (P := isort_perm (fun a b => cell_leb (fst a) (fst b)) (firsts [] l)). destruct (firsts_keys l []) as [A B]. split.
  - apply (Permutation_NoDup (Permutation_map fst P)). exact A.
  - intros k Hk. apply B. apply (Permutation_in k (Permutation_sym (Permutation_map fst P)) Hk).
Qed.
Lemma unique_first_lookup {V} k (l : list (cell * V)) : lookup k (unique_first l) = lookup k l.
Proof.
  rewrite <- (firsts_lookup k l []) by (intros []). symmetry. apply lookup_perm; [apply firsts_keys|apply isort_perm].
Qed.

Lemma cells_set_fold n new : forall c, NoDup (map fst new) -> (forall kx, In kx new -> fits n (fst kx)) ->
  afold (fun p kx => cell_set p (fst kx) (snd kx)) new (grid n c)
  = AOk (grid n (fun l b => match lookup (l, b) new with Some x => x | None => c l b end)).
Proof.
  induction new as [|[k x] new IH]; intros c N H; cbn [afold]; [reflexivity|]. inversion N as [|? ? N1 N2]; subst.
  rewrite cell_set_grid by (apply (H (k, x)); left; reflexivity). cbn [abind]. rewrite IH; [|exact N2|intros kx Hk; apply H; right; exact Hk].
  f_equal. apply tab_ext. intros l _. apply map_ext. intros b. rewrite lookup_cons. cbn [fst snd].
  destruct (ceqb k (l, b)) eqn:E.
  - apply ceqb_true in E. subst k. rewrite lookup_None by exact N1. replace (ceqb (l, b) (l, b)) with true by (symmetry; apply ceqb_true; reflexivity). reflexivity.
  - destruct (ceqb (l, b) k) eqn:E2; [|reflexivity]. apply ceqb_true in E2. subst k. exfalso. assert (Z : ceqb (l, b) (l, b) = true) by (apply ceqb_true; reflexivity). congruence.
Qed.
Lemma cells_update_grid {V} (merge : Q * Z -> V -> Q * Z) kvs n c : NoDup (map fst kvs) -> (forall kv, In kv kvs -> fits n (fst kv)) ->
  cells_update merge kvs (grid n c) = AOk (grid n (fun l b => match lookup (l, b) kvs with Some v => merge (c l b) v | None => c l b end)).
Proof.
  intros N H. unfold cells_update.
  rewrite (amap_ok _ (fun kv => (fst kv, merge (c (fst (fst kv)) (snd (fst kv))) (snd kv)))).
  - cbn [abind]. rewrite cells_set_fold.
    + f_equal. apply tab_ext. intros l _. apply map_ext. intros b. clear N H. induction kvs as [|[k v] kvs IH]; [reflexivity|].
      cbn [map fst snd]. rewrite !lookup_cons. destruct (ceqb k (l, b)) eqn:E; [|exact IH]. apply ceqb_true in E. subst k. reflexivity.
    + rewrite map_map. cbn [fst]. exact N.
    + intros kx Hk. apply in_map_iff in Hk. destruct Hk as (kv & <- & Hk). apply H. exact Hk.
  - intros kv Hk. rewrite cell_get_grid by (apply H; exact Hk). reflexivity.
Qed.

(* ------------------------------------------------------------------ *)
(** * The panel after one table *)

Definition pt_key (bin : nat -> nat -> nat) (g : Z -> nat) (p : drow * nat * nat) : cell :=
  (d_pl (fst (fst p)), bin (snd p) (g (d_pl (fst (fst p))))).
Definition upd_gcurve (bin : nat -> nat -> nat) (g : Z -> nat) (pts : list (drow * nat * nat)) (c : curve) : curve :=
  fun l b =>
    let mine := filter (fun p => ceqb (pt_key bin g p) (l, b)) pts in
    (fold_left (fun m p => Qmax m (pt_precision p)) mine (fst (c l b)),
     match mine with
     | [] => snd (c l b)
     | p :: _ => Z.max (snd (c l b)) (d_score (fst (fst p)))
     end).

Lemma lookup_head {V} (f : drow * nat * nat -> V) key pts k :
  lookup k (map (fun p => (key p, f p)) pts) = match filter (fun p => ceqb (key p) k) pts with [] => None | p :: _ => Some (f p) end.
Proof.
  induction pts as [|p pts IH]; [reflexivity|]. cbn [map filter]. rewrite lookup_cons. destruct (ceqb (key p) k); [reflexivity|exact IH].
Qed.
Lemma fold_max_ge (mine : list Q) : forall m x, (fold_left Qmax mine m <= x)%Q <-> (m <= x)%Q /\ forall q, In q mine -> (q <= x)%Q.
Proof.
  induction mine as [|a mine IH]; intros m x; cbn [fold_left].
  - split; [intros H; split; [exact H|intros q []]|tauto].
  - rewrite IH, Q.max_lub_iff. split.
    + intros [[A B] C]. split; [exact A|]. intros q [<-|Hq]; auto.
    + intros [A B]. split; [split; [exact A|apply B; left; reflexivity]|intros q Hq; apply B; right; exact Hq].
Qed.
Lemma sorted_lookup_max (l : list (cell * Q)) k v : StronglySorted (fun a b => (snd b <= snd a)%Q) l -> lookup k l = Some v ->
  In (k, v) l /\ forall q, In (k, q) l -> (q <= v)%Q.
Proof.
  induction l as [|[a w] l IH]; intros S H; [discriminate|]. rewrite lookup_cons in H. inversion S as [|? ? S1 S2]; subst.
  destruct (ceqb a k) eqn:E.
  - injection H as ->. apply ceqb_true in E. subst a. split; [left; reflexivity|]. intros q [X|X]; [injection X as ->; apply Qle_refl|].
    rewrite Forall_forall in S2. apply (S2 (k, q) X).
  - destruct (IH S1 H) as [A B]. split; [right; exact A|]. intros q [X|X]; [|apply B; exact X]. injection X as -> ->.
    assert (Z : ceqb k k = true) by (apply ceqb_true; reflexivity). congruence.
Qed.
Lemma lookup_order k order l : descending order ->
  match lookup k (order l) with
  | Some v => In (k, v) l /\ (forall q, In (k, q) l -> (q <= v)%Q)
  | None => forall q, ~ In (k, q) l
  end.
Proof.
  intros Ho. destruct (Ho l) as [P S]. destruct (lookup k (order l)) as [v|] eqn:E.
  - destruct (sorted_lookup_max _ k v S E) as [A B]. split; [apply (Permutation_in _ P A)|]. intros q Hq. apply B. apply (Permutation_in _ (Permutation_sym P) Hq).
  - intros q Hq. apply (Permutation_in _ (Permutation_sym P)) in Hq. clear -E Hq. induction (order l) as [|[a w] u IH]; [exact Hq|].
    rewrite lookup_cons in E. destruct (ceqb a k) eqn:X; [discriminate|]. destruct Hq as [Y|Y]; [|exact (IH E Y)]. injection Y as -> ->.
    assert (Z : ceqb k k = true) by (apply ceqb_true; reflexivity). congruence.
Qed.
Definition same_curve (c c' : curve) : Prop := forall l b, (fst (c l b) == fst (c' l b))%Q /\ snd (c l b) = snd (c' l b).

Lemma combine_maps {A B C} (f : A -> B) (g : A -> C) l : combine (map f l) (map g l) = map (fun x => (f x, g x)) l.
Proof. induction l as [|a l IH]; [reflexivity|]. cbn. rewrite IH. reflexivity. Qed.
Lemma map2_maps {A B C D} (h : B -> C -> D) (f : A -> B) (g : A -> C) l : map2 h (map f l) (map g l) = map (fun x => h (f x) (g x)) l.
Proof. induction l as [|a l IH]; [reflexivity|]. cbn. rewrite IH. reflexivity. Qed.

Lemma panel_update_ok eps bin order t n g rows run c : descending order ->
  let pts := fst (running eps t run rows) in
  (forall p, In p pts -> fits n (pt_key bin g p)) ->
  exists c', panel_update bin order rows (map (fun r => g (d_pl r)) rows) (map (fun p => snd (fst p)) pts) (map snd pts) (grid n c) = AOk (grid n c')
    /\ same_curve c' (upd_gcurve bin g pts c).
Proof.
  intros Ho pts Hfit.
  assert (Er : rows = map (fun p => fst (fst p)) pts) by (symmetry; apply running_rows).
  assert (Hpos : forall p, In p pts -> snd (fst p) <> 0).
  { intros p Hp. apply In_nth_error in Hp. destruct Hp as [i Hi]. unfold pts in Hi. rewrite running_nth in Hi. destruct (nth_error rows i); [|discriminate]. injection Hi as <-. cbn. discriminate. }
  unfold panel_update.
  assert (E1 : combine (map d_pl rows) (map2 bin (map snd pts) (map (fun r => g (d_pl r)) rows)) = map (pt_key bin g) pts).
  { rewrite Er, !map_map. rewrite map2_maps, combine_maps. reflexivity. }
  assert (E2 : map d_score rows = map (fun p => d_score (fst (fst p))) pts) by (rewrite Er, map_map; reflexivity).
  assert (E3 : map2 np_precision (map (fun p => snd (fst p)) pts) (map snd pts) = map pt_precision pts).
  { rewrite map2_maps. apply map_ext_in. intros p Hp. unfold np_precision, pt_precision. specialize (Hpos p Hp). destruct (snd (fst p)); [congruence|reflexivity]. }
  rewrite E1, E2, E3, !combine_maps. cbn beta. clear E1 E2 E3.
  set (SL := map (fun p => (pt_key bin g p, d_score (fst (fst p)))) pts). set (QL := map (fun p => (pt_key bin g p, pt_precision p)) pts).
  match goal with |- context [order ?X] => change X with QL end. match goal with |- context [@unique_first Z ?X] => change X with SL end.
  assert (KS : forall k, In k (map fst SL) -> fits n k).
  { intros k Hk. unfold SL in Hk. rewrite map_map in Hk. apply in_map_iff in Hk. destruct Hk as (p & <- & Hp). apply Hfit. exact Hp. }
  assert (KQ : forall k, In k (map fst (order QL)) -> fits n k).
  { intros k Hk. destruct (Ho QL) as [P _]. apply (Permutation_in k (Permutation_map fst P)) in Hk.
    unfold QL in Hk. rewrite map_map in Hk. apply in_map_iff in Hk. destruct Hk as (p & <- & Hp). apply Hfit. exact Hp. }
  rewrite cells_update_grid; [|apply unique_first_keys|intros kv Hkv; apply KS, unique_first_keys, in_map; exact Hkv].
  cbn [abind]. rewrite cells_update_grid; [|apply unique_first_keys|intros kv Hkv; apply KQ, unique_first_keys, in_map; exact Hkv].
  eexists. split; [reflexivity|]. intros l b. cbn beta. rewrite !unique_first_lookup.
  unfold upd_gcurve. cbn [fst snd]. set (mine := filter (fun p => ceqb (pt_key bin g p) (l, b)) pts).
  assert (Hm : forall q, In ((l, b), q) QL <-> In q (map pt_precision mine)).
  { intros q. unfold QL. rewrite !in_map_iff. split.
    - intros (p & E & Hp). assert (Ek := f_equal fst E). assert (Eq := f_equal snd E). cbn [fst snd] in Ek, Eq. exists p. split; [exact Eq|]. apply filter_In. split; [exact Hp|]. apply ceqb_true. exact Ek.
    - intros (p & <- & Hp). apply filter_In in Hp. destruct Hp as [Hp E]. apply ceqb_true in E. exists p. rewrite E. auto. }
  assert (X := lookup_order (l, b) order QL Ho). split.
  - assert (F : fold_left (fun m p => Qmax m (pt_precision p)) mine (fst (c l b)) = fold_left Qmax (map pt_precision mine) (fst (c l b))).
    { generalize (fst (c l b)). clear. induction mine as [|p mine IH]; intros m; [reflexivity|]. cbn. apply IH. }
    rewrite F. clear F. apply same_upper_bounds. intros x. rewrite fold_max_ge.
    unfold SL. rewrite !lookup_head. fold mine.
    destruct (lookup (l, b) (order QL)) as [v|].
    + destruct X as [X1 X2]. cbn [fst]. assert (Y : fst (match match mine with [] => None | p :: _ => Some (d_score (fst (fst p))) end with Some v0 => (fst (c l b), Z.max (snd (c l b)) v0) | None => c l b end) = fst (c l b)) by (destruct mine; reflexivity).
      rewrite Y, Q.max_lub_iff. split; intros [A B]; (split; [exact A|]).
      * intros q Hq. apply Hm in Hq. specialize (X2 q Hq). eapply Qle_trans; eassumption.
      * apply B, Hm. exact X1.
    + assert (Y : fst (match match mine with [] => None | p :: _ => Some (d_score (fst (fst p))) end with Some v0 => (fst (c l b), Z.max (snd (c l b)) v0) | None => c l b end) = fst (c l b)) by (destruct mine; reflexivity).
      rewrite Y. split; [intros A; split; [exact A|intros q Hq; exfalso; apply (X q), Hm; exact Hq]|tauto].
  - unfold SL. rewrite ?lookup_head. fold mine. destruct mine as [|p mine']; destruct (lookup (l, b) (order QL)); reflexivity.
Qed.

(* ------------------------------------------------------------------ *)
(** * The whole computation *)

Lemma Forall2_weaken {A B} (P P' : A -> B -> Prop) a b : (forall x y, P x y -> P' x y) -> Forall2 P a b -> Forall2 P' a b.
Proof. intros H. induction 1; constructor; auto. Qed.

Section Whole.
  Variables (eps : Z) (bin : nat -> nat -> nat) (order : list (cell * Q) -> list (cell * Q)).
  Hypothesis Horder : descending order.
  Variables (ious scores : list Z) (n : nat) (g : Z -> nat).

  Definition eval_gstep (t : Z) (st : curve * runs) (rows : list drow) : curve * runs :=
    let '(pts, run) := running eps t (snd st) rows in (upd_gcurve bin g pts (fst st), run).

  Definition counts_of (tp fp : Z -> Z -> Z -> nat) : acounts :=
    map (fun t => map (fun s => (tab n (tp t s), tab n (fp t s))) scores) ious.

  Lemma panels_ok (R : Z -> runs) (m : Z -> curve) rows (X : Z -> list (list nat * list nat)) ts cs :
    (forall t p, In t ts -> In p (fst (running eps t (R t) rows)) -> fits n (pt_key bin g p)) ->
    Forall2 (fun t c => same_curve c (m t)) ts cs ->
    exists cs', amap (fun xp : (list (list nat * list nat) * (list nat * list nat * list (nat * nat))) * panel =>
                  panel_update bin order rows (map (fun r => g (d_pl r)) rows) (fst (fst (snd (fst xp)))) (snd (fst (snd (fst xp)))) (snd xp))
        (combine (map (fun t => (X t, (map (fun p => snd (fst p)) (fst (running eps t (R t) rows)), map snd (fst (running eps t (R t) rows)), tab n (snd (running eps t (R t) rows))))) ts)
                 (map (grid n) cs)) = AOk (map (grid n) cs')
      /\ Forall2 (fun t c => same_curve c (upd_gcurve bin g (fst (running eps t (R t) rows)) (m t))) ts cs'.
  Proof.
    intros Hf H2. induction H2 as [|t c ts cs Hc H2 IH]; [exists []; split; [reflexivity|constructor]|].
    destruct IH as (cs' & E & F); [intros t' p Ht Hp; apply (Hf t' p); [right; exact Ht|exact Hp]|].
    destruct (panel_update_ok eps bin order t n g rows (R t) c Horder) as (c' & E1 & S1); [intros p Hp; apply (Hf t p); [left; reflexivity|exact Hp]|].
    exists (c' :: cs'). cbn [map combine amap fst snd]. rewrite E1. cbn [abind]. rewrite E. cbn [abind]. split; [reflexivity|]. constructor; [|exact F].
    intros l b. destruct (S1 l b) as [A B]. destruct (Hc l b) as [C D]. split.
    - rewrite A. unfold upd_gcurve. cbn [fst]. generalize (filter (fun p => ceqb (pt_key bin g p) (l, b)) (fst (running eps t (R t) rows))). intros mine.
      revert C. generalize (fst (c l b)) (fst (m t l b)). induction mine as [|p mine IHm]; intros x y C; cbn [fold_left]; [exact C|]. apply IHm. rewrite C. reflexivity.
    - rewrite B. unfold upd_gcurve. cbn [snd]. rewrite D. reflexivity.
  Qed.

  Lemma compute_ok (R : Z -> runs) (m : Z -> curve) rows cs :
    (forall r, In r rows -> inside n (d_pl r)) ->
    (forall t p, In t ious -> In p (fst (running eps t (R t) rows)) -> fits n (pt_key bin g p)) ->
    Forall2 (fun t c => same_curve c (m t)) ious cs ->
    exists cs', np_compute_counts eps bin order ious scores n (tab n g) rows (MkAcc (map (fun t => tab n (R t)) ious) (map (grid n) cs))
      = AOk (counts_of (fun t s l => dc_tp (det_counts_at eps t s rows l)) (fun t s l => dc_fp (det_counts_at eps t s rows l)),
             MkAcc (map (fun t => tab n (snd (running eps t (R t) rows))) ious) (map (grid n) cs'))
      /\ Forall2 (fun t c => same_curve c (upd_gcurve bin g (fst (running eps t (R t) rows)) (m t))) ious cs'.
  Proof.
    intros Hr Hf H2. unfold np_compute_counts. cbn [a_runs a_panels].
    rewrite (amap_ok _ g) by (intros l Hl; apply in_map_iff in Hl; destruct Hl as (r & <- & Hl); apply np_get_tab, Hr; exact Hl).
    cbn [abind]. rewrite map_map.
    set (X := fun t => map (fun s => (tab n (fun l => dc_tp (det_counts_at eps t s rows l)), tab n (fun l => dc_fp (det_counts_at eps t s rows l)))) scores).
    set (F := fun t => (X t, (map (fun p => snd (fst p)) (fst (running eps t (R t) rows)), map snd (fst (running eps t (R t) rows)), tab n (snd (running eps t (R t) rows))))).
    assert (E : amap (fun tr => abind (amap (score_rows eps n (fst tr) rows) scores) (fun cs0 => abind (run_labels eps (fst tr) rows (snd tr)) (fun r => AOk (cs0, r))))
                 (combine ious (map (fun t => tab n (R t)) ious)) = AOk (map F ious)).
    { assert (Ec : combine ious (map (fun t => tab n (R t)) ious) = map (fun t => (t, tab n (R t))) ious).
      { clear. induction ious as [|a l IH]; [reflexivity|]. cbn. rewrite IH. reflexivity. }
      rewrite Ec. rewrite (amap_ok _ (fun tr => F (fst tr))).
      - rewrite map_map. reflexivity.
      - intros tr Htr. apply in_map_iff in Htr. destruct Htr as (t & <- & _). cbn [fst snd].
        rewrite (amap_ok _ (fun s => (tab n (fun l => dc_tp (det_counts_at eps t s rows l)), tab n (fun l => dc_fp (det_counts_at eps t s rows l)))))
          by (intros s _; apply score_rows_ok; exact Hr).
        cbn [abind]. rewrite run_labels_ok by exact Hr. reflexivity. }
    rewrite E. cbn [abind]. destruct (panels_ok R m rows X ious cs Hf H2) as (cs' & E' & F'). fold F in E'. rewrite E'. cbn [abind].
    exists cs'. split; [|exact F']. unfold counts_of. rewrite !map_map. reflexivity.
  Qed.

  Lemma counts_add_of tp fp tp' fp' : counts_add (counts_of tp fp) (counts_of tp' fp') = counts_of (fun t s l => tp t s l + tp' t s l) (fun t s l => fp t s l + fp' t s l).
  Proof.
    unfold counts_add, counts_of. rewrite map2_maps. apply map_ext. intros t. rewrite map2_maps. apply map_ext. intros s. cbn [fst snd]. unfold tab. rewrite !map2_maps. reflexivity.
  Qed.
  Lemma same_curve_trans a b c : same_curve a b -> same_curve b c -> same_curve a c.
  Proof. intros H K l x. destruct (H l x), (K l x). split; [etransitivity; eassumption|congruence]. Qed.

  Variable datums : drow -> bool.

  Lemma tables_ok tables : forall (st : Z -> curve * runs) (D : Z -> Z -> Z -> dcounts) cs,
    (forall r, In r (concat tables) -> datums r = true -> inside n (d_pl r)) ->
    (forall t p, In t ious -> In p (fst (running eps t (snd (st t)) (filter datums (concat tables)))) -> fits n (pt_key bin g p)) ->
    Forall2 (fun t c => same_curve c (fst (st t))) ious cs ->
    exists cs' R', afold (fun s tb => match filter datums tb with
                      | [] => AOk s
                      | rows => abind (np_compute_counts eps bin order ious scores n (tab n g) rows (snd s)) (fun r => AOk (counts_add (fst s) (fst r), snd r))
                      end) tables
        (counts_of (fun t s l => dc_tp (D t s l)) (fun t s l => dc_fp (D t s l)), MkAcc (map (fun t => tab n (snd (st t))) ious) (map (grid n) cs))
      = AOk (counts_of (fun t s l => dc_tp (fold_left (fun acc tb => dc_add acc (det_counts_at eps t s (filter datums tb) l)) tables (D t s l)))
                       (fun t s l => dc_fp (fold_left (fun acc tb => dc_add acc (det_counts_at eps t s (filter datums tb) l)) tables (D t s l))),
             MkAcc R' (map (grid n) cs'))
      /\ Forall2 (fun t c => same_curve c (fst (fold_left (fun st tb => eval_gstep t st (filter datums tb)) tables (st t)))) ious cs'.
  Proof.
    induction tables as [|tb tables IH]; intros st D cs Hr Hf H2; cbn [afold fold_left].
    - exists cs. eexists. split; [reflexivity|exact H2].
    - cbn [concat] in Hr, Hf.
      assert (Hf' : forall t p, In t ious -> (In p (fst (running eps t (snd (st t)) (filter datums tb))) \/
         In p (fst (running eps t (snd (running eps t (snd (st t)) (filter datums tb))) (filter datums (concat tables))))) -> fits n (pt_key bin g p)).
      { intros t p Ht Hp. apply (Hf t p Ht). rewrite filter_app, running_app. cbn [fst]. apply in_or_app. exact Hp. }
      assert (E0 : forall t, snd (eval_gstep t (st t) (filter datums tb)) = snd (running eps t (snd (st t)) (filter datums tb))).
      { intros t. unfold eval_gstep. destruct (running eps t (snd (st t)) (filter datums tb)); reflexivity. }
      assert (E1 : forall t, fst (eval_gstep t (st t) (filter datums tb)) = upd_gcurve bin g (fst (running eps t (snd (st t)) (filter datums tb))) (fst (st t))).
      { intros t. unfold eval_gstep. destruct (running eps t (snd (st t)) (filter datums tb)); reflexivity. }
      assert (IH' := IH (fun t => eval_gstep t (st t) (filter datums tb)) (fun t s l => dc_add (D t s l) (det_counts_at eps t s (filter datums tb) l))).
      assert (Hr' : forall r, In r (concat tables) -> datums r = true -> inside n (d_pl r)) by (intros r Hx; apply Hr, in_or_app; right; exact Hx).
      assert (Hf2 : forall t p, In t ious -> In p (fst (running eps t (snd (eval_gstep t (st t) (filter datums tb))) (filter datums (concat tables)))) -> fits n (pt_key bin g p)).
      { intros t p Ht. rewrite E0. intros Hp. apply (Hf' t p Ht). right. exact Hp. }
      destruct (filter datums tb) as [|r0 rows0] eqn:Ef.
      + destruct (IH' cs Hr' Hf2) as (cs' & R' & E & F).
        { eapply Forall2_weaken; [|exact H2]. cbn beta. intros t c Hc. rewrite E1. intros l b. cbn. apply Hc. }
        exists cs', R'. split; [|exact F]. cbn [abind]. rewrite <- E. apply f_equal. apply f_equal2.
        * unfold counts_of. apply map_ext. intros t. apply map_ext. intros s. f_equal; apply tab_ext; intros l _; cbn; lia.
        * reflexivity.
      + rewrite <- Ef in *. set (rows := filter datums tb) in *.
        destruct (compute_ok (fun t => snd (st t)) (fun t => fst (st t)) rows cs) as (cs1 & C1 & F1).
        { intros r Hx. apply filter_In in Hx. apply Hr; [apply in_or_app; left|]; apply Hx. }
        { intros t p Ht Hp. apply (Hf' t p Ht). left. exact Hp. }
        { exact H2. }
        cbn [snd fst]. rewrite C1. cbn [abind fst snd]. rewrite counts_add_of.
        destruct (IH' cs1 Hr' Hf2) as (cs' & R' & E & F).
        { eapply Forall2_weaken; [|exact F1]. cbn beta. intros t c Hc. rewrite E1. exact Hc. }
        exists cs', R'. split; [|exact F]. rewrite <- E. apply f_equal. apply f_equal2; [reflexivity|]. f_equal. apply map_ext. intros t. rewrite E0. reflexivity.
  Qed.
End Whole.

(* ------------------------------------------------------------------ *)
(** * Ground truths per label *)

Lemma gts_labels n (cnt : Z -> nat) ks : forall (f : Z -> nat), (forall l, In l ks -> inside n l) -> NoDup ks ->
  afold (fun a l => abind (np_get a l) (fun c => np_set a l (c + cnt l))) ks (tab n f)
  = AOk (tab n (fun l => f l + if mem l ks then cnt l else 0)).
Proof.
  induction ks as [|k ks IH]; intros f Hk N; cbn [afold].
  - f_equal. apply tab_ext. intros l _. cbn. lia.
  - inversion N as [|? ? N1 N2]; subst. rewrite np_get_tab by (apply Hk; left; reflexivity). cbn [abind]. rewrite np_set_tab by (apply Hk; left; reflexivity). cbn [abind].
    rewrite IH; [|intros l Hl; apply Hk; right; exact Hl|exact N2]. f_equal. apply tab_ext. intros l _. unfold mem. cbn [existsb]. fold (mem l ks).
    destruct (Z.eqb_spec l k) as [->|E]; [|reflexivity]. destruct (mem k ks) eqn:M; [apply mem_In in M; contradiction|]. cbn. lia.
Qed.
Lemma np_gts_ok n datums tables : (forall r, In r (concat tables) -> datums r = true -> (0 <= d_gt r)%Z -> inside n (d_gl r)) ->
  np_gts n datums tables = AOk (tab n (det_gt_count datums tables)).
Proof.
  unfold np_gts. rewrite tab_repeat. intros H.
  assert (X : forall f, afold (fun a tb =>
      let keys := dkeys zz_dec (fun r => (d_gt r, d_gl r)) (fun r => (0 <=? d_gt r)%Z) (filter datums tb) in
      afold (fun a l => abind (np_get a l) (fun c => np_set a l (c + countb (fun k => (snd k =? l)%Z) keys)))
        (isort Z.leb (nodup Z.eq_dec (map snd keys))) a) tables (tab n f)
    = AOk (tab n (fun l => f l + det_gt_count datums tables l))).
  { induction tables as [|tb tables IH]; intros f; cbn [afold].
    - f_equal. apply tab_ext. intros l _. unfold det_gt_count. cbn. lia.
    - cbv zeta. set (keys := dkeys _ _ _ (filter datums tb)).
      rewrite (gts_labels n (fun l => countb (fun k => (snd k =? l)%Z) keys)).
      + cbn [abind]. cbv zeta in IH. rewrite IH by (intros r Hr; apply H; cbn [concat]; apply in_or_app; right; exact Hr). f_equal. apply tab_ext. intros l _.
        unfold det_gt_count. cbn [map list_sum_nat fold_right]. fold keys. destruct (mem l _) eqn:M; [unfold list_sum_nat; cbn; lia|].
        assert (Z0 : countb (fun k => (snd k =? l)%Z) keys = 0).
        { destruct (countb (fun k => (snd k =? l)%Z) keys) eqn:C; [reflexivity|]. exfalso. unfold countb in C.
          destruct (filter (fun k => (snd k =? l)%Z) keys) as [|k u] eqn:E; [discriminate|].
          assert (Hk : In k (filter (fun k => (snd k =? l)%Z) keys)) by (rewrite E; left; reflexivity). apply filter_In in Hk. destruct Hk as [Hk El]. apply Z.eqb_eq in El.
          assert (Y : mem l (isort Z.leb (nodup Z.eq_dec (map snd keys))) = true).
          { apply mem_In. apply (Permutation_in l (isort_perm _ _)), nodup_In, in_map_iff. eauto. } congruence. }
        rewrite Z0. unfold list_sum_nat. cbn. lia.
      + intros l Hl. apply (Permutation_in l (Permutation_sym (isort_perm _ _))) in Hl. apply nodup_In, in_map_iff in Hl. destruct Hl as (k & <- & Hk).
        unfold keys in Hk. apply dkeys_In in Hk. destruct Hk as (r & Hr & P & <-). cbn [snd]. apply filter_In in Hr. apply H; [cbn [concat]; apply in_or_app; left; apply Hr|apply Hr|lia].
      + apply (Permutation_NoDup (isort_perm _ _)), NoDup_nodup. }
  exact (X (fun _ => 0)).
Qed.
