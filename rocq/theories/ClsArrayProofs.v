(* The arrays of ClsArrayModel.v hold what the functions of ClsModel.v, RocModel.v and
   ClsReportModel.v compute, as long as every label number is inside the arrays. *)
From Verif Require Import Prelude CacheModel Counting DetArrayModel DetArrayProofs ClsModel RocModel FlowModel ClsFilterModel ClsReportModel ClsArrayModel.
From Coq Require Import String QArith Lia.
Local Notation length := List.length (only parsing).
Local Notation concat := List.concat (only parsing).
Local Open Scope nat_scope.
Local Open Scope list_scope.

Lemma column_ok n ls : (forall l, In l ls -> inside n l) -> column n ls = AOk (tab n (fun l => countb (fun x => (x =? l)%Z) ls)).
Proof.
  intros H. unfold column. rewrite bincount_inside.
  - f_equal. apply tab_ext. intros l _. rewrite countb_map. reflexivity.
  - intros x Hx. apply in_map_iff in Hx. destruct Hx as [l [<- Hl]]. apply H. exact Hl.
Qed.

Lemma dkeys_In_row {A K} (dec : forall x y : K, {x = y} + {x <> y}) (key : A -> K) P l k :
  In k (dkeys dec key P l) -> exists r, In r l /\ P r = true /\ key r = k.
Proof.
  unfold dkeys. intros H. apply nodup_In in H. apply in_map_iff in H. destruct H as [r [Hk Hr]]. apply filter_In in Hr.
  exists r. tauto.
Qed.

Definition quad_of (n : nat) (f : Z -> counts) : quad :=
  MkQuad (tab n (fun l => n_tp (f l))) (tab n (fun l => n_fp (f l))) (tab n (fun l => n_fn (f l))) (tab n (fun l => n_tn (f l))).

Definition rows_inside (n : nat) (rows : list crow) : Prop := forall r, In r rows -> inside n (r_gt r) /\ inside n (r_pd r).

Lemma map2_tab {A B C} (h : A -> B -> C) n f g : map2 h (tab n f) (tab n g) = tab n (fun l => h (f l) (g l)).
Proof. unfold tab. apply map2_maps. Qed.

Section CountsOk.
  Variable tol : Z.
  Variable hm : bool.
  Variable n : nat.

  Lemma quad_at_ok rows thr : rows_inside n rows -> quad_at tol hm n rows thr = AOk (quad_of n (counts_at tol hm thr rows)).
  Proof.
    intros H. unfold quad_at.
    rewrite column_ok by (intros l Hl; apply in_map_iff in Hl; destruct Hl as [r [<- Hr]]; apply filter_In in Hr; apply H; tauto).
    rewrite column_ok by (intros l Hl; apply in_map_iff in Hl; destruct Hl as [r [<- Hr]]; apply filter_In in Hr; apply H; tauto).
    rewrite column_ok by (intros l Hl; apply in_map_iff in Hl; destruct Hl as [k [<- Hk]]; apply dkeys_In_row in Hk;
      destruct Hk as [r [Hr [_ <-]]]; apply (H r Hr)).
    rewrite column_ok by (intros l Hl; apply in_map_iff in Hl; destruct Hl as [k [<- Hk]]; apply dkeys_In_row in Hk;
      destruct Hk as [r [Hr [_ <-]]]; apply (H r Hr)).
    cbn [abind]. unfold quad_of. f_equal. f_equal; apply tab_ext; intros l _; rewrite countb_map; try reflexivity; cbn [n_tp n_fp n_fn n_tn counts_at];
      rewrite countb_filter; reflexivity.
  Qed.

  Lemma quad_add_of f g : quad_add (quad_of n f) (quad_of n g) = quad_of n (fun l => counts_add (f l) (g l)).
  Proof. unfold quad_add, quad_of. cbn [q_tp q_fp q_fn q_tn]. rewrite !map2_tab. reflexivity. Qed.

  Lemma quad_zero_of : quad_zero n = quad_of n (fun _ => counts_zero).
  Proof. unfold quad_zero, quad_of. rewrite tab_repeat. reflexivity. Qed.

  Lemma np_counts_ok thrs rows : rows_inside n rows -> np_counts tol hm n thrs rows = AOk (map (fun thr => quad_of n (counts_at tol hm thr rows)) thrs).
  Proof.
    intros H. destruct rows as [|r rows].
    - cbn [np_counts]. f_equal. apply map_ext. intros thr. rewrite quad_zero_of. reflexivity.
    - unfold np_counts. apply amap_ok. intros thr _. apply quad_at_ok. exact H.
  Qed.

  Definition acc_counts (datums : crow -> bool) (thr : Z) (tables : list (list crow)) (f : Z -> counts) : Z -> counts :=
    fun l => fold_left (fun c t => counts_add c (counts_at tol hm thr (filter datums t) l)) tables (f l).

  Lemma counts_fold_ok thrs datums tables : forall F : Z -> Z -> counts, rows_inside n (concat tables) ->
    afold (fun acc t => abind (np_counts tol hm n thrs (filter datums t)) (fun b => AOk (map2 quad_add acc b))) tables (map (fun thr => quad_of n (F thr)) thrs)
    = AOk (map (fun thr => quad_of n (acc_counts datums thr tables (F thr))) thrs).
  Proof.
    induction tables as [|t tables IH]; intros F H; [reflexivity|].
    cbn [afold]. rewrite np_counts_ok.
    2:{ intros r Hr. apply filter_In in Hr. apply H. cbn [List.concat]. apply in_or_app. tauto. }
    cbn [abind]. rewrite map2_maps.
    rewrite (map_ext _ _ (fun thr => quad_add_of (F thr) (counts_at tol hm thr (filter datums t)))).
    rewrite (IH (fun thr l => counts_add (F thr l) (counts_at tol hm thr (filter datums t) l))); [reflexivity|].
    intros r Hr. apply H. cbn [List.concat]. apply in_or_app. tauto.
  Qed.

  Lemma evaluate_fold thrs datums tables : forall F : Z -> Z -> counts,
    fold_left (fun acc t => add_arrays acc (compute_counts tol hm thrs n (filter datums t))) tables (map (fun thr => tab n (F thr)) thrs)
    = map (fun thr => tab n (acc_counts datums thr tables (F thr))) thrs.
  Proof.
    induction tables as [|t tables IH]; intros F; [reflexivity|].
    cbn [fold_left]. unfold add_arrays, compute_counts.
    change (fun thr : Z => map (fun l : nat => counts_at tol hm thr (filter datums t) (Z.of_nat l)) (seq 0 n))
      with (fun thr : Z => tab n (counts_at tol hm thr (filter datums t))).
    rewrite map2_maps. rewrite (map_ext _ _ (fun thr => map2_tab counts_add n (F thr) (counts_at tol hm thr (filter datums t)))).
    apply (IH (fun thr l => counts_add (F thr l) (counts_at tol hm thr (filter datums t) l))).
  Qed.
  Lemma evaluate_tab thrs datums tables :
    evaluate_counts tol hm thrs n datums tables = map (fun thr => tab n (acc_counts datums thr tables (fun _ => counts_zero))) thrs.
  Proof.
    unfold evaluate_counts. rewrite <- (evaluate_fold thrs datums tables (fun _ _ => counts_zero)). reflexivity.
  Qed.

  Lemma quad_get_ok f k : inside n k -> quad_get (quad_of n f) k = AOk (f k).
  Proof.
    intros H. unfold quad_get, quad_of. cbn [q_tp q_fp q_fn q_tn]. rewrite !np_get_tab by exact H. cbn [abind].
    destruct (f k); reflexivity.
  Qed.
End CountsOk.

Definition keys_inside (e : ceval) : Prop := forall kl, In kl (ce_labels e) -> inside (length (ce_labels e)) (fst kl).

Lemma combine_maps_r {A B} (f : A -> B) l : combine l (map f l) = map (fun x => (x, f x)) l.
Proof. induction l as [|a l IH]; cbn; [|rewrite IH]; reflexivity. Qed.

Lemma concat_map_map {A B C} (f : B -> C) (g : A -> list B) l : map f (concat (map g l)) = concat (map (fun x => map f (g x)) l).
Proof. induction l as [|a l IH]; cbn; [reflexivity|]. rewrite map_app, IH. reflexivity. Qed.

Lemma tab_nth_inside {A} n (f : Z -> A) k : inside n k -> nth_error (tab n f) (Z.to_nat k) = Some (f k).
Proof.
  intros [H0 H1]. rewrite tab_nth. destruct (Nat.ltb_spec (Z.to_nat k) n); [|lia]. rewrite Z2Nat.id by exact H0. reflexivity.
Qed.

Theorem np_metrics_ok tol hm thrs datums e : thrs <> [] -> keys_inside e -> rows_inside (length (ce_labels e)) (concat (ce_tables e)) ->
  exists m, np_metrics tol hm thrs datums e = AOk m /\ report_metrics e tol hm thrs datums = Some m.
Proof.
  intros Ht Hk Hr. set (n := length (ce_labels e)).
  set (F := fun thr => acc_counts tol hm datums thr (ce_tables e) (fun _ => counts_zero)).
  assert (HC : np_cls_counts tol hm thrs datums e = AOk (map (fun thr => quad_of n (F thr)) thrs)).
  { unfold np_cls_counts. fold n. rewrite (map_ext _ (fun thr => quad_of n ((fun _ _ => counts_zero) thr))) by (intros; apply quad_zero_of).
    apply (counts_fold_ok tol hm n thrs datums (ce_tables e) (fun _ _ => counts_zero)). exact Hr. }
  assert (HR : cls_counts tol hm thrs datums e = map (fun thr => tab n (F thr)) thrs) by apply evaluate_tab.
  assert (HU : np_unpack (ce_labels e) (combine thrs (map (fun thr => quad_of n (F thr)) thrs))
    = AOk (concat (map (fun kl : Z * string => map (fun thr => (snd kl, thr, F thr (fst kl))) thrs) (ce_labels e)))).
  { unfold np_unpack. rewrite combine_maps_r.
    rewrite (amap_ok _ (fun kl : Z * string => map (fun thr => (snd kl, thr, F thr (fst kl))) thrs)); [reflexivity|].
    intros kl Hkl. rewrite (amap_ok _ (fun tr : Z * quad => (snd kl, fst tr, F (fst tr) (fst kl)))).
    - rewrite map_map. reflexivity.
    - intros tr Htr. apply in_map_iff in Htr. destruct Htr as [thr [<- _]]. cbn [fst snd].
      rewrite quad_get_ok by (apply Hk; exact Hkl). reflexivity. }
  unfold np_metrics, report_metrics. destruct thrs as [|t0 thrs']; [congruence|]. set (thrs := t0 :: thrs') in *.
  rewrite HC. cbn [abind]. rewrite HU. cbn [abind]. eexists. split; [reflexivity|]. f_equal. rewrite HR, !combine_maps_r.
  assert (P : forall V (f : counts -> V), per_label e f (map (fun thr => (thr, tab n (F thr))) thrs)
     = map (fun x => (fst x, Some (f (snd x)))) (concat (map (fun kl : Z * string => map (fun thr => (snd kl, thr, F thr (fst kl))) thrs) (ce_labels e)))).
  { intros V f. unfold per_label. rewrite concat_map_map. f_equal. apply map_ext_in. intros kl Hkl. rewrite !map_map. apply map_ext.
    intros thr. cbn [fst snd]. rewrite tab_nth_inside by (apply Hk; exact Hkl). reflexivity. }
  rewrite !P, !map_map. f_equal.
  apply map_ext. intros thr. cbn [fst snd]. f_equal. f_equal. unfold tab, quad_of. cbn [q_tp]. rewrite map_map. reflexivity.
Qed.

(* ---------------------------------------------------------------- confusion matrix *)
Definition square (n : nat) (f : Z -> Z -> nat) : matrix := tab n (fun i => tab n (f i)).

Lemma matrix_get_ok n f i j : inside n i -> inside n j -> matrix_get (square n f) i j = AOk (f i j).
Proof. intros Hi Hj. unfold matrix_get, square. rewrite np_get_tab by exact Hi. cbn [abind]. apply np_get_tab. exact Hj. Qed.

Lemma matrix_set_ok n f i j x : inside n i -> inside n j ->
  matrix_set (square n f) i j x = AOk (square n (fun i' j' => if (i' =? i)%Z && (j' =? j)%Z then x else f i' j')).
Proof.
  intros Hi Hj. unfold matrix_set, square. rewrite np_get_tab by exact Hi. cbn [abind]. rewrite np_set_tab by exact Hj. cbn [abind].
  rewrite np_set_tab by exact Hi. f_equal. apply tab_ext. intros l _. destruct (Z.eqb_spec l i) as [->|]; apply tab_ext; intros l' _; reflexivity.
Qed.

Definition zzmem (k : Z * Z) (l : list (Z * Z)) : bool := existsb (fun x => (fst x =? fst k)%Z && (snd x =? snd k)%Z) l.
Lemma zzmem_In k l : zzmem k l = true <-> In k l.
Proof.
  unfold zzmem. rewrite existsb_exists. split.
  - intros [x [Hx E]]. apply andb_true_iff in E. destruct E as [E1 E2]. apply Z.eqb_eq in E1, E2. destruct x, k. cbn in *. subst. exact Hx.
  - intros H. exists k. split; [exact H|]. rewrite !Z.eqb_refl. reflexivity.
Qed.

Lemma matrix_fold n (v : Z * Z -> nat) ks : forall f, (forall k, In k ks -> inside n (fst k) /\ inside n (snd k)) ->
  afold (fun M gp => matrix_set M (fst gp) (snd gp) (v gp)) ks (square n f)
  = AOk (square n (fun i j => if zzmem (i, j) ks then v (i, j) else f i j)).
Proof.
  induction ks as [|k ks IH]; intros f H; [reflexivity|].
  cbn [afold]. destruct (H k (or_introl eq_refl)) as [H1 H2]. rewrite matrix_set_ok by assumption. cbn [abind].
  rewrite IH by (intros k' Hk'; apply H; right; exact Hk'). f_equal. unfold square.
  apply tab_ext. intros i _. apply tab_ext. intros j _. 
  change (zzmem (i, j) (k :: ks)) with ((fst k =? i)%Z && (snd k =? j)%Z || zzmem (i, j) ks).
  rewrite (Z.eqb_sym (fst k) i), (Z.eqb_sym (snd k) j).
  destruct (zzmem (i, j) ks); [rewrite orb_true_r; reflexivity|]. rewrite orb_false_r.
  destruct (Z.eqb_spec i (fst k)) as [->|]; [|reflexivity]. destruct (Z.eqb_spec j (snd k)) as [->|]; [|reflexivity].
  cbn [andb]. destruct k; reflexivity.
Qed.

Lemma vector_fold n (v : Z -> nat) ks : forall f, (forall k, In k ks -> inside n k) ->
  afold (fun U g => np_set U g (v g)) ks (tab n f) = AOk (tab n (fun i => if mem i ks then v i else f i)).
Proof.
  induction ks as [|k ks IH]; intros f H; [reflexivity|].
  cbn [afold]. rewrite np_set_tab by (apply H; left; reflexivity). cbn [abind].
  rewrite IH by (intros k' Hk'; apply H; right; exact Hk'). f_equal. apply tab_ext. intros i _.
  change (mem i (k :: ks)) with ((i =? k)%Z || mem i ks). destruct (mem i ks); [rewrite orb_true_r; reflexivity|]. rewrite orb_false_r.
  destruct (Z.eqb_spec i k) as [->|]; reflexivity.
Qed.

Lemma isort_In' {A} (le : A -> A -> bool) l x : In x (isort le l) <-> In x l.
Proof. split; apply Permutation_in; [symmetry|]; apply isort_perm. Qed.

Section ConfOk.
  Variable n : nat.
  Variable m : crow -> bool.

  Lemma np_confusion_of_ok rows : rows_inside n rows ->
    np_confusion_of n m rows = AOk (square n (cm (confusion_of m rows)), tab n (cm_unmatched (confusion_of m rows))).
  Proof.
    intros H. unfold np_confusion_of, confusion_of. cbn [cm cm_unmatched].
    set (matched := dkeys zzz_dec _ _ rows). set (unmatched := dkeys zz_dec _ _ rows).
    replace (repeat (repeat 0 n) n) with (square n (fun _ _ => 0)) by (unfold square; rewrite <- !tab_repeat; reflexivity).
    rewrite (tab_repeat n 0).
    rewrite (matrix_fold n (fun gp => countb (fun k => (snd (fst k) =? fst gp)%Z && (snd k =? snd gp)%Z) matched)).
    2:{ intros k Hk. apply isort_In' in Hk. apply nodup_In in Hk. apply in_map_iff in Hk. destruct Hk as [x [<- Hx]].
        apply dkeys_In_row in Hx. destruct Hx as [r [Hr [_ <-]]]. apply (H r Hr). }
    cbn [abind].
    rewrite (vector_fold n (fun g => countb (fun k => (snd k =? g)%Z) unmatched)).
    2:{ intros k Hk. apply isort_In' in Hk. apply nodup_In in Hk. apply in_map_iff in Hk. destruct Hk as [x [<- Hx]].
        apply dkeys_In_row in Hx. destruct Hx as [r [Hr [_ <-]]]. apply (H r Hr). }
    cbn [abind]. f_equal. f_equal.
    - unfold square. apply tab_ext. intros g _. apply tab_ext. intros p _. cbn [fst snd].
      match goal with |- (if ?b then _ else _) = _ => destruct b eqn:E end; [reflexivity|].
      symmetry. apply countb_false. intros k Hk. apply not_true_is_false. intros Ht. apply andb_true_iff in Ht. destruct Ht as [E1 E2].
      apply Z.eqb_eq in E1, E2. assert (X : zzmem (g, p) (isort zz_leb (nodup zz_dec (map (fun k => (snd (fst k), snd k)) matched))) = true).
      { apply zzmem_In, isort_In', nodup_In, in_map_iff. exists k. rewrite E1, E2. split; [reflexivity|exact Hk]. }
      congruence.
    - apply tab_ext. intros g _.
      match goal with |- (if ?b then _ else _) = _ => destruct b eqn:E end; [reflexivity|].
      symmetry. apply countb_false. intros k Hk. apply not_true_is_false. intros Ht. apply Z.eqb_eq in Ht.
      assert (X : mem g (isort Z.leb (nodup Z.eq_dec (map snd unmatched))) = true).
      { apply mem_In, isort_In', nodup_In, in_map_iff. exists k. split; [exact Ht|exact Hk]. }
      congruence.
  Qed.
End ConfOk.

Definition conf_arrays (n : nat) (M : confusion) : matrix * list nat := (square n (cm M), tab n (cm_unmatched M)).
Lemma conf_sum_of n A B : conf_sum (conf_arrays n A) (conf_arrays n B) = conf_arrays n (conf_add A B).
Proof.
  unfold conf_sum, conf_arrays, square, conf_add. cbn [fst snd cm cm_unmatched]. rewrite !map2_tab. f_equal. apply tab_ext. intros i _. apply map2_tab.
Qed.

Lemma conf_fold_ok n ms datums tables : forall F : list confusion, length F = length ms -> rows_inside n (concat tables) ->
  afold (fun acc t => abind (amap (fun m => np_confusion_of n m (filter datums t)) ms) (fun b => AOk (map2 conf_sum acc b))) tables (map (conf_arrays n) F)
  = AOk (map (conf_arrays n) (map2 (fun m M => fold_left (fun acc t => conf_add acc (confusion_of m (filter datums t))) tables M) ms F)).
Proof.
  induction tables as [|t tables IH]; intros F HF H.
  - cbn [afold fold_left]. f_equal. f_equal. clear H. revert F HF. induction ms as [|m ms IH]; intros [|M F] HF; cbn in *; try discriminate; [reflexivity|].
    rewrite <- IH by lia. reflexivity.
  - cbn [afold]. rewrite (amap_ok _ (fun m => conf_arrays n (confusion_of m (filter datums t)))).
    2:{ intros m _. apply np_confusion_of_ok. intros r Hr. apply filter_In in Hr. apply H. cbn [List.concat]. apply in_or_app. tauto. }
    cbn [abind].
    assert (E : map2 conf_sum (map (conf_arrays n) F) (map (fun m => conf_arrays n (confusion_of m (filter datums t))) ms)
              = map (conf_arrays n) (map2 (fun M m => conf_add M (confusion_of m (filter datums t))) F ms)).
    { clear IH H. revert F HF. induction ms as [|m ms IH]; intros [|M F] HF; cbn in *; try discriminate; [reflexivity|].
      rewrite IH by lia. rewrite conf_sum_of. reflexivity. }
    rewrite E, IH.
    + f_equal. f_equal. clear E IH H. revert F HF. induction ms as [|m ms IH]; intros [|M F] HF; cbn in *; try discriminate; [reflexivity|].
      rewrite IH by lia. reflexivity.
    + clear E IH H. revert F HF. induction ms as [|m ms IH]; intros [|M F] HF; cbn in *; try discriminate; [reflexivity|]. rewrite IH by lia. reflexivity.
    + intros r Hr. apply H. cbn [List.concat]. apply in_or_app. tauto.
Qed.

Lemma map2_const {A B C} (h : A -> B -> C) (b : B) ms : map2 h ms (map (fun _ : A => b) ms) = map (fun m => h m b) ms.
Proof. induction ms as [|m ms IH]; cbn; [|rewrite IH]; reflexivity. Qed.

Lemma masks_length tol9 hm thrs : length (masks tol9 hm thrs) = length thrs.
Proof. unfold masks. generalize (fun r : crow => (tol9 <? r_score r)%Z). induction thrs as [|t thrs IH]; intros a; cbn; [|rewrite IH]; reflexivity. Qed.

Lemma map_const_length {A B C} (c : C) (a : list A) : forall b : list B, length a = length b -> map (fun _ => c) a = map (fun _ => c) b.
Proof. induction a as [|x a IH]; intros [|y b] H; cbn in *; try discriminate; [reflexivity|]. f_equal. apply IH. lia. Qed.

Lemma np_cls_confusion_ok tol9 hm thrs datums e : rows_inside (length (ce_labels e)) (concat (ce_tables e)) ->
  np_cls_confusion tol9 hm thrs datums e = AOk (map (conf_arrays (length (ce_labels e))) (cls_confusion tol9 hm thrs datums e)).
Proof.
  intros H. unfold np_cls_confusion, cls_confusion, evaluate_confusion. set (n := length (ce_labels e)).
  replace (map (fun _ : Z => (repeat (repeat 0 n) n, repeat 0 n)) thrs) with (map (conf_arrays n) (map (fun _ => conf_zero) (masks tol9 hm thrs))).
  - rewrite conf_fold_ok; [|rewrite map_length; reflexivity|exact H]. rewrite map2_const. reflexivity.
  - rewrite map_map. rewrite <- (map_const_length (repeat (repeat 0 n) n, repeat 0 n) (masks tol9 hm thrs) thrs) by apply masks_length. apply map_ext. intros _. unfold conf_arrays, conf_zero, square. cbn [cm cm_unmatched].
    rewrite <- !tab_repeat. reflexivity.
Qed.

Lemma afold_ok {A S} (f : S -> A -> ares S) (g : S -> A -> S) l : (forall s a, In a l -> f s a = AOk (g s a)) ->
  forall s, afold f l s = AOk (fold_left g l s).
Proof.
  induction l as [|a l IH]; intros H s; [reflexivity|]. cbn [afold fold_left]. rewrite H by (left; reflexivity). cbn [abind].
  apply IH. intros s' a' Ha'. apply H. right. exact Ha'.
Qed.

Lemma np_unpack_matrix_ok e M : keys_inside e ->
  np_unpack_matrix (ce_labels e) (conf_arrays (length (ce_labels e)) M) = AOk (unpack_matrix e M).
Proof.
  intros Hk. unfold np_unpack_matrix, unpack_matrix, conf_arrays. cbn [fst snd]. apply afold_ok. intros acc kl Hkl.
  rewrite np_get_tab by (apply Hk; exact Hkl). cbn [abind].
  rewrite (afold_ok _ (put_cell M (fst kl) (snd kl))); [reflexivity|].
  intros d pl Hpl. rewrite matrix_get_ok by (apply Hk; assumption). reflexivity.
Qed.

Theorem np_confusion_ok tol9 hm thrs datums e : thrs <> [] -> keys_inside e -> rows_inside (length (ce_labels e)) (concat (ce_tables e)) ->
  exists r, np_confusion tol9 hm thrs datums e = AOk r /\ report_confusion e tol9 hm thrs datums = Some r.
Proof.
  intros Ht Hk Hr. unfold np_confusion, report_confusion. destruct thrs as [|t0 ts]; [congruence|]. set (thrs := t0 :: ts) in *.
  rewrite np_cls_confusion_ok by exact Hr. cbn [abind]. eexists. split; [|reflexivity].
  rewrite (amap_ok _ (fun tm : Z * (matrix * list nat) =>
     (fst tm, match np_unpack_matrix (ce_labels e) (snd tm) with AOk d => d | ARaise _ => ([], []) end))).
  - f_equal. generalize (cls_confusion tol9 hm thrs datums e). generalize thrs. intros l. induction l as [|a l IH]; intros [|b ms]; cbn; try reflexivity.
    rewrite np_unpack_matrix_ok by exact Hk. f_equal. apply IH.
  - intros tm Htm. assert (X : In (snd tm) (map (conf_arrays (length (ce_labels e))) (cls_confusion tol9 hm thrs datums e))).
    { destruct tm. apply in_combine_r in Htm. exact Htm. }
    apply in_map_iff in X. destruct X as [M [<- _]]. rewrite np_unpack_matrix_ok by exact Hk. reflexivity.
Qed.

(* ---------------------------------------------------------------- ROC *)
Lemma np_add_keys_ok n keys f : (forall k, In k keys -> inside n (snd k)) ->
  np_add_keys keys (tab n f) = AOk (tab n (fun l => f l + countb (fun k => (snd k =? l)%Z) keys)).
Proof.
  intros H. unfold np_add_keys. rewrite (gts_labels n (fun l => countb (fun k => (snd k =? l)%Z) keys)).
  - f_equal. apply tab_ext. intros l _. f_equal.
    match goal with |- (if ?b then _ else _) = _ => destruct b eqn:E end; [reflexivity|].
    symmetry. apply countb_false. intros k Hk. apply not_true_is_false. intros Ht. apply Z.eqb_eq in Ht.
    assert (X : mem l (isort Z.leb (nodup Z.eq_dec (map snd keys))) = true).
    { apply mem_In, isort_In', nodup_In, in_map_iff. exists k. split; [exact Ht|exact Hk]. }
    congruence.
  - intros l Hl. apply isort_In' in Hl. apply nodup_In in Hl. apply in_map_iff in Hl. destruct Hl as [k [<- Hk]]. apply H. exact Hk.
  - eapply Permutation_NoDup; [apply isort_perm|apply NoDup_nodup].
Qed.

Lemma np_label_counts_ok n tables : rows_inside n (concat tables) ->
  np_label_counts n tables = AOk (tab n (gt_count_label tables), tab n (pd_count_label tables)).
Proof.
  intros H. unfold np_label_counts. rewrite tab_repeat.
  assert (G : forall ts f g, rows_inside n (concat ts) ->
    afold (fun ab t =>
      abind (np_add_keys (dkeys zz_dec (fun r => (r_datum r, r_gt r)) (fun r => (0 <=? r_gt r)%Z) t) (fst ab)) (fun a =>
      abind (np_add_keys (dkeys zz_dec (fun r => (r_datum r, r_pd r)) (fun r => (0 <=? r_pd r)%Z) t) (snd ab)) (fun b =>
      AOk (a, b)))) ts (tab n f, tab n g)
    = AOk (tab n (fun l => f l + gt_count_label ts l), tab n (fun l => g l + pd_count_label ts l))).
  { induction ts as [|t ts IH]; intros f g Hts.
    - cbn [afold]. f_equal. f_equal; apply tab_ext; intros l _; cbn; lia.
    - assert (Ht : rows_inside n t) by (intros r Hr; apply Hts; cbn [List.concat]; apply in_or_app; tauto).
      cbn [afold fst snd].
      rewrite np_add_keys_ok by (intros k Hk; apply dkeys_In_row in Hk; destruct Hk as [r [Hr [_ <-]]]; apply (Ht r Hr)).
      cbn [abind].
      rewrite np_add_keys_ok by (intros k Hk; apply dkeys_In_row in Hk; destruct Hk as [r [Hr [_ <-]]]; apply (Ht r Hr)).
      cbn [abind]. rewrite IH by (intros r Hr; apply Hts; cbn [List.concat]; apply in_or_app; tauto).
      f_equal. f_equal; apply tab_ext; intros l _; unfold gt_count_label, pd_count_label; cbn [map list_sum_nat fold_right]; idtac; apply eq_sym, Nat.add_assoc. }
  rewrite G by exact H. f_equal.
Qed.

Lemma rocauc_file_ok n (G P : Z -> nat) file (S : Z -> Q * (nat * nat)) :
  np_rocauc_file n (tab n G) (tab n P) (tab n S) file
  = AOk (tab n (fun l => rocauc_step (Z.of_nat (G l)) (Z.of_nat (P l)) (S l) (points_of (Z.to_nat l) file))).
Proof.
  unfold np_rocauc_file.
  assert (X : forall ks S0, (forall k, In k ks -> k < n) -> NoDup ks ->
    afold (fun st i =>
      abind (np_get (tab n P) (Z.of_nat i)) (fun pdc =>
      match pdc, points_of i file with
      | 0, _ => AOk st
      | _, [] => AOk st
      | _, pts =>
          abind (np_get (tab n G) (Z.of_nat i)) (fun gtc =>
          abind (np_get st (Z.of_nat i)) (fun s =>
          np_set st (Z.of_nat i) (rocauc_step (Z.of_nat gtc) (Z.of_nat pdc) s pts)))
      end)) ks (tab n S0)
    = AOk (tab n (fun l => if mem l (map Z.of_nat ks) then rocauc_step (Z.of_nat (G l)) (Z.of_nat (P l)) (S0 l) (points_of (Z.to_nat l) file) else S0 l))).
  { induction ks as [|k ks IH]; intros S0 Hk Hnd; [reflexivity|].
    inversion Hnd as [|? ? Hnk Hnd']; subst.
    assert (Hi : inside n (Z.of_nat k)) by (split; [lia|]; specialize (Hk k (or_introl eq_refl)); lia).
    assert (Hstep : abind (np_get (tab n P) (Z.of_nat k)) (fun pdc =>
      match pdc, points_of k file with
      | 0, _ => AOk (tab n S0)
      | _, [] => AOk (tab n S0)
      | _, pts =>
          abind (np_get (tab n G) (Z.of_nat k)) (fun gtc =>
          abind (np_get (tab n S0) (Z.of_nat k)) (fun s =>
          np_set (tab n S0) (Z.of_nat k) (rocauc_step (Z.of_nat gtc) (Z.of_nat pdc) s pts)))
      end) = AOk (tab n (fun l => if (l =? Z.of_nat k)%Z then rocauc_step (Z.of_nat (G l)) (Z.of_nat (P l)) (S0 l) (points_of (Z.to_nat l) file) else S0 l))).
    { rewrite np_get_tab by exact Hi. cbn [abind].
      assert (Same : forall v, rocauc_step (Z.of_nat (G (Z.of_nat k))) (Z.of_nat (P (Z.of_nat k))) (S0 (Z.of_nat k)) (points_of k file) = v ->
         tab n (fun l => if (l =? Z.of_nat k)%Z then v else S0 l)
         = tab n (fun l => if (l =? Z.of_nat k)%Z then rocauc_step (Z.of_nat (G l)) (Z.of_nat (P l)) (S0 l) (points_of (Z.to_nat l) file) else S0 l)).
      { intros v Hv. apply tab_ext. intros l _. destruct (Z.eqb_spec l (Z.of_nat k)) as [->|]; [|reflexivity]. rewrite Nat2Z.id. symmetry. exact Hv. }
      assert (Id : forall v, v = S0 (Z.of_nat k) -> tab n S0 = tab n (fun l => if (l =? Z.of_nat k)%Z then v else S0 l)).
      { intros v ->. apply tab_ext. intros l _. destruct (Z.eqb_spec l (Z.of_nat k)) as [->|]; reflexivity. }
      destruct (P (Z.of_nat k)) as [|pdc] eqn:EP.
      { f_equal. rewrite <- (Same (S0 (Z.of_nat k))); [apply Id; reflexivity|]. rewrite ?EP. unfold rocauc_step. destruct (S0 (Z.of_nat k)), (points_of k file); reflexivity. }
      destruct (points_of k file) as [|p0 pts] eqn:EL.
      { f_equal. rewrite <- (Same (S0 (Z.of_nat k))); [apply Id; reflexivity|]. rewrite ?EL. unfold rocauc_step. destruct (S0 (Z.of_nat k)); reflexivity. }
      rewrite np_get_tab by exact Hi. cbn [abind]. rewrite np_get_tab by exact Hi. cbn [abind]. rewrite np_set_tab by exact Hi.
      f_equal. apply Same. rewrite ?EP, ?EL. reflexivity. }
    cbn [afold]. rewrite Hstep. cbn [abind]. rewrite IH; [|intros k' Hk'; apply Hk; right; exact Hk'|exact Hnd'].
    f_equal. apply tab_ext. intros l _. cbn [map]. change (mem l (Z.of_nat k :: map Z.of_nat ks)) with ((l =? Z.of_nat k)%Z || mem l (map Z.of_nat ks)).
    destruct (Z.eqb_spec l (Z.of_nat k)) as [->|]; cbn [orb]; [|reflexivity].
    replace (mem (Z.of_nat k) (map Z.of_nat ks)) with false; [reflexivity|]. symmetry. apply not_true_is_false. intros Hm. apply mem_In in Hm.
    apply in_map_iff in Hm. destruct Hm as [k' [E Hk']]. apply Nat2Z.inj in E. subst. contradiction. }
  rewrite X; [|intros k Hk; apply in_seq in Hk; lia|apply seq_NoDup].
  f_equal. apply tab_ext. intros l [Hl0 Hl1]. replace (mem l (map Z.of_nat (seq 0 n))) with true; [reflexivity|].
  symmetry. apply mem_In, in_map_iff. exists (Z.to_nat l). split; [apply Z2Nat.id; exact Hl0|]. apply in_seq. lia.
Qed.

Lemma rocauc_files_ok n (G P : Z -> nat) files : forall S,
  afold (np_rocauc_file n (tab n G) (tab n P)) files (tab n S)
  = AOk (tab n (fun l => fold_left (rocauc_step (Z.of_nat (G l)) (Z.of_nat (P l))) (map (points_of (Z.to_nat l)) files) (S l))).
Proof.
  induction files as [|f files IH]; intros S; [reflexivity|]. cbn [afold map fold_left]. rewrite rocauc_file_ok. cbn [abind]. apply IH.
Qed.

Theorem np_rocauc_ok e : keys_inside e -> rows_inside (length (ce_labels e)) (concat (ce_tables e)) ->
  np_rocauc e = AOk (report_rocauc e).
Proof.
  intros Hk Hr. unfold np_rocauc, report_rocauc. set (n := length (ce_labels e)).
  rewrite np_label_counts_ok by exact Hr. cbn [abind fst snd]. rewrite tab_repeat, rocauc_files_ok. cbn [abind].
  assert (E : map fst (tab n (fun l => fold_left (rocauc_step (Z.of_nat (gt_count_label (ce_tables e) l)) (Z.of_nat (pd_count_label (ce_tables e) l)))
      (map (points_of (Z.to_nat l)) (ce_curve e)) (0%Q, (0, 0)))) = cls_rocauc e).
  { unfold cls_rocauc, compute_rocauc, tab. fold n. rewrite map_map. apply map_ext. intros i. unfold rocauc_label. rewrite Nat2Z.id. reflexivity. }
  rewrite E. rewrite (amap_ok _ (fun kl : Z * string => (snd kl, nth_error (cls_rocauc e) (Z.to_nat (fst kl))))); [reflexivity|].
  intros kl Hkl. destruct (Hk kl Hkl) as [H0 H1]. unfold np_get.
  assert (L : length (cls_rocauc e) = n) by (rewrite <- E, map_length; apply tab_length).
  rewrite L. rewrite np_pos_inside by (split; assumption).
  destruct (nth_error (cls_rocauc e) (Z.to_nat (fst kl))) as [v|] eqn:EV; [reflexivity|].
  apply nth_error_None in EV. rewrite L in EV. fold n in H1. lia.
Qed.

(* finalize *)
Lemma upd_tab n st i s : i < n -> np_set (tab n (fun l => st (Z.to_nat l))) (Z.of_nat i) s = AOk (tab n (fun l => upd st i s (Z.to_nat l))).
Proof.
  intros Hi. rewrite np_set_tab by (split; lia). f_equal. apply tab_ext. intros l [Hl _]. unfold upd.
  destruct (Z.eqb_spec l (Z.of_nat i)) as [->|Hne]; [rewrite Nat2Z.id, Nat.eqb_refl; reflexivity|].
  destruct (Nat.eqb_spec (Z.to_nat l) i) as [<-|]; [rewrite Z2Nat.id in Hne by exact Hl; congruence|reflexivity].
Qed.

Lemma tab_nat {A} n (st : nat -> A) i : i < n -> np_get (tab n (fun l => st (Z.to_nat l))) (Z.of_nat i) = AOk (st i).
Proof. intros Hi. rewrite np_get_tab by (split; lia). rewrite Nat2Z.id. reflexivity. Qed.

Lemma roc_table_ok n t keys : forall st out, (forall k, In k keys -> k < n) ->
  np_roc_table keys (tab n (fun l => st (Z.to_nat l)), out) t
  = AOk (tab n (fun l => fst (roc_labels keys t st) (Z.to_nat l)), out ++ snd (roc_labels keys t st)).
Proof.
  unfold np_roc_table. induction keys as [|k keys IH]; intros st out H; [cbn [afold roc_labels fst snd]; rewrite app_nil_r; reflexivity|].
  cbn [afold roc_labels]. assert (Hk : k < n) by (apply H; left; reflexivity).
  destruct (filter (fun r => (i_label r =? Z.of_nat k)%Z) t) as [|r0 rows] eqn:EF.
  - cbn [abind roc_label_step]. rewrite IH by (intros k' Hk'; apply H; right; exact Hk').
    assert (X : forall ks (f g : nat -> rocst), (forall j, f j = g j) ->
       snd (roc_labels ks t f) = snd (roc_labels ks t g) /\ forall j, fst (roc_labels ks t f) j = fst (roc_labels ks t g) j).
    { induction ks as [|k' ks IHk]; intros f g Hfg; [split; [reflexivity|exact Hfg]|]. cbn [roc_labels]. rewrite (Hfg k').
      destruct (roc_label_step (g k') _) as [s' pts].
      destruct (IHk (upd f k' s') (upd g k' s')) as [E1 E2]; [intros j; unfold upd; rewrite Hfg; reflexivity|].
      destruct (roc_labels ks t (upd f k' s')) as [f1 p1], (roc_labels ks t (upd g k' s')) as [g1 p2]. cbn [fst snd] in *. subst. split; [reflexivity|exact E2]. }
    destruct (X keys (upd st k (st k)) st) as [E1 E2]; [intros j; unfold upd; destruct (Nat.eqb_spec j k) as [->|]; reflexivity|].
    destruct (roc_labels keys t (upd st k (st k))) as [f1 p1]. cbn [fst snd map app] in *. subst p1. f_equal. f_equal.
    apply tab_ext. intros l _. symmetry. apply E2.
  - cbn [fst snd]. rewrite tab_nat by exact Hk. cbn [abind]. destruct (roc_label_step (st k) (r0 :: rows)) as [s' pts].
    rewrite upd_tab by exact Hk. cbn [abind]. rewrite IH by (intros k' Hk'; apply H; right; exact Hk').
    destruct (roc_labels keys t (upd st k s')) as [f1 p1]. cbn [fst snd]. rewrite app_assoc. reflexivity.
Qed.

Lemma roc_tables_ok n keys ts : forall st out, (forall k, In k keys -> k < n) ->
  afold (np_roc_table keys) ts (tab n (fun l => st (Z.to_nat l)), out)
  = AOk (tab n (fun l => fst (roc_tables keys ts st) (Z.to_nat l)), out ++ snd (roc_tables keys ts st)).
Proof.
  induction ts as [|t ts IH]; intros st out H; [cbn [afold roc_tables fst snd]; rewrite app_nil_r; reflexivity|].
  cbn [afold]. rewrite roc_table_ok by exact H. cbn [abind]. rewrite IH by exact H. cbn [roc_tables].
  destruct (roc_labels keys t st) as [st1 p1]. cbn [fst snd]. destruct (roc_tables keys ts st1) as [st2 p2]. cbn [fst snd]. rewrite app_assoc. reflexivity.
Qed.

Theorem np_roc_curve_ok keys ts : (forall k, In k keys -> k < length keys) -> np_roc_curve keys ts = AOk (roc_curve keys ts).
Proof.
  intros H. unfold np_roc_curve, roc_curve. set (n := length keys) in *.
  rewrite tab_repeat. change (tab n (fun _ : Z => rocst0)) with (tab n (fun l => (fun _ : nat => rocst0) (Z.to_nat l))).
  rewrite roc_tables_ok by exact H. cbn [abind fst snd]. destruct (roc_tables keys ts (fun _ => rocst0)) as [st pts]. cbn [fst snd app].
  rewrite (amap_ok _ (fun i => map (fun p => (i, p)) (final_point (st i)))); [reflexivity|].
  intros i Hi. apply in_seq in Hi. rewrite tab_nat by lia. reflexivity.
Qed.
