(* C144: ROC AUC equal to one, zero or one half. *)
From Verif Require Import Prelude Counting CacheModel CacheSpec ClsModel ClsSpec ClsLabelProofs ClsProofs ClsConfProofs RocModel RocProofs RocMain RocCurve
  FlowModel FlowProofs FlowMore ClsLemmas ClsMore ClsFilterModel ClsFilterSpec ClsFilterProofs ClsFilterCounts ClsFilterMain ClsFilterRoc.
From Coq Require Import String QArith Lia.
Local Notation length := List.length (only parsing).
Local Notation concat := List.concat (only parsing).
Local Open Scope list_scope.

Lemma row_bounds p N : (0 <= zsum (map (pair_score p) N) <= 2 * Z.of_nat (length N))%Z.
Proof.
  induction N as [|n t IH]; cbn [map zsum fold_right List.length]; [lia|]. fold (zsum (map (pair_score p) t)). unfold pair_score at 1 3.
  destruct (n <? p)%Z, (n =? p)%Z; lia.
Qed.
Lemma row_max p N : zsum (map (pair_score p) N) = (2 * Z.of_nat (length N))%Z <-> forall n, In n N -> (n < p)%Z.
Proof.
  induction N as [|n t IH]; cbn [map zsum fold_right List.length In]; [split; [intros _ x []|reflexivity]|]. fold (zsum (map (pair_score p) t)).
  pose proof (row_bounds p t) as B. unfold pair_score at 1. destruct (Z.ltb_spec n p) as [L|L]; [|destruct (n =? p)%Z].
  - split.
    + intros E x [<-|H]; [exact L|]. apply IH; [lia|exact H].
    + intros A. assert (X : zsum (map (pair_score p) t) = (2 * Z.of_nat (length t))%Z) by (apply IH; auto). lia.
  - split; [lia|]. intros A. specialize (A n (or_introl eq_refl)). lia.
  - split; [lia|]. intros A. specialize (A n (or_introl eq_refl)). lia.
Qed.
Lemma row_zero p N : zsum (map (pair_score p) N) = 0%Z <-> forall n, In n N -> (p < n)%Z.
Proof.
  induction N as [|n t IH]; cbn [map zsum fold_right In]; [split; [intros _ x []|reflexivity]|]. fold (zsum (map (pair_score p) t)).
  pose proof (row_bounds p t) as B. unfold pair_score at 1. destruct (Z.ltb_spec n p) as [L|L]; [|destruct (Z.eqb_spec n p) as [E|E]].
  - split; [lia|]. intros A. specialize (A n (or_introl eq_refl)). lia.
  - split; [lia|]. intros A. specialize (A n (or_introl eq_refl)). lia.
  - rewrite Z.add_0_l, IH. split; [|auto]. intros A x [<-|H]; [lia|auto].
Qed.
Lemma all_max P N : zsum (map (fun p => zsum (map (pair_score p) N)) P) = (2 * Z.of_nat (length P) * Z.of_nat (length N))%Z <-> forall p n, In p P -> In n N -> (n < p)%Z.
Proof.
  assert (B : forall P, (zsum (map (fun p => zsum (map (pair_score p) N)) P) <= 2 * Z.of_nat (length P) * Z.of_nat (length N))%Z).
  { induction P0 as [|p t IH]; cbn [map zsum fold_right List.length]; [lia|]. fold (zsum (map (fun p => zsum (map (pair_score p) N)) t)). pose proof (row_bounds p N). lia. }
  induction P as [|p t IH]; cbn [map zsum fold_right List.length In]; [split; [intros _ x y []|reflexivity]|].
  fold (zsum (map (fun p => zsum (map (pair_score p) N)) t)). specialize (B t). pose proof (row_bounds p N) as R. split.
  - intros E x n [<-|H] Hn; [apply (row_max p N); [lia|exact Hn]|]. apply IH; [lia|exact H|exact Hn].
  - intros A. assert (X : zsum (map (pair_score p) N) = (2 * Z.of_nat (length N))%Z) by (apply row_max; auto).
    assert (Y : zsum (map (fun p => zsum (map (pair_score p) N)) t) = (2 * Z.of_nat (length t) * Z.of_nat (length N))%Z) by (apply IH; auto). lia.
Qed.
Lemma all_zero P N : zsum (map (fun p => zsum (map (pair_score p) N)) P) = 0%Z <-> forall p n, In p P -> In n N -> (p < n)%Z.
Proof.
  assert (B : forall P, (0 <= zsum (map (fun p => zsum (map (pair_score p) N)) P))%Z).
  { induction P0 as [|p t IH]; cbn [map zsum fold_right]; [lia|]. fold (zsum (map (fun p => zsum (map (pair_score p) N)) t)). pose proof (row_bounds p N). lia. }
  induction P as [|p t IH]; cbn [map zsum fold_right In]; [split; [intros _ x y []|reflexivity]|].
  fold (zsum (map (fun p => zsum (map (pair_score p) N)) t)). specialize (B t). pose proof (row_bounds p N) as R. split.
  - intros E x n [<-|H] Hn; [apply (row_zero p N); [lia|exact Hn]|]. apply IH; [lia|exact H|exact Hn].
  - intros A. assert (X : zsum (map (pair_score p) N) = 0%Z) by (apply row_zero; auto).
    assert (Y : zsum (map (fun p => zsum (map (pair_score p) N)) t) = 0%Z) by (apply IH; auto). lia.
Qed.
Lemma all_tied P N : (forall p n, In p P -> In n N -> p = n) -> zsum (map (fun p => zsum (map (pair_score p) N)) P) = (Z.of_nat (length P) * Z.of_nat (length N))%Z.
Proof.
  induction P as [|p t IH]; intros A; [reflexivity|]. cbn [map zsum fold_right List.length]. fold (zsum (map (fun p => zsum (map (pair_score p) N)) t)).
  rewrite IH by (intros x n Hx; apply A; right; exact Hx).
  assert (X : zsum (map (pair_score p) N) = Z.of_nat (length N)); [|lia].
  assert (A' : forall n, In n N -> p = n) by (intros n; apply A; left; reflexivity). clear A IH. induction N as [|n r IH]; [reflexivity|].
  cbn [map zsum fold_right List.length]. fold (zsum (map (pair_score p) r)). rewrite IH by (intros x Hx; apply A'; right; exact Hx).
  rewrite (A' n (or_introl eq_refl)). unfold pair_score. rewrite Z.ltb_irrefl, Z.eqb_refl. lia.
Qed.

Lemma outcomes_In l cs s b : In (s, b) (outcomes l cs) <-> exists c, In c cs /\ In (l, s) (candidates c) /\ b = String.eqb (c_groundtruth c) l.
Proof.
  unfold outcomes. rewrite in_concat. split.
  - intros (r & Hr & Hx). apply in_map_iff in Hr. destruct Hr as (c & <- & Hc). apply in_map_iff in Hx. destruct Hx as ([x y] & E & Hx). injection E as <- <-.
    apply filter_In in Hx. destruct Hx as [Hx X]. apply String.eqb_eq in X. cbn in X. subst x. eauto.
  - intros (c & Hc & Hx & ->). eexists. split; [apply in_map_iff; exists c; split; [reflexivity|exact Hc]|]. apply in_map_iff. exists (l, s). split; [reflexivity|].
    apply filter_In. split; [exact Hx|]. apply String.eqb_refl.
Qed.
Lemma pos_In l cs s : In s (pos_of (outcomes l cs)) <-> exists c, In c cs /\ c_groundtruth c = l /\ In (l, s) (candidates c).
Proof.
  unfold pos_of. rewrite in_map_iff. split.
  - intros ([x b] & <- & H). apply filter_In in H. destruct H as [H B]. cbn in B. subst b. apply outcomes_In in H. destruct H as (c & Hc & X & B). symmetry in B. apply String.eqb_eq in B. eauto.
  - intros (c & Hc & G & X). exists (s, true). split; [reflexivity|]. apply filter_In. split; [|reflexivity]. apply outcomes_In. exists c. split; [exact Hc|]. split; [exact X|].
    symmetry. apply String.eqb_eq, G.
Qed.
Lemma neg_In l cs s : In s (neg_of (outcomes l cs)) <-> exists c, In c cs /\ c_groundtruth c <> l /\ In (l, s) (candidates c).
Proof.
  unfold neg_of. rewrite in_map_iff. split.
  - intros ([x b] & <- & H). apply filter_In in H. destruct H as [H B]. cbn in B. apply negb_true_iff in B. subst b. apply outcomes_In in H. destruct H as (c & Hc & X & B). symmetry in B. apply String.eqb_neq in B. eauto.
  - intros (c & Hc & G & X). exists (s, false). split; [reflexivity|]. apply filter_In. split; [|reflexivity]. apply outcomes_In. exists c. split; [exact Hc|]. split; [exact X|].
    symmetry. apply String.eqb_neq, G.
Qed.
Lemma ratio_value (m k : Z) (q x : Q) : (0 < k)%Z -> (q == inject_Z m / inject_Z k)%Q -> ((q == x)%Q <-> (inject_Z m == x * inject_Z k)%Q).
Proof.
  intros Hk Hq. assert (N : ~ (inject_Z k == 0)%Q) by (intros X; unfold Qeq in X; cbn in X; lia). rewrite Hq. split.
  - intros E. rewrite <- E. field. exact N.
  - intros E. rewrite E. field. exact N.
Qed.

Section Roc.
  Variables (cs : list classification) (w : cview) (e : ceval).
  Hypothesis Hd : Forall distinct_candidates cs.
  Hypothesis He : cls_evaluator cs w e.
  Variables (l : string) (i : nat).
  Let kept := reduced w cs.
  Let o := outcomes l kept.
  Theorem roc_extremes : has_number e l i -> origin_kept i (ce_curve e) \/ unmixed_top o -> top_nonzero o -> keeps_truth cs w l ->
    (Z.of_nat (length cs) < 2 ^ 64)%Z -> pos_of o <> [] -> neg_of o <> [] ->
    exists v, nth_error (cls_rocauc e) i = Some v /\
      ((v == 1)%Q <-> forall c d x y, In c kept -> In d kept -> c_groundtruth c = l -> c_groundtruth d <> l -> In (l, x) (candidates c) -> In (l, y) (candidates d) -> (y < x)%Z) /\
      ((v == 0)%Q <-> forall c d x y, In c kept -> In d kept -> c_groundtruth c = l -> c_groundtruth d <> l -> In (l, x) (candidates c) -> In (l, y) (candidates d) -> (x < y)%Z) /\
      ((forall c d x y, In c kept -> In d kept -> In (l, x) (candidates c) -> In (l, y) (candidates d) -> x = y) -> (v == 1 # 2)%Q).
  Proof.
    intros Hn Ho Ht Hk Hz Hp Hg. destruct (covered_rocauc cs Hd w e He l i Hn Ho Ht Hk Hz Hp Hg) as (v & E & V & _). exists v. split; [exact E|].
    fold kept in V. fold o in V.
    assert (P : (0 < Z.of_nat (length (pos_of o)))%Z) by (destruct (pos_of o); [congruence|cbn [List.length]; lia]).
    assert (N : (0 < Z.of_nat (length (neg_of o)))%Z) by (destruct (neg_of o); [congruence|cbn [List.length]; lia]).
    set (k := (2 * Z.of_nat (length (pos_of o)) * Z.of_nat (length (neg_of o)))%Z).
    assert (K : (0 < k)%Z) by (unfold k; nia).
    assert (V' : (v == inject_Z (twice_mann_whitney o) / inject_Z k)%Q).
    { rewrite V. unfold k. rewrite !inject_Z_mult. change (inject_Z 2) with 2%Q. apply Qdiv_comp; [reflexivity|ring]. }
    split; [|split].
    - rewrite (ratio_value _ k v 1 K V'). transitivity (twice_mann_whitney o = k).
      { rewrite Qmult_1_l. unfold Qeq. cbn. lia. }
      unfold twice_mann_whitney, k. rewrite all_max. split.
      + intros A c d x y Hc Hdd G1 G2 X Y. apply A; [apply pos_In; eauto|apply neg_In; eauto].
      + intros A p n X Y. apply pos_In in X. apply neg_In in Y. destruct X as (c & ? & ? & ?), Y as (d & ? & ? & ?). apply (A c d); assumption.
    - rewrite (ratio_value _ k v 0 K V'). transitivity (twice_mann_whitney o = 0%Z).
      { rewrite Qmult_0_l. unfold Qeq. cbn. lia. }
      unfold twice_mann_whitney. rewrite all_zero. split.
      + intros A c d x y Hc Hdd G1 G2 X Y. apply A; [apply pos_In; eauto|apply neg_In; eauto].
      + intros A p n X Y. apply pos_In in X. apply neg_In in Y. destruct X as (c & ? & ? & ?), Y as (d & ? & ? & ?). apply (A c d); assumption.
    - intros A. apply (ratio_value _ k v (1 # 2) K V'). unfold twice_mann_whitney. rewrite all_tied.
      + unfold k. rewrite !inject_Z_mult. change (inject_Z 2) with 2%Q. ring.
      + intros p n X Y. apply pos_In in X. apply neg_In in Y. destruct X as (c & ? & ? & ?), Y as (d & ? & ? & ?). apply (A c d); assumption.
  Qed.
End Roc.
