(* C21, C22: ROCAUC.  Vocabulary: ClsSpec.v; model: RocModel.v, FlowModel.v. *)
From Verif Require Import Prelude CacheModel CacheSpec Counting ClsModel RocModel ClsSpec ClsLabelProofs ClsProofs
  ClsConfProofs SortProofs RocProofs RocMain RocCurve FlowModel FlowProofs FlowMore ClsLemmas ClsMore ClsDemo.
From Coq Require Import String QArith Lqa.
Local Open Scope nat_scope.
Local Open Scope list_scope.

(* ---------------------------------------------------------------- C21 *)
(* For every stored data set, every curve built from the sorted rows and every split
   of the curve into files that does not isolate the origin, the reported value of a
   label is (concordant pairs + tied pairs / 2) / (positives * negatives), in [0,1]. *)
Theorem C21_rocauc_is_mann_whitney :
  forall cs tables inter keys files i l,
    Forall accepted cs -> Forall distinct_candidates cs -> Forall covered cs -> stored cs tables ->
    stable_sort_of (row_leb roc_sorting) (map project (List.concat tables)) (List.concat inter) ->
    Permutation keys (seq 0 (List.length (labels_of cs))) ->
    List.concat files = roc_curve keys inter -> (forall f, In f files -> points_of i f <> [(0, 0)]) ->
    nth_error (labels_of cs) i = Some l -> (Z.of_nat (List.length cs) < 2 ^ 64)%Z ->
    top_nonzero (outcomes l cs) -> pos_of (outcomes l cs) <> [] -> neg_of (outcomes l cs) <> [] ->
    exists v, nth_error (compute_rocauc (List.length (labels_of cs)) tables files) i = Some v
      /\ (v == inject_Z (twice_mann_whitney (outcomes l cs))
           / (2 * inject_Z (Z.of_nat (List.length (neg_of (outcomes l cs)))) * inject_Z (Z.of_nat (List.length (pos_of (outcomes l cs))))))%Q
      /\ (0 <= v <= 1)%Q.
Proof.
  intros cs tables inter keys files i l Ha Hd Hc Hst Hs Hk Hf Ho Hi Hsz Ht Hp Hn.
  destruct (nth_label cs i l Hi) as (Hlt & _ & _).
  assert (E := reported_auc cs Ha Hd Hc tables Hst inter Hs keys Hk i l files Hi Hf Ho Hsz Ht Hp Hn).
  exists (reported tables i files). split.
  { unfold compute_rocauc. rewrite nth_error_map, nth_error_seq_lt by exact Hlt. reflexivity. }
  split; [exact E|]. rewrite E. pose proof (mw_bounds (outcomes l cs)) as B.
  set (P := List.length (pos_of (outcomes l cs))) in *. set (N := List.length (neg_of (outcomes l cs))) in *.
  assert (0 < P) by (unfold P; destruct (pos_of (outcomes l cs)); [congruence|cbn; lia]).
  assert (0 < N) by (unfold N; destruct (neg_of (outcomes l cs)); [congruence|cbn; lia]).
  assert (D : (2 * inject_Z (Z.of_nat N) * inject_Z (Z.of_nat P) == inject_Z (2 * Z.of_nat N * Z.of_nat P))%Q).
  { rewrite !inject_Z_mult. reflexivity. }
  rewrite D. assert (0 < 2 * Z.of_nat N * Z.of_nat P)%Z by nia.
  split.
  - apply Qle_shift_div_l; [change 0%Q with (inject_Z 0); rewrite <- Zlt_Qlt; lia|].
    rewrite Qmult_0_l. change 0%Q with (inject_Z 0). rewrite <- Zle_Qle. lia.
  - apply Qle_shift_div_r; [change 0%Q with (inject_Z 0); rewrite <- Zlt_Qlt; lia|].
    rewrite Qmult_1_l. rewrite <- Zle_Qle. lia.
Qed.
Print Assumptions C21_rocauc_is_mann_whitney.

(* Without positives or without negatives the reported value is 0, for any curve. *)
Theorem C21_rocauc_degenerate :
  forall cs tables files i l,
    Forall accepted cs -> Forall distinct_candidates cs -> Forall covered cs -> stored cs tables ->
    nth_error (labels_of cs) i = Some l -> (pos_of (outcomes l cs) = [] \/ neg_of (outcomes l cs) = []) ->
    exists v, nth_error (compute_rocauc (List.length (labels_of cs)) tables files) i = Some v /\ (v == 0)%Q.
Proof.
  intros cs tables files i l Ha Hd Hc Hst Hi H. destruct (nth_label cs i l Hi) as (Hlt & Hl & Ei).
  exists (reported tables i files). split.
  { unfold compute_rocauc. rewrite nth_error_map, nth_error_seq_lt by exact Hlt. reflexivity. }
  unfold reported. apply rocauc_degenerate. rewrite Ei, (gt_count cs Ha tables l Hst Hl), (pd_count cs Ha tables l Hst Hl).
  rewrite <- (pos_length cs Ha Hd Hc l), <- (outcomes_length cs Ha Hd l).
  pose proof (pos_neg_length (outcomes l cs)) as S. destruct H as [E|E]; rewrite E in *; cbn [List.length] in *; [right; left|right; right]; lia.
Qed.
Print Assumptions C21_rocauc_degenerate.

(* End to end, in memory: whatever was added in whatever calls, with any batch size. *)
Theorem C21_rocauc_in_memory :
  forall bs rb h i l, wellformed_calls h -> still_open h -> data_of h <> [] ->
    Forall distinct_candidates (data_of h) -> Forall covered (data_of h) ->
    nth_error (labels_of (data_of h)) i = Some l -> (Z.of_nat (List.length (data_of h)) < 2 ^ 64)%Z ->
    top_nonzero (outcomes l (data_of h)) ->
    let o := outcomes l (data_of h) in pos_of o <> [] -> neg_of o <> [] ->
    exists b' e v, mb_finalize bs rb (fold_left (mb_call bs rb) h mb_init) = (b', Done e)
      /\ nth_error (compute_rocauc (List.length (me_labels e)) [me_table e] [me_curve e]) i = Some v
      /\ (v == inject_Z (twice_mann_whitney o)
           / (2 * inject_Z (Z.of_nat (List.length (neg_of o))) * inject_Z (Z.of_nat (List.length (pos_of o)))))%Q
      /\ (0 <= v <= 1)%Q.
Proof.
  intros bs rb h i l Hw Ho Hne Hd Hc Hi Hsz Ht o Hp Hn. unfold o in *. clear o.
  pose proof (data_accepted h Hw) as Ha. rewrite (m_open bs rb h Hw Ho).
  destruct (mb_finalize_done (data_of h) Ha Hne bs rb (labels_of (data_of h)) (List.length (data_of h)))
    as (b' & e & inter & E & Hst & El & Hs & Ec & _). exists b', e.
  assert (Hs' : stable_sort_of (row_leb roc_sorting) (map project (List.concat [me_table e])) (List.concat [inter])).
  { cbn [List.concat]. rewrite !app_nil_r. exact Hs. }
  assert (Hk : Permutation (label_keys (me_labels e)) (seq 0 (List.length (labels_of (data_of h))))).
  { rewrite El. apply extracted_keys; auto. }
  assert (Elen : List.length (me_labels e) = List.length (labels_of (data_of h))) by (rewrite El; apply extracted_length; auto).
  rewrite Elen.
  destruct (C21_rocauc_is_mann_whitney (data_of h) [me_table e] [inter] (label_keys (me_labels e)) [me_curve e] i l
    Ha Hd Hc Hst Hs' Hk) as (v & Hv1 & Hv2 & Hv3); auto.
  - cbn [List.concat]. rewrite app_nil_r. exact Ec.
  - rewrite Ec. eapply single_file_ok; eauto.
  - exists v. auto.
Qed.
Print Assumptions C21_rocauc_in_memory.

Example C21_example :
  let h := [Add (firstn 2 demo); Finalize] in
  let h1 := [Add demo] in
  wellformed_calls h1 /\ still_open h1 /\ data_of h1 = demo /\ ~ still_open h
  /\ outcomes "cat" demo = [(9, true); (6, false); (3, false); (5, true)]%Z
  /\ top_nonzero (outcomes "cat" demo)
  /\ twice_mann_whitney (outcomes "cat" demo) = 6%Z.
Proof.
  split; [repeat constructor|]. split; [exact (still_open_add [] demo still_open_nil)|]. split; [reflexivity|].
  split; [intros H; specialize (H [Add (firstn 2 demo)] [] eq_refl); discriminate|].
  split; [reflexivity|]. split; [left; exists (9%Z, true); split; [left; reflexivity|reflexivity]|reflexivity].
Qed.

(* The condition on the highest score is needed: if all scores of a label are 0 the
   origin of its curve is missing. *)
Theorem C21_zero_scores_refuted :
  exists cs b' e, Forall accepted cs /\ Forall distinct_candidates cs /\ Forall covered cs
    /\ mb_finalize 10 (fun t => [t]) (fold_left (mb_call 10 (fun t => [t])) [Add cs] mb_init) = (b', Done e)
    /\ nth_error (labels_of cs) 0 = Some "cat"%string
    /\ List.length (pos_of (outcomes "cat" cs)) = 1 /\ List.length (neg_of (outcomes "cat" cs)) = 1
    /\ twice_mann_whitney (outcomes "cat" cs) = 1%Z
    /\ exists v, nth_error (compute_rocauc (List.length (me_labels e)) [me_table e] [me_curve e]) 0 = Some v /\ (v == 0)%Q.
Proof.
  set (cs := [MkCls "u0" "cat" ["cat"; "dog"] [0; 9]%Z; MkCls "u1" "dog" ["cat"; "dog"] [0; 9]%Z]%string).
  exists cs. eexists. eexists.
  split; [repeat (apply Forall_cons || apply Forall_nil); (split; [discriminate|reflexivity])|].
  split; [unfold cs, distinct_candidates; repeat (apply Forall_cons || apply Forall_nil); cbn; repeat constructor; cbn; intuition discriminate|].
  split; [unfold cs, covered; repeat (apply Forall_cons || apply Forall_nil); cbn; auto|].
  split; [vm_compute; reflexivity|]. split; [reflexivity|]. split; [reflexivity|]. split; [reflexivity|]. split; [reflexivity|].
  eexists. split; vm_compute; reflexivity.
Qed.
Print Assumptions C21_zero_scores_refuted.

(* That every ground truth is among the candidates is needed: with three cats, one of
   them without a candidate "cat", a perfect ranking is reported as 4/3. *)
Theorem C21_uncovered_refuted :
  exists cs b' e, Forall accepted cs /\ Forall distinct_candidates cs /\ ~ Forall covered cs
    /\ mb_finalize 10 (fun t => [t]) (fold_left (mb_call 10 (fun t => [t])) [Add cs] mb_init) = (b', Done e)
    /\ nth_error (labels_of cs) 0 = Some "cat"%string /\ top_nonzero (outcomes "cat" cs)
    /\ exists v, nth_error (compute_rocauc (List.length (me_labels e)) [me_table e] [me_curve e]) 0 = Some v /\ (v == 4 # 3)%Q.
Proof.
  set (cs := [MkCls "u0" "cat" ["cat"; "dog"] [9; 1]%Z; MkCls "u1" "cat" ["cat"; "dog"] [8; 2]%Z; MkCls "u2" "cat" ["dog"] [3]%Z;
              MkCls "u3" "dog" ["cat"; "dog"] [2; 8]%Z; MkCls "u4" "dog" ["cat"; "dog"] [1; 9]%Z]%string).
  exists cs. eexists. eexists.
  split; [repeat (apply Forall_cons || apply Forall_nil); (split; [discriminate|reflexivity])|].
  split; [unfold cs, distinct_candidates; repeat (apply Forall_cons || apply Forall_nil); cbn; repeat constructor; cbn; intuition discriminate|].
  split. { intros H. rewrite Forall_forall in H. specialize (H (MkCls "u2" "cat" ["dog"] [3]%Z)%string ltac:(unfold cs; cbn; auto)). cbn in H. intuition discriminate. }
  split; [vm_compute; reflexivity|]. split; [reflexivity|]. split; [left; exists (9%Z, true); split; [left; reflexivity|reflexivity]|].
  eexists. split; vm_compute; reflexivity.
Qed.
Print Assumptions C21_uncovered_refuted.

(* ---------------------------------------------------------------- C22 *)
(* Full claim: for all splits.  False of the code, see below.
   Two splits of the curve into files report the same value when neither isolates the
   origin of the label's curve, or when no positive and negative candidate of the label
   share its highest score. *)
Theorem C22_curve_split_independence_partial :
  forall cs tables inter keys files1 files2 i l,
    Forall accepted cs -> stored cs tables ->
    stable_sort_of (row_leb roc_sorting) (map project (List.concat tables)) (List.concat inter) ->
    Permutation keys (seq 0 (List.length (labels_of cs))) ->
    List.concat files1 = roc_curve keys inter -> List.concat files2 = roc_curve keys inter ->
    nth_error (labels_of cs) i = Some l ->
    (origin_kept i files1 /\ origin_kept i files2) \/ unmixed_top (outcomes l cs) ->
    exists v1 v2, nth_error (compute_rocauc (List.length (labels_of cs)) tables files1) i = Some v1
      /\ nth_error (compute_rocauc (List.length (labels_of cs)) tables files2) i = Some v2 /\ (v1 == v2)%Q.
Proof.
  intros cs tables inter keys f1 f2 i l Ha Hst Hs Hk H1 H2 Hi Ho. destruct (nth_label cs i l Hi) as (Hlt & _ & _).
  pose proof (inter_outcomes cs Ha tables Hst inter Hs i l Hi) as Hp. pose proof (curve_points cs inter keys Hk i l Hi) as Hc.
  assert (Hd : descending (of_label i (List.concat inter))) by (unfold of_label; apply descending_filter; eapply sorted_descending; eauto).
  assert (U : unmixed_top (outcomes l cs) -> unmixed_top (map outc (of_label i (List.concat inter)))) by (apply unmixed_perm; symmetry; exact Hp).
  eexists. eexists. unfold compute_rocauc. rewrite !nth_error_map, !nth_error_seq_lt by exact Hlt. split; [reflexivity|]. split; [reflexivity|].
  cbn beta. rewrite (area_safe _ _ (0 + i) f1 (of_label i (List.concat inter)) Hd), (area_safe _ _ (0 + i) f2 (of_label i (List.concat inter)) Hd); [reflexivity|tauto|rewrite H2; exact Hc|tauto|rewrite H1; exact Hc].
Qed.
Print Assumptions C22_curve_split_independence_partial.

Example C22_example :
  let inter := [isort (row_leb roc_sorting) (map project (List.concat (rows_of demo)))] in
  let curve := roc_curve [0; 1] inter in
  points_of 0 curve = [(0, 0); (0, 1); (1, 1); (1, 2); (2, 2)]
  /\ unmixed_top (outcomes "cat" demo)
  /\ (exists a b, curve = a ++ b /\ points_of 0 a = [(0, 0); (0, 1); (1, 1)] /\ points_of 0 b = [(1, 2); (2, 2)]).
Proof.
  split; [reflexivity|].
  split. { intros s Hs [H1 H2]. specialize (Hs (9%Z, true) ltac:(left; reflexivity)). cbn in Hs, H2. repeat (destruct H2 as [H2|H2]; [injection H2 as <-; lia || discriminate|]). destruct H2. }
  exists (firstn 3 (roc_curve [0; 1] [isort (row_leb roc_sorting) (map project (List.concat (rows_of demo)))])),
         (skipn 3 (roc_curve [0; 1] [isort (row_leb roc_sorting) (map project (List.concat (rows_of demo)))])).
  split; [symmetry; apply firstn_skipn|]. vm_compute. auto.
Qed.

(* The unrestricted claim is false: a file holding only the origin of a label's curve
   loses the first trapezoid when the first score group is a tie. *)
Theorem C22_isolated_origin_refuted :
  exists cs inter keys files1 files2 v1 v2,
    Forall accepted cs /\ Forall distinct_candidates cs /\ Forall covered cs /\ stored cs (rows_of cs)
    /\ stable_sort_of (row_leb roc_sorting) (map project (List.concat (rows_of cs))) (List.concat inter)
    /\ Permutation keys (seq 0 (List.length (labels_of cs)))
    /\ List.concat files1 = roc_curve keys inter /\ List.concat files2 = roc_curve keys inter
    /\ nth_error (compute_rocauc (List.length (labels_of cs)) (rows_of cs) files1) 0 = Some v1
    /\ nth_error (compute_rocauc (List.length (labels_of cs)) (rows_of cs) files2) 0 = Some v2
    /\ (v1 == 1 # 2 /\ v2 == 0)%Q.
Proof.
  set (cs := [MkCls "u0" "cat" ["cat"; "dog"] [5; 4]%Z; MkCls "u1" "dog" ["cat"; "dog"] [5; 4]%Z]%string).
  assert (Ha : Forall accepted cs) by (repeat (apply Forall_cons || apply Forall_nil); (split; [discriminate|reflexivity])).
  set (inter := [isort (row_leb roc_sorting) (map project (List.concat (rows_of cs)))]).
  exists cs, inter, [0; 1], [roc_curve [0; 1] inter], (map (fun p => [p]) (roc_curve [0; 1] inter)). eexists. eexists.
  split; [exact Ha|].
  split; [unfold cs, distinct_candidates; repeat (apply Forall_cons || apply Forall_nil); cbn; repeat constructor; cbn; intuition discriminate|].
  split; [unfold cs, covered; repeat (apply Forall_cons || apply Forall_nil); cbn; auto|].
  split; [apply rows_of_stored, Ha|].
  split. { unfold inter. cbn [List.concat]. rewrite app_nil_r. apply isort_stable; [apply row_leb_total|apply row_leb_trans]. }
  split; [reflexivity|]. split; [cbn [List.concat]; apply app_nil_r|].
  split; [vm_compute; reflexivity|]. split; [vm_compute; reflexivity|]. split; [vm_compute; reflexivity|]. split; vm_compute; reflexivity.
Qed.
Print Assumptions C22_isolated_origin_refuted.
