(* Classification lemmas in the shape used by ClsProps.v *)
From Verif Require Import Prelude CacheModel CacheSpec Counting ClsModel ClsSpec ClsLabelProofs ClsProofs ClsConfProofs.
From Coq Require Import String QArith Lqa.
Local Open Scope nat_scope.
Local Open Scope list_scope.

(* ------------------------------------------------------------------ *)
(** * Registry and rows *)

Lemma registry cs : Forall accepted cs ->
  ld_labels (fst (add_data loader_init cs)) = labels_of cs /\ NoDup (labels_of cs)
  /\ (forall l, In l (labels_of cs) <-> exists c, In c cs /\ (l = c_groundtruth c \/ In l (c_predictions c))).
Proof.
  intros H. rewrite loaded by exact H. split; [reflexivity|]. split; [apply labels_of_NoDup|].
  intros l. unfold labels_of. rewrite first_appearance_In. split.
  - intros [[]|Hl]. apply in_concat in Hl. destruct Hl as (x & Hx & Hl). apply in_map_iff in Hx.
    destruct Hx as (c & <- & Hc). exists c. cbn in Hl. intuition congruence.
  - intros (c & Hc & Hl). right. apply in_concat. exists (c_groundtruth c :: c_predictions c). split.
    + apply in_map_iff. eauto.
    + cbn. intuition congruence.
Qed.

Lemma add_label_grows labels v : exists more, fst (add_label labels v) = labels ++ more.
Proof.
  unfold add_label. destruct (index_of v labels); [exists []; rewrite app_nil_r; reflexivity|eexists; reflexivity].
Qed.
Lemma build_rows_grows c d g mx ps : forall i labels, exists more, fst (build_rows c d g mx i labels ps) = labels ++ more.
Proof.
  induction ps as [|[pl s] t IH]; intros i labels; cbn; [exists []; rewrite app_nil_r; reflexivity|].
  destruct (add_label_grows labels pl) as (m1 & E1). destruct (add_label labels pl) as [l1 k]. cbn in E1. subst l1.
  destruct (IH (S i) (labels ++ m1)) as (m2 & E2). destruct (build_rows c d g mx (S i) (labels ++ m1) t) as [l2 rows].
  cbn in *. subst l2. exists (m1 ++ m2). rewrite app_assoc. reflexivity.
Qed.
Lemma registry_grows cs : forall l, exists more, ld_labels (fst (add_data l cs)) = ld_labels l ++ more.
Proof.
  induction cs as [|c t IH]; intros l; cbn [add_data]; [exists []; rewrite app_nil_r; reflexivity|].
  unfold add_one. destruct (c_predictions c) as [|p ps] eqn:Ep; [exists []; rewrite app_nil_r; reflexivity|].
  destruct (add_label_grows (ld_labels l) (c_groundtruth c)) as (m1 & E1).
  destruct (add_label (ld_labels l) (c_groundtruth c)) as [l1 g]. cbn in E1. subst l1.
  destruct (build_rows_grows c (ld_count l) g (argmax (c_scores c)) (combine (p :: ps) (c_scores c)) 0 (ld_labels l ++ m1)) as (m2 & E2).
  destruct (build_rows _ _ _ _ _ _ _) as [l2 rows]. cbn in E2. subst l2.
  destruct (IH (MkLoader ((ld_labels l ++ m1) ++ m2) (S (ld_count l)) (ld_writes l ++ [rows]))) as (m3 & E3).
  exists (m1 ++ m2 ++ m3). rewrite E3. cbn. rewrite !app_assoc. reflexivity.
Qed.

Lemma datum_rows cs d c : Forall accepted cs -> nth_error cs d = Some c ->
  exists rows, nth_error (ld_writes (fst (add_data loader_init cs))) d = Some rows
   /\ List.length (ld_writes (fst (add_data loader_init cs))) = List.length cs
   /\ map (fun r => (r_pd_label r, r_score r)) rows = candidates c
   /\ (forall r, In r rows ->
         r_uid r = c_uid c /\ r_datum r = Z.of_nat d /\ r_gt_label r = c_groundtruth c
         /\ (0 <= r_gt r)%Z /\ nth_error (labels_of cs) (Z.to_nat (r_gt r)) = Some (c_groundtruth c)
         /\ (0 <= r_pd r)%Z /\ nth_error (labels_of cs) (Z.to_nat (r_pd r)) = Some (r_pd_label r)
         /\ r_match r = String.eqb (c_groundtruth c) (r_pd_label r))
   /\ exists pre w post, rows = pre ++ w :: post /\ r_winner w = true
        /\ (forall r, In r pre \/ In r post -> r_winner r = false)
        /\ is_top c (r_pd_label w, r_score w).
Proof.
  intros Hacc Hc. rewrite loaded by exact Hacc. cbn [fst ld_writes].
  exists (canon_rows (labels_of cs) d c). split.
  { unfold mapi. rewrite mapi_from_nth, Hc. reflexivity. }
  split. { unfold mapi. apply mapi_from_length. }
  assert (Hin : In c cs) by (eapply nth_error_In; eauto).
  assert (Ha : accepted c) by (rewrite Forall_forall in Hacc; auto).
  split. { unfold canon_rows, mapi. rewrite map_mapi_from. rewrite (mapi_from_const _ (fun p => p)); [apply map_id|].
           intros k [l s] _. reflexivity. }
  split.
  { intros r Hr. apply canon_In in Hr. destruct Hr as (E1 & E2 & E3 & E4 & E5 & E6 & E7).
    pose proof (labels_of_gt cs c Hin) as Ig. pose proof (labels_of_pd cs c _ Hin E6) as Ip. cbn in Ip.
    rewrite E4, E5. pose proof (idx_range _ _ Ig). pose proof (idx_range _ _ Ip).
    split; [exact E1|]. split; [exact E2|]. split; [exact E3|]. split; [lia|]. split; [apply idx_nth; exact Ig|].
    split; [lia|]. split; [apply idx_nth; exact Ip|exact E7]. }
  destruct (canon_split (labels_of cs) d c Ha) as (pre & r & post & E & Et & Ew & Eo & _).
  exists pre, r, post. split; [exact E|]. split; [exact Ew|]. split; [exact Eo|].
  apply top_is_top; assumption.
Qed.

(* ------------------------------------------------------------------ *)
(** * Entries of the count arrays *)

Lemma counts_entry tol hm thrs n datums tables t thr i :
  nth_error thrs t = Some thr -> i < n ->
  exists row, nth_error (evaluate_counts tol hm thrs n datums tables) t = Some row
    /\ nth_error row i = Some (total tol hm thr datums tables (Z.of_nat i)).
Proof.
  intros Ht Hi. rewrite evaluate_counts_total, nth_error_map, Ht. eexists. split; [reflexivity|].
  rewrite nth_error_map.
  rewrite (nth_error_nth' (seq 0 n) 0) by (rewrite seq_length; exact Hi). rewrite seq_nth by exact Hi. reflexivity.
Qed.

Lemma nth_label cs i l : nth_error (labels_of cs) i = Some l -> i < List.length (labels_of cs) /\ In l (labels_of cs) /\ Z.of_nat i = idx (labels_of cs) l.
Proof.
  intros H. split; [apply nth_error_Some; congruence|]. split; [eapply nth_error_In; eauto|].
  symmetry. apply idx_of_nth; [apply labels_of_NoDup|exact H].
Qed.

(* without selection *)
Lemma selects_all cs tables : selects cs tables (fun _ => true) (fun _ => true).
Proof. intros r d c _ _ _. reflexivity. Qed.

(* ------------------------------------------------------------------ *)
(** * Metrics *)

Lemma qdiv_bounds n d : n <= d -> (0 <= qdiv_or_0 n d <= 1)%Q.
Proof.
  intros H. unfold qdiv_or_0. destruct (Nat.ltb_spec 0 d); [|lra].
  assert (Hd : (0 < inject_Z (Z.of_nat d))%Q) by (change 0%Q with (inject_Z 0); rewrite <- Zlt_Qlt; lia).
  split.
  - apply Qle_shift_div_l; [exact Hd|]. rewrite Qmult_0_l. change 0%Q with (inject_Z 0). rewrite <- Zle_Qle. lia.
  - apply Qle_shift_div_r; [exact Hd|]. rewrite Qmult_1_l. rewrite <- Zle_Qle. lia.
Qed.

Lemma f1_bounds p r : (0 <= p <= 1)%Q -> (0 <= r <= 1)%Q -> (0 <= f1 p r <= 1)%Q.
Proof.
  intros Hp Hr. unfold f1. destruct (Qlt_le_dec (1 # 1000000000) (p + r)) as [H|H]; [|lra].
  assert (Hd : (0 < p + r)%Q) by lra. split.
  - apply Qle_shift_div_l; [exact Hd|]. rewrite Qmult_0_l. nra.
  - apply Qle_shift_div_r; [exact Hd|]. nra.
Qed.
Lemma f1_between p r : (0 <= p)%Q -> (0 <= r)%Q -> (1 # 1000000000 < p + r)%Q ->
  ((p <= f1 p r /\ f1 p r <= r) \/ (r <= f1 p r /\ f1 p r <= p))%Q.
Proof.
  intros Hp Hr H. unfold f1. destruct (Qlt_le_dec (1 # 1000000000) (p + r)) as [_|N]; [|lra].
  assert (Hd : (0 < p + r)%Q) by lra.
  destruct (Qlt_le_dec p r); [left|right]; (split; [apply Qle_shift_div_l; [exact Hd|]|apply Qle_shift_div_r; [exact Hd|]]); nra.
Qed.
Lemma f1_harmonic p r : (0 <= p)%Q -> (0 <= r)%Q -> (1 # 1000000000 < p + r)%Q -> (f1 p r * (p + r) == 2 * p * r)%Q.
Proof.
  intros Hp Hr H. unfold f1. destruct (Qlt_le_dec (1 # 1000000000) (p + r)) as [_|N]; [|lra].
  field. lra.
Qed.

(* a sum of label counts over all labels *)
Lemma countb_partition {A} (f : nat -> A -> bool) (g : A -> bool) l n :
  (forall a, In a l -> list_sum_nat (map (fun i => if f i a then 1 else 0) (seq 0 n)) = if g a then 1 else 0) ->
  list_sum_nat (map (fun i => countb (f i) l) (seq 0 n)) = countb g l.
Proof.
  intros H. rewrite (list_sum_map_countb f (seq 0 n) l).
  rewrite <- list_sum_nat_if. apply list_sum_nat_ext. intros a Ha. rewrite <- (H a Ha).
  symmetry. apply (list_sum_nat_if (fun i => f i a) (seq 0 n)).
Qed.

(* exactly one position of a duplicate-free list holds a given member *)
Lemma one_position (L : list string) l (P : nat -> bool) n :
  NoDup L -> n = List.length L ->
  (forall i, i < n -> P i = match nth_error L i with Some x => String.eqb x l | None => false end) ->
  list_sum_nat (map (fun i => if P i then 1 else 0) (seq 0 n)) = if smem l L then 1 else 0.
Proof.
  intros Hn -> HP.
  assert (E : map (fun i => if P i then 1 else 0) (seq 0 (List.length L)) = map (fun x => if String.eqb x l then 1 else 0) L).
  { clear Hn. revert P HP. induction L as [|x t IH]; intros P HP; [reflexivity|]. cbn [List.length seq map]. f_equal.
    - rewrite (HP 0) by (cbn; lia). reflexivity.
    - rewrite <- seq_shift, map_map. apply (IH (fun i => P (S i))). intros i Hi. apply (HP (S i)). cbn. lia. }
  rewrite E. clear E HP P. induction Hn as [|x t Hx Hn IH]; [reflexivity|].
  cbn. fold (list_sum_nat (map (fun x => if String.eqb x l then 1 else 0) t)). rewrite IH. unfold smem in *. cbn.
  rewrite (String.eqb_sym l x). destruct (String.eqb_spec x l) as [->|N]; [|reflexivity]. cbn.
  destruct (existsb (String.eqb l) t) eqn:Ex; [|reflexivity].
  apply existsb_exists in Ex. destruct Ex as (y & Hy & E). apply String.eqb_eq in E. subst y. contradiction.
Qed.

Section Acc.
  Variable cs : list classification.
  Hypothesis Hacc : Forall accepted cs.
  Hypothesis Hfew : few_labels cs.
  Variables tol thr : Z.
  Local Notation L := (labels_of cs).
  Local Notation nz := (fun s => (tol <? Z.abs s)%Z).

  Lemma total_tp tables datums sel l : stored cs tables -> selects cs tables datums sel -> In l L ->
    n_tp (total tol true thr datums tables (idx L l)) = countb (fun c => sel c && outcome_tp (decides nz thr) l c) cs.
  Proof.
    intros Hst Hsel Hl. unfold total. cbn [n_tp].
    rewrite (sum_countb cs Hacc tables datums sel _ (fun c => if outcome_tp (decides nz thr) l c then 1 else 0) Hst Hsel).
    - apply list_sum_sel.
    - intros d c Hc. apply datum_tp; auto.
  Qed.

  Lemma tp_sum tables datums sel : stored cs tables -> selects cs tables datums sel ->
    list_sum_nat (map (fun i => n_tp (total tol true thr datums tables (Z.of_nat i))) (seq 0 (List.length L)))
    = countb (fun c => sel c && correct nz thr c) cs.
  Proof.
    intros Hst Hsel.
    rewrite (list_sum_nat_ext _ (fun i => countb (fun c => sel c && match nth_error L i with Some l => outcome_tp (decides nz thr) l c | None => false end) cs)).
    2: { intros i Hi. apply in_seq in Hi. destruct (nth_error L i) as [l|] eqn:E; [|apply nth_error_None in E; lia].
         destruct (nth_label cs i l E) as (_ & Hl & ->). apply total_tp; auto. }
    apply countb_partition. intros c Hc.
    transitivity (list_sum_nat (map (fun i => if sel c && correct nz thr c && match nth_error L i with Some x => String.eqb x (c_groundtruth c) | None => false end then 1 else 0) (seq 0 (List.length L)))).
    { apply list_sum_nat_ext. intros i _. destruct (nth_error L i) as [l|]; [|rewrite !andb_false_r; reflexivity].
      unfold outcome_tp, correct. rewrite (String.eqb_sym l). destruct (String.eqb_spec (c_groundtruth c) l) as [->|N];
      [|rewrite !andb_false_r; reflexivity]. cbn [andb]. rewrite andb_true_r. reflexivity. }
    destruct (sel c && correct nz thr c) eqn:Es.
    - cbn [andb]. rewrite (one_position L (c_groundtruth c)); auto using labels_of_NoDup.
      assert (smem (c_groundtruth c) L = true) as -> by (apply smem_In, labels_of_gt; exact Hc). reflexivity.
    - cbn [andb]. clear. induction (seq 0 (List.length L)); cbn; auto.
  Qed.

  Lemma counts_datums tables datums sel : stored cs tables -> selects cs tables datums sel ->
    extract_counts datums tables = countb sel cs.
  Proof.
    intros Hst Hsel. unfold extract_counts.
    rewrite (list_sum_nat_ext _ (fun t => dcount Z.eq_dec r_datum (fun _ => true) (filter datums t))).
    2: { intros t _. generalize (filter datums t). intros u. unfold dcount, dkeys. rewrite (filter_all (fun _ => true)) by reflexivity. reflexivity. }
    rewrite (sum_dcount cs Hacc Z.eq_dec r_datum tables datums sel (fun _ => true) (fun _ => 1) Hst Hsel).
    - apply list_sum_nat_if.
    - auto.
    - intros d c Hc. rewrite (dcount_one _ _ _ _ (Z.of_nat d)).
      + destruct (canon_split L d c (acc_of cs Hacc d c Hc)) as (pre & w & post & -> & _).
        rewrite existsb_app. cbn. rewrite orb_true_r. reflexivity.
      + intros r Hr _. apply canon_In in Hr. tauto.
  Qed.

  Lemma accuracy_value tables datums sel : stored cs tables -> selects cs tables datums sel ->
    reported_accuracy tol true (List.length L) datums tables thr
    = accuracy (map (fun i => n_tp (total tol true thr datums tables (Z.of_nat i))) (seq 0 (List.length L))) (List.length cs).
  Proof.
    intros Hst Hsel. unfold reported_accuracy. rewrite evaluate_counts_total. cbn [map]. rewrite map_map. f_equal.
    rewrite (counts_datums tables _ _ Hst (selects_all cs tables)). apply countb_true. reflexivity.
  Qed.

  Lemma accuracy_meaning tables datums sel : cs <> [] -> stored cs tables -> selects cs tables datums sel ->
    (reported_accuracy tol true (List.length L) datums tables thr
     == inject_Z (Z.of_nat (countb (fun c => sel c && correct nz thr c) cs)) / inject_Z (Z.of_nat (List.length cs)))%Q.
  Proof.
    intros Hne Hst Hsel. rewrite (accuracy_value tables datums sel Hst Hsel). unfold accuracy.
    destruct (Nat.eqb_spec (List.length cs) 0) as [E|_]; [destruct cs; [congruence|discriminate]|].
    rewrite (tp_sum tables datums sel Hst Hsel). reflexivity.
  Qed.
End Acc.

(* ------------------------------------------------------------------ *)
(** * Independence of the split *)

Lemma sum_countb_concat {A} (P d : A -> bool) tables :
  list_sum_nat (map (fun t => countb P (filter d t)) tables) = countb (fun r => d r && P r) (List.concat tables).
Proof.
  rewrite countb_concat. apply list_sum_nat_ext. intros t _. apply countb_filter.
Qed.
Lemma sum_dcount_concat {K} (dec : forall x y : K, {x = y} + {x <> y}) (key : crow -> K) (P d : crow -> bool) tables :
  aligned r_datum tables -> (forall a b, key a = key b -> r_datum a = r_datum b) ->
  list_sum_nat (map (fun t => dcount dec key P (filter d t)) tables) = dcount dec key (fun r => d r && P r) (List.concat tables).
Proof.
  intros Hal Hk. rewrite (list_sum_nat_ext _ (dcount dec key (fun r => d r && P r))) by (intros; apply dcount_filter).
  symmetry. apply dcount_concat. intros i j ti tj a b Hi Hj N Ha Hb _ _ E. apply Hk in E.
  exact (aligned_neq _ _ _ _ _ _ _ _ Hal Hi Hj N Ha Hb E).
Qed.

Section Split.
  Variables t1 t2 : list (list crow).
  Hypothesis Hp : Permutation (List.concat t1) (List.concat t2).
  Hypothesis H1 : aligned r_datum t1.
  Hypothesis H2 : aligned r_datum t2.

  Lemma total_split tol hm thr datums l : total tol hm thr datums t1 l = total tol hm thr datums t2 l.
  Proof.
    unfold total. rewrite !sum_countb_concat, !sum_dcount_concat by (auto; intros; congruence).
    f_equal; first [apply countb_perm; exact Hp | apply dcount_perm; exact Hp].
  Qed.
  Lemma counts_split tol hm thrs n datums : evaluate_counts tol hm thrs n datums t1 = evaluate_counts tol hm thrs n datums t2.
  Proof.
    rewrite !evaluate_counts_total. apply map_ext. intros thr. apply map_ext. intros l. apply total_split.
  Qed.
  Lemma datums_split datums : extract_counts datums t1 = extract_counts datums t2.
  Proof.
    unfold extract_counts.
    assert (G : forall t, List.length (nodup Z.eq_dec (map r_datum (filter datums t))) = dcount Z.eq_dec r_datum (fun _ => true) (filter datums t)).
    { intros t. generalize (filter datums t). intros u. unfold dcount, dkeys. rewrite (filter_all (fun _ => true)) by reflexivity. reflexivity. }
    rewrite !(list_sum_nat_ext _ _ _ (fun t _ => G t)), !sum_dcount_concat by auto. apply dcount_perm. exact Hp.
  Qed.

  Lemma unmatched_global m datums t g : aligned r_datum t ->
    unmatched_total m datums t g
    = dcount zz_dec key2 (fun r => datums r && (negb (existsb (fun r' => datums r' && (m r' && same_gt r r')) (List.concat t)) && (r_gt r =? g)%Z)) (List.concat t).
  Proof.
    intros Hal. unfold unmatched_total.
    rewrite (list_sum_nat_ext _ (fun tb => dcount zz_dec key2
      (fun r => negb (existsb (fun r' => datums r' && (m r' && same_gt r r')) (List.concat t)) && (r_gt r =? g)%Z) (filter datums tb))).
    2: { intros tb Htb. cbn [cm_unmatched confusion_of]. rewrite dkeys_countb. cbn [snd].
         apply dcount_ext. intros r Hr. f_equal. unfold pc_unmatched. f_equal. apply eq_true_iff_eq. rewrite !existsb_exists.
         apply filter_In in Hr. destruct Hr as [Hr _]. split.
         - intros (r' & Hr' & H). apply filter_In in Hr'. destruct Hr' as [Hr' Hd]. exists r'.
           split; [apply in_concat; eauto|]. rewrite Hd. exact H.
         - intros (r' & Hr' & H). apply andb_true_iff in H. destruct H as [Hd H]. exists r'. split; [|exact H].
           apply filter_In. split; [|exact Hd]. apply in_concat in Hr'. destruct Hr' as (tb' & Htb' & Hr').
           apply In_nth_error in Htb. apply In_nth_error in Htb'. destruct Htb as (i & Hi), Htb' as (j & Hj).
           apply andb_true_iff in H. destruct H as [_ H]. unfold same_gt in H. apply andb_true_iff in H. destruct H as [H _].
           assert (i = j) by (apply (Hal i j tb tb' r r'); auto; lia). subst j. congruence. }
    apply sum_dcount_concat; [exact Hal|]. unfold key2. intros; congruence.
  Qed.

  Lemma cm_split m datums g p : cm_total m datums t1 g p = cm_total m datums t2 g p.
  Proof.
    assert (G : forall ts, aligned r_datum ts -> cm_total m datums ts g p
      = dcount zzz_dec key3 (fun r => datums r && (m r && ((r_gt r =? g)%Z && (r_pd r =? p)%Z))) (List.concat ts)).
    { intros ts Hal. unfold cm_total.
      rewrite (list_sum_nat_ext _ (fun t => dcount zzz_dec key3 (fun r => m r && ((r_gt r =? g)%Z && (r_pd r =? p)%Z)) (filter datums t))) by (intros; apply cm_dcount).
      apply sum_dcount_concat; auto. unfold key3. intros; congruence. }
    rewrite !G by auto. apply dcount_perm. exact Hp.
  Qed.
  Lemma unmatched_split m datums g : unmatched_total m datums t1 g = unmatched_total m datums t2 g.
  Proof.
    rewrite !unmatched_global by auto. rewrite (dcount_perm _ _ _ _ _ Hp). apply dcount_ext. intros r _.
    f_equal. f_equal. f_equal. apply eq_true_iff_eq. rewrite !existsb_exists.
    split; intros (r' & Hr' & H); exists r'; split; auto.
    - apply (Permutation_in _ Hp). exact Hr'.
    - apply (Permutation_in _ (Permutation_sym Hp)). exact Hr'.
  Qed.
End Split.

(* matrices are compared entry by entry *)
Definition same_confusion (a b : confusion) : Prop :=
  (forall g p, cm a g p = cm b g p) /\ (forall g, cm_unmatched a g = cm_unmatched b g).

Lemma confusion_split t1 t2 tol9 hm thrs datums :
  Permutation (List.concat t1) (List.concat t2) -> aligned r_datum t1 -> aligned r_datum t2 ->
  Forall2 same_confusion (evaluate_confusion tol9 hm thrs datums t1) (evaluate_confusion tol9 hm thrs datums t2).
Proof.
  intros Hp H1 H2. unfold evaluate_confusion. induction (masks tol9 hm thrs) as [|m ms IH]; cbn; constructor; auto.
  split; intros.
  - destruct (conf_fold m datums t1 conf_zero g p) as [E1 _], (conf_fold m datums t2 conf_zero g p) as [E2 _].
    rewrite E1, E2. f_equal. apply cm_split; auto.
  - destruct (conf_fold m datums t1 conf_zero g 0%Z) as [_ E1], (conf_fold m datums t2 conf_zero g 0%Z) as [_ E2].
    rewrite E1, E2. f_equal. apply unmatched_split; auto.
Qed.
