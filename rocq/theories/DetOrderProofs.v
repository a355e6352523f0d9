(* The ranked order does not depend on how the rows were grouped into tables. *)
From Verif Require Import Prelude Counting CacheModel CacheSpec CacheProofs SortProofs FlowModel FlowProofs Pipeline ClsModel DetModel DetSpec
  DetRankProofs DetCountProofs DetLoaderProofs DetStoreProofs DetFlowModel DetFlowProofs DetLocalProofs DetMain.
From Coq Require Import Lia.
From Coq Require String.
Local Open Scope nat_scope.
Local Open Scope list_scope.

Notation dsort := (table_sort_by det_sorting).

Lemma dsort_idem t : dsort (dsort t) = dsort t.
Proof.
  assert (S := isort_stable (row_leb det_sorting) (row_leb_total det_sorting) (row_leb_trans det_sorting) (dsort t)).
  apply stable_sort_sorted_id in S; [exact S|apply row_leb_total|].
  apply (isort_stable (row_leb det_sorting) (row_leb_total det_sorting) (row_leb_trans det_sorting) t).
Qed.

Lemma in_dsort t r : In r (dsort t) <-> In r t.
Proof. split; intros H; [apply (Permutation_in _ (Permutation_sym (det_sort_perm t)) H)|apply (Permutation_in _ (det_sort_perm t) H)]. Qed.

Lemma sorted_tables_datum G d : aligned d_datum G ->
  dsort (filter (of_datum d) (concat (map dsort G))) = dsort (filter (of_datum d) (concat G)).
Proof.
  intros Ha. destruct (aligned_datum d G Ha) as [E|(i & t & Hi & E & O)].
  - rewrite E. f_equal. apply filter_none. intros x Hx. apply in_concat in Hx. destruct Hx as (t & Ht & Hx).
    apply in_map_iff in Ht. destruct Ht as (t0 & <- & Ht0). apply (proj1 (in_dsort _ _)) in Hx.
    destruct (of_datum d x) eqn:P; [|reflexivity]. exfalso.
    assert (X : In x (filter (of_datum d) (concat G))) by (apply filter_In; split; [apply in_concat; exists t0; split; [exact Ht0|exact Hx]|exact P]). rewrite E in X. destruct X.
  - rewrite E. rewrite (filter_concat_one (of_datum d) (map dsort G) i (dsort t)).
    + rewrite table_sort_filter. apply dsort_idem.
    + rewrite nth_error_map, Hi. reflexivity.
    + intros j l' Hj N. rewrite nth_error_map in Hj. destruct (nth_error G j) as [t'|] eqn:Et; [|discriminate].
      cbn in Hj. inversion Hj; subst l'. rewrite table_sort_filter, (O j t' Et N). reflexivity.
Qed.

Lemma aligned_map_sort G : aligned d_datum G -> aligned d_datum (map dsort G).
Proof. apply aligned_sorted. apply det_sort_perm. Qed.

Lemma concat_split_order {A} (Rl : A -> A -> Prop) (ls : list (list A)) : StronglySorted Rl (concat ls) ->
  forall i j li lj a b, nth_error ls i = Some li -> nth_error ls j = Some lj -> i < j -> In a li -> In b lj -> Rl a b.
Proof.
  induction ls as [|l t IH]; intros S i j li lj a b Hi Hj Hij Ha Hb; [destruct i; discriminate|].
  cbn [concat] in S. apply StronglySorted_app in S. destruct S as (S1 & S2 & S3).
  destruct j as [|j]; [lia|]. destruct i as [|i].
  - inversion Hi; subst li. apply S3; [exact Ha|]. apply in_concat. exists lj. split; [cbn in Hj; apply (nth_error_In _ _ Hj)|exact Hb].
  - apply (IH S2 i j li lj); auto. lia.
Qed.

Lemma groups_datum_order G : aligned d_datum G -> StronglySorted (fun a b => (d_datum a <= d_datum b)%Z) (concat G) ->
  by_datum_order (map dsort G).
Proof.
  intros Ha S i j ti tj a b Hi Hj Hij Hx Hy. rewrite nth_error_map in Hi, Hj.
  destruct (nth_error G i) as [gi|] eqn:Ei; [|discriminate]. destruct (nth_error G j) as [gj|] eqn:Ej; [|discriminate].
  cbn in Hi, Hj. inversion Hi; subst ti. inversion Hj; subst tj. apply (proj1 (in_dsort _ _)) in Hx. apply (proj1 (in_dsort _ _)) in Hy.
  assert (X := concat_split_order _ G S i j gi gj a b Ei Ej Hij Hx Hy). cbn in X.
  assert (d_datum a <> d_datum b); [|lia]. intros E. assert (i = j) by (apply (Ha i j gi gj a b Ei Ej Hx Hy E)). lia.
Qed.

(* C49, on any two groupings of the rows in the order they were written *)
Lemma ranked_groups unit W G1 G2 R1 R2 :
  StronglySorted (fun a b => (d_datum a <= d_datum b)%Z) W -> pds_in_one_datum W ->
  aligned d_datum G1 -> aligned d_datum G2 -> concat G1 = W -> concat G2 = W ->
  ranked_of unit (map dsort G1) R1 -> ranked_of unit (map dsort G2) R2 -> R1 = R2.
Proof.
  intros S P A1 A2 E1 E2 H1 H2.
  assert (Pd : forall G, concat G = W -> pds_in_one_datum (concat (map dsort G))).
  { intros G E a b Ha Hb. apply (P a b); rewrite <- E.
    - apply (Permutation_in _ (Permutation_sym (concat_sorted _ G det_sort_perm)) Ha).
    - apply (Permutation_in _ (Permutation_sym (concat_sorted _ G det_sort_perm)) Hb). }
  apply (ranked_unique unit (map dsort G1) (map dsort G2)); auto using aligned_map_sort.
  - apply groups_datum_order; [exact A1|rewrite E1; exact S].
  - apply groups_datum_order; [exact A2|rewrite E2; exact S].
  - intros d. rewrite !sorted_tables_datum by assumption. rewrite E1, E2. reflexivity.
Qed.

(* the evaluator of a file-backed builder and that of an in-memory builder *)
Section Storage.
  Variables (eps unit : Z) (ds : list detection).
  Hypothesis Hin : det_input unit ds.

  Lemma input_ok : Forall (fun d => det_ok d = true) ds.
  Proof. eapply Forall_impl; [|exact Hin]. intros d (H & _). exact H. Qed.

  Lemma loader_exists : exists l, add_detections eps dloader_init ds = Some l /\ loaded eps ds l.
  Proof. apply add_detections_loaded. eapply Forall_impl; [|exact input_ok]. apply det_ok_gt_labels. Qed.

  (* in-memory and file-backed builders, and their evaluators *)
  Definition mem_evaluates (bs : nat) (rb : list drow -> list (list drow)) (calls : list (list detection)) (e : deval) : Prop :=
    exists b b', dmb_adds eps bs dmb_init calls = Some b /\ dmb_finalize unit bs rb b = (b', Done e).
  Definition file_evaluates (bs rpf : nat) (rb : list drow -> list (list drow)) (calls : list (list detection)) (e : deval) : Prop :=
    exists b b' labels, dfb_adds eps bs rpf dfb_init calls = Some b /\ dfb_finalize unit bs rpf rb b = (b', Done labels) /\ e = dfe b' labels.

  Lemma mem_evaluates_spec bs rb calls e : concat calls = ds -> mem_evaluates bs rb calls e ->
    exists l, add_detections eps dloader_init ds = Some l /\ loaded eps ds l /\
      det_stored eps ds (l_labels l) (de_detailed e) /\ ranked_of unit (de_detailed e) (concat (de_ranked e)) /\
      de_labels e = det_extract_labels (de_detailed e) /\ de_detailed e = map dsort [concat (l_writes l)].
  Proof.
    intros Ec (b & b' & Hb & Hf). destruct loader_exists as (l & El & Hl). exists l. split; [exact El|]. split; [exact Hl|].
    rewrite <- Ec in El. destruct (dmb_adds_state eps bs calls dmb_init dloader_init l) as (b1 & A1 & A2 & A3 & A4); auto.
    assert (b1 = b) by congruence. subst b1.
    destruct (concat (l_writes l)) as [|x u] eqn:Ew.
    - exfalso. unfold dmb_finalize in Hf. rewrite A3, mem_rows_table, Ew in Hf. cbn in Hf. inversion Hf.
    - rewrite Ec in El. destruct (dm_finalize_done eps unit ds l El) with (bs := bs) (rb := rb) (b := b) as (b2 & e2 & F & F1 & F2 & F3 & F4).
      + rewrite Ew. discriminate.
      + exact A3.
      + exact A4.
      + rewrite Hf in F. inversion F; subst. rewrite Ew in F4. auto.
  Qed.

  Lemma file_evaluates_spec bs rpf rb calls e : batching_ok rb -> concat calls = ds -> file_evaluates bs rpf rb calls e ->
    exists l gs, add_detections eps dloader_init ds = Some l /\ loaded eps ds l /\
      det_stored eps ds (l_labels l) (de_detailed e) /\ ranked_of unit (de_detailed e) (concat (de_ranked e)) /\
      de_labels e = det_extract_labels (de_detailed e) /\ concat gs = l_writes l /\ de_detailed e = map dsort (map (@concat drow) gs).
  Proof.
    intros Hrb Ec (b & b' & labels & Hb & Hf & ->). destruct loader_exists as (l & El & Hl).
    assert (El' := El). rewrite <- Ec in El'. destruct (dfb_adds_state eps bs rpf calls dfb_init dloader_init l) as (b1 & A1 & A2 & A3 & A4); auto.
    assert (b1 = b) by congruence. subst b1.
    destruct (concat (l_writes l)) as [|x u] eqn:Ew.
    - exfalso. unfold dfb_finalize in Hf. rewrite A3 in Hf.
      rewrite (file_rows_count' _ (Hnonempty eps ds l El)) in Hf. rewrite Ew in Hf. cbn in Hf. inversion Hf.
    - assert (Hne : concat (l_writes l) <> []) by (rewrite Ew; discriminate).
      destruct (df_finalize_done eps unit ds l input_ok El Hne bs rpf rb b Hrb A3 A4) as (b2 & labels2 & gs & F & F1 & F2 & F3 & F4 & F5 & F6).
      rewrite Hf in F. inversion F; subst. exists l, gs. split; [exact El|]. split; [exact Hl|]. split; [exact F4|]. split; [exact F5|].
      split; [exact F6|]. split; [exact F1|]. unfold dfe. cbn [de_detailed]. apply F2. apply Permutation_refl.
  Qed.

  Lemma written_pds l : add_detections eps dloader_init ds = Some l -> loaded eps ds l -> pds_in_one_datum (concat (l_writes l)).
  Proof.
    intros El Hl.
    assert (Hst : det_stored eps ds (l_labels l) (l_writes l)).
    { exists l. split; [exact El|]. split; [reflexivity|]. split; [apply Permutation_refl|apply (ld_aligned _ _ _ Hl)]. }
    apply (stored_pds_in_one eps unit ds (l_labels l) (l_writes l) Hin Hst).
  Qed.

  Lemma storage_independent bs bs' rpf rb rb' calls calls' em ef :
    batching_ok rb' -> concat calls = ds -> concat calls' = ds ->
    mem_evaluates bs rb calls em -> file_evaluates bs' rpf rb' calls' ef ->
    concat (de_ranked em) = concat (de_ranked ef).
  Proof.
    intros Hrb E1 E2 Hm Hf.
    destruct (mem_evaluates_spec bs rb calls em E1 Hm) as (l & El & Hl & S1 & R1 & _ & T1).
    destruct (file_evaluates_spec bs' rpf rb' calls' ef Hrb E2 Hf) as (l' & gs & El' & Hl' & S2 & R2 & _ & Hgs & T2).
    assert (l' = l) by congruence. subst l'.
    rewrite T1 in R1. rewrite T2 in R2.
    eapply (ranked_groups unit (concat (l_writes l)) [concat (l_writes l)] (map (@concat drow) gs)); eauto.
    - apply (ld_sorted _ _ _ Hl).
    - apply (written_pds l El Hl).
    - apply aligned_single.
    - apply aligned_groups. rewrite Hgs. apply (ld_aligned _ _ _ Hl).
    - cbn. apply app_nil_r.
    - rewrite concat_map_concat, Hgs. reflexivity.
  Qed.

  Lemma file_storage_independent bs bs' rpf rpf' rb rb' calls calls' e1 e2 :
    batching_ok rb -> batching_ok rb' -> concat calls = ds -> concat calls' = ds ->
    file_evaluates bs rpf rb calls e1 -> file_evaluates bs' rpf' rb' calls' e2 ->
    concat (de_ranked e1) = concat (de_ranked e2).
  Proof.
    intros Hr1 Hr2 E1 E2 H1 H2.
    destruct (file_evaluates_spec bs rpf rb calls e1 Hr1 E1 H1) as (l & gs & El & Hl & _ & R1 & _ & G1 & T1).
    destruct (file_evaluates_spec bs' rpf' rb' calls' e2 Hr2 E2 H2) as (l' & gs' & El' & Hl' & _ & R2 & _ & G2 & T2).
    assert (l' = l) by congruence. subst l'. rewrite T1 in R1. rewrite T2 in R2.
    eapply (ranked_groups unit (concat (l_writes l)) (map (@concat drow) gs) (map (@concat drow) gs')); eauto.
    - apply (ld_sorted _ _ _ Hl).
    - apply (written_pds l El Hl).
    - apply aligned_groups. rewrite G1. apply (ld_aligned _ _ _ Hl).
    - apply aligned_groups. rewrite G2. apply (ld_aligned _ _ _ Hl).
    - rewrite concat_map_concat, G1. reflexivity.
    - rewrite concat_map_concat, G2. reflexivity.
  Qed.
End Storage.
