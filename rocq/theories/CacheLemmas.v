(* Consequences of the cache lemmas in the exact shape used by CacheProps.v *)
From Verif Require Import Prelude CacheModel CacheSpec CacheProofs CacheSizeProofs SortProofs PaginateProofs.

Lemma c03 {A} bs rpf ops1 (o : wop A) ops2 listing :
  is_flush o = false -> op_rows o <> [] ->
  lists_files bs rpf (ops1 ++ o :: ops2) listing ->
  exists fs1 pre post fs2,
    file_tables listing = fs1 ++ (pre ++ op_rows o ++ post) :: fs2
    /\ concat fs1 ++ pre = written ops1 /\ post ++ concat fs2 = written ops2.
Proof.
  intros Hf Hr. apply block_in_one_file.
  destruct o as [[|a r]|b|t|]; simpl in *; congruence.
Qed.

Lemma c05_increasing {A} bs rpf (ops : list (wop A)) :
  StronglySorted lt (map fst (f_dir (file_run bs rpf ops))).
Proof.
  destruct (ghost_run bs rpf ops) as (gs & (Hs & _) & _).
  induction Hs as [|e d Hs IH Hf]; simpl; constructor; auto.
  rewrite Forall_map. exact Hf.
Qed.

Lemma c05_listing {A} bs rpf (ops : list (wop A)) l1 l2 :
  lists_files bs rpf ops l1 -> lists_files bs rpf ops l2 -> file_tables l1 = file_tables l2.
Proof. intros H1 H2. rewrite (read_tables _ _ _ _ H1), (read_tables _ _ _ _ H2). reflexivity. Qed.

Lemma c05_stays {A} bs rpf (ops1 ops2 : list (wop A)) l1 :
  lists_files bs rpf ops1 l1 ->
  forall l2, lists_files bs rpf (ops1 ++ Flush :: ops2) l2 ->
  exists more, file_tables l2 = file_tables l1 ++ more.
Proof.
  intros H1 l2 H2. rewrite (read_tables _ _ _ _ H1), (read_tables _ _ _ _ H2).
  destruct (ghost_run bs rpf ops1) as (gs & HG & _).
  destruct (ghost_flush gs _ HG) as (gs' & HG' & _).
  assert (HF : frozen (f_dir (file_flush (file_run bs rpf ops1))) (file_flush (file_run bs rpf ops1))).
  { exists []. split; [symmetry; apply app_nil_r|]. unfold file_flush; cbn. discriminate. }
  destruct (frozen_run bs rpf gs' _ _ ops2 HG' HF) as (d' & Hd & _).
  exists (map snd d'). rewrite <- map_app, <- Hd. unfold file_run.
  rewrite fold_left_app. reflexivity.
Qed.

Lemma c06 {A} (sp : sorting A) bs rpf rebatch tables :
  batching_ok rebatch ->
  exists ops, sort_ops KFile bs rpf sp (table_sort_by sp) rebatch tables = Some ops
    /\ stable_sort_of (row_leb sp) (concat tables) (written ops).
Proof.
  intros Hb. destruct (sort_file_sink sp bs rpf (table_sort_by sp) rebatch tables Hb) as (ops & out & H1 & H2 & H3).
  - intros t _. apply isort_sorted; [apply row_leb_total|apply row_leb_trans].
  - exists ops. split; [exact H1|]. rewrite H2. apply stable_of_local. exact H3.
Qed.

Lemma c06_read {A} (sp : sorting A) bs rpf rebatch tables :
  batching_ok rebatch ->
  exists ops, sort_ops KFile bs rpf sp (table_sort_by sp) rebatch tables = Some ops
    /\ forall bs' rpf' listing, lists_files bs' rpf' ops listing ->
       stable_sort_of (row_leb sp) (concat tables) (concat (file_tables listing)).
Proof.
  intros Hb. destruct (c06 sp bs rpf rebatch tables Hb) as (ops & H1 & H2).
  exists ops. split; [exact H1|]. intros bs' rpf' listing HL.
  rewrite (file_order _ _ _ _ HL). exact H2.
Qed.

Lemma c06_override {A} (sp : sorting A) bs rpf local_sort rebatch tables :
  batching_ok rebatch ->
  (forall t, In t tables -> StronglySorted (leP (row_leb sp)) (local_sort t)) ->
  exists ops, sort_ops KFile bs rpf sp local_sort rebatch tables = Some ops
    /\ stable_sort_of (row_leb sp) (concat (map local_sort tables)) (written ops).
Proof.
  intros Hb Hl. destruct (sort_file_sink sp bs rpf local_sort rebatch tables Hb Hl) as (ops & out & H1 & H2 & H3).
  exists ops. split; [exact H1|]. rewrite H2. exact H3.
Qed.

Lemma c07 {A} (sp : sorting A) bs1 rpf1 rb1 ts1 bs2 rpf2 rb2 ts2 ops1 ops2 :
  batching_ok rb1 -> batching_ok rb2 -> concat ts1 = concat ts2 ->
  sort_ops KFile bs1 rpf1 sp (table_sort_by sp) rb1 ts1 = Some ops1 ->
  sort_ops KFile bs2 rpf2 sp (table_sort_by sp) rb2 ts2 = Some ops2 ->
  written ops1 = written ops2.
Proof.
  intros B1 B2 E S1 S2.
  destruct (c06 sp bs1 rpf1 rb1 ts1 B1) as (o1 & E1 & H1).
  destruct (c06 sp bs2 rpf2 rb2 ts2 B2) as (o2 & E2 & H2).
  rewrite S1 in E1. rewrite S2 in E2. injection E1 as <-. injection E2 as <-.
  rewrite E in H1. eapply stable_sort_unique; eauto using row_leb_total, row_leb_trans.
Qed.

Lemma c08_single {A} (sp : sorting A) bs rpf rebatch t :
  exists ops, sort_ops KMem bs rpf sp (table_sort_by sp) rebatch [t] = Some ops
    /\ forall bs', stable_sort_of (row_leb sp) t (mem_read (mem_run bs' ops)).
Proof.
  exists [WriteTable (table_sort_by sp t); Flush]. split; [reflexivity|].
  intros bs'. rewrite mem_order; [|apply mem_safe_guarded; reflexivity].
  unfold written. simpl. rewrite !app_nil_r.
  apply isort_stable; [apply row_leb_total|apply row_leb_trans].
Qed.

Lemma c08_memory {A} (sp : sorting A) bs rpf rebatch tables :
  batching_ok rebatch ->
  exists ops, sort_ops KMem bs rpf sp (table_sort_by sp) rebatch tables = Some ops
    /\ mem_read (mem_run bs ops) = concat (map (table_sort_by sp) tables).
Proof. apply sort_mem_sink. Qed.

Lemma c10 {A} (key : A -> Z) m n k tables :
  0 < n -> length (concat tables) <= k * n ->
  Permutation (concat (map (filter m) tables))
    (concat (map (fun i => concat (paginate_index key m (Some n) (i * n) tables)) (seq 0 k))).
Proof.
  intros Hn Hk.
  rewrite <- (page_whole key (k * n) (map (filter m) tables))
    by (pose proof (filtered_le m tables); lia).
  rewrite pages_partition.
  erewrite map_ext; [reflexivity|]. intros i. symmetry. apply paginate_some. lia.
Qed.

Lemma c10_order {A} (key : A -> Z) m n k tables :
  0 < n -> length (concat tables) <= k * n ->
  Forall (StronglySorted (fun a b => (key a <= key b)%Z)) tables ->
  concat (map (fun i => concat (paginate_index key m (Some n) (i * n) tables)) (seq 0 k))
  = filter m (concat tables).
Proof.
  intros Hn Hk Hs. rewrite filter_concat.
  rewrite <- (page_whole key (k * n) (map (filter m) tables))
    by (pose proof (filtered_le m tables); lia).
  rewrite pages_in_order.
  - f_equal. apply map_ext. intros i. apply paginate_some. lia.
  - rewrite Forall_map. rewrite Forall_forall in *. intros t Ht.
    apply StronglySorted_filter, Hs, Ht.
Qed.

Lemma c10_bound {A} (key : A -> Z) m n offset tables : 0 < n ->
  length (distinct_keys key (concat (paginate_index key m (Some n) offset tables))) <= n.
Proof.
  intros Hn. rewrite paginate_some by lia.
  pose proof (page_keys_bound key offset (offset + n) (map (filter m) tables) []). lia.
Qed.

Lemma aligned_filter {A} (key : A -> Z) m ts : aligned key ts -> aligned key (map (filter m) ts).
Proof.
  intros H i j ti tj a b Hi Hj Ha Hb E.
  rewrite nth_error_map in Hi, Hj.
  destruct (nth_error ts i) as [fi|] eqn:Ei; [|discriminate].
  destruct (nth_error ts j) as [fj|] eqn:Ej; [|discriminate].
  injection Hi as <-. injection Hj as <-. apply filter_In in Ha. apply filter_In in Hb.
  eapply (H i j fi fj a b); eauto; tauto.
Qed.

Lemma c10_whole_keys {A} (key : A -> Z) m n offset tables a b : 0 < n ->
  aligned key tables ->
  In a (concat (paginate_index key m (Some n) offset tables)) ->
  In b (concat tables) -> m b = true -> key a = key b ->
  In b (concat (paginate_index key m (Some n) offset tables)).
Proof.
  intros Hn Hal Ha Hb Hm Hk. rewrite paginate_some in * by lia.
  eapply same_key_same_page; eauto using aligned_filter.
  rewrite <- filter_concat. apply filter_In. auto.
Qed.

Lemma mem_sort_spec {A} (sp : sorting A) bs ops :
  stable_sort_of (row_leb sp) (mem_read (mem_run bs ops))
    (mem_read (mem_sort_by (table_sort_by sp) (mem_run bs ops))).
Proof.
  unfold mem_sort_by, mem_read at 2. unfold mem_flush at 1. cbn [m_buffer m_table].
  rewrite mem_buffer_flush. cbn [m_table].
  apply isort_stable; [apply row_leb_total|apply row_leb_trans].
Qed.

Lemma file_sort_spec {A} (sp : sorting A) bs rpf (ops : list (wop A)) l1 l2 :
  lists_files bs rpf ops l1 ->
  Permutation l2 (f_dir (file_sort_by (table_sort_by sp) (file_run bs rpf ops))) ->
  Forall2 (stable_sort_of (row_leb sp)) (file_tables l1) (file_tables l2).
Proof.
  intros H1 H2. rewrite (read_tables _ _ _ _ H1).
  destruct (ghost_final bs rpf ops) as (gs & (Hs & _) & _).
  unfold file_sort_by in H2. cbn [f_dir] in H2.
  set (d := f_dir (file_flush (file_run bs rpf ops))) in *.
  assert (Hs2 : StronglySorted idx_lt (map (fun e => (fst e, table_sort_by sp (snd e))) d)).
  { clear -Hs. induction Hs as [|e d Hs IH Hf]; simpl; constructor; auto.
    rewrite Forall_map. exact Hf. }
  rewrite (file_tables_listing _ _ Hs2 H2). rewrite map_map.
  clear. induction d as [|e d IH]; simpl; constructor; auto.
  apply isort_stable; [apply row_leb_total|apply row_leb_trans].
Qed.
