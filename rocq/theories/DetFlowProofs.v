(* From add_* calls and finalize to stored tables, a ranked cache and the label map. *)
From Verif Require Import Prelude CacheModel CacheSpec CacheProofs CacheSizeProofs SortProofs CacheLemmas Counting
  ClsModel ClsSpec ClsLabelProofs FlowModel FlowProofs Pipeline DetModel DetSpec DetRankProofs DetCountProofs DetLoaderProofs
  DetStoreProofs DetFlowModel.
From Coq Require Import Lia.
From Coq Require String.
Local Open Scope nat_scope.
Local Open Scope list_scope.

(* ------------------------------------------------------------------ *)
(** * Labels *)

Definition sound_ldict (L : list String.string) (d : ldict) : Prop :=
  NoDup (map fst d) /\ forall k v, In (k, v) d -> (0 <= k)%Z /\ exists l, v = Some l /\ nth_error L (Z.to_nat k) = Some l.

Lemma ldict_set_keys d k v x : In x (map fst (ldict_set d k v)) <-> x = k \/ In x (map fst d).
Proof.
  induction d as [|[k' v'] t IH]; cbn; [intuition congruence|].
  destruct (Z.eqb_spec k k') as [->|N]; cbn; [intuition congruence|]. rewrite IH. intuition congruence.
Qed.
Lemma ldict_set_In d k v x : In x (ldict_set d k v) -> x = (k, v) \/ In x d.
Proof.
  induction d as [|[k' v'] t IH]; cbn; [intuition congruence|].
  destruct (Z.eqb_spec k k') as [->|N]; cbn; intuition congruence.
Qed.
Lemma ldict_set_NoDup d k v : NoDup (map fst d) -> NoDup (map fst (ldict_set d k v)).
Proof.
  induction d as [|[k' v'] t IH]; cbn; intros H; [repeat constructor; auto|].
  inversion H; subst. destruct (Z.eqb_spec k k') as [->|N]; cbn; constructor; auto.
  rewrite ldict_set_keys. intuition congruence.
Qed.
Lemma ldict_update_spec L d' : forall d, sound_ldict L d ->
  (forall k v, In (k, v) d' -> (0 <= k)%Z /\ exists l, v = Some l /\ nth_error L (Z.to_nat k) = Some l) ->
  sound_ldict L (ldict_update d d') /\
  (forall x, In x (map fst (ldict_update d d')) <-> In x (map fst d) \/ In x (map fst d')).
Proof.
  unfold ldict_update. induction d' as [|[k v] t IH]; intros d Hd H; cbn [fold_left map fst snd].
  - split; [exact Hd|]. cbn. tauto.
  - destruct (IH (ldict_set d k v)) as [I1 I2].
    + destruct Hd as [H1 H2]. split; [apply ldict_set_NoDup; exact H1|].
      intros k' v' H'. apply ldict_set_In in H'. destruct H' as [[= -> ->]|H']; [apply H; left; reflexivity|auto].
    + intros; apply H; right; auto.
    + split; [exact I1|]. intros x. rewrite I2, ldict_set_keys. cbn. intuition congruence.
Qed.

Definition id_label_ok (L : list String.string) (id : Z) (lb : option String.string) : Prop :=
  id = (-1)%Z \/ ((0 <= id)%Z /\ exists l, lb = Some l /\ nth_error L (Z.to_nat id) = Some l).

Lemma det_table_labels_spec {A} L idc lbc (t : list A) :
  (forall r, In r t -> id_label_ok L (idc r) (lbc r)) ->
  (forall k v, In (k, v) (det_table_labels idc lbc t) -> (0 <= k)%Z /\ exists l, v = Some l /\ nth_error L (Z.to_nat k) = Some l) /\
  (forall x, In x (map fst (det_table_labels idc lbc t)) <-> In x (map idc t) /\ (x <> -1)%Z).
Proof.
  intros H. unfold det_table_labels, ldict_pop.
  assert (U : forall k, In k (isort Z.leb (nodup Z.eq_dec (map idc t))) <-> In k (map idc t)).
  { intros k. rewrite <- (nodup_In Z.eq_dec (map idc t) k).
    pose proof (isort_perm Z.leb (nodup Z.eq_dec (map idc t))) as P.
    split; intros X; [apply (Permutation_in _ (Permutation_sym P))|apply (Permutation_in _ P)]; exact X. }
  assert (F : forall k v, In (k, v) (concat (map (det_first_label idc lbc t) (isort Z.leb (nodup Z.eq_dec (map idc t))))) ->
                exists r, In r t /\ idc r = k /\ lbc r = v).
  { intros k v Hk. apply in_concat in Hk. destruct Hk as (x & Hx & Hk). apply in_map_iff in Hx. destruct Hx as (k' & <- & _).
    unfold det_first_label in Hk. destruct (find _ t) as [r|] eqn:E; [|destruct Hk]. destruct Hk as [[= <- <-]|[]].
    apply find_some in E. destruct E as [E1 E2]. exists r. split; [exact E1|]. split; [lia|reflexivity]. }
  assert (G : forall k, In k (map idc t) -> exists v, In (k, v) (concat (map (det_first_label idc lbc t) (isort Z.leb (nodup Z.eq_dec (map idc t)))))).
  { intros k Hk. destruct (find (fun r => (idc r =? k)%Z) t) as [r|] eqn:E.
    - exists (lbc r). apply in_concat. exists (det_first_label idc lbc t k). split; [apply in_map, U, Hk|].
      unfold det_first_label. rewrite E. left. reflexivity.
    - apply in_map_iff in Hk. destruct Hk as (r & Er & Hr). pose proof (find_none _ _ E r Hr) as N. cbn in N. lia. }
  split.
  - intros k v Hin. apply filter_In in Hin. destruct Hin as [Hin Hk]. apply F in Hin. destruct Hin as (r & Hr & <- & <-).
    destruct (H r Hr) as [E|E]; [|exact E]. cbn in Hk. rewrite E in Hk. discriminate.
  - intros x. split.
    + intros Hx. apply in_map_iff in Hx. destruct Hx as ([k v] & <- & Hin). apply filter_In in Hin. destruct Hin as [Hin Hk].
      apply F in Hin. destruct Hin as (r & Hr & <- & _). cbn in *. split; [apply in_map; exact Hr|lia].
    + intros [Hx N]. destruct (G x Hx) as (v & Hv). apply in_map_iff. exists (x, v). split; [reflexivity|].
      apply filter_In. split; [exact Hv|]. cbn. lia.
Qed.

Lemma det_extract_gen L tables :
  (forall r, In r (concat tables) -> id_label_ok L (d_gl r) (d_gt_label r) /\ id_label_ok L (d_pl r) (d_pd_label r)) ->
  sound_ldict L (det_extract_labels tables) /\
  (forall x, In x (map fst (det_extract_labels tables)) <->
             (In x (map d_gl (concat tables)) \/ In x (map d_pl (concat tables))) /\ (x <> -1)%Z).
Proof.
  unfold det_extract_labels.
  assert (G : forall ts d, sound_ldict L d ->
    (forall r, In r (concat ts) -> id_label_ok L (d_gl r) (d_gt_label r) /\ id_label_ok L (d_pl r) (d_pd_label r)) ->
    let d' := fold_left (fun d t => ldict_update (ldict_update d (det_table_labels d_gl d_gt_label t))
                            (det_table_labels d_pl d_pd_label t)) ts d in
    sound_ldict L d' /\ (forall x, In x (map fst d') <->
       In x (map fst d) \/ (In x (map d_gl (concat ts)) \/ In x (map d_pl (concat ts))) /\ (x <> -1)%Z)).
  { induction ts as [|t ts IH]; intros d Hd H; cbn [fold_left concat map].
    - split; [exact Hd|]. cbn. tauto.
    - assert (Ht : forall r, In r t -> id_label_ok L (d_gl r) (d_gt_label r) /\ id_label_ok L (d_pl r) (d_pd_label r)) by (intros; apply H; cbn; apply in_app_iff; auto).
      destruct (det_table_labels_spec L d_gl d_gt_label t) as [A1 A2]; [intros r Hr; apply (Ht r Hr)|].
      destruct (det_table_labels_spec L d_pl d_pd_label t) as [B1 B2]; [intros r Hr; apply (Ht r Hr)|].
      destruct (ldict_update_spec L _ d Hd A1) as [U1 U2].
      destruct (ldict_update_spec L _ _ U1 B1) as [V1 V2].
      destruct (IH _ V1) as [I1 I2]; [intros r Hr; apply H; cbn; apply in_app_iff; auto|].
      split; [exact I1|]. intros x. rewrite I2, V2, U2, A2, B2, !map_app, !in_app_iff. tauto. }
  intros H. destruct (G tables []) as [G1 G2]; auto.
  - split; [constructor|intros ? ? []].
  - split; [exact G1|]. intros x. rewrite G2. cbn. tauto.
Qed.

Lemma ldict_get_In L d k v : sound_ldict L d -> ldict_get d k = Some v <-> In (k, v) d.
Proof.
  intros [H _]. induction d as [|[k' v'] t IH]; cbn; [split; [discriminate|intros []]|].
  inversion H; subst. destruct (Z.eqb_spec k k') as [->|N].
  - split; [intros [= ->]; auto|]. intros [[= ->]|Hi]; [reflexivity|]. exfalso. apply H2. apply (in_map fst) in Hi. exact Hi.
  - rewrite IH by assumption. intuition congruence.
Qed.

(* ------------------------------------------------------------------ *)
(** * Adding *)

Lemma det_ok_gt_labels d : det_ok d = true -> gt_labels_ok d.
Proof.
  intros H a Ha E. unfold det_ok in H. rewrite !andb_true_iff in H. destruct H as [[H _] _].
  rewrite forallb_forall in H. specialize (H a Ha). unfold ann_ok in H. rewrite E in H. cbn in H.
  destruct (a_scores a); cbn in H; discriminate.
Qed.

Section Adding.
  Variable eps : Z.

  Definition dl_log (W : list (list drow)) (l : dloader) : dloader :=
    MkDL (l_labels l) (l_datums l) (l_gts l) (l_pds l) (W ++ l_writes l).
  Definition dl_fresh (l : dloader) : dloader := MkDL (l_labels l) (l_datums l) (l_gts l) (l_pds l) [].

  Lemma add_detection_shift L n g p W d :
    add_detection eps (MkDL L n g p W) d = option_map (dl_log W) (add_detection eps (MkDL L n g p []) d).
  Proof.
    unfold add_detection. cbn [l_labels l_datums l_gts l_pds l_writes].
    destruct (emit_datum eps d n g p L) as [[labels rows]|]; reflexivity.
  Qed.

  Lemma add_detections_shift ds : forall L n g p W,
    add_detections eps (MkDL L n g p W) ds = option_map (dl_log W) (add_detections eps (MkDL L n g p []) ds).
  Proof.
    induction ds as [|d t IH]; intros L n g p W; cbn [add_detections].
    - cbn. unfold dl_log. cbn. rewrite app_nil_r. reflexivity.
    - rewrite add_detection_shift. destruct (add_detection eps (MkDL L n g p []) d) as [[L1 n1 g1 p1 W1]|]; [|reflexivity].
      cbn [option_map]. unfold dl_log at 1. cbn [l_labels l_datums l_gts l_pds l_writes].
      rewrite (IH L1 n1 g1 p1 (W ++ W1)), (IH L1 n1 g1 p1 W1).
      destruct (add_detections eps (MkDL L1 n1 g1 p1 []) t) as [l|]; [|reflexivity]. cbn. unfold dl_log. cbn. rewrite app_assoc. reflexivity.
  Qed.

  Lemma add_detections_app a b : forall l,
    add_detections eps l (a ++ b) = match add_detections eps l a with Some l' => add_detections eps l' b | None => None end.
  Proof. induction a as [|d t IH]; intros l; [reflexivity|]. cbn. destruct (add_detection eps l d); [apply IH|reflexivity]. Qed.

  Lemma add_detections_nonempty ds : forall l l', Forall (fun w => w <> []) (l_writes l) ->
    add_detections eps l ds = Some l' -> Forall (fun w => w <> []) (l_writes l').
  Proof.
    induction ds as [|d t IH]; intros l l' H E; cbn in E; [inversion E; subst; exact H|].
    destruct (add_detection eps l d) as [l1|] eqn:E1; [|discriminate]. apply (IH l1 l'); [|exact E].
    unfold add_detection in E1. destruct (emit_datum _ _ _ _ _ _) as [[labels rows]|]; [|discriminate].
    inversion E1; subst. cbn. apply Forall_app. split; [exact H|]. destruct rows; [constructor|]. constructor; [discriminate|constructor].
  Qed.

  Lemma add_chain l0 ds l : add_detections eps (dl_fresh l0) ds = Some l ->
    add_detections eps l0 ds = Some (dl_log (l_writes l0) l).
  Proof. intros H. destruct l0 as [L n g p W]. unfold dl_fresh in H. cbn in H. rewrite add_detections_shift, H. reflexivity. Qed.

  Lemma dmb_adds_state bs calls : forall b l0 l, dmb_detailed b = mem_run bs (rops (l_writes l0)) ->
    dl_fresh (dmb_loader b) = dl_fresh l0 ->
    add_detections eps l0 (concat calls) = Some l ->
    exists b', dmb_adds eps bs b calls = Some b' /\ dl_fresh (dmb_loader b') = dl_fresh l /\
      dmb_detailed b' = mem_run bs (rops (l_writes l)) /\ dmb_ranked b' = dmb_ranked b.
  Proof.
    induction calls as [|ds t IH]; intros b l0 l Hd Hl E; cbn [concat dmb_adds] in *.
    - inversion E; subst. exists b. auto.
    - rewrite add_detections_app in E. destruct (add_detections eps l0 ds) as [l1|] eqn:E1; [|discriminate].
      assert (F : exists lf, add_detections eps (dl_fresh l0) ds = Some lf /\ l1 = dl_log (l_writes l0) lf).
      { destruct l0 as [L n g p W]. unfold dl_fresh. cbn. rewrite add_detections_shift in E1.
        destruct (add_detections eps (MkDL L n g p []) ds) as [lf|]; [|discriminate]. inversion E1. eauto. }
      destruct F as (lf & F & ->). unfold dmb_add, det_calls.
      change (MkDL (l_labels (dmb_loader b)) (l_datums (dmb_loader b)) (l_gts (dmb_loader b)) (l_pds (dmb_loader b)) []) with (dl_fresh (dmb_loader b)).
      rewrite Hl, F. destruct (IH (MkDMB lf (fold_left (mem_write_rows bs) (l_writes lf) (dmb_detailed b)) (dmb_ranked b))
        (dl_log (l_writes l0) lf) l) as (b' & H1 & H2 & H3 & H4).
      + unfold dl_log. cbn [dmb_detailed l_writes]. rewrite Hd. rewrite <- !mem_writes_run, fold_left_app. reflexivity.
      + cbn. destruct lf. reflexivity.
      + exact E.
      + exists b'. auto.
  Qed.

  Lemma dfb_adds_state bs rpf calls : forall b l0 l, dfb_detailed b = file_run bs rpf (rops (l_writes l0)) ->
    dl_fresh (dfb_loader b) = dl_fresh l0 ->
    add_detections eps l0 (concat calls) = Some l ->
    exists b', dfb_adds eps bs rpf b calls = Some b' /\ dl_fresh (dfb_loader b') = dl_fresh l /\
      dfb_detailed b' = file_run bs rpf (rops (l_writes l)) /\ dfb_ranked b' = dfb_ranked b.
  Proof.
    induction calls as [|ds t IH]; intros b l0 l Hd Hl E; cbn [concat dfb_adds] in *.
    - inversion E; subst. exists b. auto.
    - rewrite add_detections_app in E. destruct (add_detections eps l0 ds) as [l1|] eqn:E1; [|discriminate].
      assert (F : exists lf, add_detections eps (dl_fresh l0) ds = Some lf /\ l1 = dl_log (l_writes l0) lf).
      { destruct l0 as [L n g p W]. unfold dl_fresh. cbn. rewrite add_detections_shift in E1.
        destruct (add_detections eps (MkDL L n g p []) ds) as [lf|]; [|discriminate]. inversion E1. eauto. }
      destruct F as (lf & F & ->). unfold dfb_add, det_calls.
      change (MkDL (l_labels (dfb_loader b)) (l_datums (dfb_loader b)) (l_gts (dfb_loader b)) (l_pds (dfb_loader b)) []) with (dl_fresh (dfb_loader b)).
      rewrite Hl, F. destruct (IH (MkDFB lf (fold_left (file_write_rows bs rpf) (l_writes lf) (dfb_detailed b)) (dfb_ranked b))
        (dl_log (l_writes l0) lf) l) as (b' & H1 & H2 & H3 & H4).
      + unfold dl_log. cbn [dfb_detailed l_writes]. rewrite Hd. rewrite <- !file_writes_run, fold_left_app. reflexivity.
      + cbn. destruct lf. reflexivity.
      + exact E.
      + exists b'. auto.
  Qed.
End Adding.

(* ------------------------------------------------------------------ *)
(** * finalize *)

Lemma det_sort_perm t : Permutation t (table_sort_by det_sorting t).
Proof. apply isort_perm. Qed.

Lemma ranked_of_single unit t : ranked_of unit [t] (rank_table unit t).
Proof.
  unfold ranked_of. cbn. rewrite app_nil_r.
  assert (S := isort_stable (row_leb det_sorting) (row_leb_total det_sorting) (row_leb_trans det_sorting) (rank_table unit t)).
  assert (E : isort (row_leb det_sorting) (rank_table unit t) = rank_table unit t).
  { eapply stable_sort_sorted_id; [apply row_leb_total|exact S|apply rank_table_sorted]. }
  rewrite E in S. exact S.
Qed.

Section Final.
  Variables (eps unit : Z) (ds : list detection) (l : dloader).
  Hypothesis Hok : Forall (fun d => det_ok d = true) ds.
  Hypothesis Hl : add_detections eps dloader_init ds = Some l.
  Hypothesis Hrows : concat (l_writes l) <> [].

  Lemma Hloaded : loaded eps ds l.
  Proof.
    destruct (add_detections_loaded eps ds) as (l' & E & H); [|congruence].
    eapply Forall_impl; [|exact Hok]. apply det_ok_gt_labels.
  Qed.
  Lemma Hnonempty : Forall (fun w => w <> []) (l_writes l).
  Proof. apply (add_detections_nonempty eps ds dloader_init l); [constructor|exact Hl]. Qed.

  Lemma dm_finalize_done bs rb b : dmb_detailed b = mem_run bs (rops (l_writes l)) -> dmb_ranked b = mem_init ->
    exists b' e, dmb_finalize unit bs rb b = (b', Done e)
      /\ det_stored eps ds (l_labels l) (de_detailed e)
      /\ ranked_of unit (de_detailed e) (concat (de_ranked e))
      /\ de_labels e = det_extract_labels (de_detailed e)
      /\ de_detailed e = [table_sort_by det_sorting (concat (l_writes l))].
  Proof.
    intros Hd Hr. unfold dmb_finalize. rewrite Hd, mem_rows_table, Hr.
    destruct (Nat.eqb_spec (length (concat (l_writes l))) 0) as [E|_].
    { destruct (concat (l_writes l)); [congruence|discriminate]. }
    rewrite mem_pipe. unfold rank_ops, sort_ops. cbn [length Nat.eqb map app].
    eexists. eexists. split; [reflexivity|]. cbn [de_detailed de_ranked de_labels].
    split; [|split; [|split; reflexivity]].
    - exists l. split; [exact Hl|]. split; [reflexivity|]. split; [|apply aligned_single].
      cbn. rewrite app_nil_r. symmetry. apply det_sort_perm.
    - cbn [concat]. rewrite app_nil_r.
      set (ops := [WriteTable (rank_table unit (table_sort_by det_sorting (concat (l_writes l)))); Flush]).
      assert (E : mem_read (mem_flush (fold_left (mem_step bs) ops mem_init)) = rank_table unit (table_sort_by det_sorting (concat (l_writes l)))).
      { unfold mem_read. unfold mem_flush at 1. rewrite mem_buffer_flush.
        change (m_table (mem_flush (fold_left (mem_step bs) ops mem_init))) with (mem_read (mem_run bs ops)).
        rewrite mem_order; [|apply mem_safe_guarded; reflexivity]. unfold written. cbn. rewrite !app_nil_r. reflexivity. }
      rewrite E. apply ranked_of_single.
  Qed.

  Lemma df_finalize_done bs rpf rb b : batching_ok rb -> dfb_detailed b = file_run bs rpf (rops (l_writes l)) -> dfb_ranked b = file_init ->
    exists b' labels gs, dfb_finalize unit bs rpf rb b = (b', Done labels)
      /\ concat gs = l_writes l
      /\ (forall listing, Permutation listing (f_dir (dfb_detailed b')) ->
            file_tables listing = map (table_sort_by det_sorting) (map (@concat drow) gs))
      /\ (forall listing, Permutation listing (f_dir (dfb_ranked b')) -> file_tables listing = de_ranked (dfe b' labels))
      /\ det_stored eps ds (l_labels l) (de_detailed (dfe b' labels))
      /\ ranked_of unit (de_detailed (dfe b' labels)) (concat (de_ranked (dfe b' labels)))
      /\ labels = det_extract_labels (de_detailed (dfe b' labels)).
  Proof.
    intros Hrb Hd Hr. unfold dfb_finalize. rewrite Hd, (file_rows_count' _ Hnonempty), Hr.
    destruct (Nat.eqb_spec (length (concat (l_writes l))) 0) as [E|_].
    { destruct (concat (l_writes l)); [congruence|discriminate]. }
    destruct (file_pipe (l_writes l) Hnonempty (table_sort_by det_sorting) bs rpf) as (gs & Hgs & Hlist).
    set (w2 := file_sort_by (table_sort_by det_sorting) (file_flush (file_run bs rpf (rops (l_writes l))))) in *.
    destruct (c06_override det_sorting bs rpf (rank_table unit) rb (file_tables (f_dir w2)) Hrb) as (ops & Hops & Hsort).
    { intros t _. apply rank_table_sorted. }
    unfold rank_ops. rewrite Hops.
    assert (Hlf : forall listing, Permutation listing (f_dir (file_flush (fold_left (file_step bs rpf) ops file_init))) -> lists_files bs rpf ops listing) by (intros; assumption).
    eexists. eexists. exists gs. split; [reflexivity|]. split; [exact Hgs|].
    unfold dfe. cbn [dfb_detailed dfb_ranked de_detailed de_ranked de_labels].
    split; [exact Hlist|]. split; [|split; [|split; [|reflexivity]]].
    - intros listing Hp. eapply c05_listing; [apply Hlf; exact Hp|apply Hlf; reflexivity].
    - exists l. split; [exact Hl|]. split; [reflexivity|]. rewrite (Hlist (f_dir w2) (Permutation_refl _)). split.
      + rewrite <- (concat_sorted _ (map (@concat drow) gs) det_sort_perm), concat_map_concat, Hgs. reflexivity.
      + apply aligned_sorted; [apply det_sort_perm|]. apply aligned_groups. rewrite Hgs. apply (ld_aligned _ _ _ Hloaded).
    - rewrite (file_order bs rpf ops) by (apply Hlf; reflexivity). exact Hsort.
  Qed.
End Final.

(* ------------------------------------------------------------------ *)
(** * Labels of a stored data set *)

Section StoredLabels.
  Variables (eps : Z) (ds : list detection) (L : list String.string) (tables : list (list drow)).
  Hypothesis Hok : Forall (fun d => det_ok d = true) ds.
  Hypothesis Hst : det_stored eps ds L tables.

  Lemma stored_loaded' : exists l, loaded eps ds l /\ l_labels l = L /\ Permutation (concat tables) (concat (l_writes l)).
  Proof.
    destruct Hst as (l & E & EL & HP & _). exists l. split; [|auto]. apply (Hloaded eps ds l Hok E).
  Qed.

  Lemma stored_rows' r : In r (concat tables) <-> described eps ds L r.
  Proof.
    destruct stored_loaded' as (l & H & <- & HP). rewrite <- (loaded_rows eps ds l r H).
    split; intros Hr; [apply (Permutation_in r HP Hr)|apply (Permutation_in r (Permutation_sym HP) Hr)].
  Qed.

  Lemma stored_ids_ok r : In r (concat tables) -> id_label_ok L (d_gl r) (d_gt_label r) /\ id_label_ok L (d_pl r) (d_pd_label r).
  Proof.
    intros Hr. apply stored_rows' in Hr. unfold id_label_ok.
    assert (X : forall v i, index_of v L = Some i -> (0 <= Z.of_nat i)%Z /\ exists l, Some v = Some l /\ nth_error L (Z.to_nat (Z.of_nat i)) = Some l).
    { intros v i H. apply index_of_nth in H. split; [lia|]. exists v. rewrite Nat2Z.id. auto. }
    destruct Hr; cbn; split; auto.
  Qed.
End StoredLabels.

Lemma det_labels_readback eps unit ds L tables : det_input unit ds -> det_stored eps ds L tables ->
  forall i v, ldict_get (det_extract_labels tables) (Z.of_nat i) = Some v <-> exists s, v = Some s /\ nth_error L i = Some s.
Proof.
  intros Hin Hst i v.
  assert (Hok : Forall (fun d => det_ok d = true) ds) by (eapply Forall_impl; [|exact Hin]; intros d (H & _); exact H).
  destruct (det_extract_gen L tables) as [Hs Hk]; [apply (stored_ids_ok eps ds L tables Hok Hst)|].
  rewrite (ldict_get_In L _ _ _ Hs). split.
  - intros H. apply Hs in H. rewrite Nat2Z.id in H. destruct H as (_ & s & -> & H). eauto.
  - intros (s & -> & H).
    assert (HL : In s L) by (apply (nth_error_In _ _ H)).
    assert (HN : NoDup L) by (apply (stored_NoDup eps unit ds L tables Hin Hst)).
    assert (Hi : index_of s L = Some i).
    { destruct (index_of s L) as [j|] eqn:E; [|apply index_of_None in E; contradiction].
      apply index_of_nth in E. f_equal. rewrite NoDup_nth_error in HN. apply HN; [apply nth_error_Some; congruence|congruence]. }
    assert (Hx : In (Z.of_nat i) (map fst (det_extract_labels tables))).
    { apply Hk. split; [|lia]. apply (stored_labels eps unit ds L tables Hin Hst) in HL. unfold det_labels in HL.
      apply in_concat in HL. destruct HL as (x & Hx & Hs'). apply in_map_iff in Hx. destruct Hx as (d & <- & Hd).
      apply in_concat in Hs'. destruct Hs' as (y & Hy & Hs'). apply in_map_iff in Hy. destruct Hy as (a & <- & Ha).
      apply In_nth_error in Hd. destruct Hd as (n & Hd). apply in_app_iff in Ha. destruct Ha as [Ha|Ha].
      - apply In_nth_error in Ha. destruct Ha as (g & Hg).
        destruct (single_gt_label unit ds Hin d a (nth_error_In _ _ Hd) (nth_error_In _ _ Hg)) as (gl & El).
        assert (gl = s) by (rewrite El in Hs'; destruct Hs' as [->|[]]; reflexivity). subst gl.
        destruct (gt_recorded eps unit ds L tables Hin Hst n d g a s Hd Hg El) as (r & gi & Hr & Hgi & _ & _ & E).
        left. apply in_map_iff. exists r. split; [congruence|exact Hr].
      - apply In_nth_error in Ha. destruct Ha as (p & Hp). apply In_nth_error in Hs'. destruct Hs' as (k & Hk').
        assert (exists sc, nth_error (a_scores a) k = Some sc) as (sc & Hsc).
        { unfold det_input in Hin. rewrite Forall_forall in Hin. destruct (Hin d (nth_error_In _ _ Hd)) as (Hdo & _ & _).
          unfold det_ok in Hdo. rewrite !andb_true_iff in Hdo. destruct Hdo as [_ Ho]. rewrite forallb_forall in Ho.
          specialize (Ho a (nth_error_In _ _ Hp)). apply Nat.eqb_eq in Ho.
          assert (k < length (a_labels a)) by (apply nth_error_Some; congruence).
          destruct (nth_error (a_scores a) k) eqn:E; [eauto|]. apply nth_error_None in E. lia. }
        destruct (pd_recorded eps unit ds L tables Hin Hst n d p a k s sc Hd Hp Hk' Hsc) as (r & pi & Hr & Hpi & _ & _ & E & _).
        right. apply in_map_iff. exists r. split; [congruence|exact Hr]. }
    apply in_map_iff in Hx. destruct Hx as ([k v] & E & Hx). cbn in E. subst k.
    assert (Hv := Hx). apply Hs in Hv. destruct Hv as (_ & s' & -> & Hs'). rewrite Nat2Z.id in Hs'. congruence.
Qed.
