(* The arrays of compute_confusion_matrix hold the values of the function-based model. *)
From Verif Require Import Prelude Counting CacheModel CacheSpec CacheProofs ClsModel ClsLabelProofs FlowModel
  DetModel DetSpec DetRankProofs DetCountProofs DetStoreProofs DetMain DetFlowModel DetFlowProofs DetOrderProofs DetReportModel DetApProofs DetApEnd DetScoreModel DetEnd DetMore
  DetFilterModel DetFilterSpec DetFilterProofs DetFilterEntries DetFilterPruned DetFilterMain DetFilterMore DetCellModel
  DetArrayModel DetArraySpec DetArrayProofs DetArrayMain DetArrayFilter ClsArrayModel ClsArrayProofs ClsArrayMain DetConfArrayModel
  DetLoadSpec DetLoadProofs.
From Coq Require Import Permutation Lia.
From Coq Require String.
Local Open Scope nat_scope.
Local Open Scope list_scope.

Lemma matrix_of_keys {K} n (f : K -> Z * Z) (ks : list K) :
  (forall k, In k ks -> inside n (fst (f k)) /\ inside n (snd (f k))) ->
  afold (fun M gp => matrix_set M (fst gp) (snd gp) (countb (fun k => (fst (f k) =? fst gp)%Z && (snd (f k) =? snd gp)%Z) ks))
    (isort zz_leb (nodup zz_dec (map f ks))) (repeat (repeat 0 n) n)
  = AOk (square n (fun g p => countb (fun k => (fst (f k) =? g)%Z && (snd (f k) =? p)%Z) ks)).
Proof.
  intros H. replace (repeat (repeat 0 n) n) with (square n (fun _ _ => 0)) by (unfold square; rewrite <- !tab_repeat; reflexivity).
  rewrite (matrix_fold n (fun gp => countb (fun k => (fst (f k) =? fst gp)%Z && (snd (f k) =? snd gp)%Z) ks)).
  2:{ intros k Hk. apply isort_In' in Hk. apply nodup_In in Hk. apply in_map_iff in Hk. destruct Hk as (x & <- & Hx). apply H, Hx. }
  f_equal. unfold square. apply tab_ext. intros g _. apply tab_ext. intros p _. cbn [fst snd].
  match goal with |- (if ?b then _ else _) = _ => destruct b eqn:E end; [reflexivity|].
  symmetry. apply countb_false. intros k Hk. apply not_true_is_false. intros Ht. apply andb_true_iff in Ht. destruct Ht as [E1 E2].
  apply Z.eqb_eq in E1, E2. assert (X : zzmem (g, p) (isort zz_leb (nodup zz_dec (map f ks))) = true).
  { apply zzmem_In, isort_In', nodup_In, in_map_iff. exists k. split; [|exact Hk]. destruct (f k). cbn in *. congruence. }
  congruence.
Qed.
Lemma vector_of_keys {K} n (f : K -> Z) (ks : list K) :
  (forall k, In k ks -> inside n (f k)) ->
  afold (fun U g => np_set U g (countb (fun k => (f k =? g)%Z) ks)) (isort Z.leb (nodup Z.eq_dec (map f ks))) (repeat 0 n)
  = AOk (tab n (fun g => countb (fun k => (f k =? g)%Z) ks)).
Proof.
  intros H. rewrite (tab_repeat n 0). rewrite (vector_fold n (fun g => countb (fun k => (f k =? g)%Z) ks)).
  2:{ intros k Hk. apply isort_In' in Hk. apply nodup_In in Hk. apply in_map_iff in Hk. destruct Hk as (x & <- & Hx). apply H, Hx. }
  f_equal. apply tab_ext. intros g _. match goal with |- (if ?b then _ else _) = _ => destruct b eqn:E end; [reflexivity|].
  symmetry. apply countb_false. intros k Hk. apply not_true_is_false. intros Ht. apply Z.eqb_eq in Ht.
  assert (X : mem g (isort Z.leb (nodup Z.eq_dec (map f ks))) = true) by (apply mem_In, isort_In', nodup_In, in_map_iff; exists k; split; assumption).
  congruence.
Qed.

(* the label numbers that the arrays are indexed with *)
Definition numbers_fit (eps : Z) (n : nat) (rows : list drow) : Prop :=
  forall r, In r rows ->
    ((0 <= d_gt r)%Z -> inside n (d_gl r)) /\ ((0 <= d_pd r)%Z -> inside n (d_pl r)) /\
    ((eps < d_iou r)%Z -> inside n (d_gl r) /\ inside n (d_pl r)).
Definition plane_of (n : nat) (M : dconf) : dplane := (square n (dm M), tab n (dm_gt M), tab n (dm_pd M)).

Lemma np_plane_ok eps n ts rows : numbers_fit eps n rows ->
  np_plane eps n ts rows = AOk (plane_of n (det_confusion eps (fst ts) (snd ts) rows)).
Proof.
  intros H. unfold np_plane, det_confusion, plane_of. cbn [dm dm_gt dm_pd].
  rewrite (matrix_of_keys n (fun k : Z * Z * Z * Z * Z => (snd (fst k), snd k))).
  2:{ intros k Hk. apply dkeys_In_row in Hk. destruct Hk as (r & Hr & HP & <-). cbn [row_ids fst snd]. apply (proj2 (proj2 (H r Hr))).
      unfold dp_tp, dp_misclf, thresholded, m_iou in HP. apply Z.ltb_lt. destruct (eps <? d_iou r)%Z; [reflexivity|]. rewrite ?andb_false_l, ?andb_false_r in HP. discriminate. }
  cbn [abind fst snd]. rewrite (vector_of_keys n (fun k : Z * Z * Z => snd k)).
  2:{ intros k Hk. apply dkeys_In_row in Hk. destruct Hk as (r & Hr & HP & <-). cbn [gt_key snd]. apply (proj1 (H r Hr)). unfold dp_unmatched_gt, gt_exists in HP. apply andb_true_iff in HP. apply Z.leb_le, HP. }
  cbn [abind]. rewrite (vector_of_keys n (fun k : Z * Z * Z => snd k)).
  2:{ intros k Hk. apply dkeys_In_row in Hk. destruct Hk as (r & Hr & HP & <-). cbn [pd_key snd]. apply (proj1 (proj2 (H r Hr))). unfold dp_unmatched_pd, pd_exists in HP. apply andb_true_iff in HP. destruct HP as [HP _]. apply andb_true_iff in HP. apply Z.leb_le, HP. }
  reflexivity.
Qed.
Lemma plane_sum_of n A B : plane_sum (plane_of n A) (plane_of n B) = plane_of n (dconf_add A B).
Proof.
  unfold plane_sum, plane_of, square, dconf_add. cbn [fst snd dm dm_gt dm_pd]. rewrite !map2_tab. f_equal. f_equal. apply tab_ext. intros i _. apply map2_tab.
Qed.
Lemma det_confusion_nil eps t s A n : plane_of n (dconf_add A (det_confusion eps t s [])) = plane_of n A.
Proof.
  unfold plane_of, dconf_add, det_confusion. cbn [dm dm_gt dm_pd]. unfold dkeys. cbn [filter map nodup countb]. f_equal; [f_equal|]; unfold square; repeat (apply tab_ext; intros); cbn; lia.
Qed.

Lemma planes_fold eps n tss datums tables : forall F : list dconf, length F = length tss -> numbers_fit eps n (concat tables) ->
  afold (fun acc t => match filter datums t with
                      | [] => AOk acc
                      | rows => abind (amap (fun ts => np_plane eps n ts rows) tss) (fun b => AOk (map2 plane_sum acc b)) end) tables (map (plane_of n) F)
  = AOk (map (plane_of n) (map2 (fun ts M => fold_left (fun acc tb => dconf_add acc (det_confusion eps (fst ts) (snd ts) (filter datums tb))) tables M) tss F)).
Proof.
  induction tables as [|t tables IH]; intros F HF H.
  - cbn [afold fold_left]. f_equal. f_equal. clear H. revert F HF. induction tss as [|m ms IH]; intros [|M F] HF; cbn in *; try discriminate; [reflexivity|].
    rewrite <- IH by lia. reflexivity.
  - assert (E : match filter datums t with
              | [] => AOk (map (plane_of n) F)
              | rows => abind (amap (fun ts => np_plane eps n ts rows) tss) (fun b => AOk (map2 plane_sum (map (plane_of n) F) b)) end
            = AOk (map (plane_of n) (map2 (fun M ts => dconf_add M (det_confusion eps (fst ts) (snd ts) (filter datums t))) F tss))).
    { assert (G : abind (amap (fun ts => np_plane eps n ts (filter datums t)) tss) (fun b => AOk (map2 plane_sum (map (plane_of n) F) b))
          = AOk (map (plane_of n) (map2 (fun M ts => dconf_add M (det_confusion eps (fst ts) (snd ts) (filter datums t))) F tss))).
      { rewrite (amap_ok _ (fun ts => plane_of n (det_confusion eps (fst ts) (snd ts) (filter datums t)))).
        2:{ intros ts _. apply np_plane_ok. intros r Hr. apply filter_In in Hr. apply H. cbn [List.concat]. apply in_or_app. tauto. }
        cbn [abind]. f_equal. clear IH H. revert F HF. induction tss as [|m ms IH]; intros [|M F] HF; cbn in *; try discriminate; [reflexivity|].
        rewrite IH by lia. rewrite plane_sum_of. reflexivity. }
      destruct (filter datums t) as [|r0 rs]; [|exact G]. f_equal. clear G IH H. revert F HF.
      induction tss as [|m ms IH]; intros [|M F] HF; cbn [length map map2] in *; try discriminate; [reflexivity|]. rewrite <- IH by lia. rewrite det_confusion_nil. reflexivity. }
    cbn [afold]. rewrite E. cbn [abind]. rewrite IH.
    + f_equal. f_equal. clear E IH H. revert F HF. induction tss as [|m ms IH]; intros [|M F] HF; cbn in *; try discriminate; [reflexivity|].
      rewrite IH by lia. reflexivity.
    + rewrite map2_length. lia.
    + intros r Hr. apply H. cbn [List.concat]. apply in_or_app. tauto.
Qed.
Lemma np_planes_ok eps ious scores e datums : numbers_fit eps (length (de_labels e)) (concat (de_detailed e)) ->
  np_planes eps ious scores e datums = AOk (map (fun ts => plane_of (length (de_labels e)) (rep_matrix eps e datums (fst ts) (snd ts))) (list_prod ious scores)).
Proof.
  intros H. unfold np_planes.
  replace (map (fun _ : Z * Z => plane_zero (length (de_labels e))) (list_prod ious scores))
    with (map (plane_of (length (de_labels e))) (map (fun _ => dconf_zero) (list_prod ious scores))).
  2:{ rewrite map_map. apply map_ext. intros _. unfold plane_of, plane_zero, square. cbn [dm dm_gt dm_pd dconf_zero]. rewrite <- !tab_repeat. reflexivity. }
  rewrite planes_fold; [|apply map_length|exact H]. f_equal. rewrite (map2_const _ dconf_zero), map_map. reflexivity.
Qed.
Definition keys_fit (e : deval) : Prop := forall kl, In kl (de_labels e) -> inside (length (de_labels e)) (fst kl).
Lemma np_unpack_plane_ok e M : keys_fit e ->
  np_unpack_plane (de_labels e) (plane_of (length (de_labels e)) M) = AOk (det_counts_of (de_labels e) M).
Proof.
  intros Hk. unfold np_unpack_plane, plane_of. cbn [fst snd].
  rewrite (amap_ok _ (fun kl => (snd kl, (map (fun pl => (snd pl, dm M (fst kl) (fst pl))) (de_labels e), dm_gt M (fst kl), dm_pd M (fst kl))))).
  2:{ intros kl Hkl. rewrite np_get_tab by (apply Hk; exact Hkl). cbn [abind]. rewrite np_get_tab by (apply Hk; exact Hkl). cbn [abind].
      rewrite (amap_ok _ (fun pl => (snd pl, dm M (fst kl) (fst pl)))); [reflexivity|].
      intros pl Hpl. rewrite matrix_get_ok by (apply Hk; assumption). reflexivity. }
  cbn [abind]. unfold det_counts_of. rewrite !map_map. reflexivity.
Qed.
Lemma prod_flat {V} (f : Z -> Z -> V) ious scores :
  flat_map (fun t => map (fun s => (t, s, f t s)) scores) ious = map (fun ts => (ts, f (fst ts) (snd ts))) (list_prod ious scores).
Proof. induction ious as [|t ious IH]; [reflexivity|]. cbn [flat_map list_prod]. rewrite map_app, map_map, IH. reflexivity. Qed.
Theorem np_det_confusion_ok eps ious scores e datums : ious <> [] -> scores <> [] -> keys_fit e ->
  numbers_fit eps (length (de_labels e)) (concat (de_detailed e)) ->
  exists r, np_det_confusion eps ious scores e datums = AOk r /\ det_confusion_metrics eps ious scores datums e = Some r.
Proof.
  intros Hi Hs Hk H. eexists.
  assert (E1 : np_det_confusion eps ious scores e datums = abind (np_planes eps ious scores e datums) (fun ps =>
      amap (fun tp => abind (np_unpack_plane (de_labels e) (snd tp)) (fun d => AOk (fst tp, d))) (combine (list_prod ious scores) ps))).
  { unfold np_det_confusion. destruct ious; [congruence|]. destruct scores; [congruence|]. reflexivity. }
  assert (E2 : det_confusion_metrics eps ious scores datums e
     = Some (flat_map (fun t => map (fun s => (t, s, det_counts_of (de_labels e) (rep_matrix eps e datums t s))) scores) ious)).
  { unfold det_confusion_metrics. destruct ious; [congruence|]. destruct scores; [congruence|]. reflexivity. }
  rewrite E1, E2. split; [|reflexivity]. rewrite (np_planes_ok eps ious scores e datums H). cbn [abind].
  rewrite (prod_flat (fun t s => det_counts_of (de_labels e) (rep_matrix eps e datums t s))).
  replace (combine (list_prod ious scores) (map (fun ts => plane_of (length (de_labels e)) (rep_matrix eps e datums (fst ts) (snd ts))) (list_prod ious scores)))
    with (map (fun ts => (ts, plane_of (length (de_labels e)) (rep_matrix eps e datums (fst ts) (snd ts)))) (list_prod ious scores)).
  2:{ clear. induction (list_prod ious scores) as [|x l IH]; cbn; [reflexivity|]. rewrite IH. reflexivity. }
  clear E1 E2 Hi Hs. induction (list_prod ious scores) as [|x l IH]; [reflexivity|]. cbn [map amap fst snd].
  rewrite np_unpack_plane_ok by exact Hk. cbn [abind]. rewrite IH. reflexivity.
Qed.

(* success means that the keys of the label map are inside *)
Theorem confusion_needs eps ious scores e datums r : (forall kl, In kl (de_labels e) -> (0 <= fst kl)%Z) ->
  np_det_confusion eps ious scores e datums = AOk r -> keys_fit e.
Proof.
  intros Hpos H. destruct ious as [|t0 ious]; [discriminate|]. destruct scores as [|s0 scores]; [discriminate|].
  cbn [np_det_confusion] in H. remember (t0 :: ious) as is. remember (s0 :: scores) as ss. apply abind_inv in H. destruct H as (ps & HP & H).
  set (good := fun p : dplane => length (snd (fst p)) = length (de_labels e)).
  assert (HQ : length ps = length (list_prod is ss) /\ Forall good ps).
  { unfold np_planes in HP. eapply (afold_inv (fun qs => length qs = length (list_prod is ss) /\ Forall good qs)); [|split|exact HP].
    - intros s t s' [Hl Hs] Hstep. destruct (filter datums t) as [|r0 rs]; [injection Hstep as <-; auto|].
      apply abind_inv in Hstep. destruct Hstep as (b & Hb & E). injection E as <-.
      assert (HB : length b = length (list_prod is ss) /\ Forall good b).
      { apply amap_inv in Hb. split; [symmetry; eapply Forall2_len; exact Hb|].
        clear - Hb. induction Hb as [|m q l l' Hq Hb IH]; constructor; [|exact IH].
        unfold np_plane in Hq. apply abind_inv in Hq. destruct Hq as (M & _ & Hq). apply abind_inv in Hq. destruct Hq as (U & HU & Hq).
        apply abind_inv in Hq. destruct Hq as (V & _ & Hq). injection Hq as <-. unfold good. cbn [fst snd].
        eapply (afold_inv (fun U => length U = length (de_labels e))); [|apply repeat_length|exact HU]. intros s a s' Hs E. apply np_set_length in E. congruence. }
      destruct HB as [HBl HB]. split; [rewrite map2_length; lia|].
      clear - Hs HB. revert b HB. induction Hs as [|q s Hq Hs IH]; intros [|q' b] HB; cbn [map2]; constructor.
      + inversion HB; subst. unfold good, plane_sum in *. cbn [fst snd]. rewrite map2_length. lia.
      + inversion HB; subst. apply IH. assumption.
    - apply map_length.
    - apply Forall_forall. intros q Hq. apply in_map_iff in Hq. destruct Hq as (_ & <- & _). unfold good, plane_zero. cbn [fst snd]. apply repeat_length. }
  destruct HQ as [HQl HQ]. intros kl Hkl. subst is ss. cbn [list_prod map app combine length] in *. destruct ps as [|p ps]; [discriminate|].
  destruct (amap_inv_In _ _ _ (t0, s0, p) H) as (x & Hx); [left; reflexivity|]. cbn [snd fst] in Hx. apply abind_inv in Hx. destruct Hx as (d & Hx & _).
  unfold np_unpack_plane in Hx. apply abind_inv in Hx. destruct Hx as (out & Hx & _). destruct (amap_inv_In _ _ _ kl Hx Hkl) as (y & Hy).
  apply abind_inv in Hy. destruct Hy as (u & Hu & _). apply np_get_inv in Hu; [|apply Hpos; exact Hkl].
  inversion HQ as [|? ? E _]; subst. unfold good in E. rewrite E in Hu. exact Hu.
Qed.

Section Shown.
  Variables (eps unit : Z) (ds : list detection) (L : list String.string) (w : dview) (e : deval).
  Hypothesis He : (0 <= eps)%Z.
  Hypothesis Hin : det_input unit ds.
  Hypothesis Hsh : shows eps unit ds L w e.
  Let Hg : good eps unit ds L w e := shows_good eps unit ds L w e Hin Hsh.
  Let Hw : world eps ds L w (concat (de_detailed e)) := g_world _ _ _ _ _ _ Hg.

  Lemma rows_fit n : (forall x, x <> (-1)%Z -> (In x (map d_gl (concat (de_detailed e))) \/ In x (map d_pl (concat (de_detailed e)))) -> inside n x) ->
    numbers_fit eps n (concat (de_detailed e)).
  Proof.
    intros H r Hr.
    assert (G : forall i g, carries_gt ds L i g r -> inside n (d_gl r)).
    { intros i g (d & ga & v & gi & _ & _ & _ & _ & _ & _ & _ & _ & _ & E). apply H; [rewrite E; lia|left; apply in_map, Hr]. }
    assert (P : forall i p v s, carries_pd ds L i p v s r -> inside n (d_pl r)).
    { intros i p v s (d & pa & m & pi & _ & _ & _ & _ & _ & _ & _ & _ & _ & _ & E & _). apply H; [rewrite E; lia|right; apply in_map, Hr]. }
    destruct (w_rows _ _ _ _ _ Hw r Hr) as [(i & d & g & p & v & s & _ & Cg & Cp & _)|[(i & d & g & _ & Cg & Lp & Ei & _)|(i & d & p & v & s & _ & Cp & Lg & Ei & _)]].
    - split; [intros _; apply (G i g Cg)|]. split; [intros _; apply (P i p v s Cp)|]. intros _. split; [apply (G i g Cg)|apply (P i p v s Cp)].
    - split; [intros _; apply (G i g Cg)|]. split; [|rewrite Ei; lia]. intros X. destruct Lp as (Lp & _). lia.
    - split; [intros X; destruct Lg as (Lg & _); lia|]. split; [intros _; apply (P i p v s Cp)|rewrite Ei; lia].
  Qed.
  Theorem shown_confusion ious scores datums : ious <> [] -> scores <> [] ->
    exists r, np_det_confusion eps ious scores e datums = AOk r /\ det_confusion_metrics eps ious scores datums e = Some r.
  Proof.
    intros Hi Hs. apply np_det_confusion_ok; auto.
    - exact (shown_keys eps unit ds L w e Hin Hsh).
    - apply rows_fit. intros x Hx H.
      assert (K : In x (map fst (det_extract_labels (de_detailed e)))) by (apply (proj2 (det_extract_gen L (de_detailed e) (row_ids eps unit ds L w e Hin Hsh))); auto).
      apply (extract_keys eps unit ds L w e Hin Hsh) in K. destruct K as (v & vi & -> & Hv & _). apply (label_fits eps unit ds L w e Hin Hsh v vi Hv).
  Qed.
  Local Notation D := (det_extract_labels (de_detailed e)).
  Local Notation loaded := (MkDE (de_detailed e) (de_ranked e) D).
  Theorem loaded_confusion ious scores datums k : ious <> [] -> scores <> [] -> lowest_left e ds w k ->
    exists r, np_det_confusion eps ious scores loaded datums = AOk r /\ det_confusion_metrics eps ious scores datums loaded = Some r.
  Proof.
    intros Hi Hs Hk. assert (Hlow := lowest_fits eps unit ds L w e Hin Hsh k Hk).
    assert (Hkey : forall x, In x (map fst D) -> inside (length D) x).
    { intros x Hx. split; [|apply Hlow, Hx]. apply (extract_keys eps unit ds L w e Hin Hsh) in Hx. destruct Hx as (v & vi & -> & _). lia. }
    apply np_det_confusion_ok; auto.
    - intros kl Hkl. apply Hkey, in_map, Hkl.
    - cbn [de_detailed de_labels]. apply rows_fit. intros x Hx H. apply Hkey. apply (proj2 (det_extract_gen L (de_detailed e) (row_ids eps unit ds L w e Hin Hsh))); auto.
  Qed.
  Theorem loaded_confusion_needs ious scores datums r : np_det_confusion eps ious scores loaded datums = AOk r -> exists k, lowest_left e ds w k.
  Proof.
    intros H. exists (length D). apply (fits_lowest eps unit ds L w e Hin Hsh). intros x Hx. apply in_map_iff in Hx. destruct Hx as (kl & <- & Hkl).
    assert (X := confusion_needs eps ious scores loaded datums r). cbn [de_labels] in X. unfold keys_fit in X. cbn [de_labels] in X.
    refine (proj2 (X _ H kl Hkl)). intros kl' Hkl'. assert (Y : In (fst kl') (map fst D)) by (apply in_map, Hkl').
    apply (extract_keys eps unit ds L w e Hin Hsh) in Y. destruct Y as (v & vi & -> & _). lia.
  Qed.
End Shown.

Section File.
  Variables (eps unit : Z) (ds : list detection) (L : list String.string) (w : dview) (e : deval).
  Hypothesis He : (0 <= eps)%Z.
  Hypothesis Hin : det_input unit ds.
  Hypothesis Hsh : shows eps unit ds L w e.
  Variables (bs rpf : nat) (rb : list drow -> list (list drow)) (dat : drow -> bool) (gts pds : option (drow -> bool)).
  Variables (sel : detection -> bool) (sg : detection -> nat -> bool) (sp : detection -> nat -> String.string -> bool).
  Variables (b : dfb) (labels : ldict) (l1 l2 : dir drow).
  Hypothesis Hrb : batching_ok rb.
  Hypothesis Hsel : det_selects ds dat sel.
  Hypothesis Hsg : gt_filter ds L gts sg.
  Hypothesis Hsp : pd_filter ds L pds sp.
  Hypothesis Hb : det_filter_build unit bs rpf rb e dat gts pds = (b, Done labels).
  Hypothesis H1 : Permutation l1 (f_dir (dfb_detailed b)).
  Hypothesis H2 : Permutation l2 (f_dir (dfb_ranked b)).
  Local Notation u := (restrict w sel sg sp).
  Theorem file_confusion ious scores datums : ious <> [] -> scores <> [] ->
    ((exists r, np_det_confusion eps ious scores (det_load l1 l2 None) datums = AOk r) <-> (exists k, lowest_left e ds u k)).
  Proof.
    intros Hi Hs. assert (S := full_shows eps unit ds L w e Hsh bs rpf rb dat gts pds sel sg sp b labels l1 l2 Hrb Hsel Hsg Hsp Hb H1 H2).
    assert (N := full_numbers unit e bs rpf rb dat gts pds b labels l1 l2 Hrb Hb H1 H2). split.
    - intros (r & H). destruct (loaded_confusion_needs eps unit ds L u _ Hin S ious scores datums r H) as (k & Hk). exists k. intros v vi Hv. apply Hk, N, Hv.
    - intros (k & Hk). destruct (loaded_confusion eps unit ds L u _ He Hin S ious scores datums k Hi Hs) as (r & Hr & _); [intros v vi Hv; apply Hk, N, Hv|].
      exists r. exact Hr.
  Qed.
  Theorem file_metrics order ious scores datums sel' : (0 <= unit)%Z -> few_det_labels ds -> det_selects ds datums sel' -> descending order -> ious <> [] -> scores <> [] ->
    ((exists m, DetUnpackModel.np_metrics eps exact_index order ious scores (det_load l1 l2 None) datums = AOk m) <-> (exists k, lowest_left e ds u k)).
  Proof.
    intros Hu Hfew Hsel' Ho Hi Hs. split.
    - intros (m & H). eapply file_needs; eauto.
    - intros (k & Hk). destruct (file_works eps unit ds L w e Hin Hsh bs rpf rb dat gts pds sel sg sp b labels l1 l2 Hrb Hsel Hsg Hsp Hb H1 H2 order ious scores datums sel' k Hu Hfew Hsel' Ho Hi Hs Hk) as (m & Hm & _).
      exists m. exact Hm.
  Qed.
End File.
