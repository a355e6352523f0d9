(* Filters on metadata fields, from the data to the filtered evaluator. *)
From Verif Require Import Prelude Counting CacheModel CacheSpec CacheProofs SortProofs ClsModel FlowModel FlowProofs DetModel DetExModel DetSpec DetRankProofs DetMain DetStoreProofs DetFlowModel
  DetReportModel DetOrderProofs DetEnd DetFilterModel DetFilterSpec DetFilterProofs DetFilterMain DetMetaModel DetMetaSpec DetMetaProofs.
From Coq Require Import String Lia.
Local Open Scope nat_scope.
Local Open Scope list_scope.
Local Notation length := List.length (only parsing).
Local Notation concat := List.concat (only parsing).

(* the evaluator that a filter call returns, with either back end *)
Definition filtered (unit : Z) (e : deval) (datums : drow -> bool) (gts pds : option (drow -> bool)) (e' : deval) : Prop :=
  (exists bs rb, det_filter_mem unit bs rb e datums gts pds = Done e') \/
  (exists bs rpf rb, batching_ok rb /\ det_filter_file unit bs rpf rb e datums gts pds = Done e').
Lemma filtered_rows unit e datums gts pds e' : filtered unit e datums gts pds e' ->
  forall r, In r (concat (de_detailed e')) <-> In r (concat (det_filter_tables datums gts pds (de_detailed e))).
Proof.
  intros [(bs & rb & H)|(bs & rpf & rb & Hrb & H)] r.
  - assert (S := det_filter_mem_spec unit bs rb e datums gts pds). cbv zeta in S. destruct (concat (det_filter_tables datums gts pds (de_detailed e))) as [|x t] eqn:E; [rewrite H in S; discriminate|].
    destruct S as (e2 & H2 & Ed & _). rewrite H in H2. injection H2 as <-. rewrite Ed. cbn [List.concat]. rewrite app_nil_r. apply in_sorted_table.
  - assert (S := det_filter_file_spec unit bs rpf rb e datums gts pds Hrb). cbv zeta in S. destruct (concat (det_filter_tables datums gts pds (de_detailed e))) as [|x t] eqn:E; [rewrite H in S; discriminate|].
    destruct S as (e2 & gs & H2 & Eg & Ed & _). rewrite H in H2. injection H2 as <-. rewrite Ed, <- E, <- Eg. clear. induction gs as [|g gs IH]; [reflexivity|].
    cbn [map List.concat]. rewrite concat_app, !in_app_iff, IH, in_sorted_table. reflexivity.
Qed.

Section Any.
  Variables (eps : Z) (ds : list detection) (L : list string) (w : dview) (tables : list (list drow)).
  Hypothesis Hw : world eps ds L w (concat tables).
  Notation cgt := (carries_gt ds L).
  Notation cpd := (carries_pd ds L).

  (* a filter on ground truths keeps those with a row that satisfies it *)
  Lemma any_gts F i g : (exists r, In r (concat (det_filter_tables (fun _ => true) (Some F) None tables)) /\ cgt i g r) <->
    (exists r, In r (concat tables) /\ cgt i g r /\ F r = true).
  Proof.
    split.
    - intros (r2 & H & C). apply in_concat in H. destruct H as (t2 & Ht2 & Hr2). unfold det_filter_tables in Ht2. apply in_map_iff in Ht2. destruct Ht2 as (tb & <- & Htb).
      rewrite (filter_all (fun _ => true)) in Hr2 by reflexivity. unfold det_filter_table in Hr2. apply filter_In in Hr2. destruct Hr2 as [Hr2 _].
      apply in_map_iff in Hr2. destruct Hr2 as (r & <- & Hr). apply filter_In in Hr. destruct Hr as [Hr _].
      assert (Hc := cgt_pos ds L i g _ C). destruct (existsb (same_gtk r) (filter F tb)) eqn:E.
      + apply existsb_exists in E. destruct E as (x & Hx & E). apply filter_In in Hx. destruct Hx as [Hx HF].
        unfold same_gtk in E. destruct (zzz_dec (gt_key r) (gt_key x)) as [Ek|]; [|discriminate]. unfold gt_key in Ek. injection Ek as E1 E2 E3.
        cbn [det_filter_row d_gt] in Hc. assert (Ix : In x (concat tables)) by (apply in_concat; eauto). destruct (row_gt eps ds L w tables Hw x) as (j & d & h & Hj & Cx & _); [exact Ix|lia|].
        exists x. split; [exact Ix|]. split; [|exact HF].
        assert (i = j /\ g = h) as [-> ->]; [|exact Cx]. apply (cgt_same ds L i g j h _ x C Cx). cbn. exact E2.
      + cbn [det_filter_row d_gt] in Hc. lia.
    - intros (r & Hr & C & HF). apply in_concat in Hr. destruct Hr as (tb & Htb & Hr).
      exists (det_filter_row true true r). split; [|apply cgt_row; exact C]. apply in_concat. exists (det_filter_table (Some F) None tb).
      split; [unfold det_filter_tables; apply in_map_iff; exists tb; split; [f_equal; apply filter_all; reflexivity|exact Htb]|].
      unfold det_filter_table. assert (V : existsb (same_gtk r) (filter F tb) = true).
      { apply existsb_exists. exists r. split; [apply filter_In; auto|]. unfold same_gtk. destruct (zzz_dec _ _) as [_|N]; [reflexivity|exfalso; apply N; reflexivity]. }
      apply filter_In. split.
      + apply in_map_iff. exists r. rewrite V. split; [reflexivity|]. apply filter_In. split; [exact Hr|rewrite V; reflexivity].
      + assert (Hc := cgt_pos ds L i g _ C). cbn. replace (d_gt r <? 0)%Z with false by (symmetry; apply Z.ltb_ge; exact Hc). reflexivity.
  Qed.
  Lemma any_pds F i p v : (exists r s, In r (concat (det_filter_tables (fun _ => true) None (Some F) tables)) /\ cpd i p v s r) <->
    (exists r s, In r (concat tables) /\ cpd i p v s r /\ F r = true).
  Proof.
    split.
    - intros (r2 & s2 & H & C). apply in_concat in H. destruct H as (t2 & Ht2 & Hr2). unfold det_filter_tables in Ht2. apply in_map_iff in Ht2. destruct Ht2 as (tb & <- & Htb).
      rewrite (filter_all (fun _ => true)) in Hr2 by reflexivity. unfold det_filter_table in Hr2. apply filter_In in Hr2. destruct Hr2 as [Hr2 _].
      apply in_map_iff in Hr2. destruct Hr2 as (r & <- & Hr). apply filter_In in Hr. destruct Hr as [Hr _].
      assert (Hc := cpd_pos ds L i p v s2 _ C). destruct (existsb (same_pdk r) (filter F tb)) eqn:E.
      + apply existsb_exists in E. destruct E as (x & Hx & E). apply filter_In in Hx. destruct Hx as [Hx HF].
        unfold same_pdk in E. destruct (zzz_dec (pd_key r) (pd_key x)) as [Ek|]; [|discriminate]. unfold pd_key in Ek. injection Ek as E1 E2 E3.
        cbn [det_filter_row d_pd] in Hc. assert (Ix : In x (concat tables)) by (apply in_concat; eauto).
        destruct (row_pd eps ds L w tables Hw x) as (j & d & q & u & s & Hj & Cx & _); [exact Ix|lia|].
        exists x, s. split; [exact Ix|]. split; [|exact HF].
        assert (i = j /\ p = q) as [-> ->] by (apply (cpd_same ds L i p j q v u s2 s _ x C Cx); cbn; exact E2).
        assert (v = u) as ->; [|exact Cx]. apply (cpd_label ds L j q j q v u s2 s _ x C Cx). cbn. exact E3.
      + cbn [det_filter_row d_pd] in Hc. lia.
    - intros (r & s & Hr & C & HF). apply in_concat in Hr. destruct Hr as (tb & Htb & Hr).
      exists (det_filter_row true true r), s. split; [|apply cpd_row; exact C]. apply in_concat. exists (det_filter_table None (Some F) tb).
      split; [unfold det_filter_tables; apply in_map_iff; exists tb; split; [f_equal; apply filter_all; reflexivity|exact Htb]|].
      unfold det_filter_table. assert (V : existsb (same_pdk r) (filter F tb) = true).
      { apply existsb_exists. exists r. split; [apply filter_In; auto|]. unfold same_pdk. destruct (zzz_dec _ _) as [_|N]; [reflexivity|exfalso; apply N; reflexivity]. }
      apply filter_In. split.
      + apply in_map_iff. exists r. rewrite V. split; [reflexivity|]. apply filter_In. split; [exact Hr|reflexivity].
      + assert (Hc := cpd_pos ds L i p v s _ C). cbn. replace (d_pd r <? 0)%Z with false by (symmetry; apply Z.ltb_ge; exact Hc). rewrite andb_false_r. reflexivity.
  Qed.
End Any.

(* ------------------------------------------------------------------ *)
(** * Fields *)

Lemma schema_facts fields schema f : det_schema fields = Some schema -> In f (map fst fields) -> has_columns schema /\ In f schema /\ ~ In f det_reserved.
Proof.
  unfold det_schema, generate_schema. destruct (existsb _ fields) eqn:E; [discriminate|]. intros H Hf.
  assert (Es : schema = det_reserved ++ map fst fields) by congruence. subst schema. split; [|split].
  - intros k Hk. exact (in_or_app det_reserved _ k (or_introl Hk)).
  - exact (in_or_app det_reserved _ f (or_intror Hf)).
  - intros N. apply in_map_iff in Hf. destruct Hf as (x & <- & Hx). rewrite <- Bool.not_true_iff_false in E. apply E. apply existsb_exists. exists x.
    split; [exact Hx|]. apply existsb_eqb. exact N.
Qed.
Lemma reserved_keys r : map fst (reserved r) = det_reserved.
Proof. reflexivity. Qed.

Section Field.
  Variables (ds : list mdet) (schema : list string) (f : string) (P : value -> bool).
  Hypothesis Hf : In f schema.
  Hypothesis Hr : ~ In f det_reserved.
  Hypothesis U : one_meaning ds.

  Lemma where_meta r : where_field schema ds f P r = P (orelse (dget (row_meta ds r) f) None).
  Proof.
    unfold where_field, field, row_columns. rewrite dget_schema, (proj2 (existsb_eqb f schema) Hf).
    rewrite <- reserved_column, (dget_none (reserved r) f) by (rewrite reserved_keys; exact Hr). reflexivity.
  Qed.
  Lemma datum_found d : In d ds -> datum_meta ds (mt_uid d) = mt_meta d.
  Proof.
    intros Hd. unfold datum_meta. destruct (find _ ds) as [d'|] eqn:F.
    - apply find_some in F. destruct F as [F1 F2]. apply String.eqb_eq in F2. apply U; [assumption|assumption|congruence].
    - exfalso. assert (X := find_none _ _ F d Hd). cbn in X. rewrite String.eqb_refl in X. discriminate.
  Qed.
  Lemma gt_found d a : In d ds -> In a (mt_gts d) -> find_meta (uid_of a) (flat_map mt_gts ds) = ma_meta a.
  Proof.
    intros Hd Ha. destruct U as (_ & U2 & _). apply find_meta_spec; [apply in_flat_map; eauto|reflexivity|].
    intros b Hb Eb. apply in_flat_map in Hb. destruct Hb as (d' & Hd' & Hb). apply (U2 d' d b a); auto.
  Qed.
  Lemma pd_found d a : In d ds -> In a (mt_pds d) -> find_meta (uid_of a) (flat_map mt_pds ds) = ma_meta a.
  Proof.
    intros Hd Ha. destruct U as (_ & _ & U3). apply find_meta_spec; [apply in_flat_map; eauto|reflexivity|].
    intros b Hb Eb. apply in_flat_map in Hb. destruct Hb as (d' & Hd' & Hb). apply (U3 d' d b a); auto.
  Qed.
  Lemma unused_gts o : ~ gts_have ds f -> dget (opt_meta o (flat_map mt_gts ds)) f = None.
  Proof.
    intros N. destruct o as [u|]; [|reflexivity]. cbn. unfold find_meta. destruct (find _ _) as [a|] eqn:F; [|reflexivity].
    apply find_some in F. destruct F as [F _]. apply in_flat_map in F. destruct F as (d & Hd & Ha). apply dget_none. intros I. apply N. exists d, a. auto.
  Qed.
  Lemma unused_pds o : ~ pds_have ds f -> dget (opt_meta o (flat_map mt_pds ds)) f = None.
  Proof.
    intros N. destruct o as [u|]; [|reflexivity]. cbn. unfold find_meta. destruct (find _ _) as [a|] eqn:F; [|reflexivity].
    apply find_some in F. destruct F as [F _]. apply in_flat_map in F. destruct F as (d & Hd & Ha). apply dget_none. intros I. apply N. exists d, a. auto.
  Qed.

  Lemma plain_nth i dp : nth_error (map plain ds) i = Some dp -> exists d, nth_error ds i = Some d /\ dp = plain d /\ In d ds.
  Proof. rewrite nth_error_map. destruct (nth_error ds i) as [d|] eqn:E; cbn; intros H; [|discriminate]. injection H as <-. exists d. split; [reflexivity|]. split; [reflexivity|]. apply (nth_error_In _ _ E). Qed.
  Lemma ann_nth l g a : nth_error (map ma_ann l) g = Some a -> exists x, nth_error l g = Some x /\ a = ma_ann x /\ In x l.
  Proof. rewrite nth_error_map. destruct (nth_error l g) as [d|] eqn:E; cbn; intros H; [|discriminate]. injection H as <-. exists d. split; [reflexivity|]. split; [reflexivity|]. apply (nth_error_In _ _ E). Qed.

  (* selections by metadata *)
  Definition sel_by : detection -> bool := fun d => P (orelse (dget (datum_meta ds (t_uid d)) f) None).
  Definition ann_by (l : list mann) (d : detection) (a : annotation) : bool :=
    P (orelse (dget (find_meta (a_uid a) l) f) (dget (datum_meta ds (t_uid d)) f)).
  Definition gt_by : detection -> nat -> bool := fun d g =>
    match nth_error (t_gts d) g with Some a => ann_by (flat_map mt_gts ds) d a | None => false end.
  Definition pd_by : detection -> nat -> string -> bool := fun d p _ =>
    match nth_error (t_pds d) p with Some a => ann_by (flat_map mt_pds ds) d a | None => false end.
  Lemma sel_by_spec d : In d ds -> sel_by (plain d) = P (of_datum d f).
  Proof. intros Hd. unfold sel_by, of_datum. cbn [plain t_uid]. rewrite (datum_found d Hd). reflexivity. Qed.
  Lemma gt_by_spec d g ga : In d ds -> nth_error (mt_gts d) g = Some ga -> gt_by (plain d) g = P (of_annotation d ga f).
  Proof.
    intros Hd Hg. unfold gt_by, ann_by, of_annotation. cbn [plain t_gts t_uid]. rewrite nth_error_map, Hg. cbn [option_map].
    change (a_uid (ma_ann ga)) with (uid_of ga). rewrite (gt_found d ga Hd (nth_error_In _ _ Hg)), (datum_found d Hd). reflexivity.
  Qed.
  Lemma pd_by_spec d p pa v : In d ds -> nth_error (mt_pds d) p = Some pa -> pd_by (plain d) p v = P (of_annotation d pa f).
  Proof.
    intros Hd Hg. unfold pd_by, ann_by, of_annotation. cbn [plain t_pds t_uid]. rewrite nth_error_map, Hg. cbn [option_map].
    change (a_uid (ma_ann pa)) with (uid_of pa). rewrite (pd_found d pa Hd (nth_error_In _ _ Hg)), (datum_found d Hd). reflexivity.
  Qed.

  Lemma by_datum : ~ gts_have ds f -> ~ pds_have ds f -> det_selects (map plain ds) (where_field schema ds f P) sel_by.
  Proof.
    intros N1 N2 r i dp _ Eu Hi. destruct (plain_nth i dp Hi) as (d & _ & -> & Hd). rewrite where_meta. unfold row_meta, sel_by.
    rewrite !dget_merge, (unused_gts _ N1), (unused_pds _ N2), Eu. reflexivity.
  Qed.
  Lemma by_gt L : ~ pds_have ds f -> gt_filter (map plain ds) L (Some (where_field schema ds f P)) gt_by.
  Proof.
    intros N dp i g Hi _ r (d' & ga & v & gi & Hi' & Hg & _ & _ & Eu & _ & Eg & _). assert (d' = dp) by congruence. subst d'.
    rewrite where_meta. unfold row_meta, gt_by, ann_by. rewrite !dget_merge, (unused_pds _ N), Eu, Eg, Hg. cbn [opt_meta].
    destruct (dget (find_meta (a_uid ga) (flat_map mt_gts ds)) f); reflexivity.
  Qed.
  Lemma by_pd L : ~ gts_have ds f -> pd_filter (map plain ds) L (Some (where_field schema ds f P)) pd_by.
  Proof.
    intros N dp i p pa v Hi Hp _ r s (d' & pa' & n & pi & Hi' & Hp' & _ & _ & _ & Eu & _ & Ep & _). assert (d' = dp) by congruence. subst d'. assert (pa' = pa) by congruence. subst pa'.
    rewrite where_meta. unfold row_meta, pd_by, ann_by. rewrite !dget_merge, (unused_gts _ N), Eu, Ep, Hp. cbn [opt_meta].
    destruct (dget (find_meta (a_uid pa) (flat_map mt_pds ds)) f); reflexivity.
  Qed.

  (* the value on a row that names a datum, and maybe annotations of it *)
  Lemma where_gt_row d ga r : In d ds -> In ga (mt_gts d) -> d_uid r = mt_uid d -> d_gt_uid r = Some (uid_of ga) -> d_pd_uid r = None ->
    where_field schema ds f P r = P (of_annotation d ga f).
  Proof.
    intros Hd Hg E1 E2 E3. rewrite where_meta. unfold row_meta. rewrite !dget_merge, E1, E2, E3. cbn [opt_meta dget]. cbn.
    rewrite (gt_found d ga Hd Hg), (datum_found d Hd). unfold of_annotation. destruct (dget (ma_meta ga) f); reflexivity.
  Qed.
  Lemma where_pd_row d pa r : In d ds -> In pa (mt_pds d) -> d_uid r = mt_uid d -> d_gt_uid r = None -> d_pd_uid r = Some (uid_of pa) ->
    where_field schema ds f P r = P (of_annotation d pa f).
  Proof.
    intros Hd Hp E1 E2 E3. rewrite where_meta. unfold row_meta. rewrite !dget_merge, E1, E2, E3. cbn [opt_meta]. cbn.
    rewrite (pd_found d pa Hd Hp), (datum_found d Hd). unfold of_annotation. destruct (dget (ma_meta pa) f); reflexivity.
  Qed.
  Lemma where_pair_row d ga pa r : In d ds -> In ga (mt_gts d) -> In pa (mt_pds d) -> d_uid r = mt_uid d -> d_gt_uid r = Some (uid_of ga) -> d_pd_uid r = Some (uid_of pa) ->
    where_field schema ds f P r = P (of_pair d ga pa f).
  Proof.
    intros Hd Hg Hp E1 E2 E3. rewrite where_meta. unfold row_meta. rewrite !dget_merge, E1, E2, E3. cbn [opt_meta].
    rewrite (gt_found d ga Hd Hg), (pd_found d pa Hd Hp), (datum_found d Hd). unfold of_pair, of_annotation.
    destruct (dget (ma_meta pa) f), (dget (ma_meta ga) f); reflexivity.
  Qed.
End Field.

(* ------------------------------------------------------------------ *)
(** * Filters on a field of a freshly built evaluator, whoever has metadata under it *)

Section Exact.
  Variables (eps unit : Z) (ds : list mdet) (L : list string) (e : deval).
  Variables (fields : list (string * string)) (schema : list string) (f : string) (P : value -> bool).
  Notation pds := (map plain ds).
  Hypothesis Hin : det_input unit pds.
  Hypothesis He : det_evaluator eps unit pds e.
  Hypothesis HL : forall v vi, label_no e v vi <-> index_of v L = Some vi.
  Hypothesis Hsc : det_schema fields = Some schema.
  Hypothesis Hfi : In f (map fst fields).
  Hypothesis U : one_meaning ds.
  Let Hf : In f schema := proj1 (proj2 (schema_facts fields schema f Hsc Hfi)).
  Let Hr : ~ In f det_reserved := proj2 (proj2 (schema_facts fields schema f Hsc Hfi)).
  Let Hg : good eps unit pds L full_view e := shows_good eps unit pds L full_view e Hin (Shows_built eps unit pds L e He HL).

  Lemma rows_described : exists L0, forall r, In r (concat (de_detailed e)) <-> described eps pds L0 r.
  Proof. destruct (end_facts eps unit pds Hin e He) as (L0 & Hst & _). exists L0. intros r. apply (stored_rows eps unit pds L0 _ Hin Hst). Qed.
  Lemma plain_at i d : nth_error ds i = Some d -> nth_error pds i = Some (plain d).
  Proof. intros H. rewrite nth_error_map, H. reflexivity. Qed.
  Lemma gt_at d g ga : nth_error (mt_gts d) g = Some ga -> nth_error (t_gts (plain d)) g = Some (ma_ann ga).
  Proof. intros H. cbn [plain t_gts]. rewrite nth_error_map, H. reflexivity. Qed.
  Lemma pd_at d p pa : nth_error (mt_pds d) p = Some pa -> nth_error (t_pds (plain d)) p = Some (ma_ann pa).
  Proof. intros H. cbn [plain t_pds]. rewrite nth_error_map, H. reflexivity. Qed.
  Lemma pd_label d p pa : In d ds -> nth_error (mt_pds d) p = Some pa -> exists v s, nth_error (a_labels (ma_ann pa)) 0 = Some v /\ nth_error (a_scores (ma_ann pa)) 0 = Some s.
  Proof.
    intros Hd Hp. assert (Hi : In (plain d) pds) by (apply in_map; exact Hd). assert (Hin' := Hin). unfold det_input in Hin'. rewrite Forall_forall in Hin'. destruct (Hin' _ Hi) as (Ho & _).
    unfold det_ok in Ho. rewrite !andb_true_iff in Ho. destruct Ho as [[_ Ho] Hl]. rewrite forallb_forall in Ho, Hl.
    assert (Ha : In (ma_ann pa) (t_pds (plain d))) by (apply (nth_error_In _ p), pd_at; exact Hp).
    specialize (Ho _ Ha). specialize (Hl _ Ha). apply Nat.eqb_eq in Hl. unfold ann_ok in Ho. rewrite andb_true_iff in Ho. destruct Ho as [Ho _].
    destruct (a_scores (ma_ann pa)) as [|s ss], (a_labels (ma_ann pa)) as [|v vs]; cbn in *; try discriminate. exists v, s. auto.
  Qed.
  Lemma gt_row_pos i g r : carries_gt pds L i g r -> (exists u, d_gt_uid r = Some u) /\ d_datum r = Z.of_nat i /\ d_gt r = gt_id pds i g.
  Proof. intros (d & ga & v & gi & _ & _ & _ & _ & _ & E1 & E2 & E3 & _). eauto. Qed.
  Lemma pd_row_pos i p v s r : carries_pd pds L i p v s r -> (exists u, d_pd_uid r = Some u) /\ d_datum r = Z.of_nat i /\ d_pd r = pd_id pds i p /\ d_pd_label r = Some v.
  Proof. intros (d & pa & n & pi & _ & _ & _ & _ & _ & _ & E1 & E2 & E3 & E4 & _). eauto. Qed.

  (* a ground truth is kept if it, or the pair with a prediction it overlaps, has the
     required value; a ground truth that overlaps predictions only through the pairs *)
  Lemma exact_gts e' i d g ga : filtered unit e (fun _ => true) (Some (where_field schema ds f P)) None e' ->
    nth_error ds i = Some d -> nth_error (mt_gts d) g = Some ga ->
    (has_gt pds L e' i g <->
     ((forall p, p < length (mt_pds d) -> (mt_iou d p g < eps)%Z) /\ P (of_annotation d ga f) = true) \/
     (exists p pa, nth_error (mt_pds d) p = Some pa /\ (eps <= mt_iou d p g)%Z /\ P (of_pair d ga pa f) = true)).
  Proof.
    intros Hfl Hi Hga. assert (Hd := nth_error_In _ _ Hi). assert (Hgi := nth_error_In _ _ Hga).
    unfold has_gt. transitivity (exists r, In r (concat (de_detailed e)) /\ carries_gt pds L i g r /\ where_field schema ds f P r = true).
    { rewrite <- (any_gts eps pds L full_view (de_detailed e) (g_world _ _ _ _ _ _ Hg)).
      split; intros (r & A & B); exists r; (split; [|exact B]); apply (filtered_rows _ _ _ _ _ _ Hfl); exact A. }
    destruct rows_described as (L0 & HD). split.
    - intros (r & Hrow & C & W). apply HD in Hrow. destruct (gt_row_pos _ _ _ C) as ((u & Eu) & Ed & Eg).
      destruct Hrow as [i0 d0 g0 ga0 gl rest gi0 A1 A2 A3 A4 A5|i0 d0 p0 pa0 k pl s pi0 A1 A2|i0 d0 g0 ga0 j gl gi0 p0 pa0 k pl s pi0 A1 A2 A3 A4 A5 A6 A7 A8 A9]; cbn [d_gt_uid d_datum d_gt] in *; [| discriminate |].
      + assert (i0 = i) by lia. subst i0. rewrite (plain_at i d Hi) in A1. injection A1 as <-.
        assert (g0 = g) by (unfold gt_id in Eg; lia). subst g0. rewrite (gt_at d g ga Hga) in A2. injection A2 as <-.
        left. split; [intros p Hp; apply (A4 p); cbn [plain t_pds]; rewrite map_length; exact Hp|].
        rewrite <- W. symmetry. apply (where_gt_row ds schema f P Hf Hr U); auto.
      + assert (i0 = i) by lia. subst i0. rewrite (plain_at i d Hi) in A1. injection A1 as <-.
        assert (g0 = g) by (unfold gt_id in Eg; lia). subst g0. rewrite (gt_at d g ga Hga) in A2. injection A2 as <-.
        right. cbn [plain t_pds] in A3. destruct (ann_nth _ _ _ A3) as (pa & Hpa & Epa & Hpi). subst pa0. exists p0, pa. split; [exact Hpa|]. split; [exact A7|].
        rewrite <- W. symmetry. apply (where_pair_row ds schema f P Hf Hr U); auto.
    - intros [(Hno & HP)|(p & pa & Hpa & Ho & HP)].
      + destruct (w_gt_in _ _ _ _ _ (g_world _ _ _ _ _ _ Hg) i (plain d) g (plain_at i d Hi)) as (r & Hrow & C).
        { apply nth_error_Some. rewrite (gt_at d g ga Hga). discriminate. } { reflexivity. }
        exists r. split; [exact Hrow|]. split; [exact C|]. destruct (gt_row_pos _ _ _ C) as ((u & Eu) & Ed & Eg). apply HD in Hrow.
        destruct Hrow as [i0 d0 g0 ga0 gl rest gi0 A1 A2 A3 A4 A5|i0 d0 p0 pa0 k pl s pi0 A1 A2|i0 d0 g0 ga0 j gl gi0 p0 pa0 k pl s pi0 A1 A2 A3 A4 A5 A6 A7 A8 A9]; cbn [d_gt_uid d_datum d_gt] in *; [| discriminate |].
        * assert (i0 = i) by lia. subst i0. rewrite (plain_at i d Hi) in A1. injection A1 as <-.
          assert (g0 = g) by (unfold gt_id in Eg; lia). subst g0. rewrite (gt_at d g ga Hga) in A2. injection A2 as <-.
          rewrite (where_gt_row ds schema f P Hf Hr U d ga); auto.
        * exfalso. assert (i0 = i) by lia. subst i0. rewrite (plain_at i d Hi) in A1. injection A1 as <-.
          assert (g0 = g) by (unfold gt_id in Eg; lia). subst g0. cbn [plain t_pds t_iou] in A3, A7. destruct (ann_nth _ _ _ A3) as (pa & Hpa & _).
          assert (Hlt : p0 < length (mt_pds d)) by (apply nth_error_Some; congruence). specialize (Hno p0 Hlt). lia.
      + destruct (pd_label d p pa Hd Hpa) as (v & s & Hv & Hs).
        destruct (w_pair_in _ _ _ _ _ (g_world _ _ _ _ _ _ Hg) i (plain d) g p (ma_ann pa) 0 v s (plain_at i d Hi)) as (r & Hrow & C & C'); try assumption; try reflexivity.
        { apply nth_error_Some. rewrite (gt_at d g ga Hga). discriminate. } { apply pd_at. exact Hpa. }
        exists r. split; [exact Hrow|]. split; [exact C|].
        destruct C as (d1 & ga1 & v1 & gi1 & B1 & B2 & _ & _ & B5 & _ & B7 & _). rewrite (plain_at i d Hi) in B1. injection B1 as <-. rewrite (gt_at d g ga Hga) in B2. injection B2 as <-.
        destruct C' as (d2 & pa2 & n2 & pi2 & D1 & D2 & _ & _ & _ & _ & _ & D8 & _). rewrite (plain_at i d Hi) in D1. injection D1 as <-. rewrite (pd_at d p pa Hpa) in D2. injection D2 as <-.
        rewrite (where_pair_row ds schema f P Hf Hr U d ga pa); auto. apply (nth_error_In _ _ Hpa).
  Qed.
  Lemma exact_pds e' i d p pa v : filtered unit e (fun _ => true) None (Some (where_field schema ds f P)) e' ->
    nth_error ds i = Some d -> nth_error (mt_pds d) p = Some pa -> In v (a_labels (ma_ann pa)) ->
    (has_pd pds L e' i p v <->
     ((forall g, g < length (mt_gts d) -> (mt_iou d p g < eps)%Z) /\ P (of_annotation d pa f) = true) \/
     (exists g ga, nth_error (mt_gts d) g = Some ga /\ (eps <= mt_iou d p g)%Z /\ P (of_pair d ga pa f) = true)).
  Proof.
    intros Hfl Hi Hpa Hv. assert (Hd := nth_error_In _ _ Hi). assert (Hpi := nth_error_In _ _ Hpa).
    assert (Hns : exists n s, nth_error (a_labels (ma_ann pa)) n = Some v /\ nth_error (a_scores (ma_ann pa)) n = Some s).
    { assert (HiIn : In (plain d) pds) by (apply in_map; exact Hd). assert (Hin' := Hin). unfold det_input in Hin'. rewrite Forall_forall in Hin'. destruct (Hin' _ HiIn) as (Ho & _).
      unfold det_ok in Ho. rewrite !andb_true_iff in Ho. destruct Ho as [_ Hl]. rewrite forallb_forall in Hl.
      assert (Ha : In (ma_ann pa) (t_pds (plain d))) by (apply (nth_error_In _ p), pd_at; exact Hpa). specialize (Hl _ Ha). apply Nat.eqb_eq in Hl.
      apply In_nth_error in Hv. destruct Hv as (n & Hn). destruct (nth_error (a_scores (ma_ann pa)) n) as [s|] eqn:Es; [exists n, s; auto|].
      apply nth_error_None in Es. assert (X : n < length (a_labels (ma_ann pa))) by (apply nth_error_Some; congruence). lia. }
    unfold has_pd. transitivity (exists r s, In r (concat (de_detailed e)) /\ carries_pd pds L i p v s r /\ where_field schema ds f P r = true).
    { rewrite <- (any_pds eps pds L full_view (de_detailed e) (g_world _ _ _ _ _ _ Hg)).
      split; intros (r & s & A & B); exists r, s; (split; [|exact B]); apply (filtered_rows _ _ _ _ _ _ Hfl); exact A. }
    destruct rows_described as (L0 & HD). split.
    - intros (r & s & Hrow & C & W). apply HD in Hrow. destruct (pd_row_pos _ _ _ _ _ C) as ((u & Eu) & Ed & Ep & _).
      destruct Hrow as [i0 d0 g0 ga0 gl rest gi0 A1 A2 A3 A4 A5|i0 d0 p0 pa0 k pl s0 pi0 A1 A2 A3 A4 A5 A6|i0 d0 g0 ga0 j gl gi0 p0 pa0 k pl s0 pi0 A1 A2 A3 A4 A5 A6 A7 A8 A9]; cbn [d_pd_uid d_datum d_pd] in *; [discriminate| |].
      + assert (i0 = i) by lia. subst i0. rewrite (plain_at i d Hi) in A1. injection A1 as <-.
        assert (p0 = p) by (unfold pd_id in Ep; lia). subst p0. rewrite (pd_at d p pa Hpa) in A2. injection A2 as <-.
        left. split; [intros g Hlt; apply (A5 g); cbn [plain t_gts]; rewrite map_length; exact Hlt|].
        rewrite <- W. symmetry. apply (where_pd_row ds schema f P Hf Hr U); auto.
      + assert (i0 = i) by lia. subst i0. rewrite (plain_at i d Hi) in A1. injection A1 as <-.
        assert (p0 = p) by (unfold pd_id in Ep; lia). subst p0. rewrite (pd_at d p pa Hpa) in A3. injection A3 as <-.
        right. cbn [plain t_gts] in A2. destruct (ann_nth _ _ _ A2) as (ga & Hga & Ega & Hgi). subst ga0. exists g0, ga. split; [exact Hga|]. split; [exact A7|].
        rewrite <- W. symmetry. apply (where_pair_row ds schema f P Hf Hr U); auto.
    - intros [(Hno & HP)|(g & ga & Hga & Ho & HP)]; destruct Hns as (n & s & Hn & Hs).
      + destruct (w_pd_in _ _ _ _ _ (g_world _ _ _ _ _ _ Hg) i (plain d) p (ma_ann pa) n v s (plain_at i d Hi)) as (r & Hrow & C); try assumption; try reflexivity.
        { apply pd_at. exact Hpa. }
        exists r, s. split; [exact Hrow|]. split; [exact C|]. destruct (pd_row_pos _ _ _ _ _ C) as ((u & Eu) & Ed & Ep & _). apply HD in Hrow.
        destruct Hrow as [i0 d0 g0 ga0 gl rest gi0 A1 A2 A3 A4 A5|i0 d0 p0 pa0 k pl s0 pi0 A1 A2 A3 A4 A5 A6|i0 d0 g0 ga0 j gl gi0 p0 pa0 k pl s0 pi0 A1 A2 A3 A4 A5 A6 A7 A8 A9]; cbn [d_pd_uid d_datum d_pd] in *; [discriminate| |].
        * assert (i0 = i) by lia. subst i0. rewrite (plain_at i d Hi) in A1. injection A1 as <-.
          assert (p0 = p) by (unfold pd_id in Ep; lia). subst p0. rewrite (pd_at d p pa Hpa) in A2. injection A2 as <-.
          rewrite (where_pd_row ds schema f P Hf Hr U d pa); auto.
        * exfalso. assert (i0 = i) by lia. subst i0. rewrite (plain_at i d Hi) in A1. injection A1 as <-.
          assert (p0 = p) by (unfold pd_id in Ep; lia). subst p0. cbn [plain t_gts t_iou] in A2, A7. destruct (ann_nth _ _ _ A2) as (ga & Hga & _).
          assert (Hlt : g0 < length (mt_gts d)) by (apply nth_error_Some; congruence). specialize (Hno g0 Hlt). lia.
      + destruct (w_pair_in _ _ _ _ _ (g_world _ _ _ _ _ _ Hg) i (plain d) g p (ma_ann pa) n v s (plain_at i d Hi)) as (r & Hrow & C & C'); try assumption; try reflexivity.
        { apply nth_error_Some. rewrite (gt_at d g ga Hga). discriminate. } { apply pd_at. exact Hpa. }
        exists r, s. split; [exact Hrow|]. split; [exact C'|].
        destruct C as (d1 & ga1 & v1 & gi1 & B1 & B2 & _ & _ & B5 & _ & B7 & _). rewrite (plain_at i d Hi) in B1. injection B1 as <-. rewrite (gt_at d g ga Hga) in B2. injection B2 as <-.
        destruct C' as (d2 & pa2 & n2 & pi2 & D1 & D2 & _ & _ & _ & _ & _ & D8 & _). rewrite (plain_at i d Hi) in D1. injection D1 as <-. rewrite (pd_at d p pa Hpa) in D2. injection D2 as <-.
        rewrite (where_pair_row ds schema f P Hf Hr U d ga pa); auto. apply (nth_error_In _ _ Hga).
  Qed.
End Exact.

(* ------------------------------------------------------------------ *)
(** * Fields of one kind of annotation, for every evaluator *)

Section Kind.
  Variables (eps unit : Z) (ds : list mdet) (L : list string) (w : dview) (e : deval).
  Variables (fields : list (string * string)) (schema : list string) (f : string) (P : value -> bool).
  Notation pds := (map plain ds).
  Hypothesis Hin : det_input unit pds.
  Hypothesis Hsh : shows eps unit pds L w e.
  Hypothesis Hsc : det_schema fields = Some schema.
  Hypothesis Hfi : In f (map fst fields).
  Hypothesis U : one_meaning ds.

  Lemma always_selected : det_selects pds (fun _ => true) (fun _ => true).
  Proof. intros r i d _ _ _. reflexivity. Qed.
  Lemma no_gt_filter : gt_filter pds L None (fun _ _ => true).
  Proof. intros d i g _ _. reflexivity. Qed.
  Lemma no_pd_filter : pd_filter pds L None (fun _ _ _ => true).
  Proof. intros d i p pa v _ _ _. reflexivity. Qed.
  Lemma filtered_shows datums gts pdf sel sg sp e' : filtered unit e datums gts pdf e' ->
    det_selects pds datums sel -> gt_filter pds L gts sg -> pd_filter pds L pdf sp -> shows eps unit pds L (restrict w sel sg sp) e'.
  Proof.
    intros [(bs & rb & H)|(bs & rpf & rb & Hrb & H)] H1 H2 H3.
    - eapply Shows_filter_mem; eassumption.
    - eapply Shows_filter_file; eassumption.
  Qed.
  Lemma shown_gt w' e' i d g : shows eps unit pds L w' e' -> nth_error pds i = Some d -> g < length (t_gts d) ->
    (has_gt pds L e' i g <-> v_gt w' d g = true).
  Proof.
    intros H Hi Hlt. assert (G := g_world _ _ _ _ _ _ (shows_good eps unit pds L w' e' Hin H)). split.
    - intros (r & Hrow & C). assert (Hc := cgt_pos pds L i g r C). destruct (row_gt eps pds L w' (de_detailed e') G r Hrow Hc) as (j & d' & h & Hj & C' & Hv).
      destruct (cgt_same pds L i g j h r r C C' eq_refl) as [-> ->]. congruence.
    - intros Hv. destruct (w_gt_in _ _ _ _ _ G i d g Hi Hlt Hv) as (r & Hrow & C). exists r. auto.
  Qed.
  Lemma shown_pd w' e' i d p pa v : shows eps unit pds L w' e' -> nth_error pds i = Some d -> nth_error (t_pds d) p = Some pa -> In v (a_labels pa) ->
    (has_pd pds L e' i p v <-> v_pd w' d p v = true).
  Proof.
    intros H Hi Hp Hv. assert (G := g_world _ _ _ _ _ _ (shows_good eps unit pds L w' e' Hin H)). split.
    - intros (r & s & Hrow & C). assert (Hc := cpd_pos pds L i p v s r C). destruct (row_pd eps pds L w' (de_detailed e') G r Hrow Hc) as (j & d' & q & u & s' & Hj & C' & Hk).
      destruct (cpd_same pds L i p j q v u s s' r r C C' eq_refl) as [-> ->]. assert (v = u) as -> by (apply (cpd_label pds L j q j q v u s s' r r C C' eq_refl)). congruence.
    - intros Hk. assert (HiIn : In d pds) by apply (nth_error_In _ _ Hi). assert (Hin' := Hin). unfold det_input in Hin'. rewrite Forall_forall in Hin'. destruct (Hin' _ HiIn) as (Ho & _).
      unfold det_ok in Ho. rewrite !andb_true_iff in Ho. destruct Ho as [_ Hl]. rewrite forallb_forall in Hl. specialize (Hl _ (nth_error_In _ _ Hp)). apply Nat.eqb_eq in Hl.
      apply In_nth_error in Hv. destruct Hv as (n & Hn). destruct (nth_error (a_scores pa) n) as [s|] eqn:Es.
      + destruct (w_pd_in _ _ _ _ _ G i d p pa n v s Hi Hp Hn Es Hk) as (r & Hrow & C). exists r, s. auto.
      + apply nth_error_None in Es. assert (X : n < length (a_labels pa)) by (apply nth_error_Some; congruence). lia.
  Qed.

  Lemma kind_gts : ~ pds_have ds f -> exists sg,
    (forall d g ga, In d ds -> nth_error (mt_gts d) g = Some ga -> sg (plain d) g = P (of_annotation d ga f)) /\
    forall e', filtered unit e (fun _ => true) (Some (where_field schema ds f P)) None e' ->
      shows eps unit pds L (restrict w (fun _ => true) sg (fun _ _ _ => true)) e' /\
      (forall i d g ga, nth_error ds i = Some d -> nth_error (mt_gts d) g = Some ga ->
         (has_gt pds L e' i g <-> has_gt pds L e i g /\ P (of_annotation d ga f) = true)) /\
      (forall i d p pa v, nth_error ds i = Some d -> nth_error (mt_pds d) p = Some pa -> In v (a_labels (ma_ann pa)) ->
         (has_pd pds L e' i p v <-> has_pd pds L e i p v)).
  Proof.
    intros N. destruct (schema_facts fields schema f Hsc Hfi) as (_ & Hf & Hr). exists (gt_by ds f P).
    assert (Hs : forall d g ga, In d ds -> nth_error (mt_gts d) g = Some ga -> gt_by ds f P (plain d) g = P (of_annotation d ga f)) by (intros d g ga; apply gt_by_spec; exact U).
    split; [exact Hs|]. intros e' Hfl.
    assert (Hs' := filtered_shows _ _ _ _ _ _ e' Hfl always_selected (by_gt ds schema f P Hf Hr L N) no_pd_filter). split; [exact Hs'|]. split.
    - intros i d g ga Hi Hg. assert (Hi' : nth_error pds i = Some (plain d)) by (rewrite nth_error_map, Hi; reflexivity).
      assert (Hlt : g < length (t_gts (plain d))) by (cbn [plain t_gts]; rewrite map_length; apply nth_error_Some; congruence).
      rewrite (shown_gt _ e' i (plain d) g Hs' Hi' Hlt), (shown_gt w e i (plain d) g Hsh Hi' Hlt). cbn [restrict v_gt].
      rewrite (Hs d g ga (nth_error_In _ _ Hi) Hg). cbn. rewrite andb_true_iff. tauto.
    - intros i d p pa v Hi Hp Hv. assert (Hi' : nth_error pds i = Some (plain d)) by (rewrite nth_error_map, Hi; reflexivity).
      assert (Hp' : nth_error (t_pds (plain d)) p = Some (ma_ann pa)) by (cbn [plain t_pds]; rewrite nth_error_map, Hp; reflexivity).
      rewrite (shown_pd _ e' i (plain d) p (ma_ann pa) v Hs' Hi' Hp' Hv), (shown_pd w e i (plain d) p (ma_ann pa) v Hsh Hi' Hp' Hv). reflexivity.
  Qed.
  Lemma kind_pds : ~ gts_have ds f -> exists sp,
    (forall d p pa v, In d ds -> nth_error (mt_pds d) p = Some pa -> sp (plain d) p v = P (of_annotation d pa f)) /\
    forall e', filtered unit e (fun _ => true) None (Some (where_field schema ds f P)) e' ->
      shows eps unit pds L (restrict w (fun _ => true) (fun _ _ => true) sp) e' /\
      (forall i d g ga, nth_error ds i = Some d -> nth_error (mt_gts d) g = Some ga -> (has_gt pds L e' i g <-> has_gt pds L e i g)) /\
      (forall i d p pa v, nth_error ds i = Some d -> nth_error (mt_pds d) p = Some pa -> In v (a_labels (ma_ann pa)) ->
         (has_pd pds L e' i p v <-> has_pd pds L e i p v /\ P (of_annotation d pa f) = true)).
  Proof.
    intros N. destruct (schema_facts fields schema f Hsc Hfi) as (_ & Hf & Hr). exists (pd_by ds f P).
    assert (Hs : forall d p pa v, In d ds -> nth_error (mt_pds d) p = Some pa -> pd_by ds f P (plain d) p v = P (of_annotation d pa f)) by (intros d p pa v; apply pd_by_spec; exact U).
    split; [exact Hs|]. intros e' Hfl.
    assert (Hs' := filtered_shows _ _ _ _ _ _ e' Hfl always_selected no_gt_filter (by_pd ds schema f P Hf Hr L N)). split; [exact Hs'|]. split.
    - intros i d g ga Hi Hg. assert (Hi' : nth_error pds i = Some (plain d)) by (rewrite nth_error_map, Hi; reflexivity).
      assert (Hlt : g < length (t_gts (plain d))) by (cbn [plain t_gts]; rewrite map_length; apply nth_error_Some; congruence).
      rewrite (shown_gt _ e' i (plain d) g Hs' Hi' Hlt), (shown_gt w e i (plain d) g Hsh Hi' Hlt). reflexivity.
    - intros i d p pa v Hi Hp Hv. assert (Hi' : nth_error pds i = Some (plain d)) by (rewrite nth_error_map, Hi; reflexivity).
      assert (Hp' : nth_error (t_pds (plain d)) p = Some (ma_ann pa)) by (cbn [plain t_pds]; rewrite nth_error_map, Hp; reflexivity).
      rewrite (shown_pd _ e' i (plain d) p (ma_ann pa) v Hs' Hi' Hp' Hv), (shown_pd w e i (plain d) p (ma_ann pa) v Hsh Hi' Hp' Hv). cbn [restrict v_pd].
      rewrite (Hs d p pa v (nth_error_In _ _ Hi) Hp). cbn. rewrite andb_true_iff. tauto.
  Qed.
  Lemma kind_datums : ~ gts_have ds f -> ~ pds_have ds f -> exists sel,
    (forall d, In d ds -> sel (plain d) = P (of_datum d f)) /\ det_selects pds (where_field schema ds f P) sel /\
    forall e', filtered unit e (where_field schema ds f P) None None e' ->
      shows eps unit pds L (restrict w sel (fun _ _ => true) (fun _ _ _ => true)) e' /\
      (forall i d g ga, nth_error ds i = Some d -> nth_error (mt_gts d) g = Some ga ->
         (has_gt pds L e' i g <-> has_gt pds L e i g /\ P (of_datum d f) = true)) /\
      (forall i d p pa v, nth_error ds i = Some d -> nth_error (mt_pds d) p = Some pa -> In v (a_labels (ma_ann pa)) ->
         (has_pd pds L e' i p v <-> has_pd pds L e i p v /\ P (of_datum d f) = true)).
  Proof.
    intros N1 N2. destruct (schema_facts fields schema f Hsc Hfi) as (_ & Hf & Hr). exists (sel_by ds f P).
    assert (Hs : forall d, In d ds -> sel_by ds f P (plain d) = P (of_datum d f)) by (intros d; apply sel_by_spec; exact U).
    assert (Hsel := by_datum ds schema f P Hf Hr N1 N2).
    split; [exact Hs|]. split; [exact Hsel|]. intros e' Hfl.
    assert (Hs' := filtered_shows _ _ _ _ _ _ e' Hfl Hsel no_gt_filter no_pd_filter). split; [exact Hs'|]. split.
    - intros i d g ga Hi Hg. assert (Hi' : nth_error pds i = Some (plain d)) by (rewrite nth_error_map, Hi; reflexivity).
      assert (Hlt : g < length (t_gts (plain d))) by (cbn [plain t_gts]; rewrite map_length; apply nth_error_Some; congruence).
      rewrite (shown_gt _ e' i (plain d) g Hs' Hi' Hlt), (shown_gt w e i (plain d) g Hsh Hi' Hlt). cbn [restrict v_gt].
      rewrite (Hs d (nth_error_In _ _ Hi)). rewrite andb_true_r, andb_true_iff. tauto.
    - intros i d p pa v Hi Hp Hv. assert (Hi' : nth_error pds i = Some (plain d)) by (rewrite nth_error_map, Hi; reflexivity).
      assert (Hp' : nth_error (t_pds (plain d)) p = Some (ma_ann pa)) by (cbn [plain t_pds]; rewrite nth_error_map, Hp; reflexivity).
      rewrite (shown_pd _ e' i (plain d) p (ma_ann pa) v Hs' Hi' Hp' Hv), (shown_pd w e i (plain d) p (ma_ann pa) v Hsh Hi' Hp' Hv). cbn [restrict v_pd].
      rewrite (Hs d (nth_error_In _ _ Hi)). rewrite andb_true_r, andb_true_iff. tauto.
  Qed.
End Kind.

Lemma written eps fields schema ds : det_schema fields = Some schema -> one_meaning ds ->
  match add_detections eps dloader_init (map plain ds), m_add_detections eps schema mloader_init ds with
  | Some l, Some m => l_labels l = ml_labels m /\ ml_writes m = map (map (row_columns schema ds)) (l_writes l)
  | None, None => True
  | _, _ => False
  end.
Proof.
  intros _ U. assert (R := add_rel eps schema ds U ds (fun d H => H) dloader_init mloader_init). unfold same_loader in R at 1.
  specialize (R (conj eq_refl (conj eq_refl (conj eq_refl (conj eq_refl eq_refl))))).
  destruct (add_detections eps dloader_init (map plain ds)), (m_add_detections eps schema mloader_init ds); try exact R.
  destruct R as (E1 & _ & _ & _ & E2). auto.
Qed.
Lemma filter_rows fields schema ds datums gts pds tables : det_schema fields = Some schema ->
  m_filter_tables datums gts pds (map (map (row_columns schema ds)) tables)
  = map (map (row_columns schema ds))
      (det_filter_tables (fun r => datums (row_columns schema ds r)) (option_map (fun f r => f (row_columns schema ds r)) gts)
         (option_map (fun f r => f (row_columns schema ds r)) pds) tables).
Proof.
  intros H. apply filter_tables_cols. unfold det_schema, generate_schema in H. destruct (existsb _ fields); [discriminate|].
  assert (Es : schema = det_reserved ++ map fst fields) by congruence. subst schema. intros k Hk. exact (in_or_app det_reserved _ k (or_introl Hk)).
Qed.
